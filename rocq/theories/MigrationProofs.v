(** Lemmas about multi-block migrations. *)
From Verif Require Export MigrationModel.

(** ** A migration in one go: a number of steps one after the other; the last key, or none if it has finished *)
Fixpoint ideal {D} (m : migration D) (n : nat) (d : D) (k : option key) : D * option (option key) :=
  match n with
  | O => (d, Some k)
  | S n' => match mg_step D m d k with (d', (_, None)) => (d', None) | (d', (_, Some k')) => ideal m n' d' (Some k') end
  end.
Lemma ideal_app {D} (m : migration D) a b d k d' k' : ideal m a d k = (d', Some k') -> ideal m (a + b) d k = ideal m b d' k'.
Proof.
  revert d k. induction a as [|a IH]; intros d k H; [injection H as -> ->; reflexivity|]. cbn [ideal Nat.add] in *.
  destruct (mg_step D m d k) as [d1 [w [k1|]]]; [apply IH, H|discriminate].
Qed.
Lemma ideal_done {D} (m : migration D) a b d k d' : ideal m a d k = (d', None) -> ideal m (a + b) d k = (d', None).
Proof.
  revert d k. induction a as [|a IH]; intros d k H; [discriminate|]. cbn [ideal Nat.add] in *.
  destruct (mg_step D m d k) as [d1 [w [k1|]]]; [apply IH, H|exact H].
Qed.
Lemma ideal_prefix {D} (m : migration D) a b d k d' : ideal m a d k = (d', None) -> (a <= b)%nat -> ideal m b d k = (d', None).
Proof. intros H L. replace b with (a + (b - a))%nat by lia. apply ideal_done, H. Qed.

Definition wle (a b : weight) : Prop := fst a <= fst b /\ snd a <= snd b.
Section proofs.
  Variable D : Type.
  Variables max_weight base : weight.
  Variable reads : N -> weight.
  Notation mst := (mst D).
  Notation migration := (migration D).
  Notation mloop := (mloop D).
  Notation migrate := (migrate D max_weight base reads).
  Notation mstep := (mstep D max_weight base reads).

  Lemma mloop_spec (m : migration) limit fuel d k used n : exists j,
    (j <= fuel)%nat /\ (fst (fst (fst (mloop m limit fuel d k used n))), snd (mloop m limit fuel d k used n)) = ideal m j d k /\
    snd (fst (mloop m limit fuel d k used n)) = n + N.of_nat j /\
    (forall i, (i < j)%nat -> snd (ideal m i d k) <> None) /\
    ((0 < fuel)%nat -> wlt used limit = true -> (0 < j)%nat).
  Proof.
    revert d k used n. induction fuel as [|fuel IH]; intros d k used n; cbn [MigrationModel.mloop].
    { exists 0%nat. cbn. repeat split; try lia. }
    destruct (wlt used limit) eqn:E; [|exists 0%nat; cbn; repeat split; try lia; discriminate].
    destruct (mg_step D m d k) as [d1 [w [k1|]]] eqn:Es; cbn [fst snd].
    - destruct (IH d1 (Some k1) (wadd used w) (n + 1)) as (j & J1 & J2 & J3 & J4 & _). exists (S j). split; [lia|]. split; [cbn [ideal]; rewrite Es; exact J2|].
      split; [lia|]. split; [|lia]. intros [|i] Hi; [discriminate|]. cbn [ideal]. rewrite Es. apply J4. lia.
    - exists 1%nat. cbn [ideal]. rewrite Es. split; [lia|]. split; [reflexivity|]. split; [lia|]. split; [|lia]. intros [|i] Hi; [discriminate|lia].
  Qed.
  (** Weight used by the loop, if every step keeps to its maximum. *)
  Lemma mloop_weight (m : migration) limit fuel d k used n : (forall d k, wle (fst (snd (mg_step D m d k))) (mg_max D m)) ->
    let u := snd (fst (fst (mloop m limit fuel d k used n))) in
    (u = used \/ (fst u <= fst limit + fst (mg_max D m) /\ snd u <= snd limit + snd (mg_max D m))) /\
    fst u <= fst used + N.of_nat fuel * fst (mg_max D m) /\ snd u <= snd used + N.of_nat fuel * snd (mg_max D m).
  Proof.
    intros Hm. set (x := fst (mg_max D m)) in *. set (y := snd (mg_max D m)) in *.
    revert d k used n. induction fuel as [|fuel IH]; intros d k used n; cbn [MigrationModel.mloop]; cbv zeta.
    { cbn [fst snd]. split; [left; reflexivity|lia]. }
    rewrite Nat2N.inj_succ, !N.mul_succ_l. set (fx := N.of_nat fuel * x) in *. set (fy := N.of_nat fuel * y) in *.
    destruct (wlt used limit) eqn:E; [|cbn [fst snd]; split; [left; reflexivity|lia]].
    pose proof (Hm d k) as [M1 M2]. fold x in M1. fold y in M2. clearbody x y fx fy. unfold wlt in E. rewrite andb_true_iff, !N.ltb_lt in E.
    destruct (mg_step D m d k) as [d1 [w [k1|]]] eqn:Es; cbn [fst snd] in *.
    - specialize (IH d1 (Some k1) (wadd used w) (n + 1)). cbv zeta in IH.
      set (u := snd (fst (fst (mloop m limit fuel d1 (Some k1) (wadd used w) (n + 1))))) in *. clearbody u. destruct IH as [A B]. unfold wadd, sat in B. cbn [fst snd] in B.
      split; [|lia]. destruct A as [A|A]; [|right; exact A]. right. rewrite A. unfold wadd, sat. cbn [fst snd]. lia.
    - unfold wadd, sat. cbn [fst snd]. split; [right; lia|lia].
  Qed.

  (** A block in which something is migrated. *)
  Definition ready (s : mst) (block : N) (rem : weight) : bool :=
    in_progress D s && m_on D s && match m_delay D s with Some d => block mod d =? 0 | None => true end &&
    (0 <? m_limit D s) && wlt base (wmin rem max_weight) && negb (wlt (wmin rem max_weight) (wadd base (mg_max D (m_cur D s)))).
  (** What [on_idle] does: nothing, or some steps from where the last ones ended. *)
  Inductive block_effect (ready : bool) (s s' : mst) : Prop :=
  | be_same : ready = false -> s' = s -> block_effect ready s s'
  | be_some prev j d k : m_status D s = MProgress prev -> m_on D s = true -> (j <= N.to_nat (m_limit D s))%nat ->
      ideal (m_cur D s) j (m_data D s) (m_key D s) = (d, Some k) ->
      s' = MSt D d (m_on D s) (MProgress (sat U32MAX (prev + N.of_nat j))) k (m_delay D s) (m_limit D s) (m_cur D s) (m_starts D s) (m_ends D s) ->
      (ready = true -> (0 < j)%nat) -> block_effect ready s s'
  | be_end prev j d : m_status D s = MProgress prev -> m_on D s = true -> (j <= N.to_nat (m_limit D s))%nat ->
      ideal (m_cur D s) j (m_data D s) (m_key D s) = (d, None) -> (forall i, (i < j)%nat -> snd (ideal (m_cur D s) i (m_data D s) (m_key D s)) <> None) ->
      s' = MSt D (mg_done D (m_cur D s) d) (m_on D s) MCompleted None (m_delay D s) (m_limit D s) (m_cur D s) (m_starts D s) (m_ends D s ++ [sat U32MAX (prev + N.of_nat j)]) ->
      block_effect ready s s'.
  Lemma migrate_effect s block rem : block_effect (ready s block rem) s (fst (migrate s block rem)).
  Proof.
    unfold MigrationModel.migrate, ready, in_progress. cbv zeta.
    destruct (wlt _ (wadd base _)); [apply be_same; [rewrite andb_false_r|]; reflexivity|].
    destruct (m_status D s) as [|prev|] eqn:Es; try (apply be_same; reflexivity).
    destruct (m_on D s) eqn:Eo; cbn [negb andb]; [|apply be_same; reflexivity].
    assert (Hd : match m_delay D s with Some d => negb (block mod d =? 0) | None => false end =
      negb match m_delay D s with Some d => block mod d =? 0 | None => true end) by (destruct (m_delay D s); reflexivity).
    rewrite Hd. set (go := match m_delay D s with Some d => block mod d =? 0 | None => true end). clearbody go. clear Hd.
    destruct go; cbn [negb andb]; [|apply be_same; reflexivity].
    destruct (mloop_spec (m_cur D s) (wmin rem max_weight) (N.to_nat (m_limit D s)) (m_data D s) (m_key D s) base 0) as (j & J1 & J2 & J3 & J4 & J5).
    destruct (mloop (m_cur D s) (wmin rem max_weight) (N.to_nat (m_limit D s)) (m_data D s) (m_key D s) base 0) as [[[d u] n] k]. cbn [fst snd] in *.
    subst n. rewrite N.add_0_l. destruct k as [k|]; cbn [fst].
    - refine (be_some _ _ _ prev j d k Es Eo J1 (eq_sym J2) _ _). { rewrite Eo. reflexivity. }
      rewrite andb_true_r, andb_true_iff, N.ltb_lt. intros [X Y]. apply J5; [lia|exact Y].
    - refine (be_end _ _ _ prev j d Es Eo J1 (eq_sym J2) J4 _). rewrite Eo. reflexivity.
  Qed.
  Lemma limit_pos ops d : 0 < m_limit D (run mstep ops (minit D d)).
  Proof.
    apply (run_inv mstep (fun s => 0 < m_limit D s)); [|cbn; lia]. intros s o H.
    destruct o as [b r|root on|root dl|root l|m|f]; cbn [MigrationModel.mstep].
    - destruct (migrate_effect s b r) as [_ ->|prev j d' k _ _ _ _ -> _|prev j d' _ _ _ _ _ ->]; exact H.
    - unfold enable. destruct root; exact H.
    - unfold set_delay. destruct root; [|exact H]. cbn. destruct (match dl with Some d => 1 <? d | None => true end); exact H.
    - unfold set_limit. destruct root; [|exact H]. cbn. destruct (N.ltb_spec 0 l); cbn; assumption.
    - unfold upgrade. destruct (mg_ok D m (m_data D s)); [exact H|]. destruct (in_progress D s); exact H.
    - exact H.
  Qed.
End proofs.
