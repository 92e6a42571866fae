(** The witness record: sorted vectors, completed events, valid signatures. *)
From Coq Require Import Sorting.Sorted.
From Verif Require Import WitnessModel.

(** * Sorted vectors *)
Definition inc {A} (key : A -> N) (l : list A) : Prop := StronglySorted (fun x y => key x < key y) l.
Lemma has_key_true {A} (key : A -> N) k l : has_key key k l = true <-> exists x, In x l /\ key x = k.
Proof. unfold has_key. rewrite existsb_exists. split; intros (x & H1 & H2); exists x; (split; [exact H1|]); apply N.eqb_eq; exact H2. Qed.
Lemma has_idk k l : has_key idk k l = true <-> In k l.
Proof. rewrite has_key_true. split; [intros (x & H & <-); exact H|intros H; exists k; split; [exact H|reflexivity]]. Qed.
Lemma has_idk_false k l : has_key idk k l = false <-> ~ In k l.
Proof. rewrite <- not_true_iff_false, has_idk. reflexivity. Qed.
Lemma insert_key_in {A} (key : A -> N) x l y : In y (insert_key key x l) <-> y = x \/ In y l.
Proof. induction l as [|z r IH]; cbn [insert_key]; [cbn; intuition congruence|]. destruct (_ <? _); cbn [In]; [intuition congruence|]. rewrite IH. tauto. Qed.
Lemma insert_key_len {A} (key : A -> N) x l : length (insert_key key x l) = S (length l).
Proof. induction l as [|z r IH]; cbn [insert_key]; [reflexivity|]. destruct (_ <? _); cbn [length]; [reflexivity|rewrite IH; reflexivity]. Qed.
Lemma insert_key_inc {A} (key : A -> N) x l : has_key key (key x) l = false -> inc key l -> inc key (insert_key key x l).
Proof.
  unfold inc. induction l as [|z r IH]; intros Hn Hl; cbn [insert_key]; [repeat constructor|]. inversion Hl as [|? ? H1 H2]; subst.
  cbn [has_key existsb] in Hn. apply orb_false_iff in Hn. destruct Hn as [Hz Hn]. apply N.eqb_neq in Hz.
  destruct (N.ltb_spec (key x) (key z)) as [Hlt|Hge].
  - constructor; [exact Hl|]. constructor; [exact Hlt|]. eapply List.Forall_impl; [|exact H2]. intros y Hy. cbn in Hy. lia.
  - constructor; [exact (IH Hn H1)|]. apply List.Forall_forall. intros y Hy. apply insert_key_in in Hy. destruct Hy as [->|Hy]; [lia|]. rewrite List.Forall_forall in H2. exact (H2 _ Hy).
Qed.

(** * Completed events *)
Definition headle (x : N) (l : list N) : Prop := match l with [] => False | m :: _ => x <= m end.
Lemma inc_head l x m r : inc idk l -> l = m :: r -> In x l -> m <= x.
Proof. intros H -> [->|Hx]; [lia|]. inversion H as [|? ? H1 H2]; subst. rewrite List.Forall_forall in H2. specialize (H2 _ Hx). unfold idk in H2. lia. Qed.
Lemma compact_spec l : inc idk l ->
  inc idk (compact l) /\ (forall x, In x (compact l) -> In x l) /\
  (forall x, In x l -> In x (compact l) \/ ((2 <= length (compact l))%nat /\ headle x (compact l))) /\
  (forall m x, head l = Some m -> m <= x -> headle x (compact l) -> In x l) /\
  ((length l <= 2)%nat -> compact l = l) /\ ((2 <= length l)%nat -> (2 <= length (compact l))%nat) /\ (l <> [] -> compact l <> []).
Proof.
  induction l as [|a r IH]; intros Hi.
  - cbn. repeat split; try tauto; try congruence.
  - assert (Hr : inc idk r) by (inversion Hi; assumption). specialize (IH Hr). cbn [compact]. destruct r as [|b [|c q]].
    1, 2: (split; [exact Hi|]; do 2 (split; [tauto|]); split; [intros m x [= <-] Hm Hh; cbn in Hh; left; lia|]; repeat split; tauto).
    destruct (N.eqb_spec ((a + 1) mod 2 ^ 64) b) as [E|Hne].
    + assert (Hab : b = a + 1).
      { inversion Hi as [|? ? _ H2]; subst. inversion H2 as [|? ? H3 _]; subst. unfold idk in H3.
        assert ((a + 1) mod 2 ^ 64 <= a + 1) by (apply N.mod_le; discriminate). lia. }
      destruct IH as (I1 & I2 & I3 & I4 & I5 & I6 & I7). set (k := compact (b :: c :: q)) in *. clearbody k.
      assert (Hk2 : (2 <= length k)%nat) by (apply I6; cbn; lia). assert (Hk : exists m0 k', k = m0 :: k') by (destruct k as [|m0 k']; [cbn in Hk2; lia|eauto]).
      destruct Hk as (m0 & k' & ->). split; [exact I1|]. split; [intros x Hx; right; exact (I2 _ Hx)|]. split.
      { intros x [<-|Hx]; [|exact (I3 _ Hx)]. right. split; [exact Hk2|]. cbn [headle]. assert (Hm : b <= m0) by (eapply inc_head; [exact Hr|reflexivity|apply I2; now left]). lia. }
      split. { intros m x [= <-] Hm Hh. destruct (N.eq_dec a x) as [->|Hax]; [now left|]. right. apply (I4 b x eq_refl); [lia|exact Hh]. }
      split; [cbn; lia|]. split; [intros _; exact Hk2|discriminate].
    + split; [exact Hi|]. do 2 (split; [tauto|]). split; [intros m x [= <-] Hm Hh; cbn in Hh; left; lia|]. repeat split; tauto.
Qed.

(** Completing an event that is not refused keeps every completed event refused. *)
Definition kept (s : list N) (c : N) : Prop := In c s \/ ((2 <= length s)%nat /\ headle c s).
Lemma kept_refused s id : refused s id = true <-> kept (done s) id.
Proof.
  unfold refused, kept, headle. rewrite orb_true_iff, andb_true_iff, has_idk, N.ltb_lt. destruct (done s) as [|m r]; [cbn; intuition lia|].
  rewrite N.leb_le. assert (1 < N.of_nat (length (m :: r)) <-> (2 <= length (m :: r))%nat) as -> by lia. reflexivity.
Qed.
Lemma kept_dec s id : {refused s id = true} + {refused s id = false}.
Proof. destruct (refused s id); auto. Qed.
Definition fdone (l : list N) (id : N) : list N := if has_key idk id l then l else compact (insert_key idk id l).
Lemma fdone_inc l id : inc idk l -> inc idk (fdone l id).
Proof. intros H. unfold fdone. destruct (has_key idk id l) eqn:E; [exact H|]. apply compact_spec. apply insert_key_inc; assumption. Qed.
Lemma insert_head x l m r : insert_key idk x l = m :: r -> l <> [] -> m = x \/ head l = Some m.
Proof. destruct l as [|z q]; [congruence|]. cbn [insert_key]. destruct (_ <? _); intros [= <- _] _; [left; reflexivity|right; reflexivity]. Qed.
Lemma fdone_kept l id c : inc idk l -> ~ kept l id -> kept l c -> kept (fdone l id) c.
Proof.
  intros Hi Hn Hc. unfold fdone. destruct (has_key idk id l) eqn:E; [exact Hc|]. pose proof (insert_key_inc idk id l E Hi) as Hi'.
  destruct (compact_spec _ Hi') as (I1 & I2 & I3 & I4 & I5 & I6 & I7).
  assert (Hlen := insert_key_len idk id l). destruct Hc as [Hc|[H2 Hc]].
  - apply I3, insert_key_in. now right.
  - right. assert (Hk2 : (2 <= length (compact (insert_key idk id l)))%nat) by (apply I6; lia). split; [exact Hk2|].
    destruct l as [|m r]; [cbn in H2; lia|]. cbn [headle] in Hc.
    assert (Hm : m < id). { destruct (N.lt_ge_cases m id) as [H|H]; [exact H|]. exfalso. apply Hn. right. split; [exact H2|exact H]. }
    assert (Hins : insert_key idk id (m :: r) = m :: insert_key idk id r) by (cbn [insert_key]; unfold idk; destruct (N.ltb_spec id m); [lia|reflexivity]).
    rewrite Hins in *. set (k := compact (m :: insert_key idk id r)) in *. clearbody k. destruct k as [|m0 k']; [cbn in Hk2; lia|]. cbn [headle].
    assert (m <= m0) by (eapply inc_head; [exact Hi'|reflexivity|apply I2; now left]). lia.
Qed.
Lemma fdone_self l id : inc idk l -> kept (fdone l id) id.
Proof.
  intros Hi. unfold fdone. destruct (has_key idk id l) eqn:E; [left; apply has_idk, E|].
  destruct (compact_spec _ (insert_key_inc idk id l E Hi)) as (_ & _ & I3 & _). apply I3, insert_key_in. now left.
Qed.

(** What the steps leave alone. *)
(** Everything between the lowest completed event and the watermark has been completed. *)
Record filled (l : list N) (C : list N) : Prop := {
  fi_inc : inc idk l; fi_sub : forall x, In x l -> In x C; fi_ne : C <> [] -> l <> [];
  fi_all : forall c x, In c C -> c <= x -> headle x l -> In x C }.
Lemma fdone_filled l C id : filled l C -> filled (fdone l id) (id :: C).
Proof.
  intros [H1 H2 H3 H4]. pose proof (fdone_inc l id H1) as Hinc. unfold fdone in *. destruct (has_key idk id l) eqn:E.
  - apply has_idk in E. split; [exact H1|intros x Hx; right; auto|intros _; destruct l; [destruct E|discriminate]|].
    intros c x [<-|Hc] Hle Hh; right; [apply (H4 id x); auto|apply (H4 c x); auto].
  - destruct (compact_spec _ (insert_key_inc idk id l E H1)) as (I1 & I2 & I3 & I4 & I5 & I6 & I7).
    assert (Hins : forall x, In x (insert_key idk id l) -> In x (id :: C)) by (intros x Hx; apply insert_key_in in Hx; destruct Hx as [->|Hx]; [now left|right; auto]).
    split; [exact Hinc|intros x Hx; apply Hins, I2, Hx|intros _; apply I7; pose proof (insert_key_len idk id l); destruct (insert_key idk id l); [discriminate|congruence]|].
    intros c x Hc Hle Hh. destruct (insert_key idk id l) as [|m r] eqn:Eins; [pose proof (insert_key_len idk id l) as Hl; rewrite Eins in Hl; discriminate|].
    destruct (N.le_gt_cases m x) as [Hmx|Hmx]; [apply Hins, (I4 m x eq_refl Hmx Hh)|].
    assert (Hmid : m <= id) by (apply (inc_head (m :: r) id m r); [rewrite <- Eins; apply insert_key_inc; assumption|reflexivity|rewrite <- Eins; apply insert_key_in; now left]).
    destruct Hc as [<-|Hc]; [lia|]. right. apply (H4 c x Hc Hle).
    assert (Hl : l <> []) by (apply H3; intros ->; destruct Hc). destruct l as [|z q]; [congruence|]. cbn [headle].
    assert (m <= z) by (apply (inc_head (m :: r) z m r); [rewrite <- Eins; apply insert_key_inc; assumption|reflexivity|rewrite <- Eins; apply insert_key_in; right; now left]). lia.
Qed.
Lemma position_some x l i : position x l = Some i -> l !! N.to_nat i = Some x.
Proof.
  revert i. induction l as [|y r IH]; intros i; cbn [position]; [discriminate|]. destruct (N.eqb_spec y x) as [->|]; [intros [= <-]; reflexivity|].
  destruct (position x r) as [j|]; cbn; [|discriminate]. intros [= <-]. rewrite N2Nat.inj_succ. cbn. apply IH. reflexivity.
Qed.
Lemma position_in x l : In x l -> exists i, position x l = Some i.
Proof. induction l as [|y r IH]; [intros []|]. cbn [position]. destruct (N.eqb_spec y x); [eexists; reflexivity|]. intros [H|H]; [congruence|]. destruct (IH H) as [i ->]. eexists; reflexivity. Qed.
Section steps.
  Variable digest_of : chain -> N -> N -> option N.
  Variable verify : N -> N -> N -> bool.
  Notation note := (note digest_of verify). Notation process := (process digest_of verify).

  (** [note] in cases. *)
  Inductive noted (s : wrec) (w : witness) : wrec * wres -> Prop :=
  | N_err r : wok r = false -> noted s w (s, r)
  | N_unver : refused s (wevent w) = false -> metas s !! wevent w = None ->
      noted s w (set_unver s (<[wevent w := default [] (unver s !! wevent w) ++ [w]]> (unver s)), DigestUnverified)
  | N_ok c data dg i : refused s (wevent w) = false -> match seen s !! wevent w with Some l => has_key idk (wauth w) l | None => false end = false ->
      metas s !! wevent w = Some (c, data) -> digest_of c data (wauth w) = Some dg -> dg = wdigest w ->
      verify (wauth w) (wsig w) dg = true -> position (wauth w) (vals (wvals s)) = Some i ->
      noted s w (record_wit s (wevent w) i (wauth w) (wsig w), Verified).
  Lemma note_cases s w : noted s w (note s w).
  Proof.
    unfold WitnessModel.note. destruct (refused s (wevent w)) eqn:Er; [apply N_err; reflexivity|].
    destruct (match seen s !! wevent w with Some l => has_key idk (wauth w) l | None => false end) eqn:Es; [apply N_err; reflexivity|].
    destruct (metas s !! wevent w) as [[c data]|] eqn:Em.
    - destruct (digest_of c data (wauth w)) as [dg|] eqn:Ed; [|apply N_err; reflexivity]. destruct (N.eqb_spec dg (wdigest w)) as [E|]; cbn [negb]; [|apply N_err; reflexivity].
      destruct (verify (wauth w) (wsig w) dg) eqn:Ev; cbn [negb]; [|apply N_err; reflexivity]. destruct (position (wauth w) (vals (wvals s))) as [i|] eqn:Ep; [|apply N_err; reflexivity].
      eapply N_ok; eassumption.
    - pose proof (N_unver s w Er Em) as Hu. destruct (unver s !! wevent w); exact Hu.
  Qed.
  Lemma note_keeps s w : let s' := fst (note s w) in
    done s' = done s /\ metas s' = metas s /\ wvals s' = wvals s /\ xvals s' = xvals s /\
    (forall id, id <> wevent w -> wits s' !! id = wits s !! id /\ seen s' !! id = seen s !! id /\ unver s' !! id = unver s !! id).
  Proof.
    cbn zeta. destruct (note_cases s w) as [r Hr|Hr Hm|c data dg i Hr Hse Hm Hd He Hv Hp]; cbn [fst]; (do 4 (split; [reflexivity|])); intros id Hid.
    - repeat split.
    - cbn. repeat split. apply lookup_insert_ne. congruence.
    - cbn. repeat split; apply lookup_insert_ne; congruence.
  Qed.
  Lemma note_refused s w : refused s (wevent w) = true -> note s w = (s, CompletedEvent).
  Proof. intros H. unfold WitnessModel.note. rewrite H. reflexivity. Qed.
  Lemma fold_keeps l : forall s, let s' := fold_left (fun s w => fst (note s w)) l s in
    done s' = done s /\ metas s' = metas s /\ wvals s' = wvals s /\ xvals s' = xvals s.
  Proof.
    induction l as [|w l IH]; intros s; [repeat split|]. cbn [fold_left]. destruct (note_keeps s w) as (H1 & H2 & H3 & H4 & _). destruct (IH (fst (note s w))) as (I1 & I2 & I3 & I4).
    cbn zeta in *. repeat split; congruence.
  Qed.
  Lemma fold_other l id : Forall (fun w => wevent w = id) l -> forall s, let s' := fold_left (fun s w => fst (note s w)) l s in
    forall j, j <> id -> wits s' !! j = wits s !! j /\ seen s' !! j = seen s !! j /\ unver s' !! j = unver s !! j.
  Proof.
    induction l as [|w l IH]; intros Hl s; [repeat split|]. cbn [fold_left]. cbn zeta. intros j Hj. apply Forall_cons in Hl. destruct Hl as [Hw Hl].
    destruct (note_keeps s w) as (_ & _ & _ & _ & H5). destruct (H5 j ltac:(congruence)) as (A1 & A2 & A3). destruct (IH Hl (fst (note s w)) j Hj) as (B1 & B2 & B3). repeat split; congruence.
  Qed.
  Lemma process_keeps s id : done (process s id) = done s /\ metas (process s id) = metas s /\ wvals (process s id) = wvals s /\ xvals (process s id) = xvals s.
  Proof. unfold WitnessModel.process. destruct (unver s !! id); [|repeat split]. exact (fold_keeps _ _). Qed.
  Lemma note_meta_keeps s id c data : done (note_meta s id c data) = done s /\ wits (note_meta s id c data) = wits s /\ seen (note_meta s id c data) = seen s /\
    unver (note_meta s id c data) = unver s /\ wvals (note_meta s id c data) = wvals s /\ xvals (note_meta s id c data) = xvals s /\
    (forall j, metas (note_meta s id c data) !! j = if id =? j then Some (default (c, data) (metas s !! id)) else metas s !! j).
  Proof.
    unfold note_meta. destruct (metas s !! id) as [x|] eqn:E; (do 6 (split; [reflexivity|])); intros j; cbn.
    - destruct (N.eqb_spec id j) as [->|]; [rewrite E; reflexivity|reflexivity].
    - destruct (N.eqb_spec id j) as [->|]; [apply lookup_insert|apply lookup_insert_ne; assumption].
  Qed.
  Lemma refused_done s s' id : done s' = done s -> refused s' id = refused s id.
  Proof. intros H. unfold refused. rewrite H. reflexivity. Qed.

  (** * Using the record directly *)
  Notation rstep := (rstep digest_of verify).
  Lemma rstep_done s o : done (rstep s o) = match o with RComplete id => fdone (done s) id | _ => done s end.
  Proof.
    destruct o as [id|w|id c data|id|v x]; cbn [WitnessModel.rstep]; [reflexivity|apply note_keeps|apply note_meta_keeps|apply process_keeps|reflexivity].
  Qed.
  Definition completions (ops : list rop) : list N := flat_map (fun o => match o with RComplete id => [id] | _ => [] end) ops.

  (** An event is completed only while it is not refused. *)
  Definition orderly (s : wrec) (o : rop) : Prop := match o with RComplete id => refused s id = false | _ => True end.
  Lemma orderly_kept ops : forall s, along rstep orderly ops s -> inc idk (done s) ->
    inc idk (done (run rstep ops s)) /\ forall c, kept (done s) c \/ In c (completions ops) -> kept (done (run rstep ops s)) c.
  Proof.
    induction ops as [|o ops IH]; intros s Ha Hi; [split; [exact Hi|intros c [H|[]]; exact H]|]. destruct Ha as [Ho Ha]. cbn [run fold_left].
    assert (Hi' : inc idk (done (rstep s o))) by (rewrite rstep_done; destruct o; try exact Hi; apply fdone_inc, Hi).
    destruct (IH _ Ha Hi') as [R1 R2]. split; [exact R1|]. intros c Hc. apply R2. rewrite rstep_done. destruct o as [id|w|id c' data|id|v x]; cbn [completions flat_map app] in Hc; try exact Hc.
    cbn [orderly] in Ho. apply not_true_iff_false in Ho. rewrite kept_refused in Ho. destruct Hc as [Hc|[<-|Hc]]; [left; apply fdone_kept; assumption|left; apply fdone_self, Hi|right; exact Hc].
  Qed.

  Lemma run_filled ops : forall s C, filled (done s) C -> filled (done (run rstep ops s)) (rev (completions ops) ++ C).
  Proof.
    induction ops as [|o ops IH]; intros s C H; [exact H|]. cbn [run fold_left].
    assert (H' : filled (done (rstep s o)) (match o with RComplete id => [id] | _ => [] end ++ C)) by (rewrite rstep_done; destruct o; [apply fdone_filled, H|exact H..]).
    specialize (IH _ _ H'). unfold run in IH. replace (rev (completions (o :: ops)) ++ C) with (rev (completions ops) ++ match o with RComplete id => [id] | _ => [] end ++ C); [exact IH|].
    cbn [completions flat_map]. rewrite rev_app_distr, <- app_assoc. destruct o; reflexivity.
  Qed.

  (** * Valid signatures *)
  Section fixed.
    Variables (V X : vset).
    (** [l] is ordered by validator index, without duplicates, and holds valid signatures over the event's data, taken from the witnesses [W]. *)
    Definition sig_ok (W : list witness) (id : N) (c : chain) (data : N) (p : N * N) : Prop :=
      exists a dg, position a (vals V) = Some (fst p) /\ digest_of c data a = Some dg /\ verify a (snd p) dg = true /\ In (Wit dg id a (snd p)) W.
    Definition sigs_ok (W : list witness) (id : N) (c : chain) (data : N) (l : list (N * N)) : Prop := inc fst l /\ Forall (sig_ok W id c data) l.
    Record SI (W : list witness) (s : wrec) : Prop := {
      si_v : wvals s = V; si_x : xvals s = X;
      si_w : forall id l, wits s !! id = Some l -> exists c data, metas s !! id = Some (c, data) /\ sigs_ok W id c data l;
      si_u : forall id l, unver s !! id = Some l -> Forall (fun w => wevent w = id /\ In w W) l }.
    Lemma sigs_mono W W' id c data l : (forall w, In w W -> In w W') -> sigs_ok W id c data l -> sigs_ok W' id c data l.
    Proof. intros Hw [H1 H2]. split; [exact H1|]. eapply Forall_impl; [exact H2|]. intros p (a & dg & P1 & P2 & P3 & P4). exists a, dg. auto. Qed.
    Lemma SI_mono W W' s : (forall w, In w W -> In w W') -> SI W s -> SI W' s.
    Proof.
      intros Hw [H1 H2 H3 H4]. split; try assumption.
      - intros id l Hl. destruct (H3 _ _ Hl) as (c & data & Hm & Ho). exists c, data. split; [exact Hm|exact (sigs_mono _ _ _ _ _ _ Hw Ho)].
      - intros id l Hl. eapply Forall_impl; [exact (H4 _ _ Hl)|]. intros w [A B]. auto.
    Qed.
    Lemma record_ok W id c data l i sg : sig_ok W id c data (i, sg) -> match l with Some l => sigs_ok W id c data l | None => True end ->
      sigs_ok W id c data match l with Some l => if has_key fst i l then l else insert_key fst (i, sg) l | None => [(i, sg)] end.
    Proof.
      intros Hp Hl. destruct l as [l|]; [|split; [repeat constructor|constructor; [exact Hp|constructor]]]. destruct (has_key fst i l) eqn:E; [exact Hl|]. destruct Hl as [H1 H2].
      split; [apply insert_key_inc; [exact E|exact H1]|]. apply List.Forall_forall. intros y Hy. apply insert_key_in in Hy. destruct Hy as [->|Hy]; [exact Hp|]. rewrite List.Forall_forall in H2. exact (H2 _ Hy).
    Qed.
    Lemma note_SI W s w : In w W -> SI W s -> SI W (fst (note s w)).
    Proof.
      intros Hw [H1 H2 H3 H4]. destruct (note_cases s w) as [r Hr|Hr Hm|c data dg i Hr Hse Hm Hd He Hv Hp]; cbn [fst].
      - split; assumption.
      - split; try assumption. intros id l. cbn. rewrite lookup_insert_Some. intros [[<- <-]|[_ Hl]]; [|exact (H4 _ _ Hl)].
        apply Forall_app. split; [|constructor; [auto|constructor]]. destruct (unver s !! wevent w) eqn:E; cbn [default]; [exact (H4 _ _ E)|constructor].
      - split; try assumption. intros id l. cbn. rewrite lookup_insert_Some. intros [[<- <-]|[_ Hl]]; [|exact (H3 _ _ Hl)].
        exists c, data. split; [exact Hm|]. apply record_ok.
        + exists (wauth w), dg. rewrite H1 in Hp. cbn [fst snd]. do 3 (split; [assumption|]). subst dg. destruct w. exact Hw.
        + destruct (wits s !! wevent w) as [l|] eqn:El; [|exact I]. destruct (H3 _ _ El) as (c' & data' & Hm' & Ho). rewrite Hm in Hm'. injection Hm' as <- <-. exact Ho.
    Qed.
    Lemma fold_SI W l : forall s, Forall (fun w => In w W) l -> SI W s -> SI W (fold_left (fun s w => fst (note s w)) l s).
    Proof. induction l as [|w l IH]; intros s Hl Hs; [exact Hs|]. apply Forall_cons in Hl. destruct Hl. cbn [fold_left]. apply IH; [assumption|]. apply note_SI; assumption. Qed.
    Lemma process_SI W s id : SI W s -> SI W (process s id).
    Proof.
      intros Hs. unfold WitnessModel.process. destruct (unver s !! id) as [l|] eqn:E; [|exact Hs]. apply fold_SI.
      - eapply Forall_impl; [exact (si_u _ _ Hs _ _ E)|]. intros w [_ H]. exact H.
      - destruct Hs as [H1 H2 H3 H4]. split; try assumption. intros j q. cbn. rewrite lookup_delete_Some. intros [_ Hq]. exact (H4 _ _ Hq).
    Qed.
    Lemma meta_SI W s id c data : SI W s -> SI W (note_meta s id c data).
    Proof.
      intros [H1 H2 H3 H4]. destruct (note_meta_keeps s id c data) as (E1 & E2 & E3 & E4 & E5 & E6 & E7). split; rewrite ?E5, ?E6, ?E2, ?E4; try assumption.
      intros j l Hl. destruct (H3 _ _ Hl) as (c' & data' & Hm & Ho). exists c', data'. split; [|exact Ho]. rewrite E7. destruct (N.eqb_spec id j) as [->|]; [rewrite Hm; reflexivity|exact Hm].
    Qed.
    Lemma mark_SI W s id : SI W s -> SI W (mark_complete s id).
    Proof.
      intros [H1 H2 H3 H4]. split; try assumption; intros j l; cbn; rewrite lookup_delete_Some; intros [Hj Hl].
      - destruct (H3 _ _ Hl) as (c & data & Hm & Ho). exists c, data. split; [rewrite lookup_delete_ne by exact Hj; exact Hm|exact Ho].
      - exact (H4 _ _ Hl).
    Qed.
    Definition noted_in (ops : list rop) : list witness := flat_map (fun o => match o with RNote w => [w] | _ => [] end) ops.
    Definition no_set (o : rop) : Prop := match o with RSet _ _ => False | _ => True end.
    Lemma run_SI ops : forall s W, Forall no_set ops -> SI W s -> SI (W ++ noted_in ops) (run rstep ops s).
    Proof.
      induction ops as [|o ops IH]; intros s W Ho Hs; [rewrite app_nil_r; exact Hs|]. apply Forall_cons in Ho. destruct Ho as [Ho Hops]. cbn [run fold_left].
      assert (Hs' : SI (W ++ match o with RNote w => [w] | _ => [] end) (rstep s o)).
      { assert (Hm : SI (W ++ match o with RNote w => [w] | _ => [] end) s) by (eapply SI_mono; [|exact Hs]; intros w Hw; apply in_or_app; now left).
        destruct o as [id|w|id c data|id|v x]; cbn [WitnessModel.rstep]; [apply mark_SI, Hm|apply note_SI; [apply in_or_app; right; now left|exact Hm]|apply meta_SI, Hm|apply process_SI, Hm|destruct Ho]. }
      specialize (IH _ _ Hops Hs'). unfold run in IH. cbn [noted_in flat_map]. rewrite app_assoc. destruct o; exact IH.
    Qed.
    Lemma SI_init W : SI W (wrec0 V X).
    Proof. split; try reflexivity; intros id l; cbn; rewrite lookup_empty; discriminate. Qed.

    (** From a count to distinct validators. *)
    Definition valid_for (W : list witness) (id : N) (c : chain) (data a : N) : Prop :=
      In a (vals V) /\ exists sg dg, digest_of c data a = Some dg /\ verify a sg dg = true /\ In (Wit dg id a sg) W.
    Lemma sigs_distinct W id c data l (f : N -> bool) : sigs_ok W id c data l -> exists A, NoDup A /\ length A = length (List.filter (fun x => f (fst x)) l) /\
      Forall (fun a => valid_for W id c data a /\ exists i, position a (vals V) = Some i /\ f i = true /\ exists sg, In (i, sg) l) A.
    Proof.
      intros [H1 H2]. induction l as [|[i sg] l IH]; [exists []; repeat split; constructor|]. inversion H1 as [|? ? H3 H4]; subst. apply Forall_cons in H2. destruct H2 as [Hp H2].
      destruct (IH H3 H2) as (A & A1 & A2 & A3). assert (Hw : Forall (fun a => valid_for W id c data a /\ exists j, position a (vals V) = Some j /\ f j = true /\ exists sg', In (j, sg') ((i, sg) :: l)) A).
      { eapply Forall_impl; [exact A3|]. intros a [B1 (j & B2 & B3 & s' & B4)]. split; [exact B1|]. exists j. do 2 (split; [assumption|]). exists s'. now right. }
      cbn [List.filter fst]. destruct (f i) eqn:Ef; [|exists A; auto]. destruct Hp as (a & dg & P1 & P2 & P3 & P4). cbn [fst snd] in *.
      exists (a :: A). split; [|split; [cbn [length]; rewrite A2; reflexivity|]].
      - apply NoDup_cons. split; [|exact A1]. intros Ha. rewrite Forall_forall in A3. destruct (A3 a Ha) as [_ (j & B2 & _ & s' & B4)].
        rewrite P1 in B2. injection B2 as <-. rewrite List.Forall_forall in H4. specialize (H4 _ B4). cbn in H4. lia.
      - constructor; [|exact Hw]. split.
        + split; [apply position_some in P1; eapply elem_of_list_In, elem_of_list_lookup_2; exact P1|]. exists sg, dg. auto.
        + exists i. do 2 (split; [assumption|]). exists sg. now left.
    Qed.
  End fixed.
End steps.
