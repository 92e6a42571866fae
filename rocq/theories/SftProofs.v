(** Lemmas about semi-fungible tokens. *)
From Verif Require Export SftModel.

Definition tot (b : bal2) : N := fst b + snd b.
Definition sum_own (l : list (N * bal2)) : N := sumL (map (fun e => tot (snd e)) l).
Definition balof (l : list (N * bal2)) (who : N) : bal2 :=
  match find_bal l who with Some b => b | None => (0, 0) end.
Definition tok_ok (t : sft) : Prop :=
  NoDup (map fst (t_own t)) /\ sum_own (t_own t) = t_iss t /\ t_iss t <= U128MAX /\
  (forall m, t_max t = Some m -> t_iss t <= m).
Definition SOk (s : sstate) : Prop := forall k t, stoks s !! k = Some t -> tok_ok t.

Lemma sum_own_cons a b l : sum_own ((a, b) :: l) = tot b + sum_own l.
Proof. reflexivity. Qed.
Lemma sum_own_app l l' : sum_own (l ++ l') = sum_own l + sum_own l'.
Proof. induction l as [|[a b] l IH]; [reflexivity|]. cbn [app]. rewrite !sum_own_cons, IH. lia. Qed.
Lemma find_in l who b : find_bal l who = Some b -> who ∈ map fst l.
Proof.
  induction l as [|[a x] l IH]; cbn; [discriminate|]. destruct (N.eqb_spec a who) as [->|]; [left|right; auto].
Qed.
Lemma find_none l who : find_bal l who = None <-> who ∉ map fst l.
Proof.
  induction l as [|[a x] l IH]; cbn; [split; [intros _ H; inversion H|reflexivity]|]. rewrite elem_of_cons.
  destruct (N.eqb_spec a who) as [->|]; [split; [discriminate|tauto]|]. rewrite IH. intuition congruence.
Qed.
Lemma set_fst l who b : map fst (set_bal l who b) = map fst l.
Proof. induction l as [|[a x] l IH]; cbn; [reflexivity|]. destruct (a =? who); cbn; congruence. Qed.
Lemma find_set l who b b0 y : find_bal l who = Some b0 ->
  find_bal (set_bal l who b) y = if y =? who then Some b else find_bal l y.
Proof.
  induction l as [|[a x] l IH]; cbn; [discriminate|]. destruct (N.eqb_spec a who) as [->|Hne]; cbn.
  - intros _. rewrite (N.eqb_sym who y). destruct (y =? who); reflexivity.
  - intros Hf. rewrite (IH Hf). destruct (N.eqb_spec a y) as [->|]; [|reflexivity].
    destruct (N.eqb_spec y who); [congruence|reflexivity].
Qed.
Lemma sum_set l who b b0 : find_bal l who = Some b0 -> sum_own (set_bal l who b) + tot b0 = sum_own l + tot b.
Proof.
  induction l as [|[a x] l IH]; cbn [find_bal set_bal]; [discriminate|]. destruct (a =? who).
  - intros [= <-]. rewrite !sum_own_cons. lia.
  - intros Hf. specialize (IH Hf). rewrite !sum_own_cons. lia.
Qed.
Lemma bal_le_sum l who : tot (balof l who) <= sum_own l.
Proof.
  unfold balof. induction l as [|[a x] l IH]; cbn [find_bal]; [apply N.le_refl|]. rewrite sum_own_cons.
  destruct (a =? who); lia.
Qed.
Notation others who := (List.filter (fun e : N * bal2 => negb (fst e =? who))).
Lemma others_find l who y : find_bal (others who l) y = if y =? who then None else find_bal l y.
Proof.
  induction l as [|[a x] l IH]; cbn; [destruct (y =? who); reflexivity|].
  destruct (N.eqb_spec a who) as [E|E]; cbn; rewrite IH;
    destruct (N.eqb_spec y who) as [E1|E1], (N.eqb_spec a y) as [E2|E2]; congruence || reflexivity.
Qed.
Lemma others_sum l who : NoDup (map fst l) -> sum_own (others who l) + tot (balof l who) = sum_own l.
Proof.
  unfold balof. induction l as [|[a x] l IH]; cbn [map fst List.filter find_bal]; intros Hnd; [reflexivity|].
  apply NoDup_cons in Hnd. destruct Hnd as [Hni Hnd]. specialize (IH Hnd).
  destruct (N.eqb_spec a who) as [->|Hne]; cbn [negb].
  - rewrite sum_own_cons. apply find_none in Hni. rewrite Hni in IH. change (tot (0, 0)) with 0 in IH. lia.
  - rewrite !sum_own_cons. lia.
Qed.
Lemma others_nodup l who : NoDup (map fst l) -> NoDup (map fst (others who l)).
Proof.
  induction l as [|[a x] l IH]; cbn; intros Hnd; [constructor|]. apply NoDup_cons in Hnd. destruct Hnd as [Hni Hnd].
  destruct (a =? who); cbn; [auto|]. constructor; [|auto]. intros Hin. apply Hni.
  apply elem_of_list_In, in_map_iff in Hin. destruct Hin as (e & He & Hin). apply List.filter_In in Hin.
  apply elem_of_list_In, in_map_iff. exists e. tauto.
Qed.

Section proofs.
  Variable max_owners max_serials : N.

  Lemma balof_upd l who b b0 y : find_bal l who = Some b0 -> balof (set_bal l who b) y = if y =? who then b else balof l y.
  Proof. intros Hf. unfold balof. rewrite (find_set l who b b0 y Hf). destruct (y =? who); reflexivity. Qed.

  (** Effect on one token: owners stay distinct, the sum changes by the stated amount, and
      balances change as stated. *)
  Lemma add_spec t who x t' : NoDup (map fst (t_own t)) -> add_balance max_owners t who x = Ok t' ->
    t_max t' = t_max t /\ t_iss t' = t_iss t /\ NoDup (map fst (t_own t')) /\ sum_own (t_own t') = sum_own (t_own t) + x /\
    forall y, balof (t_own t') y = if y =? who then (fst (balof (t_own t) y) + x, snd (balof (t_own t) y)) else balof (t_own t) y.
  Proof.
    intros Hnd E. unfold add_balance in E. destruct (find_bal (t_own t) who) as [b|] eqn:Ef.
    - inv_ok. match goal with H : add_free b x = Ok _ |- _ => unfold add_free in H; inv_ok end. subst. cbn [t_max t_iss t_own].
      split; [reflexivity|]. split; [reflexivity|]. split; [rewrite set_fst; exact Hnd|]. split.
      + match goal with |- context [set_bal _ _ ?b'] => pose proof (sum_set (t_own t) who b' b Ef) as Hs end. unfold tot in Hs. cbn in Hs. lia.
      + intros y. rewrite (balof_upd _ _ _ _ y Ef). destruct (N.eqb_spec y who) as [Eyw|]; [rewrite ?Eyw|reflexivity].
        unfold balof. rewrite Ef. cbn. f_equal; lia.
    - inv_ok. subst t'. cbn [t_max t_iss t_own]. split; [reflexivity|]. split; [reflexivity|].
      pose proof (proj1 (find_none _ _) Ef) as Hni. split; [|split].
      + rewrite map_app. cbn. apply NoDup_app. split; [exact Hnd|]. split; [|apply NoDup_singleton].
        intros z Hz Hz'. apply elem_of_list_singleton in Hz'. subst. contradiction.
      + rewrite sum_own_app. unfold sum_own at 2, sumL, tot. cbn. lia.
      + intros y. unfold balof. assert (Happ : forall l, find_bal (l ++ [(who, (x, 0))]) y = match find_bal l y with Some b => Some b | None => if who =? y then Some (x, 0) else None end).
        { induction l as [|[a b] l IH]; cbn; [reflexivity|]. destruct (a =? y); [reflexivity|exact IH]. }
        rewrite Happ. destruct (N.eqb_spec y who) as [->|Hne].
        * rewrite Ef, N.eqb_refl. cbn. reflexivity.
        * destruct (find_bal (t_own t) y); [reflexivity|]. destruct (N.eqb_spec who y); [congruence|reflexivity].
  Qed.
  Lemma remove_spec t who x t' : tok_ok t -> remove_balance t who x = Ok t' ->
    t_max t' = t_max t /\ t_iss t' = t_iss t /\ NoDup (map fst (t_own t')) /\ sum_own (t_own t') + x = sum_own (t_own t) /\
    x <= fst (balof (t_own t) who) /\
    forall y, balof (t_own t') y = if y =? who then (fst (balof (t_own t) y) - x, snd (balof (t_own t) y)) else balof (t_own t) y.
  Proof.
    intros (Hnd & Hsum & Hiss & _) E. unfold remove_balance in E. inv_ok. rename v into b. subst t'.
    match goal with H : find_bal _ _ = Some b |- _ => rename H into Ef end.
    match goal with H : remove_free b x = Ok _ |- _ => unfold remove_free in H; inv_ok end. subst. cbn [t_max t_iss t_own fst snd].
    set (b' := (fst b - x, snd b)). set (l := set_bal (t_own t) who b').
    assert (Hb : balof (t_own t) who = b) by (unfold balof; rewrite Ef; reflexivity).
    pose proof (bal_le_sum (t_own t) who) as Hle. rewrite Hb in Hle.
    assert (Hl : NoDup (map fst l)) by (unfold l; rewrite set_fst; exact Hnd).
    assert (Hs : sum_own l + x = sum_own (t_own t)).
    { pose proof (sum_set (t_own t) who b' b Ef) as Hs. fold l in Hs. unfold tot, b' in Hs, Hle. cbn in Hs, Hle. lia. }
    assert (Hbal : forall y, balof l y = if y =? who then b' else balof (t_own t) y) by (intros y; apply (balof_upd _ _ _ b); exact Ef).
    split; [reflexivity|]. split; [reflexivity|].
    destruct (total_bal b' =? 0) eqn:Ez.
    - assert (Hz : tot b' = 0).
      { apply N.eqb_eq in Ez. unfold total_bal in Ez. rewrite N.mod_small in Ez; [exact Ez|].
        unfold tot in *. cbn [b' fst snd]. rewrite Hsum in Hle. unfold U128MAX in Hiss. lia. }
      split; [apply others_nodup; exact Hl|]. split; [|split].
      + pose proof (others_sum l who Hl) as Ho. rewrite Hbal, N.eqb_refl, Hz in Ho. lia.
      + rewrite Hb. lia.
      + intros y. unfold balof. rewrite others_find. specialize (Hbal y). destruct (N.eqb_spec y who) as [Eyw|]; [rewrite ?Eyw|].
        * cbn. fold (balof (t_own t) who). rewrite Hb. unfold tot, b' in Hz. cbn in Hz. f_equal; lia.
        * exact Hbal.
    - split; [exact Hl|]. split; [exact Hs|]. split; [rewrite Hb; lia|]. intros y. rewrite Hbal.
      destruct (N.eqb_spec y who) as [Eyw|]; [rewrite Eyw, Hb; reflexivity|reflexivity].
  Qed.
  Lemma reserve_spec t who x t' : tok_ok t -> reserve_balance t who x = Ok t' ->
    t_max t' = t_max t /\ t_iss t' = t_iss t /\ NoDup (map fst (t_own t')) /\ sum_own (t_own t') = sum_own (t_own t) /\
    x <= fst (balof (t_own t) who) /\
    forall y, balof (t_own t') y = if y =? who then (fst (balof (t_own t) y) - x, snd (balof (t_own t) y) + x) else balof (t_own t) y.
  Proof.
    intros (Hnd & Hsum & Hiss & _) E. unfold reserve_balance in E. inv_ok. rename v into b. subst t'.
    match goal with H : find_bal _ _ = Some b |- _ => rename H into Ef end.
    match goal with H : place_reserve b x = Ok _ |- _ => unfold place_reserve in H; inv_ok end.
    match goal with H : remove_free b x = Ok _ |- _ => unfold remove_free in H; inv_ok end. subst. cbn [t_max t_iss t_own fst snd] in *.
    assert (Hb : balof (t_own t) who = b) by (unfold balof; rewrite Ef; reflexivity).
    split; [reflexivity|]. split; [reflexivity|]. split; [rewrite set_fst; exact Hnd|]. split; [|split].
    - match goal with |- context [set_bal _ _ ?b'] => pose proof (sum_set (t_own t) who b' b Ef) as Hs end. unfold tot in Hs. cbn in Hs. lia.
    - rewrite Hb. lia.
    - intros y. rewrite (balof_upd _ _ _ b y Ef). destruct (N.eqb_spec y who) as [Eyw|]; [rewrite ?Eyw|reflexivity]. rewrite Hb. f_equal; lia.
  Qed.
  Lemma free_spec t who x t' : tok_ok t -> free_reserved t who x = Ok t' ->
    t_max t' = t_max t /\ t_iss t' = t_iss t /\ NoDup (map fst (t_own t')) /\ sum_own (t_own t') = sum_own (t_own t) /\
    x <= snd (balof (t_own t) who) /\
    forall y, balof (t_own t') y = if y =? who then (fst (balof (t_own t) y) + x, snd (balof (t_own t) y) - x) else balof (t_own t) y.
  Proof.
    intros (Hnd & Hsum & Hiss & _) E. unfold free_reserved in E. inv_ok. rename v into b. subst t'.
    match goal with H : find_bal _ _ = Some b |- _ => rename H into Ef end.
    match goal with H : remove_reserve b x = Ok _ |- _ => unfold remove_reserve, add_free in H; inv_ok end.
    subst. cbn [t_max t_iss t_own fst snd] in *.
    assert (Hb : balof (t_own t) who = b) by (unfold balof; rewrite Ef; reflexivity).
    split; [reflexivity|]. split; [reflexivity|]. split; [rewrite set_fst; exact Hnd|]. split; [|split].
    - match goal with |- context [set_bal _ _ ?b'] => pose proof (sum_set (t_own t) who b' b Ef) as Hs end. unfold tot in Hs. cbn in Hs. lia.
    - rewrite Hb. lia.
    - intros y. rewrite (balof_upd _ _ _ b y Ef). destruct (N.eqb_spec y who) as [Eyw|]; [rewrite ?Eyw|reflexivity]. rewrite Hb. f_equal; lia.
  Qed.

  (** ** States *)
  Definition sbal (s : sstate) (c n y : N) : bal2 := match stoks s !! (c, n) with Some t => balof (t_own t) y | None => (0, 0) end.
  Lemma put_SOk s k t : SOk s -> tok_ok t -> SOk (put_tok s k t).
  Proof.
    intros Hs Ht k' t' H. unfold put_tok in H. cbn [stoks] in H. destruct (decide (k = k')) as [->|Hne].
    - rewrite lookup_insert in H. injection H as <-. exact Ht.
    - rewrite lookup_insert_ne in H by exact Hne. eapply Hs; exact H.
  Qed.
  Lemma put_sbal s c n t d m y : sbal (put_tok s (c, n) t) d m y = if decide (d = c /\ m = n) then balof (t_own t) y else sbal s d m y.
  Proof.
    unfold sbal, put_tok. cbn [stoks]. destruct (decide (d = c /\ m = n)) as [[-> ->]|Hne].
    - rewrite lookup_insert. reflexivity.
    - rewrite lookup_insert_ne; [reflexivity|]. intros [= -> ->]. tauto.
  Qed.

  (** Total quantity listed for serial [n]. *)
  Definition qty (n : N) (l : list (N * N)) : N := sumL (map snd (List.filter (fun e => fst e =? n) l)).
  Lemma qty_cons n m q l : qty n ((m, q) :: l) = (if m =? n then q else 0) + qty n l.
  Proof. unfold qty. cbn [List.filter fst]. destruct (m =? n); [reflexivity|lia]. Qed.

  Lemma each_ind (f : sstate -> N * N -> result sstate) (P : list (N * N) -> sstate -> sstate -> Prop) :
    (forall s, P [] s s) ->
    (forall e l s s1 s2, f s e = Ok s1 -> each f l s1 = Ok s2 -> P l s1 s2 -> P (e :: l) s s2) ->
    forall l s s', each f l s = Ok s' -> P l s s'.
  Proof.
    intros H0 Hs l. induction l as [|e l IH]; intros s s' E; cbn [each] in E; [injection E as <-; apply H0|].
    destruct (f s e) as [s1|] eqn:E1; [|discriminate]. cbn [rbind] in E. eapply Hs; [exact E1|exact E|]. apply IH. exact E.
  Qed.
  Ltac each_induction :=
    match goal with |- forall l s s', each ?f l s = Ok s' -> @?G l s s' =>
      let G' := eval cbv beta in G in apply (each_ind f G) end; cbv beta.
  Lemma transfer_one_spec s c who to n q s' : SOk s -> who <> to -> transfer_one max_owners s c who to (n, q) = Ok s' ->
    SOk s' /\ scolls s' = scolls s /\ q <= fst (sbal s c n who) /\
    forall d m y, sbal s' d m y =
      if decide (d = c /\ m = n) then
        if y =? who then (fst (sbal s d m y) - q, snd (sbal s d m y))
        else if y =? to then (fst (sbal s d m y) + q, snd (sbal s d m y)) else sbal s d m y
      else sbal s d m y.
  Proof.
    intros Hs Hne E. unfold transfer_one in E. inv_ok. rename v into t, v0 into t2. subst s'.
    match goal with H : stoks s !! _ = Some t |- _ => rename H into Ht end.
    match goal with H : transfer_balance _ _ _ _ _ = _ |- _ => unfold transfer_balance in H; rename H into E2 end.
    destruct (N.eqb_spec who to) as [|_]; [congruence|]. inv_ok. rename v into t1.
    match goal with H : remove_balance _ _ _ = _ |- _ => rename H into Er end.
    pose proof (Hs _ _ Ht) as Hok. destruct (remove_spec _ _ _ _ Hok Er) as (M1 & I1 & N1 & S1 & L1 & B1).
    destruct (add_spec _ _ _ _ N1 E2) as (M2 & I2 & N2 & S2 & B2).
    destruct Hok as (Hnd & Hsum & Hiss & Hmax).
    assert (Hb : forall y, sbal s c n y = balof (t_own t) y) by (intros y; unfold sbal; rewrite Ht; reflexivity).
    split; [|split; [reflexivity|split]].
    - apply put_SOk; [exact Hs|]. split; [exact N2|]. split; [lia|]. split; [lia|]. intros m Hm. rewrite M2, M1 in Hm. specialize (Hmax m Hm). lia.
    - rewrite Hb. exact L1.
    - intros d m y. rewrite put_sbal. destruct (decide (d = c /\ m = n)) as [[-> ->]|]; [|reflexivity].
      rewrite B2, !B1, Hb. destruct (N.eqb_spec y who) as [Eyw|]; [rewrite ?Eyw|].
      + destruct (N.eqb_spec who to); [congruence|reflexivity].
      + destruct (y =? to); reflexivity.
  Qed.
  Lemma transfer_each_spec c who to l s s' : who <> to ->
    each (fun s e => transfer_one max_owners s c who to e) l s = Ok s' -> SOk s ->
    SOk s' /\ scolls s' = scolls s /\
    forall d m y, sbal s' d m y =
      if d =? c then
        if y =? who then (fst (sbal s d m y) - qty m l, snd (sbal s d m y))
        else if y =? to then (fst (sbal s d m y) + qty m l, snd (sbal s d m y)) else sbal s d m y
      else sbal s d m y.
  Proof.
    intros Hne. revert l s s'. each_induction.
    - intros s Hs. split; [exact Hs|]. split; [reflexivity|]. intros d m y. unfold qty. cbn.
      destruct (d =? c); [|reflexivity]. destruct (sbal s d m y) as [f r]. cbn.
      destruct (y =? who); [f_equal; lia|]. destruct (y =? to); [f_equal; lia|reflexivity].
    - intros [n q] l s s1 s2 E1 _ IH Hs. destruct (transfer_one_spec s c who to n q s1 Hs Hne E1) as (Hs1 & Hc1 & Hq & B1).
      destruct (IH Hs1) as (Hs2 & Hc2 & B2). split; [exact Hs2|]. split; [congruence|].
      intros d m y. rewrite B2, qty_cons, B1. destruct (N.eqb_spec d c) as [->|Hdc].
      2:{ rewrite decide_False by tauto. reflexivity. }
      destruct (N.eqb_spec n m) as [->|Hnm].
      + rewrite decide_True by auto. destruct (y =? who); cbn [fst snd]; [f_equal; lia|].
        destruct (y =? to); cbn [fst snd]; [f_equal; lia|reflexivity].
      + rewrite decide_False by (intros [_ ->]; congruence).
        destruct (y =? who); [f_equal; lia|]. destruct (y =? to); [f_equal; lia|reflexivity].
  Qed.
  (** Enough was there: needed to turn the subtraction above into an equation. *)
  Lemma transfer_each_enough c who to l s s' : who <> to ->
    each (fun s e => transfer_one max_owners s c who to e) l s = Ok s' -> SOk s ->
    forall m, qty m l <= fst (sbal s c m who).
  Proof.
    intros Hne. revert l s s'. each_induction.
    - intros s Hs m. unfold qty. cbn. lia.
    - intros [n q] l s s1 s2 E1 _ IH Hs m. destruct (transfer_one_spec s c who to n q s1 Hs Hne E1) as (Hs1 & _ & Hq & B1).
      specialize (IH Hs1 m). rewrite B1, N.eqb_refl in IH. rewrite qty_cons. destruct (N.eqb_spec n m) as [->|Hnm].
      + rewrite decide_True in IH by auto. cbn in IH. lia.
      + rewrite decide_False in IH by (intros [_ ->]; congruence). lia.
  Qed.
  Lemma burn_one_spec s c who n q s' : SOk s -> burn_one s c who (n, q) = Ok s' ->
    SOk s' /\ scolls s' = scolls s /\ q <= fst (sbal s c n who) /\
    forall d m y, sbal s' d m y =
      if decide (d = c /\ m = n) then
        if y =? who then (fst (sbal s d m y) - q, snd (sbal s d m y)) else sbal s d m y
      else sbal s d m y.
  Proof.
    intros Hs E. unfold burn_one in E. inv_ok. rename v into t, v0 into t1. subst s'.
    match goal with H : stoks s !! _ = Some t |- _ => rename H into Ht end.
    match goal with H : remove_balance _ _ _ = _ |- _ => rename H into Er end.
    pose proof (Hs _ _ Ht) as Hok. destruct (remove_spec _ _ _ _ Hok Er) as (M1 & I1 & N1 & S1 & L1 & B1).
    destruct Hok as (Hnd & Hsum & Hiss & Hmax).
    assert (Hb : forall y, sbal s c n y = balof (t_own t) y) by (intros y; unfold sbal; rewrite Ht; reflexivity).
    split; [|split; [reflexivity|split]].
    - apply put_SOk; [exact Hs|]. split; [exact N1|]. cbn [t_own t_iss t_max]. split; [lia|]. split; [lia|].
      intros m Hm. rewrite M1 in Hm. specialize (Hmax m Hm). lia.
    - rewrite Hb. exact L1.
    - intros d m y. rewrite put_sbal. destruct (decide (d = c /\ m = n)) as [[-> ->]|]; [|reflexivity].
      cbn [t_own]. rewrite B1, Hb. reflexivity.
  Qed.
  Lemma burn_each_spec c who l s s' :
    each (fun s e => burn_one s c who e) l s = Ok s' -> SOk s ->
    SOk s' /\ scolls s' = scolls s /\ (forall m, qty m l <= fst (sbal s c m who)) /\
    forall d m y, sbal s' d m y =
      if d =? c then if y =? who then (fst (sbal s d m y) - qty m l, snd (sbal s d m y)) else sbal s d m y else sbal s d m y.
  Proof.
    revert l s s'. each_induction.
    - intros s Hs. split; [exact Hs|]. split; [reflexivity|]. split; [intros m; unfold qty; cbn; lia|].
      intros d m y. unfold qty. cbn. destruct (d =? c); [|reflexivity]. destruct (sbal s d m y) as [f r]. cbn.
      destruct (y =? who); [f_equal; lia|reflexivity].
    - intros [n q] l s s1 s2 E1 _ IH Hs. destruct (burn_one_spec s c who n q s1 Hs E1) as (Hs1 & Hc1 & Hq & B1).
      destruct (IH Hs1) as (Hs2 & Hc2 & L2 & B2). split; [exact Hs2|]. split; [congruence|]. split.
      + intros m. specialize (L2 m). rewrite B1, N.eqb_refl in L2. rewrite qty_cons. destruct (N.eqb_spec n m) as [->|Hnm].
        * rewrite decide_True in L2 by auto. cbn in L2. lia.
        * rewrite decide_False in L2 by (intros [_ ->]; congruence). lia.
      + intros d m y. rewrite B2, qty_cons, B1. destruct (N.eqb_spec d c) as [->|Hdc].
        2:{ rewrite decide_False by tauto. reflexivity. }
        destruct (N.eqb_spec n m) as [->|Hnm].
        * rewrite decide_True by auto. destruct (y =? who); cbn [fst snd]; [f_equal; lia|reflexivity].
        * rewrite decide_False by (intros [_ ->]; congruence). destruct (y =? who); [f_equal; lia|reflexivity].
  Qed.
  Lemma mint_one_spec s own c to n q s' : SOk s -> mint_one max_owners s own c to (n, q) = Ok s' ->
    SOk s' /\ scolls s' = scolls s /\ spub s' = spub s /\ (own = true \/ spub s !! (c, n) = Some true) /\
    forall d m y, sbal s' d m y =
      if decide (d = c /\ m = n) then
        if y =? to then (fst (sbal s d m y) + q, snd (sbal s d m y)) else sbal s d m y
      else sbal s d m y.
  Proof.
    intros Hs E. unfold mint_one in E. inv_ok. rename v into t, v1 into t1. subst s'.
    match goal with H : stoks s !! _ = Some t |- _ => rename H into Ht end.
    match goal with H : add_balance _ _ _ _ = _ |- _ => rename H into Ea end.
    pose proof (Hs _ _ Ht) as (Hnd & Hsum & Hiss & Hmax). destruct (add_spec _ _ _ _ Hnd Ea) as (M1 & I1 & N1 & S1 & B1).
    assert (Hb : forall y, sbal s c n y = balof (t_own t) y) by (intros y; unfold sbal; rewrite Ht; reflexivity).
    split; [|split; [reflexivity|split; [reflexivity|split]]].
    - apply put_SOk; [exact Hs|]. split; [exact N1|]. cbn [t_own t_iss t_max]. split; [lia|]. split; [lia|].
      intros m Hm. rewrite M1 in Hm. rewrite Hm in *. lia.
    - match goal with H : (own || _) = true |- _ => apply orb_true_iff in H; destruct H as [H|H]; [left; exact H|right] end.
      destruct (spub s !! (c, n)) as [[]|]; cbn in *; congruence.
    - intros d m y. rewrite put_sbal. destruct (decide (d = c /\ m = n)) as [[-> ->]|]; [|reflexivity].
      cbn [t_own]. rewrite B1, Hb. reflexivity.
  Qed.
  Lemma mint_each_spec own c to l s s' :
    each (fun s e => mint_one max_owners s own c to e) l s = Ok s' -> SOk s ->
    SOk s' /\ scolls s' = scolls s /\ spub s' = spub s /\
    (forall n q, In (n, q) l -> own = true \/ spub s !! (c, n) = Some true) /\
    forall d m y, sbal s' d m y =
      if d =? c then if y =? to then (fst (sbal s d m y) + qty m l, snd (sbal s d m y)) else sbal s d m y else sbal s d m y.
  Proof.
    revert l s s'. each_induction.
    - intros s Hs. split; [exact Hs|]. split; [reflexivity|]. split; [reflexivity|]. split; [intros ? ? []|].
      intros d m y. unfold qty. cbn. destruct (d =? c); [|reflexivity]. destruct (sbal s d m y) as [f r]. cbn.
      destruct (y =? to); [f_equal; lia|reflexivity].
    - intros [n q] l s s1 s2 E1 _ IH Hs. destruct (mint_one_spec s own c to n q s1 Hs E1) as (Hs1 & Hc1 & Hp1 & Ha1 & B1).
      destruct (IH Hs1) as (Hs2 & Hc2 & Hp2 & Ha2 & B2). split; [exact Hs2|]. split; [congruence|]. split; [congruence|]. split.
      + intros m r [[= -> ->]|Hin]; [exact Ha1|]. rewrite <- Hp1. eapply Ha2; exact Hin.
      + intros d m y. rewrite B2, qty_cons, B1. destruct (N.eqb_spec d c) as [->|Hdc].
        2:{ rewrite decide_False by tauto. reflexivity. }
        destruct (N.eqb_spec n m) as [->|Hnm].
        * rewrite decide_True by auto. destruct (y =? to); cbn [fst snd]; [f_equal; lia|reflexivity].
        * rewrite decide_False by (intros [_ ->]; congruence). destruct (y =? to); [f_equal; lia|reflexivity].
  Qed.
End proofs.
