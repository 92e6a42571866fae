(** Lemmas about the gossip validator. *)
From Verif Require Export GossipModel.

(** ** Sorted vectors *)
Definition sorted (l : list N) : Prop := forall i j, (i < j < length l)%nat -> nth i l 0 < nth j l 0.
Lemma sorted_nil : sorted []. Proof. intros i j H. cbn in H. lia. Qed.
Lemma sorted_one x : sorted [x]. Proof. intros i j H. cbn in H. lia. Qed.
Lemma sorted_tail l : sorted l -> sorted (tail l).
Proof. destruct l as [|y l]; [exact (fun H => H)|]. intros H i j Hij. specialize (H (S i) (S j)). cbn in *. apply H. lia. Qed.
Lemma bsearch_from_spec l x fuel a b : sorted l -> (b <= length l)%nat -> (a <= b)%nat -> (b - a < fuel)%nat ->
  (forall i, (i < a)%nat -> nth i l 0 < x) -> (forall i, (b <= i < length l)%nat -> x < nth i l 0) ->
  match bsearch_from fuel l x a b with
  | inl i => (i < length l)%nat /\ nth i l 0 = x
  | inr i => (i <= length l)%nat /\ (forall j, (j < i)%nat -> nth j l 0 < x) /\ (forall j, (i <= j < length l)%nat -> x < nth j l 0)
  end.
Proof.
  revert a b. induction fuel as [|fuel IH]; intros a b Hs Hb Hab Hf Hlo Hhi; [lia|]. cbn [bsearch_from]. cbv zeta.
  destruct (Nat.ltb_spec a b) as [L|L].
  2:{ assert (a = b) by lia. subst b. split; [lia|]. split; assumption. }
  assert (M : ((b - a) / 2 < b - a)%nat) by (apply Nat.div_lt; lia).
  set (mid := (a + (b - a) / 2)%nat) in *. assert (Hm : (a <= mid < b)%nat) by (unfold mid; lia). clearbody mid. clear M.
  destruct (N.compare_spec (nth mid l 0) x) as [E|E|E].
  - split; [lia|exact E].
  - apply IH; try assumption; try lia. intros i Hi. destruct (Nat.eq_dec i mid) as [->|]; [exact E|].
    etransitivity; [|exact E]. apply Hs. lia.
  - apply IH; try assumption; try lia. intros i Hi. destruct (Nat.eq_dec i mid) as [->|]; [exact E|].
    etransitivity; [exact E|]. apply Hs. lia.
Qed.
Lemma bsearch_spec l x : sorted l ->
  match bsearch l x with
  | inl i => (i < length l)%nat /\ nth i l 0 = x
  | inr i => (i <= length l)%nat /\ (forall j, (j < i)%nat -> nth j l 0 < x) /\ (forall j, (i <= j < length l)%nat -> x < nth j l 0)
  end.
Proof. intros H. apply bsearch_from_spec; try assumption; try lia; intros; lia. Qed.
Lemma bsearch_in l x : sorted l -> (exists i, bsearch l x = inl i) <-> List.In x l.
Proof.
  intros H. pose proof (bsearch_spec l x H) as S. split.
  - intros [i E]. rewrite E in S. destruct S as [L <-]. apply nth_In. exact L.
  - intros Hx. destruct (bsearch l x) as [i|i]; [eauto|]. exfalso. destruct (In_nth l x 0 Hx) as (j & L & E). destruct S as (_ & A & B).
    destruct (Nat.lt_ge_cases j i) as [C|C]; [specialize (A j C)|specialize (B j (conj C L))]; lia.
Qed.
Lemma nth_insert_at l i x j : (i <= length l)%nat ->
  nth j (insert_at l i x) 0 = if Nat.ltb j i then nth j l 0 else if Nat.eqb j i then x else nth (j - 1) l 0.
Proof.
  intros H. unfold insert_at.
  assert (Hl : length (firstn i l) = i) by (rewrite firstn_length; lia).
  destruct (Nat.ltb_spec j i) as [L|L].
  - rewrite app_nth1 by lia. rewrite <- (firstn_skipn i l) at 2. rewrite app_nth1 by lia. reflexivity.
  - rewrite app_nth2 by lia. rewrite Hl. destruct (Nat.eqb_spec j i) as [->|Ne]; [rewrite Nat.sub_diag; reflexivity|].
    replace (j - i)%nat with (S (j - 1 - i)) by lia. cbn [nth]. rewrite <- (firstn_skipn i l) at 2. rewrite app_nth2 by lia. rewrite Hl. reflexivity.
Qed.
Lemma insert_at_length l i x : (i <= length l)%nat -> length (insert_at l i x) = S (length l).
Proof. intros H. unfold insert_at. rewrite app_length. cbn [length]. rewrite firstn_length, skipn_length. lia. Qed.
Lemma insert_at_in l i x y : List.In y (insert_at l i x) <-> y = x \/ List.In y l.
Proof.
  unfold insert_at. rewrite <- (firstn_skipn i l) at 3. rewrite !in_app_iff. cbn [List.In]. intuition congruence.
Qed.
Lemma bsearch_insert l x i : sorted l -> bsearch l x = inr i -> sorted (insert_at l i x).
Proof.
  intros H E. pose proof (bsearch_spec l x H) as S. rewrite E in S. destruct S as (L & A & B).
  intros j k Hjk. rewrite insert_at_length in Hjk by exact L. rewrite !nth_insert_at by exact L.
  destruct (Nat.ltb_spec j i), (Nat.ltb_spec k i); try lia; destruct (Nat.eqb_spec k i), (Nat.eqb_spec j i); try lia.
  all: first [apply H; lia | apply A; lia | apply B; lia | idtac].
Qed.
Lemma sorted_nodup l : sorted l -> List.NoDup l.
Proof.
  intros H. apply (NoDup_nth l 0). intros i j Hi Hj E. destruct (Nat.lt_trichotomy i j) as [L|[L|L]]; [|exact L|].
  - specialize (H i j (conj L Hj)). lia.
  - specialize (H j i (conj L Hi)). lia.
Qed.

Section proofs.
  Variable verifies : N -> N -> N -> bool.
  Notation gstep := (gstep verifies).
  Notation validate := (validate verifies).

  (** ** The invariant *)
  Record ginv (s : gst) : Prop := {
    gi_known : forall e v, g_known s !! e = Some v -> sorted v;
    gi_done : sorted (g_done s);
    gi_size : (length (g_done s) <= CACHE)%nat }.
  Definition known (s : gst) (e a : N) : Prop := exists v, g_known s !! e = Some v /\ List.In a v.

  (** A message that counts as heard. *)
  Definition sound (s : gst) (w : witness) : Prop := List.In (w_auth w) (g_active s) /\ verifies (w_auth w) (w_sig w) (w_digest w) = true.
  Lemma active_iff s a : existsb (N.eqb a) (g_active s) = true <-> List.In a (g_active s).
  Proof. rewrite existsb_exists. split; [intros (x & Hx & E); apply N.eqb_eq in E; subst; exact Hx|intros H; exists a; split; [exact H|apply N.eqb_refl]]. Qed.
  Lemma validate_cases s w f : ginv s -> let r := validate s (Some w) f in
    (fst r = s /\ snd r = false /\ (~ sound s w \/ known s (w_event w) (w_auth w))) \/
    (sound s w /\ ~ known s (w_event w) (w_auth w) /\ snd r = negb (too_old w f) /\ ginv (fst r) /\
     g_done (fst r) = g_done s /\ g_active (fst r) = g_active s /\ g_next (fst r) = g_next s /\
     forall e a, known (fst r) e a <-> (e = w_event w /\ a = w_auth w) \/ known s e a).
  Proof.
    intros I. cbv zeta. unfold GossipModel.validate. cbv zeta.
    assert (K : known s (w_event w) (w_auth w) <-> exists v i, g_known s !! w_event w = Some v /\ bsearch v (w_auth w) = inl i).
    { split.
      - intros (v & E & Hv). destruct (proj2 (bsearch_in v _ (gi_known s I _ _ E)) Hv) as [i Hi]. eauto.
      - intros (v & i & E & Hi). exists v. split; [exact E|]. apply (bsearch_in v _ (gi_known s I _ _ E)). eauto. }
    destruct (g_known s !! w_event w) as [v|] eqn:Ek; cbn [option_map].
    - destruct (bsearch v (w_auth w)) as [i|i] eqn:Eb.
      + left. split; [reflexivity|]. split; [reflexivity|]. right. apply K. eauto.
      + assert (Nk : ~ known s (w_event w) (w_auth w)) by (intros X; apply K in X; destruct X as (v' & i' & X & Y); injection X as <-; congruence).
        pose proof (active_iff s (w_auth w)) as Ac. destruct (existsb (N.eqb (w_auth w)) (g_active s)) eqn:Ea; cbn [negb].
        2:{ left. split; [reflexivity|]. split; [reflexivity|]. left. intros [X _]. apply Ac in X. discriminate. }
        destruct (verifies (w_auth w) (w_sig w) (w_digest w)) eqn:Ev.
        2:{ left. split; [reflexivity|]. split; [reflexivity|]. left. intros [_ X]. congruence. }
        right. cbn [fst snd with_known g_done g_active g_next]. split; [split; [apply Ac; reflexivity|exact Ev]|]. split; [exact Nk|]. split; [reflexivity|].
        split.
        { split; cbn [g_known g_done with_known]; [|exact (gi_done s I)|exact (gi_size s I)]. intros e v' E. apply lookup_insert_Some in E. destruct E as [[_ <-]|[_ E]]; [|exact (gi_known s I _ _ E)].
          apply bsearch_insert; [exact (gi_known s I _ _ Ek)|exact Eb]. }
        split; [reflexivity|]. split; [reflexivity|]. split; [reflexivity|]. intros e a. unfold known. cbn [g_known with_known]. split.
        * intros (v' & E & Hv). apply lookup_insert_Some in E. destruct E as [[<- <-]|[_ E]]; [|right; eauto]. apply insert_at_in in Hv. destruct Hv as [->|Hv]; [left; auto|right; eauto].
        * intros [[-> ->]|(v' & E & Hv)].
          -- eexists. split; [apply lookup_insert|]. apply insert_at_in. left. reflexivity.
          -- destruct (N.eq_dec e (w_event w)) as [->|Ne]; [|exists v'; rewrite lookup_insert_ne by congruence; auto].
             rewrite E in Ek. injection Ek as ->. eexists. split; [apply lookup_insert|]. apply insert_at_in. right. exact Hv.
    - assert (Nk : ~ known s (w_event w) (w_auth w)) by (intros X; apply K in X; destruct X as (v' & i' & X & Y); discriminate).
      pose proof (active_iff s (w_auth w)) as Ac. destruct (existsb (N.eqb (w_auth w)) (g_active s)) eqn:Ea; cbn [negb].
      2:{ left. split; [reflexivity|]. split; [reflexivity|]. left. intros [X _]. apply Ac in X. discriminate. }
      destruct (verifies (w_auth w) (w_sig w) (w_digest w)) eqn:Ev.
      2:{ left. split; [reflexivity|]. split; [reflexivity|]. left. intros [_ X]. congruence. }
      right. cbn [fst snd with_known g_done g_active g_next]. split; [split; [apply Ac; reflexivity|exact Ev]|]. split; [exact Nk|]. split; [reflexivity|].
      split.
      { split; cbn [g_known g_done with_known]; [|exact (gi_done s I)|exact (gi_size s I)]. intros e v' E. apply lookup_insert_Some in E. destruct E as [[_ <-]|[_ E]]; [|exact (gi_known s I _ _ E)]. apply sorted_one. }
      split; [reflexivity|]. split; [reflexivity|]. split; [reflexivity|]. intros e a. unfold known. cbn [g_known with_known]. split.
      + intros (v' & E & Hv). apply lookup_insert_Some in E. destruct E as [[<- <-]|[_ E]]; [|right; eauto]. destruct Hv as [<-|[]]. left; auto.
      + intros [[-> ->]|(v' & E & Hv)].
        * eexists. split; [apply lookup_insert|]. left. reflexivity.
        * destruct (N.eq_dec e (w_event w)) as [->|Ne]; [congruence|exists v'; rewrite lookup_insert_ne by congruence; auto].
  Qed.
  Lemma known_dec s w : {known s (w_event w) (w_auth w)} + {~ known s (w_event w) (w_auth w)}.
  Proof.
    unfold known. destruct (g_known s !! w_event w) as [v|]; [|right; intros (v & E & _); discriminate].
    destruct (in_dec N.eq_dec (w_auth w) v) as [H|H]; [left; eauto|right; intros (v' & E & Hv); injection E as <-; auto].
  Qed.

  Lemma complete_done s e : ginv s ->
    let c := if Nat.leb CACHE (length (g_done s)) then tail (g_done s) else g_done s in
    ginv (mark_complete s e) /\ (forall x, List.In x (g_done (mark_complete s e)) <-> x = e \/ List.In x c).
  Proof.
    intros I. cbv zeta. unfold mark_complete. cbv zeta. set (c := if Nat.leb CACHE (length (g_done s)) then tail (g_done s) else g_done s).
    assert (Sc : sorted c) by (unfold c; destruct (Nat.leb _ _); [apply sorted_tail|]; exact (gi_done s I)).
    assert (Lc : (length c < CACHE)%nat).
    { unfold c. pose proof (gi_size s I). destruct (Nat.leb_spec CACHE (length (g_done s))); [|lia]. destruct (g_done s); cbn in *; [unfold CACHE in *; lia|lia]. }
    pose proof (bsearch_spec c e Sc) as B. destruct (bsearch c e) as [i|i] eqn:Eb; cbn [g_done].
    - split.
      + split; cbn [g_known g_done]; [|exact Sc|lia]. intros e' v E. apply lookup_delete_Some in E. exact (gi_known s I _ _ (proj2 E)).
      + intros x. split; [auto|]. intros [->|H]; [|exact H]. destruct B as [L <-]. apply nth_In. exact L.
    - split.
      + split; cbn [g_known g_done]; [|apply bsearch_insert; assumption|rewrite insert_at_length; [lia|exact (proj1 B)]]. intros e' v E. apply lookup_delete_Some in E. exact (gi_known s I _ _ (proj2 E)).
      + intros x. apply insert_at_in.
  Qed.
  Lemma ginv_step s o : ginv s -> ginv (gstep s o).
  Proof.
    intros I. destruct o as [[w|] f|e|l|now f l]; cbn [GossipModel.gstep].
    - destruct (validate_cases s w f I) as [(-> & _)|(_ & _ & _ & H & _)]; [exact I|exact H].
    - exact I.
    - exact (proj1 (complete_done s e I)).
    - destruct I. split; assumption.
    - destruct I. split; assumption.
  Qed.
  Lemma ginv_run ops act now : ginv (run gstep ops (gnew act now)).
  Proof.
    apply (run_inv gstep ginv); [exact ginv_step|]. split; cbn; [intros e v E; rewrite lookup_empty in E; discriminate|apply sorted_nil|lia].
  Qed.
End proofs.
