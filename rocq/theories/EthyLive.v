(** Vote counting and scheduling. *)
From Verif Require Export EthyInv.

Lemma pct_ge y n t : t <= 100 -> 1 <= n -> (t <= pct y n <-> t * n <= 100 * y).
Proof.
  intros Ht Hn. unfold pct. rewrite N.max_l by lia. destruct (N.le_ge_cases y n) as [Hy|Hy].
  - rewrite N.min_l by exact Hy. split; intros H.
    + pose proof (N.mul_div_le (y * 100) n ltac:(lia)). nia.
    + apply N.div_le_lower_bound; [lia|]. nia.
  - rewrite N.min_r by exact Hy. rewrite N.mul_comm, N.div_mul by lia. split; intros; nia.
Qed.
Lemma pct_ge_imp y n t : t <= 100 -> t <= pct y n -> t * n <= 100 * y.
Proof. intros Ht H. destruct (N.eq_dec n 0) as [->|Hn]; [lia|]. apply pct_ge; [exact Ht|lia|exact H]. Qed.

Lemma votes_on_in m id v k : In k (votes_on m id v) <-> m !! (id, k) = Some v.
Proof.
  unfold votes_on. rewrite in_map_iff. split.
  - intros [[[i k'] w] [E Hin]]. cbn in E. subst k'. apply filter_In in Hin. destruct Hin as [Hin Hb]. cbn in Hb.
    apply andb_prop in Hb. destruct Hb as [Hi Hw]. apply N.eqb_eq in Hi. apply eqb_prop in Hw. subst.
    apply elem_of_list_In in Hin. apply elem_of_map_to_list in Hin. exact Hin.
  - intros Hv. exists (id, k, v). split; [reflexivity|]. apply filter_In. split; [apply elem_of_list_In; apply elem_of_map_to_list; exact Hv|].
    cbn. rewrite N.eqb_refl, eqb_reflx. reflexivity.
Qed.
Lemma votes_on_nodup m id v : NoDup (votes_on m id v).
Proof.
  unfold votes_on. pose proof (NoDup_fst_map_to_list m) as Hn. induction (map_to_list m) as [|[[i k] w] l IH]; cbn; [constructor|].
  inversion Hn as [|? ? H1 H2]; subst. destruct ((i =? id) && Bool.eqb w v) eqn:Eb; [|apply IH; exact H2].
  cbn. constructor; [|apply IH; exact H2]. intros Hin. apply H1. apply elem_of_list_In in Hin. apply in_map_iff in Hin.
  destruct Hin as [[[i' k'] w'] [Ek Hin]]. cbn in Ek. subst k'. apply filter_In in Hin. destruct Hin as [Hin Hb]. cbn in Hb.
  apply andb_prop in Eb, Hb. destruct Eb as [Ei _], Hb as [Hi _]. apply N.eqb_eq in Ei, Hi. subst.
  apply elem_of_list_In. apply in_map_iff. exists (id, k, w'). split; [reflexivity|exact Hin].
Qed.

Lemma handle_invalid_log s cl id s' : handle_invalid s cl id = Ok s' -> clog (co s') = LVerdict id false :: clog (co s).
Proof.
  unfold handle_invalid. destruct cl; [|discriminate]. cbn [ensure rbind].
  destruct (pend (co s) !! id); [|discriminate]. destruct (chal s !! id) as [[who b]|]; [|intros [= <-]; reflexivity].
  destruct (pay_from_hold s who who b) as [s1|]; [|discriminate]. cbn [rbind].
  destruct (relayer s) as [r|]; [|intros [= <-]; reflexivity].
  destruct (pay_from_hold s1 r who _) as [s2|]; [|discriminate]. cbn [rbind]. intros [= <-]. reflexivity.
Qed.
Lemma handle_valid_log s cl id s' : handle_valid s cl id = Ok s' ->
  clog (co s') = match relayer s with Some _ => LVerdict id true :: clog (co s) | None => clog (co s) end.
Proof.
  unfold handle_valid. destruct cl; [|discriminate]. cbn [ensure rbind].
  destruct (pend (co s) !! id); [|discriminate]. destruct (relayer s) as [r|]; [|intros [= <-]; reflexivity].
  destruct (chal s !! id) as [[who b]|]; [|intros [= <-]; reflexivity].
  destruct (pay_from_hold s who r b) as [s1|]; [|discriminate]. cbn [rbind]. intros [= <-]. reflexivity.
Qed.

(** Which verdict a vote leads to. *)
Lemma vote_verdict thr s cl id k w s' i v rest :
  thr <= 100 -> handle_event_vote thr s cl id k w = Ok s' ->
  clog (co s') = LVerdict i v :: rest -> clog (co s') <> clog (co s) ->
  i = id /\ rest = LVote id k w :: clog (co s) /\
  let V := votes_on (<[(id, k) := w]> (votes s)) id v in
  if v then thr * nvals s <= 100 * N.of_nat (length V) else (100 - thr) * nvals s < 100 * N.of_nat (length V) \/ nvals s = 0.
Proof.
  intros Ht. unfold handle_event_vote. case_bool_decide as Hc; [|discriminate]. cbn [ensure rbind]. unfold count_votes.
  destruct (N.ltb_spec (100 - thr) (pct (N.of_nat (length (votes_on (<[(id, k) := w]> (votes s)) id false))) (nvals s))) as [Hn|Hn].
  - intros Hh El _. rewrite (handle_invalid_log _ _ _ _ Hh) in El. injection El as <- <- <-. split; [reflexivity|]. split; [reflexivity|].
    cbv zeta. destruct (N.eq_dec (nvals s) 0) as [|Hz]; [right; assumption|left].
    destruct (N.eq_dec thr 0) as [->|Ht0].
    { unfold pct in Hn. exfalso. assert (N.min (N.of_nat (length (votes_on (<[(id, k):=w]> (votes s)) id false))) (N.max (nvals s) 1) * 100 / N.max (nvals s) 1 <= 100); [|lia].
      apply N.div_le_upper_bound; nia. }
    assert (H2 : 101 - thr <= pct (N.of_nat (length (votes_on (<[(id, k):=w]> (votes s)) id false))) (nvals s)) by lia.
    apply pct_ge in H2; [nia|lia|lia].
  - destruct (N.leb_spec thr (pct (N.of_nat (length (votes_on (<[(id, k) := w]> (votes s)) id true))) (nvals s))) as [Hy|Hy].
    + intros Hh El Hne. rewrite (handle_valid_log _ _ _ _ Hh) in El. cbn [relayer co noted clog] in El.
      destruct (relayer s) as [r|]; [|discriminate El]. injection El as <- <- <-. split; [reflexivity|]. split; [reflexivity|].
      cbv zeta. apply pct_ge_imp; assumption.
    + intros [= <-]. cbn [co noted clog]. discriminate.
Qed.

(** A full vote settles the challenge unless it falls in the gap between the two thresholds. *)
Lemma vote_settles thr rb s id k w s' :
  EI rb s -> thr <= 100 -> 1 <= thr -> 1 <= nvals s -> relayer s <> None ->
  handle_event_vote thr s true id k w = Ok s' ->
  let vs := <[(id, k) := w]> (votes s) in
  let nay := count_votes vs id false in
  count_votes vs id true + nay = nvals s ->
  ~ ((100 - thr) * nvals s < 100 * nay < (101 - thr) * nvals s) ->
  stat (co s') !! id <> Some Challenged.
Proof.
  intros HI Ht Ht1 Hn Hrel. unfold handle_event_vote. case_bool_decide as Hc; [|discriminate]. cbn [ensure rbind].
  cbv zeta. set (vs := <[(id, k) := w]> (votes s)).
  pose proof (vote_EI rb s id k w HI Hc) as HI1. fold vs in HI1. revert HI1. set (s1 := Ev _ _ _ _ _ _ _ _ _ _ _). intros HI1 Hh Hsum Hgap.
  assert (Hc1 : stat (co s1) !! id = Some Challenged) by exact Hc.
  destruct (N.ltb_spec (100 - thr) (pct (count_votes vs id false) (nvals s))) as [Hx|Hx].
  - destruct (handle_invalid_spec rb s1 id HI1 Hc1) as (who & b & _ & _ & f & h & Eq & _). rewrite Eq in Hh. injection Hh as <-.
    cbn [co stat]. rewrite lookup_delete. discriminate.
  - destruct (N.leb_spec thr (pct (count_votes vs id true) (nvals s))) as [Hy|Hy].
    + destruct (relayer s) as [r|] eqn:Er; [|congruence].
      destruct (handle_valid_spec rb s1 id r HI1 Hc1 eq_refl) as (who & b & _ & _ & Eq). rewrite Eq in Hh. injection Hh as <-.
      cbn [co noted set_stat stat]. rewrite lookup_insert. discriminate.
    + exfalso. apply Hgap.
      assert (H1 : ~ (101 - thr) * nvals s <= 100 * count_votes vs id false).
      { intros H. apply pct_ge in H; [lia|lia|exact Hn]. }
      assert (H2 : ~ thr * nvals s <= 100 * count_votes vs id true).
      { intros H. apply pct_ge in H; [lia|exact Ht|exact Hn]. }
      nia.
Qed.

(** ** Scheduling *)
Lemma process1_at p cf id k i : In i (at_block (fst cf) k) -> In i (at_block (fst (process1 p cf id)) k).
Proof.
  destruct cf as [c f]. unfold process1. cbn [fst]. case_bool_decide as Hc; [|destruct (_ <=? id); auto].
  unfold at_block at 2; cbn [fst vat]. rewrite at_insert. intros Hin. destruct (N.eqb_spec (later (blk c) p) k) as [->|]; [apply in_or_app; auto|exact Hin].
Qed.
Definition planned (p : N) (cf : core * bool) (l : list N) : Prop :=
  forall id cl, pend (fst cf) !! id = Some cl -> In id l \/ exists k, blk (fst cf) < k /\ In id (at_block (fst cf) k).
Lemma process1_planned p cf id l : 1 <= p -> blk (fst cf) + p <= U32MAX -> planned p cf (id :: l) -> planned p (process1 p cf id) l.
Proof.
  intros Hp Hb Hpl i cl Hi.
  assert (Hi0 : pend (fst cf) !! i = Some cl /\ (i = id -> stat (fst cf) !! id = Some Challenged)).
  { destruct cf as [c f]. unfold process1 in Hi. cbn [fst] in Hi |- *. case_bool_decide as Hc; cbn [fst pend] in Hi; [auto|].
    assert (Hd : delete id (pend c) !! i = Some cl) by (destruct (_ <=? id) in Hi; exact Hi).
    apply lookup_delete_Some in Hd. split; [tauto|]. intros ->. tauto. }
  destruct Hi0 as [Hi0 Hst]. rewrite process1_blk.
  destruct (Hpl i cl Hi0) as [[E|Hin]|(k & Hk & Hin)]; [right|left; exact Hin|right; exists k; split; [exact Hk|apply process1_at; exact Hin]].
  subst i. specialize (Hst eq_refl). exists (blk (fst cf) + p). split; [lia|].
  destruct cf as [c f]. cbn [fst] in *. unfold process1. rewrite bool_decide_eq_true_2 by exact Hst.
  cbn [fst]. unfold at_block at 1; cbn [vat]. rewrite at_insert.
  assert (E : later (blk c) p = blk c + p).
  { unfold later. apply N.mod_small. change U32MAX with (2 ^ 32 - 1) in Hb. change (2 ^ 32) with 4294967296 in *. lia. }
  rewrite E, N.eqb_refl. apply in_or_app. right. left. reflexivity.
Qed.
Lemma loop_planned p l : 1 <= p -> forall cf, blk (fst cf) + p <= U32MAX -> planned p cf l -> planned p (fold_left (process1 p) l cf) [].
Proof.
  intros Hp. induction l as [|a l IH]; cbn; intros cf Hb Hpl; [exact Hpl|]. apply IH; [rewrite process1_blk; exact Hb|].
  apply process1_planned; assumption.
Qed.
Definition scheduled (c : core) : Prop :=
  forall id cl, pend c !! id = Some cl -> exists k, blk c < k /\ In id (at_block c k).
Lemma tick_scheduled mx c p c' : 1 <= p -> blk c + 1 + p <= U32MAX -> scheduled c -> tick_core mx c p = Ok c' -> scheduled c'.
Proof.
  intros Hp Hb Hs Ht. destruct (tick_fields _ _ _ _ Ht) as (Eb & _ & Ep & _ & Ev & _).
  intros id cl Hi. rewrite Ep in Hi. unfold at_block. rewrite Ev, Eb. unfold looped in *.
  set (c1 := Core _ _ _ _ _ _ _) in *.
  assert (Hpl : planned p (c1, false) (at_block c (blk c + 1))).
  { intros i cl' Hi'. destruct (Hs i cl' Hi') as (k & Hk & Hin). destruct (N.eq_dec (blk c + 1) k) as [<-|Hne]; [left; exact Hin|right].
    exists k. split; [cbn [c1 fst blk]; lia|]. unfold at_block, c1; cbn [fst vat]. rewrite lookup_delete_ne by exact Hne. exact Hin. }
  apply loop_planned in Hpl; [|exact Hp|cbn [c1 fst blk]; exact Hb]. specialize (Hpl id cl Hi).
  rewrite loop_blk in Hpl. destruct Hpl as [[]|Hpl]. exact Hpl.
Qed.
Lemma submit_scheduled mxm c p id claim c' : 1 <= p -> blk c + p <= U32MAX -> scheduled c -> do_submit mxm c p id claim = Ok c' -> scheduled c'.
Proof.
  intros Hp Hb Hs Hd. destruct (do_submit_fields _ _ _ _ _ _ Hd) as (_ & Ep & _ & Eb & _ & _ & Ev & _).
  assert (E : later (blk c) p = blk c + p).
  { unfold later. apply N.mod_small. change U32MAX with (2 ^ 32 - 1) in Hb. change (2 ^ 32) with 4294967296 in *. lia. }
  intros i cl. rewrite Ep, Eb. unfold at_block. rewrite Ev, E. intros Hi. destruct (N.eq_dec id i) as [Ei|Hne].
  - subst i. exists (blk c + p). split; [lia|]. rewrite at_insert, N.eqb_refl. apply in_or_app. right. left. reflexivity.
  - rewrite lookup_insert_ne in Hi by exact Hne. destruct (Hs i cl Hi) as (k & Hk & Hin). exists k. split; [exact Hk|].
    rewrite at_insert. destruct (N.eqb_spec (blk c + p) k) as [->|]; [apply in_or_app; left; exact Hin|exact Hin].
Qed.

(** At its block an unchallenged claim is handed to the router. *)
Lemma loop_keeps_log p l : forall cf e, In e (clog (fst cf)) -> In e (clog (fst (fold_left (process1 p) l cf))).
Proof. intros cf e He. destruct (loop_log p l cf) as (new & -> & _). apply in_or_app. right. exact He. Qed.
Lemma loop_routes p l : forall cf id cl, In id l -> stat (fst cf) !! id <> Some Challenged -> pend (fst cf) !! id = Some cl ->
  In (LDone id (Some cl) (blk (fst cf))) (clog (fst (fold_left (process1 p) l cf))).
Proof.
  induction l as [|a l IH]; intros cf id cl; [intros []|]. cbn [fold_left]. intros Hin Hst Hp.
  destruct (N.eq_dec a id) as [E|Hne].
  - subst a. apply loop_keeps_log. destruct cf as [c f]. cbn [fst] in *. unfold process1. rewrite bool_decide_eq_false_2 by exact Hst.
    rewrite Hp. destruct (_ <=? id); left; reflexivity.
  - destruct Hin as [|Hin]; [congruence|]. rewrite <- (process1_blk p cf a). apply IH; [exact Hin| |].
    + intros Hc. apply Hst. apply (process1_frame p cf a id). exact Hc.
    + destruct cf as [c f]. cbn [fst] in *. unfold process1. case_bool_decide; [exact Hp|].
      destruct (_ <=? a); cbn [fst pend]; rewrite lookup_delete_ne by exact Hne; exact Hp.
Qed.
Lemma tick_routes mx c p c' id cl : tick_core mx c p = Ok c' -> In id (at_block c (blk c + 1)) ->
  stat c !! id <> Some Challenged -> pend c !! id = Some cl -> In (LDone id (Some cl) (blk c + 1)) (clog c').
Proof.
  intros Ht Hin Hst Hp. destruct (tick_fields _ _ _ _ Ht) as (_ & _ & _ & _ & _ & ->). unfold looped.
  set (cf := (Core (blk c + 1) (pend c) (stat c) (delete (blk c + 1) (vat c)) (procd c) (missed c) (clog c), false)).
  change (blk c + 1) with (blk (fst cf)) at 1. apply loop_routes; assumption.
Qed.

(** A claim with no slot after the current block is never processed. *)
Definition stuck (id : N) (c : core) : Prop := is_Some (pend c !! id) /\ forall k, blk c < k -> ~ In id (at_block c k).
Lemma loop_stuck p l id : forall cf, ~ In id l -> stuck id (fst cf) -> stuck id (fst (fold_left (process1 p) l cf)).
Proof.
  induction l as [|a l IH]; intros cf Hn Hs; [exact Hs|]. cbn [fold_left]. apply IH; [cbn in Hn; tauto|].
  assert (Hne : a <> id) by (cbn in Hn; tauto). destruct Hs as [H1 H2]. split.
  - destruct cf as [c f]. cbn [fst] in *. unfold process1. case_bool_decide; [exact H1|].
    destruct (_ <=? a); cbn [fst pend]; rewrite lookup_delete_ne by exact Hne; exact H1.
  - intros k. rewrite process1_blk. intros Hk. specialize (H2 k Hk). destruct cf as [c f]. cbn [fst] in *. unfold process1.
    case_bool_decide; [|destruct (_ <=? a); exact H2]. cbn [fst]. unfold at_block at 1; cbn [vat]. rewrite at_insert.
    destruct (N.eqb_spec (later (blk c) p) k) as [->|]; [|exact H2]. intros Hin. apply in_app_or in Hin. destruct Hin as [Hin|[E|[]]]; [tauto|congruence].
Qed.
Lemma tick_stuck mx c p c' id : stuck id c -> tick_core mx c p = Ok c' -> stuck id c'.
Proof.
  intros [H1 H2] Ht. destruct (tick_fields _ _ _ _ Ht) as (Eb & _ & Ep & _ & Ev & _).
  assert (Hs : stuck id (looped c p)).
  { unfold looped. apply loop_stuck; [apply H2; lia|]. split; cbn [fst pend blk]; [exact H1|]. intros k Hk. unfold at_block; cbn [vat].
    rewrite lookup_delete_ne by lia. apply H2. lia. }
  destruct Hs as [H3 H4]. split; [rewrite Ep; exact H3|]. intros k. rewrite Eb. unfold at_block. rewrite Ev. intros Hk. apply H4.
  unfold looped. rewrite loop_blk. exact Hk.
Qed.
