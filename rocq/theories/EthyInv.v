(** Challenges, votes and bonds. *)
From Verif Require Export EthyCore.

(** Votes on an id since it was last challenged. *)
Fixpoint votes_since (log : list elog) (id : N) : list (N * bool) :=
  match log with
  | [] => []
  | LChal i _ :: old => if i =? id then [] else votes_since old id
  | LVote i k v :: old => if i =? id then (k, v) :: votes_since old id else votes_since old id
  | _ :: old => votes_since old id
  end.
(** What an account has staked as a challenger. *)
Definition staked (m : gmap N (N * N)) (a : N) : N := sumf (fun _ e => if fst e =? a then snd e else 0) m.

Record EI (rb : N) (s : ev) : Prop := {
  ei_c : CI (co s);
  ei_period : period s <= U32MAX;
  ei_blk : blk (co s) <= U32MAX;
  ei_chal : forall id, stat (co s) !! id = Some Challenged <-> is_Some (chal s !! id);
  ei_pend : forall id, stat (co s) !! id = Some Challenged -> is_Some (pend (co s) !! id);
  ei_votes : forall id k v, votes s !! (id, k) = Some v ->
     stat (co s) !! id = Some Challenged /\ In (k, v) (votes_since (clog (co s)) id);
  ei_held : forall a, getN (held s) a = getN (rbond s) a + staked (chal s) a;
  ei_rel : forall r, relayer s = Some r -> rb <= getN (rbond s) r }.

Lemma since_cons e log id x : match e with LChal i _ => i <> id | _ => True end ->
  In x (votes_since log id) -> In x (votes_since (e :: log) id).
Proof.
  destruct e; cbn; auto.
  - intros Hne. destruct (N.eqb_spec id0 id); [congruence|auto].
  - intros _ Hx. destruct (id0 =? id); [right; exact Hx|exact Hx].
Qed.
Lemma since_app new log id x : (forall e, In e new -> match e with LChal i _ => i <> id | _ => True end) ->
  In x (votes_since log id) -> In x (votes_since (new ++ log) id).
Proof.
  induction new as [|e new IH]; cbn [app]; intros He Hx; [exact Hx|].
  apply since_cons; [apply He; left; reflexivity|]. apply IH; [intros e' He'; apply He; right; exact He'|exact Hx].
Qed.

(** A new block leaves challenged claims alone and only logs processed ids. *)
Lemma process1_frame p cf id i :
  (stat (fst cf) !! i = Some Challenged <-> stat (fst (process1 p cf id)) !! i = Some Challenged) /\
  (stat (fst cf) !! i = Some Challenged -> pend (fst (process1 p cf id)) !! i = pend (fst cf) !! i).
Proof.
  destruct cf as [c f]. unfold process1. cbn [fst]. case_bool_decide as Hc; [cbn; tauto|].
  assert (H : (stat c !! i = Some Challenged <-> delete id (stat c) !! i = Some Challenged) /\
              (stat c !! i = Some Challenged -> delete id (pend c) !! i = pend c !! i)).
  { destruct (N.eq_dec id i) as [E|Hne]; [subst i; rewrite lookup_delete; split; [split; congruence|congruence]|].
    rewrite !lookup_delete_ne by exact Hne. tauto. }
  destruct (_ <=? id); exact H.
Qed.
Lemma process1_log p cf id : exists new, clog (fst (process1 p cf id)) = new ++ clog (fst cf) /\
  forall e, In e new -> exists i o b, e = LDone i o b.
Proof.
  destruct cf as [c f]. unfold process1. cbn [fst]. case_bool_decide as Hc; [exists []; cbn; split; [reflexivity|tauto]|].
  exists [LDone id (pend c !! id) (blk c)]. split; [destruct (_ <=? id); reflexivity|]. intros e [<-|[]]. eauto.
Qed.
Lemma loop_frame p l : forall cf i,
  (stat (fst cf) !! i = Some Challenged <-> stat (fst (fold_left (process1 p) l cf)) !! i = Some Challenged) /\
  (stat (fst cf) !! i = Some Challenged -> pend (fst (fold_left (process1 p) l cf)) !! i = pend (fst cf) !! i).
Proof.
  induction l as [|a l IH]; intros cf i; [cbn; tauto|]. cbn [fold_left].
  destruct (IH (process1 p cf a) i) as [H1 H2]. destruct (process1_frame p cf a i) as [H3 H4].
  split; [tauto|]. intros Hc. rewrite H2 by (apply H3; exact Hc). apply H4. exact Hc.
Qed.
Lemma loop_log p l : forall cf, exists new, clog (fst (fold_left (process1 p) l cf)) = new ++ clog (fst cf) /\
  forall e, In e new -> exists i o b, e = LDone i o b.
Proof.
  induction l as [|a l IH]; intros cf; [exists []; cbn; split; [reflexivity|tauto]|]. cbn [fold_left].
  destruct (IH (process1 p cf a)) as (n1 & E1 & H1). destruct (process1_log p cf a) as (n2 & E2 & H2).
  exists (n1 ++ n2). split; [rewrite E1, E2; apply app_assoc|]. intros e He. apply in_app_or in He. destruct He; auto.
Qed.
(** A tick is the loop at the next block followed by pruning. *)
Definition looped (c : core) (p : N) : core :=
  fst (fold_left (process1 p) (at_block c (blk c + 1))
         (Core (blk c + 1) (pend c) (stat c) (delete (blk c + 1) (vat c)) (procd c) (missed c) (clog c), false)).
Lemma tick_fields mx c p c' : tick_core mx c p = Ok c' ->
  blk c' = blk c + 1 /\ blk c < U32MAX /\ pend c' = pend (looped c p) /\ stat c' = stat (looped c p) /\
  vat c' = vat (looped c p) /\ clog c' = clog (looped c p).
Proof.
  unfold tick_core, looped. destruct (N.ltb_spec (blk c) U32MAX) as [Hb|]; [|discriminate]. cbn [ensure rbind].
  set (c1 := Core _ _ _ _ _ _ _). pose proof (loop_blk p (at_block c (blk c + 1)) (c1, false)) as Hblk.
  destruct (fold_left (process1 p) (at_block c (blk c + 1)) (c1, false)) as [c2 flag]. cbn [fst] in *.
  change (blk c1) with (blk c + 1) in Hblk.
  destruct (flag && _); [destruct (prune _ _ _) as [ids ms]|]; intros [= <-]; repeat split; assumption.
Qed.
Lemma tick_frame mx c p c' i : tick_core mx c p = Ok c' ->
  (stat c !! i = Some Challenged <-> stat c' !! i = Some Challenged) /\
  (stat c !! i = Some Challenged -> pend c' !! i = pend c !! i).
Proof.
  intros Ht. destruct (tick_fields _ _ _ _ Ht) as (_ & _ & -> & -> & _).
  apply (loop_frame p (at_block c (blk c + 1)) (Core (blk c + 1) (pend c) (stat c) (delete (blk c + 1) (vat c)) (procd c) (missed c) (clog c), false) i).
Qed.
Lemma tick_log mx c p c' : tick_core mx c p = Ok c' -> exists new, clog c' = new ++ clog c /\
  forall e, In e new -> exists i o b, e = LDone i o b.
Proof.
  intros Ht. destruct (tick_fields _ _ _ _ Ht) as (_ & _ & _ & _ & _ & ->).
  apply (loop_log p (at_block c (blk c + 1)) (Core (blk c + 1) (pend c) (stat c) (delete (blk c + 1) (vat c)) (procd c) (missed c) (clog c), false)).
Qed.

Lemma do_submit_fields mxm c p id claim c' : do_submit mxm c p id claim = Ok c' ->
  pend c !! id = None /\ pend c' = <[id := claim]> (pend c) /\ stat c' = <[id := Pending]> (stat c) /\ blk c' = blk c /\
  procd c' = procd c /\ missed c' = missed c /\
  vat c' = <[later (blk c) p := at_block c (later (blk c) p) ++ [id]]> (vat c) /\
  clog c' = LSub id claim (blk c) p :: clog c.
Proof.
  unfold do_submit. destruct (pend c !! id); [discriminate|]. cbn [ensure rbind].
  destruct (Nat.ltb _ _); [|discriminate]. intros [= <-]. repeat split.
Qed.

Lemma cleared_lookup m id i k : cleared_votes m id !! (i, k) = if i =? id then None else m !! (i, k).
Proof.
  unfold cleared_votes. destruct (N.eqb_spec i id) as [->|Hne].
  - apply map_filter_lookup_None. right. intros v _ H. cbn in H. congruence.
  - destruct (m !! (i, k)) as [v|] eqn:E.
    + apply map_filter_lookup_Some. split; [exact E|cbn; congruence].
    + apply map_filter_lookup_None. left. exact E.
Qed.

Lemma staked_insert m id who b a : m !! id = None ->
  staked (<[id := (who, b)]> m) a = (if who =? a then b else 0) + staked m a.
Proof. intros Hn. unfold staked. rewrite sumf_insert_new by exact Hn. reflexivity. Qed.
Lemma staked_delete m id who b a : m !! id = Some (who, b) ->
  staked m a = (if who =? a then b else 0) + staked (delete id m) a.
Proof.
  intros Hs. unfold staked. rewrite <- (sumf_delete _ m id). unfold contrib. rewrite Hs. reflexivity.
Qed.

Lemma place_spec s a amt s' : place s a amt = Ok s' ->
  amt <= getN (free s) a /\ s' = with_money s (<[a := getN (free s) a - amt]> (free s)) (<[a := getN (held s) a + amt]> (held s)).
Proof.
  unfold place, chk_sub. destruct (N.leb_spec amt (getN (free s) a)); [|discriminate]. cbn [of_opt rbind]. intros [= <-]. auto.
Qed.
Lemma pay_spec s a to amt s' : pay_from_hold s a to amt = Ok s' ->
  amt <= getN (held s) a /\ s' = with_money s (<[to := getN (free s) to + amt]> (free s)) (<[a := getN (held s) a - amt]> (held s)).
Proof.
  unfold pay_from_hold, chk_sub. destruct (N.leb_spec amt (getN (held s) a)); [|discriminate]. cbn [of_opt rbind]. intros [= <-]. auto.
Qed.
Lemma pay_ok s a to amt : amt <= getN (held s) a ->
  pay_from_hold s a to amt = Ok (with_money s (<[to := getN (free s) to + amt]> (free s)) (<[a := getN (held s) a - amt]> (held s))).
Proof. intros H. unfold pay_from_hold, chk_sub. destruct (N.leb_spec amt (getN (held s) a)); [reflexivity|lia]. Qed.

(** Outcome of the two verdicts in terms of what they change. *)
Lemma handle_invalid_spec rb s id : EI rb s -> stat (co s) !! id = Some Challenged ->
  exists who b, chal s !! id = Some (who, b) /\ b <= getN (held s) who /\
  exists f h,
    handle_invalid s true id =
    Ok (Ev (Core (blk (co s)) (delete id (pend (co s))) (delete id (stat (co s))) (vat (co s)) (procd (co s)) (missed (co s)) (LVerdict id false :: clog (co s)))
           (period s) None (match relayer s with Some r => delete r (rbond s) | None => rbond s end)
           (delete id (chal s)) (remove1 id (chals s)) f h (cleared_votes (votes s) id) (keys s) (nvals s)) /\
    (forall a, getN f a = getN (free s) a + if a =? who then b + match relayer s with Some r => getN (rbond s) r | None => 0 end else 0) /\
    (forall a, getN h a + (if a =? who then b else 0) + (match relayer s with Some r => if a =? r then getN (rbond s) r else 0 | None => 0 end) = getN (held s) a).
Proof.
  intros HI Hc. destruct (proj1 (ei_chal _ _ HI id) Hc) as [[who b] Hch]. exists who, b. split; [exact Hch|].
  destruct (ei_pend _ _ HI id Hc) as [cl Hp].
  pose proof (ei_held _ _ HI) as Hheld. pose proof (fun a => staked_delete (chal s) id who b a Hch) as Hst.
  assert (Hb : b <= getN (held s) who).
  { rewrite Hheld, (Hst who), N.eqb_refl. lia. }
  split; [exact Hb|]. unfold handle_invalid. cbn [ensure rbind]. rewrite Hp, Hch.
  rewrite pay_ok by exact Hb. cbn [rbind]. destruct (relayer s) as [r|] eqn:Er.
  - assert (Hr : getN (rbond s) r <= getN (<[who := getN (held s) who - b]> (held s)) r).
    { destruct (N.eq_dec who r) as [E|Hne].
      - subst r. rewrite getN_insert. rewrite Hheld, (Hst who), N.eqb_refl. lia.
      - rewrite getN_insert_ne by exact Hne. rewrite Hheld. lia. }
    rewrite pay_ok by exact Hr. cbn [rbind with_money free held]. do 2 eexists. split; [reflexivity|]. split.
    + intros a. destruct (N.eqb_spec a who) as [->|Hne].
      * rewrite !getN_insert. lia.
      * rewrite !getN_insert_ne by congruence. lia.
    + intros a. cbn [with_money held] in Hr. destruct (N.eq_dec who r) as [E|Hwr].
      * subst r. rewrite getN_insert in *. destruct (N.eqb_spec a who) as [->|Hne]; [rewrite getN_insert; lia|].
        rewrite !getN_insert_ne by congruence. lia.
      * rewrite getN_insert_ne in Hr by exact Hwr. rewrite (getN_insert_ne _ who r) by exact Hwr.
        destruct (N.eqb_spec a who) as [->|Hne].
        -- rewrite getN_insert_ne by congruence. rewrite getN_insert. destruct (N.eqb_spec who r); [congruence|lia].
        -- destruct (N.eqb_spec a r) as [->|Hne2]; [rewrite getN_insert; lia|].
           rewrite !getN_insert_ne by congruence. lia.
  - cbn [rbind with_money free held]. do 2 eexists. split; [reflexivity|]. split.
    + intros a. destruct (N.eqb_spec a who) as [->|Hne]; [rewrite getN_insert; lia|rewrite getN_insert_ne by congruence; lia].
    + intros a. destruct (N.eqb_spec a who) as [->|Hne]; [rewrite getN_insert; lia|rewrite getN_insert_ne by congruence; lia].
Qed.
Lemma handle_valid_spec rb s id r : EI rb s -> stat (co s) !! id = Some Challenged -> relayer s = Some r ->
  exists who b, chal s !! id = Some (who, b) /\ b <= getN (held s) who /\
    handle_valid s true id =
    Ok (Ev (noted (set_stat (co s) id ProvenValid) (LVerdict id true)) (period s) (relayer s) (rbond s)
           (delete id (chal s)) (remove1 id (chals s)) (<[r := getN (free s) r + b]> (free s))
           (<[who := getN (held s) who - b]> (held s)) (cleared_votes (votes s) id) (keys s) (nvals s)).
Proof.
  intros HI Hc Hr. destruct (proj1 (ei_chal _ _ HI id) Hc) as [[who b] Hch]. exists who, b. split; [exact Hch|].
  destruct (ei_pend _ _ HI id Hc) as [cl Hp].
  assert (Hb : b <= getN (held s) who).
  { rewrite (ei_held _ _ HI), (staked_delete (chal s) id who b who Hch), N.eqb_refl. lia. }
  split; [exact Hb|]. unfold handle_valid. cbn [ensure rbind]. rewrite Hp, Hr, Hch, pay_ok by exact Hb. reflexivity.
Qed.

Lemma handle_invalid_EI rb s cl id s' : EI rb s -> stat (co s) !! id = Some Challenged ->
  handle_invalid s cl id = Ok s' -> EI rb s'.
Proof.
  intros HI Hc Hh. destruct cl; [|discriminate].
  destruct (handle_invalid_spec rb s id HI Hc) as (who & b & Hch & Hb & f & h & Eq & Hf & Hhd).
  rewrite Eq in Hh. injection Hh as <-. pose proof HI as [].
  constructor; cbn [co period relayer rbond chal chals free held votes keys nvals blk pend stat vat procd missed clog].
  - apply invalid_CI. assumption.
  - assumption.
  - assumption.
  - intros i. destruct (N.eq_dec id i) as [E|Hne]; [subst i; rewrite !lookup_delete; split; [congruence|intros [? [=]]]|].
    rewrite !lookup_delete_ne by exact Hne. apply ei_chal0.
  - intros i. destruct (N.eq_dec id i) as [E|Hne]; [subst i; rewrite lookup_delete; congruence|].
    rewrite !lookup_delete_ne by exact Hne. apply ei_pend0.
  - intros i k v. rewrite cleared_lookup. destruct (N.eqb_spec i id) as [|Hne]; [discriminate|].
    rewrite lookup_delete_ne by congruence. intros Hv. destruct (ei_votes0 i k v Hv) as [H1 H2]. split; [exact H1|].
    apply since_cons; [exact I|exact H2].
  - intros a. specialize (Hhd a). rewrite ei_held0 in Hhd. rewrite (staked_delete (chal s) id who b a Hch) in Hhd.
    rewrite (N.eqb_sym who a) in Hhd.
    destruct (relayer s) as [r|] eqn:Er; [|lia].
    destruct (N.eqb_spec a r) as [Ear|Hne]; [rewrite <- Ear, getN_delete; rewrite <- Ear in Hhd; lia|].
    unfold getN at 2. rewrite lookup_delete_ne by congruence. fold (getN (rbond s) a). lia.
  - discriminate.
Qed.
Lemma handle_valid_EI rb s cl id s' : EI rb s -> stat (co s) !! id = Some Challenged ->
  handle_valid s cl id = Ok s' -> EI rb s'.
Proof.
  intros HI Hc Hh. destruct cl; [|discriminate]. destruct (relayer s) as [r|] eqn:Er.
  - destruct (handle_valid_spec rb s id r HI Hc Er) as (who & b & Hch & Hb & Eq). rewrite Eq in Hh. injection Hh as <-.
    pose proof HI as [].
    constructor; cbn [co period relayer rbond chal chals free held votes keys nvals blk pend stat vat procd missed clog noted set_stat].
    + apply (valid_CI (co s) id). assumption.
    + assumption.
    + assumption.
    + intros i. destruct (N.eq_dec id i) as [E|Hne]; [subst i; rewrite lookup_insert, lookup_delete; split; [congruence|intros [? [=]]]|].
      rewrite lookup_insert_ne, lookup_delete_ne by exact Hne. apply ei_chal0.
    + intros i. destruct (N.eq_dec id i) as [E|Hne]; [subst i; rewrite lookup_insert; congruence|].
      rewrite lookup_insert_ne by exact Hne. apply ei_pend0.
    + intros i k v. rewrite cleared_lookup. destruct (N.eqb_spec i id) as [|Hne]; [discriminate|].
      rewrite lookup_insert_ne by congruence. intros Hv. destruct (ei_votes0 i k v Hv) as [H1 H2]. split; [exact H1|].
      apply since_cons; [exact I|exact H2].
    + intros a. pose proof (staked_delete (chal s) id who b a Hch) as Hst. specialize (ei_held0 a).
      destruct (N.eqb_spec who a) as [->|Hne]; [rewrite getN_insert; lia|rewrite getN_insert_ne by exact Hne; lia].
    + exact ei_rel0.
  - unfold handle_valid in Hh. cbn [ensure rbind] in Hh. rewrite Er in Hh. destruct (pend (co s) !! id); [|discriminate].
    injection Hh as <-. pose proof HI as [].
    constructor; cbn [co period relayer rbond chal chals free held votes keys nvals]; try assumption.
    + intros i k v. rewrite cleared_lookup. destruct (i =? id); [discriminate|]. apply ei_votes0.
    + discriminate.
Qed.
Lemma vote_EI rb s id k v : EI rb s -> stat (co s) !! id = Some Challenged ->
  EI rb (Ev (noted (co s) (LVote id k v)) (period s) (relayer s) (rbond s) (chal s) (chals s)
            (free s) (held s) (<[(id, k) := v]> (votes s)) (keys s) (nvals s)).
Proof.
  intros [] Hc. constructor; cbn [co period relayer rbond chal chals free held votes keys nvals]; try assumption.
  - apply vote_CI. assumption.
  - intros i j w. destruct (decide ((id, k) = (i, j))) as [E|Hne].
    + injection E as -> ->. rewrite lookup_insert. intros [= ->]. split; [exact Hc|].
      cbn [noted clog votes_since]. rewrite N.eqb_refl. left. reflexivity.
    + rewrite lookup_insert_ne by exact Hne. intros Hv. destruct (ei_votes0 i j w Hv) as [H1 H2]. split; [exact H1|].
      apply since_cons; [exact I|exact H2].
Qed.
Lemma handle_vote_EI thr rb s cl id k v s' : EI rb s -> handle_event_vote thr s cl id k v = Ok s' -> EI rb s'.
Proof.
  intros HI. unfold handle_event_vote. case_bool_decide as Hc; [|discriminate]. cbn [ensure rbind].
  pose proof (vote_EI rb s id k v HI Hc) as HI1. revert HI1. set (s1 := Ev _ _ _ _ _ _ _ _ _ _ _). intros HI1.
  destruct (_ <? pct _ _); [apply handle_invalid_EI; [exact HI1|exact Hc]|].
  destruct (_ <=? pct _ _); [apply handle_valid_EI; [exact HI1|exact Hc]|]. intros [= <-]. exact HI1.
Qed.

Lemma submit_EI rb s c id claim p mxm : EI rb s -> CI c -> do_submit mxm (co s) p id claim = Ok c -> EI rb (with_core s c).
Proof.
  intros [] HC Hd. destruct (do_submit_fields _ _ _ _ _ _ Hd) as (Hn & Ep & Es & Eb & _ & _ & _ & El).
  assert (Hnc : stat (co s) !! id <> Some Challenged) by (intros H; apply ei_pend0 in H; rewrite Hn in H; destruct H; discriminate).
  constructor; cbn [with_core co period relayer rbond chal chals free held votes keys nvals]; try assumption.
  - rewrite Eb. assumption.
  - intros i. rewrite Es. destruct (N.eq_dec id i) as [E|Hne].
    + subst i. rewrite lookup_insert. rewrite <- ei_chal0. split; congruence.
    + rewrite lookup_insert_ne by exact Hne. apply ei_chal0.
  - intros i. rewrite Es, Ep. destruct (N.eq_dec id i) as [E|Hne]; [subst i; rewrite lookup_insert; congruence|].
    rewrite !lookup_insert_ne by exact Hne. apply ei_pend0.
  - intros i k v Hv. destruct (ei_votes0 i k v Hv) as [H1 H2]. rewrite Es, El.
    rewrite lookup_insert_ne by congruence. split; [exact H1|]. apply since_cons; [exact I|exact H2].
Qed.

Lemma eexec_EI mx mxm mxc thr rb cb s o s' : (1 <= mx)%nat -> EI rb s ->
  eexec mx mxm mxc thr rb cb s o = Ok s' -> EI rb s'.
Proof.
  intros Hmx HI. pose proof HI as []. destruct o; cbn [eexec].
  - (* tick *) destruct (tick_core mx (co s) (period s)) as [c|] eqn:Et; [|discriminate]. cbn [rbind]. intros [= <-].
    pose proof (fun i => tick_frame _ _ _ _ i Et) as Hfr. destruct (tick_log _ _ _ _ Et) as (new & El & Hnew).
    destruct (tick_fields _ _ _ _ Et) as (Eb & Hb & _).
    constructor; cbn [with_core co period relayer rbond chal chals free held votes keys nvals]; try assumption.
    + exact (tick_CI mx (co s) (period s) c Hmx ei_period0 ei_c0 Et).
    + lia.
    + intros i. rewrite <- (proj1 (Hfr i)). apply ei_chal0.
    + intros i Hc. apply (proj1 (Hfr i)) in Hc. rewrite (proj2 (Hfr i)) by exact Hc. apply ei_pend0. exact Hc.
    + intros i k v Hv. destruct (ei_votes0 i k v Hv) as [H1 H2]. split; [apply (Hfr i); exact H1|].
      rewrite El. apply since_app; [|exact H2]. intros e He. destruct (Hnew e He) as (? & ? & ? & ->). exact I.
  - (* submit *) unfold submit, submit_core. case_bool_decide; [|discriminate]. cbn [ensure rbind].
    destruct (fresh_id (co s) id) eqn:Ef; [|discriminate]. cbn [ensure rbind].
    destruct (do_submit mxm (co s) (period s) id claim) as [c|] eqn:Ed; [|discriminate]. cbn [rbind]. intros [= <-].
    eapply submit_EI; [exact HI| |exact Ed]. exact (do_submit_CI mxm (co s) (period s) id claim c ei_c0 ei_period0 ei_blk0 (submit_fresh _ _ ei_c0 Ef) Ed).
  - unfold submit_missing, submit_missing_core. case_bool_decide; [|discriminate]. cbn [ensure rbind].
    destruct (memb id (missed (co s))) eqn:Ef; [|discriminate]. cbn [ensure rbind].
    destruct (do_submit mxm (co s) (period s) id claim) as [c|] eqn:Ed; [|discriminate]. cbn [rbind]. intros [= <-].
    eapply submit_EI; [exact HI| |exact Ed]. refine (do_submit_CI mxm (co s) (period s) id claim c ei_c0 ei_period0 ei_blk0 _ Ed).
    intros Hd. apply memb_in in Ef. destruct (ci_done _ ei_c0 id Hd) as (_ & H1 & _). tauto.
  - (* challenge *) unfold challenge. destruct (pend (co s) !! id) as [cl|] eqn:Ep; [|discriminate]. cbn [ensure rbind].
    case_bool_decide as Hs; [|discriminate]. cbn [ensure rbind].
    destruct (place s who cb) as [s1|] eqn:Epl; [|discriminate]. cbn [rbind].
    destruct (Nat.ltb _ mxc); [|discriminate]. cbn [ensure rbind]. intros [= <-].
    destruct (place_spec _ _ _ _ Epl) as [Hle ->]. cbn [with_money free held].
    assert (Hn : chal s !! id = None).
    { destruct (chal s !! id) eqn:E; [|reflexivity]. exfalso. assert (stat (co s) !! id = Some Challenged) by (apply ei_chal0; rewrite E; eauto). congruence. }
    constructor; cbn [co period relayer rbond chal chals free held votes keys nvals noted set_stat stat pend clog blk]; try assumption.
    + apply (chal_CI (co s) id who). assumption.
    + intros i. destruct (N.eq_dec id i) as [E|Hne]; [subst i; rewrite !lookup_insert; split; eauto|].
      rewrite !lookup_insert_ne by exact Hne. apply ei_chal0.
    + intros i. destruct (N.eq_dec id i) as [E|Hne]; [subst i; eauto|]. rewrite lookup_insert_ne by exact Hne. apply ei_pend0.
    + intros i k v Hv. destruct (ei_votes0 i k v Hv) as [H1 H2].
      assert (id <> i) by congruence. rewrite lookup_insert_ne by assumption. split; [exact H1|]. apply since_cons; [assumption|exact H2].
    + intros a. rewrite staked_insert by exact Hn. specialize (ei_held0 a).
      destruct (N.eqb_spec who a) as [->|Hne]; [rewrite getN_insert; lia|rewrite getN_insert_ne by exact Hne; lia].
  - (* notarize *) unfold notarize. destruct (nth_error (keys s) idx) as [key|]; [|discriminate]. cbn [of_opt rbind].
    destruct (votes s !! (id, key)); [discriminate|]. cbn [ensure rbind]. apply handle_vote_EI. exact HI.
  - (* strike *) intros [= <-]. constructor; cbn [with_core co period relayer rbond chal chals free held votes keys nvals]; try assumption.
    + apply strike_CI. assumption.
  - destruct (N.leb_spec p U32MAX) as [Hp|]; [|discriminate]. cbn [ensure rbind]. intros [= <-].
    constructor; cbn [co period relayer rbond chal chals free held votes keys nvals]; assumption.
  - unfold set_relayer. destruct (N.leb_spec rb (getN (rbond s) r)) as [Hr|]; [|discriminate]. cbn [ensure rbind]. intros [= <-].
    constructor; cbn [co period relayer rbond chal chals free held votes keys nvals]; try assumption. intros r' [= <-]. exact Hr.
  - unfold deposit_bond. destruct (N.eqb_spec (getN (rbond s) a) 0) as [Hz|]; [|discriminate]. cbn [ensure rbind].
    destruct (place s a rb) as [s1|] eqn:Epl; [|discriminate]. cbn [rbind]. intros [= <-].
    destruct (place_spec _ _ _ _ Epl) as [Hle ->]. cbn [with_money free held].
    constructor; cbn [co period relayer rbond chal chals free held votes keys nvals]; try assumption.
    + intros a'. specialize (ei_held0 a'). destruct (N.eq_dec a a') as [E|Hne]; [subst a'; rewrite !getN_insert; lia|].
      rewrite !getN_insert_ne by exact Hne. exact ei_held0.
    + intros r Hr. specialize (ei_rel0 r Hr). destruct (N.eq_dec a r) as [E|Hne]; [subst r; rewrite getN_insert; lia|].
      rewrite getN_insert_ne by exact Hne. exact ei_rel0.
  - unfold withdraw_bond. case_bool_decide as Hr; [discriminate|]. cbn [ensure rbind negb].
    destruct (0 <? getN (rbond s) a); [|discriminate]. cbn [ensure rbind].
    destruct (pay_from_hold s a a (getN (rbond s) a)) as [s1|] eqn:Epl; [|discriminate]. cbn [rbind]. intros [= <-].
    destruct (pay_spec _ _ _ _ _ Epl) as [Hle ->]. cbn [with_money free held].
    constructor; cbn [co period relayer rbond chal chals free held votes keys nvals]; try assumption.
    + intros a'. specialize (ei_held0 a'). destruct (N.eq_dec a a') as [E|Hne].
      * subst a'. rewrite getN_insert, getN_delete. lia.
      * rewrite getN_insert_ne by exact Hne. unfold getN at 2. rewrite lookup_delete_ne by exact Hne. fold (getN (rbond s) a'). exact ei_held0.
    + intros r Hr'. specialize (ei_rel0 r Hr'). assert (a <> r) by congruence.
      unfold getN. rewrite lookup_delete_ne by assumption. exact ei_rel0.
  - intros [= <-]. constructor; cbn [co period relayer rbond chal chals free held votes keys nvals]; assumption.
  - intros [= <-]. constructor; cbn [co period relayer rbond chal chals free held votes keys nvals]; assumption.
  - intros [= <-]. constructor; cbn [with_money co period relayer rbond chal chals free held votes keys nvals]; assumption.
Qed.

Lemma EI0 rb ks : EI rb (einit ks).
Proof.
  constructor; unfold einit; cbn [co period relayer rbond chal chals free held votes keys nvals].
  - apply CI0.
  - vm_compute; discriminate.
  - vm_compute; discriminate.
  - intros i. unfold ecore0; cbn [stat]. rewrite !lookup_empty. split; [discriminate|intros [? [=]]].
  - intros i. unfold ecore0; cbn [stat]. rewrite lookup_empty. discriminate.
  - intros i k v. rewrite lookup_empty. discriminate.
  - intros a. rewrite !getN_empty. reflexivity.
  - discriminate.
Qed.
Lemma reach_EI mx mxm mxc thr rb cb ks ops : (1 <= mx)%nat ->
  EI rb (run (estep mx mxm mxc thr rb cb) ops (einit ks)).
Proof.
  intros Hmx. apply run_inv; [|apply EI0]. intros s o HI. unfold estep. destruct (eexec _ _ _ _ _ _ s o) eqn:E; cbn [commit]; [|exact HI].
  eapply eexec_EI; eassumption.
Qed.
