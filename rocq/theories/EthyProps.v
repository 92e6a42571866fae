(** Properties of the incoming Ethereum bridge: C30, C31, C32, C69-C74. *)
From Verif Require Export EthyLive.

(** State reached from genesis with notary keys [ks] after any calls, blocks and set changes. *)
Definition ereach (mx mxm mxc : nat) (thr rb cb : N) (ks : list N) (ops : list eop) : ev :=
  run (estep mx mxm mxc thr rb cb) ops (einit ks).
Definition elogs (mx mxm mxc : nat) (thr rb cb : N) (ks : list N) (ops : list eop) : list elog :=
  clog (co (ereach mx mxm mxc thr rb cb ks ops)).

Lemma ereach_EI mx mxm mxc thr rb cb ks ops : (1 <= mx)%nat -> EI rb (ereach mx mxm mxc thr rb cb ks ops).
Proof. apply reach_EI. Qed.

(** A small bridge for examples: 3 ids kept, relayer 50, challenger 60. *)
Definition demo (thr : N) (ks : list N) (ops : list eop) : ev := ereach 3 100 10 thr 100 10 ks ops.
Definition setup : list eop :=
  [EFund 50 1000; EFund 51 1000; EFund 60 1000; EDeposit 50; EDeposit 51; ESetRelayer 50; ESetPeriod 5].
Definition ticks (n : nat) : list eop := repeat ETick n.

Section props.
  Variables (mx mxm mxc : nat) (thr rb cb : N) (ks : list N).
  Hypothesis Hmx : (1 <= mx)%nat.
  Local Notation reach ops := (ereach mx mxm mxc thr rb cb ks ops).
  Local Notation log ops := (elogs mx mxm mxc thr rb cb ks ops).

  (** ** C30: a bridge event is delivered at most once *)
  Theorem C30_at_most_once ops id : (routes (log ops) id <= 1)%nat.
  Proof. apply (ci_one _ (ei_c _ _ (ereach_EI mx mxm mxc thr rb cb ks ops Hmx))). Qed.
  (** and once it has been processed neither call accepts it again. *)
  Theorem C30_no_resubmission ops id o b who claim : In (LDone id o b) (log ops) ->
    is_ok (submit mxm (reach ops) who id claim) = false /\ is_ok (submit_missing mxm (reach ops) who id claim) = false.
  Proof.
    intros Hin. pose proof (ei_c _ _ (ereach_EI mx mxm mxc thr rb cb ks ops Hmx)) as HI.
    assert (Hd : done (clog (co (reach ops))) id) by (exists o, b; exact Hin). split.
    - unfold submit. case_bool_decide; [|reflexivity]. cbn [ensure rbind]. unfold submit_core.
      destruct (fresh_id (co (reach ops)) id) eqn:Ef; [|reflexivity]. destruct (submit_fresh _ _ HI Ef Hd).
    - unfold submit_missing. case_bool_decide; [|reflexivity]. cbn [ensure rbind]. unfold submit_missing_core.
      destruct (memb id (missed (co (reach ops)))) eqn:Ef; [|reflexivity]. apply memb_in in Ef.
      destruct (ci_done _ HI id Hd) as (_ & Hm & _). contradiction.
  Qed.

  (** ** C31: delivered only after the challenge period, never while challenged *)
  Theorem C31_never_while_challenged ops id o b new old :
    log ops = new ++ LDone id o b :: old -> open old id = false.
  Proof.
    intros E. pose proof (ci_log _ (ei_c _ _ (ereach_EI mx mxm mxc thr rb cb ks ops Hmx))) as HL.
    unfold elogs in E. rewrite E in HL. clear E. induction new as [|e new IH]; cbn [app] in HL; [apply HL|].
    apply IH. destruct e; try exact HL. apply HL.
  Qed.
  (** Every delivery is at least a full challenge period after some submission of that id. *)
  Theorem C31_after_a_period ops id o b new old :
    log ops = new ++ LDone id o b :: old -> exists cl b0 p0, In (LSub id cl b0 p0) old /\ b0 + p0 <= b.
  Proof.
    intros E. pose proof (ci_log _ (ei_c _ _ (ereach_EI mx mxm mxc thr rb cb ks ops Hmx))) as HL.
    unfold elogs in E. rewrite E in HL. clear E. induction new as [|e new IH]; cbn [app] in HL; [apply HL|].
    apply IH. destruct e; try exact HL. apply HL.
  Qed.
  (** When the id was submitted only once before, that submission is the one delivered. *)
  Theorem C31_full_period_partial ops id cl b new old :
    log ops = new ++ LDone id (Some cl) b :: old ->
    (forall c1 b1 p1 c2 b2 p2, In (LSub id c1 b1 p1) old -> In (LSub id c2 b2 p2) old -> (c1, b1, p1) = (c2, b2, p2)) ->
    exists b0 p0, last_sub old id = Some (cl, b0, p0) /\ b0 + p0 <= b.
  Proof.
    intros E Hu. destruct (C31_after_a_period ops id (Some cl) b new old E) as (c1 & b1 & p1 & Hin & Hle).
    pose proof (ci_log _ (ei_c _ _ (ereach_EI mx mxm mxc thr rb cb ks ops Hmx))) as HL.
    assert (Hl : exists b0 p0, last_sub old id = Some (cl, b0, p0)).
    { unfold elogs in E. rewrite E in HL. clear E Hu Hin. induction new as [|e new IH]; cbn [app] in HL.
      - destruct HL as (_ & _ & H & _). apply H. reflexivity.
      - apply IH. destruct e; try exact HL. apply HL. }
    destruct Hl as (b0 & p0 & Hl). exists b0, p0. split; [exact Hl|].
    assert (Hin2 : In (LSub id cl b0 p0) old).
    { clear - Hl. induction old as [|e old IH]; [discriminate|]. destruct e; cbn [last_sub] in Hl; try (right; apply IH; exact Hl).
      destruct (N.eqb_spec id0 id) as [->|]; [|right; apply IH; exact Hl]. injection Hl as -> -> ->. left. reflexivity. }
    specialize (Hu _ _ _ _ _ _ Hin Hin2). injection Hu as -> -> ->. exact Hle.
  Qed.

  (** Only a notarisation can log a verdict. *)
  Lemma verdict_step s o s' id v rest : thr <= 100 ->
    eexec mx mxm mxc thr rb cb s o = Ok s' ->
    clog (co s') = LVerdict id v :: rest -> clog (co s') <> clog (co s) ->
    exists cl idx k w, o = ENotarize cl idx id w /\ nth_error (keys s) idx = Some k /\ handle_event_vote thr s cl id k w = Ok s'.
  Proof.
    intros Ht Hex El Hne. destruct o; cbn [eexec] in Hex.
      - destruct (tick_core mx (co s) (period s)) as [c|] eqn:Et; [|discriminate]. injection Hex as <-. cbn [with_core co] in *.
        exfalso. destruct (tick_log _ _ _ _ Et) as (new & E & Hn). destruct new as [|e new]; [apply Hne; exact E|].
        rewrite El in E. injection E as <- _. destruct (Hn _ (or_introl eq_refl)) as (? & ? & ? & [=]).
      - exfalso. unfold submit, submit_core in Hex. case_bool_decide; [|discriminate]. cbn [ensure rbind] in Hex.
        destruct (fresh_id (co s) id0); [|discriminate]. cbn [ensure rbind] in Hex.
        destruct (do_submit mxm (co s) (period s) id0 claim) as [c|] eqn:Ed; [|discriminate]. injection Hex as <-. cbn [with_core co] in *.
        destruct (do_submit_fields _ _ _ _ _ _ Ed) as (_ & _ & _ & _ & _ & _ & _ & E). rewrite El in E. discriminate.
      - exfalso. unfold submit_missing, submit_missing_core in Hex. case_bool_decide; [|discriminate]. cbn [ensure rbind] in Hex.
        destruct (memb id0 (missed (co s))); [|discriminate]. cbn [ensure rbind] in Hex.
        destruct (do_submit mxm (co s) (period s) id0 claim) as [c|] eqn:Ed; [|discriminate]. injection Hex as <-. cbn [with_core co] in *.
        destruct (do_submit_fields _ _ _ _ _ _ Ed) as (_ & _ & _ & _ & _ & _ & _ & E). rewrite El in E. discriminate.
      - exfalso. unfold challenge in Hex. destruct (pend (co s) !! id0); [|discriminate]. cbn [ensure rbind] in Hex.
        case_bool_decide; [|discriminate]. cbn [ensure rbind] in Hex. destruct (place s who cb); [|discriminate]. cbn [rbind] in Hex.
        destruct (Nat.ltb _ mxc); [|discriminate]. injection Hex as <-. cbn in El. discriminate.
      - unfold notarize in Hex. destruct (nth_error (keys s) idx) as [key|] eqn:Ekey; [|discriminate]. cbn [of_opt rbind] in Hex.
        destruct (votes s !! (id0, key)); [discriminate|]. cbn [ensure rbind] in Hex.
        destruct (vote_verdict thr s cleared id0 key valid s' id v rest Ht Hex El Hne) as (-> & _). exists cleared, idx, key, valid. auto.
      - exfalso. injection Hex as <-. cbn in El. discriminate.
      - exfalso. destruct (_ <=? _); [|discriminate]. injection Hex as <-. apply Hne; reflexivity.
      - exfalso. unfold set_relayer in Hex. destruct (_ <=? _); [|discriminate]. injection Hex as <-. apply Hne; reflexivity.
      - exfalso. unfold deposit_bond in Hex. destruct (_ =? _); [|discriminate]. cbn [ensure rbind] in Hex.
        destruct (place s a rb); [|discriminate]. injection Hex as <-. apply Hne; reflexivity.
      - exfalso. unfold withdraw_bond in Hex. destruct (negb _); [|discriminate]. cbn [ensure rbind] in Hex.
        destruct (_ <? _); [|discriminate]. cbn [ensure rbind] in Hex. destruct (pay_from_hold _ _ _ _); [|discriminate]. injection Hex as <-. apply Hne; reflexivity.
      - exfalso. injection Hex as <-. apply Hne; reflexivity.
      - exfalso. injection Hex as <-. apply Hne; reflexivity.
      - exfalso. injection Hex as <-. apply Hne; reflexivity.
  Qed.
  (** ** C32: verdicts need the configured share of distinct notaries *)
  Theorem C32_share ops o s' id v rest : thr <= 100 ->
    eexec mx mxm mxc thr rb cb (reach ops) o = Ok s' ->
    clog (co s') = LVerdict id v :: rest -> clog (co s') <> log ops ->
    exists V, NoDup V /\ (forall k, In k V -> In (k, v) (votes_since rest id)) /\
      if v then thr * nvals (reach ops) <= 100 * N.of_nat (length V)
      else (100 - thr) * nvals (reach ops) < 100 * N.of_nat (length V) \/ nvals (reach ops) = 0.
  Proof.
    intros Ht Hex El Hne. pose proof (ereach_EI mx mxm mxc thr rb cb ks ops Hmx) as HI. unfold elogs in Hne.
    destruct (verdict_step _ _ _ _ _ _ Ht Hex El Hne) as (cl & idx & k & w & _ & _ & Hv).
    destruct (vote_verdict thr _ cl id k w s' id v rest Ht Hv El Hne) as (_ & Er & Hshare). cbv zeta in Hshare.
    eexists. split; [apply votes_on_nodup|]. split; [|exact Hshare].
    intros k' Hk. apply votes_on_in in Hk. rewrite Er. cbn [votes_since]. rewrite N.eqb_refl.
    destruct (decide ((id, k) = (id, k'))) as [E|Hk'].
    - injection E as <-. rewrite lookup_insert in Hk. injection Hk as ->. left. reflexivity.
    - rewrite lookup_insert_ne in Hk by exact Hk'. right. apply (ei_votes _ _ HI id k' v Hk).
  Qed.
  (** A vote is only recorded for a key that is a notary at that moment, on a challenged claim. *)
  Theorem C32_voters_are_notaries s cl idx id v s' :
    notarize thr s cl idx id v = Ok s' ->
    exists key, In key (keys s) /\ nth_error (keys s) idx = Some key /\ votes s !! (id, key) = None /\
                stat (co s) !! id = Some Challenged.
  Proof.
    unfold notarize. destruct (nth_error (keys s) idx) as [key|] eqn:Ek; [|discriminate]. cbn [of_opt rbind].
    destruct (votes s !! (id, key)) eqn:Ev; [discriminate|]. cbn [ensure rbind]. unfold handle_event_vote.
    case_bool_decide as Hc; [|discriminate]. intros _. exists key. split; [apply nth_error_In in Ek; exact Ek|auto].
  Qed.

  (** ** C70: an event that was never processed can still be submitted *)
  Theorem C70_recoverable ops id claim r : let s := reach ops in
    relayer s = Some r -> pend (co s) !! id = None ->
    ~ (exists o b, In (LDone id o b) (log ops)) ->
    ~ (exists lo hi, In (LStruck lo hi) (log ops) /\ lo <= id <= hi) ->
    (forall f, first_done (log ops) = Some f -> f <= id) ->
    (length (at_block (co s) (later (blk (co s)) (period s))) < mxm)%nat ->
    is_ok (submit mxm s r id claim) = true \/ is_ok (submit_missing mxm s r id claim) = true.
  Proof.
    cbv zeta. intros Hr Hp Hnd Hns Hf Hlen. pose proof (ei_c _ _ (ereach_EI mx mxm mxc thr rb cb ks ops Hmx)) as HI.
   
    assert (Hsub : is_ok (do_submit mxm (co (reach ops)) (period (reach ops)) id claim) = true).
    { unfold do_submit. rewrite Hp. cbn [ensure rbind]. destruct (Nat.ltb_spec (length (at_block (co (reach ops)) (later (blk (co (reach ops))) (period (reach ops))))) mxm); [reflexivity|lia]. }
    assert (Hor : fresh_id (co (reach ops)) id = true \/ memb id (missed (co (reach ops))) = true).
    { destruct (first_done (clog (co (reach ops)))) as [f|] eqn:Ef.
      - destruct (ci_reach _ HI f id Ef (Hf f Ef)) as [H|[H|[H|H]]]; [contradiction|contradiction|right; apply memb_in; exact H|left].
        unfold fresh_id. destruct (procd (co (reach ops))) as [|h t] eqn:Epr; [reflexivity|].
        assert (Hnin : ~ In id (h :: t)) by (intros Hin; apply Hnd; apply (ci_pd _ HI); rewrite Epr; exact Hin).
        apply andb_true_intro. split; [|apply negb_true_iff, memb_false; exact Hnin]. cbn [below] in H. cbn [In] in Hnin.
        apply N.ltb_lt. assert (h <> id) by tauto. lia.
      - left. unfold fresh_id. rewrite (ci_first _ HI Ef). reflexivity. }
    destruct Hor as [Hx|Hx]; [left; unfold submit, submit_core|right; unfold submit_missing, submit_missing_core];
      rewrite bool_decide_eq_true_2 by exact Hr; cbn [ensure rbind]; rewrite Hx; cbn [ensure rbind];
      destruct (do_submit mxm (co (reach ops)) (period (reach ops)) id claim); [reflexivity|discriminate|reflexivity|discriminate].
  Qed.

  (** ** C71: a complete vote settles a challenge *)
  Theorem C71_settled_partial ops idx id v s' key : let s := reach ops in
    1 <= thr -> thr <= 100 -> 1 <= nvals s -> relayer s <> None ->
    nth_error (keys s) idx = Some key ->
    notarize thr s true idx id v = Ok s' ->
    let vs := <[(id, key) := v]> (votes s) in
    let nay := N.of_nat (length (votes_on vs id false)) in
    N.of_nat (length (votes_on vs id true)) + nay = nvals s ->
    ~ ((100 - thr) * nvals s < 100 * nay < (101 - thr) * nvals s) ->
    open (clog (co s')) id = false.
  Proof.
    cbv zeta. intros Ht1 Ht Hn Hr Hk Hv Hsum Hgap. pose proof (ereach_EI mx mxm mxc thr rb cb ks ops Hmx) as HI.
    assert (HI' : EI rb s').
    { apply (eexec_EI mx mxm mxc thr rb cb (reach ops) (ENotarize true idx id v) s' Hmx HI). exact Hv. }
    unfold notarize in Hv. rewrite Hk in Hv. cbn [of_opt rbind] in Hv.
    destruct (votes (reach ops) !! (id, key)) eqn:Evv; [discriminate|]. cbn [ensure rbind] in Hv.
    pose proof (vote_settles thr rb _ id key v s' HI Ht Ht1 Hn Hr Hv Hsum Hgap) as Hs.
    destruct (open (clog (co s')) id) eqn:Eo; [|reflexivity]. apply (ci_open _ (ei_c _ _ HI')) in Eo. contradiction.
  Qed.

  (** ** C72: bonds are backed and paid out in full *)
  Theorem C72_backed ops a : let s := reach ops in
    getN (held s) a = getN (rbond s) a + sumf (fun _ e => if fst e =? a then snd e else 0) (chal s).
  Proof. apply (ei_held _ _ (ereach_EI mx mxm mxc thr rb cb ks ops Hmx)). Qed.
  Theorem C72_relayer_bonded ops r : relayer (reach ops) = Some r ->
    rb <= getN (rbond (reach ops)) r /\ rb <= getN (held (reach ops)) r /\ is_ok (withdraw_bond (reach ops) r) = false.
  Proof.
    intros Hr. pose proof (ereach_EI mx mxm mxc thr rb cb ks ops Hmx) as HI.
    pose proof (ei_rel _ _ HI r Hr) as H1. pose proof (ei_held _ _ HI r) as H2. split; [exact H1|]. split; [lia|].
    unfold withdraw_bond. rewrite Hr. rewrite bool_decide_eq_true_2 by reflexivity. reflexivity.
  Qed.
  (** A claim judged false: the challenger gets its own bond back and all of the relayer's. *)
  Theorem C72_false_claim_pays ops id : let s := reach ops in
    stat (co s) !! id = Some Challenged ->
    exists who b s', chal s !! id = Some (who, b) /\ handle_invalid s true id = Ok s' /\ relayer s' = None /\ chal s' !! id = None /\
      forall a, getN (free s') a = getN (free s) a + if a =? who then b + match relayer s with Some r => getN (rbond s) r | None => 0 end else 0.
  Proof.
    cbv zeta. intros Hc. pose proof (ereach_EI mx mxm mxc thr rb cb ks ops Hmx) as HI.
    destruct (handle_invalid_spec rb _ id HI Hc) as (who & b & Hch & _ & f & h & Eq & Hf & _).
    do 3 eexists. split; [exact Hch|]. split; [exact Eq|]. cbn [relayer chal free]. split; [reflexivity|]. split; [apply lookup_delete|exact Hf].
  Qed.
  (** A claim judged valid: the relayer gets the challenger's bond. *)
  Theorem C72_false_challenge_pays ops id r : let s := reach ops in
    stat (co s) !! id = Some Challenged -> relayer s = Some r ->
    exists who b s', chal s !! id = Some (who, b) /\ handle_valid s true id = Ok s' /\ chal s' !! id = None /\
      forall a, getN (free s') a = getN (free s) a + if a =? r then b else 0.
  Proof.
    cbv zeta. intros Hc Hr. pose proof (ereach_EI mx mxm mxc thr rb cb ks ops Hmx) as HI.
    destruct (handle_valid_spec rb _ id r HI Hc Hr) as (who & b & Hch & _ & Eq).
    do 3 eexists. split; [exact Hch|]. split; [exact Eq|]. cbn [relayer chal free]. split; [apply lookup_delete|].
    intros a. destruct (N.eqb_spec a r) as [->|Hne]; [apply getN_insert|rewrite getN_insert_ne by congruence; lia].
  Qed.

  (** ** C73: every submitted event is eventually processed *)
  Definition calm (s : ev) (o : eop) : Prop := 1 <= period s /\ blk (co s) + 1 + period s <= U32MAX.
  Theorem C73_scheduled_partial ops id cl :
    along (estep mx mxm mxc thr rb cb) calm ops (einit ks) ->
    pend (co (reach ops)) !! id = Some cl ->
    exists k, blk (co (reach ops)) < k /\ In id (default [] (vat (co (reach ops)) !! k)).
  Proof.
    intros Hal.
    enough (Hs : scheduled (co (reach ops))) by (apply Hs).
    unfold ereach. assert (H0 : scheduled (co (einit ks))) by (intros i c; cbn; rewrite lookup_empty; discriminate).
    revert Hal H0. generalize (einit ks) as s. induction ops as [|o ops IH]; intros s Hal H0; [exact H0|].
    cbn [along] in Hal. destruct Hal as [[Hp Hb] Hal]. change (run _ (o :: ops) s) with (run (estep mx mxm mxc thr rb cb) ops (estep mx mxm mxc thr rb cb s o)).
    apply IH; [exact Hal|]. clear IH Hal. unfold estep. destruct (eexec mx mxm mxc thr rb cb s o) as [s'|] eqn:E; [|exact H0]. cbn [commit].
    destruct o; cbn [eexec] in E.
    - destruct (tick_core mx (co s) (period s)) as [c|] eqn:Et; [|discriminate]. injection E as <-. cbn [with_core co].
      eapply tick_scheduled; eassumption.
    - unfold submit, submit_core in E. case_bool_decide; [|discriminate]. cbn [ensure rbind] in E.
      destruct (fresh_id (co s) id0); [|discriminate]. cbn [ensure rbind] in E.
      destruct (do_submit mxm (co s) (period s) id0 claim) as [c|] eqn:Ed; [|discriminate]. injection E as <-. cbn [with_core co].
      eapply submit_scheduled; [exact Hp| |exact H0|exact Ed]. lia.
    - unfold submit_missing, submit_missing_core in E. case_bool_decide; [|discriminate]. cbn [ensure rbind] in E.
      destruct (memb id0 (missed (co s))); [|discriminate]. cbn [ensure rbind] in E.
      destruct (do_submit mxm (co s) (period s) id0 claim) as [c|] eqn:Ed; [|discriminate]. injection E as <-. cbn [with_core co].
      eapply submit_scheduled; [exact Hp| |exact H0|exact Ed]. lia.
    - unfold challenge in E. destruct (pend (co s) !! id0); [|discriminate]. cbn [ensure rbind] in E.
      case_bool_decide; [|discriminate]. cbn [ensure rbind] in E. destruct (place s who cb); [|discriminate]. cbn [rbind] in E.
      destruct (Nat.ltb _ mxc); [|discriminate]. injection E as <-. exact H0.
    - unfold notarize in E. destruct (nth_error (keys s) idx) as [key|]; [|discriminate]. cbn [of_opt rbind] in E.
      destruct (votes s !! (id0, key)); [discriminate|]. cbn [ensure rbind] in E. unfold handle_event_vote in E.
      case_bool_decide; [|discriminate]. cbn [ensure rbind] in E. revert E. set (s1 := Ev _ _ _ _ _ _ _ _ _ _ _). intros E.
      destruct (_ <? pct _ _).
      + unfold handle_invalid in E. destruct cleared; [|discriminate]. cbn [ensure rbind] in E.
        change (co s1) with (noted (co s) (LVote id0 key valid)) in E. cbn [noted pend] in E.
        destruct (pend (co s) !! id0); [|discriminate].
        assert (Hd : forall st pr ms lg, scheduled (Core (blk (co s)) (delete id0 (pend (co s))) st (vat (co s)) pr ms lg)).
        { intros st pr ms lg i c Hi. cbn [pend] in Hi. apply lookup_delete_Some in Hi. destruct Hi as [_ Hi]. exact (H0 i c Hi). }
        destruct (chal s1 !! id0) as [[who b]|]; [|injection E as <-; apply Hd].
        destruct (pay_from_hold s1 who who b) as [s2|]; [|discriminate]. cbn [rbind] in E.
        destruct (relayer s1) as [r|]; [|injection E as <-; apply Hd].
        destruct (pay_from_hold s2 r who _) as [s3|]; [|discriminate]. injection E as <-. apply Hd.
      + destruct (_ <=? pct _ _); [|injection E as <-; exact H0].
        unfold handle_valid in E. destruct cleared; [|discriminate]. cbn [ensure rbind] in E.
        destruct (pend (co s1) !! id0); [|discriminate]. destruct (relayer s1) as [r|]; [|injection E as <-; exact H0].
        destruct (chal s1 !! id0) as [[who b]|]; [|injection E as <-; exact H0].
        destruct (pay_from_hold s1 who r b) as [s2|]; [|discriminate]. injection E as <-. exact H0.
    - injection E as <-. exact H0.
    - destruct (_ <=? _); [|discriminate]. injection E as <-. exact H0.
    - unfold set_relayer in E. destruct (_ <=? _); [|discriminate]. injection E as <-. exact H0.
    - unfold deposit_bond in E. destruct (_ =? _); [|discriminate]. cbn [ensure rbind] in E.
      destruct (place s a rb); [|discriminate]. injection E as <-. exact H0.
    - unfold withdraw_bond in E. destruct (negb _); [|discriminate]. cbn [ensure rbind] in E.
      destruct (_ <? _); [|discriminate]. cbn [ensure rbind] in E. destruct (pay_from_hold _ _ _ _); [|discriminate]. injection E as <-. exact H0.
    - injection E as <-. exact H0.
    - injection E as <-. exact H0.
    - injection E as <-. exact H0.
  Qed.
  (** At its block, an event not under challenge is delivered. *)
  Theorem C73_delivered ops id cl : let s := reach ops in
    blk (co s) < U32MAX -> In id (default [] (vat (co s) !! (blk (co s) + 1))) ->
    pend (co s) !! id = Some cl -> open (log ops) id = false ->
    In (LDone id (Some cl) (blk (co s) + 1)) (log (ops ++ [ETick])).
  Proof.
    cbv zeta. intros Hb Hin Hp Ho. pose proof (ereach_EI mx mxm mxc thr rb cb ks ops Hmx) as HI.
    unfold elogs, ereach. rewrite run_app. fold (reach ops).
    change (run ?f [ETick] ?s) with (f s ETick). unfold estep. cbn [eexec].
    destruct (tick_core mx (co (reach ops)) (period (reach ops))) as [c|e] eqn:Et.
    - cbn [rbind commit with_core co]. eapply tick_routes; [exact Et|exact Hin| |exact Hp].
      intros Hc. apply (ci_open _ (ei_c _ _ HI)) in Hc. unfold elogs in Ho. congruence.
    - exfalso. unfold tick_core in Et. destruct (N.ltb_spec (blk (co (reach ops))) U32MAX); [|lia]. cbn [ensure rbind] in Et.
      destruct (fold_left _ _ _) as [c2 fl]. destruct (fl && _); [destruct (prune _ _ _)|]; discriminate.
  Qed.
End props.

(** ** C32 with a fixed notary set: the voters of a verdict are current notaries *)
Theorem C32_fixed_set mx mxm mxc thr rb cb s0 ops id :
  (forall k, votes s0 !! (id, k) = None) ->
  (forall o, In o ops -> match o with EKeys _ => False | _ => True end) ->
  let s := run (estep mx mxm mxc thr rb cb) ops s0 in
  keys s = keys s0 /\ forall k v, votes s !! (id, k) = Some v -> In k (keys s).
Proof.
  intros H0 Hops. cbv zeta.
  assert (Hgen : forall s, keys s = keys s0 -> (forall k v, votes s !! (id, k) = Some v -> In k (keys s)) ->
     let s' := run (estep mx mxm mxc thr rb cb) ops s in keys s' = keys s0 /\ forall k v, votes s' !! (id, k) = Some v -> In k (keys s')).
  { clear H0. induction ops as [|o ops IH]; intros s Hk Hv; [split; assumption|]. cbv zeta.
    change (run _ (o :: ops) s) with (run (estep mx mxm mxc thr rb cb) ops (estep mx mxm mxc thr rb cb s o)).
    assert (Ho := Hops o (or_introl eq_refl)).
    enough (Hs : keys (estep mx mxm mxc thr rb cb s o) = keys s0 /\ forall k v, votes (estep mx mxm mxc thr rb cb s o) !! (id, k) = Some v -> In k (keys (estep mx mxm mxc thr rb cb s o)))
      by (apply IH; [intros o' Ho'; apply Hops; right; exact Ho'|apply Hs|apply Hs]).
    clear IH Hops. unfold estep. destruct (eexec mx mxm mxc thr rb cb s o) as [s'|] eqn:E; [|split; assumption]. cbn [commit].
    destruct o; cbn [eexec] in E.
    - destruct (tick_core mx (co s) (period s)); [|discriminate]. injection E as <-. split; assumption.
    - unfold submit in E. case_bool_decide; [|discriminate]. cbn [ensure rbind] in E. destruct (submit_core _ _ _ _ _); [|discriminate].
      injection E as <-. split; assumption.
    - unfold submit_missing in E. case_bool_decide; [|discriminate]. cbn [ensure rbind] in E. destruct (submit_missing_core _ _ _ _ _); [|discriminate].
      injection E as <-. split; assumption.
    - unfold challenge in E. destruct (pend (co s) !! id0); [|discriminate]. cbn [ensure rbind] in E.
      case_bool_decide; [|discriminate]. cbn [ensure rbind] in E. destruct (place s who cb); [|discriminate]. cbn [rbind] in E.
      destruct (Nat.ltb _ mxc); [|discriminate]. injection E as <-. split; assumption.
    - unfold notarize in E. destruct (nth_error (keys s) idx) as [key|] eqn:Ekey; [|discriminate]. cbn [of_opt rbind] in E.
      destruct (votes s !! (id0, key)); [discriminate|]. cbn [ensure rbind] in E. unfold handle_event_vote in E.
      case_bool_decide; [|discriminate]. cbn [ensure rbind] in E. revert E. set (s1 := Ev _ _ _ _ _ _ _ _ _ _ _). intros E.
      assert (H1 : keys s1 = keys s0 /\ forall k v, votes s1 !! (id, k) = Some v -> In k (keys s1)).
      { split; [exact Hk|]. cbn [s1 votes keys]. intros k v. destruct (decide ((id0, key) = (id, k))) as [Ek|Hne].
        - injection Ek as -> ->. intros _. apply nth_error_In in Ekey. exact Ekey.
        - rewrite lookup_insert_ne by exact Hne. apply Hv. }
      assert (H2 : forall co' pe re rbo ch chs fr he,
         keys (Ev co' pe re rbo ch chs fr he (cleared_votes (votes s1) id0) (keys s1) (nvals s1)) = keys s0 /\
         forall k v, votes (Ev co' pe re rbo ch chs fr he (cleared_votes (votes s1) id0) (keys s1) (nvals s1)) !! (id, k) = Some v ->
           In k (keys (Ev co' pe re rbo ch chs fr he (cleared_votes (votes s1) id0) (keys s1) (nvals s1)))).
      { intros. split; [apply H1|]. cbn [votes keys]. intros k v. rewrite cleared_lookup. destruct (id =? id0); [discriminate|]. apply H1. }
      clearbody s1. destruct (_ <? pct _ _).
      + unfold handle_invalid in E. destruct cleared; [|discriminate]. cbn [ensure rbind] in E.
        destruct (pend (co s1) !! id0); [|discriminate].
        destruct (chal s1 !! id0) as [[who b]|]; [|injection E as <-; apply H2].
        destruct (pay_from_hold s1 who who b) as [s2|]; [|discriminate]. cbn [rbind] in E.
        destruct (relayer s1) as [r|]; [|injection E as <-; apply H2].
        destruct (pay_from_hold s2 r who _) as [s3|]; [|discriminate]. injection E as <-. apply H2.
      + destruct (_ <=? pct _ _); [|injection E as <-; exact H1].
        unfold handle_valid in E. destruct cleared; [|discriminate]. cbn [ensure rbind] in E.
        destruct (pend (co s1) !! id0); [|discriminate]. destruct (relayer s1) as [r|]; [|injection E as <-; apply H2].
        destruct (chal s1 !! id0) as [[who b]|]; [|injection E as <-; apply H2].
        destruct (pay_from_hold s1 who r b) as [s2|]; [|discriminate]. injection E as <-. apply H2.
    - injection E as <-. split; assumption.
    - destruct (_ <=? _); [|discriminate]. injection E as <-. split; assumption.
    - unfold set_relayer in E. destruct (_ <=? _); [|discriminate]. injection E as <-. split; assumption.
    - unfold deposit_bond in E. destruct (_ =? _); [|discriminate]. cbn [ensure rbind] in E.
      destruct (place s a rb); [|discriminate]. injection E as <-. split; assumption.
    - unfold withdraw_bond in E. destruct (negb _); [|discriminate]. cbn [ensure rbind] in E.
      destruct (_ <? _); [|discriminate]. cbn [ensure rbind] in E. destruct (pay_from_hold _ _ _ _); [|discriminate]. injection E as <-. split; assumption.
    - destruct Ho.
    - injection E as <-. split; assumption.
    - injection E as <-. split; assumption. }
  apply Hgen; [reflexivity|]. intros k v Hv. rewrite H0 in Hv. discriminate.
Qed.

(** ** Examples *)
Definition dlog (thr : N) (ks : list N) (ops : list eop) : list elog := clog (co (demo thr ks ops)).
(** Ids 7, 9, 11, 13, 15 delivered out of order with room for three: 8 and 10 become missed ids, 10 is recovered. *)
Definition delivery : list eop :=
  setup ++ [ESubmit 50 7 1; ESubmit 50 9 2; ESubmit 50 11 3] ++ ticks 5 ++ [ESubmit 50 15 4; ESubmit 50 13 5] ++ ticks 5 ++
  [ESubmitMissing 50 10 6] ++ ticks 5 ++ [ESubmit 50 7 1; ESubmitMissing 50 10 6; ESubmit 50 11 3; ESubmit 50 14 8] ++ ticks 5.
Example C30_example :
  map (routes (dlog 66 [1; 2; 3] delivery)) [7; 8; 9; 10; 11; 12; 13; 14; 15] = [1; 0; 1; 1; 1; 0; 1; 1; 1]%nat /\
  missed (co (demo 66 [1; 2; 3] delivery)) = [8; 12] /\ procd (co (demo 66 [1; 2; 3] delivery)) = [15].
Proof. vm_compute. repeat split. Qed.
Example C30_example_no_resubmission :
  In (LDone 7 (Some 1) 5) (dlog 66 [1; 2; 3] delivery) /\ relayer (demo 66 [1; 2; 3] delivery) = Some 50.
Proof. vm_compute. split; [|reflexivity]. repeat (try (left; reflexivity); right). Qed.
(** A challenged claim is postponed, then delivered after the verdict. *)
Definition challenged : list eop :=
  setup ++ [ESubmit 50 7 1; EChallenge 60 7] ++ ticks 5 ++ [ENotarize true 0 7 true; ENotarize true 1 7 true] ++ ticks 5.
Example C31_example : match dlog 66 [1; 2; 3] challenged with
  | LDone 7 (Some 1) 10 :: old => open old 7 = false /\ last_sub old 7 = Some (1, 0, 5) | _ => False end.
Proof. vm_compute. split; reflexivity. Qed.
Definition one_vote : list eop := setup ++ [ESubmit 50 7 1; EChallenge 60 7; ENotarize true 0 7 false].
Example C32_example :
  let s := demo 66 [1; 2; 3] one_vote in
  match eexec 3 100 10 66 100 10 s (ENotarize true 1 7 false) with
  | Ok s' => clog (co s') = LVerdict 7 false :: LVote 7 2 false :: clog (co s) /\ (66 : N) * nvals s = 198
  | Err _ => False end.
Proof. vm_compute. split; reflexivity. Qed.
Example C32_example_fixed_set :
  (forall k, votes (demo 66 [1; 2; 3] setup) !! (7, k) = None) /\
  votes (demo 66 [1; 2; 3] one_vote) !! (7, 1) = Some false.
Proof. split; [|vm_compute; reflexivity]. intros k. replace (votes (demo 66 [1; 2; 3] setup)) with (∅ : gmap (N * N) bool) by (vm_compute; reflexivity). apply lookup_empty. Qed.
(** Id 8 was skipped; it can be submitted. *)
Example C70_example :
  let s := demo 66 [1; 2; 3] delivery in
  relayer s = Some 50 /\ pend (co s) !! 8 = None /\ first_done (dlog 66 [1; 2; 3] delivery) = Some 7 /\
  is_ok (submit_missing 100 s 50 8 99) = true.
Proof. vm_compute. repeat split. Qed.
Example C71_example :
  let ops := one_vote in let s := demo 66 [1; 2; 3] ops in
  match notarize 66 s true 1 7 false with Ok s' => open (clog (co s')) 7 = false | Err _ => False end.
Proof. vm_compute. reflexivity. Qed.
Example C72_example :
  let s := demo 66 [1; 2; 3] one_vote in
  getN (held s) 50 = 100 /\ getN (held s) 60 = 10 /\ stat (co s) !! 7 = Some Challenged /\ relayer s = Some 50 /\
  match handle_invalid s true 7 with Ok s' => getN (free s') 60 = 1100 /\ getN (held s') 50 = 0 | Err _ => False end.
Proof. vm_compute. repeat split. Qed.
Lemma calm_check mx mxm mxc thr rb cb : forall ops s,
  forallb (fun sp => (1 <=? period sp) && (blk (co sp) + 1 + period sp <=? U32MAX))
    (snd (fold_left (fun a o => (estep mx mxm mxc thr rb cb (fst a) o, snd a ++ [fst a])) ops (s, []))) = true ->
  along (estep mx mxm mxc thr rb cb) calm ops s.
Proof.
  assert (Hgen : forall ops s acc,
    forallb (fun sp => (1 <=? period sp) && (blk (co sp) + 1 + period sp <=? U32MAX))
      (snd (fold_left (fun a o => (estep mx mxm mxc thr rb cb (fst a) o, snd a ++ [fst a])) ops (s, acc))) = true ->
    forallb (fun sp => (1 <=? period sp) && (blk (co sp) + 1 + period sp <=? U32MAX)) acc = true /\
    along (estep mx mxm mxc thr rb cb) calm ops s).
  { induction ops as [|o ops IH]; intros s acc Hf; [split; [exact Hf|exact I]|]. cbn [fold_left fst snd] in Hf.
    apply IH in Hf. destruct Hf as [H1 H2]. rewrite forallb_app in H1. apply andb_prop in H1. destruct H1 as [H1 H3].
    split; [exact H1|]. cbn [along]. split; [|exact H2]. cbn [forallb] in H3. unfold calm. lia. }
  intros ops s Hf. apply (Hgen ops s []). exact Hf.
Qed.
Example C73_example :
  along (estep 3 100 10 66 100 10) calm (setup ++ [ESubmit 50 7 1] ++ ticks 4) (einit [1; 2; 3]) /\
  (let s := demo 66 [1; 2; 3] (setup ++ [ESubmit 50 7 1] ++ ticks 4) in
   pend (co s) !! 7 = Some 1 /\ blk (co s) = 4 /\ In 7 (default [] (vat (co s) !! (blk (co s) + 1))) /\ open (clog (co s)) 7 = false).
Proof. split; [apply calm_check; vm_compute; reflexivity|]. vm_compute. repeat split. left. reflexivity. Qed.

(** ** Refutations *)
(** C31: an id resubmitted after a verdict against it is delivered at the OLD slot, here two blocks
    after the resubmission although the challenge period is five. *)
Definition resubmitted : list eop :=
  setup ++ [ESubmit 50 7 1; EChallenge 60 7; ENotarize true 0 7 false; ENotarize true 1 7 false] ++ ticks 3 ++
  [ESetRelayer 51; ESubmit 51 7 2] ++ ticks 2.
Theorem C31_resubmitted_refuted : exists ops id cl b old b0 p0,
  dlog 66 [1; 2; 3] ops = LDone id (Some cl) b :: old /\ last_sub old id = Some (cl, b0, p0) /\ b < b0 + p0.
Proof. exists resubmitted, 7, 2, 5, (tl (dlog 66 [1; 2; 3] resubmitted)), 3, 5. vm_compute. repeat split. Qed.

(** C32: votes of notaries that have left the set still count: a claim is judged valid although one
    of the six current notaries voted. *)
Definition turnover : list eop :=
  setup ++ [ESubmit 50 7 1; EChallenge 60 7; ENotarize true 0 7 true; ENotarize true 1 7 true; ENotarize true 2 7 true;
            EKeys [7; 8; 9; 10; 11; 12]; ENotarize true 0 7 true].
Theorem C32_stale_votes_refuted : exists ops id rest,
  let s := demo 66 [1; 2; 3; 4; 5; 6] ops in
  clog (co s) = LVerdict id true :: rest /\
  100 * N.of_nat (length (List.filter (fun k => existsb (fun kv => (fst kv =? k) && snd kv) (votes_since rest id)) (keys s))) < 66 * N.of_nat (length (keys s)).
Proof. exists turnover, 7, (tl (dlog 66 [1; 2; 3; 4; 5; 6] turnover)). vm_compute. repeat split. Qed.

(** C69: a false claim that was rejected blocks the genuine event with that id for ever: the old slot
    marks the id as processed although nothing was delivered. *)
Definition poisoned : list eop :=
  setup ++ [ESubmit 50 7 1; EChallenge 60 7; ENotarize true 0 7 false; ENotarize true 1 7 false] ++ ticks 5 ++ [ESetRelayer 51].
Theorem C69_rejected_claim_blocks_refuted : exists ops id r,
  let s := demo 66 [1; 2; 3] ops in
  relayer s = Some r /\ routes (clog (co s)) id = 0%nat /\ pend (co s) !! id = None /\
  forall claim, is_ok (submit 100 s r id claim) = false /\ is_ok (submit_missing 100 s r id claim) = false.
Proof. exists poisoned, 7, 51. cbv zeta. split; [vm_compute; reflexivity|]. split; [vm_compute; reflexivity|]. split; [vm_compute; reflexivity|].
  intros claim. split; vm_compute; reflexivity. Qed.
(** Before the old slot comes up the genuine event is still accepted. *)
Theorem C69_before_the_slot_partial mx mxm mxc thr rb cb ks ops id claim r : (1 <= mx)%nat ->
  let s := ereach mx mxm mxc thr rb cb ks ops in
  relayer s = Some r -> pend (co s) !! id = None ->
  ~ (exists o b, In (LDone id o b) (clog (co s))) -> ~ (exists lo hi, In (LStruck lo hi) (clog (co s)) /\ lo <= id <= hi) ->
  (forall f, first_done (clog (co s)) = Some f -> f <= id) ->
  (length (at_block (co s) (later (blk (co s)) (period s))) < mxm)%nat ->
  is_ok (submit mxm s r id claim) = true \/ is_ok (submit_missing mxm s r id claim) = true.
Proof. intros Hmx. apply C70_recoverable. exact Hmx. Qed.

(** C70: when the first event processed is 9, event 8 can never be submitted. *)
Definition gap : list eop := setup ++ [ESubmit 50 9 1] ++ ticks 5.
Theorem C70_below_first_refuted : exists ops id r,
  let s := demo 66 [1; 2; 3] ops in
  relayer s = Some r /\ ~ (exists o b, In (LDone id o b) (clog (co s))) /\
  forall claim, is_ok (submit 100 s r id claim) = false /\ is_ok (submit_missing 100 s r id claim) = false.
Proof.
  exists gap, 8, 50. cbv zeta. split; [vm_compute; reflexivity|]. split.
  - intros (o & b & Hin). revert Hin. replace (clog (co (demo 66 [1; 2; 3] gap))) with [LDone 9 (Some 1) 5; LSub 9 1 0 5] by (vm_compute; reflexivity).
    intros [E|[E|[]]]; discriminate E.
  - intros claim. split; vm_compute; reflexivity.
Qed.

(** C71: with 23 validators, 8 votes against and 15 for decide nothing, and nobody can vote again. *)
Definition keys23 : list N := rangeN 1 23.
Definition split_vote : list eop :=
  setup ++ [ESubmit 50 7 1; EChallenge 60 7] ++ map (fun i => ENotarize true i 7 (Nat.leb 8 i)) (seq 0 23).
Theorem C71_deadlock_refuted : exists ops id,
  let s := demo 66 keys23 ops in
  open (clog (co s)) id = true /\ N.of_nat (length (votes_since (clog (co s)) id)) = nvals s /\ N.of_nat (length (keys s)) = nvals s /\
  forallb (fun i => negb (is_ok (notarize 66 s true i id true)) && negb (is_ok (notarize 66 s true i id false))) (seq 0 23) = true.
Proof. exists split_vote, 7. vm_compute. repeat split. Qed.

(** C73: with a challenge period of zero the event is scheduled for a block already begun. *)
Lemma stuck_forever s id n : stuck id (co s) -> stuck id (co (run (estep 3 100 10 66 100 10) (ticks n) s)).
Proof.
  revert s. induction n as [|n IH]; intros s Hs; [exact Hs|].
  change (ticks (S n)) with (ETick :: ticks n). change (run ?f (ETick :: ticks n) s) with (run f (ticks n) (f s ETick)). apply IH.
  unfold estep. cbn [eexec]. destruct (tick_core 3 (co s) (period s)) as [c|] eqn:Et; [|exact Hs]. cbn [rbind commit with_core co].
  eapply tick_stuck; eassumption.
Qed.
Definition zero_period : list eop := setup ++ [ESetPeriod 0; ESubmit 50 7 1].
Theorem C73_zero_period_refuted : exists ops id cl, forall n,
  is_Some (pend (co (demo 66 [1; 2; 3] (ops ++ ticks n))) !! id) /\ In (LSub id cl 0 0) (dlog 66 [1; 2; 3] ops).
Proof.
  exists zero_period, 7, 1. intros n. split; [|vm_compute; left; reflexivity]. 
  assert (E : demo 66 [1; 2; 3] (zero_period ++ ticks n) = run (estep 3 100 10 66 100 10) (ticks n) (demo 66 [1; 2; 3] zero_period)) by (unfold demo, ereach; apply run_app).
  rewrite E. refine (proj1 (stuck_forever (demo 66 [1; 2; 3] zero_period) 7 n _)). clear E. split.
  - exists 1. vm_compute. reflexivity.
  - intros k Hk. replace (blk (co (demo 66 [1; 2; 3] zero_period))) with 0 in Hk by (vm_compute; reflexivity).
    unfold at_block. replace (vat (co (demo 66 [1; 2; 3] zero_period))) with ({[0 := [7]]} : gmap N (list N)) by (vm_compute; reflexivity).
    rewrite lookup_singleton_ne by lia. intros [].
Qed.
(** C73: a claim judged valid while no relayer is set stays challenged, has left the list the notaries
    work from, and the challenger's bond stays on hold. *)
Definition orphaned : list eop :=
  setup ++ [ESubmit 50 7 1; ESubmit 50 8 2; EChallenge 60 7; EChallenge 60 8;
            ENotarize true 0 7 false; ENotarize true 1 7 false; ENotarize true 0 8 true; ENotarize true 1 8 true] ++ ticks 30.
Theorem C73_no_relayer_refuted : exists ops id who b,
  let s := demo 66 [1; 2; 3] ops in
  open (clog (co s)) id = true /\ memb id (chals s) = false /\ chal s !! id = Some (who, b) /\ 0 < b /\ b <= getN (held s) who /\
  length (votes_since (clog (co s)) id) = 2%nat /\ 66 * nvals s <= 100 * 2.
Proof. exists orphaned, 8, 60, 10. vm_compute. repeat split; discriminate. Qed.

(** C74: the bond lost over a false claim is that of whoever is relayer now, not of the submitter. *)
Definition blamed : list eop :=
  setup ++ [ESubmit 50 7 1; EChallenge 60 7; ESetRelayer 51; EWithdraw 50; ENotarize true 0 7 false; ENotarize true 1 7 false].
Theorem C74_wrong_relayer_refuted : exists ops,
  let s := demo 66 [1; 2; 3] ops in
  In (LVerdict 7 false) (clog (co s)) /\ getN (free s) 50 = 1000 /\ getN (held s) 50 = 0 /\
  getN (free s) 51 = 900 /\ getN (held s) 51 = 0 /\ relayer s = None.
Proof. exists blamed. vm_compute. repeat split. left. reflexivity. Qed.
(** As long as governance does not replace the relayer, the submitter is the one whose bond is at
    stake (C72 says it is all there), until a verdict has taken it. *)
Lemma relayer_frame mx mxm mxc thr rb cb s o s' : eexec mx mxm mxc thr rb cb s o = Ok s' ->
  match o with ESetRelayer _ => False | _ => True end -> relayer s' = relayer s \/ relayer s' = None.
Proof.
  intros E Ho. destruct o; cbn [eexec] in E.
  - destruct (tick_core mx (co s) (period s)); [|discriminate]. injection E as <-. left; reflexivity.
  - unfold submit in E. case_bool_decide; [|discriminate]. cbn [ensure rbind] in E. destruct (submit_core _ _ _ _ _); [|discriminate].
    injection E as <-. left; reflexivity.
  - unfold submit_missing in E. case_bool_decide; [|discriminate]. cbn [ensure rbind] in E. destruct (submit_missing_core _ _ _ _ _); [|discriminate].
    injection E as <-. left; reflexivity.
  - unfold challenge in E. destruct (pend (co s) !! id); [|discriminate]. cbn [ensure rbind] in E.
    case_bool_decide; [|discriminate]. cbn [ensure rbind] in E. destruct (place s who cb); [|discriminate]. cbn [rbind] in E.
    destruct (Nat.ltb _ mxc); [|discriminate]. injection E as <-. left; reflexivity.
  - unfold notarize in E. destruct (nth_error (keys s) idx) as [key|]; [|discriminate]. cbn [of_opt rbind] in E.
    destruct (votes s !! (id, key)); [discriminate|]. cbn [ensure rbind] in E. unfold handle_event_vote in E.
    case_bool_decide; [|discriminate]. cbn [ensure rbind] in E. revert E. set (s1 := Ev _ _ _ _ _ _ _ _ _ _ _). intros E.
    change (relayer s) with (relayer s1). clearbody s1. destruct (_ <? pct _ _).
    + unfold handle_invalid in E. destruct cleared; [|discriminate]. cbn [ensure rbind] in E.
      destruct (pend (co s1) !! id); [|discriminate].
      destruct (chal s1 !! id) as [[who b]|]; [|injection E as <-; left; reflexivity].
      destruct (pay_from_hold s1 who who b) as [s2|]; [|discriminate]. cbn [rbind] in E.
      destruct (relayer s1) as [r|]; [|injection E as <-; right; reflexivity].
      destruct (pay_from_hold s2 r who _) as [s3|]; [|discriminate]. injection E as <-. right; reflexivity.
    + destruct (_ <=? pct _ _); [|injection E as <-; left; reflexivity].
      unfold handle_valid in E. destruct cleared; [|discriminate]. cbn [ensure rbind] in E.
      destruct (pend (co s1) !! id); [|discriminate]. destruct (relayer s1) as [r|] eqn:Er; [|injection E as <-; left; reflexivity].
      destruct (chal s1 !! id) as [[who b]|]; [|injection E as <-; left; reflexivity].
      destruct (pay_from_hold s1 who r b) as [s2|]; [|discriminate]. injection E as <-. left; reflexivity.
  - injection E as <-. left; reflexivity.
  - destruct (_ <=? _); [|discriminate]. injection E as <-. left; reflexivity.
  - destruct Ho.
  - unfold deposit_bond in E. destruct (_ =? _); [|discriminate]. cbn [ensure rbind] in E.
    destruct (place s a rb); [|discriminate]. injection E as <-. left; reflexivity.
  - unfold withdraw_bond in E. destruct (negb _); [|discriminate]. cbn [ensure rbind] in E.
    destruct (_ <? _); [|discriminate]. cbn [ensure rbind] in E. destruct (pay_from_hold _ _ _ _); [|discriminate]. injection E as <-. left; reflexivity.
  - injection E as <-. left; reflexivity.
  - injection E as <-. left; reflexivity.
  - injection E as <-. left; reflexivity.
Qed.
Theorem C74_submitter_pays_partial mx mxm mxc thr rb cb ks ops who id claim s0 ops2 : (1 <= mx)%nat ->
  submit mxm (ereach mx mxm mxc thr rb cb ks ops) who id claim = Ok s0 ->
  (forall o, In o ops2 -> match o with ESetRelayer _ => False | _ => True end) ->
  let s := run (estep mx mxm mxc thr rb cb) ops2 s0 in
  relayer s = None \/ (relayer s = Some who /\ rb <= getN (rbond s) who /\ rb <= getN (held s) who).
Proof.
  cbv zeta. intros Hmx Hs Ho. pose proof (ereach_EI mx mxm mxc thr rb cb ks ops Hmx) as HI.
  assert (HI0 : EI rb s0) by exact (eexec_EI mx mxm mxc thr rb cb _ (ESubmit who id claim) s0 Hmx HI Hs).
  assert (Hr0 : relayer s0 = Some who).
  { unfold submit in Hs. case_bool_decide as Hw; [|discriminate]. cbn [ensure rbind] in Hs.
    destruct (submit_core _ _ _ _ _); [|discriminate]. injection Hs as <-. exact Hw. }
  assert (HI1 : EI rb (run (estep mx mxm mxc thr rb cb) ops2 s0)).
  { apply run_inv; [|exact HI0]. intros s o Hi. unfold estep. destruct (eexec _ _ _ _ _ _ s o) eqn:E; cbn [commit]; [|exact Hi].
    eapply eexec_EI; eassumption. }
  assert (Hr : relayer (run (estep mx mxm mxc thr rb cb) ops2 s0) = Some who \/ relayer (run (estep mx mxm mxc thr rb cb) ops2 s0) = None).
  { clear HI1. assert (Hx : relayer s0 = Some who \/ relayer s0 = None) by auto. clear - Ho Hx. revert s0 Hx.
    induction ops2 as [|o ops2 IH]; intros s0 Hx; [exact Hx|].
    change (run ?f (o :: ops2) s0) with (run f ops2 (f s0 o)). apply IH; [intros o' H'; apply Ho; right; exact H'|].
    unfold estep. destruct (eexec mx mxm mxc thr rb cb s0 o) as [s1|] eqn:E; cbn [commit]; [|exact Hx].
    destruct (relayer_frame _ _ _ _ _ _ _ _ _ E (Ho o (or_introl eq_refl))) as [-> | ->]; auto. }
  destruct Hr as [Hr|Hr]; [right|left; exact Hr]. split; [exact Hr|].
  pose proof (ei_rel _ _ HI1 who Hr). pose proof (ei_held _ _ HI1 who). split; [assumption|lia].
Qed.
Example C74_example :
  is_ok (submit 100 (demo 66 [1; 2; 3] setup) 50 7 1) = true /\ relayer (demo 66 [1; 2; 3] one_vote) = Some 50.
Proof. vm_compute. split; reflexivity. Qed.

Print Assumptions C30_at_most_once.
Print Assumptions C30_no_resubmission.
Print Assumptions C31_full_period_partial.
Print Assumptions C32_share.
Print Assumptions C32_fixed_set.
Print Assumptions C70_recoverable.
Print Assumptions C71_settled_partial.
Print Assumptions C72_false_claim_pays.
Print Assumptions C73_scheduled_partial.
Print Assumptions C73_delivered.
Print Assumptions C73_zero_period_refuted.
