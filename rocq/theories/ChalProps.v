(** Property C199: challenges are decided one after the other, as the notaries' workers go. *)
From Verif Require Import EthyProps ChalModel NotaryModel.

(** Whether every way for all of [n] notaries to vote decides a claim, by the shares of C32. *)
Definition decisive (thr n : N) : Prop := forall nay, nay <= n -> ~ ((100 - thr) * n < 100 * nay < (101 - thr) * n).
(** All notaries, each once, in any order. *)
Definition everyone (s : ev) (who : list nat) : Prop :=
  NoDup who /\ (forall i, In i who <-> (i < length (keys s))%nat).

Section spec.
  Variables (mx mxm mxc : nat) (thr rb cb : N).
  Variables (contract conf : N) (stored : N -> eclaim) (nd : nat -> node).
  Hypothesis Hmx : (1 <= mx)%nat.
  Local Notation step := (estep mx mxm mxc thr rb cb).
  Local Notation round := (round mx mxm mxc thr rb cb contract conf stored nd).
  Local Notation opinion := (opinion contract conf stored nd).

  (** ** A single vote on a challenged claim. *)
  Definition after_vote (s : ev) (id k : N) (v : bool) : ev :=
    Ev (noted (co s) (LVote id k v)) (period s) (relayer s) (rbond s) (chal s) (chals s) (free s) (held s)
       (<[(id, k) := v]> (votes s)) (keys s) (nvals s).
  Lemma vote_cases s i id k v : EI rb s -> stat (co s) !! id = Some Challenged -> relayer s <> None ->
    nth_error (keys s) i = Some k -> votes s !! (id, k) = None ->
    let s' := step s (ENotarize true i id v) in
    (s' = after_vote s id k v /\
     ~ 100 - thr < pct (count_votes (votes s') id false) (nvals s) /\ ~ thr <= pct (count_votes (votes s') id true) (nvals s)) \/
    (stat (co s') !! id <> Some Challenged /\ chals s' = remove1 id (chals s)).
  Proof.
    intros HI Hc Hr Hk Hv. cbv zeta. unfold estep. cbn [eexec]. unfold notarize. rewrite Hk. cbn [of_opt rbind]. rewrite Hv.
    cbn [ensure rbind]. unfold handle_event_vote. rewrite (bool_decide_eq_true_2 _ Hc). cbn [ensure rbind]. cbv zeta.
    pose proof (vote_EI rb s id k v HI Hc) as HI1. fold (after_vote s id k v) in *. set (s1 := after_vote s id k v) in *.
    assert (Hc1 : stat (co s1) !! id = Some Challenged) by exact Hc.
    destruct (N.ltb_spec (100 - thr) (pct (count_votes (<[(id, k) := v]> (votes s)) id false) (nvals s))) as [Hx|Hx].
    - destruct (handle_invalid_spec rb s1 id HI1 Hc1) as (who & b & _ & _ & f & h & Eq & _). rewrite Eq. right.
      cbn [commit co stat chals]. rewrite lookup_delete. split; [discriminate|reflexivity].
    - destruct (N.leb_spec thr (pct (count_votes (<[(id, k) := v]> (votes s)) id true) (nvals s))) as [Hy|Hy].
      + destruct (relayer s) as [r|] eqn:Er; [|congruence].
        assert (Er1 : relayer s1 = Some r) by exact Er.
        destruct (handle_valid_spec rb s1 id r HI1 Hc1 Er1) as (who & b & _ & _ & Eq). rewrite Eq. right.
        cbn [commit co noted set_stat stat chals]. rewrite lookup_insert. split; [discriminate|reflexivity].
      + left. cbn [commit]. split; [reflexivity|]. cbn [s1 after_vote votes]. lia.
  Qed.
  Lemma vote_none s i id v : stat (co s) !! id <> Some Challenged -> step s (ENotarize true i id v) = s.
  Proof.
    intros Hc. unfold estep. cbn [eexec]. unfold notarize. destruct (nth_error (keys s) i) as [k|]; [|reflexivity]. cbn [of_opt rbind].
    destruct (votes s !! (id, k)); [reflexivity|]. cbn [ensure rbind]. unfold handle_event_vote.
    rewrite bool_decide_eq_false_2 by exact Hc. reflexivity.
  Qed.
  Lemma step_EI s o : EI rb s -> EI rb (step s o).
  Proof.
    intros HI. unfold estep. destruct (eexec mx mxm mxc thr rb cb s o) as [s'|] eqn:E; [|exact HI].
    cbn [commit]. apply (eexec_EI mx mxm mxc thr rb cb s o s' Hmx HI E).
  Qed.

  (** ** All votes of a block on the claim at the head. *)
  Section head.
    Variables (s : ev) (id : N) (view : nat -> bool).
    Hypothesis HI : EI rb s.
    Hypothesis Hrel : relayer s <> None.
    Hypothesis Hnd : NoDup (keys s).
    Hypothesis Hn : nvals s = N.of_nat (length (keys s)).
    Hypothesis Hnew : forall k, votes s !! (id, k) = None.

    Definition going (l : list nat) (s' : ev) : Prop :=
      EI rb s' /\ keys s' = keys s /\ nvals s' = nvals s /\ chals s' = chals s /\ relayer s' = relayer s /\
      stat (co s') !! id = Some Challenged /\
      (forall k v, votes s' !! (id, k) = Some v <-> exists i, In i l /\ nth_error (keys s) i = Some k /\ v = view i) /\
      (l <> [] -> ~ 100 - thr < pct (count_votes (votes s') id false) (nvals s) /\ ~ thr <= pct (count_votes (votes s') id true) (nvals s)).
    Definition decided (s' : ev) : Prop := stat (co s') !! id <> Some Challenged /\ chals s' = remove1 id (chals s).

    Lemma going_step l s' i : going l s' -> ~ In i l -> (forall j, In j l -> (j < length (keys s))%nat) -> (i < length (keys s))%nat ->
      going (l ++ [i]) (step s' (ENotarize true i id (view i))) \/ decided (step s' (ENotarize true i id (view i))).
    Proof.
      intros (G1 & G2 & G3 & G4 & G5 & G6 & G7 & G8) Hi Hl Hlt.
      destruct (nth_error (keys s) i) as [k|] eqn:Ek; [|apply nth_error_None in Ek; lia].
      assert (Hk : nth_error (keys s') i = Some k) by (rewrite G2; exact Ek).
      assert (Hv : votes s' !! (id, k) = None).
      { destruct (votes s' !! (id, k)) as [v|] eqn:E; [|reflexivity]. apply G7 in E. destruct E as (j & J & Ej & _).
        exfalso. apply Hi. replace i with j; [exact J|]. eapply (proj1 (NoDup_nth_error (keys s))); [apply NoDup_ListNoDup, Hnd| |]; [|congruence].
        apply Hl, J. }
      assert (Hr' : relayer s' <> None) by (rewrite G5; exact Hrel).
      destruct (vote_cases s' i id k (view i) G1 G6 Hr' Hk Hv) as [(E & P1 & P2)|(P1 & P2)].
      - left. pose proof (step_EI s' (ENotarize true i id (view i)) G1) as HI'. rewrite E in *. rewrite G3 in P1, P2.
        unfold going. cbn [after_vote keys nvals chals relayer co noted stat votes] in *.
        do 6 (split; [assumption|]). split; [|intros _; split; assumption]. intros k0 v0. split.
        + intros Q. destruct (decide (k0 = k)) as [->|Hne].
          * rewrite lookup_insert in Q. injection Q as <-. exists i. split; [apply in_or_app; right; left; reflexivity|auto].
          * rewrite lookup_insert_ne in Q by congruence. apply G7 in Q. destruct Q as (j & J & Q). exists j. split; [apply in_or_app; left; exact J|exact Q].
        + intros (j & J & Ej & ->). apply in_app_or in J. destruct J as [J|[<-|[]]].
          * assert (k0 <> k).
            { intros ->. apply Hi. replace i with j; [exact J|]. eapply (proj1 (NoDup_nth_error (keys s))); [apply NoDup_ListNoDup, Hnd|apply Hl, J|congruence]. }
            rewrite lookup_insert_ne by congruence. apply G7. eauto.
          * assert (k0 = k) as -> by congruence. apply lookup_insert.
      - right. split; [exact P1|]. rewrite P2, G4. reflexivity.
    Qed.
    Lemma decided_step s' i v : decided s' -> step s' (ENotarize true i id v) = s'.
    Proof. intros [H _]. apply vote_none, H. Qed.
    Lemma votes_fold l : forall done s', going done s' \/ decided s' -> NoDup (done ++ l) ->
      (forall j, In j (done ++ l) -> (j < length (keys s))%nat) ->
      let e := fold_left (fun s' i => step s' (ENotarize true i id (view i))) l s' in going (done ++ l) e \/ decided e.
    Proof.
      induction l as [|i l IH]; intros done s' H Hd Hlt; cbn [fold_left]; [rewrite app_nil_r; exact H|].
      replace (done ++ i :: l) with ((done ++ [i]) ++ l) in * by (rewrite <- app_assoc; reflexivity).
      apply IH; auto. destruct H as [H|H]; [|right; rewrite decided_step by exact H; exact H].
      apply going_step; auto.
      - apply NoDup_app in Hd. destruct Hd as (Hd & _ & _). apply NoDup_app in Hd. destruct Hd as (_ & Hd & _).
        intros Q. apply (Hd i); [apply elem_of_list_In, Q|left].
      - intros j J. apply Hlt. apply in_or_app. left. apply in_or_app. left. exact J.
      - apply Hlt. apply in_or_app. left. apply in_or_app. right. left. reflexivity.
    Qed.
    Lemma going_counts l s' : everyone s l -> going l s' ->
      count_votes (votes s') id true + count_votes (votes s') id false = nvals s.
    Proof.
      intros [Hl1 Hl2] (_ & _ & _ & _ & _ & _ & G & _). rewrite Hn. unfold count_votes. rewrite <- Nat2N.inj_add, <- app_length. f_equal.
      apply Permutation_length, NoDup_Permutation.
      - apply NoDup_app. split; [apply votes_on_nodup|]. split; [|apply votes_on_nodup].
        intros k K1 K2. apply elem_of_list_In, votes_on_in in K1. apply elem_of_list_In, votes_on_in in K2. congruence.
      - exact Hnd.
      - intros k. rewrite elem_of_app, !elem_of_list_In, !votes_on_in. split.
        + intros [K|K]; apply G in K; destruct K as (i & _ & K & _); apply nth_error_In in K; exact K.
        + intros K. apply In_nth_error in K. destruct K as [i K].
          assert (I : In i l) by (apply Hl2; apply nth_error_Some; congruence).
          destruct (view i) eqn:Ev; [left|right]; apply G; exists i; auto.
    Qed.
    Lemma all_decided l : everyone s l -> stat (co s) !! id = Some Challenged -> 1 <= thr -> thr <= 100 -> 1 <= nvals s ->
      decisive thr (nvals s) ->
      decided (fold_left (fun s' i => step s' (ENotarize true i id (view i))) l s).
    Proof.
      intros Hl Hc T1 T2 N1 Hd. destruct (votes_fold l [] s) as [G|G]; cbn [app].
      - left. do 6 (split; [assumption || reflexivity|]). split; [|congruence]. intros k v. rewrite Hnew. split; [discriminate|].
        intros (i & [] & _).
      - apply Hl.
      - intros j J. apply Hl, J.
      - exfalso. pose proof (going_counts l _ Hl G) as Hs. destruct G as (_ & _ & _ & _ & _ & _ & _ & G).
        destruct G as [P1 P2].
        { cbn [app]. intros E. rewrite E in Hl. destruct Hl as [_ Hl]. specialize (Hl 0%nat). cbn [In] in Hl. lia. }
        set (nay := count_votes _ id false) in *. set (yay := count_votes _ id true) in *.
        apply (Hd nay); [lia|]. split.
        + destruct (N.leb_spec (100 * nay) ((100 - thr) * nvals s)) as [L|L]; [|lia]. exfalso. apply P2.
          apply pct_ge; [lia|exact N1|]. nia.
        + destruct (N.leb_spec ((101 - thr) * nvals s) (100 * nay)) as [L|L]; [|lia]. exfalso. apply P1.
          assert (101 - thr <= pct nay (nvals s)); [|lia]. apply pct_ge; [lia|exact N1|exact L].
      - exact G.
    Qed.
  End head.

  Lemma round_votes s id rest : chals s = id :: rest -> stat (co s) !! id = Some Challenged -> EI rb s ->
    (forall k, votes s !! (id, k) = None) ->
    exists view, forall who, (forall i, In i who -> (i < length (keys s))%nat) ->
      round s who = fold_left (fun s' i => step s' (ENotarize true i id (view i))) who s.
  Proof.
    intros Hq Hc HI Hv. destruct (ei_pend _ _ HI id Hc) as [cl Hp].
    exists (fun i => match try_event contract conf (nd i) id (stored cl) with Valid => true | _ => false end).
    intros who Hw. unfold ChalModel.round.
    assert (E : forall i s', In i who -> vote_of mx mxm mxc thr rb cb contract conf stored nd s s' i =
      step s' (ENotarize true i id (match try_event contract conf (nd i) id (stored cl) with Valid => true | _ => false end))).
    { intros i s' I. unfold vote_of, ChalModel.opinion. specialize (Hw i I).
      destruct (nth_error (keys s) i) as [k|] eqn:Ek; [|apply nth_error_None in Ek; lia].
      unfold worker_events. rewrite Hq, Hp. cbn [option_map]. rewrite Hv. reflexivity. }
    assert (F : forall s', fold_left (vote_of mx mxm mxc thr rb cb contract conf stored nd s) who s' = fold_left (fun s' i =>
      step s' (ENotarize true i id (match try_event contract conf (nd i) id (stored cl) with Valid => true | _ => false end))) who s').
    { clear Hw. induction who as [|i who IH]; intros s'; [reflexivity|]. cbn [fold_left].
      rewrite E by (left; reflexivity). apply IH. intros j s'' J. apply E. right. exact J. }
    apply F.
  Qed.

  (** C199, first part: when all notaries are at work and there is a relayer, the block after decides the challenge at the head of
      the queue, whatever they find, and the next one moves up; for every state the bridge can reach. *)
  Theorem C199_served ks ops who id rest : let s := ereach mx mxm mxc thr rb cb ks ops in
    chals s = id :: rest -> stat (co s) !! id = Some Challenged -> (forall k, votes s !! (id, k) = None) ->
    relayer s <> None -> NoDup (keys s) -> nvals s = N.of_nat (length (keys s)) -> 1 <= nvals s ->
    1 <= thr -> thr <= 100 -> decisive thr (nvals s) -> everyone s who ->
    chals (round s who) = rest /\ stat (co (round s who)) !! id <> Some Challenged.
  Proof.
    cbv zeta. intros Hq Hc Hv Hr Hnd Hn N1 T1 T2 Hd Hw. pose proof (ereach_EI mx mxm mxc thr rb cb ks ops Hmx) as HI.
    destruct (round_votes _ id rest Hq Hc HI Hv) as [view E]. rewrite E by (intros i I; apply Hw, I).
    destruct (all_decided _ id view HI Hr Hnd Hn Hv who Hw Hc T1 T2 N1 Hd) as [D1 D2].
    split; [|exact D1]. rewrite D2, Hq. cbn [remove1]. rewrite N.eqb_refl. reflexivity.
  Qed.
  (** C199, second part: nobody votes out of turn: all that a worker sends is about the oldest challenge, on which it has not
      voted, and which is still in the queue. *)
  Theorem C199_in_turn s i id v : opinion s i = Some (id, v) ->
    hd_error (chals s) = Some id /\ exists k c, nth_error (keys s) i = Some k /\ votes s !! (id, k) = None /\ pend (co s) !! id = Some c /\
      (v = true <-> try_event contract conf (nd i) id (stored c) = Valid).
  Proof.
    unfold ChalModel.opinion, worker_events. destruct (nth_error (keys s) i) as [k|]; [|discriminate].
    destruct (chals s) as [|x rest]; [discriminate|]. destruct (pend (co s) !! x) as [c|] eqn:Ep; cbn [option_map]; [|discriminate].
    destruct (votes s !! (x, k)) eqn:Ev; [discriminate|]. intros Q. injection Q as -> <-. split; [reflexivity|].
    exists k, c. split; [reflexivity|]. split; [exact Ev|]. split; [exact Ep|].
    destruct (try_event contract conf (nd i) id (stored c)); split; congruence || discriminate || auto.
  Qed.
End spec.

(** C199, third part: with the chain's threshold of 66 percent, up to 22 notaries always decide; so do all numbers that leave no
    whole number of votes between 34 and 35 percent. *)
Theorem C199_sizes n : n <= 22 \/ (exists m, 100 * m <= 34 * n /\ 35 * n <= 100 * (m + 1)) -> decisive 66 n.
Proof.
  intros [H|(m & H1 & H2)] nay Hn; [|change (100 - 66) with 34; change (101 - 66) with 35; lia].
  change (100 - 66) with 34. change (101 - 66) with 35. intros [Q1 Q2].
  assert (B : forallb (fun n => forallb (fun m => negb ((34 * n <? 100 * m) && (100 * m <? 35 * n))) (map N.of_nat (seq 0 23))) (map N.of_nat (seq 0 23)) = true) by (vm_compute; reflexivity).
  rewrite forallb_forall in B. specialize (B n). rewrite forallb_forall in B.
  assert (In n (map N.of_nat (seq 0 23))) as I1.
  { apply in_map_iff. exists (N.to_nat n). split; [lia|]. apply in_seq. lia. }
  assert (In nay (map N.of_nat (seq 0 23))) as I2.
  { apply in_map_iff. exists (N.to_nat nay). split; [lia|]. apply in_seq. lia. }
  specialize (B I1 nay I2). apply negb_true_iff, andb_false_iff in B. destruct B as [B|B]; apply N.ltb_ge in B; lia.
Qed.

(** ** Two challenges, 7 and 8. *)
Definition opened : list eop := setup ++ [ESubmit 50 7 1; ESubmit 50 8 2; EChallenge 60 7; EChallenge 60 8].
Definition blank : node := Node (fun _ => None) (fun _ => None) (fun _ _ _ => None).
(** A node that shows the event of a claim in a receipt as it should be, with enough confirmations. *)
Definition claim_of (c : N) : eclaim := EClaim (900 + c) 5 6 [c].
Definition shows (id c : N) : node :=
  Node (fun h => if h =? 900 + c then Some (Some (Receipt 10 [ELog 77 [SELECTOR] (encode4 id 5 6 [c]) (Some (900 + c))] (Some 1) (Some 5))) else Some None)
       (fun _ => Some (Some (EBlock (Some 100) 0))) (fun _ _ _ => None).
Local Notation dround := (round 3 100 10 66 100 10 77 3 claim_of).
Local Notation dlive := (live 3 100 10 66 100 10 77 3 claim_of).

Lemma dreach ks ops : demo 66 ks ops = ereach 3 100 10 66 100 10 ks ops.
Proof. reflexivity. Qed.
(** Three notaries: the first two see the event of claim 7 and it is settled as valid in one block; then claim 8 is at the head. *)
Example C199_example :
  let s := demo 66 [1; 2; 3] opened in
  let s' := dround (fun i => if Nat.ltb i 2 then shows 7 1 else blank) s [2; 0; 1]%nat in
  chals s = [7; 8] /\ stat (co s) !! 7 = Some Challenged /\ decisive 66 (nvals s) /\ everyone s [2; 0; 1]%nat /\
  opinion 77 3 claim_of (fun _ => shows 7 1) s 2 = Some (7, true) /\ opinion 77 3 claim_of (fun _ => blank) s 2 = Some (7, false) /\
  chals s' = [8] /\ stat (co s') !! 7 = Some ProvenValid /\ stat (co s') !! 8 = Some Challenged /\ relayer s' = Some 50 /\
  stat (co (dround (fun i => blank) s [2; 0; 1]%nat)) !! 7 = None.
Proof.
  cbv zeta. split; [vm_compute; reflexivity|]. split; [vm_compute; reflexivity|].
  split; [apply C199_sizes; left; vm_compute; discriminate|]. split.
  { split; [apply NoDup_ListNoDup; repeat constructor; cbn; intuition lia|]. intros i. change (length (keys (demo 66 [1; 2; 3] opened))) with 3%nat. cbn [In]. lia. }
  repeat split; vm_compute; reflexivity.
Qed.

(** ** What a silent queue stays. *)
Definition silent (s : ev) : Prop :=
  match chals s with [] => True | id :: _ => forall k, In k (keys s) -> votes s !! (id, k) <> None end.
Lemma silent_opinion s nd i : silent s -> opinion 77 3 claim_of nd s i = None.
Proof.
  unfold silent, opinion, worker_events. intros H. destruct (nth_error (keys s) i) as [k|] eqn:Ek; [|reflexivity].
  destruct (chals s) as [|id rest]; [reflexivity|]. destruct (pend (co s) !! id); cbn [option_map]; [|reflexivity].
  specialize (H k (nth_error_In _ _ Ek)). destruct (votes s !! (id, k)); [reflexivity|congruence].
Qed.
Lemma silent_round s nd who : silent s -> dround nd s who = s.
Proof.
  intros H. unfold round. induction who as [|i who IH]; [reflexivity|]. cbn [fold_left]. unfold vote_of at 2.
  rewrite silent_opinion by exact H. exact IH.
Qed.
Definition same (s s' : ev) : Prop := chals s' = chals s /\ keys s' = keys s /\ votes s' = votes s /\
  forall id, stat (co s') !! id = Some Challenged <-> stat (co s) !! id = Some Challenged.
Lemma live_same s nd o : silent s -> same s (dlive nd s o).
Proof.
  intros H. destruct o as [who| |a|r]; cbn [live].
  - rewrite silent_round by exact H. repeat split; auto.
  - unfold estep. cbn [eexec]. destruct (tick_core 3 (co s) (period s)) as [c|] eqn:E; cbn [rbind commit]; [|repeat split; auto].
    do 3 (split; [reflexivity|]). intros id. cbn [with_core co]. destruct (tick_frame 3 _ _ _ id E) as [F _]. symmetry. exact F.
  - unfold estep. cbn [eexec]. unfold deposit_bond. destruct (getN (rbond s) a =? 0); cbn [ensure rbind commit]; [|repeat split; auto].
    destruct (place s a 100) as [s1|] eqn:E; cbn [rbind commit]; [|repeat split; auto].
    repeat split; auto.
  - unfold estep. cbn [eexec]. unfold set_relayer. destruct (100 <=? getN (rbond s) r); cbn [ensure rbind commit]; repeat split; auto.
Qed.
Lemma same_silent s s' : same s s' -> silent s -> silent s'.
Proof. intros (E1 & E2 & E3 & _). unfold silent. rewrite E1, E2, E3. auto. Qed.
(** Whatever the notaries' nodes show from then on. *)
Fixpoint lives (s : ev) (l : list ((nat -> node) * life)) : ev :=
  match l with [] => s | (nd, o) :: l => lives (dlive nd s o) l end.
Lemma lives_same l : forall s, silent s -> same s (lives s l).
Proof.
  induction l as [|[nd o] l IH]; intros s H; cbn [lives]; [repeat split; auto|].
  pose proof (live_same s nd o H) as S1. pose proof (IH _ (same_silent _ _ S1 H)) as S2.
  destruct S1 as (A1 & A2 & A3 & A4). destruct S2 as (B1 & B2 & B3 & B4). split; [congruence|]. split; [congruence|]. split; [congruence|].
  intros id. rewrite B4. apply A4.
Qed.

(** With 23 notaries of whom 15 find claim 7 valid, it is not decided, and no notary ever votes on claim 8 behind it: whatever
    their nodes show, whoever becomes relayer and however many blocks go by. *)
Theorem C199_blocked_refuted : exists nd, let s := dround nd (demo 66 keys23 opened) (seq 0 23) in
  forall l, chals (lives s l) = [7; 8] /\ stat (co (lives s l)) !! 7 = Some Challenged /\ stat (co (lives s l)) !! 8 = Some Challenged /\
    forall k, votes (lives s l) !! (8, k) = None.
Proof.
  exists (fun i => if Nat.ltb i 15 then shows 7 1 else blank). cbv zeta. intros l.
  set (s := dround _ _ _).
  assert (F : chals s = [7; 8] /\ stat (co s) !! 7 = Some Challenged /\ stat (co s) !! 8 = Some Challenged /\
    forallb (fun k => match votes s !! (7, k) with Some _ => true | None => false end) (keys s) = true /\
    forallb (fun e => fst (fst e) =? 7) (map_to_list (votes s)) = true) by (vm_compute; repeat split).
  destruct F as (F1 & F2 & F3 & F4 & F5). clearbody s.
  assert (H : silent s).
  { unfold silent. rewrite F1. intros k K. rewrite forallb_forall in F4. specialize (F4 k K). destruct (votes s !! (7, k)); [discriminate|discriminate F4]. }
  destruct (lives_same l s H) as (S1 & S2 & S3 & S4). rewrite S1, !S4, S3. split; [exact F1|]. split; [exact F2|]. split; [exact F3|].
  intros k. destruct (votes s !! (8, k)) as [v|] eqn:E; [|reflexivity]. exfalso. rewrite forallb_forall in F5.
  apply elem_of_map_to_list, elem_of_list_In in E. specialize (F5 _ E). discriminate.
Qed.
(** Claim 7 is found wrong and the relayer loses its place; claim 8 is then found valid by all, which takes it from the queue but
    settles nothing, since nobody is relayer: it stays challenged for ever, and is not voted on again, also under a new relayer. *)
Theorem C199_orphan_refuted : exists nd1 nd2, let s1 := dround nd1 (demo 66 [1; 2; 3] opened) [0; 1; 2]%nat in
  let s := dround nd2 s1 [0; 1; 2]%nat in
  chals s1 = [8] /\ relayer s1 = None /\ (forall i, In i [0; 1; 2]%nat -> opinion 77 3 claim_of nd2 s1 i = Some (8, true)) /\
  relayer (lives s [(nd1, Relay 51)]) = Some 51 /\
  forall l, chals (lives s l) = [] /\ stat (co (lives s l)) !! 8 = Some Challenged.
Proof.
  exists (fun _ => blank), (fun _ => shows 8 2). cbv zeta. split; [vm_compute; reflexivity|]. split; [vm_compute; reflexivity|].
  split. { intros i [<-|[<-|[<-|[]]]]; vm_compute; reflexivity. }
  split; [vm_compute; reflexivity|]. intros l. set (s := dround (fun _ => shows 8 2) _ _).
  assert (F : chals s = [] /\ stat (co s) !! 8 = Some Challenged) by (vm_compute; split; reflexivity). destruct F as [F1 F2]. clearbody s.
  assert (H : silent s) by (unfold silent; rewrite F1; exact I).
  destruct (lives_same l s H) as (S1 & _ & _ & S4). rewrite S1, S4. auto.
Qed.

Definition C199_theorems := (C199_served, C199_in_turn, C199_sizes, C199_blocked_refuted, C199_orphan_refuted, C199_example).
Print Assumptions C199_theorems.
