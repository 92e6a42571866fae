(** Properties of the event proof queue: C33, C75. *)
From Verif Require Export EthyQProofs.

(** State after any history of requests, pauses, authority changes and idle blocks, with the
    pending proofs visited in the order [ord]. *)
Definition qreach (ord : list (N * sreq) -> list (N * sreq)) (ops : list qop) : qs := run (qstep ord) ops qinit.
Definition perm_order (ord : list (N * sreq) -> list (N * sreq)) : Prop := forall l, Permutation (ord l) l.

(** ** C33: each id is requested at most once, and is either emitted exactly once or still waiting. *)
Theorem C33_exactly_once ord ops id : perm_order ord -> along (qstep ord) qgood ops qinit ->
  let s := qreach ord ops in
  (reqs id (qlog s) <= 1)%nat /\ (emits id (qlog s) + waiting id s = reqs id (qlog s))%nat.
Proof.
  intros Ho Hg. pose proof (qreach_QI ord Ho ops Hg) as HQ. cbv zeta.
  split; [apply (q_one _ HQ)|apply (q_bal _ HQ)].
Qed.
(** What is emitted under an id is what was requested under it. *)
Theorem C33_payload ord ops id r : perm_order ord ->
  In (QEmit id r) (qlog (qreach ord ops)) -> exists r', In (QReq id r') (qlog (qreach ord ops)) /\ body r = body r'.
Proof. intros Ho H. exact (proj1 (qreach_QB ord Ho ops) id r H). Qed.

(** Nothing is emitted by any step taken while the bridge is paused. *)
Lemma send_paused s fits mk : paused s = true ->
  nemits (qlog (fst (send s fits mk))) = nemits (qlog s) /\ paused (fst (send s fits mk)) = true.
Proof.
  intros Hp. unfold send. destruct fits; cbn [fst]; [|split; [reflexivity|exact Hp]].
  unfold request_proof.
  assert (Ht : forall r, paused (qlogged (take_id s) (QReq (nextp s) r)) = true) by (intros; exact Hp).
  rewrite Ht. split; [reflexivity|exact Hp].
Qed.
Lemma xr_paused xr : forall s, paused s = true ->
  nemits (qlog (fold_left (fun t (d : bool * N) => fst (send_xrp t (fst d) (snd d))) xr s)) = nemits (qlog s).
Proof.
  induction xr as [|d xr IH]; intros s Hp; cbn [fold_left]; [reflexivity|].
  destruct (send_paused s (fst d) (fun _ => RXrp (snd d)) Hp) as [A B]. rewrite IH by exact B. exact A.
Qed.
Theorem C33_paused_silent ord s o : paused s = true -> nemits (qlog (qstep ord s o)) = nemits (qlog s).
Proof.
  intros Hp. destruct o as [fits msg|fits d|b|fits msg xr| |w|n]; cbn [qstep].
  - pose proof (send_paused s fits (fun set => REth set msg) Hp) as [A _]. unfold send_eth.
    destruct (send s fits _) as [s' [i|]]; [exact A|reflexivity].
  - pose proof (send_paused s fits (fun _ => RXrp d) Hp) as [A _]. unfold send_xrp.
    destruct (send s fits _) as [s' [i|]]; [exact A|reflexivity].
  - reflexivity.
  - unfold change_authorities. cbn [qlog].
    pose proof (send_paused s fits (fun set => REth set msg) Hp) as [A B]. unfold send_eth.
    destruct (send s fits _) as [s' [i|]]; cbn [fst] in A, B; rewrite xr_paused; try exact A; exact B.
  - reflexivity.
  - unfold idle. rewrite Hp, orb_true_r. reflexivity.
  - destruct (n <=? U8MAX); reflexivity.
Qed.

(** A pause set by root lasts until root lifts it, one for an authority change until the change is
    finalised: nothing is emitted in between, whatever else happens.  Both over, the bridge works. *)
Lemma send_flags s f mk : manual (fst (send s f mk)) = manual s /\ authch (fst (send s f mk)) = authch s.
Proof. unfold send, request_proof. destruct f; cbn; [destruct (paused _)|]; split; reflexivity. Qed.
Lemma xr_flags xr : forall s, let t := fold_left (fun t (d : bool * N) => fst (send_xrp t (fst d) (snd d))) xr s in manual t = manual s /\ authch t = authch s.
Proof.
  induction xr as [|d xr IH]; intros s; cbn [fold_left]; [split; reflexivity|]. destruct (send_flags s (fst d) (fun _ => RXrp (snd d))) as [A B].
  cbv zeta in *. unfold send_xrp at 2. unfold send_xrp at 3. destruct (IH (fst (send s (fst d) (fun _ => RXrp (snd d))))) as [C D]. split; congruence.
Qed.
Lemma drain_flags l : forall s, manual (fold_left drain1 l s) = manual s /\ authch (fold_left drain1 l s) = authch s.
Proof.
  induction l as [|e l IH]; intros s; cbn [fold_left]; [split; reflexivity|]. destruct (IH (drain1 s e)) as [A B].
  rewrite A, B. unfold drain1, request_proof. destruct (paused _); split; reflexivity.
Qed.
(** The two pauses, from the history alone. *)
Definition root_pause (b : bool) (o : qop) : bool := match o with QPause c => c | _ => b end.
Definition change_pause (b : bool) (o : qop) : bool := match o with QChange _ _ _ => true | QFinal => false | _ => b end.
Lemma step_flags ord s o : manual (qstep ord s o) = root_pause (manual s) o /\ authch (qstep ord s o) = change_pause (authch s) o.
Proof.
  destruct o as [fits msg|fits d|b|fits msg xr| |w|n]; cbn [qstep root_pause change_pause].
  - unfold send_eth. pose proof (send_flags s fits (fun set => REth set msg)) as H. destruct (send s fits _) as [s' [i|]]; [exact H|split; reflexivity].
  - unfold send_xrp. pose proof (send_flags s fits (fun _ => RXrp d)) as H. destruct (send s fits _) as [s' [i|]]; [exact H|split; reflexivity].
  - split; reflexivity.
  - unfold change_authorities. cbn [manual authch]. split; [|reflexivity]. unfold send_eth. pose proof (send_flags s fits (fun set => REth set msg)) as [A _].
    destruct (send s fits _) as [s' [i|]]; cbn [fst] in A; rewrite (proj1 (xr_flags xr _)); exact A.
  - split; reflexivity.
  - unfold idle. destruct (_ || _); [split; reflexivity|apply drain_flags].
  - destruct (n <=? U8MAX); split; reflexivity.
Qed.
Theorem C33_pauses ord ops : let s := qreach ord ops in
  manual s = fold_left root_pause ops false /\ authch s = fold_left change_pause ops false.
Proof.
  cbv zeta. unfold qreach, run. change false with (manual qinit) at 1. change false with (authch qinit). generalize qinit.
  induction ops as [|o ops IH]; intros s; cbn [fold_left]; [split; reflexivity|]. destruct (step_flags ord s o) as [A B]. rewrite <- A, <- B. apply IH.
Qed.
Theorem C33_stays_paused ord s ops : (manual s = true /\ ~ In (QPause false) ops) \/ (authch s = true /\ ~ In QFinal ops) ->
  paused (run (qstep ord) ops s) = true /\ nemits (qlog (run (qstep ord) ops s)) = nemits (qlog s).
Proof.
  revert s. induction ops as [|o ops IH]; intros s H.
  - split; [|reflexivity]. cbn. unfold paused. destruct H as [[-> _]|[-> _]]; [reflexivity|apply orb_true_r].
  - change (run (qstep ord) (o :: ops) s) with (run (qstep ord) ops (qstep ord s o)). destruct (step_flags ord s o) as [A B].
    destruct (IH (qstep ord s o)) as [P Q].
    + destruct H as [[Hm Hn]|[Hm Hn]]; [left; rewrite A|right; rewrite B]; (split; [|intros Hin; apply Hn; right; exact Hin]); rewrite Hm.
      * destruct o as [| |[]| | | |]; try reflexivity. exfalso. apply Hn. left. reflexivity.
      * destruct o; try reflexivity. exfalso. apply Hn. left. reflexivity.
    + split; [exact P|]. rewrite Q. apply C33_paused_silent. unfold paused. destruct H as [[-> _]|[-> _]]; [reflexivity|apply orb_true_r].
Qed.

(** A request made while the bridge is active is emitted at once, under an id nobody used. *)
Theorem C33_immediate ord ops o : perm_order ord -> along (qstep ord) qgood (ops ++ [o]) qinit ->
  let s := qreach ord ops in
  paused s = false -> (exists m, o = QSendEth true m \/ o = QSendXrp true m) ->
  reqs (nextp s) (qlog s) = 0%nat /\ emits (nextp s) (qlog s) = 0%nat
  /\ emits (nextp s) (qlog (qstep ord s o)) = 1%nat.
Proof.
  intros Ho Hg s Hp [m Hm].
  assert (HQ : QI s). { apply qreach_QI; [exact Ho|]. apply along_app in Hg. exact (proj1 Hg). }
  assert (Hz : reqs (nextp s) (qlog s) = 0%nat) by (apply (q_new _ HQ); lia).
  assert (He : emits (nextp s) (qlog s) = 0%nat) by (pose proof (q_bal _ HQ (nextp s)); lia).
  split; [exact Hz|]. split; [exact He|].
  assert (Ht : forall r, paused (qlogged (take_id s) (QReq (nextp s) r)) = false) by (intros; exact Hp).
  destruct Hm as [-> | ->]; cbn [qstep]; unfold send_eth, send_xrp, send, request_proof; rewrite Ht;
    cbn [qlogged take_id qlog emits]; rewrite N.eqb_refl, He; reflexivity.
Qed.

(** Once the bridge is active again, enough idle blocks empty the queue, even if new requests keep
    arriving: every waiting proof has then been emitted. *)
Definition active_op (o : qop) : Prop := match o with QSendEth _ _ | QSendXrp _ _ => True | QIdle w => 1 <= w | _ => False end.
Fixpoint idles (ops : list qop) : nat :=
  match ops with [] => 0%nat | QIdle _ :: ops' => S (idles ops') | _ :: ops' => idles ops' end.
Lemma active_step ord s o : perm_order ord -> active_op o -> QI s -> paused s = false -> 1 <= perblk s ->
  paused (qstep ord s o) = false /\ perblk (qstep ord s o) = perblk s
  /\ (size (pendq (qstep ord s o)) + (match o with QIdle _ => 1 | _ => 0 end) <= Nat.max (size (pendq s)) (match o with QIdle _ => 1 | _ => 0 end))%nat.
Proof.
  intros Ho Ha HQ Hp H1.
  assert (Hsend : forall fits mk, let t := match send s fits mk with (s', Some _) => s' | _ => s end in
    paused t = false /\ perblk t = perblk s /\ pendq t = pendq s).
  { intros fits mk. unfold send. destruct fits; [|repeat split; exact Hp]. unfold request_proof.
    assert (Ht : forall r, paused (qlogged (take_id s) (QReq (nextp s) r)) = false) by (intros; exact Hp).
    rewrite Ht. repeat split. exact Hp. }
  destruct o as [fits msg|fits d|b|fits msg xr| |w|n]; try contradiction; cbn [qstep].
  - destruct (Hsend fits (fun set => REth set msg)) as (A & B & C). unfold send_eth. cbv zeta in *. rewrite C. repeat split; [exact A|exact B|lia].
  - destruct (Hsend fits (fun _ => RXrp d)) as (A & B & C). unfold send_xrp. cbv zeta in *. rewrite C. repeat split; [exact A|exact B|lia].
  - destruct (idle_spec ord Ho s w HQ) as (_ & _ & _ & A & B & C & _). cbn [active_op] in Ha. specialize (C Hp Ha).
    split; [congruence|]. split; [exact A|]. assert ((1 <= N.to_nat (N.min (perblk s) w))%nat) by lia. lia.
Qed.
Lemma drains_from ord : perm_order ord -> forall ops s, Forall active_op ops -> along (qstep ord) qgood ops s -> QI s ->
  paused s = false -> 1 <= perblk s -> (size (pendq s) <= idles ops)%nat -> pendq (run (qstep ord) ops s) = ∅.
Proof.
  intros Ho. induction ops as [|o ops IH]; intros s Hf Hg HQ Hp H1 Hi.
  - apply map_size_empty_inv. cbn [idles] in Hi. change (run (qstep ord) [] s) with s. lia.
  - change (run (qstep ord) (o :: ops) s) with (run (qstep ord) ops (qstep ord s o)).
    apply Forall_cons in Hf as [Ha Hf]. destruct Hg as [Hg1 Hg].
    destruct (active_step ord s o Ho Ha HQ Hp H1) as (A & B & C).
    apply IH; [exact Hf|exact Hg|apply qstep_QI; assumption|exact A|rewrite B; exact H1|].
    destruct o; cbn [idles active_op] in *; try contradiction; lia.
Qed.
Theorem C33_drains ord ops ops2 id : perm_order ord -> along (qstep ord) qgood (ops ++ ops2) qinit ->
  let s := qreach ord ops in
  paused s = false -> 1 <= perblk s -> Forall active_op ops2 -> (size (pendq s) <= idles ops2)%nat ->
  let s' := qreach ord (ops ++ ops2) in
  emits id (qlog s') = reqs id (qlog s').
Proof.
  intros Ho Hg s Hp H1 Ha Hn s'.
  pose proof (qreach_QI ord Ho _ Hg) as HQ. pose proof (q_bal _ HQ id) as Hb.
  assert (Hd : pendq s' = ∅).
  { unfold s', qreach. rewrite run_app. apply along_app in Hg as [Hg1 Hg2].
    apply drains_from; try assumption. apply qreach_QI; assumption. }
  change (run (qstep ord) (ops ++ ops2) qinit) with s' in Hb. unfold waiting in Hb. rewrite Hd, lookup_empty in Hb. lia.
Qed.

(** ** C75: not paused at the time, the change is announced by the set in charge, at once. *)
Theorem C75_outgoing_partial ord ops msg xr : perm_order ord -> along (qstep ord) qgood (ops ++ [QChange true msg xr]) qinit ->
  let s := qreach ord ops in
  paused s = false ->
  let s' := qreach ord (ops ++ [QChange true msg xr]) in
  In (QAuth (nextp s) (setid s)) (qlog s') /\ In (QEmit (nextp s) (REth (setid s) msg)) (qlog s')
  /\ emits (nextp s) (qlog s') = 1%nat /\ paused s' = true.
Proof.
  intros Ho Hg s Hp s'.
  pose proof (qreach_QI ord Ho _ Hg) as HQ. pose proof (q_bal _ HQ (nextp s)) as Hb. pose proof (q_one _ HQ (nextp s)) as H1.
  assert (Es : s' = change_authorities s true msg xr) by (unfold s', qreach; rewrite run_app; reflexivity).
  change (run (qstep ord) (ops ++ [QChange true msg xr]) qinit) with s' in Hb, H1.
  set (base := QAuth (nextp s) (setid s) :: QEmit (nextp s) (REth (setid s) msg) :: QReq (nextp s) (REth (setid s) msg) :: qlog s).
  assert (Hl : exists l, qlog s' = l ++ base).
  { rewrite Es. unfold change_authorities. cbn [qlog].
    assert (Ht : forall r, paused (qlogged (take_id s) (QReq (nextp s) r)) = false) by (intros; exact Hp).
    unfold send_eth, send, request_proof. rewrite Ht.
    assert (Hs : (if setid s <? setid (qlogged (take_id s) (QReq (nextp s) (REth (setid s) msg)))
                  then setid (qlogged (take_id s) (QReq (nextp s) (REth (setid s) msg))) else setid s) = setid s)
      by (destruct (_ <? _); reflexivity).
    rewrite Hs. clear.
    match goal with |- context [fold_left _ xr ?t] => assert (Hq : qlog t = base) by reflexivity; revert Hq; generalize t end.
    clearbody base. intros t Hq.
    assert (G : forall xr t l, qlog t = l ++ base ->
      exists l', qlog (fold_left (fun u (d : bool * N) => fst (send_xrp u (fst d) (snd d))) xr t) = l' ++ base).
    { clear. induction xr as [|d xr IH]; intros t l Hq; cbn [fold_left]; [exists l; exact Hq|].
      unfold send_xrp at 2, send. destruct (fst d); cbn [fst].
      - unfold request_proof. destruct (paused _).
        + apply (IH _ (QReq (nextp t) (RXrp (snd d)) :: l)). cbn [qlogged take_id qlog]. rewrite Hq. reflexivity.
        + apply (IH _ (QEmit (nextp t) (RXrp (snd d)) :: QReq (nextp t) (RXrp (snd d)) :: l)).
          cbn [qlogged take_id qlog]. rewrite Hq. reflexivity.
      - apply (IH _ l). exact Hq. }
    apply (G xr t []). exact Hq. }
  destruct Hl as [l Hl].
  assert (Hi : forall e, In e base -> In e (qlog s')) by (intros e He; rewrite Hl; apply in_or_app; right; exact He).
  split; [apply Hi; left; reflexivity|]. split; [apply Hi; right; left; reflexivity|].
  split.
  - assert (He : forall l id, (emits id base <= emits id (l ++ base))%nat).
    { clear. intros l id. induction l as [|e l IH]; [cbn; lia|]. cbn [app emits]. destruct e; lia. }
    specialize (He l (nextp s)). rewrite <- Hl in He. cbn [base emits] in He. rewrite N.eqb_refl in He. lia.
  - rewrite Es. unfold paused, change_authorities. cbn [manual authch]. apply orb_true_r.
Qed.

(** ** Examples and refutations *)
Definition idord (l : list (N * sreq)) : list (N * sreq) := l.
Lemma idord_perm : perm_order idord. Proof. intros l. reflexivity. Qed.
Definition qgoodb (s : qs) (o : qop) : bool :=
  (nextp s + 1 + match o with QChange _ _ xr => N.of_nat (length xr) | _ => 0 end <? 2 ^ 64) && (setid s + 1 <? 2 ^ 64).
Fixpoint qalongb (ops : list qop) (s : qs) : bool :=
  match ops with [] => true | o :: ops' => qgoodb s o && qalongb ops' (qstep idord s o) end.
Lemma qalongb_ok ops : forall s, qalongb ops s = true -> along (qstep idord) qgood ops s.
Proof.
  induction ops as [|o ops IH]; intros s H; cbn [qalongb] in H; [exact Logic.I|].
  apply andb_true_iff in H as [A B]. split; [|apply IH, B].
  unfold qgoodb in A. apply andb_true_iff in A as [A1 A2]. split; apply N.ltb_lt; assumption.
Qed.
(** Two requests, an authority change with two XRPL proofs, three more requests while paused, resume. *)
Definition ex_ops := [QSendEth true 100; QSendXrp true 200; QSendEth false 1; QChange true 900 [(true, 901); (false, 902); (true, 903)];
                      QSendEth true 101; QSendXrp true 201; QSendEth true 102; QFinal].
Definition ex_ops2 := [QSendEth true 103; QIdle 2; QSendXrp true 202; QIdle 9; QIdle 9].
Example C33_example : along (qstep idord) qgood (ex_ops ++ ex_ops2) qinit
  /\ paused (qreach idord ex_ops) = false /\ size (pendq (qreach idord ex_ops)) = 3%nat
  /\ (size (pendq (qreach idord ex_ops)) <= idles ex_ops2)%nat /\ Forall active_op ex_ops2
  /\ emits 6 (qlog (qreach idord ex_ops)) = 0%nat /\ emits 6 (qlog (qreach idord (ex_ops ++ ex_ops2))) = 1%nat
  /\ In (QEmit 6 (REth 1 101)) (qlog (qreach idord (ex_ops ++ ex_ops2)))
  /\ In (QEmit 2 (REth 0 900)) (qlog (qreach idord ex_ops)) /\ In (QAuth 2 0) (qlog (qreach idord ex_ops)).
Proof.
  split; [apply qalongb_ok; vm_compute; reflexivity|]. split; [vm_compute; reflexivity|]. split; [vm_compute; reflexivity|].
  split; [vm_compute; lia|]. split; [repeat constructor; vm_compute; discriminate|].
  split; [vm_compute; reflexivity|]. split; [vm_compute; reflexivity|]. split; [vm_compute; tauto|]. split; vm_compute; tauto.
Qed.
Example C75_example : paused (qreach idord [QSendEth true 100]) = false
  /\ along (qstep idord) qgood ([QSendEth true 100] ++ [QChange true 900 [(true, 901)]]) qinit.
Proof. split; [reflexivity|apply qalongb_ok; vm_compute; reflexivity]. Qed.

Example C33_example_pause : let s := qreach idord [QPause true; QChange true 900 []] in
  let ops := [QSendEth true 1; QFinal; QIdle 9; QSendXrp true 2; QIdle 9] in
  manual s = true /\ authch s = true /\ paused (run (qstep idord) ops s) = true /\ nemits (qlog (run (qstep idord) ops s)) = 0%nat /\
  nemits (qlog (run (qstep idord) (ops ++ [QPause false; QIdle 9]) s)) = 3%nat.
Proof. vm_compute. auto 10. Qed.

(** With zero proofs per block, a delayed proof is never emitted however many idle blocks follow. *)
Theorem C33_zero_per_block_refuted : exists ops id, along (qstep idord) qgood ops qinit
  /\ reqs id (qlog (qreach idord ops)) = 1%nat /\ paused (qreach idord ops) = false
  /\ forall n w, emits id (qlog (run (qstep idord) (repeat (QIdle w) n) (qreach idord ops))) = 0%nat.
Proof.
  exists [QPause true; QSendEth true 7; QPause false; QSetPer 0], 0.
  split; [apply qalongb_ok; vm_compute; reflexivity|]. split; [reflexivity|]. split; [reflexivity|].
  intros n w. set (s := qreach idord _).
  assert (H : qstep idord s (QIdle w) = s).
  { cbn [qstep]. unfold idle. destruct ((w =? 0) || paused s); [reflexivity|].
    replace (N.to_nat (N.min (perblk s) w)) with 0%nat; [reflexivity|]. change (perblk s) with 0. lia. }
  induction n as [|n IH]; [vm_compute; reflexivity|].
  change (run (qstep idord) (repeat (QIdle w) (S n)) s) with (run (qstep idord) (repeat (QIdle w) n) (qstep idord s (QIdle w))).
  rewrite H. exact IH.
Qed.
(** Paused by governance during the authority change, the announcement of the new set is requested
    from the new set itself, which the Ethereum contract does not know yet. *)
Theorem C75_paused_change_refuted : exists ops id set r, along (qstep idord) qgood ops qinit
  /\ In (QAuth id set) (qlog (qreach idord ops)) /\ In (QEmit id r) (qlog (qreach idord ops))
  /\ r = REth (set + 1) 900 /\ emits id (qlog (qreach idord ops)) = 1%nat.
Proof.
  exists [QPause true; QChange true 900 []; QFinal; QPause false; QIdle 5], 0, 0, (REth 1 900).
  split; [apply qalongb_ok; vm_compute; reflexivity|].
  split; [vm_compute; tauto|]. split; [vm_compute; tauto|]. split; vm_compute; reflexivity.
Qed.

Print Assumptions C33_exactly_once.
Print Assumptions C33_payload.
Print Assumptions C33_paused_silent.
Print Assumptions C33_immediate.
Print Assumptions C33_drains.
Print Assumptions C75_outgoing_partial.
Print Assumptions C33_zero_per_block_refuted.
Print Assumptions C75_paused_change_refuted.
Print Assumptions C33_pauses.
Print Assumptions C33_stays_paused.
