(** Properties of the gas for work outside the EVM (C195). *)
From Verif Require Import GasModel.

(** ** Spec *)
(** The work that a program can have done without paying for it, at most: dispatches that fail, and what runs in the contracts
    that a futurepass creates with the gas passed to it. *)
Fixpoint unpaid (wpg : N) (a : act) : N :=
  let all := fix all l := match l with [] => 0 | a :: l' => unpaid wpg a + all l' end in
  match a with
  | Compute _ => 0
  | Call _ _ body => all body
  | Dispatch _ _ _ _ (Failed w) => w
  | Dispatch _ _ _ _ (Done _) | Recorded _ _ _ _ _ => 0
  | Create g _ _ body => wpg * g + all body
  end.
Definition unpaid_all (wpg : N) (l : list act) : N := fold_right (fun a n => unpaid wpg a + n) 0 l.
(** Weights are not understated, and a call instruction costs something. *)
Fixpoint sane (a : act) : Prop :=
  let all := fix all l := match l with [] => True | a :: l' => sane a /\ all l' end in
  match a with
  | Compute _ => True
  | Call _ ov body => all body
  | Dispatch _ ov _ declared r => 1 <= ov /\ match r with Done (Some x) => x <= declared | _ => True end
  | Recorded _ ov _ declared r => 1 <= ov /\ match r with Failed x => x <= declared | _ => True end
  | Create _ ov _ body => all body
  end.
Fixpoint sane_all (l : list act) : Prop := match l with [] => True | a :: l' => sane a /\ sane_all l' end.
(** Only dispatches that succeed and no creations by a futurepass, at any depth. *)
Fixpoint metered (a : act) : Prop :=
  let all := fix all l := match l with [] => True | a :: l' => metered a /\ all l' end in
  match a with
  | Compute _ | Recorded _ _ _ _ _ | Dispatch _ _ _ _ (Done _) => True
  | Call _ _ body => all body
  | Dispatch _ _ _ _ (Failed _) | Create _ _ _ _ => False
  end.

Definition rest (e : fin) : N := match e with Left r | Reverted r => r | Failing => 0 end.

Section Gas.
  Context (wpg : N) (Hw : 1 <= wpg).
  Notation exec := (exec wpg).
  Notation frame := (frame wpg).

  Lemma act_ind' (P : act -> Prop) :
    (forall c, P (Compute c)) -> (forall g ov b, Forall P b -> P (Call g ov b)) ->
    (forall g ov p d r, P (Dispatch g ov p d r)) -> (forall g ov p d r, P (Recorded g ov p d r)) ->
    (forall g ov p b, Forall P b -> P (Create g ov p b)) -> forall a, P a.
  Proof.
    intros H1 H2 H3 H4 H5. fix IH 1. intros [c|g ov b|g ov p d r|g ov p d r|g ov p b]; [apply H1| |apply H3|apply H4|].
    - apply H2. induction b as [|x b IHb]; constructor; [apply IH|exact IHb].
    - apply H5. induction b as [|x b IHb]; constructor; [apply IH|exact IHb].
  Qed.
  Lemma frame_eq l : forall rem, (fix frame (l : list act) (rem : N) : N * fin :=
      match l with
      | [] => (0, Left rem)
      | a :: l' => let (w, e) := exec a rem in
                   match e with Left r => let (w', e') := frame l' r in (w + w', e') | e => (w, e) end
      end) l rem = frame l rem.
  Proof.
    induction l as [|a l IH]; intros rem; [reflexivity|]. cbn [GasModel.frame].
    destruct (exec a rem) as [w [r|r|]]; [|reflexivity|reflexivity]. rewrite IH. reflexivity.
  Qed.
  Lemma all_eq l : (fix all l := match l with [] => 0 | a :: l' => unpaid wpg a + all l' end) l = unpaid_all wpg l.
  Proof. induction l as [|a l IH]; [reflexivity|]. cbn [unpaid_all fold_right]. rewrite IH. reflexivity. Qed.
  Lemma sane_eq l : (fix all l := match l with [] => True | a :: l' => sane a /\ all l' end) l = sane_all l.
  Proof. induction l as [|a l IH]; [reflexivity|]. cbn [sane_all]. rewrite IH. reflexivity. Qed.

  (** What a frame, or part of one, may do with [rem] gas, with [u] unpaid. *)
  Definition fits (u rem : N) (x : N * fin) : Prop := rest (snd x) <= rem /\ fst x <= wpg * (rem - rest (snd x)) + u.

  Lemma sub_frame_fits u g ov rem k : (forall r, r <= g -> fits u r (k r)) -> fits u rem (sub_frame g ov rem k).
  Proof.
    intros H. unfold sub_frame, after. destruct (N.ltb_spec rem ov).
    - split; cbn [fst snd rest]; lia.
    - set (rm := rem - ov). set (gv := N.min g (rm - rm / 64)).
      assert (Hg : gv <= rm) by (unfold gv; lia). specialize (H gv ltac:(unfold gv; lia)).
      destruct (k gv) as [w e]. unfold fits in *. cbn [fst snd rest] in *.
      assert (E : match e with Left r | Reverted r => r | Failing => 0 end = rest e) by (destruct e; reflexivity). rewrite E.
      destruct H as [H1 H2]. split; [unfold rm in *; lia|]. replace (rem - (rm - gv + rest e)) with (ov + (gv - rest e)) by (unfold rm in *; lia).
      nia.
  Qed.
  (** A call instruction pays for one rounding. *)
  Lemma sub_frame_fits1 u g ov rem k : 1 <= ov -> (forall r, r <= g -> fits (u + (wpg - 1)) r (k r)) -> fits u rem (sub_frame g ov rem k).
  Proof.
    intros Ho H. unfold sub_frame, after. destruct (N.ltb_spec rem ov).
    - split; cbn [fst snd rest]; lia.
    - set (rm := rem - ov). set (gv := N.min g (rm - rm / 64)).
      assert (Hg : gv <= rm) by (unfold gv; lia). specialize (H gv ltac:(unfold gv; lia)).
      destruct (k gv) as [w e]. unfold fits in *. cbn [fst snd rest] in *.
      assert (E : match e with Left r | Reverted r => r | Failing => 0 end = rest e) by (destruct e; reflexivity). rewrite E.
      destruct H as [H1 H2]. split; [unfold rm in *; lia|]. replace (rem - (rm - gv + rest e)) with (ov + (gv - rest e)) by (unfold rm in *; lia).
      nia.
  Qed.
  Lemma after_fits u pre rem k : (forall r, r <= rem -> fits u r (k r)) -> fits u rem (after pre rem k).
  Proof.
    intros H. unfold after. destruct (N.ltb_spec rem pre).
    - split; cbn [fst snd rest]; lia.
    - specialize (H (rem - pre) ltac:(lia)). destruct (k (rem - pre)) as [w e]. unfold fits in *. cbn [fst snd] in *. destruct H.
      split; [lia|]. nia.
  Qed.
  Lemma gas_covers w : w <= wpg * weight_to_gas wpg w + (wpg - 1).
  Proof. unfold weight_to_gas. pose proof (N.div_mod w wpg ltac:(lia)). pose proof (N.mod_lt w wpg ltac:(lia)). lia. Qed.

  Lemma dispatch_fits rem d r : match r with Done (Some x) => x <= d | _ => True end ->
    fits (match r with Failed w => w | Done _ => 0 end + (wpg - 1)) rem (try_dispatch wpg rem d r).
  Proof.
    intros Hs. unfold try_dispatch. destruct (N.ltb_spec rem (weight_to_gas wpg d)) as [Hl|Hl].
    - split; cbn [fst snd rest]; lia.
    - destruct r as [o|w]; [|split; cbn [fst snd rest]; lia].
      assert (Hle : work_of d (Done o) <= d) by (destruct o; cbn in *; lia).
      assert (Hu : weight_to_gas wpg (work_of d (Done o)) <= weight_to_gas wpg d) by (apply N.div_le_mono; lia).
      destruct (N.leb_spec (weight_to_gas wpg (work_of d (Done o))) rem); [|lia].
      pose proof (gas_covers (work_of d (Done o))). split; cbn [fst snd rest]; [lia|].
      replace (rem - (rem - weight_to_gas wpg (work_of d (Done o)))) with (weight_to_gas wpg (work_of d (Done o))) by lia. lia.
  Qed.
  Lemma recorded_fits rem d r : match r with Failed x => x <= d | _ => True end -> fits (wpg - 1) rem (recorded wpg rem d r).
  Proof.
    intros Hs. unfold recorded. destruct (N.ltb_spec rem (weight_to_gas wpg d)) as [Hl|Hl].
    - split; cbn [fst snd rest]; lia.
    - pose proof (gas_covers d). split; destruct r; cbn [fst snd rest]; try lia;
      replace (rem - (rem - weight_to_gas wpg d)) with (weight_to_gas wpg d) by lia; lia.
  Qed.

  Lemma frame_fits l : Forall (fun a => sane a -> forall rem, fits (unpaid wpg a) rem (exec a rem)) l -> sane_all l ->
    forall rem, fits (unpaid_all wpg l) rem (frame l rem).
  Proof.
    induction 1 as [|a l Ha _ IH]; intros Hs rem.
    - split; cbn; lia.
    - destruct Hs as [Hs1 Hs2]. specialize (Ha Hs1 rem). cbn [GasModel.frame unpaid_all fold_right]. fold (unpaid_all wpg l).
      destruct (exec a rem) as [w [r|r|]]; unfold fits in *; cbn [fst snd rest] in *.
      + specialize (IH Hs2 r). destruct (frame l r) as [w' e']. cbn [fst snd] in *. destruct Ha, IH. split; [lia|].
        replace (rem - rest e') with ((rem - r) + (r - rest e')) by lia. nia.
      + lia.
      + lia.
  Qed.
  Lemma exec_fits a : sane a -> forall rem, fits (unpaid wpg a) rem (exec a rem).
  Proof.
    induction a as [c|g ov b IH|g ov p d r|g ov p d r|g ov p b IH] using act_ind'; intros Hs rem; cbn [GasModel.exec unpaid].
    - destruct (N.ltb_spec rem c); split; cbn [fst snd rest]; try lia. replace (rem - (rem - c)) with c by lia. lia.
    - cbn [sane] in Hs. rewrite sane_eq in Hs. rewrite all_eq. apply sub_frame_fits. intros r _. rewrite frame_eq.
      exact (frame_fits b IH Hs r).
    - destruct Hs as [Ho Hs]. apply sub_frame_fits1; [exact Ho|]. intros x _. apply after_fits. intros y _.
      pose proof (dispatch_fits y d r Hs) as H. destruct r; exact H.
    - destruct Hs as [Ho Hs]. apply sub_frame_fits1; [exact Ho|]. intros x _. apply after_fits. intros y _.
      rewrite N.add_0_l. exact (recorded_fits y d r Hs).
    - cbn [sane] in Hs. rewrite sane_eq in Hs. rewrite all_eq. apply sub_frame_fits. intros x Hx. unfold after.
      destruct (N.ltb_spec x p); [split; cbn [fst snd rest]; lia|]. unfold create. rewrite frame_eq.
      pose proof (frame_fits b IH Hs (x - p)) as H'. destruct (frame b (x - p)) as [w e]. unfold fits in *. cbn [fst snd rest] in *.
      destruct H' as [_ H']. assert (w <= wpg * g + unpaid_all wpg b) by nia.
      split; destruct e; cbn [rest]; lia || nia.
  Qed.

  (** All work beyond the unpaid is paid in gas, and no more gas than the limit is charged. *)
  Theorem C195_bound : forall limit l w used, sane_all l -> transaction wpg limit l = (w, used) ->
    used <= limit /\ w <= wpg * used + unpaid_all wpg l.
  Proof.
    intros limit l w used Hs H. unfold transaction in H.
    assert (Hf : Forall (fun a => sane a -> forall rem, fits (unpaid wpg a) rem (exec a rem)) l).
    { clear H Hs. induction l; constructor; [intros Hs; exact (exec_fits _ Hs)|assumption]. }
    pose proof (frame_fits l Hf Hs limit) as [H1 H2]. destruct (frame l limit) as [w' e]. cbn [fst snd] in *. injection H as <- <-.
    assert (E : match e with Left r | Reverted r => r | Failing => 0 end = rest e) by (destruct e; reflexivity). rewrite E. lia.
  Qed.
  Lemma metered_all l : (fix all l := match l with [] => True | a :: l' => metered a /\ all l' end) l -> Forall metered l.
  Proof. induction l as [|a l IH]; [constructor|]. intros [H1 H2]. constructor; auto. Qed.
  Lemma metered_unpaid a : metered a -> unpaid wpg a = 0.
  Proof.
    induction a as [c|g ov b IH|g ov p d r|g ov p d r|g ov p b IH] using act_ind'; intros Hm; cbn [unpaid metered] in *; try reflexivity.
    - rewrite all_eq. apply metered_all in Hm. clear g ov. induction b as [|a b IHb]; [reflexivity|].
      inversion IH; inversion Hm; subst. cbn [unpaid_all fold_right]. fold (unpaid_all wpg b). rewrite IHb by assumption.
      match goal with H : metered a -> _ |- _ => rewrite H by assumption end. reflexivity.
    - destruct r; [reflexivity|destruct Hm].
    - destruct Hm.
  Qed.
  (** Hence, without failing dispatches and creations by futurepasses, all of it, however the calls nest and end. *)
  Theorem C195_paid : forall limit l w used, Forall metered l -> sane_all l -> transaction wpg limit l = (w, used) ->
    used <= limit /\ w <= wpg * used.
  Proof.
    intros limit l w used Hm Hs H. destruct (C195_bound limit l w used Hs H) as [H1 H2]. split; [exact H1|].
    assert (unpaid_all wpg l = 0) as E; [|lia]. clear H H1 H2 Hs. induction Hm as [|a l Ha _ IH]; [reflexivity|].
    cbn [unpaid_all fold_right]. rewrite (metered_unpaid a Ha). exact IH.
  Qed.
  (** A dispatch that succeeds costs the gas of its actual weight, one whose weight is more than the gas there is does nothing. *)
  Theorem C195_charged : forall rem declared o w, w = match o with Some a => a | None => declared end -> w <= declared -> declared / wpg <= rem ->
    try_dispatch wpg rem declared (Done o) = (w, Left (rem - w / wpg)).
  Proof.
    intros rem d o w Ho Hle Hr. assert (E : work_of d (Done o) = w) by (rewrite Ho; destruct o; reflexivity). clear Ho. subst w. unfold try_dispatch. destruct (N.ltb_spec rem (weight_to_gas wpg d)); [unfold weight_to_gas in *; lia|].
    assert (Hu : weight_to_gas wpg (work_of d (Done o)) <= weight_to_gas wpg d) by (apply N.div_le_mono; lia).
    destruct (N.leb_spec (weight_to_gas wpg (work_of d (Done o))) rem); [reflexivity|unfold weight_to_gas in *; lia].
  Qed.
  Theorem C195_refused : forall rem declared r, rem < declared / wpg -> fst (try_dispatch wpg rem declared r) = 0 /\ fst (recorded wpg rem declared r) = 0.
  Proof.
    intros rem d r H. unfold try_dispatch, recorded. destruct (N.ltb_spec rem (weight_to_gas wpg d)); [auto|unfold weight_to_gas in *; lia].
  Qed.

  (** ** What is wrong *)
  (** A dispatch that fails is not paid: with gas for one, any number of them can be tried, each for the price of the call. *)
  Theorem C195_failed_refuted : forall (n : nat) declared x ov limit,
    N.of_nat n * ov + 2 * (declared / wpg) + 64 <= limit ->
    transaction wpg limit (repeat (Dispatch limit ov 0 declared (Failed x)) n) = (N.of_nat n * x, N.of_nat n * ov).
  Proof.
    intros n declared x ov limit Hl. unfold transaction. fold (weight_to_gas wpg declared) in Hl.
    assert (G : forall m rem, N.of_nat m * ov + 2 * weight_to_gas wpg declared + 64 <= rem -> rem <= limit ->
      frame (repeat (Dispatch limit ov 0 declared (Failed x)) m) rem = (N.of_nat m * x, Left (rem - N.of_nat m * ov))).
    { induction m as [|m IH]; intros rem Hr Hle.
      - cbn [repeat GasModel.frame]. f_equal. f_equal. lia.
      - rewrite Nat2N.inj_succ in *. rewrite !N.mul_succ_l in *. cbn [repeat GasModel.frame GasModel.exec]. unfold sub_frame, after.
        destruct (N.ltb_spec rem ov); [lia|]. set (rm := rem - ov). assert (Hq : rm / 64 <= rm / 2) by (apply N.div_le_compat_l; lia).
        assert (Hh : 2 * (rm / 2) <= rm) by (apply N.mul_div_le; lia).
        assert (Em : N.min limit (rm - rm / 64) = rm - rm / 64) by (unfold rm in *; lia). rewrite Em.
        destruct (N.ltb_spec (rm - rm / 64) 0); [lia|]. unfold try_dispatch.
        destruct (N.ltb_spec (rm - rm / 64 - 0) (weight_to_gas wpg declared)); [unfold rm in *; lia|].
        rewrite IH by (unfold rm in *; lia). f_equal; [lia|]. f_equal. unfold rm in *. lia. }
    rewrite G by lia. f_equal. lia.
  Qed.
  (** Nor is what runs in the constructor of a contract that a futurepass creates. *)
  Theorem C195_create_refuted : forall (n : nat) b ov limit,
    N.of_nat n * ov + 2 * b + 64 <= limit ->
    transaction wpg limit (repeat (Create limit ov 0 [Compute b]) n) = (N.of_nat n * (b * wpg), N.of_nat n * ov).
  Proof.
    intros n b ov limit Hl. unfold transaction.
    assert (G : forall m rem, N.of_nat m * ov + 2 * b + 64 <= rem -> rem <= limit ->
      frame (repeat (Create limit ov 0 [Compute b]) m) rem = (N.of_nat m * (b * wpg), Left (rem - N.of_nat m * ov))).
    { induction m as [|m IH]; intros rem Hr Hle.
      - cbn [repeat GasModel.frame]. f_equal. f_equal. lia.
      - rewrite Nat2N.inj_succ in *. rewrite !N.mul_succ_l in *. cbn [repeat GasModel.frame GasModel.exec]. unfold sub_frame, after.
        destruct (N.ltb_spec rem ov); [lia|]. set (rm := rem - ov). assert (Hq : rm / 64 <= rm / 2) by (apply N.div_le_compat_l; lia).
        assert (Hh : 2 * (rm / 2) <= rm) by (apply N.mul_div_le; lia).
        assert (Em : N.min limit (rm - rm / 64) = rm - rm / 64) by (unfold rm in *; lia). rewrite Em.
        destruct (N.ltb_spec (rm - rm / 64) 0); [lia|]. unfold create.
        destruct (N.ltb_spec (rm - rm / 64 - 0) b); [unfold rm in *; lia|]. rewrite N.add_0_r.
        rewrite IH by (unfold rm in *; lia). f_equal; [lia|]. f_equal. unfold rm in *. lia. }
    rewrite G by lia. f_equal. lia.
  Qed.
End Gas.

(** A log costs what the EVM charges for it. *)
Theorem C195_log : forall topics data c, log_costs topics data = Some c <->
  (c = 375 + 375 * topics + 8 * data /\ c <= 2 ^ 64 - 1).
Proof.
  intros t d c. unfold log_costs, chk_mul, chk_add. change (2 ^ 64 - 1) with U64MAX. split.
  - destruct (N.leb_spec (375 * t) U64MAX); [|discriminate]. destruct (N.leb_spec (8 * d) U64MAX); [|discriminate].
    destruct (N.leb_spec (375 + 375 * t) U64MAX); [|discriminate].
    destruct (N.leb_spec (375 + 375 * t + 8 * d) U64MAX); [|discriminate]. intros E. injection E as <-. split; [lia|assumption].
  - intros [-> Hc]. destruct (N.leb_spec (375 * t) U64MAX); [|lia]. destruct (N.leb_spec (8 * d) U64MAX); [|lia].
    destruct (N.leb_spec (375 + 375 * t) U64MAX); [|lia]. destruct (N.leb_spec (375 + 375 * t + 8 * d) U64MAX); [|lia].
    f_equal.
Qed.

(** The transactions of a block, with at most the gas of a block between them, leave the quarter of its time that is kept for
    other work, again without failing dispatches and creations by futurepasses. *)
Definition block_work (l : list (N * list act)) : N := fold_right (fun t n => fst (transaction WEIGHT_PER_GAS (fst t) (snd t)) + n) 0 l.
Definition block_gas (l : list (N * list act)) : N := fold_right (fun t n => fst t + n) 0 l.
Theorem C195_block : forall l, Forall (fun t => Forall metered (snd t) /\ sane_all (snd t)) l -> block_gas l <= 15000000 ->
  4 * block_work l <= 3 * (1000 * 1000000000).
Proof.
  intros l H L. assert (W : block_work l <= 50000 * block_gas l).
  { clear L. induction H as [|[g b] l [Hm Hs] _ IH]; [cbn; lia|]. cbn [block_work block_gas fold_right fst snd] in *.
    fold (block_work l) (block_gas l) in *. destruct (transaction WEIGHT_PER_GAS g b) as [w u] eqn:E.
    apply C195_paid in E; [|vm_compute; discriminate|assumption|assumption]. change WEIGHT_PER_GAS with 50000 in E. cbn [fst]. nia. }
  lia.
Qed.

(** With the chain's numbers: an approval and a listing in a nested call are paid; one transaction of the gas of a block has
    the work of ninety blocks done by a futurepass that creates contracts. *)
Example C195_example : WEIGHT_PER_GAS = 50000 /\
  transaction WEIGHT_PER_GAS 500000 [Compute 21000; Call 300000 2600 [Dispatch 100000 100 1881 200000000 (Done (Some 150000000)); Recorded 100000 100 0 400000000 (Failed 100)]; Compute 7]
    = (1200350100, 36688) /\
  fst (transaction WEIGHT_PER_GAS 15000000 (repeat (Create 15000000 3000 0 [Compute 7000000]) 200)) = 200 * (7000000 * 50000).
Proof. vm_compute. auto. Qed.

Definition Gas_assumptions := (C195_bound, C195_paid, C195_charged, C195_refused, C195_failed_refuted, C195_create_refuted, C195_log, C195_block, C195_example).
Print Assumptions Gas_assumptions.
