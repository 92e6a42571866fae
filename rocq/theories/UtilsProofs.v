From Verif Require Import UtilsModel.

(** ** Asset ids *)
Lemma lor_add n p : p < 1024 -> N.lor (n * 1024) p = n * 1024 + p.
Proof.
  intros Hp.
  assert (Hl : N.land (n * 1024) p = 0).
  { change 1024 with (2 ^ 10). apply N.bits_inj_0. intros k. rewrite N.land_spec.
    destruct (N.ltb_spec k 10) as [Hk|Hk].
    - rewrite N.mul_pow2_bits_low by exact Hk. reflexivity.
    - assert (Hz : N.testbit p k = false).
      { destruct (N.eq_dec p 0) as [->|Hp0]; [apply N.bits_0|].
        apply N.bits_above_log2. apply N.lt_le_trans with 10; [|exact Hk].
        apply N.log2_lt_pow2; [lia|]. exact Hp. }
      rewrite Hz. apply andb_false_r. }
  rewrite N.add_nocarry_lxor by exact Hl. rewrite N.lxor_lor by exact Hl. reflexivity.
Qed.
Lemma uuid_value n p : n + 1 <= MAX_U22 -> p <= MAX_U10 -> next_asset_uuid n p = Some (n * 1024 + p).
Proof.
  intros Hn Hp. unfold next_asset_uuid, wrap32.
  change MAX_U22 with 4194303 in *. change MAX_U10 with 1023 in *.
  change (2 ^ 32) with 4294967296.
  rewrite (N.mod_small (n + 1)) by lia.
  destruct (N.ltb_spec 4194303 (n + 1)); [lia|]. destruct (N.ltb_spec 1023 p); [lia|]. cbn [orb].
  rewrite N.shiftl_mul_pow2. change (2 ^ 10) with 1024. rewrite N.mod_small by lia.
  rewrite lor_add by lia. reflexivity.
Qed.
Lemma uuid_none n p : MAX_U22 < n + 1 -> n + 1 < 2 ^ 32 -> next_asset_uuid n p = None.
Proof.
  intros Hn Hw. unfold next_asset_uuid, wrap32. rewrite (N.mod_small (n + 1)) by exact Hw.
  destruct (N.ltb_spec MAX_U22 (n + 1)); [reflexivity|lia].
Qed.
Lemma uuid_none_para n p : MAX_U10 < p -> next_asset_uuid n p = None.
Proof.
  intros Hp. unfold next_asset_uuid. destruct (N.ltb_spec MAX_U10 p); [|lia].
  rewrite orb_true_r. reflexivity.
Qed.

Definition IdsInv (para : N) (s : ids) : Prop :=
  1 <= next_id s <= MAX_U22 /\ NoDup (issued s) /\
  N.of_nat (length (issued s)) = next_id s - 1 /\
  Forall (fun i => exists n, 1 <= n < next_id s /\ i = n * 1024 + para) (issued s).

Lemma ids_genesis_inv para : IdsInv para ids_genesis.
Proof.
  split; [vm_compute; split; discriminate|]. split; [constructor|]. split; [reflexivity|constructor].
Qed.
Lemma create_inv para s : IdsInv para s -> IdsInv para (commit s (create_asset para s)).
Proof.
  intros (Hb & Hnd & Hlen & Hall). unfold create_asset.
  destruct (N.leb_spec para MAX_U10) as [Hp|Hp]; [|rewrite uuid_none_para by exact Hp; cbn; split; auto].
  destruct (N.leb_spec (next_id s + 1) MAX_U22) as [Hn|Hn].
  - rewrite uuid_value by assumption. cbn [commit].
    assert (Hw : wrap32 (next_id s + 1) = next_id s + 1).
    { unfold wrap32. apply N.mod_small. change MAX_U22 with 4194303 in *.
      change (2 ^ 32) with 4294967296. lia. }
    rewrite Hw. split; [cbn; lia|]. cbn [issued next_id length]. split; [|split].
    + constructor; [|exact Hnd]. intros Hin. apply elem_of_list_In in Hin.
      rewrite List.Forall_forall in Hall. destruct (Hall _ Hin) as (n & Hn' & E). 
      change MAX_U10 with 1023 in *. lia.
    + rewrite Nat2N.inj_succ. lia.
    + constructor; [exists (next_id s); lia|].
      eapply List.Forall_impl; [|exact Hall]. intros i (n & Hn' & E). exists n. lia.
  - rewrite uuid_none; [cbn; split; auto|exact Hn|].
    change MAX_U22 with 4194303 in *. change (2 ^ 32) with 4294967296. lia.
Qed.
Lemma create_many_inv para n : forall s, IdsInv para s -> IdsInv para (create_many para n s).
Proof. induction n as [|n IH]; intros s Hi; cbn; [exact Hi|]. apply IH, create_inv, Hi. Qed.

Lemma ids_unique para n :
  let s := create_many para n ids_genesis in
  NoDup (issued s) /\ Forall (fun i => i mod 1024 = para /\ i < 2 ^ 32) (issued s).
Proof.
  intros s. destruct (create_many_inv para n ids_genesis (ids_genesis_inv para)) as (Hb & Hnd & Hl & Hall).
  fold s in Hb, Hnd, Hl, Hall. split; [exact Hnd|].
  destruct (N.leb_spec para MAX_U10) as [Hp|Hp].
  - eapply List.Forall_impl; [|exact Hall]. intros i (k & Hk & ->).
    change MAX_U22 with 4194303 in *. change MAX_U10 with 1023 in *. change (2 ^ 32) with 4294967296.
    split; [|lia]. rewrite N.add_comm, N.mod_add by discriminate. apply N.mod_small. lia.
  - assert (E : issued s = []).
    { clear Hb Hnd Hl Hall. unfold s. induction n as [|n IH]; cbn; [reflexivity|].
      unfold create_asset at 1. rewrite uuid_none_para by exact Hp. cbn. exact IH. }
    rewrite E. constructor.
Qed.
(** Exhaustion is reported: creation fails exactly when 2^22-2 ids have been handed out. *)
Lemma ids_exhaustion para n :
  para <= MAX_U10 ->
  let s := create_many para n ids_genesis in
  create_asset para s = Err 1 <-> length (issued s) = N.to_nat (2 ^ 22 - 2).
Proof.
  intros Hp s. destruct (create_many_inv para n ids_genesis (ids_genesis_inv para)) as (Hb & _ & Hl & _).
  fold s in Hb, Hl. unfold create_asset.
  change (2 ^ 22 - 2) with 4194302. change MAX_U22 with 4194303 in *.
  destruct (N.leb_spec (next_id s + 1) 4194303) as [Hn|Hn].
  - rewrite uuid_value by assumption. split; [discriminate|]. intros E.
    exfalso. apply (f_equal N.of_nat) in E. rewrite N2Nat.id in E. lia.
  - rewrite uuid_none; [|exact Hn|change (2 ^ 32) with 4294967296; lia].
    split; [|reflexivity]. intros _. apply Nat2N.inj. rewrite N2Nat.id. lia.
Qed.

(** ** Scaling *)
Lemma pow10_pos e : 0 < 10 ^ e.
Proof. apply N.neq_0_lt_0. apply N.pow_nonzero. discriminate. Qed.

(** Ceiling division. *)
Definition ceil_div (a b : N) : N := (a + b - 1) / b.
Lemma ceil_div_spec a b q : 0 < b -> (q = ceil_div a b <-> a <= q * b < a + b).
Proof.
  intros Hb. unfold ceil_div. split.
  - intros ->. pose proof (N.div_mod (a + b - 1) b ltac:(lia)) as D.
    pose proof (N.mod_lt (a + b - 1) b ltac:(lia)) as M. nodiv. nia.
  - intros [H1 H2]. apply N.div_unique with (a + b - 1 - q * b); lia.
Qed.
Lemma scale_down_spec v d w :
  scale_wei_to_correct_decimals v d = Ok w <-> (d <= 18 /\ w <= U128MAX /\ w = ceil_div v (10 ^ (18 - d))).
Proof.
  unfold scale_wei_to_correct_decimals. destruct (chk_sub 18 d) as [e|] eqn:Ee.
  - apply chk_sub_some in Ee. destruct Ee as [-> Hd]. cbn [of_opt rbind].
    pose proof (pow10_pos (18 - d)) as Hp. set (u := 10 ^ (18 - d)) in *.
    pose proof (N.div_mod v u ltac:(lia)) as D. pose proof (N.mod_lt v u ltac:(lia)) as M.
    assert (E : (if v mod u =? 0 then as_u128 (v / u) else as_u128 (v / u + 1)) = as_u128 (ceil_div v u)).
    { destruct (N.eqb_spec (v mod u) 0) as [Hz|Hz]; f_equal; apply ceil_div_spec; nodiv; nia. }
    rewrite E. unfold as_u128. destruct (N.leb_spec (ceil_div v u) U128MAX); split.
    + intros [= <-]. auto.
    + intros (_ & _ & ->). reflexivity.
    + discriminate.
    + intros (_ & H1 & ->). lia.
  - unfold chk_sub in Ee. destruct (N.leb_spec d 18); [discriminate|]. cbn. split; [discriminate|].
    intros (? & _). lia.
Qed.
Lemma scale_up_spec v d w :
  scale_decimals_to_wei v d = Ok w <-> (d <= 18 /\ w <= U128MAX /\ w = v * 10 ^ (18 - d)).
Proof.
  unfold scale_decimals_to_wei. destruct (chk_sub 18 d) as [e|] eqn:Ee.
  - apply chk_sub_some in Ee. destruct Ee as [-> Hd]. cbn [of_opt rbind].
    unfold chk_mul, as_u128.
    assert (H256 : U128MAX <= U256MAX) by (vm_compute; discriminate).
    destruct (N.leb_spec (v * 10 ^ (18 - d)) U256MAX); cbn [of_opt rbind].
    + destruct (N.leb_spec (v * 10 ^ (18 - d)) U128MAX); split.
      * intros [= <-]. auto.
      * intros (_ & _ & ->). reflexivity.
      * discriminate.
      * intros (_ & ? & ->). lia.
    + split; [discriminate|]. intros (_ & ? & ->). lia.
  - unfold chk_sub in Ee. destruct (N.leb_spec d 18); [discriminate|]. cbn. split; [discriminate|].
    intros (? & _). lia.
Qed.

Lemma scale_round_up v d w : scale_wei_to_correct_decimals v d = Ok w ->
  v <= w * 10 ^ (18 - d) < v + 10 ^ (18 - d).
Proof.
  intros H. apply scale_down_spec in H. destruct H as (_ & _ & H).
  apply ceil_div_spec in H; [exact H|apply pow10_pos].
Qed.
Lemma scale_monotone v v' d w w' : v <= v' ->
  scale_wei_to_correct_decimals v d = Ok w -> scale_wei_to_correct_decimals v' d = Ok w' -> w <= w'.
Proof.
  intros Hv H1 H2. apply scale_round_up in H1, H2. pose proof (pow10_pos (18 - d)).
  set (u := 10 ^ (18 - d)) in *. clearbody u. nia.
Qed.
Lemma scale_zero v d w : scale_wei_to_correct_decimals v d = Ok w -> (w = 0 <-> v = 0).
Proof. intros H. apply scale_round_up in H. pose proof (pow10_pos (18 - d)). split; nia. Qed.
Lemma scale_total v d : d <= 18 -> v <= U128MAX -> exists w, scale_wei_to_correct_decimals v d = Ok w.
Proof.
  intros Hd Hv. exists (ceil_div v (10 ^ (18 - d))). apply scale_down_spec. repeat split; auto.
  destruct (N.eq_dec v 0) as [->|Hv0].
  - unfold ceil_div. pose proof (pow10_pos (18 - d)). rewrite N.div_small by lia. lia.
  - assert (H : ceil_div v (10 ^ (18 - d)) = ceil_div v (10 ^ (18 - d))) by reflexivity.
    apply ceil_div_spec in H; [|apply pow10_pos]. pose proof (pow10_pos (18 - d)). nia.
Qed.
Lemma scale_round_trip v d w : scale_decimals_to_wei v d = Ok w -> v <= U128MAX ->
  scale_wei_to_correct_decimals w d = Ok v.
Proof.
  intros H Hv. apply scale_up_spec in H. destruct H as (Hd & Hw & ->).
  apply scale_down_spec. repeat split; auto. apply ceil_div_spec; [apply pow10_pos|].
  pose proof (pow10_pos (18 - d)). lia.
Qed.

(** ** EVM currency *)
Lemma unit_pos : 0 < XRP_UNIT. Proof. reflexivity. Qed.
Lemma scale6 v w : scale_wei_to_6dp v = Ok w -> v <= w * XRP_UNIT < v + XRP_UNIT.
Proof. intros H. apply scale_round_up in H. exact H. Qed.
Lemma scale6_iff v w : scale_wei_to_6dp v = Ok w <-> w <= U128MAX /\ v <= w * XRP_UNIT < v + XRP_UNIT.
Proof.
  unfold scale_wei_to_6dp. rewrite scale_down_spec. change (10 ^ (18 - 6)) with XRP_UNIT.
  rewrite ceil_div_spec by apply unit_pos. split; intros; repeat split; intuition; vm_compute; discriminate.
Qed.

Lemma evm_send_all (raw : N) : raw <= U128MAX ->
  exists v, scale_wei_to_6dp (evm_balance raw) = Ok v /\ v <= raw /\
    (raw * XRP_UNIT <= U128MAX -> v = raw).
Proof.
  intros Hr. assert (Hb : evm_balance raw <= U128MAX) by (unfold evm_balance, sat; lia).
  destruct (scale_total (evm_balance raw) 6 ltac:(discriminate) Hb) as [v Hv].
  exists v. split; [exact Hv|]. apply scale6 in Hv. pose proof unit_pos.
  assert (Hle : evm_balance raw <= raw * XRP_UNIT) by (unfold evm_balance, sat; lia).
  split.
  - assert (v * XRP_UNIT < (raw + 1) * XRP_UNIT) by lia. apply N.mul_lt_mono_pos_r in H0; [lia|assumption].
  - intros Hf. assert (E : evm_balance raw = raw * XRP_UNIT).
    { unfold evm_balance, sat. assert (U128MAX <= U256MAX) by (vm_compute; discriminate). lia. }
    rewrite E in Hv. clearbody XRP_UNIT || idtac.
    assert (v * XRP_UNIT < (raw + 1) * XRP_UNIT) by lia.
    assert (raw * XRP_UNIT <= v * XRP_UNIT) by lia.
    apply N.mul_lt_mono_pos_r in H0; [|assumption]. apply N.mul_le_mono_pos_r in H1; [|assumption]. lia.
Qed.

(** ** EVM fees *)
Lemma charge_spec bal fee corrected base_fee r :
  charge_evm_tx bal fee corrected base_fee = Ok r -> corrected <= fee -> fee <= U128MAX ->
  (* conservation *)
  f_ledger r + f_pot r + f_tip r = bal /\
  (* net charge: the actual fee rounded down *)
  let net := bal - f_ledger r in
  net * XRP_UNIT <= corrected < (net + 1) * XRP_UNIT.
Proof.
  intros H Hc Hf. unfold charge_evm_tx, withdraw_fee in H.
  destruct (N.eqb_spec fee 0) as [->|Hfee].
  - cbn in H. inv_ok. subst r. cbn. assert (corrected = 0) as -> by lia. split; [lia|].
    replace (bal - bal) with 0 by lia. split; [lia|reflexivity].
  - inv_ok. destruct v as [b paid]. inv_ok.
    match goal with H : (_, _) = (b, paid) |- _ => injection H as <- <- end.
    cbn [correct_and_deposit_fee] in H. inv_ok. subst r. cbn [f_ledger f_pot f_tip].
    unfold sat in *. rewrite (N.min_l fee), (N.min_l corrected) in * by lia.
    match goal with H : scale_wei_to_6dp fee = Ok ?x |- _ => apply scale6 in H; rename x into p end.
    match goal with H : scale_6dp_to_wei p = Ok ?x |- _ =>
      apply scale_up_spec in H; destruct H as (_ & _ & ->) end.
    change (10 ^ (18 - 6)) with XRP_UNIT in *.
    match goal with H : scale_wei_to_6dp (_ - _) = Ok ?x |- _ => apply scale6 in H; rename x into q end.
    match goal with H : scale_wei_to_6dp (N.min base_fee _) = Ok ?x |- _ => clear H; rename x into g end.
    pose proof unit_pos. generalize dependent XRP_UNIT. intros U H2 H3 HU.
    assert (Hqp : q <= p).
    { assert (q * U < (p + 1) * U) by lia. apply N.mul_lt_mono_pos_r in H; lia. }
    destruct (N.leb_spec q p); [|lia]. split; [lia|].
    replace (bal - (bal - p + q)) with (p - q) by lia.
    assert (p * U = (p - q) * U + q * U) by nia. nia.
Qed.

Lemma charge_total bal fee corrected base_fee :
  corrected <= fee -> fee <= bal * XRP_UNIT -> bal * XRP_UNIT <= U128MAX -> base_fee <= U128MAX ->
  exists r, charge_evm_tx bal fee corrected base_fee = Ok r.
Proof.
  intros Hc Hf Hb Hbf. unfold charge_evm_tx, withdraw_fee.
  destruct (N.eqb_spec fee 0) as [->|Hfee]; [cbn; eauto|].
  unfold sat at 1. rewrite N.min_l by lia.
  destruct (scale_total fee 6 ltac:(discriminate) ltac:(lia)) as [p Hp]. 
  change (scale_wei_to_6dp fee = Ok p) in Hp. rewrite Hp. cbn [rbind].
  apply scale6 in Hp. pose proof unit_pos as HU.
  assert (Hpb : p <= bal).
  { assert (H : p * XRP_UNIT < (bal + 1) * XRP_UNIT) by lia. apply N.mul_lt_mono_pos_r in H; [lia|exact HU]. }
  destruct (N.leb_spec p bal); [|lia]. cbn [ensure rbind correct_and_deposit_fee].
  assert (Hpu : p * XRP_UNIT <= U128MAX).
  { etransitivity; [apply N.mul_le_mono_r; exact Hpb|exact Hb]. }
  assert (E : scale_6dp_to_wei p = Ok (p * XRP_UNIT)).
  { apply scale_up_spec. split; [discriminate|]. split; [exact Hpu|reflexivity]. }
  rewrite E. cbn [rbind].
  destruct (scale_total (p * XRP_UNIT - sat U128MAX corrected) 6 ltac:(discriminate)) as [q Hq]; [lia|].
  change (scale_wei_to_6dp (p * XRP_UNIT - sat U128MAX corrected) = Ok q) in Hq. rewrite Hq. cbn [rbind].
  destruct (scale_total (sat U128MAX base_fee) 6 ltac:(discriminate)) as [g Hg]; [unfold sat; lia|].
  change (scale_wei_to_6dp (sat U128MAX base_fee) = Ok g) in Hg. rewrite Hg. cbn [rbind]. eauto.
Qed.

(** ** Token addresses *)
Lemma from_to_be4 n : n < 2 ^ 32 -> from_be4 (to_be4 n) = n.
Proof.
  intros Hn. unfold from_be4, to_be4. cbn [fold_left].
  assert (E8 : n / 2 ^ 8 = n / 256) by reflexivity.
  assert (E16 : n / 2 ^ 16 = n / 256 / 256) by (rewrite N.div_div by discriminate; reflexivity).
  assert (E24 : n / 2 ^ 24 = n / 256 / 256 / 256) by (rewrite !N.div_div by discriminate; reflexivity).
  rewrite E8, E16, E24.
  pose proof (N.div_mod n 256 ltac:(discriminate)) as D1.
  pose proof (N.div_mod (n / 256) 256 ltac:(discriminate)) as D2.
  pose proof (N.div_mod (n / 256 / 256) 256 ltac:(discriminate)) as D3.
  assert (Hq : n / 256 / 256 / 256 < 256).
  { rewrite !N.div_div by discriminate. apply N.div_lt_upper_bound; [discriminate|exact Hn]. }
  rewrite (N.mod_small (n / 256 / 256 / 256)) by exact Hq. clear E8 E16 E24 Hn Hq. nodiv. lia.
Qed.
Lemma evm_id_round_trip id prefix : length prefix = 4%nat -> id < 2 ^ 32 ->
  evm_id_to_runtime_id (runtime_id_to_evm_id id prefix) prefix = Some id.
Proof.
  intros Hp Hid. unfold evm_id_to_runtime_id, runtime_id_to_evm_id.
  rewrite (take_app_alt prefix) by (symmetry; exact Hp). rewrite (drop_app_alt prefix) by (symmetry; exact Hp).
  rewrite decide_True by reflexivity. change (take 4 (to_be4 id ++ repeat 0 12)) with (to_be4 id).
  rewrite from_to_be4 by exact Hid. reflexivity.
Qed.
Lemma evm_id_other_prefix id prefix prefix' : length prefix = 4%nat -> prefix <> prefix' ->
  evm_id_to_runtime_id (runtime_id_to_evm_id id prefix) prefix' = None.
Proof.
  intros Hp Hne. unfold evm_id_to_runtime_id, runtime_id_to_evm_id.
  rewrite (take_app_alt prefix) by (symmetry; exact Hp). rewrite decide_False by exact Hne. reflexivity.
Qed.
