(** Shared helpers: properties C09, C10, C59, C60. *)
From Verif Require Import LedgerProofs UtilsModel UtilsProofs.

(** ** C09 *)
Theorem C09_rounds_up : forall wei d w, scale_wei_to_correct_decimals wei d = Ok w ->
  wei <= w * 10 ^ (18 - d) < wei + 10 ^ (18 - d).
Proof. exact scale_round_up. Qed.
Theorem C09_zero_iff : forall wei d w, scale_wei_to_correct_decimals wei d = Ok w -> (w = 0 <-> wei = 0).
Proof. exact scale_zero. Qed.
Theorem C09_monotone : forall v v' d w w', v <= v' ->
  scale_wei_to_correct_decimals v d = Ok w -> scale_wei_to_correct_decimals v' d = Ok w' -> w <= w'.
Proof. exact scale_monotone. Qed.
Theorem C09_round_trip : forall v d w, v <= 2 ^ 128 - 1 -> scale_decimals_to_wei v d = Ok w ->
  w = v * 10 ^ (18 - d) /\ scale_wei_to_correct_decimals w d = Ok v.
Proof.
  intros v d w Hv H. split; [|apply scale_round_trip; assumption].
  apply scale_up_spec in H. apply H.
Qed.
(** No panic on any 128-bit amount. *)
Theorem C09_total : forall wei d, d <= 18 -> wei <= 2 ^ 128 - 1 ->
  exists w, scale_wei_to_correct_decimals wei d = Ok w.
Proof. exact scale_total. Qed.
(** The scaler panics for an asset with more than 18 decimals (creation forbids those,
    assets-ext/src/lib.rs:243). *)
Theorem C09_too_many_decimals_refuted : exists wei d,
  d <= 255 /\ is_ok (scale_wei_to_correct_decimals wei d) = false.
Proof. exists 1, 19. vm_compute. split; [discriminate|reflexivity]. Qed.
Example C09_example :
  scale_wei_to_correct_decimals 1234567890123456789 6 = Ok 1234568 /\
  scale_decimals_to_wei 1234568 6 = Ok 1234568000000000000 /\
  scale_wei_to_correct_decimals 1 18 = Ok 1 /\ scale_wei_to_correct_decimals 1 0 = Ok 1.
Proof. vm_compute. repeat split. Qed.

(** ** C10 *)
Theorem C10_ids_unique : forall para n,
  let s := create_many para n ids_genesis in
  NoDup (issued s) /\ Forall (fun i => i mod 1024 = para /\ i < 2 ^ 32) (issued s).
Proof. exact ids_unique. Qed.
Theorem C10_exhaustion_reported : forall para n,
  para <= 1023 ->
  let s := create_many para n ids_genesis in
  create_asset para s = Err 1 <-> length (issued s) = N.to_nat (2 ^ 22 - 2).
Proof. exact ids_exhaustion. Qed.
Example C10_example : issued (create_many 100 3 ids_genesis) = [3172; 2148; 1124].
Proof. reflexivity. Qed.
(** Outside the counter values that can be reached the 32-bit check wraps around. *)
Example C10_unreachable_counter : next_asset_uuid (2 ^ 32 - 1) 100 = Some 4294966372.
Proof. vm_compute. reflexivity. Qed.

(** ** C59: XRP inside the EVM *)
(** The whole balance the EVM shows can be sent in one transfer. *)
Theorem C59_can_send_shown_balance : forall raw, raw <= 2 ^ 128 - 1 ->
  exists v, scale_wei_to_6dp (evm_balance raw) = Ok v /\ v <= raw /\
    (raw * 10 ^ 12 <= 2 ^ 128 - 1 -> v = raw).
Proof. exact evm_send_all. Qed.
(** A transfer of [value] wei credits the receiver at least that value, and less than one drop
    more, and moves exactly the same number of drops out of the sender. *)
Theorem C59_transfer_covers_value : forall (l l' : ledger N) xrp from to value,
  evm_transfer l xrp from to value = Ok l' -> from <> to ->
  exists v, value <= v * 10 ^ 12 /\ v * 10 ^ 12 < value + 10 ^ 12 /\
    balance l' xrp to = balance l xrp to + v /\ balance l' xrp from + v = balance l xrp from.
Proof.
  intros l l' xrp from to value H Hne. unfold evm_transfer in H.
  destruct (N.eqb_spec value 0) as [Hv|Hv]; [subst value|].
  - inv_ok. subst l'. exists 0. repeat split; lia.
  - inv_ok. rename v into w. exists w.
    match goal with H : scale_wei_to_6dp _ = _ |- _ => apply scale6 in H; destruct H as [H1 H2] end.
    split; [exact H1|]. split; [exact H2|]. apply transfer_spec in H. destruct H as (_ & _ & B).
    pose proof (B xrp to) as Bt. pose proof (B xrp from) as Bf.
    destruct (decide ((xrp, from) = (xrp, to))); [congruence|].
    destruct (decide ((xrp, to) = (xrp, to))); [|congruence].
    destruct (decide ((xrp, from) = (xrp, from))); [|congruence].
    destruct (decide ((xrp, to) = (xrp, from))); [congruence|]. lia.
Qed.
(** Charging a transaction: nothing is created or lost, and the payer is charged the actual fee
    rounded down to whole drops. *)
Theorem C59_fee_conserved : forall bal fee corrected base_fee r,
  corrected <= fee -> fee <= 2 ^ 128 - 1 ->
  charge_evm_tx bal fee corrected base_fee = Ok r ->
  f_ledger r + f_pot r + f_tip r = bal /\
  let net := bal - f_ledger r in
  net * 10 ^ 12 <= corrected < (net + 1) * 10 ^ 12.
Proof. intros. eapply charge_spec; eassumption. Qed.
Theorem C59_fee_total : forall bal fee corrected base_fee,
  corrected <= fee -> fee <= bal * 10 ^ 12 -> bal * 10 ^ 12 <= 2 ^ 128 - 1 -> base_fee <= 2 ^ 128 - 1 ->
  exists r, charge_evm_tx bal fee corrected base_fee = Ok r.
Proof. exact charge_total. Qed.
(** Consequently the charge does not always cover the fee. *)
Theorem C59_fee_covered_refuted : exists bal fee corrected base_fee r,
  charge_evm_tx bal fee corrected base_fee = Ok r /\ corrected <= fee /\
  (bal - f_ledger r) * 10 ^ 12 < corrected.
Proof.
  exists 100, (3 * 10 ^ 12), (15 * 10 ^ 11), (15 * 10 ^ 11), (FeeOut 99 1 0).
  vm_compute. repeat split; discriminate.
Qed.
Example C59_example : charge_evm_tx 1000 (5 * 10 ^ 12 + 1) (4 * 10 ^ 12 + 7) (3 * 10 ^ 12) = Ok (FeeOut 996 3 1).
Proof. vm_compute. reflexivity. Qed.

(** ** C60: token addresses in the EVM *)
Definition ERC721_PREFIX := [170; 170; 170; 170].
Definition ERC1155_PREFIX := [187; 187; 187; 187].
Definition ERC20_PREFIX := [204; 204; 204; 204].
Theorem C60_address_round_trip : forall id prefix, length prefix = 4%nat -> id < 2 ^ 32 ->
  evm_id_to_runtime_id (runtime_id_to_evm_id id prefix) prefix = Some id.
Proof. exact evm_id_round_trip. Qed.
Theorem C60_address_injective : forall id id' prefix prefix',
  length prefix = 4%nat -> length prefix' = 4%nat -> id < 2 ^ 32 -> id' < 2 ^ 32 ->
  runtime_id_to_evm_id id prefix = runtime_id_to_evm_id id' prefix' -> id = id' /\ prefix = prefix'.
Proof.
  intros id id' pr pr' Hp Hp' Hi Hi' E.
  pose proof (evm_id_round_trip id pr Hp Hi) as R.
  destruct (decide (pr' = pr)) as [->|Hne].
  - rewrite E, evm_id_round_trip in R by assumption. split; congruence.
  - exfalso. rewrite E, evm_id_other_prefix in R by assumption. discriminate.
Qed.
(** The reverse direction reads only the first 8 bytes, so addresses and ids are not in bijection. *)
Theorem C60_decode_injective_refuted : exists a b prefix,
  length a = 20%nat /\ length b = 20%nat /\ a <> b /\
  evm_id_to_runtime_id a prefix = evm_id_to_runtime_id b prefix /\
  evm_id_to_runtime_id a prefix = Some 1124.
Proof.
  exists (runtime_id_to_evm_id 1124 ERC20_PREFIX), (ERC20_PREFIX ++ to_be4 1124 ++ repeat 1 12), ERC20_PREFIX.
  vm_compute. repeat split; discriminate.
Qed.
Example C60_example : evm_id_to_runtime_id (runtime_id_to_evm_id 1124 ERC20_PREFIX) ERC721_PREFIX = None /\
  evm_id_to_runtime_id (runtime_id_to_evm_id 1124 ERC20_PREFIX) ERC20_PREFIX = Some 1124.
Proof. vm_compute. repeat split. Qed.

Print Assumptions C09_rounds_up.
Print Assumptions C09_zero_iff.
Print Assumptions C09_monotone.
Print Assumptions C09_round_trip.
Print Assumptions C09_total.
Print Assumptions C09_too_many_decimals_refuted.
Print Assumptions C10_ids_unique.
Print Assumptions C10_exhaustion_reported.
Print Assumptions C59_can_send_shown_balance.
Print Assumptions C59_transfer_covers_value.
Print Assumptions C59_fee_conserved.
Print Assumptions C59_fee_total.
Print Assumptions C59_fee_covered_refuted.
Print Assumptions C60_address_round_trip.
Print Assumptions C60_address_injective.
Print Assumptions C60_decode_injective_refuted.
