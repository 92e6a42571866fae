(** Model of the shared helpers: [/repo/pallet/common/src/utils.rs] and the EVM currency part of
    [/repo/runtime/src/impls.rs]. *)
From Verif Require Export Ledger.

Definition MAX_U22 : N := 2 ^ 22 - 1.
Definition MAX_U10 : N := 2 ^ 10 - 1.
Definition wrap32 (n : N) : N := n mod 2 ^ 32.

(** [next_asset_uuid], utils.rs:35-45, with the u32 wrap-around of [next_id + 1] and of the shift. *)
Definition next_asset_uuid (next_id parachain_id : N) : option N :=
  if (MAX_U22 <? wrap32 (next_id + 1)) || (MAX_U10 <? parachain_id) then None
  else Some (N.lor (wrap32 (N.shiftl next_id 10)) parachain_id).

(** Asset creation as far as ids are concerned: [create], assets-ext/src/lib.rs:691-721; the
    counter starts at 1 (lib.rs:102).  [issued] is the list of ids handed out, newest first. *)
Record ids := Ids { next_id : N; issued : list N }.
Definition ids_genesis : ids := Ids 1 [].
Definition create_asset (para : N) (s : ids) : result ids :=
  match next_asset_uuid (next_id s) para with
  | Some i => Ok (Ids (wrap32 (next_id s + 1)) (i :: issued s))
  | None => Err 1
  end.
(** A history of [n] attempts to create an asset. *)
Fixpoint create_many (para : N) (n : nat) (s : ids) : ids :=
  match n with
  | O => s
  | S n' => create_many para n' (commit s (create_asset para s))
  end.

(** [U256::as_u128] panics when the value does not fit (error 90). *)
Definition as_u128 (v : N) : result N := if v <=? U128MAX then Ok v else Err 90.
(** [scale_wei_to_correct_decimals], utils.rs:49-60.  [U256::from(18) - decimals] panics (error
    91) when there are more than 18 decimals. *)
Definition scale_wei_to_correct_decimals (value decimals : N) : result N :=
  do! e <- of_opt (chk_sub 18 decimals) 91;
  let unit_value := 10 ^ e in
  let quotient := value / unit_value in
  let remainder := value mod unit_value in
  if remainder =? 0 then as_u128 quotient else as_u128 (quotient + 1).
(** [scale_decimals_to_wei], utils.rs:63-66; the U256 product panics on overflow (error 92). *)
Definition scale_decimals_to_wei (value decimals : N) : result N :=
  do! e <- of_opt (chk_sub 18 decimals) 91;
  do! m <- of_opt (chk_mul U256MAX value (10 ^ e)) 92;
  as_u128 m.

(** [scale_wei_to_6dp], [scale_6dp_to_wei], runtime/src/impls.rs:69-76. *)
Definition scale_wei_to_6dp (v : N) : result N := scale_wei_to_correct_decimals v 6.
Definition scale_6dp_to_wei (v : N) : result N := scale_decimals_to_wei v 6.
(** [XRP_UNIT_VALUE], impls.rs:65. *)
Definition XRP_UNIT : N := 10 ^ 12.

(** [EvmCurrencyScaler::reducible_balance]/[balance], impls.rs:104-120: what the EVM shows. *)
Definition evm_balance (raw : N) : N := sat U128MAX (sat U256MAX (raw * XRP_UNIT)).

(** [EvmCurrencyScaler::transfer], impls.rs:178-194, on the ledger of XRP drops (asset id [xrp]).
    [value] is a wei amount. *)
Definition evm_transfer {A} `{Countable A} (l : ledger A) (xrp : N) (from to : A) (value : N)
  : result (ledger A) :=
  if value =? 0 then Ok l else
  do! v <- scale_wei_to_6dp value;
  transfer l xrp from to v.

(** [FutureverseEVMCurrencyAdapter], impls.rs:817-927: charging an EVM transaction.  [fee] is the
    amount withdrawn up front, [corrected] the actual fee, [base_fee] the base part (all wei).
    [pot] receives the base fee, [author] the tip.  The negative imbalance is modelled by the
    number of drops withdrawn. *)
Record fee_out := FeeOut { f_ledger : N; (** drops left to the payer *)
                           f_pot : N;    (** drops credited to the fee pot *)
                           f_tip : N     (** drops credited to the block author *) }.
(** [withdraw_fee], impls.rs:841-857, on the payer's balance [bal]. [unique_saturated_into] caps
    the fee at u128. Returns remaining balance and drops paid ([None] if the fee is zero). *)
Definition withdraw_fee (bal fee : N) : result (N * option N) :=
  if fee =? 0 then Ok (bal, None) else
  do! v <- scale_wei_to_6dp (sat U128MAX fee);
  ensure! v <=? bal else 1;
  Ok (bal - v, Some v).
(** [correct_and_deposit_fee], impls.rs:859-915.  [C::deposit_into_existing] scales the refund
    with [scale_wei_to_6dp] (impls.rs:198-203) and, for XRP, also recreates an emptied account
    (assets-ext/src/impls.rs:181-196), so it can only fail by overflow, which is not modelled.  [offset(..).same()] gives zero when the refund exceeds
    what was paid. *)
Definition correct_and_deposit_fee (bal : N) (corrected base_fee : N) (paid : option N)
  : result fee_out :=
  match paid with
  | None => Ok (FeeOut bal 0 0)
  | Some p =>
      do! paid18 <- scale_6dp_to_wei p;
      let refund18 := paid18 - sat U128MAX corrected in
      do! refund6 <- scale_wei_to_6dp refund18;
      let refunded := refund6 in
      let adjusted := if refunded <=? p then p - refunded else 0 in
      do! base6 <- scale_wei_to_6dp (sat U128MAX base_fee);
      let base := N.min adjusted base6 in
      Ok (FeeOut (bal + refunded) base (adjusted - base))
  end.
(** A whole transaction whose execution itself moves no tokens. *)
Definition charge_evm_tx (bal fee corrected base_fee : N) : result fee_out :=
  do! w <- withdraw_fee bal fee;
  let '(b, paid) := w in
  correct_and_deposit_fee b corrected base_fee paid.

(** [ErcIdConversion], impls.rs:260-296: 4 prefix bytes, 4 id bytes (big endian), 12 zero bytes. *)
Definition to_be4 (n : N) : list N :=
  [n / 2 ^ 24 mod 256; n / 2 ^ 16 mod 256; n / 2 ^ 8 mod 256; n mod 256].
Definition from_be4 (b : list N) : N := fold_left (fun acc x => acc * 256 + x) b 0.
Definition runtime_id_to_evm_id (id : N) (prefix : list N) : list N :=
  prefix ++ to_be4 id ++ repeat 0 12.
Definition evm_id_to_runtime_id (addr prefix : list N) : option N :=
  if decide (take 4 addr = prefix) then Some (from_be4 (take 4 (drop 4 addr))) else None.
