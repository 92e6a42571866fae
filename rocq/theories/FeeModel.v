(** Transaction fees: [pallet-fee-proxy] (runner.rs, impls.rs, lib.rs), the asset check of
    runtime/src/lib.rs:2127-2180, the part of [pallet_transaction_payment::CurrencyAdapter]
    (external crate) that the runtime configures (runtime/src/lib.rs:559) and the fee pot
    [pallet-tx-fee-pot] (lib.rs:68-71, 117-128), on top of the exchange model. *)
From Verif Require Export DexModel UtilsModel.

(** The fee asset XRP has id 2 and 6 decimals (primitives, runtime/src/constants.rs). *)
Definition XRP : N := 2.
Definition XRP_DECIMALS : N := 6.

(** [calculate_total_gas], runner.rs:192-222.  Error 80: [FeeOverflow]; 81:
    [FeeExceedsMaxPayment].  The argument of [unwrap_or] is computed even when it is not used. *)
Definition calculate_total_gas (gas base : N) (max_fee prio : option N) : result (N * N) :=
  do! per_gas <- of_opt (chk_add U256MAX base (default 0 prio)) 80;
  do! total <- of_opt (chk_mul U256MAX gas per_gas) 80;
  do! twice <- of_opt (chk_mul U256MAX base 2) 80;
  do! dflt <- of_opt (chk_add U256MAX twice (default 0 prio)) 80;
  do! mx <- of_opt (chk_mul U256MAX (default dflt max_fee) gas) 80;
  ensure! total <=? mx else 81;
  Ok (total, mx).

(** [get_fee_preferences_data], runner.rs:96-123: the fee and its limit in drops.  Scaling panics
    (error 90) when the amount does not fit u128. *)
Definition fee_data (gas base : N) (max_fee prio : option N) : result (N * N) :=
  do! g <- calculate_total_gas gas base max_fee prio;
  do! total <- scale_wei_to_correct_decimals (fst g) XRP_DECIMALS;
  do! mx <- scale_wei_to_correct_decimals (snd g) XRP_DECIMALS;
  Ok (total, mx).

(** Panics, as opposed to errors that the code handles. *)
Definition is_panic (e : N) : bool := (90 <=? e) && (e <=? 99).

(** The swap that [FeePreferencesRunner::call] makes before running the EVM call,
    runner.rs:305-371, for the account [who] and the payment asset decoded from the input. *)
Definition evm_fee_swap (s : dex) (who : acct) (gas base : N) (max_fee prio : option N) (asset : N)
  : result dex :=
  do! fd <- fee_data gas base max_fee prio;
  do! amounts <- get_amounts_in s (snd fd) [asset; XRP];
  let max_payment := hd 0 amounts in
  let final_fee := if snd fd - fst fd =? 1 then snd fd else fst fd in
  swap_with_exact_supply s who max_payment final_fee [asset; XRP] who None.

(** [transaction_asset_check], runtime/src/lib.rs:2127-2180, for an EIP-1559 transaction to the
    fee proxy.  [gas_limit.as_u64()] panics (error 93) above u64.  Error 82: [Payment]. *)
Definition asset_check (s : dex) (who : acct) (gas base max_fee prio asset : N) : result unit :=
  ensure! gas <=? U64MAX else 93;
  do! fd <- fee_data gas base (Some max_fee) (Some prio);
  do! amounts <- get_amounts_in s (snd fd) [asset; XRP];
  ensure (hd 0 amounts <=? balance (lg s) asset who) 82.

(** Calls as far as the fee code looks at them: [call_with_fee_preferences], the futurepass call
    [proxy_extrinsic], [pallet_evm::call] with its gas limit and prices, some other call that
    dispatches an inner one (batch, proxy, ...), anything else. *)
Inductive fcall :=
| FPref (asset max_payment : N) (c : fcall)
| FProxy (futurepass : acct) (c : fcall)
| FEvm (gas max_fee : N) (prio : option N)
| FWrap (c : fcall)
| FOther.

(** The payer becomes the futurepass when the signer is one of its delegates, impls.rs:61-68 and
    100-106. [deleg f w] stands for [Proxy::exists(f, w, None)]. *)
Definition switch (deleg : acct -> acct -> bool) (who : acct) (c : fcall) : acct :=
  match c with FProxy f _ => if deleg f who then f else who | _ => who end.

(** [add_evm_gas_cost], impls.rs:77-95: an error leaves the total as it is, a panic does not. *)
Definition add_evm (base total : N) (c : fcall) : result N :=
  match c with
  | FEvm gas mf prio =>
      match fee_data gas base (Some mf) prio with
      | Ok fd => Ok (sat U128MAX (total + snd fd))
      | Err e => if is_panic e then Err e else Ok total
      end
  | _ => Ok total
  end.
(** The EVM cost found one level below the preference call and below a proxied call,
    impls.rs:97-135. *)
Definition evm_cost (base fee : N) (c : fcall) : result N :=
  do! t <- match c with FProxy _ c' => add_evm base fee c' | _ => Ok fee end;
  add_evm base t c.

Definition set_xrp (s : dex) (who : acct) (v : N) : dex := set_lg s (set_balance (lg s) XRP who v).

(** [CurrencyAdapter::withdraw_fee] (external) over [AssetCurrency::withdraw],
    assets-ext/src/impls.rs:151-177, with [KeepAlive]: one drop must stay.  The issuance is only
    adjusted when imbalances are dropped, imbalances.rs:207-242. *)
Definition currency_withdraw (s : dex) (who : acct) (fee : N) : result (dex * option N) :=
  if fee =? 0 then Ok (s, None) else
  ensure! fee + 1 <=? balance (lg s) XRP who else 83;
  Ok (set_xrp s who (balance (lg s) XRP who - fee), Some fee).

(** [.map_err(|_| InvalidTransaction::Payment)], impls.rs:150. *)
Definition or_payment {A} (r : result A) : result A := match r with Ok x => Ok x | Err _ => Err 82 end.

(** [withdraw_fee], impls.rs:49-156. Returns the state, the payer and what was withdrawn. *)
Definition withdraw_fee_tx (deleg : acct -> acct -> bool) (base : N) (s : dex) (who : acct)
    (c : fcall) (fee : N) : result (dex * acct * option N) :=
  let who1 := switch deleg who c in
  match c with
  | FPref asset max_payment inner =>
      let who2 := switch deleg who1 inner in
      do! t <- evm_cost base fee inner;
      let total := if balance (lg s) XRP who2 <? 1 then sat U128MAX (t + 1) else t in
      do! s1 <- or_payment (swap_with_exact_target s who2 total max_payment [asset; XRP] who2 None);
      do! r <- currency_withdraw s1 who2 fee;
      Ok (fst r, who2, snd r)
  | _ =>
      do! r <- currency_withdraw s who1 fee;
      Ok (fst r, who1, snd r)
  end.

(** [AssetCurrency::deposit_into_existing], assets-ext/src/impls.rs:181-196: nothing happens on
    overflow. Returns what was credited. *)
Definition deposit_xrp (s : dex) (who : acct) (v : N) : dex * N :=
  if (v =? 0) || (U128MAX <? balance (lg s) XRP who + v) then (s, 0)
  else (set_xrp s who (balance (lg s) XRP who + v), v).

(** State of a transaction's charging: the exchange (with the ledger) and [EraTxFees]. *)
Record fst_ := Fst { f_dex : dex; f_era : N }.

(** [CurrencyAdapter::correct_and_deposit_fee] (external): refund the difference to [who], hand
    the rest to [TxFeePot::on_nonzero_unbalanced], tx-fee-pot/src/lib.rs:117-128, which credits
    the pot account and the era total.  [paid] is what was withdrawn; [who] is the signer, not
    the payer (impls.rs:163-186).  Tip and fee go to the same place. *)
Definition settle_fee (pot : acct) (s : fst_) (who : acct) (corrected : N) (paid : option N) : fst_ :=
  match paid with
  | None => s
  | Some p =>
      let '(d1, back) := deposit_xrp (f_dex s) who (p - corrected) in
      let rest := p - back in
      if rest =? 0 then Fst d1 (f_era s)
      else
        let '(d2, put) := deposit_xrp d1 pot rest in
        Fst (set_lg d2 (Ledger (bal (lg d2)) (<[XRP := issuance (lg d2) XRP - (rest - put)]> (iss (lg d2)))))
            ((f_era s + rest) mod 2 ^ 128)
  end.

(** A signed transaction: charge, run the call ([exec], any effect), settle.  An error rejects
    the transaction and leaves the state as it was. *)
Definition charge_tx (deleg : acct -> acct -> bool) (base : N) (pot : acct) (s : fst_) (who : acct)
    (c : fcall) (fee corrected : N) (exec : dex -> dex) : result fst_ :=
  do! w <- withdraw_fee_tx deleg base (f_dex s) who c fee;
  let '(d, payer, paid) := w in
  Ok (settle_fee pot (Fst (exec d) (f_era s)) who corrected paid).

(** [call_with_fee_preferences] as dispatched, lib.rs:113-134: it emits its event after the inner
    call, wherever it is nested.  [prefs c] lists the (asset, limit) pairs of the events emitted
    when every call succeeds. *)
Fixpoint prefs (c : fcall) : list (N * N) :=
  match c with
  | FPref a m c' => prefs c' ++ [(a, m)]
  | FProxy _ c' | FWrap c' => prefs c'
  | _ => []
  end.
