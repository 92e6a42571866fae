(** The fee control pallet, /repo/pallet/fee-control/src/lib.rs ("lib"), as the runtime uses it
    (/repo/runtime/src/lib.rs:333-360). *)
From Verif Require Export Base.

(** [FeeControlFeeConfig], lib 41-46; a [Perbill] is a number of billionths, at most one billion. *)
Record feecfg := FeeCfg { base_gas : N; wmul : N; lmul : N }.
Definition BILLION : N := 1000000000.
(** [Perbill::mul] on [u128] (sp_arithmetic, external): the whole billions, and the rest times the part, rounded to the
    nearest and down in the middle.  The sum is of type [u128]. *)
Definition perbill_mul (p x : N) : N :=
  let rest := x mod BILLION * p in
  let corr := rest / BILLION + (if BILLION / 2 <? rest mod BILLION then 1 else 0) in
  (x / BILLION * p + corr) mod 2 ^ 128.
(** [weight_to_fee], lib 132-134: of the weight's [ref_time], a [u64]. *)
Definition weight_to_fee (c : feecfg) (ref_time : N) : N := perbill_mul (wmul c) ref_time.
(** [length_to_fee], lib 136-138; [u128] products wrap in a release build (the profile does not check overflow). *)
Definition length_to_fee (c : feecfg) (len : N) : N := (lmul c * len) mod 2 ^ 128.
(** [base_fee_per_gas], [min_gas_price], lib 140-142, 159-163. *)
Definition min_gas_price (c : feecfg) : N := base_gas c.

(** The calls, lib 93-127; [root]: whether the origin is root.  The types of the arguments bound them. *)
Inductive feeop := FBase (root : bool) (v : N) | FWeight (root : bool) (v : N) | FLength (root : bool) (v : N).
Definition fexec (c : feecfg) (o : feeop) : result feecfg :=
  match o with
  | FBase root v => ensure! root else 1; Ok (FeeCfg v (wmul c) (lmul c))
  | FWeight root v => ensure! root else 1; Ok (FeeCfg (base_gas c) v (lmul c))
  | FLength root v => ensure! root else 1; Ok (FeeCfg (base_gas c) (wmul c) v)
  end.
Definition fstep (c : feecfg) (o : feeop) : feecfg := commit c (fexec c o).
