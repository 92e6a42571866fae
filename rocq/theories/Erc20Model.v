(** Model of the ERC-20 face of an asset: allowances of the token-approvals pallet
    ([/repo/pallet/token-approvals/src/lib.rs]) and the ERC-20 precompile
    ([/repo/evm-precompiles/erc20/src/lib.rs]).  Accounts are numbers. *)
From Verif Require Export Ledger.

(** [amount: U256] followed by [saturated_into::<u128>], erc20/src/lib.rs:239, 276, 313. *)
Definition to_u128 (amount : N) : N := sat U128MAX amount.

(** [ERC20Approvals] (lib.rs:76-83) keyed by (owner, asset, spender), beside the asset ledger. *)
Record erc20 := Erc20 { el : ledger N; allow : gmap (N * N * N) N }.
Definition allowance (s : erc20) (owner a spender : N) : N := getN (allow s) (owner, a, spender).

(** [erc20_approval], token-approvals/src/lib.rs:168-179. *)
Definition erc20_approval (s : erc20) (caller spender a amount : N) : result erc20 :=
  ensure! negb (caller =? spender) else 1;
  Ok (Erc20 (el s) (<[(caller, a, spender) := amount]> (allow s))).

(** [erc20_update_approval], token-approvals/src/lib.rs:185-203. *)
Definition erc20_update_approval (s : erc20) (caller spender a amount : N) : result erc20 :=
  do! old <- of_opt (allow s !! (caller, a, spender)) 2;
  do! new <- of_opt (chk_sub old amount) 3;
  if new =? 0 then Ok (Erc20 (el s) (delete (caller, a, spender) (allow s)))
  else Ok (Erc20 (el s) (<[(caller, a, spender) := new]> (allow s))).

(** [approve], erc20/src/lib.rs:229-264 ([caller] is [handle.context().caller]). *)
Definition pc_approve (s : erc20) (caller spender a amount : N) : result erc20 :=
  erc20_approval s caller spender a (to_u128 amount).
(** [transfer], erc20/src/lib.rs:266-301. *)
Definition pc_transfer (s : erc20) (caller to a amount : N) : result erc20 :=
  do! l <- transfer (el s) a caller to (to_u128 amount);
  Ok (Erc20 l (allow s)).
(** [transfer_from], erc20/src/lib.rs:303-361.  A failing second dispatch reverts the EVM frame,
    and with it the first. *)
Definition pc_transfer_from (s : erc20) (caller from to a amount : N) : result erc20 :=
  let amount := to_u128 amount in
  do! s1 <- erc20_update_approval s from caller a amount;
  do! l <- transfer (el s1) a from to amount;
  Ok (Erc20 l (allow s1)).

Inductive eop :=
| EApprove (caller spender a amount : N)
| ETransfer (caller to a amount : N)
| ETransferFrom (caller from to a amount : N)
| EMint (a to v : N)
| EBurn (a from v : N).

Definition eexec (s : erc20) (o : eop) : result erc20 :=
  match o with
  | EApprove c sp a v => pc_approve s c sp a v
  | ETransfer c t a v => pc_transfer s c t a v
  | ETransferFrom c f t a v => pc_transfer_from s c f t a v
  | EMint a t v => do! l <- mint (el s) a t v; Ok (Erc20 l (allow s))
  | EBurn a f v => do! l <- burn (el s) a f v; Ok (Erc20 l (allow s))
  end.
Definition estep (s : erc20) (o : eop) : erc20 := commit s (eexec s o).
Definition einit : erc20 := Erc20 empty_ledger ∅.
