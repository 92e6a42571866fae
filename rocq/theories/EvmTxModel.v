(** Model of how an Ethereum transaction is checked, charged and counted: what decides whether it can enter a block, whether
    its sender pays, and whether it can enter a block again.

    Covered: [HandleTxValidation::with_balance_for], runtime/src/impls.rs 453-468; the fee proxy part of
    [FeePreferencesRunner::call], pallet/fee-proxy/src/runner.rs 269-389; [withdraw_fee], [correct_and_deposit_fee] and
    [pay_priority_fee], impls.rs 841-927 (through UtilsModel); the withdrawals, deposits and transfers of XRP behind them,
    pallet/assets-ext/src/impls.rs 121-196, with what pallet-assets and frame-system (outside the repository) do to the
    account: the XRP account ceases at zero (minimum balance 1, runtime/src/constants.rs 54) and, XRP being sufficient
    (client/src/chain_spec.rs 163), takes the last reference with it. *)
From Verif Require Export UtilsModel.
From Verif Require Import NotaryModel.

(** ** Accounts.  [a_sys]: frame-system's record of the account: nonce, providers and sufficients; [None] when removed.
    Consumers are left out.  The nonce is a u32 in the code; here it does not wrap.  [a_xrp]: drops. *)
Record acc := Acc { a_sys : option (N * N * N); a_xrp : N }.
Definition no_acc : acc := Acc None 0.
(** [w_killed]: the [KilledAccount] events so far, newest first; the runtime has no other reaction to a removed account
    ([OnKilledAccount = ()], runtime/src/lib.rs 318). *)
Record world := World { w_acc : gmap N acc; w_killed : list N }.
Definition acc_of (w : world) (a : N) : acc := default no_acc (w_acc w !! a).
Definition set_acc (w : world) (a : N) (x : acc) : world := World (<[a := x]> (w_acc w)) (w_killed w).
(** [System::account_nonce]: zero for an account that is not there. *)
Definition nonce (w : world) (a : N) : N := match a_sys (acc_of w a) with Some (n, _, _) => n | None => 0 end.
Definition provs (w : world) (a : N) : N := match a_sys (acc_of w a) with Some (_, p, _) => p | None => 0 end.
Definition xrp (w : world) (a : N) : N := a_xrp (acc_of w a).
(** frame-system: [inc_sufficients], [inc_providers], [inc_account_nonce] make the record if it is missing. *)
Definition sys_of (w : world) (a : N) : N * N * N := default (0, 0, 0) (a_sys (acc_of w a)).
Definition set_sys (w : world) (a : N) (s : option (N * N * N)) : world := set_acc w a (Acc s (xrp w a)).
Definition inc_suff (w : world) (a : N) : world := let '(n, p, s) := sys_of w a in set_sys w a (Some (n, p, s + 1)).
Definition inc_prov (w : world) (a : N) : world := let '(n, p, s) := sys_of w a in set_sys w a (Some (n, p + 1, s)).
Definition inc_nonce (w : world) (a : N) : world := let '(n, p, s) := sys_of w a in set_sys w a (Some (n + 1, p, s)).
(** [on_killed_account]. *)
Definition kill (w : world) (a : N) : world :=
  let w' := set_sys w a None in World (w_acc w') (a :: w_killed w').
(** frame-system [dec_sufficients]: the record is removed with the last reference. *)
Definition dec_suff (w : world) (a : N) : world :=
  match a_sys (acc_of w a) with
  | None => w
  | Some (n, p, s) => if (p =? 0) && (s <=? 1) then kill w a else set_sys w a (Some (n, p, s - 1))
  end.
(** frame-system [dec_providers]. *)
Definition dec_prov (w : world) (a : N) : result world :=
  match a_sys (acc_of w a) with
  | None => Err 20
  | Some (n, p, s) =>
      if p =? 0 then Err 20
      else if (p =? 1) && (s =? 0) then Ok (kill w a) else Ok (set_sys w a (Some (n, p - 1, s)))
  end.

(** [decrease_balance] of pallet-assets with [Expendable], as [withdraw] and [transfer] use it, assets-ext impls.rs 121-170. *)
Definition take (w : world) (a v : N) : result world :=
  if v =? 0 then Ok w else
  ensure! v <=? xrp w a else 21;
  let w1 := set_acc w a (Acc (a_sys (acc_of w a)) (xrp w a - v)) in
  Ok (if xrp w a - v =? 0 then dec_suff w1 a else w1).
(** [increase_balance]; the caps on balances are left out. *)
Definition put (w : world) (a v : N) : world :=
  if v =? 0 then w else
  let w1 := if xrp w a =? 0 then inc_suff w a else w in
  set_acc w1 a (Acc (a_sys (acc_of w1 a)) (xrp w a + v)).

(** ** What a call can do to the accounts: move, mint and burn XRP, count a nonce (a created contract), gain or lose the
    balance of ROOT that makes an account provided for. *)
Inductive mv := Send (a b v : N) | Mint (a v : N) | Burn (a v : N) | Count (a : N) | Root (a : N) (gain : bool).
(** A transfer to oneself changes nothing, but needs the balance. *)
Definition move (w : world) (m : mv) : result world :=
  match m with
  | Send a b v => if a =? b then (ensure! v <=? xrp w a else 21; Ok w) else (do! w1 <- take w a v; Ok (put w1 b v))
  | Mint a v => Ok (put w a v)
  | Burn a v => take w a v
  | Count a => Ok (inc_nonce w a)
  | Root a true => Ok (inc_prov w a)
  | Root a false => dec_prov w a
  end.
Fixpoint moves (w : world) (ms : list mv) : result world :=
  match ms with [] => Ok w | m :: r => do! w1 <- move w m; moves w1 r end.

(** ** Ethereum transactions.  [e_to]: [None] to create a contract; gas prices and value in wei. *)
Record etx := Etx { e_src : N; e_nonce : N; e_to : option N; e_gas : N; e_max : N; e_prio : N; e_value : N; e_input : list N }.
Definition FEE_PROXY : N := 1211. (* 0x04bb *)

Section chain.
  Variable base : N.                          (* the base fee per gas *)
  Variable maint : N -> option N -> bool.     (* [validate_evm_call], [validate_evm_create] *)
  Variable decode_rest : list N -> result (N * N * list N). (* selector and ABI, runner.rs 144-187: asset, target, input *)
  Variable swap : world -> etx -> N -> result (list mv).    (* runner.rs 317-372: the XRP moved by the swap *)
  Variable pot author : N.

  (** The default check of the balance, fp_evm: the highest fee and the value must be there. *)
  Definition balance_for (w : world) (t : etx) : result unit :=
    ensure! sat U256MAX (e_value t + sat U256MAX (e_max t * e_gas t)) <=? evm_balance (xrp w (e_src t)) else 4; Ok tt.
  (** [HandleTxValidation::with_balance_for], impls.rs 455-468. *)
  Definition with_balance_for (w : world) (t : etx) : result unit :=
    match e_to t with
    | Some a => if a =? FEE_PROXY then Ok tt else balance_for w t
    | None => balance_for w t
    end.
  (** [pre_dispatch_self_contained], runtime/src/lib.rs 2216-2226, is pallet-ethereum's check of a transaction in a block:
      nonce, prices, balance.  The runtime's [transaction_asset_check] is not asked there. *)
  Definition in_block (w : world) (t : etx) : result unit :=
    ensure! e_nonce t =? nonce w (e_src t) else 1;
    ensure! base <=? e_max t else 2;
    ensure! e_prio t <=? e_max t else 3;
    with_balance_for w t.

  (** [decode_input], runner.rs 141-188. *)
  Definition decode_input (i : list N) : result (N * N * list N) :=
    ensure! 4 <=? nlen i else 10; decode_rest i.
  (** pallet-evm's runner: price per gas is the base fee and the priority fee up to the highest price. *)
  Definition price (t : etx) : N := N.min (base + e_prio t) (e_max t).
  (** The run of a transaction whose fee is payable in XRP: [body] is what the called code does, [gas] what it uses.  The
      nonce is counted before the code runs; a failure of the code undoes its moves only. *)
  Definition evm_run (w : world) (t : etx) (target : option N) (body : list mv) (gas : N) : result world :=
    do! fee <- of_opt (chk_mul U256MAX (e_gas t) (price t)) 12;
    do! x <- withdraw_fee (xrp w (e_src t)) fee;
    let '(_, paid) := x in
    do! w1 <- take w (e_src t) (default 0 paid);
    let w2 := inc_nonce w1 (e_src t) in
    let used := N.min gas (e_gas t) in
    let sent := match target with
                | Some b => if e_value t =? 0 then Ok []
                            else do! v <- scale_wei_to_6dp (e_value t); Ok [Send (e_src t) b v]
                | None => Ok []
                end in
    let w3 := commit w2 (do! s <- sent; moves w2 (s ++ body)) in
    do! f <- correct_and_deposit_fee 0 (used * price t) (used * base) paid;
    Ok (put (put (put w3 (e_src t) (f_ledger f)) pot (f_pot f)) author (f_tip f)).
  (** [FeePreferencesRunner::call] and [create], runner.rs 269-460.  [primary_proxy] reads a map nothing writes to. *)
  Definition runner (w : world) (t : etx) (body : list mv) (gas : N) : result world :=
    ensure! maint (e_src t) (e_to t) else 11;
    match e_to t with
    | Some a =>
        if a =? FEE_PROXY then
          do! d <- decode_input (e_input t);
          let '(asset, target, _) := d in
          do! ms <- swap w t asset;
          do! w1 <- moves w ms;
          evm_run w1 t (Some target) body gas
        else evm_run w t (Some a) body gas
    | None => evm_run w t None body gas
    end.

  (** What becomes of a transaction: the block would be invalid with it; it is in the block but [transact] fails, all its
      changes being undone; it is executed. *)
  Inductive outcome := Rejected (code : N) | Refused (code : N) | Executed.
  Definition apply_tx (w : world) (t : etx) (body : list mv) (gas : N) : world * outcome :=
    match in_block w t with
    | Err c => (w, Rejected c)
    | Ok _ => match runner w t body gas with Err c => (w, Refused c) | Ok w' => (w', Executed) end
    end.

  (** ** Histories: Ethereum transactions, and signed extrinsics or inherents: [who] signs, so its nonce is counted first. *)
  Inductive op := OTx (t : etx) (body : list mv) (gas : N) | OCall (who : option N) (ms : list mv).
  Definition step (w : world) (o : op) : world :=
    match o with
    | OTx t body gas => fst (apply_tx w t body gas)
    | OCall who ms => let w1 := match who with Some a => inc_nonce w a | None => w end in commit w1 (moves w1 ms)
    end.
  Definition hist (ops : list op) (w : world) : world := fold_left step ops w.
End chain.
