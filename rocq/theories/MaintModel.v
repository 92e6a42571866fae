(** Maintenance mode: /repo/pallet/maintenance-mode/src/lib.rs, and the places that ask it: the call filter
    (/repo/runtime/src/lib.rs 229-260), the signed extension (lib.rs 1466-1476), the EVM runner
    (/repo/pallet/fee-proxy/src/runner.rs 269-478), XRPL transactions (/repo/pallet/xrpl/src/lib.rs 60-321, 436-487) and
    doughnut transactions (/repo/pallet/doughnut/src/lib.rs 64-319, 449-510). *)
From Verif Require Export Base.

(** Names are byte strings. *)
Notation name := (list N).
(** [to_ascii_lowercase]. *)
Definition lower_byte (b : N) : N := if (65 <=? b) && (b <=? 90) then b + 32 else b.
Definition lower (s : name) : name := map lower_byte s.

Record maint := Maint {
  m_active : bool;                 (* [MaintenanceModeActive] *)
  m_acc : gset N;                  (* [BlockedAccounts] *)
  m_evm : gset N;                  (* [BlockedEVMAddresses] *)
  m_calls : gset (name * name);    (* [BlockedCalls] *)
  m_pallets : gset name }.         (* [BlockedPallets] *)
Definition maint0 : maint := Maint false ∅ ∅ ∅ ∅.
(** [match blocked { true => insert, false => remove }]. *)
Definition flag {A} `{Countable A} (b : bool) (x : A) (s : gset A) : gset A := if b then {[x]} ∪ s else s ∖ {[x]}.

(** The names in [construct_runtime!], lib.rs 1396-1447, of the pallets in the configuration, 1340-1349:
    MaintenanceMode, Sudo, Timestamp, ImOnline, EthBridge. *)
Definition n_maint : name := [77; 97; 105; 110; 116; 101; 110; 97; 110; 99; 101; 77; 111; 100; 101].
Definition n_sudo : name := [83; 117; 100; 111].
Definition n_time : name := [84; 105; 109; 101; 115; 116; 97; 109; 112].
Definition n_online : name := [73; 109; 79; 110; 108; 105; 110; 101].
Definition n_ethy : name := [69; 116; 104; 66; 114; 105; 100; 103; 101].
(** [is_pallet_blockable], 270-287. *)
Definition blockable (p : name) : bool :=
  if bool_decide (p = lower n_maint) then false else if bool_decide (p = lower n_sudo) then false else
  if bool_decide (p = lower n_time) then false else if bool_decide (p = lower n_online) then false else
  negb (bool_decide (p = lower n_ethy)).

Section maint.
  Variable utf8 : name -> bool. (* [core::str::from_utf8] succeeds *)
  Variable limit : nat.         (* [StringLimit] *)
  (** [BoundedVec::truncate_from]. *)
  Definition trunc (s : name) : name := take limit s.
  (** The calls, 149-262.  Root only, so the origin is left out. *)
  Inductive mop := MActive (b : bool) | MAccount (a : N) (b : bool) | MEvm (t : N) (b : bool) | MCall (p f : name) (b : bool) | MPallet (p : name) (b : bool).
  Definition block_call (s : maint) (p f : name) (b : bool) : result maint :=
    ensure! negb (bool_decide (p = [])) else 1;
    let p := trunc (lower p) in
    ensure! utf8 p else 1;
    ensure! blockable p else 2;
    ensure! negb (bool_decide (f = [])) else 3;
    let f := trunc (lower f) in
    ensure! utf8 f else 3;
    Ok (Maint (m_active s) (m_acc s) (m_evm s) (flag b (p, f) (m_calls s)) (m_pallets s)).
  Definition block_pallet (s : maint) (p : name) (b : bool) : result maint :=
    ensure! negb (bool_decide (p = [])) else 1;
    let p := trunc (lower p) in
    ensure! utf8 p else 1;
    ensure! blockable p else 2;
    Ok (Maint (m_active s) (m_acc s) (m_evm s) (m_calls s) (flag b p (m_pallets s))).
  Definition mexec (s : maint) (o : mop) : result maint :=
    match o with
    | MActive b => Ok (Maint b (m_acc s) (m_evm s) (m_calls s) (m_pallets s))
    | MAccount a b => Ok (Maint (m_active s) (flag b a (m_acc s)) (m_evm s) (m_calls s) (m_pallets s))
    | MEvm t b => Ok (Maint (m_active s) (m_acc s) (flag b t (m_evm s)) (m_calls s) (m_pallets s))
    | MCall p f b => block_call s p f b
    | MPallet p b => block_pallet s p b
    end.
  Definition mstep (s : maint) (o : mop) : maint := commit s (mexec s o).

  (** [call_paused], 310-333. *)
  Definition paused (s : maint) (p f : name) : bool :=
    if negb (blockable (lower p)) then false
    else bool_decide ((trunc (lower p), trunc (lower f)) ∈ m_calls s) || bool_decide (trunc (lower p) ∈ m_pallets s).
  (** [validate] of the signed extension, 377-403. *)
  Definition ext_ok (s : maint) (who : N) (p : name) : bool :=
    if negb (blockable (lower p)) then true else negb (m_active s) && negb (bool_decide (who ∈ m_acc s)).
  (** [validate_evm_call], [validate_evm_create], 337-360. *)
  Definition evm_ok (s : maint) (who target : N) : bool :=
    negb (m_active s) && negb (bool_decide (who ∈ m_acc s)) && negb (bool_decide (target ∈ m_evm s)).
  Definition create_ok (s : maint) (who : N) : bool := negb (m_active s) && negb (bool_decide (who ∈ m_acc s)).

  (** ** EVM calls.  [pre t i]: the runtime operations that running input [i] at address [t] ends up asking for, with the
      account; [true]: asked for with [try_dispatch] (evm-precompiles/utils/src/substrate.rs 59-93: the call filter applies),
      [false]: by calling the pallet's function directly, as evm-precompiles/dex/src/lib.rs 198-796, marketplace 260-982,
      peg 140, 236, nft 181 and sft 162 do. *)
  Variable pre : N -> N -> list (bool * N * (name * name)).
  Variable decode_input : N -> option (N * N). (* the new target and input of [call_with_fee_preferences], runner.rs 141-188 *)
  (** The other arms of the call filter, lib.rs 238-258, depend on the call only. *)
  Variable static : name -> name -> bool.
  Inductive effect := ECall (who : N) (c : name * name) | EEvm (src target : N) | ECreate (src : N).
  (** The base call filter, lib.rs 231-259. *)
  Definition filtered (s : maint) (p f : name) : bool := paused s p f || negb (static p f).
  Definition fee_proxy : N := 1211. (* [FEE_PROXY_ADDRESS] = 0x04bb *)
  Definition evm_run (s : maint) (src t i : N) : list effect :=
    EEvm src t :: flat_map (fun x => let '(d, who, (p, f)) := x in if d && filtered s p f then [] else [ECall who (p, f)]) (pre t i).
  (** The runner, runner.rs 285-389.  [primary_proxy] reads a map nothing writes to (futurepass lib.rs 158, 622), so it
      changes nothing.  The token swap for the fee is left out. *)
  Definition evm_call (s : maint) (src t i : N) : list effect :=
    if negb (evm_ok s src t) then []
    else if t =? fee_proxy then match decode_input i with Some (t', i') => evm_run s src t' i' | None => [] end
    else evm_run s src t i.

  (** ** Calls.  [Plain p f]: a call that dispatches no other.  [EvmC t i]: the EVM pallet's [call] from the signer's address.
      [Wrap p f who cs]: a call that dispatches the calls [cs], with the signed origin [who] ([None]: its own); batches, fee
      preferences, proxies, multisigs. *)
  Inductive rcall := Plain (p f : name) | EvmC (t i : N) | Wrap (p f : name) (who : option N) (cs : list rcall).
  Definition n_evm : name := [69; 86; 77]. (* EVM *)
  Definition n_call : name := [99; 97; 108; 108]. (* call *)
  Definition cname (c : rcall) : name * name := match c with Plain p f => (p, f) | EvmC _ _ => (n_evm, n_call) | Wrap p f _ _ => (p, f) end.
  (** Dispatch with a signed origin: the base call filter is asked at every level.  Gives what is executed. *)
  Fixpoint dispatch (s : maint) (who : N) (c : rcall) : list effect :=
    match c with
    | Plain p f => if filtered s p f then [] else [ECall who (p, f)]
    | EvmC t i => if filtered s n_evm n_call then [] else ECall who (n_evm, n_call) :: evm_call s who t i
    | Wrap p f w cs => if filtered s p f then [] else ECall who (p, f) :: flat_map (dispatch s (default who w)) cs
    end.

  (** ** Transactions.  Fees and the other checks (nonce, signature, era) are left out: they only refuse more. *)
  Variable n_xrpl n_doughnut n_transact n_fpass n_proxy n_feeproxy n_fee : name.
  Variable topping : name * name -> bool. (* the calls the doughnut permits *)
  Inductive rtx :=
  | TSigned (who : N) (c : rcall)               (* a signed extrinsic *)
  | TEvm (src target input : N)                 (* an Ethereum transaction calling [target] *)
  | TCreate (src : N)                           (* an Ethereum transaction creating a contract *)
  | TXrpl (who : N) (c : rcall)                 (* [Xrpl.transact]: a transaction signed with an XRPL key *)
  | TDoughnut (issuer holder : N) (c : rcall).  (* [Doughnut.transact] *)
  (** Whose authority the transaction is executed with. *)
  Definition signer (t : rtx) : N := match t with TSigned a _ | TEvm a _ _ | TCreate a | TXrpl a _ | TDoughnut a _ _ => a end.
  Definition outer (t : rtx) : option name := match t with TSigned _ c => Some (fst (cname c)) | _ => None end.
  (** The call the doughnut's validator looks at, impls.rs 936-956. *)
  Definition unfp (c : rcall) : rcall := match c with Wrap p f _ [c'] => if bool_decide (p = n_fpass) && bool_decide (f = n_proxy) then c' else c | _ => c end.
  Definition actual (c : rcall) : rcall :=
    match c with
    | Wrap p f _ [c'] => if bool_decide (p = n_feeproxy) && bool_decide (f = n_fee) then unfp c' else unfp c
    | _ => c
    end.
  (** Signed: the extension of lib.rs 1466-1476.  XRPL: pallet/xrpl/src/lib.rs 62-69 (the extension is not among the
      validations) and 441-478.  Doughnut: pallet/doughnut/src/lib.rs 64-73 (nor here) and 458-502, impls.rs 934-1058. *)
  Definition apply (s : maint) (t : rtx) : list effect :=
    match t with
    | TSigned who c => if ext_ok s who (fst (cname c)) then dispatch s who c else []
    | TEvm src target input => if filtered s [69; 116; 104; 101; 114; 101; 117; 109] n_transact then [] else evm_call s src target input
    | TCreate src => if filtered s [69; 116; 104; 101; 114; 101; 117; 109] n_transact then [] else if create_ok s src then [ECreate src] else []
    | TXrpl who c =>
        if filtered s n_xrpl n_transact || paused s (fst (cname c)) (snd (cname c)) then [] else dispatch s who c
    | TDoughnut issuer holder c =>
        let a := actual c in
        if filtered s n_doughnut n_transact || paused s (fst (cname a)) (snd (cname a)) || negb (topping (cname a)) then []
        else dispatch s issuer c
    end.
End maint.
