(** The ERC-20 peg, /repo/pallet/erc20-peg/src/lib.rs. *)
From Verif Require Export Base Ledger LedgerProofs.
From Verif Require Import XrplModel.

(** [PendingPayment], types.rs: a deposit (token, amount, beneficiary) or a withdrawal (source, token, amount,
    beneficiary on Ethereum). *)
Inductive pending := PDep (token amt ben : N) | PWd (who token amt ben : N).
(** Observable: events of the pallet, and messages handed to the bridge ([VSend], sent in a block for an asset).
    [None] marks immediate processing, [Some id] the release of delayed payment [id]. *)
Inductive pev :=
| VDelayed (id due : N) (p : pending)                        (* [Erc20DepositDelayed], [Erc20WithdrawalDelayed] *)
| VCredit (o : option N) (blk token a amt ben : N)           (* [Erc20Deposit] *)
| VSend (o : option N) (blk a : N) (who token amt ben : N)   (* [Erc20Withdraw] *)
| VFail (id blk : N) (p : pending)                           (* [DelayedErc20DepositFailed], [..WithdrawalFailed] *)
| VNoId (p : pending).                                       (* [NoAvailableDelayedPaymentIds] *)
(** The switches and the two contract addresses, lib 116-137, 180-186. *)
Record pcfg := PCfg_ { dep_on : bool; wd_on : bool; ddel : bool; wdel : bool; pegaddr : N; rootaddr : N }.
Record peg := Peg {
  pblk : N; pbk : ledger N;
  e2a : gmap N N; a2e : gmap N N;     (* [Erc20ToAssetId], [AssetIdToErc20] *)
  pcf : pcfg;
  pdl : gmap N (N * N);               (* [PaymentDelay] *)
  psch : gmap N (list N);             (* [DelayedPaymentSchedule]; [Some []] is an existing key *)
  ready : list N;                     (* [ReadyBlocks] *)
  pend : gmap N pending;              (* [DelayedPayments] *)
  pnext : N;                          (* [NextDelayedPaymentId] *)
  nexta : N;                          (* next asset id of assets-ext *)
  plog : list pev }.
Definition p_bk (s : peg) (l : ledger N) : peg := Peg (pblk s) l (e2a s) (a2e s) (pcf s) (pdl s) (psch s) (ready s) (pend s) (pnext s) (nexta s) (plog s).
Definition p_sch (s : peg) (m : gmap N (list N)) : peg := Peg (pblk s) (pbk s) (e2a s) (a2e s) (pcf s) (pdl s) m (ready s) (pend s) (pnext s) (nexta s) (plog s).
Definition p_ready (s : peg) (r : list N) : peg := Peg (pblk s) (pbk s) (e2a s) (a2e s) (pcf s) (pdl s) (psch s) r (pend s) (pnext s) (nexta s) (plog s).
Definition p_pend (s : peg) (m : gmap N pending) : peg := Peg (pblk s) (pbk s) (e2a s) (a2e s) (pcf s) (pdl s) (psch s) (ready s) m (pnext s) (nexta s) (plog s).
Definition p_log (s : peg) (e : pev) : peg := Peg (pblk s) (pbk s) (e2a s) (a2e s) (pcf s) (pdl s) (psch s) (ready s) (pend s) (pnext s) (nexta s) (e :: plog s).
Definition p_map (s : peg) (a token : N) : peg := Peg (pblk s) (pbk s) (<[token := a]> (e2a s)) (<[a := token]> (a2e s)) (pcf s) (pdl s) (psch s) (ready s) (pend s) (pnext s) (nexta s) (plog s).
Definition p_nexta (s : peg) : peg := Peg (pblk s) (pbk s) (e2a s) (a2e s) (pcf s) (pdl s) (psch s) (ready s) (pend s) (pnext s) (nexta s + 1) (plog s).

Section peg.
  (** [NativeAssetId], the account of the pallet, [MaxReadyBlocks], database weights. *)
  Variables (native pot maxready rd wr : N).

  (** [burn_or_transfer], lib 571-597. *)
  Definition burn_or_transfer (l : ledger N) (a who amt : N) : result (ledger N) :=
    if a =? native then transfer l a who pot amt else burn l a who amt.
  (** [mint_or_transfer], lib 806-826. *)
  Definition mint_or_transfer (l : ledger N) (a ben amt : N) : result (ledger N) :=
    if a =? native then transfer l a pot ben amt else mint l a ben amt.
  (** [process_deposit], lib 764-803.  A new asset gets the next id (pallet assets-ext).  Called from hooks only:
      no roll-back on failure. *)
  Definition process_deposit (s : peg) (o : option N) (token amt ben : N) : peg * bool :=
    let '(s1, a) := match e2a s !! token with
                    | Some a => (s, a)
                    | None => (p_nexta (p_map s (nexta s) token), nexta s)
                    end in
    match mint_or_transfer (pbk s1) a ben amt with
    | Ok l => (p_log (p_bk s1 l) (VCredit o (pblk s1) token a amt ben), true)
    | Err _ => (s1, false)
    end.
  (** [delay_payment], lib 668-720. *)
  Definition delay_payment (s : peg) (delay : N) (p : pending) : peg :=
    if U64MAX <? pnext s + 1 then p_log s (VNoId p)
    else
      let due := sat U32MAX (pblk s + delay) in
      Peg (pblk s) (pbk s) (e2a s) (a2e s) (pcf s) (pdl s) (<[due := default [] (psch s !! due) ++ [pnext s]]> (psch s)) (ready s)
          (<[pnext s := p]> (pend s)) (pnext s + 1) (nexta s) (VDelayed (pnext s) due p :: plog s).
  (** [verify_source] lib 843-851, [on_event] lib 853-885, [do_deposit] lib 725-760. *)
  Definition do_deposit (s : peg) (src token amt ben : N) : peg :=
    if negb ((src =? pegaddr (pcf s)) || (src =? rootaddr (pcf s))) then s
    else if negb (dep_on (pcf s)) || negb (amt <? U128MAX) then s
    else match e2a s !! token with
      | Some a =>
          if negb (src =? (if a =? native then rootaddr (pcf s) else pegaddr (pcf s))) then s
          else match pdl s !! a with
            | Some (mn, delay) => if ddel (pcf s) && (mn <=? amt) then delay_payment s delay (PDep token amt ben)
                                  else fst (process_deposit s None token amt ben)
            | None => fst (process_deposit s None token amt ben)
            end
      | None => fst (process_deposit s None token amt ben)
      end.
  (** [process_withdrawal], lib 600-628: the 96-byte message always fits, so [send_event] succeeds. *)
  Definition send (s : peg) (o : option N) (a who token amt ben : N) : peg := p_log s (VSend o (pblk s) a who token amt ben).
  (** [do_withdrawal], lib 522-568; [evm] for calls from the precompile. *)
  Definition do_withdrawal (s : peg) (who a amt ben : N) (evm : bool) : result peg :=
    ensure! wd_on (pcf s) else 1;
    do! token <- of_opt (a2e s !! a) 2;
    let now := do! l <- burn_or_transfer (pbk s) a who amt; Ok (send (p_bk s l) None a who token amt ben) in
    match pdl s !! a with
    | Some (mn, delay) =>
        if wdel (pcf s) && (mn <=? amt) then
          (if evm then Err 3
           else do! l <- burn_or_transfer (pbk s) a who amt; Ok (delay_payment (p_bk s l) delay (PWd who token amt ben)))
        else now
    | None => now
    end.
  (** [process_delayed_payment], lib 631-665. *)
  Definition release (s : peg) (id : N) : peg :=
    match pend s !! id with
    | None => s
    | Some p =>
        let s1 := p_pend s (delete id (pend s)) in
        match p with
        | PDep token amt ben => let '(s2, ok) := process_deposit s1 (Some id) token amt ben in if ok then s2 else p_log s2 (VFail id (pblk s2) p)
        | PWd who token amt ben =>
            match e2a s1 !! token with
            | Some a => send s1 (Some id) a who token amt ben
            | None => p_log s1 (VFail id (pblk s1) p)
            end
        end
    end.
  (** [on_idle], lib 275-335: [left] payments may still be processed; the result counts fully processed blocks
      ([u8], wrapping). *)
  Fixpoint idle_loop (s : peg) (left bc : N) (blocks : list N) : peg * N :=
    match blocks with
    | [] => (s, bc)
    | b :: rest =>
        let ids := default [] (psch s !! b) in
        let fit := N.of_nat (length ids) <=? left in
        let now := firstn (N.to_nat left) ids in
        let s1 := p_sch s (if fit then delete b (psch s) else <[b := skipn (N.to_nat left) ids]> (psch s)) in
        let s2 := fold_left release now s1 in
        let bc' := if fit then (bc + 1) mod 2 ^ 8 else bc in
        let left' := left - N.of_nat (length now) in
        if left' =? 0 then (s2, bc') else idle_loop s2 left' bc' rest
    end.
  Definition per_payment : N := 8 * rd + 10 * wr.
  Definition on_idle (s : peg) (rem : N) : peg :=
    if rem <=? rd then s
    else match ready s with
    | [] => s
    | _ => let '(s1, bc) := idle_loop s (sat 255 ((rem - rd) / per_payment)) 0 (ready s) in p_ready s1 (skipn (N.to_nat bc) (ready s))
    end.
  (** [on_initialize], lib 338-347, of the next block. *)
  Definition next_block (s : peg) : peg :=
    let b := wrap32 (pblk s + 1) in
    let s1 := Peg b (pbk s) (e2a s) (a2e s) (pcf s) (pdl s) (psch s) (ready s) (pend s) (pnext s) (nexta s) (plog s) in
    match psch s !! b with
    | Some _ => if N.of_nat (length (ready s)) <? maxready then p_ready s1 (ready s ++ [b]) else s1
    | None => s1
    end.
  (** [remove_delayed_payment_entry], lib 499-516 (root): the first occurrence. *)
  Fixpoint remove_first (x : N) (l : list N) : list N := match l with [] => [] | y :: r => if y =? x then r else y :: remove_first x r end.
  Definition claim (s : peg) (k id : N) : result peg :=
    let ids := default [] (psch s !! k) in
    ensure! existsb (N.eqb id) ids else 4;
    Ok (release (p_sch s (<[k := remove_first id ids]> (psch s))) id).

  Inductive pop :=
  | PDeposit (src token amt ben : N)
  | PWithdraw (who a amt ben : N) (evm : bool)
  | PIdle (rem : N)
  | PBlock
  | PClaim (k id : N)
  | PMap (a token : N)                 (* [set_erc20_asset_map], lib 459-468 (root) *)
  | PDelay (a mn delay : N)            (* [set_payment_delay], lib 473-483 (root) *)
  | PConf (c : pcfg)                   (* lib 355-438 (root) *)
  | PXfer (a from to v : N)            (* any transfer between accounts *)
  | PMint (a who v : N)                (* an issuance outside the bridge *)
  | PNewAsset.                         (* an asset created outside the bridge *)
  Definition pexec (s : peg) (o : pop) : result peg :=
    match o with
    | PDeposit src token amt ben => Ok (do_deposit s src token amt ben)
    | PWithdraw who a amt ben evm => ensure! amt <=? U128MAX else 5; do_withdrawal s who a amt ben evm
    | PIdle rem => Ok (on_idle s rem)
    | PBlock => Ok (next_block s)
    | PClaim k id => claim s k id
    | PMap a token => Ok (p_map s a token)
    | PDelay a mn delay => Ok (Peg (pblk s) (pbk s) (e2a s) (a2e s) (pcf s) (<[a := (mn, delay)]> (pdl s)) (psch s) (ready s) (pend s) (pnext s) (nexta s) (plog s))
    | PConf c => Ok (Peg (pblk s) (pbk s) (e2a s) (a2e s) c (pdl s) (psch s) (ready s) (pend s) (pnext s) (nexta s) (plog s))
    | PXfer a from to v => do! l <- transfer (pbk s) a from to v; Ok (p_bk s l)
    | PMint a who v => do! l <- mint (pbk s) a who v; Ok (p_bk s l)
    | PNewAsset => Ok (p_nexta s)
    end.
  Definition pstep (s : peg) (o : pop) : peg := commit s (pexec s o).
End peg.
(** Genesis: the delays are active by default (lib 126-136), [first] is the first free asset id. *)
Definition pinit (first : N) : peg := Peg 0 empty_ledger ∅ ∅ (PCfg_ false false true true 0 0) ∅ ∅ [] ∅ 0 first [].
