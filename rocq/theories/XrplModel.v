(** Model of [/repo/pallet/xrpl-bridge/src/lib.rs] ("lib"): door tickets, deposits, withdrawals.
    Hashes, accounts, currencies, destinations are numbers. *)
From Verif Require Export LedgerProofs.

Definition wrap32 (n : N) : N := n mod 2 ^ 32.

(** ** Door tickets *)
(** [XrplTicketSequenceParams], types.rs 142-146; [default] is all zero. *)
Record tparams := TP { tstart : N; tsize : N }.
Definition tp0 : tparams := TP 0 0.
Definition is_tp0 (p : tparams) : bool := (tstart p =? 0) && (tsize p =? 0).
(** Per door account (lib 410-427): current ticket, current and next allocation.  [issued], newest
    first, is what has been handed out, kept for the statements. *)
Record door := Door { tcur : N; tpar : tparams; tnext : tparams; issued : list N }.
Definition door0 : door := Door 0 tp0 tp0 [].
(** [get_door_ticket_sequence], lib 1704-1753, without the [TicketSequenceThresholdReached] event. *)
Definition take_ticket (d : door) : result (N * door) :=
  do! nseq <- of_opt (chk_add U32MAX (tcur d) 1) 4;
  do! last <- of_opt (chk_add U32MAX (tstart (tpar d)) (tsize (tpar d))) 4;
  if last <=? tcur d then
    ensure! negb (is_tp0 (tnext d) || (tstart (tnext d) =? tstart (tpar d))) else 1;
    let c := tstart (tnext d) in
    do! nseq' <- of_opt (chk_add U32MAX c 1) 4;
    Ok (c, Door nseq' (tnext d) tp0 (c :: issued d))
  else Ok (tcur d, Door nseq (tpar d) (tnext d) (tcur d :: issued d)).
(** [set_ticket_sequence_next_allocation], lib 665-697 (relayers). *)
Definition set_next (d : door) (start size : N) : result door :=
  ensure! negb ((start <? tcur d) || (start <? tstart (tpar d)) || (size =? 0)) else 2;
  Ok (Door (tcur d) (tpar d) (TP start size) (issued d)).
(** [set_ticket_sequence_current_allocation], lib 702-736 (root). *)
Definition set_current (d : door) (t start size : N) : result door :=
  ensure! negb ((t <? tcur d) || (start <? tstart (tpar d)) || (size =? 0)) else 3;
  Ok (Door t (TP start size) (tnext d) (issued d)).
(** Door accounts by number (types.rs 190-193); arguments are u32. *)
Notation doors := (gmap N door).
Definition door_of (m : doors) (k : N) : door := default door0 (m !! k).
Inductive top :=
| TTake (k : N) (used : bool)     (* [used = false]: the caller failed later and was rolled back *)
| TNext (k start size : N)
| TCur (k t start size : N).
Definition texec (m : doors) (o : top) : result doors :=
  match o with
  | TTake k used => do! td <- take_ticket (door_of m k); ensure! used else 9; Ok (<[k := snd td]> m)
  | TNext k a b => ensure! (a <=? U32MAX) && (b <=? U32MAX) else 8; do! d <- set_next (door_of m k) a b; Ok (<[k := d]> m)
  | TCur k t a b =>
      ensure! (t <=? U32MAX) && (a <=? U32MAX) && (b <=? U32MAX) else 8;
      do! d <- set_current (door_of m k) t a b; Ok (<[k := d]> m)
  end.
Definition tstep (m : doors) (o : top) : doors := commit m (texec m o).

(** ** Deposits *)
(** [XrplTxData], types.rs 127-134.  The outcome of an NFT deposit is left to the environment. *)
Inductive txdata := PXrp (amt who : N) | PCur (amt who cur : N) | PNft (token who : N).
(** What was credited: hash and, for fungibles, (asset, account, amount). *)
Record credit := Credit { c_hash : N; c_what : option (N * N * N) }.
Record dep := Dep {
  dblk : N;
  sched : gmap N (list N);          (* [ProcessXRPTransaction] *)
  det : gmap N (N * txdata);        (* [ProcessXRPTransactionDetails] *)
  settled : gmap N (list N);        (* [SettledXRPTransactionDetails] *)
  high : N; pruned : N; width : N;  (* [HighestSettledLedgerIndex], [HighestPrunedLedgerIndex], [SubmissionWindowWidth] *)
  chall : gset N;                   (* [ChallengeXRPTransactionList] *)
  relayers : gset N;
  curmap : gmap N N;                (* [XRPLToAssetId] *)
  dbk : ledger N;
  credits : list credit; failures : list N }.   (* [ProcessingOk] / [ProcessingFailed] events, newest first *)
Definition win_end (d : dep) : N := high d - width d.
Definition listed (m : gmap N (list N)) (k : N) : list N := default [] (m !! k).

Section deposits.
  (** [ChallengePeriod], [XRPTransactionLimit], [XRPLTransactionLimitPerLedger],
      [MaxPrunedTransactionsPerBlock]; XRP, ROOT and the pallet account; database read and write weight. *)
  Variables (period lim limL maxpr xrp root pot rd wr : N).

  (** [submit_transaction], lib 473-503, [add_to_relay] and [add_to_xrp_process], lib 1186-1208. *)
  Definition submit_tx (d : dep) (who li h : N) (t : txdata) : result dep :=
    ensure! bool_decide (who ∈ relayers d) else 1;
    ensure! match t with PCur _ _ c => bool_decide (is_Some (curmap d !! c)) | _ => true end else 2;
    ensure! win_end d <=? wrap32 li else 3;
    ensure! match det d !! h with None => true | _ => false end else 4;
    let b := wrap32 (dblk d + period) in
    ensure! N.of_nat (length (listed (sched d) b)) <? lim else 5;
    Ok (Dep (dblk d) (<[b := listed (sched d) b ++ [h]]> (sched d)) (<[h := (li, t)]> (det d)) (settled d)
            (high d) (pruned d) (width d) (chall d) (relayers d) (curmap d) (dbk d) (credits d) (failures d)).
  (** [submit_challenge], lib 509-516: by anyone, for any hash. *)
  Definition submit_chal (d : dep) (h : N) : dep :=
    Dep (dblk d) (sched d) (det d) (settled d) (high d) (pruned d) (width d) ({[h]} ∪ chall d) (relayers d) (curmap d)
        (dbk d) (credits d) (failures d).

  (** [process_asset_deposit], lib 955-977. *)
  Definition asset_deposit (l : ledger N) (amt who a : N) : result (ledger N) :=
    if a =? root then transfer l a pot who amt else mint l a who amt.
  (** The match of [process_xrp_tx], lib 901-918; [nft_ok] is the outcome of an NFT deposit. *)
  Definition deposit1 (d : dep) (nft_ok : N -> bool) (t : txdata) : result (ledger N * option (N * N * N)) :=
    match t with
    | PXrp amt who => do! l <- asset_deposit (dbk d) amt who xrp; Ok (l, Some (xrp, who, amt))
    | PCur amt who c =>
        do! a <- of_opt (curmap d !! c) 2;
        do! l <- asset_deposit (dbk d) amt who a; Ok (l, Some (a, who, amt))
    | PNft tok who => ensure! nft_ok tok else 6; Ok (dbk d, None)
    end.
  (** One iteration of [process_xrp_tx], lib 889-947.  [Err 99] is the panic of [expect]. *)
  Definition settle1 (d : dep) (nft_ok : N -> bool) (h : N) : result dep :=
    if bool_decide (h ∈ chall d) then Ok d
    else match det d !! h with
    | None => Ok d
    | Some (li, t) =>
        match deposit1 d nft_ok t with
        | Err _ => Ok (Dep (dblk d) (sched d) (det d) (settled d) (high d) (pruned d) (width d) (chall d) (relayers d) (curmap d)
                           (dbk d) (credits d) (h :: failures d))
        | Ok (l, w) =>
            let k := wrap32 li in
            ensure! N.of_nat (length (listed (settled d) k)) <? limL else 99;
            Ok (Dep (dblk d) (sched d) (det d) (<[k := listed (settled d) k ++ [h]]> (settled d))
                    (if high d <? k then k else high d) (pruned d) (width d) (chall d) (relayers d) (curmap d)
                    l (Credit h w :: credits d) (failures d))
        end
    end.
  Fixpoint settle (d : dep) (nft_ok : N -> bool) (hs : list N) : result dep :=
    match hs with [] => Ok d | h :: hs' => do! d' <- settle1 d nft_ok h; settle d' nft_ok hs' end.
  (** [on_initialize] of the next block: [process_xrp_tx], lib 879-951. *)
  Definition dtick (d : dep) (nft_ok : N -> bool) : result dep :=
    let b := wrap32 (dblk d + 1) in
    let hs := listed (sched d) b in
    settle (Dep b (delete b (sched d)) (det d) (settled d) (high d) (pruned d) (width d) (chall d) (relayers d) (curmap d)
                (dbk d) (credits d) (failures d)) nft_ok hs.

  (** [clear_storages], lib 1091-1184, with [rem] weight left.  The loop of lib 1130-1173 over the ledger
      indexes [is]; [used] is the weight consumed so far, [nh] the new highest pruned index. *)
  Definition forget (m : gmap N (N * txdata)) (hs : list N) : gmap N (N * txdata) := foldr delete m hs.
  Fixpoint prune_loop (is : list N) (rem used nh : N) (dt : gmap N (N * txdata)) (st : gmap N (list N))
    : gmap N (N * txdata) * gmap N (list N) * N :=
    match is with
    | [] => (dt, st, nh)
    | i :: is' =>
        if rem <=? used + rd + 2 * wr then (dt, st, nh)
        else match st !! i with
        | None => prune_loop is' rem (used + rd) (sat U32MAX (nh + 1)) dt st
        | Some hs =>
            let used1 := used + rd + wr in
            let k := N.to_nat (N.min ((rem - used1) / wr) (N.of_nat (length hs))) in
            let dt' := forget dt (firstn k hs) in
            if (k <? length hs)%nat then (dt', <[i := skipn k hs]> st, nh)
            else prune_loop is' rem (used1 + wr * N.of_nat k) (sat U32MAX (nh + 1)) dt' (delete i st)
        end
    end.
  Fixpoint seqN (a : N) (n : nat) : list N := match n with O => [] | S n' => a :: seqN (a + 1) n' end.
  Definition clear_storages (d : dep) (rem : N) : dep :=
    if rem <=? 3 * rd + (rd + 3 * wr) then d
    else
      let fin := N.min (win_end d) (wrap32 (pruned d + maxpr)) in
      let is := seqN (pruned d) (N.to_nat (fin - pruned d)) in
      match is with
      | [] => d
      | _ =>
          let '(dt, st, nh) := prune_loop is rem (3 * rd + wr) (pruned d) (det d) (settled d) in
          Dep (dblk d) (sched d) dt st (high d) (if pruned d <? nh then nh else pruned d) (width d) (chall d) (relayers d)
              (curmap d) (dbk d) (credits d) (failures d)
      end.
  (** [prune_settled_ledger_index], lib 780-802 (root). *)
  Definition manual_prune (d : dep) (i : N) : result dep :=
    ensure! i <? win_end d else 7;
    do! hs <- of_opt (settled d !! i) 8;
    Ok (Dep (dblk d) (sched d) (forget (det d) hs) (delete i (settled d)) (high d) (pruned d) (width d) (chall d) (relayers d)
            (curmap d) (dbk d) (credits d) (failures d)).
  (** [reset_settled_xrpl_tx_data], lib 741-773 (root), without new transaction data. *)
  Definition reset (d : dep) (hi w : N) (pr : option N) : result dep :=
    ensure! match pr with Some p => p <=? hi - w | None => true end else 10;
    Ok (Dep (dblk d) (sched d) (det d) (settled d) hi (match pr with Some p => p | None => pruned d end) w (chall d) (relayers d)
            (curmap d) (dbk d) (credits d) (failures d)).

  Inductive dop :=
  | DSubmit (who li h : N) (t : txdata)
  | DChal (h : N)
  | DTick (nft_ok : N -> bool)
  | DClear (rem : N)
  | DPrune (i : N)
  | DReset (hi w : N) (pr : option N)
  | DRelayer (who : N) (add : bool)       (* [add_relayer], [remove_relayer], lib 603-623 *)
  | DMap (c : N) (a : option N).          (* effect of [set_xrpl_asset_map] on [XRPLToAssetId], lib 808-832 *)
  Definition dexec (d : dep) (o : dop) : result dep :=
    match o with
    | DSubmit who li h t => submit_tx d who li h t
    | DChal h => Ok (submit_chal d h)
    | DTick ok => dtick d ok
    | DClear rem => Ok (clear_storages d rem)
    | DPrune i => manual_prune d i
    | DReset hi w pr => reset d hi w pr
    | DRelayer who add =>
        Ok (Dep (dblk d) (sched d) (det d) (settled d) (high d) (pruned d) (width d) (chall d)
                (if add then {[who]} ∪ relayers d else relayers d ∖ {[who]}) (curmap d) (dbk d) (credits d) (failures d))
    | DMap c a =>
        Ok (Dep (dblk d) (sched d) (det d) (settled d) (high d) (pruned d) (width d) (chall d) (relayers d)
                (match a with Some a => <[c := a]> (curmap d) | None => delete c (curmap d) end) (dbk d) (credits d) (failures d))
    end.
  Definition dstep (d : dep) (o : dop) : dep := commit d (dexec d o).
End deposits.
(** Genesis: [DefaultHighestPrunedLedgerIndex] lib 351-353, [DefaultSubmissionWindowWidth] lib 362-365;
    [bk] is the ledger at the time the bridge starts. *)
Definition dinit (bk : ledger N) : dep := Dep 0 ∅ ∅ ∅ 0 42900000 288000 ∅ ∅ ∅ bk [] [].

(** ** Withdrawals *)
(** [balance_to_mantissa_exponent], lib 1632-1653: the loop, at most [n] divisions (39 digits suffice for
    u128); the exponent is relative to the one it starts with. *)
Definition MANTISSA_MAX : N := 9999999999999999.
Fixpoint scale_down (n : nat) (m e : N) : N * N :=
  match n with
  | O => (m, e)
  | S n' => if MANTISSA_MAX <? m then scale_down n' (m / 10) (e + 1) else (m, e)
  end.
(** Mantissa, number of divisions; the exponent sent is that number minus the decimals.  [Err] when the
    decimals do not fit an i8. *)
Definition mant_exp (amount decimals : N) : result (N * N) :=
  ensure! decimals <=? 127 else 20;
  Ok (scale_down 40 amount 0).
(** What goes into the XRPL transaction: drops, or mantissa and exponent [divisions - decimals]. *)
Inductive encoded := EDrops (n : N) | EIssued (mant divs dec cur : N).
Record wtx := WTx { w_who : N; w_asset : N; w_amt : N; w_dest : N; w_tag : option N; w_ticket : N; w_fee : N; w_cur : N }.
(** Observable: a withdrawal recorded for later / handed over for signing in a block / dropped. *)
Inductive wev := WDelayed (id due : N) (t : wtx) | WSent (id : option N) (blk : N) (t : wtx) (e : encoded) | WLost (id : N) (t : wtx).
Record wst := Wst {
  wblk : N; wbk : ledger N; wdoor : door; doorset : bool; dfee : N;
  toxrpl : gmap N N; toasset : gmap N N;      (* [AssetIdToXRPL], [XRPLToAssetId] *)
  pdelay : gmap N (N * N);                    (* [PaymentDelay]: threshold, delay *)
  dsch : gmap N (list N);                     (* [DelayedPaymentSchedule] *)
  dpay : gmap N wtx;                          (* [DelayedPayments] *)
  nextblk : N; nextpid : N;                   (* [NextDelayProcessBlock], [NextDelayedPaymentId] *)
  wlog : list wev }.

Section withdrawals.
  Variables (xrp root pot : N) (maxpb blim rd wr : N).
  Variable decimals : N -> N.
  (** Whether the XRPL codec accepts the amount and currency (external crate). *)
  Variable codec : N -> N -> N -> N -> bool.

  Definition with_log (s : wst) (e : wev) : wst :=
    Wst (wblk s) (wbk s) (wdoor s) (doorset s) (dfee s) (toxrpl s) (toasset s) (pdelay s) (dsch s) (dpay s) (nextblk s) (nextpid s) (e :: wlog s).
  (** [saturate_balance], lib 1611-1628; [10u128.pow] wraps. *)
  Definition saturate (amount a : N) : result N :=
    if a =? xrp then Ok amount
    else
      ensure! decimals a <=? 127 else 20;
      do! me <- mant_exp amount 0;
      let new := fst me * 10 ^ snd me in
      ensure! amount - new <? 10 ^ decimals a mod 2 ^ 128 else 21;
      Ok new.
  (** [serialize_xrp_tx] lib 1507-1543 ([saturated_into] u64), [serialize_asset_tx] lib 1549-1605. *)
  Definition encode (t : wtx) : result encoded :=
    if w_asset t =? xrp then Ok (EDrops (sat U64MAX (w_amt t)))
    else
      do! me <- mant_exp (w_amt t) (decimals (w_asset t));
      ensure! codec (fst me) (snd me) (decimals (w_asset t)) (w_cur t) else 22;
      Ok (EIssued (fst me) (snd me) (decimals (w_asset t)) (w_cur t)).
  (** [process_xrp_withdrawal], [process_root_withdrawal], [process_asset_withdrawal], lib 1267-1381:
      the balance movements, then the ticket. *)
  Definition take_funds (s : wst) (who a amt : N) : result (ledger N * N) :=
    if a =? xrp then do! l <- burn (wbk s) xrp who (amt + dfee s); Ok (l, 0)
    else
      do! cur <- of_opt (toxrpl s !! a) 23;
      do! l <- burn (wbk s) xrp who (dfee s);
      do! l' <- (if a =? root then transfer l root who pot amt else burn l a who amt);
      Ok (l', cur).
  (** [delay_payment], lib 1414-1450. *)
  Definition delay_payment (s : wst) (delay : N) (t : wtx) : result wst :=
    ensure! nextpid s + 1 <=? U64MAX else 24;
    let due := sat U32MAX (wblk s + delay) in
    ensure! N.of_nat (length (listed (dsch s) due)) <? maxpb else 25;
    Ok (Wst (wblk s) (wbk s) (wdoor s) (doorset s) (dfee s) (toxrpl s) (toasset s) (pdelay s)
            (<[due := listed (dsch s) due ++ [nextpid s]]> (dsch s)) (<[nextpid s := t]> (dpay s)) (nextblk s) (nextpid s + 1)
            (WDelayed (nextpid s) due t :: wlog s)).
  (** [add_to_withdraw], lib 1214-1264; [amount] is a u128. *)
  Definition withdraw (s : wst) (who a amount dest : N) (tag : option N) : result wst :=
    ensure! (negb (amount =? 0)) && (amount <=? U128MAX) else 26;
    do! amt <- saturate amount a;
    ensure! doorset s else 27;
    ensure! negb (a =? xrp) || (amt + dfee s <=? U128MAX) else 26;
    do! lc <- take_funds s who a amt;
    do! td <- take_ticket (wdoor s);
    let t := WTx who a amt dest tag (fst td) (dfee s) (snd lc) in
    let s1 := Wst (wblk s) (fst lc) (snd td) (doorset s) (dfee s) (toxrpl s) (toasset s) (pdelay s) (dsch s) (dpay s) (nextblk s) (nextpid s) (wlog s) in
    match pdelay s !! a with
    | Some (thr, delay) =>
        if thr <=? amt then delay_payment s1 delay t
        else do! e <- encode t; Ok (with_log s1 (WSent None (wblk s) t e))
    | None => do! e <- encode t; Ok (with_log s1 (WSent None (wblk s) t e))
    end.

  (** Body of the payments loop, lib 1046-1061: the result of [submit_withdraw_request] is ignored. *)
  Definition release1 (s : wst) (id : N) : wst :=
    match dpay s !! id with
    | None => s
    | Some t =>
        let s1 := Wst (wblk s) (wbk s) (wdoor s) (doorset s) (dfee s) (toxrpl s) (toasset s) (pdelay s) (dsch s) (delete id (dpay s)) (nextblk s) (nextpid s) (wlog s) in
        match encode t with
        | Ok e => with_log s1 (WSent (Some id) (wblk s) t e)
        | Err _ => with_log s1 (WLost id t)
        end
    end.
  Definition set_sch (s : wst) (m : gmap N (list N)) : wst :=
    Wst (wblk s) (wbk s) (wdoor s) (doorset s) (dfee s) (toxrpl s) (toasset s) (pdelay s) m (dpay s) (nextblk s) (nextpid s) (wlog s).
  Definition wtx_cost : N := 3 * rd + 2 * wr.
  (** The while loop, lib 1018-1077; [fuel] bounds the number of blocks looked at. *)
  Fixpoint delay_loop (fuel : nat) (s : wst) (rem used nh lim : N) : wst * N :=
    match fuel with
    | O => (s, nh)
    | S f =>
        if negb (nh <=? lim) || (rem <=? used + (rd + 2 * wr) + wtx_cost) then (s, nh)
        else match dsch s !! nh with
        | None => delay_loop f s rem (used + rd) (sat U32MAX (nh + 1)) lim
        | Some ids =>
            let used1 := used + rd + wr in
            let k := N.to_nat (N.min ((rem - used1) / wtx_cost) (N.of_nat (length ids))) in
            let s1 := fold_left release1 (firstn k ids) s in
            if (k <? length ids)%nat then (set_sch s1 (<[nh := skipn k ids]> (dsch s1)), nh)
            else delay_loop f (set_sch s1 (delete nh (dsch s1))) rem (used1 + wtx_cost * N.of_nat k) (sat U32MAX (nh + 1)) lim
        end
    end.
  (** [process_delayed_payments], lib 980-1088. *)
  Definition process_delayed (s : wst) (rem : N) : wst :=
    if rem <=? (2 * rd + wr) + (wtx_cost + (2 * rd + 2 * wr)) then s
    else
      let lim := N.min (wblk s) (sat U32MAX (nextblk s + blim)) in
      if negb (doorset s) then s
      else
        let '(s1, nh) := delay_loop (N.to_nat (lim + 1 - nextblk s)) s rem (2 * rd + wr) (nextblk s) lim in
        Wst (wblk s1) (wbk s1) (wdoor s1) (doorset s1) (dfee s1) (toxrpl s1) (toasset s1) (pdelay s1) (dsch s1) (dpay s1)
            (if nextblk s <? nh then nh else nextblk s1) (nextpid s1) (wlog s1).

  (** [set_xrpl_asset_map], lib 808-832; [valid] is [symbol.is_valid()] of the codec. *)
  Definition set_map (s : wst) (valid : bool) (a : N) (c : option N) : result wst :=
    match c with
    | Some c =>
        ensure! valid else 28;
        Ok (Wst (wblk s) (wbk s) (wdoor s) (doorset s) (dfee s) (<[a := c]> (toxrpl s)) (<[c := a]> (toasset s)) (pdelay s) (dsch s) (dpay s) (nextblk s) (nextpid s) (wlog s))
    | None =>
        do! c <- of_opt (toxrpl s !! a) 23;
        Ok (Wst (wblk s) (wbk s) (wdoor s) (doorset s) (dfee s) (delete a (toxrpl s)) (delete c (toasset s)) (pdelay s) (dsch s) (dpay s) (nextblk s) (nextpid s) (wlog s))
    end.

  Inductive wop :=
  | WWithdraw (who a amount dest : N) (tag : option N)
  | WIdle (rem : N)                       (* [on_idle], then the next block begins *)
  | WMap (valid : bool) (a : N) (c : option N)
  | WDelay (a : N) (v : option (N * N))   (* [set_payment_delay], lib 522-543 *)
  | WFee (fee : N)                        (* [set_door_tx_fee], lib 628-636 *)
  | WDoorAddr (b : bool)                  (* [set_door_address], lib 651-660 *)
  | WNext (start size : N)
  | WMint (a who v : N).                  (* any credit to an account: deposits, genesis, transfers *)
  Definition set_door (s : wst) (d : door) : wst :=
    Wst (wblk s) (wbk s) d (doorset s) (dfee s) (toxrpl s) (toasset s) (pdelay s) (dsch s) (dpay s) (nextblk s) (nextpid s) (wlog s).
  Definition wexec (s : wst) (o : wop) : result wst :=
    match o with
    | WWithdraw who a amount dest tag => withdraw s who a amount dest tag
    | WIdle rem =>
        let s1 := process_delayed s rem in
        Ok (Wst (wrap32 (wblk s1 + 1)) (wbk s1) (wdoor s1) (doorset s1) (dfee s1) (toxrpl s1) (toasset s1) (pdelay s1) (dsch s1) (dpay s1) (nextblk s1) (nextpid s1) (wlog s1))
    | WMap valid a c => set_map s valid a c
    | WDelay a v =>
        Ok (Wst (wblk s) (wbk s) (wdoor s) (doorset s) (dfee s) (toxrpl s) (toasset s)
                (match v with Some v => <[a := v]> (pdelay s) | None => delete a (pdelay s) end) (dsch s) (dpay s) (nextblk s) (nextpid s) (wlog s))
    | WFee f => ensure! f <=? U64MAX else 29;
        Ok (Wst (wblk s) (wbk s) (wdoor s) (doorset s) f (toxrpl s) (toasset s) (pdelay s) (dsch s) (dpay s) (nextblk s) (nextpid s) (wlog s))
    | WDoorAddr b =>
        Ok (Wst (wblk s) (wbk s) (wdoor s) b (dfee s) (toxrpl s) (toasset s) (pdelay s) (dsch s) (dpay s) (nextblk s) (nextpid s) (wlog s))
    | WNext a b => ensure! (a <=? U32MAX) && (b <=? U32MAX) else 8; do! d <- set_next (wdoor s) a b; Ok (set_door s d)
    | WMint a who v =>
        do! l <- mint (wbk s) a who v;
        Ok (Wst (wblk s) l (wdoor s) (doorset s) (dfee s) (toxrpl s) (toasset s) (pdelay s) (dsch s) (dpay s) (nextblk s) (nextpid s) (wlog s))
    end.
  Definition wstep (s : wst) (o : wop) : wst := commit s (wexec s o).
End withdrawals.
(** Genesis; [DefaultDoorTxFee] is 1 XRP (lib 436-438). *)
Definition winit : wst := Wst 0 empty_ledger door0 false 1000000 ∅ ∅ ∅ ∅ ∅ 0 0 [].
