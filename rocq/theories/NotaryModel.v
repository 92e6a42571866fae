(** What a bridge notary reads and votes: the ABI form of bridge events and the off-chain worker of
    the Ethereum bridge pallet, [/repo/pallet/ethy/src/impls.rs] ("impls") and
    [/repo/pallet/ethy/src/lib.rs] ("lib").  Bytes are numbers below 256; addresses, hashes and topics
    are the numbers they spell. *)
From Verif Require Export Base FpassModel.

(** ** ABI encoding, ethabi 18.0.0 *)
(** A 32-byte word, and zero padding to a multiple of 32 bytes ([ethabi::encode]). *)
Definition word (n : N) : list N := be_bytes 32 n.
Definition pad32 (l : list N) : list N := l ++ repeat 0 ((32 - length l mod 32) mod 32)%nat.
Definition nlen (l : list N) : N := N.of_nat (length l).

(** The data compared by the notaries, impls 358-363:
    [ethabi::encode(&[Uint(id), Address(source), Address(destination), Bytes(data)])]. *)
Definition encode4 (id src dst : N) (data : list N) : list N :=
  word id ++ word src ++ word dst ++ word 128 ++ word (nlen data) ++ pad32 data.
(** The event a relayer submits according to impls 153-163:
    [SendMessage(uint256 messageId, address source, address destination, bytes message, uint256 fee)]. *)
Definition encode5 (id src dst : N) (data : list N) (fee : N) : list N :=
  word id ++ word src ++ word dst ++ word 160 ++ word fee ++ word (nlen data) ++ pad32 data.

(** [ethabi::decode] (not the validating form): a word at an offset, a word used as an offset or a
    length (its first 28 bytes must be zero), a run of bytes.  Offsets are unbounded here. *)
Definition slice (d : list N) (off len : N) : option (list N) :=
  if off + len <=? nlen d then Some (firstn (N.to_nat len) (skipn (N.to_nat off) d)) else None.
Definition word_at (d : list N) (off : N) : option N := option_map of_be (slice d off 32).
Definition usize_at (d : list N) (off : N) : option N :=
  match word_at d off with Some w => if w <? 2 ^ 32 then Some w else None | None => None end.
Definition addr_at (d : list N) (off : N) : option N := option_map (fun w => w mod 2 ^ 160) (word_at d off).
Definition bytes_at (d : list N) (off : N) : option (list N) :=
  match usize_at d off with
  | Some o => match usize_at d o with Some len => slice d (o + 32) len | None => None end
  | None => None
  end.

(** [EventClaim], types.rs 32-45. *)
Record eclaim := EClaim { tx_hash : N; source : N; destination : N; cdata : list N }.

(** [decode_event_data], impls 149-182; [mxd] is [MaxEthData]. *)
Definition decode_event (mxd : N) (txh : N) (d : list N) : result (N * eclaim) :=
  do! id <- of_opt (word_at d 0) 1;
  do! src <- of_opt (addr_at d 32) 1;
  do! dst <- of_opt (addr_at d 64) 1;
  do! data <- of_opt (bytes_at d 96) 1;
  do! fee <- of_opt (word_at d 128) 1;
  ensure! nlen data <=? mxd else 1;
  Ok (sat U64MAX id, EClaim txh src dst data).

(** ** The Ethereum node a notary asks *)
(** [Log] and [TransactionReceipt], types.rs 330-394 (the fields that are read); [status] is [None]
    when the node reports none. *)
Record elogrec := ELog { laddr : N; ltopics : list N; ldata : list N; ltx : option N }.
Record receipt := Receipt { rblock : N; rlogs : list elogrec; rstatus : option N; rto : option N }.
Record eblock := EBlock { bnum : option N; btime : N }.
(** [BridgeEthereumRpcApi], types.rs 225-240: the outer option is the transport ([Err]), the inner
    one the answer.  [None] as a block number asks for the latest block. *)
Record node := Node {
  get_receipt : N -> option (option receipt);
  get_block : option N -> option (option eblock);
  call_eth : N -> list N -> N -> option (list N) }.

(** [EventClaimResult], types.rs 244-263. *)
Inductive everdict :=
| Valid | DataProviderErr | TxStatusFailed | UnexpectedContractAddress | NoTxLogs
| NotEnoughConfirmations | UnexpectedData | NoTxReceipt | UnexpectedSource.

(** [SUBMIT_BRIDGE_EVENT_SELECTOR], lib 97-98. *)
Definition SELECTOR : N := 0x0f8885c9654c5901d61d2eae1fa5d11a67f9b8fca77146d5109bc7be00f4472a.

(** [offchain_try_notarize_event], impls 323-401.  [contract] is [ContractAddress], [conf] is
    [EventBlockConfirmations]. *)
Definition matching (txh : N) (l : elogrec) : bool :=
  bool_decide (ltx l = Some txh) && existsb (N.eqb SELECTOR) (ltopics l).
Definition try_event (contract conf : N) (nd : node) (id : N) (c : eclaim) : everdict :=
  match get_receipt nd (tx_hash c) with
  | None => DataProviderErr
  | Some None => NoTxReceipt
  | Some (Some r) =>
      if default 0 (rstatus r) =? 0 then TxStatusFailed
      else if negb (bool_decide (rto r = Some (source c))) then UnexpectedSource
      else match List.find (matching (tx_hash c)) (rlogs r) with
           | None => NoTxLogs
           | Some l =>
               if negb (bool_decide (ldata l = encode4 id (source c) (destination c) (cdata c))) then UnexpectedData
               else if negb (laddr l =? contract) then UnexpectedContractAddress
               else match get_block nd None with
                    | None | Some None => DataProviderErr
                    | Some (Some b) =>
                        if default 0 (bnum b) - rblock r <? conf then NotEnoughConfirmations else Valid
                    end
           end
  end.

(** ** Checked eth_calls *)
(** [CheckedEthCallRequest], types.rs 56-74, and [CheckedEthCallResult], types.rs 79-92. *)
Record creq := CReq { cinput : list N; ctarget : N; ctime : N; clook : N; ctry : N; cchecked : N }.
Inductive callres :=
| COk (data : list N) (blk ts : N)
| CTooLong | CEmpty | CProvider | CBadBlock | CBadTime.

(** [offchain_try_eth_call], impls 443-541; [now] is the runtime's clock in seconds.  The returned
    data becomes a 32-byte array, so any other non-empty length is refused. *)
Definition try_call (now : N) (nd : node) (q : creq) : callres :=
  match get_block nd None with
  | None | Some None => CProvider
  | Some (Some latest) =>
      let lt := sat U64MAX (btime latest) in
      if lt =? U64MAX then CBadTime
      else if lt <? ctime q then CBadTime
      else match bnum latest with
           | None => CBadBlock
           | Some n =>
               if (n =? 0) || (n =? U64MAX) then CBadBlock
               else
                 let extra := (now - cchecked q) / 12 in
                 let oldest := n - clook q - extra in
                 let target :=
                   if (oldest <=? ctry q) && (ctry q <? n) then
                     match get_block nd (Some (ctry q)) with
                     | None | Some None => None
                     | Some (Some b) => Some (ctry q, sat U64MAX (btime b))
                     end
                   else Some (n, lt) in
                 match target with
                 | None => CProvider
                 | Some (tn, ts) =>
                     match call_eth nd (ctarget q) (cinput q) tn with
                     | None => CProvider
                     | Some [] => CEmpty
                     | Some d => if Nat.eqb (length d) 32 then COk d tn ts else CTooLong
                     end
                 end
           end
  end.

(** ** Which claim is looked at *)
(** [find_active_ethy_key], impls 232-258: the first local key that is in the notary set, and its index. *)
Fixpoint index_of (k : N) (l : list N) : option nat :=
  match l with [] => None | x :: l' => if x =? k then Some O else option_map S (index_of k l') end.
Fixpoint active_key (local notaries : list N) : option (N * nat) :=
  match local with
  | [] => None
  | k :: ks => match index_of k notaries with Some i => Some (k, i) | None => active_key ks notaries end
  end.

(** [do_event_notarization_ocw], impls 262-305: nothing while paused; the first [CLAIMS_PER_BLOCK] = 1
    (lib 87) of [PendingClaimChallenges]; skipped when the claim is unknown or this key has voted.
    The result is the vote sent, if any. *)
Definition worker_events (contract conf : N) (nd : node) (paused : bool) (challenges : list N)
    (claims : N -> option eclaim) (voted : N -> bool) : option (N * everdict) :=
  if paused then None else
  match challenges with
  | [] => None
  | id :: _ =>
      match claims id with
      | None => None
      | Some c => if voted id then None else Some (id, try_event contract conf nd id c)
      end
  end.
