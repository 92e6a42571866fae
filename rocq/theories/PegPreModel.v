(** The bridge's EVM contract, [/repo/evm-precompiles/peg/src/lib.rs], on top of the two pegs ([PegModel],
    [NftPegModel]), the queue of messages for Ethereum (/repo/pallet/ethy/src/impls.rs:45-68) and the byte-level ABI
    ([AbiModel]).  Running out of gas is not modelled: it reverts the call, as if it had not been made. *)
From Verif Require Export Erc1155Model AbiProofs.
From Verif Require PegModel NftPegModel.

(** ** Selectors and log topics: keccak-256 of the signatures of 32-50, computed outside Coq *)
Definition B_erc20Withdraw : N := 0x6c4f1a68.
Definition B_erc721Withdraw : N := 0x39ab0a42.
Definition H_Erc20Withdrawal : N := 0xd7134fc12f065f4629d9fa3ae69540bc4e90887fd9ea63567c5b02665ee30594.
Definition H_Erc721Withdrawal : N := 0xec39c66dea77aba3f7ee5d21fa513d2c2d80018a32602eb2f4f9311efc094353.
(** [PEG_PRECOMPILE], /repo/evm-precompiles/utils/src/constants.rs. *)
Definition PEG_ADDR : N := 0x793.
Definition tU32 : ty := TW (WUint U32MAX).
Definition tU128 : ty := TW (WUint U128MAX).
(** [evm_id_to_runtime_id], /repo/runtime/src/impls.rs:267-283, with the prefix of ERC-721 collections. *)
Definition nft_at (a : N) : option N := if a / 2 ^ 128 =? 0xaaaaaaaa then Some (a / 2 ^ 96 mod 2 ^ 32) else None.
Fixpoint nfts_at (l : list val) : option (list N) :=
  match l with
  | [] => Some []
  | v :: l' => match nft_at (num v), nfts_at l' with Some c, Some r => Some (c :: r) | _, _ => None end
  end.
Definition items (v : val) : list N := match v with VL l => nums l | _ => [] end.

(** ** State *)
(** A message for Ethereum: its event proof id, source, destination contract and data. *)
Record msg := Msg { mg_id : N; mg_src : N; mg_dst : N; mg_data : list N }.
(** [b_next]: [NextEventProofId]; [b_nftpeg]: the ERC-721 peg's contract ([ContractAddress] of pallet nft-peg). *)
Record bst := Bst {
  b_peg : PegModel.peg; b_np : NftPegModel.npeg; b_nftpeg : N;
  b_next : N; b_out : list msg; b_logs : list elog }.
Definition with_peg (s : bst) (p : PegModel.peg) : bst := Bst p (b_np s) (b_nftpeg s) (b_next s) (b_out s) (b_logs s).
Definition with_np (s : bst) (p : NftPegModel.npeg) : bst := Bst (b_peg s) p (b_nftpeg s) (b_next s) (b_out s) (b_logs s).
Definition blogs (s : bst) (l : list elog) : bst := Bst (b_peg s) (b_np s) (b_nftpeg s) (b_next s) (b_out s) (b_logs s ++ l).

Section pegpre.
  (** As in [PegModel] and [NftPegModel]; [nsrc]: the account of the NFT peg; [max_data]: [MaxEthData] of pallet ethy
      (3200, /repo/runtime/src/lib.rs:1033). *)
  Variables native pot maxready rd wr : N.
  Variables cap mint_limit pallet : N.
  Variables max_addr max_tok max_coll max_ser max_id : N.
  Variables nsrc max_data : N.

  (** [send_event], ethy impls.rs:45-68. *)
  Definition send_event (s : bst) (src dst : N) (m : list N) : result (bst * N) :=
    ensure! nlen m <=? max_data else 5;
    Ok (Bst (b_peg s) (b_np s) (b_nftpeg s) ((b_next s + 1) mod 2 ^ 64) (b_out s ++ [Msg (b_next s) src dst m]) (b_logs s), b_next s).
  (** The messages of [process_withdrawal], erc20-peg lib.rs:600-628, and of [do_withdrawal], nft-peg lib.rs:447-456;
      [ethabi::encode] (an external crate) is taken to be the ABI's encoding. *)
  Definition erc20_msg (token amt ben : N) : list N := enc_all [tA; tU; tA] [VN token; VN amt; VN ben].
  Definition erc721_msg (m : list (N * list N)) (dest : N) : list N :=
    enc_all [tAs; TVec U32MAX tUs; tA] [VL (map (fun g => VN (fst g)) m); VL (map (fun g => VL (map VN (snd g))) m); VN dest].
  Definition erc20_dst (p : PegModel.peg) (a : N) : N :=
    if a =? native then PegModel.rootaddr (PegModel.pcf p) else PegModel.pegaddr (PegModel.pcf p).

  (** [erc20_withdraw], 106-173. *)
  Definition b_erc20 (s : bst) (caller : N) (call : list N) : result (bst * list N) :=
    do! l <- read_args [tA; tA; tU] call;
    match l with
    | [VN ben; VN asset; VN amt] =>
        do! a <- of_opt (asset_at asset) 2;
        ensure! amt <=? U128MAX else 1;
        do! p <- PegModel.do_withdrawal native pot (b_peg s) caller a amt ben true;
        do! token <- of_opt (PegModel.a2e (b_peg s) !! a) 2;
        do! r <- send_event (with_peg s p) pot (erc20_dst p a) (erc20_msg token amt ben);
        Ok (blogs (fst r) [Elog PEG_ADDR [H_Erc20Withdrawal; snd r; ben; asset] (out [tU128] [VN amt])], out [tU] [VN (snd r)])
    | _ => Err 98
    end.
  (** [erc721_withdraw], 175-262, and [bound_serial_numbers], 265-281. *)
  Definition b_erc721 (s : bst) (caller : N) (call : list N) : result (bst * list N) :=
    do! l <- read_args [tA; tAs; TVec U32MAX tUs] call;
    match l with
    | [VN ben; VL addrs; VL serials] =>
        do! cs <- of_opt (nfts_at addrs) 2;
        let ns := map items serials in
        ensure! forallb (all_le U32MAX) ns else 1;
        do! p <- NftPegModel.withdraw max_coll max_ser (b_np s) caller cs ns ben;
        let m := fst (List.last (NftPegModel.g_out p) ([], 0)) in
        do! r <- send_event (with_np s p) nsrc (b_nftpeg s) (erc721_msg m ben);
        Ok (blogs (fst r) (map (fun g => Elog PEG_ADDR [H_Erc721Withdrawal; snd r; ben; num (fst g)] (out [TVec U32MAX tU32] [VL (map VN (snd g))]))
                               (combine addrs ns)), out [tU] [VN (snd r)])
    | _ => Err 98
    end.
  (** [execute], 70-86. *)
  Definition b_execute (s : bst) (caller : N) (static : bool) (value : N) (call : list N) : result (bst * list N) :=
    do! sel <- read_selector call;
    ensure! (sel =? B_erc20Withdraw) || (sel =? B_erc721Withdraw) else 23;
    ensure! negb static else 21;
    ensure! value =? 0 else 22;
    if sel =? B_erc20Withdraw then b_erc20 s caller call else b_erc721 s caller call.

  (** ** Everything that happens: an operation of one of the pegs made otherwise, a message of another pallet, a new
      address of the ERC-721 peg, a call of the contract *)
  (** The messages that an operation of the ERC-20 peg sends. *)
  Definition sends (s : bst) (e : PegModel.pev) : bst :=
    match e with
    | PegModel.VSend _ _ a _ token amt ben =>
        match send_event s pot (erc20_dst (b_peg s) a) (erc20_msg token amt ben) with Ok r => fst r | Err _ => s end
    | _ => s
    end.
  Definition b_peg_op (s : bst) (o : PegModel.pop) : bst :=
    let p := PegModel.pstep native pot maxready rd wr (b_peg s) o in
    fold_left sends (rev (firstn (length (PegModel.plog p) - length (PegModel.plog (b_peg s))) (PegModel.plog p))) (with_peg s p).
  Definition b_nft_op (s : bst) (o : NftPegModel.pop) : bst :=
    let p := NftPegModel.gstep cap mint_limit pallet max_addr max_tok max_coll max_ser max_id (b_np s) o in
    if Nat.eqb (length (NftPegModel.g_out p)) (length (NftPegModel.g_out (b_np s))) then with_np s p
    else let m := List.last (NftPegModel.g_out p) ([], 0) in
         match send_event (with_np s p) nsrc (b_nftpeg s) (erc721_msg (fst m) (snd m)) with Ok r => fst r | Err _ => s end.
  Inductive bop :=
  | BPeg (o : PegModel.pop) | BNft (o : NftPegModel.pop) | BOther (src dst : N) (m : list N) | BAddr (a : N)
  | BCall (caller : N) (static : bool) (value : N) (call : list N).
  Definition bstep (s : bst) (o : bop) : bst :=
    match o with
    | BPeg o => b_peg_op s o
    | BNft o => b_nft_op s o
    | BOther src dst m => match send_event s src dst m with Ok r => fst r | Err _ => s end
    | BAddr a => Bst (b_peg s) (b_np s) a (b_next s) (b_out s) (b_logs s)
    | BCall caller static value call => match b_execute s caller static value call with Ok r => fst r | Err _ => s end
    end.
End pegpre.
Definition binit (first : N) : bst := Bst (PegModel.pinit first) NftPegModel.ginit 0 0 [] [].
