(** The ERC-1155 view of semi-fungible tokens, [/repo/evm-precompiles/erc1155/src/lib.rs], on top of
    the token model ([SftModel]) and the byte-level ABI ([AbiModel]).  Running out of gas is not
    modelled: it reverts the call, as if it had not been made. *)
From Verif Require Export SftModel AbiModel.

(** ** Selectors and log topics: keccak-256 of the signatures of 38-108, computed outside Coq *)
Definition S_balanceOf : N := 0x00fdd58e.
Definition S_balanceOfBatch : N := 0x4e1273f4.
Definition S_setApprovalForAll : N := 0xa22cb465.
Definition S_isApprovedForAll : N := 0xe985e9c5.
Definition S_safeTransferFrom : N := 0xf242432a.
Definition S_safeBatchTransferFrom : N := 0x2eb2c2d6.
Definition S_burn : N := 0xf5298aca.
Definition S_burnBatch : N := 0x6b20c454.
Definition S_totalSupply : N := 0xbd85b039.
Definition S_exists : N := 0x4f558e79.
Definition S_uri : N := 0x0e89341c.
Definition S_owner : N := 0x8da5cb5b.
Definition S_renounceOwnership : N := 0x715018a6.
Definition S_transferOwnership : N := 0xf2fde38b.
Definition S_createToken : N := 0x6d658031.
Definition S_mint : N := 0x156e29f6.
Definition S_mintBatch : N := 0xd81d0a15.
Definition S_setMaxSupply : N := 0x83f6e6e5.
Definition S_setBaseURI : N := 0x55e42958.
Definition S_togglePublicMint : N := 0x2d141bd7.
Definition S_setMintFee : N := 0x66c7fdfb.
Definition S_onReceived : N := 0xf23a6e61.
Definition S_onBatchReceived : N := 0xbc197c81.
Definition L_single : N := 0xc3d58168c5ae7397731d063d5bbf3d657854427343f4c083240f7aacaa2d0f62.
Definition L_batch : N := 0x4a39dc06d4c0dbc64b70af90fd698a233a518aa5d07e595d983b8c0526c8f7fb.
Definition L_approval : N := 0x17307eab39ab6107e8899845ad3d59bd9653f200f220920489ca2b5937696c31.
Definition L_ownership : N := 0x8be0079c531659141344cd1fd0a4f28419497f9722a3daafe3b4186f6b6457e0.
Definition L_maxSupply : N := 0x22019607ac12624c68f892a0767dde5d4968253f915b904a26e8af6e738294a5.
Definition L_tokenCreated : N := 0x1bc01cfab54b5a681c76b6069e2ea2892074adb29595f4ffa98df39edd8c4290.
Definition L_baseURI : N := 0x6741b2fc379fad678116fe3d4d4b9a1a184ab53ba36b86ad0fa66340b1ab41ad.
Definition L_publicMint : N := 0xb1ad4a1348187ab4022a3cb423c5ad16f065aaf3016700e18a17dc592884ed5a.
Definition L_mintFee : N := 0xaa9c45ddd55660cee34e6c1bc9707179783745b0b2a058f002155466e4c2b304.

(** ** State *)
(** An EVM log: the collection whose address emitted it, its topics and its data. *)
Record elog := Elog { lg_coll : N; lg_topics : list N; lg_data : list N }.
(** The SFT pallet's storage, [ERC1155ApprovalsForAll] (owner, collection, operator), the
    [metadata_scheme] of each collection, [pricing_details] of each token, and the logs of the
    Ethereum transactions. *)
Record pstate := PState {
  p_sft : sstate; p_appr : gmap (N * N * N) unit; p_uri : gmap N (list N);
  p_fee : gmap (N * N) (N * N); p_logs : list elog }.
Definition pinit : pstate := PState sinit ∅ ∅ ∅ [].
Definition with_sft (s : pstate) (x : sstate) : pstate := PState x (p_appr s) (p_uri s) (p_fee s) (p_logs s).
Definition with_appr (s : pstate) (x : gmap (N * N * N) unit) : pstate := PState (p_sft s) x (p_uri s) (p_fee s) (p_logs s).
(** [log1] … [log4] of [precompile_utils], then [record]. *)
Definition log (s : pstate) (c : N) (topics data : list N) : pstate :=
  PState (p_sft s) (p_appr s) (p_uri s) (p_fee s) (p_logs s ++ [Elog c topics data]).

(** ** Arguments *)
Definition tU : ty := TW (WUint U256MAX).
Definition tA : ty := TW WAddr.
Definition tB : ty := TW WBool.
Definition tBytes : ty := TBytes U32MAX.
Definition tUs : ty := TVec U32MAX tU.
Definition tAs : ty := TVec U32MAX tA.
Definition num (v : val) : N := match v with VN n => n | _ => 0 end.
Definition nums (l : list val) : list N := map num l.
(** [EvmDataWriter::new().write(a).write(b)…build()]. *)
Definition out (ts : list ty) (l : list val) : list N := build (write_all ts l wnew).
Definition b2n (b : bool) : N := if b then 1 else 0.
(** The [ensure!]s on every element, e.g. 493-513. *)
Definition all_le (mx : N) (l : list N) : bool := forallb (fun n => n <=? mx) l.

(** [balance_of], impls.rs:457-460, with [free_balance_of]; [total_supply], 463-466. *)
Definition free_of (s : sstate) (c n who : N) : N :=
  match stoks s !! (c, n) with
  | Some t => match find_bal (t_own t) who with Some b => fst b | None => 0 end
  | None => 0
  end.
Definition supply_of (s : sstate) (c n : N) : N := match stoks s !! (c, n) with Some t => t_iss t | None => 0 end.
(** [write!("{}", serial_number)]: the decimal digits of a u32. *)
Fixpoint digits (k : nat) (n : N) : list N :=
  match k with
  | O => []
  | S k' => (if n <? 10 then [] else digits k' (n / 10)) ++ [48 + n mod 10]
  end.
Definition approved (s : pstate) (owner c operator : N) : bool :=
  match p_appr s !! (owner, c, operator) with Some _ => true | None => false end.

(** What happens when a call is made to an account: nothing if it has no code; else the state it
    leaves and its answer ([None]: it failed) to a sender and call data. *)
Definition callee := option (pstate * (N -> list N -> option (list N))).

Section erc1155.
  (** [MaxOwnersPerSftToken], [MaxSerialsPerMint]; [StringLimit]; [core::str::from_utf8]. *)
  Variable max_owners max_serials : N.
  Variable string_limit : N.
  Variable utf8 : list N -> bool.
  Notation stransfer := (stransfer max_owners max_serials).
  Notation sburn := (sburn max_serials).
  Notation smint := (smint max_owners max_serials).

  (** [construct_token_uri], /repo/primitives/src/nft.rs:63-68. *)
  Definition token_uri (s : pstate) (c n : N) : list N :=
    let base := default [] (p_uri s !! c) in
    (if utf8 base then base else []) ++ digits 10 n.

  (** [check_function_modifier], 156-170: these are [NonPayable], everything else [View]. *)
  Definition non_payable (sel : N) : bool :=
    existsb (N.eqb sel)
      [S_setApprovalForAll; S_safeTransferFrom; S_safeBatchTransferFrom; S_burn; S_burnBatch; S_mint;
       S_togglePublicMint; S_setMintFee; S_mintBatch].

  (** [balance_of], 256-276. *)
  Definition f_balance_of (s : pstate) (c : N) (call : list N) : result (pstate * list N) :=
    do! a <- read_args [tA; tU] call;
    match a with
    | [VN owner; VN id] =>
        ensure! id <=? U32MAX else 1;
        Ok (s, out [tU] [VN (free_of (p_sft s) c id owner)])
    | _ => Err 98
    end.
  (** [balance_of_batch], 278-314. *)
  Definition f_balance_of_batch (s : pstate) (c : N) (call : list N) : result (pstate * list N) :=
    do! a <- read_args [tAs; tUs] call;
    match a with
    | [VL accounts; VL ids] =>
        ensure! Nat.eqb (length accounts) (length ids) else 2;
        ensure! all_le U32MAX (nums ids) else 1;
        Ok (s, out [tUs] [VL (map (fun e => VN (free_of (p_sft s) c (snd e) (fst e))) (combine (nums accounts) (nums ids)))])
    | _ => Err 98
    end.
  (** [is_approved_for_all], 316-333. *)
  Definition f_is_approved (s : pstate) (c : N) (call : list N) : result (pstate * list N) :=
    do! a <- read_args [tA; tA] call;
    match a with
    | [VN owner; VN operator] => Ok (s, out [tB] [VN (b2n (approved s owner c operator))])
    | _ => Err 98
    end.
  (** [set_approval_for_all], 335-367, with [erc1155_approval_for_all],
      /repo/pallet/token-approvals/src/lib.rs:234-253. *)
  Definition f_set_approval (s : pstate) (caller c : N) (call : list N) : result (pstate * list N) :=
    do! a <- read_args [tA; tB] call;
    match a with
    | [VN operator; VN ok] =>
        ensure! negb (caller =? operator) else 3;
        let k := (caller, c, operator) in
        let m := if ok =? 1 then <[k := tt]> (p_appr s) else delete k (p_appr s) in
        Ok (log (with_appr s m) c [L_approval; caller; operator] (out [tB] [VN ok]), [])
    | _ => Err 98
    end.

  (** [do_safe_transfer_acceptance_check] and its batch version, 420-455 and 524-560: [output[..4]]
      panics on a shorter answer. *)
  Definition accept (s : pstate) (r : callee) (sender : N) (input : list N) (magic : N) : result pstate :=
    match r with
    | None => Ok s
    | Some (s1, answer) =>
        match answer sender input with
        | None => Err 4
        | Some o =>
            ensure! Nat.leb 4 (length o) else panic;
            ensure! of_be (firstn 4 o) =? magic else 5;
            Ok s1
        end
    end.
  (** The approval check, 577-586, 619-628, 686-695. *)
  Definition may_move (s : pstate) (from c caller : N) : bool := (from =? caller) || approved s from c caller.
  (** [do_safe_transfer], 562-609. *)
  Definition do_safe_transfer (s : pstate) (caller c from to : N) (ids amounts : list N) : result pstate :=
    ensure! Nat.eqb (length ids) (length amounts) else 2;
    ensure! negb (to =? 0) else 6;
    ensure! may_move s from c caller else 7;
    ensure! N.of_nat (length (combine ids amounts)) <=? max_serials else 8;
    do! x <- stransfer (p_sft s) from c (combine ids amounts) to;
    Ok (with_sft s x).
  (** [safe_transfer_from], 369-415. *)
  Definition f_safe_transfer (s : pstate) (r : callee) (caller c : N) (call : list N) : result (pstate * list N) :=
    do! a <- read_args [tA; tA; tU; tU; tBytes] call;
    match a with
    | [VN from; VN to; VN id; VN amount; VB data] =>
        do! s1 <- accept s r caller
          (build_call S_onReceived [tA; tA; tU; tU; tBytes] [VN caller; VN from; VN id; VN amount; VB data]) S_onReceived;
        ensure! id <=? U32MAX else 1;
        ensure! amount <=? U128MAX else 9;
        do! s2 <- do_safe_transfer s1 caller c from to [id] [amount];
        Ok (log s2 c [L_single; caller; from; to] (out [tU; tU] [VN id; VN amount]), [])
    | _ => Err 98
    end.
  (** [safe_batch_transfer_from], 457-519.  The receiver is called with the selector of the single
      check (536). *)
  Definition f_safe_batch_transfer (s : pstate) (r : callee) (caller c : N) (call : list N) : result (pstate * list N) :=
    do! a <- read_args [tA; tA; tUs; tUs; tBytes] call;
    match a with
    | [VN from; VN to; VL ids; VL amounts; VB data] =>
        do! s1 <- accept s r caller
          (build_call S_onReceived [tA; tA; tUs; tUs; tBytes] [VN caller; VN from; VL ids; VL amounts; VB data]) S_onBatchReceived;
        ensure! all_le U32MAX (nums ids) else 1;
        ensure! all_le U128MAX (nums amounts) else 9;
        do! s2 <- do_safe_transfer s1 caller c from to (nums ids) (nums amounts);
        Ok (log s2 c [L_batch; caller; from; to] (out [tUs; tUs] [VL ids; VL amounts]), [])
    | _ => Err 98
    end.
  (** [burn], 611-655.  [truncate_from] keeps the pair when [MaxSerialsPerMint] is not zero. *)
  Definition truncate {A} (l : list A) : list A := firstn (N.to_nat max_serials) l.
  Definition f_burn (s : pstate) (caller c : N) (call : list N) : result (pstate * list N) :=
    do! a <- read_args [tA; tU; tU] call;
    match a with
    | [VN account; VN id; VN value] =>
        ensure! id <=? U32MAX else 1;
        ensure! value <=? U128MAX else 9;
        ensure! may_move s account c caller else 7;
        do! x <- sburn (p_sft s) account c (truncate [(id, value)]);
        Ok (log (with_sft s x) c [L_single; caller; account; 0] (out [tU; tU] [VN id; VN value]), [])
    | _ => Err 98
    end.
  (** [burn_batch], 657-723. *)
  Definition f_burn_batch (s : pstate) (caller c : N) (call : list N) : result (pstate * list N) :=
    do! a <- read_args [tA; tUs; tUs] call;
    match a with
    | [VN account; VL ids; VL values] =>
        ensure! Nat.eqb (length ids) (length values) else 2;
        ensure! all_le U32MAX (nums ids) else 1;
        ensure! all_le U128MAX (nums values) else 9;
        ensure! may_move s account c caller else 7;
        ensure! N.of_nat (length (combine (nums ids) (nums values))) <=? max_serials else 8;
        do! x <- sburn (p_sft s) account c (combine (nums ids) (nums values));
        Ok (log (with_sft s x) c [L_batch; caller; account; 0] (out [tUs; tUs] [VL ids; VL values]), [])
    | _ => Err 98
    end.
  (** [total_supply], 725-741; [exists], 743-758; [uri], 760-774. *)
  Definition f_by_id (s : pstate) (call : list N) (answer : N -> list N) : result (pstate * list N) :=
    do! a <- read_args [tU] call;
    match a with
    | [VN id] => ensure! id <=? U32MAX else 1; Ok (s, answer id)
    | _ => Err 98
    end.
  Definition f_total_supply (s : pstate) (c : N) (call : list N) : result (pstate * list N) :=
    f_by_id s call (fun id => out [TW (WUint U128MAX)] [VN (supply_of (p_sft s) c id)]).
  Definition f_exists (s : pstate) (c : N) (call : list N) : result (pstate * list N) :=
    f_by_id s call (fun id => out [tB] [VN (match stoks (p_sft s) !! (c, id) with Some _ => 1 | None => 0 end)]).
  Definition f_uri (s : pstate) (c : N) (call : list N) : result (pstate * list N) :=
    f_by_id s call (fun id => out [tBytes] [VB (token_uri s c id)]).
  (** [owner], 776-791. *)
  Definition f_owner (s : pstate) (c : N) : result (pstate * list N) :=
    do! i <- of_opt (scolls (p_sft s) !! c) 10;
    Ok (s, out [tA] [VN (sc_owner i)]).
  (** [renounce_ownership], 793-824, and [transfer_ownership], 826-850. *)
  Definition f_set_owner (s : pstate) (caller c new : N) : result (pstate * list N) :=
    do! x <- sset_owner (p_sft s) caller c new;
    Ok (log (with_sft s x) c [L_ownership; caller; new] [], out [tB] [VN 1]).
  Definition f_transfer_ownership (s : pstate) (caller c : N) (call : list N) : result (pstate * list N) :=
    do! a <- read_args [tA] call;
    match a with [VN new] => f_set_owner s caller c new | _ => Err 98 end.
  (** [create_token], 852-906, with the name checks of [do_create_token], impls.rs:94-96. *)
  Definition f_create_token (s : pstate) (caller c : N) (call : list N) (ext_ok : bool) : result (pstate * list N) :=
    do! a <- read_args [tBytes; tU; tU; tA] call;
    match a with
    | [VB name; VN initial; VN max; VN owner] =>
        ensure! nlen name <=? string_limit else 11;
        ensure! initial <=? U128MAX else 9;
        ensure! max <=? U128MAX else 9;
        ensure! negb (Nat.eqb (length name) 0) && utf8 name else 12;
        do! i <- of_opt (scolls (p_sft s) !! c) 10;
        do! x <- create_token (p_sft s) caller c initial (if max =? 0 then None else Some max)
                   (if owner =? 0 then caller else owner) ext_ok;
        Ok (log (with_sft s x) c [L_tokenCreated; sc_next i] [], out [tU] [VN (sc_next i)])
    | _ => Err 98
    end.
  (** [mint], 908-950, and [mint_batch], 952-1011. *)
  Definition f_mint (s : pstate) (caller c : N) (call : list N) (ext_ok : bool) : result (pstate * list N) :=
    do! a <- read_args [tA; tU; tU] call;
    match a with
    | [VN to; VN id; VN amount] =>
        ensure! id <=? U32MAX else 1;
        ensure! amount <=? U128MAX else 9;
        do! x <- smint (p_sft s) caller c (truncate [(id, amount)]) to ext_ok;
        Ok (log (with_sft s x) c [L_single; caller; 0; to] (out [tU; tU] [VN id; VN amount]), [])
    | _ => Err 98
    end.
  Definition f_mint_batch (s : pstate) (caller c : N) (call : list N) (ext_ok : bool) : result (pstate * list N) :=
    do! a <- read_args [tA; tUs; tUs] call;
    match a with
    | [VN to; VL ids; VL amounts] =>
        ensure! Nat.eqb (length amounts) (length ids) else 2;
        ensure! all_le U32MAX (nums ids) else 1;
        ensure! all_le U128MAX (nums amounts) else 9;
        ensure! N.of_nat (length (combine (nums ids) (nums amounts))) <=? max_serials else 8;
        do! x <- smint (p_sft s) caller c (combine (nums ids) (nums amounts)) to ext_ok;
        Ok (log (with_sft s x) c [L_batch; caller; 0; to] (out [tUs; tUs] [VL ids; VL amounts]), [])
    | _ => Err 98
    end.
  (** [set_max_supply], 1013-1055. *)
  Definition f_set_max (s : pstate) (caller c : N) (call : list N) : result (pstate * list N) :=
    do! a <- read_args [tU; tU] call;
    match a with
    | [VN id; VN max] =>
        ensure! id <=? U32MAX else 1;
        ensure! max <=? U128MAX else 9;
        do! x <- sset_max (p_sft s) caller c id max;
        Ok (log (with_sft s x) c [L_maxSupply; max] [], [])
    | _ => Err 98
    end.
  (** [set_base_uri], 1057-1087, with [do_set_base_uri], impls.rs:369-384; [METADATA_SCHEME_LIMIT] is
      200. *)
  Definition f_set_base_uri (s : pstate) (caller c : N) (call : list N) : result (pstate * list N) :=
    do! a <- read_args [tBytes] call;
    match a with
    | [VB uri] =>
        ensure! nlen uri <=? 200 else 11;
        do! i <- of_opt (scolls (p_sft s) !! c) 10;
        ensure! sc_owner i =? caller else 12;
        let s' := PState (p_sft s) (p_appr s) (<[c := uri]> (p_uri s)) (p_fee s) (p_logs s) in
        Ok (log s' c [L_baseURI] (out [tBytes] [VB uri]), [])
    | _ => Err 98
    end.
  (** [toggle_public_mint], 1089-1121. *)
  Definition f_toggle (s : pstate) (caller c : N) (call : list N) : result (pstate * list N) :=
    do! a <- read_args [tU; tB] call;
    match a with
    | [VN id; VN on] =>
        ensure! id <=? U32MAX else 1;
        do! x <- sset_public (p_sft s) caller c id (on =? 1);
        Ok (log (with_sft s x) c [L_publicMint; id] (out [tB] [VN on]), [])
    | _ => Err 98
    end.
  (** [set_mint_fee], 1123-1167, with [set_mint_fee], /repo/pallet/sft/src/lib.rs:456-488.  The asset is
      bytes 4 to 8 of an address that starts with 0xCCCCCCCC. *)
  Definition asset_at (a : N) : option N := if a / 2 ^ 128 =? 0xcccccccc then Some (a / 2 ^ 96 mod 2 ^ 32) else None.
  Definition f_set_fee (s : pstate) (caller c : N) (call : list N) : result (pstate * list N) :=
    do! a <- read_args [tU; tA; tU] call;
    match a with
    | [VN id; VN asset; VN fee] =>
        ensure! id <=? U32MAX else 1;
        do! x <- of_opt (asset_at asset) 13;
        ensure! fee <=? U128MAX else 9;
        do! i <- of_opt (scolls (p_sft s) !! c) 10;
        ensure! sc_owner i =? caller else 12;
        let m := if fee =? 0 then delete (c, id) (p_fee s) else <[(c, id) := (x, fee)]> (p_fee s) in
        let s' := PState (p_sft s) (p_appr s) (p_uri s) m (p_logs s) in
        Ok (log s' c [L_mintFee; id; asset; fee] [], [])
    | _ => Err 98
    end.

  (** The match on the selector, 172-213. *)
  Definition dispatch_fn (sel : N) (s : pstate) (r : callee) (caller c : N) (call : list N) (ext_ok : bool) : result (pstate * list N) :=
    if sel =? S_balanceOf then f_balance_of s c call
    else if sel =? S_balanceOfBatch then f_balance_of_batch s c call
    else if sel =? S_setApprovalForAll then f_set_approval s caller c call
    else if sel =? S_isApprovedForAll then f_is_approved s c call
    else if sel =? S_safeTransferFrom then f_safe_transfer s r caller c call
    else if sel =? S_safeBatchTransferFrom then f_safe_batch_transfer s r caller c call
    else if sel =? S_burn then f_burn s caller c call
    else if sel =? S_burnBatch then f_burn_batch s caller c call
    else if sel =? S_totalSupply then f_total_supply s c call
    else if sel =? S_exists then f_exists s c call
    else if sel =? S_uri then f_uri s c call
    else if sel =? S_owner then f_owner s c
    else if sel =? S_renounceOwnership then f_set_owner s caller c 0
    else if sel =? S_transferOwnership then f_transfer_ownership s caller c call
    else if sel =? S_createToken then f_create_token s caller c call ext_ok
    else if sel =? S_mint then f_mint s caller c call ext_ok
    else if sel =? S_mintBatch then f_mint_batch s caller c call ext_ok
    else if sel =? S_setMaxSupply then f_set_max s caller c call
    else if sel =? S_setBaseURI then f_set_base_uri s caller c call
    else if sel =? S_togglePublicMint then f_toggle s caller c call
    else if sel =? S_setMintFee then f_set_fee s caller c call
    else Err 23.
  (** [execute], 143-217, of a call with the given caller, target collection, static flag, attached
      value and data; [r] is what the account the tokens go to does when called. *)
  Definition execute (s : pstate) (r : callee) (caller c : N) (static : bool) (value : N) (call : list N) (ext_ok : bool)
      : result (pstate * list N) :=
    do! _ <- of_opt (scolls (p_sft s) !! c) 20;
    do! sel <- read_selector call;
    ensure! negb (static && non_payable sel) else 21;
    ensure! value =? 0 else 22;
    dispatch_fn sel s r caller c call ext_ok.

  (** What happens on the chain: a call of the SFT pallet (extrinsics, and the marketplace's reserving
      and freeing), or an EVM call of a collection's precompile; if the receiver of the tokens is a
      contract, the operations its code performs when it is called, and its answer. *)
  Inductive pop :=
  | PSft (o : sop)
  | PCall (caller c : N) (static : bool) (value : N) (call : list N) (ext_ok : bool)
          (r : option (list pop * (N -> list N -> option (list N)))).
  Fixpoint pstep (s : pstate) (o : pop) {struct o} : pstate :=
    match o with
    | PSft o => with_sft s (commit (p_sft s) (sexec max_owners max_serials (p_sft s) o))
    | PCall caller c static value call ext_ok r =>
        let mid := match r with Some (ops, answer) => Some (fold_left (fun s o => pstep s o) ops s, answer) | None => None end in
        match execute s mid caller c static value call ext_ok with Ok (s', _) => s' | Err _ => s end
    end.
End erc1155.
