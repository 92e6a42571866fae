(** The ERC-721 view of NFT collections, [/repo/evm-precompiles/erc721/src/lib.rs], on top of the token
    model ([NftModel]) and the byte-level ABI ([AbiModel]).  The vocabulary of arguments and logs is that
    of [Erc1155Model].  Running out of gas is not modelled: it reverts the call, as if it had not been
    made.  What the XLS-20 pallet does with the two calls passed on to it is an input. *)
From Verif Require Export NftModel Erc1155Model.

(** ** Selectors and log topics: keccak-256 of the signatures of 39-118, computed outside Coq *)
Definition Q_balanceOf : N := 0x70a08231.
Definition Q_ownerOf : N := 0x6352211e.
Definition Q_transferFrom : N := 0x23b872dd.
Definition Q_safeTransferFrom : N := 0x42842e0e.
Definition Q_safeTransferFromData : N := 0xb88d4fde.
Definition Q_approve : N := 0x095ea7b3.
Definition Q_getApproved : N := 0x081812fc.
Definition Q_isApprovedForAll : N := 0xe985e9c5.
Definition Q_setApprovalForAll : N := 0xa22cb465.
Definition Q_name : N := 0x06fdde03.
Definition Q_symbol : N := 0x95d89b41.
Definition Q_tokenURI : N := 0xc87b56dd.
Definition Q_owner : N := 0x8da5cb5b.
Definition Q_renounceOwnership : N := 0x715018a6.
Definition Q_transferOwnership : N := 0xf2fde38b.
Definition Q_burn : N := 0x42966c68.
Definition Q_totalSupply : N := 0x18160ddd.
Definition Q_mint : N := 0xd35e29d7.
Definition Q_setMaxSupply : N := 0xf9da3224.
Definition Q_setBaseURI : N := 0x55e42958.
Definition Q_ownedTokens : N := 0x048ed3f9.
Definition Q_togglePublicMint : N := 0x9b7c1c83.
Definition Q_setMintFee : N := 0x6d5c3a09.
Definition Q_onReceived : N := 0x150b7a02.
Definition Q_enableXls20 : N := 0x1d3f113a.
Definition Q_reRequestXls20 : N := 0x5d18f82d.
Definition Q_supportsInterface : N := 0x01ffc9a7.
Definition L_transfer : N := 0xddf252ad1be2c89b69c2b068fc378daa952ba7f163c4a11628f55a4df523b3ef.
Definition L_approve : N := 0x8c5be1e5ebec7d5bd14f71427d1e84f3dd0314c0f7b2291e5b200ac8c7c3b925.
Definition L_maxSupply721 : N := 0x3d50f4a7eb990ff80348b502cbdafc917fd8778fdacb1230638a7e5fb3666b4a.
Definition L_publicMint721 : N := 0xa81e445dac2343503dc87e4663774817434721db7d985310a6959766e6d4480e.
Definition L_mintFee721 : N := 0x9875cf5c0c9de2c86785a78b359684ed9616472668f0842d916d31e80da1c9fc.
Definition L_xls20 : N := 0x2a05b5c4c4fe0db03981d9260efed3c6b59c02d0034ab65ee437a59b67f104f2.
Definition L_xls20Mint : N := 0xc2c815ccf6d377ee7cc30c443806213ad932343867eb17781307494e228717ea.
(** [ERC165_INTERFACE_IDS], 71-79. *)
Definition interface_ids : list N := [0x01ffc9a7; 0x80ac58cd; 0x5b5e139f; 0x42966c68; 0x0e083076; 0x2a4288ec].

(** ** State *)
(** The NFT pallet's storage; [name] and [metadata_scheme] of each collection and the [pricing_details]
    of its [PublicMintInfo]; whether it is XLS-20 compatible; the logs of the Ethereum transactions. *)
Record estate := EState {
  e_nft : nft; e_name : gmap N (list N); e_uri : gmap N (list N); e_fee : gmap N (N * N);
  e_xrpl : gmap N unit; e_logs : list elog }.
Definition einit : estate := EState ninit ∅ ∅ ∅ ∅ [].
Definition with_nft (s : estate) (x : nft) : estate := EState x (e_name s) (e_uri s) (e_fee s) (e_xrpl s) (e_logs s).
(** [log0] … [log4] of [precompile_utils], then [record]. *)
Definition elogs (s : estate) (l : list elog) : estate :=
  EState (e_nft s) (e_name s) (e_uri s) (e_fee s) (e_xrpl s) (e_logs s ++ l).
Definition log721 (s : estate) (c : N) (topics data : list N) : estate := elogs s [Elog c topics data].

(** [owned_tokens], /repo/pallet/nft/src/impls.rs:322-374, with [MAX_OWNED_TOKENS_LIMIT] = 1000,
    lib.rs:72. *)
Definition owned_list (t : list (N * list N)) (who : N) : list N :=
  match List.find (fun e => fst e =? who) t with Some e => snd e | None => [] end.
Definition owned_tokens (s : nft) (c who cursor limit : N) : N * N * list N :=
  match colls s !! c with
  | None => (0, 0, [])
  | Some i =>
      let all := sort (owned_list (c_toks i) who) in
      let last_id := List.last all 0 in
      let response := firstn (N.to_nat (N.min limit 1000)) (List.filter (fun n => cursor <=? n) all) in
      let new_cursor := match response with
                        | [] => 0
                        | _ => let highest := List.last response 0 in
                               if negb (highest =? last_id) then sat U32MAX (highest + 1) else 0
                        end in
      (new_cursor, sat U32MAX (N.of_nat (length all)), response)
  end.

(** What happens when a call is made to an account, as in [Erc1155Model]. *)
Definition callee721 := option (estate * (N -> list N -> option (list N))).
Definition tU32s : ty := TVec U32MAX (TW (WUint U32MAX)).

Section erc721.
  (** [MaxTokensPerCollection], [MintLimit], the NFT pallet's account; [MaxTokensPerXls20Mint];
      [core::str::from_utf8]. *)
  Variable cap mint_limit pallet : N.
  Variable max_xls20 : N.
  Variable utf8 : list N -> bool.

  (** [check_function_modifier], 170-187: these are [NonPayable], everything else [View]. *)
  Definition non_payable721 (sel : N) : bool :=
    existsb (N.eqb sel)
      [Q_approve; Q_safeTransferFrom; Q_transferFrom; Q_safeTransferFromData; Q_setApprovalForAll; Q_setMaxSupply;
       Q_renounceOwnership; Q_transferOwnership; Q_setBaseURI; Q_enableXls20; Q_reRequestXls20; Q_togglePublicMint;
       Q_setMintFee; Q_mint].

  (** The functions that read one token id, e.g. 293-318: it has to be a u32. *)
  Definition g_by_id (s : estate) (call : list N) (k : N -> result (estate * list N)) : result (estate * list N) :=
    do! a <- read_args [tU] call;
    match a with
    | [VN id] => ensure! id <=? U32MAX else 1; k id
    | _ => Err 98
    end.
  (** [owner_of], 289-318. *)
  Definition g_owner_of (s : estate) (c : N) (call : list N) : result (estate * list N) :=
    g_by_id s call (fun id => do! o <- of_opt (owner_of (e_nft s) c id) 2; Ok (s, out [tA] [VN o])).
  (** [balance_of], 320-340. *)
  Definition balance721 (s : nft) (c who : N) : N :=
    match colls s !! c with Some i => token_balance (c_toks i) who | None => 0 end.
  Definition g_balance_of (s : estate) (c : N) (call : list N) : result (estate * list N) :=
    do! a <- read_args [tA] call;
    match a with
    | [VN who] => Ok (s, out [tU] [VN (balance721 (e_nft s) c who)])
    | _ => Err 98
    end.
  (** [transfer_from], 342-399. *)
  Definition g_transfer (s : estate) (caller c : N) (call : list N) : result (estate * list N) :=
    do! a <- read_args [tA; tA; tU] call;
    match a with
    | [VN from; VN to; VN id] =>
        ensure! id <=? U32MAX else 1;
        ensure! is_approved_or_owner (e_nft s) c id caller else 3;
        do! x <- do_transfer cap (e_nft s) c [id] from to;
        Ok (log721 (with_nft s x) c [L_transfer; from; to; id] [], [])
    | _ => Err 98
    end.
  (** The call of [onERC721Received], 467-494: [output[..4]] panics on a shorter answer. *)
  Definition accept721 (s : estate) (r : callee721) (sender : N) (input : list N) : result estate :=
    match r with
    | None => Ok s
    | Some (s1, answer) =>
        match answer sender input with
        | None => Err 4
        | Some o =>
            ensure! Nat.leb 4 (length o) else panic;
            ensure! of_be (firstn 4 o) =? Q_onReceived else 5;
            Ok s1
        end
    end.
  (** [do_safe_transfer], 439-522. *)
  Definition g_do_safe (s : estate) (r : callee721) (caller c from to id : N) (data : list N) : result (estate * list N) :=
    ensure! id <=? U32MAX else 1;
    ensure! is_approved_or_owner (e_nft s) c id caller else 3;
    do! s1 <- accept721 s r caller (build_call Q_onReceived [tA; tA; tU; tBytes] [VN from; VN to; VN id; VB data]);
    do! x <- do_transfer cap (e_nft s1) c [id] from to;
    Ok (log721 (with_nft s1 x) c [L_transfer; from; to; id] [], []).
  (** [safe_transfer_from], 401-418, and [safe_transfer_from_call_data], 420-437. *)
  Definition g_safe (s : estate) (r : callee721) (caller c : N) (call : list N) : result (estate * list N) :=
    do! a <- read_args [tA; tA; tU] call;
    match a with
    | [VN from; VN to; VN id] => g_do_safe s r caller c from to id []
    | _ => Err 98
    end.
  Definition g_safe_data (s : estate) (r : callee721) (caller c : N) (call : list N) : result (estate * list N) :=
    do! a <- read_args [tA; tA; tU; tBytes] call;
    match a with
    | [VN from; VN to; VN id; VB data] => g_do_safe s r caller c from to id data
    | _ => Err 98
    end.
  (** [approve], 524-573. *)
  Definition g_approve (s : estate) (caller c : N) (call : list N) : result (estate * list N) :=
    do! a <- read_args [tA; tU] call;
    match a with
    | [VN to; VN id] =>
        ensure! id <=? U32MAX else 1;
        do! x <- approve (e_nft s) caller to c id;
        Ok (log721 (with_nft s x) c [L_approve; caller; to; id] [], [])
    | _ => Err 98
    end.
  (** [get_approved], 575-601. *)
  Definition g_get_approved (s : estate) (c : N) (call : list N) : result (estate * list N) :=
    g_by_id s call (fun id => Ok (s, out [tA] [VN (default 0 (appr (e_nft s) !! (c, id)))])).
  (** [is_approved_for_all], 603-622. *)
  Definition g_is_approved (s : estate) (c : N) (call : list N) : result (estate * list N) :=
    do! a <- read_args [tA; tA] call;
    match a with
    | [VN owner; VN operator] => Ok (s, out [tB] [VN (b2n (is_operator (e_nft s) owner c operator))])
    | _ => Err 98
    end.
  (** [set_approval_for_all], 624-655. *)
  Definition g_set_approval (s : estate) (caller c : N) (call : list N) : result (estate * list N) :=
    do! a <- read_args [tA; tB] call;
    match a with
    | [VN operator; VN ok] =>
        do! x <- approve_all (e_nft s) caller operator c (ok =? 1);
        Ok (log721 (with_nft s x) c [L_approval; caller; operator] (out [tB] [VN ok]), [])
    | _ => Err 98
    end.
  (** [name], 657-671, and [symbol], 673-689, which answers the same. *)
  Definition g_name (s : estate) (c : N) : result (estate * list N) :=
    do! _ <- of_opt (colls (e_nft s) !! c) 10;
    Ok (s, out [tBytes] [VB (default [] (e_name s !! c))]).
  (** [token_uri], 691-717, with [construct_token_uri], /repo/primitives/src/nft.rs:63-68. *)
  Definition uri721 (s : estate) (c n : N) : list N :=
    let base := default [] (e_uri s !! c) in
    (if utf8 base then base else []) ++ digits 10 n.
  Definition g_token_uri (s : estate) (c : N) (call : list N) : result (estate * list N) :=
    g_by_id s call (fun id => Ok (s, out [tBytes] [VB (uri721 s c id)])).
  (** [total_supply], 719-733. *)
  Definition g_total_supply (s : estate) (c : N) : result (estate * list N) :=
    do! i <- of_opt (colls (e_nft s) !! c) 10;
    Ok (s, out [tU] [VN (c_iss i)]).
  (** [mint], 735-792. *)
  Definition g_mint (s : estate) (caller c : N) (call : list N) (ext_ok : bool) : result (estate * list N) :=
    do! a <- read_args [tA; tU] call;
    match a with
    | [VN to; VN q] =>
        ensure! q <=? U32MAX else 1;
        do! i <- of_opt (colls (e_nft s) !! c) 10;
        do! x <- mint cap mint_limit (e_nft s) caller c q to ext_ok;
        let ids := serials (c_next i) (sat U32MAX (c_next i + q) - c_next i) in
        Ok (elogs (with_nft s x) (map (fun n => Elog c [L_transfer; 0; to; n] []) ids), [])
    | _ => Err 98
    end.
  (** [set_max_supply], 794-827. *)
  Definition g_set_max (s : estate) (caller c : N) (call : list N) : result (estate * list N) :=
    do! a <- read_args [tU] call;
    match a with
    | [VN m] =>
        ensure! m <=? U32MAX else 1;
        do! x <- set_max (e_nft s) caller c m;
        Ok (log721 (with_nft s x) c [L_maxSupply721] (out [tU] [VN m]), [])
    | _ => Err 98
    end.
  (** [set_base_uri], 829-856, with [set_base_uri], /repo/pallet/nft/src/lib.rs:371-396; [origin_chain] is
      [c_root] and [METADATA_SCHEME_LIMIT] is 200. *)
  Definition g_set_base_uri (s : estate) (caller c : N) (call : list N) : result (estate * list N) :=
    do! a <- read_args [tBytes] call;
    match a with
    | [VB uri] =>
        do! i <- of_opt (colls (e_nft s) !! c) 10;
        ensure! c_owner i =? caller else 12;
        ensure! match e_xrpl s !! c with Some _ => false | None => true end else 13;
        ensure! c_root i else 13;
        ensure! nlen uri <=? 200 else 11;
        let s' := EState (e_nft s) (e_name s) (<[c := uri]> (e_uri s)) (e_fee s) (e_xrpl s) (e_logs s) in
        Ok (log721 s' c [L_baseURI] (out [tBytes] [VB uri]), [])
    | _ => Err 98
    end.
  (** [owned_tokens], 858-893. *)
  Definition g_owned (s : estate) (c : N) (call : list N) : result (estate * list N) :=
    do! a <- read_args [tA; tU; tU] call;
    match a with
    | [VN who; VN limit; VN cursor] =>
        ensure! limit <=? 65535 else 1;
        ensure! cursor <=? U32MAX else 1;
        let '(next, total, l) := owned_tokens (e_nft s) c who cursor limit in
        Ok (s, out [TW (WUint U32MAX); TW (WUint U32MAX); tU32s] [VN next; VN total; VL (map VN l)])
    | _ => Err 98
    end.
  (** [toggle_public_mint], 895-919, with [toggle_public_mint], /repo/pallet/nft/src/lib.rs:439-465. *)
  Definition g_toggle (s : estate) (caller c : N) (call : list N) : result (estate * list N) :=
    do! a <- read_args [tB] call;
    match a with
    | [VN on] =>
        do! i <- of_opt (colls (e_nft s) !! c) 10;
        do! x <- set_flags (e_nft s) caller c (on =? 1) (c_mintable i) (c_transferable i) (c_burnable i);
        Ok (log721 (with_nft s x) c [L_publicMint721] (out [tB] [VN on]), [])
    | _ => Err 98
    end.
  (** [set_mint_fee], 921-964, with [set_mint_fee], /repo/pallet/nft/src/lib.rs:469-505. *)
  Definition g_set_fee (s : estate) (caller c : N) (call : list N) : result (estate * list N) :=
    do! a <- read_args [tA; tU] call;
    match a with
    | [VN asset; VN fee] =>
        do! x <- of_opt (asset_at asset) 14;
        ensure! fee <=? U128MAX else 9;
        do! i <- of_opt (colls (e_nft s) !! c) 10;
        ensure! c_owner i =? caller else 12;
        let m := if fee =? 0 then delete c (e_fee s) else <[c := (x, fee)]> (e_fee s) in
        let s' := EState (e_nft s) (e_name s) (e_uri s) m (e_xrpl s) (e_logs s) in
        Ok (log721 s' c [L_mintFee721; asset; fee] [], [])
    | _ => Err 98
    end.
  (** [owner], 966-980. *)
  Definition g_owner (s : estate) (c : N) : result (estate * list N) :=
    do! i <- of_opt (colls (e_nft s) !! c) 10;
    Ok (s, out [tA] [VN (c_owner i)]).
  (** [renounce_ownership], 982-1013, and [transfer_ownership], 1015-1038. *)
  Definition g_set_owner (s : estate) (caller c new : N) : result (estate * list N) :=
    do! x <- set_owner (e_nft s) caller c new;
    Ok (log721 (with_nft s x) c [L_ownership; caller; new] [], out [tB] [VN 1]).
  Definition g_transfer_ownership (s : estate) (caller c : N) (call : list N) : result (estate * list N) :=
    do! a <- read_args [tA] call;
    match a with [VN new] => g_set_owner s caller c new | _ => Err 98 end.
  (** [burn], 1040-1095. *)
  Definition g_burn (s : estate) (caller c : N) (call : list N) : result (estate * list N) :=
    g_by_id s call (fun id =>
      ensure! is_approved_or_owner (e_nft s) c id caller else 3;
      do! o <- of_opt (owner_of (e_nft s) c id) 2;
      do! x <- do_burn (e_nft s) o c id;
      Ok (log721 (with_nft s x) c [L_transfer; o; 0; id] [], [])).
  (** [enable_xls20_compatibility], 1097-1116: the pallet's own checks are [ext_ok]. *)
  Definition g_enable (s : estate) (caller c : N) (ext_ok : bool) : result (estate * list N) :=
    ensure! ext_ok else 15;
    let s' := EState (e_nft s) (e_name s) (e_uri s) (e_fee s) (<[c := tt]> (e_xrpl s)) (e_logs s) in
    Ok (log721 s' c [L_xls20] [], out [tB] [VN 1]).
  (** [re_request_xls20_mint], 1118-1165: [BoundedVec::try_from(..).expect("Should not fail")] panics
      when the list is longer than [MaxTokensPerXls20Mint]. *)
  Definition g_re_request (s : estate) (caller c : N) (call : list N) (ext_ok : bool) : result (estate * list N) :=
    do! a <- read_args [tUs] call;
    match a with
    | [VL ids] =>
        ensure! all_le U32MAX (nums ids) else 1;
        ensure! N.of_nat (length ids) <=? max_xls20 else panic;
        ensure! ext_ok else 15;
        Ok (elogs s (map (fun n => Elog c [L_xls20Mint] (out [tU; tU] [VN c; VN n])) (nums ids)), out [tB] [VN 1])
    | _ => Err 98
    end.
  (** [supports_interface], 1167-1187: bytes 28 to 32 of the little-endian encoding, read as a
      little-endian u32. *)
  Definition g_supports (s : estate) (call : list N) : result (estate * list N) :=
    do! a <- read_args [tU] call;
    match a with
    | [VN x] =>
        let id := x / 2 ^ 224 in
        if id =? 0xffffffff then Ok (s, out [tB] [VN 0])
        else Ok (s, out [tB] [VN (b2n (existsb (N.eqb id) interface_ids))])
    | _ => Err 98
    end.

  (** The match on the selector, 189-241. *)
  Definition dispatch721 (sel : N) (s : estate) (r : callee721) (caller c : N) (call : list N) (ext_ok : bool) : result (estate * list N) :=
    if sel =? Q_ownerOf then g_owner_of s c call
    else if sel =? Q_balanceOf then g_balance_of s c call
    else if sel =? Q_approve then g_approve s caller c call
    else if sel =? Q_getApproved then g_get_approved s c call
    else if sel =? Q_transferFrom then g_transfer s caller c call
    else if sel =? Q_safeTransferFrom then g_safe s r caller c call
    else if sel =? Q_safeTransferFromData then g_safe_data s r caller c call
    else if sel =? Q_isApprovedForAll then g_is_approved s c call
    else if sel =? Q_setApprovalForAll then g_set_approval s caller c call
    else if sel =? Q_name then g_name s c
    else if sel =? Q_symbol then g_name s c
    else if sel =? Q_tokenURI then g_token_uri s c call
    else if sel =? Q_owner then g_owner s c
    else if sel =? Q_renounceOwnership then g_set_owner s caller c 0
    else if sel =? Q_transferOwnership then g_transfer_ownership s caller c call
    else if sel =? Q_burn then g_burn s caller c call
    else if sel =? Q_totalSupply then g_total_supply s c
    else if sel =? Q_mint then g_mint s caller c call ext_ok
    else if sel =? Q_setMaxSupply then g_set_max s caller c call
    else if sel =? Q_setBaseURI then g_set_base_uri s caller c call
    else if sel =? Q_ownedTokens then g_owned s c call
    else if sel =? Q_togglePublicMint then g_toggle s caller c call
    else if sel =? Q_setMintFee then g_set_fee s caller c call
    else if sel =? Q_enableXls20 then g_enable s caller c ext_ok
    else if sel =? Q_reRequestXls20 then g_re_request s caller c call ext_ok
    else if sel =? Q_supportsInterface then g_supports s call
    else Err 23.
  (** [execute], 158-247, of a call with the given caller, target collection, static flag, attached
      value and data; [r] is what the account the token goes to does when called. *)
  Definition execute721 (s : estate) (r : callee721) (caller c : N) (static : bool) (value : N) (call : list N) (ext_ok : bool)
      : result (estate * list N) :=
    do! _ <- of_opt (colls (e_nft s) !! c) 20;
    do! sel <- read_selector call;
    ensure! negb (static && non_payable721 sel) else 21;
    ensure! value =? 0 else 22;
    dispatch721 sel s r caller c call ext_ok.

  (** What happens on the chain: a call of the NFT and approvals pallets (extrinsics, the bridge, the
      marketplace's locks), [set_name] of the NFT pallet (lib.rs:617-640), or an EVM call of a collection's
      precompile; if the receiver of the token is a contract, the operations its code performs when it
      is called, and its answer. *)
  Inductive eop :=
  | ENft (o : nop)
  | EName (who c : N) (name : list N)
  | ECall (caller c : N) (static : bool) (value : N) (call : list N) (ext_ok : bool)
          (r : option (list eop * (N -> list N -> option (list N)))).
  Definition set_name (s : estate) (who c : N) (name : list N) : result estate :=
    do! i <- of_opt (colls (e_nft s) !! c) 10;
    ensure! c_owner i =? who else 12;
    ensure! negb (Nat.eqb (length name) 0) && utf8 name else 11;
    Ok (EState (e_nft s) (<[c := name]> (e_name s)) (e_uri s) (e_fee s) (e_xrpl s) (e_logs s)).
  Fixpoint estep (s : estate) (o : eop) {struct o} : estate :=
    match o with
    | ENft o => with_nft s (nstep cap mint_limit pallet (e_nft s) o)
    | EName who c name => commit s (set_name s who c name)
    | ECall caller c static value call ext_ok r =>
        let mid := match r with Some (ops, answer) => Some (fold_left (fun s o => estep s o) ops s, answer) | None => None end in
        match execute721 s mid caller c static value call ext_ok with Ok (s', _) => s' | Err _ => s end
    end.
End erc721.
