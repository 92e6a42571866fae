(** Creating collections: the NFT and SFT contracts of the EVM, [/repo/evm-precompiles/{nft,sft}/src/lib.rs], with
    [do_create_collection] of both pallets in full, on top of the ERC-721 and ERC-1155 views ([Erc721Model],
    [Erc1155Model]) and the byte-level ABI.  Running out of gas is not modelled: it reverts the call, as if it had not
    been made. *)
From Verif Require Export Erc721Model UtilsModel AbiProofs.

(** ** Selectors and log topics: keccak-256 of the signatures, nft 37-50 and sft 33-45, computed outside Coq *)
Definition K_initNft : N := 0xfe965bf7.
Definition K_initSft : N := 0x7e64e914.
Definition H_initNft : N := 0xa8db0f7372ffc5f434e96aab166931d6fe08f2871e60b39f3e9f7a4c31450506.
Definition H_initSft : N := 0x1314f5e2d70b720ec5951dfddec221d625a8fa6b4dfee3250be58a4443e35c0d.
(** [NFT_PRECOMPILE], [SFT_PRECOMPILE], /repo/evm-precompiles/utils/src/constants.rs:31-33. *)
Definition NFT_ADDR : N := 1721.
Definition SFT_ADDR : N := 1731.
(** [runtime_id_to_evm_id], /repo/runtime/src/impls.rs:285-298: the prefix, the id, twelve zero bytes. *)
Definition evm_addr (prefix id : N) : N := prefix * 2 ^ 128 + id * 2 ^ 96.

(** ** State *)
(** The two token pallets, the names of SFT collections, the royalties of both kinds ([royalties_schedule]), the NFT
    pallet's [NextCollectionId], and the logs of the two contracts. *)
Record cst := CSt {
  k_e : estate; k_p : pstate; k_sname : gmap N (list N);
  k_nroy : gmap N (list (N * N)); k_sroy : gmap N (list (N * N));
  k_next : N; k_logs : list elog }.
Definition klog (s : cst) (l : elog) : cst := CSt (k_e s) (k_p s) (k_sname s) (k_nroy s) (k_sroy s) (k_next s) (k_logs s ++ [l]).

(** [RoyaltiesSchedule::validate], /repo/primitives/src/nft.rs:93-98, with [MAX_ENTITLEMENTS] = 8; the sum is a u32. *)
Definition roy_sum (r : list (N * N)) : N := fold_left (fun a e => (a + snd e) mod 2 ^ 32) r 0.
Definition roy_valid (r : list (N * N)) : bool :=
  negb (Nat.eqb (length r) 0) && (N.of_nat (length r) <=? 8) && (roy_sum r <=? 1000000).
(** [Permill::from_parts]: at most one million parts. *)
Definition permill (n : N) : N := sat 1000000 (sat U32MAX n).

Section create.
  (** [MaxTokensPerCollection], [MintLimit]; [StringLimit] of both pallets; [ParachainId]; [core::str::from_utf8]. *)
  Variables cap mint_limit string_limit para : N.
  Variable utf8 : list N -> bool.

  Definition name_ok (name : list N) : bool := negb (Nat.eqb (length name) 0) && utf8 name.
  (** [MAX_COLLECTION_ENTITLEMENTS] = 6. *)
  Definition roy_ok (r : option (list (N * N))) : bool :=
    match r with None => true | Some l => (N.of_nat (length l) <=? 6) && roy_valid l end.
  Definition set_or {A} (c : N) (o : option A) (m : gmap N A) : gmap N A := match o with Some x => <[c := x]> m | None => delete c m end.
  (** [do_create_collection], /repo/pallet/nft/src/impls.rs:377-471. *)
  Definition nft_create (s : cst) (owner : N) (name : list N) (initial : N) (max : option N) (to : option N) (meta : list N)
      (roy : option (list (N * N))) (root xrpl : bool) : result (cst * N) :=
    do! id <- of_opt (next_asset_uuid (k_next s) para) 30;
    ensure! match max with Some m => (0 <? m) && (initial <=? m) && (m <=? cap) | None => true end else 20;
    ensure! name_ok name else 31;
    ensure! roy_ok roy else 32;
    ensure! (initial =? 0) || negb xrpl else 33;
    do! x <- NftModel.create cap mint_limit (e_nft (k_e s)) id owner initial max (default owner to) root;
    let e := EState x (<[id := name]> (e_name (k_e s))) (<[id := meta]> (e_uri (k_e s))) (e_fee (k_e s))
               (if xrpl then <[id := tt]> (e_xrpl (k_e s)) else delete id (e_xrpl (k_e s))) (e_logs (k_e s)) in
    Ok (CSt e (k_p s) (k_sname s) (set_or id roy (k_nroy s)) (k_sroy s) (wrap32 (k_next s + 1)) (k_logs s), id).
  (** [do_create_collection], /repo/pallet/sft/src/impls.rs:25-80. *)
  Definition sft_create (s : cst) (owner : N) (name meta : list N) (roy : option (list (N * N))) : result (cst * N) :=
    do! id <- of_opt (next_asset_uuid (k_next s) para) 30;
    ensure! name_ok name else 31;
    ensure! roy_ok roy else 32;
    do! x <- SftModel.screate (p_sft (k_p s)) id owner;
    ensure! k_next s + 1 <=? U32MAX else 30;
    let p := PState x (p_appr (k_p s)) (<[id := meta]> (p_uri (k_p s))) (p_fee (k_p s)) (p_logs (k_p s)) in
    Ok (CSt (k_e s) p (<[id := name]> (k_sname s)) (k_nroy s) (set_or id roy (k_sroy s)) (k_next s + 1) (k_logs s), id).

  (** The royalties of both contracts, nft 141-170 and sft 121-151. *)
  Definition royalties (addrs ents : list N) : result (option (list (N * N))) :=
    ensure! Nat.eqb (length addrs) (length ents) else 34;
    let l := combine addrs (map permill ents) in
    if Nat.eqb (length addrs) 0 then Ok None
    else (ensure! N.of_nat (length l) <=? 6 else 35; Ok (Some (firstn 8 l))).
  (** [initialize_collection], nft 101-218. *)
  Definition k_init_nft (s : cst) (call : list N) : result (cst * list N) :=
    do! l <- read_args [tA; tBytes; tU; tBytes; tAs; tUs] call;
    match l with
    | [VN owner; VB name; VN max; VB meta; VL addrs; VL ents] =>
        ensure! nlen name <=? string_limit else 11;
        ensure! max <=? U32MAX else 1;
        ensure! nlen meta <=? 200 else 36;
        do! roy <- royalties (nums addrs) (nums ents);
        do! r <- nft_create s owner name 0 (if max =? 0 then None else Some max) None meta roy true false;
        let a := evm_addr 0xaaaaaaaa (snd r) in
        Ok (klog (fst r) (Elog NFT_ADDR [H_initNft; owner] (out [tA] [VN a])), out [tA; tU] [VN a; VN (snd r)])
    | _ => Err 98
    end.
  (** [initialize_collection], sft 94-196. *)
  Definition k_init_sft (s : cst) (call : list N) : result (cst * list N) :=
    do! l <- read_args [tA; tBytes; tBytes; tAs; tUs] call;
    match l with
    | [VN owner; VB name; VB meta; VL addrs; VL ents] =>
        ensure! nlen name <=? string_limit else 11;
        ensure! nlen meta <=? 200 else 36;
        do! roy <- royalties (nums addrs) (nums ents);
        do! r <- sft_create s owner name meta roy;
        let a := evm_addr 0xbbbbbbbb (snd r) in
        Ok (klog (fst r) (Elog SFT_ADDR [H_initSft; owner; a] []), out [tA; tU] [VN a; VN (snd r)])
    | _ => Err 98
    end.
  (** [execute], nft 71-86 and sft 68-82. *)
  Definition k_execute (sel0 : N) (f : cst -> list N -> result (cst * list N)) (s : cst) (static : bool) (value : N) (call : list N)
      : result (cst * list N) :=
    do! sel <- read_selector call;
    ensure! sel =? sel0 else 23;
    ensure! negb static else 21;
    ensure! value =? 0 else 22;
    f s call.
  (** A call to one of the two contracts ([runtime/src/precompiles.rs:77-78]). *)
  Definition k_call (s : cst) (addr : N) (static : bool) (value : N) (call : list N) : result (cst * list N) :=
    if addr =? NFT_ADDR then k_execute K_initNft k_init_nft s static value call
    else if addr =? SFT_ADDR then k_execute K_initSft k_init_sft s static value call
    else Err 40.

  (** ** What happens: a collection is created, by extrinsic, by the bridge or by a call of one of the contracts; or
      anything else that leaves the existing collections existing and creates none (transfers, mints, burns, changes of
      owner, name, metadata or royalties, whatever they do). *)
  Inductive kop :=
  | KNft (owner : N) (name : list N) (initial : N) (max to : option N) (meta : list N) (roy : option (list (N * N))) (root xrpl : bool)
  | KSft (owner : N) (name meta : list N) (roy : option (list (N * N)))
  | KCall (addr : N) (static : bool) (value : N) (call : list N)
  | KElse (e : estate) (p : pstate) (names : gmap N (list N)) (nroy sroy : gmap N (list (N * N))).
  (** The types of the extrinsics' arguments: bounded names, metadata and royalties. *)
  Definition typed_args (name meta : list N) (roy : option (list (N * N))) : bool :=
    (nlen name <=? string_limit) && (nlen meta <=? 200) &&
    match roy with Some l => (N.of_nat (length l) <=? 8) && forallb (fun x => snd x <=? 1000000) l | None => true end.
  Definition keys {A} (m : gmap N A) : gmap N unit := (fun _ => tt) <$> m.
  Definition kstep (s : cst) (o : kop) : cst :=
    match o with
    | KNft owner name initial max to meta roy root xrpl =>
        if typed_args name meta roy then match nft_create s owner name initial max to meta roy root xrpl with Ok r => fst r | Err _ => s end else s
    | KSft owner name meta roy =>
        if typed_args name meta roy then match sft_create s owner name meta roy with Ok r => fst r | Err _ => s end else s
    | KCall addr static value call => match k_call s addr static value call with Ok r => fst r | Err _ => s end
    | KElse e p names nroy sroy =>
        if bool_decide (keys (colls (e_nft e)) = keys (colls (e_nft (k_e s)))) &&
           bool_decide (keys (scolls (p_sft p)) = keys (scolls (p_sft (k_p s))))
        then CSt e p names nroy sroy (k_next s) (k_logs s) else s
    end.
End create.
(** [NextCollectionId] starts at 1, nft lib.rs:103. *)
Definition kinit : cst := CSt einit pinit ∅ ∅ ∅ 1 [].
