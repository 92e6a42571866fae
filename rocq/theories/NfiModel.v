(** NFI data attached to tokens: fees, requests, storage.
    Code: /repo/pallet/nfi/src/lib.rs; the callers in pallet/nft/src/lib.rs 517-583 ([mint]),
    pallet/nft/src/impls.rs 474-504 ([do_burn]) and pallet/sft/src/impls.rs 79-137 ([do_create_token]).
    There is one [NFISubType] (types.rs 26-28), so the second storage key is left out. *)
From Verif Require Import Ledger NftModel.
From Verif Require Export MarketModel.

(** [GenericCollectionId] / [GenericSerialNumber]: the U32 form and the other forms. *)
Inductive gid := GU32 (n : N) | GOther (n : N).
#[global] Instance gid_eq_dec : EqDecision gid.
Proof. solve_decision. Defined.
#[global] Instance gid_countable : Countable gid.
Proof.
  refine (inj_countable' (fun g => match g with GU32 n => inl n | GOther n => inr n end)
            (fun x => match x with inl n => GU32 n | inr n => GOther n end) _). intros []; reflexivity.
Defined.
(** [MultiChainTokenId]: chain, collection, serial. *)
Definition mtoken : Type := N * gid * gid.

(** Storage (lib.rs 79-112), the two token pallets as far as they matter, the ledger and the
    trace of [DataRequestNew]/[DataRequestExisting] events. *)
Record nfi := Nfi {
  f_nft : nft;
  f_sft : gmap (N * N) unit;            (* SFT tokens that exist; they are never removed *)
  f_sowner : gmap N (N * N);            (* SFT collections: owner, next serial *)
  f_led : ledger N;
  f_relayer : option N;
  f_fee : option (N * N * N);           (* MintFee: asset, amount, receiver *)
  f_to : option N;                      (* FeeTo *)
  f_on : gmap (N * gid) bool;           (* NfiEnabled *)
  f_data : gmap mtoken N;               (* NfiData *)
  f_req : list (N * mtoken)
}.

Section nfi.
  Variables cap mint_limit pallet : N.   (* of the NFT pallet *)
  Variable chain : N.                    (* ChainId *)
  Variable pct : N.                      (* NetworkFeePercentage in millionths; at most [ACC] *)

  (** [pay_mint_fee], lib.rs 318-360. *)
  Definition pay_mint_fee (s : nfi) (who count : N) : result nfi :=
    match f_fee s with
    | None => Ok s
    | Some (asset, amount, receiver) =>
        let total := sat U128MAX (count * amount) in
        do! lr <- match f_to s with
                  | None => Ok (f_led s, total)
                  | Some pot =>
                      let net := permill_mul pct total in
                      do! l <- transfer (f_led s) asset who pot net;
                      Ok (l, total - net)
                  end;
        do! l2 <- transfer (fst lr) asset who receiver (snd lr);
        Ok (Nfi (f_nft s) (f_sft s) (f_sowner s) l2 (f_relayer s) (f_fee s) (f_to s) (f_on s) (f_data s) (f_req s))
    end.
  (** [send_data_request], lib.rs 363-375, for a list of tokens. *)
  Definition ask (s : nfi) (who : N) (ts : list mtoken) : nfi :=
    Nfi (f_nft s) (f_sft s) (f_sowner s) (f_led s) (f_relayer s) (f_fee s) (f_to s) (f_on s) (f_data s)
      (f_req s ++ map (fun t => (who, t)) ts).
  Definition trn (c n : N) : mtoken := (chain, GU32 c, GU32 n).
  Definition enabled (s : nfi) (g : gid) : bool := default false (f_on s !! (chain, g)).
  (** [NFIRequest::request], lib.rs 424-446. *)
  Definition request (s : nfi) (who c : N) (ns : list N) : result nfi :=
    if enabled s (GU32 c) then
      do! s1 <- pay_mint_fee s who (N.of_nat (length ns));
      Ok (ask s1 who (map (trn c) ns))
    else Ok s.
  (** [on_burn], lib.rs 449-461. *)
  Definition with_data (s : nfi) (d : gmap mtoken N) : nfi :=
    Nfi (f_nft s) (f_sft s) (f_sowner s) (f_led s) (f_relayer s) (f_fee s) (f_to s) (f_on s) d (f_req s).
  Definition with_nft (s : nfi) (x : nft) : nfi :=
    Nfi x (f_sft s) (f_sowner s) (f_led s) (f_relayer s) (f_fee s) (f_to s) (f_on s) (f_data s) (f_req s).
  Definition on_burn (s : nfi) (c n : N) : nfi := with_data s (delete (trn c n) (f_data s)).

  (** [is_collection_owner], lib.rs 379-387. *)
  Definition is_collection_owner (s : nfi) (c who : N) : bool :=
    match colls (f_nft s) !! c with
    | Some i => who =? c_owner i
    | None => match f_sowner s !! c with Some o => who =? fst o | None => false end
    end.
  (** [check_permissions], lib.rs 393-407. *)
  Definition check_permissions (s : nfi) (c n who : N) : bool :=
    match owner_of (f_nft s) c n with
    | Some o => (who =? o) || match colls (f_nft s) !! c with Some i => who =? c_owner i | None => false end
    | None => match f_sowner s !! c with Some o => who =? fst o | None => false end
    end.
  (** [token_exists], lib.rs 410-415. *)
  Definition nfi_token_exists (s : nfi) (c n : N) : bool :=
    bool_decide (is_Some (owner_of (f_nft s) c n)) || bool_decide (is_Some (f_sft s !! (c, n))).

  (** [enable_nfi_for_trn_collection], lib.rs 225-237. *)
  Definition enable (s : nfi) (who c : N) : result nfi :=
    ensure! is_collection_owner s c who else 1;
    Ok (Nfi (f_nft s) (f_sft s) (f_sowner s) (f_led s) (f_relayer s) (f_fee s) (f_to s)
          (<[(chain, GU32 c) := true]> (f_on s)) (f_data s) (f_req s)).
  (** [manual_data_request], lib.rs 249-276. *)
  Definition manual (s : nfi) (who : N) (t : mtoken) : result nfi :=
    let '(ch, gc, gs) := t in
    do! _ <- (if ch =? chain then
                ensure! enabled s gc else 2;
                match gc, gs with
                | GU32 c, GU32 n => ensure (check_permissions s c n who) 4
                | _, _ => Err 3
                end
              else Ok tt);
    do! s1 <- pay_mint_fee s who 1;
    Ok (ask s1 who [t]).
  (** [submit_nfi_data], lib.rs 286-312. *)
  Definition submit (s : nfi) (who : N) (t : mtoken) (d : N) : result nfi :=
    let '(ch, gc, gs) := t in
    ensure! bool_decide (Some who = f_relayer s) else 5;
    do! _ <- (if ch =? chain then
                ensure! enabled s gc else 2;
                match gc, gs with
                | GU32 c, GU32 n => ensure (nfi_token_exists s c n) 6
                | _, _ => Err 3
                end
              else Ok tt);
    Ok (with_data s (<[t := d]> (f_data s))).
  (** [set_relayer], [set_fee_to], [set_fee_details] (root), lib.rs 178-218. *)
  Definition set_relayer (s : nfi) (r : N) : nfi :=
    Nfi (f_nft s) (f_sft s) (f_sowner s) (f_led s) (Some r) (f_fee s) (f_to s) (f_on s) (f_data s) (f_req s).
  Definition set_fee_to (s : nfi) (t : option N) : nfi :=
    Nfi (f_nft s) (f_sft s) (f_sowner s) (f_led s) (f_relayer s) (f_fee s) t (f_on s) (f_data s) (f_req s).
  Definition set_fee (s : nfi) (f : option (N * N * N)) : result nfi :=
    ensure! match f with Some (_, a, _) => negb (a =? 0) | None => true end else 7;
    Ok (Nfi (f_nft s) (f_sft s) (f_sowner s) (f_led s) (f_relayer s) f (f_to s) (f_on s) (f_data s) (f_req s)).

  (** Operations of the NFT pallet with their calls into this one. *)
  Definition nft_op (s : nfi) (o : nop) : result nfi :=
    do! x <- nexec cap mint_limit pallet (f_nft s) o;
    let s1 := with_nft s x in
    match o with
    | NMint who c q _ _ =>
        match colls (f_nft s) !! c with
        | Some i => request s1 who c (serials (c_next i) q)
        | None => Ok s1
        end
    | NBurn _ c n | NBurnFrom _ c n => Ok (on_burn s1 c n)
    | _ => Ok s1
    end.
  (** [create_collection] and [do_create_token] of the SFT pallet (only what matters here). *)
  Definition sft_create (s : nfi) (who c : N) : result nfi :=
    ensure! bool_decide (f_sowner s !! c = None) else 8;
    Ok (Nfi (f_nft s) (f_sft s) (<[c := (who, 0)]> (f_sowner s)) (f_led s) (f_relayer s) (f_fee s) (f_to s) (f_on s) (f_data s) (f_req s)).
  Definition sft_token (s : nfi) (who c : N) : result nfi :=
    do! o <- of_opt (f_sowner s !! c) 9;
    ensure! who =? fst o else 10;
    do! next <- of_opt (chk_add U32MAX (snd o) 1) 11;
    do! s1 <- request s who c [snd o];
    Ok (Nfi (f_nft s1) (<[(c, snd o) := tt]> (f_sft s1)) (<[c := (fst o, next)]> (f_sowner s1)) (f_led s1) (f_relayer s1)
          (f_fee s1) (f_to s1) (f_on s1) (f_data s1) (f_req s1)).

  Inductive fop :=
  | FNft (o : nop) | FSftCreate (who c : N) | FSftToken (who c : N)
  | FEnable (who c : N) | FManual (who : N) (t : mtoken) | FSubmit (who : N) (t : mtoken) (d : N)
  | FRelayer (r : N) | FFeeTo (t : option N) | FFee (f : option (N * N * N)) | FLedger (l : ledger N).
  Definition fstep (s : nfi) (o : fop) : nfi :=
    match o with
    | FNft n => commit s (nft_op s n)
    | FSftCreate who c => commit s (sft_create s who c)
    | FSftToken who c => commit s (sft_token s who c)
    | FEnable who c => commit s (enable s who c)
    | FManual who t => commit s (manual s who t)
    | FSubmit who t d => commit s (submit s who t d)
    | FRelayer r => set_relayer s r
    | FFeeTo t => set_fee_to s t
    | FFee f => commit s (set_fee s f)
    | FLedger l => Nfi (f_nft s) (f_sft s) (f_sowner s) l (f_relayer s) (f_fee s) (f_to s) (f_on s) (f_data s) (f_req s)
    end.
  Definition finit : nfi := Nfi ninit ∅ ∅ empty_ledger None None None ∅ ∅ [].
End nfi.
