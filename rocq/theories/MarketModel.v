(** Model of the marketplace pallet ([/repo/pallet/marketplace/src/{impls,types,lib}.rs]) on top of
    the models of holds, NFTs and SFTs.  Events are not modelled.  The royalties schedule stored
    with a collection is an input of the calls that read it ([roy]). *)
From Verif Require Export NftModel SftModel HoldsModel.

(** [ListingTokens], types.rs:44-63. *)
Inductive tokens := LNft (c : N) (ns : list N) | LSft (c : N) (l : list (N * N)).
(** [Listing], types.rs:232-277; [l_price] is the fixed price or the reserve price. *)
Record listing := Listing {
  l_auction : bool; l_asset : N; l_price : N; l_close : N; l_buyer : option N; l_seller : N;
  l_toks : tokens; l_roy : list (N * N) }.
(** [SimpleOffer], types.rs:184-190. *)
Record offer := Offer { o_tok : N * N; o_asset : N; o_amount : N; o_buyer : N; o_market : option N }.

(** [Permill::ACCURACY] and [Permill * u128] of sp_arithmetic: nearest, halves down. *)
Definition ACC : N := 1000000.
Definition permill_mul (p x : N) : N :=
  let r := (x mod ACC) * p in
  (x / ACC) * p + r / ACC + (if ACC / 2 <? r mod ACC then 1 else 0).

(** [RoyaltiesSchedule::validate], primitives/src/nft.rs:93-98; the u32 sum wraps.
    [MAX_ENTITLEMENTS] is 8 (line 29). *)
Definition parts (r : list (N * N)) : N := sumL (map snd r).
Definition validate_roy (r : list (N * N)) : bool :=
  negb (Nat.eqb (length r) 0) && Nat.leb (length r) 8 && (parts r mod 2 ^ 32 <=? ACC).
(** [calculate_royalty_payouts], impls.rs:560-579 with [calculate_total_entitlement],
    primitives/src/nft.rs:101-109; [for_seller -= royalty] wraps. *)
Definition sub128 (x y : N) : N := (x + 2 ^ 128 - y mod 2 ^ 128) mod 2 ^ 128.
Definition royalties (r : list (N * N)) (amount : N) : list (N * N) :=
  if validate_roy r && negb (parts r mod 2 ^ 32 =? 0)
  then map (fun e => (fst e, wrap128 (permill_mul (snd e) amount))) r else [].
Definition payouts (seller : N) (r : list (N * N)) (amount : N) : list (N * N) :=
  let rs := royalties r amount in
  rs ++ [(seller, fold_left (fun acc e => sub128 acc (snd e)) rs amount)].

Section market.
  (** Vault and limit of assets-ext; pallet id, network fee (lib.rs:110), default duration and
      offer limit of the marketplace; limits of the token pallets. *)
  Variable vault : N.
  Variable max_holds : nat.
  Variable pid net_fee default_duration max_offers : N.
  Variable cap mint_limit nft_pallet max_owners max_serials : N.

  (** Storage, lib.rs:128-174; [m_end] is [ListingEndSchedule], keyed (block, listing).
      [OpenCollectionListings] is only written, never read, and is left out. *)
  Record mkt := Mkt {
    m_as : assets N; m_nft : nft; m_sft : sstate;
    m_list : gmap N listing; m_bid : gmap N (N * N);
    m_off : gmap N offer; m_toff : gmap (N * N) (list N);
    m_nl : N; m_no : N; m_end : gset (N * N); m_now : N;
    m_fee : option N; m_mk : gmap N (N * N); m_nm : N }.
  Definition minit (fee : option N) : mkt :=
    Mkt hinit ninit sinit ∅ ∅ ∅ ∅ 0 0 ∅ 0 fee ∅ 0.
  Definition set_as (s : mkt) (a : assets N) : mkt :=
    Mkt a (m_nft s) (m_sft s) (m_list s) (m_bid s) (m_off s) (m_toff s) (m_nl s) (m_no s) (m_end s) (m_now s) (m_fee s) (m_mk s) (m_nm s).
  Definition set_toks (s : mkt) (t : nft * sstate) : mkt :=
    Mkt (m_as s) (fst t) (snd t) (m_list s) (m_bid s) (m_off s) (m_toff s) (m_nl s) (m_no s) (m_end s) (m_now s) (m_fee s) (m_mk s) (m_nm s).
  Definition set_list (s : mkt) (l : gmap N listing) (e : gset (N * N)) : mkt :=
    Mkt (m_as s) (m_nft s) (m_sft s) l (m_bid s) (m_off s) (m_toff s) (m_nl s) (m_no s) e (m_now s) (m_fee s) (m_mk s) (m_nm s).
  Definition set_bid (s : mkt) (b : gmap N (N * N)) : mkt :=
    Mkt (m_as s) (m_nft s) (m_sft s) (m_list s) b (m_off s) (m_toff s) (m_nl s) (m_no s) (m_end s) (m_now s) (m_fee s) (m_mk s) (m_nm s).
  Definition set_off (s : mkt) (o : gmap N offer) (t : gmap (N * N) (list N)) : mkt :=
    Mkt (m_as s) (m_nft s) (m_sft s) (m_list s) (m_bid s) o t (m_nl s) (m_no s) (m_end s) (m_now s) (m_fee s) (m_mk s) (m_nm s).
  Definition set_ids (s : mkt) (nl no : N) : mkt :=
    Mkt (m_as s) (m_nft s) (m_sft s) (m_list s) (m_bid s) (m_off s) (m_toff s) nl no (m_end s) (m_now s) (m_fee s) (m_mk s) (m_nm s).
  Definition toks_of (s : mkt) : nft * sstate := (m_nft s, m_sft s).

  (** [ListingTokens::validate], types.rs:69-84. *)
  Definition toks_valid (t : tokens) : bool :=
    match t with
    | LNft _ ns => negb (Nat.eqb (length ns) 0)
    | LSft _ l => negb (Nat.eqb (length l) 0) && forallb (fun e => negb (snd e =? 0)) l
    end.
  (** [lock_tokens], types.rs:96-116. *)
  Fixpoint lock_all (s : nft) (who c lid : N) (ns : list N) : result nft :=
    match ns with [] => Ok s | n :: ns' => do! s' <- lock s who c n lid; lock_all s' who c lid ns' end.
  Fixpoint reserve_all (s : sstate) (who c : N) (l : list (N * N)) : result sstate :=
    match l with [] => Ok s | (n, x) :: l' => do! s' <- sreserve s who c n x; reserve_all s' who c l' end.
  Definition lock_tokens (t : nft * sstate) (tk : tokens) (who lid : N) : result (nft * sstate) :=
    match tk with
    | LNft c ns => do! s <- lock_all (fst t) who c lid ns; Ok (s, snd t)
    | LSft c l => do! s <- reserve_all (snd t) who c l; Ok (fst t, s)
    end.
  (** [unlock_tokens], types.rs:119-135: the state reached, and whether every step succeeded. *)
  Definition unlock_all (s : nft) (c : N) (ns : list N) : nft := fold_left (fun s n => unlock s c n) ns s.
  Fixpoint free_all (s : sstate) (who c : N) (l : list (N * N)) : sstate * bool :=
    match l with
    | [] => (s, true)
    | (n, x) :: l' => match sfree s who c n x with Ok s' => free_all s' who c l' | Err _ => (s, false) end
    end.
  Definition unlock_tokens (t : nft * sstate) (tk : tokens) (who : N) : (nft * sstate) * bool :=
    match tk with
    | LNft c ns => ((unlock_all (fst t) c ns, snd t), true)
    | LSft c l => let (s, ok) := free_all (snd t) who c l in ((fst t, s), ok)
    end.
  (** [unlock_and_transfer], types.rs:139-167 (called in transactions only). *)
  Definition unlock_and_transfer (t : nft * sstate) (tk : tokens) (from to : N) : result (nft * sstate) :=
    match tk with
    | LNft c ns =>
        ensure! negb (Nat.eqb (length ns) 0) else 50;
        do! s <- do_transfer cap (unlock_all (fst t) c ns) c ns from to; Ok (s, snd t)
    | LSft c l =>
        let (s, ok) := free_all (snd t) from c l in
        ensure! ok else 51;
        do! s' <- stransfer max_owners max_serials s from c l to; Ok (fst t, s')
    end.

  (** [calculate_bundle_royalties], impls.rs:586-622.  [roy]: answer of
      [get_royalties_schedule] ([None]: no such collection). *)
  Definition push8 (r : list (N * N)) (e : N * N) : result (list (N * N)) :=
    if Nat.ltb (length r) 8 then Ok (r ++ [e]) else Err 52.
  Definition bundle_royalties (s : mkt) (roy : option (list (N * N))) (market : option N) : result (list (N * N)) :=
    do! r0 <- of_opt roy 53;
    do! r1 <- match m_fee s with Some f => push8 r0 (f, net_fee) | None => Ok r0 end;
    do! r2 <- match market with
              | Some m => do! e <- of_opt (m_mk s !! m) 54; push8 r1 e
              | None => Ok r1
              end;
    ensure! Nat.eqb (length r2) 0 || validate_roy r2 else 52;
    Ok r2.
  (** [get_listing_end_block], impls.rs:633-644. *)
  Definition end_block (s : mkt) (duration : option N) : result N :=
    do! d <- match duration with
             | Some d => ensure! 0 <? d else 55; Ok d
             | None => Ok default_duration
             end;
    Ok (sat U32MAX (m_now s + d)).

  (** The common part of [do_sell], impls.rs:49-92, and [do_auction], 171-212.  [checked]: only
      [do_auction] checks the id; in [do_sell] the increment wraps. *)
  Definition open_listing (s : mkt) (checked : bool) (who : N) (tk : tokens) (buyer : option N)
      (asset price : N) (duration market : option N) (roy : option (list (N * N))) : result mkt :=
    ensure! toks_valid tk else 50;
    do! r <- bundle_royalties s roy market;
    let lid := m_nl s in
    ensure! negb checked || (lid <? U128MAX) else 56;
    do! t <- lock_tokens (toks_of s) tk who lid;
    do! e <- end_block s duration;
    let l := Listing checked asset price e buyer who tk r in
    let s1 := set_list (set_toks s t) (<[lid := l]> (m_list s)) ({[(e, lid)]} ∪ m_end s) in
    Ok (set_ids s1 (wrap128 (lid + 1)) (m_no s)).
  Definition do_sell s who tk buyer asset price duration market roy :=
    open_listing s false who tk buyer asset price duration market roy.
  Definition do_auction s who tk asset price duration market roy :=
    open_listing s true who tk None asset price duration market roy.

  (** [do_update_fixed_price], impls.rs:94-114. *)
  Definition update_price (s : mkt) (who lid price : N) : result mkt :=
    do! l <- of_opt (m_list s !! lid) 57;
    ensure! negb (l_auction l) else 57;
    ensure! l_seller l =? who else 58;
    Ok (set_list s (<[lid := Listing false (l_asset l) price (l_close l) (l_buyer l) (l_seller l) (l_toks l) (l_roy l)]> (m_list s)) (m_end s)).

  (** [remove_listing], impls.rs:462-476. *)
  Definition remove_listing (s : mkt) (l : listing) (lid : N) : mkt :=
    set_list s (delete lid (m_list s)) (m_end s ∖ {[(l_close l, lid)]}).

  (** [do_buy], impls.rs:132-168. *)
  Definition do_buy (s : mkt) (who lid : N) : result mkt :=
    do! l <- of_opt (m_list s !! lid) 57;
    ensure! negb (l_auction l) else 57;
    ensure! match l_buyer l with Some b => who =? b | None => true end else 59;
    let s1 := remove_listing s l lid in
    do! a <- on_ledger (m_as s1) (split_transfer (al (m_as s1)) who (l_asset l) (payouts (l_seller l) (l_roy l) (l_price l)));
    do! t <- unlock_and_transfer (toks_of s1) (l_toks l) (l_seller l) who;
    Ok (set_toks (set_as s1 a) t).
  (** [buy_multi], lib.rs:464-474. *)
  Fixpoint buy_multi (s : mkt) (who : N) (lids : list N) : result mkt :=
    match lids with [] => Ok s | lid :: ls => do! s' <- do_buy s who lid; buy_multi s' who ls end.

  (** [do_bid], impls.rs:214-265; [AUCTION_EXTENSION_PERIOD] is 40 (types.rs:32). *)
  Definition do_bid (s : mkt) (who lid amount : N) : result mkt :=
    do! l <- of_opt (m_list s !! lid) 60;
    ensure! l_auction l else 60;
    ensure! match m_bid s !! lid with
            | Some b => snd b <? amount
            | None => l_price l <=? amount
            end else 61;
    do! a <- place_hold vault max_holds (m_as s) pid who (l_asset l) amount;
    do! a' <- match m_bid s !! lid with
              | Some b => release_hold vault a pid (fst b) (l_asset l) (snd b)
              | None => Ok a
              end;
    let s1 := set_bid (set_as s a') (<[lid := (who, amount)]> (m_bid s)) in
    let till := (l_close l + 2 ^ 32 - m_now s) mod 2 ^ 32 in
    if till <=? 40 then
      let new := (m_now s + 40) mod 2 ^ 32 in
      let l' := Listing true (l_asset l) (l_price l) new (l_buyer l) (l_seller l) (l_toks l) (l_roy l) in
      Ok (set_list s1 (<[lid := l']> (m_list s)) ({[(new, lid)]} ∪ (m_end s ∖ {[(l_close l, lid)]})))
    else Ok s1.

  (** [do_cancel_sale], impls.rs:267-298. *)
  Definition do_cancel (s : mkt) (who lid : N) : result mkt :=
    do! l <- of_opt (m_list s !! lid) 62;
    ensure! l_seller l =? who else 58;
    ensure! negb (l_auction l) || bool_decide (m_bid s !! lid = None) else 63;
    let (t, ok) := unlock_tokens (toks_of s) (l_toks l) who in
    ensure! ok else 51;
    Ok (remove_listing (set_toks s t) l lid).

  (** [do_make_simple_offer], impls.rs:300-344. *)
  Definition make_offer (s : mkt) (who : N) (tok : N * N) (amount asset : N) (market : option N) : result mkt :=
    ensure! negb (amount =? 0) else 64;
    do! y <- of_opt (owner_of (m_nft s) (fst tok) (snd tok)) 65;
    ensure! negb (y =? who) else 66;
    let oid := m_no s in
    ensure! oid <? U64MAX else 56;
    ensure! match locks (m_nft s) !! tok with
            | Some lid => match m_list s !! lid with Some l => negb (l_auction l) | None => true end
            | None => true
            end else 67;
    do! a <- place_hold vault max_holds (m_as s) pid who asset amount;
    let os := default [] (m_toff s !! tok) in
    ensure! N.of_nat (length os) <? max_offers else 68;
    Ok (set_ids (set_off (set_as s a) (<[oid := Offer tok asset amount who market]> (m_off s)) (<[tok := os ++ [oid]]> (m_toff s)))
          (m_nl s) (oid + 1)).

  (** [remove_offer], impls.rs:416-430.  The binary search is replaced by a search: ids are
      appended in increasing order. *)
  Definition remove_offer (s : mkt) (oid : N) (tok : N * N) : result mkt :=
    match m_toff s !! tok with
    | None => Ok (set_off s (delete oid (m_off s)) (m_toff s))
    | Some os =>
        ensure! existsb (N.eqb oid) os else 69;
        let os' := List.filter (fun i => negb (i =? oid)) os in
        Ok (set_off s (delete oid (m_off s))
              (match os' with [] => delete tok (m_toff s) | _ => <[tok := os']> (m_toff s) end))
    end.
  (** [do_cancel_offer], impls.rs:346-359. *)
  Definition cancel_offer (s : mkt) (who oid : N) : result mkt :=
    do! o <- of_opt (m_off s !! oid) 70;
    ensure! o_buyer o =? who else 59;
    do! a <- release_hold vault (m_as s) pid who (o_asset o) (o_amount o);
    remove_offer (set_as s a) oid (o_tok o).

  (** [process_payment_and_transfer], impls.rs:543-557. *)
  Definition settle (s : mkt) (buyer seller asset : N) (tk : tokens) (amount : N) (r : list (N * N)) : result mkt :=
    do! a <- spend_hold vault (m_as s) pid buyer asset (payouts seller r amount);
    do! t <- unlock_and_transfer (toks_of s) tk seller buyer;
    Ok (set_toks (set_as s a) t).
  (** [do_accept_offer], impls.rs:361-413. *)
  Definition accept_offer (s : mkt) (who oid : N) (roy : option (list (N * N))) : result mkt :=
    do! o <- of_opt (m_off s !! oid) 70;
    let (c, n) := o_tok o in
    ensure! bool_decide (owner_of (m_nft s) c n = Some who) else 71;
    let s1 := match locks (m_nft s) !! (c, n) with
              | Some lid => match m_list s !! lid with
                            | Some l => remove_listing s l lid
                            | None => s
                            end
              | None => s
              end in
    do! r <- bundle_royalties s1 roy (o_market o);
    do! s2 <- settle s1 (o_buyer o) who (o_asset o) (LNft c [n]) (o_amount o) r;
    remove_offer s2 oid (o_tok o).

  (** [process_auction_closure], impls.rs:479-536. *)
  Definition close_auction (s : mkt) (l : listing) (lid : N) : mkt :=
    let s1 := set_bid s (delete lid (m_bid s)) in
    match m_bid s !! lid with
    | None => set_toks s1 (fst (unlock_tokens (toks_of s1) (l_toks l) (l_seller l)))
    | Some (winner, price) =>
        match settle s1 winner (l_seller l) (l_asset l) (l_toks l) price (l_roy l) with
        | Ok s2 => s2
        | Err _ => set_as s1 (commit (m_as s1) (release_hold vault (m_as s1) pid winner (l_asset l) price))
        end
    end.
  (** One iteration of [close_listings_at], impls.rs:435-459. *)
  Definition close_one (s : mkt) (lid : N) : mkt :=
    match m_list s !! lid with
    | None => s
    | Some l =>
        let s1 := remove_listing s l lid in
        if l_auction l then close_auction s1 l lid
        else set_toks s1 (fst (unlock_tokens (toks_of s1) (l_toks l) (l_seller l)))
    end.
  (** A new block: [on_initialize], lib.rs:328-335.  [order]: the order in which the storage
      iterator visits the listings scheduled for this block (hash order). *)
  Definition new_block (s : mkt) (order : list N) : mkt :=
    let now := m_now s + 1 in
    let s1 := Mkt (m_as s) (m_nft s) (m_sft s) (m_list s) (m_bid s) (m_off s) (m_toff s) (m_nl s) (m_no s) (m_end s) now (m_fee s) (m_mk s) (m_nm s) in
    let due := List.filter (fun lid => bool_decide ((now, lid) ∈ m_end s)) order in
    let s2 := fold_left close_one due s1 in
    set_list s2 (m_list s2) (filter (fun e : N * N => fst e <> now) (m_end s2)).

  (** [do_register_marketplace], impls.rs:25-46, and [do_set_fee_to], 624-628. *)
  Definition register (s : mkt) (account part : N) : result mkt :=
    ensure! part <=? ACC else 52;
    ensure! m_nm s <? U32MAX else 56;
    Ok (Mkt (m_as s) (m_nft s) (m_sft s) (m_list s) (m_bid s) (m_off s) (m_toff s) (m_nl s) (m_no s) (m_end s) (m_now s)
          (m_fee s) (<[m_nm s := (account, part)]> (m_mk s)) (m_nm s + 1)).
  Definition set_fee (s : mkt) (f : option N) : mkt :=
    Mkt (m_as s) (m_nft s) (m_sft s) (m_list s) (m_bid s) (m_off s) (m_toff s) (m_nl s) (m_no s) (m_end s) (m_now s)
      f (m_mk s) (m_nm s).

  (** Operations.  The last three stand for everything else that happens to assets and tokens. *)
  Inductive mop :=
  | MSell (who : N) (tk : tokens) (buyer : option N) (asset price : N) (duration market : option N) (roy : option (list (N * N)))
  | MAuction (who : N) (tk : tokens) (asset price : N) (duration market : option N) (roy : option (list (N * N)))
  | MUpdate (who lid price : N)
  | MBuy (who lid : N)
  | MBuyMulti (who : N) (lids : list N)
  | MBid (who lid amount : N)
  | MCancel (who lid : N)
  | MOffer (who : N) (tok : N * N) (amount asset : N) (market : option N)
  | MCancelOffer (who oid : N)
  | MAccept (who oid : N) (roy : option (list (N * N)))
  | MBlock (order : list N)
  | MRegister (account part : N)
  | MFee (f : option N)
  | MAssets (o : hop N)
  | MNft (o : nop)
  | MSft (o : sop).
  Definition mexec (s : mkt) (o : mop) : result mkt :=
    match o with
    | MSell who tk b a p d m r => do_sell s who tk b a p d m r
    | MAuction who tk a p d m r => do_auction s who tk a p d m r
    | MUpdate who lid p => update_price s who lid p
    | MBuy who lid => do_buy s who lid
    | MBuyMulti who lids => buy_multi s who lids
    | MBid who lid v => do_bid s who lid v
    | MCancel who lid => do_cancel s who lid
    | MOffer who tok v a m => make_offer s who tok v a m
    | MCancelOffer who oid => cancel_offer s who oid
    | MAccept who oid r => accept_offer s who oid r
    | MBlock order => Ok (new_block s order)
    | MRegister a p => register s a p
    | MFee f => Ok (set_fee s f)
    | MAssets o => do! a <- hexec vault max_holds (m_as s) o; Ok (set_as s a)
    | MNft o => do! n <- nexec cap mint_limit nft_pallet (m_nft s) o; Ok (set_toks s (n, m_sft s))
    | MSft o => do! t <- sexec max_owners max_serials (m_sft s) o; Ok (set_toks s (m_nft s, t))
    end.
  Definition mstep (s : mkt) (o : mop) : mkt := commit s (mexec s o).
End market.
