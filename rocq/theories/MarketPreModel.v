(** The marketplace's EVM contract, [/repo/evm-precompiles/marketplace/src/lib.rs], on top of the marketplace
    model ([MarketModel]) and the byte-level ABI ([AbiModel]).  The vocabulary of arguments and logs is that of
    [Erc1155Model].  Running out of gas is not modelled: it reverts the call, as if it had not been made.  The
    pause filter that [try_dispatch] asks is that of [MaintModel] and left out here. *)
From Verif Require Export Erc1155Model MarketModel.

(** ** Selectors and log topics: keccak-256 of the signatures of 42-90 and 104-135, computed outside Coq *)
Definition Z_registerMarketplace : N := 0xb170c834.
Definition Z_sellNftWithMarketplaceId : N := 0x580ae278.
Definition Z_sellNft : N := 0x9b3808b2.
Definition Z_sellSft : N := 0x8ab40b96.
Definition Z_updateFixedPrice : N := 0xf14f8c36.
Definition Z_buy : N := 0x58db52a2.
Definition Z_auctionNftWithMarketplaceId : N := 0xed028c37.
Definition Z_auctionNft : N := 0x935d6b70.
Definition Z_auctionSft : N := 0x70ae1517.
Definition Z_bid : N := 0x5473427b.
Definition Z_cancelSale : N := 0x70f3ab39.
Definition Z_makeSimpleOfferWithMarketplaceId : N := 0xa9438074.
Definition Z_makeSimpleOffer : N := 0xf2800f37.
Definition Z_cancelOffer : N := 0x66948833.
Definition Z_acceptOffer : N := 0xf23bc4f8.
Definition Z_getMarketplaceAccount : N := 0x21622752.
Definition Z_getListingFromId : N := 0xaa64ebdb.
Definition Z_getOfferFromId : N := 0x4f22f7f2.
Definition G_MarketplaceRegister : N := 0x65630e2db9ff0a156ba0f529072ee18f7a4f0878ca57584c04a3df34a631c0a7.
Definition G_FixedPriceSaleListNFT : N := 0x5fc6c57cf523538d9f361ca1130e724705b7eddbac864fc9b4fe2414603a7ee4.
Definition G_FixedPriceSaleListSFT : N := 0xa3254d4d739a70e5bba93b66e5fff05b920ee9ebfdded1e7609c77e65d73d5a0.
Definition G_FixedPriceSaleUpdate : N := 0x5aa5a1815b92a3c30e2266c403e642108a2de0f5fc99bb03e61ff02d3d0ecc5b.
Definition G_FixedPriceSaleComplete : N := 0xee2ae8905e5709d39caba7510c437943f14bcdd96a406b03afc75e0cbfd04994.
Definition G_AuctionOpenNFT : N := 0x2596edae071e46e0cb8ef9d0d403afc3b2d8324134a97eac50f37322320dd60f.
Definition G_AuctionOpenSFT : N := 0x167f4126fac08fa3ddb67c0edd3b444e0f14eef62603c1e277d438a3a0f128ca.
Definition G_Bid : N := 0x98a1579f1297deb8662af6e42d3338cb29fdca128766602426cf5d609bcf284f.
Definition G_FixedPriceSaleClose : N := 0xc589bcadbff1f38e03b5f27e007d114bdfc595f8ab827181c2a32286bf19a539.
Definition G_AuctionClose : N := 0x2a5f67914026cf5350766bc0e31fadfa2ba8f24107d9d73324b97b29093f1bb3.
Definition G_Offer : N := 0x0814d08b51a4d02cbb9f4c201230a4525da717936d7703c7d68a60f167eeef0e.
Definition G_OfferCancel : N := 0xc76508013e9aa2001c2ea283f6279c220878ae9033645174c42a46149b49407f.
Definition G_OfferAccept : N := 0x27a679b35eae6091a2f7f40e6a31c24c0cd14469d7afe9de9e01720a53a98f99.
(** [MARKETPLACE_PRECOMPILE], /repo/evm-precompiles/utils/src/constants.rs:52. *)
Definition MARKET_ADDR : N := 0x6cd.
(** The words "fixed_price_listing_for_nft" and "auction_listing_for_nft", 1124 and 1136. *)
Definition w_fixed : list N := [102; 105; 120; 101; 100; 95; 112; 114; 105; 99; 101; 95; 108; 105; 115; 116; 105; 110; 103; 95; 102; 111; 114; 95; 110; 102; 116].
Definition w_auction : list N := [97; 117; 99; 116; 105; 111; 110; 95; 108; 105; 115; 116; 105; 110; 103; 95; 102; 111; 114; 95; 110; 102; 116].
(** [evm_id_to_runtime_id], /repo/runtime/src/impls.rs:267-283, with the prefixes 0xAA (ERC-721) and 0xBB
    (ERC-1155). *)
Definition coll_at (prefix a : N) : option N := if a / 2 ^ 128 =? prefix then Some (a / 2 ^ 96 mod 2 ^ 32) else None.
Definition P721 : N := 0xaaaaaaaa.
Definition P1155 : N := 0xbbbbbbbb.

(** ** State: the marketplace, the [marketplace_id] stored with every listing, the logs of the Ethereum
    transactions ([lg_coll] is the address) *)
Record zst := ZSt { z_m : mkt; z_mid : gmap N (option N); z_logs : list elog }.
Definition zlog (s : zst) (m : mkt) (topics data : list N) : zst := ZSt m (z_mid s) (z_logs s ++ [Elog MARKET_ADDR topics data]).
Definition mid (s : zst) (lid : N) : N := default 0 (default None (z_mid s !! lid)).
(** [split_listing_tokens], 1172-1193. *)
Definition split_toks (t : tokens) : N * list N := match t with LNft c ns => (c, ns) | LSft c l => (c, map fst l) end.
(** [saturated_convert_blocknumber], 92-99, and the match on the duration, e.g. 313-317. *)
Definition conv_duration (n : N) : result (option N) := ensure! n <=? U32MAX else 1; Ok (if n =? 0 then None else Some n).
(** An address argument where zero stands for nobody, e.g. 348-350. *)
Definition opt_addr (a : N) : option N := if a =? 0 then None else Some a.
(** [Permill::from_parts] of sp_arithmetic. *)
Definition from_parts (n : N) : N := N.min n ACC.
(** Numbers of every width are written as one word. *)
Definition vnums (l : list N) : val := VL (map VN l).

Section mpre.
  (** Parameters of [MarketModel]; [max_toks] is [MaxTokensPerListing]. *)
  Variable vault : N.
  Variable max_holds : nat.
  Variable pid net_fee default_duration max_offers : N.
  Variable cap mint_limit nft_pallet max_owners max_serials : N.
  Variable max_toks : N.
  Notation mexec := (mexec vault max_holds pid net_fee default_duration max_offers cap mint_limit nft_pallet max_owners max_serials).
  Notation royp := (option (list (N * N))).

  (** [register_marketplace], 229-282. *)
  Definition z_register (s : zst) (caller : N) (call : list N) : result (zst * list N) :=
    do! a <- read_args [tA; tU] call;
    match a with
    | [VN account; VN entitlement] =>
        ensure! entitlement <=? U32MAX else 1;
        let id := m_nm (z_m s) in
        do! m <- mexec (z_m s) (MRegister (default caller (opt_addr account)) (from_parts entitlement));
        Ok (zlog s m [G_MarketplaceRegister; caller; id] (out [tA] [VN account]), out [tU] [VN id])
    | _ => Err 98
    end.
  (** The serial numbers and quantities of a listing, e.g. 331-346 and 436-461. *)
  Definition nft_tokens (c : N) (ns : list N) : result tokens :=
    ensure! all_le U32MAX ns else 1;
    ensure! N.of_nat (length ns) <=? max_toks else 3;
    Ok (LNft c ns).
  Definition sft_tokens (c : N) (ns qs : list N) : result tokens :=
    ensure! Nat.eqb (length ns) (length qs) else 4;
    ensure! all_le U32MAX ns && all_le U128MAX qs else 1;
    ensure! N.of_nat (length ns) <=? max_toks else 3;
    Ok (LSft c (combine ns qs)).
  (** What [do_sell] and [do_auction] do to the state; the listing's id is the counter before the call. *)
  Definition z_opened (s : zst) (m : mkt) (market : option N) (topics data : list N) : zst :=
    ZSt m (<[m_nl (z_m s) := market]> (z_mid s)) (z_logs s ++ [Elog MARKET_ADDR topics data]).
  (** [sell_nft], 284-387. *)
  Definition z_sell_nft (s : zst) (caller : N) (call : list N) (roy : royp) : result (zst * list N) :=
    do! a <- read_args [tA; tUs; tA; tA; tU; tU; tU] call;
    match a with
    | [VN coll; VL ids; VN buyer; VN asset; VN price; VN duration; VN market] =>
        ensure! market <=? U32MAX else 1;
        let market := opt_addr market in
        do! x <- of_opt (asset_at asset) 2;
        do! d <- conv_duration duration;
        ensure! price <=? U128MAX else 1;
        do! c <- of_opt (coll_at P721 coll) 2;
        do! tk <- nft_tokens c (nums ids);
        let lid := m_nl (z_m s) in
        do! m <- mexec (z_m s) (MSell caller tk (opt_addr buyer) x price d market roy);
        Ok (z_opened s m market [G_FixedPriceSaleListNFT; caller; lid; price]
              (out [tUs; tA; tU] [VL ids; VN coll; VN (default 0 market)]), out [tU] [VN lid])
    | _ => Err 98
    end.
  (** [sell_sft], 389-502. *)
  Definition z_sell_sft (s : zst) (caller : N) (call : list N) (roy : royp) : result (zst * list N) :=
    do! a <- read_args [tA; tUs; tUs; tA; tA; tU; tU; tU] call;
    match a with
    | [VN coll; VL ids; VL qs; VN buyer; VN asset; VN price; VN duration; VN market] =>
        ensure! market <=? U32MAX else 1;
        let market := opt_addr market in
        do! x <- of_opt (asset_at asset) 2;
        do! d <- conv_duration duration;
        ensure! price <=? U128MAX else 1;
        do! c <- of_opt (coll_at P1155 coll) 2;
        do! tk <- sft_tokens c (nums ids) (nums qs);
        let lid := m_nl (z_m s) in
        do! m <- mexec (z_m s) (MSell caller tk (opt_addr buyer) x price d market roy);
        Ok (z_opened s m market [G_FixedPriceSaleListSFT; caller; lid; price]
              (out [tUs; tA; tU; tUs] [VL ids; VN coll; VN (default 0 market); VL qs]), out [tU] [VN lid])
    | _ => Err 98
    end.
  (** [update_fixed_price], 504-557. *)
  Definition z_update (s : zst) (caller : N) (call : list N) : result (zst * list N) :=
    do! a <- read_args [tU; tU] call;
    match a with
    | [VN lid; VN price] =>
        ensure! lid <=? U128MAX else 1;
        ensure! price <=? U128MAX else 1;
        do! l <- of_opt (m_list (z_m s) !! lid) 5;
        ensure! negb (l_auction l) else 5;
        do! m <- mexec (z_m s) (MUpdate caller lid price);
        let (c, ns) := split_toks (l_toks l) in
        Ok (zlog s m [G_FixedPriceSaleUpdate; c; lid; price] (out [tA; tUs; tU] [VN caller; vnums ns; VN (mid s lid)]), [])
    | _ => Err 98
    end.
  (** [buy], 559-608; [do_buy] answers the listing. *)
  Definition z_buy (s : zst) (caller : N) (call : list N) : result (zst * list N) :=
    do! a <- read_args [tU] call;
    match a with
    | [VN lid] =>
        ensure! lid <=? U128MAX else 1;
        do! m <- mexec (z_m s) (MBuy caller lid);
        do! l <- of_opt (m_list (z_m s) !! lid) 57;
        let (c, ns) := split_toks (l_toks l) in
        Ok (zlog s m [G_FixedPriceSaleComplete; c; lid; l_price l] (out [tA; tUs; tU] [VN (l_seller l); vnums ns; VN (mid s lid)]), [])
    | _ => Err 98
    end.
  (** [auction_nft_with_marketplace_id], 610-713. *)
  Definition z_auction_nft (s : zst) (caller : N) (call : list N) (roy : royp) : result (zst * list N) :=
    do! a <- read_args [tA; tUs; tA; tU; tU; tU] call;
    match a with
    | [VN coll; VL ids; VN asset; VN price; VN duration; VN market] =>
        ensure! market <=? U32MAX else 1;
        do! d <- conv_duration duration;
        ensure! price <=? U128MAX else 1;
        do! c <- of_opt (coll_at P721 coll) 2;
        do! tk <- nft_tokens c (nums ids);
        do! x <- of_opt (asset_at asset) 2;
        let lid := m_nl (z_m s) in
        do! m <- mexec (z_m s) (MAuction caller tk x price d (Some market) roy);
        Ok (z_opened s m (Some market) [G_AuctionOpenNFT; c; lid; price] (out [tA; tUs; tU] [VN caller; VL ids; VN market]), [])
    | _ => Err 98
    end.
  (** [auction_sft_with_marketplace_id], 715-829. *)
  Definition z_auction_sft (s : zst) (caller : N) (call : list N) (roy : royp) : result (zst * list N) :=
    do! a <- read_args [tA; tUs; tUs; tA; tU; tU; tU] call;
    match a with
    | [VN coll; VL ids; VL qs; VN asset; VN price; VN duration; VN market] =>
        ensure! market <=? U32MAX else 1;
        do! d <- conv_duration duration;
        ensure! price <=? U128MAX else 1;
        do! c <- of_opt (coll_at P1155 coll) 2;
        do! tk <- sft_tokens c (nums ids) (nums qs);
        do! x <- of_opt (asset_at asset) 2;
        let lid := m_nl (z_m s) in
        do! m <- mexec (z_m s) (MAuction caller tk x price d (Some market) roy);
        Ok (z_opened s m (Some market) [G_AuctionOpenSFT; c; lid; price] (out [tA; tUs; tU] [VN caller; VL ids; VN market]), [])
    | _ => Err 98
    end.
  (** [bid], 831-871. *)
  Definition z_bid (s : zst) (caller : N) (call : list N) : result (zst * list N) :=
    do! a <- read_args [tU; tU] call;
    match a with
    | [VN lid; VN amount] =>
        ensure! lid <=? U128MAX else 1;
        do! l <- of_opt (m_list (z_m s) !! lid) 6;
        ensure! l_auction l else 6;
        ensure! amount <=? U128MAX else 1;
        do! m <- mexec (z_m s) (MBid caller lid amount);
        Ok (zlog s m [G_Bid; caller; lid; amount] (out [tU] [VN (mid s lid)]), [])
    | _ => Err 98
    end.
  (** [cancel_sale], 873-937. *)
  Definition z_cancel (s : zst) (caller : N) (call : list N) : result (zst * list N) :=
    do! a <- read_args [tU] call;
    match a with
    | [VN lid] =>
        ensure! lid <=? U128MAX else 1;
        do! l <- of_opt (m_list (z_m s) !! lid) 7;
        let (c, ns) := split_toks (l_toks l) in
        do! m <- mexec (z_m s) (MCancel caller lid);
        Ok (zlog s m [if l_auction l then G_AuctionClose else G_FixedPriceSaleClose; c; lid]
              (out [tA; tUs; tU] [VN caller; vnums ns; VN (mid s lid)]), [])
    | _ => Err 98
    end.
  (** [make_simple_offer_with_marketplace_id], 939-1008: [saturated_into] without a check. *)
  Definition z_offer (s : zst) (caller : N) (call : list N) : result (zst * list N) :=
    do! a <- read_args [tA; tU; tU; tA; tU] call;
    match a with
    | [VN coll; VN n; VN amount; VN asset; VN market] =>
        let market := sat U32MAX market in
        ensure! amount <=? U128MAX else 1;
        do! c <- of_opt (coll_at P721 coll) 2;
        ensure! n <=? U32MAX else 1;
        do! x <- of_opt (asset_at asset) 2;
        let oid := m_no (z_m s) in
        do! m <- mexec (z_m s) (MOffer caller (c, n) amount x (Some market));
        Ok (zlog s m [G_Offer; oid; caller] (out [tU; tU; tU] [VN c; VN n; VN market]), out [tU] [VN oid])
    | _ => Err 98
    end.
  (** [cancel_offer], 1010-1044. *)
  Definition z_cancel_offer (s : zst) (caller : N) (call : list N) : result (zst * list N) :=
    do! a <- read_args [tU] call;
    match a with
    | [VN oid] =>
        ensure! oid <=? U64MAX else 1;
        do! o <- of_opt (m_off (z_m s) !! oid) 8;
        do! m <- mexec (z_m s) (MCancelOffer caller oid);
        Ok (zlog s m [G_OfferCancel; oid; caller]
              (out [tU; tU; tU] [VN (fst (o_tok o)); VN (snd (o_tok o)); VN (default 0 (o_market o))]), [])
    | _ => Err 98
    end.
  (** [accept_offer], 1046-1083. *)
  Definition z_accept (s : zst) (caller : N) (call : list N) (roy : royp) : result (zst * list N) :=
    do! a <- read_args [tU] call;
    match a with
    | [VN oid] =>
        ensure! oid <=? U64MAX else 1;
        do! o <- of_opt (m_off (z_m s) !! oid) 8;
        do! m <- mexec (z_m s) (MAccept caller oid roy);
        Ok (zlog s m [G_OfferAccept; oid; o_amount o; caller]
              (out [tU; tU; tU] [VN (fst (o_tok o)); VN (snd (o_tok o)); VN (default 0 (o_market o))]), [])
    | _ => Err 98
    end.
  (** [get_marketplace_account], 1085-1105. *)
  Definition z_get_account (s : zst) (call : list N) : result (zst * list N) :=
    do! a <- read_args [tU] call;
    match a with
    | [VN id] =>
        ensure! id <=? U32MAX else 1;
        do! e <- of_opt (m_mk (z_m s) !! id) 9;
        Ok (s, out [tA] [VN (fst e)])
    | _ => Err 98
    end.
  (** [get_listing_from_id], 1107-1145. *)
  Definition z_get_listing (s : zst) (call : list N) : result (zst * list N) :=
    do! a <- read_args [tU] call;
    match a with
    | [VN lid] =>
        ensure! lid <=? U128MAX else 1;
        do! l <- of_opt (m_list (z_m s) !! lid) 7;
        let (c, ns) := split_toks (l_toks l) in
        Ok (s, out [tBytes; tU; tUs; tU; tU]
                 [VB (if l_auction l then w_auction else w_fixed); VN c; vnums ns; VN (l_price l); VN (l_asset l)])
    | _ => Err 98
    end.
  (** [get_offer_from_id], 1147-1169. *)
  Definition z_get_offer (s : zst) (call : list N) : result (zst * list N) :=
    do! a <- read_args [tU] call;
    match a with
    | [VN oid] =>
        ensure! oid <=? U64MAX else 1;
        do! o <- of_opt (m_off (z_m s) !! oid) 8;
        Ok (s, out [tU; tU; tU; tA] [VN (fst (o_tok o)); VN (snd (o_tok o)); VN (o_amount o); VN (o_buyer o)])
    | _ => Err 98
    end.

  (** [check_function_modifier], 165-184: these are [NonPayable], everything else [View]. *)
  Definition z_non_payable (sel : N) : bool :=
    existsb (N.eqb sel)
      [Z_registerMarketplace; Z_sellNft; Z_sellNftWithMarketplaceId; Z_sellSft; Z_updateFixedPrice; Z_auctionNft;
       Z_auctionNftWithMarketplaceId; Z_auctionSft; Z_bid; Z_buy; Z_cancelSale; Z_makeSimpleOffer;
       Z_makeSimpleOfferWithMarketplaceId; Z_cancelOffer; Z_acceptOffer].
  (** The match on the selector, 186-209. *)
  Definition z_dispatch (sel : N) (s : zst) (caller : N) (call : list N) (roy : royp) : result (zst * list N) :=
    if sel =? Z_registerMarketplace then z_register s caller call
    else if sel =? Z_sellNftWithMarketplaceId then z_sell_nft s caller call roy
    else if sel =? Z_sellNft then z_sell_nft s caller call roy
    else if sel =? Z_sellSft then z_sell_sft s caller call roy
    else if sel =? Z_updateFixedPrice then z_update s caller call
    else if sel =? Z_buy then z_buy s caller call
    else if sel =? Z_auctionNftWithMarketplaceId then z_auction_nft s caller call roy
    else if sel =? Z_auctionNft then z_auction_nft s caller call roy
    else if sel =? Z_auctionSft then z_auction_sft s caller call roy
    else if sel =? Z_bid then z_bid s caller call
    else if sel =? Z_cancelSale then z_cancel s caller call
    else if sel =? Z_makeSimpleOfferWithMarketplaceId then z_offer s caller call
    else if sel =? Z_makeSimpleOffer then z_offer s caller call
    else if sel =? Z_cancelOffer then z_cancel_offer s caller call
    else if sel =? Z_acceptOffer then z_accept s caller call roy
    else if sel =? Z_getMarketplaceAccount then z_get_account s call
    else if sel =? Z_getListingFromId then z_get_listing s call
    else if sel =? Z_getOfferFromId then z_get_offer s call
    else Err 23.
  (** [execute], 159-210.  [roy]: the royalties schedule of the collection concerned, as in [MarketModel]. *)
  Definition z_execute (s : zst) (caller : N) (static : bool) (value : N) (call : list N) (roy : royp) : result (zst * list N) :=
    do! sel <- read_selector call;
    ensure! negb (static && z_non_payable sel) else 21;
    ensure! value =? 0 else 22;
    z_dispatch sel s caller call roy.

  (** What happens on the chain: an operation of [MarketModel] made otherwise, or a call of the contract. *)
  Inductive zop := ZMkt (o : mop) | ZCall (caller : N) (static : bool) (value : N) (call : list N) (roy : royp).
  Definition zstep (s : zst) (o : zop) : zst :=
    match o with
    | ZMkt o =>
        match mexec (z_m s) o with
        | Err _ => s
        | Ok m => ZSt m (match o with
                         | MSell _ _ _ _ _ _ market _ | MAuction _ _ _ _ _ market _ => <[m_nl (z_m s) := market]> (z_mid s)
                         | _ => z_mid s
                         end) (z_logs s)
        end
    | ZCall caller static value call roy =>
        match z_execute s caller static value call roy with Ok (s', _) => s' | Err _ => s end
    end.
End mpre.
Definition zinit (fee : option N) : zst := ZSt (minit fee) ∅ [].
