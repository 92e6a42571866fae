(** C140-C145: the marketplace as an EVM contract, at 0x6cd. *)
From Coq Require Import String Ascii.
From Verif Require Import MarketPreProofs.
Open Scope N_scope.
Open Scope list_scope.

(** ** The interface as published *)
(** /repo/evm-precompiles/marketplace/README.md 21-50 (the same in /repo/e2e/common/index.ts 420-441): the names and
    the first four bytes of the Keccak hash of each signature. *)
Definition published : list (string * N) :=
  [("registerMarketplace(address,uint256)", 0xb170c834);
   ("sellNftWithMarketplaceId(address,uint32[],address,address,uint128,uint128,uint32)", 0xcaf64b7f);
   ("sellNft(address,uint32[],address,address,uint128,uint128,uint32)", 0xa80a3535);
   ("sellSft(address,uint32[],uint128[],address,address,uint128,uint128,uint32)", 0xa0e9619d);
   ("updateFixedPrice(uint128,uint128)", 0x8e4e213b);
   ("buy(uint128)", 0x58db52a2);
   ("auctionNftWithMarketplaceId(address,uint32[],address,uint128,uint128,uint32)", 0xe03ee035);
   ("auctionNft(address,uint32[],address,uint128,uint128,uint32)", 0x223e80bc);
   ("auctionSft(address,uint32[],uint128[],address,uint128,uint128,uint32)", 0x458b67e7);
   ("bid(uint128,uint128)", 0xdc22283b);
   ("cancelSale(uint128)", 0x70f3ab39);
   ("makeSimpleOfferWithMarketplaceId(address,uint32,uint128,address,uint32)", 0x3092123b);
   ("makeSimpleOffer(address,uint32,uint128,address,uint32)", 0xd9fab178);
   ("cancelOffer(uint64)", 0x66948833);
   ("acceptOffer(uint64)", 0xf23bc4f8);
   ("getMarketplaceAccount(uint32)", 0x21622752);
   ("getListingFromId(uint128)", 0xaa64ebdb);
   ("getOfferFromId(uint64)", 0x4f22f7f2)]%string.
(** The selectors the contract knows. *)
Definition known : list N :=
  [0xb170c834; 0x580ae278; 0x9b3808b2; 0x8ab40b96; 0xf14f8c36; 0x58db52a2; 0xed028c37; 0x935d6b70; 0x70ae1517; 0x5473427b; 0x70f3ab39;
   0xa9438074; 0xf2800f37; 0x66948833; 0xf23bc4f8; 0x21622752; 0xaa64ebdb; 0x4f22f7f2].

(** The listing a request opens: its terms. *)
Definition opens (net_fee default_duration : N) (s : zst) (caller : N) (roy : list (N * N)) (r : request) : option listing :=
  let close d := N.min (m_now (z_m s) + (if d =? 0 then default_duration else d)) (2 ^ 32 - 1) in
  match r with
  | RSellNft _ c ns buyer asset price d market =>
      Some (Listing false asset price (close d) (unless0 buyer) caller (LNft c ns) (fees_due net_fee (z_m s) roy (unless0 market)))
  | RSellSft c l buyer asset price d market =>
      Some (Listing false asset price (close d) (unless0 buyer) caller (LSft c l) (fees_due net_fee (z_m s) roy (unless0 market)))
  | RAuctionNft _ c ns asset price d market =>
      Some (Listing true asset price (close d) None caller (LNft c ns) (fees_due net_fee (z_m s) roy (Some market)))
  | RAuctionSft c l asset price d market =>
      Some (Listing true asset price (close d) None caller (LSft c l) (fees_due net_fee (z_m s) roy (Some market)))
  | _ => None
  end.
(** The words of [getListingFromId]. *)
Definition text (t : string) : list N := map Ascii.N_of_ascii (list_ascii_of_string t).
Definition fixed_price_for_nft : list N := text "fixed_price_listing_for_nft".
Definition auction_for_nft : list N := text "auction_listing_for_nft".
Definition listing_ty : list ty := [tBytes; tU; tUs; tU; tU].
Definition described (l : listing) : list val :=
  [VB (if l_auction l then auction_for_nft else fixed_price_for_nft); VN (collection_of (l_toks l)); vs (serials_of (l_toks l));
   VN (l_price l); VN (l_asset l)].

Section props.
  Variable vault : N.
  Variable max_holds : nat.
  Variable pid net_fee default_duration max_offers : N.
  Variable cap mint_limit nft_pallet max_owners max_serials : N.
  Variable max_toks : N.
  Notation mexec := (mexec vault max_holds pid net_fee default_duration max_offers cap mint_limit nft_pallet max_owners max_serials).
  Notation z_execute := (z_execute vault max_holds pid net_fee default_duration max_offers cap mint_limit nft_pallet max_owners max_serials max_toks).
  Notation zstep := (zstep vault max_holds pid net_fee default_duration max_offers cap mint_limit nft_pallet max_owners max_serials max_toks).
  Notation fair := (fair vault max_holds pid net_fee default_duration max_offers cap mint_limit nft_pallet max_owners max_serials max_toks).
  Notation mreached := (reached vault max_holds pid net_fee default_duration max_offers cap mint_limit nft_pallet max_owners max_serials).
  Implicit Types s : zst.

  (** ** C140: which calls are answered *)
  Theorem C140_known_only s caller static value call roy sel : read_selector call = Ok sel -> sel ∉ known ->
    exists e, z_execute s caller static value call roy = Err e.
  Proof.
    intros R H. unfold MarketPreModel.z_execute. rewrite R. cbn [rbind].
    destruct (negb _); cbn [ensure rbind]; [|eexists; reflexivity]. destruct (value =? 0); cbn [ensure rbind]; [|eexists; reflexivity].
    exists 23. unfold z_dispatch.
    assert (X : forall z, z ∈ known -> (sel =? z) = false) by (intros z Hz; apply N.eqb_neq; intros ->; exact (H Hz)).
    repeat match goal with |- context [sel =? ?z] => rewrite (X z) by (apply (bool_decide_unpack _); vm_compute; exact I) end. reflexivity.
  Qed.
  (** Ten of the eighteen published functions are answered in no state. *)
  Definition dead : list N :=
    [0xcaf64b7f; 0xa80a3535; 0xa0e9619d; 0x8e4e213b; 0xe03ee035; 0x223e80bc; 0x458b67e7; 0xdc22283b; 0x3092123b; 0xd9fab178].
  Theorem C140_published_refuted : exists sels, sels = dead /\ NoDup sels /\ (forall sel, sel ∈ sels -> exists name, (name, sel) ∈ published) /\
    forall sel, sel ∈ sels -> forall s caller static value call roy, read_selector call = Ok sel ->
    exists e, z_execute s caller static value call roy = Err e.
  Proof.
    exists dead. split; [reflexivity|]. split; [apply (bool_decide_unpack _); vm_compute; exact I|]. split.
    - intros sel H. assert (F : forallb (fun x => existsb (N.eqb x) (map snd published)) dead = true) by (vm_compute; reflexivity).
      rewrite forallb_forall in F. apply elem_of_list_In in H. specialize (F _ H). apply existsb_exists in F. destruct F as (y & Hy & E).
      apply N.eqb_eq in E. subst y. apply in_map_iff in Hy. destruct Hy as ([name z] & E & Hin). cbn [snd] in E. subst z.
      exists name. apply elem_of_list_In. exact Hin.
    - intros sel H s caller static value call roy R. apply (C140_known_only _ _ _ _ _ _ sel R). intros Hk.
      assert (F : forallb (fun x => negb (existsb (N.eqb x) known)) dead = true) by (vm_compute; reflexivity).
      rewrite forallb_forall in F. apply elem_of_list_In in H, Hk. specialize (F _ H). apply negb_true_iff in F.
      rewrite (proj2 (existsb_exists _ _)) in F; [discriminate F|]. exists sel. split; [exact Hk|apply N.eqb_refl].
  Qed.
  (** The other eight are published as they are answered. *)
  Theorem C140_rest_known : forall name sel, (name, sel) ∈ published -> sel ∉ dead -> sel ∈ known.
  Proof.
    intros name sel H Hd. assert (F : forallb (fun x => existsb (N.eqb x) dead || existsb (N.eqb x) known) (map snd published) = true) by (vm_compute; reflexivity).
    rewrite forallb_forall in F. specialize (F sel). apply elem_of_list_In in H. apply (in_map snd) in H. specialize (F H).
    apply orb_true_iff in F. destruct F as [F|F]; apply existsb_exists in F; destruct F as (y & Hy & E); apply N.eqb_eq in E; subst y;
      apply elem_of_list_In in Hy; [contradiction|exact Hy].
  Qed.

  (** ** C141: calls and operations *)
  (** A call as Solidity writes it does exactly the operation meant, for the caller; it fails if that fails. *)
  Theorem C141_exact s caller r roy : tstate s -> typed max_toks r -> caller < 2 ^ 160 ->
    match mexec (z_m s) (meant caller roy r) with
    | Ok m => z_execute s caller false 0 (calldata r) roy = Ok (ZSt m (recorded s r) (z_logs s ++ event s caller r), answer s r)
    | Err _ => exists e, z_execute s caller false 0 (calldata r) roy = Err e
    end.
  Proof.
    intros S T Hc. destruct (calldata_read max_toks r T) as [R1 R2]. unfold MarketPreModel.z_execute. rewrite R1. cbn [rbind andb negb ensure].
    change (0 =? 0) with true. cbn [ensure rbind].
    exact (dispatched vault max_holds pid net_fee default_duration max_offers cap mint_limit nft_pallet max_owners max_serials max_toks
             s caller (calldata r) roy r T S Hc R2).
  Qed.
  (** Whatever the bytes: a call that succeeds takes no money, and either changes nothing or does one operation,
      for the caller, and logs one event of the contract. *)
  Theorem C141_any s caller static value call roy s' a : z_execute s caller static value call roy = Ok (s', a) ->
    value = 0 /\ (s' = s \/ static = false /\ exists r, mexec (z_m s) (meant caller roy r) = Ok (z_m s') /\ z_mid s' = recorded s r /\
      exists topics data, z_logs s' = z_logs s ++ [Elog 0x6cd topics data]).
  Proof.
    intros H. destruct (execute_any _ _ _ _ _ _ _ _ _ _ _ _ _ _ _ _ _ _ _ _ H) as (Hv & [->|(Hs & r & _ & E1 & E2 & E3)]); [auto|].
    split; [exact Hv|right]. split; [exact Hs|]. exists r. auto.
  Qed.
  (** Everything proved of the pallet holds however calls of the contract are mixed in. *)
  Theorem C141_histories fee zops : fee <> Some vault -> along zstep fair zops (zinit fee) ->
    exists ops, mreached fee ops (z_m (run zstep zops (zinit fee))).
  Proof.
    intros Hf H. destruct (history _ _ _ _ _ _ _ _ _ _ _ _ _ _ H) as (ops & A & R). exists ops. split; [exact Hf|]. split; [exact A|].
    symmetry. exact R.
  Qed.
  (** In particular the money held for bids and offers. *)
  Theorem C141_money fee zops y x : fee <> Some vault -> along zstep fair zops (zinit fee) ->
    let m := z_m (run zstep zops (zinit fee)) in
    exists asset : N -> N, (forall lid l, m_list m !! lid = Some l -> l_asset l = asset lid) /\
    hold_balance (m_as m) pid y x = sumf (fun lid b => if (y =? fst b) && (x =? asset lid) then snd b else 0) (m_bid m)
      + sumf (fun _ o => if (y =? o_buyer o) && (x =? o_asset o) then o_amount o else 0) (m_off m).
  Proof.
    intros Hf H m. destruct (C141_histories fee zops Hf H) as (ops & Hr).
    destruct (C22_accounted _ _ _ _ _ _ _ _ _ _ _ _ _ _ Hr) as (asset & A & B). exists asset. split; [exact A|apply B].
  Qed.

  (** ** C142: what is opened *)
  Theorem C142_terms s caller r roy s' a l : tstate s -> typed max_toks r -> caller < 2 ^ 160 ->
    opens net_fee default_duration s caller roy r = Some l ->
    z_execute s caller false 0 (calldata r) (Some roy) = Ok (s', a) ->
    m_list (z_m s') = <[m_nl (z_m s) := l]> (m_list (z_m s)) /\ z_logs s' = z_logs s ++ event s caller r /\
    a = (if l_auction l then [] else word (m_nl (z_m s))).
  Proof.
    intros S T Hc Ho H. pose proof (C141_exact s caller r (Some roy) S T Hc) as X.
    destruct (mexec _ _) as [m|] eqn:E; [|destruct X as [e X]; rewrite X in H; discriminate H].
    rewrite X in H. injection H as <- <-. cbn [z_m z_logs]. clear X S T Hc.
    assert (D : forall d, default default_duration (unless0 d) = if d =? 0 then default_duration else d)
      by (intros d; unfold unless0; destruct (d =? 0); reflexivity).
    destruct r; try discriminate Ho; cbn [opens] in Ho; injection Ho as <-; cbn [l_auction answer meant] in *; rewrite <- D;
      (split; [|split; reflexivity]).
    - exact (C99_sale_opened _ _ _ _ _ _ _ _ _ _ _ _ _ _ _ _ _ _ _ _ _ E).
    - exact (C99_sale_opened _ _ _ _ _ _ _ _ _ _ _ _ _ _ _ _ _ _ _ _ _ E).
    - exact (C99_auction_opened _ _ _ _ _ _ _ _ _ _ _ _ _ _ _ _ _ _ _ _ E).
    - exact (C99_auction_opened _ _ _ _ _ _ _ _ _ _ _ _ _ _ _ _ _ _ _ _ E).
  Qed.

  (** ** C143: marketplaces *)
  (** Zero means no marketplace to [sellNft] and [sellSft]: only the royalties and the network's fee are due. *)
  Theorem C143_sale_without s caller old c ns buyer x price d roy s' a : tstate s ->
    typed max_toks (RSellNft old c ns buyer x price d 0) -> caller < 2 ^ 160 ->
    z_execute s caller false 0 (calldata (RSellNft old c ns buyer x price d 0)) (Some roy) = Ok (s', a) ->
    exists l, m_list (z_m s') !! m_nl (z_m s) = Some l /\
      l_roy l = roy ++ match m_fee (z_m s) with Some y => [(y, net_fee)] | None => [] end.
  Proof.
    intros S T Hc H. destruct (C142_terms _ _ _ _ _ _ _ S T Hc eq_refl H) as (E & _). rewrite E.
    eexists. split; [apply lookup_insert|]. cbn [l_roy]. unfold fees_due, unless0. change (0 =? 0) with true. cbn iota.
    destruct (m_fee (z_m s)); rewrite ?app_nil_r; reflexivity.
  Qed.
  (** Any other id is the marketplace's: it must be registered, and its share is due. *)
  Theorem C143_with s caller r roy s' a l id : tstate s -> typed max_toks r -> caller < 2 ^ 160 ->
    opens net_fee default_duration s caller roy r = Some l ->
    match r with
    | RSellNft _ _ _ _ _ _ _ m | RSellSft _ _ _ _ _ _ m => m = id /\ id <> 0
    | RAuctionNft _ _ _ _ _ _ m | RAuctionSft _ _ _ _ _ m => m = id
    | _ => False end ->
    z_execute s caller false 0 (calldata r) (Some roy) = Ok (s', a) ->
    exists e, m_mk (z_m s) !! id = Some e /\ e ∈ l_roy l /\ m_list (z_m s') !! m_nl (z_m s) = Some l.
  Proof.
    intros S T Hc Ho Hm H. destruct (C142_terms _ _ _ _ _ _ _ S T Hc Ho H) as (E & _). rewrite E.
    pose proof (C141_exact s caller r (Some roy) S T Hc) as X.
    destruct (mexec _ _) as [m|] eqn:Em; [|destruct X as [e X]; rewrite X in H; discriminate H]. clear X H E.
    assert (Hs : forall chk tk b x p d mk, open_listing net_fee default_duration (z_m s) chk caller tk b x p d mk (Some roy) = Ok m ->
      mk = Some id -> exists e, m_mk (z_m s) !! id = Some e).
    { intros chk tk b x p d mk Ho' ->. apply open_spec in Ho'. destruct Ho' as (r0 & t & _ & _ & Hmk & _). exact (Hmk id eq_refl). }
    assert (G : exists e, m_mk (z_m s) !! id = Some e /\ l_roy l = fees_due net_fee (z_m s) roy (Some id)).
    { destruct r; try contradiction; cbn [opens] in Ho; injection Ho as <-; cbn [l_roy meant] in *; cbn [MarketModel.mexec] in Em;
        unfold do_sell, do_auction in Em.
      - destruct Hm as [-> H0]. assert (U : unless0 id = Some id) by (unfold unless0; rewrite (proj2 (N.eqb_neq id 0) H0); reflexivity).
        rewrite U in *. destruct (Hs _ _ _ _ _ _ _ Em eq_refl) as [e He]. exists e. auto.
      - destruct Hm as [-> H0]. assert (U : unless0 id = Some id) by (unfold unless0; rewrite (proj2 (N.eqb_neq id 0) H0); reflexivity).
        rewrite U in *. destruct (Hs _ _ _ _ _ _ _ Em eq_refl) as [e He]. exists e. auto.
      - subst market. destruct (Hs _ _ _ _ _ _ _ Em eq_refl) as [e He]. exists e. auto.
      - subst market. destruct (Hs _ _ _ _ _ _ _ Em eq_refl) as [e He]. exists e. auto. }
    destruct G as (e & He & El). exists e. split; [exact He|]. split; [|apply lookup_insert]. rewrite El. unfold fees_due. rewrite He.
    apply elem_of_app. right. apply elem_of_app. right. destruct e as [y p]. apply elem_of_list_singleton. reflexivity.
  Qed.
  (** An auction names a registered marketplace, whatever the id. *)
  Theorem C143_auction_needs s caller old c ns x price d market roy : tstate s ->
    typed max_toks (RAuctionNft old c ns x price d market) -> caller < 2 ^ 160 -> m_mk (z_m s) !! market = None ->
    exists e, z_execute s caller false 0 (calldata (RAuctionNft old c ns x price d market)) (Some roy) = Err e.
  Proof.
    intros S T Hc K. pose proof (C141_exact s caller _ (Some roy) S T Hc) as X. cbn [meant] in X.
    destruct (mexec _ _) as [m|] eqn:E; [exfalso|exact X]. cbn [MarketModel.mexec] in E. unfold do_auction in E.
    apply open_spec in E. destruct E as (r0 & t & _ & _ & Hmk & _). destruct (Hmk market eq_refl) as [e He]. rewrite K in He. discriminate He.
  Qed.
  (** No call of the contract opens a sale for marketplace 0, the first one registered. *)
  Theorem C143_first_unnamed s caller r roy s' a : tstate s -> typed max_toks r -> caller < 2 ^ 160 ->
    match r with RSellNft _ _ _ _ _ _ _ _ | RSellSft _ _ _ _ _ _ _ => True | _ => False end ->
    z_execute s caller false 0 (calldata r) roy = Ok (s', a) -> default None (z_mid s' !! m_nl (z_m s)) <> Some 0.
  Proof.
    intros S T Hc Hr H. pose proof (C141_exact s caller r roy S T Hc) as X.
    destruct (mexec _ _) as [m|] eqn:E; [|destruct X as [e X]; rewrite X in H; discriminate H].
    rewrite X in H. injection H as <- <-. cbn [z_mid].
    destruct r; try contradiction; cbn [recorded]; rewrite lookup_insert; cbn [default]; unfold unless0;
      destruct (N.eqb_spec market 0); cbn; congruence.
  Qed.

  (** ** C144: views *)
  Theorem C144_listing s caller static roy lid call : tstate s -> u128 lid ->
    call = build_call 0xaa64ebdb [tU] [VN lid] ->
    match m_list (z_m s) !! lid with
    | Some l => z_execute s caller static 0 call roy = Ok (s, enc_all listing_ty (described l))
    | None => exists e, z_execute s caller static 0 call roy = Err e
    end.
  Proof.
    intros S Hl ->. destruct (call_read [tU] [VN lid] 0xaa64ebdb) as [R1 R2];
      [enc_len; small|split; [apply wtU; small|exact I]|reflexivity|].
    revert R1 R2. generalize (build_call 0xaa64ebdb [tU] [VN lid]). intros call R1 R2. unfold MarketPreModel.z_execute. rewrite R1. cbn [rbind].
    change (z_non_payable 0xaa64ebdb) with false. rewrite andb_false_r. cbn [negb ensure rbind]. change (0 =? 0) with true. cbn [ensure rbind].
    change (z_dispatch vault max_holds pid net_fee default_duration max_offers cap mint_limit nft_pallet max_owners max_serials max_toks
              0xaa64ebdb s caller call roy) with (z_get_listing s call).
    unfold z_get_listing. rewrite R2. cbn [rbind]. rewrite (proj2 (N.leb_le lid _)) by (unfold U128MAX; small). cbn [ensure rbind].
    destruct (m_list (z_m s) !! lid) as [l|] eqn:El; cbn [of_opt rbind]; [|eexists; reflexivity].
    destruct (ts_list _ S _ _ El) as (S1 & S2 & S3 & S4 & S5 & S6). rewrite collection_split in *. cbn [fst snd] in *.
    change vnums with vs. change w_auction with auction_for_nft. change w_fixed with fixed_price_for_nft.
    destruct (vs_wt _ (u32s _ S5) S6) as [W _]. do 2 f_equal. apply out_spec.
    split; [destruct (l_auction l); vm_compute; discriminate|].
    split; [apply wtU; small|]. split; [exact W|]. split; [apply wtU; small|]. split; [apply wtU; small|exact I].
  Qed.
  Theorem C144_offer s caller static roy oid call : tstate s -> oid <= 2 ^ 64 - 1 ->
    call = build_call 0x4f22f7f2 [tU] [VN oid] ->
    match m_off (z_m s) !! oid with
    | Some o => z_execute s caller static 0 call roy =
        Ok (s, enc_all [tU; tU; tU; tA] [VN (fst (o_tok o)); VN (snd (o_tok o)); VN (o_amount o); VN (o_buyer o)])
    | None => exists e, z_execute s caller static 0 call roy = Err e
    end.
  Proof.
    intros S Hl ->. destruct (call_read [tU] [VN oid] 0x4f22f7f2) as [R1 R2];
      [enc_len; small|split; [apply wtU; small|exact I]|reflexivity|].
    revert R1 R2. generalize (build_call 0x4f22f7f2 [tU] [VN oid]). intros call R1 R2. unfold MarketPreModel.z_execute. rewrite R1. cbn [rbind].
    change (z_non_payable 0x4f22f7f2) with false. rewrite andb_false_r. cbn [negb ensure rbind]. change (0 =? 0) with true. cbn [ensure rbind].
    change (z_dispatch vault max_holds pid net_fee default_duration max_offers cap mint_limit nft_pallet max_owners max_serials max_toks
              0x4f22f7f2 s caller call roy) with (z_get_offer s call).
    unfold z_get_offer. rewrite R2. cbn [rbind]. rewrite (proj2 (N.leb_le oid _)) by (unfold U64MAX; small). cbn [ensure rbind].
    destruct (m_off (z_m s) !! oid) as [o|] eqn:El; cbn [of_opt rbind]; [|eexists; reflexivity].
    destruct (ts_off _ S _ _ El) as (S1 & S2 & S3 & S4 & S5). rewrite out_spec; [reflexivity|].
    split; [apply wtU; small|]. split; [apply wtU; small|]. split; [apply wtU; small|]. split; [apply wtA; small|exact I].
  Qed.
  Theorem C144_account s caller static roy id call : tstate s -> u32 id ->
    call = build_call 0x21622752 [tU] [VN id] ->
    match m_mk (z_m s) !! id with
    | Some e => z_execute s caller static 0 call roy = Ok (s, enc_all [tA] [VN (fst e)])
    | None => exists e, z_execute s caller static 0 call roy = Err e
    end.
  Proof.
    intros S Hl ->. destruct (call_read [tU] [VN id] 0x21622752) as [R1 R2];
      [enc_len; small|split; [apply wtU; small|exact I]|reflexivity|].
    revert R1 R2. generalize (build_call 0x21622752 [tU] [VN id]). intros call R1 R2. unfold MarketPreModel.z_execute. rewrite R1. cbn [rbind].
    change (z_non_payable 0x21622752) with false. rewrite andb_false_r. cbn [negb ensure rbind]. change (0 =? 0) with true. cbn [ensure rbind].
    change (z_dispatch vault max_holds pid net_fee default_duration max_offers cap mint_limit nft_pallet max_owners max_serials max_toks
              0x21622752 s caller call roy) with (z_get_account s call).
    unfold z_get_account. rewrite R2. cbn [rbind]. rewrite (proj2 (N.leb_le id _)) by small. cbn [ensure rbind].
    destruct (m_mk (z_m s) !! id) as [e|] eqn:El; cbn [of_opt rbind]; [|eexists; reflexivity].
    rewrite out_addr1 by exact (ts_mk _ S _ _ El). reflexivity.
  Qed.
  (** The price and the asset of the view are what a buyer pays, and the NFTs listed are what the buyer gets. *)
  Theorem C144_buy fee zops caller roy lid c ns s' a : fee <> Some vault -> along zstep fair zops (zinit fee) ->
    let s := run zstep zops (zinit fee) in
    tstate s -> u128 lid -> caller < 2 ^ 160 ->
    z_execute s caller false 0 (calldata (RBuy lid)) roy = Ok (s', a) ->
    exists l, z_execute s caller true 0 (build_call 0xaa64ebdb [tU] [VN lid]) roy = Ok (s, enc_all listing_ty (described l)) /\
      (parts (l_roy l) <= 1000000 -> issuance (al (m_as (z_m s))) (l_asset l) <= 2 ^ 128 - 4 ->
       let ps := payouts (l_seller l) (l_roy l) (l_price l) in
       forall b y, balance (al (m_as (z_m s'))) b y + (if decide ((l_asset l, caller) = (b, y)) then l_price l else 0)
                 = balance (al (m_as (z_m s))) b y + (if b =? l_asset l then paid_to y ps else 0)) /\
      (l_toks l = LNft c ns -> forall n, n ∈ ns -> owner_of (m_nft (z_m s')) c n = Some caller).
  Proof.
    intros Hf Hz s S Hl Hc H. destruct (C141_histories fee zops Hf Hz) as (ops & Hr). fold s in Hr.
    pose proof (C141_exact s caller (RBuy lid) roy S Hl Hc) as X. cbn [meant] in X.
    destruct (mexec _ _) as [m|] eqn:E; [|destruct X as [e X]; rewrite X in H; discriminate H].
    rewrite X in H. injection H as <- <-. cbn [z_m]. cbn [MarketModel.mexec] in E.
    destruct (m_list (z_m s) !! lid) as [l|] eqn:El; [|unfold do_buy in E; rewrite El in E; discriminate E].
    exists l. split; [pose proof (C144_listing s caller true roy lid _ S Hl eq_refl) as V; rewrite El in V; exact V|]. split.
    - intros Hp Hi. exact (proj2 (C21_purchase_exact _ _ _ _ _ _ _ _ _ _ _ _ _ _ _ _ _ _ Hr El E Hp Hi)).
    - intros Ht n Hn. pose proof (C65_purchase_delivers _ _ _ _ _ _ _ _ _ _ _ _ _ _ _ _ _ _ Hr El E) as (_ & D). rewrite Ht in D. apply D, Hn.
  Qed.
End props.

(** ** Concrete histories *)
Notation zx := (zstep 99 16 7 5000 100 10 1000 1000 98 1000 1000 1000).
Notation zexec := (z_execute 99 16 7 5000 100 10 1000 1000 98 1000 1000 1000).
Notation zfair := (fair 99 16 7 5000 100 10 1000 1000 98 1000 1000 1000).
Definition fairb (s : zst) (o : zop) : bool :=
  match o with
  | ZMkt o => goodb (z_m s) o
  | ZCall caller _ _ _ roy =>
      nv caller && royb roy && (m_nl (z_m s) <? U128MAX) && (m_now (z_m s) + 40 <=? U32MAX) &&
      forallb (fun e => nv (fst (snd e))) (map_to_list (m_mk (z_m (zx s o))))
  end.
Lemma fairb_ok s o : fairb s o = true -> zfair s o.
Proof.
  destruct o as [o|caller st v call roy]; cbn [fairb fair]; [apply goodb_ok|]. intros H.
  repeat (apply andb_true_iff in H; destruct H as [H ?]).
  split; [apply nv_ok; assumption|]. split; [apply royb_ok; assumption|]. split; [apply N.ltb_lt; assumption|].
  split; [apply N.leb_le; assumption|]. split; [reflexivity|]. intros id e He.
  match goal with F : forallb _ _ = true |- _ => rewrite forallb_forall in F; specialize (F (id, e)); apply nv_ok, F end.
  apply elem_of_list_In, elem_of_map_to_list. exact He.
Qed.
Fixpoint allz (ops : list zop) (s : zst) : bool := match ops with [] => true | o :: os => fairb s o && allz os (zx s o) end.
Lemma allz_ok ops : forall s, allz ops s = true -> along zx zfair ops s.
Proof.
  induction ops as [|o ops IH]; intros s H; [exact I|]. cbn [allz] in H. apply andb_true_iff in H. destruct H as [H1 H2].
  split; [apply fairb_ok; exact H1|apply IH; exact H2].
Qed.
(** A checker for [tstate]. *)
Definition tstateb (s : zst) : bool :=
  forallb (fun e : N * listing => let l := snd e in
    (l_seller l <? 2 ^ 160) && (l_price l <=? 2 ^ 128 - 1) && (l_asset l <=? 2 ^ 32 - 1) && (fst (split_toks (l_toks l)) <=? 2 ^ 32 - 1) &&
    forallb (fun n => n <=? 2 ^ 32 - 1) (snd (split_toks (l_toks l))) && (N.of_nat (List.length (snd (split_toks (l_toks l)))) <=? 2 ^ 20))
    (map_to_list (m_list (z_m s))) &&
  forallb (fun e : N * offer => let o := snd e in
    (o_buyer o <? 2 ^ 160) && (o_amount o <=? 2 ^ 128 - 1) && (fst (o_tok o) <=? 2 ^ 32 - 1) && (snd (o_tok o) <=? 2 ^ 32 - 1) &&
    (default 0 (o_market o) <=? 2 ^ 32 - 1)) (map_to_list (m_off (z_m s))) &&
  forallb (fun e : N * (N * N) => fst (snd e) <? 2 ^ 160) (map_to_list (m_mk (z_m s))) &&
  forallb (fun e : N * option N => default 0 (snd e) <=? 2 ^ 32 - 1) (map_to_list (z_mid s)) &&
  (m_nl (z_m s) <=? 2 ^ 128 - 1) && (m_no (z_m s) <=? 2 ^ 64 - 1) && (m_nm (z_m s) <=? 2 ^ 32 - 1).
Lemma forallb_map {A} (f : N * A -> bool) (m : gmap N A) k x : forallb f (map_to_list m) = true -> m !! k = Some x -> f (k, x) = true.
Proof. intros H E. rewrite forallb_forall in H. apply H, elem_of_list_In, elem_of_map_to_list, E. Qed.
Lemma tstateb_ok s : tstateb s = true -> tstate s.
Proof.
  unfold tstateb. intros H. repeat (apply andb_true_iff in H; destruct H as [H ?]).
  constructor; try (unfold u128, u32; apply N.leb_le; assumption).
  - intros lid l E. pose proof (forallb_map _ _ _ _ H E) as X. cbn [snd] in X. repeat (apply andb_true_iff in X; destruct X as [X ?]).
    unfold u128, u32. repeat split; try (apply N.leb_le; assumption); try (apply N.ltb_lt; assumption).
    apply Forall_forall. intros n Hn. match goal with F : forallb _ _ = true |- _ => rewrite forallb_forall in F end.
    apply N.leb_le. match goal with F : forall x, In x _ -> (x <=? _) = true |- _ => apply F, elem_of_list_In, Hn end.
  - intros oid o E. match goal with F : forallb _ (map_to_list (m_off _)) = true |- _ => pose proof (forallb_map _ _ _ _ F E) as X end.
    cbn [snd] in X. repeat (apply andb_true_iff in X; destruct X as [X ?]).
    unfold u128, u32. repeat split; try (apply N.leb_le; assumption); try (apply N.ltb_lt; assumption).
  - intros id e E. match goal with F : forallb _ (map_to_list (m_mk _)) = true |- _ => pose proof (forallb_map _ _ _ _ F E) as X end.
    apply N.ltb_lt. exact X.
  - intros lid. unfold mid. destruct (z_mid s !! lid) as [x|] eqn:E; [|vm_compute; discriminate].
    match goal with F : forallb _ (map_to_list (z_mid _)) = true |- _ => pose proof (forallb_map _ _ _ _ F E) as X end.
    apply N.leb_le. exact X.
Qed.
(** Account 1 has tokens 0 to 4 of NFT collection 1 and 100 of token 0 of SFT collection 2; accounts 2 to 4 have 1000 of asset 5. *)
Definition zsetup : list zop := map ZMkt setup.
Definition call_by (caller : N) (r : request) (roy : list (N * N)) : zop := ZCall caller false 0 (calldata r) (Some roy).
Definition from (ops : list zop) : zst := run zx ops (zinit None).
Definition zst_of (r : result (zst * list N)) : zst := match r with Ok (s, _) => s | Err _ => zinit None end.
Definition zout_of (r : result (zst * list N)) : list N := match r with Ok (_, o) => o | Err _ => [] end.
Lemma zran r : is_ok r = true -> r = Ok (zst_of r, zout_of r).
Proof. destruct r as [[s o]|]; [reflexivity|discriminate]. Qed.

(** An auction of the contract cannot be without a marketplace.  Where none is registered it fails … *)
Theorem C143_auction_impossible_refuted : exists ops, along zx zfair ops (zinit None) /\
  let s := from ops in
  is_ok (mexec 99 16 7 5000 100 10 1000 1000 98 1000 1000 (z_m s) (MAuction 1 (LNft 1 [0]) 5 100 None None (Some []))) = true /\
  forall old d market, d <= 2 ^ 32 - 1 -> market <= 2 ^ 32 - 1 ->
    exists e, zexec s 1 false 0 (calldata (RAuctionNft old 1 [0] 5 100 d market)) (Some []) = Err e.
Proof.
  exists zsetup. split; [apply allz_ok; vm_compute; reflexivity|]. cbv zeta.
  assert (S : tstate (from zsetup)) by (apply tstateb_ok; vm_compute; reflexivity).
  assert (K : forall i, m_mk (z_m (from zsetup)) !! i = None) by (intros i; vm_compute; reflexivity).
  assert (H1 : 1 < 2 ^ 160) by reflexivity.
  assert (M : is_ok (mexec 99 16 7 5000 100 10 1000 1000 98 1000 1000 (z_m (from zsetup)) (MAuction 1 (LNft 1 [0]) 5 100 None None (Some []))) = true)
    by (vm_compute; reflexivity).
  revert S K H1 M. generalize (from zsetup). intros s S K H1 M. split.
  - exact M.
  - intros old d market Hd Hm. set (r := RAuctionNft old 1 [0] 5 100 d market).
    assert (T : typed 1000 r).
    { subst r. cbn [typed]. split; [small|]. split; [apply Forall_cons; split; [small|constructor]|]. split; [split; vm_compute; discriminate|].
      split; [small|]. split; [small|]. split; [exact Hd|exact Hm]. }
    exact (C143_auction_needs 99 16 7 5000 100 10 1000 1000 98 1000 1000 1000 s 1 old 1 [0] 5 100 d market [] S T H1 (K market)).
Qed.
(** … and otherwise marketplace 0 gets its share of an auction that names none, but not of a sale. *)
Theorem C143_auction_zero_refuted : exists ops s1 a1 s2 a2 l1 l2, along zx zfair ops (zinit None) /\
  zexec (from ops) 1 false 0 (calldata (RAuctionNft false 1 [0] 5 100 0 0)) (Some []) = Ok (s1, a1) /\
  zexec (from ops) 1 false 0 (calldata (RSellNft false 1 [0] 0 5 100 0 0)) (Some []) = Ok (s2, a2) /\
  m_list (z_m s1) !! 0 = Some l1 /\ m_list (z_m s2) !! 0 = Some l2 /\ l_roy l1 = [(30, 100000)] /\ l_roy l2 = [].
Proof.
  set (ops := zsetup ++ [call_by 9 (RRegister 30 100000) []]).
  set (c1 := zexec (from ops) 1 false 0 (calldata (RAuctionNft false 1 [0] 5 100 0 0)) (Some [])).
  set (c2 := zexec (from ops) 1 false 0 (calldata (RSellNft false 1 [0] 0 5 100 0 0)) (Some [])).
  exists ops, (zst_of c1), (zout_of c1), (zst_of c2), (zout_of c2), (Listing true 5 100 100 None 1 (LNft 1 [0]) [(30, 100000)]),
    (Listing false 5 100 100 None 1 (LNft 1 [0]) []).
  split; [apply allz_ok; vm_compute; reflexivity|]. split; [apply (zran c1); vm_compute; reflexivity|].
  split; [apply (zran c2); vm_compute; reflexivity|]. split; [vm_compute; reflexivity|]. split; [vm_compute; reflexivity|]. split; reflexivity.
Qed.
(** An offer for a marketplace whose id is out of range is recorded for another one, and cannot be accepted. *)
Theorem C143_offer_refuted : exists ops call s' a o, along zx zfair ops (zinit None) /\
  call = build_call 0xf2800f37 [tA; tU; tU; tA; tU] [VN (erc_address 0xaaaaaaaa 1); VN 0; VN 100; VN (erc_address 0xcccccccc 5); VN (2 ^ 32 + 5)] /\
  zexec (from ops) 2 false 0 call None = Ok (s', a) /\ m_off (z_m s') !! 0 = Some o /\ o_market o = Some (2 ^ 32 - 1) /\
  owner_of (m_nft (z_m s')) 1 0 = Some 1 /\ exists e, zexec s' 1 false 0 (calldata (RAccept 0)) (Some []) = Err e.
Proof.
  set (call := build_call 0xf2800f37 [tA; tU; tU; tA; tU] [VN (erc_address 0xaaaaaaaa 1); VN 0; VN 100; VN (erc_address 0xcccccccc 5); VN (2 ^ 32 + 5)]).
  set (c := zexec (from zsetup) 2 false 0 call None).
  exists zsetup, call, (zst_of c), (zout_of c), (Offer (1, 0) 5 100 2 (Some (2 ^ 32 - 1))).
  split; [apply allz_ok; vm_compute; reflexivity|]. split; [reflexivity|]. split; [apply (zran c); vm_compute; reflexivity|].
  split; [vm_compute; reflexivity|]. split; [reflexivity|]. split; [vm_compute; reflexivity|].
  destruct (zexec (zst_of c) 1 false 0 (calldata (RAccept 0)) (Some [])) as [x|e] eqn:E; [|eexists; reflexivity].
  apply (f_equal is_ok) in E. vm_compute in E. discriminate E.
Qed.
(** A share of more than everything is registered as everything. *)
Theorem C143_share_refuted : exists ops s' a, along zx zfair ops (zinit None) /\
  zexec (from ops) 9 false 0 (calldata (RRegister 30 2000000)) None = Ok (s', a) /\ m_mk (z_m s') !! 0 = Some (30, 1000000).
Proof.
  set (c := zexec (from []) 9 false 0 (calldata (RRegister 30 2000000)) None). exists [], (zst_of c), (zout_of c).
  split; [exact I|]. split; [apply (zran c); vm_compute; reflexivity|]. vm_compute. reflexivity.
Qed.
Example C143_example : exists s' a, zexec (from (zsetup ++ [call_by 9 (RRegister 40 10000) []; call_by 9 (RRegister 30 100000) []])) 1 false 0
    (calldata (RSellNft false 1 [0; 2] 0 5 100 0 1)) (Some [(20, 50000)]) = Ok (s', a) /\ a = word 0 /\
  m_list (z_m s') !! 0 = Some (Listing false 5 100 100 None 1 (LNft 1 [0; 2]) [(20, 50000); (30, 100000)]) /\
  tstate (from (zsetup ++ [call_by 9 (RRegister 40 10000) []; call_by 9 (RRegister 30 100000) []])).
Proof.
  set (c := zexec _ _ _ _ _ _). exists (zst_of c), (zout_of c). split; [apply (zran c); vm_compute; reflexivity|].
  split; [vm_compute; reflexivity|]. split; [vm_compute; reflexivity|]. apply tstateb_ok. vm_compute. reflexivity.
Qed.

(** The view of a listing does not tell NFTs from SFTs, nor how many SFTs there are. *)
Lemma listing_view s caller static lid l : tstate s -> u128 lid -> m_list (z_m s) !! lid = Some l ->
  zexec s caller static 0 (build_call 0xaa64ebdb [tU] [VN lid]) None = Ok (s, enc_all listing_ty (described l)).
Proof.
  intros S U E. pose proof (C144_listing 99 16 7 5000 100 10 1000 1000 98 1000 1000 1000 s caller static None lid _ S U eq_refl) as X.
  rewrite E in X. exact X.
Qed.
Definition two_sales : list zop := zsetup ++ [call_by 1 (RSellSft 2 [(0, 1)] 0 5 100 0 0) []; call_by 1 (RSellSft 2 [(0, 50)] 0 5 100 0 0) []].
Theorem C144_quantities_refuted : exists ops l1 l2 a, along zx zfair ops (zinit None) /\
  m_list (z_m (from ops)) !! 0 = Some l1 /\ m_list (z_m (from ops)) !! 1 = Some l2 /\ l_toks l1 = LSft 2 [(0, 1)] /\ l_toks l2 = LSft 2 [(0, 50)] /\
  (forall caller static, zexec (from ops) caller static 0 (build_call 0xaa64ebdb [tU] [VN 0]) None = Ok (from ops, a)) /\
  (forall caller static, zexec (from ops) caller static 0 (build_call 0xaa64ebdb [tU] [VN 1]) None = Ok (from ops, a)) /\
  a = enc_all listing_ty [VB (text "fixed_price_listing_for_nft"); VN 2; vs [0]; VN 100; VN 5].
Proof.
  set (l1 := Listing false 5 100 100 None 1 (LSft 2 [(0, 1)]) []). set (l2 := Listing false 5 100 100 None 1 (LSft 2 [(0, 50)]) []).
  exists two_sales, l1, l2, (enc_all listing_ty (described l1)). split; [apply allz_ok; vm_compute; reflexivity|].
  assert (E1 : m_list (z_m (from two_sales)) !! 0 = Some l1) by (vm_compute; reflexivity).
  assert (E2 : m_list (z_m (from two_sales)) !! 1 = Some l2) by (vm_compute; reflexivity).
  assert (S : tstate (from two_sales)) by (apply tstateb_ok; vm_compute; reflexivity).
  assert (U0 : u128 0) by (vm_compute; discriminate). assert (U1 : u128 1) by (vm_compute; discriminate).
  split; [exact E1|]. split; [exact E2|]. split; [reflexivity|]. split; [reflexivity|]. split; [|split; [|reflexivity]].
  - intros caller static. exact (listing_view (from two_sales) caller static 0 l1 S U0 E1).
  - intros caller static. change (described l1) with (described l2). exact (listing_view (from two_sales) caller static 1 l2 S U1 E2).
Qed.

(** ** C145: events *)
Section events.
  Variable vault : N.
  Variable max_holds : nat.
  Variable pid net_fee default_duration max_offers : N.
  Variable cap mint_limit nft_pallet max_owners max_serials : N.
  Variable max_toks : N.
  Notation z_execute := (z_execute vault max_holds pid net_fee default_duration max_offers cap mint_limit nft_pallet max_owners max_serials max_toks).
  (** A successful call logs one entry, at the contract's address: the event of what was done. *)
  Theorem C145_event s caller r roy s' a : tstate s -> typed max_toks r -> caller < 2 ^ 160 ->
    z_execute s caller false 0 (calldata r) roy = Ok (s', a) ->
    z_logs s' = z_logs s ++ event s caller r /\ exists topics data, event s caller r = [Elog 0x6cd topics data].
  Proof.
    intros S T Hc H. destruct (C141_any _ _ _ _ _ _ _ _ _ _ _ _ _ _ _ _ _ _ _ _ H) as (_ & Y).
    pose proof (C141_exact vault max_holds pid net_fee default_duration max_offers cap mint_limit nft_pallet max_owners max_serials max_toks s caller r roy S T Hc) as X.
    destruct (mexec _ _ _ _ _ _ _ _ _ _ _ _ _) as [m|] eqn:E; [|destruct X as [e X]; rewrite X in H; discriminate H].
    rewrite X in H. injection H as <- <-. cbn [z_logs] in *. split; [reflexivity|]. clear X Y.
    destruct r; cbn [event meant mexec] in *; unfold at_market; try (eexists; eexists; reflexivity).
    - unfold update_price in E. destruct (m_list (z_m s) !! lid); [eexists; eexists; reflexivity|discriminate E].
    - unfold do_buy in E. destruct (m_list (z_m s) !! lid); [eexists; eexists; reflexivity|discriminate E].
    - unfold do_cancel in E. destruct (m_list (z_m s) !! lid); [eexists; eexists; reflexivity|discriminate E].
    - unfold cancel_offer in E. destruct (m_off (z_m s) !! oid); [eexists; eexists; reflexivity|discriminate E].
    - unfold accept_offer in E. destruct (m_off (z_m s) !! oid); [eexists; eexists; reflexivity|discriminate E].
  Qed.
End events.
(** The "sender" of [FixedPriceSaleComplete] is not who sent the call: different buyers leave the same event. *)
Theorem C145_sender_refuted : exists ops s2 s3 a2 a3 log, along zx zfair ops (zinit None) /\
  zexec (from ops) 2 false 0 (calldata (RBuy 0)) None = Ok (s2, a2) /\ zexec (from ops) 3 false 0 (calldata (RBuy 0)) None = Ok (s3, a3) /\
  owner_of (m_nft (z_m s2)) 1 0 = Some 2 /\ owner_of (m_nft (z_m s3)) 1 0 = Some 3 /\
  z_logs s2 = z_logs (from ops) ++ [log] /\ z_logs s3 = z_logs (from ops) ++ [log] /\
  lg_data log = enc_all [tA; tUs; tU] [VN 1; vs [0]; VN 0].
Proof.
  set (ops := zsetup ++ [call_by 1 (RSellNft false 1 [0] 0 5 100 0 0) []]).
  set (c2 := zexec (from ops) 2 false 0 (calldata (RBuy 0)) None). set (c3 := zexec (from ops) 3 false 0 (calldata (RBuy 0)) None).
  exists ops, (zst_of c2), (zst_of c3), (zout_of c2), (zout_of c3),
    (Elog 0x6cd [0xee2ae8905e5709d39caba7510c437943f14bcdd96a406b03afc75e0cbfd04994; 1; 0; 100] (enc_all [tA; tUs; tU] [VN 1; vs [0]; VN 0])).
  split; [apply allz_ok; vm_compute; reflexivity|]. split; [apply (zran c2); vm_compute; reflexivity|].
  split; [apply (zran c3); vm_compute; reflexivity|]. split; [vm_compute; reflexivity|]. split; [vm_compute; reflexivity|].
  split; [vm_compute; reflexivity|]. split; [vm_compute; reflexivity|]. reflexivity.
Qed.
(** [MarketplaceRegister] does not name the account registered when that is the caller. *)
Theorem C145_account_refuted : exists s' a log, zexec (zinit None) 9 false 0 (calldata (RRegister 0 10000)) None = Ok (s', a) /\
  m_mk (z_m s') !! 0 = Some (9, 10000) /\ z_logs s' = [log] /\ lg_data log = enc_all [tA] [VN 0].
Proof.
  set (c := zexec (zinit None) 9 false 0 (calldata (RRegister 0 10000)) None).
  exists (zst_of c), (zout_of c), (Elog 0x6cd [0x65630e2db9ff0a156ba0f529072ee18f7a4f0878ca57584c04a3df34a631c0a7; 9; 0] (enc_all [tA] [VN 0])).
  split; [apply (zran c); vm_compute; reflexivity|]. split; [vm_compute; reflexivity|]. split; [vm_compute; reflexivity|]. reflexivity.
Qed.
(** Two auctions of different quantities leave the same event. *)
Theorem C145_quantities_refuted : exists ops s1 s2 a1 a2 l1 l2, along zx zfair ops (zinit None) /\
  zexec (from ops) 1 false 0 (calldata (RAuctionSft 2 [(0, 1)] 5 100 0 0)) (Some []) = Ok (s1, a1) /\
  zexec (from ops) 1 false 0 (calldata (RAuctionSft 2 [(0, 50)] 5 100 0 0)) (Some []) = Ok (s2, a2) /\
  m_list (z_m s1) !! 0 = Some l1 /\ m_list (z_m s2) !! 0 = Some l2 /\ l_toks l1 = LSft 2 [(0, 1)] /\ l_toks l2 = LSft 2 [(0, 50)] /\
  z_logs s1 = z_logs s2 /\ length (z_logs s1) = S (length (z_logs (from ops))).
Proof.
  set (ops := zsetup ++ [call_by 9 (RRegister 30 100000) []]).
  set (c1 := zexec (from ops) 1 false 0 (calldata (RAuctionSft 2 [(0, 1)] 5 100 0 0)) (Some [])).
  set (c2 := zexec (from ops) 1 false 0 (calldata (RAuctionSft 2 [(0, 50)] 5 100 0 0)) (Some [])).
  exists ops, (zst_of c1), (zst_of c2), (zout_of c1), (zout_of c2), (Listing true 5 100 100 None 1 (LSft 2 [(0, 1)]) [(30, 100000)]),
    (Listing true 5 100 100 None 1 (LSft 2 [(0, 50)]) [(30, 100000)]).
  split; [apply allz_ok; vm_compute; reflexivity|]. split; [apply (zran c1); vm_compute; reflexivity|].
  split; [apply (zran c2); vm_compute; reflexivity|]. split; [vm_compute; reflexivity|]. split; [vm_compute; reflexivity|].
  split; [reflexivity|]. split; [reflexivity|]. split; vm_compute; reflexivity.
Qed.

(** A history through the contract: sale, price change, auction, bids, offer, purchase, acceptance, cancellation. *)
Definition a_history : list zop := zsetup ++
  [call_by 9 (RRegister 30 10000) []; call_by 1 (RSellNft false 1 [0; 2] 4 5 500 7 0) [(20, 50000)];
   call_by 1 (RUpdate 0 400) []; call_by 1 (RAuctionSft 2 [(0, 10)] 5 100 20 0) []; call_by 3 (RBid 1 150) []; call_by 2 (RBid 1 200) [];
   call_by 3 (ROffer false 1 1 30 5 0) []].
Example C141_example : along zx zfair a_history (zinit None) /\ tstate (from a_history) /\
  (exists s' a, zexec (from a_history) 4 false 0 (calldata (RBuy 0)) None = Ok (s', a) /\ a = [] /\
    balance (al (m_as (z_m s'))) 5 4 = 600 /\ balance (al (m_as (z_m s'))) 5 1 = 380 /\ balance (al (m_as (z_m s'))) 5 20 = 20 /\
    owner_of (m_nft (z_m s')) 1 2 = Some 4 /\ length (z_logs s') = 8%nat) /\
  (exists s' a, zexec (from a_history) 1 false 0 (calldata (RAccept 0)) (Some []) = Ok (s', a) /\ owner_of (m_nft (z_m s')) 1 1 = Some 3 /\
    balance (al (m_as (z_m s'))) 5 1 = 30) /\
  (exists s' a, zexec (from a_history) 3 false 0 (calldata (RCancelOffer 0)) None = Ok (s', a) /\ balance (al (m_as (z_m s'))) 5 3 = 1000) /\
  (exists s' a, zexec (from a_history) 1 false 0 (calldata (RCancel 0)) None = Ok (s', a) /\ m_list (z_m s') !! 0 = None) /\
  (exists e, zexec (from a_history) 3 false 0 (calldata (RBuy 0)) None = Err e) /\
  (exists e, zexec (from a_history) 4 true 0 (calldata (RBuy 0)) None = Err e) /\
  (exists e, zexec (from a_history) 4 false 1 (calldata (RBuy 0)) None = Err e).
Proof.
  split; [apply allz_ok; vm_compute; reflexivity|]. split; [apply tstateb_ok; vm_compute; reflexivity|].
  split. { set (c := zexec _ _ _ _ _ _). exists (zst_of c), (zout_of c). split; [apply (zran c); vm_compute; reflexivity|]. vm_compute. repeat split. }
  split. { set (c := zexec _ _ _ _ _ _). exists (zst_of c), (zout_of c). split; [apply (zran c); vm_compute; reflexivity|]. vm_compute. repeat split. }
  split. { set (c := zexec _ _ _ _ _ _). exists (zst_of c), (zout_of c). split; [apply (zran c); vm_compute; reflexivity|]. vm_compute. repeat split. }
  split. { set (c := zexec _ _ _ _ _ _). exists (zst_of c), (zout_of c). split; [apply (zran c); vm_compute; reflexivity|]. vm_compute. repeat split. }
  split; [|split].
  all: match goal with |- exists e, ?x = Err e => destruct x as [y|e] eqn:E; [|eexists; reflexivity] end; apply (f_equal is_ok) in E; vm_compute in E; discriminate E.
Qed.
Example C142_example : exists s' a l, opens 5000 100 (from a_history) 1 [(20, 50000)] (RSellSft 2 [(0, 3)] 0 5 60 0 0) = Some l /\
  typed 1000 (RSellSft 2 [(0, 3)] 0 5 60 0 0) /\
  zexec (from a_history) 1 false 0 (calldata (RSellSft 2 [(0, 3)] 0 5 60 0 0)) (Some [(20, 50000)]) = Ok (s', a) /\ a = word 2 /\
  m_list (z_m s') !! 2 = Some l /\ l = Listing false 5 60 100 None 1 (LSft 2 [(0, 3)]) [(20, 50000)].
Proof.
  set (c := zexec _ _ _ _ _ _). exists (zst_of c), (zout_of c), (Listing false 5 60 100 None 1 (LSft 2 [(0, 3)]) [(20, 50000)]).
  split; [vm_compute; reflexivity|]. split.
  { cbn [typed map fst snd]. split; [small|]. split; [apply Forall_cons; split; [small|constructor]|]. split; [apply Forall_cons; split; [small|constructor]|].
    split; [split; vm_compute; discriminate|]. split; [reflexivity|]. split; [small|]. split; [small|]. split; [small|small]. }
  split; [apply (zran c); vm_compute; reflexivity|]. split; [vm_compute; reflexivity|]. split; [vm_compute; reflexivity|reflexivity].
Qed.
Example C140_example : exists e, zexec (from a_history) 2 false 0
  (build_call 0xdc22283b [tU; tU] [VN 1; VN 300]) None = Err e /\ is_ok (zexec (from a_history) 2 false 0 (calldata (RBid 1 300)) None) = true.
Proof.
  destruct (zexec (from a_history) 2 false 0 (build_call 0xdc22283b [tU; tU] [VN 1; VN 300]) None) as [x|e] eqn:E.
  - apply (f_equal is_ok) in E. vm_compute in E. discriminate E.
  - exists e. split; [reflexivity|vm_compute; reflexivity].
Qed.
Definition C140_C145_all := (C140_known_only, C140_published_refuted, C140_rest_known, C141_exact, C141_any, C141_histories, C141_money,
  C142_terms, C143_sale_without, C143_with, C143_first_unnamed, C143_auction_needs, C143_auction_impossible_refuted, C143_auction_zero_refuted,
  C143_offer_refuted, C143_share_refuted, C144_listing, C144_offer, C144_account, C144_buy, C144_quantities_refuted, C145_event,
  C145_sender_refuted, C145_account_refuted, C145_quantities_refuted).
Print Assumptions C140_C145_all.
