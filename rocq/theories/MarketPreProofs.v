(** Proofs about the marketplace's EVM contract. *)
From Verif Require Export MarketPreModel Erc1155Proofs AbiProps MarketProofs MarketMoney MarketTerms MarketProps MarketTermsProps.

(** ** The calls as Solidity writes them *)
(** Addresses of assets and collections: the prefix, the id, and zeros. *)
Definition erc_address (prefix x : N) : N := prefix * 2 ^ 128 + x * 2 ^ 96.
Lemma at_address p x : x <= U32MAX -> coll_at p (erc_address p x) = Some x.
Proof.
  intros H. unfold coll_at, erc_address, U32MAX in *.
  assert (E1 : (p * 2 ^ 128 + x * 2 ^ 96) / 2 ^ 128 = p) by (symmetry; apply (N.div_unique _ _ _ (x * 2 ^ 96)); lia).
  assert (E2 : (p * 2 ^ 128 + x * 2 ^ 96) / 2 ^ 96 = p * 2 ^ 32 + x) by (symmetry; apply (N.div_unique _ _ _ 0); lia).
  rewrite E1, E2, N.eqb_refl. f_equal. symmetry. apply (N.mod_unique _ _ p); lia.
Qed.
Lemma asset_at_coll a : asset_at a = coll_at 0xcccccccc a.
Proof. reflexivity. Qed.
Lemma address_wt p x : p < 2 ^ 32 -> x <= U32MAX -> erc_address p x < 2 ^ 160.
Proof. intros Hp H. unfold erc_address, U32MAX in *. lia. Qed.

(** What a caller can ask for: the functions that change the state, with their arguments.  [old]: by the
    deprecated name. *)
Inductive request :=
| RRegister (account entitlement : N)
| RSellNft (old : bool) (c : N) (ns : list N) (buyer asset price duration market : N)
| RSellSft (c : N) (l : list (N * N)) (buyer asset price duration market : N)
| RUpdate (lid price : N)
| RBuy (lid : N)
| RAuctionNft (old : bool) (c : N) (ns : list N) (asset price duration market : N)
| RAuctionSft (c : N) (l : list (N * N)) (asset price duration market : N)
| RBid (lid amount : N)
| RCancel (lid : N)
| ROffer (old : bool) (c n amount asset market : N)
| RCancelOffer (oid : N)
| RAccept (oid : N).
Definition vs (l : list N) : val := VL (map VN l).
(** The selector, the types and the arguments of the call, and its bytes. *)
Definition selector_of (r : request) : N :=
  match r with
  | RRegister _ _ => 0xb170c834
  | RSellNft old _ _ _ _ _ _ _ => if old then 0x580ae278 else 0x9b3808b2
  | RSellSft _ _ _ _ _ _ _ => 0x8ab40b96
  | RUpdate _ _ => 0xf14f8c36
  | RBuy _ => 0x58db52a2
  | RAuctionNft old _ _ _ _ _ _ => if old then 0xed028c37 else 0x935d6b70
  | RAuctionSft _ _ _ _ _ _ => 0x70ae1517
  | RBid _ _ => 0x5473427b
  | RCancel _ => 0x70f3ab39
  | ROffer old _ _ _ _ _ => if old then 0xa9438074 else 0xf2800f37
  | RCancelOffer _ => 0x66948833
  | RAccept _ => 0xf23bc4f8
  end.
Definition types_of (r : request) : list ty :=
  match r with
  | RRegister _ _ => [tA; tU]
  | RSellNft _ _ _ _ _ _ _ _ => [tA; tUs; tA; tA; tU; tU; tU]
  | RSellSft _ _ _ _ _ _ _ => [tA; tUs; tUs; tA; tA; tU; tU; tU]
  | RAuctionNft _ _ _ _ _ _ _ => [tA; tUs; tA; tU; tU; tU]
  | RAuctionSft _ _ _ _ _ _ => [tA; tUs; tUs; tA; tU; tU; tU]
  | ROffer _ _ _ _ _ _ => [tA; tU; tU; tA; tU]
  | RUpdate _ _ | RBid _ _ => [tU; tU]
  | RBuy _ | RCancel _ | RCancelOffer _ | RAccept _ => [tU]
  end.
Definition arguments_of (r : request) : list val :=
  match r with
  | RRegister account e => [VN account; VN e]
  | RSellNft _ c ns buyer asset price duration market =>
      [VN (erc_address 0xaaaaaaaa c); vs ns; VN buyer; VN (erc_address 0xcccccccc asset); VN price; VN duration; VN market]
  | RSellSft c l buyer asset price duration market =>
      [VN (erc_address 0xbbbbbbbb c); vs (map fst l); vs (map snd l); VN buyer; VN (erc_address 0xcccccccc asset); VN price;
       VN duration; VN market]
  | RAuctionNft _ c ns asset price duration market =>
      [VN (erc_address 0xaaaaaaaa c); vs ns; VN (erc_address 0xcccccccc asset); VN price; VN duration; VN market]
  | RAuctionSft c l asset price duration market =>
      [VN (erc_address 0xbbbbbbbb c); vs (map fst l); vs (map snd l); VN (erc_address 0xcccccccc asset); VN price; VN duration; VN market]
  | ROffer _ c n amount asset market => [VN (erc_address 0xaaaaaaaa c); VN n; VN amount; VN (erc_address 0xcccccccc asset); VN market]
  | RUpdate lid x | RBid lid x => [VN lid; VN x]
  | RBuy i | RCancel i | RCancelOffer i | RAccept i => [VN i]
  end.
Definition calldata (r : request) : list N := build_call (selector_of r) (types_of r) (arguments_of r).
(** Zero stands for "nobody", "default duration", "no marketplace". *)
Definition unless0 (n : N) : option N := if n =? 0 then None else Some n.
(** The operation of the pallet that is meant. *)
Definition meant (caller : N) (roy : option (list (N * N))) (r : request) : mop :=
  match r with
  | RRegister account e => MRegister (if account =? 0 then caller else account) (N.min e 1000000)
  | RSellNft _ c ns buyer asset price duration market =>
      MSell caller (LNft c ns) (unless0 buyer) asset price (unless0 duration) (unless0 market) roy
  | RSellSft c l buyer asset price duration market =>
      MSell caller (LSft c l) (unless0 buyer) asset price (unless0 duration) (unless0 market) roy
  | RUpdate lid price => MUpdate caller lid price
  | RBuy lid => MBuy caller lid
  | RAuctionNft _ c ns asset price duration market => MAuction caller (LNft c ns) asset price (unless0 duration) (Some market) roy
  | RAuctionSft c l asset price duration market => MAuction caller (LSft c l) asset price (unless0 duration) (Some market) roy
  | RBid lid amount => MBid caller lid amount
  | RCancel lid => MCancel caller lid
  | ROffer _ c n amount asset market => MOffer caller (c, n) amount asset (Some market)
  | RCancelOffer oid => MCancelOffer caller oid
  | RAccept oid => MAccept caller oid roy
  end.
(** The arguments are within the types of the Rust code. *)
Definition u32 (n : N) : Prop := n <= 2 ^ 32 - 1.
Definition u128 (n : N) : Prop := n <= 2 ^ 128 - 1.
Definition few (k : N) (n : nat) : Prop := N.of_nat n <= k /\ N.of_nat n <= 2 ^ 20.
Definition typed (max_toks : N) (r : request) : Prop :=
  match r with
  | RRegister account e => account < 2 ^ 160 /\ u32 e
  | RSellNft _ c ns buyer asset price duration market =>
      u32 c /\ Forall u32 ns /\ few max_toks (length ns) /\ buyer < 2 ^ 160 /\ u32 asset /\ u128 price /\ u32 duration /\ u32 market
  | RSellSft c l buyer asset price duration market =>
      u32 c /\ Forall u32 (map fst l) /\ Forall u128 (map snd l) /\ few max_toks (length l) /\ buyer < 2 ^ 160 /\ u32 asset /\
      u128 price /\ u32 duration /\ u32 market
  | RUpdate lid price => u128 lid /\ u128 price
  | RBuy lid => u128 lid
  | RAuctionNft _ c ns asset price duration market =>
      u32 c /\ Forall u32 ns /\ few max_toks (length ns) /\ u32 asset /\ u128 price /\ u32 duration /\ u32 market
  | RAuctionSft c l asset price duration market =>
      u32 c /\ Forall u32 (map fst l) /\ Forall u128 (map snd l) /\ few max_toks (length l) /\ u32 asset /\ u128 price /\
      u32 duration /\ u32 market
  | RBid lid amount => u128 lid /\ u128 amount
  | RCancel lid => u128 lid
  | ROffer _ c n amount asset market => u32 c /\ u32 n /\ u128 amount /\ u32 asset /\ u32 market
  | RCancelOffer oid => oid <= 2 ^ 64 - 1
  | RAccept oid => oid <= 2 ^ 64 - 1
  end.
(** Likewise the numbers stored. *)
Record tstate (s : zst) : Prop := {
  ts_list : forall lid l, m_list (z_m s) !! lid = Some l ->
    l_seller l < 2 ^ 160 /\ u128 (l_price l) /\ u32 (l_asset l) /\ u32 (fst (split_toks (l_toks l))) /\
    Forall u32 (snd (split_toks (l_toks l))) /\ N.of_nat (length (snd (split_toks (l_toks l)))) <= 2 ^ 20;
  ts_off : forall oid o, m_off (z_m s) !! oid = Some o ->
    o_buyer o < 2 ^ 160 /\ u128 (o_amount o) /\ u32 (fst (o_tok o)) /\ u32 (snd (o_tok o)) /\ u32 (default 0 (o_market o));
  ts_mk : forall id e, m_mk (z_m s) !! id = Some e -> fst e < 2 ^ 160;
  ts_mid : forall lid, u32 (mid s lid);
  ts_nl : u128 (m_nl (z_m s));
  ts_no : m_no (z_m s) <= 2 ^ 64 - 1;
  ts_nm : u32 (m_nm (z_m s)) }.

(** The event logged, at the contract's address: the topics and the ABI encoding of the rest. *)
Definition collection_of (t : tokens) : N := match t with LNft c _ => c | LSft c _ => c end.
Definition serials_of (t : tokens) : list N := match t with LNft _ ns => ns | LSft _ l => map fst l end.
Definition at_market (topics data : list N) : list elog := [Elog 0x6cd topics data].
Definition event (s : zst) (caller : N) (r : request) : list elog :=
  let lid := m_nl (z_m s) in
  let of_listing i k := match m_list (z_m s) !! i with Some l => k l | None => [] end in
  let of_offer i k := match m_off (z_m s) !! i with Some o => k o | None => [] end in
  match r with
  | RRegister account _ =>
      at_market [0x65630e2db9ff0a156ba0f529072ee18f7a4f0878ca57584c04a3df34a631c0a7; caller; m_nm (z_m s)] (enc_all [tA] [VN account])
  | RSellNft _ c ns _ _ price _ market =>
      at_market [0x5fc6c57cf523538d9f361ca1130e724705b7eddbac864fc9b4fe2414603a7ee4; caller; lid; price]
        (enc_all [tUs; tA; tU] [vs ns; VN (erc_address 0xaaaaaaaa c); VN market])
  | RSellSft c l _ _ price _ market =>
      at_market [0xa3254d4d739a70e5bba93b66e5fff05b920ee9ebfdded1e7609c77e65d73d5a0; caller; lid; price]
        (enc_all [tUs; tA; tU; tUs] [vs (map fst l); VN (erc_address 0xbbbbbbbb c); VN market; vs (map snd l)])
  | RUpdate i price => of_listing i (fun l =>
      at_market [0x5aa5a1815b92a3c30e2266c403e642108a2de0f5fc99bb03e61ff02d3d0ecc5b; collection_of (l_toks l); i; price]
        (enc_all [tA; tUs; tU] [VN caller; vs (serials_of (l_toks l)); VN (mid s i)]))
  | RBuy i => of_listing i (fun l =>
      at_market [0xee2ae8905e5709d39caba7510c437943f14bcdd96a406b03afc75e0cbfd04994; collection_of (l_toks l); i; l_price l]
        (enc_all [tA; tUs; tU] [VN (l_seller l); vs (serials_of (l_toks l)); VN (mid s i)]))
  | RAuctionNft _ c ns _ price _ market =>
      at_market [0x2596edae071e46e0cb8ef9d0d403afc3b2d8324134a97eac50f37322320dd60f; c; lid; price]
        (enc_all [tA; tUs; tU] [VN caller; vs ns; VN market])
  | RAuctionSft c l _ price _ market =>
      at_market [0x167f4126fac08fa3ddb67c0edd3b444e0f14eef62603c1e277d438a3a0f128ca; c; lid; price]
        (enc_all [tA; tUs; tU] [VN caller; vs (map fst l); VN market])
  | RBid i amount =>
      at_market [0x98a1579f1297deb8662af6e42d3338cb29fdca128766602426cf5d609bcf284f; caller; i; amount] (enc_all [tU] [VN (mid s i)])
  | RCancel i => of_listing i (fun l =>
      at_market [if l_auction l then 0x2a5f67914026cf5350766bc0e31fadfa2ba8f24107d9d73324b97b29093f1bb3
                 else 0xc589bcadbff1f38e03b5f27e007d114bdfc595f8ab827181c2a32286bf19a539; collection_of (l_toks l); i]
        (enc_all [tA; tUs; tU] [VN caller; vs (serials_of (l_toks l)); VN (mid s i)]))
  | ROffer _ c n _ _ market =>
      at_market [0x0814d08b51a4d02cbb9f4c201230a4525da717936d7703c7d68a60f167eeef0e; m_no (z_m s); caller]
        (enc_all [tU; tU; tU] [VN c; VN n; VN market])
  | RCancelOffer i => of_offer i (fun o =>
      at_market [0xc76508013e9aa2001c2ea283f6279c220878ae9033645174c42a46149b49407f; i; caller]
        (enc_all [tU; tU; tU] [VN (fst (o_tok o)); VN (snd (o_tok o)); VN (default 0 (o_market o))]))
  | RAccept i => of_offer i (fun o =>
      at_market [0x27a679b35eae6091a2f7f40e6a31c24c0cd14469d7afe9de9e01720a53a98f99; i; o_amount o; caller]
        (enc_all [tU; tU; tU] [VN (fst (o_tok o)); VN (snd (o_tok o)); VN (default 0 (o_market o))]))
  end.
(** The answer: the id of what was created. *)
Definition answer (s : zst) (r : request) : list N :=
  match r with
  | RRegister _ _ => word (m_nm (z_m s))
  | RSellNft _ _ _ _ _ _ _ _ | RSellSft _ _ _ _ _ _ _ => word (m_nl (z_m s))
  | ROffer _ _ _ _ _ _ => word (m_no (z_m s))
  | _ => []
  end.
(** The marketplace recorded with a new listing. *)
Definition recorded (s : zst) (r : request) : gmap N (option N) :=
  match r with
  | RSellNft _ _ _ _ _ _ _ market | RSellSft _ _ _ _ _ _ market => <[m_nl (z_m s) := unless0 market]> (z_mid s)
  | RAuctionNft _ _ _ _ _ _ market | RAuctionSft _ _ _ _ _ market => <[m_nl (z_m s) := Some market]> (z_mid s)
  | _ => z_mid s
  end.

(** ** Reading the calls *)
Lemma call_read ts l sel : nlen (enc_all ts l) <= USIZE -> wt_all ts l -> sel < 2 ^ 32 ->
  read_selector (build_call sel ts l) = Ok sel /\ read_args ts (build_call sel ts l) = Ok l.
Proof. intros H1 H2 H3. pose proof (C117_roundtrip ts l sel [] H3 H2) as H. rewrite !app_nil_r in H. auto. Qed.
Lemma vs_wt l : Forall (fun n => n < 2 ^ 256) l -> N.of_nat (length l) <= 2 ^ 20 -> wt tUs (vs l) /\ nlen (enc tUs (vs l)) = 32 + 32 * N.of_nat (length l).
Proof.
  intros H1 H2. assert (W : Forall (wt tU) (map VN l)) by (apply Forall_map; eapply Forall_impl; [exact H1|intros x Hx; apply wt_tU; exact Hx]).
  split; [apply wt_vec; split; [rewrite map_length; unfold U32MAX; lia|exact W]|]. unfold vs. rewrite enc_us_len, map_length by exact W. reflexivity.
Qed.
Lemma u32s l : Forall u32 l -> Forall (fun n => n < 2 ^ 256) l.
Proof. intros H. eapply Forall_impl; [exact H|]. unfold u32. cbv beta. intros; lia. Qed.
Lemma u128s l : Forall u128 l -> Forall (fun n => n < 2 ^ 256) l.
Proof. intros H. eapply Forall_impl; [exact H|]. unfold u128. cbv beta. intros; lia. Qed.
Lemma wtU n : n < 2 ^ 256 -> wt tU (VN n).
Proof. apply wt_tU. Qed.
Lemma wtA n : n < 2 ^ 160 -> wt tA (VN n).
Proof. intros H. exact H. Qed.
Lemma lenU n : length (enc tU (VN n)) = 32%nat.
Proof. exact (word_length n). Qed.
Lemma lenA n : length (enc tA (VN n)) = 32%nat.
Proof. exact (word_length n). Qed.
Ltac enc_len := unfold enc_all, abi_seq; rewrite nlen_app; unfold nlen at 1; rewrite heads_length; unfold AbiProofs.parts;
  change (is_static tU) with true; change (is_static tA) with true; change (is_static tUs) with false; cbn [hsize tails];
  rewrite ?app_nil_l, ?app_nil_r, ?nlen_app, ?lenU, ?lenA; change (nlen []) with 0.
Lemma all_le_ok mx l : Forall (fun n => n <= mx) l -> all_le mx l = true.
Proof. intros H. apply forallb_forall. intros x Hx. apply N.leb_le. rewrite List.Forall_forall in H. auto. Qed.
Lemma nums_vs l : nums (map VN l) = l.
Proof. apply nums_map. Qed.
Ltac small := unfold few, u32, u128, USIZE, U32MAX in *; nodiv; lia.
Lemma calldata_read k r : typed k r -> read_selector (calldata r) = Ok (selector_of r) /\ read_args (types_of r) (calldata r) = Ok (arguments_of r).
Proof.
  intros T. unfold calldata.
  destruct r as [account e|old c ns buyer asset price d mk|c l buyer asset price d mk|lid price|lid|old c ns asset price d mk|
    c l asset price d mk|lid amount|lid|old c n amount asset mk|oid|oid]; cbn [selector_of types_of arguments_of typed] in *.
  - destruct T as (T1 & T2). apply call_read; [enc_len; small| |reflexivity].
    split; [apply wtA; small|]. split; [apply wtU; small|exact I].
  - destruct T as (T1 & T2 & T3 & T4 & T5 & T6 & T7 & T8). destruct (vs_wt ns (u32s _ T2) (proj2 T3)) as [W L].
    apply call_read; [enc_len; rewrite L; small| |destruct old; reflexivity].
    split; [apply wtA, address_wt; small|]. split; [exact W|]. split; [apply wtA; exact T4|]. split; [apply wtA, address_wt; small|].
    split; [apply wtU; small|]. split; [apply wtU; small|]. split; [apply wtU; small|exact I].
  - destruct T as (T1 & T2 & T3 & T4 & T5 & T6 & T7 & T8 & T9).
    destruct (vs_wt (map fst l) (u32s _ T2)) as [W L]; [rewrite map_length; exact (proj2 T4)|].
    destruct (vs_wt (map snd l) (u128s _ T3)) as [W' L']; [rewrite map_length; exact (proj2 T4)|]. rewrite map_length in L, L'.
    apply call_read; [enc_len; rewrite L, L'; small| |reflexivity].
    split; [apply wtA, address_wt; small|]. split; [exact W|]. split; [exact W'|]. split; [apply wtA; exact T5|].
    split; [apply wtA, address_wt; small|].
    split; [apply wtU; small|]. split; [apply wtU; small|]. split; [apply wtU; small|exact I].
  - destruct T as (T1 & T2). apply call_read; [enc_len; small| |reflexivity].
    split; [apply wtU; small|]. split; [apply wtU; small|exact I].
  - apply call_read; [enc_len; small| |reflexivity]. split; [apply wtU; small|exact I].
  - destruct T as (T1 & T2 & T3 & T4 & T5 & T6 & T7). destruct (vs_wt ns (u32s _ T2) (proj2 T3)) as [W L].
    apply call_read; [enc_len; rewrite L; small| |destruct old; reflexivity].
    split; [apply wtA, address_wt; small|]. split; [exact W|]. split; [apply wtA, address_wt; small|].
    split; [apply wtU; small|]. split; [apply wtU; small|]. split; [apply wtU; small|exact I].
  - destruct T as (T1 & T2 & T3 & T4 & T5 & T6 & T7 & T8).
    destruct (vs_wt (map fst l) (u32s _ T2)) as [W L]; [rewrite map_length; exact (proj2 T4)|].
    destruct (vs_wt (map snd l) (u128s _ T3)) as [W' L']; [rewrite map_length; exact (proj2 T4)|]. rewrite map_length in L, L'.
    apply call_read; [enc_len; rewrite L, L'; small| |reflexivity].
    split; [apply wtA, address_wt; small|]. split; [exact W|]. split; [exact W'|].
    split; [apply wtA, address_wt; small|].
    split; [apply wtU; small|]. split; [apply wtU; small|]. split; [apply wtU; small|exact I].
  - destruct T as (T1 & T2). apply call_read; [enc_len; small| |reflexivity].
    split; [apply wtU; small|]. split; [apply wtU; small|exact I].
  - apply call_read; [enc_len; small| |reflexivity]. split; [apply wtU; small|exact I].
  - destruct T as (T1 & T2 & T3 & T4 & T5). apply call_read; [enc_len; small| |destruct old; reflexivity].
    split; [apply wtA, address_wt; small|]. split; [apply wtU; small|]. split; [apply wtU; small|].
    split; [apply wtA, address_wt; small|]. split; [apply wtU; small|exact I].
  - apply call_read; [enc_len; small| |reflexivity]. split; [apply wtU; small|exact I].
  - apply call_read; [enc_len; small| |reflexivity]. split; [apply wtU; small|exact I].
Qed.
Lemma collection_split t : split_toks t = (collection_of t, serials_of t).
Proof. destruct t; reflexivity. Qed.
Lemma unless0_opt n : opt_addr n = unless0 n.
Proof. reflexivity. Qed.
Lemma unless0_default n : default 0 (unless0 n) = n.
Proof. unfold unless0. destruct (N.eqb_spec n 0) as [->|]; reflexivity. Qed.
Lemma combine_split {A B} (l : list (A * B)) : combine (map fst l) (map snd l) = l.
Proof. induction l as [|[x y] l IH]; [reflexivity|]. cbn [map combine fst snd]. rewrite IH. reflexivity. Qed.
Lemma out_ids l x y : Forall u32 l -> N.of_nat (length l) <= 2 ^ 20 -> x < 2 ^ 160 -> u32 y ->
  out [tA; tUs; tU] [VN x; vs l; VN y] = enc_all [tA; tUs; tU] [VN x; vs l; VN y].
Proof.
  intros H1 H2 H3 H4. destruct (vs_wt l (u32s _ H1) H2) as [W _]. apply out_spec.
  split; [apply wtA, H3|]. split; [exact W|]. split; [apply wtU; small|exact I].
Qed.
Lemma out_ids2 l x y : Forall u32 l -> N.of_nat (length l) <= 2 ^ 20 -> x < 2 ^ 160 -> u32 y ->
  out [tUs; tA; tU] [vs l; VN x; VN y] = enc_all [tUs; tA; tU] [vs l; VN x; VN y].
Proof.
  intros H1 H2 H3 H4. destruct (vs_wt l (u32s _ H1) H2) as [W _]. apply out_spec.
  split; [exact W|]. split; [apply wtA, H3|]. split; [apply wtU; small|exact I].
Qed.
Lemma out_ids3 l l' x y : Forall u32 l -> N.of_nat (length l) <= 2 ^ 20 -> Forall u128 l' -> N.of_nat (length l') <= 2 ^ 20 -> x < 2 ^ 160 -> u32 y ->
  out [tUs; tA; tU; tUs] [vs l; VN x; VN y; vs l'] = enc_all [tUs; tA; tU; tUs] [vs l; VN x; VN y; vs l'].
Proof.
  intros H1 H2 H3' H4' H3 H4. destruct (vs_wt l (u32s _ H1) H2) as [W _]. destruct (vs_wt l' (u128s _ H3') H4') as [W' _]. apply out_spec.
  split; [exact W|]. split; [apply wtA, H3|]. split; [apply wtU; small|]. split; [exact W'|exact I].
Qed.
Lemma out_three x y z : u32 x -> u32 y -> u32 z -> out [tU; tU; tU] [VN x; VN y; VN z] = enc_all [tU; tU; tU] [VN x; VN y; VN z].
Proof. intros H1 H2 H3. apply out_spec. split; [apply wtU; small|]. split; [apply wtU; small|]. split; [apply wtU; small|exact I]. Qed.
Lemma out_one x : x < 2 ^ 256 -> out [tU] [VN x] = word x.
Proof. intros H. rewrite out_spec by (split; [apply wtU, H|exact I]). reflexivity. Qed.
Lemma out_addr1 x : x < 2 ^ 160 -> out [tA] [VN x] = enc_all [tA] [VN x].
Proof. intros H. apply out_spec. split; [apply wtA, H|exact I]. Qed.
Lemma out_u1 x : u32 x -> out [tU] [VN x] = enc_all [tU] [VN x].
Proof. intros H. apply out_spec. split; [apply wtU; small|exact I]. Qed.

Section exec.
  Variable vault : N.
  Variable max_holds : nat.
  Variable pid net_fee default_duration max_offers : N.
  Variable cap mint_limit nft_pallet max_owners max_serials : N.
  Variable max_toks : N.
  Notation mexec := (mexec vault max_holds pid net_fee default_duration max_offers cap mint_limit nft_pallet max_owners max_serials).
  Notation z_execute := (z_execute vault max_holds pid net_fee default_duration max_offers cap mint_limit nft_pallet max_owners max_serials max_toks).
  Notation z_dispatch := (z_dispatch vault max_holds pid net_fee default_duration max_offers cap mint_limit nft_pallet max_owners max_serials max_toks).
  Implicit Types s : zst.

  (** What the call does: the operation meant, one log entry, and the id of what was created; or a failure. *)
  Definition does s caller roy (r : request) (x : result (zst * list N)) : Prop :=
    match mexec (z_m s) (meant caller roy r) with
    | Ok m => x = Ok (ZSt m (recorded s r) (z_logs s ++ event s caller r), answer s r)
    | Err _ => exists e, x = Err e
    end.
  Lemma dispatched s caller call roy r : typed max_toks r -> tstate s -> caller < 2 ^ 160 ->
    read_args (types_of r) call = Ok (arguments_of r) -> does s caller roy r (z_dispatch (selector_of r) s caller call roy).
  Proof.
    intros T S Hc R. unfold does.
    destruct r as [account e|old c ns buyer asset price d mk|c l buyer asset price d mk|lid price|lid|old c ns asset price d mk|
      c l asset price d mk|lid amount|lid|old c n amount asset mk|oid|oid];
      cbn [selector_of types_of arguments_of typed meant recorded event answer] in *.
    - destruct T as (T1 & T2). change (z_dispatch 0xb170c834 s caller call roy) with
        (z_register vault max_holds pid net_fee default_duration max_offers cap mint_limit nft_pallet max_owners max_serials s caller call).
      unfold z_register. rewrite R. cbn [rbind]. rewrite (proj2 (N.leb_le _ _)) by small. cbn [ensure rbind].
      replace (default caller (opt_addr account)) with (if account =? 0 then caller else account) by (unfold opt_addr; destruct (account =? 0); reflexivity).
      change (from_parts e) with (N.min e 1000000).
      destruct (mexec _ _) as [m|x]; [|eexists; reflexivity]. cbn [rbind]. pose proof (ts_nm _ S).
      rewrite out_one, out_addr1 by small. reflexivity.
    - destruct T as (T1 & T2 & T3 & T4 & T5 & T6 & T7 & T8).
      replace (z_dispatch (if old then 0x580ae278 else 0x9b3808b2) s caller call roy) with
        (z_sell_nft vault max_holds pid net_fee default_duration max_offers cap mint_limit nft_pallet max_owners max_serials max_toks s caller call roy)
        by (destruct old; reflexivity).
      unfold z_sell_nft. unfold vs in R. rewrite R. cbn [rbind]. rewrite nums_vs.
      rewrite (proj2 (N.leb_le mk _)) by small. cbn [ensure rbind].
      rewrite asset_at_coll, at_address by small. cbn [of_opt rbind]. unfold conv_duration. rewrite (proj2 (N.leb_le d _)) by small. cbn [ensure rbind].
      rewrite (proj2 (N.leb_le price _)) by (unfold U128MAX; small). cbn [ensure rbind].
      change P721 with 0xaaaaaaaa. rewrite at_address by small. cbn [of_opt rbind]. unfold nft_tokens.
      rewrite (all_le_ok U32MAX ns T2). cbn [ensure rbind]. rewrite (proj2 (N.leb_le _ max_toks)) by (destruct T3; assumption). cbn [ensure rbind].
      change opt_addr with unless0. change (if d =? 0 then None else Some d) with (unless0 d).
      destruct (mexec _ _) as [m|x]; [|eexists; reflexivity]. cbn [rbind]. pose proof (ts_nl _ S).
      rewrite unless0_default. change (VL (map VN ns)) with (vs ns). rewrite out_one by small.
      rewrite out_ids2 by first [assumption|apply T3|apply address_wt; small]. reflexivity.
    - destruct T as (T1 & T2 & T3 & T4 & T5 & T6 & T7 & T8 & T9).
      change (z_dispatch 0x8ab40b96 s caller call roy) with
        (z_sell_sft vault max_holds pid net_fee default_duration max_offers cap mint_limit nft_pallet max_owners max_serials max_toks s caller call roy).
      unfold z_sell_sft. unfold vs in R. rewrite R. cbn [rbind]. rewrite !nums_vs.
      rewrite (proj2 (N.leb_le mk _)) by small. cbn [ensure rbind].
      rewrite asset_at_coll, at_address by small. cbn [of_opt rbind]. unfold conv_duration. rewrite (proj2 (N.leb_le d _)) by small. cbn [ensure rbind].
      rewrite (proj2 (N.leb_le price _)) by (unfold U128MAX; small). cbn [ensure rbind].
      change P1155 with 0xbbbbbbbb. rewrite at_address by small. cbn [of_opt rbind]. unfold sft_tokens.
      rewrite !map_length, Nat.eqb_refl. cbn [ensure rbind].
      rewrite (all_le_ok U32MAX (map fst l) T2), (all_le_ok U128MAX (map snd l) T3). cbn [andb ensure rbind]. rewrite (proj2 (N.leb_le _ max_toks)) by (destruct T4; assumption). cbn [ensure rbind].
      change opt_addr with unless0. rewrite combine_split. change (if d =? 0 then None else Some d) with (unless0 d).
      destruct (mexec _ _) as [m|x]; [|eexists; reflexivity]. cbn [rbind]. pose proof (ts_nl _ S).
      rewrite unless0_default. change (VL (map VN (map fst l))) with (vs (map fst l)). change (VL (map VN (map snd l))) with (vs (map snd l)).
      rewrite out_one by small.
      rewrite out_ids3 by first [assumption|apply address_wt; small|rewrite map_length; apply T4]. reflexivity.
    - destruct T as (T1 & T2). change (z_dispatch 0xf14f8c36 s caller call roy) with
        (z_update vault max_holds pid net_fee default_duration max_offers cap mint_limit nft_pallet max_owners max_serials s caller call).
      unfold z_update. rewrite R. cbn [rbind]. rewrite (proj2 (N.leb_le lid _)), (proj2 (N.leb_le price _)) by (unfold U128MAX; small). cbn [ensure rbind].
      destruct (mexec _ _) as [m|x] eqn:E.
      + cbn [MarketModel.mexec] in E. unfold update_price in E. destruct (m_list (z_m s) !! lid) as [l|] eqn:El; [|discriminate E].
        cbn [of_opt rbind] in E |- *. destruct (l_auction l); [discriminate E|]. cbn [negb ensure rbind].
        destruct (ts_list _ S _ _ El) as (S1 & S2 & S3 & S4 & S5 & S6). rewrite collection_split in *. cbn [fst snd] in *.
        change vnums with vs. rewrite out_ids by (try assumption; apply S). reflexivity.
      + destruct (m_list (z_m s) !! lid) as [l|]; cbn [of_opt rbind]; [|eexists; reflexivity].
        destruct (l_auction l); cbn [negb ensure rbind]; eexists; reflexivity.
    - change (z_dispatch 0x58db52a2 s caller call roy) with
        (z_buy vault max_holds pid net_fee default_duration max_offers cap mint_limit nft_pallet max_owners max_serials s caller call).
      unfold z_buy. rewrite R. cbn [rbind]. rewrite (proj2 (N.leb_le lid _)) by (unfold U128MAX; small). cbn [ensure rbind].
      destruct (mexec _ _) as [m|x] eqn:E; [|eexists; reflexivity]. cbn [rbind].
      cbn [MarketModel.mexec] in E. unfold do_buy in E. destruct (m_list (z_m s) !! lid) as [l|] eqn:El; [|discriminate E].
      cbn [of_opt rbind]. destruct (ts_list _ S _ _ El) as (S1 & S2 & S3 & S4 & S5 & S6). rewrite collection_split in *. cbn [fst snd] in *.
      change vnums with vs. rewrite out_ids by (try assumption; apply S). reflexivity.
    - destruct T as (T1 & T2 & T3 & T4 & T5 & T6 & T7).
      replace (z_dispatch (if old then 0xed028c37 else 0x935d6b70) s caller call roy) with
        (z_auction_nft vault max_holds pid net_fee default_duration max_offers cap mint_limit nft_pallet max_owners max_serials max_toks s caller call roy)
        by (destruct old; reflexivity).
      unfold z_auction_nft. unfold vs in R. rewrite R. cbn [rbind]. rewrite nums_vs.
      rewrite (proj2 (N.leb_le mk _)) by small. cbn [ensure rbind].
      unfold conv_duration. rewrite (proj2 (N.leb_le d _)) by small. cbn [ensure rbind].
      rewrite (proj2 (N.leb_le price _)) by (unfold U128MAX; small). cbn [ensure rbind].
      change P721 with 0xaaaaaaaa. rewrite at_address by small. cbn [of_opt rbind]. unfold nft_tokens.
      rewrite (all_le_ok U32MAX ns T2). cbn [ensure rbind]. rewrite (proj2 (N.leb_le _ max_toks)) by (destruct T3; assumption). cbn [ensure rbind].
      rewrite asset_at_coll, at_address by small. cbn [of_opt rbind].
      change (if d =? 0 then None else Some d) with (unless0 d).
      destruct (mexec _ _) as [m|x]; [|eexists; reflexivity]. cbn [rbind].
      change (VL (map VN ns)) with (vs ns).
      rewrite out_ids by (try assumption; apply T3). reflexivity.
    - destruct T as (T1 & T2 & T3 & T4 & T5 & T6 & T7 & T8).
      change (z_dispatch 0x70ae1517 s caller call roy) with
        (z_auction_sft vault max_holds pid net_fee default_duration max_offers cap mint_limit nft_pallet max_owners max_serials max_toks s caller call roy).
      unfold z_auction_sft. unfold vs in R. rewrite R. cbn [rbind]. rewrite !nums_vs.
      rewrite (proj2 (N.leb_le mk _)) by small. cbn [ensure rbind].
      unfold conv_duration. rewrite (proj2 (N.leb_le d _)) by small. cbn [ensure rbind].
      rewrite (proj2 (N.leb_le price _)) by (unfold U128MAX; small). cbn [ensure rbind].
      change P1155 with 0xbbbbbbbb. rewrite at_address by small. cbn [of_opt rbind]. unfold sft_tokens.
      rewrite !map_length, Nat.eqb_refl. cbn [ensure rbind].
      rewrite (all_le_ok U32MAX (map fst l) T2), (all_le_ok U128MAX (map snd l) T3). cbn [andb ensure rbind]. rewrite (proj2 (N.leb_le _ max_toks)) by (destruct T4; assumption). cbn [ensure rbind].
      rewrite asset_at_coll, at_address by small. cbn [of_opt rbind]. rewrite combine_split.
      change (if d =? 0 then None else Some d) with (unless0 d).
      destruct (mexec _ _) as [m|x]; [|eexists; reflexivity]. cbn [rbind].
      change (VL (map VN (map fst l))) with (vs (map fst l)).
      rewrite out_ids by (try assumption; rewrite map_length; apply T4). reflexivity.
    - destruct T as (T1 & T2). change (z_dispatch 0x5473427b s caller call roy) with
        (z_bid vault max_holds pid net_fee default_duration max_offers cap mint_limit nft_pallet max_owners max_serials s caller call).
      unfold z_bid. rewrite R. cbn [rbind]. rewrite (proj2 (N.leb_le lid _)), (proj2 (N.leb_le amount _)) by (unfold U128MAX; small). cbn [ensure rbind].
      destruct (mexec _ _) as [m|x] eqn:E.
      + cbn [MarketModel.mexec] in E. unfold do_bid in E. destruct (m_list (z_m s) !! lid) as [l|] eqn:El; [|discriminate E].
        cbn [of_opt rbind] in E |- *. destruct (l_auction l); [|discriminate E]. cbn [ensure rbind].
        rewrite out_u1 by apply S. reflexivity.
      + destruct (m_list (z_m s) !! lid) as [l|]; cbn [of_opt rbind]; [|eexists; reflexivity].
        destruct (l_auction l); cbn [negb ensure rbind]; eexists; reflexivity.
    - change (z_dispatch 0x70f3ab39 s caller call roy) with
        (z_cancel vault max_holds pid net_fee default_duration max_offers cap mint_limit nft_pallet max_owners max_serials s caller call).
      unfold z_cancel. rewrite R. cbn [rbind]. rewrite (proj2 (N.leb_le lid _)) by (unfold U128MAX; small). cbn [ensure rbind].
      destruct (m_list (z_m s) !! lid) as [l|] eqn:El.
      + cbn [of_opt rbind]. destruct (ts_list _ S _ _ El) as (S1 & S2 & S3 & S4 & S5 & S6). rewrite collection_split in *. cbn [fst snd] in *.
        destruct (mexec _ _) as [m|x]; [|eexists; reflexivity]. cbn [rbind].
        change vnums with vs. rewrite out_ids by (try assumption; apply S). reflexivity.
      + destruct (mexec _ _) as [m|x] eqn:E; [|eexists; reflexivity].
        cbn [MarketModel.mexec] in E. unfold do_cancel in E. rewrite El in E. discriminate E.
    - destruct T as (T1 & T2 & T3 & T4 & T5).
      replace (z_dispatch (if old then 0xa9438074 else 0xf2800f37) s caller call roy) with
        (z_offer vault max_holds pid net_fee default_duration max_offers cap mint_limit nft_pallet max_owners max_serials s caller call)
        by (destruct old; reflexivity).
      unfold z_offer. rewrite R. cbn [rbind]. replace (sat U32MAX mk) with mk by (unfold sat; small).
      rewrite (proj2 (N.leb_le amount _)) by (unfold U128MAX; small). cbn [ensure rbind].
      change P721 with 0xaaaaaaaa. rewrite at_address by small. cbn [of_opt rbind].
      rewrite (proj2 (N.leb_le n _)) by small. cbn [ensure rbind].
      rewrite asset_at_coll, at_address by small. cbn [of_opt rbind].
      destruct (mexec _ _) as [m|x]; [|eexists; reflexivity]. cbn [rbind]. pose proof (ts_no _ S).
      rewrite out_one by small. rewrite out_three by assumption. reflexivity.
    - change (z_dispatch 0x66948833 s caller call roy) with
        (z_cancel_offer vault max_holds pid net_fee default_duration max_offers cap mint_limit nft_pallet max_owners max_serials s caller call).
      unfold z_cancel_offer. rewrite R. cbn [rbind]. rewrite (proj2 (N.leb_le oid _)) by (unfold U64MAX; small). cbn [ensure rbind].
      destruct (m_off (z_m s) !! oid) as [o|] eqn:El.
      + cbn [of_opt rbind]. destruct (ts_off _ S _ _ El) as (S1 & S2 & S3 & S4 & S5).
        destruct (mexec _ _) as [m|x]; [|eexists; reflexivity]. cbn [rbind]. rewrite out_three by assumption. reflexivity.
      + destruct (mexec _ _) as [m|x] eqn:E; [|eexists; reflexivity].
        cbn [MarketModel.mexec] in E. unfold cancel_offer in E. rewrite El in E. discriminate E.
    - change (z_dispatch 0xf23bc4f8 s caller call roy) with
        (z_accept vault max_holds pid net_fee default_duration max_offers cap mint_limit nft_pallet max_owners max_serials s caller call roy).
      unfold z_accept. rewrite R. cbn [rbind]. rewrite (proj2 (N.leb_le oid _)) by (unfold U64MAX; small). cbn [ensure rbind].
      destruct (m_off (z_m s) !! oid) as [o|] eqn:El.
      + cbn [of_opt rbind]. destruct (ts_off _ S _ _ El) as (S1 & S2 & S3 & S4 & S5).
        destruct (mexec _ _) as [m|x]; [|eexists; reflexivity]. cbn [rbind]. rewrite out_three by assumption. reflexivity.
      + destruct (mexec _ _) as [m|x] eqn:E; [|eexists; reflexivity].
        cbn [MarketModel.mexec] in E. unfold accept_offer in E. rewrite El in E. discriminate E.
  Qed.

  (** *** Calls of any bytes *)
  Definition priced (r : request) : Prop :=
    match r with
    | RSellNft _ _ _ _ _ x _ _ | RSellSft _ _ _ _ x _ _ | RUpdate _ x | RAuctionNft _ _ _ _ x _ _ | RAuctionSft _ _ _ x _ _ | RBid _ x
    | ROffer _ _ _ x _ _ => u128 x
    | _ => True
    end.
  Definition changed s caller roy s' : Prop :=
    exists r, priced r /\ mexec (z_m s) (meant caller roy r) = Ok (z_m s') /\ z_mid s' = recorded s r /\
      exists topics data, z_logs s' = z_logs s ++ [Elog 0x6cd topics data].
  Ltac args H := let l := fresh "l" in
    match type of H with rbind ?x _ = _ => destruct x as [l|]; [|discriminate H] end; cbn [rbind] in H;
    repeat (destruct l as [|[] l]; try discriminate H).
  Ltac chk H := repeat match type of H with
    | rbind (ensure ?b _) _ = _ => let E := fresh "B" in destruct b eqn:E; [cbn [ensure rbind] in H|discriminate H]
    | rbind (of_opt ?o _) _ = _ => let E := fresh "O" in destruct o eqn:E; [cbn [of_opt rbind] in H|discriminate H]
    | rbind (conv_duration ?d) _ = _ => unfold conv_duration in H; destruct (d <=? U32MAX); [cbn [ensure rbind] in H|discriminate H]
    | rbind (nft_tokens _ ?c ?ns) _ = _ => unfold nft_tokens in H; destruct (all_le U32MAX ns); [cbn [ensure rbind] in H|discriminate H];
        destruct (N.of_nat (length ns) <=? max_toks); [cbn [ensure rbind] in H|discriminate H]
    | rbind (sft_tokens _ ?c ?ns ?qs) _ = _ => unfold sft_tokens in H; destruct (Nat.eqb (length ns) (length qs)); [cbn [ensure rbind] in H|discriminate H];
        destruct (all_le U32MAX ns && all_le U128MAX qs); [cbn [ensure rbind] in H|discriminate H];
        destruct (N.of_nat (length ns) <=? max_toks); [cbn [ensure rbind] in H|discriminate H]
    end.
  Ltac runs H := match type of H with rbind (MarketModel.mexec _ _ _ _ _ _ _ _ _ _ _ _ ?o) _ = _ =>
    let E := fresh "E" in destruct (mexec _ o) eqn:E; [cbn [rbind] in H|discriminate H] end.
  Ltac le_price := match goal with B : (?x <=? U128MAX) = true |- u128 ?x => apply N.leb_le in B; exact B end.
  Lemma dispatch_any sel s caller call roy s' a : z_dispatch sel s caller call roy = Ok (s', a) ->
    (s' = s /\ z_non_payable sel = false) \/ (z_non_payable sel = true /\ changed s caller roy s').
  Proof.
    unfold MarketPreModel.z_dispatch. intros H. unfold changed.
    destruct (N.eqb_spec sel Z_registerMarketplace) as [->|N1].
    { right. split; [reflexivity|]. unfold z_register in H. args H. chk H. runs H. injection H as <- _.
      exists (RRegister n n0). split; [exact I|]. split; [|split; [reflexivity|repeat eexists]]. cbn [meant].
      replace (if n =? 0 then caller else n) with (default caller (opt_addr n)) by (unfold opt_addr; destruct (n =? 0); reflexivity). exact E. }
    destruct (N.eqb_spec sel Z_sellNftWithMarketplaceId) as [->|N2].
    { right. split; [reflexivity|]. unfold z_sell_nft in H. args H. chk H. runs H. injection H as <- _.
      eexists (RSellNft true _ _ _ _ _ _ _). refine (conj _ (conj E (conj eq_refl _))); [cbn [priced]; le_price|repeat eexists]. }
    destruct (N.eqb_spec sel Z_sellNft) as [->|N3].
    { right. split; [reflexivity|]. unfold z_sell_nft in H. args H. chk H. runs H. injection H as <- _.
      eexists (RSellNft true _ _ _ _ _ _ _). refine (conj _ (conj E (conj eq_refl _))); [cbn [priced]; le_price|repeat eexists]. }
    destruct (N.eqb_spec sel Z_sellSft) as [->|N4].
    { right. split; [reflexivity|]. unfold z_sell_sft in H. args H. chk H. runs H. injection H as <- _.
      eexists (RSellSft _ _ _ _ _ _ _). refine (conj _ (conj E (conj eq_refl _))); [cbn [priced]; le_price|repeat eexists]. }
    destruct (N.eqb_spec sel Z_updateFixedPrice) as [->|N5].
    { right. split; [reflexivity|]. unfold z_update in H. args H. chk H. runs H. rewrite collection_split in H. injection H as <- _.
      eexists (RUpdate _ _). refine (conj _ (conj E (conj eq_refl _))); [cbn [priced]; le_price|repeat eexists]. }
    destruct (N.eqb_spec sel Z_buy) as [->|N6].
    { right. split; [reflexivity|]. unfold z_buy in H. args H. chk H. runs H. chk H. rewrite collection_split in H. injection H as <- _.
      eexists (RBuy _). refine (conj _ (conj E (conj eq_refl _))); [exact I|repeat eexists]. }
    destruct (N.eqb_spec sel Z_auctionNftWithMarketplaceId) as [->|N7].
    { right. split; [reflexivity|]. unfold z_auction_nft in H. args H. chk H. runs H. injection H as <- _.
      eexists (RAuctionNft true _ _ _ _ _ _). refine (conj _ (conj E (conj eq_refl _))); [cbn [priced]; le_price|repeat eexists]. }
    destruct (N.eqb_spec sel Z_auctionNft) as [->|N8].
    { right. split; [reflexivity|]. unfold z_auction_nft in H. args H. chk H. runs H. injection H as <- _.
      eexists (RAuctionNft true _ _ _ _ _ _). refine (conj _ (conj E (conj eq_refl _))); [cbn [priced]; le_price|repeat eexists]. }
    destruct (N.eqb_spec sel Z_auctionSft) as [->|N9].
    { right. split; [reflexivity|]. unfold z_auction_sft in H. args H. chk H. runs H. injection H as <- _.
      eexists (RAuctionSft _ _ _ _ _ _). refine (conj _ (conj E (conj eq_refl _))); [cbn [priced]; le_price|repeat eexists]. }
    destruct (N.eqb_spec sel Z_bid) as [->|N10].
    { right. split; [reflexivity|]. unfold z_bid in H. args H. chk H. runs H. injection H as <- _.
      eexists (RBid _ _). refine (conj _ (conj E (conj eq_refl _))); [cbn [priced]; le_price|repeat eexists]. }
    destruct (N.eqb_spec sel Z_cancelSale) as [->|N11].
    { right. split; [reflexivity|]. unfold z_cancel in H. args H. chk H. rewrite collection_split in H. runs H. injection H as <- _.
      eexists (RCancel _). refine (conj _ (conj E (conj eq_refl _))); [exact I|repeat eexists]. }
    destruct (N.eqb_spec sel Z_makeSimpleOfferWithMarketplaceId) as [->|N12].
    { right. split; [reflexivity|]. unfold z_offer in H. args H. chk H. runs H. injection H as <- _.
      eexists (ROffer true _ _ _ _ _). refine (conj _ (conj E (conj eq_refl _))); [cbn [priced]; le_price|repeat eexists]. }
    destruct (N.eqb_spec sel Z_makeSimpleOffer) as [->|N13].
    { right. split; [reflexivity|]. unfold z_offer in H. args H. chk H. runs H. injection H as <- _.
      eexists (ROffer true _ _ _ _ _). refine (conj _ (conj E (conj eq_refl _))); [cbn [priced]; le_price|repeat eexists]. }
    destruct (N.eqb_spec sel Z_cancelOffer) as [->|N14].
    { right. split; [reflexivity|]. unfold z_cancel_offer in H. args H. chk H. runs H. injection H as <- _.
      eexists (RCancelOffer _). refine (conj _ (conj E (conj eq_refl _))); [exact I|repeat eexists]. }
    destruct (N.eqb_spec sel Z_acceptOffer) as [->|N15].
    { right. split; [reflexivity|]. unfold z_accept in H. args H. chk H. runs H. injection H as <- _.
      eexists (RAccept _). refine (conj _ (conj E (conj eq_refl _))); [exact I|repeat eexists]. }
    left. split.
    - destruct (sel =? Z_getMarketplaceAccount); [unfold z_get_account in H; args H; chk H; injection H as <- _; reflexivity|].
      destruct (sel =? Z_getListingFromId); [unfold z_get_listing in H; args H; chk H; rewrite collection_split in H; injection H as <- _; reflexivity|].
      destruct (sel =? Z_getOfferFromId); [unfold z_get_offer in H; args H; chk H; injection H as <- _; reflexivity|discriminate H].
    - unfold z_non_payable. cbn [existsb].
      repeat match goal with N : sel <> ?z |- context [sel =? ?z] => rewrite (proj2 (N.eqb_neq sel z) N) end. reflexivity.
  Qed.
  Lemma execute_any s caller static value call roy s' a : z_execute s caller static value call roy = Ok (s', a) ->
    value = 0 /\ (s' = s \/ static = false /\ changed s caller roy s').
  Proof.
    unfold MarketPreModel.z_execute. intros H. destruct (read_selector call) as [sel|]; [|discriminate H]. cbn [rbind] in H.
    destruct (static && z_non_payable sel) eqn:En; [discriminate H|]. cbn [negb ensure rbind] in H.
    destruct (N.eqb_spec value 0) as [->|]; [|discriminate H]. cbn [ensure rbind] in H. split; [reflexivity|].
    destruct (dispatch_any _ _ _ _ _ _ _ H) as [[-> _]|[Hn Hc]]; [left; reflexivity|right]. rewrite Hn, andb_true_r in En. auto.
  Qed.

  (** *** Histories *)
  Notation zstep := (zstep vault max_holds pid net_fee default_duration max_offers cap mint_limit nft_pallet max_owners max_serials max_toks).
  Notation mstep := (mstep vault max_holds pid net_fee default_duration max_offers cap mint_limit nft_pallet max_owners max_serials).
  Notation mgood := (mgood vault pid default_duration).
  (** The calls are not the vault's, schedules do not name it, it is not registered as a marketplace's account,
      and the counters have room; other operations are as in [MarketProofs.mgood]. *)
  Definition fair s (o : zop) : Prop :=
    match o with
    | ZMkt o => mgood (z_m s) o
    | ZCall caller _ _ _ roy =>
        caller <> vault /\ roy_ok vault roy /\ m_nl (z_m s) < U128MAX /\ m_now (z_m s) + 40 <= U32MAX /\ 0 < default_duration /\
        forall id e, m_mk (z_m (zstep s o)) !! id = Some e -> fst e <> vault
    end.
  Lemma call_good s caller roy r m : caller <> vault -> roy_ok vault roy -> m_nl (z_m s) < U128MAX -> m_now (z_m s) + 40 <= U32MAX ->
    0 < default_duration -> priced r -> mexec (z_m s) (meant caller roy r) = Ok m ->
    (forall id e, m_mk m !! id = Some e -> fst e <> vault) -> mgood (z_m s) (meant caller roy r).
  Proof.
    intros H1 H2 H3 H4 H5 H6 E H7.
    destruct r; cbn [meant MarketProofs.mgood priced] in *; unfold u128 in *; try exact I;
      repeat match goal with |- _ /\ _ => split end; try assumption; try (unfold U32MAX in *; lia); try (unfold U128MAX; lia).
    cbn [MarketModel.mexec] in E. unfold register in E.
    destruct (N.min entitlement 1000000 <=? ACC); [|discriminate E]. destruct (m_nm (z_m s) <? U32MAX); [|discriminate E].
    cbn [ensure rbind] in E. injection E as <-. cbn [m_mk] in H7. exact (H7 _ _ (lookup_insert _ _ _)).
  Qed.
  Lemma history zops : forall s, along zstep fair zops s ->
    exists ops, along mstep mgood ops (z_m s) /\ run mstep ops (z_m s) = z_m (run zstep zops s).
  Proof.
    induction zops as [|o zops IH]; intros s H; [exists []; split; [exact I|reflexivity]|]. destruct H as [Ho H].
    destruct (IH _ H) as (ops & A & R). cbn [run]. 
    assert (Hc : z_m (zstep s o) = z_m s \/ exists o', mgood (z_m s) o' /\ mstep (z_m s) o' = z_m (zstep s o)).
    { destruct o as [o|caller static value call roy].
      - right. exists o. split; [exact Ho|]. cbn [MarketPreModel.zstep]. unfold MarketModel.mstep, commit. destruct (mexec (z_m s) o) as [m|]; reflexivity.
      - cbn [fair MarketPreModel.zstep] in *. destruct (z_execute s caller static value call roy) as [[s' a]|] eqn:E; [|left; reflexivity].
        destruct (execute_any _ _ _ _ _ _ _ _ E) as (_ & [->|(_ & r & Hp & Em & _)]); [left; reflexivity|right].
        destruct Ho as (G1 & G2 & G3 & G4 & G5 & G6). exists (meant caller roy r).
        split; [exact (call_good s caller roy r (z_m s') G1 G2 G3 G4 G5 Hp Em G6)|]. unfold MarketModel.mstep. rewrite Em. reflexivity. }
    destruct Hc as [Eq|(o' & G & Eq)]; [rewrite Eq in A, R; exists ops; split; assumption|].
    exists (o' :: ops). rewrite <- Eq in A, R. split; [split; assumption|exact R].
  Qed.
End exec.
