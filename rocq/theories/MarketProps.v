(** Marketplace: properties C21, C22, C23, C64, C65. *)
From Verif Require Import MarketTight NftProofs NftProps SftProofs SftProps.
From Verif Require Import LedgerProofs.
Notation mquiet := MarketTight.quiet.

(** ** C21: splitting a price *)
(** The nearest whole amount to [p] millionths of [x]. *)
Definition nearest (p x v : N) : Prop := 2 * ACC * v <= 2 * p * x + ACC /\ 2 * p * x <= 2 * ACC * v + ACC.
Lemma permill_near p x : nearest p x (permill_mul p x) /\ ACC * permill_mul p x <= p * x + 499999.
Proof.
  unfold nearest, permill_mul. pose proof (N.div_mod' x ACC) as Hx. set (q := x / ACC) in *. set (m := x mod ACC) in *.
  pose proof (N.div_mod' (m * p) ACC) as Hr. pose proof (N.mod_lt (m * p) ACC ltac:(discriminate)) as Hj.
  set (k := m * p / ACC) in *. set (j := (m * p) mod ACC) in *.
  assert (Hpx : p * x = ACC * (q * p) + (ACC * k + j)) by (rewrite Hx at 1; rewrite <- Hr; ring).
  replace (2 * p * x) with (2 * (p * x)) by ring. rewrite Hpx. clearbody q m k j. clear Hx Hr Hpx. set (Q := q * p). clearbody Q.
  unfold ACC in *. change (1000000 / 2) with 500000. destruct (N.ltb_spec 500000 j); lia.
Qed.
Lemma permill_le p x : p <= ACC -> permill_mul p x <= x.
Proof.
  intros Hp. destruct (permill_near p x) as [_ H]. set (v := permill_mul p x) in *. clearbody v.
  assert (Hpx : p * x <= ACC * x) by (apply N.mul_le_mono_r; exact Hp). unfold ACC in *. lia.
Qed.
Lemma parts_each r e : e ∈ r -> snd e <= parts r.
Proof.
  unfold parts, sumL. induction r as [|f r IH]; intros He; [inversion He|]. cbn [map fold_right]. apply elem_of_cons in He.
  destruct He as [->|He]; [lia|]. specialize (IH He). lia.
Qed.
Lemma royalties_spec r x : x <= U128MAX -> parts r <= ACC ->
  royalties r x = [] \/ royalties r x = map (fun e => (fst e, permill_mul (snd e) x)) r.
Proof.
  intros Hx Hp. unfold royalties. destruct (_ && _); [|auto]. right. apply map_ext_in. intros e He. f_equal. apply wrap_small.
  pose proof (parts_each r e ltac:(apply elem_of_list_In; exact He)). pose proof (permill_le (snd e) x ltac:(lia)). lia.
Qed.
Lemma royalties_sum r x : x <= U128MAX -> parts r <= ACC ->
  ACC * amounts (royalties r x) <= parts r * x + 499999 * N.of_nat (length r) /\
  (length r <= 8)%nat \/ amounts (royalties r x) = 0.
Proof.
  intros Hx Hp. destruct (royalties_spec r x Hx Hp) as [E|E]; [right; rewrite E; reflexivity|].
  destruct (Nat.leb (length r) 8) eqn:El.
  2:{ right. unfold royalties, validate_roy. rewrite El, andb_false_r. reflexivity. }
  left. split; [|apply Nat.leb_le; exact El]. rewrite E. clear. unfold amounts, parts, sumL.
  induction r as [|e r IH]; cbn [map fold_right length fst snd]; [lia|]. destruct (permill_near (snd e) x) as [_ H].
  set (v := permill_mul (snd e) x) in *. clearbody v. rewrite N.mul_add_distr_l, N.mul_add_distr_r. rewrite Nat2N.inj_succ. lia.
Qed.
Lemma royalties_excess r x : x <= U128MAX -> parts r <= ACC -> amounts (royalties r x) <= x + 3.
Proof.
  intros Hx Hp. destruct (royalties_sum r x Hx Hp) as [[H Hl]|H]; [|lia].
  assert (Hpx : parts r * x <= ACC * x) by (apply N.mul_le_mono_r; exact Hp).
  set (S := amounts _) in *. clearbody S. unfold ACC in *. lia.
Qed.
Definition seller_share (r : list (N * N)) (x : N) : N := fold_left (fun acc e => sub128 acc (snd e)) (royalties r x) x.
Lemma payouts_cases seller r x : x <= U128MAX -> parts r <= ACC ->
  amounts (payouts seller r x) = amounts (royalties r x) + seller_share r x /\
  (amounts (royalties r x) <= x /\ amounts (payouts seller r x) = x \/
   x < amounts (royalties r x) /\ 2 ^ 128 - 3 <= seller_share r x).
Proof.
  intros Hx Hp. pose proof (royalties_excess r x Hx Hp) as He.
  destruct (fold_sub (royalties r x) x ltac:(unfold U128MAX in Hx; lia)) as [Hlt Hw]. cbv zeta in *.
  fold (seller_share r x) in *. unfold payouts. fold (seller_share r x). set (rs := royalties r x) in *. set (h := seller_share r x) in *.
  assert (Ha : amounts (rs ++ [(seller, h)]) = amounts rs + h).
  { unfold amounts. rewrite map_app. unfold sumL. rewrite fold_right_app. cbn [map fold_right snd]. rewrite N.add_0_r. clear. clearbody h.
    induction (map snd rs) as [|v vs IH]; cbn [fold_right]; lia. }
  split; [exact Ha|]. rewrite Ha. set (A := amounts rs) in *. clearbody A h. clear Ha. unfold wrap128 in Hw.
  pose proof (N.div_mod' (h + A) (2 ^ 128)) as Hd. rewrite Hw in Hd. unfold U128MAX in Hx.
  assert (Hq : (h + A) / 2 ^ 128 = 0 \/ (h + A) / 2 ^ 128 = 1 \/ 2 <= (h + A) / 2 ^ 128) by lia.
  destruct (N.le_gt_cases A x) as [HA|HA]; [left|right].
  - split; [exact HA|]. destruct Hq as [Hq|Hq]; [rewrite Hq in Hd; lia|]. exfalso.
    assert (2 ^ 128 * 1 <= 2 ^ 128 * ((h + A) / 2 ^ 128)) by (apply N.mul_le_mono_l; lia). lia.
  - split; [exact HA|]. destruct Hq as [Hq|Hq]; [rewrite Hq in Hd; lia|].
    assert (2 ^ 128 * 1 <= 2 ^ 128 * ((h + A) / 2 ^ 128)) by (apply N.mul_le_mono_l; lia). lia.
Qed.
(** Each payment of a split that goes through is covered by the supply. *)
Lemma split_loop_each ts : forall (l : ledger N) who a l', split_loop l who a ts = (l', None) -> forall e, e ∈ ts -> snd e <= total l a.
Proof.
  induction ts as [|[p v] ts IH]; intros l who a l' E e He; [inversion He|]. cbn [split_loop] in E. apply elem_of_cons in He.
  destruct (N.eqb_spec v 0) as [->|Hv].
  - destruct He as [->|He]; [apply N.le_0_l|]. eapply IH; eassumption.
  - destruct (transfer l a who p v) as [l1|] eqn:Et; [|discriminate]. pose proof (transfer_spec _ _ _ _ _ _ Et) as (Hle & _ & _).
    pose proof (balance_le_total l a who). destruct He as [->|He]; [cbn; lia|].
    erewrite <- transfer_total by exact Et. eapply IH; eassumption.
Qed.

Theorem C21_shares_nearest : forall r x e, x <= 2 ^ 128 - 1 -> parts r <= 1000000 -> e ∈ royalties r x ->
  exists p, (fst e, p) ∈ r /\ nearest p x (snd e).
Proof.
  intros r x e Hx Hp He. destruct (royalties_spec r x Hx Hp) as [E|E]; rewrite E in He; [inversion He|].
  apply elem_of_list_In, in_map_iff in He. destruct He as ([y p] & <- & Hin). exists p. cbn [fst snd].
  split; [apply elem_of_list_In; exact Hin|apply permill_near].
Qed.
(** The split is exact when the entitlements leave room for the rounding: one entitlement, or a
    price not too small. *)
Theorem C21_split_exact : forall seller r x, x <= 2 ^ 128 - 1 -> parts r <= 1000000 ->
  (length r <= 1)%nat \/ 500000 * N.of_nat (length r) <= (1000000 - parts r) * x ->
  amounts (payouts seller r x) = x /\ exists rs, payouts seller r x = rs ++ [(seller, x - amounts rs)] /\ amounts rs <= x.
Proof.
  intros seller r x Hx Hp Hc. assert (HA : amounts (royalties r x) <= x).
  { destruct (royalties_sum r x Hx Hp) as [[H _]|H]; [|lia].
    assert (Hpx : parts r * x <= ACC * x) by (apply N.mul_le_mono_r; exact Hp). destruct Hc as [Hc|Hc].
    - set (S := amounts _) in *. clearbody S. unfold ACC in *. lia.
    - rewrite N.mul_sub_distr_r in Hc. set (S := amounts _) in *. clearbody S. unfold ACC in *. lia. }
  destruct (payouts_cases seller r x Hx Hp) as [Ha [[_ E]|[Hlt _]]]; [|lia]. split; [exact E|].
  exists (royalties r x). split; [|exact HA]. unfold payouts. fold (seller_share r x). do 3 f_equal. lia.
Qed.

Lemma along_and {S O} (step : S -> O -> S) (P Q : S -> O -> Prop) ops : forall s, along step P ops s -> along step Q ops s ->
  along step (fun s o => P s o /\ Q s o) ops s.
Proof.
  induction ops as [|o ops IH]; intros s HP HQ; [exact I|]. destruct HP as [A B], HQ as [C D]. split; [auto|apply IH; assumption].
Qed.

Section props.
  Variable vault : N.
  Variable mh : nat.
  Variable pid net_fee default_duration max_offers : N.
  Variable cap ml np mo ms : N.
  Notation mexec := (mexec vault mh pid net_fee default_duration max_offers cap ml np mo ms).
  Notation mstep := (mstep vault mh pid net_fee default_duration max_offers cap ml np mo ms).
  Notation mgood := (mgood vault pid default_duration).
  Notation calm := (calm vault pid cap mo ms).
  Notation MI := (MI vault pid).

  (** States reached by a history that respects [mgood]. *)
  Definition reached (fee : option N) (ops : list mop) (s : mkt) : Prop :=
    fee <> Some vault /\ along mstep mgood ops (minit fee) /\ s = run mstep ops (minit fee).
  Lemma reached_MI fee ops s : reached fee ops s -> exists asset, MI asset s.
  Proof.
    intros (Hf & Hg & ->). destruct (run_minv _ _ _ _ _ _ _ _ _ _ _ ops _ _ (init_inv vault pid fee Hf) Hg) as (asset & H & _). eauto.
  Qed.

  (** A purchase: the buyer pays the price, the payees together receive it, and everyone else's
      balance is unchanged. *)
  Lemma buy_split asset s who lid s' l : MI asset s -> m_list s !! lid = Some l -> do_buy cap mo ms s who lid = Ok s' ->
    parts (l_roy l) <= ACC -> issuance (al (m_as s)) (l_asset l) <= 2 ^ 128 - 4 ->
    amounts (payouts (l_seller l) (l_roy l) (l_price l)) = l_price l /\
    split_transfer (al (m_as s)) who (l_asset l) (payouts (l_seller l) (l_roy l) (l_price l)) = Ok (al (m_as s')).
  Proof.
    intros Hs El E Hp Hi. unfold do_buy in E. rewrite El in E. cbn [of_opt rbind] in E. inv_ok. rename v into a. subst s'.
    match goal with H : on_ledger _ _ = Ok a |- _ => unfold on_ledger in H end. inv_ok. subst a. cbn.
    match goal with H : split_transfer _ _ _ _ = Ok ?x |- _ => rename H into Es, x into l1 end. split; [|exact Es].
    destruct (mi_list _ _ _ _ Hs _ _ El) as (_ & _ & _ & _ & Hpr).
    destruct (payouts_cases (l_seller l) (l_roy l) (l_price l) Hpr Hp) as [_ [[_ H]|[_ H]]]; [exact H|exfalso].
    unfold split_transfer, split_raw in Es. destruct (_ <? _) in Es; [discriminate|].
    destruct (split_loop _ _ _ _) as [l2 [e|]] eqn:E2; [discriminate|].
    pose proof (split_loop_each _ _ _ _ _ E2 (l_seller l, seller_share (l_roy l) (l_price l))) as He. cbn [snd] in He.
    assert (Hin : (l_seller l, seller_share (l_roy l) (l_price l)) ∈ payouts (l_seller l) (l_roy l) (l_price l)) by (unfold payouts; apply elem_of_app; right; left).
    specialize (He Hin). destruct (proj1 (mi_hi _ _ _ _ Hs) (l_asset l)) as [Ht _]. cbn in He.
    set (h := seller_share _ _) in *. set (i := issuance _ _) in *. clearbody h i. rewrite Ht in He. lia.
  Qed.
  Theorem C21_purchase_exact : forall fee ops s who lid s' l, reached fee ops s ->
    m_list s !! lid = Some l -> do_buy cap mo ms s who lid = Ok s' ->
    parts (l_roy l) <= 1000000 -> issuance (al (m_as s)) (l_asset l) <= 2 ^ 128 - 4 ->
    let ps := payouts (l_seller l) (l_roy l) (l_price l) in
    amounts ps = l_price l /\
    forall b y, balance (al (m_as s')) b y + (if decide ((l_asset l, who) = (b, y)) then l_price l else 0)
              = balance (al (m_as s)) b y + (if b =? l_asset l then paid_to y ps else 0).
  Proof.
    intros fee ops s who lid s' l Hr El E Hp Hi ps. destruct (reached_MI _ _ _ Hr) as [asset Hs].
    destruct (buy_split asset s who lid s' l Hs El E Hp Hi) as [Ha Hsp]. fold ps in Ha, Hsp. split; [exact Ha|].
    apply split_spec in Hsp. rewrite Ha in Hsp. apply Hsp.
  Qed.
  (** Settling an auction or an offer out of a held amount. *)
  Theorem C21_settlement_exact : forall fee ops s buyer seller a tk x r s', reached fee ops s ->
    buyer <> vault -> seller <> vault -> Forall (fun e => fst e <> vault) r -> x <= 2 ^ 128 - 1 ->
    settle vault pid cap mo ms s buyer seller a tk x r = Ok s' ->
    let ps := payouts seller r x in
    amounts ps = x /\ hold_balance (m_as s') pid buyer a + x = hold_balance (m_as s) pid buyer a /\
    forall b y, y <> vault -> balance (al (m_as s')) b y = balance (al (m_as s)) b y + (if b =? a then paid_to y ps else 0).
  Proof.
    intros fee ops s buyer seller a tk x r s' Hr Hb Hse Hv Hx E ps. destruct (reached_MI _ _ _ Hr) as [asset Hs].
    unfold settle in E. inv_ok. rename v into a'. subst s'.
    match goal with H : spend_hold _ _ _ _ _ _ = Ok a' |- _ =>
      destruct (spend_money vault mh pid _ _ _ _ _ _ _ (mi_hi _ _ _ _ Hs) (mi_backed _ _ _ _ Hs) Hb Hse Hv Hx H) as (_ & _ & A & B & C) end.
    split; [exact A|]. split.
    - specialize (C buyer a). rewrite !N.eqb_refl in C. exact C.
    - intros b y Hy. apply split_spec in B. destruct B as (_ & _ & B). specialize (B b y). cbn.
      destruct (decide ((a, vault) = (b, y))); [congruence|]. unfold ps. lia.
  Qed.
  (** When the rounded royalties exceed the price, [for_seller -= royalty] underflows and the
      listing cannot be bought by anyone. *)
  Theorem C21_unsellable : forall fee ops s who lid l, reached fee ops s -> m_list s !! lid = Some l ->
    parts (l_roy l) <= 1000000 -> issuance (al (m_as s)) (l_asset l) <= 2 ^ 128 - 4 ->
    l_price l < amounts (royalties (l_roy l) (l_price l)) -> is_ok (do_buy cap mo ms s who lid) = false.
  Proof.
    intros fee ops s who lid l Hr El Hp Hi Hlt. destruct (reached_MI _ _ _ Hr) as [asset Hs].
    destruct (do_buy cap mo ms s who lid) as [s'|] eqn:E; [exfalso|reflexivity].
    destruct (buy_split asset s who lid s' l Hs El E Hp Hi) as [Ha _]. destruct (mi_list _ _ _ _ Hs _ _ El) as (_ & _ & _ & _ & Hpr).
    destruct (payouts_cases (l_seller l) (l_roy l) (l_price l) Hpr Hp) as [Hsum _]. lia.
  Qed.

  (** ** C22: held money *)
  (** Every unit held by the marketplace is a recorded winning bid or an open offer.  [asset] gives
      the payment asset of each listing ever opened. *)
  Theorem C22_accounted : forall fee ops s, reached fee ops s ->
    exists asset : N -> N, (forall lid l, m_list s !! lid = Some l -> l_asset l = asset lid) /\
    forall y a, hold_balance (m_as s) pid y a
      = sumf (fun lid b => if (y =? fst b) && (a =? asset lid) then snd b else 0) (m_bid s)
      + sumf (fun _ o => if (y =? o_buyer o) && (a =? o_asset o) then o_amount o else 0) (m_off s).
  Proof.
    intros fee ops s Hr. destruct (reached_MI _ _ _ Hr) as [asset Hs]. exists asset. split; [|apply Hs].
    intros lid l El. apply (mi_list _ _ _ _ Hs _ _ El).
  Qed.
  (** Winning bids of open auctions. *)
  Definition winning (s : mkt) (y a : N) : N :=
    sumf (fun lid b => match m_list s !! lid with
                       | Some l => if (y =? fst b) && (a =? l_asset l) then snd b else 0
                       | None => 0 end) (m_bid s).
  Definition offers (s : mkt) (y a : N) : N :=
    sumf (fun _ o => if (y =? o_buyer o) && (a =? o_asset o) then o_amount o else 0) (m_off s).
  (** The exact claim, if no offer is accepted for a token while it is under auction. *)
  Theorem C22_exact : forall fee ops s, reached fee ops s -> along mstep mquiet ops (minit fee) ->
    forall y a, hold_balance (m_as s) pid y a = winning s y a + offers s y a.
  Proof.
    intros fee ops s Hr Hq y a. pose proof Hr as (Hf & Hg & Es). destruct (reached_MI _ _ _ Hr) as [asset Hs].
    assert (Ho : bids_open s).
    { rewrite Es. eapply (run_bids_open vault mh pid net_fee default_duration max_offers cap ml np mo ms); [apply init_inv; exact Hf|intros i b Hb; discriminate|].
      apply along_and; assumption. }
    rewrite (mi_held _ _ _ _ Hs). unfold bid_held, off_held, winning, offers. f_equal. apply sumf_ext. intros lid b Hb.
    destruct (Ho lid b Hb) as [l Hl]. rewrite Hl. destruct (mi_list _ _ _ _ Hs _ _ Hl) as (_ & -> & _). reflexivity.
  Qed.
  (** An open offer can be cancelled at any time, and the money comes back in full. *)
  Theorem C22_offer_refunded : forall fee ops s oid o, reached fee ops s -> m_off s !! oid = Some o ->
    match cancel_offer vault pid s (o_buyer o) oid with
    | Ok s' => m_off s' = delete oid (m_off s) /\
        forall b y, y <> vault -> balance (al (m_as s')) b y
          = balance (al (m_as s)) b y + (if decide ((o_asset o, o_buyer o) = (b, y)) then o_amount o else 0)
    | Err _ => False
    end.
  Proof.
    intros fee ops s oid o Hr Eo. destruct (reached_MI _ _ _ Hr) as [asset Hs].
    destruct (mi_off _ _ _ _ Hs _ _ Eo) as (_ & Hamt & Hb & os & Et & Hin).
    destruct (release_ok vault (m_as s) pid (o_buyer o) (o_asset o) (o_amount o) (mi_hi _ _ _ _ Hs) (mi_backed _ _ _ _ Hs)) as [a Ea].
    { split; [apply Hamt|]. rewrite (mi_held _ _ _ _ Hs). pose proof (off_delete (m_off s) oid o (o_buyer o) (o_asset o) Eo) as Hd.
      rewrite !N.eqb_refl in Hd. cbn [andb] in Hd. lia. }
    unfold cancel_offer. rewrite Eo. cbn [of_opt rbind]. rewrite N.eqb_refl. cbn [ensure rbind]. rewrite Ea. cbn [rbind].
    unfold remove_offer. cbn [set_as m_toff]. rewrite Et.
    assert (Hex : existsb (N.eqb oid) os = true) by (apply existsb_exists; exists oid; split; [apply elem_of_list_In; exact Hin|apply N.eqb_refl]).
    rewrite Hex. cbn [ensure rbind set_off set_as m_off m_as]. split; [reflexivity|].
    destruct (release_spec _ _ _ _ _ _ _ (mi_hi _ _ _ _ Hs) Ea) as (_ & Htr & _). apply transfer_spec in Htr. destruct Htr as (_ & _ & B).
    intros b y Hy. specialize (B b y). destruct (decide ((o_asset o, vault) = (b, y))); [congruence|]. lia.
  Qed.
  (** A new highest bid returns the previous one in full, in the same call. *)
  Theorem C22_outbid_refunded : forall fee ops s who lid x s' l w p, reached fee ops s -> who <> vault ->
    m_list s !! lid = Some l -> m_bid s !! lid = Some (w, p) -> do_bid vault mh pid s who lid x = Ok s' ->
    p < x /\ m_bid s' !! lid = Some (who, x) /\
    forall b y, y <> vault -> balance (al (m_as s')) b y + (if decide ((l_asset l, who) = (b, y)) then x else 0)
      = balance (al (m_as s)) b y + (if decide ((l_asset l, w) = (b, y)) then p else 0).
  Proof.
    intros fee ops s who lid x s' l w p Hr Hw El Eb E. destruct (reached_MI _ _ _ Hr) as [asset Hs].
    unfold do_bid in E. rewrite El, Eb in E. cbn [of_opt rbind fst snd] in E. inv_ok. rename v into a, v0 into a'.
    match goal with H : (p <? x) = true |- _ => apply N.ltb_lt in H; rename H into Hlt end.
    match goal with H : place_hold _ _ _ _ _ _ _ = _ |- _ => destruct (place_money vault mh pid _ _ _ _ _ (mi_hi _ _ _ _ Hs) (mi_backed _ _ _ _ Hs) Hw H) as (A1 & A2 & _);
      destruct (place_spec _ _ _ _ _ _ _ _ (mi_hi _ _ _ _ Hs) H) as (_ & T1 & _) end.
    match goal with H : release_hold _ _ _ _ _ _ = _ |- _ => destruct (release_spec _ _ _ _ _ _ _ A1 H) as (_ & T2 & _) end.
    assert (Hs' : m_as s' = a' /\ m_bid s' !! lid = Some (who, x)).
    { destruct (_ <=? 40) in E; injection E as <-; cbn; rewrite lookup_insert; auto. }
    destruct Hs' as [-> Hb]. split; [exact Hlt|]. split; [exact Hb|]. intros b y Hy.
    apply transfer_spec in T1. destruct T1 as (_ & _ & T1). apply transfer_spec in T2. destruct T2 as (_ & _ & T2). specialize (T1 b y). specialize (T2 b y).
    destruct (decide ((l_asset l, vault) = (b, y))); [congruence|]. lia.
  Qed.
  (** The bid of a closed listing is never given back: after any further history it is still
      recorded, and so still held. *)
  Theorem C22_stranded_forever : forall fee ops s ops' lid w p, reached fee ops s -> along mstep mgood ops' s ->
    m_list s !! lid = None -> m_bid s !! lid = Some (w, p) ->
    let s' := run mstep ops' s in
    m_bid s' !! lid = Some (w, p) /\ exists a, p <= hold_balance (m_as s') pid w a.
  Proof.
    intros fee ops s ops' lid w p Hr Hg En Eb s'. destruct (reached_MI _ _ _ Hr) as [asset Hs].
    destruct (mi_bid _ _ _ _ Hs _ _ Eb) as (Hlt & _).
    destruct (run_stranded _ _ _ _ _ _ _ _ _ _ _ ops' s asset lid Hs Hg Hlt En) as [_ B]. rewrite Eb in B. split; [exact B|].
    destruct (run_minv _ _ _ _ _ _ _ _ _ _ _ ops' s asset Hs Hg) as (asset' & Hs' & _). exists (asset' lid). unfold s'. rewrite (mi_held _ _ _ _ Hs').
    pose proof (bid_delete asset' _ lid (w, p) w (asset' lid) B) as Hd. cbn [fst snd] in Hd. rewrite !N.eqb_refl in Hd. cbn [andb] in Hd. lia.
  Qed.

  (** ** C23: locks *)
  (** While a listing is open its NFTs are locked under its id and belong to the seller, and the
      amounts of SFTs a seller has listed are reserved. *)
  Theorem C23_listed_is_locked : forall fee ops s, reached fee ops s ->
    (forall lid l c ns n, m_list s !! lid = Some l -> l_toks l = LNft c ns -> n ∈ ns ->
       locks (m_nft s) !! (c, n) = Some lid /\ owner_of (m_nft s) c n = Some (l_seller l)) /\
    (forall c n y, listed (m_list s) c n y <= snd (sbal (m_sft s) c n y)).
  Proof.
    intros fee ops s Hr. destruct (reached_MI _ _ _ Hr) as [asset Hs]. destruct (mi_tok _ _ _ _ Hs) as (_ & _ & H3 & H4). split; [|exact H4].
    intros lid l c ns n El Et Hn. specialize (H3 lid l El). unfold lid_locked in H3. rewrite Et in H3. apply H3. exact Hn.
  Qed.
  (** The claim itself, for histories in which offers are only accepted for tokens that are not
      part of a bundle and the settlements of ended auctions succeed. *)
  Theorem C23_locked_is_listed : forall fee ops s, reached fee ops s -> along mstep calm ops (minit fee) ->
    (forall c n lid, locks (m_nft s) !! (c, n) = Some lid ->
       exists l ns, m_list s !! lid = Some l /\ l_toks l = LNft c ns /\ n ∈ ns) /\
    (forall c n y, snd (sbal (m_sft s) c n y) = listed (m_list s) c n y).
  Proof.
    intros fee ops s (Hf & Hg & ->) Hc.
    apply (run_tight vault mh pid net_fee default_duration max_offers cap ml np mo ms ops (minit fee) _ (init_inv vault pid fee Hf)).
    - split; [discriminate|reflexivity].
    - apply along_and; assumption.
  Qed.
  (** Open listings always end: none is open past its closing block. *)
  Theorem C23_listings_end : forall fee ops s lid l, reached fee ops s -> m_list s !! lid = Some l -> m_now s < l_close l.
  Proof. intros fee ops s lid l Hr El. destruct (reached_MI _ _ _ Hr) as [asset Hs]. apply (mi_end _ _ _ _ Hs _ _ El). Qed.
  (** The seller can withdraw any listing without bids, and gets the tokens back unlocked. *)
  Theorem C23_cancel_returns : forall fee ops s lid l, reached fee ops s -> m_list s !! lid = Some l ->
    (l_auction l = true -> m_bid s !! lid = None) ->
    match do_cancel s (l_seller l) lid with
    | Ok s' => m_list s' = delete lid (m_list s) /\
        (forall c ns n, l_toks l = LNft c ns -> n ∈ ns -> locks (m_nft s') !! (c, n) = None /\ owner_of (m_nft s') c n = Some (l_seller l)) /\
        (forall c n y, snd (sbal (m_sft s') c n y) + sft_part c n y l = snd (sbal (m_sft s) c n y))
    | Err _ => False
    end.
  Proof.
    intros fee ops s lid l Hr El Hb. destruct (reached_MI _ _ _ Hr) as [asset Hs].
    destruct (unlock_Tok (m_nft s) (m_sft s) (m_list s) lid l (mi_tok _ _ _ _ Hs) El) as (t & f & Eu & _ & Ec & Hl & Hf).
    unfold do_cancel. rewrite El. cbn [of_opt rbind]. rewrite N.eqb_refl. cbn [ensure rbind].
    assert (Hx : negb (l_auction l) || bool_decide (m_bid s !! lid = None) = true).
    { destruct (l_auction l); [|reflexivity]. cbn [negb orb]. apply bool_decide_eq_true. auto. }
    rewrite Hx. cbn [ensure rbind]. unfold toks_of. rewrite Eu. cbn [ensure rbind]. split; [reflexivity|]. cbn. split; [|exact Hf].
    intros c ns n Et Hn. rewrite Hl, Et, decide_True by auto. split; [reflexivity|]. rewrite (owner_colls (m_nft s) t) by exact Ec.
    apply (proj1 (C23_listed_is_locked fee ops s Hr) lid l c ns n El Et Hn).
  Qed.
  (** SFTs reserved beyond the open listings stay so for ever. *)
  Theorem C23_stuck_forever : forall fee ops s ops' c n y, reached fee ops s -> along mstep mgood ops' s ->
    let s' := run mstep ops' s in
    snd (sbal (m_sft s) c n y) - listed (m_list s) c n y <= snd (sbal (m_sft s') c n y) - listed (m_list s') c n y.
  Proof.
    intros fee ops s ops' c n y Hr Hg s'. destruct (reached_MI _ _ _ Hr) as [asset Hs].
    exact (run_grows _ _ _ _ _ _ _ _ _ _ _ ops' s asset Hs Hg c n y).
  Qed.

  (** ** C64: a higher bid is accepted *)
  Lemma place_ok (a : assets N) p who b v : HI a -> backed vault a -> who <> vault -> v <= balance (al a) b who ->
    (length (holds_of a b who) < mh)%nat -> exists a', place_hold vault mh a p who b v = Ok a'.
  Proof.
    intros [Hb _] Hk Hw Hv Hl. unfold place_hold. pose proof (hold_le_all a p who b) as Hle. specialize (Hk b).
    unfold hold_balance in Hle. destruct (transfer_ok (al a) b who vault v Hb Hv) as [l El].
    destruct (hold_find p (holds_of a b who)) as [e|] eqn:Ef.
    - cbn in Hle. unfold chk_add. pose proof (balance_two (al a) b who vault Hw). destruct (Hb b) as [Ht Hi]. 
      destruct (N.leb_spec (e + v) U128MAX); [|lia]. cbn [of_opt rbind]. rewrite El. cbn [rbind]. eauto.
    - destruct (Nat.ltb_spec (length (holds_of a b who)) mh); [|lia]. cbn [rbind]. rewrite El. cbn [rbind]. eauto.
  Qed.
  (** In an auction still open, a bid that beats the reserve price or the highest bid, from an
      account that has the money and a free hold slot, is accepted - provided the bid it beats is
      not zero. *)
  Theorem C64_higher_bid_accepted : forall fee ops s who lid x l, reached fee ops s -> who <> vault ->
    m_list s !! lid = Some l -> l_auction l = true ->
    match m_bid s !! lid with Some (w, p) => 0 < p < x | None => l_price l <= x end ->
    x <= balance (al (m_as s)) (l_asset l) who -> (length (holds_of (m_as s) (l_asset l) who) < mh)%nat ->
    match do_bid vault mh pid s who lid x with Ok s' => m_bid s' !! lid = Some (who, x) | Err _ => False end.
  Proof.
    intros fee ops s who lid x l Hr Hw El Ea Hx Hbal Hlen. destruct (reached_MI _ _ _ Hr) as [asset Hs].
    destruct (place_ok (m_as s) pid who (l_asset l) x (mi_hi _ _ _ _ Hs) (mi_backed _ _ _ _ Hs) Hw Hbal Hlen) as [a Epl].
    destruct (place_money vault mh pid _ _ _ _ _ (mi_hi _ _ _ _ Hs) (mi_backed _ _ _ _ Hs) Hw Epl) as (A1 & A2 & A3).
    unfold do_bid. rewrite El. cbn [of_opt rbind]. rewrite Ea. cbn [ensure rbind].
    destruct (m_bid s !! lid) as [[w p]|] eqn:Eb.
    - cbn [fst snd]. destruct (N.ltb_spec p x); [|lia]. cbn [ensure rbind]. rewrite Epl. cbn [rbind].
      destruct (release_ok vault a pid w (l_asset l) p A1 A2) as [a' Er].
      { split; [lia|]. rewrite A3, (mi_held _ _ _ _ Hs). pose proof (bid_delete asset _ lid (w, p) w (l_asset l) Eb) as Hd. cbn [fst snd] in Hd.
        destruct (mi_list _ _ _ _ Hs _ _ El) as (_ & Eas & _). rewrite <- Eas, !N.eqb_refl in Hd. cbn [andb] in Hd. lia. }
      rewrite Er. cbn [rbind]. destruct (_ <=? 40); cbn; apply lookup_insert.
    - destruct (N.leb_spec (l_price l) x); [|lia]. cbn [ensure rbind]. rewrite Epl. cbn [rbind]. destruct (_ <=? 40); cbn; apply lookup_insert.
  Qed.

  (** ** C65: a purchase delivers *)
  Theorem C65_purchase_delivers : forall fee ops s who lid s' l, reached fee ops s -> m_list s !! lid = Some l ->
    do_buy cap mo ms s who lid = Ok s' ->
    m_list s' !! lid = None /\
    match l_toks l with
    | LNft c ns => forall n, n ∈ ns -> owner_of (m_nft s') c n = Some who /\ locks (m_nft s') !! (c, n) = None
    | LSft c k => who <> l_seller l -> forall n,
        fst (sbal (m_sft s') c n who) = fst (sbal (m_sft s) c n who) + qty n k /\
        snd (sbal (m_sft s') c n (l_seller l)) + qty n k = snd (sbal (m_sft s) c n (l_seller l))
    end.
  Proof.
    intros fee ops s who lid s' l Hr El E. destruct (reached_MI _ _ _ Hr) as [asset Hs].
    unfold do_buy in E. rewrite El in E. cbn [of_opt rbind] in E. inv_ok. rename v into a. destruct v0 as [t f]. subst s'.
    match goal with H : unlock_and_transfer _ _ _ _ _ _ _ = _ |- _ => rename H into Hu end.
    split; [cbn; apply lookup_delete|].
    destruct (deliver_listing cap mo ms (m_nft s) (m_sft s) (m_list s) lid l who t f (mi_tok _ _ _ _ Hs) El Hu) as (_ & Hl & Hr' & Ho).
    destruct (l_toks l) as [c ns|c k] eqn:Et; cbn.
    - intros n Hn. split; [apply Ho; exact Hn|]. rewrite Hl, decide_True by auto. reflexivity.
    - intros Hne n. split.
      + unfold unlock_and_transfer in Hu. cbn [toks_of fst snd remove_listing set_list m_nft m_sft] in Hu.
        destruct (unlock_Tok (m_nft s) (m_sft s) (m_list s) lid l (mi_tok _ _ _ _ Hs) El) as (t2 & f2 & Eu & Ht2 & _).
        pose proof (mi_tok _ _ _ _ Hs) as (_ & Hsf & H3 & H4). pose proof (H3 lid l El) as Hpos. unfold lid_locked in Hpos. rewrite Et in Hpos.
        unfold unlock_tokens in Eu. rewrite Et in Eu. cbn [fst snd] in Eu.
        destruct (free_all_spec k (m_sft s) (l_seller l) c Hsf Hpos) as (f1 & Ef & Hf1 & _ & Hfr).
        { intros m. etransitivity; [|apply (H4 c m (l_seller l))]. etransitivity; [|apply (listed_ge _ lid l _ _ _ El)]. unfold sft_part. rewrite Et, !N.eqb_refl. reflexivity. }
        rewrite Ef in Hu. cbn [ensure rbind] in Hu. inv_ok. rename v into f3. injection Hu as <- <-.
        match goal with H : stransfer _ _ _ _ _ _ _ = Ok _ |- _ => destruct (exec_spec mo ms f1 (STransfer (l_seller l) c k who) f3 Hf1 I H) as [_ M] end.
        destruct (M c n who) as [M1 _]. cbn [transferred received] in M1. rewrite !N.eqb_refl in M1. destruct (N.eqb_spec who (l_seller l)); [contradiction|].
        cbn [andb] in M1. rewrite N.add_0_r in M1. rewrite M1. f_equal. destruct (Hfr c n who) as [_ ->]. destruct (N.eqb_spec who (l_seller l)); [contradiction|]. rewrite andb_false_r. lia.
      + specialize (Hr' c n (l_seller l)). unfold sft_part in Hr'. rewrite Et, !N.eqb_refl in Hr'. exact Hr'.
  Qed.
End props.

(** ** Concrete histories *)
(** Vault 99, sixteen holds, pallet 7, fee 0.5%, default duration 100. *)
Notation xstep := (mstep 99 16 7 5000 100 10 1000 1000 98 1000 1000).
Notation xreached := (reached 99 16 7 5000 100 10 1000 1000 98 1000 1000).
(** A checker for [mgood] on concrete histories. *)
Definition nv (y : N) : bool := negb (y =? 99).
Definition royb (r : option (list (N * N))) : bool := match r with Some r => forallb (fun e => nv (fst e)) r | None => true end.
Definition goodb (s : mkt) (o : mop) : bool :=
  match o with
  | MSell who _ _ _ price _ _ roy | MAuction who _ _ price _ _ roy =>
      nv who && (price <=? U128MAX) && (m_nl s <? U128MAX) && (m_now s <? U32MAX) && royb roy
  | MUpdate _ _ price => price <=? U128MAX
  | MBuy who _ | MBuyMulti who _ => nv who
  | MBid who _ v => nv who && (v <=? U128MAX) && (m_now s + 40 <=? U32MAX)
  | MOffer who _ v _ _ => nv who && (v <=? U128MAX)
  | MAccept who _ roy => nv who && royb roy
  | MBlock order => forallb (fun e => negb (fst e =? m_now s + 1) || existsb (N.eqb (snd e)) order) (elements (m_end s))
  | MCancel _ _ | MCancelOffer _ _ => true
  | MRegister a _ => nv a
  | MAssets (HMint _ _ _) => true
  | MNft (NCreate _ _ _ _ _ _) => true
  | MSft (SCreate _ _) => true
  | MSft (SToken _ _ i _ _ _) => i <=? U128MAX
  | _ => false
  end.
Lemma nv_ok y : nv y = true -> y <> 99.
Proof. intros H. apply negb_true_iff, N.eqb_neq in H. exact H. Qed.
Lemma royb_ok r : royb r = true -> roy_ok 99 r.
Proof.
  destruct r as [r|]; [|exact (fun _ => I)]. cbn. intros H. apply Forall_forall. intros e He. rewrite forallb_forall in H.
  apply nv_ok, H, elem_of_list_In, He.
Qed.
Lemma goodb_ok s o : goodb s o = true -> mgood 99 7 100 s o.
Proof.
  intros H. destruct o; cbn [goodb mgood] in *; try discriminate; repeat (apply andb_true_iff in H; destruct H as [H ?]);
    repeat match goal with H : (_ <=? _) = true |- _ => apply N.leb_le in H | H : (_ <? _) = true |- _ => apply N.ltb_lt in H
                         | H : nv _ = true |- _ => apply nv_ok in H | H : royb _ = true |- _ => apply royb_ok in H end;
    repeat split; try assumption; try reflexivity.
  1: { intros lid Hin. rewrite forallb_forall in H. specialize (H (m_now s + 1, lid)). cbn [fst snd] in H. rewrite N.eqb_refl in H. cbn [negb orb] in H.
    assert (Hx : existsb (N.eqb lid) order = true) by (apply H, elem_of_list_In, elem_of_elements, Hin).
    apply existsb_exists in Hx. destruct Hx as (x & Hx & Ex). apply N.eqb_eq in Ex. subst x. apply elem_of_list_In. exact Hx. }
  all: destruct o; try discriminate H; cbn in *; try exact I; repeat split; try (apply N.leb_le; exact H).
Qed.
Fixpoint allb (ops : list mop) (s : mkt) : bool := match ops with [] => true | o :: os => goodb s o && allb os (xstep s o) end.
Lemma allb_ok ops : forall s, allb ops s = true -> along xstep (mgood 99 7 100) ops s.
Proof.
  induction ops as [|o ops IH]; intros s H; [exact I|]. cbn [allb] in H. apply andb_true_iff in H. destruct H as [H1 H2].
  split; [apply goodb_ok; exact H1|apply IH; exact H2].
Qed.
Lemma xreached_ok ops : allb ops (minit None) = true -> xreached None ops (run xstep ops (minit None)).
Proof. intros H. split; [discriminate|]. split; [apply allb_ok; exact H|reflexivity]. Qed.

Definition setup : list mop :=
  [MAssets (HMint 5 2 1000); MAssets (HMint 5 3 1000); MAssets (HMint 5 4 1000);
   MNft (NCreate 1 10 5 None 1 true); MSft (SCreate 2 10); MSft (SToken 10 2 100 None 1 true)].
Definition roy3 : option (list (N * N)) := Some [(20, 260000); (21, 260000); (22, 260000)].

(** Rounding to nearest: 26% of 2 is paid as 1 to each of three beneficiaries. *)
Theorem C21_rounding_refuted : exists r x, validate_roy r = true /\ parts r <= 1000000 /\ x <= 2 ^ 128 - 1 /\ x < amounts (royalties r x) /\
  amounts (payouts 1 r x) = x + 2 ^ 128.
Proof. exists [(20, 260000); (21, 260000); (22, 260000)], 2. vm_compute. repeat split; discriminate. Qed.
Definition ops_d : list mop := setup ++ [MSell 1 (LNft 1 [0]) None 5 2 None None roy3].
Theorem C21_no_buyer_refuted : exists ops s lid l, xreached None ops s /\ m_list s !! lid = Some l /\ parts (l_roy l) <= 1000000 /\
  l_price l = 2 /\ balance (al (m_as s)) (l_asset l) 2 = 1000 /\ forall who, is_ok (do_buy 1000 1000 1000 s who lid) = false.
Proof.
  set (s := run xstep ops_d (minit None)). assert (Hr : xreached None ops_d s) by (apply xreached_ok; vm_compute; reflexivity).
  exists ops_d, s, 0, (Listing false 5 2 100 None 1 (LNft 1 [0]) [(20, 260000); (21, 260000); (22, 260000)]).
  assert (El : m_list s !! 0 = Some (Listing false 5 2 100 None 1 (LNft 1 [0]) [(20, 260000); (21, 260000); (22, 260000)])) by (vm_compute; reflexivity).
  split; [exact Hr|]. split; [exact El|]. split; [vm_compute; discriminate|]. split; [reflexivity|]. split; [vm_compute; reflexivity|].
  intros who. eapply C21_unsellable; [exact Hr|exact El|vm_compute; discriminate|vm_compute; discriminate|vm_compute; reflexivity].
Qed.
(** The same sale at price 2000 is settled to the unit. *)
Example C21_example :
  let r := [(20, 260000); (21, 260000); (22, 260000)] in
  parts r <= 1000000 /\ 500000 * N.of_nat (length r) <= (1000000 - parts r) * 2001 /\
  payouts 1 r 2001 = [(20, 520); (21, 520); (22, 520); (1, 441)] /\ nearest 260000 2001 520.
Proof. vm_compute. repeat split; discriminate. Qed.
Definition ops_ok : list mop := setup ++
  [MRegister 30 10000; MOffer 2 (1, 1) 30 5 None; MSell 1 (LNft 1 [0; 2]) None 5 500 None (Some 0) (Some [(20, 50000)]);
   MAuction 1 (LSft 2 [(0, 10)]) 5 100 (Some 20) None (Some []); MBid 3 1 150; MBid 2 1 200].
Definition s_ok : mkt := run xstep ops_ok (minit None).
Example C21_example_purchase : xreached None ops_ok s_ok /\
  match do_buy 1000 1000 1000 s_ok 4 0 with
  | Ok s' => balance (al (m_as s')) 5 4 = 500 /\ balance (al (m_as s')) 5 1 = 470 /\
             balance (al (m_as s')) 5 20 = 25 /\ balance (al (m_as s')) 5 30 = 5 /\ owner_of (m_nft s') 1 2 = Some 4
  | Err _ => False end.
Proof. split; [apply xreached_ok; vm_compute; reflexivity|]. vm_compute. repeat split. Qed.
Lemma calm_dec ops : forall s, forallb (fun o => match o with MAccept _ _ _ | MBlock _ => false | _ => true end) ops = true ->
  along xstep (calm 99 7 1000 1000 1000) ops s /\ along xstep mquiet ops s.
Proof.
  induction ops as [|o ops IH]; intros s H; [split; exact I|]. cbn [forallb] in H. apply andb_true_iff in H. destruct H as [H1 H2].
  destruct (IH (xstep s o) H2) as [A B]. split; split; [|exact A| |exact B]; destruct o; try discriminate; exact I.
Qed.
Example C22_example : along xstep mquiet ops_ok (minit None) /\
  hold_balance (m_as s_ok) 7 2 5 = 230 /\ winning s_ok 2 5 = 200 /\ offers s_ok 2 5 = 30 /\
  hold_balance (m_as s_ok) 7 3 5 = 0 /\ balance (al (m_as s_ok)) 5 3 = 1000.
Proof. split; [apply calm_dec; vm_compute; reflexivity|]. vm_compute. repeat split. Qed.
Example C23_example : along xstep (calm 99 7 1000 1000 1000) ops_ok (minit None) /\
  locks (m_nft s_ok) !! (1, 2) = Some 0 /\ locks (m_nft s_ok) !! (1, 1) = None /\ sbal (m_sft s_ok) 2 0 1 = (90, 10) /\
  listed (m_list s_ok) 2 0 1 = 10 /\ is_ok (do_cancel s_ok 1 0) = true.
Proof. split; [apply calm_dec; vm_compute; reflexivity|]. vm_compute. repeat split. Qed.
(** Letting the auction run out settles it: the winner pays and gets the SFTs. *)
Definition s_end : mkt := run xstep (ops_ok ++ repeat (MBlock [1; 0]) 40) (minit None).
Example C23_example_closing : allb (ops_ok ++ repeat (MBlock [1; 0]) 40) (minit None) = true /\
  m_list s_end !! 1 = None /\ sbal (m_sft s_end) 2 0 2 = (10, 0) /\ sbal (m_sft s_end) 2 0 1 = (90, 0) /\
  hold_balance (m_as s_end) 7 2 5 = 30 /\ balance (al (m_as s_end)) 5 1 = 200 /\
  locks (m_nft s_end) !! (1, 2) = Some 0.
Proof. vm_compute. repeat split. Qed.

(** An offer made before an auction is accepted during it: the auction disappears, but the money
    of its highest bidder stays held (and by [C22_stranded_forever] for ever). *)
Definition ops_b : list mop := setup ++
  [MOffer 2 (1, 0) 30 5 None; MAuction 1 (LNft 1 [0]) 5 0 None None (Some []); MBid 3 0 50; MAccept 1 0 (Some [])].
Theorem C22_accept_during_auction_refuted : exists ops s w p lid, xreached None ops s /\
  m_list s !! lid = None /\ m_bid s !! lid = Some (w, p) /\ 0 < p /\
  hold_balance (m_as s) 7 w 5 = p /\ winning s w 5 + offers s w 5 = 0.
Proof.
  exists ops_b, (run xstep ops_b (minit None)), 3, 50, 0. split; [apply xreached_ok; vm_compute; reflexivity|]. vm_compute. repeat split.
Qed.
(** Accepting an offer for one token of a bundle closes the whole listing but unlocks only that token. *)
Definition ops_a : list mop := setup ++
  [MOffer 2 (1, 0) 30 5 None; MSell 1 (LNft 1 [0; 1]) None 5 500 None None (Some []); MAccept 1 0 (Some [])].
Theorem C23_bundle_refuted : exists ops s c n lid, xreached None ops s /\ locks (m_nft s) !! (c, n) = Some lid /\
  m_list s !! lid = None /\ owner_of (m_nft s) c n = Some 1 /\ is_ok (do_transfer 1000 (m_nft s) c [n] 1 2) = false /\
  is_ok (do_cancel s 1 lid) = false.
Proof.
  exists ops_a, (run xstep ops_a (minit None)), 1, 1, 0. split; [apply xreached_ok; vm_compute; reflexivity|]. vm_compute. repeat split.
Qed.
(** An ended auction whose settlement fails (here by the rounding of C21) never releases the
    seller's tokens. *)
Definition ops_c : list mop := setup ++
  [MAuction 1 (LSft 2 [(0, 10)]) 5 0 (Some 1) None roy3; MBid 3 0 2] ++ repeat (MBlock [0]) 40.
Theorem C23_failed_settlement_refuted : exists ops s c n y, xreached None ops s /\ m_list s !! 0 = None /\
  listed (m_list s) c n y = 0 /\ sbal (m_sft s) c n y = (90, 10).
Proof.
  exists ops_c, (run xstep ops_c (minit None)), 2, 0, 1. split; [apply xreached_ok; vm_compute; reflexivity|]. vm_compute. repeat split.
Qed.
(** A zero bid on an auction without reserve: the bidder makes an offer elsewhere and cancels it,
    which removes the hold entry; then [release_hold] of the zero bid fails, and with it every
    higher bid. *)
Definition ops_e : list mop := setup ++
  [MOffer 2 (1, 2) 5 5 None; MAuction 1 (LNft 1 [0]) 5 0 None None (Some []); MBid 4 0 0; MOffer 4 (1, 1) 5 5 None; MCancelOffer 4 1].
Theorem C64_zero_bid_refuted : exists ops s lid, xreached None ops s /\ m_bid s !! lid = Some (4, 0) /\
  balance (al (m_as s)) 5 3 = 1000 /\ is_ok (do_bid 99 16 7 s 3 lid 500) = false.
Proof.
  exists ops_e, (run xstep ops_e (minit None)), 0. split; [apply xreached_ok; vm_compute; reflexivity|]. vm_compute. repeat split.
Qed.
Example C64_example : match m_bid s_ok !! 1 with Some (w, p) => 0 < p < 300 | None => False end /\
  300 <= balance (al (m_as s_ok)) 5 4 /\ (length (holds_of (m_as s_ok) 5%N 4%N) < 16)%nat /\ is_ok (do_bid 99 16 7 s_ok 4 1 300) = true.
Proof. vm_compute. repeat split; try discriminate; lia. Qed.

Print Assumptions C21_shares_nearest.
Print Assumptions C21_split_exact.
Print Assumptions C21_purchase_exact.
Print Assumptions C21_settlement_exact.
Print Assumptions C21_unsellable.
Print Assumptions C21_rounding_refuted.
Print Assumptions C21_no_buyer_refuted.
Print Assumptions C22_accounted.
Print Assumptions C22_exact.
Print Assumptions C22_offer_refunded.
Print Assumptions C22_outbid_refunded.
Print Assumptions C22_stranded_forever.
Print Assumptions C22_accept_during_auction_refuted.
Print Assumptions C23_listed_is_locked.
Print Assumptions C23_locked_is_listed.
Print Assumptions C23_listings_end.
Print Assumptions C23_cancel_returns.
Print Assumptions C23_stuck_forever.
Print Assumptions C23_bundle_refuted.
Print Assumptions C23_failed_settlement_refuted.
Print Assumptions C64_higher_bid_accepted.
Print Assumptions C64_zero_bid_refuted.
Print Assumptions C65_purchase_delivers.
