(** Marketplace: what sellers and bidders can rely on (C99, and more of C21, C64, C65). *)
From Verif Require Import MarketTerms NftProofs NftProps SftProofs SftProps.
From Verif Require Import LedgerProofs.

Section props.
  Variable vault : N.
  Variable mh : nat.
  Variable pid net_fee default_duration max_offers : N.
  Variable cap ml np mo ms : N.
  Notation mexec := (mexec vault mh pid net_fee default_duration max_offers cap ml np mo ms).
  Notation mstep := (mstep vault mh pid net_fee default_duration max_offers cap ml np mo ms).
  Notation mgood := (mgood vault pid default_duration).
  Notation MI := (MI vault pid).
  Notation reached := (reached vault mh pid net_fee default_duration max_offers cap ml np mo ms).
  Notation close_one := (close_one vault pid cap mo ms).

  Lemma reached_TI fee ops s : reached fee ops s -> exists asset, MI asset s /\ TI s.
  Proof.
    intros Hr. destruct (reached_MI _ _ _ _ _ _ _ _ _ _ _ _ _ _ Hr) as [asset Hs]. exists asset. split; [exact Hs|]. destruct Hr as (Hf & Hg & ->).
    eapply run_TI; [apply init_inv; exact Hf|apply init_TI|exact Hg].
  Qed.

  Lemma buy_fate s who lid s' : do_buy cap mo ms s who lid = Ok s' ->
    exists l, m_list s !! lid = Some l /\ l_auction l = false /\ may_buy l who /\ m_list s' = delete lid (m_list s).
  Proof.
    intros E. unfold do_buy in E. inv_ok. rename v into l. subst s'. exists l. split; [assumption|].
    split; [match goal with H : negb (l_auction l) = true |- _ => apply negb_true_iff in H; exact H end|]. split; [|reflexivity].
    unfold may_buy. destruct (l_buyer l) as [b|]; [right|left; reflexivity]. f_equal. symmetry. apply N.eqb_eq. assumption.
  Qed.
  Lemma buy_multi_fate who lids : forall s s' lid l, buy_multi cap mo ms s who lids = Ok s' -> m_list s !! lid = Some l ->
    m_list s' !! lid = Some l \/ m_list s' !! lid = None /\ lid ∈ lids /\ l_auction l = false /\ may_buy l who.
  Proof.
    induction lids as [|i lids IH]; intros s s' lid l E El; cbn [buy_multi] in E; [injection E as <-; left; exact El|]. inv_ok. rename v into s1.
    match goal with H : do_buy _ _ _ _ _ _ = Ok s1 |- _ => apply buy_fate in H; destruct H as (k & Ek & Ea & Hb & E1) end.
    destruct (N.eq_dec i lid) as [->|Hne].
    - right. assert (k = l) as -> by congruence. split; [|split; [left|auto]].
      assert (Hn : m_list s1 !! lid = None) by (rewrite E1; apply lookup_delete). clear -E Hn. revert s1 E Hn.
      induction lids as [|i lids IH]; intros s1 E Hn; cbn [buy_multi] in E; [injection E as <-; exact Hn|]. inv_ok. rename v into s2.
      match goal with H : do_buy _ _ _ _ _ _ = Ok s2 |- _ => apply buy_fate in H; destruct H as (k & Ek & Ea & Hb & E1) end.
      apply (IH s2 E). rewrite E1. apply lookup_delete_None. right. exact Hn.
    - destruct (IH s1 s' lid l E) as [A|(A & B & C & D)]; [rewrite E1, lookup_delete_ne by exact Hne; exact El|left; exact A|].
      right. split; [exact A|]. split; [right; exact B|]. auto.
  Qed.

  (** ** C99 *)
  (** Whatever happens, an open listing keeps the terms its seller gave it.  The seller of a fixed
      price listing may change its price, a late bid prolongs an auction to forty blocks from now,
      and a listing only closes by one of the ways listed in [fate]. *)
  Theorem C99_listing_fate : forall fee ops s o s' lid l, reached fee ops s -> mgood s o -> mexec s o = Ok s' ->
    m_list s !! lid = Some l -> fate s o lid l (m_list s' !! lid).
  Proof.
    intros fee ops s o s' lid l Hr Hg E El. destruct (reached_TI _ _ _ Hr) as (asset & Hs & Ht).
    assert (Hsame : m_list s' = m_list s -> fate s o lid l (m_list s' !! lid)) by (intros ->; rewrite El; apply Untouched).
    assert (Hother : forall L : gmap N listing, L !! lid = m_list s !! lid -> fate s o lid l (L !! lid)) by (intros L ->; rewrite El; apply Untouched).
    destruct o; cbn [MarketModel.mexec MarketProofs.mgood] in *.
    - apply open_frame in E. destruct E as (_ & k & ->). destruct (mi_list _ _ _ _ Hs _ _ El). apply Hother. rewrite lookup_insert_ne by lia. reflexivity.
    - apply open_frame in E. destruct E as (_ & k & ->). destruct (mi_list _ _ _ _ Hs _ _ El). apply Hother. rewrite lookup_insert_ne by lia. reflexivity.
    - unfold update_price in E. inv_ok. rename v into k. subst s'. cbn. destruct (N.eq_dec lid0 lid) as [->|Hne].
      + rewrite lookup_insert. match goal with H : m_list s !! lid = Some k |- _ => rewrite El in H; injection H as <- end.
        match goal with H : negb (l_auction l) = true |- _ => apply negb_true_iff in H; rename H into Ea end.
        match goal with H : (l_seller l =? who) = true |- _ => apply N.eqb_eq in H; subst who end.
        pose proof (Repriced s (MUpdate (l_seller l) lid price) lid l price eq_refl Ea) as H. unfold with_price in H. rewrite Ea in H. exact H.
      + rewrite lookup_insert_ne by exact Hne. rewrite El. apply Untouched.
    - apply buy_fate in E. destruct E as (k & Ek & Ea & Hb & ->). destruct (N.eq_dec lid0 lid) as [->|Hne].
      + rewrite lookup_delete. assert (k = l) as -> by congruence. eapply Bought; [left; reflexivity|exact Ea|exact Hb].
      + rewrite lookup_delete_ne by exact Hne. rewrite El. apply Untouched.
    - destruct (buy_multi_fate _ _ _ _ lid l E El) as [->|(-> & Hin & Ea & Hb)]; [apply Untouched|]. eapply Bought; [right; eauto|exact Ea|exact Hb].
    - apply bid_spec in E. destruct E as (k & Ek & Ea & _ & _ & _ & _ & Hc).
      destruct (_ <=? 40) eqn:E40; cbv zeta in Hc; [|apply Hsame, Hc]. destruct Hc as [-> _]. destruct (N.eq_dec lid0 lid) as [->|Hne].
      + rewrite lookup_insert. assert (k = l) as -> by congruence. destruct Hg as (_ & _ & Hnow).
        destruct (ti_list _ Ht lid l El) as (Hcl & _). destruct (mi_end _ _ _ _ Hs lid l El) as [_ Hlt].
        rewrite till_spec in E40 by assumption. apply N.leb_le in E40.
        rewrite N.mod_small by (unfold U32MAX in Hnow; lia). eapply Extended; [reflexivity|exact Ea|lia].
      + rewrite lookup_insert_ne by exact Hne. rewrite El. apply Untouched.
    - unfold do_cancel in E. inv_ok. rename v into k. destruct (unlock_tokens _ _ _) as [[t f] b]. inv_ok. subst s'. cbn.
      destruct (N.eq_dec lid0 lid) as [->|Hne].
      + rewrite lookup_delete. match goal with H : m_list s !! lid = Some k |- _ => rewrite El in H; injection H as <- end.
        match goal with H : (l_seller l =? who) = true |- _ => apply N.eqb_eq in H; subst who end. apply Withdrawn; [reflexivity|]. intros Ea.
        match goal with H : _ || _ = true |- _ => rewrite Ea in H; cbn [negb orb] in H; apply bool_decide_eq_true in H; exact H end.
      + rewrite lookup_delete_ne by exact Hne. rewrite El. apply Untouched.
    - unfold make_offer in E. inv_ok. subst s'. apply Hsame. reflexivity.
    - unfold cancel_offer in E. inv_ok. apply remove_offer_spec in E. destruct E as (T & -> & _). apply Hsame. reflexivity.
    - apply (accept_spec vault pid net_fee cap mo ms asset) in E; [|exact Hs]. destruct E as (f & r0 & Eo & Eow & _ & _ & _ & _ & _ & _ & _ & _ & _ & Hc).
      destruct (locks (m_nft s) !! o_tok f) as [i|] eqn:Elk; [|apply Hsame, Hc].
      destruct (m_list s !! i) as [k|] eqn:Ei; [|apply Hsame, Hc]. destruct Hc as [-> _].
      destruct (N.eq_dec i lid) as [->|Hne]; [|rewrite lookup_delete_ne by exact Hne; rewrite El; apply Untouched].
      rewrite lookup_delete. assert (k = l) as -> by congruence. destruct (o_tok f) as [c n] eqn:Etok. cbn [fst snd] in Eow.
      destruct (ti_lock _ Ht c n lid Elk) as [_ Hl]. destruct (Hl l El) as (ns & Et & Hn).
      pose proof (proj1 (proj2 (proj2 (mi_tok _ _ _ _ Hs))) lid l El) as Hd. unfold lid_locked in Hd. rewrite Et in Hd. destruct Hd as (_ & _ & Hd).
      destruct (Hd n Hn) as [_ Ho]. rewrite Eow in Ho. injection Ho as ->. eapply Offered; [reflexivity|exact Eo|exact Etok|exact Et|exact Hn].
    - injection E as <-. unfold new_block. fold (tick s). set (due := List.filter _ order). cbv zeta. rewrite close_many_tick. cbn.
      destruct (close_many_frame vault pid cap mo ms due s) as (_ & _ & F). cbv zeta in F. rewrite F.
      destruct (existsb (N.eqb lid) due) eqn:Ed; [|rewrite El; apply Untouched].
      apply existsb_exists in Ed. destruct Ed as (i & Hi & Ei). apply N.eqb_eq in Ei. subst i. apply filter_In in Hi. destruct Hi as [_ Hi].
      apply bool_decide_eq_true in Hi. destruct (ti_end _ Ht _ _ Hi) as (k & Ek & Ec). eapply Ended; [reflexivity|]. congruence.
    - unfold register in E. inv_ok. subst s'. apply Hsame. reflexivity.
    - injection E as <-. apply Hsame. reflexivity.
    - inv_ok. subst s'. apply Hsame. reflexivity.
    - inv_ok. subst s'. apply Hsame. reflexivity.
    - inv_ok. subst s'. apply Hsame. reflexivity.
  Qed.
  (** A new listing has exactly the terms asked for (and C21: its fees are those due). *)
  Theorem C99_sale_opened : forall s who tk buyer a price d market roy s',
    mexec s (MSell who tk buyer a price d market (Some roy)) = Ok s' ->
    m_list s' = <[m_nl s := Listing false a price (N.min (m_now s + default default_duration d) (2 ^ 32 - 1)) buyer who tk (fees_due net_fee s roy market)]> (m_list s).
  Proof.
    intros s who tk buyer a price d market roy s' E. cbn in E. apply open_spec in E. destruct E as (r0 & t & [= <-] & _ & _ & _ & _ & -> & _). reflexivity.
  Qed.
  Theorem C99_auction_opened : forall s who tk a price d market roy s',
    mexec s (MAuction who tk a price d market (Some roy)) = Ok s' ->
    m_list s' = <[m_nl s := Listing true a price (N.min (m_now s + default default_duration d) (2 ^ 32 - 1)) None who tk (fees_due net_fee s roy market)]> (m_list s).
  Proof.
    intros s who tk a price d market roy s' E. cbn in E. apply open_spec in E. destruct E as (r0 & t & [= <-] & _ & _ & _ & _ & -> & _). reflexivity.
  Qed.

  (** ** C21: the fees *)
  (** No open listing has more than eight beneficiaries or hands out more than the price. *)
  Theorem C21_fees_valid : forall fee ops s lid l, reached fee ops s -> m_list s !! lid = Some l -> fees_valid (l_roy l).
  Proof. intros fee ops s lid l Hr El. destruct (reached_TI _ _ _ Hr) as (asset & Hs & Ht). apply (ti_list _ Ht lid l El). Qed.
  (** An accepted offer pays the fees due and the rest to the owner, out of the money held for it. *)
  Theorem C21_offer_exact : forall fee ops s who oid roy s' f, reached fee ops s -> who <> vault -> roy_ok vault (Some roy) ->
    accept_offer vault pid net_fee cap mo ms s who oid (Some roy) = Ok s' -> m_off s !! oid = Some f ->
    let ps := payouts who (fees_due net_fee s roy (o_market f)) (o_amount f) in
    owner_of (m_nft s) (fst (o_tok f)) (snd (o_tok f)) = Some who /\
    owner_of (m_nft s') (fst (o_tok f)) (snd (o_tok f)) = Some (o_buyer f) /\
    fees_valid (fees_due net_fee s roy (o_market f)) /\ amounts ps = o_amount f /\
    hold_balance (m_as s') pid (o_buyer f) (o_asset f) + o_amount f = hold_balance (m_as s) pid (o_buyer f) (o_asset f) /\
    forall b y, y <> vault -> balance (al (m_as s')) b y = balance (al (m_as s)) b y + (if b =? o_asset f then paid_to y ps else 0).
  Proof.
    intros fee ops s who oid roy s' f Hr Hw Hroy E Ef ps. destruct (reached_TI _ _ _ Hr) as (asset & Hs & Ht).
    apply (accept_spec vault pid net_fee cap mo ms asset) in E; [|exact Hs].
    destruct E as (f' & r0 & Eo & Eow & [= <-] & Hv & _ & _ & _ & _ & Hsp & Eow' & _). assert (f' = f) as -> by congruence.
    split; [exact Eow|]. split; [exact Eow'|]. split; [exact Hv|]. destruct (mi_off _ _ _ _ Hs _ _ Eo) as (_ & Hamt & Hb & _).
    assert (Hnv : Forall (fun e => fst e <> vault) (fees_due net_fee s roy (o_market f))).
    { unfold fees_due. destruct (mi_mk _ _ _ _ Hs) as [M1 M2]. apply Forall_app. split; [exact Hroy|]. apply Forall_app. split.
      - destruct (m_fee s) as [y|]; [|constructor]. constructor; [|constructor]. cbn. congruence.
      - destruct (o_market f) as [m|]; [|constructor]. destruct (m_mk s !! m) as [e|] eqn:Em; [|constructor]. constructor; [|constructor]. eapply M2. exact Em. }
    destruct (spend_money vault mh pid _ _ _ _ _ _ _ (mi_hi _ _ _ _ Hs) (mi_backed _ _ _ _ Hs) Hb Hw Hnv (proj2 Hamt) Hsp) as (_ & _ & A & B & C).
    split; [exact A|]. split.
    - specialize (C (o_buyer f) (o_asset f)). rewrite !N.eqb_refl in C. exact C.
    - intros b y Hy. apply split_spec in B. destruct B as (_ & _ & B). specialize (B b y).
      destruct (decide ((o_asset f, vault) = (b, y))); [congruence|]. unfold ps. lia.
  Qed.

  (** ** C64: bids *)
  (** The highest bid on an auction only ever changes to a strictly higher one by the account that
      made it, and the first one is at least the reserve price. *)
  Theorem C64_bid_fate : forall fee ops s o s' lid l l', reached fee ops s -> mgood s o -> mexec s o = Ok s' ->
    m_list s !! lid = Some l -> m_list s' !! lid = Some l' -> bid_fate o lid l (m_bid s !! lid) (m_bid s' !! lid).
  Proof.
    intros fee ops s o s' lid l l' Hr Hg E El El'. destruct (reached_TI _ _ _ Hr) as (asset & Hs & Ht).
    assert (Hsame : m_bid s' = m_bid s -> bid_fate o lid l (m_bid s !! lid) (m_bid s' !! lid)) by (intros ->; apply Same).
    destruct o; cbn [MarketModel.mexec MarketProofs.mgood] in *.
    - apply open_frame in E. apply Hsame, E.
    - apply open_frame in E. apply Hsame, E.
    - unfold update_price in E. inv_ok. subst s'. apply Hsame. reflexivity.
    - apply buy_frame in E. apply Hsame, E.
    - apply buy_multi_frame in E; [apply Hsame, E|]. intros i b k Hb. apply (mi_bid _ _ _ _ Hs i b Hb).
    - apply bid_spec in E. destruct E as (k & Ek & Ea & Hx & -> & _). destruct (N.eq_dec lid0 lid) as [->|Hne].
      + rewrite lookup_insert. assert (k = l) as -> by congruence. destruct (m_bid s !! lid) as [[w v]|].
        * eapply Higher; [reflexivity|exact Ea|exact Hx].
        * eapply First; [reflexivity|exact Ea|exact Hx].
      + rewrite lookup_insert_ne by exact Hne. apply Same.
    - unfold do_cancel in E. inv_ok. destruct (unlock_tokens _ _ _) as [[t f] b]. inv_ok. subst s'. apply Hsame. reflexivity.
    - unfold make_offer in E. inv_ok. subst s'. apply Hsame. reflexivity.
    - unfold cancel_offer in E. inv_ok. apply remove_offer_spec in E. destruct E as (T & -> & _). apply Hsame. reflexivity.
    - apply (accept_spec vault pid net_fee cap mo ms asset) in E; [|exact Hs]. destruct E as (f & r0 & _ & _ & _ & _ & Eb & _). apply Hsame, Eb.
    - injection E as <-. revert El'. unfold new_block. fold (tick s). set (due := List.filter _ order). cbv zeta. rewrite close_many_tick. cbn. clearbody due.
      intros El'. assert (Hb : m_bid (fold_left close_one due s) !! lid = m_bid s !! lid); [|rewrite Hb; apply Same].
      clear -El'. revert s El'. induction due as [|i due IH]; intros s El'; [reflexivity|]. cbn [fold_left] in *.
      rewrite IH by exact El'. rewrite close_one_bid. destruct (m_list s !! i) as [k|] eqn:Ek; [|reflexivity].
      destruct (N.eqb_spec lid i) as [->|]; [|rewrite andb_false_r; reflexivity]. exfalso.
      destruct (close_many_frame vault pid cap mo ms due (close_one s i)) as (_ & _ & F). cbv zeta in F. rewrite F in El'.
      destruct (close_one_frame vault pid cap mo ms s i) as (_ & _ & G). cbv zeta in G. rewrite G, N.eqb_refl in El'. destruct (existsb _ _); discriminate.
    - unfold register in E. inv_ok. subst s'. apply Hsame. reflexivity.
    - injection E as <-. apply Hsame. reflexivity.
    - inv_ok. subst s'. apply Hsame. reflexivity.
    - inv_ok. subst s'. apply Hsame. reflexivity.
    - inv_ok. subst s'. apply Hsame. reflexivity.
  Qed.
  (** So nothing goes below the seller's reserve price, and only auctions have bids. *)
  Theorem C64_reserve_met : forall fee ops s lid l w v, reached fee ops s -> m_list s !! lid = Some l -> m_bid s !! lid = Some (w, v) ->
    l_auction l = true /\ l_price l <= v.
  Proof.
    intros fee ops s lid l w v Hr El Eb. destruct (reached_TI _ _ _ Hr) as (asset & Hs & Ht). split.
    - apply (mi_bid _ _ _ _ Hs _ _ Eb). exact El.
    - exact (proj2 (proj2 (ti_list _ Ht lid l El)) _ Eb).
  Qed.

  (** ** C65: what an ended auction comes to *)
  (** The listings [pre] closed in the same block before it do not matter.  Either the winner gets
      the tokens and the price is paid out of the money held for the bid, or the winner gets that
      money back and the tokens stay where they are. *)
  Theorem C65_auction_outcome : forall fee ops s pre lid l w p, reached fee ops s ->
    let s1 := fold_left close_one pre s in let s' := close_one s1 lid in
    m_list s1 !! lid = Some l -> l_auction l = true -> m_bid s1 !! lid = Some (w, p) ->
    m_list s' !! lid = None /\ m_bid s' !! lid = None /\
    hold_balance (m_as s') pid w (l_asset l) + p = hold_balance (m_as s1) pid w (l_asset l) /\
    let ps := payouts (l_seller l) (l_roy l) p in
    (amounts ps = p /\
     match l_toks l with LNft c ns => forall n, n ∈ ns -> owner_of (m_nft s') c n = Some w /\ locks (m_nft s') !! (c, n) = None | LSft _ _ => True end /\
     forall b y, y <> vault -> balance (al (m_as s')) b y = balance (al (m_as s1)) b y + (if b =? l_asset l then paid_to y ps else 0)) \/
    (m_nft s' = m_nft s1 /\ m_sft s' = m_sft s1 /\
     forall b y, y <> vault -> balance (al (m_as s')) b y = balance (al (m_as s1)) b y + (if decide ((l_asset l, w) = (b, y)) then p else 0)).
  Proof.
    intros fee ops s pre lid l w p Hr s1 s' El Ea Eb. destruct (reached_TI _ _ _ Hr) as (asset & Hs0 & _).
    assert (Hs : MI asset s1) by (apply (close_many_inv vault mh pid cap mo ms asset pre s); exact Hs0). clearbody s1.
    destruct (mi_bid _ _ _ _ Hs _ _ Eb) as (_ & Hw & Hp & _). cbn [fst snd] in Hw, Hp. destruct (mi_list _ _ _ _ Hs _ _ El) as (_ & Eas & Hsel & Hroy & _).
    assert (Hheld : p <= hold_balance (m_as s1) pid w (l_asset l)).
    { rewrite (mi_held _ _ _ _ Hs), Eas. pose proof (bid_delete asset _ lid (w, p) w (asset lid) Eb) as Hd. cbn [fst snd] in Hd. rewrite !N.eqb_refl in Hd. cbn [andb] in Hd. lia. }
    assert (Hout : m_list s' !! lid = None /\ m_bid s' !! lid = None).
    { destruct (close_one_frame vault pid cap mo ms s1 lid) as (_ & _ & F). cbv zeta in F. unfold s'. rewrite F, N.eqb_refl, close_one_bid, El, Ea, N.eqb_refl. auto. }
    split; [apply Hout|]. split; [apply Hout|]. unfold s', MarketModel.close_one. rewrite El, Ea. unfold close_auction. cbn [m_bid remove_listing set_list]. rewrite Eb. cbv zeta.
    destruct (settle _ _ _ _ _ _ _ _ _ _ _ _) as [s2|e] eqn:Es.
    - unfold settle in Es. inv_ok. rename v into a. destruct v0 as [t f]. subst s2. cbn.
      match goal with H : spend_hold _ _ _ _ _ _ = Ok a |- _ =>
          destruct (spend_money vault mh pid _ _ _ _ _ _ _ (mi_hi _ _ _ _ Hs) (mi_backed _ _ _ _ Hs) Hw Hsel Hroy Hp H) as (_ & _ & A & B & C) end.
      split; [specialize (C w (l_asset l)); rewrite !N.eqb_refl in C; exact C|]. left. split; [exact A|]. split.
      + match goal with H : unlock_and_transfer _ _ _ _ _ _ _ = _ |- _ =>
          destruct (deliver_listing cap mo ms (m_nft s1) (m_sft s1) (m_list s1) lid l w t f (mi_tok _ _ _ _ Hs) El H) as (_ & Hl & _ & Ho) end.
        destruct (l_toks l) as [c ns|]; [|exact I]. intros n Hn. split; [apply Ho; exact Hn|]. rewrite Hl, decide_True by auto. reflexivity.
      + intros b y Hy. apply split_spec in B. destruct B as (_ & _ & B). specialize (B b y). destruct (decide ((l_asset l, vault) = (b, y))); [congruence|]. lia.
    - cbn. destruct (N.eq_dec p 0) as [->|Hne].
      + destruct (release_hold vault (m_as s1) pid w (l_asset l) 0) as [a|] eqn:Er; cbn [commit].
        * destruct (release_money vault mh pid _ _ _ _ _ (mi_hi _ _ _ _ Hs) (mi_backed _ _ _ _ Hs) Hw Er) as (_ & _ & C).
          destruct (release_spec _ _ _ _ _ _ _ (mi_hi _ _ _ _ Hs) Er) as (_ & Htr & _). apply LedgerProofs.transfer_spec in Htr. destruct Htr as (_ & _ & B).
          split; [specialize (C w (l_asset l)); rewrite !N.eqb_refl in C; exact C|]. right. split; [reflexivity|]. split; [reflexivity|].
          intros b y Hy. specialize (B b y). destruct (decide ((l_asset l, vault) = (b, y))); [congruence|]. lia.
        * split; [lia|]. right. split; [reflexivity|]. split; [reflexivity|]. intros b y _. destruct (decide _); lia.
      + destruct (release_ok vault (m_as s1) pid w (l_asset l) p (mi_hi _ _ _ _ Hs) (mi_backed _ _ _ _ Hs)) as [a Er]; [lia|]. rewrite Er. cbn [commit].
        destruct (release_money vault mh pid _ _ _ _ _ (mi_hi _ _ _ _ Hs) (mi_backed _ _ _ _ Hs) Hw Er) as (_ & _ & C).
        destruct (release_spec _ _ _ _ _ _ _ (mi_hi _ _ _ _ Hs) Er) as (_ & Htr & _). apply LedgerProofs.transfer_spec in Htr. destruct Htr as (_ & _ & B).
        split; [specialize (C w (l_asset l)); rewrite !N.eqb_refl in C; exact C|]. right. split; [reflexivity|]. split; [reflexivity|].
        intros b y Hy. specialize (B b y). destruct (decide ((l_asset l, vault) = (b, y))); [congruence|]. lia.
  Qed.
End props.

(** ** Concrete cases, in the history of C21_example_purchase *)
Example C99_example_late_bid :
  let s := run xstep (ops_ok ++ repeat (MBlock [1; 0]) 5) (minit None) in
  allb (ops_ok ++ repeat (MBlock [1; 0]) 5 ++ [MBid 3 1 300]) (minit None) = true /\
  option_map l_close (m_list s !! 1) = Some 40 /\ option_map l_close (m_list (xstep s (MBid 3 1 300)) !! 1) = Some 45 /\
  m_bid (xstep s (MBid 3 1 300)) !! 1 = Some (3, 300) /\ m_bid (xstep s (MBid 3 1 200)) !! 1 = Some (2, 200).
Proof. vm_compute. repeat split. Qed.
Example C99_example_terms :
  m_list s_ok !! 0 = Some (Listing false 5 500 100 None 1 (LNft 1 [0; 2]) (fees_due 5000 s_ok [(20, 50000)] (Some 0))) /\
  fees_due 5000 s_ok [(20, 50000)] (Some 0) = [(20, 50000); (30, 10000)] /\
  option_map l_price (m_list (xstep s_ok (MUpdate 1 0 700)) !! 0) = Some 700 /\
  option_map l_price (m_list (xstep s_ok (MUpdate 2 0 700)) !! 0) = Some 500 /\
  xstep s_ok (MCancel 1 1) = s_ok.
Proof. vm_compute. repeat split. Qed.
Example C21_example_offer :
  match accept_offer 99 7 5000 1000 1000 1000 s_ok 1 0 (Some [(20, 50000)]) with
  | Ok s' => balance (al (m_as s')) 5 1 = 29 /\ balance (al (m_as s')) 5 20 = 1 /\ owner_of (m_nft s') 1 1 = Some 2
  | Err _ => False end.
Proof. vm_compute. repeat split. Qed.
Example C65_example_auction : let s1 := fold_left (close_one 99 7 1000 1000 1000) [0] s_ok in
  option_map l_auction (m_list s1 !! 1) = Some true /\ m_bid s1 !! 1 = Some (2, 200) /\
  sbal (m_sft (close_one 99 7 1000 1000 1000 s1 1)) 2 0 2 = (10, 0).
Proof. vm_compute. repeat split. Qed.

Print Assumptions C99_listing_fate.
Print Assumptions C99_sale_opened.
Print Assumptions C99_auction_opened.
Print Assumptions C21_fees_valid.
Print Assumptions C21_offer_exact.
Print Assumptions C64_bid_fate.
Print Assumptions C64_reserve_met.
Print Assumptions C65_auction_outcome.
