(** The invariant of the marketplace. *)
From Verif Require Export MarketToks MarketMoney.
From Verif Require Import NftProofs NftProps SftProofs SftProps LedgerProofs.

Section inv.
  Variable vault : N.
  Variable mh : nat.
  Variable pid net_fee default_duration max_offers : N.
  Variable cap ml np mo ms : N.
  Notation mexec := (mexec vault mh pid net_fee default_duration max_offers cap ml np mo ms).
  Notation mstep := (mstep vault mh pid net_fee default_duration max_offers cap ml np mo ms).

  (** Held for the bids / offers of [y] in asset [a]; [asset lid] is the payment asset of listing [lid]. *)
  Definition bid_held (asset : N -> N) (B : gmap N (N * N)) (y a : N) : N :=
    sumf (fun lid b => if (y =? fst b) && (a =? asset lid) then snd b else 0) B.
  Definition off_held (O : gmap N offer) (y a : N) : N :=
    sumf (fun _ o => if (y =? o_buyer o) && (a =? o_asset o) then o_amount o else 0) O.
  Definition no_vault (r : list (N * N)) : Prop := Forall (fun e => fst e <> vault) r.

  Record MI (asset : N -> N) (s : mkt) : Prop := {
    mi_tok : Tok (m_nft s) (m_sft s) (m_list s);
    mi_hi : HI (m_as s);
    mi_backed : backed vault (m_as s);
    mi_held : forall y a, hold_balance (m_as s) pid y a = bid_held asset (m_bid s) y a + off_held (m_off s) y a;
    mi_list : forall lid l, m_list s !! lid = Some l ->
      lid < m_nl s /\ l_asset l = asset lid /\ l_seller l <> vault /\ no_vault (l_roy l) /\ l_price l <= U128MAX;
    mi_bid : forall lid b, m_bid s !! lid = Some b ->
      lid < m_nl s /\ fst b <> vault /\ snd b <= U128MAX /\ forall l, m_list s !! lid = Some l -> l_auction l = true;
    mi_off : forall oid o, m_off s !! oid = Some o ->
      oid < m_no s /\ 0 < o_amount o <= U128MAX /\ o_buyer o <> vault /\
      exists os, m_toff s !! o_tok o = Some os /\ oid ∈ os;
    mi_mk : m_fee s <> Some vault /\ forall i e, m_mk s !! i = Some e -> fst e <> vault;
    mi_end : forall lid l, m_list s !! lid = Some l -> (l_close l, lid) ∈ m_end s /\ m_now s < l_close l }.

  (** What histories are assumed to respect: amounts are 128-bit, the vault account signs nothing
      and is nobody's royalty beneficiary, fewer than 2^128 listings and 2^32 blocks happen, the
      tokens' own pallets are used as in C15/C19, and a block visits all the listings due. *)
  Definition roy_ok (r : option (list (N * N))) : Prop := match r with Some r => no_vault r | None => True end.
  Definition mgood (s : mkt) (o : mop) : Prop :=
    match o with
    | MSell who _ _ _ price d _ roy | MAuction who _ _ price d _ roy =>
        who <> vault /\ price <= U128MAX /\ m_nl s < U128MAX /\ m_now s < U32MAX /\ roy_ok roy /\ 0 < default_duration
    | MUpdate _ _ price => price <= U128MAX
    | MBuy who _ | MBuyMulti who _ => who <> vault
    | MBid who _ v => who <> vault /\ v <= U128MAX /\ m_now s + 40 <= U32MAX
    | MOffer who _ v _ _ => who <> vault /\ v <= U128MAX
    | MAccept who _ roy => who <> vault /\ roy_ok roy
    | MBlock order => forall lid, (m_now s + 1, lid) ∈ m_end s -> lid ∈ order
    | MRegister a _ => a <> vault
    | MFee f => f <> Some vault
    | MAssets o => foreign_hop vault pid o
    | MNft o => foreign_nop o /\ good (m_nft s) o
    | MSft o => foreign_sop o /\ sop_u128 o
    | MCancel _ _ | MCancelOffer _ _ => True
    end.

  (** *** Sums *)
  Lemma bid_delete asset B lid b y a : B !! lid = Some b ->
    bid_held asset (delete lid B) y a + (if (y =? fst b) && (a =? asset lid) then snd b else 0) = bid_held asset B y a.
  Proof.
    intros E. unfold bid_held.
    pose proof (sumf_delete (fun lid b => if (y =? fst b) && (a =? asset lid) then snd b else 0) B lid) as H.
    unfold contrib in H. rewrite E in H. lia.
  Qed.
  Lemma bid_insert asset B lid b y a :
    bid_held asset (<[lid := b]> B) y a
    + match B !! lid with Some c => if (y =? fst c) && (a =? asset lid) then snd c else 0 | None => 0 end
    = bid_held asset B y a + (if (y =? fst b) && (a =? asset lid) then snd b else 0).
  Proof. exact (sumf_insert (fun lid b => if (y =? fst b) && (a =? asset lid) then snd b else 0) B lid b). Qed.
  Lemma bid_ext asset asset' B y a : (forall lid b, B !! lid = Some b -> asset' lid = asset lid) ->
    bid_held asset' B y a = bid_held asset B y a.
  Proof. intros H. apply sumf_ext. intros lid b Hb. rewrite (H lid b Hb). reflexivity. Qed.
  Lemma off_delete O oid o y a : O !! oid = Some o ->
    off_held (delete oid O) y a + (if (y =? o_buyer o) && (a =? o_asset o) then o_amount o else 0) = off_held O y a.
  Proof.
    intros E. unfold off_held.
    pose proof (sumf_delete (fun _ o => if (y =? o_buyer o) && (a =? o_asset o) then o_amount o else 0) O oid) as H.
    unfold contrib in H. rewrite E in H. lia.
  Qed.
  Lemma off_insert O oid o y a : O !! oid = None ->
    off_held (<[oid := o]> O) y a = (if (y =? o_buyer o) && (a =? o_asset o) then o_amount o else 0) + off_held O y a.
  Proof. intros E. unfold off_held. rewrite sumf_insert_new by exact E. reflexivity. Qed.

  (** *** Frame lemmas *)
  Lemma MI_remove asset s l lid : MI asset s -> m_list s !! lid = Some l -> MI asset (remove_listing s l lid).
  Proof.
    intros [H1 H2 H3 H4 H5 H6 H7 H8 H9] El. constructor; unfold remove_listing, set_list; cbn.
    - apply Tok_drop. exact H1.
    - exact H2.
    - exact H3.
    - exact H4.
    - intros i k Hi. apply lookup_delete_Some in Hi. apply H5, Hi.
    - intros i b Hb. destruct (H6 i b Hb) as (A & B & C & D). split; [exact A|]. split; [exact B|]. split; [exact C|].
      intros k Hk. apply lookup_delete_Some in Hk. apply D, Hk.
    - exact H7.
    - exact H8.
    - intros i k Hi. apply lookup_delete_Some in Hi. destruct Hi as [Hne Hi]. destruct (H9 i k Hi) as [A B]. split; [|exact B].
      apply elem_of_difference. split; [exact A|]. intros Hin. apply elem_of_singleton in Hin. congruence.
  Qed.
  Lemma MI_build asset s a t f B : MI asset s -> Tok t f (m_list s) -> HI a -> backed vault a ->
    (forall y b, hold_balance a pid y b = bid_held asset B y b + off_held (m_off s) y b) ->
    (forall lid b, B !! lid = Some b -> m_bid s !! lid = Some b) ->
    MI asset (set_toks (set_as (set_bid s B) a) (t, f)).
  Proof.
    intros [H1 H2 H3 H4 H5 H6 H7 H8 H9] Ht Ha Hb Hh HB. constructor; cbn; try assumption.
    intros i b Hi. apply H6, HB, Hi.
  Qed.
  Lemma MI_build' asset s a t f : MI asset s -> Tok t f (m_list s) -> HI a -> backed vault a ->
    (forall y b, hold_balance a pid y b = hold_balance (m_as s) pid y b) ->
    MI asset (set_toks (set_as s a) (t, f)).
  Proof.
    intros Hs Ht Ha Hb Hh. apply (MI_build asset s a t f (m_bid s) Hs Ht Ha Hb); [|auto].
    intros y b. rewrite Hh. apply Hs.
  Qed.
  Lemma MI_toks asset s t f : MI asset s -> Tok t f (m_list s) -> MI asset (set_toks s (t, f)).
  Proof. intros Hs Ht. apply (MI_build' asset s (m_as s) t f Hs Ht); [apply Hs|apply Hs|reflexivity]. Qed.

  Lemma roy_no_vault s roy market r : m_fee s <> Some vault -> (forall i e, m_mk s !! i = Some e -> fst e <> vault) ->
    roy_ok roy -> bundle_royalties net_fee s roy market = Ok r -> no_vault r.
  Proof.
    intros Hf Hm Hr E. unfold bundle_royalties in E. destruct roy as [r0|]; [|discriminate]. cbn [of_opt rbind] in E. cbn [roy_ok] in Hr. inv_ok. subst r.
    rename v into r1, v0 into r2.
    assert (H1 : no_vault r1).
    { destruct (m_fee s) as [f|]; [|match goal with H : Ok r0 = Ok r1 |- _ => injection H as <- end; exact Hr].
      match goal with H : push8 _ _ = Ok r1 |- _ => unfold push8 in H; destruct (Nat.ltb _ _); [injection H as <-|discriminate] end.
      apply Forall_app. split; [exact Hr|]. constructor; [|constructor]. cbn. congruence. }
    destruct market as [m|]; [|match goal with H : Ok r1 = Ok r2 |- _ => injection H as <- end; exact H1].
    inv_ok. match goal with H : push8 r1 ?e = Ok r2, Hk : m_mk s !! m = Some ?e |- _ =>
      unfold push8 in H; destruct (Nat.ltb _ _); [injection H as <-|discriminate]; pose proof (Hm _ _ Hk) end.
    apply Forall_app. split; [exact H1|]. constructor; [assumption|constructor].
  Qed.

  (** *** Each operation *)
  Lemma open_inv asset s chk who tk buyer as' price d market roy s' : MI asset s ->
    who <> vault -> price <= U128MAX -> m_nl s < U128MAX -> m_now s < U32MAX -> roy_ok roy -> 0 < default_duration ->
    open_listing net_fee default_duration s chk who tk buyer as' price d market roy = Ok s' ->
    exists asset', MI asset' s' /\ forall lid, lid < m_nl s -> asset' lid = asset lid.
  Proof.
    intros Hs Hw Hp Hn Hnow Hr Hd E. pose proof Hs as [H1 H2 H3 H4 H5 H6 H7 H8 H9]. unfold open_listing in E. inv_ok.
    rename v into r, v1 into e. destruct v0 as [t f]. subst s'.
    match goal with H : bundle_royalties _ _ _ _ = _ |- _ => rename H into Hroy end.
    match goal with H : lock_tokens _ _ _ _ = _ |- _ => rename H into Hlock end.
    match goal with H : end_block _ _ _ = _ |- _ => rename H into Hend end.
    assert (Hfresh : m_list s !! m_nl s = None).
    { destruct (m_list s !! m_nl s) as [k|] eqn:Ek; [|reflexivity]. destruct (H5 _ _ Ek). lia. }
    assert (Hwrap : wrap128 (m_nl s + 1) = m_nl s + 1) by (apply N.mod_small; unfold U128MAX in Hn; lia).
    assert (He : m_now s < e).
    { unfold end_block in Hend. inv_ok. subst e. unfold sat. enough (0 < v) by lia. destruct d as [d|].
      - inv_ok. subst. match goal with H : (0 <? _) = true |- _ => apply N.ltb_lt in H; exact H end.
      - match goal with H : Ok _ = Ok v |- _ => injection H as <- end. exact Hd. }
    exists (fun i => if i =? m_nl s then as' else asset i). split.
    2:{ intros lid Hlt. destruct (N.eqb_spec lid (m_nl s)); [lia|reflexivity]. }
    constructor; cbn; rewrite ?Hwrap.
    - eapply (lock_Tok (m_nft s) (m_sft s) (m_list s) tk who (m_nl s)); [exact H1|exact Hfresh|assumption|exact Hlock|reflexivity..].
    - exact H2.
    - exact H3.
    - intros y a. rewrite H4. f_equal. symmetry. apply bid_ext. intros lid b Hb. destruct (H6 lid b Hb) as [Hlt _].
      destruct (N.eqb_spec lid (m_nl s)); [lia|reflexivity].
    - intros i k Hi. destruct (N.eqb_spec i (m_nl s)) as [Ei|Hne].
      + rewrite Ei, lookup_insert in Hi. injection Hi as <-. cbn. split; [lia|]. split; [reflexivity|]. split; [exact Hw|].
        split; [|exact Hp]. eapply roy_no_vault; [apply H8|apply H8|exact Hr|exact Hroy].
      + rewrite lookup_insert_ne in Hi by congruence. destruct (H5 i k Hi) as (A & B & C). split; [lia|]. auto.
    - intros i b Hb. destruct (H6 i b Hb) as (A & B & C & D). split; [lia|]. split; [exact B|]. split; [exact C|].
      intros k Hk. rewrite lookup_insert_ne in Hk by lia. apply D. exact Hk.
    - exact H7.
    - exact H8.
    - intros i k Hi. destruct (N.eqb_spec i (m_nl s)) as [Ei|Hne].
      + rewrite Ei, lookup_insert in Hi. injection Hi as <-. cbn. split; [rewrite Ei; apply elem_of_union_l, elem_of_singleton; reflexivity|exact He].
      + rewrite lookup_insert_ne in Hi by congruence. destruct (H9 i k Hi) as [A B]. split; [apply elem_of_union_r; exact A|exact B].
  Qed.

  Lemma buy_inv asset s who lid s' : MI asset s -> who <> vault -> do_buy cap mo ms s who lid = Ok s' ->
    MI asset s' /\ m_nl s' = m_nl s.
  Proof.
    intros Hs Hw E. unfold do_buy in E. inv_ok. rename v into l, v0 into a. destruct v1 as [t f]. subst s'.
    match goal with H : m_list s !! lid = Some l |- _ => rename H into El end. split; [|reflexivity].
    match goal with H : on_ledger _ _ = Ok a |- _ => rename H into Ha end.
    match goal with H : unlock_and_transfer _ _ _ _ _ _ _ = _ |- _ => rename H into Ht end.
    destruct (deliver_listing cap mo ms (m_nft s) (m_sft s) (m_list s) lid l who t f (mi_tok _ _ Hs) El Ht) as (HT & _).
    destruct (hop_money vault mh pid (m_as s) a (HSplit who (l_asset l) (payouts (l_seller l) (l_roy l) (l_price l)))
                (mi_hi _ _ Hs) (mi_backed _ _ Hs) ltac:(split; [split; [exact I|exact Hw]|exact I]) Ha) as (A & B & C).
    apply (MI_build' asset (remove_listing s l lid) a t f (MI_remove asset s l lid Hs El) HT A B C).
  Qed.
  Lemma buy_multi_inv asset who lids : forall s s', MI asset s -> who <> vault -> buy_multi cap mo ms s who lids = Ok s' ->
    MI asset s' /\ m_nl s' = m_nl s.
  Proof.
    induction lids as [|lid lids IH]; intros s s' Hs Hw E; cbn [buy_multi] in E; [injection E as <-; auto|]. inv_ok. rename v into s1.
    match goal with H : do_buy _ _ _ _ _ _ = Ok s1 |- _ => destruct (buy_inv asset _ _ _ _ Hs Hw H) as [Hs1 E1] end.
    destruct (IH _ _ Hs1 Hw E) as [A B]. split; [exact A|congruence].
  Qed.

  Lemma bid_inv asset s who lid v s' : MI asset s -> who <> vault -> v <= U128MAX -> m_now s + 40 <= U32MAX ->
    do_bid vault mh pid s who lid v = Ok s' -> MI asset s' /\ m_nl s' = m_nl s.
  Proof.
    intros Hs Hw Hv Hnow E. pose proof Hs as [H1 H2 H3 H4 H5 H6 H7 H8 H9]. unfold do_bid in E. inv_ok. rename v0 into l, v1 into a, v2 into a'.
    match goal with H : m_list s !! lid = Some l |- _ => rename H into El end.
    match goal with H : place_hold _ _ _ _ _ _ _ = Ok a |- _ => destruct (place_money vault mh pid _ _ _ _ _ H2 H3 Hw H) as (A1 & A2 & A3) end.
    assert (Hm : HI a' /\ backed vault a' /\ forall y b, hold_balance a' pid y b = bid_held asset (<[lid := (who, v)]> (m_bid s)) y b + off_held (m_off s) y b).
    { destruct (H5 lid l El) as (_ & Eas & _). destruct (m_bid s !! lid) as [b0|] eqn:Eb.
      - destruct (H6 _ _ Eb) as (_ & Hb0 & _).
        match goal with H : release_hold _ _ _ _ _ _ = Ok a' |- _ => destruct (release_money vault mh pid _ _ _ _ _ A1 A2 Hb0 H) as (B1 & B2 & B3) end.
        split; [exact B1|]. split; [exact B2|]. intros y b. specialize (A3 y b). specialize (B3 y b). specialize (H4 y b). cbv beta in *.
        pose proof (bid_insert asset (m_bid s) lid (who, v) y b) as Hi. rewrite Eb in Hi. cbn [fst snd] in Hi. rewrite <- Eas in Hi. lia.
      - match goal with H : Ok a = Ok a' |- _ => injection H as <- end. split; [exact A1|]. split; [exact A2|]. intros y b.
        specialize (A3 y b). specialize (H4 y b). cbv beta in *.
        pose proof (bid_insert asset (m_bid s) lid (who, v) y b) as Hi. rewrite Eb in Hi. cbn [fst snd] in Hi. rewrite <- Eas in Hi. lia. }
    destruct Hm as (M1 & M2 & M3).
    assert (Hbids : forall L' : gmap N listing, (forall k, L' !! lid = Some k -> l_auction k = true) -> (forall i, i <> lid -> L' !! i = m_list s !! i) ->
       forall i b, <[lid := (who, v)]> (m_bid s) !! i = Some b ->
      i < m_nl s /\ fst b <> vault /\ snd b <= U128MAX /\ forall k, L' !! i = Some k -> l_auction k = true).
    { intros L' HL Ho i b Hi. destruct (N.eq_dec i lid) as [->|Hne].
      - rewrite lookup_insert in Hi. injection Hi as <-. destruct (H5 lid l El) as (A & _). split; [exact A|]. split; [exact Hw|]. split; [exact Hv|exact HL].
      - rewrite lookup_insert_ne in Hi by congruence. rewrite Ho by exact Hne. apply H6. exact Hi. }
    destruct (_ <=? 40) in E; injection E as <-; (split; [|reflexivity]).
    - set (l' := Listing _ _ _ _ _ _ _ _).
      assert (Hnew : (m_now s + 40) mod 2 ^ 32 = m_now s + 40) by (apply N.mod_small; unfold U32MAX in Hnow; lia).
      constructor; cbn.
      + eapply Tok_update; [exact H1|exact El|reflexivity..].
      + exact M1.
      + exact M2.
      + exact M3.
      + intros i k Hi. destruct (N.eq_dec i lid) as [->|Hne].
        * rewrite lookup_insert in Hi. injection Hi as <-. cbn. apply H5. exact El.
        * rewrite lookup_insert_ne in Hi by congruence. apply H5. exact Hi.
      + apply Hbids.
        * intros k Hk. rewrite lookup_insert in Hk. injection Hk as <-. reflexivity.
        * intros i Hne. apply lookup_insert_ne. congruence.
      + exact H7.
      + exact H8.
      + intros i k Hi. destruct (N.eq_dec i lid) as [->|Hne].
        * rewrite lookup_insert in Hi. injection Hi as <-. cbn. split; [apply elem_of_union_l, elem_of_singleton; reflexivity|]. rewrite Hnew. lia.
        * rewrite lookup_insert_ne in Hi by congruence. destruct (H9 i k Hi) as [A B]. split; [|exact B].
          apply elem_of_union_r, elem_of_difference. split; [exact A|]. intros Hin. apply elem_of_singleton in Hin. congruence.
    - constructor; cbn; try assumption. apply Hbids; [|reflexivity]. intros k Hk. congruence.
  Qed.

  Lemma cancel_inv asset s who lid s' : MI asset s -> do_cancel s who lid = Ok s' -> MI asset s' /\ m_nl s' = m_nl s.
  Proof.
    intros Hs E. unfold do_cancel in E. inv_ok. rename v into l.
    match goal with H : m_list s !! lid = Some l |- _ => rename H into El end.
    match goal with H : (l_seller l =? who) = true |- _ => apply N.eqb_eq in H; rename H into Ew end.
    destruct (unlock_Tok (m_nft s) (m_sft s) (m_list s) lid l (mi_tok _ _ Hs) El) as (t & f & Eu & HT & _). unfold toks_of in E.
    rewrite <- Ew, Eu in E. cbn [ensure rbind] in E. injection E as <-. split; [|reflexivity].
    apply (MI_toks asset (remove_listing s l lid) t f (MI_remove asset s l lid Hs El) HT).
  Qed.

  Lemma offer_inv asset s who tok v a m s' : MI asset s -> who <> vault -> v <= U128MAX ->
    make_offer vault mh pid max_offers s who tok v a m = Ok s' -> MI asset s' /\ m_nl s' = m_nl s.
  Proof.
    intros Hs Hw Hv E. pose proof Hs as [H1 H2 H3 H4 H5 H6 H7 H8 H9]. unfold make_offer in E. inv_ok. rename v1 into a'. subst s'.
    match goal with H : place_hold _ _ _ _ _ _ _ = Ok a' |- _ => destruct (place_money vault mh pid _ _ _ _ _ H2 H3 Hw H) as (A1 & A2 & A3) end.
    match goal with H : negb (v =? 0) = true |- _ => apply negb_true_iff, N.eqb_neq in H; rename H into Hpos end.
    assert (Hnew : m_off s !! m_no s = None).
    { destruct (m_off s !! m_no s) as [k|] eqn:Ek; [|reflexivity]. destruct (H7 _ _ Ek). lia. }
    split; [|reflexivity]. constructor; cbn; try assumption.
    - intros y b. rewrite off_insert by exact Hnew. cbn [o_buyer o_asset o_amount]. specialize (A3 y b). specialize (H4 y b). cbv beta in *. lia.
    - intros i o Hi. destruct (N.eq_dec i (m_no s)) as [Ei|Hne].
      + rewrite Ei, lookup_insert in Hi. injection Hi as <-. cbn. split; [lia|]. split; [lia|]. split; [exact Hw|].
        exists (default [] (m_toff s !! tok) ++ [m_no s]). rewrite lookup_insert. split; [reflexivity|].
        apply elem_of_app. right. rewrite Ei. left.
      + rewrite lookup_insert_ne in Hi by congruence. destruct (H7 i o Hi) as (A & B & C & os & D & F). split; [lia|]. split; [exact B|]. split; [exact C|].
        destruct (decide (tok = o_tok o)) as [->|Hne'].
        * exists (os ++ [m_no s]). rewrite lookup_insert, D. split; [reflexivity|]. apply elem_of_app. left. exact F.
        * exists os. rewrite lookup_insert_ne by exact Hne'. auto.
  Qed.

  (** Removing an offer: the bookkeeping of ids. *)
  Lemma remove_offer_spec s oid tok s' : remove_offer s oid tok = Ok s' ->
    exists T, s' = set_off s (delete oid (m_off s)) T /\
    forall t os i, m_toff s !! t = Some os -> i ∈ os -> i <> oid -> exists os', T !! t = Some os' /\ i ∈ os'.
  Proof.
    intros E. unfold remove_offer in E. destruct (m_toff s !! tok) as [os|] eqn:Et.
    - inv_ok. subst s'. set (os' := List.filter _ os). eexists. split; [reflexivity|]. intros t o i Ht Hi Hne.
      assert (Hk : forall k, k ∈ os -> k <> oid -> k ∈ os').
      { intros k Hk Hko. unfold os'. apply elem_of_list_In, filter_In. split; [apply elem_of_list_In; exact Hk|].
        destruct (N.eqb_spec k oid); [contradiction|reflexivity]. }
      destruct (decide (tok = t)) as [->|Hne'].
      + rewrite Et in Ht. injection Ht as <-. pose proof (Hk i Hi Hne) as Hin. destruct os' as [|x xs] eqn:Eo; [inversion Hin|].
        exists (x :: xs). rewrite lookup_insert. auto.
      + exists o. destruct os'; [rewrite lookup_delete_ne by exact Hne'|rewrite lookup_insert_ne by exact Hne']; auto.
    - injection E as <-. eexists. split; [reflexivity|]. eauto.
  Qed.
  Lemma remove_offer_inv asset s oid o s' a : MI asset s -> m_off s !! oid = Some o ->
    HI a -> backed vault a ->
    (forall y b, hold_balance a pid y b + (if (y =? o_buyer o) && (b =? o_asset o) then o_amount o else 0) = hold_balance (m_as s) pid y b) ->
    forall t f, Tok t f (m_list s) ->
    remove_offer (set_toks (set_as s a) (t, f)) oid (o_tok o) = Ok s' -> MI asset s' /\ m_nl s' = m_nl s.
  Proof.
    intros Hs Eo Ha Hb Hh t f HT E. pose proof Hs as [H1 H2 H3 H4 H5 H6 H7 H8 H9].
    apply remove_offer_spec in E. destruct E as (T & -> & HTo). split; [|reflexivity]. constructor; cbn in *; try assumption.
    - intros y b. pose proof (off_delete (m_off s) oid o y b Eo). specialize (Hh y b). specialize (H4 y b). lia.
    - intros i k Hi. apply lookup_delete_Some in Hi. destruct Hi as [Hne Hi]. destruct (H7 i k Hi) as (A & B & C & os & D & F).
      split; [exact A|]. split; [exact B|]. split; [exact C|]. eapply HTo; [exact D|exact F|congruence].
  Qed.
  Lemma cancel_offer_inv asset s who oid s' : MI asset s -> cancel_offer vault pid s who oid = Ok s' -> MI asset s' /\ m_nl s' = m_nl s.
  Proof.
    intros Hs E. unfold cancel_offer in E. inv_ok. rename v into o, v0 into a.
    match goal with H : m_off s !! oid = Some o |- _ => rename H into Eo end.
    match goal with H : (o_buyer o =? who) = true |- _ => apply N.eqb_eq in H; rename H into Ew end. subst who.
    destruct (mi_off _ _ Hs _ _ Eo) as (_ & _ & Hb & _).
    match goal with H : release_hold _ _ _ _ _ _ = Ok a |- _ => destruct (release_money vault mh pid _ _ _ _ _ (mi_hi _ _ Hs) (mi_backed _ _ Hs) Hb H) as (A1 & A2 & A3) end.
    apply (remove_offer_inv asset s oid o s' a Hs Eo A1 A2 A3 (m_nft s) (m_sft s) (mi_tok _ _ Hs)). exact E.
  Qed.
  Lemma accept_inv asset s who oid roy s' : MI asset s -> who <> vault -> roy_ok roy ->
    accept_offer vault pid net_fee cap mo ms s who oid roy = Ok s' -> MI asset s' /\ m_nl s' = m_nl s.
  Proof.
    intros Hs Hw Hr E. unfold accept_offer in E. inv_ok. rename v into o.
    match goal with H : m_off s !! oid = Some o |- _ => rename H into Eo end.
    destruct (o_tok o) as [c n] eqn:Etok. inv_ok. rename v into r, v0 into s2.
    set (s1 := match locks (m_nft s) !! (c, n) with Some lid => _ | None => s end) in *.
    assert (Hs1 : MI asset s1 /\ m_off s1 = m_off s /\ m_nl s1 = m_nl s /\ m_nft s1 = m_nft s /\ m_sft s1 = m_sft s /\ m_as s1 = m_as s /\
      forall lid l, m_list s1 !! lid = Some l -> match l_toks l with LNft d k => d = c -> n ∉ k | LSft _ _ => True end).
    { assert (Hno : forall lid l, m_list s !! lid = Some l -> locks (m_nft s) !! (c, n) <> Some lid ->
         match l_toks l with LNft d k => d = c -> n ∉ k | LSft _ _ => True end).
      { intros lid l Hl Hlk. pose proof (proj1 (proj2 (proj2 (mi_tok _ _ Hs))) lid l Hl) as Hd. unfold lid_locked in Hd.
        destruct (l_toks l) as [d k|]; [|exact I]. intros -> Hin. destruct Hd as (_ & _ & Hd). destruct (Hd n Hin). congruence. }
      unfold s1. destruct (locks (m_nft s) !! (c, n)) as [lid|] eqn:Elk.
      - destruct (m_list s !! lid) as [l|] eqn:El.
        + split; [apply MI_remove; assumption|]. repeat (split; [reflexivity|]). intros i k Hi.
          unfold remove_listing in Hi. cbn in Hi. apply lookup_delete_Some in Hi. apply (Hno i k); [apply Hi|]. intros [= ->]. tauto.
        + split; [exact Hs|]. repeat (split; [reflexivity|]). intros i k Hi. apply (Hno i k Hi). congruence.
      - split; [exact Hs|]. repeat (split; [reflexivity|]). intros i k Hi. apply (Hno i k Hi). congruence. }
    clearbody s1. destruct Hs1 as (Hs1 & Q1 & Q2 & Q3 & Q4 & Q5 & Hdis).
    match goal with H : settle _ _ _ _ _ _ _ _ _ _ _ _ = Ok s2 |- _ => unfold settle in H; rename H into Es end. inv_ok. rename v into a. destruct v0 as [t f].
    subst s2. destruct (mi_off _ _ Hs _ _ Eo) as (_ & Hamt & Hb & _).
    match goal with H : bundle_royalties _ _ _ _ = Ok r |- _ => rename H into Hbr end.
    pose proof (roy_no_vault s1 roy (o_market o) r (proj1 (mi_mk _ _ Hs1)) (proj2 (mi_mk _ _ Hs1)) Hr Hbr) as Hnv.
    match goal with H : spend_hold _ _ _ _ _ _ = Ok a |- _ =>
      destruct (spend_money vault mh pid _ _ _ _ _ _ _ (mi_hi _ _ Hs1) (mi_backed _ _ Hs1) Hb Hw Hnv (proj2 Hamt) H) as (A1 & A2 & _ & _ & A3) end.
    match goal with H : unlock_and_transfer _ _ _ _ _ _ _ = _ |- _ => unfold unlock_and_transfer in H; rename H into Hu end.
    cbn [fst snd toks_of length Nat.eqb negb ensure rbind] in Hu. inv_ok. rename v into t'. injection Hu as <- <-.
    match goal with H : do_transfer _ _ _ _ _ _ = Ok t' |- _ => apply (deliver_nft cap (m_nft s1) (m_sft s1) (m_list s1)) in H;
      [destruct H as (HT & _)|apply Hs1|apply NoDup_singleton|] end.
    - rewrite <- Etok in E.
      destruct (remove_offer_inv asset s1 oid o s' a Hs1 ltac:(congruence) A1 A2 A3 t' (m_sft s1) HT E) as [B1 B2]. split; [exact B1|congruence].
    - intros i k m Hi Hm. apply elem_of_list_singleton in Hm. subst m. apply (Hdis i k Hi).
  Qed.

  (** *** Blocks *)
  Lemma close_auction_inv asset s l lid : MI asset s -> m_list s !! lid = Some l -> l_auction l = true ->
    MI asset (close_auction vault pid cap mo ms (remove_listing s l lid) l lid).
  Proof.
    intros Hs El Ha. pose proof (MI_remove asset s l lid Hs El) as Hr. pose proof Hs as [H1 H2 H3 H4 H5 H6 H7 H8 H9].
    unfold close_auction. cbn [m_bid remove_listing set_list]. destruct (m_bid s !! lid) as [[winner price]|] eqn:Eb.
    - destruct (H6 _ _ Eb) as (_ & Hwin & Hpr & _). cbn [fst snd] in Hwin, Hpr. destruct (H5 _ _ El) as (_ & Eas & Hsel & Hroy & _).
      assert (HB : forall i b, delete lid (m_bid s) !! i = Some b -> m_bid s !! i = Some b) by (intros i b Hi; apply lookup_delete_Some in Hi; apply Hi).
      assert (Hheld : forall a, (forall y b, hold_balance a pid y b + (if (y =? winner) && (b =? l_asset l) then price else 0) = hold_balance (m_as s) pid y b) ->
         forall y b, hold_balance a pid y b = bid_held asset (delete lid (m_bid s)) y b + off_held (m_off s) y b).
      { intros a Hh y b. specialize (Hh y b). specialize (H4 y b). pose proof (bid_delete asset (m_bid s) lid (winner, price) y b Eb) as Hd.
        cbn [fst snd] in Hd. rewrite <- Eas in Hd. lia. }
      destruct (settle _ _ _ _ _ _ _ _ _ _ _ _) as [s2|e] eqn:Es.
      + unfold settle in Es. inv_ok. rename v into a. destruct v0 as [t f]. subst s2.
        match goal with H : spend_hold _ _ _ _ _ _ = Ok a |- _ =>
          destruct (spend_money vault mh pid _ _ _ _ _ _ _ H2 H3 Hwin Hsel Hroy Hpr H) as (A1 & A2 & _ & _ & A3) end.
        match goal with H : unlock_and_transfer _ _ _ _ _ _ _ = _ |- _ => destruct (deliver_listing cap mo ms (m_nft s) (m_sft s) (m_list s) lid l winner t f H1 El H) as (HT & _) end.
        apply (MI_build asset (remove_listing s l lid) a t f (delete lid (m_bid s)) Hr HT A1 A2 (Hheld a A3) HB).
      + set (s1 := set_bid _ _). 
        assert (Hx : exists a, commit (m_as s1) (release_hold vault (m_as s1) pid winner (l_asset l) price) = a /\ HI a /\ backed vault a /\
           forall y b, hold_balance a pid y b + (if (y =? winner) && (b =? l_asset l) then price else 0) = hold_balance (m_as s) pid y b).
        { eexists. split; [reflexivity|]. change (m_as s1) with (m_as s). destruct (release_hold vault (m_as s) pid winner (l_asset l) price) as [a|] eqn:Er; cbn [commit].
          - apply (release_money vault mh pid _ _ _ _ _ H2 H3 Hwin Er).
          - assert (price = 0) as ->.
            { destruct (N.eq_dec price 0) as [|Hne]; [assumption|]. exfalso.
              destruct (release_ok vault (m_as s) pid winner (l_asset l) price H2 H3) as [a' Ea']; [|congruence].
              split; [lia|]. rewrite H4. pose proof (bid_delete asset (m_bid s) lid (winner, price) winner (l_asset l) Eb) as Hd. cbn [fst snd] in Hd.
              rewrite <- Eas, !N.eqb_refl in Hd. cbn [andb] in Hd. lia. }
            split; [exact H2|]. split; [exact H3|]. intros y b. destruct (_ && _); lia. }
        destruct Hx as (a & -> & A1 & A2 & A3).
        apply (MI_build asset (remove_listing s l lid) a (m_nft s) (m_sft s) (delete lid (m_bid s)) Hr (mi_tok _ _ Hr) A1 A2 (Hheld a A3) HB).
    - destruct (unlock_Tok (m_nft s) (m_sft s) (m_list s) lid l H1 El) as (t & f & Eu & HT & _).
      match goal with |- context [unlock_tokens ?x _ _] => change x with (m_nft s, m_sft s) end. rewrite Eu. cbn [fst].
      assert (Ed : delete lid (m_bid s) = m_bid s) by (apply delete_notin; exact Eb). rewrite Ed.
      apply (MI_toks asset (remove_listing s l lid) t f Hr HT).
  Qed.
  Lemma close_one_inv asset s lid : MI asset s -> MI asset (close_one vault pid cap mo ms s lid).
  Proof.
    intros Hs. unfold close_one. destruct (m_list s !! lid) as [l|] eqn:El; [|exact Hs]. destruct (l_auction l) eqn:Ea.
    - apply close_auction_inv; assumption.
    - destruct (unlock_Tok (m_nft s) (m_sft s) (m_list s) lid l (mi_tok _ _ Hs) El) as (t & f & Eu & HT & _).
      match goal with |- context [unlock_tokens ?x _ _] => change x with (m_nft s, m_sft s) end. rewrite Eu. cbn [fst].
      apply (MI_toks asset (remove_listing s l lid) t f (MI_remove asset s l lid Hs El) HT).
  Qed.
  Lemma settle_frame s b y a tk v r s2 : settle vault pid cap mo ms s b y a tk v r = Ok s2 ->
    m_list s2 = m_list s /\ m_end s2 = m_end s /\ m_now s2 = m_now s /\ m_nl s2 = m_nl s.
  Proof. intros E. unfold settle in E. inv_ok. subst s2. repeat split; reflexivity. Qed.
  Lemma close_one_frame s lid : let s' := close_one vault pid cap mo ms s lid in
    m_now s' = m_now s /\ m_nl s' = m_nl s /\ (forall i, m_list s' !! i = if i =? lid then None else m_list s !! i).
  Proof.
    cbv zeta. unfold close_one. destruct (m_list s !! lid) as [l|] eqn:El.
    - assert (Hd : forall i, delete lid (m_list s) !! i = if i =? lid then None else m_list s !! i).
      { intros i. destruct (N.eqb_spec i lid) as [->|]; [apply lookup_delete|apply lookup_delete_ne; congruence]. }
      destruct (l_auction l); [|cbn; auto]. unfold close_auction. destruct (m_bid _ !! lid) as [[w p]|]; [|cbn; auto].
      destruct (settle _ _ _ _ _ _ _ _ _ _ _ _) as [s2|] eqn:Es; [|cbn; auto].
      apply settle_frame in Es. destruct Es as (E1 & E2 & E3 & E4). rewrite E1, E3, E4. cbn. auto.
    - split; [reflexivity|]. split; [reflexivity|]. intros i. destruct (N.eqb_spec i lid) as [->|]; [exact El|reflexivity].
  Qed.
  Lemma close_many_frame lids : forall s, let s' := fold_left (close_one vault pid cap mo ms) lids s in
    m_now s' = m_now s /\ m_nl s' = m_nl s /\ (forall i, m_list s' !! i = if existsb (N.eqb i) lids then None else m_list s !! i).
  Proof.
    induction lids as [|lid lids IH]; intros s; cbn [fold_left existsb]; [auto|].
    destruct (IH (close_one vault pid cap mo ms s lid)) as (A & B & C). destruct (close_one_frame s lid) as (D & F & G).
    cbv zeta in *. split; [congruence|]. split; [congruence|]. intros i. rewrite C, G. destruct (i =? lid), (existsb (N.eqb i) lids); reflexivity.
  Qed.

  Definition tick (s : mkt) : mkt :=
    Mkt (m_as s) (m_nft s) (m_sft s) (m_list s) (m_bid s) (m_off s) (m_toff s) (m_nl s) (m_no s) (m_end s) (m_now s + 1) (m_fee s) (m_mk s) (m_nm s).
  (** The invariant without the part about closing blocks. *)
  Lemma MI_ends asset s s1 : MI asset s -> m_as s1 = m_as s -> m_nft s1 = m_nft s -> m_sft s1 = m_sft s -> m_list s1 = m_list s ->
    m_bid s1 = m_bid s -> m_off s1 = m_off s -> m_toff s1 = m_toff s -> m_nl s1 = m_nl s -> m_no s1 = m_no s -> m_fee s1 = m_fee s -> m_mk s1 = m_mk s ->
    (forall lid l, m_list s !! lid = Some l -> (l_close l, lid) ∈ m_end s1 /\ m_now s1 < l_close l) -> MI asset s1.
  Proof.
    intros [H1 H2 H3 H4 H5 H6 H7 H8 H9] E1 E2 E3 E4 E5 E6 E7 E8 E9 E10 E11 He.
    constructor; rewrite ?E1, ?E2, ?E3, ?E4, ?E5, ?E6, ?E7, ?E8, ?E9, ?E10, ?E11; assumption.
  Qed.
  (** Dropping a set of listings' schedule entries is harmless for the others. *)
  Lemma close_many_inv asset lids : forall s, MI asset s -> MI asset (fold_left (close_one vault pid cap mo ms) lids s).
  Proof. induction lids as [|lid lids IH]; intros s Hs; [exact Hs|]. cbn [fold_left]. apply IH, close_one_inv, Hs. Qed.

  (** Until the block's closures are done some listings are overdue; run them in the state as it
      was before the clock moved and move the clock afterwards. *)
  Lemma settle_tick s b y a tk v r : settle vault pid cap mo ms (tick s) b y a tk v r =
    match settle vault pid cap mo ms s b y a tk v r with Ok s2 => Ok (tick s2) | Err e => Err e end.
  Proof.
    unfold settle. cbn [tick m_as toks_of m_nft m_sft]. destruct (spend_hold _ _ _ _ _ _) as [a'|]; cbn [rbind]; [|reflexivity].
    destruct (unlock_and_transfer _ _ _ _ _ _ _) as [t|]; reflexivity.
  Qed.
  Lemma close_one_tick s lid : close_one vault pid cap mo ms (tick s) lid = tick (close_one vault pid cap mo ms s lid).
  Proof.
    unfold close_one. cbn [tick m_list]. destruct (m_list s !! lid) as [l|]; [|reflexivity].
    destruct (l_auction l).
    - unfold close_auction. cbn [tick remove_listing set_list m_bid]. destruct (m_bid s !! lid) as [[w p]|].
      + match goal with |- context [settle _ _ _ _ _ ?x _ _ _ _ _ _] => change x with (tick (set_bid (remove_listing s l lid) (delete lid (m_bid s)))) end.
        rewrite settle_tick. cbn [remove_listing set_list m_bid]. destruct (settle _ _ _ _ _ _ _ _ _ _ _ _); reflexivity.
      + reflexivity.
    - reflexivity.
  Qed.
  Lemma close_many_tick lids : forall s, fold_left (close_one vault pid cap mo ms) lids (tick s) = tick (fold_left (close_one vault pid cap mo ms) lids s).
  Proof. induction lids as [|lid lids IH]; intros s; [reflexivity|]. cbn [fold_left]. rewrite close_one_tick. apply IH. Qed.
  Lemma block_inv asset s order : MI asset s -> (forall lid, (m_now s + 1, lid) ∈ m_end s -> lid ∈ order) ->
    MI asset (new_block vault pid cap mo ms s order) /\ m_nl (new_block vault pid cap mo ms s order) = m_nl s.
  Proof.
    intros Hs Hord. unfold new_block. fold (tick s). set (due := List.filter _ order). cbv zeta.
    rewrite close_many_tick. pose proof (close_many_inv asset due s Hs) as Hc. destruct (close_many_frame due s) as (F1 & F2 & F3). cbv zeta in *.
    set (s2 := fold_left _ due s) in *. split; [|cbn; exact F2].
    eapply MI_ends; [exact Hc|reflexivity..|]. intros lid l Hl. cbn [m_end m_now set_list tick].
    destruct (mi_end _ _ Hc lid l Hl) as [A B].
    assert (Hne : l_close l <> m_now s + 1).
    { intros Ec. pose proof Hl as Hl0. rewrite F3 in Hl. destruct (existsb (N.eqb lid) due) eqn:Ed; [discriminate|].
      destruct (mi_end _ _ Hs lid l Hl) as [A0 _]. rewrite Ec in A0.
      assert (Hin : In lid due).
      { apply filter_In. split; [apply elem_of_list_In, Hord; exact A0|]. apply bool_decide_eq_true. exact A0. }
      assert (Ht : existsb (N.eqb lid) due = true) by (apply existsb_exists; exists lid; split; [exact Hin|apply N.eqb_refl]). congruence. }
    split; [|lia]. apply elem_of_filter. cbn. split; [exact Hne|exact A].
  Qed.

  (** *** All operations *)
  Lemma exec_inv asset s o s' : MI asset s -> mgood s o -> mexec s o = Ok s' ->
    exists asset', MI asset' s' /\ m_nl s <= m_nl s' /\ forall lid, lid < m_nl s -> asset' lid = asset lid.
  Proof.
    intros Hs Hg E.
    assert (Hsame : forall s1, MI asset s1 /\ m_nl s1 = m_nl s -> exists asset', MI asset' s1 /\ m_nl s <= m_nl s1 /\ forall lid, lid < m_nl s -> asset' lid = asset lid).
    { intros s1 [A B]. exists asset. split; [exact A|]. split; [lia|reflexivity]. }
    destruct o; cbn [MarketModel.mexec mgood] in *.
    - destruct Hg as (G1 & G2 & G3 & G4 & G5 & G6). pose proof E as E0. unfold do_sell in E.
      apply (open_inv asset) in E; [|assumption..]. destruct E as (asset' & A & B). exists asset'. split; [exact A|]. split; [|exact B].
      unfold do_sell, open_listing in E0. inv_ok. subst s'. cbn. unfold wrap128. rewrite N.mod_small by (unfold U128MAX in G3; lia). lia.
    - destruct Hg as (G1 & G2 & G3 & G4 & G5 & G6). pose proof E as E0. unfold do_auction in E.
      apply (open_inv asset) in E; [|assumption..]. destruct E as (asset' & A & B). exists asset'. split; [exact A|]. split; [|exact B].
      unfold do_auction, open_listing in E0. inv_ok. subst s'. cbn. unfold wrap128. rewrite N.mod_small by (unfold U128MAX in G3; lia). lia.
    - apply Hsame. unfold update_price in E. inv_ok. rename v into l. subst s'. split; [|reflexivity].
      match goal with H : m_list s !! lid = Some l |- _ => rename H into El end.
      match goal with H : negb (l_auction l) = true |- _ => apply negb_true_iff in H; rename H into Ea end.
      destruct Hs as [H1 H2 H3 H4 H5 H6 H7 H8 H9]. constructor; cbn; try assumption.
      + eapply Tok_update; [exact H1|exact El|reflexivity..].
      + intros i k Hi. destruct (N.eq_dec i lid) as [->|Hne]; [|rewrite lookup_insert_ne in Hi by congruence; apply H5; exact Hi].
        rewrite lookup_insert in Hi. injection Hi as <-. destruct (H5 lid l El) as (A & B & C & D & _). cbn. auto.
      + intros i b Hb. destruct (H6 i b Hb) as (A & B & C & D). split; [exact A|]. split; [exact B|]. split; [exact C|]. intros k Hk.
        destruct (N.eq_dec i lid) as [->|Hne]; [|rewrite lookup_insert_ne in Hk by congruence; apply D; exact Hk].
        rewrite (D l El) in Ea. discriminate.
      + intros i k Hi. destruct (N.eq_dec i lid) as [->|Hne]; [|rewrite lookup_insert_ne in Hi by congruence; apply H9; exact Hi].
        rewrite lookup_insert in Hi. injection Hi as <-. cbn. apply H9. exact El.
    - apply Hsame. eapply buy_inv; eassumption.
    - apply Hsame. eapply buy_multi_inv; eassumption.
    - apply Hsame. destruct Hg as (? & ? & ?). eapply bid_inv; eassumption.
    - apply Hsame. eapply cancel_inv; eassumption.
    - apply Hsame. destruct Hg as (? & ?). eapply offer_inv; eassumption.
    - apply Hsame. eapply cancel_offer_inv; eassumption.
    - apply Hsame. destruct Hg as (? & ?). eapply accept_inv; eassumption.
    - apply Hsame. injection E as <-. apply block_inv; assumption.
    - apply Hsame. unfold register in E. inv_ok. subst s'. split; [|reflexivity]. destruct Hs as [H1 H2 H3 H4 H5 H6 H7 H8 H9].
      constructor; cbn; try assumption. split; [apply H8|]. intros i e Hi. destruct (N.eq_dec i (m_nm s)) as [->|Hne].
      + rewrite lookup_insert in Hi. injection Hi as <-. exact Hg.
      + rewrite lookup_insert_ne in Hi by congruence. eapply H8. exact Hi.
    - apply Hsame. injection E as <-. split; [|reflexivity]. destruct Hs as [H1 H2 H3 H4 H5 H6 H7 H8 H9]. constructor; cbn; try assumption.
      split; [exact Hg|apply H8].
    - apply Hsame. inv_ok. rename v into a. subst s'. split; [|reflexivity].
      match goal with H : hexec _ _ _ _ = Ok a |- _ => destruct (hop_money vault mh pid _ _ _ (mi_hi _ _ Hs) (mi_backed _ _ Hs) Hg H) as (A & B & C) end.
      apply (MI_build' asset s a (m_nft s) (m_sft s) Hs (mi_tok _ _ Hs) A B C).
    - apply Hsame. inv_ok. rename v into t. subst s'. split; [|reflexivity].
      apply (MI_toks asset s t (m_sft s) Hs). eapply nft_op_Tok; [apply Hs|apply Hg|apply Hg|eassumption].
    - apply Hsame. inv_ok. rename v into f. subst s'. split; [|reflexivity].
      apply (MI_toks asset s (m_nft s) f Hs). eapply sft_op_Tok; [apply Hs|apply Hg|apply Hg|eassumption].
  Qed.

  Lemma init_inv fee : fee <> Some vault -> MI (fun _ => 0) (minit fee).
  Proof.
    intros Hf. destruct (hinit_inv (A:=N) vault) as [A B]. constructor; cbn.
    - split; [apply init_WF|]. split; [split; intros k t; [|intros t0]; intros H; discriminate|]. split; [discriminate|]. reflexivity.
    - exact A.
    - exact B.
    - reflexivity.
    - discriminate.
    - discriminate.
    - discriminate.
    - split; [exact Hf|discriminate].
    - discriminate.
  Qed.
  Lemma run_minv ops : forall s asset, MI asset s -> along mstep mgood ops s ->
    exists asset', MI asset' (run mstep ops s) /\ m_nl s <= m_nl (run mstep ops s) /\ forall lid, lid < m_nl s -> asset' lid = asset lid.
  Proof.
    induction ops as [|o ops IH]; intros s asset Hs Hg; [exists asset; split; [exact Hs|split; [reflexivity|reflexivity]]|].
    destruct Hg as [Hgo Hg]. change (run mstep (o :: ops) s) with (run mstep ops (mstep s o)).
    assert (H1 : exists asset', MI asset' (mstep s o) /\ m_nl s <= m_nl (mstep s o) /\ forall lid, lid < m_nl s -> asset' lid = asset lid).
    { unfold MarketModel.mstep. destruct (mexec s o) as [s'|] eqn:E; cbn [commit].
      - eapply exec_inv; eassumption.
      - exists asset. split; [exact Hs|split; [reflexivity|reflexivity]]. }
    destruct H1 as (asset1 & A1 & A2 & A3). destruct (IH _ _ A1 Hg) as (asset2 & B1 & B2 & B3).
    exists asset2. split; [exact B1|]. split; [lia|]. intros lid Hl. rewrite B3 by lia. apply A3. exact Hl.
  Qed.
End inv.
