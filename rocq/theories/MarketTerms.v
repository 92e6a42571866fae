(** The terms of a listing and the bids on it, over all operations of the marketplace. *)
From Verif Require Export MarketTight MarketProps.
From Verif Require Import NftProofs NftProps SftProofs SftProps LedgerProofs.

(** ** What may happen to an open listing *)
Definition with_price (l : listing) (p : N) : listing :=
  Listing (l_auction l) (l_asset l) p (l_close l) (l_buyer l) (l_seller l) (l_toks l) (l_roy l).
Definition with_close (l : listing) (e : N) : listing :=
  Listing (l_auction l) (l_asset l) (l_price l) e (l_buyer l) (l_seller l) (l_toks l) (l_roy l).
Definition may_buy (l : listing) (who : N) : Prop := l_buyer l = None \/ l_buyer l = Some who.
Inductive fate (s : mkt) (o : mop) (lid : N) (l : listing) : option listing -> Prop :=
| Untouched : fate s o lid l (Some l)
| Repriced p : o = MUpdate (l_seller l) lid p -> l_auction l = false -> fate s o lid l (Some (with_price l p))
| Extended who x : o = MBid who lid x -> l_auction l = true -> l_close l <= m_now s + 40 ->
    fate s o lid l (Some (with_close l (m_now s + 40)))
| Withdrawn : o = MCancel (l_seller l) lid -> (l_auction l = true -> m_bid s !! lid = None) -> fate s o lid l None
| Bought who : (o = MBuy who lid \/ exists lids, o = MBuyMulti who lids /\ lid ∈ lids) -> l_auction l = false -> may_buy l who ->
    fate s o lid l None
| Offered oid f roy c n ns : o = MAccept (l_seller l) oid roy -> m_off s !! oid = Some f -> o_tok f = (c, n) ->
    l_toks l = LNft c ns -> n ∈ ns -> fate s o lid l None
| Ended order : o = MBlock order -> l_close l = m_now s + 1 -> fate s o lid l None.
(** What may happen to the highest bid on a listing that is open before and after. *)
Inductive bid_fate (o : mop) (lid : N) (l : listing) : option (N * N) -> option (N * N) -> Prop :=
| Same b : bid_fate o lid l b b
| First who x : o = MBid who lid x -> l_auction l = true -> l_price l <= x -> bid_fate o lid l None (Some (who, x))
| Higher who x w v : o = MBid who lid x -> l_auction l = true -> v < x -> bid_fate o lid l (Some (w, v)) (Some (who, x)).

(** The fees due on a sale: the royalties of the collection, the network's fee and the
    marketplace's. *)
Definition fees_due (net_fee : N) (s : mkt) (roy : list (N * N)) (market : option N) : list (N * N) :=
  roy ++ match m_fee s with Some f => [(f, net_fee)] | None => [] end
      ++ match market with Some m => match m_mk s !! m with Some e => [e] | None => [] end | None => [] end.
(** At most eight beneficiaries with at most 100% between them (in 32-bit arithmetic). *)
Definition fees_valid (r : list (N * N)) : Prop := (length r <= 8)%nat /\ sumL (map snd r) mod 2 ^ 32 <= 1000000.

Section terms.
  Variable vault : N.
  Variable mh : nat.
  Variable pid net_fee default_duration max_offers : N.
  Variable cap ml np mo ms : N.
  Notation mexec := (mexec vault mh pid net_fee default_duration max_offers cap ml np mo ms).
  Notation mstep := (mstep vault mh pid net_fee default_duration max_offers cap ml np mo ms).
  Notation mgood := (mgood vault pid default_duration).
  Notation MI := (MI vault pid).
  Notation close_one := (close_one vault pid cap mo ms).

  Record TI (s : mkt) : Prop := {
    ti_end : forall e lid, (e, lid) ∈ m_end s -> exists l, m_list s !! lid = Some l /\ l_close l = e;
    ti_lock : forall c n lid, locks (m_nft s) !! (c, n) = Some lid ->
      lid < m_nl s /\ forall l, m_list s !! lid = Some l -> exists ns, l_toks l = LNft c ns /\ n ∈ ns;
    ti_list : forall lid l, m_list s !! lid = Some l -> l_close l <= U32MAX /\ fees_valid (l_roy l) /\
      forall b, m_bid s !! lid = Some b -> l_price l <= snd b }.

  Lemma TI_drop s s' lid l : TI s -> m_list s !! lid = Some l -> m_list s' = delete lid (m_list s) ->
    m_end s' = m_end s ∖ {[(l_close l, lid)]} -> m_nl s' = m_nl s ->
    (forall i b, i <> lid -> m_bid s' !! i = Some b -> m_bid s !! i = Some b) ->
    (forall c n i, locks (m_nft s') !! (c, n) = Some i -> locks (m_nft s) !! (c, n) = Some i) -> TI s'.
  Proof.
    intros [H1 H2 H3] El EL EE En Hb Hk. constructor.
    - intros e i Hi. rewrite EE in Hi. apply elem_of_difference in Hi. destruct Hi as [Hi Hno]. destruct (H1 e i Hi) as (k & Ek & Ec).
      exists k. rewrite EL, lookup_delete_ne; [auto|]. intros <-. apply Hno, elem_of_singleton. assert (k = l) as -> by congruence. congruence.
    - intros c n i Hi. destruct (H2 c n i (Hk _ _ _ Hi)) as [A B]. rewrite En. split; [exact A|]. intros k Ek. apply B.
      rewrite EL in Ek. apply lookup_delete_Some in Ek. apply Ek.
    - intros i k Ek. rewrite EL in Ek. apply lookup_delete_Some in Ek. destruct Ek as [Hne Ek]. destruct (H3 i k Ek) as (A & B & C).
      split; [exact A|]. split; [exact B|]. intros b Eb. apply C, Hb; [congruence|exact Eb].
  Qed.
  Lemma TI_same s s' : TI s -> m_list s' = m_list s -> m_end s' ⊆ m_end s -> m_nl s' = m_nl s -> m_bid s' = m_bid s ->
    (forall c n i, locks (m_nft s') !! (c, n) = Some i -> locks (m_nft s) !! (c, n) = Some i) -> TI s'.
  Proof.
    intros [H1 H2 H3] EL EE En Eb Hk. constructor; rewrite ?EL, ?En, ?Eb.
    - intros e i Hi. apply H1, EE, Hi.
    - intros c n i Hi. apply H2, Hk, Hi.
    - exact H3.
  Qed.

  Lemma push8_ok r e r' : push8 r e = Ok r' -> r' = r ++ [e] /\ (length r' <= 8)%nat.
  Proof.
    unfold push8. destruct (Nat.ltb_spec (length r) 8); [|discriminate]. intros [= <-]. split; [reflexivity|]. rewrite app_length. cbn. lia.
  Qed.
  Lemma fees_spec s roy market r : bundle_royalties net_fee s roy market = Ok r ->
    exists r0, roy = Some r0 /\ r = fees_due net_fee s r0 market /\ fees_valid r /\
      forall m, market = Some m -> exists e, m_mk s !! m = Some e.
  Proof.
    intros E. unfold bundle_royalties in E. inv_ok. rename v into r0, v0 into r1, v1 into r2. subst r2.
    match goal with H : of_opt roy 53 = Ok r0 |- _ => destruct roy as [x|]; [|discriminate H]; injection H as -> | H : roy = Some r0 |- _ => subst roy end.
    exists r0. split; [reflexivity|].
    assert (Hv : fees_valid r).
    { match goal with H : _ || _ = true |- _ => apply orb_true_iff in H; destruct H as [Hz|Hz] end.
      - apply Nat.eqb_eq in Hz. destruct r; [|discriminate]. split; [cbn; lia|]. vm_compute. discriminate.
      - unfold validate_roy in Hz. apply andb_true_iff in Hz. destruct Hz as [Hz Hp]. apply andb_true_iff in Hz. destruct Hz as [_ Hl].
        split; [apply Nat.leb_le; exact Hl|apply N.leb_le; exact Hp]. }
    assert (Hr1 : r1 = r0 ++ match m_fee s with Some f => [(f, net_fee)] | None => [] end).
    { match goal with H : match m_fee s with _ => _ end = Ok r1 |- _ => destruct (m_fee s); [apply push8_ok in H; apply H|injection H as <-; rewrite app_nil_r; reflexivity] end. }
    match goal with H : match market with _ => _ end = Ok r |- _ => destruct market as [m|];
      [apply rbind_ok in H; destruct H as (e & He & H); destruct (m_mk s !! m) as [e'|] eqn:Em; [injection He as ->|discriminate He]; apply push8_ok in H; destruct H as [H _]
      |injection H as <-] end.
    - split; [subst r r1; unfold fees_due; rewrite Em, <- app_assoc; reflexivity|]. split; [exact Hv|]. intros m' [= <-]. eauto.
    - split; [unfold fees_due; rewrite app_nil_r; exact Hr1|]. split; [exact Hv|]. discriminate.
  Qed.
  (** Opening a listing. *)
  Lemma open_spec s chk who tk buyer a price d market roy s' :
    open_listing net_fee default_duration s chk who tk buyer a price d market roy = Ok s' ->
    exists r0 t, roy = Some r0 /\ fees_valid (fees_due net_fee s r0 market) /\ (forall m, market = Some m -> exists e, m_mk s !! m = Some e) /\
      lock_tokens (toks_of s) tk who (m_nl s) = Ok t /\ (d = Some 0 -> False) /\
      let e := N.min (m_now s + default default_duration d) U32MAX in
      let l := Listing chk a price e buyer who tk (fees_due net_fee s r0 market) in
      m_list s' = <[m_nl s := l]> (m_list s) /\ m_end s' = {[(e, m_nl s)]} ∪ m_end s /\ (m_nft s', m_sft s') = t /\
      m_bid s' = m_bid s /\ m_nl s' = wrap128 (m_nl s + 1) /\ m_as s' = m_as s.
  Proof.
    intros E. unfold open_listing in E. inv_ok. rename v into r, v1 into e, v0 into t.
    match goal with H : bundle_royalties _ _ _ _ = Ok r |- _ => apply fees_spec in H; destruct H as (r0 & -> & -> & Hv & Hm) end.
    exists r0, t. split; [reflexivity|]. split; [exact Hv|]. split; [exact Hm|]. split; [assumption|].
    assert (He : e = N.min (m_now s + default default_duration d) U32MAX /\ (d = Some 0 -> False)).
    { match goal with H : end_block _ _ _ = Ok e |- _ => unfold end_block in H; rename H into He end. destruct d as [d|]; cbn [rbind default] in *.
      - destruct (N.ltb_spec 0 d); cbn [ensure rbind] in He; [|discriminate]. injection He as <-. split; [reflexivity|]. intros [= ->]. lia.
      - injection He as <-. split; [reflexivity|]. discriminate. }
    destruct He as [-> Hd]. split; [exact Hd|]. subst s'. cbn. destruct t; auto 10.
  Qed.
  Lemma open_TI asset s chk who tk buyer a price d market roy s' : MI asset s -> TI s -> m_nl s < U128MAX ->
    open_listing net_fee default_duration s chk who tk buyer a price d market roy = Ok s' -> TI s'.
  Proof.
    intros Hs [H1 H2 H3] Hn E. apply open_spec in E. destruct E as (r0 & [t f] & _ & Hv & _ & Hlock & _ & EL & EE & Et & Eb & En & _).
    injection Et as Et Ef. set (e := N.min _ U32MAX) in *. set (l := Listing _ _ _ _ _ _ _ _) in *.
    assert (Hw : m_nl s' = m_nl s + 1) by (rewrite En; apply N.mod_small; unfold U128MAX in Hn; lia).
    assert (Hfresh : m_list s !! m_nl s = None).
    { destruct (m_list s !! m_nl s) as [k|] eqn:Ek; [|reflexivity]. destruct (mi_list _ _ _ _ Hs _ _ Ek). lia. }
    constructor.
    - intros x i Hi. rewrite EE in Hi. apply elem_of_union in Hi. destruct Hi as [Hi|Hi].
      + apply elem_of_singleton in Hi. injection Hi as -> ->. exists l. rewrite EL, lookup_insert. auto.
      + destruct (H1 x i Hi) as (k & Ek & Ec). exists k. rewrite EL, lookup_insert_ne by congruence. auto.
    - intros c n i Hi. rewrite Et in Hi.
      assert (Hc : (i = m_nl s /\ exists ns, tk = LNft c ns /\ n ∈ ns) \/ locks (m_nft s) !! (c, n) = Some i).
      { unfold lock_tokens in Hlock. cbn [toks_of fst snd] in Hlock. destruct tk as [d0 ns|d0 k]; inv_ok.
        - injection Hlock as <- <-. match goal with H : lock_all _ _ _ _ _ = _ |- _ => apply lock_all_spec in H; destruct H as (_ & _ & _ & Hpost) end.
          rewrite Hpost in Hi. destruct (decide (c = d0 /\ n ∈ ns)) as [[-> Hin]|_]; [left; injection Hi as <-; eauto|right; exact Hi].
        - injection Hlock as <- <-. right. exact Hi. }
      destruct Hc as [[-> (ns & -> & Hin)]|Hc].
      + split; [lia|]. rewrite EL, lookup_insert. intros k [= <-]. exists ns. auto.
      + destruct (H2 c n i Hc) as [A B]. split; [lia|]. rewrite EL, lookup_insert_ne by lia. exact B.
    - intros i k Ek. rewrite Eb. rewrite EL in Ek. destruct (N.eq_dec i (m_nl s)) as [->|Hne].
      + rewrite lookup_insert in Ek. injection Ek as <-. cbn. split; [lia|]. split; [exact Hv|]. intros b Hb.
        destruct (mi_bid _ _ _ _ Hs _ _ Hb). lia.
      + rewrite lookup_insert_ne in Ek by congruence. apply H3. exact Ek.
  Qed.
  Lemma update_TI s s' lid l l' : TI s -> m_list s !! lid = Some l -> l_toks l' = l_toks l -> l_roy l' = l_roy l -> l_close l' <= U32MAX ->
    m_list s' = <[lid := l']> (m_list s) ->
    (l_close l' = l_close l /\ m_end s' = m_end s \/ m_end s' = {[(l_close l', lid)]} ∪ (m_end s ∖ {[(l_close l, lid)]})) ->
    m_nl s' = m_nl s -> locks (m_nft s') = locks (m_nft s) -> (forall i, i <> lid -> m_bid s' !! i = m_bid s !! i) ->
    (forall b, m_bid s' !! lid = Some b -> l_price l' <= snd b) -> TI s'.
  Proof.
    intros [H1 H2 H3] El Et Er Ec EL EE En Ek Hb Hp. constructor.
    - intros x i Hi. rewrite EL. destruct (N.eq_dec lid i) as [<-|Hne].
      + rewrite lookup_insert. exists l'. split; [reflexivity|]. destruct EE as [[-> EE]|EE]; rewrite EE in Hi.
        * destruct (H1 x lid Hi) as (k & Hk & <-). congruence.
        * apply elem_of_union in Hi. destruct Hi as [Hi|Hi]; [apply elem_of_singleton in Hi; congruence|].
          apply elem_of_difference in Hi. destruct Hi as [Hi Hno]. destruct (H1 x lid Hi) as (k & Hk & <-). exfalso. apply Hno, elem_of_singleton. congruence.
      + rewrite lookup_insert_ne by exact Hne. apply H1. destruct EE as [[_ EE]|EE]; rewrite EE in Hi; [exact Hi|].
        apply elem_of_union in Hi. destruct Hi as [Hi|Hi]; [apply elem_of_singleton in Hi; congruence|]. apply elem_of_difference in Hi. apply Hi.
    - intros c n i Hi. rewrite Ek in Hi. rewrite En, EL. destruct (H2 c n i Hi) as [A B]. split; [exact A|].
      destruct (N.eq_dec lid i) as [<-|Hne]; [|rewrite lookup_insert_ne by exact Hne; exact B].
      rewrite lookup_insert. intros k [= <-]. rewrite Et. apply B. exact El.
    - intros i k Hk. rewrite EL in Hk. destruct (N.eq_dec lid i) as [<-|Hne].
      + rewrite lookup_insert in Hk. injection Hk as <-. split; [exact Ec|]. split; [rewrite Er; apply (H3 lid l El)|]. exact Hp.
      + rewrite lookup_insert_ne in Hk by exact Hne. rewrite Hb by congruence. apply H3. exact Hk.
  Qed.
  Lemma deliver_locks_le asset s lid l to t f : MI asset s -> m_list s !! lid = Some l ->
    unlock_and_transfer cap mo ms (m_nft s, m_sft s) (l_toks l) (l_seller l) to = Ok (t, f) ->
    forall c n i, locks t !! (c, n) = Some i -> locks (m_nft s) !! (c, n) = Some i.
  Proof.
    intros Hs El Hu c n i Hi. destruct (deliver_listing cap mo ms (m_nft s) (m_sft s) (m_list s) lid l to t f (mi_tok _ _ _ _ Hs) El Hu) as (_ & Hl & _).
    rewrite Hl in Hi. destruct (l_toks l); [|exact Hi]. destruct (decide _); [discriminate|exact Hi].
  Qed.
  Lemma unlock_locks_le asset s lid l : MI asset s -> m_list s !! lid = Some l ->
    forall c n i, locks (fst (fst (unlock_tokens (m_nft s, m_sft s) (l_toks l) (l_seller l)))) !! (c, n) = Some i -> locks (m_nft s) !! (c, n) = Some i.
  Proof.
    intros Hs El c n i Hi. destruct (unlock_Tok (m_nft s) (m_sft s) (m_list s) lid l (mi_tok _ _ _ _ Hs) El) as (t & f & Ex & _ & _ & Hl & _).
    rewrite Ex in Hi. cbn [fst] in Hi. rewrite Hl in Hi. destruct (l_toks l); [|exact Hi]. destruct (decide _); [discriminate|exact Hi].
  Qed.
  Lemma buy_TI asset s who lid s' : MI asset s -> TI s -> do_buy cap mo ms s who lid = Ok s' -> TI s'.
  Proof.
    intros Hs Ht E. unfold do_buy in E. inv_ok. rename v into l, v0 into a. destruct v1 as [t f]. subst s'.
    eapply TI_drop; [exact Ht|eassumption|reflexivity|reflexivity|reflexivity|auto|]. cbn. eapply deliver_locks_le; [exact Hs|eassumption|eassumption].
  Qed.
  Lemma buy_multi_TI asset who lids : forall s s', MI asset s -> who <> vault -> TI s -> buy_multi cap mo ms s who lids = Ok s' -> TI s'.
  Proof.
    induction lids as [|lid lids IH]; intros s s' Hs Hw Ht E; cbn [buy_multi] in E; [injection E as <-; exact Ht|]. inv_ok. rename v into s1.
    match goal with H : do_buy _ _ _ _ _ _ = Ok s1 |- _ => pose proof (buy_TI asset _ _ _ _ Hs Ht H) as K1;
       destruct (buy_inv vault mh pid cap mo ms asset _ _ _ _ Hs Hw H) as [Hs1 _] end. eapply IH; eassumption.
  Qed.
  Lemma close_one_TI asset s lid : MI asset s -> TI s -> TI (close_one s lid).
  Proof.
    intros Hs Ht. unfold MarketModel.close_one. destruct (m_list s !! lid) as [l|] eqn:El; [|exact Ht].
    assert (Hb : forall i b, i <> lid -> delete lid (m_bid s) !! i = Some b -> m_bid s !! i = Some b) by (intros i b Hne; rewrite lookup_delete_ne by congruence; auto).
    destruct (l_auction l) eqn:Ea.
    - unfold close_auction. cbn [m_bid remove_listing set_list]. destruct (m_bid s !! lid) as [[w p]|].
      + destruct (settle _ _ _ _ _ _ _ _ _ _ _ _) as [s2|] eqn:Es.
        * unfold settle in Es. inv_ok. destruct v0 as [t f]. subst s2.
          eapply TI_drop; [exact Ht|exact El|reflexivity|reflexivity|reflexivity|exact Hb|]. cbn. eapply deliver_locks_le; [exact Hs|exact El|eassumption].
        * eapply TI_drop; [exact Ht|exact El|reflexivity|reflexivity|reflexivity|exact Hb|]. auto.
      + eapply TI_drop; [exact Ht|exact El|reflexivity|reflexivity|reflexivity|exact Hb|]. cbn [set_toks m_nft]. exact (unlock_locks_le asset s lid l Hs El).
    - eapply TI_drop; [exact Ht|exact El|reflexivity|reflexivity|reflexivity|auto|]. cbn [set_toks m_nft]. exact (unlock_locks_le asset s lid l Hs El).
  Qed.
  Lemma close_many_TI asset lids : forall s, MI asset s -> TI s -> TI (fold_left close_one lids s).
  Proof.
    induction lids as [|lid lids IH]; intros s Hs Ht; [exact Ht|]. cbn [fold_left]. apply IH; [eapply close_one_inv; eassumption|eapply close_one_TI; eassumption].
  Qed.
  (** Accepting an offer, piece by piece. *)
  Lemma accept_spec asset s who oid roy s' : MI asset s -> accept_offer vault pid net_fee cap mo ms s who oid roy = Ok s' ->
    exists f r0, m_off s !! oid = Some f /\ owner_of (m_nft s) (fst (o_tok f)) (snd (o_tok f)) = Some who /\
      roy = Some r0 /\ fees_valid (fees_due net_fee s r0 (o_market f)) /\
      m_bid s' = m_bid s /\ m_nl s' = m_nl s /\ m_now s' = m_now s /\ m_off s' = delete oid (m_off s) /\
      spend_hold vault (m_as s) pid (o_buyer f) (o_asset f) (payouts who (fees_due net_fee s r0 (o_market f)) (o_amount f)) = Ok (m_as s') /\
      owner_of (m_nft s') (fst (o_tok f)) (snd (o_tok f)) = Some (o_buyer f) /\
      (forall c n, locks (m_nft s') !! (c, n) = if decide ((c, n) = o_tok f) then None else locks (m_nft s) !! (c, n)) /\
      match locks (m_nft s) !! o_tok f with
      | Some lid => match m_list s !! lid with
                    | Some l => m_list s' = delete lid (m_list s) /\ m_end s' = m_end s ∖ {[(l_close l, lid)]}
                    | None => m_list s' = m_list s /\ m_end s' = m_end s
                    end
      | None => m_list s' = m_list s /\ m_end s' = m_end s
      end.
  Proof.
    intros Hs E. unfold accept_offer in E. inv_ok. rename v into f.
    match goal with H : m_off s !! oid = Some f |- _ => rename H into Eo end.
    destruct (o_tok f) as [c n] eqn:Etok. inv_ok. rename v into r, v0 into s2.
    match goal with H : bool_decide _ = true |- _ => apply bool_decide_eq_true in H; rename H into Eow end.
    set (s1 := match locks (m_nft s) !! (c, n) with Some lid => _ | None => s end) in *.
    apply remove_offer_spec in E. destruct E as (T & -> & _).
    match goal with H : settle _ _ _ _ _ _ _ _ _ _ _ _ = Ok s2 |- _ => unfold settle in H; rename H into Es end. inv_ok. rename v into a. destruct v0 as [t g]. subst s2.
    match goal with H : unlock_and_transfer _ _ _ _ _ _ _ = _ |- _ => unfold unlock_and_transfer in H; rename H into Hu end.
    cbn [fst snd toks_of length Nat.eqb negb ensure rbind] in Hu. inv_ok. rename v into t'. injection Hu as <- <-.
    assert (Q : m_nft s1 = m_nft s /\ m_sft s1 = m_sft s /\ m_as s1 = m_as s /\ m_bid s1 = m_bid s /\ m_nl s1 = m_nl s /\ m_now s1 = m_now s /\ m_off s1 = m_off s /\
       m_fee s1 = m_fee s /\ m_mk s1 = m_mk s /\
       match locks (m_nft s) !! (c, n) with
       | Some lid => match m_list s !! lid with
                    | Some l => m_list s1 = delete lid (m_list s) /\ m_end s1 = m_end s ∖ {[(l_close l, lid)]}
                    | None => m_list s1 = m_list s /\ m_end s1 = m_end s
                    end
       | None => m_list s1 = m_list s /\ m_end s1 = m_end s
       end).
    { unfold s1. destruct (locks (m_nft s) !! (c, n)) as [lid|]; [|auto 12]. destruct (m_list s !! lid) as [l|] eqn:El; cbn; auto 12. }
    destruct Q as (Q1 & Q2 & Q3 & Q4 & Q5 & Q6 & Q7 & Q8 & Q9 & Q10). clearbody s1.
    match goal with H : bundle_royalties _ _ _ _ = Ok r |- _ => apply fees_spec in H; destruct H as (r0 & -> & -> & Hv & _) end.
    assert (Hf : fees_due net_fee s1 r0 (o_market f) = fees_due net_fee s r0 (o_market f)) by (unfold fees_due; rewrite Q8, Q9; reflexivity).
    rewrite Hf in *. rewrite Q3 in *.
    match goal with H : do_transfer _ _ _ _ _ _ = Ok t' |- _ => apply (deliver_nft cap (m_nft s1) (m_sft s1) ∅) in H;
          [destruct H as (_ & Hown & Hl)|split; [rewrite Q1; apply Hs|split; [rewrite Q2; apply Hs|split; [discriminate|intros; apply N.le_0_l]]]|apply NoDup_singleton|discriminate] end.
    rewrite Q1 in Hl.
    exists f, r0. rewrite Etok. cbn [fst snd]. split; [exact Eo|]. split; [exact Eow|]. split; [reflexivity|]. split; [exact Hv|].
    cbn. split; [exact Q4|]. split; [exact Q5|]. split; [exact Q6|]. split; [rewrite Q7; reflexivity|]. split; [assumption|]. split; [apply Hown; left|]. split.
    - intros d m. rewrite Hl. destruct (decide (d = c /\ m ∈ [n])) as [[-> Hm]|Hno].
      + apply elem_of_list_singleton in Hm. subst m. rewrite decide_True by reflexivity. reflexivity.
      + rewrite decide_False; [reflexivity|]. intros [= -> ->]. apply Hno. split; [reflexivity|left].
    - exact Q10.
  Qed.
  Lemma accept_TI asset s who oid roy s' : MI asset s -> TI s -> accept_offer vault pid net_fee cap mo ms s who oid roy = Ok s' -> TI s'.
  Proof.
    intros Hs Ht E. apply (accept_spec asset) in E; [|exact Hs]. destruct E as (f & r0 & _ & _ & _ & _ & Eb & En & _ & _ & _ & _ & Hl & Hc).
    assert (Hk : forall c n i, locks (m_nft s') !! (c, n) = Some i -> locks (m_nft s) !! (c, n) = Some i).
    { intros c n i Hi. rewrite Hl in Hi. destruct (decide _); [discriminate|exact Hi]. }
    destruct (locks (m_nft s) !! o_tok f) as [lid|]; [destruct (m_list s !! lid) as [l|] eqn:El|]; destruct Hc as [EL EE].
    - eapply TI_drop; [exact Ht|exact El|exact EL|exact EE|exact En|rewrite Eb; auto|exact Hk].
    - eapply TI_same; [exact Ht|exact EL|rewrite EE; reflexivity|exact En|exact Eb|exact Hk].
    - eapply TI_same; [exact Ht|exact EL|rewrite EE; reflexivity|exact En|exact Eb|exact Hk].
  Qed.
  (** A bid, piece by piece. *)
  Lemma bid_spec s who lid x s' : do_bid vault mh pid s who lid x = Ok s' ->
    exists l, m_list s !! lid = Some l /\ l_auction l = true /\
      match m_bid s !! lid with Some b => snd b < x | None => l_price l <= x end /\
      m_bid s' = <[lid := (who, x)]> (m_bid s) /\ m_nl s' = m_nl s /\ m_nft s' = m_nft s /\
      (if (l_close l + 2 ^ 32 - m_now s) mod 2 ^ 32 <=? 40
       then let e := (m_now s + 40) mod 2 ^ 32 in
            m_list s' = <[lid := with_close l e]> (m_list s) /\ m_end s' = {[(e, lid)]} ∪ (m_end s ∖ {[(l_close l, lid)]})
       else m_list s' = m_list s /\ m_end s' = m_end s).
  Proof.
    intros E. unfold do_bid in E. inv_ok. rename v into l, v0 into a, v1 into a'. exists l. split; [assumption|].
    match goal with H : l_auction l = true |- _ => rename H into Ha end. split; [exact Ha|]. split.
    - destruct (m_bid s !! lid); [apply N.ltb_lt; assumption|apply N.leb_le; assumption].
    - destruct (_ <=? 40) in *; injection E as <-; cbn; auto 10. unfold with_close. rewrite Ha. auto 10.
  Qed.
  Lemma till_spec e now : now < e -> e <= U32MAX -> (e + 2 ^ 32 - now) mod 2 ^ 32 = e - now.
  Proof.
    intros H1 H2. unfold U32MAX in H2. replace (e + 2 ^ 32 - now) with ((e - now) + 1 * 2 ^ 32) by lia. rewrite N.mod_add by lia.
    apply N.mod_small. lia.
  Qed.
  Lemma bid_TI asset s who lid x s' : MI asset s -> TI s -> m_now s + 40 <= U32MAX -> do_bid vault mh pid s who lid x = Ok s' -> TI s'.
  Proof.
    intros Hs Ht Hnow E. apply bid_spec in E. destruct E as (l & El & Ea & Hx & Eb & En & Ek & Hc).
    destruct (ti_list _ Ht lid l El) as (Hcl & _ & Hpr).
    assert (Hb1 : forall i, i <> lid -> m_bid s' !! i = m_bid s !! i) by (intros i Hne; rewrite Eb, lookup_insert_ne by congruence; reflexivity).
    assert (Hb2 : forall b, m_bid s' !! lid = Some b -> l_price l <= snd b).
    { intros b Hb. rewrite Eb, lookup_insert in Hb. injection Hb as <-. cbn. destruct (m_bid s !! lid) as [b|] eqn:E0; [|exact Hx]. specialize (Hpr b eq_refl). lia. }
    assert (Hmod : (m_now s + 40) mod 2 ^ 32 = m_now s + 40) by (apply N.mod_small; unfold U32MAX in Hnow; lia).
    destruct (_ <=? 40) eqn:E40; cbv zeta in Hc; destruct Hc as [EL EE].
    - eapply (update_TI s s' lid l (with_close l (m_now s + 40))); [exact Ht|exact El|reflexivity|reflexivity|exact Hnow| | |exact En|rewrite Ek; reflexivity|exact Hb1|exact Hb2].
      + rewrite EL, Hmod. reflexivity.
      + right. rewrite EE, Hmod. reflexivity.
    - eapply (update_TI s s' lid l l); [exact Ht|exact El|reflexivity|reflexivity|exact Hcl| | |exact En|rewrite Ek; reflexivity|exact Hb1|exact Hb2].
      + rewrite EL. symmetry. apply insert_id. exact El.
      + left. split; [reflexivity|exact EE].
  Qed.

  Lemma exec_TI asset s o s' : MI asset s -> TI s -> mgood s o -> mexec s o = Ok s' -> TI s'.
  Proof.
    intros Hs Ht Hg E.
    assert (Hsame : forall s1, m_list s1 = m_list s -> m_end s1 = m_end s -> m_nl s1 = m_nl s -> m_bid s1 = m_bid s -> locks (m_nft s1) = locks (m_nft s) -> TI s1).
    { intros s1 E1 E2 E3 E4 E5. eapply TI_same; [exact Ht|exact E1|rewrite E2; reflexivity|exact E3|exact E4|rewrite E5; auto]. }
    destruct o; cbn [MarketModel.mexec MarketProofs.mgood] in *.
    - eapply open_TI; [exact Hs|exact Ht|apply Hg|exact E].
    - eapply open_TI; [exact Hs|exact Ht|apply Hg|exact E].
    - unfold update_price in E. inv_ok. rename v into l. subst s'. match goal with H : m_list s !! lid = Some l |- _ => rename H into El end.
      match goal with H : negb (l_auction l) = true |- _ => apply negb_true_iff in H; rename H into Ea end.
      eapply (update_TI s _ lid l (Listing false (l_asset l) price (l_close l) (l_buyer l) (l_seller l) (l_toks l) (l_roy l))); [exact Ht|exact El|reflexivity|reflexivity| |reflexivity|left; split; reflexivity|reflexivity|reflexivity|reflexivity|].
      + cbn. apply (ti_list _ Ht lid l El).
      + cbn. intros b Hb. rewrite (proj2 (proj2 (proj2 (mi_bid _ _ _ _ Hs lid b Hb))) l El) in Ea. discriminate.
    - eapply buy_TI; eassumption.
    - eapply buy_multi_TI; eassumption.
    - eapply bid_TI; [exact Hs|exact Ht|apply Hg|exact E].
    - unfold do_cancel in E. inv_ok. rename v into l. match goal with H : m_list s !! lid = Some l |- _ => rename H into El end.
      match goal with H : (l_seller l =? who) = true |- _ => apply N.eqb_eq in H; subst who end.
      destruct (unlock_tokens _ _ _) as [[t f] b] eqn:Eu. inv_ok. subst s'.
      eapply TI_drop; [exact Ht|exact El|reflexivity|reflexivity|reflexivity|auto|]. cbn. intros c n i Hi.
      eapply unlock_locks_le; [exact Hs|exact El|]. unfold toks_of in Eu. rewrite Eu. exact Hi.
    - unfold make_offer in E. inv_ok. subst s'. apply Hsame; reflexivity.
    - unfold cancel_offer in E. inv_ok. apply remove_offer_spec in E. destruct E as (T & -> & _). apply Hsame; reflexivity.
    - eapply accept_TI; eassumption.
    - injection E as <-. unfold new_block. fold (tick s). set (due := List.filter _ order). cbv zeta. rewrite close_many_tick.
      eapply TI_same; [exact (close_many_TI asset due s Hs Ht)|reflexivity| |reflexivity|reflexivity|auto].
      cbn. intros e He. apply elem_of_filter in He. apply He.
    - unfold register in E. inv_ok. subst s'. apply Hsame; reflexivity.
    - injection E as <-. apply Hsame; reflexivity.
    - inv_ok. subst s'. apply Hsame; reflexivity.
    - inv_ok. rename v into t. subst s'. match goal with H : nexec _ _ _ _ _ = Ok t |- _ => pose proof (nft_locks_same _ _ _ _ _ _ (proj1 Hg) H) as Hn end.
      apply Hsame; [reflexivity..|exact Hn].
    - inv_ok. subst s'. apply Hsame; reflexivity.
  Qed.
  Lemma run_TI ops : forall s asset, MI asset s -> TI s -> along mstep mgood ops s -> TI (run mstep ops s).
  Proof.
    induction ops as [|o ops IH]; intros s asset Hs Ht Hg; [exact Ht|]. destruct Hg as [Hgo Hg].
    change (run mstep (o :: ops) s) with (run mstep ops (mstep s o)). unfold MarketModel.mstep in *. destruct (mexec s o) as [s'|] eqn:E; cbn [commit] in *.
    - destruct (exec_inv _ _ _ _ _ _ _ _ _ _ _ asset s o s' Hs Hgo E) as (asset' & Hs' & _). eapply IH; [exact Hs'|exact (exec_TI asset s o s' Hs Ht Hgo E)|exact Hg].
    - eapply IH; eassumption.
  Qed.
  Lemma init_TI fee : TI (minit fee).
  Proof. constructor; cbn; [intros e lid H; apply elem_of_empty in H; contradiction|discriminate|discriminate]. Qed.
End terms.
