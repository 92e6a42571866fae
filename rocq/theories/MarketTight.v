(** Tokens locked by the marketplace and the open listings they belong to. *)
From Verif Require Export MarketProofs.
From Verif Require Import NftProofs NftProps SftProofs SftProps LedgerProofs.

(** Every lock belongs to an open listing, and everything reserved is listed. *)
Definition tight (t : nft) (f : sstate) (L : gmap N listing) : Prop :=
  (forall c n lid, locks t !! (c, n) = Some lid -> exists l ns, L !! lid = Some l /\ l_toks l = LNft c ns /\ n ∈ ns) /\
  (forall c n y, snd (sbal f c n y) = listed L c n y).
Definition mtight (s : mkt) : Prop := tight (m_nft s) (m_sft s) (m_list s).
(** Reserved beyond what is listed. *)
Definition slack (s : mkt) (c n y : N) : N := snd (sbal (m_sft s) c n y) - listed (m_list s) c n y.

Lemma tight_close t f L lid l t' f' : tight t f L -> L !! lid = Some l ->
  (forall d n, locks t' !! (d, n) = match l_toks l with LNft c ns => if decide (d = c /\ n ∈ ns) then None else locks t !! (d, n)
                                                | LSft _ _ => locks t !! (d, n) end) ->
  (forall c n y, snd (sbal f' c n y) + sft_part c n y l = snd (sbal f c n y)) ->
  tight t' f' (delete lid L).
Proof.
  intros [H1 H2] El Hl Hf. split.
  - intros c n i Hi. rewrite Hl in Hi.
    assert (Hi' : locks t !! (c, n) = Some i).
    { destruct (l_toks l) as [d ns|]; [|exact Hi]. destruct (decide _); [discriminate|exact Hi]. }
    destruct (H1 c n i Hi') as (k & ns & Ek & Et & Hn). exists k, ns. split; [|auto]. rewrite lookup_delete_ne; [exact Ek|].
    intros <-. assert (k = l) as -> by congruence. rewrite Et in Hi. rewrite decide_True in Hi by auto. discriminate.
  - intros c n y. pose proof (listed_delete L lid l c n y El). specialize (Hf c n y). specialize (H2 c n y). lia.
Qed.
Lemma tight_update t f L lid l l' : tight t f L -> L !! lid = Some l -> l_seller l' = l_seller l -> l_toks l' = l_toks l ->
  tight t f (<[lid := l']> L).
Proof.
  intros [H1 H2] El E1 E2. split.
  - intros c n i Hi. destruct (H1 c n i Hi) as (k & ns & Ek & Et & Hn). destruct (decide (lid = i)) as [<-|Hne].
    + exists l', ns. rewrite lookup_insert. split; [reflexivity|]. split; [congruence|exact Hn].
    + exists k, ns. rewrite lookup_insert_ne by exact Hne. auto.
  - intros c n y. rewrite (listed_update L lid l l' c n y El E1 E2). apply H2.
Qed.
Lemma listed_drop_le L lid c n y : listed (delete lid L) c n y <= listed L c n y.
Proof.
  destruct (L !! lid) as [l|] eqn:E; [|rewrite delete_notin by exact E; reflexivity].
  pose proof (listed_delete L lid l c n y E). lia.
Qed.

Section tight.
  Variable vault : N.
  Variable mh : nat.
  Variable pid net_fee default_duration max_offers : N.
  Variable cap ml np mo ms : N.
  Notation mexec := (mexec vault mh pid net_fee default_duration max_offers cap ml np mo ms).
  Notation mstep := (mstep vault mh pid net_fee default_duration max_offers cap ml np mo ms).
  Notation MI := (MI vault pid).
  Notation mgood := (mgood vault pid default_duration).

  (** The settlements of the auctions due all succeed. *)
  Definition settles (s : mkt) (lid : N) : Prop :=
    match m_list s !! lid, m_bid s !! lid with
    | Some l, Some (w, p) => l_auction l = true ->
        is_ok (settle vault pid cap mo ms (set_bid (remove_listing s l lid) (delete lid (m_bid s))) w (l_seller l) (l_asset l) (l_toks l) p (l_roy l)) = true
    | _, _ => True
    end.
  Fixpoint all_settle (s : mkt) (lids : list N) : Prop :=
    match lids with
    | [] => True
    | lid :: ls => settles s lid /\ all_settle (close_one vault pid cap mo ms s lid) ls
    end.
  (** Offers are accepted only for tokens that are not listed or listed alone, and settlements
      succeed. *)
  Definition calm (s : mkt) (o : mop) : Prop :=
    match o with
    | MAccept _ oid _ => forall f lid l, m_off s !! oid = Some f -> locks (m_nft s) !! o_tok f = Some lid ->
        m_list s !! lid = Some l -> l_toks l = LNft (fst (o_tok f)) [snd (o_tok f)]
    | MBlock order => all_settle (tick s) (List.filter (fun lid => bool_decide ((m_now s + 1, lid) ∈ m_end s)) order)
    | _ => True
    end.

  (** Slack never shrinks. *)
  Definition grows (s s' : mkt) : Prop := forall c n y, slack s c n y <= slack s' c n y.
  Definition kept (s s' : mkt) : Prop := grows s s' /\ (mtight s -> mtight s').

  Lemma closed_kept s s' lid l : m_list s !! lid = Some l -> m_list s' = delete lid (m_list s) ->
    (forall d n, locks (m_nft s') !! (d, n) = match l_toks l with LNft c ns => if decide (d = c /\ n ∈ ns) then None else locks (m_nft s) !! (d, n)
                                                  | LSft _ _ => locks (m_nft s) !! (d, n) end) ->
    (forall c n y, snd (sbal (m_sft s') c n y) + sft_part c n y l = snd (sbal (m_sft s) c n y)) -> kept s s'.
  Proof.
    intros El EL Hl Hf. split.
    - intros c n y. unfold slack. rewrite EL. pose proof (listed_delete (m_list s) lid l c n y El). specialize (Hf c n y). lia.
    - intros Ht. unfold mtight. rewrite EL. eapply tight_close; eassumption.
  Qed.
  Lemma unlocked_kept asset s lid l s' : MI asset s -> m_list s !! lid = Some l ->
    m_list s' = delete lid (m_list s) -> (m_nft s', m_sft s') = fst (unlock_tokens (m_nft s, m_sft s) (l_toks l) (l_seller l)) -> kept s s'.
  Proof.
    intros Hs El EL Eu. destruct (unlock_Tok (m_nft s) (m_sft s) (m_list s) lid l (mi_tok _ _ _ _ Hs) El) as (t & f & Ex & _ & _ & Hl & Hf).
    rewrite Ex in Eu. injection Eu as E1 E2. eapply closed_kept; [exact El|exact EL|rewrite E1; exact Hl|rewrite E2; exact Hf].
  Qed.
  Lemma delivered_kept asset s lid l s' to : MI asset s -> m_list s !! lid = Some l ->
    m_list s' = delete lid (m_list s) -> unlock_and_transfer cap mo ms (m_nft s, m_sft s) (l_toks l) (l_seller l) to = Ok (m_nft s', m_sft s') -> kept s s'.
  Proof.
    intros Hs El EL Eu. destruct (deliver_listing cap mo ms (m_nft s) (m_sft s) (m_list s) lid l to _ _ (mi_tok _ _ _ _ Hs) El Eu) as (_ & Hl & Hf & _).
    eapply closed_kept; eassumption.
  Qed.
  Lemma kept_refl s : kept s s.
  Proof. split; [intros c n y; reflexivity|auto]. Qed.
  Lemma kept_trans s s1 s2 : kept s s1 -> kept s1 s2 -> kept s s2.
  Proof. intros [A B] [C D]. split; [intros c n y; etransitivity; [apply A|apply C]|auto]. Qed.

  Lemma open_kept asset s chk who tk buyer as' price dur market roy s' : MI asset s ->
    open_listing net_fee default_duration s chk who tk buyer as' price dur market roy = Ok s' -> kept s s'.
  Proof.
    intros Hs E. unfold open_listing in E. inv_ok. rename v into r, v1 into e. destruct v0 as [t f]. subst s'.
    match goal with H : lock_tokens _ _ _ _ = _ |- _ => rename H into Hlock end.
    assert (Hfresh : m_list s !! m_nl s = None).
    { destruct (m_list s !! m_nl s) as [k|] eqn:Ek; [|reflexivity]. destruct (mi_list _ _ _ _ Hs _ _ Ek). lia. }
    set (l := Listing _ _ _ _ _ _ _ _). unfold lock_tokens in Hlock. cbn [toks_of fst snd] in Hlock. destruct tk as [c ns|c k]; inv_ok.
    - rename v into t1. injection Hlock as <- <-.
      match goal with H : lock_all _ _ _ _ _ = _ |- _ => apply lock_all_spec in H; destruct H as (Ec & Hnd & Hpre & Hpost) end.
      assert (Hz : forall d n y, sft_part d n y l = 0) by (intros; unfold sft_part, l; cbn; destruct (_ =? _); reflexivity).
      split.
      + intros d n y. unfold slack. cbn. rewrite listed_insert by exact Hfresh. rewrite Hz. lia.
      + intros [H1 H2]. split; cbn.
        * intros d n i Hi. rewrite Hpost in Hi. destruct (decide (d = c /\ n ∈ ns)) as [[-> Hn]|Hno].
          -- injection Hi as <-. exists l, ns. rewrite lookup_insert. auto.
          -- destruct (H1 d n i Hi) as (k & ks & Ek & Et & Hk). exists k, ks. rewrite lookup_insert_ne by congruence. auto.
        * intros d n y. rewrite listed_insert by exact Hfresh. rewrite Hz. apply H2.
    - rename v into f1. injection Hlock as <- <-.
      match goal with H : reserve_all _ _ _ _ = _ |- _ => apply reserve_all_spec in H; [|apply Hs]; destruct H as (Hf & _ & M) end.
      assert (Hz : forall d n y, snd (sbal f1 d n y) = snd (sbal (m_sft s) d n y) + sft_part d n y l).
      { intros d n y. rewrite M. unfold sft_part, l. cbn. rewrite (N.eqb_sym c d), (N.eqb_sym who y). destruct (d =? c), (y =? who); reflexivity. }
      split.
      + intros d n y. unfold slack. cbn. rewrite listed_insert by exact Hfresh. rewrite Hz. lia.
      + intros [H1 H2]. split; cbn.
        * intros d n i Hi. destruct (H1 d n i Hi) as (j & ks & Ek & Et & Hk). exists j, ks. rewrite lookup_insert_ne by congruence. auto.
        * intros d n y. rewrite listed_insert by exact Hfresh. rewrite Hz, H2. lia.
  Qed.
  Lemma buy_kept asset s who lid s' : MI asset s -> do_buy cap mo ms s who lid = Ok s' -> kept s s'.
  Proof.
    intros Hs E. unfold do_buy in E. inv_ok. rename v into l, v0 into a. destruct v1 as [t f]. subst s'.
    eapply delivered_kept; [exact Hs|eassumption|reflexivity|eassumption].
  Qed.
  Lemma buy_multi_kept asset who lids : forall s s', MI asset s -> who <> vault -> buy_multi cap mo ms s who lids = Ok s' -> kept s s'.
  Proof.
    induction lids as [|lid lids IH]; intros s s' Hs Hw E; cbn [buy_multi] in E; [injection E as <-; apply kept_refl|]. inv_ok. rename v into s1.
    match goal with H : do_buy _ _ _ _ _ _ = Ok s1 |- _ => pose proof (buy_kept asset _ _ _ _ Hs H) as K1;
       destruct (buy_inv vault mh pid cap mo ms asset _ _ _ _ Hs Hw H) as [Hs1 _] end.
    eapply kept_trans; [exact K1|]. eapply IH; eassumption.
  Qed.
  Lemma close_one_grows asset s lid : MI asset s -> grows s (close_one vault pid cap mo ms s lid).
  Proof.
    intros Hs. unfold close_one. destruct (m_list s !! lid) as [l|] eqn:El; [|apply kept_refl]. destruct (l_auction l) eqn:Ea.
    - unfold close_auction. destruct (m_bid _ !! lid) as [[w p]|].
      + destruct (settle _ _ _ _ _ _ _ _ _ _ _ _) as [s2|] eqn:Es.
        * unfold settle in Es. inv_ok. destruct v0 as [t f]. subst s2. eapply delivered_kept; [exact Hs|exact El|reflexivity|eassumption].
        * intros c n y. unfold slack. cbn. pose proof (listed_drop_le (m_list s) lid c n y). lia.
      + eapply unlocked_kept; [exact Hs|exact El|reflexivity|]. cbn. destruct (unlock_tokens _ _ _) as [[t f] b]. reflexivity.
    - eapply unlocked_kept; [exact Hs|exact El|reflexivity|]. cbn. destruct (unlock_tokens _ _ _) as [[t f] b]. reflexivity.
  Qed.
  Lemma close_one_tight asset s lid : MI asset s -> settles s lid -> mtight s -> mtight (close_one vault pid cap mo ms s lid).
  Proof.
    intros Hs Hok Ht. unfold close_one. unfold settles in Hok. destruct (m_list s !! lid) as [l|] eqn:El; [|exact Ht]. destruct (l_auction l) eqn:Ea.
    - unfold close_auction. cbn [m_bid remove_listing set_list]. destruct (m_bid s !! lid) as [[w p]|].
      + cbn [m_bid remove_listing set_list] in *. specialize (Hok eq_refl). 
        destruct (settle _ _ _ _ _ _ _ _ _ _ _ _) as [s2|] eqn:Es; [|discriminate].
        unfold settle in Es. inv_ok. destruct v0 as [t f]. subst s2. revert Ht. eapply delivered_kept; [exact Hs|exact El|reflexivity|eassumption].
      + revert Ht. eapply unlocked_kept; [exact Hs|exact El|reflexivity|]. cbn. destruct (unlock_tokens _ _ _) as [[t f] b]. reflexivity.
    - revert Ht. eapply unlocked_kept; [exact Hs|exact El|reflexivity|]. cbn. destruct (unlock_tokens _ _ _) as [[t f] b]. reflexivity.
  Qed.
  Lemma settles_tick s lid : settles (tick s) lid <-> settles s lid.
  Proof.
    unfold settles. cbn [tick m_list m_bid]. destruct (m_list s !! lid) as [l|]; [|reflexivity]. destruct (m_bid s !! lid) as [[w p]|]; [|reflexivity].
    match goal with |- context [settle _ _ _ _ _ ?x _ _ _ _ _ _] => change x with (tick (set_bid (remove_listing s l lid) (delete lid (m_bid s)))) end.
    rewrite settle_tick. destruct (settle _ _ _ _ _ _ _ _ _ _ _ _); reflexivity.
  Qed.
  Lemma all_settle_tick lids : forall s, all_settle (tick s) lids <-> all_settle s lids.
  Proof.
    induction lids as [|lid lids IH]; intros s; [reflexivity|]. cbn [all_settle]. rewrite settles_tick, close_one_tick, IH. reflexivity.
  Qed.
  Lemma close_many_grows asset lids : forall s, MI asset s -> grows s (fold_left (close_one vault pid cap mo ms) lids s).
  Proof.
    induction lids as [|lid lids IH]; intros s Hs; [intros c n y; reflexivity|]. cbn [fold_left]. intros c n y.
    etransitivity; [apply (close_one_grows asset s lid Hs)|]. apply IH. eapply close_one_inv; eassumption.
  Qed.
  Lemma close_many_tight asset lids : forall s, MI asset s -> all_settle s lids -> mtight s -> mtight (fold_left (close_one vault pid cap mo ms) lids s).
  Proof.
    induction lids as [|lid lids IH]; intros s Hs Hl Ht; [exact Ht|]. destruct Hl as [Ho Hl]. cbn [fold_left]. apply IH; [|exact Hl|].
    - eapply close_one_inv; eassumption.
    - eapply close_one_tight; eassumption.
  Qed.
  Lemma offer_frame s oid tok s' : remove_offer s oid tok = Ok s' -> m_nft s' = m_nft s /\ m_sft s' = m_sft s /\ m_list s' = m_list s /\ m_bid s' = m_bid s.
  Proof. intros E. apply remove_offer_spec in E. destruct E as (T & -> & _). repeat split. Qed.
  Lemma kept_same s s' : m_nft s' = m_nft s -> m_sft s' = m_sft s -> m_list s' = m_list s -> kept s s'.
  Proof.
    intros E1 E2 E3. unfold kept, grows, slack, mtight. rewrite E1, E2, E3. split; [reflexivity|auto].
  Qed.

  Lemma exec_grows asset s o s' : MI asset s -> mgood s o -> mexec s o = Ok s' -> grows s s' /\ (calm s o -> mtight s -> mtight s').
  Proof.
    intros Hs Hg E.
    assert (Hk : kept s s' -> grows s s' /\ (calm s o -> mtight s -> mtight s')) by (intros [A B]; split; auto).
    destruct o; cbn [MarketModel.mexec MarketProofs.mgood] in *.
    - apply Hk. eapply open_kept; [exact Hs|exact E].
    - apply Hk. eapply open_kept; [exact Hs|exact E].
    - apply Hk. unfold update_price in E. inv_ok. rename v into l. subst s'. split.
      + intros c n y. unfold slack. cbn. erewrite listed_update by (eassumption || reflexivity). lia.
      + intros Ht. eapply tight_update; [exact Ht|eassumption|reflexivity..].
    - apply Hk. eapply buy_kept; eassumption.
    - apply Hk. eapply buy_multi_kept; eassumption.
    - apply Hk. unfold do_bid in E. inv_ok. destruct (_ <=? 40) in E; injection E as <-; [|apply kept_same; reflexivity]. split.
      + intros c n y. unfold slack. cbn. erewrite listed_update by (eassumption || reflexivity). lia.
      + intros Ht. eapply tight_update; [exact Ht|eassumption|reflexivity..].
    - apply Hk. unfold do_cancel in E. inv_ok. rename v into l. 
      match goal with H : (l_seller l =? who) = true |- _ => apply N.eqb_eq in H; subst who end.
      destruct (unlock_tokens _ _ _) as [[t f] b] eqn:Eu. inv_ok. subst s'. eapply unlocked_kept; [exact Hs|eassumption|reflexivity|]. 
      unfold toks_of in Eu. cbn. rewrite Eu. reflexivity.
    - apply Hk. unfold make_offer in E. inv_ok. subst s'. apply kept_same; reflexivity.
    - apply Hk. unfold cancel_offer in E. inv_ok. apply offer_frame in E. destruct E as (A & B & C & _). apply kept_same; assumption.
    - (* accept *)
      unfold accept_offer in E. inv_ok. rename v into f.
      match goal with H : m_off s !! oid = Some f |- _ => rename H into Eo end.
      destruct (o_tok f) as [c n] eqn:Etok. inv_ok. rename v into r, v0 into s2.
      set (s1 := match locks (m_nft s) !! (c, n) with Some lid => _ | None => s end) in *.
      apply offer_frame in E. destruct E as (F1 & F2 & F3 & _).
      match goal with H : settle _ _ _ _ _ _ _ _ _ _ _ _ = Ok s2 |- _ => unfold settle in H; rename H into Es end. inv_ok. rename v into a. destruct v0 as [t g]. subst s2.
      match goal with H : unlock_and_transfer _ _ _ _ _ _ _ = _ |- _ => unfold unlock_and_transfer in H; rename H into Hu end.
      cbn [fst snd toks_of length Nat.eqb negb ensure rbind] in Hu. inv_ok. rename v into t'. injection Hu as <- <-. cbn in F1, F2, F3.
      assert (Q : m_nft s1 = m_nft s /\ m_sft s1 = m_sft s /\ m_list s1 = match locks (m_nft s) !! (c, n) with Some lid => delete lid (m_list s) | None => m_list s end).
      { unfold s1. destruct (locks (m_nft s) !! (c, n)) as [lid|]; [|auto]. destruct (m_list s !! lid) as [l|] eqn:El; [cbn; auto|].
        rewrite delete_notin by exact El. auto. }
      destruct Q as (Q1 & Q2 & Q3). clearbody s1. split.
      + intros d m y. unfold slack. rewrite F2, Q2, F3, Q3. destruct (locks (m_nft s) !! (c, n)) as [lid|]; [|reflexivity].
        pose proof (listed_drop_le (m_list s) lid d m y). lia.
      + intros Hc Ht.
        match goal with H : do_transfer _ _ _ _ _ _ = Ok t' |- _ => apply (deliver_nft cap (m_nft s1) (m_sft s1) ∅) in H;
          [destruct H as (_ & _ & Hl)|split; [rewrite Q1; apply Hs|split; [rewrite Q2; apply Hs|split; [discriminate|intros; apply N.le_0_l]]]|apply NoDup_singleton|discriminate] end.
        unfold mtight. rewrite F1, F2, F3, Q2, Q3. rewrite Q1 in Hl. cbn [calm] in Hc.
        destruct (locks (m_nft s) !! (c, n)) as [lid|] eqn:Elk.
        * destruct (proj1 Ht c n lid Elk) as (l & ns & El & Et & Hn). pose proof (Hc f lid l Eo ltac:(rewrite Etok; exact Elk) El) as Hsing.
          rewrite Etok in Hsing. cbn [fst snd] in Hsing.
          eapply tight_close; [exact Ht|exact El| |].
          -- rewrite Hsing. exact Hl.
          -- intros d m y. unfold sft_part. rewrite Hsing. destruct (_ =? y); lia.
        * destruct Ht as [H1 H2]. split; [|exact H2]. intros d m i Hi. rewrite Hl in Hi. destruct (decide _); [discriminate|]. apply H1. exact Hi.
    - (* block *)
      injection E as <-. unfold new_block. fold (tick s). set (due := List.filter _ order). cbv zeta. rewrite close_many_tick.
      pose proof (close_many_grows asset due s Hs) as Hgr. split; [exact Hgr|]. intros Hc Ht. cbn [calm] in Hc. fold due in Hc.
      pose proof (proj1 (all_settle_tick due s) Hc) as Hc'. exact (close_many_tight asset due s Hs Hc' Ht).
    - apply Hk. unfold register in E. inv_ok. subst s'. apply kept_same; reflexivity.
    - apply Hk. injection E as <-. apply kept_same; reflexivity.
    - apply Hk. inv_ok. subst s'. apply kept_same; reflexivity.
    - apply Hk. inv_ok. rename v into t. subst s'. split; [intros c n y; reflexivity|]. intros [H1 H2]. split; [|exact H2].
      cbn. match goal with H : nexec _ _ _ _ _ = Ok t |- _ => rewrite (nft_locks_same _ _ _ _ _ _ (proj1 Hg) H) end. exact H1.
    - apply Hk. inv_ok. rename v into f. subst s'.
      match goal with H : sexec _ _ _ _ = Ok f |- _ => destruct (sft_op_Tok mo ms (m_nft s) (m_sft s) (m_list s) _ f (mi_tok _ _ _ _ Hs) (proj1 Hg) (proj2 Hg) H) as [_ M] end. split.
      + intros c n y. unfold slack. cbn. rewrite M. reflexivity.
      + intros [H1 H2]. split; [exact H1|]. intros c n y. cbn. rewrite M. apply H2.
  Qed.
  Lemma run_grows ops : forall s asset, MI asset s -> along mstep mgood ops s -> grows s (run mstep ops s).
  Proof.
    induction ops as [|o ops IH]; intros s asset Hs Hg; [intros c n y; reflexivity|]. destruct Hg as [Hgo Hg].
    change (run mstep (o :: ops) s) with (run mstep ops (mstep s o)). unfold MarketModel.mstep in *. destruct (mexec s o) as [s'|] eqn:E; cbn [commit] in *.
    - destruct (exec_inv _ _ _ _ _ _ _ _ _ _ _ asset s o s' Hs Hgo E) as (asset' & Hs' & _). intros c n y. etransitivity; [apply (exec_grows asset s o s' Hs Hgo E)|].
      eapply IH; eassumption.
    - eapply IH; eassumption.
  Qed.
  Lemma run_tight ops : forall s asset, MI asset s -> mtight s -> along mstep (fun s o => mgood s o /\ calm s o) ops s -> mtight (run mstep ops s).
  Proof.
    induction ops as [|o ops IH]; intros s asset Hs Ht Hg; [exact Ht|]. destruct Hg as [[Hgo Hc] Hg].
    change (run mstep (o :: ops) s) with (run mstep ops (mstep s o)). unfold MarketModel.mstep in *. destruct (mexec s o) as [s'|] eqn:E; cbn [commit] in *.
    - destruct (exec_inv _ _ _ _ _ _ _ _ _ _ _ asset s o s' Hs Hgo E) as (asset' & Hs' & _). eapply IH; [exact Hs'| |exact Hg].
      apply (exec_grows asset s o s' Hs Hgo E); assumption.
    - eapply IH; eassumption.
  Qed.

  (** *** Bids of listings that are gone *)
  (** Accepted offers never concern a token under auction. *)
  Definition quiet (s : mkt) (o : mop) : Prop :=
    match o with
    | MAccept _ oid _ => forall f lid l, m_off s !! oid = Some f -> locks (m_nft s) !! o_tok f = Some lid ->
        m_list s !! lid = Some l -> l_auction l = false
    | _ => True
    end.
  Definition bids_open (s : mkt) : Prop := forall lid b, m_bid s !! lid = Some b -> exists l, m_list s !! lid = Some l.
  (** Effect on listing [i]: it stays closed once closed, and then its bid stays; while bids are open ones ... *)
  Definition gone (i : N) (s s' : mkt) : Prop :=
    i < m_nl s -> m_list s !! i = None -> m_list s' !! i = None /\ m_bid s' !! i = m_bid s !! i.
  Definition drops (s s' : mkt) : Prop := (forall i, gone i s s').

  Lemma close_one_bid s lid i : m_bid (close_one vault pid cap mo ms s lid) !! i =
    match m_list s !! lid with Some l => if l_auction l && (i =? lid) then None else m_bid s !! i | None => m_bid s !! i end.
  Proof.
    unfold close_one. destruct (m_list s !! lid) as [l|]; [|reflexivity]. destruct (l_auction l); [|reflexivity]. cbn [andb].
    assert (Hd : delete lid (m_bid s) !! i = if i =? lid then None else m_bid s !! i).
    { destruct (N.eqb_spec i lid) as [->|]; [apply lookup_delete|apply lookup_delete_ne; congruence]. }
    unfold close_auction. destruct (m_bid _ !! lid) as [[w p]|]; [|exact Hd].
    destruct (settle _ _ _ _ _ _ _ _ _ _ _ _) as [s2|] eqn:Es; [|exact Hd]. unfold settle in Es. inv_ok. subst s2. exact Hd.
  Qed.
  Lemma close_many_gone i lids : forall s, m_list s !! i = None ->
    m_bid (fold_left (close_one vault pid cap mo ms) lids s) !! i = m_bid s !! i.
  Proof.
    induction lids as [|lid lids IH]; intros s Hn; [reflexivity|]. cbn [fold_left]. rewrite IH.
    - rewrite close_one_bid. destruct (m_list s !! lid) as [l|] eqn:El; [|reflexivity]. destruct (N.eqb_spec i lid) as [->|]; [congruence|].
      destruct (l_auction l); reflexivity.
    - destruct (close_one_frame vault pid cap mo ms s lid) as (_ & _ & F). rewrite F, Hn. destruct (_ =? _); reflexivity.
  Qed.
  Lemma close_many_open lids : forall s, (forall lid b l, m_bid s !! lid = Some b -> m_list s !! lid = Some l -> l_auction l = true) ->
    bids_open s -> bids_open (fold_left (close_one vault pid cap mo ms) lids s).
  Proof.
    induction lids as [|lid lids IH]; intros s Ha Hb; [exact Hb|]. cbn [fold_left].
    destruct (close_one_frame vault pid cap mo ms s lid) as (_ & _ & F). cbv zeta in F. apply IH.
    - intros i b l Hi Hl. rewrite F in Hl. rewrite close_one_bid in Hi. destruct (N.eqb_spec i lid) as [->|]; [discriminate|].
      apply (Ha i b l); [|exact Hl]. destruct (m_list s !! lid); [rewrite andb_false_r in Hi|]; exact Hi.
    - intros i b Hi. rewrite close_one_bid in Hi. destruct (N.eqb_spec i lid) as [->|Hne].
      + destruct (m_list s !! lid) as [l|] eqn:El.
        * destruct (l_auction l) eqn:Ea; [discriminate|]. cbn [andb] in Hi. rewrite (Ha lid b l Hi El) in Ea. discriminate.
        * destruct (Hb lid b Hi) as [l Hl]. congruence.
      + assert (Hi' : m_bid s !! i = Some b) by (destruct (m_list s !! lid); [rewrite andb_false_r in Hi|]; exact Hi).
        destruct (Hb i b Hi') as [l Hl]. exists l. rewrite F. destruct (N.eqb_spec i lid); [contradiction|exact Hl].
  Qed.

  Lemma open_frame s chk who tk buyer as' price d market roy s' : open_listing net_fee default_duration s chk who tk buyer as' price d market roy = Ok s' ->
    m_bid s' = m_bid s /\ exists l, m_list s' = <[m_nl s := l]> (m_list s).
  Proof. intros E. unfold open_listing in E. inv_ok. subst s'. split; [reflexivity|]. eexists. reflexivity. Qed.
  Lemma buy_frame s who lid s' : do_buy cap mo ms s who lid = Ok s' ->
    m_bid s' = m_bid s /\ m_nl s' = m_nl s /\ exists l, m_list s !! lid = Some l /\ l_auction l = false /\ m_list s' = delete lid (m_list s).
  Proof.
    intros E. unfold do_buy in E. inv_ok. rename v into l. subst s'. split; [reflexivity|]. split; [reflexivity|]. exists l. split; [assumption|]. split; [|reflexivity].
    match goal with H : negb (l_auction l) = true |- _ => apply negb_true_iff in H; exact H end.
  Qed.
  Lemma buy_multi_frame who lids : forall s s', (forall lid b l, m_bid s !! lid = Some b -> m_list s !! lid = Some l -> l_auction l = true) ->
    buy_multi cap mo ms s who lids = Ok s' ->
    m_bid s' = m_bid s /\ (forall i, m_list s !! i = None -> m_list s' !! i = None) /\ (bids_open s -> bids_open s').
  Proof.
    induction lids as [|lid lids IH]; intros s s' Ha E; cbn [buy_multi] in E; [injection E as <-; auto|]. inv_ok. rename v into s1.
    match goal with H : do_buy _ _ _ _ _ _ = Ok s1 |- _ => apply buy_frame in H; destruct H as (F1 & _ & l & El & Eau & F2) end.
    destruct (IH s1 s') as (A & B & C); [|exact E|].
    - intros i b k Hi Hk. rewrite F1 in Hi. rewrite F2 in Hk. apply lookup_delete_Some in Hk. apply (Ha i b k Hi), Hk.
    - split; [congruence|]. split.
      + intros i Hi. apply B. rewrite F2. destruct (N.eq_dec i lid) as [->|]; [apply lookup_delete|rewrite lookup_delete_ne by congruence; exact Hi].
      + intros Hb. apply C. intros i b Hi. rewrite F1 in Hi. destruct (Hb i b Hi) as [k Hk]. exists k. rewrite F2, lookup_delete_ne; [exact Hk|].
        intros ->. rewrite El in Hk. injection Hk as <-. rewrite (Ha i b l Hi El) in Eau. discriminate.
  Qed.

  Lemma exec_bids asset s o s' : MI asset s -> mexec s o = Ok s' -> drops s s' /\ (quiet s o -> bids_open s -> bids_open s').
  Proof.
    intros Hs E. pose proof (fun lid b l Hb => proj2 (proj2 (proj2 (mi_bid _ _ _ _ Hs lid b Hb))) l) as Ha.
    assert (Hsame : forall s1, m_list s1 = m_list s -> m_bid s1 = m_bid s -> drops s s1 /\ (quiet s o -> bids_open s -> bids_open s1)).
    { intros s1 E1 E2. unfold drops, gone, bids_open. rewrite E1, E2. auto. }
    assert (Hopen : forall s1 l, m_bid s1 = m_bid s -> m_list s1 = <[m_nl s := l]> (m_list s) -> drops s s1 /\ (quiet s o -> bids_open s -> bids_open s1)).
    { intros s1 l E1 E2. split.
      - intros i Hi Hn. rewrite E1, E2, lookup_insert_ne by lia. auto.
      - intros _ Hb i b Hi. rewrite E1 in Hi. destruct (Hb i b Hi) as [k Hk]. destruct (mi_bid _ _ _ _ Hs _ _ Hi) as [Hlt _]. exists k.
        rewrite E2, lookup_insert_ne by lia. exact Hk. }
    assert (Hrem : forall s1 lid, m_bid s1 = m_bid s -> m_list s1 = delete lid (m_list s) -> drops s s1 /\ (m_bid s !! lid = None -> bids_open s -> bids_open s1)).
    { intros s1 lid E1 E2. split.
      - intros i Hi Hn. rewrite E1, E2. split; [|reflexivity]. destruct (N.eq_dec i lid) as [->|]; [apply lookup_delete|rewrite lookup_delete_ne by congruence; exact Hn].
      - intros Hno Hb i b Hi. rewrite E1 in Hi. destruct (Hb i b Hi) as [k Hk]. exists k.
        rewrite E2, lookup_delete_ne; [exact Hk|]. intros ->. congruence. }
    destruct o; cbn [MarketModel.mexec] in *.
    - apply open_frame in E. destruct E as (A & l & B). apply (Hopen s' l A B).
    - apply open_frame in E. destruct E as (A & l & B). apply (Hopen s' l A B).
    - unfold update_price in E. inv_ok. rename v into l. subst s'. match goal with H : m_list s !! lid = Some l |- _ => rename H into El end. split.
      + intros i Hi Hn. cbn. rewrite lookup_insert_ne by congruence. auto.
      + intros _ Hb i b Hi. cbn in Hi. destruct (Hb i b Hi) as [k Hk]. cbn. destruct (N.eq_dec lid i) as [->|]; [rewrite lookup_insert|rewrite lookup_insert_ne by congruence]; eauto.
    - apply buy_frame in E. destruct E as (A & _ & l & El & Eau & B). destruct (Hrem s' lid A B) as [P1 P2]. split; [exact P1|]. intros _. apply P2.
      destruct (m_bid s !! lid) as [b|] eqn:Eb; [|reflexivity]. rewrite (Ha lid b l Eb El) in Eau. discriminate.
    - apply buy_multi_frame in E; [|exact Ha]. destruct E as (A & B & C). split; [|auto]. intros i Hi Hn. rewrite A. split; [apply B; exact Hn|reflexivity].
    - unfold do_bid in E. inv_ok. rename v into l. match goal with H : m_list s !! lid = Some l |- _ => rename H into El end.
      destruct (_ <=? 40) in E; injection E as <-; (split; [intros i Hi Hn; cbn; rewrite ?lookup_insert_ne by congruence; auto|]).
      + intros _ Hb i b Hi. cbn in *. destruct (N.eq_dec lid i) as [->|]; [rewrite lookup_insert; eauto|rewrite lookup_insert_ne by congruence; rewrite lookup_insert_ne in Hi by congruence]. apply (Hb i b Hi).
      + intros _ Hb i b Hi. cbn in *. destruct (N.eq_dec lid i) as [->|]; [eauto|rewrite lookup_insert_ne in Hi by congruence]. apply (Hb i b Hi).
    - unfold do_cancel in E. inv_ok. rename v into l. match goal with H : m_list s !! lid = Some l |- _ => rename H into El end.
      destruct (unlock_tokens _ _ _) as [[t f] b]. inv_ok. subst s'. match goal with |- drops s ?x /\ _ => destruct (Hrem x lid eq_refl eq_refl) as [P1 P2] end. split; [exact P1|]. intros _. apply P2.
      match goal with H : _ || _ = true |- _ => apply orb_true_iff in H; destruct H as [Ho|Ho] end.
      + destruct (m_bid s !! lid) as [b0|] eqn:Eb; [|reflexivity]. rewrite (Ha lid b0 l Eb El) in Ho. discriminate.
      + apply bool_decide_eq_true in Ho. exact Ho.
    - unfold make_offer in E. inv_ok. subst s'. apply Hsame; reflexivity.
    - unfold cancel_offer in E. inv_ok. apply offer_frame in E. destruct E as (A & B & C & D). apply Hsame; assumption.
    - unfold accept_offer in E. inv_ok. rename v into f. match goal with H : m_off s !! oid = Some f |- _ => rename H into Eo end.
      destruct (o_tok f) as [c n] eqn:Etok. inv_ok. rename v into r, v0 into s2.
      apply offer_frame in E. destruct E as (F1 & F2 & F3 & F4).
      match goal with H : settle _ _ _ _ _ _ _ _ _ _ _ _ = Ok s2 |- _ => unfold settle in H end. inv_ok. subst s2. cbn in F3, F4.
      destruct (locks (m_nft s) !! (c, n)) as [lid|] eqn:Elk; [|apply Hsame; assumption].
      destruct (m_list s !! lid) as [l|] eqn:El; [|apply Hsame; assumption]. cbn in F3, F4.
      split; [apply (Hrem s' lid F4 F3)|].
      intros Hq Hb. assert (Eau : l_auction l = false) by (eapply Hq; [exact Eo|rewrite Etok; exact Elk|exact El]).
        apply (Hrem s' lid F4 F3); [|exact Hb]. destruct (m_bid s !! lid) as [b|] eqn:Eb; [|reflexivity]. rewrite (Ha lid b l Eb El) in Eau. discriminate.
    - injection E as <-. unfold new_block. fold (tick s). set (due := List.filter _ order). cbv zeta. rewrite close_many_tick. split.
      + intros i Hi Hn. cbn. destruct (close_many_frame vault pid cap mo ms due s) as (_ & _ & F). cbv zeta in F. rewrite F, Hn. split; [destruct (existsb _ _); reflexivity|].
        apply close_many_gone. exact Hn.
      + intros _ Hb. exact (close_many_open due s Ha Hb).
    - unfold register in E. inv_ok. subst s'. apply Hsame; reflexivity.
    - injection E as <-. apply Hsame; reflexivity.
    - inv_ok. subst s'. apply Hsame; reflexivity.
    - inv_ok. subst s'. apply Hsame; reflexivity.
    - inv_ok. subst s'. apply Hsame; reflexivity.
  Qed.
  Lemma run_bids_open ops : forall s asset, MI asset s -> bids_open s -> along mstep (fun s o => mgood s o /\ quiet s o) ops s -> bids_open (run mstep ops s).
  Proof.
    induction ops as [|o ops IH]; intros s asset Hs Ht Hg; [exact Ht|]. destruct Hg as [[Hgo Hc] Hg].
    change (run mstep (o :: ops) s) with (run mstep ops (mstep s o)). unfold MarketModel.mstep in *. destruct (mexec s o) as [s'|] eqn:E; cbn [commit] in *.
    - destruct (exec_inv _ _ _ _ _ _ _ _ _ _ _ asset s o s' Hs Hgo E) as (asset' & Hs' & _). eapply IH; [exact Hs'| |exact Hg].
      apply (exec_bids asset s o s' Hs E); assumption.
    - eapply IH; eassumption.
  Qed.
  Lemma run_stranded ops : forall s asset i, MI asset s -> along mstep mgood ops s -> i < m_nl s -> m_list s !! i = None ->
    m_list (run mstep ops s) !! i = None /\ m_bid (run mstep ops s) !! i = m_bid s !! i.
  Proof.
    induction ops as [|o ops IH]; intros s asset i Hs Hg Hi Hn; [auto|]. destruct Hg as [Hgo Hg].
    change (run mstep (o :: ops) s) with (run mstep ops (mstep s o)). unfold MarketModel.mstep in *. destruct (mexec s o) as [s'|] eqn:E; cbn [commit] in *.
    - destruct (exec_inv _ _ _ _ _ _ _ _ _ _ _ asset s o s' Hs Hgo E) as (asset' & Hs' & Hnl & _).
      destruct (proj1 (exec_bids asset s o s' Hs E) i Hi Hn) as [A B]. rewrite <- B. eapply IH; [exact Hs'|exact Hg|lia|exact A].
    - eapply IH; eassumption.
  Qed.
End tight.
