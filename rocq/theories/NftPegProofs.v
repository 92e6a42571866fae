(** Lemmas about NFTs bridged from Ethereum. *)
From Verif Require Import NftProofs NftProps.
From Verif Require Export NftPegModel.

Definition isin {K} `{Countable K} (h : gmap K unit) (k : K) : Prop := is_Some (h !! k).

Lemma hold_spec l : forall h k, isin (hold h l) k <-> k ∈ l \/ isin h k.
Proof.
  induction l as [|x l IH]; intros h k; [rewrite elem_of_nil; cbn; tauto|].
  cbn [hold fold_left]. fold (hold (<[x:=tt]> h) l). rewrite IH, elem_of_cons. unfold isin.
  destruct (decide (x = k)) as [->|Hne]; [rewrite lookup_insert; split; eauto|].
  rewrite lookup_insert_ne by exact Hne. split; [tauto|]. intros [[->|H]|H]; [congruence|tauto|tauto].
Qed.
Lemma drop_spec l : forall (h : gmap (N * N) unit) k, isin (fold_left (fun h k => delete k h) l h) k <-> isin h k /\ k ∉ l.
Proof.
  induction l as [|x l IH]; intros h k; [rewrite elem_of_nil; cbn; tauto|].
  cbn [fold_left]. rewrite IH, elem_of_cons. unfold isin. destruct (decide (x = k)) as [->|Hne].
  - rewrite lookup_delete. split; [intros [[? ?] _]; discriminate|tauto].
  - rewrite lookup_delete_ne by exact Hne. split; [intros [? ?]; split; [assumption|intros [->|?]; tauto]|tauto].
Qed.
Lemma pairs_elem l a n : (a, n) ∈ pairs l <-> exists ns, (a, ns) ∈ l /\ n ∈ ns.
Proof.
  unfold pairs. rewrite elem_of_list_In, in_flat_map. split.
  - intros ([a' ns] & Hin & H). cbn [fst snd] in H. apply in_map_iff in H. destruct H as (m & [= -> ->] & Hm).
    exists ns. rewrite !elem_of_list_In. auto.
  - intros (ns & Hin & Hn). exists (a, ns). cbn [fst snd]. split; [apply elem_of_list_In; exact Hin|]. apply in_map, elem_of_list_In, Hn.
Qed.
Lemma pairs_cons (a : N) (ns : list N) l : pairs ((a, ns) :: l) = map (pair a) ns ++ pairs l.
Proof. reflexivity. Qed.
Lemma pair_elem (a : N) (ns : list N) b n : (b, n) ∈ map (pair a) ns <-> b = a /\ n ∈ ns.
Proof.
  rewrite elem_of_list_In, in_map_iff, elem_of_list_In. split; [intros (m & [= -> ->] & H); auto|].
  intros [-> H]. eauto.
Qed.
Lemma pairs_nodup_cons (a : N) (ns : list N) l : NoDup (pairs ((a, ns) :: l)) <->
  NoDup ns /\ (forall n, n ∈ ns -> (a, n) ∉ pairs l) /\ NoDup (pairs l).
Proof.
  rewrite pairs_cons, NoDup_app. split.
  - intros (H1 & H2 & H3). split; [|split; [|exact H3]].
    + apply (NoDup_fmap_1 (pair a)). exact H1.
    + intros n Hn. apply H2. apply pair_elem. auto.
  - intros (H1 & H2 & H3). split; [|split; [|exact H3]].
    + apply (NoDup_fmap_2 (pair a)). exact H1.
    + intros [b n] Hb. apply pair_elem in Hb. destruct Hb as [-> Hn]. auto.
Qed.

Section proofs.
  Variables cap mint_limit pallet : N.
  Variables max_addr max_tok max_coll max_ser max_id : N.
  Notation gstep := (gstep cap mint_limit pallet max_addr max_tok max_coll max_ser max_id).
  Notation do_deposit := (do_deposit cap mint_limit pallet max_ser max_id).
  Notation deposit := (deposit cap mint_limit pallet max_addr max_tok max_ser max_id).
  Notation collection_for := (collection_for cap mint_limit pallet max_id).

  Lemma root_exists x c : is_Some (root_of x c) <-> is_Some (colls x !! c).
  Proof. unfold root_of. destruct (colls x !! c); cbn; split; intros [? H]; eauto; discriminate. Qed.

  (** Bridged mints: with room in the vector, every serial ends up owned. *)
  Lemma bridge_all x owner c ns x' : WF x -> root_of x c = Some false -> N.of_nat (length ns) <= cap ->
    mint_bridged cap x owner c ns = Ok x' -> forall n, n ∈ ns -> (forall y, ~ owns x c y n) -> owns x' c owner n.
  Proof.
    intros Hw Hr Hlen E n Hn Hno. unfold mint_bridged in E. destruct ns as [|n1 ns']; [inversion Hn|].
    unfold root_of in Hr. destruct (colls x !! c) as [i|] eqn:Hc; [|discriminate]. cbn in Hr. injection Hr as Hr.
    cbv zeta in E. set (fresh := List.filter _ _) in E. set (ns := n1 :: ns') in *.
    assert (Hf : forall m, m ∈ fresh <-> m ∈ ns /\ m ∉ flat (c_toks i)).
    { intros m. unfold fresh. rewrite elem_of_list_In, List.filter_In, <- elem_of_list_In, dedup_elem, sort_perm.
      rewrite negb_true_iff. rewrite <- exists_spec. destruct (token_exists _ _); intuition congruence. }
    assert (Hnd : NoDup fresh).
    { unfold fresh. apply NoDup_ListNoDup. apply List.NoDup_filter. apply NoDup_ListNoDup. apply dedup_nodup, sort_sorted. }
    assert (Hfl : N.of_nat (length fresh) <= cap).
    { assert (Hs : (length fresh <= length ns)%nat).
      { apply submseteq_length. apply NoDup_submseteq; [exact Hnd|]. intros m Hm. apply Hf. exact Hm. }
      lia. }
    destruct (N.leb_spec (N.of_nat (length fresh)) cap); [|lia].
    apply (do_mint_spec cap x c i) in E; try reflexivity; try assumption.
    - destruct E as (_ & Ho & _). apply Ho. right. split; [reflexivity|]. split; [reflexivity|].
      apply Hf. split; [exact Hn|]. intros Hin. apply own_flat in Hin. destruct Hin as [y Hy]. apply (Hno y). exists i. auto.
    - intros m Hm. apply Hf. exact Hm.
    - congruence.
  Qed.

  Lemma burn_all_spec who c ns : forall x x', WF x -> burn_all x who c ns = Ok x' ->
    WF x' /\ NoDup ns /\ (forall n, n ∈ ns -> owns x c who n) /\
    (forall d y n, owns x' d y n <-> owns x d y n /\ ~ (d = c /\ n ∈ ns)) /\
    (forall d, root_of x' d = root_of x d).
  Proof.
    induction ns as [|n ns IH]; intros x x' Hw E; cbn [burn_all] in E.
    - apply Ok_inj in E. subst x'. split; [exact Hw|]. split; [constructor|]. split; [intros n H; inversion H|].
      split; [|reflexivity]. intros d y n. rewrite elem_of_nil. tauto.
    - destruct (do_burn x who c n) as [x1|] eqn:Eb; [|discriminate]. cbn [rbind] in E.
      destruct (burn_spec x who c n x1 Hw Eb) as (Hw1 & Hown & _ & Ho & _ & _ & _ & Hr & _).
      destruct (IH _ _ Hw1 E) as (Hw' & Hnd & Hall & Ho' & Hr').
      assert (Hn : n ∉ ns).
      { intros Hin. specialize (Hall n Hin). apply Ho in Hall. rewrite decide_True in Hall by auto. exact Hall. }
      split; [exact Hw'|]. split; [constructor; assumption|]. split; [|split].
      + intros m Hm. apply elem_of_cons in Hm. destruct Hm as [->|Hm]; [exact Hown|].
        specialize (Hall m Hm). apply Ho in Hall. destruct (decide (c = c /\ m = n)); [contradiction|exact Hall].
      + intros d y m. rewrite Ho', Ho, elem_of_cons. destruct (decide (d = c /\ m = n)) as [[-> ->]|Hne]; [tauto|].
        split; [intros [H1 H2]; split; [exact H1|intros [-> [->|H3]]; tauto]|tauto].
      + intros d. rewrite Hr'. apply Hr.
  Qed.

  (** ** Invariant *)
  Record INV (s : npeg) : Prop := {
    v_wf : WF (g_nft s);
    v_inv : forall a c, g_e2r s !! a = Some c <-> g_r2e s !! c = Some a;
    v_col : forall c a, g_r2e s !! c = Some a -> root_of (g_nft s) c = Some false /\ isin (g_eth s) c;
    v_id : forall c, is_Some (root_of (g_nft s) c) -> c < g_id s;
    v_own : forall c a y n, g_r2e s !! c = Some a -> owns (g_nft s) c y n -> isin (g_held s) (a, n);
    v_blk : forall b c d ns, g_blocked s !! b = Some (c, d, ns) -> b < g_nextb s /\ NoDup ns /\
       exists a, g_r2e s !! c = Some a /\ forall n, n ∈ ns -> isin (g_held s) (a, n) /\ forall y, ~ owns (g_nft s) c y n;
    v_dis : forall b b' c d d' ns ns' n, b <> b' -> g_blocked s !! b = Some (c, d, ns) -> g_blocked s !! b' = Some (c, d', ns') ->
       n ∈ ns -> n ∉ ns'
  }.
  (** Tokens the contract holds and this chain does not know of yet. *)
  Definition Fresh (s : npeg) (P : list (N * N)) : Prop :=
    forall a n, (a, n) ∈ P -> isin (g_held s) (a, n) /\
      forall c, g_r2e s !! c = Some a -> (forall y, ~ owns (g_nft s) c y n) /\
        forall b d ns, g_blocked s !! b = Some (c, d, ns) -> n ∉ ns.

  Lemma collection_spec s dest a s1 c : INV s -> collection_for s dest a = Ok (s1, c) ->
    INV s1 /\ g_r2e s1 !! c = Some a /\ g_blocked s1 = g_blocked s /\ g_nextb s1 = g_nextb s /\ g_held s1 = g_held s /\ g_out s1 = g_out s /\
    (forall d y n, owns (g_nft s1) d y n <-> owns (g_nft s) d y n) /\
    (forall c' a', g_r2e s !! c' = Some a' -> g_r2e s1 !! c' = Some a') /\
    (forall c' a', g_r2e s1 !! c' = Some a' -> g_r2e s !! c' = Some a' \/ (a' = a /\ c' = c /\ forall y n, ~ owns (g_nft s) c y n)) /\
    (forall P, Fresh s P -> Fresh s1 P).
  Proof.
    intros Hi E. unfold NftPegModel.collection_for in E. destruct (g_e2r s !! a) as [c0|] eqn:Ea.
    - apply Ok_inj in E. injection E as <- <-. split; [exact Hi|]. split; [apply (v_inv s Hi); exact Ea|].
      repeat (split; [reflexivity|]). split; [auto|]. split; [auto|]. auto.
    - cbv zeta in E. destruct (g_id s <? max_id); [|discriminate]. cbn [ensure rbind] in E.
      destruct (create cap mint_limit (g_nft s) (g_id s) pallet 0 None dest false) as [x|] eqn:Ec; [|discriminate].
      cbn [rbind] in E. apply Ok_inj in E. injection E as <- <-.
      destruct (create_spec cap mint_limit _ _ _ _ _ _ _ _ (v_wf s Hi) Ec) as (Hw & Hnone & Ho & _ & _ & _ & Hr & Hn & _).
      assert (Ho' : forall d y n, owns x d y n <-> owns (g_nft s) d y n).
      { intros d y n. rewrite Ho. split; [intros [H|(_ & _ & H)]; [exact H|lia]|tauto]. }
      assert (Hrid : root_of x (g_id s) = Some false).
      { unfold create in Ec. repeat (apply rbind_ok in Ec; destruct Ec as (? & _ & Ec)). apply Ok_inj in Ec. subst x.
        unfold root_of, put. cbn [colls]. rewrite lookup_insert. reflexivity. }
      assert (Hlt : forall c' a', g_r2e s !! c' = Some a' -> c' < g_id s).
      { intros c' a' H. apply (v_id s Hi). destruct (v_col s Hi c' a' H) as [-> _]. eauto. }
      assert (Hnoown : forall y n, ~ owns (g_nft s) (g_id s) y n).
      { intros y n (i & Hi' & _). congruence. }
      assert (Hr2e : forall c' a', <[g_id s:=a]> (g_r2e s) !! c' = Some a' <-> (c' = g_id s /\ a' = a) \/ g_r2e s !! c' = Some a').
      { intros c' a'. rewrite lookup_insert_Some. split; [intros [[<- <-]|[_ H]]; auto|].
        intros [[-> ->]|H]; [auto|]. right. split; [|exact H]. intros <-. apply Hlt in H. lia. }
      split; [|cbn; split; [apply lookup_insert|]; repeat (split; [reflexivity|]); split; [exact Ho'|]; split; [|split]].
      + constructor; cbn [g_nft g_e2r g_r2e g_eth g_blocked g_nextb g_id g_held g_out].
        * exact Hw.
        * intros a' c'. rewrite Hr2e. destruct (decide (a = a')) as [<-|Hne].
          -- rewrite lookup_insert. split; [intros [= <-]; auto|]. intros [[-> _]|H]; [reflexivity|].
             apply (v_inv s Hi) in H. congruence.
          -- rewrite lookup_insert_ne by exact Hne. rewrite (v_inv s Hi). split; [auto|]. intros [[_ ->]|H]; [congruence|exact H].
        * intros c' a' H. apply Hr2e in H. destruct H as [[-> ->]|H].
          -- split; [exact Hrid|]. unfold isin. rewrite lookup_insert. eauto.
          -- destruct (v_col s Hi c' a' H) as [H1 H2]. pose proof (Hlt _ _ H). split.
             ++ destruct (Hr c') as [-> _]; [lia|exact H1].
             ++ unfold isin in *. rewrite lookup_insert_ne by lia. exact H2.
        * intros c' Hc'. destruct (decide (c' = g_id s)) as [->|Hne]; [lia|].
          destruct (Hr c' Hne) as [Hr' _]. rewrite Hr' in Hc'. apply (v_id s Hi) in Hc'. lia.
        * intros c' a' y n H Hown. apply Ho' in Hown. apply Hr2e in H. destruct H as [[-> ->]|H]; [exfalso; eapply Hnoown; exact Hown|].
          eapply (v_own s Hi); eassumption.
        * intros b c' d ns Hb. destruct (v_blk s Hi b c' d ns Hb) as (H1 & H2 & a' & H3 & H4). split; [exact H1|]. split; [exact H2|].
          exists a'. split; [apply Hr2e; auto|]. intros n Hn'. destruct (H4 n Hn') as [H5 H6]. split; [exact H5|].
          intros y Hy. apply Ho' in Hy. exact (H6 y Hy).
        * exact (v_dis s Hi).
      + intros c' a' H. apply Hr2e. auto.
      + intros c' a' H. apply Hr2e in H. destruct H as [[-> ->]|H]; [right|left; exact H]. auto.
      + intros P HP a' n Hin. destruct (HP a' n Hin) as [H1 H2]. split; [exact H1|]. cbn. intros c' Hc'. apply Hr2e in Hc'.
        destruct Hc' as [[-> ->]|Hc'].
        * split; [intros y Hy; apply Ho' in Hy; eapply Hnoown; exact Hy|]. intros b d ns Hb.
          destruct (v_blk s Hi b _ d ns Hb) as (_ & _ & a2 & H3 & _). apply Hlt in H3. lia.
        * destruct (H2 c' Hc') as [H3 H4]. split; [intros y Hy; apply Ho' in Hy; exact (H3 y Hy)|exact H4].
  Qed.

  Lemma mint_inv s dest c a ns x rest : INV s -> g_r2e s !! c = Some a -> Fresh s (pairs ((a, ns) :: rest)) ->
    NoDup (pairs ((a, ns) :: rest)) -> mint_bridged cap (g_nft s) dest c ns = Ok x ->
    INV (g_with_nft s x) /\ Fresh (g_with_nft s x) (pairs rest).
  Proof.
    intros Hi Hc HF Hnd E. destruct (v_col s Hi c a Hc) as [Hroot _].
    destruct (bridge_spec cap (g_nft s) dest c ns x (v_wf s Hi)) as (Hw & (fr & Ho & Hfr) & _ & _ & _ & Hr & _); [congruence|exact E|].
    apply pairs_nodup_cons in Hnd. destruct Hnd as (Hndns & Hsep & Hndr).
    assert (HFa : forall n, n ∈ ns -> isin (g_held s) (a, n) /\ (forall y, ~ owns (g_nft s) c y n) /\
              forall b d ns', g_blocked s !! b = Some (c, d, ns') -> n ∉ ns').
    { intros n Hn. destruct (HF a n) as [H1 H2]; [rewrite pairs_cons; apply elem_of_app; left; apply pair_elem; auto|].
      destruct (H2 c Hc) as [H3 H4]. auto. }
    split.
    - constructor; cbn [g_with_nft g_nft g_e2r g_r2e g_eth g_blocked g_nextb g_id g_held g_out].
      + exact Hw.
      + exact (v_inv s Hi).
      + intros c' a' H. destruct (v_col s Hi c' a' H) as [H1 H2]. destruct (Hr c') as [-> _]. auto.
      + intros c' H. destruct (Hr c') as [Hr' _]. rewrite Hr' in H. apply (v_id s Hi). exact H.
      + intros c' a' y n H Hown. apply Ho in Hown. destruct Hown as [Hown|(-> & -> & Hn)]; [eapply (v_own s Hi); eassumption|].
        assert (a' = a) by congruence. subst a'. apply HFa, Hfr, Hn.
      + intros b c' d ns' Hb. destruct (v_blk s Hi b c' d ns' Hb) as (H1 & H2 & a' & H3 & H4). split; [exact H1|]. split; [exact H2|].
        exists a'. split; [exact H3|]. intros n Hn. destruct (H4 n Hn) as [H5 H6]. split; [exact H5|].
        intros y Hy. apply Ho in Hy. destruct Hy as [Hy|(-> & -> & Hf)]; [exact (H6 y Hy)|].
        apply Hfr in Hf. destruct Hf as [Hf _]. destruct (HFa n Hf) as (_ & _ & H7). exact (H7 b d ns' Hb Hn).
      + exact (v_dis s Hi).
    - intros a' n Hin. destruct (HF a' n) as [H1 H2]; [rewrite pairs_cons; apply elem_of_app; right; exact Hin|].
      split; [exact H1|]. cbn. intros c' Hc'. destruct (H2 c' Hc') as [H3 H4]. split; [|exact H4].
      intros y Hy. apply Ho in Hy. destruct Hy as [Hy|(-> & -> & Hf)]; [exact (H3 y Hy)|].
      assert (a' = a) by congruence. subst a'. apply Hfr in Hf. exact (Hsep n (proj1 Hf) Hin).
  Qed.

  Definition block (s : npeg) (c dest : N) (ns : list N) : npeg :=
    NPeg (g_nft s) (g_e2r s) (g_r2e s) (g_eth s) (<[g_nextb s := (c, dest, ns)]> (g_blocked s))
      ((g_nextb s + 1) mod 2 ^ 32) (g_id s) (g_held s) (g_out s).
  Lemma block_inv s dest c a ns rest : INV s -> g_nextb s + 1 < 2 ^ 32 -> g_r2e s !! c = Some a -> Fresh s (pairs ((a, ns) :: rest)) ->
    NoDup (pairs ((a, ns) :: rest)) -> INV (block s c dest ns).
  Proof.
    intros Hi Hroom Hc HF Hnd. apply pairs_nodup_cons in Hnd. destruct Hnd as (Hndns & Hsep & Hndr).
    assert (HFa : forall n, n ∈ ns -> isin (g_held s) (a, n) /\ (forall y, ~ owns (g_nft s) c y n) /\
              forall b d ns', g_blocked s !! b = Some (c, d, ns') -> n ∉ ns').
    { intros n Hn. destruct (HF a n) as [H1 H2]; [rewrite pairs_cons; apply elem_of_app; left; apply pair_elem; auto|].
      destruct (H2 c Hc) as [H3 H4]. auto. }
    constructor; cbn [block g_nft g_e2r g_r2e g_eth g_blocked g_nextb g_id g_held g_out].
    - exact (v_wf s Hi).
    - exact (v_inv s Hi).
    - exact (v_col s Hi).
    - exact (v_id s Hi).
    - exact (v_own s Hi).
    - intros b c' d ns' Hb. rewrite N.mod_small by exact Hroom. apply lookup_insert_Some in Hb. destruct Hb as [[<- [= <- <- <-]]|[Hne Hb]].
      + split; [lia|]. split; [exact Hndns|]. exists a. split; [exact Hc|]. intros n Hn. destruct (HFa n Hn) as (H1 & H2 & _). auto.
      + destruct (v_blk s Hi b c' d ns' Hb) as (H1 & H2 & H3). split; [lia|]. auto.
    - intros b b' c' d d' ns' ns'' n Hne Hb Hb' Hn. apply lookup_insert_Some in Hb, Hb'.
      destruct Hb as [[<- [= <- <- <-]]|[Hneb Hb]]; destruct Hb' as [[<- E]|[Hneb' Hb']].
      + congruence.
      + destruct (HFa n Hn) as (_ & _ & H). eapply H. exact Hb'.
      + injection E as -> -> ->. intros Hn'. destruct (HFa n Hn') as (_ & _ & H). exact (H b d ns' Hb Hn).
      + exact (v_dis s Hi b b' c' d d' ns' ns'' n Hne Hb Hb' Hn).
  Qed.

  (** Processing a deposit keeps the invariant, and accounts for a prefix of the groups: all of
      them when it ends well, otherwise up to the blocked one, or up to one for which no
      collection could be made. *)
  Definition settled (s' : npeg) (dest : N) (P : list (N * N)) : Prop :=
    forall a n, (a, n) ∈ P -> exists c, g_e2r s' !! a = Some c /\
      (owns (g_nft s') c dest n \/ exists id ns, g_blocked s' !! id = Some (c, dest, ns) /\ n ∈ ns).
  Lemma deposit_inv dest groups : forall s s' ok, INV s -> g_nextb s + 1 < 2 ^ 32 ->
    Fresh s (pairs groups) -> NoDup (pairs groups) -> do_deposit s dest groups = (s', ok) ->
    (Forall (fun g => N.of_nat (length (snd g)) <= cap /\ N.of_nat (length (snd g)) <= max_ser) groups ->
     exists pre post, groups = pre ++ post /\ settled s' dest (pairs pre) /\ (ok = true -> post = []) /\
       (post <> [] -> (exists id g, last pre = Some g /\ exists c, g_blocked s' !! id = Some (c, dest, snd g) /\ g_r2e s' !! c = Some (fst g))
                      \/ exists a, ~ is_Some (g_e2r s' !! a) /\ head post = Some (a, default [] (snd <$> head post)))) /\
    INV s' /\ g_out s' = g_out s /\ g_held s' = g_held s /\ g_nextb s <= g_nextb s' /\
    (forall d y n, owns (g_nft s) d y n -> owns (g_nft s') d y n) /\
    (forall c a, g_r2e s !! c = Some a -> g_r2e s' !! c = Some a) /\
    (forall b v, g_blocked s !! b = Some v -> g_blocked s' !! b = Some v).
  Proof.
    induction groups as [|[a ns] rest IH]; intros s s' ok Hi Hroom HF Hnd E; cbn [NftPegModel.do_deposit] in E.
    - injection E as <- <-. split.
      { intros _. exists [], []. split; [reflexivity|]. split; [intros a n H; inversion H|]. split; [reflexivity|congruence]. }
      split; [exact Hi|]. split; [reflexivity|]. split; [reflexivity|]. split; [lia|]. auto.
    - destruct (collection_for s dest a) as [[s1 c]|e] eqn:Ec.
      2:{ injection E as <- <-. split.
          { intros _. exists [], ((a, ns) :: rest). split; [reflexivity|]. split; [intros a' n H; inversion H|]. split; [discriminate|].
            intros _. right. exists a. split; [|reflexivity]. intros [c Hc]. unfold NftPegModel.collection_for in Ec. rewrite Hc in Ec. discriminate. }
          split; [exact Hi|]. split; [reflexivity|]. split; [reflexivity|]. split; [lia|]. auto. }
      destruct (collection_spec s dest a s1 c Hi Ec) as (Hi1 & Hc & Hb1 & Hnb1 & Hh1 & Ho1 & Hown1 & Hmono1 & _ & HF1).
      apply HF1 in HF. rewrite <- Hnb1 in Hroom.
      destruct (mint_bridged cap (g_nft s1) dest c ns) as [x|e] eqn:Em.
      + destruct (mint_inv s1 dest c a ns x rest Hi1 Hc HF Hnd Em) as [Hi2 HF2].
        pose proof (proj2 (proj2 (proj1 (pairs_nodup_cons _ _ _) Hnd))) as Hnd2.
        destruct (IH (g_with_nft s1 x) s' ok Hi2 Hroom HF2 Hnd2 E) as (Hset & Hi' & Hout & Hheld & Hnb & Hmo & Hmr & Hmb).
        destruct (v_col s1 Hi1 c a Hc) as [Hroot _].
        destruct (bridge_spec cap (g_nft s1) dest c ns x (v_wf s1 Hi1)) as (_ & (fr & Hox & _) & _); [congruence|exact Em|].
        split; [|split; [exact Hi'|]]. 
        * intros Hall. apply Forall_cons in Hall. destruct Hall as [[Hcap _] Hall]. destruct (Hset Hall) as (pre & post & -> & Hs & Hok & Hpost).
          exists ((a, ns) :: pre), post. split; [reflexivity|]. split; [|split; [exact Hok|]].
          -- intros a' n Hin. rewrite pairs_cons in Hin. apply elem_of_app in Hin. destruct Hin as [Hin|Hin]; [|exact (Hs a' n Hin)].
             apply pair_elem in Hin. destruct Hin as [-> Hn]. exists c. split; [apply (v_inv s' Hi'), Hmr; exact Hc|]. left.
             apply Hmo. cbn. eapply bridge_all; [exact (v_wf s1 Hi1)|exact Hroot|exact Hcap|exact Em|exact Hn|].
             destruct (HF a n) as [_ H2]; [rewrite pairs_cons; apply elem_of_app; left; apply pair_elem; auto|]. apply (H2 c Hc).
          -- intros Hp. destruct (Hpost Hp) as [(id & g & Hlast & H)|H]; [left|right; exact H]. exists id, g. split; [|exact H].
             destruct pre; [discriminate|exact Hlast].
        * cbn in Hout, Hheld, Hnb. split; [congruence|]. split; [congruence|]. split; [rewrite <- Hnb1; exact Hnb|]. split; [|split].
          -- intros d y n Hy. apply Hmo. cbn. apply Hox. left. apply Hown1. exact Hy.
          -- intros c' a' H. apply Hmr. cbn. apply Hmono1. exact H.
          -- intros b v Hv. apply Hmb. cbn. rewrite Hb1. exact Hv.
      + destruct (N.leb_spec (N.of_nat (length ns)) max_ser) as [Hle|Hgt].
        2:{ injection E as <- <-. split.
            { intros Hall. apply Forall_cons in Hall. cbn [snd] in Hall. lia. }
            split; [exact Hi1|]. split; [congruence|]. split; [congruence|]. split; [lia|]. split; [intros d y n Hy; apply Hown1; exact Hy|].
            split; [exact Hmono1|]. rewrite Hb1. auto. }
        injection E as <- <-. fold (block s1 c dest ns).
        pose proof (block_inv s1 dest c a ns rest Hi1 Hroom Hc HF Hnd) as Hi2.
        assert (Hself : g_blocked (block s1 c dest ns) !! g_nextb s1 = Some (c, dest, ns)) by (cbn; apply lookup_insert).
        split; [|split; [exact Hi2|]].
        * intros _. exists [(a, ns)], rest. split; [reflexivity|]. split; [|split; [discriminate|]].
          -- intros a' n Hin. rewrite pairs_cons in Hin. cbn [pairs flat_map] in Hin. rewrite app_nil_r in Hin.
             apply pair_elem in Hin. destruct Hin as [-> Hn]. exists c. split; [apply (v_inv _ Hi2); exact Hc|]. right. eauto.
          -- intros _. left. exists (g_nextb s1), (a, ns). split; [reflexivity|]. exists c. split; [exact Hself|exact Hc].
        * cbn. split; [congruence|]. split; [congruence|]. split; [rewrite N.mod_small by exact Hroom; lia|]. split; [|split].
          -- intros d y n Hy. apply Hown1. exact Hy.
          -- exact Hmono1.
          -- intros b v Hv. rewrite lookup_insert_ne; [rewrite Hb1; exact Hv|]. intros <-.
             destruct v as [[c' d'] ns']. destruct (v_blk s Hi _ c' d' ns' Hv) as [H _]. lia.
  Qed.

  (** Withdrawal. *)
  Lemma withdraw_spec who l : forall s s' m, INV s -> withdraw_loop s who l = Ok (s', m) ->
    WF (g_nft s') /\ s' = g_with_nft s (g_nft s') /\
    NoDup (pairs l) /\ (forall c n, (c, n) ∈ pairs l -> owns (g_nft s) c who n) /\
    (forall d y n, owns (g_nft s') d y n <-> owns (g_nft s) d y n /\ (d, n) ∉ pairs l) /\
    (forall d, root_of (g_nft s') d = root_of (g_nft s) d) /\
    Forall2 (fun g h => g_r2e s !! (fst g) = Some (fst h) /\ snd g = snd h) l m.
  Proof.
    assert (Hstep : forall s x, INV s -> WF x -> (forall d y n, owns x d y n -> owns (g_nft s) d y n) ->
       (forall d, root_of x d = root_of (g_nft s) d) -> INV (g_with_nft s x)).
    { intros s x Hi Hw Ho Hr. constructor; cbn.
      - exact Hw.
      - exact (v_inv s Hi).
      - intros c a H. rewrite Hr. exact (v_col s Hi c a H).
      - intros c H. rewrite Hr in H. exact (v_id s Hi c H).
      - intros c a y n H Hy. eapply (v_own s Hi); [exact H|apply Ho; exact Hy].
      - intros b c d ns Hb. destruct (v_blk s Hi b c d ns Hb) as (H1 & H2 & a & H3 & H4). split; [exact H1|]. split; [exact H2|].
        exists a. split; [exact H3|]. intros n Hn. destruct (H4 n Hn) as [H5 H6]. split; [exact H5|]. intros y Hy. apply (H6 y), Ho, Hy.
      - exact (v_dis s Hi). }
    induction l as [|[c ns] rest IH]; intros s s' m Hi E; cbn [withdraw_loop] in E.
    - apply Ok_inj in E. injection E as <- <-. split; [exact (v_wf s Hi)|]. split; [destruct s; reflexivity|]. split; [constructor|].
      split; [intros c n H; inversion H|]. split; [|split; [reflexivity|constructor]].
      intros d y n. cbn. rewrite elem_of_nil. tauto.
    - destruct (bool_decide (is_Some (colls (g_nft s) !! c))); [|discriminate]. cbn [ensure rbind] in E.
      destruct (bool_decide (is_Some (g_eth s !! c))); [|discriminate]. cbn [ensure rbind] in E.
      destruct (burn_all (g_nft s) who c ns) as [x|] eqn:Eb; [|discriminate]. cbn [rbind] in E.
      destruct (g_r2e s !! c) as [a|] eqn:Ea; [|discriminate]. cbn [of_opt rbind] in E.
      destruct (withdraw_loop (g_with_nft s x) who rest) as [[s2 m2]|] eqn:El; [|discriminate]. cbn [rbind fst snd] in E.
      apply Ok_inj in E. injection E as <- <-.
      destruct (burn_all_spec who c ns _ _ (v_wf s Hi) Eb) as (Hw & Hnd & Hall & Ho & Hr).
      assert (Hi1 : INV (g_with_nft s x)). { apply Hstep; [exact Hi|exact Hw| |exact Hr]. intros d y n Hy. apply Ho in Hy. apply Hy. }
      destruct (IH _ _ _ Hi1 El) as (Hw2 & Hs2 & Hnd2 & Hall2 & Ho2 & Hr2 & HF2).
      split; [exact Hw2|]. split; [rewrite Hs2; reflexivity|]. split; [|split; [|split; [|split]]].
      + apply pairs_nodup_cons. split; [exact Hnd|]. split; [|exact Hnd2]. intros n Hn Hin. apply Hall2 in Hin. cbn in Hin. apply Ho in Hin. tauto.
      + intros c' n Hin. rewrite pairs_cons in Hin. apply elem_of_app in Hin. destruct Hin as [Hin|Hin].
        * apply pair_elem in Hin. destruct Hin as [-> Hn]. apply Hall, Hn.
        * apply Hall2 in Hin. cbn in Hin. apply Ho in Hin. apply Hin.
      + intros d y n. rewrite Ho2. cbn [g_with_nft g_nft]. rewrite Ho, pairs_cons, elem_of_app, pair_elem. tauto.
      + intros d. rewrite Hr2. cbn. apply Hr.
      + constructor; [split; [exact Ea|reflexivity]|exact HF2].
  Qed.

  (** The tokens named in a message, seen from both sides. *)
  Lemma names_pairs (r2e : gmap N N) l m : Forall2 (fun g h => r2e !! (fst g) = Some (fst h) /\ snd g = snd h) l m ->
    (forall a n, (a, n) ∈ pairs m <-> exists c, r2e !! c = Some a /\ (c, n) ∈ pairs l) /\
    ((forall c c' a, r2e !! c = Some a -> r2e !! c' = Some a -> c = c') -> NoDup (pairs l) -> NoDup (pairs m)).
  Proof.
    induction 1 as [|[c ns] [a ns'] l m [Ha Hns] Hf [IH1 IH2]]; cbn [fst snd] in *.
    - split; [|intros _ _; constructor]. intros a n. cbn. split; [intros H; inversion H|]. intros (c & _ & H). inversion H.
    - subst ns'. split.
      + intros b n. rewrite !pairs_cons, !elem_of_app, pair_elem, IH1. split.
        * intros [[-> Hn]|(c' & H1 & H2)]; [exists c|exists c']; (split; [assumption|]); rewrite elem_of_app, pair_elem; auto.
        * intros (c' & H1 & H2). rewrite elem_of_app, pair_elem in H2. destruct H2 as [[-> Hn]|H2]; [left; split; congruence|right; eauto].
      + intros Hinj Hnd. apply pairs_nodup_cons in Hnd. destruct Hnd as (H1 & H2 & H3). apply pairs_nodup_cons.
        split; [exact H1|]. split; [|exact (IH2 Hinj H3)]. intros n Hn Hin. apply IH1 in Hin. destruct Hin as (c' & H4 & H5).
        assert (c' = c) by (eapply Hinj; eassumption). subst c'. exact (H2 n Hn H5).
  Qed.
  Lemma r2e_inj s : INV s -> forall c c' a, g_r2e s !! c = Some a -> g_r2e s !! c' = Some a -> c = c'.
  Proof. intros Hi c c' a H1 H2. apply (v_inv s Hi) in H1, H2. congruence. Qed.

  (** What a withdrawal releases is held, and the invariant survives. *)
  Lemma withdraw_inv s who l s1 m dest : INV s -> withdraw_loop s who l = Ok (s1, m) ->
    INV (release s1 m dest) /\ NoDup (pairs m) /\ (forall k, k ∈ pairs m -> isin (g_held s) k).
  Proof.
    intros Hi E. destruct (withdraw_spec who l s s1 m Hi E) as (Hw & Hs1 & Hnd & Hall & Ho & Hr & HF).
    destruct (names_pairs _ _ _ HF) as [Hnm Hnn].
    assert (Hheld : forall k, k ∈ pairs m -> isin (g_held s) k).
    { intros [a n] Hk. apply Hnm in Hk. destruct Hk as (c & Hc & Hk). eapply (v_own s Hi); [exact Hc|apply Hall; exact Hk]. }
    split; [|split; [apply Hnn; [exact (r2e_inj s Hi)|exact Hnd]|exact Hheld]].
    rewrite Hs1. set (x := g_nft s1) in *. clearbody x.
    constructor; cbn [release g_with_nft g_nft g_e2r g_r2e g_eth g_blocked g_nextb g_id g_held g_out].
    - exact Hw.
    - exact (v_inv s Hi).
    - intros c a H. rewrite Hr. exact (v_col s Hi c a H).
    - intros c H. rewrite Hr in H. exact (v_id s Hi c H).
    - intros c a y n H Hy. apply Ho in Hy. destruct Hy as [Hy Hn]. apply drop_spec. split; [eapply (v_own s Hi); eassumption|].
      intros Hk. apply Hnm in Hk. destruct Hk as (c' & Hc' & Hk). assert (c' = c) by (eapply (r2e_inj s Hi); eassumption). subst c'. exact (Hn Hk).
    - intros b c d ns Hb. destruct (v_blk s Hi b c d ns Hb) as (H1 & H2 & a & H3 & H4). split; [exact H1|]. split; [exact H2|].
      exists a. split; [exact H3|]. intros n Hn. destruct (H4 n Hn) as [H5 H6]. split.
      + apply drop_spec. split; [exact H5|]. intros Hk. apply Hnm in Hk. destruct Hk as (c' & Hc' & Hk).
        assert (c' = c) by (eapply (r2e_inj s Hi); eassumption). subst c'. apply (H6 who), Hall, Hk.
      + intros y Hy. apply Ho in Hy. apply (H6 y), Hy.
    - exact (v_dis s Hi).
  Qed.

  (** Reclaiming. *)
  Lemma reclaim_spec s who id dest s' : reclaim s who id dest = Ok s' ->
    exists c ns a, g_blocked s !! id = Some (c, who, ns) /\ g_r2e s !! c = Some a /\
      g_out s' = g_out s ++ [([(a, ns)], dest)] /\ g_blocked s' = delete id (g_blocked s) /\ g_nft s' = g_nft s /\
      g_e2r s' = g_e2r s /\ g_r2e s' = g_r2e s /\ g_eth s' = g_eth s /\ g_nextb s' = g_nextb s /\ g_id s' = g_id s /\
      g_held s' = fold_left (fun h k => delete k h) (pairs [(a, ns)]) (g_held s).
  Proof.
    unfold reclaim. intros E. destruct (g_blocked s !! id) as [[[c d] ns]|] eqn:Eb; [|discriminate]. cbn [of_opt rbind] in E.
    destruct (N.eqb_spec d who) as [->|]; [|discriminate]. cbn [ensure rbind] in E.
    destruct (bool_decide _); [|discriminate]. cbn [ensure rbind] in E. destruct (bool_decide _); [|discriminate]. cbn [ensure rbind] in E.
    destruct (g_r2e s !! c) as [a|] eqn:Ea; [|discriminate]. cbn [of_opt rbind] in E. apply Ok_inj in E. subst s'.
    exists c, ns, a. split; [reflexivity|]. split; [exact Ea|]. repeat (split; [reflexivity|]). reflexivity.
  Qed.
  Lemma reclaim_inv s who id dest s' : INV s -> reclaim s who id dest = Ok s' ->
    INV s' /\ exists m, g_out s' = g_out s ++ [(m, dest)] /\ NoDup (pairs m) /\ forall k, k ∈ pairs m -> isin (g_held s) k.
  Proof.
    intros Hi E. destruct (reclaim_spec _ _ _ _ _ E) as (c & ns & a & Hb & Ha & Hout & Hbl & Hnft & He & Hr & Heth & Hnb & Hid & Hh).
    destruct (v_blk s Hi id c who ns Hb) as (H1 & H2 & a' & H3 & H4). assert (a' = a) by congruence. subst a'.
    assert (Hpm : forall b n, (b, n) ∈ pairs [(a, ns)] <-> b = a /\ n ∈ ns).
    { intros b n. rewrite pairs_cons. cbn [pairs flat_map]. rewrite app_nil_r. apply pair_elem. }
    split.
    - constructor; rewrite ?Hnft, ?He, ?Hr, ?Heth, ?Hnb, ?Hid, ?Hbl, ?Hh.
      + exact (v_wf s Hi).
      + exact (v_inv s Hi).
      + exact (v_col s Hi).
      + exact (v_id s Hi).
      + intros c' a' y n Hc' Hy. apply drop_spec. split; [eapply (v_own s Hi); eassumption|]. intros Hk. apply Hpm in Hk.
        destruct Hk as [-> Hn]. assert (c' = c) by (eapply (r2e_inj s Hi); eassumption). subst c'. destruct (H4 n Hn) as [_ H5]. exact (H5 y Hy).
      + intros b c' d ns' Hb'. apply lookup_delete_Some in Hb'. destruct Hb' as [Hne Hb'].
        destruct (v_blk s Hi b c' d ns' Hb') as (H5 & H6 & a' & H7 & H8). split; [exact H5|]. split; [exact H6|]. exists a'. split; [exact H7|].
        intros n Hn. destruct (H8 n Hn) as [H9 H10]. split; [|exact H10]. apply drop_spec. split; [exact H9|]. intros Hk. apply Hpm in Hk.
        destruct Hk as [-> Hn']. assert (c' = c) by (eapply (r2e_inj s Hi); eassumption). subst c'.
        exact (v_dis s Hi id b c who d ns ns' n Hne Hb Hb' Hn' Hn).
      + intros b b' c' d d' ns1 ns2 n Hne Hb1 Hb2. apply lookup_delete_Some in Hb1, Hb2. eapply (v_dis s Hi); [exact Hne|apply Hb1|apply Hb2].
    - exists [(a, ns)]. split; [exact Hout|]. split.
      + apply pairs_nodup_cons. split; [exact H2|]. split; [intros n _ H; inversion H|constructor].
      + intros [b n] Hk. apply Hpm in Hk. destruct Hk as [-> Hn]. apply H4, Hn.
  Qed.

  (** Other NFT operations. *)
  Definition plain (o : nop) : Prop := match o with NCreate _ _ _ _ _ _ | NBridge _ _ _ => False | _ => True end.
  Lemma plain_step x o : WF x -> good x o -> plain o ->
    let x' := nstep cap mint_limit pallet x o in
    WF x' /\ (forall d, root_of x' d = root_of x d) /\
    (forall c y n, root_of x c = Some false -> owns x' c y n -> exists y', owns x c y' n).
  Proof.
    intros Hw Hg Hp. cbv zeta. pose proof (step_WF cap mint_limit pallet x o Hg Hw) as Hw'. split; [exact Hw'|].
    destruct (step_effect cap mint_limit pallet x o Hw Hg) as [(_ & Hq & Hr) _ _ _|c0 ns from to _ _ Hpre Hs _ _ _ Hr _|c0 n0 who _ _ _ Hs _ _ _ Hr Hop|c0 to P _ Hs _ _ _ _ _ _ _ Hop].
    - split; [intros d; apply Hr|]. intros c y n _ Hy. apply Hq in Hy. eauto.
    - split; [intros d; apply Hr|]. intros c y n _ Hy. apply Hs in Hy. destruct (decide (c = c0 /\ n ∈ ns)) as [[-> Hn]|_]; [|eauto].
      destruct (Hpre n Hn) as [Hf _]. eauto.
    - split; [intros d; apply Hr|]. intros c y n _ Hy. apply Hs in Hy. destruct (decide (c = c0 /\ n = n0)); [contradiction|eauto].
    - destruct Hop as [(? & ? & ? & ? & ->)|[(who & q & e & ->)|(? & -> & _)]]; cbn in Hp; try contradiction.
      clear Hs. unfold nstep in *. cbn [nexec] in *. destruct (NftModel.mint cap mint_limit x who c0 q to e) as [x'|] eqn:Em; cbn [commit] in *.
      + destruct (NftProofs.mint_spec cap mint_limit x who c0 q to e x' Hw Em) as (i & Hi & Hroot & _ & _ & _ & _ & Ho & _ & _ & _ & _ & Hr & _).
        split; [intros d; apply Hr|]. intros c y n Hc Hy. apply Ho in Hy. destruct Hy as [Hy|(-> & _)]; [eauto|].
        unfold root_of in Hc. rewrite Hi in Hc. cbn in Hc. congruence.
      + split; [reflexivity|]. eauto.
  Qed.

  (** Side conditions on a history: the contract reports tokens it did not hold before, each
      once, with ids below 2^32; at most 2^32 - 1 mints are blocked; bridged mints are made by
      this pallet only. *)
  Definition genuine (s : npeg) (o : pop) : Prop :=
    match o with
    | PDeposit addrs ids dest =>
        NoDup (pairs (combine addrs ids)) /\ (forall k, k ∈ pairs (combine addrs ids) -> ~ isin (g_held s) k) /\
        (forall a n, (a, n) ∈ pairs (combine addrs ids) -> n < 2 ^ 32) /\ g_nextb s + 1 < 2 ^ 32
    | PNft o => good (g_nft s) o /\ plain o
    | _ => True
    end.

  Lemma sat_ids addrs : forall ids, (forall a n, (a, n) ∈ pairs (combine addrs ids) -> n < 2 ^ 32) ->
    combine addrs (map (map (sat U32MAX)) ids) = combine addrs ids.
  Proof.
    induction addrs as [|a addrs IH]; intros [|ns ids] Hsm; try reflexivity. cbn [map combine]. f_equal.
    - f_equal. rewrite <- (map_id ns) at 2. apply map_ext_in. intros n Hn. unfold sat, U32MAX. apply N.min_l.
      assert (n < 2 ^ 32); [|lia]. apply (Hsm a). cbn [combine]. rewrite pairs_cons. apply elem_of_app. left. apply pair_elem. split; [reflexivity|apply elem_of_list_In; exact Hn].
    - apply IH. intros a' n Hin. apply (Hsm a' n). cbn [combine]. rewrite pairs_cons. apply elem_of_app. right. exact Hin.
  Qed.
  Lemma held_inv s h : INV s -> (forall k, isin (g_held s) k -> isin h k) -> INV (g_with_held s h).
  Proof.
    intros Hi Hh. constructor; cbn.
    - exact (v_wf s Hi).
    - exact (v_inv s Hi).
    - exact (v_col s Hi).
    - exact (v_id s Hi).
    - intros c a y n H Hy. apply Hh. eapply (v_own s Hi); eassumption.
    - intros b c d ns Hb. destruct (v_blk s Hi b c d ns Hb) as (H1 & H2 & a & H3 & H4). split; [exact H1|]. split; [exact H2|].
      exists a. split; [exact H3|]. intros n Hn. destruct (H4 n Hn) as [H5 H6]. auto.
    - exact (v_dis s Hi).
  Qed.
  Lemma fresh_held s P : INV s -> (forall k, k ∈ P -> ~ isin (g_held s) k) -> Fresh (g_with_held s (hold (g_held s) P)) P.
  Proof.
    intros Hi Hno a n Hin. cbn. split; [apply hold_spec; left; exact Hin|]. intros c Hc. split.
    - intros y Hy. apply (Hno (a, n) Hin). eapply (v_own s Hi); eassumption.
    - intros b d ns Hb Hn. destruct (v_blk s Hi b c d ns Hb) as (_ & _ & a' & H3 & H4). assert (a' = a) by congruence. subst a'.
      apply (Hno (a, n) Hin). apply H4, Hn.
  Qed.

  Lemma step_inv s o : genuine s o -> INV s -> INV (gstep s o).
  Proof.
    intros Hg Hi. destruct o as [addrs ids dest|who cs ns dest|who id dest|owner initial mx to root|o]; cbn [NftPegModel.gstep genuine] in *.
    - destruct Hg as (Hnd & Hno & Hsm & Hroom). unfold NftPegModel.deposit.
      assert (Hi0 : INV (g_with_held s (hold (g_held s) (pairs (combine addrs ids))))).
      { apply held_inv; [exact Hi|]. intros k Hk. apply hold_spec. auto. }
      destruct (_ && _); [|exact Hi0]. rewrite (sat_ids _ _ Hsm).
      destruct (do_deposit _ dest (combine addrs ids)) as [s' ok] eqn:E. cbn [fst].
      eapply (deposit_inv dest (combine addrs ids)); [exact Hi0|exact Hroom| |exact Hnd|exact E]. apply fresh_held; assumption.
    - unfold withdraw. destruct (_ && _); [|exact Hi]. cbn [ensure rbind]. destruct (Nat.eqb _ _); [|exact Hi]. cbn [ensure rbind].
      destruct (withdraw_loop s who (combine cs ns)) as [[s1 m]|] eqn:E; [|exact Hi]. cbn [rbind commit fst snd].
      eapply withdraw_inv; [exact Hi|exact E].
    - destruct (reclaim s who id dest) as [s'|] eqn:E; [|exact Hi]. cbn [commit]. eapply reclaim_inv; [exact Hi|exact E].
    - destruct (create cap mint_limit (g_nft s) (g_id s) owner initial mx to root) as [x|] eqn:Ec; [|exact Hi].
      destruct (create_spec cap mint_limit _ _ _ _ _ _ _ _ (v_wf s Hi) Ec) as (Hw & Hnone & Ho & _ & _ & _ & Hr & _).
      assert (Hlt : forall c' a', g_r2e s !! c' = Some a' -> c' < g_id s).
      { intros c' a' H. apply (v_id s Hi). destruct (v_col s Hi c' a' H) as [-> _]. eauto. }
      constructor; cbn.
      + exact Hw.
      + exact (v_inv s Hi).
      + intros c a H. pose proof (Hlt _ _ H). destruct (Hr c) as [-> _]; [lia|]. exact (v_col s Hi c a H).
      + intros c Hc. destruct (decide (c = g_id s)) as [->|Hne]; [lia|]. destruct (Hr c Hne) as [Hr' _]. rewrite Hr' in Hc. apply (v_id s Hi) in Hc. lia.
      + intros c a y n H Hy. pose proof (Hlt _ _ H). apply Ho in Hy. destruct Hy as [Hy|(-> & _)]; [eapply (v_own s Hi); eassumption|lia].
      + intros b c d ns Hb. destruct (v_blk s Hi b c d ns Hb) as (H1 & H2 & a & H3 & H4). split; [exact H1|]. split; [exact H2|].
        exists a. split; [exact H3|]. intros n Hn. destruct (H4 n Hn) as [H5 H6]. split; [exact H5|]. intros y Hy. apply Ho in Hy.
        destruct Hy as [Hy|(-> & _)]; [exact (H6 y Hy)|]. apply Hlt in H3. lia.
      + exact (v_dis s Hi).
    - destruct Hg as [Hg Hp]. destruct (plain_step (g_nft s) o (v_wf s Hi) Hg Hp) as (Hw & Hr & Ho). cbv zeta in *.
      set (x := nstep cap mint_limit pallet (g_nft s) o) in *. clearbody x.
      constructor; cbn.
      + exact Hw.
      + exact (v_inv s Hi).
      + intros c a H. rewrite Hr. exact (v_col s Hi c a H).
      + intros c H. rewrite Hr in H. exact (v_id s Hi c H).
      + intros c a y n H Hy. destruct (v_col s Hi c a H) as [Hroot _]. destruct (Ho c y n Hroot Hy) as [y' Hy']. eapply (v_own s Hi); eassumption.
      + intros b c d ns Hb. destruct (v_blk s Hi b c d ns Hb) as (H1 & H2 & a & H3 & H4). split; [exact H1|]. split; [exact H2|].
        exists a. split; [exact H3|]. intros n Hn. destruct (H4 n Hn) as [H5 H6]. split; [exact H5|]. intros y Hy.
        destruct (v_col s Hi c a H3) as [Hroot _]. destruct (Ho c y n Hroot Hy) as [y' Hy']. exact (H6 y' Hy').
      + exact (v_dis s Hi).
  Qed.

  Lemma init_inv : INV ginit.
  Proof.
    constructor; cbn.
    - intros c i Hc. cbn in Hc. rewrite lookup_empty in Hc. discriminate.
    - intros a c. rewrite !lookup_empty. split; discriminate.
    - intros c a H. rewrite lookup_empty in H. discriminate.
    - intros c H. apply root_exists in H. cbn in H. rewrite lookup_empty in H. destruct H; discriminate.
    - intros c a y n H. rewrite lookup_empty in H. discriminate.
    - intros b c d ns H. rewrite lookup_empty in H. discriminate.
    - intros b b' c d d' ns ns' n _ H. rewrite lookup_empty in H. discriminate.
  Qed.
  Lemma reach_inv ops : along gstep genuine ops ginit -> INV (run gstep ops ginit).
  Proof.
    intros Hal. eapply (run_along gstep genuine INV); [|exact Hal|exact init_inv].
    intros s o Hg Hi. apply step_inv; assumption.
  Qed.
End proofs.
