(** The invariant of a crowdsale's money and its preservation. *)
From Verif Require Export CrowdProofs.

(** What an NFT operation that the owner of a collection did not sign leaves alone. *)
Definition same_terms (c c' : coll) : Prop :=
  c_owner c' = c_owner c /\ c_max c' = c_max c /\ c_public c' = c_public c /\ c_root c' = c_root c /\
  c_mintable c' = c_mintable c.
Lemma same_refl c : same_terms c c.
Proof. unfold same_terms. auto. Qed.
Lemma put_look s x c y d : colls (put s x c) !! y = Some d -> (y = x /\ d = c) \/ (y <> x /\ colls s !! y = Some d).
Proof.
  unfold put. cbn [colls]. destruct (decide (x = y)) as [->|Hne].
  - rewrite lookup_insert. intros [= <-]. left. auto.
  - rewrite lookup_insert_ne by exact Hne. intros Hd. right. auto.
Qed.
Lemma put_keep s x c0 c' : colls s !! x = Some c0 -> forall y c, colls s !! y = Some c ->
  (y = x -> same_terms c0 c') -> exists d, colls (put s x c') !! y = Some d /\ same_terms c d.
Proof.
  intros E y c Ey Hs. unfold put. cbn [colls]. destruct (decide (x = y)) as [->|Hne].
  - rewrite lookup_insert. exists c'. split; [reflexivity|]. rewrite E in Ey. injection Ey as <-. auto.
  - rewrite lookup_insert_ne by exact Hne. exists c. split; [exact Ey|apply same_refl].
Qed.

Section keep.
  Variable cap mint_limit pallet : N.
  Let nexec := nexec cap mint_limit pallet.

  Lemma do_mint_keep s x i to ns s' c0 : colls s !! x = Some c0 -> same_terms c0 i -> do_mint cap s x i to ns = Ok s' ->
    forall y c, colls s !! y = Some c -> exists c', colls s' !! y = Some c' /\ same_terms c c'.
  Proof.
    intros E0 Hs E y c Ey. unfold do_mint in E. inv_ok. subst s'. eapply put_keep; [exact E0|exact Ey|].
    intros _. exact Hs.
  Qed.
  Lemma mint_keep s who x q to e s' : NftModel.mint cap mint_limit s who x q to e = Ok s' ->
    forall y c, colls s !! y = Some c -> exists c', colls s' !! y = Some c' /\ same_terms c c'.
  Proof.
    intros E. unfold NftModel.mint in E. inv_ok. subst s'.
    match goal with H : do_mint _ _ _ _ _ _ = _, G : colls s !! x = Some _ |- _ => eapply do_mint_keep; [exact G| |exact H] end.
    unfold same_terms. cbn. auto.
  Qed.
  Lemma nexec_keep s o s' y c : nexec s o = Ok s' -> colls s !! y = Some c ->
    nsigner o <> Some (c_owner c) -> pallet <> c_owner c ->
    exists c', colls s' !! y = Some c' /\ same_terms c c'.
  Proof.
    intros E Ey Hsig Hpal. unfold nexec, NftModel.nexec in E. destruct o; cbn [nsigner] in Hsig.
    - unfold create in E. inv_ok. subst s'. unfold put. cbn [colls].
      match goal with H : bool_decide _ = true |- _ => apply bool_decide_eq_true in H; rename H into Hid end.
      destruct (decide (id = y)) as [->|Hne]; [congruence|]. rewrite lookup_insert_ne by exact Hne. exists c. split; [exact Ey|apply same_refl].
    - eapply mint_keep; eassumption.
    - unfold mint_bridged in E. destruct ns as [|n0 ns0] eqn:En; [inv_ok; subst s'; exists c; split; [exact Ey|apply same_refl]|].
      rewrite <- En in *.
      match type of E with match ?z with _ => _ end = _ => destruct z as [i|] eqn:Ei end; [|inv_ok; subst s'; exists c; split; [exact Ey|apply same_refl]].
      match type of E with (if ?b then _ else _) = _ => destruct b end; [|inv_ok; subst s'; exists c; split; [exact Ey|apply same_refl]].
      eapply do_mint_keep; [exact Ei|apply same_refl|exact E|exact Ey].
    - unfold do_transfer in E. inv_ok. subst s'. unfold clear_appr. cbn [colls].
      match goal with H : colls s !! _ = Some ?v |- _ => apply (put_keep s _ v _ H y c Ey) end. intros _. unfold same_terms. cbn. auto.
    - unfold do_burn in E. inv_ok. subst s'. unfold clear_appr. cbn [colls].
      match goal with H : colls s !! c0 = Some ?v |- _ => apply (put_keep s c0 v _ H y c Ey) end. intros _. unfold same_terms. cbn. auto.
    - unfold transfer_from, do_transfer in E. inv_ok. subst s'. unfold clear_appr. cbn [colls].
      match goal with H : colls s !! c0 = Some ?v |- _ => apply (put_keep s c0 v _ H y c Ey) end. intros _. unfold same_terms. cbn. auto.
    - unfold burn_from, do_burn in E. inv_ok. subst s'. unfold clear_appr. cbn [colls].
      match goal with H : colls s !! c0 = Some ?v |- _ => apply (put_keep s c0 v _ H y c Ey) end. intros _. unfold same_terms. cbn. auto.
    - unfold set_max in E. inv_ok. subst s'.
      match goal with H : colls s !! c0 = Some ?v |- _ => rename v into i, H into Hi end.
      eapply put_keep; [exact Hi|exact Ey|]. intros ->. rewrite Hi in Ey. injection Ey as ->.
      match goal with H : (c_owner c =? who) = true |- _ => apply N.eqb_eq in H; congruence end.
    - unfold set_owner in E. inv_ok. subst s'.
      match goal with H : colls s !! c0 = Some ?v |- _ => rename v into i, H into Hi end.
      eapply put_keep; [exact Hi|exact Ey|]. intros ->. rewrite Hi in Ey. injection Ey as ->.
      match goal with H : (c_owner c =? who) = true |- _ => apply N.eqb_eq in H; congruence end.
    - unfold claim in E. inv_ok. subst s'.
      match goal with H : colls s !! c0 = Some ?v |- _ => rename v into i, H into Hi end.
      eapply put_keep; [exact Hi|exact Ey|]. intros ->. rewrite Hi in Ey. injection Ey as ->.
      match goal with H : (c_owner c =? pallet) = true |- _ => apply N.eqb_eq in H; congruence end.
    - unfold set_flags in E. inv_ok. subst s'.
      match goal with H : colls s !! c0 = Some ?v |- _ => rename v into i, H into Hi end.
      eapply put_keep; [exact Hi|exact Ey|]. intros ->. rewrite Hi in Ey. injection Ey as ->.
      match goal with H : (c_owner c =? who) = true |- _ => apply N.eqb_eq in H; congruence end.
    - unfold lock in E. inv_ok. subst s'. exists c. split; [exact Ey|apply same_refl].
    - inv_ok. subst s'. exists c. split; [exact Ey|apply same_refl].
    - unfold approve in E. inv_ok. subst s'. exists c. split; [exact Ey|apply same_refl].
    - unfold unapprove in E. inv_ok. subst s'. exists c. split; [exact Ey|apply same_refl].
    - unfold approve_all in E. inv_ok. subst s'. exists c. split; [exact Ey|apply same_refl].
  Qed.

End keep.

(** The terms of a sale in force: the collection belongs to the vault. *)
Definition terms (n : nft) (sid coll m : N) : Prop :=
  exists c, colls n !! coll = Some c /\ c_owner c = vault sid /\ c_max c = Some m /\ c_public c = false.

(** Invariant of one sale. *)
Definition sale_ok (l : ledger N) (na : N) (ao : gmap N N) (n : nft) (p : gmap (N * N) N) (sid : N) (i : sale) : Prop :=
  s_price i <> 0 /\ s_voucher i < na /\ s_pay i < na /\ s_pay i <> s_voucher i /\
  ao !! s_voucher i = Some (vault sid) /\ is_vault (s_admin i) = false /\
  exists m, terms n sid (s_coll i) m /\ m * UNIT <= U128MAX /\
  match s_status i with
  | Pending => s_funds i = 0 /\ psum p sid = 0 /\ (forall who, p !! (sid, who) = None) /\
               m * UNIT <= balance l (s_voucher i) (vault sid)
  | Enabled _ => psum p sid = s_funds i /\ s_funds i <= balance l (s_pay i) (vault sid) /\
                 s_funds i * UNIT <= U128MAX /\
                 m * UNIT <= balance l (s_voucher i) (vault sid)
  | Distributing _ | DistFailed =>
      0 < s_funds i <= U128MAX /\ psum p sid <= s_funds i /\
      dsum p sid (s_price i) (s_funds i) m <= balance l (s_voucher i) (vault sid)
  | Ended => forall who, p !! (sid, who) = None
  end.

Definition MI (s : cs) : Prop :=
  books (led s) /\
  (forall a, next_asset s <= a -> issuance (led s) a = 0 /\ a_owner s !! a = None) /\
  (forall sid i, sales s !! sid = Some i -> sid < next_sale s) /\
  (forall sid who c, parts s !! (sid, who) = Some c -> is_vault who = false /\ 0 < c /\ is_Some (sales s !! sid)) /\
  (forall sid i, sales s !! sid = Some i -> sale_ok (led s) (next_asset s) (a_owner s) (nfts s) (parts s) sid i).

(** What the invariant needs of an operation: no burning of what a vault holds by the asset's
    owner, and the sums raised stay within u128 when scaled by a million. *)
Definition good (s : cs) (o : cop) : Prop :=
  match o with
  | CPart who sid amt => match sales s !! sid with Some i => (s_funds i + amt) * UNIT <= U128MAX | None => True end
  | CBurn who a from v => is_vault from = false
  | _ => True
  end.

Lemma terms_keep n n' sid x m : (forall y c, colls n !! y = Some c -> c_owner c = vault sid -> exists c', colls n' !! y = Some c' /\ same_terms c c') ->
  terms n sid x m -> terms n' sid x m.
Proof.
  intros Hk (c & Hc & Ho & Hm & Hp). destruct (Hk x c Hc Ho) as (c' & Hc' & (K1 & K2 & K3 & _)). exists c'. split; [exact Hc'|]. split; [congruence|]. split; congruence.
Qed.
Lemma sale_frame l na ao n p l' na' ao' n' p' sid i :
  sale_ok l na ao n p sid i ->
  (forall a, balance l a (vault sid) <= balance l' a (vault sid)) ->
  na <= na' -> (forall a, ao !! a = Some (vault sid) -> ao' !! a = Some (vault sid)) ->
  (forall y c, colls n !! y = Some c -> c_owner c = vault sid -> exists c', colls n' !! y = Some c' /\ same_terms c c') ->
  (forall who, p' !! (sid, who) = p !! (sid, who)) ->
  sale_ok l' na' ao' n' p' sid i.
Proof.
  intros (H1 & H2 & H3 & H4 & H5 & H6 & m & Hm & Hmu & Hst) Hb Hna Hao Hn Hp.
  unfold sale_ok. split; [exact H1|]. split; [lia|]. split; [lia|]. split; [exact H4|]. split; [auto|]. split; [exact H6|].
  exists m. split; [eapply terms_keep; eassumption|]. split; [exact Hmu|].
  pose proof (psum_ext p p' sid Hp) as Hps. pose proof (Hb (s_voucher i)) as Hbv. pose proof (Hb (s_pay i)) as Hbp.
  rewrite Hps, (dsum_ext p p' sid _ _ _ Hp). clear H1 H2 H3 H4 H5.
  destruct (s_status i); try (intuition (try lia); rewrite ?Hp; auto).
Qed.

Lemma colls_refl (n : nft) sid : forall y c, colls n !! y = Some c -> c_owner c = vault sid -> exists c', colls n !! y = Some c' /\ same_terms c c'.
Proof. intros y c E _. exists c. split; [exact E|apply same_refl]. Qed.

(** Frames for a change of ledger only, and for a change of sale record. *)
Lemma MI_led s l : MI s -> books l -> (forall a, next_asset s <= a -> issuance l a = 0) ->
  (forall sid a, balance (led s) a (vault sid) <= balance l a (vault sid)) -> MI (set_led s l).
Proof.
  intros (M1 & M2 & M3 & M4 & M5) Hb Hi Hv. split; [exact Hb|]. split; [intros a Ha; split; [auto|apply M2; exact Ha]|].
  split; [exact M3|]. split; [exact M4|]. intros sid i E. cbn in *. eapply sale_frame; [apply M5; exact E|..]; auto; try lia. apply colls_refl.
Qed.
Lemma issuance_transfer_fresh s l a from to v b : MI s -> transfer (led s) a from to v = Ok l -> next_asset s <= b -> issuance l b = 0.
Proof. intros (_ & M2 & _) Ht Hb. rewrite (transfer_issuance _ _ _ _ _ _ b Ht). apply M2. exact Hb. Qed.

Lemma MI_send s a from to v l : MI s -> is_vault from = false -> transfer (led s) a from to v = Ok l -> MI (set_led s l).
Proof.
  intros HM Hf Ht. apply MI_led; [exact HM|eapply transfer_books; [exact Ht|apply HM]|..].
  - intros b Hb. eapply issuance_transfer_fresh; eassumption.
  - intros sid b. apply LedgerProofs.transfer_spec in Ht. destruct Ht as (_ & _ & Hb). specialize (Hb b (vault sid)).
    destruct (decide ((a, from) = (b, vault sid))) as [E|]; [|destruct (decide _); lia].
    injection E as _ E. exfalso. eapply user_not_vault; eassumption.
Qed.

Lemma bal_fresh s a x : MI s -> next_asset s <= a -> balance (led s) a x = 0.
Proof.
  intros (M1 & M2 & _) Ha. pose proof (balance_le_total (led s) a x). destruct (M1 a) as [E _].
  destruct (M2 a Ha) as [E2 _]. lia.
Qed.

Lemma set_owner_keep s who x new s' sid : is_vault who = false -> set_owner s who x new = Ok s' ->
  forall y c, colls s !! y = Some c -> c_owner c = vault sid -> exists c', colls s' !! y = Some c' /\ same_terms c c'.
Proof.
  intros Hw E y c Ey Ho. apply (nexec_keep 0 0 0 s (NSetOwner who x new) s' y c E Ey).
  - cbn. rewrite Ho. intros [= ->]. rewrite vault_is in Hw. discriminate.
  - rewrite Ho. apply user_not_vault. reflexivity.
Qed.

Lemma init_MI max_dur s who pay coll price dur s' : MI s -> is_vault who = false ->
  initialize max_dur s who pay coll price dur = Ok s' -> MI s'.
Proof.
  intros HM Hw E. unfold initialize in E. cbv zeta in E. inv_ok.
  match goal with H : set_owner _ _ _ _ = Ok ?x |- _ => rename H into Ho, x into n end.
  match goal with H : colls (nfts s) !! coll = Some ?x |- _ => rename H into Hc, x into c end.
  match goal with H : c_max c = Some ?x |- _ => rename H into Hm, x into m end.
  match goal with H : context [create_voucher _ _ _] |- _ => unfold create_voucher in H; cbv zeta in H; rename H into Hcv end.
  inv_ok. match goal with H : (_, _) = ?x |- _ => destruct x as [s1 voucher]; injection H as Hs1 Hv end. inv_ok.
  subst s'. cbn [set_nfts set_next_sale next_asset led] in *. subst voucher.
  match goal with H : Ledger.mint _ _ _ _ = Ok ?x |- _ => rename H into Hmint, x into l end.
  match goal with H : bool_decide _ = true |- _ => apply bool_decide_eq_true in H; rename H into Hpay end.
  match goal with H : negb (c_public c) = true |- _ => apply negb_true_iff in H; rename H into Hpub end.
  match goal with H : negb (price =? 0) = true |- _ => apply negb_true_iff, N.eqb_neq in H; rename H into Hpr end.
  match goal with H : m * UNIT <= U128MAX |- _ => rename H into Hmu end.
  set (sid := next_sale s) in *. set (a := next_asset s) in *.
  pose proof HM as (M1 & M2 & M3 & M4 & M5).
  pose proof (LedgerProofs.mint_spec _ _ _ _ _ Hmint) as (_ & Hi & Hb & _).
  assert (Hpa : pay < a).
  { destruct (N.lt_ge_cases pay a) as [|Hge]; [assumption|]. destruct (M2 pay Hge) as [_ E]. rewrite E in Hpay. destruct Hpay. discriminate. }
  subst s1.
  split; [|split; [|split; [|split]]]; cbn [set_sale set_led set_assets set_nfts set_next_sale led next_asset a_owner sales next_sale parts nfts].
  - eapply mint_books; [exact Hmint|exact M1].
  - intros b Hba. rewrite Hi. destruct (N.eqb_spec a b); [subst; lia|]. rewrite lookup_insert_ne by assumption. destruct (M2 b) as [-> ->]; [subst a; lia|]. auto.
  - intros sd i. destruct (decide (sid = sd)) as [<-|Hne]; [intros _; lia|].
    rewrite lookup_insert_ne by exact Hne. intros E. specialize (M3 sd i E). subst sid. lia.
  - intros sd w v0 E. destruct (M4 sd w v0 E) as (Hvw & Hv0 & [j Hj]). split; [exact Hvw|]. split; [exact Hv0|].
    destruct (decide (sid = sd)) as [<-|Hne]; [rewrite lookup_insert; eauto|]. rewrite lookup_insert_ne by exact Hne. eauto.
  - intros sd i E. destruct (decide (sid = sd)) as [<-|Hne].
    + rewrite lookup_insert in E. injection E as <-. unfold sale_ok. cbn.
      assert (Hnone : forall w, parts s !! (sid, w) = None).
      { intros w. destruct (parts s !! (sid, w)) as [x|] eqn:Ep; [|reflexivity]. destruct (M4 _ _ _ Ep) as (_ & _ & [j Hj]). apply M3 in Hj. subst sid. lia. }
      split; [exact Hpr|]. split; [lia|]. split; [lia|]. split; [lia|]. split; [apply lookup_insert|]. split; [exact Hw|].
      exists m. split.
      { unfold set_owner in Ho. inv_ok. subst n. match goal with H : colls (nfts s) !! coll = Some ?x |- context [with_owner ?x _] => rename x into c1 end. exists (with_owner c1 (vault sid)). unfold put. cbn [colls]. rewrite lookup_insert.
        split; [reflexivity|]. assert (c1 = c) by congruence. subst c1. cbn. auto. }
      split; [exact Hmu|]. split; [reflexivity|]. split; [apply psum_none; exact Hnone|]. split; [exact Hnone|].
      rewrite Hb. destruct (decide _) as [_|Hx]; [lia|congruence].
    + rewrite lookup_insert_ne in E by exact Hne. eapply sale_frame; [apply M5; exact E|..].
      * intros b. rewrite Hb. lia.
      * lia.
      * intros b Hbo. rewrite lookup_insert_ne; [exact Hbo|]. intros <-. destruct (M2 a) as [_ Ex]; [subst a; lia|]. congruence.
      * intros y c1 Ey Hoy. eapply set_owner_keep; eassumption.
      * reflexivity.
Qed.

(** A new record for one sale. *)
Lemma MI_sale s sid i i' p' : MI s -> sales s !! sid = Some i ->
  (forall w c, p' !! (sid, w) = Some c -> is_vault w = false /\ 0 < c) ->
  (forall sd w, sd <> sid -> p' !! (sd, w) = parts s !! (sd, w)) ->
  sale_ok (led s) (next_asset s) (a_owner s) (nfts s) p' sid i' ->
  MI (set_sale (set_parts s p') sid i').
Proof.
  intros (M1 & M2 & M3 & M4 & M5) E Hw Hp Hok. split; [exact M1|]. split; [exact M2|]. split; [|split]; cbn.
  - intros sd j. destruct (decide (sid = sd)) as [<-|Hne]; [intros _; eapply M3; exact E|]. rewrite lookup_insert_ne by exact Hne. apply M3.
  - intros sd w c Ep. destruct (decide (sid = sd)) as [<-|Hne].
    + destruct (Hw w c Ep). split; [assumption|]. split; [assumption|]. rewrite lookup_insert. eauto.
    + rewrite Hp in Ep by congruence. rewrite lookup_insert_ne by exact Hne. apply (M4 _ _ _ Ep).
  - intros sd j Ej. destruct (decide (sid = sd)) as [<-|Hne].
    + rewrite lookup_insert in Ej. injection Ej as <-. exact Hok.
    + rewrite lookup_insert_ne in Ej by exact Hne. eapply sale_frame; [apply M5; exact Ej|intros; lia|lia|auto|apply colls_refl|].
      intros w. apply Hp. congruence.
Qed.
Lemma MI_ends s e : MI s -> MI (set_ends s e).
Proof. intros H. exact H. Qed.
Lemma MI_dist s e : MI s -> MI (set_dist s e).
Proof. intros H. exact H. Qed.
Lemma MI_now s e : MI s -> MI (set_now s e).
Proof. intros H. exact H. Qed.
Lemma MI_emit s e : MI s -> MI (emit s e).
Proof. intros H. exact H. Qed.
Lemma MI_parts s : MI s -> forall sid w c, parts s !! (sid, w) = Some c -> is_vault w = false /\ 0 < c.
Proof. intros (_ & _ & _ & M4 & _) sid w c E. destruct (M4 _ _ _ E) as (H1 & H2 & _). auto. Qed.
Lemma set_parts_id s : set_parts s (parts s) = s.
Proof. destruct s. reflexivity. Qed.

Lemma enable_MI max_sales s who sid s' : MI s -> enable max_sales s who sid = Ok s' -> MI s'.
Proof.
  intros HM E. unfold enable in E. cbv zeta in E. inv_ok. subst s'.
  match goal with H : sales s !! sid = Some ?x |- _ => rename H into Hs, x into i end.
  destruct (s_status i) eqn:Est; try discriminate.
  match goal with |- MI (set_sale (set_ends s ?e) _ _) => change (MI (set_ends (set_sale s sid (with_status i (Enabled (now s)))) e)) end.
  apply MI_ends. rewrite <- (set_parts_id s) at 1. apply MI_sale with (i := i); auto.
  - apply MI_parts. exact HM.
  - pose proof HM as (_ & _ & _ & _ & M5). specialize (M5 sid i Hs). destruct M5 as (H1 & H2 & H3 & H4 & H5 & H6 & m & Hm & Hmu & Hst).
    rewrite Est in Hst. unfold sale_ok. cbn. repeat (split; [assumption|]). exists m. split; [exact Hm|]. split; [exact Hmu|].
    destruct Hst as (-> & Hp0 & _ & Hv). split; [exact Hp0|]. split; [lia|]. split; [cbn; vm_compute; discriminate|exact Hv].
Qed.

Lemma part_MI s who sid amt s' : MI s -> is_vault who = false -> good s (CPart who sid amt) -> participate s who sid amt = Ok s' -> MI s'.
Proof.
  intros HM Hw Hg E. unfold participate in E. cbv zeta in E. inv_ok. subst s'.
  match goal with H : sales s !! sid = Some ?x |- _ => rename H into Hs, x into i end.
  match goal with H : transfer _ _ _ _ _ = Ok ?x |- _ => rename H into Ht, x into l end.
  destruct (s_status i) as [|b| | |] eqn:Est; try discriminate.
  cbn [good] in Hg. rewrite Hs in Hg.
  apply MI_emit.
  match goal with |- MI (set_sale (set_parts _ ?p) _ ?j) => set (p' := p); set (j' := j) end.
  pose proof HM as (M1 & _ & _ & _ & M5). specialize (M5 sid i Hs). destruct M5 as (H1 & H2 & H3 & H4 & H5 & H6 & m & Hm & Hmu & Hst).
  rewrite Est in Hst. destruct Hst as (Hp & Hbp & Hfu & Hbv).
  pose proof (LedgerProofs.transfer_spec _ _ _ _ _ _ Ht) as (Hle & _ & Hb).
  pose proof unit_val as Hun.
  assert (Hf : sat U128MAX (s_funds i + amt) = s_funds i + amt) by (apply sat_id; nia).
  apply MI_sale with (i := i).
  - apply (MI_send s (s_pay i) who (vault sid) amt l HM Hw Ht).
  - exact Hs.
  - intros w c. unfold p'. destruct (decide (who = w)) as [<-|Hne].
    + rewrite lookup_insert. intros [= <-]. split; [exact Hw|]. destruct (parts s !! (sid, who)); [|lia]. unfold sat. assert (0 < U128MAX) by reflexivity. lia.
    + rewrite lookup_insert_ne by congruence. apply MI_parts. exact HM.
  - intros sd w Hne. unfold p'. rewrite lookup_insert_ne by congruence. reflexivity.
  - unfold sale_ok, j'. cbn. repeat (split; [assumption|]). exists m. split; [exact Hm|]. split; [exact Hmu|]. rewrite Est, Hf.
    split; [|split; [|split]].
    + pose proof (psum_insert (parts s) sid who sid (match parts s !! (sid, who) with Some c => sat U128MAX (c + amt) | None => amt end)) as Hps.
      fold p' in Hps. rewrite N.eqb_refl in Hps. destruct (parts s !! (sid, who)) as [c|] eqn:Ep; cbn in Hps; [|lia].
      pose proof (psum_part _ _ _ _ Ep). unfold id in Hps. rewrite sat_id in Hps by nia. lia.
    + specialize (Hb (s_pay i) (vault sid)). destruct (decide ((s_pay i, vault sid) = _)); [|congruence].
      destruct (decide ((s_pay i, who) = _)) as [Ex|]; [|lia]. exfalso. injection Ex. apply (user_not_vault who sid Hw).
    + exact Hg.
    + specialize (Hb (s_voucher i) (vault sid)). 
      destruct (decide ((s_pay i, who) = _)) as [Ex|]; [exfalso; injection Ex; intros; congruence|].
      destruct (decide ((s_pay i, vault sid) = _)) as [Ex|]; [exfalso; injection Ex; intros; congruence|]. lia.
Qed.

(** Closing a sale always works under the invariant. *)
Lemma close_spec max_dist s sid i b : MI s -> sales s !! sid = Some i -> s_status i = Enabled b ->
  exists l1 l2 st d, transfer (led s) (s_pay i) (vault sid) (s_admin i) (s_funds i) = Ok l1 /\
    books l2 /\ (forall a, issuance l2 a = issuance (led s) a) /\
    (forall a x, is_vault x = true -> x <> vault sid -> balance l2 a x = balance (led s) a x) /\
    (forall a x, is_vault x = false -> x <> s_admin i -> balance l2 a x = balance (led s) a x) /\
    balance l2 (s_pay i) (s_admin i) = balance (led s) (s_pay i) (s_admin i) + s_funds i /\
    balance l2 (s_pay i) (vault sid) = balance (led s) (s_pay i) (vault sid) - s_funds i /\
    (forall a, a <> s_pay i -> a <> s_voucher i -> balance l2 a (vault sid) = balance (led s) a (vault sid)) /\
    (forall m, terms (nfts s) sid (s_coll i) m ->
      (if s_funds i <? s_price i * m then s_funds i * UNIT / s_price i else m * UNIT) <= balance l2 (s_voucher i) (vault sid)) /\
    close_one max_dist s sid = set_sale (set_dist (set_led s l2) d) sid (with_status i st) /\
    ((s_funds i = 0 /\ st = Ended /\ d = dist s) \/
     (0 < s_funds i /\ st = Distributing 0 /\ d = dist s ++ [sid]) \/
     (0 < s_funds i /\ st = DistFailed /\ d = dist s)).
Proof.
  intros HM Hs Est. pose proof HM as (M1 & _ & _ & _ & M5). specialize (M5 sid i Hs). destruct M5 as (H1 & H2 & H3 & H4 & H5 & H6 & m & Hm & Hmu & Hst).
  rewrite Est in Hst. destruct Hst as (Hp & Hbp & Hfu & Hbv).
  destruct (transfer_ok (led s) (s_pay i) (vault sid) (s_admin i) (s_funds i) M1 Hbp) as [l1 Ht1].
  pose proof (transfer_books _ _ _ _ _ _ Ht1 M1) as Hb1.
  pose proof (LedgerProofs.transfer_spec _ _ _ _ _ _ Ht1) as (_ & _ & Hs1).
  pose proof (user_not_vault (s_admin i) sid H6) as Hav.
  assert (Hmax : max_of s (s_coll i) = Ok m).
  { destruct Hm as (c & Hc & _ & Hcm & _). unfold max_of. rewrite Hc. cbn [of_opt rbind]. rewrite Hcm. reflexivity. }
  assert (Htm : forall m', terms (nfts s) sid (s_coll i) m' -> m' = m).
  { intros m' (c' & Hc' & _ & Hm' & _). destruct Hm as (c & Hc & _ & Hcm & _). congruence. }
  assert (Hbv1 : balance l1 (s_voucher i) (vault sid) = balance (led s) (s_voucher i) (vault sid)).
  { specialize (Hs1 (s_voucher i) (vault sid)). destruct (decide ((s_pay i, vault sid) = _)) as [Ex|]; [exfalso; injection Ex; intros; congruence|].
    destruct (decide ((s_pay i, s_admin i) = _)) as [Ex|]; [exfalso; injection Ex; intros; congruence|]. lia. }
  set (q := s_funds i * UNIT / s_price i).
  set (refund := m * UNIT - q).
  assert (Hl2 : exists l2, (if s_funds i <? sat U128MAX (s_price i * m) then transfer l1 (s_voucher i) (vault sid) (s_admin i) refund else Ok l1) = Ok l2 /\
    books l2 /\ (forall a, issuance l2 a = issuance l1 a) /\
    (forall a x, x <> vault sid -> x <> s_admin i -> balance l2 a x = balance l1 a x) /\
    (forall x, balance l2 (s_pay i) x = balance l1 (s_pay i) x) /\
    (forall a, a <> s_voucher i -> balance l2 a (vault sid) = balance l1 a (vault sid)) /\
    (if s_funds i <? s_price i * m then q else m * UNIT) <= balance l2 (s_voucher i) (vault sid)).
  { destruct (N.ltb_spec (s_funds i) (sat U128MAX (s_price i * m))) as [Hlt|Hge].
    - assert (Hlt' : s_funds i < s_price i * m) by (unfold sat in Hlt; lia).
      destruct (transfer_ok l1 (s_voucher i) (vault sid) (s_admin i) refund Hb1) as [l2 Ht2]; [rewrite Hbv1; unfold refund; lia|].
      exists l2. split; [exact Ht2|]. split; [eapply transfer_books; eassumption|]. split; [intros a; eapply transfer_issuance; exact Ht2|].
      pose proof (LedgerProofs.transfer_spec _ _ _ _ _ _ Ht2) as (_ & _ & Hs2).
      split; [|split; [|split]].
      + intros a x Hx1 Hx2. specialize (Hs2 a x). destruct (decide _) as [Ex|]; [exfalso; injection Ex; intros; congruence|].
        destruct (decide _) as [Ex|]; [exfalso; injection Ex; intros; congruence|]. lia.
      + intros x. specialize (Hs2 (s_pay i) x). destruct (decide _) as [Ex|]; [exfalso; injection Ex; intros; congruence|].
        destruct (decide _) as [Ex|]; [exfalso; injection Ex; intros; congruence|]. lia.
      + intros a Ha. specialize (Hs2 a (vault sid)). destruct (decide _) as [Ex|]; [exfalso; injection Ex; intros; congruence|].
        destruct (decide _) as [Ex|]; [exfalso; injection Ex; intros; congruence|]. lia.
      + destruct (N.ltb_spec (s_funds i) (s_price i * m)); [|lia]. specialize (Hs2 (s_voucher i) (vault sid)).
        destruct (decide ((s_voucher i, vault sid) = _)); [|congruence]. destruct (decide _) as [Ex|]; [exfalso; injection Ex; intros; congruence|].
        assert (q <= m * UNIT). { unfold q. apply N.div_le_upper_bound; [exact H1|]. rewrite N.mul_assoc. apply N.mul_le_mono_r. lia. }
        unfold refund in Hs2. lia.
    - exists l1. split; [reflexivity|]. split; [exact Hb1|]. split; [reflexivity|]. split; [reflexivity|]. split; [reflexivity|]. split; [reflexivity|].
      destruct (N.ltb_spec (s_funds i) (s_price i * m)) as [Hlt|]; [|lia].
      rewrite Hbv1. assert (q <= m * UNIT). { unfold q. apply N.div_le_upper_bound; [exact H1|]. rewrite N.mul_assoc. apply N.mul_le_mono_r. lia. } lia. }
  destruct Hl2 as (l2 & Ht2 & Hbk & Hiss & Hoth & Hpay & Hva & Hvou).
  exists l1, l2, (if s_funds i =? 0 then Ended else if N.of_nat (length (dist s)) <? max_dist then Distributing 0 else DistFailed),
    (if s_funds i =? 0 then dist s else if N.of_nat (length (dist s)) <? max_dist then dist s ++ [sid] else dist s).
  split; [exact Ht1|]. split; [exact Hbk|]. split.
  { intros a. rewrite Hiss. eapply transfer_issuance. exact Ht1. }
  split.
  { intros a x Hx Hxv. assert (Hxa : x <> s_admin i) by congruence. rewrite Hoth by assumption. specialize (Hs1 a x). destruct (decide _) as [Ex|]; [exfalso; injection Ex; intros; congruence|].
    destruct (decide _) as [Ex|]; [exfalso; injection Ex; intros; congruence|]. lia. }
  split.
  { intros a x Hx Hxa. assert (Hxv : x <> vault sid) by (apply user_not_vault; exact Hx). rewrite Hoth by assumption. specialize (Hs1 a x). destruct (decide _) as [Ex|]; [exfalso; injection Ex; intros; congruence|].
    destruct (decide _) as [Ex|]; [exfalso; injection Ex; intros; congruence|]. lia. }
  split.
  { rewrite Hpay. specialize (Hs1 (s_pay i) (s_admin i)). destruct (decide ((s_pay i, s_admin i) = _)); [|congruence].
    destruct (decide _) as [Ex|]; [exfalso; injection Ex; intros; congruence|]. lia. }
  split.
  { rewrite Hpay. specialize (Hs1 (s_pay i) (vault sid)). destruct (decide ((s_pay i, vault sid) = _)); [|congruence].
    destruct (decide _) as [Ex|]; [exfalso; injection Ex; intros; congruence|]. lia. }
  split.
  { intros a Ha1 Ha2. rewrite Hva by exact Ha2. specialize (Hs1 a (vault sid)). destruct (decide _) as [Ex|]; [exfalso; injection Ex; intros; congruence|].
    destruct (decide _) as [Ex|]; [exfalso; injection Ex; intros; congruence|]. lia. }
  split. { intros m' Hm'. rewrite (Htm m' Hm'). exact Hvou. }
  split.
  { unfold close_one. rewrite Hs, Est, Ht1, Hmax. cbv zeta. rewrite (sat_id U128MAX (m * UNIT)) by exact Hmu. rewrite (sat_id U128MAX (s_funds i * UNIT)) by exact Hfu.
    fold q. fold refund. rewrite Ht2. destruct (s_funds i =? 0); [destruct s; reflexivity|]. destruct (N.of_nat (length (dist s)) <? max_dist); destruct s; reflexivity. }
  destruct (N.eqb_spec (s_funds i) 0); [left; auto|]. destruct (N.of_nat (length (dist s)) <? max_dist); right; [left|right]; repeat split; lia.
Qed.

Lemma close_MI max_dist s sid : MI s -> MI (close_one max_dist s sid).
Proof.
  intros HM. destruct (sales s !! sid) as [i|] eqn:Hs.
  2:{ unfold close_one. rewrite Hs. exact HM. }
  destruct (s_status i) as [|b| | |] eqn:Est.
  2:{ destruct (close_spec max_dist s sid i b HM Hs Est) as (l1 & l2 & st & d & _ & Hbk & Hiss & Hov & _ & _ & _ & Hva & Hvou & -> & Hcase).
    pose proof HM as (M1 & M2 & M3 & M4 & M5).
    pose proof (M5 sid i Hs) as (H1 & H2 & H3 & H4 & H5 & H6 & m & Hm & Hmu & Hst).
    rewrite Est in Hst. destruct Hst as (Hp & Hbp & Hfu & Hbv). pose proof unit_val as Hun.
    split; [exact Hbk|]. split; [intros a Ha; cbn; rewrite Hiss; apply M2; exact Ha|]. split; [|split]; cbn.
    - intros sd j. destruct (decide (sid = sd)) as [<-|Hne]; [intros _; eapply M3; exact Hs|]. rewrite lookup_insert_ne by exact Hne. apply M3.
    - intros sd w c Ep. destruct (M4 _ _ _ Ep) as (Hw & Hc0 & [j Hj]). split; [exact Hw|]. split; [exact Hc0|].
      destruct (decide (sid = sd)) as [<-|Hne]; [rewrite lookup_insert; eauto|]. rewrite lookup_insert_ne by exact Hne. eauto.
    - intros sd j Ej. destruct (decide (sid = sd)) as [<-|Hne].
      + rewrite lookup_insert in Ej. injection Ej as <-. unfold sale_ok. cbn. repeat (split; [assumption|]). exists m. split; [exact Hm|]. split; [exact Hmu|].
        specialize (Hvou m Hm).
        assert (Hd : dsum (parts s) sid (s_price i) (s_funds i) m <= balance l2 (s_voucher i) (vault sid)).
        { etransitivity; [apply dsum_le; [exact H1|lia]|]. rewrite Hp. etransitivity; [|exact Hvou].
          destruct (N.ltb_spec (s_price i * m) (s_funds i)) as [Hlt|Hge].
          - destruct (N.ltb_spec (s_funds i) (s_price i * m)); [lia|]. apply N.div_le_upper_bound; [lia|].
            rewrite <- N.mul_assoc. apply N.mul_le_mono_l. lia.
          - destruct (N.ltb_spec (s_funds i) (s_price i * m)); [lia|]. apply N.div_le_upper_bound; [exact H1|].
            rewrite N.mul_assoc. apply N.mul_le_mono_r. lia. }
        destruct Hcase as [(Hz & -> & _)|[(Hz & -> & _)|(Hz & -> & _)]].
        * intros w. destruct (parts s !! (sid, w)) as [c|] eqn:Ep; [|reflexivity]. exfalso.
          pose proof (psum_part _ _ _ _ Ep). destruct (M4 _ _ _ Ep) as (_ & Hc0 & _). lia.
        * split; [nia|]. split; [lia|exact Hd].
        * split; [nia|]. split; [lia|exact Hd].
      + rewrite lookup_insert_ne in Ej by exact Hne. eapply sale_frame; [apply M5; exact Ej| |lia|auto|apply colls_refl|reflexivity].
        intros a. rewrite Hov; [lia|apply vault_is|]. intros Ex. apply vault_inj in Ex. congruence. }
  all: unfold close_one; rewrite Hs, Est; exact HM.
Qed.
