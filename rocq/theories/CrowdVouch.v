(** Crowdsale: the supply of vouchers and the NFTs minted for them, along any history at all. *)
From Verif Require Export CrowdLog.

(** What changes neither supplies, nor collections, nor which voucher a sale has. *)
Definition quiet (s s' : cs) : Prop :=
  (books (led s) -> books (led s')) /\ (forall a, issuance (led s') a = issuance (led s) a) /\ next_asset s' = next_asset s /\ a_owner s' = a_owner s /\
  nfts s' = nfts s /\ next_sale s' = next_sale s /\
  forall sid, option_map (fun i => (s_voucher i, s_coll i)) (sales s' !! sid) = option_map (fun i => (s_voucher i, s_coll i)) (sales s !! sid).
Lemma quiet_refl s : quiet s s.
Proof. unfold quiet. auto 10. Qed.
Lemma quiet_trans s t u : quiet s t -> quiet t u -> quiet s u.
Proof. intros (A0 & A1 & A2 & A3 & A4 & A5 & A6) (B0 & B1 & B2 & B3 & B4 & B5 & B6). unfold quiet. split; [auto|]. split; [intros a; rewrite B1; apply A1|]. split; [congruence|].
  split; [congruence|]. split; [congruence|]. split; [congruence|]. intros sid. rewrite B6. apply A6. Qed.
Lemma quiet_led s a from to v l : transfer (led s) a from to v = Ok l -> quiet s (set_led s l).
Proof. intros Ht. split; [intros Hb; cbn; eapply transfer_books; eassumption|]. split; [|unfold quiet; auto 10]. intros b. cbn. eapply transfer_issuance; exact Ht. Qed.
Lemma quiet_sale s sid i i' : sales s !! sid = Some i -> s_voucher i' = s_voucher i -> s_coll i' = s_coll i -> quiet s (set_sale s sid i').
Proof.
  intros Hs E1 E2. split; [auto|]. split; [auto|]. split; [auto|]. split; [auto|]. split; [auto|]. split; [auto|]. intros sd. cbn. destruct (decide (sid = sd)) as [<-|Hne].
  - rewrite lookup_insert, Hs. cbn. congruence.
  - rewrite lookup_insert_ne by exact Hne. reflexivity.
Qed.
Lemma quiet_sweep s sid i : quiet s (set_led s (sweep (led s) sid i)).
Proof.
  unfold sweep. destruct (0 <? _); [|unfold quiet; cbn; auto 10]. destruct (transfer _ _ _ _ _) as [l|] eqn:E; cbn [commit]; [eapply quiet_led; exact E|unfold quiet; cbn; auto 10].
Qed.
Lemma quiet_conclude s sid i given d : sales s !! sid = Some i -> quiet s (conclude s sid i given d).
Proof.
  intros Hs. destruct (conclude_cases s sid i given d) as [[_ ->]|[_ ->]].
  - eapply quiet_trans; [apply (quiet_sweep s sid i)|]. 
    apply (quiet_sale (set_led s (sweep (led s) sid i)) sid i (with_status i Ended) Hs eq_refl eq_refl).
  - eapply quiet_sale; [exact Hs|reflexivity|reflexivity].
Qed.
Lemma pay_led l sid i who c m l' v : pay_vouchers l sid i who c m = Ok (l', v) -> exists w, transfer l (s_voucher i) (vault sid) who w = Ok l'.
Proof. unfold pay_vouchers. intros E. inv_ok. cbv zeta in *. inv_ok. match goal with H : (_, _) = _ |- _ => injection H as -> _ end. eauto. Qed.
Lemma quiet_pay sid i m todo : forall s g, let r := fold_left (pay_one sid i m) todo (s, g) in quiet s (fst r) /\ sales (fst r) = sales s.
Proof.
  induction todo as [|w todo IH]; intros s g; cbn [fold_left]; [split; [apply quiet_refl|reflexivity]|].
  unfold pay_one at 2 4. destruct (parts s !! (sid, w)) as [c|]; [|apply IH].
  cbv zeta. destruct (pay_vouchers _ _ _ _ _ _) as [[l v]|] eqn:E.
  - destruct (pay_led _ _ _ _ _ _ _ _ E) as [x Hx]. cbn [set_parts led] in Hx.
    match goal with |- context [fold_left _ todo (?t, ?h)] => destruct (IH t h) as [Q Es]; set (r := fold_left _ todo _) in * end.
    split; [|exact Es]. eapply quiet_trans; [apply (quiet_led _ _ _ _ _ _ Hx)|exact Q].
  - match goal with |- context [fold_left _ todo (?t, ?h)] => destruct (IH t h) as [Q Es]; set (r := fold_left _ todo _) in * end. split; [exact Q|exact Es].
Qed.
Lemma quiet_close max_dist s sid : quiet s (close_one max_dist s sid).
Proof.
  unfold close_one. destruct (sales s !! sid) as [i|] eqn:Hs; [|apply quiet_refl]. destruct (s_status i); try apply quiet_refl.
  destruct (transfer _ _ _ _ _) as [l1|] eqn:E1; [|apply quiet_refl]. pose proof (quiet_led _ _ _ _ _ _ E1) as Q1.
  destruct (max_of _ _) as [m|]; [|exact Q1]. cbv zeta.
  assert (Q2 : forall l2, (if s_funds i <? sat U128MAX (s_price i * m) then transfer l1 (s_voucher i) (vault sid) (s_admin i)
    (sat U128MAX (m * UNIT) - sat U128MAX (s_funds i * UNIT) / s_price i) else Ok l1) = Ok l2 -> quiet s (set_led s l2)).
  { intros l2 E. destruct (_ <? _) in E; [|apply Ok_inj in E; subst l2; exact Q1]. eapply quiet_trans; [exact Q1|]. apply (quiet_led (set_led s l1) _ _ _ _ _ E). }
  destruct (if s_funds i <? _ then _ else _) as [l2|] eqn:E2; [|exact Q1]. specialize (Q2 l2 eq_refl).
  destruct (s_funds i =? 0); [|destruct (N.of_nat _ <? _)]; (eapply quiet_trans; [exact Q2|]).
  - apply (quiet_sale (set_led s l2) sid i (with_status i Ended) Hs eq_refl eq_refl).
  - apply (quiet_sale (set_led s l2) sid i (with_status i (Distributing 0)) Hs eq_refl eq_refl).
  - apply (quiet_sale (set_led s l2) sid i (with_status i DistFailed) Hs eq_refl eq_refl).
Qed.
Lemma quiet_block max_dist s : quiet s (new_block max_dist s).
Proof.
  unfold new_block. cbv zeta. destruct (ends _ !! now _) as [l|]; [|unfold quiet; cbn; auto 10].
  set (t := set_ends _ _). eapply quiet_trans with (t := t); [unfold quiet; cbn; auto 10|]. generalize t. clear. induction l as [|x l IH]; intros t; cbn [fold_left]; [apply quiet_refl|].
  eapply quiet_trans; [apply quiet_close|apply IH].
Qed.

(** NFT operations that the owner of a private collection did not sign do not advance its serials. *)
Section nxt.
  Variable cap mint_limit pallet : N.
  Lemma do_mint_next s x i to ns s' y c : do_mint cap s x i to ns = Ok s' -> colls s !! y = Some c -> (x = y -> c_next i = c_next c) ->
    exists c', colls s' !! y = Some c' /\ c_next c' = c_next c.
  Proof.
    intros E Ey Hx. unfold do_mint in E. inv_ok. subst s'. unfold put. cbn [colls]. destruct (decide (x = y)) as [->|Hne].
    - rewrite lookup_insert. eexists. split; [reflexivity|]. cbn. auto.
    - rewrite lookup_insert_ne by exact Hne. eauto.
  Qed.
  Lemma put_next s x j y c : colls s !! y = Some c -> (x = y -> c_next j = c_next c) -> exists c', colls (put s x j) !! y = Some c' /\ c_next c' = c_next c.
  Proof.
    intros Ey Hx. unfold put. cbn [colls]. destruct (decide (x = y)) as [->|Hne].
    - rewrite lookup_insert. eauto.
    - rewrite lookup_insert_ne by exact Hne. eauto.
  Qed.
  Lemma nexec_next s o s' y c : nexec cap mint_limit pallet s o = Ok s' -> colls s !! y = Some c ->
    nsigner o <> Some (c_owner c) -> c_public c = false -> exists c', colls s' !! y = Some c' /\ c_next c' = c_next c.
  Proof.
    intros E Ey Hsig Hpub. unfold nexec in E. destruct o; cbn [nsigner] in Hsig.
    - unfold create in E. inv_ok. subst s'. apply put_next; [exact Ey|]. intros ->.
      match goal with H : bool_decide _ = true |- _ => apply bool_decide_eq_true in H; congruence end.
    - unfold NftModel.mint in E. inv_ok. subst s'.
      match goal with H : do_mint _ _ _ _ _ _ = Ok _, G : colls s !! c0 = Some ?i |- _ => rename G into Hi; apply (do_mint_next _ _ _ _ _ _ y c H Ey) end.
      intros ->. rewrite Hi in Ey. injection Ey as ->. exfalso.
      match goal with H : pre_mint _ _ _ _ = Ok _ |- _ => unfold pre_mint in H end. inv_ok.
      match goal with H : (_ || _) = true |- _ => rewrite Hpub, orb_false_r in H; apply N.eqb_eq in H; congruence end.
    - unfold mint_bridged in E. destruct ns as [|n0 ns0] eqn:En; [inv_ok; subst s'; eauto|].
      rewrite <- En in *.
      match type of E with match ?z with _ => _ end = _ => destruct z as [i|] eqn:Ei end; [|inv_ok; subst s'; eauto].
      match type of E with (if ?b then _ else _) = _ => destruct b end; [|inv_ok; subst s'; eauto].
      eapply do_mint_next; [exact E|exact Ey|]. intros ->. congruence.
    - unfold do_transfer in E. inv_ok. subst s'. unfold clear_appr. cbn [colls].
      apply put_next; [exact Ey|]. intros ->. match goal with H : colls s !! y = Some ?i |- _ => assert (i = c) by congruence; subst i; reflexivity end.
    - unfold do_burn in E. inv_ok. subst s'. unfold clear_appr. cbn [colls].
      apply put_next; [exact Ey|]. intros ->. match goal with H : colls s !! y = Some ?i |- _ => assert (i = c) by congruence; subst i; reflexivity end.
    - unfold transfer_from, do_transfer in E. inv_ok. subst s'. unfold clear_appr. cbn [colls].
      apply put_next; [exact Ey|]. intros ->. match goal with H : colls s !! y = Some ?i |- _ => assert (i = c) by congruence; subst i; reflexivity end.
    - unfold burn_from, do_burn in E. inv_ok. subst s'. unfold clear_appr. cbn [colls].
      apply put_next; [exact Ey|]. intros ->. match goal with H : colls s !! y = Some ?i |- _ => assert (i = c) by congruence; subst i; reflexivity end.
    - unfold set_max in E. inv_ok. subst s'. apply put_next; [exact Ey|]. intros ->. match goal with H : colls s !! y = Some ?i |- _ => assert (i = c) by congruence; subst i; reflexivity end.
    - unfold set_owner in E. inv_ok. subst s'. apply put_next; [exact Ey|]. intros ->. match goal with H : colls s !! y = Some ?i |- _ => assert (i = c) by congruence; subst i; reflexivity end.
    - unfold claim in E. inv_ok. subst s'. apply put_next; [exact Ey|]. intros ->. match goal with H : colls s !! y = Some ?i |- _ => assert (i = c) by congruence; subst i; reflexivity end.
    - unfold set_flags in E. inv_ok. subst s'. apply put_next; [exact Ey|]. intros ->. match goal with H : colls s !! y = Some ?i |- _ => assert (i = c) by congruence; subst i; reflexivity end.
    - unfold lock in E. inv_ok. subst s'. eauto.
    - inv_ok. subst s'. eauto.
    - unfold approve in E. inv_ok. subst s'. eauto.
    - unfold unapprove in E. inv_ok. subst s'. eauto.
    - unfold approve_all in E. inv_ok. subst s'. eauto.
  Qed.
  (** What a mint does to the counts. *)
  Lemma mint_counts s who x q to e s' : NftModel.mint cap mint_limit s who x q to e = Ok s' ->
    exists c c', colls s !! x = Some c /\ colls s' !! x = Some c' /\ c_next c' = c_next c + q /\ c_iss c' = c_iss c + q /\ 0 < q <= mint_limit /\
      (forall m, c_max c = Some m -> c_next c + q <= m) /\ forall y, y <> x -> colls s' !! y = colls s !! y.
  Proof.
    intros E. unfold NftModel.mint in E. inv_ok. subst s'.
    match goal with H : pre_mint _ _ _ _ = Ok _ |- _ => unfold pre_mint in H end. inv_ok.
    match goal with H : do_mint _ _ _ _ _ _ = Ok _ |- _ => unfold do_mint in H end. inv_ok.
    match goal with H : put _ _ _ = _ |- _ => rewrite <- H end.
    match goal with H : serials _ _ = _ |- _ => rewrite <- H in * end. 
    match goal with H : colls s !! x = Some ?c |- _ => exists c; eexists; split; [exact H|] end.
    unfold put. cbn [colls]. rewrite lookup_insert. split; [reflexivity|]. rewrite serials_length in *. cbn.
    split; [lia|]. split; [lia|]. split; [lia|]. split; [|intros y Hy; rewrite lookup_insert_ne by congruence; reflexivity].
    intros m Hm. rewrite Hm in *. match goal with H : (_ <=? m) = true |- _ => apply N.leb_le in H; lia end.
  Qed.
End nxt.

Lemma redeem_spec cap mint_limit s who sid q e s' : mint_limit <= 4294 -> redeem cap mint_limit s who sid q e = Ok s' ->
  exists i l n, sales s !! sid = Some i /\ Ledger.burn (led s) (s_voucher i) who (q * UNIT) = Ok l /\ 0 < q <= mint_limit /\
    NftModel.mint cap mint_limit (nfts s) (vault sid) (s_coll i) q who e = Ok n /\ s' = set_nfts (set_led s l) n.
Proof.
  intros limit E. unfold redeem in E. inv_ok.
  match goal with H : NftModel.mint _ _ _ _ _ _ _ _ = Ok ?x |- _ => rename x into n, H into Hm end.
  match goal with H : sales s !! sid = Some ?x |- _ => rename x into i, H into Hs end.
  match goal with H : Ledger.burn _ _ _ _ = Ok ?x |- _ => rename x into l, H into Hb end.
  destruct (mint_counts _ _ _ _ _ _ _ _ _ Hm) as (c & c' & _ & _ & _ & _ & Hq & _).
  rewrite sat_id in Hb.
  2:{ rewrite unit_val. unfold U32MAX. lia. }
  exists i, l, n. split; [exact Hs|]. split; [exact Hb|]. split; [exact Hq|]. split; [exact Hm|]. symmetry; assumption.
Qed.

Section steps.
Variable cap mint_limit pallet max_sales max_dist max_pay max_dur : N.
Let cexec := cexec cap mint_limit pallet max_sales max_dist max_pay max_dur.
Let cstep := cstep cap mint_limit pallet max_sales max_dist max_pay max_dur.

(** Specification: how many tokens were redeemed from a sale. *)
Fixpoint redeemed (s : cs) (ops : list cop) (sid : N) : N :=
  match ops with
  | [] => 0
  | o :: ops' =>
      match o with
      | CRedeem _ sd q _ => if (sd =? sid) && is_ok (cexec s o) then q else 0
      | _ => 0
      end + redeemed (cstep s o) ops' sid
  end.

Definition vi1 (s : cs) (R : N) (sid : N) (i : sale) : Prop :=
  s_voucher i < next_asset s /\ a_owner s !! s_voucher i = Some (vault sid) /\
  exists m, terms (nfts s) sid (s_coll i) m /\ issuance (led s) (s_voucher i) + R * UNIT = m * UNIT.
Definition VI (R : N -> N) (s : cs) : Prop :=
  books (led s) /\
  (forall a, next_asset s <= a -> issuance (led s) a = 0 /\ a_owner s !! a = None) /\
  (forall sid, next_sale s <= sid -> sales s !! sid = None) /\
  (forall sid, sales s !! sid = None -> R sid = 0) /\
  (forall sid i, sales s !! sid = Some i -> vi1 s (R sid) sid i).
(** The serials of the collection follow the vouchers. *)
Definition NX (s : cs) : Prop := forall sid i c m, sales s !! sid = Some i -> colls (nfts s) !! s_coll i = Some c -> c_max c = Some m ->
  c_next c * UNIT + issuance (led s) (s_voucher i) = m * UNIT.
(** A sale is opened on a collection that never had a token. *)
Definition unminted (s : cs) (o : cop) : Prop :=
  match o with CInit _ _ coll _ _ => match colls (nfts s) !! coll with Some c => c_next c = 0 | None => True end | _ => True end.

Lemma VI_quiet R s s' : VI R s -> quiet s s' -> VI R s'.
Proof.
  intros (V0 & V1 & V2 & V3 & V4) (Q0 & Q1 & Q2 & Q3 & Q4 & Q5 & Q6).
  assert (HN : forall sid, sales s' !! sid = None <-> sales s !! sid = None).
  { intros sid. specialize (Q6 sid). destruct (sales s' !! sid), (sales s !! sid); cbn in Q6; split; congruence. }
  split; [auto|]. split; [intros a Ha; rewrite Q1, Q3; apply V1; lia|]. split; [intros sid Hs; apply HN, V2; lia|]. split; [intros sid Hs; apply V3, HN, Hs|].
  intros sid i Hs. specialize (Q6 sid). rewrite Hs in Q6. destruct (sales s !! sid) as [j|] eqn:Hj; [|discriminate]. cbn in Q6.
  assert (Ev : s_voucher i = s_voucher j) by congruence. assert (Ec : s_coll i = s_coll j) by congruence.
  specialize (V4 sid j Hj). unfold vi1 in *. rewrite Q2, Q3, Q4, Q1, Ev, Ec. exact V4.
Qed.
Lemma NX_quiet s s' : NX s -> quiet s s' -> NX s'.
Proof.
  intros HX (Q0 & Q1 & Q2 & Q3 & Q4 & Q5 & Q6) sid i c m Hs Hc Hm. specialize (Q6 sid). rewrite Hs in Q6.
  destruct (sales s !! sid) as [j|] eqn:Hj; [|discriminate]. cbn in Q6.
  assert (Ev : s_voucher i = s_voucher j) by congruence. assert (Ec : s_coll i = s_coll j) by congruence.
  rewrite Q1, Ev. rewrite Q4, Ec in Hc. eapply HX; eassumption.
Qed.
(** Changes of other assets and of collections the vaults own nothing of. *)
Lemma VI_other R s s' : VI R s -> books (led s') -> next_asset s <= next_asset s' ->
  (forall a, next_asset s' <= a -> issuance (led s') a = 0 /\ a_owner s' !! a = None) ->
  sales s' = sales s -> next_sale s' = next_sale s ->
  (forall a sid, a_owner s !! a = Some (vault sid) -> a < next_asset s -> a_owner s' !! a = Some (vault sid) /\ issuance (led s') a = issuance (led s) a) ->
  (forall sid x m, terms (nfts s) sid x m -> terms (nfts s') sid x m) -> VI R s'.
Proof.
  intros (V0 & V1 & V2 & V3 & V4) Hb Hn Hf Es En Ha Ht. split; [exact Hb|]. split; [exact Hf|]. split; [rewrite Es, En; exact V2|]. split; [rewrite Es; exact V3|].
  intros sid i Hs. rewrite Es in Hs. destruct (V4 sid i Hs) as (H1 & H2 & m & Hm & Hi). destruct (Ha _ _ H2 H1) as [E1 E2].
  split; [lia|]. split; [exact E1|]. exists m. split; [apply Ht; exact Hm|]. rewrite E2. exact Hi.
Qed.
Lemma NX_other R s s' : VI R s -> NX s -> sales s' = sales s ->
  (forall a sid, a_owner s !! a = Some (vault sid) -> a < next_asset s -> issuance (led s') a = issuance (led s) a) ->
  (forall sid x c, colls (nfts s) !! x = Some c -> c_owner c = vault sid -> c_public c = false -> exists c', colls (nfts s') !! x = Some c' /\ c_next c' = c_next c /\ c_max c' = c_max c) -> NX s'.
Proof.
  intros (V0 & V1 & V2 & V3 & V4) HX Es Ha Ht sid i c m Hs Hc Hm. rewrite Es in Hs. destruct (V4 sid i Hs) as (H1 & H2 & m0 & (c0 & Hc0 & Ho & Hm0 & Hp) & Hi).
  destruct (Ht sid _ c0 Hc0 Ho Hp) as (c' & Hc' & E1 & E2). assert (c' = c) by congruence. subst c'. rewrite (Ha _ _ H2 H1), E1. apply (HX sid i c0 m Hs Hc0). congruence.
Qed.
Hypothesis pallet_user : is_vault pallet = false.
Hypothesis limit : mint_limit <= 4294.

Definition red1 (s : cs) (o : cop) (sid : N) : N :=
  match o with CRedeem _ sd q _ => if (sd =? sid) && is_ok (cexec s o) then q else 0 | _ => 0 end.

Lemma exec_quiet s o s' : cexec s o = Ok s' -> match o with CEnable _ _ | CPart _ _ _ | CDist _ | CClaim _ _ | CForce _ _ | CProxy _ _ | CBlock | CSend _ _ _ _ => True | _ => False end -> quiet s s'.
Proof.
  intros E Ho. unfold cexec, CrowdModel.cexec in E. inv_ok. destruct o; try destruct Ho.
  - unfold enable in E. cbv zeta in E. inv_ok. subst s'.
    match goal with H : sales s !! sid = Some ?x |- _ => rename x into i, H into Hs end.
    match goal with |- quiet s (set_sale ?t _ ?j) => apply (quiet_sale t sid i j Hs eq_refl eq_refl) end.
  - unfold participate in E. cbv zeta in E. inv_ok. subst s'.
    match goal with H : sales s !! sid = Some ?x |- _ => rename x into i, H into Hs end.
    match goal with H : transfer _ _ _ _ _ = Ok ?x |- _ => rename x into l, H into Ht end.
    eapply quiet_trans; [apply (quiet_led _ _ _ _ _ _ Ht)|].
    match goal with |- quiet _ (emit (set_sale ?t _ ?j) _) => apply (quiet_sale t sid i j Hs eq_refl eq_refl) end.
  - unfold distribute in E. inv_ok.
    match goal with H : sales s !! ?sid = Some ?x |- _ => rename x into i, H into Hs end.
    match goal with H : context [fold_left (pay_one ?sid i ?m) ?td (s, ?g)] |- _ =>
      destruct (quiet_pay sid i m td s g) as [Q Es]; destruct (fold_left (pay_one sid i m) td (s, g)) as [t g1]; rename H into Ef end.
    cbn [fst] in *. inv_ok. subst s'. eapply quiet_trans; [exact Q|]. apply quiet_conclude. rewrite Es. exact Hs.
  - unfold claim_voucher in E. cbv zeta in E. inv_ok.
    match goal with H : sales s !! sid = Some ?x |- _ => rename x into i, H into Hs end.
    match goal with H : match ?p with Ok _ => _ | Err _ => _ end = Ok ?x |- _ => destruct p as [[l w]|] eqn:Ep; [|discriminate H]; apply Ok_inj in H; subst x end. inv_ok. subst s'.
    destruct (pay_led _ _ _ _ _ _ _ _ Ep) as [y Hy]. eapply quiet_trans; [apply (quiet_led _ _ _ _ _ _ Hy)|].
    match goal with |- quiet _ (emit (conclude ?t _ _ ?g ?d) _) => apply (quiet_conclude t sid i g d Hs) end.
  - unfold force in E. inv_ok. subst s'.
    match goal with H : sales s !! sid = Some ?x |- _ => rename x into i, H into Hs end.
    match goal with |- quiet s (set_sale ?t _ ?j) => apply (quiet_sale t sid i j Hs eq_refl eq_refl) end.
  - unfold proxy_vault in E. inv_ok. subst s'. apply quiet_refl.
  - inv_ok. subst s'. apply quiet_block.
  - inv_ok. subst s'. eapply quiet_led. eassumption.
Qed.

Lemma exec_VI R s o s' : VI R s -> cexec s o = Ok s' -> VI (fun sid => R sid + red1 s o sid) s' /\ (NX s -> unminted s o -> NX s').
Proof.
  intros HV E. assert (Hsame : (forall sid, red1 s o sid = 0) -> VI R s' -> VI (fun sid => R sid + red1 s o sid) s').
  { intros Hz (V0 & V1 & V2 & V3 & V4). split; [exact V0|]. split; [exact V1|]. split; [exact V2|].
    split; [intros sid Hs; rewrite Hz, V3 by exact Hs; lia|]. intros sid i Hs. rewrite Hz, N.add_0_r. apply V4. exact Hs. }
  assert (Hq : match o with CEnable _ _ | CPart _ _ _ | CDist _ | CClaim _ _ | CForce _ _ | CProxy _ _ | CBlock | CSend _ _ _ _ => True | _ => False end ->
     VI (fun sid => R sid + red1 s o sid) s' /\ (NX s -> unminted s o -> NX s')).
  { intros Ho. pose proof (exec_quiet s o s' E Ho) as Q. split; [|intros HX _; eapply NX_quiet; eassumption].
    apply Hsame; [destruct o; try reflexivity; destruct Ho|]. eapply VI_quiet; eassumption. }
  pose proof HV as (V0 & V1 & V2 & V3 & V4).
  pose proof E as E'. unfold cexec, CrowdModel.cexec in E'. inv_ok.
  match goal with H : match csigner o with _ => _ end = true |- _ => rename H into Hsig end.
  destruct o; try (apply Hq; exact I); cbn [csigner] in Hsig; try apply negb_true_iff in Hsig.
  - (* initialize *)
    unfold initialize, create_voucher in E'. cbv zeta in E'. inv_ok.
    match goal with H : (_, _) = ?x |- _ => destruct x as [s1 vv]; injection H as Hs1 Hvv end. inv_ok. subst s'. subst vv. subst s1.
    cbn [set_nfts set_next_sale next_asset led] in *.
    match goal with H : set_owner _ _ _ _ = Ok ?x |- _ => rename H into Ho, x into n end.
    match goal with H : colls (nfts s) !! coll = Some ?x |- _ => rename H into Hc, x into c end.
    match goal with H : c_max c = Some ?x |- _ => rename H into Hm, x into m end.
    match goal with H : Ledger.mint _ _ _ _ = Ok ?x |- _ => rename H into Hmint, x into l end.
    match goal with H : negb (c_public c) = true |- _ => apply negb_true_iff in H; rename H into Hpub end.
    pose proof (mint_books _ _ _ _ _ Hmint V0) as Hbk.
    apply LedgerProofs.mint_spec in Hmint. destruct Hmint as (_ & Hi & _ & _).
    set (sid := next_sale s) in *. set (a := next_asset s) in *.
    destruct (V1 a) as [Ha0 Hao0]; [subst a; lia|].
    assert (Hni : forall sd i, sales s !! sd = Some i -> s_voucher i <> a /\ sd <> sid).
    { intros sd i Hs. split; [destruct (V4 sd i Hs) as (Hlt & _); subst a; lia|]. intros ->. rewrite (V2 sid) in Hs; [discriminate|subst sid; lia]. }
    assert (Hcn : colls n !! coll = Some (with_owner c (vault sid))).
    { unfold set_owner in Ho. inv_ok. subst n. unfold put. cbn [colls]. rewrite lookup_insert. f_equal. congruence. }
    assert (Hother : forall y, y <> coll -> colls n !! y = colls (nfts s) !! y).
    { intros y Hy. unfold set_owner in Ho. inv_ok. subst n. unfold put. cbn [colls]. rewrite lookup_insert_ne by congruence. reflexivity. }
    assert (Hcw : c_owner c = who).
    { unfold set_owner in Ho. inv_ok. match goal with H : (_ =? who) = true |- _ => apply N.eqb_eq in H; rename H into Hw end. congruence. }
    split.
    + apply Hsame; [reflexivity|]. split; [exact Hbk|].
      cbn [set_sale set_led set_assets set_nfts set_next_sale led next_asset a_owner sales next_sale parts nfts]. split; [|split; [|split]].
      * intros b Hb. rewrite Hi. destruct (N.eqb_spec a b); [subst; lia|]. rewrite lookup_insert_ne by assumption. destruct (V1 b) as [-> ->]; [subst a; lia|]. auto.
      * intros sd Hsd. rewrite lookup_insert_ne by lia. apply V2. subst sid. lia.
      * intros sd. destruct (decide (sid = sd)) as [<-|Hne]; [rewrite lookup_insert; discriminate|]. rewrite lookup_insert_ne by exact Hne. apply V3.
      * intros sd i. destruct (decide (sid = sd)) as [<-|Hne].
        -- rewrite lookup_insert. intros [= <-]. unfold vi1. cbn. split; [lia|]. split; [apply lookup_insert|]. exists m. split.
           ++ exists (with_owner c (vault sid)). split; [exact Hcn|]. cbn. auto.
           ++ rewrite Hi, N.eqb_refl, Ha0, V3 by (apply V2; subst sid; lia). lia.
        -- rewrite lookup_insert_ne by exact Hne. intros Hs. destruct (V4 sd i Hs) as (W1 & W2 & m1 & W3 & W4). destruct (Hni sd i Hs) as [X1 X2].
           unfold vi1. cbn. split; [lia|]. split; [rewrite lookup_insert_ne by congruence; exact W2|]. exists m1. split.
           ++ eapply terms_keep; [|exact W3]. intros y c1 Ey Hoy. eapply set_owner_keep; eassumption.
           ++ rewrite Hi. destruct (N.eqb_spec a (s_voucher i)); [congruence|]. rewrite N.add_0_r. exact W4.
    + intros HX Hf sd i c1 m1. cbn [set_sale set_led set_assets set_nfts set_next_sale led next_asset a_owner sales next_sale parts nfts]. cbn [unminted] in Hf. rewrite Hc in Hf.
      destruct (decide (sid = sd)) as [<-|Hne].
      * rewrite lookup_insert. intros [= <-]. cbn. intros Hc1 Hm1. assert (c1 = with_owner c (vault sid)) by congruence. subst c1. cbn in *.
        rewrite Hi, N.eqb_refl, Ha0, Hf. assert (m1 = m) by congruence. subst m1. lia.
      * rewrite lookup_insert_ne by exact Hne. intros Hs Hc1 Hm1. destruct (Hni sd i Hs) as [X1 X2]. rewrite Hi. destruct (N.eqb_spec a (s_voucher i)); [congruence|].
        rewrite N.add_0_r. destruct (decide (s_coll i = coll)) as [Ec|Ec].
        -- destruct (V4 sd i Hs) as (_ & _ & m2 & (c2 & Hc2 & Ho2 & _) & _). rewrite Ec in Hc2. exfalso. rewrite Hc in Hc2. injection Hc2 as <-.
           rewrite Ho2 in Hcw. subst who. rewrite vault_is in Hsig. discriminate.
        -- rewrite Hother in Hc1 by exact Ec. eapply HX; eassumption.
  - (* redeem *)
    destruct (redeem_spec cap mint_limit s who sid q ext_ok s' limit E') as (i & l & n & Hs & Hb & Hq' & Hm & ->).
    destruct (mint_counts _ _ _ _ _ _ _ _ _ Hm) as (c & c' & Hc & Hc' & Hnx & _ & _ & Hmx & Hoth).
    pose proof (burn_books _ _ _ _ _ Hb V0) as Hbk. apply LedgerProofs.burn_spec in Hb; [|exact V0]. destruct Hb as (_ & Hi & _ & _).
    assert (Hr : forall sd, red1 s (CRedeem who sid q ext_ok) sd = if sid =? sd then q else 0).
    { intros sd. unfold red1. rewrite E. cbn. rewrite andb_true_r. reflexivity. }
    assert (Hvv : forall sd j, sales s !! sd = Some j -> s_voucher i = s_voucher j -> sid = sd).
    { intros sd j Hj Ev. destruct (V4 sd j Hj) as (_ & W2 & _). destruct (V4 sid i Hs) as (_ & W2' & _). rewrite Ev in W2'. rewrite W2 in W2'. apply vault_inj. congruence. }
    split.
    + split; [exact Hbk|]. cbn [set_nfts set_led led next_asset a_owner sales next_sale nfts]. split; [|split; [|split]].
      * intros a Ha. destruct (V1 a Ha) as [W1 W2]. split; [|exact W2]. specialize (Hi a). lia.
      * exact V2.
      * intros sd Hsd. rewrite Hr. destruct (N.eqb_spec sid sd); [congruence|]. rewrite V3 by exact Hsd. reflexivity.
      * intros sd j Hj. destruct (V4 sd j Hj) as (W1 & W2 & m & W3 & W4). unfold vi1. cbn [set_nfts set_led led next_asset a_owner nfts]. split; [exact W1|]. split; [exact W2|]. exists m. split.
        -- eapply terms_keep; [|exact W3]. intros y c1 Ey _. eapply mint_keep; [exact Hm|exact Ey].
        -- rewrite Hr. specialize (Hi (s_voucher j)). destruct (N.eqb_spec (s_voucher i) (s_voucher j)) as [Ev|Ev].
           ++ rewrite (Hvv sd j Hj Ev), N.eqb_refl. lia.
           ++ destruct (N.eqb_spec sid sd) as [->|]; [congruence|]. lia.
    + intros HX _ sd j c1 m1 Hj Hc1 Hm1. cbn [set_nfts set_led led next_asset a_owner sales next_sale nfts] in *.
      specialize (Hi (s_voucher j)). destruct (V4 sd j Hj) as (W1 & W2 & m & (c2 & Hc2 & Ho2 & Hm2 & _) & W4).
      destruct (V4 sid i Hs) as (_ & _ & m' & (c3 & Hc3 & Ho3 & Hm3 & _) & _).
      destruct (decide (s_coll j = s_coll i)) as [Ec|Ec].
      * assert (sd = sid). { apply vault_inj. rewrite <- Ho2, <- Ho3. congruence. } subst sd. assert (j = i) by congruence. subst j. rewrite N.eqb_refl in Hi.
        assert (c1 = c') by congruence. subst c1. assert (c2 = c) by congruence. subst c2.
        destruct (mint_keep _ _ _ _ _ _ _ _ _ Hm _ _ Hc) as (c4 & Hc4 & _ & Hmx4 & _). assert (c4 = c') by congruence. subst c4.
        specialize (HX sid i c m1 Hs Hc ltac:(congruence)). nia.
      * destruct (N.eqb_spec (s_voucher i) (s_voucher j)) as [Ev|Ev]; [exfalso; apply Ec; rewrite <- (Hvv sd j Hj Ev) in Hj; congruence|].
        rewrite Hoth in Hc1 by exact Ec. specialize (HX sd j c1 m1 Hj Hc1 Hm1). lia.
  - (* new asset *)
    inv_ok. subst s'. split; [|intros HX _; exact HX]. apply Hsame; [reflexivity|]. eapply VI_other; [exact HV|..]; cbn; try reflexivity; auto.
    + lia.
    + intros a Ha. rewrite lookup_insert_ne by lia. apply V1. lia.
    + intros a sd Ha Hlt. rewrite lookup_insert_ne by lia. auto.
  - (* mint *)
    inv_ok. subst s'. match goal with H : owns_asset _ _ _ = true |- _ => apply bool_decide_eq_true in H; rename H into How end.
    match goal with H : Ledger.mint _ _ _ _ = Ok ?x |- _ => rename H into Hmint, x into l end.
    pose proof (mint_books _ _ _ _ _ Hmint V0) as Hbk. apply LedgerProofs.mint_spec in Hmint. destruct Hmint as (_ & Hi & _ & _).
    assert (Hk : forall b sd, a_owner s !! b = Some (vault sd) -> issuance l b = issuance (led s) b).
    { intros b sd Hb. rewrite Hi. destruct (N.eqb_spec a b) as [->|]; [|lia]. exfalso. rewrite Hb in How. injection How as <-. rewrite vault_is in Hsig. discriminate. }
    assert (Halt : a < next_asset s).
    { destruct (N.lt_ge_cases a (next_asset s)) as [|Hge]; [assumption|]. destruct (V1 a Hge). congruence. }
    split.
    + apply Hsame; [reflexivity|]. eapply VI_other; [exact HV|..]; cbn; try reflexivity; eauto.
      * intros b Hb. rewrite Hi. destruct (N.eqb_spec a b); [lia|]. rewrite N.add_0_r. apply V1. exact Hb.
    + intros HX _. eapply NX_other; [exact HV|exact HX|reflexivity| |]; cbn; eauto.
  - (* burn *)
    inv_ok. subst s'. match goal with H : owns_asset _ _ _ = true |- _ => apply bool_decide_eq_true in H; rename H into How end.
    match goal with H : Ledger.burn _ _ _ _ = Ok ?x |- _ => rename H into Hb, x into l end.
    pose proof (burn_books _ _ _ _ _ Hb V0) as Hbk. apply LedgerProofs.burn_spec in Hb; [|exact V0]. destruct Hb as (_ & Hi & _ & _).
    assert (Hk : forall b sd, a_owner s !! b = Some (vault sd) -> issuance l b = issuance (led s) b).
    { intros b sd Hb. specialize (Hi b). destruct (N.eqb_spec a b) as [->|]; [|lia]. exfalso. rewrite Hb in How. injection How as <-. rewrite vault_is in Hsig. discriminate. }
    split.
    + apply Hsame; [reflexivity|]. eapply VI_other; [exact HV|..]; cbn; try reflexivity; eauto.
      intros b Hb. destruct (V1 b Hb) as [W1 W2]. split; [|exact W2]. specialize (Hi b). lia.
    + intros HX _. eapply NX_other; [exact HV|exact HX|reflexivity| |]; cbn; eauto.
  - (* give *)
    inv_ok. subst s'. match goal with H : owns_asset _ _ _ = true |- _ => apply bool_decide_eq_true in H; rename H into How end.
    split; [|intros HX _; exact HX]. apply Hsame; [reflexivity|]. eapply VI_other; [exact HV|..]; cbn; try reflexivity; auto.
    + intros b Hb. rewrite lookup_insert_ne; [apply V1; exact Hb|]. intros ->. destruct (V1 b Hb). congruence.
    + intros b sd Hb Hlt. rewrite lookup_insert_ne; [auto|]. intros ->. rewrite Hb in How. injection How as <-. rewrite vault_is in Hsig. discriminate.
  - (* nft *)
    inv_ok. subst s'. match goal with H : nexec _ _ _ _ _ = Ok ?x |- _ => rename H into Hn, x into n end.
    assert (Hns : forall sid, nsigner o <> Some (vault sid)).
    { intros sid Ex. rewrite Ex in Hsig. apply negb_true_iff in Hsig. rewrite vault_is in Hsig. discriminate. }
    assert (Hk : forall sid y c, colls (nfts s) !! y = Some c -> c_owner c = vault sid -> exists c', colls n !! y = Some c' /\ same_terms c c').
    { intros sid y c Ey Ho. apply (nexec_keep cap mint_limit pallet _ _ _ y c Hn Ey); rewrite Ho; [apply Hns|apply user_not_vault; exact pallet_user]. }
    split.
    + apply Hsame; [reflexivity|]. eapply VI_other; [exact HV|..]; cbn; try reflexivity; auto.
      intros sid x m. apply terms_keep. apply Hk.
    + intros HX _. eapply NX_other; [exact HV|exact HX|reflexivity| |]; cbn; [auto|].
      intros sid x c Ex Ho Hp. destruct (Hk sid x c Ex Ho) as (c' & Hc' & _ & Hmx & _).
      destruct (nexec_next cap mint_limit pallet _ _ _ x c Hn Ex) as (c2 & Hc2 & Hn2); [rewrite Ho; apply Hns|exact Hp|].
      assert (c2 = c') by congruence. subst c2. eauto.
Qed.
Lemma run_VI ops : forall R s, VI R s -> VI (fun sid => R sid + redeemed s ops sid) (run cstep ops s).
Proof.
  induction ops as [|o ops IH]; intros R s HV; cbn [redeemed].
  - destruct HV as (V0 & V1 & V2 & V3 & V4). change (run cstep [] s) with s. split; [exact V0|]. split; [exact V1|]. split; [exact V2|].
    split; [intros sid Hs; rewrite V3 by exact Hs; reflexivity|]. intros sid i Hs. rewrite N.add_0_r. apply V4. exact Hs.
  - change (run cstep (o :: ops) s) with (run cstep ops (cstep s o)).
    assert (H1 : VI (fun sid => R sid + red1 s o sid) (cstep s o)).
    { unfold cstep, CrowdModel.cstep. fold cexec. destruct (cexec s o) as [s'|] eqn:E; cbn [commit]; [apply exec_VI; assumption|].
      destruct HV as (V0 & V1 & V2 & V3 & V4).
      assert (Hz : forall sid, red1 s o sid = 0) by (intros sid; unfold red1; rewrite E; destruct o; try reflexivity; cbn; rewrite andb_false_r; reflexivity).
      split; [exact V0|]. split; [exact V1|]. split; [exact V2|].
      split; [intros sid Hs; rewrite Hz, V3 by exact Hs; reflexivity|]. intros sid i Hs. rewrite Hz, N.add_0_r. apply V4. exact Hs. }
    specialize (IH _ _ H1). destruct IH as (V0 & V1 & V2 & V3 & V4). split; [exact V0|]. split; [exact V1|]. split; [exact V2|].
    split; [intros sid Hs; specialize (V3 sid Hs); cbn beta in V3; fold (red1 s o sid); lia|]. intros sid i Hs. fold (red1 s o sid). rewrite N.add_assoc. apply (V4 sid i Hs).
Qed.
Lemma VI0 : VI (fun _ => 0) cinit.
Proof.
  split; [apply empty_books|]. split; [|split; [|split]].
  - intros a _. cbn. split; [reflexivity|apply lookup_empty].
  - intros sid _. apply lookup_empty.
  - reflexivity.
  - intros sid i E. cbn in E. rewrite lookup_empty in E. discriminate.
Qed.
Lemma run_NX ops : along cstep unminted ops cinit -> NX (run cstep ops cinit).
Proof.
  intros Ha. assert (H : exists R, VI R (run cstep ops cinit) /\ NX (run cstep ops cinit)).
  { apply (run_along cstep unminted (fun s => exists R, VI R s /\ NX s)); [|exact Ha|].
    - intros s o Hf (R & HV & HX). unfold cstep, CrowdModel.cstep. fold cexec. destruct (cexec s o) as [s'|] eqn:E; cbn [commit]; [|eauto].
      destruct (exec_VI R s o s' HV E) as [HV' HX']. eauto.
    - exists (fun _ => 0). split; [apply VI0|]. intros sid i c m E. cbn in E. rewrite lookup_empty in E. discriminate. }
  destruct H as (R & _ & HX). exact HX.
Qed.
End steps.
