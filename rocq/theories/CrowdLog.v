(** Crowdsale: who contributed and who was paid (event log), the distribution queue, and the
    closing schedule, along any history. *)
From Verif Require Export CrowdPay.

(** Specification: what the events say about one participant. *)
Definition contributed (l : list event) (sid who : N) : N :=
  sumL (map (fun e => match e with EPart s w v => if (s =? sid) && (w =? who) then v else 0 | _ => 0 end) l).
Definition claims (l : list event) (sid who : N) : list N :=
  flat_map (fun e => match e with EClaim s w v => if (s =? sid) && (w =? who) then [v] else [] | _ => [] end) l.

Lemma sumL_app l k : sumL (l ++ k) = sumL l + sumL k.
Proof. unfold sumL. induction l as [|x l IH]; cbn in *; lia. Qed.
Lemma contributed_app l k sid who : contributed (l ++ k) sid who = contributed l sid who + contributed k sid who.
Proof. unfold contributed. rewrite map_app. apply sumL_app. Qed.
Lemma claims_app l k sid who : claims (l ++ k) sid who = claims l sid who ++ claims k sid who.
Proof. unfold claims. apply flat_map_app. Qed.
Lemma contributed_part l s w v sid who : contributed (l ++ [EPart s w v]) sid who = contributed l sid who + if (s =? sid) && (w =? who) then v else 0.
Proof. rewrite contributed_app. unfold contributed at 2. cbn. lia. Qed.
Lemma contributed_claim l s w v sid who : contributed (l ++ [EClaim s w v]) sid who = contributed l sid who.
Proof. rewrite contributed_app. unfold contributed at 2. cbn. lia. Qed.
Lemma claims_part l s w v sid who : claims (l ++ [EPart s w v]) sid who = claims l sid who.
Proof. rewrite claims_app. cbn. apply app_nil_r. Qed.
Lemma claims_claim l s w v sid who : claims (l ++ [EClaim s w v]) sid who = claims l sid who ++ if (s =? sid) && (w =? who) then [v] else [].
Proof. rewrite claims_app. cbn. rewrite app_nil_r. reflexivity. Qed.

Definition paying (i : sale) : bool := match s_status i with Distributing _ | Ended => true | _ => false end.

(** Each participant either still has their whole contribution recorded and was paid nothing, or
    was paid once, exactly what is due. *)
Definition log_ok (n : nft) (i : sale) (p : option N) (ctb : N) (cl : list N) (sid : N) : Prop :=
  match p with
  | Some c => ctb = c /\ cl = []
  | None => (ctb = 0 /\ cl = []) \/
            (0 < ctb /\ paying i = true /\ exists m, terms n sid (s_coll i) m /\ cl = [due (s_price i) (s_funds i) m ctb])
  end.
Definition LI (s : cs) : Prop :=
  forall sid who, match sales s !! sid with
  | None => contributed (log s) sid who = 0 /\ claims (log s) sid who = []
  | Some i => log_ok (nfts s) i (parts s !! (sid, who)) (contributed (log s) sid who) (claims (log s) sid who) sid
  end.

Lemma log_frame n n' i i' p ctb cl sid : log_ok n i p ctb cl sid ->
  (forall x m, terms n sid x m -> terms n' sid x m) ->
  (paying i = true -> paying i' = true /\ s_coll i' = s_coll i /\ s_price i' = s_price i /\ s_funds i' = s_funds i) -> log_ok n' i' p ctb cl sid.
Proof.
  unfold log_ok. destruct p; [auto|]. intros [H|(H1 & H2 & m & Hm & Hc)] Ht Hi; [left; exact H|right].
  destruct (Hi H2) as (E1 & E2 & E3 & E4). split; [exact H1|]. split; [exact E1|]. exists m. rewrite E2, E3, E4. auto.
Qed.
(** States that differ in the ledger, the queues and one sale's status. *)
Lemma LI_same s s' : LI s -> sales s' = sales s -> parts s' = parts s -> log s' = log s ->
  (forall sid x m, terms (nfts s) sid x m -> terms (nfts s') sid x m) -> LI s'.
Proof.
  intros HL E1 E2 E3 Ht sid who. rewrite E1, E2, E3. specialize (HL sid who). destruct (sales s !! sid) as [i|]; [|exact HL].
  eapply log_frame; [exact HL|apply Ht|auto].
Qed.
Lemma LI_status s s' sid i i' : LI s -> sales s !! sid = Some i -> sales s' = <[sid := i']> (sales s) -> parts s' = parts s -> log s' = log s ->
  nfts s' = nfts s ->
  (paying i = true -> paying i' = true /\ s_coll i' = s_coll i /\ s_price i' = s_price i /\ s_funds i' = s_funds i) -> LI s'.
Proof.
  intros HL Hs E1 E2 E3 E4 Hp sd who. rewrite E1, E2, E3, E4. specialize (HL sd who). destruct (decide (sid = sd)) as [<-|Hne].
  - rewrite lookup_insert. rewrite Hs in HL. eapply log_frame; [exact HL|auto|exact Hp].
  - rewrite lookup_insert_ne by exact Hne. exact HL.
Qed.
Lemma after_LI s sid i g who c m : LI s -> MI s -> sales s !! sid = Some i -> s_status i = Distributing g ->
  parts s !! (sid, who) = Some c -> terms (nfts s) sid (s_coll i) m -> LI (after s sid i who (due (s_price i) (s_funds i) m c)).
Proof.
  intros HL HM Hs Est Hc Hm sd w. specialize (HL sd w). unfold after. cbn [sales emit set_led set_parts parts log nfts].
  rewrite contributed_claim, claims_claim. destruct (decide ((sid, who) = (sd, w))) as [E|Hne].
  - injection E as <- <-. rewrite Hs, Hc in HL. rewrite Hs, lookup_delete. destruct HL as [Ectb Ecl]. rewrite Ecl, Ectb, !N.eqb_refl. cbn [andb app].
    right. split; [eapply MI_parts; eassumption|]. split; [unfold paying; rewrite Est; reflexivity|]. exists m. auto.
  - rewrite lookup_delete_ne by exact Hne. replace ((sid =? sd) && (who =? w)) with false; [rewrite app_nil_r; exact HL|].
    symmetry. apply andb_false_iff. destruct (N.eqb_spec sid sd) as [->|]; [|left; reflexivity]. right. apply N.eqb_neq. congruence.
Qed.
Lemma after_all_LI sid i g m todo : forall s, LI s -> MI s -> sales s !! sid = Some i -> s_status i = Distributing g ->
  terms (nfts s) sid (s_coll i) m -> LI (after_all s sid i m todo).
Proof.
  induction todo as [|w todo IH]; intros s HL HM Hs Est Hm; cbn [after_all]; [exact HL|].
  destruct (parts s !! (sid, w)) as [c|] eqn:Ec; [|apply IH; assumption].
  apply IH; try assumption.
  - eapply after_LI; eassumption.
  - apply (pay_one_spec s sid i g 0 w c m HM Hs Est Ec Hm).
Qed.
Lemma conclude_cases s sid i given d :
  (parts_of (parts s) sid = [] /\ conclude s sid i given d = set_dist (set_sale (set_led s (sweep (led s) sid i)) sid (with_status i Ended)) d) \/
  (parts_of (parts s) sid <> [] /\ conclude s sid i given d = set_sale s sid (with_status i (Distributing given))).
Proof. unfold conclude. destruct (parts_of (parts s) sid); [left|right]; split; try reflexivity. discriminate. Qed.
Lemma conclude_LI s sid i given d : LI s -> sales s !! sid = Some i -> LI (conclude s sid i given d).
Proof.
  intros HL Hs. destruct (conclude_cases s sid i given d) as [[_ ->]|[_ ->]];
  (eapply LI_status; [exact HL|exact Hs|reflexivity|reflexivity|reflexivity|reflexivity|]; intros _; repeat split).
Qed.
Lemma claim_form s sid i who v l given d : transfer (led s) (s_voucher i) (vault sid) who v = Ok l ->
  emit (conclude (set_led (set_parts s (delete (sid, who) (parts s))) l) sid i given d) (EClaim sid who v) = conclude (after s sid i who v) sid i given d.
Proof. intros Ht. unfold after, conclude. rewrite Ht. cbn. destruct (parts_of _ sid); reflexivity. Qed.

Lemma close_LI max_dist s sid : LI s -> MI s -> LI (close_one max_dist s sid).
Proof.
  intros HL HM. destruct (sales s !! sid) as [i|] eqn:Hs.
  2:{ unfold close_one. rewrite Hs. exact HL. }
  destruct (s_status i) as [|b| | |] eqn:Est; try (unfold close_one; rewrite Hs, Est; exact HL).
  destruct (close_spec max_dist s sid i b HM Hs Est) as (l1 & l2 & st & d & _ & _ & _ & _ & _ & _ & _ & _ & _ & -> & _).
  eapply LI_status; [exact HL|exact Hs|reflexivity|reflexivity|reflexivity|reflexivity|]. unfold paying. rewrite Est. discriminate.
Qed.
Lemma close_all_LI max_dist l : forall s, LI s -> MI s -> LI (fold_left (close_one max_dist) l s).
Proof. induction l as [|x l IH]; intros s HL HM; cbn [fold_left]; [exact HL|]. apply IH; [apply close_LI|apply close_MI]; assumption. Qed.

(** The distribution queue holds exactly the sales being distributed, once each. *)
Definition DI (s : cs) : Prop :=
  NoDup (dist s) /\ forall sid, sid ∈ dist s <-> exists i g, sales s !! sid = Some i /\ s_status i = Distributing g.

(** An enabled sale is on the closing schedule, for a block still to come. *)
Definition EI (s : cs) : Prop :=
  forall sid i b, sales s !! sid = Some i -> s_status i = Enabled b -> 0 < s_dur i -> b + s_dur i <= U32MAX ->
  b <= now s /\ now s < b + s_dur i /\ exists l, ends s !! (b + s_dur i) = Some l /\ sid ∈ l.

Lemma DI_same s s' : DI s -> sales s' = sales s -> dist s' = dist s -> DI s'.
Proof. unfold DI. intros HD -> ->. exact HD. Qed.
Lemma DI_status s s' sid i i' : DI s -> sales s !! sid = Some i -> sales s' = <[sid := i']> (sales s) -> dist s' = dist s ->
  ((exists g, s_status i = Distributing g) <-> (exists g, s_status i' = Distributing g)) -> DI s'.
Proof.
  intros [H1 H2] Hs E1 E2 Hx. split; [rewrite E2; exact H1|]. intros sd. rewrite E2, H2, E1. destruct (decide (sid = sd)) as [<-|Hne].
  - rewrite lookup_insert. split.
    + intros (j & g & Ej & Eg). rewrite Hs in Ej. injection Ej as <-. destruct (proj1 Hx) as [g' Hg']; [eauto|]. eauto.
    + intros (j & g & Ej & Eg). injection Ej as <-. destruct (proj2 Hx) as [g' Hg']; [eauto|]. eauto.
  - rewrite lookup_insert_ne by exact Hne. reflexivity.
Qed.
Lemma DI_push s s' sid i i' g : DI s -> sales s !! sid = Some i -> (forall g', s_status i <> Distributing g') -> sales s' = <[sid := i']> (sales s) -> dist s' = dist s ++ [sid] ->
  s_status i' = Distributing g -> DI s'.
Proof.
  intros [H1 H2] Hs Hn E1 E2 Hg. split.
  - rewrite E2. apply NoDup_app. split; [exact H1|]. split; [|repeat constructor; intros Hin; inversion Hin].
    intros x Hx Hin. apply elem_of_list_singleton in Hin. subst x. apply H2 in Hx. destruct Hx as (j & g' & Ej & Eg). rewrite Hs in Ej. injection Ej as <-. apply (Hn g' Eg).
  - intros sd. rewrite E2, elem_of_app, H2, E1, elem_of_list_singleton. destruct (decide (sid = sd)) as [<-|Hne].
    + rewrite lookup_insert. split; [eauto|]. auto.
    + rewrite lookup_insert_ne by exact Hne. split; [intros [H|H]; [exact H|congruence]|auto].
Qed.
Lemma DI_pop s s' sid i i' d : DI s -> sales s !! sid = Some i -> sales s' = <[sid := i']> (sales s) -> dist s' = d ->
  (forall g, s_status i' <> Distributing g) -> NoDup d -> (forall x, x ∈ d <-> x ∈ dist s /\ x <> sid) -> DI s'.
Proof.
  intros [H1 H2] Hs E1 E2 Hg Hnd Hd. split; [rewrite E2; exact Hnd|]. intros sd. rewrite E2, Hd, H2, E1. destruct (decide (sid = sd)) as [<-|Hne].
  - rewrite lookup_insert. split; [intros [_ H]; congruence|]. intros (j & g & [= <-] & Eg). destruct (Hg g Eg).
  - rewrite lookup_insert_ne by exact Hne. split; [intros [H _]; exact H|]. intros H. split; [exact H|congruence].
Qed.
Lemma conclude_DI s sid i g given d : DI s -> sales s !! sid = Some i -> s_status i = Distributing g ->
  NoDup d -> (forall x, x ∈ d <-> x ∈ dist s /\ x <> sid) -> DI (conclude s sid i given d).
Proof.
  intros HD Hs Est Hnd Hd. destruct (conclude_cases s sid i given d) as [[_ ->]|[_ ->]].
  - eapply DI_pop; [exact HD|exact Hs|reflexivity|reflexivity| |exact Hnd|exact Hd]. cbn. discriminate.
  - eapply DI_status; [exact HD|exact Hs|reflexivity|reflexivity|]. cbn. rewrite Est. split; eauto.
Qed.
Lemma close_DI max_dist s sid : DI s -> MI s -> DI (close_one max_dist s sid).
Proof.
  intros HD HM. destruct (sales s !! sid) as [i|] eqn:Hs.
  2:{ unfold close_one. rewrite Hs. exact HD. }
  destruct (s_status i) as [|b| | |] eqn:Est; try (unfold close_one; rewrite Hs, Est; exact HD).
  destruct (close_spec max_dist s sid i b HM Hs Est) as (l1 & l2 & st & d & _ & _ & _ & _ & _ & _ & _ & _ & _ & -> & [(_ & -> & ->)|[(_ & -> & ->)|(_ & -> & ->)]]).
  - eapply DI_status; [exact HD|exact Hs|reflexivity|reflexivity|]. cbn. rewrite Est. split; intros [g Hg]; discriminate.
  - eapply DI_push; [exact HD|exact Hs| |reflexivity|reflexivity|reflexivity]. rewrite Est. discriminate.
  - eapply DI_status; [exact HD|exact Hs|reflexivity|reflexivity|]. cbn. rewrite Est. split; intros [g Hg]; discriminate.
Qed.
Lemma close_all_DI max_dist l : forall s, DI s -> MI s -> DI (fold_left (close_one max_dist) l s).
Proof. induction l as [|x l IH]; intros s HL HM; cbn [fold_left]; [exact HL|]. apply IH; [apply close_DI|apply close_MI]; assumption. Qed.

(** Closing never enables a sale, and closes the sales it is given. *)
Lemma close_enabled max_dist s sid sd j b : MI s -> sales (close_one max_dist s sid) !! sd = Some j -> s_status j = Enabled b ->
  sales s !! sd = Some j /\ sd <> sid.
Proof.
  intros HM Ej Eb. destruct (sales s !! sid) as [i|] eqn:Hs.
  2:{ unfold close_one in Ej. rewrite Hs in Ej. split; [exact Ej|congruence]. }
  destruct (s_status i) as [|b'| | |] eqn:Est; try (unfold close_one in Ej; rewrite Hs, Est in Ej; split; [exact Ej|intros ->; rewrite Hs in Ej; injection Ej as <-; congruence]).
  destruct (close_spec max_dist s sid i b' HM Hs Est) as (l1 & l2 & st & d & _ & _ & _ & _ & _ & _ & _ & _ & _ & E & Hc). rewrite E in Ej. cbn in Ej.
  destruct (decide (sid = sd)) as [<-|Hne].
  - rewrite lookup_insert in Ej. injection Ej as <-. cbn in Eb. destruct Hc as [(_ & -> & _)|[(_ & -> & _)|(_ & -> & _)]]; discriminate.
  - rewrite lookup_insert_ne in Ej by exact Hne. split; [exact Ej|congruence].
Qed.
Lemma close_fields max_dist s sid : now (close_one max_dist s sid) = now s /\ ends (close_one max_dist s sid) = ends s /\
  nfts (close_one max_dist s sid) = nfts s /\ parts (close_one max_dist s sid) = parts s /\ log (close_one max_dist s sid) = log s.
Proof.
  unfold close_one. destruct (sales s !! sid) as [i|]; [|auto]. destruct (s_status i); auto. destruct (transfer _ _ _ _ _); [|auto].
  destruct (max_of _ _); [|auto]. cbv zeta. destruct (if s_funds i <? _ then _ else _); [|auto]. destruct (s_funds i =? 0); [auto|]. destruct (_ <? _); auto.
Qed.
Lemma close_all_fields max_dist l : forall s, let t := fold_left (close_one max_dist) l s in now t = now s /\ ends t = ends s /\ nfts t = nfts s /\ parts t = parts s /\ log t = log s.
Proof.
  induction l as [|x l IH]; intros s; cbn [fold_left]; [auto|]. destruct (IH (close_one max_dist s x)) as (E1 & E2 & E3 & E4 & E5).
  destruct (close_fields max_dist s x) as (F1 & F2 & F3 & F4 & F5). cbn. rewrite E1, E2, E3, E4, E5. auto.
Qed.
Lemma close_all_enabled max_dist l : forall s sd j b, MI s -> sales (fold_left (close_one max_dist) l s) !! sd = Some j -> s_status j = Enabled b ->
  sales s !! sd = Some j /\ sd ∉ l.
Proof.
  induction l as [|x l IH]; intros s sd j b HM Ej Eb; cbn [fold_left] in Ej; [split; [exact Ej|intros Hin; inversion Hin]|].
  destruct (IH _ sd j b (close_MI max_dist s x HM) Ej Eb) as [E1 E2]. destruct (close_enabled max_dist s x sd j b HM E1 Eb) as [E3 E4].
  split; [exact E3|]. intros Hin. apply elem_of_cons in Hin. tauto.
Qed.
Lemma block_EI max_dist s : EI s -> MI s -> EI (new_block max_dist s).
Proof.
  intros HE HM sid i b Hs Est Hd Hu. unfold new_block in *. cbv zeta in *. cbn [set_now now ends] in *.
  destruct (ends s !! (now s + 1)) as [l|] eqn:El.
  - set (t := set_ends (set_now s (now s + 1)) (delete (now s + 1) (ends s))) in *.
    assert (HMt : MI t) by exact HM.
    destruct (close_all_enabled max_dist l t sid i b HMt Hs Est) as [Es Hni].
    destruct (close_all_fields max_dist l t) as (E1 & E2 & _). rewrite E1, E2. unfold t. cbn [now ends set_ends set_now].
    destruct (HE sid i b Es Est Hd Hu) as (H1 & H2 & k & Hk & Hin).
    destruct (N.eq_dec (now s + 1) (b + s_dur i)) as [Eq|Hne].
    + exfalso. rewrite Eq, Hk in El. injection El as ->. contradiction.
    + split; [lia|]. split; [lia|]. exists k. rewrite lookup_delete_ne by exact Hne. auto.
  - cbn [sales set_now now ends] in *. destruct (HE sid i b Hs Est Hd Hu) as (H1 & H2 & k & Hk & Hin).
    destruct (N.eq_dec (now s + 1) (b + s_dur i)) as [Eq|Hne]; [congruence|]. split; [lia|]. split; [lia|]. eauto.
Qed.
Lemma EI_same s s' : EI s -> sales s' = sales s -> now s' = now s -> ends s' = ends s -> EI s'.
Proof. unfold EI. intros HE -> -> ->. exact HE. Qed.
Lemma EI_status s s' sid i' : EI s -> sales s' = <[sid := i']> (sales s) -> now s' = now s -> ends s' = ends s ->
  (forall b, s_status i' = Enabled b -> exists i, sales s !! sid = Some i /\ s_status i = Enabled b /\ s_dur i = s_dur i') -> EI s'.
Proof.
  unfold EI. intros HE -> -> -> Hx sd j b Ej Eb Hd Hu. destruct (decide (sid = sd)) as [<-|Hne].
  - rewrite lookup_insert in Ej. injection Ej as <-. destruct (Hx b Eb) as (i & Ei & Ebi & Edur). rewrite <- Edur in *. eapply HE; eassumption.
  - rewrite lookup_insert_ne in Ej by exact Hne. eapply HE; eassumption.
Qed.
Lemma conclude_EI s sid i given d : EI s -> EI (conclude s sid i given d).
Proof.
  intros HE. destruct (conclude_cases s sid i given d) as [[_ ->]|[_ ->]]; (eapply EI_status; [exact HE|reflexivity|reflexivity|reflexivity|cbn; discriminate]).
Qed.
Lemma after_all_fields sid i m todo : forall s, let t := after_all s sid i m todo in now t = now s /\ ends t = ends s /\ dist t = dist s /\ nfts t = nfts s.
Proof.
  induction todo as [|w todo IH]; intros s; cbn [after_all]; [auto|]. destruct (parts s !! (sid, w)); [|apply IH]. apply (IH (after s sid i w _)).
Qed.

Section steps.
Variable cap mint_limit pallet max_sales max_dist max_pay max_dur : N.
Let cexec := cexec cap mint_limit pallet max_sales max_dist max_pay max_dur.
Let cstep := cstep cap mint_limit pallet max_sales max_dist max_pay max_dur.
Hypothesis pallet_user : is_vault pallet = false.

Definition ALL (s : cs) : Prop := MI s /\ LI s /\ DI s /\ EI s.

Lemma exec_rest s o s' : ALL s -> good s o -> cexec s o = Ok s' -> LI s' /\ DI s' /\ EI s'.
Proof.
  intros (HM & HL & HD & HE) Hg E. unfold cexec, CrowdModel.cexec in E. inv_ok.
  match goal with H : match csigner o with _ => _ end = true |- _ => rename H into Hsig end.
  destruct o; cbn [csigner] in Hsig; try apply negb_true_iff in Hsig.
  - (* initialize *)
    unfold initialize, create_voucher in E. cbv zeta in E. inv_ok.
    match goal with H : (_, _) = ?x |- _ => destruct x as [s1 vv]; injection H as Hs1 Hvv end. inv_ok. subst s'. subst vv. subst s1.
    match goal with H : set_owner _ _ _ _ = Ok ?x |- _ => rename H into Ho, x into n end.
    set (sid := next_sale s) in *.
    assert (Hnone : sales s !! sid = None).
    { destruct (sales s !! sid) as [i|] eqn:Ei; [|reflexivity]. destruct HM as (_ & _ & M3 & _). apply M3 in Ei. subst sid. lia. }
    split; [|split].
    + intros sd who'. specialize (HL sd who'). cbn. destruct (decide (sid = sd)) as [<-|Hne].
      * rewrite lookup_insert. rewrite Hnone in HL. destruct HL as [W1 W2]. unfold log_ok. cbn.
        destruct (parts s !! (sid, who')) as [c|] eqn:Ep; [|left; auto].
        destruct HM as (_ & _ & _ & M4 & _). destruct (M4 _ _ _ Ep) as (_ & _ & [j Hj]). congruence.
      * rewrite lookup_insert_ne by exact Hne. destruct (sales s !! sd) as [i|]; [|exact HL].
        eapply log_frame; [exact HL| |auto]. intros x m. apply terms_keep. intros y c Ey Hoy. eapply set_owner_keep; eassumption.
    + destruct HD as [D1 D2]. split; [exact D1|]. intros sd. cbn. rewrite D2. destruct (decide (sid = sd)) as [<-|Hne].
      * rewrite lookup_insert, Hnone. split; intros (j & g & Ej & Eg); [discriminate|]. injection Ej as <-. discriminate Eg.
      * rewrite lookup_insert_ne by exact Hne. reflexivity.
    + intros sd j b. cbn. destruct (decide (sid = sd)) as [<-|Hne].
      * rewrite lookup_insert. intros [= <-]. discriminate.
      * rewrite lookup_insert_ne by exact Hne. apply HE.
  - (* enable *)
    unfold enable in E. cbv zeta in E. inv_ok. subst s'.
    match goal with H : sales s !! sid = Some ?x |- _ => rename x into i, H into Hs end.
    destruct (s_status i) eqn:Est; try discriminate.
    match goal with H : match ends s !! ?e with _ => _ end = Ok ?l |- _ => rename H into Hl, l into lnew; set (eb := e) in * end.
    assert (Hin : sid ∈ lnew /\ forall l0 x, ends s !! eb = Some l0 -> x ∈ l0 -> x ∈ lnew).
    { destruct (ends s !! eb) as [l0|] eqn:El.
      - destruct (_ <? _); [|discriminate]. inv_ok. subst lnew. split; [apply elem_of_app; right; left|].
        intros l1 x [= <-] Hx. apply elem_of_app. left. exact Hx.
      - inv_ok. subst lnew. split; [left|]. intros l0 x; discriminate. }
    split; [|split].
    + eapply LI_status; [exact HL|exact Hs|reflexivity|reflexivity|reflexivity|reflexivity|]. unfold paying. rewrite Est. discriminate.
    + eapply DI_status; [exact HD|exact Hs|reflexivity|reflexivity|]. cbn. rewrite Est. split; intros [g Hg']; discriminate.
    + intros sd j b Ej Eb Hd Hu. cbn in *. destruct (decide (sid = sd)) as [<-|Hne].
      * rewrite lookup_insert in Ej. injection Ej as <-. cbn in *. injection Eb as <-.
        assert (Heb : eb = now s + s_dur i) by (unfold eb; rewrite sat_id by lia; lia).
        rewrite <- Heb. split; [lia|]. split; [lia|]. rewrite lookup_insert. exists lnew. split; [reflexivity|apply Hin].
      * rewrite lookup_insert_ne in Ej by exact Hne. destruct (HE sd j b Ej Eb Hd Hu) as (H1 & H2 & k & Hk & Hki). split; [exact H1|]. split; [exact H2|].
        destruct (N.eq_dec eb (b + s_dur j)) as [Eq|Hneq].
        -- rewrite <- Eq, lookup_insert. exists lnew. split; [reflexivity|]. apply (proj2 Hin k); [congruence|exact Hki].
        -- rewrite lookup_insert_ne by exact Hneq. eauto.
  - (* participate *)
    pose proof (part_MI s who sid amt s' HM Hsig Hg E) as HM'.
    unfold participate in E. cbv zeta in E. inv_ok. subst s'.
    match goal with H : sales s !! sid = Some ?x |- _ => rename x into i, H into Hs end.
    match goal with H : (0 <? amt) = true |- _ => apply N.ltb_lt in H; rename H into Hamt end.
    destruct (s_status i) as [|b| | |] eqn:Est; try discriminate.
    split; [|split].
    + intros sd w. specialize (HL sd w). cbn [sales emit set_sale set_parts set_led parts log nfts].
      rewrite contributed_part, claims_part. destruct (decide (sid = sd)) as [<-|Hne].
      * rewrite lookup_insert. rewrite Hs in HL. rewrite N.eqb_refl. cbn [andb].
        destruct (N.eqb_spec who w) as [<-|Hw].
        -- rewrite lookup_insert. unfold log_ok in *. destruct (parts s !! (sid, who)) as [c|] eqn:Ep.
           ++ destruct HL as [-> ->]. split; [|reflexivity].
              destruct HM as (_ & _ & _ & _ & M5). destruct (M5 sid i Hs) as (_ & _ & _ & _ & _ & _ & m & _ & _ & Hst). rewrite Est in Hst.
              destruct Hst as (Hp & _). cbn [good] in Hg. rewrite Hs in Hg. pose proof (psum_part _ _ _ _ Ep). pose proof unit_val.
              rewrite sat_id by nia. reflexivity.
           ++ destruct HL as [[-> ->]|(_ & Hpy & _)]; [split; [lia|reflexivity]|]. unfold paying in Hpy. rewrite Est in Hpy. discriminate.
        -- rewrite lookup_insert_ne by congruence. rewrite N.add_0_r. eapply log_frame; [exact HL|auto|]. unfold paying. rewrite Est. discriminate.
      * rewrite !lookup_insert_ne by congruence. replace (sid =? sd) with false by (symmetry; apply N.eqb_neq; exact Hne). cbn [andb]. rewrite N.add_0_r. exact HL.
    + eapply DI_status; [exact HD|exact Hs|reflexivity|reflexivity|]. cbn. rewrite Est. split; intros [g Hg']; discriminate.
    + eapply EI_status; [exact HE|reflexivity|reflexivity|reflexivity|]. cbn. intros b' Eb. exists i. auto.
  - (* distribute *)
    destruct (distribute_spec max_pay s pick s' HM E) as (sid & rest & i & g & m & given & Hd & Hs & Est & Hm & HM' & Hs' & ->).
    set (todo := firstn _ _) in *. set (t := after_all s sid i m todo) in *.
    destruct (after_all_fields sid i m todo s) as (F1 & F2 & F3 & F4). fold t in F1, F2, F3, F4.
    split; [|split].
    + apply conclude_LI; [|rewrite Hs'; exact Hs]. eapply after_all_LI; eassumption.
    + assert (HDt : DI t) by (eapply DI_same; eassumption).
      eapply conclude_DI; [exact HDt|rewrite Hs'; exact Hs|exact Est|..].
      * destruct HD as [D1 _]. rewrite Hd in D1. apply NoDup_cons in D1. apply D1.
      * intros x. rewrite F3, Hd, elem_of_cons. destruct HD as [D1 _]. rewrite Hd in D1. apply NoDup_cons in D1.
        split; [intros Hx; split; [right; exact Hx|intros ->; apply (proj1 D1); exact Hx]|]. intros [[->|Hx] Hn]; [contradiction|exact Hx].
    + apply conclude_EI. eapply EI_same; eassumption.
  - (* claim *)
    destruct (claim_spec s who sid s' HM E) as (i & g & c & m & Hs & Est & Hc & Hm & l & Ht & HM' & Efin). rewrite (claim_form _ _ _ _ _ _ _ _ Ht) in Efin. subst s'.
    split; [|split].
    + apply conclude_LI; [|exact Hs]. eapply after_LI; eassumption.
    + eapply conclude_DI; [|exact Hs|exact Est|..].
      * eapply DI_same; [exact HD|reflexivity|reflexivity].
      * apply filter_nodup. apply HD.
      * intros x. rewrite elem_of_list_In, filter_In, <- elem_of_list_In, negb_true_iff, N.eqb_neq. reflexivity.
    + apply conclude_EI. eapply EI_same; [exact HE|reflexivity|reflexivity|reflexivity].
  - (* redeem *)
    unfold redeem in E. inv_ok. subst s'.
    match goal with H : NftModel.mint _ _ _ _ _ _ _ _ = Ok ?x |- _ => rename x into n, H into Hm end.
    split; [|split]; [|eapply DI_same; [exact HD|reflexivity|reflexivity]|eapply EI_same; [exact HE|reflexivity|reflexivity|reflexivity]].
    eapply LI_same; [exact HL|reflexivity|reflexivity|reflexivity|]. intros sd x m. apply terms_keep. intros y c Ey _. eapply mint_keep; [exact Hm|exact Ey].
  - (* force *)
    unfold force in E. inv_ok. subst s'.
    match goal with H : sales s !! sid = Some ?x |- _ => rename x into i, H into Hs end.
    destruct (s_status i) eqn:Est; try discriminate.
    destruct HM as (M1 & M2 & M3 & M4 & M5). destruct (M5 sid i Hs) as (_ & _ & _ & _ & _ & _ & m & _ & _ & Hst). rewrite Est in Hst.
    destruct (N.eqb_spec (s_funds i) 0); [lia|]. split; [|split].
    + eapply LI_status; [exact HL|exact Hs|reflexivity|reflexivity|reflexivity|reflexivity|]. unfold paying. rewrite Est. discriminate.
    + eapply DI_push; [exact HD|exact Hs| |reflexivity|reflexivity|reflexivity]. rewrite Est. discriminate.
    + eapply EI_status; [exact HE|reflexivity|reflexivity|reflexivity|cbn; discriminate].
  - unfold proxy_vault in E. inv_ok. subst s'. auto.
  - (* block *)
    inv_ok. subst s'. split; [|split]; [| |apply block_EI; assumption]; unfold new_block; cbv zeta; destruct (ends _ !! now _) as [l|].
    + apply close_all_LI; [exact HL|exact HM].
    + exact HL.
    + apply close_all_DI; [exact HD|exact HM].
    + exact HD.
  - inv_ok. subst s'. auto.
  - inv_ok. subst s'. auto.
  - inv_ok. subst s'. auto.
  - inv_ok. subst s'. auto.
  - inv_ok. subst s'. auto.
  - inv_ok. subst s'. split; [|split]; [|exact HD|exact HE].
    eapply LI_same; [exact HL|reflexivity|reflexivity|reflexivity|]. intros sd x m. apply terms_keep. intros y c Ey Ho.
    match goal with H : NftModel.nexec _ _ _ _ _ = Ok _ |- _ => apply (nexec_keep cap mint_limit pallet _ _ _ y c H Ey) end.
    + rewrite Ho. intros Ex. rewrite Ex in Hsig. apply negb_true_iff in Hsig. rewrite vault_is in Hsig. discriminate.
    + rewrite Ho. apply user_not_vault. exact pallet_user.
Qed.
Lemma step_ALL s o : good s o -> ALL s -> ALL (cstep s o).
Proof.
  intros Hg HA. split; [apply step_MI; [exact pallet_user|apply HA|exact Hg]|].
  unfold cstep, CrowdModel.cstep, commit. fold cexec. destruct (cexec s o) eqn:E; [|apply HA]. eapply exec_rest; eassumption.
Qed.
Lemma ALL0 : ALL cinit.
Proof.
  split; [apply MI0|]. split; [|split].
  - intros sid who. cbn. rewrite lookup_empty. auto.
  - split; [constructor|]. intros sid. cbn. split; [intros Hin; inversion Hin|]. intros (i & g & E & _). rewrite lookup_empty in E. discriminate.
  - intros sid i b E. cbn in E. rewrite lookup_empty in E. discriminate.
Qed.
Lemma reach_ALL ops : along cstep good ops cinit -> ALL (run cstep ops cinit).
Proof. intros Ha. eapply run_along; [|exact Ha|apply ALL0]. intros s o. apply step_ALL. Qed.
End steps.
