(** Paying out vouchers, and the crowdsale invariant along any history. *)
From Verif Require Export CrowdInv.


Lemma MI_upd s sid i i' p' l : MI s -> sales s !! sid = Some i ->
  (forall w c, p' !! (sid, w) = Some c -> is_vault w = false /\ 0 < c) ->
  (forall sd w, sd <> sid -> p' !! (sd, w) = parts s !! (sd, w)) ->
  books l -> (forall a, issuance l a = issuance (led s) a) ->
  (forall sd a, sd <> sid -> balance (led s) a (vault sd) <= balance l a (vault sd)) ->
  sale_ok l (next_asset s) (a_owner s) (nfts s) p' sid i' ->
  MI (set_sale (set_parts (set_led s l) p') sid i').
Proof.
  intros (M1 & M2 & M3 & M4 & M5) E Hw Hp Hb Hi Hv Hok. split; [exact Hb|]. split; [intros a Ha; cbn in *; rewrite Hi; auto|]. split; [|split]; cbn.
  - intros sd j. destruct (decide (sid = sd)) as [<-|Hne]; [intros _; eapply M3; exact E|]. rewrite lookup_insert_ne by exact Hne. apply M3.
  - intros sd w c Ep. destruct (decide (sid = sd)) as [<-|Hne].
    + destruct (Hw w c Ep). split; [assumption|]. split; [assumption|]. rewrite lookup_insert. eauto.
    + rewrite Hp in Ep by congruence. rewrite lookup_insert_ne by exact Hne. apply (M4 _ _ _ Ep).
  - intros sd j Ej. destruct (decide (sid = sd)) as [<-|Hne].
    + rewrite lookup_insert in Ej. injection Ej as <-. exact Hok.
    + rewrite lookup_insert_ne in Ej by exact Hne.
      eapply sale_frame; [apply M5; exact Ej| |lia|auto|apply colls_refl|intros w; apply Hp; congruence].
      intros a. apply Hv. congruence.
Qed.
Lemma set_sale_id s sid i : sales s !! sid = Some i -> set_sale s sid i = s.
Proof. intros E. destruct s. unfold set_sale. cbn in *. rewrite insert_id by exact E. reflexivity. Qed.

Lemma max_terms s sid x m : terms (nfts s) sid x m -> max_of s x = Ok m.
Proof. intros (c & Hc & _ & Hm & _). unfold max_of. rewrite Hc. cbn [of_opt rbind]. rewrite Hm. reflexivity. Qed.
Lemma terms_max s sid i m : MI s -> sales s !! sid = Some i -> max_of s (s_coll i) = Ok m -> terms (nfts s) sid (s_coll i) m.
Proof.
  intros (_ & _ & _ & _ & M5) Hs Hm. destruct (M5 sid i Hs) as (_ & _ & _ & _ & _ & _ & m' & Ht & _).
  rewrite (max_terms _ _ _ _ Ht) in Hm. injection Hm as <-. exact Ht.
Qed.
Lemma terms_fun n sid x m m' : terms n sid x m -> terms n sid x m' -> m' = m.
Proof. intros (c & Hc & _ & Hm & _) (c' & Hc' & _ & Hm' & _). congruence. Qed.

(** One payment: exactly what is due, out of the vault. *)
Lemma pay_spec s sid i g who c m : MI s -> sales s !! sid = Some i -> s_status i = Distributing g ->
  parts s !! (sid, who) = Some c -> terms (nfts s) sid (s_coll i) m ->
  let v := due (s_price i) (s_funds i) m c in
  exists l, pay_vouchers (led s) sid i who c m = Ok (l, v) /\
    transfer (led s) (s_voucher i) (vault sid) who v = Ok l /\
    MI (set_led (set_parts s (delete (sid, who) (parts s))) l).
Proof.
  intros HM Hs Est Hc Hm v. pose proof HM as (M1 & _ & _ & M4 & M5).
  destruct (M5 sid i Hs) as (H1 & H2 & H3 & H4 & H5 & H6 & m' & Hm' & Hmu & Hst). rewrite Est in Hst.
  pose proof (terms_fun _ _ _ _ _ Hm Hm') as Hmm. subst m'. clear Hm'. destruct Hst as ((Hf0 & Hf) & Hps & Hds).
  pose proof (psum_part _ _ _ _ Hc) as Hcp. destruct (M4 _ _ _ Hc) as (Hwu & Hc0 & _).
  pose proof (dsum_delete (parts s) sid who (s_price i) (s_funds i) m c Hc) as Hdd. fold v in Hdd.
  assert (Hvb : v <= balance (led s) (s_voucher i) (vault sid)) by lia.
  destruct (transfer_ok (led s) (s_voucher i) (vault sid) who v M1 Hvb) as [l Ht]. exists l.
  split; [|split; [exact Ht|]].
  - unfold pay_vouchers. rewrite (rewards_due (s_price i) (s_funds i) c m H1 Hf ltac:(lia) Hmu). cbn [rbind]. cbv zeta. fold v.
    rewrite N.min_r by exact Hvb. rewrite Ht. reflexivity.
  - pose proof (LedgerProofs.transfer_spec _ _ _ _ _ _ Ht) as (_ & _ & Hb).
    change (set_led (set_parts s (delete (sid, who) (parts s))) l) with (set_parts (set_led s l) (delete (sid, who) (parts s))).
    set (t := set_parts (set_led s l) (delete (sid, who) (parts s))).
    replace t with (set_sale t sid i) by (apply set_sale_id; exact Hs). unfold t. apply MI_upd with (i := i); auto.
    + intros w c' Ew. destruct (decide (w = who)) as [->|Hne]; [rewrite lookup_delete in Ew; discriminate|].
      rewrite lookup_delete_ne in Ew by congruence. eapply MI_parts; eassumption.
    + intros sd w Hne. rewrite lookup_delete_ne by congruence. reflexivity.
    + eapply transfer_books; eassumption.
    + intros a. eapply transfer_issuance. exact Ht.
    + intros sd a Hne. specialize (Hb a (vault sd)). destruct (decide ((s_voucher i, vault sid) = _)) as [Ex|]; [|destruct (decide _); lia].
      exfalso. injection Ex. intros Ex' _. apply vault_inj in Ex'. congruence.
    + unfold sale_ok. repeat (split; [assumption|]). exists m. split; [exact Hm|]. split; [exact Hmu|]. rewrite Est.
      split; [split; assumption|]. split.
      * pose proof (sumf_delete (fun (k : N * N) c => if fst k =? sid then c else 0) (parts s) (sid, who)) as Hx.
        fold (psum (parts s) sid) in Hx. fold (psum (delete (sid, who) (parts s)) sid) in Hx. lia.
      * specialize (Hb (s_voucher i) (vault sid)). destruct (decide ((s_voucher i, vault sid) = _)); [|congruence].
        destruct (decide _) as [Ex|]; [exfalso; injection Ex; apply (user_not_vault who sid Hwu)|]. lia.
Qed.

(** Sweeping the rest to the admin and ending the sale. *)
Lemma sweep_spec s sid i : MI s -> sales s !! sid = Some i ->
  let l := sweep (led s) sid i in
  books l /\ (forall a, issuance l a = issuance (led s) a) /\
  balance l (s_voucher i) (vault sid) = 0 /\
  balance l (s_voucher i) (s_admin i) = balance (led s) (s_voucher i) (s_admin i) + balance (led s) (s_voucher i) (vault sid) /\
  (forall a x, a <> s_voucher i \/ (x <> vault sid /\ x <> s_admin i) -> balance l a x = balance (led s) a x).
Proof.
  intros HM Hs l. pose proof HM as (M1 & _ & _ & M4 & M5). destruct (M5 sid i Hs) as (H1 & H2 & H3 & H4 & H5 & H6 & _).
  pose proof (user_not_vault (s_admin i) sid H6) as Hav. unfold l, sweep.
  destruct (N.ltb_spec 0 (balance (led s) (s_voucher i) (vault sid))) as [Hpos|Hz].
  - destruct (transfer_ok (led s) (s_voucher i) (vault sid) (s_admin i) (balance (led s) (s_voucher i) (vault sid)) M1 ltac:(lia)) as [l' Ht].
    rewrite Ht. cbn [commit]. pose proof (LedgerProofs.transfer_spec _ _ _ _ _ _ Ht) as (_ & _ & Hb).
    split; [eapply transfer_books; eassumption|]. split; [intros a; eapply transfer_issuance; exact Ht|]. split; [|split].
    + specialize (Hb (s_voucher i) (vault sid)). destruct (decide ((s_voucher i, vault sid) = _)); [|congruence].
      destruct (decide _) as [Ex|]; [exfalso; injection Ex; intros; congruence|]. lia.
    + specialize (Hb (s_voucher i) (s_admin i)). destruct (decide ((s_voucher i, s_admin i) = _)); [|congruence].
      destruct (decide _) as [Ex|]; [exfalso; injection Ex; intros; congruence|]. lia.
    + intros a x Hx. specialize (Hb a x). destruct (decide _) as [Ex|]; [exfalso; injection Ex; intros; destruct Hx as [|[]]; congruence|].
      destruct (decide _) as [Ex|]; [exfalso; injection Ex; intros; destruct Hx as [|[]]; congruence|]. lia.
  - split; [exact M1|]. split; [reflexivity|]. split; [lia|]. split; [lia|reflexivity].
Qed.
Lemma conclude_MI s sid i g given d : MI s -> sales s !! sid = Some i -> s_status i = Distributing g -> MI (conclude s sid i given d).
Proof.
  intros HM Hs Est. pose proof HM as (M1 & _ & _ & M4 & M5). pose proof (M5 sid i Hs) as (H1 & H2 & H3 & H4 & H5 & H6 & m & Hm & Hmu & Hst).
  rewrite Est in Hst. unfold conclude. destruct (parts_of (parts s) sid) as [|y r] eqn:Ep.
  - apply MI_dist. pose proof (proj1 (parts_of_nil _ _) Ep) as Hnone.
    destruct (sweep_spec s sid i HM Hs) as (Hb & Hi & _ & _ & Ho).
    set (l := sweep (led s) sid i) in *. rewrite <- (set_parts_id (set_led s l)). cbn [parts set_led]. apply MI_upd with (i := i); auto.
    + apply MI_parts. exact HM.
    + intros sd a Hne. rewrite Ho; [lia|]. right. split; [intros Ex; apply vault_inj in Ex; congruence|].
      intros Ex. apply (user_not_vault (s_admin i) sd H6). congruence.
    + unfold sale_ok. cbn. repeat (split; [assumption|]). exists m. split; [exact Hm|]. split; [exact Hmu|exact Hnone].
  - rewrite <- (set_parts_id s) at 1. change (set_parts s (parts s)) with (set_parts (set_led s (led s)) (parts s)). apply MI_upd with (i := i); auto.
    + apply MI_parts. exact HM.
    + unfold sale_ok. cbn. repeat (split; [assumption|]). exists m. split; [exact Hm|]. split; [exact Hmu|]. exact Hst.
Qed.

(** The state after paying one participant. *)
Definition after (s : cs) (sid : N) (i : sale) (who v : N) : cs :=
  emit (set_led (set_parts s (delete (sid, who) (parts s))) (commit (led s) (transfer (led s) (s_voucher i) (vault sid) who v))) (EClaim sid who v).
Lemma pay_one_spec s sid i g given who c m : MI s -> sales s !! sid = Some i -> s_status i = Distributing g ->
  parts s !! (sid, who) = Some c -> terms (nfts s) sid (s_coll i) m ->
  let v := due (s_price i) (s_funds i) m c in
  pay_one sid i m (s, given) who = (after s sid i who v, sat U128MAX (given + v)) /\ MI (after s sid i who v) /\
  is_ok (transfer (led s) (s_voucher i) (vault sid) who v) = true.
Proof.
  intros HM Hs Est Hc Hm v. destruct (pay_spec s sid i g who c m HM Hs Est Hc Hm) as (l & Hp & Ht & HM'). fold v in Hp, Ht.
  split; [|split].
  - unfold pay_one, after. rewrite Hc. cbn [set_parts led]. rewrite Hp, Ht. cbn [commit]. reflexivity.
  - unfold after. rewrite Ht. cbn [commit]. exact HM'.
  - rewrite Ht. reflexivity.
Qed.

(** Everything a round of distribution does, participant by participant. *)
Fixpoint after_all (s : cs) (sid : N) (i : sale) (m : N) (todo : list N) : cs :=
  match todo with
  | [] => s
  | w :: todo' =>
      match parts s !! (sid, w) with
      | Some c => after_all (after s sid i w (due (s_price i) (s_funds i) m c)) sid i m todo'
      | None => after_all s sid i m todo'
      end
  end.
Lemma after_sale s sid i who v : sales (after s sid i who v) = sales s.
Proof. reflexivity. Qed.
Lemma pay_all_spec sid i g m todo : forall s given, MI s -> sales s !! sid = Some i -> s_status i = Distributing g ->
  terms (nfts s) sid (s_coll i) m ->
  exists given', fold_left (pay_one sid i m) todo (s, given) = (after_all s sid i m todo, given') /\
    MI (after_all s sid i m todo) /\ sales (after_all s sid i m todo) = sales s.
Proof.
  induction todo as [|w todo IH]; intros s given HM Hs Est Hm; cbn [fold_left after_all].
  - eexists. split; [reflexivity|]. split; [exact HM|reflexivity].
  - destruct (parts s !! (sid, w)) as [c|] eqn:Ec.
    + destruct (pay_one_spec s sid i g given w c m HM Hs Est Ec Hm) as (E & HM' & _). rewrite E.
      destruct (IH (after s sid i w (due (s_price i) (s_funds i) m c)) (sat U128MAX (given + due (s_price i) (s_funds i) m c)) HM' Hs Est Hm) as (g' & E' & HM'' & Hs').
      exists g'. split; [exact E'|]. split; [exact HM''|]. rewrite Hs'. reflexivity.
    + assert (E : pay_one sid i m (s, given) w = (s, given)) by (unfold pay_one; rewrite Ec; reflexivity). rewrite E.
      apply IH; assumption.
Qed.

Lemma distribute_spec max_pay s pick s' : MI s -> distribute max_pay s pick = Ok s' ->
  exists sid rest i g m given, dist s = sid :: rest /\ sales s !! sid = Some i /\ s_status i = Distributing g /\
    terms (nfts s) sid (s_coll i) m /\
    let t := after_all s sid i m (firstn (N.to_nat max_pay) (order_of pick (parts_of (parts s) sid))) in
    MI t /\ sales t = sales s /\ s' = conclude t sid i given rest.
Proof.
  intros HM E. unfold distribute in E. inv_ok.
  match goal with H : hd_error _ = Some ?x |- _ => rename x into sid, H into Hd end.
  match goal with H : sales s !! sid = Some ?x |- _ => rename x into i, H into Hs end.
  destruct (s_status i) as [|b|g| |] eqn:Est; try discriminate. inv_ok.
  match goal with H : max_of _ _ = Ok ?x |- _ => rename x into m, H into Hm end.
  apply (terms_max s sid i m HM Hs) in Hm.
  destruct (dist s) as [|x rest] eqn:Ed; [discriminate|]. injection Hd as ->.
  set (todo := firstn (N.to_nat max_pay) (order_of pick (parts_of (parts s) sid))) in *.
  match goal with H : context [fold_left _ todo (s, ?gg)] |- _ => destruct (pay_all_spec sid i g m todo s gg HM Hs Est Hm) as (g' & Ef & HM' & Hs'); rewrite Ef in H; cbn [tl] in H; rename H into Efin end.
  inv_ok. exists sid, rest, i, g, m, g'. split; [reflexivity|]. split; [exact Hs|]. split; [exact Est|]. split; [exact Hm|]. split; [exact HM'|]. split; [exact Hs'|]. symmetry. exact Efin.
Qed.
Lemma distribute_MI max_pay s pick s' : MI s -> distribute max_pay s pick = Ok s' -> MI s'.
Proof.
  intros HM E. destruct (distribute_spec max_pay s pick s' HM E) as (sid & rest & i & g & m & given & Hd & Hs & Est & Hm & HM' & Hs' & ->).
  eapply conclude_MI; [exact HM'|rewrite Hs'; exact Hs|exact Est].
Qed.

Lemma claim_spec s who sid s' : MI s -> claim_voucher s who sid = Ok s' ->
  exists i g c m, sales s !! sid = Some i /\ s_status i = Distributing g /\ parts s !! (sid, who) = Some c /\
    terms (nfts s) sid (s_coll i) m /\
    let v := due (s_price i) (s_funds i) m c in
    exists l, transfer (led s) (s_voucher i) (vault sid) who v = Ok l /\
      let t := set_led (set_parts s (delete (sid, who) (parts s))) l in
      MI t /\ s' = emit (conclude t sid i (sat U128MAX (g + v)) (List.filter (fun x => negb (x =? sid)) (dist s))) (EClaim sid who v).
Proof.
  intros HM E. unfold claim_voucher in E. cbv zeta in E. inv_ok.
  match goal with H : sales s !! sid = Some ?x |- _ => rename x into i, H into Hs end.
  destruct (s_status i) as [|b|g| |] eqn:Est; try discriminate. inv_ok.
  match goal with H : parts s !! _ = Some ?x |- _ => rename x into c, H into Hc end.
  match goal with H : max_of _ _ = Ok ?x |- _ => rename x into m, H into Hm end.
  apply (terms_max s sid i m HM Hs) in Hm.
  destruct (pay_spec s sid i g who c m HM Hs Est Hc Hm) as (l & Hp & Ht & HM').
  cbn [set_parts led] in *. rewrite Hp in *. cbv beta iota in *. 
  match goal with H : Ok (l, _) = Ok ?x |- _ => apply Ok_inj in H; subst x end. inv_ok. subst s'. match goal with H : g = _ |- _ => rewrite <- H end.
  exists i, g, c, m. split; [exact Hs|]. split; [exact Est|]. split; [exact Hc|]. split; [exact Hm|]. exists l. split; [exact Ht|]. split; [exact HM'|]. reflexivity.
Qed.
Lemma claim_MI s who sid s' : MI s -> claim_voucher s who sid = Ok s' -> MI s'.
Proof.
  intros HM E. destruct (claim_spec s who sid s' HM E) as (i & g & c & m & Hs & Est & Hc & Hm & l & Ht & HM' & ->).
  apply MI_emit. eapply conclude_MI; [exact HM'|exact Hs|exact Est].
Qed.

Lemma MI_nft s n : MI s -> (forall sid y c, colls (nfts s) !! y = Some c -> c_owner c = vault sid -> exists c', colls n !! y = Some c' /\ same_terms c c') ->
  MI (set_nfts s n).
Proof.
  intros (M1 & M2 & M3 & M4 & M5) Hk. split; [exact M1|]. split; [exact M2|]. split; [exact M3|]. split; [exact M4|].
  intros sid i Hs. cbn in *. eapply sale_frame; [apply M5; exact Hs|intros; lia|lia|auto|apply Hk|reflexivity].
Qed.
Lemma burn_MI s a from v l : MI s -> is_vault from = false -> Ledger.burn (led s) a from v = Ok l -> MI (set_led s l).
Proof.
  intros HM Hf Ht. pose proof HM as (M1 & M2 & _). pose proof (LedgerProofs.burn_spec _ _ _ _ _ Ht M1) as (_ & Hi & Hb & _).
  apply MI_led; [exact HM|eapply burn_books; eassumption|..].
  - intros b Hbn. specialize (Hi b). destruct (M2 b Hbn) as [E _]. lia.
  - intros sid b. specialize (Hb b (vault sid)). destruct (decide _) as [Ex|]; [|lia]. exfalso. injection Ex. intros Ex' _. apply (user_not_vault from sid Hf). exact Ex'.
Qed.
Lemma redeem_MI cap mint_limit s who sid q e s' : MI s -> is_vault who = false -> redeem cap mint_limit s who sid q e = Ok s' -> MI s'.
Proof.
  intros HM Hw E. unfold redeem in E. inv_ok. subst s'.
  match goal with H : Ledger.burn _ _ _ _ = Ok ?x |- _ => rename x into l, H into Hb end.
  match goal with H : NftModel.mint _ _ _ _ _ _ _ _ = Ok ?x |- _ => rename x into n, H into Hm end.
  apply MI_nft.
  - eapply burn_MI; [exact HM|exact Hw|exact Hb].
  - intros sd y c Ey _. eapply mint_keep; [exact Hm|exact Ey].
Qed.
Lemma force_MI max_dist s sid s' : MI s -> force max_dist s sid = Ok s' -> MI s'.
Proof.
  intros HM E. unfold force in E. inv_ok. subst s'.
  match goal with H : sales s !! sid = Some ?x |- _ => rename x into i, H into Hs end.
  destruct (s_status i) eqn:Est; try discriminate.
  pose proof HM as (M1 & _ & _ & M4 & M5). pose proof (M5 sid i Hs) as (H1 & H2 & H3 & H4 & H5 & H6 & m & Hm & Hmu & Hst).
  rewrite Est in Hst. destruct Hst as ((Hf0 & Hf) & Hst). destruct (N.eqb_spec (s_funds i) 0); [lia|].
  match goal with |- MI (set_sale (set_dist s ?d) _ _) => change (MI (set_dist (set_sale s sid (with_status i (Distributing 0))) d)) end. apply MI_dist.
  rewrite <- (set_parts_id s) at 1. change (set_parts s (parts s)) with (set_parts (set_led s (led s)) (parts s)). apply MI_upd with (i := i); auto.
  - apply MI_parts. exact HM.
  - unfold sale_ok. cbn. repeat (split; [assumption|]). exists m. split; [exact Hm|]. split; [exact Hmu|]. split; [split; assumption|exact Hst].
Qed.
Lemma close_all_MI max_dist l : forall s, MI s -> MI (fold_left (close_one max_dist) l s).
Proof. induction l as [|x l IH]; intros s HM; cbn [fold_left]; [exact HM|]. apply IH, close_MI, HM. Qed.
Lemma block_MI max_dist s : MI s -> MI (new_block max_dist s).
Proof.
  intros HM. unfold new_block. cbv zeta. destruct (ends _ !! now _); [|apply MI_now; exact HM].
  apply close_all_MI, MI_ends, MI_now, HM.
Qed.

Section steps.
Variable cap mint_limit pallet max_sales max_dist max_pay max_dur : N.
Let cexec := cexec cap mint_limit pallet max_sales max_dist max_pay max_dur.
Let cstep := cstep cap mint_limit pallet max_sales max_dist max_pay max_dur.
Hypothesis pallet_user : is_vault pallet = false.

Lemma exec_MI s o s' : MI s -> good s o -> cexec s o = Ok s' -> MI s'.
Proof.
  intros HM Hg E. unfold cexec, CrowdModel.cexec in E. inv_ok.
  match goal with H : match csigner o with _ => _ end = true |- _ => rename H into Hsig end.
  destruct o; cbn [csigner] in Hsig; try apply negb_true_iff in Hsig.
  - eapply init_MI; eassumption.
  - eapply enable_MI; eassumption.
  - eapply part_MI; eassumption.
  - eapply distribute_MI; eassumption.
  - eapply claim_MI; eassumption.
  - eapply redeem_MI; eassumption.
  - eapply force_MI; eassumption.
  - unfold proxy_vault in E. inv_ok. subst s'. exact HM.
  - inv_ok. subst s'. apply block_MI. exact HM.
  - inv_ok. subst s'. destruct HM as (M1 & M2 & M3 & M4 & M5). split; [exact M1|]. split; [|split; [exact M3|split; [exact M4|]]]; cbn.
    + intros a Ha. rewrite lookup_insert_ne by lia. apply M2. lia.
    + intros sid i Hs. eapply sale_frame; [apply M5; exact Hs|intros; lia|lia| |apply colls_refl|reflexivity].
      intros a Ha. rewrite lookup_insert_ne; [exact Ha|]. intros <-. destruct (M2 (next_asset s)) as [_ Ex]; [lia|]. congruence.
  - inv_ok. subst s'. match goal with H : Ledger.mint _ _ _ _ = Ok ?x |- _ => rename x into l, H into Hm end.
    match goal with H : owns_asset _ _ _ = true |- _ => unfold owns_asset in H; apply bool_decide_eq_true in H; rename H into Ho end.
    pose proof (LedgerProofs.mint_spec _ _ _ _ _ Hm) as (_ & Hi & Hb & _).
    apply MI_led; [exact HM|eapply mint_books; [exact Hm|apply HM]|..].
    + intros b Hb'. destruct HM as (_ & M2 & _). rewrite Hi. destruct (M2 b Hb') as [Ei Eo]. destruct (N.eqb_spec a b); [congruence|lia].
    + intros sid b. rewrite Hb. lia.
  - inv_ok. subst s'. eapply burn_MI; [exact HM|exact Hg|eassumption].
  - inv_ok. subst s'.
    match goal with H : owns_asset _ _ _ = true |- _ => unfold owns_asset in H; apply bool_decide_eq_true in H; rename H into Ho end.
    destruct HM as (M1 & M2 & M3 & M4 & M5). split; [exact M1|]. split; [|split; [exact M3|split; [exact M4|]]]; cbn.
    + intros b Hb. destruct (M2 b Hb). rewrite lookup_insert_ne; [auto|]. congruence.
    + intros sid i Hs. eapply sale_frame; [apply M5; exact Hs|intros; lia|lia| |apply colls_refl|reflexivity].
      intros b Hb. rewrite lookup_insert_ne; [exact Hb|]. intros <-. rewrite Hb in Ho. injection Ho as Ho. symmetry in Ho. apply (user_not_vault who sid Hsig Ho).
  - inv_ok. subst s'. eapply MI_send; [exact HM|exact Hsig|eassumption].
  - inv_ok. subst s'. apply MI_nft; [exact HM|]. intros sid y c Ey Ho.
    match goal with H : NftModel.nexec _ _ _ _ _ = Ok _ |- _ => apply (nexec_keep cap mint_limit pallet _ _ _ y c H Ey) end.
    + rewrite Ho. intros Ex. rewrite Ex in Hsig. apply negb_true_iff in Hsig. rewrite vault_is in Hsig. discriminate.
    + rewrite Ho. apply user_not_vault. exact pallet_user.
Qed.
Lemma step_MI s o : MI s -> good s o -> MI (cstep s o).
Proof.
  intros HM Hg. unfold cstep, CrowdModel.cstep, commit. fold cexec. destruct (cexec s o) eqn:E; [|exact HM]. eapply exec_MI; eassumption.
Qed.
Lemma MI0 : MI cinit.
Proof.
  split; [apply empty_books|]. split; [intros a _; split; [unfold issuance; apply getN_empty|apply lookup_empty]|].
  split; [intros sid i E; cbn in E; rewrite lookup_empty in E; discriminate|].
  split; [intros sid w c E; cbn in E; rewrite lookup_empty in E; discriminate|].
  intros sid i E. cbn in E. rewrite lookup_empty in E. discriminate.
Qed.
Lemma reach_MI ops : along cstep good ops cinit -> MI (run cstep ops cinit).
Proof. intros Ha. eapply run_along; [|exact Ha|apply MI0]. intros s o Hg HM. apply step_MI; assumption. Qed.
End steps.
