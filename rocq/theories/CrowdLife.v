(** C103: the life of a crowdsale. *)
From Verif Require Import CrowdModel NftModel NftProofs CrowdInv CrowdLog CrowdPay CrowdVouch CrowdProps.

(** What never changes about a sale: administrator, payment asset, collection, price, voucher, duration. *)
Definition deal (i : sale) := (s_admin i, s_pay i, s_coll i, (s_price i, s_voucher i, s_dur i)).
(** Where a sale stands: 0 announced, 1 open, 2 closed but not scheduled, 3 being distributed, 4 over. *)
Definition stage (i : sale) : N := match s_status i with Pending => 0 | Enabled _ => 1 | DistFailed => 2 | Distributing _ => 3 | Ended => 4 end.

Section life.
  Variable cap mint_limit pallet max_sales max_dist max_pay max_dur : N.
  Notation cexec := (cexec cap mint_limit pallet max_sales max_dist max_pay max_dur).
  Notation cstep := (cstep cap mint_limit pallet max_sales max_dist max_pay max_dur).

  (** One step in the life of sale [sid]. *)
  Inductive life (s : cs) (o : cop) (sid : N) (i : sale) : sale -> Prop :=
  | LSame : life s o sid i i
  | LOpen : o = CEnable (s_admin i) sid -> s_status i = Pending -> life s o sid i (with_status i (Enabled (now s)))
  | LPaid who amt : o = CPart who sid amt -> 0 < amt -> stage i = 1 -> life s o sid i (with_funds i (N.min (s_funds i + amt) U128MAX))
  | LClosed st : o = CBlock -> stage i = 1 -> (st = Ended <-> s_funds i = 0) -> st = Ended \/ st = Distributing 0 \/ st = DistFailed -> life s o sid i (with_status i st)
  | LForced who st : o = CForce who sid -> stage i = 2 -> st = Ended \/ st = Distributing 0 -> life s o sid i (with_status i st)
  | LServed st : (exists pick, o = CDist pick) \/ (exists who, o = CClaim who sid) -> stage i = 3 ->
      st = Ended \/ (exists g, st = Distributing g) -> life s o sid i (with_status i st).

  Lemma parts_one_sales sid i m st w : sales (fst (pay_one sid i m st w)) = sales (fst st).
  Proof.
    unfold pay_one. destruct st as [s g]. destruct (parts s !! (sid, w)); [|reflexivity]. destruct (pay_vouchers _ _ _ _ _ _) as [[l v]|]; reflexivity.
  Qed.
  Lemma pays_sales sid i m todo : forall st, sales (fst (fold_left (pay_one sid i m) todo st)) = sales (fst st).
  Proof. induction todo as [|w todo IH]; intros st; [reflexivity|]. cbn [fold_left]. rewrite IH. apply parts_one_sales. Qed.
  Lemma conclude_sales s sid i g d : exists st, (st = Ended \/ st = Distributing g) /\ sales (conclude s sid i g d) = <[sid := with_status i st]> (sales s).
  Proof. unfold conclude. destruct (parts_of (parts s) sid); [exists Ended|exists (Distributing g)]; split; auto. Qed.

  (** Closing a block's sales. *)
  Definition shut (i i' : sale) : Prop :=
    i' = i \/ (stage i = 1 /\ exists st, i' = with_status i st /\ (st = Ended <-> s_funds i = 0) /\ (st = Ended \/ st = Distributing 0 \/ st = DistFailed)).
  Lemma close_sales s sid d i : sales s !! d = Some i -> exists i', sales (close_one max_dist s sid) !! d = Some i' /\ shut i i'.
  Proof.
    intros Hd. assert (Hsame : forall s', sales s' = sales s -> exists i', sales s' !! d = Some i' /\ shut i i').
    { intros s' ->. exists i. split; [exact Hd|left; reflexivity]. }
    unfold close_one. destruct (sales s !! sid) as [k|] eqn:Ek; [|apply Hsame; reflexivity].
    destruct (s_status k) eqn:Es; try (apply Hsame; reflexivity).
    destruct (transfer _ _ _ _ _) as [l1|]; [|apply Hsame; reflexivity]. destruct (max_of _ _) as [m|]; [|apply Hsame; reflexivity]. cbv zeta.
    destruct (if s_funds k <? _ then _ else _) as [l2|]; [|apply Hsame; reflexivity].
    assert (Hput : forall s' st, sales s' = <[sid := with_status k st]> (sales s) -> (st = Ended <-> s_funds k = 0) -> (st = Ended \/ st = Distributing 0 \/ st = DistFailed) ->
      exists i', sales s' !! d = Some i' /\ shut i i').
    { intros s' st -> H1 H2. destruct (N.eq_dec sid d) as [->|Hne].
      - rewrite lookup_insert. eexists. split; [reflexivity|]. assert (k = i) as -> by congruence. right. split; [unfold stage; rewrite Es; reflexivity|]. eauto.
      - rewrite lookup_insert_ne by exact Hne. exists i. split; [exact Hd|left; reflexivity]. }
    destruct (N.eqb_spec (s_funds k) 0) as [Hz|Hz]; [eapply (Hput _ Ended); [reflexivity|tauto|auto]|].
    destruct (_ <? max_dist); [eapply (Hput _ (Distributing 0))|eapply (Hput _ DistFailed)]; try reflexivity; auto; split; [discriminate|lia|discriminate|lia].
  Qed.
  Lemma closes_sales l : forall s d i, sales s !! d = Some i -> exists i', sales (fold_left (close_one max_dist) l s) !! d = Some i' /\ shut i i'.
  Proof.
    induction l as [|sid l IH]; intros s d i Hd; [exists i; split; [exact Hd|left; reflexivity]|]. cbn [fold_left].
    destruct (close_sales s sid d i Hd) as (i1 & H1 & S1). destruct (IH _ d i1 H1) as (i2 & H2 & S2). exists i2. split; [exact H2|].
    destruct S1 as [->|(Ha & st & -> & Hb & Hc)]; [exact S2|].
    destruct S2 as [->|(Ha' & _)]; [right; eauto 10|]. exfalso. unfold stage in Ha'. cbn in Ha'. destruct Hc as [->|[->| ->]]; discriminate.
  Qed.

  Definition numbered (s : cs) : Prop := forall sid i, sales s !! sid = Some i -> sid < next_sale s.
  Lemma exec_life s o s' : numbered s -> cexec s o = Ok s' ->
    numbered s' /\ forall sid i, sales s !! sid = Some i -> exists i', sales s' !! sid = Some i' /\ life s o sid i i'.
  Proof.
    intros Hn E.
    assert (Hsame : sales s' = sales s -> next_sale s' = next_sale s ->
      numbered s' /\ forall sid i, sales s !! sid = Some i -> exists i', sales s' !! sid = Some i' /\ life s o sid i i').
    { intros H1 H2. split; [intros sid i; rewrite H1, H2; apply Hn|]. intros sid i Hi. exists i. rewrite H1. split; [exact Hi|constructor]. }
    assert (Hput : forall d k j, sales s !! d = Some k -> sales s' = <[d := j]> (sales s) -> next_sale s' = next_sale s -> life s o d k j ->
      numbered s' /\ forall sid i, sales s !! sid = Some i -> exists i', sales s' !! sid = Some i' /\ life s o sid i i').
    { intros d k j Hd H1 H2 Hl. split.
      - intros sid i. rewrite H1, H2. intros Hi. destruct (N.eq_dec d sid) as [->|Hne]; [exact (Hn _ _ Hd)|]. rewrite lookup_insert_ne in Hi by exact Hne. exact (Hn _ _ Hi).
      - intros sid i Hi. rewrite H1. destruct (N.eq_dec d sid) as [->|Hne].
        + exists j. rewrite lookup_insert. split; [reflexivity|]. assert (k = i) as <- by congruence. exact Hl.
        + exists i. rewrite lookup_insert_ne by exact Hne. split; [exact Hi|constructor]. }
    unfold CrowdModel.cexec in E. apply rbind_ok in E. destruct E as (u & _ & E). destruct o.
    - unfold initialize in E. cbv zeta in E. inv_ok.
      match goal with H : create_voucher _ _ _ = Ok ?v |- _ => destruct v as [s1 a]; unfold create_voucher in H; cbv zeta in H end.
      inv_ok. subst s'. match goal with H : (_, _) = (s1, a) |- _ => injection H as <- <- end. cbn. split.
      + intros sid i Hi. destruct (N.eq_dec (next_sale s) sid) as [<-|Hne]; [cbn; lia|]. cbn in Hi. rewrite lookup_insert_ne in Hi by exact Hne. specialize (Hn _ _ Hi). cbn. lia.
      + intros sid i Hi. exists i. rewrite lookup_insert_ne; [split; [exact Hi|constructor]|]. specialize (Hn _ _ Hi). lia.
    - unfold enable in E. inv_ok. subst s'. eapply Hput; [eassumption|reflexivity|reflexivity|].
      match goal with H : (s_admin _ =? who) = true |- _ => apply N.eqb_eq in H; subst who end. apply LOpen; [reflexivity|]. destruct (s_status v); congruence.
    - unfold participate in E. cbv zeta in E. inv_ok. subst s'. eapply Hput; [eassumption|reflexivity|reflexivity|].
      eapply LPaid; [reflexivity|apply N.ltb_lt; assumption|]. unfold stage. destruct (s_status v); congruence.
    - unfold distribute in E. inv_ok. rename v into d, v0 into k. destruct (s_status k) as [| |g| |] eqn:Es; try discriminate. 
      destruct (fold_left _ _ _) as [s1 g1] eqn:Ef in E. injection E as <-.
      assert (H1 : sales s1 = sales s) by (change s1 with (fst (s1, g1)); rewrite <- Ef; apply pays_sales).
      destruct (conclude_sales s1 d k g1 (tl (dist s))) as (st & Hst & Hc). rewrite H1 in Hc.
      eapply (Hput d k); [eassumption|exact Hc| |].
      + assert (H2 : next_sale s1 = next_sale s); [|clear - H2; unfold conclude; destruct (parts_of (parts s1) d); exact H2].
        change s1 with (fst (s1, g1)). rewrite <- Ef. clear. generalize (firstn (N.to_nat max_pay) (order_of pick (parts_of (parts s) d))). intros todo.
        match goal with |- next_sale (fst (fold_left _ _ ?x)) = _ => change (next_sale s) with (next_sale (fst x)); generalize x end.
        induction todo as [|w todo IH]; intros st; [reflexivity|]. cbn [fold_left]. rewrite IH. unfold pay_one. destruct st as [t g0].
        destruct (parts t !! (d, w)); [|reflexivity]. destruct (pay_vouchers _ _ _ _ _ _) as [[l v]|]; reflexivity.
      + eapply LServed; [left; eauto|unfold stage; rewrite Es; reflexivity|]. destruct Hst as [->| ->]; eauto.
    - unfold claim_voucher in E. inv_ok. rename v into k. destruct (s_status k) as [| |g| |] eqn:Es; try discriminate.
      match goal with H : (let (_, _) := ?x in _) = Ok s' |- _ => destruct x as [l v] eqn:Ex end. injection E as <-.
      match goal with |- context [conclude ?t ?a ?b ?c ?dd] => destruct (conclude_sales t a b c dd) as (st & Hst & Hc) end.
      eapply (Hput sid k); [eassumption|exact Hc| |].
      + cbn. unfold conclude. destruct (parts_of _ _); reflexivity.
      + eapply LServed; [right; eauto|unfold stage; rewrite Es; reflexivity|]. destruct Hst as [->| ->]; eauto.
    - unfold redeem in E. inv_ok. subst s'. apply Hsame; reflexivity.
    - unfold force in E. inv_ok. subst s'. eapply Hput; [eassumption|reflexivity|reflexivity|]. eapply LForced; [reflexivity| |].
      + unfold stage. destruct (s_status v); congruence.
      + destruct (s_funds v =? 0); auto.
    - unfold proxy_vault in E. inv_ok. subst s'. apply Hsame; reflexivity.
    - injection E as <-. unfold new_block. cbv zeta. cbn [ends set_now now]. destruct (ends s !! (now s + 1)) as [l|]; [|split; [exact Hn|intros sid i Hi; exists i; split; [exact Hi|constructor]]].
      match goal with |- context [fold_left _ l ?t] => set (t0 := t); assert (Ht : sales t0 = sales s) by reflexivity; assert (Hx : next_sale t0 = next_sale s) by reflexivity; clearbody t0 end.
      assert (Hnx : forall l t, next_sale (fold_left (close_one max_dist) l t) = next_sale t).
      { clear. induction l as [|a l IH]; intros t; [reflexivity|]. cbn [fold_left]. rewrite IH. unfold close_one. destruct (sales t !! a) as [k|]; [|reflexivity].
        destruct (s_status k); try reflexivity. destruct (transfer _ _ _ _ _); [|reflexivity]. destruct (max_of _ _); [|reflexivity]. cbv zeta.
        destruct (if s_funds k <? _ then _ else _); [|reflexivity]. destruct (_ =? 0); [reflexivity|]. destruct (_ <? _); reflexivity. }
      split.
      + intros sid i Hi. rewrite Hnx, Hx. destruct (sales s !! sid) as [k|] eqn:Ek; [exact (Hn sid k Ek)|]. exfalso.
        assert (Hnone : forall l t, sales t !! sid = None -> sales (fold_left (close_one max_dist) l t) !! sid = None).
        { clear. induction l as [|a l IH]; intros t Ht; [exact Ht|]. cbn [fold_left]. apply IH. unfold close_one. destruct (sales t !! a) as [k|] eqn:Ea; [|exact Ht].
          assert (a <> sid) by congruence. assert (Hi : forall j, <[a := j]> (sales t) !! sid = None) by (intros j; rewrite lookup_insert_ne by assumption; exact Ht).
          destruct (s_status k); try exact Ht. destruct (transfer _ _ _ _ _); [|exact Ht]. destruct (max_of _ _); [|exact Ht]. cbv zeta.
          destruct (if s_funds k <? _ then _ else _); [|exact Ht]. destruct (_ =? 0); [apply Hi|]. destruct (_ <? _); apply Hi. }
        rewrite (Hnone l t0) in Hi; [discriminate|]. rewrite Ht. exact Ek.
      + intros sid i Hi. destruct (closes_sales l t0 sid i) as (i' & H1 & Hs); [rewrite Ht; exact Hi|]. exists i'. split; [exact H1|].
        destruct Hs as [->|(Ha & st & -> & Hb & Hc)]; [constructor|]. eapply LClosed; auto.
    - injection E as <-. apply Hsame; reflexivity.
    - inv_ok. subst s'. apply Hsame; reflexivity.
    - inv_ok. subst s'. apply Hsame; reflexivity.
    - inv_ok. subst s'. apply Hsame; reflexivity.
    - inv_ok. subst s'. apply Hsame; reflexivity.
    - inv_ok. subst s'. apply Hsame; reflexivity.
  Qed.
  Lemma run_numbered ops : numbered (run cstep ops cinit).
  Proof.
    apply (run_inv cstep numbered).
    - intros s o Hs. unfold CrowdModel.cstep. destruct (cexec s o) as [s'|] eqn:E; cbn [commit]; [|exact Hs]. exact (proj1 (exec_life s o s' Hs E)).
    - intros sid i. cbn. rewrite lookup_empty. discriminate.
  Qed.
  Lemma step_life ops o sid i : let s := run cstep ops cinit in sales s !! sid = Some i ->
    exists i', sales (cstep s o) !! sid = Some i' /\ life s o sid i i'.
  Proof.
    intros s Hi. pose proof (run_numbered ops) as Hn. fold s in Hn. unfold CrowdModel.cstep.
    destruct (cexec s o) as [s'|] eqn:E; cbn [commit]; [exact (proj2 (exec_life s o s' Hn E) sid i Hi)|]. exists i. split; [exact Hi|constructor].
  Qed.
  (** ** C103 *)
  Theorem C103_life : forall ops o sid i, let s := run cstep ops cinit in sales s !! sid = Some i ->
    exists i', sales (cstep s o) !! sid = Some i' /\ life s o sid i i' /\ deal i' = deal i /\ stage i <= stage i' /\ (1 < stage i -> s_funds i' = s_funds i).
  Proof.
    intros ops o sid i s Hi. destruct (step_life ops o sid i Hi) as (i' & H1 & H2). exists i'. split; [exact H1|]. split; [exact H2|].
    destruct H2 as [|Ho Hs|who amt Ho Ha Hs|st Ho Hs H0 Hst|who st Ho Hs Hst|st Ho Hs Hst].
    - split; [reflexivity|]. split; [lia|reflexivity].
    - split; [reflexivity|]. split; [|reflexivity]. unfold stage. rewrite Hs. cbn. lia.
    - split; [reflexivity|]. split; [|rewrite Hs; intros; lia]. unfold stage in *. cbn. lia.
    - split; [reflexivity|]. split; [|reflexivity]. rewrite Hs. unfold stage. cbn. destruct Hst as [->|[->| ->]]; lia.
    - split; [reflexivity|]. split; [|reflexivity]. rewrite Hs. unfold stage. cbn. destruct Hst as [->| ->]; lia.
    - split; [reflexivity|]. split; [|reflexivity]. rewrite Hs. unfold stage. cbn. destruct Hst as [->|[g ->]]; lia.
  Qed.
  (** The terms stay as announced and the sale never goes back, over any later history. *)
  Theorem C103_terms_fixed : forall ops1 ops2 sid i, sales (run cstep ops1 cinit) !! sid = Some i ->
    exists i', sales (run cstep (ops1 ++ ops2) cinit) !! sid = Some i' /\ deal i' = deal i /\ stage i <= stage i' /\ (1 < stage i -> s_funds i' = s_funds i).
  Proof.
    intros ops1 ops2 sid i. revert ops1 i. induction ops2 as [|o ops2 IH]; intros ops1 i Hi.
    - rewrite app_nil_r. exists i. repeat (split; [first [assumption|reflexivity]|]). reflexivity.
    - destruct (C103_life ops1 o sid i Hi) as (i1 & H1 & _ & D1 & G1 & F1). replace (ops1 ++ o :: ops2) with ((ops1 ++ [o]) ++ ops2) by (rewrite <- app_assoc; reflexivity).
      destruct (IH (ops1 ++ [o]) i1) as (i2 & H2 & D2 & G2 & F2); [rewrite run_app; exact H1|]. exists i2. split; [exact H2|]. split; [congruence|]. split; [lia|].
      intros Hg. rewrite F2 by lia. apply F1, Hg.
  Qed.
  (** Every sale was announced by somebody, who is its administrator, on the terms it has. *)
  Lemma exec_announced s o s' sid i' : cexec s o = Ok s' -> sales s !! sid = None -> sales s' !! sid = Some i' ->
    exists who pay coll price dur, o = CInit who pay coll price dur /\ s_admin i' = who /\ s_pay i' = pay /\ s_coll i' = coll /\
      s_price i' = price /\ s_dur i' = dur /\ s_funds i' = 0 /\ stage i' = 0.
  Proof.
    intros E Hno Hi.
    assert (Hsame : sales s' = sales s -> exists who pay coll price dur, o = CInit who pay coll price dur /\ s_admin i' = who /\ s_pay i' = pay /\
      s_coll i' = coll /\ s_price i' = price /\ s_dur i' = dur /\ s_funds i' = 0 /\ stage i' = 0) by (intros Hs; exfalso; rewrite Hs, Hno in Hi; discriminate).
    assert (Hput : forall d k j, sales s !! d = Some k -> sales s' = <[d := j]> (sales s) -> exists who pay coll price dur, o = CInit who pay coll price dur /\
      s_admin i' = who /\ s_pay i' = pay /\ s_coll i' = coll /\ s_price i' = price /\ s_dur i' = dur /\ s_funds i' = 0 /\ stage i' = 0).
    { intros d k j Hd Hs. exfalso. rewrite Hs, lookup_insert_ne in Hi by congruence. congruence. }
    unfold CrowdModel.cexec in E. apply rbind_ok in E. destruct E as (u & _ & E). destruct o.
    - clear Hsame Hput. unfold initialize in E. cbv zeta in E. inv_ok.
      match goal with H : create_voucher _ _ _ = Ok ?v |- _ => destruct v as [s1 a]; unfold create_voucher in H; cbv zeta in H end.
      inv_ok. subst s'. match goal with H : (_, _) = (s1, a) |- _ => injection H as <- <- end. cbn in Hi.
      destruct (N.eq_dec (next_sale s) sid) as [Hn|Hne]; [|rewrite lookup_insert_ne in Hi by exact Hne; exfalso; congruence].
      rewrite Hn, lookup_insert in Hi. injection Hi as <-. exists who, pay, coll, price, dur. cbn. tauto.
    - unfold enable in E. inv_ok. subst s'. eapply Hput; [eassumption|reflexivity].
    - unfold participate in E. cbv zeta in E. inv_ok. subst s'. eapply Hput; [eassumption|reflexivity].
    - unfold distribute in E. inv_ok. rename v into d, v0 into k. destruct (s_status k) as [| |g| |] eqn:Es; try discriminate.
      destruct (fold_left _ _ _) as [s1 g1] eqn:Ef in E. injection E as <-.
      assert (H1 : sales s1 = sales s) by (change s1 with (fst (s1, g1)); rewrite <- Ef; apply pays_sales).
      destruct (conclude_sales s1 d k g1 (tl (dist s))) as (st & Hst & Hc). rewrite H1 in Hc.
      eapply (Hput d k); [eassumption|exact Hc].
    - unfold claim_voucher in E. inv_ok. rename v into k. destruct (s_status k) as [| |g| |] eqn:Es; try discriminate.
      match goal with H : (let (_, _) := ?x in _) = Ok s' |- _ => destruct x as [l v] eqn:Ex end. injection E as <-.
      match goal with |- context [conclude ?t ?a ?b ?c ?dd] => destruct (conclude_sales t a b c dd) as (st & Hst & Hc) | _ => idtac end.
      match goal with H : context [conclude ?t ?a ?b ?c ?dd] |- _ => destruct (conclude_sales t a b c dd) as (st & Hst & Hc) end.
      eapply (Hput sid0 k); [eassumption|exact Hc].
    - unfold redeem in E. inv_ok. subst s'. apply Hsame; reflexivity.
    - unfold force in E. inv_ok. subst s'. eapply Hput; [eassumption|reflexivity].
    - unfold proxy_vault in E. inv_ok. subst s'. apply Hsame; reflexivity.
    - exfalso. injection E as <-. revert Hi. unfold new_block. cbv zeta. cbn [ends set_now now]. destruct (ends s !! (now s + 1)) as [l|]; [|cbn; congruence].
      match goal with |- context [fold_left _ l ?t] => set (t0 := t); assert (Ht : sales t0 = sales s) by reflexivity; clearbody t0 end.
      assert (Hnone : forall l t, sales t !! sid = None -> sales (fold_left (close_one max_dist) l t) !! sid = None).
      { clear. induction l as [|a l IH]; intros t Ht; [exact Ht|]. cbn [fold_left]. apply IH. unfold close_one. destruct (sales t !! a) as [k|] eqn:Ea; [|exact Ht].
        assert (a <> sid) by congruence. assert (Hi : forall j, <[a := j]> (sales t) !! sid = None) by (intros j; rewrite lookup_insert_ne by assumption; exact Ht).
        destruct (s_status k); try exact Ht. destruct (transfer _ _ _ _ _); [|exact Ht]. destruct (max_of _ _); [|exact Ht]. cbv zeta.
        destruct (if s_funds k <? _ then _ else _); [|exact Ht]. destruct (_ =? 0); [apply Hi|]. destruct (_ <? _); apply Hi. }
      rewrite (Hnone l t0); [discriminate|]. rewrite Ht. exact Hno.
    - injection E as <-. apply Hsame; reflexivity.
    - inv_ok. subst s'. apply Hsame; reflexivity.
    - inv_ok. subst s'. apply Hsame; reflexivity.
    - inv_ok. subst s'. apply Hsame; reflexivity.
    - inv_ok. subst s'. apply Hsame; reflexivity.
    - inv_ok. subst s'. apply Hsame; reflexivity.
  Qed.
  Theorem C103_announced : forall ops sid i, sales (run cstep ops cinit) !! sid = Some i ->
    In (CInit (s_admin i) (s_pay i) (s_coll i) (s_price i) (s_dur i)) ops.
  Proof.
    intros ops. induction ops as [|o ops IH] using rev_ind; intros sid i Hi.
    - cbn in Hi. rewrite lookup_empty in Hi. discriminate.
    - rewrite run_app in Hi. change (sales (cstep (run cstep ops cinit) o) !! sid = Some i) in Hi. apply in_or_app.
      destruct (sales (run cstep ops cinit) !! sid) as [k|] eqn:Ek.
      + left. destruct (C103_life ops o sid k Ek) as (i' & H1 & _ & D & _). assert (i' = i) as -> by congruence.
        unfold deal in D. injection D as -> -> -> -> _ ->. exact (IH sid k Ek).
      + right. clear IH. set (s := run cstep ops cinit) in *. clearbody s. unfold CrowdModel.cstep in Hi. destruct (cexec s o) as [s'|] eqn:E; cbn [commit] in Hi; [|exfalso; rewrite Ek in Hi; discriminate].
        destruct (exec_announced _ _ _ _ _ E Ek Hi) as (who & pay & coll & price & dur & -> & -> & -> & -> & -> & -> & _). left. reflexivity.
  Qed.
  (** Contributions are accepted only while the sale is open, vouchers redeemed only once it has closed,
      and from then on nobody can contribute any more. *)
  Theorem C103_part_open : forall s who sid amt s', cexec s (CPart who sid amt) = Ok s' -> exists i, sales s !! sid = Some i /\ stage i = 1.
  Proof.
    intros s who sid amt s' E. unfold CrowdModel.cexec in E. apply rbind_ok in E. destruct E as (u & _ & E). unfold participate in E. cbv zeta in E. inv_ok.
    exists v. split; [assumption|]. unfold stage. destruct (s_status v); congruence.
  Qed.
  Theorem C103_redeem_after : forall ops ops2 who sid q e, let s := run cstep ops cinit in is_ok (cexec s (CRedeem who sid q e)) = true ->
    forall x amt, is_ok (cexec (run cstep ops2 s) (CPart x sid amt)) = false.
  Proof.
    intros ops ops2 who sid q e s E x amt. destruct (cexec s (CRedeem who sid q e)) as [s'|] eqn:E1; [|discriminate]. clear E.
    unfold CrowdModel.cexec in E1. apply rbind_ok in E1. destruct E1 as (u & _ & E). unfold redeem in E. inv_ok.
    match goal with H : sales s !! sid = Some _ |- _ => destruct (C103_terms_fixed ops ops2 sid _ H) as (i' & Hi' & _ & Hg & _) end.
    rewrite run_app in Hi'. fold s in Hi'. assert (Hv : 3 <= stage v) by (unfold stage; destruct (s_status v); try discriminate; lia).
    destruct (cexec (run cstep ops2 s) (CPart x sid amt)) as [s2|] eqn:EP; [|reflexivity]. apply C103_part_open in EP. destruct EP as (j & Hj & Hs).
    exfalso. assert (j = i') as -> by congruence. lia.
  Qed.
End life.

(** ** A sale from beginning to end: announced, opened by its administrator (not by others), two
    contributions, closed after two blocks, distributed, redeemed; contributions before and after fail. *)
Local Notation xstep := (cstep 1000000 1000 100 5 2000 100 1944000).
Local Notation xexec := (cexec 1000000 1000 100 5 2000 100 1944000).
Definition life_a : list cop :=
  [CAsset 10; CMint 10 0 4 1000; CMint 10 0 6 1000; CNft (NCreate 7 2 0 (Some 10) 2 true); CInit 2 0 7 100 2].
Definition life_b : list cop := [CEnable 4 0; CEnable 2 0; CPart 4 0 500; CPart 6 0 500].
Definition life_c : list cop := [CBlock; CBlock; CDist []].
Definition life_stages (ops : list cop) : option (N * N) := option_map (fun i => (stage i, s_funds i)) (sales (run xstep ops cinit) !! 0).
Example C103_case : map life_stages [[]; life_a; life_a ++ life_b; life_a ++ life_b ++ [CBlock; CBlock]; life_a ++ life_b ++ life_c]
  = [None; Some (0, 0); Some (1, 1000); Some (3, 1000); Some (4, 1000)].
Proof. vm_compute. reflexivity. Qed.
Example C103_case_calls :
  is_ok (xexec (run xstep life_a cinit) (CPart 4 0 5)) = false /\
  is_ok (xexec (run xstep (life_a ++ life_b) cinit) (CRedeem 4 0 1 true)) = false /\
  is_ok (xexec (run xstep (life_a ++ life_b ++ life_c) cinit) (CRedeem 4 0 5 true)) = true /\
  is_ok (xexec (run xstep (life_a ++ life_b ++ life_c) cinit) (CPart 4 0 5)) = false.
Proof. vm_compute. auto. Qed.

Print Assumptions C103_life.
Print Assumptions C103_terms_fixed.
Print Assumptions C103_announced.
Print Assumptions C103_part_open.
Print Assumptions C103_redeem_after.
