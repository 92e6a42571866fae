(** Crowdsale: properties C24, C25, C26, C27, C66. *)
From Verif Require Import CrowdVouch.
From Verif Require Import LedgerProofs.

Section props.
Variable cap mint_limit pallet max_sales max_dist max_pay max_dur : N.
Let cexec := cexec cap mint_limit pallet max_sales max_dist max_pay max_dur.
Let cstep := cstep cap mint_limit pallet max_sales max_dist max_pay max_dur.

(** States reached by histories in which the sums raised, scaled by a million, fit in u128 and no
    asset owner burns tokens held by a sale's vault; and states reached by any history. *)
Definition reached (ops : list cop) (s : cs) : Prop := along cstep good ops cinit /\ s = run cstep ops cinit.
Definition anyhow (s : cs) : Prop := exists ops, s = run cstep ops cinit.
Hypothesis pallet_user : is_vault pallet = false.

Lemma reached_all ops s : reached ops s -> ALL s.
Proof. intros [Ha ->]. apply reach_ALL; assumption. Qed.
Lemma max_ok s sid i m : ALL s -> sales s !! sid = Some i -> max_of s (s_coll i) = Ok m -> terms (nfts s) sid (s_coll i) m.
Proof. intros HA Hs Hm. eapply terms_max; [apply HA|exact Hs|exact Hm]. Qed.
Lemma max_is s sid i : ALL s -> sales s !! sid = Some i -> exists m, max_of s (s_coll i) = Ok m /\ terms (nfts s) sid (s_coll i) m.
Proof. intros ((_ & _ & _ & _ & M5) & _) Hs. destruct (M5 sid i Hs) as (_ & _ & _ & _ & _ & _ & m & Hm & _). exists m. split; [eapply max_terms; exact Hm|exact Hm]. Qed.

(** ** C24 *)
Definition closed (i : sale) : Prop := match s_status i with Distributing _ | DistFailed => True | _ => False end.

(** What all remaining participants are due together is in the vault. *)
Theorem C24_backed ops s sid i m : reached ops s -> sales s !! sid = Some i -> closed i -> max_of s (s_coll i) = Ok m ->
  sumf (fun k c => if fst k =? sid then due (s_price i) (s_funds i) m c else 0) (parts s) <= balance (led s) (s_voucher i) (vault sid).
Proof.
  intros Hr Hs Hc Hm. pose proof (reached_all ops s Hr) as HA. pose proof (max_ok s sid i m HA Hs Hm) as Ht. destruct HA as [HM _].
  destruct HM as (_ & _ & _ & _ & M5). destruct (M5 sid i Hs) as (_ & _ & _ & _ & _ & _ & m' & Hm' & _ & Hst).
  rewrite (terms_fun _ _ _ _ _ Hm' Ht) in *. unfold closed in Hc. fold (dsum (parts s) sid (s_price i) (s_funds i) m'). destruct (s_status i); try destruct Hc; apply Hst.
Qed.
Lemma pay_balance l i sid who v l' x a : transfer l (s_voucher i) (vault sid) who v = Ok l' -> is_vault x = false -> is_vault who = false ->
  balance l' a x = balance l a x + (if (a =? s_voucher i) && (x =? who) then v else 0).
Proof.
  intros Ht Hx Hw. apply LedgerProofs.transfer_spec in Ht. destruct Ht as (_ & _ & Hb). specialize (Hb a x).
  destruct (decide ((s_voucher i, vault sid) = (a, x))) as [E|]; [exfalso; injection E; intros <- _; rewrite vault_is in Hx; discriminate|].
  destruct (decide ((s_voucher i, who) = (a, x))) as [E|Hne].
  - injection E as <- <-. rewrite !N.eqb_refl. cbn [andb]. lia.
  - replace ((a =? s_voucher i) && (x =? who)) with false; [lia|]. symmetry. apply andb_false_iff.
    destruct (N.eqb_spec a (s_voucher i)) as [->|]; [right|left; reflexivity]. apply N.eqb_neq. congruence.
Qed.
Lemma conclude_balance s sid i given d x a : is_vault x = false -> x <> s_admin i -> balance (led (conclude s sid i given d)) a x = balance (led s) a x.
Proof.
  intros Hx Ha. destruct (conclude_cases s sid i given d) as [[_ ->]|[_ ->]]; [|reflexivity]. cbn. unfold sweep. destruct (0 <? _); [|reflexivity].
  destruct (transfer _ _ _ _ _) as [l|] eqn:E; cbn [commit]; [|reflexivity]. apply LedgerProofs.transfer_spec in E. destruct E as (_ & _ & Hb). specialize (Hb a x).
  destruct (decide ((s_voucher i, vault sid) = (a, x))) as [E|]; [exfalso; injection E; intros <- _; rewrite vault_is in Hx; discriminate|].
  destruct (decide ((s_voucher i, s_admin i) = (a, x))) as [E|]; [exfalso; injection E; intros; congruence|]. lia.
Qed.
Lemma conclude_parts s sid i given d : parts (conclude s sid i given d) = parts s /\ log (conclude s sid i given d) = log s.
Proof. destruct (conclude_cases s sid i given d) as [[_ ->]|[_ ->]]; split; reflexivity. Qed.

(** A participant of a sale in distribution can claim at any moment, and gets exactly what is due. *)
Theorem C24_claim_in_full ops s sid i g who c m : reached ops s -> sales s !! sid = Some i -> s_status i = Distributing g ->
  parts s !! (sid, who) = Some c -> max_of s (s_coll i) = Ok m ->
  exists s', cexec s (CClaim who sid) = Ok s' /\
    (who <> s_admin i -> forall a, balance (led s') a who = balance (led s) a who + if a =? s_voucher i then due (s_price i) (s_funds i) m c else 0) /\
    (forall x a, is_vault x = false -> x <> who -> x <> s_admin i -> balance (led s') a x = balance (led s) a x) /\
    parts s' = delete (sid, who) (parts s) /\ log s' = log s ++ [EClaim sid who (due (s_price i) (s_funds i) m c)].
Proof.
  intros Hr Hs Est Hc Hm. pose proof (reached_all ops s Hr) as HA. pose proof (max_ok s sid i m HA Hs Hm) as Ht. destruct HA as [HM _].
  destruct (pay_spec s sid i g who c m HM Hs Est Hc Ht) as (l & Hp & Htr & HM').
  destruct (MI_parts s HM sid who c Hc) as [Hw _].
  set (v := due (s_price i) (s_funds i) m c) in *.
  exists (emit (conclude (set_led (set_parts s (delete (sid, who) (parts s))) l) sid i (sat U128MAX (g + v)) (List.filter (fun x => negb (x =? sid)) (dist s))) (EClaim sid who v)).
  split; [|split; [|split; [|split]]].
  - unfold cexec, CrowdModel.cexec. cbn [csigner]. rewrite Hw. cbn [negb ensure rbind]. unfold claim_voucher. rewrite Hs. cbn [of_opt rbind]. rewrite Est. cbn [rbind]. rewrite Hc. cbn [of_opt rbind]. cbv zeta.
    rewrite Hm. cbn [rbind set_parts led]. rewrite Hp. cbn [rbind]. reflexivity.
  - intros Hna a. cbn [emit led]. rewrite conclude_balance by assumption. cbn [set_led led]. rewrite (pay_balance _ _ _ _ _ _ _ a Htr Hw Hw), N.eqb_refl, andb_true_r. reflexivity.
  - intros x a Hx Hxw Hxa. cbn [emit led]. rewrite conclude_balance by assumption. cbn [set_led led]. rewrite (pay_balance _ _ _ _ _ _ _ a Htr Hx Hw).
    replace (x =? who) with false by (symmetry; apply N.eqb_neq; exact Hxw). rewrite andb_false_r. lia.
  - cbn [emit parts]. rewrite (proj1 (conclude_parts _ _ _ _ _)). reflexivity.
  - cbn [emit log]. rewrite (proj2 (conclude_parts _ _ _ _ _)). reflexivity.
Qed.

Lemma after_all_balance sid i g m todo : forall s, MI s -> sales s !! sid = Some i -> s_status i = Distributing g -> terms (nfts s) sid (s_coll i) m ->
  let t := after_all s sid i m todo in forall x, is_vault x = false ->
  (forall a, balance (led t) a x = balance (led s) a x + match parts s !! (sid, x), parts t !! (sid, x) with
     Some c, None => if a =? s_voucher i then due (s_price i) (s_funds i) m c else 0 | _, _ => 0 end) /\
  (parts t !! (sid, x) = parts s !! (sid, x) \/ parts t !! (sid, x) = None).
Proof.
  induction todo as [|w todo IH]; intros s HM Hs Est Hm t x Hx; cbn [after_all] in t.
  - subst t. split; [|left; reflexivity]. intros a. destruct (parts s !! (sid, x)); lia.
  - destruct (parts s !! (sid, w)) as [c|] eqn:Ec; [|apply IH; assumption].
    destruct (pay_one_spec s sid i g 0 w c m HM Hs Est Ec Hm) as (_ & HM' & Hok). set (v := due (s_price i) (s_funds i) m c) in *.
    destruct (transfer (led s) (s_voucher i) (vault sid) w v) as [l|] eqn:Et; [|discriminate]. destruct (MI_parts s HM sid w c Ec) as [Hw _].
    destruct (IH (after s sid i w v) HM' Hs Est Hm x Hx) as [IH1 IH2]. fold t in IH1, IH2.
    assert (Ep : parts (after s sid i w v) = delete (sid, w) (parts s)) by reflexivity.
    assert (El : led (after s sid i w v) = l) by (unfold after; rewrite Et; reflexivity). rewrite Ep, El in *.
    destruct (decide (w = x)) as [->|Hne].
    + rewrite lookup_delete in IH1, IH2. assert (En : parts t !! (sid, x) = None) by (destruct IH2; assumption). rewrite En, Ec. split; [|right; reflexivity].
      intros a. rewrite IH1, (pay_balance _ _ _ _ _ _ _ a Et Hx Hw), N.eqb_refl, andb_true_r, N.add_0_r. reflexivity.
    + rewrite lookup_delete_ne in IH1, IH2 by congruence. split; [|exact IH2]. intros a. rewrite IH1, (pay_balance _ _ _ _ _ _ _ a Et Hx Hw).
      replace (x =? w) with false by (symmetry; apply N.eqb_neq; congruence). rewrite andb_false_r. lia.
Qed.
(** Automatic distribution pays each participant it takes off the list exactly what is due. *)
Theorem C24_distribution_in_full ops s pick s' : reached ops s -> cexec s (CDist pick) = Ok s' ->
  exists sid i m, hd_error (dist s) = Some sid /\ sales s !! sid = Some i /\ max_of s (s_coll i) = Ok m /\
  forall x, is_vault x = false -> x <> s_admin i ->
    (parts s' !! (sid, x) = parts s !! (sid, x) \/ parts s' !! (sid, x) = None) /\
    forall a, balance (led s') a x = balance (led s) a x + match parts s !! (sid, x), parts s' !! (sid, x) with
      Some c, None => if a =? s_voucher i then due (s_price i) (s_funds i) m c else 0 | _, _ => 0 end.
Proof.
  intros Hr E. pose proof (reached_all ops s Hr) as [HM _]. unfold cexec, CrowdModel.cexec in E. cbn [csigner ensure rbind] in E.
  destruct (distribute_spec max_pay s pick s' HM E) as (sid & rest & i & g & m & given & Hd & Hs & Est & Hm & HM' & Hs' & ->).
  exists sid, i, m. split; [rewrite Hd; reflexivity|]. split; [exact Hs|]. split; [eapply max_terms; exact Hm|]. intros x Hx Hxa.
  destruct (after_all_balance sid i g m (firstn (N.to_nat max_pay) (order_of pick (parts_of (parts s) sid))) s HM Hs Est Hm x Hx) as [H1 H2].
  rewrite (proj1 (conclude_parts _ _ _ _ _)). split; [exact H2|]. intros a. rewrite conclude_balance by assumption. apply H1.
Qed.

(** ** C25 *)
(** Whatever was contributed is either still recorded in full and unpaid, or was paid once. *)
Theorem C25_at_most_once ops s sid i who : reached ops s -> sales s !! sid = Some i ->
  (parts s !! (sid, who) = (if contributed (log s) sid who =? 0 then None else Some (contributed (log s) sid who)) /\ claims (log s) sid who = []) \/
  (parts s !! (sid, who) = None /\ exists m, max_of s (s_coll i) = Ok m /\ claims (log s) sid who = [due (s_price i) (s_funds i) m (contributed (log s) sid who)]).
Proof.
  intros Hr Hs. pose proof (reached_all ops s Hr) as (HM & HL & _). specialize (HL sid who). rewrite Hs in HL. unfold log_ok in HL.
  destruct (parts s !! (sid, who)) as [c|] eqn:Ec.
  - destruct HL as [-> ->]. left. destruct (MI_parts s HM sid who c Ec) as [_ Hc]. destruct (N.eqb_spec c 0); [lia|]. auto.
  - destruct HL as [[-> ->]|(Hp & _ & m & Hm & ->)]; [left; auto|]. right. split; [reflexivity|]. exists m. split; [eapply max_terms; exact Hm|reflexivity].
Qed.
(** Once a sale has ended, everybody who contributed was paid exactly once, exactly what is due. *)
Theorem C25_all_served ops s sid i who : reached ops s -> sales s !! sid = Some i -> s_status i = Ended -> 0 < contributed (log s) sid who ->
  exists m, max_of s (s_coll i) = Ok m /\ claims (log s) sid who = [due (s_price i) (s_funds i) m (contributed (log s) sid who)].
Proof.
  intros Hr Hs Est Hpos. pose proof (reached_all ops s Hr) as (HM & HL & _). specialize (HL sid who). rewrite Hs in HL. unfold log_ok in HL.
  assert (En : parts s !! (sid, who) = None).
  { destruct HM as (_ & _ & _ & _ & M5). destruct (M5 sid i Hs) as (_ & _ & _ & _ & _ & _ & m' & _ & _ & Hst). rewrite Est in Hst. apply Hst. }
  rewrite En in HL. destruct HL as [[H _]|(_ & _ & m & Hm & ->)]; [lia|]. exists m. split; [eapply max_terms; exact Hm|reflexivity].
Qed.

(** The distribution comes to an end, however the participants are picked. *)
Lemma after_all_size sid i m todo : forall s, (size (parts (after_all s sid i m todo)) <= size (parts s))%nat /\
  (match todo with w :: _ => is_Some (parts s !! (sid, w)) | [] => False end -> (size (parts (after_all s sid i m todo)) < size (parts s))%nat).
Proof.
  induction todo as [|w todo IH]; intros s; cbn [after_all]; [split; [lia|intros []]|].
  destruct (parts s !! (sid, w)) as [c|] eqn:Ec.
  - set (t := after s sid i w _). destruct (IH t) as [H1 _]. assert (Et : (size (parts t) < size (parts s))%nat).
    { unfold t, after. cbn [emit set_led set_parts parts]. rewrite map_size_delete_Some by eauto.
      assert (size (parts s) <> 0%nat); [|lia]. intros E0. apply map_size_empty_inv in E0. rewrite E0, lookup_empty in Ec. discriminate. }
    split; [lia|]. intros _. lia.
  - split; [apply IH|]. intros [c Hc]. discriminate.
Qed.
Definition measure (s : cs) : nat := (size (parts s) + length (dist s))%nat.
Lemma dist_step s pick : ALL s -> 0 < max_pay -> dist s <> [] -> (measure (cstep s (CDist pick)) < measure s)%nat.
Proof.
  intros (HM & HL & HD & HE) Hp Hd.
  destruct (dist s) as [|sid rest] eqn:Ed; [contradiction|].
  destruct (proj1 (proj2 HD sid)) as (i & g & Hs & Est); [rewrite Ed; left|].
  assert (Hok : exists s', cexec s (CDist pick) = Ok s').
  { unfold cexec, CrowdModel.cexec. cbn [csigner ensure rbind]. unfold distribute. rewrite Ed. cbn [hd_error of_opt rbind]. rewrite Hs. cbn [of_opt rbind]. rewrite Est. cbn [rbind].
    destruct (max_is s sid i (conj HM (conj HL (conj HD HE))) Hs) as (m & Hm & _). rewrite Hm. cbn [rbind]. destruct (fold_left _ _ _). eauto. }
  destruct Hok as [s' E]. unfold cstep, CrowdModel.cstep. fold cexec. rewrite E. cbn [commit].
  unfold cexec, CrowdModel.cexec in E. cbn [csigner ensure rbind] in E.
  destruct (distribute_spec max_pay s pick s' HM E) as (sid' & rest' & i' & g' & m & given & Hd' & Hs' & Est' & Hm & HM' & Hss & ->).
  rewrite Ed in Hd'. injection Hd' as <- <-. set (todo := firstn _ _). set (t := after_all s sid i' m todo).
  destruct (after_all_fields sid i' m todo s) as (_ & _ & F3 & _). fold t in F3.
  destruct (after_all_size sid i' m todo s) as [S1 S2]. fold t in S1, S2. unfold measure. rewrite (proj1 (conclude_parts _ _ _ _ _)).
  destruct (conclude_cases t sid i' given rest) as [[_ Ec]|[Hne Ec]]; rewrite Ec; cbn [dist set_dist set_sale]; rewrite ?F3, Ed; cbn [length]; [lia|].
  enough (size (parts t) < size (parts s))%nat by lia. apply S2.
  assert (Hpo : parts_of (parts s) sid <> []).
  { intros En. apply Hne. rewrite parts_of_nil in En |- *. intros who. destruct (HM') as (_ & _ & _ & _ & _).
    assert (Hk : forall todo' u w, parts u !! (sid, w) = None -> parts (after_all u sid i' m todo') !! (sid, w) = None).
    { clear. induction todo' as [|y todo' IH]; intros u w Hu; cbn [after_all]; [exact Hu|]. destruct (parts u !! (sid, y)); [|apply IH; exact Hu].
      apply IH. unfold after. cbn [emit set_led set_parts parts]. apply lookup_delete_None. right. exact Hu. }
    apply Hk. apply En. }
  assert (Hin : forall w, w ∈ order_of pick (parts_of (parts s) sid) -> is_Some (parts s !! (sid, w))).
  { intros w Hw. apply order_in in Hw. apply parts_of_in in Hw. exact Hw. }
  unfold todo. destruct (order_of pick (parts_of (parts s) sid)) as [|w l] eqn:Eo.
  - exfalso. destruct (parts_of (parts s) sid) as [|y k] eqn:Ek; [contradiction|]. assert (Hy : y ∈ order_of pick (y :: k)) by (apply order_in; left). rewrite Eo in Hy. inversion Hy.
  - destruct (N.to_nat max_pay) eqn:En; [lia|]. cbn [firstn]. apply Hin. left.
Qed.
Lemma dist_idle picks : forall s, dist s = [] -> run cstep (map CDist picks) s = s.
Proof.
  induction picks as [|p picks IH]; intros s Ed; [reflexivity|]. cbn [map].
  change (run cstep (CDist p :: map CDist picks) s) with (run cstep (map CDist picks) (cstep s (CDist p))).
  assert (E : cstep s (CDist p) = s).
  { unfold cstep, CrowdModel.cstep, CrowdModel.cexec. cbn [csigner ensure rbind]. unfold distribute. rewrite Ed. reflexivity. }
  rewrite E. apply IH. exact Ed.
Qed.
Lemma dist_run picks : forall s, ALL s -> 0 < max_pay -> (measure s <= length picks)%nat ->
  ALL (run cstep (map CDist picks) s) /\ dist (run cstep (map CDist picks) s) = [].
Proof.
  induction picks as [|p picks IH]; intros s HA Hp Hle.
  - cbn. split; [exact HA|]. unfold measure in Hle. cbn in Hle. destruct (dist s); [reflexivity|cbn in Hle; lia].
  - destruct (dist s) as [|x d] eqn:Ed; [rewrite dist_idle by exact Ed; split; assumption|].
    cbn [map]. change (run cstep (CDist p :: map CDist picks) s) with (run cstep (map CDist picks) (cstep s (CDist p))).
    apply IH; [apply step_ALL; [exact pallet_user|exact I|exact HA]|exact Hp|].
    pose proof (dist_step s p HA Hp ltac:(rewrite Ed; discriminate)) as Hlt. cbn [length] in Hle. lia.
Qed.
Lemma dist_status picks : forall s sid i, ALL s -> sales s !! sid = Some i -> paying i = true ->
  exists i', sales (run cstep (map CDist picks) s) !! sid = Some i' /\ paying i' = true.
Proof.
  induction picks as [|p picks IH]; intros s sid i HA Hs Hp; [exists i; auto|]. cbn [map].
  change (run cstep (CDist p :: map CDist picks) s) with (run cstep (map CDist picks) (cstep s (CDist p))).
  assert (Hn : exists i', sales (cstep s (CDist p)) !! sid = Some i' /\ paying i' = true).
  { unfold cstep, CrowdModel.cstep. fold cexec. destruct (cexec s (CDist p)) as [s'|] eqn:E; cbn [commit]; [|exists i; auto].
    unfold cexec, CrowdModel.cexec in E. cbn [csigner ensure rbind] in E. destruct HA as [HM _].
    destruct (distribute_spec max_pay s p s' HM E) as (sd & rest & j & g & m & given & Hd & Hj & Est & Hm & HM' & Hss & ->).
    set (t := after_all _ _ _ _ _) in *.
    destruct (conclude_cases t sd j given rest) as [[_ Ec]|[_ Ec]]; rewrite Ec; cbn; rewrite Hss; (destruct (decide (sd = sid)) as [->|Hne];
      [rewrite lookup_insert; eexists; split; reflexivity|rewrite lookup_insert_ne by exact Hne; exists i; auto]). }
  destruct Hn as (i' & Hs' & Hp'). apply (IH _ sid i'); [apply step_ALL; [exact pallet_user|exact I|exact HA]|exact Hs'|exact Hp'].
Qed.
Theorem C25_distribution_ends ops s sid i g picks : reached ops s -> 0 < max_pay -> sales s !! sid = Some i -> s_status i = Distributing g ->
  (size (parts s) + length (dist s) <= length picks)%nat ->
  exists i', sales (run cstep (map CDist picks) s) !! sid = Some i' /\ s_status i' = Ended.
Proof.
  intros Hr Hp Hs Est Hle. pose proof (reached_all ops s Hr) as HA. destruct (dist_run picks s HA Hp Hle) as [HA' Hd].
  destruct (dist_status picks s sid i HA Hs ltac:(unfold paying; rewrite Est; reflexivity)) as (i' & Hs' & Hp'). exists i'. split; [exact Hs'|].
  unfold paying in Hp'. destruct (s_status i') as [|b|g'| |] eqn:E'; try discriminate; [|reflexivity]. exfalso.
  destruct HA' as (_ & _ & HD & _). assert (Hin : sid ∈ dist (run cstep (map CDist picks) s)) by (apply (proj2 HD); eauto). rewrite Hd in Hin. inversion Hin.
Qed.

(** ** C26 *)
(** An enabled sale (of non-zero duration) is only ever seen before its end block. *)
Theorem C26_closes ops s sid i b : reached ops s -> sales s !! sid = Some i -> s_status i = Enabled b -> 0 < s_dur i -> b + s_dur i <= U32MAX ->
  now s < b + s_dur i.
Proof. intros Hr Hs Est Hd Hu. pose proof (reached_all ops s Hr) as (_ & _ & _ & HE). apply (HE sid i b); assumption. Qed.
(** Closing delivers what was raised to the admin, and the sale goes on to distribution (or ends
    when nothing was raised). *)
Theorem C26_close_delivers ops s sid i b : reached ops s -> sales s !! sid = Some i -> s_status i = Enabled b ->
  let s' := close_one max_dist s sid in
  balance (led s') (s_pay i) (s_admin i) = balance (led s) (s_pay i) (s_admin i) + s_funds i /\
  balance (led s') (s_pay i) (vault sid) + s_funds i = balance (led s) (s_pay i) (vault sid) /\
  (forall a x, is_vault x = false -> x <> s_admin i -> balance (led s') a x = balance (led s) a x) /\
  exists i', sales s' !! sid = Some i' /\ (if s_funds i =? 0 then s_status i' = Ended else closed i').
Proof.
  intros Hr Hs Est s'. pose proof (reached_all ops s Hr) as [HM _].
  destruct (close_spec max_dist s sid i b HM Hs Est) as (l1 & l2 & st & d & Ht1 & _ & _ & _ & Hu & Hadm & Hv & _ & _ & E & Hc).
  subst s'. rewrite E. cbn [set_sale set_dist set_led led sales]. split; [exact Hadm|]. split.
  - rewrite Hv. apply LedgerProofs.transfer_spec in Ht1. destruct Ht1 as [Hle _]. lia.
  - split; [exact Hu|]. rewrite lookup_insert. eexists. split; [reflexivity|]. unfold closed. cbn.
    destruct Hc as [(Ef & -> & _)|[(Ef & -> & _)|(Ef & -> & _)]]; destruct (N.eqb_spec (s_funds i) 0); try lia; auto.
Qed.

(** A sale that is enabled and on no block's schedule ahead stays enabled for ever. *)
Definition unscheduled (s : cs) (sid : N) : Prop :=
  (exists i b, sales s !! sid = Some i /\ s_status i = Enabled b) /\ forall e l, ends s !! e = Some l -> sid ∈ l -> e <= now s.
Lemma close_other s x sid : x <> sid -> sales (close_one max_dist s x) !! sid = sales s !! sid.
Proof.
  intros Hne. unfold close_one. destruct (sales s !! x) as [i|]; [|reflexivity]. destruct (s_status i); try reflexivity. destruct (transfer _ _ _ _ _); [|reflexivity].
  destruct (max_of _ _); [|reflexivity]. cbv zeta. destruct (if s_funds i <? _ then _ else _); [|reflexivity]. destruct (s_funds i =? 0); [|destruct (N.of_nat _ <? _)]; cbn; apply lookup_insert_ne; exact Hne.
Qed.
Lemma close_all_other l : forall s sid, sid ∉ l -> sales (fold_left (close_one max_dist) l s) !! sid = sales s !! sid.
Proof.
  induction l as [|x l IH]; intros s sid Hni; cbn [fold_left]; [reflexivity|]. rewrite not_elem_of_cons in Hni. destruct Hni as [H1 H2].
  rewrite IH by exact H2. apply close_other. congruence.
Qed.
Lemma pay_fold_ends sid i m todo : forall s g, let r := fold_left (pay_one sid i m) todo (s, g) in ends (fst r) = ends s /\ now (fst r) = now s.
Proof.
  induction todo as [|w todo IH]; intros s g; cbn [fold_left]; [auto|]. unfold pay_one at 2 4. destruct (parts s !! (sid, w)) as [c|]; [|apply IH].
  cbv zeta. destruct (pay_vouchers _ _ _ _ _ _) as [[l v]|]; match goal with |- context [fold_left _ todo (?t, ?h)] => destruct (IH t h) as [Q Es] end; split; assumption.
Qed.
Lemma conclude_sched s sid i given d : ends (conclude s sid i given d) = ends s /\ now (conclude s sid i given d) = now s /\
  forall sd, sd <> sid -> sales (conclude s sid i given d) !! sd = sales s !! sd.
Proof. destruct (conclude_cases s sid i given d) as [[_ ->]|[_ ->]]; cbn; (split; [reflexivity|split; [reflexivity|intros sd Hsd; apply lookup_insert_ne; congruence]]). Qed.
Lemma stuck_step R s sid o : VI R s -> unscheduled s sid -> unscheduled (cstep s o) sid.
Proof.
  intros HV [(i & b & Hs & Est) Hsch]. unfold cstep, CrowdModel.cstep. fold cexec. destruct (cexec s o) as [s'|] eqn:E; cbn [commit]; [|split; eauto].
  pose proof HV as (V0 & V1 & V2 & V3 & V4).
  unfold cexec, CrowdModel.cexec in E. inv_ok. destruct o.
  - unfold initialize, create_voucher in E. cbv zeta in E. inv_ok.
    match goal with H : (_, _) = ?x |- _ => destruct x as [s1 vv]; injection H as Hs1 Hvv end. inv_ok. subst s'. subst vv. subst s1. split; [|exact Hsch].
    exists i, b. cbn. rewrite lookup_insert_ne; [auto|]. intros Ex. rewrite V2 in Hs; [discriminate|lia].
  - unfold enable in E. cbv zeta in E. inv_ok. subst s'.
    match goal with H : sales s !! sid0 = Some ?x |- _ => rename x into j, H into Hj end.
    assert (Hne : sid0 <> sid). { intros ->. rewrite Hs in Hj. injection Hj as <-. rewrite Est in *. discriminate. }
    split; [exists i, b; cbn; rewrite lookup_insert_ne by exact Hne; auto|]. intros e l. cbn [set_sale set_ends ends now].
    match goal with |- context [<[?k := ?v]> _] => destruct (decide (k = e)) as [Eq|Hke]; [subst e; rewrite lookup_insert|rewrite lookup_insert_ne by exact Hke; apply Hsch] end.
    intros El Hin. injection El as ->.
    match goal with H : match ends s !! ?k with _ => _ end = Ok _ |- _ => destruct (ends s !! k) as [l0|] eqn:Ek; rename H into Hl end.
    + destruct (_ <? _) in Hl; [|discriminate]. inv_ok. match goal with H : l0 ++ _ = l |- _ => subst l end. apply elem_of_app in Hin. destruct Hin as [Hin|Hin]; [eapply Hsch; eassumption|]. apply elem_of_list_singleton in Hin. congruence.
    + inv_ok. match goal with H : [_] = l |- _ => subst l end. apply elem_of_list_singleton in Hin. congruence.
  - unfold participate in E. cbv zeta in E. inv_ok. subst s'. split; [|exact Hsch]. cbn.
    match goal with H : sales s !! sid0 = Some ?x |- _ => rename x into j, H into Hj end.
    destruct (decide (sid0 = sid)) as [->|Hne]; [rewrite lookup_insert; do 2 eexists; split; [reflexivity|]; cbn; assert (j = i) by congruence; subst j; exact Est|rewrite lookup_insert_ne by exact Hne; eauto].
  - unfold distribute in E. inv_ok.
    match goal with H : hd_error _ = Some ?y |- _ => rename y into sd end.
    match goal with H : sales s !! sd = Some ?x |- _ => rename x into j, H into Hj end.
    assert (Hne : sid <> sd). { intros ->. rewrite Hs in Hj. injection Hj as <-. rewrite Est in *. discriminate. }
    match goal with H : context [fold_left (pay_one sd j ?m) ?td (s, ?g)] |- _ =>
      destruct (quiet_pay sd j m td s g) as [_ Es]; destruct (pay_fold_ends sd j m td s g) as [F1 F2]; destruct (fold_left (pay_one sd j m) td (s, g)) as [t g1]; rename H into Ef end.
    cbn [fst] in *. inv_ok. subst s'. match goal with |- unscheduled (conclude t sd j ?g ?d) sid => destruct (conclude_sched t sd j g d) as (C1 & C2 & C3) end.
    split; [exists i, b; rewrite C3, Es by exact Hne; auto|]. rewrite C1, C2, F1, F2. exact Hsch.
  - unfold claim_voucher in E. cbv zeta in E. inv_ok.
    match goal with H : sales s !! sid0 = Some ?x |- _ => rename x into j, H into Hj end.
    assert (Hne : sid <> sid0). { intros ->. rewrite Hs in Hj. injection Hj as <-. rewrite Est in *. discriminate. }
    match goal with H : match ?p with Ok _ => _ | Err _ => _ end = Ok ?x |- _ => destruct p as [[l w]|] eqn:Ep; [|discriminate H]; apply Ok_inj in H; subst x end. inv_ok. subst s'.
    match goal with |- unscheduled (emit (conclude ?t _ j ?g ?d) _) sid => destruct (conclude_sched t sid0 j g d) as (C1 & C2 & C3) end.
    split; [exists i, b; cbn [emit sales]; rewrite C3 by exact Hne; auto|]. cbn [emit ends now]. rewrite C1, C2. exact Hsch.
  - unfold redeem in E. inv_ok. subst s'. split; [|exact Hsch]. eauto.
  - unfold force in E. inv_ok. subst s'. split; [|exact Hsch]. cbn.
    match goal with H : sales s !! sid0 = Some ?x |- _ => rename x into j, H into Hj end.
    assert (Hne : sid0 <> sid). { intros ->. rewrite Hs in Hj. injection Hj as <-. rewrite Est in *. discriminate. }
    rewrite lookup_insert_ne by exact Hne. eauto.
  - unfold proxy_vault in E. inv_ok. subst s'. split; eauto.
  - inv_ok. subst s'. unfold new_block. cbv zeta. cbn [set_now now ends]. destruct (ends s !! (now s + 1)) as [l|] eqn:El.
    + set (t := set_ends _ _). assert (Hni : sid ∉ l) by (intros Hin; specialize (Hsch _ _ El Hin); lia).
      destruct (close_all_fields max_dist l t) as (F1 & F2 & _). split; [exists i, b; rewrite close_all_other by exact Hni; auto|].
      rewrite F1, F2. cbn. intros e k. destruct (decide (now s + 1 = e)) as [<-|Hne]; [rewrite lookup_delete; discriminate|]. rewrite lookup_delete_ne by exact Hne.
      intros Ek Hin. specialize (Hsch e k Ek Hin). lia.
    + split; [exists i, b; auto|]. cbn. intros e k Ek Hin. specialize (Hsch e k Ek Hin). lia.
  - inv_ok. subst s'. split; eauto.
  - inv_ok. subst s'. split; eauto.
  - inv_ok. subst s'. split; eauto.
  - inv_ok. subst s'. split; eauto.
  - inv_ok. subst s'. split; eauto.
  - inv_ok. subst s'. split; eauto.
Qed.
Theorem C26_unscheduled_forever s sid ops : mint_limit <= 4294 -> anyhow s -> unscheduled s sid -> unscheduled (run cstep ops s) sid.
Proof.
  intros Hl [ops0 ->] Hu.
  assert (H : exists R, VI R (run cstep ops (run cstep ops0 cinit)) /\ unscheduled (run cstep ops (run cstep ops0 cinit)) sid); [|destruct H as (R & _ & H); exact H].
  apply (run_inv cstep (fun s => exists R, VI R s /\ unscheduled s sid)).
  - intros s o (R & HV & HU). pose proof (run_VI cap mint_limit pallet max_sales max_dist max_pay max_dur pallet_user Hl [o] R s HV) as HV1.
    eexists. split; [exact HV1|]. eapply stuck_step; eassumption.
  - eexists. split; [|exact Hu]. apply (run_VI cap mint_limit pallet max_sales max_dist max_pay max_dur pallet_user Hl ops0 _ cinit VI0).
Qed.

(** ** C27 *)
Theorem C27_redeem_exact ops s who sid q e s' : mint_limit <= 4294 -> reached ops s -> cexec s (CRedeem who sid q e) = Ok s' ->
  exists i c c', sales s !! sid = Some i /\ colls (nfts s) !! s_coll i = Some c /\ colls (nfts s') !! s_coll i = Some c' /\
    balance (led s') (s_voucher i) who + q * UNIT = balance (led s) (s_voucher i) who /\
    issuance (led s') (s_voucher i) + q * UNIT = issuance (led s) (s_voucher i) /\
    (forall a x, (a, x) <> (s_voucher i, who) -> balance (led s') a x = balance (led s) a x) /\
    c_next c' = c_next c + q /\ c_iss c' = c_iss c + q /\
    (forall y, y <> s_coll i -> colls (nfts s') !! y = colls (nfts s) !! y) /\
    (WF (nfts s) -> forall y n, owns (nfts s') (s_coll i) y n <-> owns (nfts s) (s_coll i) y n \/ (y = who /\ c_next c <= n < c_next c + q)).
Proof.
  intros Hl Hr E. pose proof (reached_all ops s Hr) as [(M1 & _) _]. unfold cexec, CrowdModel.cexec in E. inv_ok.
  destruct (redeem_spec cap mint_limit s who sid q e s' Hl E) as (i & l & n & Hs & Hb & Hq & Hm & ->).
  destruct (mint_counts _ _ _ _ _ _ _ _ _ Hm) as (c & c' & Hc & Hc' & Hnx & Hiss & _ & Hmx & Hoth).
  apply LedgerProofs.burn_spec in Hb; [|exact M1]. destruct Hb as (_ & Hi & Hb & _).
  exists i, c, c'. cbn [set_nfts set_led led nfts]. split; [exact Hs|]. split; [exact Hc|]. split; [exact Hc'|]. split.
  { specialize (Hb (s_voucher i) who). rewrite decide_True in Hb by reflexivity. exact Hb. }
  split; [specialize (Hi (s_voucher i)); rewrite N.eqb_refl in Hi; exact Hi|]. split.
  { intros a x Hne. specialize (Hb a x). rewrite decide_False in Hb by congruence. lia. }
  split; [exact Hnx|]. split; [exact Hiss|]. split; [exact Hoth|]. intros Hw y k.
  destruct (NftProofs.mint_spec _ _ _ _ _ _ _ _ _ Hw Hm) as (c0 & Hc0 & _ & _ & _ & _ & _ & Ho & _). assert (c0 = c) by congruence. subst c0. rewrite Ho. tauto.
Qed.
(** Along any history: what was redeemed and the vouchers left make up the supply offered. *)
Theorem C27_bounded ops sid i m : mint_limit <= 4294 -> let s := run cstep ops cinit in
  sales s !! sid = Some i -> max_of s (s_coll i) = Ok m ->
  redeemed cap mint_limit pallet max_sales max_dist max_pay max_dur cinit ops sid <= m /\
  issuance (led s) (s_voucher i) = (m - redeemed cap mint_limit pallet max_sales max_dist max_pay max_dur cinit ops sid) * UNIT.
Proof.
  intros Hl s Hs Hm. destruct (run_VI cap mint_limit pallet max_sales max_dist max_pay max_dur pallet_user Hl ops _ cinit VI0) as (_ & _ & _ & _ & V4).
  destruct (V4 sid i Hs) as (_ & _ & m' & Hm' & E). assert (m' = m) by (apply Ok_inj; rewrite <- Hm; symmetry; apply (max_terms _ _ _ _ Hm')). subst m'. cbn beta in E.
  set (r := redeemed _ _ _ _ _ _ _ _ _ _) in *. fold cstep in E. fold s in E. rewrite N.add_0_l in E. rewrite unit_val in *. split; [nia|].
  rewrite N.mul_sub_distr_r. lia.
Qed.

(** ** C66 *)
(** On a collection that never had a token before, whole vouchers can be redeemed, up to the
    checks that are about the collection and not about the sale. *)
Theorem C66_redeemable ops s sid i c who q t : mint_limit <= 4294 -> reached ops s -> along cstep unminted ops cinit ->
  sales s !! sid = Some i -> paying i = true -> colls (nfts s) !! s_coll i = Some c ->
  is_vault who = false -> 0 < q <= mint_limit -> q * UNIT <= balance (led s) (s_voucher i) who ->
  c_root c = true -> c_mintable c = true -> c_iss c + q < cap -> c_next c + q <= cap -> cap <= U32MAX ->
  add_user_tokens cap (c_toks c) who (serials (c_next c) q) = Some t ->
  is_ok (cexec s (CRedeem who sid q true)) = true.
Proof.
  intros Hl Hr Hf Hs Hp Hc Hw Hq Hbal Hroot Hmint Hcap Hnc Hcu Hadd. pose proof (reached_all ops s Hr) as [HM _]. destruct Hr as [Ha Es].
  pose proof (run_NX cap mint_limit pallet max_sales max_dist max_pay max_dur pallet_user Hl ops Hf) as HX. fold cstep in HX. rewrite <- Es in HX.
  destruct HM as (M1 & _ & _ & _ & M5). destruct (M5 sid i Hs) as (_ & _ & _ & _ & _ & _ & m & (c0 & Hc0 & Hown & Hmx & Hpub) & _).
  assert (c0 = c) by congruence. subst c0. specialize (HX sid i c m Hs Hc Hmx).
  assert (Hle : q * UNIT <= issuance (led s) (s_voucher i)).
  { eapply N.le_trans; [exact Hbal|]. destruct (M1 (s_voucher i)) as [Et _]. rewrite <- Et. apply balance_le_total. }
  assert (Hnm : c_next c + q <= m) by (rewrite unit_val in *; lia).
  unfold cexec, CrowdModel.cexec. cbn [csigner]. rewrite Hw. cbn [negb ensure rbind]. unfold redeem.
  destruct (N.ltb_spec 0 q); [|lia]. cbn [ensure rbind]. rewrite Hs. cbn [of_opt rbind]. unfold paying in Hp.
  replace (match s_status i with Distributing _ | Ended => true | _ => false end) with true. cbn [ensure rbind].
  rewrite sat_id by (rewrite unit_val; unfold U32MAX; lia).
  unfold Ledger.burn. destruct (N.ltb_spec (balance (led s) (s_voucher i) who) (q * UNIT)); [lia|]. cbn [of_opt rbind].
  unfold NftModel.mint, pre_mint, do_mint, chk_add. destruct (N.leb_spec q mint_limit); [|lia]. cbn [ensure rbind]. rewrite Hc. cbn [of_opt rbind]. rewrite Hmint. cbn [ensure rbind].
  destruct (N.ltb_spec 0 q); [|lia]. rewrite Hown, N.eqb_refl. cbn [orb ensure rbind]. rewrite sat_id by lia. destruct (N.ltb_spec (c_iss c + q) cap); [|lia]. cbn [ensure rbind].
  rewrite Hroot. cbn [ensure rbind]. destruct (N.leb_spec (c_next c + q) U32MAX); [|lia]. cbn [of_opt rbind]. destruct (N.leb_spec (c_next c + q) cap); [|lia]. cbn [ensure rbind].
  rewrite Hmx. destruct (N.leb_spec (c_next c + q) m); [|lia]. cbn [ensure rbind of_opt]. rewrite serials_length, N2Nat.id. cbn [with_next c_iss c_toks].
  destruct (N.leb_spec (c_iss c + q) U32MAX); [|lia]. cbn [of_opt rbind]. destruct (N.leb_spec (c_iss c + q) cap); [|lia]. cbn [ensure rbind]. rewrite Hadd. reflexivity.
Qed.
(** The last token of a collection sold up to the pallet-wide limit cannot be redeemed. *)
Theorem C66_cap_unreachable s who sid q e i c : sales s !! sid = Some i -> colls (nfts s) !! s_coll i = Some c -> cap <= U32MAX -> cap <= c_iss c + q ->
  is_ok (cexec s (CRedeem who sid q e)) = false.
Proof.
  intros Hs Hc Hcu Hq. unfold cexec, CrowdModel.cexec. destruct (match csigner _ with Some _ => _ | None => _ end); [|reflexivity]. cbn [ensure rbind]. unfold redeem.
  destruct (0 <? q); [|reflexivity]. cbn [ensure rbind]. rewrite Hs. cbn [of_opt rbind]. destruct (match s_status i with Distributing _ | Ended => true | _ => false end); [|reflexivity]. cbn [ensure rbind].
  destruct (Ledger.burn _ _ _ _) as [l|]; [|reflexivity]. cbn [rbind]. unfold NftModel.mint, pre_mint. destruct (q <=? mint_limit); [|reflexivity]. cbn [ensure rbind]. rewrite Hc. cbn [of_opt rbind].
  destruct (c_mintable c); [|reflexivity]. cbn [ensure rbind]. destruct (0 <? q); [|reflexivity]. cbn [ensure rbind]. destruct (_ || _); [|reflexivity]. cbn [ensure rbind].
  destruct (N.ltb_spec (sat U32MAX (c_iss c + q)) cap) as [Hlt|]; [|reflexivity]. unfold sat in Hlt. lia.
Qed.
End props.

(** ** Concrete histories, with the limits of the runtime (accounts: 2 admin, 4, 6, 8 users) *)
Notation xexec := (cexec 1000000 1000 100 5 2000 100 1944000).
Notation xstep := (cstep 1000000 1000 100 5 2000 100 1944000).
Notation xreached := (reached 1000000 1000 100 5 2000 100 1944000).
Notation xanyhow := (anyhow 1000000 1000 100 5 2000 100 1944000).
Definition goodb (s : cs) (o : cop) : bool :=
  match o with
  | CPart _ sid amt => match sales s !! sid with Some i => (s_funds i + amt) * UNIT <=? U128MAX | None => true end
  | CBurn _ _ from _ => negb (is_vault from)
  | _ => true
  end.
Definition unmintedb (s : cs) (o : cop) : bool :=
  match o with CInit _ _ coll _ _ => match colls (nfts s) !! coll with Some c => c_next c =? 0 | None => true end | _ => true end.
Fixpoint allb (f : cs -> cop -> bool) (ops : list cop) (s : cs) : bool :=
  match ops with [] => true | o :: ops' => f s o && allb f ops' (xstep s o) end.
Lemma good_ok ops : forall s, allb goodb ops s = true -> along xstep good ops s.
Proof.
  induction ops as [|o ops IH]; intros s H; [exact I|]. cbn [allb] in H. apply andb_true_iff in H. destruct H as [H1 H2]. split; [|apply IH; exact H2].
  destruct o; try exact I; cbn in *; [|apply negb_true_iff; exact H1]. destruct (sales s !! sid); [apply N.leb_le; exact H1|exact I].
Qed.
Lemma unminted_ok ops : forall s, allb unmintedb ops s = true -> along xstep unminted ops s.
Proof.
  induction ops as [|o ops IH]; intros s H; [exact I|]. cbn [allb] in H. apply andb_true_iff in H. destruct H as [H1 H2]. split; [|apply IH; exact H2].
  destruct o; try exact I; cbn in *. destruct (colls (nfts s) !! coll); [apply N.eqb_eq; exact H1|exact I].
Qed.
Lemma xreached_ok ops : allb goodb ops cinit = true -> xreached ops (run xstep ops cinit).
Proof. intros H. split; [apply good_ok; exact H|reflexivity]. Qed.

(** Asset 0 is the payment token, owned by 10; collection 7 of at most 10 tokens is put on sale. *)
Definition setup (amount price dur : N) : list cop :=
  [CAsset 10; CMint 10 0 4 amount; CMint 10 0 6 amount; CMint 10 0 8 amount; CNft (NCreate 7 2 0 (Some 10) 2 true); CInit 2 0 7 price dur; CEnable 2 0].
Definition under : list cop := setup 1000 100 3 ++ [CPart 4 0 250; CBlock; CPart 6 0 100; CPart 4 0 33; CBlock; CBlock].
Definition over : list cop := setup 1000 100 3 ++ [CPart 4 0 1000; CBlock; CPart 6 0 777; CPart 8 0 333; CBlock; CBlock].
Definition sale_at (s : cs) : sale := default (Sale Pending 0 0 0 0 0 0 0) (sales s !! 0).
Definition s_under := run xstep under cinit.
Definition s_over := run xstep over cinit.
Example C24_example_under : xreached under s_under /\ s_status (sale_at s_under) = Distributing 0 /\ max_of s_under 7 = Ok 10 /\
  due 100 383 10 283 = 2830000 /\ balance (led s_under) 1 1 = 3830000 /\ balance (led s_under) 0 2 = 383 /\
  match xexec s_under (CClaim 4 0) with Ok s' => balance (led s') 1 4 = 2830000 | Err _ => False end.
Proof. split; [apply xreached_ok; vm_compute; reflexivity|]. vm_compute. repeat split. Qed.
Example C24_example_over : xreached over s_over /\ s_status (sale_at s_over) = Distributing 0 /\
  balance (led s_over) 1 1 = 10000000 /\ due 100 2110 10 1000 = 4739336 /\ due 100 2110 10 777 = 3682464 /\ due 100 2110 10 333 = 1578199 /\
  match xexec s_over (CDist [6]) with
  | Ok s' => balance (led s') 1 4 = 4739336 /\ balance (led s') 1 6 = 3682464 /\ balance (led s') 1 8 = 1578199 /\ balance (led s') 1 2 = 1 /\ s_status (sale_at s') = Ended
  | Err _ => False end.
Proof. split; [apply xreached_ok; vm_compute; reflexivity|]. vm_compute. repeat split. Qed.
(** The scaled sum saturates at closing but not at claiming: the vault keeps too few vouchers. *)
Definition huge : list cop := setup (3 * 10 ^ 32) (10 ^ 32) 2 ++ [CPart 4 0 (2 * 10 ^ 32); CPart 6 0 (2 * 10 ^ 32); CBlock; CBlock].
Definition s_huge := run xstep huge cinit.
Theorem C24_saturation_refuted : exists s sid i m, xanyhow s /\ sales s !! sid = Some i /\ closed i /\ max_of s (s_coll i) = Ok m /\
  balance (led s) (s_voucher i) (vault sid) < sumf (fun k c => if fst k =? sid then due (s_price i) (s_funds i) m c else 0) (parts s).
Proof.
  exists s_huge, 0, (sale_at s_huge), 10. split; [exists huge; reflexivity|]. split; [vm_compute; reflexivity|]. split; [vm_compute; exact I|]. split; [vm_compute; reflexivity|]. vm_compute. reflexivity.
Qed.
Theorem C24_short_changed_refuted : exists s, xanyhow s /\
  match parts s !! (0, 4), parts s !! (0, 6) with Some a, Some b => a = b | _, _ => False end /\
  match xexec s (CClaim 4 0) with
  | Ok s1 => match xexec s1 (CClaim 6 0) with Ok s2 => balance (led s2) 1 4 = 2000000 /\ balance (led s2) 1 6 = 1402823 | Err _ => False end
  | Err _ => False end.
Proof. exists s_huge. split; [exists huge; reflexivity|]. vm_compute. split; [reflexivity|split; reflexivity]. Qed.

Definition mixed : list cop := over ++ [CClaim 6 0; CDist []; CClaim 4 0].
Example C25_example : xreached mixed (run xstep mixed cinit) /\ s_status (sale_at (run xstep mixed cinit)) = Ended /\
  contributed (log (run xstep mixed cinit)) 0 6 = 777 /\ claims (log (run xstep mixed cinit)) 0 6 = [3682464] /\ claims (log (run xstep mixed cinit)) 0 4 = [4739336] /\
  is_ok (xexec (run xstep mixed cinit) (CClaim 4 0)) = false.
Proof. split; [apply xreached_ok; vm_compute; reflexivity|]. vm_compute. repeat split. Qed.
Example C25_example_ends : (size (parts s_over) + length (dist s_over) <= 4)%nat.
Proof. vm_compute. lia. Qed.

Definition running : list cop := setup 1000 100 3 ++ [CPart 4 0 250; CBlock; CBlock].
Example C26_example : xreached running (run xstep running cinit) /\ s_status (sale_at (run xstep running cinit)) = Enabled 0 /\ now (run xstep running cinit) = 2 /\
  balance (led (run xstep running cinit)) 0 2 = 0 /\ balance (led (run xstep (running ++ [CBlock]) cinit)) 0 2 = 250 /\ closed (sale_at (run xstep (running ++ [CBlock]) cinit)).
Proof. split; [apply xreached_ok; vm_compute; reflexivity|]. vm_compute. repeat split. Qed.
Definition unschedb (s : cs) : bool :=
  forallb (fun e => negb (has 0 (snd e)) || (fst e <=? now s)) (map_to_list (ends s)) &&
  match sales s !! 0 with Some i => match s_status i with Enabled _ => true | _ => false end | None => false end.
Lemma unsched_ok s : unschedb s = true -> unscheduled s 0.
Proof.
  unfold unschedb. intros H. apply andb_true_iff in H. destruct H as [H1 H2]. split.
  - destruct (sales s !! 0) as [i|]; [|discriminate]. destruct (s_status i) as [|b| | |] eqn:E; try discriminate. eauto.
  - intros e l El Hin. rewrite forallb_forall in H1. specialize (H1 (e, l)). cbn in H1. apply elem_of_map_to_list in El. apply elem_of_list_In in El.
    specialize (H1 El). apply orb_true_iff in H1. destruct H1 as [H1|H1]; [|apply N.leb_le; exact H1]. apply negb_true_iff, has_false in H1. contradiction.
Qed.
(** A sale of duration 0 is accepted, is scheduled for the block in which it is enabled, whose
    closing has already run, and never closes: the contributions stay in the vault. *)
Definition zero : list cop := setup 1000 100 0 ++ [CPart 4 0 250].
Theorem C26_duration_zero_refuted : exists ops s, xreached ops s /\ balance (led s) 0 (vault 0) = 250 /\
  forall ops', exists i b, sales (run xstep ops' s) !! 0 = Some i /\ s_status i = Enabled b.
Proof.
  exists zero, (run xstep zero cinit). split; [apply xreached_ok; vm_compute; reflexivity|]. split; [vm_compute; reflexivity|].
  intros ops'. apply (C26_unscheduled_forever 1000000 1000 100 5 2000 100 1944000 ltac:(reflexivity) (run xstep zero cinit) 0 ops'); [vm_compute; discriminate|eexists; reflexivity|].
  apply unsched_ok. vm_compute. reflexivity.
Qed.
(** The owner of the payment asset burns part of what the vault holds: closing fails, and is not
    tried again. *)
Definition burnt : list cop := running ++ [CBurn 10 0 1 1; CBlock].
Theorem C26_burnt_refuted : exists s, xanyhow s /\ balance (led s) 0 (vault 0) = 249 /\
  forall ops', exists i b, sales (run xstep ops' s) !! 0 = Some i /\ s_status i = Enabled b.
Proof.
  exists (run xstep burnt cinit). split; [eexists; reflexivity|]. split; [vm_compute; reflexivity|].
  intros ops'. apply (C26_unscheduled_forever 1000000 1000 100 5 2000 100 1944000 ltac:(reflexivity) (run xstep burnt cinit) 0 ops'); [vm_compute; discriminate|eexists; reflexivity|].
  apply unsched_ok. vm_compute. reflexivity.
Qed.

Definition sold : list cop := over ++ [CDist []; CRedeem 4 0 4 true; CRedeem 6 0 3 true].
Definition s_sold := run xstep sold cinit.
Example C27_example : xreached sold s_sold /\ redeemed 1000000 1000 100 5 2000 100 1944000 cinit sold 0 = 7 /\
  balance (led s_sold) 1 4 = 739336 /\ issuance (led s_sold) 1 = 3000000 /\ owner_of (nfts s_sold) 7 0 = Some 4 /\ owner_of (nfts s_sold) 7 6 = Some 6 /\
  is_ok (xexec s_sold (CRedeem 4 0 1 true)) = false.
Proof. split; [apply xreached_ok; vm_compute; reflexivity|]. vm_compute. repeat split. Qed.
(** With a mint limit above 4294 the 32-bit scaling would saturate: 4295 tokens for less than
    4295 vouchers. *)
Definition bulk : list cop :=
  [CAsset 10; CMint 10 0 4 10000; CNft (NCreate 7 2 0 (Some 5000) 2 true); CInit 2 0 7 1 1; CEnable 2 0; CPart 4 0 5000; CBlock; CDist []].
Example C27_limit_needed :
  match cexec 1000000 5000 100 5 2000 100 1944000 (run (cstep 1000000 5000 100 5 2000 100 1944000) bulk cinit) (CRedeem 4 0 4295 true) with
  | Ok s' => balance (led s') 1 4 = 5000000000 - 4294967295 /\ option_map c_iss (colls (nfts s') !! 7) = Some 4295
  | Err _ => False end.
Proof. vm_compute. split; reflexivity. Qed.

Example C66_example : xreached (over ++ [CDist []]) (run xstep (over ++ [CDist []]) cinit) /\ along xstep unminted (over ++ [CDist []]) cinit /\
  4 * UNIT <= balance (led (run xstep (over ++ [CDist []]) cinit)) 1 4 /\ is_ok (xexec (run xstep (over ++ [CDist []]) cinit) (CRedeem 4 0 4 true)) = true.
Proof. split; [apply xreached_ok; vm_compute; reflexivity|]. split; [apply unminted_ok; vm_compute; reflexivity|]. vm_compute. split; [discriminate|reflexivity]. Qed.
(** A collection that had a token, since burned, passes [initialize] but has fewer serials left
    than vouchers. *)
Definition used : list cop :=
  [CAsset 10; CMint 10 0 4 1000; CNft (NCreate 7 2 1 (Some 10) 2 true); CNft (NBurn 2 7 0); CInit 2 0 7 100 3; CEnable 2 0; CPart 4 0 1000; CBlock; CBlock; CBlock; CDist []; CRedeem 4 0 9 true].
Theorem C66_used_collection_refuted : exists ops s, xreached ops s /\ s_status (sale_at s) = Ended /\ balance (led s) 1 4 = 1 * UNIT /\
  issuance (led s) 1 = 1 * UNIT /\ forall e, is_ok (xexec s (CRedeem 4 0 1 e)) = false.
Proof.
  exists used, (run xstep used cinit). split; [apply xreached_ok; vm_compute; reflexivity|]. split; [vm_compute; reflexivity|]. split; [vm_compute; reflexivity|]. split; [vm_compute; reflexivity|].
  intros [|]; vm_compute; reflexivity.
Qed.

Print Assumptions C24_backed.
Print Assumptions C24_claim_in_full.
Print Assumptions C24_distribution_in_full.
Print Assumptions C24_saturation_refuted.
Print Assumptions C24_short_changed_refuted.
Print Assumptions C25_at_most_once.
Print Assumptions C25_all_served.
Print Assumptions C25_distribution_ends.
Print Assumptions C26_closes.
Print Assumptions C26_close_delivers.
Print Assumptions C26_unscheduled_forever.
Print Assumptions C26_duration_zero_refuted.
Print Assumptions C26_burnt_refuted.
Print Assumptions C27_redeem_exact.
Print Assumptions C27_bounded.
Print Assumptions C66_redeemable.
Print Assumptions C66_cap_unreachable.
Print Assumptions C66_used_collection_refuted.
