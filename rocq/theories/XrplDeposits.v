(** C35, C76, C77: deposits from XRPL. *)
From Verif Require Export XrplModel.

(** Specification: hash [h] has been credited; the amounts credited to [who] in asset [a]. *)
Definition credited (d : dep) (h : N) : Prop := In h (map c_hash (credits d)).
Definition amount_of (a who : N) (c : credit) : N :=
  match c_what c with Some (b, w, v) => if (b =? a) && (w =? who) then v else 0 | None => 0 end.
Definition amount_in (a : N) (c : credit) : N := match c_what c with Some (b, _, v) => if b =? a then v else 0 | None => 0 end.
Definition got (a who : N) (l : list credit) : N := sumL (map (amount_of a who) l).
Definition got_all (a : N) (l : list credit) : N := sumL (map (amount_in a) l).

Lemma listed_insert m k l j : listed (<[k := l]> m) j = if k =? j then l else listed m j.
Proof. unfold listed. destruct (N.eqb_spec k j) as [E|Hne]; [subst; rewrite lookup_insert; reflexivity|rewrite lookup_insert_ne by exact Hne; reflexivity]. Qed.
Lemma listed_delete m k j : listed (delete k m) j = if k =? j then [] else listed m j.
Proof. unfold listed. destruct (N.eqb_spec k j) as [E|Hne]; [subst; rewrite lookup_delete; reflexivity|rewrite lookup_delete_ne by exact Hne; reflexivity]. Qed.
Lemma listed_some m k l : m !! k = Some l -> listed m k = l.
Proof. unfold listed. intros ->. reflexivity. Qed.
Lemma forget_lookup m hs h : forget m hs !! h = if bool_decide (h ∈ hs) then None else m !! h.
Proof.
  induction hs as [|x hs IH]; cbn [forget foldr].
  - rewrite bool_decide_false by apply not_elem_of_nil. reflexivity.
  - change (foldr delete m hs) with (forget m hs). destruct (decide (x = h)) as [E|Hne].
    + subst x. rewrite lookup_delete, bool_decide_true by left. reflexivity.
    + rewrite lookup_delete_ne by exact Hne. rewrite IH.
      assert (Hiff : h ∈ x :: hs <-> h ∈ hs) by (rewrite elem_of_cons; split; [intros [?|?]; [congruence|assumption]|right; assumption]).
      rewrite (bool_decide_ext _ _ Hiff). reflexivity.
Qed.

(** What pruning does: it only forgets hashes listed under a ledger index below the limit, and
    unlists them. *)
Definition pruning (bound : N) (dt dt' : gmap N (N * txdata)) (st st' : gmap N (list N)) : Prop :=
  (forall h, dt' !! h = dt !! h \/ exists k, k < bound /\ In h (listed st k)) /\
  (forall k h, In h (listed st' k) -> In h (listed st k)).
Lemma pruning_refl b dt st : pruning b dt dt st st.
Proof. split; [intros h; left; reflexivity|auto]. Qed.
Lemma pruning_trans b dt dt1 dt2 st st1 st2 : pruning b dt dt1 st st1 -> pruning b dt1 dt2 st1 st2 -> pruning b dt dt2 st st2.
Proof.
  intros [A B] [C D]. split.
  - intros h. destruct (C h) as [E|(k & Hk & Hi)]; [rewrite E; apply A|right; exists k; split; [exact Hk|apply B, Hi]].
  - intros k h Hi. apply B, D, Hi.
Qed.
Lemma pruning_one b dt st i hs k : i < b -> st !! i = Some hs ->
  pruning b dt (forget dt (firstn k hs)) st (<[i := skipn k hs]> st) /\ pruning b dt (forget dt (firstn k hs)) st (delete i st).
Proof.
  intros Hi Hs.
  assert (A : forall h, forget dt (firstn k hs) !! h = dt !! h \/ exists j, j < b /\ In h (listed st j)).
  { intros h. rewrite forget_lookup. case_bool_decide as Hin; [right|left; reflexivity]. exists i. split; [exact Hi|].
    rewrite (listed_some _ _ _ Hs). apply elem_of_list_In. apply elem_of_take in Hin as (j & Hj & _). apply elem_of_list_lookup_2 in Hj. exact Hj. }
  split; (split; [exact A|]); intros j h.
  - rewrite listed_insert. destruct (N.eqb_spec i j) as [E|]; [|auto]. subst j. rewrite (listed_some _ _ _ Hs).
    intros Hin. apply elem_of_list_In. apply elem_of_list_In in Hin. rewrite <- (take_drop k hs). apply elem_of_app. right. exact Hin.
  - rewrite listed_delete. destruct (N.eqb_spec i j) as [E|]; [intros []|auto].
Qed.
Lemma prune_loop_spec rd wr b rem is : Forall (fun i => i < b) is -> forall used nh dt st dt' st' nh',
  prune_loop rd wr is rem used nh dt st = (dt', st', nh') -> pruning b dt dt' st st'.
Proof.
  induction is as [|i is IH]; intros Hf used nh dt st dt' st' nh' H; cbn [prune_loop] in H.
  - injection H as <- <- <-. apply pruning_refl.
  - apply Forall_cons in Hf as [Hi Hf]. destruct (rem <=? _); [injection H as <- <- <-; apply pruning_refl|].
    destruct (st !! i) as [hs|] eqn:Es.
    + cbv zeta in H. destruct (_ <? _)%nat.
      * injection H as <- <- <-. apply pruning_one; assumption.
      * apply IH in H; [|exact Hf]. eapply pruning_trans; [|exact H]. apply pruning_one; assumption.
    + apply IH in H; [exact H|exact Hf].
Qed.
Lemma seqN_lt a n : forall x, In x (seqN a n) -> a <= x < a + N.of_nat n.
Proof.
  revert a. induction n as [|n IH]; intros a x H; cbn [seqN] in H; [destruct H|]. destruct H as [<-|H]; [lia|]. apply IH in H. lia.
Qed.

Section dep.
  Variables (period lim limL maxpr xrp root pot rd wr : N).
  Notation dex := (dexec period lim limL maxpr xrp root pot rd wr).
  Notation dst := (dstep period lim limL maxpr xrp root pot rd wr).
  (** Ledger index in which the transaction with a given hash was validated on XRPL. *)
  Variable idx : N -> N.
  (** Relayers report the true ledger index; root does not reset the window. *)
  Definition dgood (d : dep) (o : dop) : Prop :=
    match o with DSubmit _ li h _ => li = idx h | DReset _ _ _ => False | _ => True end.

  Record PI (d : dep) : Prop := mkPI {
    p_idx : forall h li t, det d !! h = Some (li, t) -> li = idx h;
    p_sched : forall h b, In h (listed (sched d) b) -> det d !! h <> None /\ ~ credited d h;
    p_uniq : forall h b1 b2, In h (listed (sched d) b1) -> In h (listed (sched d) b2) -> b1 = b2;
    p_nd : forall b, NoDup (listed (sched d) b);
    p_set : forall h k, In h (listed (settled d) k) -> credited d h /\ wrap32 (idx h) = k;
    p_cred : forall h, credited d h -> det d !! h <> None \/ wrap32 (idx h) < win_end d;
    p_once : NoDup (map c_hash (credits d));
    p_fail : forall h, In h (failures d) -> det d !! h <> None /\ ~ credited d h /\ forall b, ~ In h (listed (sched d) b) }.

  Lemma submit_PI d who li h t d' : li = idx h -> PI d -> submit_tx period lim d who li h t = Ok d' -> PI d'.
  Proof.
    intros Hli [A B C D E F G I] H. unfold submit_tx in H.
    destruct (bool_decide (who ∈ relayers d)); cbn [ensure rbind] in H; [|discriminate].
    destruct (match t with PCur _ _ c => bool_decide (is_Some (curmap d !! c)) | _ => true end); cbn [ensure rbind] in H; [|discriminate].
    destruct (N.leb_spec (win_end d) (wrap32 li)) as [Hwin|]; cbn [ensure rbind] in H; [|discriminate].
    destruct (det d !! h) eqn:Hnone; cbn [ensure rbind] in H; [discriminate|].
    destruct (_ <? lim); cbn [ensure rbind] in H; [|discriminate]. injection H as <-.
    assert (Hnc : ~ credited d h) by (intros Hc; destruct (F h Hc) as [Hx|Hx]; [congruence|subst li; lia]).
    assert (Hns : forall b, ~ In h (listed (sched d) b)) by (intros b Hb; destruct (B h b Hb); congruence).
    set (bb := wrap32 (dblk d + period)). clearbody bb.
    assert (Hin : forall x b, In x (listed (<[bb := listed (sched d) bb ++ [h]]> (sched d)) b) -> In x (listed (sched d) b) \/ (x = h /\ b = bb)).
    { intros x b. rewrite listed_insert. destruct (N.eqb_spec bb b) as [Eb|]; [subst b|auto].
      intros Hx. apply in_app_or in Hx as [Hx|[Hx|[]]]; [left; exact Hx|right; subst; auto]. }
    assert (Hdet : forall x, <[h := (li, t)]> (det d) !! x <> None <-> (x = h \/ det d !! x <> None)).
    { intros x. destruct (decide (h = x)) as [->|Hne]; [rewrite lookup_insert|rewrite lookup_insert_ne by exact Hne].
      - split; [left; reflexivity|intros _; discriminate].
      - split; [right; assumption|intros [?|?]; [congruence|assumption]]. }
    constructor; cbn [det sched settled credits failures high width dblk].
    - intros x l y Hx. destruct (decide (h = x)) as [->|Hne].
      + rewrite lookup_insert in Hx. injection Hx as <- <-. exact Hli.
      + rewrite lookup_insert_ne in Hx by exact Hne. exact (A _ _ _ Hx).
    - intros x b Hx. destruct (Hin _ _ Hx) as [Hx'|[-> ->]].
      + destruct (B _ _ Hx') as [B1 B2]. split; [apply Hdet; right; exact B1|exact B2].
      + split; [apply Hdet; left; reflexivity|exact Hnc].
    - intros x b1 b2 H1 H2. destruct (Hin _ _ H1) as [H1'|[-> ->]]; destruct (Hin _ _ H2) as [H2'|[? ->]]; subst.
      + eapply C; eassumption.
      + exfalso. eapply Hns. eassumption.
      + exfalso. eapply Hns. eassumption.
      + reflexivity.
    - intros b. rewrite listed_insert. destruct (bb =? b); [|apply D]. apply NoDup_app. split; [apply D|]. split; [|apply NoDup_singleton].
      intros x Hx Hx'. apply elem_of_list_singleton in Hx'. subst x. apply elem_of_list_In in Hx. exact (Hns _ Hx).
    - exact E.
    - intros x Hc. destruct (F x Hc) as [Hx|Hx]; [left; apply Hdet; right; exact Hx|right; exact Hx].
    - exact G.
    - intros x Hx. destruct (I x Hx) as (I1 & I2 & I3). split; [apply Hdet; right; exact I1|]. split; [exact I2|].
      intros b Hb. destruct (Hin _ _ Hb) as [Hb'|[-> _]]; [exact (I3 _ Hb')|]. congruence.
  Qed.

  (** [h] has been taken from the schedule and is about to be settled. *)
  Definition loose (d : dep) (h : N) : Prop :=
    ~ credited d h /\ ~ In h (failures d) /\ forall b, ~ In h (listed (sched d) b).
  Lemma credited_cons d h w x : In x (map c_hash (Credit h w :: credits d)) <-> x = h \/ credited d x.
  Proof. cbn [map c_hash In]. unfold credited. split; (intros [?|?]; [left; congruence|right; assumption]). Qed.
  Lemma settle1_PI d ok h d' : PI d -> loose d h -> settle1 limL xrp root pot d ok h = Ok d' ->
    PI d' /\ forall x, x <> h -> loose d x -> loose d' x.
  Proof.
    intros HP (Hnc & Hnf & Hns) H. unfold settle1 in H. case_bool_decide as Hch; [injection H as <-; auto|].
    destruct (det d !! h) as [[li t]|] eqn:Ed; [|injection H as <-; auto].
    destruct HP as [A B C D E F G I]. pose proof (A _ _ _ Ed) as Hli.
    destruct (deposit1 xrp root pot d ok t) as [[l w]|e] eqn:Edep.
    - cbv zeta in H. destruct (_ <? limL); cbn [ensure rbind] in H; [|discriminate]. injection H as <-.
      set (hi := if high d <? wrap32 li then wrap32 li else high d).
      assert (Hhi : high d <= hi) by (unfold hi; destruct (N.ltb_spec (high d) (wrap32 li)); lia). clearbody hi.
      split.
      + constructor; cbn [det sched settled credits failures high width].
        * exact A.
        * intros x b Hx. destruct (B _ _ Hx) as [B1 B2]. split; [exact B1|]. unfold credited. cbn [credits]. rewrite credited_cons. intros [Hy|Hy]; [|exact (B2 Hy)].
          subst x. exact (Hns _ Hx).
        * exact C.
        * exact D.
        * intros x k. rewrite listed_insert. unfold credited. cbn [credits]. rewrite credited_cons. destruct (N.eqb_spec (wrap32 li) k) as [Ek|Hk].
          -- intros Hx. apply in_app_or in Hx as [Hx|[Hx|[]]].
             ++ destruct (E _ _ Hx) as [E1 E2]. rewrite Ek in E2. split; [right; exact E1|exact E2].
             ++ subst x. split; [left; reflexivity|]. rewrite <- Hli. exact Ek.
          -- intros Hx. destruct (E _ _ Hx) as [E1 E2]. split; [right; exact E1|exact E2].
        * intros x. unfold credited. cbn [credits]. rewrite credited_cons. unfold win_end. cbn [high width]. intros [->|Hx].
          -- left. rewrite Ed. discriminate.
          -- destruct (F x Hx) as [Hy|Hy]; [left; exact Hy|right]. unfold win_end in Hy. lia.
        * cbn [map c_hash]. constructor; [|exact G]. intros Hx. apply elem_of_list_In in Hx. exact (Hnc Hx).
        * intros x Hx. destruct (I x Hx) as (I1 & I2 & I3). split; [exact I1|]. split; [|exact I3].
          unfold credited. cbn [credits]. rewrite credited_cons. intros [Hy|Hy]; [|exact (I2 Hy)]. subst x. exact (Hnf Hx).
      + intros x Hne (L1 & L2 & L3). split; [|split; [exact L2|exact L3]].
        unfold credited. cbn [credits]. rewrite credited_cons. intros [?|?]; [congruence|exact (L1 H)].
    - injection H as <-. split.
      + constructor; cbn [det sched settled credits failures high width]; try assumption.
        intros x [Hx|Hx]; [subst x|exact (I x Hx)]. split; [congruence|]. split; [exact Hnc|exact Hns].
      + intros x Hne (L1 & L2 & L3). split; [exact L1|]. split; [|exact L3]. cbn [failures In]. intros [?|?]; [congruence|exact (L2 H)].
  Qed.
  Lemma settle_PI ok hs : forall d d', PI d -> NoDup hs -> (forall h, In h hs -> loose d h) -> settle limL xrp root pot d ok hs = Ok d' -> PI d'.
  Proof.
    induction hs as [|h hs IH]; intros d d' HP Hnd Hl H; cbn [settle] in H; [injection H as <-; exact HP|].
    destruct (settle1 limL xrp root pot d ok h) as [d1|] eqn:E1; cbn [rbind] in H; [|discriminate].
    inversion_clear Hnd as [|? ? Hni Hnd'].
    destruct (settle1_PI _ _ _ _ HP (Hl h (or_introl eq_refl)) E1) as [HP1 Hl1].
    apply (IH _ _ HP1 Hnd' ltac:(intros x Hx; apply Hl1; [intros ->; apply Hni, elem_of_list_In, Hx|apply Hl; right; exact Hx]) H).
  Qed.
  Lemma dtick_PI d ok d' : PI d -> dtick limL xrp root pot d ok = Ok d' -> PI d'.
  Proof.
    intros [A B C D E F G I] H. unfold dtick in H. cbv zeta in H. set (b := wrap32 (dblk d + 1)) in *. clearbody b.
    assert (Hin : forall x k, In x (listed (delete b (sched d)) k) -> k <> b /\ In x (listed (sched d) k)).
    { intros x k. rewrite listed_delete. destruct (N.eqb_spec b k) as [->|Hne]; [intros []|intros Hx; split; [congruence|exact Hx]]. }
    eapply settle_PI; [..|exact H].
    - constructor; cbn [det sched settled credits failures high width]; try assumption.
      + intros x k Hx. apply Hin in Hx as [_ Hx]. exact (B _ _ Hx).
      + intros x k1 k2 H1 H2. apply Hin in H1 as [_ H1]. apply Hin in H2 as [_ H2]. exact (C _ _ _ H1 H2).
      + intros k. rewrite listed_delete. destruct (b =? k); [constructor|apply D].
      + intros x Hx. destruct (I x Hx) as (I1 & I2 & I3). split; [exact I1|]. split; [exact I2|].
        intros k Hk. apply Hin in Hk as [_ Hk]. exact (I3 _ Hk).
    - apply D.
    - intros x Hx. unfold loose, credited. cbn [credits failures sched]. split; [exact (proj2 (B _ _ Hx))|]. split.
      + intros Hf. exact (proj2 (proj2 (I _ Hf)) _ Hx).
      + intros k Hk. apply Hin in Hk as [Hk Hk']. apply Hk. exact (C _ _ _ Hk' Hx).
  Qed.
  Lemma pruned_PI d dt st pr : PI d -> pruning (win_end d) (det d) dt (settled d) st -> (forall h v, dt !! h = Some v -> det d !! h = Some v) ->
    PI (Dep (dblk d) (sched d) dt st (high d) pr (width d) (chall d) (relayers d) (curmap d) (dbk d) (credits d) (failures d)).
  Proof.
    intros [A B C D E F G I] [P1 P2] Hsub.
    assert (Hkeep : forall h, ~ credited d h -> dt !! h = det d !! h).
    { intros h Hn. destruct (P1 h) as [Ex|(k & Hk & Hi)]; [exact Ex|]. destruct (E _ _ Hi). contradiction. }
    constructor; cbn [det sched settled credits failures high width].
    - intros h li t Hh. exact (A _ _ _ (Hsub _ _ Hh)).
    - intros h b Hb. destruct (B _ _ Hb) as [B1 B2]. rewrite (Hkeep _ B2). auto.
    - exact C.
    - exact D.
    - intros h k Hk. exact (E _ _ (P2 _ _ Hk)).
    - intros h Hc. unfold win_end. cbn [high width]. change (high d - width d) with (win_end d).
      destruct (P1 h) as [Ex|(k & Hk & Hi)]; [rewrite Ex; exact (F h Hc)|]. right. destruct (E _ _ Hi) as [_ <-]. exact Hk.
    - exact G.
    - intros h Hf. destruct (I h Hf) as (I1 & I2 & I3). rewrite (Hkeep _ I2). auto.
  Qed.
  Lemma forget_sub m hs h v : forget m hs !! h = Some v -> m !! h = Some v.
  Proof. rewrite forget_lookup. case_bool_decide; [discriminate|auto]. Qed.
  Lemma prune_loop_sub rem is : forall used nh dt st dt' st' nh',
    prune_loop rd wr is rem used nh dt st = (dt', st', nh') -> forall h v, dt' !! h = Some v -> dt !! h = Some v.
  Proof.
    induction is as [|i is IH]; intros used nh dt st dt' st' nh' H h v; cbn [prune_loop] in H; [injection H as <- <- <-; auto|].
    destruct (rem <=? _); [injection H as <- <- <-; auto|]. destruct (st !! i); [cbv zeta in H; destruct (_ <? _)%nat|].
    - injection H as <- <- <-. apply forget_sub.
    - intros Hx. eapply forget_sub. exact (IH _ _ _ _ _ _ _ H _ _ Hx).
    - exact (IH _ _ _ _ _ _ _ H h v).
  Qed.
  Lemma clear_PI d rem : PI d -> PI (clear_storages maxpr rd wr d rem).
  Proof.
    intros HP. unfold clear_storages. destruct (rem <=? _); [exact HP|]. cbv zeta.
    set (fin := N.min (win_end d) (wrap32 (pruned d + maxpr))).
    assert (Hfin : fin <= win_end d) by (unfold fin; apply N.le_min_l). clearbody fin.
    destruct (seqN (pruned d) (N.to_nat (fin - pruned d))) as [|i is] eqn:Es; [exact HP|]. rewrite <- Es.
    destruct (prune_loop rd wr _ rem _ _ _ _) as [[dt st] nh] eqn:El.
    apply pruned_PI; [exact HP| |exact (prune_loop_sub _ _ _ _ _ _ _ _ _ El)].
    eapply prune_loop_spec; [|exact El]. apply Forall_forall. intros x Hx. apply elem_of_list_In, seqN_lt in Hx. lia.
  Qed.
  Lemma manual_PI d i d' : PI d -> manual_prune d i = Ok d' -> PI d'.
  Proof.
    intros HP H. unfold manual_prune in H. destruct (N.ltb_spec i (win_end d)) as [Hi|]; cbn [ensure rbind] in H; [|discriminate].
    destruct (settled d !! i) as [hs|] eqn:Es; cbn [of_opt rbind] in H; [|discriminate]. injection H as <-.
    apply pruned_PI; [exact HP| |intros h v; apply forget_sub].
    pose proof (proj2 (pruning_one (win_end d) (det d) (settled d) i hs (length hs) Hi Es)) as Hx. rewrite firstn_all in Hx. exact Hx.
  Qed.
  Lemma dexec_PI d o d' : dgood d o -> PI d -> dex d o = Ok d' -> PI d'.
  Proof.
    intros Hg HP H. destruct o as [who li h t|h|ok|rem|i|hi w pr|who add|c a]; cbn [dexec dgood] in *.
    - exact (submit_PI _ _ _ _ _ _ Hg HP H).
    - injection H as <-. destruct HP. constructor; assumption.
    - exact (dtick_PI _ _ _ HP H).
    - injection H as <-. apply clear_PI, HP.
    - exact (manual_PI _ _ _ HP H).
    - destruct Hg.
    - injection H as <-. destruct HP. constructor; assumption.
    - injection H as <-. destruct HP. constructor; assumption.
  Qed.
  Lemma dstep_PI d o : dgood d o -> PI d -> PI (dst d o).
  Proof. intros Hg HP. unfold dstep. destruct (dex d o) as [d'|] eqn:E; cbn [commit]; [exact (dexec_PI _ _ _ Hg HP E)|exact HP]. Qed.
  Lemma dinit_PI bk : PI (dinit bk).
  Proof. constructor; unfold credited, dinit, listed; cbn; intros; try rewrite lookup_empty in *; try constructor; try contradiction; try discriminate. Qed.
  Lemma run_PI ops : forall d, PI d -> along dst dgood ops d -> PI (run dst ops d).
  Proof. intros d HP Ha. apply (run_along dst dgood PI ltac:(intros s o Hg HI; exact (dstep_PI s o Hg HI)) ops d Ha HP). Qed.

  (** C35: every XRPL transaction is credited at most once. *)
  Theorem C35_credited_once_partial : forall bk ops, along dst dgood ops (dinit bk) -> NoDup (map c_hash (credits (run dst ops (dinit bk)))).
  Proof. intros bk ops Ha. exact (p_once _ (run_PI ops _ (dinit_PI bk) Ha)). Qed.

  (** Everything but block processing leaves balances and outcomes alone. *)
  Lemma quiet d o d' : dex d o = Ok d' -> (forall ok, o <> DTick ok) -> dbk d' = dbk d /\ credits d' = credits d /\ failures d' = failures d /\ dblk d' = dblk d.
  Proof.
    intros H Hnt. destruct o as [who li h t|h|ok|rem|i|hi w pr|who add|c a]; cbn [dexec] in H.
    - unfold submit_tx in H. repeat (match type of H with context [ensure ?b _] => destruct b; cbn [ensure rbind] in H; [|discriminate] end). injection H as <-. auto.
    - injection H as <-. auto.
    - destruct (Hnt ok eq_refl).
    - injection H as <-. unfold clear_storages. destruct (rem <=? _); [auto|]. cbv zeta. destruct (seqN _ _); [auto|].
      destruct (prune_loop _ _ _ _ _ _ _ _) as [[dt st] nh]. auto.
    - unfold manual_prune in H. destruct (_ <? _); cbn [ensure rbind] in H; [|discriminate]. destruct (settled d !! i); cbn [of_opt rbind] in H; [|discriminate]. injection H as <-. auto.
    - unfold reset in H. destruct (match pr with Some p => p <=? hi - w | None => true end); cbn [ensure rbind] in H; [|discriminate]. injection H as <-. auto.
    - injection H as <-. auto.
    - injection H as <-. auto.
  Qed.
  (** One settlement: nothing, a failure, or a credit together with the matching ledger operation. *)
  Lemma settle1_cases d ok h d' : settle1 limL xrp root pot d ok h = Ok d' ->
    sched d' = sched d /\ det d' = det d /\ chall d' = chall d /\ curmap d' = curmap d /\ dblk d' = dblk d /\
    ((dbk d' = dbk d /\ credits d' = credits d /\ failures d' = failures d /\ (h ∈ chall d \/ det d !! h = None)) \/
     (dbk d' = dbk d /\ credits d' = credits d /\ failures d' = h :: failures d /\ h ∉ chall d /\ exists li t e, det d !! h = Some (li, t) /\ deposit1 xrp root pot d ok t = Err e) \/
     (exists li t w, det d !! h = Some (li, t) /\ deposit1 xrp root pot d ok t = Ok (dbk d', w) /\ credits d' = Credit h w :: credits d /\ failures d' = failures d /\ h ∉ chall d)).
  Proof.
    intros H. unfold settle1 in H. case_bool_decide as Hch; [injection H as <-; repeat (split; [reflexivity|]); left; auto|].
    destruct (det d !! h) as [[li t]|] eqn:Ed; [|injection H as <-; repeat (split; [reflexivity|]); left; auto].
    destruct (deposit1 xrp root pot d ok t) as [[l w]|e] eqn:Edep.
    - cbv zeta in H. destruct (_ <? limL); cbn [ensure rbind] in H; [|discriminate]. injection H as <-. cbn [sched det chall curmap dblk dbk credits failures].
      repeat (split; [reflexivity|]). right. right. exists li, t, w. auto.
    - injection H as <-. cbn [sched det chall curmap dblk dbk credits failures]. repeat (split; [reflexivity|]). right. left.
      repeat (split; [reflexivity|]). split; [exact Hch|]. exists li, t, e. auto.
  Qed.
  (** An invariant of settling that speaks about outcomes only. *)
  Lemma settle_inv (J : dep -> Prop) ok hs :
    (forall d h d', J d -> settle1 limL xrp root pot d ok h = Ok d' -> J d') ->
    forall d d', J d -> settle limL xrp root pot d ok hs = Ok d' -> J d'.
  Proof.
    intros HJ. induction hs as [|h hs IH]; intros d d' Hd H; cbn [settle] in H; [injection H as <-; exact Hd|].
    destruct (settle1 limL xrp root pot d ok h) as [d1|] eqn:E1; cbn [rbind] in H; [|discriminate]. exact (IH _ _ (HJ _ _ _ Hd E1) H).
  Qed.
End dep.

(** ** Amounts *)
Lemma got_cons a who c l : got a who (c :: l) = amount_of a who c + got a who l.
Proof. reflexivity. Qed.
Lemma got_all_cons a c l : got_all a (c :: l) = amount_in a c + got_all a l.
Proof. reflexivity. Qed.
Section amounts.
  Variables (period lim limL maxpr xrp root pot rd wr : N).
  Notation dex := (dexec period lim limL maxpr xrp root pot rd wr).
  Notation dst := (dstep period lim limL maxpr xrp root pot rd wr).
  Lemma asset_deposit_balance l amt who a l' b y : asset_deposit root pot l amt who a = Ok l' -> y <> pot ->
    balance l' b y = balance l b y + (if (a =? b) && (who =? y) then amt else 0).
  Proof.
    intros H Hy. unfold asset_deposit in H. assert (Hd : (if decide ((a, who) = (b, y)) then amt else 0) = (if (a =? b) && (who =? y) then amt else 0)).
    { destruct (N.eqb_spec a b), (N.eqb_spec who y); cbn [andb]; destruct (decide _); congruence. }
    destruct (a =? root).
    - apply transfer_spec in H as (_ & _ & Hb). specialize (Hb b y). destruct (decide ((a, pot) = (b, y))) as [E|]; [congruence|]. rewrite <- Hd. lia.
    - apply LedgerProofs.mint_spec in H as (_ & _ & Hb & _). rewrite Hb, Hd. reflexivity.
  Qed.
  Lemma asset_deposit_issuance l amt who a l' b : asset_deposit root pot l amt who a = Ok l' ->
    issuance l' b = issuance l b + (if (a =? b) && negb (a =? root) then amt else 0).
  Proof.
    intros H. unfold asset_deposit in H. destruct (N.eqb_spec a root) as [E|E].
    - apply transfer_spec in H as (_ & Hi & _). unfold issuance. rewrite Hi, andb_false_r. lia.
    - apply LedgerProofs.mint_spec in H as (_ & Hi & _ & _). rewrite Hi, andb_true_r. reflexivity.
  Qed.
  Lemma deposit1_view d ok t l w : deposit1 xrp root pot d ok t = Ok (l, w) ->
    match w with
    | Some (a, who, amt) => asset_deposit root pot (dbk d) amt who a = Ok l
        /\ ((t = PXrp amt who /\ a = xrp) \/ exists c, t = PCur amt who c /\ curmap d !! c = Some a)
    | None => l = dbk d /\ exists tok who, t = PNft tok who /\ ok tok = true
    end.
  Proof.
    unfold deposit1. destruct t as [amt who|amt who c|tok who].
    - destruct (asset_deposit _ _ _ _ _ _) as [l1|] eqn:E; cbn [rbind]; [|discriminate]. intros [= <- <-]. split; [exact E|left; auto].
    - destruct (curmap d !! c) as [a|] eqn:Ec; cbn [of_opt rbind]; [|discriminate].
      destruct (asset_deposit _ _ _ _ _ _) as [l1|] eqn:E; cbn [rbind]; [|discriminate]. intros [= <- <-]. split; [exact E|right; exists c; auto].
    - destruct (ok tok) eqn:Ek; cbn [ensure rbind]; [|discriminate]. intros [= <- <-]. split; [reflexivity|]. exists tok, who. auto.
  Qed.
  Definition squares (bk : ledger N) (d : dep) : Prop :=
    (forall a y, y <> pot -> balance (dbk d) a y = balance bk a y + got a y (credits d)) /\
    (forall a, issuance (dbk d) a = issuance bk a + if a =? root then 0 else got_all a (credits d)).
  Lemma settle1_squares bk d ok h d' : squares bk d -> settle1 limL xrp root pot d ok h = Ok d' -> squares bk d'.
  Proof.
    intros [A B] H. apply settle1_cases in H as (_ & _ & _ & _ & _ & H).
    destruct H as [(El & Ec & _)|[(El & Ec & _)|(li & t & w & _ & Hd & Ec & _)]]; [unfold squares; rewrite El, Ec; split; assumption..|].
    apply deposit1_view in Hd. unfold squares. rewrite Ec. destruct w as [[[a who] amt]|].
    - destruct Hd as [Hd _]. split.
      + intros b y Hy. rewrite (asset_deposit_balance _ _ _ _ _ b y Hd Hy), (A b y Hy), got_cons. unfold amount_of. cbn [c_what]. lia.
      + intros b. rewrite (asset_deposit_issuance _ _ _ _ _ b Hd), (B b), got_all_cons. unfold amount_in. cbn [c_what].
        destruct (N.eqb_spec a b) as [E|], (N.eqb_spec a root) as [E'|], (N.eqb_spec b root); cbn [andb negb]; subst; try contradiction; lia.
    - destruct Hd as [-> _]. split.
      + intros b y Hy. rewrite (A b y Hy), got_cons. unfold amount_of. cbn [c_what]. lia.
      + intros b. rewrite (B b), got_all_cons. unfold amount_in. cbn [c_what]. destruct (b =? root); lia.
  Qed.
  Lemma dstep_squares bk d o : squares bk d -> squares bk (dst d o).
  Proof.
    intros HS. unfold dstep. destruct (dex d o) as [d'|] eqn:E; cbn [commit]; [|exact HS].
    destruct o; try (apply quiet in E as (E1 & E2 & _); [unfold squares; rewrite E1, E2; exact HS|discriminate]).
    cbn [dexec] in E. unfold dtick in E. cbv zeta in E. refine (settle_inv limL xrp root pot (squares bk) nft_ok _ _ _ _ _ E); [|exact HS].
    intros s h s'. apply settle1_squares.
  Qed.
  (** C35, money: at every point of every history an account holds what it started with plus the
      deposits credited to it, and every asset but ROOT was minted for exactly the credited amounts. *)
  Theorem C35_amounts : forall bk ops, let d := run dst ops (dinit bk) in
    (forall a y, y <> pot -> balance (dbk d) a y = balance bk a y + got a y (credits d)) /\
    (forall a, a <> root -> issuance (dbk d) a = issuance bk a + got_all a (credits d)) /\
    issuance (dbk d) root = issuance bk root.
  Proof.
    intros bk ops. cbv zeta. assert (HS : squares bk (run dst ops (dinit bk))).
    { apply run_inv; [intros s o; apply dstep_squares|]. split; intros; [|destruct (_ =? _)]; symmetry; apply N.add_0_r. }
    destruct HS as [A B]. split; [exact A|]. split.
    - intros a Ha. rewrite B. destruct (N.eqb_spec a root); [contradiction|reflexivity].
    - rewrite B, N.eqb_refl. lia.
  Qed.

  (** What a credit may be for: a submitted transaction with that recipient and amount; the asset is XRP or
      one that governance mapped to the currency. *)
  Definition backed (all : list dop) (c : credit) : Prop :=
    exists who li t, In (DSubmit who li (c_hash c) t) all /\
      match t, c_what c with
      | PXrp v y, Some (a, y', v') => a = xrp /\ y' = y /\ v' = v
      | PCur v y cur, Some (a, y', v') => In (DMap cur (Some a)) all /\ y' = y /\ v' = v
      | PNft _ _, None => True
      | _, _ => False
      end.
  Record prov (all : list dop) (d : dep) : Prop := mkprov {
    v_det : forall h li t, det d !! h = Some (li, t) -> exists who, In (DSubmit who li h t) all;
    v_map : forall c a, curmap d !! c = Some a -> In (DMap c (Some a)) all;
    v_cred : forall c, In c (credits d) -> backed all c }.
  Lemma settle1_prov all d ok h d' : prov all d -> settle1 limL xrp root pot d ok h = Ok d' -> prov all d'.
  Proof.
    intros [A B C] H. apply settle1_cases in H as (_ & E1 & _ & E2 & _ & H).
    constructor; [rewrite E1; exact A|rewrite E2; exact B|].
    destruct H as [(_ & Ec & _)|[(_ & Ec & _)|(li & t & w & Hdet & Hd & Ec & _)]]; rewrite Ec; [exact C..|].
    intros c [<-|Hc]; [|exact (C c Hc)]. destruct (A _ _ _ Hdet) as [who Hw]. exists who, li, t. split; [exact Hw|]. cbn [c_what].
    apply deposit1_view in Hd. destruct w as [[[a y] v]|].
    - destruct Hd as [_ [[-> ->]|(cur & -> & Hm)]]; auto.
    - destruct Hd as (_ & tok & y & -> & _). exact I.
  Qed.
  Lemma dstep_prov all d o : In o all -> prov all d -> prov all (dst d o).
  Proof.
    intros Ho HV. unfold dstep. destruct (dex d o) as [d'|] eqn:E; cbn [commit]; [|exact HV].
    destruct o as [who li h t|h|ok|rem|i|hi w pr|who add|c a]; cbn [dexec] in E.
    - unfold submit_tx in E. repeat (match type of E with context [ensure ?b _] => destruct b; cbn [ensure rbind] in E; [|discriminate] end).
      injection E as <-. destruct HV as [A B C]. constructor; cbn [det curmap credits]; [|exact B|exact C].
      intros x l y. destruct (decide (h = x)) as [->|Hne]; [rewrite lookup_insert; intros [= <- <-]; exists who; exact Ho|rewrite lookup_insert_ne by exact Hne; apply A].
    - injection E as <-. destruct HV. constructor; assumption.
    - unfold dtick in E. cbv zeta in E. refine (settle_inv limL xrp root pot (prov all) ok _ _ _ _ _ E); [intros s h s'; apply settle1_prov|].
      destruct HV. constructor; assumption.
    - injection E as <-. unfold clear_storages. destruct (rem <=? _); [exact HV|]. cbv zeta. destruct (seqN _ _) as [|i0 is] eqn:Es; [exact HV|].
      destruct (prune_loop _ _ _ _ _ _ _ _) as [[dt st] nh] eqn:El. destruct HV as [A B C]. constructor; cbn [det curmap credits]; [|exact B|exact C].
      intros x l y Hx. exact (A _ _ _ (prune_loop_sub rd wr _ _ _ _ _ _ _ _ _ El _ _ Hx)).
    - unfold manual_prune in E. destruct (_ <? _); cbn [ensure rbind] in E; [|discriminate]. destruct (settled d !! i); cbn [of_opt rbind] in E; [|discriminate].
      injection E as <-. destruct HV as [A B C]. constructor; cbn [det curmap credits]; [|exact B|exact C]. intros x l0 y Hx. exact (A _ _ _ (forget_sub _ _ _ _ Hx)).
    - unfold reset in E. destruct (match pr with Some p => p <=? hi - w | None => true end); cbn [ensure rbind] in E; [|discriminate]. injection E as <-.
      destruct HV. constructor; assumption.
    - injection E as <-. destruct HV. constructor; assumption.
    - injection E as <-. destruct HV as [A B C]. constructor; cbn [det curmap credits]; [exact A| |exact C].
      intros x y Hx. destruct a as [a|].
      + destruct (decide (c = x)) as [->|Hne]; [rewrite lookup_insert in Hx; injection Hx as <-; exact Ho|rewrite lookup_insert_ne in Hx by exact Hne; exact (B _ _ Hx)].
      + apply lookup_delete_Some in Hx as [_ Hx]. exact (B _ _ Hx).
  Qed.
  (** C35, provenance: nothing is credited that no relayer submitted, nor to anybody else or in another amount. *)
  Theorem C35_backed : forall bk ops c, In c (credits (run dst ops (dinit bk))) -> backed ops c.
  Proof.
    intros bk ops. assert (Hg : forall ops' d, (forall o, In o ops' -> In o ops) -> prov ops d -> prov ops (run dst ops' d)).
    { induction ops' as [|o ops' IH]; intros d Hin HV; [exact HV|]. cbn [run fold_left]. apply IH; [intros x Hx; apply Hin; right; exact Hx|].
      apply dstep_prov; [apply Hin; left; reflexivity|exact HV]. }
    assert (HV : prov ops (dinit bk)) by (constructor; unfold dinit; cbn; intros; try rewrite lookup_empty in *; try discriminate; contradiction).
    exact (v_cred _ _ (Hg ops (dinit bk) (fun o H => H) HV)).
  Qed.

  (** C35, challenges: a challenged transaction that was not credited before never will be. *)
  Theorem C35_challenged_never : forall ops d h, h ∈ chall d -> ~ credited d h -> ~ credited (run dst ops d) h.
  Proof.
    intros ops d h Hc Hn. assert (HJ : h ∈ chall (run dst ops d) /\ ~ credited (run dst ops d) h); [|exact (proj2 HJ)].
    apply (run_inv dst (fun s => h ∈ chall s /\ ~ credited s h)); [|auto].
    intros s o [HC HN]. unfold dstep. destruct (dex s o) as [d'|] eqn:E; cbn [commit]; [|auto].
    assert (Hset : forall ok hs x x', (h ∈ chall x /\ ~ credited x h) -> settle limL xrp root pot x ok hs = Ok x' -> h ∈ chall x' /\ ~ credited x' h).
    { intros ok hs x x' Hx Hs. refine (settle_inv limL xrp root pot (fun x => h ∈ chall x /\ ~ credited x h) ok hs _ x x' Hx Hs).
      intros y k y' [Y1 Y2] Hy. apply settle1_cases in Hy as (_ & _ & -> & _ & _ & Hy). split; [exact Y1|]. unfold credited in *.
      destruct Hy as [(_ & -> & _)|[(_ & -> & _)|(li & t & w & _ & _ & -> & _ & Hk)]]; [exact Y2..|].
      cbn [map c_hash In]. intros [->|?]; [exact (Hk Y1)|contradiction]. }
    destruct o as [who li k t|k|ok|rem|i|hi w pr|who add|c a]; pose proof E as E'; cbn [dexec] in E.
    3: { unfold dtick in E. cbv zeta in E. eapply Hset; [|exact E]. auto. }
    all: apply quiet in E' as (_ & Ec & _); [|discriminate]; unfold credited in *; rewrite Ec; split; [|exact HN].
    - unfold submit_tx in E. repeat (match type of E with context [ensure ?b _] => destruct b; cbn [ensure rbind] in E; [|discriminate] end). injection E as <-. exact HC.
    - injection E as <-. cbn [submit_chal chall]. set_solver.
    - injection E as <-. unfold clear_storages. destruct (rem <=? _); [exact HC|]. cbv zeta. destruct (seqN _ _); [exact HC|].
      destruct (prune_loop _ _ _ _ _ _ _ _) as [[dt st] nh]. exact HC.
    - unfold manual_prune in E. destruct (_ <? _); cbn [ensure rbind] in E; [|discriminate]. destruct (settled s !! i); cbn [of_opt rbind] in E; [|discriminate]. injection E as <-. exact HC.
    - unfold reset in E. destruct (match pr with Some p => p <=? hi - w | None => true end); cbn [ensure rbind] in E; [|discriminate]. injection E as <-. exact HC.
    - injection E as <-. exact HC.
    - injection E as <-. exact HC.
  Qed.
End amounts.

(** ** Timing *)
Section timing.
  Variables (period lim limL maxpr xrp root pot rd wr : N).
  Notation dex := (dexec period lim limL maxpr xrp root pot rd wr).
  Notation dst := (dstep period lim limL maxpr xrp root pot rd wr).
  Variable idx : N -> N.
  Notation PI := (PI idx).
  Notation dgood := (dgood idx).
  Fixpoint ticks (ops : list dop) : N := match ops with [] => 0 | DTick _ :: r => 1 + ticks r | _ :: r => ticks r end.
  Lemma settle_sched ok hs d d' : settle limL xrp root pot d ok hs = Ok d' -> sched d' = sched d /\ det d' = det d /\ dblk d' = dblk d /\ chall d' = chall d.
  Proof.
    intros H. refine (settle_inv limL xrp root pot (fun x => sched x = sched d /\ det x = det d /\ dblk x = dblk d /\ chall x = chall d) ok hs _ d d' _ H); [|auto].
    intros x h x' (A & B & C & D) Hx. apply settle1_cases in Hx as (-> & -> & -> & _ & -> & _). auto.
  Qed.
  Lemma awaits_step d o h b t li : b < 2 ^ 32 -> PI d -> dgood d o -> In h (listed (sched d) b) -> dblk d < b -> det d !! h = Some (li, t) ->
    dblk d + ticks [o] < b -> In h (listed (sched (dst d o)) b) /\ dblk (dst d o) <= dblk d + ticks [o] /\ det (dst d o) !! h = Some (li, t).
  Proof.
    intros Hb HP Hg Hin Hlt Hdet Ht. unfold dstep. destruct (dex d o) as [d'|] eqn:E; cbn [commit]; [|split; [exact Hin|split; [lia|exact Hdet]]].
    pose proof (dexec_PI period lim limL maxpr xrp root pot rd wr idx d o d' Hg HP E) as HP'.
    assert (Hkeep : forall dt : gmap N (N * txdata), (forall x v, dt !! x = Some v -> det d !! x = Some v) -> dt !! h <> None -> dt !! h = Some (li, t)).
    { intros dt Hs Hn. destruct (dt !! h) as [v|] eqn:Ev; [|congruence]. rewrite <- Hdet. symmetry. exact (Hs _ _ Ev). }
    destruct o as [who l k y|k|ok|rem|i|hi w pr|who add|c a]; cbn [dexec ticks dgood] in *.
    - unfold submit_tx in E. destruct (bool_decide (who ∈ relayers d)); cbn [ensure rbind] in E; [|discriminate].
      destruct (match y with PCur _ _ c => bool_decide (is_Some (curmap d !! c)) | _ => true end); cbn [ensure rbind] in E; [|discriminate].
      destruct (_ <=? _); cbn [ensure rbind] in E; [|discriminate]. destruct (det d !! k) eqn:Ek; cbn [ensure rbind] in E; [discriminate|].
      destruct (_ <? lim); cbn [ensure rbind] in E; [|discriminate]. injection E as <-. cbn [sched dblk det]. split; [|split; [lia|]].
      + rewrite listed_insert. destruct (N.eqb_spec (wrap32 (dblk d + period)) b) as [E|]; [rewrite E; apply in_or_app; left; exact Hin|exact Hin].
      + rewrite lookup_insert_ne; [exact Hdet|congruence].
    - injection E as <-. split; [exact Hin|split; [cbn [submit_chal dblk]; lia|exact Hdet]].
    - unfold dtick in E. cbv zeta in E. apply settle_sched in E as (-> & -> & -> & _). cbn [sched det dblk].
      assert (Hw : wrap32 (dblk d + 1) = dblk d + 1) by (unfold wrap32; apply N.mod_small; lia). rewrite Hw. split; [|split; [lia|exact Hdet]].
      rewrite listed_delete. destruct (N.eqb_spec (dblk d + 1) b); [lia|exact Hin].
    - injection E as <-. unfold clear_storages in *. destruct (rem <=? _); [split; [exact Hin|split; [lia|exact Hdet]]|]. cbv zeta in *.
      destruct (seqN _ _) as [|i0 is] eqn:Es; [split; [exact Hin|split; [lia|exact Hdet]]|].
      destruct (prune_loop _ _ _ _ _ _ _ _) as [[dt st] nh] eqn:El. split; [exact Hin|split; [cbn [dblk]; lia|]]. cbn [det].
      apply Hkeep; [exact (prune_loop_sub rd wr _ _ _ _ _ _ _ _ _ El)|]. exact (proj1 (p_sched _ _ HP' _ _ Hin)).
    - unfold manual_prune in E. destruct (_ <? _); cbn [ensure rbind] in E; [|discriminate]. destruct (settled d !! i); cbn [of_opt rbind] in E; [|discriminate].
      injection E as <-. split; [exact Hin|split; [cbn [dblk]; lia|]]. cbn [det]. apply Hkeep; [intros x v; apply forget_sub|]. exact (proj1 (p_sched _ _ HP' _ _ Hin)).
    - destruct Hg.
    - injection E as <-. split; [exact Hin|split; [cbn [dblk]; lia|exact Hdet]].
    - injection E as <-. split; [exact Hin|split; [cbn [dblk]; lia|exact Hdet]].
  Qed.
  Lemma ticks_cons o ops : ticks (o :: ops) = ticks [o] + ticks ops.
  Proof. destruct o; cbn [ticks]; lia. Qed.
  Lemma awaits_run h b li t : b < 2 ^ 32 -> forall ops d, PI d -> along dst dgood ops d -> In h (listed (sched d) b) -> det d !! h = Some (li, t) ->
    dblk d + ticks ops < b -> PI (run dst ops d) /\ In h (listed (sched (run dst ops d)) b) /\ det (run dst ops d) !! h = Some (li, t).
  Proof.
    intros Hb. induction ops as [|o ops IH]; intros d HP Ha Hin Hdet Ht; [auto|].
    rewrite ticks_cons in Ht. destruct Ha as [Hg Ha].
    destruct (awaits_step d o h b t li Hb HP Hg Hin ltac:(lia) Hdet ltac:(lia)) as (A & B & C).
    apply (IH (dst d o)); [exact (dstep_PI period lim limL maxpr xrp root pot rd wr idx d o Hg HP)|exact Ha|exact A|exact C|lia].
  Qed.
  (** The state right after a successful submission. *)
  Lemma submitted d who li h t d1 : submit_tx period lim d who li h t = Ok d1 -> dblk d + period < 2 ^ 32 ->
    In h (listed (sched d1) (dblk d + period)) /\ det d1 !! h = Some (li, t) /\ dblk d1 = dblk d.
  Proof.
    intros E Hp. unfold submit_tx in E. repeat (match type of E with context [ensure ?b _] => destruct b; cbn [ensure rbind] in E; [|discriminate] end).
    injection E as <-. cbn [sched det dblk]. assert (Hw : wrap32 (dblk d + period) = dblk d + period) by (unfold wrap32; apply N.mod_small; exact Hp).
    rewrite Hw, listed_insert, N.eqb_refl, lookup_insert. split; [apply in_or_app; right; left; reflexivity|auto].
  Qed.
  (** C35, challenge period: a submitted transaction is not credited before [period] blocks have passed. *)
  Theorem C35_waits_partial : forall bk ops1 ops2 who h t d1,
    along dst dgood ops1 (dinit bk) -> let d0 := run dst ops1 (dinit bk) in
    submit_tx period lim d0 who (idx h) h t = Ok d1 -> dblk d0 + period < 2 ^ 32 ->
    along dst dgood ops2 d1 -> ticks ops2 < period -> ~ credited (run dst ops2 d1) h.
  Proof.
    intros bk ops1 ops2 who h t d1 Ha d0 Hs Hp Ha2 Ht. pose proof (run_PI period lim limL maxpr xrp root pot rd wr idx ops1 _ (dinit_PI idx bk) Ha) as HP0. fold d0 in HP0.
    pose proof (submit_PI period lim idx d0 who (idx h) h t d1 eq_refl HP0 Hs) as HP1.
    destruct (submitted _ _ _ _ _ _ Hs Hp) as (A & B & C).
    destruct (awaits_run h _ _ _ Hp ops2 d1 HP1 Ha2 A B ltac:(lia)) as (D & E & _). exact (proj2 (p_sched _ _ D _ _ E)).
  Qed.

  Lemma issuance_mono d ok h d' a : settle1 limL xrp root pot d ok h = Ok d' -> issuance (dbk d) a <= issuance (dbk d') a.
  Proof.
    intros H. apply settle1_cases in H as (_ & _ & _ & _ & _ & H). destruct H as [(-> & _)|[(-> & _)|(li & t & w & _ & Hd & _)]]; [lia..|].
    apply deposit1_view in Hd. destruct w as [[[b y] v]|]; [|destruct Hd as [-> _]; lia]. destruct Hd as [Hd _].
    rewrite (asset_deposit_issuance _ _ _ _ _ _ _ a Hd). lia.
  Qed.
  (** The outcome once [h] has been looked at. *)
  Definition done (h amt : N) (isx : bool) (d : dep) : Prop :=
    credited d h \/ (In h (failures d) /\ (isx = true -> xrp <> root -> U128MAX < issuance (dbk d) xrp + amt)).
  Lemma done_mono h amt isx d ok k d' : done h amt isx d -> settle1 limL xrp root pot d ok k = Ok d' -> done h amt isx d'.
  Proof.
    intros HD H. pose proof (issuance_mono _ _ _ _ xrp H) as Hm. apply settle1_cases in H as (_ & _ & _ & _ & _ & H).
    destruct HD as [HC|[HF HU]].
    - left. unfold credited in *. destruct H as [(_ & -> & _)|[(_ & -> & _)|(li & t & w & _ & _ & -> & _)]]; [exact HC..|right; exact HC].
    - right. split.
      + destruct H as [(_ & _ & -> & _)|[(_ & _ & -> & _)|(li & t & w & _ & _ & _ & -> & _)]]; [exact HF|right; exact HF|exact HF].
      + intros H1 H2. specialize (HU H1 H2). lia.
  Qed.
  Lemma settle_done h li t amt isx : (isx = true -> exists who, t = PXrp amt who) ->
    forall ok hs d d', settle limL xrp root pot d ok hs = Ok d' -> In h hs -> h ∉ chall d -> det d !! h = Some (li, t) -> done h amt isx d'.
  Proof.
    intros Hx ok. induction hs as [|k hs IH]; intros d d' H Hin Hch Hdet; [destruct Hin|]. cbn [settle] in H.
    destruct (settle1 limL xrp root pot d ok k) as [d1|] eqn:E1; cbn [rbind] in H; [|discriminate].
    destruct (decide (k = h)) as [->|Hne].
    - apply (settle_inv limL xrp root pot (done h amt isx) ok hs (fun x y z A B => done_mono h amt isx x ok y z A B) d1 d'); [|exact H].
      apply settle1_cases in E1 as (_ & _ & _ & _ & _ & E1). destruct E1 as [(_ & _ & _ & [?|?])|[(El & _ & Ef & _ & li' & t' & e & Hd & He)|(li' & t' & w & _ & _ & Ec & _)]].
      + contradiction.
      + congruence.
      + right. rewrite Ef, El. split; [left; reflexivity|]. intros Hi Hr. destruct (Hx Hi) as [who ->]. rewrite Hdet in Hd. injection Hd as <- <-.
        unfold deposit1, asset_deposit in He. destruct (N.eqb_spec xrp root); [contradiction|]. unfold mint in He.
        destruct (N.ltb_spec U128MAX (issuance (dbk d) xrp + amt)) as [Hlt|]; [exact Hlt|discriminate].
      + left. unfold credited. rewrite Ec. left. reflexivity.
    - pose proof E1 as E2. apply settle1_cases in E2 as (_ & D1 & D2 & _). apply (IH d1 d'); [exact H|destruct Hin as [?|?]; [congruence|assumption]|rewrite D2; exact Hch|rewrite D1; exact Hdet].
  Qed.
  (** C76: a submitted transaction that nobody challenges is decided exactly [period] blocks later: credited, or
      reported as failed; an XRP deposit is credited unless the XRP issuance would overflow. *)
  Theorem C76_processed_partial : forall bk ops1 ops2 who h t d1 ok d',
    along dst dgood ops1 (dinit bk) -> let d0 := run dst ops1 (dinit bk) in
    submit_tx period lim d0 who (idx h) h t = Ok d1 -> dblk d0 + period < 2 ^ 32 ->
    along dst dgood ops2 d1 -> ticks ops2 < period -> let d2 := run dst ops2 d1 in
    dblk d2 + 1 = dblk d0 + period -> h ∉ chall d2 -> dtick limL xrp root pot d2 ok = Ok d' ->
    (credited d' h \/ In h (failures d')) /\
    (forall amt y, t = PXrp amt y -> xrp <> root -> issuance (dbk d') xrp + amt <= U128MAX -> credited d' h).
  Proof.
    intros bk ops1 ops2 who h t d1 ok d' Ha d0 Hs Hp Ha2 Ht d2 Hb Hc Hd.
    pose proof (run_PI period lim limL maxpr xrp root pot rd wr idx ops1 _ (dinit_PI idx bk) Ha) as HP0. fold d0 in HP0.
    pose proof (submit_PI period lim idx d0 who (idx h) h t d1 eq_refl HP0 Hs) as HP1.
    destruct (submitted _ _ _ _ _ _ Hs Hp) as (A & B & C).
    destruct (awaits_run h _ _ _ Hp ops2 d1 HP1 Ha2 A B ltac:(lia)) as (D & E & F). fold d2 in D, E, F.
    unfold dtick in Hd. cbv zeta in Hd. assert (Hw : wrap32 (dblk d2 + 1) = dblk d0 + period) by (rewrite Hb; unfold wrap32; apply N.mod_small; exact Hp). rewrite Hw in Hd.
    split.
    - destruct (settle_done h _ t 0 false ltac:(discriminate) ok _ _ _ Hd E Hc F) as [?|[? _]]; auto.
    - intros amt y -> Hne Hi. destruct (settle_done h _ (PXrp amt y) amt true ltac:(intros _; exists y; reflexivity) ok _ _ _ Hd E Hc F) as [?|[_ Hu]]; [assumption|].
      specialize (Hu eq_refl Hne). lia.
  Qed.

  (** C76, failure is final: once processing has failed, the transaction is never credited and every later
      submission of it is refused. *)
  Lemma failures_mono d o h : In h (failures d) -> In h (failures (dst d o)).
  Proof.
    intros Hf. unfold dstep. destruct (dex d o) as [d'|] eqn:E; cbn [commit]; [|exact Hf].
    destruct o as [who li k t|k|ok|rem|i|hi w pr|who add|c a]; try (apply quiet in E as (_ & _ & -> & _); [exact Hf|discriminate]).
    cbn [dexec] in E. unfold dtick in E. cbv zeta in E. refine (settle_inv limL xrp root pot (fun x => In h (failures x)) ok _ _ _ _ _ E); [|exact Hf].
    intros x y x' Hx H. apply settle1_cases in H as (_ & _ & _ & _ & _ & H).
    destruct H as [(_ & _ & -> & _)|[(_ & _ & -> & _)|(l0 & t & w & _ & _ & _ & -> & _)]]; [exact Hx|right; exact Hx|exact Hx].
  Qed.
  Theorem C76_failed_is_final : forall bk ops1 ops2 h, along dst dgood (ops1 ++ ops2) (dinit bk) -> In h (failures (run dst ops1 (dinit bk))) ->
    let d := run dst (ops1 ++ ops2) (dinit bk) in
    ~ credited d h /\ forall who li t, is_ok (submit_tx period lim d who li h t) = false.
  Proof.
    intros bk ops1 ops2 h Ha Hf d. pose proof (run_PI period lim limL maxpr xrp root pot rd wr idx _ _ (dinit_PI idx bk) Ha) as HP. fold d in HP.
    assert (Hf' : In h (failures d)).
    { unfold d. rewrite run_app. apply (run_inv dst (fun s => In h (failures s))); [intros s o; apply failures_mono|exact Hf]. }
    destruct (p_fail _ _ HP h Hf') as (A & B & _). split; [exact B|]. intros who li t. unfold submit_tx.
    destruct (bool_decide (who ∈ relayers d)); cbn [ensure rbind]; [|reflexivity].
    destruct (match t with PCur _ _ c => bool_decide (is_Some (curmap d !! c)) | _ => true end); cbn [ensure rbind]; [|reflexivity].
    destruct (_ <=? _); cbn [ensure rbind]; [|reflexivity]. destruct (det d !! h); [reflexivity|congruence].
  Qed.

  (** C77: no panic as long as the transactions of each XRPL ledger fit its list. *)
  Lemma settle1_room m d ok h : (forall k, N.of_nat (length (listed (settled d) k)) + N.of_nat (S m) <= limL) ->
    exists d', settle1 limL xrp root pot d ok h = Ok d' /\ forall k, N.of_nat (length (listed (settled d') k)) + N.of_nat m <= limL.
  Proof.
    intros Hr. unfold settle1. case_bool_decide; [eexists; split; [reflexivity|]; intros k; specialize (Hr k); lia|].
    destruct (det d !! h) as [[li t]|]; [|eexists; split; [reflexivity|]; intros k; specialize (Hr k); lia].
    destruct (deposit1 xrp root pot d ok t) as [[l w]|e]; [|eexists; split; [reflexivity|]; intros k; specialize (Hr k); cbn [settled]; lia].
    cbv zeta. destruct (N.ltb_spec (N.of_nat (length (listed (settled d) (wrap32 li)))) limL) as [|Hge]; cbn [ensure rbind].
    - eexists. split; [reflexivity|]. cbn [settled]. intros k. rewrite listed_insert. destruct (N.eqb_spec (wrap32 li) k) as [E|]; [|specialize (Hr k); lia].
      subst k. specialize (Hr (wrap32 li)). rewrite app_length. cbn [length]. lia.
    - specialize (Hr (wrap32 li)). lia.
  Qed.
  Theorem C77_no_panic_partial : forall d ok,
    (forall k, N.of_nat (length (listed (settled d) k)) + N.of_nat (length (listed (sched d) (wrap32 (dblk d + 1)))) <= limL) ->
    is_ok (dtick limL xrp root pot d ok) = true.
  Proof.
    intros d ok Hr. unfold dtick. cbv zeta. remember (listed (sched d) (wrap32 (dblk d + 1))) as hs eqn:Eh. clear Eh.
    match goal with |- is_ok (settle _ _ _ _ ?x _ _) = true => assert (Hr' : forall k, N.of_nat (length (listed (settled x) k)) + N.of_nat (length hs) <= limL) by exact Hr; generalize x Hr'; clear Hr' end.
    clear Hr d. induction hs as [|h hs IH]; intros d Hr; cbn [settle]; [reflexivity|].
    destruct (settle1_room (length hs) d ok h Hr) as (d1 & -> & Hr1). cbn [rbind]. apply IH. exact Hr1.
  Qed.
End timing.

(** ** Witnesses *)
Definition nobody : ledger N := empty_ledger.
Local Notation dst1 := (dstep 1 2 2 10 2 1 99 1 1).
Local Notation yes := (fun _ : N => true).

(** C35 refuted when one transaction may be reported with two ledger indexes: once its record has been pruned, the
    window check uses the new index. *)
Definition twice_ops : list dop :=
  [DRelayer 5 true; DSubmit 5 42900000 7 (PXrp 100 8); DTick yes; DSubmit 5 43300000 6 (PXrp 1 4); DTick yes;
   DClear 1000; DSubmit 5 43300000 7 (PXrp 100 8); DTick yes].
Theorem C35_two_indexes_refuted : exists ops, balance (dbk (run dst1 ops (dinit nobody))) 2 8 = 200 /\
  map c_hash (credits (run dst1 ops (dinit nobody))) = [7; 6; 7] /\
  Forall (fun o => match o with DReset _ _ _ => False | DSubmit _ _ h t => h = 7 -> t = PXrp 100 8 | _ => True end) ops.
Proof. exists twice_ops. split; [vm_compute; reflexivity|]. split; [vm_compute; reflexivity|]. repeat constructor; intros; try reflexivity; discriminate. Qed.
(** C35 refuted when root resets the window to a lower ledger index. *)
Definition reset_ops : list dop :=
  [DRelayer 5 true; DSubmit 5 42900000 7 (PXrp 100 8); DTick yes; DSubmit 5 43300000 6 (PXrp 1 4); DTick yes;
   DClear 1000; DReset 42900000 288000 None; DSubmit 5 42900000 7 (PXrp 100 8); DTick yes].
Theorem C35_reset_refuted : exists ops, balance (dbk (run dst1 ops (dinit nobody))) 2 8 = 200 /\
  Forall (fun o => match o with DSubmit _ li h _ => li = if h =? 7 then 42900000 else 43300000 | _ => True end) ops.
Proof. exists reset_ops. split; [vm_compute; reflexivity|]. repeat constructor. Qed.
Definition one_index (h : N) : N := if h =? 7 then 42900000 else 43300000.
Example C35_example : along dst1 (dgood one_index) (firstn 6 twice_ops) (dinit nobody) /\
  map c_hash (credits (run dst1 (firstn 6 twice_ops) (dinit nobody))) = [6; 7] /\ det (run dst1 (firstn 6 twice_ops) (dinit nobody)) !! 7 = None /\
  is_ok (submit_tx 1 2 (run dst1 (firstn 6 twice_ops) (dinit nobody)) 5 (one_index 7) 7 (PXrp 100 8)) = false.
Proof. split; [cbn -[dstep]; repeat split|]. vm_compute. repeat split. Qed.

(** C76 refuted: anybody can stop a genuine deposit for good with one free call ... *)
Theorem C76_challenge_refuted : exists d h who t, is_ok (submit_tx 3 2 d who 42900000 h t) = true /\
  forall ops, ~ credited (run (dstep 3 2 2 10 2 1 99 1 1) ops (dstep 3 2 2 10 2 1 99 1 1 (submit_chal d h) (DSubmit who 42900000 h t))) h.
Proof.
  exists (run (dstep 3 2 2 10 2 1 99 1 1) [DRelayer 5 true] (dinit nobody)), 7, 5, (PXrp 100 8). split; [vm_compute; reflexivity|].
  intros ops. apply C35_challenged_never; [apply (bool_decide_unpack _); vm_compute; exact I|]. vm_compute. intros [].
Qed.
(** ... and a deposit that fails because its currency is unmapped for a while is lost. *)
Definition lost_ops : list dop :=
  [DRelayer 5 true; DMap 3 (Some 20); DSubmit 5 42900000 7 (PCur 100 8 3); DMap 3 None; DTick yes; DMap 3 (Some 20)].
Theorem C76_failed_refuted : exists ops1, In 7 (failures (run dst1 ops1 (dinit nobody))) /\
  curmap (run dst1 ops1 (dinit nobody)) !! 3 = Some 20 /\
  forall ops2, along dst1 (dgood one_index) ops2 (run dst1 ops1 (dinit nobody)) ->
    balance (dbk (run dst1 (ops1 ++ ops2) (dinit nobody))) 20 8 = got 20 8 (credits (run dst1 (ops1 ++ ops2) (dinit nobody))) /\
    ~ credited (run dst1 (ops1 ++ ops2) (dinit nobody)) 7 /\ forall who li t, is_ok (submit_tx 1 2 (run dst1 (ops1 ++ ops2) (dinit nobody)) who li 7 t) = false.
Proof.
  exists lost_ops. split; [vm_compute; auto|]. split; [vm_compute; reflexivity|]. intros ops2 Ha. split.
  - rewrite (proj1 (C35_amounts 1 2 2 10 2 1 99 1 1 nobody (lost_ops ++ ops2)) 20 8 ltac:(discriminate)). reflexivity.
  - apply (C76_failed_is_final 1 2 2 10 2 1 99 1 1 one_index nobody lost_ops ops2 7); [|vm_compute; auto].
    apply along_app. split; [cbn -[dstep]; repeat split|exact Ha].
Qed.
Example C76_example : let d0 := run dst1 [DRelayer 5 true] (dinit nobody) in
  exists d1 d', submit_tx 1 2 d0 5 (one_index 7) 7 (PXrp 100 8) = Ok d1 /\ dblk d1 + 1 = dblk d0 + 1 /\ dtick 2 2 1 99 d1 yes = Ok d' /\
    map c_hash (credits d') = [7] /\ balance (dbk d') 2 8 = 100.
Proof.
  cbv zeta. destruct (submit_tx 1 2 (run dst1 [DRelayer 5 true] (dinit nobody)) 5 (one_index 7) 7 (PXrp 100 8)) as [d1|] eqn:E1; [|vm_compute in E1; discriminate].
  exists d1. destruct (dtick 2 2 1 99 d1 yes) as [d'|] eqn:E2; [exists d'|].
  - split; [reflexivity|]. vm_compute in E1. injection E1 as <-. vm_compute in E2. injection E2 as <-. vm_compute. auto.
  - vm_compute in E1. injection E1 as <-. vm_compute in E2. discriminate.
Qed.

(** C77 refuted: as many transactions of one XRPL ledger as fit, credited over two blocks, and one more: the next
    block's initialisation panics, whatever its inherent data, so no block can be produced. *)
Definition halt_ops : list dop :=
  [DRelayer 5 true; DSubmit 5 42900000 1 (PXrp 1 8); DSubmit 5 42900000 2 (PXrp 1 8); DTick yes; DSubmit 5 42900000 3 (PXrp 1 8)].
Theorem C77_halt_refuted : exists ops, forall ok, dtick 2 2 1 99 (run dst1 ops (dinit nobody)) ok = Err 99.
Proof. exists halt_ops. intros ok. vm_compute. reflexivity. Qed.
Example C77_example : let d := run dst1 (firstn 4 halt_ops) (dinit nobody) in
  length (listed (settled d) 42900000) = 2%nat /\ is_ok (dtick 2 2 1 99 d yes) = true.
Proof. vm_compute. auto. Qed.

Print Assumptions C35_credited_once_partial.
Print Assumptions C35_amounts.
Print Assumptions C35_backed.
Print Assumptions C35_challenged_never.
Print Assumptions C35_waits_partial.
Print Assumptions C35_two_indexes_refuted.
Print Assumptions C35_reset_refuted.
Print Assumptions C76_processed_partial.
Print Assumptions C76_failed_is_final.
Print Assumptions C76_challenge_refuted.
Print Assumptions C76_failed_refuted.
Print Assumptions C77_no_panic_partial.
Print Assumptions C77_halt_refuted.
