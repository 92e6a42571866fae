(** Properties of semi-fungible tokens: C19, C20. *)
From Verif Require Import SftProofs.

Section props.
  Variable max_owners max_serials : N.
  Notation sexec := (sexec max_owners max_serials).
  Notation sstep := (sstep max_owners max_serials).

  Definition fresh_serials (s : sstate) : Prop :=
    forall c n t, stoks s !! (c, n) = Some t -> exists i, scolls s !! c = Some i /\ n < sc_next i.
  Definition SInv (s : sstate) : Prop := SOk s /\ fresh_serials s.

  Lemma each_dom f l s s' :
    (forall s e s', f s e = Ok s' -> scolls s' = scolls s /\ forall k, stoks s !! k = None -> stoks s' !! k = None) ->
    each f l s = Ok s' -> scolls s' = scolls s /\ forall k, stoks s !! k = None -> stoks s' !! k = None.
  Proof.
    intros Hf. revert s s'. induction l as [|e l IH]; intros s s' E; cbn [each] in E; [injection E as <-; auto|].
    inv_ok. rename v into s1. match goal with H : f s e = Ok s1 |- _ => destruct (Hf _ _ _ H) as [H1 H2] end.
    destruct (IH _ _ E) as [H3 H4]. split; [congruence|auto].
  Qed.
  Lemma put_dom s k t t' : stoks s !! k = Some t ->
    scolls (put_tok s k t') = scolls s /\ forall k', stoks s !! k' = None -> stoks (put_tok s k t') !! k' = None.
  Proof.
    intros Hk. split; [reflexivity|]. intros k' Hk'. unfold put_tok. cbn [stoks]. rewrite lookup_insert_ne; [exact Hk'|congruence].
  Qed.
  Lemma fresh_dom s s' : fresh_serials s -> scolls s' = scolls s ->
    (forall k, stoks s !! k = None -> stoks s' !! k = None) -> fresh_serials s'.
  Proof.
    intros Hf Ec Hd c n t Ht. rewrite Ec. destruct (stoks s !! (c, n)) as [t0|] eqn:E; [eapply Hf; exact E|].
    rewrite (Hd _ E) in Ht. discriminate.
  Qed.
  Lemma put_coll_SOk s c i : SOk s -> SOk (put_coll s c i).
  Proof. intros Hs k t H. eapply Hs. exact H. Qed.
  Lemma put_coll_fresh s c i : fresh_serials s -> (forall j, scolls s !! c = Some j -> sc_next j <= sc_next i) ->
    fresh_serials (put_coll s c i).
  Proof.
    intros Hf Hn d n t Ht. destruct (Hf d n t Ht) as (j & Hj & Hlt). unfold put_coll. cbn [scolls].
    destruct (decide (c = d)) as [->|Hne].
    - rewrite lookup_insert. exists i. split; [reflexivity|]. specialize (Hn j Hj). lia.
    - rewrite lookup_insert_ne by exact Hne. eauto.
  Qed.

  (** What an operation does to the balances. *)
  Definition transferred (o : sop) (d m y : N) : N :=
    match o with STransfer who c l to => if (d =? c) && (y =? who) then qty m l else 0
               | SBurn who c l => if (d =? c) && (y =? who) then qty m l else 0
               | SReserve who c n x => if (d =? c) && (m =? n) && (y =? who) then x else 0
               | _ => 0 end.
  Definition received (s : sstate) (o : sop) (d m y : N) : N :=
    match o with
    | STransfer who c l to => if (d =? c) && (y =? to) then qty m l else 0
    | SMint _ c l owner _ => if (d =? c) && (y =? owner) then qty m l else 0
    | SFree who c n x => if (d =? c) && (m =? n) && (y =? who) then x else 0
    | SToken _ c initial _ owner _ =>
        match scolls s !! c with
        | Some i => if (d =? c) && (m =? sc_next i) && (y =? owner) then initial else 0 | None => 0 end
    | _ => 0 end.
  Definition res_up (o : sop) (d m y : N) : N :=
    match o with SReserve who c n x => if (d =? c) && (m =? n) && (y =? who) then x else 0 | _ => 0 end.
  Definition res_down (o : sop) (d m y : N) : N :=
    match o with SFree who c n x => if (d =? c) && (m =? n) && (y =? who) then x else 0 | _ => 0 end.

  Definition moves (s s' : sstate) (o : sop) : Prop := forall d m y,
    fst (sbal s' d m y) + transferred o d m y = fst (sbal s d m y) + received s o d m y /\
    snd (sbal s' d m y) + res_down o d m y = snd (sbal s d m y) + res_up o d m y.

  Lemma exec_spec s o s' : SInv s -> sop_u128 o -> sexec s o = Ok s' -> SInv s' /\ moves s s' o.
  Proof.
    intros [Hs Hf] Hu E. destruct o; cbn [SftModel.sexec] in E.
    - unfold screate in E. inv_ok. subst s'. split.
      + split; [apply put_coll_SOk; exact Hs|apply put_coll_fresh; [exact Hf|]]. intros j Hj.
        match goal with H : bool_decide _ = true |- _ => apply bool_decide_eq_true in H; congruence end.
      + intros d m y. cbn [transferred received res_up res_down]. unfold sbal, put_coll. cbn [stoks]. split; reflexivity.
    - unfold create_token in E. inv_ok. rename v into i. subst s'.
      match goal with H : scolls s !! c = Some i |- _ => rename H into Hc end.
      set (t := Sft _ _ _).
      assert (Hnew : stoks s !! (c, sc_next i) = None).
      { destruct (stoks s !! (c, sc_next i)) as [t0|] eqn:Et; [|reflexivity]. destruct (Hf _ _ _ Et) as (j & Hj & Hlt). rewrite Hc in Hj.
        injection Hj as <-. lia. }
      assert (Hb : forall y, balof (t_own t) y = if y =? owner then (initial, 0) else (0, 0)).
      { intros y. unfold t, balof. cbn [t_own]. destruct (0 <? initial) eqn:Ei; cbn [find_bal].
        - rewrite (N.eqb_sym owner y). destruct (y =? owner); reflexivity.
        - apply N.ltb_ge in Ei. assert (initial = 0) as -> by lia. destruct (y =? owner); reflexivity. }
      split.
      + split.
        * apply put_coll_SOk, put_SOk; [exact Hs|]. unfold tok_ok, t. cbn [t_own t_iss t_max].
          split; [destruct (0 <? initial); cbn; [apply NoDup_singleton|constructor]|]. split.
          { destruct (0 <? initial) eqn:Ei; unfold sum_own, sumL, tot; cbn; [lia|]. apply N.ltb_ge in Ei. lia. }
          split; [exact Hu|]. intros k ->.
          match goal with H : _ && _ = true |- _ => apply andb_true_iff in H; destruct H as [_ H]; apply N.leb_le in H; exact H end.
        * intros d n t0 Ht. unfold put_coll, put_tok in *. cbn [stoks scolls] in *.
          destruct (decide (c = d)) as [->|Hne].
          -- rewrite lookup_insert. eexists. split; [reflexivity|]. cbn [sc_next].
             destruct (decide ((d, sc_next i) = (d, n))) as [[= ->]|Hne]; [lia|].
             rewrite lookup_insert_ne in Ht by exact Hne. destruct (Hf _ _ _ Ht) as (j & Hj & Hlt). rewrite Hc in Hj. injection Hj as <-. lia.
          -- rewrite lookup_insert_ne by exact Hne. rewrite lookup_insert_ne in Ht by congruence. eapply Hf; exact Ht.
      + intros d m y. cbn [transferred received res_up res_down]. rewrite Hc.
        match goal with |- context [put_coll ?a ?b ?x] => assert (Hp : sbal (put_coll a b x) d m y = sbal a d m y) by reflexivity end.
        rewrite !Hp, put_sbal, Hb. destruct (decide (d = c /\ m = sc_next i)) as [[-> ->]|Hne].
        * rewrite !N.eqb_refl. cbn [andb]. assert (H0 : sbal s c (sc_next i) y = (0, 0)) by (unfold sbal; rewrite Hnew; reflexivity).
          rewrite H0. destruct (y =? owner); cbn [fst snd]; lia.
        * assert (Hz : (d =? c) && (m =? sc_next i) = false).
          { destruct (N.eqb_spec d c), (N.eqb_spec m (sc_next i)); cbn; tauto || reflexivity. }
          rewrite Hz. cbn [andb]. lia.
    - unfold smint in E. inv_ok. rename v into i.
      assert (Hd : scolls s' = scolls s /\ forall k, stoks s !! k = None -> stoks s' !! k = None).
      { eapply each_dom; [|exact E]. clear. intros s [n q] s' E. unfold mint_one in E. inv_ok. subst s'. eapply put_dom; eassumption. }
      apply mint_each_spec in E; [|exact Hs]. destruct E as (Hs' & _ & _ & _ & B). split.
      + split; [exact Hs'|]. eapply fresh_dom; [exact Hf|apply Hd..].
      + intros d m y. cbn [transferred received res_up res_down]. rewrite B. destruct (d =? c), (y =? owner); cbn [andb fst snd]; lia.
    - unfold stransfer in E. inv_ok.
      match goal with H : negb (who =? to) = true |- _ => apply negb_true_iff, N.eqb_neq in H; rename H into Hne end.
      assert (Hd : scolls s' = scolls s /\ forall k, stoks s !! k = None -> stoks s' !! k = None).
      { eapply each_dom; [|exact E]. clear. intros s [n q] s' E. unfold transfer_one in E. inv_ok. subst s'. eapply put_dom; eassumption. }
      pose proof (transfer_each_enough _ _ _ _ _ _ _ Hne E Hs) as Hen.
      apply transfer_each_spec in E; [|exact Hne|exact Hs]. destruct E as (Hs' & _ & B). split.
      + split; [exact Hs'|]. eapply fresh_dom; [exact Hf|apply Hd..].
      + intros d m y. cbn [transferred received res_up res_down]. rewrite B. specialize (Hen m).
        destruct (N.eqb_spec d c) as [Edc|]; cbn [andb]; [|lia]. rewrite Edc.
        destruct (N.eqb_spec y who) as [Eyw|], (N.eqb_spec y to) as [Eyt|]; cbn [fst snd]; try congruence; try lia.
        rewrite Eyw. lia.
    - unfold sburn in E. inv_ok.
      assert (Hd : scolls s' = scolls s /\ forall k, stoks s !! k = None -> stoks s' !! k = None).
      { eapply each_dom; [|exact E]. clear. intros s [n q] s' E. unfold burn_one in E. inv_ok. subst s'. eapply put_dom; eassumption. }
      apply burn_each_spec in E; [|exact Hs]. destruct E as (Hs' & _ & Hen & B). split.
      + split; [exact Hs'|]. eapply fresh_dom; [exact Hf|apply Hd..].
      + intros d m y. cbn [transferred received res_up res_down]. rewrite B. specialize (Hen m).
        destruct (N.eqb_spec d c) as [Edc|]; cbn [andb]; [|lia]. rewrite Edc.
        destruct (N.eqb_spec y who) as [Eyw|]; cbn [fst snd]; [|lia]. rewrite Eyw. lia.
    - unfold sset_max in E. inv_ok. rename v0 into t. subst s'.
      match goal with H : stoks s !! _ = Some t |- _ => rename H into Ht end. destruct (Hs _ _ Ht) as (H1 & H2 & H3 & H4). split.
      + split.
        * apply put_SOk; [exact Hs|]. split; [exact H1|]. split; [exact H2|]. split; [exact H3|]. cbn. intros k [= <-]. lia.
        * eapply fresh_dom; [exact Hf|reflexivity|]. eapply put_dom. exact Ht.
      + intros d k y. cbn [transferred received res_up res_down]. rewrite put_sbal. cbn [t_own].
        destruct (decide _) as [[-> ->]|]; [|lia]. unfold sbal. rewrite Ht. lia.
    - unfold sset_owner in E. inv_ok. subst s'. split; [|intros d k y; split; reflexivity].
      split; [apply put_coll_SOk; exact Hs|apply put_coll_fresh; [exact Hf|]]. intros j Hj. cbn. assert (j = v) by congruence. subst. lia.
    - unfold sset_flags in E. inv_ok. subst s'. split; [|intros d k y; split; reflexivity].
      split; [apply put_coll_SOk; exact Hs|apply put_coll_fresh; [exact Hf|]]. intros j Hj. cbn. assert (j = v) by congruence. subst. lia.
    - unfold sset_public in E. inv_ok. subst s'. split; [split; [exact Hs|exact Hf]|intros d k y; split; reflexivity].
    - unfold sreserve in E. inv_ok. rename v into t, v0 into t'. subst s'.
      match goal with H : stoks s !! _ = Some t |- _ => rename H into Ht end.
      match goal with H : reserve_balance _ _ _ = _ |- _ => destruct (reserve_spec _ _ _ _ (Hs _ _ Ht) H) as (M & I & ND & S & L & B) end.
      destruct (Hs _ _ Ht) as (H1 & H2 & H3 & H4). split.
      + split.
        * apply put_SOk; [exact Hs|]. split; [exact ND|]. split; [lia|]. split; [lia|]. intros k Hk. rewrite M in Hk. specialize (H4 k Hk). lia.
        * eapply fresh_dom; [exact Hf|reflexivity|]. eapply put_dom. exact Ht.
      + intros d m y. cbn [transferred received res_up res_down]. rewrite put_sbal, B.
        assert (Hb : sbal s c n y = balof (t_own t) y) by (unfold sbal; rewrite Ht; reflexivity).
        destruct (decide (d = c /\ m = n)) as [[-> ->]|Hne].
        * rewrite !N.eqb_refl. cbn [andb]. rewrite Hb. destruct (N.eqb_spec y who) as [Ey|]; cbn [fst snd]; [rewrite Ey|]; lia.
        * assert (Hz : (d =? c) && (m =? n) = false) by (destruct (N.eqb_spec d c), (N.eqb_spec m n); cbn; tauto || reflexivity).
          rewrite Hz. cbn [andb]. lia.
    - unfold sfree in E. inv_ok. rename v into t, v0 into t'. subst s'.
      match goal with H : stoks s !! _ = Some t |- _ => rename H into Ht end.
      match goal with H : free_reserved _ _ _ = _ |- _ => destruct (free_spec _ _ _ _ (Hs _ _ Ht) H) as (M & I & ND & S & L & B) end.
      destruct (Hs _ _ Ht) as (H1 & H2 & H3 & H4). split.
      + split.
        * apply put_SOk; [exact Hs|]. split; [exact ND|]. split; [lia|]. split; [lia|]. intros k Hk. rewrite M in Hk. specialize (H4 k Hk). lia.
        * eapply fresh_dom; [exact Hf|reflexivity|]. eapply put_dom. exact Ht.
      + intros d m y. cbn [transferred received res_up res_down]. rewrite put_sbal, B.
        assert (Hb : sbal s c n y = balof (t_own t) y) by (unfold sbal; rewrite Ht; reflexivity).
        destruct (decide (d = c /\ m = n)) as [[-> ->]|Hne].
        * rewrite !N.eqb_refl. cbn [andb]. rewrite Hb. destruct (N.eqb_spec y who) as [Ey|]; cbn [fst snd]; [rewrite Ey|]; lia.
        * assert (Hz : (d =? c) && (m =? n) = false) by (destruct (N.eqb_spec d c), (N.eqb_spec m n); cbn; tauto || reflexivity).
          rewrite Hz. cbn [andb]. lia.
  Qed.
  Lemma step_inv s o : sop_u128 o -> SInv s -> SInv (sstep s o).
  Proof.
    intros Hu Hs. unfold SftModel.sstep. destruct (sexec s o) as [s'|] eqn:E; cbn [commit]; [|exact Hs]. eapply exec_spec; eassumption.
  Qed.
  Lemma run_SInv ops : Forall sop_u128 ops -> SInv (run sstep ops sinit).
  Proof.
    intros Hf. apply (run_inv_where sstep sop_u128 SInv); [intros; apply step_inv; assumption|exact Hf|].
    split; intros k t; [|intros t0]; intros H; discriminate.
  Qed.

  (** ** C19 *)
  (** The balances listed for a token (one entry per account) add up to its issuance, which
      respects the declared maximum and the 128-bit range. *)
  Theorem C19_supply ops : Forall sop_u128 ops -> forall k t, stoks (run sstep ops sinit) !! k = Some t ->
    NoDup (map fst (t_own t)) /\
    sumL (map (fun e => fst (snd e) + snd (snd e)) (t_own t)) = t_iss t /\
    t_iss t <= 2 ^ 128 - 1 /\ (forall m, t_max t = Some m -> t_iss t <= m).
  Proof. intros Hf k t Ht. exact (proj1 (run_SInv ops Hf) k t Ht). Qed.
  (** The exact effect of every successful call on every account's free balance of every token;
      repeated serial numbers count as often as they are listed. *)
  Theorem C19_free_exact ops o s' : Forall sop_u128 ops -> sop_u128 o ->
    let s := run sstep ops sinit in sexec s o = Ok s' ->
    forall c n y, fst (sbal s' c n y) + transferred o c n y = fst (sbal s c n y) + received s o c n y.
  Proof. intros Hf Hu s E c n y. apply (exec_spec s o s' (run_SInv ops Hf) Hu E). Qed.
  (** Once declared, a maximum stays. *)
  Theorem C19_max_fixed ops s k t m : fresh_serials s -> stoks s !! k = Some t -> t_max t = Some m ->
    exists t', stoks (run sstep ops s) !! k = Some t' /\ t_max t' = Some m.
  Proof.
    revert s t. induction ops as [|o ops IH]; intros s t Hfr Ht Hm; [eauto|].
    change (run sstep (o :: ops) s) with (run sstep ops (sstep s o)).
    cut (fresh_serials (sstep s o) /\ exists t', stoks (sstep s o) !! k = Some t' /\ t_max t' = Some m).
    { intros [H1 (t' & H2 & H3)]. eapply IH; eassumption. }
    clear IH. unfold SftModel.sstep. destruct (sexec s o) as [s'|] eqn:E; cbn [commit]; [|eauto].
    assert (Hkeep : forall s s', fresh_serials s -> scolls s' = scolls s ->
       (forall k, stoks s !! k = None -> stoks s' !! k = None) -> fresh_serials s') by (intros; eapply fresh_dom; eassumption).
    set (P := fun s s' : sstate => scolls s' = scolls s /\ (forall k, stoks s !! k = None -> stoks s' !! k = None) /\
       forall k t m, stoks s !! k = Some t -> t_max t = Some m -> exists t', stoks s' !! k = Some t' /\ t_max t' = Some m).
    assert (Hput : forall s k t t', stoks s !! k = Some t -> (forall m, t_max t = Some m -> t_max t' = Some m) -> P s (put_tok s k t')).
    { clear. intros s k t t' Hk Ht. split; [reflexivity|]. split; [eapply put_dom; exact Hk|]. intros k2 t2 m H2 Hm. unfold put_tok. cbn [stoks].
      destruct (decide (k = k2)) as [->|Hne]; [rewrite lookup_insert|rewrite lookup_insert_ne by exact Hne; eauto].
      exists t'. split; [reflexivity|]. apply Ht. congruence. }
    assert (Hrefl : forall s, P s s) by (intros s0; split; [reflexivity|split; [auto|eauto]]).
    assert (Heach : forall f, (forall s e s', f s e = Ok s' -> P s s') -> forall l s s', each f l s = Ok s' -> P s s').
    { intros f Hff l. induction l as [|e l IH]; intros s1 s2 E2; cbn [each] in E2; [injection E2 as <-; apply Hrefl|].
      inv_ok. rename v into s3. match goal with H : f s1 e = Ok s3 |- _ => destruct (Hff _ _ _ H) as (P1 & P2 & P3) end.
      destruct (IH _ _ E2) as (Q1 & Q2 & Q3). split; [congruence|]. split; [auto|]. intros k2 t2 m2 Hk2 Hm2.
      destruct (P3 _ _ _ Hk2 Hm2) as (t3 & Hk3 & Hm3). eapply Q3; eassumption. }
    assert (Hfin : P s s' -> fresh_serials s' /\ exists t', stoks s' !! k = Some t' /\ t_max t' = Some m).
    { intros (P1 & P2 & P3). split; [eapply fresh_dom; eassumption|eapply P3; eassumption]. }
    assert (Hadd : forall t who x t', add_balance max_owners t who x = Ok t' -> t_max t' = t_max t).
    { intros t0 who x t' Ea. unfold add_balance in Ea. destruct (find_bal _ _); inv_ok; subst; reflexivity. }
    assert (Hrem : forall t who x t', remove_balance t who x = Ok t' -> t_max t' = t_max t).
    { intros t0 who x t' Ea. unfold remove_balance in Ea. inv_ok. subst. reflexivity. }
    destruct o; cbn [SftModel.sexec] in E.
    - unfold screate in E. inv_ok. subst s'. split; [|eauto].
      apply put_coll_fresh; [exact Hfr|]. intros j Hj.
      match goal with H : bool_decide _ = true |- _ => apply bool_decide_eq_true in H; congruence end.
    - unfold create_token in E. inv_ok. rename v into i. subst s'. split.
      + match goal with H : scolls s !! c = Some i |- _ => rename H into Hc end.
        intros d n t0 Ht0. unfold put_coll, put_tok in *. cbn [stoks scolls] in *. destruct (decide (c = d)) as [->|Hne].
        * rewrite lookup_insert. eexists. split; [reflexivity|]. cbn [sc_next].
          destruct (decide ((d, sc_next i) = (d, n))) as [[= ->]|Hne]; [lia|].
          rewrite lookup_insert_ne in Ht0 by exact Hne. destruct (Hfr _ _ _ Ht0) as (j & Hj & Hlt). rewrite Hc in Hj. injection Hj as <-. lia.
        * rewrite lookup_insert_ne by exact Hne. rewrite lookup_insert_ne in Ht0 by congruence. eapply Hfr; exact Ht0.
      + unfold put_coll, put_tok. cbn [stoks]. rewrite lookup_insert_ne; [eauto|]. intros <-.
        destruct (Hfr _ _ _ Ht) as (j & Hj & Hlt). assert (j = i) by congruence. subst. lia.
    - apply Hfin. unfold smint in E. inv_ok. eapply Heach; [|exact E]. cbv beta. intros s1 [n q] s2 EE. unfold mint_one in EE. inv_ok. subst s2.
      eapply Hput; [eassumption|]. intros k2 Hk2. cbn. match goal with H : add_balance _ _ _ _ = Ok _ |- _ => rewrite (Hadd _ _ _ _ H) end. exact Hk2.
    - apply Hfin. unfold stransfer in E. inv_ok. eapply Heach; [|exact E]. cbv beta. intros s1 [n q] s2 EE. unfold transfer_one in EE. inv_ok. subst s2.
      eapply Hput; [eassumption|]. intros k2 Hk2. match goal with H : transfer_balance _ _ _ _ _ = Ok _ |- _ => unfold transfer_balance in H; rename H into Htb end.
      destruct (who =? to); [congruence|]. inv_ok. rewrite (Hadd _ _ _ _ Htb).
      match goal with H : remove_balance _ _ _ = Ok _ |- _ => rewrite (Hrem _ _ _ _ H) end. exact Hk2.
    - apply Hfin. unfold sburn in E. inv_ok. eapply Heach; [|exact E]. cbv beta. intros s1 [n q] s2 EE. unfold burn_one in EE. inv_ok. subst s2.
      eapply Hput; [eassumption|]. intros k2 Hk2. cbn. match goal with H : remove_balance _ _ _ = Ok _ |- _ => rewrite (Hrem _ _ _ _ H) end. exact Hk2.
    - apply Hfin. unfold sset_max in E. inv_ok. subst s'. eapply Hput; [eassumption|]. intros k2 Hk2. rewrite Hk2 in *. discriminate.
    - unfold sset_owner in E. inv_ok. subst s'. split; [|eauto]. apply put_coll_fresh; [exact Hfr|]. intros j Hj. cbn. assert (j = v) by congruence. subst. lia.
    - unfold sset_flags in E. inv_ok. subst s'. split; [|eauto]. apply put_coll_fresh; [exact Hfr|]. intros j Hj. cbn. assert (j = v) by congruence. subst. lia.
    - unfold sset_public in E. inv_ok. subst s'. split; [exact Hfr|eauto].
    - apply Hfin. unfold sreserve in E. inv_ok. subst s'. eapply Hput; [eassumption|]. intros k2 Hk2.
      match goal with H : reserve_balance _ _ _ = Ok _ |- _ => unfold reserve_balance in H; inv_ok end. subst. exact Hk2.
    - apply Hfin. unfold sfree in E. inv_ok. subst s'. eapply Hput; [eassumption|]. intros k2 Hk2.
      match goal with H : free_reserved _ _ _ = Ok _ |- _ => unfold free_reserved in H; inv_ok end. subst. exact Hk2.
  Qed.

  (** ** C20 *)
  (** Reserved balance of [y] changes only when the marketplace reserves or frees for [y], and
      then by exactly the stated amount. *)
  Theorem C20_reserved_exact ops o s' : Forall sop_u128 ops -> sop_u128 o ->
    let s := run sstep ops sinit in sexec s o = Ok s' ->
    forall c n y, snd (sbal s' c n y) + res_down o c n y = snd (sbal s c n y) + res_up o c n y.
  Proof. intros Hf Hu s E c n y. apply (exec_spec s o s' (run_SInv ops Hf) Hu E). Qed.
  (** So while nobody frees, it never shrinks, whatever its owner and everybody else do. *)
  Theorem C20_reserved_untouchable ops1 ops2 c n y : Forall sop_u128 (ops1 ++ ops2) ->
    (forall x, ~ In (SFree y c n x) ops2) ->
    snd (sbal (run sstep ops1 sinit) c n y) <= snd (sbal (run sstep (ops1 ++ ops2) sinit) c n y).
  Proof.
    intros Hf Hno. apply Forall_app in Hf. destruct Hf as [Hf1 Hf2]. rewrite run_app.
    pose proof (run_SInv ops1 Hf1) as Hs. set (s := run sstep ops1 sinit) in *. clearbody s. clear Hf1.
    revert s Hs. induction ops2 as [|o ops IH]; intros s Hs; [cbn; lia|].
    change (run sstep (o :: ops) s) with (run sstep ops (sstep s o)). inversion Hf2; subst.
    etransitivity; [|apply IH; [assumption|intros x Hin; apply (Hno x); right; exact Hin|apply step_inv; assumption]].
    unfold SftModel.sstep. destruct (sexec s o) as [s'|] eqn:E; cbn [commit]; [|lia].
    destruct (exec_spec s o s' Hs ltac:(assumption) E) as [_ Hm]. destruct (Hm c n y) as [_ Hr].
    assert (Hz : res_down o c n y = 0); [|lia].
    destruct o as [| | | | | | | | | |w d m x]; try reflexivity. cbn [res_down].
    destruct (N.eqb_spec c d); [|reflexivity]. destruct (N.eqb_spec n m); [|reflexivity].
    destruct (N.eqb_spec y w); [|reflexivity]. exfalso. apply (Hno x). left. congruence.
  Qed.
  Lemma free_ok s c n y x : SOk s -> 0 < x -> x <= snd (sbal s c n y) -> is_ok (sfree s y c n x) = true.
  Proof.
    intros Hs Hx0 Hx. unfold sfree.
    unfold sbal in Hx. destruct (stoks s !! (c, n)) as [t|] eqn:Et; [|cbn in Hx; lia]. cbn [of_opt rbind].
    destruct (Hs _ _ Et) as (_ & Hsum & Hiss & _). pose proof (bal_le_sum (t_own t) y) as Hle.
    unfold free_reserved. unfold balof in *. destruct (find_bal (t_own t) y) as [b|]; [|cbn in Hx; lia]. cbn [of_opt rbind].
    unfold remove_reserve, add_free, ensure. unfold tot in Hle.
    assert (E1 : x <=? snd b = true) by (apply N.leb_le; exact Hx). rewrite E1. cbn [rbind fst snd].
    unfold chk_add. assert (E2 : fst b + x <=? U128MAX = true) by (apply N.leb_le; lia). rewrite E2. reflexivity.
  Qed.
  (** What was reserved can always be freed again. *)
  Theorem C20_free_succeeds ops c n y x : Forall sop_u128 ops ->
    let s := run sstep ops sinit in
    0 < x -> x <= snd (sbal s c n y) -> is_ok (sexec s (SFree y c n x)) = true.
  Proof. intros Hf s Hx0 Hx. apply free_ok; [apply run_SInv; exact Hf|assumption..]. Qed.
  (** Reserving and freeing the same amount gives back the balances of before. *)
  Theorem C20_reserve_free_round_trip ops c n y x s1 s2 : Forall sop_u128 ops ->
    let s := run sstep ops sinit in
    sexec s (SReserve y c n x) = Ok s1 -> sexec s1 (SFree y c n x) = Ok s2 ->
    forall d m z, sbal s2 d m z = sbal s d m z.
  Proof.
    intros Hf s E1 E2 d m z. pose proof (run_SInv ops Hf) as Hs. fold s in Hs.
    destruct (exec_spec s (SReserve y c n x) s1 Hs I E1) as [Hs1 M1]. destruct (exec_spec s1 (SFree y c n x) s2 Hs1 I E2) as [_ M2].
    destruct (M1 d m z) as [A1 A2]. destruct (M2 d m z) as [B1 B2]. cbn [transferred received res_up res_down] in *.
    destruct (sbal s2 d m z) as [f2 r2], (sbal s d m z) as [f r], (sbal s1 d m z) as [f1 r1]. cbn [fst snd] in *. f_equal; lia.
  Qed.
End props.

(** A concrete history: repeated serials, a reserve, a refused transfer of reserved balance. *)
Definition ex_sft : list sop :=
  [SCreate 1 10; SToken 10 1 100 (Some 150) 20 true; SMint 10 1 [(0, 20); (0, 5)] 30 true;
   STransfer 20 1 [(0, 40); (0, 10)] 30; SReserve 30 1 0 70; STransfer 30 1 [(0, 6)] 20; SBurn 30 1 [(0, 5)];
   SMint 10 1 [(0, 31)] 30 true].
Example ex_sft_ok : Forall sop_u128 ex_sft.
Proof. repeat constructor. cbn. vm_compute. discriminate. Qed.
Example ex_sft_state : let s := run (sstep 1000 10) ex_sft sinit in
  (sbal s 1 0 20, sbal s 1 0 30) = ((50, 0), (0, 70)) /\
  match stoks s !! (1, 0) with Some t => t_iss t = 120 | None => False end.
Proof. vm_compute. auto. Qed.
Example ex_sft_free : let s := run (sstep 1000 10) ex_sft sinit in
  is_ok (sexec 1000 10 s (SFree 30 1 0 70)) = true /\ is_ok (sexec 1000 10 s (STransfer 30 1 [(0, 1)] 20)) = false.
Proof. vm_compute. auto. Qed.

Print Assumptions C19_supply.
Print Assumptions C19_free_exact.
Print Assumptions C19_max_fixed.
Print Assumptions C20_reserved_exact.
Print Assumptions C20_reserved_untouchable.
Print Assumptions C20_free_succeeds.
Print Assumptions C20_reserve_free_round_trip.
