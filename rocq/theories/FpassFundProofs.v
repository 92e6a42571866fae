(** Lemmas about the deposits of futurepasses. *)
From Verif Require Export FpassFundModel FpassProofs FpassProps.

(** [x] for account [a], nothing for the others. *)
Definition at_ (c a x : N) : N := if c =? a then x else 0.
Lemma at_same a x : at_ a a x = x.
Proof. unfold at_. rewrite N.eqb_refl. reflexivity. Qed.
Lemma at_other c a x : c <> a -> at_ c a x = 0.
Proof. intros H. unfold at_. destruct (N.eqb_spec c a); [contradiction|reflexivity]. Qed.
Lemma at_zero c a : at_ c a 0 = 0.
Proof. unfold at_. destruct (c =? a); reflexivity. Qed.
Lemma default_insert (m : gmap N N) k x c : default 0 (<[k := x]> m !! c) = if c =? k then x else default 0 (m !! c).
Proof. destruct (N.eqb_spec c k) as [->|H]; [rewrite lookup_insert|rewrite lookup_insert_ne by congruence]; reflexivity. Qed.
Lemma defs_set' p f l c : defs (set_defs p f l) c = if c =? f then l else defs p c.
Proof. rewrite defs_set. rewrite N.eqb_sym. reflexivity. Qed.
Lemma insert_len d l : length (insert_def d l) = S (length l).
Proof. induction l as [|x r IH]; [reflexivity|]. cbn [insert_def]. destruct (pkey d <? pkey x); [reflexivity|]. cbn [length]. rewrite IH. reflexivity. Qed.
Lemma remove_len d l : In d l -> length l = S (length (remove_def d l)).
Proof.
  induction l as [|x r IH]; intros H; [destruct H|]. cbn [remove_def]. destruct (bool_decide (x = d)) eqn:E; [reflexivity|].
  cbn [length]. rewrite <- IH; [reflexivity|]. destruct H as [->|H]; [rewrite bool_decide_true in E by reflexivity; discriminate|exact H].
Qed.
Lemma sub128_exact a b : b <= a -> a < 2 ^ 128 -> sub128 a b = a - b.
Proof.
  intros H1 H2. unfold sub128. replace (a + 2 ^ 128 - b) with (a - b + 1 * 2 ^ 128) by lia. rewrite N.mod_add by (apply N.pow_nonzero; discriminate).
  apply N.mod_small. lia.
Qed.

Section fund.
  Variable maxp ed base factor : N.
  Notation deposit := (deposit base factor).
  Notation pay := (pay ed).
  Notation rejig := (rejig ed base factor).

  Lemma pay_ok keep s a b x s' : pay keep s a b x = Ok s' ->
    f_fp s' = f_fp s /\ f_dep s' = f_dep s /\ f_res s' = f_res s /\ forall c, free s' c + at_ c a x = free s c + at_ c b x.
  Proof.
    unfold FpassFundModel.pay. destruct (N.eqb_spec x 0) as [->|Hx]; cbn [orb].
    { intros [= <-]. split; [reflexivity|]. split; [reflexivity|]. split; [reflexivity|]. intros c. rewrite !at_zero. reflexivity. }
    destruct (N.eqb_spec a b) as [->|Hab]. { intros [= <-]. auto. }
    destruct (N.leb_spec x (free s a)); cbn [ensure rbind]; [|discriminate].
    destruct ((negb keep && _) || _); cbn [ensure rbind]; [|discriminate]. destruct (ed <=? free s b + x); cbn [ensure rbind]; [|discriminate].
    intros [= <-]. cbn [f_fp f_dep f_res]. split; [reflexivity|]. split; [reflexivity|]. split; [reflexivity|].
    intros c. unfold free, at_ in *. cbn [f_free]. rewrite !default_insert.
    destruct (N.eqb_spec b a); [congruence|]. destruct (N.eqb_spec c b); destruct (N.eqb_spec c a); subst; try congruence; lia.
  Qed.
  Lemma reserve_ok s a x s' : reserve ed s a x = Ok s' ->
    f_fp s' = f_fp s /\ f_dep s' = f_dep s /\ (forall c, free s' c + at_ c a x = free s c) /\ (forall c, res s' c = res s c + at_ c a x).
  Proof.
    unfold reserve. destruct (N.eqb_spec x 0) as [->|Hx].
    { intros [= <-]. split; [reflexivity|]. split; [reflexivity|]. split; intros c; rewrite at_zero; lia. }
    destruct (N.leb_spec x (free s a)); cbn [ensure rbind]; [|discriminate]. destruct (ed <=? free s a - x); cbn [ensure rbind]; [|discriminate].
    intros [= <-]. cbn [f_fp f_dep]. split; [reflexivity|]. split; [reflexivity|]. unfold free, res in *. cbn [f_free f_res].
    split; intros c; rewrite default_insert; unfold at_; destruct (N.eqb_spec c a) as [->|]; lia.
  Qed.
  Lemma unreserve_ok s a x : x <= res s a ->
    (forall c, free (unreserve s a x) c = free s c + at_ c a x) /\ (forall c, res (unreserve s a x) c + at_ c a x = res s c).
  Proof.
    intros H. unfold unreserve, free, res in *. cbn [f_free f_res]. rewrite N.min_l by exact H.
    split; intros c; rewrite default_insert; unfold at_; destruct (N.eqb_spec c a) as [->|]; lia.
  Qed.
  Lemma rejig_ok s a p s' : rejig s a p = Ok s' -> dep s a <= res s a -> let new := deposit (length (defs p a)) in
    f_fp s' = p /\ (forall c, dep s' c = if c =? a then new else dep s c) /\
    (forall c, free s' c + at_ c a new = free s c + at_ c a (dep s a)) /\ (forall c, res s' c + at_ c a (dep s a) = res s c + at_ c a new).
  Proof.
    intros H Hr new. unfold FpassFundModel.rejig in H. fold new in H. cbv zeta in H.
    assert (D : forall s1 : fm, f_dep s1 = f_dep s -> forall c, dep (Fm p (<[a := new]> (f_dep s1)) (f_free s1) (f_res s1)) c = if c =? a then new else dep s c).
    { intros s1 E c. unfold dep at 1. cbn [f_dep]. rewrite E, default_insert. reflexivity. }
    match type of H with rbind ?r _ = _ => set (R := r) in H;
      assert (X : forall s1, R = Ok s1 -> f_dep s1 = f_dep s /\ (forall c, free s1 c + at_ c a new = free s c + at_ c a (dep s a)) /\
                               (forall c, res s1 c + at_ c a (dep s a) = res s c + at_ c a new)) end.
    { intros s1. subst R. destruct (N.ltb_spec (dep s a) new) as [Hlt|Hge].
      - intros E. apply reserve_ok in E. destruct E as (E1 & E2 & E3 & E4). split; [exact E2|].
        split; intros c; [specialize (E3 c)|specialize (E4 c)]; unfold at_ in *; destruct (N.eqb_spec c a); lia.
      - intros [= <-]. destruct (unreserve_ok s a (dep s a - new)) as [E3 E4]; [lia|]. split; [reflexivity|].
        split; intros c; [specialize (E3 c)|specialize (E4 c)]; unfold at_ in *; destruct (N.eqb_spec c a); lia. }
    destruct R as [s1|]; cbn [rbind] in H; [|discriminate H]. destruct (X s1 eq_refl) as (E2 & E3 & E4). injection H as <-.
    split; [reflexivity|]. split; [exact (D s1 E2)|]. split; [exact E3|exact E4].
  Qed.

  (** The deposit recorded is what the definitions cost, and it is reserved. *)
  Record funded (s : fm) : Prop := {
    fu_dep : forall a, dep s a = deposit (length (defs (f_fp s) a));
    fu_res : forall a, dep s a <= res s a;
    fu_len : forall a, N.of_nat (length (defs (f_fp s) a)) <= maxp }.
  Hypothesis small : base + factor * (maxp + 1) + ed <= U128MAX.
  Lemma deposit_mono n m : (n <= m)%nat -> deposit n <= deposit m.
  Proof. intros H. unfold FpassFundModel.deposit. destruct n as [|n]; [lia|]. destruct m as [|m]; [lia|]. apply N.add_le_mono_l, N.mul_le_mono_l. lia. Qed.
  Lemma deposit_small n : N.of_nat n <= maxp + 1 -> deposit n + ed <= U128MAX.
  Proof.
    intros H. unfold FpassFundModel.deposit. destruct n as [|n]; [lia|].
    assert (factor * N.of_nat (S n) <= factor * (maxp + 1)) by (apply N.mul_le_mono_l; exact H). lia.
  Qed.

  Lemma rejig_funded s a p s' : rejig s a p = Ok s' -> funded s -> N.of_nat (length (defs p a)) <= maxp ->
    (forall c, c <> a -> defs p c = defs (f_fp s) c) -> funded s'.
  Proof.
    intros H HF Hl Ho. destruct (rejig_ok s a p s' H (fu_res _ HF a)) as (E1 & E2 & E3 & E4).
    constructor; intros c; rewrite ?E1.
    - rewrite E2. destruct (N.eqb_spec c a) as [->|Hc]; [reflexivity|]. rewrite (fu_dep _ HF), (Ho c Hc). reflexivity.
    - rewrite E2. specialize (E4 c). pose proof (fu_res _ HF c). unfold at_ in E4. destruct (N.eqb_spec c a); subst; lia.
    - destruct (N.eq_dec c a) as [->|Hc]; [exact Hl|]. rewrite (Ho c Hc). apply (fu_len _ HF).
  Qed.

  (** What adding a delegate costs: the deposit, and enough to keep the futurepass alive. *)
  Definition more (n : nat) : N := deposit (S n) - deposit n.
  Definition lift (s : fm) (f : N) : N := if free s f <? ed then ed else 0.
  Lemma add_def_fp s a d t p : add_def maxp s a d t = Ok p ->
    N.of_nat (length (defs s a)) < maxp /\ length (defs p a) = S (length (defs s a)) /\ forall c, c <> a -> defs p c = defs s c.
  Proof.
    unfold add_def. destruct (negb (a =? d)); cbn [ensure rbind]; [|discriminate]. destruct (negb _); cbn [ensure rbind]; [|discriminate].
    destruct (N.ltb_spec (N.of_nat (length (defs s a))) maxp); cbn [ensure rbind]; [|discriminate]. intros [= <-]. split; [assumption|]. split.
    - rewrite defs_set', N.eqb_refl. apply insert_len.
    - intros c Hc. rewrite defs_set'. destruct (N.eqb_spec c a); [contradiction|reflexivity].
  Qed.
  Lemma m_add_delegate_ok s funder f d t s' : m_add_delegate maxp ed base factor s funder f d t = Ok s' -> funded s ->
    let n := length (defs (f_fp s) f) in
    funded s' /\ add_def maxp (f_fp s) f d t = Ok (f_fp s') /\
    (forall c, free s' c + at_ c funder (more n + lift s f) = free s c + at_ c f (lift s f)) /\
    (forall c, res s' c = res s c + at_ c f (more n)).
  Proof.
    intros H HF n. unfold m_add_delegate in H. fold n in H. cbv zeta in H.
    assert (Hn : N.of_nat n <= maxp) by apply (fu_len _ HF). pose proof (deposit_small (S n) ltac:(lia)) as Hs. pose proof (deposit_mono n (S n) ltac:(lia)) as Hm.
    rewrite sub128_exact in H; [|rewrite (fu_dep _ HF); exact Hm|change (2 ^ 128) with (U128MAX + 1); lia].
    rewrite (fu_dep _ HF) in H. fold n in H. fold (more n) in H.
    assert (En : (if free s f <? ed then sat U128MAX (more n + ed) else more n) = more n + lift s f).
    { unfold lift. destruct (free s f <? ed); [|lia]. unfold sat. rewrite N.min_l by (unfold more; lia). reflexivity. }
    rewrite En in H. destruct (pay true s funder f (more n + lift s f)) as [s1|] eqn:Ep; cbn [rbind] in H; [|discriminate H].
    destruct (pay_ok _ _ _ _ _ _ Ep) as (P1 & P2 & P3 & P4). unfold m_add_def in H. rewrite P1 in H.
    destruct (add_def maxp (f_fp s) f d t) as [p|] eqn:Ea; cbn [rbind] in H; [|discriminate H]. destruct (add_def_fp _ _ _ _ _ Ea) as (A1 & A2 & A3).
    assert (HF1 : funded s1). { constructor; intros c; [unfold dep; rewrite P1, P2; apply (fu_dep _ HF)|unfold dep, res; rewrite P2, P3; apply (fu_res _ HF)|rewrite P1; apply (fu_len _ HF)]. }
    destruct (rejig_ok s1 f p s' H (fu_res _ HF1 f)) as (E1 & E2 & E3 & E4). cbv zeta in *. rewrite A2 in E3, E4. fold n in E3, E4.
    assert (Df : dep s1 f = deposit n). { rewrite (fu_dep _ HF1), P1. reflexivity. }
    assert (Er : forall c, res s1 c = res s c) by (intros c; unfold res; rewrite P3; reflexivity).
    split; [apply (rejig_funded s1 f p s' H HF1)|].
    - rewrite A2. fold n. lia.
    - intros c Hc. rewrite P1. apply A3, Hc.
    - rewrite E1. split; [reflexivity|]. unfold more in *. split; intros c; [specialize (E3 c); specialize (P4 c)|specialize (E4 c); rewrite Er in E4]; rewrite Df in *;
        unfold at_ in *; destruct (N.eqb_spec c f); destruct (N.eqb_spec c funder); lia.
  Qed.

  Lemma m_remove_delegate_ok s receiver f d s' : m_remove_delegate ed base factor s receiver f d = Ok s' -> funded s ->
    funded s' /\ remove_delegate true (f_fp s) f d = Ok (f_fp s') /\ length (defs (f_fp s) f) = S (length (defs (f_fp s') f)) /\
    (forall c, free s' c = free s c + at_ c receiver (dep s f - dep s' f)) /\
    (forall c, res s' c + at_ c f (dep s f - dep s' f) = res s c) /\ dep s' f <= dep s f.
  Proof.
    intros H HF. unfold m_remove_delegate in H. unfold remove_delegate. destruct (find_def d None (defs (f_fp s) f)) as [x|] eqn:Ex; cbn [of_opt rbind] in *; [|discriminate H].
    cbn [ensure rbind]. apply find_some in Ex. destruct Ex as (Hx & _). unfold m_remove_def in H.
    set (p := set_defs (f_fp s) f (remove_def x (defs (f_fp s) f))) in *.
    assert (Dp : defs p f = remove_def x (defs (f_fp s) f)) by (subst p; rewrite defs_set', N.eqb_refl; reflexivity).
    assert (Do : forall c, c <> f -> defs p c = defs (f_fp s) c) by (intros c Hc; subst p; rewrite defs_set'; destruct (N.eqb_spec c f); [contradiction|reflexivity]).
    assert (Dl : length (defs (f_fp s) f) = S (length (defs p f))) by (rewrite Dp; apply remove_len; exact Hx).
    destruct (rejig s f p) as [s1|] eqn:Er; cbn [rbind] in H; [|discriminate H].
    pose proof (fu_len _ HF f) as Hl. assert (HF1 : funded s1) by (apply (rejig_funded s f p s1 Er HF); [lia|exact Do]).
    destruct (rejig_ok s f p s1 Er (fu_res _ HF f)) as (E1 & E2 & E3 & E4). cbv zeta in *.
    pose proof (deposit_mono (length (defs p f)) (length (defs (f_fp s) f)) ltac:(lia)) as Hm.
    assert (Ds : dep s f = deposit (length (defs (f_fp s) f))) by apply (fu_dep _ HF).
    assert (D1 : dep s1 f = deposit (length (defs p f))) by (rewrite E2, N.eqb_refl; reflexivity).
    pose proof (deposit_small (length (defs (f_fp s) f)) ltac:(lia)) as Hs.
    rewrite sub128_exact in H; [|rewrite Ds, D1; exact Hm|rewrite Ds; change (2 ^ 128) with (U128MAX + 1); lia].
    destruct (pay_ok _ _ _ _ _ _ H) as (P1 & P2 & P3 & P4).
    assert (Ed : forall c, dep s' c = dep s1 c) by (intros c; unfold dep; rewrite P2; reflexivity).
    assert (Er' : forall c, res s' c = res s1 c) by (intros c; unfold res; rewrite P3; reflexivity).
    split; [constructor; intros c; [rewrite Ed, P1; apply (fu_dep _ HF1)|rewrite Ed, Er'; apply (fu_res _ HF1)|rewrite P1; apply (fu_len _ HF1)]|].
    rewrite P1, E1. split; [reflexivity|]. split; [exact Dl|]. rewrite Ed.
    rewrite <- D1 in E3, E4. rewrite <- Ds, <- D1 in Hm.
    split; [|split; [|exact Hm]]; intros c; [specialize (E3 c); specialize (P4 c)|specialize (E4 c); rewrite Er'];
      unfold at_ in *; destruct (N.eqb_spec c f); destruct (N.eqb_spec c receiver); lia.
  Qed.

  Lemma m_remove_others_ok caller f new l : forall s s', m_remove_others ed base factor s caller f new l = Ok s' -> funded s ->
    funded s' /\ remove_others true (f_fp s) f new l = Ok (f_fp s') /\
    (forall c, free s' c = free s c + at_ c caller (dep s f - dep s' f)) /\
    (forall c, res s' c + at_ c f (dep s f - dep s' f) = res s c) /\ dep s' f <= dep s f.
  Proof.
    induction l as [|x r IH]; intros s s' H HF; cbn [m_remove_others remove_others] in *.
    { injection H as <-. split; [exact HF|]. split; [reflexivity|]. rewrite N.sub_diag. split; [|split; [|lia]]; intros c; rewrite at_zero; lia. }
    destruct (fst x =? new); [exact (IH s s' H HF)|].
    destruct (m_remove_delegate ed base factor s caller f (fst x)) as [s1|] eqn:E; cbn [rbind] in H; [|discriminate H].
    destruct (m_remove_delegate_ok _ _ _ _ _ E HF) as (F1 & R1 & _ & A1 & B1 & L1). destruct (IH _ _ H F1) as (F2 & R2 & A2 & B2 & L2).
    split; [exact F2|]. rewrite R1. cbn [rbind]. split; [exact R2|]. split; [|split; [|lia]]; intros c;
      [specialize (A1 c); specialize (A2 c)|specialize (B1 c); specialize (B2 c)]; unfold at_ in *; [destruct (N.eqb_spec c caller)|destruct (N.eqb_spec c f)]; lia.
  Qed.

  Lemma drop_ok s f : funded s -> let s' := unreserve (drop_defs s f) f (dep s f) in
    funded s' /\ f_fp s' = f_fp (drop_defs s f) /\ (forall c, free s' c = free s c + at_ c f (dep s f)) /\ (forall c, res s' c + at_ c f (dep s f) = res s c).
  Proof.
    intros HF s'. destruct (unreserve_ok (drop_defs s f) f (dep s f)) as [E3 E4]; [exact (fu_res _ HF f)|]. fold s' in E3, E4.
    change (forall c, free s' c = free s c + at_ c f (dep s f)) in E3. change (forall c, res s' c + at_ c f (dep s f) = res s c) in E4.
    assert (Dd : forall c, defs (f_fp s') c = if c =? f then [] else defs (f_fp s) c).
    { intros c. subst s'. unfold unreserve, drop_defs, defs. cbn [f_fp prox]. destruct (N.eqb_spec c f) as [->|Hc]; [rewrite lookup_delete|rewrite lookup_delete_ne by congruence]; reflexivity. }
    assert (De : forall c, dep s' c = if c =? f then 0 else dep s c).
    { intros c. subst s'. unfold unreserve, drop_defs, dep. cbn [f_dep]. destruct (N.eqb_spec c f) as [->|Hc]; [rewrite lookup_delete|rewrite lookup_delete_ne by congruence]; reflexivity. }
    split; [|split; [reflexivity|split; [exact E3|exact E4]]].
    constructor; intros c; rewrite ?De, ?Dd.
    - destruct (c =? f); [reflexivity|apply (fu_dep _ HF)].
    - specialize (E4 c). pose proof (fu_res _ HF c). unfold at_ in E4. destruct (N.eqb_spec c f); lia.
    - destruct (c =? f); [cbn; lia|apply (fu_len _ HF)].
  Qed.
  Lemma m_remove_account_ok s receiver f s' : m_remove_account ed s receiver f = Ok s' -> funded s ->
    funded s' /\ f_fp s' = f_fp (drop_defs s f) /\ (forall c, free s' c = free s c + at_ c receiver (dep s f)) /\ (forall c, res s' c + at_ c f (dep s f) = res s c).
  Proof.
    intros H HF. unfold m_remove_account in H. destruct (drop_ok s f HF) as (F1 & E1 & E3 & E4).
    destruct (pay_ok _ _ _ _ _ _ H) as (P1 & P2 & P3 & P4). rewrite P1, E1.
    split; [|split; [reflexivity|split]].
    - constructor; intros c; [unfold dep; rewrite P1, P2; apply (fu_dep _ F1)|unfold dep, res; rewrite P2, P3; apply (fu_res _ F1)|rewrite P1; apply (fu_len _ F1)].
    - intros c. specialize (P4 c). specialize (E3 c). unfold at_ in *. destruct (N.eqb_spec c f); destruct (N.eqb_spec c receiver); lia.
    - intros c. specialize (E4 c). unfold res at 1. rewrite P3. exact E4.
  Qed.
  Lemma with_fp_funded s p : funded s -> (forall c, defs p c = defs (f_fp s) c) -> funded (with_fp s p).
  Proof. intros HF H. constructor; intros c; unfold with_fp, dep, res; cbn [f_fp f_dep f_res]; rewrite ?H; [apply (fu_dep _ HF)|apply (fu_res _ HF)|apply (fu_len _ HF)]. Qed.

  (** What a call by [p] about the deposit of [f] does to the money: [p] pays the change of the deposit, and [g] more that
      [f] keeps. *)
  Definition flow (s s' : fm) (p f g : N) : Prop :=
    (forall c, free s' c + at_ c p (dep s' f + g) = free s c + at_ c p (dep s f) + at_ c f g) /\
    (forall c, res s' c + at_ c f (dep s f) = res s c + at_ c f (dep s' f)) /\
    (forall c, c <> f -> dep s' c = dep s c).
  Lemma flow_refl s p f : flow s s p f 0.
  Proof. split; [|split]; intros c; rewrite ?at_zero, ?N.add_0_r; reflexivity. Qed.
  Lemma flow_trans s s1 s2 p f g h : flow s s1 p f g -> flow s1 s2 p f h -> flow s s2 p f (g + h).
  Proof.
    intros (A1 & A2 & A3) (B1 & B2 & B3). split; [|split]; intros c.
    - specialize (A1 c). specialize (B1 c). unfold at_ in *. destruct (c =? p); destruct (c =? f); lia.
    - specialize (A2 c). specialize (B2 c). unfold at_ in *. destruct (c =? f); lia.
    - intros Hc. rewrite (B3 c Hc). apply A3, Hc.
  Qed.
  Lemma m_add_flow s funder f d t s' : m_add_delegate maxp ed base factor s funder f d t = Ok s' -> funded s ->
    funded s' /\ add_def maxp (f_fp s) f d t = Ok (f_fp s') /\ flow s s' funder f (lift s f).
  Proof.
    intros H HF. destruct (m_add_delegate_ok _ _ _ _ _ _ H HF) as (F' & A & E3 & E4). split; [exact F'|]. split; [exact A|].
    destruct (add_def_fp _ _ _ _ _ A) as (_ & L & O). pose proof (deposit_mono (length (defs (f_fp s) f)) (S (length (defs (f_fp s) f))) ltac:(lia)) as Hm.
    assert (Df : dep s' f = dep s f + more (length (defs (f_fp s) f))) by (rewrite (fu_dep _ F'), (fu_dep _ HF), L; unfold more; lia).
    split; [|split]; intros c.
    - specialize (E3 c). rewrite Df. unfold at_ in *. destruct (c =? funder); lia.
    - specialize (E4 c). rewrite Df. unfold at_ in *. destruct (c =? f); lia.
    - intros Hc. rewrite (fu_dep _ F'), (fu_dep _ HF), (O c Hc). reflexivity.
  Qed.
  Lemma remove_flow s s' receiver f : funded s -> funded s' -> (forall c, c <> f -> defs (f_fp s') c = defs (f_fp s) c) ->
    (forall c, free s' c = free s c + at_ c receiver (dep s f - dep s' f)) ->
    (forall c, res s' c + at_ c f (dep s f - dep s' f) = res s c) -> dep s' f <= dep s f -> flow s s' receiver f 0.
  Proof.
    intros HF F' O A B L. split; [|split]; intros c.
    - specialize (A c). rewrite at_zero, !N.add_0_r. unfold at_ in *. destruct (c =? receiver); lia.
    - specialize (B c). unfold at_ in *. destruct (c =? f); lia.
    - intros Hc. rewrite (fu_dep _ F'), (fu_dep _ HF), (O c Hc). reflexivity.
  Qed.
  Lemma m_remove_flow s receiver f d s' : m_remove_delegate ed base factor s receiver f d = Ok s' -> funded s ->
    funded s' /\ remove_delegate true (f_fp s) f d = Ok (f_fp s') /\ flow s s' receiver f 0.
  Proof.
    intros H HF. destruct (m_remove_delegate_ok _ _ _ _ _ H HF) as (F' & A & _ & E3 & E4 & L). split; [exact F'|]. split; [exact A|].
    apply remove_flow; try assumption. intros c Hc. destruct (remove_ok _ _ _ _ _ A) as (x & _ & _ & _ & _ & _ & O). rewrite O. destruct (N.eqb_spec f c); [congruence|reflexivity].
  Qed.
  Lemma m_others_flow s caller f new l s' : m_remove_others ed base factor s caller f new l = Ok s' -> funded s ->
    funded s' /\ remove_others true (f_fp s) f new l = Ok (f_fp s') /\ flow s s' caller f 0.
  Proof.
    intros H HF. destruct (m_remove_others_ok _ _ _ _ _ _ H HF) as (F' & A & E3 & E4 & L). split; [exact F'|]. split; [exact A|].
    apply remove_flow; try assumption. destruct (others_ok _ _ _ _ _ _ A) as (_ & _ & _ & O & _). exact O.
  Qed.
  Lemma rejig_flow s a p s' : rejig s a p = Ok s' -> funded s -> N.of_nat (length (defs p a)) <= maxp ->
    (forall c, c <> a -> defs p c = defs (f_fp s) c) -> funded s' /\ f_fp s' = p /\ flow s s' a a 0.
  Proof.
    intros H HF Hl Ho. pose proof (rejig_funded _ _ _ _ H HF Hl Ho) as F'. destruct (rejig_ok s a p s' H (fu_res _ HF a)) as (E1 & E2 & E3 & E4). cbv zeta in *.
    split; [exact F'|]. split; [exact E1|]. assert (D : dep s' a = deposit (length (defs p a))) by (rewrite E2, N.eqb_refl; reflexivity). rewrite <- D in *.
    split; [|split]; intros c; [specialize (E3 c); rewrite at_zero, !N.add_0_r; exact E3|apply E4|].
    intros Hc. rewrite E2. destruct (N.eqb_spec c a); [contradiction|reflexivity].
  Qed.
  Lemma drop_defs_fp s f c : defs (f_fp (drop_defs s f)) c = if c =? f then [] else defs (f_fp s) c.
  Proof. unfold drop_defs, defs. cbn [f_fp prox]. destruct (N.eqb_spec c f) as [->|Hc]; [rewrite lookup_delete|rewrite lookup_delete_ne by congruence]; reflexivity. Qed.
  Lemma dropped_dep s s' f : funded s -> funded s' -> f_fp s' = f_fp (drop_defs s f) -> dep s' f = 0 /\ forall c, c <> f -> dep s' c = dep s c.
  Proof.
    intros HF F' E. split; [rewrite (fu_dep _ F'), E, drop_defs_fp, N.eqb_refl; reflexivity|].
    intros c Hc. rewrite (fu_dep _ F'), (fu_dep _ HF), E, drop_defs_fp. destruct (N.eqb_spec c f); [contradiction|reflexivity].
  Qed.
  Lemma drop_flow s f : funded s -> let s' := unreserve (drop_defs s f) f (dep s f) in funded s' /\ f_fp s' = f_fp (drop_defs s f) /\ flow s s' f f 0.
  Proof.
    intros HF s'. destruct (drop_ok s f HF) as (F' & E1 & E3 & E4). fold s' in F', E1, E3, E4. destruct (dropped_dep s s' f HF F' E1) as [D0 D].
    split; [exact F'|]. split; [exact E1|]. split; [|split; [|exact D]]; intros c; rewrite D0; [rewrite E3|specialize (E4 c)]; rewrite ?at_zero; lia.
  Qed.
  Lemma m_account_flow s receiver f s' : m_remove_account ed s receiver f = Ok s' -> funded s -> funded s' /\ f_fp s' = f_fp (drop_defs s f) /\ flow s s' receiver f 0.
  Proof.
    intros H HF. destruct (m_remove_account_ok _ _ _ _ H HF) as (F' & E1 & E3 & E4). destruct (dropped_dep s s' f HF F' E1) as [D0 D].
    split; [exact F'|]. split; [exact E1|]. split; [|split; [|exact D]]; intros c; rewrite D0; [rewrite E3|specialize (E4 c)]; rewrite ?at_zero; lia.
  Qed.

  (** The account whose deposit a direct call is about. *)
  Definition about (s : fm) (who : N) (c : mcall) : option N :=
    match c with
    | MCreate _ => Some (faddr (nextf (f_fp s)))
    | MRegister f _ _ _ | MUnregister f _ => Some f
    | MTransfer cur _ => hold (f_fp s) !! cur
    | MAddProxy _ _ | MRemoveProxy _ _ | MRemoveProxies => Some who
    | MProxyExt _ _ | MProxy _ _ _ | MPay _ _ _ => None
    end.
  (** Calls that may lead to a payment into the account, to keep it alive. *)
  Definition lifts (c : mcall) : bool := match c with MCreate _ | MRegister _ _ _ _ | MTransfer _ (Some _) => true | _ => false end.
  Notation mdispatch := (mdispatch maxp ed base factor).
  Definition gate_ok (filt : option ptype) (c : mcall) : bool := match filt with None => true | Some t => allows t (erase c) end.
  Lemma direct_ok s who filt c s' f : mdispatch s who filt c = Ok s' -> funded s -> about s who c = Some f ->
    funded s' /\ dispatch maxp true (f_fp s) who filt (erase c) = Ok (f_fp s') /\ flow s s' who f (if lifts c then lift s f else 0).
  Proof.
    intros H HF Ha. assert (G : gate_ok filt c = true). { destruct (gate_ok filt c) eqn:E; [reflexivity|]. unfold gate_ok in E. destruct c; cbn [FpassFundModel.mdispatch] in H; rewrite E in H; discriminate H. }
    unfold gate_ok in G. destruct c as [account|f0 d t signed|f0 d|cur new|f0 c'|real force c'|d t|d t| |keep to x]; cbn [about] in Ha; try discriminate Ha;
      cbn [FpassFundModel.mdispatch] in H; cbn [erase dispatch] in *; rewrite G in H |- *; cbn [ensure rbind] in *; cbn [lifts].
    - injection Ha as <-. unfold m_create, create in *. destruct (bool_decide (hold (f_fp s) !! account = None)); cbn [ensure rbind] in *; [|discriminate H].
      unfold add_delegate. cbn [ensure rbind]. refine (m_add_flow _ _ _ _ _ _ H _). apply with_fp_funded; [exact HF|reflexivity].
    - injection Ha as <-. unfold m_register, register in *.
      repeat match type of H with rbind (ensure ?b _) _ = _ => destruct b; cbn [ensure rbind] in *; [|discriminate H] end.
      unfold add_delegate. cbn [ensure rbind]. exact (m_add_flow _ _ _ _ _ _ H HF).
    - injection Ha as <-. unfold m_unregister, unregister in *.
      repeat match type of H with rbind (ensure ?b _) _ = _ => destruct b; cbn [ensure rbind] in *; [|discriminate H] end.
      exact (m_remove_flow _ _ _ _ _ H HF).
    - unfold m_transfer, transfer_fp in *. rewrite Ha in H |- *. cbn [of_opt rbind] in *.
      destruct ((who =? cur) || (f =? who)); cbn [ensure rbind] in *; [|discriminate H].
      set (s1 := with_fp s (set_hold (f_fp s) (delete cur (hold (f_fp s))))) in *. assert (F1 : funded s1) by (apply with_fp_funded; [exact HF|reflexivity]).
      change (set_hold (f_fp s) (delete cur (hold (f_fp s)))) with (f_fp s1). destruct new as [n|].
      + destruct (bool_decide (hold (f_fp s1) !! n = None)); cbn [ensure rbind] in *; [|discriminate H].
        destruct (m_add_delegate maxp ed base factor s1 who f n TOwner) as [s2|] eqn:E2; cbn [rbind] in H; [|discriminate H].
        destruct (m_add_flow _ _ _ _ _ _ E2 F1) as (F2 & A2 & W2). unfold add_delegate. cbn [ensure rbind]. rewrite A2. cbn [rbind].
        destruct (m_remove_others ed base factor s2 who f n (defs (f_fp s2) f)) as [s3|] eqn:E3; cbn [rbind] in H; [|discriminate H].
        destruct (m_others_flow _ _ _ _ _ _ E3 F2) as (F3 & A3 & W3). rewrite A3. cbn [rbind]. injection H as <-.
        split; [apply with_fp_funded; [exact F3|reflexivity]|]. split; [reflexivity|]. rewrite <- (N.add_0_r (lift s f)). exact (flow_trans _ _ _ _ _ _ _ W2 W3).
      + destruct (m_account_flow _ _ _ _ H F1) as (F' & E' & W'). split; [exact F'|]. split; [rewrite E'; reflexivity|exact W'].
    - injection Ha as <-. unfold m_add_def in H. destruct (add_def maxp (f_fp s) who d t) as [p|] eqn:Ea; cbn [rbind] in H; [|discriminate H].
      destruct (add_def_fp _ _ _ _ _ Ea) as (A1 & A2 & A3). destruct (rejig_flow s who p s' H HF) as (F' & E' & W'); [lia|exact A3|]. rewrite E'. split; [exact F'|]. split; [reflexivity|exact W'].
    - injection Ha as <-. destruct (has_def (d, t) (defs (f_fp s) who)) eqn:Ed; cbn [ensure rbind] in *; [|discriminate H]. unfold m_remove_def in H.
      unfold has_def in Ed. apply bool_decide_eq_true, elem_of_list_In in Ed.
      destruct (rejig_flow s who _ s' H HF) as (F' & E' & W').
      + rewrite defs_set', N.eqb_refl. pose proof (remove_len _ _ Ed). pose proof (fu_len _ HF who). lia.
      + intros c Hc. rewrite defs_set'. destruct (N.eqb_spec c who); [contradiction|reflexivity].
      + rewrite E'. split; [exact F'|]. split; [reflexivity|exact W'].
    - injection Ha as <-. injection H as <-. destruct (drop_flow s who HF) as (F' & E' & W'). split; [exact F'|]. rewrite E'. split; [reflexivity|exact W'].
  Qed.
  Lemma pay_funded keep s a b x s' : pay keep s a b x = Ok s' -> funded s -> funded s'.
  Proof.
    intros H HF. destruct (pay_ok _ _ _ _ _ _ H) as (P1 & P2 & P3 & _).
    constructor; intros c; [unfold dep; rewrite P1, P2; apply (fu_dep _ HF)|unfold dep, res; rewrite P2, P3; apply (fu_res _ HF)|rewrite P1; apply (fu_len _ HF)].
  Qed.

  (** Every call is nothing, a payment of a principal or a direct call of a principal, for which the signer may act. *)
  Definition mayact (s : fm) (who p : N) : Prop := who = p \/ exists t, In (who, t) (defs (f_fp s) p) /\ (t = TOwner \/ t = TAny).
  Inductive outcome (s : fm) (who : N) (s' : fm) : Prop :=
  | o_none : s' = s -> outcome s who s'
  | o_pay p keep to x : mayact s who p -> pay keep s p to x = Ok s' -> outcome s who s'
  | o_direct p c f : mayact s who p -> about s p c = Some f -> mdispatch s p None c = Ok s' -> outcome s who s'.
  Lemma refuse s who t c s' : dispatch maxp false s who (Some t) c = Ok s' -> s' = s.
  Proof.
    intros H. destruct c; cbn [dispatch] in H; destruct (allows t _) eqn:A; cbn [ensure rbind] in H; try discriminate H; cbn [allows] in A; try discriminate A.
    - unfold register in H. repeat match type of H with rbind (ensure ?b _) _ = _ => destruct b; cbn [ensure rbind] in *; [|discriminate H] end. discriminate H.
    - unfold unregister in H. repeat match type of H with rbind (ensure ?b _) _ = _ => destruct b; cbn [ensure rbind] in *; [|discriminate H] end.
      unfold remove_delegate in H. destruct (find_def _ _ _); cbn in H; discriminate H.
    - unfold transfer_fp in H. destruct (hold s !! cur); cbn [of_opt rbind] in H; [|discriminate H].
      destruct ((who =? cur) || (n =? who)); cbn [ensure rbind] in H; [|discriminate H]. destruct new as [m|]; [|discriminate H].
      match type of H with rbind (ensure ?b _) _ = _ => destruct b; cbn [ensure rbind] in H; [|discriminate H] end. unfold add_delegate in H. discriminate H.
    - injection H as ->. reflexivity.
  Qed.
  Lemma unfilter s who t c s' : mdispatch s who (Some t) c = Ok s' -> allows t (erase c) = true /\ (about s who c <> None \/ (exists k to x, c = MPay k to x) \/ exists cur n, c = MTransfer cur n) /\ mdispatch s who None c = Ok s'.
  Proof.
    intros H. assert (G : allows t (erase c) = true). { destruct (allows t (erase c)) eqn:E; [reflexivity|]. destruct c; cbn [FpassFundModel.mdispatch] in H; rewrite E in H; discriminate H. }
    split; [exact G|]. destruct c; cbn [erase allows] in G; try discriminate G; cbn [FpassFundModel.mdispatch] in H; cbn [erase allows] in H; rewrite G in H; cbn [ensure rbind] in H;
      (split; [|exact H]); cbn [about]; try (left; discriminate); [right; right; eexists; eexists; reflexivity|right; left; do 3 eexists; reflexivity].
  Qed.
  Lemma leaf_outcome s who p c s' : mayact s who p -> (about s p c <> None \/ (exists k to x, c = MPay k to x) \/ exists cur n, c = MTransfer cur n) -> mdispatch s p None c = Ok s' -> outcome s who s'.
  Proof.
    intros Hf [Ha|[(k & to & x & ->)|(cur & n & ->)]] H.
    - destruct (about s p c) as [f|] eqn:E; [|contradiction]. exact (o_direct _ _ _ p c f Hf E H).
    - cbn [FpassFundModel.mdispatch ensure rbind] in H. exact (o_pay _ _ _ p k to x Hf H).
    - destruct (about s p (MTransfer cur n)) as [f|] eqn:E; [exact (o_direct _ _ _ p _ f Hf E H)|]. cbn [about] in E. cbn [FpassFundModel.mdispatch ensure rbind] in H.
      unfold m_transfer in H. rewrite E in H. discriminate H.
  Qed.
  Lemma via_outcome s who real force c s' :
    (do! d <- of_opt (find_def who force (defs (f_fp s) real)) 13; Ok (commit s (mdispatch s real (Some (snd d)) c))) = Ok s' -> outcome s who s'.
  Proof.
    intros H. destruct (find_def who force (defs (f_fp s) real)) as [d|] eqn:Ed; cbn [of_opt rbind] in H; [|discriminate H]. injection H as <-.
    apply FpassProofs.find_some in Ed. destruct Ed as (Ed & Ew & _). destruct (mdispatch s real (Some (snd d)) c) as [s'|] eqn:E; cbn [commit]; [|apply o_none; reflexivity].
    destruct (unfilter _ _ _ _ _ E) as (G & Hl & H). apply (leaf_outcome s who real c s'); [|exact Hl|exact H]. right. exists (snd d).
    split; [rewrite <- Ew; destruct d; exact Ed|]. destruct c; cbn [erase allows] in G; try discriminate G; try (left; apply bool_decide_eq_true in G; exact G).
    apply orb_prop in G. destruct G as [G|G]; apply bool_decide_eq_true in G; [left|right]; exact G.
  Qed.
  Lemma call_outcome s who c s' : mdispatch s who None c = Ok s' -> outcome s who s'.
  Proof.
    intros H. destruct c as [account|f0 d t signed|f0 d|cur new|f0 c'|real force c'|d t|d t| |keep to x];
      try (refine (leaf_outcome s who who _ s' (or_introl eq_refl) _ H); cbn [about]; first [left; discriminate|right; left; do 3 eexists; reflexivity|right; right; do 2 eexists; reflexivity]).
    - cbn [FpassFundModel.mdispatch ensure rbind] in H. apply (via_outcome s who f0 None c').
      destruct c'; try exact H; (destruct (holds (f_fp s) who f0); cbn [ensure rbind] in H; [exact H|discriminate H]).
    - cbn [FpassFundModel.mdispatch ensure rbind] in H. exact (via_outcome _ _ _ _ _ _ H).
  Qed.
  Lemma outcome_funded s who s' : outcome s who s' -> funded s -> funded s'.
  Proof.
    intros [->|p k to x _ H|p c f _ Ha H] HF; [exact HF|exact (pay_funded _ _ _ _ _ _ H HF)|]. destruct (direct_ok _ _ _ _ _ _ H HF Ha) as [F' _]. exact F'.
  Qed.

  (** Every call does to the definitions what [FpassModel] says, for some success of the payments. *)
  Lemma refine_via s who real force c s' : funded s ->
    (do! d <- of_opt (find_def who force (defs (f_fp s) real)) 13; Ok (commit s (mdispatch s real (Some (snd d)) c))) = Ok s' ->
    exists b, (do! d <- of_opt (find_def who force (defs (f_fp s) real)) 13; Ok (commit (f_fp s) (dispatch maxp b (f_fp s) real (Some (snd d)) (erase c)))) = Ok (f_fp s').
  Proof.
    intros HF H. destruct (find_def who force (defs (f_fp s) real)) as [d|]; cbn [of_opt rbind] in *; [|discriminate H]. injection H as <-.
    destruct (mdispatch s real (Some (snd d)) c) as [s'|] eqn:E; cbn [commit].
    - exists true. f_equal. destruct (unfilter _ _ _ _ _ E) as (G & Hl & H). destruct (about s real c) as [f|] eqn:Ea.
      + destruct (direct_ok _ _ _ _ _ _ E HF Ea) as (_ & D & _). rewrite D. reflexivity.
      + destruct Hl as [Hl|[(k & to & x & ->)|(cur & n & ->)]]; [contradiction| |].
        * cbn [FpassFundModel.mdispatch ensure rbind] in H. destruct (pay_ok _ _ _ _ _ _ H) as (P1 & _). rewrite P1. cbn [erase dispatch]. cbn [erase] in G. rewrite G. reflexivity.
        * cbn [about] in Ea. cbn [FpassFundModel.mdispatch ensure rbind] in H. unfold m_transfer in H. rewrite Ea in H. discriminate H.
    - exists false. f_equal. destruct (dispatch maxp false (f_fp s) real (Some (snd d)) (erase c)) as [p|] eqn:Ep; cbn [commit]; [exact (refuse _ _ _ _ _ Ep)|reflexivity].
  Qed.
  Lemma refine s who c s' : funded s -> mdispatch s who None c = Ok s' -> exists b, dispatch maxp b (f_fp s) who None (erase c) = Ok (f_fp s').
  Proof.
    intros HF H. destruct (about s who c) as [f|] eqn:Ea. { exists true. exact (proj1 (proj2 (direct_ok _ _ _ _ _ _ H HF Ea))). }
    destruct c as [account|f0 d t signed|f0 d|cur new|f0 c'|real force c'|d t|d t| |keep to x]; cbn [about] in Ea; try discriminate Ea; cbn [FpassFundModel.mdispatch ensure rbind] in H; cbn [erase dispatch ensure rbind].
    - unfold m_transfer in H. rewrite Ea in H. discriminate H.
    - destruct c'; cbn [erase] in *; try exact (refine_via _ _ _ _ _ _ HF H); (destruct (holds (f_fp s) who f0); cbn [ensure rbind] in *; [exact (refine_via _ _ _ _ _ _ HF H)|discriminate H]).
    - exact (refine_via _ _ _ _ _ _ HF H).
    - exists true. destruct (pay_ok _ _ _ _ _ _ H) as (P1 & _). rewrite P1. reflexivity.
  Qed.
End fund.

(** * What every primitive keeps, every call keeps. *)
Section prim.
  Variable maxp ed base factor : N.
  Variable P : fm -> Prop.
  Hypothesis Ppay : forall k s a b x s', pay ed k s a b x = Ok s' -> P s -> P s'.
  Hypothesis Pres : forall s a x s', reserve ed s a x = Ok s' -> P s -> P s'.
  Hypothesis Pun : forall s a x, P s -> P (unreserve s a x).
  Hypothesis Pfp : forall s p d, P s -> P (Fm p d (f_free s) (f_res s)).
  Lemma prim_rejig s a p s' : rejig ed base factor s a p = Ok s' -> P s -> P s'.
  Proof.
    intros H HP. unfold rejig in H. cbv zeta in H. match type of H with rbind ?r _ = _ => assert (X : forall s1, r = Ok s1 -> P s1); [|destruct r as [s1|]; cbn [rbind] in H; [|discriminate H]] end.
    - intros s1. destruct (dep s a <? _); [intros E; exact (Pres _ _ _ _ E HP)|intros [= <-]; apply Pun, HP].
    - injection H as <-. apply Pfp, X. reflexivity.
  Qed.
  Lemma prim_add s funder f d t s' : m_add_delegate maxp ed base factor s funder f d t = Ok s' -> P s -> P s'.
  Proof.
    intros H HP. unfold m_add_delegate in H. cbv zeta in H. match type of H with rbind ?r _ = _ => destruct r as [s1|] eqn:E; cbn [rbind] in H; [|discriminate H] end.
    apply Ppay in E; [|exact HP]. unfold m_add_def in H. destruct (add_def _ _ _ _ _); cbn [rbind] in H; [|discriminate H]. exact (prim_rejig _ _ _ _ H E).
  Qed.
  Lemma prim_remove s receiver f d s' : m_remove_delegate ed base factor s receiver f d = Ok s' -> P s -> P s'.
  Proof.
    intros H HP. unfold m_remove_delegate in H. destruct (find_def _ _ _); cbn [of_opt rbind] in H; [|discriminate H].
    unfold m_remove_def in H. destruct (rejig _ _ _ _ _ _) as [s1|] eqn:E; cbn [rbind] in H; [|discriminate H]. exact (Ppay _ _ _ _ _ _ H (prim_rejig _ _ _ _ E HP)).
  Qed.
  Lemma prim_others caller f n l : forall s s', m_remove_others ed base factor s caller f n l = Ok s' -> P s -> P s'.
  Proof.
    induction l as [|x r IH]; intros s s' H HP; cbn [m_remove_others] in H; [injection H as <-; exact HP|]. destruct (fst x =? n); [exact (IH _ _ H HP)|].
    destruct (m_remove_delegate _ _ _ _ _ _ _) as [s1|] eqn:E; cbn [rbind] in H; [|discriminate H]. exact (IH _ _ H (prim_remove _ _ _ _ _ E HP)).
  Qed.
  Lemma prim_drop s f : P s -> P (unreserve (drop_defs s f) f (dep s f)).
  Proof. intros HP. apply Pun. unfold drop_defs. apply Pfp, HP. Qed.
  Lemma prim_transfer s caller cur new s' : m_transfer maxp ed base factor s caller cur new = Ok s' -> P s -> P s'.
  Proof.
    intros H HP. unfold m_transfer in H. destruct (hold (f_fp s) !! cur) as [f|]; cbn [of_opt rbind] in H; [|discriminate H].
    match type of H with rbind (ensure ?b _) _ = _ => destruct b; cbn [ensure rbind] in H; [|discriminate H] end.
    assert (H1 : P (with_fp s (set_hold (f_fp s) (delete cur (hold (f_fp s)))))) by (apply Pfp, HP). destruct new as [n|].
    - match type of H with rbind (ensure ?b _) _ = _ => destruct b; cbn [ensure rbind] in H; [|discriminate H] end.
      destruct (m_add_delegate _ _ _ _ _ _ _ _ _) as [s2|] eqn:E2; cbn [rbind] in H; [|discriminate H]. apply prim_add in E2; [|exact H1].
      destruct (m_remove_others _ _ _ _ _ _ _ _) as [s3|] eqn:E3; cbn [rbind] in H; [|discriminate H]. apply prim_others in E3; [|exact E2].
      injection H as <-. apply Pfp, E3.
    - unfold m_remove_account in H. exact (Ppay _ _ _ _ _ _ H (prim_drop _ _ H1)).
  Qed.
  Fixpoint prim_dispatch s who filt c {struct c} : forall s', mdispatch maxp ed base factor s who filt c = Ok s' -> P s -> P s'.
  Proof.
    assert (Hvia : forall real force c' s', (forall who filt s', mdispatch maxp ed base factor s who filt c' = Ok s' -> P s -> P s') -> P s ->
      (do! d <- of_opt (find_def who force (defs (f_fp s) real)) 13; Ok (commit s (mdispatch maxp ed base factor s real (Some (snd d)) c'))) = Ok s' -> P s').
    { intros real force c' s' IH HP H. destruct (find_def _ _ _); cbn [of_opt rbind] in H; [|discriminate H]. injection H as <-. apply (commit_inv P); [exact HP|]. intros s1 H. exact (IH _ _ _ H HP). }
    intros s' H HP. destruct c as [account|f d t signed|f d|cur new|f c'|real force c'|d t|d t| |keep to x]; cbn [mdispatch] in H;
      match type of H with rbind (ensure ?b _) _ = _ => destruct b; cbn [ensure rbind] in H; [|discriminate H] end.
    - unfold m_create in H. match type of H with rbind (ensure ?b _) _ = _ => destruct b; cbn [ensure rbind] in H; [|discriminate H] end. apply prim_add in H; [exact H|]. apply Pfp, HP.
    - unfold m_register in H. repeat match type of H with rbind (ensure ?b _) _ = _ => destruct b; cbn [ensure rbind] in H; [|discriminate H] end. exact (prim_add _ _ _ _ _ _ H HP).
    - unfold m_unregister in H. repeat match type of H with rbind (ensure ?b _) _ = _ => destruct b; cbn [ensure rbind] in H; [|discriminate H] end. exact (prim_remove _ _ _ _ _ H HP).
    - exact (prim_transfer _ _ _ _ _ H HP).
    - apply (Hvia f None c' s' (fun who filt s' => prim_dispatch s who filt c' s') HP).
      destruct c'; try exact H; (destruct (holds (f_fp s) who f); cbn [ensure rbind] in H; [exact H|discriminate H]).
    - exact (Hvia real force c' s' (fun who filt s' => prim_dispatch s who filt c' s') HP H).
    - unfold m_add_def in H. destruct (add_def _ _ _ _ _); cbn [rbind] in H; [|discriminate H]. exact (prim_rejig _ _ _ _ H HP).
    - destruct (has_def _ _); cbn [ensure rbind] in H; [|discriminate H]. exact (prim_rejig _ _ _ _ H HP).
    - injection H as <-. apply prim_drop, HP.
    - exact (Ppay _ _ _ _ _ _ H HP).
  Qed.
End prim.

(** An account with something reserved holds the existential deposit. *)
Definition alive_with (ed : N) (s : fm) : Prop := forall a, res s a <> 0 -> ed <= free s a.
Lemma alive_dispatch maxp ed base factor s who filt c s' : mdispatch maxp ed base factor s who filt c = Ok s' -> alive_with ed s -> alive_with ed s'.
Proof.
  apply prim_dispatch.
  - intros k s0 a b x s1 H HP c0. unfold pay in H. destruct ((x =? 0) || (a =? b)); [injection H as <-; apply HP|].
    destruct (N.leb_spec x (free s0 a)); cbn [ensure rbind] in H; [|discriminate H].
    destruct ((negb k && (res s0 a =? 0)) || (ed <=? free s0 a - x)) eqn:E; cbn [ensure rbind] in H; [|discriminate H].
    destruct (N.leb_spec ed (free s0 b + x)); cbn [ensure rbind] in H; [|discriminate H]. injection H as <-.
    change (res (Fm (f_fp s0) (f_dep s0) (<[b:=free s0 b + x]> (<[a:=free s0 a - x]> (f_free s0))) (f_res s0)) c0) with (res s0 c0). intros Hr. specialize (HP c0 Hr).
    unfold free at 1. cbn [f_free]. rewrite !default_insert. destruct (N.eqb_spec c0 b); [assumption|]. destruct (N.eqb_spec c0 a) as [->|]; [|exact HP].
    apply orb_prop in E. destruct E as [E|E]; [apply andb_prop in E; destruct E as [_ E]; apply N.eqb_eq in E; contradiction|apply N.leb_le, E].
  - intros s0 a x s1 H HP c0. unfold reserve in H. destruct (x =? 0); [injection H as <-; apply HP|].
    destruct (N.leb_spec x (free s0 a)); cbn [ensure rbind] in H; [|discriminate H]. destruct (N.leb_spec ed (free s0 a - x)); cbn [ensure rbind] in H; [|discriminate H]. injection H as <-.
    specialize (HP c0). unfold free, res in *. cbn [f_free f_res]. rewrite !default_insert. destruct (N.eqb_spec c0 a) as [->|]; [intros _; assumption|exact HP].
  - intros s0 a x HP c0. specialize (HP c0). unfold unreserve, free, res in *. cbn [f_free f_res]. rewrite !default_insert. destruct (N.eqb_spec c0 a) as [->|]; [|exact HP]. intros Hr. lia.
  - intros s0 p d HP. exact HP.
Qed.
Definition total (s : fm) : N := sumf (fun _ v => v) (f_free s) + sumf (fun _ v => v) (f_res s).
Lemma contrib_default (m : gmap N N) k : contrib (fun _ v => v) m k = default 0 (m !! k).
Proof. unfold contrib. destruct (m !! k); reflexivity. Qed.
Lemma sumf_put (m : gmap N N) k x : sumf (fun _ v => v) (<[k := x]> m) + default 0 (m !! k) = sumf (fun _ v => v) m + x.
Proof. rewrite <- contrib_default. apply sumf_insert. Qed.
Lemma total_dispatch maxp ed base factor s who filt c s' : mdispatch maxp ed base factor s who filt c = Ok s' -> total s' = total s.
Proof.
  intros H. assert (X : forall T s', mdispatch maxp ed base factor s who filt c = Ok s' -> total s = T -> total s' = T); [|exact (X (total s) s' H eq_refl)].
  clear s' H. intros T s'. apply (prim_dispatch maxp ed base factor (fun s => total s = T)).
  - intros k s0 a b x s1 H HP. unfold pay in H. destruct (N.eqb_spec x 0); cbn [orb] in H; [injection H as <-; exact HP|]. destruct (N.eqb_spec a b); [injection H as <-; exact HP|].
    destruct (N.leb_spec x (free s0 a)); cbn [ensure rbind] in H; [|discriminate H].
    match type of H with rbind (ensure ?b _) _ = _ => destruct b; cbn [ensure rbind] in H; [|discriminate H] end.
    match type of H with rbind (ensure ?b _) _ = _ => destruct b; cbn [ensure rbind] in H; [|discriminate H] end. injection H as <-.
    unfold total in *. cbn [f_free f_res]. pose proof (sumf_put (<[a:=free s0 a - x]> (f_free s0)) b (free s0 b + x)) as E1. pose proof (sumf_put (f_free s0) a (free s0 a - x)) as E2.
    rewrite lookup_insert_ne in E1 by congruence. unfold free in *. lia.
  - intros s0 a x s1 H HP. unfold reserve in H. destruct (x =? 0); [injection H as <-; exact HP|].
    destruct (N.leb_spec x (free s0 a)); cbn [ensure rbind] in H; [|discriminate H]. destruct (ed <=? free s0 a - x); cbn [ensure rbind] in H; [|discriminate H]. injection H as <-.
    unfold total in *. cbn [f_free f_res]. pose proof (sumf_put (f_free s0) a (free s0 a - x)). pose proof (sumf_put (f_res s0) a (res s0 a + x)). unfold free, res in *. lia.
  - intros s0 a x HP. unfold total, unreserve in *. cbn [f_free f_res]. pose proof (sumf_put (f_free s0) a (free s0 a + N.min x (res s0 a))). pose proof (sumf_put (f_res s0) a (res s0 a - N.min x (res s0 a))).
    unfold free, res in *. lia.
  - intros s0 p d HP. exact HP.
Qed.
