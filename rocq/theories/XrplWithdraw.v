(** C37, C38, C39: withdrawals to XRPL. *)
From Verif Require Export XrplModel XrplDeposits.

(** ** C38: mantissa and exponent *)
Lemma scale_down_spec n : forall m e, exists k, scale_down n m e = (m / 10 ^ k, e + k) /\ k <= N.of_nat n /\
  (k < N.of_nat n -> m / 10 ^ k <= MANTISSA_MAX) /\ (k <> 0 -> MANTISSA_MAX < m / 10 ^ (k - 1)).
Proof.
  induction n as [|n IH]; intros m e; cbn [scale_down].
  - exists 0. rewrite N.pow_0_r, N.div_1_r, N.add_0_r. repeat split; lia.
  - destruct (N.ltb_spec MANTISSA_MAX m) as [Hm|Hm].
    + destruct (IH (m / 10) (e + 1)) as (k & E & Hk & Hle & Hgt). exists (k + 1). rewrite E.
      assert (Hd : forall j, m / 10 / 10 ^ j = m / 10 ^ (j + 1)).
      { intros j. rewrite N.div_div by (try apply N.pow_nonzero; lia). f_equal. rewrite N.pow_add_r, N.pow_1_r. lia. }
      split; [rewrite Hd; f_equal; lia|]. split; [lia|]. split.
      * intros H. rewrite <- Hd. apply Hle. lia.
      * intros _. destruct (N.eq_dec k 0) as [->|Hk0]; [cbn; rewrite N.div_1_r; exact Hm|].
        replace (k + 1 - 1) with (k - 1 + 1) by lia. rewrite <- Hd. exact (Hgt Hk0).
    + exists 0. rewrite N.pow_0_r, N.div_1_r, N.add_0_r. repeat split; lia.
Qed.
(** The amounts that the 16-digit XRPL format represents exactly. *)
Definition exact (v : N) : Prop := exists m d, scale_down 40 v 0 = (m, d) /\ m * 10 ^ d = v /\ m <= MANTISSA_MAX.
Lemma scale_unique v k m : v = m * 10 ^ k -> m <= MANTISSA_MAX -> (k <> 0 -> 10 ^ 15 <= m) -> k < 40 -> scale_down 40 v 0 = (m, k).
Proof.
  intros -> Hm Hk Hk40. destruct (scale_down_spec 40 (m * 10 ^ k) 0) as (j & E & Hj & Hle & Hgt). rewrite E.
  assert (Hdiv : forall i, i <= k -> m * 10 ^ k / 10 ^ i = m * 10 ^ (k - i)).
  { intros i Hi. replace k with ((k - i) + i) at 1 by lia. rewrite N.pow_add_r, N.mul_assoc. apply N.div_mul, N.pow_nonzero. lia. }
  assert (Hbig : forall i, i < k -> MANTISSA_MAX < m * 10 ^ k / 10 ^ i).
  { intros i Hi. rewrite Hdiv by lia. assert (10 ^ 15 <= m) by (apply Hk; lia).
    assert (10 ^ 1 <= 10 ^ (k - i)) by (apply N.pow_le_mono_r; lia). unfold MANTISSA_MAX.
    assert (10 ^ 15 * 10 ^ 1 <= m * 10 ^ (k - i)) by (apply N.mul_le_mono; assumption).
    change (10 ^ 15 * 10 ^ 1) with 10000000000000000 in *. lia. }
  destruct (N.lt_trichotomy j k) as [Hlt|[->|Hgt']].
  - exfalso. specialize (Hle ltac:(lia)). specialize (Hbig j Hlt). lia.
  - rewrite Hdiv by lia. rewrite N.sub_diag, N.pow_0_r, N.mul_1_r. reflexivity.
  - exfalso. specialize (Hgt ltac:(lia)). assert (m * 10 ^ k / 10 ^ (j - 1) <= m); [|lia].
    replace (j - 1) with (k + (j - 1 - k)) by lia. rewrite N.pow_add_r, <- N.div_div by (apply N.pow_nonzero; lia).
    rewrite N.div_mul by (apply N.pow_nonzero; lia). apply N.div_le_upper_bound; [apply N.pow_nonzero; lia|].
    assert (1 <= 10 ^ (j - 1 - k)) by (apply N.lt_pred_le, N.neq_0_lt_0, N.pow_nonzero; lia). nia.
Qed.
(** Cutting an amount to 16 digits gives a representable amount, at most the original. *)
Lemma cut_exact v : v <= U128MAX -> let me := scale_down 40 v 0 in exact (fst me * 10 ^ snd me) /\ fst me * 10 ^ snd me <= v.
Proof.
  intros Hv. destruct (scale_down_spec 40 v 0) as (k & E & Hk & Hle & Hgt). rewrite E. cbn [fst snd]. rewrite N.add_0_l.
  assert (Hk40 : k < 40).
  { destruct (N.eq_dec k 0); [lia|]. specialize (Hgt n). destruct (N.lt_ge_cases k 40) as [|Hge]; [assumption|exfalso].
    assert (k = 40) by lia. subst k. revert Hgt. apply N.le_ngt. apply N.div_le_upper_bound; [apply N.pow_nonzero; lia|].
    unfold U128MAX in Hv. change (10 ^ (40 - 1)) with 1000000000000000000000000000000000000000. unfold MANTISSA_MAX. lia. }
  specialize (Hle ltac:(lia)). split.
  - exists (v / 10 ^ k), k. split; [|auto]. apply (scale_unique _ k (v / 10 ^ k)); [reflexivity|exact Hle| |exact Hk40].
    intros Hk0. specialize (Hgt Hk0). replace k with (k - 1 + 1) by lia. rewrite N.pow_add_r, <- N.div_div by (apply N.pow_nonzero; lia).
    apply N.div_le_lower_bound; [cbn; lia|]. unfold MANTISSA_MAX in Hgt. change (10 ^ 1 * 10 ^ 15) with 10000000000000000. lia.
  - rewrite N.mul_comm. apply N.mul_div_le, N.pow_nonzero. lia.
Qed.

(** ** C37: delayed withdrawals *)
Definition decides (id : N) (e : wev) : bool :=
  match e with WSent (Some i) _ _ _ => i =? id | WLost i _ => i =? id | _ => false end.
(** How often payment [id] has been decided (sent or dropped). *)
Definition times (id : N) (l : list wev) : nat := length (List.filter (decides id) l).
Lemma times_cons id e l : times id (e :: l) = if decides id e then S (times id l) else times id l.
Proof. unfold times. cbn [List.filter]. destruct (decides id e); reflexivity. Qed.
Lemma times_in id l : times id l <> 0%nat -> exists e, In e l /\ decides id e = true.
Proof.
  intros H. unfold times in H. destruct (List.filter (decides id) l) as [|e r] eqn:E; [cbn in H; congruence|].
  exists e. apply filter_In. rewrite E. left. reflexivity.
Qed.

Section wd.
  Variables (xrp root pot : N) (maxpb blim rd wr : N).
  Variable decimals : N -> N.
  Variable codec : N -> N -> N -> N -> bool.
  Notation wex := (wexec xrp root pot maxpb blim rd wr decimals codec).
  Notation wstp := (wstep xrp root pot maxpb blim rd wr decimals codec).
  Notation rel := (release1 xrp decimals codec).

  (** [f] is the schedule, [lo] the first block not yet processed. *)
  Record WI (f : N -> list N) (lo : N) (s : wst) : Prop := mkWI {
    s_in : forall id k, In id (f k) -> lo <= k /\ exists t, dpay s !! id = Some t /\ In (WDelayed id k t) (wlog s);
    s_uniq : forall id k1 k2, In id (f k1) -> In id (f k2) -> k1 = k2;
    s_nd : forall k, NoDup (f k);
    s_pay : forall id t, dpay s !! id = Some t -> exists k, In id (f k);
    s_lt : forall id k t, In (WDelayed id k t) (wlog s) -> id < nextpid s;
    s_fun : forall id k1 t1 k2 t2, In (WDelayed id k1 t1) (wlog s) -> In (WDelayed id k2 t2) (wlog s) -> k1 = k2 /\ t1 = t2;
    s_times : forall id, (times id (wlog s) <= 1)%nat;
    s_pay0 : forall id t, dpay s !! id = Some t -> times id (wlog s) = 0%nat;
    s_dec : forall id k t, In (WDelayed id k t) (wlog s) -> dpay s !! id = Some t \/ times id (wlog s) = 1%nat;
    s_out : forall e, In e (wlog s) -> match e with
      | WSent (Some id) b t _ => exists due, In (WDelayed id due t) (wlog s) /\ due <= b
      | WLost id t => exists due, In (WDelayed id due t) (wlog s)
      | _ => True end }.
  Lemma WI_ext f g lo s : (forall k, f k = g k) -> WI f lo s -> WI g lo s.
  Proof.
    intros E [A B C D F G H I J K]. constructor; try assumption.
    - intros id k. rewrite <- E. apply A.
    - intros id k1 k2. rewrite <- !E. apply B.
    - intros k. rewrite <- E. apply C.
    - intros id t Hd. destruct (D _ _ Hd) as [k Hk]. exists k. rewrite <- E. exact Hk.
  Qed.
  Lemma WI_lo f lo s : f lo = [] -> WI f lo s -> WI f (lo + 1) s.
  Proof.
    intros E [A B C D F G H I J K]. constructor; try assumption. intros id k Hk. destruct (A _ _ Hk) as [A1 A2]. split; [|exact A2].
    assert (k <> lo) by (intros ->; rewrite E in Hk; destruct Hk). lia.
  Qed.
  Definition upd (f : N -> list N) (k : N) (l : list N) (j : N) : list N := if k =? j then l else f j.
  Lemma release1_WI f lo s k id rest : WI (upd f k (id :: rest)) lo s -> k <= wblk s -> WI (upd f k rest) lo (rel s id).
  Proof.
    intros [A B C D F G H I J K] Hk.
    assert (Hid : In id (upd f k (id :: rest) k)) by (unfold upd; rewrite N.eqb_refl; left; reflexivity).
    destruct (A _ _ Hid) as (A1 & t & Ht & Hw). unfold release1. rewrite Ht.
    assert (Hsub : forall x j, In x (upd f k rest j) -> In x (upd f k (id :: rest) j) /\ x <> id).
    { intros x j. unfold upd. specialize (C k). unfold upd in C. rewrite N.eqb_refl in C. inversion_clear C as [|? ? Hn _].
      destruct (N.eqb_spec k j) as [E|Hne]; intros Hx.
      - split; [right; exact Hx|]. intros ->. apply Hn, elem_of_list_In, Hx.
      - split; [exact Hx|]. intros ->. apply Hne. apply (B id); [exact Hid|]. unfold upd. destruct (N.eqb_spec k j); [contradiction|exact Hx]. }
    assert (Hcore : forall e, decides id e = true -> (forall x, x <> id -> decides x e = false) ->
      (forall i j y, e <> WDelayed i j y) ->
      match e with WSent (Some i) b t' _ => i = id /\ t' = t /\ b = wblk s | WLost i t' => i = id /\ t' = t | _ => False end ->
      WI (upd f k rest) lo (with_log (Wst (wblk s) (wbk s) (wdoor s) (doorset s) (dfee s) (toxrpl s) (toasset s) (pdelay s) (dsch s) (delete id (dpay s)) (nextblk s) (nextpid s) (wlog s)) e)).
    { intros e He1 He2 He3 He4. constructor; unfold with_log; cbn [dpay wlog nextpid].
      - intros x j Hx. destruct (Hsub _ _ Hx) as [Hx1 Hx2]. destruct (A _ _ Hx1) as (P & u & Q & R). split; [exact P|]. exists u.
        rewrite lookup_delete_ne by congruence. split; [exact Q|right; exact R].
      - intros x j1 j2 H1 H2. exact (B _ _ _ (proj1 (Hsub _ _ H1)) (proj1 (Hsub _ _ H2))).
      - intros j. unfold upd. specialize (C j). unfold upd in C. destruct (k =? j); [inversion_clear C; assumption|exact C].
      - intros x u Hx. apply lookup_delete_Some in Hx as [Hne Hx]. destruct (D _ _ Hx) as [j Hj]. exists j. unfold upd in *.
        destruct (k =? j); [destruct Hj as [?|?]; [congruence|assumption]|exact Hj].
      - intros x j u [Hx|Hx]; [destruct (He3 _ _ _ Hx)|exact (F _ _ _ Hx)].
      - intros x j1 u1 j2 u2 [H1|H1] [H2|H2]; try (destruct (He3 _ _ _ H1)); try (destruct (He3 _ _ _ H2)). exact (G _ _ _ _ _ H1 H2).
      - intros x. rewrite times_cons. destruct (N.eq_dec x id) as [->|Hne]; [rewrite He1, (I _ _ Ht); lia|rewrite (He2 _ Hne); apply H].
      - intros x u Hx. apply lookup_delete_Some in Hx as [Hne Hx]. rewrite times_cons, (He2 x ltac:(congruence)). exact (I _ _ Hx).
      - intros x j u [Hx|Hx]; [destruct (He3 _ _ _ Hx)|]. rewrite times_cons. destruct (N.eq_dec x id) as [->|Hne].
        + right. rewrite He1, (I _ _ Ht). reflexivity.
        + rewrite (He2 _ Hne), lookup_delete_ne by congruence. exact (J _ _ _ Hx).
      - intros e' [<-|He'].
        + destruct e as [| [i|] b u y|i u]; try contradiction.
          * destruct He4 as (-> & -> & ->). exists k. split; [right; exact Hw|exact Hk].
          * destruct He4 as (-> & ->). exists k. right. exact Hw.
        + specialize (K _ He'). destruct e' as [| [i|] b u y|i u]; try exact Logic.I.
          * destruct K as (due & K1 & K2). exists due. split; [right; exact K1|exact K2].
          * destruct K as (due & K1). exists due. right. exact K1. }
    destruct (encode xrp decimals codec t) as [e|c].
    - apply Hcore; cbn [decides]; [apply N.eqb_refl|intros x Hx; apply N.eqb_neq; congruence|discriminate|auto].
    - apply Hcore; cbn [decides]; [apply N.eqb_refl|intros x Hx; apply N.eqb_neq; congruence|discriminate|auto].
  Qed.
  Lemma rel_fields s id : wblk (rel s id) = wblk s /\ dsch (rel s id) = dsch s /\ nextblk (rel s id) = nextblk s /\ nextpid (rel s id) = nextpid s /\
    wbk (rel s id) = wbk s /\ wdoor (rel s id) = wdoor s /\ doorset (rel s id) = doorset s /\ toxrpl (rel s id) = toxrpl s /\ toasset (rel s id) = toasset s.
  Proof. unfold release1. destruct (dpay s !! id); [destruct (encode _ _ _ _)|]; repeat split. Qed.
  Lemma rels_fields l : forall s, let s' := fold_left rel l s in wblk s' = wblk s /\ dsch s' = dsch s /\ nextblk s' = nextblk s /\ nextpid s' = nextpid s /\
    wbk s' = wbk s /\ wdoor s' = wdoor s /\ doorset s' = doorset s /\ toxrpl s' = toxrpl s /\ toasset s' = toasset s.
  Proof.
    induction l as [|id l IH]; intros s; [repeat split|]. cbn [fold_left]. destruct (IH (rel s id)) as (A & B & C & D & E & F & G & H & J).
    destruct (rel_fields s id) as (A' & B' & C' & D' & E' & F' & G' & H' & J'). cbv zeta in *. repeat split; congruence.
  Qed.
  Lemma rels_WI l1 : forall f lo s k l2, WI (upd f k (l1 ++ l2)) lo s -> k <= wblk s -> WI (upd f k l2) lo (fold_left rel l1 s).
  Proof.
    induction l1 as [|id l1 IH]; intros f lo s k l2 HW Hk; [exact HW|]. cbn [fold_left]. apply IH.
    - exact (release1_WI _ _ _ _ _ _ HW Hk).
    - rewrite (proj1 (rel_fields s id)). exact Hk.
  Qed.
  Lemma WI_set_sch f lo s m : WI f lo s -> WI f lo (set_sch s m).
  Proof. intros [A B C D F G H I J K]. constructor; assumption. Qed.

  Notation loop := (delay_loop xrp rd wr decimals codec).
  Lemma loop_WI fuel : forall s rem used nh lim, WI (listed (dsch s)) nh s -> lim <= wblk s -> wblk s < U32MAX ->
    let r := loop fuel s rem used nh lim in
    WI (listed (dsch (fst r))) (snd r) (fst r) /\ nh <= snd r /\ snd r <= N.max nh (lim + 1) /\
    wblk (fst r) = wblk s /\ nextblk (fst r) = nextblk s /\ nextpid (fst r) = nextpid s /\ wbk (fst r) = wbk s /\ wdoor (fst r) = wdoor s /\
    doorset (fst r) = doorset s /\ toxrpl (fst r) = toxrpl s /\ toasset (fst r) = toasset s.
  Proof.
    induction fuel as [|fuel IH]; intros s rem used nh lim HW Hlim Hb; cbn [delay_loop]; cbv zeta.
    - cbn [fst snd]. split; [exact HW|repeat split; lia].
    - destruct (N.leb_spec nh lim) as [Hnh|]; cbn [negb orb]; [|cbn [fst snd]; split; [exact HW|repeat split; lia]].
      destruct (rem <=? _); [cbn [fst snd]; split; [exact HW|repeat split; lia]|].
      assert (Hs : sat U32MAX (nh + 1) = nh + 1) by (unfold sat; apply N.min_l; lia).
      destruct (dsch s !! nh) as [ids|] eqn:Es.
      + set (k := N.to_nat (N.min ((rem - (used + rd + wr)) / wtx_cost rd wr) (N.of_nat (length ids)))). clearbody k.
        set (s1 := fold_left rel (firstn k ids) s).
        destruct (rels_fields (firstn k ids) s) as (F1 & F2 & F3 & F4 & F5 & F6 & F7 & F8 & F9). fold s1 in F1, F2, F3, F4, F5, F6, F7, F8, F9.
        assert (HW1 : WI (upd (listed (dsch s)) nh (skipn k ids)) nh s1).
        { apply rels_WI; [|lia]. rewrite firstn_skipn. eapply WI_ext; [|exact HW]. intros j. unfold upd. destruct (N.eqb_spec nh j) as [<-|]; [exact (listed_some _ _ _ Es)|reflexivity]. }
        destruct (k <? length ids)%nat eqn:Ek.
        * cbn [fst snd set_sch dsch wblk nextblk nextpid wbk wdoor doorset toxrpl toasset]. split; [|repeat split; try assumption; lia].
          apply WI_set_sch. eapply WI_ext; [|exact HW1]. intros j. rewrite listed_insert, F2. reflexivity.
        * apply Nat.ltb_ge in Ek. rewrite skipn_all2 in HW1 by exact Ek. rewrite Hs.
          specialize (IH (set_sch s1 (delete nh (dsch s1))) rem (used + rd + wr + wtx_cost rd wr * N.of_nat k) (nh + 1) lim).
          cbv zeta in IH. destruct IH as (I1 & I2 & I3 & I4 & I5 & I6 & I7 & I8 & I9 & I10 & I11).
          -- apply WI_set_sch. apply WI_lo; [cbn [set_sch dsch]; rewrite listed_delete, N.eqb_refl; reflexivity|].
             eapply WI_ext; [|exact HW1]. intros j. cbn [set_sch dsch]. rewrite listed_delete, F2. reflexivity.
          -- cbn [set_sch wblk]. lia.
          -- cbn [set_sch wblk]. lia.
          -- cbn [set_sch wblk nextblk nextpid wbk wdoor doorset toxrpl toasset] in *. split; [exact I1|]. repeat split; try congruence; lia.
      + rewrite Hs. specialize (IH s rem (used + rd) (nh + 1) lim). cbv zeta in IH.
        destruct IH as (I1 & I2 & I3 & I4); [apply WI_lo; [unfold listed; rewrite Es; reflexivity|exact HW]|exact Hlim|exact Hb|].
        split; [exact I1|]. split; [lia|]. split; [lia|exact I4].
  Qed.

  (** [wblk] does not wrap. *)
  Definition wgood (s : wst) (o : wop) : Prop := match o with WIdle _ => wblk s + 1 < U32MAX | _ => True end.
  Definition WInv (s : wst) : Prop := WI (listed (dsch s)) (nextblk s) s /\ nextblk s <= wblk s /\ wblk s < U32MAX.

  Lemma process_WI s rem : WInv s -> let s' := process_delayed xrp blim rd wr decimals codec s rem in
    WI (listed (dsch s')) (nextblk s') s' /\ nextblk s' <= wblk s + 1 /\ wblk s' = wblk s.
  Proof.
    intros (HW & Hn & Hb). unfold process_delayed. destruct (rem <=? _); [cbv zeta; split; [exact HW|repeat split; lia]|]. cbv zeta.
    destruct (doorset s); cbn [negb]; [|split; [exact HW|repeat split; lia]].
    set (lim := N.min (wblk s) (sat U32MAX (nextblk s + blim))). assert (Hl : lim <= wblk s) by (unfold lim; apply N.le_min_l). clearbody lim.
    pose proof (loop_WI (N.to_nat (lim + 1 - nextblk s)) s rem (2 * rd + wr) (nextblk s) lim HW Hl Hb) as HL.
    cbv zeta in HL. destruct (loop _ _ _ _ _ _) as [s1 nh]. cbn [fst snd] in HL.
    destruct HL as (I1 & I2 & I3 & I4 & I5 & I6). cbn [dsch nextblk wblk].
    assert (En : (if nextblk s <? nh then nh else nextblk s1) = nh) by (destruct (N.ltb_spec (nextblk s) nh); [reflexivity|rewrite I5; lia]).
    rewrite En. split; [|split; [lia|exact I4]]. destruct I1. constructor; assumption.
  Qed.

  (** Everything except [WIdle] and a delayed withdrawal keeps the bookkeeping of delayed payments. *)
  Lemma WI_same s s' : wblk s' = wblk s -> nextblk s' = nextblk s -> nextpid s' = nextpid s -> dsch s' = dsch s -> dpay s' = dpay s ->
    (wlog s' = wlog s \/ exists b t e, wlog s' = WSent None b t e :: wlog s) -> WInv s -> WInv s'.
  Proof.
    intros E1 E2 E3 E4 E5 E6 (HW & Hn & Hb). unfold WInv. rewrite E1, E2, E4. split; [|auto].
    destruct HW as [A B C D F G H I J K].
    assert (HD : forall id k t, In (WDelayed id k t) (wlog s') <-> In (WDelayed id k t) (wlog s)).
    { intros. destruct E6 as [->|(b & u & e & ->)]; [reflexivity|]. cbn [In]. split; [intros [?|?]; [discriminate|assumption]|right; assumption]. }
    assert (HT : forall id, times id (wlog s') = times id (wlog s)) by (intros; destruct E6 as [->|(b & u & e & ->)]; reflexivity).
    constructor; intros *; rewrite ?E3, ?E5, ?HT, ?HD.
    - intros Hi. destruct (A _ _ Hi) as (P & t & Q & R). split; [exact P|]. exists t. rewrite HD. auto.
    - apply B.
    - apply C.
    - apply D.
    - apply F.
    - apply G.
    - apply H.
    - apply I.
    - apply J.
    - intros He. assert (He' : In e (wlog s) \/ exists b t x, e = WSent None b t x).
      { destruct E6 as [E|(b & u & x & E)]; rewrite E in He; [left; exact He|]. destruct He as [<-|He]; [right; eauto|left; exact He]. }
      destruct He' as [He'|(b & t & x & ->)]; [|exact Logic.I]. specialize (K _ He'). destruct e as [| [i|] b u y|i u]; try exact Logic.I.
      + destruct K as (due & K1 & K2). exists due. rewrite HD. auto.
      + destruct K as (due & K1). exists due. rewrite HD. auto.
  Qed.
  Lemma delay_WI s delay t s' : WInv s -> delay_payment maxpb s delay t = Ok s' -> WInv s'.
  Proof.
    intros (HW & Hn & Hb) H. unfold delay_payment in H. destruct (_ <=? _); cbn [ensure rbind] in H; [|discriminate]. cbv zeta in H.
    destruct (_ <? maxpb); cbn [ensure rbind] in H; [|discriminate]. injection H as <-.
    set (due := sat U32MAX (wblk s + delay)). assert (Hdue : wblk s <= due) by (unfold due, sat; apply N.min_glb; lia). clearbody due.
    destruct HW as [A B C D F G H I J K]. set (id := nextpid s) in *.
    assert (Hnf : forall k u, ~ In (WDelayed id k u) (wlog s)) by (intros k u Hx; specialize (F _ _ _ Hx); lia).
    assert (Hns : forall k, ~ In id (listed (dsch s) k)) by (intros k Hx; destruct (A _ _ Hx) as (_ & u & _ & Hu); exact (Hnf _ _ Hu)).
    assert (Hnp : dpay s !! id = None) by (destruct (dpay s !! id) as [u|] eqn:E; [destruct (D _ _ E) as [k Hk]; destruct (Hns _ Hk)|reflexivity]).
    assert (Ht0 : times id (wlog s) = 0%nat).
    { destruct (times id (wlog s)) eqn:E; [reflexivity|exfalso]. destruct (times_in id (wlog s) ltac:(congruence)) as (e & He & Hd). specialize (K _ He).
      destruct e as [| [i|] b u y|i u]; cbn [decides] in Hd; try discriminate; apply N.eqb_eq in Hd; subst i.
      - destruct K as (d & K & _). exact (Hnf _ _ K).
      - destruct K as (d & K). exact (Hnf _ _ K). }
    assert (Hin : forall x k, In x (listed (<[due := listed (dsch s) due ++ [id]]> (dsch s)) k) -> In x (listed (dsch s) k) \/ (x = id /\ k = due)).
    { intros x k. rewrite listed_insert. destruct (N.eqb_spec due k) as [E|]; [subst k|auto].
      intros Hx. apply in_app_or in Hx as [Hx|[Hx|[]]]; [left; exact Hx|right; auto]. }
    unfold WInv. cbn [dsch nextblk wblk]. split; [|auto]. constructor; cbn [dpay wlog nextpid].
    - intros x k Hx. destruct (Hin _ _ Hx) as [Hx'|[-> ->]].
      + destruct (A _ _ Hx') as (P & u & Q & R). split; [exact P|]. exists u. rewrite lookup_insert_ne by (intros <-; exact (Hns _ Hx')). split; [exact Q|right; exact R].
      + split; [lia|]. exists t. rewrite lookup_insert. split; [reflexivity|left; reflexivity].
    - intros x k1 k2 H1 H2. destruct (Hin _ _ H1) as [H1'|[-> ->]]; destruct (Hin _ _ H2) as [H2'|[? ->]]; subst.
      + eapply B; eassumption.
      + destruct (Hns _ H1').
      + destruct (Hns _ H2').
      + reflexivity.
    - intros k. rewrite listed_insert. destruct (due =? k); [|apply C]. apply NoDup_app. split; [apply C|]. split; [|apply NoDup_singleton].
      intros x Hx Hx'. apply elem_of_list_singleton in Hx'. subst x. apply elem_of_list_In in Hx. exact (Hns _ Hx).
    - intros x u Hx. destruct (decide (id = x)) as [<-|Hne].
      + exists due. rewrite listed_insert, N.eqb_refl. apply in_or_app. right. left. reflexivity.
      + rewrite lookup_insert_ne in Hx by exact Hne. destruct (D _ _ Hx) as [k Hk]. exists k. rewrite listed_insert.
        destruct (N.eqb_spec due k) as [->|]; [apply in_or_app; left; exact Hk|exact Hk].
    - intros x k u [Hx|Hx]; [injection Hx as <- _ _; lia|specialize (F _ _ _ Hx); lia].
    - intros x k1 u1 k2 u2 [H1|H1] [H2|H2].
      + injection H1 as <- <- <-. injection H2 as <- <-. auto.
      + injection H1 as <- <- <-. destruct (Hnf _ _ H2).
      + injection H2 as <- <- <-. destruct (Hnf _ _ H1).
      + exact (G _ _ _ _ _ H1 H2).
    - intros x. rewrite times_cons. cbn [decides]. apply H.
    - intros x u Hx. rewrite times_cons. cbn [decides]. destruct (decide (id = x)) as [<-|Hne]; [exact Ht0|rewrite lookup_insert_ne in Hx by exact Hne; exact (I _ _ Hx)].
    - intros x k u. rewrite times_cons. cbn [decides]. intros [Hx|Hx].
      + injection Hx as <- <- <-. left. apply lookup_insert.
      + rewrite lookup_insert_ne by (intros <-; exact (Hnf _ _ Hx)). exact (J _ _ _ Hx).
    - intros e [<-|He]; [exact Logic.I|]. specialize (K _ He). destruct e as [| [i|] b u y|i u]; try exact Logic.I.
      + destruct K as (d & K1 & K2). exists d. split; [right; exact K1|exact K2].
      + destruct K as (d & K1). exists d. right. exact K1.
  Qed.
  (** A successful withdrawal, opened. *)
  Lemma withdraw_open s who a amount dest tag s' : withdraw xrp root pot maxpb decimals codec s who a amount dest tag = Ok s' ->
    exists amt l cur tk d', amount <> 0 /\ amount <= U128MAX /\ saturate xrp decimals amount a = Ok amt /\ doorset s = true /\ take_funds xrp root pot s who a amt = Ok (l, cur) /\
      take_ticket (wdoor s) = Ok (tk, d') /\
      let t := WTx who a amt dest tag tk (dfee s) cur in
      let s1 := Wst (wblk s) l d' (doorset s) (dfee s) (toxrpl s) (toasset s) (pdelay s) (dsch s) (dpay s) (nextblk s) (nextpid s) (wlog s) in
      ((exists thr delay, pdelay s !! a = Some (thr, delay) /\ thr <= amt /\ delay_payment maxpb s1 delay t = Ok s') \/
       (exists e, encode xrp decimals codec t = Ok e /\ s' = with_log s1 (WSent None (wblk s) t e))).
  Proof.
    intros H. unfold withdraw in H. destruct (N.eqb_spec amount 0) as [|Hz]; cbn [negb andb ensure rbind] in H; [discriminate|].
    destruct (N.leb_spec amount U128MAX) as [Hu|]; cbn [ensure rbind] in H; [|discriminate].
    destruct (saturate xrp decimals amount a) as [amt|] eqn:Es; cbn [rbind] in H; [|discriminate].
    destruct (doorset s) eqn:Ed; cbn [ensure rbind] in H; [|discriminate].
    destruct (negb (a =? xrp) || _); cbn [ensure rbind] in H; [|discriminate].
    destruct (take_funds xrp root pot s who a amt) as [[l cur]|] eqn:Ef; cbn [rbind] in H; [|discriminate].
    destruct (take_ticket (wdoor s)) as [[tk d']|] eqn:Et; cbn [rbind] in H; [|discriminate]. cbn [fst snd] in H. cbv zeta in H.
    exists amt, l, cur, tk, d'. do 6 (split; [first [assumption|reflexivity]|]). cbv zeta.
    assert (Henc : (do! e <- encode xrp decimals codec (WTx who a amt dest tag tk (dfee s) cur);
       Ok (with_log (Wst (wblk s) l d' true (dfee s) (toxrpl s) (toasset s) (pdelay s) (dsch s) (dpay s) (nextblk s) (nextpid s) (wlog s)) (WSent None (wblk s) (WTx who a amt dest tag tk (dfee s) cur) e))) = Ok s' ->
       exists e, encode xrp decimals codec (WTx who a amt dest tag tk (dfee s) cur) = Ok e /\
         s' = with_log (Wst (wblk s) l d' true (dfee s) (toxrpl s) (toasset s) (pdelay s) (dsch s) (dpay s) (nextblk s) (nextpid s) (wlog s)) (WSent None (wblk s) (WTx who a amt dest tag tk (dfee s) cur) e)).
    { destruct (encode _ _ _ _) as [e|]; cbn [rbind]; [|discriminate]. intros [= <-]. exists e. auto. }
    destruct (pdelay s !! a) as [[thr delay]|] eqn:Ep; [destruct (N.leb_spec thr amt) as [Hth|]|].
    - left. exists thr, delay. auto.
    - right. exact (Henc H).
    - right. exact (Henc H).
  Qed.
  Lemma wexec_WI s o s' : wgood s o -> WInv s -> wex s o = Ok s' -> WInv s'.
  Proof.
    intros Hg HI H. destruct o as [who a amount dest tag|rem|valid a c|a v|fee|b|st sz|a who v]; cbn [wexec wgood] in *.
    - apply withdraw_open in H as (amt & l & cur & tk & d' & _ & _ & _ & _ & _ & _ & H). cbv zeta in H.
      destruct H as [(thr & delay & _ & _ & H)|(e & _ & ->)].
      + apply delay_WI in H; [exact H|]. revert HI. apply WI_same; try reflexivity. left. reflexivity.
      + revert HI. apply WI_same; try reflexivity. right. cbn [with_log wlog]. eauto.
    - injection H as <-. destruct (process_WI s rem HI) as (A & B & C). cbv zeta in *. set (s1 := process_delayed _ _ _ _ _ _ _ _) in *. clearbody s1.
      unfold WInv. cbn [dsch nextblk wblk]. assert (Hw : wrap32 (wblk s1 + 1) = wblk s + 1).
      { unfold wrap32. rewrite C. apply N.mod_small. unfold U32MAX in Hg. lia. }
      rewrite Hw. split; [|split; [exact B|exact Hg]]. destruct A. constructor; assumption.
    - unfold set_map in H. destruct c as [c|]; [destruct valid|]; cbn [ensure rbind] in H; try discriminate.
      + injection H as <-. revert HI. apply WI_same; try reflexivity. left. reflexivity.
      + destruct (toxrpl s !! a); cbn [of_opt rbind] in H; [|discriminate]. injection H as <-. revert HI. apply WI_same; try reflexivity. left. reflexivity.
    - injection H as <-. revert HI. apply WI_same; try reflexivity. left. reflexivity.
    - destruct (_ <=? _); cbn [ensure rbind] in H; [|discriminate]. injection H as <-. revert HI. apply WI_same; try reflexivity. left. reflexivity.
    - injection H as <-. revert HI. apply WI_same; try reflexivity. left. reflexivity.
    - destruct (_ && _); cbn [ensure rbind] in H; [|discriminate]. destruct (set_next _ _ _); cbn [rbind] in H; [|discriminate]. injection H as <-.
      revert HI. apply WI_same; try reflexivity. left. reflexivity.
    - destruct (mint _ _ _ _); cbn [rbind] in H; [|discriminate]. injection H as <-. revert HI. apply WI_same; try reflexivity. left. reflexivity.
  Qed.
  Lemma wstep_WI s o : wgood s o -> WInv s -> WInv (wstp s o).
  Proof. intros Hg HI. unfold wstep. destruct (wex s o) as [s'|] eqn:E; cbn [commit]; [exact (wexec_WI _ _ _ Hg HI E)|exact HI]. Qed.
  Lemma winit_WI : WInv winit.
  Proof.
    unfold WInv. split; [|cbn [winit nextblk wblk]; unfold U32MAX; lia]. constructor; unfold winit, listed; cbn [dsch nextblk wlog dpay nextpid]; intros; rewrite ?lookup_empty in *;
    cbn [In default] in *; try contradiction; try discriminate; try constructor; try exact (Nat.le_0_l _).
  Qed.
  Lemma run_WI ops : along wstp wgood ops winit -> WInv (run wstp ops winit).
  Proof. intros Ha. exact (run_along wstp wgood WInv ltac:(intros s o; apply wstep_WI) ops winit Ha winit_WI). Qed.

  (** C37: each delayed withdrawal is waiting, or has been decided exactly once: handed over for signing, unchanged,
      in a block not before its due block, or dropped. *)
  Theorem C37_once_partial : forall ops id due t, along wstp wgood ops winit -> let s := run wstp ops winit in
    In (WDelayed id due t) (wlog s) ->
    (dpay s !! id = Some t /\ times id (wlog s) = 0%nat) \/
    (dpay s !! id = None /\ times id (wlog s) = 1%nat /\ ((exists b e, In (WSent (Some id) b t e) (wlog s) /\ due <= b) \/ In (WLost id t) (wlog s))).
  Proof.
    intros ops id due t Ha s Hin. destruct (run_WI ops Ha) as (HW & _). fold s in HW. destruct HW as [A B C D F G H I J K].
    destruct (dpay s !! id) as [u|] eqn:Ep.
    - left. destruct (J _ _ _ Hin) as [E|E].
      + rewrite E in Ep. injection Ep as ->. split; [reflexivity|exact (I _ _ E)].
      + rewrite (I _ _ Ep) in E. discriminate.
    - right. destruct (J _ _ _ Hin) as [E|E]; [congruence|]. split; [reflexivity|]. split; [exact E|].
      destruct (times_in id (wlog s) ltac:(congruence)) as (e & He & Hd). specialize (K _ He).
      destruct e as [| [i|] b u y|i u]; cbn [decides] in Hd; try discriminate; apply N.eqb_eq in Hd; subst i.
      + destruct K as (k & K & Hk). destruct (G _ _ _ _ _ K Hin) as [-> ->]. left. eauto.
      + destruct K as (k & K). destruct (G _ _ _ _ _ K Hin) as [-> ->]. right. exact He.
  Qed.
  (** C37, converse: nothing is released that was not delayed before. *)
  Theorem C37_only_delayed : forall ops id b t e, along wstp wgood ops winit -> let s := run wstp ops winit in
    In (WSent (Some id) b t e) (wlog s) -> exists due, In (WDelayed id due t) (wlog s) /\ due <= b.
  Proof. intros ops id b t e Ha s Hin. destruct (run_WI ops Ha) as (HW & _). exact (s_out _ _ _ HW _ Hin). Qed.

  (** ** C37: progress *)
  Hypothesis cost_pos : 0 < wtx_cost rd wr.
  Lemma loop_mono fuel : forall s rem used nh lim, nh < U32MAX -> lim < U32MAX -> nh <= snd (loop fuel s rem used nh lim).
  Proof.
    induction fuel as [|fuel IH]; intros s rem used nh lim Hn Hl; cbn [delay_loop]; cbv zeta; [cbn [snd]; lia|].
    destruct (N.leb_spec nh lim) as [Hnh|]; cbn [negb orb]; [|cbn [snd]; lia]. destruct (rem <=? _); [cbn [snd]; lia|].
    assert (Hs : sat U32MAX (nh + 1) = nh + 1) by (unfold sat; apply N.min_l; lia). rewrite Hs.
    assert (Hx : forall s' u, nh <= snd (loop fuel s' rem u (nh + 1) lim)).
    { intros s' u. destruct (N.eq_dec nh lim) as [->|].
      - destruct fuel; cbn [delay_loop snd]; [lia|]. destruct (N.leb_spec (lim + 1) lim); [lia|]. cbn [negb orb snd]. lia.
      - specialize (IH s' rem u (nh + 1) lim ltac:(lia) Hl). lia. }
    destruct (dsch s !! nh); [destruct (_ <? _)%nat; [cbn [snd]; lia|]|]; apply Hx.
  Qed.
  (** Work needed for [n] blocks from [nh] on. *)
  Fixpoint need (f : N -> list N) (nh : N) (n : nat) : N :=
    match n with O => 0 | S m => rd + wr + wtx_cost rd wr * N.of_nat (length (f nh)) + need f (nh + 1) m end.
  Lemma need_ext f g n : forall nh, (forall k, nh <= k -> f k = g k) -> need f nh n = need g nh n.
  Proof.
    induction n as [|n IH]; intros nh E; cbn [need]; [reflexivity|]. rewrite (E nh) by lia. f_equal. apply IH. intros k Hk. apply E. lia.
  Qed.
  Lemma loop_clears n : forall s rem used nh lim, lim < U32MAX -> nh + N.of_nat n = lim + 1 ->
    used + need (listed (dsch s)) nh n + (rd + 2 * wr) + wtx_cost rd wr < rem -> snd (loop n s rem used nh lim) = lim + 1.
  Proof.
    induction n as [|n IH]; intros s rem used nh lim Hl Hn Hw; cbn [delay_loop]; cbv zeta; [cbn [snd]; lia|]. cbn [need] in Hw.
    destruct (N.leb_spec nh lim) as [Hnh|]; cbn [negb orb]; [|lia].
    destruct (N.leb_spec rem (used + (rd + 2 * wr) + wtx_cost rd wr)) as [|Hr]; [exfalso; lia|].
    assert (Hs : sat U32MAX (nh + 1) = nh + 1) by (unfold sat; apply N.min_l; lia). rewrite Hs.
    destruct (dsch s !! nh) as [ids|] eqn:Es.
    - rewrite (listed_some _ _ _ Es) in Hw.
      assert (Hk : N.min ((rem - (used + rd + wr)) / wtx_cost rd wr) (N.of_nat (length ids)) = N.of_nat (length ids)).
      { apply N.min_r. apply N.div_le_lower_bound; [lia|]. lia. }
      rewrite Hk, Nat2N.id, firstn_all, Nat.ltb_irrefl.
      destruct (rels_fields ids s) as (_ & F2 & _). cbv zeta in F2.
      apply IH; [exact Hl|lia|]. cbn [set_sch dsch].
      rewrite (need_ext _ (listed (dsch s)) n (nh + 1)); [lia|]. intros k Hk'. rewrite listed_delete, F2. destruct (N.eqb_spec nh k); [lia|reflexivity].
    - apply IH; [exact Hl|lia|]. lia.
  Qed.
  (** C37: with enough weight left for what is due, a block decides everything due up to itself (or up to the
      processing limit when behind). *)
  Theorem C37_catches_up : forall ops rem, along wstp wgood ops winit -> let s := run wstp ops winit in doorset s = true ->
    let lim := N.min (wblk s) (nextblk s + blim) in
    3 * rd + 3 * wr + need (listed (dsch s)) (nextblk s) (N.to_nat (lim + 1 - nextblk s)) + wtx_cost rd wr + rd < rem ->
    let s' := process_delayed xrp blim rd wr decimals codec s rem in
    forall id due t, In (WDelayed id due t) (wlog s') -> due <= lim -> times id (wlog s') = 1%nat /\ dpay s' !! id = None.
  Proof.
    intros ops rem Ha s Hd lim Hr s'. pose proof (run_WI ops Ha) as HI. fold s in HI. destruct HI as (HW & Hn & Hb).
    destruct (process_WI s rem ltac:(split; auto)) as (HW' & _ & _). fold s' in HW'. cbv zeta in HW'.
    assert (Hnb : nextblk s' = lim + 1).
    { unfold s', process_delayed. destruct (N.leb_spec rem (2 * rd + wr + (wtx_cost rd wr + (2 * rd + 2 * wr)))) as [Hle|_]; [exfalso; lia|].
      rewrite Hd. cbn [negb].
      assert (El : N.min (wblk s) (sat U32MAX (nextblk s + blim)) = lim) by (unfold lim, sat; lia). rewrite El.
      pose proof (loop_clears (N.to_nat (lim + 1 - nextblk s)) s rem (2 * rd + wr) (nextblk s) lim ltac:(unfold lim; lia) ltac:(unfold lim; lia) ltac:(lia)) as HC.
      destruct (loop _ _ _ _ _ _) as [s1 nh] eqn:EL. cbn [snd] in HC. subst nh. cbn [nextblk].
      destruct (N.ltb_spec (nextblk s) (lim + 1)) as [|Hge]; [reflexivity|exfalso; unfold lim in Hge; lia]. }
    intros id due t Hin Hdue. destruct HW' as [A B C D F G H I J K].
    assert (Hnone : dpay s' !! id = None).
    { destruct (dpay s' !! id) as [u|] eqn:E; [exfalso|reflexivity]. destruct (D _ _ E) as [k Hk]. destruct (A _ _ Hk) as (P & v & Q & R).
      destruct (G _ _ _ _ _ R Hin) as [-> _]. lia. }
    split; [|exact Hnone]. destruct (J _ _ _ Hin) as [E|E]; [congruence|exact E].
  Qed.
  (** C37: with little weight something is done nevertheless: the cursor moves or payments are decided. *)
  Theorem C37_progress : forall ops rem, along wstp wgood ops winit -> let s := run wstp ops winit in doorset s = true ->
    4 * rd + 3 * wr + wtx_cost rd wr < rem ->
    let s' := process_delayed xrp blim rd wr decimals codec s rem in
    nextblk s < nextblk s' \/ (length (listed (dsch s') (nextblk s)) < length (listed (dsch s) (nextblk s)))%nat.
  Proof.
    intros ops rem Ha s Hd Hr s'. pose proof (run_WI ops Ha) as HI. fold s in HI. destruct HI as (HW & Hn & Hb).
    unfold s', process_delayed. destruct (N.leb_spec rem (2 * rd + wr + (wtx_cost rd wr + (2 * rd + 2 * wr)))) as [Hle|_]; [exfalso; lia|].
    rewrite Hd. cbn [negb]. set (lim := N.min (wblk s) (sat U32MAX (nextblk s + blim))).
    assert (Hl : nextblk s <= lim /\ lim < U32MAX) by (unfold lim, sat; lia). clearbody lim.
    destruct (N.to_nat (lim + 1 - nextblk s)) as [|n] eqn:En; [exfalso; lia|]. cbn [delay_loop]. cbv zeta.
    destruct (N.leb_spec (nextblk s) lim) as [_|]; [cbn [negb orb]|exfalso; lia].
    destruct (N.leb_spec rem (2 * rd + wr + (rd + 2 * wr) + wtx_cost rd wr)) as [|_]; [exfalso; lia|].
    assert (Hs : sat U32MAX (nextblk s + 1) = nextblk s + 1) by (unfold sat; apply N.min_l; lia). rewrite Hs.
    assert (Hadv : forall x u, let r := loop n x rem u (nextblk s + 1) lim in nextblk s < snd r).
    { intros x u. cbv zeta. destruct (N.eq_dec (nextblk s) lim) as [E|Hne].
      - rewrite <- E. destruct n; cbn [delay_loop snd]; [lia|]. destruct (N.leb_spec (nextblk s + 1) (nextblk s)); [lia|]. cbn [negb orb snd]. lia.
      - pose proof (loop_mono n x rem u (nextblk s + 1) lim ltac:(lia) ltac:(lia)). lia. }
    destruct (dsch s !! nextblk s) as [ids|] eqn:Es.
    - set (k := N.to_nat (N.min ((rem - (2 * rd + wr + rd + wr)) / wtx_cost rd wr) (N.of_nat (length ids)))).
      destruct (k <? length ids)%nat eqn:Ek.
      + right. rewrite N.ltb_irrefl. cbn [dsch set_sch]. rewrite listed_insert, N.eqb_refl, (listed_some _ _ _ Es), skipn_length.
        apply Nat.ltb_lt in Ek. assert (1 <= (rem - (2 * rd + wr + rd + wr)) / wtx_cost rd wr) by (apply N.div_le_lower_bound; lia).
        assert (1 <= k)%nat by (unfold k; lia). lia.
      + left. specialize (Hadv (set_sch (fold_left rel (firstn k ids) s) (delete (nextblk s) (dsch (fold_left rel (firstn k ids) s)))) (2 * rd + wr + rd + wr + wtx_cost rd wr * N.of_nat k)).
        cbv zeta in Hadv. destruct (loop _ _ _ _ _ _) as [s1 nh]. cbn [snd nextblk] in *. destruct (N.ltb_spec (nextblk s) nh); lia.
    - left. specialize (Hadv s (2 * rd + wr + rd)). cbv zeta in Hadv. destruct (loop _ _ _ _ _ _) as [s1 nh]. cbn [snd nextblk] in *. destruct (N.ltb_spec (nextblk s) nh); lia.
  Qed.

  (** Every list of the schedule is within its bound. *)
  Definition bounded (s : wst) : Prop := forall k, N.of_nat (length (listed (dsch s) k)) <= maxpb.
  Lemma loop_bounded fuel : forall s rem used nh lim, bounded s -> bounded (fst (loop fuel s rem used nh lim)).
  Proof.
    induction fuel as [|fuel IH]; intros s rem used nh lim HB; cbn [delay_loop]; cbv zeta; [exact HB|].
    destruct (negb _ || _); [exact HB|]. destruct (dsch s !! nh) as [ids|] eqn:Es; [|apply IH; exact HB].
    set (k := N.to_nat _). clearbody k. destruct (rels_fields (firstn k ids) s) as (_ & F2 & _). cbv zeta in F2.
    destruct (k <? length ids)%nat; [|apply IH]; unfold bounded; cbn [fst set_sch dsch]; intros j.
    - rewrite listed_insert, F2. destruct (nh =? j); [|apply HB]. rewrite skipn_length. specialize (HB nh). rewrite (listed_some _ _ _ Es) in HB. lia.
    - rewrite listed_delete, F2. destruct (nh =? j); [cbn; lia|apply HB].
  Qed.
  Lemma wexec_bounded s o s' : bounded s -> wex s o = Ok s' -> bounded s'.
  Proof.
    intros HB H. destruct o as [who a amount dest tag|rem|valid a c|a v|fee|b|st sz|a who v]; cbn [wexec] in *.
    - apply withdraw_open in H as (amt & l & cur & tk & d' & _ & _ & _ & _ & _ & _ & H). cbv zeta in H.
      destruct H as [(thr & delay & _ & _ & H)|(e & _ & ->)]; [|exact HB].
      unfold delay_payment in H. destruct (_ <=? _); cbn [ensure rbind] in H; [|discriminate]. cbv zeta in H. cbn [dsch wblk] in H.
      destruct (N.ltb_spec (N.of_nat (length (listed (dsch s) (sat U32MAX (wblk s + delay))))) maxpb) as [Hlt|]; cbn [ensure rbind] in H; [|discriminate]. injection H as <-.
      intros k. cbn [dsch]. rewrite listed_insert. destruct (N.eqb_spec (sat U32MAX (wblk s + delay)) k) as [<-|]; [|apply HB]. rewrite app_length. cbn [length]. lia.
    - injection H as <-. unfold bounded. cbn [dsch]. unfold process_delayed. destruct (rem <=? _); [exact HB|]. cbv zeta. destruct (negb _); [exact HB|].
      pose proof (loop_bounded (N.to_nat (N.min (wblk s) (sat U32MAX (nextblk s + blim)) + 1 - nextblk s)) s rem (2 * rd + wr) (nextblk s) (N.min (wblk s) (sat U32MAX (nextblk s + blim))) HB) as HL.
      destruct (loop _ _ _ _ _ _). exact HL.
    - unfold set_map in H. destruct c as [c|]; [destruct valid|]; cbn [ensure rbind] in H; try discriminate; [injection H as <-; exact HB|].
      destruct (toxrpl s !! a); cbn [of_opt rbind] in H; [|discriminate]. injection H as <-. exact HB.
    - injection H as <-. exact HB.
    - destruct (_ <=? _); cbn [ensure rbind] in H; [|discriminate]. injection H as <-. exact HB.
    - injection H as <-. exact HB.
    - destruct (_ && _); cbn [ensure rbind] in H; [|discriminate]. destruct (set_next _ _ _); cbn [rbind] in H; [|discriminate]. injection H as <-. exact HB.
    - destruct (mint _ _ _ _); cbn [rbind] in H; [|discriminate]. injection H as <-. exact HB.
  Qed.
  (** Each block leaves enough weight for a full list and the door address is set. *)
  Definition ample (s : wst) (o : wop) : Prop :=
    match o with WIdle rem => wblk s + 1 < U32MAX /\ doorset s = true /\ 5 * rd + 4 * wr + wtx_cost rd wr * (maxpb + 1) < rem | _ => True end.
  Lemma wexec_keeps s o s' : (forall rem, o <> WIdle rem) -> wex s o = Ok s' -> wblk s' = wblk s /\ nextblk s' = nextblk s.
  Proof.
    intros Hne H. destruct o as [who a amount dest tag|rem|valid a c|a v|fee|b|st sz|a who v]; cbn [wexec] in *.
    - apply withdraw_open in H as (amt & l & cur & tk & d' & _ & _ & _ & _ & _ & _ & H). cbv zeta in H.
      destruct H as [(thr & delay & _ & _ & H)|(e & _ & ->)]; [|auto].
      unfold delay_payment in H. destruct (_ <=? _); cbn [ensure rbind] in H; [|discriminate]. cbv zeta in H.
      destruct (_ <? maxpb); cbn [ensure rbind] in H; [|discriminate]. injection H as <-. auto.
    - destruct (Hne rem eq_refl).
    - unfold set_map in H. destruct c as [c|]; [destruct valid|]; cbn [ensure rbind] in H; try discriminate; [injection H as <-; auto|].
      destruct (toxrpl s !! a); cbn [of_opt rbind] in H; [|discriminate]. injection H as <-. auto.
    - injection H as <-. auto.
    - destruct (_ <=? _); cbn [ensure rbind] in H; [|discriminate]. injection H as <-. auto.
    - injection H as <-. auto.
    - destruct (_ && _); cbn [ensure rbind] in H; [|discriminate]. destruct (set_next _ _ _); cbn [rbind] in H; [|discriminate]. injection H as <-. auto.
    - destruct (mint _ _ _ _); cbn [rbind] in H; [|discriminate]. injection H as <-. auto.
  Qed.
  Lemma ample_good s o : ample s o -> wgood s o.
  Proof. destruct o; cbn [ample wgood]; tauto. Qed.
  Lemma ample_step s o : ample s o -> (WInv s /\ bounded s /\ nextblk s = wblk s) -> WInv (wstp s o) /\ bounded (wstp s o) /\ nextblk (wstp s o) = wblk (wstp s o).
  Proof.
    intros Hg (HI & HB & HE). split; [exact (wstep_WI s o (ample_good _ _ Hg) HI)|]. unfold wstep. destruct (wex s o) as [s'|] eqn:E; cbn [commit]; [|auto].
    split; [exact (wexec_bounded _ _ _ HB E)|]. destruct HI as (HW & Hn & Hb). destruct o.
    2: { cbn [wexec ample] in *. destruct Hg as (Hb1 & Hd & Hr). injection E as <-. cbn [nextblk wblk].
      destruct (process_WI s rem ltac:(split; auto)) as (_ & _ & Hwb). cbv zeta in Hwb. rewrite Hwb.
      assert (Hw : wrap32 (wblk s + 1) = wblk s + 1) by (unfold wrap32; apply N.mod_small; unfold U32MAX in Hb1; lia). rewrite Hw.
      unfold process_delayed. destruct (N.leb_spec rem (2 * rd + wr + (wtx_cost rd wr + (2 * rd + 2 * wr)))) as [Hle|_]; [exfalso; nia|].
      rewrite Hd. cbn [negb]. assert (El : N.min (wblk s) (sat U32MAX (nextblk s + blim)) = wblk s) by (unfold sat; lia). rewrite El.
      assert (Hfuel : N.to_nat (wblk s + 1 - nextblk s) = 1%nat) by lia. rewrite Hfuel.
      pose proof (loop_clears 1 s rem (2 * rd + wr) (nextblk s) (wblk s) Hb ltac:(lia)) as HC. cbn [need] in HC.
      assert (Hlen := HB (nextblk s)). specialize (HC ltac:(nia)).
      destruct (loop _ _ _ _ _ _) as [s1 nh]. cbn [snd] in HC. subst nh. cbn [nextblk]. destruct (N.ltb_spec (nextblk s) (wblk s + 1)); lia. }
    all: pose proof (fun Hx => wexec_keeps s _ s' Hx E) as HK; destruct (HK ltac:(intros; discriminate)) as [-> ->]; exact HE.
  Qed.
  (** C37, on time: when every block leaves enough weight and the door is set, each delayed withdrawal has been decided by
      the end of its due block. *)
  Theorem C37_on_time_partial : forall ops id due t, along wstp ample ops winit -> let s := run wstp ops winit in
    In (WDelayed id due t) (wlog s) -> due < wblk s -> times id (wlog s) = 1%nat.
  Proof.
    intros ops id due t Ha s Hin Hlt.
    destruct (run_along wstp ample (fun s => WInv s /\ bounded s /\ nextblk s = wblk s) ltac:(intros x o; apply ample_step) ops winit Ha) as ((HW & _) & _ & HE).
    { split; [exact winit_WI|]. split; [|reflexivity]. intros k. unfold winit, listed. cbn [dsch]. rewrite lookup_empty. cbn. lia. }
    fold s in HW, HE. destruct HW as [A B C D F G H I J K]. destruct (J _ _ _ Hin) as [E|E]; [exfalso|exact E].
    destruct (D _ _ E) as [k Hk]. destruct (A _ _ Hk) as (P & v & Q & R). destruct (G _ _ _ _ _ R Hin) as [-> _]. lia.
  Qed.
End wd.
