(** Vortex distribution: properties C28, C29, C67, C68. *)
From Verif Require Import VortexLive.

(** ** What a distribution has registered, exactly *)
Definition XI (s : vs) : Prop := forall id, open_status (status_of s id) = true -> regsum (book s) id = getN (tot s) id.
Lemma regsum_fresh id j rs : forall s, NoDup (map fst rs) -> Forall (fun r => book s !! (id, fst r) = None) rs ->
  regsum (book (fold_left (reg1 id) rs s)) j = regsum (book s) j + if id =? j then total_of rs else 0.
Proof.
  induction rs as [|[w a] rs IH]; intros s Hn Hf; cbn [fold_left]; [unfold total_of; cbn; destruct (id =? j); lia|].
  cbn [map fst] in Hn. inversion Hn as [|? ? Hw Hn']; subst. inversion Hf as [|? ? Hb Hf']; subst. cbn [fst] in Hb.
  rewrite IH; [|exact Hn'|].
  - cbn [reg1 note set_book book fst snd]. unfold regsum. rewrite sumf_insert_new by exact Hb. cbn [fst]. unfold total_of, sumL. cbn [map fold_right snd].
    destruct (id =? j); lia.
  - rewrite Forall_forall in *. intros [x c] Hx. cbn [reg1 note set_book book fst snd]. rewrite lookup_insert_ne; [apply (Hf' (x, c) Hx)|].
    intros [= ->]. apply Hw. apply elem_of_list_In, in_map_iff. exists (x, c). split; [reflexivity|apply elem_of_list_In; exact Hx].
Qed.
Lemma pays_regsum vault vtx id d j : forall s, regsum (book (fold_left (pay1 vault vtx id) d s)) j = regsum (book s) j.
Proof.
  induction d as [|w d IH]; intros s; cbn [fold_left]; [reflexivity|]. rewrite IH, pay1_book.
  destruct (book s !! (id, w)) as [[a []]|] eqn:Eb; try reflexivity. unfold regsum.
  pose proof (sumf_insert (fun k (e : N * bool) => if fst k =? j then fst e else 0) (book s) (id, w) (a, true)) as Hr.
  unfold contrib in Hr. rewrite Eb in Hr. cbn [fst] in Hr. lia.
Qed.

Section props.
  Variable key : N -> N.
  Variable vault rootv feev vtx native batch : N.
  Hypothesis inj : forall x y, key x = key y -> x = y.
  Hypothesis other : native <> vtx.
  Local Notation exec := (vexec key vault rootv feev vtx native batch).
  Local Notation step := (vstep key vault rootv feev vtx native batch).

  (** States reached by any history; by those whose registered rewards fit in a balance; by those
      that moreover never register an account twice. *)
  Definition reached (s : vs) : Prop := exists ops, s = run step ops vinit.
  Definition reached_fit (s : vs) : Prop := exists ops, along step vgood ops vinit /\ s = run step ops vinit.
  Definition reached_once (s : vs) : Prop := exists ops, along step vnew ops vinit /\ s = run step ops vinit.

  Lemma reached_UI s : reached s -> UI key vtx s /\ books (vl s).
  Proof.
    intros [ops ->]. apply (run_inv step (fun s => UI key vtx s /\ books (vl s))).
    - intros t o [H1 H2]. split; [apply UI_step; assumption|apply books_step; assumption].
    - split; [apply UI_init|apply empty_books].
  Qed.
  Lemma reached_GI s : reached_fit s -> UI key vtx s /\ GI vault vtx s.
  Proof.
    intros (ops & Ha & ->). apply (run_along step vgood (fun s => UI key vtx s /\ GI vault vtx s)); [|exact Ha|].
    - intros t o Hg [H1 H2]. split; [apply UI_step; assumption|apply GI_step; assumption].
    - split; [apply UI_init|apply GI_init].
  Qed.
  Lemma fit_reached s : reached_fit s -> reached s.
  Proof. intros (ops & _ & ->). exists ops. reflexivity. Qed.

  (** ** C28 *)
  (** Whatever happens, a distribution pays an account at most once, and the amount last registered. *)
  Theorem C28_at_most_once s id who : reached s ->
    paid (vlog s) id who = [] \/ exists a, due (vlog s) id who = Some a /\ paid (vlog s) id who = [a].
  Proof.
    intros Hr. destruct (reached_UI s Hr) as [HU _]. pose proof (u_log _ _ _ HU id who) as Hl.
    destruct (book s !! (id, who)) as [[a b]|]; [|left; apply Hl]. destruct Hl as [[Hl|[_ Hl]] Hd]; [left; exact Hl|right; eauto].
  Qed.
  (** A finished distribution has paid every registered account its amount, exactly once. *)
  Theorem C28_finished_paid_all s id who a : reached_fit s -> status_of s id = Done -> due (vlog s) id who = Some a -> paid (vlog s) id who = [a].
  Proof.
    intros Hr Hst Hd. destruct (reached_GI s Hr) as [HU HG]. pose proof (u_log _ _ _ HU id who) as Hl.
    destruct (book s !! (id, who)) as [[c b]|] eqn:Eb; [|destruct Hl; congruence]. destruct Hl as [_ Hl].
    pose proof (u_done _ _ _ HU id who c b Hst Eb) as ->. rewrite (g_paid _ _ _ HG id who c Eb). congruence.
  Qed.
  (** A payout event means the tokens arrived, and payout calls move nothing else but the vault's
      vortex. *)
  Theorem C28_events_are_payments s id : exists evs, vlog (step s (VPay id)) = vlog s ++ evs /\
    forall a x, x <> vault -> balance (vl (step s (VPay id))) a x = balance (vl s) a x + if a =? vtx then paid_to evs x else 0.
  Proof.
    change (step s (VPay id)) with (pay_unsigned key vault vtx batch s id).
    destruct (decide (status_of s id = Paying)) as [Hst|Hst].
    - destruct (pay_unsigned_shape key vault vtx batch s id inj Hst) as (d & fin & PC). rewrite (pc_next _ _ _ _ _ _ _ _ PC). cbv zeta.
      destruct (pays_effect vault vtx id d s) as (evs & H1 & H2). exists evs. destruct fin; exact (conj H1 H2).
    - rewrite pay_unsigned_idle by exact Hst. exists []. rewrite app_nil_r. split; [reflexivity|]. intros a x _. cbn. destruct (a =? vtx); lia.
  Qed.
  (** No other call records a payment. *)
  Theorem C28_only_payouts_pay s o id who : (forall j, o <> VPay j) -> paid (vlog (step s o)) id who = paid (vlog s) id who.
  Proof.
    intros Ho. unfold vstep. destruct (exec s o) as [s'|] eqn:Hs; cbn [commit]; [|reflexivity].
    destruct o as [new|o|o j|o j|j|o j ps|o j rs|o j|w j q|w a to q|a to q|a from q]; cbn [vexec] in Hs.
    - apply Ok_inj in Hs. subst s'. reflexivity.
    - unfold create_dist in Hs. inv_ok. subst s'. reflexivity.
    - unfold disable_dist in Hs. inv_ok. subst s'. reflexivity.
    - unfold start_dist in Hs. inv_ok. subst s'. reflexivity.
    - exfalso. apply (Ho j). reflexivity.
    - unfold asset_prices in Hs. inv_ok. subst s'. reflexivity.
    - unfold register in Hs. inv_ok. cbv zeta in Hs. subst s'. cbn [set_tot vlog].
      change (fold_left (fun t r => note (set_book t (j, fst r) (snd r, false)) (EReg j (fst r) (snd r))) rs s) with (fold_left (reg1 j) rs s).
      clear. revert s. induction rs as [|r rs IH]; intros s; cbn [fold_left]; [reflexivity|]. rewrite IH. cbn [reg1 note set_book vlog]. rewrite paid_app. cbn. apply app_nil_r.
    - unfold trigger in Hs. inv_ok. subst s'. reflexivity.
    - inv_ok. unfold redeem in Hs. inv_ok. subst s'. reflexivity.
    - inv_ok. subst s'. reflexivity.
    - inv_ok. subst s'. reflexivity.
    - inv_ok. subst s'. reflexivity.
  Qed.
  (** A started distribution that is not disabled finishes: two payout calls more than it has
      accounts always suffice, whatever happens in between. *)
  Theorem C28_finishes s id ops (who : list N) : reached s -> status_of s id = Paying ->
    (forall w, due (vlog s) id w <> None -> In w who) ->
    Forall (fun o => disables id o = false) ops -> (length who + 2 <= length (List.filter (pays id) ops))%nat ->
    status_of (run step ops s) id = Done.
  Proof.
    intros Hr Hst Hwho Hd Hn. destruct (reached_UI s Hr) as [HU _].
    destruct (rank_run key vault rootv feev vtx native batch id ops inj s HU (or_introl Hst) Hd) as [Hl HR].
    assert (Hle : (rank key s id <= length who + 2)%nat).
    { unfold rank. rewrite Hst. assert (length (pending key s id) <= length who)%nat.
      { apply NoDup_incl_length; [apply pending_nodup; exact inj|]. intros w Hw. apply pending_in in Hw. destruct Hw as [[[a b] Hb] _].
        apply Hwho. pose proof (u_log _ _ _ HU id w) as X1. rewrite Hb in X1. destruct X1 as [_ ->]. discriminate. }
      destruct (pivot s !! id); lia. }
    assert (H0 : rank key (run step ops s) id = 0%nat) by lia.
    destruct Hl as [Hl|Hl]; [|exact Hl]. unfold rank in H0. rewrite Hl in H0. lia.
  Qed.

  (** ** C29 *)
  (** A redemption takes from each vault asset at most the redeemed share, gives exactly that to
      the redeemer, destroys the redeemed vortex, and leaves each remaining unit at least as well
      covered. *)
  Theorem C29_redeem s who id v s' a : reached s -> exec s (VRedeem who id v) = Ok s' -> a <> vtx ->
    let B := balance (vl s) a vault in let T := issuance (vl s) vtx in
    exists r, r * T <= v * B /\ r <= B /\ balance (vl s') a vault = B - r /\ balance (vl s') a who = balance (vl s) a who + r /\
      v <= T /\ issuance (vl s') vtx = T - v /\ balance (vl s') vtx who + v = balance (vl s) vtx who /\
      (forall b x, x <> vault -> x <> who -> balance (vl s') b x = balance (vl s) b x) /\
      B * issuance (vl s') vtx <= balance (vl s') a vault * T.
  Proof.
    intros Hr Hs Ha B T. destruct (reached_UI s Hr) as [HU HB]. cbn [vexec] in Hs. inv_ok. unfold redeem in Hs. inv_ok. subst s'.
    match goal with H : fold_left _ _ _ = Ok ?l |- _ => rename H into Hf; rename l into L1 end.
    match goal with H : burn L1 _ _ _ = Ok ?l |- _ => rename H into Hx; rename l into L2 end.
    match goal with H : negb (pot _ _ _ _) = true |- _ => rename H into Hpot end. unfold pot in Hpot.
    assert (Hw : who <> vault) by (destruct (N.eqb_spec who vault); [discriminate|assumption]).
    match goal with H : (0 <? v) && _ = true |- _ => apply andb_true_iff in H; destruct H as [Hv0 Hv]; apply N.leb_le in Hv; apply N.ltb_lt in Hv0 end.
    match goal with H : (0 <? issuance _ _) = true |- _ => apply N.ltb_lt in H; rename H into HT end. fold T in HT, Hf.
    destruct (redeem_fold vault who T v Hw (assets s id) (assets_nodup s id) _ _ Hf) as (F1 & F2 & F3).
    pose proof (fold_books (fun l a => sat U128MAX (v * balance l a vault) / T) vault who _ _ _ Hf HB) as HB1.
    destruct (burn_spec _ _ _ _ _ Hx HB1) as (_ & Bi & Bb & _). cbn [set_vl vl].
    assert (Hvt : balance L1 vtx who = balance (vl s) vtx who).
    { apply F3. left. intros Hin. apply elem_of_list_In in Hin. revert Hin. apply (not_priced key). exact HU. }
    specialize (Bi vtx) as Bi'. rewrite N.eqb_refl in Bi'. unfold issuance at 2 in Bi'. rewrite F1 in Bi'. change (getN (iss (vl s)) vtx) with T in Bi'.
    set (r := if decide (a ∈ assets s id) then sat U128MAX (v * B) / T else 0).
    assert (R1 : r * T <= v * B). { unfold r. destruct (decide _); [apply share_bound; exact HT|lia]. }
    assert (R2 : r <= B /\ balance L1 a vault = B - r /\ balance L1 a who = balance (vl s) a who + r).
    { unfold r. destruct (decide _) as [Hin|Hin]; [apply (F2 a Hin)|]. rewrite !(F3 a) by (left; exact Hin). fold B. lia. }
    destruct R2 as (R2 & R3 & R4). clearbody r.
    pose proof (Bb a vault) as C1. pose proof (Bb a who) as C2. pose proof (Bb vtx who) as C3.
    rewrite decide_False in C1 by congruence. rewrite decide_False in C2 by congruence. rewrite decide_True in C3 by reflexivity.
    exists r. split; [exact R1|]. split; [exact R2|]. split; [lia|]. split; [lia|]. split; [lia|]. split; [lia|]. split; [lia|]. split.
    - intros b x X1 X2. specialize (Bb b x). rewrite decide_False in Bb by congruence. rewrite (F3 b x) in Bb by (right; auto). lia.
    - replace (issuance L2 vtx) with (T - v) by lia. replace (balance L2 a vault) with (B - r) by lia.
      assert (v <= T) by lia. rewrite N.mul_sub_distr_l, N.mul_sub_distr_r. lia.
  Qed.

  (** Steps that create no vortex. *)
  Definition no_new_vortex (s : vs) (o : vop) : Prop :=
    match o with VStart _ id => getN (tot s) id = 0 | VMint a _ v => a <> vtx \/ v = 0 | _ => True end.
  Lemma hold_step s o a : UI key vtx s /\ books (vl s) -> reached s -> no_new_vortex s o -> a <> vtx ->
    issuance (vl (step s o)) vtx <= issuance (vl s) vtx /\
    balance (vl s) a vault * issuance (vl (step s o)) vtx <= balance (vl (step s o)) a vault * issuance (vl s) vtx.
  Proof.
    intros [HU HB] Hr Hn Ha.
    assert (Hq : forall l, issuance l vtx <= issuance (vl s) vtx -> balance (vl s) a vault <= balance l a vault ->
      issuance l vtx <= issuance (vl s) vtx /\ balance (vl s) a vault * issuance l vtx <= balance l a vault * issuance (vl s) vtx).
    { intros l H1 H2. split; [exact H1|]. apply N.mul_le_mono; assumption. }
    unfold vstep. destruct (exec s o) as [s'|] eqn:Hs; cbn [commit]; [|apply Hq; reflexivity].
    destruct o as [new|o|o j|o j|j|o j ps|o j rs|o j|w j q|w b to q|b to q|b from q].
    - cbn [vexec] in Hs. apply Ok_inj in Hs. subst s'. apply Hq; reflexivity.
    - cbn [vexec] in Hs. unfold create_dist in Hs. inv_ok. subst s'. apply Hq; reflexivity.
    - cbn [vexec] in Hs. unfold disable_dist in Hs. inv_ok. subst s'. apply Hq; reflexivity.
    - cbn [vexec] in Hs. unfold start_dist in Hs. inv_ok. subst s'. cbn in Hn. rewrite Hn in *. cbn [set_stat set_tot set_vl vl].
      match goal with H : mint _ _ _ _ = Ok _ |- _ => destruct (mint_spec _ _ _ _ _ H) as (_ & X1 & X2 & _) end.
      apply Hq; [rewrite X1, N.eqb_refl; lia|rewrite X2; lia].
    - cbn [vexec] in Hs. apply Ok_inj in Hs. subst s'.
      destruct (decide (status_of s j = Paying)) as [Hst|Hst]; [|rewrite pay_unsigned_idle by exact Hst; apply Hq; reflexivity].
      destruct (pay_unsigned_shape key vault vtx batch s j inj Hst) as (d & fin & PC). rewrite (pc_next _ _ _ _ _ _ _ _ PC). cbv zeta.
      assert (Hi : forall t, iss (vl (fold_left (pay1 vault vtx j) d t)) = iss (vl t) /\ balance (vl (fold_left (pay1 vault vtx j) d t)) a vault = balance (vl t) a vault).
      { clear -Ha. induction d as [|w d IH]; intros t; cbn [fold_left]; [auto|]. destruct (IH (pay1 vault vtx j t w)) as [-> ->].
        unfold pay1. destruct (book t !! (j, w)) as [[amt []]|]; auto. destruct (safe_transfer _ _ _ _ _) as [l|] eqn:E; [|auto].
        destruct (safe_transfer_spec _ _ _ _ _ _ E) as (_ & E2 & E3). split; [exact E2|]. specialize (E3 a vault).
        rewrite !decide_False in E3 by congruence. cbn [set_book note set_vl vl]. lia. }
      destruct (Hi s) as [I1 I2]. unfold issuance. destruct fin; cbn [set_pivot set_stat vl]; rewrite I1, I2; apply Hq; reflexivity.
    - cbn [vexec] in Hs. unfold asset_prices in Hs. inv_ok. subst s'. apply Hq; reflexivity.
    - cbn [vexec] in Hs. unfold register in Hs. inv_ok. cbv zeta in Hs. subst s'. cbn [set_tot vl].
      change (fold_left (fun t r => note (set_book t (j, fst r) (snd r, false)) (EReg j (fst r) (snd r))) rs s) with (fold_left (reg1 j) rs s).
      destruct (reg1_other j rs s) as (-> & _). apply Hq; reflexivity.
    - cbn [vexec] in Hs. unfold trigger in Hs. inv_ok. subst s'. cbn [set_stat set_vl vl].
      match goal with H : fold_left _ _ _ = Ok ?l |- _ => rename H into Hf; rename l into L1 end.
      match goal with H : safe_transfer L1 _ _ _ _ = Ok ?l |- _ => rename H into Hx; rename l into L2 end.
      assert (Hup : forall las l l', fold_left (fun r a => do! l <- r; safe_transfer l a feev vault (balance l a feev)) las (Ok l) = Ok l' ->
         iss l' = iss l /\ balance l a vault <= balance l' a vault).
      { clear. induction las as [|c las IH]; intros l l' H; cbn [fold_left] in H; [apply Ok_inj in H; subst; split; reflexivity|].
        cbn [rbind] in H. destruct (safe_transfer l c feev vault _) as [l1|e] eqn:E.
        - destruct (IH l1 l' H) as [G1 G2]. destruct (safe_transfer_spec _ _ _ _ _ _ E) as (_ & E2 & E3). split; [congruence|]. specialize (E3 a vault).
          etransitivity; [|exact G2]. destruct (decide ((c, feev) = (a, vault))) as [Ex|]; [|lia].
          injection Ex as -> ->. rewrite decide_True in E3 by reflexivity. lia.
        - exfalso. clear -H. induction las as [|b las IHl]; cbn in H; [discriminate|auto]. }
      destruct (Hup _ _ _ Hf) as [G1 G2]. destruct (safe_transfer_spec _ _ _ _ _ _ Hx) as (_ & E2 & E3).
      apply Hq; [unfold issuance; rewrite E2, G1; reflexivity|]. etransitivity; [exact G2|]. specialize (E3 a vault).
      destruct (decide ((native, rootv) = (a, vault))) as [Ex|]; [|lia]. injection Ex as Ex1 Ex2. rewrite Ex1, Ex2 in E3. rewrite decide_True in E3 by reflexivity. lia.
    - destruct (C29_redeem s w j q s' a Hr Hs Ha) as (r & _ & _ & _ & _ & R5 & R6 & _ & _ & R8). cbv zeta in R8. split; [lia|exact R8].
    - cbn [vexec] in Hs. inv_ok. subst s'. cbn [set_vl vl].
      match goal with H : transfer _ _ _ _ _ = Ok ?l |- _ => rename H into Hx; rename l into L1 end.
      match goal with H : negb (pot _ _ _ _) = true |- _ => rename H into Hpot end. unfold pot in Hpot.
      assert (w <> vault) by (destruct (N.eqb_spec w vault); [discriminate|assumption]).
      destruct (transfer_spec _ _ _ _ _ _ Hx) as (_ & E2 & E3). specialize (E3 a vault). rewrite (decide_False (P := (b, w) = (a, vault))) in E3 by congruence.
      apply Hq; [unfold issuance; rewrite E2; reflexivity|lia].
    - cbn [vexec] in Hs. inv_ok. subst s'. cbn [set_vl vl].
      match goal with H : mint _ _ _ _ = Ok _ |- _ => destruct (mint_spec _ _ _ _ _ H) as (_ & X1 & X2 & _) end.
      apply Hq; [|rewrite X2; lia]. rewrite X1. cbn in Hn. destruct (N.eqb_spec b vtx) as [Eb|]; [|lia]. destruct Hn as [Hn|Hn]; [congruence|lia].
    - cbn [vexec] in Hs. inv_ok. subst s'. cbn [set_vl vl].
      match goal with H : burn _ _ _ _ = Ok ?l |- _ => rename H into Hx; rename l into L1 end.
      match goal with H : negb (pot _ _ _ _) = true |- _ => rename H into Hpot end. unfold pot in Hpot.
      assert (from <> vault) by (destruct (N.eqb_spec from vault); [discriminate|assumption]).
      destruct (burn_spec _ _ _ _ _ Hx HB) as (_ & E2 & E3 & _). specialize (E3 a vault). specialize (E2 vtx). rewrite decide_False in E3 by congruence.
      apply Hq; [destruct (b =? vtx); lia|lia].
  Qed.
  (** Over any sequence of calls that creates no vortex, what the vault holds of an asset per unit
      of vortex never falls. *)
  Theorem C29_no_dilution ops : forall s a, reached s -> along step no_new_vortex ops s -> a <> vtx ->
    balance (vl s) a vault * issuance (vl (run step ops s)) vtx <= balance (vl (run step ops s)) a vault * issuance (vl s) vtx.
  Proof.
    intros s a Hr Hal Ha.
    assert (H : issuance (vl (run step ops s)) vtx <= issuance (vl s) vtx /\
      balance (vl s) a vault * issuance (vl (run step ops s)) vtx <= balance (vl (run step ops s)) a vault * issuance (vl s) vtx); [|apply H].
    revert s Hr Hal. induction ops as [|o ops IH]; intros s Hr Hal; [cbn; lia|].
    change (run step (o :: ops) s) with (run step ops (step s o)). destruct Hal as [Hn Hal].
    destruct (hold_step s o a (reached_UI s Hr) Hr Hn Ha) as [S1 S2].
    assert (Hr' : reached (step s o)). { destruct Hr as [os ->]. exists (os ++ [o]). rewrite run_app. reflexivity. }
    destruct (IH (step s o) Hr' Hal) as [I1 I2].
    set (B0 := balance (vl s) a vault) in *. set (T0 := issuance (vl s) vtx) in *.
    set (B1 := balance (vl (step s o)) a vault) in *. set (T1 := issuance (vl (step s o)) vtx) in *.
    set (B2 := balance (vl (run step ops (step s o))) a vault) in *. set (T2 := issuance (vl (run step ops (step s o))) vtx) in *.
    clearbody B0 T0 B1 T1 B2 T2. clear -S1 S2 I1 I2. split; [lia|].
    destruct (N.eq_0_gt_0_cases T1) as [E|Hp]; [assert (T2 = 0) by lia; subst; lia|].
    apply (N.mul_le_mono_pos_r _ _ T1 Hp). 
    transitivity (B0 * T1 * T2); [lia|]. transitivity (B1 * T0 * T2); [apply N.mul_le_mono_r; exact S2|].
    transitivity (B1 * T2 * T0); [lia|]. transitivity (B2 * T1 * T0); [apply N.mul_le_mono_r; exact I2|lia].
  Qed.

  (** ** C67 *)
  (** Whoever holds vortex can redeem any part of it once a distribution is finished; as long as
      the product fits in a balance, each asset of the distribution pays the exact share, rounded
      down. *)
  Theorem C67_redeem_full_share s who id v : reached s -> status_of s id = Done -> 0 < v -> v <= balance (vl s) vtx who -> pot vault rootv feev who = false ->
    (forall a, is_Some (prices s !! (id, a)) -> v * balance (vl s) a vault <= U128MAX) ->
    exists s', exec s (VRedeem who id v) = Ok s' /\
      forall a, is_Some (prices s !! (id, a)) ->
        balance (vl s') a who = balance (vl s) a who + v * balance (vl s) a vault / issuance (vl s) vtx.
  Proof.
    intros Hr Hst Hv Hb Hp Hfit. destruct (reached_UI s Hr) as [HU HB]. 
    assert (Hw : who <> vault) by (unfold pot in Hp; destruct (N.eqb_spec who vault); [discriminate|assumption]).
    assert (HvT : v <= issuance (vl s) vtx). { destruct (HB vtx) as [<- _]. pose proof (balance_le_total (vl s) vtx who). lia. }
    destruct (redeem_fold_ok vault who (issuance (vl s) vtx) v Hw HvT ltac:(lia) (assets s id) (vl s) HB) as [L1 Hf].
    destruct (redeem_fold vault who (issuance (vl s) vtx) v Hw (assets s id) (assets_nodup s id) _ _ Hf) as (F1 & F2 & F3).
    assert (Hvt : balance L1 vtx who = balance (vl s) vtx who).
    { apply F3. left. intros Hin. apply elem_of_list_In in Hin. revert Hin. apply (not_priced key). exact HU. }
    pose proof (fold_books (fun l a => sat U128MAX (v * balance l a vault) / issuance (vl s) vtx) vault who _ _ _ Hf HB) as HB1.
    destruct (burn L1 vtx who v) as [L2|] eqn:Ebu; [|exfalso; unfold burn in Ebu; destruct (N.ltb_spec (balance L1 vtx who) v); [lia|discriminate]].
    exists (set_vl s L2). split.
    - cbn [vexec]. rewrite Hp. cbn [negb ensure rbind]. unfold redeem. cbv zeta.
      replace (0 <? issuance (vl s) vtx) with true by (symmetry; apply N.ltb_lt; lia). cbn [ensure rbind].
      replace ((0 <? v) && (v <=? balance (vl s) vtx who)) with true by (symmetry; apply andb_true_iff; split; [apply N.ltb_lt|apply N.leb_le]; assumption).
      cbn [ensure rbind]. rewrite Hst. cbn [same_status ensure rbind]. rewrite Hf. cbn [rbind]. rewrite Ebu. reflexivity.
    - intros a Ha. cbn [set_vl vl]. destruct (burn_spec _ _ _ _ _ Ebu HB1) as (_ & _ & Bb & _). specialize (Bb a who).
      assert (Hin : a ∈ assets s id) by (apply elem_of_list_In, assets_in; exact Ha).
      assert (a <> vtx) by (intros ->; rewrite (u_price _ _ _ HU) in Ha; destruct Ha; discriminate).
      rewrite decide_False in Bb by congruence. destruct (F2 a Hin) as (_ & _ & G3). specialize (Hfit a Ha).
      rewrite N.add_0_r in Bb. rewrite Bb, G3. unfold sat. rewrite N.min_l by exact Hfit. reflexivity.
  Qed.

  (** ** C68 *)
  Lemma XI_exec s o s' : vnew s o -> UI key vtx s -> XI s -> exec s o = Ok s' -> XI s'.
  Proof.
    intros Hg HU HX. destruct o as [new|o|o id|o id|id|o id ps|o id rs|o id|who id q|who a to q|a to q|a from q]; cbn [vexec]; intros Hs.
    - apply Ok_inj in Hs. subst s'. exact HX.
    - unfold create_dist in Hs. inv_ok. subst s'. intros j. rewrite status_set. cbn [set_stat set_next book tot]. destruct (N.eqb_spec (vnext s) j) as [Eij|]; [subst j|apply HX].
      intros _. destruct (u_new _ _ _ HU (vnext s) (N.le_refl _)) as (_ & _ & -> & Hb). unfold regsum. apply sumf_zero. intros [i w] e He. cbn.
      destruct (N.eqb_spec i (vnext s)) as [->|]; [|reflexivity]. rewrite Hb in He. discriminate.
    - unfold disable_dist in Hs. inv_ok. subst s'. intros j. rewrite status_set. destruct (id =? j); [discriminate|apply HX].
    - unfold start_dist in Hs. inv_ok. subst s'. intros j. rewrite status_set. cbn [set_stat set_tot set_vl book tot].
      destruct (N.eqb_spec id j) as [Eij|Hne]; [discriminate|]. rewrite getN_delete_ne by exact Hne. apply HX.
    - apply Ok_inj in Hs. subst s'. destruct (decide (status_of s id = Paying)) as [Hst|Hst]; [|rewrite pay_unsigned_idle by exact Hst; exact HX].
      destruct (pay_unsigned_shape key vault vtx batch s id inj Hst) as (d & fin & PC). rewrite (pc_next _ _ _ _ _ _ _ _ PC). cbv zeta.
      destruct (pays_other vault vtx id d s) as (_ & _ & Os & _ & Ot & _).
      intros j. set (t := fold_left (pay1 vault vtx id) d s) in *.
      set (u := if fin then set_stat t id Done else t). change (open_status (status_of u j) = true -> regsum (book u) j = getN (tot u) j).
      assert (Eb : book u = book t) by (unfold u; destruct fin; reflexivity). assert (Et : tot u = tot s) by (unfold u; destruct fin; exact Ot).
      rewrite Eb, Et. unfold t. rewrite pays_regsum. fold t. intros Hj. apply HX. revert Hj. unfold u. destruct fin; [rewrite status_set; destruct (id =? j); [discriminate|]|]; unfold status_of; rewrite Os; auto.
    - unfold asset_prices in Hs. inv_ok. subst s'. exact HX.
    - unfold register in Hs. inv_ok. cbv zeta in Hs. subst s'. cbn [vnew] in Hg. destruct Hg as (Hg & Hnd & Hfr).
      match goal with H : same_status (status_of s id) Enabled = true |- _ => apply same_iff in H; rename H into Hst end.
      change (fold_left (fun t r => note (set_book t (id, fst r) (snd r, false)) (EReg id (fst r) (snd r))) rs s) with (fold_left (reg1 id) rs s).
      rewrite wrap_sum by lia. destruct (reg1_other id rs s) as (_ & _ & _ & Es & _ & Et & _).
      intros j. cbn [set_tot book tot]. rewrite regsum_fresh by assumption. rewrite Et. unfold status_of. cbn [set_tot stat]. rewrite Es. intros Hj.
      specialize (HX j Hj). destruct (N.eqb_spec id j) as [Eij|Hne].
      + subst j. rewrite getN_insert. unfold sat. rewrite N.min_l by lia. lia.
      + rewrite getN_insert_ne by congruence. lia.
    - unfold trigger in Hs. inv_ok. subst s'.
      match goal with H : same_status (status_of s id) Enabled = true |- _ => apply same_iff in H; rename H into Hst end.
      intros j. rewrite status_set. cbn [set_stat set_vl book tot]. destruct (N.eqb_spec id j) as [Eij|]; [subst j|apply HX]. intros _. apply HX. rewrite Hst. reflexivity.
    - inv_ok. unfold redeem in Hs. inv_ok. subst s'. exact HX.
    - inv_ok. subst s'. exact HX.
    - inv_ok. subst s'. exact HX.
    - inv_ok. subst s'. exact HX.
  Qed.
  Lemma reached_XI s : reached_once s -> UI key vtx s /\ XI s.
  Proof.
    intros (ops & Ha & ->). apply (run_along step vnew (fun s => UI key vtx s /\ XI s)); [|exact Ha|].
    - intros t o Hg [H1 H2]. split; [apply UI_step; assumption|]. unfold vstep. destruct (exec t o) as [t'|] eqn:E; cbn [commit]; [|exact H2]. eapply XI_exec; eassumption.
    - split; [apply UI_init|]. intros id. unfold regsum, vinit. cbn [book tot]. rewrite sumf_empty, getN_empty. reflexivity.
  Qed.
  (** When no account is registered twice, starting a distribution creates exactly the vortex its
      accounts are owed. *)
  Theorem C68_mint_exact s o id s' : reached_once s -> exec s (VStart o id) = Ok s' ->
    issuance (vl s') vtx = issuance (vl s) vtx + regsum (book s) id /\ balance (vl s') vtx vault = balance (vl s) vtx vault + regsum (book s) id /\
    forall w, match book s !! (id, w) with Some (a, b) => b = false /\ due (vlog s) id w = Some a | None => due (vlog s) id w = None end.
  Proof.
    intros Hr Hs. destruct (reached_XI s Hr) as [HU HX]. cbn [vexec] in Hs. unfold start_dist in Hs. inv_ok. subst s'.
    match goal with H : same_status (status_of s id) Triggered = true |- _ => apply same_iff in H; rename H into Hst end.
    match goal with H : mint _ _ _ _ = Ok _ |- _ => destruct (mint_spec _ _ _ _ _ H) as (_ & X1 & X2 & _) end. cbn [set_stat set_tot set_vl vl].
    assert (Ho : open_status (status_of s id) = true) by (rewrite Hst; reflexivity).
    rewrite X1, X2, N.eqb_refl, decide_True by reflexivity. rewrite <- (HX id Ho). split; [reflexivity|]. split; [reflexivity|].
    intros w. pose proof (u_log _ _ _ HU id w) as Hl. destruct (book s !! (id, w)) as [[a b]|] eqn:Eb; [|apply Hl].
    split; [|apply Hl]. destruct (u_open _ _ _ HU id Ho) as [_ H2]. eapply H2. exact Eb.
  Qed.
End props.

(** ** Concrete histories and counterexamples *)
(** Accounts 1..; vault 100, root vault 101, fee vault 102; vortex is asset 2, native 1, another
    asset 3; batches of one. *)
Definition xk (x : N) : N := 7 * x mod 1000 + 1000 * x.
Lemma xk_inj x y : xk x = xk y -> x = y.
Proof.
  unfold xk. pose proof (N.mod_lt (7 * x) 1000 ltac:(discriminate)). pose proof (N.mod_lt (7 * y) 1000 ltac:(discriminate)). nodiv. lia.
Qed.
Definition xstep := vstep xk 100 101 102 2 1 1.
Definition xrun (ops : list vop) : vs := run xstep ops vinit.
Definition good_ops : list vop :=
  [VMint 3 102 1000; VMint 1 101 50; VCreate None; VPrices None 0 [(3, 5)]; VRegister None 0 [(1, 10); (2, 20)]; VRegister None 0 [(3, 30)];
   VTrigger None 0; VStart None 0].
Definition pay_ops : list vop := [VPay 0; VPay 0; VPay 0; VPay 0; VPay 0].

Example C28_history : let s := xrun (good_ops ++ pay_ops) in
  status_of s 0 = Done /\ paid (vlog s) 0 1 = [10] /\ paid (vlog s) 0 2 = [20] /\ paid (vlog s) 0 3 = [30] /\
  balance (vl s) 2 1 = 10 /\ balance (vl s) 2 3 = 30 /\ balance (vl s) 2 100 = 0 /\ balance (vl s) 3 100 = 1000 /\ balance (vl s) 1 100 = 50.
Proof. vm_compute. repeat split. Qed.
Example C28_hypotheses : along xstep vnew (good_ops ++ pay_ops) vinit /\ along xstep vgood (good_ops ++ pay_ops) vinit /\ status_of (xrun good_ops) 0 = Paying.
Proof.
  split; [|split; [|vm_compute; reflexivity]].
  - cbn [app good_ops pay_ops along]. repeat match goal with |- _ /\ _ => split | |- True => exact I end; unfold vnew;
    repeat match goal with |- _ /\ _ => split end; try exact I; try (vm_compute; discriminate);
    try (cbn; repeat constructor; rewrite ?elem_of_cons, ?elem_of_nil; intuition discriminate); try (repeat constructor; vm_compute; reflexivity).
  - cbn [app good_ops pay_ops along]. repeat match goal with |- _ /\ _ => split | |- True => exact I end; unfold vgood; try exact I; vm_compute; discriminate.
Qed.

(** The sum registered in one call wraps around: nothing is minted, every transfer fails, and yet
    the accounts are marked paid and the distribution ends as done. *)
Theorem C28_wrapped_sum_refuted : exists ops, let s := xrun ops in
  status_of s 0 = Done /\ due (vlog s) 0 1 = Some (2 ^ 127) /\ paid (vlog s) 0 1 = [] /\ balance (vl s) 2 1 = 0.
Proof.
  exists ([VCreate None; VRegister None 0 [(1, 2 ^ 127); (2, 2 ^ 127)]; VTrigger None 0; VStart None 0] ++ pay_ops).
  vm_compute. repeat split.
Qed.

Example C29_history : let s := xrun (good_ops ++ pay_ops) in let s' := xstep s (VRedeem 1 0 7) in
  balance (vl s') 3 1 = 7 * 1000 / 60 /\ balance (vl s') 3 100 = 1000 - 116 /\ issuance (vl s') 2 = 53 /\ balance (vl s') 2 1 = 3 /\
  along xstep (no_new_vortex 2) [VRedeem 1 0 7; VRedeem 2 0 20; VMint 3 100 5; VRedeem 3 0 30] s.
Proof. vm_compute. intuition congruence. Qed.

(** The product saturates: the share paid for 10^12 units of vortex out of 2 * 10^12, with 10^28 units
    of an asset (ten billion tokens of 18 decimals) in the vault, should be half of it, but is only about a
    thirtieth. *)
Theorem C67_saturation_refuted : exists ops who id v a, let s := xrun ops in
  status_of s id = Done /\ 0 < v /\ v <= balance (vl s) 2 who /\ is_Some (prices s !! (id, a)) /\
  match vexec xk 100 101 102 2 1 1 s (VRedeem who id v) with
  | Ok s' => balance (vl s') a who < balance (vl s) a who + v * balance (vl s) a 100 / issuance (vl s) 2 /\
             20 * (balance (vl s') a who - balance (vl s) a who) < balance (vl s) a 100
  | Err _ => False
  end.
Proof.
  exists ([VMint 3 102 (10 ^ 28); VCreate None; VPrices None 0 [(3, 5)]; VRegister None 0 [(1, 10 ^ 12); (2, 10 ^ 12)];
   VTrigger None 0; VStart None 0] ++ pay_ops), 1, 0, (10 ^ 12), 3.
  cbv zeta. split; [vm_compute; reflexivity|]. split; [vm_compute; reflexivity|]. split; [vm_compute; discriminate|].
  split; [vm_compute; eauto|]. vm_compute. split; reflexivity.
Qed.
Example C67_hypotheses : let s := xrun (good_ops ++ pay_ops) in
  status_of s 0 = Done /\ 7 <= balance (vl s) 2 1 /\ pot 100 101 102 1 = false /\ 7 * balance (vl s) 3 100 <= U128MAX.
Proof. vm_compute. repeat split; discriminate. Qed.

(** Registering an account again replaces its entry but adds to the total: more vortex is created
    than anybody is owed, it stays in the vault, and redeemers get a smaller share. *)
Theorem C68_reregistered_refuted : exists ops, along xstep vgood ops vinit /\ let s := xrun ops in
  status_of s 0 = Done /\ issuance (vl s) 2 = 30 /\ regsum (book s) 0 = 20 /\ balance (vl s) 2 100 = 10 /\
  balance (vl (xstep (xstep s (VRedeem 1 0 5)) (VRedeem 2 0 15))) 3 100 = 334.
Proof.
  exists ([VMint 3 102 1000; VCreate None; VPrices None 0 [(3, 5)]; VRegister None 0 [(1, 10); (2, 15)]; VRegister None 0 [(1, 5)];
   VTrigger None 0; VStart None 0] ++ pay_ops).
  split.
  - cbn [app pay_ops along]. repeat match goal with |- _ /\ _ => split | |- True => exact I end; unfold vgood; try exact I; vm_compute; discriminate.
  - vm_compute. repeat split.
Qed.

Print Assumptions C28_at_most_once.
Print Assumptions C28_finished_paid_all.
Print Assumptions C28_events_are_payments.
Print Assumptions C28_only_payouts_pay.
Print Assumptions C28_finishes.
Print Assumptions C28_wrapped_sum_refuted.
Print Assumptions C29_redeem.
Print Assumptions C29_no_dilution.
Print Assumptions C67_redeem_full_share.
Print Assumptions C67_saturation_refuted.
Print Assumptions C68_mint_exact.
Print Assumptions C68_reregistered_refuted.
