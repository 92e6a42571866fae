(** The vault covers what is owed: preservation of the conditional invariant. *)
From Verif Require Export VortexInv.

Lemma owed_mono s t : book t = book s -> (forall j, is_paying t j = true -> is_paying s j = true) -> owed t <= owed s.
Proof.
  intros Eb Hp. unfold owed. rewrite Eb. apply sumf_le. intros [j w] [a b] _. cbn [fst snd].
  destruct (is_paying t j) eqn:E; [rewrite (Hp j E); lia|]. cbn [andb]. lia.
Qed.

Lemma safe_transfer_spec (l : ledger N) a from to v l' : safe_transfer l a from to v = Ok l' ->
  v <= balance l a from /\ iss l' = iss l /\
  (forall b y, balance l' b y + (if decide ((a, from) = (b, y)) then v else 0) = balance l b y + (if decide ((a, to) = (b, y)) then v else 0)).
Proof.
  unfold safe_transfer. destruct (N.eqb_spec v 0) as [->|]; [|apply transfer_spec]. intros E. apply Ok_inj in E. subst l'. split; [lia|]. split; [reflexivity|].
  intros b y. destruct (decide _), (decide _); lia.
Qed.
Lemma safe_transfer_books (l : ledger N) a from to v l' : safe_transfer l a from to v = Ok l' -> books l -> books l'.
Proof. unfold safe_transfer. destruct (v =? 0); [intros E; apply Ok_inj in E; subst; auto|apply transfer_books]. Qed.
Lemma safe_transfer_ok (l : ledger N) a from to v : books l -> v <= balance l a from -> exists l', safe_transfer l a from to v = Ok l'.
Proof. intros Hb Hv. unfold safe_transfer. destruct (v =? 0); [eauto|apply transfer_ok; assumption]. Qed.

Lemma GI_pay1 vault vtx id s w : log_ok s -> status_of s id = Paying -> GI vault vtx s -> GI vault vtx (pay1 vault vtx id s w).
Proof.
  intros HL Hst HG. unfold pay1. destruct (book s !! (id, w)) as [[amt []]|] eqn:Ew; try exact HG.
  assert (Hpay : is_paying s id = true) by (unfold is_paying; rewrite Hst; reflexivity).
  set (f := fun (k : N * N) (e : N * bool) => if is_paying s (fst k) && negb (snd e) then fst e else 0).
  assert (Hc : contrib f (book s) (id, w) = amt) by (unfold contrib; rewrite Ew; unfold f; cbn [fst snd]; rewrite Hpay; reflexivity).
  pose proof (sumf_contrib_le f (book s) (id, w)) as Hle. rewrite Hc in Hle. change (sumf f (book s)) with (owed s) in Hle.
  pose proof (sumf_insert f (book s) (id, w) (amt, true)) as Hi. rewrite Hc in Hi. change (sumf f (book s)) with (owed s) in Hi.
  assert (Hf0 : f (id, w) (amt, true) = 0) by (unfold f; cbn [fst snd negb]; rewrite andb_false_r; reflexivity). rewrite Hf0 in Hi.
  pose proof (g_owed _ _ _ HG) as Ho.
  destruct (safe_transfer_ok (vl s) vtx vault w amt (g_books _ _ _ HG) ltac:(lia)) as [l Hl]. rewrite Hl.
  set (s' := set_book _ _ _). destruct (safe_transfer_spec _ _ _ _ _ _ Hl) as (_ & _ & Hbal). specialize (Hbal vtx vault).
  rewrite (decide_True_pi eq_refl) in Hbal || (destruct (decide ((vtx, vault) = (vtx, vault))) as [_|X]; [|congruence]).
  split.
  - exact (safe_transfer_books _ _ _ _ _ _ Hl (g_books _ _ _ HG)).
  - change (owed s') with (sumf f (<[(id, w) := (amt, true)]> (book s))). change (vl s') with l.
    destruct (decide ((vtx, w) = (vtx, vault))); lia.
  - intros j Hj. change (open_status (status_of s j) = true) in Hj. change (tot s') with (tot s).
    change (book s') with (<[(id, w) := (amt, true)]> (book s)).
    pose proof (g_tot _ _ _ HG j Hj) as Ht. unfold regsum in *.
    pose proof (sumf_insert (fun k (e : N * bool) => if fst k =? j then fst e else 0) (book s) (id, w) (amt, true)) as Hr.
    unfold contrib in Hr. rewrite Ew in Hr. cbn [fst] in Hr. lia.
  - intros i x a Hb. change (book s') with (<[(id, w) := (amt, true)]> (book s)) in Hb. change (vlog s') with (vlog s ++ [EPaid id w amt]).
    destruct (decide ((i, x) = (id, w))) as [E|Hne].
    + injection E as -> ->. rewrite lookup_insert in Hb. injection Hb as <-. rewrite paid_app. pose proof (HL id w) as Hx. rewrite Ew in Hx.
      destruct Hx as [[->|[Hx _]] _]; [|discriminate]. cbn. rewrite !N.eqb_refl. reflexivity.
    + rewrite lookup_insert_ne in Hb by congruence. destruct (log_other (vlog s) id w i x Hne) as [H1 _]. destruct (H1 amt) as [-> _].
      apply (g_paid _ _ _ HG). exact Hb.
Qed.
Lemma GI_pays vault vtx id d : forall s, log_ok s -> status_of s id = Paying -> GI vault vtx s -> GI vault vtx (fold_left (pay1 vault vtx id) d s).
Proof.
  induction d as [|w d IH]; intros s HL Hst HG; cbn; [exact HG|]. apply IH.
  - apply pay1_log_ok; exact HL.
  - unfold status_of. destruct (pay1_other vault vtx id s w) as (_ & _ & -> & _). exact Hst.
  - apply GI_pay1; assumption.
Qed.
Lemma GI_quiet vault vtx s t : GI vault vtx s -> vl t = vl s -> book t = book s -> vlog t = vlog s -> tot t = tot s ->
  (forall j, is_paying t j = true -> is_paying s j = true) ->
  (forall j, open_status (status_of t j) = true -> open_status (status_of s j) = true \/ (forall w, book s !! (j, w) = None)) -> GI vault vtx t.
Proof.
  intros HG El Eb Eg Et Hp Ho. split.
  - rewrite El. apply HG.
  - rewrite El. pose proof (owed_mono s t Eb Hp). pose proof (g_owed _ _ _ HG). lia.
  - intros j Hj. rewrite Eb, Et. destruct (Ho j Hj) as [H|H]; [apply (g_tot _ _ _ HG); exact H|].
    unfold regsum. rewrite sumf_zero; [lia|]. intros [i w] e He. cbn. destruct (N.eqb_spec i j) as [->|]; [|reflexivity]. rewrite H in He. discriminate.
  - rewrite Eb, Eg. apply (g_paid _ _ _ HG).
Qed.
Lemma GI_pay key vault vtx batch s id : (forall x y, key x = key y -> x = y) -> UI key vtx s -> GI vault vtx s -> GI vault vtx (pay_unsigned key vault vtx batch s id).
Proof.
  intros inj HU HG. destruct (decide (status_of s id = Paying)) as [Hst|Hst]; [|rewrite pay_unsigned_idle by exact Hst; exact HG].
  destruct (pay_unsigned_shape key vault vtx batch s id inj Hst) as (d & fin & PC). rewrite (pc_next _ _ _ _ _ _ _ _ PC).
  pose proof (GI_pays vault vtx id d s (u_log _ _ _ HU) Hst HG) as HG'. set (t := fold_left (pay1 vault vtx id) d s) in *. clearbody t.
  cbv zeta. eapply GI_quiet; [exact HG'| | | | | |]; try (destruct fin; reflexivity).
  - intros j. destruct fin; [|intros H; exact H]. unfold is_paying. change (status_of (set_pivot (set_stat t id Done) id (last_key key d (default None (pivot s !! id)))) j) with (status_of (set_stat t id Done) j).
    rewrite status_set. destruct (id =? j); [discriminate|auto].
  - intros j. destruct fin; [|intros H; left; exact H]. change (status_of (set_pivot (set_stat t id Done) id (last_key key d (default None (pivot s !! id)))) j) with (status_of (set_stat t id Done) j).
    rewrite status_set. destruct (id =? j); [discriminate|auto].
Qed.

(** ** Registration *)
Definition total_of (rs : list (N * N)) : N := sumL (map snd rs).
Lemma GI_reg1 key vault vtx s id r T : UI key vtx s -> status_of s id = Enabled ->
  books (vl s) -> owed s <= balance (vl s) vtx vault ->
  (forall j, open_status (status_of s j) = true -> regsum (book s) j <= getN (tot s) j + if j =? id then T else 0) ->
  (forall i w a, book s !! (i, w) = Some (a, true) -> paid (vlog s) i w = [a]) ->
  let t := reg1 id s r in
  books (vl t) /\ owed t <= balance (vl t) vtx vault /\
  (forall j, open_status (status_of t j) = true -> regsum (book t) j <= getN (tot t) j + if j =? id then T + snd r else 0) /\
  (forall i w a, book t !! (i, w) = Some (a, true) -> paid (vlog t) i w = [a]).
Proof.
  intros HU Hst H1 H2 H3 H4 t. destruct r as [w a]. cbn [snd]. split; [exact H1|]. split; [|split].
  - change (vl t) with (vl s). 
    set (f := fun (k : N * N) (e : N * bool) => if is_paying s (fst k) && negb (snd e) then fst e else 0).
    change (owed t) with (sumf f (<[(id, w) := (a, false)]> (book s))). change (owed s) with (sumf f (book s)) in H2.
    pose proof (sumf_insert f (book s) (id, w) (a, false)) as Hi.
    assert (Hn : is_paying s id = false) by (unfold is_paying; rewrite Hst; reflexivity).
    assert (Hf : f (id, w) (a, false) = 0) by (unfold f; cbn [fst]; rewrite Hn; reflexivity). lia.
  - intros j Hj. change (open_status (status_of s j) = true) in Hj. specialize (H3 j Hj). change (tot t) with (tot s).
    change (book t) with (<[(id, w) := (a, false)]> (book s)). unfold regsum in *.
    pose proof (sumf_insert (fun k (e : N * bool) => if fst k =? j then fst e else 0) (book s) (id, w) (a, false)) as Hr. cbn [fst] in Hr.
    rewrite (N.eqb_sym j id) in *. destruct (id =? j); lia.
  - intros i x c Hb. change (book t) with (<[(id, w) := (a, false)]> (book s)) in Hb. change (vlog t) with (vlog s ++ [EReg id w a]).
    destruct (decide ((i, x) = (id, w))) as [E|Hne]; [rewrite E, lookup_insert in Hb; discriminate|].
    rewrite lookup_insert_ne in Hb by congruence. destruct (log_other (vlog s) id w i x Hne) as [_ G1]. destruct (G1 a) as [-> _]. apply H4. exact Hb.
Qed.
Lemma GI_regs key vault vtx id rs : forall s T, UI key vtx s -> status_of s id = Enabled ->
  books (vl s) -> owed s <= balance (vl s) vtx vault ->
  (forall j, open_status (status_of s j) = true -> regsum (book s) j <= getN (tot s) j + if j =? id then T else 0) ->
  (forall i w a, book s !! (i, w) = Some (a, true) -> paid (vlog s) i w = [a]) ->
  let t := fold_left (reg1 id) rs s in
  books (vl t) /\ owed t <= balance (vl t) vtx vault /\
  (forall j, open_status (status_of t j) = true -> regsum (book t) j <= getN (tot t) j + if j =? id then T + total_of rs else 0) /\
  (forall i w a, book t !! (i, w) = Some (a, true) -> paid (vlog t) i w = [a]).
Proof.
  induction rs as [|r rs IH]; intros s T HU Hst H1 H2 H3 H4; cbn [fold_left].
  - cbv zeta. repeat (split; [assumption|]). split; [|assumption]. intros j Hj. specialize (H3 j Hj). unfold total_of. cbn. rewrite N.add_0_r. exact H3.
  - destruct (GI_reg1 key vault vtx s id r T HU Hst H1 H2 H3 H4) as (G1 & G2 & G3 & G4).
    destruct (IH (reg1 id s r) (T + snd r) (UI_reg1 key vtx s id r HU Hst) Hst G1 G2 G3 G4) as (F1 & F2 & F3 & F4).
    cbv zeta. repeat (split; [assumption|]). split; [|assumption]. intros j Hj. specialize (F3 j Hj). unfold total_of, sumL in *. cbn [map fold_right]. rewrite N.add_assoc. exact F3.
Qed.
Lemma wrap_sum rs : forall acc, acc + total_of rs <= U128MAX -> fold_left (fun acc (r : N * N) => (acc + snd r) mod 2 ^ 128) rs acc = acc + total_of rs.
Proof.
  induction rs as [|r rs IH]; intros acc H; cbn [fold_left]; [unfold total_of; cbn; lia|].
  unfold total_of, sumL in *. cbn [map fold_right] in *.
  rewrite N.mod_small by (unfold U128MAX in H; lia). rewrite IH; lia.
Qed.

(** The condition on histories: the rewards registered for a distribution fit in a balance. *)
Definition vgood (s : vs) (o : vop) : Prop :=
  match o with VRegister _ id rs => getN (tot s) id + total_of rs <= U128MAX | _ => True end.
(** A stronger one: moreover no account is registered twice. *)
Definition vnew (s : vs) (o : vop) : Prop :=
  match o with
  | VRegister _ id rs => getN (tot s) id + total_of rs <= U128MAX /\ NoDup (map fst rs) /\ Forall (fun r => book s !! (id, fst r) = None) rs
  | _ => True end.

(** Transfers of other assets do not touch vortex. *)
Lemma sweep_fold (vtx : N) (amt : ledger N -> N -> N) (from to : N) las : ~ In vtx las -> forall l l',
  fold_left (fun r a => do! l <- r; safe_transfer l a from to (amt l a)) las (Ok l) = Ok l' ->
  (books l -> books l') /\ iss l' = iss l /\ (forall y, balance l' vtx y = balance l vtx y).
Proof.
  induction las as [|a las IH]; intros Hn l l' H; cbn [fold_left] in H; [apply Ok_inj in H; subst; auto|].
  cbn [rbind] in H. destruct (safe_transfer l a from to (amt l a)) as [l1|c] eqn:E.
  - destruct (IH ltac:(cbn in Hn; tauto) l1 l' H) as (H1 & H2 & H3). destruct (safe_transfer_spec _ _ _ _ _ _ E) as (_ & Ei & Eb).
    split; [intros Hb; apply H1; eapply safe_transfer_books; eassumption|]. split; [congruence|]. intros y. rewrite H3. specialize (Eb vtx y).
    assert (a <> vtx) by (cbn in Hn; tauto). rewrite !decide_False in Eb by congruence. lia.
  - exfalso. clear -H. induction las as [|b las IHl]; cbn in H; [discriminate|auto].
Qed.

Lemma GI_money key vault vtx s l : UI key vtx s -> GI vault vtx s -> books l -> balance (vl s) vtx vault <= balance l vtx vault -> GI vault vtx (set_vl s l).
Proof.
  intros HU [H1 H2 H3 H4] Hb Hv. split; try assumption. change (owed (set_vl s l)) with (owed s). cbn [set_vl vl]. lia.
Qed.

Section steps.
  Variable key : N -> N.
  Variable vault rootv feev vtx native batch : N.
  Local Notation exec := (vexec key vault rootv feev vtx native batch).
  Local Notation step := (vstep key vault rootv feev vtx native batch).

  Lemma not_priced s id : UI key vtx s -> ~ In vtx (assets s id).
  Proof. intros HU Hin. apply assets_in in Hin. rewrite (u_price _ _ _ HU) in Hin. destruct Hin. discriminate. Qed.

  Lemma GI_exec s o s' : (forall x y, key x = key y -> x = y) -> native <> vtx -> vgood s o -> UI key vtx s -> GI vault vtx s -> exec s o = Ok s' -> GI vault vtx s'.
  Proof.
    intros inj Hnat Hg HU HG. destruct o as [new|o|o id|o id|id|o id ps|o id rs|o id|who id q|who a to q|a to q|a from q]; cbn [vexec]; intros Hs.
    - apply Ok_inj in Hs. subst s'. destruct HG as [H1 H2 H3 H4]. split; assumption.
    - unfold create_dist in Hs. inv_ok. subst s'. eapply GI_quiet; [exact HG|reflexivity|reflexivity|reflexivity|reflexivity| |].
      + intros j. unfold is_paying. rewrite status_set. destruct (_ =? _); [discriminate|auto].
      + intros j. rewrite status_set. destruct (N.eqb_spec (vnext s) j) as [Eij|]; [subst j|auto]. intros _. right. apply (u_new _ _ _ HU). lia.
    - unfold disable_dist in Hs. inv_ok. subst s'. eapply GI_quiet; [exact HG|reflexivity|reflexivity|reflexivity|reflexivity| |].
      + intros j. unfold is_paying. rewrite status_set. destruct (_ =? _); [discriminate|auto].
      + intros j. rewrite status_set. destruct (_ =? _); [discriminate|auto].
    - unfold start_dist in Hs. inv_ok.
      match goal with H : same_status (status_of s id) Triggered = true |- _ => apply same_iff in H; rename H into Hst end.
      match goal with H : mint _ _ _ _ = Ok ?l |- _ => rename H into Hm; rename l into L end. subst s'.
      pose proof (mint_books _ _ _ _ _ Hm (g_books _ _ _ HG)) as HB. destruct (mint_spec _ _ _ _ _ Hm) as (_ & _ & Hbal & _).
      specialize (Hbal vtx vault). destruct (decide ((vtx, vault) = (vtx, vault))) as [_|X]; [|congruence].
      pose proof (g_tot _ _ _ HG id) as Ht. rewrite Hst in Ht. specialize (Ht eq_refl). pose proof (g_owed _ _ _ HG) as Ho.
      set (s' := set_stat _ _ _).
      assert (Hp : forall j, is_paying s' j = (id =? j) || is_paying s j).
      { intros j. unfold is_paying, s'. rewrite status_set. destruct (id =? j); reflexivity. }
      assert (Hn : is_paying s id = false) by (unfold is_paying; rewrite Hst; reflexivity).
      assert (Hle : owed s' <= owed s + regsum (book s) id).
      { unfold owed, regsum. rewrite <- sumf_add. change (book s') with (book s). apply sumf_le. intros [j w] [c b] _. cbn [fst snd]. rewrite Hp.
        rewrite (N.eqb_sym id j). destruct (N.eqb_spec j id) as [->|]; [rewrite Hn; cbn; destruct b; cbn; lia|]. cbn [orb]. lia. }
      split.
      + exact HB.
      + change (vl s') with L. lia.
      + intros j Hj. unfold s' in Hj. rewrite status_set in Hj. change (book s') with (book s). change (tot s') with (delete id (tot s)).
        destruct (N.eqb_spec id j) as [Eij|Hne]; [discriminate|]. rewrite getN_delete_ne by exact Hne. apply (g_tot _ _ _ HG). exact Hj.
      + exact (g_paid _ _ _ HG).
    - apply Ok_inj in Hs. subst s'. apply GI_pay; assumption.
    - unfold asset_prices in Hs. inv_ok. subst s'. destruct HG as [H1 H2 H3 H4]. split; assumption.
    - unfold register in Hs. inv_ok. cbv zeta in Hs. subst s'. cbn [vgood] in Hg.
      match goal with H : same_status (status_of s id) Enabled = true |- _ => apply same_iff in H; rename H into Hst end.
      change (fold_left (fun t r => note (set_book t (id, fst r) (snd r, false)) (EReg id (fst r) (snd r))) rs s) with (fold_left (reg1 id) rs s).
      rewrite wrap_sum by lia.
      destruct (reg1_other id rs s) as (_ & _ & _ & Es & _ & Et & _).
      destruct (GI_regs key vault vtx id rs s 0 HU Hst (g_books _ _ _ HG) (g_owed _ _ _ HG)) as (F1 & F2 & F3 & F4).
      { intros j Hj. destruct (j =? id); rewrite N.add_0_r; apply (g_tot _ _ _ HG); exact Hj. }
      { exact (g_paid _ _ _ HG). }
      set (t := fold_left (reg1 id) rs s) in *. clearbody t. split; try assumption.
      cbn [set_tot tot book]. intros j Hj. change (open_status (status_of t j) = true) in Hj. specialize (F3 j Hj). rewrite Et in *.
      destruct (N.eqb_spec j id) as [Eij|Hne].
      + subst j. rewrite getN_insert. unfold sat. rewrite N.min_l by lia. lia.
      + rewrite getN_insert_ne by congruence. lia.
    - unfold trigger in Hs. inv_ok. subst s'.
      match goal with H : same_status (status_of s id) Enabled = true |- _ => apply same_iff in H; rename H into Hst end.
      match goal with H : fold_left _ _ _ = Ok ?l |- _ => rename H into Hf; rename l into L1 end.
      match goal with H : safe_transfer L1 _ _ _ _ = Ok ?l |- _ => rename H into Hx; rename l into L2 end.
      destruct (sweep_fold vtx (fun l a => balance l a feev) feev vault (assets s id) (not_priced s id HU) _ _ Hf) as (Hb1 & _ & Hv1).
      destruct (safe_transfer_spec _ _ _ _ _ _ Hx) as (_ & _ & Hb2). specialize (Hb2 vtx vault). rewrite !decide_False in Hb2 by congruence.
      pose proof (safe_transfer_books _ _ _ _ _ _ Hx (Hb1 (g_books _ _ _ HG))) as HB.
      assert (HG' : GI vault vtx (set_vl s L2)) by (apply (GI_money key); try assumption; rewrite <- Hv1; lia).
      eapply GI_quiet; [exact HG'|reflexivity|reflexivity|reflexivity|reflexivity| |].
      + intros j. unfold is_paying. rewrite status_set. destruct (_ =? _); [discriminate|auto].
      + intros j. rewrite status_set. destruct (N.eqb_spec id j) as [Eij|]; [subst j|auto]. intros _. left. change (open_status (status_of s id) = true). rewrite Hst. reflexivity.
    - inv_ok. unfold redeem in Hs. inv_ok. subst s'.
      match goal with H : fold_left _ _ _ = Ok ?l |- _ => rename H into Hf; rename l into L1 end.
      match goal with H : burn L1 _ _ _ = Ok ?l |- _ => rename H into Hx; rename l into L2 end.
      destruct (sweep_fold vtx (fun l a => sat U128MAX (q * balance l a vault) / issuance (vl s) vtx) vault who (assets s id) (not_priced s id HU) _ _ Hf) as (Hb1 & _ & Hv1).
      specialize (Hb1 (g_books _ _ _ HG)). pose proof (burn_books _ _ _ _ _ Hx Hb1) as HB. destruct (burn_spec _ _ _ _ _ Hx Hb1) as (_ & _ & Hb2 & _). specialize (Hb2 vtx vault).
      match goal with H : negb (pot _ _ _ _) = true |- _ => rename H into Hpot end. unfold pot in Hpot.
      assert (who <> vault) by (destruct (N.eqb_spec who vault); [discriminate|assumption]). rewrite decide_False in Hb2 by congruence.
      apply (GI_money key); try assumption. rewrite <- Hv1. lia.
    - inv_ok. subst s'. match goal with H : transfer _ _ _ _ _ = Ok ?l |- _ => rename H into Hx; rename l into L1 end.
      match goal with H : negb (pot _ _ _ _) = true |- _ => rename H into Hpot end. unfold pot in Hpot.
      assert (who <> vault) by (destruct (N.eqb_spec who vault); [discriminate|assumption]).
      apply (GI_money key); try assumption; [exact (transfer_books _ _ _ _ _ _ Hx (g_books _ _ _ HG))|].
      destruct (transfer_spec _ _ _ _ _ _ Hx) as (_ & _ & Hb2). specialize (Hb2 vtx vault). rewrite (decide_False (P := (a, who) = (vtx, vault))) in Hb2 by congruence. lia.
    - inv_ok. subst s'. match goal with H : mint _ _ _ _ = Ok ?l |- _ => rename H into Hx; rename l into L1 end.
      apply (GI_money key); try assumption; [exact (mint_books _ _ _ _ _ Hx (g_books _ _ _ HG))|].
      destruct (mint_spec _ _ _ _ _ Hx) as (_ & _ & Hb2 & _). rewrite Hb2. lia.
    - inv_ok. subst s'. match goal with H : burn _ _ _ _ = Ok ?l |- _ => rename H into Hx; rename l into L1 end.
      match goal with H : negb (pot _ _ _ _) = true |- _ => rename H into Hpot end. unfold pot in Hpot.
      assert (from <> vault) by (destruct (N.eqb_spec from vault); [discriminate|assumption]).
      apply (GI_money key); try assumption; [exact (burn_books _ _ _ _ _ Hx (g_books _ _ _ HG))|].
      destruct (burn_spec _ _ _ _ _ Hx (g_books _ _ _ HG)) as (_ & _ & Hb2 & _). specialize (Hb2 vtx vault). rewrite decide_False in Hb2 by congruence. lia.
  Qed.
  Lemma GI_step s o : (forall x y, key x = key y -> x = y) -> native <> vtx -> vgood s o -> UI key vtx s -> GI vault vtx s -> GI vault vtx (step s o).
  Proof. intros inj Hn Hg HU HG. unfold vstep. destruct (exec s o) as [s'|] eqn:E; cbn [commit]; [eapply GI_exec; eassumption|exact HG]. Qed.
End steps.
Lemma GI_init vault vtx : GI vault vtx vinit.
Proof.
  split.
  - apply empty_books.
  - unfold owed, vinit. cbn [book]. rewrite sumf_empty. apply N.le_0_l.
  - intros id Hid. unfold regsum, vinit. cbn [book]. rewrite sumf_empty. lia.
  - intros id w a. unfold vinit. cbn [book]. rewrite lookup_empty. discriminate.
Qed.
