(** Invariants of the vortex distribution model. *)
From Verif Require Export VortexProofs.

#[global] Instance vstatus_dec : EqDecision vstatus.
Proof. solve_decision. Defined.
Definition open_status (x : vstatus) : bool := match x with Enabled | Triggered => true | _ => false end.
Definition is_paying (s : vs) (id : N) : bool := same_status (status_of s id) Paying.
Lemma same_iff x y : same_status x y = true <-> x = y.
Proof. destruct x, y; cbn; split; congruence. Qed.

(** What holds after any history: payout flags against the pivot, the log against the orderbook. *)
Record UI (key : N -> N) (vtx : N) (s : vs) : Prop := {
  u_new : forall id, vnext s <= id -> stat s !! id = None /\ pivot s !! id = None /\ getN (tot s) id = 0 /\ forall w, book s !! (id, w) = None;
  u_open : forall id, open_status (status_of s id) = true -> pivot s !! id = None /\ forall w a b, book s !! (id, w) = Some (a, b) -> b = false;
  u_pay : forall id k w a b, status_of s id = Paying -> pivot s !! id = Some (Some k) -> book s !! (id, w) = Some (a, b) -> key w <= k -> b = true;
  u_done : forall id w a b, status_of s id = Done -> book s !! (id, w) = Some (a, b) -> b = true;
  u_log : forall id w, match book s !! (id, w) with
            | None => paid (vlog s) id w = [] /\ due (vlog s) id w = None
            | Some (a, b) => (paid (vlog s) id w = [] \/ b = true /\ paid (vlog s) id w = [a]) /\ due (vlog s) id w = Some a
            end;
  u_price : forall id, prices s !! (id, vtx) = None }.

(** The amounts of the accounts of a distribution; what is still owed by those being paid. *)
Definition regsum (b : gmap (N * N) (N * bool)) (id : N) : N := sumf (fun k e => if fst k =? id then fst e else 0) b.
Definition owed (s : vs) : N := sumf (fun k e => if is_paying s (fst k) && negb (snd e) then fst e else 0) (book s).
(** What holds when the sums registered for a distribution fit in a balance. *)
Record GI (vault vtx : N) (s : vs) : Prop := {
  g_books : books (vl s);
  g_owed : owed s <= balance (vl s) vtx vault;
  g_tot : forall id, open_status (status_of s id) = true -> regsum (book s) id <= getN (tot s) id;
  g_paid : forall id w a, book s !! (id, w) = Some (a, true) -> paid (vlog s) id w = [a] }.

Lemma status_set s id x j : status_of (set_stat s id x) j = if id =? j then x else status_of s j.
Proof.
  unfold status_of, set_stat. cbn [stat]. destruct (N.eqb_spec id j) as [->|Hne]; [rewrite lookup_insert; reflexivity|].
  rewrite lookup_insert_ne by exact Hne. reflexivity.
Qed.
Lemma status_lt key vtx s id : UI key vtx s -> status_of s id <> Disabled -> id < vnext s.
Proof.
  intros HU Hs. destruct (N.lt_ge_cases id (vnext s)) as [|Hge]; [assumption|exfalso].
  destruct (u_new _ _ _ HU id Hge) as [E _]. apply Hs. unfold status_of. rewrite E. reflexivity.
Qed.

(** ** Payment of one entry *)
Lemma log_other (l : list vevent) id w i x : (i, x) <> (id, w) ->
  (forall a, paid (l ++ [EPaid id w a]) i x = paid l i x /\ due (l ++ [EPaid id w a]) i x = due l i x) /\
  (forall a, paid (l ++ [EReg id w a]) i x = paid l i x /\ due (l ++ [EReg id w a]) i x = due l i x).
Proof.
  intros Hne. assert (Hb : (id =? i) && (w =? x) = false).
  { destruct (N.eqb_spec id i) as [->|]; [|reflexivity]. destruct (N.eqb_spec w x) as [->|]; [congruence|reflexivity]. }
  split; intros a; rewrite paid_app, due_snoc; cbn; rewrite ?Hb, ?app_nil_r; split; reflexivity.
Qed.
Lemma pay1_log vault vtx id s w : vlog (pay1 vault vtx id s w) = vlog s ++
  match book s !! (id, w) with
  | Some (amt, false) => match safe_transfer (vl s) vtx vault w amt with Ok _ => [EPaid id w amt] | Err _ => [] end
  | _ => [] end.
Proof.
  unfold pay1. destruct (book s !! (id, w)) as [[amt []]|]; rewrite ?app_nil_r; try reflexivity.
  destruct (safe_transfer _ _ _ _ _); cbn; rewrite ?app_nil_r; reflexivity.
Qed.
Definition log_ok (s : vs) : Prop := forall id w, match book s !! (id, w) with
            | None => paid (vlog s) id w = [] /\ due (vlog s) id w = None
            | Some (a, b) => (paid (vlog s) id w = [] \/ b = true /\ paid (vlog s) id w = [a]) /\ due (vlog s) id w = Some a
            end.
Lemma pay1_log_ok vault vtx id s w : log_ok s -> log_ok (pay1 vault vtx id s w).
Proof.
  intros HL i x. rewrite pay1_book, pay1_log. pose proof (HL id w) as Hw. pose proof (HL i x) as Hx.
  destruct (book s !! (id, w)) as [[amt []]|] eqn:Ew; rewrite ?app_nil_r; try exact Hx.
  destruct (decide ((i, x) = (id, w))) as [E|Hne].
  - injection E as -> ->. rewrite lookup_insert. destruct Hw as [[Hp|[Hf _]] Hd]; [|discriminate].
    destruct (safe_transfer _ _ _ _ _); [|rewrite app_nil_r; auto].
    rewrite paid_app, Hp, due_snoc. cbn. rewrite !N.eqb_refl. cbn. auto.
  - rewrite lookup_insert_ne by congruence.
    destruct (log_other (vlog s) id w i x Hne) as [H1 _]. destruct (H1 amt) as [E1 E2].
    destruct (safe_transfer _ _ _ _ _); rewrite ?app_nil_r, ?E1, ?E2; exact Hx.
Qed.

(** ** Unconditional invariant *)
Lemma UI_pay key vault vtx batch s id : (forall x y, key x = key y -> x = y) -> UI key vtx s -> UI key vtx (pay_unsigned key vault vtx batch s id).
Proof.
  intros inj HU. destruct (decide (status_of s id = Paying)) as [Hst|Hst]; [|rewrite pay_unsigned_idle by exact Hst; exact HU].
  destruct (pay_unsigned_shape key vault vtx batch s id inj Hst) as (d & fin & PC). rewrite (pc_next _ _ _ _ _ _ _ _ PC).
  set (t := fold_left (pay1 vault vtx id) d s). set (from := default None (pivot s !! id)) in *.
  destruct (pays_other vault vtx id d s) as (On & Oa & Os & Op & Ot & Ov). fold t in On, Oa, Os, Op, Ot, Ov.
  assert (Hlt : id < vnext s) by (apply (status_lt key vtx s id HU); congruence).
  assert (HL : log_ok t). { apply (pays_ind log_ok); [intros; apply pay1_log_ok; assumption|]. exact (u_log _ _ _ HU). }
  set (t' := set_pivot (if fin then set_stat t id Done else t) id (last_key key d from)).
  assert (Bt : book t' = book t) by (unfold t'; destruct fin; reflexivity).
  assert (Sj : forall j, status_of t' j = if fin && (id =? j) then Done else status_of s j).
  { intros j. transitivity (status_of (if fin then set_stat t id Done else t) j); [reflexivity|].
    destruct fin; cbn [andb]; [rewrite status_set|]; unfold status_of; rewrite Os; reflexivity. }
  assert (Pj : forall j, pivot t' !! j = if id =? j then Some (last_key key d from) else pivot s !! j).
  { intros j. assert (E : pivot t' = <[id := last_key key d from]> (pivot s)) by (unfold t'; destruct fin; cbn; rewrite Ov; reflexivity).
    rewrite E. destruct (N.eqb_spec id j) as [->|]; [apply lookup_insert|apply lookup_insert_ne; assumption]. }
  assert (Hflag : forall i w a b, book t' !! (i, w) = Some (a, b) -> exists b0, book s !! (i, w) = Some (a, b0) /\ b = b0 || (bool_decide (i = id) && bool_decide (w ∈ d))).
  { intros i w a b. rewrite Bt. unfold t. rewrite pays_book. destruct (book s !! (i, w)) as [[a0 b0]|]; [|discriminate]. intros [= <- <-]. eauto. }
  split.
  - intros j Hj. assert (En : vnext t' = vnext s) by (unfold t'; destruct fin; exact On). rewrite En in Hj.
    destruct (u_new _ _ _ HU j Hj) as (H1 & H2 & H3 & H4). split; [|split; [|split]].
    + unfold t'. destruct fin; cbn [set_pivot set_stat stat]; rewrite Os; [rewrite lookup_insert_ne by lia|]; exact H1.
    + rewrite Pj. replace (id =? j) with false by (symmetry; apply N.eqb_neq; lia). exact H2.
    + assert (Et : tot t' = tot t) by (unfold t'; destruct fin; reflexivity). rewrite Et, Ot. exact H3.
    + intros w. rewrite Bt. unfold t. rewrite pays_book, H4. reflexivity.
  - intros j Hj. rewrite Sj in Hj. destruct (N.eqb_spec id j) as [Eij|Hne]; [subst j|].
    + rewrite Hst in Hj. destruct fin; discriminate.
    + rewrite andb_false_r in Hj. destruct (u_open _ _ _ HU j Hj) as [H1 H2]. split.
      * rewrite Pj. replace (id =? j) with false by (symmetry; apply N.eqb_neq; exact Hne). exact H1.
      * intros w a b Hb. destruct (Hflag _ _ _ _ Hb) as (b0 & Hb0 & ->). rewrite (H2 _ _ _ Hb0), bool_decide_eq_false_2 by congruence. reflexivity.
  - intros j k w a b Hj Hk Hb Hle. rewrite Sj in Hj. rewrite Pj in Hk. destruct (Hflag _ _ _ _ Hb) as (b0 & Hb0 & ->).
    destruct (N.eqb_spec id j) as [Eij|Hne]; [subst j|].
    + injection Hk as Hk. destruct (beyond key from w) eqn:Eb.
      * pose proof (pc_all _ _ _ _ _ _ _ _ PC w (ex_intro _ _ Hb0) Eb) as Hin. fold from in Hin. rewrite Hk in Hin.
        specialize (Hin Hle). rewrite bool_decide_eq_true_2 by reflexivity. rewrite bool_decide_eq_true_2 by (apply elem_of_list_In; exact Hin). apply orb_true_r.
      * assert (b0 = true) as ->; [|reflexivity]. destruct (pivot s !! id) as [[k0|]|] eqn:Ep; cbn in from; unfold from in Eb; try discriminate Eb.
        cbn in Eb. apply N.ltb_ge in Eb. exact (u_pay _ _ _ HU id k0 w a b0 Hst Ep Hb0 Eb).
    + rewrite andb_false_r in Hj. rewrite (u_pay _ _ _ HU j k w a b0 Hj Hk Hb0 Hle). reflexivity.
  - intros j w a b Hj Hb. rewrite Sj in Hj. destruct (Hflag _ _ _ _ Hb) as (b0 & Hb0 & ->).
    destruct (N.eqb_spec id j) as [Eij|Hne]; [subst j|].
    + destruct fin; cbn [andb] in Hj; [|congruence]. destruct (pc_fin _ _ _ _ _ _ _ _ PC eq_refl) as (_ & _ & Hall).
      specialize (Hall w (ex_intro _ _ Hb0)). fold from in Hall. assert (b0 = true) as ->; [|reflexivity].
      destruct (pivot s !! id) as [[k0|]|] eqn:Ep; cbn in from; unfold from in Hall; try discriminate Hall.
      cbn in Hall. apply N.ltb_ge in Hall. exact (u_pay _ _ _ HU id k0 w a b0 Hst Ep Hb0 Hall).
    + rewrite andb_false_r in Hj. rewrite (u_done _ _ _ HU j w a b0 Hj Hb0). reflexivity.
  - assert (El : vlog t' = vlog t) by (unfold t'; destruct fin; reflexivity). intros i w. rewrite Bt, El. exact (HL i w).
  - intros j. assert (Ep : prices t' = prices t) by (unfold t'; destruct fin; reflexivity). rewrite Ep, Op. apply (u_price _ _ _ HU).
Qed.

Definition reg1 (id : N) (t : vs) (r : N * N) : vs := note (set_book t (id, fst r) (snd r, false)) (EReg id (fst r) (snd r)).
Lemma reg1_other id rs : forall s, let t := fold_left (reg1 id) rs s in
  vl t = vl s /\ vnext t = vnext s /\ vadmin t = vadmin s /\ stat t = stat s /\ prices t = prices s /\ tot t = tot s /\ pivot t = pivot s.
Proof.
  induction rs as [|r rs IH]; intros s; cbn [fold_left]; [cbn; auto 10|]. cbv zeta in *.
  destruct (IH (reg1 id s r)) as (-> & -> & -> & -> & -> & -> & ->). cbn. auto 10.
Qed.
Lemma UI_reg1 key vtx s id r : UI key vtx s -> status_of s id = Enabled -> UI key vtx (reg1 id s r).
Proof.
  intros HU Hst. destruct r as [w a]. assert (Hlt : id < vnext s) by (apply (status_lt key vtx s id HU); congruence).
  split; cbn [reg1 note set_book vnext stat pivot tot book vlog prices fst snd].
  - intros j Hj. destruct (u_new _ _ _ HU j Hj) as (H1 & H2 & H3 & H4). repeat (split; [assumption|]). intros x. rewrite lookup_insert_ne; [apply H4|]. intros [= -> _]. lia.
  - intros j Hj. change (open_status (status_of s j) = true) in Hj. destruct (u_open _ _ _ HU j Hj) as [H1 H2]. split; [exact H1|].
    intros x c b Hb. destruct (decide ((id, w) = (j, x))) as [E|E]; [rewrite E, lookup_insert in Hb; congruence|]. rewrite lookup_insert_ne in Hb by exact E. eapply H2. exact Hb.
  - intros j k x c b Hj. change (status_of s j = Paying) in Hj. rewrite lookup_insert_ne by congruence. apply (u_pay _ _ _ HU); exact Hj.
  - intros j x c b Hj. change (status_of s j = Done) in Hj. rewrite lookup_insert_ne by congruence. apply (u_done _ _ _ HU); exact Hj.
  - intros i x. destruct (decide ((i, x) = (id, w))) as [E|Hne].
    + injection E as -> ->. rewrite lookup_insert, paid_app, due_snoc, !N.eqb_refl. cbn. split; [|reflexivity]. left. rewrite app_nil_r.
      pose proof (u_log _ _ _ HU id w) as Hl. destruct (u_open _ _ _ HU id) as [_ H2]; [rewrite Hst; reflexivity|].
      destruct (book s !! (id, w)) as [[c b]|] eqn:Eb; [|apply Hl]. pose proof (H2 w c b Eb) as ->. destruct Hl as [[Hl|[Hl _]] _]; [exact Hl|discriminate].
    + rewrite lookup_insert_ne by congruence. destruct (log_other (vlog s) id w i x Hne) as [_ H1]. destruct (H1 a) as [E1 E2].
      rewrite E1, E2. apply (u_log _ _ _ HU).
  - apply (u_price _ _ _ HU).
Qed.
Lemma UI_regs key vtx id rs : forall s, UI key vtx s -> status_of s id = Enabled -> UI key vtx (fold_left (reg1 id) rs s).
Proof. induction rs as [|r rs IH]; intros s HU Hst; cbn; [exact HU|]. apply IH; [apply UI_reg1; assumption|exact Hst]. Qed.

Lemma UI_status key vtx s id x : UI key vtx s -> id < vnext s ->
  (open_status x = true -> open_status (status_of s id) = true) ->
  (x = Paying -> open_status (status_of s id) = true) -> x <> Done -> UI key vtx (set_stat s id x).
Proof.
  intros HU Hlt Ho Hp Hd. split.
  - intros j Hj. cbn [set_stat vnext stat pivot tot book] in *. rewrite lookup_insert_ne by lia. apply (u_new _ _ _ HU j Hj).
  - intros j Hj. rewrite status_set in Hj. cbn [set_stat pivot book]. apply (u_open _ _ _ HU). destruct (N.eqb_spec id j) as [Eij|]; [subst j|]; auto.
  - intros j k w a b Hj Hk Hb. rewrite status_set in Hj. cbn [set_stat pivot book] in *. destruct (N.eqb_spec id j) as [Eij|]; [subst j|].
    + destruct (u_open _ _ _ HU id (Hp Hj)) as [E _]. congruence.
    + apply (u_pay _ _ _ HU j k w a b); assumption.
  - intros j w a b Hj Hb. rewrite status_set in Hj. cbn [set_stat book] in *. destruct (N.eqb_spec id j) as [Eij|]; [subst j; congruence|].
    eapply (u_done _ _ _ HU); eassumption.
  - exact (u_log _ _ _ HU).
  - exact (u_price _ _ _ HU).
Qed.
Lemma UI_vl key vtx s l : UI key vtx s -> UI key vtx (set_vl s l).
Proof. intros [H1 H2 H3 H4 H5 H6]. split; assumption. Qed.
Lemma prices_fold vtx id ps : forall m : gmap (N * N) N, forallb (fun p => negb (fst p =? vtx)) ps = true -> (forall j, m !! (j, vtx) = None) ->
  forall j, fold_left (fun m p => <[(id, fst p) := snd p]> m) ps m !! (j, vtx) = None.
Proof.
  induction ps as [|[a v] ps IH]; intros m Hf Hm j; cbn [fold_left]; [apply Hm|]. cbn in Hf. apply andb_true_iff in Hf. destruct Hf as [Ha Hf].
  apply IH; [exact Hf|]. intros i. cbn. rewrite lookup_insert_ne; [apply Hm|]. apply negb_true_iff, N.eqb_neq in Ha. congruence.
Qed.

Section steps.
  Variable key : N -> N.
  Variable vault rootv feev vtx native batch : N.
  Local Notation exec := (vexec key vault rootv feev vtx native batch).
  Local Notation step := (vstep key vault rootv feev vtx native batch).

  Lemma UI_exec s o s' : (forall x y, key x = key y -> x = y) -> UI key vtx s -> exec s o = Ok s' -> UI key vtx s'.
  Proof.
    intros inj HU. destruct o as [new|o|o id|o id|id|o id ps|o id rs|o id|who id q|who a to q|a to q|a from q]; cbn [vexec]; intros Hs.
    - apply Ok_inj in Hs. subst s'. destruct HU as [H1 H2 H3 H4 H5 H6]. split; assumption.
    - unfold create_dist in Hs. inv_ok. subst s'. destruct HU as [H1 H2 H3 H4 H5 H6].
      assert (Hn : forall j, vnext s <= j -> pivot s !! j = None /\ (forall w, book s !! (j, w) = None)) by (intros j Hj; destruct (H1 j Hj) as (_ & ? & _ & ?); auto).
      split.
      + cbn [set_stat set_next vnext stat pivot tot book]. intros j Hj. rewrite lookup_insert_ne by lia. apply H1. lia.
      + intros j Hj. rewrite status_set in Hj. cbn [set_stat set_next pivot book]. destruct (N.eqb_spec (vnext s) j) as [Eij|]; [subst j|].
        * destruct (Hn (vnext s) (N.le_refl _)) as [E1 E2]. split; [exact E1|]. intros w a b. rewrite E2. discriminate.
        * apply H2. exact Hj.
      + intros j k w a b Hj. rewrite status_set in Hj. cbn [set_stat set_next pivot book]. destruct (N.eqb_spec (vnext s) j) as [Eij|]; [subst j; discriminate|]. apply H3. exact Hj.
      + intros j w a b Hj. rewrite status_set in Hj. cbn [set_stat set_next pivot book]. destruct (N.eqb_spec (vnext s) j) as [Eij|]; [subst j; discriminate|]. apply H4. exact Hj.
      + exact H5.
      + exact H6.
    - unfold disable_dist in Hs. inv_ok. subst s'. apply UI_status; try assumption; try discriminate.
      eapply status_lt; [exact HU|]. intros Hd. rewrite Hd in *. discriminate.
    - unfold start_dist in Hs. inv_ok. subst s'.
      match goal with H : same_status (status_of s id) Triggered = true |- _ => apply same_iff in H; rename H into Hst end.
      assert (Hlt : id < vnext s) by (apply (status_lt key vtx s id HU); congruence).
      apply UI_status; try discriminate; try exact Hlt; [|intros _; change (open_status (status_of s id) = true); rewrite Hst; reflexivity].
      match goal with H : mint _ _ _ _ = Ok ?l |- _ => set (L := l); clearbody L end.
      destruct HU as [H1 H2 H3 H4 H5 H6]. split; try assumption.
      intros j Hj. cbn [set_tot set_vl vnext stat pivot tot book] in *. destruct (H1 j Hj) as (W1 & W2 & W3 & W4). repeat (split; [assumption|]). split; [|exact W4].
      rewrite getN_delete_ne by lia. exact W3.
    - apply Ok_inj in Hs. subst s'. apply UI_pay; assumption.
    - unfold asset_prices in Hs. inv_ok. subst s'. destruct HU as [H1 H2 H3 H4 H5 H6]. split; try assumption.
      cbn [set_prices prices]. apply prices_fold; assumption.
    - unfold register in Hs. inv_ok. cbv zeta in Hs. subst s'.
      match goal with H : same_status (status_of s id) Enabled = true |- _ => apply same_iff in H; rename H into Hst end.
      pose proof (UI_regs key vtx id rs s HU Hst) as HU'.
      change (fold_left (fun t r => note (set_book t (id, fst r) (snd r, false)) (EReg id (fst r) (snd r))) rs s) with (fold_left (reg1 id) rs s).
      assert (Hlt : id < vnext s) by (apply (status_lt key vtx s id HU); congruence).
      destruct (reg1_other id rs s) as (_ & En & _ & _ & _ & _ & _).
      set (t := fold_left (reg1 id) rs s) in *. clearbody t.
      destruct HU' as [H1 H2 H3 H4 H5 H6]. split; try assumption.
      intros j Hj. cbn [set_tot vnext stat pivot tot book] in *. destruct (H1 j Hj) as (W1 & W2 & W3 & W4). repeat (split; [assumption|]). split; [|exact W4].
      rewrite getN_insert_ne by lia. exact W3.
    - unfold trigger in Hs. inv_ok. subst s'.
      match goal with H : same_status (status_of s id) Enabled = true |- _ => apply same_iff in H; rename H into Hst end.
      assert (Hlt : id < vnext s) by (apply (status_lt key vtx s id HU); congruence).
      apply UI_status; try discriminate; try exact Hlt; [apply UI_vl; exact HU|].
      intros _; change (open_status (status_of s id) = true); rewrite Hst; reflexivity.
    - inv_ok. unfold redeem in Hs. inv_ok. subst s'. apply UI_vl; exact HU.
    - inv_ok. subst s'. apply UI_vl; exact HU.
    - inv_ok. subst s'. apply UI_vl; exact HU.
    - inv_ok. subst s'. apply UI_vl; exact HU.
  Qed.
  Lemma UI_step s o : (forall x y, key x = key y -> x = y) -> UI key vtx s -> UI key vtx (step s o).
  Proof. intros inj HU. unfold vstep. destruct (exec s o) as [s'|] eqn:E; cbn [commit]; [eapply UI_exec; eassumption|exact HU]. Qed.
End steps.

Lemma UI_init key vtx : UI key vtx vinit.
Proof.
  split; unfold vinit, status_of; cbn; intros; rewrite ?lookup_empty in *; try discriminate; auto.
Qed.
