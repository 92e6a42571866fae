(** Vortex: books, exact minting, effects and progress of payout calls, redemption. *)
From Verif Require Export VortexMoney.

(** ** Books after any history *)
Lemma pay1_books vault vtx id s w : books (vl s) -> books (vl (pay1 vault vtx id s w)).
Proof.
  intros H. unfold pay1. destruct (book s !! (id, w)) as [[amt []]|]; try exact H.
  destruct (safe_transfer _ _ _ _ _) as [l|] eqn:E; [|exact H]. exact (safe_transfer_books _ _ _ _ _ _ E H).
Qed.
Lemma fold_books (amt : ledger N -> N -> N) (from to : N) las : forall l l',
  fold_left (fun r a => do! l <- r; safe_transfer l a from to (amt l a)) las (Ok l) = Ok l' -> books l -> books l'.
Proof.
  induction las as [|a las IH]; intros l l' H Hb; cbn [fold_left] in H; [apply Ok_inj in H; subst; auto|].
  cbn [rbind] in H. destruct (safe_transfer l a from to (amt l a)) as [l1|c] eqn:E.
  - apply (IH l1 l' H). eapply safe_transfer_books; eassumption.
  - exfalso. clear -H. induction las as [|b las IHl]; cbn in H; [discriminate|auto].
Qed.
Lemma pay_books key vault vtx batch s id : (forall x y, key x = key y -> x = y) -> books (vl s) -> books (vl (pay_unsigned key vault vtx batch s id)).
Proof.
  intros inj Hb. destruct (decide (status_of s id = Paying)) as [Hst|Hst]; [|rewrite pay_unsigned_idle by exact Hst; exact Hb].
  destruct (pay_unsigned_shape key vault vtx batch s id inj Hst) as (d & fin & PC). rewrite (pc_next _ _ _ _ _ _ _ _ PC).
  pose proof (pays_ind (fun t => books (vl t)) vault vtx id d (fun t w => pay1_books vault vtx id t w) s Hb) as H. cbv zeta. destruct fin; exact H.
Qed.

(** ** Effect of a payout call on balances *)
Definition paid_to (log : list vevent) (x : N) : N :=
  sumL (map (fun e => match e with EPaid _ w a => if w =? x then a else 0 | EReg _ _ _ => 0 end) log).
Lemma paid_to_app l1 l2 x : paid_to (l1 ++ l2) x = paid_to l1 x + paid_to l2 x.
Proof. unfold paid_to, sumL. induction l1 as [|e l1 IH]; cbn [app map fold_right]; [lia|]. rewrite IH. lia. Qed.
Lemma pay1_effect vault vtx id s w : exists evs, vlog (pay1 vault vtx id s w) = vlog s ++ evs /\
  forall a x, x <> vault -> balance (vl (pay1 vault vtx id s w)) a x = balance (vl s) a x + if a =? vtx then paid_to evs x else 0.
Proof.
  rewrite pay1_log. eexists. split; [reflexivity|]. intros a x Hx. unfold pay1.
  destruct (book s !! (id, w)) as [[amt []]|].
  - cbn. destruct (a =? vtx); lia.
  - destruct (safe_transfer _ _ _ _ _) as [l|] eqn:E.
    + destruct (safe_transfer_spec _ _ _ _ _ _ E) as (_ & _ & Hb). specialize (Hb a x). cbn [set_book note set_vl vl].
      rewrite (decide_False (P := (vtx, vault) = (a, x))) in Hb by congruence. unfold paid_to, sumL. cbn [map fold_right].
      destruct (N.eqb_spec a vtx) as [Ea|Ha], (N.eqb_spec w x) as [Ew|Hw]; subst.
      * rewrite decide_True in Hb by reflexivity. lia.
      * rewrite decide_False in Hb by congruence. lia.
      * rewrite decide_False in Hb by congruence. lia.
      * rewrite decide_False in Hb by congruence. lia.
    + cbn. destruct (a =? vtx); lia.
  - cbn. destruct (a =? vtx); lia.
Qed.
Lemma pays_effect vault vtx id d : forall s, exists evs, vlog (fold_left (pay1 vault vtx id) d s) = vlog s ++ evs /\
  forall a x, x <> vault -> balance (vl (fold_left (pay1 vault vtx id) d s)) a x = balance (vl s) a x + if a =? vtx then paid_to evs x else 0.
Proof.
  induction d as [|w d IH]; intros s; cbn [fold_left].
  - exists []. rewrite app_nil_r. split; [reflexivity|]. intros a x _. cbn. destruct (a =? vtx); lia.
  - destruct (pay1_effect vault vtx id s w) as (e1 & H1 & H2). destruct (IH (pay1 vault vtx id s w)) as (e2 & H3 & H4).
    exists (e1 ++ e2). split; [rewrite H3, H1, app_assoc; reflexivity|]. intros a x Hx. rewrite H4, H2 by exact Hx. rewrite paid_to_app. destruct (a =? vtx); lia.
Qed.

(** ** Progress *)
Definition pending (key : N -> N) (s : vs) (id : N) : list N := List.filter (beyond key (default None (pivot s !! id))) (accounts key (book s) id).
Lemma sorted_nodup key l : StronglySorted (lt_key key) l -> List.NoDup l.
Proof.
  induction 1 as [|x l Hs IH Hf]; constructor; [|exact IH]. intros Hin. rewrite Forall_forall in Hf. apply elem_of_list_In in Hin.
  specialize (Hf x Hin). unfold lt_key in Hf. lia.
Qed.
Lemma pending_nodup key s id : (forall x y, key x = key y -> x = y) -> List.NoDup (pending key s id).
Proof. intros inj. apply (sorted_nodup key). apply filter_sorted, accounts_sorted. exact inj. Qed.
Lemma pending_in key s id w : In w (pending key s id) <-> is_Some (book s !! (id, w)) /\ beyond key (default None (pivot s !! id)) w = true.
Proof. unfold pending. rewrite filter_In, accounts_in. tauto. Qed.
Lemma pending_le key s t id : (forall x y, key x = key y -> x = y) -> pivot t !! id = pivot s !! id ->
  (forall w, is_Some (book t !! (id, w)) -> is_Some (book s !! (id, w))) -> (length (pending key t id) <= length (pending key s id))%nat.
Proof.
  intros inj Ep Hb. apply NoDup_incl_length; [apply pending_nodup; exact inj|]. intros w. rewrite !pending_in, Ep. intros [H1 H2]; auto.
Qed.
Definition rank (key : N -> N) (s : vs) (id : N) : nat :=
  match status_of s id with
  | Paying => S (length (pending key s id)) + (if pivot s !! id then 0 else 1)
  | _ => 0
  end%nat.
Lemma pay_progress key vault vtx batch s id : (forall x y, key x = key y -> x = y) -> status_of s id = Paying ->
  let t := pay_unsigned key vault vtx batch s id in
  (status_of t id = Done \/ status_of t id = Paying) /\ (rank key t id < rank key s id)%nat.
Proof.
  intros inj Hst. cbv zeta. destruct (pay_unsigned_shape key vault vtx batch s id inj Hst) as (d & fin & PC).
  set (from := default None (pivot s !! id)) in *. set (t := fold_left (pay1 vault vtx id) d s).
  assert (En : pay_unsigned key vault vtx batch s id = set_pivot (if fin then set_stat t id Done else t) id (last_key key d from)) by exact (pc_next _ _ _ _ _ _ _ _ PC).
  destruct (pays_other vault vtx id d s) as (_ & _ & Os & _ & _ & _). fold t in Os.
  destruct fin; rewrite En.
  - assert (Hd : status_of (set_pivot (set_stat t id Done) id (last_key key d from)) id = Done).
    { change (status_of (set_stat t id Done) id = Done). rewrite status_set, N.eqb_refl. reflexivity. }
    split; [left; exact Hd|]. unfold rank. rewrite Hd, Hst. lia.
  - assert (Hd : status_of (set_pivot t id (last_key key d from)) id = Paying). { unfold status_of. cbn [set_pivot stat]. rewrite Os. exact Hst. }
    split; [right; exact Hd|]. unfold rank. rewrite Hd, Hst. cbn [set_pivot pivot]. rewrite lookup_insert.
    set (t' := set_pivot t id (last_key key d from)).
    assert (Hin : forall w, In w (pending key t' id) -> In w (pending key s id) /\ beyond key (last_key key d from) w = true).
    { intros w. rewrite !pending_in. unfold t'. cbn [set_pivot book pivot]. rewrite lookup_insert. cbn [default]. intros [Hb Hy].
      assert (Hb' : is_Some (book s !! (id, w))). { unfold t in Hb. rewrite pays_book in Hb. destruct (book s !! (id, w)) as [[? ?]|]; [eauto|destruct Hb; discriminate]. }
      split; [|exact Hy]. split; [exact Hb'|]. fold from. unfold beyond. destruct from as [k|] eqn:Ef; [|reflexivity].
      destruct d as [|w0 d0] eqn:Ed; [exact Hy|]. destruct (pc_from _ _ _ _ _ _ _ _ PC) as (z & Hz & El); [discriminate|].
      rewrite <- Ed in *. destruct (pc_in _ _ _ _ _ _ _ _ PC z Hz) as [_ Hz2]. fold from in El, Hz2. rewrite Ef in El, Hz2.
      rewrite El in Hy. cbn in Hz2, Hy. apply N.ltb_lt in Hz2, Hy. apply N.ltb_lt. lia. }
    destruct d as [|w0 d0] eqn:Ed.
    + destruct (pc_some _ _ _ _ _ _ _ _ PC eq_refl) as [Hp|Hp]; [|congruence]. rewrite Hp.
      assert (length (pending key t' id) <= length (pending key s id))%nat by (apply NoDup_incl_length; [apply pending_nodup; exact inj|intros w Hw; apply Hin; exact Hw]).
      lia.
    + destruct (pc_from _ _ _ _ _ _ _ _ PC) as (z & Hz & El); [discriminate|]. rewrite <- Ed in *. fold from in El.
      destruct (pc_in _ _ _ _ _ _ _ _ PC z Hz) as [Hz1 Hz2]. fold from in Hz2.
      assert (S (length (pending key t' id)) <= length (pending key s id))%nat; [|lia].
      change (S (length (pending key t' id))) with (length (z :: pending key t' id)). apply NoDup_incl_length.
      * constructor; [|apply pending_nodup; exact inj]. intros Hc. apply Hin in Hc. destruct Hc as [_ Hc]. rewrite El in Hc. cbn in Hc. apply N.ltb_lt in Hc. lia.
      * intros w [<-|Hw]; [apply pending_in; auto|apply Hin; exact Hw].
Qed.

(** ** Redemption *)
Lemma redeem_fold (vault who T q : N) : who <> vault -> forall las, NoDup las -> forall l l',
  fold_left (fun r a => do! l <- r; safe_transfer l a vault who (sat U128MAX (q * balance l a vault) / T)) las (Ok l) = Ok l' ->
  iss l' = iss l /\
  (forall a, a ∈ las -> let r := sat U128MAX (q * balance l a vault) / T in
     r <= balance l a vault /\ balance l' a vault = balance l a vault - r /\ balance l' a who = balance l a who + r) /\
  (forall a y, a ∉ las \/ (y <> vault /\ y <> who) -> balance l' a y = balance l a y).
Proof.
  intros Hw las Hn. induction Hn as [|a las Ha Hn IH]; intros l l' H; cbn [fold_left] in H.
  - apply Ok_inj in H. subst l'. split; [reflexivity|]. split; [intros a Ha; exfalso; exact (not_elem_of_nil a Ha)|reflexivity].
  - cbn [rbind] in H. destruct (safe_transfer l a vault who _) as [l1|c] eqn:E.
    2: { exfalso. clear -H. induction las as [|b las IHl]; cbn in H; [discriminate|auto]. }
    destruct (IH l1 l' H) as (I1 & I2 & I3). destruct (safe_transfer_spec _ _ _ _ _ _ E) as (E1 & E2 & E3).
    assert (Eo : forall b y, b <> a -> balance l1 b y = balance l b y).
    { intros b y Hb. specialize (E3 b y). rewrite !decide_False in E3 by congruence. lia. }
    set (r := sat U128MAX (q * balance l a vault) / T) in *.
    split; [congruence|]. split.
    + intros b Hb. apply elem_of_cons in Hb. destruct Hb as [->|Hb].
      * cbv zeta. fold r. pose proof (E3 a vault) as X1. pose proof (E3 a who) as X2.
        rewrite decide_True in X1 by reflexivity. rewrite decide_False in X1 by congruence.
        rewrite decide_False in X2 by congruence. rewrite decide_True in X2 by reflexivity.
        rewrite (I3 a vault), (I3 a who) by (left; exact Ha). clearbody r. lia.
      * assert (b <> a) by congruence. specialize (I2 b Hb). cbv zeta in I2. rewrite !Eo in I2 by assumption. exact I2.
    + intros b y Hb. rewrite I3.
      * destruct Hb as [Hb|[Y1 Y2]].
        -- apply Eo. intros ->. apply Hb. apply elem_of_list_here.
        -- specialize (E3 b y). rewrite !decide_False in E3 by congruence. lia.
      * destruct Hb as [Hb|Hb]; [left; intros Hc; apply Hb; apply elem_of_list_further; exact Hc|right; exact Hb].
Qed.
Lemma redeem_fold_ok (vault who T q : N) : who <> vault -> q <= T -> 0 < T -> forall las, forall l, books l ->
  exists l', fold_left (fun r a => do! l <- r; safe_transfer l a vault who (sat U128MAX (q * balance l a vault) / T)) las (Ok l) = Ok l'.
Proof.
  intros Hw Hq HT las. induction las as [|a las IH]; intros l Hb; cbn [fold_left]; [eauto|]. cbn [rbind].
  destruct (safe_transfer_ok l a vault who (sat U128MAX (q * balance l a vault) / T) Hb) as [l1 E].
  - apply N.div_le_upper_bound; [lia|]. unfold sat. transitivity (q * balance l a vault); [apply N.le_min_l|]. nia.
  - rewrite E. apply IH. eapply safe_transfer_books; eassumption.
Qed.
Lemma share_bound q B T : 0 < T -> (sat U128MAX (q * B) / T) * T <= q * B.
Proof.
  intros HT. transitivity (sat U128MAX (q * B)); [|unfold sat; apply N.le_min_l].
  rewrite N.mul_comm. apply N.mul_div_le. lia.
Qed.

Section steps.
  Variable key : N -> N.
  Variable vault rootv feev vtx native batch : N.
  Local Notation exec := (vexec key vault rootv feev vtx native batch).
  Local Notation step := (vstep key vault rootv feev vtx native batch).

  Lemma books_exec s o s' : (forall x y, key x = key y -> x = y) -> books (vl s) -> exec s o = Ok s' -> books (vl s').
  Proof.
    intros inj HB. destruct o as [new|o|o id|o id|id|o id ps|o id rs|o id|who id q|who a to q|a to q|a from q]; cbn [vexec]; intros Hs.
    - apply Ok_inj in Hs. subst s'. exact HB.
    - unfold create_dist in Hs. inv_ok. subst s'. exact HB.
    - unfold disable_dist in Hs. inv_ok. subst s'. exact HB.
    - unfold start_dist in Hs. inv_ok. subst s'. cbn [set_stat set_tot set_vl vl]. eapply mint_books; eassumption.
    - apply Ok_inj in Hs. subst s'. apply pay_books; assumption.
    - unfold asset_prices in Hs. inv_ok. subst s'. exact HB.
    - unfold register in Hs. inv_ok. cbv zeta in Hs. subst s'. cbn [set_tot vl].
      change (fold_left (fun t r => note (set_book t (id, fst r) (snd r, false)) (EReg id (fst r) (snd r))) rs s) with (fold_left (reg1 id) rs s).
      destruct (reg1_other id rs s) as (-> & _). exact HB.
    - unfold trigger in Hs. inv_ok. subst s'. cbn [set_stat set_vl vl]. eapply safe_transfer_books; [eassumption|].
      eapply (fold_books (fun l a => balance l a feev)); eassumption.
    - inv_ok. unfold redeem in Hs. inv_ok. subst s'. cbn [set_vl vl]. eapply burn_books; [eassumption|].
      match goal with H : fold_left _ _ _ = Ok _ |- _ => exact (fold_books (fun l a => sat U128MAX (q * balance l a vault) / issuance (vl s) vtx) vault who _ _ _ H HB) end.
    - inv_ok. subst s'. cbn [set_vl vl]. eapply transfer_books; eassumption.
    - inv_ok. subst s'. cbn [set_vl vl]. eapply mint_books; eassumption.
    - inv_ok. subst s'. cbn [set_vl vl]. eapply burn_books; eassumption.
  Qed.
  Lemma books_step s o : (forall x y, key x = key y -> x = y) -> books (vl s) -> books (vl (step s o)).
  Proof. intros inj HB. unfold vstep. destruct (exec s o) as [s'|] eqn:E; cbn [commit]; [eapply books_exec; eassumption|exact HB]. Qed.

  (** The orderbook of a distribution in payment only changes by payout calls. *)
  Definition disables (id : N) (o : vop) : bool := match o with VDisable _ j => j =? id | _ => false end.
  Definition pays (id : N) (o : vop) : bool := match o with VPay j => j =? id | _ => false end.
  Definition late (s : vs) (id : N) : Prop := status_of s id = Paying \/ status_of s id = Done.
  Lemma rank_other s o s' id : (forall x y, key x = key y -> x = y) -> UI key vtx s -> late s id -> disables id o = false -> pays id o = false -> exec s o = Ok s' ->
    late s' id /\ (rank key s' id <= rank key s id)%nat.
  Proof.
    intros inj HU Hl Hd Hp Hs.
    assert (Hq : forall t, status_of t id = status_of s id -> pivot t !! id = pivot s !! id ->
      (forall w, is_Some (book t !! (id, w)) -> is_Some (book s !! (id, w))) -> late t id /\ (rank key t id <= rank key s id)%nat).
    { intros t E1 E2 E3. unfold late, rank. rewrite E1, E2. split; [exact Hl|]. destruct (status_of s id); try lia.
      pose proof (pending_le key s t id inj E2 E3). lia. }
    assert (Hlt : id < vnext s) by (apply (status_lt key vtx s id HU); destruct Hl as [-> | ->]; discriminate).
    assert (Hno : forall x, open_status (status_of s x) = true -> x <> id). { intros x Hx ->. destruct Hl as [E|E]; rewrite E in Hx; discriminate. }
    destruct o as [new|o|o j|o j|j|o j ps|o j rs|o j|who j q|who a to q|a to q|a from q]; cbn [vexec] in Hs.
    - apply Ok_inj in Hs. subst s'. apply Hq; auto.
    - unfold create_dist in Hs. inv_ok. subst s'. apply Hq; auto. rewrite status_set. replace (vnext s =? id) with false by (symmetry; apply N.eqb_neq; lia). reflexivity.
    - unfold disable_dist in Hs. inv_ok. subst s'. cbn in Hd. apply Hq; auto. rewrite status_set, Hd. reflexivity.
    - unfold start_dist in Hs. inv_ok. subst s'.
      match goal with H : same_status (status_of s j) Triggered = true |- _ => apply same_iff in H; rename H into Hst end.
      assert (j <> id) by (apply Hno; rewrite Hst; reflexivity). apply Hq; auto. rewrite status_set. replace (j =? id) with false by (symmetry; apply N.eqb_neq; assumption). reflexivity.
    - apply Ok_inj in Hs. subst s'. cbn in Hp. apply N.eqb_neq in Hp. destruct (decide (status_of s j = Paying)) as [Hst|Hst]; [|rewrite pay_unsigned_idle by exact Hst; apply Hq; auto].
      destruct (pay_unsigned_shape key vault vtx batch s j inj Hst) as (d & fin & PC). rewrite (pc_next _ _ _ _ _ _ _ _ PC). cbv zeta.
      destruct (pays_other vault vtx j d s) as (_ & _ & Os & _ & _ & Ov). 
      apply Hq.
      + change (status_of (if fin then set_stat (fold_left (pay1 vault vtx j) d s) j Done else fold_left (pay1 vault vtx j) d s) id = status_of s id).
        destruct fin; [rewrite status_set; replace (j =? id) with false by (symmetry; apply N.eqb_neq; assumption)|]; unfold status_of; rewrite Os; reflexivity.
      + assert (Ep : pivot (if fin then set_stat (fold_left (pay1 vault vtx j) d s) j Done else fold_left (pay1 vault vtx j) d s) = pivot s) by (destruct fin; exact Ov).
        cbn [set_pivot pivot]. rewrite lookup_insert_ne by exact Hp. rewrite Ep. reflexivity.
      + intros w. assert (Eb : book (if fin then set_stat (fold_left (pay1 vault vtx j) d s) j Done else fold_left (pay1 vault vtx j) d s) = book (fold_left (pay1 vault vtx j) d s)) by (destruct fin; reflexivity).
        cbn [set_pivot book]. rewrite Eb, pays_book. destruct (book s !! (id, w)) as [[? ?]|]; [eauto|intros [? ?]; discriminate].
    - unfold asset_prices in Hs. inv_ok. subst s'. apply Hq; auto.
    - unfold register in Hs. inv_ok. cbv zeta in Hs. subst s'.
      match goal with H : same_status (status_of s j) Enabled = true |- _ => apply same_iff in H; rename H into Hst end.
      assert (Hne : j <> id) by (apply Hno; rewrite Hst; reflexivity).
      change (fold_left (fun t r => note (set_book t (j, fst r) (snd r, false)) (EReg j (fst r) (snd r))) rs s) with (fold_left (reg1 j) rs s).
      destruct (reg1_other j rs s) as (_ & _ & _ & Es & _ & _ & Ep). apply Hq.
      + unfold status_of. cbn [set_tot stat]. rewrite Es. reflexivity.
      + cbn [set_tot pivot]. rewrite Ep. reflexivity.
      + intros w. cbn [set_tot book]. assert (Eb : forall t, book (fold_left (reg1 j) rs t) !! (id, w) = book t !! (id, w)); [|rewrite Eb; auto].
        clear -Hne. induction rs as [|r rs IH]; intros t; cbn [fold_left]; [reflexivity|]. rewrite IH. cbn. apply lookup_insert_ne. congruence.
    - unfold trigger in Hs. inv_ok. subst s'.
      match goal with H : same_status (status_of s j) Enabled = true |- _ => apply same_iff in H; rename H into Hst end.
      assert (j <> id) by (apply Hno; rewrite Hst; reflexivity). apply Hq; auto. rewrite status_set. replace (j =? id) with false by (symmetry; apply N.eqb_neq; assumption). reflexivity.
    - inv_ok. unfold redeem in Hs. inv_ok. subst s'. apply Hq; auto.
    - inv_ok. subst s'. apply Hq; auto.
    - inv_ok. subst s'. apply Hq; auto.
    - inv_ok. subst s'. apply Hq; auto.
  Qed.
  Lemma rank_step s o id : (forall x y, key x = key y -> x = y) -> UI key vtx s -> late s id -> disables id o = false ->
    late (step s o) id /\ (rank key (step s o) id + (if pays id o then 1 else 0) <= rank key s id \/ rank key (step s o) id = 0)%nat.
  Proof.
    intros inj HU Hl Hd. unfold vstep. destruct (pays id o) eqn:Hp.
    - destruct o; cbn in Hp; try discriminate Hp. apply N.eqb_eq in Hp. subst. cbn [vexec commit].
      destruct Hl as [Hst|Hst].
      + destruct (pay_progress key vault vtx batch s id inj Hst) as [H1 H2]. split; [unfold late; tauto|left; lia].
      + rewrite pay_unsigned_idle by congruence. split; [right; exact Hst|right]. unfold rank. rewrite Hst. reflexivity.
    - destruct (exec s o) as [s'|] eqn:E; cbn [commit]; [|split; [exact Hl|left; lia]].
      destruct (rank_other s o s' id inj HU Hl Hd Hp E) as [H1 H2]. split; [exact H1|left; lia].
  Qed.
  Lemma rank_run id ops : (forall x y, key x = key y -> x = y) -> forall s, UI key vtx s -> late s id -> Forall (fun o => disables id o = false) ops ->
    late (run step ops s) id /\ (rank key (run step ops s) id + length (List.filter (pays id) ops) <= rank key s id \/ rank key (run step ops s) id = 0)%nat.
  Proof.
    intros inj. induction ops as [|o ops IH]; intros s HU Hl Hd; [cbn; split; [exact Hl|left; lia]|].
    change (run step (o :: ops) s) with (run step ops (step s o)). inversion Hd as [|? ? D1 D2]; subst.
    destruct (rank_step s o id inj HU Hl D1) as [L1 R1].
    destruct (IH (step s o) (UI_step key vault rootv feev vtx native batch s o inj HU) L1 D2) as [L2 R2].
    split; [exact L2|]. cbn [List.filter]. destruct (pays id o); cbn [length]; lia.
  Qed.
End steps.
