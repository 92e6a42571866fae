(** Proofs for [RotModel]. *)
From Verif Require Export RotModel.

Definition anns (l : list rev) : list (N * keys * N) := flat_map (fun e => match e with EvAnnounce b ks id => [(b, ks, id)] | _ => [] end) l.
Definition inss (l : list rev) : list (keys * N) := flat_map (fun e => match e with EvInstall ks id => [(ks, id)] | _ => [] end) l.
(** Every installation was announced before. *)
Fixpoint told (l : list rev) : Prop :=
  match l with
  | [] => True
  | EvInstall ks id :: l' => (exists b, List.In (EvAnnounce b ks id) l') /\ told l'
  | _ :: l' => told l'
  end.
Definition what (a : N * keys * N) : keys * N := (snd (fst a), snd a).
Definition ids (n : nat) : list N := map (fun k => N.of_nat k mod 2 ^ 64) (List.rev (seq 1 n)).
Definition forced (f : forcing) : bool := match f with ForceNew | ForceAlways => true | _ => false end.

Section proofs.
  Variables delay epoch per mxd : N.
  Hypothesis Hdelay : 0 < delay.
  Hypothesis Hepoch : 2 * delay < epoch.
  Hypothesis Hfit : 96 <= mxd.
  Notation final := (final per).
  Notation fits := (fits mxd).

  (** The announcement that waits to be installed. *)
  Definition pending (s : rot) (b : N) (ks : keys) : Prop := exists l, anns (rlog s) = (b, ks, next_id s) :: l /\ map what l = inss (rlog s).
  Record J (s : rot) : Prop := {
    J_now : since s <= now s <= since s + epoch;
    J_agenda : agenda s = [] \/ exists ks, agenda s = [(since s + delay, ks)] /\ now s < since s + delay /\ changed s = true /\ pending s (since s) ks;
    J_changed : changed s = true -> agenda s = [] -> final s = true /\ change_at s = None /\ since s + (epoch - delay) <= now s /\ pending s (since s + (epoch - delay)) (nexts s);
    J_quiet : changed s = false -> map what (anns (rlog s)) = inss (rlog s);
    J_at : forall b, change_at s = Some b -> b = since s + (epoch - delay) /\ final s = true /\ now s <= b;
    J_stop : stopped s = changed s;
    J_fits : fits (nexts s) = true /\ fits (queued s) = true;
    J_told : told (rlog s);
    J_ids : exists n, map snd (inss (rlog s)) = ids n /\ setid s = N.of_nat n mod 2 ^ 64 }.

  Lemma ids_S n : ids (S n) = (N.of_nat (S n) mod 2 ^ 64) :: ids n.
  Proof. unfold ids. rewrite seq_S, rev_app_distr. reflexivity. Qed.
  Lemma next_id_of s n : setid s = N.of_nat n mod 2 ^ 64 -> next_id s = N.of_nat (S n) mod 2 ^ 64.
  Proof. intros E. unfold next_id. rewrite E, Nat2N.inj_succ, <- N.add_1_r. apply N.add_mod_idemp_l. discriminate. Qed.
  Lemma announced_in l b ks id r : anns l = (b, ks, id) :: r -> List.In (EvAnnounce b ks id) l.
  Proof.
    induction l as [|e l IH]; cbn; [discriminate|]. destruct e; cbn; intros H; [right; auto|left|right; auto]. injection H as -> -> ->. reflexivity.
  Qed.

  Lemma J_install s b ks : pending s b ks -> told (rlog s) -> (exists n, map snd (inss (rlog s)) = ids n /\ setid s = N.of_nat n mod 2 ^ 64) ->
    let s' := install s ks in map what (anns (rlog s')) = inss (rlog s') /\ told (rlog s') /\ (exists n, map snd (inss (rlog s')) = ids n /\ setid s' = N.of_nat n mod 2 ^ 64).
  Proof.
    intros (l & A & I) T (n & En & Es). cbv zeta. cbn [install rlog setid]. change (anns (EvInstall ks (next_id s) :: rlog s)) with (anns (rlog s)).
    change (inss (EvInstall ks (next_id s) :: rlog s)) with ((ks, next_id s) :: inss (rlog s)). rewrite A. cbn [map what fst snd]. rewrite I. split; [reflexivity|]. split.
    - split; [exists b; exact (announced_in _ _ _ _ _ A)|exact T].
    - exists (S n). rewrite ids_S, <- (next_id_of _ _ Es). cbn. rewrite En. auto.
  Qed.

  (** A block begins: the scheduler's call is made when it is due. *)
  Lemma J_agenda_run s : J s -> now s < since s + epoch -> (forall b, change_at s = Some b -> now s < b) -> J (run_agenda (next_block s)).
  Proof.
    intros [Hn Ha Hc Hq Ht Hs Hf Hl Hi] Hlt Hb. unfold run_agenda. cbn [next_block now agenda].
    destruct Ha as [Ea|(ks & Ea & Hnow & Ech & P)]; rewrite Ea.
    - cbn [List.filter fold_left]. split; cbn -[anns inss]; try assumption; try lia; auto.
      + intros E _. destruct (Hc E Ea) as (? & ? & ? & P). repeat split; try assumption; lia.
      + intros b E. destruct (Ht b E) as (-> & ? & _). specialize (Hb _ E). repeat split; try assumption; lia.
    - cbn [List.filter fst]. destruct (N.eqb_spec (since s + delay) (now s + 1)) as [Eq|Ne]; cbn [negb fold_left].
      + match goal with |- J (install ?t ?k) => destruct (J_install t (since s) k) as (Q & T & I); [exact P|exact Hl|exact Hi|] end.
        split; cbn -[anns inss]; try assumption; try lia; auto; try discriminate.
        intros b E. destruct (Ht b E) as (-> & ? & _). specialize (Hb _ E). repeat split; try assumption; lia.
      + split; cbn -[anns inss]; try assumption; try lia; auto.
        * right. exists ks. repeat split; try assumption; lia.
        * intros E K. discriminate K.
        * intros b E. destruct (Ht b E) as (-> & ? & _). specialize (Hb _ E). repeat split; try assumption; lia.
  Qed.

  (** The end of a block. *)
  Lemma J_check s : J s -> J (check_change mxd s) /\ (forall b, change_at (check_change mxd s) = Some b -> now s < b).
  Proof.
    intros Hj. pose proof Hj as [Hn Ha Hc Hq Ht Hs Hf Hl Hi]. unfold check_change. destruct (change_at s) as [b|] eqn:E; [|split; [exact Hj|congruence]].
    destruct (N.eqb_spec b (now s)) as [->|Ne]; [|split; [exact Hj|]; intros b' Eb; rewrite E in Eb; injection Eb as <-; destruct (Ht b eq_refl); lia].
    destruct (Ht _ eq_refl) as (Eb & Ef & _). assert (Ec : changed s = false).
    { destruct (changed s) eqn:C; [|reflexivity]. destruct Ha as [Ea|(ks & Ea & Hnow & _)]; [|lia]. destruct (Hc eq_refl Ea) as (_ & ? & _). congruence. }
    assert (Ea : agenda s = []) by (destruct Ha as [Ea|(ks & _ & _ & C & _)]; [exact Ea|congruence]).
    split; [|cbn; congruence]. unfold change. rewrite (proj1 Hf). split; cbn -[anns inss]; try assumption; auto; try discriminate.
    - intros _ _. repeat split; try assumption; try lia. exists (anns (rlog s)). split; [cbn; rewrite <- Eb; reflexivity|]. cbn. apply Hq. exact Ec.
  Qed.

  (** The session ends. *)
  Lemma J_rotate s elect rekey : J s -> since s + delay < now s -> (forall ks, elect = Some ks -> fits ks = true) -> fits rekey = true ->
    J (rotate delay epoch per mxd s elect rekey) /\ since (rotate delay epoch per mxd s elect rekey) = now s /\ now (rotate delay epoch per mxd s elect rekey) = now s.
  Proof.
    intros Hj Hlt He Hr. pose proof Hj as [Hn Ha Hc Hq Ht Hs Hf Hl Hi].
    assert (Ea : agenda s = []) by (destruct Ha as [Ea|(ks & _ & ? & _)]; [exact Ea|lia]).
    (* after [before_ending] *)
    assert (B : let t := before_ending delay per mxd s in now t = now s /\ queued t = queued s /\ change_at t = None /\ stopped t = changed t /\ told (rlog t) /\
      (exists n, map snd (inss (rlog t)) = ids n /\ setid t = N.of_nat n mod 2 ^ 64) /\
      ((changed t = false /\ agenda t = [] /\ map what (anns (rlog t)) = inss (rlog t)) \/ (changed t = true /\ agenda t = [(now s + delay, nexts s)] /\ pending t (now s) (nexts s)))).
    { cbv zeta. unfold before_ending. destruct (final s) eqn:F.
      - destruct (changed s) eqn:C.
        + destruct (Hc eq_refl Ea) as (_ & Ech & _ & P). destruct (J_install s _ _ P Hl Hi) as (Q & T & I). cbn [install now queued change_at stopped changed agenda]. do 6 (split; [assumption || reflexivity|]). left. auto.
        + unfold change. rewrite (proj1 Hf). cbn -[anns inss]. rewrite Ea. do 6 (split; [assumption || reflexivity|]). right. split; [reflexivity|]. split; [reflexivity|]. exists (anns (rlog s)). split; [reflexivity|]. cbn. apply Hq. reflexivity.
      - assert (C : changed s = false) by (destruct (changed s) eqn:C; [|reflexivity]; destruct (Hc eq_refl Ea); congruence).
        assert (E : change_at s = None) by (destruct (change_at s) as [b|] eqn:E; [|reflexivity]; destruct (Ht b eq_refl) as (_ & ? & _); congruence).
        do 6 (split; [assumption || reflexivity|]). left. auto. }
    cbv zeta in B. unfold rotate. cbv zeta. destruct (before_ending delay per mxd s) as [bn bs bi ba bc bst bf bq bk bx bid bat bch bsp bag blog]. cbn -[anns inss] in B.
    destruct B as (-> & -> & -> & -> & T & I & D).
    set (u := start_era (begin_session _)).
    assert (U : exists a', u = Rot (now s) (now s) (bi + 1) a' bc bst bf (queued s) bk bx bid None bch bch bag blog).
    { subst u. unfold start_era, begin_session. cbn. destruct (bst !! (ba + 1)) as [x|]; [destruct (x <=? bi + 1)|]; eauto. }
    destruct U as (a' & U). clearbody u. subst u. cbn [queued]. unfold note_session. cbn [now since sess act cur starts force queued notary nexts setid change_at changed stopped agenda rlog].
    set (v := plan _ _ _ _ _).
    assert (V : exists c' st' f' q', v = Rot (now s) (now s) (bi + 1) a' c' st' f' q' bk bx bid None bch bch bag (EvSession (bi + 1) a' (queued s) :: blog) /\ fits q' = true).
    { subst v. unfold plan. cbn. destruct (era_due _ _ _); [destruct elect as [ks|]|]; do 4 eexists; (split; [reflexivity|]); auto. }
    destruct V as (c' & st' & f' & q' & V & Fq). clearbody v. subst v. unfold on_new. cbn [now since sess act cur starts force queued notary nexts setid change_at changed stopped agenda rlog].
    split; [|split; reflexivity]. split; cbn -[anns inss]; try assumption; try lia; auto.
    - destruct D as [(_ & -> & _)|(-> & -> & P)]; [left; reflexivity|]. right. exists (nexts s). repeat split; [lia|exact P].
    - intros C E. destruct D as [(D & _)|(_ & D & _)]; congruence.
    - intros C. destruct D as [(_ & _ & Q)|(D & _)]; [exact Q|congruence].
    - intros b. unfold RotModel.final. cbn. destruct (_ || _); intros E; [|discriminate]. injection E as <-. repeat split; lia.
  Qed.

  Definition Inv (s : rot) : Prop := J s /\ now s < since s + epoch /\ (forall b, change_at s = Some b -> now s < b).
  (** Sessions take more than [delay] and at most [epoch] blocks; sets fit a message; a forced era is not called off. *)
  Definition allowed (s : rot) (o : rop) : bool :=
    match o with
    | RBlock None => now s + 1 <? since s + epoch
    | RBlock (Some (elect, rekey)) => (since s + delay <? now s + 1) && (now s + 1 <=? since s + epoch) && match elect with Some ks => fits ks | None => true end && fits rekey
    | RForce f => implb (forced (force s)) (forced f)
    end.
  Lemma run_agenda_keeps s : now (run_agenda s) = now s /\ since (run_agenda s) = since s.
  Proof.
    unfold run_agenda. set (t := Rot _ _ _ _ _ _ _ _ _ _ _ _ _ _ _ _). change (now s) with (now t). change (since s) with (since t). generalize (List.filter (λ e, fst e =? now t) (agenda s)). intros l.
    generalize t. clear t. induction l as [|e l IH]; intros t; [auto|]. cbn [fold_left]. destruct (IH (install t (snd e))) as [-> ->]. auto.
  Qed.
  Lemma check_keeps s : now (check_change mxd s) = now s /\ since (check_change mxd s) = since s.
  Proof. unfold check_change. destruct (change_at s) as [b|]; [destruct (b =? now s)|]; auto. Qed.
  Lemma Inv_step s o : Inv s -> allowed s o = true -> Inv (rstep delay epoch per mxd s o).
  Proof.
    intros (Hj & Hlt & Hb) Ho. destruct o as [ends|f]; cbn [rstep].
    - pose proof (J_agenda_run s Hj Hlt Hb) as J1. destruct (run_agenda_keeps (next_block s)) as [N1 S1]. cbn [next_block now since] in N1, S1. cbv zeta.
      set (s1 := run_agenda (next_block s)) in *. destruct ends as [[elect rekey]|]; cbn [allowed] in Ho.
      + rewrite !andb_true_iff in Ho. destruct Ho as (((A & B) & C) & D). apply N.ltb_lt in A. apply N.leb_le in B.
        destruct (J_rotate s1 elect rekey J1) as (J2 & S2 & N2); [lia|intros ks ->; exact C|exact D|]. set (s2 := rotate _ _ _ _ s1 elect rekey) in *.
        destruct (J_check s2 J2) as [J3 B3]. destruct (check_keeps s2) as [N3 S3]. split; [exact J3|]. rewrite N3, S3. split; [lia|exact B3].
      + apply N.ltb_lt in Ho. destruct (J_check s1 J1) as [J3 B3]. destruct (check_keeps s1) as [N3 S3]. split; [exact J3|]. rewrite N3, S3. split; [lia|exact B3].
    - split; [|split; [exact Hlt|exact Hb]]. destruct Hj as [Hn Ha Hc Hq Ht Hs Hf Hl Hi]. cbn [allowed] in Ho.
      assert (F : forall b, final s = b -> b = true -> RotModel.final per (Rot (now s) (since s) (sess s) (act s) (cur s) (starts s) f (queued s) (notary s) (nexts s) (setid s) (change_at s) (changed s) (stopped s) (agenda s) (rlog s)) = true).
      { unfold RotModel.final. cbn. intros b <- E. apply orb_true_iff in E. apply orb_true_iff. destruct E as [E|E]; [left; exact E|right]. destruct (force s), f; try reflexivity; discriminate. }
      split; cbn -[anns inss]; try assumption.
      + intros C E. destruct (Hc C E) as (A1 & A2 & A3 & A4). repeat split; try assumption. eapply F; [reflexivity|exact A1].
      + intros b E. destruct (Ht b E) as (A1 & A2 & A3). repeat split; try assumption. eapply F; [reflexivity|exact A2].
  Qed.
  Lemma Inv_run g ops : fits g = true -> along (rstep delay epoch per mxd) (fun s o => allowed s o = true) ops (rot0 g) -> Inv (run (rstep delay epoch per mxd) ops (rot0 g)).
  Proof.
    intros Hg H. refine (run_along _ (fun s o => allowed s o = true) Inv _ ops (rot0 g) H _); [intros s o A I; exact (Inv_step s o I A)|].
    split; [|split; [cbn; lia|discriminate]]. split; cbn; try lia; auto; try discriminate.
    - split; [unfold RotModel.fits; cbn; apply N.leb_le; lia|exact Hg].
    - exists 0%nat. auto.
  Qed.

  (** ** Eras that change by themselves *)
  (** The keys with which the validators entered the latest era. *)
  Fixpoint in_charge (l : list rev) : N * keys :=
    match l with
    | [] => (0, [])
    | [EvSession _ e ks] => (e, ks)
    | EvSession _ e ks :: l' => if e =? fst (in_charge l') then in_charge l' else (e, ks)
    | _ :: l' => in_charge l'
    end.
  Lemma in_charge_session i e ks l : l <> [] -> in_charge (EvSession i e ks :: l) = if e =? fst (in_charge l) then in_charge l else (e, ks).
  Proof. destruct l; [contradiction|reflexivity]. Qed.
  Hypothesis Hper : 2 <= per.
  Record Nat_ (s : rot) : Prop := {
    N_force : force s = NotForcing;
    N_free : forall e, cur s < e -> starts s !! e = None;
    N_era : (cur s = act s /\ exists c, starts s !! cur s = Some c /\ c <= sess s /\ sess s + 1 < c + per) \/
            (cur s = act s + 1 /\ starts s !! cur s = Some (sess s + 1) /\ exists a, starts s !! act s = Some a /\ sess s + 1 = a + per);
    N_nexts : sess s = 0 \/ nexts s = queued s;
    N_log : rlog s <> [];
    N_charge : fst (in_charge (rlog s)) = act s;
    N_keys : agenda s = [] -> notary s = snd (in_charge (rlog s));
    N_agenda : forall b ks, List.In (b, ks) (agenda s) -> ks = snd (in_charge (rlog s)) }.
  Lemma Nat_final s : Nat_ s -> final s = (cur s =? act s + 1).
  Proof.
    intros [F _ E _ _ _ _ _]. unfold RotModel.final. rewrite F, orb_false_r.
    destruct E as [(E & c & Es & L1 & L2)|(E & _ & a & Es & L)].
    - rewrite <- E, Es. destruct (N.eqb_spec (sess s) (c + (per - 1))); destruct (N.eqb_spec (cur s) (cur s + 1)); try reflexivity; lia.
    - rewrite Es, E, N.eqb_refl. apply N.eqb_eq. lia.
  Qed.
  Definition natural (s : rot) (o : rop) : bool :=
    match o with RBlock None => true | RBlock (Some (elect, _)) => match elect with Some _ => true | None => false end | RForce _ => false end.

  Lemma Nat_agenda s : J s -> Nat_ s -> Nat_ (run_agenda (next_block s)).
  Proof.
    intros Hj Hn. pose proof Hn as [F1 F2 F3 F4 F5 F6 F7 F8]. unfold run_agenda. cbn [next_block now agenda].
    destruct (J_agenda _ Hj) as [Ea|(ks & Ea & _)]; rewrite Ea.
    - cbn [List.filter fold_left]. split; cbn [force starts cur act sess nexts queued rlog agenda notary next_block]; auto. intros b ks [].
    - cbn [List.filter fst]. destruct (since s + delay =? now s + 1); cbn [negb fold_left].
      + assert (K : ks = snd (in_charge (rlog s))) by (apply (F8 (since s + delay)); rewrite Ea; left; reflexivity).
        assert (C : forall id, in_charge (EvInstall ks id :: rlog s) = in_charge (rlog s)) by (intros id; reflexivity).
        split; cbn [force starts cur act sess nexts queued rlog agenda notary next_block install snd]; auto; rewrite ?C; auto; try discriminate. intros b k [].
      + split; cbn [force starts cur act sess nexts queued rlog agenda notary next_block]; auto; try discriminate. intros b k [E|[]]. injection E as <- <-. apply (F8 (since s + delay)). rewrite Ea. left. reflexivity.
  Qed.
  Lemma Nat_check s : Nat_ s -> Nat_ (check_change mxd s).
  Proof.
    intros Hn. pose proof Hn as [F1 F2 F3 F4 F5 F6 F7 F8]. unfold check_change. destruct (change_at s) as [b|]; [|exact Hn]. destruct (b =? now s); [|exact Hn].
    assert (C : forall e, in_charge (if fits (nexts s) then EvAnnounce (now s) (nexts s) e :: rlog s else rlog s) = in_charge (rlog s)) by (intros e; destruct (fits (nexts s)); reflexivity).
    split; cbn [change force starts cur act sess nexts queued rlog agenda notary]; rewrite ?C; auto. destruct (fits (nexts s)); [discriminate|assumption].
  Qed.
  Lemma Nat_rotate s ks rekey : J s -> Nat_ s -> since s + delay < now s -> Nat_ (rotate delay epoch per mxd s (Some ks) rekey).
  Proof.
    intros Hj Hn Hlt. pose proof (Nat_final s Hn) as Hfin. pose proof Hj as [_ Ha Hc _ _ _ [Hf _] _ _]. pose proof Hn as [F1 F2 F3 F4 F5 F6 F7 F8].
    assert (Ea : agenda s = []) by (destruct Ha as [Ea|(k & _ & ? & _)]; [exact Ea|lia]). specialize (F7 Ea).
    unfold rotate. cbv zeta. destruct F3 as [(E & c & Es & L1 & L2)|(E & Ec & a & Es & L)].
    - (* inside the era *)
      assert (Ef : final s = false) by (rewrite Hfin; apply N.eqb_neq; lia). unfold before_ending. rewrite Ef. unfold start_era. cbn [begin_session starts act sess]. rewrite F2 by lia.
      unfold note_session, plan, era_due. cbn [begin_session starts act sess force cur now since queued notary nexts setid change_at changed stopped agenda rlog]. rewrite F1, Es. cbn [default]. unfold id.
      assert (C : forall i k, in_charge (EvSession i (act s) k :: rlog s) = in_charge (rlog s)) by (intros i k; rewrite in_charge_session by exact F5; rewrite F6, N.eqb_refl; reflexivity).
      destruct (N.leb_spec per (sess s + 1 + 1 - c)) as [D|D].
      + split; cbn [on_new starts act sess force cur queued notary nexts agenda rlog]; rewrite ?C; auto; try discriminate.
        * intros e He. rewrite lookup_insert_ne by lia. apply F2. lia.
        * right. split; [lia|]. rewrite lookup_insert. split; [reflexivity|]. exists c. rewrite lookup_insert_ne by lia. rewrite <- E. split; [exact Es|lia].
      + split; cbn [on_new starts act sess force cur queued notary nexts agenda rlog]; rewrite ?C; auto; try discriminate.
        left. split; [exact E|]. exists c. repeat split; auto; lia.
    - (* its last session *)
      assert (Ef : final s = true) by (rewrite Hfin; apply N.eqb_eq; exact E). assert (Eq : nexts s = queued s) by (destruct F4 as [F4|F4]; [lia|exact F4]).
      unfold before_ending. rewrite Ef. destruct (changed s).
      + unfold start_era. cbn [install begin_session starts act sess]. rewrite <- E, Ec. destruct (N.leb_spec (sess s + 1) (sess s + 1)) as [_|]; [|lia].
        unfold note_session, plan, era_due. cbn [install begin_session starts act sess force cur now since queued notary nexts setid change_at changed stopped agenda rlog]. rewrite F1, Ec. cbn [default]. unfold id.
        destruct (N.leb_spec per (sess s + 1 + 1 - (sess s + 1))) as [D|_]; [lia|].
        assert (C : forall i j k, in_charge (EvSession i (cur s) k :: EvInstall (nexts s) j :: rlog s) = (cur s, k)).
        { intros i j k. rewrite in_charge_session by discriminate. change (in_charge (EvInstall (nexts s) j :: rlog s)) with (in_charge (rlog s)). rewrite F6. destruct (N.eqb_spec (cur s) (act s)); [lia|reflexivity]. }
        split; cbn [on_new starts act sess force cur queued notary nexts agenda rlog]; rewrite ?C; auto; try discriminate.
        * left. split; [reflexivity|]. exists (sess s + 1). repeat split; auto; lia.
        * rewrite Ea. intros b k [].
      + unfold start_era. cbn [change begin_session starts act sess]. rewrite <- E, Ec. destruct (N.leb_spec (sess s + 1) (sess s + 1)) as [_|]; [|lia].
        unfold note_session, plan, era_due. cbn [change begin_session starts act sess force cur now since queued notary nexts setid change_at changed stopped agenda rlog]. rewrite F1, Ec, Hf. cbn [default]. unfold id.
        destruct (N.leb_spec per (sess s + 1 + 1 - (sess s + 1))) as [D|_]; [lia|].
        assert (C : forall i b j k, in_charge (EvSession i (cur s) k :: EvAnnounce b (nexts s) j :: rlog s) = (cur s, k)).
        { intros i b j k. rewrite in_charge_session by discriminate. change (in_charge (EvAnnounce b (nexts s) j :: rlog s)) with (in_charge (rlog s)). rewrite F6. destruct (N.eqb_spec (cur s) (act s)); [lia|reflexivity]. }
        split; cbn [on_new starts act sess force cur queued notary nexts agenda rlog]; rewrite ?C; auto; try discriminate.
        * left. split; [reflexivity|]. exists (sess s + 1). repeat split; auto; lia.
        * rewrite Ea. discriminate.
        * rewrite Ea. intros b k [K|[]]. injection K as <- <-. exact Eq.
  Qed.

  Lemma Nat_step s o : Inv s -> Nat_ s -> allowed s o = true -> natural s o = true -> Nat_ (rstep delay epoch per mxd s o).
  Proof.
    intros (Hj & Hlt & Hb) Hn Ho Hnat. destruct o as [ends|f]; [|discriminate]. cbn [rstep]. cbv zeta.
    pose proof (J_agenda_run s Hj Hlt Hb) as J1. pose proof (Nat_agenda s Hj Hn) as N1. destruct (run_agenda_keeps (next_block s)) as [E1 S1]. cbn [next_block now since] in E1, S1.
    set (s1 := run_agenda (next_block s)) in *. apply Nat_check. destruct ends as [[elect rekey]|]; [|exact N1]. cbn [natural] in Hnat. destruct elect as [ks|]; [|discriminate].
    cbn [allowed] in Ho. rewrite !andb_true_iff in Ho. destruct Ho as (((A & _) & _) & _). apply N.ltb_lt in A. apply Nat_rotate; [exact J1|exact N1|lia].
  Qed.
  Lemma Nat_run g ops : fits g = true -> along (rstep delay epoch per mxd) (fun s o => allowed s o = true /\ natural s o = true) ops (rot0 g) ->
    Inv (run (rstep delay epoch per mxd) ops (rot0 g)) /\ Nat_ (run (rstep delay epoch per mxd) ops (rot0 g)).
  Proof.
    intros Hg H. refine (run_along _ (fun s o => allowed s o = true /\ natural s o = true) (fun s => Inv s /\ Nat_ s) _ ops (rot0 g) H _).
    - intros s o [A N] [I K]. split; [exact (Inv_step s o I A)|exact (Nat_step s o I K A N)].
    - split; [exact (Inv_run g [] Hg I)|]. split; cbn; auto; try discriminate; try contradiction.
      + intros e He. apply lookup_singleton_ne. lia.
      + left. split; [reflexivity|]. exists 0. rewrite lookup_singleton. repeat split; lia.
  Qed.
End proofs.
