(** Multi-block migrations: the theorems. *)
From Verif Require Import MigrationModel MigrationProofs.

Section props.
  Variable D : Type.
  Variables max_weight base : weight.
  Variable reads : N -> weight.
  Notation mst := (mst D).
  Notation migration := (migration D).
  Notation mop := (mop D).
  Notation migrate := (migrate D max_weight base reads).
  Notation mstep := (mstep D max_weight base reads).
  Notation ready := (ready D max_weight base).
  Notation ensure_migrated := (ensure_migrated D).
  Notation upgrade := (upgrade D).

  (** No upgrade drops a migration before it is complete: an upgrade in its course still has a migration to do. *)
  Definition orderly (s : mst) (o : mop) : Prop :=
    match o with MUpgrade _ m => in_progress D s = true -> mg_ok D m (m_data D s) = false | _ => True end.
  (** Nobody else writes what is being migrated, and upgrades in its course are to runtimes with the same migration. *)
  Definition quiet (m : migration) (s : mst) (o : mop) : Prop :=
    match o with
    | MUpgrade _ m' => m' = m /\ in_progress D s = true /\ mg_ok D m (m_data D s) = false
    | MElse _ _ => False
    | _ => True
    end.
  (** A settings call or the end of a block. *)
  Lemma settings_only s o : match o with MEnable _ _ _ | MDelay _ _ _ | MLimit _ _ _ => True | _ => False end ->
    m_data D (mstep s o) = m_data D s /\ m_status D (mstep s o) = m_status D s /\ m_key D (mstep s o) = m_key D s /\ m_cur D (mstep s o) = m_cur D s /\
    m_starts D (mstep s o) = m_starts D s /\ m_ends D (mstep s o) = m_ends D s /\ (0 < m_limit D s -> 0 < m_limit D (mstep s o)).
  Proof.
    destruct o as [b r|root on|root dl|root l|m|f]; cbn [MigrationModel.mstep]; intros []; unfold enable, set_delay, set_limit; destruct root; cbn; auto 10.
    - destruct (match dl with Some d => 1 <? d | None => true end); cbn; auto 10.
    - destruct (N.ltb_spec 0 l); cbn; auto 10.
  Qed.

  (** ** C169: a migration starts at the first item *)
  Definition tidy (s : mst) : Prop := in_progress D s = false -> m_key D s = None.
  Lemma tidy_step s o : orderly s o -> tidy s -> tidy (mstep s o).
  Proof.
    intros Ho Ht. unfold tidy, in_progress in *.
    destruct o as [b r|root on|root dl|root l|m|f].
    - cbn [MigrationModel.mstep]. destruct (migrate_effect D max_weight base reads s b r) as [_ ->|prev j d k _ _ _ _ -> _|prev j d _ _ _ _ _ ->]; [exact Ht|discriminate|reflexivity].
    - destruct (settings_only s (MEnable D root on) I) as (_ & -> & -> & _). exact Ht.
    - destruct (settings_only s (MDelay D root dl) I) as (_ & -> & -> & _). exact Ht.
    - destruct (settings_only s (MLimit D root l) I) as (_ & -> & -> & _). exact Ht.
    - cbn [MigrationModel.mstep]. cbn [orderly] in Ho. unfold upgrade, in_progress in *. destruct (mg_ok D m (m_data D s)); cbn [m_status m_key].
      + destruct (m_status D s); intros _; apply Ht; try reflexivity. discriminate (Ho eq_refl).
      + destruct (m_status D s); cbn; [discriminate|exact Ht|discriminate].
    - exact Ht.
  Qed.
  Lemma tidy_run ops s : along mstep orderly ops s -> tidy s -> tidy (run mstep ops s).
  Proof. revert s. induction ops as [|o ops IH]; intros s Ha Ht; [exact Ht|]. cbn in Ha. destruct Ha as [H1 H2]. cbn. apply IH; [exact H2|apply tidy_step; assumption]. Qed.
  Theorem C169_first d ops m : along mstep orderly ops (minit D d) -> let s := run mstep ops (minit D d) in
    in_progress D s = false -> mg_ok D m (m_data D s) = false ->
    m_status D (upgrade s m) = MProgress 0 /\ m_key D (upgrade s m) = None /\ m_cur D (upgrade s m) = m /\ m_data D (upgrade s m) = m_data D s /\
    m_starts D (upgrade s m) = m_starts D s + 1.
  Proof.
    intros Ha s Hp Hm. assert (Ht : tidy s) by (apply tidy_run; [exact Ha|intros _; reflexivity]). unfold MigrationModel.upgrade. rewrite Hm, Hp. cbn. auto.
  Qed.

  (** ** C166: however it is spread over blocks, a migration does what it would do in one go *)
  Definition after (m : migration) (d0 : D) (ends : list N) (n : nat) (s : mst) : Prop :=
    (m_status D s = MProgress (sat U32MAX (N.of_nat n)) /\ ideal m n d0 None = (m_data D s, Some (m_key D s)) /\ m_ends D s = ends) \/
    (m_status D s = MCompleted /\ m_key D s = None /\ m_ends D s = ends ++ [sat U32MAX (N.of_nat n)] /\
     exists d, ideal m n d0 None = (d, None) /\ (forall i, (i < n)%nat -> snd (ideal m i d0 None) <> None) /\ m_data D s = mg_done D m d).
  Lemma sat_add a n : sat U32MAX (sat U32MAX a + n) = sat U32MAX (a + n).
  Proof. unfold sat. lia. Qed.
  Lemma ideal_before (m : migration) n j d0 k0 d k i : ideal m n d0 k0 = (d, Some k) -> (forall i, (i < j)%nat -> snd (ideal m i d k) <> None) ->
    (i < n + j)%nat -> snd (ideal m i d0 k0) <> None.
  Proof.
    intros H Hj Hi. destruct (Nat.lt_ge_cases i n) as [L|L].
    - destruct (ideal m i d0 k0) as [d1 [k1|]] eqn:E; [discriminate|]. rewrite (ideal_prefix m i n d0 k0 d1 E) in H by lia. discriminate.
    - replace i with (n + (i - n))%nat by lia. rewrite (ideal_app m n (i - n) d0 k0 d k H). apply Hj. lia.
  Qed.
  Lemma after_step m d0 ends n s o : m_cur D s = m -> quiet m s o -> after m d0 ends n s ->
    m_cur D (mstep s o) = m /\
    exists n', after m d0 ends n' (mstep s o) /\ (n <= n')%nat /\
      match o with MIdle _ b r => ready s b r = true -> (n < n')%nat \/ m_status D (mstep s o) = MCompleted | _ => True end.
  Proof.
    intros Hc Hq Ha.
    destruct o as [b r|root on|root dl|root l|m'|f]; try contradiction Hq.
    2: destruct (settings_only s (MEnable D root on) I) as (E1 & E2 & E3 & E4 & E5 & E6 & _).
    3: destruct (settings_only s (MDelay D root dl) I) as (E1 & E2 & E3 & E4 & E5 & E6 & _).
    4: destruct (settings_only s (MLimit D root l) I) as (E1 & E2 & E3 & E4 & E5 & E6 & _).
    2-4: rewrite E4; split; [exact Hc|]; exists n; split; [|split; [lia|exact I]]; unfold after; rewrite E1, E2, E3, E6; exact Ha.
    - cbn [MigrationModel.mstep].
      destruct (migrate_effect D max_weight base reads s b r) as [R E|prev j d k Es Eo Ej Ei E R|prev j d Es Eo Ej Ei Ef E]; rewrite E; clear E.
      + split; [exact Hc|]. exists n. split; [exact Ha|]. split; [lia|]. rewrite R. discriminate.
      + split; [exact Hc|]. destruct Ha as [(A1 & A2 & A3)|(A1 & _)]; [|congruence]. rewrite Hc in *. rewrite Es in A1. injection A1 as ->.
        exists (n + j)%nat. split; [|split; [lia|intros X; left; apply R in X; lia]]. left. cbn [m_status m_data m_key m_ends].
        split; [rewrite sat_add, Nat2N.inj_add; reflexivity|]. split; [rewrite (ideal_app _ _ _ _ _ _ _ A2); exact Ei|exact A3].
      + split; [exact Hc|]. destruct Ha as [(A1 & A2 & A3)|(A1 & _)]; [|congruence]. rewrite Hc in *. rewrite Es in A1. injection A1 as ->.
        exists (n + j)%nat. split; [|split; [lia|intros _; right; reflexivity]]. right. cbn [m_status m_data m_key m_ends].
        split; [reflexivity|]. split; [reflexivity|]. split; [rewrite A3, sat_add, Nat2N.inj_add; reflexivity|]. exists d.
        split; [rewrite (ideal_app _ _ _ _ _ _ _ A2); exact Ei|]. split; [|reflexivity]. intros i Hi. exact (ideal_before m n j d0 None _ _ i A2 Ef Hi).
    - destruct Hq as (-> & Hp & Ho). cbn [MigrationModel.mstep]. unfold MigrationModel.upgrade. rewrite Ho, Hp. split; [reflexivity|]. exists n.
      split; [exact Ha|]. split; [lia|exact I].
  Qed.
  (** The number of blocks in which something can be migrated. *)
  Fixpoint readies (ops : list mop) (s : mst) : nat :=
    match ops with
    | [] => 0
    | o :: ops' => (match o with MIdle _ b r => if ready s b r then 1 else 0 | _ => 0 end + readies ops' (mstep s o))%nat
    end.
  Lemma completed_quiet m ops s : m_status D s = MCompleted -> along mstep (quiet m) ops s ->
    m_status D (run mstep ops s) = MCompleted.
  Proof.
    revert s. induction ops as [|o ops IH]; intros s Hs Ha; [exact Hs|]. destruct Ha as [Hq Ha]. cbn. apply IH; [|exact Ha].
    destruct o as [b r|root on|root dl|root l|m'|f]; try contradiction Hq.
    - cbn [MigrationModel.mstep]. destruct (migrate_effect D max_weight base reads s b r) as [_ ->|prev j d k Es _ _ _ _ _|prev j d Es _ _ _ _ _]; [exact Hs|congruence|congruence].
    - destruct (settings_only s (MEnable D root on) I) as (_ & -> & _). exact Hs.
    - destruct (settings_only s (MDelay D root dl) I) as (_ & -> & _). exact Hs.
    - destruct (settings_only s (MLimit D root l) I) as (_ & -> & _). exact Hs.
    - destruct Hq as (_ & Hp & _). unfold in_progress in Hp. rewrite Hs in Hp. discriminate.
  Qed.
  Lemma after_run m d0 ends ops s n : m_cur D s = m -> along mstep (quiet m) ops s -> after m d0 ends n s ->
    exists n', after m d0 ends n' (run mstep ops s) /\ (m_status D (run mstep ops s) = MCompleted \/ (n + readies ops s <= n')%nat).
  Proof.
    revert s n. induction ops as [|o ops IH]; intros s n Hc Ha Hn; [exists n; split; [exact Hn|right; cbn; lia]|].
    destruct Ha as [Hq Ha]. destruct (after_step m d0 ends n s o Hc Hq Hn) as (Hc' & n1 & Hn1 & L1 & R).
    destruct (IH _ n1 Hc' Ha Hn1) as (n' & Hn' & L). exists n'. cbn [run fold_left]. split; [exact Hn'|].
    destruct L as [L|L]; [left; exact L|]. cbn [readies].
    destruct o as [b r|root on|root dl|root l|m'|f]; try (right; lia).
    destruct (ready s b r) eqn:Er; [|right; lia]. destruct (R eq_refl) as [X|X]; [right; lia|]. left. exact (completed_quiet m ops _ X Ha).
  Qed.
  (** A history in which an upgrade starts the migration [m], and what follows it. *)
  Definition begun (d : D) (ops0 ops : list mop) (m : migration) : Prop :=
    let s1 := run mstep ops0 (minit D d) in
    along mstep orderly ops0 (minit D d) /\ in_progress D s1 = false /\ mg_ok D m (m_data D s1) = false /\
    along mstep (quiet m) ops (upgrade s1 m).
  Lemma begun_after d ops0 ops m : begun d ops0 ops m -> let s1 := run mstep ops0 (minit D d) in
    m_cur D (upgrade s1 m) = m /\ after m (m_data D s1) (m_ends D s1) 0 (upgrade s1 m).
  Proof.
    intros (B1 & B2 & B3 & B4) s1. destruct (C169_first d ops0 m B1 B2 B3) as (S1 & S2 & S3 & S4 & _). split; [exact S3|]. left. fold s1 in S1, S2, S3, S4.
    split; [rewrite S1; reflexivity|]. split; [cbn [ideal]; rewrite S2, S4; reflexivity|]. unfold MigrationModel.upgrade. fold s1 in B2, B3. rewrite B3, B2. reflexivity.
  Qed.
  Theorem C166_in_one_go d ops0 ops m : begun d ops0 ops m -> let s1 := run mstep ops0 (minit D d) in let s := run mstep (ops0 ++ MUpgrade D m :: ops) (minit D d) in
    exists n,
      (m_status D s = MProgress (sat U32MAX (N.of_nat n)) /\ ideal m n (m_data D s1) None = (m_data D s, Some (m_key D s)) /\ m_ends D s = m_ends D s1) \/
      (m_status D s = MCompleted /\ m_key D s = None /\ m_ends D s = m_ends D s1 ++ [sat U32MAX (N.of_nat n)] /\
       exists d', ideal m n (m_data D s1) None = (d', None) /\ (forall i, (i < n)%nat -> snd (ideal m i (m_data D s1) None) <> None) /\ m_data D s = mg_done D m d').
  Proof.
    intros H s1 s. destruct (begun_after d ops0 ops m H) as [Hc Ha]. destruct H as (_ & _ & _ & Hq).
    destruct (after_run m _ _ ops _ 0 Hc Hq Ha) as (n & Hn & _). exists n. unfold s. rewrite run_app. exact Hn.
  Qed.

  (** ** C167: it gets done, and nothing else that needs the data goes on meanwhile *)
  Theorem C167_finishes d ops0 ops m T d' : begun d ops0 ops m -> let s1 := run mstep ops0 (minit D d) in let s := run mstep (ops0 ++ MUpgrade D m :: ops) (minit D d) in
    ideal m T (m_data D s1) None = (d', None) -> (T <= readies ops (upgrade s1 m))%nat ->
    m_status D s = MCompleted /\ m_data D s = mg_done D m d' /\ is_ok (ensure_migrated s) = true.
  Proof.
    intros H s1 s HT Hr. destruct (begun_after d ops0 ops m H) as [Hc Ha]. destruct H as (_ & _ & _ & Hq).
    destruct (after_run m _ _ ops _ 0 Hc Hq Ha) as (n & Hn & L). fold s1 in Hn, L, Hq.
    assert (Es : run mstep ops (upgrade s1 m) = s) by (unfold s, s1; rewrite run_app; reflexivity). rewrite Es in *.
    destruct Hn as [(A1 & A2 & _)|(A1 & _ & _ & d1 & A2 & A3 & A4)].
    - exfalso. destruct L as [L|L]; [congruence|]. cbn [Nat.add] in L. rewrite (ideal_prefix m T n _ _ _ HT) in A2 by lia. discriminate.
    - split; [exact A1|]. split; [|unfold MigrationModel.ensure_migrated, in_progress; rewrite A1; reflexivity]. rewrite A4. f_equal.
      destruct (Nat.le_ge_cases n T) as [X|X]; [rewrite (ideal_prefix m n T _ _ _ A2) in HT by exact X|rewrite (ideal_prefix m T n _ _ _ HT) in A2 by exact X]; congruence.
  Qed.
  (** The guard of other pallets: refused exactly from a start to the end. *)
  Theorem C167_guard d ops : along mstep orderly ops (minit D d) -> let s := run mstep ops (minit D d) in
    m_starts D s = N.of_nat (length (m_ends D s)) + (if is_ok (ensure_migrated s) then 0 else 1).
  Proof.
    intros Ha. cbv zeta. revert Ha. enough (G : forall s, m_starts D s = N.of_nat (length (m_ends D s)) + (if is_ok (ensure_migrated s) then 0 else 1) ->
      along mstep orderly ops s -> m_starts D (run mstep ops s) = N.of_nat (length (m_ends D (run mstep ops s))) + (if is_ok (ensure_migrated (run mstep ops s)) then 0 else 1)) by (intros Ha; apply G; [reflexivity|exact Ha]).
    induction ops as [|o ops IH]; intros s Hs Ha; [exact Hs|]. destruct Ha as [Ho Ha]. cbn. apply IH; [|exact Ha]. clear IH Ha.
    unfold MigrationModel.ensure_migrated, in_progress in *.
    destruct o as [b r|root on|root dl|root l|m'|f].
    - cbn [MigrationModel.mstep]. destruct (migrate_effect D max_weight base reads s b r) as [_ ->|prev j d' k Es _ _ _ -> _|prev j d' Es _ _ _ _ ->]; [exact Hs| |]; rewrite Es in Hs; cbn in *; [exact Hs|].
      rewrite app_length, Nat2N.inj_add. cbn. lia.
    - destruct (settings_only s (MEnable D root on) I) as (_ & -> & _ & _ & -> & -> & _). exact Hs.
    - destruct (settings_only s (MDelay D root dl) I) as (_ & -> & _ & _ & -> & -> & _). exact Hs.
    - destruct (settings_only s (MLimit D root l) I) as (_ & -> & _ & _ & -> & -> & _). exact Hs.
    - cbn [MigrationModel.mstep]. cbn [orderly] in Ho. unfold MigrationModel.upgrade, in_progress in *. destruct (mg_ok D m' (m_data D s)); destruct (m_status D s); cbn in *; try lia; discriminate (Ho eq_refl).
    - exact Hs.
  Qed.
  (** Paused, in a block that is to be left out, or with no weight left, nothing is migrated; only root changes the settings. *)
  Theorem C167_paused s block rem : m_on D s = false \/ (exists n, m_delay D s = Some n /\ block mod n <> 0) \/ in_progress D s = false ->
    fst (migrate s block rem) = s.
  Proof.
    intros H. unfold MigrationModel.migrate, in_progress in *. cbv zeta. destruct (wlt _ _); [reflexivity|].
    destruct (m_status D s); try reflexivity. destruct H as [->|[(n & -> & Hn)|]]; [reflexivity| |discriminate].
    apply N.eqb_neq in Hn. rewrite Hn. destruct (m_on D s); reflexivity.
  Qed.
  Theorem C167_root s o :
    match o with
    | MEnable _ true _ | MDelay _ true _ | MLimit _ true _ => True
    | MEnable _ false _ | MDelay _ false _ | MLimit _ false _ => mstep s o = s
    | _ => m_on D (mstep s o) = m_on D s /\ m_delay D (mstep s o) = m_delay D s /\ m_limit D (mstep s o) = m_limit D s
    end.
  Proof.
    destruct o as [b r|[] on|[] dl|[] l|m'|f]; try exact I; try reflexivity.
    - cbn [MigrationModel.mstep]. destruct (migrate_effect D max_weight base reads s b r) as [_ ->|prev j d' k _ _ _ _ -> _|prev j d' _ _ _ _ _ ->]; repeat split.
    - cbn [MigrationModel.mstep]. unfold MigrationModel.upgrade. destruct (mg_ok D m' (m_data D s)); [repeat split|]. destruct (in_progress D s); repeat split.
    - repeat split.
  Qed.
  Theorem C167_set s on d l : m_on D (mstep s (MEnable D true on)) = on /\
    m_delay D (mstep s (MDelay D true d)) = (if match d with Some n => 1 <? n | None => true end then d else m_delay D s) /\
    m_limit D (mstep s (MLimit D true l)) = (if 0 <? l then l else m_limit D s).
  Proof.
    cbn [MigrationModel.mstep]. unfold set_delay, set_limit, enable. cbn [ensure rbind].
    destruct (match d with Some n => 1 <? n | None => true end), (0 <? l); repeat split.
  Qed.
  (** There is always a step allowed, and no delay that leaves out all blocks or divides by zero. *)
  Theorem C167_settings ops d : let s := run mstep ops (minit D d) in 0 < m_limit D s /\ forall n, m_delay D s = Some n -> 1 < n.
  Proof.
    cbv zeta. split; [apply limit_pos|]. apply (run_inv mstep (fun s => forall n, m_delay D s = Some n -> 1 < n)); [|discriminate]. intros s o H.
    destruct o as [b r|root on|root dl|root l|m'|f].
    - cbn [MigrationModel.mstep]. destruct (migrate_effect D max_weight base reads s b r) as [_ ->|prev j d' k _ _ _ _ -> _|prev j d' _ _ _ _ _ ->]; exact H.
    - destruct root; exact H.
    - destruct root; [|exact H]. rewrite (proj1 (proj2 (C167_set s true dl 0))). intros n. destruct dl as [x|]; [|discriminate].
      destruct (N.ltb_spec 1 x); [intros E; injection E as <-; assumption|apply H].
    - destruct root; [|exact H]. cbn [MigrationModel.mstep]. unfold set_limit. cbn [ensure rbind]. destruct (0 <? l); exact H.
    - cbn [MigrationModel.mstep]. unfold MigrationModel.upgrade. destruct (mg_ok D m' (m_data D s)); [exact H|]. destruct (in_progress D s); exact H.
    - exact H.
  Qed.

  (** ** C168: what a block spends on it *)
  Theorem C168_steps s block rem a b : m_status D s = MProgress a -> m_status D (fst (migrate s block rem)) = MProgress b -> b <= a + m_limit D s.
  Proof.
    intros Ha Hb. destruct (migrate_effect D max_weight base reads s block rem) as [_ E|prev j d k Es _ Ej _ E _|prev j d Es _ _ _ _ E]; rewrite E in Hb; cbn in Hb.
    - rewrite Ha in Hb. injection Hb as ->. lia.
    - rewrite Ha in Es. injection Es as <-. injection Hb as <-. unfold sat. lia.
    - discriminate.
  Qed.
  (** Steps that keep to their own maximum: at most one of them beyond the weight left, and never more than the block
      limit of them.  The other answers are those of blocks without migration. *)
  Theorem C168_weight s block rem : (forall d k, wle (fst (snd (mg_step D (m_cur D s) d k))) (mg_max D (m_cur D s))) ->
    let u := snd (migrate s block rem) in let w := wmin rem max_weight in let x := mg_max D (m_cur D s) in
    u = (0, 0) \/ u = reads 1 \/ u = reads 2 \/ u = reads 3 \/
    ((u = base \/ wle u (fst w + fst x, snd w + snd x)) /\
     wle u (fst base + m_limit D s * fst x, snd base + m_limit D s * snd x)).
  Proof.
    intros Hm. cbv zeta. unfold MigrationModel.migrate. cbv zeta. destruct (wlt _ _); [left; reflexivity|right].
    destruct (m_status D s); try (left; reflexivity). right. destruct (m_on D s); cbn [negb]; [|left; reflexivity]. right.
    destruct (match m_delay D s with Some d => _ | None => _ end); [left; reflexivity|]. right.
    pose proof (mloop_weight D reads (m_cur D s) (wmin rem max_weight) (N.to_nat (m_limit D s)) (m_data D s) (m_key D s) base 0 Hm) as [A B].
    rewrite N2Nat.id in B.
    destruct (mloop D (m_cur D s) (wmin rem max_weight) (N.to_nat (m_limit D s)) (m_data D s) (m_key D s) base 0) as [[[d u] n] k]. cbn [fst snd] in A, B.
    unfold wle. destruct k; cbn [fst snd]; (split; [|exact B]); destruct A as [A|A]; auto.
  Qed.
  (** If all the steps that the block limit allows fit, the weight is respected. *)
  Theorem C168_within s block rem : (forall d k, wle (fst (snd (mg_step D (m_cur D s) d k))) (mg_max D (m_cur D s))) ->
    wle (reads 1) rem -> wle (reads 2) rem -> wle (reads 3) rem ->
    let x := mg_max D (m_cur D s) in wle (fst base + m_limit D s * fst x, snd base + m_limit D s * snd x) rem ->
    wle (snd (migrate s block rem)) rem.
  Proof.
    intros Hm R1 R2 R3 x Hx. destruct (C168_weight s block rem Hm) as [->|[->|[->|[->|[_ H]]]]]; try assumption.
    - split; cbn; lia.
    - unfold wle in *. fold x in H. cbn [fst snd] in *. lia.
  Qed.
End props.

(** ** Concrete cases: four items, each to be set to the version that is migrated to *)
Definition data : Type := N * list N.
Definition item (k : option key) : nat := match k with Some [i] => S (N.to_nat i) | _ => 0 end.
Definition mig (v : N) : migration data :=
  Migration data (fun d k => let i := item k in
    if Nat.ltb i (length (snd d)) then ((fst d, <[i := v]> (snd d)), ((10, 10), Some [N.of_nat i])) else (d, ((5, 5), None)))
    (10, 10) (fun d => fst d =? v) (fun d => (v, snd d)).
Definition W : weight := (1000, 1000).
Definition ms := mstep data W (20, 20) (fun n => (n, n)).
Definition d4 : data := (0, [0; 0; 0; 0]).
(** Two items per block, a pause and a block left out: done in five steps after four blocks. *)
Definition h0 : list (mop data) := [MEnable data true true; MLimit data true 2].
Definition h1 : list (mop data) :=
  [MIdle data 1 W; MEnable data true false; MIdle data 2 W; MEnable data true true; MDelay data true (Some 3); MIdle data 4 W; MIdle data 6 W; MIdle data 9 W].
Example C166_example : begun data W (20, 20) (fun n => (n, n)) d4 h0 h1 (mig 1) /\ let s := run ms (h0 ++ MUpgrade data (mig 1) :: h1) (minit data d4) in m_data data s = (1, [1; 1; 1; 1]) /\ m_status data s = MCompleted /\ m_ends data s = [5].
Proof. split; [|vm_compute; auto]. repeat split; vm_compute; auto; intros; discriminate. Qed.
Example C167_example : ideal (mig 1) 5 d4 None = ((0, [1; 1; 1; 1]), None) /\ readies data W (20, 20) (fun n => (n, n)) [MIdle data 1 W; MIdle data 2 W; MIdle data 3 W] (upgrade data (run ms h0 (minit data d4)) (mig 1)) = 3%nat /\ is_ok (ensure_migrated data (run ms (h0 ++ [MUpgrade data (mig 1); MIdle data 1 W]) (minit data d4))) = false.
Proof. vm_compute. auto. Qed.
(** With the runtime's unlimited proof size the check for one step's weight never holds back, and a block with hardly any
    weight left spends more than it has. *)
Theorem C168_overshoot_refuted : exists ops block rem,
  let s := run ms ops (minit data d4) in let w := snd (migrate data W (20, 20) (fun n => (n, n)) s block rem) in
  fst rem < fst w /\ (forall d k, wle (fst (snd (mg_step data (m_cur data s) d k))) (mg_max data (m_cur data s))).
Proof.
  exists (h0 ++ [MUpgrade data (mig 1)]), 1, (21, U64MAX). cbv zeta. split; [vm_compute; reflexivity|].
  intros d k. change (wle (fst (snd (mg_step data (mig 1) d k))) (10, 10)). cbn [mig mg_step]. destruct (Nat.ltb _ _); cbn; unfold wle; cbn; lia.
Qed.
(** A migration given up by an upgrade leaves its last key; the next migration goes on from there, skips the first items
    and counts as complete. *)
Theorem C169_abandoned_refuted : exists ops, let s := run ms (h0 ++ [MUpgrade data (mig 1); MIdle data 1 W; MUpgrade data (noop data)]) (minit data d4) in
  in_progress data s = false /\ Forall (fun o => match o with MIdle _ _ _ => True | _ => False end) ops /\ let s' := run ms (MUpgrade data (mig 2) :: ops) s in
  m_status data s' = MCompleted /\ m_data data s' = (2, [1; 1; 2; 2]) /\ fst (ideal (mig 2) 5 (m_data data s) None) = (0, [2; 2; 2; 2]).
Proof. exists [MIdle data 2 W; MIdle data 3 W]. split; [reflexivity|]. split; [repeat constructor|]. vm_compute. auto. Qed.
(** An upgrade to another migration while one is in progress: the new one takes over the key and completes without having
    seen the first items. *)
Theorem C169_replaced_refuted : exists ops, let s := run ms (h0 ++ [MUpgrade data (mig 1); MIdle data 1 W]) (minit data d4) in
  in_progress data s = true /\ Forall (fun o => match o with MIdle _ _ _ => True | _ => False end) ops /\ let s' := run ms (MUpgrade data (mig 2) :: ops) s in m_status data s' = MCompleted /\ m_data data s' = (2, [1; 1; 2; 2]).
Proof. exists [MIdle data 2 W; MIdle data 3 W]. split; [reflexivity|]. split; [repeat constructor|]. vm_compute. auto. Qed.

Definition migration_theorems := (C166_in_one_go, C167_finishes, C167_guard, C167_paused, C167_root, C167_set, C167_settings, C168_steps, C168_weight, C168_within,
  C168_overshoot_refuted, C169_first, C169_abandoned_refuted, C169_replaced_refuted).
Print Assumptions migration_theorems.
