(** C41: every scheduled payment becomes ready and is released; what breaks this.  C40: what breaks the backing. *)
From Verif Require Import XrplModel XrplDeposits.
From Verif Require Import PegModel PegBacking PegSched PegSteps PegProps.

Section live.
  Variables (native pot maxready rd wr : N).
  Notation pst := (pstep native pot maxready rd wr).
  Notation prun := (run pst).
  Notation palong := (along pst).
  Notation idle_max rem := (sat 255 ((rem - rd) / per_payment rd wr)).

  (** Conditions: delays of at least one block, block numbers do not wrap, the ready list has room. *)
  Definition live_ok (s : peg) (o : pop) : Prop :=
    match o with
    | PBlock => pblk s + 1 < 2 ^ 32 /\ N.of_nat (length (ready s)) < maxready
    | PDeposit _ _ _ _ | PWithdraw _ _ _ _ _ => pblk s + 1 < 2 ^ 32
    | PDelay _ _ delay => 1 <= delay
    | _ => True
    end.
  Record VI (s : peg) : Prop := {
    v_sched : forall id k, In id (listed (psch s) k) -> pblk s < k \/ In k (ready s);
    v_delay : forall a mn delay, pdl s !! a = Some (mn, delay) -> 1 <= delay;
    v_nd : NoDup (ready s);
    v_past : forall k, In k (ready s) -> k <= pblk s }.
  Lemma VI_sub s s' : VI s -> (forall id k, In id (listed (psch s') k) -> In id (listed (psch s) k)) ->
    pblk s' = pblk s -> ready s' = ready s -> pdl s' = pdl s -> VI s'.
  Proof. intros [H1 H2 H3 H4] Hl E1 E2 E3. split; rewrite ?E1, ?E2, ?E3; try assumption. intros id k H. apply H1 with (id := id), Hl, H. Qed.
  Lemma VI_process s k amt ben : VI s -> VI (fst (process_deposit native pot s None k amt ben)).
  Proof.
    intros H. destruct (process_deposit native pot s None k amt ben) as [s' ok] eqn:E. cbn [fst].
    destruct (process_frame _ _ _ _ _ _ _ _ _ E) as (P1 & P2 & P3 & P4 & P5 & P6 & P7 & _). apply (VI_sub s); try assumption. intros id j. rewrite P2. tauto.
  Qed.
  Lemma VI_delay s delay p : VI s -> pblk s + 1 < 2 ^ 32 -> 1 <= delay -> VI (delay_payment s delay p).
  Proof.
    intros [H1 H2 H3 H4] Hb Hd. destruct (delay_cases s delay p) as [->|(P1 & _ & _ & _ & P5 & P6 & P7)]; [split; assumption|]. cbn zeta in P1.
    split; rewrite ?P5, ?P6, ?P7; try assumption. intros id k. rewrite P1. destruct (N.eqb_spec (sat U32MAX (pblk s + delay)) k) as [<-|]; [|apply H1].
    intros H. apply in_app_or in H. destruct H as [H|[<-|[]]]; [exact (H1 _ _ H)|]. left. unfold sat, U32MAX. lia.
  Qed.
  Lemma remove_first_in x l y : In y (remove_first x l) -> In y l.
  Proof. induction l as [|z r IH]; [intros []|]. cbn [remove_first]. destruct (z =? x); [now right|]. intros [H|H]; [now left|right; auto]. Qed.
  Lemma skipn_sub (n m : nat) (l : list N) k : (m <= n)%nat -> In k (skipn n l) -> In k (skipn m l).
  Proof. intros H Hk. replace n with (m + (n - m))%nat in Hk by lia. rewrite <- drop_drop in Hk. rewrite <- (firstn_skipn (n - m) (skipn m l)). apply in_or_app. now right. Qed.
  Lemma NoDup_skipn (n : nat) (l : list N) : NoDup l -> NoDup (skipn n l).
  Proof. intros H. rewrite <- (firstn_skipn n l) in H. apply NoDup_app in H. tauto. Qed.
  Lemma idle_VI s rem : VI s -> VI (on_idle native pot rd wr s rem).
  Proof.
    intros HV. unfold on_idle. destruct (_ <=? _); [exact HV|]. destruct (ready s) as [|b r] eqn:Er; [exact HV|]. rewrite <- Er.
    destruct (idle_loop native pot s (idle_max rem) 0 (ready s)) as [s1 bc] eqn:E.
    destruct (loop_empty _ _ _ _ _ _ _ _ E ltac:(lia)) as (P1 & P2 & P3 & P4 & n & P5 & P6 & P7).
    destruct HV as [H1 H2 H3 H4]. split; cbn [p_ready psch pblk ready pdl].
    - intros id k Hk. rewrite P2. destruct (H1 _ _ (P1 _ _ Hk)) as [H|H]; [now left|]. right.
      rewrite <- (firstn_skipn n (ready s)) in H. apply in_app_or in H. destruct H as [H|H]; [rewrite (P7 _ H) in Hk; destruct Hk|].
      apply (skipn_sub n); [|exact H]. rewrite N.add_0_l in P6. pose proof (N.mod_le (N.of_nat n) 256 ltac:(discriminate)). lia.
    - rewrite P4. exact H2.
    - apply NoDup_skipn, H3.
    - intros k Hk. rewrite P2. apply H4. rewrite <- (firstn_skipn (N.to_nat bc) (ready s)). apply in_or_app. now right.
  Qed.
  Lemma step_VI s o : live_ok s o -> VI s -> VI (pst s o).
  Proof.
    intros Hg HV. unfold pstep. destruct o as [src k amt ben|who a amt ben evm|rem| |kk id|a k|a mn delay|c|a from to v|a who v|]; cbn [pexec commit live_ok] in *.
    - unfold do_deposit. destruct (negb _); [exact HV|]. destruct (_ || _); [exact HV|].
      destruct (e2a s !! k) as [a|]; [|apply VI_process, HV]. destruct (negb _); [exact HV|].
      destruct (pdl s !! a) as [[mn delay]|] eqn:Ed; [|apply VI_process, HV]. destruct (_ && _); [|apply VI_process, HV].
      apply VI_delay; [exact HV|exact Hg|exact (v_delay _ HV _ _ _ Ed)].
    - destruct (amt <=? U128MAX); cbn [ensure rbind commit]; [|exact HV]. unfold do_withdrawal.
      destruct (wd_on (pcf s)); cbn [ensure rbind commit]; [|exact HV]. destruct (a2e s !! a) as [k|]; cbn [of_opt rbind commit]; [|exact HV].
      destruct (burn_or_transfer native pot (pbk s) a who amt) as [l|]; cbn [rbind].
      2: { destruct (pdl s !! a) as [[mn delay]|]; [destruct (_ && _); [destruct evm|]|]; exact HV. }
      assert (Hn : VI (send (p_bk s l) None a who k amt ben)) by (apply (VI_sub s); try reflexivity; [exact HV|tauto]).
      destruct (pdl s !! a) as [[mn delay]|] eqn:Ed; [|exact Hn]. destruct (_ && _); [|exact Hn]. destruct evm; cbn [commit]; [exact HV|].
      apply VI_delay; [apply (VI_sub s); try reflexivity; [exact HV|tauto]|exact Hg|exact (v_delay _ HV _ _ _ Ed)].
    - apply idle_VI, HV.
    - destruct Hg as [G1 G2]. unfold next_block. rewrite wrap_small by exact G1. destruct HV as [H1 H2 H3 H4]. destruct (psch s !! (pblk s + 1)) as [l|] eqn:El.
      + destruct (N.ltb_spec (N.of_nat (length (ready s))) maxready); [|lia]. split; cbn [p_ready psch pblk ready pdl]; try assumption.
        * intros id k Hk. destruct (N.eqb_spec k (pblk s + 1)) as [->|Hne]; [right; apply in_or_app; right; now left|].
          destruct (H1 _ _ Hk); [left; lia|right; apply in_or_app; now left].
        * apply NoDup_app. split; [exact H3|]. split; [|apply NoDup_singleton]. intros x Hx Hx'. apply elem_of_list_singleton in Hx'. subst x. apply elem_of_list_In, H4 in Hx. lia.
        * intros k Hk. apply in_app_or in Hk. destruct Hk as [Hk|[<-|[]]]; [apply H4 in Hk|]; lia.
      + split; cbn [psch pblk ready pdl]; try assumption.
        * intros id k Hk. destruct (N.eqb_spec k (pblk s + 1)) as [->|Hne]; [unfold listed in Hk; rewrite El in Hk; destruct Hk|].
          destruct (H1 _ _ Hk); [left; lia|now right].
        * intros k Hk. apply H4 in Hk. lia.
    - unfold claim. change (default [] (psch s !! kk)) with (listed (psch s) kk). destruct (existsb _ _); cbn [ensure rbind commit]; [|exact HV].
      destruct (release_keep native pot (p_sch s (<[kk:=remove_first id (listed (psch s) kk)]> (psch s))) id) as (P1 & _ & P3 & P4 & P5 & _). cbn zeta in *.
      apply (VI_sub s); try assumption. intros i j. rewrite P1. cbn [p_sch psch]. rewrite listed_insert. destruct (N.eqb_spec kk j) as [<-|]; [apply remove_first_in|tauto].
    - apply (VI_sub s); try reflexivity; [exact HV|tauto].
    - destruct HV as [H1 H2 H3 H4]. split; cbn [psch pblk ready pdl]; try assumption. intros b mn' d'.
      destruct (N.eqb_spec a b) as [<-|Hne]; [rewrite lookup_insert; intros [= <- <-]; exact Hg|rewrite lookup_insert_ne by exact Hne; apply H2].
    - apply (VI_sub s); try reflexivity; [exact HV|tauto].
    - destruct (transfer _ _ _ _ _) as [l|]; cbn [rbind commit]; [|exact HV]. apply (VI_sub s); try reflexivity; [exact HV|tauto].
    - destruct (mint _ _ _ _) as [l|]; cbn [rbind commit]; [|exact HV]. apply (VI_sub s); try reflexivity; [exact HV|tauto].
    - apply (VI_sub s); try reflexivity; [exact HV|tauto].
  Qed.
  Definition delays_ok (s : peg) : Prop := forall a mn delay, pdl s !! a = Some (mn, delay) -> 1 <= delay.
  Lemma run_VI ops s : peg_start native s -> delays_ok s -> palong live_ok ops s -> VI (prun ops s).
  Proof.
    intros Hs Hd Ha. apply (run_along _ live_ok); [intros x o; apply step_VI|exact Ha|]. split.
    - intros id k. unfold listed. rewrite (st_sch _ _ Hs), lookup_empty. intros [].
    - exact Hd.
    - rewrite (st_ready _ _ Hs). constructor.
    - rewrite (st_ready _ _ Hs). intros k [].
  Qed.
  (** A payment still pending is scheduled for a later block, or its block is on the ready list, with the payment in it. *)
  Theorem C41_ready_partial : forall ops s id due p,
    peg_start native s -> delays_ok s -> palong live_ok ops s ->
    let s' := prun ops s in accepted id due p s' -> pend s' !! id <> None ->
    In id (listed (psch s') due) /\ (pblk s' < due \/ In due (ready s')).
  Proof.
    intros ops s id due p Hs Hd Ha. cbn zeta. pose proof (run_VI ops s Hs Hd Ha) as HV. pose proof (run_SI native pot maxready rd wr ops s Hs) as HS.
    set (s' := prun ops s) in *. clearbody s'. intros Hac Hp. destruct (pend s' !! id) as [q|] eqn:Eq; [|contradiction].
    destruct (s_pend _ _ HS _ _ Eq) as (_ & [[]|(k & Hk)]). destruct (s_del _ _ HS _ _ Hk) as (q' & F1 & _).
    destruct (s_uniq _ _ HS _ _ _ _ _ Hac F1) as [-> _]. split; [exact Hk|exact (v_sched _ HV _ _ Hk)].
  Qed.
  (** Each idle hook with weight to spare shortens the backlog of ready payments by as many as the weight allows (at
      most 255). *)
  Definition backlog (s : peg) : N := waiting s (ready s).
  Lemma idle_backlog s rem : VI s -> rd < rem -> backlog (on_idle native pot rd wr s rem) = backlog s - idle_max rem.
  Proof.
    intros HV Hr. unfold on_idle. destruct (N.leb_spec rem rd); [lia|]. destruct (ready s) as [|b r] eqn:Er.
    - unfold backlog. rewrite Er. reflexivity.
    - rewrite <- Er. pose proof (loop_waiting native pot (ready s) s (idle_max rem) 0 (v_nd _ HV)) as Hw.
      destruct (idle_loop native pot s (idle_max rem) 0 (ready s)) as [s1 bc] eqn:E. cbn [fst] in Hw.
      destruct (loop_empty _ _ _ _ _ _ _ _ E ltac:(lia)) as (_ & _ & _ & _ & n & P5 & P6 & P7).
      unfold backlog. cbn [p_ready ready]. rewrite <- Hw. change (waiting (p_ready s1 (skipn (N.to_nat bc) (ready s))) (skipn (N.to_nat bc) (ready s))) with (waiting s1 (skipn (N.to_nat bc) (ready s))).
      assert (Hsp : waiting s1 (ready s) = waiting s1 (firstn (N.to_nat bc) (ready s)) + waiting s1 (skipn (N.to_nat bc) (ready s))) by (rewrite <- waiting_app, firstn_skipn; reflexivity). rewrite Hsp.
      assert (Hz : forall l, (forall k, In k l -> listed (psch s1) k = []) -> waiting s1 l = 0).
      { induction l as [|x l IH]; intros Hl; [reflexivity|]. rewrite waiting_cons, (Hl x) by now left. rewrite IH; [reflexivity|]. intros k Hk. apply Hl. now right. }
      rewrite (Hz (firstn _ _)); [reflexivity|]. intros k Hk. apply P7. rewrite N.add_0_l in P6. pose proof (N.mod_le (N.of_nat n) 256 ltac:(discriminate)).
      rewrite <- (firstn_skipn (N.to_nat bc) (firstn n (ready s))), firstn_firstn. rewrite Nat.min_l by lia. apply in_or_app. now left.
  Qed.
  Theorem C41_progress : forall ops s rem,
    peg_start native s -> delays_ok s -> palong live_ok ops s -> rd < rem ->
    backlog (prun (ops ++ [PIdle rem]) s) = backlog (prun ops s) - idle_max rem.
  Proof. intros ops s rem Hs Hd Ha Hr. rewrite run_app. apply idle_backlog; [exact (run_VI ops s Hs Hd Ha)|exact Hr]. Qed.
  (** With enough weight for the backlog, every payment due is decided. *)
  Theorem C41_released_partial : forall ops s rem id due p,
    peg_start native s -> delays_ok s -> palong live_ok ops s -> rd < rem ->
    backlog (prun ops s) <= idle_max rem ->
    let s' := prun (ops ++ [PIdle rem]) s in
    accepted id due p s' -> due <= pblk s' -> decided id s' = 1%nat.
  Proof.
    intros ops s rem id due p Hs Hd Ha Hr Hb. cbn zeta. intros Hac Hdue.
    assert (Ha' : palong live_ok (ops ++ [PIdle rem]) s) by (apply along_app; split; [exact Ha|split; exact I]).
    pose proof (C41_progress ops s rem Hs Hd Ha Hr) as Hz. 
    pose proof (C41_ready_partial (ops ++ [PIdle rem]) s id due p Hs Hd Ha' Hac) as Hrd.
    pose proof (C41_once native pot maxready rd wr (ops ++ [PIdle rem]) s id due p Hs Hac) as Ho. cbn zeta in *.
    set (s' := prun (ops ++ [PIdle rem]) s) in *. clearbody s'.
    destruct Ho as [[Ho _]|(_ & Ho & _)]; [|exact Ho]. exfalso. destruct Hrd as [H1 [H2|H2]]; [congruence|lia|].
    assert (Hp : forall l, In due l -> 1 <= waiting s' l).
    { induction l as [|x l IH]; [intros []|]. rewrite waiting_cons. intros [->|H]; [|specialize (IH H); lia]. destruct (listed (psch s') due); [destruct H1|cbn [length]; lia]. }
    specialize (Hp _ H2). unfold backlog in Hz, Hb. lia.
  Qed.

  (** * What breaks it *)
  (** A payment whose block has passed without getting on the ready list is never released (root claims aside). *)
  Record stuck (id k : N) (s : peg) : Prop := {
    k_in : In id (listed (psch s) k); k_si : SI [] s; k_past : k <= pblk s; k_off : ~ In k (ready s) }.
  Lemma stuck_same id k s s' : stuck id k s -> SI [] s' -> (In id (listed (psch s) k) -> In id (listed (psch s') k)) -> pblk s <= pblk s' -> (In k (ready s') -> In k (ready s)) -> stuck id k s'.
  Proof. intros [H1 H2 H3 H4] HS Hl Hb Hr. split; [auto|exact HS|lia|auto]. Qed.
  Lemma remove_first_keep x l y : y <> x -> In y l -> In y (remove_first x l).
  Proof. intros Hne. induction l as [|z r IH]; [intros []|]. cbn [remove_first]. destruct (N.eqb_spec z x) as [->|]; [intros [H|H]; [congruence|exact H]|]. intros [H|H]; [now left|right; auto]. Qed.
  Lemma step_stuck id k s o : no_claim id s o -> stuck id k s -> stuck id k (pst s o).
  Proof.
    intros Hg HK. pose proof (step_SI native pot maxready rd wr s o (k_si _ _ _ HK)) as HS'.
    assert (Hp : forall t amt ben, SI [] (fst (process_deposit native pot s None t amt ben)) -> stuck id k (fst (process_deposit native pot s None t amt ben))).
    { intros t amt ben. destruct (process_deposit native pot s None t amt ben) as [s' ok] eqn:E. cbn [fst]. intros HS.
      destruct (process_frame _ _ _ _ _ _ _ _ _ E) as (P1 & P2 & P3 & P4 & P5 & _). apply (stuck_same id k s); try assumption; [rewrite P2; tauto|lia|rewrite P4; tauto]. }
    assert (Hdl : forall x delay p, psch x = psch s -> ready x = ready s -> pblk x = pblk s -> SI [] (delay_payment x delay p) -> stuck id k (delay_payment x delay p)).
    { intros x delay p E1 E2 E3 HS. destruct (delay_cases x delay p) as [E|(P1 & _ & _ & _ & P5 & P6 & _)].
      - apply (stuck_same id k s); try assumption; rewrite E; cbn [p_log psch pblk ready]; [rewrite E1; tauto|lia|rewrite E2; tauto].
      - apply (stuck_same id k s); try assumption; [|lia|rewrite P5, E2; tauto]. rewrite P1, E1. destruct (N.eqb_spec (sat U32MAX (pblk x + delay)) k) as [->|]; [|tauto]. intros H. apply in_or_app. now left. }
    unfold pstep in *. destruct o as [src t amt ben|who a amt ben evm|rem| |kk j|a t|a mn delay|c|a from to v|a who v|]; cbn [pexec commit no_claim] in *.
    - unfold do_deposit in *. destruct (negb _); [exact HK|]. destruct (_ || _); [exact HK|].
      destruct (e2a s !! t) as [a|]; [|exact (Hp _ _ _ HS')]. destruct (negb _); [exact HK|].
      destruct (pdl s !! a) as [[mn delay]|]; [|exact (Hp _ _ _ HS')]. destruct (_ && _); [|exact (Hp _ _ _ HS')].
      apply Hdl; try reflexivity. exact HS'.
    - destruct (amt <=? U128MAX); cbn [ensure rbind commit] in *; [|exact HK]. unfold do_withdrawal in *.
      destruct (wd_on (pcf s)); cbn [ensure rbind commit] in *; [|exact HK]. destruct (a2e s !! a) as [t|]; cbn [of_opt rbind commit] in *; [|exact HK].
      destruct (burn_or_transfer native pot (pbk s) a who amt) as [l|]; cbn [rbind] in *.
      2: { destruct (pdl s !! a) as [[mn delay]|]; [destruct (_ && _); [destruct evm|]|]; exact HK. }
      assert (Hn : SI [] (send (p_bk s l) None a who t amt ben) -> stuck id k (send (p_bk s l) None a who t amt ben)).
      { intros H. apply (stuck_same id k s); try tauto. cbn. lia. }
      destruct (pdl s !! a) as [[mn delay]|]; [|exact (Hn HS')]. destruct (_ && _); [|exact (Hn HS')]. destruct evm; cbn [commit] in *; [exact HK|].
      apply Hdl; try reflexivity. exact HS'.
    - unfold on_idle in *. destruct (_ <=? _); [exact HK|]. destruct (ready s) as [|b r] eqn:Er; [exact HK|]. rewrite <- Er in *.
      pose proof (loop_others native pot (ready s) s (idle_max rem) 0 k (k_off _ _ _ HK)) as Ho.
      destruct (idle_loop native pot s (idle_max rem) 0 (ready s)) as [s1 bc] eqn:E. cbn [fst] in Ho.
      destruct (loop_empty _ _ _ _ _ _ _ _ E ltac:(lia)) as (_ & P2 & P3 & _).
      apply (stuck_same id k s); try assumption; cbn [p_ready psch pblk ready]; [rewrite Ho; tauto|lia|].
      intros Hk. rewrite <- (firstn_skipn (N.to_nat bc) (ready s)). apply in_or_app. now right.
    - unfold next_block in *. rewrite wrap_small in * by exact Hg. pose proof (k_past _ _ _ HK). destruct (psch s !! _); [destruct (_ <? _)|];
        (apply (stuck_same id k s); try assumption; cbn [p_ready psch pblk ready]; [tauto|lia|]); try tauto.
      intros H1. apply in_app_or in H1. destruct H1 as [H1|[H1|[]]]; [exact H1|lia].
    - unfold claim in *. change (default [] (psch s !! kk)) with (listed (psch s) kk) in *. destruct (existsb _ _); cbn [ensure rbind commit] in *; [|exact HK].
      destruct (release_keep native pot (p_sch s (<[kk:=remove_first j (listed (psch s) kk)]> (psch s))) j) as (P1 & _ & P3 & P4 & P5 & _). cbn zeta in *.
      apply (stuck_same id k s); try assumption; [|rewrite P4; cbn; lia|rewrite P3; tauto].
      rewrite P1. cbn [p_sch psch]. rewrite listed_insert. destruct (N.eqb_spec kk k) as [->|]; [|tauto]. apply remove_first_keep. congruence.
    - apply (stuck_same id k s); try tauto. cbn. lia.
    - apply (stuck_same id k s); try tauto. cbn. lia.
    - apply (stuck_same id k s); try tauto. cbn. lia.
    - destruct (transfer _ _ _ _ _) as [l|]; cbn [rbind commit] in *; [|exact HK]. apply (stuck_same id k s); try tauto. cbn. lia.
    - destruct (mint _ _ _ _) as [l|]; cbn [rbind commit] in *; [|exact HK]. apply (stuck_same id k s); try tauto. cbn. lia.
    - apply (stuck_same id k s); try tauto. cbn. lia.
  Qed.
  Lemma stuck_forever id k ops s : stuck id k s -> palong (no_claim id) ops s -> pend (prun ops s) !! id <> None.
  Proof.
    intros HK Ha. assert (H : stuck id k (prun ops s)) by (apply (run_along _ (no_claim id)); [intros x o; apply step_stuck|exact Ha|exact HK]).
    destruct (s_del _ _ (k_si _ _ _ H) _ _ (k_in _ _ _ H)) as (p & _ & E). congruence.
  Qed.

  (** ** The log only grows; a failure is final *)
  Lemma loop_mono blocks : forall x left bc e, In e (plog x) -> In e (plog (fst (idle_loop native pot x left bc blocks))).
  Proof.
    induction blocks as [|b r IH]; intros x left bc e H; [exact H|]. rewrite loop_cons. cbn zeta.
    destruct (round_keep native pot x left b) as (_ & _ & _ & _ & _ & _ & _ & P). cbn zeta in P. destruct (_ =? 0); [apply P, H|apply IH, P, H].
  Qed.
  Lemma process_mono x o t amt ben e : In e (plog x) -> In e (plog (fst (process_deposit native pot x o t amt ben))).
  Proof.
    destruct (process_deposit native pot x o t amt ben) as [x' ok] eqn:E. cbn [fst].
    destruct (process_frame _ _ _ _ _ _ _ _ _ E) as (_ & _ & _ & _ & _ & _ & _ & _ & a & ->). destruct ok; [now right|tauto].
  Qed.
  Lemma delay_mono x delay p e : In e (plog x) -> In e (plog (delay_payment x delay p)).
  Proof. unfold delay_payment. destruct (_ <? _); cbn [p_log plog]; now right. Qed.
  Lemma step_mono x o e : In e (plog x) -> In e (plog (pst x o)).
  Proof.
    intros He. unfold pstep. destruct o as [src t amt ben|who a amt ben evm|rem| |kk j|a t|a mn delay|c|a from to v|a who v|]; cbn [pexec commit]; try exact He.
    - unfold do_deposit. destruct (negb _); [exact He|]. destruct (_ || _); [exact He|].
      destruct (e2a x !! t) as [a|]; [|apply process_mono, He]. destruct (negb _); [exact He|].
      destruct (pdl x !! a) as [[mn delay]|]; [|apply process_mono, He]. destruct (_ && _); [apply delay_mono, He|apply process_mono, He].
    - destruct (amt <=? U128MAX); cbn [ensure rbind commit]; [|exact He]. unfold do_withdrawal.
      destruct (wd_on (pcf x)); cbn [ensure rbind commit]; [|exact He]. destruct (a2e x !! a) as [t|]; cbn [of_opt rbind commit]; [|exact He].
      destruct (burn_or_transfer native pot (pbk x) a who amt) as [l|]; cbn [rbind];
        (destruct (pdl x !! a) as [[mn delay]|]; [destruct (_ && _); [destruct evm|]|]); cbn [commit]; try exact He; try (now right).
      apply delay_mono. exact He.
    - unfold on_idle. destruct (_ <=? _); [exact He|]. destruct (ready x) as [|b r] eqn:Er; [exact He|]. rewrite <- Er.
      pose proof (loop_mono (ready x) x (idle_max rem) 0 e He) as H. destruct (idle_loop _ _ _ _ _ _) as [x1 bc]. exact H.
    - unfold next_block. destruct (psch x !! _); [destruct (_ <? _)|]; exact He.
    - unfold claim. destruct (existsb _ _); cbn [ensure rbind commit]; [|exact He].
      match goal with |- context [release native pot ?y j] => destruct (release_keep native pot y j) as (_ & _ & _ & _ & _ & _ & _ & P) end. apply P. exact He.
    - destruct (transfer _ _ _ _ _) as [l|]; exact He.
    - destruct (mint _ _ _ _) as [l|]; exact He.
  Qed.
  Theorem C41_failed_final : forall ops ops' s id b p e,
    peg_start native s -> In (VFail id b p) (plog (prun ops s)) ->
    In e (plog (prun (ops ++ ops') s)) -> dec_of e = Some id -> e = VFail id b p.
  Proof.
    intros ops ops' s id b p e Hs Hf He Hd.
    pose proof (run_SI native pot maxready rd wr (ops ++ ops') s Hs) as HS.
    assert (Hf' : In (VFail id b p) (plog (prun (ops ++ ops') s))).
    { rewrite run_app. apply (run_inv pst (fun x => In (VFail id b p) (plog x))); [intros x o; apply step_mono|exact Hf]. }
    set (x := prun (ops ++ ops') s) in *. clearbody x.
    destruct (s_match _ _ HS _ _ Hf' eq_refl) as (d & q & F1 & _).
    assert (I1 : In (VFail id b p) (List.filter (is_dec id) (plog x))) by (apply filter_In; split; [exact Hf'|apply is_dec_same; reflexivity]).
    assert (I2 : In e (List.filter (is_dec id) (plog x))) by (apply filter_In; split; [exact He|apply is_dec_same, Hd]).
    destruct (s_dec _ _ HS _ _ _ F1) as [[_ F]|[_ F]]; unfold decided in F; destruct (List.filter (is_dec id) (plog x)) as [|y [|z t]]; try discriminate; [destruct I1|].
    destruct I1 as [<-|[]], I2 as [<-|[]]. reflexivity.
  Qed.
End live.

(** * Concrete histories *)
Local Notation Nat_ := 1. Local Notation Pot := 99. Local Notation Al := 7. Local Notation Tok := 50. Local Notation PegC := 60. Local Notation RootC := 61.
Local Notation st := (pstep Nat_ Pot 100 1 1).
Local Notation s0 := (pinit 10).
Definition p_conf : pop := PConf (PCfg_ true true true true PegC RootC).
Lemma s0_start : peg_start Nat_ s0.
Proof. split; try reflexivity; apply empty_books. Qed.

(** A first deposit creates asset 10; a delay of [d] blocks for amounts from 100; a delayed deposit of 500, a delayed
    withdrawal of 200. *)
Definition p_hist (d : N) : list pop :=
  [p_conf; PDeposit PegC Tok 300 Al; PDelay 10 100 d; PDeposit PegC Tok 500 Al; PWithdraw Al 10 200 77 false; PWithdraw Al 10 50 78 true].
Definition p_later : list pop := [PBlock; PIdle 1000; PBlock; PIdle 20; PIdle 20; PBlock; PIdle 1000].
Ltac along_tac := repeat (split; [vm_compute; repeat split; intros; try reflexivity; try discriminate; try (right; reflexivity)|]); exact I.
Example C40_case : peg_start Nat_ s0 /\ along st (backed_ok Nat_ Pot) (p_hist 2 ++ p_later) s0 /\
  (let s := run st (p_hist 2) s0 in (in_log (e_acc Tok) s, issuance (pbk s) 10, pending_dep Tok s, pending_wd Tok s, in_log (e_sent Tok) s) = (800, 50, 500, 200, 50)) /\
  (let s := run st (p_hist 2 ++ p_later) s0 in (in_log (e_acc Tok) s, issuance (pbk s) 10, pending_dep Tok s, pending_wd Tok s, in_log (e_sent Tok) s) = (800, 550, 0, 0, 250)).
Proof. split; [exact s0_start|]. split; [along_tac|]. split; vm_compute; reflexivity. Qed.
Example C41_case : delays_ok s0 /\ along st (live_ok 100) (p_hist 2 ++ p_later) s0 /\ along st (no_claim 0) (p_hist 2 ++ p_later) s0 /\
  accepted 0 2 (PDep Tok 500 Al) (run st (p_hist 2 ++ p_later) s0) /\ accepted 1 2 (PWd Al Tok 200 77) (run st (p_hist 2 ++ p_later) s0) /\
  decided 0 (run st (p_hist 2 ++ p_later) s0) = 1%nat /\ decided 1 (run st (p_hist 2 ++ p_later) s0) = 1%nat.
Proof.
  split; [intros a mn d; vm_compute; discriminate|]. split; [along_tac|]. split; [along_tac|].
  split; [vm_compute; tauto|]. split; [vm_compute; tauto|]. split; vm_compute; reflexivity.
Qed.

(** C41 refuted: with a delay of zero blocks (which [set_payment_delay] accepts) the payment is put under the current
    block, whose [on_initialize] has already run: it is never released, however the chain goes on. *)
Theorem C41_zero_delay_refuted :
  exists ops id p, peg_start Nat_ s0 /\
    (let s := run st ops s0 in accepted id (pblk s) p s) /\
    forall ops', along st (no_claim id) ops' (run st ops s0) -> pend (run st (ops ++ ops') s0) !! id <> None.
Proof.
  exists ([PBlock] ++ p_hist 0), 0, (PDep Tok 500 Al). split; [exact s0_start|]. split; [vm_compute; tauto|].
  intros ops' Ha. rewrite run_app. apply (stuck_forever Nat_ Pot 100 1 1 0 1); [|exact Ha]. split.
  - vm_compute. tauto.
  - apply run_SI, s0_start.
  - vm_compute. discriminate.
  - vm_compute. tauto.
Qed.
(** C41 refuted: a release that fails is not retried: the payment is gone, the depositor has nothing.  Here the token
    is ROOT and the account of the bridge is short. *)
Theorem C41_failed_lost_refuted :
  exists ops, let s := run st ops s0 in
    accepted 0 1 (PDep Tok 500 Al) s /\ In (VFail 0 1 (PDep Tok 500 Al)) (plog s) /\ balance (pbk s) Nat_ Al = 0 /\
    forall ops' e, In e (plog (run st (ops ++ ops') s0)) -> dec_of e = Some 0 -> e = VFail 0 1 (PDep Tok 500 Al).
Proof.
  set (h := [p_conf; PMap Nat_ Tok; PDelay Nat_ 100 1; PDeposit RootC Tok 500 Al; PBlock; PIdle 1000]).
  exists h. split; [vm_compute; tauto|]. split; [vm_compute; tauto|]. split; [vm_compute; reflexivity|].
  intros ops' e He Hd. apply (C41_failed_final Nat_ Pot 100 1 1 h ops' s0 0 1 (PDep Tok 500 Al) e s0_start); try assumption. vm_compute. tauto.
Qed.

(** C40 refuted when governance maps a token onto an asset in use: 500 of token 51, never deposited, leave the bridge. *)
Theorem C40_remap_refuted :
  exists ops, let s := run st ops s0 in in_log (e_acc 51) s = 0 /\ in_log (e_sent 51) s = 300 /\ e2a s !! 51 = Some 10.
Proof. exists [p_conf; PDeposit PegC Tok 300 Al; PMap 10 51; PWithdraw Al 10 300 77 false]. vm_compute. repeat split. Qed.

Print Assumptions C40_backed_partial.
Print Assumptions C41_once.
Print Assumptions C41_only_accepted.
Print Assumptions C41_not_early.
Print Assumptions C41_ready_partial.
Print Assumptions C41_progress.
Print Assumptions C41_released_partial.
Print Assumptions C41_failed_final.
Print Assumptions C41_zero_delay_refuted.
Print Assumptions C41_failed_lost_refuted.
Print Assumptions C40_remap_refuted.
