(** C146-C151: theorems about the money behind futurepasses. *)
From Verif Require Import FpassFundProofs.

(** Nobody holds the key of an address with the futurepass prefix, and there is room for another futurepass. *)
Definition mfine (s : fm) (o : mmop) : Prop := match o with MExt who _ => is_fp who = false /\ N.of_nat (length (born (f_fp s))) < 2 ^ 128 end.

Section props.
  Variable maxp ed base factor : N.
  Hypothesis small : base + factor * (maxp + 1) + ed <= U128MAX.
  Notation step := (mmstep maxp ed base factor).
  Notation exec := (mdispatch maxp ed base factor).
  Notation mrun := (fun money other ops => run step ops (minit money other)).
  Notation mpast := (fun money other ops => along step mfine ops (minit money other)).
  Notation funded := (funded maxp base factor).

  Lemma init_funded money other : funded (minit money other).
  Proof. constructor; intros a; unfold minit, dep, defs; cbn [f_dep f_fp finit prox]; rewrite ?lookup_empty; cbn; lia. Qed.
  Lemma step_funded s o : funded s -> funded (step s o).
  Proof.
    intros HF. destruct o as [who c]. unfold mmstep. apply (commit_inv funded); [exact HF|]. intros s' H.
    exact (outcome_funded maxp ed base factor small s who s' (call_outcome maxp ed base factor s who c s' H) HF).
  Qed.
  Lemma run_funded ops : forall s, funded s -> funded (run step ops s).
  Proof. induction ops as [|o r IH]; intros s HF; [exact HF|]. apply IH, step_funded, HF. Qed.

  (** The definitions have a history of [FpassModel]. *)
  Lemma history ops : forall s, funded s -> along step mfine ops s ->
    exists fops, along (fstep maxp) fine fops (f_fp s) /\ run (fstep maxp) fops (f_fp s) = f_fp (run step ops s).
  Proof.
    induction ops as [|[who c] r IH]; intros s HF Hal. { exists []. split; [exact I|reflexivity]. }
    destruct Hal as [Hf Hal]. destruct (IH _ (step_funded _ _ HF) Hal) as (fops & A & R). cbn [run fold_left] in R |- *.
    unfold mmstep in A, R |- *. destruct (exec s who None c) as [s'|] eqn:E; cbn [commit] in *; [|exists fops; split; assumption].
    destruct (refine maxp ed base factor small s who c s' HF E) as [b Hb]. exists (FExt b who (erase c) :: fops).
    assert (Es : fstep maxp (f_fp s) (FExt b who (erase c)) = f_fp s') by (unfold fstep; cbn [fexec]; rewrite Hb; reflexivity).
    cbn [along run fold_left]. rewrite Es. split; [split; [exact Hf|exact A]|exact R].
  Qed.
  Lemma past_inv money other ops : mpast money other ops -> funded (mrun money other ops) /\ FI (f_fp (mrun money other ops)) /\ alive (f_fp (mrun money other ops)).
  Proof.
    intros H. split; [apply run_funded, init_funded|]. destruct (history ops _ (init_funded money other) H) as (fops & A & R). cbn beta. rewrite <- R. exact (frun_inv maxp fops A).
  Qed.

  (** * C146: deposits *)
  Lemma outcome_res s who s' : outcome maxp ed base factor s who s' -> funded s -> forall a, res s' a + dep s a = res s a + dep s' a.
  Proof.
    intros [->|p k to x _ H|p c f _ Ha H] HF a; [reflexivity| |].
    - destruct (pay_ok _ _ _ _ _ _ _ H) as (_ & P2 & P3 & _). unfold res, dep. rewrite P2, P3. reflexivity.
    - destruct (direct_ok maxp ed base factor small _ _ _ _ _ _ H HF Ha) as (_ & _ & _ & W2 & W3). specialize (W2 a). unfold at_ in W2. destruct (N.eqb_spec a f) as [E|Hn]; [rewrite E in *; lia|rewrite (W3 a Hn); lia].
  Qed.
  (** After any history each account with delegates has the base and a share for each delegate on deposit, reserved
      besides what other pallets reserve; an account without delegates has nothing on deposit. *)
  Theorem C146_deposit money other ops a : let s := mrun money other ops in
    (defs (f_fp s) a = [] -> dep s a = 0) /\ (defs (f_fp s) a <> [] -> dep s a = base + factor * N.of_nat (length (defs (f_fp s) a))) /\
    res s a = default 0 (other !! a) + dep s a /\ N.of_nat (length (defs (f_fp s) a)) <= maxp.
  Proof.
    intros s. assert (HF : funded s) by (apply run_funded, init_funded).
    split; [intros E; rewrite (fu_dep _ _ _ _ HF), E; reflexivity|]. split; [intros E; rewrite (fu_dep _ _ _ _ HF); destruct (defs (f_fp s) a); [contradiction|reflexivity]|].
    split; [|apply (fu_len _ _ _ _ HF)].
    assert (X : forall l s0, funded s0 -> res s0 a = default 0 (other !! a) + dep s0 a -> res (run step l s0) a = default 0 (other !! a) + dep (run step l s0) a).
    { clear s HF. induction l as [|[who c] r IH]; intros s0 HF E; [exact E|]. cbn [run fold_left]. apply IH; [apply step_funded, HF|]. unfold mmstep.
      destruct (exec s0 who None c) as [s1|] eqn:Ex; cbn [commit]; [|exact E]. pose proof (outcome_res _ _ _ (call_outcome maxp ed base factor _ _ _ _ Ex) HF a). lia. }
    apply X; [apply init_funded|]. unfold minit, res, dep. cbn [f_res f_dep]. rewrite lookup_empty. cbn [default]. lia.
  Qed.
  (** Money is neither made nor lost. *)
  Theorem C146_conserved money other ops : total (mrun money other ops) = total (minit money other).
  Proof.
    cbn beta. generalize (minit money other). induction ops as [|[who c] r IH]; intros s; [reflexivity|]. cbn [run fold_left]. rewrite IH. unfold mmstep.
    destruct (exec s who None c) as [s1|] eqn:Ex; cbn [commit]; [|reflexivity]. exact (total_dispatch maxp ed base factor _ _ _ _ _ Ex).
  Qed.

  (** * C147: what the calls cost *)
  (** [p] pays (or gets) [x], and nobody else's balance moves. *)
  Definition pays (s s' : fm) (p x : N) : Prop := free s' p + x = free s p /\ forall c, c <> p -> free s' c = free s c.
  Definition gets (s s' : fm) (p x : N) : Prop := pays s' s p x.
  (** Only the amount reserved on [f] moves. *)
  Definition only_reserved (s s' : fm) (f x y : N) : Prop := res s' f + x = res s f + y /\ forall c, c <> f -> res s' c = res s c.
  Lemma flow_res s s' p f g : flow s s' p f g -> only_reserved s s' f (dep s f) (dep s' f).
  Proof. intros (_ & W & _). split; [specialize (W f); rewrite !at_same in W; exact W|]. intros c Hc. specialize (W c). rewrite !at_other in W by exact Hc. lia. Qed.
  Lemma flow_free s s' p f : flow s s' p f 0 -> free s' p + dep s' f = free s p + dep s f /\ forall c, c <> p -> free s' c = free s c.
  Proof.
    intros (W & _ & _). split; [specialize (W p); rewrite at_zero, !at_same in W; lia|]. intros c Hc. specialize (W c). rewrite at_zero, !(at_other c p) in W by exact Hc. lia.
  Qed.
  (** Somebody reserved an account and kept it alive. *)
  Definition kept (money other : gmap N N) : Prop := forall a, default 0 (other !! a) <> 0 -> ed <= default 0 (money !! a).
  Lemma past_alive money other ops : kept money other -> alive_with ed (mrun money other ops).
  Proof.
    intros K. assert (X : forall l s, alive_with ed s -> alive_with ed (run step l s)).
    { induction l as [|[who c] r IH]; intros s HP; [exact HP|]. cbn [run fold_left]. apply IH. unfold mmstep. apply (commit_inv (alive_with ed)); [exact HP|]. intros s' H. exact (alive_dispatch _ _ _ _ _ _ _ _ _ H HP). }
    apply X. intros a Ha. exact (K a Ha).
  Qed.
  Lemma alive_lift s f : funded s -> alive_with ed s -> defs (f_fp s) f <> [] -> 0 < base + factor -> lift ed s f = 0.
  Proof.
    intros HF HA Hd Hp. unfold lift. destruct (N.ltb_spec (free s f) ed) as [Hl|]; [|reflexivity]. exfalso.
    pose proof (fu_res _ _ _ _ HF f) as Hr. rewrite (fu_dep _ _ _ _ HF) in Hr. unfold deposit in Hr. destruct (defs (f_fp s) f) as [|x l] eqn:E; [contradiction|]. cbn [length] in Hr.
    assert (1 * factor <= N.of_nat (S (length l)) * factor) by (apply N.mul_le_mono_r; lia). assert (res s f <> 0) by lia. pose proof (HA f H0). lia.
  Qed.
  Hypothesis pos : 0 < base + factor.

  (** Creating: the caller pays the deposit and, if the new account is empty, the existential deposit it keeps. *)
  Theorem C147_create money other ops who account s' : mpast money other ops -> let s := mrun money other ops in
    N.of_nat (length (born (f_fp s))) < 2 ^ 128 -> is_fp who = false -> exec s who None (MCreate account) = Ok s' ->
    exists f, hold (f_fp s') !! account = Some f /\ ~ In f (born (f_fp s)) /\ let gift := if free s f <? ed then ed else 0 in
    free s' who + (base + factor + gift) = free s who /\ free s' f = free s f + gift /\ (forall c, c <> who -> c <> f -> free s' c = free s c) /\
    only_reserved s s' f 0 (base + factor).
  Proof.
    intros Hp s Hn Hw H. destruct (past_inv _ _ _ Hp) as (HF & HI & _). fold s in HF, HI. set (f := faddr (nextf (f_fp s))).
    destruct (direct_ok maxp ed base factor small s who None (MCreate account) s' f H HF eq_refl) as (F' & D & W). cbn [lifts] in W. cbn [erase dispatch ensure rbind] in D.
    destruct (create_ok _ _ _ _ _ D) as (_ & E1 & _ & _ & _ & E4). pose proof (fresh_fp _ HI Hn) as Hf. fold f in Hf, E1, E4.
    assert (Hff : is_fp f = true) by apply faddr_fp. assert (Hwf : who <> f) by congruence.
    assert (D0 : defs (f_fp s) f = []) by (apply (i_empty _ HI); assumption). rewrite D0 in E4.
    assert (Ds : dep s f = 0) by (rewrite (fu_dep _ _ _ _ HF), D0; reflexivity).
    assert (Ds' : dep s' f = base + factor) by (rewrite (fu_dep _ _ _ _ F'), E4, N.eqb_refl; cbn; lia).
    exists f. split; [rewrite E1; apply lookup_insert|]. split; [exact Hf|]. intros gift. change (lift ed s f) with gift in W. pose proof (flow_res _ _ _ _ _ W) as R. rewrite Ds, Ds' in R.
    destruct W as (W & _ & _). rewrite Ds, Ds' in W. split; [|split; [|split; [|exact R]]].
    - specialize (W who). rewrite !at_same, (at_other who f) in W by exact Hwf. lia.
    - specialize (W f). rewrite !at_same, !(at_other f who) in W by congruence. lia.
    - intros c H1 H2. specialize (W c). rewrite !(at_other c who), (at_other c f) in W by assumption. lia.
  Qed.
  (** Registering a delegate: the caller, owner or the futurepass itself, pays a share. *)
  Theorem C147_register money other ops p f d t sg s' : mpast money other ops -> kept money other -> let s := mrun money other ops in
    exec s p None (MRegister f d t sg) = Ok s' -> defs (f_fp s) f <> [] -> pays s s' p factor /\ only_reserved s s' f 0 factor.
  Proof.
    intros Hp K s H Hd. destruct (past_inv _ _ _ Hp) as (HF & HI & _). fold s in HF, HI. pose proof (past_alive money other ops K) as HA. fold s in HA.
    destruct (direct_ok maxp ed base factor small s p None (MRegister f d t sg) s' f H HF eq_refl) as (F' & D & W). cbn [lifts] in W. cbn [erase dispatch ensure rbind] in D.
    rewrite (alive_lift s f HF HA Hd pos) in W. destruct (register_ok _ _ _ _ _ _ _ _ _ D) as (_ & _ & _ & _ & _ & _ & _ & E4).
    pose proof (flow_res _ _ _ _ _ W) as [R1 R2]. destruct (flow_free _ _ _ _ W) as [A B].
    assert (Df : dep s' f = dep s f + factor).
    { rewrite (fu_dep _ _ _ _ F'), (fu_dep _ _ _ _ HF), E4, N.eqb_refl, insert_len. unfold deposit. destruct (defs (f_fp s) f); [contradiction|]. cbn [length]. nia. }
    split; (split; [lia|assumption]).
  Qed.
  (** Removing one: the caller gets a share back. *)
  Theorem C147_unregister money other ops p f d s' : mpast money other ops -> let s := mrun money other ops in
    exec s p None (MUnregister f d) = Ok s' -> In f (born (f_fp s)) -> gets s s' p factor /\ only_reserved s s' f factor 0.
  Proof.
    intros Hp s H Hb. destruct (past_inv _ _ _ Hp) as (HF & HI & HL). fold s in HF, HI, HL.
    destruct (direct_ok maxp ed base factor small s p None (MUnregister f d) s' f H HF eq_refl) as (F' & D & W). cbn [lifts] in W. cbn [erase dispatch ensure rbind] in D.
    destruct (unregister_ok _ _ _ _ _ _ D) as (U1 & _ & x & U2 & U3 & E1 & _ & _ & E4). pose proof (flow_res _ _ _ _ _ W) as [R1 R2]. destruct (flow_free _ _ _ _ W) as [A B].
    pose proof (remove_len _ _ U2) as L. specialize (E4 f). rewrite N.eqb_refl in E4.
    assert (Hne : remove_def x (defs (f_fp s) f) <> []).
    { intros E. assert (Hno : forall a, hold (f_fp s) !! a <> Some f).
      { intros a Ha. destruct (i_own _ HI _ _ Ha) as [O _]. assert (Hi : In (a, TOwner) (remove_def x (defs (f_fp s) f))); [|rewrite E in Hi; destruct Hi].
        apply remove_keep; [exact O|]. intros <-. cbn in U3. congruence. }
      destruct (HL f Hb) as [[a Ha]|X]; [exact (Hno a Ha)|]. rewrite X in U2. destruct U2. }
    assert (Df : dep s f = dep s' f + factor).
    { rewrite (fu_dep _ _ _ _ F'), (fu_dep _ _ _ _ HF), E4, L. unfold deposit. destruct (remove_def x (defs (f_fp s) f)); [contradiction|]. cbn [length]. nia. }
    unfold gets, pays. split; (split; [lia|]); [intros c Hc; symmetry; apply B, Hc|exact R2].
  Qed.
  (** Handing it over: the caller pays for the new owner and gets what the others had on deposit. *)
  Theorem C147_transfer money other ops p cur n s' : mpast money other ops -> kept money other -> let s := mrun money other ops in
    exec s p None (MTransfer cur (Some n)) = Ok s' -> exists f, hold (f_fp s) !! cur = Some f /\ hold (f_fp s') !! n = Some f /\
    let shares s := factor * N.of_nat (length (defs (f_fp s) f)) in
    free s' p + shares s' = free s p + shares s /\ (forall c, c <> p -> free s' c = free s c) /\ only_reserved s s' f (shares s) (shares s').
  Proof.
    intros Hp K s H. destruct (past_inv _ _ _ Hp) as (HF & HI & HL). fold s in HF, HI, HL. pose proof (past_alive money other ops K) as HA. fold s in HA.
    destruct (hold (f_fp s) !! cur) as [f|] eqn:Eh; [|unfold mdispatch in H; cbn [erase ensure rbind] in H; unfold m_transfer in H; rewrite Eh in H; discriminate H].
    destruct (direct_ok maxp ed base factor small s p None (MTransfer cur (Some n)) s' f H HF Eh) as (F' & D & W). cbn [lifts] in W. cbn [erase dispatch ensure rbind] in D.
    destruct (transfer_ok _ _ _ _ _ _ _ (i_nd _ HI _) D) as (f1 & T1 & _ & _ & _ & _ & _ & E1 & N2 & _). assert (f1 = f) as -> by congruence.
    assert (Hd : defs (f_fp s) f <> []) by (intros E; destruct (i_own _ HI _ _ Eh) as [O _]; rewrite E in O; destruct O).
    assert (Hd' : defs (f_fp s') f <> []) by (intros E; rewrite E in N2; destruct N2).
    rewrite (alive_lift s f HF HA Hd pos) in W. pose proof (flow_res _ _ _ _ _ W) as [R1 R2]. destruct (flow_free _ _ _ _ W) as [A B].
    assert (Ds : forall z, funded z -> defs (f_fp z) f <> [] -> dep z f = base + factor * N.of_nat (length (defs (f_fp z) f))).
    { intros z Fz Hz. rewrite (fu_dep _ _ _ _ Fz). unfold deposit. destruct (defs (f_fp z) f); [contradiction|reflexivity]. }
    rewrite (Ds s HF Hd), (Ds s' F' Hd') in *. exists f. split; [reflexivity|]. split; [rewrite E1; apply lookup_insert|]. split; [lia|]. split; [exact B|]. split; [lia|exact R2].
  Qed.
  (** Renouncing: the caller gets the whole deposit; what the futurepass owns stays with it. *)
  Theorem C147_renounce money other ops p cur s' : mpast money other ops -> let s := mrun money other ops in
    exec s p None (MTransfer cur None) = Ok s' -> exists f, hold (f_fp s) !! cur = Some f /\ let d := base + factor * N.of_nat (length (defs (f_fp s) f)) in
    gets s s' p d /\ only_reserved s s' f d 0 /\ res s' f = default 0 (other !! f).
  Proof.
    intros Hp s H. destruct (past_inv _ _ _ Hp) as (HF & HI & HL). fold s in HF, HI, HL.
    destruct (hold (f_fp s) !! cur) as [f|] eqn:Eh; [|unfold mdispatch in H; cbn [erase ensure rbind] in H; unfold m_transfer in H; rewrite Eh in H; discriminate H].
    destruct (direct_ok maxp ed base factor small s p None (MTransfer cur None) s' f H HF Eh) as (F' & D & W). cbn [lifts] in W. cbn [erase dispatch ensure rbind] in D.
    destruct (transfer_ok _ _ _ _ _ _ _ (i_nd _ HI _) D) as (f1 & T1 & _ & _ & _ & _ & _ & E1). assert (f1 = f) as -> by congruence.
    assert (Hd : defs (f_fp s) f <> []) by (intros E; destruct (i_own _ HI _ _ Eh) as [O _]; rewrite E in O; destruct O).
    pose proof (flow_res _ _ _ _ _ W) as [R1 R2]. destruct (flow_free _ _ _ _ W) as [A B].
    assert (D' : dep s' f = 0) by (rewrite (fu_dep _ _ _ _ F'), E1; reflexivity).
    destruct (C146_deposit money other ops f) as (_ & Dd & Rd & _). fold s in Dd, Rd. specialize (Dd Hd). exists f. split; [reflexivity|]. rewrite <- Dd. unfold gets, pays.
    split; [split; [lia|intros c Hc; symmetry; apply B, Hc]|]. split; [split; [lia|exact R2]|]. lia.
  Qed.

  (** * C148: who can spend *)
  Definition owns (s : fm) (who b : N) : Prop := exists t, In (who, t) (defs (f_fp s) b) /\ (t = TOwner \/ t = TAny).
  Theorem C148_free money other ops who c s' b : let s := mrun money other ops in
    exec s who None c = Ok s' -> free s' b < free s b -> who = b \/ owns s who b.
  Proof.
    intros s H Hl. assert (HF : funded s) by (apply run_funded, init_funded). destruct (call_outcome maxp ed base factor _ _ _ _ H) as [->|p k to x Hm Hx|p c0 f Hm Ha Hx]; [lia| |].
    - destruct (pay_ok _ _ _ _ _ _ _ Hx) as (_ & _ & _ & P). specialize (P b). destruct (N.eqb_spec b p) as [->|Hn]; [exact Hm|]. rewrite (at_other b p) in P by exact Hn. lia.
    - destruct (direct_ok maxp ed base factor small _ _ _ _ _ _ Hx HF Ha) as (_ & _ & W & _). specialize (W b). destruct (N.eqb_spec b p) as [->|Hn]; [exact Hm|]. rewrite !(at_other b p) in W by exact Hn. lia.
  Qed.
  Theorem C148_reserved money other ops who c s' b : let s := mrun money other ops in
    exec s who None c = Ok s' -> res s' b < res s b ->
    exists p, (who = p \/ owns s who p) /\ (p = b \/ hold (f_fp s) !! p = Some b \/ exists t, In (p, t) (defs (f_fp s) b)).
  Proof.
    intros s H Hl. assert (HF : funded s) by (apply run_funded, init_funded). destruct (call_outcome maxp ed base factor _ _ _ _ H) as [->|p k to x Hm Hx|p c0 f Hm Ha Hx]; [lia| |].
    - destruct (pay_ok _ _ _ _ _ _ _ Hx) as (_ & _ & P & _). unfold res in Hl. rewrite P in Hl. lia.
    - destruct (direct_ok maxp ed base factor small _ _ _ _ _ _ Hx HF Ha) as (F' & D & W). pose proof (flow_res _ _ _ _ _ W) as [R1 R2].
      assert (f = b) as -> by (destruct (N.eq_dec f b) as [E|E]; [exact E|]; rewrite R2 in Hl by congruence; lia). exists p. split; [exact Hm|].
      destruct c0 as [account|f0 d t sg|f0 d|cur new|f0 c'|real force c'|d t|d t| |keep to x]; cbn [about] in Ha; try discriminate Ha; try (injection Ha as <-; left; reflexivity); cbn [erase dispatch ensure rbind] in D.
      + destruct (create_ok _ _ _ _ _ D) as (_ & _ & _ & _ & _ & E4). injection Ha as Ha. rewrite Ha in E4. specialize (E4 b). rewrite N.eqb_refl in E4. exfalso.
        assert (X : dep s b <= dep s' b) by (rewrite (fu_dep _ _ _ _ F'), (fu_dep _ _ _ _ HF), E4, insert_len; apply (deposit_mono maxp ed base factor small); lia). lia.
      + injection Ha as <-. destruct (register_ok _ _ _ _ _ _ _ _ _ D) as ([->|E] & _); [left; reflexivity|right; left; exact E].
      + injection Ha as <-. destruct (unregister_ok _ _ _ _ _ _ D) as (_ & [E|[E|E]] & x & U2 & U3 & _); [right; left; exact E|left; exact E|]. subst p. right. right. exists (snd x). rewrite <- U3. destruct x; exact U2.
      + unfold transfer_fp in D. rewrite Ha in D. cbn [of_opt rbind] in D. destruct (N.eqb_spec p cur) as [->|]; [right; left; exact Ha|]. destruct (N.eqb_spec b p) as [->|]; [left; reflexivity|discriminate D].
  Qed.

  (** * C149: the money of a futurepass without an owner never moves again *)
  Theorem C149_renounced money other ops more f : mpast money other (ops ++ more) -> In f (born (f_fp (mrun money other ops))) ->
    (forall a, hold (f_fp (mrun money other ops)) !! a <> Some f) ->
    free (mrun money other ops) f <= free (mrun money other (ops ++ more)) f /\ res (mrun money other (ops ++ more)) f = default 0 (other !! f).
  Proof.
    intros H Hb Hno. cbn beta in *. pose proof H as Hall. apply along_app in H. destruct H as [H1 H2].
    assert (Key : forall l, along step mfine l (mrun money other ops) -> free (mrun money other ops) f <= free (run step l (mrun money other ops)) f /\ defs (f_fp (run step l (mrun money other ops))) f = []).
    { intros l. induction l as [|o l IH] using rev_ind; intros Hl.
      - split; [cbn [run fold_left]; lia|]. destruct (past_inv _ _ _ H1) as (_ & _ & HL). destruct (HL f Hb) as [[a Ha]|X]; [contradiction (Hno a Ha)|exact X].
      - pose proof Hl as Hl'. apply along_app in Hl. destruct Hl as [Hl Ho]. destruct (IH Hl) as [IH1 IH2]. split.
        + etransitivity; [exact IH1|]. rewrite run_app. set (s := run step l (mrun money other ops)) in *. cbn [run fold_left]. unfold mmstep. destruct o as [who c].
          destruct (exec s who None c) as [s'|] eqn:E; cbn [commit]; [|lia]. destruct (N.le_gt_cases (free s f) (free s' f)) as [|Hlt]; [assumption|]. exfalso.
          assert (Es : s = mrun money other (ops ++ l)) by (subst s; cbn beta; rewrite run_app; reflexivity). rewrite Es in E, Hlt.
          pose proof (C148_free money other (ops ++ l) who c s' f E Hlt) as X. cbn beta in X. rewrite <- Es in X. destruct X as [->|(t & X & _)]; [|rewrite IH2 in X; destruct X].
          destruct Ho as [[Ho _] _]. destruct (past_inv _ _ _ H1) as (_ & HI & _). rewrite (born_fp _ _ HI Hb) in Ho. discriminate Ho.
        + destruct (history ops _ (init_funded money other) H1) as (f1 & A1 & R1). assert (F1 : funded (mrun money other ops)) by (apply run_funded, init_funded).
          destruct (history (l ++ [o]) _ F1 Hl') as (f2 & A2 & R2). rewrite <- R2. change (run step ops (minit money other)) with (mrun money other ops) in R1. rewrite <- R1 in A2, Hb, Hno |- *.
          destruct (C42_renounced maxp f1 f2) with (f := f) as [_ X]; [apply along_app; split; [exact A1|exact A2]|exact Hb|exact Hno|]. rewrite run_app in X. exact X. }
    destruct (Key more H2) as [K1 K2]. destruct (C146_deposit money other (ops ++ more) f) as (D0 & _ & Rd & _). cbn beta zeta in *. rewrite run_app in *. split; [exact K1|].
    rewrite Rd, (D0 K2). lia.
  Qed.

  (** * C150: a delegate can always be removed and a futurepass always be given up *)
  Hypothesis factor_ed : ed <= factor.
  Theorem C150_unregister money other ops p f d : mpast money other ops -> kept money other -> let s := mrun money other ops in
    (exists t, In (d, t) (defs (f_fp s) f)) -> hold (f_fp s) !! d <> Some f -> hold (f_fp s) !! p = Some f \/ p = f \/ p = d ->
    exists s', exec s p None (MUnregister f d) = Ok s'.
  Proof.
    intros Hp K s (t & Ht) Hd Hw. assert (HF : funded s) by (apply run_funded, init_funded). pose proof (past_alive money other ops K) as HA. fold s in HA.
    cbn [mdispatch ensure rbind]. unfold m_unregister, holds. rewrite bool_decide_false by exact Hd. cbn [negb ensure rbind].
    assert (X : bool_decide (hold (f_fp s) !! p = Some f) || (p =? f) || (p =? d) = true).
    { destruct Hw as [E|[->| ->]]; [rewrite bool_decide_true by exact E; reflexivity|rewrite N.eqb_refl, orb_true_r; reflexivity|rewrite N.eqb_refl, orb_true_r; reflexivity]. }
    rewrite X. cbn [ensure rbind]. destruct (find_def d None (defs (f_fp s) f)) as [x|] eqn:Ex; [|contradiction (FpassProofs.find_none _ _ Ex t Ht)].
    assert (Y : exists_def (f_fp s) f d = true) by (unfold exists_def; rewrite Ex; reflexivity). rewrite Y. cbn [ensure rbind].
    unfold m_remove_delegate. rewrite Ex. cbn [of_opt rbind]. apply FpassProofs.find_some in Ex. destruct Ex as (Hx & _ & _). pose proof (remove_len _ _ Hx) as L.
    unfold m_remove_def. set (q := set_defs (f_fp s) f (remove_def x (defs (f_fp s) f))).
    assert (Dq : defs q f = remove_def x (defs (f_fp s) f)) by (subst q; rewrite defs_set', N.eqb_refl; reflexivity).
    assert (Hm : deposit base factor (length (defs q f)) <= dep s f) by (rewrite (fu_dep _ _ _ _ HF), Dq, L; apply (deposit_mono maxp ed base factor small); lia).
    destruct (rejig ed base factor s f q) as [s1|] eqn:Er.
    2:{ exfalso. unfold rejig in Er. cbv zeta in Er. destruct (N.ltb_spec (dep s f) (deposit base factor (length (defs q f)))); [lia|]. discriminate Er. }
    cbn [rbind]. destruct (rejig_ok _ _ _ _ _ _ _ Er (fu_res _ _ _ _ HF f)) as (E1 & E2 & E3 & E4). cbv zeta in *.
    assert (D1 : dep s1 f = deposit base factor (length (defs q f))) by (rewrite E2, N.eqb_refl; reflexivity). rewrite <- D1 in *.
    pose proof (deposit_small maxp ed base factor small (length (defs (f_fp s) f))) as Hs. rewrite <- (fu_dep _ _ _ _ HF) in Hs. pose proof (fu_len _ _ _ _ HF f) as Hlen. specialize (Hs ltac:(lia)).
    rewrite sub128_exact; [|exact Hm|change (2 ^ 128) with (U128MAX + 1); lia]. unfold pay.
    destruct ((dep s f - dep s1 f =? 0) || (f =? p)) eqn:Ez; [eexists; reflexivity|]. apply orb_false_iff in Ez. destruct Ez as [Ez1 Ez2]. apply N.eqb_neq in Ez1, Ez2.
    assert (Hr : res s f <> 0) by (pose proof (fu_res _ _ _ _ HF f); lia). pose proof (HA f Hr) as Hf. pose proof (E3 f) as E3f. rewrite !at_same in E3f.
    assert (Hx1 : dep s f - dep s1 f <=? free s1 f = true) by (apply N.leb_le; lia). rewrite Hx1. cbn [ensure rbind].
    assert (Hx2 : ed <=? free s1 f - (dep s f - dep s1 f) = true) by (apply N.leb_le; lia). rewrite Hx2, orb_true_r. cbn [ensure rbind].
    assert (Hx3 : factor <= dep s f - dep s1 f).
    { rewrite D1, (fu_dep _ _ _ _ HF), Dq, L. unfold deposit. destruct (length (remove_def x (defs (f_fp s) f))); nia. }
    assert (Hx4 : ed <=? free s1 p + (dep s f - dep s1 f) = true) by (apply N.leb_le; lia). rewrite Hx4. cbn [ensure rbind]. eexists; reflexivity.
  Qed.
  Theorem C150_renounce money other ops p cur f : mpast money other ops -> kept money other -> let s := mrun money other ops in
    hold (f_fp s) !! cur = Some f -> p = cur \/ p = f -> exists s', exec s p None (MTransfer cur None) = Ok s'.
  Proof.
    intros Hp K s Hh Hw. destruct (past_inv _ _ _ Hp) as (HF & HI & HL). fold s in HF, HI, HL. pose proof (past_alive money other ops K) as HA. fold s in HA.
    cbn [mdispatch ensure rbind]. unfold m_transfer. rewrite Hh. cbn [of_opt rbind].
    assert (X : (p =? cur) || (f =? p) = true) by (destruct Hw as [->| ->]; rewrite N.eqb_refl; [reflexivity|apply orb_true_r]). rewrite X. cbn [ensure rbind].
    set (s1 := with_fp s (set_hold (f_fp s) (delete cur (hold (f_fp s))))). assert (F1 : funded s1) by (apply with_fp_funded; [exact HF|reflexivity]).
    assert (A1 : alive_with ed s1) by exact HA. unfold m_remove_account. destruct (drop_ok maxp ed base factor small s1 f F1) as (_ & _ & E3 & E4). set (s2 := unreserve (drop_defs s1 f) f (dep s1 f)) in *.
    assert (Hd : factor <= dep s1 f).
    { rewrite (fu_dep _ _ _ _ F1). change (defs (f_fp s1) f) with (defs (f_fp s) f). destruct (i_own _ HI _ _ Hh) as [O _]. unfold deposit. destruct (defs (f_fp s) f) as [|x l]; [destruct O|]. cbn [length]. nia. }
    unfold pay. destruct ((dep s1 f =? 0) || (f =? p)) eqn:Ez; [eexists; reflexivity|]. apply orb_false_iff in Ez. destruct Ez as [Ez1 Ez2]. apply N.eqb_neq in Ez1, Ez2.
    specialize (E3 f). specialize (E4 f). rewrite !at_same in E3, E4.
    assert (Hx1 : dep s1 f <=? free s2 f = true) by (apply N.leb_le; lia). rewrite Hx1. cbn [ensure rbind].
    assert (Hx2 : ed <=? free s2 f - dep s1 f = true) by (apply N.leb_le; pose proof (fu_res _ _ _ _ F1 f); assert (res s1 f <> 0) by lia; pose proof (A1 f H0); lia). rewrite Hx2, orb_true_r. cbn [ensure rbind].
    assert (Hx4 : ed <=? free s2 p + dep s1 f = true) by (apply N.leb_le; lia). rewrite Hx4. cbn [ensure rbind]. eexists; reflexivity.
  Qed.
  (** The owner with a share to spare registers a delegate that agrees. *)
  Theorem C150_register money other ops p f d : mpast money other ops -> kept money other -> let s := mrun money other ops in
    hold (f_fp s) !! p = Some f -> p <> f -> (forall t, ~ In (d, t) (defs (f_fp s) f)) -> d <> f -> N.of_nat (length (defs (f_fp s) f)) < maxp ->
    factor + ed <= free s p -> exists s', exec s p None (MRegister f d TAny true) = Ok s'.
  Proof.
    intros Hp K s Hh Hpf Hd Hdf Hl Hm. destruct (past_inv _ _ _ Hp) as (HF & HI & HL). fold s in HF, HI, HL. pose proof (past_alive money other ops K) as HA. fold s in HA.
    destruct (i_own _ HI _ _ Hh) as [O _]. assert (Hne : defs (f_fp s) f <> []) by (intros E; rewrite E in O; destruct O).
    pose proof (alive_lift s f HF HA Hne pos) as Hlift.
    assert (G : dep s f = base + factor * N.of_nat (length (defs (f_fp s) f))) by (rewrite (fu_dep _ _ _ _ HF); unfold deposit; destruct (defs (f_fp s) f); [contradiction|reflexivity]).
    assert (Hsucc : deposit base factor (S (length (defs (f_fp s) f))) = dep s f + factor) by (rewrite G; unfold deposit; nia).
    pose proof (deposit_small maxp ed base factor small (S (length (defs (f_fp s) f))) ltac:(lia)) as Hs.
    cbn [mdispatch ensure rbind]. unfold m_register, holds. rewrite bool_decide_true by exact Hh. rewrite orb_true_r. cbn [ensure rbind].
    assert (Y : exists_def (f_fp s) f p = true) by (unfold exists_def; destruct (find_def p None (defs (f_fp s) f)) eqn:Ex; [reflexivity|contradiction (FpassProofs.find_none _ _ Ex _ O)]).
    rewrite Y, orb_true_r. cbn [ensure rbind]. rewrite bool_decide_true by reflexivity. cbn [ensure rbind].
    assert (Z : exists_def (f_fp s) f d = false).
    { unfold exists_def. destruct (find_def d None (defs (f_fp s) f)) as [x|] eqn:Ex; [|reflexivity]. apply FpassProofs.find_some in Ex. destruct Ex as (Hx & Hx2 & _). contradiction (Hd (snd x)). rewrite <- Hx2. destruct x; exact Hx. }
    rewrite Z. cbn [negb ensure rbind]. unfold m_add_delegate. cbv zeta. rewrite Hsucc. rewrite sub128_exact; [|lia|change (2 ^ 128) with (U128MAX + 1); lia].
    replace (dep s f + factor - dep s f) with factor by lia. unfold lift in Hlift.
    assert (En : (if free s f <? ed then sat U128MAX (factor + ed) else factor) = factor). { destruct (N.ltb_spec (free s f) ed); [|reflexivity]. rewrite Hlift. unfold sat. rewrite N.min_l by lia. lia. }
    assert (Hfed : ed <= free s f) by (destruct (N.ltb_spec (free s f) ed); [rewrite Hlift; lia|assumption]). rewrite En.
    destruct (pay ed true s p f factor) as [s1|] eqn:Ep.
    2:{ exfalso. unfold pay in Ep. destruct ((factor =? 0) || (p =? f)); [discriminate Ep|]. assert (X1 : factor <=? free s p = true) by (apply N.leb_le; lia). rewrite X1 in Ep. cbn [ensure rbind] in Ep.
        assert (X2 : ed <=? free s p - factor = true) by (apply N.leb_le; lia). rewrite X2, orb_true_r in Ep. cbn [ensure rbind] in Ep.
        assert (X3 : ed <=? free s f + factor = true) by (apply N.leb_le; lia). rewrite X3 in Ep. discriminate Ep. }
    cbn [rbind]. destruct (pay_ok _ _ _ _ _ _ _ Ep) as (P1 & P2 & P3 & P4). unfold m_add_def, add_def. rewrite P1.
    assert (X1 : (f =? d) = false) by (apply N.eqb_neq; congruence). rewrite X1. cbn [negb ensure rbind]. unfold has_def. rewrite bool_decide_false by (intros X; apply elem_of_list_In in X; exact (Hd _ X)). cbn [negb ensure rbind].
    assert (X2 : N.of_nat (length (defs (f_fp s) f)) <? maxp = true) by (apply N.ltb_lt; exact Hl). rewrite X2. cbn [ensure rbind]. unfold rejig. cbv zeta.
    assert (Ld : deposit base factor (length (defs (set_defs (f_fp s) f (insert_def (d, TAny) (defs (f_fp s) f))) f)) = dep s f + factor) by (rewrite defs_set', N.eqb_refl, insert_len; exact Hsucc).
    rewrite Ld. assert (Dd : dep s1 f = dep s f) by (unfold dep; rewrite P2; reflexivity). rewrite Dd. specialize (P4 f). rewrite at_same, at_other in P4 by congruence.
    destruct (N.ltb_spec (dep s f) (dep s f + factor)); [|cbn [rbind]; eexists; reflexivity]. replace (dep s f + factor - dep s f) with factor by lia.
    unfold reserve. destruct (factor =? 0); cbn [rbind]; [eexists; reflexivity|]. assert (X3 : factor <=? free s1 f = true) by (apply N.leb_le; lia). rewrite X3. cbn [ensure rbind].
    assert (X4 : ed <=? free s1 f - factor = true) by (apply N.leb_le; lia). rewrite X4. cbn [ensure rbind]. eexists; reflexivity.
  Qed.

  (** * C151: who gets deposits back *)
  (** A caller that registers a delegate and removes it again has its money back. *)
  Theorem C151_round_trip money other ops p f d t sg s1 s2 : mpast money other ops -> kept money other -> is_fp p = false ->
    let s := mrun money other ops in N.of_nat (length (born (f_fp s))) < 2 ^ 128 -> In f (born (f_fp s)) -> defs (f_fp s) f <> [] ->
    exec s p None (MRegister f d t sg) = Ok s1 -> exec s1 p None (MUnregister f d) = Ok s2 ->
    (forall c, free s2 c = free s c) /\ (forall c, res s2 c = res s c).
  Proof.
    intros Hp K Hw s Hn Hb Hd H1 H2. destruct (C147_register money other ops p f d t sg s1 Hp K H1 Hd) as [[A1 A2] [B1 B2]]. fold s in A1, A2, B1, B2.
    assert (Es : mrun money other (ops ++ [MExt p (MRegister f d t sg)]) = s1).
    { cbn beta. rewrite run_app. change (run step ops (minit money other)) with s. cbn [run fold_left]. unfold mmstep. rewrite H1. reflexivity. }
    assert (Hp1 : mpast money other (ops ++ [MExt p (MRegister f d t sg)])) by (cbn beta in *; apply along_app; split; [exact Hp|]; cbn [along]; split; [split; [exact Hw|exact Hn]|exact I]).
    assert (HF : funded s) by (apply run_funded, init_funded). destruct (direct_ok maxp ed base factor small s p None (MRegister f d t sg) s1 f H1 HF eq_refl) as (_ & D & _). cbn [erase dispatch ensure rbind] in D.
    destruct (register_ok _ _ _ _ _ _ _ _ _ D) as (_ & _ & _ & _ & _ & _ & Bo & _).
    pose proof (C147_unregister money other _ p f d s2 Hp1) as U. cbv beta zeta in U. cbv beta in Es. rewrite Es in U. destruct (U H2) as [[C1 C2] [D1 D2]]; [rewrite Bo; exact Hb|].
    split; intros c; [destruct (N.eq_dec c p) as [->|Hc]; [lia|rewrite <- (C2 c Hc); apply A2, Hc]|destruct (N.eq_dec c f) as [->|Hc]; [lia|rewrite (D2 c Hc); apply B2, Hc]].
  Qed.
End props.

(** * The runtime's constants *)
Notation RMAX := 32. Notation RED := 1. Notation RBASE := 148. Notation RFACTOR := 126.
Notation rexec := (mdispatch RMAX RED RBASE RFACTOR).
Notation rrun := (fun money other ops => run (mmstep RMAX RED RBASE RFACTOR) ops (minit money other)).
Lemma runtime_small : RBASE + RFACTOR * (RMAX + 1) + RED <= U128MAX.
Proof. vm_compute. discriminate. Qed.
Definition fp1 : N := faddr 1.
Definition rmoney : gmap N N := <[1 := 10000]> (<[2 := 500]> (<[3 := 7]> ∅)).
Definition rother : gmap N N := <[2 := 40]> ∅.
(** Account 1 creates a futurepass, puts 1000 into it and makes 2 a delegate. *)
Definition rops : list mmop := [MExt 1 (MCreate 1); MExt 1 (MPay true fp1 1000); MExt 1 (MRegister fp1 2 TAny true)].
Lemma rpast : along (mmstep RMAX RED RBASE RFACTOR) mfine rops (minit rmoney rother).
Proof. vm_compute. tauto. Qed.
Lemma rkept : kept RED rmoney rother.
Proof.
  intros a. unfold rother, rmoney. rewrite default_insert. destruct (N.eqb_spec a 2) as [->|_]; [vm_compute; discriminate|]. rewrite lookup_empty. cbn. congruence.
Qed.
Example C146_example : let s := rrun rmoney rother rops in (dep s fp1, res s fp1, free s fp1, free s 1, res s 2) = (400, 400, 1001, 8599, 40).
Proof. vm_compute. reflexivity. Qed.
Example C147_example_create : is_ok (rexec (minit rmoney rother) 1 None (MCreate 1)) = true /\ is_ok (rexec (rrun rmoney rother rops) 1 None (MRegister fp1 3 TAny true)) = true /\
  is_ok (rexec (rrun rmoney rother rops) 1 None (MUnregister fp1 2)) = true /\ is_ok (rexec (rrun rmoney rother rops) 1 None (MTransfer 1 (Some 3))) = true /\
  is_ok (rexec (rrun rmoney rother rops) 1 None (MTransfer 1 None)) = true.
Proof. vm_compute. tauto. Qed.
(** The delegate spends the futurepass's money; an outsider cannot. *)
Example C148_example : free (rrun rmoney rother (rops ++ [MExt 2 (MProxyExt fp1 (MPay true 3 600))])) fp1 = 401 /\
  is_ok (rexec (rrun rmoney rother rops) 3 None (MProxyExt fp1 (MPay true 3 600))) = false.
Proof. vm_compute. tauto. Qed.
Example C149_example : let s := rrun rmoney rother (rops ++ [MExt 1 (MTransfer 1 None)]) in (hold (f_fp s) !! 1, free s fp1, res s fp1, free s 1) = (None, 1001, 0, 8999) /\
  is_ok (rexec s 1 None (MProxyExt fp1 (MPay true 1 5))) = false.
Proof. vm_compute. tauto. Qed.
(** The delegate itself may leave, and takes the share the owner paid. *)
Theorem C151_payer_refunded_refuted : exists money other ops o s', along (mmstep RMAX RED RBASE RFACTOR) mfine (ops ++ [o]) (minit money other) /\
  let s := rrun money other ops in rexec s 2 None (MUnregister fp1 2) = Ok s' /\ o = MExt 2 (MUnregister fp1 2) /\
  free (minit money other) 1 = free s 1 + 126 + 275 + 1000 /\ free s 2 = free (minit money other) 2 /\ free s' 1 = free s 1 /\ free s' 2 = free s 2 + 126.
Proof.
  exists rmoney, rother, rops, (MExt 2 (MUnregister fp1 2)). eexists. split; [vm_compute; tauto|]. split; [vm_compute; reflexivity|]. split; [reflexivity|]. vm_compute. tauto.
Qed.
(** The existential deposit paid at the creation is not paid back when the futurepass is given up at once. *)
Theorem C151_create_renounce_refuted : exists money other, let s := rrun money other [MExt 1 (MCreate 1); MExt 1 (MTransfer 1 None)] in
  free s 1 + 1 = free (minit money other) 1 /\ free s fp1 = 1 /\ hold (f_fp s) !! 1 = None.
Proof. exists rmoney, rother. vm_compute. tauto. Qed.

Definition fund_all := (C146_deposit, C146_conserved, C147_create, C147_register, C147_unregister, C147_transfer, C147_renounce, C148_free, C148_reserved,
  C149_renounced, C150_unregister, C150_renounce, C150_register, C151_round_trip, C151_payer_refunded_refuted, C151_create_renounce_refuted).
Print Assumptions fund_all.
