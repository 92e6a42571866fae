(** C36: XRPL tickets. *)
From Verif Require Export XrplModel.
From Coq Require Export Sorted.

(** Allocations announced for door [k] in a history, and the conditions on them: the next allocation
    contains no ticket that the current one can still hand out (the ledger creates every ticket once);
    root keeps the current ticket inside the allocation it sets and that allocation before the next one. *)
Definition announced (ops : list top) (k : N) (p : tparams) : Prop :=
  In (TNext k (tstart p) (tsize p)) ops \/ exists t, In (TCur k t (tstart p) (tsize p)) ops.
Definition tgood (m : doors) (o : top) : Prop :=
  match o with
  | TTake _ _ => True
  | TNext k a b => let d := door_of m k in forall t, a <= t < a + b -> ~ (tcur d <= t < tstart (tpar d) + tsize (tpar d))
  | TCur k t a b => a <= t <= a + b /\ (tnext (door_of m k) = tp0 \/ a + b <= tstart (tnext (door_of m k)))
  end.
Definition newer (a b : N) : Prop := b < a.

Record DI (A : tparams -> Prop) (d : door) : Prop := mkDI {
  di_sorted : StronglySorted newer (issued d);
  di_lt : forall t, In t (issued d) -> t < tcur d;
  di_in : tstart (tpar d) <= tcur d <= tstart (tpar d) + tsize (tpar d);
  di_next : tnext d = tp0 \/ (tstart (tpar d) + tsize (tpar d) <= tstart (tnext d) /\ 1 <= tsize (tnext d) /\ A (tnext d));
  di_par : tpar d = tp0 \/ A (tpar d);
  di_alloc : forall t, In t (issued d) -> exists p, A p /\ tstart p <= t < tstart p + tsize p }.

Lemma take_DI A d t d' : DI A d -> take_ticket d = Ok (t, d') -> DI A d' /\ issued d' = t :: issued d.
Proof.
  intros [Hs Hl Hi Hn Hp Ha] H. unfold take_ticket in H. inv_ok.
  destruct (N.leb_spec (tstart (tpar d) + tsize (tpar d)) (tcur d)) as [Hle|Hlt].
  - inv_ok. match goal with Hx : negb _ = true |- _ => apply negb_true_iff, orb_false_iff in Hx as [Z1 Z2] end.
    assert (Hn' : tnext d <> tp0) by (intros Hz; rewrite Hz in Z1; discriminate Z1).
    destruct Hn as [Hn|(Hn & Hsz & HA)]; [contradiction|].
    injection H as H1 H2. subst t d'. split; [|reflexivity].
    constructor; cbn [issued tcur tpar tnext].
    + constructor; [exact Hs|]. apply Forall_forall. intros x Hx. apply elem_of_list_In, Hl in Hx. unfold newer. lia.
    + intros x [<-|Hx]; [lia|]. apply Hl in Hx. lia.
    + lia.
    + left. reflexivity.
    + right. exact HA.
    + intros x [<-|Hx]; [exists (tnext d); split; [exact HA|lia]|apply Ha, Hx].
  - injection H as H1 H2. subst t d'. split; [|reflexivity].
    constructor; cbn [issued tcur tpar tnext].
    + constructor; [exact Hs|]. apply Forall_forall. intros x Hx. apply elem_of_list_In, Hl in Hx. exact Hx.
    + intros x [<-|Hx]; [lia|]. apply Hl in Hx. lia.
    + lia.
    + exact Hn.
    + exact Hp.
    + intros x [<-|Hx]; [|apply Ha, Hx]. destruct Hp as [Hp|Hp]; [rewrite Hp in *; cbn in *; lia|].
      exists (tpar d). split; [exact Hp|lia].
Qed.

Definition TI (A : N -> tparams -> Prop) (m : doors) : Prop := forall k, DI (A k) (door_of m k).
Lemma door_of_insert m k d j : door_of (<[k := d]> m) j = if k =? j then d else door_of m j.
Proof.
  unfold door_of. destruct (N.eqb_spec k j) as [E|Hne]; [subst; rewrite lookup_insert; reflexivity|rewrite lookup_insert_ne by exact Hne; reflexivity].
Qed.
Lemma TI_insert A m k d : TI A m -> DI (A k) d -> TI A (<[k := d]> m).
Proof. intros HT Hd j. rewrite door_of_insert. destruct (N.eqb_spec k j) as [E|]; [subst; exact Hd|apply HT]. Qed.
Definition known (A : N -> tparams -> Prop) (o : top) : Prop :=
  match o with TNext k a b => A k (TP a b) | TCur k _ a b => A k (TP a b) | _ => True end.
Lemma tstep_TI A m o : known A o -> tgood m o -> TI A m -> TI A (tstep m o).
Proof.
  intros Hk Hg HT. unfold tstep. destruct (texec m o) as [m'|] eqn:H; cbn [commit]; [|exact HT].
  destruct o as [k u|k a b|k t a b]; cbn [texec tgood known] in *.
  - inv_ok. subst m'. apply TI_insert; [exact HT|]. destruct v as [t d']. cbn [snd].
    exact (proj1 (take_DI _ _ _ _ (HT k) E)).
  - inv_ok. subst m'. apply TI_insert; [exact HT|]. match goal with Hx : set_next _ _ _ = _ |- _ => unfold set_next in Hx; rename Hx into HX end. inv_ok. subst v.
    match goal with Hx : negb _ = true |- _ => rename Hx into E2' end.
    destruct (HT k) as [Hs Hl Hi Hn Hp Ha]. constructor; cbn [issued tcur tpar tnext]; try assumption.
    right. apply negb_true_iff, orb_false_iff in E2' as [E3' E2']. apply N.eqb_neq in E2'. apply orb_false_iff in E3' as [E3' _]. apply N.ltb_ge in E3'.
    cbn [tstart tsize]. cbv zeta in Hg. specialize (Hg a ltac:(lia)). split; [lia|]. split; [lia|exact Hk].
  - inv_ok. subst m'. apply TI_insert; [exact HT|]. match goal with Hx : set_current _ _ _ _ = _ |- _ => unfold set_current in Hx; rename Hx into HX end. inv_ok. subst v.
    match goal with Hx : negb _ = true |- _ => rename Hx into E2' end.
    destruct (HT k) as [Hs Hl Hi Hn Hp Ha]. destruct Hg as [Hg1 Hg2].
    apply negb_true_iff, orb_false_iff in E2' as [E2' _]. apply orb_false_iff in E2' as [E2' _]. apply N.ltb_ge in E2'.
    constructor; cbn [issued tcur tpar tnext tstart tsize]; try assumption.
    + intros x Hx. apply Hl in Hx. lia.
    + destruct Hn as [Hn|(Hn & Hsz & HA)]; [left; exact Hn|]. destruct Hg2 as [Hg2|Hg2]; [left; exact Hg2|right].
      split; [exact Hg2|]. split; assumption.
    + right. exact Hk.
Qed.
Definition treach (ops : list top) : doors := run tstep ops ∅.
Lemma treach_TI ops : along tstep tgood ops ∅ -> TI (announced ops) (treach ops).
Proof.
  intros Hg. unfold treach.
  assert (Hall : Forall (known (announced ops)) ops).
  { apply Forall_forall. intros o Ho. apply elem_of_list_In in Ho. destruct o as [k u|k a b|k t a b]; cbn; [exact Logic.I| |].
    - left. exact Ho.
    - right. exists t. exact Ho. }
  revert Hall Hg. generalize (announced ops). intros A.
  assert (H0 : TI A ∅).
  { intros k. unfold door_of. rewrite lookup_empty. cbn [default]. constructor; cbn; try (intros; contradiction).
    - constructor.
    - lia.
    - left. reflexivity.
    - left. reflexivity. }
  revert H0. generalize (∅ : doors). induction ops as [|o ops IH]; intros m HT Hf Hg; [exact HT|].
  apply Forall_cons in Hf as [Hf1 Hf]. destruct Hg as [Hg1 Hg].
  apply (IH (tstep m o)); [apply tstep_TI; assumption|exact Hf|exact Hg].
Qed.

(** ** C36: no ticket is handed out twice, each is larger than all before it ... *)
Theorem C36_increasing_partial ops k : along tstep tgood ops ∅ ->
  let l := issued (door_of (treach ops) k) in StronglySorted newer l /\ NoDup l.
Proof.
  intros Hg. pose proof (di_sorted _ _ (treach_TI ops Hg k)) as Hs. cbv zeta. split; [exact Hs|].
  induction Hs as [|x l Hs IH Hf]; constructor; [|exact IH].
  intros Hx. rewrite Forall_forall in Hf. specialize (Hf x Hx). unfold newer in Hf. lia.
Qed.
(** ... and belongs to an allocation announced for that door. *)
Theorem C36_allocated_partial ops k t : along tstep tgood ops ∅ -> In t (issued (door_of (treach ops) k)) ->
  exists p, announced ops k p /\ tstart p <= t < tstart p + tsize p.
Proof. intros Hg Hin. exact (di_alloc _ _ (treach_TI ops Hg k) t Hin). Qed.
(** A door with tickets left in its bucket, or with a next bucket, can serve a ticket. *)
Theorem C36_available ops k : along tstep tgood ops ∅ ->
  let d := door_of (treach ops) k in
  tcur d < U32MAX -> tstart (tpar d) + tsize (tpar d) <= U32MAX -> tstart (tnext d) < U32MAX ->
  tcur d < tstart (tpar d) + tsize (tpar d) \/ (tnext d <> tp0 /\ tsize (tpar d) <> 0) ->
  is_ok (take_ticket d) = true.
Proof.
  intros Hg. pose proof (treach_TI ops Hg k) as HT. cbv zeta. revert HT. generalize (door_of (treach ops) k). clear.
  intros d [Hs Hl Hi Hn Hp Ha] H1 H2 H3 H. unfold take_ticket, chk_add.
  destruct (N.leb_spec (tcur d + 1) U32MAX); [|lia]. destruct (N.leb_spec (tstart (tpar d) + tsize (tpar d)) U32MAX); [|lia].
  cbn [of_opt rbind]. destruct (N.leb_spec (tstart (tpar d) + tsize (tpar d)) (tcur d)); [|reflexivity].
  destruct H as [H|[H Hz]]; [lia|]. destruct Hn as [Hn|(Hn & Hsz & _)]; [contradiction|].
  assert (Hf : is_tp0 (tnext d) || (tstart (tnext d) =? tstart (tpar d)) = false).
  { apply orb_false_iff. split; [|apply N.eqb_neq; lia]. unfold is_tp0. apply andb_false_iff. right. apply N.eqb_neq. lia. }
  rewrite Hf. cbn [negb ensure rbind]. destruct (N.leb_spec (tstart (tnext d) + 1) U32MAX); [reflexivity|lia].
Qed.

(** Two allocations in order, with a failed caller in between. *)
Definition tick_ex := [TNext 0 1 3; TTake 0 true; TTake 0 false; TTake 0 true; TNext 0 10 2; TTake 0 true; TTake 0 true; TNext 1 7 7; TTake 1 true].
Definition tgoodb (m : doors) (o : top) : bool :=
  match o with
  | TTake _ _ => true
  | TNext k a b => (tstart (tpar (door_of m k)) + tsize (tpar (door_of m k)) <=? a) || (a + b <=? tcur (door_of m k)) || (tstart (tpar (door_of m k)) + tsize (tpar (door_of m k)) <=? tcur (door_of m k))
  | TCur k t a b => (a <=? t) && (t <=? a + b) && (is_tp0 (tnext (door_of m k)) || (a + b <=? tstart (tnext (door_of m k))))
  end.
Fixpoint talongb (ops : list top) (m : doors) : bool := match ops with [] => true | o :: ops' => tgoodb m o && talongb ops' (tstep m o) end.
Lemma talongb_ok ops : forall m, talongb ops m = true -> along tstep tgood ops m.
Proof.
  induction ops as [|o ops IH]; intros m H; cbn [talongb] in H; [exact Logic.I|]. apply andb_true_iff in H as [A B].
  split; [|apply IH, B]. destruct o as [k u|k a b|k t a b]; cbn [tgoodb tgood] in *; [exact Logic.I| |].
  { apply orb_true_iff in A as [A|A]; [apply orb_true_iff in A as [A|A]|]; apply N.leb_le in A; intros t; lia. }
  apply andb_true_iff in A as [A1 A2]. apply andb_true_iff in A1 as [A1 A3]. apply N.leb_le in A1, A3. split; [lia|].
  apply orb_true_iff in A2 as [A2|A2]; [left|right; apply N.leb_le; exact A2].
  unfold is_tp0 in A2. apply andb_true_iff in A2 as [X Y]. apply N.eqb_eq in X, Y. destruct (tnext (door_of m k)) as [a' b']. cbn in X, Y. subst. reflexivity.
Qed.
Example C36_example : along tstep tgood tick_ex ∅ /\ issued (door_of (treach tick_ex) 0) = [10; 3; 2; 1] /\ issued (door_of (treach tick_ex) 1) = [7].
Proof. split; [apply talongb_ok; vm_compute; reflexivity|]. split; vm_compute; reflexivity. Qed.
(** An allocation of tickets already handed out is turned away. *)
Example C36_example_old : let ops := [TNext 0 1 3; TTake 0 true; TTake 0 true; TTake 0 true; TNext 0 2 2; TNext 0 8 2; TTake 0 true] in
  along tstep tgood ops ∅ /\ issued (door_of (treach ops) 0) = [8; 3; 2; 1].
Proof. cbv zeta. split; [apply talongb_ok; vm_compute; reflexivity|vm_compute; reflexivity]. Qed.
(** A relayer may announce a next allocation inside the current one (it only has to start at or after
    the current ticket): tickets 6 to 10 are handed out a second time. *)
Definition reuse_ops := [TNext 0 1 10; TTake 0 true; TTake 0 true; TTake 0 true; TTake 0 true; TNext 0 6 5;
  TTake 0 true; TTake 0 true; TTake 0 true; TTake 0 true; TTake 0 true; TTake 0 true; TTake 0 true].
Theorem C36_reused_refuted : exists ops t l, issued (door_of (treach ops) 0) = t :: l /\ In t l.
Proof. exists reuse_ops, 6, [10; 9; 8; 7; 6; 5; 4; 3; 2; 1]. split; [vm_compute; reflexivity|]. vm_compute. tauto. Qed.
(** Root may set a current ticket outside the allocation it announces. *)
Theorem C36_unallocated_refuted : exists ops t, In t (issued (door_of (treach ops) 0)) /\
  forall p, announced ops 0 p -> ~ (tstart p <= t < tstart p + tsize p).
Proof.
  exists [TCur 0 3 5 10; TTake 0 true], 3. split; [vm_compute; tauto|].
  intros [a b] [[H|[H|[]]]|[t [H|[H|[]]]]]; try discriminate. injection H as H1 H2 H3. cbn in *. lia.
Qed.

Print Assumptions C36_increasing_partial.
Print Assumptions C36_allocated_partial.
Print Assumptions C36_available.
Print Assumptions C36_reused_refuted.
Print Assumptions C36_unallocated_refuted.
