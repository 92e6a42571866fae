(** C41: the schedule of delayed payments. *)
From Verif Require Import XrplModel XrplDeposits.
From Verif Require Import PegModel PegBacking.

(** * Specification *)
(** The decision about delayed payment [id], if the event is one. *)
Definition dec_of (e : pev) : option N :=
  match e with VCredit o _ _ _ _ _ => o | VSend o _ _ _ _ _ _ => o | VFail id _ _ => Some id | _ => None end.
Definition blk_of (e : pev) : N := match e with VCredit _ b _ _ _ _ => b | VSend _ b _ _ _ _ _ => b | VFail _ b _ => b | _ => 0 end.
(** The event pays exactly what was promised (token, amount, beneficiary; source), or reports the failure. *)
Definition pays (id : N) (p : pending) (e : pev) : Prop :=
  match p with
  | PDep t v ben => (exists b a, e = VCredit (Some id) b t a v ben)
  | PWd w t v ben => (exists b a, e = VSend (Some id) b a w t v ben)
  end.
Definition is_dec (id : N) (e : pev) : bool := bool_decide (dec_of e = Some id).
Definition decided (id : N) (s : peg) : nat := length (List.filter (is_dec id) (plog s)).
Definition accepted (id due : N) (p : pending) (s : peg) : Prop := In (VDelayed id due p) (plog s).

(** * One release *)
Lemma release_frame native pot s id p :
  pend s !! id = Some p ->
  let s' := release native pot s id in
  pend s' = delete id (pend s) /\ psch s' = psch s /\ pnext s' = pnext s /\ ready s' = ready s /\ pblk s' = pblk s /\ pcf s' = pcf s /\ pdl s' = pdl s /\
  exists e, plog s' = e :: plog s /\ dec_of e = Some id /\ blk_of e = pblk s /\ (pays id p e \/ e = VFail id (pblk s) p).
Proof.
  intros Ep. unfold release. rewrite Ep. destruct p as [t v b|w t v b].
  - destruct (process_deposit native pot _ (Some id) t v b) as [s2 ok] eqn:E2.
    destruct (process_frame _ _ _ _ _ _ _ _ _ E2) as (P1 & P2 & P3 & P4 & P5 & P6 & P7 & _ & a & P8).
    cbn [p_pend pend psch pnext ready pblk pcf pdl plog] in *. destruct ok; cbn zeta.
    + do 7 (split; [assumption|]). eexists. split; [exact P8|]. repeat split. left. eexists _, _. reflexivity.
    + cbn [p_log pend psch pnext ready pblk pcf pdl plog]. do 7 (split; [assumption|]). rewrite P8. eexists. split; [reflexivity|]. rewrite P5. repeat split. now right.
  - cbn [p_pend e2a]. destruct (e2a s !! t) as [a|]; cbn zeta; cbn [send p_log p_pend pend psch pnext ready pblk pcf pdl plog];
      do 7 (split; [reflexivity|]); eexists; (split; [reflexivity|]); repeat split; [left; eexists _, _; reflexivity|now right].
Qed.
Lemma release_none native pot s id : pend s !! id = None -> release native pot s id = s.
Proof. unfold release. intros ->. reflexivity. Qed.

Lemma decided_cons id e s s' : plog s' = e :: plog s -> decided id s' = ((if is_dec id e then 1 else 0) + decided id s)%nat.
Proof. unfold decided. intros ->. cbn [List.filter]. destruct (is_dec id e); reflexivity. Qed.
Lemma is_dec_same id e : dec_of e = Some id -> is_dec id e = true.
Proof. intros H. apply bool_decide_true, H. Qed.
Lemma is_dec_ne id e j : dec_of e = Some j -> j <> id -> is_dec id e = false.
Proof. intros H Hne. apply bool_decide_false. congruence. Qed.
Lemma is_dec_none id e : dec_of e = None -> is_dec id e = false.
Proof. intros H. apply bool_decide_false. congruence. Qed.

(** * The bookkeeping invariant; [L] are payments taken off the schedule but not yet processed *)
Record SI (L : list N) (s : peg) : Prop := {
  s_nd : forall k, NoDup (listed (psch s) k);
  s_one : forall id k k', In id (listed (psch s) k) -> In id (listed (psch s) k') -> k = k';
  s_lnd : NoDup L;
  s_loose : forall id, In id L -> pend s !! id <> None /\ (forall k, ~ In id (listed (psch s) k));
  s_del : forall id k, In id (listed (psch s) k) -> exists p, accepted id k p s /\ pend s !! id = Some p;
  s_pend : forall id p, pend s !! id = Some p -> (exists d, accepted id d p s) /\ (In id L \/ exists k, In id (listed (psch s) k));
  s_lt : forall id d p, accepted id d p s -> id < pnext s;
  s_uniq : forall id d p d' p', accepted id d p s -> accepted id d' p' s -> d = d' /\ p = p';
  s_dec : forall id d p, accepted id d p s -> (pend s !! id = Some p /\ decided id s = 0%nat) \/ (pend s !! id = None /\ decided id s = 1%nat);
  s_none : forall id, pnext s <= id -> decided id s = 0%nat;
  s_match : forall e id, In e (plog s) -> dec_of e = Some id -> exists d p, accepted id d p s /\ (pays id p e \/ exists b, e = VFail id b p) }.

(** Changes leaving schedule, pending payments and decisions alone. *)
Lemma SI_same L s s' : SI L s -> (forall k, listed (psch s') k = listed (psch s) k) -> pend s' = pend s -> pnext s' = pnext s ->
  (plog s' = plog s \/ exists e, plog s' = e :: plog s /\ dec_of e = None /\ (forall id d p, e <> VDelayed id d p)) -> SI L s'.
Proof.
  intros [H1 H2 H3 H4 H5 H6 H7 H8 H9 H10 H11] E1 E2 E3 El.
  assert (Ha : forall id d p, accepted id d p s' <-> accepted id d p s).
  { intros id d p. unfold accepted. destruct El as [->|(e & -> & _ & Hne)]; [tauto|]. split; [intros [H|H]; [exfalso; exact (Hne _ _ _ H)|exact H]|right; exact H]. }
  assert (Hd : forall id, decided id s' = decided id s).
  { intros id. destruct El as [E|(e & E & Hn & _)]; [unfold decided; rewrite E; reflexivity|]. rewrite (decided_cons id e s s' E), is_dec_none by exact Hn. reflexivity. }
  split; rewrite ?E2, ?E3.
  - intros k. rewrite E1. apply H1.
  - intros id k k'. rewrite !E1. apply H2.
  - exact H3.
  - intros id Hi. destruct (H4 _ Hi) as [F1 F2]. split; [exact F1|]. intros k. rewrite E1. apply F2.
  - intros id k. rewrite E1. intros Hi. destruct (H5 _ _ Hi) as (p & F1 & F2). exists p. split; [apply Ha, F1|exact F2].
  - intros id p Hp. destruct (H6 _ _ Hp) as ((d & F1) & F2). split; [exists d; apply Ha, F1|]. destruct F2 as [F2|(k & F2)]; [now left|right; exists k; rewrite E1; exact F2].
  - intros id d p H. apply Ha in H. eauto.
  - intros id d p d' p' F1 F2. apply Ha in F1, F2. eauto.
  - intros id d p H. apply Ha in H. rewrite Hd. eauto.
  - intros id H. rewrite Hd. eauto.
  - intros e id Hi He. assert (Hi' : In e (plog s)). { destruct El as [E|(e0 & E & Hn & _)]; rewrite E in Hi; [exact Hi|]. destruct Hi as [<-|Hi]; [congruence|exact Hi]. }
    destruct (H11 _ _ Hi' He) as (d & p & F1 & F2). exists d, p. split; [apply Ha, F1|exact F2].
Qed.
Lemma SI_release native pot L s id : SI (id :: L) s -> SI L (release native pot s id).
Proof.
  intros [H1 H2 H3 H4 H5 H6 H7 H8 H9 H10 H11].
  destruct (H4 id (or_introl eq_refl)) as [Hp Hoff]. destruct (pend s !! id) as [p|] eqn:Ep; [clear Hp|contradiction].
  destruct (release_frame native pot s id p Ep) as (P1 & P2 & P3 & _ & _ & _ & _ & e & P4 & P5 & P6 & P7).
  set (s' := release native pot s id) in *. clearbody s'.
  apply NoDup_cons in H3. destruct H3 as [Hnin Hnd].
  assert (Hne : forall i d q, VDelayed i d q <> e) by (intros i d q H; subst e; discriminate).
  assert (Ha : forall i d q, accepted i d q s' <-> accepted i d q s).
  { intros i d q. unfold accepted. rewrite P4. split; [intros [H|H]; [exfalso; exact (Hne _ _ _ (eq_sym H))|exact H]|right; exact H]. }
  assert (Hd : forall i, decided i s' = ((if decide (i = id) then 1 else 0) + decided i s)%nat).
  { intros i. rewrite (decided_cons i e s s' P4). destruct (decide (i = id)) as [->|Hi]; [rewrite is_dec_same by exact P5; reflexivity|].
    rewrite (is_dec_ne i e id) by (assumption || congruence). reflexivity. }
  split; rewrite ?P1, ?P2, ?P3; try assumption.
  - intros i Hi. destruct (H4 i (or_intror Hi)) as [F1 F2]. split; [|exact F2]. rewrite lookup_delete_ne; [exact F1|]. intros ->. apply Hnin, elem_of_list_In, Hi.
  - intros i k Hi. destruct (H5 _ _ Hi) as (q & F1 & F2). exists q. split; [apply Ha, F1|]. rewrite lookup_delete_ne; [exact F2|]. intros ->. exact (Hoff _ Hi).
  - intros i q Hq. apply lookup_delete_Some in Hq. destruct Hq as [Hi Hq]. destruct (H6 _ _ Hq) as ((d & F1) & F2). split; [exists d; apply Ha, F1|].
    destruct F2 as [[F2|F2]|F2]; [congruence|now left|now right].
  - intros i d q H. apply Ha in H. eauto.
  - intros i d q d' q' F1 F2. apply Ha in F1, F2. eauto.
  - intros i d q H. apply Ha in H. rewrite Hd. destruct (decide (i = id)) as [->|Hi].
    + right. rewrite lookup_delete. split; [reflexivity|]. destruct (H9 _ _ _ H) as [[_ ->]|[F _]]; [reflexivity|congruence].
    + rewrite lookup_delete_ne by congruence. exact (H9 _ _ _ H).
  - intros i Hi. rewrite Hd. destruct (decide (i = id)) as [->|_]; [|exact (H10 _ Hi)].
    destruct (H6 _ _ Ep) as ((d & F) & _). apply H7 in F. lia.
  - intros e' i. rewrite P4. intros [<-|Hin] He.
    + rewrite P5 in He. injection He as <-. destruct (H6 _ _ Ep) as ((d & F) & _). exists d, p. split; [apply Ha, F|]. destruct P7 as [P7|P7]; [left; exact P7|right; exists (pblk s); exact P7].
    + destruct (H11 _ _ Hin He) as (d & q & F1 & F2). exists d, q. split; [apply Ha, F1|exact F2].
Qed.
Lemma SI_fold native pot ids : forall L s, SI (ids ++ L) s -> SI L (fold_left (release native pot) ids s).
Proof. induction ids as [|i ids IH]; intros L s H; [exact H|]. cbn [fold_left]. apply IH. apply SI_release. exact H. Qed.
(** Taking a set of payments off one block of the schedule. *)
Lemma SI_take s k now rest m :
  SI [] s -> Permutation (now ++ rest) (listed (psch s) k) ->
  (forall j, listed m j = if k =? j then rest else listed (psch s) j) -> SI now (p_sch s m).
Proof.
  intros [H1 H2 H3 H4 H5 H6 H7 H8 H9 H10 H11] Hp Hm.
  assert (Hnd : NoDup (now ++ rest)). { rewrite Hp. apply H1. }
  assert (Hsub : forall i j, In i (listed m j) -> In i (listed (psch s) j)).
  { intros i j. rewrite Hm. destruct (N.eqb_spec k j) as [<-|]; [|tauto]. intros Hi. eapply Permutation_in; [exact Hp|]. apply in_or_app. now right. }
  assert (Hnow : forall i, In i now -> In i (listed (psch s) k)).
  { intros i Hi. eapply Permutation_in; [exact Hp|]. apply in_or_app. now left. }
  apply NoDup_app in Hnd. destruct Hnd as (N1 & N2 & N3).
  split; cbn [p_sch psch pend pnext plog]; try assumption.
  - intros j. rewrite Hm. destruct (k =? j); [exact N3|apply H1].
  - intros i j j' Hi Hj. apply Hsub in Hi, Hj. eauto.
  - intros i Hi. destruct (H5 _ _ (Hnow _ Hi)) as (p & _ & F). split; [congruence|]. intros j Hj.
    pose proof (H2 _ _ _ (Hnow _ Hi) (Hsub _ _ Hj)) as E. subst j. rewrite Hm, N.eqb_refl in Hj. apply elem_of_list_In in Hi, Hj. exact (N2 _ Hi Hj).
  - intros i j Hi. apply Hsub in Hi. exact (H5 _ _ Hi).
  - intros i p Hi. destruct (H6 _ _ Hi) as (F1 & F2). split; [exact F1|]. destruct F2 as [[]|(j & F2)].
    destruct (N.eqb_spec k j) as [E|Hne]; [|right; exists j; rewrite Hm; destruct (N.eqb_spec k j); [contradiction|exact F2]].
    subst j. apply (Permutation_in _ (Permutation_sym Hp)), in_app_or in F2. destruct F2 as [F2|F2]; [now left|]. right. exists k. rewrite Hm, N.eqb_refl. exact F2.
Qed.

(** * A new delayed payment *)
Lemma delay_cases s delay p :
  delay_payment s delay p = p_log s (VNoId p) \/
  let due := sat U32MAX (pblk s + delay) in let s' := delay_payment s delay p in
  (forall j, listed (psch s') j = if due =? j then listed (psch s) due ++ [pnext s] else listed (psch s) j) /\
  pend s' = <[pnext s := p]> (pend s) /\ pnext s' = pnext s + 1 /\ plog s' = VDelayed (pnext s) due p :: plog s /\
  ready s' = ready s /\ pblk s' = pblk s /\ pdl s' = pdl s.
Proof.
  unfold delay_payment. destruct (_ <? _); [now left|]. right. cbn zeta. cbn [psch pend pnext plog ready pblk pdl]. split; [|repeat split].
  intros j. rewrite listed_insert. reflexivity.
Qed.
Lemma SI_delay s delay p : SI [] s -> SI [] (delay_payment s delay p).
Proof.
  intros HS. destruct (delay_cases s delay p) as [->|(P1 & P2 & P3 & P4 & _)].
  - apply (SI_same [] s); try reflexivity; [exact HS|]. right. eexists. split; [reflexivity|]. split; [reflexivity|intros; discriminate].
  - set (s' := delay_payment s delay p) in *. clearbody s'. set (due := sat U32MAX (pblk s + delay)) in *. clearbody due.
    destruct HS as [H1 H2 H3 H4 H5 H6 H7 H8 H9 H10 H11].
    assert (Hf : pend s !! pnext s = None). { destruct (pend s !! pnext s) as [q|] eqn:E; [|reflexivity]. destruct (H6 _ _ E) as ((d & F) & _). apply H7 in F. lia. }
    assert (Hoff : forall k, ~ In (pnext s) (listed (psch s) k)). { intros k Hi. destruct (H5 _ _ Hi) as (q & _ & F). congruence. }
    assert (Hin : forall i k, In i (listed (psch s') k) <-> In i (listed (psch s) k) \/ i = pnext s /\ k = due).
    { intros i k. rewrite P1. destruct (N.eqb_spec due k) as [<-|Hne].
      - rewrite in_app_iff. cbn [In]. intuition congruence.
      - intuition congruence. }
    assert (Ha : forall i d q, accepted i d q s' <-> (i = pnext s /\ d = due /\ q = p) \/ accepted i d q s).
    { intros i d q. unfold accepted. rewrite P4. cbn [In]. split; intros [H|H]; try (now right).
      - injection H as <- <- <-. left. repeat split. 
      - destruct H as (-> & -> & ->). now left. }
    assert (Hd : forall i, decided i s' = decided i s) by (intros i; rewrite (decided_cons i _ s s' P4); reflexivity).
    assert (Hold : forall i d q, accepted i d q s -> i <> pnext s) by (intros i d q H; apply H7 in H; lia).
    split; rewrite ?P2, ?P3.
    + intros k. rewrite P1. destruct (due =? k); [|apply H1]. apply NoDup_app. split; [apply H1|]. split; [|apply NoDup_singleton].
      intros x Hx Hx'. apply elem_of_list_singleton in Hx'. subst x. apply elem_of_list_In in Hx. exact (Hoff _ Hx).
    + intros i k k' Hi Hk. apply Hin in Hi, Hk. destruct Hi as [Hi|[-> ->]], Hk as [Hk|[F ->]]; [eauto| | |reflexivity]; exfalso.
      * subst i. exact (Hoff _ Hi).
      * exact (Hoff _ Hk).
    + constructor.
    + intros i [].
    + intros i k Hi. apply Hin in Hi. destruct Hi as [Hi|[-> ->]].
      * destruct (H5 _ _ Hi) as (q & F1 & F2). exists q. split; [apply Ha; now right|]. rewrite lookup_insert_ne; [exact F2|]. intros <-. exact (Hold _ _ _ F1 eq_refl).
      * exists p. split; [apply Ha; left; repeat split|apply lookup_insert].
    + intros i q Hq. destruct (N.eqb_spec (pnext s) i) as [E|Hne].
      * subst i. rewrite lookup_insert in Hq. injection Hq as <-. split; [exists due; apply Ha; left; repeat split|]. right. exists due. apply Hin. now right.
      * rewrite lookup_insert_ne in Hq by exact Hne. destruct (H6 _ _ Hq) as ((d & F1) & [[]|(k & F2)]). split; [exists d; apply Ha; now right|]. right. exists k. apply Hin. now left.
    + intros i d q H. apply Ha in H. destruct H as [(-> & _)|H]; [lia|]. apply H7 in H. lia.
    + intros i d q d' q' F1 F2. apply Ha in F1, F2. destruct F1 as [(-> & -> & ->)|F1], F2 as [(G1 & -> & ->)|F2]; [split; reflexivity| | |eauto]; exfalso.
      * exact (Hold _ _ _ F2 eq_refl).
      * subst i. exact (Hold _ _ _ F1 eq_refl).
    + intros i d q H. rewrite Hd. apply Ha in H. destruct H as [(-> & -> & ->)|H].
      * left. rewrite lookup_insert. split; [reflexivity|apply H10; lia].
      * rewrite lookup_insert_ne by (intros <-; exact (Hold _ _ _ H eq_refl)). exact (H9 _ _ _ H).
    + intros i Hi. rewrite Hd. apply H10. lia.
    + intros e i. rewrite P4. intros [<-|Hi] He; [discriminate|]. destruct (H11 _ _ Hi He) as (d & q & F1 & F2). exists d, q. split; [apply Ha; now right|exact F2].
Qed.
