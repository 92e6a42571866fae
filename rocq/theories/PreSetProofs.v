(** Proofs about the set of precompiles. *)
From Verif Require Export PreSetModel.
Import ListNotations.

(** ** Spec *)
(** How often a precompile is under way. *)
Definition times (p : list (nat * N)) (k : nat * N) : N := N.of_nat (length (List.filter (fun x => bool_decide (x = k)) p)).
(** What should become of a call while the precompiles [p] are under way in this EVM: counted by looking, not by levels that
    are raised and lowered. *)
Fixpoint plan (tab : list frag) (p : list (nat * N)) (c : call) : done :=
  let '(Call w code ctx fresh subs) := c in
  let p := if fresh then [] else p in
  match serve tab w code with
  | None => Done code ctx fresh Contract (map (plan tab p) subs)
  | Some (i, f) =>
    if negb (f_dele f) && negb (code =? ctx) then Done code ctx fresh Refused []
    else if match f_limit f with Some m => m <? times p (i, code) | None => false end then Done code ctx fresh TooDeep []
    else Done code ctx fresh (Ran i) (map (plan tab ((i, code) :: p)) subs)
  end.
(** The limits are below 2^16 - 1. *)
Definition small (tab : list frag) : Prop := forall i f m, nth_error tab i = Some f -> f_limit f = Some m -> m < 2 ^ 16 - 1.

(** ** Induction on calls *)
Section call_ind.
  Variable P : call -> Prop.
  Hypothesis H : forall w code ctx fresh subs, Forall P subs -> P (Call w code ctx fresh subs).
  Fixpoint call_all (c : call) : P c :=
    match c with
    | Call w code ctx fresh subs =>
      H w code ctx fresh subs
        ((fix go (l : list call) : Forall P l :=
            match l with [] => @List.Forall_nil _ P | x :: r => @List.Forall_cons _ P x r (call_all x) (go r) end) subs)
    end.
End call_ind.

Lemma find_spec l w a : forall i j f, find l i w a = Some (j, f) -> exists n, j = (i + n)%nat /\ nth_error l n = Some f /\ answers w a f = true.
Proof.
  induction l as [|g r IH]; intros i j f E; cbn [find] in E; [discriminate|].
  destruct (answers w a g) eqn:A.
  - injection E as <- <-. exists O. split; [lia|split; [reflexivity|exact A]].
  - destruct (IH _ _ _ E) as (n & -> & N1 & A1). exists (S n). split; [lia|split; [exact N1|exact A1]].
Qed.
Lemma serve_spec tab w a i f : serve tab w a = Some (i, f) -> nth_error tab i = Some f /\ answers w a f = true.
Proof. intros E. destruct (find_spec _ _ _ _ _ _ E) as (n & -> & N1 & A). exact (conj N1 A). Qed.
Lemma find_none l w a : forall i, find l i w a = None <-> forall f, In f l -> answers w a f = false.
Proof.
  induction l as [|g r IH]; intros i; cbn [find].
  - split; [intros _ f []|reflexivity].
  - destruct (answers w a g) eqn:A.
    + split; [discriminate|]. intros X. rewrite (X g) in A by (left; reflexivity). discriminate.
    + rewrite IH. split; intros X f; [intros [<-|I]; [exact A|exact (X f I)]|intros I; exact (X f (or_intror I))].
Qed.

(** ** Levels *)
Notation levels := (gmap (nat * N) N).
Definition agree (tab : list frag) (l : levels) (p : list (nat * N)) : Prop :=
  forall i f m a, nth_error tab i = Some f -> f_limit f = Some m -> level l (i, a) = times p (i, a) /\ times p (i, a) <= m + 1.
Lemma times_cons k x p : times (x :: p) k = (if bool_decide (x = k) then 1 else 0) + times p k.
Proof. unfold times. cbn [List.filter]. case_bool_decide; cbn [length]; lia. Qed.
Lemma level_insert l k k' v : level (<[k := v]> l) k' = if bool_decide (k = k') then v else level l k'.
Proof.
  unfold level. case_bool_decide as E; [subst; rewrite lookup_insert; reflexivity|rewrite lookup_insert_ne by exact E; reflexivity].
Qed.
Lemma agree_empty tab : agree tab ∅ [].
Proof. intros i f m a _ _. unfold level, times. rewrite lookup_empty. cbn. lia. Qed.

Section runs.
  Variable tab : list frag.
  Fixpoint runs (l : levels) (cs : list call) : levels * list done :=
    match cs with
    | [] => (l, [])
    | c :: cs => let '(l1, d) := exec tab l c in let '(l2, ds) := runs l1 cs in (l2, d :: ds)
    end.
End runs.
Lemma exec_eq tab l w code ctx fresh subs :
  exec tab l (Call w code ctx fresh subs) =
    let l0 := if fresh then ∅ else l in
    let '(l1, d) :=
      match serve tab w code with
      | None => let '(l1, ds) := runs tab l0 subs in (l1, Done code ctx fresh Contract ds)
      | Some (i, f) =>
        if negb (f_dele f) && negb (code =? ctx) then (l0, Done code ctx fresh Refused [])
        else
          match f_limit f with
          | None => let '(l1, ds) := runs tab l0 subs in (l1, Done code ctx fresh (Ran i) ds)
          | Some m =>
            if m <? level l0 (i, code) then (<[(i, code) := level l0 (i, code)]> l0, Done code ctx fresh TooDeep [])
            else
              let '(l1, ds) := runs tab (<[(i, code) := (level l0 (i, code) + 1) mod 2 ^ 16]> l0) subs in
              (<[(i, code) := (level l1 (i, code) + (2 ^ 16 - 1)) mod 2 ^ 16]> l1, Done code ctx fresh (Ran i) ds)
          end
      end in
    (if fresh then l else l1, d).
Proof. reflexivity. Qed.

Definition good (tab : list frag) (c : call) : Prop :=
  forall l p, agree tab l p -> agree tab (fst (exec tab l c)) p /\ snd (exec tab l c) = plan tab p c.
Lemma runs_good tab cs : Forall (good tab) cs -> forall l p, agree tab l p ->
  agree tab (fst (runs tab l cs)) p /\ snd (runs tab l cs) = map (plan tab p) cs.
Proof.
  induction cs as [|c cs IH]; intros F l p A; cbn [runs map]; [split; [exact A|reflexivity]|].
  pose proof (Forall_inv F) as G. pose proof (Forall_inv_tail F) as F'.
  destruct (G l p A) as [A1 D]. destruct (exec tab l c) as [l1 d]. cbn [fst snd] in *.
  destruct (IH F' l1 p A1) as [A2 D2]. destruct (runs tab l1 cs) as [l2 ds]. cbn [fst snd] in *.
  split; [exact A2|]. rewrite D, D2. reflexivity.
Qed.
Lemma exec_good tab (S : small tab) c : good tab c.
Proof.
  induction c as [w code ctx fresh subs IH] using call_all. intros l p A. rewrite exec_eq. cbv zeta.
  assert (A0 : agree tab (if fresh then ∅ else l) (if fresh then [] else p)) by (destruct fresh; [apply agree_empty|exact A]).
  cbn [plan]. set (l0 := if fresh then ∅ else l) in *. set (p0 := if fresh then [] else p) in *.
  assert (K : forall (l1 : levels) (d d' : done), agree tab l1 p0 -> d = d' ->
            agree tab (fst (if fresh then l else l1, d)) p /\ snd (if fresh then l else l1, d) = d').
  { intros l1 d d' X ->. cbn [fst snd]. split; [|reflexivity]. destruct fresh; [exact A|exact X]. }
  destruct (serve tab w code) as [[i f]|] eqn:V.
  2:{ destruct (runs_good tab subs IH l0 p0 A0) as [A1 D]. destruct (runs tab l0 subs) as [l1 ds]. cbn [fst snd] in *.
      apply K; [exact A1|rewrite D; reflexivity]. }
  destruct (serve_spec _ _ _ _ _ V) as [NT _].
  destruct (negb (f_dele f) && negb (code =? ctx)); [apply K; [exact A0|reflexivity]|].
  destruct (f_limit f) as [m|] eqn:L.
  - destruct (A0 i f m code NT L) as [LV B]. rewrite LV.
    destruct (m <? times p0 (i, code)) eqn:T.
    + apply K; [|reflexivity]. intros j g n a NJ LJ. rewrite level_insert. destruct (A0 j g n a NJ LJ) as [X Y]. split; [|exact Y].
      case_bool_decide as Q; [rewrite Q; reflexivity|exact X].
    + apply N.ltb_ge in T. pose proof (S i f m NT L) as SM.
      assert (A1 : agree tab (<[(i, code) := (times p0 (i, code) + 1) mod 2 ^ 16]> l0) ((i, code) :: p0)).
      { intros j g n a NJ LJ. rewrite level_insert, times_cons. destruct (A0 j g n a NJ LJ) as [X Y].
        case_bool_decide as Q.
        - injection Q as <- <-. rewrite NT in NJ. injection NJ as <-. rewrite L in LJ. injection LJ as <-.
          rewrite N.mod_small by lia. lia.
        - rewrite X. lia. }
      destruct (runs_good tab subs IH _ _ A1) as [A2 D].
      destruct (runs tab _ subs) as [l1 ds]. cbn [fst snd] in *.
      apply K; [|rewrite D; reflexivity].
      intros j g n a NJ LJ. rewrite level_insert. destruct (A2 j g n a NJ LJ) as [X Y]. rewrite times_cons in X, Y.
      destruct (A0 j g n a NJ LJ) as [X0 Y0].
      case_bool_decide as Q.
      * injection Q as <- <-. rewrite X. split; [|exact Y0].
        replace (1 + times p0 (i, code) + (2 ^ 16 - 1)) with (times p0 (i, code) + 1 * 2 ^ 16) by lia.
        rewrite N.mod_add by lia. apply N.mod_small. lia.
      * rewrite X. split; [lia|exact Y0].
  - assert (A1 : agree tab l0 ((i, code) :: p0)).
    { intros j g n a NJ LJ. rewrite times_cons. case_bool_decide as Q.
      - injection Q as <- <-. rewrite NT in NJ. injection NJ as <-. rewrite L in LJ. discriminate.
      - destruct (A0 j g n a NJ LJ) as [X Y]. rewrite X. lia. }
    destruct (runs_good tab subs IH _ _ A1) as [A2 D]. destruct (runs tab l0 subs) as [l1 ds]. cbn [fst snd] in *.
    apply K; [|rewrite D; reflexivity].
    intros j g n a NJ LJ. destruct (A2 j g n a NJ LJ) as [X Y]. rewrite times_cons in X, Y.
    case_bool_decide as Q.
    + injection Q as <- <-. rewrite NT in NJ. injection NJ as <-. rewrite L in LJ. discriminate.
    + rewrite X. exact (A0 j g n a NJ LJ) || (destruct (A0 j g n a NJ LJ); lia).
Qed.
Lemma transact_plan tab c : small tab -> transact tab c = plan tab [] c.
Proof. intros S. exact (proj2 (exec_good tab S c ∅ [] (agree_empty tab))). Qed.
