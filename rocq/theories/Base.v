(** Shared vocabulary: results of dispatchable calls, machine widths, finite maps with a
    default of zero, and sums over finite maps.  Nothing here models a particular pallet. *)
From Coq Require Export ZArith NArith Lia List Bool.
From Coq Require Export ZifyBool ZifyNat ZifyN.
From stdpp Require Export base option list gmap fin_maps fin_map_dom.
Export ListNotations.
#[global] Open Scope N_scope.
#[global] Unset Mangle Names.

#[global] Arguments N.add : simpl never.
#[global] Arguments N.sub : simpl never.
#[global] Arguments N.mul : simpl never.
#[global] Arguments N.div : simpl never.
#[global] Arguments N.modulo : simpl never.
#[global] Arguments N.pow : simpl never.
#[global] Arguments N.eqb : simpl never.
#[global] Arguments N.ltb : simpl never.
#[global] Arguments N.leb : simpl never.
#[global] Arguments N.max : simpl never.
#[global] Arguments N.min : simpl never.
#[global] Arguments N.sqrt : simpl never.

(** Result of a dispatchable.  [Err] carries a numeric tag naming the error branch; Substrate
    rolls every storage change of the call back when it is returned. *)
Inductive result (A : Type) : Type :=
| Ok (a : A)
| Err (code : N).
Arguments Ok {A} a.
Arguments Err {A} code.

Definition rbind {A B} (r : result A) (f : A -> result B) : result B :=
  match r with Ok a => f a | Err c => Err c end.
Notation "'do!' x <- r ; k" := (rbind r (fun x => k))
  (at level 200, x pattern, r at level 100, k at level 200, right associativity).
Definition ensure (b : bool) (code : N) : result unit := if b then Ok tt else Err code.
Notation "'ensure!' b 'else' c ; k" := (rbind (ensure b c) (fun _ => k))
  (at level 200, b at level 100, c at level 100, k at level 200, right associativity).
Definition of_opt {A} (o : option A) (code : N) : result A :=
  match o with Some a => Ok a | None => Err code end.
Definition is_ok {A} (r : result A) : bool := match r with Ok _ => true | Err _ => false end.
(** Value kept by the chain after a dispatchable: the new state, or the old one on error. *)
Definition commit {S} (s : S) (r : result S) : S := match r with Ok s' => s' | Err _ => s end.
Lemma ok_commit {S} (s : S) (r : result S) : is_ok r = true -> r = Ok (commit s r).
Proof. destruct r; [reflexivity|discriminate]. Qed.

(** Machine widths. *)
Definition U8MAX : N := 2 ^ 8 - 1.
Definition U32MAX : N := 2 ^ 32 - 1.
Definition U64MAX : N := 2 ^ 64 - 1.
Definition U128MAX : N := 2 ^ 128 - 1.
Definition U256MAX : N := 2 ^ 256 - 1.

(** [checked_*] and saturating arithmetic at a given maximum. *)
Definition chk_add (mx a b : N) : option N := if a + b <=? mx then Some (a + b) else None.
Definition chk_sub (a b : N) : option N := if b <=? a then Some (a - b) else None.
Definition chk_mul (mx a b : N) : option N := if a * b <=? mx then Some (a * b) else None.
Definition chk_div (a b : N) : option N := if b =? 0 then None else Some (a / b).
Definition sat (mx a : N) : N := N.min a mx.

(** Lookup with default zero ([ValueQuery] storage). *)
Definition getN `{Countable K} (m : gmap K N) (k : K) : N := default 0 (m !! k).

(** Sum over a finite map. *)
Definition sumf `{Countable K} {V} (f : K -> V -> N) (m : gmap K V) : N :=
  map_fold (fun k v acc => f k v + acc) 0 m.

Definition sumL (l : list N) : N := fold_right N.add 0 l.

Section sums.
  Context `{Countable K} {V : Type}.
  Implicit Types (f : K -> V -> N) (m : gmap K V).

  Definition contrib f m k : N := match m !! k with Some v => f k v | None => 0 end.

  Lemma sumf_empty f : sumf f ∅ = 0.
  Proof. reflexivity. Qed.

  Lemma sumf_insert_new f m k v : m !! k = None -> sumf f (<[k:=v]> m) = f k v + sumf f m.
  Proof.
    intros Hn. unfold sumf.
    rewrite (map_fold_insert_L (fun k v acc => f k v + acc) 0 k v m); [reflexivity| |exact Hn].
    intros. lia.
  Qed.

  Lemma sumf_delete f m k : contrib f m k + sumf f (delete k m) = sumf f m.
  Proof.
    unfold contrib. destruct (m !! k) as [v|] eqn:E.
    - rewrite <- (insert_delete m k v E) at 2.
      rewrite sumf_insert_new; [reflexivity|apply lookup_delete].
    - rewrite delete_notin by exact E. lia.
  Qed.

  Lemma sumf_insert f m k v : sumf f (<[k:=v]> m) + contrib f m k = sumf f m + f k v.
  Proof.
    rewrite <- (insert_delete_insert m k v).
    rewrite sumf_insert_new by apply lookup_delete.
    pose proof (sumf_delete f m k). lia.
  Qed.

  Lemma sumf_contrib_le f m k : contrib f m k <= sumf f m.
  Proof. pose proof (sumf_delete f m k). lia. Qed.

  Lemma sumf_ext f g m : (forall k v, m !! k = Some v -> f k v = g k v) -> sumf f m = sumf g m.
  Proof.
    induction m as [|k v m Hn IH] using map_ind; intros Hfg; [reflexivity|].
    rewrite !sumf_insert_new by exact Hn.
    rewrite (Hfg k v) by apply lookup_insert. rewrite IH; [reflexivity|].
    intros k' v' Hk. apply Hfg. rewrite lookup_insert_ne; [exact Hk|congruence].
  Qed.

  Lemma sumf_le f g m : (forall k v, m !! k = Some v -> f k v <= g k v) -> sumf f m <= sumf g m.
  Proof.
    induction m as [|k v m Hn IH] using map_ind; intros Hfg; [reflexivity|].
    rewrite !sumf_insert_new by exact Hn.
    pose proof (Hfg k v (lookup_insert _ _ _)).
    assert (sumf f m <= sumf g m); [|lia]. apply IH.
    intros k' v' Hk. apply Hfg. rewrite lookup_insert_ne; [exact Hk|congruence].
  Qed.

  Lemma sumf_zero f m : (forall k v, m !! k = Some v -> f k v = 0) -> sumf f m = 0.
  Proof.
    intros Hf. rewrite (sumf_ext f (fun _ _ => 0) m Hf). clear Hf.
    induction m as [|k v m Hn IH] using map_ind; [reflexivity|].
    rewrite sumf_insert_new by exact Hn. lia.
  Qed.

  Lemma sumf_add f g m : sumf (fun k v => f k v + g k v) m = sumf f m + sumf g m.
  Proof.
    induction m as [|k v m Hn IH] using map_ind; [reflexivity|].
    rewrite !sumf_insert_new by exact Hn. lia.
  Qed.

  Lemma sumf_two f m k1 k2 : k1 <> k2 -> contrib f m k1 + contrib f m k2 <= sumf f m.
  Proof.
    intros Hne. pose proof (sumf_delete f m k1). 
    pose proof (sumf_contrib_le f (delete k1 m) k2).
    assert (contrib f (delete k1 m) k2 = contrib f m k2).
    { unfold contrib. rewrite lookup_delete_ne; [reflexivity|exact Hne]. }
    lia.
  Qed.
End sums.

Lemma getN_insert `{Countable K} (m : gmap K N) k v : getN (<[k:=v]> m) k = v.
Proof. unfold getN. rewrite lookup_insert. reflexivity. Qed.
Lemma getN_insert_ne `{Countable K} (m : gmap K N) k k' v :
  k <> k' -> getN (<[k:=v]> m) k' = getN m k'.
Proof. intros. unfold getN. rewrite lookup_insert_ne by assumption. reflexivity. Qed.
Lemma getN_empty `{Countable K} (k : K) : getN (∅ : gmap K N) k = 0.
Proof. unfold getN. rewrite lookup_empty. reflexivity. Qed.
Lemma getN_delete `{Countable K} (m : gmap K N) k : getN (delete k m) k = 0.
Proof. unfold getN. rewrite lookup_delete. reflexivity. Qed.
Lemma getN_delete_ne `{Countable K} (m : gmap K N) k k' :
  k <> k' -> getN (delete k m) k' = getN m k'.
Proof. intros. unfold getN. rewrite lookup_delete_ne by assumption. reflexivity. Qed.

(** Inversion of the result monad. *)
Lemma rbind_ok {A B} (r : result A) (f : A -> result B) b :
  rbind r f = Ok b -> exists a, r = Ok a /\ f a = Ok b.
Proof. destruct r; simpl; [eauto|discriminate]. Qed.
Lemma ensure_ok b c u : ensure b c = Ok u -> b = true.
Proof. unfold ensure. destruct b; [reflexivity|discriminate]. Qed.
Lemma of_opt_ok {A} (o : option A) c a : of_opt o c = Ok a -> o = Some a.
Proof. destruct o; simpl; congruence. Qed.
Lemma chk_add_some mx a b c : chk_add mx a b = Some c -> c = a + b /\ a + b <= mx.
Proof. unfold chk_add. destruct (N.leb_spec (a + b) mx); intros [= <-]; auto. Qed.
Lemma chk_sub_some a b c : chk_sub a b = Some c -> c = a - b /\ b <= a.
Proof. unfold chk_sub. destruct (N.leb_spec b a); intros [= <-]; auto. Qed.
Lemma chk_mul_some mx a b c : chk_mul mx a b = Some c -> c = a * b /\ a * b <= mx.
Proof. unfold chk_mul. destruct (N.leb_spec (a * b) mx); intros [= <-]; auto. Qed.
Lemma chk_div_some a b c : chk_div a b = Some c -> c = a / b /\ b <> 0.
Proof. unfold chk_div. destruct (N.eqb_spec b 0); intros [= <-]; auto. Qed.

Lemma Ok_inj {A} (a b : A) : Ok a = Ok b -> a = b.
Proof. congruence. Qed.

(** [inv_ok] repeatedly opens hypotheses of the form [rbind r f = Ok x]. *)
Ltac inv_ok1 :=
  match goal with
  | H : rbind (ensure ?b ?c) ?f = Ok ?x |- _ =>
      let u := fresh "u" in let E := fresh "E" in
      apply rbind_ok in H; destruct H as [u [E H]]; apply ensure_ok in E; clear u; cbv beta in H
  | H : rbind (of_opt ?o ?c) ?f = Ok ?x |- _ =>
      let a := fresh "v" in let E := fresh "E" in
      apply rbind_ok in H; destruct H as [a [E H]]; apply of_opt_ok in E; cbv beta in H
  | H : rbind ?r ?f = Ok ?x |- _ =>
      let a := fresh "v" in let E := fresh "E" in
      apply rbind_ok in H; destruct H as [a [E H]]; cbv beta in H
  | H : of_opt ?o ?c = Ok ?x |- _ => apply of_opt_ok in H
  | H : chk_add _ _ _ = Some ?c |- _ => let E := fresh "E" in
      apply chk_add_some in H; destruct H as [E H]; first [subst c | idtac]
  | H : chk_sub _ _ = Some ?c |- _ => let E := fresh "E" in
      apply chk_sub_some in H; destruct H as [E H]; first [subst c | idtac]
  | H : chk_mul _ _ _ = Some ?c |- _ => let E := fresh "E" in
      apply chk_mul_some in H; destruct H as [E H]; first [subst c | idtac]
  | H : chk_div _ _ = Some ?c |- _ => let E := fresh "E" in
      apply chk_div_some in H; destruct H as [E H]; first [subst c | idtac]
  | H : Ok _ = Ok _ |- _ => apply Ok_inj in H
  | H : Err _ = Ok _ |- _ => discriminate H
  | H : ensure _ _ = Ok _ |- _ => apply ensure_ok in H
  end.
Ltac inv_ok := repeat inv_ok1.

(** Running a list of operations. *)
Definition run {S O} (step : S -> O -> S) (ops : list O) (s : S) : S := fold_left step ops s.
Lemma run_inv {S O} (step : S -> O -> S) (Inv : S -> Prop) :
  (forall s o, Inv s -> Inv (step s o)) -> forall ops s, Inv s -> Inv (run step ops s).
Proof. intros Hs ops. induction ops as [|o ops IH]; intros s Hi; simpl; auto. Qed.
Lemma run_inv_where {S O} (step : S -> O -> S) (P : O -> Prop) (Inv : S -> Prop) :
  (forall s o, P o -> Inv s -> Inv (step s o)) ->
  forall ops s, Forall P ops -> Inv s -> Inv (run step ops s).
Proof.
  intros Hs ops. induction ops as [|o ops IH]; intros s Hf Hi; simpl; [exact Hi|].
  inversion Hf; subst. apply IH; auto.
Qed.
Lemma run_app {S O} (step : S -> O -> S) o1 o2 s :
  run step (o1 ++ o2) s = run step o2 (run step o1 s).
Proof. unfold run. apply fold_left_app. Qed.

(** A predicate on (state, operation) holds at every step of a run. *)
Fixpoint along {S O} (step : S -> O -> S) (P : S -> O -> Prop) (ops : list O) (s : S) : Prop :=
  match ops with [] => True | o :: ops' => P s o /\ along step P ops' (step s o) end.
Lemma run_along {S O} (step : S -> O -> S) (P : S -> O -> Prop) (Inv : S -> Prop) :
  (forall s o, P s o -> Inv s -> Inv (step s o)) ->
  forall ops s, along step P ops s -> Inv s -> Inv (run step ops s).
Proof.
  intros Hs ops. induction ops as [|o ops IH]; intros s Hf Hi; [exact Hi|].
  destruct Hf as [Ho Hf]. apply (IH (step s o)); auto.
Qed.
Lemma along_app {S O} (step : S -> O -> S) (P : S -> O -> Prop) o1 o2 s :
  along step P (o1 ++ o2) s <-> along step P o1 s /\ along step P o2 (run step o1 s).
Proof.
  revert s. induction o1 as [|o o1 IH]; intros s; cbn [along app]; [split; [intros; split; [exact I|assumption]|intros [_ H]; exact H]|].
  change (run step (o :: o1) s) with (run step o1 (step s o)). rewrite IH. tauto.
Qed.
Lemma along_impl {S O} (step : S -> O -> S) (P Q : S -> O -> Prop) ops : (forall s o, P s o -> Q s o) ->
  forall s, along step P ops s -> along step Q ops s.
Proof. intros HPQ. induction ops as [|o ops IH]; intros s; cbn; [auto|]. intros [H1 H2]; auto. Qed.

(** [nodiv] abstracts every quotient and remainder on [N] so that [lia] treats it as a natural
    number variable. *)
Ltac nodiv :=
  repeat match goal with
  | |- context [N.div ?a ?b] => let q := fresh "q" in set (q := N.div a b) in *; clearbody q
  | H : context [N.div ?a ?b] |- _ => let q := fresh "q" in set (q := N.div a b) in *; clearbody q
  | |- context [N.modulo ?a ?b] => let q := fresh "q" in set (q := N.modulo a b) in *; clearbody q
  | H : context [N.modulo ?a ?b] |- _ => let q := fresh "q" in set (q := N.modulo a b) in *; clearbody q
  end.
