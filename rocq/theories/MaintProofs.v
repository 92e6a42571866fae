(** Facts about maintenance mode. *)
From Verif Require Export MaintModel.

(** ** Specification vocabulary: what was configured last. *)
Definition same (a b : name) : bool := bool_decide (lower a = lower b).
Definition last_of (m : mop -> option bool) (ops : list mop) : bool :=
  fold_left (fun cur o => match m o with Some b => b | None => cur end) ops false.
Definition on_active (o : mop) : option bool := match o with MActive b => Some b | _ => None end.
Definition on_account (a : N) (o : mop) : option bool := match o with MAccount x b => if x =? a then Some b else None | _ => None end.
Definition on_evm (t : N) (o : mop) : option bool := match o with MEvm x b => if x =? t then Some b else None | _ => None end.
Definition on_call (p f : name) (o : mop) : option bool :=
  match o with MCall p' f' b => if same p' p && same f' f then Some b else None | _ => None end.
Definition on_pallet (p : name) (o : mop) : option bool := match o with MPallet p' b => if same p' p then Some b else None | _ => None end.
(** Names no longer than the bound the pallet stores. *)
Definition short (limit : nat) (o : mop) : Prop :=
  match o with MCall p f _ => (length p <= limit)%nat /\ (length f <= limit)%nat | MPallet p _ => (length p <= limit)%nat | _ => True end.

Lemma lower_byte_idem b : lower_byte (lower_byte b) = lower_byte b.
Proof.
  unfold lower_byte. destruct ((65 <=? b) && (b <=? 90)) eqn:E.
  - apply andb_prop in E as [E1 E2]. apply N.leb_le in E1, E2.
    replace (b + 32 <=? 90) with false by (symmetry; apply N.leb_gt; lia). rewrite andb_false_r. reflexivity.
  - rewrite E. reflexivity.
Qed.
Lemma lower_idem s : lower (lower s) = lower s.
Proof. unfold lower. rewrite map_map. apply map_ext. intros; apply lower_byte_idem. Qed.
Lemma lower_nil s : lower s = [] <-> s = [].
Proof. destruct s; cbn; split; congruence. Qed.
Lemma lower_length s : length (lower s) = length s. Proof. unfold lower. apply map_length. Qed.
Lemma trunc_short limit s : (length s <= limit)%nat -> trunc limit (lower s) = lower s.
Proof. intros H. unfold trunc. apply take_ge. rewrite lower_length. exact H. Qed.

Lemma flag_in {A} `{Countable A} b (x y : A) s : y ∈ flag b x s <-> if decide (y = x) then b = true else y ∈ s.
Proof. unfold flag. destruct b, (decide (y = x)); set_solver. Qed.

Section proofs.
  Variables (utf8 : name -> bool) (limit : nat).
  Notation step := (mstep utf8 limit).
  Notation run_m ops := (run step ops maint0).

  Lemma active_last ops : m_active (run_m ops) = last_of on_active ops.
  Proof.
    unfold last_of, run. replace false with (m_active maint0) by reflexivity. generalize maint0.
    induction ops as [|o ops IH]; intros s; cbn [fold_left]; [reflexivity|]. rewrite IH. f_equal.
    unfold mstep. destruct o; cbn; try reflexivity; unfold block_call, block_pallet;
      repeat (match goal with |- context [ensure ?b _] => destruct b end; cbn; try reflexivity).
  Qed.
  Lemma last_mem {A} `{Countable A} (g : maint -> gset A) (x : A) (m : mop -> option bool) ops :
    (forall s o, x ∈ g (step s o) <-> match m o with Some b => b = true | None => x ∈ g s end) ->
    x ∉ g maint0 -> x ∈ g (run_m ops) <-> last_of m ops = true.
  Proof.
    intros Hs H0. unfold last_of, run.
    enough (forall s c, (x ∈ g s <-> c = true) ->
      x ∈ g (fold_left step ops s) <-> fold_left (fun cur o => match m o with Some b => b | None => cur end) ops c = true) as Q.
    { apply Q. split; [intros F; destruct (H0 F)|discriminate]. }
    induction ops as [|o ops IH]; intros s c E; cbn [fold_left]; [exact E|]. apply IH. rewrite Hs.
    destruct (m o); [reflexivity|exact E].
  Qed.
  Lemma account_last a ops : a ∈ m_acc (run_m ops) <-> last_of (on_account a) ops = true.
  Proof.
    apply (last_mem m_acc a (on_account a)); [|cbn; set_solver]. intros s o. unfold mstep.
    destruct o as [b|x b|t b|p f b|p b]; cbn; try reflexivity.
    - rewrite flag_in. destruct (decide (a = x)) as [->|]; [rewrite N.eqb_refl; reflexivity|].
      replace (x =? a) with false by (symmetry; apply N.eqb_neq; congruence). reflexivity.
    - unfold block_call. repeat (match goal with |- context [ensure ?b _] => destruct b end; cbn; try reflexivity).
    - unfold block_pallet. repeat (match goal with |- context [ensure ?b _] => destruct b end; cbn; try reflexivity).
  Qed.
  Lemma evm_last t ops : t ∈ m_evm (run_m ops) <-> last_of (on_evm t) ops = true.
  Proof.
    apply (last_mem m_evm t (on_evm t)); [|cbn; set_solver]. intros s o. unfold mstep.
    destruct o as [b|x b|x b|p f b|p b]; cbn; try reflexivity.
    - rewrite flag_in. destruct (decide (t = x)) as [->|]; [rewrite N.eqb_refl; reflexivity|].
      replace (x =? t) with false by (symmetry; apply N.eqb_neq; congruence). reflexivity.
    - unfold block_call. repeat (match goal with |- context [ensure ?b _] => destruct b end; cbn; try reflexivity).
    - unfold block_pallet. repeat (match goal with |- context [ensure ?b _] => destruct b end; cbn; try reflexivity).
  Qed.

  (** The stored keys, whatever the configured names. *)
  Record keys_ok (s : maint) : Prop := {
    ko_calls : forall p f, (p, f) ∈ m_calls s -> blockable p = true;
    ko_pallets : forall p, p ∈ m_pallets s -> blockable p = true }.
  Lemma keys_step s o : keys_ok s -> keys_ok (step s o).
  Proof.
    intros [C P]. unfold mstep. destruct o as [b|x b|x b|p f b|p b]; cbn; try (constructor; assumption).
    - unfold block_call.
      destruct (negb _); cbn; [|constructor; assumption]. destruct (utf8 (trunc limit (lower p))); cbn; [|constructor; assumption].
      destruct (blockable (trunc limit (lower p))) eqn:B; cbn; [|constructor; assumption].
      destruct (negb _); cbn; [|constructor; assumption]. destruct (utf8 _); cbn; [|constructor; assumption].
      constructor; cbn; [|assumption]. intros p' f' I. apply flag_in in I. destruct (decide _) as [E|]; [|eauto]. congruence.
    - unfold block_pallet.
      destruct (negb _); cbn; [|constructor; assumption]. destruct (utf8 (trunc limit (lower p))); cbn; [|constructor; assumption].
      destruct (blockable (trunc limit (lower p))) eqn:B; cbn; [|constructor; assumption].
      constructor; cbn; [assumption|]. intros p' I. apply flag_in in I. destruct (decide _) as [E|]; [|eauto]. congruence.
  Qed.
  Lemma keys_run ops : keys_ok (run_m ops).
  Proof. apply (run_inv step keys_ok); [exact keys_step|]. constructor; cbn; set_solver. Qed.

  Lemma call_last p f ops : (length p <= limit)%nat -> (length f <= limit)%nat -> p <> [] -> f <> [] ->
    blockable (lower p) = true -> utf8 (lower p) = true -> utf8 (lower f) = true -> Forall (short limit) ops ->
    (lower p, lower f) ∈ m_calls (run_m ops) <-> last_of (on_call p f) ops = true.
  Proof.
    intros Lp Lf Np Nf B Up Uf Sh. unfold last_of, run.
    enough (forall s c, ((lower p, lower f) ∈ m_calls s <-> c = true) ->
      (lower p, lower f) ∈ m_calls (fold_left step ops s) <->
      fold_left (fun cur o => match on_call p f o with Some b => b | None => cur end) ops c = true) as Q.
    { apply Q. cbn. split; [set_solver|discriminate]. }
    induction Sh as [|o ops So Sh IH]; intros s c E; cbn [fold_left]; [exact E|]. apply IH. clear IH Sh.
    unfold mstep. destruct o as [b|x b|x b|p' f' b|p' b]; cbn; try exact E.
    - destruct So as [Sp Sf]. unfold block_call, same. rewrite (trunc_short _ _ Sp), (trunc_short _ _ Sf).
      destruct (bool_decide (lower p' = lower p)) eqn:E1; [apply bool_decide_eq_true in E1|apply bool_decide_eq_false in E1].
      2:{ cbn. repeat (match goal with |- context [ensure ?b _] => destruct b end; cbn; try exact E).
          rewrite flag_in. destruct (decide _) as [X|]; [congruence|exact E]. }
      destruct (bool_decide (lower f' = lower f)) eqn:E2; [apply bool_decide_eq_true in E2|apply bool_decide_eq_false in E2].
      2:{ cbn. repeat (match goal with |- context [ensure ?b _] => destruct b end; cbn; try exact E).
          rewrite flag_in. destruct (decide _) as [X|]; [congruence|exact E]. }
      assert (p' <> []) as N1 by (intros ->; apply Np, lower_nil; rewrite <- E1; reflexivity).
      assert (f' <> []) as N2 by (intros ->; apply Nf, lower_nil; rewrite <- E2; reflexivity).
      rewrite (bool_decide_eq_false_2 _ N1), (bool_decide_eq_false_2 _ N2), E1, E2, Up, Uf, B. cbn.
      rewrite flag_in. rewrite decide_True by reflexivity. reflexivity.
    - unfold block_pallet. repeat (match goal with |- context [ensure ?b _] => destruct b end; cbn; try exact E).
  Qed.
  Lemma pallet_last p ops : (length p <= limit)%nat -> p <> [] ->
    blockable (lower p) = true -> utf8 (lower p) = true -> Forall (short limit) ops ->
    lower p ∈ m_pallets (run_m ops) <-> last_of (on_pallet p) ops = true.
  Proof.
    intros Lp Np B Up Sh. unfold last_of, run.
    enough (forall s c, (lower p ∈ m_pallets s <-> c = true) ->
      lower p ∈ m_pallets (fold_left step ops s) <->
      fold_left (fun cur o => match on_pallet p o with Some b => b | None => cur end) ops c = true) as Q.
    { apply Q. cbn. split; [set_solver|discriminate]. }
    induction Sh as [|o ops So Sh IH]; intros s c E; cbn [fold_left]; [exact E|]. apply IH. clear IH Sh.
    unfold mstep. destruct o as [b|x b|x b|p' f' b|p' b]; cbn; try exact E.
    - unfold block_call. repeat (match goal with |- context [ensure ?b _] => destruct b end; cbn; try exact E).
    - cbn in So. unfold block_pallet, same. rewrite (trunc_short _ _ So).
      destruct (bool_decide (lower p' = lower p)) eqn:E1; [apply bool_decide_eq_true in E1|apply bool_decide_eq_false in E1].
      2:{ cbn. repeat (match goal with |- context [ensure ?b _] => destruct b end; cbn; try exact E).
          rewrite flag_in. destruct (decide _) as [X|]; [congruence|exact E]. }
      assert (p' <> []) as N1 by (intros ->; apply Np, lower_nil; rewrite <- E1; reflexivity).
      rewrite (bool_decide_eq_false_2 _ N1), E1, Up, B. cbn.
      rewrite flag_in. rewrite decide_True by reflexivity. reflexivity.
  Qed.
End proofs.

(** ** Transactions *)
Section effects.
  Variables (limit : nat) (pre : N -> N -> list (bool * N * (name * name))) (dec : N -> option (N * N)) (static : name -> name -> bool).
  Variables (n1 n2 n3 n4 n5 n6 n7 : name) (top : name * name -> bool).
  Notation disp := (dispatch limit pre dec static).
  Notation app := (apply limit pre dec static n1 n2 n3 n4 n5 n6 n7 top).

  Lemma rcall_ind' (P : rcall -> Prop) :
    (forall p f, P (Plain p f)) -> (forall t i, P (EvmC t i)) -> (forall p f w cs, Forall P cs -> P (Wrap p f w cs)) -> forall c, P c.
  Proof.
    intros H1 H2 H3. fix F 1. intros [p f|t i|p f w cs]; [apply H1|apply H2|]. apply H3.
    induction cs as [|c cs IH]; constructor; [apply F|exact IH].
  Qed.
  Lemma evm_run_evm s src t i a t' : In (EEvm a t') (evm_run limit pre static s src t i) -> a = src /\ t' = t.
  Proof.
    intros [E|I]; [injection E; auto|]. apply in_flat_map in I as ([[d who] [p f]] & _ & I).
    destruct (d && _); cbn in I; [tauto|]. destruct I as [E|[]]. discriminate.
  Qed.
  Lemma evm_call_evm s src t i a t' : In (EEvm a t') (evm_call limit pre dec static s src t i) ->
    a = src /\ m_active s = false /\ a ∉ m_acc s /\ (t' ∈ m_evm s -> t = fee_proxy).
  Proof.
    unfold evm_call, evm_ok. intros I. destruct (m_active s); cbn in I; [destruct I|].
    destruct (bool_decide (src ∈ m_acc s)) eqn:A; cbn in I; [destruct I|]. apply bool_decide_eq_false in A.
    destruct (bool_decide (t ∈ m_evm s)) eqn:T; cbn in I; [destruct I|]. apply bool_decide_eq_false in T.
    destruct (t =? fee_proxy) eqn:F; [apply N.eqb_eq in F; destruct (dec i) as [[t1 i1]|]; [|destruct I]|];
      apply evm_run_evm in I as [-> ->]; repeat split; auto. intros Q. destruct (T Q).
  Qed.
  (** Whoever's EVM call runs anywhere in a transaction passed the runner's checks. *)
  Fixpoint evm_targets (c : rcall) : list N := match c with Plain _ _ => [] | EvmC t _ => [t] | Wrap _ _ _ cs => flat_map evm_targets cs end.
  Lemma disp_evm s who c a t : In (EEvm a t) (disp s who c) ->
    m_active s = false /\ a ∉ m_acc s /\ (t ∈ m_evm s -> In fee_proxy (evm_targets c)).
  Proof.
    revert who. induction c as [p f|t1 i1|p f w cs IH] using rcall_ind'; intros who I; cbn in I.
    - destruct (filtered _ _ _ _ _); cbn in I; [tauto|]. destruct I as [E|[]]. discriminate.
    - destruct (filtered _ _ _ _ _); cbn in I; [tauto|]. destruct I as [E|I]; [discriminate|].
      apply evm_call_evm in I as (_ & A & B & C). repeat split; auto. intros Q. left. exact (C Q).
    - destruct (filtered _ _ _ _ _); cbn in I; [tauto|]. destruct I as [E|I]; [discriminate|].
      apply in_flat_map in I as (c & Ic & I). rewrite Forall_forall in IH.
      destruct (IH c (proj2 (elem_of_list_In _ _) Ic) _ I) as (A & B & C). repeat split; auto. intros Q. cbn. apply in_flat_map. eauto.
  Qed.
  Definition tx_targets (t : rtx) : list N :=
    match t with TSigned _ c | TXrpl _ c | TDoughnut _ _ c => evm_targets c | TEvm _ t _ => [t] | TCreate _ => [] end.
  Lemma app_evm s t a tg : In (EEvm a tg) (app s t) -> m_active s = false /\ a ∉ m_acc s /\ (tg ∈ m_evm s -> In fee_proxy (tx_targets t)).
  Proof.
    destruct t as [who c|src t i|src|who c|is ho c]; cbn; intros I.
    - destruct (ext_ok _ _ _); [|destruct I]. eapply disp_evm; eassumption.
    - destruct (filtered _ _ _ _ _); [destruct I|]. apply evm_call_evm in I as (_ & A & B & C). repeat split; auto.
    - destruct (filtered _ _ _ _ _); [destruct I|]. destruct (create_ok _ _); [destruct I as [E|[]]; discriminate|destruct I].
    - destruct (filtered _ _ _ _ _ || _); [destruct I|]. eapply disp_evm; eassumption.
    - destruct (_ || _); [destruct I|]. eapply disp_evm; eassumption.
  Qed.

  (** A paused call runs only by way of a precompile that does not dispatch. *)
  Definition dispatches : Prop := forall t i d who c, In (d, who, c) (pre t i) -> d = true.
  Lemma evm_run_paused s src t i a p f : dispatches -> In (ECall a (p, f)) (evm_run limit pre static s src t i) -> paused limit s p f = false.
  Proof.
    intros D [E|I]; [discriminate|]. apply in_flat_map in I as ([[d who] [p1 f1]] & Ip & I).
    rewrite (D _ _ _ _ _ Ip) in I. cbn in I. unfold filtered in I.
    destruct (paused limit s p1 f1) eqn:P; cbn in I; [tauto|]. destruct (negb _); cbn in I; [tauto|].
    destruct I as [E|[]]. injection E as <- <- <-. exact P.
  Qed.
  Lemma evm_call_paused s src t i a p f : dispatches -> In (ECall a (p, f)) (evm_call limit pre dec static s src t i) -> paused limit s p f = false.
  Proof.
    intros D. unfold evm_call. destruct (negb _); [intros []|]. destruct (t =? fee_proxy).
    - destruct (dec i) as [[t1 i1]|]; [apply evm_run_paused; exact D|intros []].
    - apply evm_run_paused; exact D.
  Qed.
  Lemma disp_paused s who c a p f : dispatches \/ evm_targets c = [] -> In (ECall a (p, f)) (disp s who c) -> paused limit s p f = false.
  Proof.
    revert who. induction c as [p1 f1|t1 i1|p1 f1 w cs IH] using rcall_ind'; intros who D I; cbn in I; unfold filtered in I.
    - destruct (paused limit s p1 f1) eqn:P; cbn in I; [tauto|]. destruct (negb _); cbn in I; [tauto|].
      destruct I as [E|[]]. injection E as <- <- <-. exact P.
    - destruct (paused limit s n_evm n_call) eqn:P; cbn in I; [tauto|]. destruct (negb _); cbn in I; [tauto|].
      destruct I as [E|I]; [injection E as <- <- <-; exact P|]. destruct D as [D|D]; [|discriminate].
      eapply evm_call_paused; eassumption.
    - destruct (paused limit s p1 f1) eqn:P; cbn in I; [tauto|]. destruct (negb _); cbn in I; [tauto|].
      destruct I as [E|I]; [injection E as <- <- <-; exact P|].
      apply in_flat_map in I as (c & Ic & I). rewrite Forall_forall in IH.
      eapply (IH c (proj2 (elem_of_list_In _ _) Ic)); [|exact I]. destruct D as [D|D]; [left; exact D|right].
      cbn in D. destruct (evm_targets c) as [|x l] eqn:E; [reflexivity|]. exfalso.
      assert (In x (flat_map evm_targets cs)) as Q by (apply in_flat_map; exists c; split; [exact Ic|rewrite E; left; reflexivity]).
      rewrite D in Q. destruct Q.
  Qed.
  Lemma app_paused s t a p f : dispatches \/ tx_targets t = [] -> In (ECall a (p, f)) (app s t) -> paused limit s p f = false.
  Proof.
    intros D. destruct t as [who c|src t i|src|who c|is ho c]; cbn; intros I.
    - destruct (ext_ok _ _ _); [|destruct I]. eapply disp_paused; eassumption.
    - destruct (filtered _ _ _ _ _); [destruct I|]. destruct D as [D|D]; [|discriminate]. eapply evm_call_paused; eassumption.
    - destruct (filtered _ _ _ _ _); [destruct I|]. destruct (create_ok _ _); [destruct I as [E|[]]; discriminate|destruct I].
    - destruct (filtered _ _ _ _ _ || _); [destruct I|]. eapply disp_paused; eassumption.
    - destruct (_ || _); [destruct I|]. eapply disp_paused; eassumption.
  Qed.
End effects.
