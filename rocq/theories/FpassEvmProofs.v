(** Lemmas about futurepasses in the EVM. *)
From Verif Require Export FpassEvmModel FpassFundProofs.

(** ** Trees of calls *)
Fixpoint asize (a : act) : nat := match a with Act _ _ _ _ inner _ => S (list_sum (map asize inner)) end.
Definition lsize (l : list act) : nat := list_sum (map asize l).
Lemma act_ind' (P : act -> Prop) : (forall k t v d inner ret, Forall P inner -> P (Act k t v d inner ret)) -> forall a, P a.
Proof.
  intros H. fix IH 1. intros [k t v d inner ret]. apply H. induction inner as [|x r IHr]; constructor; [apply IH|exact IHr].
Qed.
(** No contract makes a DELEGATECALL to a futurepass. *)
Fixpoint nodel (a : act) : Prop :=
  match a with Act k t _ _ inner _ => (k = KDelegate -> is_fp t = false) /\ fold_right (fun x P => nodel x /\ P) True inner end.
Definition nodels (l : list act) : Prop := fold_right (fun x P => nodel x /\ P) True l.
(** No call to a futurepass at all. *)
Fixpoint nofut (a : act) : Prop :=
  match a with Act _ t _ _ inner _ => is_fp t = false /\ fold_right (fun x P => nofut x /\ P) True inner end.
Definition nofuts (l : list act) : Prop := fold_right (fun x P => nofut x /\ P) True l.

Lemma classify_fp a : is_fp a = true <-> classify a = PFut.
Proof.
  unfold classify. destruct (is_fp a); [split; reflexivity|]. destruct (a =? registrar); [split; discriminate|].
  destruct ((1 <=? a) && (a <=? 9)); [split; discriminate|]. destruct (_ || _); split; discriminate.
Qed.

(** The delegates of a futurepass have all rights. *)
Definition typed (p : fps) : Prop := forall f x, is_fp f = true -> In x (defs p f) -> snd x = TAny \/ snd x = TOwner.
Lemma typed_other p p' f : typed p -> (forall g, g <> f -> defs p' g = defs p g) -> (forall x, In x (defs p' f) -> In x (defs p f) \/ snd x = TAny \/ snd x = TOwner) -> typed p'.
Proof.
  intros HT H1 H2 g x Hg Hx. destruct (N.eq_dec g f) as [->|Hn]; [|rewrite (H1 g Hn) in Hx; exact (HT _ _ Hg Hx)].
  destruct (H2 x Hx) as [H|H]; [exact (HT _ _ Hg H)|exact H].
Qed.
Lemma typed_plain p p' f : typed p -> is_fp f = false -> (forall g, g <> f -> defs p' g = defs p g) -> typed p'.
Proof. intros HT Hf H1 g x Hg Hx. rewrite H1 in Hx by (intros ->; congruence). exact (HT _ _ Hg Hx). Qed.
Fixpoint dispatch_typed maxp pay s who filt c {struct c} : forall s', FI s -> typed s -> (filt = None -> is_fp who = false) ->
  dispatch maxp pay s who filt c = Ok s' -> typed s'.
Proof.
  assert (Hvia : forall real force (c' : fcall) s', (forall who filt s', FI s -> typed s -> (filt = None -> is_fp who = false) -> dispatch maxp pay s who filt c' = Ok s' -> typed s') ->
    FI s -> typed s -> (do! d <- of_opt (find_def who force (defs s real)) 13; Ok (commit s (dispatch maxp pay s real (Some (snd d)) c'))) = Ok s' -> typed s').
  { intros real force c' s' IH HI HT H. destruct (find_def who force (defs s real)) as [d|] eqn:Ed; cbn [of_opt rbind] in H; [|discriminate].
    injection H as <-. apply (commit_inv typed); [exact HT|]. intros s' Hs. apply (IH real (Some (snd d)) s' HI HT); [discriminate|exact Hs]. }
  intros s' HI HT Hf H.
  destruct c as [account|f d t signed|f d|cur new|f c'|real force c'|d t|d t| |]; cbn [dispatch] in H;
    (destruct (match filt with None => true | Some t0 => allows t0 _ end) eqn:Ef; cbn [ensure rbind] in H; [|discriminate]).
  - destruct (create_ok _ _ _ _ _ H) as (_ & _ & _ & _ & _ & E). apply (typed_other s s' (faddr (nextf s)) HT).
    + intros g Hg. rewrite E. destruct (N.eqb_spec (faddr (nextf s)) g); [congruence|reflexivity].
    + intros x Hx. rewrite E, N.eqb_refl in Hx. apply insert_in in Hx. destruct Hx as [->|Hx]; [right; right; reflexivity|left; exact Hx].
  - destruct (register_ok _ _ _ _ _ _ _ _ _ H) as (_ & _ & _ & _ & _ & _ & _ & E). apply (typed_other s s' f HT).
    + intros g Hg. rewrite E. destruct (N.eqb_spec f g); [congruence|reflexivity].
    + intros x Hx. rewrite E, N.eqb_refl in Hx. apply insert_in in Hx. destruct Hx as [->|Hx]; [right; left; reflexivity|left; exact Hx].
  - destruct (unregister_ok _ _ _ _ _ _ H) as (_ & _ & y & _ & _ & _ & _ & _ & E). apply (typed_other s s' f HT).
    + intros g Hg. rewrite E. destruct (N.eqb_spec f g); [congruence|reflexivity].
    + intros x Hx. rewrite E, N.eqb_refl in Hx. left. exact (remove_sub _ _ _ Hx).
  - destruct (transfer_ok _ _ _ _ _ _ _ (i_nd _ HI _) H) as (f & _ & _ & _ & _ & E & T). apply (typed_other s s' f HT); [exact E|].
    intros x Hx. destruct new as [n|]; [|destruct T as [_ T]; rewrite T in Hx; destruct Hx]. destruct T as (_ & _ & _ & _ & T & _). destruct (T x Hx) as [_ [->|Hi]]; [right; right; reflexivity|left; exact Hi].
  - apply (Hvia f None c' s' (fun who filt s' => dispatch_typed maxp pay s who filt c' s') HI HT).
    destruct c'; try exact H; (destruct (holds s who f); cbn [ensure rbind] in H; [exact H|discriminate]).
  - apply (Hvia real force c' s' (fun who filt s' => dispatch_typed maxp pay s who filt c' s') HI HT H).
  - destruct filt; [discriminate|]. specialize (Hf eq_refl). destruct pay; cbn [ensure rbind] in H; [|discriminate].
    destruct (add_def_ok _ _ _ _ _ _ H) as (_ & _ & _ & _ & _ & E). apply (typed_plain s s' who HT Hf).
    intros g Hg. rewrite E. destruct (N.eqb_spec who g); [congruence|reflexivity].
  - destruct filt; [discriminate|]. specialize (Hf eq_refl). destruct (has_def (d, t) (defs s who)); cbn [ensure rbind] in H; [|discriminate]. injection H as <-.
    apply (typed_plain s _ who HT Hf). intros g Hg. rewrite defs_set. destruct (N.eqb_spec who g); [congruence|reflexivity].
  - destruct filt; [discriminate|]. specialize (Hf eq_refl). injection H as <-. apply (typed_plain s _ who HT Hf).
    intros g Hg. unfold defs. cbn [prox]. rewrite lookup_delete_ne by congruence. reflexivity.
  - injection H as <-. exact HT.
Qed.

(** The calls of the pallet that the precompiles make. *)
Definition direct (who : N) (c : mcall) : bool := match c with MCreate _ | MRegister _ _ _ _ | MUnregister _ _ => true | MTransfer cur _ => cur =? who | _ => false end.

Lemma xmove_ok s a b w s' : xmove s a b w = Ok s' -> e_m s' = e_m s /\ e_calls s' = e_calls s /\ e_now s' = e_now s /\ e_logs s' = e_logs s /\
  exists v, scale_wei_to_6dp w = Ok v /\ v <= xrp s a /\ (a = b -> s' = s) /\ (a <> b -> xrp s' a + v = xrp s a /\ xrp s' b = xrp s b + v) /\ (forall c, c <> a -> c <> b -> xrp s' c = xrp s c).
Proof.
  unfold xmove. intros H. destruct (N.eqb_spec w 0) as [->|_].
  { injection H as <-. do 4 (split; [reflexivity|]). exists 0. split; [reflexivity|]. split; [apply N.le_0_l|]. split; [reflexivity|]. split; [intros _; rewrite !N.add_0_r; auto|reflexivity]. }
  destruct (w <=? U128MAX); cbn [ensure rbind] in H; [|discriminate H]. destruct (scale_wei_to_6dp w) as [v|]; cbn [rbind] in H; [|discriminate H].
  destruct (N.leb_spec v (xrp s a)); cbn [ensure rbind] in H; [|discriminate H].
  destruct (N.eqb_spec a b) as [Eab|Hn]; injection H as <-; cbn [e_m e_calls e_now e_logs].
  { do 4 (split; [reflexivity|]). exists v. split; [reflexivity|]. split; [assumption|]. split; [auto|]. split; [intros X; congruence|auto]. }
  do 4 (split; [reflexivity|]). exists v. split; [reflexivity|]. split; [assumption|]. split; [intros X; congruence|]. unfold xrp in *. cbn [e_xrp]. split.
  - intros _. rewrite !default_insert, !N.eqb_refl. destruct (N.eqb_spec a b); [congruence|]. split; [lia|reflexivity].
  - intros c H1 H2. rewrite !default_insert. destruct (N.eqb_spec c b); [congruence|]. destruct (N.eqb_spec c a); [congruence|reflexivity].
Qed.

Section evm.
  Variable maxp ed base factor : N.
  Variable keccak : list N -> list N.
  Variable recover : list N -> list N -> option N.
  Variable code : N -> bool.
  Variable made : es -> N -> list N -> N.
  Notation perform := (perform maxp ed base factor keccak recover code made).
  Notation fut_leaf := (fut_leaf maxp ed base factor keccak recover).
  Notation fut_run := (fut_run maxp ed base factor keccak recover code made).
  Notation proxy_call := (proxy_call maxp ed base factor keccak recover code made).
  Notation enter := (enter maxp ed base factor code).
  Notation r_run := (r_run maxp ed base factor).
  Notation exec := (mdispatch maxp ed base factor).

  (** The calls of a piece of code, one after another. *)
  Definition acts (cb : bool) (fr : frame) : list act -> es -> result es :=
    fix go (l : list act) (s : es) : result es :=
      match l with
      | [] => Ok s
      | x :: r =>
          if cb && negb (callback code x) then go r s
          else match perform x fr s with
               | Ok p => go r (fst p)
               | Err e => if e =? panic then Err panic else go r s
               end
      end.
  Definition go (target : N) (data : list N) (inner : list act) (ret : option (list N)) (fr : frame) (s : es) (byname : bool) (addr caller value : N) (static : bool) :=
    let run := fun cb fr' s => acts cb fr' inner s in
    enter (fut_run run ret caller target value static data) run ret s byname addr caller value static (fr_stack fr) target data.
  Lemma perform_eq k target value data inner ret fr s : perform (Act k target value data inner ret) fr s =
    match k with
    | KCall =>
        ensure! negb (fr_static fr) || (value =? 0) else 43;
        do! s1 <- xmove s (fr_self fr) target value;
        go target data inner ret fr s1 true target (fr_self fr) value (fr_static fr)
    | KStatic => go target data inner ret fr s true target (fr_self fr) 0 true
    | KDelegate => go target data inner ret fr s false (fr_self fr) (fr_caller fr) (fr_value fr) (fr_static fr)
    | KCallCode => do! s1 <- xmove s (fr_self fr) (fr_self fr) value; go target data inner ret fr s1 false (fr_self fr) (fr_self fr) value (fr_static fr)
    end.
  Proof. destruct k; reflexivity. Qed.

  (** ** Invariants of whatever contracts do *)
  Section ind.
    Variable J : nat -> es -> Prop.
    Variable may : es -> N -> Prop.
    Definition keeps (n : nat) (s s' : es) : Prop := J n s' /\ forall x, may s x -> may s' x.
    Hypothesis J_down : forall n s, J (S n) s -> J n s.
    Hypothesis J_fund : forall n s c mc m, J (S n) s -> may s c -> direct c mc = true -> exec (e_m s) c None mc = Ok m -> keeps n s (with_m s m).
    Hypothesis J_xrp : forall n s a b w s', J n s -> may s a -> xmove s a b w = Ok s' -> keeps n s s'.
    Hypothesis J_log : forall n s f ts d, J n s -> keeps n s (elogged s f ts d).
    Hypothesis J_call : forall n s c t v d, J n s -> may s c -> keeps n s (called s c t v d).
    Hypothesis may_proxy : forall n s c f x, J n s -> may s c -> is_fp f = true -> find_def c None (defs (f_fp (e_m s)) f) = Some x -> may s f.
    Hypothesis may_made : forall n s s0 f d, J n s -> may s (made s0 f d).
    Hypothesis may_code : forall n s t, J n s -> code t = true -> classify t = PNone -> may s t.
    Hypothesis may_class : forall s c, may s c -> classify c <> PState /\ classify c <> PReg.

    Lemma keeps_refl n s : J n s -> keeps n s s.
    Proof. intros H. split; [exact H|auto]. Qed.
    Lemma keeps_trans n m s s1 s2 : keeps n s s1 -> (J n s1 -> keeps m s1 s2) -> keeps m s s2.
    Proof. intros [A1 A2] B. destruct (B A1) as [B1 B2]. split; [exact B1|auto]. Qed.
    Lemma J_sub n m s : J (m + n) s -> J n s.
    Proof. induction m as [|m IH]; [auto|]. intros H. apply IH, J_down, H. Qed.

    Lemma leaf_keeps n s caller f value call s' o : J (S n) s -> may s caller -> fut_leaf s caller f value call = Ok (s', o) -> keeps n s s'.
    Proof.
      intros HJ Hm H. unfold FpassEvmModel.fut_leaf in H. destruct (read_selector call) as [sel|e].
      2: { destruct (_ && _); [|discriminate H]. injection H as <- <-. apply keeps_refl, J_down, HJ. }
      destruct (sel =? S_receive). { injection H as <- <-. apply keeps_refl, J_down, HJ. }
      destruct (sel =? S_delegateType).
      { unfold f_delegate_type in H. destruct (read_args _ call) as [[|[d| |] [|? ?]]|]; cbn [rbind] in H; try discriminate H. injection H as <- <-. apply keeps_refl, J_down, HJ. }
      destruct (sel =? S_registerDelegate).
      { unfold f_register in H. destruct (read_args _ call) as [[|[d| |] [|[k| |] [|[deadline| |] [|[|sig|] [|? ?]]]]]|]; cbn [rbind] in H; try discriminate H.
        destruct (ptype_of k) as [t|]; cbn [of_opt rbind] in H; [|discriminate H]. destruct (nlen sig =? 65); cbn [ensure rbind] in H; [|discriminate H].
        destruct (m_register _ _ _ _ _ _ _ _ _ _) as [m|] eqn:E; cbn [rbind] in H; [|discriminate H]. injection H as <- <-.
        eapply keeps_trans; [refine (J_fund n s caller (MRegister f d t _) m HJ Hm eq_refl E)|]. intros HJ'. apply J_log, HJ'. }
      destruct (sel =? S_unregisterDelegate).
      { unfold f_unregister in H. destruct (read_args _ call) as [[|[d| |] [|? ?]]|]; cbn [rbind] in H; try discriminate H.
        destruct (m_unregister _ _ _ _ _ _ _) as [m|] eqn:E; cbn [rbind] in H; [|discriminate H]. injection H as <- <-.
        eapply keeps_trans; [refine (J_fund n s caller (MUnregister f d) m HJ Hm eq_refl E)|]. intros HJ'. apply J_log, HJ'. }
      destruct (sel =? S_owner). { injection H as <- <-. apply keeps_refl, J_down, HJ. }
      destruct (sel =? S_renounceOwnership).
      { unfold f_renounce in H. destruct (m_transfer _ _ _ _ _ _ _ _) as [m|] eqn:E; cbn [rbind] in H; [|discriminate H]. injection H as <- <-.
        eapply keeps_trans; [refine (J_fund n s caller (MTransfer caller None) m HJ Hm (N.eqb_refl caller) E)|]. intros HJ'. apply J_log, HJ'. }
      destruct (sel =? S_transferOwnership); [|discriminate H].
      unfold f_transfer in H. destruct (read_args _ call) as [[|[d| |] [|? ?]]|]; cbn [rbind] in H; try discriminate H.
      destruct (m_transfer _ _ _ _ _ _ _ _) as [m|] eqn:E; cbn [rbind] in H; [|discriminate H]. injection H as <- <-.
      eapply keeps_trans; [refine (J_fund n s caller (MTransfer caller (Some d)) m HJ Hm (N.eqb_refl caller) E)|]. intros HJ'. apply J_log, HJ'.
    Qed.
    Lemma registrar_keeps n s caller value static call s' o : J (S n) s -> may s caller -> r_run s caller value static call = Ok (s', o) -> keeps n s s'.
    Proof.
      intros HJ Hm H. unfold FpassEvmModel.r_run in H. destruct (read_selector call) as [sel|]; cbn [rbind] in H; [|discriminate H].
      destruct (sel =? S_futurepassOf).
      { destruct (value =? 0); cbn [ensure rbind] in H; [|discriminate H]. destruct (read_args _ call) as [[|[d| |] [|? ?]]|]; cbn [rbind] in H; try discriminate H.
        injection H as <- <-. apply keeps_refl, J_down, HJ. }
      destruct (sel =? S_create); [|discriminate H]. destruct (negb static); cbn [ensure rbind] in H; [|discriminate H].
      destruct (value =? 0); cbn [ensure rbind] in H; [|discriminate H]. destruct (read_args _ call) as [[|[d| |] [|? ?]]|]; cbn [rbind] in H; try discriminate H.
      cbv zeta in H. destruct (m_create _ _ _ _ _ _ _) as [m|] eqn:E; cbn [rbind] in H; [|discriminate H]. injection H as <- <-.
      eapply keeps_trans; [refine (J_fund n s caller (MCreate d) m HJ Hm eq_refl E)|]. intros HJ'. apply J_log, HJ'.
    Qed.

    (** What running code keeps. *)
    Definition run_ok (nd : Prop) (m : nat) (runl : bool -> frame -> es -> result es) : Prop :=
      forall n cb fr s s', J (m + n) s -> may s (fr_self fr) -> may s (fr_caller fr) \/ nd -> runl cb fr s = Ok s' -> keeps n s s'.
    Lemma enter_keeps fut runl nd m n ret s byname addr caller value static stack target data s' o :
      run_ok nd m runl -> J (S (m + n)) s ->
      (is_fp target = true -> may s caller) -> (byname = true -> may s caller) -> (addr = target -> byname = true \/ classify target <> PState /\ classify target <> PReg) ->
      (code target = true -> classify target = PNone -> may s addr) -> may s caller \/ nd ->
      (forall s1 stack s2 o, is_fp target = true -> may s1 caller -> J (S (m + n)) s1 -> fut s1 stack = Ok (s2, o) -> keeps n s1 s2) ->
      enter fut runl ret s byname addr caller value static stack target data = Ok (s', o) -> keeps n s s'.
    Proof.
      intros HR HJ C1 C2 C3 C4 C5 HF H. assert (HJ' : J (m + n) s) by (apply J_down, HJ). assert (HJn : J n s) by (apply (J_sub n m), HJ').
      unfold FpassEvmModel.enter in H. destruct (classify target) eqn:Ec.
      - injection H as <- <-. apply keeps_refl, HJn.
      - destruct (N.eqb_spec addr target) as [Ea|]; cbn [ensure rbind] in H; [|discriminate H]. destruct (Nat.leb _ _); cbn [ensure rbind] in H; [|discriminate H].
        destruct (C3 Ea) as [B|[B _]]; [|congruence]. specialize (C2 B).
        destruct (runl true _ _) as [s1|] eqn:E; cbn [rbind] in H; [|discriminate H]. destruct ret as [o'|]; cbn [of_opt rbind] in H; [|discriminate H]. injection H as <- <-.
        eapply keeps_trans; [apply (J_call (m + n) _ _ target value data HJ' C2)|]. intros J1. destruct (J_call _ _ _ target value data HJ' C2) as [_ M].
        apply (HR n true _ _ _ J1) in E; [exact E|apply M, C2|left; apply M, C2].
      - destruct (N.eqb_spec addr target) as [Ea|]; cbn [ensure rbind] in H; [|discriminate H]. destruct (Nat.leb _ _); cbn [ensure rbind] in H; [|discriminate H].
        destruct (C3 Ea) as [B|[_ B]]; [|congruence]. specialize (C2 B). assert (HJ1 : J (S n) s) by (apply (J_sub (S n) m); rewrite Nat.add_succ_r; exact HJ).
        eapply keeps_trans; [apply (J_call (S n) _ _ target value data HJ1 C2)|]. intros J1. destruct (J_call _ _ _ target value data HJ1 C2) as [_ M].
        exact (registrar_keeps _ _ _ _ _ _ _ _ J1 (M _ C2) H).
      - apply classify_fp in Ec. destruct (Nat.leb _ _); cbn [ensure rbind] in H; [|discriminate H]. specialize (C1 Ec).
        eapply keeps_trans; [apply (J_call _ _ _ target value data HJ C1)|]. intros J1. destruct (J_call _ _ _ target value data HJ C1) as [_ M].
        exact (HF _ _ _ _ Ec (M _ C1) J1 H).
      - cbv zeta in H. set (s1 := if byname then called s caller target value data else s) in *.
        assert (K1 : keeps (m + n) s s1). { subst s1. destruct byname; [apply J_call; [exact HJ'|apply C2; reflexivity]|apply keeps_refl, HJ']. }
        destruct K1 as [J1 M]. destruct (code target) eqn:Eco.
        + destruct (runl false _ s1) as [s2|] eqn:E; cbn [rbind] in H; [|discriminate H]. destruct ret as [o'|]; cbn [of_opt rbind] in H; [|discriminate H]. injection H as <- <-.
          destruct (HR n false (Frame addr caller value static stack) _ _ J1 (M _ (C4 eq_refl eq_refl)) ltac:(destruct C5 as [C5|C5]; [left; apply M, C5|right; exact C5]) E) as [A B]. split; [exact A|auto].
        + injection H as <- <-. split; [apply (J_sub n m), J1|exact M].
    Qed.
    Lemma proxy_keeps runl nd m n ret s caller static stack f ct to value d s' o : run_ok nd m runl -> J (S (m + n)) s -> may s caller -> is_fp f = true ->
      proxy_call runl ret s caller static stack f ct to value d = Ok (s', o) -> keeps n s s'.
    Proof.
      intros HR HJ Hm Hf H. assert (HJ' : J (m + n) s) by (apply J_down, HJ). unfold FpassEvmModel.proxy_call in H.
      destruct (ct <? 5); cbn [ensure rbind] in H; [|discriminate H]. destruct (negb (is_fp to && (nlen d <? 4))); cbn [ensure rbind] in H; [|discriminate H].
      destruct (negb (is_fp to && listed d) || _); cbn [ensure rbind] in H; [|discriminate H].
      destruct (find_def caller None _) as [x|] eqn:Ex; cbn [of_opt rbind] in H; [|discriminate H]. pose proof (may_proxy _ _ _ _ _ HJ Hm Hf Ex) as Mf.
      cbv zeta in H. destruct (negb (_ && (nlen d <? 4))); cbn [ensure rbind] in H; [|discriminate H].
      match type of H with rbind (ensure ?b _) _ = _ => destruct b; cbn [ensure rbind] in H; [|discriminate H] end.
      destruct (ct <? 2).
      - destruct (xmove s f to value) as [s1|] eqn:E1; cbn [rbind] in H; [|discriminate H]. destruct (J_xrp _ _ _ _ _ _ HJ Mf E1) as [J1 M1].
        match type of H with rbind ?e _ = _ => destruct e as [[s2 o2]|] eqn:E2; cbn [rbind] in H; [|discriminate H] end. cbn [fst snd] in H. injection H as <- <-.
        assert (K2 : keeps n s1 s2).
        { refine (enter_keeps _ runl nd m n ret s1 true to f value _ stack to d s2 o2 HR J1 _ _ _ _ _ _ E2); auto.
          - intros Ht Hc. exact (may_code _ _ _ J1 Ht Hc).
          - intros s3 st s4 o4 Ht M3 J3 H3. refine (leaf_keeps n s3 f to value d s4 o4 _ M3 H3). apply (J_sub (S n) m). rewrite Nat.add_succ_r. exact J3. }
        destruct K2 as [J2 M2]. destruct (J_log n s2 f [L_executed; ct; to; value] (out [TPost] [VB (get_selector d)]) J2) as [J3 M3]. split; [exact J3|auto].
      - destruct (negb (ct =? 2)); cbn [ensure rbind] in H; [|discriminate H]. destruct ((ct =? 3) || _); cbn [ensure rbind] in H; [|discriminate H].
        set (a := made s f d) in *. destruct (xmove s f a value) as [s1|] eqn:E1; cbn [rbind] in H; [|discriminate H]. destruct (J_xrp _ _ _ _ _ _ HJ' Mf E1) as [J1 M1].
        destruct (runl false _ _) as [s2|] eqn:E2; cbn [rbind] in H; [|discriminate H]. destruct ret as [r|]; cbn [of_opt rbind] in H; [|discriminate H]. injection H as <- <-.
        destruct (J_call _ _ _ a value d J1 (M1 _ Mf)) as [J2 M2].
        destruct (HR n false (Frame a f value false []) _ _ J2 (may_made _ _ s f d J2) (or_introl (M2 _ (M1 _ Mf))) E2) as [J3 M3].
        match goal with |- keeps _ _ (elogged _ ?f' ?ts ?dd) => destruct (J_log n s2 f' ts dd J3) as [J4 M4] end. split; [exact J4|auto].
    Qed.
    Lemma fut_keeps runl nd m n ret s caller f value static call stack s' o : run_ok nd m runl -> J (S (m + n)) s -> may s caller -> is_fp f = true ->
      fut_run runl ret caller f value static call s stack = Ok (s', o) -> keeps n s s'.
    Proof.
      intros HR HJ Hm Hf H. unfold FpassEvmModel.fut_run in H. destruct (_ && _).
      - destruct (read_args _ call) as [[|[ct| |] [|[to| |] [|[v| |] [|[|d|] [|? ?]]]]]|]; cbn [rbind] in H; try discriminate H.
        exact (proxy_keeps _ _ _ _ _ _ _ _ _ _ _ _ _ _ _ _ HR HJ Hm Hf H).
      - refine (leaf_keeps n s caller f value call s' o _ Hm H). apply (J_sub (S n) m). rewrite Nat.add_succ_r. exact HJ.
    Qed.
    Lemma perform_keeps a : forall n fr s s' o, J (asize a + n) s -> may s (fr_self fr) -> may s (fr_caller fr) \/ nodel a -> perform a fr s = Ok (s', o) -> keeps n s s'.
    Proof.
      induction a as [k target value data inner ret IH] using act_ind'. intros n fr s s' o HJ Ms Mc H. cbn [asize nodel] in HJ, Mc. fold (lsize inner) in HJ. fold (nodels inner) in Mc.
      assert (HR : run_ok (nodels inner) (lsize inner) (fun cb fr' s => acts cb fr' inner s)).
      { clear - IH J_down. intros n cb fr. revert n. induction inner as [|x r IHr]; intros n s s' HJ Ms Mc H; cbn [acts] in H.
        - injection H as <-. apply keeps_refl. exact HJ.
        - inversion IH as [|? ? Hx Hr]; subst. specialize (IHr Hr). cbn [lsize map list_sum fold_right] in HJ. cbn [nodels fold_right] in Mc.
          change (fold_right Init.Nat.add 0%nat (map asize r)) with (lsize r) in HJ. rewrite <- Nat.add_assoc in HJ.
          fold (acts cb fr) in H. destruct (cb && negb (callback code x)).
          + apply (IHr n s s'); [apply (J_sub _ (asize x)), HJ|exact Ms|tauto|exact H].
          + destruct (perform x fr s) as [[s1 o1]|e] eqn:E; cbn [fst] in H.
            * destruct (Hx _ _ _ _ _ HJ Ms ltac:(tauto) E) as [J1 M1]. destruct (IHr n s1 s' J1 (M1 _ Ms) ltac:(destruct Mc as [Mc|Mc]; [left; apply M1, Mc|tauto]) H) as [J2 M2]. split; [exact J2|auto].
            * destruct (e =? panic); [discriminate H|]. apply (IHr n s s'); [apply (J_sub _ (asize x)), HJ|exact Ms|tauto|exact H]. }
      assert (G : forall s1 s' o byname addr caller v static, J (S (lsize inner + n)) s1 ->
        (is_fp target = true -> may s1 caller) -> (byname = true -> may s1 caller) -> (addr = target -> byname = true \/ classify target <> PState /\ classify target <> PReg) ->
        (code target = true -> classify target = PNone -> may s1 addr) -> may s1 caller \/ nodels inner ->
        go target data inner ret fr s1 byname addr caller v static = Ok (s', o) -> keeps n s1 s').
      { intros s1 s2 o2 byname addr caller v static J1 C1 C2 C3 C4 C5 H1. unfold go in H1.
        refine (enter_keeps _ _ (nodels inner) (lsize inner) n ret s1 byname addr caller v static _ target data s2 o2 HR J1 C1 C2 C3 C4 C5 _ H1).
        intros s3 st s4 o4 Hf M3 J3 H3. exact (fut_keeps _ _ _ _ _ _ _ _ _ _ _ _ _ _ HR J3 M3 Hf H3). }
      rewrite perform_eq in H. change (S (lsize inner) + n)%nat with (S (lsize inner + n)) in HJ. destruct k.
      - destruct (negb (fr_static fr) || (value =? 0)); cbn [ensure rbind] in H; [|discriminate H].
        destruct (xmove s (fr_self fr) target value) as [s1|] eqn:E; cbn [rbind] in H; [|discriminate H]. destruct (J_xrp _ _ _ _ _ _ HJ Ms E) as [J1 M1].
        apply G in H; auto; [|intros Hc Hn; exact (may_code _ _ _ J1 Hc Hn)]. destruct H as [A B]. split; [exact A|auto].
      - apply G in H; auto. intros Hc Hn. exact (may_code _ _ _ HJ Hc Hn).
      - apply G in H; auto.
        + intros Hf. destruct Mc as [Mc|[Mc _]]; [exact Mc|]. rewrite (Mc eq_refl) in Hf. discriminate Hf.
        + discriminate.
        + intros <-. right. exact (may_class _ _ Ms).
        + tauto.
      - destruct (xmove s (fr_self fr) (fr_self fr) value) as [s1|] eqn:E; cbn [rbind] in H; [|discriminate H]. destruct (J_xrp _ _ _ _ _ _ HJ Ms E) as [J1 M1].
        apply G in H; auto; [destruct H as [A B]; split; [exact A|auto]|intros <-; right; exact (may_class _ _ Ms)].
    Qed.
  End ind.

  (** ** Accounts that take no part *)
  Hypothesis small : base + factor * (maxp + 1) + ed <= U128MAX.
  Notation funded := (funded maxp base factor).
  Lemma fund_frame m c mc m' : funded m -> FI (f_fp m) -> N.of_nat (length (born (f_fp m))) < 2 ^ 128 -> actor_ok (f_fp m) c -> direct c mc = true ->
    exec m c None mc = Ok m' ->
    exists f g, funded m' /\ FI (f_fp m') /\ flow m m' c f g /\
      (forall x, In x (born (f_fp m)) -> In x (born (f_fp m'))) /\ (length (born (f_fp m')) <= S (length (born (f_fp m))))%nat /\
      (forall a, a <> f -> defs (f_fp m') a = defs (f_fp m) a) /\
      (forall a x, a <> c -> hold (f_fp m) !! a = Some x -> hold (f_fp m') !! a = Some x) /\
      (c = f \/ (exists t, In (c, t) (defs (f_fp m) f)) \/ (is_fp f = true /\ ~ In f (born (f_fp m)))) /\
      (typed (f_fp m) -> typed (f_fp m')).
  Proof.
    intros HF HI Hr Ha Hd H. destruct mc as [account|f d t signed|f d|cur new|f c'|real force c'|d t|d t| |keep to x]; cbn [direct] in Hd; try discriminate Hd.
    - destruct (direct_ok maxp ed base factor small m c None _ m' _ H HF eq_refl) as (F' & D & W). cbn [erase dispatch ensure rbind] in D.
      destruct (create_ok _ _ _ _ _ D) as (C1 & C2 & C3 & C4 & C5 & C6). eexists _, _. split; [exact F'|]. split; [exact (create_FI _ _ _ _ _ HI Hr D)|]. split; [exact W|].
      split; [intros x Hx; rewrite C4; right; exact Hx|]. split; [rewrite C4; reflexivity|].
      split; [intros a Hn; rewrite C6; destruct (N.eqb_spec (faddr (nextf (f_fp m))) a); [congruence|reflexivity]|].
      split; [intros a x _ Hx; rewrite C2, lookup_insert_ne; [exact Hx|congruence]|]. split; [right; right; split; [apply faddr_fp|exact (fresh_fp _ HI Hr)]|].
      intros HT. apply (typed_other _ _ (faddr (nextf (f_fp m))) HT).
      + intros g Hg. rewrite C6. destruct (N.eqb_spec (faddr (nextf (f_fp m))) g); [congruence|reflexivity].
      + intros x Hx. rewrite C6, N.eqb_refl in Hx. apply insert_in in Hx. destruct Hx as [->|Hx]; [right; right; reflexivity|left; exact Hx].
    - destruct (direct_ok maxp ed base factor small m c None _ m' _ H HF eq_refl) as (F' & D & W). cbn [erase dispatch ensure rbind] in D.
      destruct (register_ok _ _ _ _ _ _ _ _ _ D) as (R1 & R2 & R3 & R4 & R5 & R6 & R7 & R8). eexists _, _. split; [exact F'|]. split; [exact (register_FI _ _ _ _ _ _ _ _ _ HI Ha D)|]. split; [exact W|].
      split; [intros x Hx; rewrite R7; exact Hx|]. split; [rewrite R7; lia|].
      split; [intros a Hn; rewrite R8; destruct (N.eqb_spec f a); [congruence|reflexivity]|]. split; [intros a x _ Hx; rewrite R5; exact Hx|].
      split; [destruct R1 as [R1|R1]; [left; exact R1|right; left; exists TOwner; apply (i_own _ HI _ _ R1)]|]. intros HT. apply (typed_other _ _ f HT).
      + intros g Hg. rewrite R8. destruct (N.eqb_spec f g); [congruence|reflexivity].
      + intros x Hx. rewrite R8, N.eqb_refl in Hx. apply insert_in in Hx. destruct Hx as [->|Hx]; [right; left; reflexivity|left; exact Hx].
    - destruct (direct_ok maxp ed base factor small m c None _ m' _ H HF eq_refl) as (F' & D & W). cbn [erase dispatch ensure rbind] in D.
      destruct (unregister_ok _ _ _ _ _ _ D) as (_ & U & x & U1 & U2 & U3 & U4 & U5 & U6). eexists _, _. split; [exact F'|]. split; [exact (unregister_FI _ _ _ _ _ _ HI D)|]. split; [exact W|].
      split; [intros y Hy; rewrite U5; exact Hy|]. split; [rewrite U5; lia|].
      split; [intros a Hn; rewrite U6; destruct (N.eqb_spec f a); [congruence|reflexivity]|]. split; [intros a y _ Hy; rewrite U3; exact Hy|].
      split; [destruct U as [U|[U|U]]; [right; left; exists TOwner; apply (i_own _ HI _ _ U)|left; exact U|right; left; exists (snd x); rewrite U, <- U2, <- surjective_pairing; exact U1]|].
      intros HT. apply (typed_other _ _ f HT).
      + intros g Hg. rewrite U6. destruct (N.eqb_spec f g); [congruence|reflexivity].
      + intros y Hy. rewrite U6, N.eqb_refl in Hy. left. exact (remove_sub _ _ _ Hy).
    - apply N.eqb_eq in Hd. subst cur. cbn [FpassFundModel.mdispatch ensure rbind] in H. destruct (hold (f_fp m) !! c) as [f|] eqn:Eh; [|unfold m_transfer in H; rewrite Eh in H; discriminate H].
      destruct (direct_ok maxp ed base factor small m c None (MTransfer c new) m' f H HF Eh) as (F' & D & W). cbn [erase dispatch ensure rbind] in D.
      destruct (transfer_ok _ _ _ _ _ _ _ (i_nd _ HI _) D) as (f0 & T1 & T2 & T3 & T4 & T5 & T6). assert (f0 = f) by congruence. subst f0.
      eexists _, _. split; [exact F'|]. split; [exact (transfer_FI _ _ _ _ _ _ _ HI D)|]. split; [exact W|].
      split; [intros y Hy; rewrite T4; exact Hy|]. split; [rewrite T4; lia|]. split; [exact T5|].
      split; [|split; [right; left; exists TOwner; apply (i_own _ HI _ _ Eh)|]].
      2: { intros HT. apply (typed_other _ _ f HT); [exact T5|]. intros x Hx. destruct new as [n|]; [|destruct T6 as [_ T]; rewrite T in Hx; destruct Hx].
        destruct T6 as (_ & _ & _ & _ & T & _). destruct (T x Hx) as [_ [->|Hi]]; [right; right; reflexivity|left; exact Hi]. }
      intros a x Hn Hx. destruct new as [n|].
      + destruct T6 as (N1 & -> & _). rewrite lookup_insert_ne; [rewrite lookup_delete_ne by congruence; exact Hx|]. intros ->. destruct N1 as [N1|N1]; congruence.
      + destruct T6 as (-> & _). rewrite lookup_delete_ne by congruence. exact Hx.
  Qed.

  Section apart.
    Variable A : N -> bool.
    (** Whoever may act for an account of [A] is in [A], and the futurepasses of [A] exist. *)
    Definition closed (p : fps) : Prop :=
      (forall f d t, A f = true -> In (d, t) (defs p f) -> A d = true) /\ (forall f, A f = true -> is_fp f = true -> In f (born p)).
    (** What happened to the accounts of [A]: they may have received XRP, or a futurepass if they had none. *)
    Record untouched (s0 s : es) : Prop := {
      u_defs : forall a, A a = true -> defs (f_fp (e_m s)) a = defs (f_fp (e_m s0)) a;
      u_hold : forall a x, A a = true -> hold (f_fp (e_m s0)) !! a = Some x -> hold (f_fp (e_m s)) !! a = Some x;
      u_free : forall a, A a = true -> free (e_m s) a = free (e_m s0) a;
      u_res : forall a, A a = true -> res (e_m s) a = res (e_m s0) a;
      u_xrp : forall a, A a = true -> xrp s0 a <= xrp s a;
      u_calls : exists l, e_calls s = e_calls s0 ++ l /\ Forall (fun c => A (c_from c) = false) l }.
    Record inv (s0 : es) (n : nat) (s : es) : Prop := {
      v_funded : funded (e_m s);
      v_FI : FI (f_fp (e_m s));
      v_typed : typed (f_fp (e_m s));
      v_room : N.of_nat (length (born (f_fp (e_m s))) + n) <= 2 ^ 128;
      v_closed : closed (f_fp (e_m s));
      v_un : untouched s0 s }.
    Definition outside (s : es) (c : N) : Prop := A c = false /\ actor_ok (f_fp (e_m s)) c /\ classify c <> PState /\ classify c <> PReg.
    Hypothesis A_code : forall t, code t = true -> A t = false.
    Hypothesis A_made : forall s f d, A (made s f d) = false /\ classify (made s f d) = PNone.

    Lemma none_fp t : classify t = PNone -> is_fp t = false.
    Proof. intros H. destruct (is_fp t) eqn:E; [|reflexivity]. apply classify_fp in E. congruence. Qed.
    Lemma not_false (b : bool) : b = true -> b = false -> False.
    Proof. intros -> H. discriminate H. Qed.
    Lemma inv_fund s0 n s c mc m : inv s0 (S n) s -> outside s c -> direct c mc = true -> exec (e_m s) c None mc = Ok m -> keeps (inv s0) outside n s (with_m s m).
    Proof.
      intros [VF VI VT VR [VC1 VC2] [Ud Uh Uf Ur Ux Uc]] (O1 & O2 & O3 & O4) Hd H.
      destruct (fund_frame (e_m s) c mc m VF VI ltac:(lia) O2 Hd H) as (f & g & F' & I' & (W1 & W2 & W3) & B & L & D & Hh & Acc & Ty).
      assert (Af : A f = false).
      { destruct (A f) eqn:E; [|reflexivity]. destruct Acc as [<-|[[t Ht]|[X1 X2]]]; [congruence|rewrite (VC1 _ _ _ E Ht) in O1; congruence|destruct (X2 (VC2 _ E X1))]. }
      assert (Dn : forall a, A a = true -> defs (f_fp m) a = defs (f_fp (e_m s)) a) by (intros a Ha; apply D; intros ->; congruence).
      split.
      - constructor; cbn [with_m e_m]; [exact F'|exact I'|exact (Ty VT)|lia| |].
        + split; [intros f0 d t Hf Hi; rewrite Dn in Hi by exact Hf; exact (VC1 _ _ _ Hf Hi)|intros f0 Hf Hi; apply B, VC2; assumption].
        + constructor; cbn [with_m e_m e_calls]; [| | | |exact Ux|exact Uc].
          * intros a Ha. rewrite Dn by exact Ha. apply Ud, Ha.
          * intros a x Ha Hx. apply Hh; [intros ->; congruence|]. apply Uh; assumption.
          * intros a Ha. specialize (W1 a). rewrite !at_other in W1 by (intros ->; congruence). rewrite <- (Uf a Ha). lia.
          * intros a Ha. specialize (W2 a). rewrite !at_other in W2 by (intros ->; congruence). rewrite <- (Ur a Ha). lia.
      - intros x (X1 & X2 & X3). split; [exact X1|]. split; [|exact X3]. intros Hx. cbn [with_m e_m]. apply B, X2, Hx.
    Qed.
    Lemma inv_xrp s0 n s a b w s' : inv s0 n s -> outside s a -> xmove s a b w = Ok s' -> keeps (inv s0) outside n s s'.
    Proof.
      intros [VF VI VT VR VC [Ud Uh Uf Ur Ux Uc]] (O1 & _) H. destruct (xmove_ok _ _ _ _ _ H) as (E1 & E2 & _ & _ & v & _ & Hv & X1 & X2 & X3).
      split; [|intros x Hx; unfold outside; rewrite E1; exact Hx].
      constructor; rewrite ?E1; try assumption. constructor; rewrite ?E1, ?E2; try assumption.
      intros c Hc. specialize (Ux c Hc). assert (c <> a) by (intros ->; congruence). destruct (N.eq_dec c b) as [Eb|Hb]; [|rewrite X3 by assumption; exact Ux].
      subst c. destruct (X2 ltac:(congruence)) as [_ ->]. lia.
    Qed.
    Lemma inv_log s0 n s f ts d : inv s0 n s -> keeps (inv s0) outside n s (elogged s f ts d).
    Proof. intros [VF VI VT VR VC [Ud Uh Uf Ur Ux Uc]]. split; [|auto]. constructor; try assumption. constructor; assumption. Qed.
    Lemma inv_call s0 n s c t v d : inv s0 n s -> outside s c -> keeps (inv s0) outside n s (called s c t v d).
    Proof.
      intros [VF VI VT VR VC [Ud Uh Uf Ur Ux (l & Hl & Fl)]] (O1 & _). split; [|auto]. constructor; try assumption. constructor; try assumption.
      exists (l ++ [Ecall c t v d]). cbn [called e_calls]. rewrite Hl, app_assoc. split; [reflexivity|]. apply Forall_app. split; [exact Fl|]. repeat constructor. exact O1.
    Qed.
    Lemma outside_proxy s0 n s c f x : inv s0 n s -> outside s c -> is_fp f = true -> find_def c None (defs (f_fp (e_m s)) f) = Some x -> outside s f.
    Proof.
      intros [VF VI VT VR [VC1 VC2] _] (O1 & _) Hf Hx. apply find_some in Hx. destruct Hx as (Hx & Ex & _). unfold outside. split; [|split].
      - destruct (A f) eqn:E; [|reflexivity]. destruct x as [x t]. cbn in Ex. subst x. rewrite (VC1 _ _ _ E Hx) in O1. discriminate O1.
      - exact (def_born _ _ _ VI Hx).
      - apply classify_fp in Hf. rewrite Hf. split; discriminate.
    Qed.
    Lemma outside_none s c : A c = false -> classify c = PNone -> outside s c.
    Proof. intros H1 H2. split; [exact H1|]. rewrite H2. split; [|split; discriminate]. intros Hx. rewrite (none_fp _ H2) in Hx. discriminate Hx. Qed.

    (** Whatever contracts do for those outside [A], also if somebody in [A] called them, unless they make a DELEGATECALL
        to a futurepass. *)
    Lemma apart_perform a n fr s0 s s' o : inv s0 (asize a + n) s -> outside s (fr_self fr) -> outside s (fr_caller fr) \/ nodel a -> perform a fr s = Ok (s', o) ->
      inv s0 n s' /\ forall x, outside s x -> outside s' x.
    Proof.
      intros HV. eapply (perform_keeps (inv s0) outside).
      - intros m t [VF VI VT VR VC VU]. constructor; try assumption. lia.
      - intros m t c mc x. apply inv_fund.
      - intros m t b c w t'. apply inv_xrp.
      - intros m t f ts d. apply inv_log.
      - intros m t c u v d. apply inv_call.
      - intros m t c f x. apply outside_proxy.
      - intros m t t0 f d _. apply outside_none; apply A_made.
      - intros m t u _ H1 H2. apply outside_none; [apply A_code, H1|exact H2].
      - intros t c (_ & _ & H1). exact H1.
      - exact HV.
    Qed.
    Lemma apart_acts cb fr l : forall n s0 s s', inv s0 (lsize l + n) s -> outside s (fr_self fr) -> outside s (fr_caller fr) \/ nodels l -> acts cb fr l s = Ok s' -> inv s0 n s'.
    Proof.
      induction l as [|x r IH]; intros n s0 s s' HV Ms Mc H; cbn [acts] in H. { injection H as <-. exact HV. }
      cbn [lsize map list_sum fold_right] in HV. change (fold_right Init.Nat.add 0%nat (map asize r)) with (lsize r) in HV. rewrite <- Nat.add_assoc in HV. cbn [nodels fold_right] in Mc.
      assert (HV' : inv s0 (lsize r + n) s) by (destruct HV as [VF VI VT VR VC VU]; constructor; try assumption; lia). fold (acts cb fr) in H.
      destruct (cb && negb (callback code x)); [apply (IH n s0 s s' HV' Ms); [tauto|exact H]|].
      destruct (perform x fr s) as [[s1 o1]|e] eqn:E; cbn [fst] in H.
      - destruct (apart_perform x _ fr s0 s s1 o1 HV Ms ltac:(tauto) E) as [V1 M1]. apply (IH n s0 s1 s' V1 (M1 _ Ms)); [|exact H]. destruct Mc as [Mc|Mc]; [left; apply M1, Mc|tauto].
      - destruct (e =? panic); [discriminate H|]. apply (IH n s0 s s' HV' Ms); [tauto|exact H].
    Qed.
  End apart.
  (** ** Calls that never reach a futurepass *)
  Section tree.
    Variable R : es -> es -> Prop.
    Variable Fr : bool -> list N -> Prop.
    Hypothesis R_refl : forall s, R s s.
    Hypothesis R_trans : forall s1 s2 s3, R s1 s2 -> R s2 s3 -> R s1 s3.
    Hypothesis Fr_static : forall b st, Fr b st -> Fr true st.
    Hypothesis Fr_push : forall b st a, Fr b st -> Fr b (a :: st).
    Hypothesis R_xrp : forall b st s a c v s', Fr b st -> b = false \/ v = 0 \/ a = c -> xmove s a c v = Ok s' -> R s s'.
    Hypothesis R_call : forall b st s c t v d, Fr b st -> classify t = PNone \/ level t st = 0%nat -> R s (called s c t v d).
    Hypothesis R_reg : forall b st s c v d s' o, Fr b st -> r_run s c v b d = Ok (s', o) -> R s s'.
    Lemma nofut_perform a : nofut a -> forall fr s s' o, Fr (fr_static fr) (fr_stack fr) -> perform a fr s = Ok (s', o) -> R s s'.
    Proof.
      induction a as [k target value data inner ret IH] using act_ind'. cbn [nofut]. intros [Ht Hi] fr s s' o HF H. fold (nofuts inner) in Hi.
      assert (HR : forall cb fr' s s', Fr (fr_static fr') (fr_stack fr') -> acts cb fr' inner s = Ok s' -> R s s').
      { clear - IH Hi R_refl R_trans. intros cb fr. induction inner as [|x r IHr]; intros s s' HF H; cbn [acts] in H. { injection H as <-. apply R_refl. }
        inversion IH as [|? ? Hx Hr]; subst. destruct Hi as [Hn Hi]. specialize (IHr Hr Hi). fold (acts cb fr) in H. destruct (cb && negb (callback code x)); [exact (IHr _ _ HF H)|].
        destruct (perform x fr s) as [[s1 o1]|e] eqn:E; cbn [fst] in H.
        - apply (R_trans _ s1); [exact (Hx Hn _ _ _ _ HF E)|exact (IHr _ _ HF H)].
        - destruct (e =? panic); [discriminate H|]. exact (IHr _ _ HF H). }
      assert (G : forall s1 s2 o byname addr caller v static, Fr static (fr_stack fr) -> go target data inner ret fr s1 byname addr caller v static = Ok (s2, o) -> R s1 s2).
      { clear - HR Ht R_refl R_trans Fr_push R_call R_reg. intros s1 s2 o byname addr caller v static HF H. unfold go, FpassEvmModel.enter in H. destruct (classify target) eqn:Ec.
        - injection H as <- <-. apply R_refl.
        - destruct (addr =? target); cbn [ensure rbind] in H; [|discriminate H]. destruct (Nat.leb_spec (level target (fr_stack fr)) 0) as [Hl|]; cbn [ensure rbind] in H; [|discriminate H].
          destruct (acts true _ inner _) as [s3|] eqn:E; cbn [rbind] in H; [|discriminate H]. destruct ret as [o'|]; cbn [of_opt rbind] in H; [|discriminate H]. injection H as <- <-.
          eapply R_trans; [apply (R_call static (fr_stack fr) s1 caller target v data HF); right; lia|]. apply HR in E; [exact E|]. cbn [fr_static fr_stack]. apply Fr_push, HF.
        - destruct (addr =? target); cbn [ensure rbind] in H; [|discriminate H]. destruct (Nat.leb_spec (level target (fr_stack fr)) 0) as [Hl|]; cbn [ensure rbind] in H; [|discriminate H].
          eapply R_trans; [apply (R_call static (fr_stack fr) s1 caller target v data HF); right; lia|]. exact (R_reg _ _ _ _ _ _ _ _ HF H).
        - apply classify_fp in Ec. congruence.
        - cbv zeta in H. assert (R1 : R s1 (if byname then called s1 caller target v data else s1)).
          { destruct byname; [|apply R_refl]. apply (R_call static (fr_stack fr)); [exact HF|left; exact Ec]. }
          destruct (code target); [|injection H as <- <-; exact R1].
          destruct (acts false _ inner _) as [s3|] eqn:E; cbn [rbind] in H; [|discriminate H]. destruct ret as [o'|]; cbn [of_opt rbind] in H; [|discriminate H]. injection H as <- <-.
          eapply R_trans; [exact R1|]. apply HR in E; [exact E|exact HF]. }
      rewrite perform_eq in H. destruct k.
      - destruct (fr_static fr) eqn:Es; cbn [negb orb] in H.
        + destruct (N.eqb_spec value 0) as [->|]; cbn [ensure rbind] in H; [|discriminate H].
          destruct (xmove s (fr_self fr) target 0) as [s1|] eqn:E; cbn [rbind] in H; [|discriminate H]. apply (R_trans _ s1); [apply (R_xrp _ _ _ _ _ _ _ HF) in E; [exact E|auto]|]. exact (G _ _ _ _ _ _ _ _ HF H).
        + cbn [ensure rbind] in H. destruct (xmove s (fr_self fr) target value) as [s1|] eqn:E; cbn [rbind] in H; [|discriminate H].
          apply (R_trans _ s1); [apply (R_xrp _ _ _ _ _ _ _ HF) in E; [exact E|auto]|]. exact (G _ _ _ _ _ _ _ _ HF H).
      - exact (G _ _ _ _ _ _ _ _ (Fr_static _ _ HF) H).
      - exact (G _ _ _ _ _ _ _ _ HF H).
      - destruct (xmove s (fr_self fr) (fr_self fr) value) as [s1|] eqn:E; cbn [rbind] in H; [|discriminate H].
        apply (R_trans _ s1); [apply (R_xrp _ _ _ _ _ _ _ HF) in E; [exact E|auto]|]. exact (G _ _ _ _ _ _ _ _ HF H).
    Qed.
    Lemma nofut_acts cb fr l : nofuts l -> Fr (fr_static fr) (fr_stack fr) -> forall s s', acts cb fr l s = Ok s' -> R s s'.
    Proof.
      intros Hi HF. induction l as [|x r IHr]; intros s s' H; cbn [acts] in H. { injection H as <-. apply R_refl. }
      destruct Hi as [Hn Hi]. fold (acts cb fr) in H. destruct (cb && negb (callback code x)); [exact (IHr Hi _ _ H)|].
      destruct (perform x fr s) as [[s1 o1]|e] eqn:E; cbn [fst] in H.
      - apply (R_trans _ s1); [exact (nofut_perform x Hn _ _ _ _ HF E)|exact (IHr Hi _ _ H)].
      - destruct (e =? panic); [discriminate H|]. exact (IHr Hi _ _ H).
    Qed.
  End tree.
End evm.
