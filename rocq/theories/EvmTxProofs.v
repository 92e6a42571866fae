(** Proofs about EvmTxModel. *)
From Verif Require Export EvmTxModel UtilsProofs.

Lemma acc_set w a x b : acc_of (set_acc w a x) b = if b =? a then x else acc_of w b.
Proof.
  unfold acc_of, set_acc. cbn [w_acc]. destruct (N.eqb_spec b a) as [->|H].
  - rewrite lookup_insert. reflexivity.
  - rewrite lookup_insert_ne by congruence. reflexivity.
Qed.
Lemma killed_set w a x : w_killed (set_acc w a x) = w_killed w.
Proof. reflexivity. Qed.
Lemma acc_kill w a b : acc_of (kill w a) b = if b =? a then Acc None (xrp w a) else acc_of w b.
Proof.
  unfold acc_of, kill, set_sys, set_acc. cbn [w_acc]. destruct (N.eqb_spec b a) as [->|H].
  - rewrite lookup_insert. reflexivity.
  - rewrite lookup_insert_ne by congruence. reflexivity.
Qed.

(** [later a w w']: from [w] to [w'], unless the account [a] was removed on the way, its nonce has not fallen. *)
Definition later (a : N) (w w' : world) : Prop :=
  exists l, w_killed w' = l ++ w_killed w /\ (~ In a l -> nonce w a <= nonce w' a).
Lemma later_refl a w : later a w w.
Proof. exists []. split; [reflexivity|]. intros _. lia. Qed.
Lemma later_trans a w1 w2 w3 : later a w1 w2 -> later a w2 w3 -> later a w1 w3.
Proof.
  intros (l1 & E1 & H1) (l2 & E2 & H2). exists (l2 ++ l1). split.
  - rewrite E2, E1, app_assoc. reflexivity.
  - intros H. rewrite in_app_iff in H. specialize (H1 ltac:(tauto)). specialize (H2 ltac:(tauto)). lia.
Qed.
Lemma later_plain a w w' : w_killed w' = w_killed w -> nonce w a <= nonce w' a -> later a w w'.
Proof. intros E H. exists []. split; [exact E|]. intros _. exact H. Qed.

Lemma nonce_set w a x b : nonce (set_acc w a x) b =
  if b =? a then match a_sys x with Some (n, _, _) => n | None => 0 end else nonce w b.
Proof. unfold nonce. rewrite acc_set. destruct (b =? a); reflexivity. Qed.
Lemma provs_set w a x b : provs (set_acc w a x) b =
  if b =? a then match a_sys x with Some (_, p, _) => p | None => 0 end else provs w b.
Proof. unfold provs. rewrite acc_set. destruct (b =? a); reflexivity. Qed.
Lemma nonce_sys w a n p s : a_sys (acc_of w a) = Some (n, p, s) -> nonce w a = n.
Proof. intros H. unfold nonce. rewrite H. reflexivity. Qed.

Lemma sys_nonce w a : match sys_of w a with (n, p, s) => nonce w a = n /\ provs w a = p end.
Proof. unfold sys_of, nonce, provs. destruct (a_sys (acc_of w a)) as [[[n p] s]|]; cbn; auto. Qed.

Lemma inc_suff_later b w a : later b w (inc_suff w a).
Proof.
  unfold inc_suff. pose proof (sys_nonce w a) as H. destruct (sys_of w a) as [[n p] s]. destruct H as [H _].
  apply later_plain; [reflexivity|]. unfold set_sys. rewrite nonce_set. cbn [a_sys].
  destruct (N.eqb_spec b a) as [->|]; lia.
Qed.
Lemma inc_prov_later b w a : later b w (inc_prov w a).
Proof.
  unfold inc_prov. pose proof (sys_nonce w a) as H. destruct (sys_of w a) as [[n p] s]. destruct H as [H _].
  apply later_plain; [reflexivity|]. unfold set_sys. rewrite nonce_set. cbn [a_sys].
  destruct (N.eqb_spec b a) as [->|]; lia.
Qed.
Lemma inc_nonce_later b w a : later b w (inc_nonce w a).
Proof.
  unfold inc_nonce. pose proof (sys_nonce w a) as H. destruct (sys_of w a) as [[n p] s]. destruct H as [H _].
  apply later_plain; [reflexivity|]. unfold set_sys. rewrite nonce_set. cbn [a_sys].
  destruct (N.eqb_spec b a) as [->|]; lia.
Qed.
Lemma inc_nonce_up w a : nonce (inc_nonce w a) a = nonce w a + 1.
Proof.
  unfold inc_nonce. pose proof (sys_nonce w a) as H. destruct (sys_of w a) as [[n p] s]. destruct H as [H _].
  unfold set_sys. rewrite nonce_set, N.eqb_refl. cbn [a_sys]. lia.
Qed.
Lemma kill_later b w a : later b w (kill w a).
Proof.
  exists [a]. split; [reflexivity|]. intros H. unfold nonce. rewrite acc_kill.
  destruct (N.eqb_spec b a) as [->|]; [exfalso; apply H; left; reflexivity|]. lia.
Qed.
Lemma dec_suff_later b w a : later b w (dec_suff w a).
Proof.
  unfold dec_suff. destruct (a_sys (acc_of w a)) as [[[n p] s]|] eqn:E; [|apply later_refl].
  destruct ((p =? 0) && (s <=? 1)); [apply kill_later|].
  apply later_plain; [reflexivity|]. unfold set_sys. rewrite nonce_set. cbn [a_sys].
  destruct (N.eqb_spec b a) as [->|]; [rewrite (nonce_sys _ _ _ _ _ E)|]; lia.
Qed.
Lemma dec_prov_later b w a w' : dec_prov w a = Ok w' -> later b w w'.
Proof.
  unfold dec_prov. destruct (a_sys (acc_of w a)) as [[[n p] s]|] eqn:E; [|discriminate].
  destruct (p =? 0); [discriminate|]. destruct ((p =? 1) && (s =? 0)); intros H; injection H as <-; [apply kill_later|].
  apply later_plain; [reflexivity|]. unfold set_sys. rewrite nonce_set. cbn [a_sys].
  destruct (N.eqb_spec b a) as [->|]; [rewrite (nonce_sys _ _ _ _ _ E)|]; lia.
Qed.
Lemma take_later b w a v w' : take w a v = Ok w' -> later b w w'.
Proof.
  unfold take. destruct (v =? 0); [intros H; injection H as <-; apply later_refl|].
  destruct (v <=? xrp w a); [|discriminate]. cbn [ensure rbind]. intros H. injection H as <-.
  eapply later_trans with (w2 := set_acc w a (Acc (a_sys (acc_of w a)) (xrp w a - v))).
  - apply later_plain; [reflexivity|]. rewrite nonce_set. cbn [a_sys]. destruct (N.eqb_spec b a) as [->|]; [|lia].
    fold (nonce w a). lia.
  - destruct (_ =? 0); [apply dec_suff_later|apply later_refl].
Qed.
Lemma put_later b w a v : later b w (put w a v).
Proof.
  unfold put. destruct (v =? 0); [apply later_refl|].
  eapply later_trans with (w2 := if xrp w a =? 0 then inc_suff w a else w).
  - destruct (_ =? 0); [apply inc_suff_later|apply later_refl].
  - set (w1 := if xrp w a =? 0 then _ else _). apply later_plain; [reflexivity|]. rewrite nonce_set. cbn [a_sys].
    destruct (N.eqb_spec b a) as [->|]; [|lia]. fold (nonce w1 a). lia.
Qed.
Lemma move_later b w m w' : move w m = Ok w' -> later b w w'.
Proof.
  destruct m as [x y v|x v|x v|x|x [|]]; cbn [move].
  - destruct (x =? y).
    + destruct (v <=? xrp w x); [|discriminate]. cbn [ensure rbind]. intros H. injection H as <-. apply later_refl.
    + destruct (take w x v) as [w1|] eqn:E; [|discriminate]. cbn [rbind]. intros H. injection H as <-.
      eapply later_trans; [eapply take_later; exact E|apply put_later].
  - intros H. injection H as <-. apply put_later.
  - apply take_later.
  - intros H. injection H as <-. apply inc_nonce_later.
  - intros H. injection H as <-. apply inc_prov_later.
  - apply dec_prov_later.
Qed.
Lemma moves_later b ms : forall w w', moves w ms = Ok w' -> later b w w'.
Proof.
  induction ms as [|m r IH]; intros w w'; cbn [moves].
  - intros H. injection H as <-. apply later_refl.
  - destruct (move w m) as [w1|] eqn:E; [|discriminate]. cbn [rbind]. intros H.
    eapply later_trans; [eapply move_later; exact E|apply IH; exact H].
Qed.
Lemma commit_later b w r : (forall w', r = Ok w' -> later b w w') -> later b w (commit w r).
Proof. destruct r; cbn; intros H; [apply H; reflexivity|apply later_refl]. Qed.

(** [up a w w']: likewise, and it has grown. *)
Definition up (a : N) (w w' : world) : Prop :=
  exists l, w_killed w' = l ++ w_killed w /\ (~ In a l -> nonce w a < nonce w' a).
Lemma up_later a w w' : up a w w' -> later a w w'.
Proof. intros (l & E & H). exists l. split; [exact E|]. intros Hl. specialize (H Hl). lia. Qed.
Lemma later_up a w1 w2 w3 : later a w1 w2 -> up a w2 w3 -> up a w1 w3.
Proof.
  intros (l1 & E1 & H1) (l2 & E2 & H2). exists (l2 ++ l1). split.
  - rewrite E2, E1, app_assoc. reflexivity.
  - intros H. rewrite in_app_iff in H. specialize (H1 ltac:(tauto)). specialize (H2 ltac:(tauto)). lia.
Qed.
Lemma up_then a w1 w2 w3 : up a w1 w2 -> later a w2 w3 -> up a w1 w3.
Proof.
  intros (l1 & E1 & H1) (l2 & E2 & H2). exists (l2 ++ l1). split.
  - rewrite E2, E1, app_assoc. reflexivity.
  - intros H. rewrite in_app_iff in H. specialize (H1 ltac:(tauto)). specialize (H2 ltac:(tauto)). lia.
Qed.

Section chain.
  Variable base : N.
  Variable maint : N -> option N -> bool.
  Variable decode_rest : list N -> result (N * N * list N).
  Variable swap : world -> etx -> N -> result (list mv).
  Variable pot author : N.
  Notation apply_tx := (apply_tx base maint decode_rest swap pot author).
  Notation step := (step base maint decode_rest swap pot author).
  Notation hist := (hist base maint decode_rest swap pot author).
  Notation evm_run := (evm_run base pot author).
  Notation runner := (runner base maint decode_rest swap pot author).

  Lemma evm_run_ok w t tg body gas w' : evm_run w t tg body gas = Ok w' ->
    exists (v : N) w1 ms a b c, take w (e_src t) v = Ok w1 /\
      w' = put (put (put (commit (inc_nonce w1 (e_src t)) (do! s <- ms; moves (inc_nonce w1 (e_src t)) (s ++ body)))
             (e_src t) a) pot b) author c.
  Proof.
    unfold EvmTxModel.evm_run. destruct (of_opt _ 12) as [fee|]; [|discriminate]. cbn [rbind].
    destruct (withdraw_fee _ fee) as [[r paid]|]; [|discriminate]. cbn [rbind].
    destruct (take w (e_src t) (default 0 paid)) as [w1|] eqn:Et; [|discriminate]. cbn [rbind]. cbv zeta.
    set (ms := match tg with Some _ => _ | None => _ end).
    destruct (correct_and_deposit_fee _ _ _ _) as [f|]; [|discriminate]. cbn [rbind].
    intros H. injection H as <-. exists (default 0 paid), w1, ms, (f_ledger f), (f_pot f), (f_tip f). auto.
  Qed.

  Lemma evm_run_up w t tg body gas w' : evm_run w t tg body gas = Ok w' -> up (e_src t) w w'.
  Proof.
    intros H. apply evm_run_ok in H. destruct H as (v & w1 & ms & a & b & c & Ht & ->).
    eapply later_up; [eapply take_later; exact Ht|].
    eapply up_then with (w2 := inc_nonce w1 (e_src t)).
    - exists []. split; [unfold inc_nonce; destruct (sys_of w1 (e_src t)) as [[? ?] ?]; reflexivity|].
      intros _. rewrite inc_nonce_up. lia.
    - eapply later_trans; [|eapply later_trans; [eapply later_trans; apply put_later|apply put_later]].
      apply commit_later. intros w2. destruct ms; [|discriminate]. cbn [rbind]. apply moves_later.
  Qed.
  Lemma evm_run_later x w t tg body gas w' : evm_run w t tg body gas = Ok w' -> later x w w'.
  Proof.
    intros H. apply evm_run_ok in H. destruct H as (v & w1 & ms & a & b & c & Ht & ->).
    eapply later_trans; [eapply take_later; exact Ht|]. eapply later_trans; [apply inc_nonce_later|].
    eapply later_trans; [|eapply later_trans; [eapply later_trans; apply put_later|apply put_later]].
    apply commit_later. intros w2. destruct ms; [|discriminate]. cbn [rbind]. apply moves_later.
  Qed.
  Lemma runner_ok w t body gas w' : runner w t body gas = Ok w' ->
    exists ms w1 tg, moves w ms = Ok w1 /\ evm_run w1 t tg body gas = Ok w'.
  Proof.
    unfold EvmTxModel.runner. destruct (maint _ _); [|discriminate]. cbn [ensure rbind].
    destruct (e_to t) as [a|]; [|intros H; exists [], w, None; auto].
    destruct (a =? FEE_PROXY); [|intros H; exists [], w, (Some a); auto].
    destruct (decode_input _ _) as [[[asset target] i]|]; [|discriminate]. cbn [rbind].
    destruct (swap w t asset) as [ms|]; [|discriminate]. cbn [rbind].
    destruct (moves w ms) as [w1|] eqn:E; [|discriminate]. cbn [rbind]. intros H. exists ms, w1, (Some target). auto.
  Qed.
  Lemma runner_up w t body gas w' : runner w t body gas = Ok w' -> up (e_src t) w w'.
  Proof.
    intros H. apply runner_ok in H. destruct H as (ms & w1 & tg & Hm & He).
    eapply later_up; [eapply moves_later; exact Hm|eapply evm_run_up; exact He].
  Qed.
  Lemma step_later a w o : later a w (step w o).
  Proof.
    destruct o as [t body gas|who ms]; cbn [EvmTxModel.step].
    - unfold EvmTxModel.apply_tx. destruct (in_block _ _ _); [|apply later_refl].
      destruct (runner w t body gas) as [w'|] eqn:E; [|apply later_refl]. cbn [fst].
      apply runner_ok in E. destruct E as (ms & w1 & tg & Hm & He).
      eapply later_trans; [eapply moves_later; exact Hm|eapply evm_run_later; exact He].
    - eapply later_trans with (w2 := match who with Some x => inc_nonce w x | None => w end).
      + destruct who; [apply inc_nonce_later|apply later_refl].
      + apply commit_later. intros w'. apply moves_later.
  Qed.
  Lemma hist_later a ops : forall w, later a w (hist ops w).
  Proof.
    induction ops as [|o r IH]; intros w; [apply later_refl|].
    change (hist (o :: r) w) with (hist r (step w o)). eapply later_trans; [apply step_later|apply IH].
  Qed.

  (** ** Provided accounts *)
  Definition loses (a : N) (m : mv) : bool := match m with Root b false => b =? a | _ => false end.
  Definition keeps (a : N) (w w' : world) : Prop :=
    provs w a <= provs w' a /\ exists l, w_killed w' = l ++ w_killed w /\ ~ In a l.
  Lemma keeps_refl a w : keeps a w w.
  Proof. split; [lia|]. exists []. split; [reflexivity|auto]. Qed.
  Lemma keeps_trans a w1 w2 w3 : keeps a w1 w2 -> keeps a w2 w3 -> keeps a w1 w3.
  Proof.
    intros (P1 & l1 & E1 & H1) (P2 & l2 & E2 & H2). split; [lia|]. exists (l2 ++ l1). split.
    - rewrite E2, E1, app_assoc. reflexivity.
    - rewrite in_app_iff. tauto.
  Qed.
  Lemma keeps_plain a w w' : w_killed w' = w_killed w -> provs w a <= provs w' a -> keeps a w w'.
  Proof. intros E H. split; [exact H|]. exists []. split; [exact E|auto]. Qed.
  Lemma inc_keeps b w a :
    keeps b w (inc_suff w a) /\ keeps b w (inc_prov w a) /\ keeps b w (inc_nonce w a).
  Proof.
    unfold inc_suff, inc_prov, inc_nonce. pose proof (sys_nonce w a) as H. destruct (sys_of w a) as [[n p] s].
    destruct H as [_ H].
    repeat match goal with |- _ /\ _ => split end; apply keeps_plain; try reflexivity; unfold set_sys; rewrite provs_set;
      cbn [a_sys]; destruct (N.eqb_spec b a) as [->|]; lia.
  Qed.
  Lemma kill_keeps b w a : a <> b -> keeps b w (kill w a).
  Proof.
    intros H. split.
    - unfold provs. rewrite acc_kill. destruct (N.eqb_spec b a); [congruence|lia].
    - exists [a]. split; [reflexivity|]. intros [E|[]]. congruence.
  Qed.
  Lemma dec_suff_keeps b w a : 0 < provs w b -> keeps b w (dec_suff w a).
  Proof.
    intros Hb. unfold dec_suff. destruct (a_sys (acc_of w a)) as [[[n p] s]|] eqn:E; [|apply keeps_refl].
    destruct (N.eqb_spec a b) as [->|Hab].
    - unfold provs in Hb. rewrite E in Hb. destruct (N.eqb_spec p 0); [lia|]. cbn [andb].
      apply keeps_plain; [reflexivity|]. unfold set_sys. rewrite provs_set, N.eqb_refl. cbn [a_sys].
      unfold provs. rewrite E. lia.
    - destruct (_ && _); [apply kill_keeps; exact Hab|]. apply keeps_plain; [reflexivity|].
      unfold set_sys. rewrite provs_set. destruct (N.eqb_spec b a); [congruence|lia].
  Qed.
  Lemma take_keeps b w a v w' : 0 < provs w b -> take w a v = Ok w' -> keeps b w w'.
  Proof.
    intros Hb. unfold take. destruct (v =? 0); [intros H; injection H as <-; apply keeps_refl|].
    destruct (v <=? xrp w a); [|discriminate]. cbn [ensure rbind]. intros H. injection H as <-.
    set (w1 := set_acc w a _). assert (P : provs w1 b = provs w b).
    { unfold w1. rewrite provs_set. cbn [a_sys]. destruct (N.eqb_spec b a) as [->|]; reflexivity. }
    eapply keeps_trans with (w2 := w1).
    - apply keeps_plain; [reflexivity|lia].
    - destruct (_ =? 0); [apply dec_suff_keeps; lia|apply keeps_refl].
  Qed.
  Lemma put_keeps b w a v : keeps b w (put w a v).
  Proof.
    unfold put. destruct (v =? 0); [apply keeps_refl|].
    eapply keeps_trans with (w2 := if xrp w a =? 0 then inc_suff w a else w).
    - destruct (_ =? 0); [apply inc_keeps|apply keeps_refl].
    - set (w1 := if xrp w a =? 0 then _ else _). apply keeps_plain; [reflexivity|]. rewrite provs_set. cbn [a_sys].
      destruct (N.eqb_spec b a) as [->|]; [|lia]. fold (provs w1 a). lia.
  Qed.
  Lemma dec_prov_keeps b w a w' : a <> b -> dec_prov w a = Ok w' -> keeps b w w'.
  Proof.
    intros Hab. unfold dec_prov. destruct (a_sys (acc_of w a)) as [[[n p] s]|] eqn:E; [|discriminate].
    destruct (p =? 0); [discriminate|].
    destruct ((p =? 1) && (s =? 0)); intros H; injection H as <-; [apply kill_keeps; exact Hab|].
    apply keeps_plain; [reflexivity|]. unfold set_sys. rewrite provs_set. destruct (N.eqb_spec b a); [congruence|lia].
  Qed.
  Lemma move_keeps b w m w' : 0 < provs w b -> loses b m = false -> move w m = Ok w' -> keeps b w w'.
  Proof.
    intros Hb Hl. destruct m as [x y v|x v|x v|x|x [|]]; cbn [move].
    - destruct (x =? y).
      + destruct (v <=? xrp w x); [|discriminate]. cbn [ensure rbind]. intros H. injection H as <-. apply keeps_refl.
      + destruct (take w x v) as [w1|] eqn:E; [|discriminate]. cbn [rbind]. intros H. injection H as <-.
        eapply keeps_trans; [eapply take_keeps; [exact Hb|exact E]|apply put_keeps].
    - intros H. injection H as <-. apply put_keeps.
    - apply take_keeps. exact Hb.
    - intros H. injection H as <-. apply inc_keeps.
    - intros H. injection H as <-. apply inc_keeps.
    - cbn [loses] in Hl. apply dec_prov_keeps. apply N.eqb_neq. exact Hl.
  Qed.
  Lemma moves_keeps b ms : forall w w', 0 < provs w b -> Forall (fun m => loses b m = false) ms ->
    moves w ms = Ok w' -> keeps b w w'.
  Proof.
    induction ms as [|m r IH]; intros w w' Hb Hf; cbn [moves].
    - intros H. injection H as <-. apply keeps_refl.
    - inversion Hf as [|? ? Hm Hr]; subst. destruct (move w m) as [w1|] eqn:E; [|discriminate]. cbn [rbind]. intros H.
      pose proof (move_keeps b w m w1 Hb Hm E) as K. eapply keeps_trans; [exact K|].
      apply IH; [destruct K; lia|exact Hr|exact H].
  Qed.
  Lemma commit_keeps b w r : (forall w', r = Ok w' -> keeps b w w') -> keeps b w (commit w r).
  Proof. destruct r; cbn; intros H; [apply H; reflexivity|apply keeps_refl]. Qed.

  (** No step takes away the ROOT of [a]. *)
  Definition spares (a : N) (o : op) : Prop :=
    match o with OTx _ body _ => Forall (fun m => loses a m = false) body
               | OCall _ ms => Forall (fun m => loses a m = false) ms end.
  Hypothesis swap_spares : forall w t x ms a, swap w t x = Ok ms -> Forall (fun m => loses a m = false) ms.

  Lemma sent_fine (a : N) tg t ms :
    (match tg with
     | Some b => if e_value t =? 0 then Ok [] else do! v <- scale_wei_to_6dp (e_value t); Ok [Send (e_src t) b v]
     | None => Ok [] end) = Ok ms -> Forall (fun m => loses a m = false) ms.
  Proof.
    destruct tg as [b|]; [|intros H; injection H as <-; constructor].
    destruct (e_value t =? 0); [intros H; injection H as <-; constructor|].
    destruct (scale_wei_to_6dp _); [|discriminate]. cbn [rbind]. intros H. injection H as <-.
    repeat constructor.
  Qed.
  Lemma evm_run_keeps a w t tg body gas w' : 0 < provs w a -> Forall (fun m => loses a m = false) body ->
    evm_run w t tg body gas = Ok w' -> keeps a w w'.
  Proof.
    intros Ha Hf. unfold EvmTxModel.evm_run. destruct (of_opt _ 12) as [fee|]; [|discriminate]. cbn [rbind].
    destruct (withdraw_fee _ fee) as [[r paid]|]; [|discriminate]. cbn [rbind].
    destruct (take w (e_src t) (default 0 paid)) as [w1|] eqn:Et; [|discriminate]. cbn [rbind]. cbv zeta.
    set (ms := match tg with Some _ => _ | None => _ end).
    destruct (correct_and_deposit_fee _ _ _ _) as [f|]; [|discriminate]. cbn [rbind].
    intros H. injection H as <-.
    pose proof (take_keeps a _ _ _ _ Ha Et) as K1. pose proof (inc_keeps a w1 (e_src t)) as (_ & _ & K2).
    pose proof (keeps_trans _ _ _ _ K1 K2) as K. set (w2 := inc_nonce w1 (e_src t)) in *.
    eapply keeps_trans; [exact K|].
    eapply keeps_trans; [|eapply keeps_trans; [eapply keeps_trans; apply put_keeps|apply put_keeps]].
    apply commit_keeps. intros w3. destruct ms as [l|] eqn:El; [|discriminate]. cbn [rbind]. intros Hm.
    eapply moves_keeps; [|apply Forall_app; split; [eapply sent_fine; exact El|exact Hf]|exact Hm].
    destruct K; lia.
  Qed.
  Lemma step_keeps a w o : 0 < provs w a -> spares a o -> keeps a w (step w o).
  Proof.
    intros Ha Hs. destruct o as [t body gas|who ms]; cbn [EvmTxModel.step spares] in *.
    - unfold EvmTxModel.apply_tx. destruct (in_block _ _ _); [|apply keeps_refl].
      destruct (runner w t body gas) as [w'|] eqn:E; [|apply keeps_refl]. cbn [fst].
      unfold EvmTxModel.runner in E. destruct (maint _ _); [|discriminate]. cbn [ensure rbind] in E.
      destruct (e_to t) as [x|]; [|eapply evm_run_keeps; eassumption].
      destruct (x =? FEE_PROXY); [|eapply evm_run_keeps; eassumption].
      destruct (decode_input _ _) as [[[asset target] i]|]; [|discriminate]. cbn [rbind] in E.
      destruct (swap w t asset) as [ms|] eqn:Es; [|discriminate]. cbn [rbind] in E.
      destruct (moves w ms) as [w1|] eqn:Em; [|discriminate]. cbn [rbind] in E.
      pose proof (moves_keeps a ms w w1 Ha (swap_spares _ _ _ _ _ Es) Em) as K.
      eapply keeps_trans; [exact K|]. eapply evm_run_keeps; [destruct K; lia|exact Hs|exact E].
    - set (w1 := match who with Some x => inc_nonce w x | None => w end).
      assert (K : keeps a w w1) by (unfold w1; destruct who; [apply inc_keeps|apply keeps_refl]).
      eapply keeps_trans; [exact K|]. apply commit_keeps. intros w' Hm.
      eapply moves_keeps; [destruct K; lia|exact Hs|exact Hm].
  Qed.
  Lemma hist_keeps a ops : forall w, 0 < provs w a -> Forall (spares a) ops -> keeps a w (hist ops w).
  Proof.
    induction ops as [|o r IH]; intros w Ha Hf; [apply keeps_refl|].
    change (hist (o :: r) w) with (hist r (step w o)). inversion Hf as [|? ? Ho Hr]; subst.
    pose proof (step_keeps a w o Ha Ho) as K. eapply keeps_trans; [exact K|]. apply IH; [destruct K; lia|exact Hr].
  Qed.
End chain.
