(** Properties of maintenance mode: C44, C45, C82, C83, C84. *)
From Verif Require Export MaintProofs.

(** The pallets the chain cannot be run without, in the letter case of the runtime. *)
Definition excluded : list name := [n_maint; n_sudo; n_time; n_online; n_ethy].
Definition is_excluded (p : name) : Prop := exists e, In e excluded /\ lower p = lower e.
Lemma excluded_blockable p : is_excluded p -> blockable (lower p) = false.
Proof. intros (e & I & ->). cbn in I. destruct I as [<-|[<-|[<-|[<-|[<-|[]]]]]]; vm_compute; reflexivity. Qed.
Lemma blockable_excluded p : blockable (lower p) = false -> is_excluded p.
Proof.
  unfold blockable. intros H.
  destruct (bool_decide (lower p = lower n_maint)) eqn:E1; [apply bool_decide_eq_true in E1; exists n_maint; cbn; auto|].
  destruct (bool_decide (lower p = lower n_sudo)) eqn:E2; [apply bool_decide_eq_true in E2; exists n_sudo; cbn; auto|].
  destruct (bool_decide (lower p = lower n_time)) eqn:E3; [apply bool_decide_eq_true in E3; exists n_time; cbn; auto|].
  destruct (bool_decide (lower p = lower n_online)) eqn:E4; [apply bool_decide_eq_true in E4; exists n_online; cbn; auto 6|].
  destruct (bool_decide (lower p = lower n_ethy)) eqn:E5; [apply bool_decide_eq_true in E5; exists n_ethy; cbn; auto 7|discriminate].
Qed.
Lemma excluded_len p : is_excluded p -> (length p <= 15)%nat.
Proof. intros (e & I & E). rewrite <- (lower_length p), E, lower_length. cbn in I. destruct I as [<-|[<-|[<-|[<-|[<-|[]]]]]]; cbn; lia. Qed.

(** ** C44.  Whatever has been configured, and whoever signs, the calls of the excluded pallets are not paused, pass the
    maintenance check, and are executed; and no attempt to block them, in any letter case, is accepted. *)
Theorem C44_excluded_always_run utf8 limit pre dec static n1 n2 n3 n4 n5 n6 n7 top ops p f who :
  is_excluded p -> static p f = true ->
  let s := run (mstep utf8 limit) ops maint0 in
  paused limit s p f = false /\ ext_ok s who p = true /\
  apply limit pre dec static n1 n2 n3 n4 n5 n6 n7 top s (TSigned who (Plain p f)) = [ECall who (p, f)].
Proof.
  intros X S s. pose proof (excluded_blockable p X) as B.
  assert (paused limit s p f = false) as P by (unfold paused; rewrite B; reflexivity).
  assert (ext_ok s who p = true) as E by (unfold ext_ok; rewrite B; reflexivity).
  repeat split; [exact P|exact E|]. cbn. unfold filtered. rewrite E, P, S. reflexivity.
Qed.
Theorem C44_block_refused utf8 limit s p f b : (15 <= limit)%nat -> is_excluded p ->
  is_ok (mexec utf8 limit s (MPallet p b)) = false /\ is_ok (mexec utf8 limit s (MCall p f b)) = false.
Proof.
  intros L X. pose proof (excluded_blockable p X) as B. pose proof (excluded_len p X) as Lp.
  assert (length p <= limit)%nat as Lq by lia.
  cbn. unfold block_pallet, block_call. rewrite (trunc_short _ _ Lq), B.
  split; destruct (bool_decide (p = [])); cbn; try reflexivity; destruct (utf8 (lower p)); reflexivity.
Qed.
(** And nothing ever stored stands for one of them, so none can be paused by a later change of how names are compared. *)
Theorem C44_nothing_stored utf8 limit ops p f : is_excluded p ->
  let s := run (mstep utf8 limit) ops maint0 in lower p ∉ m_pallets s /\ (lower p, lower f) ∉ m_calls s.
Proof.
  intros X s. destruct (keys_run utf8 limit ops) as [C P]. pose proof (excluded_blockable p X) as B. fold s in C, P.
  split; intros I; [apply P in I|apply C in I]; congruence.
Qed.

(** ** C45.  A blocked address is not the target of an EVM call, by any kind of transaction - unless the fee proxy is asked
    to call it. *)
Theorem C45_blocked_target_partial utf8 limit pre dec static n1 n2 n3 n4 n5 n6 n7 top ops t a tg :
  let s := run (mstep utf8 limit) ops maint0 in
  last_of (on_evm tg) ops = true -> ~ In fee_proxy (tx_targets t) ->
  ~ In (EEvm a tg) (apply limit pre dec static n1 n2 n3 n4 n5 n6 n7 top s t).
Proof. intros s B NF I. apply app_evm in I as (_ & _ & F). apply NF, F. apply evm_last. exact B. Qed.

Notation n_pre0 := (fun _ _ : N => @nil (bool * N * (name * name))).
Notation yes2 := (fun _ _ : name => true).
Notation yes1 := (fun _ : name => true).
Notation app0 pre dec := (apply 50 pre dec yes2 [88] [68] [116] [70] [112] [102] [99] (fun _ => true)).
Notation run0 ops := (run (mstep yes1 50) ops maint0).
(** Address 7 is blocked; the direct call to it is refused, the same call by way of the fee proxy is executed. *)
Theorem C45_fee_proxy_refuted : exists dec ops t t' a tg,
  last_of (on_evm tg) ops = true /\
  apply 50 n_pre0 dec yes2 [88] [68] [116] [70] [112] [102] [99] (fun _ => true) (run0 ops) t' = [] /\
  t' = TEvm a tg 0 /\
  apply 50 n_pre0 dec yes2 [88] [68] [116] [70] [112] [102] [99] (fun _ => true) (run0 ops) t = [EEvm a tg].
Proof.
  exists (fun i => if i =? 5 then Some (7, 0) else None), [MEvm 7 true], (TEvm 1 fee_proxy 5), (TEvm 1 7 0), 1, 7.
  vm_compute. auto.
Qed.

(** ** C82.  While maintenance mode is on, or the account is blocked, nothing it signs is executed, except for the excluded
    pallets: signed extrinsics and Ethereum transactions. *)
Definition stopped (ops : list mop) (a : N) : Prop := last_of on_active ops = true \/ last_of (on_account a) ops = true.
Theorem C82_stopped_partial utf8 limit pre dec static n1 n2 n3 n4 n5 n6 n7 top ops t :
  stopped ops (signer t) ->
  match t with TSigned _ c => ~ is_excluded (fst (cname c)) | TEvm _ _ _ | TCreate _ => True | _ => False end ->
  apply limit pre dec static n1 n2 n3 n4 n5 n6 n7 top (run (mstep utf8 limit) ops maint0) t = [].
Proof.
  intros St K. set (s := run (mstep utf8 limit) ops maint0).
  assert (m_active s = true \/ signer t ∈ m_acc s) as A.
  { destruct St as [H|H]; [left; unfold s; rewrite active_last; exact H|right; apply account_last; exact H]. }
  assert (forall a, a = signer t -> create_ok s a = false) as Q.
  { intros a ->. unfold create_ok. destruct A as [-> | A]; [reflexivity|]. rewrite (bool_decide_eq_true_2 _ A), andb_false_r. reflexivity. }
  destruct t as [who c|src tg i|src|who c|is ho c]; cbn in K |- *; [| | |destruct K|destruct K].
  - assert (ext_ok s who (fst (cname c)) = false) as ->; [|reflexivity]. unfold ext_ok.
    destruct (blockable (lower (fst (cname c)))) eqn:B; cbn; [apply (Q who eq_refl)|]. destruct K. apply blockable_excluded, B.
  - destruct (filtered _ _ _ _ _); [reflexivity|]. unfold evm_call, evm_ok.
    specialize (Q src eq_refl). unfold create_ok in Q. rewrite Q. reflexivity.
  - destruct (filtered _ _ _ _ _); [reflexivity|]. rewrite (Q src eq_refl). reflexivity.
Qed.
(** By whatever kind of transaction, no EVM call is made in the name of a stopped account. *)
Theorem C82_no_evm_call utf8 limit pre dec static n1 n2 n3 n4 n5 n6 n7 top ops t a tg :
  stopped ops a -> ~ In (EEvm a tg) (apply limit pre dec static n1 n2 n3 n4 n5 n6 n7 top (run (mstep utf8 limit) ops maint0) t).
Proof.
  intros St I. apply app_evm in I as (A & B & _). destruct St as [H|H]; [rewrite active_last in A; congruence|].
  apply B, account_last, H.
Qed.
(** False of transactions signed with an XRPL key, and of doughnuts issued by the account: neither asks. *)
Theorem C82_xrpl_and_doughnut_refuted : exists ops a c,
  last_of on_active ops = true /\ last_of (on_account a) ops = true /\
  app0 n_pre0 (fun _ => None) (run0 ops) (TSigned a c) = [] /\
  app0 n_pre0 (fun _ => None) (run0 ops) (TXrpl a c) = [ECall a (cname c)] /\
  app0 n_pre0 (fun _ => None) (run0 ops) (TDoughnut a 9 c) = [ECall a (cname c)].
Proof. exists [MActive true; MAccount 3 true], 3, (Plain [66] [116]). vm_compute. auto 10. Qed.

(** ** C83.  A call of another pallet is paused exactly while the last instruction about the call or about its pallet was to
    block it; letter case makes no difference. *)
Theorem C83_paused_iff_configured utf8 limit ops p f :
  p <> [] -> f <> [] -> (length p <= limit)%nat -> (length f <= limit)%nat -> utf8 (lower p) = true -> utf8 (lower f) = true ->
  ~ is_excluded p -> Forall (short limit) ops ->
  paused limit (run (mstep utf8 limit) ops maint0) p f = last_of (on_call p f) ops || last_of (on_pallet p) ops.
Proof.
  intros Np Nf Lp Lf Up Uf X Sh.
  assert (blockable (lower p) = true) as B by (destruct (blockable (lower p)) eqn:B; [reflexivity|destruct X; apply blockable_excluded, B]).
  unfold paused. rewrite B. cbn [negb]. rewrite (trunc_short _ _ Lp), (trunc_short _ _ Lf).
  f_equal; apply eq_true_iff_eq; rewrite bool_decide_eq_true; [apply call_last|apply pallet_last]; assumption.
Qed.
(** The instruction itself is accepted, so the account of the last one is not empty. *)
Theorem C83_accepted utf8 limit s p f b :
  p <> [] -> f <> [] -> (length p <= limit)%nat -> (length f <= limit)%nat -> utf8 (lower p) = true -> utf8 (lower f) = true ->
  ~ is_excluded p -> is_ok (mexec utf8 limit s (MPallet p b)) = true /\ is_ok (mexec utf8 limit s (MCall p f b)) = true.
Proof.
  intros Np Nf Lp Lf Up Uf X.
  assert (blockable (lower p) = true) as B by (destruct (blockable (lower p)) eqn:B; [reflexivity|destruct X; apply blockable_excluded, B]).
  cbn. unfold block_pallet, block_call.
  rewrite (bool_decide_eq_false_2 _ Np), (bool_decide_eq_false_2 _ Nf), (trunc_short _ _ Lp), (trunc_short _ _ Lf), Up, Uf, B. auto.
Qed.

(** ** C84.  A paused call is not executed: however deep it is nested in batches, proxies and fee preferences, in whatever kind
    of transaction, and through the precompiles that dispatch. *)
Theorem C84_paused_never_runs_partial limit pre dec static n1 n2 n3 n4 n5 n6 n7 top s t a p f :
  dispatches pre \/ tx_targets t = [] -> paused limit s p f = true ->
  ~ In (ECall a (p, f)) (apply limit pre dec static n1 n2 n3 n4 n5 n6 n7 top s t).
Proof. intros D P I. apply app_paused in I; [congruence|exact D]. Qed.
(** False of the precompiles that call the pallet's function themselves: with the exchange pallet paused, its precompile at
    56797 still swaps. *)
Theorem C84_precompile_refuted : exists pre ops t a p f,
  last_of (on_pallet p) ops = true /\ paused 50 (run0 ops) p f = true /\
  app0 pre (fun _ => None) (run0 ops) (TSigned a (Plain p f)) = [] /\
  In (ECall a (p, f)) (app0 pre (fun _ => None) (run0 ops) t).
Proof.
  exists (fun t i => if t =? 56797 then [(false, 1, ([68; 101; 120], [115]))] else []), [MPallet [68; 101; 120] true], (TEvm 1 56797 0), 1, [68; 101; 120], [115].
  vm_compute. auto 10.
Qed.

(** ** The hypotheses are met *)
(** SUDO in capitals is refused; NFT paused by the name nft; a batch with the paused call inside runs the rest. *)
Example ex_excluded : is_excluded [83; 85; 68; 79]. Proof. exists n_sudo. vm_compute. auto. Qed.
Example ex_not_excluded : ~ is_excluded [78; 102; 116].
Proof. intros (e & I & E). cbn in I. destruct I as [<-|[<-|[<-|[<-|[<-|[]]]]]]; vm_compute in E; discriminate. Qed.
Example ex_paused : let s := run0 [MPallet [83; 85; 68; 79] true; MPallet [110; 70; 84] true; MCall [68] [97] true; MCall [68] [65] false] in
  paused 50 s [78; 102; 116] [109] = true /\ paused 50 s [68] [97] = false /\ paused 50 s [83; 117; 100; 111] [109] = false /\
  app0 n_pre0 (fun _ => None) s (TSigned 1 (Wrap [85] [98] None [Plain [68] [97]; Wrap [70] [112] (Some 4) [Plain [78; 102; 116] [109]; Plain [68] [97]]]))
  = [ECall 1 ([85], [98]); ECall 1 ([68], [97]); ECall 1 ([70], [112]); ECall 4 ([68], [97])].
Proof. vm_compute. auto 10. Qed.
Example ex_blocked : let ops := [MEvm 7 true; MAccount 3 true; MEvm 8 true; MEvm 8 false] in
  last_of (on_evm 7) ops = true /\ last_of (on_evm 8) ops = false /\ stopped ops 3 /\
  app0 n_pre0 (fun _ => None) (run0 ops) (TEvm 1 8 0) = [EEvm 1 8] /\ app0 n_pre0 (fun _ => None) (run0 ops) (TEvm 1 7 0) = [] /\
  app0 n_pre0 (fun _ => None) (run0 ops) (TEvm 3 8 0) = [] /\ app0 n_pre0 (fun _ => None) (run0 ops) (TSigned 3 (EvmC 8 0)) = [].
Proof. vm_compute. auto 10. Qed.
Example ex_dispatches : dispatches (fun t i => if t =? 56797 then [(true, 1, ([68], [115]))] else []).
Proof. intros t i d who c. destruct (t =? 56797); cbn; [|tauto]. intros [E|[]]. congruence. Qed.

Print Assumptions C44_excluded_always_run.
Print Assumptions C44_block_refused.
Print Assumptions C44_nothing_stored.
Print Assumptions C45_blocked_target_partial.
Print Assumptions C45_fee_proxy_refuted.
Print Assumptions C82_stopped_partial.
Print Assumptions C82_no_evm_call.
Print Assumptions C82_xrpl_and_doughnut_refuted.
Print Assumptions C83_paused_iff_configured.
Print Assumptions C83_accepted.
Print Assumptions C84_paused_never_runs_partial.
Print Assumptions C84_precompile_refuted.
