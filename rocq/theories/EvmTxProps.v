(** Properties of Ethereum transactions: charged, and executed once. *)
From Verif Require Import EvmTxProofs.

(** ** Balances *)
Lemma xrp_set w a x b : xrp (set_acc w a x) b = if b =? a then a_xrp x else xrp w b.
Proof. unfold xrp. rewrite acc_set. destruct (b =? a); reflexivity. Qed.
Lemma xrp_sys w a s b : xrp (set_sys w a s) b = xrp w b.
Proof. unfold set_sys. rewrite xrp_set. cbn [a_xrp]. destruct (N.eqb_spec b a) as [->|]; reflexivity. Qed.
Lemma xrp_inc_nonce w a b : xrp (inc_nonce w a) b = xrp w b.
Proof. unfold inc_nonce. destruct (sys_of w a) as [[n p] s]. apply xrp_sys. Qed.
Lemma xrp_dec_suff w a b : xrp (dec_suff w a) b = xrp w b.
Proof.
  unfold dec_suff. destruct (a_sys (acc_of w a)) as [[[n p] s]|]; [|reflexivity].
  destruct (_ && _); [|apply xrp_sys]. unfold xrp. rewrite acc_kill. destruct (N.eqb_spec b a) as [->|]; reflexivity.
Qed.
Lemma xrp_take w a v w' b : take w a v = Ok w' -> xrp w' b = if b =? a then xrp w a - v else xrp w b.
Proof.
  unfold take. destruct (N.eqb_spec v 0) as [->|].
  { intros H. injection H as <-. destruct (N.eqb_spec b a) as [->|]; [lia|reflexivity]. }
  destruct (v <=? xrp w a); [|discriminate]. cbn [ensure rbind]. intros H. injection H as <-.
  destruct (xrp w a - v =? 0); [rewrite xrp_dec_suff|]; rewrite xrp_set; reflexivity.
Qed.
Lemma xrp_put w a v b : xrp (put w a v) b = if b =? a then xrp w a + v else xrp w b.
Proof.
  unfold put. destruct (N.eqb_spec v 0) as [->|].
  { destruct (N.eqb_spec b a) as [->|]; [lia|reflexivity]. }
  rewrite xrp_set. cbn [a_xrp]. destruct (b =? a); [reflexivity|].
  destruct (xrp w a =? 0); [|reflexivity]. unfold inc_suff. destruct (sys_of w a) as [[? ?] ?]. apply xrp_sys.
Qed.

Section chain.
  Variable base : N.
  Variable maint : N -> option N -> bool.
  Variable decode_rest : list N -> result (N * N * list N).
  Variable swap : world -> etx -> N -> result (list mv).
  Variable pot author : N.
  Notation apply_tx := (apply_tx base maint decode_rest swap pot author).
  Notation hist := (hist base maint decode_rest swap pot author).

  (** ** C192: executed at most once *)
  (** The events of the removal of [a] between two states. *)
  Definition removals (a : N) (w : world) : nat := length (List.filter (N.eqb a) (w_killed w)).

  Lemma removals_none a l k : length (List.filter (N.eqb a) (l ++ k)) = length (List.filter (N.eqb a) k) -> ~ In a l.
  Proof.
    rewrite List.filter_app, app_length. intros H Hin.
    assert (Hf : In a (List.filter (N.eqb a) l)) by (apply filter_In; split; [exact Hin|apply N.eqb_refl]).
    destruct (List.filter (N.eqb a) l); [destruct Hf|cbn in H; lia].
  Qed.

  (** While the account of the sender is not removed, a transaction that was executed cannot be in a block again. *)
  Theorem C192_once w t body gas ops body' gas' :
    snd (apply_tx w t body gas) = Executed ->
    let w' := hist ops (fst (apply_tx w t body gas)) in
    removals (e_src t) w' = removals (e_src t) w ->
    apply_tx w' t body' gas' = (w', Rejected 1).
  Proof.
    intros He w' Hr. unfold EvmTxModel.apply_tx in He, w'.
    destruct (in_block base w t) as [u|] eqn:Hb; [|discriminate]. destruct u.
    destruct (runner _ _ _ _ _ _ w t body gas) as [w1|] eqn:Er; [|discriminate]. cbn [fst] in w'.
    pose proof (runner_up _ _ _ _ _ _ _ _ _ _ _ Er) as U.
    assert (V : up (e_src t) w w').
    { eapply up_then; [exact U|apply hist_later]. }
    destruct V as (l & El & Hl).
    fold w' in El, Hl. unfold removals in Hr. rewrite El in Hr. specialize (Hl (removals_none _ _ _ Hr)).
    assert (Hn : e_nonce t = nonce w (e_src t)).
    { unfold in_block in Hb. destruct (N.eqb_spec (e_nonce t) (nonce w (e_src t))); [assumption|discriminate]. }
    unfold EvmTxModel.apply_tx, in_block. destruct (N.eqb_spec (e_nonce t) (nonce w' (e_src t))); [lia|]. reflexivity.
  Qed.

  (** An account that holds ROOT is not removed by what happens to its XRP. *)
  Theorem C192_with_root w t body gas ops body' gas' :
    (forall w t x ms a, swap w t x = Ok ms -> Forall (fun m => loses a m = false) ms) ->
    snd (apply_tx w t body gas) = Executed ->
    0 < provs w (e_src t) -> Forall (spares (e_src t)) (OTx t body gas :: ops) ->
    let w' := hist ops (fst (apply_tx w t body gas)) in
    apply_tx w' t body' gas' = (w', Rejected 1).
  Proof.
    intros Hsw He Hp Hf w'. apply C192_once; [exact He|].
    change (removals (e_src t) (hist (OTx t body gas :: ops) w) = removals (e_src t) w).
    pose proof (hist_keeps base maint decode_rest swap pot author Hsw (e_src t) _ w Hp Hf) as (_ & l & El & Hl).
    unfold removals. rewrite El, List.filter_app, app_length.
    destruct (List.filter (N.eqb (e_src t)) l) as [|x r] eqn:E; [reflexivity|].
    exfalso. assert (Hx : In x (List.filter (N.eqb (e_src t)) l)) by (rewrite E; left; reflexivity).
    apply filter_In in Hx. destruct Hx as [Hx Hx']. apply N.eqb_eq in Hx'. subst x. contradiction.
  Qed.

  (** ** C193: in a block, so paid for *)
  Lemma settle_shift b c f paid r : correct_and_deposit_fee b c f paid = Ok r ->
    exists r0, correct_and_deposit_fee 0 c f paid = Ok r0 /\
      f_ledger r = b + f_ledger r0 /\ f_pot r = f_pot r0 /\ f_tip r = f_tip r0.
  Proof.
    unfold correct_and_deposit_fee. destruct paid as [p|].
    - destruct (scale_6dp_to_wei p) as [x|]; [|discriminate]. cbn [rbind].
      destruct (scale_wei_to_6dp _) as [y|]; [|discriminate]. cbn [rbind].
      destruct (scale_wei_to_6dp (sat U128MAX f)) as [z|]; [|discriminate]. cbn [rbind].
      intros H. injection H as <-. eexists. split; [reflexivity|]. cbn. repeat split; lia.
    - intros H. injection H as <-. eexists. split; [reflexivity|]. cbn. repeat split; lia.
  Qed.

  (** A transaction to anything but the fee proxy that may be in the block, and whose sender and target are not blocked by
      maintenance, is executed: its fee is there. *)
  Theorem C193_executed w t body gas :
    in_block base w t = Ok tt -> e_to t <> Some FEE_PROXY -> maint (e_src t) (e_to t) = true ->
    xrp w (e_src t) * XRP_UNIT <= U128MAX ->
    snd (apply_tx w t body gas) = Executed.
  Proof.
    intros Hb Hto Hm Hx. unfold EvmTxModel.apply_tx. rewrite Hb.
    assert (Hbal : with_balance_for w t = balance_for w t).
    { unfold with_balance_for. destruct (e_to t) as [a|]; [|reflexivity].
      destruct (N.eqb_spec a FEE_PROXY) as [->|]; [contradiction|reflexivity]. }
    assert (Hfee : e_gas t * price base t <= xrp w (e_src t) * XRP_UNIT).
    { unfold in_block in Hb. rewrite Hbal in Hb.
      destruct (e_nonce t =? _); [|discriminate]. destruct (base <=? e_max t); [|discriminate].
      destruct (e_prio t <=? e_max t); [|discriminate]. cbn [ensure rbind] in Hb. unfold balance_for in Hb.
      destruct (N.leb_spec (sat U256MAX (e_value t + sat U256MAX (e_max t * e_gas t))) (evm_balance (xrp w (e_src t))))
        as [Hl|]; [|discriminate].
      assert (Hp : e_gas t * price base t <= e_max t * e_gas t).
      { rewrite (N.mul_comm (e_max t)). apply N.mul_le_mono_l. unfold price. lia. }
      assert (H128 : U128MAX < U256MAX) by reflexivity.
      assert (He : evm_balance (xrp w (e_src t)) <= xrp w (e_src t) * XRP_UNIT) by (unfold evm_balance, sat; lia).
      revert Hl Hp. generalize (e_max t * e_gas t) as m, (e_gas t * price base t) as f. intros m f. unfold sat. lia. }
    assert (Hrun : forall tg, exists w', evm_run base pot author w t tg body gas = Ok w').
    { intros tg. unfold evm_run. set (used := N.min gas (e_gas t)).
      assert (H256 : e_gas t * price base t <= U256MAX) by (assert (U128MAX <= U256MAX) by discriminate; lia).
      unfold chk_mul. destruct (N.leb_spec (e_gas t * price base t) U256MAX); [|lia]. cbn [of_opt rbind].
      assert (Hc : used * price base t <= e_gas t * price base t) by (apply N.mul_le_mono_r; unfold used; lia).
      assert (Hbp : base <= price base t).
      { unfold in_block in Hb. destruct (e_nonce t =? _); [|discriminate].
        destruct (N.leb_spec base (e_max t)); [|discriminate]. unfold price. lia. }
      assert (Hbf : used * base <= U128MAX).
      { etransitivity; [apply N.mul_le_mono_l; exact Hbp|]. lia. }
      destruct (charge_total (xrp w (e_src t)) (e_gas t * price base t) (used * price base t) (used * base)
        Hc Hfee Hx Hbf) as [r Hr].
      unfold charge_evm_tx in Hr. destruct (withdraw_fee _ _) as [[rest paid]|] eqn:Ew; [|discriminate].
      cbn [rbind] in Hr |- *. apply settle_shift in Hr. destruct Hr as (r0 & Hr0 & _).
      assert (Ht : exists w1, take w (e_src t) (default 0 paid) = Ok w1).
      { unfold withdraw_fee in Ew. destruct (_ =? 0); [injection Ew as <- <-; cbn; unfold take; eauto|].
        destruct (scale_wei_to_6dp _) as [v|]; [|discriminate]. cbn [rbind] in Ew.
        destruct (v <=? xrp w (e_src t)) eqn:Ev; [|discriminate]. cbn [ensure rbind] in Ew. injection Ew as <- <-. cbn.
        unfold take. destruct (v =? 0); [eauto|]. rewrite Ev. cbn [ensure rbind]. eauto. }
      destruct Ht as [w1 Ht]. rewrite Ht. cbn [rbind]. cbv zeta. fold used. rewrite Hr0. cbn [rbind]. eauto. }
    unfold runner. rewrite Hm. cbn [ensure rbind]. destruct (e_to t) as [a|].
    - destruct (N.eqb_spec a FEE_PROXY) as [->|]; [contradiction|]. destruct (Hrun (Some a)) as [w' ->]. reflexivity.
    - destruct (Hrun None) as [w' ->]. reflexivity.
  Qed.

  (** What it costs: when the code called moves no XRP, the sender pays the gas used at the price of the transaction,
      rounded down to drops, and this is what the fee pot and the author receive. *)
  Theorem C193_charge w t gas :
    snd (apply_tx w t [] gas) = Executed -> e_to t <> Some FEE_PROXY -> e_value t = 0 ->
    e_src t <> pot -> e_src t <> author -> pot <> author -> e_gas t * price base t <= U128MAX ->
    let w' := fst (apply_tx w t [] gas) in
    let cost := N.min gas (e_gas t) * price base t in
    exists net, xrp w (e_src t) = xrp w' (e_src t) + net /\
      net * XRP_UNIT <= cost < (net + 1) * XRP_UNIT /\
      xrp w' pot + xrp w' author = xrp w pot + xrp w author + net.
  Proof.
    intros He Hto Hv Hsp Hsa Hpa Hmax w' cost. unfold EvmTxModel.apply_tx in He, w'.
    destruct (in_block base w t); [|discriminate].
    destruct (runner _ _ _ _ _ _ w t [] gas) as [w1|] eqn:Er; [|discriminate]. cbn [fst] in w'. subst w'.
    assert (Hrun : exists tg, evm_run base pot author w t tg [] gas = Ok w1).
    { unfold runner in Er. destruct (maint _ _); [|discriminate]. cbn [ensure rbind] in Er.
      destruct (e_to t) as [x|]; [|eauto]. destruct (N.eqb_spec x FEE_PROXY) as [Ex|]; [subst x; contradiction|eauto]. }
    destruct Hrun as [tg Hr]. unfold evm_run in Hr. unfold chk_mul in Hr.
    destruct (_ <=? U256MAX); [|discriminate]. cbn [of_opt rbind] in Hr.
    destruct (withdraw_fee _ _) as [[rest paid]|] eqn:Ew; [|discriminate]. cbn [rbind] in Hr.
    destruct (take _ _ _) as [w2|] eqn:Et; [|discriminate]. cbn [rbind] in Hr. cbv zeta in Hr. fold cost in Hr.
    destruct (correct_and_deposit_fee 0 cost _ paid) as [f|] eqn:Ef; [|discriminate]. cbn [rbind] in Hr.
    injection Hr as Hr.
    assert (Hsent : (match tg with Some b => if e_value t =? 0 then Ok [] else
                       do! v <- scale_wei_to_6dp (e_value t); Ok [Send (e_src t) b v] | None => Ok [] end)
                    = Ok (A := list mv) []) by (rewrite Hv; destruct tg; reflexivity).
    rewrite Hsent in Hr. cbn [rbind app moves commit] in Hr. subst w1.
    pose proof (fun b => xrp_take _ _ _ _ b Et) as X. 
    set (b6 := N.min gas (e_gas t) * base) in *.
    assert (Hch : exists r, charge_evm_tx (xrp w (e_src t)) (e_gas t * price base t) cost b6 = Ok r /\
        f_ledger r = rest + f_ledger f /\ f_pot r = f_pot f /\ f_tip r = f_tip f).
    { unfold charge_evm_tx. rewrite Ew. cbn [rbind]. unfold correct_and_deposit_fee in *.
      destruct paid as [p|].
      - destruct (scale_6dp_to_wei p) as [x|]; [|discriminate]. cbn [rbind] in *.
        destruct (scale_wei_to_6dp _) as [y|]; [|discriminate]. cbn [rbind] in *.
        destruct (scale_wei_to_6dp (sat U128MAX b6)) as [z|]; [|discriminate]. cbn [rbind] in *.
        injection Ef as <-. eexists. split; [reflexivity|]. cbn. repeat split; lia.
      - injection Ef as <-. eexists. split; [reflexivity|]. cbn. repeat split; lia. }
    destruct Hch as (r & Hr & E1 & E2 & E3).
    apply charge_spec in Hr; [|unfold cost; apply N.mul_le_mono_r; lia|exact Hmax].
    destruct Hr as [Hsum Hnet]. cbv zeta in Hnet.
    assert (Hrest : rest = xrp w (e_src t) - default 0 paid).
    { unfold withdraw_fee in Ew. destruct (_ =? 0); [injection Ew as <- <-; cbn; lia|].
      destruct (scale_wei_to_6dp _) as [v|]; [|discriminate]. cbn [rbind] in Ew.
      destruct (v <=? _); [|discriminate]. cbn [ensure rbind] in Ew. injection Ew as <- <-. reflexivity. }
    exists (xrp w (e_src t) - f_ledger r). split; [|split; [exact Hnet|]].
    - rewrite !xrp_put, xrp_inc_nonce, X, N.eqb_refl.
      destruct (N.eqb_spec (e_src t) author); [congruence|]. destruct (N.eqb_spec (e_src t) pot); [congruence|]. lia.
    - rewrite !xrp_put, !xrp_inc_nonce, !X, !N.eqb_refl.
      destruct (N.eqb_spec pot author); [congruence|]. destruct (N.eqb_spec author pot); [congruence|].
      destruct (N.eqb_spec author (e_src t)); [congruence|]. destruct (N.eqb_spec pot (e_src t)); [congruence|]. lia.
  Qed.
End chain.

(** ** A chain: base fee 1500 gwei, nobody blocked, alice is 1, bob 2, carol 3. *)
Definition ex_base : N := 1500 * 10 ^ 9.
Definition ex_maint (a : N) (b : option N) : bool := true.
Definition ex_decode (i : list N) : result (N * N * list N) := Err 10.
Definition ex_swap (w : world) (t : etx) (a : N) : result (list mv) := Ok [].
Definition ex_apply := apply_tx ex_base ex_maint ex_decode ex_swap 100 101.
Definition ex_hist := hist ex_base ex_maint ex_decode ex_swap 100 101.
Definition ex_w : world := World {[ 1 := Acc (Some (0, 0, 1)) 10000000; 3 := Acc (Some (0, 0, 1)) 50000000 ]} [].
(** Alice pays bob 1 XRP; then sends all she has left, in the way a wallet offers it: balance less the highest fee. *)
Definition ex_t0 : etx := Etx 1 0 (Some 2) 21000 ex_base ex_base (10 ^ 18) [].
Definition ex_t1 : etx := Etx 1 1 (Some 3) 21000 ex_base ex_base
  (evm_balance (xrp (fst (ex_apply ex_w ex_t0 [] 21000)) 1) - 21000 * ex_base) [].

(** Sending everything away removes the account while the transaction runs, its nonce starts again at zero, and the first
    transaction, signed once, is executed again as soon as there is XRP to pay with: it has no last block. *)
Theorem C192_replay_refuted :
  let w1 := fst (ex_apply ex_w ex_t0 [] 21000) in
  let w2 := fst (ex_apply w1 ex_t1 [] 20000) in
  let w3 := ex_hist [OCall (Some 3) [Send 3 1 5000000]] w2 in
  snd (ex_apply ex_w ex_t0 [] 21000) = Executed /\ snd (ex_apply w1 ex_t1 [] 20000) = Executed /\
  nonce w1 1 = 1 /\ nonce w2 1 = 0 /\
  snd (ex_apply w3 ex_t0 [] 21000) = Executed /\
  xrp w1 2 = 1000000 /\ xrp (fst (ex_apply w3 ex_t0 [] 21000)) 2 = 2000000.
Proof. vm_compute. repeat split. Qed.

(** Without the removal: the hypotheses of [C192_once] and [C192_with_root] are met by the same payment of a holder of ROOT. *)
Definition ex_rw : world := World {[ 1 := Acc (Some (0, 1, 1)) 10000000; 3 := Acc (Some (0, 0, 1)) 50000000 ]} [].
Example C192_example :
  let w1 := fst (ex_apply ex_rw ex_t0 [] 21000) in
  let w2 := ex_hist [OTx ex_t1 [] 20000; OCall (Some 3) [Send 3 1 5000000]] w1 in
  snd (ex_apply ex_rw ex_t0 [] 21000) = Executed /\ removals 1 w2 = removals 1 ex_rw /\
  provs ex_rw 1 = 1 /\ nonce w2 1 = 2 /\ xrp w2 3 = 53937000 /\ snd (ex_apply w2 ex_t0 [] 21000) = Rejected 1.
Proof. vm_compute. repeat split. Qed.

(** ** C193: a transaction in a block for which nobody pays *)
(** Sent to the fee proxy with three bytes of input: no balance is asked for, the runner refuses the input, nothing is
    taken and the nonce stays, so the same transaction is in the block as often as a block author likes. *)
Definition ex_free : etx := Etx 9 0 (Some FEE_PROXY) 15000000 ex_base ex_base 0 [1; 2; 3].
Theorem C193_free_refuted : forall n : nat,
  let ops := repeat (OTx ex_free [] 21000) n in
  xrp ex_w 9 = 0 /\ ex_hist ops ex_w = ex_w /\ snd (ex_apply (ex_hist ops ex_w) ex_free [] 21000) = Refused 10.
Proof.
  intros n ops. assert (E : ex_hist ops ex_w = ex_w).
  { unfold ops. induction n as [|n IH]; [reflexivity|]. cbn [repeat].
    change (ex_hist (OTx ex_free [] 21000 :: repeat (OTx ex_free [] 21000) n) ex_w)
      with (ex_hist (repeat (OTx ex_free [] 21000) n) (fst (ex_apply ex_w ex_free [] 21000))).
    assert (Es : fst (ex_apply ex_w ex_free [] 21000) = ex_w) by reflexivity. rewrite Es. exact IH. }
  rewrite E. repeat split.
Qed.
(** So is a transaction of an account blocked by maintenance, to anything, as long as it shows a balance. *)
Definition blocked (a : N) (b : option N) : bool := negb (a =? 1).
Theorem C193_blocked_refuted : forall n : nat,
  let h := hist ex_base blocked ex_decode ex_swap 100 101 in
  let ops := repeat (OTx ex_t0 [] 21000) n in
  h ops ex_w = ex_w /\ snd (apply_tx ex_base blocked ex_decode ex_swap 100 101 (h ops ex_w) ex_t0 [] 21000) = Refused 11.
Proof.
  intros n h ops. assert (E : h ops ex_w = ex_w).
  { unfold ops. induction n as [|n IH]; [reflexivity|]. cbn [repeat].
    change (h (OTx ex_t0 [] 21000 :: repeat (OTx ex_t0 [] 21000) n) ex_w)
      with (h (repeat (OTx ex_t0 [] 21000) n) (fst (apply_tx ex_base blocked ex_decode ex_swap 100 101 ex_w ex_t0 [] 21000))).
    assert (Es : fst (apply_tx ex_base blocked ex_decode ex_swap 100 101 ex_w ex_t0 [] 21000) = ex_w) by reflexivity.
    rewrite Es. exact IH. }
  rewrite E. repeat split.
Qed.
Example C193_example :
  in_block ex_base ex_w ex_t0 = Ok tt /\ e_to ex_t0 <> Some FEE_PROXY /\
  xrp ex_w 1 * XRP_UNIT <= U128MAX /\ e_gas ex_t0 * price ex_base ex_t0 <= U128MAX /\
  snd (ex_apply ex_w (Etx 1 0 (Some 2) 50000 ex_base 0 0 [7]) [] 21000) = Executed /\
  xrp (fst (ex_apply ex_w (Etx 1 0 (Some 2) 50000 ex_base 0 0 [7]) [] 21000)) 1 = 10000000 - 31500.
Proof. vm_compute. repeat split; discriminate. Qed.

Definition EvmTx_assumptions :=
  (C192_once, C192_with_root, C192_replay_refuted, C192_example,
   C193_executed, C193_charge, C193_free_refuted, C193_blocked_refuted, C193_example).
Print Assumptions EvmTx_assumptions.
