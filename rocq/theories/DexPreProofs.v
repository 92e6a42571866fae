(** Proofs about the exchange's EVM contract. *)
From Verif Require Export DexPreModel Erc1155Proofs AbiProps DexClaims DexLive DexPrice.

(** ** The pallet's functions with and without their results *)
Lemma swap_legs_loop rest : forall s x am to,
  swap_loop s x rest am to = match swap_legs s x rest am to with Ok r => Ok (fst r) | Err e => Err e end.
Proof.
  induction rest as [|y rest IH]; intros s x am to; [reflexivity|]. destruct am as [|ao am]; [reflexivity|].
  cbn [swap_loop swap_legs]. destruct (swap_leg s x y ao _) as [s1|]; [|reflexivity]. cbn [rbind].
  rewrite IH. destruct (swap_legs s1 y rest am to); reflexivity.
Qed.
Lemma do_swap_supply_eq s who ai mo path to d :
  swap_with_exact_supply s who ai mo path to d =
  match do_swap_supply s who ai mo path to d with Ok r => Ok (fst (fst r)) | Err e => Err e end.
Proof.
  unfold swap_with_exact_supply, do_swap_supply. destruct (ensure (deadline_ok s d) 21); [|reflexivity]. cbn [rbind].
  destruct (get_amounts_out s ai path) as [am|]; [|reflexivity]. cbn [rbind]. destruct (ensure _ 22); [|reflexivity]. cbn [rbind].
  destruct path as [|x [|y rest]]; try reflexivity. destruct am as [|m0 am]; [reflexivity|].
  destruct (transfer _ _ _ _ _) as [l|]; [|reflexivity]. cbn [rbind]. rewrite swap_legs_loop.
  destruct (swap_legs _ _ _ _ _); reflexivity.
Qed.
Lemma do_swap_target_eq s who ao mi path to d :
  swap_with_exact_target s who ao mi path to d =
  match do_swap_target s who ao mi path to d with Ok r => Ok (fst (fst r)) | Err e => Err e end.
Proof.
  unfold swap_with_exact_target, do_swap_target. destruct (ensure (deadline_ok s d) 21); [|reflexivity]. cbn [rbind].
  destruct (get_amounts_in s ao path) as [am|]; [|reflexivity]. cbn [rbind].
  destruct path as [|x [|y rest]]; try reflexivity. destruct am as [|m0 am]; [reflexivity|].
  destruct (ensure _ 23); [|reflexivity]. cbn [rbind].
  destruct (transfer _ _ _ _ _) as [l|]; [|reflexivity]. cbn [rbind]. rewrite swap_legs_loop.
  destruct (swap_legs _ _ _ _ _); reflexivity.
Qed.
Lemma do_swap_supply_inv s who ai mo path to d s' am legs :
  do_swap_supply s who ai mo path to d = Ok (s', am, legs) ->
  swap_with_exact_supply s who ai mo path to d = Ok s' /\ get_amounts_out s ai path = Ok am.
Proof.
  intros H. split; [rewrite do_swap_supply_eq, H; reflexivity|].
  unfold do_swap_supply in H. destruct (ensure (deadline_ok s d) 21); [|discriminate]. cbn [rbind] in H.
  destruct (get_amounts_out s ai path) as [am'|]; [|discriminate]. cbn [rbind] in H.
  destruct (ensure _ 22); [|discriminate]. cbn [rbind] in H.
  destruct path as [|x [|y rest]]; try discriminate. destruct am' as [|m0 am']; [discriminate|].
  inv_ok. injection H as _ H _. congruence.
Qed.
Lemma do_swap_target_inv s who ao mi path to d s' am legs :
  do_swap_target s who ao mi path to d = Ok (s', am, legs) ->
  swap_with_exact_target s who ao mi path to d = Ok s' /\ get_amounts_in s ao path = Ok am.
Proof.
  intros H. split; [rewrite do_swap_target_eq, H; reflexivity|].
  unfold do_swap_target in H. destruct (ensure (deadline_ok s d) 21); [|discriminate]. cbn [rbind] in H.
  destruct (get_amounts_in s ao path) as [am'|]; [|discriminate]. cbn [rbind] in H.
  destruct path as [|x [|y rest]]; try discriminate. destruct am' as [|m0 am']; [discriminate|].
  inv_ok. injection H as _ H _. congruence.
Qed.

(** ** Every call of the contract is made of operations of the exchange *)
Definition ordinary (a : N) : Prop := acct_of a = AUser a.
(** The operations that [caller] may sign. *)
Definition signed_by (caller : N) (o : op) : Prop :=
  match o with
  | OSwapSupply w _ _ _ _ _ | OSwapTarget w _ _ _ _ _ | OAdd w _ _ _ _ _ _ _ _ | ORemove w _ _ _ _ _ _ _
  | OTransfer w _ _ _ => w = caller
  | _ => False
  end.
Lemma sell_ops s caller ai mo path to d s' o : ordinary caller -> x_sell s caller ai mo path to d = Ok (s', o) ->
  exists op, signed_by caller op /\ d_dex s' = step (d_dex s) op.
Proof.
  intros Hc H. unfold x_sell in H. rewrite Hc in H. inv_ok. destruct v3 as [[s1 am] legs].
  match goal with E : do_swap_supply _ _ _ _ _ _ _ = Ok _ |- _ => apply do_swap_supply_inv in E; destruct E as [E _]; rename E into Esw end.
  unfold swap_answer in H. injection H as <- <-. eexists (OSwapSupply caller _ _ _ _ _). split; [reflexivity|].
  cbn [step d_dex]. rewrite Esw. reflexivity.
Qed.
Lemma buy_ops s caller ao mi path to d s' o : ordinary caller -> x_buy s caller ao mi path to d = Ok (s', o) ->
  exists op, signed_by caller op /\ d_dex s' = step (d_dex s) op.
Proof.
  intros Hc H. unfold x_buy in H. rewrite Hc in H. inv_ok. destruct v3 as [[s1 am] legs].
  match goal with E : do_swap_target _ _ _ _ _ _ _ = Ok _ |- _ => apply do_swap_target_inv in E; destruct E as [E _]; rename E into Esw end.
  unfold swap_answer in H. injection H as <- <-. eexists (OSwapTarget caller _ _ _ _ _). split; [reflexivity|].
  cbn [step d_dex]. rewrite Esw. reflexivity.
Qed.
Lemma add_ops s caller a b da db ma mb to d s' o : ordinary caller -> x_do_add s caller a b da db ma mb to d = Ok (s', o) ->
  exists op, signed_by caller op /\ d_dex s' = step (d_dex s) op.
Proof.
  intros Hc H. unfold x_do_add, do_add in H. rewrite Hc in H. inv_ok.
  match goal with E : add_liquidity _ _ _ _ _ _ _ _ _ _ = Ok ?r |- _ => destruct r as [s1 [[x0 x1] lq]]; rename E into Esw end.
  inv_ok. subst. destruct (caller_order a b x0 x1) as [y0 y1]. injection H as <- <-.
  eexists (OAdd caller _ _ _ _ _ _ _ _). split; [reflexivity|]. cbn [step d_dex]. rewrite Esw. reflexivity.
Qed.
Lemma remove_ops s caller a b lq ma mb to d s' o : ordinary caller -> x_do_remove s caller a b lq ma mb to d = Ok (s', o) ->
  exists op, signed_by caller op /\ d_dex s' = step (d_dex s) op.
Proof.
  intros Hc H. unfold x_do_remove, do_remove in H. rewrite Hc in H. inv_ok.
  match goal with E : remove_liquidity _ _ _ _ _ _ _ _ _ = Ok ?r |- _ => destruct r as [s1 [x0 x1]]; rename E into Esw end.
  inv_ok. subst. destruct (caller_order a b x0 x1) as [y0 y1]. injection H as <- <-.
  eexists (ORemove caller _ _ _ _ _ _ _). split; [reflexivity|]. cbn [step d_dex]. rewrite Esw. reflexivity.
Qed.
Lemma dispatch_ops sel s caller value call s' o : ordinary caller ->
  x_dispatch sel s caller value call = Ok (s', o) ->
  s' = s \/ (x_non_payable sel || x_payable sel = true /\ exists op, signed_by caller op /\ d_dex s' = step (d_dex s) op).
Proof.
  intros Hc H. unfold x_dispatch in H.
  repeat match type of H with
  | (if ?b then _ else _) = Ok _ => let E := fresh "E" in destruct b eqn:E; [|clear E]
  end; try discriminate H;
  match goal with E : (sel =? _) = true |- _ => apply N.eqb_eq in E; subst sel end;
  cbn [x_non_payable x_payable];
  try (unfold x_quote, x_amount, x_amounts in H; isargs H; inv_ok; injection H as <- _; left; reflexivity);
  right; (split; [reflexivity|]);
  match type of H with ?f _ _ _ = _ => unfold f in H | ?f _ _ _ _ = _ => unfold f in H end; isargs H; inv_ok;
  eauto using sell_ops, buy_ops, add_ops, remove_ops.
Qed.
Lemma call_ops s caller st value call s' o : ordinary caller -> x_call s caller st value call = Ok (s', o) ->
  exists ops, Forall (signed_by caller) ops /\ d_dex s' = run step ops (d_dex s).
Proof.
  intros Hc H. unfold x_call, evm_transfer in H. rewrite Hc in H. apply rbind_ok in H. destruct H as (l & Hl & H).
  assert (Hp : exists ops, Forall (signed_by caller) ops /\ set_lg (d_dex s) l = run step ops (d_dex s)).
  { destruct (value =? 0).
    - injection Hl as <-. exists []. split; [constructor|]. destruct (d_dex s). reflexivity.
    - inv_ok. eexists [OTransfer caller GAS _ _]. split; [repeat constructor|]. cbn [run fold_left step]. rewrite Hl. reflexivity. }
  destruct Hp as (ops & Hf & Hr). unfold x_execute in H. inv_ok.
  destruct (dispatch_ops _ _ _ _ _ _ _ Hc H) as [->|(_ & o1 & H1 & H2)].
  - exists ops. auto.
  - exists (ops ++ [o1]). split; [apply Forall_app; auto|]. rewrite run_app, <- Hr. cbn [run fold_left]. exact H2.
Qed.
Definition fair_op (o : xop) : Prop := match o with XDex _ => True | XCall caller _ _ _ => ordinary caller end.
Lemma xrun_ops ops : forall s, Forall fair_op ops -> exists l, d_dex (run xstep ops s) = run step l (d_dex s).
Proof.
  induction ops as [|o ops IH]; intros s Hf; cbn [run fold_left]; [exists []; reflexivity|].
  inversion_clear Hf as [|? ? Ho Hf']. destruct (IH (xstep s o) Hf') as [l Hl]. unfold run in Hl. 
  assert (Hs : exists k, d_dex (xstep s o) = run step k (d_dex s)).
  { destruct o as [o|caller st v call]; cbn [xstep d_dex]; [exists [o]; reflexivity|].
    destruct (x_call s caller st v call) as [[s' out]|] eqn:E; [|exists []; reflexivity].
    destruct (call_ops _ _ _ _ _ _ _ Ho E) as (k & _ & Hk). eauto. }
  destruct Hs as [k Hk]. exists (k ++ l). rewrite run_app, <- Hk. unfold run in *. exact Hl.
Qed.

(** ** One hop *)
Lemma leg_moves s x y ao dest s1 : DexInv s -> swap_leg s x y ao dest = Ok s1 ->
  x <> y /\ frame_eq s s1 /\ (forall q, q <> pair_of x y -> reserves s1 q = reserves s q) /\
  (forall t, feeto s = None \/ lp s !! pair_of x y <> Some t -> issuance (lg s1) t = issuance (lg s) t) /\
  (forall t z, feeto s <> Some z \/ lp s !! pair_of x y <> Some t ->
     balance (lg s1) t z + (if decide ((y, pool_addr (pair_of x y)) = (t, z)) then ao else 0)
     = balance (lg s) t z + (if decide ((y, dest) = (t, z)) then ao else 0)) /\
  (forall t z, z <> pool_addr (pair_of x y) ->
     balance (lg s) t z + (if decide ((y, dest) = (t, z)) then ao else 0) <= balance (lg s1) t z).
Proof.
  intros Hi H. destruct (swap_leg_spec _ _ _ _ _ _ H (di_books s Hi)) as [l2 He].
  destruct He as [Hne Hf Ht Hao Hb Hk Hr Hres Hled].
  split; [exact Hne|]. split; [exact Hf|]. split.
  { intros q Hq. rewrite Hres. destruct (decide _); [congruence|reflexivity]. }
  pose proof (transfer_spec _ _ _ _ _ _ Ht) as (_ & _ & Hb2).
  pose proof (fun t => transfer_issuance _ _ _ _ _ _ t Ht) as Hi2.
  destruct (feeto s) as [f|].
  - destruct Hled as (i & Hlp & [[_ ->]|Hm] & _).
    + split; [intros; apply Hi2|]. split; [intros t z _; apply Hb2|]. intros t z Hz. specialize (Hb2 t z).
      destruct (decide ((y, pool_addr (pair_of x y)) = (t, z))); [congruence|]. lia.
    + apply mint_spec in Hm. destruct Hm as (_ & M1 & M2 & _). split; [|split].
      * intros t [Hn|Hn]; [discriminate|]. rewrite M1, Hi2. destruct (N.eqb_spec i t); [congruence|lia].
      * intros t z Hn. specialize (Hb2 t z). rewrite M2.
        destruct (decide ((i, f) = (t, z))) as [E|_]; [|lia].
        injection E as -> ->. destruct Hn as [Hn|Hn]; congruence.
      * intros t z Hz. specialize (Hb2 t z). rewrite M2.
        destruct (decide ((y, pool_addr (pair_of x y)) = (t, z))); [congruence|].
        destruct (decide ((i, f) = (t, z))); lia.
  - destruct Hled as [-> _]. split; [intros; apply Hi2|]. split; [intros t z _; apply Hb2|]. intros t z Hz. specialize (Hb2 t z).
    destruct (decide ((y, pool_addr (pair_of x y)) = (t, z))); [congruence|]. lia.
Qed.

(** ** A quoted trade goes through *)
Fixpoint fair_chain (s : dex) (cur x : N) (rest am : list N) : Prop :=
  match rest, am with
  | [], [] => True
  | y :: r, ao :: am' =>
      x <> y /\ 0 < cur /\ lp s !! pair_of x y <> None /\
      leg_fair (reserve_of s x y) (reserve_of s y x) cur ao /\ fair_chain s ao y r am'
  | _, _ => False
  end.
Lemma reserve_same s s' x y : reserves s' (pair_of x y) = reserves s (pair_of x y) ->
  reserve_of s' x y = reserve_of s x y /\ reserve_of s' y x = reserve_of s y x.
Proof.
  intros H. unfold reserve_of, pair_of in *. destruct (N.ltb_spec y x), (N.ltb_spec x y); try lia; rewrite ?H; auto.
  assert (x = y) by lia. subst. rewrite H. auto.
Qed.
Lemma fair_chain_same s s' rest : forall cur x am, lp s' = lp s ->
  (forall q, In q (hops x rest) -> reserves s' q = reserves s q) -> fair_chain s cur x rest am -> fair_chain s' cur x rest am.
Proof.
  induction rest as [|y r IH]; intros cur x am Hl Hq H; destruct am as [|ao am]; cbn [fair_chain hops] in *; auto.
  destruct H as (H1 & H2 & H3 & H4 & H5). destruct (reserve_same s s' x y) as [E1 E2]; [apply Hq; left; reflexivity|].
  rewrite Hl, E1, E2. repeat split; auto; try apply H4. apply IH; auto. intros q Hin. apply Hq. right. exact Hin.
Qed.
(** Room for the arithmetic at every pool of a path. *)
Fixpoint roomy_path (s : dex) (x : N) (rest : list N) : Prop :=
  match rest with [] => True | y :: r => roomy s x y /\ roomy_path s y r end.
Definition plain (s : dex) (x : N) (rest : list N) : Prop :=
  feeto s = None \/ forall t, In t (x :: rest) -> forall p, lp s !! p <> Some t.
Lemma roomy_same s s' rest : forall x, lp s' = lp s ->
  (forall t, In t (x :: rest) -> issuance (lg s') t = issuance (lg s) t) ->
  (forall q j, In q (hops x rest) -> lp s !! q = Some j -> issuance (lg s') j = issuance (lg s) j) ->
  roomy_path s x rest -> roomy_path s' x rest.
Proof.
  induction rest as [|y r IH]; intros x Hl Ht Hj H; cbn [roomy_path hops] in *; auto.
  destruct H as [(H1 & H2 & H3) H4]. split.
  - unfold roomy. rewrite Hl. rewrite (Ht x), (Ht y) by (cbn; auto). repeat split; auto. intros j E.
    rewrite (Hj (pair_of x y) j) by (cbn; auto). auto.
  - apply IH; auto; intros; [apply Ht|eapply Hj]; cbn in *; eauto.
Qed.
Lemma loop_can rest : forall s x cur am to, DexInv s -> fair_chain s cur x rest am -> NoDup (hops x rest) ->
  roomy_path s x rest -> plain s x rest ->
  match rest with [] => True | y :: _ => reserve_of s x y + cur <= balance (lg s) x (pool_addr (pair_of x y)) end ->
  exists r, swap_legs s x rest am to = Ok r.
Proof.
  induction rest as [|y rest IH]; intros s x cur am to Hi Hf Hn Hr Hp Hb; [cbn; destruct am; eauto|].
  destruct am as [|ao am]; [contradiction|]. cbn [fair_chain hops roomy_path swap_legs] in *.
  destruct Hf as (Hne & Hc & Hlp & Hfair & Hf). apply NoDup_cons in Hn. destruct Hn as [Hn1 Hn2]. destruct Hr as [(R1 & R2 & R3) Hr].
  destruct (lp s !! pair_of x y) as [j|] eqn:Ej; [|congruence].
  set (dest := match rest with z :: _ => pool_addr (pair_of y z) | [] => to end).
  destruct (swap_leg_ok s x y cur ao (reserve_of s x y) (reserve_of s y x) dest j) as [s1 Hs1]; auto.
  { apply get_liquidity_of. exact Hne. }
  rewrite Hs1. cbn [rbind].
  destruct (leg_moves _ _ _ _ _ _ Hi Hs1) as (_ & (Fl & _ & Ff & _) & Hres & Hiss & _ & Hmono).
  destruct (IH s1 y ao am to) as [r Hr1].
  - eapply inv_leg; eassumption.
  - apply (fair_chain_same s); auto. intros q Hq. apply Hres. intros ->. apply Hn1. apply elem_of_list_In. exact Hq.
  - exact Hn2.
  - apply (roomy_same s); auto.
    + intros t Ht. apply Hiss. destruct Hp as [Hp|Hp]; [left; exact Hp|right; apply Hp; right; exact Ht].
    + intros q k Hq Hk. apply Hiss. right. intros E. apply Hn1. apply elem_of_list_In.
      rewrite (di_inj s Hi (pair_of x y) q k) by congruence. exact Hq.
  - unfold plain. rewrite Ff, Fl. destruct Hp as [Hp|Hp]; [left; exact Hp|right]. intros t Ht. apply Hp. right. exact Ht.
  - destruct rest as [|z rest]; [exact I|]. cbn [hops] in Hn1.
    assert (Hq : pair_of y z <> pair_of x y) by (intros E; apply Hn1; rewrite E; left).
    destruct (reserve_same s s1 y z (Hres _ Hq)) as [E1 _]. rewrite E1.
    assert (Hpd : pool_addr (pair_of y z) <> pool_addr (pair_of x y)).
    { intros E. apply Hq. unfold pool_addr in E. injection E as E3 E2. destruct (pair_of y z), (pair_of x y). cbn in *. congruence. }
    specialize (Hmono y (pool_addr (pair_of y z)) Hpd). unfold dest in Hmono.
    destruct (decide ((y, pool_addr (pair_of y z)) = (y, pool_addr (pair_of y z)))); [|congruence].
    destruct am as [|a2 am]; [contradiction|]. cbn [fair_chain] in Hf. destruct Hf as (Hyz & _).
    destruct (liquidity_backed s y z _ _ Hi (get_liquidity_of s y z Hyz) Hyz) as [Hbk _]. lia.
  - rewrite Hr1. cbn [rbind]. eauto.
Qed.
Lemma out_fair s rest : DexInv s -> forall cur x l, amounts_out_loop s cur x rest = Ok l -> fair_chain s cur x rest l.
Proof.
  intros Hi. induction rest as [|y rest IH]; intros cur x l H; cbn [amounts_out_loop] in H; [injection H as <-; exact I|].
  destruct (get_liquidity s x y) as [rin rout] eqn:El. inv_ok. subst l. cbn [fair_chain].
  match goal with E : get_amount_out _ _ _ = Ok ?a |- _ => rename E into Hg; rename a into ao end.
  assert (H0 : 0 < cur /\ 0 < rin /\ 0 < rout) by (unfold get_amount_out in Hg; inv_ok; lia).
  pose proof (quote_distinct s x y rin rout Hi El ltac:(lia)) as Hne.
  pose proof El as El'. rewrite (get_liquidity_of s x y Hne) in El'. injection El' as <- <-.
  destruct (lp_of_liquidity _ _ _ _ _ Hi El ltac:(lia)) as [j Hj].
  split; [exact Hne|]. split; [lia|]. split; [congruence|]. split; [|apply IH; assumption].
  apply supply_fair; [exact Hg|lia|apply reserve_of_128; auto].
Qed.
Lemma in_fair s rest : DexInv s -> forall tgt x a0 l, amounts_in_loop s tgt x rest = Ok (a0 :: l) -> a0 < U128MAX -> fair_chain s a0 x rest l.
Proof.
  intros Hi. induction rest as [|y rest IH]; intros tgt x a0 l H Hlt; cbn [amounts_in_loop] in H; [injection H as _ <-; exact I|].
  apply rbind_ok in H. destruct H as (l' & Hl' & H). destruct l' as [|o l']; [discriminate|].
  destruct (get_liquidity s x y) as [rin rout] eqn:El. inv_ok. injection H as -> <-. cbn [fair_chain].
  match goal with E : get_amount_in _ _ _ = Ok _ |- _ => rename E into Hg end.
  assert (H0 : 0 < rin /\ 0 < rout /\ o < rout).
  { pose proof (target_fair _ _ _ _ Hg Hlt) as (_ & F & _). lia. }
  pose proof (quote_distinct s x y rin rout Hi El ltac:(lia)) as Hne.
  pose proof El as El'. rewrite (get_liquidity_of s x y Hne) in El'. injection El' as <- <-.
  destruct (lp_of_liquidity _ _ _ _ _ Hi El ltac:(lia)) as [j Hj].
  split; [exact Hne|]. split; [lia|]. split; [congruence|]. split.
  - apply target_fair; assumption.
  - apply (IH tgt); [exact Hl'|]. pose proof (reserve_of_128 s y x Hi ltac:(auto)). lia.
Qed.

(** ** The amounts reported for each hop *)
(** Nothing but the reserves of the two assets sits in the pool. *)
Definition tidy (s : dex) (p : N * N) : Prop :=
  balance (lg s) (fst p) (pool_addr p) = fst (reserves s p) /\ balance (lg s) (snd p) (pool_addr p) = snd (reserves s p).
Fixpoint hop_amounts (x : N) (rest am : list N) (cur : N) : list (N * N * N * N) :=
  match rest, am with
  | y :: r, ao :: am' => (if x <? y then (cur, 0, 0, ao) else (0, cur, ao, 0)) :: hop_amounts y r am' ao
  | _, _ => []
  end.
Definition fee_to_no_pool (s : dex) : Prop := forall f, feeto s = Some f -> not_pool f.
Lemma tidy_of s x y : x <> y -> tidy s (pair_of x y) ->
  balance (lg s) x (pool_addr (pair_of x y)) = reserve_of s x y /\ balance (lg s) y (pool_addr (pair_of x y)) = reserve_of s y x.
Proof.
  intros Hne [H1 H2]. destruct (reserve_side s x y Hne) as [R0 R1].
  destruct (side_cases x y Hne) as [(F0 & F1 & _)|(F0 & F1 & _)]; rewrite F0, F1 in *.
  - destruct (R0 eq_refl) as [-> ->]. auto.
  - destruct (R1 eq_refl) as [-> ->]. auto.
Qed.
Lemma leg_amounts_exact s x y ao dest s1 cur : DexInv s -> swap_leg s x y ao dest = Ok s1 ->
  dest <> pool_addr (pair_of x y) ->
  balance (lg s) x (pool_addr (pair_of x y)) = reserve_of s x y + cur ->
  balance (lg s) y (pool_addr (pair_of x y)) = reserve_of s y x ->
  leg_amounts s s1 x y ao = if x <? y then (cur, 0, 0, ao) else (0, cur, ao, 0).
Proof.
  intros Hi H Hd Bx By. destruct (swap_leg_spec _ _ _ _ _ _ H (di_books s Hi)) as [l2 He].
  destruct He as [Hne _ Ht Hao _ _ _ Hres _]. pose proof (Hres (pair_of x y)) as Hr.
  destruct (decide (pair_of x y = pair_of x y)); [|congruence].
  pose proof (transfer_spec _ _ _ _ _ _ Ht) as (Hle & _ & Hb2).
  pose proof (Hb2 x (pool_addr (pair_of x y))) as X. pose proof (Hb2 y (pool_addr (pair_of x y))) as Y.
  destruct (decide ((y, pool_addr (pair_of x y)) = (x, pool_addr (pair_of x y)))); [congruence|].
  destruct (decide ((y, dest) = (x, pool_addr (pair_of x y)))); [congruence|].
  destruct (decide ((y, pool_addr (pair_of x y)) = (y, pool_addr (pair_of x y)))); [|congruence].
  destruct (decide ((y, dest) = (y, pool_addr (pair_of x y)))); [congruence|].
  destruct (reserve_side s x y Hne) as [R0 R1].
  unfold leg_amounts. rewrite Hr. unfold surplus. unfold pair_of in *.
  destruct (N.ltb_spec y x), (N.ltb_spec x y); try lia; cbn [fst snd] in *.
  - destruct (R1 eq_refl) as [E1 E2]. rewrite <- E1, <- E2. destruct (N.eqb_spec x y); [congruence|].
    destruct (N.ltb_spec (reserve_of s y x - ao) (balance l2 y (pool_addr (y, x)))); [lia|].
    destruct (N.ltb_spec (reserve_of s x y - 0) (balance l2 x (pool_addr (y, x)))); f_equal; f_equal; f_equal; lia.
  - destruct (R0 eq_refl) as [E1 E2]. rewrite <- E1, <- E2, N.eqb_refl.
    destruct (N.ltb_spec (reserve_of s y x - ao) (balance l2 y (pool_addr (x, y)))); [lia|].
    destruct (N.ltb_spec (reserve_of s x y - 0) (balance l2 x (pool_addr (x, y)))); f_equal; f_equal; f_equal; lia.
Qed.
Lemma pool_addr_inj p q : pool_addr p = pool_addr q -> p = q.
Proof. destruct p, q. unfold pool_addr. cbn. congruence. Qed.
Lemma legs_exact rest : forall s x cur am to s' legs, DexInv s -> swap_legs s x rest am to = Ok (s', legs) ->
  NoDup (hops x rest) -> not_pool to -> fee_to_no_pool s ->
  match rest with [] => True | y :: r =>
    balance (lg s) x (pool_addr (pair_of x y)) = reserve_of s x y + cur /\
    balance (lg s) y (pool_addr (pair_of x y)) = reserve_of s y x /\ Forall (tidy s) (hops y r) end ->
  legs = hop_amounts x rest am cur.
Proof.
  induction rest as [|y rest IH]; intros s x cur am to s' legs Hi H Hn Hto Hfee Hb; [injection H as _ <-; destruct am; reflexivity|].
  destruct am as [|ao am]; [injection H as _ <-; reflexivity|]. cbn [hops swap_legs hop_amounts] in *.
  apply rbind_ok in H. destruct H as (s1 & Hs1 & H). apply rbind_ok in H. destruct H as ([s2 legs'] & Hr & H). cbn [fst snd] in H.
  injection H as _ <-. destruct Hb as (Bx & By & Ht). apply NoDup_cons in Hn. destruct Hn as [Hn1 Hn2].
  destruct (leg_moves _ _ _ _ _ _ Hi Hs1) as (Hne & (Fl & _ & Ff & _) & Hres & _ & Hbal & _).
  f_equal.
  - eapply leg_amounts_exact; [exact Hi|exact Hs1| |exact Bx|exact By].
    destruct rest as [|z rest]; [apply Hto|]. intros E. apply pool_addr_inj in E. apply Hn1. cbn [hops]. rewrite E. left.
  - pose proof (inv_leg _ _ _ _ _ _ Hi Hs1) as Hi1. destruct rest as [|z rest]; [injection Hr as _ <-; destruct am; reflexivity|].
    destruct am as [|a2 am]; [injection Hr as _ <-; reflexivity|].
    assert (Hyz : y <> z).
    { pose proof Hr as Hr'. cbn [swap_legs] in Hr'. apply rbind_ok in Hr'. destruct Hr' as (s3 & Hs3 & _). apply (leg_moves _ _ _ _ _ _ Hi1 Hs3). }
    eapply (IH s1); [exact Hi1|exact Hr|exact Hn2|exact Hto|unfold fee_to_no_pool; rewrite Ff; exact Hfee|].
    assert (Hpool : forall t q, In q (hops y (z :: rest)) ->
       balance (lg s1) t (pool_addr q) = balance (lg s) t (pool_addr q) + (if decide ((y, pool_addr (pair_of y z)) = (t, pool_addr q)) then ao else 0)).
    { intros t q Hq. rewrite <- (Hbal t (pool_addr q)).
      - destruct (decide ((y, pool_addr (pair_of x y)) = (t, pool_addr q))) as [E|_]; [|lia].
        injection E as _ E. exfalso. apply Hn1. apply elem_of_list_In.
        rewrite (pool_addr_inj (pair_of x y) q); [exact Hq|]. unfold pool_addr. congruence.
      - left. intros E. exact (Hfee _ E _ _ eq_refl). }
    cbn [hops] in Ht. apply Forall_cons in Ht. destruct Ht as [Ht1 Ht2].
    assert (Hq : pair_of y z <> pair_of x y) by (intros E; apply Hn1; cbn [hops]; rewrite E; left).
    destruct (reserve_same s s1 y z (Hres _ Hq)) as [E1 E2]. rewrite E1, E2.
    rewrite !Hpool by (left; reflexivity). destruct (tidy_of s y z Hyz Ht1) as [T1 T2].
    destruct (decide ((y, pool_addr (pair_of y z)) = (y, pool_addr (pair_of y z)))); [|congruence].
    destruct (decide ((y, pool_addr (pair_of y z)) = (z, pool_addr (pair_of y z)))); [congruence|].
    split; [lia|]. split; [lia|]. cbn [hops] in Hn2. apply NoDup_cons in Hn2. destruct Hn2 as [Hn3 _].
    rewrite Forall_forall in Ht2 |- *. intros q Hq2. specialize (Ht2 q Hq2). unfold tidy in *.
    assert (Hqi : In q (hops y (z :: rest))) by (right; apply elem_of_list_In; exact Hq2).
    rewrite !Hpool by exact Hqi. rewrite Hres.
    + destruct (decide ((y, pool_addr (pair_of y z)) = (fst q, pool_addr q))) as [E|_].
      { injection E as _ E3 E4. exfalso. apply Hn3. rewrite (pool_addr_inj (pair_of y z) q); [exact Hq2|]. unfold pool_addr. congruence. }
      destruct (decide ((y, pool_addr (pair_of y z)) = (snd q, pool_addr q))) as [E|_].
      { injection E as _ E3 E4. exfalso. apply Hn3. rewrite (pool_addr_inj (pair_of y z) q); [exact Hq2|]. unfold pool_addr. congruence. }
      lia.
    + intros ->. apply Hn1. apply elem_of_list_In. exact Hqi.
Qed.

(** ** Whole trades *)
Lemma paid_pool s x y w v l : DexInv s -> x <> y -> transfer (lg s) x (AUser w) (pool_addr (pair_of x y)) v = Ok l ->
  forall t q, balance l t (pool_addr q) = balance (lg s) t (pool_addr q) + (if decide ((x, pool_addr (pair_of x y)) = (t, pool_addr q)) then v else 0).
Proof.
  intros Hi Hne Ht t q. pose proof (transfer_spec _ _ _ _ _ _ Ht) as (_ & _ & Hb). specialize (Hb t (pool_addr q)).
  destruct (decide ((x, AUser w) = (t, pool_addr q))); [discriminate|]. lia.
Qed.
Lemma legs_can s w x y rest a0 ar to : DexInv s -> fair_chain s a0 x (y :: rest) ar -> a0 <= balance (lg s) x (AUser w) ->
  NoDup (hops x (y :: rest)) -> roomy_path s x (y :: rest) -> plain s x (y :: rest) ->
  exists l r, transfer (lg s) x (AUser w) (pool_addr (pair_of x y)) a0 = Ok l /\ swap_legs (set_lg s l) x (y :: rest) ar to = Ok r.
Proof.
  intros Hi Hf Hb Hn Hr Hp.
  destruct (transfer_ok (lg s) x (AUser w) (pool_addr (pair_of x y)) a0 (di_books s Hi) Hb) as [l Ht].
  assert (Hne : x <> y) by (destruct ar; [contradiction|apply Hf]).
  destruct (loop_can (y :: rest) (set_lg s l) x a0 ar to) as [r Hr1].
  - eapply inv_transfer; eassumption.
  - apply (fair_chain_same s); auto.
  - exact Hn.
  - apply (roomy_same s); auto; intros; cbn [lg set_lg]; eapply transfer_issuance; eassumption.
  - exact Hp.
  - change (reserve_of (set_lg s l) x y) with (reserve_of s x y). cbn [lg set_lg].
    rewrite (paid_pool s x y w a0 l Hi Hne Ht). destruct (decide ((x, pool_addr (pair_of x y)) = (x, pool_addr (pair_of x y)))); [|congruence].
    destruct (liquidity_backed s x y _ _ Hi (get_liquidity_of s x y Hne) Hne) as [Hbk _]. lia.
  - exists l, r. auto.
Qed.
Lemma sell_can s w ai mo path to d am : DexInv s -> get_amounts_out s ai path = Ok am -> mo <= List.last am 0 ->
  deadline_ok s d = true -> ai <= balance (lg s) (hd 0 path) (AUser w) -> NoDup (hops (hd 0 path) (tl path)) ->
  roomy_path s (hd 0 path) (tl path) -> plain s (hd 0 path) (tl path) ->
  exists s' legs, do_swap_supply s (AUser w) ai mo path to d = Ok (s', am, legs).
Proof.
  intros Hi Hq Hmo Hd Hb Hn Hr Hp. unfold do_swap_supply. rewrite Hd, Hq. cbn [ensure rbind].
  rewrite (proj2 (N.leb_le _ _)) by exact Hmo. cbn [ensure rbind].
  unfold get_amounts_out in Hq. unfold ensure in Hq. destruct (path_ok s path) eqn:Ep; cbn [rbind] in Hq; [|discriminate].
  destruct path as [|x [|y rest]]; [discriminate|discriminate|]. cbn [hd tl] in *.
  apply rbind_ok in Hq. destruct Hq as (ar & Ha & Hq). injection Hq as <-.
  destruct (legs_can s w x y rest ai ar to) as (l & r & -> & Hl); auto.
  { apply out_fair; assumption. }
  cbn [rbind]. rewrite Hl. cbn [rbind]. eauto.
Qed.
Lemma buy_can s w ao mi path to d am : DexInv s -> get_amounts_in s ao path = Ok am -> hd 0 am <= mi ->
  deadline_ok s d = true -> hd 0 am <= balance (lg s) (hd 0 path) (AUser w) -> NoDup (hops (hd 0 path) (tl path)) ->
  roomy_path s (hd 0 path) (tl path) -> plain s (hd 0 path) (tl path) ->
  exists s' legs, do_swap_target s (AUser w) ao mi path to d = Ok (s', am, legs).
Proof.
  intros Hi Hq Hmo Hd Hb Hn Hr Hp. unfold do_swap_target. rewrite Hd, Hq. cbn [ensure rbind].
  unfold get_amounts_in in Hq. unfold ensure in Hq. destruct (path_ok s path) eqn:Ep; cbn [rbind] in Hq; [|discriminate].
  destruct path as [|x [|y rest]]; [discriminate|discriminate|]. cbn [hd tl] in *.
  pose proof Hq as Hq'. cbn [amounts_in_loop] in Hq. apply rbind_ok in Hq. destruct Hq as (l' & _ & Hq).
  destruct l' as [|o l']; [discriminate|]. destruct (get_liquidity s x y) as [rin rout] eqn:El. inv_ok. subst am. cbn [hd] in *.
  rewrite (proj2 (N.leb_le _ _)) by exact Hmo. cbn [ensure rbind].
  match goal with E : get_amount_in _ _ _ = Ok ?a |- _ => rename a into a0 end.
  destruct (legs_can s w x y rest a0 (o :: l') to) as (l & r & -> & Hl); auto.
  { apply (in_fair s (y :: rest) Hi ao); [exact Hq'|].
    eapply payable_unsaturated; [exact Hi|exact El|eapply quote_distinct; [exact Hi|exact El|lia]|lia|exact Hb]. }
  cbn [rbind]. rewrite Hl. cbn [rbind]. eauto.
Qed.
Lemma legs_report s w x y rest a0 ar to l s' legs : DexInv s ->
  transfer (lg s) x (AUser w) (pool_addr (pair_of x y)) a0 = Ok l -> swap_legs (set_lg s l) x (y :: rest) ar to = Ok (s', legs) ->
  NoDup (hops x (y :: rest)) -> not_pool to -> fee_to_no_pool s -> Forall (tidy s) (hops x (y :: rest)) ->
  legs = hop_amounts x (y :: rest) ar a0.
Proof.
  intros Hi Ht Hs Hn Hto Hfee Htd. pose proof (inv_transfer _ _ _ _ _ _ Hi Ht) as Hi1.
  destruct ar as [|ao ar]; [injection Hs as _ <-; reflexivity|].
  assert (Hne : x <> y).
  { pose proof Hs as Hs'. cbn [swap_legs] in Hs'. apply rbind_ok in Hs'. destruct Hs' as (s3 & Hs3 & _). apply (leg_moves _ _ _ _ _ _ Hi1 Hs3). }
  eapply legs_exact; [exact Hi1|exact Hs|exact Hn|exact Hto|exact Hfee|].
  change (reserve_of (set_lg s l)) with (reserve_of s). cbn [lg set_lg]. cbn [hops] in *.
  apply Forall_cons in Htd. destruct Htd as [T1 T2]. destruct (tidy_of s x y Hne T1) as [B1 B2].
  pose proof (paid_pool s x y w a0 l Hi Hne Ht) as Hb. rewrite !Hb.
  destruct (decide ((x, pool_addr (pair_of x y)) = (x, pool_addr (pair_of x y)))); [|congruence].
  destruct (decide ((x, pool_addr (pair_of x y)) = (y, pool_addr (pair_of x y)))); [congruence|].
  split; [lia|]. split; [lia|]. apply NoDup_cons in Hn. destruct Hn as [Hn1 _].
  rewrite Forall_forall in T2 |- *. intros q Hq. specialize (T2 q Hq). unfold tidy in *. change (reserves (set_lg s l) q) with (reserves s q).
  cbn [lg set_lg]. rewrite !Hb.
  destruct (decide ((x, pool_addr (pair_of x y)) = (fst q, pool_addr q))) as [E|_].
  { injection E as _ E3 E4. exfalso. apply Hn1. rewrite (pool_addr_inj (pair_of x y) q); [exact Hq|]. unfold pool_addr. congruence. }
  destruct (decide ((x, pool_addr (pair_of x y)) = (snd q, pool_addr q))) as [E|_].
  { injection E as _ E3 E4. exfalso. apply Hn1. rewrite (pool_addr_inj (pair_of x y) q); [exact Hq|]. unfold pool_addr. congruence. }
  lia.
Qed.
Lemma sell_report s w ai mo path to d s' am legs : DexInv s -> do_swap_supply s (AUser w) ai mo path to d = Ok (s', am, legs) ->
  NoDup (hops (hd 0 path) (tl path)) -> not_pool to -> fee_to_no_pool s -> Forall (tidy s) (hops (hd 0 path) (tl path)) ->
  legs = hop_amounts (hd 0 path) (tl path) (tl am) (hd 0 am).
Proof.
  intros Hi H Hn Hto Hfee Ht. unfold do_swap_supply in H. inv_ok.
  destruct path as [|x [|y rest]]; try discriminate. destruct v as [|a0 ar]; [discriminate|]. inv_ok. destruct v0 as [s1 lg1].
  injection H as -> <- ->. cbn [hd tl fst snd] in *. eapply legs_report; eassumption.
Qed.
Lemma buy_report s w ao mi path to d s' am legs : DexInv s -> do_swap_target s (AUser w) ao mi path to d = Ok (s', am, legs) ->
  NoDup (hops (hd 0 path) (tl path)) -> not_pool to -> fee_to_no_pool s -> Forall (tidy s) (hops (hd 0 path) (tl path)) ->
  legs = hop_amounts (hd 0 path) (tl path) (tl am) (hd 0 am).
Proof.
  intros Hi H Hn Hto Hfee Ht. unfold do_swap_target in H. inv_ok.
  destruct path as [|x [|y rest]]; try discriminate. destruct v as [|a0 ar]; [discriminate|]. inv_ok. destruct v0 as [s1 lg1].
  injection H as -> <- ->. cbn [hd tl fst snd] in *. eapply legs_report; eassumption.
Qed.

(** ** The posted prices along a path *)
Fixpoint prices_out (s : dex) (x a : N) (rest : list N) : list N :=
  x :: match rest with [] => [] | b :: r => prices_out s (price_out s x a b) b r end.
Fixpoint prices_in (s : dex) (y a : N) (rest : list N) : list N :=
  match rest with [] => [y] | b :: r => price_in s (chain_in s y b r) a b :: prices_in s y b r end.
Lemma out_prices s : DexInv s -> forall rest cur x l, amounts_out_loop s cur x rest = Ok l -> cur :: l = prices_out s cur x rest.
Proof.
  intros Hi. induction rest as [|y rest IH]; intros cur x l H; cbn [amounts_out_loop prices_out] in *; [injection H as <-; reflexivity|].
  pose proof (out_fair s (y :: rest) Hi cur x l) as Hf. cbn [amounts_out_loop] in Hf. specialize (Hf H).
  destruct (get_liquidity s x y) as [rin rout] eqn:El. inv_ok. subst l. cbn [fair_chain] in Hf. destruct Hf as (Hne & _).
  rewrite (get_liquidity_of s x y Hne) in El. injection El as <- <-. f_equal.
  match goal with E : get_amount_out _ _ _ = Ok _ |- _ => apply amount_out_price in E; [|apply reserve_of_128; auto]; rename E into Ep end.
  match type of Ep with ?v = _ => change (v = price_out s cur x y) in Ep end. rewrite <- Ep. apply IH. assumption.
Qed.
Lemma in_prices s : DexInv s -> forall rest tgt x l, amounts_in_loop s tgt x rest = Ok l ->
  l = prices_in s tgt x rest /\ hd 0 l = chain_in s tgt x rest.
Proof.
  intros Hi. induction rest as [|y rest IH]; intros tgt x l H; [injection H as <-; auto|].
  pose proof (proj1 (in_loop_price s Hi _ _ _ _ H)) as Hh. split; [|exact Hh].
  cbn [amounts_in_loop prices_in chain_in] in *. apply rbind_ok in H. destruct H as (l' & Hl' & H).
  destruct l' as [|o l']; [discriminate|]. destruct (get_liquidity s x y) as [rin rout] eqn:El. inv_ok. subst l. cbn [hd] in Hh.
  rewrite Hh. f_equal. apply (IH _ _ _ Hl').
Qed.
Lemma quote_out s ai path am : DexInv s -> get_amounts_out s ai path = Ok am ->
  am = prices_out s ai (hd 0 path) (tl path) /\ path <> [] /\ Forall (fun p => is_enabled s p = true) (hops (hd 0 path) (tl path)) /\
  List.last am 0 = chain_out s ai (hd 0 path) (tl path).
Proof.
  intros Hi H. unfold get_amounts_out in H. inv_ok. destruct path as [|x rest]; [discriminate|]. inv_ok. subst am. cbn [hd tl].
  split; [apply out_prices; assumption|]. split; [discriminate|].
  match goal with E : amounts_out_loop _ _ _ _ = Ok _ |- _ => destruct (out_loop_price s Hi _ _ _ _ E) as [E1 E2] end. auto.
Qed.
Lemma quote_in s ao path am : DexInv s -> get_amounts_in s ao path = Ok am ->
  am = prices_in s ao (hd 0 path) (tl path) /\ path <> [] /\ Forall (fun p => is_enabled s p = true) (hops (hd 0 path) (tl path)) /\
  hd 0 am = chain_in s ao (hd 0 path) (tl path).
Proof.
  intros Hi H. unfold get_amounts_in in H. inv_ok. destruct path as [|x rest]; [discriminate|]. cbn [hd tl].
  destruct (in_prices s Hi _ _ _ _ H) as [E1 E2]. destruct (in_loop_price s Hi _ _ _ _ H) as [_ E3]. split; [exact E1|]. split; [discriminate|auto].
Qed.

(** ** Nobody else pays *)
Lemma loop_mono rest : forall s x am to s' t z, DexInv s -> swap_loop s x rest am to = Ok s' -> not_pool z ->
  balance (lg s) t z <= balance (lg s') t z.
Proof.
  induction rest as [|y rest IH]; intros s x am to s' t z Hi H Hz; cbn [swap_loop] in H; [injection H as <-; lia|].
  destruct am as [|ao am]; [injection H as <-; lia|]. apply rbind_ok in H. destruct H as (s1 & Hs1 & H).
  destruct (leg_moves _ _ _ _ _ _ Hi Hs1) as (_ & _ & _ & _ & _ & Hm).
  specialize (Hm t z (Hz _ _)). pose proof (IH _ _ _ _ _ t z (inv_leg _ _ _ _ _ _ Hi Hs1) H Hz). lia.
Qed.
Lemma step_others s o w t z : DexInv s -> signed_by w o -> z <> AUser w -> not_pool z ->
  balance (lg s) t z <= balance (lg (step s o)) t z.
Proof.
  intros Hi Hw Hz Hp. destruct o; cbn [signed_by] in Hw; try contradiction; subst who; cbn [step].
  - destruct (swap_with_exact_supply _ _ _ _ _ _ _) as [s'|] eqn:E; cbn [commit]; [|lia].
    destruct (supply_loop _ _ _ _ _ _ _ _ E) as (x & y & rest & ar & l & _ & _ & _ & _ & Ht & Hl).
    pose proof (transfer_mono _ _ _ _ _ _ t z Ht Hz).
    pose proof (loop_mono _ _ _ _ _ _ t z (inv_transfer _ _ _ _ _ _ Hi Ht) Hl Hp) as H1. cbn [lg set_lg] in H1. lia.
  - destruct (swap_with_exact_target _ _ _ _ _ _ _) as [s'|] eqn:E; cbn [commit]; [|lia].
    destruct (target_loop _ _ _ _ _ _ _ _ E) as (x & y & rest & a0 & ar & l & _ & _ & _ & _ & Ht & Hl).
    pose proof (transfer_mono _ _ _ _ _ _ t z Ht Hz).
    pose proof (loop_mono _ _ _ _ _ _ t z (inv_transfer _ _ _ _ _ _ Hi Ht) Hl Hp) as H1. cbn [lg set_lg] in H1. lia.
  - destruct (add_liquidity _ _ _ _ _ _ _ _ _ _) as [[s' [[am0 am1] lq]]|] eqn:E; [|lia].
    destruct (add_liquidity_spec _ _ _ _ _ _ _ _ _ _ _ _ _ _ E (di_books s Hi)) as (i & x0 & x1 & l1 & l2 & l3 & He).
    pose proof (transfer_mono _ _ _ _ _ _ t z (ae_t1 _ _ _ _ _ _ _ _ _ _ _ _ _ _ He) Hz).
    pose proof (transfer_mono _ _ _ _ _ _ t z (ae_t2 _ _ _ _ _ _ _ _ _ _ _ _ _ _ He) Hz).
    pose proof (mint_mono _ _ _ _ _ t z (ae_mint _ _ _ _ _ _ _ _ _ _ _ _ _ _ He)).
    destruct (ae_liq _ _ _ _ _ _ _ _ _ _ _ _ _ _ He) as [(_ & Hm & _)|(_ & -> & _)]; [pose proof (mint_mono _ _ _ _ _ t z Hm)|]; lia.
  - destruct (remove_liquidity _ _ _ _ _ _ _ _ _) as [[s' [am0 am1]]|] eqn:E; [|lia].
    destruct (remove_raw _ _ _ _ _ _ _ _ _ _ _ E) as (_ & _ & _ & _ & i & l1 & l2 & l3 & _ & T1 & _ & _ & Hb & T2 & T3).
    pose proof (transfer_mono _ _ _ _ _ _ t z T1 Hz).
    pose proof (transfer_mono _ _ _ _ _ _ t z T2 (Hp _ _)). pose proof (transfer_mono _ _ _ _ _ _ t z T3 (Hp _ _)).
    apply burn_spec in Hb; [|eapply transfer_books; [exact T1|apply Hi]]. destruct Hb as (_ & _ & B & _). specialize (B t z).
    destruct (decide ((i, pool_addr (pair_of a b)) = (t, z))) as [E1|_]; [injection E1 as _ E1; exfalso; eapply Hp; symmetry; exact E1|]. lia.
  - destruct (transfer _ _ _ _ _) as [l|] eqn:E; [|lia]. cbn [lg set_lg]. eapply transfer_mono; eassumption.
Qed.

(** ** Calls as Solidity writes them *)
(** The address of asset [x]: 0xCCCCCCCC, the id, and zeros. *)
Definition asset_address (x : N) : N := 0xcccccccc * 2 ^ 128 + x * 2 ^ 96.
Definition path_arg (path : list N) : val := VL (map (fun x => VN (asset_address x)) path).
Definition typed_path (path : list N) : Prop := Forall (fun x => x <= U32MAX) path /\ N.of_nat (length path) <= 2 ^ 20.
Lemma asset_at_address x : x <= U32MAX -> asset_at (asset_address x) = Some x.
Proof.
  intros H. unfold asset_at, asset_address, U32MAX in *.
  assert (E1 : (0xcccccccc * 2 ^ 128 + x * 2 ^ 96) / 2 ^ 128 = 0xcccccccc) by (symmetry; apply (N.div_unique _ _ _ (x * 2 ^ 96)); lia).
  assert (E2 : (0xcccccccc * 2 ^ 128 + x * 2 ^ 96) / 2 ^ 96 = 0xcccccccc * 2 ^ 32 + x) by (symmetry; apply (N.div_unique _ _ _ 0); lia).
  rewrite E1, E2, N.eqb_refl. f_equal. symmetry. apply (N.mod_unique _ _ 0xcccccccc); lia.
Qed.
Lemma asset_address_wt x : x <= U32MAX -> asset_address x < 2 ^ 160.
Proof. intros H. unfold asset_address, U32MAX in *. lia. Qed.
Lemma path_assets path : Forall (fun x => x <= U32MAX) path -> assets_of (map (fun x => VN (asset_address x)) path) = Some path.
Proof.
  induction 1 as [|x path Hx _ IH]; [reflexivity|]. cbn [map assets_of num]. rewrite asset_at_address, IH by exact Hx. reflexivity.
Qed.
Lemma path_wt path : typed_path path -> wt tAs (path_arg path) /\ nlen (enc tAs (path_arg path)) = 32 + 32 * N.of_nat (length path).
Proof.
  intros [H1 H2]. assert (Wa : Forall (wt tA) (map (fun x => VN (asset_address x)) path)).
  { apply Forall_map. eapply Forall_impl; [exact H1|]. intros x Hx. exact (asset_address_wt x Hx). }
  split.
  - apply wt_vec. split; [rewrite map_length; unfold U32MAX; lia|exact Wa].
  - change (enc tAs (path_arg path)) with (enc tUs (path_arg path)). unfold path_arg. rewrite enc_us_len, map_length; [reflexivity|].
    eapply Forall_impl; [exact Wa|]. intros x Hx. destruct x; [|contradiction..]. apply wt_tU. change (n < 2 ^ 160) in Hx. lia.
Qed.
Lemma wt_A n : n < 2 ^ 160 -> wt tA (VN n).
Proof. intros H. exact H. Qed.
Definition swap_ty : list ty := [tU; tU; tAs; tA; tU].
Definition swap_call (sel x y : N) (path : list N) (to d : N) : list N :=
  build_call sel swap_ty [VN x; VN y; path_arg path; VN to; VN d].
Definition eth_ty : list ty := [tU; tAs; tA; tU].
Definition eth_call (sel x : N) (path : list N) (to d : N) : list N :=
  build_call sel eth_ty [VN x; path_arg path; VN to; VN d].
Definition view_call (sel x : N) (path : list N) : list N := build_call sel [tU; tAs] [VN x; path_arg path].
Lemma small_call ts l sel : nlen (enc_all ts l) <= USIZE -> wt_all ts l -> sel < 2 ^ 32 ->
  read_selector (build_call sel ts l) = Ok sel /\ read_args ts (build_call sel ts l) = Ok l.
Proof. intros H1 H2 H3. pose proof (C117_roundtrip ts l sel [] H3 H2) as H. rewrite !app_nil_r in H. auto. Qed.
Lemma len_U n : length (enc tU (VN n)) = 32%nat.
Proof. exact (word_length n). Qed.
Lemma len_A n : length (enc tA (VN n)) = 32%nat.
Proof. exact (word_length n). Qed.
Ltac call_len P L := unfold enc_all, abi_seq; rewrite nlen_app; unfold nlen at 1; rewrite heads_length; unfold parts;
  change (is_static tU) with true; change (is_static tA) with true; change (is_static tAs) with false; cbn [hsize tails];
  rewrite ?app_nil_l, ?app_nil_r, ?L, ?len_U, ?len_A; unfold USIZE, U32MAX; destruct P as [_ P]; lia.
Lemma swap_call_read sel x y path to d : sel < 2 ^ 32 -> x < 2 ^ 256 -> y < 2 ^ 256 -> typed_path path -> to < 2 ^ 160 -> d < 2 ^ 256 ->
  read_selector (swap_call sel x y path to d) = Ok sel /\
  read_args swap_ty (swap_call sel x y path to d) = Ok [VN x; VN y; path_arg path; VN to; VN d].
Proof.
  intros Hs Hx Hy Hp Ht Hd. destruct (path_wt path Hp) as [W L]. apply small_call; [| |exact Hs].
  - unfold swap_ty. call_len Hp L.
  - split; [apply wt_tU; exact Hx|]. split; [apply wt_tU; exact Hy|]. split; [exact W|]. split; [exact Ht|]. split; [apply wt_tU; exact Hd|exact I].
Qed.
Lemma eth_call_read sel x path to d : sel < 2 ^ 32 -> x < 2 ^ 256 -> typed_path path -> to < 2 ^ 160 -> d < 2 ^ 256 ->
  read_selector (eth_call sel x path to d) = Ok sel /\
  read_args eth_ty (eth_call sel x path to d) = Ok [VN x; path_arg path; VN to; VN d].
Proof.
  intros Hs Hx Hp Ht Hd. destruct (path_wt path Hp) as [W L]. apply small_call; [| |exact Hs].
  - unfold eth_ty. call_len Hp L.
  - split; [apply wt_tU; exact Hx|]. split; [exact W|]. split; [exact Ht|]. split; [apply wt_tU; exact Hd|exact I].
Qed.
Lemma view_call_read sel x path : sel < 2 ^ 32 -> x < 2 ^ 256 -> typed_path path ->
  read_selector (view_call sel x path) = Ok sel /\ read_args [tU; tAs] (view_call sel x path) = Ok [VN x; path_arg path].
Proof.
  intros Hs Hx Hp. destruct (path_wt path Hp) as [W L]. apply small_call; [| |exact Hs].
  - call_len Hp L.
  - split; [apply wt_tU; exact Hx|]. split; [exact W|exact I].
Qed.
(** Lists of amounts in an answer. *)
Definition amounts_bytes (l : list N) : list N := enc_all [tUs] [VL (map VN l)].
Lemma amounts_out l : Forall (fun n => n <= U128MAX) l -> N.of_nat (length l) <= U32MAX -> out [tUs] [VL (map VN l)] = amounts_bytes l.
Proof.
  intros H1 H2. apply out_spec. split; [|exact I]. apply wt_vec. rewrite map_length. split; [exact H2|].
  apply Forall_map. eapply Forall_impl; [exact H1|]. intros n Hn. apply wt_tU. unfold U128MAX in Hn. lia.
Qed.
Lemma last_P (P : N -> Prop) l : P 0 -> Forall P l -> P (List.last l 0).
Proof. intros H0 H. induction H as [|x l Hx Hl IH]; [exact H0|]. destruct l; [exact Hx|exact IH]. Qed.
