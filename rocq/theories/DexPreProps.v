(** The exchange's EVM contract: properties C134-C139. *)
From Verif Require Import DexPreProofs DexProps UtilsProofs.

(** ** Reachable states: any mix of exchange operations and calls of the contract *)
Definition xinit (n0 : N) (lim : nat) (fee : option acct) : dstate := DState (init n0 lim fee) [].
Definition xreachable (s : dstate) : Prop := exists n0 lim fee ops, Forall fair_op ops /\ s = run xstep ops (xinit n0 lim fee).
Lemma xreach s : xreachable s -> reachable (d_dex s).
Proof.
  intros (n0 & lim & fee & ops & Hf & ->). destruct (xrun_ops ops (xinit n0 lim fee) Hf) as [l Hl].
  exists n0, lim, fee, l. exact Hl.
Qed.
Lemma xinv s : xreachable s -> DexInv (d_dex s).
Proof. intros H. apply reachable_inv, xreach, H. Qed.

(** ** Entering the contract *)
Lemma dstate_same s : DState (set_lg (d_dex s) (lg (d_dex s))) (d_logs s) = s.
Proof. destruct s as [[] ?]. reflexivity. Qed.
Lemma call_zero s caller st call : x_call s caller st 0 call = x_execute s caller st 0 call.
Proof. unfold x_call, evm_transfer. change (0 =? 0) with true. cbn [rbind]. rewrite dstate_same. reflexivity. Qed.
Lemma call_np s caller st v call sel r : read_selector call = Ok sel -> x_payable sel = false ->
  x_call s caller st v call = Ok r -> v = 0 /\ (x_non_payable sel = true -> st = false) /\ x_dispatch sel s caller 0 call = Ok r.
Proof.
  intros R Hp H. assert (Hv : v = 0).
  { unfold x_call in H. apply rbind_ok in H. destruct H as (l & _ & H). unfold x_execute in H. rewrite R in H. cbn [rbind] in H.
    rewrite Hp, orb_false_r, orb_false_r in H. unfold ensure in H. destruct (negb _); cbn [rbind] in H; [|discriminate].
    destruct (N.eqb_spec v 0); [assumption|discriminate]. }
  subst v. rewrite call_zero in H. split; [reflexivity|]. unfold x_execute in H. rewrite R in H. cbn [rbind] in H.
  rewrite Hp, orb_false_r in H. unfold ensure in H. change (0 =? 0) with true in H. cbn [orb] in H.
  destruct (st && x_non_payable sel) eqn:E; cbn [negb rbind] in H; [discriminate|]. split; [|exact H].
  intros Hn. rewrite Hn, andb_true_r in E. exact E.
Qed.
Lemma call_in s caller st call sel : read_selector call = Ok sel -> st = false \/ x_non_payable sel || x_payable sel = false ->
  x_call s caller st 0 call = x_dispatch sel s caller 0 call.
Proof.
  intros R Hs. rewrite call_zero. unfold x_execute. rewrite R. cbn [rbind].
  assert (st && (x_non_payable sel || x_payable sel) = false) as -> by (destruct Hs as [-> | ->]; [reflexivity|apply andb_false_r]).
  reflexivity.
Qed.
Lemma out_amounts_bound s ai path am : ai <= U128MAX -> get_amounts_out s ai path = Ok am ->
  Forall (fun n => n <= U128MAX) am /\ length am = length path.
Proof.
  intros Ha H. unfold get_amounts_out in H. inv_ok. destruct path as [|x rest]; [discriminate|]. inv_ok. subst am.
  match goal with E : amounts_out_loop _ _ _ _ = Ok ?l |- _ => rename E into El; rename l into am end.
  split; [|cbn; f_equal; eapply amounts_out_length; exact El].
  constructor; [exact Ha|]. clear Ha E. revert ai x am El.
  induction rest as [|y rest IH]; intros cur x am El; cbn [amounts_out_loop] in El; [injection El as <-; constructor|].
  destruct (get_liquidity s x y). inv_ok. subst am. constructor; [|eapply IH; eassumption].
  match goal with E : get_amount_out _ _ _ = Ok _ |- _ => unfold get_amount_out in E end. inv_ok. subst. unfold sat128, sat. lia.
Qed.
Lemma in_amounts_bound s ao path am : ao <= U128MAX -> get_amounts_in s ao path = Ok am ->
  Forall (fun n => n <= U128MAX) am /\ length am = length path.
Proof.
  intros Ha H. unfold get_amounts_in in H. inv_ok. destruct path as [|x rest]; [discriminate|].
  split; [|cbn; exact (proj1 (amounts_in_length _ _ _ _ _ H))]. clear E. revert x am H.
  induction rest as [|y rest IH]; intros x am El; cbn [amounts_in_loop] in El.
  { injection El as <-. constructor; [exact Ha|constructor]. }
  apply rbind_ok in El. destruct El as (l & Hl & El). destruct l as [|o l]; [discriminate|].
  destruct (get_liquidity s x y). inv_ok. subst am. constructor; [|eapply IH; eassumption].
  match goal with E : get_amount_in _ _ _ = Ok _ |- _ => unfold get_amount_in in E end. inv_ok. subst. unfold sat128, sat. lia.
Qed.

(** ** Logs, written out from the ABI: [Swap] at the pool's address *)
Definition pool_contract (x y : N) : N := 0xdddddddd * 2 ^ 128 + N.min x y * 2 ^ 96 + N.max x y * 2 ^ 64.
Definition swap_event (caller to x y paid got : N) : elog :=
  Elog (pool_contract x y)
    [0xd78ad95fa46c994b6551d0da85fc275fe613ce37657fb8d5e3d130840159d822; caller;
     if x <? y then paid else 0; if x <? y then 0 else paid]
    (word (if x <? y then 0 else got) ++ word (if x <? y then got else 0) ++ word to).
Fixpoint swap_events (caller to x : N) (rest : list N) (paid : N) (got : list N) : list elog :=
  match rest, got with
  | y :: r, g :: got' => swap_event caller to x y paid g :: swap_events caller to y r g got'
  | _, _ => []
  end.
Lemma pool_contract_of x y : pool_h160 (pair_of x y) = pool_contract x y.
Proof. unfold pool_h160, pair_of, pool_contract. destruct (N.ltb_spec y x); cbn [fst snd]; f_equal; f_equal; f_equal; lia. Qed.
Lemma out_two x y t : x < 2 ^ 256 -> y < 2 ^ 256 -> t < 2 ^ 160 -> out [tU; tU; tA] [VN x; VN y; VN t] = word x ++ word y ++ word t.
Proof.
  intros Hx Hy Ht. rewrite out_spec.
  - unfold enc_all, abi_seq, parts. cbn [heads tails]. rewrite !app_nil_r. reflexivity.
  - split; [apply wt_tU; exact Hx|]. split; [apply wt_tU; exact Hy|]. split; [apply wt_A; exact Ht|exact I].
Qed.
Lemma events_of caller to rest : to < 2 ^ 160 -> forall x cur am, Forall (fun n => n <= U128MAX) am ->
  swap_logs caller to x rest (hop_amounts x rest am cur) = swap_events caller to x rest cur am.
Proof.
  intros Ht. induction rest as [|y r IH]; intros x cur am Ha; [reflexivity|]. destruct am as [|g am]; [reflexivity|].
  inversion_clear Ha as [|? ? Hg Ha']. cbn [hop_amounts swap_logs swap_events]. unfold swap_event. rewrite <- (IH y g am Ha').
  unfold U128MAX in Hg. rewrite <- pool_contract_of. destruct (x <? y); rewrite out_two by (assumption || lia); reflexivity.
Qed.

(** ** What the trade functions do *)
Record sale (s s' : dstate) (caller x mn : N) (path : list N) (to d : N) (o : list N) : Prop := {
  sl_time : now (d_dex s) <= d;
  sl_min : mn <= chain_out (d_dex s) x (hd 0 path) (tl path);
  sl_moves : swap_effect (d_dex s) (d_dex s') (AUser caller) (acct_of to) (hd 0 path) (List.last path 0) x
               (chain_out (d_dex s) x (hd 0 path) (tl path));
  sl_answer : o = amounts_bytes (prices_out (d_dex s) x (hd 0 path) (tl path));
  sl_open : Forall (fun p => is_enabled (d_dex s) p = true) (hops (hd 0 path) (tl path));
  sl_logs : NoDup (hops (hd 0 path) (tl path)) -> not_pool (acct_of to) -> fee_to_no_pool (d_dex s) ->
    Forall (tidy (d_dex s)) (hops (hd 0 path) (tl path)) ->
    d_logs s' = d_logs s ++ swap_events caller to (hd 0 path) (tl path) x (tl (prices_out (d_dex s) x (hd 0 path) (tl path)))
}.
Record purchase (s s' : dstate) (caller y mx : N) (path : list N) (to d : N) (o : list N) : Prop := {
  pu_time : now (d_dex s) <= d;
  pu_max : chain_in (d_dex s) y (hd 0 path) (tl path) <= mx;
  pu_moves : swap_effect (d_dex s) (d_dex s') (AUser caller) (acct_of to) (hd 0 path) (List.last path 0)
               (chain_in (d_dex s) y (hd 0 path) (tl path)) y;
  pu_answer : o = amounts_bytes (prices_in (d_dex s) y (hd 0 path) (tl path));
  pu_open : Forall (fun p => is_enabled (d_dex s) p = true) (hops (hd 0 path) (tl path));
  pu_logs : NoDup (hops (hd 0 path) (tl path)) -> not_pool (acct_of to) -> fee_to_no_pool (d_dex s) ->
    Forall (tidy (d_dex s)) (hops (hd 0 path) (tl path)) ->
    d_logs s' = d_logs s ++ swap_events caller to (hd 0 path) (tl path) (chain_in (d_dex s) y (hd 0 path) (tl path))
      (tl (prices_in (d_dex s) y (hd 0 path) (tl path)))
}.
Lemma x_sell_spec s caller x mn path to d s' o : DexInv (d_dex s) -> ordinary caller -> typed_path path -> to < 2 ^ 160 ->
  x_sell s caller x mn (map (fun x => VN (asset_address x)) path) to d = Ok (s', o) -> sale s s' caller x mn path to d o.
Proof.
  intros Hi Hc [Hp Hlen] Hto160 H. unfold x_sell in H. rewrite path_assets in H by exact Hp. cbn [of_opt rbind] in H.
  unfold conv_balance, conv_block in H. unfold ensure in H.
  destruct (N.leb_spec x U128MAX); cbn [rbind] in H; [|discriminate]. destruct (N.leb_spec mn U128MAX); cbn [rbind] in H; [|discriminate].
  destruct (N.leb_spec d U32MAX); cbn [rbind] in H; [|discriminate]. rewrite Hc in H.
  apply rbind_ok in H. destruct H as ([[s1 am] legs] & Hs & H). unfold swap_answer in H. injection H as <- <-.
  destruct (do_swap_supply_inv _ _ _ _ _ _ _ _ _ _ Hs) as [Hsw Hq].
  destruct (supply_effect _ _ _ _ _ _ _ _ Hi Hsw) as [Hd _].
  destruct (supply_price _ _ _ _ _ _ _ _ Hi Hsw) as [He _].
  destruct (quote_out _ _ _ _ Hi Hq) as (Eam & Hne & Hen & Hlast).
  destruct (out_amounts_bound (d_dex s) x path am ltac:(assumption) Hq) as [Hb Hl].
  destruct (supply_loop _ _ _ _ _ _ _ _ Hsw) as (x0 & y0 & rest & ar & l & _ & Hq' & _ & Hmo & _).
  rewrite Hq in Hq'. injection Hq' as Eam2. split; cbn [d_dex d_logs].
  - apply Hd. reflexivity.
  - rewrite <- Hlast. rewrite Eam2. exact Hmo.
  - exact He.
  - rewrite <- Eam. apply amounts_out; [exact Hb|]. rewrite Hl. unfold U32MAX. lia.
  - exact Hen.
  - intros Hn Hto Hfee Htd. f_equal. f_equal.
    rewrite (sell_report _ _ _ _ _ _ _ _ _ _ Hi Hs Hn Hto Hfee Htd). rewrite <- Eam.
    rewrite events_of; [|exact Hto160|rewrite Eam2 in Hb; inversion Hb; rewrite Eam2; assumption].
    f_equal. rewrite Eam2. reflexivity.
Qed.
Lemma x_buy_spec s caller y mx path to d s' o : DexInv (d_dex s) -> ordinary caller -> typed_path path -> to < 2 ^ 160 ->
  x_buy s caller y mx (map (fun x => VN (asset_address x)) path) to d = Ok (s', o) -> purchase s s' caller y mx path to d o.
Proof.
  intros Hi Hc [Hp Hlen] Hto160 H. unfold x_buy in H. rewrite path_assets in H by exact Hp. cbn [of_opt rbind] in H.
  unfold conv_balance, conv_block in H. unfold ensure in H.
  destruct (N.leb_spec y U128MAX); cbn [rbind] in H; [|discriminate]. destruct (N.leb_spec mx U128MAX); cbn [rbind] in H; [|discriminate].
  destruct (N.leb_spec d U32MAX); cbn [rbind] in H; [|discriminate]. rewrite Hc in H.
  apply rbind_ok in H. destruct H as ([[s1 am] legs] & Hs & H). unfold swap_answer in H. injection H as <- <-.
  destruct (do_swap_target_inv _ _ _ _ _ _ _ _ _ _ Hs) as [Hsw Hq].
  destruct (target_effect _ _ _ _ _ _ _ _ Hi Hsw) as [Hd _].
  destruct (target_price _ _ _ _ _ _ _ _ Hi Hsw) as (Hmx & He & _).
  destruct (quote_in _ _ _ _ Hi Hq) as (Eam & Hne & Hen & Hhd).
  destruct (in_amounts_bound (d_dex s) y path am ltac:(assumption) Hq) as [Hb Hl]. split; cbn [d_dex d_logs].
  - apply Hd. reflexivity.
  - exact Hmx.
  - exact He.
  - rewrite <- Eam. apply amounts_out; [exact Hb|]. rewrite Hl. unfold U32MAX. lia.
  - exact Hen.
  - intros Hn Hto Hfee Htd. f_equal. f_equal.
    rewrite (buy_report _ _ _ _ _ _ _ _ _ _ Hi Hs Hn Hto Hfee Htd). rewrite <- Eam, <- Hhd. apply events_of; [exact Hto160|].
    destruct Hb; [constructor|assumption].
Qed.

(** ** C134: a trade through the contract pays and receives what it answers *)
Theorem C134_sell : forall s caller st v sel x mn path to d s' o,
  xreachable s -> ordinary caller -> In sel [X_swapExactTokensForTokens; X_swapExactTokensForETH] ->
  x < 2 ^ 256 -> mn < 2 ^ 256 -> typed_path path -> to < 2 ^ 160 -> d < 2 ^ 256 ->
  x_call s caller st v (swap_call sel x mn path to d) = Ok (s', o) ->
  st = false /\ v = 0 /\ sale s s' caller x mn path to d o.
Proof.
  intros s caller st v sel x mn path to d s' o Hr Hc Hsel Hx Hm Hp Ht Hd H.
  destruct (swap_call_read sel x mn path to d) as [R1 R2]; auto. { destruct Hsel as [<-|[<-|[]]]; reflexivity. }
  destruct (call_np _ _ _ _ _ _ _ R1 ltac:(destruct Hsel as [<-|[<-|[]]]; reflexivity) H) as (-> & Hst & Hdis).
  split; [apply Hst; destruct Hsel as [<-|[<-|[]]]; reflexivity|]. split; [reflexivity|].
  assert (E : x_dispatch sel s caller 0 (swap_call sel x mn path to d) = x_swap_exact_tokens s caller (swap_call sel x mn path to d))
    by (destruct Hsel as [<-|[<-|[]]]; reflexivity).
  rewrite E in Hdis. unfold x_swap_exact_tokens in Hdis. unfold swap_ty in R2. rewrite R2 in Hdis. cbn [rbind path_arg] in Hdis.
  apply x_sell_spec; auto. apply xinv, Hr.
Qed.
Theorem C134_buy : forall s caller st v sel y mx path to d s' o,
  xreachable s -> ordinary caller -> In sel [X_swapTokensForExactTokens; X_swapTokensForExactETH] ->
  y < 2 ^ 256 -> mx < 2 ^ 256 -> typed_path path -> to < 2 ^ 160 -> d < 2 ^ 256 ->
  x_call s caller st v (swap_call sel y mx path to d) = Ok (s', o) ->
  st = false /\ v = 0 /\ purchase s s' caller y mx path to d o.
Proof.
  intros s caller st v sel x mn path to d s' o Hr Hc Hsel Hx Hm Hp Ht Hd H.
  destruct (swap_call_read sel x mn path to d) as [R1 R2]; auto. { destruct Hsel as [<-|[<-|[]]]; reflexivity. }
  destruct (call_np _ _ _ _ _ _ _ R1 ltac:(destruct Hsel as [<-|[<-|[]]]; reflexivity) H) as (-> & Hst & Hdis).
  split; [apply Hst; destruct Hsel as [<-|[<-|[]]]; reflexivity|]. split; [reflexivity|].
  assert (E : x_dispatch sel s caller 0 (swap_call sel x mn path to d) = x_swap_tokens_for_exact s caller (swap_call sel x mn path to d))
    by (destruct Hsel as [<-|[<-|[]]]; reflexivity).
  rewrite E in Hdis. unfold x_swap_tokens_for_exact in Hdis. unfold swap_ty in R2. rewrite R2 in Hdis. cbn [rbind path_arg] in Hdis.
  apply x_buy_spec; auto. apply xinv, Hr.
Qed.

(** The state of [DexProps], reached through operations. *)
Definition xs0 : dstate := run xstep (map XDex setup) (xinit 10 3 None).
Lemma reach_xs0 : xreachable xs0.
Proof. exists 10, 3%nat, None, (map XDex setup). split; [|reflexivity]. repeat constructor. Qed.
Definition holds (s : dstate) (who : N) : list N := map (fun t => balance (lg (d_dex s)) t (AUser who)) [1; 2; 3].
(** What a call leads to: balances of the account 8, of 9, of the contract, and the logs and the answer. *)
Definition outcome (r : result (dstate * list N)) : option (list N * list N * list N * list elog * list N) :=
  match r with Ok (s, o) => Some (holds s 8, holds s 9, holds s 0xdddd, d_logs s, o) | Err _ => None end.
Definition st_of (r : result (dstate * list N)) : dstate := match r with Ok (s, _) => s | Err _ => xs0 end.
Definition out_of (r : result (dstate * list N)) : list N := match r with Ok (_, o) => o | Err _ => [] end.
Lemma ran r : is_ok r = true -> r = Ok (st_of r, out_of r).
Proof. destruct r as [[s o]|]; [reflexivity|discriminate]. Qed.
Example C134_example : ordinary 8 /\ typed_path [1; 2; 3] /\ holds xs0 8 = [1000000; 1000000; 0] /\
  outcome (x_call xs0 8 false 0 (swap_call X_swapExactTokensForTokens 10000 100 [1; 2; 3] 9 5))
  = Some ([990000; 1000000; 0], [0; 0; 13874], [0; 0; 0],
          [swap_event 8 9 1 2 10000 24318; swap_event 8 9 2 3 24318 13874], amounts_bytes [10000; 24318; 13874]) /\
  outcome (x_call xs0 8 false 0 (swap_call X_swapTokensForExactETH 777 5000 [1; 2] 9 5))
  = Some ([999688; 1000000; 0], [0; 777; 0], [0; 0; 0], [swap_event 8 9 1 2 312 777], amounts_bytes [312; 777]) /\
  outcome (x_call xs0 8 false 0 (swap_call X_swapTokensForExactETH 777 311 [1; 2] 9 5)) = None.
Proof.
  split; [reflexivity|]. split; [split; [repeat constructor; unfold U32MAX; lia|cbn; lia]|]. vm_compute. repeat split; reflexivity.
Qed.

(** ** C135: a quote is what the trade then gives, and the trade goes through *)
Theorem C135_amounts_out : forall s caller st v x path s' o, xreachable s -> x < 2 ^ 256 -> typed_path path ->
  x_call s caller st v (view_call X_getAmountsOut x path) = Ok (s', o) ->
  v = 0 /\ s' = s /\ o = amounts_bytes (prices_out (d_dex s) x (hd 0 path) (tl path)).
Proof.
  intros s caller st v x path s' o Hr Hx Hp H. destruct (view_call_read X_getAmountsOut x path) as [R1 R2]; auto; [reflexivity|].
  destruct (call_np _ _ _ _ _ _ _ R1 eq_refl H) as (-> & _ & Hd). split; [reflexivity|].
  change (x_amounts get_amounts_out s (view_call X_getAmountsOut x path) = Ok (s', o)) in Hd. unfold x_amounts in Hd. rewrite R2 in Hd.
  cbn [rbind path_arg] in Hd. destruct Hp as [Hp Hl]. rewrite path_assets in Hd by exact Hp. unfold conv_balance in Hd. inv_ok. injection Hd as <- <-.
  match goal with E : Some _ = Some _ |- _ => injection E as <- end. subst v0.
  split; [reflexivity|]. match goal with E : get_amounts_out _ _ _ = Ok _ |- _ => rename E into Hq end.
  destruct (quote_out _ _ _ _ (xinv s Hr) Hq) as (Eam & _). destruct (out_amounts_bound (d_dex s) x path _ ltac:(lia) Hq) as [Hb Hn].
  rewrite <- Eam. apply amounts_out; [exact Hb|]. rewrite Hn. unfold U32MAX. lia.
Qed.
Theorem C135_amounts_in : forall s caller st v y path s' o, xreachable s -> y < 2 ^ 256 -> typed_path path ->
  x_call s caller st v (view_call X_getAmountsIn y path) = Ok (s', o) ->
  v = 0 /\ s' = s /\ o = amounts_bytes (prices_in (d_dex s) y (hd 0 path) (tl path)).
Proof.
  intros s caller st v x path s' o Hr Hx Hp H. destruct (view_call_read X_getAmountsIn x path) as [R1 R2]; auto; [reflexivity|].
  destruct (call_np _ _ _ _ _ _ _ R1 eq_refl H) as (-> & _ & Hd). split; [reflexivity|].
  change (x_amounts get_amounts_in s (view_call X_getAmountsIn x path) = Ok (s', o)) in Hd. unfold x_amounts in Hd. rewrite R2 in Hd.
  cbn [rbind path_arg] in Hd. destruct Hp as [Hp Hl]. rewrite path_assets in Hd by exact Hp. unfold conv_balance in Hd. inv_ok. injection Hd as <- <-.
  match goal with E : Some _ = Some _ |- _ => injection E as <- end. subst v0.
  split; [reflexivity|]. match goal with E : get_amounts_in _ _ _ = Ok _ |- _ => rename E into Hq end.
  destruct (quote_in _ _ _ _ (xinv s Hr) Hq) as (Eam & _). destruct (in_amounts_bound (d_dex s) x path _ ltac:(lia) Hq) as [Hb Hn].
  rewrite <- Eam. apply amounts_out; [exact Hb|]. rewrite Hn. unfold U32MAX. lia.
Qed.
(** A sale at a quoted price succeeds and answers the bytes of the quote. *)
Theorem C135_quoted_sale : forall s q st x path o caller sel mn to d,
  xreachable s -> ordinary caller -> In sel [X_swapExactTokensForTokens; X_swapExactTokensForETH] ->
  x < 2 ^ 256 -> typed_path path -> to < 2 ^ 160 ->
  x_call s q st 0 (view_call X_getAmountsOut x path) = Ok (s, o) ->
  mn <= chain_out (d_dex s) x (hd 0 path) (tl path) -> now (d_dex s) <= d -> d <= U32MAX ->
  x <= balance (lg (d_dex s)) (hd 0 path) (AUser caller) -> NoDup (hops (hd 0 path) (tl path)) ->
  roomy_path (d_dex s) (hd 0 path) (tl path) -> plain (d_dex s) (hd 0 path) (tl path) ->
  exists s', x_call s caller false 0 (swap_call sel x mn path to d) = Ok (s', o).
Proof.
  intros s q st x path o caller sel mn to d Hr Hc Hsel Hx Hp Ht Hq Hmn Hd Hd2 Hb Hn Hroom Hplain.
  pose proof (xinv s Hr) as Hi. pose proof Hp as [Hp1 Hp2].
  destruct (view_call_read X_getAmountsOut x path) as [R1 R2]; auto; [reflexivity|].
  destruct (call_np _ _ _ _ _ _ _ R1 eq_refl Hq) as (_ & _ & Hv).
  change (x_amounts get_amounts_out s (view_call X_getAmountsOut x path) = Ok (s, o)) in Hv. unfold x_amounts in Hv. rewrite R2 in Hv.
  cbn [rbind path_arg] in Hv. rewrite path_assets in Hv by exact Hp1. cbn [of_opt rbind] in Hv. unfold conv_balance, ensure in Hv.
  destruct (N.leb_spec x U128MAX) as [Hx128|]; cbn [rbind] in Hv; [|discriminate].
  apply rbind_ok in Hv. destruct Hv as (am & Ham & Hv). injection Hv as <-.
  destruct (quote_out _ _ _ _ Hi Ham) as (_ & _ & _ & Hlast). rewrite <- Hlast in Hmn.
  assert (Hmn128 : mn <= U128MAX).
  { destruct (out_amounts_bound _ _ _ _ Hx128 Ham) as [Hl _]. etransitivity; [exact Hmn|]. apply (last_P (fun n => n <= U128MAX)); [unfold U128MAX; lia|exact Hl]. }
  destruct (swap_call_read sel x mn path to d) as [R3 R4]; auto.
  { destruct Hsel as [<-|[<-|[]]]; reflexivity. } { unfold U128MAX in Hmn128. lia. } { unfold U32MAX in Hd2. lia. }
  rewrite (call_in s caller false _ sel R3) by auto.
  assert (E : x_dispatch sel s caller 0 (swap_call sel x mn path to d) = x_swap_exact_tokens s caller (swap_call sel x mn path to d))
    by (destruct Hsel as [<-|[<-|[]]]; reflexivity).
  rewrite E. unfold x_swap_exact_tokens. unfold swap_ty in R4. rewrite R4. cbn [rbind path_arg]. unfold x_sell.
  rewrite path_assets by exact Hp1. cbn [of_opt rbind]. unfold conv_balance, conv_block, ensure.
  rewrite !(proj2 (N.leb_le _ _)) by assumption. cbn [rbind]. rewrite Hc.
  destruct (sell_can (d_dex s) caller x mn path (acct_of to) (Some d) am) as (s' & legs & ->); auto.
  { unfold deadline_ok. apply N.leb_le. exact Hd. }
  cbn [rbind]. unfold swap_answer. eauto.
Qed.
(** And a purchase at a quoted price. *)
Theorem C135_quoted_purchase : forall s q st y path o caller sel mx to d,
  xreachable s -> ordinary caller -> In sel [X_swapTokensForExactTokens; X_swapTokensForExactETH] ->
  y < 2 ^ 256 -> typed_path path -> to < 2 ^ 160 ->
  x_call s q st 0 (view_call X_getAmountsIn y path) = Ok (s, o) ->
  chain_in (d_dex s) y (hd 0 path) (tl path) <= mx -> mx <= U128MAX -> now (d_dex s) <= d -> d <= U32MAX ->
  chain_in (d_dex s) y (hd 0 path) (tl path) <= balance (lg (d_dex s)) (hd 0 path) (AUser caller) ->
  NoDup (hops (hd 0 path) (tl path)) ->
  roomy_path (d_dex s) (hd 0 path) (tl path) -> plain (d_dex s) (hd 0 path) (tl path) ->
  exists s', x_call s caller false 0 (swap_call sel y mx path to d) = Ok (s', o).
Proof.
  intros s q st x path o caller sel mx to d Hr Hc Hsel Hx Hp Ht Hq Hmx Hmx2 Hd Hd2 Hb Hn Hroom Hplain.
  pose proof (xinv s Hr) as Hi. pose proof Hp as [Hp1 Hp2].
  destruct (view_call_read X_getAmountsIn x path) as [R1 R2]; auto; [reflexivity|].
  destruct (call_np _ _ _ _ _ _ _ R1 eq_refl Hq) as (_ & _ & Hv).
  change (x_amounts get_amounts_in s (view_call X_getAmountsIn x path) = Ok (s, o)) in Hv. unfold x_amounts in Hv. rewrite R2 in Hv.
  cbn [rbind path_arg] in Hv. rewrite path_assets in Hv by exact Hp1. cbn [of_opt rbind] in Hv. unfold conv_balance, ensure in Hv.
  destruct (N.leb_spec x U128MAX) as [Hx128|]; cbn [rbind] in Hv; [|discriminate].
  apply rbind_ok in Hv. destruct Hv as (am & Ham & Hv). injection Hv as <-.
  destruct (quote_in _ _ _ _ Hi Ham) as (_ & _ & _ & Hhd). rewrite <- Hhd in Hmx, Hb.
  destruct (swap_call_read sel x mx path to d) as [R3 R4]; auto.
  { destruct Hsel as [<-|[<-|[]]]; reflexivity. } { unfold U128MAX in Hmx2. lia. } { unfold U32MAX in Hd2. lia. }
  rewrite (call_in s caller false _ sel R3) by auto.
  assert (E : x_dispatch sel s caller 0 (swap_call sel x mx path to d) = x_swap_tokens_for_exact s caller (swap_call sel x mx path to d))
    by (destruct Hsel as [<-|[<-|[]]]; reflexivity).
  rewrite E. unfold x_swap_tokens_for_exact. unfold swap_ty in R4. rewrite R4. cbn [rbind path_arg]. unfold x_buy.
  rewrite path_assets by exact Hp1. cbn [of_opt rbind]. unfold conv_balance, conv_block, ensure.
  rewrite !(proj2 (N.leb_le _ _)) by assumption. cbn [rbind]. rewrite Hc.
  destruct (buy_can (d_dex s) caller x mx path (acct_of to) (Some d) am) as (s' & legs & ->); auto.
  { unfold deadline_ok. apply N.leb_le. exact Hd. }
  cbn [rbind]. unfold swap_answer. eauto.
Qed.
(** The single-pool calculators compute on the numbers they are given. *)
Definition three : list ty := [tU; tU; tU].
Lemma three_read sel x y z : sel < 2 ^ 32 -> x < 2 ^ 256 -> y < 2 ^ 256 -> z < 2 ^ 256 ->
  read_selector (build_call sel three [VN x; VN y; VN z]) = Ok sel /\
  read_args [tU; tU; tU] (build_call sel three [VN x; VN y; VN z]) = Ok [VN x; VN y; VN z].
Proof.
  intros Hs Hx Hy Hz. apply small_call; [vm_compute; discriminate| |exact Hs].
  split; [apply wt_tU; exact Hx|]. split; [apply wt_tU; exact Hy|]. split; [apply wt_tU; exact Hz|exact I].
Qed.
Lemma out_word n : n < 2 ^ 256 -> out [tU] [VN n] = word n.
Proof.
  intros H. rewrite out_spec by (split; [apply wt_tU; exact H|exact I]). unfold enc_all, abi_seq, parts. cbn [heads tails].
  rewrite !app_nil_r. reflexivity.
Qed.
Lemma dx_quote s caller v call : x_dispatch X_quote s caller v call = x_quote s call.
Proof. reflexivity. Qed.
Lemma dx_getAmountOut s caller v call : x_dispatch X_getAmountOut s caller v call = x_amount get_amount_out s call.
Proof. reflexivity. Qed.
Lemma dx_getAmountIn s caller v call : x_dispatch X_getAmountIn s caller v call = x_amount get_amount_in s call.
Proof. reflexivity. Qed.
Lemma quote_of s caller st v call x ra rb s' o : read_selector call = Ok X_quote ->
  read_args [tU; tU; tU] call = Ok [VN x; VN ra; VN rb] -> x_call s caller st v call = Ok (s', o) ->
  v = 0 /\ s' = s /\ 0 < x /\ 0 < ra /\ 0 < rb /\ o = word (x * rb / ra).
Proof.
  intros R1 R2 H.
  destruct (call_np _ _ _ _ _ _ _ R1 eq_refl H) as (-> & _ & Hd). split; [reflexivity|].
  rewrite dx_quote in Hd. unfold x_quote in Hd. rewrite R2 in Hd.
  cbn [rbind] in Hd. unfold conv_balance in Hd. inv_ok. injection Hd as <- <-. subst. split; [reflexivity|].
  match goal with E : quote _ _ _ = Ok _ |- _ => rename E into Hq end. pose proof Hq as Hq'. unfold quote, umul, udiv in Hq'. inv_ok.
  split; [lia|]. split; [lia|]. split; [lia|]. apply out_word. unfold U256MAX in *.
  eapply N.le_lt_trans; [apply N.div_le_upper_bound with (q := x * v0); [assumption|]|lia].
  transitivity (1 * (x * v0)); [lia|]. apply N.mul_le_mono_r. lia.
Qed.
Theorem C135_quote : forall s caller st v x ra rb s' o, x < 2 ^ 256 -> ra < 2 ^ 256 -> rb < 2 ^ 256 ->
  x_call s caller st v (build_call X_quote three [VN x; VN ra; VN rb]) = Ok (s', o) ->
  v = 0 /\ s' = s /\ 0 < x /\ 0 < ra /\ 0 < rb /\ o = word (x * rb / ra).
Proof.
  intros s caller st v x ra rb s' o Hx Ha Hb. destruct (three_read X_quote x ra rb) as [R1 R2]; auto; [reflexivity|].
  exact (quote_of _ _ _ _ _ _ _ _ _ _ R1 R2).
Qed.
Lemma amount_out_of s caller st v call x ra rb s' o : read_selector call = Ok X_getAmountOut ->
  read_args [tU; tU; tU] call = Ok [VN x; VN ra; VN rb] -> x_call s caller st v call = Ok (s', o) ->
  v = 0 /\ s' = s /\ o = word (x * 997 * rb / (ra * 1000 + x * 997)).
Proof.
  intros R1 R2 H.
  destruct (call_np _ _ _ _ _ _ _ R1 eq_refl H) as (-> & _ & Hd). split; [reflexivity|].
  rewrite dx_getAmountOut in Hd. unfold x_amount in Hd. rewrite R2 in Hd.
  cbn [rbind] in Hd. unfold conv_balance in Hd. inv_ok. injection Hd as <- <-. subst. split; [reflexivity|].
  match goal with E : get_amount_out _ _ _ = Ok _ |- _ => rename E into Hq end.
  pose proof (fun h => amount_out_price _ _ _ _ h Hq) as Hpr. specialize (Hpr ltac:(lia)). rewrite <- Hpr. apply out_word.
  unfold get_amount_out in Hq. inv_ok. subst. unfold sat128, sat, U128MAX. lia.
Qed.
Theorem C135_amount_out : forall s caller st v x ra rb s' o, x < 2 ^ 256 -> ra < 2 ^ 256 -> rb < 2 ^ 256 ->
  x_call s caller st v (build_call X_getAmountOut three [VN x; VN ra; VN rb]) = Ok (s', o) ->
  v = 0 /\ s' = s /\ o = word (x * 997 * rb / (ra * 1000 + x * 997)).
Proof.
  intros s caller st v x ra rb s' o Hx Ha Hb. destruct (three_read X_getAmountOut x ra rb) as [R1 R2]; auto; [reflexivity|].
  exact (amount_out_of _ _ _ _ _ _ _ _ _ _ R1 R2).
Qed.
Lemma amount_in_of s caller st v call x ra rb s' o : read_selector call = Ok X_getAmountIn ->
  read_args [tU; tU; tU] call = Ok [VN x; VN ra; VN rb] -> x_call s caller st v call = Ok (s', o) ->
  v = 0 /\ s' = s /\ x <= rb /\ o = word (N.min (2 ^ 128 - 1) (ra * x * 1000 / ((rb - x) * 997) + 1)).
Proof.
  intros R1 R2 H.
  destruct (call_np _ _ _ _ _ _ _ R1 eq_refl H) as (-> & _ & Hd). split; [reflexivity|].
  rewrite dx_getAmountIn in Hd. unfold x_amount in Hd. rewrite R2 in Hd.
  cbn [rbind] in Hd. unfold conv_balance in Hd. inv_ok. injection Hd as <- <-. subst. split; [reflexivity|].
  match goal with E : get_amount_in _ _ _ = Ok _ |- _ => rename E into Hq end.
  pose proof (amount_in_price _ _ _ _ Hq) as Hpr. split.
  + unfold get_amount_in, usub in Hq. inv_ok. lia.
  + rewrite <- Hpr. apply out_word. unfold get_amount_in in Hq. inv_ok. subst. unfold sat128, sat, U128MAX. lia.
Qed.
Theorem C135_amount_in : forall s caller st v x ra rb s' o, x < 2 ^ 256 -> ra < 2 ^ 256 -> rb < 2 ^ 256 ->
  x_call s caller st v (build_call X_getAmountIn three [VN x; VN ra; VN rb]) = Ok (s', o) ->
  v = 0 /\ s' = s /\ x <= rb /\ o = word (N.min (2 ^ 128 - 1) (ra * x * 1000 / ((rb - x) * 997) + 1)).
Proof.
  intros s caller st v x ra rb s' o Hx Ha Hb. destruct (three_read X_getAmountIn x ra rb) as [R1 R2]; auto; [reflexivity|].
  exact (amount_in_of _ _ _ _ _ _ _ _ _ _ R1 R2).
Qed.
Example C135_example :
  outcome (x_call xs0 9 true 0 (view_call X_getAmountsOut 10000 [1; 2; 3]))
  = Some (holds xs0 8, holds xs0 9, [0; 0; 0], [], amounts_bytes [10000; 24318; 13874]) /\
  outcome (x_call xs0 9 true 0 (view_call X_getAmountsIn 777 [1; 2])) = Some (holds xs0 8, holds xs0 9, [0; 0; 0], [], amounts_bytes [312; 777]) /\
  outcome (x_call xs0 9 true 0 (build_call X_quote three [VN 10000; VN 400000; VN 1000000])) = Some (holds xs0 8, holds xs0 9, [0; 0; 0], [], word 25000) /\
  outcome (x_call xs0 9 true 0 (build_call X_getAmountOut three [VN 10000; VN 400000; VN 1000000])) = Some (holds xs0 8, holds xs0 9, [0; 0; 0], [], word 24318) /\
  outcome (x_call xs0 9 true 0 (build_call X_getAmountIn three [VN 777; VN 400000; VN 1000000])) = Some (holds xs0 8, holds xs0 9, [0; 0; 0], [], word 312) /\
  roomy_path (d_dex xs0) 1 [2; 3] /\ plain (d_dex xs0) 1 [2; 3] /\ NoDup (hops 1 [2; 3]).
Proof.
  split; [vm_compute; reflexivity|]. split; [vm_compute; reflexivity|]. split; [vm_compute; reflexivity|].
  split; [vm_compute; reflexivity|]. split; [vm_compute; reflexivity|].
  split; [|split; [left; vm_compute; reflexivity|]].
  - cbn [roomy_path]. split; [|split; [|exact I]].
    + split; [vm_compute; discriminate|]. split; [vm_compute; discriminate|]. intros j Hj. vm_compute in Hj. injection Hj as <-. vm_compute. discriminate.
    + split; [vm_compute; discriminate|]. split; [vm_compute; discriminate|]. intros j Hj. vm_compute in Hj. injection Hj as <-. vm_compute. discriminate.
  - apply (bool_decide_unpack _). vm_compute. exact I.
Qed.

(** ** C136: what adding and removing liquidity answers *)
Lemma out_three x y z : x < 2 ^ 256 -> y < 2 ^ 256 -> z < 2 ^ 256 -> out [tU; tU; tU] [VN x; VN y; VN z] = word x ++ word y ++ word z.
Proof.
  intros Hx Hy Hz. rewrite out_spec.
  - unfold enc_all, abi_seq, parts. cbn [heads tails]. rewrite !app_nil_r. reflexivity.
  - split; [apply wt_tU; exact Hx|]. split; [apply wt_tU; exact Hy|]. split; [apply wt_tU; exact Hz|exact I].
Qed.
Lemma out_pair x y : x < 2 ^ 256 -> y < 2 ^ 256 -> out [tU; tU] [VN x; VN y] = word x ++ word y.
Proof.
  intros Hx Hy. rewrite out_spec.
  - unfold enc_all, abi_seq, parts. cbn [heads tails]. rewrite !app_nil_r. reflexivity.
  - split; [apply wt_tU; exact Hx|]. split; [apply wt_tU; exact Hy|exact I].
Qed.
Lemma out_addr t : t < 2 ^ 160 -> out [tA] [VN t] = word t.
Proof.
  intros Ht. rewrite out_spec by (split; [apply wt_A; exact Ht|exact I]). unfold enc_all, abi_seq, parts. cbn [heads tails].
  rewrite !app_nil_r. reflexivity.
Qed.
Record deposit (s s' : dstate) (caller a b da db ma mb to d : N) (o : list N) (xa xb lq pa pb i : N) : Prop := {
  dp_time : now (d_dex s) <= d;
  dp_distinct : a <> b;
  dp_moves : deposit_effect (d_dex s) (d_dex s') caller a b da db ma mb (acct_of to) lq pa pb i;
  dp_answer : o = word xa ++ word xb ++ word lq;
  dp_a : xa + reserve_of (d_dex s) a b = pa + balance (lg (d_dex s)) a (pool_addr (pair_of a b));
  dp_b : xb + reserve_of (d_dex s) b a = pb + balance (lg (d_dex s)) b (pool_addr (pair_of a b));
  dp_log : d_logs s' = d_logs s ++
    [Elog (pool_contract a b) [0x4c209b5fc8ad50758f13e2e1088ba56a560dff690a1c6fef26394f4c03821c4f; caller; xa] (word xb)]
}.
Record withdrawal (s s' : dstate) (caller a b lq ma mb to d : N) (o : list N) (i ga gb : N) : Prop := {
  wd_time : now (d_dex s) <= d;
  wd_distinct : a <> b;
  wd_share : lp (d_dex s) !! pair_of a b = Some i;
  wd_moves : withdraw_effect (d_dex s) (d_dex s') caller a b lq ma mb (acct_of to) i ga gb;
  wd_answer : o = word ga ++ word gb;
  wd_log : d_logs s' = d_logs s ++
    [Elog (pool_contract a b) [0xdccd412f0b1252819cb1fd330b93224ca42612892bb3f4f789976e6d81936496; caller; ga; gb] (word to)]
}.
Lemma books_bound s t z : DexInv s -> balance (lg s) t z <= U128MAX.
Proof. intros Hi. destruct (di_books s Hi t) as [H1 H2]. pose proof (balance_le_total (lg s) t z). lia. Qed.
Lemma x_do_add_spec s caller a b da db ma mb to d s' o : DexInv (d_dex s) -> ordinary caller -> to < 2 ^ 160 ->
  x_do_add s caller a b da db ma mb to d = Ok (s', o) ->
  exists xa xb lq pa pb i, deposit s s' caller a b da db ma mb to d o xa xb lq pa pb i.
Proof.
  intros Hi Hc Ht H. unfold x_do_add, do_add, conv_balance, conv_block in H. unfold ensure in H.
  destruct (N.leb_spec da U128MAX); cbn [rbind] in H; [|discriminate]. destruct (N.leb_spec db U128MAX); cbn [rbind] in H; [|discriminate].
  destruct (N.leb_spec ma U128MAX); cbn [rbind] in H; [|discriminate]. destruct (N.leb_spec mb U128MAX); cbn [rbind] in H; [|discriminate].
  destruct (N.leb_spec d U32MAX); cbn [rbind] in H; [|discriminate]. rewrite Hc in H.
  apply rbind_ok in H. destruct H as ([[s1 [y0 y1]] lq] & Hs & H).
  apply rbind_ok in Hs. destruct Hs as ([s2 [[am0 am1] lq2]] & Hadd & Hs). injection Hs as <- Hy <-. injection H as <- <-.
  destruct (add_report (d_dex s) caller a b da db ma mb (acct_of to) (Some d) s2 am0 am1 lq2 Hi ltac:(assumption) ltac:(assumption) Hadd)
    as (Hne & Hdl & pa & pb & i & He & Ea & Eb).
  assert (Hlq : lq2 <= U128MAX).
  { destruct (add_raw (d_dex s) (AUser caller) a b da db ma mb (acct_of to) (Some d) s2 am0 am1 lq2 ltac:(assumption) ltac:(assumption) Hadd)
      as (_ & _ & i' & x0 & x1 & l1 & l2 & l3 & _ & _ & _ & _ & _ & _ & _ & _ & _ & _ & Hm).
    unfold mint in Hm. destruct (N.ltb_spec U128MAX (issuance l3 i' + lq2)); [discriminate|lia]. }
  assert (Hy' : y0 = side a b am0 am1 /\ y1 = side a b am1 am0).
  { unfold caller_order in Hy. unfold side. destruct (a =? fst (pair_of a b)); injection Hy as <- <-; auto. }
  destruct Hy' as [-> ->]. pose proof (books_bound (d_dex s) a (pool_addr (pair_of a b)) Hi). pose proof (books_bound (d_dex s) b (pool_addr (pair_of a b)) Hi).
  pose proof (de_a _ _ _ _ _ _ _ _ _ _ _ _ _ _ He) as [_ Wa]. pose proof (de_b _ _ _ _ _ _ _ _ _ _ _ _ _ _ He) as [_ Wb].
  assert (Ba : side a b am0 am1 < 2 ^ 256) by (unfold U128MAX in *; lia).
  assert (Bb : side a b am1 am0 < 2 ^ 256) by (unfold U128MAX in *; lia).
  assert (Bl : lq2 < 2 ^ 256) by (unfold U128MAX in *; lia).
  exists (side a b am0 am1), (side a b am1 am0), lq2, pa, pb, i. split; cbn [d_dex d_logs]; try assumption.
  - unfold deadline_ok in Hdl. lia.
  - apply out_three; assumption.
  - rewrite out_word by assumption. rewrite pool_contract_of. reflexivity.
Qed.
Lemma x_do_remove_spec s caller a b lq ma mb to d s' o : DexInv (d_dex s) -> ordinary caller -> to < 2 ^ 160 -> not_pool (acct_of to) ->
  x_do_remove s caller a b lq ma mb to d = Ok (s', o) ->
  exists i ga gb, withdrawal s s' caller a b lq ma mb to d o i ga gb.
Proof.
  intros Hi Hc Ht Hnp H. unfold x_do_remove, do_remove, conv_balance, conv_block in H. unfold ensure in H.
  destruct (N.leb_spec lq U128MAX); cbn [rbind] in H; [|discriminate].
  destruct (N.leb_spec ma U128MAX); cbn [rbind] in H; [|discriminate]. destruct (N.leb_spec mb U128MAX); cbn [rbind] in H; [|discriminate].
  destruct (N.leb_spec d U32MAX); cbn [rbind] in H; [|discriminate]. rewrite Hc in H.
  apply rbind_ok in H. destruct H as ([s1 [y0 y1]] & Hs & H).
  apply rbind_ok in Hs. destruct Hs as ([s2 [g0 g1]] & Hrem & Hs). injection Hs as <- Hy. injection H as <- <-.
  destruct (remove_report (d_dex s) caller a b lq ma mb (acct_of to) (Some d) s2 (g0, g1) Hi Hnp Hrem)
    as (Hne & Hdl & i & Hlp & He). cbn [fst snd] in He.
  destruct (remove_raw _ _ _ _ _ _ _ _ _ _ _ Hrem) as (_ & _ & _ & _ & i' & l1 & l2 & l3 & _ & _ & R0 & R1 & _). cbn [fst snd] in R0, R1.
  assert (B0 : g0 < 2 ^ 256) by (rewrite R0; unfold sat128, sat, U128MAX; lia).
  assert (B1 : g1 < 2 ^ 256) by (rewrite R1; unfold sat128, sat, U128MAX; lia).
  assert (Hy' : y0 = side a b g0 g1 /\ y1 = side a b g1 g0).
  { unfold caller_order in Hy. unfold side. destruct (a =? fst (pair_of a b)); injection Hy as <- <-; auto. }
  destruct Hy' as [-> ->].
  assert (Ba : side a b g0 g1 < 2 ^ 256) by (unfold side; destruct (_ =? _); assumption).
  assert (Bb : side a b g1 g0 < 2 ^ 256) by (unfold side; destruct (_ =? _); assumption).
  exists i, (side a b g0 g1), (side a b g1 g0). split; cbn [d_dex d_logs]; try assumption.
  - unfold deadline_ok in Hdl. lia.
  - apply out_pair; assumption.
  - rewrite out_addr by assumption. rewrite pool_contract_of. reflexivity.
Qed.
Ltac static_len := unfold enc_all, abi_seq; rewrite nlen_app; unfold nlen at 1; rewrite heads_length; unfold parts;
  change (is_static tU) with true; change (is_static tA) with true; cbn [hsize tails];
  rewrite ?app_nil_l, ?app_nil_r, ?len_U, ?len_A; unfold USIZE, U32MAX; cbn; lia.
Definition add_ty : list ty := [tA; tA; tU; tU; tU; tU; tA; tU].
Definition add_call (a b da db ma mb to d : N) : list N :=
  build_call X_addLiquidity add_ty [VN (asset_address a); VN (asset_address b); VN da; VN db; VN ma; VN mb; VN to; VN d].
Definition remove_ty : list ty := [tA; tA; tU; tU; tU; tA; tU].
Definition remove_call (a b lq ma mb to d : N) : list N :=
  build_call X_removeLiquidity remove_ty [VN (asset_address a); VN (asset_address b); VN lq; VN ma; VN mb; VN to; VN d].
(** [addLiquidityETH] and [removeLiquidityETH] have the same types. *)
Definition one_ty : list ty := [tA; tU; tU; tU; tA; tU].
Definition one_call (sel a x ma mb to d : N) : list N :=
  build_call sel one_ty [VN (asset_address a); VN x; VN ma; VN mb; VN to; VN d].
Lemma add_call_read a b da db ma mb to d : a <= U32MAX -> b <= U32MAX -> da < 2 ^ 256 -> db < 2 ^ 256 -> ma < 2 ^ 256 -> mb < 2 ^ 256 ->
  to < 2 ^ 160 -> d < 2 ^ 256 -> read_selector (add_call a b da db ma mb to d) = Ok X_addLiquidity /\
  read_args add_ty (add_call a b da db ma mb to d)
  = Ok [VN (asset_address a); VN (asset_address b); VN da; VN db; VN ma; VN mb; VN to; VN d].
Proof.
  intros Ha Hb H1 H2 H3 H4 Ht Hd. apply small_call; [unfold add_ty; static_len| |reflexivity].
  split; [apply wt_A, asset_address_wt, Ha|]. split; [apply wt_A, asset_address_wt, Hb|].
  split; [apply wt_tU; assumption|]. split; [apply wt_tU; assumption|]. split; [apply wt_tU; assumption|]. split; [apply wt_tU; assumption|].
  split; [apply wt_A; assumption|]. split; [apply wt_tU; assumption|exact I].
Qed.
Lemma remove_call_read a b lq ma mb to d : a <= U32MAX -> b <= U32MAX -> lq < 2 ^ 256 -> ma < 2 ^ 256 -> mb < 2 ^ 256 ->
  to < 2 ^ 160 -> d < 2 ^ 256 -> read_selector (remove_call a b lq ma mb to d) = Ok X_removeLiquidity /\
  read_args remove_ty (remove_call a b lq ma mb to d)
  = Ok [VN (asset_address a); VN (asset_address b); VN lq; VN ma; VN mb; VN to; VN d].
Proof.
  intros Ha Hb H1 H3 H4 Ht Hd. apply small_call; [unfold remove_ty; static_len| |reflexivity].
  split; [apply wt_A, asset_address_wt, Ha|]. split; [apply wt_A, asset_address_wt, Hb|].
  split; [apply wt_tU; assumption|]. split; [apply wt_tU; assumption|]. split; [apply wt_tU; assumption|].
  split; [apply wt_A; assumption|]. split; [apply wt_tU; assumption|exact I].
Qed.
Lemma one_call_read sel a x ma mb to d : sel < 2 ^ 32 -> a <= U32MAX -> x < 2 ^ 256 -> ma < 2 ^ 256 -> mb < 2 ^ 256 ->
  to < 2 ^ 160 -> d < 2 ^ 256 -> read_selector (one_call sel a x ma mb to d) = Ok sel /\
  read_args one_ty (one_call sel a x ma mb to d) = Ok [VN (asset_address a); VN x; VN ma; VN mb; VN to; VN d].
Proof.
  intros Hs Ha H1 H3 H4 Ht Hd. apply small_call; [unfold one_ty; static_len| |exact Hs].
  split; [apply wt_A, asset_address_wt, Ha|]. split; [apply wt_tU; assumption|]. split; [apply wt_tU; assumption|]. split; [apply wt_tU; assumption|].
  split; [apply wt_A; assumption|]. split; [apply wt_tU; assumption|exact I].
Qed.
Lemma dx_add s caller v call : x_dispatch X_addLiquidity s caller v call = x_add s caller call.
Proof. reflexivity. Qed.
Lemma dx_add_eth s caller v call : x_dispatch X_addLiquidityETH s caller v call = x_add_eth s caller v call.
Proof. reflexivity. Qed.
Lemma dx_remove s caller v call : x_dispatch X_removeLiquidity s caller v call = x_remove s caller call.
Proof. reflexivity. Qed.
Lemma dx_remove_eth s caller v call : x_dispatch X_removeLiquidityETH s caller v call = x_remove_eth s caller call.
Proof. reflexivity. Qed.
Lemma dx_sell_eth s caller v call : x_dispatch X_swapExactETHForTokens s caller v call = x_swap_exact_eth s caller v call.
Proof. reflexivity. Qed.
Lemma dx_buy_eth s caller v call : x_dispatch X_swapETHForExactTokens s caller v call = x_swap_eth_for_exact s caller v call.
Proof. reflexivity. Qed.
Lemma add_of s caller st v call a b da db ma mb to d s' o : DexInv (d_dex s) -> ordinary caller -> a <= U32MAX -> b <= U32MAX -> to < 2 ^ 160 ->
  read_selector call = Ok X_addLiquidity ->
  read_args add_ty call = Ok [VN (asset_address a); VN (asset_address b); VN da; VN db; VN ma; VN mb; VN to; VN d] ->
  x_call s caller st v call = Ok (s', o) ->
  st = false /\ v = 0 /\ exists xa xb lq pa pb i, deposit s s' caller a b da db ma mb to d o xa xb lq pa pb i.
Proof.
  intros Hi Hc Ha Hb Ht R1 R2 H. destruct (call_np _ _ _ _ _ _ _ R1 eq_refl H) as (-> & Hst & Hd).
  split; [apply Hst; reflexivity|]. split; [reflexivity|]. rewrite dx_add in Hd. unfold x_add in Hd. fold add_ty in Hd. rewrite R2 in Hd.
  cbn [rbind] in Hd. rewrite !asset_at_address in Hd by assumption. cbn [of_opt rbind] in Hd. apply x_do_add_spec; assumption.
Qed.
Lemma remove_of s caller st v call a b lq ma mb to d s' o : DexInv (d_dex s) -> ordinary caller -> a <= U32MAX -> b <= U32MAX -> to < 2 ^ 160 ->
  not_pool (acct_of to) -> read_selector call = Ok X_removeLiquidity ->
  read_args remove_ty call = Ok [VN (asset_address a); VN (asset_address b); VN lq; VN ma; VN mb; VN to; VN d] ->
  x_call s caller st v call = Ok (s', o) ->
  st = false /\ v = 0 /\ exists i ga gb, withdrawal s s' caller a b lq ma mb to d o i ga gb.
Proof.
  intros Hi Hc Ha Hb Ht Hnp R1 R2 H. destruct (call_np _ _ _ _ _ _ _ R1 eq_refl H) as (-> & Hst & Hd).
  split; [apply Hst; reflexivity|]. split; [reflexivity|]. rewrite dx_remove in Hd. unfold x_remove in Hd. fold remove_ty in Hd. rewrite R2 in Hd.
  cbn [rbind] in Hd. rewrite !asset_at_address in Hd by assumption. cbn [of_opt rbind] in Hd. apply x_do_remove_spec; assumption.
Qed.
Lemma remove_eth_of s caller st v call a lq ma mb to d s' o : DexInv (d_dex s) -> ordinary caller -> a <= U32MAX -> to < 2 ^ 160 ->
  not_pool (acct_of to) -> read_selector call = Ok X_removeLiquidityETH ->
  read_args one_ty call = Ok [VN (asset_address a); VN lq; VN ma; VN mb; VN to; VN d] ->
  x_call s caller st v call = Ok (s', o) ->
  st = false /\ v = 0 /\ exists i ga gb, withdrawal s s' caller a 2 lq ma mb to d o i ga gb.
Proof.
  intros Hi Hc Ha Ht Hnp R1 R2 H. destruct (call_np _ _ _ _ _ _ _ R1 eq_refl H) as (-> & Hst & Hd).
  split; [apply Hst; reflexivity|]. split; [reflexivity|]. rewrite dx_remove_eth in Hd. unfold x_remove_eth in Hd. fold one_ty in Hd. rewrite R2 in Hd.
  cbn [rbind] in Hd. rewrite !asset_at_address in Hd by assumption. cbn [of_opt rbind] in Hd. apply x_do_remove_spec; assumption.
Qed.
Theorem C136_add : forall s caller st v a b da db ma mb to d s' o,
  xreachable s -> ordinary caller -> a <= U32MAX -> b <= U32MAX -> da < 2 ^ 256 -> db < 2 ^ 256 -> ma < 2 ^ 256 -> mb < 2 ^ 256 ->
  to < 2 ^ 160 -> d < 2 ^ 256 ->
  x_call s caller st v (add_call a b da db ma mb to d) = Ok (s', o) ->
  st = false /\ v = 0 /\ exists xa xb lq pa pb i, deposit s s' caller a b da db ma mb to d o xa xb lq pa pb i.
Proof.
  intros s caller st v a b da db ma mb to d s' o Hr Hc Ha Hb H1 H2 H3 H4 Ht Hd.
  destruct (add_call_read a b da db ma mb to d) as [R1 R2]; auto. apply add_of; auto. apply xinv, Hr.
Qed.
(** Where nobody has sent tokens to the pool behind its back, the answer is what was paid. *)
Theorem C136_add_exact : forall s caller st v a b da db ma mb to d s' o,
  xreachable s -> ordinary caller -> a <= U32MAX -> b <= U32MAX -> da < 2 ^ 256 -> db < 2 ^ 256 -> ma < 2 ^ 256 -> mb < 2 ^ 256 ->
  to < 2 ^ 160 -> d < 2 ^ 256 -> tidy (d_dex s) (pair_of a b) ->
  x_call s caller st v (add_call a b da db ma mb to d) = Ok (s', o) ->
  exists pa pb lq i, o = word pa ++ word pb ++ word lq /\
    deposit_effect (d_dex s) (d_dex s') caller a b da db ma mb (acct_of to) lq pa pb i.
Proof.
  intros s caller st v a b da db ma mb to d s' o Hr Hc Ha Hb H1 H2 H3 H4 Ht Hd Htd H.
  destruct (C136_add s caller st v a b da db ma mb to d s' o Hr Hc Ha Hb H1 H2 H3 H4 Ht Hd H) as (_ & _ & xa & xb & lq & pa & pb & i & [D1 D2 D3 D4 D5 D6 D7]).
  destruct (tidy_of (d_dex s) a b D2 Htd) as [E1 E2]. rewrite E1 in D5. rewrite E2 in D6.
  exists pa, pb, lq, i. split; [|exact D3]. rewrite D4. assert (xa = pa) by lia. assert (xb = pb) by lia. subst. reflexivity.
Qed.
Theorem C136_remove : forall s caller st v a b lq ma mb to d s' o,
  xreachable s -> ordinary caller -> a <= U32MAX -> b <= U32MAX -> lq < 2 ^ 256 -> ma < 2 ^ 256 -> mb < 2 ^ 256 ->
  to < 2 ^ 160 -> d < 2 ^ 256 -> not_pool (acct_of to) ->
  x_call s caller st v (remove_call a b lq ma mb to d) = Ok (s', o) ->
  st = false /\ v = 0 /\ exists i ga gb, withdrawal s s' caller a b lq ma mb to d o i ga gb.
Proof.
  intros s caller st v a b lq ma mb to d s' o Hr Hc Ha Hb H1 H3 H4 Ht Hd Hnp.
  destruct (remove_call_read a b lq ma mb to d) as [R1 R2]; auto. apply remove_of; auto. apply xinv, Hr.
Qed.
Theorem C136_remove_eth : forall s caller st v a lq ma mb to d s' o,
  xreachable s -> ordinary caller -> a <= U32MAX -> lq < 2 ^ 256 -> ma < 2 ^ 256 -> mb < 2 ^ 256 ->
  to < 2 ^ 160 -> d < 2 ^ 256 -> not_pool (acct_of to) ->
  x_call s caller st v (one_call X_removeLiquidityETH a lq ma mb to d) = Ok (s', o) ->
  st = false /\ v = 0 /\ exists i ga gb, withdrawal s s' caller a 2 lq ma mb to d o i ga gb.
Proof.
  intros s caller st v a lq ma mb to d s' o Hr Hc Ha H1 H3 H4 Ht Hd Hnp.
  destruct (one_call_read X_removeLiquidityETH a lq ma mb to d) as [R1 R2]; auto; [reflexivity|]. apply remove_eth_of; auto. apply xinv, Hr.
Qed.
Example C136_example : tidy (d_dex xs0) (pair_of 2 1) /\
  outcome (x_call xs0 8 false 0 (add_call 2 1 50000 30000 0 0 9 5))
  = Some ([980000; 950000; 0], [0; 0; 0], [0; 0; 0],
          [Elog (pool_contract 1 2) [L_Mint; 8; 50000] (word 20000)], word 50000 ++ word 20000 ++ word 31622) /\
  outcome (x_call xs0 7 false 0 (remove_call 2 1 5000 0 0 9 5))
  = Some ([1000000; 1000000; 0], [3162; 7905; 0], [0; 0; 0],
          [Elog (pool_contract 1 2) [L_Burn; 7; 7905; 3162] (word 9)], word 7905 ++ word 3162).
Proof. split; [split; vm_compute; reflexivity|]. split; vm_compute; reflexivity. Qed.
(** Tokens that somebody sent to the pool are answered, and logged, as if the caller had paid them. *)
Theorem C136_answer_is_payment_refuted : exists s s' o xa xb lq, xreachable s /\
  x_call s 8 false 0 (add_call 1 2 20000 50000 0 0 9 5) = Ok (s', o) /\ o = word xa ++ word xb ++ word lq /\
  d_logs s' = [Elog (pool_contract 1 2) [L_Mint; 8; xa] (word xb)] /\
  balance (lg (d_dex s)) 1 (AUser 8) = balance (lg (d_dex s')) 1 (AUser 8) + 20000 /\ xa = 20777.
Proof.
  exists (run xstep (map XDex (setup ++ [OTransfer 7 1 (APool 1 2) 777])) (xinit 10 3 None)).
  match goal with |- exists s' o xa xb lq, _ /\ ?c = _ /\ _ => exists (st_of c), (out_of c), 20777, 50000, 31622 end.
  split; [exists 10, 3%nat, None; eexists; split; [|reflexivity]; repeat constructor|].
  split; [apply ran; vm_compute; reflexivity|]. split; [vm_compute; reflexivity|]. split; [vm_compute; reflexivity|].
  split; vm_compute; reflexivity.
Qed.

(** ** C137: the logs *)
(** The events of the interface, /repo/evm-precompiles/dex/README.md:7-17, encoded as the ABI says: indexed
    parameters become topics, the others data. *)
Definition readme_mint (pool sender amount0 amount1 : N) : elog := Elog pool [L_Mint; sender] (word amount0 ++ word amount1).
Definition readme_burn (pool sender amount0 amount1 to : N) : elog := Elog pool [L_Burn; sender; to] (word amount0 ++ word amount1).
Definition readme_swap (pool sender in0 in1 out0 out1 to : N) : elog :=
  Elog pool [L_Swap; sender; to] (word in0 ++ word in1 ++ word out0 ++ word out1).
(** None of the three logs can be read as its event, whatever the amounts. *)
Theorem C137_readme_events_refuted : exists swap mint burn s1 s2 s3 o1 o2 o3,
  x_call xs0 8 false 0 (swap_call X_swapExactTokensForTokens 10000 100 [1; 2] 9 5) = Ok (s1, o1) /\ d_logs s1 = [swap] /\
  x_call xs0 8 false 0 (add_call 1 2 20000 50000 0 0 9 5) = Ok (s2, o2) /\ d_logs s2 = [mint] /\
  x_call xs0 7 false 0 (remove_call 1 2 5000 0 0 9 5) = Ok (s3, o3) /\ d_logs s3 = [burn] /\
  (forall pool sender i0 i1 o0 o1 to, swap <> readme_swap pool sender i0 i1 o0 o1 to) /\
  (forall pool sender a0 a1, mint <> readme_mint pool sender a0 a1) /\
  (forall pool sender a0 a1 to, burn <> readme_burn pool sender a0 a1 to).
Proof.
  pose (c1 := x_call xs0 8 false 0 (swap_call X_swapExactTokensForTokens 10000 100 [1; 2] 9 5)).
  pose (c2 := x_call xs0 8 false 0 (add_call 1 2 20000 50000 0 0 9 5)).
  pose (c3 := x_call xs0 7 false 0 (remove_call 1 2 5000 0 0 9 5)).
  exists (swap_event 8 9 1 2 10000 24318), (Elog (pool_contract 1 2) [L_Mint; 8; 20000] (word 50000)),
    (Elog (pool_contract 1 2) [L_Burn; 7; 3162; 7905] (word 9)), (st_of c1), (st_of c2), (st_of c3), (out_of c1), (out_of c2), (out_of c3).
  split; [apply (ran c1); vm_compute; reflexivity|]. split; [vm_compute; reflexivity|].
  split; [apply (ran c2); vm_compute; reflexivity|]. split; [vm_compute; reflexivity|].
  split; [apply (ran c3); vm_compute; reflexivity|]. split; [vm_compute; reflexivity|]. clear c1 c2 c3.
  unfold swap_event, readme_swap, readme_mint, readme_burn. split; [|split]; intros; intros H; apply (f_equal (fun e => length (lg_topics e))) in H; cbn [lg_topics length] in H; discriminate.
Qed.
(** [amount0] and [amount1] belong to the tokens of the pool in order of their ids; a call that names them
    the other way round is logged the other way round. *)
Theorem C137_amount_order_refuted : exists s s' o s2 o2, xreachable s /\
  x_call s 8 false 0 (add_call 1 2 20000 50000 0 0 9 5) = Ok (s', o) /\
  x_call s 8 false 0 (add_call 2 1 50000 20000 0 0 9 5) = Ok (s2, o2) /\ holds s' 8 = holds s2 8 /\ reserves (d_dex s') (1, 2) = reserves (d_dex s2) (1, 2) /\
  d_logs s' = [Elog (pool_contract 1 2) [L_Mint; 8; 20000] (word 50000)] /\
  d_logs s2 = [Elog (pool_contract 1 2) [L_Mint; 8; 50000] (word 20000)].
Proof.
  pose (c1 := x_call xs0 8 false 0 (add_call 1 2 20000 50000 0 0 9 5)).
  pose (c2 := x_call xs0 8 false 0 (add_call 2 1 50000 20000 0 0 9 5)).
  exists xs0, (st_of c1), (out_of c1), (st_of c2), (out_of c2). split; [exact reach_xs0|].
  split; [apply (ran c1); vm_compute; reflexivity|]. split; [apply (ran c2); vm_compute; reflexivity|].
  split; [vm_compute; reflexivity|]. split; [vm_compute; reflexivity|]. split; vm_compute; reflexivity.
Qed.
(** What the logs of a trade do say. *)
Theorem C137_sale_logs : forall s caller st v sel x mn path to d s' o,
  xreachable s -> ordinary caller -> In sel [X_swapExactTokensForTokens; X_swapExactTokensForETH] ->
  x < 2 ^ 256 -> mn < 2 ^ 256 -> typed_path path -> to < 2 ^ 160 -> d < 2 ^ 256 ->
  x_call s caller st v (swap_call sel x mn path to d) = Ok (s', o) ->
  NoDup (hops (hd 0 path) (tl path)) -> not_pool (acct_of to) -> fee_to_no_pool (d_dex s) ->
  Forall (tidy (d_dex s)) (hops (hd 0 path) (tl path)) ->
  d_logs s' = d_logs s ++ swap_events caller to (hd 0 path) (tl path) x (tl (prices_out (d_dex s) x (hd 0 path) (tl path))).
Proof.
  intros s caller st v sel x mn path to d s' o H1 H2 H3 H4 H5 H6 H7 H8 H.
  destruct (C134_sell s caller st v sel x mn path to d s' o H1 H2 H3 H4 H5 H6 H7 H8 H) as (_ & _ & Hs). exact (sl_logs _ _ _ _ _ _ _ _ _ Hs).
Qed.
Theorem C137_purchase_logs : forall s caller st v sel y mx path to d s' o,
  xreachable s -> ordinary caller -> In sel [X_swapTokensForExactTokens; X_swapTokensForExactETH] ->
  y < 2 ^ 256 -> mx < 2 ^ 256 -> typed_path path -> to < 2 ^ 160 -> d < 2 ^ 256 ->
  x_call s caller st v (swap_call sel y mx path to d) = Ok (s', o) ->
  NoDup (hops (hd 0 path) (tl path)) -> not_pool (acct_of to) -> fee_to_no_pool (d_dex s) ->
  Forall (tidy (d_dex s)) (hops (hd 0 path) (tl path)) ->
  d_logs s' = d_logs s ++ swap_events caller to (hd 0 path) (tl path) (chain_in (d_dex s) y (hd 0 path) (tl path))
    (tl (prices_in (d_dex s) y (hd 0 path) (tl path))).
Proof.
  intros s caller st v sel x mn path to d s' o H1 H2 H3 H4 H5 H6 H7 H8 H.
  destruct (C134_buy s caller st v sel x mn path to d s' o H1 H2 H3 H4 H5 H6 H7 H8 H) as (_ & _ & Hs). exact (pu_logs _ _ _ _ _ _ _ _ _ Hs).
Qed.
Example C137_example : NoDup (hops 1 [2; 3]) /\ not_pool (acct_of 9) /\ fee_to_no_pool (d_dex xs0) /\ Forall (tidy (d_dex xs0)) (hops 1 [2; 3]).
Proof.
  split; [apply (bool_decide_unpack _); vm_compute; exact I|].
  split; [intros a b; discriminate|]. split; [intros f H; vm_compute in H; discriminate|].
  constructor; [split; vm_compute; reflexivity|constructor; [split; vm_compute; reflexivity|constructor]].
Qed.

(** ** C138: the functions that take the gas token from the value of the call *)
(** The value, in wei, has gone to the contract as a whole number of drops of 10^12 wei. *)
Record attached (s s1 : dstate) (caller v drops : N) : Prop := {
  at_size : v <= drops * 10 ^ 12 < v + 10 ^ 12;
  at_held : drops <= balance (lg (d_dex s)) 2 (AUser caller);
  at_else : d_dex s1 = set_lg (d_dex s) (lg (d_dex s1)) /\ d_logs s1 = d_logs s;
  at_moves : forall t y, balance (lg (d_dex s1)) t y + (if decide ((2, AUser caller) = (t, y)) then drops else 0)
    = balance (lg (d_dex s)) t y + (if decide ((2, AUser 0xdddd) = (t, y)) then drops else 0)
}.
Lemma call_pay s caller st v call sel r : DexInv (d_dex s) -> ordinary caller -> read_selector call = Ok sel -> x_payable sel = true ->
  x_call s caller st v call = Ok r ->
  st = false /\ exists s1 drops, attached s s1 caller v drops /\ DexInv (d_dex s1) /\ x_dispatch sel s1 caller v call = Ok r.
Proof.
  intros Hi Hc R Hp H. unfold x_call in H. rewrite Hc in H. apply rbind_ok in H. destruct H as (l & Hl & H).
  unfold x_execute in H. rewrite R in H. cbn [rbind] in H. rewrite Hp, !orb_true_r, andb_true_r in H.
  destruct st; [discriminate|]. cbn [negb ensure rbind] in H. split; [reflexivity|].
  unfold evm_transfer in Hl. destruct (N.eqb_spec v 0) as [->|Hv].
  - injection Hl as <-. exists s, 0. rewrite dstate_same in H. split; [|split; [exact Hi|exact H]].
    split; [lia|lia| |intros t y; destruct (decide _), (decide _); lia]. destruct s as [[] ?]; split; reflexivity.
  - apply rbind_ok in Hl. destruct Hl as (w & Hw & Hl). apply scale6 in Hw. unfold XRP_UNIT in Hw.
    exists (DState (set_lg (d_dex s) l) (d_logs s)), w. split; [|split; [exact (inv_transfer _ _ _ _ _ _ Hi Hl)|exact H]].
    destruct (transfer_spec _ _ _ _ _ _ Hl) as (T1 & _ & T3). split; cbn [d_dex d_logs lg set_lg]; auto.
Qed.
Lemma sell_eth_of s caller st v call mn path to d s' o : DexInv (d_dex s) -> ordinary caller -> typed_path path -> to < 2 ^ 160 ->
  read_selector call = Ok X_swapExactETHForTokens -> read_args eth_ty call = Ok [VN mn; path_arg path; VN to; VN d] ->
  x_call s caller st v call = Ok (s', o) ->
  st = false /\ exists s1 drops, attached s s1 caller v drops /\ sale s1 s' caller v mn path to d o.
Proof.
  intros Hi Hc Hp Ht R1 R2 H. destruct (call_pay _ _ _ _ _ _ _ Hi Hc R1 eq_refl H) as (-> & s1 & dr & Hat & Hi1 & Hd).
  split; [reflexivity|]. exists s1, dr. split; [exact Hat|]. rewrite dx_sell_eth in Hd. unfold x_swap_exact_eth in Hd. fold eth_ty in Hd.
  rewrite R2 in Hd. cbn [rbind path_arg] in Hd. apply x_sell_spec; assumption.
Qed.
Lemma buy_eth_of s caller st v call y path to d s' o : DexInv (d_dex s) -> ordinary caller -> typed_path path -> to < 2 ^ 160 ->
  read_selector call = Ok X_swapETHForExactTokens -> read_args eth_ty call = Ok [VN y; path_arg path; VN to; VN d] ->
  x_call s caller st v call = Ok (s', o) ->
  st = false /\ exists s1 drops, attached s s1 caller v drops /\ purchase s1 s' caller y v path to d o.
Proof.
  intros Hi Hc Hp Ht R1 R2 H. destruct (call_pay _ _ _ _ _ _ _ Hi Hc R1 eq_refl H) as (-> & s1 & dr & Hat & Hi1 & Hd).
  split; [reflexivity|]. exists s1, dr. split; [exact Hat|]. rewrite dx_buy_eth in Hd. unfold x_swap_eth_for_exact in Hd. fold eth_ty in Hd.
  rewrite R2 in Hd. cbn [rbind path_arg] in Hd. apply x_buy_spec; assumption.
Qed.
Lemma add_eth_of s caller st v call a da ma mb to d s' o : DexInv (d_dex s) -> ordinary caller -> a <= U32MAX -> to < 2 ^ 160 ->
  read_selector call = Ok X_addLiquidityETH -> read_args one_ty call = Ok [VN (asset_address a); VN da; VN ma; VN mb; VN to; VN d] ->
  x_call s caller st v call = Ok (s', o) ->
  st = false /\ exists s1 drops xa xb lq pa pb i, attached s s1 caller v drops /\
    deposit s1 s' caller a 2 da v ma mb to d o xa xb lq pa pb i.
Proof.
  intros Hi Hc Ha Ht R1 R2 H. destruct (call_pay _ _ _ _ _ _ _ Hi Hc R1 eq_refl H) as (-> & s1 & dr & Hat & Hi1 & Hd).
  split; [reflexivity|]. rewrite dx_add_eth in Hd. unfold x_add_eth in Hd. fold one_ty in Hd.
  rewrite R2 in Hd. cbn [rbind] in Hd. rewrite asset_at_address in Hd by assumption. cbn [of_opt rbind] in Hd.
  destruct (x_do_add_spec s1 caller a GAS da v ma mb to d s' o) as (xa & xb & lq & pa & pb & i & Hdp); auto.
  exists s1, dr, xa, xb, lq, pa, pb, i. split; assumption.
Qed.
Theorem C138_sell_eth : forall s caller st v mn path to d s' o,
  xreachable s -> ordinary caller -> mn < 2 ^ 256 -> typed_path path -> to < 2 ^ 160 -> d < 2 ^ 256 ->
  x_call s caller st v (eth_call X_swapExactETHForTokens mn path to d) = Ok (s', o) ->
  st = false /\ exists s1 drops, attached s s1 caller v drops /\ sale s1 s' caller v mn path to d o.
Proof.
  intros s caller st v mn path to d s' o Hr Hc Hm Hp Ht Hd. destruct (eth_call_read X_swapExactETHForTokens mn path to d) as [R1 R2]; auto; [reflexivity|].
  apply sell_eth_of; auto. apply xinv, Hr.
Qed.
Theorem C138_buy_eth : forall s caller st v y path to d s' o,
  xreachable s -> ordinary caller -> y < 2 ^ 256 -> typed_path path -> to < 2 ^ 160 -> d < 2 ^ 256 ->
  x_call s caller st v (eth_call X_swapETHForExactTokens y path to d) = Ok (s', o) ->
  st = false /\ exists s1 drops, attached s s1 caller v drops /\ purchase s1 s' caller y v path to d o.
Proof.
  intros s caller st v y path to d s' o Hr Hc Hm Hp Ht Hd. destruct (eth_call_read X_swapETHForExactTokens y path to d) as [R1 R2]; auto; [reflexivity|].
  apply buy_eth_of; auto. apply xinv, Hr.
Qed.
Theorem C138_add_eth : forall s caller st v a da ma mb to d s' o,
  xreachable s -> ordinary caller -> a <= U32MAX -> da < 2 ^ 256 -> ma < 2 ^ 256 -> mb < 2 ^ 256 -> to < 2 ^ 160 -> d < 2 ^ 256 ->
  x_call s caller st v (one_call X_addLiquidityETH a da ma mb to d) = Ok (s', o) ->
  st = false /\ exists s1 drops xa xb lq pa pb i, attached s s1 caller v drops /\
    deposit s1 s' caller a 2 da v ma mb to d o xa xb lq pa pb i.
Proof.
  intros s caller st v a da ma mb to d s' o Hr Hc Ha H1 H3 H4 Ht Hd.
  destruct (one_call_read X_addLiquidityETH a da ma mb to d) as [R1 R2]; auto; [reflexivity|]. apply add_eth_of; auto. apply xinv, Hr.
Qed.
(** What has reached the contract stays there. *)
Definition not_by (w : N) (o : xop) : Prop :=
  match o with XDex o => ~ signed_by w o | XCall caller _ _ _ => caller <> w end.
Lemma run_others ops : forall s w t z, DexInv s -> Forall (signed_by w) ops -> z <> AUser w -> not_pool z ->
  balance (lg s) t z <= balance (lg (run step ops s)) t z.
Proof.
  induction ops as [|o ops IH]; intros s w t z Hi Hf Hz Hp; cbn [run fold_left]; [lia|]. inversion_clear Hf as [|? ? Ho Hf'].
  etransitivity; [apply (step_others s o w t z Hi Ho Hz Hp)|]. apply (IH (step s o) w t z); auto. apply (run_dex_inv [o] s Hi).
Qed.
Lemma signed_cases o : (exists w, signed_by w o) \/ (forall s t z, balance (lg s) t z <= balance (lg (step s o)) t z).
Proof.
  destruct o; cbn [signed_by]; try (left; eexists; reflexivity); right; intros s t z; cbn [step lg]; try lia.
  - destruct (lp s !! _); [|lia]. destruct (is_enabled _ _); cbn; lia.
  - destruct (lp s !! _); [|lia]. destruct (is_enabled _ _); cbn; lia.
  - destruct (_ && _); [|lia]. destruct (mint (lg s) asset to v) as [l|] eqn:E; [|lia]. cbn [set_lg lg].
    destruct (mint_spec _ _ _ _ _ E) as (_ & _ & Hb & _). specialize (Hb t z). destruct (decide _); lia.
Qed.
Theorem C138_stuck : forall s ops t, xreachable s -> Forall fair_op ops -> Forall (not_by 0xdddd) ops ->
  balance (lg (d_dex s)) t (AUser 0xdddd) <= balance (lg (d_dex (run xstep ops s))) t (AUser 0xdddd).
Proof.
  intros s ops t Hr. revert s Hr. induction ops as [|o ops IH]; intros s Hr Hf Hn; cbn [run fold_left]; [lia|].
  inversion_clear Hf as [|? ? Ho Hf']. inversion_clear Hn as [|? ? Hw Hn'].
  assert (Hr1 : xreachable (xstep s o)).
  { destruct Hr as (n0 & lim & fee & pre & Hpre & ->). exists n0, lim, fee, (pre ++ [o]). split; [apply Forall_app; split; [assumption|constructor; [assumption|constructor]]|].
    rewrite run_app. reflexivity. }
  etransitivity; [|apply (IH (xstep s o) Hr1 Hf' Hn')]. pose proof (xinv s Hr) as Hi.
  assert (Hnp : not_pool (AUser 0xdddd)) by (intros a b; discriminate).
  destruct o as [o|caller st v call]; cbn [xstep d_dex not_by fair_op] in *.
  - destruct (signed_cases o) as [[w Hs]|Hm]; [|apply Hm]. apply (step_others _ _ w); auto. intros E. injection E as <-. contradiction.
  - destruct (x_call s caller st v call) as [[s' o]|] eqn:E; [|lia].
    destruct (call_ops _ _ _ _ _ _ _ Ho E) as (l & Hl & ->). apply (run_others l _ caller); auto. intros E'. injection E' as E'. congruence.
Qed.
Example C138_example :
  outcome (x_call xs0 8 false 10000 (eth_call X_swapETHForExactTokens 777 [2; 1] 9 5))
  = Some ([1000000; 998046; 0], [777; 0; 0], [0; 1; 0], [swap_event 8 9 2 1 1953 777], amounts_bytes [1953; 777]) /\
  outcome (x_call xs0 8 false 30000 (one_call X_addLiquidityETH 1 20000 0 0 9 5))
  = Some ([988000; 969999; 0], [0; 0; 0], [0; 1; 0],
          [Elog (pool_contract 1 2) [L_Mint; 8; 12000] (word 30000)], word 12000 ++ word 30000 ++ word 18973).
Proof. split; vm_compute; reflexivity. Qed.
(** The value is not what is traded: 10000 wei, one drop of the gas token, are attached; the caller pays
    that drop to the contract and another 10000 drops, 10^16 wei, to the pool. *)
Theorem C138_value_is_the_payment_refuted : exists s s' o, xreachable s /\
  x_call s 8 false 10000 (eth_call X_swapExactETHForTokens 1 [2; 1] 9 5) = Ok (s', o) /\
  balance (lg (d_dex s)) 2 (AUser 8) = balance (lg (d_dex s')) 2 (AUser 8) + 10001 /\
  balance (lg (d_dex s')) 2 (AUser 0xdddd) = balance (lg (d_dex s)) 2 (AUser 0xdddd) + 1.
Proof.
  pose (c := x_call xs0 8 false 10000 (eth_call X_swapExactETHForTokens 1 [2; 1] 9 5)).
  exists xs0, (st_of c), (out_of c). split; [exact reach_xs0|]. split; [apply (ran c); vm_compute; reflexivity|]. split; vm_compute; reflexivity.
Qed.
(** The path need not start with the gas token: here 10000 of the token 1 are sold. *)
Theorem C138_sells_the_gas_token_refuted : exists s s' o, xreachable s /\
  x_call s 8 false 10000 (eth_call X_swapExactETHForTokens 1 [1; 2] 9 5) = Ok (s', o) /\
  balance (lg (d_dex s)) 1 (AUser 8) = balance (lg (d_dex s')) 1 (AUser 8) + 10000.
Proof.
  pose (c := x_call xs0 8 false 10000 (eth_call X_swapExactETHForTokens 1 [1; 2] 9 5)).
  exists xs0, (st_of c), (out_of c). split; [exact reach_xs0|]. split; [apply (ran c); vm_compute; reflexivity|]. vm_compute. reflexivity.
Qed.

(** ** C139: whatever the bytes *)
Theorem C139_only_the_caller_pays : forall s caller st v call s' o t z, xreachable s -> ordinary caller ->
  x_call s caller st v call = Ok (s', o) -> z <> AUser caller -> not_pool z ->
  balance (lg (d_dex s)) t z <= balance (lg (d_dex s')) t z.
Proof.
  intros s caller st v call s' o t z Hr Hc H Hz Hp. destruct (call_ops _ _ _ _ _ _ _ Hc H) as (l & Hl & ->).
  apply (run_others l _ caller); auto. apply xinv, Hr.
Qed.
Theorem C139_exchange_operations : forall s caller st v call s' o, ordinary caller -> x_call s caller st v call = Ok (s', o) ->
  exists ops, Forall (signed_by caller) ops /\ d_dex s' = run step ops (d_dex s).
Proof. intros. eapply call_ops; eassumption. Qed.
Theorem C139_pools_stay_backed : forall s p i, xreachable s -> lp (d_dex s) !! p = Some i ->
  1000 <= shares (d_dex s) i /\ 0 < fst (reserves (d_dex s) p) <= balance (lg (d_dex s)) (fst p) (APool (fst p) (snd p)) /\
  0 < snd (reserves (d_dex s) p) <= balance (lg (d_dex s)) (snd p) (APool (fst p) (snd p)).
Proof.
  intros s p i Hr Hp. pose proof (xreach s Hr) as Hd.
  destruct (C05_never_drained (d_dex s) [] p i Hd Hp) as (H1 & _ & H3 & H4). destruct (C57_reserves_backed (d_dex s) p i Hd Hp) as [H5 H6].
  cbn [run fold_left] in *. auto.
Qed.
Definition writers : list N :=
  [0xe8e33700; 0xf305d719; 0xbaa2abde; 0x02751cec; 0x38ed1739; 0x8803dbee; 0x7ff36ab5; 0x4a25d94a; 0x18cbafe5; 0xfb3bdb41].
Theorem C139_reading_changes_nothing : forall s caller st v call s' o sel, ordinary caller ->
  read_selector call = Ok sel -> st = true \/ ~ In sel writers ->
  x_call s caller st v call = Ok (s', o) -> v = 0 /\ s' = s /\ In sel [0xad615dec; 0x054d50d4; 0x85f8c259; 0xd06ca61f; 0x1f00ca74].
Proof.
  intros s caller st v call s' o sel Hc R Hst H.
  assert (Hw : x_non_payable sel || x_payable sel = false).
  { destruct (x_non_payable sel || x_payable sel) eqn:E; [|reflexivity]. exfalso. destruct Hst as [->|Hn].
    - unfold x_call in H. apply rbind_ok in H. destruct H as (l & _ & H). unfold x_execute in H. rewrite R in H. cbn [rbind] in H.
      rewrite E in H. discriminate.
    - apply Hn. apply orb_true_iff in E. unfold x_non_payable, x_payable in E. rewrite !existsb_exists in E.
      destruct E as [(k & Hin & Hk)|(k & Hin & Hk)]; apply N.eqb_eq in Hk; subst k; unfold writers; cbn [In] in *; tauto. }
  apply orb_false_iff in Hw. destruct Hw as [Hw1 Hw2].
  destruct (call_np _ _ _ _ _ _ _ R Hw2 H) as (-> & _ & Hd). split; [reflexivity|].
  destruct (dispatch_ops _ _ _ _ _ _ _ Hc Hd) as [->|[E _]]; [|rewrite Hw1, Hw2 in E; discriminate]. split; [reflexivity|].
  clear H. unfold x_dispatch in Hd. unfold x_non_payable, x_payable in Hw1, Hw2. cbn [existsb] in Hw1, Hw2.
  repeat match type of Hw1 with _ || _ = false => let W := fresh "W" in apply orb_false_iff in Hw1; destruct Hw1 as [W Hw1]; rewrite W in Hd end.
  repeat match type of Hw2 with _ || _ = false => let W := fresh "W" in apply orb_false_iff in Hw2; destruct Hw2 as [W Hw2]; rewrite W in Hd end.
  cbn [In]. repeat match type of Hd with (if ?k =? ?c then _ else _) = _ => destruct (N.eqb_spec k c) as [->|]; [unfold X_quote, X_getAmountIn, X_getAmountOut, X_getAmountsIn, X_getAmountsOut; tauto|] end.
  discriminate.
Qed.
Theorem C139_value_refused : forall s caller st v call sel, read_selector call = Ok sel -> v <> 0 ->
  ~ In sel [0xf305d719; 0x7ff36ab5; 0xfb3bdb41] -> exists e, x_call s caller st v call = Err e.
Proof.
  intros s caller st v call sel R Hv Hn. destruct (x_call s caller st v call) as [r|e] eqn:H; [exfalso|eauto].
  assert (Hp : x_payable sel = false).
  { destruct (x_payable sel) eqn:E; [|reflexivity]. exfalso. apply Hn. unfold x_payable in E. rewrite existsb_exists in E.
    destruct E as (k & Hin & Hk). apply N.eqb_eq in Hk. subst k. exact Hin. }
  destruct (call_np _ _ _ _ _ _ _ R Hp H) as (E & _). contradiction.
Qed.

(** Only addresses of assets can be traded: every token address a call names, in its path or as one of the two sides
    of a pool, has to start with the four bytes [0xcccccccc]. *)
Definition names_assets (sel : N) (call : list N) (tokens : list val) : Prop :=
  (In sel [X_swapExactTokensForTokens; X_swapTokensForExactTokens; X_swapTokensForExactETH; X_swapExactTokensForETH] /\
   exists x y to d, read_args [tU; tU; tAs; tA; tU] call = Ok [VN x; VN y; VL tokens; VN to; VN d]) \/
  (In sel [X_swapExactETHForTokens; X_swapETHForExactTokens] /\
   exists x to d, read_args [tU; tAs; tA; tU] call = Ok [VN x; VL tokens; VN to; VN d]) \/
  (In sel [X_getAmountsIn; X_getAmountsOut] /\ exists x, read_args [tU; tAs] call = Ok [VN x; VL tokens]) \/
  (sel = X_addLiquidity /\ exists a b x y mx my to d, tokens = [VN a; VN b] /\
   read_args [tA; tA; tU; tU; tU; tU; tA; tU] call = Ok [VN a; VN b; VN x; VN y; VN mx; VN my; VN to; VN d]) \/
  (sel = X_removeLiquidity /\ exists a b lq mx my to d, tokens = [VN a; VN b] /\
   read_args [tA; tA; tU; tU; tU; tA; tU] call = Ok [VN a; VN b; VN lq; VN mx; VN my; VN to; VN d]) \/
  (In sel [X_addLiquidityETH; X_removeLiquidityETH] /\ exists a x mx my to d, tokens = [VN a] /\
   read_args [tA; tU; tU; tU; tA; tU] call = Ok [VN a; VN x; VN mx; VN my; VN to; VN d]).
Lemma assets_all l ids a : assets_of l = Some ids -> In (VN a) l -> a / 2 ^ 128 = 0xcccccccc.
Proof.
  revert ids. induction l as [|v l IH]; intros ids H Hin; [destruct Hin|]. cbn [assets_of] in H.
  destruct (asset_at (num v)) as [x|] eqn:E; [|discriminate]. destruct (assets_of l) as [r|] eqn:F; [|discriminate].
  destruct Hin as [Hv|Hin]; [|exact (IH r eq_refl Hin)]. subst v. cbn [num] in E. unfold asset_at in E.
  destruct (N.eqb_spec (a / 2 ^ 128) 0xcccccccc) as [e|e]; [exact e|discriminate].
Qed.
Lemma asset_only n x : asset_at n = Some x -> n / 2 ^ 128 = 0xcccccccc.
Proof. unfold asset_at. destruct (N.eqb_spec (n / 2 ^ 128) 0xcccccccc) as [e|e]; [intros _; exact e|discriminate]. Qed.
Lemma sell_assets s c x y path to d r a : x_sell s c x y path to d = Ok r -> In (VN a) path -> a / 2 ^ 128 = 0xcccccccc.
Proof.
  unfold x_sell. intros H Hin. apply rbind_ok in H. destruct H as (ids & E & _). apply of_opt_ok in E. exact (assets_all _ _ _ E Hin).
Qed.
Lemma buy_assets s c x y path to d r a : x_buy s c x y path to d = Ok r -> In (VN a) path -> a / 2 ^ 128 = 0xcccccccc.
Proof.
  unfold x_buy. intros H Hin. apply rbind_ok in H. destruct H as (ids & E & _). apply of_opt_ok in E. exact (assets_all _ _ _ E Hin).
Qed.
Lemma amounts_assets f s call x path r a : read_args [tU; tAs] call = Ok [VN x; VL path] ->
  x_amounts f s call = Ok r -> In (VN a) path -> a / 2 ^ 128 = 0xcccccccc.
Proof.
  unfold x_amounts. intros R H Hin. rewrite R in H. cbn [rbind] in H.
  apply rbind_ok in H. destruct H as (ids & E & _). apply of_opt_ok in E. exact (assets_all _ _ _ E Hin).
Qed.
Theorem C139_only_assets : forall s caller st v call sel tokens a r, read_selector call = Ok sel ->
  names_assets sel call tokens -> In (VN a) tokens -> x_call s caller st v call = Ok r -> a / 2 ^ 128 = 0xcccccccc.
Proof.
  intros s caller st v call sel tokens a r R Hn Hin H. unfold x_call in H. apply rbind_ok in H. destruct H as (l & _ & H).
  unfold x_execute in H. rewrite R in H. cbn [rbind] in H.
  apply rbind_ok in H. destruct H as (u1 & _ & H). apply rbind_ok in H. destruct H as (u2 & _ & H). clear u1 u2.
  set (s1 := DState _ _) in H. clearbody s1.
  destruct Hn as [(Hs & x & y & to & d & E)|[(Hs & x & to & d & E)|[(Hs & x & E)|[(Hs & ta & tb & x & y & mx & my & to & d & Ht & E)|
    [(Hs & ta & tb & x & mx & my & to & d & Ht & E)|(Hs & ta & x & mx & my & to & d & Ht & E)]]]]].
  - destruct Hs as [Hs|[Hs|[Hs|[Hs|[]]]]]; rewrite <- Hs in H.
    + change (x_swap_exact_tokens s1 caller call = Ok r) in H. unfold x_swap_exact_tokens in H. rewrite E in H. cbn [rbind] in H.
      exact (sell_assets _ _ _ _ _ _ _ _ _ H Hin).
    + change (x_swap_tokens_for_exact s1 caller call = Ok r) in H. unfold x_swap_tokens_for_exact in H. rewrite E in H. cbn [rbind] in H.
      exact (buy_assets _ _ _ _ _ _ _ _ _ H Hin).
    + change (x_swap_tokens_for_exact s1 caller call = Ok r) in H. unfold x_swap_tokens_for_exact in H. rewrite E in H. cbn [rbind] in H.
      exact (buy_assets _ _ _ _ _ _ _ _ _ H Hin).
    + change (x_swap_exact_tokens s1 caller call = Ok r) in H. unfold x_swap_exact_tokens in H. rewrite E in H. cbn [rbind] in H.
      exact (sell_assets _ _ _ _ _ _ _ _ _ H Hin).
  - destruct Hs as [Hs|[Hs|[]]]; rewrite <- Hs in H.
    + change (x_swap_exact_eth s1 caller v call = Ok r) in H. unfold x_swap_exact_eth in H. rewrite E in H. cbn [rbind] in H.
      exact (sell_assets _ _ _ _ _ _ _ _ _ H Hin).
    + change (x_swap_eth_for_exact s1 caller v call = Ok r) in H. unfold x_swap_eth_for_exact in H. rewrite E in H. cbn [rbind] in H.
      exact (buy_assets _ _ _ _ _ _ _ _ _ H Hin).
  - destruct Hs as [Hs|[Hs|[]]]; rewrite <- Hs in H.
    + change (x_amounts get_amounts_in s1 call = Ok r) in H. exact (amounts_assets _ _ _ _ _ _ _ E H Hin).
    + change (x_amounts get_amounts_out s1 call = Ok r) in H. exact (amounts_assets _ _ _ _ _ _ _ E H Hin).
  - rewrite Hs in H. change (x_add s1 caller call = Ok r) in H. unfold x_add in H. rewrite E in H. cbn [rbind] in H.
    apply rbind_ok in H. destruct H as (ia & Ea & H). apply rbind_ok in H. destruct H as (ib & Eb & _).
    apply of_opt_ok in Ea, Eb. rewrite Ht in Hin. destruct Hin as [Ha|[Ha|[]]]; injection Ha as Ha; rewrite <- Ha.
    + exact (asset_only _ _ Ea).
    + exact (asset_only _ _ Eb).
  - rewrite Hs in H. change (x_remove s1 caller call = Ok r) in H. unfold x_remove in H. rewrite E in H. cbn [rbind] in H.
    apply rbind_ok in H. destruct H as (ia & Ea & H). apply rbind_ok in H. destruct H as (ib & Eb & _).
    apply of_opt_ok in Ea, Eb. rewrite Ht in Hin. destruct Hin as [Ha|[Ha|[]]]; injection Ha as Ha; rewrite <- Ha.
    + exact (asset_only _ _ Ea).
    + exact (asset_only _ _ Eb).
  - rewrite Ht in Hin. destruct Hin as [Ha|[]]. injection Ha as Ha. rewrite <- Ha.
    destruct Hs as [Hs|[Hs|[]]]; rewrite <- Hs in H.
    + change (x_add_eth s1 caller v call = Ok r) in H. unfold x_add_eth in H. rewrite E in H. cbn [rbind] in H.
      apply rbind_ok in H. destruct H as (ia & Ea & _). apply of_opt_ok in Ea. exact (asset_only _ _ Ea).
    + change (x_remove_eth s1 caller call = Ok r) in H. unfold x_remove_eth in H. rewrite E in H. cbn [rbind] in H.
      apply rbind_ok in H. destruct H as (ia & Ea & _). apply of_opt_ok in Ea. exact (asset_only _ _ Ea).
Qed.
(** Different addresses are different accounts, so what one is paid no other can be. *)
Theorem C139_own_account : forall a b, a < 2 ^ 160 -> b < 2 ^ 160 -> acct_of a = acct_of b -> a = b.
Proof.
  assert (P : forall a, a / 2 ^ 128 = 0xdddddddd -> a mod 2 ^ 64 = 0 ->
    a = 0xdddddddd * 2 ^ 128 + (a / 2 ^ 96 mod 2 ^ 32) * 2 ^ 96 + (a / 2 ^ 64 mod 2 ^ 32) * 2 ^ 64).
  { intros a H1 H2.
    pose proof (N.div_mod a (2 ^ 64) ltac:(discriminate)) as D1. rewrite H2, N.add_0_r in D1.
    pose proof (N.div_mod (a / 2 ^ 64) (2 ^ 32) ltac:(discriminate)) as D2.
    rewrite N.div_div in D2 by discriminate. change (2 ^ 64 * 2 ^ 32) with (2 ^ 96) in D2.
    pose proof (N.div_mod (a / 2 ^ 96) (2 ^ 32) ltac:(discriminate)) as D3.
    rewrite N.div_div in D3 by discriminate. change (2 ^ 96 * 2 ^ 32) with (2 ^ 128) in D3. rewrite H1 in D3.
    set (u := a / 2 ^ 96 mod 2 ^ 32) in *. set (w := a / 2 ^ 64 mod 2 ^ 32) in *.
    rewrite D1 at 1. rewrite D2, D3. change (2 ^ 128) with (2 ^ 64 * (2 ^ 32 * 2 ^ 32)). change (2 ^ 96) with (2 ^ 64 * 2 ^ 32). ring. }
  intros a b _ _ H. unfold acct_of in H.
  destruct (N.eqb_spec a BURN_ADDR) as [Ea|Ea], (N.eqb_spec b BURN_ADDR) as [Eb|Eb].
  - rewrite Ea, Eb. reflexivity.
  - destruct ((b / 2 ^ 128 =? 0xdddddddd) && (b mod 2 ^ 64 =? 0)); discriminate.
  - destruct ((a / 2 ^ 128 =? 0xdddddddd) && (a mod 2 ^ 64 =? 0)); discriminate.
  - destruct (N.eqb_spec (a / 2 ^ 128) 0xdddddddd) as [A1|A1], (N.eqb_spec (a mod 2 ^ 64) 0) as [A2|A2],
      (N.eqb_spec (b / 2 ^ 128) 0xdddddddd) as [B1|B1], (N.eqb_spec (b mod 2 ^ 64) 0) as [B2|B2]; cbn [andb] in H;
      try discriminate H; injection H; intros; try assumption.
    rewrite (P a A1 A2), (P b B1 B2). congruence.
Qed.

Example C139_example :
  read_selector (swap_call X_swapExactTokensForTokens 10000 100 [1; 2; 3] 9 5) = Ok 0x38ed1739 /\
  outcome (x_call xs0 8 true 0 (swap_call X_swapExactTokensForTokens 10000 100 [1; 2; 3] 9 5)) = None /\
  outcome (x_call xs0 8 false 1 (swap_call X_swapExactTokensForTokens 10000 100 [1; 2; 3] 9 5)) = None /\
  outcome (x_call xs0 8 false 0 [1; 2; 3; 4]) = None /\
  outcome (x_call xs0 8 false 0 (build_call X_getAmountsOut [tU; tAs] [VN 10000; VL [VN (asset_address 1); VN (asset_address 2)]])) <> None /\
  outcome (x_call xs0 8 false 0 (build_call X_getAmountsOut [tU; tAs] [VN 10000; VL [VN (asset_address 1); VN 9; VN (asset_address 2)]])) = None /\
  acct_of 0xdddddddd00000001000000020000000000000000 = APool 1 2 /\
  acct_of 0xdddddddd00000001000000020000000000000001 = AUser 0xdddddddd00000001000000020000000000000001 /\
  lp (d_dex xs0) !! (1, 2) = Some 10 /\ reserves (d_dex xs0) (1, 2) = (400000, 1000000) /\
  Forall fair_op [XCall 8 false 10000 (eth_call X_swapExactETHForTokens 1 [2; 1] 9 5); XDex (OTransfer 8 2 (AUser 9) 5)] /\
  Forall (not_by 0xdddd) [XCall 8 false 10000 (eth_call X_swapExactETHForTokens 1 [2; 1] 9 5); XDex (OTransfer 8 2 (AUser 9) 5)].
Proof.
  split; [vm_compute; reflexivity|]. split; [vm_compute; reflexivity|]. split; [vm_compute; reflexivity|]. split; [vm_compute; reflexivity|].
  split; [vm_compute; discriminate|]. split; [vm_compute; reflexivity|]. split; [vm_compute; reflexivity|]. split; [vm_compute; reflexivity|].
  split; [vm_compute; reflexivity|]. split; [vm_compute; reflexivity|].
  split; repeat constructor; cbn; lia.
Qed.

Definition all_dex_contract := (@C134_sell, @C134_buy, @C135_amounts_out, @C135_amounts_in, @C135_quoted_sale, @C135_quoted_purchase,
  @C135_quote, @C135_amount_out, @C135_amount_in, @C136_add, @C136_add_exact, @C136_remove, @C136_remove_eth,
  @C136_answer_is_payment_refuted, @C137_readme_events_refuted, @C137_amount_order_refuted, @C137_sale_logs, @C137_purchase_logs,
  @C138_sell_eth, @C138_buy_eth, @C138_add_eth, @C138_stuck, @C138_value_is_the_payment_refuted, @C138_sells_the_gas_token_refuted,
  @C139_only_the_caller_pays, @C139_exchange_operations, @C139_pools_stay_backed, @C139_reading_changes_nothing, @C139_value_refused,
  @C139_only_assets, @C139_own_account).
Print Assumptions all_dex_contract.
