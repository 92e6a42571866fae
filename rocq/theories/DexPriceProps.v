(** Exchange: exact prices (C01, C03), disabled pools (C96), the limits of liquidity providers
    (C97) and their way out (C98). *)
From Verif Require Import DexClaims DexLive DexPrice DexProps.

(** ** C01, C03: every leg pays the fee; trades get exactly the posted price *)
Theorem C01_leg_pays_fee : forall s x y amount to s',
  reachable s -> swap_leg s x y amount to = Ok s' -> leg_pays_fee s s' x y amount.
Proof. intros. eapply leg_fee; [apply reachable_inv; assumption|eassumption]. Qed.

Theorem C03_supply_price : forall s who amount_in min_out path to deadline s',
  reachable s -> swap_with_exact_supply s (AUser who) amount_in min_out path to deadline = Ok s' ->
  swap_effect s s' (AUser who) to (hd 0 path) (List.last path 0) amount_in
    (chain_out s amount_in (hd 0 path) (tl path)).
Proof. intros s who ai mo path to d s' Hr H. exact (proj1 (supply_price _ _ _ _ _ _ _ _ (reachable_inv s Hr) H)). Qed.
Theorem C03_target_price : forall s who amount_out max_in path to deadline s',
  reachable s -> swap_with_exact_target s (AUser who) amount_out max_in path to deadline = Ok s' ->
  chain_in s amount_out (hd 0 path) (tl path) <= max_in /\
  swap_effect s s' (AUser who) to (hd 0 path) (List.last path 0)
    (chain_in s amount_out (hd 0 path) (tl path)) amount_out.
Proof.
  intros s who ao mi path to d s' Hr H.
  destruct (target_price _ _ _ _ _ _ _ _ (reachable_inv s Hr) H) as (H1 & H2 & _). auto.
Qed.
(** The seller of 10000 of asset 1 for asset 3 over asset 2. *)
Example C03_price_example :
  reserve_of s_setup 1 2 = 400000 /\ reserve_of s_setup 2 1 = 1000000 /\
  chain_out s_setup 10000 1 [2; 3] = 13874 /\ chain_in s_setup 777 2 [1] = 1953 /\
  is_ok (swap_with_exact_supply s_setup (AUser 8) 10000 1 [1; 2; 3] (AUser 8) None) = true /\
  is_ok (swap_with_exact_target s_setup (AUser 8) 777 5000 [2; 1] (AUser 9) None) = true.
Proof. vm_compute. repeat split. Qed.
Example C01_fee_example :
  let s := run step (setup ++ [OTransfer 8 1 (APool 1 2) 100000]) (init 10 3 (Some (AUser 99))) in
  match swap_leg s 1 2 190000 (AUser 8) with
  | Ok s' => reserve_of s' 1 2 = 500000 /\ reserve_of s' 2 1 = 810000 /\
      gain (reserve_of s 1 2) (reserve_of s' 1 2) 0 = 100000 /\
      gain (reserve_of s 2 1) (reserve_of s' 2 1) 190000 = 0
  | Err _ => False end.
Proof. vm_compute. repeat split. Qed.

(** ** C96: a disabled pool neither trades nor takes deposits *)
Theorem C96_no_trades : forall s p,
  reachable s -> is_enabled s p = false -> forall who x y path to deadline s',
  In p (hops (hd 0 path) (tl path)) ->
  swap_with_exact_supply s (AUser who) x y path to deadline <> Ok s' /\
  swap_with_exact_target s (AUser who) x y path to deadline <> Ok s'.
Proof.
  intros s p Hr Hp who x y path to d s' Hin. pose proof (reachable_inv s Hr) as Hi. split; intros H.
  - destruct (supply_price _ _ _ _ _ _ _ _ Hi H) as [_ Hf]. rewrite List.Forall_forall in Hf. specialize (Hf p Hin). congruence.
  - destruct (target_price _ _ _ _ _ _ _ _ Hi H) as (_ & _ & Hf). rewrite List.Forall_forall in Hf. specialize (Hf p Hin). congruence.
Qed.
Theorem C96_no_deposits : forall s a b,
  reachable s -> lp s !! pair_of a b <> None -> is_enabled s (pair_of a b) = false ->
  forall w da db ma mb to d r, da <= 2 ^ 128 - 1 -> db <= 2 ^ 128 - 1 ->
  add_liquidity s (AUser w) a b da db ma mb to d <> Ok r.
Proof.
  intros s a b Hr Hl Hp w da db ma mb to d [s' [am lq]] Hda Hdb H.
  destruct (add_paid _ _ _ _ _ _ _ _ _ _ _ _ _ (reachable_inv s Hr) Hda Hdb H) as (_ & _ & pa & pb & i & He).
  pose proof (de_enabled _ _ _ _ _ _ _ _ _ _ _ _ _ _ He Hl). congruence.
Qed.
(** The owner's switch works in both directions. *)
Theorem C96_switch : forall s a b, lp s !! pair_of a b <> None ->
  is_enabled (step s (ODisable a b)) (pair_of a b) = false /\
  is_enabled (step s (OEnable a b)) (pair_of a b) = true.
Proof.
  intros s a b Hl. cbn [step]. destruct (lp s !! pair_of a b); [|congruence].
  destruct (is_enabled s (pair_of a b)) eqn:E; cbn zeta; rewrite ?E; split; auto;
    unfold is_enabled; cbn; rewrite lookup_insert; reflexivity.
Qed.
Definition s_off : dex := run step (setup ++ [ODisable 1 2]) (init 10 3 None).
Lemma reach_off : reachable s_off.
Proof. exists 10, 3%nat, None, (setup ++ [ODisable 1 2]). reflexivity. Qed.
Example C96_example :
  is_enabled s_off (1, 2) = false /\ is_enabled s_off (2, 3) = true /\ In (1, 2) (hops 3 [2; 1]) /\
  is_ok (swap_with_exact_supply s_setup (AUser 7) 5000 1 [3; 2; 1] (AUser 7) None) = true /\
  is_ok (swap_with_exact_supply s_off (AUser 7) 5000 1 [3; 2; 1] (AUser 7) None) = false.
Proof. vm_compute. repeat split. right. left. reflexivity. Qed.

(** ** C97: liquidity providers stay within the limits they gave *)
Theorem C97_deposit : forall s w a b da db ma mb to d s' am lq,
  reachable s -> da <= 2 ^ 128 - 1 -> db <= 2 ^ 128 - 1 ->
  add_liquidity s (AUser w) a b da db ma mb to d = Ok (s', (am, lq)) ->
  (forall x, d = Some x -> now s <= x) /\
  exists pa pb i, deposit_effect s s' w a b da db ma mb to lq pa pb i.
Proof.
  intros s w a b da db ma mb to d s' am lq Hr Hda Hdb H.
  destruct (add_paid _ _ _ _ _ _ _ _ _ _ _ _ _ (reachable_inv s Hr) Hda Hdb H) as (_ & Hd & He).
  split; [|exact He]. intros x ->. cbn in Hd. lia.
Qed.
Theorem C97_withdrawal : forall s w a b lq ma mb to d s' r,
  reachable s -> not_pool to ->
  remove_liquidity s (AUser w) a b lq ma mb to d = Ok (s', r) ->
  (forall x, d = Some x -> now s <= x) /\
  exists i ga gb, lp s !! pair_of a b = Some i /\ withdraw_effect s s' w a b lq ma mb to i ga gb.
Proof.
  intros s w a b lq ma mb to d s' r Hr Hto H.
  destruct (remove_got _ _ _ _ _ _ _ _ _ _ _ (reachable_inv s Hr) Hto H) as (_ & Hd & He).
  split; [|exact He]. intros x ->. cbn in Hd. lia.
Qed.
Example C97_example :
  (* 1000 of asset 2 and at most 500 of asset 1: 400 are taken *)
  match add_liquidity s_setup (AUser 8) 2 1 1000 500 1000 400 (AUser 8) (Some 0) with
  | Ok (s', (_, lq)) => balance (lg s') 1 (AUser 8) = 999600 /\ balance (lg s') 2 (AUser 8) = 999000 /\
      lq = 632 /\ balance (lg s') 10 (AUser 8) = 632
  | Err _ => False end /\
  is_ok (add_liquidity s_setup (AUser 8) 2 1 1000 500 1000 401 (AUser 8) None) = false /\
  match remove_liquidity s_setup (AUser 7) 2 1 6320 9000 3000 (AUser 9) None with
  | Ok (s', _) => balance (lg s') 1 (AUser 9) = 3997 /\ balance (lg s') 2 (AUser 9) = 9992 /\
      worth s_setup (1, 2) 10 6320 1 = 3997
  | Err _ => False end /\
  is_ok (remove_liquidity s_setup (AUser 7) 2 1 6320 9000 3998 (AUser 9) None) = false.
Proof. vm_compute. repeat split. Qed.

(** ** C98: shares can always be turned back *)
Theorem C98_can_withdraw : forall s w a b lq ma mb to d i,
  reachable s -> lp s !! pair_of a b = Some i -> (forall x, d = Some x -> now s <= x) ->
  lq <= balance (lg s) i (AUser w) ->
  0 < worth s (pair_of a b) i lq a -> 0 < worth s (pair_of a b) i lq b ->
  ma <= worth s (pair_of a b) i lq a -> mb <= worth s (pair_of a b) i lq b ->
  exists s' r, remove_liquidity s (AUser w) a b lq ma mb to d = Ok (s', r).
Proof.
  intros s w a b lq ma mb to d i Hr Hl Hd. pose proof (reachable_inv s Hr) as Hi.
  apply remove_ok; auto.
  - intros ->. pose proof (di_some s Hi _ _ Hl) as (_ & _ & _ & H).
    unfold pair_of in H. destruct (b <? b); cbn in H; lia.
  - unfold deadline_ok. destruct d as [x|]; [|reflexivity]. specialize (Hd x eq_refl). lia.
Qed.
Example C98_example :
  lp s_off !! pair_of 2 1 = Some 10 /\ 5 <= balance (lg s_off) 10 (AUser 7) /\
  worth s_off (pair_of 2 1) 10 5 2 = 7 /\ worth s_off (pair_of 2 1) 10 5 1 = 3 /\
  is_ok (remove_liquidity s_off (AUser 7) 2 1 5 7 3 (AUser 7) None) = true.
Proof. vm_compute. repeat split. discriminate. Qed.

Print Assumptions C01_leg_pays_fee.
Print Assumptions C03_supply_price.
Print Assumptions C03_target_price.
Print Assumptions C96_no_trades.
Print Assumptions C96_no_deposits.
Print Assumptions C96_switch.
Print Assumptions C97_deposit.
Print Assumptions C97_withdrawal.
Print Assumptions C98_can_withdraw.
