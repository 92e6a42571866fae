(** Exchange: properties C01-C08, C57, C58. *)
From Verif Require Import DexClaims DexAddr.

(** A concrete history: three assets, two pools, swaps in both directions, a donation,
    a removal. *)
Definition setup : list op :=
  [OMint 1 (AUser 7) 1000000; OMint 2 (AUser 7) 5000000; OMint 3 (AUser 7) 900000;
   OMint 1 (AUser 8) 1000000; OMint 2 (AUser 8) 1000000;
   OAdd 7 1 2 400000 1000000 0 0 (AUser 7) None;
   OAdd 7 2 3 500000 300000 0 0 (AUser 7) None].
Definition demo : list op :=
  setup ++
  [OSwapSupply 8 10000 1 [1; 2; 3] (AUser 8) None;
   OSwapTarget 8 777 5000 [2; 1] (AUser 9) (Some 4);
   OTransfer 8 1 (APool 1 2) 55;
   OSwapSupply 8 123 1 [2; 1] (AUser 8) None;
   ORemove 7 1 2 1234 0 0 (AUser 7) None].
Definition s_setup : dex := run step setup (init 10 3 None).
Definition s_demo : dex := run step demo (init 10 3 None).
Lemma reach_setup : reachable s_setup.
Proof. exists 10, 3%nat, None, setup. reflexivity. Qed.
Lemma reach_demo : reachable s_demo.
Proof. exists 10, 3%nat, None, demo. reflexivity. Qed.

(** ** C01 *)
Theorem C01_swap_supply_keeps_product : forall s who amount_in min_out path to deadline p,
  reachable s ->
  product s p <= product (step s (OSwapSupply who amount_in min_out path to deadline)) p.
Proof. intros. apply step_product; [apply reachable_inv; assumption|exact I]. Qed.
Theorem C01_swap_target_keeps_product : forall s who amount_out max_in path to deadline p,
  reachable s ->
  product s p <= product (step s (OSwapTarget who amount_out max_in path to deadline)) p.
Proof. intros. apply step_product; [apply reachable_inv; assumption|exact I]. Qed.
(** Over whole histories: only removing liquidity can lower the product. *)
Theorem C01_history_keeps_product : forall s ops p,
  reachable s -> Forall not_remove ops -> product s p <= product (run step ops s) p.
Proof. intros. apply history_product; [apply reachable_inv; assumption|assumption]. Qed.
Example C01_example :
  let s' := step s_setup (OSwapSupply 8 10000 1 [1; 2; 3] (AUser 8) None) in
  reserves s_setup (1, 2) = (400000, 1000000) /\ reserves s' (1, 2) = (410000, 975682) /\
  product s_setup (1, 2) < product s' (1, 2) /\ product s_setup (2, 3) < product s' (2, 3).
Proof. vm_compute. repeat split; reflexivity. Qed.

(** ** C02 *)
Theorem C02_quote_sufficient : forall out rin rout x y,
  rout <= 2 ^ 128 - 1 -> x < 2 ^ 128 - 1 ->
  get_amount_in out rin rout = Ok x -> get_amount_out x rin rout = Ok y -> out <= y.
Proof. intros. eapply amount_in_sufficient; eassumption. Qed.
Theorem C02_quote_usable : forall out rin rout x,
  rin <= 2 ^ 128 - 1 -> rout <= 2 ^ 128 - 1 -> x <= 2 ^ 118 ->
  get_amount_in out rin rout = Ok x -> exists y, get_amount_out x rin rout = Ok y.
Proof. intros. eapply amount_in_usable; eassumption. Qed.
Theorem C02_quote_tight : forall out rin rout x z y,
  get_amount_in out rin rout = Ok x -> get_amount_out z rin rout = Ok y -> out <= y -> x <= z + 1.
Proof. exact amount_in_tight. Qed.
(** The query saturates at the largest 128-bit amount instead of failing; that answer is not
    sufficient. *)
Theorem C02_saturated_quote_refuted : exists out rin rout x y,
  rin <= 2 ^ 128 - 1 /\ rout <= 2 ^ 128 - 1 /\
  get_amount_in out rin rout = Ok x /\ get_amount_out x rin rout = Ok y /\ y < out.
Proof.
  exists (2 ^ 100 - 1), (2 ^ 127), (2 ^ 100), (2 ^ 128 - 1), 844253606164024524577296657154.
  vm_compute. repeat split; try reflexivity; discriminate.
Qed.
Example C02_example :
  get_amount_in 777 1000000 400000 = Ok 1953 /\ get_amount_out 1953 1000000 400000 = Ok 777 /\
  get_amount_out 1952 1000000 400000 = Ok 776.
Proof. vm_compute. repeat split; reflexivity. Qed.

(** ** C03 *)
Theorem C03_exact_supply : forall s who amount_in min_out path to deadline,
  reachable s ->
  let s' := step s (OSwapSupply who amount_in min_out path to deadline) in
  s' = s \/
  ((forall b, deadline = Some b -> now s <= b) /\
   exists got, min_out <= got /\
     swap_effect s s' (AUser who) to (hd 0 path) (List.last path 0) amount_in got).
Proof.
  intros s w ai mo path to d Hr s'. unfold s'. cbn [step].
  destruct (swap_with_exact_supply _ _ _ _ _ _ _) eqn:E; cbn [commit]; [|left; reflexivity].
  right. eapply supply_effect; [apply reachable_inv|]; eassumption.
Qed.
Theorem C03_exact_target : forall s who amount_out max_in path to deadline,
  reachable s ->
  let s' := step s (OSwapTarget who amount_out max_in path to deadline) in
  s' = s \/
  ((forall b, deadline = Some b -> now s <= b) /\
   exists paid, paid <= max_in /\
     swap_effect s s' (AUser who) to (hd 0 path) (List.last path 0) paid amount_out).
Proof.
  intros s w ao mi path to d Hr s'. unfold s'. cbn [step].
  destruct (swap_with_exact_target _ _ _ _ _ _ _) eqn:E; cbn [commit]; [|left; reflexivity].
  right. eapply target_effect; [apply reachable_inv|]; eassumption.
Qed.
Example C03_example :
  let s1 := step s_setup (OSwapSupply 8 10000 13874 [1; 2; 3] (AUser 8) None) in
  let s2 := step s_setup (OSwapSupply 8 10000 13875 [1; 2; 3] (AUser 8) None) in
  let s3 := step s_setup (OSwapTarget 8 777 5000 [2; 1] (AUser 9) (Some 4)) in
  balance (lg s_setup) 1 (AUser 8) = 1000000 /\ balance (lg s1) 1 (AUser 8) = 990000 /\
  balance (lg s1) 3 (AUser 8) = 13874 /\ balance (lg s2) 1 (AUser 8) = 1000000 /\
  balance (lg s3) 2 (AUser 8) = 998047 /\ balance (lg s3) 1 (AUser 9) = 777.
Proof. vm_compute. repeat split; reflexivity. Qed.

(** ** C04 *)
Theorem C04_share_value_never_falls : forall s ops p i,
  reachable s -> feeto s = None -> Forall not_fee_change ops -> lp s !! p = Some i ->
  value_le s (run step ops s) p i.
Proof. intros. apply history_value; try assumption. apply reachable_inv; assumption. Qed.

Example C04_example :
  reachable s_setup /\ feeto s_setup = None /\ lp s_setup !! (1, 2) = Some 10 /\
  product s_setup (1, 2) = 400000 * 1000000 /\ shares s_setup 10 = 632455 /\
  product s_demo (1, 2) = 408429 * 975757 /\ shares s_demo 10 = 631221.
Proof. split; [exact reach_setup|]. vm_compute. repeat split; reflexivity. Qed.

(** ** C05, C57 *)
Theorem C05_never_drained : forall s ops p i,
  reachable s -> lp s !! p = Some i ->
  let s' := run step ops s in
  1000 <= shares s' i /\ 1000 <= balance (lg s') i ABurn /\
  0 < fst (reserves s' p) /\ 0 < snd (reserves s' p).
Proof.
  intros s ops p i Hr Hp s'.
  destruct (never_drained ops s p i (reachable_inv s Hr) Hp) as (H1 & H2 & [H3 _] & [H4 _]). auto.
Qed.
Theorem C57_reserves_backed : forall s p i,
  reachable s -> lp s !! p = Some i ->
  fst (reserves s p) <= balance (lg s) (fst p) (APool (fst p) (snd p)) /\
  snd (reserves s p) <= balance (lg s) (snd p) (APool (fst p) (snd p)).
Proof.
  intros s p i Hr Hp.
  destruct (never_drained [] s p i (reachable_inv s Hr) Hp) as (_ & _ & [_ H3] & [_ H4]). auto.
Qed.

(** Even after everybody removed all the shares they own. *)
Example C05_example :
  let s' := run step [ORemove 7 1 2 631455 0 0 (AUser 7) None] s_setup in
  lp s_setup !! (1, 2) = Some 10 /\ balance (lg s_setup) 10 (AUser 7) = 631455 /\
  shares s' 10 = 1000 /\ reserves s' (1, 2) = (633, 1582) /\ balance (lg s') 1 (APool 1 2) = 633.
Proof. vm_compute. repeat split; reflexivity. Qed.

(** ** C06 *)
Theorem C06_round_trip_not_profitable :
  forall s w a b da db ma mb d s1 deposited lq ma' mb' d' s2 received t,
  reachable s -> synced s (pair_of a b) ->
  add_liquidity s (AUser w) a b da db ma mb (AUser w) d = Ok (s1, (deposited, lq)) ->
  remove_liquidity s1 (AUser w) a b lq ma' mb' (AUser w) d' = Ok (s2, received) ->
  t = a \/ t = b ->
  balance (lg s2) t (AUser w) <= balance (lg s) t (AUser w).
Proof. intros. eapply round_trip; try eassumption. apply reachable_inv; assumption. Qed.

Example C06_example :
  synced s_demo (pair_of 2 1) /\
  match add_liquidity s_demo (AUser 8) 2 1 1001 999 0 0 (AUser 8) None with
  | Ok (s1, (dep, lq)) =>
      dep = (418, 1001) /\ lq = 646 /\
      match remove_liquidity s1 (AUser 8) 2 1 646 0 0 (AUser 8) None with
      | Ok (s2, rec) => rec = (417, 998) /\
          balance (lg s2) 2 (AUser 8) + 3 = balance (lg s_demo) 2 (AUser 8)
      | Err _ => False
      end
  | Err _ => False
  end.
Proof.
  split.
  { repeat split; try (vm_compute; reflexivity).
    intros i Hi. vm_compute in Hi. injection Hi as <-. vm_compute. reflexivity. }
  vm_compute. repeat split; reflexivity.
Qed.

(** ** C07 *)
Theorem C07_fee_at_most_sixth : forall n0 lim f ops x y amount to s' p i,
  Forall fee_stays_on ops ->
  let s := run step ops (init n0 lim (Some f)) in
  swap_leg s x y amount to = Ok s' -> lp s !! p = Some i ->
  exists m, shares s' i = shares s i + m /\
    fee_fair m (shares s' i) (product s p) (product s' p).
Proof.
  intros. eapply leg_fee_fair; try eassumption.
  - apply run_dex_inv, init_inv.
  - apply run_feeinv. assumption.
Qed.
(** Providers adding or removing liquidity are not charged: nobody but the receiver named by the
    provider gains shares. *)
Theorem C07_adding_not_charged : forall s w a b da db ma mb to d s' r i f,
  reachable s -> add_liquidity s (AUser w) a b da db ma mb to d = Ok (s', r) ->
  lp s !! pair_of a b = Some i -> f <> to -> balance (lg s') i f = balance (lg s) i f.
Proof. intros. eapply add_no_fee; try eassumption. apply reachable_inv; assumption. Qed.
Theorem C07_removing_not_charged : forall s w a b lq ma mb to d s' r i f,
  reachable s -> remove_liquidity s (AUser w) a b lq ma mb to d = Ok (s', r) ->
  lp s !! pair_of a b = Some i -> balance (lg s') i f <= balance (lg s) i f.
Proof. intros. eapply remove_no_fee; try eassumption. apply reachable_inv; assumption. Qed.
Example C07_example :
  let s := run step (setup ++ [OTransfer 8 1 (APool 1 2) 100000]) (init 10 3 (Some (AUser 99))) in
  match swap_leg s 1 2 190000 (AUser 8) with
  | Ok s' => lp s !! (1, 2) = Some 10 /\ shares s 10 = 632455 /\ shares s' 10 = 633108 /\
             balance (lg s') 10 (AUser 99) = 653
  | Err _ => False
  end.
Proof. vm_compute. repeat split; reflexivity. Qed.
(** The full claim is false: when the fee receiver is unset and set again, the remembered product
    is stale ([do_add_liquidity] skips the update, lib.rs:733, and nothing resets it), so the next
    swap charges liquidity that was added in between.  Here a swap that grows the root of the
    product by 0.01% makes the receiver own 8% of the pool. *)
Definition toggle : list op :=
  setup ++ [OSetFeeTo None; OAdd 7 1 2 400000 1000000 0 0 (AUser 7) None;
            OSetFeeTo (Some (AUser 99)); OTransfer 8 1 (APool 1 2) 1000].
Theorem C07_toggle_refuted : exists s x y amount to s' p i,
  reachable s /\ swap_leg s x y amount to = Ok s' /\ lp s !! p = Some i /\
  exists m, shares s' i = shares s i + m /\
    ~ fee_fair m (shares s' i) (product s p) (product s' p) /\
    12 * m > shares s i /\ 1000 * N.sqrt (product s' p) < 1001 * N.sqrt (product s p).
Proof.
  set (s := run step toggle (init 10 3 (Some (AUser 99)))).
  exists s, 1, 2, 2000, (AUser 8), (commit s (swap_leg s 1 2 2000 (AUser 8))), (1, 2), 10.
  split; [exists 10, 3%nat, (Some (AUser 99)), toggle; reflexivity|].
  split; [apply ok_commit; vm_compute; reflexivity|].
  split; [vm_compute; reflexivity|]. exists 115007.
  split; [vm_compute; reflexivity|]. split; [|vm_compute; split; reflexivity].
  unfold fee_fair. vm_compute. intros H. apply H. reflexivity.
Qed.

(** ** C08 *)
Theorem C08_conservation : forall s ops c,
  reachable s -> Forall not_mint ops -> (forall p, lp (run step ops s) !! p <> Some c) ->
  total (lg (run step ops s)) c = total (lg s) c.
Proof. intros. apply history_total; try assumption. apply reachable_inv; assumption. Qed.
Example C08_example :
  total (lg s_demo) 1 = 2000000 /\ total (lg s_setup) 1 = 2000000 /\
  balance (lg s_demo) 1 (APool 1 2) = 408429 /\ Forall not_mint (skipn 7 demo).
Proof. split; [|split; [|split]]; try (vm_compute; reflexivity). repeat constructor. Qed.

(** ** C58 *)
Theorem C58_pool_accounts_distinct : forall a b c d,
  a < 2 ^ 32 -> b < 2 ^ 32 -> c < 2 ^ 32 -> d < 2 ^ 32 ->
  pool_address_bytes a b = pool_address_bytes c d -> a = c /\ b = d.
Proof. exact pool_address_inj. Qed.
Example C58_example : pool_address_bytes 1 2 <> pool_address_bytes 2 1 /\
  length (pool_address_bytes 1124 305419896) = 20%nat.
Proof. split; [vm_compute; discriminate|reflexivity]. Qed.

Print Assumptions C01_swap_supply_keeps_product.
Print Assumptions C01_swap_target_keeps_product.
Print Assumptions C01_history_keeps_product.
Print Assumptions C02_quote_sufficient.
Print Assumptions C02_quote_usable.
Print Assumptions C02_quote_tight.
Print Assumptions C02_saturated_quote_refuted.
Print Assumptions C03_exact_supply.
Print Assumptions C03_exact_target.
Print Assumptions C04_share_value_never_falls.
Print Assumptions C05_never_drained.
Print Assumptions C57_reserves_backed.
Print Assumptions C06_round_trip_not_profitable.
Print Assumptions C07_fee_at_most_sixth.
Print Assumptions C07_adding_not_charged.
Print Assumptions C07_removing_not_charged.
Print Assumptions C07_toggle_refuted.
Print Assumptions C08_conservation.
Print Assumptions C58_pool_accounts_distinct.
