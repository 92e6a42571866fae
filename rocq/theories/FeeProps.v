(** Fees: properties C91-C95. *)
From Verif Require Import UtilsProofs FeeProofs.

(** A state with a pool of asset 1 and XRP (asset 2) and a few accounts. *)
Definition fee_setup : list op :=
  [OMint 1 (AUser 7) 5000000; OMint 2 (AUser 7) 5000000; OMint 1 (AUser 8) 1000000;
   OMint 1 (AUser 9) 1000000; OMint 2 (AUser 9) 5000; OMint 2 (AUser 6) 800;
   OAdd 7 1 2 4000000 1000000 0 0 (AUser 7) None].
Definition s_fee : dex := run step fee_setup (init 10 3 (Some (AUser 1))).
Lemma reach_fee : reachable s_fee.
Proof. exists 10, 3%nat, (Some (AUser 1)), fee_setup. reflexivity. Qed.
Definition no_deleg (f w : acct) : bool := false.
Definition one_deleg (f w : acct) : bool := bool_decide (f = AUser 9) && bool_decide (w = AUser 6).
Lemma one_deleg_user : self_deleg one_deleg.
Proof.
  intros f w H. unfold one_deleg in H. apply andb_true_iff in H. destruct H as [H _].
  apply bool_decide_eq_true in H. subst. exists 9. reflexivity.
Qed.
Ltac roomy_tac := split; [vm_compute; discriminate|]; split; [vm_compute; discriminate|];
  intros j Hj; vm_compute in Hj; injection Hj as <-; vm_compute; discriminate.

(** ** C91: paying for an EVM call in another asset *)
(** The XRP bought covers both the fee and the most the EVM may withdraw; what is spent is the
    exchange's quote for that amount; nobody else's balance changes. *)
Theorem C91_evm_fee_covered : forall s w gas base max_fee prio asset s',
  reachable s -> feeto s <> Some (AUser w) ->
  evm_fee_swap s (AUser w) gas base max_fee prio asset = Ok s' ->
  exists spent limit got,
    get_amounts_in s limit [asset; XRP] = Ok [spent; limit] /\
    balance (lg s') asset (AUser w) + spent = balance (lg s) asset (AUser w) /\
    balance (lg s') XRP (AUser w) = balance (lg s) XRP (AUser w) + got /\
    limit <= got /\
    gas * (base + default 0 prio) <= got * 10 ^ 12 /\
    (forall m, max_fee = Some m -> gas * m <= limit * 10 ^ 12 < gas * m + 10 ^ 12) /\
    (forall y t, not_pool y -> y <> AUser w -> feeto s <> Some y -> balance (lg s') t y = balance (lg s) t y).
Proof.
  intros s w gas base mf prio asset s' Hr Hft H. pose proof (reachable_inv s Hr) as Hi.
  destruct (evm_swap_covered _ _ _ _ _ _ _ _ Hi H) as (t & m & spent & got & Hf & Hq & Hm & He & Hne).
  pose proof (fee_data_spec _ _ _ _ _ _ Hf) as (H1 & H2 & H3 & H4).
  exists spent, m, got.
  pose proof (swap_self _ _ _ _ _ _ _ (AUser w) asset He Hne Hft ltac:(discriminate)) as Ba.
  pose proof (swap_self _ _ _ _ _ _ _ (AUser w) XRP He Hne Hft ltac:(discriminate)) as Bx.
  destruct (decide ((asset, AUser w) = (asset, AUser w))); [|congruence].
  destruct (decide ((XRP, AUser w) = (asset, AUser w))); [congruence|].
  destruct (decide ((asset, AUser w) = (XRP, AUser w))); [congruence|].
  destruct (decide ((XRP, AUser w) = (XRP, AUser w))); [|congruence].
  split; [exact Hq|]. split; [lia|]. split; [lia|]. split; [exact Hm|]. split.
  { nia. }
  split. { intros m0 ->. cbn [default] in *. unfold default, from_option, id in *. lia. }
  intros y u Hy Hyw Hfy.
  pose proof (swap_self _ _ _ _ _ _ _ y u He Hne Hfy Hy) as By.
  destruct (decide ((asset, AUser w) = (u, y))); [congruence|].
  destruct (decide ((XRP, AUser w) = (u, y))); [congruence|]. lia.
Qed.
(** The EVM can then withdraw any fee up to the limit the user signed. *)
Theorem C91_evm_can_withdraw : forall s w gas base m prio asset s' fee,
  reachable s -> feeto s <> Some (AUser w) ->
  evm_fee_swap s (AUser w) gas base (Some m) prio asset = Ok s' -> fee <= gas * m ->
  exists r, withdraw_fee (balance (lg s') XRP (AUser w)) fee = Ok r.
Proof.
  intros s w gas base m prio asset s' fee Hr Hft H Hfee.
  destruct (C91_evm_fee_covered _ _ _ _ _ _ _ _ Hr Hft H) as (spent & limit & got & _ & _ & Hx & Hlim & _ & Hmx & _).
  specialize (Hmx m eq_refl). unfold withdraw_fee. destruct (fee =? 0) eqn:E0; [eauto|].
  destruct (scale_total (sat U128MAX fee) 6) as [v Hv].
  { lia. } { unfold sat, U128MAX. lia. }
  unfold scale_wei_to_6dp. rewrite Hv. cbn [rbind].
  pose proof (scale_round_up _ _ _ Hv) as Hu. change (18 - 6) with 12 in Hu.
  assert (v <= limit). { unfold sat in Hu. nia. }
  destruct (N.leb_spec v (balance (lg s') XRP (AUser w))); [|lia]. cbn [ensure rbind]. eauto.
Qed.
(** A transaction that passed the asset check is not refused by the exchange. *)
Theorem C91_checked_goes_through : forall s w gas base max_fee prio asset,
  reachable s -> roomy s asset XRP ->
  asset_check s (AUser w) gas base max_fee prio asset = Ok tt ->
  exists s', evm_fee_swap s (AUser w) gas base (Some max_fee) (Some prio) asset = Ok s'.
Proof.
  intros s w gas base mf prio asset Hr Hroom H. unfold asset_check in H. inv_ok. destruct v as [t m].
  cbn [fst snd] in *.
  match goal with E : get_amounts_in _ _ _ = Ok _ |- _ => rename E into Hq end.
  destruct (direct_quote _ _ _ _ _ Hq) as (x & rin & rout & -> & _). cbn [hd] in *.
  eapply evm_swap_live; eauto; [apply reachable_inv; exact Hr|].
  unfold ensure in H. destruct (N.leb_spec x (balance (lg s) asset (AUser w))); [assumption|discriminate].
Qed.
(** A pool can be too big for its own arithmetic: the quote is given, the payer has the tokens,
    and the exchange still refuses. *)
Definition big_setup : list op :=
  [OMint 1 (AUser 7) (2 ^ 127); OMint 2 (AUser 7) (2 ^ 127); OMint 1 (AUser 8) (2 ^ 100);
   OAdd 7 1 2 (2 ^ 126) (2 ^ 126) 0 0 (AUser 7) None].
Definition s_big : dex := run step big_setup (init 10 3 None).
Theorem C91_big_pool_refuted : exists s w gas base max_fee prio asset,
  reachable s /\ asset_check s (AUser w) gas base max_fee prio asset = Ok tt /\
  is_ok (evm_fee_swap s (AUser w) gas base (Some max_fee) (Some prio) asset) = false.
Proof.
  exists s_big, 8, 21000, (10 ^ 13), (2 * 10 ^ 13), 0, 1.
  split; [exists 10, 3%nat, None, big_setup; reflexivity|]. vm_compute. split; reflexivity.
Qed.
Example C91_example :
  feeto s_fee <> Some (AUser 8) /\ roomy s_fee 1 XRP /\
  asset_check s_fee (AUser 8) 21000 15000000000 30000000000 0 1 = Ok tt /\
  match evm_fee_swap s_fee (AUser 8) 21000 15000000000 (Some 30000000000) (Some 0) 1 with
  | Ok s' => balance (lg s') 1 (AUser 8) = 997470 /\ balance (lg s') XRP (AUser 8) = 630
  | Err _ => False end.
Proof. split; [vm_compute; discriminate|]. split; [roomy_tac|]. vm_compute. repeat split. Qed.

(** ** C92: [call_with_fee_preferences] *)
(** The payer is the signer or a futurepass the signer is a delegate of; at most the limit is
    spent; the fee is paid without touching the XRP the payer had; with an EVM call inside, the
    XRP for it is bought too; nobody else's balance changes. *)
Theorem C92_within_limit : forall deleg base s who asset max_payment inner fee s' payer paid,
  reachable s -> self_deleg deleg -> user who -> fee <= 2 ^ 128 - 1 -> feeto s <> Some payer ->
  withdraw_fee_tx deleg base s who (FPref asset max_payment inner) fee = Ok (s', payer, paid) ->
  (payer = who \/ deleg payer who = true) /\ default 0 paid = fee /\
  exists spent, spent <= max_payment /\
    balance (lg s') asset payer + spent = balance (lg s) asset payer /\
    balance (lg s) XRP payer <= balance (lg s') XRP payer /\
    (forall g m p t mx, inner_evm inner = Some (g, m, p) -> fee_data g base (Some m) p = Ok (t, mx) ->
       balance (lg s) XRP payer + mx <= balance (lg s') XRP payer) /\
    (forall y t, not_pool y -> y <> payer -> feeto s <> Some y -> balance (lg s') t y = balance (lg s) t y).
Proof.
  intros deleg base s who asset mx inner fee s' payer paid Hr Hd Hu Hfee Hft H.
  pose proof (reachable_inv s Hr) as Hi.
  unfold withdraw_fee_tx in H. cbn [switch] in H. inv_ok. destruct v1 as [s2 p2]. cbn [fst snd] in *.
  match goal with E : (_, _, _) = (_, _, _) |- _ => injection E as -> <- -> end.
  destruct (switch_user deleg who inner Hd Hu) as [w Hw]. rewrite Hw in *.
  match goal with E : or_payment _ = Ok _ |- _ => apply or_payment_ok in E;
    destruct (target_direct _ _ _ _ _ _ _ _ Hi E) as (spent & Hmx & Hq & He & Hne & Htot & Hpos) end.
  match goal with E : currency_withdraw _ _ _ = Ok _ |- _ =>
    destruct (currency_withdraw_spec _ _ _ _ _ E) as (Hp & Hav & _ & Hb) end.
  match goal with E : evm_cost _ _ _ = Ok _ |- _ => pose proof (evm_cost_ge _ _ _ _ Hfee E) as Hge; rename E into Hcost end.
  split; [rewrite <- Hw; apply switch_who|]. split; [exact Hp|].
  exists spent. split; [exact Hmx|].
  pose proof (swap_self _ _ _ _ _ _ _ (AUser w) asset He Hne Hft ltac:(discriminate)) as Ba.
  pose proof (swap_self _ _ _ _ _ _ _ (AUser w) XRP He Hne Hft ltac:(discriminate)) as Bx.
  pose proof (Hb asset (AUser w)) as Ca. pose proof (Hb XRP (AUser w)) as Cx.
  destruct (decide ((asset, AUser w) = (asset, AUser w))); [|congruence].
  destruct (decide ((XRP, AUser w) = (asset, AUser w))); [congruence|].
  destruct (decide ((asset, AUser w) = (XRP, AUser w))); [congruence|].
  destruct (decide ((XRP, AUser w) = (XRP, AUser w))); [|congruence].
  set (tot := if balance (lg s) XRP (AUser w) <? 1 then _ else _) in *.
  assert (Htv : v <= tot).
  { subst tot. destruct (balance (lg s) XRP (AUser w) <? 1); unfold sat in *; lia. }
  split; [lia|]. split; [lia|]. split.
  { intros g m p t mxx Hin Hf. pose proof (evm_cost_covers _ _ _ _ _ _ _ _ _ Hcost ltac:(lia) Hin Hf). lia. }
  intros y u Hy Hyw Hfy. pose proof (swap_self _ _ _ _ _ _ _ y u He Hne Hfy Hy) as By.
  pose proof (Hb u y) as Cy.
  destruct (decide ((asset, AUser w) = (u, y))); [congruence|].
  destruct (decide ((XRP, AUser w) = (u, y))); [congruence|]. lia.
Qed.
(** It goes through when the quote is within the limit and the payer has the tokens, even for
    an account without any XRP. *)
Theorem C92_goes_through : forall deleg base s who w asset max_payment inner fee t x total,
  reachable s -> fee <= 2 ^ 128 - 1 -> switch deleg who inner = AUser w -> feeto s <> Some (AUser w) ->
  evm_cost base fee inner = Ok t -> t < 2 ^ 128 - 1 ->
  total = t + (if balance (lg s) XRP (AUser w) =? 0 then 1 else 0) ->
  get_amounts_in s total [asset; XRP] = Ok [x; total] ->
  x <= max_payment -> x <= balance (lg s) asset (AUser w) -> roomy s asset XRP ->
  exists r, withdraw_fee_tx deleg base s who (FPref asset max_payment inner) fee = Ok r.
Proof.
  intros deleg base s who w asset mx inner fee t x total Hr Hfee Hw Hft Hc Ht Htot Hq Hx Hb Hroom.
  pose proof (reachable_inv s Hr) as Hi.
  unfold withdraw_fee_tx. cbn [switch]. rewrite Hw, Hc. cbn [rbind].
  assert (E : (if balance (lg s) XRP (AUser w) <? 1 then sat U128MAX (t + 1) else t) = total).
  { subst total. change (2 ^ 128 - 1) with U128MAX in *.
    destruct (N.ltb_spec (balance (lg s) XRP (AUser w)) 1); destruct (N.eqb_spec (balance (lg s) XRP (AUser w)) 0);
      unfold sat; lia. }
  rewrite E.
  destruct (direct_target_ok s w total mx asset XRP (AUser w) x _ Hi Hq eq_refl Hx Hb Hroom) as [s1 Hs].
  rewrite Hs. cbn [or_payment rbind].
  destruct (target_direct _ _ _ _ _ _ _ _ Hi Hs) as (spent & _ & _ & He & Hne & Hlt & _).
  rewrite <- E in He, Hlt.
  destruct (withdraw_after_swap s s1 w base fee inner t spent asset Hi Hfee Hc He Hne Hlt Hft) as [r ->].
  cbn [rbind]. eauto.
Qed.
Example C92_example :
  (* signer 6 has 800 drops; the futurepass 9 pays, in asset 1, for a proxied EVM call *)
  self_deleg one_deleg /\ user (AUser 6) /\ roomy s_fee 1 XRP /\
  match withdraw_fee_tx one_deleg 15000000000 s_fee (AUser 6)
          (FPref 1 20000 (FProxy (AUser 9) (FEvm 21000 30000000000 None))) 1500 with
  | Ok (s', payer, paid) => payer = AUser 9 /\ paid = Some 1500 /\
      balance (lg s') 1 (AUser 9) = 991436 /\ balance (lg s') XRP (AUser 9) = 5630 /\
      balance (lg s') XRP (AUser 6) = 800
  | Err _ => False end /\
  (* account 8 has no XRP at all *)
  match withdraw_fee_tx no_deleg 15000000000 s_fee (AUser 8) (FPref 1 7000 FOther) 1500 with
  | Ok (s', payer, paid) => payer = AUser 8 /\ balance (lg s') 1 (AUser 8) = 993968 /\
      balance (lg s') XRP (AUser 8) = 1
  | Err _ => False end.
Proof.
  split; [exact one_deleg_user|]. split; [exists 6; reflexivity|]. split; [roomy_tac|].
  vm_compute. repeat split.
Qed.

(** ** C93: where the fee goes *)
(** Settling gives the signer the unused part back and the pot the rest; nobody else is touched
    and all the XRP is accounted for again. [d] is the state after charging and running the call,
    with [p] drops withdrawn. *)
Theorem C93_settled_exactly : forall deleg base pot s era who c fee corrected d payer paid s',
  reachable s -> self_deleg deleg -> user who ->
  withdraw_fee_tx deleg base s who c fee = Ok (d, payer, paid) ->
  charge_tx deleg base pot (Fst s era) who c fee corrected (fun d => d) = Ok s' ->
  LedgerProofs.total (lg (f_dex s')) XRP = issuance (lg (f_dex s')) XRP /\
  issuance (lg (f_dex s')) XRP = issuance (lg d) XRP /\
  (era + N.min fee corrected < 2 ^ 128 -> f_era s' = era + N.min fee corrected) /\
  forall a y, balance (lg (f_dex s')) a y = balance (lg d) a y
    + (if decide ((XRP, who) = (a, y)) then fee - corrected else 0)
    + (if decide ((XRP, pot) = (a, y)) then N.min fee corrected else 0).
Proof.
  intros deleg base pot s era who c fee corrected d payer paid s' Hr Hd Hu Hw H.
  unfold charge_tx in H. cbn [f_dex f_era] in H. rewrite Hw in H. cbn [rbind] in H. injection H as <-.
  pose proof (withdraw_flight _ _ _ _ _ _ _ _ _ (reachable_inv s Hr) Hd Hu Hw) as Hfl.
  assert (Hp : default 0 paid = fee).
  { unfold withdraw_fee_tx in Hw. destruct c; inv_ok;
      match goal with E : currency_withdraw _ _ _ = Ok ?r |- _ => destruct r as [? ?]; apply currency_withdraw_spec in E; destruct E as (E & _) end;
      cbn [fst snd] in *; match goal with E : (_, _, _) = (_, _, _) |- _ => injection E as _ _ <- end; assumption. }
  destruct paid as [p|]; cbn [default] in Hp; unfold default, from_option, id in Hp; subst fee.
  - destruct (settle_spec pot d era who corrected p Hfl) as (H1 & H2 & H3 & H4).
    split; [exact H1|]. split; [exact H2|]. split; [|exact H4].
    intros Hera. rewrite H3. destruct (N.eqb_spec p 0); [lia|]. destruct (N.eqb_spec (N.min p corrected) 0); [lia|].
    apply N.mod_small. exact Hera.
  - rewrite settle_none. cbn [f_dex f_era]. destruct Hfl as [Ht _]. cbn [default] in Ht. unfold default, from_option, id in Ht.
    split; [lia|]. split; [reflexivity|]. split; [lia|].
    intros a y. destruct (decide ((XRP, who) = (a, y))); destruct (decide ((XRP, pot) = (a, y))); lia.
Qed.
(** For a call whose fee the signer pays in XRP, the signer loses exactly the final fee. *)
Theorem C93_signer_pays_final_fee : forall deleg base pot s era who c fee corrected s',
  reachable s -> self_deleg deleg -> user who -> who <> pot ->
  (forall a m c', c <> FPref a m c') -> switch deleg who c = who -> corrected <= fee ->
  charge_tx deleg base pot (Fst s era) who c fee corrected (fun d => d) = Ok s' ->
  balance (lg (f_dex s')) XRP who + corrected = balance (lg s) XRP who /\
  balance (lg (f_dex s')) XRP pot = balance (lg s) XRP pot + corrected /\
  forall a y, y <> who -> y <> pot -> balance (lg (f_dex s')) a y = balance (lg s) a y.
Proof.
  intros deleg base pot s era who c fee corrected s' Hr Hd Hu Hpot Hc Hsw Hle H.
  pose proof H as H0. unfold charge_tx in H0. inv_ok. destruct v as [[d payer] paid].
  match goal with E : withdraw_fee_tx _ _ _ _ _ _ = Ok _ |- _ => rename E into Hw end. cbn [f_dex] in Hw.
  destruct (C93_settled_exactly _ _ _ _ _ _ _ _ _ _ _ _ _ Hr Hd Hu Hw H) as (_ & _ & _ & Hb).
  assert (Hd2 : forall a y, balance (lg d) a y + (if decide ((XRP, who) = (a, y)) then fee else 0) = balance (lg s) a y
                /\ (0 < fee -> fee + 1 <= balance (lg s) XRP who)).
  { intros a y. unfold withdraw_fee_tx in Hw. rewrite Hsw in Hw.
    destruct c as [a0 m0 c0| | | |]; [exfalso; eapply Hc; reflexivity|..]; inv_ok;
      match goal with E : currency_withdraw _ _ _ = Ok ?r |- _ => destruct r as [? ?]; apply currency_withdraw_spec in E; destruct E as (_ & E1 & _ & E) end;
      cbn [fst snd] in *; match goal with E : (_, _, _) = (_, _, _) |- _ => injection E as <- _ _ end; split; auto. }
  split; [|split].
  - pose proof (Hb XRP who) as B. destruct (Hd2 XRP who) as [D D0].
    destruct (decide ((XRP, who) = (XRP, who))); [|congruence].
    destruct (decide ((XRP, pot) = (XRP, who))); [congruence|]. lia.
  - pose proof (Hb XRP pot) as B. destruct (Hd2 XRP pot) as [D D0].
    destruct (decide ((XRP, who) = (XRP, pot))); [congruence|].
    destruct (decide ((XRP, pot) = (XRP, pot))); [|congruence]. lia.
  - intros a y Hy Hy'. pose proof (Hb a y) as B. destruct (Hd2 a y) as [D D0].
    destruct (decide ((XRP, who) = (a, y))); [congruence|].
    destruct (decide ((XRP, pot) = (a, y))); [congruence|]. lia.
Qed.
(** The refund goes to the signer even when a futurepass paid: the delegate pockets it. *)
Theorem C93_refund_to_payer_refuted : exists deleg base pot s era who c fee corrected s' payer d paid,
  reachable s /\ self_deleg deleg /\ user who /\
  withdraw_fee_tx deleg base s who c fee = Ok (d, payer, paid) /\ payer <> who /\
  charge_tx deleg base pot (Fst s era) who c fee corrected (fun d => d) = Ok s' /\
  balance (lg (f_dex s')) XRP payer + fee = balance (lg s) XRP payer /\
  balance (lg (f_dex s')) XRP who = balance (lg s) XRP who + (fee - corrected) /\ corrected < fee.
Proof.
  exists one_deleg, 0, (AUser 5), s_fee, 0, (AUser 6), (FProxy (AUser 9) FOther), 1500, 1000.
  eexists. exists (AUser 9). eexists. eexists.
  split; [exact reach_fee|]. split; [exact one_deleg_user|]. split; [exists 6; reflexivity|].
  split; [vm_compute; reflexivity|]. split; [discriminate|]. split; [vm_compute; reflexivity|].
  vm_compute. repeat split.
Qed.
Example C93_example :
  match charge_tx no_deleg 0 (AUser 5) (Fst s_fee 77) (AUser 9) (FWrap FOther) 1500 1000 (fun d => d) with
  | Ok s' => balance (lg (f_dex s')) XRP (AUser 9) = 4000 /\ balance (lg (f_dex s')) XRP (AUser 5) = 1000 /\
      f_era s' = 1077
  | Err _ => False end.
Proof. vm_compute. repeat split. Qed.

(** ** C94: the fee code does not panic *)
Theorem C94_check_never_panics : forall s w gas base m prio asset e,
  gas <= 2 ^ 64 - 1 -> gas * m <= (2 ^ 128 - 1) * 10 ^ 12 ->
  asset_check s w gas base m prio asset = Err e -> is_panic e = false.
Proof.
  intros s w gas base m prio asset e Hg Hm H. unfold asset_check, ensure in H.
  destruct (N.leb_spec gas U64MAX) as [_|Hg2]; [|unfold U64MAX in Hg2; lia]. cbn [rbind] in H.
  destruct (fee_data gas base (Some m) (Some prio)) as [[t mx]|e'] eqn:E; cbn [rbind fst snd] in H.
  - destruct (get_amounts_in s mx [asset; XRP]) as [am|e'] eqn:Eq; cbn [rbind] in H.
    + destruct (_ <=? _); [discriminate|]. injection H as <-. reflexivity.
    + injection H as <-. eapply quote_no_panic. exact Eq.
  - injection H as <-. eapply fee_data_no_panic; [|exact E]. exact Hm.
Qed.
(** Nor does charging, when the EVM call inside a preference call stays within that bound. *)
Theorem C94_charge_never_panics : forall deleg base s who c fee e,
  (forall a mx i g m pr, c = FPref a mx i -> i = FEvm g m pr \/ (exists f, i = FProxy f (FEvm g m pr)) ->
     g * m <= (2 ^ 128 - 1) * 10 ^ 12) ->
  withdraw_fee_tx deleg base s who c fee = Err e -> is_panic e = false.
Proof. intros deleg base s who c fee e. exact (withdraw_no_panic deleg base s who c fee e). Qed.
(** Prices and limits are the sender's to choose: three transactions that make it panic. *)
Theorem C94_huge_price_refuted : exists s w gas base m prio asset,
  reachable s /\ gas <= 2 ^ 64 - 1 /\ m <= 2 ^ 256 - 1 /\
  asset_check s w gas base m prio asset = Err 90 /\
  withdraw_fee_tx no_deleg base s w (FPref asset 1 (FEvm gas m (Some prio))) 1500 = Err 90.
Proof.
  exists s_fee, (AUser 8), 21000, 15000000000, (2 ^ 200), 0, 1. split; [exact reach_fee|].
  vm_compute. repeat split; discriminate.
Qed.
Theorem C94_huge_gas_refuted : exists s w gas base m prio asset,
  reachable s /\ gas <= 2 ^ 256 - 1 /\ asset_check s w gas base m prio asset = Err 93.
Proof.
  exists s_fee, (AUser 8), (2 ^ 64), 1, 1, 0, 1. split; [exact reach_fee|]. vm_compute. split; [discriminate|reflexivity].
Qed.
Example C94_example :
  21000 * (2 ^ 60) <= (2 ^ 128 - 1) * 10 ^ 12 /\
  asset_check s_fee (AUser 8) 21000 15000000000 (2 ^ 60) 0 1 = Err 102 /\ is_panic 102 = false.
Proof. vm_compute. repeat split; discriminate. Qed.

(** ** C95: the preference holds wherever the call is made *)
(** Only a preference at the top of the transaction counts. Any other call pays in XRP. *)
Theorem C95_others_pay_xrp : forall deleg base s who c fee s' payer paid,
  (forall a m c', c <> FPref a m c') ->
  withdraw_fee_tx deleg base s who c fee = Ok (s', payer, paid) ->
  (payer = who \/ deleg payer who = true) /\
  forall a y, balance (lg s') a y + (if decide ((XRP, payer) = (a, y)) then fee else 0) = balance (lg s) a y.
Proof.
  intros deleg base s who c fee s' payer paid Hc H. unfold withdraw_fee_tx in H.
  destruct c as [a0 m0 c0| | | |]; [exfalso; eapply Hc; reflexivity|..]; inv_ok;
    match goal with E : currency_withdraw _ _ _ = Ok ?r |- _ => destruct r as [? ?]; apply currency_withdraw_spec in E; destruct E as (_ & _ & _ & E) end;
    cbn [fst snd] in *; match goal with E : (_, _, _) = (_, _, _) |- _ => injection E as <- <- _ end;
    (split; [|eassumption]).
  all: first [exact (switch_who deleg who (FProxy futurepass c)) | left; reflexivity].
Qed.
(** A nested preference call succeeds and reports the asset and limit, but the fee was paid in
    XRP. *)
Theorem C95_nested_ignored_refuted : exists s who c asset limit fee s' payer paid,
  reachable s /\ prefs c = [(asset, limit)] /\ asset <> XRP /\
  withdraw_fee_tx no_deleg 0 s who c fee = Ok (s', payer, paid) /\ payer = who /\
  balance (lg s') asset who = balance (lg s) asset who /\
  balance (lg s') XRP who + fee = balance (lg s) XRP who /\ 0 < fee.
Proof.
  exists s_fee, (AUser 9), (FWrap (FPref 1 20000 FOther)), 1, 20000, 1500. eexists. exists (AUser 9). eexists.
  split; [exact reach_fee|]. split; [reflexivity|]. split; [discriminate|].
  split; [vm_compute; reflexivity|]. vm_compute. repeat split.
Qed.
Example C95_example : prefs (FPref 1 20000 FOther) = [(1, 20000)] /\
  match withdraw_fee_tx no_deleg 0 s_fee (AUser 9) (FPref 1 20000 FOther) 1500 with
  | Ok (s', _, _) => balance (lg s') 1 (AUser 9) < balance (lg s_fee) 1 (AUser 9) /\
      balance (lg s') XRP (AUser 9) = balance (lg s_fee) XRP (AUser 9)
  | Err _ => False end.
Proof. vm_compute. repeat split. Qed.

Print Assumptions C91_evm_fee_covered.
Print Assumptions C91_evm_can_withdraw.
Print Assumptions C91_checked_goes_through.
Print Assumptions C91_big_pool_refuted.
Print Assumptions C92_within_limit.
Print Assumptions C92_goes_through.
Print Assumptions C93_settled_exactly.
Print Assumptions C93_signer_pays_final_fee.
Print Assumptions C93_refund_to_payer_refuted.
Print Assumptions C94_check_never_panics.
Print Assumptions C94_charge_never_panics.
Print Assumptions C94_huge_price_refuted.
Print Assumptions C94_huge_gas_refuted.
Print Assumptions C95_others_pay_xrp.
Print Assumptions C95_nested_ignored_refuted.
