(** Lemmas about fees. *)
From Verif Require Export DexLive FeeModel.
From Verif Require Import UtilsProofs.

(** ** The amounts *)
Lemma gas_spec gas base mf prio t m :
  calculate_total_gas gas base mf prio = Ok (t, m) ->
  t = gas * (base + default 0 prio) /\ m = default (base * 2 + default 0 prio) mf * gas /\ t <= m.
Proof.
  unfold calculate_total_gas, chk_mul, chk_add. intros H. inv_ok.
  repeat match goal with E : (if ?b then _ else _) = Some _ |- _ => destruct b; [injection E as <-|discriminate] end.
  match goal with E : (_, _) = (_, _) |- _ => injection E as <- <- end. repeat split. lia.
Qed.
Lemma fee_data_spec gas base mf prio t m :
  fee_data gas base mf prio = Ok (t, m) ->
  gas * (base + default 0 prio) <= t * 10 ^ 12 < gas * (base + default 0 prio) + 10 ^ 12 /\
  default (base * 2 + default 0 prio) mf * gas <= m * 10 ^ 12
    < default (base * 2 + default 0 prio) mf * gas + 10 ^ 12 /\
  gas * (base + default 0 prio) <= default (base * 2 + default 0 prio) mf * gas /\ t <= m.
Proof.
  unfold fee_data. intros H. inv_ok. destruct v as [t0 m0]. cbn [fst snd] in *.
  match goal with E : calculate_total_gas _ _ _ _ = _ |- _ => apply gas_spec in E; destruct E as (-> & -> & Hle) end.
  match goal with E : (_, _) = (_, _) |- _ => injection E as <- <- end.
  match goal with A : scale_wei_to_correct_decimals (gas * _) _ = Ok _, B : scale_wei_to_correct_decimals (_ * gas) _ = Ok _ |- _ =>
    pose proof (scale_round_up _ _ _ A) as HA; pose proof (scale_round_up _ _ _ B) as HB;
    pose proof (scale_monotone _ _ _ _ _ Hle A B) as HM end.
  change (18 - XRP_DECIMALS) with 12 in *. tauto.
Qed.

(** ** The swap of an EVM call *)
Lemma amounts_out_direct s x a b am :
  get_amounts_out s x [a; b] = Ok am ->
  exists y rin rout, am = [x; y] /\ get_liquidity s a b = (rin, rout) /\ get_amount_out x rin rout = Ok y.
Proof.
  unfold get_amounts_out. intros H. inv_ok. cbn [amounts_out_loop] in *.
  destruct (get_liquidity s a b) as [rin rout]. inv_ok. subst. eauto 6.
Qed.
Lemma evm_swap_covered s w gas base mf prio asset s' :
  DexInv s -> evm_fee_swap s (AUser w) gas base mf prio asset = Ok s' ->
  exists t m spent got, fee_data gas base mf prio = Ok (t, m) /\
    get_amounts_in s m [asset; XRP] = Ok [spent; m] /\ m <= got /\
    swap_effect s s' (AUser w) (AUser w) asset XRP spent got /\ asset <> XRP.
Proof.
  intros Hi H. unfold evm_fee_swap in H. inv_ok. destruct v as [t m]. cbn [fst snd] in *.
  match goal with E : get_amounts_in _ _ _ = Ok _ |- _ => rename E into Hq end.
  destruct (direct_quote _ _ _ _ _ Hq) as (x & rin & rout & -> & Hl & Hg & He & Hp & H0 & H1 & H2).
  cbn [hd] in H.
  pose proof (quote_distinct s _ _ _ _ Hi Hl H1) as Hne.
  destruct (supply_loop _ _ _ _ _ _ _ _ H) as (x1 & y1 & rest & ar & l & Epath & Ha & _ & _ & Ht & Hsw).
  injection Epath as <- <- <-.
  destruct (amounts_out_direct _ _ _ _ _ Ha) as (y & rin' & rout' & Eam & Hl' & Hout).
  injection Eam as ->. rewrite Hl in Hl'. injection Hl' as <- <-.
  pose proof (transfer_spec _ _ _ _ _ _ Ht) as (Hb & _).
  assert (Hlt : x < U128MAX) by (eapply payable_unsaturated; eassumption).
  assert (Hr : rout <= U128MAX).
  { destruct (liquidity_backed s _ _ rin rout Hi Hl Hne) as [_ Ho]. etransitivity; [exact Ho|]. apply books_bal128, Hi. }
  exists t, m, x, y. repeat split; auto.
  - eapply amount_in_sufficient; eassumption.
  - exact (swap_effect_intro s w asset XRP [] x [y] (AUser w) s' l Hi Ht Hsw eq_refl).
Qed.
Lemma evm_swap_live s w gas base mf prio asset t m x :
  DexInv s -> fee_data gas base mf prio = Ok (t, m) ->
  get_amounts_in s m [asset; XRP] = Ok [x; m] -> x <= balance (lg s) asset (AUser w) ->
  roomy s asset XRP -> exists s', evm_fee_swap s (AUser w) gas base mf prio asset = Ok s'.
Proof.
  intros Hi Hf Hq Hb Hroom. unfold evm_fee_swap. rewrite Hf. cbn [rbind fst snd]. rewrite Hq. cbn [rbind hd].
  destruct (direct_quote _ _ _ _ _ Hq) as (x' & rin & rout & E & Hl & Hg & He & Hp & H0 & H1 & H2).
  injection E as <-. pose proof (quote_distinct s _ _ _ _ Hi Hl H1) as Hne.
  destruct (liquidity_backed s _ _ rin rout Hi Hl Hne) as [Hbi Hbo].
  pose proof (books_bal128 _ asset (pool_addr (pair_of asset XRP)) (di_books s Hi)).
  pose proof (books_bal128 _ XRP (pool_addr (pair_of asset XRP)) (di_books s Hi)).
  assert (Hx118 : x <= 2 ^ 118).
  { destruct Hroom as (Ra & _). destruct (di_books s Hi asset) as [Ht _].
    pose proof (balance_le_total (lg s) asset (AUser w)).
    assert (2 ^ 117 <= 2 ^ 118) by (vm_compute; discriminate). lia. }
  destruct (amount_in_usable _ _ _ _ Hg Hx118) as [y Hy]; [lia|lia|].
  assert (Hlt : x < U128MAX) by (eapply payable_unsaturated; eassumption).
  pose proof (amount_in_sufficient _ _ _ _ _ Hg Hlt Hy ltac:(lia)) as Hsuf.
  assert (Hm : 0 < m). { unfold get_amount_in in Hg. inv_ok. lia. }
  pose proof (fee_data_spec _ _ _ _ _ _ Hf) as (_ & _ & _ & Htm).
  eapply direct_supply_ok with (y := y); try eassumption.
  - unfold get_amounts_out, path_ok. cbn [length]. destruct (plimit s) as [|[|k]]; [lia|lia|]. cbn [Nat.leb andb ensure rbind].
    cbn [amounts_out_loop]. rewrite He. cbn [ensure rbind]. rewrite Hl.
    destruct (N.eqb_spec rin 0); [lia|]. destruct (N.eqb_spec rout 0); [lia|]. cbn [negb andb ensure rbind].
    rewrite Hy. cbn [rbind]. destruct (N.eqb_spec y 0); [lia|]. cbn [negb ensure rbind]. reflexivity.
  - destruct (m - t =? 1); lia.
Qed.

(** ** The swap of [call_with_fee_preferences] *)
Lemma target_direct s w out mx a b to s' :
  DexInv s -> swap_with_exact_target s (AUser w) out mx [a; b] to None = Ok s' ->
  exists paid, paid <= mx /\ get_amounts_in s out [a; b] = Ok [paid; out] /\
    swap_effect s s' (AUser w) to a b paid out /\ a <> b /\ out < U128MAX /\ 0 < out.
Proof.
  intros Hi H. destruct (target_loop _ _ _ _ _ _ _ _ H) as (x1 & y1 & rest & a0 & ar & l & Epath & Ha & _ & Hmx & Ht & Hsw).
  injection Epath as <- <- <-.
  destruct (direct_quote _ _ _ _ _ Ha) as (x & rin & rout & E & Hl & Hg & He & Hp & H0 & H1 & H2).
  injection E as -> ->. pose proof (quote_distinct s _ _ _ _ Hi Hl H1) as Hne.
  exists x. repeat split; auto.
  - exact (swap_effect_intro s w a b [] x [out] to s' l Hi Ht Hsw eq_refl).
  - destruct (liquidity_backed s _ _ rin rout Hi Hl Hne) as [_ Ho].
    pose proof (books_bal128 _ b (pool_addr (pair_of a b)) (di_books s Hi)).
    pose proof (transfer_spec _ _ _ _ _ _ Ht) as (Hb & _).
    assert (Hlt : x < U128MAX) by (eapply payable_unsaturated; eassumption).
    destruct (target_fair _ _ _ _ Hg Hlt) as (_ & Hlt2 & _). lia.
  - unfold get_amount_in in Hg. inv_ok. lia.
Qed.

Lemma add_evm_ge base t c r : t <= U128MAX -> add_evm base t c = Ok r -> t <= r <= U128MAX.
Proof.
  intros Ht. unfold add_evm. destruct c; intros H; inv_ok; subst; try lia.
  destruct (fee_data gas base (Some max_fee) prio) as [fd|e]; inv_ok; subst; [unfold sat; lia|].
  destruct (is_panic e); inv_ok; subst; lia.
Qed.
Lemma evm_cost_ge base fee c r : fee <= U128MAX -> evm_cost base fee c = Ok r -> fee <= r <= U128MAX.
Proof.
  intros Hf H. unfold evm_cost in H. inv_ok.
  assert (Hv : fee <= v <= U128MAX).
  { destruct c; inv_ok; subst; try lia. eapply add_evm_ge; eassumption. }
  pose proof (add_evm_ge _ _ _ _ (proj2 Hv) H). lia.
Qed.
(** The EVM cost of the inner call, as the limit the user set. *)
Definition inner_evm (c : fcall) : option (N * N * option N) :=
  match c with
  | FEvm g m p => Some (g, m, p)
  | FProxy _ (FEvm g m p) => Some (g, m, p)
  | _ => None
  end.
Lemma evm_cost_covers base fee c r g m p t mx :
  evm_cost base fee c = Ok r -> r < U128MAX -> inner_evm c = Some (g, m, p) ->
  fee_data g base (Some m) p = Ok (t, mx) -> fee + mx <= r.
Proof.
  intros H Hr Hin Hf. unfold evm_cost in H. inv_ok.
  destruct c as [| f c'|g0 m0 p0| |]; try discriminate.
  - destruct c'; try discriminate. cbn [inner_evm] in Hin. injection Hin as -> -> ->.
    cbn [add_evm] in *. rewrite Hf in *. inv_ok. cbn [snd] in *. subst. unfold sat in *. lia.
  - cbn [inner_evm] in Hin. injection Hin as -> -> ->. cbn [add_evm] in *. rewrite Hf in *. inv_ok.
    cbn [snd] in *. subst. unfold sat in *. lia.
Qed.

Definition user (x : acct) : Prop := exists n, x = AUser n.

Lemma swap_self s s' w a b paid got y t :
  swap_effect s s' (AUser w) (AUser w) a b paid got -> a <> b -> feeto s <> Some y -> not_pool y ->
  balance (lg s') t y + (if decide ((a, AUser w) = (t, y)) then paid else 0)
  = balance (lg s) t y + (if decide ((b, AUser w) = (t, y)) then got else 0).
Proof. intros He Hne Hf Hy. apply He; [exact Hy|]. intros E. congruence. Qed.

Lemma set_xrp_balance s w v a y :
  balance (lg (set_xrp s w v)) a y = if decide ((XRP, w) = (a, y)) then v else balance (lg s) a y.
Proof. unfold set_xrp. cbn [lg set_lg]. apply balance_set. Qed.

Lemma or_payment_ok {A} (r : result A) x : or_payment r = Ok x -> r = Ok x.
Proof. destruct r; cbn; congruence. Qed.
Lemma currency_withdraw_spec s w fee s' paid :
  currency_withdraw s w fee = Ok (s', paid) ->
  default 0 paid = fee /\ (0 < fee -> fee + 1 <= balance (lg s) XRP w) /\ iss (lg s') = iss (lg s) /\
  forall a y, balance (lg s') a y + (if decide ((XRP, w) = (a, y)) then fee else 0) = balance (lg s) a y.
Proof.
  unfold currency_withdraw. destruct (N.eqb_spec fee 0) as [->|Hf]; intros H; inv_ok.
  - match goal with E : (_, _) = (_, _) |- _ => injection E as <- <- end. repeat split; [lia|].
    intros. destruct (decide _); lia.
  - match goal with E : (_, _) = (_, _) |- _ => injection E as <- <- end. repeat split; [lia|].
    intros a y. rewrite set_xrp_balance. destruct (decide ((XRP, w) = (a, y))) as [E'|_]; [|lia].
    injection E' as <- <-. lia.
Qed.

Definition self_deleg (deleg : acct -> acct -> bool) : Prop := forall f w, deleg f w = true -> user f.
Lemma switch_user deleg who c : self_deleg deleg -> user who -> user (switch deleg who c).
Proof. intros Hd Hw. destruct c; cbn [switch]; auto. destruct (deleg futurepass who) eqn:E; eauto. Qed.
Lemma switch_who deleg who c :
  switch deleg who c = who \/ deleg (switch deleg who c) who = true.
Proof. destruct c; cbn [switch]; auto. destruct (deleg futurepass who) eqn:E; auto. Qed.

(** Once the exchange went through, the fee itself can always be taken. *)
Lemma withdraw_after_swap s s1 w base fee inner t paid a :
  DexInv s -> fee <= U128MAX -> evm_cost base fee inner = Ok t ->
  let total := if balance (lg s) XRP (AUser w) <? 1 then sat U128MAX (t + 1) else t in
  swap_effect s s1 (AUser w) (AUser w) a XRP paid total -> a <> XRP -> total < U128MAX ->
  feeto s <> Some (AUser w) ->
  exists r, currency_withdraw s1 (AUser w) fee = Ok r.
Proof.
  intros Hi Hfee Hc total He Hne Htot Hft. unfold currency_withdraw. destruct (fee =? 0) eqn:E0; [eauto|].
  pose proof (evm_cost_ge _ _ _ _ Hfee Hc) as Ht.
  pose proof (swap_self _ _ _ _ _ _ _ (AUser w) XRP He Hne Hft ltac:(discriminate)) as Hb.
  destruct (decide ((a, AUser w) = (XRP, AUser w))) as [E|_]; [congruence|].
  destruct (decide ((XRP, AUser w) = (XRP, AUser w))) as [_|]; [|congruence].
  assert (Hle : fee + 1 <= balance (lg s1) XRP (AUser w)).
  { subst total. destruct (N.ltb_spec (balance (lg s) XRP (AUser w)) 1); unfold sat in *; lia. }
  destruct (N.leb_spec (fee + 1) (balance (lg s1) XRP (AUser w))); [|lia]. cbn [ensure rbind]. eauto.
Qed.

(** ** Settling *)
Lemma deposit_spec s w v s' c :
  deposit_xrp s w v = (s', c) ->
  iss (lg s') = iss (lg s) /\ (c = 0 \/ c = v) /\
  (balance (lg s) XRP w + v <= U128MAX -> c = v) /\
  forall a y, balance (lg s') a y = balance (lg s) a y + (if decide ((XRP, w) = (a, y)) then c else 0).
Proof.
  unfold deposit_xrp. destruct ((v =? 0) || (U128MAX <? balance (lg s) XRP w + v)) eqn:E; intros H; injection H as <- <-.
  - apply orb_true_iff in E. repeat split; auto.
    + intros Hle. destruct E as [E|E]; lia.
    + intros. destruct (decide _); lia.
  - repeat split; auto. intros a y. rewrite set_xrp_balance. destruct (decide ((XRP, w) = (a, y))) as [E'|_]; [|lia].
    injection E' as <- <-. reflexivity.
Qed.

(** The state between charging and settling: the withdrawn drops are in nobody's account but
    still counted in the issuance. *)
Definition in_flight (s : dex) (p : N) : Prop :=
  LedgerProofs.total (lg s) XRP + p = issuance (lg s) XRP /\ issuance (lg s) XRP <= U128MAX.
Lemma total_set l x v :
  LedgerProofs.total (set_balance (A := acct) l XRP x v) XRP + balance l XRP x = LedgerProofs.total l XRP + v.
Proof. pose proof (total_insert l XRP XRP x v (iss l)) as H. rewrite N.eqb_refl in H. exact H. Qed.
Lemma currency_withdraw_flight s w fee s' paid :
  books (lg s) -> currency_withdraw s w fee = Ok (s', paid) -> in_flight s' (default 0 paid).
Proof.
  intros Hb H. destruct (Hb XRP) as [Ht Hi]. unfold currency_withdraw in H.
  destruct (fee =? 0); inv_ok; match goal with E : (_, _) = (_, _) |- _ => injection E as <- <- end.
  - split; cbn [default]; unfold default, from_option, id; lia.
  - unfold in_flight, set_xrp. cbn [lg set_lg]. pose proof (total_set (lg s) w (balance (lg s) XRP w - fee)) as T.
    change (issuance (set_balance (lg s) XRP w _) XRP) with (issuance (lg s) XRP).
    cbn [default]. unfold default, from_option, id. lia.
Qed.
Lemma withdraw_flight deleg base s who c fee s' payer paid :
  DexInv s -> self_deleg deleg -> user who ->
  withdraw_fee_tx deleg base s who c fee = Ok (s', payer, paid) -> in_flight s' (default 0 paid).
Proof.
  intros Hi Hd Hu H. unfold withdraw_fee_tx in H. destruct c as [asset mx inner| | | |].
  { cbn [switch] in H. inv_ok. destruct v1 as [s2 p2]. cbn [fst snd] in *.
    match goal with E : (_, _, _) = (_, _, _) |- _ => injection E as -> <- -> end.
    destruct (switch_user deleg who inner Hd Hu) as [w Hw]. rewrite Hw in *.
    eapply currency_withdraw_flight; [|eassumption].
    match goal with E : or_payment _ = Ok _ |- _ => apply or_payment_ok in E; apply inv_swap_target in E; [apply E|exact Hi] end. }
  all: inv_ok; destruct v as [s2 p2]; cbn [fst snd] in *;
    match goal with E : (_, _, _) = (_, _, _) |- _ => injection E as -> <- -> end;
    (eapply currency_withdraw_flight; [|eassumption]); apply Hi.
Qed.

Lemma deposit_total s w v s' c : deposit_xrp s w v = (s', c) -> LedgerProofs.total (lg s') XRP = LedgerProofs.total (lg s) XRP + c.
Proof.
  unfold deposit_xrp. destruct (_ || _); intros H; injection H as <- <-; [lia|].
  unfold set_xrp. cbn [lg set_lg]. pose proof (total_set (lg s) w (balance (lg s) XRP w + v)). lia.
Qed.
Lemma settle_spec pot d era who corrected p :
  in_flight d p ->
  let s' := settle_fee pot (Fst d era) who corrected (Some p) in
  LedgerProofs.total (lg (f_dex s')) XRP = issuance (lg (f_dex s')) XRP /\ issuance (lg (f_dex s')) XRP = issuance (lg d) XRP /\
  f_era s' = (if p =? 0 then era else if N.min p corrected =? 0 then era else (era + N.min p corrected) mod 2 ^ 128) /\
  forall a y, balance (lg (f_dex s')) a y = balance (lg d) a y
    + (if decide ((XRP, who) = (a, y)) then p - corrected else 0)
    + (if decide ((XRP, pot) = (a, y)) then N.min p corrected else 0).
Proof.
  intros [Ht Hi]. cbn [settle_fee f_dex f_era].
  destruct (deposit_xrp d who (p - corrected)) as [d1 back] eqn:E1.
  destruct (deposit_spec _ _ _ _ _ E1) as (Hiss1 & _ & Hfull1 & Hb1).
  pose proof (deposit_total _ _ _ _ _ E1) as Ht1.
  assert (Hback : back = p - corrected).
  { apply Hfull1. pose proof (balance_le_total (lg d) XRP who). lia. }
  assert (Hrest : p - back = N.min p corrected) by lia. rewrite Hrest.
  assert (Hiss1' : issuance (lg d1) XRP = issuance (lg d) XRP) by (unfold issuance; rewrite Hiss1; reflexivity).
  destruct (N.eqb_spec (N.min p corrected) 0) as [E0|E0].
  - cbn [f_dex f_era]. split; [lia|]. split; [exact Hiss1'|]. split; [destruct (p =? 0); reflexivity|].
    intros a y. rewrite Hb1. subst back. destruct (decide ((XRP, pot) = (a, y))); lia.
  - destruct (deposit_xrp d1 pot (N.min p corrected)) as [d2 put] eqn:E2.
    destruct (deposit_spec _ _ _ _ _ E2) as (Hiss2 & _ & Hfull2 & Hb2).
    pose proof (deposit_total _ _ _ _ _ E2) as Ht2.
    assert (Hput : put = N.min p corrected).
    { apply Hfull2. pose proof (balance_le_total (lg d1) XRP pot). lia. }
    assert (Hiss2' : issuance (lg d2) XRP = issuance (lg d) XRP) by (unfold issuance in *; rewrite Hiss2; exact Hiss1').
    cbn [f_dex f_era lg set_lg]. subst put. rewrite N.sub_diag, N.sub_0_r.
    assert (Hi2 : issuance (Ledger (bal (lg d2)) (<[XRP:=issuance (lg d2) XRP]> (iss (lg d2)))) XRP = issuance (lg d2) XRP).
    { unfold issuance at 1. cbn [iss]. unfold getN. rewrite lookup_insert. reflexivity. }
    rewrite Hi2. split; [|split; [exact Hiss2'|split]].
    + change (LedgerProofs.total (Ledger (bal (lg d2)) (<[XRP:=issuance (lg d2) XRP]> (iss (lg d2)))) XRP) with (LedgerProofs.total (lg d2) XRP). lia.
    + destruct (N.eqb_spec p 0); [lia|reflexivity].
    + intros a y. change (balance (Ledger (bal (lg d2)) (<[XRP:=issuance (lg d2) XRP]> (iss (lg d2)))) a y) with (balance (lg d2) a y).
      rewrite Hb2, Hb1. subst back. reflexivity.
Qed.
Lemma settle_none pot s who corrected : settle_fee pot s who corrected None = s.
Proof. reflexivity. Qed.

(** ** Panics *)
Lemma amount_in_no_panic out rin rout e : get_amount_in out rin rout = Err e -> is_panic e = false.
Proof.
  unfold get_amount_in, umul, usub, udiv, uadd, ensure, of_opt.
  repeat first [ destruct (chk_mul _ _ _) | destruct (chk_sub _ _) | destruct (chk_div _ _) | destruct (chk_add _ _ _)
               | match goal with |- context [if ?b then _ else _] => destruct b end | progress cbn [rbind] ];
  intros H; first [discriminate | injection H as <-; reflexivity].
Qed.
Lemma quote_no_panic s out a b e : get_amounts_in s out [a; b] = Err e -> is_panic e = false.
Proof.
  unfold get_amounts_in, ensure. destruct (path_ok s [a; b]); cbn [rbind]; [|intros H; injection H as <-; reflexivity].
  cbn [amounts_in_loop rbind]. unfold ensure. destruct (is_enabled s (pair_of a b)); cbn [rbind]; [|intros H; injection H as <-; reflexivity].
  destruct (get_liquidity s a b) as [rin rout].
  destruct (negb (rin =? 0) && negb (rout =? 0)); cbn [rbind]; [|intros H; injection H as <-; reflexivity].
  destruct (get_amount_in out rin rout) eqn:E; cbn [rbind].
  - destruct (negb (a0 =? 0)); cbn [rbind]; intros H; [discriminate|injection H as <-; reflexivity].
  - intros H. injection H as <-. eapply amount_in_no_panic. exact E.
Qed.
Lemma scale_no_panic v : v <= U128MAX * 10 ^ 12 -> exists w, scale_wei_to_correct_decimals v XRP_DECIMALS = Ok w.
Proof.
  intros Hv. unfold scale_wei_to_correct_decimals. change (chk_sub 18 XRP_DECIMALS) with (Some 12). cbn [of_opt rbind].
  cbv zeta. unfold as_u128. pose proof (N.div_mod v (10 ^ 12) ltac:(discriminate)) as D.
  pose proof (N.mod_lt v (10 ^ 12) ltac:(discriminate)) as M.
  set (q := v / 10 ^ 12) in *. set (r := v mod 10 ^ 12) in *. clearbody q r.
  assert (Hq : q <= U128MAX) by (change (10 ^ 12) with 1000000000000 in *; nia).
  destruct (N.eqb_spec r 0) as [E|E].
  - destruct (N.leb_spec q U128MAX); [eauto|lia].
  - destruct (N.leb_spec (q + 1) U128MAX); [eauto|exfalso]. change (10 ^ 12) with 1000000000000 in *.
    assert (q = U128MAX) by lia. subst q. nia.
Qed.
Lemma fee_data_no_panic gas base m prio e :
  gas * m <= U128MAX * 10 ^ 12 -> fee_data gas base (Some m) prio = Err e -> is_panic e = false.
Proof.
  intros Hm H. unfold fee_data in H.
  destruct (calculate_total_gas gas base (Some m) prio) as [[t mx]|e'] eqn:E.
  - apply gas_spec in E. cbn [default] in E. unfold default, from_option, id in E. destruct E as (_ & -> & Hle).
    cbn [rbind fst snd] in H. destruct (scale_no_panic t) as [a Ha]; [lia|].
    destruct (scale_no_panic (m * gas)) as [b Hb]; [lia|]. rewrite Ha, Hb in H. discriminate.
  - cbn [rbind] in H. injection H as <-. revert E. unfold calculate_total_gas, of_opt, ensure.
    repeat first [ destruct (chk_mul _ _ _) | destruct (chk_add _ _ _)
               | match goal with |- context [if ?b then _ else _] => destruct b end | progress cbn [rbind] ];
    intros H; first [discriminate | injection H as <-; reflexivity].
Qed.
Lemma add_evm_no_panic base t c e :
  (forall g m pr, c = FEvm g m pr -> g * m <= U128MAX * 10 ^ 12) -> add_evm base t c <> Err e.
Proof.
  intros Hb. destruct c; cbn [add_evm]; try discriminate.
  destruct (fee_data gas base (Some max_fee) prio) as [fd|e'] eqn:E; [discriminate|].
  rewrite (fee_data_no_panic _ _ _ _ _ (Hb _ _ _ eq_refl) E). discriminate.
Qed.
Lemma withdraw_no_panic deleg base s who c fee e :
  (forall a mx i g m pr, c = FPref a mx i -> i = FEvm g m pr \/ (exists f, i = FProxy f (FEvm g m pr)) ->
     g * m <= U128MAX * 10 ^ 12) ->
  withdraw_fee_tx deleg base s who c fee = Err e -> is_panic e = false.
Proof.
  intros Hb H. unfold withdraw_fee_tx in H.
  assert (Hc : forall d w e, currency_withdraw d w fee = Err e -> is_panic e = false).
  { intros d w e' E. unfold currency_withdraw, ensure in E. destruct (fee =? 0); [discriminate|].
    destruct (_ <=? _); [discriminate|]. injection E as <-. reflexivity. }
  assert (Ho : forall A (r : result A) e, or_payment r = Err e -> is_panic e = false).
  { intros A [x|x] e' E; [discriminate|]. injection E as <-. reflexivity. }
  destruct c as [a mx i| | | |].
  2-5: destruct (currency_withdraw _ _ _) eqn:E; cbn [rbind] in H; [discriminate|injection H as <-; eauto].
  destruct (evm_cost base fee i) as [t|e'] eqn:E.
  - cbn [rbind] in H. destruct (or_payment _) as [s1|e'] eqn:E1; cbn [rbind] in H.
    + destruct (currency_withdraw _ _ _) eqn:E2; cbn [rbind] in H; [discriminate|injection H as <-; eauto].
    + injection H as <-. eapply Ho. exact E1.
  - exfalso. revert E. unfold evm_cost.
    destruct i as [| f i'| | |]; cbn [rbind]; try (eapply add_evm_no_panic; intros; eapply Hb; eauto; fail).
    destruct (add_evm base fee i') eqn:E; cbn [rbind].
    + apply add_evm_no_panic. discriminate.
    + exfalso. revert E. apply add_evm_no_panic. intros g m pr ->. eapply Hb; eauto.
Qed.
