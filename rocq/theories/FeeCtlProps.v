(** C184: fees are what fee control says. *)
From Verif Require Export FeeCtlModel.

Lemma perbill_exact p x : p <= BILLION -> x <= U64MAX ->
  perbill_mul p x = x * p / BILLION + (if BILLION / 2 <? (x * p) mod BILLION then 1 else 0) /\ perbill_mul p x <= x.
Proof.
  intros Hp Hx. unfold perbill_mul. cbv zeta. set (q := x / BILLION). set (r := x mod BILLION).
  assert (Hx' : x = BILLION * q + r) by (apply N.div_mod; discriminate). assert (Hr : r < BILLION) by (apply N.mod_lt; discriminate).
  assert (E : x * p = r * p + (q * p) * BILLION) by (rewrite Hx'; ring).
  assert (E1 : x * p / BILLION = q * p + r * p / BILLION) by (rewrite E, N.div_add by discriminate; lia).
  assert (E2 : (x * p) mod BILLION = (r * p) mod BILLION) by (rewrite E; apply N.mod_add; discriminate).
  rewrite E1, E2. set (c := if _ <? _ then 1 else 0).
  assert (Hc : r * p / BILLION + c <= r).
  { assert (D : r * p = BILLION * (r * p / BILLION) + (r * p) mod BILLION) by (apply N.div_mod; discriminate). subst c. destruct (N.ltb_spec (BILLION / 2) ((r * p) mod BILLION)) as [L|L].
    - assert (r * p <= r * BILLION) by (apply N.mul_le_mono_l; exact Hp). set (dd := r * p / BILLION) in *. set (m := (r * p) mod BILLION) in *. set (y := r * p) in *. clearbody dd m y. change (BILLION / 2) with 500000000 in *. unfold BILLION in *. clear - L D H Hr. lia.
    - rewrite N.add_0_r. apply N.div_le_upper_bound; [discriminate|]. rewrite N.mul_comm. apply N.mul_le_mono_r. exact Hp. }
  assert (Hq : q * p <= BILLION * q) by (rewrite N.mul_comm; apply N.mul_le_mono_r; exact Hp).
  assert (Hs : q * p + (r * p / BILLION + c) <= x) by (rewrite Hx'; apply N.add_le_mono; assumption).
  rewrite N.mod_small; [split; [rewrite N.add_assoc; reflexivity|exact Hs]|]. eapply N.le_lt_trans; [exact Hs|]. eapply N.le_lt_trans; [exact Hx|]. reflexivity.
Qed.

(** ** C184 *)
(** The fee for weight is the multiplier's share of it, rounded to the nearest, down if in the middle. *)
Theorem C184_nearest c w : wmul c <= BILLION -> w <= U64MAX -> let f := weight_to_fee c w in
  2 * f * BILLION <= 2 * (w * wmul c) + BILLION /\ 2 * (w * wmul c) <= 2 * f * BILLION + BILLION /\ (2 * f * BILLION = 2 * (w * wmul c) + BILLION -> False).
Proof.
  intros Hp Hw. cbv zeta. unfold weight_to_fee. destruct (perbill_exact _ _ Hp Hw) as [-> _]. set (y := w * wmul c). assert (D : y = BILLION * (y / BILLION) + y mod BILLION) by (apply N.div_mod; discriminate).
  assert (L : y mod BILLION < BILLION) by (apply N.mod_lt; discriminate). set (q := y / BILLION) in *. set (r := y mod BILLION) in *. clearbody q r y. change (BILLION / 2) with 500000000. unfold BILLION in *. destruct (N.ltb_spec 500000000 r); lia.
Qed.
(** It is at most the weight itself, grows with the weight, and nothing overflows. *)
Theorem C184_bounded c w : wmul c <= BILLION -> w <= U64MAX -> weight_to_fee c w <= w.
Proof. intros Hp Hw. apply (perbill_exact _ _ Hp Hw). Qed.
Theorem C184_monotone c v w : wmul c <= BILLION -> v <= w -> w <= U64MAX -> weight_to_fee c v <= weight_to_fee c w.
Proof.
  intros Hp Hv Hw. destruct (C184_nearest c v Hp ltac:(lia)) as (A1 & A2 & A3). destruct (C184_nearest c w Hp Hw) as (B1 & B2 & B3). assert (M : v * wmul c <= w * wmul c) by (apply N.mul_le_mono_r; exact Hv).
  set (a := weight_to_fee c v) in *. set (b := weight_to_fee c w) in *. clearbody a b. set (x := v * wmul c) in *. set (y := w * wmul c) in *. clearbody x y. destruct (N.le_gt_cases a b) as [|L]; [assumption|exfalso]. unfold BILLION in *. apply A3. lia.
Qed.
(** The fee for length is the multiplier times the length, if that is a balance. *)
Theorem C184_length c len : lmul c * len <= U128MAX -> length_to_fee c len = lmul c * len.
Proof. intros H. apply N.mod_small. eapply N.le_lt_trans; [exact H|reflexivity]. Qed.
(** With a larger one a long transaction may pay nothing. *)
Theorem C184_length_refuted : exists c a b, lmul c <= U128MAX /\ a < b /\ b <= 2 ^ 22 /\ length_to_fee c b = 0 /\ 0 < length_to_fee c a.
Proof. exists (FeeCfg 0 0 (2 ^ 120)), 255, 256. vm_compute. repeat split; discriminate. Qed.
(** Only root sets the three numbers, each by its own call, and the fees and gas price follow at once. *)
Theorem C184_set c o : match o with
  | FBase true v => min_gas_price (fstep c o) = v /\ forall w, weight_to_fee (fstep c o) w = weight_to_fee c w /\ length_to_fee (fstep c o) w = length_to_fee c w
  | FWeight true v => min_gas_price (fstep c o) = min_gas_price c /\ forall w, weight_to_fee (fstep c o) w = perbill_mul v w /\ length_to_fee (fstep c o) w = length_to_fee c w
  | FLength true v => min_gas_price (fstep c o) = min_gas_price c /\ forall w, weight_to_fee (fstep c o) w = weight_to_fee c w /\ length_to_fee (fstep c o) w = (v * w) mod 2 ^ 128
  | FBase false _ | FWeight false _ | FLength false _ => fstep c o = c end.
Proof. destruct o as [[] v|[] v|[] v]; cbn; auto. Qed.
(** A thousandth of the weight and 350 for each byte: a fee, and a case of rounding. *)
Example C184_example : weight_to_fee (FeeCfg 0 1000000 350) 1500 = 1 /\ weight_to_fee (FeeCfg 0 1000000 350) 1501 = 2 /\ length_to_fee (FeeCfg 0 1000000 350) 100 = 35000.
Proof. vm_compute. auto. Qed.

Definition feectl_theorems := (C184_nearest, C184_bounded, C184_monotone, C184_length, C184_length_refuted, C184_set).
Print Assumptions feectl_theorems.
