(** Direct trades go through: a quoted exchange between the two assets of a pool succeeds when
    the trader holds what the quote asks for. *)
From Verif Require Export DexClaims.

(** The amount [ao] is fair for an input [cur] at a pool with reserves [rin], [rout]. *)
Definition leg_fair (rin rout cur ao : N) : Prop :=
  0 < ao /\ ao < rout /\ rin * rout * 1000 <= (rin * 1000 + cur * 997) * (rout - ao).

Lemma supply_fair cur rin rout ao :
  get_amount_out cur rin rout = Ok ao -> 0 < ao -> rout <= U128MAX -> leg_fair rin rout cur ao.
Proof.
  unfold get_amount_out, umul, udiv, uadd, usub, sat128, sat. intros H Hpos Hr. inv_ok.
  unfold FEE_DEN, FEE_NUM in *. change (1000 - 3) with 997 in *.
  assert (Hd : rin * 1000 + cur * 997 <> 0) by lia.
  pose proof (N.mul_div_le (cur * 997 * rout) (rin * 1000 + cur * 997) Hd) as Hq.
  set (q := cur * 997 * rout / (rin * 1000 + cur * 997)) in *.
  assert (Hao : ao <= q) by lia.
  assert (Hle : ao * (rin * 1000 + cur * 997) <= cur * 997 * rout) by nia.
  assert (Hlt : ao < rout).
  { destruct (N.lt_ge_cases ao rout); [assumption|exfalso].
    assert (rout * (rin * 1000 + cur * 997) <= cur * 997 * rout) by nia. nia. }
  split; [exact Hpos|]. split; [exact Hlt|].
  assert (exists z, rout = ao + z) as [z Hz] by (exists (rout - ao); lia).
  replace (rout - ao) with z by lia. subst rout. nia.
Qed.
Lemma target_fair cur rin rout ao :
  get_amount_in ao rin rout = Ok cur -> cur < U128MAX -> leg_fair rin rout cur ao.
Proof.
  unfold get_amount_in, umul, udiv, uadd, usub, sat128, sat. intros H Hlt. inv_ok.
  unfold FEE_DEN, FEE_NUM in *. change (1000 - 3) with 997 in *.
  set (den := (rout - ao) * 997) in *. set (num := rin * ao * 1000) in *.
  assert (Hx : cur = num / den + 1) by lia.
  assert (Hden : den <> 0) by assumption.
  assert (Hnum : num < cur * den).
  { subst cur. pose proof (N.div_mod num den Hden). pose proof (N.mod_lt num den Hden). nia. }
  split; [lia|]. split; [subst den; lia|]. subst num den. nia.
Qed.

Lemma mint_fee_ok s i ra rb :
  books (lg s) -> issuance (lg s) i <= 2 ^ 127 -> exists r, mint_fee s i ra rb = Ok r.
Proof.
  intros Hb Hi. unfold mint_fee. destruct (feeto s) as [f|]; [|destruct (_ =? 0); eauto].
  destruct (getN (lastk s) i =? 0) eqn:Ek; [eauto|]. cbv zeta.
  set (rk := N.sqrt (sat U256MAX (ra * rb))). set (rkl := N.sqrt (getN (lastk s) i)).
  destruct (N.ltb_spec rkl rk) as [Hlt|]; [|eauto].
  assert (Hrk : rk <= 2 ^ 128).
  { unfold rk. etransitivity; [apply N.sqrt_le_mono; unfold sat; apply N.le_min_r|]. vm_compute; discriminate. }
  unfold usub, umul, uadd, udiv.
  unfold chk_sub. destruct (N.leb_spec rkl rk); [|lia]. cbn [of_opt rbind].
  rewrite chk_mul_ok.
  2:{ etransitivity; [apply N.mul_le_mono; [exact Hi|exact (N.le_trans _ _ _ (N.le_sub_l rk rkl) Hrk)]|]. vm_compute; discriminate. }
  cbn [of_opt rbind]. rewrite chk_mul_ok.
  2:{ etransitivity; [apply N.mul_le_mono_r; exact Hrk|]. vm_compute; discriminate. }
  cbn [of_opt rbind]. rewrite chk_add_ok.
  2:{ etransitivity; [apply N.add_le_mono; [apply N.mul_le_mono_r; exact Hrk|apply N.lt_le_incl; eapply N.lt_le_trans; [exact Hlt|exact Hrk]]|]. vm_compute; discriminate. }
  cbn [of_opt rbind]. unfold chk_div. destruct (N.eqb_spec (rk * 5 + rkl) 0); [lia|]. cbn [of_opt rbind].
  destruct (0 <? _) eqn:E0; [|eauto].
  set (liq := issuance (lg s) i * (rk - rkl) / (rk * 5 + rkl)) in *.
  assert (Hliq : liq <= issuance (lg s) i).
  { unfold liq. apply N.div_le_upper_bound; [lia|]. rewrite (N.mul_comm (rk * 5 + rkl)).
    apply N.mul_le_mono_l. lia. }
  unfold mint. pose proof (sat128_le liq).
  destruct (N.ltb_spec U128MAX (issuance (lg s) i + sat128 liq)) as [Ho|]; [|cbn [rbind]; eauto].
  exfalso. assert (2 ^ 127 + 2 ^ 127 = U128MAX + 1) by (vm_compute; reflexivity).
  assert (Hs : issuance (lg s) i + sat128 liq = 2 ^ 127 + 2 ^ 127) by lia.
  assert (Hl2 : liq * 5 <= issuance (lg s) i).
  { assert (liq * (rk * 5 + rkl) <= issuance (lg s) i * (rk - rkl)).
    { rewrite N.mul_comm. apply N.mul_div_le. lia. } nia. }
  lia.
Qed.

(** One leg: the input is already at the pool. *)
Lemma swap_leg_ok s i o cur ao rin rout to j :
  DexInv s -> i <> o -> get_liquidity s i o = (rin, rout) -> leg_fair rin rout cur ao -> 0 < cur ->
  rin + cur <= balance (lg s) i (pool_addr (pair_of i o)) ->
  issuance (lg s) i <= 2 ^ 117 -> issuance (lg s) o <= 2 ^ 117 ->
  lp s !! pair_of i o = Some j -> issuance (lg s) j <= 2 ^ 127 ->
  exists s', swap_leg s i o ao to = Ok s'.
Proof.
  intros Hi Hne Hliq (Hao & Hlt & Hfair) Hcur Hin Hti Hto Hlp Hj.
  pose proof (di_books s Hi) as Hbk.
  remember (pair_of i o) as p eqn:Epq.
  assert (Hp : (p = (i, o) /\ reserves s p = (rin, rout)) \/ (p = (o, i) /\ reserves s p = (rout, rin))).
  { unfold get_liquidity in Hliq. rewrite <- Epq in Hliq. destruct (reserves s p) as [r0 r1].
    destruct (pair_of_cases i o) as [E|E]; rewrite <- Epq in E; rewrite E in Hliq; cbn [fst] in Hliq.
    - rewrite N.eqb_refl in Hliq. injection Hliq as -> ->. auto.
    - destruct (N.eqb_spec i o); [congruence|]. injection Hliq as -> ->. auto. }
  pose proof (di_backed s Hi p) as [Hb0 Hb1].
  assert (Hout : rout <= balance (lg s) o (pool_addr p)).
  { destruct Hp as [[E R]|[E R]]; rewrite E, R in *; cbn [fst snd] in *; assumption. }
  destruct (transfer_ok (lg s) o (pool_addr p) to ao Hbk ltac:(lia)) as [l2 Htr].
  pose proof (transfer_books _ _ _ _ _ _ Htr Hbk) as Hbk2.
  pose proof (transfer_spec _ _ _ _ _ _ Htr) as (_ & _ & Hsp).
  remember (balance l2 i (pool_addr p)) as bi eqn:Ebi. remember (balance l2 o (pool_addr p)) as bo eqn:Ebo.
  assert (Hbi : bi = balance (lg s) i (pool_addr p)).
  { subst bi. specialize (Hsp i (pool_addr p)).
    destruct (decide ((o, pool_addr p) = (i, pool_addr p))); [congruence|].
    destruct (decide ((o, to) = (i, pool_addr p))); [congruence|]. lia. }
  assert (Hbo : rout - ao <= bo).
  { subst bo. specialize (Hsp o (pool_addr p)).
    destruct (decide ((o, pool_addr p) = (o, pool_addr p))); [|congruence].
    destruct (decide ((o, to) = (o, pool_addr p))); lia. }
  assert (Hbi117 : bi <= 2 ^ 117).
  { etransitivity; [|exact Hti]. rewrite Hbi. destruct (Hbk i) as [Ht _]. rewrite <- Ht.
    apply balance_le_total. }
  assert (Hbo117 : bo <= 2 ^ 117).
  { etransitivity; [|exact Hto]. subst bo. rewrite <- (transfer_issuance _ _ _ _ _ _ o Htr).
    destruct (Hbk2 o) as [Ht _]. rewrite <- Ht. apply balance_le_total. }
  assert (Hrin : 0 < rin /\ 0 < rout).
  { pose proof (di_live s Hi p j Hlp) as (L0 & L1 & _).
    destruct Hp as [[_ R]|[_ R]]; rewrite R in *; cbn [fst snd] in *; lia. }
  (* the product check and its arithmetic, in whichever order the sides come *)
  assert (HU : 2 ^ 117 * 1000 * (2 ^ 117 * 1000) <= U256MAX) by (vm_compute; discriminate).
  assert (Hlim : 2 ^ 117 < U128MAX) by (vm_compute; reflexivity).
  assert (Hrb : rin <= bi /\ rout <= 2 ^ 117).
  { split; [lia|]. etransitivity; [|exact Hto]. etransitivity; [exact Hout|].
    destruct (Hbk o) as [Ht _]. rewrite <- Ht. apply balance_le_total. }
  assert (Ai : bi - (bi - rin) * 3 / 1000 * 0 = bi) by lia.
  set (ai := bi * 1000 - (bi - rin) * 3). set (ao' := bo * 1000 - (bo - (rout - ao)) * 3).
  assert (Hai : rin * 1000 + cur * 997 <= ai <= bi * 1000) by (unfold ai; lia).
  assert (Hao' : (rout - ao) * 1000 <= ao' <= bo * 1000) by (unfold ao'; lia).
  assert (Hk : rin * rout * (1000 * 1000) <= ai * ao').
  { assert ((rin * 1000 + cur * 997) * ((rout - ao) * 1000) <= ai * ao') by (apply N.mul_le_mono; lia). nia. }
  assert (Hkk : ai * ao' <= U256MAX).
  { etransitivity; [apply N.mul_le_mono; [apply Hai|apply Hao']|].
    etransitivity; [apply N.mul_le_mono; apply N.mul_le_mono_r; eassumption|exact HU]. }
  assert (Hrr : rin * rout <= U256MAX) by nia.
  assert (Hmuls : bi * 1000 <= U256MAX /\ bo * 1000 <= U256MAX /\ (bi - rin) * 3 <= U256MAX /\ (bo - (rout - ao)) * 3 <= U256MAX).
  { assert (2 ^ 117 * 1000 <= U256MAX) by (vm_compute; discriminate). repeat split; lia. }
  destruct Hmuls as (Hm1 & Hm2 & Hm3 & Hm4).
  assert (Hpos : 0 < bi - rin) by lia.
  assert (Hmint : forall b0 b1, exists r, mint_fee (set_pool (set_lg s l2) p (b0, b1)) j b0 b1 = Ok r).
  { intros b0 b1. apply mint_fee_ok; cbn [lg set_pool set_lg]; [exact Hbk2|].
    rewrite (transfer_issuance _ _ _ _ _ _ j Htr). exact Hj. }
  unfold swap_leg. destruct (N.eqb_spec i o); [congruence|]. cbn [negb ensure rbind]. rewrite <- Epq.
  destruct Hp as [[Ep Er]|[Ep Er]]; rewrite Er; rewrite Ep in *; cbn [fst snd] in *; try rewrite <- Ebi; try rewrite <- Ebo.
  - rewrite N.eqb_refl. destruct (N.ltb_spec 0 ao); [|lia]. rewrite orb_true_r. cbn [ensure rbind].
    destruct (N.ltb_spec 0 rin); [|lia]. destruct (N.ltb_spec ao rout); [|lia]. cbn [ensure rbind andb].
    change (0 <? 0) with false. cbn [rbind]. cbv iota. rewrite Htr. cbn [rbind]. cbv zeta. rewrite <- Ebi, <- Ebo.
    unfold usub at 1. unfold chk_sub at 1. destruct (N.leb_spec 0 rin); [|lia]. cbn [of_opt rbind].
    rewrite N.sub_0_r. unfold usub at 1. unfold chk_sub at 1. destruct (N.leb_spec ao rout); [|lia]. cbn [of_opt rbind].
    assert (S0 : sat128 rin = rin) by (unfold sat128, sat; lia).
    assert (S1 : sat128 (rout - ao) = rout - ao) by (unfold sat128, sat; lia).
    rewrite S0, S1. destruct (N.ltb_spec rin bi); [|lia].
    destruct (N.ltb_spec 0 (bi - rin)); [|lia]. cbn [orb ensure rbind].
    assert (Eo : (if rout - ao <? bo then bo - (rout - ao) else 0) = bo - (rout - ao)).
    { destruct (N.ltb_spec (rout - ao) bo); lia. }
    rewrite Eo. unfold umul, FEE_DEN, FEE_NUM, usub.
    rewrite (chk_mul_ok _ bi 1000), (chk_mul_ok _ (bi - rin) 3) by assumption. cbn [of_opt rbind].
    unfold chk_sub at 1. destruct (N.leb_spec ((bi - rin) * 3) (bi * 1000)); [|lia]. cbn [of_opt rbind]. fold ai.
    rewrite (chk_mul_ok _ bo 1000), (chk_mul_ok _ (bo - (rout - ao)) 3) by assumption. cbn [of_opt rbind].
    unfold chk_sub at 1. destruct (N.leb_spec ((bo - (rout - ao)) * 3) (bo * 1000)); [|lia]. cbn [of_opt rbind]. fold ao'.
    rewrite (chk_mul_ok _ ai ao') by assumption. rewrite (chk_mul_ok _ rin rout) by assumption. cbn [of_opt rbind].
    rewrite (chk_mul_ok _ (rin * rout) (1000 * 1000)) by (etransitivity; eassumption). cbn [of_opt rbind].
    destruct (N.leb_spec (rin * rout * (1000 * 1000)) (ai * ao')); [|lia]. cbn [ensure rbind].
    change (feeto (set_pool (set_lg s l2) (i, o) (bi, bo))) with (feeto s).
    change (lp (set_pool (set_lg s l2) (i, o) (bi, bo))) with (lp s). rewrite Hlp. cbn [of_opt rbind].
    destruct (feeto s); [|eauto]. destruct (Hmint bi bo) as [[s3 on] ->]. cbn [rbind]. destruct on; eauto.
  - destruct (N.eqb_spec i o); [congruence|]. destruct (N.ltb_spec 0 ao); [|lia]. cbn [orb ensure rbind].
    destruct (N.ltb_spec 0 rin); [|lia]. destruct (N.ltb_spec ao rout); [|lia]. cbn [ensure rbind andb].
    change (0 <? 0) with false. rewrite Htr. cbn [rbind]. cbv iota zeta. cbn [rbind]. rewrite <- Ebi, <- Ebo.
    unfold usub at 1. unfold chk_sub at 1. destruct (N.leb_spec ao rout); [|lia]. cbn [of_opt rbind].
    unfold usub at 1. unfold chk_sub at 1. destruct (N.leb_spec 0 rin); [|lia]. cbn [of_opt rbind].
    rewrite N.sub_0_r.
    assert (S0 : sat128 rin = rin) by (unfold sat128, sat; lia).
    assert (S1 : sat128 (rout - ao) = rout - ao) by (unfold sat128, sat; lia).
    rewrite S0, S1. destruct (N.ltb_spec rin bi); [|lia].
    assert (Eo : (if rout - ao <? bo then bo - (rout - ao) else 0) = bo - (rout - ao)).
    { destruct (N.ltb_spec (rout - ao) bo); lia. }
    rewrite Eo. destruct (N.ltb_spec 0 (bi - rin)); [|lia]. rewrite orb_true_r. cbn [ensure rbind].
    unfold umul, FEE_DEN, FEE_NUM, usub.
    rewrite (chk_mul_ok _ bo 1000), (chk_mul_ok _ (bo - (rout - ao)) 3) by assumption. cbn [of_opt rbind].
    unfold chk_sub at 1. destruct (N.leb_spec ((bo - (rout - ao)) * 3) (bo * 1000)); [|lia]. cbn [of_opt rbind]. fold ao'.
    rewrite (chk_mul_ok _ bi 1000), (chk_mul_ok _ (bi - rin) 3) by assumption. cbn [of_opt rbind].
    unfold chk_sub at 1. destruct (N.leb_spec ((bi - rin) * 3) (bi * 1000)); [|lia]. cbn [of_opt rbind]. fold ai.
    rewrite (chk_mul_ok _ ao' ai) by (rewrite N.mul_comm; assumption).
    rewrite (chk_mul_ok _ rout rin) by (rewrite N.mul_comm; assumption). cbn [of_opt rbind].
    rewrite (N.mul_comm rout rin), (N.mul_comm ao' ai).
    rewrite (chk_mul_ok _ (rin * rout) (1000 * 1000)) by (etransitivity; eassumption). cbn [of_opt rbind].
    destruct (N.leb_spec (rin * rout * (1000 * 1000)) (ai * ao')); [|lia]. cbn [ensure rbind].
    change (feeto (set_pool (set_lg s l2) (o, i) (bo, bi))) with (feeto s).
    change (lp (set_pool (set_lg s l2) (o, i) (bo, bi))) with (lp s). rewrite Hlp. cbn [of_opt rbind].
    destruct (feeto s); [|eauto]. destruct (Hmint bo bi) as [[s3 on] ->]. cbn [rbind]. destruct on; eauto.
Qed.

(** What a quote for a direct trade says. *)
Lemma direct_quote s out a b am :
  get_amounts_in s out [a; b] = Ok am ->
  exists x rin rout, am = [x; out] /\ get_liquidity s a b = (rin, rout) /\
    get_amount_in out rin rout = Ok x /\ is_enabled s (pair_of a b) = true /\
    (2 <= plimit s)%nat /\ 0 < x /\ 0 < rin /\ 0 < rout.
Proof.
  unfold get_amounts_in. intros H. inv_ok. unfold path_ok in *. cbn [length] in *.
  cbn [amounts_in_loop] in H. inv_ok. subst v. destruct (get_liquidity s a b) as [rin rout] eqn:El. inv_ok.
  exists v, rin, rout. subst am.
  match goal with E : get_amount_in _ _ _ = Ok _ |- _ => pose proof E as Eg; unfold get_amount_in in E end.
  inv_ok. repeat split; auto; try lia.
Qed.
Lemma lp_of_liquidity s a b rin rout :
  DexInv s -> get_liquidity s a b = (rin, rout) -> 0 < rin -> exists j, lp s !! pair_of a b = Some j.
Proof.
  intros Hi Hl Hr. destruct (lp s !! pair_of a b) as [j|] eqn:E; [eauto|exfalso].
  pose proof (di_none s Hi _ E) as Hn. unfold get_liquidity in Hl. rewrite Hn in Hl.
  destruct (a =? _); injection Hl as <- <-; lia.
Qed.
Lemma liquidity_backed s a b rin rout :
  DexInv s -> get_liquidity s a b = (rin, rout) -> a <> b ->
  rin <= balance (lg s) a (pool_addr (pair_of a b)) /\ rout <= balance (lg s) b (pool_addr (pair_of a b)).
Proof.
  intros Hi Hl Hne. pose proof (di_backed s Hi (pair_of a b)) as [H0 H1].
  unfold get_liquidity in Hl. destruct (reserves s (pair_of a b)) as [r0 r1].
  destruct (pair_of_cases a b) as [E|E]; rewrite E in *; cbn [fst snd] in *.
  - rewrite N.eqb_refl in Hl. injection Hl as -> ->. auto.
  - destruct (N.eqb_spec a b); [congruence|]. injection Hl as -> ->. auto.
Qed.
(** Nobody can own all of an asset that is also in a pool. *)
Lemma payable_unsaturated s w a b rin rout x :
  DexInv s -> get_liquidity s a b = (rin, rout) -> a <> b -> 0 < rin ->
  x <= balance (lg s) a (AUser w) -> x < U128MAX.
Proof.
  intros Hi Hl Hne Hr Hx. destruct (liquidity_backed s a b rin rout Hi Hl Hne) as [Hb _].
  pose proof (balance_two (lg s) a (AUser w) (pool_addr (pair_of a b)) ltac:(discriminate)).
  destruct (di_books s Hi a). lia.
Qed.
Lemma same_asset_none s a : DexInv s -> get_liquidity s a a = (0, 0).
Proof.
  intros Hi. unfold get_liquidity. assert (E : pair_of a a = (a, a)) by (unfold pair_of; destruct (a <? a); reflexivity).
  rewrite E. destruct (lp s !! (a, a)) as [j|] eqn:El.
  - pose proof (di_some s Hi _ _ El) as (_ & _ & _ & H). cbn in H. lia.
  - rewrite (di_none s Hi _ El). cbn. rewrite N.eqb_refl. reflexivity.
Qed.
Lemma quote_distinct s a b rin rout : DexInv s -> get_liquidity s a b = (rin, rout) -> 0 < rin -> a <> b.
Proof. intros Hi Hl Hr ->. rewrite (same_asset_none s b Hi) in Hl. injection Hl as <- <-. lia. Qed.

Definition roomy (s : dex) (a b : N) : Prop :=
  issuance (lg s) a <= 2 ^ 117 /\ issuance (lg s) b <= 2 ^ 117 /\
  forall j, lp s !! pair_of a b = Some j -> issuance (lg s) j <= 2 ^ 127.

Lemma leg_after_payment s w a b x ao rin rout to :
  DexInv s -> get_liquidity s a b = (rin, rout) -> 0 < rin -> leg_fair rin rout x ao -> 0 < x ->
  x <= balance (lg s) a (AUser w) -> roomy s a b ->
  exists l s', transfer (lg s) a (AUser w) (pool_addr (pair_of a b)) x = Ok l /\
    swap_leg (set_lg s l) a b ao to = Ok s'.
Proof.
  intros Hi Hl Hr Hf Hx Hb (Ra & Rb & Rj).
  pose proof (quote_distinct s a b rin rout Hi Hl Hr) as Hne.
  destruct (transfer_ok (lg s) a (AUser w) (pool_addr (pair_of a b)) x (di_books s Hi) Hb) as [l Ht].
  destruct (lp_of_liquidity s a b rin rout Hi Hl Hr) as [j Hj].
  destruct (liquidity_backed s a b rin rout Hi Hl Hne) as [Hbk _].
  exists l. destruct (swap_leg_ok (set_lg s l) a b x ao rin rout to j) as [s' Hs]; eauto.
  - eapply inv_transfer; eassumption.
  - cbn [lg set_lg]. pose proof (transfer_spec _ _ _ _ _ _ Ht) as (_ & _ & Hsp).
    specialize (Hsp a (pool_addr (pair_of a b))).
    destruct (decide ((a, AUser w) = (a, pool_addr (pair_of a b)))); [discriminate|].
    destruct (decide ((a, pool_addr (pair_of a b)) = (a, pool_addr (pair_of a b)))); [lia|congruence].
  - cbn [lg set_lg]. rewrite (transfer_issuance _ _ _ _ _ _ a Ht). exact Ra.
  - cbn [lg set_lg]. rewrite (transfer_issuance _ _ _ _ _ _ b Ht). exact Rb.
  - cbn [lg set_lg]. rewrite (transfer_issuance _ _ _ _ _ _ j Ht). auto.
Qed.

Lemma direct_target_ok s w out mx a b to x am :
  DexInv s -> get_amounts_in s out [a; b] = Ok am -> hd 0 am = x -> x <= mx ->
  x <= balance (lg s) a (AUser w) -> roomy s a b ->
  exists s', swap_with_exact_target s (AUser w) out mx [a; b] to None = Ok s'.
Proof.
  intros Hi Hq Hx Hmx Hb Hr. unfold swap_with_exact_target. cbn [deadline_ok ensure rbind]. rewrite Hq. cbn [rbind].
  destruct (direct_quote _ _ _ _ _ Hq) as (x' & rin & rout & -> & Hl & Hg & He & Hp & H0 & H1 & H2).
  cbn [hd] in Hx. subst x'. destruct (N.leb_spec x mx); [|lia]. cbn [ensure rbind].
  assert (Hlt : x < U128MAX).
  { eapply payable_unsaturated; [exact Hi|exact Hl|eapply quote_distinct; eassumption|exact H1|exact Hb]. }
  destruct (leg_after_payment s w a b x out rin rout to Hi Hl H1 (target_fair _ _ _ _ Hg Hlt) H0 Hb Hr)
    as (l & s' & -> & Hs). cbn [rbind swap_loop]. rewrite Hs. cbn [rbind]. eauto.
Qed.
Lemma direct_supply_ok s w x mo a b to y :
  DexInv s -> get_amounts_out s x [a; b] = Ok [x; y] -> mo <= y ->
  x <= balance (lg s) a (AUser w) -> roomy s a b ->
  exists s', swap_with_exact_supply s (AUser w) x mo [a; b] to None = Ok s'.
Proof.
  intros Hi Hq Hmo Hb Hr. unfold swap_with_exact_supply. cbn [deadline_ok ensure rbind]. rewrite Hq. cbn [rbind List.last].
  destruct (N.leb_spec mo y); [|lia]. cbn [ensure rbind].
  unfold get_amounts_out in Hq. inv_ok. cbn [amounts_out_loop] in *.
  destruct (get_liquidity s a b) as [rin rout] eqn:El. inv_ok. subst.
  match goal with E : _ :: _ = _ :: _ |- _ => injection E as E; subst end.
  assert (Hx : 0 < x /\ 0 < rin /\ 0 < rout).
  { match goal with E : get_amount_out _ _ _ = Ok _ |- _ => unfold get_amount_out in E end. inv_ok. lia. }
  assert (Hrout : rout <= U128MAX).
  { destruct (liquidity_backed s a b rin rout Hi El) as [_ Ho]; [eapply quote_distinct; [exact Hi|exact El|lia]|].
    etransitivity; [exact Ho|]. apply books_bal128, Hi. }
  match goal with E : get_amount_out _ _ _ = Ok ?y |- _ =>
    destruct (leg_after_payment s w a b x y rin rout to Hi El ltac:(lia) (supply_fair _ _ _ _ E ltac:(lia) Hrout) ltac:(lia) Hb Hr)
      as (l & s' & -> & Hs) end.
  cbn [rbind swap_loop]. rewrite Hs. cbn [rbind]. eauto.
Qed.
