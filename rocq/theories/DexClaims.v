(** Lemmas behind the exchange properties C01-C08. *)
From Verif Require Export DexInv.

(** ** Specification vocabulary *)
(** States the chain can be in: any history from a chain without pools. *)
Definition reachable (s : dex) : Prop :=
  exists n0 lim fee ops, s = run step ops (init n0 lim fee).
(** Product of the two reserves reported for a pair. *)
Definition product (s : dex) (p : N * N) : N := fst (reserves s p) * snd (reserves s p).
(** Accounts that are not the account of a pool. *)
Definition not_pool (x : acct) : Prop := forall a b, x <> APool a b.
(** Supply of LP shares. *)
Definition shares (s : dex) (i : N) : N := issuance (lg s) i.

Lemma reachable_inv s : reachable s -> DexInv s.
Proof. intros (n0 & lim & fee & ops & ->). apply run_dex_inv, init_inv. Qed.
Lemma reachable_step s o : reachable s -> reachable (step s o).
Proof.
  intros (n0 & lim & fee & ops & ->). exists n0, lim, fee, (ops ++ [o]).
  rewrite run_app. reflexivity.
Qed.

(** ** C01 *)
Lemma leg_product s i o ao to s' p :
  DexInv s -> swap_leg s i o ao to = Ok s' -> product s p <= product s' p.
Proof.
  intros Hi Hs. destruct (swap_leg_spec _ _ _ _ _ _ Hs (di_books s Hi)) as [l2 He].
  unfold product. rewrite (le_res _ _ _ _ _ _ _ He p). destruct (decide _) as [<-|]; [|lia].
  cbn [fst snd]. apply (le_k _ _ _ _ _ _ _ He).
Qed.
Lemma loop_product rest : forall s x amounts to s' p,
  DexInv s -> swap_loop s x rest amounts to = Ok s' -> product s p <= product s' p.
Proof.
  induction rest as [|y rest IH]; intros s x amounts to s' p Hi Hs; cbn in Hs.
  - inv_ok. subst. lia.
  - destruct amounts as [|ao amounts]; [inv_ok; subst; lia|].
    inv_ok. etransitivity.
    + eapply leg_product; eassumption.
    + eapply IH; [|eassumption]. eapply inv_leg; eassumption.
Qed.

Lemma supply_loop s w ai mo path to d s' :
  swap_with_exact_supply s (AUser w) ai mo path to d = Ok s' ->
  exists x y rest ar l, path = x :: y :: rest /\ get_amounts_out s ai path = Ok (ai :: ar) /\
    deadline_ok s d = true /\ mo <= List.last (ai :: ar) 0 /\
    transfer (lg s) x (AUser w) (pool_addr (pair_of x y)) ai = Ok l /\
    swap_loop (set_lg s l) x (y :: rest) ar to = Ok s'.
Proof.
  unfold swap_with_exact_supply. intros Hs. inv_ok.
  destruct path as [|x [|y rest]]; try discriminate. destruct v as [|a0 ar]; [discriminate|].
  inv_ok.
  assert (a0 = ai).
  { match goal with H : get_amounts_out _ _ _ = Ok _ |- _ => unfold get_amounts_out in H end.
    inv_ok. congruence. }
  subst a0. exists x, y, rest, ar, v. repeat split; auto. lia.
Qed.
Lemma target_loop s w ao mi path to d s' :
  swap_with_exact_target s (AUser w) ao mi path to d = Ok s' ->
  exists x y rest a0 ar l, path = x :: y :: rest /\ get_amounts_in s ao path = Ok (a0 :: ar) /\
    deadline_ok s d = true /\ a0 <= mi /\
    transfer (lg s) x (AUser w) (pool_addr (pair_of x y)) a0 = Ok l /\
    swap_loop (set_lg s l) x (y :: rest) ar to = Ok s'.
Proof.
  unfold swap_with_exact_target. intros Hs. inv_ok.
  destruct path as [|x [|y rest]]; try discriminate. destruct v as [|a0 ar]; [discriminate|].
  inv_ok. exists x, y, rest, a0, ar, v. repeat split; auto. lia.
Qed.

Lemma supply_product s w ai mo path to d s' p :
  DexInv s -> swap_with_exact_supply s (AUser w) ai mo path to d = Ok s' ->
  product s p <= product s' p.
Proof.
  intros Hi Hs. destruct (supply_loop _ _ _ _ _ _ _ _ Hs) as (x & y & rest & ar & l & _ & _ & _ & _ & Ht & Hl).
  change (product s p) with (product (set_lg s l) p).
  eapply loop_product; [|eassumption]. eapply inv_transfer; eassumption.
Qed.
Lemma target_product s w ao mi path to d s' p :
  DexInv s -> swap_with_exact_target s (AUser w) ao mi path to d = Ok s' ->
  product s p <= product s' p.
Proof.
  intros Hi Hs. destruct (target_loop _ _ _ _ _ _ _ _ Hs) as (x & y & rest & a0 & ar & l & _ & _ & _ & _ & Ht & Hl).
  change (product s p) with (product (set_lg s l) p).
  eapply loop_product; [|eassumption]. eapply inv_transfer; eassumption.
Qed.

(** Only a withdrawal of liquidity can lower a product. *)
Definition not_remove (o : op) : Prop := match o with ORemove _ _ _ _ _ _ _ _ => False | _ => True end.
Lemma step_product s o p : DexInv s -> not_remove o -> product s p <= product (step s o) p.
Proof.
  intros Hi Hn. destruct o; cbn [step]; try contradiction; try reflexivity.
  - destruct (swap_with_exact_supply _ _ _ _ _ _ _) eqn:E; cbn; [|lia]. eapply supply_product; eassumption.
  - destruct (swap_with_exact_target _ _ _ _ _ _ _) eqn:E; cbn; [|lia]. eapply target_product; eassumption.
  - destruct (add_liquidity _ _ _ _ _ _ _ _ _ _) as [[s' [[am0 am1] lq]]|] eqn:E; [|lia].
    destruct (add_liquidity_spec _ _ _ _ _ _ _ _ _ _ _ _ _ _ E (di_books s Hi))
      as (i & x0 & x1 & l1 & l2 & l3 & He).
    unfold product. rewrite (ae_res _ _ _ _ _ _ _ _ _ _ _ _ _ _ He p).
    destruct (decide _) as [<-|]; [|lia]. cbn [fst snd].
    pose proof (ae_am0 _ _ _ _ _ _ _ _ _ _ _ _ _ _ He). pose proof (ae_am1 _ _ _ _ _ _ _ _ _ _ _ _ _ _ He).
    apply N.mul_le_mono; lia.
  - cbv zeta. destruct (lp s !! _); [|lia]. destruct (is_enabled _ _); [lia|reflexivity].
  - cbv zeta. destruct (lp s !! _); [|lia]. destruct (is_enabled _ _); [reflexivity|lia].
  - destruct (transfer _ _ _ _ _); reflexivity.
  - destruct (_ && _); [|reflexivity]. destruct (mint _ _ _ _); reflexivity.
Qed.
Lemma history_product ops : forall s p, DexInv s -> Forall not_remove ops ->
  product s p <= product (run step ops s) p.
Proof.
  induction ops as [|o ops IH]; intros s p Hi Hf; cbn; [lia|].
  inversion Hf; subst. etransitivity; [apply step_product; eassumption|].
  apply IH; [apply step_inv; exact Hi|assumption].
Qed.

(** ** C02 *)
Lemma amount_in_sufficient out rin rout x y :
  get_amount_in out rin rout = Ok x -> x < U128MAX ->
  get_amount_out x rin rout = Ok y -> rout <= U128MAX -> out <= y.
Proof.
  unfold get_amount_in, get_amount_out, umul, udiv, uadd, usub, sat128, sat.
  intros Hin Hlt Hout Hr. inv_ok. unfold FEE_DEN, FEE_NUM in *.
  change (1000 - 3) with 997 in *.
  set (den := (rout - out) * 997) in *. set (num := rin * out * 1000) in *.
  assert (Hx : x = num / den + 1) by lia. clear Hin.
  assert (Hnum : num < x * den).
  { subst x. pose proof (N.div_mod num den). pose proof (N.mod_lt num den). nia. }
  subst y. apply N.min_glb; [|lia].
  apply N.div_le_lower_bound; [lia|].
  subst num den. nia.
Qed.
Lemma chk_mul_ok mx a b : a * b <= mx -> chk_mul mx a b = Some (a * b).
Proof. intros. unfold chk_mul. destruct (N.leb_spec (a * b) mx); [reflexivity|lia]. Qed.
Lemma chk_add_ok mx a b : a + b <= mx -> chk_add mx a b = Some (a + b).
Proof. intros. unfold chk_add. destruct (N.leb_spec (a + b) mx); [reflexivity|lia]. Qed.
Lemma get_amount_out_ok x rin rout :
  0 < x -> 0 < rin -> 0 < rout -> x * 997 * rout <= U256MAX -> rin * 1000 + x * 997 <= U256MAX ->
  exists y, get_amount_out x rin rout = Ok y.
Proof.
  intros Hx Hrin Hrout Hm Ha.
  unfold get_amount_out, usub, umul, uadd, udiv.
  replace (chk_sub FEE_DEN FEE_NUM) with (Some 997) by reflexivity.
  destruct (N.ltb_spec 0 x); [|lia]. destruct (N.ltb_spec 0 rin); [|lia].
  destruct (N.ltb_spec 0 rout); [|lia]. cbn [ensure andb rbind of_opt].
  rewrite (chk_mul_ok _ x 997) by nia. cbn [rbind of_opt].
  rewrite (chk_mul_ok _ (x * 997) rout) by assumption. cbn [rbind of_opt].
  rewrite (chk_mul_ok _ rin FEE_DEN) by (unfold FEE_DEN; lia). cbn [rbind of_opt].
  rewrite (chk_add_ok _ (rin * FEE_DEN) (x * 997)) by (unfold FEE_DEN; lia). cbn [rbind of_opt].
  unfold chk_div. destruct (N.eqb_spec (rin * FEE_DEN + x * 997) 0); [unfold FEE_DEN in *; lia|].
  cbn [rbind of_opt]. eauto.
Qed.
Lemma amount_in_usable out rin rout x :
  get_amount_in out rin rout = Ok x -> x <= 2 ^ 118 -> rout <= U128MAX -> rin <= U128MAX ->
  exists y, get_amount_out x rin rout = Ok y.
Proof.
  intros Hin Hx Hr Hr'. unfold get_amount_in in Hin. inv_ok.
  assert (Hx0 : 0 < x).
  { unfold uadd, umul, udiv, usub in *. inv_ok. rewrite <- Hin. apply sat128_pos. nodiv. lia. }
  assert (Hm0 : x * 997 <= 2 ^ 118 * 997) by (apply N.mul_le_mono_r; assumption).
  apply get_amount_out_ok; try lia.
  - etransitivity; [apply N.mul_le_mono; eassumption|]. vm_compute; discriminate.
  - etransitivity; [apply N.add_le_mono; [apply N.mul_le_mono_r|]; eassumption|]. vm_compute; discriminate.
Qed.
Lemma amount_in_tight out rin rout x z y :
  get_amount_in out rin rout = Ok x -> get_amount_out z rin rout = Ok y -> out <= y -> x <= z + 1.
Proof.
  unfold get_amount_in, get_amount_out, umul, udiv, uadd, usub, sat128, sat.
  intros Hin Hout Hle. inv_ok. unfold FEE_DEN, FEE_NUM in *.
  change (1000 - 3) with 997 in *.
  set (den := (rout - out) * 997) in *. set (num := rin * out * 1000) in *.
  assert (Hx : x <= num / den + 1) by lia. clear Hin.
  assert (Hq : num / den <= z); [|lia].
  assert (Ho : out <= z * 997 * rout / (rin * 1000 + z * 997)) by lia. clear Hout.
  assert (Hdd : rin * 1000 + z * 997 <> 0) by lia.
  pose proof (N.mul_div_le (z * 997 * rout) (rin * 1000 + z * 997) Hdd) as Hd.
  assert (Hden : den <> 0) by assumption.
  assert (Hz : num <= z * den).
  { subst num den.
    assert (out * (rin * 1000 + z * 997) <= z * 997 * rout) by nia. nia. }
  rewrite <- (N.div_mul z den) by exact Hden. apply N.div_le_mono; assumption.
Qed.

(** ** C03 *)
Lemma leg_user s i o ao to s' t y :
  DexInv s -> swap_leg s i o ao to = Ok s' -> not_pool y ->
  (feeto s = Some y -> forall p, lp s !! p <> Some t) ->
  balance (lg s') t y = balance (lg s) t y + (if decide ((o, to) = (t, y)) then ao else 0).
Proof.
  intros Hi Hs Hy Hfee. destruct (swap_leg_spec _ _ _ _ _ _ Hs (di_books s Hi)) as [l2 He].
  pose proof (transfer_spec _ _ _ _ _ _ (le_transfer _ _ _ _ _ _ _ He)) as (_ & _ & Hb).
  specialize (Hb t y). destruct (decide ((o, pool_addr (pair_of i o)) = (t, y))) as [E|_].
  { injection E as _ E. exfalso. eapply Hy. symmetry. exact E. }
  assert (Hl : balance (lg s') t y = balance l2 t y); [|lia].
  pose proof (le_ledger _ _ _ _ _ _ _ He) as Hl. destruct (feeto s) as [f|] eqn:Ef.
  - destruct Hl as (j & Hj & [[_ ->]|Hm] & _); [reflexivity|].
    apply mint_spec in Hm. destruct Hm as (_ & _ & Hm & _). rewrite Hm.
    destruct (decide ((j, f) = (t, y))) as [E|_]; [|lia]. injection E as -> ->.
    exfalso. eapply Hfee; eauto.
  - destruct Hl as [-> _]. reflexivity.
Qed.

Lemma loop_frame rest : forall s x amounts to s',
  DexInv s -> swap_loop s x rest amounts to = Ok s' -> frame_eq s s'.
Proof.
  induction rest as [|y rest IH]; intros s x amounts to s' Hi Hs; cbn in Hs.
  - inv_ok. subst. apply frame_eq_refl.
  - destruct amounts as [|ao amounts]; [inv_ok; subst; apply frame_eq_refl|]. inv_ok.
    match goal with H : swap_leg _ _ _ _ _ = Ok ?r |- _ => rename H into Hleg; rename r into s1 end.
    destruct (swap_leg_spec _ _ _ _ _ _ Hleg (di_books s Hi)) as [l2 He].
    eapply frame_eq_trans; [apply (le_frame _ _ _ _ _ _ _ He)|].
    eapply IH; [|eassumption]. eapply inv_leg; eassumption.
Qed.

Lemma loop_user rest : forall s x amounts to s' t y,
  DexInv s -> swap_loop s x rest amounts to = Ok s' -> not_pool y ->
  (feeto s = Some y -> forall p, lp s !! p <> Some t) ->
  length rest = length amounts -> rest <> [] ->
  balance (lg s') t y = balance (lg s) t y
    + (if decide ((List.last rest 0, to) = (t, y)) then List.last amounts 0 else 0).
Proof.
  induction rest as [|z rest IH]; intros s x amounts to s' t y Hi Hs Hy Hfee Hlen Hne; [congruence|].
  destruct amounts as [|ao amounts]; [discriminate|]. cbn [swap_loop] in Hs. inv_ok.
  match goal with H : swap_leg _ _ _ _ _ = Ok ?r |- _ => rename H into Hleg; rename r into s1 end.
  pose proof (leg_user _ _ _ _ _ _ t y Hi Hleg Hy Hfee) as Hu.
  assert (Hi1 : DexInv s1) by (eapply inv_leg; eassumption).
  destruct rest as [|z' rest].
  - destruct amounts; [|discriminate]. cbn in Hs. inv_ok. subst. cbn [List.last]. exact Hu.
  - destruct amounts as [|ao' amounts]; [discriminate|].
    destruct (swap_leg_spec _ _ _ _ _ _ Hleg (di_books s Hi)) as [l2 He].
    destruct (le_frame _ _ _ _ _ _ _ He) as (Hlp & _ & Hft & _).
    specialize (IH s1 z (ao' :: amounts) to s' t y Hi1 Hs Hy).
    rewrite Hft, Hlp in IH. specialize (IH Hfee).
    rewrite IH by (cbn in *; congruence).
    change (List.last (z :: z' :: rest) 0) with (List.last (z' :: rest) 0).
    change (List.last (ao :: ao' :: amounts) 0) with (List.last (ao' :: amounts) 0).
    rewrite Hu. destruct (decide ((z, pool_addr (pair_of z z')) = (t, y))) as [E|_]; [|lia].
    injection E as _ E. exfalso. eapply Hy. symmetry. exact E.
Qed.

Lemma amounts_out_length rest : forall s cur x l,
  amounts_out_loop s cur x rest = Ok l -> length l = length rest.
Proof.
  induction rest as [|y rest IH]; intros s cur x l H; cbn in H; [inv_ok; subst; reflexivity|].
  inv_ok. destruct (get_liquidity s x y). inv_ok. subst. cbn. f_equal. eapply IH. eassumption.
Qed.
Lemma amounts_in_length rest : forall s tgt x l,
  amounts_in_loop s tgt x rest = Ok l -> length l = S (length rest) /\ List.last l 0 = tgt.
Proof.
  induction rest as [|y rest IH]; intros s tgt x l H; cbn in H; [inv_ok; subst; auto|].
  inv_ok. destruct v as [|o l']; [discriminate|]. inv_ok. destruct (get_liquidity s x y).
  inv_ok. subst. match goal with H : amounts_in_loop _ _ _ _ = Ok _ |- _ => apply IH in H; destruct H end.
  split; [cbn in *; congruence|assumption].
Qed.

(** The full effect of a swap on every account that is not a pool. *)
Definition swap_effect (s s' : dex) (payer receiver : acct) (tin tout paid got : N) : Prop :=
  forall y t, not_pool y -> (feeto s = Some y -> forall p, lp s !! p <> Some t) ->
    balance (lg s') t y + (if decide ((tin, payer) = (t, y)) then paid else 0)
    = balance (lg s) t y + (if decide ((tout, receiver) = (t, y)) then got else 0).

Lemma swap_effect_intro s w x y rest a0 ar to s' l :
  DexInv s -> transfer (lg s) x (AUser w) (pool_addr (pair_of x y)) a0 = Ok l ->
  swap_loop (set_lg s l) x (y :: rest) ar to = Ok s' -> length (y :: rest) = length ar ->
  swap_effect s s' (AUser w) to x (List.last (x :: y :: rest) 0) a0 (List.last (a0 :: ar) 0).
Proof.
  intros Hi Ht Hl Hlen z t Hz Hfee.
  assert (Hi1 : DexInv (set_lg s l)) by (eapply inv_transfer; eassumption).
  pose proof (loop_user (y :: rest) _ _ _ _ _ t z Hi1 Hl Hz Hfee Hlen ltac:(discriminate)) as Hu.
  cbn [lg set_lg] in Hu.
  change (List.last (x :: y :: rest) 0) with (List.last (y :: rest) 0).
  destruct ar as [|a1 ar]; [discriminate|].
  change (List.last (a0 :: a1 :: ar) 0) with (List.last (a1 :: ar) 0).
  apply transfer_spec in Ht. destruct Ht as (_ & _ & Hb). specialize (Hb t z).
  destruct (decide ((x, pool_addr (pair_of x y)) = (t, z))) as [E|_].
  { injection E as _ E. exfalso. eapply Hz. symmetry. exact E. }
  lia.
Qed.

Lemma supply_effect s w ai mo path to d s' :
  DexInv s -> swap_with_exact_supply s (AUser w) ai mo path to d = Ok s' ->
  (forall b, d = Some b -> now s <= b) /\
  exists got, mo <= got /\ swap_effect s s' (AUser w) to (hd 0 path) (List.last path 0) ai got.
Proof.
  intros Hi Hs. destruct (supply_loop _ _ _ _ _ _ _ _ Hs)
    as (x & y & rest & ar & l & -> & Ha & Hd & Hmo & Ht & Hl).
  split. { intros b ->. cbn in Hd. lia. }
  exists (List.last (ai :: ar) 0). split; [exact Hmo|]. cbn [hd].
  eapply swap_effect_intro; try eassumption.
  unfold get_amounts_out in Ha. inv_ok. apply amounts_out_length in E0. congruence.
Qed.
Lemma target_effect s w ao mi path to d s' :
  DexInv s -> swap_with_exact_target s (AUser w) ao mi path to d = Ok s' ->
  (forall b, d = Some b -> now s <= b) /\
  exists paid, paid <= mi /\ swap_effect s s' (AUser w) to (hd 0 path) (List.last path 0) paid ao.
Proof.
  intros Hi Hs. destruct (target_loop _ _ _ _ _ _ _ _ Hs)
    as (x & y & rest & a0 & ar & l & -> & Ha & Hd & Hmo & Ht & Hl).
  split. { intros b ->. cbn in Hd. lia. }
  exists a0. split; [exact Hmo|]. cbn [hd].
  unfold get_amounts_in in Ha. inv_ok. apply amounts_in_length in Ha. destruct Ha as [Hlen Hlast].
  rewrite <- Hlast. eapply swap_effect_intro; try eassumption. cbn in *. congruence.
Qed.

(** ** C04 *)
(** [value_le s s' p i]: reserve product per squared share does not fall from [s] to [s']. *)
Definition value_le (s s' : dex) (p : N * N) (i : N) : Prop :=
  product s p * (shares s' i * shares s' i) <= product s' p * (shares s i * shares s i).

Lemma frac_trans a b c d e f : 0 < d -> a * d <= c * b -> c * f <= e * d -> a * f <= e * b.
Proof.
  intros Hd H1 H2. apply (N.mul_le_mono_pos_l _ _ d Hd). nia.
Qed.

Lemma value_le_trans s1 s2 s3 p i : 0 < shares s2 i ->
  value_le s1 s2 p i -> value_le s2 s3 p i -> value_le s1 s3 p i.
Proof.
  unfold value_le. intros Hpos H1 H2. eapply frac_trans; [|exact H1|exact H2].
  apply N.mul_pos_pos; exact Hpos.
Qed.
Lemma value_le_refl s p i : value_le s s p i.
Proof. unfold value_le. lia. Qed.

Lemma loop_issuance rest : forall s x amounts to s' c,
  DexInv s -> feeto s = None -> swap_loop s x rest amounts to = Ok s' ->
  issuance (lg s') c = issuance (lg s) c.
Proof.
  induction rest as [|y rest IH]; intros s x amounts to s' c Hi Hf Hs; cbn in Hs.
  - inv_ok. subst. reflexivity.
  - destruct amounts as [|ao amounts]; [inv_ok; subst; reflexivity|]. inv_ok.
    match goal with H : swap_leg _ _ _ _ _ = Ok ?r |- _ => rename H into Hleg; rename r into s1 end.
    destruct (swap_leg_spec _ _ _ _ _ _ Hleg (di_books s Hi)) as [l2 He].
    destruct (le_frame _ _ _ _ _ _ _ He) as (_ & _ & Hft & _).
    rewrite (IH s1 y amounts to s' c); [|eapply inv_leg; eassumption|congruence|assumption].
    pose proof (le_ledger _ _ _ _ _ _ _ He) as Hl. rewrite Hf in Hl. destruct Hl as [-> _].
    eapply transfer_issuance. apply (le_transfer _ _ _ _ _ _ _ He).
Qed.

Lemma value_by_sides r0 r1 r0' r1' ts ts' :
  r0 * ts' <= r0' * ts -> r1 * ts' <= r1' * ts ->
  r0 * r1 * (ts' * ts') <= r0' * r1' * (ts * ts).
Proof.
  intros H0 H1. 
  replace (r0 * r1 * (ts' * ts')) with ((r0 * ts') * (r1 * ts')) by lia.
  replace (r0' * r1' * (ts * ts)) with ((r0' * ts) * (r1' * ts)) by lia.
  apply N.mul_le_mono; assumption.
Qed.

Lemma add_value s w a b da db ma mb to d s' r p i :
  DexInv s -> lp s !! p = Some i ->
  add_liquidity s (AUser w) a b da db ma mb to d = Ok (s', r) -> value_le s s' p i.
Proof.
  intros Hi Hp Hs. destruct r as [[am0 am1] lq].
  destruct (add_liquidity_spec _ _ _ _ _ _ _ _ _ _ _ _ _ _ Hs (di_books s Hi))
    as (j & x0 & x1 & l1 & l2 & l3 & He).
  set (q := pair_of a b) in *.
  destruct He as [Hsort Hlp Hft Ht1 Ht2 Ham0 Ham1 Hfirst Hliq Hpos Hmint Hres Hlk].
  assert (Hiss2 : forall c, issuance l2 c = issuance (lg s) c).
  { intros c. rewrite (transfer_issuance _ _ _ _ _ _ c Ht2). apply (transfer_issuance _ _ _ _ _ _ c Ht1). }
  pose proof (mint_spec _ _ _ _ _ Hmint) as (_ & Hiss4 & _ & _).
  unfold value_le, product, shares. rewrite Hres.
  destruct (decide (q = p)) as [<-|Hqp].
  - assert (j = i) as -> by (destruct Hlp as [(Hl & _)|(Hl & _)]; congruence).
    destruct Hliq as [(Hz & _)|(Hz & -> & H0 & H1 & _)].
    + (* shares are already positive *)
      exfalso. rewrite Hiss2 in Hz. pose proof (di_live s Hi q i Hp) as (_ & _ & HB).
      destruct (di_books s Hi i) as [Ht _]. pose proof (balance_le_total (lg s) i ABurn).
      unfold MIN_LIQ in HB. lia.
    + rewrite (Hiss4 i), N.eqb_refl, Hiss2. rewrite Hiss2 in H0, H1. cbn [fst snd].
      apply value_by_sides; lia.
  - assert (j <> i).
    { intros ->. destruct Hlp as [(Hl & _)|(Hl & Hieq & _)].
      - apply Hqp. eapply (di_inj s Hi); eassumption.
      - pose proof (di_some s Hi p i Hp). lia. }
    assert (Hsame : issuance (lg s') i = issuance (lg s) i); [|rewrite Hsame; lia].
    rewrite Hiss4. destruct (N.eqb_spec j i); [congruence|].
    destruct Hliq as [(_ & Hm & _)|(_ & -> & _)].
    + apply mint_spec in Hm. destruct Hm as (_ & Hm & _). rewrite Hm, Hiss2.
      destruct (N.eqb_spec j i); [congruence|]. lia.
    + rewrite Hiss2. lia.
Qed.

Lemma remove_value s w a b lq ma mb to d s' r p i :
  DexInv s -> lp s !! p = Some i ->
  remove_liquidity s (AUser w) a b lq ma mb to d = Ok (s', r) -> value_le s s' p i.
Proof.
  intros Hi Hp Hs. destruct r as [am0 am1].
  destruct (remove_liquidity_spec _ _ _ _ _ _ _ _ _ _ _ _ Hs (di_books s Hi))
    as (j & liq & l1 & l2 & l3 & He).
  set (q := pair_of a b) in *.
  destruct He as [Hsort Hlp Hf Ht1 Hliq Hts Ham0 Ham1 Hpos Hburn Ht2 Ht3 Hres Hlk].
  pose proof (di_some s Hi q j Hlp) as (Hilt & Hi0 & Hi1 & _).
  assert (Hb1 : books l1) by (eapply transfer_books; [eassumption|apply Hi]).
  pose proof (burn_spec _ _ _ _ _ Hburn Hb1) as (Hble & Hbi & Hbb & _).
  assert (Hiss : forall c, issuance (lg s') c + (if j =? c then liq else 0) = issuance (lg s) c).
  { intros c. rewrite (transfer_issuance _ _ _ _ _ _ c Ht3), (transfer_issuance _ _ _ _ _ _ c Ht2).
    rewrite <- (transfer_issuance _ _ _ _ _ _ c Ht1). apply Hbi. }
  rewrite (transfer_issuance _ _ _ _ _ _ j Ht1) in Ham0, Ham1.
  assert (Hx0 : balance l1 (fst q) (pool_addr q) <= balance (lg s') (fst q) (pool_addr q) + am0).
  { pose proof (Hbb (fst q) (pool_addr q)) as Hq.
    destruct (decide ((j, pool_addr q) = (fst q, pool_addr q))) as [E|_]; [injection E; lia|].
    pose proof (transfer_spec _ _ _ _ _ _ Ht2) as (_ & _ & Hq2). specialize (Hq2 (fst q) (pool_addr q)).
    pose proof (transfer_mono_asset _ _ _ _ _ _ (fst q) (pool_addr q) Ht3 ltac:(lia)).
    destruct (decide ((fst q, pool_addr q) = (fst q, pool_addr q))) as [_|E]; [|congruence].
    destruct (decide ((fst q, to) = (fst q, pool_addr q))); lia. }
  assert (Hx1 : balance l1 (snd q) (pool_addr q) <= balance (lg s') (snd q) (pool_addr q) + am1).
  { pose proof (Hbb (snd q) (pool_addr q)) as Hq.
    destruct (decide ((j, pool_addr q) = (snd q, pool_addr q))) as [E|_]; [injection E; lia|].
    pose proof (transfer_spec _ _ _ _ _ _ Ht3) as (_ & _ & Hq2). specialize (Hq2 (snd q) (pool_addr q)).
    pose proof (transfer_mono_asset _ _ _ _ _ _ (snd q) (pool_addr q) Ht2 ltac:(lia)).
    destruct (decide ((snd q, pool_addr q) = (snd q, pool_addr q))) as [_|E]; [|congruence].
    destruct (decide ((snd q, to) = (snd q, pool_addr q))); lia. }
  unfold value_le, product, shares. rewrite Hres.
  destruct (decide (q = p)) as [<-|Hqp].
  - assert (j = i) as -> by congruence.
    specialize (Hiss i). rewrite N.eqb_refl in Hiss. cbn [fst snd].
    pose proof (di_backed s Hi q) as [Hk0 Hk1].
    pose proof (transfer_mono _ _ _ _ _ _ (fst q) (pool_addr q) Ht1 ltac:(discriminate)).
    pose proof (transfer_mono _ _ _ _ _ _ (snd q) (pool_addr q) Ht1 ltac:(discriminate)).
    apply value_by_sides; nia.
  - assert (j <> i) by (intros ->; apply Hqp; eapply (di_inj s Hi); eassumption).
    specialize (Hiss i). destruct (N.eqb_spec j i); [congruence|].
    rewrite N.add_0_r in Hiss. rewrite Hiss. lia.
Qed.

Definition not_fee_change (o : op) : Prop := match o with OSetFeeTo _ => False | _ => True end.

Lemma step_frame s o : DexInv s -> not_fee_change o ->
  feeto (step s o) = feeto s /\ (forall p i, lp s !! p = Some i -> lp (step s o) !! p = Some i).
Proof.
  intros Hi Hn. destruct o; cbn [step]; try contradiction; try (split; [reflexivity|auto]; fail).
  - destruct (swap_with_exact_supply _ _ _ _ _ _ _) eqn:E; cbn; [|auto].
    destruct (supply_loop _ _ _ _ _ _ _ _ E) as (x & y & rest & ar & l & _ & _ & _ & _ & Ht & Hl).
    assert (Hi1 : DexInv (set_lg s l)) by (eapply inv_transfer; eassumption).
    destruct (loop_frame _ _ _ _ _ _ Hi1 Hl) as (Hlp & _ & Hft & _). rewrite Hlp, Hft. auto.
  - destruct (swap_with_exact_target _ _ _ _ _ _ _) eqn:E; cbn; [|auto].
    destruct (target_loop _ _ _ _ _ _ _ _ E) as (x & y & rest & a0 & ar & l & _ & _ & _ & _ & Ht & Hl).
    assert (Hi1 : DexInv (set_lg s l)) by (eapply inv_transfer; eassumption).
    destruct (loop_frame _ _ _ _ _ _ Hi1 Hl) as (Hlp & _ & Hft & _). rewrite Hlp, Hft. auto.
  - destruct (add_liquidity _ _ _ _ _ _ _ _ _ _) as [[s' [[am0 am1] lq]]|] eqn:E; [|auto].
    destruct (add_liquidity_spec _ _ _ _ _ _ _ _ _ _ _ _ _ _ E (di_books s Hi))
      as (i & x0 & x1 & l1 & l2 & l3 & He).
    split; [apply (ae_feeto _ _ _ _ _ _ _ _ _ _ _ _ _ _ He)|]. intros p k Hp.
    destruct (ae_lp _ _ _ _ _ _ _ _ _ _ _ _ _ _ He) as [(_ & -> & _)|(Hnone & _ & -> & _)]; [exact Hp|].
    rewrite lookup_insert_ne; [exact Hp|congruence].
  - destruct (remove_liquidity _ _ _ _ _ _ _ _ _) as [[s' [am0 am1]]|] eqn:E; [|auto].
    destruct (remove_liquidity_spec _ _ _ _ _ _ _ _ _ _ _ _ E (di_books s Hi))
      as (i & lq & l1 & l2 & l3 & He).
    destruct (re_frame _ _ _ _ _ _ _ _ _ _ _ _ _ He) as (-> & _ & -> & _). auto.
  - cbv zeta. destruct (lp s !! pair_of a b); [|auto]. destruct (is_enabled _ _); auto.
  - cbv zeta. destruct (lp s !! pair_of a b); [|auto]. destruct (is_enabled _ _); auto.
  - destruct (transfer _ _ _ _ _); auto.
  - destruct (_ && _); [|auto]. destruct (mint _ _ _ _); auto.
Qed.

Lemma step_value s o p i :
  DexInv s -> feeto s = None -> not_fee_change o -> lp s !! p = Some i -> value_le s (step s o) p i.
Proof.
  intros Hi Hf Hn Hp.
  assert (Hsame : forall s', product s p <= product s' p -> shares s' i = shares s i -> value_le s s' p i).
  { intros s' H1 H2. unfold value_le. rewrite H2. apply N.mul_le_mono_r. exact H1. }
  destruct o; cbn [step]; try contradiction;
    try (apply value_le_refl); try (apply Hsame; reflexivity).
  - destruct (swap_with_exact_supply _ _ _ _ _ _ _) eqn:E; cbn; [|apply value_le_refl].
    apply Hsame; [eapply supply_product; eassumption|].
    destruct (supply_loop _ _ _ _ _ _ _ _ E) as (x & y & rest & ar & l & _ & _ & _ & _ & Ht & Hl).
    assert (Hi1 : DexInv (set_lg s l)) by (eapply inv_transfer; eassumption).
    unfold shares. rewrite (loop_issuance _ _ _ _ _ _ i Hi1 Hf Hl). cbn.
    eapply transfer_issuance. eassumption.
  - destruct (swap_with_exact_target _ _ _ _ _ _ _) eqn:E; cbn; [|apply value_le_refl].
    apply Hsame; [eapply target_product; eassumption|].
    destruct (target_loop _ _ _ _ _ _ _ _ E) as (x & y & rest & a0 & ar & l & _ & _ & _ & _ & Ht & Hl).
    assert (Hi1 : DexInv (set_lg s l)) by (eapply inv_transfer; eassumption).
    unfold shares. rewrite (loop_issuance _ _ _ _ _ _ i Hi1 Hf Hl). cbn.
    eapply transfer_issuance. eassumption.
  - destruct (add_liquidity _ _ _ _ _ _ _ _ _ _) as [[s' r]|] eqn:E; [|apply value_le_refl].
    eapply add_value; eassumption.
  - destruct (remove_liquidity _ _ _ _ _ _ _ _ _) as [[s' r]|] eqn:E; [|apply value_le_refl].
    eapply remove_value; eassumption.
  - cbv zeta. destruct (lp s !! pair_of a b); [|apply value_le_refl].
    destruct (is_enabled _ _); first [apply value_le_refl | apply Hsame; reflexivity].
  - cbv zeta. destruct (lp s !! pair_of a b); [|apply value_le_refl].
    destruct (is_enabled _ _); first [apply value_le_refl | apply Hsame; reflexivity].
  - destruct (transfer _ _ _ _ _) eqn:E; [|apply value_le_refl]. apply Hsame; [reflexivity|].
    eapply transfer_issuance. eassumption.
  - destruct (_ && _) eqn:Eb; [|apply value_le_refl]. destruct (mint _ _ _ _) eqn:E; [|apply value_le_refl].
    apply Hsame; [reflexivity|]. apply mint_spec in E. destruct E as (_ & Hm & _).
    unfold shares. cbn. rewrite Hm. destruct (N.eqb_spec asset i); [|lia]. subst.
    apply andb_true_iff in Eb. destruct Eb as [_ Eb]. apply negb_true_iff in Eb.
    exfalso. eapply is_lp_false; eauto.
Qed.

Lemma shares_pos s p i : DexInv s -> lp s !! p = Some i -> MIN_LIQ <= shares s i.
Proof.
  intros Hi Hp. pose proof (di_live s Hi p i Hp) as (_ & _ & HB).
  destruct (di_books s Hi i) as [Ht _]. pose proof (balance_le_total (lg s) i ABurn).
  unfold shares. lia.
Qed.

Lemma history_value ops : forall s p i,
  DexInv s -> feeto s = None -> Forall not_fee_change ops -> lp s !! p = Some i ->
  value_le s (run step ops s) p i.
Proof.
  induction ops as [|o ops IH]; intros s p i Hi Hf Hall Hp; cbn; [apply value_le_refl|].
  inversion Hall; subst. destruct (step_frame s o Hi) as [Hft Hlp]; [assumption|].
  pose proof (step_inv s o Hi) as Hi1.
  eapply value_le_trans; [|apply step_value; eassumption|].
  - pose proof (shares_pos (step s o) p i Hi1 (Hlp p i Hp)) as Hs. unfold MIN_LIQ in Hs. lia.
  - apply IH; auto. congruence.
Qed.

(** ** C05 *)
Lemma step_lp_kept s o p i : DexInv s -> lp s !! p = Some i -> lp (step s o) !! p = Some i.
Proof.
  intros Hi Hp. destruct o; try (refine (proj2 (step_frame s _ Hi _) p i Hp); exact I). exact Hp.
Qed.
Lemma run_lp_kept ops : forall s p i, DexInv s -> lp s !! p = Some i -> lp (run step ops s) !! p = Some i.
Proof.
  induction ops as [|o ops IH]; intros s p i Hi Hp; cbn; [exact Hp|].
  apply IH; [apply step_inv; exact Hi|apply step_lp_kept; assumption].
Qed.
Lemma never_drained ops s p i :
  DexInv s -> lp s !! p = Some i ->
  let s' := run step ops s in
  1000 <= shares s' i /\ 1000 <= balance (lg s') i ABurn /\
  0 < fst (reserves s' p) <= balance (lg s') (fst p) (pool_addr p) /\
  0 < snd (reserves s' p) <= balance (lg s') (snd p) (pool_addr p).
Proof.
  intros Hi Hp. cbv zeta. pose proof (run_dex_inv ops s Hi) as Hi'.
  pose proof (run_lp_kept ops s p i Hi Hp) as Hp'.
  pose proof (di_live _ Hi' p i Hp') as (H0 & H1 & H2).
  pose proof (di_backed _ Hi' p) as (H3 & H4). pose proof (shares_pos _ _ _ Hi' Hp') as H5.
  unfold MIN_LIQ in *. repeat split; assumption.
Qed.

(** ** C06 *)
(** Nobody has sent tokens to the pool account outside of the exchange. *)
Definition synced (s : dex) (p : N * N) : Prop :=
  balance (lg s) (fst p) (pool_addr p) = fst (reserves s p) /\
  balance (lg s) (snd p) (pool_addr p) = snd (reserves s p) /\
  (forall i, lp s !! p = Some i -> balance (lg s) i (pool_addr p) = 0).

Lemma round_trip s w a b da db ma mb d s1 r1 lq ma' mb' d' s2 r2 t :
  DexInv s -> synced s (pair_of a b) ->
  add_liquidity s (AUser w) a b da db ma mb (AUser w) d = Ok (s1, (r1, lq)) ->
  remove_liquidity s1 (AUser w) a b lq ma' mb' (AUser w) d' = Ok (s2, r2) ->
  t = a \/ t = b ->
  balance (lg s2) t (AUser w) <= balance (lg s) t (AUser w).
Proof.
  intros Hi Hsy Ha Hr Ht. destruct r1 as [am0 am1], r2 as [rm0 rm1].
  assert (Hi1 : DexInv s1) by (eapply inv_add; eassumption).
  destruct (add_liquidity_spec _ _ _ _ _ _ _ _ _ _ _ _ _ _ Ha (di_books s Hi))
    as (i & x0 & x1 & l1 & l2 & l3 & He).
  destruct (remove_liquidity_spec _ _ _ _ _ _ _ _ _ _ _ _ Hr (di_books s1 Hi1))
    as (j & liq & m1 & m2 & m3 & Hf).
  set (p := pair_of a b) in *.
  destruct He as [Hsort Hlp Hft Ht1 Ht2 Ham0 Ham1 Hfirst Hliq Hpos Hmint Hres Hlk].
  destruct Hf as [_ Hlp' Hfr Hu1 Hlq Hts Hrm0 Hrm1 Hrpos Hburn Hu2 Hu3 Hres' _].
  destruct Hsy as (Hsy0 & Hsy1 & Hsy2).
  assert (Hij : j = i).
  { destruct Hlp as [(Hl & E & _)|(_ & _ & E & _)]; rewrite E in Hlp'.
    - congruence.
    - rewrite lookup_insert in Hlp'. congruence. }
  subst j. pose proof (di_some s1 Hi1 p i Hlp') as (_ & Hi0 & Hi1' & _).
  assert (Hb1 : books m1) by (eapply transfer_books; [eassumption|apply Hi1]).
  pose proof (burn_spec _ _ _ _ _ Hburn Hb1) as (_ & _ & Hbb & _).
  pose proof (transfer_spec _ _ _ _ _ _ Ht1) as (_ & _ & B1).
  pose proof (transfer_spec _ _ _ _ _ _ Ht2) as (_ & _ & B2).
  pose proof (mint_spec _ _ _ _ _ Hmint) as (_ & I4 & B4 & _).
  pose proof (transfer_spec _ _ _ _ _ _ Hu1) as (_ & _ & C1).
  pose proof (transfer_spec _ _ _ _ _ _ Hu2) as (_ & _ & C2).
  pose proof (transfer_spec _ _ _ _ _ _ Hu3) as (_ & _ & C3).
  assert (B3 : forall c y, c <> i -> balance l3 c y = balance l2 c y).
  { intros c y Hc. destruct Hliq as [(_ & Hm & _)|(_ & -> & _)]; [|reflexivity].
    apply mint_spec in Hm. destruct Hm as (_ & _ & Hm & _). rewrite Hm.
    destruct (decide ((i, ABurn) = (c, y))); [congruence|lia]. }
  assert (Hiss : issuance m1 i = issuance l3 i + lq).
  { rewrite (transfer_issuance _ _ _ _ _ _ i Hu1), I4, N.eqb_refl. reflexivity. }
  assert (Hneq : fst p <> snd p) by lia.
  (* LP balance of the pool before burning is what was just minted *)
  assert (Hlp0 : balance l3 i (pool_addr p) = 0).
  { assert (Hz : balance (lg s) i (pool_addr p) = 0).
    { destruct Hlp as [(Hl & _)|(_ & -> & _)]; [apply Hsy2; exact Hl|apply fresh_balance; [exact Hi|lia]]. }
    pose proof (transfer_mono_asset _ _ _ _ _ _ i (pool_addr p) Ht1 ltac:(congruence)).
    pose proof (transfer_mono_asset _ _ _ _ _ _ i (pool_addr p) Ht2 ltac:(congruence)).
    destruct Hliq as [(_ & Hm & _)|(_ & -> & _)]; [|lia].
    apply mint_spec in Hm. destruct Hm as (_ & _ & Hm & _). rewrite Hm.
    destruct (decide ((i, ABurn) = (i, pool_addr p))); [discriminate|]. lia. }
  assert (Hlqe : liq = lq).
  { specialize (C1 i (pool_addr p)). specialize (B4 i (pool_addr p)).
    destruct (decide ((i, AUser w) = (i, pool_addr p))) as [E|_]; [discriminate|].
    destruct (decide ((i, pool_addr p) = (i, pool_addr p))) as [_|E]; [|congruence]. lia. }
  (* deposits equal what the user paid *)
  assert (Hx0 : am0 = x0).
  { specialize (B1 (fst p) (pool_addr p)).
    pose proof (transfer_mono_asset _ _ _ _ _ _ (fst p) (pool_addr p) Ht2 ltac:(congruence)).
    destruct (decide ((fst p, AUser w) = (fst p, pool_addr p))) as [E|_]; [discriminate|].
    destruct (decide ((fst p, pool_addr p) = (fst p, pool_addr p))) as [_|E]; [|congruence]. lia. }
  assert (Hx1 : am1 = x1).
  { specialize (B2 (snd p) (pool_addr p)).
    pose proof (transfer_mono_asset _ _ _ _ _ _ (snd p) (pool_addr p) Ht1 ltac:(congruence)).
    destruct (decide ((snd p, AUser w) = (snd p, pool_addr p))) as [E|_]; [discriminate|].
    destruct (decide ((snd p, pool_addr p) = (snd p, pool_addr p))) as [_|E]; [|congruence]. lia. }
  subst am0 am1 liq.
  (* pool balances when shares are burned *)
  assert (Hp0 : balance m1 (fst p) (pool_addr p) = x0 + fst (reserves s p)).
  { rewrite <- (transfer_mono_asset _ _ _ _ _ _ (fst p) (pool_addr p) Hu1 ltac:(congruence)).
    rewrite B4. destruct (decide ((i, AUser w) = (fst p, pool_addr p))) as [E|_]; [discriminate|].
    rewrite B3 by congruence. lia. }
  assert (Hp1 : balance m1 (snd p) (pool_addr p) = x1 + snd (reserves s p)).
  { rewrite <- (transfer_mono_asset _ _ _ _ _ _ (snd p) (pool_addr p) Hu1 ltac:(congruence)).
    rewrite B4. destruct (decide ((i, AUser w) = (snd p, pool_addr p))) as [E|_]; [discriminate|].
    rewrite B3 by congruence. lia. }
  rewrite Hp0, Hlqe, Hiss in Hrm0. rewrite Hp1, Hlqe, Hiss in Hrm1.
  assert (Hle : rm0 <= x0 /\ rm1 <= x1).
  { destruct Hliq as [(Hz & Hm & _)|(Hz & -> & H0 & H1 & _)].
    - assert (Hr0 : fst (reserves s p) = 0 /\ snd (reserves s p) = 0).
      { destruct Hlp as [(Hl & _)|(Hl & _)].
        - exfalso. pose proof (shares_pos s p i Hi Hl) as Hsp. unfold shares, MIN_LIQ in Hsp.
          rewrite (transfer_issuance _ _ _ _ _ _ i Ht2), (transfer_issuance _ _ _ _ _ _ i Ht1) in Hz. lia.
        - rewrite (di_none s Hi p Hl). auto. }
      destruct Hr0 as [Hr0 Hr1]. rewrite Hr0 in Hrm0. rewrite Hr1 in Hrm1.
      split; nia.
    - split; nia. }
  (* user balances *)
  assert (Hfin : forall k, (k = fst p /\ True) \/ (k = snd p /\ True) ->
     balance (lg s2) k (AUser w) + (if k =? fst p then x0 else x1)
     = balance (lg s) k (AUser w) + (if k =? fst p then rm0 else rm1)).
  { intros k Hk.
    specialize (B1 k (AUser w)). specialize (B2 k (AUser w)). specialize (B4 k (AUser w)).
    specialize (C1 k (AUser w)). specialize (C2 k (AUser w)). specialize (C3 k (AUser w)).
    specialize (Hbb k (AUser w)).
    assert (k <> i) by (destruct Hk as [[-> _]|[-> _]]; congruence).
    rewrite (B3 k) in B4 by assumption.
    repeat match goal with
      | H : context [decide ((?x, pool_addr p) = (?y, AUser w))] |- _ =>
          destruct (decide ((x, pool_addr p) = (y, AUser w))) as [?E|_]; [discriminate|]
      | H : context [decide ((i, AUser w) = (k, AUser w))] |- _ =>
          destruct (decide ((i, AUser w) = (k, AUser w))) as [?E|_]; [congruence|]
      end.
    destruct Hk as [[-> _]|[-> _]].
    - rewrite N.eqb_refl.
      repeat match goal with
      | H : context [decide ((?x, AUser w) = (?x, AUser w))] |- _ =>
          destruct (decide ((x, AUser w) = (x, AUser w))) as [_|?E]; [|congruence]
      | H : context [decide ((?x, AUser w) = (?y, AUser w))] |- _ =>
          destruct (decide ((x, AUser w) = (y, AUser w))) as [?E|_]; [congruence|]
      end. lia.
    - destruct (N.eqb_spec (snd p) (fst p)); [lia|].
      repeat match goal with
      | H : context [decide ((?x, AUser w) = (?x, AUser w))] |- _ =>
          destruct (decide ((x, AUser w) = (x, AUser w))) as [_|?E]; [|congruence]
      | H : context [decide ((?x, AUser w) = (?y, AUser w))] |- _ =>
          destruct (decide ((x, AUser w) = (y, AUser w))) as [?E|_]; [congruence|]
      end. lia. }
  assert (Hk : (t = fst p /\ True) \/ (t = snd p /\ True)).
  { unfold p. destruct (pair_of_cases a b) as [->| ->]; cbn; intuition. }
  specialize (Hfin t Hk). destruct (t =? fst p); lia.
Qed.

(** ** C07 *)
(** A fee of [m] shares out of [ts] is at most one sixth of the growth from [k] to [k']. *)
Definition fee_fair (m ts k k' : N) : Prop :=
  6 * m * N.sqrt k' <= ts * (N.sqrt k' - N.sqrt k).

Lemma fee_shares_fair ts kl k : fee_fair (fee_shares ts kl k) (ts + fee_shares ts kl k) kl k.
Proof.
  unfold fee_fair, fee_shares. destruct (N.eqb_spec kl 0); [lia|].
  destruct (N.ltb_spec (N.sqrt kl) (N.sqrt k)); [|lia].
  set (rk := N.sqrt k) in *. set (rl := N.sqrt kl) in *.
  set (m := ts * (rk - rl) / (rk * 5 + rl)).
  assert (Hm : sat128 m * (rk * 5 + rl) <= ts * (rk - rl)).
  { etransitivity; [apply N.mul_le_mono_r, sat128_le|]. apply mul_div_le. lia. }
  clearbody m. set (x := sat128 m) in *. clearbody x. 
  assert (rk = rl + (rk - rl)) by lia. set (g := rk - rl) in *. clearbody g. subst rk. nia.
Qed.

(** With the receiver always set, the remembered product is the current one. *)
Definition FeeInv (s : dex) : Prop :=
  (exists f, feeto s = Some f) /\
  forall p i, lp s !! p = Some i -> getN (lastk s) i = product s p.
Definition fee_stays_on (o : op) : Prop := match o with OSetFeeTo None => False | _ => True end.

Lemma leg_feeinv s i o ao to s' : DexInv s -> FeeInv s -> swap_leg s i o ao to = Ok s' -> FeeInv s'.
Proof.
  intros Hi [[f Hf] Hk] Hs. destruct (swap_leg_spec _ _ _ _ _ _ Hs (di_books s Hi)) as [l2 He].
  destruct (le_frame _ _ _ _ _ _ _ He) as (Hlp & _ & Hft & _).
  split; [exists f; congruence|]. intros q j Hq. rewrite Hlp in Hq.
  pose proof (le_ledger _ _ _ _ _ _ _ He) as Hl. rewrite Hf in Hl. destruct Hl as (i' & Hi' & _ & Hlk).
  rewrite Hlk. destruct (N.eqb_spec i' j) as [->|Hne].
  - assert (q = pair_of i o) as -> by (eapply (di_inj s Hi); eassumption). reflexivity.
  - rewrite (Hk q j Hq). unfold product. rewrite (le_res _ _ _ _ _ _ _ He q).
    destruct (decide (pair_of i o = q)) as [<-|]; [congruence|reflexivity].
Qed.
Lemma loop_feeinv rest : forall s x amounts to s',
  DexInv s -> FeeInv s -> swap_loop s x rest amounts to = Ok s' -> FeeInv s'.
Proof.
  induction rest as [|y rest IH]; intros s x amounts to s' Hi Hk Hs; cbn in Hs.
  - inv_ok. subst. exact Hk.
  - destruct amounts as [|ao amounts]; [inv_ok; subst; exact Hk|].
    inv_ok. eapply IH; [| |eassumption]; [eapply inv_leg|eapply leg_feeinv]; eassumption.
Qed.
Lemma set_lg_feeinv s l : FeeInv s -> FeeInv (set_lg s l).
Proof. intros Hk. exact Hk. Qed.

Lemma step_feeinv s o : DexInv s -> FeeInv s -> fee_stays_on o -> FeeInv (step s o).
Proof.
  intros Hi Hk Hn. destruct o; cbn [step].
  - destruct (swap_with_exact_supply _ _ _ _ _ _ _) eqn:E; cbn; [|exact Hk].
    destruct (supply_loop _ _ _ _ _ _ _ _ E) as (x & y & rest & ar & l & _ & _ & _ & _ & Ht & Hl).
    eapply loop_feeinv; [|apply set_lg_feeinv; exact Hk|eassumption]. eapply inv_transfer; eassumption.
  - destruct (swap_with_exact_target _ _ _ _ _ _ _) eqn:E; cbn; [|exact Hk].
    destruct (target_loop _ _ _ _ _ _ _ _ E) as (x & y & rest & a0 & ar & l & _ & _ & _ & _ & Ht & Hl).
    eapply loop_feeinv; [|apply set_lg_feeinv; exact Hk|eassumption]. eapply inv_transfer; eassumption.
  - destruct (add_liquidity _ _ _ _ _ _ _ _ _ _) as [[s' [[am0 am1] lq]]|] eqn:E; [|exact Hk].
    destruct (add_liquidity_spec _ _ _ _ _ _ _ _ _ _ _ _ _ _ E (di_books s Hi))
      as (i & x0 & x1 & l1 & l2 & l3 & He).
    pose proof (inv_add _ _ _ _ _ _ _ _ _ _ _ _ Hi E) as Hi'.
    destruct Hk as [[f Hf] Hk].
    split; [exists f; rewrite (ae_feeto _ _ _ _ _ _ _ _ _ _ _ _ _ _ He); exact Hf|].
    intros q j Hq. rewrite (ae_lastk _ _ _ _ _ _ _ _ _ _ _ _ _ _ He), Hf.
    assert (Hlpi : lp s' !! pair_of a b = Some i).
    { destruct (ae_lp _ _ _ _ _ _ _ _ _ _ _ _ _ _ He) as [(Hl & -> & _)|(_ & _ & -> & _)];
        [exact Hl|apply lookup_insert]. }
    destruct (N.eqb_spec i j) as [->|Hne].
    + assert (q = pair_of a b) as -> by (eapply (di_inj s' Hi'); eassumption). reflexivity.
    + assert (Hqp : q <> pair_of a b) by congruence.
      assert (Hqs : lp s !! q = Some j).
      { destruct (ae_lp _ _ _ _ _ _ _ _ _ _ _ _ _ _ He) as [(_ & El & _)|(_ & _ & El & _)];
          rewrite El in Hq; [exact Hq|]. rewrite lookup_insert_ne in Hq by congruence. exact Hq. }
      rewrite (Hk q j Hqs). unfold product. rewrite (ae_res _ _ _ _ _ _ _ _ _ _ _ _ _ _ He q).
      destruct (decide _); [congruence|reflexivity].
  - destruct (remove_liquidity _ _ _ _ _ _ _ _ _) as [[s' [am0 am1]]|] eqn:E; [|exact Hk].
    destruct (remove_liquidity_spec _ _ _ _ _ _ _ _ _ _ _ _ E (di_books s Hi))
      as (i & lq & l1 & l2 & l3 & He).
    destruct Hk as [[f Hf] Hk].
    destruct (re_frame _ _ _ _ _ _ _ _ _ _ _ _ _ He) as (Hlp & _ & Hft & _).
    split; [exists f; congruence|]. intros q j Hq. rewrite Hlp in Hq.
    rewrite (re_lastk _ _ _ _ _ _ _ _ _ _ _ _ _ He), Hf.
    pose proof (re_lp _ _ _ _ _ _ _ _ _ _ _ _ _ He) as Hlpi.
    destruct (N.eqb_spec i j) as [->|Hne].
    + assert (q = pair_of a b) as -> by (eapply (di_inj s Hi); eassumption). reflexivity.
    + rewrite (Hk q j Hq). unfold product. rewrite (re_res _ _ _ _ _ _ _ _ _ _ _ _ _ He q).
      destruct (decide (pair_of a b = q)) as [<-|]; [congruence|reflexivity].
  - destruct f as [f'|]; [|contradiction]. destruct Hk as [_ Hk]. split; [exists f'; reflexivity|exact Hk].
  - cbv zeta. destruct (lp s !! pair_of a b); [|exact Hk]. destruct (is_enabled _ _); exact Hk.
  - cbv zeta. destruct (lp s !! pair_of a b); [|exact Hk]. destruct (is_enabled _ _); exact Hk.
  - destruct (transfer _ _ _ _ _); exact Hk.
  - exact Hk.
  - destruct (_ && _); [|exact Hk]. destruct (mint _ _ _ _); exact Hk.
  - exact Hk.
Qed.

Lemma run_feeinv n0 lim f ops :
  Forall fee_stays_on ops -> FeeInv (run step ops (init n0 lim (Some f))).
Proof.
  intros Hf.
  assert (H : DexInv (run step ops (init n0 lim (Some f))) /\ FeeInv (run step ops (init n0 lim (Some f)))).
  { apply (run_inv_where step fee_stays_on (fun s => DexInv s /\ FeeInv s)); [|exact Hf|].
    - intros s o Ho [Hi Hk]. split; [apply step_inv; exact Hi|apply step_feeinv; assumption].
    - split; [apply init_inv|]. split; [exists f; reflexivity|].
      intros p i Hp. cbn in Hp. rewrite lookup_empty in Hp. discriminate. }
  apply H.
Qed.

Lemma leg_fee_fair s i o ao to s' p j :
  DexInv s -> FeeInv s -> swap_leg s i o ao to = Ok s' -> lp s !! p = Some j ->
  exists m, shares s' j = shares s j + m /\ fee_fair m (shares s' j) (product s p) (product s' p).
Proof.
  intros Hi [[f Hf] Hk] Hs Hp. destruct (swap_leg_spec _ _ _ _ _ _ Hs (di_books s Hi)) as [l2 He].
  pose proof (le_ledger _ _ _ _ _ _ _ He) as Hl. rewrite Hf in Hl.
  destruct Hl as (i' & Hi' & Hm & _).
  pose proof (transfer_issuance _ _ _ _ _ _ j (le_transfer _ _ _ _ _ _ _ He)) as Hiss.
  destruct (decide (pair_of i o = p)) as [Hpp|Hpp].
  - subst p. assert (i' = j) as -> by congruence.
    set (m := fee_shares (issuance l2 j) (getN (lastk s) j)
               (fst (reserves s' (pair_of i o)) * snd (reserves s' (pair_of i o)))) in *.
    exists m.
    assert (Hsh : shares s' j = shares s j + m).
    { unfold shares. destruct Hm as [[-> ->]|Hm]; [lia|].
      apply mint_spec in Hm. destruct Hm as (_ & Hm & _). rewrite Hm, N.eqb_refl, Hiss. reflexivity. }
    split; [exact Hsh|]. rewrite Hsh. unfold m. rewrite (Hk _ _ Hp), Hiss. unfold shares.
    apply fee_shares_fair.
  - exists 0. split; [|unfold fee_fair; lia]. rewrite N.add_0_r. unfold shares.
    assert (i' <> j) by (intros ->; apply Hpp; eapply (di_inj s Hi); eassumption).
    destruct Hm as [[_ ->]|Hm]; [exact Hiss|].
    apply mint_spec in Hm. destruct Hm as (_ & Hm & _). rewrite Hm, Hiss.
    destruct (N.eqb_spec i' j); [congruence|]. lia.
Qed.

(** ** C08 *)
Definition not_mint (o : op) : Prop := match o with OMint _ _ _ => False | _ => True end.

Lemma loop_total rest : forall s x amounts to s' c,
  DexInv s -> (forall p, lp s !! p <> Some c) -> swap_loop s x rest amounts to = Ok s' ->
  total (lg s') c = total (lg s) c.
Proof.
  induction rest as [|y rest IH]; intros s x amounts to s' c Hi Hc Hs; cbn in Hs.
  - inv_ok. subst. reflexivity.
  - destruct amounts as [|ao amounts]; [inv_ok; subst; reflexivity|]. inv_ok.
    match goal with H : swap_leg _ _ _ _ _ = Ok ?r |- _ => rename H into Hleg; rename r into s1 end.
    destruct (swap_leg_spec _ _ _ _ _ _ Hleg (di_books s Hi)) as [l2 He].
    destruct (le_frame _ _ _ _ _ _ _ He) as (Hlp & _).
    rewrite (IH s1 y amounts to s' c); [|eapply inv_leg; eassumption|rewrite Hlp; exact Hc|assumption].
    rewrite <- (transfer_total _ _ _ _ _ _ c (le_transfer _ _ _ _ _ _ _ He)).
    pose proof (le_ledger _ _ _ _ _ _ _ He) as Hl. destruct (feeto s) as [f|].
    + destruct Hl as (j & Hj & [[_ ->]|Hm] & _); [reflexivity|].
      apply mint_spec in Hm. destruct Hm as (_ & _ & _ & Hm). rewrite Hm.
      destruct (N.eqb_spec j c); [subst; exfalso; eapply Hc; eassumption|lia].
    + destruct Hl as [-> _]. reflexivity.
Qed.

Lemma step_total s o c :
  DexInv s -> not_mint o -> (forall p, lp (step s o) !! p <> Some c) ->
  total (lg (step s o)) c = total (lg s) c.
Proof.
  intros Hi Hn Hc'.
  assert (Hc : forall p, lp s !! p <> Some c).
  { intros p Hp. apply (Hc' p). apply step_lp_kept; assumption. }
  destruct o; cbn [step] in *; try contradiction; try reflexivity.
  - destruct (swap_with_exact_supply _ _ _ _ _ _ _) eqn:E; cbn; [|reflexivity].
    destruct (supply_loop _ _ _ _ _ _ _ _ E) as (x & y & rest & ar & l & _ & _ & _ & _ & Ht & Hl).
    rewrite <- (transfer_total _ _ _ _ _ _ c Ht). change (total l c) with (total (lg (set_lg s l)) c).
    eapply loop_total; [|exact Hc|eassumption]. eapply inv_transfer; eassumption.
  - destruct (swap_with_exact_target _ _ _ _ _ _ _) eqn:E; cbn; [|reflexivity].
    destruct (target_loop _ _ _ _ _ _ _ _ E) as (x & y & rest & a0 & ar & l & _ & _ & _ & _ & Ht & Hl).
    rewrite <- (transfer_total _ _ _ _ _ _ c Ht). change (total l c) with (total (lg (set_lg s l)) c).
    eapply loop_total; [|exact Hc|eassumption]. eapply inv_transfer; eassumption.
  - destruct (add_liquidity _ _ _ _ _ _ _ _ _ _) as [[s' [[am0 am1] lq]]|] eqn:E; [|reflexivity].
    destruct (add_liquidity_spec _ _ _ _ _ _ _ _ _ _ _ _ _ _ E (di_books s Hi))
      as (i & x0 & x1 & l1 & l2 & l3 & He).
    destruct He as [Hsort Hlp Hft Ht1 Ht2 Ham0 Ham1 Hfirst Hliq Hpos Hmint Hres Hlk].
    assert (Hic : i <> c).
    { intros ->. apply (Hc' (pair_of a b)).
      destruct Hlp as [(Hl & -> & _)|(_ & _ & -> & _)]; [exact Hl|apply lookup_insert]. }
    apply mint_spec in Hmint. destruct Hmint as (_ & _ & _ & ->).
    rewrite <- (transfer_total _ _ _ _ _ _ c Ht1), <- (transfer_total _ _ _ _ _ _ c Ht2).
    destruct (N.eqb_spec i c); [congruence|]. rewrite N.add_0_r.
    destruct Hliq as [(_ & Hm & _)|(_ & -> & _)]; [|reflexivity].
    apply mint_spec in Hm. destruct Hm as (_ & _ & _ & ->). destruct (N.eqb_spec i c); [congruence|]. lia.
  - destruct (remove_liquidity _ _ _ _ _ _ _ _ _) as [[s' [am0 am1]]|] eqn:E; [|reflexivity].
    destruct (remove_liquidity_spec _ _ _ _ _ _ _ _ _ _ _ _ E (di_books s Hi))
      as (i & lq & l1 & l2 & l3 & He).
    destruct He as [Hsort Hlp Hf Ht1 Hliq Hts Ham0 Ham1 Hpos Hburn Ht2 Ht3 Hres Hlk].
    assert (Hb1 : books l1) by (eapply transfer_books; [eassumption|apply Hi]).
    apply burn_spec in Hburn; [|exact Hb1]. destruct Hburn as (_ & _ & _ & Hb). specialize (Hb c).
    rewrite (transfer_total _ _ _ _ _ _ c Ht3), (transfer_total _ _ _ _ _ _ c Ht2).
    rewrite <- (transfer_total _ _ _ _ _ _ c Ht1).
    destruct (N.eqb_spec i c); [subst; exfalso; eapply Hc; eassumption|]. lia.
  - cbv zeta. destruct (lp s !! pair_of a b); [|reflexivity]. destruct (is_enabled _ _); reflexivity.
  - cbv zeta. destruct (lp s !! pair_of a b); [|reflexivity]. destruct (is_enabled _ _); reflexivity.
  - destruct (transfer _ _ _ _ _) eqn:E; [|reflexivity]. cbn. eapply transfer_total. eassumption.
Qed.

Lemma history_total ops : forall s c,
  DexInv s -> Forall not_mint ops -> (forall p, lp (run step ops s) !! p <> Some c) ->
  total (lg (run step ops s)) c = total (lg s) c.
Proof.
  induction ops as [|o ops IH]; intros s c Hi Hf Hc; cbn in *; [reflexivity|].
  inversion Hf; subst. pose proof (step_inv s o Hi) as Hi1.
  rewrite IH by assumption. apply step_total; [exact Hi|assumption|].
  intros p Hp. apply (Hc p). apply run_lp_kept; assumption.
Qed.

(** Adding or removing liquidity gives shares to nobody but the provider's chosen receiver. *)
Lemma add_no_fee s w a b da db ma mb to d s' r i f :
  DexInv s -> add_liquidity s (AUser w) a b da db ma mb to d = Ok (s', r) ->
  lp s !! pair_of a b = Some i -> f <> to -> balance (lg s') i f = balance (lg s) i f.
Proof.
  intros Hi E Hp Hf. destruct r as [[am0 am1] lq].
  destruct (add_liquidity_spec _ _ _ _ _ _ _ _ _ _ _ _ _ _ E (di_books s Hi))
    as (j & x0 & x1 & l1 & l2 & l3 & He).
  destruct He as [Hsort Hlp Hft Ht1 Ht2 Ham0 Ham1 Hfirst Hliq Hpos Hmint Hres Hlk].
  assert (j = i) as -> by (destruct Hlp as [(Hl & _)|(Hl & _)]; congruence).
  pose proof (di_some s Hi _ i Hp) as (_ & Hi0 & Hi1 & _).
  apply mint_spec in Hmint. destruct Hmint as (_ & _ & -> & _).
  destruct (decide ((i, to) = (i, f))); [congruence|]. rewrite N.add_0_r.
  rewrite (transfer_mono_asset _ _ _ _ _ _ i f Ht1) by congruence.
  rewrite (transfer_mono_asset _ _ _ _ _ _ i f Ht2) by congruence.
  destruct Hliq as [(Hz & _)|(_ & -> & _)]; [|reflexivity]. exfalso.
  pose proof (shares_pos s _ i Hi Hp) as Hsp. unfold shares, MIN_LIQ in Hsp.
  rewrite (transfer_issuance _ _ _ _ _ _ i Ht2), (transfer_issuance _ _ _ _ _ _ i Ht1) in Hz. lia.
Qed.
Lemma remove_no_fee s w a b lq ma mb to d s' r i f :
  DexInv s -> remove_liquidity s (AUser w) a b lq ma mb to d = Ok (s', r) ->
  lp s !! pair_of a b = Some i -> balance (lg s') i f <= balance (lg s) i f.
Proof.
  intros Hi E Hp. destruct r as [am0 am1].
  destruct (remove_liquidity_spec _ _ _ _ _ _ _ _ _ _ _ _ E (di_books s Hi))
    as (j & liq & l1 & l2 & l3 & He).
  destruct He as [Hsort Hlp Hfr Ht1 Hliq Hts Ham0 Ham1 Hpos Hburn Ht2 Ht3 Hres Hlk].
  assert (j = i) as -> by congruence.
  pose proof (di_some s Hi _ i Hp) as (_ & Hi0 & Hi1 & _).
  assert (Hb1 : books l1) by (eapply transfer_books; [eassumption|apply Hi]).
  apply burn_spec in Hburn; [|exact Hb1]. destruct Hburn as (_ & _ & Hbb & _).
  rewrite <- (transfer_mono_asset _ _ _ _ _ _ i f Ht3) by congruence.
  rewrite <- (transfer_mono_asset _ _ _ _ _ _ i f Ht2) by congruence.
  specialize (Hbb i f). pose proof (transfer_spec _ _ _ _ _ _ Ht1) as (_ & _ & B). specialize (B i f).
  destruct (decide ((i, pool_addr (pair_of a b)) = (i, f))) as [Ef|_].
  - injection Ef as <-. lia.
  - lia.
Qed.

