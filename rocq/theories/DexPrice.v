(** Exchange: exact prices, the fee inside every leg, disabled pairs, the minima of liquidity
    providers and that they can always withdraw. *)
From Verif Require Import DexLive.

(** ** Specification *)
(** What the pool of [a] and [b] has in reserve of [a]. *)
Definition reserve_of (s : dex) (a b : N) : N :=
  if a <? b then fst (reserves s (a, b)) else snd (reserves s (b, a)).
(** The constant-product price with the 0.3 % fee, rounded in favour of the pool. *)
Definition price_out (s : dex) (x a b : N) : N :=
  x * 997 * reserve_of s b a / (reserve_of s a b * 1000 + x * 997).
Definition price_in (s : dex) (y a b : N) : N :=
  N.min (2 ^ 128 - 1) (reserve_of s a b * y * 1000 / ((reserve_of s b a - y) * 997) + 1).
Fixpoint chain_out (s : dex) (x a : N) (rest : list N) : N :=
  match rest with [] => x | b :: r => chain_out s (price_out s x a b) b r end.
Fixpoint chain_in (s : dex) (y a : N) (rest : list N) : N :=
  match rest with [] => y | b :: r => price_in s (chain_in s y b r) a b end.
(** The pairs a path goes through. *)
Fixpoint hops (a : N) (rest : list N) : list (N * N) :=
  match rest with [] => [] | b :: r => pair_of a b :: hops b r end.

Lemma get_liquidity_of s a b : a <> b -> get_liquidity s a b = (reserve_of s a b, reserve_of s b a).
Proof.
  intros Hne. unfold get_liquidity, reserve_of, pair_of.
  destruct (N.ltb_spec b a), (N.ltb_spec a b); try lia; cbn [fst];
    destruct (reserves s _) as [r0 r1]; cbn [fst snd];
    match goal with |- context [?x =? ?y] => destruct (N.eqb_spec x y) end; try congruence; lia.
Qed.
Lemma reserve_of_128 s a b : DexInv s -> a <> b -> reserve_of s a b <= U128MAX.
Proof.
  intros Hi Hne. destruct (liquidity_backed s a b _ _ Hi (get_liquidity_of s a b Hne) Hne) as [H _].
  pose proof (books_bal128 (lg s) a (pool_addr (pair_of a b)) (di_books s Hi)). lia.
Qed.
Lemma amount_out_price cur rin rout ao :
  rout <= U128MAX -> get_amount_out cur rin rout = Ok ao -> ao = cur * 997 * rout / (rin * 1000 + cur * 997).
Proof.
  intros Hr H. unfold get_amount_out, umul, udiv, uadd, usub in H. inv_ok.
  unfold FEE_DEN, FEE_NUM in *. change (1000 - 3) with 997 in *. subst ao.
  unfold sat128, sat. first [apply N.min_l | apply N.min_r].
  etransitivity; [|exact Hr]. apply N.div_le_upper_bound; [lia|]. nia.
Qed.
Lemma amount_in_price out rin rout ai :
  get_amount_in out rin rout = Ok ai ->
  ai = N.min (2 ^ 128 - 1) (rin * out * 1000 / ((rout - out) * 997) + 1).
Proof.
  intros H. unfold get_amount_in, umul, udiv, uadd, usub in H. inv_ok.
  unfold FEE_DEN, FEE_NUM in *. change (1000 - 3) with 997 in *. subst ai. unfold sat128, sat. apply N.min_comm.
Qed.
Lemma out_loop_price s : DexInv s -> forall rest cur x l,
  amounts_out_loop s cur x rest = Ok l ->
  List.last (cur :: l) 0 = chain_out s cur x rest /\ Forall (fun p => is_enabled s p = true) (hops x rest).
Proof.
  intros Hi. induction rest as [|y rest IH]; intros cur x l H; cbn [amounts_out_loop chain_out hops] in *.
  { injection H as <-. split; [reflexivity|constructor]. }
  unfold ensure in H. destruct (is_enabled s (pair_of x y)) eqn:Ee; cbn [rbind] in H; [|discriminate].
  destruct (get_liquidity s x y) as [rin rout] eqn:El.
  destruct (negb (rin =? 0) && negb (rout =? 0)) eqn:En; cbn [rbind] in H; [|discriminate].
  assert (Hp : 0 < rin) by (destruct (N.eqb_spec rin 0); [discriminate|lia]).
  pose proof (quote_distinct s x y rin rout Hi El Hp) as Hne.
  rewrite (get_liquidity_of s x y Hne) in El. injection El as <- <-.
  destruct (get_amount_out cur (reserve_of s x y) (reserve_of s y x)) as [ao|] eqn:Eo; cbn [rbind] in H; [|discriminate].
  destruct (negb (ao =? 0)); cbn [rbind] in H; [|discriminate].
  destruct (amounts_out_loop s ao y rest) as [l'|] eqn:E; cbn [rbind] in H; [|discriminate].
  injection H as <-. destruct (IH _ _ _ E) as [H1 H2].
  apply amount_out_price in Eo; [|apply reserve_of_128; auto].
  fold (price_out s cur x y) in Eo. subst ao. split; [exact H1|]. constructor; assumption.
Qed.
Lemma in_loop_price s : DexInv s -> forall rest out x l,
  amounts_in_loop s out x rest = Ok l ->
  hd 0 l = chain_in s out x rest /\ Forall (fun p => is_enabled s p = true) (hops x rest).
Proof.
  intros Hi. induction rest as [|y rest IH]; intros out x l H; cbn [amounts_in_loop chain_in hops] in *.
  { injection H as <-. split; [reflexivity|constructor]. }
  destruct (amounts_in_loop s out y rest) as [l'|] eqn:E; cbn [rbind] in H; [|discriminate].
  destruct (IH _ _ _ E) as [H1 H2]. destruct l' as [|o l']; [discriminate|]. cbn [hd] in H1.
  unfold ensure in H. destruct (is_enabled s (pair_of x y)) eqn:Ee; cbn [rbind] in H; [|discriminate].
  destruct (get_liquidity s x y) as [rin rout] eqn:El.
  destruct (negb (rin =? 0) && negb (rout =? 0)) eqn:En; cbn [rbind] in H; [|discriminate].
  assert (Hp : 0 < rin) by (destruct (N.eqb_spec rin 0); [discriminate|lia]).
  pose proof (quote_distinct s x y rin rout Hi El Hp) as Hne.
  rewrite (get_liquidity_of s x y Hne) in El. injection El as <- <-.
  destruct (get_amount_in o (reserve_of s x y) (reserve_of s y x)) as [ai|] eqn:Eo; cbn [rbind] in H; [|discriminate].
  destruct (negb (ai =? 0)); cbn [rbind] in H; [|discriminate].
  injection H as <-. apply amount_in_price in Eo. cbn [hd]. subst ai o. split; [reflexivity|]. constructor; assumption.
Qed.

Lemma supply_price s w ai mo path to d s' :
  DexInv s -> swap_with_exact_supply s (AUser w) ai mo path to d = Ok s' ->
  swap_effect s s' (AUser w) to (hd 0 path) (List.last path 0) ai (chain_out s ai (hd 0 path) (tl path)) /\
  Forall (fun p => is_enabled s p = true) (hops (hd 0 path) (tl path)).
Proof.
  intros Hi Hs. destruct (supply_loop _ _ _ _ _ _ _ _ Hs) as (x & y & rest & ar & l & -> & Ha & Hd & Hmo & Ht & Hl).
  cbn [hd tl]. unfold get_amounts_out in Ha. inv_ok. injection Ha as <-.
  match goal with E : amounts_out_loop _ _ _ _ = Ok _ |- _ =>
    destruct (out_loop_price s Hi _ _ _ _ E) as [<- Hf]; apply amounts_out_length in E; rename E into Hlen end.
  split; [|exact Hf]. eapply swap_effect_intro; try eassumption. congruence.
Qed.
Lemma target_price s w ao mi path to d s' :
  DexInv s -> swap_with_exact_target s (AUser w) ao mi path to d = Ok s' ->
  chain_in s ao (hd 0 path) (tl path) <= mi /\
  swap_effect s s' (AUser w) to (hd 0 path) (List.last path 0) (chain_in s ao (hd 0 path) (tl path)) ao /\
  Forall (fun p => is_enabled s p = true) (hops (hd 0 path) (tl path)).
Proof.
  intros Hi Hs. destruct (target_loop _ _ _ _ _ _ _ _ Hs) as (x & y & rest & a0 & ar & l & -> & Ha & Hd & Hmo & Ht & Hl).
  cbn [hd tl]. unfold get_amounts_in in Ha. inv_ok.
  destruct (in_loop_price s Hi _ _ _ _ Ha) as [Hc Hf]. cbn [hd] in Hc. rewrite <- Hc.
  apply amounts_in_length in Ha. destruct Ha as [Hlen Hlast].
  split; [exact Hmo|]. split; [|exact Hf].
  rewrite <- Hlast. eapply swap_effect_intro; try eassumption. cbn in *. congruence.
Qed.

(** ** The fee inside a leg *)
(** What the pool gained on one side: new reserve plus what was paid out minus old reserve. *)
Definition gain (old new out : N) : N := new + out - old.
Definition leg_pays_fee (s s' : dex) (x y ao : N) : Prop :=
  reserve_of s x y * reserve_of s y x * 1000000
  <= (reserve_of s' x y * 1000 - gain (reserve_of s x y) (reserve_of s' x y) 0 * 3)
   * (reserve_of s' y x * 1000 - gain (reserve_of s y x) (reserve_of s' y x) ao * 3).
Lemma adj_gain r b o : o <= r -> sat128 (r - o) = r - o ->
  (if sat128 (r - o) <? b then b - sat128 (r - o) else 0) = gain r b o.
Proof. intros H ->. unfold gain. destruct (N.ltb_spec (r - o) b); lia. Qed.
Lemma leg_fee s x y ao to s' : DexInv s -> swap_leg s x y ao to = Ok s' -> leg_pays_fee s s' x y ao.
Proof.
  intros Hi H. pose proof (di_books s Hi) as Hb.
  destruct (swap_leg_spec _ _ _ _ _ _ H Hb) as [l2 He].
  pose proof (le_neq _ _ _ _ _ _ _ He) as Hne. pose proof (le_res _ _ _ _ _ _ _ He (pair_of x y)) as Hr.
  destruct (decide (pair_of x y = pair_of x y)); [|congruence].
  pose proof (le_transfer _ _ _ _ _ _ _ He) as Ht.
  pose proof (reserve_of_128 s x y Hi Hne) as B1. pose proof (reserve_of_128 s y x Hi ltac:(congruence)) as B2.
  unfold leg_pays_fee, reserve_of in *. unfold swap_leg in H. inv_ok.
  unfold pair_of in *. destruct (N.ltb_spec y x) as [Hlt|Hge]; cbn [fst snd] in *.
  - destruct (N.ltb_spec x y); [lia|]. rewrite Hr. cbn [fst snd].
    destruct (reserves s (y, x)) as [r0 r1] eqn:Er. cbn [fst snd] in *.
    destruct (N.eqb_spec x y); [lia|]. rewrite N.ltb_irrefl in *. inv_ok. rewrite orb_false_r in *.
    match goal with E : (0 <? ao) = true |- _ => rewrite E in * end.
    inv_ok. subst. unfold usub, umul in *. inv_ok.
    match goal with E : transfer _ _ _ _ ao = Ok ?l |- _ => assert (l = l2) by congruence; subst l end.
    rewrite adj_gain in * by (unfold sat128, sat; lia). rewrite adj_gain in * by (unfold sat128, sat; lia).
    unfold FEE_DEN, FEE_NUM in *. lia.
  - destruct (N.ltb_spec x y); [|lia]. rewrite Hr. cbn [fst snd].
    destruct (reserves s (x, y)) as [r0 r1] eqn:Er. cbn [fst snd] in *.
    rewrite N.eqb_refl in *. rewrite N.ltb_irrefl in *. inv_ok. cbn [orb] in *.
    match goal with E : (0 <? ao) = true |- _ => rewrite E in * end.
    inv_ok. subst. unfold usub, umul in *. inv_ok.
    match goal with E : transfer _ _ _ _ ao = Ok ?l |- _ => assert (l = l2) by congruence; subst l end.
    rewrite adj_gain in * by (unfold sat128, sat; lia). rewrite adj_gain in * by (unfold sat128, sat; lia).
    unfold FEE_DEN, FEE_NUM in *. lia.
Qed.

(** ** Liquidity *)
(** What a deposit takes from the provider, in the order of the call: at most the amounts offered
    and at least the minima. *)
Definition within (minimum offered paid : N) : Prop := N.min minimum offered <= paid <= offered.
Lemma pair_order (a b : N) : a <> b ->
  (pair_of a b = (a, b) /\ (a =? fst (pair_of a b)) = true) \/
  (pair_of a b = (b, a) /\ (a =? fst (pair_of a b)) = false).
Proof.
  intros Hne. unfold pair_of. destruct (N.ltb_spec b a); [right|left]; cbn [fst]; split; auto.
  - apply N.eqb_neq. exact Hne.
  - apply N.eqb_refl.
Qed.
Lemma quote_val x ra rb y : quote x ra rb = Ok y -> y = x * rb / ra.
Proof. unfold quote, umul, udiv. intros H. inv_ok. congruence. Qed.
Lemma sat128_small x : x <= U128MAX -> sat128 x = x.
Proof. unfold sat128, sat. lia. Qed.
Definition side {T} (a b : N) (x y : T) : T := if a =? fst (pair_of a b) then x else y.
(** The choice of amounts, in pair order. *)
Lemma amounts_within ra rb da db ma mb aa bb :
  da <= U128MAX -> db <= U128MAX ->
  (if (ra =? 0) && (rb =? 0) then Ok (da, db)
   else do! b_opt <- quote da ra rb;
     if b_opt <=? db then (ensure! mb <=? b_opt else 25; Ok (da, b_opt))
     else do! a_opt <- quote db rb ra; ensure! a_opt <=? da else 10; ensure! ma <=? a_opt else 26; Ok (a_opt, db))
  = Ok (aa, bb) -> within ma da (sat128 aa) /\ within mb db (sat128 bb).
Proof.
  intros Ha Hb H. unfold within. destruct ((ra =? 0) && (rb =? 0)).
  - injection H as <- <-. rewrite !sat128_small by assumption. lia.
  - destruct (quote da ra rb) as [bo|]; cbn [rbind] in H; [|discriminate].
    destruct (N.leb_spec bo db).
    + unfold ensure in H. destruct (N.leb_spec mb bo); cbn [rbind] in H; [|discriminate].
      injection H as <- <-. rewrite !sat128_small by lia. lia.
    + destruct (quote db rb ra) as [ao|]; cbn [rbind] in H; [|discriminate]. unfold ensure in H.
      destruct (N.leb_spec ao da); cbn [rbind] in H; [|discriminate].
      destruct (N.leb_spec ma ao); cbn [rbind] in H; [|discriminate].
      injection H as <- <-. rewrite !sat128_small by lia. lia.
Qed.
Lemma add_raw s w a b da db ma mb to d s' am0 am1 lq :
  da <= U128MAX -> db <= U128MAX ->
  add_liquidity s w a b da db ma mb to d = Ok (s', (am0, am1, lq)) ->
  let p := pair_of a b in
  a <> b /\ deadline_ok s d = true /\
  exists i x0 x1 l1 l2 l3,
    within (side a b ma mb) (side a b da db) x0 /\ within (side a b mb ma) (side a b db da) x1 /\
    (lp s !! p = Some i /\ is_enabled s p = true \/ lp s !! p = None /\ i = next_asset s) /\
    lp s' !! p = Some i /\ 0 < lq /\
    transfer (lg s) (fst p) w (pool_addr p) x0 = Ok l1 /\ transfer l1 (snd p) w (pool_addr p) x1 = Ok l2 /\
    am0 + fst (reserves s p) = balance l2 (fst p) (pool_addr p) /\
    am1 + snd (reserves s p) = balance l2 (snd p) (pool_addr p) /\
    (issuance l2 i = 0 /\ mint l2 i ABurn MIN_LIQ = Ok l3 \/
     l3 = l2 /\ lq = sat128 (N.min (am0 * issuance l2 i / fst (reserves s p)) (am1 * issuance l2 i / snd (reserves s p)))) /\
    mint l3 i to lq = Ok (lg s').
Proof.
  intros Hda Hdb H p. unfold add_liquidity in H. fold p in H.
  unfold ensure in H at 1. destruct (N.eqb_spec a b) as [|Hne]; cbn [negb rbind] in H; [discriminate|].
  split; [exact Hne|]. unfold ensure in H at 1. destruct (_ && _); cbn [rbind] in H; [|discriminate].
  unfold ensure in H at 1. destruct (deadline_ok s d); cbn [rbind] in H; [|discriminate]. split; [reflexivity|].
  set (cr := match lp s !! p with Some i => (s, i) | None => create_lp_token s p end) in *.
  assert (Hcr : exists s1 i, cr = (s1, i) /\ lg s1 = lg s /\ pool s1 = pool s /\ lp s1 !! p = Some i /\
     ((lp s !! p = Some i /\ s1 = s) \/ (lp s !! p = None /\ i = next_asset s))).
  { subst cr. destruct (lp s !! p) as [i|] eqn:El.
    - exists s, i. repeat split; auto.
    - eexists _, _. split; [reflexivity|]. cbn. rewrite lookup_insert. repeat split; auto. }
  destruct Hcr as (s1 & i & Hcr & Hlg & Hpool & Hlp & Hor). rewrite Hcr in H. clearbody cr. clear cr Hcr.
  unfold ensure in H at 1. destruct (is_enabled s1 p) eqn:Een; cbn [rbind] in H; [|discriminate].
  assert (Esw : (if a =? fst p then (da, db, ma, mb) else (db, da, mb, ma))
     = (side a b da db, side a b db da, side a b ma mb, side a b mb ma))
    by (unfold side; fold p; destruct (a =? fst p); reflexivity).
  rewrite Esw in H. clear Esw.
  assert (Hs0 : side a b da db <= U128MAX /\ side a b db da <= U128MAX)
    by (unfold side; destruct (_ =? _); auto).
  assert (Hr : reserves s1 p = reserves s p) by (unfold reserves; rewrite Hpool; reflexivity).
  rewrite Hr, Hlg in H. destruct (reserves s p) as [ra rb] eqn:Er. cbn [fst snd].
  apply rbind_ok in H. destruct H as ([aa bb] & Hab & H).
  destruct (amounts_within _ _ _ _ _ _ _ _ (proj1 Hs0) (proj2 Hs0) Hab) as [W0 W1].
  apply rbind_ok in H. destruct H as (l1 & Ht1 & H). apply rbind_ok in H. destruct H as (l2 & Ht2 & H).
  apply rbind_ok in H. destruct H as (v0 & Hv0 & H). apply rbind_ok in H. destruct H as (v1 & Hv1 & H).
  apply rbind_ok in H. destruct H as ([lq' l3] & Hlq & H).
  unfold ensure in H at 1. destruct (N.eqb_spec lq' 0) as [|Hpos]; cbn [negb rbind] in H; [discriminate|].
  apply rbind_ok in H. destruct H as (l4 & Hm & H). injection H as Hs' -> -> ->.
  exists i, (sat128 aa), (sat128 bb), l1, l2, l3.
  unfold usub in Hv0, Hv1. inv_ok.
  split; [exact W0|]. split; [exact W1|]. split.
  { destruct Hor as [[Ho ->]|Ho]; [left; auto|right; exact Ho]. }
  assert (Hs2 : lp s' = lp s1 /\ lg s' = l4).
  { subst s'. cbn [feeto set_pool set_lg]. destruct (feeto s1); [|split; reflexivity].
    match goal with |- lp (update_lastk ?S ?P ?I) = _ /\ _ => destruct (update_lastk_frame S P I) as ((F & _) & G & _) end.
    rewrite F, G. split; reflexivity. }
  destruct Hs2 as [-> ->].
  split; [exact Hlp|]. split; [lia|]. split; [exact Ht1|]. split; [exact Ht2|].
  split; [lia|]. split; [lia|]. split; [|exact Hm].
  destruct (N.eqb_spec (issuance l2 i) 0) as [Hz|Hz].
  - left. unfold umul, usub in Hlq. inv_ok. injection Hlq as <- <-. auto.
  - right. unfold umul, udiv in Hlq. inv_ok. injection Hlq as <- <-. auto.
Qed.
Lemma side_cases (a b : N) : a <> b ->
  (fst (pair_of a b) = a /\ snd (pair_of a b) = b /\ forall T (x y : T), side a b x y = x) \/
  (fst (pair_of a b) = b /\ snd (pair_of a b) = a /\ forall T (x y : T), side a b x y = y).
Proof.
  intros Hne. destruct (pair_order a b Hne) as [[E1 E2]|[E1 E2]]; [left|right]; unfold side; rewrite E2, E1; auto.
Qed.
Lemma reserve_side s a b : a <> b ->
  (fst (pair_of a b) = a -> reserve_of s a b = fst (reserves s (pair_of a b)) /\ reserve_of s b a = snd (reserves s (pair_of a b))) /\
  (fst (pair_of a b) = b -> reserve_of s a b = snd (reserves s (pair_of a b)) /\ reserve_of s b a = fst (reserves s (pair_of a b))).
Proof.
  intros Hne. unfold reserve_of, pair_of. destruct (N.ltb_spec b a), (N.ltb_spec a b); try lia; cbn [fst snd]; split; intros; auto; congruence.
Qed.

(** Specification of a deposit, in the order of the call. *)
Record deposit_effect (s s' : dex) (w a b da db ma mb : N) (to : acct) (lq : N) (pa pb i : N) : Prop := {
  de_a : within ma da pa;
  de_b : within mb db pb;
  de_lp : lp s' !! pair_of a b = Some i;
  de_enabled : lp s !! pair_of a b <> None -> is_enabled s (pair_of a b) = true;
  de_pos : 0 < lq;
  de_bal : forall t y, not_pool y -> y <> ABurn ->
     balance (lg s') t y + (if decide ((a, AUser w) = (t, y)) then pa else 0)
                         + (if decide ((b, AUser w) = (t, y)) then pb else 0)
     = balance (lg s) t y + (if decide ((i, to) = (t, y)) then lq else 0);
  de_share : lp s !! pair_of a b <> None -> synced s (pair_of a b) ->
     lq = N.min (pa * issuance (lg s) i / reserve_of s a b) (pb * issuance (lg s) i / reserve_of s b a)
}.
Lemma add_report s w a b da db ma mb to d s' am0 am1 lq :
  DexInv s -> da <= U128MAX -> db <= U128MAX ->
  add_liquidity s (AUser w) a b da db ma mb to d = Ok (s', (am0, am1, lq)) ->
  a <> b /\ deadline_ok s d = true /\ exists pa pb i, deposit_effect s s' w a b da db ma mb to lq pa pb i /\
  side a b am0 am1 + reserve_of s a b = pa + balance (lg s) a (pool_addr (pair_of a b)) /\
  side a b am1 am0 + reserve_of s b a = pb + balance (lg s) b (pool_addr (pair_of a b)).
Proof.
  intros Hi Hda Hdb H.
  destruct (add_raw _ _ _ _ _ _ _ _ _ _ _ _ _ _ Hda Hdb H) as (Hne & Hd & i & x0 & x1 & l1 & l2 & l3 & W0 & W1 & Hlp & Hlp' & Hpos & T1 & T2 & A0 & A1 & Hlq & Hm).
  split; [exact Hne|]. split; [exact Hd|].
  set (p := pair_of a b) in *.
  assert (Hiss : issuance l2 i = issuance (lg s) i)
    by (rewrite (transfer_issuance _ _ _ _ _ _ i T2), (transfer_issuance _ _ _ _ _ _ i T1); reflexivity).
  assert (Hip : lp s !! p <> None -> 0 < issuance (lg s) i /\ i <> fst p /\ i <> snd p).
  { intros Hs. destruct Hlp as [[Hlp _]|[Hlp _]]; [|congruence].
    destruct (di_live s Hi p i Hlp) as (_ & _ & HB). destruct (di_some s Hi p i Hlp) as (_ & N1 & N2 & _).
    pose proof (balance_le_total (lg s) i ABurn). destruct (di_books s Hi i). unfold MIN_LIQ in HB. split; [lia|auto]. }
  assert (Hbal : forall t y, not_pool y -> y <> ABurn ->
     balance (lg s') t y + (if decide ((fst p, AUser w) = (t, y)) then x0 else 0)
                         + (if decide ((snd p, AUser w) = (t, y)) then x1 else 0)
     = balance (lg s) t y + (if decide ((i, to) = (t, y)) then lq else 0)).
  { intros t y Hy HB. apply mint_spec in Hm. destruct Hm as (_ & _ & Hm & _). specialize (Hm t y).
    assert (E3 : balance l3 t y = balance l2 t y).
    { destruct Hlq as [[_ Hlq]|[-> _]]; [|reflexivity]. apply mint_spec in Hlq. destruct Hlq as (_ & _ & Hq & _).
      rewrite Hq. destruct (decide ((i, ABurn) = (t, y))); [congruence|lia]. }
    apply transfer_spec in T1, T2. destruct T1 as (_ & _ & T1), T2 as (_ & _ & T2).
    specialize (T1 t y). specialize (T2 t y).
    destruct (decide ((fst p, pool_addr p) = (t, y))) as [E|_]; [injection E as _ E; exfalso; eapply Hy; symmetry; exact E|].
    destruct (decide ((snd p, pool_addr p) = (t, y))) as [E|_]; [injection E as _ E; exfalso; eapply Hy; symmetry; exact E|].
    lia. }
  assert (Hrep : am0 + fst (reserves s p) = x0 + balance (lg s) (fst p) (pool_addr p) /\
                 am1 + snd (reserves s p) = x1 + balance (lg s) (snd p) (pool_addr p)).
  { pose proof (pair_of_sorted a b Hne) as Hsrt. fold p in Hsrt.
    apply transfer_spec in T1, T2. destruct T1 as (U0 & _ & T1), T2 as (U1 & _ & T2).
    pose proof (T1 (fst p) (pool_addr p)) as B0. pose proof (T2 (fst p) (pool_addr p)) as B1.
    pose proof (T1 (snd p) (pool_addr p)) as B2. pose proof (T2 (snd p) (pool_addr p)) as B3.
    assert (Hnp : AUser w <> pool_addr p) by discriminate.
    assert (Hnf : fst p <> snd p) by lia.
    destruct (decide ((fst p, AUser w) = (fst p, pool_addr p))) as [E|_]; [congruence|].
    destruct (decide ((fst p, pool_addr p) = (fst p, pool_addr p))); [|congruence].
    destruct (decide ((snd p, AUser w) = (fst p, pool_addr p))) as [E|_]; [congruence|].
    destruct (decide ((snd p, pool_addr p) = (fst p, pool_addr p))) as [E|_]; [congruence|].
    destruct (decide ((fst p, AUser w) = (snd p, pool_addr p))) as [E|_]; [congruence|].
    destruct (decide ((fst p, pool_addr p) = (snd p, pool_addr p))) as [E|_]; [congruence|].
    destruct (decide ((snd p, AUser w) = (snd p, pool_addr p))) as [E|_]; [congruence|].
    destruct (decide ((snd p, pool_addr p) = (snd p, pool_addr p))); [|congruence].
    lia. }
  assert (Hshare : lp s !! p <> None -> synced s p ->
     lq = N.min (x0 * issuance (lg s) i / fst (reserves s p)) (x1 * issuance (lg s) i / snd (reserves s p))).
  { intros Hs (Y0 & Y1 & _). destruct (Hip Hs) as (Hp0 & Hn0 & Hn1).
    destruct Hlq as [[Hz _]|Hlq0]; [lia|]. rewrite Hiss in Hlq0.
    assert (am0 = x0) by lia. assert (am1 = x1) by lia. subst am0 am1.
    pose proof (mint_spec _ _ _ _ _ Hm) as (Hle & _).
    destruct Hlq0 as [-> Hlq0]. rewrite Hiss in Hle.
    remember (N.min _ _) as q in *.
    unfold sat128, sat in *. lia. }
  destruct (side_cases a b Hne) as [(F0 & F1 & Sd)|(F0 & F1 & Sd)]; fold p in F0, F1;
    rewrite !Sd in W0, W1; rewrite F0, F1 in Hbal; destruct (reserve_side s a b Hne) as [R0 R1]; fold p in R0, R1.
  - destruct (R0 F0) as [E0 E1]. exists x0, x1, i. rewrite !Sd, E0, E1. rewrite F0, F1 in Hrep. split; [|exact Hrep]. split; auto.
    + intros Hs. destruct Hlp as [[_ ?]|[Hn _]]; [assumption|exfalso; exact (Hs Hn)].
    + intros Hs Hsy. rewrite E0, E1. apply Hshare; assumption.
  - destruct (R1 F0) as [E0 E1]. exists x1, x0, i. rewrite !Sd, E0, E1. rewrite F0, F1 in Hrep. split; [|split; apply Hrep]. split; auto.
    + intros Hs. destruct Hlp as [[_ ?]|[Hn _]]; [assumption|exfalso; exact (Hs Hn)].
    + intros t y Hy HB. specialize (Hbal t y Hy HB). lia.
    + intros Hs Hsy. rewrite E0, E1, N.min_comm. apply Hshare; assumption.
Qed.
Lemma add_paid s w a b da db ma mb to d s' am lq :
  DexInv s -> da <= U128MAX -> db <= U128MAX ->
  add_liquidity s (AUser w) a b da db ma mb to d = Ok (s', (am, lq)) ->
  a <> b /\ deadline_ok s d = true /\ exists pa pb i, deposit_effect s s' w a b da db ma mb to lq pa pb i.
Proof.
  intros Hi Hda Hdb H. destruct am as [am0 am1].
  destruct (add_report _ _ _ _ _ _ _ _ _ _ _ _ _ _ Hi Hda Hdb H) as (H1 & H2 & pa & pb & i & H3 & _). eauto 7.
Qed.

(** What [lq] shares are worth in asset [t]: their part of what the pool holds. *)
Definition worth (s : dex) (p : N * N) (i lq t : N) : N :=
  lq * balance (lg s) t (APool (fst p) (snd p)) / issuance (lg s) i.
Record withdraw_effect (s s' : dex) (w a b lq ma mb : N) (to : acct) (i ga gb : N) : Prop := {
  we_a : ma <= ga /\ worth s (pair_of a b) i lq a <= ga;
  we_b : mb <= gb /\ worth s (pair_of a b) i lq b <= gb;
  we_bal : forall t y, not_pool y ->
     balance (lg s') t y + (if decide ((i, AUser w) = (t, y)) then lq else 0)
     = balance (lg s) t y + (if decide ((a, to) = (t, y)) then ga else 0) + (if decide ((b, to) = (t, y)) then gb else 0)
}.
Lemma div_zero x : x / 0 = 0.
Proof. destruct x; reflexivity. Qed.
Lemma worth_128 s p i lq t : DexInv s -> lq <= issuance (lg s) i -> worth s p i lq t <= U128MAX.
Proof.
  intros Hi Hle. unfold worth. pose proof (books_bal128 (lg s) t (APool (fst p) (snd p)) (di_books s Hi)) as B.
  destruct (N.eq_dec (issuance (lg s) i) 0) as [->|Hz]; [rewrite div_zero; lia|].
  etransitivity; [|exact B]. apply N.div_le_upper_bound; [exact Hz|]. nia.
Qed.
Lemma remove_raw s w a b lq ma mb to d s' r :
  remove_liquidity s w a b lq ma mb to d = Ok (s', r) ->
  let p := pair_of a b in
  a <> b /\ deadline_ok s d = true /\ side a b ma mb <= fst r /\ side a b mb ma <= snd r /\
  exists i l1 l2 l3, lp s !! p = Some i /\ transfer (lg s) i w (pool_addr p) lq = Ok l1 /\
    fst r = sat128 (balance l1 i (pool_addr p) * balance l1 (fst p) (pool_addr p) / issuance l1 i) /\
    snd r = sat128 (balance l1 i (pool_addr p) * balance l1 (snd p) (pool_addr p) / issuance l1 i) /\
    burn l1 i (pool_addr p) (balance l1 i (pool_addr p)) = Ok l2 /\
    transfer l2 (fst p) (pool_addr p) to (fst r) = Ok l3 /\
    transfer l3 (snd p) (pool_addr p) to (snd r) = Ok (lg s').
Proof.
  intros H p. unfold remove_liquidity in H. fold p in H.
  unfold ensure in H at 1. destruct (deadline_ok s d); cbn [rbind] in H; [|discriminate].
  apply rbind_ok in H. destruct H as (i & Hlp & H). destruct (lp s !! p) as [i'|] eqn:El; [|discriminate]. injection Hlp as ->.
  unfold ensure in H at 1. destruct (N.eqb_spec a b) as [|Hne]; cbn [negb rbind] in H; [discriminate|].
  apply rbind_ok in H. destruct H as (l1 & Ht & H).
  assert (Esw : (if a =? fst p then (ma, mb) else (mb, ma)) = (side a b ma mb, side a b mb ma))
    by (unfold side; fold p; destruct (a =? fst p); reflexivity).
  rewrite Esw in H. clear Esw. unfold umul, udiv in H. inv_ok.
  match goal with E : burn _ _ _ _ = Ok ?l |- _ => rename E into Hb; rename l into l2 end.
  match goal with E : transfer l2 _ _ _ _ = Ok ?l |- _ => rename E into Ht2; rename l into l3 end.
  match goal with E : transfer l3 _ _ _ _ = Ok ?l |- _ => rename E into Ht3; rename l into l4 end.
  injection H as Hs' <-. cbn [fst snd].
  assert (Hlg : lg s' = l4).
  { subst s'. cbn [feeto set_pool set_lg]. destruct (feeto s); [|reflexivity].
    match goal with |- lg (update_lastk ?S ?P ?I) = _ => destruct (update_lastk_frame S P I) as (_ & G & _) end.
    rewrite G. reflexivity. }
  split; [exact Hne|]. split; [reflexivity|]. split; [lia|]. split; [lia|].
  exists i, l1, l2, l3. rewrite Hlg. repeat split; assumption.
Qed.
Lemma remove_report s w a b lq ma mb to d s' r :
  DexInv s -> not_pool to -> remove_liquidity s (AUser w) a b lq ma mb to d = Ok (s', r) ->
  a <> b /\ deadline_ok s d = true /\
  exists i, lp s !! pair_of a b = Some i /\
    withdraw_effect s s' w a b lq ma mb to i (side a b (fst r) (snd r)) (side a b (snd r) (fst r)).
Proof.
  intros Hi Hto H. destruct (remove_raw _ _ _ _ _ _ _ _ _ _ _ H) as (Hne & Hd & M0 & M1 & i & l1 & l2 & l3 & Hlp & T1 & R0 & R1 & Hb & T2 & T3).
  split; [exact Hne|]. split; [exact Hd|]. destruct r as [g0 g1]. cbn [fst snd] in *.
  set (p := pair_of a b) in *.
  destruct (di_some s Hi p i Hlp) as (_ & N1 & N2 & Hsrt).
  pose proof (transfer_books _ _ _ _ _ _ T1 (di_books s Hi)) as Hbk1.
  pose proof (transfer_issuance _ _ _ _ _ _ i T1) as Hiss.
  pose proof (transfer_spec _ _ _ _ _ _ T1) as (U1 & _ & B1).
  pose proof (burn_spec _ _ _ _ _ Hb Hbk1) as (_ & _ & B2 & _).
  pose proof (transfer_spec _ _ _ _ _ _ T2) as (_ & _ & B3). pose proof (transfer_spec _ _ _ _ _ _ T3) as (_ & _ & B4).
  assert (Hnp : AUser w <> pool_addr p) by discriminate.
  assert (P0 : forall t, t <> i -> balance l1 t (pool_addr p) = balance (lg s) t (APool (fst p) (snd p))).
  { intros t Ht. change (APool (fst p) (snd p)) with (pool_addr p). pose proof (B1 t (pool_addr p)) as B.
    destruct (decide ((i, AUser w) = (t, pool_addr p))) as [E|_]; [congruence|].
    destruct (decide ((i, pool_addr p) = (t, pool_addr p))) as [E|_]; [congruence|]. lia. }
  assert (PL : lq <= balance l1 i (pool_addr p)).
  { pose proof (B1 i (pool_addr p)) as B. destruct (decide ((i, AUser w) = (i, pool_addr p))) as [E|_]; [congruence|].
    destruct (decide ((i, pool_addr p) = (i, pool_addr p))); [|congruence]. lia. }
  assert (Hlqi : lq <= issuance (lg s) i).
  { destruct (di_books s Hi i). pose proof (balance_le_total (lg s) i (AUser w)). lia. }
  assert (HW : forall t g, t <> i -> g = sat128 (balance l1 i (pool_addr p) * balance l1 t (pool_addr p) / issuance l1 i) -> worth s p i lq t <= g).
  { intros t g Ht ->. rewrite (P0 t Ht), Hiss. pose proof (worth_128 s p i lq t Hi Hlqi) as W.
    unfold sat128, sat. apply N.min_glb; [|exact W]. unfold worth.
    destruct (N.eq_dec (issuance (lg s) i) 0) as [->|Hz]; [rewrite !div_zero; lia|].
    apply N.div_le_mono; [exact Hz|]. apply N.mul_le_mono_r. exact PL. }
  pose proof (HW _ _ (not_eq_sym N1) R0) as W0. pose proof (HW _ _ (not_eq_sym N2) R1) as W1.
  assert (Hbal : forall t y, not_pool y ->
     balance (lg s') t y + (if decide ((i, AUser w) = (t, y)) then lq else 0)
     = balance (lg s) t y + (if decide ((fst p, to) = (t, y)) then g0 else 0) + (if decide ((snd p, to) = (t, y)) then g1 else 0)).
  { intros t y Hy. specialize (B1 t y). specialize (B2 t y). specialize (B3 t y). specialize (B4 t y).
    assert (Hyp : pool_addr p <> y) by (intros E; eapply Hy; symmetry; exact E).
    destruct (decide ((i, pool_addr p) = (t, y))) as [E|_]; [congruence|].
    destruct (decide ((fst p, pool_addr p) = (t, y))) as [E|_]; [congruence|].
    destruct (decide ((snd p, pool_addr p) = (t, y))) as [E|_]; [congruence|]. lia. }
  destruct (side_cases a b Hne) as [(F0 & F1 & Sd)|(F0 & F1 & Sd)]; fold p in F0, F1; rewrite Sd in M0, M1; rewrite F0, F1 in *.
  - exists i. rewrite !Sd. split; [exact Hlp|]. split; auto.
  - exists i. rewrite !Sd. split; [exact Hlp|]. split; auto. intros t y Hy. specialize (Hbal t y Hy). lia.
Qed.
Lemma remove_got s w a b lq ma mb to d s' r :
  DexInv s -> not_pool to -> remove_liquidity s (AUser w) a b lq ma mb to d = Ok (s', r) ->
  a <> b /\ deadline_ok s d = true /\
  exists i ga gb, lp s !! pair_of a b = Some i /\ withdraw_effect s s' w a b lq ma mb to i ga gb.
Proof.
  intros Hi Hto H. destruct (remove_report _ _ _ _ _ _ _ _ _ _ _ Hi Hto H) as (H1 & H2 & i & H3). eauto 7.
Qed.
(** A provider can always leave. *)
Lemma remove_ok s w a b lq ma mb to d i :
  DexInv s -> lp s !! pair_of a b = Some i -> a <> b -> deadline_ok s d = true ->
  lq <= balance (lg s) i (AUser w) ->
  0 < worth s (pair_of a b) i lq a -> 0 < worth s (pair_of a b) i lq b ->
  ma <= worth s (pair_of a b) i lq a -> mb <= worth s (pair_of a b) i lq b ->
  exists s' r, remove_liquidity s (AUser w) a b lq ma mb to d = Ok (s', r).
Proof.
  intros Hi Hlp Hne Hd Hlq Wa Wb Ma Mb. unfold remove_liquidity. rewrite Hd. cbn [ensure rbind].
  set (p := pair_of a b) in *. rewrite Hlp. cbn [of_opt rbind].
  destruct (N.eqb_spec a b) as [|_]; [congruence|]. cbn [negb ensure rbind].
  destruct (di_some s Hi p i Hlp) as (_ & N1 & N2 & Hsrt).
  destruct (transfer_ok (lg s) i (AUser w) (pool_addr p) lq (di_books s Hi) Hlq) as [l1 T1]. rewrite T1. cbn [rbind].
  assert (Esw : (if a =? fst p then (ma, mb) else (mb, ma)) = (side a b ma mb, side a b mb ma))
    by (unfold side; fold p; destruct (a =? fst p); reflexivity).
  rewrite Esw. clear Esw.
  pose proof (transfer_books _ _ _ _ _ _ T1 (di_books s Hi)) as Hbk1.
  pose proof (transfer_issuance _ _ _ _ _ _ i T1) as Hiss.
  pose proof (transfer_spec _ _ _ _ _ _ T1) as (U1 & _ & B1).
  assert (Hnp : AUser w <> pool_addr p) by discriminate.
  assert (P0 : forall t, t <> i -> balance l1 t (pool_addr p) = balance (lg s) t (APool (fst p) (snd p))).
  { intros t Ht. change (APool (fst p) (snd p)) with (pool_addr p). pose proof (B1 t (pool_addr p)) as B.
    destruct (decide ((i, AUser w) = (t, pool_addr p))) as [E|_]; [congruence|].
    destruct (decide ((i, pool_addr p) = (t, pool_addr p))) as [E|_]; [congruence|]. lia. }
  assert (PL : lq <= balance l1 i (pool_addr p)).
  { pose proof (B1 i (pool_addr p)) as B. destruct (decide ((i, AUser w) = (i, pool_addr p))) as [E|_]; [congruence|].
    destruct (decide ((i, pool_addr p) = (i, pool_addr p))); [|congruence]. lia. }
  assert (Hlqi : lq <= issuance (lg s) i).
  { destruct (di_books s Hi i). pose proof (balance_le_total (lg s) i (AUser w)). lia. }
  assert (Hz : issuance (lg s) i <> 0).
  { intros E. unfold worth in Wa. rewrite E, div_zero in Wa. lia. }
  set (L := balance l1 i (pool_addr p)) in *.
  assert (HL : L <= issuance l1 i).
  { destruct (Hbk1 i) as [<- _]. apply balance_le_total. }
  assert (HW : forall t, t <> i -> let g := sat128 (L * balance l1 t (pool_addr p) / issuance l1 i) in
     worth s p i lq t <= g <= balance l1 t (pool_addr p)).
  { intros t Ht g. subst g. pose proof (worth_128 s p i lq t Hi Hlqi) as W.
    pose proof (books_bal128 l1 t (pool_addr p) Hbk1) as B128.
    rewrite Hiss in *. split.
    - unfold sat128, sat. apply N.min_glb; [|exact W]. unfold worth. rewrite (P0 t Ht).
      apply N.div_le_mono; [exact Hz|]. apply N.mul_le_mono_r. exact PL.
    - etransitivity; [apply sat128_le|]. apply N.div_le_upper_bound; [exact Hz|]. nia. }
  assert (Hmul : forall t, umul L (balance l1 t (pool_addr p)) = Ok (L * balance l1 t (pool_addr p))).
  { intros t. unfold umul, chk_mul. pose proof (books_bal128 l1 t (pool_addr p) Hbk1).
    assert (L <= U128MAX) by apply (books_bal128 l1 i (pool_addr p) Hbk1).
    pose proof (mul128 L (balance l1 t (pool_addr p)) ltac:(assumption) ltac:(assumption)).
    destruct (N.leb_spec (L * balance l1 t (pool_addr p)) U256MAX); [reflexivity|lia]. }
  assert (Hdiv : forall x, udiv x (issuance l1 i) = Ok (x / issuance l1 i)).
  { intros x. unfold udiv, chk_div. rewrite Hiss. destruct (N.eqb_spec (issuance (lg s) i) 0); [congruence|reflexivity]. }
  rewrite !Hmul. cbn [rbind]. rewrite !Hdiv. cbn [rbind]. rewrite ?Hmul. cbn [rbind]. rewrite ?Hdiv. cbn [rbind].
  destruct (HW (fst p) (not_eq_sym N1)) as [G0 G0']. destruct (HW (snd p) (not_eq_sym N2)) as [G1 G1'].
  set (g0 := sat128 (L * balance l1 (fst p) (pool_addr p) / issuance l1 i)) in *.
  set (g1 := sat128 (L * balance l1 (snd p) (pool_addr p) / issuance l1 i)) in *.
  assert (Hside : 0 < g0 /\ 0 < g1 /\ side a b ma mb <= g0 /\ side a b mb ma <= g1).
  { destruct (side_cases a b Hne) as [(F0 & F1 & Sd)|(F0 & F1 & Sd)]; fold p in F0, F1; rewrite !Sd; rewrite F0, F1 in *; lia. }
  destruct Hside as (Z0 & Z1 & Z2 & Z3).
  destruct (N.ltb_spec 0 g0); [|lia]. destruct (N.ltb_spec 0 g1); [|lia]. cbn [andb ensure rbind].
  destruct (N.leb_spec (side a b ma mb) g0); [|lia]. destruct (N.leb_spec (side a b mb ma) g1); [|lia]. cbn [ensure rbind].
  assert (Hburn : exists l2, burn l1 i (pool_addr p) L = Ok l2).
  { unfold burn. fold L. rewrite N.ltb_irrefl. eauto. }
  destruct Hburn as [l2 Hb]. rewrite Hb. cbn [rbind].
  pose proof (burn_books _ _ _ _ _ Hb Hbk1) as Hbk2.
  pose proof (burn_spec _ _ _ _ _ Hb Hbk1) as (_ & _ & B2 & _).
  assert (E2 : forall t, t <> i -> balance l2 t (pool_addr p) = balance l1 t (pool_addr p)).
  { intros t Ht. specialize (B2 t (pool_addr p)). destruct (decide ((i, pool_addr p) = (t, pool_addr p))) as [E|_]; [congruence|]. lia. }
  destruct (transfer_ok l2 (fst p) (pool_addr p) to g0 Hbk2) as [l3 T2]; [rewrite E2 by congruence; exact G0'|].
  rewrite T2. cbn [rbind]. pose proof (transfer_books _ _ _ _ _ _ T2 Hbk2) as Hbk3.
  pose proof (transfer_spec _ _ _ _ _ _ T2) as (_ & _ & B3).
  destruct (transfer_ok l3 (snd p) (pool_addr p) to g1 Hbk3) as [l4 T3].
  { specialize (B3 (snd p) (pool_addr p)).
    destruct (decide ((fst p, pool_addr p) = (snd p, pool_addr p))) as [E|_]; [injection E; intros; lia|].
    destruct (decide ((fst p, to) = (snd p, pool_addr p))) as [E|_]; [injection E; intros; lia|].
    rewrite <- (E2 (snd p)) in G1' by congruence. lia. }
  rewrite T3. cbn [rbind]. eauto.
Qed.
