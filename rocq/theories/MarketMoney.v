(** Lemmas about the marketplace's money: payouts and held bids and offers. *)
From Verif Require Export MarketModel HoldsProofs.
From Verif Require Import LedgerProofs.

(** ** Payouts *)
Lemma wrap128_lt x : wrap128 x < 2 ^ 128.
Proof. apply N.mod_lt. discriminate. Qed.
Lemma sub128_spec x y : x < 2 ^ 128 -> sub128 x y < 2 ^ 128 /\ wrap128 (sub128 x y + y) = x.
Proof.
  intros Hx. unfold sub128, wrap128. split; [apply N.mod_lt; discriminate|].
  assert (Hy : y mod 2 ^ 128 < 2 ^ 128) by (apply N.mod_lt; discriminate).
  rewrite N.add_mod_idemp_l by discriminate.
  replace (x + 2 ^ 128 - y mod 2 ^ 128 + y) with (x + (y / 2 ^ 128 + 1) * 2 ^ 128).
  - rewrite N.mod_add by discriminate. apply N.mod_small. exact Hx.
  - pose proof (N.div_mod' y (2 ^ 128)). lia.
Qed.
Lemma fold_sub rs : forall x, x < 2 ^ 128 ->
  let r := fold_left (fun acc (e : N * N) => sub128 acc (snd e)) rs x in
  r < 2 ^ 128 /\ wrap128 (r + amounts rs) = x.
Proof.
  unfold amounts. induction rs as [|[p v] rs IH]; intros x Hx; cbn [fold_left map snd].
  - split; [exact Hx|]. unfold sumL. cbn. rewrite N.add_0_r. apply N.mod_small. exact Hx.
  - destruct (sub128_spec x v Hx) as [H1 H2]. destruct (IH _ H1) as [H3 H4]. split; [exact H3|].
    unfold sumL in *. cbn [fold_right]. rewrite <- H2 at 2. rewrite <- H4 at 2. unfold wrap128.
    rewrite N.add_mod_idemp_l by discriminate. f_equal. lia.
Qed.
(** Seen modulo 2^128 the payouts always add up to the price. *)
Lemma payouts_wrap seller r x : x <= U128MAX -> wrap128 (amounts (payouts seller r x)) = x.
Proof.
  intros Hx. unfold payouts. set (rs := royalties r x).
  destruct (fold_sub rs x ltac:(unfold U128MAX in Hx; lia)) as [_ H]. rewrite <- H at 2. f_equal. cbv zeta. unfold amounts.
  rewrite map_app. unfold sumL. rewrite fold_right_app. cbn [map fold_right snd].
  set (f := fold_left _ rs x). rewrite N.add_0_r. clearbody f. clear.
  induction (map snd rs) as [|v vs IH]; cbn [fold_right]; lia.
Qed.
Lemma payouts_payees seller r x v : seller <> v -> Forall (fun e => fst e <> v) r -> Forall (fun e => fst e <> v) (payouts seller r x).
Proof.
  intros Hs Hr. unfold payouts, royalties. apply Forall_app. split; [|constructor; [exact Hs|constructor]].
  destruct (_ && _); [|constructor]. apply Forall_fmap. eapply Forall_impl; [exact Hr|]. intros e He. exact He.
Qed.

Section money.
  Variable vault : N.
  Variable mh : nat.
  Variable pid : N.
  Notation H := (fun a y b => hold_balance a pid y b).

  (** A split transfer to others that succeeds was covered by the balance. *)
  Lemma split_covered (l l' : ledger N) who a ts : split_transfer l who a ts = Ok l' -> Forall (fun e => fst e <> who) ts -> amounts ts <= balance l a who.
  Proof.
    intros E Hf. apply split_spec in E. destruct E as (_ & _ & B). specialize (B a who).
    rewrite decide_True in B by reflexivity. rewrite N.eqb_refl, paid_to_notin in B by exact Hf. lia.
  Qed.

  Lemma place_money (a a' : assets N) who b v : HI a -> backed vault a -> who <> vault ->
    place_hold vault mh a pid who b v = Ok a' ->
    HI a' /\ backed vault a' /\ forall y c, H a' y c = H a y c + (if (y =? who) && (c =? b) then v else 0).
  Proof.
    intros Hi Hb Hw E. split; [apply (place_spec _ _ _ _ _ _ _ _ Hi E)|]. split.
    - pose proof (hstep_backed vault mh a (HPlace pid who b v) (conj I Hw) Hi Hb) as Hs. unfold hstep in Hs. cbn [hexec] in Hs.
      rewrite E in Hs. exact Hs.
    - destruct (place_spec _ _ _ _ _ _ _ _ Hi E) as (_ & _ & Hc & _). intros y c. rewrite Hc.
      destruct (decide _) as [[= <- <-]|Hne]; [rewrite !N.eqb_refl; reflexivity|].
      destruct (N.eqb_spec y who), (N.eqb_spec c b); cbn [andb]; try lia. congruence.
  Qed.
  Lemma release_money (a a' : assets N) who b v : HI a -> backed vault a -> who <> vault ->
    release_hold vault a pid who b v = Ok a' ->
    HI a' /\ backed vault a' /\ forall y c, H a' y c + (if (y =? who) && (c =? b) then v else 0) = H a y c.
  Proof.
    intros Hi Hb Hw E. split; [apply (release_spec _ _ _ _ _ _ _ Hi E)|]. split.
    - pose proof (hstep_backed vault mh a (HRelease pid who b v) (conj I Hw) Hi Hb) as Hs. unfold hstep in Hs. cbn [hexec] in Hs.
      rewrite E in Hs. exact Hs.
    - destruct (release_spec _ _ _ _ _ _ _ Hi E) as (_ & _ & Hle & Hc & _). intros y c. rewrite Hc.
      destruct (decide _) as [[= <- <-]|Hne]; [rewrite !N.eqb_refl; cbn [andb]; lia|].
      destruct (N.eqb_spec y who), (N.eqb_spec c b); cbn [andb]; try lia. congruence.
  Qed.
  Lemma spend_money (a a' : assets N) who b seller r x : HI a -> backed vault a -> who <> vault -> seller <> vault ->
    Forall (fun e => fst e <> vault) r -> x <= U128MAX ->
    spend_hold vault a pid who b (payouts seller r x) = Ok a' ->
    HI a' /\ backed vault a' /\ amounts (payouts seller r x) = x /\
    split_transfer (al a) vault b (payouts seller r x) = Ok (al a') /\
    forall y c, H a' y c + (if (y =? who) && (c =? b) then x else 0) = H a y c.
  Proof.
    intros Hi Hb Hw Hs Hr Hx E.
    pose proof (payouts_wrap seller r x Hx) as Hwrap. set (sp := payouts seller r x) in *.
    assert (Hsane : amounts sp <= U128MAX).
    { unfold spend_hold in E. destruct (hold_find _ _); [|discriminate]. inv_ok.
      match goal with H : split_transfer _ _ _ _ = Ok _ |- _ => apply split_covered in H; [|apply payouts_payees; assumption]; rename H into Hc end.
      pose proof (balance_le_total (al a) b vault). destruct Hi as [Hbooks _]. destruct (Hbooks b). lia. }
    assert (Ha : amounts sp = x) by (rewrite <- Hwrap; symmetry; apply wrap_small; exact Hsane).
    destruct (spend_spec _ _ _ _ _ _ _ Hi Hsane E) as (Hi' & Hsp & Hle & Hc & _).
    split; [exact Hi'|]. split; [|split; [exact Ha|split; [exact Hsp|]]].
    - pose proof (hstep_backed vault mh a (HSpend pid who b sp) (conj Hsane Hw) Hi Hb) as Hst. unfold hstep in Hst. cbn [hexec] in Hst.
      rewrite E in Hst. exact Hst.
    - intros y c. rewrite Hc. destruct (decide _) as [[= <- <-]|Hne]; [rewrite !N.eqb_refl; cbn [andb]; rewrite <- Ha; lia|].
      destruct (N.eqb_spec y who), (N.eqb_spec c b); cbn [andb]; try lia. congruence.
  Qed.
  (** Anything another pallet or an account does. *)
  Definition foreign_hop (o : hop N) : Prop :=
    fair vault o /\ match o with HPlace p _ _ _ | HRelease p _ _ _ | HSpend p _ _ _ => p <> pid | _ => True end.
  Lemma hop_money (a a' : assets N) o : HI a -> backed vault a -> foreign_hop o -> hexec vault mh a o = Ok a' ->
    HI a' /\ backed vault a' /\ forall y c, H a' y c = H a y c.
  Proof.
    intros Hi Hb [Hf Hp] E. assert (Es : hstep vault mh a o = a') by (unfold hstep; rewrite E; reflexivity).
    split; [rewrite <- Es; apply hstep_HI; [apply Hf|exact Hi]|]. split; [rewrite <- Es; apply hstep_backed; assumption|].
    intros y c. pose proof (hold_step_account vault mh a o pid y c Hi (proj1 Hf)) as Ha. rewrite Es in Ha.
    assert (Ht : taken1 vault mh pid y c a o = 0 /\ placed1 vault mh pid y c a o = 0); [|lia].
    unfold taken1, placed1. destruct (is_ok _); [|auto]. destruct o; auto; rewrite decide_False by congruence; auto.
  Qed.
End money.
