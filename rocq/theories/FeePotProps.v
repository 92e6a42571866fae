(** Properties of the fee pot between eras (C197). *)
From Verif Require Import FeePotModel.

(** ** Spec *)
Definition fees (l : list pop) : N := fold_right (fun o n => match o with Settled a => a + n | _ => n end) 0 l.
Definition sumN (l : list N) : N := fold_right N.add 0 l.

Lemma fees_app a b : fees (a ++ b) = fees a + fees b.
Proof. induction a as [|o a IH]; [reflexivity|]. cbn [app fees fold_right]. fold (fees (a ++ b)) (fees a). destruct o; lia. Qed.
Lemma run_app {S O} (f : S -> O -> S) a b s : run f (a ++ b) s = run f b (run f a s).
Proof. revert s. induction a as [|o a IH]; intros s; [reflexivity|]. cbn. apply IH. Qed.

Lemma pstep_sum s o : era_fees s + sumN (owed s) + fees [o] < 2 ^ 128 ->
  era_fees (pstep s o) + sumN (owed (pstep s o)) = era_fees s + sumN (owed s) + fees [o].
Proof.
  intros H. destruct o as [a| |root era r|a|a]; cbn [fees fold_right pstep] in *; try (cbn [era_fees owed]; lia).
  - unfold settled. destruct (N.eqb_spec a 0); [lia|]. cbn [era_fees owed]. rewrite N.mod_small by lia. lia.
  - unfold era_ends, era_payout. cbn [era_fees owed sumN fold_right]. fold (sumN (owed s)). lia.
  - unfold commit, payout. destruct root; [|cbn [ensure rbind]; lia]. cbn [ensure rbind].
    destruct (nth_error _ _) as [x|]; [|cbn [of_opt rbind]; lia]. cbn [of_opt rbind]. destruct (r <=? x); [|cbn [ensure rbind]; lia]. cbn [ensure rbind].
    unfold rewarded. destruct (r =? 0); [lia|]. destruct (r <=? proot s); cbn [era_fees owed]; lia.
Qed.
(** Nothing is lost between eras: all fees settled are in the payouts of past eras or in the present one. *)
Theorem C197_all : forall p i h, fees h < 2 ^ 128 -> let s := run pstep h (pots0 p i) in
  era_fees s + sumN (owed s) = fees h /\ pxrp s = fees h.
Proof.
  intros p i h. induction h as [|o h IH] using rev_ind; intros Hb; [cbn; auto|]. rewrite fees_app in Hb.
  destruct IH as [I1 I2]; [lia|]. cbv zeta. rewrite run_app, fees_app. set (s := run pstep h (pots0 p i)) in *.
  change (run pstep [o] s) with (pstep s o). split; [rewrite pstep_sum; lia|].
  rewrite <- I2. destruct o as [a| |root era r|a|a]; cbn [fees fold_right pstep]; try (cbn [pxrp]; lia).
  - unfold settled. destruct (N.eqb_spec a 0); [lia|]. cbn [pxrp]. lia.
  - unfold era_ends, era_payout. cbn [pxrp]. lia.
  - unfold commit, payout. destruct root; [|cbn [ensure rbind]; lia]. cbn [ensure rbind].
    destruct (nth_error _ _) as [x|]; [|cbn [of_opt rbind]; lia]. cbn [of_opt rbind]. destruct (r <=? x); [|cbn [ensure rbind]; lia]. cbn [ensure rbind].
    unfold rewarded. destruct (r =? 0); [lia|]. destruct (r <=? proot s); cbn [pxrp]; lia.
Qed.
Lemma within s l : ~ In EraEnds l -> era_fees s + fees l < 2 ^ 128 ->
  era_fees (run pstep l s) = era_fees s + fees l /\ owed (run pstep l s) = owed s.
Proof.
  revert s. induction l as [|o l IH]; intros s Hn Hb; [cbn; split; [lia|reflexivity]|].
  change (o :: l) with ([o] ++ l) in *. rewrite run_app, fees_app in *. change (run pstep [o] s) with (pstep s o).
  assert (E : era_fees (pstep s o) = era_fees s + fees [o] /\ owed (pstep s o) = owed s).
  { destruct o as [a| |root era r|a|a]; cbn [fees fold_right pstep] in *; try (cbn [era_fees owed]; split; [lia|reflexivity]).
    - unfold settled. destruct (N.eqb_spec a 0); [split; [lia|reflexivity]|]. cbn [era_fees owed]. rewrite N.mod_small by lia. split; [lia|reflexivity].
    - exfalso. apply Hn. left. reflexivity.
    - unfold commit, payout. destruct root; [|cbn [ensure rbind]; split; [lia|reflexivity]]. cbn [ensure rbind].
      destruct (nth_error _ _) as [x|]; [|cbn [of_opt rbind]; split; [lia|reflexivity]]. cbn [of_opt rbind].
      destruct (r <=? x); [|cbn [ensure rbind]; split; [lia|reflexivity]]. cbn [ensure rbind].
      unfold rewarded. destruct (r =? 0); [split; [lia|reflexivity]|]. destruct (r <=? proot s); cbn [era_fees owed]; split; [lia|reflexivity| |]; try lia; reflexivity. }
  destruct E as [E1 E2]. destruct (IH (pstep s o)) as [I1 I2].
  - intros Hin. apply Hn. right. exact Hin.
  - lia.
  - rewrite I1, I2, E1, E2. split; [lia|reflexivity].
Qed.
(** The payout of an era is the sum of the fees settled in it, none of any other. *)
Theorem C197_era : forall p i before era, ~ In EraEnds era -> fees era < 2 ^ 128 ->
  exists x rest, owed (run pstep (before ++ EraEnds :: era ++ [EraEnds]) (pots0 p i)) = x :: rest /\ x = fees era /\
    rest = owed (run pstep (before ++ [EraEnds]) (pots0 p i)).
Proof.
  intros p i before era Hn Hb. change (before ++ EraEnds :: era ++ [EraEnds]) with (before ++ [EraEnds] ++ era ++ [EraEnds]).
  rewrite app_assoc, run_app. set (s := run pstep (before ++ [EraEnds]) (pots0 p i)).
  assert (H0 : era_fees s = 0) by (unfold s; rewrite run_app; reflexivity).
  rewrite run_app. destruct (within s era Hn) as [E1 E2]; [lia|]. eexists _, _. split; [reflexivity|]. rewrite E1, E2. split; [lia|reflexivity].
Qed.
(** Nobody but root can pay stakers, so the issuance of ROOT moves with the remainders of staking only. *)
Theorem C197_filtered : forall s era r, pstep s (Payout false era r) = s.
Proof. reflexivity. Qed.
(** A reward covered by ROOT of the pot leaves the issuance as it was, and comes from the pot. *)
Theorem C197_covered : forall s root era r, issue s >= proot s -> r <= proot s -> let s' := pstep s (Payout root era r) in
  issue s' = issue s /\ proot s' + paid s' = proot s + paid s.
Proof.
  intros s root era r Hi Hr. cbn [pstep]. unfold commit, payout. destruct root; [|cbn [ensure rbind]; auto]. cbn [ensure rbind].
  destruct (nth_error _ _) as [x|]; [|cbn [of_opt rbind]; auto]. cbn [of_opt rbind]. destruct (r <=? x); [|cbn [ensure rbind]; auto]. cbn [ensure rbind].
  unfold rewarded. destruct (r =? 0); [auto|]. destruct (N.leb_spec r (proot s)); [|lia]. cbn [issue proot paid]. lia.
Qed.
(** ROOT of the pot and that paid out, together, are what the pot had, what was newly issued and what was given to it: nothing of a
    remainder or of a gift is lost. *)
Definition gifts (l : list pop) : N := fold_right (fun o n => match o with Given a => a + n | _ => n end) 0 l.
Lemma gifts_app a b : gifts (a ++ b) = gifts a + gifts b.
Proof. induction a as [|o a IH]; [reflexivity|]. cbn [app gifts fold_right]. fold (gifts (a ++ b)) (gifts a). destruct o; lia. Qed.
Theorem C197_kept : forall p i h, p + gifts h <= i -> let s := run pstep h (pots0 p i) in
  proot s + paid s + i = p + issue s + gifts h.
Proof.
  intros p i h. induction h as [|o h IH] using rev_ind; intros Hb; [cbn; lia|]. rewrite gifts_app in Hb.
  cbv zeta in *. rewrite run_app, gifts_app. set (s := run pstep h (pots0 p i)) in *. specialize (IH ltac:(lia)).
  change (run pstep [o] s) with (pstep s o). destruct o as [a| |root era r|a|a]; cbn [gifts fold_right pstep] in *; try (cbn [proot paid issue]; lia).
  - unfold settled. destruct (a =? 0); cbn [proot paid issue]; lia.
  - unfold era_ends, era_payout. cbn [proot paid issue]. lia.
  - unfold commit, payout. destruct root; [|cbn [ensure rbind]; lia]. cbn [ensure rbind].
    destruct (nth_error _ _) as [x|]; [|cbn [of_opt rbind]; lia]. cbn [of_opt rbind]. destruct (r <=? x); [|cbn [ensure rbind]; lia]. cbn [ensure rbind].
    unfold rewarded. destruct (r =? 0); [lia|]. destruct (N.leb_spec r (proot s)); cbn [proot paid issue]; lia.
Qed.
(** What goes wrong: fees come in as XRP, rewards go out as ROOT.  The pot holds none of it unless somebody sends some, so any
    reward is new ROOT, one unit for every drop of XRP in fees, although the fees stay in the pot. *)
Theorem C197_minted_refuted : forall f i, 0 < f -> f < 2 ^ 128 -> let s := run pstep [Settled f; EraEnds; Payout true 0 f] (pots0 0 i) in
  issue s = i + f /\ pxrp s = f /\ paid s = f.
Proof.
  intros f i H0 H1. cbv zeta. cbn [run fold_left pstep]. unfold settled, pots0. destruct (N.eqb_spec f 0); [lia|].
  cbn [pxrp era_fees proot issue owed paid]. rewrite N.add_0_l, N.mod_small by exact H1. unfold era_ends, era_payout. cbn [pxrp era_fees proot issue owed paid].
  unfold commit, payout. cbn [ensure rbind owed rev app]. change (N.to_nat 0) with 0%nat. cbn [nth_error of_opt rbind].
  destruct (N.leb_spec f f); [|lia]. cbn [ensure rbind]. unfold rewarded. destruct (N.eqb_spec f 0); [lia|]. cbn [proot].
  destruct (N.leb_spec f 0); [lia|]. cbn [issue pxrp paid]. lia.
Qed.

Example C197_kept_example : 0 + gifts [Remainder 9; Given 20; Settled 4; EraEnds; Payout true 0 3] <= 1000 /\
  proot (run pstep [Remainder 9; Given 20; Settled 4; EraEnds; Payout true 0 3] (pots0 0 1000)) = 26.
Proof. split; vm_compute; [discriminate|reflexivity]. Qed.
Example C197_example : let s := run pstep [Settled 5; EraEnds; Settled 7; Settled 8; Payout false 0 5; EraEnds; Given 20; Payout true 1 15] (pots0 0 1000) in
  owed s = [15; 5] /\ pxrp s = 20 /\ proot s = 5 /\ issue s = 1000 /\ paid s = 15.
Proof. vm_compute. auto. Qed.
Definition FeePot_assumptions := (C197_all, C197_era, C197_filtered, C197_covered, C197_kept, C197_minted_refuted, C197_example).
Print Assumptions FeePot_assumptions.
