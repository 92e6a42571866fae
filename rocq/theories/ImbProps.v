(** C176-C178: the issuance follows the balances; the currency does what it says; fees are moved whole. *)
From Verif Require Export ImbProofs.

(** ** C176: the issuance is the sum of the balances *)
(** Whatever code does with the currency and its imbalances: the balances plus what was taken out of accounts and is
    still held equal the issuance plus what was put into accounts and is not yet accounted for. *)
Theorem C176_balanced ops s : small s -> balanced s -> along istep op_fits ops s -> balanced (run istep ops s).
Proof.
  intros S B H. assert (G : good (run istep ops s)); [|apply G]. revert s S B H. induction ops as [|o ops IH]; intros s S B H; [split; assumption|].
  destruct H as [F H]. destruct (istep_good s o (conj S B) F) as [S1 B1]. exact (IH _ S1 B1 H).
Qed.
(** Once all imbalances are gone, the two are equal. *)
Theorem C176_settled ops s : small s -> (forall u a, u <> NATIVE -> i_assets s !! u = Some a -> bals a = a_supply a) -> i_pool s = [] ->
  along istep op_fits ops s -> i_pool (run istep ops s) = [] ->
  forall u a, u <> NATIVE -> i_assets (run istep ops s) !! u = Some a -> bals a = a_supply a.
Proof.
  intros S B P H P' u a Nu Ha. assert (B0 : balanced s). { intros u' a' Nu' Ha'. rewrite P. cbn. rewrite (B u' a' Nu' Ha'). reflexivity. }
  pose proof (C176_balanced ops s S B0 H u a Nu Ha) as E. rewrite P' in E. cbn in E. lia.
Qed.
(** The side conditions hold by themselves as long as nothing put into accounts is pending: what was taken out can be dropped. *)
Theorem C176_drop_fits s i m p : balanced s -> taken (i_pool s) i = Some (m, p) -> m_sign m = Neg -> outstanding Pos (m_asset m) (i_pool s) = 0 -> op_fits s (IDrop i).
Proof.
  intros B T Sg O m' p' T' a Nn Ha. rewrite T in T'. injection T' as <- <-. rewrite Sg. pose proof (B _ a Nn Ha) as E. rewrite O in E.
  pose proof (out_counts Neg (m_asset m) _ _ _ _ T) as L. unfold counts in L. rewrite N.eqb_refl, Sg in L. pose proof (sumf_le (fun _ _ => 0) (fun _ v => v) (a_bal a)).
  assert (m_amt m <= bals a + outstanding Neg (m_asset m) (i_pool s)) by lia. lia.
Qed.
(** The issuance of ROOT is never touched by a currency of another asset. *)
Definition not_native (o : iop) : Prop :=
  match o with IMint u _ _ | IBurn u _ _ | IMove u _ _ _ _ | IWithdraw u _ _ _ | IDeposit u _ _ | ICreating u _ _ | IMake u _ _ => u <> NATIVE | _ => True end.
Lemma taken_In p i m p' : taken p i = Some (m, p') -> List.In m p /\ (forall x, List.In x p' -> List.In x p).
Proof.
  revert i p'. induction p as [|x p IH]; intros [|i] p' H; unfold taken in H; [discriminate..| |].
  - cbn in H. injection H as <- <-. split; [left; reflexivity|]. intros y Hy. right. exact Hy.
  - change ((x :: p) !! S i) with (p !! i) in H. destruct (p !! i) as [y|] eqn:E; [|discriminate]. injection H as <- <-.
    change (delete (S i) (x :: p)) with (x :: delete i p). destruct (IH i (delete i p)) as [H1 H2]; [unfold taken; rewrite E; reflexivity|].
    split; [right; exact H1|]. intros z [->|Hz]; [left; reflexivity|right; auto].
Qed.
Definition no_native (s : ist) : Prop := forall m, List.In m (i_pool s) -> m_asset m <> NATIVE.
Lemma root_step s o : no_native s -> not_native o -> i_root (istep s o) = i_root s /\ no_native (istep s o).
Proof.
  intros K F. assert (On : forall u f s', on_asset s u f = Ok s' -> i_root s' = i_root s /\ i_pool s' = i_pool s).
  { intros u f s' H. destruct (on_asset_ok _ _ _ _ H) as (a & a' & _ & _ & ->). split; reflexivity. }
  assert (Cm : forall r, (forall s', r = Ok s' -> i_root s' = i_root s /\ i_pool s' = i_pool s) -> i_root (commit s r) = i_root s /\ no_native (commit s r)).
  { intros r H. destruct r as [s'|]; cbn; [|auto]. destruct (H s' eq_refl) as [E P]. split; [exact E|]. unfold no_native. rewrite P. exact K. }
  assert (Hd : forall r, i_root (fst r) = i_root s -> i_pool (fst r) = i_pool s -> m_asset (snd r) <> NATIVE -> i_root (held s r) = i_root s /\ no_native (held s r)).
  { intros r E P Nm. split; [exact E|]. intros m [<-|Hm]; [exact Nm|]. rewrite P in Hm. exact (K m Hm). }
  assert (Hw : forall u who v keep r, u <> NATIVE -> withdraw s u who v keep = Ok r -> i_root (held s r) = i_root s /\ no_native (held s r)).
  { intros u who v keep [s1 m] Nu W. destruct (withdraw_ok _ _ _ _ _ _ _ W) as (-> & [[_ ->]|(_ & a & a' & d & _ & _ & ->)]); apply Hd; try reflexivity; exact Nu. }
  assert (He : forall u who v r, u <> NATIVE -> deposit_existing s u who v = Ok r -> i_root (held s r) = i_root s /\ no_native (held s r)).
  { intros u who v [s1 m] Nu W. destruct (deposit_ok _ _ _ _ _ _ W) as (-> & [[_ ->]|(_ & a & a' & _ & _ & ->)]); apply Hd; try reflexivity; exact Nu. }
  assert (Hc : forall u who v, u <> NATIVE -> i_root (held s (deposit_creating s u who v)) = i_root s /\ no_native (held s (deposit_creating s u who v))).
  { intros u who v Nu. destruct (creating_ok s u who v) as [H|[_ ->]]; [exact (He _ _ _ _ Nu H)|]. apply Hd; try reflexivity. discriminate. }
  assert (Dr : forall m p, m_asset m <> NATIVE -> (forall x, List.In x p -> List.In x (i_pool s)) -> i_root (drop_imb (with_pool s p) m) = i_root s /\ no_native (drop_imb (with_pool s p) m)).
  { intros m p Nm Hp. unfold drop_imb. rewrite (proj2 (N.eqb_neq _ _) Nm). destruct (i_assets _ !! _); (split; [reflexivity|intros x Hx; exact (K x (Hp x Hx))]). }
  destruct o as [u who v|u who v|u from to v keep|u who v keep|u who v|u who v|u who v|g|i v|i j|i j|i|i]; cbn [istep not_native] in F |- *.
  - apply Cm. intros s'. apply On.
  - apply Cm. intros s'. apply On.
  - apply Cm. intros s'. apply On.
  - destruct (withdraw s u who v keep) as [r|] eqn:W; [exact (Hw _ _ _ _ _ F W)|auto].
  - destruct (deposit_existing s u who v) as [r|] eqn:W; [exact (He _ _ _ _ F W)|auto].
  - apply Hc. exact F.
  - destruct (make_ok s u who v) as [[x H]|[[x ->]| ->]]; [exact (Hw _ _ _ _ _ F H)|apply Hc; exact F|apply Hd; try reflexivity; discriminate].
  - split; [reflexivity|]. intros m [<-|Hm]; [discriminate|exact (K m Hm)].
  - destruct (taken (i_pool s) i) as [[m p]|] eqn:T; [|auto]. destruct (taken_In _ _ _ _ T) as [Hm Hp]. split; [reflexivity|]. intros x [<-|[<-|Hx]]; [exact (K m Hm)..|auto].
  - destruct (taken (i_pool s) i) as [[m p]|] eqn:T; [|auto]. destruct (taken p j) as [[m' p']|] eqn:T'; [|auto]. destruct (taken_In _ _ _ _ T) as [Hm Hp]. destruct (taken_In _ _ _ _ T') as [Hm' Hp'].
    assert (i_root (with_pool s (merge_imb m m' :: p')) = i_root s /\ no_native (with_pool s (merge_imb m m' :: p'))).
    { split; [reflexivity|]. intros x [<-|Hx]; [exact (K m Hm)|auto]. }
    destruct (m_sign m), (m_sign m'); auto.
  - destruct (taken (i_pool s) i) as [[m p]|] eqn:T; [|auto]. destruct (taken p j) as [[m' p']|] eqn:T'; [|auto]. destruct (taken_In _ _ _ _ T) as [Hm Hp]. destruct (taken_In _ _ _ _ T') as [Hm' Hp'].
    assert (i_root (with_pool s (offset_imb m m' :: p')) = i_root s /\ no_native (with_pool s (offset_imb m m' :: p'))).
    { split; [reflexivity|]. intros x [<-|Hx]; [unfold offset_imb; destruct (_ <=? _); exact (K m Hm)|auto]. }
    destruct (m_sign m), (m_sign m'); auto.
  - destruct (taken (i_pool s) i) as [[m p]|] eqn:T; [|auto]. destruct (taken_In _ _ _ _ T) as [Hm Hp]. exact (Dr m p (K m Hm) Hp).
  - destruct (taken (i_pool s) i) as [[m p]|] eqn:T; [|auto]. destruct (taken_In _ _ _ _ T) as [Hm Hp]. unfold drop_zero. destruct (_ || _); [|auto]. exact (Dr m p (K m Hm) Hp).
Qed.
Theorem C176_root ops s : i_pool s = [] -> Forall not_native ops -> i_root (run istep ops s) = i_root s.
Proof.
  intros P F. assert (K : no_native s). { intros m Hm. rewrite P in Hm. destruct Hm. } clear P. revert s K. induction F as [|o ops Fo _ IH]; intros s K; [reflexivity|].
  destruct (root_step s o K Fo) as [E K1]. change (run istep (o :: ops) s) with (run istep ops (istep s o)). rewrite (IH _ K1). exact E.
Qed.

(** Examples and counterexamples: XRP (asset 2) with 1000 units, 400 with account 7, 600 with account 8. *)
Definition XRP : N := 2.
Definition xrp_with (mn : N) (fz : gset N) : asset := Asset 1000 mn true (<[7 := 400]> (<[8 := 600]> ∅)) fz ∅.
Definition start : ist := Ist 5000 {[ XRP := xrp_with 1 ∅ ]} [].
Definition sums (s : ist) (u : N) : option (N * N) := match i_assets s !! u with Some a => Some (bals a, a_supply a) | None => None end.
Lemma start_small mn fz l : mn <= 1 -> small (Ist 5000 {[ XRP := xrp_with mn fz ]} l).
Proof. intros H u a Ha. cbn [i_assets] in Ha. apply lookup_singleton_Some in Ha. destruct Ha as [_ <-]. cbn. unfold U128MAX. split; lia. Qed.
Lemma start_sums u a : i_assets start !! u = Some a -> bals a = a_supply a.
Proof. intros Ha. cbn [start i_assets] in Ha. apply lookup_singleton_Some in Ha. destruct Ha as [_ <-]. reflexivity. Qed.
Definition sample : list iop := [IWithdraw XRP 7 100 true; IDeposit XRP 7 30; IOffset 1 0; ISplit 0 20; IMint XRP 8 5; IMerge 1 0; ICreating XRP 9 70; IDrop 0; IDrop 0].
Definition same_asset (m m' : imb) : bool := (m_amt m' =? 0) || (m_asset m' =? m_asset m).
Definition fitsb (s : ist) (o : iop) : bool :=
  match o with
  | IMerge i j => match taken (i_pool s) i with Some (m, p) => match taken p j with Some (m', _) => same_asset m m' && (m_amt m + m_amt m' <=? U128MAX) | None => true end | None => true end
  | IOffset i j => match taken (i_pool s) i with Some (m, p) => match taken p j with Some (m', _) => same_asset m m' | None => true end | None => true end
  | IDrop i | IDropZero i => match taken (i_pool s) i with
      | Some (m, _) => match i_assets s !! m_asset m with Some a => match m_sign m with Pos => a_supply a + m_amt m <=? U128MAX | Neg => m_amt m <=? a_supply a end | None => true end
      | None => true end
  | _ => true
  end.
Lemma fitsb_ok s o : fitsb s o = true -> op_fits s o.
Proof.
  assert (D : forall i, match taken (i_pool s) i with
      | Some (m, _) => match i_assets s !! m_asset m with Some a => match m_sign m with Pos => a_supply a + m_amt m <=? U128MAX | Neg => m_amt m <=? a_supply a end | None => true end
      | None => true end = true -> forall m p, taken (i_pool s) i = Some (m, p) -> drop_fits s m).
  { intros i H m p T a _ Ha. rewrite T, Ha in H. destruct (m_sign m); apply N.leb_le in H; exact H. }
  assert (A : forall m m', same_asset m m' = true -> m_amt m' = 0 \/ m_asset m' = m_asset m).
  { intros m m' H. apply orb_true_iff in H. destruct H as [H|H]; apply N.eqb_eq in H; auto. }
  destruct o; cbn [fitsb op_fits]; auto; intros H.
  - intros m p m' p' T T'. rewrite T, T' in H. apply andb_true_iff in H. destruct H as [H1 H2]. apply N.leb_le in H2. auto.
  - intros m p m' p' T T'. rewrite T, T' in H. auto.
  - apply D. exact H.
  - apply D. exact H.
Qed.
Fixpoint along_fits (ops : list iop) (s : ist) : bool := match ops with [] => true | o :: ops => fitsb s o && along_fits ops (istep s o) end.
Lemma along_fits_ok ops s : along_fits ops s = true -> along istep op_fits ops s.
Proof.
  revert s. induction ops as [|o ops IH]; intros s H; [exact I|]. cbn [along_fits] in H. apply andb_true_iff in H. destruct H as [H1 H2]. split; [apply fitsb_ok; exact H1|apply IH; exact H2].
Qed.
Example C176_example : small start /\ i_pool start = [] /\ along istep op_fits sample start /\ i_pool (run istep sample start) = [] /\
  sums (run istep sample start) XRP = Some (1005, 1005) /\ match i_assets (run istep sample start) !! XRP with Some a => bal_of a 9 | None => 0 end = 70.
Proof. split; [apply start_small; lia|]. split; [reflexivity|]. split; [apply along_fits_ok; vm_compute; reflexivity|]. vm_compute. auto. Qed.
(** [zero] is of asset 0: merged in front of something, it swallows it. *)
Theorem C176_zero_refuted : exists s ops, small s /\ (forall u a, i_assets s !! u = Some a -> bals a = a_supply a) /\ i_pool s = [] /\
  ops = [IWithdraw XRP 7 100 true; IZero Neg; IMerge 0 0; IDrop 0] /\ i_pool (run istep ops s) = [] /\ sums (run istep ops s) XRP = Some (900, 1000).
Proof. exists start, [IWithdraw XRP 7 100 true; IZero Neg; IMerge 0 0; IDrop 0]. split; [apply start_small; lia|]. split; [exact start_sums|]. vm_compute. auto. Qed.
(** The kind of asset is not compared when two are merged or set off. *)
Definition two : ist := Ist 5000 (<[102500 := Asset 50 1 true {[ 7 := 50 ]} ∅ ∅]> {[ XRP := xrp_with 1 ∅ ]}) [].
Theorem C176_mixed_refuted : exists s ops, small s /\ (forall u a, i_assets s !! u = Some a -> bals a = a_supply a) /\ i_pool s = [] /\
  ops = [IWithdraw XRP 7 100 true; IWithdraw 102500 7 40 true; IMerge 0 0; IDrop 0] /\ i_pool (run istep ops s) = [] /\
  sums (run istep ops s) XRP = Some (900, 1000) /\ sums (run istep ops s) 102500 = Some (10, 0).
Proof.
  exists two, [IWithdraw XRP 7 100 true; IWithdraw 102500 7 40 true; IMerge 0 0; IDrop 0]. split; [|split; [|vm_compute; auto 10]].
  - intros u a Ha. cbn [two i_assets] in Ha. apply lookup_insert_Some in Ha. destruct Ha as [[_ <-]|[_ Ha]]; [cbn; unfold U128MAX; split; lia|]. apply (start_small 1 ∅ [] ltac:(lia) u a Ha).
  - intros u a Ha. cbn [two i_assets] in Ha. apply lookup_insert_Some in Ha. destruct Ha as [[_ <-]|[_ Ha]]; [reflexivity|]. exact (start_sums u a Ha).
Qed.
(** The order in which imbalances are dropped matters: more may be outstanding than there is. *)
Theorem C176_order_refuted : exists s ops ops', small s /\ (forall u a, i_assets s !! u = Some a -> bals a = a_supply a) /\ i_pool s = [] /\
  ops = [IDeposit XRP 7 600; IWithdraw XRP 7 1000 false; IWithdraw XRP 8 600 false] ++ [IDrop 2; IDrop 0; IDrop 0] /\
  ops' = [IDeposit XRP 7 600; IWithdraw XRP 7 1000 false; IWithdraw XRP 8 600 false] ++ [IDrop 0; IDrop 0; IDrop 0] /\
  sums (run istep ops s) XRP = Some (0, 0) /\ sums (run istep ops' s) XRP = Some (0, 600).
Proof. exists start. eexists _, _. split; [apply start_small; lia|]. split; [exact start_sums|]. split; [reflexivity|]. split; [reflexivity|]. split; [reflexivity|]. vm_compute. auto. Qed.
(** With a larger minimum balance, what is left below it goes as well, but is not in the imbalance. *)
Theorem C176_dust_refuted : exists s ops, (forall u a, i_assets s !! u = Some a -> bals a = a_supply a) /\ i_pool s = [] /\
  ops = [IWithdraw XRP 7 395 false; IDrop 0] /\ i_pool (run istep ops s) = [] /\ sums (run istep ops s) XRP = Some (600, 605).
Proof.
  exists (Ist 5000 {[ XRP := xrp_with 10 ∅ ]} []). eexists. split; [|split; [reflexivity|split; [reflexivity|vm_compute; auto]]].
  intros u a Ha. cbn [i_assets] in Ha. apply lookup_singleton_Some in Ha. destruct Ha as [_ <-]. reflexivity.
Qed.

(** ** C177: the currency does exactly what it is asked to *)
(** What an account can be given: the specification. *)
Definition receives (a : asset) (who v : N) : Prop :=
  v = 0 \/ (a_live a = true /\ a_supply a + v <= U128MAX /\
            match a_bal a !! who with Some b => who ∉ a_blocked a /\ b + v <= U128MAX | None => a_min a <= v end).
Definition gives (a : asset) (who v : N) (keep : bool) : Prop :=
  v = 0 \/ (a_live a = true /\ who ∉ a_frozen a /\ v <= a_supply a /\
            match a_bal a !! who with Some b => v + (if keep then a_min a else 0) <= b | None => False end).
Definition only_changes (s s' : ist) (u who : N) (a a' : asset) : Prop :=
  i_assets s' !! u = Some a' /\ a_supply a' = a_supply a /\ (forall x, x <> who -> a_bal a' !! x = a_bal a !! x) /\
  (forall u', u' <> u -> i_assets s' !! u' = i_assets s !! u') /\ i_root s' = i_root s /\ i_pool s' = i_pool s.
Lemma only_refl s u who a : i_assets s !! u = Some a -> only_changes s s u who a a.
Proof. intros H. repeat split; auto. Qed.
Lemma only_set s u who a b : (forall x, x <> who -> a_bal (with_bal a b) !! x = a_bal a !! x) -> only_changes s (set_asset s u (with_bal a b)) u who a (with_bal a b).
Proof. intros H. split; [apply lookup_insert|]. split; [reflexivity|]. split; [exact H|]. split; [intros u' Nu; apply lookup_insert_ne; congruence|]. split; reflexivity. Qed.
Lemma increase_iff a who v : is_ok (increase a who v) = true <-> receives a who v.
Proof.
  unfold increase, receives. destruct (N.eqb_spec v 0) as [->|Nz]; [split; auto|]. destruct (a_live a); cbn [ensure rbind]; [|split; [discriminate|intros [?|[? _]]; [contradiction|discriminate]]].
  destruct (N.leb_spec (a_supply a + v) U128MAX) as [L|L]; cbn [ensure rbind]; [|split; [discriminate|intros [?|(_ & ? & _)]; [contradiction|lia]]].
  destruct (a_bal a !! who) as [b|].
  - destruct (bool_decide (who ∈ a_blocked a)) eqn:F; cbn [negb ensure rbind].
    + apply bool_decide_eq_true_1 in F. split; [discriminate|]. intros [?|(_ & _ & ? & _)]; contradiction.
    + apply bool_decide_eq_false_1 in F. destruct (N.leb_spec (b + v) U128MAX); cbn [ensure rbind is_ok]; (split; [try discriminate; auto 10|]); intros [?|(_ & _ & _ & ?)]; try contradiction; try reflexivity; lia.
  - destruct (N.leb_spec (a_min a) v); cbn [ensure rbind is_ok]; (split; [try discriminate; auto 10|]); intros [?|(_ & _ & ?)]; try contradiction; try reflexivity; lia.
Qed.
Lemma decrease_iff a who v keep : a_min a <= 1 -> (is_ok (decrease a who v keep) = true <-> gives a who v keep).
Proof.
  intros M. unfold decrease, reducible, gives. destruct (N.eqb_spec v 0) as [->|Nz]; [split; auto|]. destruct (a_live a); cbn [ensure rbind]; [|split; [discriminate|intros [?|[? _]]; [contradiction|discriminate]]].
  destruct (a_bal a !! who) as [b|]; cbn [of_opt rbind]; [|split; [discriminate|intros [?|(_ & _ & _ & ?)]; contradiction]].
  destruct (bool_decide (who ∈ a_frozen a)) eqn:F; cbn [negb ensure rbind].
  - apply bool_decide_eq_true_1 in F. split; [discriminate|]. intros [?|(_ & ? & _)]; contradiction.
  - apply bool_decide_eq_false_1 in F. destruct (N.leb_spec v (N.min (if keep then b - a_min a else b) (a_supply a))) as [L|L]; cbn [ensure rbind].
    + cbv zeta. cbn [default]. unfold id. split; [intros _; right; split; [reflexivity|]; split; [exact F|]; split; [lia|destruct keep; lia]|]. intros _.
      destruct (N.ltb_spec (b - v) (a_min a)); [|reflexivity]. destruct keep; [lia|reflexivity].
    + split; [discriminate|]. intros [?|(_ & _ & ? & ?)]; [contradiction|]. destruct keep; lia.
Qed.
(** A withdrawal takes exactly the amount from that account, and succeeds exactly if it is there. *)
Theorem C177_withdraw s u a who v keep : i_assets s !! u = Some a -> a_min a <= 1 ->
  (gives a who v keep -> exists s' a', withdraw s u who v keep = Ok (s', Imb Neg v u) /\ only_changes s s' u who a a' /\ bal_of a' who + v = bal_of a who) /\
  (~ gives a who v keep -> is_ok (withdraw s u who v keep) = false).
Proof.
  intros Ha M. unfold withdraw. destruct (N.eqb_spec v 0) as [->|Nz]; cbn [rbind].
  - split; [|intros H; exfalso; apply H; left; reflexivity]. intros _. exists s, a. split; [reflexivity|]. split; [apply only_refl; exact Ha|lia].
  - unfold on_asset. rewrite Ha. cbn [of_opt rbind]. pose proof (decrease_iff a who v keep M) as I. destruct (decrease a who v keep) as [[a' d]|] eqn:D; cbn [rbind is_ok fst] in *.
    + split; [|intros H; exfalso; apply H, I; reflexivity]. intros _. destruct (decrease_ok _ _ _ _ _ _ M D) as (-> & (b & ->) & _ & E & O & _). eexists _, _. split; [reflexivity|]. split; [apply only_set; exact O|exact E].
    + split; [|reflexivity]. intros G. apply I in G. discriminate.
Qed.
(** A deposit puts exactly the amount into that account, if it can take it; otherwise [deposit_creating] does nothing and says so. *)
Theorem C177_deposit s u a who v : i_assets s !! u = Some a ->
  (receives a who v -> exists s' a', deposit_existing s u who v = Ok (s', Imb Pos v u) /\ deposit_creating s u who v = (s', Imb Pos v u) /\ only_changes s s' u who a a' /\ bal_of a' who = bal_of a who + v) /\
  (~ receives a who v -> is_ok (deposit_existing s u who v) = false /\ deposit_creating s u who v = (s, Imb Pos 0 0)).
Proof.
  intros Ha. unfold deposit_creating, deposit_existing. destruct (N.eqb_spec v 0) as [->|Nz].
  - split; [|intros H; exfalso; apply H; left; reflexivity]. intros _. exists s, a. split; [reflexivity|]. split; [reflexivity|]. split; [apply only_refl; exact Ha|lia].
  - unfold on_asset. rewrite Ha. cbn [of_opt rbind]. pose proof (increase_iff a who v) as I. destruct (increase a who v) as [a'|] eqn:D; cbn [rbind is_ok] in *.
    + split; [|intros H; exfalso; apply H, I; reflexivity]. intros _. destruct (increase_ok _ _ _ _ D) as ((b & ->) & _ & E & O & _). eexists _, _. split; [reflexivity|]. split; [reflexivity|]. split; [apply only_set; exact O|exact E].
    + split; [|intros _; split; reflexivity]. intros G. apply I in G. discriminate.
Qed.
(** Forcing a balance: it is as stated afterwards, if the account can give or take the difference, or else as before;
    and the imbalance is the difference. *)
Theorem C177_make s u a who v : i_assets s !! u = Some a -> a_min a <= 1 -> a_live a = true -> who ∉ a_frozen a -> bal_of a who <= a_supply a -> a_bal a !! who <> Some 0 ->
  exists s' a' m, make_free s u who v = (s', m) /\ only_changes s s' u who a a' /\
  ((v < bal_of a who /\ m = Imb Neg (bal_of a who - v) u /\ bal_of a' who = v) \/
   (bal_of a who <= v /\ receives a who (v - bal_of a who) /\ m_amt m = v - bal_of a who /\ (m_amt m <> 0 -> m = Imb Pos (v - bal_of a who) u) /\ bal_of a' who = v) \/
   (bal_of a who < v /\ ~ receives a who (v - bal_of a who) /\ m_amt m = 0 /\ bal_of a' who = bal_of a who)).
Proof.
  intros Ha M L F B Z. assert (Fr : free_balance s u who = bal_of a who).
  { unfold free_balance. rewrite Ha. cbn [of_opt]. unfold reducible. rewrite L. cbn [ensure rbind]. unfold bal_of in *. destruct (a_bal a !! who) as [b|]; cbn [of_opt rbind default]; [|reflexivity].
    rewrite bool_decide_eq_false_2 by exact F. cbn [negb ensure rbind]. cbn in B. unfold id in *. lia. }
  unfold make_free. cbv zeta. rewrite Fr. destruct (C177_withdraw s u a who (bal_of a who - v) false Ha M) as [W _].
  destruct (N.leb_spec v (bal_of a who)) as [Lv|Lv].
  - destruct W as (s' & a' & W & O & E). { destruct (N.eq_dec (bal_of a who - v) 0) as [E0|E0]; [left; exact E0|right]. unfold bal_of in *. destruct (a_bal a !! who) as [b|]; cbn in *; [|lia]. unfold id in *. repeat split; auto; lia. }
    rewrite W. exists s', a', (Imb Neg (bal_of a who - v) u). split; [reflexivity|]. split; [exact O|].
    destruct (N.eq_dec v (bal_of a who)) as [Ev|Nv]; [right; left|left; repeat split; lia].
    split; [lia|]. rewrite Ev, N.sub_diag in *. split; [left; reflexivity|]. cbn [m_amt]. repeat split; try lia; try (intros Hc; exfalso; apply Hc; lia).
  - rewrite (proj2 (N.leb_le _ _)) by lia. destruct (C177_deposit s u a who (v - bal_of a who) Ha) as [D1 D2].
    destruct (is_ok (increase a who (v - bal_of a who))) eqn:I.
    + apply increase_iff in I. destruct (D1 I) as (s' & a' & _ & D & O & E). rewrite D. eexists _, _, _. split; [reflexivity|]. split; [exact O|]. right. left. split; [lia|]. split; [exact I|]. cbn [m_amt]. repeat split; auto; lia.
    + assert (Ni : ~ receives a who (v - bal_of a who)). { intros R. apply increase_iff in R. congruence. } destruct (D2 Ni) as [_ D]. rewrite D. exists s, a, (Imb Pos 0 0). split; [reflexivity|].
      split; [apply only_refl; exact Ha|]. right. right. repeat split; auto; lia.
Qed.
(** A frozen account counts as empty: the amount is put on top of what it has. *)
Theorem C177_make_frozen_refuted : exists s s' m a', make_free s XRP 7 400 = (s', m) /\ s = Ist 5000 {[ XRP := xrp_with 1 {[ 7 ]} ]} [] /\ bal_of (xrp_with 1 {[ 7 ]}) 7 = 400 /\
  i_assets s' !! XRP = Some a' /\ bal_of a' 7 = 800.
Proof. eexists _, _, _, _. split; [|split; [reflexivity|]]; [vm_compute; reflexivity|]. vm_compute. auto. Qed.
Example C177_example : i_assets start !! XRP = Some (xrp_with 1 ∅) /\ gives (xrp_with 1 ∅) 7 399 true /\ ~ gives (xrp_with 1 ∅) 7 400 true /\ receives (xrp_with 1 ∅) 9 1 /\
  snd (make_free start XRP 7 100) = Imb Neg 300 XRP /\ snd (make_free start XRP 9 50) = Imb Pos 50 XRP.
Proof.
  split; [reflexivity|]. split; [right; split; [reflexivity|]; split; [apply not_elem_of_empty|]; split; vm_compute; discriminate|]. split; [intros [H|(_ & _ & _ & H)]; vm_compute in H; congruence|].
  split; [right; split; [reflexivity|]; split; vm_compute; discriminate|]. vm_compute. auto.
Qed.

(** ** C178: fees are moved whole *)
Lemma deposit_pool s m u who v s1 b : deposit_existing s u who v = Ok (s1, b) -> deposit_existing (add_imb s m) u who v = Ok (add_imb s1 m, b) /\ i_pool s1 = i_pool s.
Proof.
  intros H. destruct (deposit_ok _ _ _ _ _ _ H) as (-> & [[-> ->]|(Nz & a & a' & Ha & I & ->)]); [split; reflexivity|].
  unfold deposit_existing. rewrite (proj2 (N.eqb_neq _ _) Nz). unfold on_asset. cbn [add_imb i_assets]. rewrite Ha. cbn [of_opt rbind]. rewrite I. cbn [rbind]. split; reflexivity.
Qed.
(** Taking a fee leaves things balanced, with the fee outstanding. *)
Theorem C178_taken u s who fee s1 m : small s -> balanced s -> take_fee u s who fee = Ok (s1, Some m) -> balanced (add_imb s1 m) /\ m = Imb Neg fee u.
Proof.
  intros S B H. unfold take_fee in H. destruct (fee =? 0); [discriminate|]. destruct (withdraw s u who fee true) as [[s' m']|] eqn:W; cbn [rbind fst snd] in H; [|discriminate].
  injection H as <- <-. split; [apply (withdraw_good s u who fee true s' m' (conj S B) W)|]. apply (withdraw_ok _ _ _ _ _ _ _ W).
Qed.
Lemma merged u x tip : x <= U128MAX -> fold_left (fun i x => merge_imb x i) [snd (split_imb (Imb Neg x u) tip); fst (split_imb (Imb Neg x u) tip)] (zero_imb Neg) = Imb Neg x u.
Proof. intros L. unfold split_imb, merge_imb, zero_imb, sat. cbn [fold_left fst snd m_sign m_amt m_asset]. f_equal. lia. Qed.
Section settle.
  Variables u pot : N.
  Hypotheses (Nu : u <> NATIVE) (Zu : u <> 0).
  (** Settling always works, and leaves things balanced with nothing outstanding but what was before. *)
  Lemma pot_step s era x : good (add_imb s (Imb Neg x u)) -> x <> 0 -> outstanding Pos u (i_pool s) = 0 ->
    good (fst (pot_nonzero u pot s era (Imb Neg x u))) /\ i_pool (fst (pot_nonzero u pot s era (Imb Neg x u))) = i_pool s /\ snd (pot_nonzero u pot s era (Imb Neg x u)) = (era + x) mod 2 ^ 128.
  Proof.
    intros G Nx O. unfold pot_nonzero. cbn [m_amt].
    assert (K : exists s1 p, deposit_creating s u pot x = (s1, p) /\ i_pool s1 = i_pool s /\ good (add_imb (add_imb s1 (Imb Neg x u)) p) /\ m_sign p = Pos /\ (m_asset p = 0 \/ m_asset p = u) /\ drop_fits (add_imb s1 (Imb Neg x u)) p).
    { destruct (creating_ok s u pot x) as [H|[_ ->]].
      - destruct (deposit_creating s u pot x) as [s1 p]. destruct (deposit_pool s (Imb Neg x u) u pot x s1 p H) as [H' P]. exists s1, p. split; [reflexivity|]. split; [exact P|]. split; [exact (deposit_good _ _ _ _ _ _ G H')|].
        destruct (deposit_ok _ _ _ _ _ _ H) as (-> & [[E _]|(_ & a & a' & Ha & I & ->)]); [contradiction|]. cbn. split; [reflexivity|]. split; [right; reflexivity|].
        intros a2 _ Ha2. cbn in Ha2 |- *. rewrite lookup_insert in Ha2. injection Ha2 as <-. destruct (increase_ok _ _ _ _ I) as ((b & ->) & _ & _ & _ & L). apply L. exact Nx.
      - exists s, (zero_imb Pos). split; [reflexivity|]. split; [reflexivity|]. split; [apply zero_good; exact G|]. split; [reflexivity|]. split; [left; reflexivity|].
        intros a _ Ha. cbn. destruct (proj1 G 0 a Ha). lia. }
    destruct K as (s1 & p & -> & P & Gp & Sp & Ap & Fp). pose proof (drop_good _ _ Gp Fp) as Gd.
    assert (C : drop_imb (add_imb s1 (Imb Neg x u)) p = add_imb (drop_imb s1 p) (Imb Neg x u)).
    { unfold drop_imb. cbn [add_imb i_assets i_root i_pool]. destruct (_ =? _); [reflexivity|]. destruct (i_assets s1 !! _); reflexivity. }
    assert (Pd : i_pool (drop_imb s1 p) = i_pool s). { unfold drop_imb. destruct (_ =? _); [exact P|]. destruct (i_assets s1 !! _); exact P. }
    rewrite C in Gd. cbn [fst snd]. split; [|split; [|reflexivity]].
    - apply drop_good; [exact Gd|]. intros a _ Ha. cbn in Ha |- *. pose proof (proj2 Gd u a Nu Ha) as E. cbn [add_imb i_pool] in E. rewrite !out_cons, Pd, O in E. unfold counts in E. cbn [m_asset m_sign m_amt] in E. rewrite N.eqb_refl in E. lia.
    - unfold drop_imb at 1. cbn [m_asset]. rewrite (proj2 (N.eqb_neq _ _) Nu). destruct (i_assets (drop_imb s1 p) !! u); exact Pd.
  Qed.
  Theorem C178_settled s era who corrected tip fee : small s -> balanced (add_imb s (Imb Neg fee u)) -> fee <= U128MAX -> outstanding Pos u (i_pool s) = 0 ->
    exists s' era', correct_fee u pot s era who corrected tip (Some (Imb Neg fee u)) = Ok (s', era') /\ small s' /\ balanced s' /\ i_pool s' = i_pool s.
  Proof.
    intros S B L O. assert (G : good (add_imb s (Imb Neg fee u))) by (split; assumption). unfold correct_fee. cbn [m_amt].
    assert (K : exists s1 back, match deposit_existing s u who (fee - corrected) with Ok r => r | Err _ => (s, zero_imb Pos) end = (s1, back) /\ i_pool s1 = i_pool s /\
      m_sign back = Pos /\ m_amt back <= fee /\ good (add_imb s1 (Imb Neg (fee - m_amt back) u))).
    { destruct (deposit_existing s u who (fee - corrected)) as [[s1 b]|] eqn:D.
      - exists s1, b. split; [reflexivity|]. destruct (deposit_pool s (Imb Neg fee u) _ _ _ _ _ D) as [D' P]. split; [exact P|]. pose proof (deposit_good _ _ _ _ _ _ G D') as Gb.
        destruct (deposit_ok _ _ _ _ _ _ D) as (-> & _). cbn [m_sign m_amt]. split; [reflexivity|]. split; [lia|]. destruct Gb as [Sb Bb]. split; [exact Sb|].
        intros u' a Nu' Ha. pose proof (Bb u' a Nu' Ha) as E. cbn [add_imb i_pool] in E |- *. rewrite !(out_cons Neg), !(out_cons Pos) in E. rewrite !(out_cons Neg), !(out_cons Pos). unfold counts in *. cbn [m_asset m_sign m_amt] in *. destruct (u =? u'); lia.
      - exists s, (zero_imb Pos). split; [reflexivity|]. split; [reflexivity|]. split; [reflexivity|]. cbn [zero_imb m_amt]. rewrite N.sub_0_r. split; [lia|exact G]. }
    destruct K as (s1 & back & -> & P & Sb & Lb & G1).
    assert (Ea : offset_imb (Imb Neg fee u) back = Imb Neg (fee - m_amt back) u). { unfold offset_imb. cbv zeta. cbn [m_amt m_sign m_asset]. rewrite (proj2 (N.leb_le _ _) Lb). reflexivity. }
    cbv zeta. rewrite Ea. cbn [m_sign]. set (x := fee - m_amt back) in *. assert (Lx : x <= U128MAX) by (unfold x; lia).
    destruct (split_imb (Imb Neg x u) tip) as [t f] eqn:Es. assert (Em : fold_left (fun i x => merge_imb x i) [f; t] (zero_imb Neg) = Imb Neg x u).
    { rewrite <- (merged u x tip Lx), Es. reflexivity. }
    unfold on_unbalanceds. rewrite Em. unfold drop_zero. cbn [m_amt m_asset]. rewrite (proj2 (N.eqb_neq _ _) Zu), orb_false_r. destruct (N.eqb_spec x 0) as [E0|Nx].
    - eexists _, _. split; [reflexivity|]. rewrite E0 in *. assert (Gd : good (drop_imb s1 (Imb Neg 0 u))). { apply drop_good; [exact G1|]. intros a _ _. cbn. lia. }
      split; [apply Gd|]. split; [apply Gd|]. unfold drop_imb. cbn [m_asset]. rewrite (proj2 (N.eqb_neq _ _) Nu). destruct (i_assets s1 !! u); exact P.
    - rewrite <- P in O. destruct (pot_step s1 era x G1 Nx O) as ([S2 B2] & P2 & E2). destruct (pot_nonzero u pot s1 era (Imb Neg x u)) as [s' era']. cbn [fst snd] in *. exists s', era'. split; [reflexivity|]. rewrite P2. auto.
  Qed.
  (** Who gets what: the payer the difference, if the account can take it; the pot everything else, if it can; the
      issuance changes only by what neither could. *)
  Theorem C178_amounts s era who corrected tip fee a : small s -> i_assets s !! u = Some a -> fee <= a_supply a -> who <> pot -> fee <> 0 ->
    exists s' era' a' back put, correct_fee u pot s era who corrected tip (Some (Imb Neg fee u)) = Ok (s', era') /\ i_assets s' !! u = Some a' /\
      ((receives a who (fee - corrected) /\ back = fee - corrected) \/ (~ receives a who (fee - corrected) /\ back = 0)) /\
      ((receives a pot (fee - back) /\ put = fee - back) \/ (~ receives a pot (fee - back) /\ put = 0)) /\
      bal_of a' who = bal_of a who + back /\ bal_of a' pot = bal_of a pot + put /\ (forall x, x <> who -> x <> pot -> a_bal a' !! x = a_bal a !! x) /\
      a_supply a' + fee = a_supply a + back + put /\ era' = (if fee - back =? 0 then era else (era + (fee - back)) mod 2 ^ 128) /\
      (forall u', u' <> u -> i_assets s' !! u' = i_assets s !! u') /\ i_root s' = i_root s.
  Proof.
    intros Sm Ha Lf Np Nf. pose proof (proj2 (Sm u a Ha)) as Ls. unfold correct_fee. cbn [m_amt]. destruct (C177_deposit s u a who (fee - corrected) Ha) as [D1 D2].
    assert (K : exists s1 back a1 bk, match deposit_existing s u who (fee - corrected) with Ok r => r | Err _ => (s, zero_imb Pos) end = (s1, back) /\ m_amt back = bk /\
      ((receives a who (fee - corrected) /\ bk = fee - corrected) \/ (~ receives a who (fee - corrected) /\ bk = 0)) /\ only_changes s s1 u who a a1 /\ bal_of a1 who = bal_of a who + bk /\ (exists b, a1 = with_bal a b)).
    { pose proof (increase_iff a who (fee - corrected)) as I. destruct (increase a who (fee - corrected)) as [ai|] eqn:Ei; cbn [is_ok] in I.
      - assert (R : receives a who (fee - corrected)) by (apply I; reflexivity). destruct (D1 R) as (s1 & a1 & De & _ & O & E). rewrite De. exists s1, (Imb Pos (fee - corrected) u), a1, (fee - corrected). repeat split; auto; try apply O.
        destruct (deposit_ok _ _ _ _ _ _ De) as (_ & [[Ez ->]|(Nz & a0 & a0' & Ha0 & I0 & ->)]).
        + exists (a_bal a). destruct O as [O _]. rewrite Ha in O. injection O as <-. destruct a; reflexivity.
        + destruct O as [O _]. cbn in O. rewrite lookup_insert in O. injection O as <-. rewrite Ha in Ha0. injection Ha0 as <-. apply (increase_ok _ _ _ _ I0).
      - assert (R : ~ receives a who (fee - corrected)) by (intros R; apply I in R; discriminate). destruct (D2 R) as [De _]. destruct (deposit_existing s u who (fee - corrected)); [discriminate|].
        exists s, (zero_imb Pos), a, 0. split; [reflexivity|]. split; [reflexivity|]. split; [right; auto|]. split; [apply only_refl; exact Ha|]. split; [lia|]. exists (a_bal a). destruct a; reflexivity. }
    destruct K as (s1 & back & a1 & bk & -> & Ebk & Hbk & (O1 & O2 & O3 & O4 & O5 & O6) & Eb & (b1 & E1)). assert (Lb : bk <= fee) by (destruct Hbk as [[_ ->]|[_ ->]]; lia).
    assert (Ea : offset_imb (Imb Neg fee u) back = Imb Neg (fee - bk) u). { unfold offset_imb. cbv zeta. cbn [m_amt m_sign m_asset]. rewrite Ebk, (proj2 (N.leb_le _ _) Lb). reflexivity. }
    cbv zeta. rewrite Ea. cbn [m_sign]. set (x := fee - bk) in *. assert (Lx : x <= U128MAX) by (unfold x; lia).
    destruct (split_imb (Imb Neg x u) tip) as [t f] eqn:Es. assert (Em : fold_left (fun i x => merge_imb x i) [f; t] (zero_imb Neg) = Imb Neg x u).
    { rewrite <- (merged u x tip Lx), Es. reflexivity. }
    unfold on_unbalanceds. rewrite Em. unfold drop_zero. cbn [m_amt m_asset]. rewrite (proj2 (N.eqb_neq _ _) Zu), orb_false_r.
    assert (Dr : forall st m z, i_assets st !! u = Some z -> m_asset m = u -> drop_imb st m = set_asset st u (with_supply z (squared m (a_supply z)))).
    { intros st m z Hz Em'. unfold drop_imb. rewrite Em', (proj2 (N.eqb_neq _ _) Nu), Hz. reflexivity. }
    assert (Rp : receives a pot x <-> receives a1 pot x). { unfold receives. rewrite E1. cbn [with_bal a_live a_supply a_blocked a_min]. rewrite E1 in O3. rewrite (O3 pot (not_eq_sym Np)). reflexivity. }
    destruct (N.eqb_spec x 0) as [E0|Nx].
    - rewrite (Dr s1 (Imb Neg x u) a1 O1 eq_refl). eexists _, _, _, bk, 0. split; [reflexivity|]. split; [apply lookup_insert|]. fold x. rewrite E0. cbn [squared m_sign m_amt with_supply a_supply]. rewrite N.sub_0_r.
      split; [exact Hbk|]. split; [left; split; [left; reflexivity|reflexivity]|]. split; [exact Eb|]. split; [unfold bal_of; cbn [with_supply a_bal]; rewrite (O3 pot (not_eq_sym Np)); lia|].
      split; [intros y Hy _; exact (O3 y Hy)|]. split; [rewrite O2; unfold x in E0; lia|]. split; [reflexivity|]. split; [|exact O5]. intros u' Hu'. cbn. rewrite lookup_insert_ne by congruence. exact (O4 u' Hu').
    - unfold pot_nonzero. cbn [m_amt]. destruct (C177_deposit s1 u a1 pot x O1) as [P1 P2].
      pose proof (increase_iff a1 pot x) as I. destruct (is_ok (increase a1 pot x)) eqn:Ei.
      + assert (R : receives a1 pot x) by (apply I; reflexivity). destruct (P1 R) as (s2 & a2 & _ & -> & (Q1 & Q2 & Q3 & Q4 & Q5 & Q6) & Ep).
        rewrite (Dr s2 (Imb Pos x u) a2 Q1 eq_refl). rewrite (Dr _ (Imb Neg x u) (with_supply a2 (squared (Imb Pos x u) (a_supply a2)))); [|apply lookup_insert|reflexivity].
        assert (Lsx : a_supply a + x <= U128MAX). { destruct R as [R|(_ & R & _)]; [contradiction|]. rewrite O2 in R. exact R. }
        eexists _, _, _, bk, x. split; [reflexivity|]. split; [apply lookup_insert|]. split; [exact Hbk|]. split; [left; split; [apply Rp; exact R|reflexivity]|].
        cbn [squared m_sign m_amt with_supply a_supply]. unfold sat. split; [unfold bal_of in *; cbn [with_supply a_bal]; rewrite (Q3 who Np); exact Eb|].
        split; [unfold bal_of in *; cbn [with_supply a_bal]; rewrite Ep, (O3 pot (not_eq_sym Np)); reflexivity|]. split; [intros y Hy Hy'; cbn [with_supply a_bal]; rewrite (Q3 y Hy'); exact (O3 y Hy)|].
        split; [rewrite Q2, O2; unfold x in *; lia|]. split; [fold x; rewrite (proj2 (N.eqb_neq _ _) Nx); reflexivity|]. split; [|cbn; rewrite Q5; exact O5]. intros u' Hu'. cbn. rewrite !lookup_insert_ne by congruence. rewrite (Q4 u' Hu'). exact (O4 u' Hu').
      + assert (R : ~ receives a1 pot x) by (intros R; apply I in R; discriminate). destruct (P2 R) as [_ ->].
        assert (D0 : exists st, drop_imb s1 (Imb Pos 0 0) = st /\ i_assets st !! u = Some a1 /\ (forall u', u' <> u -> i_assets st !! u' = i_assets s1 !! u') /\ i_root st = i_root s1).
        { eexists. split; [reflexivity|]. unfold drop_imb. cbn [m_asset]. change (0 =? NATIVE) with false. cbn iota. destruct (i_assets s1 !! 0) as [z|] eqn:Ez; [|auto]. split; [|split; [|reflexivity]].
          - cbn. rewrite lookup_insert_ne by congruence. exact O1.
          - intros u' Hu'. cbn. destruct (N.eq_dec 0 u') as [<-|N0]; [|apply lookup_insert_ne; exact N0]. rewrite lookup_insert, Ez. f_equal.
            rewrite (O4 0 (not_eq_sym Zu)) in Ez. destruct (Sm 0 z Ez) as [_ Lz]. unfold squared, sat. cbn [m_sign m_amt]. destruct z as [sz mz lz bz fz kz]. unfold with_supply. cbn in *. f_equal. lia. }
        destruct D0 as (st & -> & S1 & S2 & S3). rewrite (Dr st (Imb Neg x u) a1 S1 eq_refl).
        eexists _, _, _, bk, 0. split; [reflexivity|]. split; [apply lookup_insert|]. split; [exact Hbk|]. split; [right; split; [intros Q; apply R, Rp; exact Q|reflexivity]|].
        cbn [squared m_sign m_amt with_supply a_supply]. split; [exact Eb|]. split; [unfold bal_of in *; cbn [with_supply a_bal]; rewrite (O3 pot (not_eq_sym Np)); lia|]. split; [intros y Hy _; exact (O3 y Hy)|].
        split; [rewrite O2; unfold x in *; lia|]. split; [fold x; rewrite (proj2 (N.eqb_neq _ _) Nx); reflexivity|]. split; [|cbn; rewrite S3; exact O5]. intros u' Hu'. cbn. rewrite lookup_insert_ne by congruence. rewrite (S2 u' Hu'). exact (O4 u' Hu').
  Qed.
End settle.

(** A whole transaction: a fee is taken, anything is minted, burnt and moved, the fee is settled: the issuance is the sum
    of the balances again. *)
Definition plain (o : iop) : Prop := match o with IMint _ _ _ | IBurn _ _ _ | IMove _ _ _ _ _ => True | _ => False end.
Lemma plain_add s m o : plain o -> istep (add_imb s m) o = add_imb (istep s o) m /\ i_pool (istep s o) = i_pool s.
Proof.
  assert (K : forall u f, commit (add_imb s m) (on_asset (add_imb s m) u f) = add_imb (commit s (on_asset s u f)) m /\ i_pool (commit s (on_asset s u f)) = i_pool s).
  { intros u f. unfold on_asset. cbn [add_imb i_assets]. destruct (i_assets s !! u) as [a|]; cbn [of_opt rbind commit]; [|split; reflexivity]. destruct (f a); cbn [rbind commit]; split; reflexivity. }
  destruct o; cbn [plain istep]; intros Hp; solve [apply K|destruct Hp].
Qed.
Theorem C178_whole u pot s who fee s1 m mid era corrected tip : u <> NATIVE -> u <> 0 -> small s -> (forall u' a, u' <> NATIVE -> i_assets s !! u' = Some a -> bals a = a_supply a) -> i_pool s = [] -> fee <= U128MAX ->
  take_fee u s who fee = Ok (s1, Some m) -> Forall plain mid ->
  exists s' era', correct_fee u pot (run istep mid s1) era who corrected tip (Some m) = Ok (s', era') /\ i_pool s' = [] /\
    forall u' a, u' <> NATIVE -> i_assets s' !! u' = Some a -> bals a = a_supply a.
Proof.
  intros Nu Zu S B P L H F. assert (B0 : balanced s). { intros u' a' Nu' Ha'. rewrite P. cbn. rewrite (B u' a' Nu' Ha'). reflexivity. }
  destruct (C178_taken u s who fee s1 m S B0 H) as [B1 ->].
  assert (P1 : i_pool s1 = [] /\ small s1).
  { unfold take_fee in H. destruct (fee =? 0); [discriminate|]. destruct (withdraw s u who fee true) as [[s' m']|] eqn:W; cbn [rbind fst snd] in H; [|discriminate]. injection H as <- Hm.
    split; [|exact (proj1 (withdraw_good s u who fee true s' m' (conj S B0) W))]. destruct (withdraw_ok _ _ _ _ _ _ _ W) as (_ & [[_ ->]|(_ & a & a' & d & _ & _ & ->)]); exact P. }
  destruct P1 as [P1 S1]. clear H.
  assert (K : good (add_imb (run istep mid s1) (Imb Neg fee u)) /\ i_pool (run istep mid s1) = []).
  { assert (G : good (add_imb s1 (Imb Neg fee u))) by (split; assumption). clear S1 B1. revert s1 P1 G. induction F as [|o mid Fo _ IH]; intros s1 P1 G; [split; assumption|].
    destruct (plain_add s1 (Imb Neg fee u) o Fo) as [E Ep]. change (run istep (o :: mid) s1) with (run istep mid (istep s1 o)). apply IH; [rewrite Ep; exact P1|]. rewrite <- E. apply istep_good; [exact G|]. destruct o; try exact I; destruct Fo. }
  destruct K as [[S2 B2] P2]. destruct (C178_settled u pot Nu Zu (run istep mid s1) era who corrected tip fee S2 B2 L) as (s' & era' & E & _ & B3 & P3); [rewrite P2; reflexivity|].
  exists s', era'. split; [exact E|]. rewrite P2 in P3. split; [exact P3|]. intros u' a Nu' Ha. pose proof (B3 u' a Nu' Ha) as Eb. rewrite P3 in Eb. cbn in Eb. lia.
Qed.
(** Account 7 pays 50, of which 20 are given back; 3 of the rest are a tip. *)
Definition paid50 : ist := match take_fee XRP start 7 50 with Ok r => fst r | Err _ => start end.
Definition done50 : ist * N := match correct_fee XRP 9 (istep paid50 (IMint XRP 8 5)) 11 7 30 3 (Some (Imb Neg 50 XRP)) with Ok r => r | Err _ => (start, 0) end.
Example C178_example : take_fee XRP start 7 50 = Ok (paid50, Some (Imb Neg 50 XRP)) /\ sums paid50 XRP = Some (950, 1000) /\ sums (fst done50) XRP = Some (1005, 1005) /\ snd done50 = 41 /\
  match i_assets (fst done50) !! XRP with Some a => (bal_of a 7, bal_of a 9, bal_of a 8) | None => (0, 0, 0) end = (370, 30, 605).
Proof. vm_compute. auto. Qed.

Definition imbalance_theorems := (C176_balanced, C176_settled, C176_drop_fits, C176_root, C176_zero_refuted, C176_mixed_refuted, C176_order_refuted, C176_dust_refuted,
  C177_withdraw, C177_deposit, C177_make, C177_make_frozen_refuted, C178_taken, C178_settled, C178_amounts, C178_whole).
Print Assumptions imbalance_theorems.
