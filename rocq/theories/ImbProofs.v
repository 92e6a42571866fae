(** Lemmas about imbalances. *)
From Verif Require Export ImbModel.

(** ** Specification: all balances of an asset, what is outstanding, and whether they match the issuance *)
Definition bals (a : asset) : N := sumf (fun _ v => v) (a_bal a).
Definition bal_of (a : asset) (who : N) : N := default 0 (a_bal a !! who).
Definition counts (g : sign) (u : N) (m : imb) : N :=
  if m_asset m =? u then match g, m_sign m with Pos, Pos | Neg, Neg => m_amt m | _, _ => 0 end else 0.
Definition outstanding (g : sign) (u : N) (p : list imb) : N := sumL (map (counts g u) p).
Definition balanced (s : ist) : Prop := forall u a, u <> NATIVE -> i_assets s !! u = Some a ->
  bals a + outstanding Neg u (i_pool s) = a_supply a + outstanding Pos u (i_pool s).
(** Assets have no minimum balance but that of one unit, and a supply of 128 bits. *)
Definition small (s : ist) : Prop := forall u a, i_assets s !! u = Some a -> a_min a <= 1 /\ a_supply a <= U128MAX.

Lemma out_cons g u m p : outstanding g u (m :: p) = counts g u m + outstanding g u p.
Proof. reflexivity. Qed.
Lemma out_taken g u p i m p' : taken p i = Some (m, p') -> outstanding g u p = counts g u m + outstanding g u p'.
Proof.
  revert i p'. induction p as [|x p IH]; intros [|i] p' H; unfold taken in H; [discriminate..| |].
  - cbn in H. injection H as <- <-. reflexivity.
  - change ((x :: p) !! S i) with (p !! i) in H. destruct (p !! i) as [y|] eqn:E; [|discriminate]. injection H as <- <-.
    change (delete (S i) (x :: p)) with (x :: delete i p). rewrite !out_cons, (IH i (delete i p)); [lia|]. unfold taken. rewrite E. reflexivity.
Qed.
Lemma out_counts g u p i m p' : taken p i = Some (m, p') -> counts g u m <= outstanding g u p.
Proof. intros H. rewrite (out_taken g u p i m p' H). lia. Qed.

Lemma decrease_ok a who v keep a' d : a_min a <= 1 -> decrease a who v keep = Ok (a', d) ->
  d = v /\ (exists b, a' = with_bal a b) /\ bals a' + v = bals a /\ bal_of a' who + v = bal_of a who /\ (forall x, x <> who -> a_bal a' !! x = a_bal a !! x) /\
  (v <> 0 -> v <= a_supply a /\ a_live a = true /\ who ∉ a_frozen a /\ (keep = true -> a_min a <= bal_of a' who)).
Proof.
  unfold decrease. destruct (N.eqb_spec v 0) as [E0|Nz].
  - intros _ H. injection H as <- <-. subst v. rewrite !N.add_0_r. repeat split; try reflexivity; try (exfalso; congruence). exists (a_bal a). destruct a; reflexivity.
  - intros Hm H. unfold reducible in H. destruct (a_live a) eqn:L; cbn [ensure rbind] in H; [|discriminate].
    destruct (a_bal a !! who) as [b|] eqn:B; cbn [of_opt rbind] in H; [|discriminate].
    destruct (bool_decide (who ∈ a_frozen a)) eqn:F; cbn [negb ensure rbind] in H; [discriminate|]. apply bool_decide_eq_false_1 in F.
    destruct (N.leb_spec v (N.min (if keep then b - a_min a else b) (a_supply a))) as [Hv|]; cbn [ensure rbind] in H; [|discriminate].
    cbv zeta in H. cbn [default] in H. unfold id in H. assert (Hb : v <= b) by (destruct keep; lia). unfold bal_of. rewrite B. cbn [default]. unfold id.
    destruct (N.ltb_spec (b - v) (a_min a)) as [Hd|Hd].
    + destruct keep; [discriminate|]. injection H as <- <-. assert (b = v) by lia. subst v. split; [lia|]. split; [eexists; reflexivity|].
      unfold bals, with_bal; cbn [a_bal]. pose proof (sumf_delete (fun _ v => v) (a_bal a) who) as Hs. unfold contrib in Hs. rewrite B in Hs.
      rewrite lookup_delete. cbn. split; [lia|]. split; [lia|]. split; [intros x Hx; apply lookup_delete_ne; congruence|]. intros _. split; [lia|]. split; [reflexivity|]. split; [exact F|discriminate].
    + injection H as <- <-. split; [reflexivity|]. split; [eexists; reflexivity|].
      unfold bals, with_bal; cbn [a_bal]. pose proof (sumf_insert (fun _ v => v) (a_bal a) who (b - v)) as Hs. unfold contrib in Hs. rewrite B in Hs.
      rewrite lookup_insert. cbn. split; [lia|]. split; [lia|]. split; [intros x Hx; apply lookup_insert_ne; congruence|]. intros _. split; [lia|]. split; [reflexivity|]. split; [exact F|intros _; exact Hd].
Qed.
Lemma increase_ok a who v a' : increase a who v = Ok a' ->
  (exists b, a' = with_bal a b) /\ bals a' = bals a + v /\ bal_of a' who = bal_of a who + v /\ (forall x, x <> who -> a_bal a' !! x = a_bal a !! x) /\
  (v <> 0 -> a_supply a + v <= U128MAX /\ a_live a = true).
Proof.
  unfold increase. destruct (N.eqb_spec v 0) as [E0|Nz].
  - intros H. injection H as <-. subst v. rewrite !N.add_0_r. repeat split; try reflexivity; try (exfalso; congruence). exists (a_bal a). destruct a; reflexivity.
  - intros H. destruct (a_live a) eqn:L; cbn [ensure rbind] in H; [|discriminate].
    destruct (N.leb_spec (a_supply a + v) U128MAX) as [Hs|]; cbn [ensure rbind] in H; [|discriminate].
    unfold bal_of. destruct (a_bal a !! who) as [b|] eqn:B.
    + destruct (bool_decide _); cbn [negb ensure rbind] in H; [discriminate|]. destruct (b + v <=? U128MAX); cbn [ensure rbind] in H; [|discriminate].
      injection H as <-. split; [eexists; reflexivity|]. unfold bals, with_bal; cbn [a_bal].
      pose proof (sumf_insert (fun _ v => v) (a_bal a) who (b + v)) as Hi. unfold contrib in Hi. rewrite B in Hi. rewrite lookup_insert. cbn.
      split; [lia|]. split; [lia|]. split; [intros x Hx; apply lookup_insert_ne; congruence|]. intros _. split; [exact Hs|reflexivity].
    + destruct (a_min a <=? v); cbn [ensure rbind] in H; [|discriminate]. injection H as <-. split; [eexists; reflexivity|]. unfold bals, with_bal; cbn [a_bal].
      rewrite sumf_insert_new by exact B. rewrite lookup_insert. cbn. split; [lia|]. split; [lia|]. split; [intros x Hx; apply lookup_insert_ne; congruence|]. intros _. split; [exact Hs|reflexivity].
Qed.

Lemma on_asset_ok s u f s' : on_asset s u f = Ok s' -> exists a a', i_assets s !! u = Some a /\ f a = Ok a' /\ s' = set_asset s u a'.
Proof.
  unfold on_asset. destruct (i_assets s !! u) as [a|]; cbn [of_opt rbind]; [|discriminate]. destruct (f a) as [a'|] eqn:F; cbn [rbind]; [|discriminate].
  intros H. injection H as <-. eauto.
Qed.

(** What replacing one asset, and adding an imbalance, does to the balance. *)
Lemma small_set s u a a' : small s -> i_assets s !! u = Some a -> a_min a' = a_min a -> (a_supply a <= U128MAX -> a_supply a' <= U128MAX) -> small (set_asset s u a').
Proof.
  intros H Ha E L u' x Hx. cbn in Hx. destruct (N.eq_dec u u') as [<-|Nu]; [rewrite lookup_insert in Hx|rewrite lookup_insert_ne in Hx by exact Nu; eauto].
  injection Hx as <-. rewrite E. destruct (H u a Ha). auto.
Qed.
Lemma balanced_set s u a a' p : balanced s -> i_assets s !! u = Some a ->
  (u <> NATIVE -> bals a' + outstanding Neg u p + a_supply a + outstanding Pos u (i_pool s) = bals a + outstanding Neg u (i_pool s) + a_supply a' + outstanding Pos u p) ->
  (forall u' g, u' <> u -> outstanding g u' p = outstanding g u' (i_pool s)) -> balanced (with_pool (set_asset s u a') p).
Proof.
  intros H Ha E Ho u' x Nn Hx. cbn [with_pool set_asset i_assets i_pool] in Hx |- *. destruct (N.eq_dec u u') as [<-|Nu]; [rewrite lookup_insert in Hx|rewrite lookup_insert_ne in Hx by exact Nu].
  - injection Hx as <-. pose proof (H u a Nn Ha). specialize (E Nn). lia.
  - rewrite !Ho by congruence. exact (H u' x Nn Hx).
Qed.
Lemma balanced_pool s p : balanced s -> (forall u g, outstanding g u p = outstanding g u (i_pool s)) -> balanced (with_pool s p).
Proof. intros H Ho u x Nn Hx. cbn [with_pool i_assets i_pool] in *. rewrite !Ho. exact (H u x Nn Hx). Qed.
Lemma set_pool s u a : with_pool (set_asset s u a) (i_pool s) = set_asset s u a.
Proof. reflexivity. Qed.

Lemma withdraw_ok s u who v keep s1 m : withdraw s u who v keep = Ok (s1, m) -> m = Imb Neg v u /\
  ((v = 0 /\ s1 = s) \/ (v <> 0 /\ exists a a' d, i_assets s !! u = Some a /\ decrease a who v keep = Ok (a', d) /\ s1 = set_asset s u a')).
Proof.
  unfold withdraw. destruct (N.eqb_spec v 0) as [E|E]; cbn [rbind].
  - intros H. injection H as <- <-. auto.
  - destruct (on_asset _ _ _) as [s'|] eqn:O; cbn [rbind]; [|discriminate]. intros H. injection H as <- <-. split; [reflexivity|]. right. split; [exact E|].
    destruct (on_asset_ok _ _ _ _ O) as (a & a' & Ha & Hf & ->). destruct (decrease a who v keep) as [[a1 d]|] eqn:D; cbn [rbind fst] in Hf; [|discriminate].
    injection Hf as <-. eauto 10.
Qed.
Lemma deposit_ok s u who v s1 m : deposit_existing s u who v = Ok (s1, m) -> m = Imb Pos v u /\
  ((v = 0 /\ s1 = s) \/ (v <> 0 /\ exists a a', i_assets s !! u = Some a /\ increase a who v = Ok a' /\ s1 = set_asset s u a')).
Proof.
  unfold deposit_existing. destruct (N.eqb_spec v 0) as [E|E].
  - intros H. injection H as <- <-. subst v. auto.
  - destruct (on_asset _ _ _) as [s'|] eqn:O; cbn [rbind]; [|discriminate]. intros H. injection H as <- <-. split; [reflexivity|]. right. split; [exact E|].
    destruct (on_asset_ok _ _ _ _ O) as (a & a' & Ha & Hf & ->). eauto 10.
Qed.
Lemma creating_ok s u who v : (deposit_existing s u who v = Ok (deposit_creating s u who v)) \/
  (is_ok (deposit_existing s u who v) = false /\ deposit_creating s u who v = (s, zero_imb Pos)).
Proof. unfold deposit_creating. destruct (deposit_existing s u who v) as [r|]; auto. Qed.
Lemma make_ok s u who v : (exists x, withdraw s u who x false = Ok (make_free s u who v)) \/ (exists x, make_free s u who v = deposit_creating s u who x) \/ make_free s u who v = (s, zero_imb Pos).
Proof.
  unfold make_free. cbv zeta. destruct (v <=? free_balance s u who).
  - destruct (withdraw s u who (free_balance s u who - v) false) as [r|] eqn:W; [left; eauto|]. destruct (_ <=? v); eauto.
  - destruct (_ <=? v); eauto.
Qed.

Definition good (s : ist) : Prop := small s /\ balanced s.
Lemma withdraw_good s u who v keep s1 m : good s -> withdraw s u who v keep = Ok (s1, m) -> good (add_imb s1 m).
Proof.
  intros [S B] H. destruct (withdraw_ok _ _ _ _ _ _ _ H) as (-> & [[-> ->]|(Nz & a & a' & d & Ha & D & ->)]).
  - split; [exact S|]. apply (balanced_pool s (Imb Neg 0 u :: i_pool s) B). intros u' g. rewrite out_cons. unfold counts. cbn. destruct (u =? u'), g; reflexivity.
  - destruct (decrease_ok _ _ _ _ _ _ (proj1 (S u a Ha)) D) as (-> & (b & ->) & E & _). split.
    + apply (small_set s u a (with_bal a b) S Ha); [reflexivity|trivial].
    + apply (balanced_set s u a (with_bal a b) (Imb Neg v u :: i_pool s) B Ha).
      * intros _. rewrite !out_cons. unfold counts. cbn [m_asset m_sign m_amt]. rewrite N.eqb_refl. cbn [with_bal a_supply]. lia.
      * intros u' g Nu. rewrite out_cons. unfold counts. cbn [m_asset]. rewrite (proj2 (N.eqb_neq u u')) by congruence. reflexivity.
Qed.
Lemma deposit_good s u who v s1 m : good s -> deposit_existing s u who v = Ok (s1, m) -> good (add_imb s1 m).
Proof.
  intros [S B] H. destruct (deposit_ok _ _ _ _ _ _ H) as (-> & [[-> ->]|(Nz & a & a' & Ha & D & ->)]).
  - split; [exact S|]. apply (balanced_pool s (Imb Pos 0 u :: i_pool s) B). intros u' g. rewrite out_cons. unfold counts. cbn. destruct (u =? u'), g; reflexivity.
  - destruct (increase_ok _ _ _ _ D) as ((b & ->) & E & _). split.
    + apply (small_set s u a (with_bal a b) S Ha); [reflexivity|trivial].
    + apply (balanced_set s u a (with_bal a b) (Imb Pos v u :: i_pool s) B Ha).
      * intros _. rewrite !out_cons. unfold counts. cbn [m_asset m_sign m_amt]. rewrite N.eqb_refl. cbn [with_bal a_supply]. lia.
      * intros u' g Nu. rewrite out_cons. unfold counts. cbn [m_asset]. rewrite (proj2 (N.eqb_neq u u')) by congruence. reflexivity.
Qed.
Lemma zero_good s g : good s -> good (add_imb s (zero_imb g)).
Proof.
  intros [S B]. split; [exact S|]. apply (balanced_pool s (zero_imb g :: i_pool s) B). intros u' g'. rewrite out_cons. unfold counts. cbn. destruct (0 =? u'), g, g'; reflexivity.
Qed.
Lemma creating_good s u who v : good s -> good (held s (deposit_creating s u who v)).
Proof.
  intros G. destruct (creating_ok s u who v) as [H|[_ ->]]; [|apply zero_good; exact G]. destruct (deposit_creating s u who v) as [s1 m]. exact (deposit_good s u who v s1 m G H).
Qed.
Lemma make_good s u who v : good s -> good (held s (make_free s u who v)).
Proof.
  intros G. destruct (make_ok s u who v) as [[x H]|[[x ->]| ->]]; [|apply creating_good; exact G|apply zero_good; exact G].
  destruct (make_free s u who v) as [s1 m]. exact (withdraw_good s u who x false s1 m G H).
Qed.

(** Dropping an imbalance that is no longer in the pool. *)
Definition drop_fits (s : ist) (m : imb) : Prop := forall a, m_asset m <> NATIVE -> i_assets s !! m_asset m = Some a ->
  match m_sign m with Pos => a_supply a + m_amt m <= U128MAX | Neg => m_amt m <= a_supply a end.
Lemma drop_good s m : good (add_imb s m) -> drop_fits s m -> good (drop_imb s m).
Proof.
  intros [S B] F. unfold drop_imb. destruct (N.eqb_spec (m_asset m) NATIVE) as [E|Nn].
  - split; [exact S|]. intros u a Nu Ha. cbn in Ha. pose proof (B u a Nu Ha) as H. cbn [add_imb i_pool] in H. rewrite !out_cons in H. unfold counts in H.
    rewrite (proj2 (N.eqb_neq (m_asset m) u)) in H by congruence. cbn [i_pool]. lia.
  - destruct (i_assets s !! m_asset m) as [a|] eqn:Ha.
    + split; [apply (small_set s _ a (with_supply a (squared m (a_supply a))) S Ha); [reflexivity|unfold squared, sat; cbn [with_supply a_supply]; destruct (m_sign m); lia]|]. intros u x Nu Hx. pose proof (B (m_asset m) a Nn Ha) as H. cbn [add_imb i_pool] in H. rewrite !out_cons in H. unfold counts in H. rewrite N.eqb_refl in H.
      cbn in Hx. destruct (N.eq_dec (m_asset m) u) as [Eu|Nu']; [rewrite Eu, lookup_insert in Hx|rewrite lookup_insert_ne in Hx by exact Nu'].
      * injection Hx as <-. rewrite Eu in H. cbn [set_asset i_pool with_supply a_supply]. change (bals (with_supply _ _)) with (bals a). specialize (F a Nn Ha). unfold squared, sat. destruct (m_sign m); lia.
      * pose proof (B u x Nu Hx) as H'. cbn [add_imb i_pool] in H'. rewrite !out_cons in H'. unfold counts in H'. rewrite (proj2 (N.eqb_neq _ _) Nu') in H'. cbn [set_asset i_pool]. lia.
    + split; [exact S|]. intros u x Nu Hx. pose proof (B u x Nu Hx) as H. cbn [add_imb i_pool] in H. rewrite !out_cons in H. unfold counts in H.
      rewrite (proj2 (N.eqb_neq (m_asset m) u)) in H by congruence. lia.
Qed.
Lemma good_taken s i m p : good s -> taken (i_pool s) i = Some (m, p) -> good (add_imb (with_pool s p) m).
Proof.
  intros [S B] T. split; [exact S|]. apply (balanced_pool s (m :: p) B). intros u g. rewrite out_cons. symmetry. exact (out_taken g u _ _ _ _ T).
Qed.

(** What has to hold for an operation to keep things right. *)
Definition op_fits (s : ist) (o : iop) : Prop :=
  match o with
  | IMerge i j => forall m p m' p', taken (i_pool s) i = Some (m, p) -> taken p j = Some (m', p') ->
      (m_amt m' = 0 \/ m_asset m' = m_asset m) /\ m_amt m + m_amt m' <= U128MAX
  | IOffset i j => forall m p m' p', taken (i_pool s) i = Some (m, p) -> taken p j = Some (m', p') -> m_amt m' = 0 \/ m_asset m' = m_asset m
  | IDrop i | IDropZero i => forall m p, taken (i_pool s) i = Some (m, p) -> drop_fits s m
  | _ => True
  end.
Lemma mint_good s u who v s' : good s -> mint s u who v = Ok s' -> good s'.
Proof.
  intros [S B] H. destruct (on_asset_ok _ _ _ _ H) as (a & a2 & Ha & Hf & ->). destruct (increase a who v) as [a1|] eqn:I; cbn [rbind] in Hf; [|discriminate]. injection Hf as <-.
  destruct (increase_ok _ _ _ _ I) as ((b & ->) & E & _ & _ & L). split; [eapply (small_set s u a _ S Ha); [reflexivity|]; cbn [with_supply with_bal a_supply]; destruct (N.eq_dec v 0) as [->|Nz]; [lia|intros _; exact (proj1 (L Nz))]|]. rewrite <- set_pool. apply (balanced_set s u a _ (i_pool s) B Ha); [|reflexivity].
  intros _. unfold with_supply, with_bal, bals in *. cbn [a_supply a_bal] in *. lia.
Qed.
Lemma burn_good s u who v s' : good s -> burn s u who v = Ok s' -> good s'.
Proof.
  intros [S B] H. destruct (on_asset_ok _ _ _ _ H) as (a & a2 & Ha & Hf & ->). destruct (decrease a who v false) as [[a1 d]|] eqn:I; cbn [rbind fst snd] in Hf; [|discriminate]. injection Hf as <-.
  destruct (decrease_ok _ _ _ _ _ _ (proj1 (S u a Ha)) I) as (-> & (b & ->) & E & _ & _ & L). split; [eapply (small_set s u a _ S Ha); [reflexivity|cbn [with_supply with_bal a_supply]; lia]|]. rewrite <- set_pool. apply (balanced_set s u a _ (i_pool s) B Ha); [|reflexivity].
  intros _. assert (v <= a_supply a) by (destruct (N.eq_dec v 0) as [->|Nz]; [lia|apply L; exact Nz]). unfold with_supply, with_bal, bals in *. cbn [a_supply a_bal] in *. lia.
Qed.
Lemma move_good s u from to v keep s' : good s -> move s u from to v keep = Ok s' -> good s'.
Proof.
  intros [S B] H. destruct (on_asset_ok _ _ _ _ H) as (a & a2 & Ha & Hf & ->). destruct (from =? to).
  - injection Hf as <-. split; [eapply (small_set s u a _ S Ha); [reflexivity|cbn [with_supply with_bal a_supply]; lia]|]. rewrite <- set_pool. apply (balanced_set s u a _ (i_pool s) B Ha); [lia|reflexivity].
  - destruct (decrease a from v keep) as [[a1 d]|] eqn:I; cbn [rbind fst] in Hf; [|discriminate]. destruct (decrease_ok _ _ _ _ _ _ (proj1 (S u a Ha)) I) as (-> & (b & ->) & E & _).
    destruct (increase_ok _ _ _ _ Hf) as ((b' & ->) & E' & _). split; [eapply (small_set s u a _ S Ha); [reflexivity|cbn [with_supply with_bal a_supply]; lia]|]. rewrite <- set_pool. apply (balanced_set s u a _ (i_pool s) B Ha); [|reflexivity].
    intros _. unfold with_bal, bals in *. cbn [a_supply a_bal] in *. lia.
Qed.
Lemma commit_good s r : good s -> (forall s', r = Ok s' -> good s') -> good (commit s r).
Proof. intros G H. destruct r; cbn; auto. Qed.
Lemma istep_good s o : good s -> op_fits s o -> good (istep s o).
Proof.
  intros G F. destruct o as [u who v|u who v|u from to v keep|u who v keep|u who v|u who v|u who v|g|i v|i j|i j|i|i]; cbn [istep].
  - apply commit_good; [exact G|]. intros s'. apply mint_good. exact G.
  - apply commit_good; [exact G|]. intros s'. apply burn_good. exact G.
  - apply commit_good; [exact G|]. intros s'. apply move_good. exact G.
  - destruct (withdraw s u who v keep) as [[s1 m]|] eqn:W; [|exact G]. exact (withdraw_good _ _ _ _ _ _ _ G W).
  - destruct (deposit_existing s u who v) as [[s1 m]|] eqn:W; [|exact G]. exact (deposit_good _ _ _ _ _ _ G W).
  - apply creating_good. exact G.
  - apply make_good. exact G.
  - apply zero_good. exact G.
  - destruct (taken (i_pool s) i) as [[m p]|] eqn:T; [|exact G]. destruct G as [S B]. split; [exact S|]. apply (balanced_pool s _ B). intros u g. rewrite !out_cons, (out_taken g u _ _ _ _ T).
    unfold counts, split_imb. cbn [fst snd m_asset m_amt m_sign]. destruct (m_asset m =? u), g, (m_sign m); lia.
  - destruct (taken (i_pool s) i) as [[m p]|] eqn:T; [|exact G]. destruct (taken p j) as [[m' p']|] eqn:T'; [|exact G]. destruct (F m p m' p' T T') as [Fa Fs].
    assert (K : m_sign m = m_sign m' -> good (with_pool s (merge_imb m m' :: p'))).
    { intros Es. destruct G as [S B]. split; [exact S|]. apply (balanced_pool s _ B). intros u g. rewrite !out_cons, (out_taken g u _ _ _ _ T), (out_taken g u _ _ _ _ T').
      unfold counts, merge_imb, sat. cbn [m_asset m_amt m_sign]. rewrite <- Es. destruct Fa as [Fa|Fa]; rewrite ?Fa; [|destruct (m_asset m =? u), g, (m_sign m); lia].
      destruct (m_asset m =? u), (m_asset m' =? u), g, (m_sign m); lia. }
    destruct (m_sign m), (m_sign m'); try exact G; apply K; reflexivity.
  - destruct (taken (i_pool s) i) as [[m p]|] eqn:T; [|exact G]. destruct (taken p j) as [[m' p']|] eqn:T'; [|exact G]. pose proof (F m p m' p' T T') as Fa.
    assert (K : m_sign m' = opposite (m_sign m) -> good (with_pool s (offset_imb m m' :: p'))).
    { intros Es. destruct G as [S B]. split; [exact S|]. intros u a Nu Ha. pose proof (B u a Nu Ha) as E. rewrite (out_taken Neg u _ _ _ _ T), (out_taken Neg u _ _ _ _ T'), (out_taken Pos u _ _ _ _ T), (out_taken Pos u _ _ _ _ T') in E.
      cbn [with_pool i_pool]. rewrite !out_cons. revert E. unfold counts, offset_imb. cbv zeta. destruct (N.leb_spec (m_amt m') (m_amt m)); cbn [m_asset m_amt m_sign]; rewrite Es;
      (destruct Fa as [Fa|Fa]; rewrite ?Fa; destruct (m_asset m =? u), (m_asset m' =? u), (m_sign m); cbn [opposite]; lia). }
    destruct (m_sign m), (m_sign m'); try exact G; apply K; reflexivity.
  - destruct (taken (i_pool s) i) as [[m p]|] eqn:T; [|exact G]. apply drop_good; [exact (good_taken s i m p G T)|]. exact (F m p T).
  - destruct (taken (i_pool s) i) as [[m p]|] eqn:T; [|exact G]. unfold drop_zero. destruct (_ || _); [|exact G]. apply drop_good; [exact (good_taken s i m p G T)|]. exact (F m p T).
Qed.
