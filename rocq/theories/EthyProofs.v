(** Sorted id vectors, pruning and the replay protection of the Ethereum bridge. *)
From Coq Require Export Sorted.
From Verif Require Export EthyModel.

Definition SS (l : list N) : Prop := StronglySorted N.lt l.
Definition below (l : list N) (x : N) : Prop := match l with [] => False | h :: _ => x < h end.
Definition above (l : list N) (x : N) : Prop := match l with [] => False | h :: _ => h <= x end.

Lemma memb_in x l : memb x l = true <-> In x l.
Proof.
  unfold memb. rewrite existsb_exists. split.
  - intros (y & Hy & E). apply N.eqb_eq in E. subst. exact Hy.
  - intros Hx. exists x. split; [exact Hx|apply N.eqb_refl].
Qed.
Lemma memb_false x l : memb x l = false <-> ~ In x l.
Proof. rewrite <- memb_in. destruct (memb x l); split; congruence. Qed.

Lemma SS_cons x l : SS (x :: l) <-> SS l /\ forall y, In y l -> x < y.
Proof.
  unfold SS. split.
  - intros Hs. inversion Hs as [|? ? H1 H2]; subst. split; [exact H1|]. rewrite List.Forall_forall in H2. exact H2.
  - intros [H1 H2]. constructor; [exact H1|]. apply List.Forall_forall. exact H2.
Qed.
Lemma SS_above l x : SS l -> In x l -> above l x.
Proof. destruct l as [|h l]; cbn; [tauto|]. intros Hs [->|Hx]; [lia|]. apply SS_cons in Hs. destruct Hs as [_ Hs]. specialize (Hs _ Hx). lia. Qed.
Lemma below_not_in l x : SS l -> below l x -> ~ In x l.
Proof. intros Hs Hb Hin. apply (SS_above _ _ Hs) in Hin. destruct l; cbn in *; [tauto|lia]. Qed.
Lemma SS_app l1 l2 : SS (l1 ++ l2) <-> SS l1 /\ SS l2 /\ forall x y, In x l1 -> In y l2 -> x < y.
Proof.
  induction l1 as [|a l1 IH]; cbn.
  - split; [intros Hs; repeat split; [constructor|exact Hs|tauto]|tauto].
  - rewrite !SS_cons, IH. split.
    + intros [(H1 & H2 & H3) H4]. repeat split; auto.
      * intros y Hy. apply H4. apply in_or_app. auto.
      * intros x y [->|Hx] Hy; [apply H4; apply in_or_app; auto|auto].
    + intros ((H1 & H4) & H2 & H3). repeat split; auto.
      intros y Hy. apply in_app_or in Hy. destruct Hy; auto.
Qed.

Lemma ins_in x y l : In y (ins_id x l) <-> y = x \/ In y l.
Proof.
  induction l as [|z l IH]; cbn; [intuition|].
  destruct (N.eqb_spec x z) as [->|Hne]; cbn; [intuition|].
  destruct (x <? z); cbn; [intuition|]. rewrite IH. intuition.
Qed.
Lemma ins_SS x l : SS l -> SS (ins_id x l).
Proof.
  induction l as [|z l IH]; cbn; intros Hs; [repeat constructor|].
  destruct (N.eqb_spec x z) as [->|Hne]; [exact Hs|].
  pose proof Hs as Hs0. apply SS_cons in Hs. destruct Hs as [Hs Hz].
  destruct (N.ltb_spec x z) as [Hlt|Hle]; apply SS_cons.
  - split; [exact Hs0|]. intros y [<-|Hy]; [exact Hlt|]. specialize (Hz _ Hy). lia.
  - split; [apply IH; exact Hs|]. intros y Hy. apply ins_in in Hy. destruct Hy as [->|Hy]; [lia|auto].
Qed.
Lemma ins_nonempty x l : ins_id x l <> [].
Proof. destruct l as [|z l]; cbn; [discriminate|]. destruct (x =? z); [discriminate|]. destruct (x <? z); discriminate. Qed.
Lemma ins_hd x l : l <> [] -> above l x -> forall y, below (ins_id x l) y <-> below l y.
Proof.
  destruct l as [|z l]; cbn; [congruence|]. intros _ Hz y.
  destruct (N.eqb_spec x z) as [->|Hne]; cbn; [tauto|].
  destruct (N.ltb_spec x z); cbn; [lia|tauto].
Qed.
Lemma del_in x y l : In y (del_id x l) <-> In y l /\ y <> x.
Proof. unfold del_id. rewrite filter_In. destruct (N.eqb_spec y x); cbn; intuition congruence. Qed.
Lemma filter_SS f l : SS l -> SS (List.filter f l).
Proof.
  induction l as [|x l IH]; cbn; intros Hs; [exact Hs|]. apply SS_cons in Hs. destruct Hs as [Hs Hx].
  destruct (f x); [|auto]. apply SS_cons. split; [auto|]. intros y Hy. apply filter_In in Hy. apply Hx. tauto.
Qed.

Lemma range_in n : forall a x, In x (rangeN a n) <-> a <= x < a + N.of_nat n.
Proof.
  induction n as [|n IH]; intros a x; cbn [rangeN In]; [lia|]. rewrite IH. lia.
Qed.

Lemma fold_ins_spec rem : forall l ms,
  SS ms ->
  let ms' := fold_left (fun m id => if memb id rem then m else ins_id id m) l ms in
  SS ms' /\ forall x, In x ms' <-> In x ms \/ (In x l /\ ~ In x rem).
Proof.
  induction l as [|a l IH]; cbn; intros ms Hs; [split; [exact Hs|tauto]|].
  destruct (memb a rem) eqn:Em.
  - destruct (IH ms Hs) as [H1 H2]. split; [exact H1|]. intros x. rewrite H2. apply memb_in in Em.
    split; [tauto|]. intros [H|[[<-|H] Hn]]; tauto.
  - destruct (IH (ins_id a ms) (ins_SS a ms Hs)) as [H1 H2]. split; [exact H1|]. intros x. rewrite H2, ins_in.
    apply memb_false in Em. split.
    + intros [[->|H]|[H Hn]]; tauto.
    + intros [H|[[<-|H] Hn]]; tauto.
Qed.

Lemma drop_contig_spec l : SS l ->
  exists pre, l = pre ++ drop_contig l /\ (l <> [] -> drop_contig l <> []) /\
    forall x, above l x -> below (drop_contig l) x -> In x pre.
Proof.
  induction l as [|a l IH]; intros Hs; [exists []; cbn; split; [reflexivity|split; [congruence|tauto]]|].
  destruct l as [|b l].
  - exists []. cbn. split; [reflexivity|]. split; [congruence|lia].
  - change (drop_contig (a :: b :: l)) with (if b =? a + 1 then drop_contig (b :: l) else a :: b :: l).
    destruct (N.eqb_spec b (a + 1)) as [Eb|Hne].
    + pose proof Hs as Hs0. apply SS_cons in Hs. destruct Hs as [Hs Ha]. destruct (IH Hs) as (pre & E & Hn & Hx).
      exists (a :: pre). split; [cbn; f_equal; exact E|]. split; [intros _; apply Hn; discriminate|].
      intros x Hax Hb. cbn [above] in Hax. cbn [In]. destruct (N.eq_dec a x) as [|Hne]; [left; assumption|right].
      apply Hx; [cbn [above]; lia|exact Hb].
    + exists []. cbn [app above below]. split; [reflexivity|]. split; [congruence|intros x; lia].
Qed.

(** What pruning does to the two vectors. *)
Lemma prune_spec mx ids ms : (1 <= mx)%nat -> SS ids -> SS ms -> ids <> [] ->
  let r := prune mx ids ms in
  SS (fst r) /\ SS (snd r) /\ fst r <> [] /\ (length (fst r) <= Nat.max 1 mx)%nat /\
  (forall x, In x (fst r) -> In x ids) /\
  (forall x, In x ids -> In x (fst r) \/ below (fst r) x) /\
  (forall x, above (fst r) x -> above ids x) /\
  (forall x, In x ms -> In x (snd r)) /\
  (forall x, In x (snd r) -> In x ms \/ (~ In x ids /\ above ids x /\ below (fst r) x)) /\
  (forall x, above ids x -> below (fst r) x -> In x ids \/ In x (snd r)).
Proof.
  intros Hmx Hs Hm Hne. unfold prune. destruct (Nat.leb_spec (length ids) 1) as [Hl|Hl]; cbn [fst snd].
  - split; [exact Hs|]. split; [exact Hm|]. split; [exact Hne|]. split; [lia|]. repeat (split; [tauto|]).
    intros x Ha Hb. destruct ids; cbn in *; [tauto|lia].
  - set (k := (length ids - mx)%nat). set (rem := firstn k ids). set (rest := skipn k ids).
    assert (Eids : ids = rem ++ rest) by (symmetry; apply firstn_skipn).
    assert (Hrest : rest <> []).
    { intros E. assert (length rest = 0)%nat by (rewrite E; reflexivity). unfold rest in H. rewrite skipn_length in H. unfold k in H. lia. }
    assert (Hlen : (length rest <= mx)%nat) by (unfold rest; rewrite skipn_length; unfold k; lia).
    clearbody rem rest. clear Hl.
    pose proof Hs as Hs0. rewrite Eids in Hs0. apply SS_app in Hs0. destruct Hs0 as (Hs1 & Hs2 & Hlt).
    destruct (drop_contig_spec rest Hs2) as (pre & Erest & Hnd & Hcont).
    set (d := drop_contig rest) in *. specialize (Hnd Hrest). clearbody d.
    pose proof Hs2 as Hs3. rewrite Erest in Hs3. apply SS_app in Hs3. destruct Hs3 as (Hs4 & Hs5 & Hlt2).
    assert (Hpd : forall x, In x pre -> below d x).
    { intros x Hx. destruct d as [|h d1]; [congruence|]. cbn. apply Hlt2; [exact Hx|left; reflexivity]. }
    assert (Hrd : forall x, In x rem -> below d x).
    { intros x Hx. destruct d as [|h d1] eqn:Ed; [congruence|]. cbn. apply Hlt; [exact Hx|].
      rewrite Erest. apply in_or_app. right. left. reflexivity. }
    set (ms' := match rem, rest with r0 :: _, c0 :: _ => fold_left (fun m id => if memb id rem then m else ins_id id m) (rangeN r0 (N.to_nat (c0 - r0))) ms | _, _ => ms end).
    assert (Hms : SS ms' /\ forall x, In x ms' <-> In x ms \/ (~ In x rem /\ above rem x /\ below rest x)).
    { unfold ms'. destruct rem as [|r0 rem'] eqn:Er; [cbn; split; [exact Hm|tauto]|].
      destruct rest as [|c0 rest'] eqn:Ec; [congruence|].
      destruct (fold_ins_spec (r0 :: rem') (rangeN r0 (N.to_nat (c0 - r0))) ms Hm) as [H1 H2].
      split; [exact H1|]. intros x. rewrite H2, range_in. cbn [above below].
      assert (r0 < c0) by (apply Hlt; left; reflexivity). intuition lia. }
    destruct Hms as [Hms1 Hms2].
    assert (Habove : forall x, above ids x <-> above rem x \/ (rem = [] /\ above rest x)).
    { intros x. rewrite Eids. destruct rem; cbn; [tauto|intuition congruence]. }
    assert (Hdrest : forall x, above d x -> above rest x).
    { intros x Hx. destruct rest as [|c0 rest']; [congruence|]. cbn.
      destruct pre as [|p0 pre'].
      - cbn in Erest. rewrite <- Erest in Hx. exact Hx.
      - cbn in Erest. injection Erest as E1 E2. destruct d as [|h d']; [congruence|]. cbn in Hx.
        assert (p0 < h) by (apply Hlt2; left; reflexivity). lia. }
    assert (Hbelow : forall x, below rest x -> below d x).
    { intros x Hx. destruct (N.lt_ge_cases x (hd 0 d)) as [Hl2|Hl2].
      - destruct d; [congruence|exact Hl2].
      - exfalso. assert (Ha : above d x) by (destruct d; [congruence|exact Hl2]). apply Hdrest in Ha.
        destruct rest; cbn in *; [tauto|lia]. }
    split; [exact Hs5|]. split; [exact Hms1|]. split; [exact Hnd|].
    split. { assert (length rest = length pre + length d)%nat by (rewrite Erest at 1; apply app_length). lia. }
    split. { intros x Hx. rewrite Eids, Erest. apply in_or_app. right. apply in_or_app. right. exact Hx. }
    split. { intros x Hx. rewrite Eids in Hx. apply in_app_or in Hx. destruct Hx as [Hx|Hx]; [right; apply Hrd; exact Hx|].
      rewrite Erest in Hx. apply in_app_or in Hx. destruct Hx as [Hx|Hx]; [right; apply Hpd; exact Hx|left; exact Hx]. }
    split. { intros x Hx. apply Habove. destruct rem as [|r0 rem'] eqn:Er; [right; split; [reflexivity|apply Hdrest; exact Hx]|left].
      apply Hdrest in Hx. destruct rest as [|c0 rest']; [congruence|]. cbn in Hx |- *.
      assert (r0 < c0) by (apply Hlt; left; reflexivity). lia. }
    split. { intros x Hx. apply Hms2. left. exact Hx. }
    split. { intros x Hx. apply Hms2 in Hx. destruct Hx as [Hx|(H1 & H2 & H3)]; [left; exact Hx|right].
      split. { rewrite Eids. intros Hin. apply in_app_or in Hin. destruct Hin as [Hin|Hin]; [tauto|].
               apply (below_not_in rest x Hs2 H3 Hin). }
      split; [apply Habove; left; exact H2|apply Hbelow; exact H3]. }
    intros x Ha Hb. apply Habove in Ha. destruct (N.lt_ge_cases x (hd 0 rest)) as [Hl2|Hl2].
    + assert (Hb2 : below rest x) by (destruct rest; [congruence|exact Hl2]).
      destruct Ha as [Ha|[_ Ha]]; [|destruct rest; cbn in *; [tauto|lia]].
      destruct (in_dec N.eq_dec x rem) as [Hin|Hin]; [left; rewrite Eids; apply in_or_app; left; exact Hin|].
      right. apply Hms2. right. tauto.
    + assert (Ha2 : above rest x) by (destruct rest; [congruence|exact Hl2]).
      left. rewrite Eids, Erest. apply in_or_app. right. apply in_or_app. left. apply Hcont; assumption.
Qed.
Lemma prune_id_short mx ids ms : (length (fst (prune mx ids ms)) <= mx)%nat -> firstn mx (fst (prune mx ids ms)) = fst (prune mx ids ms).
Proof. intros H. apply firstn_all2. exact H. Qed.
