(** Lemmas about walking over raw storage while writing to it. *)
From Verif Require Export NfiMigModel.

(** ** The order of keys *)
Lemma lex_irrefl a : lexlt a a = false.
Proof. induction a as [|x a IH]; [reflexivity|]. cbn. rewrite N.ltb_irrefl. exact IH. Qed.
Lemma lex_trans a b c : lexlt a b = true -> lexlt b c = true -> lexlt a c = true.
Proof.
  revert b c. induction a as [|x a IH]; intros [|y b] [|z c] H1 H2; try discriminate; try reflexivity. cbn in *.
  destruct (N.ltb_spec x y), (N.ltb_spec y x), (N.ltb_spec y z), (N.ltb_spec z y), (N.ltb_spec x z), (N.ltb_spec z x); try discriminate; try reflexivity; try lia.
  exact (IH b c H1 H2).
Qed.
Lemma lex_total a b : lexlt a b = false -> lexlt b a = false -> a = b.
Proof.
  revert b. induction a as [|x a IH]; intros [|y b] H1 H2; try discriminate; try reflexivity. cbn in *.
  destruct (N.ltb_spec x y), (N.ltb_spec y x); try discriminate; try lia. f_equal; [lia|exact (IH b H1 H2)].
Qed.
Lemma lex_asym a b : lexlt a b = true -> lexlt b a = false.
Proof. intros H. destruct (lexlt b a) eqn:E; [|reflexivity]. rewrite <- (lex_irrefl a). symmetry. exact (lex_trans a b a H E). Qed.

Lemma least_none p l k : least p l = None -> List.In k l -> lexlt p k = false.
Proof.
  induction l as [|z l IH]; intros H Hk; [destruct Hk|]. cbn [least] in H. cbv zeta in H. destruct (lexlt p z) eqn:E.
  - destruct (least p l) as [r|]; [destruct (lexlt r z)|]; discriminate.
  - destruct Hk as [->|Hk]; [exact E|exact (IH H Hk)].
Qed.
Lemma least_some p l k : least p l = Some k -> List.In k l /\ lexlt p k = true /\ forall k', List.In k' l -> lexlt p k' = true -> lexlt k' k = false.
Proof.
  revert k. induction l as [|x l IH]; intros k H; [discriminate|]. cbn [least] in H. cbv zeta in H.
  destruct (lexlt p x) eqn:Ex.
  - destruct (least p l) as [y|] eqn:Ey.
    + destruct (IH y eq_refl) as (I1 & I2 & I3). destruct (lexlt y x) eqn:E; injection H as <-.
      * split; [right; exact I1|]. split; [exact I2|]. intros k' [<-|Hk] Hp; [apply lex_asym; exact E|exact (I3 k' Hk Hp)].
      * split; [left; reflexivity|]. split; [exact Ex|]. intros k' [<-|Hk] Hp; [apply lex_irrefl|].
        destruct (lexlt k' x) eqn:E'; [|reflexivity]. specialize (I3 k' Hk Hp). destruct (lexlt y k') eqn:E2.
        -- rewrite (lex_trans y k' x E2 E') in E. discriminate.
        -- pose proof (lex_total y k' E2 I3). subst. congruence.
    + injection H as <-. split; [left; reflexivity|]. split; [exact Ex|]. intros k' [<-|Hk] Hp; [apply lex_irrefl|].
      rewrite (least_none p l k' Ey Hk) in Hp. discriminate.
  - destruct (IH k H) as (I1 & I2 & I3). split; [right; exact I1|]. split; [exact I2|]. intros k' [<-|Hk] Hp; [congruence|exact (I3 k' Hk Hp)].
Qed.
Lemma next_some {V} (m : gmap raw V) p k : next_key m p = Some k ->
  is_Some (m !! k) /\ lexlt p k = true /\ forall k', is_Some (m !! k') -> lexlt p k' = true -> lexlt k' k = false.
Proof.
  intros H. apply least_some in H. destruct H as (H1 & H2 & H3). split.
  - apply in_map_iff in H1. destruct H1 as ((k0 & v) & <- & Hv). apply elem_of_list_In, elem_of_map_to_list in Hv. eauto.
  - split; [exact H2|]. intros k' [v Hv] Hp. apply H3; [|exact Hp]. apply in_map_iff. exists (k', v). split; [reflexivity|]. apply elem_of_list_In, elem_of_map_to_list. exact Hv.
Qed.
Lemma next_none {V} (m : gmap raw V) p k : next_key m p = None -> is_Some (m !! k) -> lexlt p k = false.
Proof.
  intros H [v Hv]. apply (least_none p _ k H). apply in_map_iff. exists (k, v). split; [reflexivity|]. apply elem_of_list_In, elem_of_map_to_list. exact Hv.
Qed.

(** ** Walking *)
Section walk.
  Context {A V : Type}.
  Variables (read : raw -> option A) (new old : A -> raw) (good : A -> Prop) (spur : A).
  Hypothesis read_old : forall a, good a -> read (old a) = Some a.
  Hypothesis read_new : forall a, good a -> read (new a) = None \/ read (new a) = Some spur.
  Hypothesis spur_good : good spur.
  Hypothesis new_inj : forall a b, good a -> good b -> new a = new b -> a = b.
  Hypothesis old_nonempty : forall a, lexlt [] (old a) = true.
  Hypothesis disjoint : forall a b, new a <> old b.

  Definition all_old (m : gmap raw V) : Prop := forall k, is_Some (m !! k) -> exists a, good a /\ k = old a.
  Definition at_most (p k : raw) : bool := negb (lexlt p k).
  (** After the keys up to [p]. *)
  Record wbetween (m0 m : gmap raw V) (p : raw) : Prop := {
    wb_old : forall a, m !! old a = m0 !! old a;
    wb_new : forall a, good a -> a <> spur -> m !! new a = if at_most p (old a) then m0 !! old a else None;
    wb_dom : forall k, is_Some (m !! k) -> (exists a, good a /\ k = old a /\ is_Some (m0 !! k)) \/ (exists a, good a /\ k = new a /\ (a = spur \/ is_Some (m0 !! old a)));
    wb_spur : forall v, m !! new spur = Some v -> exists a, good a /\ m0 !! old a = Some v;
    wb_val : forall a v, good a -> m !! new a = Some v -> exists b, good b /\ m0 !! old b = Some v }.
  Lemma walk_step m0 m p k : all_old m0 -> wbetween m0 m p -> next_key m p = Some k ->
    wbetween m0 (match read k, m !! k with Some a, Some v => <[new a := v]> m | _, _ => m end) k.
  Proof.
    intros H0 W Hk. apply next_some in Hk. destruct Hk as ([v Ev] & Hp & Hmin).
    assert (Step : forall a, good a -> is_Some (m0 !! old a) -> at_most k (old a) = (if decide (old a = k) then true else at_most p (old a))).
    { intros a Ga Ha. unfold at_most. destruct (decide (old a = k)) as [->|Ne]; [rewrite lex_irrefl; reflexivity|]. f_equal.
      destruct (lexlt p (old a)) eqn:E.
      - rewrite <- (wb_old _ _ _ W) in Ha. specialize (Hmin _ Ha E). destruct (lexlt k (old a)) eqn:E2; [reflexivity|]. exfalso. apply Ne. symmetry. exact (lex_total _ _ E2 Hmin).
      - destruct (lexlt k (old a)) eqn:E2; [|reflexivity]. rewrite (lex_trans _ _ _ Hp E2) in E. discriminate. }
    rewrite Ev. destruct (wb_dom _ _ _ W k (mk_is_Some _ _ Ev)) as [(a & Ga & -> & Ha)|(a & Ga & -> & Ha)].
    - rewrite read_old by exact Ga. rewrite (wb_old _ _ _ W) in Ev. split.
      + intros b. rewrite lookup_insert_ne by apply disjoint. apply W.
      + intros b Gb Nb. destruct (decide (new b = new a)) as [E|Ne].
        * apply (new_inj _ _ Gb Ga) in E. subst b. rewrite lookup_insert, Step by assumption. destruct (decide _); [symmetry; exact Ev|congruence].
        * rewrite lookup_insert_ne by congruence. rewrite (wb_new _ _ _ W b Gb Nb).
          destruct (m0 !! old b) as [vb|] eqn:Eb; [|destruct (at_most _ _), (at_most _ _); reflexivity].
          rewrite Step by eauto. destruct (decide (old b = old a)) as [E|]; [|reflexivity]. exfalso. apply Ne.
          apply (f_equal read) in E. rewrite !read_old in E by assumption. congruence.
      + intros k' Hk'. destruct (decide (k' = new a)) as [->|Ne]; [right; exists a; eauto|]. rewrite lookup_insert_ne in Hk' by congruence. exact (wb_dom _ _ _ W k' Hk').
      + intros w Hw. destruct (decide (new a = new spur)) as [E|Ne]; [rewrite <- E, lookup_insert in Hw; injection Hw as <-; eauto|]. rewrite lookup_insert_ne in Hw by congruence. exact (wb_spur _ _ _ W w Hw).
      + intros b w Gb Hw. destruct (decide (new a = new b)) as [E|Ne]; [rewrite <- E, lookup_insert in Hw; injection Hw as <-; eauto|]. rewrite lookup_insert_ne in Hw by congruence. exact (wb_val _ _ _ W b w Gb Hw).
    - assert (Step' : forall b, good b -> b <> spur -> m !! new b = if at_most (new a) (old b) then m0 !! old b else None).
      { intros b Gb Nb. rewrite (wb_new _ _ _ W b Gb Nb). destruct (m0 !! old b) as [vb|] eqn:Eb; [|destruct (at_most _ _), (at_most _ _); reflexivity].
        rewrite Step by eauto. destruct (decide (old b = new a)) as [E|]; [|reflexivity]. exfalso. exact (disjoint a b (eq_sym E)). }
      destruct (read_new a Ga) as [->| ->].
      + split; [apply W|exact Step'|apply W|apply W|apply W].
      + split.
        * intros b. rewrite lookup_insert_ne by apply disjoint. apply W.
        * intros b Gb Nb. rewrite lookup_insert_ne by (intros X; apply Nb; symmetry; exact (new_inj _ _ spur_good Gb X)). exact (Step' b Gb Nb).
        * intros k' Hk'. destruct (decide (k' = new spur)) as [->|Ne]; [right; exists spur; eauto|]. rewrite lookup_insert_ne in Hk' by congruence. exact (wb_dom _ _ _ W k' Hk').
        * intros w Hw. rewrite lookup_insert in Hw. injection Hw as <-. exact (wb_val _ _ _ W a v Ga Ev).
        * intros b w Gb Hw. destruct (decide (new spur = new b)) as [E|Ne]; [rewrite <- E, lookup_insert in Hw; injection Hw as <-; exact (wb_val _ _ _ W a v Ga Ev)|]. rewrite lookup_insert_ne in Hw by congruence. exact (wb_val _ _ _ W b w Gb Hw).
  Qed.
  Lemma walk_result m0 fuel m p m' : all_old m0 -> wbetween m0 m p -> walk read new fuel m p = Some m' ->
    (forall a, m' !! old a = m0 !! old a) /\ (forall a, good a -> a <> spur -> m' !! new a = m0 !! old a) /\
    (forall k, is_Some (m' !! k) -> (exists a, good a /\ k = old a) \/ (exists a, good a /\ k = new a)) /\
    (forall v, m' !! new spur = Some v -> exists a, good a /\ m0 !! old a = Some v).
  Proof.
    intros H0. revert m p. induction fuel as [|fuel IH]; intros m p W H; cbn [walk] in H; destruct (next_key m p) as [k|] eqn:E; try discriminate.
    1,3: injection H as <-; split; [apply W|]; split; [|split; [|apply W]].
    - intros a Ga Na. rewrite (wb_new _ _ _ W a Ga Na). destruct (m0 !! old a) as [v|] eqn:Ea; [|destruct (at_most _ _); reflexivity].
      unfold at_most. rewrite (next_none m p (old a) E); [reflexivity|]. rewrite (wb_old _ _ _ W). eauto.
    - intros k Hk. destruct (wb_dom _ _ _ W k Hk) as [(a & Ga & -> & _)|(a & Ga & -> & _)]; eauto.
    - intros a Ga Na. rewrite (wb_new _ _ _ W a Ga Na). destruct (m0 !! old a) as [v|] eqn:Ea; [|destruct (at_most _ _); reflexivity].
      unfold at_most. rewrite (next_none m p (old a) E); [reflexivity|]. rewrite (wb_old _ _ _ W). eauto.
    - intros k Hk. destruct (wb_dom _ _ _ W k Hk) as [(a & Ga & -> & _)|(a & Ga & -> & _)]; eauto.
    - cbv zeta in H. exact (IH _ _ (walk_step m0 m p k H0 W E) H).
  Qed.
  Lemma wbetween_start m0 : all_old m0 -> wbetween m0 m0 [].
  Proof.
    intros H0. assert (N : forall a, m0 !! new a = None).
    { intros a. destruct (m0 !! new a) eqn:E; [|reflexivity]. destruct (H0 _ (mk_is_Some _ _ E)) as (b & _ & X). exfalso. exact (disjoint a b X). }
    split; try reflexivity.
    - intros a _ _. unfold at_most. rewrite old_nonempty. apply N.
    - intros k Hk. left. destruct (H0 k Hk) as (a & Ga & ->). eauto.
    - intros v H. rewrite N in H. discriminate.
    - intros a v _ H. rewrite N in H. discriminate.
  Qed.

  (** It ends: the keys passed are among the old ones, their new ones and one more. *)
  Definition universe (m0 : gmap raw V) : list raw :=
    map fst (map_to_list m0) ++ new spur :: flat_map (fun k => match read k with Some a => [new a] | None => [] end) (map fst (map_to_list m0)).
  Lemma universe_old (m0 : gmap raw V) k : is_Some (m0 !! k) -> List.In k (map fst (map_to_list m0)).
  Proof. intros [v Hv]. apply in_map_iff. exists (k, v). split; [reflexivity|]. apply elem_of_list_In, elem_of_map_to_list. exact Hv. Qed.
  Lemma universe_dom m0 m p k : wbetween m0 m p -> is_Some (m !! k) -> List.In k (universe m0).
  Proof.
    intros W Hk. unfold universe. rewrite in_app_iff. destruct (wb_dom _ _ _ W k Hk) as [(a & Ga & -> & Ha)|(a & Ga & -> & [->|Ha])].
    - left. exact (universe_old m0 _ Ha).
    - right. left. reflexivity.
    - right. right. apply in_flat_map. exists (old a). split; [exact (universe_old m0 _ Ha)|]. rewrite read_old by exact Ga. left. reflexivity.
  Qed.
  Definition above (p : raw) (l : list raw) : nat := length (List.filter (lexlt p) l).
  Lemma above_less p k l : lexlt p k = true -> List.In k l -> (above k l < above p l)%nat.
  Proof.
    unfold above. intros Hp. assert (L : forall l, (length (List.filter (lexlt k) l) <= length (List.filter (lexlt p) l))%nat).
    { induction l0 as [|x l0 IH]; [cbn; lia|]. cbn. destruct (lexlt k x) eqn:E; [rewrite (lex_trans p k x Hp E); cbn; lia|]. destruct (lexlt p x); cbn; lia. }
    induction l as [|x l IH]; intros Hk; [destruct Hk|]. cbn. destruct Hk as [->|Hk].
    - rewrite lex_irrefl, Hp. cbn. specialize (L l). lia.
    - specialize (IH Hk). destruct (lexlt k x) eqn:E; [rewrite (lex_trans p k x Hp E); cbn; lia|]. destruct (lexlt p x); cbn; lia.
  Qed.
  Lemma walk_ends m0 fuel m p : all_old m0 -> wbetween m0 m p -> (above p (universe m0) <= fuel)%nat -> exists m', walk read new fuel m p = Some m'.
  Proof.
    intros H0. revert m p. induction fuel as [|fuel IH]; intros m p W L; cbn [walk]; destruct (next_key m p) as [k|] eqn:E; try (eexists; reflexivity).
    - exfalso. pose proof (next_some m p k E) as (Hk & Hp & _). pose proof (above_less p k (universe m0) Hp (universe_dom _ _ _ _ W Hk)). lia.
    - cbv zeta. apply IH; [exact (walk_step m0 m p k H0 W E)|]. pose proof (next_some m p k E) as (Hk & Hp & _).
      pose proof (above_less p k (universe m0) Hp (universe_dom _ _ _ _ W Hk)). lia.
  Qed.
  Lemma universe_length m0 : all_old m0 -> (length (universe m0) <= 2 * size m0 + 1)%nat.
  Proof.
    intros _. unfold universe. rewrite app_length. cbn [length].
    assert (L : (length (map fst (map_to_list m0)) = size m0)%nat) by (rewrite map_length; reflexivity).
    assert (F : forall l : list raw, (length (flat_map (fun k => match read k with Some a => [new a] | None => [] end) l) <= length l)%nat).
    { induction l as [|x l IH]; [cbn; lia|]. cbn. rewrite app_length. destruct (read x); cbn; lia. }
    specialize (F (map fst (map_to_list m0))). lia.
  Qed.
End walk.
