(** Lemmas about NFT collections. *)
From Coq Require Import Sorting.Sorted.
From Verif Require Export NftModel.

(** ** Ownership lists *)
Definition own (t : list (N * list N)) (y n : N) : Prop := exists l, (y, l) ∈ t /\ n ∈ l.
Definition flat (t : list (N * list N)) : list N := flat_map snd t.

Lemma sublist_elem {A} (l k : list A) x : sublist l k -> x ∈ l -> x ∈ k.
Proof.
  induction 1 as [|y l k H IH|y l k H IH]; intros Hx; [exact Hx| |right; auto].
  apply elem_of_cons in Hx. destruct Hx as [->|Hx]; [left|right; auto].
Qed.
Lemma nodup_sublist {A} (l k : list A) : NoDup k -> sublist l k -> NoDup l.
Proof.
  intros Hn Hs. revert Hn. induction Hs as [|y l k H IH|y l k H IH]; intros Hn; [constructor| |].
  - apply NoDup_cons in Hn. constructor; [|tauto]. intros Hin. apply (proj1 Hn). eapply sublist_elem; eassumption.
  - apply NoDup_cons in Hn. tauto.
Qed.
Lemma has_spec n l : has n l = true <-> n ∈ l.
Proof.
  unfold has. rewrite existsb_exists. split.
  - intros (m & Hin & Heq). apply N.eqb_eq in Heq. subst. apply elem_of_list_In. exact Hin.
  - intros Hin. exists n. split; [apply elem_of_list_In; exact Hin|apply N.eqb_refl].
Qed.
Lemma has_false n l : has n l = false <-> n ∉ l.
Proof. rewrite <- has_spec. destruct (has n l); intuition congruence. Qed.
Lemma own_flat t n : (exists y, own t y n) <-> n ∈ flat t.
Proof.
  unfold own, flat. split.
  - intros (y & l & Hin & Hn). apply elem_of_list_In, in_flat_map. exists (y, l).
    split; [apply elem_of_list_In; exact Hin|apply elem_of_list_In; exact Hn].
  - intros Hin. apply elem_of_list_In, in_flat_map in Hin. destruct Hin as ([y l] & Hin & Hn).
    exists y, l. split; apply elem_of_list_In; assumption.
Qed.
Lemma own_cons y l t z n : own ((y, l) :: t) z n <-> (z = y /\ n ∈ l) \/ own t z n.
Proof.
  unfold own. split.
  - intros (k & Hin & Hn). apply elem_of_cons in Hin. destruct Hin as [[= -> ->]|Hin]; [left; auto|right; eauto].
  - intros [[-> Hn]|(k & Hin & Hn)]; [exists l; split; [left|exact Hn]|exists k; split; [right; exact Hin|exact Hn]].
Qed.
Lemma own_nil z n : own [] z n <-> False.
Proof. unfold own. split; [|tauto]. intros (l & Hin & _). inversion Hin. Qed.
Lemma own_app t t' z n : own (t ++ t') z n <-> own t z n \/ own t' z n.
Proof.
  unfold own. split.
  - intros (l & Hin & Hn). apply elem_of_app in Hin. destruct Hin; [left|right]; eauto.
  - intros [(l & Hin & Hn)|(l & Hin & Hn)]; exists l; rewrite elem_of_app; auto.
Qed.
Lemma exists_spec t n : token_exists t n = true <-> n ∈ flat t.
Proof.
  rewrite <- own_flat. unfold token_exists, own. rewrite existsb_exists. split.
  - intros ([y l] & Hin & Hh). exists y, l. split; [apply elem_of_list_In; exact Hin|apply has_spec; exact Hh].
  - intros (y & l & Hin & Hn). exists (y, l). split; [apply elem_of_list_In; exact Hin|apply has_spec; exact Hn].
Qed.
Lemma is_owner_spec t y n : is_token_owner t y n = true <-> own t y n.
Proof.
  unfold is_token_owner, own. rewrite existsb_exists. split.
  - intros ([z l] & Hin & Hh). apply andb_true_iff in Hh. destruct Hh as [He Hh]. apply N.eqb_eq in He. cbn in He. subst z.
    exists l. split; [apply elem_of_list_In; exact Hin|apply has_spec; exact Hh].
  - intros (l & Hin & Hn). exists (y, l). split; [apply elem_of_list_In; exact Hin|]. cbn.
    rewrite N.eqb_refl. apply has_spec. exact Hn.
Qed.
(** One owner per token.  A list may still name a token twice: [transfer] accepts repeated serials. *)
Definition single (t : list (N * list N)) : Prop := forall y z n, own t y n -> own t z n -> y = z.
Lemma own_unique t : NoDup (flat t) -> single t.
Proof.
  unfold single. intros Hnd0 y z n. revert Hnd0. induction t as [|[k l] t IH]; intros Hnd Hy Hz; [apply own_nil in Hy; contradiction|].
  cbn [flat flat_map snd] in Hnd. apply NoDup_app in Hnd. destruct Hnd as (Hl & Hdis & Ht).
  apply own_cons in Hy. apply own_cons in Hz.
  destruct Hy as [[-> Hy]|Hy], Hz as [[-> Hz]|Hz]; [reflexivity| | |auto].
  - exfalso. apply (Hdis n Hy). apply own_flat. eauto.
  - exfalso. apply (Hdis n Hz). apply own_flat. eauto.
Qed.
Lemma get_owner_own t n y : get_token_owner t n = Some y -> own t y n.
Proof.
  unfold get_token_owner. destruct (List.find _ t) as [e|] eqn:E; [|discriminate]. intros [= <-].
  apply List.find_some in E. destruct E as [Hin Hh]. exists (snd e).
  split; [apply elem_of_list_In; rewrite <- surjective_pairing; exact Hin|apply has_spec; exact Hh].
Qed.
Lemma get_owner_none t n : get_token_owner t n = None <-> n ∉ flat t.
Proof.
  unfold get_token_owner. destruct (List.find _ t) as [e|] eqn:E.
  - apply List.find_some in E. destruct E as [Hin Hh]. split; [discriminate|]. intros Hn. exfalso. apply Hn.
    apply own_flat. exists (fst e), (snd e).
    split; [apply elem_of_list_In; rewrite <- surjective_pairing; exact Hin|apply has_spec; exact Hh].
  - split; [intros _|reflexivity]. intros Hin. apply own_flat in Hin. destruct Hin as (y & l & Hin & Hn).
    apply elem_of_list_In in Hin. pose proof (List.find_none _ _ E (y, l) Hin) as Hf. cbn in Hf.
    apply has_false in Hf. contradiction.
Qed.
Lemma get_owner_spec t n y : single t -> get_token_owner t n = Some y <-> own t y n.
Proof.
  intros Hnd. split; [apply get_owner_own|]. intros Ho.
  destruct (get_token_owner t n) as [z|] eqn:E.
  - apply get_owner_own in E. f_equal. eapply Hnd; eassumption.
  - exfalso. apply get_owner_none in E. apply E. apply own_flat. eauto.
Qed.

(** The number of tokens. *)
Definition count (l : list N) : nat := length (remove_dups l).
Lemma count_ext l l' : (forall n, n ∈ l <-> n ∈ l') -> count l = count l'.
Proof.
  intros H. unfold count. apply Permutation_length, NoDup_Permutation; [apply NoDup_remove_dups..|].
  intros n. rewrite !elem_of_remove_dups. apply H.
Qed.
Lemma count_nodup l : NoDup l -> count l = length l.
Proof.
  intros H. unfold count. apply Permutation_length, NoDup_Permutation; [apply NoDup_remove_dups|exact H|].
  intros n. apply elem_of_remove_dups.
Qed.
Lemma count_app l l' : (forall n, n ∈ l -> n ∉ l') -> count (l ++ l') = (count l + count l')%nat.
Proof.
  intros H. unfold count. rewrite <- app_length. apply Permutation_length, NoDup_Permutation.
  - apply NoDup_remove_dups.
  - apply NoDup_app. split; [apply NoDup_remove_dups|]. split; [|apply NoDup_remove_dups].
    intros n. rewrite !elem_of_remove_dups. apply H.
  - intros n. rewrite elem_of_app, !elem_of_remove_dups. apply elem_of_app.
Qed.

(** ** Sorting *)
Lemma ins_perm n l : Permutation (ins n l) (n :: l).
Proof.
  induction l as [|m l IH]; cbn; [reflexivity|]. destruct (n <=? m); [reflexivity|].
  rewrite IH. apply perm_swap.
Qed.
Lemma sort_perm l : Permutation (sort l) l.
Proof. induction l as [|n l IH]; cbn; [reflexivity|]. rewrite ins_perm, IH. reflexivity. Qed.
Lemma dedup_elem l n : n ∈ dedup l <-> n ∈ l.
Proof.
  induction l as [|a l IH]; cbn; [reflexivity|]. destruct (dedup l) as [|m r] eqn:E.
  - rewrite (elem_of_cons l), <- IH, elem_of_list_singleton. split; [auto|]. intros [->|H]; [reflexivity|inversion H].
  - destruct (N.eqb_spec a m) as [->|].
    + rewrite (elem_of_cons l), <- IH, !elem_of_cons. tauto.
    + rewrite (elem_of_cons l), <- IH, !elem_of_cons. tauto.
Qed.
Definition sorted (l : list N) : Prop := StronglySorted N.le l.
Lemma ins_sorted n l : sorted l -> sorted (ins n l).
Proof.
  unfold sorted. induction l as [|m l IH]; cbn; intros Hs; [repeat constructor|].
  inversion Hs as [|? ? Hs' Hf]; subst. destruct (N.leb_spec n m).
  - constructor; [exact Hs|]. constructor; [assumption|]. eapply Forall_impl; [exact Hf|]. cbn. lia.
  - constructor; [auto|]. rewrite ins_perm. constructor; [lia|exact Hf].
Qed.
Lemma sort_sorted l : sorted (sort l).
Proof. induction l as [|n l IH]; cbn; [constructor|]. apply ins_sorted, IH. Qed.
Lemma dedup_nodup l : sorted l -> NoDup (dedup l).
Proof.
  unfold sorted. induction l as [|n l IH]; intros Hs; cbn [dedup]; [constructor|].
  inversion Hs as [|? ? Hs' Hf]; subst. specialize (IH Hs'). destruct (dedup l) as [|m r] eqn:E; [repeat constructor; intros H; inversion H|].
  destruct (N.eqb_spec n m) as [|Hne]; [exact IH|]. constructor; [|exact IH].
  intros Hin. rewrite <- E in Hin.
  assert (Hm : m ∈ l) by (apply dedup_elem; rewrite E; left).
  rewrite Forall_forall in Hf. pose proof (Hf m Hm).
  (* m is the head of a sorted deduplicated list: every element is >= m *)
  assert (Hmin : forall l, StronglySorted N.le l -> forall m r, dedup l = m :: r -> Forall (fun k => m <= k) l).
  { clear. induction l as [|a l IH]; intros Hs m r E; [constructor|]. inversion Hs as [|? ? Hs' Hf]; subst.
    cbn [dedup] in E. destruct (dedup l) as [|b r'] eqn:E'.
    - injection E as <- <-. constructor; [lia|exact Hf].
    - destruct (N.eqb_spec a b) as [->|].
      + injection E as <- <-. constructor; [lia|]. eapply IH; [exact Hs'|reflexivity].
      + injection E as <- <-. constructor; [lia|exact Hf]. }
  pose proof (Hmin l Hs' m r E) as Hall. rewrite dedup_elem in Hin. rewrite Forall_forall in Hall.
  specialize (Hall n Hin). lia.
Qed.

Lemma serials_elem from q n : n ∈ serials from q <-> from <= n < from + q.
Proof.
  unfold serials. rewrite elem_of_list_In, in_map_iff. split.
  - intros (i & <- & Hi). apply in_seq in Hi. lia.
  - intros Hn. exists (N.to_nat (n - from)). split; [lia|]. apply in_seq. lia.
Qed.
Lemma serials_length from q : length (serials from q) = N.to_nat q.
Proof. unfold serials. rewrite map_length, seq_length. reflexivity. Qed.
Lemma serials_nodup from q : NoDup (serials from q).
Proof.
  unfold serials. apply NoDup_ListNoDup. apply FinFun.Injective_map_NoDup; [intros i j; lia|apply seq_NoDup].
Qed.

Section proofs.
  Variable cap mint_limit pallet : N.

  (** ** Adding and removing *)
  Lemma add_serials_perm ns : forall l l', add_serials cap l ns = Some l' -> Permutation l' (l ++ ns).
  Proof.
    induction ns as [|n ns IH]; cbn [add_serials]; intros l l' E.
    - injection E as ->. rewrite app_nil_r. reflexivity.
    - destruct (_ <? _); [|discriminate]. apply IH in E. rewrite E, sort_perm, <- app_assoc. reflexivity.
  Qed.
  Lemma add_existing_spec t who ns : forall t', NoDup (map fst t) -> add_existing cap t who ns = Some t' ->
    map fst t' = map fst t /\
    (who ∈ map fst t -> Permutation (flat t') (flat t ++ ns)) /\
    (forall y n, own t' y n <-> own t y n \/ (y = who /\ who ∈ map fst t /\ n ∈ ns)).
  Proof.
    induction t as [|[o l] t IH]; intros t' Hnd E; cbn [add_existing] in E.
    - injection E as <-. split; [reflexivity|]. split; [intros Hin; inversion Hin|].
      intros y n. rewrite own_nil. split; [tauto|]. intros [[]|(_ & Hin & _)]. inversion Hin.
    - destruct (if o =? who then add_serials cap l ns else Some l) as [l'|] eqn:El; [|discriminate].
      destruct (add_existing cap t who ns) as [r|] eqn:Er; [|discriminate]. injection E as <-.
      cbn [map fst] in *. apply NoDup_cons in Hnd. destruct Hnd as [Hni Hnd].
      destruct (IH r Hnd eq_refl) as (Hf & Hp & Ho). split; [congruence|].
      destruct (N.eqb_spec o who) as [->|Hne].
      + apply add_serials_perm in El. split.
        * intros _. cbn [flat flat_map snd].
          assert (Ei : Permutation (flat r) (flat t)).
          { clear -Er Hni. revert r Er. induction t as [|[k m] t IH]; intros r Er; cbn [add_existing] in Er.
            - injection Er as <-. reflexivity.
            - cbn [map fst] in Hni. rewrite elem_of_cons in Hni.
              destruct (N.eqb_spec k who) as [->|]; [tauto|].
              destruct (add_existing cap t who ns) as [r'|]; [|discriminate]. injection Er as <-.
              cbn [flat flat_map snd]. apply Permutation_app_head. apply IH; [tauto|reflexivity]. }
          fold (flat r) (flat t). rewrite El, Ei, <- !app_assoc. apply Permutation_app_head, Permutation_app_comm.
        * intros y n. rewrite !own_cons, Ho, elem_of_cons, El, elem_of_app. tauto.
      + injection El as <-. split.
        * intros Hin. apply elem_of_cons in Hin. destruct Hin as [->|Hin]; [congruence|].
          cbn [flat flat_map snd]. fold (flat r) (flat t). rewrite (Hp Hin), app_assoc. reflexivity.
        * intros y n. rewrite !own_cons, Ho, elem_of_cons. split; [|intuition congruence]. intuition.
  Qed.
  Lemma any_owner (t : list (N * list N)) who : existsb (fun e => fst e =? who) t = true <-> who ∈ map fst t.
  Proof.
    rewrite existsb_exists, elem_of_list_In, in_map_iff. split.
    - intros (e & Hin & He). apply N.eqb_eq in He. eauto.
    - intros (e & He & Hin). exists e. split; [exact Hin|]. apply N.eqb_eq. exact He.
  Qed.
  Lemma add_user_spec t who ns t' : NoDup (map fst t) -> add_user_tokens cap t who ns = Some t' ->
    NoDup (map fst t') /\ Permutation (flat t') (flat t ++ ns) /\
    (forall y n, own t' y n <-> own t y n \/ (y = who /\ n ∈ ns)).
  Proof.
    intros Hnd E. unfold add_user_tokens in E. destruct (existsb _ t) eqn:Ex.
    - apply any_owner in Ex. destruct (add_existing_spec t who ns t' Hnd E) as (Hf & Hp & Ho).
      split; [rewrite Hf; exact Hnd|]. split; [apply Hp; exact Ex|]. intros y n. rewrite Ho. tauto.
    - destruct (_ <? _); [|discriminate]. injection E as <-. rewrite map_app. cbn [map fst].
      assert (Hni : who ∉ map fst t) by (rewrite <- any_owner, Ex; discriminate).
      split; [|split].
      + apply NoDup_app. split; [exact Hnd|]. split; [|repeat constructor; intros H; inversion H].
        intros x Hx Hx'. apply elem_of_list_singleton in Hx'. subst. contradiction.
      + unfold flat. rewrite flat_map_app. cbn [flat_map snd]. rewrite app_nil_r. reflexivity.
      + intros y n. rewrite own_app, own_cons, own_nil. tauto.
  Qed.

  Lemma retain_spec t who ns t' b : NoDup (map fst t) -> retain_first t who ns = (t', b) ->
    map fst t' = map fst t /\ sublist (flat t') (flat t) /\
    (forall y n, own t' y n <-> own t y n /\ ~ (y = who /\ n ∈ ns)) /\
    (b = true -> forall n, ~ own t' who n).
  Proof.
    revert t' b. induction t as [|[o l] t IH]; intros t' b Hnd E; cbn [retain_first] in E.
    - injection E as <- <-. split; [reflexivity|]. split; [constructor|]. split; [|discriminate].
      intros y n. rewrite own_nil. tauto.
    - cbn [map fst] in Hnd. apply NoDup_cons in Hnd. destruct Hnd as [Hni Hnd].
      assert (Hno : forall n, ~ own t o n).
      { intros n (k & Hin & _). apply Hni. apply elem_of_list_In, in_map_iff. exists (o, k).
        split; [reflexivity|apply elem_of_list_In; exact Hin]. }
      destruct (N.eqb_spec o who) as [->|Hne].
      + injection E as <- <-. set (l' := List.filter _ l).
        assert (Hl' : forall n, n ∈ l' <-> n ∈ l /\ n ∉ ns).
        { intros n. unfold l'. rewrite elem_of_list_In, List.filter_In, <- elem_of_list_In, negb_true_iff, has_false. reflexivity. }
        split; [reflexivity|]. split; [|split].
        * cbn [flat flat_map snd]. apply sublist_app; [|reflexivity]. unfold l'. clear.
          induction l as [|a l IH]; cbn; [constructor|]. destruct (negb _); [apply sublist_skip|apply sublist_cons]; exact IH.
        * intros y n. rewrite !own_cons, Hl'. split.
          -- intros [[-> [H1 H2]]|Ht]; [tauto|]. split; [tauto|]. intros [-> _]. eapply Hno; exact Ht.
          -- intros [[[-> H1]|Ht] Hn]; [|tauto]. left. tauto.
        * intros Hb n Ho. apply own_cons in Ho. destruct Ho as [[_ Hin]|Ht]; [|eapply Hno; exact Ht].
          destruct l'; [inversion Hin|discriminate].
      + destruct (retain_first t who ns) as [r b'] eqn:Er. injection E as <- <-.
        destruct (IH r b' Hnd eq_refl) as (Hf & Hs & Ho & Hb). split; [cbn; congruence|]. split; [|split].
        * cbn [flat flat_map snd]. apply sublist_app; [reflexivity|exact Hs].
        * intros y n. rewrite !own_cons, Ho. split; [|tauto]. intros [[-> Hn]|Ht]; [|tauto]. split; [tauto|]. intros [-> _]. congruence.
        * intros Hb' n Hon. apply own_cons in Hon. destruct Hon as [[-> _]|Ht]; [congruence|]. eapply Hb; eassumption.
  Qed.
  Lemma remove_user_spec t who ns : NoDup (map fst t) ->
    let t' := remove_user_tokens t who ns in
    NoDup (map fst t') /\ (NoDup (flat t) -> NoDup (flat t')) /\ (forall y n, own t' y n <-> own t y n /\ ~ (y = who /\ n ∈ ns)).
  Proof.
    intros Hnd. unfold remove_user_tokens. destruct (retain_first t who ns) as [t' b] eqn:E.
    destruct (retain_spec t who ns t' b Hnd E) as (Hf & Hs & Ho & Hb).
    assert (Hn1 : NoDup (map fst t')) by (rewrite Hf; exact Hnd).
    assert (Hn2 : NoDup (flat t) -> NoDup (flat t')) by (intros Hfl; exact (nodup_sublist _ _ Hfl Hs)).
    destruct b; [|split; [exact Hn1|split; [exact Hn2|exact Ho]]].
    set (p := fun e : N * list N => negb (fst e =? who)). split; [|split].
    - clear -Hn1. induction t' as [|e t IH]; [constructor|]. cbn [map] in Hn1. apply NoDup_cons in Hn1.
      destruct Hn1 as [Hni Hn]. cbn [List.filter]. destruct (p e); [|auto]. cbn [map]. constructor; [|auto].
      intros Hin. apply Hni. apply elem_of_list_In, in_map_iff in Hin. destruct Hin as (e' & He & Hin).
      apply List.filter_In in Hin. apply elem_of_list_In, in_map_iff. exists e'. tauto.
    - intros Hfl. eapply nodup_sublist; [exact (Hn2 Hfl)|]. clear. induction t' as [|e t IH]; [constructor|]. cbn [List.filter].
      destruct (p e); cbn [flat flat_map].
      + apply sublist_app; [reflexivity|exact IH].
      + apply sublist_inserts_l. exact IH.
    - intros y n. rewrite <- Ho. unfold own. split.
      + intros (l & Hin & Hn). apply elem_of_list_In, List.filter_In in Hin. destruct Hin as [Hin _].
        exists l. split; [apply elem_of_list_In; exact Hin|exact Hn].
      + intros (l & Hin & Hn). exists l. split; [|exact Hn]. apply elem_of_list_In, List.filter_In.
        split; [apply elem_of_list_In; exact Hin|]. unfold p. cbn. destruct (N.eqb_spec y who) as [->|]; [|reflexivity].
        exfalso. apply (Hb eq_refl n). exists l. auto.
  Qed.

  (** ** States *)
  Definition wf (i : coll) : Prop :=
    NoDup (map fst (c_toks i)) /\ single (c_toks i) /\
    c_iss i = N.of_nat (count (flat (c_toks i))) /\
    (c_root i = true -> Forall (fun n => n < c_next i) (flat (c_toks i)) /\ c_iss i <= c_next i).
  Definition WF (s : nft) : Prop := forall c i, colls s !! c = Some i -> wf i.
  (** No list names a token twice; only kept by transfers of lists without repetition. *)
  Definition tidy (s : nft) : Prop := forall c i, colls s !! c = Some i -> NoDup (flat (c_toks i)).
  Definition owns (s : nft) (c y n : N) : Prop := exists i, colls s !! c = Some i /\ own (c_toks i) y n.

  Lemma owner_owns s c n y : WF s -> owner_of s c n = Some y <-> owns s c y n.
  Proof.
    intros Hw. unfold owner_of, owns. destruct (colls s !! c) as [i|] eqn:E.
    - rewrite get_owner_spec by apply (Hw c i E). split; [eauto|]. intros (j & [= <-] & Ho). exact Ho.
    - split; [discriminate|]. intros (i & Hi & _). discriminate.
  Qed.
  Lemma owner_none s c n : WF s -> owner_of s c n = None <-> forall y, ~ owns s c y n.
  Proof.
    intros Hw. split.
    - intros E y Ho. apply owner_owns in Ho; [|exact Hw]. congruence.
    - intros Hn. destruct (owner_of s c n) as [y|] eqn:E; [|reflexivity]. exfalso. apply (Hn y). apply owner_owns; assumption.
  Qed.
  Lemma owner_ext s s' c n : WF s -> WF s' -> (forall y, owns s' c y n <-> owns s c y n) -> owner_of s' c n = owner_of s c n.
  Proof.
    intros Hw Hw' Hx. destruct (owner_of s c n) as [y|] eqn:E.
    - apply owner_owns; [exact Hw'|]. apply Hx. apply owner_owns; assumption.
    - apply owner_none; [exact Hw'|]. intros y. rewrite Hx. revert y. apply owner_none; assumption.
  Qed.
  Lemma put_owns s c i d y n : owns (put s c i) d y n <-> if decide (d = c) then own (c_toks i) y n else owns s d y n.
  Proof.
    unfold owns, put. cbn [colls]. destruct (decide (d = c)) as [->|Hne].
    - rewrite lookup_insert. split; [intros (j & [= <-] & Ho); exact Ho|eauto].
    - rewrite lookup_insert_ne by congruence. reflexivity.
  Qed.
  Lemma put_WF s c i : WF s -> wf i -> WF (put s c i).
  Proof.
    intros Hw Hi d j Hd. unfold put in Hd. cbn [colls] in Hd. destruct (decide (c = d)) as [->|Hne].
    - rewrite lookup_insert in Hd. injection Hd as <-. exact Hi.
    - rewrite lookup_insert_ne in Hd by exact Hne. eapply Hw; exact Hd.
  Qed.
  Lemma clear_owns s c ns d y n : owns (clear_appr s c ns) d y n <-> owns s d y n.
  Proof. reflexivity. Qed.
  Lemma clear_lookup m (c : N) ns : forall d n,
    (fold_left (fun (m : gmap (N * N) N) n => delete (c, n) m) ns m) !! (d, n)
    = if decide (d = c /\ n ∈ ns) then None else m !! (d, n).
  Proof.
    revert m. induction ns as [|k ns IH]; intros m d n; cbn [fold_left].
    - destruct (decide _) as [[_ Hin]|]; [inversion Hin|reflexivity].
    - rewrite IH. destruct (decide (d = c /\ n ∈ ns)) as [[-> Hin]|Hn].
      + rewrite decide_True; [reflexivity|]. split; [reflexivity|right; exact Hin].
      + destruct (decide ((c, k) = (d, n))) as [[= -> ->]|Hne].
        * rewrite lookup_delete, decide_True; [reflexivity|]. split; [reflexivity|left].
        * rewrite lookup_delete_ne by exact Hne. rewrite decide_False; [reflexivity|].
          intros [-> Hin]. apply elem_of_cons in Hin. destruct Hin as [->|Hin]; [congruence|tauto].
  Qed.
  Lemma locked_spec s c n : locked s c n = true <-> is_Some (locks s !! (c, n)).
  Proof. unfold locked. apply bool_decide_eq_true. Qed.

  (** What does not concern ownership: limits, counters. *)
  Definition root_of (s : nft) (c : N) : option bool := option_map c_root (colls s !! c).
  Definition next_of (s : nft) (c : N) : option N := option_map c_next (colls s !! c).

  (** The ownership effect of each kind of operation. *)
  Lemma transfer_spec s c ns from to s' : WF s -> do_transfer cap s c ns from to = Ok s' ->
    WF s' /\ from <> to /\
    (forall n, n ∈ ns -> owns s c from n /\ locks s !! (c, n) = None) /\
    (forall d y n, owns s' d y n <-> if decide (d = c /\ n ∈ ns) then y = to else owns s d y n) /\
    locks s' = locks s /\ appr_all s' = appr_all s /\
    (forall d n, appr s' !! (d, n) = if decide (d = c /\ n ∈ ns) then None else appr s !! (d, n)) /\
    (forall d, root_of s' d = root_of s d /\ next_of s' d = next_of s d) /\
    (tidy s -> NoDup ns -> tidy s').
  Proof.
    intros Hw E. unfold do_transfer in E. inv_ok. rename v into i, v0 into t. subst s'.
    match goal with H : colls s !! c = Some i |- _ => rename H into Hc end.
    match goal with H : forallb _ ns = true |- _ => rename H into Hall end.
    match goal with H : add_user_tokens _ _ _ _ = Some t |- _ => rename H into Ht end.
    match goal with H : negb (from =? to) = true |- _ => apply negb_true_iff, N.eqb_neq in H; rename H into Hft end.
    destruct (Hw c i Hc) as (Hnd & Hfl & Hiss & Hroot).
    assert (Hpre : forall n, n ∈ ns -> own (c_toks i) from n /\ locks s !! (c, n) = None).
    { intros n Hn. rewrite forallb_forall in Hall. apply elem_of_list_In in Hn. specialize (Hall n Hn).
      apply andb_true_iff in Hall. destruct Hall as [Ho Hl]. split; [apply is_owner_spec; exact Ho|].
      apply negb_true_iff in Hl. destruct (locks s !! (c, n)) eqn:El; [|reflexivity].
      assert (locked s c n = true) by (apply locked_spec; rewrite El; eauto). congruence. }
    destruct (remove_user_spec (c_toks i) from ns Hnd) as (Hnd1 & Hfl1 & Ho1).
    destruct (add_user_spec _ _ _ _ Hnd1 Ht) as (Hnd2 & Hp2 & Ho2).
    assert (Hout : forall y n, own (remove_user_tokens (c_toks i) from ns) y n -> n ∉ ns).
    { intros y n Hy Hn. apply Ho1 in Hy. destruct Hy as [Hy Hne].
      apply Hne. split; [|exact Hn]. eapply Hfl; [exact Hy|]. apply Hpre. exact Hn. }
    assert (Hfl2 : single t).
    { intros y z n Hy Hz. apply Ho2 in Hy, Hz. destruct Hy as [Hy|[-> Hy]], Hz as [Hz|[-> Hz]].
      - apply Ho1 in Hy, Hz. eapply Hfl; [apply Hy|apply Hz].
      - exfalso. eapply Hout; eassumption.
      - exfalso. eapply Hout; eassumption.
      - reflexivity. }
    assert (Hmem : forall n, n ∈ flat t <-> n ∈ flat (c_toks i)).
    { intros n. rewrite <- !own_flat. split.
      - intros [y Hy]. apply Ho2 in Hy. destruct Hy as [Hy|[-> Hn]]; [apply Ho1 in Hy; exists y; tauto|].
        exists from. apply Hpre. exact Hn.
      - intros [y Hy]. destruct (decide (n ∈ ns)) as [Hn|Hn]; [exists to; apply Ho2; tauto|].
        exists y. apply Ho2. left. apply Ho1. tauto. }
    assert (Hwf : wf (with_toks i t)).
    { split; [exact Hnd2|]. split; [exact Hfl2|]. cbn [with_toks c_toks c_iss c_root c_next].
      split; [rewrite (count_ext _ _ Hmem); exact Hiss|]. intros Hr. destruct (Hroot Hr) as [Hall' Hle]. split; [|exact Hle].
      rewrite Forall_forall in Hall' |- *. intros n Hn. apply Hall', Hmem. exact Hn. }
    split; [|split; [exact Hft|split; [|split; [|split; [reflexivity|split; [reflexivity|split; [|split]]]]]]].
    - intros d j Hd. eapply (put_WF s c (with_toks i t)); eassumption.
    - intros n Hn. split; [exists i; split; [exact Hc|apply Hpre; exact Hn]|apply Hpre; exact Hn].
    - intros d y n. rewrite clear_owns, put_owns. cbn [with_toks c_toks].
      destruct (decide (d = c)) as [->|Hne].
      + rewrite Ho2, Ho1. destruct (decide (c = c /\ n ∈ ns)) as [[_ Hn]|Hn].
        * split; [|tauto]. intros [[Hy Hne]|[-> _]]; [|reflexivity]. exfalso. apply Hne. split; [|exact Hn].
          eapply Hfl; [exact Hy|]. apply Hpre. exact Hn.
        * assert (n ∉ ns) by tauto. split.
          -- intros [[Hy _]|[_ Hin]]; [exists i; auto|contradiction].
          -- intros (j & Hj & Hy). rewrite Hc in Hj. injection Hj as <-. left. split; [exact Hy|tauto].
      + rewrite decide_False by tauto. reflexivity.
    - intros d n. unfold clear_appr, put. cbn [appr]. apply clear_lookup.
    - intros d. unfold root_of, next_of, clear_appr, put. cbn [colls]. destruct (decide (c = d)) as [->|Hne].
      + rewrite lookup_insert, Hc. split; reflexivity.
      + rewrite lookup_insert_ne by exact Hne. split; reflexivity.
    - intros Ht0 Hns d j Hd. unfold clear_appr, put in Hd. cbn [colls] in Hd. apply lookup_insert_Some in Hd.
      destruct Hd as [[<- <-]|[_ Hd]]; [|eapply Ht0; exact Hd]. cbn [with_toks c_toks].
      rewrite Hp2. apply NoDup_app. split; [apply Hfl1, (Ht0 c i Hc)|]. split; [|exact Hns].
      intros n Hin. apply own_flat in Hin. destruct Hin as [y Hy]. eapply Hout. exact Hy.
  Qed.

  Lemma burn_spec s who c n0 s' : WF s -> do_burn s who c n0 = Ok s' ->
    WF s' /\ owns s c who n0 /\ locks s !! (c, n0) = None /\
    (forall d y n, owns s' d y n <-> if decide (d = c /\ n = n0) then False else owns s d y n) /\
    locks s' = locks s /\ appr_all s' = appr_all s /\
    (forall d n, appr s' !! (d, n) = if decide (d = c /\ n = n0) then None else appr s !! (d, n)) /\
    (forall d, root_of s' d = root_of s d /\ next_of s' d = next_of s d) /\
    (tidy s -> tidy s').
  Proof.
    intros Hw E. unfold do_burn in E. inv_ok. rename v into i. subst s'.
    match goal with H : colls s !! c = Some i |- _ => rename H into Hc end.
    match goal with H : is_token_owner _ _ _ = true |- _ => apply is_owner_spec in H; rename H into Ho end.
    match goal with H : negb (locked s c n0) = true |- _ => apply negb_true_iff in H; rename H into Hl end.
    destruct (Hw c i Hc) as (Hnd & Hfl & Hiss & Hroot).
    set (t := map _ (c_toks i)).
    assert (Hl' : locks s !! (c, n0) = None).
    { destruct (locks s !! (c, n0)) eqn:El; [|reflexivity].
      assert (locked s c n0 = true) by (apply locked_spec; rewrite El; eauto). congruence. }
    assert (Hft : map fst t = map fst (c_toks i)).
    { unfold t. rewrite map_map. apply map_ext. intros [a b]. cbn. destruct (a =? who); reflexivity. }
    assert (Hot : forall y n, own t y n <-> own (c_toks i) y n /\ ~ (y = who /\ n = n0)).
    { unfold t. generalize (c_toks i). induction l as [|[a b] l IH]; intros y n; cbn [map fst snd].
      - rewrite own_nil. tauto.
      - destruct (N.eqb_spec a who) as [->|Hne]; rewrite !own_cons, IH.
        + rewrite elem_of_list_In, List.filter_In, <- elem_of_list_In, negb_true_iff, N.eqb_neq. tauto.
        + split; [|tauto]. intros [[-> Hn]|Ht]; [|tauto]. split; [tauto|]. intros [-> _]. congruence. }
    assert (Hsub : sublist (flat t) (flat (c_toks i))).
    { unfold t. generalize (c_toks i). induction l as [|[a b] l IH]; [constructor|]. cbn [map fst snd].
      destruct (a =? who); cbn [flat flat_map snd]; [|apply sublist_app; [reflexivity|exact IH]].
      apply sublist_app; [|exact IH]. clear. induction b as [|x b IH]; [constructor|]. cbn.
      destruct (negb (x =? n0)); [apply sublist_skip|apply sublist_cons]; exact IH. }
    assert (Hfl2 : single t).
    { intros y z n Hy Hz. apply Hot in Hy, Hz. eapply Hfl; [apply Hy|apply Hz]. }
    assert (Hmem : forall n, n ∈ flat (c_toks i) <-> n ∈ n0 :: flat t).
    { intros n. rewrite elem_of_cons, <- !own_flat. split.
      - intros [y Hy]. destruct (decide (n = n0)) as [->|Hne]; [left; reflexivity|right]. exists y. apply Hot. tauto.
      - intros [->|[y Hy]]; [eauto|]. apply Hot in Hy. exists y. tauto. }
    assert (Hn0 : n0 ∉ flat t).
    { rewrite <- own_flat. intros [y Hy]. apply Hot in Hy. destruct Hy as [Hy Hne]. apply Hne. split; [|reflexivity].
      exact (Hfl _ _ _ Hy Ho). }
    assert (Hcnt : count (flat (c_toks i)) = S (count (flat t))).
    { rewrite (count_ext _ ([n0] ++ flat t)) by exact Hmem. rewrite count_app; [reflexivity|].
      intros n Hn. apply elem_of_list_singleton in Hn. subst n. exact Hn0. }
    assert (Hwf : wf (with_toks (with_iss i (c_iss i - 1)) t)).
    { split; [cbn [with_toks c_toks]; rewrite Hft; exact Hnd|]. split; [exact Hfl2|].
      cbn [with_toks with_iss c_toks c_iss c_root c_next]. split.
      - rewrite Hiss, Hcnt. lia.
      - intros Hr. destruct (Hroot Hr) as [Hall Hle]. split; [|lia]. rewrite Forall_forall in Hall |- *.
        intros n Hn. apply Hall, Hmem. right. exact Hn. }
    split; [|split; [|split; [exact Hl'|split; [|split; [reflexivity|split; [reflexivity|split; [|split]]]]]]].
    - intros d j Hd. eapply (put_WF s c); eassumption.
    - exists i. auto.
    - intros d y n. rewrite clear_owns, put_owns. cbn [with_toks c_toks].
      destruct (decide (d = c)) as [->|Hne].
      + rewrite Hot. destruct (decide (c = c /\ n = n0)) as [[_ ->]|Hn].
        * split; [|tauto]. intros [Hy Hne]. apply Hne. split; [|reflexivity]. exact (Hfl _ _ _ Hy Ho).
        * assert (n <> n0) by tauto. split.
          -- intros [Hy _]. exists i; auto.
          -- intros (j & Hj & Hy). rewrite Hc in Hj. injection Hj as <-. split; [exact Hy|tauto].
      + rewrite decide_False by tauto. reflexivity.
    - intros d n. unfold clear_appr, put. cbn [appr]. rewrite clear_lookup.
      destruct (decide (d = c /\ n ∈ [n0])) as [[-> Hin]|Hn].
      + apply elem_of_list_singleton in Hin. rewrite decide_True by auto. reflexivity.
      + rewrite decide_False; [reflexivity|]. intros [-> ->]. apply Hn. split; [reflexivity|left].
    - intros d. unfold root_of, next_of, clear_appr, put. cbn [colls]. destruct (decide (c = d)) as [->|Hne].
      + rewrite lookup_insert, Hc. split; reflexivity.
      + rewrite lookup_insert_ne by exact Hne. split; reflexivity.
    - intros Ht0 d j Hd. unfold clear_appr, put in Hd. cbn [colls] in Hd. apply lookup_insert_Some in Hd.
      destruct Hd as [[<- <-]|[_ Hd]]; [|eapply Ht0; exact Hd]. cbn [with_toks c_toks].
      exact (nodup_sublist _ _ (Ht0 c i Hc) Hsub).
  Qed.

  (** Minting fresh serials: used for both mint paths and for creation. *)
  Lemma do_mint_spec s c i j to ns s' : WF s -> colls s !! c = Some i ->
    c_toks j = c_toks i -> c_iss j = c_iss i -> c_root j = c_root i -> c_max j = c_max i -> c_owner j = c_owner i ->
    NoDup ns -> (forall n, n ∈ ns -> n ∉ flat (c_toks i)) ->
    c_next i <= c_next j ->
    (c_root i = true -> c_next j = c_next i + N.of_nat (length ns) /\ Forall (fun n => n < c_next j) ns) ->
    do_mint cap s c j to ns = Ok s' ->
    WF s' /\
    (forall d y n, owns s' d y n <-> owns s d y n \/ (d = c /\ y = to /\ n ∈ ns)) /\
    (forall d n, d = c -> n ∈ ns -> forall y, ~ owns s d y n) /\
    locks s' = locks s /\ appr_all s' = appr_all s /\ appr s' = appr s /\
    (forall d, root_of s' d = root_of s d /\
       (next_of s' d = if decide (d = c) then Some (c_next j) else next_of s d)) /\
    (tidy s -> tidy s').
  Proof.
    intros Hw Hc Et Ei Er _ _ Hns Hfresh Hnx Hroot' E. unfold do_mint in E. inv_ok. rename v0 into t. subst s'.
    match goal with H : add_user_tokens _ _ _ _ = Some t |- _ => rename H into Ht end. rewrite Et in Ht. rewrite Ei.
    destruct (Hw c i Hc) as (Hnd & Hfl & Hiss & Hroot).
    destruct (add_user_spec _ _ _ _ Hnd Ht) as (Hnd2 & Hp2 & Ho2).
    assert (Hfl2 : single t).
    { intros y z n Hy Hz. apply Ho2 in Hy, Hz. destruct Hy as [Hy|[-> Hy]], Hz as [Hz|[-> Hz]].
      - eapply Hfl; eassumption.
      - exfalso. eapply Hfresh; [exact Hz|]. apply own_flat. eauto.
      - exfalso. eapply Hfresh; [exact Hy|]. apply own_flat. eauto.
      - reflexivity. }
    set (k := with_toks _ t).
    assert (Hwf : wf k).
    { split; [exact Hnd2|]. split; [exact Hfl2|]. unfold k. cbn [with_toks with_iss c_toks c_iss c_root c_next]. split.
      - rewrite (count_ext (flat t) (flat (c_toks i) ++ ns)) by (intros n; rewrite Hp2; reflexivity).
        rewrite count_app by (intros n Hn Hn'; eapply Hfresh; eassumption). rewrite (count_nodup ns Hns). lia.
      - rewrite Er. intros Hr. destruct (Hroot Hr) as [Hall Hle]. destruct (Hroot' Hr) as [Hn Hall'].
        split; [|lia]. rewrite Hp2. apply Forall_app. split; [|exact Hall'].
        eapply Forall_impl; [exact Hall|]. cbn. lia. }
    split; [|split; [|split; [|split; [reflexivity|split; [reflexivity|split; [reflexivity|split]]]]]].
    - apply put_WF; assumption.
    - intros d y n. rewrite put_owns. unfold k. cbn [with_toks c_toks]. destruct (decide (d = c)) as [->|Hne]; [|tauto].
      rewrite Ho2. unfold owns. rewrite Hc. split.
      + intros [Hy|[-> Hn]]; [left; exists i; auto|right; auto].
      + intros [(x & [= <-] & Hy)|(_ & -> & Hn)]; [left; exact Hy|right; auto].
    - intros d n -> Hn y (x & Hx & Hy). rewrite Hc in Hx. injection Hx as <-. eapply Hfresh; [exact Hn|]. apply own_flat. eauto.
    - intros d. unfold root_of, next_of, put. cbn [colls]. destruct (decide (d = c)) as [->|Hne].
      + rewrite lookup_insert, Hc. cbn. rewrite Er. split; reflexivity.
      + rewrite lookup_insert_ne by congruence. split; reflexivity.
    - intros Ht0 d x Hd. unfold put in Hd. cbn [colls] in Hd. apply lookup_insert_Some in Hd.
      destruct Hd as [[<- <-]|[_ Hd]]; [|eapply Ht0; exact Hd]. unfold k. cbn [with_toks c_toks].
      rewrite Hp2. apply NoDup_app. split; [exact (Ht0 c i Hc)|]. split; [|exact Hns]. intros n Hin Hn. eapply Hfresh; eassumption.
  Qed.
  Lemma mint_spec s who c q to e s' : WF s -> mint cap mint_limit s who c q to e = Ok s' ->
    exists i, colls s !! c = Some i /\ c_root i = true /\ 0 < q /\
    (c_owner i = who \/ c_public i = true) /\
    (forall m, c_max i = Some m -> c_next i + q <= m) /\
    WF s' /\
    (forall d y n, owns s' d y n <-> owns s d y n \/ (d = c /\ y = to /\ c_next i <= n < c_next i + q)) /\
    (forall n, c_next i <= n -> forall y, ~ owns s c y n) /\
    locks s' = locks s /\ appr_all s' = appr_all s /\ appr s' = appr s /\
    (forall d, root_of s' d = root_of s d /\
       (next_of s' d = if decide (d = c) then Some (c_next i + q) else next_of s d)) /\
    (tidy s -> tidy s').
  Proof.
    intros Hw E. unfold mint in E. inv_ok. rename v into i. subst s'.
    match goal with H : pre_mint _ _ _ _ = Ok _ |- _ => unfold pre_mint in H end. inv_ok.
    match goal with H : serials _ _ = _ |- _ => subst v0 end.
    match goal with H : colls s !! c = Some i |- _ => rename H into Hc end.
    match goal with H : do_mint _ _ _ _ _ _ = Ok v2 |- _ => rename H into Hm end.
    match goal with H : c_root i = true |- _ => rename H into Hr end.
    destruct (Hw c i Hc) as (Hnd & Hfl & Hiss & Hroot). destruct (Hroot Hr) as [Hall Hle].
    assert (Hge : forall n, c_next i <= n -> n ∉ flat (c_toks i)).
    { intros n Hn Hin. rewrite Forall_forall in Hall. specialize (Hall n Hin). cbn in Hall. lia. }
    exists i. split; [exact Hc|]. split; [exact Hr|]. split; [lia|]. split.
    { match goal with H : (_ || _) = true |- _ => apply orb_true_iff in H; destruct H as [H|H]; [left; apply N.eqb_eq; exact H|right; exact H] end. }
    split.
    { intros m Hm'. rewrite Hm' in *. match goal with H : (_ <=? m) = true |- _ => apply N.leb_le in H; lia end. }
    apply (do_mint_spec s c i) in Hm; try reflexivity; try assumption.
    - destruct Hm as (H1 & H2 & _ & H4 & H5 & H6 & H7). split; [exact H1|]. split.
      { intros d y n. rewrite H2, serials_elem. reflexivity. }
      split. { intros n Hn y (x & Hx & Hy). rewrite Hc in Hx. injection Hx as <-. apply (Hge n Hn). apply own_flat. eauto. }
      split; [exact H4|]. split; [exact H5|]. split; [exact H6|]. exact H7.
    - apply serials_nodup.
    - intros n Hn. apply Hge. apply serials_elem in Hn. lia.
    - cbn [with_next c_next]. lia.
    - intros _. cbn [with_next c_next]. rewrite serials_length. split; [lia|].
      apply Forall_forall. intros n Hn. apply serials_elem in Hn. lia.
  Qed.
  Lemma bridge_spec s owner c ns s' : WF s -> root_of s c <> Some true -> mint_bridged cap s owner c ns = Ok s' ->
    WF s' /\
    (exists fresh : list N, (forall d y n, owns s' d y n <-> owns s d y n \/ (d = c /\ y = owner /\ n ∈ fresh)) /\
       forall n, n ∈ fresh -> n ∈ ns /\ forall y, ~ owns s c y n) /\
    locks s' = locks s /\ appr_all s' = appr_all s /\ appr s' = appr s /\
    (forall d, root_of s' d = root_of s d /\ next_of s' d = next_of s d) /\
    (tidy s -> tidy s').
  Proof.
    intros Hw Hr E.
    assert (Hsame : WF s /\ (exists fresh : list N, (forall d y n, owns s d y n <-> owns s d y n \/ (d = c /\ y = owner /\ n ∈ fresh)) /\
       forall n, n ∈ fresh -> n ∈ ns /\ forall y, ~ owns s c y n) /\
      locks s = locks s /\ appr_all s = appr_all s /\ appr s = appr s /\ (forall d, root_of s d = root_of s d /\ next_of s d = next_of s d) /\ (tidy s -> tidy s)).
    { split; [exact Hw|]. split; [|repeat split; try reflexivity; auto]. exists []. split.
      - intros d y n. split; [tauto|]. intros [H|(_ & _ & H)]; [exact H|inversion H].
      - intros n H. inversion H. }
    unfold mint_bridged in E. destruct ns as [|n1 ns']; [injection E as <-; exact Hsame|].
    destruct (colls s !! c) as [i|] eqn:Hc; [|injection E as <-; exact Hsame]. cbv zeta in E.
    set (fresh := List.filter _ _) in E. destruct (_ <=? cap); [|injection E as <-; exact Hsame].
    set (ns := n1 :: ns') in *.
    assert (Hr' : c_root i = false).
    { unfold root_of in Hr. rewrite Hc in Hr. cbn in Hr. destruct (c_root i); congruence. }
    assert (Hf : forall n, n ∈ fresh <-> n ∈ ns /\ n ∉ flat (c_toks i)).
    { intros n. unfold fresh. rewrite elem_of_list_In, List.filter_In, <- elem_of_list_In, dedup_elem, sort_perm.
      rewrite negb_true_iff. rewrite <- exists_spec. destruct (token_exists _ _); intuition congruence. }
    apply (do_mint_spec s c i) in E; try reflexivity; try assumption.
    - destruct E as (H1 & H2 & H3 & H4 & H5 & H6 & H7). split; [exact H1|]. split.
      { exists fresh. split; [exact H2|]. intros n Hn. split; [apply Hf; exact Hn|]. intros y. apply (H3 c n eq_refl Hn). }
      split; [exact H4|]. split; [exact H5|]. split; [exact H6|]. split; [|exact (proj2 H7)]. intros d. destruct (proj1 H7 d) as [Ha Hb]. split; [exact Ha|].
      rewrite Hb. destruct (decide (d = c)) as [->|]; [|reflexivity]. unfold next_of. rewrite Hc. reflexivity.
    - unfold fresh. apply NoDup_ListNoDup. apply List.NoDup_filter. apply NoDup_ListNoDup. apply dedup_nodup, sort_sorted.
    - intros n Hn. apply Hf. exact Hn.
    - congruence.
  Qed.

  (** Operations that leave tokens alone. *)
  Lemma admin_WF s c i j : WF s -> colls s !! c = Some i -> c_toks j = c_toks i -> c_iss j = c_iss i ->
    c_root j = c_root i -> c_next j = c_next i -> WF (put s c j) /\
    (forall d y n, owns (put s c j) d y n <-> owns s d y n) /\
    (forall d, root_of (put s c j) d = root_of s d /\ next_of (put s c j) d = next_of s d).
  Proof.
    intros Hw Hc Et Ei Er En. split; [|split].
    - apply put_WF; [exact Hw|]. unfold wf. rewrite Et, Ei, Er, En. apply (Hw c i Hc).
    - intros d y n. rewrite put_owns. destruct (decide (d = c)) as [->|]; [|reflexivity].
      unfold owns. rewrite Hc, Et. split; [eauto|]. intros (x & [= <-] & Hy). exact Hy.
    - intros d. unfold root_of, next_of, put. cbn [colls]. destruct (decide (c = d)) as [->|Hne].
      + rewrite lookup_insert, Hc. cbn. rewrite Er, En. split; reflexivity.
      + rewrite lookup_insert_ne by exact Hne. split; reflexivity.
  Qed.
  Lemma create_spec s id owner initial mx to root s' : WF s -> create cap mint_limit s id owner initial mx to root = Ok s' ->
    WF s' /\ colls s !! id = None /\
    (forall d y n, owns s' d y n <-> owns s d y n \/ (d = id /\ y = to /\ n < initial)) /\
    locks s' = locks s /\ appr_all s' = appr_all s /\ appr s' = appr s /\
    (forall d, d <> id -> root_of s' d = root_of s d /\ next_of s' d = next_of s d) /\
    next_of s' id = Some initial /\ (tidy s -> tidy s').
  Proof.
    intros Hw E. unfold create in E. inv_ok. subst s'.
    match goal with H : bool_decide _ = true |- _ => apply bool_decide_eq_true in H; rename H into Hid end.
    set (t := if initial =? 0 then [] else [(to, serials 0 initial)]).
    assert (Ht : forall y n, own t y n <-> y = to /\ n < initial).
    { intros y n. unfold t. destruct (N.eqb_spec initial 0) as [->|Hne]; [rewrite own_nil; lia|].
      rewrite own_cons, own_nil, serials_elem. lia. }
    assert (Hfl : Permutation (flat t) (serials 0 initial)).
    { unfold t. destruct (N.eqb_spec initial 0) as [->|Hne]; [reflexivity|]. cbn [flat flat_map snd]. rewrite app_nil_r. reflexivity. }
    split; [|split; [exact Hid|split; [|split; [reflexivity|split; [reflexivity|split; [reflexivity|split; [|split]]]]]]].
    - apply put_WF; [exact Hw|]. unfold wf. cbn [c_toks c_iss c_root c_next]. split; [|split; [|split]].
      + unfold t. destruct (initial =? 0); cbn; [constructor|]. apply NoDup_singleton.
      + intros y z n Hy Hz. apply Ht in Hy, Hz. destruct Hy as [-> _], Hz as [-> _]. reflexivity.
      + rewrite (count_ext _ (serials 0 initial)) by (intros n; rewrite Hfl; reflexivity).
        rewrite count_nodup by apply serials_nodup. rewrite serials_length. lia.
      + intros _. split; [|lia]. rewrite Hfl. apply Forall_forall. intros n Hn. apply serials_elem in Hn. lia.
    - intros d y n. rewrite put_owns. destruct (decide (d = id)) as [->|Hne].
      + cbn [c_toks]. rewrite Ht. unfold owns. rewrite Hid. split; [tauto|]. intros [(i & Hi & _)|H]; [discriminate|tauto].
      + tauto.
    - intros d Hd. unfold root_of, next_of, put. cbn [colls]. rewrite lookup_insert_ne by congruence. split; reflexivity.
    - unfold next_of, put. cbn [colls]. rewrite lookup_insert. reflexivity.
    - intros Ht0 d j Hd. unfold put in Hd. cbn [colls] in Hd. apply lookup_insert_Some in Hd.
      destruct Hd as [[<- <-]|[_ Hd]]; [|eapply Ht0; exact Hd]. cbn [c_toks]. rewrite Hfl. apply serials_nodup.
  Qed.
End proofs.
