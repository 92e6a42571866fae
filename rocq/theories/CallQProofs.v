(** Proofs about the queue of eth_calls ([CallQModel]). *)
From Coq Require Export Sorting.Sorted.
From Verif Require Export EthyCProps CallQModel.
From Verif Require Import EthyModel NotaryModel.

(** ** All votes on a request. *)
Definition on (id : N) (e : (N * N) * cres) : bool := fst (fst e) =? id.
Definition tv (m : gmap (N * N) cres) (id : N) : nat := length (List.filter (on id) (map_to_list m)).
Lemma tv_insert m id k r id' : m !! (id, k) = None ->
  tv (<[(id, k) := r]> m) id' = ((if (id =? id')%N then 1 else 0) + tv m id')%nat.
Proof.
  intros Hn. unfold tv.
  assert (HP : forall l1 l2 : list ((N * N) * cres), Permutation l1 l2 -> length (List.filter (on id') l1) = length (List.filter (on id') l2)).
  { intros l1 l2 H. induction H; cbn; try lia; repeat destruct (on _ _); cbn; lia. }
  rewrite (HP _ _ (map_to_list_insert m (id, k) r Hn)). cbn. unfold on at 1. cbn. destruct (id =? id'); reflexivity.
Qed.
Lemma tv_list m id : exists V, NoDup V /\ length V = tv m id /\ forall k, In k V <-> m !! (id, k) <> None.
Proof.
  exists (map (fun e => snd (fst e)) (List.filter (on id) (map_to_list m))).
  split; [|split; [apply map_length|]].
  - pose proof (NoDup_fst_map_to_list m) as Hn. induction (map_to_list m) as [|[[i k] w] l IH]; cbn; [constructor|].
    cbn in Hn. apply NoDup_cons in Hn as [Hni Hn]. specialize (IH Hn).
    unfold on at 1. cbn. destruct (N.eqb_spec i id) as [E|]; cbn; [|exact IH].
    constructor; [|exact IH]. intros Hin. apply Hni. apply elem_of_list_In in Hin. apply in_map_iff in Hin as ([[i' k'] w'] & E1 & H1).
    apply filter_In in H1 as [H1 H2]. unfold on in H2. cbn in H2, E1. apply N.eqb_eq in H2.
    subst. apply elem_of_list_In, in_map_iff. exists (id, k, w'). split; [reflexivity|exact H1].
  - intros k. rewrite in_map_iff. split.
    + intros ([[i k'] w] & E & Hin). cbn in E. subst k'. apply filter_In in Hin as [Hin Hb]. unfold on in Hb. cbn in Hb.
      apply N.eqb_eq in Hb. subst. apply elem_of_list_In, elem_of_map_to_list in Hin. rewrite Hin. discriminate.
    + intros H. destruct (m !! (id, k)) as [r|] eqn:E; [|congruence]. exists ((id, k), r). split; [reflexivity|]. apply filter_In. split.
      * apply elem_of_list_In, elem_of_map_to_list. exact E.
      * unfold on. cbn. apply N.eqb_refl.
Qed.
Lemma tv_ext m m' id : (forall k, m !! (id, k) = m' !! (id, k)) -> tv m id = tv m' id.
Proof.
  intros H. destruct (tv_list m id) as (V & HN & HV & Hi). destruct (tv_list m' id) as (V' & HN' & HV' & Hi').
  rewrite <- HV, <- HV'. apply Nat.le_antisymm; apply NoDup_incl_length; try (apply NoDup_ListNoDup; assumption);
    intros k Hk; [apply Hi'; rewrite <- H; apply Hi, Hk|apply Hi; rewrite H; apply Hi', Hk].
Qed.
Lemma tv_none m id : (forall k, m !! (id, k) = None) -> tv m id = 0%nat.
Proof.
  intros H. destruct (tv_list m id) as (V & _ & HV & Hi). rewrite <- HV.
  destruct V as [|k V]; [reflexivity|]. exfalso. apply (proj1 (Hi k) (or_introl eq_refl)). apply H.
Qed.
Lemma filter_look (m : gmap (N * N) cres) id id' k :
  filter (fun e => fst (fst e) <> id) m !! (id', k) = if id' =? id then None else m !! (id', k).
Proof.
  destruct (N.eqb_spec id' id) as [->|Hne].
  - apply map_filter_lookup_None. right. intros x _ H. cbn in H. congruence.
  - destruct (m !! (id', k)) as [x|] eqn:E.
    + apply map_filter_lookup_Some. split; [exact E|cbn; exact Hne].
    + apply map_filter_lookup_None. left. exact E.
Qed.

Section proofs.
  Variables (thr : N) (stored : N -> creq) (nd : N -> nat -> node).
  Local Notation qdo := (qdo thr).
  Local Notation hstep := (hstep thr stored nd).

  (** ** The queue. *)
  Record QI (q : cq) : Prop := mkQI {
    qi_sorted : StronglySorted N.lt (queue q);
    qi_open : forall id, In id (queue q) <-> creqs (cst q) !! id <> None;
    qi_new : forall id, In id (queue q) -> id < nextc (cst q) }.
  Lemma remove1_in x y l : StronglySorted N.lt l -> (In y (remove1 x l) <-> In y l /\ y <> x).
  Proof.
    induction l as [|z l IH]; intros H; [cbn; tauto|]. inversion H as [|? ? H1 H2]; subst. cbn [remove1].
    rewrite Forall_forall in H2. destruct (N.eqb_spec z x) as [->|Hne].
    - split; [intros Hy; split; [right; exact Hy|]|intros [[E|Hy] Hn]; [congruence|exact Hy]].
      intros ->. specialize (H2 x ltac:(apply elem_of_list_In, Hy)). lia.
    - cbn [In]. rewrite IH by exact H1. split; [intros [->|[]]; auto|tauto].
  Qed.
  Lemma remove1_sorted x l : StronglySorted N.lt l -> StronglySorted N.lt (remove1 x l).
  Proof.
    induction l as [|z l IH]; intros H; [constructor|]. inversion H as [|? ? H1 H2]; subst. cbn [remove1].
    destruct (z =? x); [exact H1|]. constructor; [apply IH, H1|]. rewrite Forall_forall in *. intros y Hy.
    apply H2. apply elem_of_list_In in Hy. apply elem_of_list_In. apply (remove1_in x y l H1) in Hy. tauto.
  Qed.
  Lemma sorted_snoc l x : StronglySorted N.lt l -> (forall y, In y l -> y < x) -> StronglySorted N.lt (l ++ [x]).
  Proof.
    induction l as [|z l IH]; intros H Hx; cbn [app]; [repeat constructor|]. inversion H as [|? ? H1 H2]; subst.
    constructor; [apply IH; [exact H1|]; intros y Hy; apply Hx; right; exact Hy|]. apply Forall_app. split; [exact H2|].
    constructor; [apply Hx; left; reflexivity|constructor].
  Qed.
  Lemma vote_frame s cl i id r : let s' := cstep thr s (CVote cl i id r) in
    nextc s' = nextc s /\ ckeys s' = ckeys s /\ cn s' = cn s /\ forall x, x <> id -> creqs s' !! x = creqs s !! x.
  Proof.
    cbv zeta. unfold cstep. cbn [cexec]. unfold cnotarize. destruct (nth_error _ _) as [k|]; [|cbn; auto]. cbn [of_opt rbind].
    destruct (cvotes s !! (id, k)); [cbn; auto|]. cbn [ensure rbind]. unfold handle_call_vote. destruct (creqs s !! id); [|cbn; auto]. cbn [ensure rbind].
    assert (Hc : forall r', let s' := commit s (callback (Cs (creqs s) (<[(id, k) := r]> (cvotes s)) (agg s) (ckeys s) (cn s) (nextc s) (cbs s)) cl id r') in
      nextc s' = nextc s /\ ckeys s' = ckeys s /\ cn s' = cn s /\ forall x, x <> id -> creqs s' !! x = creqs s !! x).
    { intros r'. unfold callback. destruct cl; cbn [ensure rbind commit]; [|auto]. cbn [nextc ckeys cn creqs].
      do 3 (split; [reflexivity|]). intros x Hx. apply lookup_delete_ne. congruence. }
    destruct (List.find _ _) as [[q c]|]; [apply Hc|]. destruct (_ || _); [apply Hc|]. cbn. auto.
  Qed.
  Lemma vote_gone s cl i id r : creqs s !! id = None -> creqs (cstep thr s (CVote cl i id r)) !! id = None.
  Proof.
    intros H. unfold cstep. cbn [cexec]. unfold cnotarize. destruct (nth_error _ _) as [k|]; [|exact H]. cbn [of_opt rbind].
    destruct (cvotes s !! (id, k)); [exact H|]. cbn [ensure rbind]. unfold handle_call_vote. rewrite H. exact H.
  Qed.
  Lemma qdo_QI q o : QI q -> nextc (cst q) + 1 < 2 ^ 64 ->
    QI (qdo q o) /\ nextc (cst q) <= nextc (cst (qdo q o)) <= nextc (cst q) + match o with CCall => 1 | _ => 0 end.
  Proof.
    intros [A B C] Hb. destruct o as [|cl i id r|ks|n]; unfold CallQModel.qdo; cbn [cst queue].
    - cbn [cstep cexec commit]. unfold cstep. cbn [cexec commit]. unfold ccall, wrap64. cbn [nextc creqs]. rewrite N.mod_small by exact Hb.
      split; [|lia]. constructor; cbn [queue cst creqs nextc].
      + apply sorted_snoc; assumption.
      + intros x. rewrite in_app_iff. cbn [In]. destruct (N.eq_dec (nextc (cst q)) x) as [<-|Hne].
        * rewrite lookup_insert. split; [discriminate|auto].
        * rewrite lookup_insert_ne by exact Hne. rewrite <- B. split; [intros [H|[H|[]]]; congruence|auto].
      + intros x Hx. apply in_app_or in Hx as [Hx|[<-|[]]]; [specialize (C x Hx); lia|lia].
    - destruct (vote_frame (cst q) cl i id r) as (F1 & _ & _ & F2). cbv zeta in *. set (s' := cstep thr (cst q) (CVote cl i id r)) in *.
      rewrite F1. split; [|lia].
      assert (Hx : forall l, (StronglySorted N.lt l) -> (forall x, In x l <-> creqs s' !! x <> None) -> (forall x, In x l -> In x (queue q)) -> QI (Cq s' l)).
      { intros l H1 H2 H3. constructor; cbn [queue cst]; [exact H1|exact H2|]. intros x Hin. rewrite F1. apply C, H3, Hin. }
      destruct (creqs (cst q) !! id) as [[]|] eqn:E1.
      + destruct (creqs s' !! id) as [[]|] eqn:E2.
        * apply Hx; auto. intros x. rewrite B. destruct (N.eq_dec x id) as [->|Hne]; [rewrite E1, E2; split; discriminate|]. rewrite F2 by exact Hne. reflexivity.
        * apply Hx; [apply remove1_sorted, A| |].
          -- intros x. rewrite (remove1_in _ _ _ A), B. destruct (N.eq_dec x id) as [->|Hne]; [rewrite E2; split; [intros [_ []]; reflexivity|congruence]|].
             rewrite F2 by exact Hne. tauto.
          -- intros x Hin. apply (remove1_in _ _ _ A) in Hin. tauto.
      + apply Hx; auto. intros x. rewrite B. destruct (N.eq_dec x id) as [->|Hne].
        * rewrite E1. unfold s'. rewrite vote_gone by exact E1. reflexivity.
        * rewrite F2 by exact Hne. reflexivity.
    - unfold cstep. cbn [cexec commit nextc]. split; [|lia]. constructor; assumption.
    - unfold cstep. cbn [cexec commit nextc]. split; [|lia]. constructor; assumption.
  Qed.
  Lemma ballots_votes t q who : Forall (fun o => exists i id r, o = CVote true i id r) (ballots thr stored nd t q who).
  Proof.
    unfold ballots. apply Forall_flat_map, Forall_forall. intros i _. destruct (ballot thr stored nd t q i) as [o|] eqn:E; [|constructor].
    constructor; [|constructor]. unfold ballot in E. destruct (nth_error _ _); [|discriminate]. destruct (_ <? _); [discriminate|].
    destruct (queue q); [discriminate|]. destruct (_ !! _); [discriminate|]. destruct (_ !! _); [|discriminate]. injection E as <-. eauto.
  Qed.
  (** What all votes keep, a round keeps. *)
  Lemma round_ind (P : cq -> Prop) t q who :
    (forall q i id r, P q -> P (qdo q (CVote true i id r))) -> P q -> P (run qdo (ballots thr stored nd t q who) q).
  Proof.
    intros HP. generalize (ballots_votes t q who). generalize (ballots thr stored nd t q who). intros l H.
    revert q. induction H as [|o l (i & id & r & ->) _ IH]; intros q Hq; [exact Hq|]. cbn [run fold_left]. apply IH, HP, Hq.
  Qed.
  Lemma hstep_QI q h : QI q -> nextc (cst q) + 1 < 2 ^ 64 ->
    QI (hstep q h) /\ nextc (cst q) <= nextc (cst (hstep q h)) <= nextc (cst q) + 1.
  Proof.
    intros HQ Hb. destruct h as [t who|o]; cbn [CallQModel.hstep].
    - assert (H : let q' := run qdo (ballots thr stored nd t q who) q in QI q' /\ nextc (cst q') = nextc (cst q)); [|cbv zeta in H; destruct H as [H1 H2]; rewrite H2; split; [exact H1|lia]].
      cbv zeta. apply (round_ind (fun q' => QI q' /\ nextc (cst q') = nextc (cst q))); [|auto].
      intros q' i id r [H1 H2]. destruct (qdo_QI q' (CVote true i id r) H1) as [H3 H4]; [rewrite H2; exact Hb|]. split; [exact H3|lia].
    - destruct (qdo_QI q o HQ Hb) as [H1 H2]. split; [exact H1|destruct o; lia].
  Qed.
  Lemma run_QI h : forall q, QI q -> nextc (cst q) + N.of_nat (length h) < 2 ^ 64 ->
    QI (run hstep h q) /\ nextc (cst q) <= nextc (cst (run hstep h q)) <= nextc (cst q) + N.of_nat (length h).
  Proof.
    induction h as [|o h IH]; intros q HQ Hb; [cbn; split; [exact HQ|lia]|]. cbn [length] in Hb.
    destruct (hstep_QI q o HQ ltac:(lia)) as [H1 H2]. change (run hstep (o :: h) q) with (run hstep h (hstep q o)).
    destruct (IH (hstep q o) H1 ltac:(lia)) as [H3 H4]. split; [exact H3|]. cbn [length]. lia.
  Qed.

  Hypothesis Ht2 : thr <= 100.
  (** ** One vote. *)
  Definition counted (s : cs) (id k : N) (r : cres) : cs :=
    Cs (creqs s) (<[(id, k) := r]> (cvotes s)) (<[id := bump r (default [] (agg s !! id))]> (agg s)) (ckeys s) (cn s) (nextc s) (cbs s).
  Definition called (s : cs) (id k : N) (r r' : cres) : cs :=
    Cs (delete id (creqs s)) (filter (fun e => fst (fst e) <> id) (<[(id, k) := r]> (cvotes s))) (delete id (agg s))
       (ckeys s) (cn s) (nextc s) ((id, r') :: cbs s).
  Inductive voted (s : cs) (cl : bool) (i : nat) (id : N) (r : cres) : cs -> Prop :=
  | V_no : (cl = false \/ (forall k, nth_error (ckeys s) i = Some k -> cvotes s !! (id, k) <> None) \/ creqs s !! id = None) -> voted s cl i id r s
  | V_on k : nth_error (ckeys s) i = Some k -> cvotes s !! (id, k) = None -> creqs s !! id <> None ->
      csum (default [] (agg s !! id)) + 1 < cn s -> voted s cl i id r (counted s id k r)
  | V_end k r' : nth_error (ckeys s) i = Some k -> cvotes s !! (id, k) = None -> creqs s !! id <> None ->
      (let ns := bump r (default [] (agg s !! id)) in
       (exists c, In (r', c) ns /\ thr * cn s <= 100 * c) \/
       ((forall q c, In (q, c) ns -> 100 * c < thr * cn s) /\
        (csum ns = cn s \/ forall q c, In (q, c) ns -> 100 * (c + (cn s - csum ns)) < thr * cn s))) ->
      voted s cl i id r (called s id k r r').
  Lemma vote_voted s cl i id r : 1 <= cn s -> voted s cl i id r (cstep thr s (CVote cl i id r)).
  Proof.
    intros Hn. unfold cstep. cbn [cexec]. unfold cnotarize. destruct (nth_error (ckeys s) i) as [k|] eqn:Ek; cbn [of_opt rbind commit].
    2:{ apply V_no. right. left. rewrite Ek. discriminate. }
    destruct (cvotes s !! (id, k)) eqn:Ev; cbn [ensure rbind commit].
    { apply V_no. right. left. rewrite Ek. intros k' [= <-]. congruence. }
    unfold handle_call_vote. destruct (creqs s !! id) eqn:Er; cbn [ensure rbind commit]; [|apply V_no; auto].
    set (ns := bump r (default [] (agg s !! id))).
    assert (Hr : creqs s !! id <> None) by congruence.
    destruct (List.find _ ns) as [[q c]|] eqn:Ef.
    - unfold callback. destruct cl; cbn [ensure rbind commit]; [|apply V_no; auto].
      apply find_some in Ef as [Hin Hp]. cbn [snd] in Hp. apply N.leb_le, pct_ge_imp in Hp; [|exact Ht2].
      apply (V_end s true i id r k q Ek Ev Hr). left. exists c. auto.
    - assert (Hno : forall q c, In (q, c) ns -> 100 * c < thr * cn s).
      { intros q c Hin. pose proof (find_none _ _ Ef _ Hin) as Hf. cbn [snd] in Hf. apply N.leb_gt in Hf.
        destruct (N.lt_ge_cases (100 * c) (thr * cn s)) as [H|H]; [exact H|]. apply pct_ge in H; [lia|exact Ht2|exact Hn]. }
      destruct (N.eqb_spec (csum ns) (cn s)) as [Et|Et]; cbn [orb].
      + unfold callback. destruct cl; cbn [ensure rbind commit]; [|apply V_no; auto].
        apply (V_end s true i id r k r Ek Ev Hr). right. split; [exact Hno|left; exact Et].
      + destruct (existsb _ ns) eqn:Ex; cbn [negb].
        * cbn [commit]. apply (V_on s cl i id r k Ek Ev Hr).
          assert (Hs : csum ns = csum (default [] (agg s !! id)) + 1) by apply csum_bump. rewrite <- Hs.
          destruct (N.lt_ge_cases (csum ns) (cn s)) as [H|H]; [exact H|]. exfalso.
          apply existsb_exists in Ex as ([q c] & Hin & Hp). cbn [snd] in Hp. apply N.leb_le, pct_ge_imp in Hp; [|exact Ht2].
          replace (cn s - csum ns) with 0 in Hp by lia. specialize (Hno q c Hin). lia.
        * unfold callback. destruct cl; cbn [ensure rbind commit]; [|apply V_no; auto].
          apply (V_end s true i id r k r Ek Ev Hr). right. split; [exact Hno|right]. intros q c Hin.
          destruct (N.lt_ge_cases (100 * (c + (cn s - csum ns))) (thr * cn s)) as [H|H]; [exact H|]. exfalso.
          assert (existsb (fun e => thr <=? pct (snd e + (cn s - csum ns)) (cn s)) ns = true); [|congruence].
          apply existsb_exists. exists (q, c). split; [exact Hin|]. apply N.leb_le, pct_ge; auto.
  Qed.

  (** ** A settled set of notaries. *)
  Section settled.
    Variable ks : list N.
    Hypothesis Hks : NoDup ks.
    Hypothesis Hne : ks <> [].
    Definition nks : N := N.of_nat (length ks).
    Lemma nks_pos : 1 <= nks. Proof. unfold nks. destruct ks; [congruence|cbn [length]; lia]. Qed.
    Record J (s : cs) : Prop := mkJ {
      j_cv : CV s; j_keys : ckeys s = ks; j_cn : cn s = nks;
      j_tot : forall id, csum (default [] (agg s !! id)) = N.of_nat (tv (cvotes s) id);
      j_lt : forall id, N.of_nat (tv (cvotes s) id) < nks;
      j_in : forall id k r, cvotes s !! (id, k) = Some r -> In k ks }.
    Lemma J0 : J (cinit ks).
    Proof.
      constructor; cbn [cinit ckeys cn agg cvotes]; try reflexivity.
      - exact (creach_CV thr ks []).
      - intros id. rewrite tv_none; [pose proof nks_pos; lia|]. intros k. apply lookup_empty.
      - intros id k r. rewrite lookup_empty. discriminate.
    Qed.
    Lemma J_vote s cl i id r : J s -> J (cstep thr s (CVote cl i id r)).
    Proof.
      intros HJ. assert (HC : CV (cstep thr s (CVote cl i id r))).
      { unfold cstep. destruct (cexec thr s (CVote cl i id r)) eqn:E; cbn [commit]; [eapply cexec_CV; [apply HJ|exact E]|apply HJ]. }
      destruct HJ as [A B C D E F]. assert (Hn : 1 <= cn s) by (rewrite C; apply nks_pos).
      destruct (vote_voted s cl i id r Hn) as [_|k Hk Hv Hr Hlt|k r' Hk Hv Hr _].
      - constructor; assumption.
      - constructor; cbn [counted ckeys cn agg cvotes]; auto.
        + intros x. rewrite tv_insert by exact Hv. destruct (N.eqb_spec id x) as [->|Hx].
          * rewrite lookup_insert. change (csum (bump r (default [] (agg s !! x))) = N.of_nat (1 + tv (cvotes s) x)). rewrite csum_bump, D. lia.
          * rewrite lookup_insert_ne by exact Hx. rewrite D. reflexivity.
        + intros x. rewrite tv_insert by exact Hv. destruct (N.eqb_spec id x) as [->|Hx]; [rewrite D, C in Hlt; lia|apply E].
        + intros x k' r0. destruct (decide ((id, k) = (x, k'))) as [[= -> ->]|Hx].
          * intros _. rewrite <- B. eapply nth_error_In, Hk.
          * rewrite lookup_insert_ne by exact Hx. apply F.
      - constructor; cbn [called ckeys cn agg cvotes]; auto.
        + intros x. destruct (N.eq_dec x id) as [->|Hx].
          * rewrite lookup_delete. rewrite tv_none; [reflexivity|]. intros k'. rewrite filter_look, N.eqb_refl. reflexivity.
          * rewrite lookup_delete_ne by congruence. rewrite D. f_equal. apply tv_ext. intros k'. rewrite filter_look.
            destruct (N.eqb_spec x id); [congruence|]. rewrite lookup_insert_ne by congruence. reflexivity.
        + intros x. destruct (N.eq_dec x id) as [->|Hx].
          * rewrite tv_none; [pose proof nks_pos; lia|]. intros k'. rewrite filter_look, N.eqb_refl. reflexivity.
          * erewrite tv_ext; [apply (E x)|]. intros k'. rewrite filter_look.
            destruct (N.eqb_spec x id); [congruence|]. rewrite lookup_insert_ne by congruence. reflexivity.
        + intros x k' r0. rewrite filter_look. destruct (N.eqb_spec x id); [discriminate|]. rewrite lookup_insert_ne by congruence. apply F.
    Qed.
    Definition calm (h : hist) : Prop := match h with HDo (CKeys _) | HDo (CVals _) => False | _ => True end.
    Lemma J_step q h : calm h -> J (cst q) -> J (cst (hstep q h)).
    Proof.
      intros Hc HJ. destruct h as [t who|o]; cbn [CallQModel.hstep].
      - apply (round_ind (fun q => J (cst q))); [|exact HJ]. intros q' i id r H. apply J_vote, H.
      - destruct o as [|cl i id r|?|?]; cbn [calm] in Hc; try contradiction; [|apply J_vote, HJ].
        unfold CallQModel.qdo. cbn [cst]. assert (HC : CV (cstep thr (cst q) CCall)) by (apply (cexec_CV thr (cst q) CCall); [apply HJ|reflexivity]).
        destruct HJ as [A B C D E F]. constructor; auto.
    Qed.
    Lemma J_run h : Forall calm h -> forall q, J (cst q) -> J (cst (run hstep h q)).
    Proof. intros Hc. induction Hc as [|o h Ho _ IH]; intros q HJ; [exact HJ|]. apply (IH (hstep q o)), J_step; assumption. Qed.

    (** ** The request at the head. *)
    Section head.
      Variable id : N.
      Definition closed (q : cq) : Prop := creqs (cst q) !! id = None /\ id < nextc (cst q) /\ exists r, In (id, r) (cbs (cst q)).
      Definition waiting (D : N -> Prop) (q : cq) : Prop :=
        creqs (cst q) !! id <> None /\ (forall x, In x (queue q) -> id <= x) /\ id < nextc (cst q) /\
        forall k, D k -> cvotes (cst q) !! (id, k) <> None.
        Lemma cbs_vote s cl i x r e : In e (cbs s) -> In e (cbs (cstep thr s (CVote cl i x r))).
      Proof.
        intros H. unfold cstep. cbn [cexec]. unfold cnotarize. destruct (nth_error _ _) as [k|]; [|exact H]. cbn [of_opt rbind].
        destruct (cvotes s !! (x, k)); [exact H|]. cbn [ensure rbind]. unfold handle_call_vote. destruct (creqs s !! x); [|exact H]. cbn [ensure rbind].
        assert (Hc : forall r', In e (cbs (commit s (callback (Cs (creqs s) (<[(x, k) := r]> (cvotes s)) (agg s) (ckeys s) (cn s) (nextc s) (cbs s)) cl x r')))).
        { intros r'. unfold callback. destruct cl; [right|]; exact H. }
        destruct (List.find _ _) as [[q c]|]; [apply Hc|]. destruct (_ || _); [apply Hc|exact H].
      Qed.
      Lemma closed_vote q cl i x r : closed q -> closed (qdo q (CVote cl i x r)).
      Proof.
        intros (A & B & r0 & C). unfold closed, CallQModel.qdo; cbn [cst]. destruct (vote_frame (cst q) cl i x r) as (F1 & _ & _ & F2). cbv zeta in *.
        split; [|rewrite F1; split; [exact B|exists r0; apply cbs_vote, C]].
        destruct (N.eq_dec id x) as [->|Hx]; [apply vote_gone, A|rewrite F2 by exact Hx; exact A].
      Qed.
      Lemma closed_step q h : calm h -> nextc (cst q) + 1 < 2 ^ 64 -> closed q -> closed (hstep q h).
      Proof.
        intros Hc Hb H. destruct h as [t who|o]; cbn [CallQModel.hstep].
        - apply (round_ind closed); [|exact H]. intros. apply closed_vote. assumption.
        - destruct o; cbn [calm] in Hc; try contradiction; [|apply closed_vote, H].
          destruct H as (A & B & C). unfold closed, CallQModel.qdo, cstep. cbn [cst cexec commit]. unfold ccall, wrap64. cbn [creqs nextc cbs].
          rewrite N.mod_small by exact Hb. split; [rewrite lookup_insert_ne by lia; exact A|]. split; [lia|exact C].
      Qed.
      Lemma waiting_vote D q cl i x r : J (cst q) -> waiting D q ->
        let q' := qdo q (CVote cl i x r) in closed q' \/ waiting D q'.
      Proof.
        intros HJ (A & B & B' & C). assert (Hn : 1 <= cn (cst q)) by (rewrite (j_cn _ HJ); apply nks_pos).
        cbv zeta. unfold closed, waiting, CallQModel.qdo. cbn [cst queue].
        assert (HB : forall y, In y (match creqs (cst q) !! x, creqs (cstep thr (cst q) (CVote cl i x r)) !! x with Some _, None => remove1 x (queue q) | _, _ => queue q end) -> id <= y).
        { intros y Hy. apply B. destruct (creqs (cst q) !! x); [destruct (creqs _ !! x); [exact Hy|]|exact Hy].
          clear - Hy. induction (queue q) as [|z l IH]; [exact Hy|]. cbn [remove1] in Hy. destruct (z =? x); [right; exact Hy|]. destruct Hy as [->|Hy]; [left; reflexivity|right; apply IH, Hy]. }
        destruct (vote_frame (cst q) cl i x r) as (F1 & _ & _ & F2). cbv zeta in *. rewrite F1.
        destruct (vote_voted (cst q) cl i x r Hn) as [_|k Hk Hv Hr _|k r' Hk Hv Hr _].
        - right. auto.
        - right. cbn [counted creqs cvotes]. do 3 (split; [assumption|]). intros k' Hk'. destruct (decide ((x, k) = (id, k'))) as [E|E].
          + rewrite E, lookup_insert. discriminate.
          + rewrite lookup_insert_ne by exact E. apply C, Hk'.
        - cbn [called creqs cvotes cbs]. destruct (N.eq_dec x id) as [->|Hx].
          + left. rewrite lookup_delete. split; [reflexivity|]. split; [exact B'|]. exists r'. left. reflexivity.
          + right. rewrite lookup_delete_ne by exact Hx. do 3 (split; [assumption|]). intros k' Hk'. rewrite filter_look.
            destruct (N.eqb_spec id x); [congruence|]. rewrite lookup_insert_ne by congruence. apply C, Hk'.
      Qed.
      (** An open request stays open until it is answered. *)
      Lemma open_vote q cl i x r : J (cst q) -> creqs (cst q) !! id <> None -> id < nextc (cst q) ->
        let q' := qdo q (CVote cl i x r) in closed q' \/ (creqs (cst q') !! id <> None /\ id < nextc (cst q')).
      Proof.
        intros HJ A B. assert (Hn : 1 <= cn (cst q)) by (rewrite (j_cn _ HJ); apply nks_pos).
        cbv zeta. unfold closed, CallQModel.qdo. cbn [cst].
        destruct (vote_voted (cst q) cl i x r Hn) as [_|k Hk Hv Hr _|k r' Hk Hv Hr _]; [right; auto|right; auto|].
        cbn [called creqs nextc cbs]. destruct (N.eq_dec x id) as [->|Hx].
        - left. rewrite lookup_delete. split; [reflexivity|]. split; [exact B|]. exists r'. left. reflexivity.
        - right. rewrite lookup_delete_ne by exact Hx. auto.
      Qed.
      Lemma open_step q h : calm h -> nextc (cst q) + 1 < 2 ^ 64 -> J (cst q) -> creqs (cst q) !! id <> None -> id < nextc (cst q) ->
        closed (hstep q h) \/ (creqs (cst (hstep q h)) !! id <> None /\ id < nextc (cst (hstep q h))).
      Proof.
        intros Hc Hb HJ A B. destruct h as [t who|o]; cbn [CallQModel.hstep].
        - assert (H : let q' := run qdo (ballots thr stored nd t q who) q in J (cst q') /\ (closed q' \/ (creqs (cst q') !! id <> None /\ id < nextc (cst q')))).
          { cbv zeta. apply (round_ind (fun q' => J (cst q') /\ (closed q' \/ (creqs (cst q') !! id <> None /\ id < nextc (cst q'))))); [|auto].
            intros q' i x r [H1 [H2|[H2 H3]]]; (split; [apply J_vote, H1|]); [left; apply closed_vote, H2|apply open_vote; assumption]. }
          apply H.
        - destruct o as [|cl i x r|?|?]; cbn [calm] in Hc; try contradiction; [|apply open_vote; assumption]. right.
          unfold CallQModel.qdo, cstep. cbn [cst cexec commit]. unfold ccall, wrap64. cbn [creqs nextc]. rewrite N.mod_small by exact Hb.
          split; [rewrite lookup_insert_ne by lia; exact A|lia].
      Qed.
      (** The vote of a notary on the head is there afterwards. *)
      Lemma waiting_own D q i k r : J (cst q) -> waiting D q -> nth_error ks i = Some k ->
        let q' := qdo q (CVote true i id r) in closed q' \/ waiting (fun x => D x \/ x = k) q'.
      Proof.
        intros HJ W Hk. destruct (waiting_vote D q true i id r HJ W) as [H|(A & B & B' & C)]; [left; exact H|right]. cbv zeta.
        split; [exact A|]. split; [exact B|]. split; [exact B'|]. intros x [Hx| ->]; [apply C, Hx|].
        assert (Hn : 1 <= cn (cst q)) by (rewrite (j_cn _ HJ); apply nks_pos). unfold CallQModel.qdo in A |- *. cbn [cst] in A |- *.
        destruct (vote_voted (cst q) true i id r Hn) as [[H|[H|H]]|k' Hk' Hv Hr _|k' r' Hk' Hv Hr _].
        - discriminate.
        - apply H. rewrite (j_keys _ HJ). exact Hk.
        - destruct W as [W _]. congruence.
        - rewrite (j_keys _ HJ) in Hk'. assert (k' = k) as -> by congruence. cbn [counted cvotes]. rewrite lookup_insert. discriminate.
        - cbn [called creqs] in A. rewrite lookup_delete in A. congruence.
      Qed.
      Definition takes_part (h : hist) (k : N) : Prop :=
        match h with HRound _ who => exists i, In i who /\ nth_error ks i = Some k | HDo _ => False end.
      Lemma waiting_round D t q who : J (cst q) -> QI q -> waiting D q ->
        let q' := hstep q (HRound t who) in closed q' \/ waiting (fun k => D k \/ takes_part (HRound t who) k) q'.
      Proof.
        intros HJ HQ W. cbn [CallQModel.hstep takes_part].
        assert (Hh : exists rest, queue q = id :: rest).
        { destruct W as (W1 & W2 & _). destruct HQ as [Q1 Q2 _]. destruct (queue q) as [|x rest] eqn:E.
          - exfalso. apply (proj2 (Q2 id)) in W1. exact W1.
          - exists rest. f_equal. apply (proj2 (Q2 id)) in W1. destruct W1 as [W1|W1]; [exact W1|].
            inversion Q1 as [|? ? _ Q3]; subst. rewrite Forall_forall in Q3. specialize (Q3 id ltac:(apply elem_of_list_In, W1)).
            specialize (W2 x (or_introl eq_refl)). lia. }
        destruct Hh as [rest Hh].
        assert (Hb : forall i k, nth_error ks i = Some k -> cvotes (cst q) !! (id, k) = None ->
          exists r, ballot thr stored nd t q i = Some (CVote true i id r)).
        { intros i k Hk Hv. unfold ballot. rewrite (j_keys _ HJ), Hk, (j_cn _ HJ). fold nks.
          assert (Hp : thr <= pct nks nks) by (apply pct_ge; [exact Ht2|apply nks_pos|apply N.mul_le_mono_r, Ht2]). destruct (N.ltb_spec (pct nks nks) thr); [lia|].
          rewrite Hh, Hv. destruct (creqs (cst q) !! id) eqn:E; [eauto|]. destruct W as [W _]. congruence. }
        unfold ballots. revert Hb.
        assert (G : forall who q1 D1, J (cst q1) -> closed q1 \/ waiting D1 q1 -> (forall k, cvotes (cst q) !! (id, k) <> None -> D1 k) ->
          (forall i k, nth_error ks i = Some k -> cvotes (cst q) !! (id, k) = None -> exists r, ballot thr stored nd t q i = Some (CVote true i id r)) ->
          let q' := run qdo (flat_map (fun i => match ballot thr stored nd t q i with Some o => [o] | None => [] end) who) q1 in
          closed q' \/ waiting (fun k => D1 k \/ exists i, In i who /\ nth_error ks i = Some k) q').
        { clear who. induction who as [|i who IH]; intros q1 D1 HJ1 H1 HD Hb; cbv zeta.
          - cbn. destruct H1 as [H1|(H1 & H2 & H3 & H4)]; [left; exact H1|right]. split; [exact H1|]. split; [exact H2|]. split; [exact H3|].
            intros k [Hk|(j & [] & _)]. apply H4, Hk.
          - cbn [flat_map]. unfold run. rewrite fold_left_app. fold (run qdo (match ballot thr stored nd t q i with Some o => [o] | None => [] end) q1).
            set (q2 := run qdo _ q1).
            assert (H2 : J (cst q2) /\ (closed q2 \/ waiting (fun k => D1 k \/ nth_error ks i = Some k) q2)).
            { subst q2. destruct (nth_error ks i) as [k|] eqn:Ek.
              - destruct (cvotes (cst q) !! (id, k)) as [v|] eqn:Ev.
                + assert (ballot thr stored nd t q i = None) as ->.
                  { unfold ballot. rewrite (j_keys _ HJ), Ek. destruct (_ <? _); [reflexivity|]. rewrite Hh, Ev. reflexivity. }
                  cbn. split; [exact HJ1|]. destruct H1 as [H1|(A & B & B' & C)]; [left; exact H1|right]. do 3 (split; [assumption|]).
                  intros k' [Hk'|[= <-]]; [apply C, Hk'|apply C, HD; congruence].
                + destruct (Hb i k Ek Ev) as [r ->]. cbn [run fold_left]. split; [apply J_vote, HJ1|]. destruct H1 as [H1|H1]; [left; apply closed_vote, H1|].
                  destruct (waiting_own D1 q1 i k r HJ1 H1 Ek) as [H|(A & B & B' & C)]; [left; exact H|right]. do 3 (split; [assumption|]).
                  intros k' [Hk'|[= <-]]; apply C; auto.
              - assert (ballot thr stored nd t q i = None) as ->.
                { unfold ballot. rewrite (j_keys _ HJ), Ek. reflexivity. }
                cbn. split; [exact HJ1|]. destruct H1 as [H1|(A & B & B' & C)]; [left; exact H1|right]. do 3 (split; [assumption|]).
                intros k' [Hk'|Hk']; [apply C, Hk'|discriminate]. }
            destruct H2 as [HJ2 H2]. destruct (IH q2 _ HJ2 H2) as [H|(A & B & B' & C)]; [intros k Hk; left; apply HD, Hk|exact Hb|left; exact H|right].
            do 3 (split; [assumption|]). intros k [Hk|(j & [<-|Hj] & Hk)]; apply C; eauto. }
        intros Hb. destruct (G who q (fun k => D k \/ cvotes (cst q) !! (id, k) <> None) HJ) as [H|(A & B & B' & C)].
        - right. destruct W as (A & B & B' & C). do 3 (split; [assumption|]). intros k [Hk|Hk]; [apply C, Hk|exact Hk].
        - auto.
        - exact Hb.
        - left. exact H.
        - right. do 3 (split; [assumption|]). intros k [Hk|Hk]; apply C; auto.
      Qed.
      Lemma waiting_step D q h : calm h -> nextc (cst q) + 1 < 2 ^ 64 -> J (cst q) -> QI q -> waiting D q ->
        closed (hstep q h) \/ waiting (fun k => D k \/ takes_part h k) (hstep q h).
      Proof.
        intros Hc Hb HJ HQ W. destruct h as [t who|o]; [apply waiting_round; assumption|].
        assert (H : closed (hstep q (HDo o)) \/ waiting D (hstep q (HDo o))).
        { destruct o as [|cl i x r|?|?]; cbn [calm] in Hc; try contradiction; [|apply waiting_vote; assumption].
          right. destruct W as (A & B & B' & C). unfold waiting, CallQModel.hstep, CallQModel.qdo, cstep. cbn [cst queue cexec commit]. unfold ccall, wrap64.
          cbn [creqs nextc cvotes]. rewrite N.mod_small by exact Hb. split; [rewrite lookup_insert_ne by lia; exact A|].
          split; [|split; [lia|exact C]]. intros x Hx. apply in_app_or in Hx as [Hx|[<-|[]]]; [apply B, Hx|lia]. }
        destruct H as [H|(A & B & B' & C)]; [left; exact H|right]. do 3 (split; [assumption|]). intros k [Hk|[]]. apply C, Hk.
      Qed.
      Lemma waiting_run h : forall D q, Forall calm h -> nextc (cst q) + N.of_nat (length h) < 2 ^ 64 -> J (cst q) -> QI q ->
        closed q \/ waiting D q ->
        closed (run hstep h q) \/ waiting (fun k => D k \/ exists o, In o h /\ takes_part o k) (run hstep h q).
      Proof.
        induction h as [|o h IH]; intros D q Hc Hb HJ HQ W.
        - cbn. destruct W as [W|(A & B & B' & C)]; [left; exact W|right]. do 3 (split; [assumption|]). intros k [Hk|(o & [] & _)]. apply C, Hk.
        - inversion Hc as [|? ? Ho Hh]; subst. cbn [length] in Hb. change (run hstep (o :: h) q) with (run hstep h (hstep q o)).
          destruct (hstep_QI q o HQ ltac:(lia)) as [Q1 Q2].
          destruct (IH (fun k => D k \/ takes_part o k) (hstep q o) Hh ltac:(lia) (J_step q o Ho HJ) Q1) as [H|(A & B & B' & C)].
          + destruct W as [W|W]; [left; apply closed_step; [exact Ho|lia|exact W]|apply waiting_step; auto; lia].
          + left. exact H.
          + right. do 3 (split; [assumption|]). intros k [Hk|(o' & [<-|Ho'] & Hk)]; apply C; eauto.
      Qed.
      Lemma all_voted q : J (cst q) -> waiting (fun k => In k ks) q -> False.
      Proof.
        intros HJ (A & _ & _ & C). destruct (tv_list (cvotes (cst q)) id) as (V & _ & HV & Hi).
        pose proof (j_lt _ HJ id) as Hlt. rewrite <- HV in Hlt. unfold nks in Hlt.
        assert (length ks <= length V)%nat; [|lia]. apply NoDup_incl_length; [apply NoDup_ListNoDup, Hks|]. intros k Hk. apply Hi, C, Hk.
      Qed.
    End head.

    (** ** What the notaries agree on. *)
    Section agree.
      Hypothesis Hmaj : 50 < thr.
      Variables (id : N) (r : cres) (HK : list N).
      Hypothesis Hd : NoDup HK.
      Hypothesis Hin : incl HK ks.
      Hypothesis Hsh : thr * nks <= 100 * N.of_nat (length HK).
      Definition R (s : cs) : Prop :=
        (forall k v, In k HK -> cvotes s !! (id, k) = Some v -> v = r) /\ (forall r', In (id, r') (cbs s) -> r' = r).
      Lemma R_vote s cl i x v : J s -> R s -> (x = id -> forall k, nth_error ks i = Some k -> In k HK -> v = r) ->
        R (cstep thr s (CVote cl i x v)).
      Proof.
        intros HJ [R1 R2] Hf. assert (Hn : 1 <= cn s) by (rewrite (j_cn _ HJ); apply nks_pos).
        destruct (vote_voted s cl i x v Hn) as [_|k Hk Hv Hr _|k r' Hk Hv Hr Hcase].
        - split; assumption.
        - split; [|exact R2]. cbn [counted cvotes]. intros k' v' Hk' Hl. destruct (decide ((x, k) = (id, k'))) as [[= -> ->]|E].
          + rewrite lookup_insert in Hl. injection Hl as <-. apply Hf with (k := k'); auto. rewrite <- (j_keys _ HJ). exact Hk.
          + rewrite lookup_insert_ne in Hl by exact E. eapply R1; eassumption.
        - assert (Hr' : x = id -> r' = r).
          { intros ->. specialize (Hf eq_refl k). rewrite <- (j_keys _ HJ) in Hf. specialize (Hf Hk).
            set (votes := <[(id, k) := v]> (cvotes s)).
            set (ns := bump v (default [] (agg s !! id))) in *. cbv zeta in Hcase.
            assert (Hnd : NoDup (map fst ns)) by (apply bump_nodup, (cv_nodup _ (j_cv _ HJ))).
            assert (Hc : forall q, cnt q ns = N.of_nat (nvoters votes id q)).
            { intros p. unfold ns, votes. rewrite cnt_bump, (cv_cnt _ (j_cv _ HJ)), nvoters_insert, N.eqb_refl by exact Hv. cbn [andb]. case_bool_decide; lia. }
            assert (Ht : csum ns = N.of_nat (tv votes id)).
            { unfold ns, votes. rewrite csum_bump, (j_tot _ HJ), tv_insert, N.eqb_refl by exact Hv. lia. }
            assert (Hvin : forall k' w, votes !! (id, k') = Some w -> In k' ks).
            { intros k' w. unfold votes. destruct (decide ((id, k) = (id, k'))) as [[= ->]|E].
              - intros _. rewrite <- (j_keys _ HJ). eapply nth_error_In, Hk.
              - rewrite lookup_insert_ne by exact E. apply (j_in _ HJ). }
            assert (Hhon : forall k' w, In k' HK -> votes !! (id, k') = Some w -> w = r).
            { intros k' w Hk'. unfold votes. destruct (decide ((id, k) = (id, k'))) as [[= ->]|E].
              - rewrite lookup_insert. intros [= <-]. apply Hf, Hk'.
              - rewrite lookup_insert_ne by exact E. apply R1, Hk'. }
            rewrite (j_cn _ HJ) in Hcase. pose proof nks_pos as Hp.
            destruct Hcase as [(c & Hc1 & Hc2)|[Hno Hend]].
            - destruct (cres_eq r' r) as [E|E]; [exact E|exfalso].
              rewrite <- (cnt_in _ _ _ Hnd Hc1), Hc in Hc2. destruct (nvoters_list votes id r') as (V & V1 & V2 & V3).
              assert (Hl : (length (V ++ HK) <= length ks)%nat).
              { apply NoDup_incl_length.
                - apply NoDup_ListNoDup, NoDup_app. split; [exact V1|]. split; [|exact Hd]. intros y Hy1 Hy2.
                  apply elem_of_list_In in Hy1. apply elem_of_list_In in Hy2. apply V3 in Hy1. apply E. eapply Hhon; eassumption.
                - intros y Hy. apply in_app_or in Hy as [Hy|Hy]; [apply V3 in Hy; eapply Hvin, Hy|apply Hin, Hy]. }
              rewrite app_length in Hl. rewrite <- V2 in Hc2. unfold nks in *. nia.
            - exfalso. destruct (nvoters_list votes id r) as (W & W1 & W2 & W3). destruct (tv_list votes id) as (V & V1 & V2 & V3).
              set (left := List.filter (fun y => if in_dec N.eq_dec y V then false else true) ks).
              assert (L1 : (length left + length V <= length ks)%nat).
              { rewrite <- app_length. apply NoDup_incl_length.
                - apply NoDup_ListNoDup, NoDup_app. split; [apply NoDup_ListNoDup, List.NoDup_filter, NoDup_ListNoDup, Hks|]. split; [|exact V1].
                  intros y Hy1 Hy2. apply elem_of_list_In in Hy1. apply elem_of_list_In in Hy2. unfold left in Hy1. apply filter_In in Hy1 as [_ Hy1].
                  destruct (in_dec N.eq_dec y V); [discriminate|contradiction].
                - intros y Hy. apply in_app_or in Hy as [Hy|Hy]; [apply filter_In in Hy; tauto|].
                  apply V3 in Hy. destruct (votes !! (id, y)) as [w|] eqn:Ew; [eapply Hvin, Ew|congruence]. }
              assert (L2 : (length HK <= length W + length left)%nat).
              { rewrite <- app_length. apply NoDup_incl_length; [apply NoDup_ListNoDup, Hd|]. intros y Hy. apply in_or_app.
                destruct (votes !! (id, y)) as [w|] eqn:Ew.
                - left. apply W3. rewrite Ew. f_equal. eapply Hhon; eassumption.
                - right. apply filter_In. split; [apply Hin, Hy|]. destruct (in_dec N.eq_dec y V) as [Hy'|]; [|reflexivity]. apply V3 in Hy'. congruence. }
              assert (L3 : N.of_nat (length HK) <= cnt r ns + (nks - csum ns)) by (rewrite Hc, Ht, <- W2, <- V2; unfold nks; lia).
              assert (Hent : forall p, 1 <= cnt p ns -> In (p, cnt p ns) ns).
              { intros p H1. destruct (cnt_pos _ _ H1) as [c Hc1]. rewrite (cnt_in _ _ _ Hnd Hc1). exact Hc1. }
              destruct (N.eq_dec (cnt r ns) 0) as [Z|Z].
              + assert (Hv1 : 1 <= cnt v ns) by (unfold ns; rewrite cnt_bump, bool_decide_true by reflexivity; lia).
                destruct Hend as [He|He]; [rewrite He in L3; nia|]. specialize (He v (cnt v ns) (Hent v Hv1)). nia.
              + specialize (Hent r ltac:(lia)). specialize (Hno _ _ Hent). destruct Hend as [He|He]; [rewrite He in L3; nia|].
                specialize (He _ _ Hent). nia. }
          split; cbn [called cvotes cbs].
          + intros k' v' Hk' Hl. rewrite filter_look in Hl. destruct (N.eqb_spec id x) as [E|E]; [discriminate|].
            rewrite lookup_insert_ne in Hl by congruence. eapply R1; eassumption.
          + intros r0 [[= -> ->]|H]; [apply Hr'; reflexivity|apply R2, H].
      Qed.
      Definition faithful (h : hist) : Prop :=
        match h with
        | HDo (CVote _ i x v) => x = id -> forall k, nth_error ks i = Some k -> In k HK -> v = r
        | _ => True
        end.
      Hypothesis Hans : forall t i k, nth_error ks i = Some k -> In k HK -> told (try_call t (nd t i) (stored id)) = r.
      Lemma R_step q h : calm h -> faithful h -> J (cst q) -> R (cst q) -> R (cst (hstep q h)).
      Proof.
        intros Hc Hf HJ HR. destruct h as [t who|o]; cbn [CallQModel.hstep].
        - assert (G : forall q1, J (cst q1) -> R (cst q1) -> R (cst (run qdo (ballots thr stored nd t q who) q1))); [|apply G; assumption].
          clear Hc Hf. induction who as [|i who IH]; intros q1 HJ1 HR1; [exact HR1|]. unfold ballots. cbn [flat_map]. unfold run. rewrite fold_left_app.
          fold (ballots thr stored nd t q who). destruct (ballot thr stored nd t q i) as [o|] eqn:E; [|apply IH; assumption]. cbn [fold_left].
          assert (H : o = CVote true i (hd 0 (queue q)) (told (try_call t (nd t i) (stored (hd 0 (queue q)))))).
          { unfold ballot in E. destruct (nth_error _ _); [|discriminate]. destruct (_ <? _); [discriminate|].
            destruct (queue q); [discriminate|]. destruct (_ !! _); [discriminate|]. destruct (_ !! _); [|discriminate]. injection E as <-. reflexivity. }
          subst o. apply IH; [apply J_vote, HJ1|]. unfold CallQModel.qdo. cbn [cst]. apply R_vote; [exact HJ1|exact HR1|].
          intros -> k Hk Hh. eapply Hans; eassumption.
        - destruct o as [|cl i x v|?|?]; cbn [calm faithful] in *; try contradiction; [exact HR|].
          unfold CallQModel.qdo. cbn [cst]. apply R_vote; assumption.
      Qed.
      Lemma R_run h : Forall calm h -> Forall faithful h -> forall q, J (cst q) -> R (cst q) -> R (cst (run hstep h q)).
      Proof.
        induction h as [|o h IH]; intros Hc Hf q HJ HR; [exact HR|]. inversion Hc; inversion Hf; subst.
        apply (IH ltac:(assumption) ltac:(assumption) (hstep q o)); [apply J_step|apply R_step]; assumption.
      Qed.
    End agree.
  End settled.
End proofs.
