(** Properties of the eth_call oracle: C34. *)
From Verif Require Export EthyQueue.

(** Specification: the notaries that reported [r] for call [id]. *)
Definition for_res (id : N) (r : cres) (e : (N * N) * cres) : bool := (fst (fst e) =? id) && bool_decide (snd e = r).
Definition nvoters (m : gmap (N * N) cres) (id : N) (r : cres) : nat := length (List.filter (for_res id r) (map_to_list m)).

Lemma nvoters_insert m id k r id' r' : m !! (id, k) = None ->
  nvoters (<[(id, k) := r]> m) id' r' = ((if (id =? id')%N && bool_decide (r = r') then 1 else 0) + nvoters m id' r')%nat.
Proof.
  intros Hn. unfold nvoters.
  assert (HP : forall l1 l2 : list ((N * N) * cres), Permutation l1 l2 ->
    length (List.filter (for_res id' r') l1) = length (List.filter (for_res id' r') l2)).
  { intros l1 l2 H. induction H; cbn; try lia; repeat destruct (for_res _ _ _); cbn; lia. }
  rewrite (HP _ _ (map_to_list_insert m (id, k) r Hn)). cbn. unfold for_res at 1. cbn.
  destruct ((id =? id') && bool_decide (r = r')); reflexivity.
Qed.
(** Any list of distinct voters for [r] is at most [nvoters], and the list of all of them reaches it. *)
Lemma nvoters_list m id r : exists V, NoDup V /\ length V = nvoters m id r /\ forall k, In k V <-> m !! (id, k) = Some r.
Proof.
  exists (map (fun e => snd (fst e)) (List.filter (for_res id r) (map_to_list m))).
  split; [|split; [apply map_length|]].
  - pose proof (NoDup_fst_map_to_list m) as Hn. induction (map_to_list m) as [|[[i k] w] l IH]; cbn; [constructor|].
    cbn in Hn. apply NoDup_cons in Hn as [Hni Hn]. specialize (IH Hn).
    unfold for_res at 1. cbn. destruct (N.eqb_spec i id) as [E|]; cbn; [|exact IH]. case_bool_decide as Hw; [|exact IH].
    cbn. constructor; [|exact IH]. intros Hin. apply Hni. apply elem_of_list_In in Hin. apply in_map_iff in Hin as ([[i' k'] w'] & E1 & H1).
    apply filter_In in H1 as [H1 H2]. unfold for_res in H2. cbn in H2, E1. apply andb_true_iff in H2 as [H2 _]. apply N.eqb_eq in H2.
    subst. apply elem_of_list_In, in_map_iff. exists (id, k, w'). split; [reflexivity|exact H1].
  - intros k. rewrite in_map_iff. split.
    + intros ([[i k'] w] & E & Hin). cbn in E. subst k'. apply filter_In in Hin as [Hin Hb]. unfold for_res in Hb. cbn in Hb.
      apply andb_true_iff in Hb as [Hi Hw]. apply N.eqb_eq in Hi. apply bool_decide_eq_true in Hw. subst.
      apply elem_of_list_In, elem_of_map_to_list in Hin. exact Hin.
    + intros H. exists ((id, k), r). split; [reflexivity|]. apply filter_In. split.
      * apply elem_of_list_In, elem_of_map_to_list. exact H.
      * unfold for_res. cbn. rewrite N.eqb_refl. apply bool_decide_eq_true. reflexivity.
Qed.
Lemma voters_le m id r V : NoDup V -> (forall k, In k V -> m !! (id, k) = Some r) -> (length V <= nvoters m id r)%nat.
Proof.
  intros Hd HV. destruct (nvoters_list m id r) as (W & _ & HW & Hi). rewrite <- HW.
  apply NoDup_incl_length; [apply NoDup_ListNoDup; exact Hd|]. intros k Hk. apply Hi, HV, Hk.
Qed.

(** The aggregate. *)
Definition cnt (r : cres) (l : list (cres * N)) : N := sumL (map snd (List.filter (fun e => bool_decide (fst e = r)) l)).
Lemma cnt_cons r q c l : cnt r ((q, c) :: l) = (if bool_decide (q = r) then c else 0) + cnt r l.
Proof. unfold cnt. cbn [List.filter fst]. case_bool_decide; reflexivity. Qed.
Lemma cnt_bump r r' l : cnt r' (bump r l) = cnt r' l + (if bool_decide (r = r') then 1 else 0).
Proof.
  induction l as [|[q c] l IH]; cbn [bump].
  - rewrite cnt_cons. unfold cnt. cbn. lia.
  - destruct (decide (q = r)) as [->|Hne]; rewrite !cnt_cons.
    + case_bool_decide; lia.
    + rewrite IH. lia.
Qed.
Lemma csum_cons q c l : csum ((q, c) :: l) = c + csum l.
Proof. reflexivity. Qed.
Lemma csum_bump r l : csum (bump r l) = csum l + 1.
Proof.
  induction l as [|[q c] l IH]; [reflexivity|]. cbn [bump]. destruct (decide (q = r)); rewrite !csum_cons; [lia|rewrite IH; lia].
Qed.
Lemma fsts_bump r l : forall q, In q (map fst (bump r l)) <-> q = r \/ In q (map fst l).
Proof.
  induction l as [|[p c] l IH]; intros q; cbn [bump map In fst].
  - cbn. intuition.
  - destruct (decide (p = r)) as [->|Hne]; cbn [map In fst]; [intuition|]. rewrite IH. intuition.
Qed.
Lemma bump_nodup r l : NoDup (map fst l) -> NoDup (map fst (bump r l)).
Proof.
  induction l as [|[p c] l IH]; intros Hn; cbn [bump map fst] in *.
  - apply NoDup_singleton.
  - apply NoDup_cons in Hn as [Hni Hn]. destruct (decide (p = r)) as [->|Hne]; cbn [map fst].
    + constructor; assumption.
    + constructor; [|apply IH, Hn]. intros H. apply elem_of_list_In, fsts_bump in H as [H|H]; [congruence|].
      apply Hni, elem_of_list_In, H.
Qed.
Lemma cnt_absent q l : ~ In q (map fst l) -> cnt q l = 0.
Proof.
  unfold cnt. induction l as [|[p c] l IH]; intros H; cbn [List.filter map fst In] in *; [reflexivity|].
  rewrite bool_decide_false by tauto. apply IH. tauto.
Qed.
Lemma cnt_in q c l : NoDup (map fst l) -> In (q, c) l -> cnt q l = c.
Proof.
  induction l as [|[p d] l IH]; intros Hn Hin; [destruct Hin|]. cbn [map fst] in Hn. apply NoDup_cons in Hn as [Hni Hn].
  destruct Hin as [[= -> ->]|Hin].
  - rewrite cnt_cons, bool_decide_true by reflexivity. rewrite cnt_absent; [lia|]. intros H. apply Hni, elem_of_list_In, H.
  - rewrite cnt_cons. case_bool_decide as E.
    + exfalso. apply Hni, elem_of_list_In. subst p. apply in_map_iff. exists (q, c). split; [reflexivity|exact Hin].
    + apply IH; assumption.
Qed.
Lemma cnt_pos q l : 1 <= cnt q l -> exists c, In (q, c) l.
Proof.
  intros H. destruct (in_dec cres_eq q (map fst l)) as [Hi|Hi].
  - apply in_map_iff in Hi as ([q' c] & E & Hi). cbn in E. subst. exists c. exact Hi.
  - rewrite cnt_absent in H by exact Hi. lia.
Qed.

Record CV (s : cs) : Prop := mkCV {
  cv_none : forall id, creqs s !! id = None -> agg s !! id = None /\ forall k, cvotes s !! (id, k) = None;
  cv_nodup : forall id, NoDup (map fst (default [] (agg s !! id)));
  cv_cnt : forall id r, cnt r (default [] (agg s !! id)) = N.of_nat (nvoters (cvotes s) id r) }.

Lemma nvoters_none m id r : (forall k, m !! (id, k) = None) -> nvoters m id r = 0%nat.
Proof.
  intros H. destruct (nvoters_list m id r) as (V & _ & HV & Hi). rewrite <- HV.
  destruct V as [|k V]; [reflexivity|]. specialize (proj1 (Hi k) (or_introl eq_refl)). rewrite H. discriminate.
Qed.
Lemma nvoters_ext m m' id r : (forall k, m !! (id, k) = m' !! (id, k)) -> nvoters m id r = nvoters m' id r.
Proof.
  intros H. destruct (nvoters_list m id r) as (V & HN & HV & Hi). destruct (nvoters_list m' id r) as (V' & HN' & HV' & Hi').
  rewrite <- HV, <- HV'. apply Nat.le_antisymm; apply NoDup_incl_length; try (apply NoDup_ListNoDup; assumption);
    intros k Hk; [apply Hi'; rewrite <- H; apply Hi, Hk|apply Hi; rewrite H; apply Hi', Hk].
Qed.

Lemma callback_CV s cl id r s' : (forall i, i <> id -> creqs s !! i = None -> agg s !! i = None /\ forall k, cvotes s !! (i, k) = None) ->
  (forall i, i <> id -> NoDup (map fst (default [] (agg s !! i)))) ->
  (forall i q, i <> id -> cnt q (default [] (agg s !! i)) = N.of_nat (nvoters (cvotes s) i q)) ->
  callback s cl id r = Ok s' -> CV s'.
Proof.
  intros H1 H2 H3 H. unfold callback in H. inv_ok. subst s'.
  assert (Hv : forall i k, filter (fun e : N * N * cres => fst (fst e) <> id) (cvotes s) !! (i, k) = if i =? id then None else cvotes s !! (i, k)).
  { intros i k. destruct (N.eqb_spec i id) as [Ei|Hne].
    - subst i. apply map_filter_lookup_None. right. intros x _ Hx. apply Hx. reflexivity.
    - destruct (cvotes s !! (i, k)) eqn:El.
      + apply map_filter_lookup_Some. split; [exact El|]. exact Hne.
      + apply map_filter_lookup_None. left. exact El. }
  constructor; cbn [creqs agg cvotes].
  - intros i Hi. destruct (N.eq_dec i id) as [Ei|Hne].
    + subst i. split; [apply lookup_delete|]. intros k. rewrite Hv, N.eqb_refl. reflexivity.
    + rewrite lookup_delete_ne in Hi by congruence. destruct (H1 i Hne Hi) as [A B]. split.
      * rewrite lookup_delete_ne by congruence. exact A.
      * intros k. rewrite Hv. destruct (i =? id); [reflexivity|apply B].
  - intros i. destruct (N.eq_dec i id) as [Ei|Hne].
    + subst i. rewrite lookup_delete. apply NoDup_nil_2.
    + rewrite lookup_delete_ne by congruence. apply H2, Hne.
  - intros i q. destruct (N.eq_dec i id) as [Ei|Hne].
    + subst i. rewrite lookup_delete. rewrite nvoters_none; [reflexivity|]. intros k. rewrite Hv, N.eqb_refl. reflexivity.
    + rewrite lookup_delete_ne by congruence. rewrite H3 by exact Hne. f_equal. apply nvoters_ext. intros k. rewrite Hv.
      destruct (N.eqb_spec i id); [contradiction|reflexivity].
Qed.

Lemma cexec_CV thr s o s' : CV s -> cexec thr s o = Ok s' -> CV s'.
Proof.
  intros HC H. destruct o as [|cl idx id r|ks|n]; cbn [cexec] in H.
  - inv_ok. try subst s'. destruct HC as [A B C]. unfold ccall. constructor; cbn [creqs agg cvotes]; [|exact B|exact C].
    intros i Hi. apply A. destruct (N.eq_dec (nextc s) i) as [E|Hne].
    + subst i. rewrite lookup_insert in Hi. discriminate.
    + rewrite lookup_insert_ne in Hi by exact Hne. exact Hi.
  - unfold cnotarize in H. inv_ok. destruct (cvotes s !! (id, v)) eqn:Ev; [discriminate|].
    unfold handle_call_vote in H. inv_ok. destruct (creqs s !! id) eqn:Er; [|discriminate].
    destruct HC as [A B C].
    assert (H1 : forall i, i <> id -> creqs s !! i = None -> agg s !! i = None /\ forall k, <[(id, v) := r]> (cvotes s) !! (i, k) = None).
    { intros i Hne Hi. destruct (A i Hi) as [A1 A2]. split; [exact A1|]. intros k. rewrite lookup_insert_ne by congruence. apply A2. }
    assert (H3 : forall i q, i <> id -> cnt q (default [] (agg s !! i)) = N.of_nat (nvoters (<[(id, v) := r]> (cvotes s)) i q)).
    { intros i q Hne. rewrite C. f_equal. apply nvoters_ext. intros k. rewrite lookup_insert_ne by congruence. reflexivity. }
    assert (Hcb : forall cl q s', callback (Cs (creqs s) (<[(id, v) := r]> (cvotes s)) (agg s) (ckeys s) (cn s) (nextc s) (cbs s)) cl id q = Ok s' -> CV s').
    { intros cl' q t Ht. eapply callback_CV; [| | |exact Ht]; cbn [creqs agg cvotes]; [exact H1|intros i _; apply B|exact H3]. }
    destruct (List.find _ _) as [[q c]|]; [apply Hcb in H; exact H|].
    destruct ((_ =? _) || _) eqn:Ec; [apply Hcb in H; exact H|]. inv_ok. try subst s'.
    constructor; cbn [creqs agg cvotes].
    + intros i Hi. destruct (N.eq_dec i id) as [E'|Hne]; [subst i; congruence|].
      rewrite lookup_insert_ne by congruence. apply H1; assumption.
    + intros i. destruct (N.eq_dec i id) as [E'|Hne].
      * subst i. rewrite lookup_insert. apply bump_nodup, B.
      * rewrite lookup_insert_ne by congruence. apply B.
    + intros i q. destruct (N.eq_dec i id) as [E'|Hne].
      * subst i. rewrite lookup_insert. change (cnt q (bump r (default [] (agg s !! id))) = N.of_nat (nvoters (<[(id, v) := r]> (cvotes s)) id q)).
        rewrite cnt_bump, nvoters_insert, N.eqb_refl by exact Ev. cbn [andb].
        rewrite C. case_bool_decide; lia.
      * rewrite lookup_insert_ne by congruence. apply H3, Hne.
  - inv_ok. try subst s'. destruct HC as [A B C]. constructor; assumption.
  - inv_ok. try subst s'. destruct HC as [A B C]. constructor; assumption.
Qed.
Definition creach (thr : N) (ks : list N) (ops : list cop) : cs := run (cstep thr) ops (cinit ks).
Lemma creach_CV thr ks ops : CV (creach thr ks ops).
Proof.
  unfold creach. apply run_inv.
  - intros s o H. unfold cstep. destruct (cexec thr s o) eqn:E; cbn [commit]; [eapply cexec_CV; eassumption|exact H].
  - constructor; cbn [cinit creqs agg cvotes].
    + intros id _. split; [apply lookup_empty|]. intros k. apply lookup_empty.
    + intros id. rewrite lookup_empty. apply NoDup_nil_2.
    + intros id r. rewrite lookup_empty. rewrite nvoters_none; [reflexivity|]. intros k. apply lookup_empty.
Qed.

(** ** C34 *)
(** A vote that completes a call: either the threshold share of distinct notaries reported exactly the
    result passed on, or no result has that share and the LAST reported result is passed on. *)
Theorem C34_consensus_or_last_partial thr ks ops cl idx id r key r' s' : thr <= 100 ->
  let s := creach thr ks ops in
  nth_error (ckeys s) idx = Some key ->
  cexec thr s (CVote cl idx id r) = Ok s' -> cbs s' = (id, r') :: cbs s ->
  let votes := <[(id, key) := r]> (cvotes s) in
  (exists V, NoDup V /\ (forall k, In k V -> votes !! (id, k) = Some r') /\ thr * cn s <= 100 * N.of_nat (length V))
  \/ (r' = r /\ forall q V, 1 <= cn s -> 1 <= thr -> NoDup V -> (forall k, In k V -> votes !! (id, k) = Some q) ->
        100 * N.of_nat (length V) < thr * cn s).
Proof.
  intros Ht s Hk H Hcb votes. pose proof (creach_CV thr ks ops) as HC. fold s in HC. clearbody s.
  cbn [cexec] in H. unfold cnotarize in H. rewrite Hk in H. cbn [of_opt rbind] in H.
  destruct (cvotes s !! (id, key)) eqn:Ev; [discriminate|]. cbn [ensure rbind] in H.
  unfold handle_call_vote in H. destruct (creqs s !! id) eqn:Er; [|discriminate]. cbn [ensure rbind] in H.
  set (ns := bump r (default [] (agg s !! id))) in *.
  assert (Hnd : NoDup (map fst ns)) by (apply bump_nodup, (cv_nodup _ HC)).
  assert (Hc : forall q, cnt q ns = N.of_nat (nvoters votes id q)).
  { intros q. unfold ns, votes. rewrite cnt_bump, (cv_cnt _ HC), nvoters_insert, N.eqb_refl by exact Ev. cbn [andb]. case_bool_decide; lia. }
  clearbody ns.
  destruct (List.find _ ns) as [[q c]|] eqn:Ef.
  - left. unfold callback in H. inv_ok. subst s'. cbn [cbs] in Hcb. injection Hcb as Hq. subst q.
    apply find_some in Ef as [Hin Hp]. cbn [snd] in Hp. apply N.leb_le in Hp.
    apply pct_ge_imp in Hp; [|exact Ht]. rewrite <- (cnt_in _ _ _ Hnd Hin), Hc in Hp.
    destruct (nvoters_list votes id r') as (V & HV & HL & Hi). exists V.
    split; [exact HV|]. split; [intros k Hk'; apply Hi, Hk'|]. rewrite HL. exact Hp.
  - right.
    assert (Hno : forall q V, 1 <= cn s -> 1 <= thr -> NoDup V -> (forall k, In k V -> votes !! (id, k) = Some q) ->
        100 * N.of_nat (length V) < thr * cn s).
    { intros q V Hn1 Ht1 HV Hvs. pose proof (voters_le votes id q V HV Hvs) as Hle.
      destruct (N.le_gt_cases (thr * cn s) (100 * N.of_nat (length V))) as [Hge|Hlt]; [|exact Hlt]. exfalso.
      assert (Hge' : thr * cn s <= 100 * cnt q ns) by (rewrite Hc; nia).
      assert (H1 : 1 <= cnt q ns) by nia.
      destruct (cnt_pos _ _ H1) as [c Hin]. rewrite (cnt_in _ _ _ Hnd Hin) in Hge'.
      pose proof (find_none _ _ Ef _ Hin) as Hf. cbn [snd] in Hf. apply N.leb_gt in Hf.
      apply pct_ge in Hge'; [lia|exact Ht|exact Hn1]. }
    split; [|exact Hno].
    destruct ((_ =? _) || _); unfold callback in H; inv_ok; subst s'; cbn [cbs] in Hcb.
    + injection Hcb as Hq. symmetry. exact Hq.
    + exfalso. apply (f_equal (@length _)) in Hcb. cbn in Hcb. lia.
Qed.

(** A result the threshold share agrees on is reported as soon as the share is reached. *)
Theorem C34_reported thr ks ops cl idx id r key s' : thr <= 100 ->
  let s := creach thr ks ops in
  1 <= cn s -> 1 <= thr -> nth_error (ckeys s) idx = Some key ->
  cexec thr s (CVote cl idx id r) = Ok s' ->
  (exists q V, NoDup V /\ (forall k, In k V -> <[(id, key) := r]> (cvotes s) !! (id, k) = Some q) /\ thr * cn s <= 100 * N.of_nat (length V)) ->
  exists q V, cbs s' = (id, q) :: cbs s /\ creqs s' !! id = None
    /\ NoDup V /\ (forall k, In k V -> <[(id, key) := r]> (cvotes s) !! (id, k) = Some q) /\ thr * cn s <= 100 * N.of_nat (length V).
Proof.
  intros Ht s Hn1 Ht1 Hk H (q & V & HV & Hvs & Hge). pose proof (creach_CV thr ks ops) as HC. fold s in HC. clearbody s.
  set (votes := <[(id, key) := r]> (cvotes s)) in *.
  cbn [cexec] in H. unfold cnotarize in H. rewrite Hk in H. cbn [of_opt rbind] in H.
  destruct (cvotes s !! (id, key)) eqn:Ev; [discriminate|]. cbn [ensure rbind] in H.
  unfold handle_call_vote in H. destruct (creqs s !! id) eqn:Er; [|discriminate]. cbn [ensure rbind] in H.
  set (ns := bump r (default [] (agg s !! id))) in *.
  assert (Hnd : NoDup (map fst ns)) by (apply bump_nodup, (cv_nodup _ HC)).
  assert (Hc : forall q, cnt q ns = N.of_nat (nvoters votes id q)).
  { intros p. unfold ns, votes. rewrite cnt_bump, (cv_cnt _ HC), nvoters_insert, N.eqb_refl by exact Ev. cbn [andb]. case_bool_decide; lia. }
  clearbody ns.
  assert (Hge' : thr * cn s <= 100 * cnt q ns) by (rewrite Hc; pose proof (voters_le votes id q V HV Hvs); nia).
  destruct (List.find _ ns) as [[p c]|] eqn:Ef.
  - unfold callback in H. inv_ok. subst s'. cbn [cbs creqs].
    apply find_some in Ef as [Hin Hp]. cbn [snd] in Hp. apply N.leb_le in Hp.
    apply pct_ge_imp in Hp; [|exact Ht]. rewrite <- (cnt_in _ _ _ Hnd Hin), Hc in Hp.
    destruct (nvoters_list votes id p) as (W & HW & HL & Hi). exists p, W.
    split; [reflexivity|]. split; [apply lookup_delete|].
    split; [exact HW|]. split; [intros k Hk'; apply Hi, Hk'|]. rewrite HL. exact Hp.
  - exfalso. assert (H1 : 1 <= cnt q ns) by nia.
    destruct (cnt_pos _ _ H1) as [c Hin]. rewrite (cnt_in _ _ _ Hnd Hin) in Hge'.
    pose proof (find_none _ _ Ef _ Hin) as Hf. cbn [snd] in Hf. apply N.leb_gt in Hf.
    apply pct_ge in Hge'; [lia|exact Ht|exact Hn1].
Qed.

(** Every call is answered at most once. *)
Definition answers (id : N) (l : list (N * cres)) : nat := length (List.filter (fun e => fst e =? id) l).
Definition cgood (s : cs) (o : cop) : Prop := nextc s + 1 < 2 ^ 64.
Record CO (s : cs) : Prop := mkCO {
  co_new : forall id, nextc s <= id -> creqs s !! id = None /\ answers id (cbs s) = 0%nat;
  co_one : forall id, (answers id (cbs s) + (match creqs s !! id with Some _ => 1 | None => 0 end) <= 1)%nat }.
Lemma callback_CO s cl id r s' : creqs s !! id <> None -> CO s -> callback s cl id r = Ok s' -> CO s'.
Proof.
  intros Hr [A B] H. unfold callback in H. inv_ok. subst s'. constructor; cbn [nextc creqs cbs].
  - intros i Hi. destruct (A i Hi) as [A1 A2]. assert (Hne : i <> id) by congruence.
    rewrite lookup_delete_ne by congruence. split; [exact A1|]. unfold answers in *. cbn.
    destruct (N.eqb_spec id i); [congruence|exact A2].
  - intros i. specialize (B i). unfold answers in *. cbn. destruct (N.eqb_spec id i) as [Ei|Hne].
    + subst i. rewrite lookup_delete. cbn. destruct (creqs s !! id); [|congruence]. lia.
    + rewrite lookup_delete_ne by assumption. exact B.
Qed.
Lemma cstep_CO thr s o : cgood s o -> CO s -> CO (cstep thr s o).
Proof.
  intros Hg HC. unfold cstep. destruct (cexec thr s o) as [s'|] eqn:H; cbn [commit]; [|exact HC].
  destruct o as [|cl idx id r|ks|n]; cbn [cexec] in H.
  - inv_ok. subst s'. destruct HC as [A B]. unfold ccall. unfold cgood in Hg.
    assert (Hw : wrap64 (nextc s + 1) = nextc s + 1) by (apply N.mod_small; exact Hg).
    constructor; cbn [nextc creqs cbs]; rewrite ?Hw.
    + intros i Hi. rewrite lookup_insert_ne by lia. apply A. lia.
    + intros i. destruct (N.eq_dec (nextc s) i) as [Ei|Hne].
      * subst i. rewrite lookup_insert. destruct (A (nextc s) ltac:(lia)) as [_ A2]. lia.
      * rewrite lookup_insert_ne by assumption. apply B.
  - unfold cnotarize in H. inv_ok. unfold handle_call_vote in H. inv_ok. destruct (creqs s !! id) eqn:Er; [|discriminate].
    assert (Hcb : forall cl q s', callback (Cs (creqs s) (<[(id, v) := r]> (cvotes s)) (agg s) (ckeys s) (cn s) (nextc s) (cbs s)) cl id q = Ok s' -> CO s').
    { intros cl' q t Ht. eapply callback_CO; [| |exact Ht]; cbn [creqs]; [congruence|]. destruct HC as [A B]. constructor; assumption. }
    destruct (List.find _ _) as [[q c]|]; [apply Hcb in H; exact H|].
    destruct ((_ =? _) || _) eqn:Ec; [apply Hcb in H; exact H|]. inv_ok. subst s'.
    destruct HC as [A B]. constructor; assumption.
  - inv_ok. subst s'. destruct HC as [A B]. constructor; assumption.
  - inv_ok. subst s'. destruct HC as [A B]. constructor; assumption.
Qed.
Theorem C34_answered_once thr ks ops id : along (cstep thr) cgood ops (cinit ks) ->
  (answers id (cbs (creach thr ks ops)) <= 1)%nat.
Proof.
  intros Hg. assert (HC : CO (creach thr ks ops)).
  { apply (run_along (cstep thr) cgood CO (cstep_CO thr) ops (cinit ks) Hg).
    constructor; cbn [cinit nextc creqs cbs].
    - intros i _. split; [apply lookup_empty|reflexivity].
    - intros i. rewrite lookup_empty. cbn. lia. }
  pose proof (co_one _ HC id). lia.
Qed.

(** Three of four notaries agree (75% >= 66%): the agreed result is reported. *)
Definition call_ex := [CCall; CVote true 0 0 (ROk 5 10 20); CVote true 1 0 (RFail 1); CVote true 2 0 (ROk 5 10 20)].
Example C34_example : exists s', cexec 66 (creach 66 [11; 12; 13; 14] call_ex) (CVote true 3 0 (ROk 5 10 20)) = Ok s'
  /\ cbs s' = [(0, ROk 5 10 20)] /\ cbs (creach 66 [11; 12; 13; 14] call_ex) = []
  /\ NoDup [11; 13; 14]
  /\ forall k, In k [11; 13; 14] -> <[(0, 14) := ROk 5 10 20]> (cvotes (creach 66 [11; 12; 13; 14] call_ex)) !! (0, k) = Some (ROk 5 10 20).
Proof.
  destruct (cexec 66 (creach 66 [11; 12; 13; 14] call_ex) (CVote true 3 0 (ROk 5 10 20))) as [t|] eqn:E.
  - exists t. split; [reflexivity|]. split.
    + assert (Hl : match cexec 66 (creach 66 [11; 12; 13; 14] call_ex) (CVote true 3 0 (ROk 5 10 20)) with Ok u => cbs u | Err _ => [] end = [(0, ROk 5 10 20)])
        by (vm_compute; reflexivity).
      rewrite E in Hl. exact Hl.
    + split; [vm_compute; reflexivity|]. split; [apply (bool_decide_unpack _); vm_compute; exact Logic.I|].
      intros k [<-|[<-|[<-|[]]]]; vm_compute; reflexivity.
  - exfalso. assert (Hl : is_ok (cexec 66 (creach 66 [11; 12; 13; 14] call_ex) (CVote true 3 0 (ROk 5 10 20))) = true) by (vm_compute; reflexivity).
    rewrite E in Hl. discriminate.
Qed.
(** Three notaries report three different things: the last one's result is reported as THE result,
    with a third of the votes against a threshold of 66%. *)
Theorem C34_last_voter_refuted : exists ks ops id d b t,
  let s := creach 66 ks ops in
  In (id, ROk d b t) (cbs (run (cstep 66) [CVote true 2 id (ROk d b t)] s))
  /\ (forall k, In k ks -> cvotes s !! (id, k) <> Some (ROk d b t))
  /\ cn s = 3.
Proof.
  exists [11; 12; 13], [CCall; CVote true 0 0 (ROk 5 10 20); CVote true 1 0 (RFail 1)], 0, 666, 10, 20.
  cbv zeta. split; [vm_compute; tauto|]. split; [|vm_compute; reflexivity].
  intros k [<-|[<-|[<-|[]]]]; vm_compute; discriminate.
Qed.

Print Assumptions C34_consensus_or_last_partial.
Print Assumptions C34_reported.
Print Assumptions C34_answered_once.
Print Assumptions C34_last_voter_refuted.
