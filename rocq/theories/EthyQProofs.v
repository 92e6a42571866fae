(** Invariants of the event proof queue. *)
From Verif Require Export EthyQueue.

(** Specification on the log: how often was proof [id] requested, and put in a block. *)
Fixpoint reqs (id : N) (l : list qev) : nat :=
  match l with [] => 0%nat | QReq i _ :: l' => ((if (i =? id)%N then 1 else 0) + reqs id l')%nat | _ :: l' => reqs id l' end.
Fixpoint emits (id : N) (l : list qev) : nat :=
  match l with [] => 0%nat | QEmit i _ :: l' => ((if (i =? id)%N then 1 else 0) + emits id l')%nat | _ :: l' => emits id l' end.
Fixpoint nemits (l : list qev) : nat :=
  match l with [] => 0%nat | QEmit _ _ :: l' => S (nemits l') | _ :: l' => nemits l' end.
Definition waiting (id : N) (s : qs) : nat := match pendq s !! id with Some _ => 1%nat | None => 0%nat end.

Record QI (s : qs) : Prop := mkQI {
  q_bal : forall id, (emits id (qlog s) + waiting id s = reqs id (qlog s))%nat;
  q_new : forall id, nextp s <= id -> reqs id (qlog s) = 0%nat;
  q_one : forall id, (reqs id (qlog s) <= 1)%nat;
  q_set : forall id set msg, pendq s !! id = Some (REth set msg) -> set <= setid s }.

Definition same_ids (s s' : qs) : Prop := nextp s' = nextp s /\ (forall id, reqs id (qlog s') = reqs id (qlog s)) /\ setid s' = setid s.

Lemma waiting_insert id r s m n a b p l :
  waiting id (Qs m a n b (<[id := r]> (pendq s)) p l) = 1%nat.
Proof. unfold waiting. cbn [pendq]. rewrite lookup_insert. reflexivity. Qed.

(** One request under a fresh id. *)
Lemma request_QI s id r : QI s -> nextp s <> 0 \/ True ->
  reqs id (qlog s) = 0%nat -> id < nextp s -> (match r with REth set _ => set <= setid s | _ => True end) ->
  QI (request_proof (qlogged s (QReq id r)) id r).
Proof.
  intros [Hb Hn H1 Hs] _ H0 Hlt Hset.
  assert (Hw : emits id (qlog s) = 0%nat /\ waiting id s = 0%nat) by (specialize (Hb id); lia).
  destruct Hw as [He Hw].
  assert (Hp : pendq s !! id = None) by (unfold waiting in Hw; destruct (pendq s !! id); [lia|reflexivity]).
  unfold request_proof. change (paused (qlogged s (QReq id r))) with (paused s).
  destruct (paused s); constructor; cbn [qlogged manual authch nextp setid pendq perblk qlog].
  - intros i. unfold waiting. cbn [qlogged pendq reqs emits]. destruct (N.eqb_spec id i) as [E|Hne].
    + subst i. rewrite lookup_insert. lia.
    + rewrite lookup_insert_ne by assumption. specialize (Hb i). unfold waiting in Hb. lia.
  - intros i Hi. cbn [reqs]. destruct (N.eqb_spec id i) as [E|Hne]; [lia|]. rewrite Hn by assumption. reflexivity.
  - intros i. cbn [reqs]. destruct (N.eqb_spec id i) as [E|Hne]; [subst i; lia|]. specialize (H1 i). lia.
  - intros i set msg. destruct (decide (id = i)) as [E|Hne].
    + subst i. rewrite lookup_insert. intros [= ->]. exact Hset.
    + rewrite lookup_insert_ne by assumption. apply Hs.
  - intros i. unfold waiting. cbn [qlogged pendq reqs emits]. specialize (Hb i). unfold waiting in Hb.
    destruct (N.eqb_spec id i) as [E|Hne]; [subst i; lia|lia].
  - intros i Hi. cbn [reqs]. destruct (N.eqb_spec id i) as [E|Hne]; [lia|]. rewrite Hn by assumption. reflexivity.
  - intros i. cbn [reqs]. destruct (N.eqb_spec id i) as [E|Hne]; [subst i; lia|]. specialize (H1 i). lia.
  - exact Hs.
Qed.

Lemma wrap64_lt n : n < 2 ^ 64 -> wrap64 n = n.
Proof. intros H. apply N.mod_small. exact H. Qed.
Lemma take_QI s : nextp s + 1 < 2 ^ 64 -> QI s -> QI (take_id s).
Proof.
  intros Hlt [Hb Hn H1 Hs]. unfold take_id. rewrite wrap64_lt by assumption.
  constructor; cbn [nextp setid pendq qlog]; [exact Hb| |exact H1|exact Hs].
  intros i Hi. apply Hn. lia.
Qed.
Lemma send_QI s fits mk : nextp s + 1 < 2 ^ 64 -> (match mk (setid s) with REth set _ => set <= setid s | _ => True end) ->
  QI s -> QI (fst (send s fits mk)).
Proof.
  intros Hlt Hmk HQ. unfold send. destruct fits; cbn [fst]; [|apply take_QI; assumption].
  apply request_QI; [apply take_QI; assumption|right; exact Logic.I| | |exact Hmk].
  - cbn [take_id qlog]. apply (q_new _ HQ). lia.
  - cbn [take_id nextp]. rewrite wrap64_lt by assumption. lia.
Qed.
Lemma send_nextp s fits mk : nextp (fst (send s fits mk)) = wrap64 (nextp s + 1).
Proof.
  unfold send. destruct fits; cbn [fst]; [|reflexivity].
  unfold request_proof. destruct (paused _); reflexivity.
Qed.
Lemma send_setid s fits mk : setid (fst (send s fits mk)) = setid s.
Proof. unfold send. destruct fits; cbn [fst]; [|reflexivity]. unfold request_proof. destruct (paused _); reflexivity. Qed.
Lemma send_flags s fits mk : manual (fst (send s fits mk)) = manual s /\ authch (fst (send s fits mk)) = authch s
  /\ perblk (fst (send s fits mk)) = perblk s.
Proof. unfold send. destruct fits; cbn [fst]; [|repeat split]. unfold request_proof. destruct (paused _); repeat split. Qed.

Lemma xr_QI xr : forall s, nextp s + N.of_nat (length xr) < 2 ^ 64 -> QI s ->
  QI (fold_left (fun t (d : bool * N) => fst (send_xrp t (fst d) (snd d))) xr s).
Proof.
  induction xr as [|d xr IH]; intros s Hlt HQ; cbn [fold_left length] in *; [exact HQ|].
  apply IH.
  - unfold send_xrp. rewrite send_nextp, wrap64_lt by lia. lia.
  - unfold send_xrp. apply send_QI; [lia|exact Logic.I|exact HQ].
Qed.
Lemma auth_logged_QI s id set : QI s -> QI (qlogged s (QAuth id set)).
Proof. intros [Hb Hn H1 Hs]. constructor; cbn [qlogged pendq qlog reqs emits nextp setid]; assumption. Qed.
Lemma flags_QI s m a p : QI s -> QI (Qs m a (nextp s) (setid s) (pendq s) p (qlog s)).
Proof. intros [Hb Hn H1 Hs]. constructor; cbn [pendq qlog nextp setid]; assumption. Qed.
Lemma change_QI s fits msg xr : nextp s + 1 + N.of_nat (length xr) < 2 ^ 64 -> QI s ->
  QI (change_authorities s fits msg xr).
Proof.
  intros Hlt HQ. unfold change_authorities. apply flags_QI. apply xr_QI.
  - destruct (send_eth s fits msg) as [s' o] eqn:E.
    assert (Hn : nextp s' = wrap64 (nextp s + 1)) by (rewrite <- (send_nextp s fits (fun set => REth set msg)); unfold send_eth in E; rewrite E; reflexivity).
    rewrite wrap64_lt in Hn by lia. destruct o; cbn [qlogged nextp]; rewrite Hn; lia.
  - pose proof (send_QI s fits (fun set => REth set msg) ltac:(lia) (N.le_refl _) HQ) as H.
    unfold send_eth. destruct (send s fits _) as [s' o]; cbn [fst] in H.
    destruct o; [apply auth_logged_QI|]; exact H.
Qed.

(** Draining. *)
Lemma drain1_QI s id r : paused s = false -> pendq s !! id = Some r -> QI s -> QI (drain1 s (id, r)).
Proof.
  intros Hp Hl [Hb Hn H1 Hs]. unfold drain1, request_proof. cbn [fst snd].
  replace (paused _) with (paused s) by reflexivity. rewrite Hp.
  constructor; cbn [qlogged nextp setid pendq qlog].
  - intros i. unfold waiting. cbn [qlogged pendq reqs emits]. specialize (Hb i). unfold waiting in Hb.
    destruct (N.eqb_spec id i) as [E|Hne].
    + subst i. rewrite lookup_delete. rewrite Hl in Hb. lia.
    + rewrite lookup_delete_ne by assumption. lia.
  - exact Hn.
  - exact H1.
  - intros i set msg Hi. apply lookup_delete_Some in Hi. apply (Hs i set msg). tauto.
Qed.
Lemma drain1_frame s e : paused s = false -> paused (drain1 s e) = false /\ pendq (drain1 s e) = delete (fst e) (pendq s)
  /\ nextp (drain1 s e) = nextp s /\ setid (drain1 s e) = setid s /\ perblk (drain1 s e) = perblk s
  /\ (exists r, qlog (drain1 s e) = QEmit (fst e) r :: qlog s).
Proof.
  intros Hp. unfold drain1, request_proof.
  assert (Ht : paused (Qs (manual s) (authch s) (nextp s) (setid s) (delete (fst e) (pendq s)) (perblk s) (qlog s)) = false) by exact Hp.
  rewrite Ht.
  cbn [qlogged pendq nextp setid perblk qlog]. repeat split; try assumption. eexists. reflexivity.
Qed.
Lemma drain_spec l : forall s, paused s = false -> NoDup (map fst l) -> (forall id r, In (id, r) l -> pendq s !! id = Some r) -> QI s ->
  let s' := fold_left drain1 l s in
  QI s' /\ paused s' = false /\ nextp s' = nextp s /\ setid s' = setid s /\ perblk s' = perblk s
  /\ (size (pendq s') + length l = size (pendq s))%nat
  /\ (forall id, pendq s' !! id = if bool_decide (id ∈ map fst l) then None else pendq s !! id).
Proof.
  induction l as [|[id r] l IH]; intros s Hp Hnd Hin HQ; cbn [fold_left length map] in *.
  - cbv zeta. do 5 (split; [first [assumption|reflexivity]|]). split; [lia|].
    intros i. rewrite bool_decide_false; [reflexivity|apply not_elem_of_nil].
  - apply NoDup_cons in Hnd as [Hni Hnd].
    destruct (drain1_frame s (id, r) Hp) as (Hp' & Hq & Hn & Hst & Hpb & _). cbn [fst] in Hq.
    pose proof (Hin id r (or_introl eq_refl)) as Hl.
    destruct (IH (drain1 s (id, r))) as (A & B & C & D & E & F & G).
    + exact Hp'.
    + exact Hnd.
    + intros i q Hi. rewrite Hq. rewrite lookup_delete_ne; [apply Hin; right; exact Hi|].
      intros Heq. subst i. apply Hni. apply elem_of_list_In, in_map_iff. exists (id, q). split; [reflexivity|exact Hi].
    + apply drain1_QI; assumption.
    + cbv zeta in *. split; [exact A|]. split; [exact B|]. split; [congruence|]. split; [congruence|]. split; [congruence|].
      split.
      * rewrite Hq in F. assert (size (pendq s) = S (size (delete id (pendq s)))).
        { rewrite map_size_delete, Hl.
          assert (size (pendq s) <> 0%nat); [|cbn; lia].
          intros Hz. apply map_size_empty_inv in Hz. rewrite Hz, lookup_empty in Hl. discriminate. }
        lia.
      * intros i. rewrite G, Hq. cbn [fst]. destruct (decide (i = id)) as [->|Hne].
        -- rewrite (bool_decide_true (id ∈ id :: _)) by left. rewrite lookup_delete. case_bool_decide; reflexivity.
        -- rewrite lookup_delete_ne by congruence.
           assert (Hiff : i ∈ id :: map fst l <-> i ∈ map fst l).
           { rewrite elem_of_cons. split; [intros [?|?]; [contradiction|assumption]|intros; right; assumption]. }
           rewrite (bool_decide_ext _ _ Hiff). reflexivity.
Qed.

Section ord.
  Variable ord : list (N * sreq) -> list (N * sreq).
  Hypothesis Hord : forall l, Permutation (ord l) l.

  Lemma batch_ok s k : NoDup (map fst (firstn k (ord (map_to_list (pendq s)))))
    /\ (forall id r, In (id, r) (firstn k (ord (map_to_list (pendq s)))) -> pendq s !! id = Some r)
    /\ length (firstn k (ord (map_to_list (pendq s)))) = Nat.min k (size (pendq s)).
  Proof.
    repeat split.
    - rewrite <- firstn_map.
      assert (Hnd : NoDup (map fst (ord (map_to_list (pendq s))))).
      { eapply NoDup_Permutation_proper; [apply Permutation_map, Hord|]. apply NoDup_fst_map_to_list. }
      rewrite <- (take_drop k (map fst (ord (map_to_list (pendq s))))) in Hnd.
      apply NoDup_app in Hnd. exact (proj1 Hnd).
    - intros id r H. apply elem_of_list_In in H. apply elem_of_take in H as [i [Hi _]].
      apply elem_of_list_lookup_2 in Hi. rewrite (Hord (map_to_list (pendq s))) in Hi. apply elem_of_map_to_list. exact Hi.
    - rewrite firstn_length. f_equal. rewrite (Permutation_length (Hord _)). reflexivity.
  Qed.

  Lemma idle_spec s w : QI s ->
    QI (idle ord s w) /\ nextp (idle ord s w) = nextp s /\ setid (idle ord s w) = setid s
    /\ perblk (idle ord s w) = perblk s /\ paused (idle ord s w) = paused s
    /\ (paused s = false -> 1 <= w ->
        (size (pendq (idle ord s w)) + Nat.min (N.to_nat (N.min (perblk s) w)) (size (pendq s)) = size (pendq s))%nat)
    /\ (paused s = true -> idle ord s w = s).
  Proof.
    intros HQ. unfold idle. destruct ((w =? 0) || paused s) eqn:Ec.
    - do 5 (split; [first [assumption|reflexivity]|]). split; [|reflexivity].
      intros Hp Hw. rewrite Hp, orb_false_r in Ec. apply N.eqb_eq in Ec. lia.
    - apply orb_false_iff in Ec as [Ew Ep].
      destruct (batch_ok s (N.to_nat (N.min (perblk s) w))) as (A & B & C).
      destruct (drain_spec _ s Ep A B HQ) as (H1 & H2 & H3 & H4 & H5 & H6 & _).
      split; [exact H1|]. split; [exact H3|]. split; [exact H4|]. split; [exact H5|]. split; [congruence|].
      split; [|congruence]. intros _ _. rewrite C in H6. exact H6.
  Qed.

  (** Ids and set ids stay below the point where they would wrap (2^64 requests). *)
  Definition qgood (s : qs) (o : qop) : Prop :=
    nextp s + 1 + match o with QChange _ _ xr => N.of_nat (length xr) | _ => 0 end < 2 ^ 64 /\ setid s + 1 < 2 ^ 64.
  Lemma qstep_QI s o : qgood s o -> QI s -> QI (qstep ord s o).
  Proof.
    intros [Hg Hg2] HQ. destruct o as [fits msg|fits d|b|fits msg xr| |w|n]; cbn [qstep].
    - pose proof (send_QI s fits (fun set => REth set msg) ltac:(lia) (N.le_refl _) HQ) as H.
      unfold send_eth. destruct (send s fits _) as [s' [i|]]; assumption.
    - pose proof (send_QI s fits (fun _ => RXrp d) ltac:(lia) Logic.I HQ) as H.
      unfold send_xrp. destruct (send s fits _) as [s' [i|]]; assumption.
    - apply flags_QI. exact HQ.
    - apply change_QI; assumption.
    - unfold finalise. rewrite wrap64_lt by assumption. destruct HQ as [Hb Hn H1 Hs].
      constructor; cbn [pendq qlog nextp setid]; [exact Hb|exact Hn|exact H1|].
      intros i set msg Hi. specialize (Hs i set msg Hi). lia.
    - apply idle_spec. exact HQ.
    - destruct (n <=? U8MAX); [apply flags_QI|]; exact HQ.
  Qed.
  Lemma qinit_QI : QI qinit.
  Proof.
    constructor; cbn [qinit qlog nextp setid pendq reqs emits]; try (intros; lia).
    - intros i. reflexivity.
    - intros i set msg H. discriminate H.
  Qed.
  Lemma qreach_QI ops : along (qstep ord) qgood ops qinit -> QI (run (qstep ord) ops qinit).
  Proof. intros H. exact (run_along (qstep ord) qgood QI qstep_QI ops qinit H qinit_QI). Qed.

  (** What is emitted is what was requested. *)
  Definition body (r : sreq) : N + N := match r with REth _ m => inl m | RXrp d => inr d end.
  Definition asked (l : list qev) (id : N) (r : sreq) : Prop := exists r', In (QReq id r') l /\ body r = body r'.
  Definition QB (s : qs) : Prop :=
    (forall id r, In (QEmit id r) (qlog s) -> asked (qlog s) id r) /\ (forall id r, pendq s !! id = Some r -> asked (qlog s) id r).
  Lemma asked_more l e id r : asked l id r -> asked (e :: l) id r.
  Proof. intros (r' & Hi & He). exists r'. split; [right; exact Hi|exact He]. Qed.
  Lemma logged_QB s e : (forall id r, e = QEmit id r -> asked (e :: qlog s) id r) -> QB s -> QB (qlogged s e).
  Proof.
    intros He [A B]. split; cbn [qlogged qlog pendq].
    - intros id r [H|H]; [apply He; exact H|apply asked_more, A, H].
    - intros id r H. apply asked_more, B, H.
  Qed.
  Lemma request_QB s id r : asked (qlog s) id r -> QB s -> QB (request_proof s id r).
  Proof.
    intros Ha HB. unfold request_proof. destruct (paused s).
    - destruct HB as [A B]. split; cbn [qlog pendq]; [exact A|].
      intros i q. destruct (decide (id = i)) as [E|Hne].
      + subst i. rewrite lookup_insert. intros [= <-]. exact Ha.
      + rewrite lookup_insert_ne by assumption. apply B.
    - apply logged_QB; [|exact HB]. intros i q E. injection E as E1 E2. subst i q. apply asked_more.
      destruct Ha as (r' & Hi & Hb). exists r'. split; [exact Hi|]. rewrite <- Hb. destruct r; reflexivity.
  Qed.
  Lemma fields_QB s m a n b p : QB s -> QB (Qs m a n b (pendq s) p (qlog s)).
  Proof. intros [A B]. split; assumption. Qed.
  Lemma send_QB s fits mk : QB s -> QB (fst (send s fits mk)).
  Proof.
    intros HB. unfold send. destruct fits; cbn [fst]; [|apply fields_QB; exact HB].
    apply request_QB.
    - exists (mk (setid s)). split; [left; reflexivity|reflexivity].
    - apply logged_QB; [intros i q E; discriminate|]. apply fields_QB. exact HB.
  Qed.
  Lemma drain1_QB s id r : pendq s !! id = Some r -> QB s -> QB (drain1 s (id, r)).
  Proof.
    intros Hl [A B]. unfold drain1. cbn [fst snd]. apply request_QB; cbn [qlog]; [apply B, Hl|].
    split; cbn [qlog pendq]; [exact A|]. intros i q Hi. apply lookup_delete_Some in Hi as [_ Hi]. apply B, Hi.
  Qed.
  Lemma drain_QB l : forall s, paused s = false -> NoDup (map fst l) -> (forall id r, In (id, r) l -> pendq s !! id = Some r) -> QB s ->
    QB (fold_left drain1 l s).
  Proof.
    induction l as [|[id r] l IH]; intros s Hp Hnd Hin HB; cbn [fold_left map] in *; [exact HB|].
    apply NoDup_cons in Hnd as [Hni Hnd]. destruct (drain1_frame s (id, r) Hp) as (Hp' & Hq & _). cbn [fst] in Hq.
    apply IH; [exact Hp'|exact Hnd| |apply drain1_QB; [apply Hin; left; reflexivity|exact HB]].
    intros i q Hi. rewrite Hq. rewrite lookup_delete_ne; [apply Hin; right; exact Hi|].
    intros Heq. subst i. apply Hni. apply elem_of_list_In, in_map_iff. exists (id, q). split; [reflexivity|exact Hi].
  Qed.
  Lemma qstep_QB s o : QB s -> QB (qstep ord s o).
  Proof.
    intros HB. destruct o as [fits msg|fits d|b|fits msg xr| |w|n]; cbn [qstep].
    - pose proof (send_QB s fits (fun set => REth set msg) HB) as H.
      unfold send_eth. destruct (send s fits _) as [s' [i|]]; assumption.
    - pose proof (send_QB s fits (fun _ => RXrp d) HB) as H.
      unfold send_xrp. destruct (send s fits _) as [s' [i|]]; assumption.
    - apply fields_QB, HB.
    - unfold change_authorities. apply fields_QB.
      pose proof (send_QB s fits (fun set => REth set msg) HB) as H. unfold send_eth.
      destruct (send s fits _) as [s' o]; cbn [fst] in H.
      assert (H' : QB match o with Some id => qlogged s' (QAuth id (setid s)) | None => s' end)
        by (destruct o; [apply logged_QB; [discriminate|]|]; exact H).
      destruct o; revert H'; match goal with |- QB ?x -> _ => generalize x end; clear; intros t Ht;
        revert t Ht; induction xr as [|d xr IH]; intros t Ht; cbn [fold_left]; auto; apply IH; apply send_QB; exact Ht.
    - apply fields_QB, HB.
    - unfold idle. destruct ((w =? 0) || paused s) eqn:Ec; [exact HB|]. apply orb_false_iff in Ec as [_ Ep].
      destruct (batch_ok s (N.to_nat (N.min (perblk s) w))) as (A & B & _). apply drain_QB; assumption.
    - destruct (n <=? U8MAX); [apply fields_QB|]; exact HB.
  Qed.
  Lemma qreach_QB ops : QB (run (qstep ord) ops qinit).
  Proof.
    assert (H0 : QB qinit) by (split; [intros id r []|intros id r H; discriminate H]).
    revert H0. generalize qinit. induction ops as [|o ops IH]; intros s Hs; [exact Hs|].
    apply (IH (qstep ord s o)), qstep_QB, Hs.
  Qed.
End ord.
