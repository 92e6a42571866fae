(** Properties of event proofs over RPC (C189). *)
From Verif Require Import RpcModel WitnessProps.
From Coq Require Import Sorted.

(** * C189: the answers are the proofs *)
(** The last proof a history made for an event of a chain. *)
Definition last_made (ops : list (chain * proof)) (c : chain) (id : N) : option proof :=
  option_map snd (List.find (fun o => bool_decide (fst o = c) && (p_event (snd o) =? id)) (rev ops)).
Lemma find_app_eq {A} (f : A -> bool) l r :
  List.find f (l ++ r) = match List.find f l with Some x => Some x | None => List.find f r end.
Proof. induction l as [|x l IH]; cbn [List.find app]; [reflexivity|]. destruct (f x); [reflexivity|exact IH]. Qed.
Lemma stored_last ops c id : stored (run nstep ops (Node ∅ [])) !! (is_xrpl c, id) = last_made ops c id.
Proof.
  unfold last_made. induction ops as [|o ops IH] using rev_ind; [reflexivity|].
  rewrite run_app, rev_app_distr. cbn [run fold_left nstep make stored rev app List.find].
  destruct o as [c' p]. cbn [fst snd].
  destruct (bool_decide_reflect (c' = c)) as [->|Hc]; cbn [andb].
  - destruct (N.eqb_spec (p_event p) id) as [<-|Hi].
    + apply lookup_insert.
    + rewrite lookup_insert_ne by congruence. exact IH.
  - rewrite lookup_insert_ne; [exact IH|]. destruct c, c'; cbn; congruence.
Qed.

Section answers.
  Variables address pubkey : N -> N.
  Variable der : N -> N.
  Variable state : N -> option sets.
  (** For Ethereum: if the node still has the block's state, the answer is the last proof made for this event of Ethereum,
      with the notaries of its block and one place for each: their signature, or blank.  Never one made for the XRPL. *)
  Definition fits_eth (t : sets) (p : proof) (a : eth_answer) : Prop :=
    e_event a = p_event p /\ e_block a = p_block p /\ e_set a = set_id t /\
    e_validators a = map address (notaries t) /\ length (e_sigs a) = length (notaries t) /\
    (forall i sg, (i < length (notaries t))%nat -> In (N.of_nat i, sg) (p_sigs p) -> e_sigs a !! i = Some sg) /\
    (forall i, (i < length (notaries t))%nat -> (forall sg, ~ In (N.of_nat i, sg) (p_sigs p)) -> e_sigs a !! i = Some 0).
  Theorem C189_eth ops id :
    match last_made ops Ethereum id with
    | None => get_eth address state (run nstep ops (Node ∅ [])) id = Ok None
    | Some p =>
      forall t, state (p_block p) = Some t -> N.of_nat (length (notaries t)) < 2 ^ 32 ->
        StronglySorted (fun x y => fst x < fst y) (p_sigs p) ->
        exists a, get_eth address state (run nstep ops (Node ∅ [])) id = Ok (Some a) /\ fits_eth t p a
    end.
  Proof.
    pose proof (stored_last ops Ethereum id) as E. cbn [is_xrpl] in E. unfold get_eth. rewrite E.
    destruct (last_made ops Ethereum id) as [p|]; [|reflexivity].
    intros t Ht Hn Hs. unfold build_eth. rewrite Ht. rewrite map_length.
    destruct (C51_expanded _ _ Hn Hs) as (r & R1 & R2 & R3 & R4). rewrite R1. cbn [rbind].
    eexists. split; [reflexivity|]. repeat split; cbn [e_sigs]; auto.
  Qed.
  (** For the XRPL: exactly the signatures in the proof that are of notaries who were XRPL signers at the block, in order,
      each beside the public key of its signer. *)
  Definition counts (t : sets) (x : N * N) (k : N) : Prop := notaries t !! N.to_nat (fst x) = Some k /\ In k (signers t).
  Lemma position_in k l : (exists i, position k l = Some i) <-> In k l.
  Proof.
    induction l as [|y r IH]; cbn [position In]; [split; [intros [? [=]]|tauto]|].
    destruct (N.eqb_spec y k) as [->|Hn]; [split; [auto|intros _; exists 0; reflexivity]|].
    rewrite <- IH. split.
    - intros [i Hi]. right. destruct (position k r); [eauto|discriminate Hi].
    - intros [Hi|[i ->]]; [congruence|]. cbn. eauto.
  Qed.
  Inductive picked (t : sets) : list (N * N) -> list (N * N) -> Prop :=
  | picked_nil : picked t [] []
  | picked_take x k l r : counts t x k -> picked t l r -> picked t (x :: l) ((k, snd x) :: r)
  | picked_skip x l r : (forall k, ~ counts t x k) -> picked t l r -> picked t (x :: l) r.
  Lemma pick_spec t l : exists r, picked t l r /\
    pick pubkey der (notaries t) (signers t) l = (map (fun y => der (snd y)) r, map (fun y => pubkey (fst y)) r).
  Proof.
    induction l as [|[i sg] l (r & Hr & E)]; [exists []; split; [constructor|reflexivity]|].
    cbn [pick]. rewrite E. destruct (notaries t !! N.to_nat i) as [k|] eqn:Ek.
    - destruct (position k (signers t)) as [j|] eqn:Ej.
      + exists ((k, sg) :: r). split; [|reflexivity]. apply (picked_take t (i, sg)); [|exact Hr].
        split; [exact Ek|apply position_in; eauto].
      + exists r. split; [|reflexivity]. apply picked_skip; [|exact Hr]. intros k' [H1 H2]. cbn [fst] in H1.
        apply position_in in H2. destruct H2 as [j Hj]. congruence.
    - exists r. split; [|reflexivity]. apply picked_skip; [|exact Hr]. intros k' [H1 _]. cbn [fst] in H1. congruence.
  Qed.
  Theorem C189_xrpl ops id :
    match last_made ops Xrpl id with
    | None => get_xrpl pubkey der state (run nstep ops (Node ∅ [])) id = None
    | Some p =>
      forall t, state (p_block p) = Some t ->
        exists a r, get_xrpl pubkey der state (run nstep ops (Node ∅ [])) id = Some a /\ picked t (p_sigs p) r /\
          x_event a = id /\ x_block a = p_block p /\ x_set a = set_id t /\
          x_sigs a = map (fun y => der (snd y)) r /\ x_validators a = map (fun y => pubkey (fst y)) r
    end.
  Proof.
    pose proof (stored_last ops Xrpl id) as E. cbn [is_xrpl] in E. unfold get_xrpl. rewrite E.
    destruct (last_made ops Xrpl id) as [p|] eqn:El; [|reflexivity].
    intros t Ht. unfold build_xrpl. rewrite Ht. destruct (pick_spec t (p_sigs p)) as (r & Hr & ->).
    eexists _, r. split; [reflexivity|]. split; [exact Hr|]. repeat split. cbn [x_event].
    unfold last_made in El. destruct (List.find _ _) as [[c q]|] eqn:F; [|discriminate El]. injection El as ->.
    apply find_some in F. destruct F as [_ F]. apply andb_true_iff in F. apply N.eqb_eq, F.
  Qed.
  (** If the gadgets wait for the signers of the block, the answer has all but at most one of them, each once. *)
  Lemma picked_len t l r : picked t l r ->
    length r = length (List.filter (fun x => match notaries t !! N.to_nat (fst x) with Some k => match position k (signers t) with Some _ => true | None => false end | None => false end) l).
  Proof.
    induction 1 as [|x k l r [H1 H2] Hr IH|x l r Hx Hr IH]; cbn [List.filter length]; [reflexivity| |].
    - rewrite H1. apply position_in in H2. destruct H2 as [i ->]. cbn [length]. lia.
    - destruct (notaries t !! N.to_nat (fst x)) as [k|] eqn:Ek; [|exact IH].
      destruct (position k (signers t)) as [i|] eqn:Ei; [|exact IH]. exfalso. apply (Hx k). split; [exact Ek|]. apply position_in. eauto.
  Qed.
  Lemma picked_in t l r k : picked t l r -> In k (map fst r) -> exists x, In x l /\ counts t x k.
  Proof.
    induction 1 as [|x k' l r Hc Hr IH|x l r Hx Hr IH]; cbn [map In fst]; [tauto| |].
    - intros [<-|H]; [exists x; auto|]. destruct (IH H) as (y & ? & ?). exists y. auto.
    - intros H. destruct (IH H) as (y & ? & ?). exists y. auto.
  Qed.
  Theorem C189_enough t p s r :
    wvals s = Vset (notaries t) (thr (wvals s)) -> xvals s = Vset (signers t) (N.of_nat (length (signers t)) - 1) ->
    wits s !! p_event p = Some (p_sigs p) -> has_consensus s (p_event p) Xrpl = true ->
    NoDup (notaries t) -> StronglySorted (fun x y => fst x < fst y) (p_sigs p) -> picked t (p_sigs p) r ->
    (length (signers t) - 1 <= length r)%nat /\ NoDup (map fst r) /\ (forall k, In k (map fst r) -> In k (signers t)).
  Proof.
    intros Ev Ex Ew Hc Hn Hs Hr. split; [|split].
    - rewrite (picked_len _ _ _ Hr). unfold has_consensus, threshold, count_for, xrpl_signer in Hc. rewrite Ew, Ev, Ex in Hc.
      cbn [thr vals] in Hc. apply N.leb_le in Hc. lia.
    - clear Ew Hc Ev Ex. revert Hs. induction Hr as [|x k l r [H1 H2] Hr IH|x l r Hx Hr IH]; intros Hs; cbn [map fst]; [constructor| |].
      + inversion Hs as [|? ? Hl Hf]; subst. constructor; [|apply IH, Hl].
        intros Hin. apply elem_of_list_In in Hin. destruct (picked_in _ _ _ _ Hr Hin) as (y & Hy & [Hy1 _]).
        rewrite Forall_forall in Hf. apply elem_of_list_In in Hy. specialize (Hf _ Hy).
        pose proof (NoDup_lookup _ _ _ _ Hn H1 Hy1) as X. lia.
      + inversion Hs; subst. apply IH. assumption.
    - intros k Hk. destruct (picked_in _ _ _ _ Hr Hk) as (x & _ & H). apply H.
  Qed.
End answers.

(** ** Cases *)
Definition ad (k : N) : N := k + 500.
Definition pk (k : N) : N := k + 700.
Definition dr (s : N) : N := s + 9000.
Definition st1 (b : N) : option sets := if b =? 5 then Some (Sets [11; 12; 13; 14] [14; 12; 13] 3) else None.
Definition pe : proof := Proof 7 5 [(0, 71); (2, 73); (3, 74)].
Definition px : proof := Proof 8 5 [(0, 81); (1, 82); (3, 84)].
Definition made : list (chain * proof) := [(Ethereum, pe); (Xrpl, px)].
Definition nd : node := run nstep made (Node ∅ []).
Example C189_ex :
  get_eth ad st1 nd 7 = Ok (Some (EthAnswer 7 [71; 0; 73; 74] [511; 512; 513; 514] 3 5)) /\ get_eth ad st1 nd 8 = Ok None /\
  get_xrpl pk dr st1 nd 8 = Some (XrplAnswer 8 [9082; 9084] [712; 714] 3 5) /\ get_xrpl pk dr st1 nd 7 = None /\
  StronglySorted (fun x y => fst x < fst y) (p_sigs px).
Proof. repeat split; try (vm_compute; reflexivity). repeat constructor. Qed.
Definition rec8 : wrec := Wrec ∅ ∅ (Vset [11; 12; 13; 14] 3) (Vset [14; 12; 13] 2) {[8 := p_sigs px]} ∅ [].
Example C189_enough_ex : has_consensus rec8 8 Xrpl = true.
Proof. vm_compute. reflexivity. Qed.

(** A proof once made can be fetched — refuted: not after the node has discarded the state of its block. *)
Theorem C189_pruned_refuted : exists ops id p, last_made ops Ethereum id = Some p /\
  let later b := if 300 <? b then st1 b else None in
  get_eth ad st1 (run nstep ops (Node ∅ [])) id <> Ok None /\ get_eth ad later (run nstep ops (Node ∅ [])) id = Ok None.
Proof. exists made, 7, pe. vm_compute. repeat split. discriminate. Qed.
(** Subscribers are told of Ethereum's proofs as Ethereum takes them — refuted: proofs for the XRPL come in the same form,
    with nothing to tell them by and with the signatures of all notaries. *)
Theorem C189_sent_refuted : exists ops a, In (Ok (Some a)) (sent ad st1 (run nstep ops (Node ∅ []))) /\
  last_made ops Ethereum (e_event a) = None /\ get_eth ad st1 (run nstep ops (Node ∅ [])) (e_event a) = Ok None /\
  e_sigs a = [81; 82; 0; 84].
Proof. exists made, (EthAnswer 8 [81; 82; 0; 84] [511; 512; 513; 514] 3 5). vm_compute. repeat split. left. reflexivity. Qed.
(** The XRPL answer has what the gadgets waited for — refuted: root has taken signers off the list, the gadgets (and the
    doors, C185) still have the old one, and of the signatures collected the answer drops some that are needed. *)
Definition st2 (b : N) : option sets := if b =? 5 then Some (Sets [11; 12; 13; 14; 15] [11; 12] 3) else None.
Definition rec9 (p : proof) : wrec := Wrec ∅ ∅ (Vset [11; 12; 13; 14; 15] 4) (Vset [11; 12; 13; 14; 15] 4) {[p_event p := p_sigs p]} ∅ [].
Theorem C189_enough_refuted : exists p a, has_consensus (rec9 p) (p_event p) Xrpl = true /\ length (p_sigs p) = 5%nat /\
  build_xrpl pk dr st2 p = Some a /\ (N.of_nat (length (x_sigs a)) < thr (xvals (rec9 p))).
Proof.
  exists (Proof 9 5 [(0, 91); (1, 92); (2, 93); (3, 94); (4, 95)]). eexists. split; [vm_compute; reflexivity|].
  split; [reflexivity|]. split; [reflexivity|]. vm_compute. reflexivity.
Qed.

Definition C189_assumptions := (@C189_eth, @C189_xrpl, @C189_enough, C189_pruned_refuted, C189_sent_refuted, C189_enough_refuted).
Print Assumptions C189_assumptions.
