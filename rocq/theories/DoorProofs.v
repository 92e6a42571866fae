(** Proofs about the signers of the XRPL doors. *)
From Verif Require Export DoorModel.
From Coq Require Export Permutation.

Lemma insert_perm k l : Permutation (insert_key k l) (k :: l).
Proof.
  induction l as [|x r IH]; cbn [insert_key]; [reflexivity|].
  destruct (k <=? x); [reflexivity|]. rewrite IH. constructor.
Qed.
Lemma sort_perm l : Permutation (sort l) l.
Proof.
  unfold sort. induction l as [|x r IH]; cbn [fold_right]; [reflexivity|].
  rewrite insert_perm. constructor. exact IH.
Qed.
Lemma same_perm a b : same a b = true -> Permutation a b.
Proof.
  unfold same. rewrite bool_decide_eq_true. intros E.
  rewrite <- (sort_perm a), E. apply sort_perm.
Qed.
Lemma insert_swap a b l : insert_key a (insert_key b l) = insert_key b (insert_key a l).
Proof.
  induction l as [|x r IH]; cbn [insert_key].
  - destruct (a <=? b) eqn:E1, (b <=? a) eqn:E2; try reflexivity;
    rewrite ?N.leb_le, ?N.leb_gt in *; [assert (a = b) by lia; subst; reflexivity|lia].
  - destruct (b <=? x) eqn:E1, (a <=? x) eqn:E2; cbn [insert_key]; rewrite ?E1, ?E2.
    + destruct (a <=? b) eqn:E3, (b <=? a) eqn:E4; try reflexivity;
      rewrite ?N.leb_le, ?N.leb_gt in *; [assert (a = b) by lia; subst; reflexivity|lia].
    + destruct (a <=? b) eqn:E3; [rewrite N.leb_le, N.leb_gt in *; lia|]. reflexivity.
    + destruct (b <=? a) eqn:E3; [rewrite N.leb_le, N.leb_gt in *; lia|]. reflexivity.
    + rewrite IH. reflexivity.
Qed.
Lemma sort_eq a b : Permutation a b -> sort a = sort b.
Proof.
  unfold sort. induction 1; cbn [fold_right]; [reflexivity|congruence|apply insert_swap|congruence].
Qed.
Lemma same_perm_false a b : same a b = false -> ~ Permutation a b.
Proof. unfold same. rewrite bool_decide_eq_false. intros E P. apply E, sort_eq, P. Qed.

(** ** The XRPL's side: what a door account's signer list becomes. *)
Record slist := Slist { l_entries : list (N * N); l_quorum : N }.
Definition total {A} (f : A -> N) (l : list A) : N := fold_right (fun x n => f x + n) 0 l.
(** The weight of the entries whose accounts are among [p]. *)
Definition weight (es : list (N * N)) (p : list N) : N :=
  total (fun e => if bool_decide (fst e ∈ p) then snd e else 0) es.
(** The XRPL takes a list of 1 to 8 different accounts with a quorum from 1 to their weight. *)
Definition well_formed (t : sls) : bool :=
  negb (bool_decide (s_entries t = [])) && (N.of_nat (length (s_entries t)) <=? 8) && bool_decide (NoDup (map fst (s_entries t)))
  && (1 <=? s_quorum t) && (s_quorum t <=? total snd (s_entries t)).
(** It applies the transaction if the signatures of [p] reach the quorum of the list in force. *)
Definition applied (l : slist) (d : door) (t : sls) (p : list N) : slist :=
  if door_eqb (s_door t) d && well_formed t && (l_quorum l <=? weight (l_entries l) p)
  then Slist (s_entries t) (s_quorum t) else l.

Section doors.
  Variable acc : N -> N.
  Variables maxk maxn : N.
  (** [pf a]: whose signatures the proof made for a request carries. *)
  Variable pf : asked -> keys.
  (** All that the gadgets promise: signatures of notaries, at least all but one of the XRPL signers they hold. *)
  Definition proof_ok (a : asked) : Prop :=
    incl (pf a) (a_by a) /\
    N.of_nat (length (a_set a)) - 1 <= N.of_nat (length (List.filter (fun k => bool_decide (k ∈ pf a)) (a_set a))).
  Definition ledger (init : slist) (d : door) (log : list asked) : slist :=
    fold_right (fun a l => applied l d (a_tx a) (map acc (pf a))) init log.
  (** The list that fits a set of keys. *)
  Definition fits (ks : keys) (l : slist) : Prop :=
    Permutation (l_entries l) (map (fun k => (acc k, 1)) ks) /\ l_quorum l = N.of_nat (length ks) - 1.

  Lemma total_perm {A} (f : A -> N) l l' : Permutation l l' -> total f l = total f l'.
  Proof. induction 1; cbn [total fold_right] in *; unfold total in *; lia. Qed.
  Lemma weight_ones ks p : weight (map (fun k => (acc k, 1)) ks) p =
    N.of_nat (length (List.filter (fun k => bool_decide (acc k ∈ p)) ks)).
  Proof.
    unfold weight, total. induction ks as [|k r IH]; cbn [map fold_right List.filter fst snd]; [reflexivity|].
    rewrite IH. destruct (bool_decide (acc k ∈ p)); cbn [length]; lia.
  Qed.
  Lemma filter_le {A} (f g : A -> bool) l : (forall x, f x = true -> g x = true) ->
    (length (List.filter f l) <= length (List.filter g l))%nat.
  Proof.
    intros H. induction l as [|x r IH]; cbn [List.filter]; [lia|].
    destruct (f x) eqn:E; [rewrite (H _ E); cbn [length]; lia|]. destruct (g x); cbn [length]; lia.
  Qed.
  Lemma fits_signed ks l a : fits ks l -> a_set a = ks -> proof_ok a ->
    l_quorum l <= weight (l_entries l) (map acc (pf a)).
  Proof.
    intros [Hp Hq] Es [_ Hn]. rewrite Hq. unfold weight. rewrite (total_perm _ _ _ Hp).
    change (total _ (map (fun k => (acc k, 1)) ks)) with (weight (map (fun k => (acc k, 1)) ks) (map acc (pf a))).
    rewrite weight_ones. rewrite Es in Hn. etransitivity; [exact Hn|].
    assert (X := filter_le (fun k => bool_decide (k ∈ pf a)) (fun k => bool_decide (acc k ∈ map acc (pf a))) ks).
    enough ((length (List.filter (fun k => bool_decide (k ∈ pf a)) ks) <=
             length (List.filter (fun k => bool_decide (acc k ∈ map acc (pf a))) ks))%nat) by lia.
    apply X. intros x. rewrite !bool_decide_eq_true. intros H. apply elem_of_list_In, in_map, elem_of_list_In, H.
  Qed.
  Lemma sum_ones ks : total snd (map (fun k => (acc k, 1)) ks) = N.of_nat (length ks).
  Proof. unfold total. induction ks as [|k r IH]; cbn [map fold_right length snd]; [reflexivity|]. rewrite IH. lia. Qed.

  Definition tx (d : door) (n : N) (ks : keys) : sls :=
    Sls d n (map (fun k => (acc k, 1)) ks) (N.of_nat (length (map (fun k => (acc k, 1)) ks)) - 1).
  Lemma tx_ok d n ks : (2 <= length ks)%nat -> (length ks <= 8)%nat -> NoDup (map acc ks) -> well_formed (tx d n ks) = true.
  Proof.
    intros H2 H8 Hn. unfold well_formed, tx. cbn [s_entries s_quorum]. rewrite sum_ones, map_length.
    assert (X : bool_decide (map (fun k => (acc k, 1)) ks = []) = false).
    { apply bool_decide_eq_false. destruct ks; [cbn in H2; lia|discriminate]. }
    rewrite X. rewrite map_map. cbn [fst].
    rewrite (bool_decide_eq_true_2 _ Hn). cbn [negb andb].
    rewrite (proj2 (N.leb_le (N.of_nat (length ks)) 8)) by lia. cbn [andb].
    rewrite (proj2 (N.leb_le 1 (N.of_nat (length ks) - 1))) by lia. cbn [andb].
    apply N.leb_le. lia.
  Qed.

  Lemma select_len w ks : (length (select maxk w ks) <= N.to_nat maxk)%nat.
  Proof. apply firstn_le_length. Qed.
  Lemma filter_nodup (f : N -> bool) ks : NoDup (map acc ks) -> NoDup (map acc (List.filter f ks)).
  Proof.
    induction ks as [|k r IH]; cbn [map List.filter]; intros H; [constructor|].
    apply NoDup_cons in H. destruct H as [Hk Hr]. destruct (f k); [|apply IH, Hr].
    cbn [map]. constructor; [|apply IH, Hr]. intros Hi. apply Hk.
    apply elem_of_list_In in Hi. apply in_map_iff in Hi. destruct Hi as (x & Ex & Hx).
    apply filter_In in Hx. apply elem_of_list_In, in_map_iff. exists x. tauto.
  Qed.
  Lemma select_nodup w ks : NoDup (map acc ks) -> NoDup (map acc (select maxk w ks)).
  Proof.
    intros H. unfold select. apply (filter_nodup (listed w)) in H.
    rewrite <- (firstn_skipn (N.to_nat maxk) (List.filter (listed w) ks)), map_app in H.
    apply NoDup_app in H. tauto.
  Qed.

  (** Which histories are meant: root leaves the whitelist alone; sets are announced while the bridge runs, one at a time,
      what is announced is what is installed, and when the XRPL's signers change both doors have an address and a ticket. *)
  Definition ready (s : dst) (d : door) : Prop := addr s d = true /\ fst (ticket s d) < snd (ticket s d).
  Definition orderly (s : dst) (o : dop) : Prop :=
    match o with
    | OSigners _ => False
    | OChange next => manual s = false /\ paused s = false /\ NoDup (map acc next) /\
        (2 <= length (select maxk (white s) next))%nat /\
        (Permutation (active s) (select maxk (white s) next) \/ ready s Main /\ ready s Nft)
    | OFinal next => paused s = true /\ next = told s
    | _ => True
    end.
  Definition due (s : dst) : keys := select maxk (white s) (if paused s then told s else notary s).
  Definition Inv (init : door -> slist) (s : dst) : Prop :=
    active s = select maxk (white s) (notary s) /\ gadget s = active s /\ later s = [] /\
    ((forall a, a ∈ digests s -> proof_ok a) -> forall d, fits (due s) (ledger (init d) d (digests s))).

  Lemma submit_both s ks : manual s = false -> paused s = false -> ready s Main -> ready s Nft ->
    exists tk, submit s (map (fun k => (acc k, 1)) ks) doors =
    (Dst (white s) (notary s) (active s) (gadget s) (told s) (manual s) (paused s) (addr s) tk
       (later s) (Asked (tx Nft (fst (ticket s Nft)) ks) (notary s) (gadget s) ::
                  Asked (tx Main (fst (ticket s Main)) ks) (notary s) (gadget s) :: digests s) (devs s), Some 2).
  Proof.
    destruct s as [w nt ac ga to ma pa ad tk la di de]. unfold ready. cbn [manual paused addr ticket].
    intros -> -> [A1 T1] [A2 T2].
    destruct (tk Main) as [n e] eqn:E1, (tk Nft) as [n' e'] eqn:E2. cbn [fst snd] in T1, T2. eexists.
    unfold doors. cbn [submit addr]. rewrite A1. unfold take_ticket. cbn [ticket]. rewrite E1, (proj2 (N.ltb_lt n e) T1).
    cbn [request manual paused orb addr]. rewrite A2. cbn [ticket door_eqb]. rewrite E2, (proj2 (N.ltb_lt n' e') T2).
    cbn. reflexivity.
  Qed.

  Lemma fits_perm ks ks' l : Permutation ks ks' -> fits ks l -> fits ks' l.
  Proof.
    intros P [H1 H2]. split; [rewrite H1; apply Permutation_map, P|]. rewrite H2, (Permutation_length P). reflexivity.
  Qed.
  Lemma applied_other l d t p : door_eqb (s_door t) d = false -> applied l d t p = l.
  Proof. intros E. unfold applied. rewrite E. reflexivity. Qed.
  Lemma applied_tx l d n ks p : well_formed (tx d n ks) = true -> l_quorum l <= weight (l_entries l) p ->
    fits ks (applied l d (tx d n ks) p).
  Proof.
    intros W Q. unfold applied. rewrite W. rewrite (proj2 (N.leb_le _ _) Q).
    replace (door_eqb (s_door (tx d n ks)) d) with true by (destruct d; reflexivity). cbn [andb].
    split; cbn [l_entries l_quorum tx s_entries s_quorum]; [reflexivity|]. rewrite map_length. reflexivity.
  Qed.

  Hypothesis Hk : maxk <= 8.
  Lemma inv_step init s o : orderly s o -> Inv init s -> Inv init (dstep acc maxk maxn s o).
  Proof.
    intros Ho (I1 & I2 & I3 & I4). destruct o as [l|next|next|b|d b|d n e|i]; cbn [orderly] in Ho; cbn [dstep].
    - contradiction.
    - destruct Ho as (Hm & Hp & Hn & H2 & Hr). unfold change.
      set (sel := select maxk (white s) next) in *.
      assert (Hdue : due s = active s) by (unfold due; rewrite Hp; congruence).
      destruct (same (active s) (sort sel)) eqn:Es.
      + do 3 (split; [cbn [active white notary gadget later digests]; first [assumption|reflexivity]|]); cbn [active white notary gadget later digests]; try assumption.
        intros Hpf d. apply (fits_perm (due s)); [|apply I4, Hpf].
        rewrite Hdue. unfold due. cbn [paused told white]. fold sel.
        rewrite (same_perm _ _ Es). apply sort_perm.
      + destruct Hr as [Hr|[R1 R2]].
        { exfalso. apply same_perm_false in Es. apply Es. rewrite Hr. symmetry. apply sort_perm. }
        destruct (submit_both s (sort sel) Hm Hp R1 R2) as [tk E]. rewrite E. clear E.
        do 3 (split; [cbn [active white notary gadget later digests]; first [assumption|reflexivity]|]); cbn [active white notary gadget later digests]; try assumption.
        intros Hpf d. unfold due. cbn [paused told white]. fold sel.
        apply (fits_perm (sort sel)); [apply sort_perm|].
        assert (Hw : forall d n, well_formed (tx d n (sort sel)) = true).
        { intros d' n'. pose proof (Permutation_length (sort_perm sel)) as PL.
          apply tx_ok; [lia| |].
          - pose proof (select_len (white s) next) as SL. fold sel in SL. lia.
          - apply NoDup_ListNoDup, (Permutation_NoDup (l := map acc sel)); [apply Permutation_map; symmetry; apply sort_perm|].
            apply NoDup_ListNoDup, select_nodup, Hn. }
        assert (Hold : forall d, fits (gadget s) (ledger (init d) d (digests s))).
        { intros d'. rewrite I2, <- Hdue. apply I4. intros a Ha. apply Hpf. right. right. exact Ha. }
        cbn [ledger fold_right a_tx]. fold (ledger (init d) d (digests s)).
        destruct d.
        * rewrite applied_other by reflexivity. apply applied_tx; [apply Hw|].
          eapply fits_signed; [apply Hold|reflexivity|]. apply Hpf. right. left.
        * rewrite (applied_other _ Nft (tx Main _ _)) by reflexivity. apply applied_tx; [apply Hw|].
          eapply fits_signed; [apply Hold|reflexivity|]. apply Hpf. left.
    - destruct Ho as [Hp ->]. unfold finalise, update, set_active. cbn [white notary active gadget told manual paused addr ticket later digests devs].
      do 3 (split; [cbn [active white notary gadget later digests]; first [assumption|reflexivity]|]); cbn [active white notary gadget later digests]; try assumption.
      intros Hpf d. unfold due. cbn [paused notary white]. specialize (I4 Hpf d). unfold due in I4. rewrite Hp in I4. exact I4.
    - do 3 (split; [cbn [active white notary gadget later digests]; first [assumption|reflexivity]|]); cbn [active white notary gadget later digests]; try assumption.
    - do 3 (split; [cbn [active white notary gadget later digests]; first [assumption|reflexivity]|]); cbn [active white notary gadget later digests]; try assumption.
    - do 3 (split; [cbn [active white notary gadget later digests]; first [assumption|reflexivity]|]); cbn [active white notary gadget later digests]; try assumption.
    - unfold release. destruct (manual s || paused s); [exact (conj I1 (conj I2 (conj I3 I4)))|].
      rewrite I3. destruct i; cbn [nth_error]; exact (conj I1 (conj I2 (conj I3 I4))).
  Qed.
End doors.
