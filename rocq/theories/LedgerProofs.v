(** Lemmas about the ledger. *)
From Verif Require Export Ledger.

Section proofs.
  Context {A : Type} `{Countable A}.
  Implicit Types (l : ledger A) (x y : A).

  (** Specification: everything all accounts hold of an asset. *)
  Definition total (l : ledger A) (a : N) : N :=
    sumf (fun k v => if fst k =? a then v else 0) (bal l).

  (** The books balance: issuance is the sum over accounts. *)
  Definition books (l : ledger A) : Prop :=
    forall a, total l a = issuance l a /\ issuance l a <= U128MAX.

  Lemma contrib_balance l a b x :
    contrib (fun k v => if fst k =? a then v else 0) (bal l) (b, x)
    = if b =? a then balance l b x else 0.
  Proof.
    unfold contrib, balance, getN. destruct (bal l !! (b, x)); cbn.
    - reflexivity.
    - destruct (b =? a); reflexivity.
  Qed.

  Lemma total_insert l a b x v i :
    total (Ledger (<[(b, x) := v]> (bal l)) i) a + (if b =? a then balance l b x else 0)
    = total l a + (if b =? a then v else 0).
  Proof.
    unfold total. cbn [bal].
    pose proof (sumf_insert (fun k v => if fst k =? a then v else 0) (bal l) (b, x) v) as Hs.
    rewrite contrib_balance in Hs. cbn [fst] in Hs. exact Hs.
  Qed.

  Lemma balance_le_total l a x : balance l a x <= total l a.
  Proof.
    pose proof (sumf_contrib_le (fun k v => if fst k =? a then v else 0) (bal l) (a, x)) as Hs.
    rewrite contrib_balance, N.eqb_refl in Hs. exact Hs.
  Qed.

  Lemma balance_two l a x y : x <> y -> balance l a x + balance l a y <= total l a.
  Proof.
    intros Hne.
    pose proof (sumf_two (fun k v => if fst k =? a then v else 0) (bal l) (a, x) (a, y)) as Hs.
    rewrite !contrib_balance, N.eqb_refl in Hs. apply Hs. congruence.
  Qed.

  Lemma balance_set l a x v b y :
    balance (set_balance l a x v) b y
    = if decide ((a, x) = (b, y)) then v else balance l b y.
  Proof.
    unfold balance, set_balance. cbn [bal].
    destruct (decide _) as [E|E].
    - rewrite E. apply getN_insert.
    - apply getN_insert_ne; exact E.
  Qed.

  (** Complete effect of a transfer on every balance. *)
  Lemma transfer_spec l a from to v l' :
    transfer l a from to v = Ok l' ->
    v <= balance l a from /\ iss l' = iss l /\
    (forall b y, balance l' b y + (if decide ((a, from) = (b, y)) then v else 0)
               = balance l b y + (if decide ((a, to) = (b, y)) then v else 0)).
  Proof.
    unfold transfer. destruct (N.ltb_spec (balance l a from) v) as [|Hv]; [discriminate|].
    cbv zeta. destruct (N.ltb_spec U128MAX
      (balance (set_balance l a from (balance l a from - v)) a to + v)); [discriminate|].
    intros [= <-]. split; [exact Hv|]. split; [reflexivity|].
    intros b y. rewrite !balance_set.
    destruct (decide ((a, to) = (b, y))) as [E1|E1].
    - injection E1 as <- <-. 
      destruct (decide ((a, from) = (a, to))) as [E2|E2].
      + injection E2 as <-. lia.
      + lia.
    - destruct (decide ((a, from) = (b, y))) as [E2|E2].
      + injection E2 as <- <-. lia.
      + lia.
  Qed.

  Lemma transfer_total l a from to v l' b :
    transfer l a from to v = Ok l' -> total l' b = total l b.
  Proof.
    unfold transfer. destruct (N.ltb_spec (balance l a from) v) as [|Hv]; [discriminate|].
    cbv zeta. destruct (N.ltb_spec U128MAX
      (balance (set_balance l a from (balance l a from - v)) a to + v)); [discriminate|].
    intros [= <-].
    set (l1 := set_balance l a from (balance l a from - v)).
    pose proof (total_insert l b a from (balance l a from - v) (iss l)) as H1.
    change (Ledger (<[(a, from):=balance l a from - v]> (bal l)) (iss l)) with l1 in H1.
    pose proof (total_insert l1 b a to (balance l1 a to + v) (iss l1)) as H2.
    change (Ledger (<[(a, to):=balance l1 a to + v]> (bal l1)) (iss l1))
      with (set_balance l1 a to (balance l1 a to + v)) in H2.
    destruct (a =? b); lia.
  Qed.

  Lemma transfer_issuance l a from to v l' b :
    transfer l a from to v = Ok l' -> issuance l' b = issuance l b.
  Proof. intros Ht. apply transfer_spec in Ht. unfold issuance. destruct Ht as [_ [-> _]]. reflexivity. Qed.

  Lemma transfer_books l a from to v l' : transfer l a from to v = Ok l' -> books l -> books l'.
  Proof.
    intros Ht Hb b. rewrite (transfer_total _ _ _ _ _ _ b Ht), (transfer_issuance _ _ _ _ _ _ b Ht).
    apply Hb.
  Qed.

  Lemma transfer_ok l a from to v :
    books l -> v <= balance l a from -> exists l', transfer l a from to v = Ok l'.
  Proof.
    intros Hb Hv. unfold transfer. destruct (N.ltb_spec (balance l a from) v); [lia|]. cbv zeta.
    rewrite balance_set. destruct (Hb a) as [Ht Hi].
    destruct (decide ((a, from) = (a, to))) as [E|E].
    - pose proof (balance_le_total l a from).
      destruct (N.ltb_spec U128MAX (balance l a from - v + v)); [lia|eauto].
    - pose proof (balance_two l a from to ltac:(congruence)).
      destruct (N.ltb_spec U128MAX (balance l a to + v)); [lia|eauto].
  Qed.

  Lemma mint_spec l a to v l' :
    mint l a to v = Ok l' ->
    issuance l a + v <= U128MAX /\
    (forall b, issuance l' b = issuance l b + (if a =? b then v else 0)) /\
    (forall b y, balance l' b y = balance l b y + (if decide ((a, to) = (b, y)) then v else 0)) /\
    (forall b, total l' b = total l b + (if a =? b then v else 0)).
  Proof.
    unfold mint. destruct (N.ltb_spec U128MAX (issuance l a + v)); [discriminate|].
    intros [= <-]. split; [assumption|]. split; [|split].
    - intros b. unfold issuance. cbn [iss]. destruct (N.eqb_spec a b) as [->|Hne].
      + rewrite getN_insert. reflexivity.
      + rewrite getN_insert_ne by congruence. lia.
    - intros b y. unfold balance. cbn [bal]. destruct (decide _) as [E|E].
      + injection E as <- <-. rewrite getN_insert. reflexivity.
      + rewrite getN_insert_ne by congruence. lia.
    - intros b. pose proof (total_insert l b a to (balance l a to + v)
        (<[a:=issuance l a + v]> (iss l))). destruct (a =? b); lia.
  Qed.

  Lemma mint_books l a to v l' : mint l a to v = Ok l' -> books l -> books l'.
  Proof.
    intros Hm Hb b. apply mint_spec in Hm. destruct Hm as [Hle [Hi [_ Ht]]].
    rewrite Hi, Ht. destruct (Hb b). destruct (N.eqb_spec a b); subst; lia.
  Qed.

  Lemma burn_spec l a from v l' :
    burn l a from v = Ok l' -> books l ->
    v <= balance l a from /\
    (forall b, issuance l' b + (if a =? b then v else 0) = issuance l b) /\
    (forall b y, balance l' b y + (if decide ((a, from) = (b, y)) then v else 0) = balance l b y) /\
    (forall b, total l' b + (if a =? b then v else 0) = total l b).
  Proof.
    unfold burn. destruct (N.ltb_spec (balance l a from) v); [discriminate|].
    intros [= <-] Hb. split; [assumption|].
    assert (v <= issuance l a).
    { destruct (Hb a) as [<- _]. pose proof (balance_le_total l a from). lia. }
    split; [|split].
    - intros b. unfold issuance. cbn [iss]. destruct (N.eqb_spec a b) as [->|Hne].
      + rewrite getN_insert. fold (issuance l b). lia.
      + rewrite getN_insert_ne by congruence. lia.
    - intros b y. unfold balance at 1. cbn [bal]. destruct (decide _) as [E|E].
      + injection E as <- <-. rewrite getN_insert. lia.
      + rewrite getN_insert_ne by congruence. unfold balance. lia.
    - intros b. pose proof (total_insert l b a from (balance l a from - v)
        (<[a:=issuance l a - v]> (iss l))). destruct (a =? b); lia.
  Qed.

  Lemma burn_books l a from v l' : burn l a from v = Ok l' -> books l -> books l'.
  Proof.
    intros Hm Hb b. apply burn_spec in Hm; [|exact Hb]. destruct Hm as [Hle [Hi [_ Ht]]].
    specialize (Hi b). specialize (Ht b). destruct (Hb b). destruct (a =? b); lia.
  Qed.

  Lemma empty_books : books (@empty_ledger A _ _).
  Proof. intros a. split; [reflexivity|]. unfold issuance, empty_ledger; cbn [iss]. rewrite getN_empty. unfold U128MAX; lia. Qed.
End proofs.
