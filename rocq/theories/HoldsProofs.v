(** Lemmas about holds and split transfers. *)
From Verif Require Export HoldsModel LedgerProofs.
From Coq Require Import Sorted.
From Verif Require Import LedgerProofs.

(** ** The vector of holds of one account *)
Definition keys_sorted (h : list (N * N)) : Prop := StronglySorted N.lt (map fst h).
Definition hsum (h : list (N * N)) : N := sumL (map snd h).

Lemma find_none h p : ~ List.In p (map fst h) -> hold_find p h = None.
Proof.
  induction h as [|[q v] h IH]; cbn; intros Hn; [reflexivity|].
  destruct (N.eqb_spec q p); [exfalso; auto|auto].
Qed.
Lemma sorted_head q h : StronglySorted N.lt (q :: map fst h) -> hold_find q h = None.
Proof.
  intros Hs. apply find_none. intros Hin. inversion Hs as [|? ? _ Hf]; subst.
  rewrite List.Forall_forall in Hf. specialize (Hf q Hin). lia.
Qed.
Lemma find_set h p v e q : hold_find p h = Some e ->
  hold_find q (hold_set p v h) = if p =? q then Some v else hold_find q h.
Proof.
  induction h as [|[k w] h IH]; cbn; [discriminate|]. destruct (N.eqb_spec k p) as [->|Hk]; cbn.
  - intros _. destruct (N.eqb_spec p q); reflexivity.
  - intros Hf. rewrite IH by exact Hf. destruct (N.eqb_spec k q) as [->|].
    + destruct (N.eqb_spec p q); [congruence|reflexivity].
    + reflexivity.
Qed.
Lemma find_ins h p v q : hold_find p h = None ->
  hold_find q (hold_ins p v h) = if p =? q then Some v else hold_find q h.
Proof.
  induction h as [|[k w] h IH]; cbn; [reflexivity|]. destruct (N.eqb_spec k p) as [->|Hk]; [discriminate|].
  intros Hf. destruct (p <? k); cbn.
  - reflexivity.
  - rewrite IH by exact Hf. destruct (N.eqb_spec k q) as [->|]; [|reflexivity].
    destruct (N.eqb_spec p q); [congruence|reflexivity].
Qed.
Lemma find_del (h : list (N * N)) (p q : N) : keys_sorted h ->
  hold_find q (hold_del p h) = if p =? q then None else hold_find q h.
Proof.
  unfold keys_sorted. induction h as [|[k w] h IH]; cbn; intros Hs; [destruct (p =? q); reflexivity|].
  pose proof (sorted_head _ _ Hs) as Hh. inversion Hs as [|? ? Hs' _]; subst.
  destruct (N.eqb_spec k p) as [->|Hk]; cbn.
  - destruct (N.eqb_spec p q) as [E|]; [rewrite <- E; exact Hh|reflexivity].
  - rewrite IH by exact Hs'. destruct (N.eqb_spec k q) as [->|]; [|reflexivity].
    destruct (N.eqb_spec p q); [congruence|reflexivity].
Qed.
Lemma set_keys h p v : map fst (hold_set p v h) = map fst h.
Proof. induction h as [|[k w] h IH]; cbn; [reflexivity|]. destruct (k =? p); cbn; congruence. Qed.
Lemma ins_keys h p v q : List.In q (map fst (hold_ins p v h)) <-> p = q \/ List.In q (map fst h).
Proof.
  induction h as [|[k w] h IH]; cbn; [reflexivity|]. destruct (p <? k); cbn; [reflexivity|].
  rewrite IH. tauto.
Qed.
Lemma del_keys h p q : List.In q (map fst (hold_del p h)) -> List.In q (map fst h).
Proof. induction h as [|[k w] h IH]; cbn; [auto|]. destruct (k =? p); cbn; intuition. Qed.
Lemma ins_sorted h p v : hold_find p h = None -> keys_sorted h -> keys_sorted (hold_ins p v h).
Proof.
  unfold keys_sorted. induction h as [|[k w] h IH]; cbn; intros Hf Hs.
  - repeat constructor.
  - inversion Hs as [|? ? Hs' Hall]; subst. destruct (N.eqb_spec k p) as [|Hk]; [discriminate|].
    destruct (N.ltb_spec p k); cbn.
    + constructor; [exact Hs|]. constructor; [assumption|].
      eapply List.Forall_impl; [|exact Hall]. cbn. lia.
    + constructor; [apply IH; assumption|]. apply List.Forall_forall. intros q Hq.
      apply ins_keys in Hq. destruct Hq as [<-|Hq]; [lia|].
      rewrite List.Forall_forall in Hall. auto.
Qed.
Lemma del_sorted h p : keys_sorted h -> keys_sorted (hold_del p h).
Proof.
  unfold keys_sorted. induction h as [|[k w] h IH]; cbn; intros Hs; [exact Hs|].
  inversion Hs as [|? ? Hs' Hall]; subst. destruct (k =? p); cbn; [exact Hs'|].
  constructor; [auto|]. apply List.Forall_forall. intros q Hq. apply del_keys in Hq.
  rewrite List.Forall_forall in Hall. auto.
Qed.
Lemma set_sorted h p v : keys_sorted h -> keys_sorted (hold_set p v h).
Proof. unfold keys_sorted. rewrite set_keys. auto. Qed.
Lemma reduced_sorted h p v : keys_sorted h -> keys_sorted (reduced h p v).
Proof. intros Hs. unfold reduced. destruct (v =? 0); [apply del_sorted|apply set_sorted]; exact Hs. Qed.
Lemma sum_set h p v e : hold_find p h = Some e -> hsum (hold_set p v h) + e = hsum h + v.
Proof.
  unfold hsum, sumL. induction h as [|[k w] h IH]; cbn; [discriminate|]. destruct (k =? p); cbn.
  - intros [= ->]. lia.
  - intros Hf. specialize (IH Hf). lia.
Qed.
Lemma sum_ins h p v : hsum (hold_ins p v h) = hsum h + v.
Proof.
  unfold hsum, sumL. induction h as [|[k w] h IH]; cbn; [lia|]. destruct (p <? k); cbn; [lia|].
  rewrite IH. lia.
Qed.
Lemma sum_del h p e : hold_find p h = Some e -> hsum (hold_del p h) + e = hsum h.
Proof.
  unfold hsum, sumL. induction h as [|[k w] h IH]; cbn; [discriminate|]. destruct (k =? p); cbn.
  - intros [= ->]. lia.
  - intros Hf. specialize (IH Hf). lia.
Qed.
Lemma sum_reduced h p d e : hold_find p h = Some e -> hsum (reduced h p d) + e = hsum h + d.
Proof.
  intros Hf. unfold reduced. destruct (N.eqb_spec d 0) as [->|].
  - rewrite N.add_0_r. apply sum_del. exact Hf.
  - apply sum_set. exact Hf.
Qed.
Lemma find_reduced h p d e q : hold_find p h = Some e -> keys_sorted h ->
  default 0 (hold_find q (reduced h p d)) = if p =? q then d else default 0 (hold_find q h).
Proof.
  intros Hf Hs. unfold reduced. destruct (N.eqb_spec d 0) as [->|].
  - rewrite find_del by exact Hs. destruct (p =? q); reflexivity.
  - rewrite (find_set h p d e) by exact Hf. destruct (p =? q); reflexivity.
Qed.
Lemma find_le_sum h p e : hold_find p h = Some e -> e <= hsum h.
Proof. intros Hf. pose proof (sum_del h p e Hf). lia. Qed.

Section proofs.
  Context {A : Type} `{Countable A}.
  Variable vault : A.
  Variable mh : nat.
  Implicit Types (s : assets A) (l : ledger A).

  (** ** Split transfers *)
  (** Total paid to [y] by a list of payments. *)
  Definition paid_to (y : A) (ts : list (A * N)) : N :=
    sumL (map snd (List.filter (fun t => bool_decide (fst t = y)) ts)).

  Lemma paid_to_cons y p v ts : paid_to y ((p, v) :: ts) = (if decide (p = y) then v else 0) + paid_to y ts.
  Proof.
    unfold paid_to. cbn [List.filter fst]. destruct (decide (p = y)) as [E|E].
    - rewrite bool_decide_eq_true_2 by exact E. reflexivity.
    - rewrite bool_decide_eq_false_2 by exact E. reflexivity.
  Qed.
  Lemma paid_to_notin y ts : Forall (fun t => fst t <> y) ts -> paid_to y ts = 0.
  Proof.
    induction ts as [|[p v] ts IH]; intros Hf; [reflexivity|]. inversion Hf; subst.
    rewrite paid_to_cons, IH by assumption. cbn in *. destruct (decide (p = y)); [contradiction|lia].
  Qed.

  Lemma split_loop_spec ts : forall l who a l',
    split_loop l who a ts = (l', None) ->
    iss l' = iss l /\ (forall b, total l' b = total l b) /\
    forall b y, balance l' b y + (if decide ((a, who) = (b, y)) then amounts ts else 0)
              = balance l b y + (if b =? a then paid_to y ts else 0).
  Proof.
    induction ts as [|[p v] ts IH]; intros l who a l' Hs; cbn [split_loop] in Hs.
    - injection Hs as <-. split; [reflexivity|]. split; [reflexivity|]. intros b y. cbn.
      destruct (decide _), (b =? a); cbn; lia.
    - change (amounts ((p, v) :: ts)) with (v + amounts ts).
      destruct (N.eqb_spec v 0) as [->|Hv].
      + destruct (IH _ _ _ _ Hs) as (Hi & Ht & Hb). split; [exact Hi|]. split; [exact Ht|].
        intros b y. rewrite paid_to_cons. specialize (Hb b y).
        destruct (decide (p = y)); rewrite !N.add_0_l; exact Hb.
      + destruct (transfer l a who p v) as [l1|] eqn:Et; [|discriminate].
        destruct (IH _ _ _ _ Hs) as (Hi & Ht & Hb).
        pose proof (transfer_spec _ _ _ _ _ _ Et) as (_ & Hi1 & Hb1).
        split; [congruence|]. split.
        { intros b. rewrite Ht. eapply transfer_total. eassumption. }
        intros b y. rewrite paid_to_cons. specialize (Hb b y). specialize (Hb1 b y).
        destruct (N.eqb_spec b a) as [->|Hba].
        * destruct (decide ((a, who) = (a, y))), (decide ((a, p) = (a, y))), (decide (p = y));
            try congruence; lia.
        * destruct (decide ((a, who) = (b, y))); [congruence|].
          destruct (decide ((a, p) = (b, y))); [congruence|]. lia.
  Qed.
  Lemma split_spec l who a ts l' :
    split_transfer l who a ts = Ok l' ->
    iss l' = iss l /\ (forall b, total l' b = total l b) /\
    forall b y, balance l' b y + (if decide ((a, who) = (b, y)) then amounts ts else 0)
              = balance l b y + (if b =? a then paid_to y ts else 0).
  Proof.
    unfold split_transfer, split_raw. destruct (_ <? _); [discriminate|].
    destruct (split_loop l who a ts) as [l1 [e|]] eqn:E; [discriminate|]. intros [= <-].
    apply split_loop_spec. exact E.
  Qed.
  Lemma split_books l who a ts l' : split_transfer l who a ts = Ok l' -> books l -> books l'.
  Proof.
    intros Hs Hb b. destruct (split_spec _ _ _ _ _ Hs) as (Hi & Ht & _).
    unfold issuance. rewrite Hi, Ht. apply Hb.
  Qed.
  Lemma split_loop_ok ts : forall l who a, books l -> amounts ts <= balance l a who ->
    exists l', split_loop l who a ts = (l', None).
  Proof.
    induction ts as [|[p v] ts IH]; intros l who a Hb Ha; cbn [split_loop]; [eauto|].
    change (amounts ((p, v) :: ts)) with (v + amounts ts) in Ha.
    destruct (N.eqb_spec v 0) as [->|Hv]; [apply IH; [exact Hb|lia]|].
    destruct (transfer_ok l a who p v Hb ltac:(lia)) as [l1 Et]. rewrite Et.
    apply IH; [eapply transfer_books; eassumption|].
    apply transfer_spec in Et. destruct Et as (_ & _ & B). specialize (B a who).
    destruct (decide ((a, who) = (a, who))); [|congruence].
    destruct (decide ((a, p) = (a, who))); lia.
  Qed.
  Lemma wrap_small n : n <= U128MAX -> wrap128 n = n.
  Proof. intros Hn. unfold wrap128. apply N.mod_small. unfold U128MAX in Hn. lia. Qed.
  Lemma split_raw_total l who a ts : books l -> amounts ts <= U128MAX ->
    (exists l', split_raw l who a ts = (l', None) /\ amounts ts <= balance l a who) \/
    (exists e, split_raw l who a ts = (l, Some e) /\ balance l a who < amounts ts).
  Proof.
    intros Hb Ha. unfold split_raw. rewrite wrap_small by exact Ha.
    destruct (N.ltb_spec (balance l a who) (amounts ts)).
    - right. eauto.
    - left. destruct (split_loop_ok ts l who a Hb) as [l' E]; [assumption|]. eauto.
  Qed.

  (** ** Holds *)
  (** Everything held for anybody in asset [a]. *)
  Definition held_all s (a : N) : N := sumf (fun k h => if fst k =? a then hsum h else 0) (holds s).
  (** Free balance of [y] plus everything held for [y]. *)
  Definition owned s (a : N) (y : A) : N := balance (al s) a y + hsum (holds_of s a y).

  Lemma holds_of_insert l m k h a y :
    holds_of (Assets l (<[k := h]> m)) a y = if decide (k = (a, y)) then h else default [] (m !! (a, y)).
  Proof.
    unfold holds_of. cbn [holds]. destruct (decide _) as [->|Hne].
    - rewrite lookup_insert. reflexivity.
    - rewrite lookup_insert_ne by exact Hne. reflexivity.
  Qed.
  Lemma holds_of_store l m k h a y :
    holds_of (Assets l (store m k h)) a y = if decide (k = (a, y)) then h else default [] (m !! (a, y)).
  Proof.
    destruct h as [|e h]; cbn [store].
    - unfold holds_of. cbn [holds]. destruct (decide _) as [->|Hne].
      + rewrite lookup_delete. reflexivity.
      + rewrite lookup_delete_ne by exact Hne. reflexivity.
    - apply holds_of_insert.
  Qed.
  Lemma held_contrib s a b y :
    contrib (fun k h => if fst k =? a then hsum h else 0) (holds s) (b, y)
    = if b =? a then hsum (holds_of s b y) else 0.
  Proof.
    unfold contrib, holds_of. destruct (holds s !! (b, y)); cbn; [reflexivity|].
    destruct (b =? a); reflexivity.
  Qed.
  Lemma held_insert l s b y h a :
    held_all (Assets l (<[(b, y) := h]> (holds s))) a + (if b =? a then hsum (holds_of s b y) else 0)
    = held_all s a + (if b =? a then hsum h else 0).
  Proof.
    unfold held_all. cbn [holds].
    pose proof (sumf_insert (fun k h => if fst k =? a then hsum h else 0) (holds s) (b, y) h) as Hs.
    rewrite held_contrib in Hs. exact Hs.
  Qed.
  Lemma held_store l s b y h a :
    held_all (Assets l (store (holds s) (b, y) h)) a + (if b =? a then hsum (holds_of s b y) else 0)
    = held_all s a + (if b =? a then hsum h else 0).
  Proof.
    destruct h as [|e h]; cbn [store]; [|apply held_insert].
    unfold held_all. cbn [holds].
    pose proof (sumf_delete (fun k h => if fst k =? a then hsum h else 0) (holds s) (b, y)) as Hs.
    rewrite held_contrib in Hs. change (hsum []) with 0. destruct (b =? a); lia.
  Qed.

  Definition HI s : Prop :=
    books (al s) /\ (forall a y, keys_sorted (holds_of s a y)).

  (** Effect on the observable holds: the hold of pallet [p] for ([who],[a]) becomes [f] of what it
      was, everything else stays. *)
  Definition hold_changes s s' p who a v : Prop :=
    forall p' y b, hold_balance s' p' y b =
      if decide ((p, who, a) = (p', y, b)) then v else hold_balance s p' y b.

  Lemma hold_changes_intro s l h p who a v :
    (forall q, default 0 (hold_find q h) = if p =? q then v else default 0 (hold_find q (holds_of s a who))) ->
    forall s', (forall b y, holds_of s' b y = if decide ((a, who) = (b, y)) then h else holds_of s b y) ->
    al s' = l -> hold_changes s s' p who a v.
  Proof.
    intros Hh s' Hs' _ q y b. unfold hold_balance. rewrite Hs'.
    destruct (decide ((a, who) = (b, y))) as [E|E].
    - injection E as <- <-. rewrite Hh. destruct (N.eqb_spec p q) as [->|].
      + rewrite decide_True by reflexivity. reflexivity.
      + rewrite decide_False by congruence. reflexivity.
    - rewrite decide_False by congruence. reflexivity.
  Qed.

  Lemma place_spec s p who a v s' :
    HI s -> place_hold vault mh s p who a v = Ok s' ->
    HI s' /\ transfer (al s) a who vault v = Ok (al s') /\
    hold_changes s s' p who a (hold_balance s p who a + v) /\
    (forall b y, hsum (holds_of s' b y) = hsum (holds_of s b y) + (if decide ((a, who) = (b, y)) then v else 0)) /\
    (forall b, held_all s' b = held_all s b + (if a =? b then v else 0)).
  Proof.
    intros [Hb Hs] Hp. unfold place_hold in Hp. inv_ok. rename v0 into h', v1 into l. subst s'.
    match goal with H : transfer _ _ _ _ _ = _ |- _ => rename H into Ht end.
    set (h := holds_of s a who) in *.
    assert (Hh : hsum h' = hsum h + v /\ keys_sorted h' /\
      (forall q, default 0 (hold_find q h') = if p =? q then default 0 (hold_find p h) + v else default 0 (hold_find q h))).
    { destruct (hold_find p h) as [e|] eqn:Ef.
      - inv_ok. subst h'. split; [|split].
        + pose proof (sum_set h p (e + v) e Ef). lia.
        + apply set_sorted, Hs.
        + intros q. rewrite (find_set h p _ e) by exact Ef. destruct (p =? q); reflexivity.
      - destruct (Nat.ltb (length h) mh); [|discriminate]. inv_ok. subst h'. split; [|split].
        + apply sum_ins.
        + apply ins_sorted; [exact Ef|apply Hs].
        + intros q. rewrite find_ins by exact Ef. destruct (p =? q); reflexivity. }
    destruct Hh as (Hsum & Hsort & Hfind).
    split; [split|split; [|split; [|split]]].
    - eapply transfer_books; eassumption.
    - intros b y. rewrite holds_of_insert. destruct (decide _); [exact Hsort|apply Hs].
    - exact Ht.
    - eapply hold_changes_intro; [exact Hfind| |reflexivity]. intros b y. apply holds_of_insert.
    - intros b y. rewrite holds_of_insert. destruct (decide _) as [[= <- <-]|]; [exact Hsum|].
      fold (holds_of s b y). lia.
    - intros b. pose proof (held_insert l s a who h' b) as EH. destruct (a =? b); [|lia].
      fold h in EH. lia.
  Qed.

  Lemma release_spec s p who a v s' :
    HI s -> release_hold vault s p who a v = Ok s' ->
    HI s' /\ transfer (al s) a vault who v = Ok (al s') /\ v <= hold_balance s p who a /\
    hold_changes s s' p who a (hold_balance s p who a - v) /\
    (forall b y, hsum (holds_of s' b y) + (if decide ((a, who) = (b, y)) then v else 0) = hsum (holds_of s b y)) /\
    (forall b, held_all s' b + (if a =? b then v else 0) = held_all s b).
  Proof.
    intros [Hb Hs] Hp. unfold release_hold in Hp. set (h := holds_of s a who) in *.
    destruct (hold_find p h) as [e|] eqn:Ef; [|discriminate]. inv_ok. rename v1 into l. subst s'.
    match goal with H : transfer _ _ _ _ _ = _ |- _ => rename H into Ht end.
    assert (Ebal : hold_balance s p who a = e) by (unfold hold_balance; fold h; rewrite Ef; reflexivity).
    pose proof (sum_reduced h p (e - v) e Ef) as Hsum. pose proof (find_le_sum h p e Ef).
    split; [split|split; [|split; [|split; [|split]]]].
    - eapply transfer_books; eassumption.
    - intros b y. rewrite holds_of_store. destruct (decide _); [apply reduced_sorted, Hs|apply Hs].
    - exact Ht.
    - rewrite Ebal. assumption.
    - rewrite Ebal. eapply hold_changes_intro; [|intros b y; apply holds_of_store|reflexivity].
      intros q. fold h. apply (find_reduced h p _ e); [exact Ef|apply Hs].
    - intros b y. rewrite holds_of_store. destruct (decide _) as [[= <- <-]|].
      + fold h. lia.
      + fold (holds_of s b y). lia.
    - intros b. pose proof (held_store l s a who (reduced h p (e - v)) b) as EH. fold h in EH.
      destruct (a =? b); lia.
  Qed.

  Lemma spend_spec s p who a sp s' :
    HI s -> amounts sp <= U128MAX -> spend_hold vault s p who a sp = Ok s' ->
    HI s' /\ split_transfer (al s) vault a sp = Ok (al s') /\ amounts sp <= hold_balance s p who a /\
    hold_changes s s' p who a (hold_balance s p who a - amounts sp) /\
    (forall b y, hsum (holds_of s' b y) + (if decide ((a, who) = (b, y)) then amounts sp else 0) = hsum (holds_of s b y)) /\
    (forall b, held_all s' b + (if a =? b then amounts sp else 0) = held_all s b).
  Proof.
    intros [Hb Hs] Hv Hp. unfold spend_hold in Hp. set (h := holds_of s a who) in *.
    destruct (hold_find p h) as [e|] eqn:Ef; [|discriminate]. inv_ok. rename v0 into l. subst s'.
    match goal with H : split_transfer _ _ _ _ = _ |- _ => rename H into Ht end.
    pose proof (wrap_small _ Hv) as Hw.
    rewrite Hw in *. set (v := amounts sp) in *.
    assert (Ebal : hold_balance s p who a = e) by (unfold hold_balance; fold h; rewrite Ef; reflexivity).
    pose proof (sum_reduced h p (e - v) e Ef) as Hsum. pose proof (find_le_sum h p e Ef).
    split; [split|split; [|split; [|split; [|split]]]].
    - eapply split_books; eassumption.
    - intros b y. rewrite holds_of_store. destruct (decide _); [apply reduced_sorted, Hs|apply Hs].
    - exact Ht.
    - rewrite Ebal. assumption.
    - rewrite Ebal. eapply hold_changes_intro; [|intros b y; apply holds_of_store|reflexivity].
      intros q. fold h. apply (find_reduced h p _ e); [exact Ef|apply Hs].
    - intros b y. rewrite holds_of_store. destruct (decide _) as [[= <- <-]|].
      + fold h. lia.
      + fold (holds_of s b y). lia.
    - intros b. pose proof (held_store l s a who (reduced h p (e - v)) b) as EH. fold h in EH.
      destruct (a =? b); lia.
  Qed.

  (** ** Histories *)
  (** No list of spends whose sum leaves the 128-bit range. *)
  Definition sane (o : hop A) : Prop :=
    match o with HSpend _ _ _ sp => amounts sp <= U128MAX | _ => True end.
  (** The vault account has no key: it signs nothing, no pallet holds its funds, and it is not
      the target of a burn. *)
  Definition fair (o : hop A) : Prop :=
    sane o /\
    match o with
    | HPlace _ who _ _ | HRelease _ who _ _ => who <> vault
    | HSpend _ who _ _ => who <> vault
    | HTransfer f _ _ _ => f <> vault
    | HSplit f _ _ => f <> vault
    | HMint _ _ _ => True
    | HBurn _ f _ => f <> vault
    end.
  Definition backed s : Prop := forall a, held_all s a <= balance (al s) a vault.

  Lemma hinit_inv : HI (hinit (A:=A)) /\ backed hinit.
  Proof.
    split; [split|].
    - apply empty_books.
    - intros a y. constructor.
    - intros a. unfold held_all, hinit. cbn [holds]. rewrite sumf_empty. lia.
  Qed.

  Lemma hstep_HI s o : sane o -> HI s -> HI (hstep vault mh s o).
  Proof.
    intros Hf Hi. unfold hstep. destruct (hexec vault mh s o) as [s'|] eqn:E; cbn [commit]; [|auto].
    destruct o; cbn [hexec sane] in *.
    - apply (place_spec _ _ _ _ _ _ Hi E).
    - apply (release_spec _ _ _ _ _ _ Hi E).
    - apply (spend_spec _ _ _ _ _ _ Hi Hf E).
    - unfold on_ledger in E. inv_ok. subst s'. split; [eapply transfer_books; [eassumption|apply Hi]|apply Hi].
    - unfold on_ledger in E. inv_ok. subst s'. split; [eapply split_books; [eassumption|apply Hi]|apply Hi].
    - unfold on_ledger in E. inv_ok. subst s'. split; [eapply mint_books; [eassumption|apply Hi]|apply Hi].
    - unfold on_ledger in E. inv_ok. subst s'. split; [eapply burn_books; [eassumption|apply Hi]|apply Hi].
  Qed.
  Lemma hstep_backed s o : fair o -> HI s -> backed s -> backed (hstep vault mh s o).
  Proof.
    intros [Hs Hf] Hi Hk. unfold hstep. destruct (hexec vault mh s o) as [s'|] eqn:E; cbn [commit]; [|auto].
    intros b. specialize (Hk b). destruct o; cbn [hexec sane] in *.
    - destruct (place_spec _ _ _ _ _ _ Hi E) as (_ & Ht & _ & _ & Hh).
      rewrite Hh. apply transfer_spec in Ht. destruct Ht as (_ & _ & B).
      specialize (B b vault). destruct (N.eqb_spec a b) as [->|Hab].
      + rewrite (decide_True (P := (b, vault) = (b, vault))) in B by reflexivity.
        rewrite decide_False in B by congruence. lia.
      + rewrite !decide_False in B by congruence. lia.
    - destruct (release_spec _ _ _ _ _ _ Hi E) as (_ & Ht & _ & _ & _ & Hh).
      specialize (Hh b). apply transfer_spec in Ht. destruct Ht as (_ & _ & B).
      specialize (B b vault). destruct (N.eqb_spec a b) as [->|Hab].
      + rewrite (decide_True (P := (b, vault) = (b, vault))) in B by reflexivity.
        rewrite decide_False in B by congruence. lia.
      + rewrite !decide_False in B by congruence. lia.
    - destruct (spend_spec _ _ _ _ _ _ Hi Hs E) as (_ & Ht & _ & _ & _ & Hh).
      specialize (Hh b). apply split_spec in Ht. destruct Ht as (_ & _ & B).
      specialize (B b vault). destruct (N.eqb_spec a b) as [->|Hab].
      + rewrite decide_True in B by reflexivity. rewrite N.eqb_refl in B. lia.
      + rewrite decide_False in B by congruence. destruct (b =? a); lia.
    - unfold on_ledger in E. inv_ok. subst s'. match goal with H : transfer _ _ _ _ _ = _ |- _ => rename H into Ht end.
      apply transfer_spec in Ht. destruct Ht as (_ & _ & B).
      specialize (B b vault). unfold held_all in *. cbn [holds al] in *.
      rewrite (decide_False (P := (a, from) = (b, vault))) in B by congruence. lia.
    - unfold on_ledger in E. inv_ok. subst s'. match goal with H : split_transfer _ _ _ _ = _ |- _ => rename H into Ht end.
      apply split_spec in Ht. destruct Ht as (_ & _ & B).
      specialize (B b vault). unfold held_all in *. cbn [holds al] in *.
      rewrite decide_False in B by congruence. lia.
    - unfold on_ledger in E. inv_ok. subst s'. match goal with H : mint _ _ _ _ = _ |- _ => rename H into Ht end.
      apply mint_spec in Ht. destruct Ht as (_ & _ & B & _).
      specialize (B b vault). unfold held_all in *. cbn [holds al] in *. lia.
    - unfold on_ledger in E. inv_ok. subst s'. match goal with H : burn _ _ _ _ = _ |- _ => rename H into Ht end.
      apply burn_spec in Ht; [|apply Hi]. destruct Ht as (_ & _ & B & _).
      specialize (B b vault). unfold held_all in *. cbn [holds al] in *.
      rewrite decide_False in B by congruence. lia.
  Qed.
  Lemma hrun_HI ops : Forall sane ops -> HI (run (hstep vault mh) ops hinit).
  Proof.
    intros Hf. apply (run_inv_where (hstep vault mh) sane HI); [|exact Hf|apply hinit_inv].
    intros s o Ho Hs. apply hstep_HI; assumption.
  Qed.
  Lemma hrun_inv ops : Forall fair ops -> HI (run (hstep vault mh) ops hinit) /\ backed (run (hstep vault mh) ops hinit).
  Proof.
    intros Hf. apply (run_inv_where (hstep vault mh) fair (fun s => HI s /\ backed s)); [|exact Hf|apply hinit_inv].
    intros s o Ho [Hs Hk]. split; [apply hstep_HI; [apply Ho|exact Hs]|apply hstep_backed; assumption].
  Qed.

  Lemma hold_le_all s p who a : hold_balance s p who a <= held_all s a.
  Proof.
    unfold hold_balance. destruct (hold_find p (holds_of s a who)) as [e|] eqn:Ef; cbn; [|lia].
    apply find_le_sum in Ef. etransitivity; [exact Ef|]. unfold held_all.
    pose proof (sumf_contrib_le (fun k h => if fst k =? a then hsum h else 0) (holds s) (a, who)) as Hc.
    rewrite held_contrib, N.eqb_refl in Hc. exact Hc.
  Qed.
  Lemma release_ok s p who a v :
    HI s -> backed s -> 0 < v <= hold_balance s p who a -> exists s', release_hold vault s p who a v = Ok s'.
  Proof.
    intros [Hb _] Hk Hv. pose proof (hold_le_all s p who a) as Hle. specialize (Hk a).
    unfold release_hold. unfold hold_balance in Hv.
    destruct (hold_find p (holds_of s a who)) as [e|] eqn:Ef; cbn in Hv; [|lia].
    unfold chk_sub. destruct (N.leb_spec v e); [|lia]. cbn [of_opt rbind].
    unfold hold_balance in Hle. rewrite Ef in Hle. cbn in Hle.
    destruct (transfer_ok (al s) a vault who v Hb ltac:(lia)) as [l Et]. rewrite Et. cbn. eauto.
  Qed.
  Lemma spend_ok s p who a sp :
    HI s -> backed s -> 0 < amounts sp <= hold_balance s p who a ->
    exists s', spend_hold vault s p who a sp = Ok s'.
  Proof.
    intros [Hb _] Hk Hv. pose proof (hold_le_all s p who a) as Hle. specialize (Hk a).
    unfold spend_hold. 
    assert (Hu : amounts sp <= U128MAX).
    { pose proof (balance_le_total (al s) a vault). destruct (Hb a). lia. }
    rewrite wrap_small by exact Hu.
    assert (Hsp : exists l', split_transfer (al s) vault a sp = Ok l').
    { destruct (split_raw_total (al s) vault a sp Hb Hu) as [(l' & E & _)|(e & _ & Hlt)]; [|lia].
      exists l'. unfold split_transfer. rewrite E. reflexivity. }
    destruct Hsp as [l' Hsp].
    unfold hold_balance in Hv. destruct (hold_find p (holds_of s a who)) as [e|] eqn:Ef; cbn in Hv; [|lia].
    unfold chk_sub. destruct (N.leb_spec (amounts sp) e); [|lia]. cbn [of_opt rbind].
    rewrite Hsp. cbn. eauto.
  Qed.

  (** ** Ghost accounting: what pallet [p] placed on / took out of the hold of ([w],[a]) by the
      successful calls of a history. *)
  Definition placed1 p w a (s : assets A) (o : hop A) : N :=
    if is_ok (hexec vault mh s o) then
      match o with
      | HPlace p' w' a' v => if decide ((p', w', a') = (p, w, a)) then v else 0
      | _ => 0
      end
    else 0.
  Definition taken1 p w a (s : assets A) (o : hop A) : N :=
    if is_ok (hexec vault mh s o) then
      match o with
      | HRelease p' w' a' v => if decide ((p', w', a') = (p, w, a)) then v else 0
      | HSpend p' w' a' sp => if decide ((p', w', a') = (p, w, a)) then amounts sp else 0
      | _ => 0
      end
    else 0.
  Fixpoint over (f : assets A -> hop A -> N) (ops : list (hop A)) (s : assets A) : N :=
    match ops with [] => 0 | o :: ops' => f s o + over f ops' (hstep vault mh s o) end.

  Lemma hold_step_account s o p w a : HI s -> sane o ->
    hold_balance (hstep vault mh s o) p w a + taken1 p w a s o = hold_balance s p w a + placed1 p w a s o.
  Proof.
    intros Hi Hf. unfold hstep, taken1, placed1.
    destruct (hexec vault mh s o) as [s'|] eqn:E; cbn [commit is_ok]; [|lia].
    destruct o; cbn [hexec sane] in *.
    - destruct (place_spec _ _ _ _ _ _ Hi E) as (_ & _ & Hc & _). rewrite (Hc p w a).
      destruct (decide (_ = _)) as [[= -> -> ->]|]; lia.
    - destruct (release_spec _ _ _ _ _ _ Hi E) as (_ & _ & Hle & Hc & _). rewrite (Hc p w a).
      destruct (decide (_ = _)) as [[= -> -> ->]|]; lia.
    - destruct (spend_spec _ _ _ _ _ _ Hi Hf E) as (_ & _ & Hle & Hc & _). rewrite (Hc p w a).
      destruct (decide (_ = _)) as [[= -> -> ->]|]; lia.
    - unfold on_ledger in E. inv_ok. subst s'. unfold hold_balance, holds_of. cbn [holds]. lia.
    - unfold on_ledger in E. inv_ok. subst s'. unfold hold_balance, holds_of. cbn [holds]. lia.
    - unfold on_ledger in E. inv_ok. subst s'. unfold hold_balance, holds_of. cbn [holds]. lia.
    - unfold on_ledger in E. inv_ok. subst s'. unfold hold_balance, holds_of. cbn [holds]. lia.
  Qed.
  Lemma hold_account ops : forall s p w a, HI s -> Forall sane ops ->
    hold_balance (run (hstep vault mh) ops s) p w a + over (taken1 p w a) ops s
    = hold_balance s p w a + over (placed1 p w a) ops s.
  Proof.
    induction ops as [|o ops IH]; intros s p w a Hi Hf; [cbn; lia|]. inversion Hf; subst.
    cbn [over]. change (run (hstep vault mh) (o :: ops) s) with (run (hstep vault mh) ops (hstep vault mh s o)).
    pose proof (hstep_HI s o ltac:(assumption) Hi) as Hi'.
    specialize (IH _ p w a Hi' ltac:(assumption)).
    pose proof (hold_step_account s o p w a Hi ltac:(assumption)). lia.
  Qed.

  (** What an account gains or loses by one successful operation, other than moving between its
      free and held balance. *)
  Definition gain1 y a (o : hop A) : N :=
    match o with
    | HSpend _ _ a' sp => if a' =? a then paid_to y sp else 0
    | HTransfer _ a' t v => if decide ((a', t) = (a, y)) then v else 0
    | HSplit _ a' ts => if a' =? a then paid_to y ts else 0
    | HMint a' t v => if decide ((a', t) = (a, y)) then v else 0
    | _ => 0
    end.
  Definition loss1 y a (o : hop A) : N :=
    match o with
    | HSpend _ w a' sp => if decide ((a', w) = (a, y)) then amounts sp else 0
    | HTransfer f a' _ v => if decide ((a', f) = (a, y)) then v else 0
    | HSplit f a' ts => if decide ((a', f) = (a, y)) then amounts ts else 0
    | HBurn a' f v => if decide ((a', f) = (a, y)) then v else 0
    | _ => 0
    end.
  Lemma owned_step s o s' y a : HI s -> sane o -> y <> vault -> hexec vault mh s o = Ok s' ->
    owned s' a y + loss1 y a o = owned s a y + gain1 y a o.
  Proof.
    intros Hi Hf Hy E. unfold owned. destruct o; cbn [hexec sane loss1 gain1] in *.
    - destruct (place_spec _ _ _ _ _ _ Hi E) as (_ & Ht & _ & Hh & _). rewrite Hh.
      apply transfer_spec in Ht. destruct Ht as (_ & _ & B). specialize (B a y).
      destruct (decide ((a0, vault) = (a, y))); [congruence|]. lia.
    - destruct (release_spec _ _ _ _ _ _ Hi E) as (_ & Ht & _ & _ & Hh & _). specialize (Hh a y).
      apply transfer_spec in Ht. destruct Ht as (_ & _ & B). specialize (B a y).
      destruct (decide ((a0, vault) = (a, y))); [congruence|]. lia.
    - destruct (spend_spec _ _ _ _ _ _ Hi Hf E) as (_ & Ht & _ & _ & Hh & _). specialize (Hh a y).
      apply split_spec in Ht. destruct Ht as (_ & _ & B). specialize (B a y).
      destruct (decide ((a0, vault) = (a, y))); [congruence|].
      rewrite (N.eqb_sym a0 a). lia.
    - unfold on_ledger in E. inv_ok. subst s'. unfold holds_of. cbn [holds al].
      match goal with H : transfer _ _ _ _ _ = _ |- _ => apply transfer_spec in H; destruct H as (_ & _ & B) end.
      specialize (B a y). lia.
    - unfold on_ledger in E. inv_ok. subst s'. unfold holds_of. cbn [holds al].
      match goal with H : split_transfer _ _ _ _ = _ |- _ => apply split_spec in H; destruct H as (_ & _ & B) end.
      specialize (B a y). rewrite (N.eqb_sym a0 a). lia.
    - unfold on_ledger in E. inv_ok. subst s'. unfold holds_of. cbn [holds al].
      match goal with H : mint _ _ _ _ = _ |- _ => apply mint_spec in H; destruct H as (_ & _ & B & _) end.
      specialize (B a y). lia.
    - unfold on_ledger in E. inv_ok. subst s'. unfold holds_of. cbn [holds al].
      match goal with H : burn _ _ _ _ = _ |- _ => apply burn_spec in H; [|apply Hi]; destruct H as (_ & _ & B & _) end.
      specialize (B a y). lia.
  Qed.
End proofs.
