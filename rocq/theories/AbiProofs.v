(** Lemmas about the Solidity ABI reader and writer. *)
From Verif Require Export AbiModel NotaryProofs.

(** ** The ABI as the Solidity documentation defines it *)
(** Which values a type has. *)
Definition fits (k : wkind) (n : N) : Prop :=
  match k with
  | WUint mx => n <= mx /\ n < 2 ^ 256
  | WAddr => n < 2 ^ 160
  | WBool => n < 2
  | WHash => n < 2 ^ 256
  end.
Fixpoint wt (t : ty) (v : val) {struct t} : Prop :=
  match t, v with
  | TW k, VN n => fits k n
  | TPost, VB b => length b = 32%nat
  | TBytes mx, VB b => nlen b <= mx
  | TVec mx t', VL l => N.of_nat (length l) <= mx /\ (fix all (l : list val) := match l with [] => True | x :: r => wt t' x /\ all r end) l
  | TTup ts, VL l => ts <> [] /\
      (fix all2 (ts : list ty) (l : list val) := match ts, l with
         | [], [] => True | t1 :: ts', x :: l' => wt t1 x /\ all2 ts' l' | _, _ => False end) ts l
  | _, _ => False
  end.
Fixpoint wt_all (ts : list ty) (l : list val) : Prop :=
  match ts, l with [], [] => True | t1 :: ts', x :: l' => wt t1 x /\ wt_all ts' l' | _, _ => False end.

(** "enc((X1, …, Xk)) = head(X1) … head(Xk) tail(X1) … tail(Xk)", from the static or dynamic parts
    [(is static, enc Xi)]: the head of a static part is its encoding, that of a dynamic part is the
    distance from the start of the heads to its tail. *)
Fixpoint hsize (ps : list (bool * list N)) : nat :=
  match ps with [] => 0 | (st, e) :: r => (if st then length e else 32) + hsize r end%nat.
Fixpoint heads (off : nat) (ps : list (bool * list N)) : list N :=
  match ps with
  | [] => []
  | (true, e) :: r => e ++ heads off r
  | (false, e) :: r => word (N.of_nat off) ++ heads (off + length e) r
  end.
Fixpoint tails (ps : list (bool * list N)) : list N :=
  match ps with [] => [] | (st, e) :: r => (if st then [] else e) ++ tails r end.
Definition abi_seq (ps : list (bool * list N)) : list N := heads (hsize ps) ps ++ tails ps.
Fixpoint enc (t : ty) (v : val) {struct t} : list N :=
  match t, v with
  | TW _, VN n => word n
  | TPost, VB b => b
  | TBytes _, VB b => word (nlen b) ++ pad32 b
  | TVec _ t', VL l => word (N.of_nat (length l)) ++ abi_seq (map (fun x => (is_static t', enc t' x)) l)
  | TTup ts, VL l =>
      abi_seq ((fix go (ts : list ty) (l : list val) := match ts, l with
        | t1 :: ts', x :: l' => (is_static t1, enc t1 x) :: go ts' l' | _, _ => [] end) ts l)
  | _, _ => []
  end.
Fixpoint parts (ts : list ty) (l : list val) : list (bool * list N) :=
  match ts, l with t1 :: ts', x :: l' => (is_static t1, enc t1 x) :: parts ts' l' | _, _ => [] end.
Definition enc_all (ts : list ty) (l : list val) : list N := abi_seq (parts ts l).

(** ** Induction over types *)
Lemma ty_all (P : ty -> Prop) :
  (forall k, P (TW k)) -> P TPost -> (forall mx, P (TBytes mx)) -> (forall mx t, P t -> P (TVec mx t)) ->
  (forall ts, Forall P ts -> P (TTup ts)) -> forall t, P t.
Proof.
  intros H1 H2 H3 H4 H5. fix IH 1. intros [k| |mx|mx t|ts].
  - apply H1.
  - apply H2.
  - apply H3.
  - apply H4, IH.
  - apply H5. induction ts as [|t ts IHts]; constructor; [apply IH|apply IHts].
Qed.

Lemma wt_tup ts l : wt (TTup ts) (VL l) <-> ts <> [] /\ wt_all ts l.
Proof. reflexivity. Qed.
Lemma wt_vec mx t l : wt (TVec mx t) (VL l) <-> N.of_nat (length l) <= mx /\ Forall (wt t) l.
Proof.
  simpl. split; intros [A B]; split; auto.
  - clear A. induction l; constructor; tauto.
  - clear A. induction B; simpl; auto.
Qed.
Lemma enc_tup ts l : enc (TTup ts) (VL l) = enc_all ts l.
Proof. reflexivity. Qed.
Lemma write_tup ts l w :
  write (TTup ts) (VL l) w = if forallb is_static ts then write_all ts l w else pointer w (build (write_all ts l wnew)).
Proof. reflexivity. Qed.
Lemma read_tup ts inp cur :
  read (TTup ts) inp cur =
    if forallb is_static ts then do! r <- read_all ts inp cur; Ok (VL (fst r), snd r)
    else do! p <- read_pointer inp cur; do! r <- read_all ts (fst p) 0; Ok (VL (fst r), snd p).
Proof. reflexivity. Qed.

(** ** The writer writes the ABI form *)
(** The heads as the writer leaves them before [bake]. *)
Fixpoint dheads (ps : list (bool * list N)) : list N :=
  match ps with [] => [] | (st, e) :: r => (if st then e else repeat 255 32) ++ dheads r end.
Fixpoint offs (pos sh : nat) (ps : list (bool * list N)) : list odatum :=
  match ps with
  | [] => []
  | (true, e) :: r => offs (pos + length e) sh r
  | (false, e) :: r => Odatum pos e sh :: offs (pos + 32) sh r
  end.
Lemma dheads_length ps : length (dheads ps) = hsize ps.
Proof. induction ps as [|[[] e] r IH]; cbn [dheads hsize]; rewrite ?app_length, ?IH, ?repeat_length; auto. Qed.
Lemma heads_length o ps : length (heads o ps) = hsize ps.
Proof. revert o; induction ps as [|[[] e] r IH]; intros o; cbn [heads hsize]; rewrite ?app_length, ?IH, ?word_length; auto. Qed.
Lemma bake_parts ps : forall (pre hd tl : list N) sh,
  sh = length pre ->
  bake (pre ++ hd ++ dheads ps ++ tl) (offs (length pre + length hd) sh ps) =
  pre ++ hd ++ heads (length hd + hsize ps + length tl) ps ++ tl ++ tails ps.
Proof.
  induction ps as [|[[] e] r IH]; intros pre hd tl sh ->.
  - simpl. rewrite !app_nil_r. reflexivity.
  - simpl. replace (length pre + length hd + length e)%nat with (length pre + length (hd ++ e))%nat by (rewrite app_length; lia).
    replace (pre ++ hd ++ (e ++ dheads r) ++ tl) with (pre ++ (hd ++ e) ++ dheads r ++ tl) by (rewrite <- !app_assoc; auto).
    rewrite IH by auto. rewrite <- !app_assoc.
    replace (length (hd ++ e) + hsize r + length tl)%nat with (length hd + (length e + hsize r) + length tl)%nat
      by (rewrite app_length; lia). reflexivity.
  - cbn [offs bake opos odata oshift].
    assert (E : overwrite (pre ++ hd ++ dheads ((false, e) :: r) ++ tl) (length pre + length hd)
                 (word (N.of_nat (length (pre ++ hd ++ dheads ((false, e) :: r) ++ tl) - length pre))) =
                pre ++ (hd ++ word (N.of_nat (length hd + hsize ((false, e) :: r) + length tl))) ++ dheads r ++ tl).
    { unfold overwrite. rewrite word_length.
      replace (length (pre ++ hd ++ dheads ((false, e) :: r) ++ tl) - length pre)%nat
        with (length hd + hsize ((false, e) :: r) + length tl)%nat
        by (rewrite !app_length, dheads_length; lia).
      replace (pre ++ hd ++ dheads ((false, e) :: r) ++ tl) with ((pre ++ hd) ++ repeat 255 32 ++ dheads r ++ tl)
        by (cbn [dheads]; rewrite <- !app_assoc; auto).
      replace (length pre + length hd)%nat with (length (pre ++ hd)) by apply app_length.
      rewrite firstn_app, Nat.sub_diag, firstn_all, firstn_O, app_nil_r.
      rewrite skipn_app. rewrite skipn_all2 by lia.
      replace (length (pre ++ hd) + 32 - length (pre ++ hd))%nat with 32%nat by lia.
      cbn [app]. rewrite skipn_app. rewrite skipn_all2 by (rewrite repeat_length; lia).
      rewrite repeat_length. replace (32 - 32)%nat with 0%nat by lia. cbn [app skipn]. rewrite <- !app_assoc. reflexivity. }
    rewrite E.
    replace (length pre + length hd + 32)%nat
      with (length pre + length (hd ++ word (N.of_nat (length hd + hsize ((false, e) :: r) + length tl))))%nat
      by (rewrite app_length, word_length; lia).
    replace ((pre ++ (hd ++ word (N.of_nat (length hd + hsize ((false, e) :: r) + length tl))) ++ dheads r ++ tl) ++ e)
      with (pre ++ (hd ++ word (N.of_nat (length hd + hsize ((false, e) :: r) + length tl))) ++ dheads r ++ (tl ++ e))
      by (rewrite <- !app_assoc; auto).
    rewrite IH by auto. cbn [heads tails]. rewrite <- !app_assoc.
    match goal with |- _ = pre ++ hd ++ word ?a ++ heads ?b r ++ _ => set (A := b) end.
    replace (length (hd ++ word (N.of_nat (length hd + hsize ((false, e) :: r) + length tl))) + hsize r + length (tl ++ e))%nat
      with A by (subst A; rewrite !app_length, word_length; cbn [hsize]; lia). reflexivity.
Qed.

Definition put (st : bool) (e : list N) (w : writer) : writer := if st then push w e else pointer w e.
Lemma put_all_gen ps : forall w,
  fold_left (fun w p => put (fst p) (snd p) w) ps w =
  Writer (wdata w ++ dheads ps) (woffs w ++ offs (length (wdata w)) 0 ps).
Proof.
  induction ps as [|[[] e] r IH]; intros w; simpl.
  - rewrite !app_nil_r. destruct w; auto.
  - rewrite IH. simpl. rewrite <- app_assoc, app_length. reflexivity.
  - rewrite IH. simpl. rewrite <- !app_assoc, app_length. reflexivity.
Qed.
Lemma put_items_gen ps : forall w,
  fold_left (fun iw p => add_item iw (put (fst p) (snd p) wnew)) ps w =
  Writer (wdata w ++ dheads ps) (woffs w ++ offs (length (wdata w)) 32 ps).
Proof.
  induction ps as [|[[] e] r IH]; intros w; simpl.
  - rewrite !app_nil_r. destruct w; auto.
  - rewrite IH. simpl. rewrite <- app_assoc, app_length, app_nil_r. reflexivity.
  - rewrite IH. unfold add_item. cbn [wdata woffs pointer wnew put map app length opos odata oshift Nat.add repeat].
    rewrite <- !app_assoc, app_length. reflexivity.
Qed.

Lemma build_seq ps : build (Writer (dheads ps) (offs 0 0 ps)) = abi_seq ps.
Proof.
  unfold build. cbn [wdata woffs]. pose proof (bake_parts ps [] [] [] 0%nat eq_refl) as H.
  cbn [app length Nat.add] in H. rewrite !app_nil_r in H. rewrite H. unfold abi_seq. rewrite Nat.add_0_r. reflexivity.
Qed.
Lemma build_vec l ps : length l = 32%nat -> build (Writer (l ++ dheads ps) (offs 32 32 ps)) = l ++ abi_seq ps.
Proof.
  intros Hl. unfold build. cbn [wdata woffs]. pose proof (bake_parts ps l [] [] 32%nat (eq_sym Hl)) as H.
  cbn [app length Nat.add] in H. rewrite !app_nil_r, Hl in H. cbn [Nat.add] in H. rewrite H.
  unfold abi_seq. rewrite Nat.add_0_r. reflexivity.
Qed.

Lemma resize_pad b : resize (padded (length b)) b = pad32 b.
Proof.
  unfold resize, padded, pad32. pose proof (Nat.div_mod_eq (length b) 32) as E.
  pose proof (Nat.mod_upper_bound (length b) 32 ltac:(lia)) as B.
  destruct (length b mod 32)%nat as [|k] eqn:M.
  - replace (length b / 32 * 32)%nat with (length b) by lia. rewrite firstn_all, Nat.sub_diag.
    rewrite Nat.sub_0_r. rewrite Nat.mod_same by lia. reflexivity.
  - rewrite firstn_all2 by lia. f_equal. f_equal. rewrite (Nat.mod_small (32 - S k)) by lia. lia.
Qed.

Lemma write_spec t : forall v w, wt t v -> write t v w = put (is_static t) (enc t v) w.
Proof.
  induction t as [k| |mx|mx t IH|ts IH] using ty_all; intros [n|b|l] w H; try contradiction.
  - reflexivity.
  - simpl in H |- *. unfold resize. rewrite firstn_all2 by lia. rewrite H, Nat.sub_diag, app_nil_r. reflexivity.
  - simpl in H |- *. unfold build. simpl. rewrite resize_pad. reflexivity.
  - apply wt_vec in H as [_ H].
    cbn [write is_static put enc]. f_equal.
    replace (fold_left (fun iw x => add_item iw (write t x wnew)) l (push wnew (word (N.of_nat (length l)))))
      with (fold_left (fun iw p => add_item iw (put (fst p) (snd p) wnew)) (map (fun x => (is_static t, enc t x)) l)
              (push wnew (word (N.of_nat (length l))))).
    + rewrite put_items_gen. cbn [wdata woffs push wnew app]. rewrite word_length. apply build_vec, word_length.
    + generalize (push wnew (word (N.of_nat (length l)))) as w0.
      induction H as [|x l Hx Hl IHl]; intros w0; simpl; auto. rewrite IHl, IH; auto.
  - apply wt_tup in H as [_ H]. rewrite write_tup, enc_tup. cbn [is_static].
    assert (W : forall w, write_all ts l w = fold_left (fun w p => put (fst p) (snd p) w) (parts ts l) w).
    { clear w. revert l H. induction IH as [|t ts Ht Hts IH2]; intros [|x l] H w; simpl in *; try contradiction; auto.
      destruct H as [Hx Hl]. rewrite Ht by auto. apply IH2; auto. }
    destruct (forallb is_static ts) eqn:St.
    + unfold put. rewrite W, put_all_gen. unfold push.
      assert (D : forall o, dheads (parts ts l) = heads o (parts ts l) /\ tails (parts ts l) = [] /\
                   forall pos, offs pos 0 (parts ts l) = []).
      { clear -St. revert l. induction ts as [|t ts IH]; intros [|x l] o; simpl; auto.
        simpl in St. apply andb_true_iff in St as [S1 S2]. rewrite S1. simpl.
        destruct (IH S2 l o) as (A & B & C). rewrite A. auto. }
      destruct (D (hsize (parts ts l))) as (A & B & C). rewrite C, app_nil_r. unfold enc_all, abi_seq. rewrite B, app_nil_r, <- A. reflexivity.
    + unfold put. f_equal. rewrite W, put_all_gen. cbn [wdata woffs wnew app length]. apply build_seq.
Qed.
Lemma write_all_spec ts : forall l w, wt_all ts l ->
  write_all ts l w = fold_left (fun w p => put (fst p) (snd p) w) (parts ts l) w.
Proof.
  induction ts as [|t ts IH]; intros [|x l] w H; simpl in *; try contradiction; auto.
  destruct H as [Hx Hl]. rewrite write_spec by auto. apply IH; auto.
Qed.
Lemma build_all ts l : wt_all ts l -> build (write_all ts l wnew) = enc_all ts l.
Proof. intros H. rewrite write_all_spec, put_all_gen by auto. cbn [wdata woffs wnew app length]. apply build_seq. Qed.

(** ** The reader reads the ABI form *)
(** [l] stands at position [cur] of the input. *)
Definition at_ (inp : list N) (cur : N) (l : list N) : Prop := exists a b, inp = a ++ l ++ b /\ nlen a = cur.
Lemma at_app inp cur l1 l2 : at_ inp cur (l1 ++ l2) -> at_ inp cur l1 /\ at_ inp (cur + nlen l1) l2.
Proof.
  intros (a & b & E & La). split.
  - exists a, (l2 ++ b). rewrite E, <- app_assoc. auto.
  - exists (a ++ l1), b. rewrite E, <- !app_assoc, nlen_app. split; auto. lia.
Qed.
Lemma at_len inp cur l : at_ inp cur l -> cur + nlen l <= nlen inp.
Proof. intros (a & b & -> & <-). rewrite !nlen_app. lia. Qed.
Lemma at_take inp cur l : nlen inp <= USIZE -> at_ inp cur l -> take_at inp cur (nlen l) = Ok (l, cur + nlen l).
Proof.
  intros Hs H. pose proof (at_len _ _ _ H) as Hl. destruct H as (a & b & -> & <-). unfold take_at.
  rewrite (proj2 (N.leb_le _ _)) by lia. simpl. rewrite slice_mid. reflexivity.
Qed.
Lemma at_word inp cur n : nlen inp <= USIZE -> at_ inp cur (word n) -> n < 2 ^ 256 -> read_word inp cur = Ok (n, cur + 32).
Proof.
  intros Hs H Hn. unfold read_word. pose proof (at_take inp cur (word n) Hs H) as T. rewrite nlen_word in T. rewrite T.
  simpl. rewrite word_small by auto. reflexivity.
Qed.
Lemma at_usize inp cur n : nlen inp <= USIZE -> at_ inp cur (word n) -> n <= USIZE -> read_usize inp cur = Ok (n, cur + 32).
Proof.
  intros Hs H Hn. unfold read_usize. rewrite (at_word inp cur n); auto.
  - simpl. rewrite (proj2 (N.leb_le _ _)) by auto. reflexivity.
  - unfold USIZE, U32MAX in Hn. nodiv. eapply N.le_lt_trans; [exact Hn|]. reflexivity.
Qed.
Lemma at_drop inp off l : at_ inp off l -> at_ (skipn (N.to_nat off) inp) 0 l.
Proof.
  intros (a & b & -> & <-). exists [], b. split; auto. unfold nlen. rewrite Nat2N.id, skipn_app, skipn_all, Nat.sub_diag. reflexivity.
Qed.
Lemma at_pointer inp cur off l : nlen inp <= USIZE -> at_ inp cur (word off) -> at_ inp off l -> (0 < length l)%nat ->
  exists inp', read_pointer inp cur = Ok (inp', cur + 32) /\ at_ inp' 0 l /\ nlen inp' <= USIZE.
Proof.
  intros Hs Hw Hl Hp. pose proof (at_len _ _ _ Hl) as L. unfold nlen in L at 1.
  exists (skipn (N.to_nat off) inp). split; [|split].
  - unfold read_pointer. rewrite (at_usize inp cur off) by (auto; lia). simpl.
    rewrite (proj2 (N.ltb_lt _ _)) by lia. reflexivity.
  - apply at_drop; auto.
  - unfold nlen in *. rewrite skipn_length. lia.
Qed.
Lemma at_items inp l : at_ inp 0 l -> (32 <= length l)%nat -> at_ (skipn 32 inp) 0 (skipn 32 l).
Proof.
  intros (a & b & -> & La) Hl. destruct a; [|discriminate]. exists [], b. split; auto. cbn [app].
  rewrite skipn_app. replace (32 - length l)%nat with 0%nat by lia. reflexivity.
Qed.

Lemma dyn_len t v : wt t v -> is_static t = false -> (32 <= length (enc t v))%nat.
Proof.
  intros Hw Hs. destruct t as [k| |mx|mx t|ts]; try discriminate; destruct v as [n|b|l]; try contradiction.
  - cbn [enc]. rewrite app_length, word_length. lia.
  - cbn [enc]. rewrite app_length, word_length. lia.
  - rewrite enc_tup. unfold enc_all, abi_seq. rewrite app_length, heads_length. apply wt_tup in Hw as [_ Hw]. simpl in Hs.
    revert l Hw Hs. induction ts as [|t ts IH]; intros [|x l] Hw Hs; simpl in *; try discriminate; try contradiction.
    destruct Hw as [_ Hw]. destruct (is_static t) eqn:S; simpl in *.
    + specialize (IH l Hw Hs). lia.
    + lia.
Qed.

(** How one value is read back from where the writer's parts stand. *)
Definition reads (t : ty) : Prop := forall v inp cur, wt t v -> nlen inp <= USIZE ->
  (is_static t = true -> at_ inp cur (enc t v) -> read t inp cur = Ok (v, cur + nlen (enc t v))) /\
  (is_static t = false -> forall off, at_ inp cur (word off) -> at_ inp off (enc t v) -> read t inp cur = Ok (v, cur + 32)).

Lemma read_all_parts ts : Forall reads ts -> forall l inp cur off, wt_all ts l -> nlen inp <= USIZE ->
  at_ inp cur (heads off (parts ts l)) -> at_ inp (N.of_nat off) (tails (parts ts l)) ->
  read_all ts inp cur = Ok (l, cur + N.of_nat (hsize (parts ts l))).
Proof.
  induction 1 as [|t ts Ht Hts IH]; intros [|x l] inp cur off Hw Hs Hh Htl; simpl in Hw; try contradiction.
  - simpl. rewrite N.add_0_r. reflexivity.
  - destruct Hw as [Hx Hl]. destruct (Ht x inp cur Hx Hs) as [R1 R2]. cbn [parts heads tails] in *.
    destruct (is_static t) eqn:S.
    + apply at_app in Hh as [H1 H2]. cbn [app] in Htl. cbn [read_all]. rewrite (R1 eq_refl H1). cbn [rbind fst snd].
      erewrite IH; eauto. cbn [rbind fst snd hsize]. f_equal. f_equal. unfold nlen. lia.
    + apply at_app in Hh as [H1 H2]. apply at_app in Htl as [H3 H4]. cbn [read_all].
      rewrite (R2 eq_refl (N.of_nat off) H1 H3). cbn [rbind fst snd]. rewrite nlen_word in H2.
      erewrite IH; eauto.
      * cbn [rbind fst snd hsize]. f_equal. f_equal. lia.
      * rewrite Nat2N.inj_add. exact H4.
Qed.

Lemma read_all_seq ts l inp : Forall reads ts -> wt_all ts l -> nlen inp <= USIZE -> at_ inp 0 (enc_all ts l) ->
  read_all ts inp 0 = Ok (l, N.of_nat (hsize (parts ts l))).
Proof.
  intros Hr Hw Hs H. unfold enc_all, abi_seq in H. apply at_app in H as [H1 H2].
  rewrite (read_all_parts ts Hr l inp 0 (hsize (parts ts l))); auto.
  unfold nlen in H2. rewrite heads_length in H2. exact H2.
Qed.

Lemma read_items t : reads t -> forall l inp cur off, Forall (wt t) l -> nlen inp <= USIZE ->
  at_ inp cur (heads off (map (fun x => (is_static t, enc t x)) l)) ->
  at_ inp (N.of_nat off) (tails (map (fun x => (is_static t, enc t x)) l)) ->
  (fix items (k : nat) (c : N) : result (list val) :=
        match k with
        | O => Ok []
        | S k' => do! x <- read t inp c;
                  do! r <- items k' (snd x);
                  Ok (fst x :: r)
        end) (length l) cur = Ok l.
Proof.
  intros Ht l inp cur off Hl Hs. revert cur off. induction Hl as [|x l Hx Hl IH]; intros cur off Hh Htl.
  - reflexivity.
  - destruct (Ht x inp cur Hx Hs) as [R1 R2]. cbn [map heads tails length] in *.
    destruct (is_static t) eqn:S.
    + apply at_app in Hh as [H1 H2]. rewrite (R1 eq_refl H1). cbn [rbind fst snd]. erewrite IH; eauto.
    + apply at_app in Hh as [H1 H2]. apply at_app in Htl as [H3 H4]. rewrite (R2 eq_refl _ H1 H3). cbn [rbind fst snd].
      rewrite nlen_word in H2. erewrite IH; eauto. rewrite Nat2N.inj_add. exact H4.
Qed.

Lemma static_tails ts l : forallb is_static ts = true -> tails (parts ts l) = [].
Proof.
  revert l. induction ts as [|t ts IH]; intros [|x l] H; simpl in *; auto. apply andb_true_iff in H as [H1 H2]. rewrite H1. simpl. auto.
Qed.

Lemma static_heads ts l o1 o2 : forallb is_static ts = true -> heads o1 (parts ts l) = heads o2 (parts ts l).
Proof.
  revert l. induction ts as [|t ts IH]; intros [|x l] H; simpl in *; auto. apply andb_true_iff in H as [H1 H2]. rewrite H1. f_equal. auto.
Qed.
Lemma enc_pos t : forall v, wt t v -> (32 <= length (enc t v))%nat.
Proof.
  induction t as [k| |mx|mx t IH|ts IH] using ty_all; intros [n|b|l] H; try contradiction.
  - cbn [enc]. rewrite word_length. lia.
  - simpl in *. lia.
  - pose proof (dyn_len (TBytes mx) (VB b) H eq_refl). lia.
  - pose proof (dyn_len (TVec mx t) (VL l) H eq_refl). lia.
  - apply wt_tup in H as [Hne H]. rewrite enc_tup. unfold enc_all, abi_seq. rewrite app_length, heads_length.
    destruct IH as [|t ts Ht _]; [congruence|]. destruct l as [|x l]; [contradiction|]. destruct H as [Hx _]. simpl.
    specialize (Ht x Hx). destruct (is_static t); lia.
Qed.
Lemma hsize_count t l : Forall (wt t) l -> (length l <= hsize (map (fun x => (is_static t, enc t x)) l))%nat.
Proof.
  induction 1 as [|x l Hx Hl IH]; simpl; auto. pose proof (enc_pos t x Hx). destruct (is_static t); lia.
Qed.

Lemma read_spec t : reads t.
Proof.
  induction t as [k| |mx|mx t IH|ts IH] using ty_all; intros v inp cur Hw Hs; destruct v as [n|b|l]; try contradiction;
    (split; [intros St|intros St off]; try discriminate St).
  - intros H. cbn [enc] in *. cbn [read]. cbn [wt] in Hw.
    assert (B : n < 2 ^ 256).
    { destruct k; simpl in Hw; try tauto.
      - eapply N.lt_le_trans; [exact Hw|]. apply N.pow_le_mono_r; lia.
      - eapply N.lt_trans; [exact Hw|]. reflexivity. }
    rewrite (at_word inp cur n) by auto. cbn [rbind fst snd]. rewrite nlen_word.
    assert (E : of_word k n = Ok n).
    { destruct k; simpl in *; auto.
      - rewrite (proj2 (N.leb_le _ _)) by tauto. auto.
      - rewrite N.mod_small; auto.
      - destruct (n =? 0) eqn:Z; [apply N.eqb_eq in Z; subst; auto|]. apply N.eqb_neq in Z. f_equal. lia. }
    rewrite E. reflexivity.
  - intros H. cbn [enc read] in *. simpl in Hw. pose proof (at_take _ _ _ Hs H) as T.
    replace (nlen b) with 32 in T by (unfold nlen; lia). rewrite T. cbn [rbind fst snd]. unfold nlen. rewrite Hw. reflexivity.
  - intros H1 H2. cbn [wt] in Hw. destruct (at_pointer _ _ _ _ Hs H1 H2) as (inp' & E & H & S').
    { pose proof (dyn_len (TBytes mx) (VB b) Hw eq_refl). lia. }
    cbn [read]. rewrite E. cbn [rbind fst snd enc] in *. pose proof (at_len _ _ _ H) as L. rewrite nlen_app, nlen_word in L.
    pose proof (nlen_pad b) as P. apply at_app in H as [H3 H4]. rewrite nlen_word in H4.
    rewrite (at_usize inp' 0 (nlen b)) by (auto; lia). cbn [rbind fst snd]. rewrite (proj2 (N.leb_le _ _)) by auto. cbn [ensure rbind].
    unfold pad32 in H4. apply at_app in H4 as [H4 _].
    replace (0 + 32) with 32 in * by lia. rewrite (at_take inp' 32 b); auto. 
  - intros H1 H2. pose proof Hw as Hw0. apply wt_vec in Hw as [Hn Hl]. destruct (at_pointer _ _ _ _ Hs H1 H2) as (inp' & E & H & S').
    { pose proof (dyn_len (TVec mx t) (VL l) Hw0 eq_refl). lia. }
    cbn [read]. rewrite E. cbn [rbind fst snd enc] in *. pose proof (at_len _ _ _ H) as L.
    assert (Hi : at_ (skipn 32 inp') 0 (abi_seq (map (fun x => (is_static t, enc t x)) l))).
    { pose proof (at_items _ _ H) as A. rewrite app_length, word_length in A. specialize (A ltac:(lia)).
      rewrite skipn_app, word_length, Nat.sub_diag, (skipn_all2 (word _)) in A; [exact A|]. rewrite word_length. lia. }
    assert (Hcount : N.of_nat (length l) <= USIZE).
    { assert (G : (length l <= length (abi_seq (map (fun x => (is_static t, enc t x)) l)))%nat -> N.of_nat (length l) <= USIZE).
      { intros G. rewrite nlen_app, nlen_word in L. unfold nlen in *. lia. }
      apply G. clear -Hl.
      unfold abi_seq. rewrite app_length, heads_length.
      assert (Z : (length l <= hsize (map (fun x => (is_static t, enc t x)) l))%nat); [|lia].
      apply hsize_count; auto. }
    apply at_app in H as [H3 H4].
    rewrite (at_usize inp' 0 (N.of_nat (length l))) by auto. cbn [rbind fst snd]. rewrite (proj2 (N.leb_le _ _)) by auto. cbn [ensure rbind].
    rewrite Nat2N.id. unfold abi_seq in Hi. apply at_app in Hi as [H5 H6]. unfold nlen in H6. rewrite heads_length in H6.
    erewrite read_items; eauto. { unfold nlen in *. rewrite skipn_length. lia. }
  - intros H. rewrite enc_tup in *. apply wt_tup in Hw as [_ Hw]. rewrite read_tup. cbn [is_static] in St. rewrite St.
    pose proof (static_tails ts l St) as T. unfold enc_all, abi_seq in *. rewrite T, app_nil_r in *.
    rewrite (static_heads ts l _ 0%nat St) in *.
    rewrite (read_all_parts ts IH l inp cur 0 Hw Hs H).
    + cbn [rbind fst snd]. unfold nlen. rewrite heads_length. reflexivity.
    + rewrite T. exists [], inp. auto.
  - intros H1 H2. pose proof Hw as Hw0. apply wt_tup in Hw as [_ Hw]. destruct (at_pointer _ _ _ _ Hs H1 H2) as (inp' & E & H & S').
    { pose proof (dyn_len (TTup ts) (VL l) Hw0 St). lia. }
    rewrite read_tup. cbn [is_static] in St. rewrite St, E. cbn [rbind fst snd]. rewrite enc_tup in H.
    rewrite (read_all_seq ts l inp' IH Hw S' H). reflexivity.
Qed.

(** ** What can be read *)
(** Tuples are not empty in Rust ([impl_for_tuples(1, 18)]). *)
Fixpoint okty (t : ty) : bool :=
  match t with
  | TW (WUint mx) => mx <? 2 ^ 256
  | TW _ | TPost | TBytes _ => true
  | TVec _ t' => okty t'
  | TTup ts => negb (Nat.eqb (length ts) 0) && forallb okty ts
  end.
(** The words and bytes a value holds in memory, and how many a call of [L] bytes can make it hold. *)
Fixpoint vsize (v : val) : N :=
  match v with
  | VN _ => 32
  | VB b => nlen b
  | VL l => (fix sum (l : list val) : N := match l with [] => 0 | x :: r => vsize x + sum r end) l
  end.
Fixpoint vsizes (l : list val) : N := match l with [] => 0 | x :: r => vsize x + vsizes r end.
Fixpoint bound (t : ty) (L : N) : N :=
  match t with
  | TW _ | TPost => 32
  | TBytes _ => L
  | TVec _ t' => L / 32 * bound t' L
  | TTup ts => (fix sum (ts : list ty) : N := match ts with [] => 0 | t1 :: r => bound t1 L + sum r end) ts
  end.
Fixpoint bounds (ts : list ty) (L : N) : N := match ts with [] => 0 | t1 :: r => bound t1 L + bounds r L end.
Definition isbytes (l : list N) : Prop := Forall (fun b => b < 256) l.

Lemma of_be_bound l : isbytes l -> of_be l < 256 ^ nlen l.
Proof.
  intros H. assert (G : forall acc m, acc < m -> fold_left (fun acc b => acc * 256 + b) l acc < m * 256 ^ nlen l).
  { induction H as [|b l Hb Hl IH]; intros acc m Ha.
    - simpl. unfold nlen. simpl. rewrite N.mul_1_r. auto.
    - cbn [fold_left]. specialize (IH (acc * 256 + b) (m * 256)). 
      replace (m * 256 ^ nlen (b :: l)) with (m * 256 * 256 ^ nlen l).
      + apply IH. nia.
      + unfold nlen. cbn [length]. rewrite Nat2N.inj_succ, N.pow_succ_r'. lia. }
  specialize (G 0 1 ltac:(lia)). rewrite N.mul_1_l in G. exact G.
Qed.
Lemma slice_in d off len x : slice d off len = Some x -> off + len <= nlen d /\ nlen x = len /\ (isbytes d -> isbytes x).
Proof.
  unfold slice. destruct (off + len <=? nlen d) eqn:E; [|discriminate]. apply N.leb_le in E. injection 1 as <-.
  split; auto. unfold nlen in *. split.
  - rewrite firstn_length, skipn_length. lia.
  - intros H. unfold isbytes in *. apply Forall_take, Forall_drop, H.
Qed.
Lemma take_at_in inp cur len d c : take_at inp cur len = Ok (d, c) ->
  c = cur + len /\ c <= nlen inp /\ nlen d = len /\ (isbytes inp -> isbytes d).
Proof.
  unfold take_at. destruct (cur + len <=? USIZE); [|discriminate]. simpl. destruct (slice inp cur len) as [x|] eqn:E; [|discriminate].
  simpl. injection 1 as <- <-. destruct (slice_in _ _ _ _ E) as (A & B & C). auto.
Qed.
Lemma read_word_in inp cur w c : read_word inp cur = Ok (w, c) -> c = cur + 32 /\ c <= nlen inp /\ (isbytes inp -> w < 2 ^ 256).
Proof.
  unfold read_word. destruct (take_at inp cur 32) as [[d c']|] eqn:E; [|discriminate]. simpl. injection 1 as <- <-.
  destruct (take_at_in _ _ _ _ _ E) as (A & B & C & D). split; [auto|split; auto]. intros H. specialize (D H).
  apply of_be_bound in D. rewrite C in D. exact D.
Qed.
Lemma read_usize_in inp cur w c : read_usize inp cur = Ok (w, c) -> c = cur + 32 /\ c <= nlen inp.
Proof.
  unfold read_usize. destruct (read_word inp cur) as [[x c']|] eqn:E; [|discriminate]. simpl.
  destruct (x <=? USIZE); [|discriminate]. simpl. injection 1 as <- <-. destruct (read_word_in _ _ _ _ E) as (A & B & _). auto.
Qed.
Lemma read_pointer_in inp cur p c : read_pointer inp cur = Ok (p, c) ->
  c = cur + 32 /\ c <= nlen inp /\ nlen p <= nlen inp /\ (isbytes inp -> isbytes p).
Proof.
  unfold read_pointer. destruct (read_usize inp cur) as [[x c']|] eqn:E; [|discriminate]. simpl.
  destruct (x <? nlen inp); [|discriminate]. simpl. injection 1 as <- <-. destruct (read_usize_in _ _ _ _ E) as (A & B).
  split; [auto|split; [auto|split]].
  - unfold nlen. rewrite skipn_length. lia.
  - intros H. apply Forall_drop, H.
Qed.
Lemma bound_mono t : forall a b, a <= b -> bound t a <= bound t b.
Proof.
  induction t as [k| |mx|mx t IH|ts IH] using ty_all; intros a b H; simpl; auto; try lia.
  - apply N.mul_le_mono; auto. apply N.div_le_mono; lia.
  - induction IH as [|t ts Ht Hts IHs]; [lia|]. specialize (Ht a b H). lia.
Qed.
Lemma bounds_mono ts a b : a <= b -> bounds ts a <= bounds ts b.
Proof. intros H. induction ts as [|t ts IH]; simpl; [lia|]. pose proof (bound_mono t a b H). lia. Qed.

(** A value that was read: the cursor moved on inside the input, the value is of the type, and it
    holds no more than [bound]. *)
Definition soundly (t : ty) : Prop := okty t = true -> forall inp cur v c, read t inp cur = Ok (v, c) ->
  cur + 32 <= c /\ c <= nlen inp /\ vsize v <= bound t (nlen inp) /\ (isbytes inp -> wt t v).
Lemma read_all_sound ts : Forall soundly ts -> forallb okty ts = true -> forall inp cur l c, read_all ts inp cur = Ok (l, c) ->
  cur + 32 * N.of_nat (length ts) <= c /\ (ts <> [] -> c <= nlen inp) /\ vsizes l <= bounds ts (nlen inp) /\ (isbytes inp -> wt_all ts l).
Proof.
  induction 1 as [|t ts Ht Hts IH]; intros Hok inp cur l c; cbn [read_all].
  - injection 1 as <- <-. simpl. split; [lia|split; [congruence|split; [lia|auto]]].
  - simpl in Hok. apply andb_true_iff in Hok as [Ho1 Ho2].
    destruct (read t inp cur) as [[x c1]|] eqn:E1; [|discriminate]. cbn [rbind fst snd].
    destruct (read_all ts inp c1) as [[r c2]|] eqn:E2; [|discriminate]. cbn [rbind fst snd]. injection 1 as <- <-.
    destruct (Ht Ho1 _ _ _ _ E1) as (A1 & A2 & A3 & A4). destruct (IH Ho2 _ _ _ _ E2) as (B1 & B2 & B3 & B4).
    cbn [length vsizes bounds wt_all]. split; [lia|split; [|split; [lia|auto]]].
    intros _. destruct ts; [simpl in E2; injection E2 as <- <-; lia|apply B2; congruence].
Qed.
Lemma items_sound t inp : soundly t -> okty t = true -> forall k cur l,
  (fix items (k : nat) (c : N) : result (list val) :=
        match k with
        | O => Ok []
        | S k' => do! x <- read t inp c;
                  do! r <- items k' (snd x);
                  Ok (fst x :: r)
        end) k cur = Ok l ->
  length l = k /\ (k <> 0%nat -> cur + 32 * N.of_nat k <= nlen inp) /\ vsizes l <= N.of_nat k * bound t (nlen inp) /\ (isbytes inp -> Forall (wt t) l).
Proof.
  intros Ht Hok. induction k as [|k IH]; intros cur l.
  - injection 1 as <-. simpl. split; [auto|split; [congruence|split; [lia|constructor]]].
  - destruct (read t inp cur) as [[x c1]|] eqn:E1; [|discriminate]. cbn [rbind fst snd].
    match goal with |- context [rbind ?X _] => destruct X as [r|] eqn:E2; [|discriminate] end. cbn [rbind].
    injection 1 as <-. destruct (Ht Hok _ _ _ _ E1) as (A1 & A2 & A3 & A4). destruct (IH _ _ E2) as (B1 & B2 & B3 & B4).
    split; [simpl; lia|split; [|split]].
    + intros _. destruct k; [simpl; lia|]. specialize (B2 ltac:(congruence)). lia.
    + cbn [vsizes]. lia.
    + intros H. constructor; auto.
Qed.
Lemma sizes_eq l : vsize (VL l) = vsizes l.
Proof. reflexivity. Qed.
Lemma bound_tup ts L : bound (TTup ts) L = bounds ts L.
Proof. induction ts as [|t ts IH]; [reflexivity|]. cbn [bounds]. rewrite <- IH. reflexivity. Qed.
Lemma read_sound t : soundly t.
Proof.
  induction t as [k| |mx|mx t IH|ts IH] using ty_all; intros Hok inp cur v c.
  - cbn [read]. destruct (read_word inp cur) as [[w c1]|] eqn:E; [|discriminate]. cbn [rbind fst snd].
    destruct (of_word k w) as [n|] eqn:W; [|discriminate]. cbn [rbind]. injection 1 as <- <-.
    destruct (read_word_in _ _ _ _ E) as (-> & B & C). split; [lia|split; [lia|split; [simpl; lia|]]]. intros H. specialize (C H).
    cbn [wt]. destruct k; simpl in W |- *.
    + destruct (w <=? mx) eqn:Q; [|discriminate]. apply N.leb_le in Q. injection W as <-. auto.
    + injection W as <-. apply N.mod_lt. lia.
    + destruct (w =? 0); injection W as <-; lia.
    + injection W as <-. auto.
  - cbn [read]. destruct (take_at inp cur 32) as [[d c1]|] eqn:E; [|discriminate]. cbn [rbind fst snd]. injection 1 as <- <-.
    destruct (take_at_in _ _ _ _ _ E) as (-> & B & C & D). split; [lia|split; [lia|split; [simpl; lia|]]]. intros _. cbn [wt]. unfold nlen in C. lia.
  - cbn [read]. destruct (read_pointer inp cur) as [[p c1]|] eqn:E; [|discriminate]. cbn [rbind fst snd].
    destruct (read_usize p 0) as [[n c2]|] eqn:E2; [|discriminate]. cbn [rbind fst snd].
    destruct (n <=? mx) eqn:Q; [|discriminate]. apply N.leb_le in Q. cbn [ensure rbind].
    destruct (take_at p c2 n) as [[d c3]|] eqn:E3; [|discriminate]. cbn [rbind fst snd]. injection 1 as <- <-.
    destruct (read_pointer_in _ _ _ _ E) as (-> & B & C & D). destruct (take_at_in _ _ _ _ _ E3) as (A1 & A2 & A3 & A4).
    split; [lia|split; [lia|split; [simpl; lia|]]]. intros _. cbn [wt]. lia.
  - cbn [read]. destruct (read_pointer inp cur) as [[p c1]|] eqn:E; [|discriminate]. cbn [rbind fst snd].
    destruct (read_usize p 0) as [[n c2]|] eqn:E2; [|discriminate]. cbn [rbind fst snd].
    destruct (n <=? mx) eqn:Q; [|discriminate]. apply N.leb_le in Q. cbn [ensure rbind].
    match goal with |- context [rbind ?X _] => destruct X as [l|] eqn:E3; [|discriminate] end. cbn [rbind].
    injection 1 as <- <-. destruct (read_pointer_in _ _ _ _ E) as (-> & B & C & D).
    destruct (items_sound t (skipn 32 p) IH Hok _ _ _ E3) as (I1 & I2 & I3 & I4).
    assert (Ls : nlen (skipn 32 p) <= nlen inp) by (unfold nlen in *; rewrite skipn_length; lia).
    split; [lia|split; [lia|split]].
    + rewrite sizes_eq. cbn [bound]. eapply N.le_trans; [exact I3|]. apply N.mul_le_mono; [|apply bound_mono; auto].
      rewrite N2Nat.id. destruct (N.eq_dec n 0) as [->|Hn]; [apply N.le_0_l|].
      apply N.div_le_lower_bound; [lia|]. specialize (I2 ltac:(lia)). rewrite N2Nat.id in I2. lia.
    + intros H. apply wt_vec. split; [rewrite I1, N2Nat.id; auto|]. apply I4, Forall_drop, D, H.
  - rewrite read_tup. cbn [okty] in Hok. apply andb_true_iff in Hok as [Hne Hok].
    assert (Hne' : ts <> []) by (intros ->; discriminate). clear Hne.
    assert (Hlen : 1 <= N.of_nat (length ts)) by (destruct ts; [congruence|simpl; lia]).
    destruct (forallb is_static ts) eqn:St.
    + destruct (read_all ts inp cur) as [[l c1]|] eqn:E; [|discriminate]. cbn [rbind fst snd]. injection 1 as <- <-.
      destruct (read_all_sound ts IH Hok _ _ _ _ E) as (A & B & C & D). specialize (B Hne').
      split; [lia|split; [lia|split]]. { rewrite sizes_eq, bound_tup. exact C. } intros H. apply wt_tup. auto.
    + destruct (read_pointer inp cur) as [[p c1]|] eqn:E; [|discriminate]. cbn [rbind fst snd].
      destruct (read_all ts p 0) as [[l c2]|] eqn:E2; [|discriminate]. cbn [rbind fst snd]. injection 1 as <- <-.
      destruct (read_pointer_in _ _ _ _ E) as (-> & B & C & D). destruct (read_all_sound ts IH Hok _ _ _ _ E2) as (A1 & A2 & A3 & A4).
      split; [lia|split; [lia|split]].
      * rewrite sizes_eq, bound_tup. eapply N.le_trans; [exact A3|]. apply (bounds_mono ts _ _ C).
      * intros H. apply wt_tup. auto.
Qed.
