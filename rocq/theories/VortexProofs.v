(** Lemmas about the vortex distribution model. *)
From Verif Require Export VortexModel.
From Verif Require Export LedgerProofs.
From Coq Require Export Sorted.

(** ** Specification vocabulary *)
Definition paid1 (id who : N) (e : vevent) : option N :=
  match e with EPaid i w a => if (i =? id) && (w =? who) then Some a else None | EReg _ _ _ => None end.
(** Amounts the log says were paid to an account in a distribution. *)
Fixpoint paid (log : list vevent) (id who : N) : list N :=
  match log with
  | [] => []
  | e :: l => match paid1 id who e with Some a => a :: paid l id who | None => paid l id who end
  end.
(** Amount of the last registration of an account in a distribution. *)
Fixpoint due (log : list vevent) (id who : N) : option N :=
  match log with
  | [] => None
  | e :: l => match due l id who with
              | Some a => Some a
              | None => match e with EReg i w a => if (i =? id) && (w =? who) then Some a else None | EPaid _ _ _ => None end
              end
  end.
Lemma paid_app l1 l2 id who : paid (l1 ++ l2) id who = paid l1 id who ++ paid l2 id who.
Proof. induction l1 as [|e l1 IH]; cbn; [reflexivity|]. rewrite IH. destruct (paid1 id who e); reflexivity. Qed.
Lemma due_snoc l e id who : due (l ++ [e]) id who =
  match e with EReg i w a => if (i =? id) && (w =? who) then Some a else due l id who | EPaid _ _ _ => due l id who end.
Proof.
  induction l as [|x l IH].
  - cbn. destruct e; reflexivity.
  - cbn [app due]. rewrite IH. destruct e as [i w a|i w a]; [|reflexivity]. destruct ((i =? id) && (w =? who)); reflexivity.
Qed.

(** ** Orderbook accounts in key order *)
Section order.
  Variable key : N -> N.
  Variable inj : forall x y, key x = key y -> x = y.
  Definition lt_key (x y : N) : Prop := key x < key y.

  Lemma insert_in w l x : In x (insert_key key w l) <-> x = w \/ In x l.
  Proof.
    induction l as [|y l IH]; cbn; [intuition congruence|]. destruct (key w <=? key y); cbn; [intuition congruence|].
    rewrite IH. intuition.
  Qed.
  Lemma insert_sorted w l : ~ In w l -> StronglySorted lt_key l -> StronglySorted lt_key (insert_key key w l).
  Proof.
    induction l as [|y l IH]; cbn; intros Hn Hs; [repeat constructor|].
    inversion Hs as [|? ? Hs' Hf]; subst. destruct (N.leb_spec (key w) (key y)) as [Hle|Hlt].
    - assert (key w <> key y) by (intros E; apply Hn; left; symmetry; apply inj; exact E).
      constructor; [exact Hs|]. constructor; [unfold lt_key; lia|].
      eapply Forall_impl; [exact Hf|]. unfold lt_key. intros z Hz. lia.
    - constructor; [apply IH; [tauto|exact Hs']|]. apply Forall_forall. intros z Hz. apply elem_of_list_In in Hz.
      apply insert_in in Hz. destruct Hz as [->|Hz]; [exact Hlt|].
      rewrite Forall_forall in Hf. apply Hf. apply elem_of_list_In. exact Hz.
  Qed.
End order.

Lemma sel_nodup {V} (id : N) (l : list (N * N * V)) : NoDup (l.*1) ->
  NoDup (map (fun e => snd (fst e)) (List.filter (fun e => fst (fst e) =? id) l)).
Proof.
  induction l as [|[[i w] v] l IH]; cbn; intros Hn; [constructor|].
  inversion Hn as [|? ? H1 H2]; subst. destruct (N.eqb_spec i id) as [->|]; [|apply IH; exact H2].
  cbn. constructor; [|apply IH; exact H2]. intros Hin. apply H1. apply elem_of_list_In in Hin. apply in_map_iff in Hin.
  destruct Hin as [[[i' w'] v'] [Ew Hin]]. apply filter_In in Hin. destruct Hin as [Hin Ei]. cbn in *. subst.
  apply N.eqb_eq in Ei. subst. apply elem_of_list_In. apply in_map_iff. exists (id, w, v'). split; [reflexivity|exact Hin].
Qed.
Lemma sel_in {V} (m : gmap (N * N) V) id w :
  In w (map (fun e => snd (fst e)) (List.filter (fun e => fst (fst e) =? id) (map_to_list m))) <-> is_Some (m !! (id, w)).
Proof.
  rewrite in_map_iff. split.
  - intros [[[i w'] v] [Ew Hin]]. apply filter_In in Hin. destruct Hin as [Hin Ei]. cbn in *. subst. apply N.eqb_eq in Ei. subst.
    apply elem_of_list_In in Hin. apply elem_of_map_to_list in Hin. eauto.
  - intros [v Hv]. exists (id, w, v). split; [reflexivity|]. apply filter_In. split; [|cbn; apply N.eqb_refl].
    apply elem_of_list_In. apply elem_of_map_to_list. exact Hv.
Qed.
Lemma fold_insert_in key l x : In x (fold_right (insert_key key) [] l) <-> In x l.
Proof. induction l as [|y l IH]; cbn; [tauto|]. rewrite insert_in, IH. intuition. Qed.
Lemma accounts_in key b id w : In w (accounts key b id) <-> is_Some (b !! (id, w)).
Proof. unfold accounts. rewrite fold_insert_in. apply sel_in. Qed.
Lemma accounts_sorted key b id : (forall x y, key x = key y -> x = y) -> StronglySorted (lt_key key) (accounts key b id).
Proof.
  intros inj. unfold accounts.
  pose proof (sel_nodup id (map_to_list b) (NoDup_fst_map_to_list b)) as Hn.
  induction Hn as [|x l Hx Hn IH]; cbn; [constructor|]. apply insert_sorted; [exact inj| |exact IH].
  rewrite fold_insert_in. intros H. apply Hx. apply elem_of_list_In. exact H.
Qed.
Lemma filter_sorted {A} (R : A -> A -> Prop) f l : StronglySorted R l -> StronglySorted R (List.filter f l).
Proof.
  induction 1 as [|x l Hs IH Hf]; cbn; [constructor|]. destruct (f x); [|exact IH]. constructor; [exact IH|].
  rewrite Forall_forall in *. intros y Hy. apply Hf. apply elem_of_list_In. apply elem_of_list_In in Hy. apply filter_In in Hy. tauto.
Qed.
Lemma assets_nodup s id : NoDup (assets s id).
Proof. apply sel_nodup. apply NoDup_fst_map_to_list. Qed.
Lemma assets_in s id a : In a (assets s id) <-> is_Some (prices s !! (id, a)).
Proof. apply sel_in. Qed.

(** ** One entry of the payout loop *)
Definition pay1 (vault vtx id : N) (s : vs) (w : N) : vs :=
  match book s !! (id, w) with
  | Some (amt, false) =>
      set_book (match safe_transfer (vl s) vtx vault w amt with
                | Ok l => note (set_vl s l) (EPaid id w amt) | Err _ => s end) (id, w) (amt, true)
  | _ => s
  end.
Definition last_key (key : N -> N) (d : list N) (from : option N) : option N :=
  fold_left (fun _ w => Some (key w)) d from.

Lemma pay1_book vault vtx id s w : book (pay1 vault vtx id s w) =
  match book s !! (id, w) with Some (amt, false) => <[(id, w) := (amt, true)]> (book s) | _ => book s end.
Proof.
  unfold pay1. destruct (book s !! (id, w)) as [[amt []]|]; [reflexivity| |reflexivity].
  destruct (safe_transfer _ _ _ _ _); reflexivity.
Qed.
Lemma pay1_other vault vtx id s w : vnext (pay1 vault vtx id s w) = vnext s /\ vadmin (pay1 vault vtx id s w) = vadmin s /\
  stat (pay1 vault vtx id s w) = stat s /\ prices (pay1 vault vtx id s w) = prices s /\
  tot (pay1 vault vtx id s w) = tot s /\ pivot (pay1 vault vtx id s w) = pivot s.
Proof.
  unfold pay1. destruct (book s !! (id, w)) as [[amt []]|]; [auto 10| |auto 10].
  destruct (safe_transfer _ _ _ _ _); cbn; auto 10.
Qed.

Lemma pay_loop_prefix key vault vtx batch id ws : forall count s from,
  (forall w, In w ws -> is_Some (book s !! (id, w))) ->
  exists d r, ws = d ++ r /\ (ws <> [] -> d <> []) /\
    pay_loop key vault vtx batch id ws count s from = (fold_left (pay1 vault vtx id) d s, last_key key d from).
Proof.
  induction ws as [|w ws IH]; intros count s from Hb.
  - exists [], []. split; [reflexivity|]. split; [intros H; exact H|]. reflexivity.
  - cbn [pay_loop]. assert (Hn : forall x, In x ws -> is_Some (book (pay1 vault vtx id s w) !! (id, x))).
    { intros x Hx. rewrite pay1_book. pose proof (Hb x (or_intror Hx)) as Hs.
      destruct (book s !! (id, w)) as [[amt []]|]; try exact Hs.
      destruct (decide (w = x)) as [->|Hne]; [rewrite lookup_insert; eauto|rewrite lookup_insert_ne by congruence; exact Hs]. }
    destruct (book s !! (id, w)) as [[amt b]|] eqn:Ew; [|destruct (Hb w (or_introl eq_refl)); congruence].
    assert (Hp : pay1 vault vtx id s w = if b then s else
      set_book (match safe_transfer (vl s) vtx vault w amt with
                | Ok l => note (set_vl s l) (EPaid id w amt) | Err _ => s end) (id, w) (amt, true)).
    { unfold pay1. rewrite Ew. destruct b; reflexivity. }
    destruct b.
    + rewrite Hp in Hn. destruct (IH count s (Some (key w)) Hn) as (d & r & E & Hd & Hl).
      exists (w :: d), r. split; [cbn; congruence|]. split; [discriminate|]. rewrite Hl. cbn [fold_left last_key]. rewrite Hp. reflexivity.
    + rewrite <- Hp. cbv zeta. destruct (batch <? count + 1).
      * exists [w], ws. split; [reflexivity|]. split; [discriminate|]. reflexivity.
      * destruct (IH (count + 1) _ (Some (key w)) Hn) as (d & r & E & Hd & Hl).
        exists (w :: d), r. split; [cbn; congruence|]. split; [discriminate|]. rewrite Hl. reflexivity.
Qed.

Lemma last_key_snoc key d w from : last_key key (d ++ [w]) from = Some (key w).
Proof. unfold last_key. rewrite fold_left_app. reflexivity. Qed.

(** Induction over the accounts paid by one call. *)
Lemma pays_ind (Inv : vs -> Prop) vault vtx id d : (forall s w, Inv s -> Inv (pay1 vault vtx id s w)) ->
  forall s, Inv s -> Inv (fold_left (pay1 vault vtx id) d s).
Proof. intros Hs. induction d as [|w d IH]; intros s Hi; cbn; auto. Qed.
Lemma pays_book vault vtx id d : forall s i w,
  book (fold_left (pay1 vault vtx id) d s) !! (i, w) =
  match book s !! (i, w) with Some (a, b) => Some (a, b || (bool_decide (i = id) && bool_decide (w ∈ d))) | None => None end.
Proof.
  induction d as [|x d IH]; intros s i w; cbn [fold_left].
  - destruct (book s !! (i, w)) as [[a b]|]; [|reflexivity]. rewrite (bool_decide_eq_false_2 (w ∈ [])) by apply not_elem_of_nil. rewrite andb_false_r, orb_false_r. reflexivity.
  - rewrite IH. rewrite pay1_book. destruct (decide ((i, w) = (id, x))) as [E|Hne].
    + injection E as -> ->. rewrite (bool_decide_eq_true_2 (id = id)) by reflexivity.
      rewrite (bool_decide_eq_true_2 (x ∈ x :: d)) by apply elem_of_list_here.
      destruct (book s !! (id, x)) as [[a []]|] eqn:Eb; rewrite ?lookup_insert, ?Eb; cbn; rewrite ?orb_true_r; reflexivity.
    + assert (E : match book s !! (id, x) with Some (amt, false) => <[(id, x) := (amt, true)]> (book s) | _ => book s end !! (i, w) = book s !! (i, w)).
      { destruct (book s !! (id, x)) as [[a []]|]; try reflexivity. apply lookup_insert_ne. congruence. }
      rewrite E. destruct (book s !! (i, w)) as [[a b]|]; [|reflexivity]. f_equal. f_equal. f_equal.
      destruct (decide (i = id)) as [->|Hi]; [|rewrite !(bool_decide_eq_false_2 (i = id)) by exact Hi; reflexivity].
      f_equal. apply bool_decide_ext. rewrite elem_of_cons. assert (w <> x) by congruence. tauto.
Qed.
Lemma pays_other vault vtx id d : forall s,
  let t := fold_left (pay1 vault vtx id) d s in
  vnext t = vnext s /\ vadmin t = vadmin s /\ stat t = stat s /\ prices t = prices s /\ tot t = tot s /\ pivot t = pivot s.
Proof.
  induction d as [|x d IH]; intros s; cbn [fold_left]; [cbn; auto 10|].
  cbv zeta in *. destruct (IH (pay1 vault vtx id s x)) as (-> & -> & -> & -> & -> & ->). apply pay1_other.
Qed.

(** Shape of a payout call of a distribution being paid. *)
Record paying_call (key : N -> N) (vault vtx batch : N) (s : vs) (id : N) (d : list N) (fin : bool) : Prop := {
  pc_next : pay_unsigned key vault vtx batch s id =
    set_pivot (let t := fold_left (pay1 vault vtx id) d s in if fin then set_stat t id Done else t) id (last_key key d (default None (pivot s !! id)));
  pc_some : fin = false -> pivot s !! id = None \/ d <> [];
  pc_fin : fin = true -> d = [] /\ is_Some (pivot s !! id) /\ forall w, is_Some (book s !! (id, w)) -> beyond key (default None (pivot s !! id)) w = false;
  pc_all : forall w, is_Some (book s !! (id, w)) -> beyond key (default None (pivot s !! id)) w = true ->
     match last_key key d (default None (pivot s !! id)) with Some k => key w <= k -> In w d | None => False end;
  pc_in : forall w, In w d -> is_Some (book s !! (id, w)) /\ beyond key (default None (pivot s !! id)) w = true;
  pc_from : d <> [] -> exists w, In w d /\ last_key key d (default None (pivot s !! id)) = Some (key w) }.

Lemma pay_unsigned_shape key vault vtx batch s id : (forall x y, key x = key y -> x = y) -> status_of s id = Paying ->
  exists d fin, paying_call key vault vtx batch s id d fin.
Proof.
  intros inj Hst.
  set (from := default None (pivot s !! id)).
  set (ws := List.filter (beyond key from) (accounts key (book s) id)).
  assert (Hws : forall w, In w ws <-> is_Some (book s !! (id, w)) /\ beyond key from w = true).
  { intros w. unfold ws. rewrite filter_In, accounts_in. tauto. }
  assert (Hso : StronglySorted (lt_key key) ws) by (apply filter_sorted, accounts_sorted; exact inj).
  destruct (pay_loop_prefix key vault vtx batch id ws 0 s from) as (d & r & E & Hd & Hl).
  { intros w Hw. apply Hws in Hw. tauto. }
  exists d, (bool_decide (pivot s !! id = Some (last_key key d from))).
  assert (Hlast : d <> [] -> exists w, In w d /\ last_key key d from = Some (key w)).
  { intros Hne. destruct (exists_last Hne) as (d' & w & Ed). exists w. rewrite Ed, last_key_snoc. split; [apply in_or_app; right; left; reflexivity|reflexivity]. }
  assert (Hfin : pivot s !! id = Some (last_key key d from) -> d = []).
  { intros Hp. destruct d as [|x d0]; [reflexivity|exfalso]. destruct (Hlast ltac:(discriminate)) as (w & Hw & Ek). rewrite Ek in Hp.
    assert (Hb : beyond key from w = true) by (apply Hws; rewrite E; apply in_or_app; left; exact Hw).
    unfold from in Hb. rewrite Hp in Hb. cbn in Hb. apply N.ltb_lt in Hb. lia. }
  split.
  - unfold pay_unsigned. rewrite Hst. cbv zeta. fold from. fold ws. rewrite Hl. reflexivity.
  - intros Hf. apply bool_decide_eq_false in Hf. fold from. destruct (pivot s !! id) as [p|] eqn:Ep; [right|left; reflexivity].
    intros ->. apply Hf. reflexivity.
  - intros Hf. apply bool_decide_eq_true in Hf. pose proof (Hfin Hf) as Ed. subst d. split; [reflexivity|]. split; [eauto|].
    fold from. intros w Hw. destruct (beyond key from w) eqn:Eb; [|reflexivity]. exfalso.
    assert (Hin : In w ws) by (apply Hws; auto). apply Hd; [|reflexivity]. intros E0. rewrite E0 in Hin. destruct Hin.
  - fold from. intros w Hw Hb. assert (Hin : In w ws) by (apply Hws; auto).
    assert (Hne : d <> []) by (apply Hd; intros E0; rewrite E0 in Hin; destruct Hin).
    destruct (exists_last Hne) as (d' & z & Ed). rewrite Ed, last_key_snoc. intros Hle. rewrite E in Hin. apply in_app_or in Hin.
    destruct Hin as [Hin|Hin]; [rewrite <- Ed; exact Hin|exfalso]. rewrite E, Ed in Hso. rewrite <- app_assoc in Hso. cbn in Hso.
    clear -Hso Hin Hle. induction d' as [|x d' IH]; cbn in Hso; inversion Hso as [|? ? H1 H2]; subst; [|apply IH; exact H1].
    rewrite Forall_forall in H2. apply elem_of_list_In in Hin. specialize (H2 w Hin). unfold lt_key in H2. lia.
  - fold from. intros w Hw. apply Hws. rewrite E. apply in_or_app. left. exact Hw.
  - fold from. exact Hlast.
Qed.
Lemma pay_unsigned_idle key vault vtx batch s id : status_of s id <> Paying -> pay_unsigned key vault vtx batch s id = s.
Proof. unfold pay_unsigned. destruct (status_of s id); congruence. Qed.
