(** Futurepasses: lemmas and invariant. *)
From Verif Require Import FpassModel.

(** * Addresses *)
Lemma of_be_app l m : of_be (l ++ m) = of_be l * 256 ^ N.of_nat (length m) + of_be m.
Proof.
  unfold of_be. rewrite fold_left_app. generalize (fold_left (fun acc b => acc * 256 + b) l 0). intros a.
  assert (H : forall a, fold_left (fun acc b => acc * 256 + b) m a = a * 256 ^ N.of_nat (length m) + fold_left (fun acc b => acc * 256 + b) m 0); [|apply H].
  induction m as [|x m IH]; intros b; cbn [fold_left length]; [rewrite N.pow_0_r; lia|].
  rewrite (IH (b * 256 + x)), (IH (0 * 256 + x)), Nat2N.inj_succ, N.pow_succ_r'. lia.
Qed.
Lemma be_bytes_length k n : length (be_bytes k n) = k.
Proof. revert n. induction k as [|k IH]; intros n; [reflexivity|]. cbn [be_bytes]. rewrite app_length, IH. cbn. lia. Qed.
Lemma of_be_bytes k n : of_be (be_bytes k n) = n mod 256 ^ N.of_nat k.
Proof.
  revert n. induction k as [|k IH]; intros n; [rewrite N.pow_0_r, N.mod_1_r; reflexivity|]. cbn [be_bytes].
  rewrite of_be_app, IH. cbn [length]. rewrite N.pow_1_r, Nat2N.inj_succ, N.pow_succ_r'.
  change (of_be [n mod 256]) with (n mod 256). rewrite N.mod_mul_r by (try discriminate; apply N.pow_nonzero; discriminate). lia.
Qed.
Lemma faddr_value id : faddr id = 4294967295 * 2 ^ 128 + id mod 2 ^ 128.
Proof.
  unfold faddr, fp_bytes. rewrite of_be_app, be_bytes_length, of_be_bytes.
  assert (E : 256 ^ N.of_nat 16 = 2 ^ 128) by (vm_compute; reflexivity). rewrite E. reflexivity.
Qed.
Lemma faddr_fp id : is_fp (faddr id) = true.
Proof.
  unfold is_fp. rewrite faddr_value. apply N.eqb_eq. rewrite N.add_comm, N.div_add by (apply N.pow_nonzero; discriminate).
  rewrite N.div_small by (apply N.mod_lt, N.pow_nonzero; discriminate). reflexivity.
Qed.
Lemma faddr_inj i j : i < 2 ^ 128 -> j < 2 ^ 128 -> faddr i = faddr j -> i = j.
Proof. intros Hi Hj. rewrite !faddr_value, !N.mod_small by assumption. lia. Qed.

(** * Lists of definitions *)
Lemma insert_in d l x : In x (insert_def d l) <-> x = d \/ In x l.
Proof.
  induction l as [|y r IH]; cbn [insert_def]; [cbn; intuition congruence|]. destruct (_ <? _); cbn [In]; [intuition congruence|].
  rewrite IH. tauto.
Qed.
Lemma insert_nd d l : ~ In d l -> NoDup l -> NoDup (insert_def d l).
Proof.
  induction l as [|y r IH]; cbn [insert_def]; intros Hd Hn; [apply NoDup_singleton|]. destruct (_ <? _).
  - apply NoDup_cons. split; [|exact Hn]. intros H. apply elem_of_list_In in H. exact (Hd H).
  - apply NoDup_cons in Hn. destruct Hn as [H1 H2]. apply NoDup_cons. split; [|apply IH; [intros H; apply Hd; now right|exact H2]].
    intros H. apply elem_of_list_In, insert_in in H. destruct H as [->|H]; [apply Hd; now left|apply H1, elem_of_list_In, H].
Qed.
Lemma remove_sub d l x : In x (remove_def d l) -> In x l.
Proof. induction l as [|y r IH]; cbn [remove_def]; [tauto|]. destruct (bool_decide _); [now right|]. intros [H|H]; [now left|right; auto]. Qed.
Lemma remove_keep d l x : In x l -> x <> d -> In x (remove_def d l).
Proof.
  intros Hx Hne. induction l as [|y r IH]; [destruct Hx|]. cbn [remove_def]. destruct (bool_decide_reflect (y = d)) as [->|].
  - destruct Hx as [H|H]; [congruence|exact H].
  - destruct Hx as [H|H]; [now left|right; auto].
Qed.
Lemma remove_nd d l : NoDup l -> NoDup (remove_def d l) /\ ~ In d (remove_def d l).
Proof.
  induction l as [|y r IH]; intros Hn; [split; [constructor|intros []]|]. apply NoDup_cons in Hn. destruct Hn as [H1 H2]. destruct (IH H2) as [I1 I2].
  cbn [remove_def]. destruct (bool_decide_reflect (y = d)) as [->|Hne].
  - split; [exact H2|]. intros H. apply H1, elem_of_list_In, H.
  - split; [|intros [H|H]; [congruence|exact (I2 H)]]. apply NoDup_cons. split; [|exact I1]. intros H. apply H1, elem_of_list_In. apply elem_of_list_In, remove_sub in H. exact H.
Qed.
Definition cnt (a : N) (l : list pdef) : nat := length (List.filter (fun d => fst d =? a) l).
Lemma cnt_cons a d l : cnt a (d :: l) = Nat.add (if fst d =? a then 1%nat else 0%nat) (cnt a l).
Proof. unfold cnt. cbn [List.filter]. destruct (fst d =? a); reflexivity. Qed.
Lemma cnt_zero a l : cnt a l = 0%nat -> forall t, ~ In (a, t) l.
Proof.
  unfold cnt. intros H t Hi. apply length_zero_iff_nil in H. assert (Hin : In (a, t) (List.filter (fun d => fst d =? a) l)) by (apply filter_In; split; [exact Hi|apply N.eqb_refl]).
  rewrite H in Hin. exact Hin.
Qed.
Lemma cnt_remove a d l : In d l -> cnt a (remove_def d l) = Nat.sub (cnt a l) (if fst d =? a then 1%nat else 0%nat).
Proof.
  induction l as [|y r IH]; [intros []|]. intros Hd. cbn [remove_def]. rewrite cnt_cons. destruct (bool_decide_reflect (y = d)) as [->|Hne].
  - destruct (fst d =? a); lia.
  - rewrite cnt_cons. destruct Hd as [H|H]; [congruence|]. rewrite (IH H). assert (Hc : fst d =? a = true -> (1 <= cnt a r)%nat).
    { intros E. unfold cnt. assert (Hin : In d (List.filter (fun d => fst d =? a) r)) by (apply filter_In; split; assumption). destruct (List.filter _ r); [destruct Hin|cbn; lia]. }
    destruct (fst d =? a); [specialize (Hc eq_refl)|]; destruct (fst y =? a); lia.
Qed.
Lemma find_some a force l d : find_def a force l = Some d -> In d l /\ fst d = a /\ match force with None => True | Some t => snd d = t end.
Proof.
  unfold find_def. intros H. apply find_some in H. destruct H as [H1 H2]. apply andb_prop in H2. destruct H2 as [H2 H3]. apply N.eqb_eq in H2.
  split; [exact H1|]. split; [exact H2|]. destruct force; [|exact I]. apply bool_decide_eq_true in H3. exact H3.
Qed.
Lemma find_none a l : find_def a None l = None -> forall t, ~ In (a, t) l.
Proof. unfold find_def. intros H t Hi. apply (find_none _ _ H) in Hi. cbn in Hi. rewrite N.eqb_refl in Hi. discriminate. Qed.

Lemma defs_set s f l g : defs (set_defs s f l) g = if f =? g then l else defs s g.
Proof. unfold defs, set_defs. cbn [prox]. destruct (N.eqb_spec f g) as [->|H]; [rewrite lookup_insert; reflexivity|rewrite lookup_insert_ne by exact H; reflexivity]. Qed.

(** * Effects of the pallet's steps *)
Lemma add_def_ok maxp s f d t s' : add_def maxp s f d t = Ok s' ->
  f <> d /\ ~ In (d, t) (defs s f) /\ hold s' = hold s /\ nextf s' = nextf s /\ born s' = born s /\
  (forall g, defs s' g = if f =? g then insert_def (d, t) (defs s f) else defs s g).
Proof.
  unfold add_def. destruct (N.eqb_spec f d); cbn [negb ensure rbind]; [discriminate|]. unfold has_def.
  destruct (bool_decide_reflect ((d, t) ∈ defs s f)) as [|Hn]; cbn [negb ensure rbind]; [discriminate|].
  destruct (_ <? _); cbn [ensure rbind]; [|discriminate]. intros [= <-]. split; [assumption|]. split; [intros H; apply Hn, elem_of_list_In, H|].
  do 3 (split; [reflexivity|]). intros g. apply defs_set.
Qed.
Lemma remove_ok pay s f d s' : remove_delegate pay s f d = Ok s' ->
  exists x, In x (defs s f) /\ fst x = d /\ hold s' = hold s /\ nextf s' = nextf s /\ born s' = born s /\
  (forall g, defs s' g = if f =? g then remove_def x (defs s f) else defs s g).
Proof.
  unfold remove_delegate. destruct (find_def d None (defs s f)) as [x|] eqn:E; cbn [of_opt rbind]; [|discriminate].
  destruct pay; cbn [ensure rbind]; [|discriminate]. intros [= <-]. apply FpassProofs.find_some in E. destruct E as (E1 & E2 & _).
  exists x. split; [exact E1|]. split; [exact E2|]. do 3 (split; [reflexivity|]). intros g. apply defs_set.
Qed.
Lemma others_ok pay f n l : forall s s', remove_others pay s f n l = Ok s' ->
  hold s' = hold s /\ nextf s' = nextf s /\ born s' = born s /\ (forall g, g <> f -> defs s' g = defs s g) /\
  (forall x, In x (defs s' f) -> In x (defs s f)) /\ (forall t, In (n, t) (defs s f) -> In (n, t) (defs s' f)) /\
  (NoDup (defs s f) -> NoDup (defs s' f)) /\
  (forall d, d <> n -> cnt d (defs s' f) = (cnt d (defs s f) - cnt d l)%nat).
Proof.
  induction l as [|y r IH]; intros s s' H; cbn [remove_others] in H.
  - injection H as <-. repeat split; try tauto. intros d _. cbn. lia.
  - destruct (N.eqb_spec (fst y) n) as [E|Hne].
    + destruct (IH _ _ H) as (P1 & P2 & P3 & P4 & P5 & P6 & P7 & P8). repeat (split; [assumption|]). intros d Hd. rewrite cnt_cons, (P8 d Hd).
      destruct (N.eqb_spec (fst y) d); [congruence|reflexivity].
    + destruct (remove_delegate pay s f (fst y)) as [s1|] eqn:E1; cbn [rbind] in H; [|discriminate].
      destruct (remove_ok _ _ _ _ _ E1) as (x & R1 & R2 & R3 & R4 & R5 & R6). destruct (IH _ _ H) as (P1 & P2 & P3 & P4 & P5 & P6 & P7 & P8).
      assert (Rf : defs s1 f = remove_def x (defs s f)) by (rewrite R6, N.eqb_refl; reflexivity).
      split; [congruence|]. split; [congruence|]. split; [congruence|]. split; [|split; [|split; [|split]]].
      * intros g Hg. rewrite (P4 g Hg), R6. destruct (N.eqb_spec f g); [congruence|reflexivity].
      * intros z Hz. apply P5 in Hz. rewrite Rf in Hz. exact (remove_sub _ _ _ Hz).
      * intros t Ht. apply P6. rewrite Rf. apply remove_keep; [exact Ht|]. intros <-. cbn in R2. congruence.
      * intros Hn. apply P7. rewrite Rf. apply remove_nd, Hn.
      * intros d Hd. rewrite (P8 d Hd), Rf, cnt_cons, (cnt_remove d x (defs s f) R1), R2. destruct (fst y =? d); lia.
Qed.

(** * The invariant *)
Definition nth_fp (i : nat) : N := faddr ((1 + N.of_nat i) mod 2 ^ 128).
Record FI (s : fps) : Prop := {
  i_one : forall a b f, hold s !! a = Some f -> hold s !! b = Some f -> a = b;
  i_own : forall a f, hold s !! a = Some f -> In (a, TOwner) (defs s f) /\ In f (born s);
  i_only : forall x f, is_fp f = true -> In (x, TOwner) (defs s f) -> hold s !! x = Some f;
  i_empty : forall f, is_fp f = true -> ~ In f (born s) -> defs s f = [];
  i_nd : forall f, NoDup (defs s f);
  i_born : born s = rev (map nth_fp (seq 0 (length (born s))));
  i_next : nextf s = (1 + N.of_nat (length (born s))) mod 2 ^ 128 }.
Lemma born_fp s f : FI s -> In f (born s) -> is_fp f = true.
Proof. intros HI Hf. rewrite (i_born _ HI) in Hf. apply in_rev, in_map_iff in Hf. destruct Hf as (i & <- & _). apply faddr_fp. Qed.
Lemma mod_apart i j m : i < j -> j < i + m -> i mod m <> j mod m.
Proof.
  intros H1 H2 E. assert (Hm : m <> 0) by lia. pose proof (N.div_mod i m Hm) as D1. pose proof (N.div_mod j m Hm) as D2. rewrite E in D1.
  pose proof (N.mod_lt j m Hm). set (qi := i / m) in *. set (qj := j / m) in *. set (r := j mod m) in *. clearbody qi qj r.
  assert (Hq : qi < qj) by nia. assert (m * qi + m <= m * qj) by nia. lia.
Qed.
Lemma fresh_fp s : FI s -> N.of_nat (length (born s)) < 2 ^ 128 -> ~ In (faddr (nextf s)) (born s).
Proof.
  intros HI Hn Hin. rewrite (i_born _ HI), (i_next _ HI) in Hin. apply in_rev, in_map_iff in Hin. destruct Hin as (i & E & Hi). apply in_seq in Hi.
  unfold nth_fp in E. apply faddr_inj in E; try (apply N.mod_lt, N.pow_nonzero; discriminate).
  revert E. apply mod_apart; lia.
Qed.
(** Changing the definitions of an account that is not a futurepass. *)
Lemma FI_other s s' f : FI s -> is_fp f = false -> hold s' = hold s -> nextf s' = nextf s -> born s' = born s ->
  (forall g, g <> f -> defs s' g = defs s g) -> NoDup (defs s' f) -> FI s'.
Proof.
  intros HI Hf E1 E2 E3 E4 En. assert (Hg : forall g, is_fp g = true -> defs s' g = defs s g) by (intros g Hg; apply E4; congruence).
  pose proof (fun g => born_fp s g HI) as Hb. destruct HI as [H1 H2 H3 H4 H5 H6 H7]. split; rewrite ?E1, ?E2, ?E3; try assumption.
  - intros a g Ha. destruct (H2 _ _ Ha) as [F1 F2]. split; [|exact F2]. rewrite Hg by (apply Hb, F2). exact F1.
  - intros x g Hfp. rewrite (Hg g Hfp). apply H3, Hfp.
  - intros g Hfp Hn. rewrite (Hg g Hfp). apply H4; assumption.
  - intros g. destruct (N.eqb_spec g f) as [->|Hne]; [exact En|rewrite E4 by exact Hne; apply H5].
Qed.
(** Only what an account created in [create] may sign for itself. *)
Definition actor_ok (s : fps) (who : N) : Prop := is_fp who = true -> In who (born s).
Lemma def_born s f x : FI s -> In x (defs s f) -> actor_ok s f.
Proof.
  intros HI Hx Hf. destruct (in_dec N.eq_dec f (born s)) as [H|H]; [exact H|]. rewrite (i_empty _ HI f Hf H) in Hx. destruct Hx.
Qed.
Lemma add_FI s s' f d : FI s -> actor_ok s f -> ~ In (d, TAny) (defs s f) -> hold s' = hold s -> nextf s' = nextf s -> born s' = born s ->
  (forall g, defs s' g = if f =? g then insert_def (d, TAny) (defs s f) else defs s g) -> FI s'.
Proof.
  intros [H1 H2 H3 H4 H5 H6 H7] Ha Hn E1 E2 E3 E4.
  assert (Ho : forall g x, In (x, TOwner) (defs s' g) <-> In (x, TOwner) (defs s g)).
  { intros g x. rewrite E4. destruct (N.eqb_spec f g) as [->|]; [|reflexivity]. rewrite insert_in. intuition congruence. }
  split; rewrite ?E1, ?E2, ?E3; try assumption.
  - intros a g Hg. rewrite Ho. apply H2, Hg.
  - intros x g Hg. rewrite Ho. apply H3, Hg.
  - intros g Hg Hb. rewrite E4. destruct (N.eqb_spec f g) as [->|]; [contradiction (Hb (Ha Hg))|apply H4; assumption].
  - intros g. rewrite E4. destruct (N.eqb_spec f g) as [->|]; [apply insert_nd; [exact Hn|apply H5]|apply H5].
Qed.
Lemma exists_false s f d : exists_def s f d = false -> forall t, ~ In (d, t) (defs s f).
Proof. unfold exists_def. destruct (find_def d None (defs s f)) eqn:E; [discriminate|]. intros _. exact (FpassProofs.find_none _ _ E). Qed.
Lemma register_ok maxp pay signed s caller f d t s' : register maxp pay signed s caller f d t = Ok s' ->
  (caller = f \/ hold s !! caller = Some f) /\ t = TAny /\ (forall u, ~ In (d, u) (defs s f)) /\ signed = true /\
  hold s' = hold s /\ nextf s' = nextf s /\ born s' = born s /\ (forall g, defs s' g = if f =? g then insert_def (d, TAny) (defs s f) else defs s g).
Proof.
  unfold register. intros H. destruct ((caller =? f) || holds s caller f) eqn:Ec; cbn [ensure rbind] in H; [|discriminate].
  destruct ((caller =? f) || exists_def s f caller) eqn:Ec2; cbn [ensure rbind] in H; [|discriminate].
  destruct (bool_decide_reflect (t = TAny)) as [->|]; cbn [ensure rbind] in H; [|discriminate].
  destruct (exists_def s f d) eqn:Ed; cbn [negb ensure rbind] in H; [discriminate|].
  destruct signed; cbn [ensure rbind] in H; [|discriminate]. unfold add_delegate in H. destruct pay; cbn [ensure rbind] in H; [|discriminate].
  destruct (add_def_ok _ _ _ _ _ _ H) as (A1 & A2 & A3 & A4 & A5 & A6).
  split; [|split; [reflexivity|split; [exact (exists_false _ _ _ Ed)|split; [reflexivity|repeat (split; [assumption|]); exact A6]]]].
  apply orb_prop in Ec. destruct Ec as [Ec|Ec]; [left; apply N.eqb_eq, Ec|right]. unfold holds in Ec. apply bool_decide_eq_true in Ec. exact Ec.
Qed.
Lemma register_FI maxp pay signed s caller f d t s' : FI s -> actor_ok s caller -> register maxp pay signed s caller f d t = Ok s' -> FI s'.
Proof.
  intros HI Hc H. destruct (register_ok _ _ _ _ _ _ _ _ _ H) as (R1 & R2 & R3 & R4 & R5 & R6 & R7 & R8).
  apply (add_FI s s' f d HI); auto. destruct R1 as [<-|R1]; [exact Hc|]. intros _. apply (i_own _ HI _ _ R1).
Qed.
Lemma unregister_ok pay s caller f d s' : unregister pay s caller f d = Ok s' ->
  hold s !! d <> Some f /\ (hold s !! caller = Some f \/ caller = f \/ caller = d) /\
  exists x, In x (defs s f) /\ fst x = d /\ hold s' = hold s /\ nextf s' = nextf s /\ born s' = born s /\
  (forall g, defs s' g = if f =? g then remove_def x (defs s f) else defs s g).
Proof.
  unfold unregister, holds. intros H. destruct (bool_decide_reflect (hold s !! d = Some f)); cbn [negb ensure rbind] in H; [discriminate|]. split; [assumption|].
  destruct (bool_decide (hold s !! caller = Some f) || (caller =? f) || (caller =? d)) eqn:E; cbn [ensure rbind] in H; [|discriminate].
  split. { apply orb_prop in E. destruct E as [E|E]; [apply orb_prop in E; destruct E as [E|E]; [left; apply bool_decide_eq_true in E; exact E|right; left; apply N.eqb_eq, E]|right; right; apply N.eqb_eq, E]. }
  destruct (exists_def s f d); cbn [ensure rbind] in H; [|discriminate]. exact (remove_ok _ _ _ _ _ H).
Qed.
Lemma unregister_FI pay s caller f d s' : FI s -> unregister pay s caller f d = Ok s' -> FI s'.
Proof.
  intros HI H. destruct (unregister_ok _ _ _ _ _ _ H) as (U1 & _ & x & U2 & U3 & E1 & E2 & E3 & E4).
  pose proof (def_born s f x HI U2) as Hb. destruct HI as [H1 H2 H3 H4 H5 H6 H7].
  split; rewrite ?E1, ?E2, ?E3; try assumption.
  - intros a g Hg. destruct (H2 _ _ Hg) as [F1 F2]. split; [|exact F2]. rewrite E4. destruct (N.eqb_spec f g) as [->|]; [|exact F1].
    apply remove_keep; [exact F1|]. intros <-. cbn in U3. congruence.
  - intros y g Hg Hy. apply H3; [exact Hg|]. rewrite E4 in Hy. destruct (N.eqb_spec f g) as [->|]; [exact (remove_sub _ _ _ Hy)|exact Hy].
  - intros g Hg Hn. rewrite E4. destruct (N.eqb_spec f g) as [->|]; [contradiction (Hn (Hb Hg))|apply H4; assumption].
  - intros g. rewrite E4. destruct (N.eqb_spec f g) as [->|]; [apply remove_nd, H5|apply H5].
Qed.
Lemma create_ok maxp pay s account s' : create maxp pay s account = Ok s' ->
  hold s !! account = None /\ hold s' = <[account := faddr (nextf s)]> (hold s) /\ nextf s' = (nextf s + 1) mod 2 ^ 128 /\
  born s' = faddr (nextf s) :: born s /\ ~ In (account, TOwner) (defs s (faddr (nextf s))) /\
  (forall g, defs s' g = if faddr (nextf s) =? g then insert_def (account, TOwner) (defs s (faddr (nextf s))) else defs s g).
Proof.
  unfold create. intros H. destruct (bool_decide_reflect (hold s !! account = None)) as [E|]; cbn [ensure rbind] in H; [|discriminate].
  unfold add_delegate in H. destruct pay; cbn [ensure rbind] in H; [|discriminate].
  destruct (add_def_ok _ _ _ _ _ _ H) as (A1 & A2 & A3 & A4 & A5 & A6). cbn [hold nextf born] in A3, A4, A5.
  split; [exact E|]. split; [exact A3|]. split; [exact A4|]. split; [exact A5|]. split; [exact A2|]. intros g. exact (A6 g).
Qed.
Lemma create_FI maxp pay s account s' : FI s -> N.of_nat (length (born s)) < 2 ^ 128 -> create maxp pay s account = Ok s' -> FI s'.
Proof.
  intros HI Hn H. destruct (create_ok _ _ _ _ _ H) as (C1 & E1 & E2 & E3 & C2 & E4). pose proof (fresh_fp s HI Hn) as Hf.
  set (f := faddr (nextf s)) in *. assert (Hfp : is_fp f = true) by apply faddr_fp.
  pose proof (i_empty _ HI f Hfp Hf) as Hd. destruct HI as [H1 H2 H3 H4 H5 H6 H7]. rewrite Hd in E4. cbn [insert_def] in E4.
  split; rewrite ?E1, ?E2, ?E3.
  - intros a b g. rewrite !lookup_insert_Some. intros [[<- <-]|[Ha Hg]] [[<- Hb]|[Hb Hg']]; [reflexivity|exfalso; apply Hf; apply H2 in Hg'; tauto|exfalso; subst g; apply Hf; apply H2 in Hg; tauto|exact (H1 _ _ _ Hg Hg')].
  - intros a g. rewrite lookup_insert_Some, E4. intros [[<- <-]|[Ha Hg]].
    + rewrite N.eqb_refl. split; left; reflexivity.
    + destruct (H2 _ _ Hg) as [F1 F2]. destruct (N.eqb_spec f g) as [<-|]; [contradiction|]. split; [exact F1|right; exact F2].
  - intros x g Hg. rewrite E4. destruct (N.eqb_spec f g) as [<-|Hne].
    + intros [[= <-]|[]]. apply lookup_insert.
    + intros Hx. apply H3 in Hx; [|exact Hg]. rewrite lookup_insert_ne; [exact Hx|congruence].
  - intros g Hg Hb. rewrite E4. destruct (N.eqb_spec f g) as [<-|Hne]; [exfalso; apply Hb; now left|]. apply H4; [exact Hg|]. intros Hi. apply Hb. now right.
  - intros g. rewrite E4. destruct (f =? g); [apply NoDup_singleton|apply H5].
  - cbn [length]. rewrite seq_S, map_app, rev_app_distr. cbn [map rev app]. rewrite <- H6. f_equal. subst f. rewrite H7. unfold nth_fp. rewrite Nat.add_0_l. reflexivity.
  - rewrite H7. cbn [length]. rewrite N.add_mod_idemp_l by (apply N.pow_nonzero; discriminate). f_equal. lia.
Qed.
Lemma transfer_ok maxp pay s caller cur new s' : NoDup (defs s (default 0 (hold s !! cur))) -> transfer_fp maxp pay s caller cur new = Ok s' ->
  exists f, hold s !! cur = Some f /\ (caller = cur \/ caller = f) /\ nextf s' = nextf s /\ born s' = born s /\ (forall g, g <> f -> defs s' g = defs s g) /\
  match new with
  | None => hold s' = delete cur (hold s) /\ defs s' f = []
  | Some n => (n = cur \/ hold s !! n = None) /\ hold s' = <[n := f]> (delete cur (hold s)) /\ In (n, TOwner) (defs s' f) /\ ~ In (n, TOwner) (defs s f) /\
              (forall x, In x (defs s' f) -> fst x = n /\ (x = (n, TOwner) \/ In x (defs s f))) /\ NoDup (defs s' f)
  end.
Proof.
  unfold transfer_fp. destruct (hold s !! cur) as [f|]; cbn [of_opt rbind default]; [|discriminate]. intros Hnd H. exists f. split; [reflexivity|].
  destruct ((caller =? cur) || (f =? caller)) eqn:Ec; cbn [ensure rbind] in H; [|discriminate].
  split. { apply orb_prop in Ec. destruct Ec as [Ec|Ec]; apply N.eqb_eq in Ec; [left|right]; congruence. }
  destruct new as [n|].
  - destruct (bool_decide_reflect (hold (set_hold s (delete cur (hold s))) !! n = None)) as [En|]; cbn [ensure rbind] in H; [|discriminate].
    unfold add_delegate in H. destruct pay; cbn [ensure rbind] in H; [|discriminate].
    destruct (add_def maxp (set_hold s (delete cur (hold s))) f n TOwner) as [s2|] eqn:E2; cbn [rbind] in H; [|discriminate].
    destruct (add_def_ok _ _ _ _ _ _ E2) as (A1 & A2 & A3 & A4 & A5 & A6).
    destruct (remove_others true s2 f n (defs s2 f)) as [s3|] eqn:E3; cbn [rbind] in H; [|discriminate].
    destruct (others_ok _ _ _ _ _ _ E3) as (P1 & P2 & P3 & P4 & P5 & P6 & P7 & P8). injection H as <-.
    assert (D2 : defs s2 f = insert_def (n, TOwner) (defs s f)) by (rewrite A6, N.eqb_refl; reflexivity).
    split; [change (nextf s3 = nextf s); rewrite P2, A4; reflexivity|]. split; [change (born s3 = born s); rewrite P3, A5; reflexivity|].
    split. { intros g Hg. change (defs s3 g = defs s g). rewrite (P4 g Hg), A6. destruct (N.eqb_spec f g); [congruence|reflexivity]. }
    split. { cbn [set_hold hold] in En. apply lookup_delete_None in En. destruct En as [En|En]; [left; congruence|right; exact En]. }
    split. { cbn [set_hold hold]. rewrite P1, A3. reflexivity. }
    change (defs (set_hold s3 (<[n:=f]> (hold s3))) f) with (defs s3 f).
    split. { apply P6. rewrite D2. apply insert_in. now left. }
    split; [exact A2|]. split.
    + intros x Hx. split. { destruct (N.eq_dec (fst x) n) as [E|Hne]; [exact E|]. specialize (P8 _ Hne). rewrite Nat.sub_diag in P8. destruct x as [x t]. destruct (cnt_zero _ _ P8 t Hx). }
      apply P5 in Hx. rewrite D2 in Hx. apply insert_in in Hx. exact Hx.
    + apply P7. rewrite D2. apply insert_nd; [exact A2|exact Hnd].
  - destruct pay; cbn [ensure rbind] in H; [|discriminate]. injection H as <-. do 2 (split; [reflexivity|]).
    split. { intros g Hg. unfold defs. cbn [prox set_hold]. rewrite lookup_delete_ne by congruence. reflexivity. }
    split; [reflexivity|]. unfold defs. cbn [prox set_hold]. rewrite lookup_delete. reflexivity.
Qed.
Lemma transfer_FI maxp pay s caller cur new s' : FI s -> transfer_fp maxp pay s caller cur new = Ok s' -> FI s'.
Proof.
  intros HI H. destruct (transfer_ok _ _ _ _ _ _ _ (i_nd _ HI _) H) as (f & T1 & T2 & E2 & E3 & T3 & T4).
  pose proof (born_fp s f HI) as Hb. destruct HI as [H1 H2 H3 H4 H5 H6 H7]. destruct (H2 _ _ T1) as [F1 F2]. specialize (Hb F2).
  destruct new as [n|].
  - destruct T4 as (N1 & E1 & N2 & N3 & N4 & N5).
    assert (Hother : forall a g, hold s !! a = Some g -> g <> f -> a <> cur /\ a <> n).
    { intros a g Ha Hg. assert (a <> cur) by congruence. split; [assumption|]. intros ->. destruct N1 as [|]; congruence. }
    split; rewrite ?E1, ?E2, ?E3; try assumption.
    + intros a b g. rewrite !lookup_insert_Some, !lookup_delete_Some. intros [[<- <-]|[Ha [Ha1 Hg]]] [[<- Hb2]|[Hb2 [Hb1 Hg']]]; [reflexivity| | |exact (H1 _ _ _ Hg Hg')].
      * exfalso. apply Hb1. exact (H1 _ _ _ T1 Hg').
      * subst g. exfalso. apply Ha1. exact (H1 _ _ _ T1 Hg).
    + intros a g. rewrite lookup_insert_Some, lookup_delete_Some. intros [[<- <-]|[Ha [Ha1 Hg]]]; [split; assumption|].
      destruct (H2 _ _ Hg) as [G1 G2]. split; [|exact G2]. destruct (N.eq_dec g f) as [->|Hne]; [exfalso; apply Ha1; exact (H1 _ _ _ T1 Hg)|rewrite T3 by exact Hne; exact G1].
    + intros x g Hg Hx. destruct (N.eq_dec g f) as [->|Hne].
      * destruct (N4 _ Hx) as [Ex _]. cbn in Ex. subst x. apply lookup_insert.
      * rewrite T3 in Hx by exact Hne. apply H3 in Hx; [|exact Hg]. destruct (Hother _ _ Hx Hne). rewrite lookup_insert_ne by congruence. rewrite lookup_delete_ne by congruence. exact Hx.
    + intros g Hg Hn. rewrite T3; [apply H4; assumption|]. intros ->. exact (Hn F2).
    + intros g. destruct (N.eq_dec g f) as [->|Hne]; [exact N5|rewrite T3 by exact Hne; apply H5].
  - destruct T4 as (E1 & E5). split; rewrite ?E1, ?E2, ?E3; try assumption.
    + intros a b g. rewrite !lookup_delete_Some. intros [_ Hg] [_ Hg']. exact (H1 _ _ _ Hg Hg').
    + intros a g. rewrite lookup_delete_Some. intros [Ha Hg]. destruct (H2 _ _ Hg) as [G1 G2]. split; [|exact G2].
      destruct (N.eq_dec g f) as [->|Hne]; [exfalso; apply Ha; exact (H1 _ _ _ T1 Hg)|rewrite T3 by exact Hne; exact G1].
    + intros x g Hg Hx. destruct (N.eq_dec g f) as [->|Hne]; [rewrite E5 in Hx; destruct Hx|]. rewrite T3 in Hx by exact Hne. apply H3 in Hx; [|exact Hg].
      rewrite lookup_delete_ne; [exact Hx|congruence].
    + intros g Hg Hn. rewrite T3; [apply H4; assumption|]. intros ->. exact (Hn F2).
    + intros g. destruct (N.eq_dec g f) as [->|Hne]; [rewrite E5; constructor|rewrite T3 by exact Hne; apply H5].
Qed.

Lemma commit_inv {S} (P : S -> Prop) s r : P s -> (forall s', r = Ok s' -> P s') -> P (commit s r).
Proof. intros H1 H2. destruct r; [apply H2; reflexivity|exact H1]. Qed.
Fixpoint dispatch_FI maxp pay s who filt c {struct c} : forall s', FI s -> N.of_nat (length (born s)) < 2 ^ 128 -> actor_ok s who -> (filt = None -> is_fp who = false) ->
  dispatch maxp pay s who filt c = Ok s' -> FI s'.
Proof.
  assert (Hvia : forall real force (c' : fcall) s', (forall who filt s', FI s -> N.of_nat (length (born s)) < 2 ^ 128 -> actor_ok s who -> (filt = None -> is_fp who = false) -> dispatch maxp pay s who filt c' = Ok s' -> FI s') ->
    FI s -> N.of_nat (length (born s)) < 2 ^ 128 ->
    (do! d <- of_opt (find_def who force (defs s real)) 13; Ok (commit s (dispatch maxp pay s real (Some (snd d)) c'))) = Ok s' -> FI s').
  { intros real force c' s' IH HI Hn H. destruct (find_def who force (defs s real)) as [d|] eqn:Ed; cbn [of_opt rbind] in H; [|discriminate]. apply FpassProofs.find_some in Ed. destruct Ed as (Ed & _).
    injection H as <-. apply (commit_inv FI); [exact HI|]. intros s' Hs. apply (IH real (Some (snd d)) s' HI Hn (def_born _ _ _ HI Ed)); [discriminate|exact Hs]. }
  intros s' HI Hn Ha Hf H.
  destruct c as [account|f d t signed|f d|cur new|f c'|real force c'|d t|d t| |]; cbn [dispatch] in H;
    (destruct (match filt with None => true | Some t0 => allows t0 _ end) eqn:Ef; cbn [ensure rbind] in H; [|discriminate]).
  - exact (create_FI _ _ _ _ _ HI Hn H).
  - exact (register_FI _ _ _ _ _ _ _ _ _ HI Ha H).
  - exact (unregister_FI _ _ _ _ _ _ HI H).
  - exact (transfer_FI _ _ _ _ _ _ _ HI H).
  - apply (Hvia f None c' s' (fun who filt s' => dispatch_FI maxp pay s who filt c' s') HI Hn).
    destruct c'; try exact H; (destruct (holds s who f); cbn [ensure rbind] in H; [exact H|discriminate]).
  - apply (Hvia real force c' s' (fun who filt s' => dispatch_FI maxp pay s who filt c' s') HI Hn H).
  - destruct filt; [discriminate|]. specialize (Hf eq_refl). destruct pay; cbn [ensure rbind] in H; [|discriminate].
    destruct (add_def_ok _ _ _ _ _ _ H) as (A1 & A2 & A3 & A4 & A5 & A6). apply (FI_other s s' who HI Hf A3 A4 A5).
    + intros g Hg. rewrite A6. destruct (N.eqb_spec who g); [congruence|reflexivity].
    + rewrite A6, N.eqb_refl. apply insert_nd; [exact A2|apply (i_nd _ HI)].
  - destruct filt; [discriminate|]. specialize (Hf eq_refl). destruct (has_def (d, t) (defs s who)); cbn [ensure rbind] in H; [|discriminate]. injection H as <-.
    apply (FI_other s _ who HI Hf); try reflexivity.
    + intros g Hg. rewrite defs_set. destruct (N.eqb_spec who g); [congruence|reflexivity].
    + rewrite defs_set, N.eqb_refl. apply remove_nd, (i_nd _ HI).
  - destruct filt; [discriminate|]. specialize (Hf eq_refl). injection H as <-. apply (FI_other s _ who HI Hf); try reflexivity.
    + intros g Hg. unfold defs. cbn [prox]. rewrite lookup_delete_ne by congruence. reflexivity.
    + unfold defs. cbn [prox]. rewrite lookup_delete. constructor.
  - injection H as <-. exact HI.
Qed.
Lemma evm_FI maxp pay reg x : forall s caller target s', FI s -> actor_ok s caller -> evm maxp pay reg s caller target x = Ok s' -> FI s'.
Proof.
  induction x as [d t signed|d|n| |ct to data IH| |]; intros s caller target s' HI Ha H; cbn [evm] in H; (destruct (is_fp target) eqn:Ef; cbn [negb] in H; [|injection H as <-; exact HI]).
  - exact (register_FI _ _ _ _ _ _ _ _ _ HI Ha H).
  - exact (unregister_FI _ _ _ _ _ _ HI H).
  - exact (transfer_FI _ _ _ _ _ _ _ HI H).
  - exact (transfer_FI _ _ _ _ _ _ _ HI H).
  - repeat match type of H with (rbind (ensure ?b _) _) = _ => destruct b; cbn [ensure rbind] in H; [|discriminate] end.
    destruct (find_def caller None (defs s target)) as [d|] eqn:Ed; cbn [of_opt rbind] in H; [|discriminate]. apply FpassProofs.find_some in Ed. destruct Ed as (Ed & _).
    repeat match type of H with (rbind (ensure ?b _) _) = _ => destruct b; cbn [ensure rbind] in H; [|discriminate] end.
    destruct (ct <? 2); [|injection H as <-; exact HI]. exact (IH _ _ _ _ HI (def_born _ _ _ HI Ed) H).
  - injection H as <-. exact HI.
  - injection H as <-. exact HI.
Qed.
Lemma finit_FI : FI finit.
Proof. split; try reflexivity; try (intros; discriminate); [intros x f _ H; destruct H|intros; constructor]. Qed.
(** Nobody holds the key of an address with the futurepass prefix, and there is room for another futurepass. *)
Definition fine (s : fps) (o : fop) : Prop := is_fp (signer o) = false /\ N.of_nat (length (born s)) < 2 ^ 128.
Lemma fstep_FI maxp s o : fine s o -> FI s -> FI (fstep maxp s o).
Proof.
  intros [Hf Hn] HI. unfold fstep. apply (commit_inv FI); [exact HI|]. intros s' H. assert (Ha : actor_ok s (signer o)) by (intros E; congruence).
  destruct o as [pay who c|pay reg caller target x]; cbn [fexec signer] in *; [exact (dispatch_FI _ _ _ _ _ _ _ HI Hn Ha (fun _ => Hf) H)|exact (evm_FI _ _ _ _ _ _ _ _ HI Ha H)].
Qed.
Lemma frun_FI maxp ops : along (fstep maxp) fine ops finit -> FI (run (fstep maxp) ops finit).
Proof. intros H. apply (run_along (fstep maxp) fine FI (fun s o => fstep_FI maxp s o)); [exact H|exact finit_FI]. Qed.
