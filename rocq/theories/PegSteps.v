(** C41, continued: the release loop and the histories. *)
From Verif Require Import XrplModel XrplDeposits.
From Verif Require Import PegModel PegBacking PegSched.

Lemma release_keep native pot s id : let s' := release native pot s id in
  psch s' = psch s /\ pnext s' = pnext s /\ ready s' = ready s /\ pblk s' = pblk s /\ pdl s' = pdl s /\
  (forall i d q, accepted i d q s' <-> accepted i d q s) /\
  (forall e, In e (plog s') -> In e (plog s) \/ dec_of e = Some id /\ blk_of e = pblk s) /\
  (forall e, In e (plog s) -> In e (plog s')).
Proof.
  cbn zeta. destruct (pend s !! id) as [p|] eqn:Ep.
  - destruct (release_frame native pot s id p Ep) as (_ & P2 & P3 & P4 & P5 & _ & P6 & e & P7 & P8 & P9 & _).
    do 5 (split; [assumption|]). rewrite !P7. split; [|split].
    + intros i d q. unfold accepted. rewrite P7. split; [intros [H|H]; [subst e; discriminate|exact H]|now right].
    + intros e' [<-|H]; [right; split; assumption|now left].
    + intros e' H. now right.
  - rewrite release_none by exact Ep. repeat split; try tauto.
Qed.
Lemma fold_keep native pot ids : forall s, let s' := fold_left (release native pot) ids s in
  psch s' = psch s /\ pnext s' = pnext s /\ ready s' = ready s /\ pblk s' = pblk s /\ pdl s' = pdl s /\
  (forall i d q, accepted i d q s' <-> accepted i d q s) /\
  (forall e, In e (plog s') -> In e (plog s) \/ exists id, In id ids /\ dec_of e = Some id /\ blk_of e = pblk s) /\
  (forall e, In e (plog s) -> In e (plog s')).
Proof.
  induction ids as [|i ids IH]; intros s; cbn zeta; cbn [fold_left]; [repeat split; try tauto|].
  destruct (release_keep native pot s i) as (P1 & P2 & P3 & P4 & P5 & P6 & P7 & P8).
  destruct (IH (release native pot s i)) as (Q1 & Q2 & Q3 & Q4 & Q5 & Q6 & Q7 & Q8). clear IH.
  set (s1 := release native pot s i) in *. clearbody s1. set (s2 := fold_left (release native pot) ids s1) in *. clearbody s2.
  split; [congruence|]. split; [congruence|]. split; [congruence|]. split; [congruence|]. split; [congruence|]. split; [|split].
  - intros j d q. rewrite Q6. apply P6.
  - intros e He. apply Q7 in He. destruct He as [He|(j & H1 & H2 & H3)].
    + apply P7 in He. destruct He as [He|[H2 H3]]; [now left|]. right. exists i. split; [now left|split; assumption].
    + right. exists j. split; [now right|]. split; [exact H2|congruence].
  - intros e He. apply Q8, P8, He.
Qed.

(** One round of the loop: what is released now and what stays. *)
Definition now_of (s : peg) (left b : N) : list N := firstn (N.to_nat left) (listed (psch s) b).
Definition later_of (s : peg) (left b : N) : list N := skipn (N.to_nat left) (listed (psch s) b).
Definition fits (s : peg) (left b : N) : bool := N.of_nat (length (listed (psch s) b)) <=? left.
Definition taken (s : peg) (left b : N) : peg := p_sch s (if fits s left b then delete b (psch s) else <[b := later_of s left b]> (psch s)).
Definition round (native pot : N) (s : peg) (left b : N) : peg := fold_left (release native pot) (now_of s left b) (taken s left b).
Lemma loop_cons native pot s left bc b rest :
  idle_loop native pot s left bc (b :: rest) =
  let s2 := round native pot s left b in
  let bc' := if fits s left b then (bc + 1) mod 2 ^ 8 else bc in
  let left' := left - N.of_nat (length (now_of s left b)) in
  if left' =? 0 then (s2, bc') else idle_loop native pot s2 left' bc' rest.
Proof. reflexivity. Qed.
Lemma fits_later s left b : fits s left b = true -> later_of s left b = [].
Proof. unfold fits, later_of. intros H. apply N.leb_le in H. apply skipn_all2. lia. Qed.
Lemma taken_listed s left b j : listed (psch (taken s left b)) j = if b =? j then later_of s left b else listed (psch s) j.
Proof.
  unfold taken. cbn [p_sch psch]. destruct (fits s left b) eqn:E.
  - rewrite listed_delete, (fits_later _ _ _ E). reflexivity.
  - apply listed_insert.
Qed.
Lemma round_SI native pot s left b : SI [] s -> SI [] (round native pot s left b).
Proof.
  intros HS. unfold round. apply SI_fold. rewrite app_nil_r.
  apply (SI_take s b (now_of s left b) (later_of s left b)); [exact HS| |exact (taken_listed s left b)].
  unfold now_of, later_of. rewrite firstn_skipn. reflexivity.
Qed.
Lemma round_keep native pot s left b : let s' := round native pot s left b in
  (forall j, listed (psch s') j = if b =? j then later_of s left b else listed (psch s) j) /\
  pnext s' = pnext s /\ ready s' = ready s /\ pblk s' = pblk s /\ pdl s' = pdl s /\
  (forall i d q, accepted i d q s' <-> accepted i d q s) /\
  (forall e, In e (plog s') -> In e (plog s) \/ exists id, In id (listed (psch s) b) /\ dec_of e = Some id /\ blk_of e = pblk s) /\
  (forall e, In e (plog s) -> In e (plog s')).
Proof.
  cbn zeta. unfold round. destruct (fold_keep native pot (now_of s left b) (taken s left b)) as (P1 & P2 & P3 & P4 & P5 & P6 & P7 & P8).
  cbn zeta in *. set (s' := fold_left _ _ _) in *. clearbody s'.
  split; [intros j; rewrite P1; apply taken_listed|]. do 4 (split; [assumption|]). split; [exact P6|]. split; [|exact P8].
  intros e He. apply P7 in He. destruct He as [He|(i & H1 & H2 & H3)]; [now left|]. right. exists i. split; [|split; assumption].
  unfold now_of in H1. rewrite <- (firstn_skipn (N.to_nat left) (listed (psch s) b)). apply in_or_app. now left.
Qed.

Lemma loop_SI native pot blocks : forall s left bc, SI [] s -> SI [] (fst (idle_loop native pot s left bc blocks)).
Proof.
  induction blocks as [|b r IH]; intros s left bc H; [exact H|]. rewrite loop_cons. cbn zeta.
  destruct (_ =? 0); [apply round_SI, H|]. apply IH, round_SI, H.
Qed.
(** No decision before its time. *)
Definition timely (id : N) (s : peg) : Prop := forall e d p, In e (plog s) -> dec_of e = Some id -> accepted id d p s -> d <= blk_of e.
Lemma loop_timely native pot id blocks : forall s left bc, SI [] s -> (forall k, In k blocks -> k <= pblk s) -> timely id s ->
  let s' := fst (idle_loop native pot s left bc blocks) in timely id s' /\ pblk s' = pblk s /\ ready s' = ready s.
Proof.
  induction blocks as [|b r IH]; intros s left bc HS Hk Ht; [repeat split; exact Ht|]. rewrite loop_cons. cbn zeta.
  destruct (round_keep native pot s left b) as (_ & _ & P3 & P4 & _ & P6 & P7 & _). pose proof (round_SI native pot s left b HS) as HS'.
  cbn zeta in *. set (s2 := round native pot s left b) in *. clearbody s2.
  assert (Ht2 : timely id s2).
  { intros e d p He Hd Ha. apply P6 in Ha. apply P7 in He. destruct He as [He|(i & H1 & H2 & H3)]; [exact (Ht _ _ _ He Hd Ha)|].
    rewrite H2 in Hd. injection Hd as ->. destruct (s_del _ _ HS _ _ H1) as (q & F1 & _). destruct (s_uniq _ _ HS _ _ _ _ _ Ha F1) as [-> _]. rewrite H3. apply Hk. now left. }
  destruct (_ =? 0); [repeat split; assumption|].
  destruct (IH s2 (left - N.of_nat (length (now_of s left b))) (if fits s left b then (bc + 1) mod 2 ^ 8 else bc) HS') as (F1 & F2 & F3); [|exact Ht2|].
  - intros k Hin. rewrite P4. apply Hk. now right.
  - split; [exact F1|]. split; congruence.
Qed.
(** The blocks dropped from the ready list are empty; nothing is added anywhere. *)
Lemma loop_empty native pot blocks : forall s left bc s' bc', idle_loop native pot s left bc blocks = (s', bc') -> bc < 256 ->
  (forall j i, In i (listed (psch s') j) -> In i (listed (psch s) j)) /\ pblk s' = pblk s /\ ready s' = ready s /\ pdl s' = pdl s /\
  exists n, (n <= length blocks)%nat /\ bc' = (bc + N.of_nat n) mod 256 /\ (forall k, In k (firstn n blocks) -> listed (psch s') k = []).
Proof.
  induction blocks as [|b r IH]; intros s left bc s' bc' H Hbc.
  - injection H as <- <-. do 4 (split; [tauto|]). exists 0%nat. split; [lia|]. split; [rewrite N.add_0_r, N.mod_small by exact Hbc; reflexivity|intros k []].
  - rewrite loop_cons in H. cbn zeta in H. destruct (round_keep native pot s left b) as (P1 & _ & P3 & P4 & P5 & _). cbn zeta in *.
    set (s2 := round native pot s left b) in *. clearbody s2.
    assert (Hsub : forall j i, In i (listed (psch s2) j) -> In i (listed (psch s) j)).
    { intros j i. rewrite P1. destruct (N.eqb_spec b j) as [<-|]; [|tauto]. unfold later_of. intros Hi.
      rewrite <- (firstn_skipn (N.to_nat left) (listed (psch s) b)). apply in_or_app. now right. }
    assert (Hb2 : (if fits s left b then (bc + 1) mod 2 ^ 8 else bc) < 256). { destruct (fits s left b); [|exact Hbc]. apply N.mod_lt. discriminate. }
    destruct (left - N.of_nat (length (now_of s left b)) =? 0) eqn:El.
    + injection H as <- <-. split; [exact Hsub|]. do 3 (split; [assumption|]). destruct (fits s left b) eqn:Ef.
      * exists 1%nat. split; [cbn [length]; lia|]. split; [reflexivity|]. intros k [<-|[]]. rewrite P1, N.eqb_refl. apply fits_later, Ef.
      * exists 0%nat. split; [lia|]. split; [rewrite N.add_0_r, N.mod_small by exact Hbc; reflexivity|intros k []].
    + destruct (fits s left b) eqn:Ef.
      * destruct (IH _ _ _ _ _ H Hb2) as (Q1 & Q2 & Q3 & Q4 & n & Q5 & Q6 & Q7).
        split; [intros j i Hi; apply Hsub, Q1, Hi|]. do 3 (split; [congruence|]). exists (S n). split; [cbn [length]; lia|]. split.
        -- rewrite Q6. change (2 ^ 8) with 256. rewrite N.add_mod_idemp_l by discriminate. f_equal. lia.
        -- cbn [firstn]. intros k [<-|Hk]; [|exact (Q7 _ Hk)].
           destruct (listed (psch s') b) as [|i t] eqn:Eb; [reflexivity|].
           exfalso. specialize (Q1 b i). rewrite Eb, P1, N.eqb_refl, (fits_later _ _ _ Ef) in Q1. exact (Q1 (or_introl eq_refl)).
      * exfalso. unfold fits in Ef. apply N.leb_gt in Ef. apply N.eqb_neq in El. unfold now_of in El. rewrite firstn_length in El. lia.
Qed.
(** What is left of the backlog. *)
Definition waiting (s : peg) (blocks : list N) : N := sumL (map (fun k => N.of_nat (length (listed (psch s) k))) blocks).
Lemma waiting_cons s b r : waiting s (b :: r) = N.of_nat (length (listed (psch s) b)) + waiting s r.
Proof. reflexivity. Qed.
Lemma waiting_ext s s' blocks : (forall k, In k blocks -> listed (psch s') k = listed (psch s) k) -> waiting s' blocks = waiting s blocks.
Proof.
  induction blocks as [|b r IH]; intros H; [reflexivity|]. rewrite !waiting_cons, (H b) by now left. rewrite IH; [reflexivity|]. intros k Hk. apply H. now right.
Qed.
Lemma waiting_app s a b : waiting s (a ++ b) = waiting s a + waiting s b.
Proof. induction a as [|x a IH]; [reflexivity|]. cbn [app]. rewrite !waiting_cons, IH. lia. Qed.
Lemma loop_others native pot blocks : forall s left bc k, ~ In k blocks -> listed (psch (fst (idle_loop native pot s left bc blocks))) k = listed (psch s) k.
Proof.
  induction blocks as [|b r IH]; intros s left bc k Hk; [reflexivity|]. rewrite loop_cons. cbn zeta.
  destruct (round_keep native pot s left b) as (P1 & _). cbn zeta in P1. assert (Hb : listed (psch (round native pot s left b)) k = listed (psch s) k).
  { rewrite P1. destruct (N.eqb_spec b k) as [E|]; [exfalso; apply Hk; now left|reflexivity]. }
  destruct (_ =? 0); [exact Hb|]. rewrite IH; [exact Hb|]. intros H. apply Hk. now right.
Qed.
Lemma loop_waiting native pot blocks : forall s left bc, NoDup blocks ->
  waiting (fst (idle_loop native pot s left bc blocks)) blocks = waiting s blocks - left.
Proof.
  induction blocks as [|b r IH]; intros s left bc Hnd; [reflexivity|]. apply NoDup_cons in Hnd. destruct Hnd as [Hb Hnd].
  rewrite loop_cons. cbn zeta. destruct (round_keep native pot s left b) as (P1 & _). cbn zeta in P1.
  set (s2 := round native pot s left b) in *. clearbody s2.
  assert (Er : waiting s2 r = waiting s r).
  { apply waiting_ext. intros k Hk. rewrite P1. destruct (N.eqb_spec b k) as [<-|]; [|reflexivity]. exfalso. apply Hb, elem_of_list_In, Hk. }
  assert (Eb : length (listed (psch s2) b) = (length (listed (psch s) b) - N.to_nat left)%nat).
  { rewrite P1, N.eqb_refl. unfold later_of. apply skipn_length. }
  assert (En : length (now_of s left b) = Nat.min (N.to_nat left) (length (listed (psch s) b))) by apply firstn_length.
  rewrite (waiting_cons s). destruct (N.eqb_spec (left - N.of_nat (length (now_of s left b))) 0) as [El|El].
  - cbn [fst]. rewrite waiting_cons, Er, Eb. lia.
  - rewrite waiting_cons, loop_others by (intros H; apply Hb, elem_of_list_In, H). rewrite (IH s2) by exact Hnd. rewrite Er, Eb. lia.
Qed.
