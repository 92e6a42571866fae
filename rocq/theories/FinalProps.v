(** Property C198: no finalised block is missed, and each is handled under the notaries of its time. *)
From Verif Require Import FinalModel.

(** What a block asks for, and whether it brings in new notaries, anywhere in its digest. *)
Definition requests (h : header) : list ask := flat_map (fun l => match l with LAsk q => [q] | _ => [] end) (logs h).
Definition brings (h : header) : Prop := exists a, In (LSet a) (logs h).
Lemma asks_requests h : asks h = requests h.
Proof. unfold asks, requests. induction (logs h) as [|[] l IH]; cbn [asks_in flat_map app]; [reflexivity|exact IH|f_equal; exact IH|exact IH]. Qed.
Lemma change_brings h : change_of h = None -> ~ brings h.
Proof.
  unfold change_of, brings. induction (logs h) as [|x l IH]; intros E [a A]; [destruct A|].
  destruct x; cbn [change_in] in E; [discriminate|destruct A as [A|A]; [discriminate|apply IH; eauto]|].
  destruct A as [A|A]; [discriminate|apply IH; eauto].
Qed.

Section spec.
  Variable owns : N -> bool.
  (** The finalised chain. *)
  Variable blk : N -> header.
  Definition chained : Prop := (forall n, num (blk n) = n) /\ (forall n, parent (blk (n + 1)) = hash (blk n)).
  (** A notification of some finalised block, with a database that has the chain. *)
  Definition sound (n : notice) : Prop :=
    (exists m, what n = blk m) /\ (forall m, db n (hash (blk m)) = Some (blk m)).
  (** The notaries of each block: they change only where the block logs it, and with them the id. *)
  Variable notaries : N -> aset.
  Definition governed : Prop := forall m,
    (~ brings (blk (m + 1)) -> notaries (m + 1) = notaries m) /\
    (aid (notaries (m + 1)) = aid (notaries m) -> notaries (m + 1) = notaries m).
  Definition served (n : notice) : Prop := forall m, api n (hash (blk m)) = Some (notaries m).

  (** The requests of [k] blocks from [b] on, in order, with their blocks. *)
  Fixpoint wanted (b : N) (k : nat) : list (N * ask) :=
    match k with
    | O => []
    | S k => wanted b k ++ map (fun q => (hash (blk (b + N.of_nat k)), q)) (requests (blk (b + N.of_nat k)))
    end.
  Definition seen (s : fin) : list (N * ask) := map (fun x => (hblock x, hask x)) (rev (done s)).
  (** A request was handled under the right set and, if the node has a notary's key, with such a key. *)
  Definition right_key (x : handled) : Prop := exists m, hblock x = hash (blk m) /\ In (hask x) (requests (blk m)) /\
    hset x = aid (notaries m) /\
    match hkey x with
    | Some k => In k (akeys (notaries m)) /\ owns k = true
    | None => forall k, In k (akeys (notaries m)) -> owns k = false
    end.

  (** ** One notification. *)
  Lemma seen_process s h : seen (process owns s h) = seen s ++ map (fun q => (hash h, q)) (requests h).
  Proof.
    unfold seen, process; cbn [done]. rewrite rev_app_distr, rev_involutive, map_app, map_map, asks_requests. reflexivity.
  Qed.
  Lemma refresh_same s n h : best (refresh s n h) = best s /\ done (refresh s n h) = done s.
  Proof.
    unfold refresh. destruct (_ || _); [|auto]. destruct (api n (hash h)); [|auto]. destruct (_ || _); auto.
  Qed.
  Lemma wanted_split b i j : wanted b (i + j) = wanted b i ++ wanted (b + N.of_nat i) j.
  Proof.
    induction j as [|j IH]; [rewrite Nat.add_0_r, app_nil_r; reflexivity|].
    rewrite Nat.add_succ_r; cbn [wanted]. rewrite IH, <- app_assoc.
    replace (b + N.of_nat (i + j)) with (b + N.of_nat i + N.of_nat j) by lia. reflexivity.
  Qed.

  Section steps.
    Hypothesis C : chained.
    Lemma handle_steps n s : (forall m, db n (hash (blk m)) = Some (blk m)) ->
      forall k, let s' := handle owns k n (blk (best s + N.of_nat k)) s in
      best s' = best s + N.of_nat k /\ seen s' = seen s ++ wanted (best s + 1) k /\
      (forall k', (k <= k')%nat -> handle owns k' n (blk (best s + N.of_nat k)) s = s').
    Proof.
      destruct C as [Cn Cp]. intros D. induction k as [|k IH]; cbn zeta.
      - cbn [handle wanted]. rewrite app_nil_r. repeat split; [lia|]. intros [|k'] _; [reflexivity|].
        cbn [handle]. rewrite Cn. destruct (N.leb_spec (best s + N.of_nat 0) (best s)); [reflexivity|lia].
      - destruct IH as (B & W & F). set (s1 := handle owns k n (blk (best s + N.of_nat k)) s) in *.
        assert (H1 : forall k', (k <= k')%nat -> handle owns (S k') n (blk (best s + N.of_nat (S k))) s =
          process owns (refresh s1 n (blk (best s + N.of_nat (S k)))) (blk (best s + N.of_nat (S k)))).
        { intros k' L. cbn [handle]. rewrite Cn. destruct (N.leb_spec (best s + N.of_nat (S k)) (best s)); [lia|].
          destruct (N.ltb_spec (best s + 1) (best s + N.of_nat (S k))) as [G|G].
          - replace (best s + N.of_nat (S k)) with (best s + N.of_nat k + 1) at 1 by lia. rewrite Cp, D, (F k' L). reflexivity.
          - assert (k = O) by lia; subst k. reflexivity. }
        rewrite (H1 k) by lia. repeat split.
        + cbn [process best]. rewrite Cn. reflexivity.
        + rewrite seen_process. unfold seen at 1. rewrite (proj2 (refresh_same _ _ _)). fold (seen s1). rewrite W, <- app_assoc.
          cbn [wanted]. replace (best s + 1 + N.of_nat k) with (best s + N.of_nat (S k)) by lia. reflexivity.
        + intros [|k'] L; [lia|]. rewrite (H1 k') by lia. reflexivity.
    Qed.
    (** The bound on the way back never matters. *)
    Lemma handle_fuel n s k : sound n -> (N.to_nat (num (what n) - best s) <= k)%nat ->
      handle owns k n (what n) s = notify owns s n.
    Proof.
      intros [[m E] D] L. unfold notify. rewrite E in *. destruct C as [Cn Cp]. rewrite Cn in *.
      destruct (N.leb_spec m (best s)) as [G|G].
      - replace (N.to_nat (m - best s)) with O by lia. cbn [handle]. destruct k as [|k]; [reflexivity|]. cbn [handle].
        rewrite Cn. destruct (N.leb_spec m (best s)); [reflexivity|lia].
      - destruct (handle_steps n s D (N.to_nat (m - best s))) as (_ & _ & F).
        replace (best s + N.of_nat (N.to_nat (m - best s))) with m in F by lia. apply F, L.
    Qed.

    Lemma notify_seen n s : sound n ->
      best (notify owns s n) = N.max (best s) (num (what n)) /\
      seen (notify owns s n) = seen s ++ wanted (best s + 1) (N.to_nat (num (what n) - best s)).
    Proof.
      intros [[m E] D]. unfold notify. rewrite E. destruct C as [Cn Cp]. rewrite Cn.
      destruct (N.leb_spec m (best s)) as [G|G].
      - replace (N.to_nat (m - best s)) with O by lia. cbn [handle wanted]. rewrite app_nil_r. split; [lia|reflexivity].
      - destruct (handle_steps n s D (N.to_nat (m - best s))) as (B & S & _).
        replace (best s + N.of_nat (N.to_nat (m - best s))) with m in B, S by lia. rewrite B, S. split; [lia|reflexivity].
    Qed.
    Lemma follow_seen l : forall s, Forall sound l ->
      best (follow owns s l) = fold_left (fun b n => N.max b (num (what n))) l (best s) /\
      best s <= best (follow owns s l) /\
      seen (follow owns s l) = seen s ++ wanted (best s + 1) (N.to_nat (best (follow owns s l) - best s)).
    Proof.
      induction l as [|n l IH]; intros s F; cbn [follow fold_left].
      - repeat split; [lia|]. replace (N.to_nat (best s - best s)) with O by lia. cbn [wanted]. rewrite app_nil_r. reflexivity.
      - inversion F as [|? ? Sn Sl]; subst. destruct (notify_seen n s Sn) as [B S].
        destruct (IH (notify owns s n) Sl) as (B' & L & S'). fold (follow owns (notify owns s n) l) in *.
        rewrite B in B'. split; [exact B'|]. split; [lia|]. rewrite S', S, <- app_assoc. f_equal.
        set (e := best (follow owns (notify owns s n) l)) in *. rewrite B in *.
        replace (N.to_nat (e - best s)) with
          (N.to_nat (num (what n) - best s) + N.to_nat (e - N.max (best s) (num (what n))))%nat by lia.
        rewrite wanted_split. do 2 f_equal; lia.
    Qed.
  End steps.

  (** C198, first part: whatever blocks a node is notified of, in whatever order, with gaps and repeats, it has handled the
      requests of all the blocks from the one after its start to the highest, each once and in order. *)
  Theorem C198_all b l : chained -> Forall sound l ->
    best (follow owns (starting b) l) = fold_left (fun b n => N.max b (num (what n))) l b /\
    seen (follow owns (starting b) l) =
      wanted (b + 1) (N.to_nat (fold_left (fun b n => N.max b (num (what n))) l b - b)).
  Proof.
    intros C F. destruct (follow_seen C l (starting b) F) as (B & _ & S). rewrite B in S. split; [exact B|exact S].
  Qed.

  Section sets.
    Hypothesis C : chained.
    Hypothesis G : governed.
    Definition inv (s : fin) : Prop :=
      (held s = noset /\ done s = [] \/ held s = notaries (best s)) /\ Forall right_key (done s).
    Lemma refresh_held s n m : served n -> inv s -> m = best s + 1 -> held (refresh s n (blk m)) = notaries m.
    Proof.
      intros A [[[H _]|H] _] ->; unfold refresh; rewrite A.
      - rewrite H. rewrite orb_true_r. cbn [noset aid akeys unset]. rewrite andb_true_r, orb_comm.
        destruct (aid (notaries (best s + 1)) =? 0); reflexivity.
      - destruct (G (best s)) as [G1 G2]. destruct (change_of (blk (best s + 1))) eqn:E; cbn [orb].
        + destruct (N.eqb_spec (aid (notaries (best s + 1))) (aid (held s))) as [I|I]; cbn [negb orb]; [|reflexivity].
          destruct (_ && _); [reflexivity|]. rewrite H in *. symmetry. apply G2, I.
        + destruct (unset (held s)); [|rewrite H; symmetry; apply G1, change_brings, E].
          rewrite (G1 (change_brings _ E)), <- H. destruct (_ || _); reflexivity.
    Qed.
    Lemma process_right s m : held s = notaries m -> Forall right_key (done s) -> Forall right_key (done (process owns s (blk m))).
    Proof.
      intros H R. cbn [process done]. apply Forall_app; split; [|exact R]. apply Forall_rev, Forall_forall.
      intros x I. apply elem_of_list_In, in_map_iff in I. destruct I as (q & <- & I). exists m. cbn [hblock hask hset hkey]. rewrite H.
      rewrite asks_requests in I. repeat split; auto. unfold my_key. destruct (find owns (akeys (notaries m))) as [k|] eqn:E.
      - apply find_some in E. exact E.
      - intros k K. apply (find_none _ _ E k K).
    Qed.
    Lemma handle_inv n s : sound n -> served n -> inv s -> forall k, inv (handle owns k n (blk (best s + N.of_nat k)) s).
    Proof.
      intros Sn A I. destruct Sn as [_ D]. induction k as [|k IH]; [exact I|].
      destruct (handle_steps C n s D k) as (B & _ & _). destruct (handle_steps C n s D (S k)) as (_ & _ & _).
      destruct C as [Cn Cp]. cbn [handle]. rewrite Cn. destruct (N.leb_spec (best s + N.of_nat (S k)) (best s)); [lia|].
      replace (if best s + 1 <? best s + N.of_nat (S k) then _ else s) with (handle owns k n (blk (best s + N.of_nat k)) s).
      2:{ destruct (N.ltb_spec (best s + 1) (best s + N.of_nat (S k))) as [L|L].
          - replace (best s + N.of_nat (S k)) with (best s + N.of_nat k + 1) by lia. rewrite Cp, D. reflexivity.
          - assert (k = O) by lia; subst k. reflexivity. }
      set (s1 := handle owns k n (blk (best s + N.of_nat k)) s) in *.
      assert (R : held (refresh s1 n (blk (best s + N.of_nat (S k)))) = notaries (best s + N.of_nat (S k))).
      { apply refresh_held; auto. rewrite B. lia. }
      split.
      - right. cbn [process held best]. rewrite Cn. exact R.
      - apply process_right; [exact R|]. rewrite (proj2 (refresh_same _ _ _)). apply IH.
    Qed.
    Lemma notify_inv n s : sound n -> served n -> inv s -> inv (notify owns s n).
    Proof.
      intros Sn A I. pose proof Sn as [[m E] D]. unfold notify. rewrite E. rewrite (proj1 C).
      destruct (N.leb_spec m (best s)) as [L|L].
      - replace (N.to_nat (m - best s)) with O by lia. exact I.
      - pose proof (handle_inv n s Sn A I (N.to_nat (m - best s))) as H.
        replace (best s + N.of_nat (N.to_nat (m - best s))) with m in H by lia. exact H.
    Qed.
  End sets.

  (** C198, second part: every request is handled under the notaries of its own block, also one caught up with later, and
      with a key of the node that is a notary's, if the node has one. *)
  Theorem C198_set b l : chained -> governed -> Forall sound l -> Forall served l ->
    Forall right_key (done (follow owns (starting b) l)).
  Proof.
    intros C G F A. assert (I : inv (starting b)) by (split; [left; auto|constructor]).
    revert I. generalize (starting b). induction l as [|n l IH]; intros s I; [apply I|].
    inversion F; inversion A; subst. cbn [follow fold_left]. apply IH; auto. apply notify_inv; auto.
  Qed.
  (** C198, third part: once a block above the start was handled, the node holds the notaries of the last one. *)
  Theorem C198_held b l : chained -> governed -> Forall sound l -> Forall served l ->
    (exists n, In n l /\ b < num (what n)) ->
    held (follow owns (starting b) l) = notaries (best (follow owns (starting b) l)).
  Proof.
    intros C G F A (n & N1 & N2).
    assert (K : forall l s, Forall sound l -> Forall served l -> inv s ->
      (held s = notaries (best s) \/ exists n, In n l /\ best s < num (what n)) ->
      held (follow owns s l) = notaries (best (follow owns s l))).
    { clear n l N1 N2 F A. induction l as [|n l IH]; intros s F A I H.
      - destruct H as [H|(x & [] & _)]. exact H.
      - inversion F as [|? ? Sn Sl]; inversion A as [|? ? An Al]; subst. cbn [follow fold_left]. fold (follow owns (notify owns s n) l).
        apply IH; auto; [apply notify_inv; auto|]. pose proof Sn as [[m E] D].
        destruct (N.leb_spec m (best s)) as [L|L].
        + assert (notify owns s n = s) as ->.
          { unfold notify. rewrite E, (proj1 C). replace (N.to_nat (m - best s)) with O by lia. reflexivity. }
          destruct H as [H|(x & [<-|X] & Y)]; eauto. rewrite E, (proj1 C) in Y. lia.
        + left. unfold notify. rewrite E, (proj1 C). destruct (N.to_nat (m - best s)) as [|k] eqn:EK; [lia|].
          pose proof (handle_inv C G n s Sn An I k) as Ik. destruct (handle_steps C n s D k) as (B & _ & Fk).
          cbn [handle]. rewrite (proj1 C). destruct (N.leb_spec m (best s)); [lia|].
          replace (if best s + 1 <? m then _ else s) with (handle owns k n (blk (best s + N.of_nat k)) s).
          2:{ destruct (N.ltb_spec (best s + 1) m) as [M|M].
              - replace m with (best s + N.of_nat k + 1) by lia. rewrite (proj2 C), D. reflexivity.
              - assert (k = O) by lia; subst k. reflexivity. }
          cbn [process held best]. rewrite (proj1 C). apply (refresh_held G); auto. cbv zeta in B. rewrite B. lia. }
    apply K; auto; [split; [left; auto|constructor]|]. right. eauto.
  Qed.
End spec.

(** C198, fourth part: a block at or below the last one changes nothing, whatever the database and the runtime answer. *)
Theorem C198_old owns s n : num (what n) <= best s -> notify owns s n = s.
Proof. intros L. unfold notify. replace (N.to_nat (num (what n) - best s)) with O by lia. reflexivity. Qed.

(** ** A chain: block 3 asks for event 7, block 4 brings in new notaries (key 12 for key 11), block 5 asks for event 8. *)
Definition cblk (n : N) : header := Hd n (n + 100) (n + 99)
  (if n =? 3 then [LOther; LAsk (Ask 1 7 70)] else if n =? 4 then [LSet (ASet 6 [12; 13])]
   else if n =? 5 then [LAsk (Ask 2 8 80); LAsk (Ask 1 9 90)] else []).
Definition cnot (n : N) : aset := if n <? 4 then ASet 5 [11; 13] else ASet 6 [12; 13].
Definition cdb (h : N) : option header := if 100 <=? h then Some (cblk (h - 100)) else None.
Definition capi (h : N) : option aset := Some (cnot (h - 100)).
Definition tell (n : N) : notice := Nt (cblk n) cdb capi capi.
(** The database fails to give block 4 when block 5 is told of; the runtime of block 4 fails to answer. *)
Definition tell_blind (n : N) : notice := Nt (cblk n) (fun _ => None) capi capi.
Definition tell_mute (n : N) : notice := Nt (cblk n) cdb (fun h => if h =? 104 then None else capi h) capi.

Lemma cchained : chained cblk.
Proof. split; intros n; cbn [cblk num parent hash]; lia. Qed.
Lemma ctell n : sound cblk (tell n).
Proof.
  split; [exists n; reflexivity|]. intros m. cbn [tell db cblk hash]. unfold cdb.
  destruct (N.leb_spec 100 (m + 100)); [|lia]. replace (m + 100 - 100) with m by lia. reflexivity.
Qed.
Lemma cgoverned : governed cblk cnot.
Proof.
  intros m. unfold cnot. split.
  - intros H. destruct (N.ltb_spec (m + 1) 4); destruct (N.ltb_spec m 4); try reflexivity; try lia.
    assert (m = 3) by lia; subst m. exfalso. apply H. eexists. vm_compute. left. reflexivity.
  - destruct (N.ltb_spec (m + 1) 4); destruct (N.ltb_spec m 4); try reflexivity; try lia. cbn [aid]. discriminate.
Qed.
Lemma cserved n : served cblk cnot (tell n).
Proof. intros m. cbn [tell api cblk hash]. unfold capi. do 2 f_equal. lia. Qed.
Example C198_example :
  map (fun x => (hblock x, aevent (hask x), hset x, hkey x)) (rev (done (follow (N.eqb 12) (starting 1) [tell 5; tell 3; tell 6]))) =
    [(103, 7, 5, None); (105, 8, 6, Some 12); (105, 9, 6, Some 12)] /\
  Forall (right_key (N.eqb 12) cblk cnot) (done (follow (N.eqb 12) (starting 1) [tell 5; tell 3; tell 6])) /\
  held (follow (N.eqb 12) (starting 1) [tell 5; tell 3; tell 6]) = ASet 6 [12; 13].
Proof.
  split; [vm_compute; reflexivity|]. split.
  - apply C198_set; [apply cchained|apply cgoverned| |]; repeat constructor; try apply ctell; try apply cserved.
  - vm_compute. reflexivity.
Qed.
(** One failing look into the database loses the blocks in between for good: the request of block 3 is never handled, though
    the node is told of that very block afterwards, all in order again. *)
Theorem C198_missing_refuted : exists l, chained cblk /\ Forall (sound cblk) (tl l) /\ (exists n, hd_error l = Some n /\ what n = cblk 5) /\
  (exists n, In n (tl l) /\ what n = cblk 3) /\
  best (follow (N.eqb 12) (starting 1) l) = 6 /\ In (Ask 1 7 70) (requests (cblk 3)) /\
  ~ In (hash (cblk 3), Ask 1 7 70) (seen (follow (N.eqb 12) (starting 1) l)).
Proof.
  exists [tell_blind 5; tell 3; tell 4; tell 6]. split; [apply cchained|].
  split; [repeat constructor; apply ctell|]. split; [eexists; split; reflexivity|].
  split; [exists (tell 3); split; [left|]; reflexivity|]. split; [vm_compute; reflexivity|].
  split; [vm_compute; auto|]. vm_compute. intros [H|[H|[]]]; discriminate.
Qed.
(** One failing question to the runtime at a change of notaries, and the node goes on with the old ones: the requests of
    block 5 are noted under the set 5, and the new notary does not sign, though the runtime answers again. *)
Theorem C198_mute_refuted : exists n l, In n l /\ Forall (sound cblk) (n :: l) /\ served cblk cnot n /\
  (forall n', In n' l -> forall m, m <> 4 -> api n' (hash (cblk m)) = Some (cnot m)) /\
  held (follow (N.eqb 12) (starting 1) l) <> cnot (best (follow (N.eqb 12) (starting 1) l)) /\
  exists x, In x (done (follow (N.eqb 12) (starting 1) l)) /\ hblock x = hash (cblk 5) /\ hset x = 5 /\ hkey x = None /\
    aid (cnot 5) = 6 /\ In 12 (akeys (cnot 5)).
Proof.
  exists (tell 5), [tell_mute 4; tell 5; tell 9]. split; [right; left; reflexivity|].
  split. { repeat constructor; try apply ctell; try (eexists; reflexivity). intros m. apply (proj2 (ctell 0)). }
  split; [apply cserved|]. split.
  { intros n' [<-|[<-|[<-|[]]]] m M; cbn [tell_mute tell api cblk hash]; try (unfold capi; do 2 f_equal; lia).
    destruct (N.eqb_spec (m + 100) 104); [lia|]. unfold capi; do 2 f_equal; lia. }
  split; [vm_compute; discriminate|]. eexists. split; [vm_compute; left; reflexivity|]. repeat split; vm_compute; auto.
Qed.

Definition C198_theorems := (C198_all, C198_set, C198_held, C198_old, C198_missing_refuted, C198_mute_refuted).
Print Assumptions C198_theorems.
