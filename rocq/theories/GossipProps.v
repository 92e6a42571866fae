(** C170-C173: the gossip of witnesses. *)
From Verif Require Export GossipProofs.

Section props.
  Variable verifies : N -> N -> N -> bool.
  Notation gstep := (gstep verifies).
  Notation validate := (validate verifies).
  Notation sound := (sound verifies).

  (** The validators after some operations: the ones set last. *)
  Fixpoint actives (act : list N) (ops : list gop) : list N :=
    match ops with
    | [] => act
    | GActive l :: ops' => actives l ops'
    | _ :: ops' => actives act ops'
    end.
  (** A witness of [a] for the event [e], validly signed and from a validator of the time, was received, and the event was
      not completed since. *)
  Definition heard (act : list N) (ops : list gop) (e a : N) : Prop :=
    exists o1 w f o2, ops = o1 ++ GHear (Some w) f :: o2 /\ w_event w = e /\ w_auth w = a /\
      List.In a (actives act o1) /\ verifies a (w_sig w) (w_digest w) = true /\ ~ List.In (GComplete e) o2.

  Lemma actives_app act o1 o2 : actives act (o1 ++ o2) = actives (actives act o1) o2.
  Proof. revert act. induction o1 as [|o o1 IH]; intros act; [reflexivity|]. destruct o; cbn; apply IH. Qed.
  Lemma actives_run ops s : ginv s -> g_active (run gstep ops s) = actives (g_active s) ops.
  Proof.
    revert s. induction ops as [|o ops IH]; intros s I; [reflexivity|]. cbn [run fold_left]. unfold run in IH. rewrite IH by (apply ginv_step; exact I).
    destruct o as [[w|] f|e|l|now f l]; cbn [actives GossipModel.gstep]; try reflexivity.
    destruct (validate_cases verifies s w f I) as [(-> & _)|(_ & _ & _ & _ & _ & -> & _)]; reflexivity.
  Qed.
  Lemma snoc_split {A} (l o1 o2 : list A) x y : l ++ [x] = o1 ++ y :: o2 -> (o2 = [] /\ x = y /\ l = o1) \/ (exists o3, o2 = o3 ++ [x] /\ l = o1 ++ y :: o3).
  Proof.
    intros E. destruct o2 as [|z o2] using rev_ind.
    - apply app_inj_tail in E. destruct E. left. auto.
    - clear IHo2. right. exists o2. rewrite app_comm_cons, app_assoc in E. apply app_inj_tail in E. destruct E as [-> ->]. auto.
  Qed.
  Lemma heard_snoc act ops o e a : heard act (ops ++ [o]) e a <->
    (exists w f, o = GHear (Some w) f /\ w_event w = e /\ w_auth w = a /\ List.In a (actives act ops) /\ verifies a (w_sig w) (w_digest w) = true) \/
    (heard act ops e a /\ o <> GComplete e).
  Proof.
    split.
    - intros (o1 & w & f & o2 & E & H1 & H2 & H3 & H4 & H5). apply snoc_split in E. destruct E as [(-> & -> & ->)|(o3 & -> & ->)].
      + left. exists w, f. auto.
      + right. split; [|intros ->; apply H5; rewrite in_app_iff; right; left; reflexivity]. exists o1, w, f, o3. split; [reflexivity|]. repeat (split; [assumption|]). intros X. apply H5. rewrite in_app_iff. auto.
    - intros [(w & f & -> & H1 & H2 & H3 & H4)|[(o1 & w & f & o2 & -> & H1 & H2 & H3 & H4 & H5) Ho]].
      + exists ops, w, f, []. repeat (split; [auto|]). auto.
      + exists o1, w, f, (o2 ++ [o]). split; [rewrite <- app_assoc; reflexivity|]. repeat (split; [assumption|]). rewrite in_app_iff. intros [X|[X|[]]]; auto.
  Qed.
  Lemma known_heard ops act now e a : known (run gstep ops (gnew act now)) e a <-> heard act ops e a.
  Proof.
    revert e a. induction ops as [|o ops IH] using rev_ind; intros e a.
    - split; [intros (v & E & _); cbn in E; rewrite lookup_empty in E; discriminate|intros (o1 & w & f & o2 & E & _); destruct o1; discriminate].
    - rewrite run_app, heard_snoc, <- IH. cbn [run fold_left]. pose proof (ginv_run verifies ops act now) as I.
      pose proof (actives_run ops (gnew act now) (ginv_run verifies [] act now)) as A. cbn [gnew g_active] in A. rewrite <- A. clear IH A.
      set (s := run gstep ops (gnew act now)) in *. clearbody s.
      destruct o as [[w|] f|e'|l|n f l]; cbn [GossipModel.gstep].
      + destruct (validate_cases verifies s w f I) as [(-> & _ & C)|((C1 & C2) & C3 & _ & _ & _ & _ & _ & C)].
        * split; [intros K; right; split; [exact K|discriminate]|]. intros [(w' & f' & E & <- & <- & H3 & H4)|[K _]]; [|exact K]. injection E as <- <-.
          destruct C as [C|C]; [contradict C; split; assumption|exact C].
        * rewrite C. split.
          -- intros [[-> ->]|K]; [left; exists w, f; auto|right; split; [exact K|discriminate]].
          -- intros [(w' & f' & E & <- & <- & _)|[K _]]; [injection E as <- <-; left; auto|right; exact K].
      + split; [intros K; right; split; [exact K|discriminate]|intros [(w & f' & E & _)|[K _]]; [discriminate|exact K]].
      + unfold known, mark_complete. cbn [g_known]. split.
        * intros (v & E & Hv). apply lookup_delete_Some in E. destruct E as [Ne E]. right. split; [eauto|congruence].
        * intros [(w & f & E & _)|[(v & E & Hv) Ne]]; [discriminate|]. exists v. rewrite lookup_delete_ne by congruence. auto.
      + split; [intros K; right; split; [exact K|discriminate]|intros [(w & f' & E & _)|[K _]]; [discriminate|exact K]].
      + split; [intros K; right; split; [exact K|discriminate]|intros [(w & f' & E & _)|[K _]]; [discriminate|exact K]].
  Qed.

  (** ** C170: which witnesses are taken *)
  Theorem C170_exact ops act now w f : let s := run gstep ops (gnew act now) in
    snd (validate s (Some w) f) = true <->
    List.In (w_auth w) (actives act ops) /\ verifies (w_auth w) (w_sig w) (w_digest w) = true /\ f <= w_block w + 90 /\ ~ heard act ops (w_event w) (w_auth w).
  Proof.
    cbv zeta. pose proof (ginv_run verifies ops act now) as I.
    pose proof (actives_run ops (gnew act now) (ginv_run verifies [] act now)) as A. cbn [gnew g_active] in A. rewrite <- A.
    rewrite <- (known_heard ops act now). set (s := run gstep ops (gnew act now)) in *. clearbody s.
    assert (T : negb (too_old w f) = true <-> f <= w_block w + 90) by (unfold too_old, WINDOW; rewrite negb_true_iff, N.ltb_ge; lia).
    destruct (validate_cases verifies s w f I) as [(_ & -> & C)|((C1 & C2) & C3 & -> & _)].
    - split; [discriminate|]. intros (H1 & H2 & _ & H4). destruct C as [C|C]; [contradict C; split; assumption|contradiction].
    - rewrite T. tauto.
  Qed.
  (** Everything else leaves no trace. *)
  Theorem C170_no_trace ops act now m f : let s := run gstep ops (gnew act now) in
    (forall w, m = Some w -> ~ (List.In (w_auth w) (actives act ops) /\ verifies (w_auth w) (w_sig w) (w_digest w) = true)) ->
    validate s m f = (s, false).
  Proof.
    cbv zeta. intros H. destruct m as [w|]; [|reflexivity]. specialize (H w eq_refl). pose proof (ginv_run verifies ops act now) as I.
    pose proof (actives_run ops (gnew act now) (ginv_run verifies [] act now)) as A. cbn [gnew g_active] in A. rewrite <- A in H.
    destruct (validate_cases verifies _ w f I) as [(E1 & E2 & _)|(C & _)]; [|contradiction].
    rewrite (surjective_pairing (validate _ _ _)), E1, E2. reflexivity.
  Qed.
  (** The table holds what was heard, each validator once. *)
  Theorem C170_table ops act now e v : g_known (run gstep ops (gnew act now)) !! e = Some v ->
    List.NoDup v /\ forall a, List.In a v <-> heard act ops e a.
  Proof.
    intros E. split; [exact (sorted_nodup v (gi_known _ (ginv_run verifies ops act now) e v E))|]. intros a. rewrite <- (known_heard ops act now). unfold known.
    split; [eauto|]. intros (v' & E' & H). congruence.
  Qed.

  (** ** C171: what is complete is no longer passed on *)
  Lemma done_iff s e : ginv s -> (match bsearch (g_done s) e with inl _ => true | inr _ => false end = true) <-> List.In e (g_done s).
  Proof. intros I. rewrite <- (bsearch_in (g_done s) e (gi_done s I)). destruct (bsearch (g_done s) e); split; eauto; [discriminate|intros [? X]; discriminate]. Qed.
  Theorem C171_expired ops act now w f : let s := run gstep ops (gnew act now) in
    expired s (Some w) f = true <-> w_block w + 90 < f \/ List.In (w_event w) (g_done s).
  Proof.
    cbv zeta. cbn [expired]. rewrite orb_true_iff, (done_iff _ _ (ginv_run verifies ops act now)). unfold too_old, WINDOW. rewrite N.ltb_lt.
    split; (intros [H|H]; [left; lia|right; exact H]).
  Qed.
  Theorem C171_allowed s now f m : snd (allowed s now f [(false, m)]) = [negb (expired s m f)].
  Proof.
    destruct m as [w|]; [|reflexivity]. unfold allowed, allowed1, expired. cbn [map fst snd]. rewrite negb_orb. destruct (bsearch _ _); reflexivity.
  Qed.
  Definition completions (ops : list gop) : list N := flat_map (fun o => match o with GComplete e => [e] | _ => [] end) ops.
  Lemma completions_app a b : completions (a ++ b) = completions a ++ completions b.
  Proof. apply flat_map_app. Qed.
  Lemma done_step s o : ginv s -> completions [o] = [] -> g_done (gstep s o) = g_done s.
  Proof.
    intros I H. destruct o as [[w|] f|e|l|n f l]; try reflexivity; [|discriminate]. cbn [GossipModel.gstep].
    destruct (validate_cases verifies s w f I) as [(-> & _)|(_ & _ & _ & _ & -> & _)]; reflexivity.
  Qed.
  Lemma completions_one o : completions [o] = [] \/ exists e, o = GComplete e.
  Proof. destruct o; cbn; eauto. Qed.
  (** At most 500, all of them completed, none twice. *)
  Theorem C171_sound ops act now : let s := run gstep ops (gnew act now) in
    (length (g_done s) <= 500)%nat /\ List.NoDup (g_done s) /\ forall e, List.In e (g_done s) -> List.In e (completions ops).
  Proof.
    cbv zeta. split; [exact (gi_size _ (ginv_run verifies ops act now))|]. split; [exact (sorted_nodup _ (gi_done _ (ginv_run verifies ops act now)))|].
    induction ops as [|o ops IH] using rev_ind; intros e He; [destruct He|]. rewrite run_app in He. cbn [run fold_left] in He. rewrite completions_app, in_app_iff.
    pose proof (ginv_run verifies ops act now) as I. destruct (completions_one o) as [C|[e' ->]].
    - rewrite (done_step _ _ I C) in He. left. exact (IH e He).
    - cbn [GossipModel.gstep] in He. apply (proj2 (complete_done verifies _ e' I)) in He. destruct He as [->|He]; [right; left; reflexivity|]. left. apply IH.
      destruct (Nat.leb _ _); [|exact He]. destruct (g_done _); [destruct He|right; exact He].
  Qed.
  (** Up to 500 completions are all remembered. *)
  Theorem C171_remembered ops act now e : (length (completions ops) <= 500)%nat ->
    List.In e (g_done (run gstep ops (gnew act now))) <-> List.In e (completions ops).
  Proof.
    intros L. split; [apply C171_sound|]. revert L e.
    enough (G : (length (completions ops) <= 500)%nat -> (length (g_done (run gstep ops (gnew act now))) <= length (completions ops))%nat /\
      forall e, List.In e (completions ops) -> List.In e (g_done (run gstep ops (gnew act now)))) by (intros L; apply G; exact L).
    induction ops as [|o ops IH] using rev_ind; intros L; [split; [cbn; lia|intros e []]|]. rewrite completions_app, app_length in L. specialize (IH ltac:(lia)). destruct IH as [IH1 IH2].
    rewrite run_app, completions_app, app_length. cbn [run fold_left]. pose proof (ginv_run verifies ops act now) as I. set (s := run gstep ops (gnew act now)) in *. clearbody s.
    destruct (completions_one o) as [C|[e' ->]].
    - unfold run in *. rewrite (done_step _ _ I C), C. cbn [length]. split; [lia|]. intros e He. rewrite app_nil_r in He. exact (IH2 e He).
    - cbn [completions flat_map app length] in *. cbn [GossipModel.gstep].
      pose proof (proj2 (complete_done verifies s e' I)) as D.
      assert (Q : Nat.leb CACHE (length (g_done s)) = false) by (apply Nat.leb_gt; unfold CACHE; lia).
      split.
      + unfold mark_complete. cbv zeta. rewrite Q. cbn [g_done]. pose proof (bsearch_spec (g_done s) e' (gi_done s I)) as B. destruct (bsearch (g_done s) e'); [lia|]. rewrite insert_at_length by apply B. lia.
      + rewrite Q in D. intros e He. apply D. rewrite in_app_iff in He. destruct He as [He|[->|[]]]; auto.
  Qed.
  (** Completed in the order of their ids, the last 500 are remembered. *)
  Definition last_n (n : nat) (l : list N) : list N := skipn (length l - n) l.
  Theorem C171_in_order ops act now : sorted (completions ops) -> g_done (run gstep ops (gnew act now)) = last_n 500 (completions ops).
  Proof.
    induction ops as [|o ops IH] using rev_ind; intros S; [reflexivity|]. rewrite run_app, completions_app in *. cbn [run fold_left] in *.
    pose proof (ginv_run verifies ops act now) as I. set (s := run gstep ops (gnew act now)) in *. clearbody s.
    destruct (completions_one o) as [C|[e ->]].
    - unfold run. rewrite (done_step _ _ I C), C, app_nil_r in *. exact (IH S).
    - change (completions [GComplete e]) with [e] in *. set (cs := completions ops) in *. clearbody cs.
      assert (S1 : sorted cs).
      { intros i j H. specialize (S i j). rewrite app_length in S. cbn in S. specialize (S ltac:(lia)). rewrite !app_nth1 in S by lia. exact S. }
      assert (S2 : forall x, List.In x cs -> x < e).
      { intros x Hx. destruct (In_nth cs x 0 Hx) as (i & Hi & <-). specialize (S i (length cs)). rewrite app_length in S. cbn in S. specialize (S ltac:(lia)).
        rewrite app_nth1 in S by lia. rewrite app_nth2, Nat.sub_diag in S by lia. exact S. }
      specialize (IH S1). cbn [GossipModel.gstep]. unfold mark_complete. cbv zeta. cbn [g_done].
      set (c := if Nat.leb CACHE (length (g_done s)) then tail (g_done s) else g_done s).
      assert (Hc : c = last_n 499 cs).
      { unfold c. rewrite IH. unfold last_n. rewrite skipn_length. destruct (Nat.leb_spec CACHE (length cs - (length cs - 500))) as [L|L]; unfold CACHE in L.
        - replace (length cs - 499)%nat with ((length cs - 500) + 1)%nat by lia. rewrite <- drop_drop. destruct (skipn (length cs - 500) cs); reflexivity.
        - replace (length cs - 499)%nat with 0%nat by lia. replace (length cs - 500)%nat with 0%nat by lia. reflexivity. }
      assert (Sc : sorted c) by (unfold c; destruct (Nat.leb _ _); [apply sorted_tail|]; exact (gi_done s I)).
      assert (Lt : forall x, List.In x c -> x < e).
      { intros x Hx. apply S2. rewrite Hc in Hx. unfold last_n in Hx. rewrite <- (firstn_skipn (length cs - 499) cs). rewrite in_app_iff. right. exact Hx. }
      pose proof (bsearch_spec c e Sc) as B. destruct (bsearch c e) as [i|i].
      + destruct B as [B1 B2]. pose proof (Lt _ (nth_In c 0 B1)). lia.
      + destruct B as (B1 & _ & B3). assert (i = length c).
        { destruct (Nat.eq_dec i (length c)) as [E|Ne]; [exact E|]. specialize (B3 i ltac:(lia)). assert (Hi : (i < length c)%nat) by lia. pose proof (Lt _ (nth_In c 0 Hi)). lia. }
        subst i. unfold insert_at. rewrite firstn_all, skipn_all, Hc. unfold last_n. rewrite app_length. cbn [length].
        replace (length cs + 1 - 500)%nat with (length cs - 499)%nat by lia. rewrite skipn_app. f_equal.
        replace (length cs - 499 - length cs)%nat with 0%nat by lia. reflexivity.
  Qed.
  (** One is forgotten only as the smallest of 500, when another completion comes. *)
  Theorem C171_forgets ops act now o e : let s := run gstep ops (gnew act now) in
    List.In e (g_done s) -> ~ List.In e (g_done (gstep s o)) ->
    length (g_done s) = 500%nat /\ (forall x, List.In x (g_done s) -> e <= x) /\ exists e', o = GComplete e'.
  Proof.
    cbv zeta. intros H H'. pose proof (ginv_run verifies ops act now) as I. set (s := run gstep ops (gnew act now)) in *. clearbody s.
    destruct (completions_one o) as [C|[e' ->]]; [rewrite (done_step _ _ I C) in H'; contradiction|]. cbn [GossipModel.gstep] in H'.
    assert (N1 : ~ List.In e (if Nat.leb CACHE (length (g_done s)) then tail (g_done s) else g_done s)).
    { intros X. apply H'. apply (proj2 (complete_done verifies s e' I)). right. exact X. }
    destruct (Nat.leb_spec CACHE (length (g_done s))) as [L|L]; [|contradiction]. pose proof (gi_size s I). unfold CACHE in *.
    split; [lia|]. split; [|eauto]. destruct (g_done s) as [|y l] eqn:E; [destruct H|]. cbn [tail] in N1. destruct H as [->|H]; [|contradiction].
    intros x [->|Hx]; [lia|]. destruct (In_nth l x 0 Hx) as (i & Hi & <-). pose proof (gi_done s I) as D. rewrite E in D. specialize (D 0%nat (S i)). cbn in D. specialize (D ltac:(lia)). lia.
  Qed.

  (** ** C172: witnesses of others cannot be suppressed *)
  (** As long as nothing signed by [a] was received under the event's id since its last completion, the witness gets
      through. *)
  Theorem C172_first ops act now w f : let s := run gstep ops (gnew act now) in
    List.In (w_auth w) (actives act ops) -> verifies (w_auth w) (w_sig w) (w_digest w) = true -> f <= w_block w + 90 ->
    (forall o1 w' f' o2, ops = o1 ++ GHear (Some w') f' :: o2 -> w_event w' = w_event w -> w_auth w' = w_auth w ->
       verifies (w_auth w) (w_sig w') (w_digest w') = true -> List.In (GComplete (w_event w)) o2) ->
    snd (validate s (Some w) f) = true.
  Proof.
    cbv zeta. intros H1 H2 H3 H4. apply C170_exact. repeat (split; [assumption|]). intros (o1 & w' & f' & o2 & E & E1 & E2 & _ & E3 & E4). apply E4. exact (H4 o1 w' f' o2 E E1 E2 E3).
  Qed.
  Lemma heard_after act ops w f : List.In (w_auth w) (actives act ops) -> verifies (w_auth w) (w_sig w) (w_digest w) = true ->
    heard act (ops ++ [GHear (Some w) f]) (w_event w) (w_auth w).
  Proof. intros H1 H2. apply heard_snoc. left. exists w, f. auto. Qed.
  (** Any signature of a validator, on whatever digest, blocks its witness for any event: sent under that event's id, and
      even with a block number for which it is thrown away itself. *)
  Theorem C172_replay_refuted ops act now a sig digest : List.In a (actives act ops) -> verifies a sig digest = true ->
    forall w f, w_auth w = a -> forall b, exists m, w_sig m = sig /\ w_digest m = digest /\ w_auth m = a /\ w_block m = b /\
      snd (validate (run gstep (ops ++ [GHear (Some m) f]) (gnew act now)) (Some w) f) = false.
  Proof.
    intros H1 H2 w f Ha b. exists (Wit digest (w_event w) a sig b). cbn. repeat (split; [reflexivity|]).
    destruct (snd _) eqn:E; [|reflexivity]. exfalso. apply C170_exact in E. destruct E as (_ & _ & _ & E). apply E. rewrite Ha.
    exact (heard_after act ops (Wit digest (w_event w) a sig b) f H1 H2).
  Qed.
  Theorem C172_thrown_away_refuted ops act now a sig digest : List.In a (actives act ops) -> verifies a sig digest = true ->
    forall w f, w_auth w = a -> 90 < f -> exists m, w_sig m = sig /\ w_digest m = digest /\
      snd (validate (run gstep ops (gnew act now)) (Some m) f) = false /\
      snd (validate (run gstep (ops ++ [GHear (Some m) f]) (gnew act now)) (Some w) f) = false.
  Proof.
    intros H1 H2 w f Ha Hf. destruct (C172_replay_refuted ops act now a sig digest H1 H2 w f Ha 0) as (m & M1 & M2 & M3 & M4 & M5). exists m.
    repeat (split; [assumption|]). split; [|exact M5]. destruct (snd (validate _ (Some m) f)) eqn:E; [|reflexivity]. apply C170_exact in E. lia.
  Qed.
  (** One signature is enough to fill the table without bound, every message being passed on to the peers. *)
  Theorem C172_flood_refuted a sig digest f n : verifies a sig digest = true -> let s0 := gnew [a] 0 in
    exists ms, length ms = n /\ (forall m, List.In m ms -> w_auth m = a /\ w_sig m = sig /\ w_digest m = digest) /\
      size (g_known (run gstep (map (fun m => GHear (Some m) f) ms) s0)) = n /\
      forall i m, nth_error ms i = Some m -> snd (validate (run gstep (map (fun m => GHear (Some m) f) (firstn i ms)) s0) (Some m) f) = true.
  Proof.
    intros Hv. cbv zeta. set (msg := fun i => Wit digest (N.of_nat i) a sig f). exists (map msg (seq 0 n)).
    assert (K : forall k, (forall e, is_Some (g_known (run gstep (map (fun m => GHear (Some m) f) (map msg (seq 0 k))) (gnew [a] 0)) !! e) <-> (e < N.of_nat k)) /\
      size (g_known (run gstep (map (fun m => GHear (Some m) f) (map msg (seq 0 k))) (gnew [a] 0))) = k /\
      g_active (run gstep (map (fun m => GHear (Some m) f) (map msg (seq 0 k))) (gnew [a] 0)) = [a] /\
      snd (validate (run gstep (map (fun m => GHear (Some m) f) (map msg (seq 0 k))) (gnew [a] 0)) (Some (msg k)) f) = true).
    { enough (G : forall k, (forall e, is_Some (g_known (run gstep (map (fun m => GHear (Some m) f) (map msg (seq 0 k))) (gnew [a] 0)) !! e) <-> (e < N.of_nat k)) /\
        size (g_known (run gstep (map (fun m => GHear (Some m) f) (map msg (seq 0 k))) (gnew [a] 0))) = k /\
        g_active (run gstep (map (fun m => GHear (Some m) f) (map msg (seq 0 k))) (gnew [a] 0)) = [a]).
      { intros k. destruct (G k) as (G1 & G2 & G3). repeat (split; [assumption|]).
        set (s := run gstep _ _) in *. clearbody s. assert (E : g_known s !! N.of_nat k = None).
        { destruct (g_known s !! N.of_nat k) eqn:E; [|reflexivity]. specialize (proj1 (G1 (N.of_nat k))). rewrite E. intros X. specialize (X (mk_is_Some _ _ eq_refl)). lia. }
        cbn [GossipModel.validate msg w_event w_auth w_sig w_digest]. rewrite E, G3. cbn [option_map existsb]. rewrite N.eqb_refl. cbn [orb negb]. rewrite Hv. cbn [snd].
        unfold too_old, WINDOW. cbn [w_block msg]. rewrite negb_true_iff, N.ltb_ge. lia. }
      induction k as [|k (I1 & I2 & I3)].
      - cbn. split; [|split; [apply map_size_empty|reflexivity]]. intros e. rewrite lookup_empty. split; [intros [x X]; discriminate|lia].
      - rewrite seq_S, !map_app, run_app. cbn [map run fold_left Nat.add]. set (s := run gstep _ _) in *. clearbody s. unfold run in *.
        assert (E : g_known s !! N.of_nat k = None).
        { destruct (g_known s !! N.of_nat k) eqn:E; [|reflexivity]. specialize (proj1 (I1 (N.of_nat k))). rewrite E. intros X. specialize (X (mk_is_Some _ _ eq_refl)). lia. }
        cbn [GossipModel.gstep GossipModel.validate msg w_event w_auth w_sig w_digest]. rewrite E, I3. cbn [option_map existsb]. rewrite N.eqb_refl. cbn [orb negb]. rewrite Hv.
        cbn [fst with_known g_known g_active]. split; [|split; [rewrite map_size_insert_None by exact E; rewrite I2; reflexivity|exact I3]].
        intros e. destruct (N.eq_dec e (N.of_nat k)) as [->|Ne].
        + rewrite lookup_insert. split; [lia|eauto].
        + rewrite lookup_insert_ne by congruence. rewrite I1. lia. }
    split; [rewrite map_length, seq_length; reflexivity|]. split.
    { intros m Hm. apply in_map_iff in Hm. destruct Hm as (i & <- & _). cbn. auto. }
    split; [apply K|]. intros i m Hi.
    assert (Hn : (i < n)%nat) by (rewrite <- (seq_length n 0), <- (map_length msg (seq 0 n)); apply nth_error_Some; congruence).
    rewrite nth_error_map in Hi. rewrite (nth_error_nth' _ 0%nat) in Hi by (rewrite seq_length; exact Hn). rewrite seq_nth in Hi by exact Hn. cbn in Hi. injection Hi as <-.
    rewrite firstn_map. assert (F : firstn i (seq 0 n) = seq 0 i).
    { replace n with (i + (n - i))%nat by lia. rewrite seq_app, firstn_app, seq_length, Nat.sub_diag. cbn [firstn]. rewrite app_nil_r. rewrite <- (seq_length i 0) at 1. apply firstn_all. }
    rewrite F. apply K.
  Qed.

  (** ** C173: sending again, every three minutes *)
  Definition granted (s : gst) (now f : N) : Prop := forall m, snd (allowed s now f [(true, m)]) = [true].
  Lemma granted_iff s now f : granted s now f <-> g_next s <= now.
  Proof. unfold granted. cbn. unfold allowed1. cbn. rewrite <- N.leb_le. split; [intros H; specialize (H None); congruence|intros -> m; reflexivity]. Qed.
  Lemma next_mono s o : g_next s <= g_next (gstep s o).
  Proof.
    destruct o as [[w|] f|e|l|n f l]; cbn [GossipModel.gstep]; try (cbn; lia).
    - unfold GossipModel.validate. cbv zeta. destruct (option_map _ _) as [[v [i|i]]|]; cbn; repeat destruct (negb _); repeat destruct (verifies _ _ _); cbn; lia.
    - cbn. destruct (N.leb_spec (g_next s) n); unfold AGAIN; lia.
  Qed.
  Lemma next_run ops s : g_next s <= g_next (run gstep ops s).
  Proof. revert s. induction ops as [|o ops IH]; intros s; [cbn; lia|]. cbn. etransitivity; [apply next_mono|apply IH]. Qed.
  (** Never twice within three minutes, nor in the first three. *)
  Theorem C173_spaced act t0 o1 n1 f1 l1 o2 n2 f2 : let s1 := run gstep o1 (gnew act t0) in let s2 := run gstep (o1 ++ GSend n1 f1 l1 :: o2) (gnew act t0) in
    granted s1 n1 f1 -> granted s2 n2 f2 -> t0 + 180 <= n1 /\ n1 + 180 <= n2.
  Proof.
    cbv zeta. rewrite !granted_iff, run_app. cbn [run fold_left]. intros H1 H2. pose proof (next_run o1 (gnew act t0)) as M. cbn [gnew g_next] in M. unfold AGAIN in M.
    set (s1 := run gstep o1 (gnew act t0)) in *. clearbody s1. split; [lia|].
    pose proof (next_run o2 (gstep s1 (GSend n1 f1 l1))) as M2. unfold run in *. cbn [GossipModel.gstep allowed fst g_next] in M2, H2. destruct (N.leb_spec (g_next s1) n1); unfold AGAIN in *; lia.
  Qed.
  (** Three minutes after the last round of sending, of whatever kind, it happens. *)
  Theorem C173_due act t0 ops t now f : (forall n f l, List.In (GSend n f l) ops -> n <= t) -> t0 + 180 <= now -> t + 180 <= now ->
    granted (run gstep ops (gnew act t0)) now f.
  Proof.
    intros Ht H0 H1. apply granted_iff. enough (G : forall s, g_next s <= now -> g_next (run gstep ops s) <= now) by (apply G; cbn; unfold AGAIN; lia).
    induction ops as [|o ops IH]; intros s Hs; [exact Hs|]. cbn. apply IH; [intros n g l Hl; apply (Ht n g l); right; exact Hl|].
    destruct o as [[w|] g|e|l|n g l]; cbn [GossipModel.gstep]; try exact Hs.
    - unfold GossipModel.validate. cbv zeta. destruct (option_map _ _) as [[v [i|i]]|]; cbn; repeat destruct (negb _); repeat destruct (verifies _ _ _); cbn; exact Hs.
    - cbn. specialize (Ht n g l (or_introl eq_refl)). destruct (g_next s <=? n); unfold AGAIN; lia.
  Qed.
  (** Sending a single new witness each time just before takes the turn: nothing is ever sent again. *)
  Fixpoint busy (k : nat) (f : N) (w : witness) : list gop :=
    match k with
    | O => []
    | S k' => busy k' f w ++ [GSend (N.of_nat k * 180) f [(false, Some w)]; GSend (N.of_nat k * 180 + 1) f [(true, Some w)]]
    end.
  Theorem C173_starved_refuted act f w k n l : List.In (GSend n f l) (busy k f w) -> List.In (true, Some w) l ->
    exists o1 o2, busy k f w = o1 ++ GSend n f l :: o2 /\ snd (allowed (run gstep o1 (gnew act 0)) n f l) = [false].
  Proof.
    assert (G : forall k, g_next (run gstep (busy k f w) (gnew act 0)) = N.of_nat (S k) * 180).
    { induction k0 as [|k0 IH]; [reflexivity|]. cbn [busy]. rewrite run_app. set (s := run gstep (busy k0 f w) (gnew act 0)) in *. clearbody s.
      rewrite !Nat2N.inj_succ in *. cbn [run fold_left GossipModel.gstep allowed fst g_next]. rewrite IH, N.leb_refl. unfold AGAIN. destruct (N.leb_spec (N.succ (N.of_nat k0) * 180 + 180) (N.succ (N.of_nat k0) * 180 + 1)); lia. }
    induction k as [|k IH]; intros H Hl; [destruct H|]. cbn [busy] in *. rewrite in_app_iff in H. destruct H as [H|[H|[H|[]]]].
    - destruct (IH H Hl) as (o1 & o2 & -> & E). eexists o1, _. split; [rewrite <- app_assoc; reflexivity|exact E].
    - injection H as <- <-. destruct Hl as [X|[]]. discriminate.
    - injection H as <- <-. exists (busy k f w ++ [GSend (N.of_nat (S k) * 180) f [(false, Some w)]]), []. split; [rewrite <- app_assoc; reflexivity|].
      rewrite run_app. specialize (G k). set (s := run gstep (busy k f w) (gnew act 0)) in *. clearbody s.
      cbn [run fold_left GossipModel.gstep allowed fst snd g_next map]. rewrite G, N.leb_refl. unfold allowed1, AGAIN. cbn [fst]. f_equal. apply N.leb_gt. lia.
  Qed.
End props.

(** ** Concrete cases: a signature is the sum of key and digest *)
Definition vf (a sig d : N) : bool := sig =? a + d.
Definition gs := gstep vf.
Definition wit (d e a b : N) : witness := Wit d e a (a + d) b.
(** Validators 5, 3 and 9 for event 7; a stranger, a bad signature, a repetition; completed and taken again. *)
Definition g_ops : list gop :=
  [GHear (Some (wit 100 7 5 1000)) 1010; GHear (Some (wit 100 7 3 1000)) 1010; GHear (Some (wit 100 7 4 1000)) 1010; GHear (Some (Wit 100 7 9 1 1000)) 1010].
Example C170_example : let s := run gs g_ops (gnew [3; 5; 9] 0) in
  g_known s !! 7 = Some [3; 5] /\ snd (validate vf s (Some (wit 100 7 9 1000)) 1010) = true /\ snd (validate vf s (Some (wit 100 7 5 1000)) 1010) = false /\
  snd (validate vf s (Some (wit 100 7 9 1000)) 1091) = false /\ snd (validate vf (gs s (GComplete 7)) (Some (wit 100 7 5 1000)) 1010) = true.
Proof. vm_compute. auto. Qed.
Fixpoint upto (k : nat) : list gop := match k with O => [] | S k' => upto k' ++ [GComplete (N.of_nat k)] end.
Example C171_example : let s := run gs (upto 510) (gnew [3; 5; 9] 0) in
  length (g_done s) = 500%nat /\ expired s (Some (wit 100 10 5 1000)) 1010 = false /\ expired s (Some (wit 100 11 5 1000)) 1010 = true /\
  snd (allowed s 0 1010 [(false, Some (wit 100 10 5 1000)); (false, Some (wit 100 11 5 1000)); (false, None)]) = [true; false; false].
Proof. vm_compute. auto. Qed.
(** The second last completed event is forgotten if its id is small, and its witnesses are passed on again. *)
Theorem C171_latest_refuted : exists ops e e', let s := run gs (ops ++ [GComplete e; GComplete e']) (gnew [3; 5; 9] 0) in
  ~ List.In e (g_done s) /\ expired s (Some (wit 100 e 5 1000)) 1010 = false /\ snd (validate vf s (Some (wit 100 e 5 1000)) 1010) = true.
Proof.
  exists (upto 510), 2, 511. cbv zeta. assert (E : existsb (N.eqb 2) (g_done (run gs (upto 510 ++ [GComplete 2; GComplete 511]) (gnew [3; 5; 9] 0))) = false) by (vm_compute; reflexivity).
  split; [|vm_compute; auto]. intros X. rewrite <- not_true_iff_false in E. apply E. apply existsb_exists. exists 2. split; [exact X|reflexivity].
Qed.
(** Of 500 events completed in all, one is forgotten when another is reported complete again. *)
Theorem C171_again_refuted : exists ops e e', let s := run gs (ops ++ [GComplete e']) (gnew [3; 5; 9] 0) in
  List.In (GComplete e) ops /\ List.In (GComplete e') ops /\ length (completions ops) = 500%nat /\ expired s (Some (wit 100 e 5 1000)) 1010 = false.
Proof.
  exists (upto 500), 1, 500. cbv zeta. assert (H : forall k i, (0 < i <= k)%nat -> List.In (GComplete (N.of_nat i)) (upto k)).
  { induction k as [|k IH]; intros i Hi; [lia|]. cbn [upto]. rewrite in_app_iff. destruct (Nat.eq_dec i (S k)) as [->|]; [right; left; reflexivity|left; apply IH; lia]. }
  split; [apply (H 500%nat 1%nat); lia|]. split; [apply (H 500%nat 500%nat); lia|]. vm_compute. auto.
Qed.
Example C172_example : snd (validate vf (gnew [3; 5; 9] 0) (Some (wit 100 7 5 1000)) 1010) = true /\
  snd (validate vf (run gs [GHear (Some (wit 55 7 5 0)) 1010] (gnew [3; 5; 9] 0)) (Some (wit 100 7 5 1000)) 1010) = false.
Proof. vm_compute. auto. Qed.
Example C173_example : snd (allowed (gnew [] 0) 180 10 [(true, None)]) = [true] /\ snd (allowed (run gs [GSend 180 10 []] (gnew [] 0)) 359 10 [(true, None)]) = [false] /\
  length (busy 3 10 (wit 1 2 3 4)) = 6%nat.
Proof. vm_compute. auto. Qed.

Definition gossip_theorems := (C170_exact, C170_no_trace, C170_table, C171_expired, C171_allowed, C171_sound, C171_remembered, C171_in_order, C171_forgets,
  C171_latest_refuted, C171_again_refuted, C172_first, C172_replay_refuted, C172_thrown_away_refuted, C172_flood_refuted, C173_spaced, C173_due, C173_starved_refuted).
Print Assumptions gossip_theorems.
