(** Property C201: a proof asked for is made once enough notaries' nodes follow the chain. *)
From Coq Require Import Sorting.Sorted.
From Verif Require Import WitnessModel WitnessProofs WitnessWorker WitnessProps NetModel NetProofs.
From Verif Require FinalModel FinalProps.

Definition is_own (o : wop) : bool := match o with WGossip _ => false | _ => true end.

Section spec.
  Variable digest_of : chain -> N -> N -> option N.
  Variable verify : N -> N -> N -> bool.
  Variable sign : N -> N -> N.
  Variable zero : N.
  (** The finalised chain and its notaries, with the XRPL signers. *)
  Variable blk : N -> FinalModel.header.
  Variable S0 : FinalModel.aset.
  Variables V X : vset.

  (** The node is told of finalised blocks, some at or above [m], having started below; database and runtime answer. *)
  Definition follows (m : N) (n : node) : Prop :=
    Forall (FinalProps.sound blk) (heard n) /\ Forall (FinalProps.served blk (fun _ => S0)) (heard n) /\
    since n < m /\ exists t, In t (heard n) /\ m <= FinalModel.num (FinalModel.what t).
  (** It is the node of the notary with key [k]. *)
  Definition notary (k : N) (n : node) : Prop :=
    keys n k = true /\ In k (vals V) /\ forall k', In k' (vals V) -> keys n k' = true -> k' = k.

  Section proof.
    Hypothesis C : FinalProps.chained blk.
    Hypothesis HV : FinalModel.akeys S0 = vals V.

    Lemma max_ge (l : list FinalModel.notice) : forall b t, In t l ->
      FinalModel.num (FinalModel.what t) <= fold_left (fun b n => N.max b (FinalModel.num (FinalModel.what n))) l b.
    Proof.
      assert (M : forall (l : list FinalModel.notice) b, b <= fold_left (fun b n => N.max b (FinalModel.num (FinalModel.what n))) l b).
      { clear l. induction l as [|n l IH]; intros b; cbn [fold_left]; [lia|]. specialize (IH (N.max b (FinalModel.num (FinalModel.what n)))). lia. }
      induction l as [|n l IH]; intros b t []; cbn [fold_left].
      - subst n. specialize (M l (N.max b (FinalModel.num (FinalModel.what t)))). lia.
      - apply IH; assumption.
    Qed.
    Lemma wanted_in b k m q : b <= m -> m < b + N.of_nat k -> In q (FinalProps.requests (blk m)) ->
      In (FinalModel.hash (blk m), q) (FinalProps.wanted blk b k).
    Proof.
      intros L. induction k as [|k IH]; intros U I; [lia|]. cbn [FinalProps.wanted]. apply in_or_app.
      destruct (N.eq_dec m (b + N.of_nat k)) as [->|E]; [right|left; apply IH; [lia|exact I]].
      apply in_map_iff. eauto.
    Qed.
    (** What a node that follows has handled. *)
    Lemma log_wanted n m : follows m n -> exists k,
      map (fun x => (FinalModel.hblock x, FinalModel.hask x)) (log n) = FinalProps.wanted blk (since n + 1) k /\ m < since n + 1 + N.of_nat k.
    Proof.
      intros (Sn & _ & L & t & T & U). destruct (FinalProps.C198_all (keys n) blk (fun _ => S0) (since n) (heard n) C Sn) as [_ W].
      unfold FinalProps.seen in W. eexists. split; [exact W|]. pose proof (max_ge (heard n) (since n) t T). lia.
    Qed.
    Lemma log_has n m q : follows m n -> In q (FinalProps.requests (blk m)) ->
      exists x, In x (log n) /\ FinalModel.hask x = q.
    Proof.
      intros F I. destruct (log_wanted n m F) as (k & W & U).
      assert (J : In (FinalModel.hash (blk m), q) (FinalProps.wanted blk (since n + 1) k)).
      { apply wanted_in; auto. destruct F as (_ & _ & L & _). lia. }
      rewrite <- W in J. apply in_map_iff in J. destruct J as (x & E & J). exists x. split; [exact J|]. congruence.
    Qed.
    Lemma log_right n m x : follows m n -> In x (log n) ->
      match FinalModel.hkey x with Some k => In k (vals V) /\ keys n k = true | None => forall k, In k (vals V) -> keys n k = false end.
    Proof.
      intros (Sn & A & _) I. apply in_rev in I.
      assert (G : FinalProps.governed blk (fun _ => S0)) by (intros j; split; reflexivity).
      pose proof (FinalProps.C198_set (keys n) blk (fun _ => S0) (since n) (heard n) C G Sn A) as R.
      rewrite Forall_forall in R. destruct (R x (proj2 (elem_of_list_In _ _) I)) as (j & _ & _ & _ & K). rewrite HV in K. exact K.
    Qed.
    Lemma own_announced ops : announced ops = announced (List.filter is_own ops).
    Proof. induction ops as [|[] ops IH]; cbn [announced flat_map List.filter is_own]; [reflexivity| | | |]; unfold announced in *; cbn [flat_map announces app]; rewrite IH; reflexivity. Qed.
    Lemma does_announced l : announced (map (does digest_of sign) l) = map (fun x => FinalModel.aevent (FinalModel.hask x)) l.
    Proof.
      induction l as [|x l IH]; [reflexivity|]. unfold announced in *. cbn [map flat_map]. rewrite IH.
      unfold does. destruct (FinalModel.hkey x); reflexivity.
    Qed.
    Lemma NoDup_inj {A} (f : A -> N) l : NoDup (map f l) -> forall x y, In x l -> In y l -> f x = f y -> x = y.
    Proof.
      induction l as [|a l IH]; intros D x y [] I E; try contradiction; cbn [map] in D; apply NoDup_cons in D; destruct D as [D1 D2].
      - destruct I as [I|I]; [congruence|]. subst. exfalso. apply D1. rewrite E. apply elem_of_list_In, in_map, I.
      - destruct I as [I|I]; [|apply IH; auto]. subst. exfalso. apply D1. rewrite <- E. apply elem_of_list_In, in_map. assumption.
    Qed.
  End proof.

  (** Block [m] asks for a proof of [q]; the ids of events are distinct; keys of notaries sign validly, and digests can be made.
      [ns] are the nodes of as many notaries as the chain needs, each on its own and with whatever notifications; they and
      the node [o] follow past block [m].  What [o] does on its own is what its notifications give, in their order; the
      witnesses sent by [ns] reach it at any time among them, and with them whatever else others send. *)
  Definition running (m : N) (q : FinalModel.ask) (o : node) (ns : list (N * node)) (ops : list wop) : Prop :=
    let c := chain_of (FinalModel.achain q) in
    FinalProps.chained blk /\ FinalModel.akeys S0 = vals V /\ 1 <= thr V /\ 1 <= thr X /\
    (forall b k, NoDup (map (fun p => FinalModel.aevent (snd p)) (FinalProps.wanted blk b k))) /\
    (forall k dg, In k (vals V) -> verify k (sign k dg) dg = true) /\
    (forall k, k = zero \/ In k (vals V) -> digest_of c (FinalModel.adata q) k <> None) /\
    In q (FinalProps.requests (blk m)) /\
    NoDup (map fst ns) /\ needed V X c <= N.of_nat (length ns) /\
    (forall k n, In (k, n) ns -> follows m n /\ notary k n /\ counts_for V X c k) /\
    follows m o /\
    List.filter is_own ops = map (does digest_of sign) (log o) /\
    (forall k n w, In (k, n) ns -> In w (sent digest_of sign n) -> In (WGossip w) ops).
  (** C201: then [o] has the proof of [q] - unless all it has are of later events. *)
  Theorem C201_made_partial m q o ns ops : running m q o ns ops ->
    let P := map pid (proofs (run (wstep digest_of verify zero) ops (Work (wrec0 V X) []))) in
    In (FinalModel.aevent q) P \/ forall j, In j P -> FinalModel.aevent q < j.
  Proof.
    intros (C & HV & T1 & T2 & D & Ver & Dig & Q & N1 & N2 & Hns & Ho & Own & Got).
    set (c := chain_of (FinalModel.achain q)) in *. set (id := FinalModel.aevent q).
    destruct (log_wanted C o m Ho) as (k & W & U).
    assert (Dl : NoDup (map (fun x => FinalModel.aevent (FinalModel.hask x)) (log o))).
    { specialize (D (since o + 1) k). rewrite <- W, map_map in D. exact D. }
    destruct (log_has C o m q Ho Q) as (x0 & I0 & E0).
    assert (Mem : forall p, is_own p = true -> In p ops -> exists x, In x (log o) /\ p = does digest_of sign x).
    { intros p O I. assert (J : In p (List.filter is_own ops)) by (apply filter_In; auto).
      rewrite Own in J. apply in_map_iff in J. destruct J as (x & <- & J). eauto. }
    assert (Same : forall x, In x (log o) -> FinalModel.aevent (FinalModel.hask x) = id -> FinalModel.hask x = q).
    { intros x I E. rewrite <- E0. f_equal. apply (NoDup_inj _ _ Dl); auto. rewrite E0. exact E. }
    apply (C81_published_partial digest_of verify zero V X id c (FinalModel.adata q) ops (map fst ns)); auto.
    - apply Forall_forall. intros p I. apply elem_of_list_In in I. destruct (is_own p) eqn:O; [|destruct p; try discriminate; exact Logic.I].
      destruct (Mem p O I) as (x & J & ->). pose proof (log_right C HV o m x Ho J) as R. unfold does.
      destruct (FinalModel.hkey x) as [kx|]; cbn [honest].
      + destruct R as [R1 R2]. repeat split; auto.
        * rewrite (Same x J) by assumption. reflexivity.
        * rewrite (Same x J) by assumption. reflexivity.
        * intros dg E. rewrite E. apply Ver, R1.
      + intros E. rewrite (Same x J E). auto.
    - rewrite own_announced, Own, does_announced. exact Dl.
    - exists (does digest_of sign x0). split.
      + assert (J : In (does digest_of sign x0) (List.filter is_own ops)) by (rewrite Own; apply in_map, I0).
        apply filter_In in J. apply J.
      + pose proof (log_right C HV o m x0 Ho I0) as R. unfold does. rewrite E0.
        destruct (FinalModel.hkey x0) as [kx|]; cbn [notes]; [split; [reflexivity|apply Dig; right; apply R]|reflexivity].
    - rewrite map_length. exact N2.
    - apply Forall_forall. intros a I. apply elem_of_list_In, in_map_iff in I. destruct I as ([a' n] & <- & I). cbn [fst].
      destruct (Hns a' n I) as (F & (K1 & K2 & K3) & Cf). split; [exact Cf|].
      destruct (log_has C n m q F Q) as (x & J & E). pose proof (log_right C HV n m x F J) as R.
      destruct (FinalModel.hkey x) as [kx|] eqn:Ek; [|rewrite (R a' K2) in K1; discriminate].
      destruct R as [R1 R2]. assert (kx = a') by (apply K3; auto). subst kx.
      destruct (digest_of c (FinalModel.adata q) a') as [dg|] eqn:Ed; [|exfalso; apply (Dig a'); auto].
      exists (sign a' dg), dg. repeat split; auto. apply (Got a' n _ I). unfold sent. apply in_flat_map. exists x. split; [exact J|].
      unfold sends. rewrite Ek, E. fold c. rewrite Ed. left. reflexivity.
  Qed.

  (** Before it has heard of a block, a node keeps the witnesses it gets whoever the notaries are. *)
  Lemma early_sets early : Forall (fun o => is_own o = false) early -> forall v x v' x' U,
    exists U', forall v'' x'', (v'' = v /\ x'' = x) \/ (v'' = v' /\ x'' = x') ->
      run (wstep digest_of verify zero) early (Work (Wrec ∅ ∅ v'' x'' ∅ U []) []) = Work (Wrec ∅ ∅ v'' x'' ∅ U' []) [].
  Proof.
    induction 1 as [|o early Ho He IH]; intros v x v' x' U; [exists U; reflexivity|].
    destruct o as [| |w|]; try discriminate.
    destruct (IH v x v' x' (<[wevent w := match U !! wevent w with Some l => l ++ [w] | None => [w] end]> U)) as (U' & H).
    exists U'. intros v'' x'' E. rewrite <- (H v'' x'' E). cbn [run fold_left wstep]. unfold run. f_equal.
  Qed.
  (** C201, second part: the same for a node that starts with whatever sets, gets the notaries with the first block it
      handles, and may have got witnesses before. *)
  Theorem C201_start_partial m q o ns early ops v x : Forall (fun p => is_own p = false) early -> running m q o ns (early ++ ops) ->
    let P := map pid (proofs (run (wstep digest_of verify zero) (early ++ WSet V X :: ops) (Work (wrec0 v x) []))) in
    In (FinalModel.aevent q) P \/ forall j, In j P -> FinalModel.aevent q < j.
  Proof.
    intros He R. destruct (early_sets early He v x V X ∅) as (U & H).
    replace (run (wstep digest_of verify zero) (early ++ WSet V X :: ops) (Work (wrec0 v x) []))
      with (run (wstep digest_of verify zero) (early ++ ops) (Work (wrec0 V X) [])); [apply (C201_made_partial m q o ns); exact R|].
    unfold run, wrec0 in *. rewrite !fold_left_app, !H by auto. reflexivity.
  Qed.

  (** The ids of events grow along the chain. *)
  Definition growing : Prop := forall b k, StronglySorted N.lt (map (fun p => FinalModel.aevent (snd p)) (FinalProps.wanted blk b k)).
  Lemma growing_distinct : growing -> forall b k, NoDup (map (fun p => FinalModel.aevent (snd p)) (FinalProps.wanted blk b k)).
  Proof.
    intros G b k. specialize (G b k). induction G as [|x l _ IH F]; [constructor|]. constructor; [|exact IH].
    intros I. apply elem_of_list_In in I. rewrite List.Forall_forall in F. specialize (F x I). lia.
  Qed.
  Lemma shared_own ops : forall H s l, (forall k dg, In k (vals V) -> verify k (sign k dg) dg = true) ->
    J H (rec s) -> wvals (rec s) = V -> List.filter is_own ops = map (does digest_of sign) l ->
    StronglySorted N.lt (map (fun x => FinalModel.aevent (FinalModel.hask x)) l) ->
    (forall j x, In j H -> In x l -> j < FinalModel.aevent (FinalModel.hask x)) ->
    (forall x k, In x l -> FinalModel.hkey x = Some k -> In k (vals V)) ->
    forall w, In w (flat_map (sends digest_of sign) l) -> In w (shared digest_of verify zero s ops).
  Proof.
    induction ops as [|o ops IH]; intros H s l Ver Hj Hv Own Inc Lt Key w W.
    - destruct l; [destruct W|discriminate].
    - cbn [shared]. apply in_or_app. cbn [List.filter] in Own. destruct (is_own o) eqn:Eo.
      + destruct l as [|x l]; [discriminate|]. cbn [map] in Own, Inc. injection Own as -> Own. apply StronglySorted_inv in Inc. destruct Inc as [Inc' F].
        cbn [flat_map] in W. apply in_app_or in W. destruct W as [W|W].
        * left. unfold sends in W. unfold does. destruct (FinalModel.hkey x) as [k|] eqn:Ek; [|destruct W]. cbn [shares].
          destruct (digest_of (chain_of (FinalModel.achain (FinalModel.hask x))) (FinalModel.adata (FinalModel.hask x)) k) as [dg|] eqn:Ed; [|destruct W].
          assert (K : In k (vals V)) by (apply (Key x); [left; reflexivity|exact Ek]).
          rewrite (own_taken digest_of verify H); auto.
          -- apply List.Forall_forall. intros j J1. apply (Lt j x J1). left. reflexivity.
          -- rewrite Hv. exact K.
        * right. apply (IH (FinalModel.aevent (FinalModel.hask x) :: H) _ l); auto.
          -- pose proof (step_J digest_of verify zero H s (does digest_of sign x) Hj) as Q.
             replace (announces (does digest_of sign x)) with [FinalModel.aevent (FinalModel.hask x)] in Q; [exact Q|].
             unfold does. destruct (FinalModel.hkey x); reflexivity.
          -- rewrite (proj1 (step_vals digest_of verify zero s (does digest_of sign x) ltac:(unfold does; destruct (FinalModel.hkey x); exact I))). exact Hv.
          -- intros j y [<-|J1] Y; [|apply Lt; [exact J1|right; exact Y]]. rewrite List.Forall_forall in F. apply F, (in_map (fun x => FinalModel.aevent (FinalModel.hask x))), Y.
          -- intros y k Y. apply Key. right. exact Y.
      + right. destruct o as [| |w'|]; try discriminate. apply (IH H _ l); auto.
        * exact (step_J digest_of verify zero H s (WGossip w') Hj).
        * rewrite (proj1 (step_vals digest_of verify zero s (WGossip w') I)). exact Hv.
  Qed.
  (** C201, third part: every notary's node sends what it signs: its own record never refuses it, whatever else arrives. *)
  Theorem C201_sent m n ops : FinalProps.chained blk -> FinalModel.akeys S0 = vals V -> growing ->
    (forall k dg, In k (vals V) -> verify k (sign k dg) dg = true) -> follows m n ->
    List.filter is_own ops = map (does digest_of sign) (log n) ->
    forall w, In w (sent digest_of sign n) -> In w (shared digest_of verify zero (Work (wrec0 V X) []) ops).
  Proof.
    intros C HV G Ver F Own w W. destruct (log_wanted C n m F) as (k & E & _).
    apply (shared_own ops [] _ (log n)); auto.
    - repeat split; cbn; intros id K; try (rewrite lookup_empty in K; congruence). destruct K.
    - specialize (G (since n + 1) k). rewrite <- E, map_map in G. exact G.
    - intros j x [].
    - intros x k' Ix Ek. pose proof (log_right C HV n m x F Ix) as R. rewrite Ek in R. apply R.
  Qed.
  (** Without ids that grow, a node still sends what it signs once it has a proof of any earlier event. *)
  Theorem C201_sent_after m n pre x post w : FinalProps.chained blk -> FinalModel.akeys S0 = vals V -> 1 <= thr V -> 1 <= thr X ->
    (forall b k, NoDup (map (fun p => FinalModel.aevent (snd p)) (FinalProps.wanted blk b k))) ->
    (forall k dg, In k (vals V) -> verify k (sign k dg) dg = true) -> follows m n ->
    List.filter is_own (pre ++ does digest_of sign x :: post) = map (does digest_of sign) (log n) ->
    let s := run (wstep digest_of verify zero) pre (Work (wrec0 V X) []) in
    (exists j, In j (map pid (proofs s)) /\ j < FinalModel.aevent (FinalModel.hask x)) ->
    In w (sends digest_of sign x) -> In w (shares digest_of verify s (does digest_of sign x)).
  Proof.
    intros C HV T1 T2 D Ver F Own s (j & J1 & J2) W. destruct (log_wanted C n m F) as (i & E & _).
    set (o := does digest_of sign x) in *. set (id := FinalModel.aevent (FinalModel.hask x)) in *.
    assert (Oo : is_own o = true) by (unfold o, does; destruct (FinalModel.hkey x); reflexivity).
    assert (Ao : announces o = [id]) by (unfold o, does; destruct (FinalModel.hkey x); reflexivity).
    assert (No : NoDup (announced (pre ++ o :: post))).
    { rewrite own_announced, Own, does_announced. specialize (D (since n + 1) i). rewrite <- E, map_map in D. exact D. }
    unfold announced in No. rewrite flat_map_app in No. cbn [flat_map] in No. rewrite Ao in No. apply NoDup_app in No. destruct No as (N1 & N2 & _).
    assert (Nid : ~ In id (announced pre)). { intros I. apply (N2 id); [apply elem_of_list_In, I|]. left. }
    assert (Set0 : Forall wno_set pre).
    { apply List.Forall_forall. intros p P. destruct p as [| | |v' x']; try exact I. exfalso.
      assert (K : In (WSet v' x') (List.filter is_own (pre ++ o :: post))) by (apply filter_In; split; [apply in_or_app; left; exact P|reflexivity]).
      rewrite Own in K. apply in_map_iff in K. destruct K as (y & K & _). unfold does in K. destruct (FinalModel.hkey y); discriminate. }
    assert (Vs : wvals (rec s) = V).
    { unfold s. clear -Set0. assert (G : forall pre s0, Forall wno_set pre -> wvals (rec (run (wstep digest_of verify zero) pre s0)) = wvals (rec s0)).
      { induction pre0 as [|p pre0 IH]; intros s0 Hp; [reflexivity|]. apply Forall_cons in Hp. destruct Hp as [P1 P2]. cbn [run fold_left].
        etransitivity; [apply (IH (wstep digest_of verify zero s0 p) P2)|apply (step_vals digest_of verify zero s0 p P1)]. }
      exact (G pre (Work (wrec0 V X) []) Set0). }
    assert (Pos : Forall positive pre).
    { eapply Forall_impl; [exact Set0|]. intros [] Hh; try exact I; destruct Hh. }
    pose proof (wrun_WA digest_of verify zero pre [] _ Pos N1 ltac:(intros ? ? []) (WA_init V X T1 T2)) as Wa. fold s in Wa.
    destruct (run_told digest_of verify zero pre [] (Work (wrec0 V X) [])) as (H & [Hj Hp] & Hi).
    { split; [|intros ? []]. repeat split; cbn; intros id' K; try (rewrite lookup_empty in K; congruence). destruct K. }
    fold s in Hj, Hp. assert (NH : ~ In id H). { intros K. destruct (Hi id K) as [K'|[]]. exact (Nid K'). }
    assert (R : refused (rec s) id = false).
    { unfold refused. destruct (has_key idk id (done (rec s))) eqn:Hk.
      - exfalso. apply has_idk in Hk. apply NH, Hp, (fi_sub _ _ (wa_fill _ _ Wa)), Hk.
      - cbn [orb]. destruct (done (rec s)) as [|mm l] eqn:Ed; [apply andb_false_r|].
        destruct (N.leb_spec id mm) as [L|L]; [|apply andb_false_r]. exfalso. apply NH, Hp.
        apply (fi_all _ _ (wa_fill _ _ Wa) j id); [exact J1|lia|]. rewrite Ed. exact L. }
    unfold sends in W. destruct (FinalModel.hkey x) as [k|] eqn:Ek; [|destruct W].
    destruct (digest_of (chain_of (FinalModel.achain (FinalModel.hask x))) (FinalModel.adata (FinalModel.hask x)) k) as [dg|] eqn:Ed; [|destruct W].
    assert (K : In k (vals V)).
    { assert (M : In o (map (does digest_of sign) (log n))) by (rewrite <- Own; apply filter_In; split; [apply in_or_app; right; left; reflexivity|exact Oo]).
      apply in_map_iff in M. destruct M as (y & M & Y). pose proof (log_right C HV n m y F Y) as Ry. unfold o, does in M. rewrite Ek in M.
      destruct (FinalModel.hkey y) as [ky|]; [|discriminate]. injection M as _ _ _ -> _. apply Ry. }
    unfold o, does. rewrite Ek. cbn [shares]. rewrite Ed. rewrite (own_taken0 digest_of verify H); auto. rewrite Vs. exact K.
  Qed.
  (** A notary's valid witness that comes to a node is passed on, if not this one then another of the same notary for the
      same event - unless the node has the proof of that event or of a later one. *)
  Theorem C201_passed_on m n pre post dg id k sg : FinalProps.chained blk -> FinalModel.akeys S0 = vals V -> 1 <= thr V -> 1 <= thr X ->
    (forall b i, NoDup (map (fun p => FinalModel.aevent (snd p)) (FinalProps.wanted blk b i))) -> follows m n ->
    List.filter is_own (pre ++ WGossip (Wit dg id k sg) :: post) = map (does digest_of sign) (log n) ->
    In k (vals V) -> verify k sg dg = true ->
    (forall b q, In q (FinalProps.requests (blk b)) -> FinalModel.aevent q = id -> digest_of (chain_of (FinalModel.achain q)) (FinalModel.adata q) k = Some dg) ->
    (exists w, In w (shared digest_of verify zero (Work (wrec0 V X) []) (pre ++ WGossip (Wit dg id k sg) :: post)) /\ wevent w = id /\ wauth w = k) \/
    (exists j, In j (map pid (proofs (run (wstep digest_of verify zero) pre (Work (wrec0 V X) [])))) /\ id <= j).
  Proof.
    intros C HV T1 T2 D F Own K Vf Dg. destruct (log_wanted C n m F) as (i & E & _).
    set (w := Wit dg id k sg) in *. set (s0 := Work (wrec0 V X) []). set (s := run (wstep digest_of verify zero) pre s0).
    assert (Src : forall p, In p pre -> is_own p = true -> exists x, In x (log n) /\ p = does digest_of sign x).
    { intros p P O. assert (I : In p (List.filter is_own (pre ++ WGossip w :: post))) by (apply filter_In; split; [apply in_or_app; left; exact P|exact O]).
      rewrite Own in I. apply in_map_iff in I. destruct I as (x & <- & I). eauto. }
    assert (Set0 : Forall wno_set pre).
    { apply List.Forall_forall. intros p P. destruct p as [| | |v' x']; try exact I. destruct (Src _ P eq_refl) as (x & _ & Ex).
      unfold does in Ex. destruct (FinalModel.hkey x); discriminate. }
    assert (Vs : wvals (rec s) = V).
    { assert (Q : forall pre s0, Forall wno_set pre -> wvals (rec (run (wstep digest_of verify zero) pre s0)) = wvals (rec s0)).
      { clear. induction pre as [|p pre IH]; intros s0 Hp; [reflexivity|]. apply Forall_cons in Hp. destruct Hp as [P1 P2]. cbn [run fold_left].
        etransitivity; [apply (IH (wstep digest_of verify zero s0 p) P2)|apply (step_vals digest_of verify zero s0 p P1)]. }
      exact (Q pre s0 Set0). }
    assert (Hm : Me (fun id c d => exists b q, In q (FinalProps.requests (blk b)) /\ id = FinalModel.aevent q /\ c = chain_of (FinalModel.achain q) /\ d = FinalModel.adata q) (rec s)).
    { apply run_Me; [|intros j c d; cbn; rewrite lookup_empty; discriminate]. apply List.Forall_forall. intros p P.
      destruct (is_own p) eqn:O; [|destruct p; try discriminate; exact I]. destruct (Src p P O) as (x & Ix & ->).
      assert (R : exists b, In (FinalModel.hask x) (FinalProps.requests (blk b))).
      { destruct F as (Sn & A & _). apply in_rev in Ix. assert (Gv : FinalProps.governed blk (fun _ => S0)) by (intros j; split; reflexivity).
        pose proof (FinalProps.C198_set (keys n) blk (fun _ => S0) (since n) (heard n) C Gv Sn A) as R. rewrite List.Forall_forall in R.
        destruct (R x Ix) as (b & _ & R2 & _). exists b. exact R2. }
      destruct R as (b & R). unfold does. destruct (FinalModel.hkey x); cbn [tells]; exists b, (FinalModel.hask x); auto. }
    assert (Sh0 : Sh ([] ++ shared digest_of verify zero s0 pre) (rec s)).
    { apply run_Sh. split; intros j l y; cbn; rewrite lookup_empty; discriminate. }
    assert (No : NoDup (announced pre)).
    { assert (N0 : NoDup (announced (pre ++ WGossip w :: post))).
      { rewrite own_announced, Own, does_announced. specialize (D (since n + 1) i). rewrite <- E, map_map in D. exact D. }
      unfold announced in N0. rewrite flat_map_app in N0. apply NoDup_app in N0. apply N0. }
    assert (Pos : Forall positive pre) by (eapply Forall_impl; [exact Set0|]; intros [] Hh; try exact I; destruct Hh).
    pose proof (wrun_WA digest_of verify zero pre [] _ Pos No ltac:(intros ? ? []) (WA_init V X T1 T2)) as Wa. fold s0 s in Wa.
    destruct (refused (rec s) id) eqn:R.
    - right. unfold refused in R. apply orb_true_iff in R. destruct R as [R|R].
      + exists id. split; [|lia]. apply has_idk in R. exact (fi_sub _ _ (wa_fill _ _ Wa) _ R).
      + apply andb_true_iff in R. destruct R as [_ R]. destruct (done (rec s)) as [|mm l] eqn:Ed; [discriminate|]. apply N.leb_le in R.
        exists mm. split; [|exact R]. apply (fi_sub _ _ (wa_fill _ _ Wa)). rewrite Ed. left. reflexivity.
    - left. destruct (match seen (rec s) !! id with Some l => has_key idk k l | None => false end) eqn:Sk.
      + destruct (seen (rec s) !! id) as [l|] eqn:El; [|discriminate]. apply has_idk in Sk. destruct (proj1 Sh0 id l k El Sk) as (w' & W' & E1).
        exists w'. split; [|exact E1]. rewrite shared_app. apply in_or_app. left. exact W'.
      + exists w. split; [|auto]. rewrite shared_app. apply in_or_app. right. cbn [shared shares]. apply in_or_app. left. fold s.
        unfold taken, note. cbn [w wevent wauth wdigest wsig]. rewrite R, Sk. destruct (metas (rec s) !! id) as [[c d]|] eqn:Em; [|left; reflexivity].
        destruct (Hm id c d Em) as (b & q & Q1 & Q2 & -> & ->). rewrite (Dg b q Q1 (eq_sym Q2)), N.eqb_refl, Vf. cbn [negb]. rewrite Vs.
        assert (P : exists i, position k (vals V) = Some i).
        { clear - K. induction (vals V) as [|y l IH]; [destruct K|]. cbn [position]. destruct (N.eqb_spec y k); [eauto|].
          destruct K as [K|K]; [contradiction|]. destruct (IH K) as (i & ->). cbn. eauto. }
        destruct P as (i' & ->). left. reflexivity.
  Qed.
  (** And what a node passes on for an event whose request it has handled is a notary's, with its signature of the digest of a
      request with this id on the chain. *)
  Theorem C201_checked m n pre post w x v : FinalProps.chained blk -> 1 <= thr V -> 1 <= thr X ->
    (forall b i, NoDup (map (fun p => FinalModel.aevent (snd p)) (FinalProps.wanted blk b i))) -> follows m n ->
    List.filter is_own (pre ++ WGossip w :: post) = map (does digest_of sign) (log n) ->
    In (does digest_of sign x) pre -> FinalModel.aevent (FinalModel.hask x) = wevent w ->
    (forall k, digest_of (chain_of (FinalModel.achain (FinalModel.hask x))) (FinalModel.adata (FinalModel.hask x)) k <> None) ->
    let s := run (wstep digest_of verify zero) pre (Work (wrec0 V X) []) in
    In v (shares digest_of verify s (WGossip w)) ->
    v = w /\ In (wauth w) (vals V) /\ verify (wauth w) (wsig w) (wdigest w) = true /\
    exists b q, In q (FinalProps.requests (blk b)) /\ FinalModel.aevent q = wevent w /\
      digest_of (chain_of (FinalModel.achain q)) (FinalModel.adata q) (wauth w) = Some (wdigest w).
  Proof.
    intros C T1 T2 D F Own Ix Ex Dg s Sv. destruct (log_wanted C n m F) as (i0 & E & _). set (s0 := Work (wrec0 V X) []) in *.
    assert (Src : forall p, In p pre -> is_own p = true -> exists x, In x (log n) /\ p = does digest_of sign x).
    { intros p P O. assert (I : In p (List.filter is_own (pre ++ WGossip w :: post))) by (apply filter_In; split; [apply in_or_app; left; exact P|exact O]).
      rewrite Own in I. apply in_map_iff in I. destruct I as (y & <- & I). eauto. }
    assert (Set0 : Forall wno_set pre).
    { apply List.Forall_forall. intros p P. destruct p as [| | |v' x']; try exact I. destruct (Src _ P eq_refl) as (y & _ & Ey).
      unfold does in Ey. destruct (FinalModel.hkey y); discriminate. }
    assert (Vs : wvals (rec s) = V).
    { assert (Q : forall pre s0, Forall wno_set pre -> wvals (rec (run (wstep digest_of verify zero) pre s0)) = wvals (rec s0)).
      { clear. induction pre as [|p pre IH]; intros s0 Hp; [reflexivity|]. apply Forall_cons in Hp. destruct Hp as [P1 P2]. cbn [run fold_left].
        etransitivity; [apply (IH (wstep digest_of verify zero s0 p) P2)|apply (step_vals digest_of verify zero s0 p P1)]. }
      exact (Q pre s0 Set0). }
    assert (Hm : Me (fun id c d => exists b q, In q (FinalProps.requests (blk b)) /\ id = FinalModel.aevent q /\ c = chain_of (FinalModel.achain q) /\ d = FinalModel.adata q) (rec s)).
    { apply run_Me; [|intros j c d; cbn; rewrite lookup_empty; discriminate]. apply List.Forall_forall. intros p P.
      destruct (is_own p) eqn:O; [|destruct p; try discriminate; exact I]. destruct (Src p P O) as (y & Iy & ->).
      assert (R : exists b, In (FinalModel.hask y) (FinalProps.requests (blk b))).
      { destruct F as (Sn & A & _). apply in_rev in Iy. assert (Gv : FinalProps.governed blk (fun _ => S0)) by (intros j; split; reflexivity).
        pose proof (FinalProps.C198_set (keys n) blk (fun _ => S0) (since n) (heard n) C Gv Sn A) as R. rewrite List.Forall_forall in R.
        destruct (R y Iy) as (b & _ & R2 & _). exists b. exact R2. }
      destruct R as (b & R). unfold does. destruct (FinalModel.hkey y); cbn [tells]; exists b, (FinalModel.hask y); auto. }
    assert (Kw : Kn (wevent w) s).
    { apply (told_Kn digest_of verify zero (wevent w) (chain_of (FinalModel.achain (FinalModel.hask x))) (FinalModel.adata (FinalModel.hask x))).
      exists (does digest_of sign x). split; [exact Ix|]. unfold does. rewrite Ex. destruct (FinalModel.hkey x) as [k|]; [right|left; reflexivity].
      eexists _, _. split; [reflexivity|apply Dg]. }
    destruct Kw as [Kw|Kw].
    2:{ exfalso. assert (No : NoDup (announced pre)).
      { assert (N0 : NoDup (announced (pre ++ WGossip w :: post))).
        { rewrite own_announced, Own, does_announced. specialize (D (since n + 1) i0). rewrite <- E, map_map in D. exact D. }
        unfold announced in N0. rewrite flat_map_app in N0. apply NoDup_app in N0. apply N0. }
      assert (Pos : Forall positive pre) by (eapply Forall_impl; [exact Set0|]; intros [] Hh; try exact I; destruct Hh).
      pose proof (wrun_WA digest_of verify zero pre [] _ Pos No ltac:(intros ? ? []) (WA_init V X T1 T2)) as Wa. fold s0 s in Wa.
      pose proof (proj2 (kept_refused _ _) (wa_kept _ _ Wa _ Kw)) as R. cbn [shares] in Sv. unfold taken, note in Sv. rewrite R in Sv. destruct Sv. }
    destruct (metas (rec s) !! wevent w) as [[c d]|] eqn:Em; [clear Kw|contradiction].
    destruct (Hm _ c d Em) as (b & q & Q1 & Q2 & -> & ->). cbn [shares] in Sv. unfold taken, note in Sv. rewrite Em, Vs in Sv.
    destruct (refused (rec s) (wevent w)); [destruct Sv|].
    destruct (match seen (rec s) !! wevent w with Some l => has_key idk (wauth w) l | None => false end); [destruct Sv|].
    destruct (digest_of _ _ (wauth w)) as [dg|] eqn:Ed; [|destruct Sv]. destruct (N.eqb_spec dg (wdigest w)) as [->|]; cbn [negb] in Sv; [|destruct Sv].
    destruct (verify (wauth w) (wsig w) (wdigest w)) eqn:Vf; cbn [negb] in Sv; [|destruct Sv].
    destruct (position (wauth w) (vals V)) as [i|] eqn:P; [|destruct Sv]. destruct Sv as [<-|[]]. split; [reflexivity|]. split; [|split; [reflexivity|exists b, q; auto]].
    clear - P. revert i P. induction (vals V) as [|y l IH]; intros i P; cbn [position] in P; [discriminate|].
    destruct (N.eqb_spec y (wauth w)) as [->|]; [left; reflexivity|right]. destruct (position (wauth w) l) as [j|]; [exact (IH j eq_refl)|discriminate].
  Qed.
  (** C201, fourth part: with [life k] what happens at the node of notary [k], it is enough that what these nodes really
      share reaches [o]. *)
  Theorem C201_whole_partial m q o ns ops (life : N -> list wop) :
    let c := chain_of (FinalModel.achain q) in
    FinalProps.chained blk -> FinalModel.akeys S0 = vals V -> 1 <= thr V -> 1 <= thr X -> growing ->
    (forall k dg, In k (vals V) -> verify k (sign k dg) dg = true) ->
    (forall k, k = zero \/ In k (vals V) -> digest_of c (FinalModel.adata q) k <> None) ->
    In q (FinalProps.requests (blk m)) ->
    NoDup (map fst ns) -> needed V X c <= N.of_nat (length ns) ->
    (forall k n, In (k, n) ns -> follows m n /\ notary k n /\ counts_for V X c k /\
      List.filter is_own (life k) = map (does digest_of sign) (log n) /\
      forall w, In w (shared digest_of verify zero (Work (wrec0 V X) []) (life k)) -> In (WGossip w) ops) ->
    follows m o -> List.filter is_own ops = map (does digest_of sign) (log o) ->
    let P := map pid (proofs (run (wstep digest_of verify zero) ops (Work (wrec0 V X) []))) in
    In (FinalModel.aevent q) P \/ forall j, In j P -> FinalModel.aevent q < j.
  Proof.
    intros c C HV T1 T2 G Ver Dig Q N1 N2 Hns Ho Own. apply (C201_made_partial m q o ns).
    split; [exact C|]. split; [exact HV|]. split; [exact T1|]. split; [exact T2|]. split; [apply growing_distinct, G|].
    split; [exact Ver|]. split; [exact Dig|]. split; [exact Q|]. split; [exact N1|]. split; [exact N2|].
    split; [intros k n I; destruct (Hns k n I) as (A & B & D & _); auto|]. split; [exact Ho|]. split; [exact Own|].
    intros k n w I W. destruct (Hns k n I) as (F & _ & _ & L & S). apply S, (C201_sent m n); auto.
  Qed.
End spec.

(** ** A chain each of whose blocks asks for the proof of the event with its own number; keys 11, 12 and 13, two needed. *)
Definition nblk (n : N) : FinalModel.header :=
  FinalModel.Hd n (n + 100) (n + 99) [FinalModel.LOther; FinalModel.LAsk (FinalModel.Ask 1 n (10 * n))].
Definition nset : FinalModel.aset := FinalModel.ASet 5 [11; 12; 13].
Definition ntell (n : N) : FinalModel.notice :=
  FinalModel.Nt (nblk n) (fun h => if 100 <=? h then Some (nblk (h - 100)) else None) (fun _ => Some nset) (fun _ => Some nset).
Definition nsign (k dg : N) : N := k + dg.
Definition n11 : node := Node (N.eqb 11) 1 [ntell 4; ntell 3; ntell 8].
Definition n13 : node := Node (N.eqb 13) 2 [ntell 7].
Definition nobs : node := Node (fun _ => false) 2 [ntell 3; ntell 7].
Definition got (l : list N) (n : node) : list wop :=
  map WGossip (List.filter (fun w => existsb (N.eqb (wevent w)) l) (sent wdig nsign n)).
(** All the witnesses come before the node hears of the blocks; or those of event 3 come last. *)
Definition nops : list wop := got [2; 3; 4; 5; 6; 7; 8] n11 ++ got [3; 4; 5; 6; 7] n13 ++ map (does wdig nsign) (log nobs).
Definition nlate : list wop :=
  map (does wdig nsign) (log nobs) ++ got [2; 4; 5; 6; 7; 8] n11 ++ got [4; 5; 6; 7] n13 ++ got [3] n11 ++ got [3] n13.
Definition nq : FinalModel.ask := FinalModel.Ask 1 3 30.

Lemma ntell_ok n : FinalProps.sound nblk (ntell n) /\ FinalProps.served nblk (fun _ => nset) (ntell n).
Proof.
  split; [split; [exists n; reflexivity|]|intros m; reflexivity]. intros m. cbn [ntell FinalModel.db nblk FinalModel.hash].
  destruct (N.leb_spec 100 (m + 100)); [|lia]. replace (m + 100 - 100) with m by lia. reflexivity.
Qed.
Lemma nfollows a b l : b < 3 -> (exists i, In i l /\ 3 <= i) -> follows nblk nset 3 (Node a b (map ntell l)).
Proof.
  intros L (i & I & G). repeat split; cbn [heard since]; auto.
  - apply Forall_forall. intros n J. apply elem_of_list_In, in_map_iff in J. destruct J as (j & <- & _). apply ntell_ok.
  - apply Forall_forall. intros n J. apply elem_of_list_In, in_map_iff in J. destruct J as (j & <- & _). apply ntell_ok.
  - exists (ntell i). split; [apply in_map, I|exact G].
Qed.
Lemma nwanted b k : (forall p, In p (FinalProps.wanted nblk b k) -> FinalModel.aevent (snd p) < b + N.of_nat k) /\
  NoDup (map (fun p => FinalModel.aevent (snd p)) (FinalProps.wanted nblk b k)).
Proof.
  induction k as [|k [I D]]; [split; [intros p []|constructor]|]. cbn [FinalProps.wanted].
  set (r := map (fun q => (FinalModel.hash (nblk (b + N.of_nat k)), q)) (FinalProps.requests (nblk (b + N.of_nat k)))).
  assert (R : r = [(b + N.of_nat k + 100, FinalModel.Ask 1 (b + N.of_nat k) (10 * (b + N.of_nat k)))]) by reflexivity. rewrite R. split.
  - intros p P. apply in_app_or in P. destruct P as [P|[<-|[]]]; [specialize (I p P); lia|cbn [snd FinalModel.aevent]; lia].
  - rewrite map_app. apply NoDup_app. split; [exact D|]. split; [|repeat constructor; intros H; inversion H].
    intros e E J. cbn [map snd FinalModel.aevent] in J. apply elem_of_list_singleton in J. subst e.
    apply elem_of_list_In, in_map_iff in E. destruct E as (p & E & P). specialize (I p P). lia.
Qed.
Lemma nrunning ops : List.filter is_own ops = map (does wdig nsign) (log nobs) ->
  (forall w, In w (sent wdig nsign n11 ++ sent wdig nsign n13) -> In (WGossip w) ops) ->
  running wdig wver nsign 0 nblk nset V3 X2 3 nq nobs [(11, n11); (13, n13)] ops.
Proof.
  intros Own Got. unfold running. split; [split; intros n; cbn; lia|]. split; [reflexivity|]. split; [cbn; lia|]. split; [cbn; lia|].
  split; [intros b k; apply nwanted|]. split; [intros k dg _; unfold wver, nsign; apply N.eqb_refl|]. split; [discriminate|].
  split; [left; reflexivity|]. split; [apply NoDup_ListNoDup; repeat (constructor; [cbn; intuition discriminate|]); constructor|]. split; [vm_compute; discriminate|]. split.
  - intros k n [E|[E|[]]]; injection E as <- <-; (split; [|split; [split; [reflexivity|split; [cbn; tauto|]]|vm_compute; tauto]]).
    + apply (nfollows (N.eqb 11) 1 [4; 3; 8]); [lia|]. exists 4. split; [left; reflexivity|lia].
    + intros k' _ K. symmetry. apply N.eqb_eq, K.
    + apply (nfollows (N.eqb 13) 2 [7]); [lia|]. exists 7. split; [left; reflexivity|lia].
    + intros k' _ K. symmetry. apply N.eqb_eq, K.
  - split; [apply (nfollows (fun _ => false) 2 [3; 7]); [lia|]; exists 3; split; [left; reflexivity|lia]|]. split; [exact Own|].
    intros k n w [E|[E|[]]] I; injection E as <- <-; apply Got, in_or_app; auto.
Qed.
Example C201_example : running wdig wver nsign 0 nblk nset V3 X2 3 nq nobs [(11, n11); (13, n13)] nops /\
  map pid (proofs (run (wstep wdig wver 0) nops (Work (wrec0 V3 X2) []))) = [7; 6; 5; 4; 3].
Proof.
  split; [|vm_compute; reflexivity]. apply nrunning; [vm_compute; reflexivity|].
  intros w I. vm_compute in I. repeat (destruct I as [<-|I]; [vm_compute; tauto|]). destruct I.
Qed.
(** The same with the notaries set when the first block is handled, after all the witnesses. *)
Example C201_start_example : let early := got [2; 3; 4; 5; 6; 7; 8] n11 ++ got [3; 4; 5; 6; 7] n13 in
  Forall (fun p => is_own p = false) early /\ early ++ map (does wdig nsign) (log nobs) = nops /\
  map pid (proofs (run (wstep wdig wver 0) (early ++ WSet V3 X2 :: map (does wdig nsign) (log nobs)) (Work (wrec0 (Vset [] 0) (Vset [] 0)) []))) =
    [7; 6; 5; 4; 3].
Proof. cbn zeta. split; [vm_compute; repeat constructor|]. split; vm_compute; reflexivity. Qed.
Lemma ngrowing : growing nblk.
Proof.
  assert (A : forall l x, StronglySorted N.lt l -> (forall y, In y l -> y < x) -> StronglySorted N.lt (l ++ [x])).
  { induction l as [|a l IH]; intros x Sl L; cbn [app]; [repeat constructor|]. apply StronglySorted_inv in Sl. destruct Sl as [S1 S2].
    constructor; [apply IH; [exact S1|]; intros y Y; apply L; right; exact Y|]. apply List.Forall_app. split; [exact S2|].
    constructor; [|constructor]. apply L. left. reflexivity. }
  intros b k. induction k as [|k IH]; [constructor|]. cbn [FinalProps.wanted]. rewrite map_app.
  apply (A _ (b + N.of_nat k)); [exact IH|]. intros y Y. apply in_map_iff in Y. destruct Y as (p & <- & P). apply (proj1 (nwanted b k)), P.
Qed.
(** What the nodes of 11 and 13 share, the latter after having got the witnesses of the former: their own, and others'. *)
Example C201_whole_example : growing nblk /\
  shared wdig wver 0 (Work (wrec0 V3 X2) []) (map (does wdig nsign) (log n11)) = sent wdig nsign n11 /\
  map (fun w => (wevent w, wauth w)) (shared wdig wver 0 (Work (wrec0 V3 X2) []) (got [3; 4] n11 ++ map (does wdig nsign) (log n13))) =
    [(3, 11); (4, 11); (3, 13); (4, 13); (5, 13); (6, 13); (7, 13)].
Proof. split; [exact ngrowing|]. split; vm_compute; reflexivity. Qed.
(** Without the exception it is false: all that was sent arrives, only that of event 3 last, and no proof of 3 is made (C50). *)
Theorem C201_late_refuted : exists m q o ns ops, running wdig wver nsign 0 nblk nset V3 X2 m q o ns ops /\
  ~ In (FinalModel.aevent q) (map pid (proofs (run (wstep wdig wver 0) ops (Work (wrec0 V3 X2) [])))).
Proof.
  exists 3, nq, nobs, [(11, n11); (13, n13)], nlate. split; [apply nrunning; [vm_compute; reflexivity|]|].
  - intros w I. vm_compute in I. repeat (destruct I as [<-|I]; [vm_compute; tauto|]). destruct I.
  - vm_compute. intuition discriminate.
Qed.
(** ** A chain on which events 4 and 5 are asked for before event 3, as after a pause of the bridge, when delayed requests come
    in the order of the map, some in each block, and new ones at once. *)
Definition dnum (n : N) : N :=
  if n =? 1 then 4 else if n =? 2 then 5 else if n =? 3 then 3 else if n =? 4 then 8 else if n =? 5 then 11 else if n =? 6 then 9 else n + 10.
Definition dblk (n : N) : FinalModel.header := FinalModel.Hd n (n + 100) (n + 99) [FinalModel.LAsk (FinalModel.Ask 1 (dnum n) (10 * dnum n))].
Definition dtell (n : N) : FinalModel.notice :=
  FinalModel.Nt (dblk n) (fun h => if 100 <=? h then Some (dblk (h - 100)) else None) (fun _ => Some nset) (fun _ => Some nset).
Definition dnode (k : N) : node := Node (N.eqb k) 0 [dtell 2; dtell 3].
(** At each node: its own witnesses of 4 and 5, those of the others, then its own of 3. *)
Definition dlife (k : N) : list wop :=
  firstn 2 (map (does wdig nsign) (log (dnode k))) ++
  flat_map (fun k' => if k' =? k then [] else map WGossip (firstn 2 (sent wdig nsign (dnode k')))) [11; 12; 13] ++
  skipn 2 (map (does wdig nsign) (log (dnode k))).
Lemma dwanted b k : (forall p, In p (FinalProps.wanted dblk b k) -> exists j, FinalModel.aevent (snd p) = dnum j /\ j < b + N.of_nat k) /\
  NoDup (map (fun p => FinalModel.aevent (snd p)) (FinalProps.wanted dblk b k)).
Proof.
  induction k as [|k [I D]]; [split; [intros p []|constructor]|]. cbn [FinalProps.wanted].
  set (r := map (fun q => (FinalModel.hash (dblk (b + N.of_nat k)), q)) (FinalProps.requests (dblk (b + N.of_nat k)))).
  assert (R : r = [(b + N.of_nat k + 100, FinalModel.Ask 1 (dnum (b + N.of_nat k)) (10 * dnum (b + N.of_nat k)))]) by reflexivity. rewrite R. split.
  - intros p P. apply in_app_or in P. destruct P as [P|[<-|[]]]; [destruct (I p P) as (j & E & L); exists j; split; [exact E|lia]|].
    exists (b + N.of_nat k). split; [reflexivity|lia].
  - rewrite map_app. apply NoDup_app. split; [exact D|]. split; [|repeat constructor; intros H; inversion H].
    intros e E J. cbn [map snd FinalModel.aevent] in J. apply elem_of_list_singleton in J. subst e.
    apply elem_of_list_In, in_map_iff in E. destruct E as (p & E & P). destruct (I p P) as (j & E' & L). rewrite E' in E. revert E L. clear.
    unfold dnum. generalize (b + N.of_nat k). intros n.
    repeat match goal with |- context [?a =? ?c] => destruct (N.eqb_spec a c) end; lia.
Qed.
(** If ids do not grow along the chain, all notaries can do their part, all that is shared can arrive everywhere, and yet
    nobody even sends a witness of event 3, nor has anybody its proof: each node started after earlier events were done,
    and its record takes 3 for completed. *)
Theorem C201_delayed_refuted : exists blk m q (nd : N -> node) (life : N -> list wop),
  FinalProps.chained blk /\ (forall b k, NoDup (map (fun p => FinalModel.aevent (snd p)) (FinalProps.wanted blk b k))) /\
  In q (FinalProps.requests (blk m)) /\
  forall k, In k (vals V3) -> follows blk nset m (nd k) /\ notary V3 k (nd k) /\
    List.filter is_own (life k) = map (does wdig nsign) (log (nd k)) /\
    (forall k' w, In k' (vals V3) -> In w (shared wdig wver 0 (Work (wrec0 V3 X2) []) (life k')) -> wauth w <> k -> In (WGossip w) (life k)) /\
    (forall w, In w (shared wdig wver 0 (Work (wrec0 V3 X2) []) (life k)) -> wevent w <> FinalModel.aevent q) /\
    ~ In (FinalModel.aevent q) (map pid (proofs (run (wstep wdig wver 0) (life k) (Work (wrec0 V3 X2) [])))).
Proof.
  exists dblk, 3, nq, dnode, dlife. split; [split; intros n; cbn; lia|]. split; [intros b k; apply dwanted|]. split; [left; reflexivity|].
  assert (T : forall n, FinalProps.sound dblk (dtell n) /\ FinalProps.served dblk (fun _ => nset) (dtell n)).
  { intros n. split; [split; [exists n; reflexivity|]|intros m; reflexivity]. intros m. cbn [dtell FinalModel.db dblk FinalModel.hash].
    destruct (N.leb_spec 100 (m + 100)); [|lia]. replace (m + 100 - 100) with m by lia. reflexivity. }
  intros k K. split.
  { split; [apply List.Forall_forall; intros n [<-|[<-|[]]]; apply T|]. split; [apply List.Forall_forall; intros n [<-|[<-|[]]]; apply T|].
    split; [cbn; lia|]. exists (dtell 3). split; [right; left; reflexivity|cbn; lia]. }
  split; [split; [apply N.eqb_refl|split; [exact K|intros k' _ E; symmetry; apply N.eqb_eq, E]]|].
  destruct K as [<-|[<-|[<-|[]]]]; (split; [vm_compute; reflexivity|]; split; [|split]).
  all: try (intros k' w K' W A; destruct K' as [<-|[<-|[<-|[]]]]; vm_compute in W; repeat (destruct W as [<-|W]; [first [exfalso; apply A; reflexivity|vm_compute; tauto]|]); destruct W).
  all: try (intros w W; vm_compute in W; repeat (destruct W as [<-|W]; [vm_compute; discriminate|]); destruct W).
  all: vm_compute; intuition discriminate.
Qed.
(** The same out of order after event 8: the node of 13, started at block 3, has the proofs of 8 and 11 when block 6 asks for 9. *)
Example C201_sent_after_example : let n k := Node (N.eqb k) 3 [dtell 6] in let own := map (does wdig nsign) (log (n 13)) in
  let pre := firstn 2 own ++ map WGossip (firstn 2 (sent wdig nsign (n 11))) in
  List.filter is_own (pre ++ skipn 2 own) = own /\
  map pid (proofs (run (wstep wdig wver 0) pre (Work (wrec0 V3 X2) []))) = [11; 8] /\
  flat_map (shares wdig wver (run (wstep wdig wver 0) pre (Work (wrec0 V3 X2) []))) (skipn 2 own) = [Wit 91 9 13 104].
Proof. split; [|split]; vm_compute; reflexivity. Qed.
(** The node of 13 passes on 11's witness of event 3, once; after it has the proofs of 5 and 7, it does not. *)
Example C201_passed_on_example : let own := map (does wdig nsign) (log n13) in
  let w := WGossip (Wit 31 3 11 (nsign 11 31)) in let s0 := Work (wrec0 V3 X2) [] in
  wdig (chain_of 1) 30 11 = Some 31 /\ wver 11 (nsign 11 31) 31 = true /\
  List.filter is_own (own ++ [w; w]) = own /\
  List.filter (fun v => wauth v =? 11) (shared wdig wver 0 s0 (own ++ [w; w])) = [Wit 31 3 11 (nsign 11 31)] /\
  map pid (proofs (run (wstep wdig wver 0) (own ++ got [5; 7] n11) s0)) = [7; 5] /\
  flat_map (shares wdig wver (run (wstep wdig wver 0) (own ++ got [5; 7] n11) s0)) [w] = [].
Proof. cbn zeta. repeat split; vm_compute; reflexivity. Qed.
(** 11's witness of event 3 is passed on, one with a wrong signature or of a stranger is not, nor any when 3 is done. *)
Example C201_checked_example : let own := map (does wdig nsign) (log n13) in let s l := run (wstep wdig wver 0) (own ++ l) (Work (wrec0 V3 X2) []) in
  List.filter is_own ((own ++ got [3; 4] n11) ++ [WGossip (Wit 31 3 11 0)]) = own /\
  map (fun v => shares wdig wver (s []) (WGossip v)) [Wit 31 3 11 (nsign 11 31); Wit 31 3 11 0; Wit 31 3 50 (nsign 50 31)] =
    [[Wit 31 3 11 (nsign 11 31)]; []; []] /\
  map pid (proofs (s (got [3; 4] n11))) = [4; 3] /\
  map (fun v => shares wdig wver (s (got [3; 4] n11)) (WGossip v)) [Wit 31 3 12 (nsign 12 31); Wit 31 3 11 0] = [[]; []].
Proof. cbn zeta. repeat split; vm_compute; reflexivity. Qed.
Definition C201_theorems := (C201_made_partial, C201_start_partial, C201_sent, C201_sent_after, C201_passed_on, C201_checked, C201_whole_partial, C201_late_refuted, C201_delayed_refuted).
Print Assumptions C201_theorems.
