(** Properties of the signers of the XRPL doors (C185-C187). *)
From Verif Require Import DoorProofs.

(** * C185: the doors' signer lists follow the XRPL notaries *)
(** In orderly histories, whichever signatures the gadgets collect, whenever no change is under way the XRPL's signer list of
    each door is that of the active XRPL notaries, and while one is under way that of the announced ones. *)
Theorem C185_follow acc maxk maxn pf init s0 ops :
  maxk <= 8 ->
  active s0 = select maxk (white s0) (notary s0) -> gadget s0 = active s0 -> later s0 = [] -> digests s0 = [] -> paused s0 = false ->
  (forall d, fits acc (active s0) (init d)) ->
  along (dstep acc maxk maxn) (orderly acc maxk) ops s0 ->
  let s := run (dstep acc maxk maxn) ops s0 in
  (forall a, a ∈ digests s -> proof_ok pf a) ->
  forall d, fits acc (if paused s then select maxk (white s) (told s) else active s) (ledger acc pf (init d) d (digests s)).
Proof.
  intros Hk H1 H2 H3 H4 H5 Hi Hal s Hpf d.
  assert (I : Inv acc maxk pf init s).
  { apply (run_along (dstep acc maxk maxn) (orderly acc maxk) (Inv acc maxk pf init)); [|exact Hal|].
    - intros x o. apply inv_step, Hk.
    - do 3 (split; [assumption|]). intros _ d'. unfold due. rewrite H4, H5, <- H1. apply Hi. }
  destruct I as (I1 & _ & _ & I4). specialize (I4 Hpf d). unfold due in I4.
  destruct (paused s); [exact I4|]. rewrite I1. exact I4.
Qed.

(** Examples and witnesses: accounts are the keys plus 1000. *)
Definition ac (k : N) : N := k + 1000.
Definition all_sign (a : asked) : keys := a_by a.
Definition white_of (l : list N) : gmap N bool := fold_left (fun w x => <[x := true]> w) l ∅.
Definition start (w ks : list N) (tk : door -> N * N) : dst :=
  let a := select 8 (white_of w) ks in Dst (white_of w) ks a a [] false false (fun _ => true) tk [] [] [].
Definition list_of (ks : list N) : slist := Slist (map (fun k => (ac k, 1)) ks) (N.of_nat (length ks) - 1).
Definition tk0 (d : door) : N * N := (10, 30).
Notation go := (run (dstep ac 8 20)).
Lemma all_sign_ok a : incl (a_set a) (a_by a) -> proof_ok all_sign a.
Proof.
  intros H. split; [apply incl_refl|].
  replace (List.filter _ (a_set a)) with (a_set a); [lia|].
  unfold all_sign. induction (a_set a) as [|x r IH]; cbn [List.filter]; [reflexivity|].
  rewrite bool_decide_eq_true_2 by (apply elem_of_list_In, H; left; reflexivity).
  f_equal. apply IH. intros y Hy. apply H. right. exact Hy.
Qed.
Lemma log_ok log : forallb (fun a => forallb (fun k => bool_decide (k ∈ a_by a)) (a_set a)) log = true ->
  forall a, a ∈ log -> proof_ok all_sign a.
Proof.
  intros H a Ha. apply all_sign_ok. rewrite forallb_forall in H. apply elem_of_list_In in Ha. specialize (H _ Ha).
  rewrite forallb_forall in H. intros k Hk. apply elem_of_list_In. eapply bool_decide_eq_true_1, (H k Hk).
Qed.
Definition hist0 : list dop := [OChange [1; 2; 4; 9]; OFinal [1; 2; 4; 9]; OPause true; OPause false; OChange [9; 4; 2; 1]; OFinal [9; 4; 2; 1]].
Example C185_follow_ex :
  let s0 := start [1; 2; 3; 4] [1; 2; 3] tk0 in let s := go hist0 s0 in
  along (dstep ac 8 20) (orderly ac 8) hist0 s0 /\ (forall a, a ∈ digests s -> proof_ok all_sign a) /\
  length (digests s) = 2%nat /\ active s = [4; 2; 1] /\
  ledger ac all_sign (list_of [1; 2; 3]) Nft (digests s) = list_of [1; 2; 4].
Proof.
  cbn zeta. split; [|split; [|vm_compute; repeat split]].
  - unfold hist0. cbn [along orderly]. unfold ready.
    assert (N1 : NoDup (map ac [1; 2; 4; 9])) by (refine (bool_decide_eq_true_1 _ _); vm_compute; reflexivity).
    assert (N2 : NoDup (map ac [9; 4; 2; 1])) by (refine (bool_decide_eq_true_1 _ _); vm_compute; reflexivity).
    repeat split; try exact N1; try exact N2; try (vm_compute; lia); try (vm_compute; reflexivity).
    + right. vm_compute. repeat split.
    + left. vm_compute. change (Permutation [1; 2; 4] (rev [1; 2; 4])). apply Permutation_rev.
  - apply log_ok. vm_compute. reflexivity.
Qed.

(** * C185: no ticket is used twice and no request is lost *)
(** The tickets from [n] up to [m]. *)
Definition span (n m : N) : list N := map (fun i => n + N.of_nat i) (seq 0 (N.to_nat (m - n))).
(** The tickets in all signer lists of a door that were put into blocks or still wait. *)
Definition used (s : dst) (d : door) : list N :=
  map s_ticket (List.filter (fun t => door_eqb (s_door t) d) (later s ++ map a_tx (digests s))).
Definition no_tickets (o : dop) : Prop := match o with OTickets _ _ _ => False | _ => True end.
Section tickets.
  Variables (acc : N -> N) (maxk maxn : N) (n0 : door -> N).
  Definition TI (s : dst) : Prop := forall d, n0 d <= fst (ticket s d) /\ Permutation (used s d) (span (n0 d) (fst (ticket s d))).
  Definition moved (s : dst) (d : door) (s' : dst) : Prop := forall x,
    if door_eqb x d then fst (ticket s' x) = fst (ticket s x) + 1 /\ Permutation (used s' x) (fst (ticket s x) :: used s x)
    else fst (ticket s' x) = fst (ticket s x) /\ Permutation (used s' x) (used s x).
  Lemma span_next n m : n <= m -> Permutation (m :: span n m) (span n (m + 1)).
  Proof.
    intros H. unfold span. replace (N.to_nat (m + 1 - n)) with (S (N.to_nat (m - n))) by lia. rewrite seq_S, map_app. cbn [map].
    replace (n + N.of_nat (0 + N.to_nat (m - n))) with m by lia. apply Permutation_cons_append.
  Qed.
  Lemma TI_moved s d s' : TI s -> moved s d s' -> TI s'.
  Proof.
    intros H M x. specialize (H x). specialize (M x). destruct H as [H1 H2]. destruct (door_eqb x d); destruct M as [M1 M2]; rewrite M1.
    - split; [lia|]. rewrite M2, H2. apply span_next, H1.
    - split; [exact H1|]. rewrite M2. exact H2.
  Qed.
  Lemma filter_perm {A} (f : A -> bool) l1 l2 : Permutation l1 l2 -> Permutation (List.filter f l1) (List.filter f l2).
  Proof.
    intros H. induction H as [|x l1 l2 _ IH|x y l|l1 l2 l3 _ IH1 _ IH2]; cbn [List.filter].
    - constructor.
    - destruct (f x); [constructor|]; exact IH.
    - destruct (f x), (f y); try apply Permutation_refl. constructor.
    - etransitivity; eassumption.
  Qed.
  Lemma used_perm s s' d : Permutation (later s ++ map a_tx (digests s)) (later s' ++ map a_tx (digests s')) -> Permutation (used s d) (used s' d).
  Proof. intros H. unfold used. apply Permutation_map, filter_perm, H. Qed.
  Lemma request_all s t : Permutation (later (request s t) ++ map a_tx (digests (request s t))) (t :: later s ++ map a_tx (digests s)) /\ ticket (request s t) = ticket s.
  Proof.
    unfold request. destruct (manual s || paused s); cbn [later digests ticket map a_tx]; split; try reflexivity.
    - rewrite <- app_assoc. cbn [app]. symmetry. apply Permutation_middle.
    - symmetry. apply Permutation_middle.
  Qed.
  Lemma TI_same s s' : later s' = later s -> digests s' = digests s -> ticket s' = ticket s -> TI s -> TI s'.
  Proof. intros E1 E2 E3 H d. unfold used. rewrite E1, E2, E3. apply H. Qed.
  Lemma submit_TI es ds : forall s, TI s -> TI (fst (submit s es ds)).
  Proof.
    induction ds as [|d ds IH]; intros s H; [exact H|]. cbn [submit]. destruct (addr s d); [|exact H].
    unfold take_ticket. destruct (ticket s d) as [n e] eqn:Et. destruct (n <? e); [|exact H].
    set (s1 := Dst _ _ _ _ _ _ _ _ _ _ _ _). set (s2 := request s1 _). specialize (IH s2).
    destruct (submit s2 es ds) as [s3 r] eqn:Es. cbn [fst] in *. apply IH. apply (TI_moved s d); [exact H|].
    destruct (request_all s1 (Sls d n es (N.of_nat (length es) - 1))) as [P E]. fold s2 in P, E. cbn [s1 later digests] in P.
    intros x. unfold used at 1 3. rewrite E. cbn [s1 ticket].
    assert (P1 : Permutation (used s2 x) ((if door_eqb d x then [n] else []) ++ used s x)).
    { unfold used. rewrite (filter_perm _ _ _ P). cbn [List.filter s_door]. destruct (door_eqb d x); reflexivity. }
    destruct d, x; cbn [door_eqb] in *; rewrite ?Et; cbn [fst app] in *; split; try reflexivity; exact P1.
  Qed.
  Lemma drop_perm {A} (l : list A) : forall i x, nth_error l i = Some x -> Permutation l (x :: drop_nth i l).
  Proof.
    induction l as [|y l IH]; intros [|i] x H; try discriminate; cbn [drop_nth].
    - injection H as <-. reflexivity.
    - cbn [nth_error] in H. rewrite (IH i x H) at 1. apply perm_swap.
  Qed.
  Lemma TI_step s o : no_tickets o -> TI s -> TI (dstep acc maxk maxn s o).
  Proof.
    intros Hn H. destruct o as [l|next|next|b|d b|d n e|i]; cbn [dstep].
    - unfold set_signers. destruct (_ <? _); [|exact H]. revert H. apply TI_same; reflexivity.
    - unfold change. destruct (same _ _); [revert H; apply TI_same; reflexivity|].
      pose proof (submit_TI (map (fun k => (acc k, 1)) (sort (select maxk (white s) next))) doors s H) as H1.
      destruct (submit s _ doors) as [s1 r]. cbn [fst] in H1. revert H1. apply TI_same; reflexivity.
    - revert H. apply TI_same; reflexivity.
    - revert H. apply TI_same; reflexivity.
    - revert H. apply TI_same; reflexivity.
    - destruct Hn.
    - unfold release. destruct (manual s || paused s); [exact H|]. destruct (nth_error (later s) i) as [t|] eqn:Et; [|exact H].
      set (s1 := Dst _ _ _ _ _ _ _ _ _ _ _ _). destruct (request_all s1 t) as [P E]. intros d. rewrite E. cbn [s1 ticket].
      assert (P1 : Permutation (used (request s1 t) d) (used s d)).
      { apply used_perm. rewrite P. cbn [s1 later digests]. rewrite (drop_perm _ _ _ Et) at 2. reflexivity. }
      destruct (H d) as [H1 H2]. split; [exact H1|]. rewrite P1. exact H2.
  Qed.
End tickets.
(** However sets are announced and installed and requests delayed and released: of the tickets of a door, those from the first on
    up to the next one are each in exactly one signer list, put into a block or waiting. *)
Theorem C185_tickets acc maxk maxn s0 ops d :
  later s0 = [] -> digests s0 = [] -> (forall o, In o ops -> no_tickets o) ->
  let s := run (dstep acc maxk maxn) ops s0 in
  Permutation (used s d) (span (fst (ticket s0 d)) (fst (ticket s d))).
Proof.
  intros H1 H2 Ho s. assert (T : TI (fun d => fst (ticket s0 d)) s).
  { unfold s. clear s. assert (T0 : TI (fun d => fst (ticket s0 d)) s0).
    { intros x. split; [lia|]. unfold used. rewrite H1, H2. unfold span. rewrite N.sub_diag. reflexivity. }
    revert T0. generalize (fun d => fst (ticket s0 d)). intros n0. clear H1 H2. generalize s0. induction ops as [|o l IH]; intros s T0; [exact T0|].
    cbn [run fold_left]. apply IH; [intros o' Ho'; apply Ho; right; exact Ho'|]. apply TI_step; [apply Ho; left; reflexivity|exact T0]. }
  apply T.
Qed.

Example C185_tickets_ex :
  let s := go [OChange [1; 2; 4; 9]; OFinal [1; 2; 4; 9]; OPause true; OChange [1; 2; 3]; OFinal [1; 2; 3]; OPause false; ORelease 1] (start [1; 2; 3; 4] [1; 2; 3] tk0) in
  used s Nft = [11; 10] /\ length (later s) = 1%nat /\ ticket s Nft = (12, 30) /\ span 10 12 = [10; 11].
Proof. vm_compute. auto. Qed.

(** Root takes a signer off the whitelist: the active notaries change at once, the XRPL is never told, however many sets
    are announced and installed afterwards, and the signatures that then make a proof need not satisfy the door. *)
Definition round (ks : keys) : list dop := [OChange ks; OFinal ks].
Fixpoint rounds (n : nat) (ks : keys) : list dop := match n with O => [] | S n => round ks ++ rounds n ks end.
Definition few (a : asked) : keys := firstn 2 (a_set a).
Definition pay (s : dst) : asked := Asked (Sls Main 0 [] 0) (notary s) (gadget s).
Lemma quiet n ks s : active s = select 8 (white s) ks -> gadget s = active s -> notary s = ks -> paused s = false ->
  let s' := go (rounds n ks) s in digests s' = digests s /\ active s' = active s /\ gadget s' = gadget s /\ notary s' = ks.
Proof.
  revert s. induction n as [|n IH]; intros s H1 H2 H3 H4; cbn zeta; [auto|].
  cbn [rounds]. rewrite run_app. set (s1 := go (round ks) s).
  assert (E : s1 = Dst (white s) ks (active s) (active s) ks (manual s) false (addr s) (ticket s) (later s) (digests s) (devs s)).
  { unfold s1, round. cbn [run fold_left dstep]. unfold change.
    replace (same (active s) (sort (select 8 (white s) ks))) with true.
    - unfold finalise, update, set_active. cbn [white notary active gadget told manual paused addr ticket later digests devs]. rewrite <- H1. reflexivity.
    - symmetry. unfold same. apply bool_decide_eq_true. rewrite H1. symmetry. apply sort_eq, sort_perm. }
  destruct (IH s1) as (A & B & C & D); try (rewrite E; cbn [white notary active gadget paused]; auto; fail).
  cbn zeta in *. rewrite A, B, C, D, E. cbn [digests active gadget]. repeat split; congruence.
Qed.
Theorem C185_set_refuted : exists s0 l ks, forall n,
  let s := go (OSigners l :: rounds (S n) ks) s0 in let old := list_of [1; 2; 3; 4; 5] in
  active s0 = [1; 2; 3; 4; 5] /\ fits ac (active s0) old /\
  active s = [1; 2; 3] /\ (forall pf d, ledger ac pf old d (digests s) = old) /\
  proof_ok few (pay s) /\ weight (l_entries old) (map ac (few (pay s))) < l_quorum old.
Proof.
  exists (start [1; 2; 3; 4; 5] [1; 2; 3; 4; 5] tk0), [(4, false); (5, false)], [1; 2; 3; 4; 5].
  intros n. cbn zeta. change (OSigners [(4, false); (5, false)] :: rounds (S n) [1; 2; 3; 4; 5])
    with ([OSigners [(4, false); (5, false)]; OChange [1; 2; 3; 4; 5]; OFinal [1; 2; 3; 4; 5]] ++ rounds n [1; 2; 3; 4; 5]).
  rewrite run_app. set (s1 := go [_; _; _] _).
  destruct (quiet n [1; 2; 3; 4; 5] s1 ltac:(vm_compute; reflexivity) ltac:(vm_compute; reflexivity) ltac:(vm_compute; reflexivity) ltac:(vm_compute; reflexivity)) as (A & B & C & D).
  cbn zeta in A, B, C, D. unfold pay. rewrite A, B, C, D.
  split; [vm_compute; reflexivity|]. split; [split; vm_compute; reflexivity|].
  split; [vm_compute; reflexivity|]. split; [intros pf d; vm_compute; reflexivity|].
  split; [|vm_compute; reflexivity].
  split; [|vm_compute; discriminate]. vm_compute. tauto.
Qed.

(** The second door is out of tickets when the set changes: the first door is told, the second never is, though tickets come
    the next moment and however many sets are announced and installed afterwards. *)
Definition lean (d : door) : N * N := match d with Main => (10, 30) | Nft => (30, 30) end.
Definition half : list dop := [OChange [1; 2; 4]; OTickets Nft 40 90; OFinal [1; 2; 4]].
Theorem C185_failed_refuted : exists s0, forall n,
  let s := go (half ++ rounds n [1; 2; 4]) s0 in let old := list_of [1; 2; 3] in
  active s0 = [1; 2; 3] /\ fits ac (active s0) old /\ active s = [1; 2; 4] /\
  (forall a, a ∈ digests s -> proof_ok all_sign a) /\
  ledger ac all_sign old Main (digests s) = list_of [1; 2; 4] /\
  (forall pf, ledger ac pf old Nft (digests s) = old).
Proof.
  exists (start [1; 2; 3; 4] [1; 2; 3] lean). intros n. cbn zeta. rewrite run_app. set (s1 := go half _).
  destruct (quiet n [1; 2; 4] s1 ltac:(vm_compute; reflexivity) ltac:(vm_compute; reflexivity) ltac:(vm_compute; reflexivity) ltac:(vm_compute; reflexivity)) as (A & B & C & D).
  cbn zeta in A, B, C, D. rewrite A, B.
  split; [vm_compute; reflexivity|]. split; [split; vm_compute; reflexivity|]. split; [vm_compute; reflexivity|].
  split; [|split; [vm_compute; reflexivity|intros pf; vm_compute; reflexivity]].
  apply log_ok. vm_compute. reflexivity.
Qed.

(** The bridge is paused by hand when the set changes: the requests wait until the new notaries are in, who cannot sign for
    the doors, so the doors keep the old signers though every notary signs. *)
Definition wait : list dop :=
  [OPause true; OChange [4; 5; 6]; OFinal [4; 5; 6]; OPause false; ORelease 0; ORelease 0].
Theorem C185_paused_refuted : exists s0, forall n,
  let s := go (wait ++ rounds n [4; 5; 6]) s0 in let old := list_of [1; 2; 3] in
  active s0 = [1; 2; 3] /\ fits ac (active s0) old /\ active s = [4; 5; 6] /\ length (digests s) = 2%nat /\
  (forall pf d, (forall a, a ∈ digests s -> proof_ok pf a) -> ledger ac pf old d (digests s) = old).
Proof.
  exists (start [1; 2; 3; 4; 5; 6] [1; 2; 3] tk0). intros n. cbn zeta. rewrite run_app. set (s1 := go wait _).
  destruct (quiet n [4; 5; 6] s1 ltac:(vm_compute; reflexivity) ltac:(vm_compute; reflexivity) ltac:(vm_compute; reflexivity) ltac:(vm_compute; reflexivity)) as (A & B & C & D).
  cbn zeta in A, B, C, D. rewrite A, B.
  split; [vm_compute; reflexivity|]. split; [split; vm_compute; reflexivity|]. split; [vm_compute; reflexivity|].
  split; [vm_compute; reflexivity|]. intros pf d Hpf.
  assert (W : forall a, a ∈ digests s1 -> weight (l_entries (list_of [1; 2; 3])) (map ac (pf a)) = 0).
  { intros a Ha. destruct (Hpf a Ha) as [Hi _].
    assert (Hb : a_by a = [4; 5; 6]).
    { revert a Ha Hi. enough (F : Forall (fun a => a_by a = [4; 5; 6]) (digests s1)) by (intros a Ha _; rewrite Forall_forall in F; auto).
      vm_compute. repeat constructor. }
    rewrite Hb in Hi. unfold weight, total, list_of. cbn [l_entries map fold_right fst snd].
    assert (X : forall k, k <= 3 -> bool_decide (ac k ∈ map ac (pf a)) = false).
    { intros k Hk3. apply bool_decide_eq_false. intros Hin. apply elem_of_list_In, in_map_iff in Hin.
      destruct Hin as (x & Ex & Hx). apply Hi in Hx. unfold ac in Ex. cbn in Hx. lia. }
    rewrite !X by lia. reflexivity. }
  destruct (digests s1) as [|a1 [|a2 [|]]] eqn:Ed; try (vm_compute in Ed; discriminate Ed).
  cbn [ledger fold_right].
  assert (Q : forall a t, a ∈ [a1; a2] -> applied (list_of [1; 2; 3]) d t (map ac (pf a)) = list_of [1; 2; 3]).
  { intros a t Ha. unfold applied. rewrite (W a Ha). replace (l_quorum (list_of [1; 2; 3]) <=? 0) with false by (vm_compute; reflexivity).
    rewrite !andb_false_r. reflexivity. }
  rewrite (Q a2) by (right; left). apply Q. left.
Qed.

(** * C186: who the XRPL notaries are *)
(** At any time, whatever happened: the XRPL notaries are notaries on the whitelist, at most [maxk] of them, in the notaries'
    order; and a whitelisted notary is left out only if there are [maxk] before it. *)
Definition rightly (maxk : N) (s : dst) : Prop :=
  (length (active s) <= N.to_nat maxk)%nat /\
  (forall k, k ∈ active s -> k ∈ notary s /\ white s !! k = Some true) /\
  (forall k, k ∈ notary s -> white s !! k = Some true -> k ∉ active s -> length (active s) = N.to_nat maxk) /\
  sublist (active s) (notary s).
Lemma select_rightly maxk w ks : let l := select maxk w ks in
  (length l <= N.to_nat maxk)%nat /\ (forall k, k ∈ l -> k ∈ ks /\ w !! k = Some true) /\
  (forall k, k ∈ ks -> w !! k = Some true -> k ∉ l -> length l = N.to_nat maxk) /\ sublist l ks.
Proof.
  cbn zeta. unfold select. set (f := List.filter (listed w) ks).
  assert (F : forall k, k ∈ f <-> k ∈ ks /\ w !! k = Some true).
  { intros k. unfold f. rewrite !elem_of_list_In, filter_In. unfold listed.
    destruct (w !! k) as [[]|]; split; intros [? ?]; split; congruence. }
  assert (Sf : sublist f ks).
  { unfold f. clear. induction ks as [|k r IH]; cbn [List.filter]; [constructor|]. destruct (listed w k); constructor; exact IH. }
  split; [apply firstn_le_length|]. split; [|split].
  - intros k Hin. apply F. rewrite <- (firstn_skipn (N.to_nat maxk) f). apply elem_of_app. left. exact Hin.
  - intros k Hk Hw Hn. rewrite firstn_length. 
    destruct (Nat.le_gt_cases (N.to_nat maxk) (length f)) as [L|L]; [lia|].
    exfalso. apply Hn. rewrite firstn_all2 by lia. apply F. auto.
  - etransitivity; [|exact Sf]. change (firstn (N.to_nat maxk) f) with (take (N.to_nat maxk) f). apply sublist_take.
Qed.
Theorem C186_keys acc maxk maxn w ks ops : rightly maxk (run (dstep acc maxk maxn) ops (genesis maxk w ks)).
Proof.
  assert (H : let s := run (dstep acc maxk maxn) ops (genesis maxk w ks) in active s = select maxk (white s) (notary s)).
  { apply (run_inv (dstep acc maxk maxn) (fun s => active s = select maxk (white s) (notary s))); [|reflexivity].
    assert (R : forall s t, active s = select maxk (white s) (notary s) ->
              let s' := request s t in active s' = select maxk (white s') (notary s')).
    { intros s t Hs. unfold request. destruct (manual s || paused s); exact Hs. }
    assert (U : forall ds s es, active s = select maxk (white s) (notary s) ->
              let s' := fst (submit s es ds) in active s' = select maxk (white s') (notary s')).
    { induction ds as [|d ds IH]; intros s es Hs; cbn [submit fst]; [exact Hs|].
      destruct (addr s d); [|exact Hs]. unfold take_ticket. destruct (ticket s d) as [n e]. destruct (n <? e); [|exact Hs].
      match goal with |- context [submit ?x es ds] => specialize (IH x es) end.
      match goal with |- context [submit ?x es ds] => destruct (submit x es ds) as [s' r] end. cbn [fst] in *. apply IH. apply R. exact Hs. }
    intros s o Hs. destruct o as [l|next|next|b|d b|d n e|i]; cbn [dstep]; try exact Hs.
    - unfold set_signers. destruct (_ <? maxn); [reflexivity|exact Hs].
    - unfold change. destruct (same _ _); [exact Hs|].
      match goal with |- context [submit s ?es doors] => specialize (U doors s es Hs) end.
      destruct (submit s _ doors) as [s' r]. cbn [fst] in U. exact U.
    - reflexivity.
    - unfold release. destruct (manual s || paused s); [exact Hs|]. destruct (nth_error (later s) i); [|exact Hs].
      apply R. exact Hs. }
  cbn zeta in H. unfold rightly. rewrite H. apply select_rightly.
Qed.
Example C186_keys_ex :
  let s := go [OSigners [(3, false); (12, true)]; OChange [5; 3; 12; 1]; OFinal [5; 3; 12; 1]] (genesis 8 [1; 2; 3] [1; 2; 3; 12]) in
  active s = [12; 1].
Proof. vm_compute. reflexivity. Qed.
(** What [set_xrpl_door_signers] puts on the whitelist, if it is no longer than allowed: its last word on each key. *)
Lemma find_app_eq {A} (f : A -> bool) l r :
  List.find f (l ++ r) = match List.find f l with Some x => Some x | None => List.find f r end.
Proof. induction l as [|x l IH]; cbn [List.find app]; [reflexivity|]. destruct (f x); [reflexivity|exact IH]. Qed.
Lemma fold_insert l (w : gmap N bool) k :
  fold_left (fun w x => <[fst x := snd x]> w) l w !! k =
  match List.find (fun x => fst x =? k) (rev l) with Some x => Some (snd x) | None => w !! k end.
Proof.
  revert w. induction l as [|[a b] r IH]; intros w; cbn [fold_left rev fst snd]; [reflexivity|].
  rewrite IH, find_app_eq.
  destruct (List.find _ (rev r)) as [x|]; [reflexivity|]. cbn [List.find fst snd].
  destruct (N.eqb_spec a k) as [->|Hn]; [rewrite lookup_insert; reflexivity|rewrite lookup_insert_ne by exact Hn; reflexivity].
Qed.
Theorem C186_set maxk maxn s l : maxn <= 256 -> N.of_nat (length l) < maxn ->
  let s' := set_signers maxk maxn s l in
  (forall k, white s' !! k = match List.find (fun x => fst x =? k) (rev l) with Some x => Some (snd x) | None => white s !! k end) /\
  notary s' = notary s /\ gadget s' = gadget s /\ digests s' = digests s /\ later s' = later s.
Proof.
  intros H1 H2. cbn zeta. unfold set_signers. rewrite N.mod_small by lia. rewrite (proj2 (N.ltb_lt _ _) H2).
  split; [|auto]. intros k. cbn [update set_active white]. apply fold_insert.
Qed.
Example C186_set_ex : let s := set_signers 8 20 (start [1] [1; 2] tk0) [(1, true); (2, true); (1, false)] in
  white s !! 1 = Some false /\ white s !! 2 = Some true /\ active s = [2].
Proof. vm_compute. repeat split. Qed.
(** The limit of fewer than 20 changes in a call is missed: 256 pass. *)
Theorem C186_limit_refuted : exists s l, length l = 256%nat /\ white (set_signers 8 20 s l) !! 255 = Some true /\ white s !! 255 = None.
Proof.
  exists (start [1] [1; 2] tk0), (map (fun n => (N.of_nat n, true)) (seq 0 256)). vm_compute. repeat split.
Qed.
(** Notaries agree on the signers they wait for — refuted: after root's call a node that has been running waits for others
    than one that starts now ([xrpl_signers] gives it [active]), until the next change of authorities. *)
Theorem C186_agree_refuted : exists s0 l, let s := go [OSigners l] s0 in gadget s0 = active s0 /\ gadget s <> active s.
Proof. exists (start [1; 2; 3] [1; 2; 3; 4] tk0), [(3, false)]. vm_compute. split; [reflexivity|discriminate]. Qed.
(** After a change of authorities they agree, for as long as root leaves the whitelist alone. *)
Definition calls_root (o : dop) : bool := match o with OSigners _ => true | _ => false end.
Theorem C186_agree acc maxk maxn s0 before next after :
  Forall (fun o => calls_root o = false) after ->
  let s := run (dstep acc maxk maxn) (before ++ OFinal next :: after) s0 in gadget s = active s.
Proof.
  intros Hf. cbn zeta. rewrite run_app. cbn [run fold_left]. set (s1 := dstep acc maxk maxn _ (OFinal next)).
  change (gadget (run (dstep acc maxk maxn) after s1) = active (run (dstep acc maxk maxn) after s1)).
  assert (H1 : gadget s1 = active s1) by reflexivity. clearbody s1. clear s0 before. revert s1 H1.
  assert (U : forall ds s es, gadget s = active s -> let s' := fst (submit s es ds) in gadget s' = active s').
  { induction ds as [|d ds IH]; intros s es Hs; cbn [submit fst]; [exact Hs|].
    destruct (addr s d); [|exact Hs]. unfold take_ticket. destruct (ticket s d) as [n e]. destruct (n <? e); [|exact Hs].
    match goal with |- context [submit ?x es ds] => specialize (IH x es) end.
    match goal with |- context [submit ?x es ds] => destruct (submit x es ds) as [s' r] end. cbn [fst] in *. apply IH.
    unfold request. destruct (_ || _); exact Hs. }
  induction Hf as [|o r Ho Hr IH]; intros s Hs; [exact Hs|]. cbn [run fold_left].
  apply IH. destruct o as [l|nx|nx|b|d b|d n e|i]; cbn [dstep]; try exact Hs.
  - discriminate Ho.
  - unfold change. destruct (same _ _); [exact Hs|].
    match goal with |- context [submit s ?es doors] => specialize (U doors s es Hs) end.
    destruct (submit s _ doors) as [s' q]. cbn [fst] in U. exact U.
  - reflexivity.
  - unfold release. destruct (manual s || paused s); [exact Hs|]. destruct (nth_error (later s) i); [|exact Hs].
    unfold request. destruct (_ || _); exact Hs.
Qed.
Example C186_agree_ex :
  let s := go [OSigners [(3, false)]; OChange [1; 2; 3; 4]; OFinal [1; 2; 3; 4]; OChange [4; 2]] (start [1; 2; 3; 4] [1; 2; 3] tk0) in
  gadget s = [1; 2; 4].
Proof. vm_compute. reflexivity. Qed.

(** * C187: how many must sign *)
(** Every request ever made lists accounts with weight 1, at most [maxk], and asks for all but one. *)
Definition modest (maxk : N) (t : sls) : Prop :=
  (length (s_entries t) <= N.to_nat maxk)%nat /\ Forall (fun e => snd e = 1) (s_entries t) /\
  s_quorum t = N.of_nat (length (s_entries t)) - 1.
Definition requests (s : dst) : list sls := later s ++ map a_tx (digests s).
Lemma drop_nth_in {A} i (l : list A) x : In x (drop_nth i l) -> In x l.
Proof.
  revert i. induction l as [|y r IH]; intros i; [destruct i; cbn; tauto|]. destruct i; cbn; [tauto|]. intros [->|H]; eauto.
Qed.
Theorem C187_quorum acc maxk maxn w ks ops t :
  In t (requests (run (dstep acc maxk maxn) ops (genesis maxk w ks))) -> modest maxk t.
Proof.
  revert t. apply (run_inv (dstep acc maxk maxn) (fun s => forall t, In t (requests s) -> modest maxk t)); [|cbn; tauto].
  assert (R : forall s t, modest maxk t -> (forall t, In t (requests s) -> modest maxk t) -> forall t', In t' (requests (request s t)) -> modest maxk t').
  { intros s t Ht Hs t'. unfold request, requests. destruct (manual s || paused s); cbn [later digests map a_tx]; rewrite in_app_iff.
    - rewrite in_app_iff. cbn. intros [[H|[<-|[]]]|H]; [apply Hs, in_app_iff; auto|exact Ht|apply Hs, in_app_iff; auto].
    - cbn. intros [H|[<-|H]]; [apply Hs, in_app_iff; auto|exact Ht|apply Hs, in_app_iff; auto]. }
  assert (U : forall es, (length es <= N.to_nat maxk)%nat -> Forall (fun e => snd e = 1) es -> forall ds s,
            (forall t, In t (requests s) -> modest maxk t) -> forall t, In t (requests (fst (submit s es ds))) -> modest maxk t).
  { intros es He Hf. induction ds as [|d ds IH]; intros s Hs; cbn [submit fst]; [exact Hs|].
    destruct (addr s d); [|exact Hs]. unfold take_ticket. destruct (ticket s d) as [n e]. destruct (n <? e); [|exact Hs].
    match goal with |- context [submit ?x es ds] => specialize (IH x) end.
    match goal with |- context [submit ?x es ds] => destruct (submit x es ds) as [s' r] end. cbn [fst] in *. apply IH.
    apply R; [|exact Hs]. split; [exact He|]. split; [exact Hf|reflexivity]. }
  intros s o Hs. destruct o as [l|next|next|b|d b|d n e|i]; cbn [dstep]; try exact Hs.
  - unfold set_signers. destruct (_ <? maxn); exact Hs.
  - unfold change. destruct (same _ _); [exact Hs|].
    match goal with |- context [submit s ?es doors] => specialize (U es) end.
    assert (L : (length (map (fun k => (acc k, 1%N)) (sort (select maxk (white s) next))) <= N.to_nat maxk)%nat).
    { rewrite map_length, (Permutation_length (sort_perm _)). apply select_len. }
    specialize (U L). 
    assert (Fo : Forall (fun e => snd e = 1) (map (fun k => (acc k, 1)) (sort (select maxk (white s) next)))).
    { apply Forall_forall. intros x Hx. apply elem_of_list_In, in_map_iff in Hx. destruct Hx as (y & <- & _). reflexivity. }
    specialize (U Fo doors s Hs). destruct (submit s _ doors) as [s' r]. cbn [fst] in U. exact U.
  - unfold release. destruct (manual s || paused s); [exact Hs|]. destruct (nth_error (later s) i) as [t|] eqn:E; [|exact Hs].
    apply R.
    + apply Hs, in_app_iff. left. eapply nth_error_In, E.
    + intros t' H'. unfold requests in H'. cbn [later digests] in H'. apply in_app_iff in H'. apply Hs, in_app_iff.
      destruct H' as [H'|H']; [left; eapply drop_nth_in, H'|right; exact H'].
Qed.
(** Accounts that reach the quorum of such a list of different accounts: all but at most one; so two groups that each reach
    it share a member if there are three signers or more. *)
Lemma weight_count es p : Forall (fun e => snd e = 1) es ->
  weight es p = N.of_nat (length (List.filter (fun e => bool_decide (fst e ∈ p)) es)).
Proof.
  unfold weight, total. induction 1 as [|e r He Hr IH]; cbn [fold_right List.filter]; [reflexivity|].
  rewrite IH. destruct (bool_decide (fst e ∈ p)); cbn [length]; lia.
Qed.
Lemma filter_two {A} (f g : A -> bool) l :
  (length (List.filter f l) + length (List.filter g l) <= length l + length (List.filter (fun x => f x && g x) l))%nat.
Proof. induction l as [|x r IH]; cbn [List.filter]; [lia|]. destruct (f x), (g x); cbn [andb length]; lia. Qed.
Theorem C187_share maxk t p q : modest maxk t -> (3 <= length (s_entries t))%nat ->
  s_quorum t <= weight (s_entries t) p -> s_quorum t <= weight (s_entries t) q ->
  exists a, a ∈ map fst (s_entries t) /\ a ∈ p /\ a ∈ q.
Proof.
  intros (_ & Hf & Hq) H3 Hp Hp'. rewrite weight_count in Hp, Hp' by exact Hf.
  pose proof (filter_two (fun e => bool_decide (fst e ∈ p)) (fun e => bool_decide (fst e ∈ q)) (s_entries t)) as F. cbn beta in F.
  destruct (List.filter (fun e => bool_decide (fst e ∈ p) && bool_decide (fst e ∈ q)) (s_entries t)) as [|e r] eqn:E; [cbn [length] in F; lia|].
  assert (He : In e (e :: r)) by (left; reflexivity). rewrite <- E in He. apply filter_In in He. destruct He as [He Hb].
  apply andb_true_iff in Hb. rewrite !bool_decide_eq_true in Hb. exists (fst e). split; [|exact Hb].
  apply elem_of_list_In, in_map, He.
Qed.
(** And one signer may be missing. *)
Theorem C187_spare maxk t x p : modest maxk t -> NoDup (map fst (s_entries t)) ->
  (forall a, a ∈ map fst (s_entries t) -> a <> x -> a ∈ p) -> s_quorum t <= weight (s_entries t) p.
Proof.
  intros (_ & Hf & Hq) Hn Hp. rewrite weight_count, Hq by exact Hf.
  enough ((length (s_entries t) <= length (List.filter (fun e => bool_decide (fst e ∈ p)) (s_entries t)) + 1)%nat) by lia.
  clear Hq Hf. revert Hn Hp. induction (s_entries t) as [|e r IH]; cbn [map List.filter length]; intros Hn Hp; [lia|].
  apply NoDup_cons in Hn. destruct Hn as [Hx Hr].
  destruct (N.eq_dec (fst e) x) as [<-|Hd].
  - enough (List.filter (fun e => bool_decide (fst e ∈ p)) r = r) as -> by (destruct (bool_decide _); cbn [length]; lia).
    clear IH Hr. induction r as [|y r IH]; cbn [List.filter map] in *; [reflexivity|].
    rewrite bool_decide_eq_true_2; [f_equal; apply IH|].
    + intros H. apply Hx. right. exact H.
    + intros a Ha Hd. apply Hp; [|exact Hd]. apply elem_of_cons in Ha. destruct Ha as [->|Ha]; [left|right; right; exact Ha].
    + apply Hp; [right; left|]. intros E. apply Hx. rewrite E. left.
  - rewrite bool_decide_eq_true_2 by (apply Hp; [left|exact Hd]). cbn [length].
    assert (X := IH Hr (fun a Ha Hd' => Hp a (elem_of_list_further _ _ _ Ha) Hd')). lia.
Qed.
Example C187_ex : let s := go [OChange [1; 2; 4]] (start [1; 2; 3; 4] [1; 2; 3] tk0) in
  map (fun a => (map fst (s_entries (a_tx a)), s_quorum (a_tx a))) (digests s) = [([1001; 1002; 1004], 2); ([1001; 1002; 1004], 2)].
Proof. vm_compute. reflexivity. Qed.
(** One signer alone never moves a door's money — refuted when two are left; and with one or none left the XRPL refuses the
    request while the chain makes that set its own. *)
Theorem C187_alone_refuted : exists s0 ks, let s := go (round ks) s0 in
  active s = ks /\ (forall a, a ∈ digests s -> proof_ok all_sign a) /\
  let l := ledger ac all_sign (list_of [1; 2; 3]) Main (digests s) in
  fits ac (active s) l /\ l_quorum l <= weight (l_entries l) [ac 1] /\ l_quorum l <= weight (l_entries l) [ac 2].
Proof.
  exists (start [1; 2; 3] [1; 2; 3] tk0), [1; 2]. cbn zeta. split; [vm_compute; reflexivity|]. split.
  - apply log_ok. vm_compute. reflexivity.
  - split; [split; vm_compute; reflexivity|]. split; vm_compute; discriminate.
Qed.
Theorem C187_few_refuted : exists s0, forall ks, In ks [[]; [1]] -> let s := go (round ks) s0 in
  active s = ks /\ length (digests s) = 2%nat /\
  (forall pf d, ledger ac pf (list_of [1; 2; 3]) d (digests s) = list_of [1; 2; 3]).
Proof.
  exists (start [1; 2; 3] [1; 2; 3] tk0). intros ks [<-|[<-|[]]]; cbn zeta.
  all: split; [vm_compute; reflexivity|split; [vm_compute; reflexivity|]].
  all: intros pf d; cbn -[map weight]; unfold applied; destruct d; reflexivity.
Qed.

Definition C185_C187_assumptions := (@C185_follow, @C185_tickets, C185_set_refuted, C185_failed_refuted, C185_paused_refuted, @C186_keys, @C186_set,
  C186_limit_refuted, C186_agree_refuted, @C186_agree, @C187_quorum, @C187_share, @C187_spare, C187_alone_refuted, C187_few_refuted).
Print Assumptions C185_C187_assumptions.
