(** C48-C51, C81: collecting the validators' signatures of an event proof. *)
From Coq Require Import Sorting.Sorted.
From Verif Require Import WitnessModel WitnessProofs WitnessWorker.

(** ** The statements' own vocabulary *)
(** [a] signed the event: a valid signature over the digest of its data, in a witness that arrived. *)
Definition signed (digest_of : chain -> N -> N -> option N) (verify : N -> N -> N -> bool) (W : list witness) (id : N) (c : chain) (data a : N) : Prop :=
  exists sg dg, digest_of c data a = Some dg /\ verify a sg dg = true /\ In (Wit dg id a sg) W.
(** Who counts for a chain. *)
Definition counts_for (V X : vset) (c : chain) (a : N) : Prop := match c with Ethereum => In a (vals V) | Xrpl => In a (vals V) /\ In a (vals X) end.
Definition needed (V X : vset) (c : chain) : N := match c with Ethereum => thr V | Xrpl => thr X end.

(** ** C48 *)
(** The record: whatever is completed stays refused, as long as no event is completed that is refused already. *)
Theorem C48_record_partial digest_of verify v x ops1 id ops2 w :
  along (rstep digest_of verify) orderly (ops1 ++ RComplete id :: ops2) (wrec0 v x) -> wevent w = id ->
  let s := run (rstep digest_of verify) (ops1 ++ RComplete id :: ops2) (wrec0 v x) in note digest_of verify s w = (s, CompletedEvent).
Proof.
  intros Ha Hw. cbn zeta. apply note_refused. rewrite Hw. apply kept_refused. apply (orderly_kept digest_of verify _ _ Ha); [constructor|].
  right. unfold completions. rewrite flat_map_app. apply in_or_app. right. now left.
Qed.
(** The worker: each event is announced at most once (the chain numbers them by a counter), thresholds are at least one. *)
Theorem C48_worker_partial digest_of verify zero v x ops : 1 <= thr v -> 1 <= thr x -> Forall positive ops -> NoDup (announced ops) ->
  let s := run (wstep digest_of verify zero) ops (Work (wrec0 v x) []) in
  NoDup (map pid (proofs s)) /\
  (forall p w, In p (proofs s) -> wevent w = pid p -> note digest_of verify (rec s) w = (rec s, CompletedEvent)) /\
  forall ops', Forall positive ops' -> NoDup (announced (ops ++ ops')) -> forall p w, In p (proofs s) -> wevent w = pid p ->
    let s' := run (wstep digest_of verify zero) ops' s in note digest_of verify (rec s') w = (rec s', CompletedEvent).
Proof.
  intros Hv Hx Hp Hn. cbn zeta. pose proof (wrun_WA digest_of verify zero ops [] _ Hp Hn ltac:(intros; intros []) (WA_init v x Hv Hx)) as Hs.
  split; [exact (wa_nd _ _ Hs)|]. split.
  - intros p w Hin Hw. apply note_refused. rewrite Hw. apply kept_refused, (wa_kept _ _ Hs). apply in_map, Hin.
  - intros ops' Hp' Hn' p w Hin Hw. set (s := run _ ops _) in *. apply note_refused. rewrite Hw. apply kept_refused.
    assert (Hn2 : NoDup (announced ops') /\ forall id, In id (announced ops') -> ~ In id (rev (announced ops) ++ [])).
    { unfold announced in *. rewrite flat_map_app in Hn'. apply NoDup_app in Hn'. destruct Hn' as (N1 & N2 & N3). split; [exact N3|]. intros j Hj Hi. rewrite app_nil_r in Hi. apply in_rev in Hi. apply (N2 j); apply elem_of_list_In; assumption. }
    destruct Hn2 as [Hn2 Hn3]. pose proof (wa_kept _ _ Hs (pid p) (in_map pid _ _ Hin)) as Hk. clear Hin Hn'. revert Hs Hp' Hn2 Hn3 Hk. generalize (rev (announced ops) ++ []). generalize s. clear s Hp Hn.
    induction ops' as [|o ops' IH]; intros s H Hs Hp' Hn2 Hn3 Hk; [exact Hk|]. apply Forall_cons in Hp'. destruct Hp' as [Hpo Hp']. cbn [run fold_left]. cbn [announced flat_map] in *. change (flat_map announces ops') with (announced ops') in *.
    apply NoDup_app in Hn2. destruct Hn2 as (N1 & N2 & N3). destruct (wstep_WA digest_of verify zero H s o Hpo) as [Hs' Hm]; [intros j Hj; apply Hn3, in_or_app; now left|exact Hs|].
    apply (IH _ _ Hs' Hp' N3); [|apply Hm, Hk]. intros j Hj Hi. apply in_app_or in Hi. destruct Hi as [Hi|Hi]; [apply (N2 j); apply elem_of_list_In; assumption|]. apply (Hn3 j); [apply in_or_app; now right|exact Hi].
Qed.

(** A small signature scheme for the examples: the digest of data [d] is [d + 1], its signature by [a] is [a + d + 1]. *)
Definition wdig (c : chain) (d a : N) : option N := Some (d + 1).
Definition wver (a sg dg : N) : bool := sg =? a + dg.
Definition V3 : vset := Vset [11; 12; 13] 2.
Definition X2 : vset := Vset [12; 13] 1.
Definition wit3 (id a d : N) : witness := Wit (d + 1) id a (a + (d + 1)).

(** Completing 3, 4, 5, 6 and then 1 reopens 4. *)
Theorem C48_reopen_refuted : exists ops w, In (RComplete (wevent w)) ops /\
  snd (note wdig wver (run (rstep wdig wver) ops (wrec0 V3 X2)) w) = DigestUnverified.
Proof. exists [RComplete 3; RComplete 4; RComplete 5; RComplete 6; RComplete 1], (wit3 4 11 0). split; [right; now left|vm_compute; reflexivity]. Qed.
(** The worker does it when the XRPL threshold is 0 (at most one door signer, /repo/runtime/src/lib.rs 2026): a proof with no
    signature is published on the announcement alone, also for an event passed over, and a published event is open again. *)
Theorem C48_worker_refuted : exists ops w, NoDup (announced ops) /\ let s := run (wstep wdig wver 0) ops (Work (wrec0 V3 (Vset [12] 0)) []) in
  In (wevent w) (map pid (proofs s)) /\ snd (note wdig wver (rec s) w) = DigestUnverified.
Proof.
  exists [WPassive 3 Xrpl 0; WPassive 4 Xrpl 0; WPassive 5 Xrpl 0; WPassive 6 Xrpl 0; WPassive 1 Xrpl 0], (wit3 4 11 0).
  split; [apply NoDup_ListNoDup; repeat (constructor; [cbn; intuition discriminate|]); constructor|]. cbn zeta. split; [vm_compute; tauto|vm_compute; reflexivity].
Qed.
(** Two validators sign event 7, whose proof is published; a third witness is refused. *)
Definition w7 : list wop := [WGossip (wit3 7 11 5); WPassive 7 Ethereum 5; WGossip (wit3 7 12 5)].
Example C48_case : Forall positive w7 /\ NoDup (announced w7) /\
  proofs (run (wstep wdig wver 0) w7 (Work (wrec0 V3 X2) [])) = [(7, (Ethereum, 5), [(0, 17); (1, 18)])] /\
  snd (note wdig wver (rec (run (wstep wdig wver 0) w7 (Work (wrec0 V3 X2) []))) (wit3 7 13 5)) = CompletedEvent.
Proof. split; [repeat constructor|]. split; [apply NoDup_ListNoDup; repeat (constructor; [cbn; intuition discriminate|]); constructor|]. split; vm_compute; reflexivity. Qed.
Example C48_record_case : along (rstep wdig wver) orderly ([RComplete 9; RComplete 4] ++ RComplete 5 :: [RComplete 6; RComplete 8]) (wrec0 V3 X2) /\
  done (run (rstep wdig wver) ([RComplete 9; RComplete 4] ++ RComplete 5 :: [RComplete 6; RComplete 8]) (wrec0 V3 X2)) = [6; 8; 9].
Proof. split; [|vm_compute; reflexivity]. cbn. repeat split. Qed.

(** ** C49 *)
Lemma valid_signed digest_of verify V W id c data a : valid_for digest_of verify V W id c data a -> In a (vals V) /\ signed digest_of verify W id c data a.
Proof. intros [H1 H2]. split; [exact H1|exact H2]. Qed.
Lemma sigs_count digest_of verify V X W id c data l ch : sigs_ok digest_of verify V W id c data l -> enough V X ch l ->
  exists A, NoDup A /\ needed V X ch <= N.of_nat (length A) /\ Forall (fun a => counts_for V X ch a /\ signed digest_of verify W id c data a) A.
Proof.
  intros Ho He. destruct ch; cbn [enough needed] in *.
  - destruct (sigs_distinct digest_of verify V W id c data l (fun _ => true) Ho) as (A & A1 & A2 & A3). exists A. split; [exact A1|]. split.
    + rewrite A2. clear A2. assert (E : List.filter (fun x : N * N => true) l = l) by (clear; induction l as [|y l IHl]; [reflexivity|cbn; rewrite IHl; reflexivity]). rewrite E. exact He.
    + eapply Forall_impl; [exact A3|]. intros a [B _]. apply valid_signed in B. exact B.
  - destruct (sigs_distinct digest_of verify V W id c data l (fun i => match vals V !! N.to_nat i with Some a => match position a (vals X) with Some _ => true | None => false end | None => false end) Ho) as (A & A1 & A2 & A3). exists A. split; [exact A1|]. split; [rewrite A2; exact He|].
    eapply Forall_impl; [exact A3|]. intros a [B (i & P1 & P2 & _)]. apply valid_signed in B. destruct B as [B1 B2]. split; [|exact B2]. split; [exact B1|].
    apply position_some in P1. cbn beta in P2. rewrite P1 in P2. destruct (position a (vals X)) as [j|] eqn:E; [|discriminate]. apply position_some in E. eapply elem_of_list_In, elem_of_list_lookup_2, E.
Qed.
Lemma metas_from digest_of verify ops : forall s id c data, metas (run (rstep digest_of verify) ops s) !! id = Some (c, data) -> metas s !! id = Some (c, data) \/ In (RMeta id c data) ops.
Proof.
  induction ops as [|o ops IH]; intros s id c data H; [left; exact H|]. cbn [run fold_left] in H. destruct (IH _ _ _ _ H) as [H1|H1]; [|right; right; exact H1].
  destruct o as [j|w|j c' d'|j|v x]; cbn [rstep] in H1.
  - left. cbn in H1. rewrite lookup_delete_Some in H1. apply H1.
  - left. destruct (note_keeps digest_of verify s w) as (_ & E & _). cbn zeta in E. rewrite E in H1. exact H1.
  - unfold note_meta in H1. destruct (metas s !! j) eqn:E; [left; exact H1|]. cbn in H1. rewrite lookup_insert_Some in H1. destruct H1 as [[-> [= -> ->]]|[_ H1]]; [right; now left|left; exact H1].
  - left. destruct (process_keeps digest_of verify s j) as (_ & E & _). rewrite E in H1. exact H1.
  - left. exact H1.
Qed.
(** The record. *)
Theorem C49_consensus digest_of verify V X ops : Forall no_set ops ->
  let s := run (rstep digest_of verify) ops (wrec0 V X) in
  (forall id l, wits s !! id = Some l -> StronglySorted (fun p q => fst p < fst q) l) /\
  forall id c, has_consensus s id c = true -> exists A, NoDup A /\ needed V X c <= N.of_nat (length A) /\
    Forall (fun a => counts_for V X c a /\ exists c' data, In (RMeta id c' data) ops /\ metas s !! id = Some (c', data) /\ signed digest_of verify (noted_in ops) id c' data a) A.
Proof.
  intros Hn. cbn zeta. pose proof (run_SI digest_of verify V X ops _ [] Hn (SI_init digest_of verify V X [])) as Hs. cbn [app] in Hs. set (s := run _ _ _) in *. split.
  - intros id l Hl. destruct (si_w _ _ _ _ _ _ Hs _ _ Hl) as (c & data & _ & [H _]). exact H.
  - intros id c Hc. pose proof (consensus_enough digest_of verify V X _ s id c _ Hs eq_refl Hc) as He. destruct (wits s !! id) as [l|] eqn:El; cbn [default] in He.
    + destruct (si_w _ _ _ _ _ _ Hs _ _ El) as (c' & data & Hm & Ho). destruct (sigs_count _ _ _ _ _ _ _ _ _ c Ho He) as (A & A1 & A2 & A3). exists A. split; [exact A1|]. split; [exact A2|].
      eapply Forall_impl; [exact A3|]. intros a [B1 B2]. split; [exact B1|]. exists c', data. split; [|auto]. destruct (metas_from _ _ _ _ _ _ _ Hm) as [F|F]; [|exact F]. cbn in F. rewrite lookup_empty in F. discriminate.
    + exists []. split; [constructor|]. split; [|constructor]. destruct c; exact He.
Qed.
(** The worker: every proof it stores and sends out. *)
Theorem C49_published digest_of verify zero V X ops : Forall wno_set ops ->
  forall id c data l, In (id, (c, data), l) (proofs (run (wstep digest_of verify zero) ops (Work (wrec0 V X) []))) ->
  StronglySorted (fun p q => fst p < fst q) l /\
  (forall i sg, In (i, sg) l -> exists a dg, vals V !! N.to_nat i = Some a /\ digest_of c data a = Some dg /\ verify a sg dg = true /\ In (Wit dg id a sg) (heard digest_of ops)) /\
  exists A, NoDup A /\ needed V X c <= N.of_nat (length A) /\ Forall (fun a => counts_for V X c a /\ signed digest_of verify (heard digest_of ops) id c data a) A.
Proof.
  intros Hn id c data l Hin. destruct (wrun_WV digest_of verify zero V X ops [] _ Hn (WV_init digest_of verify V X [])) as [_ Hp]. cbn [app] in Hp. rewrite List.Forall_forall in Hp. destruct (Hp _ Hin) as [Ho He].
  split; [exact (proj1 Ho)|]. split; [|exact (sigs_count _ _ _ _ _ _ _ _ _ _ Ho He)]. intros i sg Hi. destruct Ho as [_ Ho]. rewrite List.Forall_forall in Ho. destruct (Ho _ Hi) as (a & dg & P1 & P2 & P3 & P4). exists a, dg. split; [exact (position_some _ _ _ P1)|]. auto.
Qed.
(** Out of order, with an early witness, a forged one and a duplicate: the two valid ones are stored by index. *)
Definition r49 : list rop := [RNote (wit3 7 13 5); RNote (Wit 6 7 12 99); RMeta 7 Ethereum 5; RProcess 7; RNote (wit3 7 11 5); RNote (wit3 7 11 5); RNote (Wit 6 7 12 99)].
Example C49_case : Forall no_set r49 /\ has_consensus (run (rstep wdig wver) r49 (wrec0 V3 X2)) 7 Ethereum = true /\ wits (run (rstep wdig wver) r49 (wrec0 V3 X2)) !! 7 = Some [(0, 17); (2, 19)].
Proof. split; [repeat constructor|]. split; vm_compute; reflexivity. Qed.
(** Beyond the claim: after a change of the set, signatures of the old one still count, under the old indices. *)
Theorem C49_needs_unchanged_set : exists ops id V' X', let s := run (rstep wdig wver) ops (wrec0 V3 X2) in
  wvals s = V' /\ has_consensus s id Ethereum = true /\ vals V' = [21; 22; 23] /\ thr V' = 2 /\ (forall a, In a (vals V') -> forall w, In (RNote w) ops -> wauth w <> a) /\ xvals s = X'.
Proof.
  exists [RMeta 7 Ethereum 5; RNote (wit3 7 11 5); RNote (wit3 7 12 5); RSet (Vset [21; 22; 23] 2) X2], 7, (Vset [21; 22; 23] 2), X2. cbn zeta. split; [vm_compute; reflexivity|]. split; [vm_compute; reflexivity|].
  split; [reflexivity|]. split; [reflexivity|]. split; [|vm_compute; reflexivity]. intros a Ha w Hw. cbn in Ha, Hw. decompose [or] Hw; try discriminate; try contradiction; match goal with H : RNote _ = RNote _ |- _ => injection H as <- end; cbn; decompose [or] Ha; subst; try discriminate; contradiction.
Qed.

(** ** C50 *)
(** An event never completed is not refused, if it comes after some completed one. *)
Theorem C50_partial digest_of verify v x ops w :
  let s := run (rstep digest_of verify) ops (wrec0 v x) in
  ~ In (RComplete (wevent w)) ops -> (exists id, In (RComplete id) ops /\ id <= wevent w) \/ (forall id, ~ In (RComplete id) ops) ->
  snd (note digest_of verify s w) <> CompletedEvent.
Proof.
  intros s Hn Hc. assert (Hf : filled (done s) (rev (completions ops) ++ [])) by (apply run_filled; split; [constructor|intros y []|congruence|intros c y []]). rewrite app_nil_r in Hf.
  assert (Hcomp : forall id, In id (completions ops) <-> In (RComplete id) ops).
  { intros id. unfold completions. rewrite in_flat_map. split; [intros (o & H1 & H2); destruct o; try contradiction; destruct H2 as [<-|[]]; exact H1|intros H; exists (RComplete id); split; [exact H|now left]]. }
  assert (Hr : refused s (wevent w) = false).
  { apply not_true_iff_false. rewrite kept_refused. intros Hk. apply Hn, Hcomp, in_rev. destruct Hk as [Hk|[Hl Hh]]; [exact (fi_sub _ _ Hf _ Hk)|].
    destruct Hc as [(id & H1 & H2)|Hno]; [|exfalso; destruct (done s) as [|m r] eqn:Ed; [cbn in Hl; lia|]; apply (Hno m), Hcomp, in_rev; apply (fi_sub _ _ Hf); left; reflexivity].
    apply (fi_all _ _ Hf id); [rewrite <- in_rev; apply Hcomp, H1|exact H2|exact Hh]. }
  unfold note. rewrite Hr. destruct (match seen s !! wevent w with Some l => has_key idk (wauth w) l | None => false end); [discriminate|]. destruct (metas s !! wevent w) as [[c d]|]; [|discriminate].
  destruct (digest_of c d (wauth w)); [|discriminate]. destruct (negb (_ =? _)); [discriminate|]. destruct (negb (verify _ _ _)); [discriminate|]. destruct (position _ _); discriminate.
Qed.
(** A node whose first two completions are 5 and 9 refuses all of 1 to 4. *)
Theorem C50_refuted : exists ops w, ~ In (RComplete (wevent w)) ops /\ snd (note wdig wver (run (rstep wdig wver) ops (wrec0 V3 X2)) w) = CompletedEvent.
Proof. exists [RComplete 5; RComplete 9], (wit3 3 11 0). split; [cbn; intuition discriminate|vm_compute; reflexivity]. Qed.
(** At the worker: event 3 is announced and signed by everybody, but no proof is ever made. *)
Definition w50 : list wop :=
  [WGossip (wit3 5 11 1); WGossip (wit3 5 12 1); WPassive 5 Ethereum 1; WGossip (wit3 9 11 2); WGossip (wit3 9 12 2); WPassive 9 Ethereum 2;
   WPassive 3 Ethereum 0; WGossip (wit3 3 11 0); WGossip (wit3 3 12 0); WGossip (wit3 3 13 0)].
Theorem C50_worker_refuted : exists ops id, NoDup (announced ops) /\ In (WPassive id Ethereum 0) ops /\ (forall a, In a (vals V3) -> In (WGossip (wit3 id a 0)) ops) /\
  ~ In id (map pid (proofs (run (wstep wdig wver 0) ops (Work (wrec0 V3 X2) [])))).
Proof.
  exists w50, 3. split; [apply NoDup_ListNoDup; repeat (constructor; [cbn; intuition discriminate|]); constructor|]. split; [cbn; tauto|]. split; [intros a Ha; cbn in Ha; decompose [or] Ha; subst; cbn; tauto|].
  vm_compute. intuition discriminate.
Qed.
Example C50_case : ~ In (RComplete 7) [RComplete 5; RComplete 9; RComplete 6; RComplete 8] /\ done (run (rstep wdig wver) [RComplete 5; RComplete 9; RComplete 6; RComplete 8] (wrec0 V3 X2)) = [6; 8; 9] /\
  snd (note wdig wver (run (rstep wdig wver) [RComplete 5; RComplete 9; RComplete 6; RComplete 8] (wrec0 V3 X2)) (wit3 7 11 0)) = DigestUnverified.
Proof. split; [cbn; intuition discriminate|]. split; vm_compute; reflexivity. Qed.

(** ** C51 *)
Lemma expand_spec n l : (N.of_nat n < 2 ^ 32) -> forall acc, inc fst l -> length acc = n ->
  exists r, expand n acc l = Ok r /\ length r = n /\
    forall i, (i < n)%nat -> r !! i = match List.find (fun p => fst p =? N.of_nat i) l with Some p => Some (snd p) | None => acc !! i end.
Proof.
  intros Hn. induction l as [|[i sg] l IH]; intros acc Hi Hl; cbn [expand]; [exists acc; auto|]. rewrite N.mod_small by exact Hn. inversion Hi as [|? ? H1 H2]; subst.
  destruct (N.leb_spec (N.of_nat (length acc)) i) as [Hle|Hlt].
  - exists acc. split; [reflexivity|]. split; [reflexivity|]. intros k Hk. destruct (List.find _ _) as [[k' s']|] eqn:E; [|reflexivity]. exfalso. apply find_some in E. cbn [fst] in E. destruct E as [E1 E2]. apply N.eqb_eq in E2. subst k'.
    destruct E1 as [[= ? ?]|E1]; [lia|]. rewrite List.Forall_forall in H2. specialize (H2 _ E1). cbn in H2. lia.
  - destruct (IH (<[N.to_nat i:=sg]> acc) H1) as (r & R1 & R2 & R3); [apply insert_length|]. exists r. split; [exact R1|]. split; [exact R2|]. intros k Hk. rewrite (R3 k Hk). cbn [List.find fst].
    destruct (N.eqb_spec i (N.of_nat k)) as [->|Hne].
    + assert (E : List.find (fun p : N * N => fst p =? N.of_nat k) l = None).
      { destruct (List.find _ l) as [[k' s']|] eqn:E; [|reflexivity]. exfalso. apply find_some in E. destruct E as [E1 E2]. cbn [fst] in E2. apply N.eqb_eq in E2. subst k'. rewrite List.Forall_forall in H2. specialize (H2 _ E1). cbn in H2. lia. }
      rewrite E. rewrite Nat2N.id. apply list_lookup_insert. exact Hk.
    + rewrite list_lookup_insert_ne by lia. reflexivity.
Qed.
Theorem C51_expanded n l : N.of_nat n < 2 ^ 32 -> StronglySorted (fun p q => fst p < fst q) l ->
  exists r, expanded n l = Ok r /\ length r = n /\
    (forall i sg, (i < n)%nat -> In (N.of_nat i, sg) l -> r !! i = Some sg) /\
    (forall i, (i < n)%nat -> (forall sg, ~ In (N.of_nat i, sg) l) -> r !! i = Some 0).
Proof.
  intros Hn Hl. destruct (expand_spec n l Hn (replicate n 0) Hl) as (r & R1 & R2 & R3); [apply replicate_length|]. exists r. split; [exact R1|]. split; [exact R2|]. split.
  - intros i sg Hi Hin. rewrite (R3 i Hi). clear R1 R3. induction Hl as [|[j s'] l Hl IH Hf]; [destruct Hin|]. cbn [List.find fst]. destruct (N.eqb_spec j (N.of_nat i)) as [->|Hne].
    + destruct Hin as [[= ->]|Hin]; [reflexivity|]. rewrite List.Forall_forall in Hf. specialize (Hf _ Hin). cbn in Hf. lia.
    + destruct Hin as [[= ? ?]|Hin]; [congruence|]. apply IH, Hin.
  - intros i Hi Hno. rewrite (R3 i Hi). destruct (List.find _ l) as [[k' s']|] eqn:E; [|apply lookup_replicate_2, Hi]. exfalso. apply find_some in E. destruct E as [E1 E2]. cbn [fst] in E2. apply N.eqb_eq in E2. subst k'. exact (Hno _ E1).
Qed.
(** The count of a proof whose validators are all among the [n] is the number of slots that are not blank. *)
Definition filled (l : list N) : nat := length (List.filter (fun x => negb (x =? 0)) l).
Lemma filled_insert i (x : N) l : l !! i = Some 0 -> filled (<[i := x]> l) = (filled l + if (x =? 0)%N then 0 else 1)%nat.
Proof.
  revert l. induction i as [|i IH]; intros [|y l] H; try discriminate; cbn in H |- *; unfold filled in *; cbn [List.filter].
  - injection H as ->. rewrite N.eqb_refl. cbn [negb]. destruct (x =? 0); cbn [negb length]; lia.
  - specialize (IH l H). destruct (negb (y =? 0)); cbn [length]; [rewrite Nat.add_succ_l; f_equal|]; exact IH.
Qed.
Theorem C51_count n l : N.of_nat n < 2 ^ 32 -> StronglySorted (fun p q => fst p < fst q) l -> Forall (fun p => fst p < N.of_nat n) l ->
  exists r, expanded n l = Ok r /\ signature_count l = N.of_nat (filled r).
Proof.
  intros Hn Hs Hb. unfold expanded.
  assert (G : forall acc, length acc = n -> Forall (fun p => acc !! N.to_nat (fst p) = Some 0) l ->
    exists r, expand n acc l = Ok r /\ N.of_nat (filled acc) + signature_count l = N.of_nat (filled r)).
  { induction Hs as [|[i sg] l Hs IH Hf]; intros acc Hl Hz; cbn [expand].
    - exists acc. split; [reflexivity|]. unfold signature_count. cbn. lia.
    - inversion Hb as [|? ? B1 B2]; subst. inversion Hz as [|? ? Z1 Z2]; subst. cbn [fst] in *. rewrite N.mod_small by exact Hn.
      rewrite (proj2 (N.leb_gt _ _)) by lia. destruct (IH B2 (<[N.to_nat i := sg]> acc)) as (r & R1 & R2).
      + apply insert_length.
      + apply Forall_forall. intros p Hp. rewrite Forall_forall in Z2. rewrite list_lookup_insert_ne; [apply Z2, Hp|].
        apply elem_of_list_In in Hp. rewrite List.Forall_forall in Hf. specialize (Hf _ Hp). cbn in Hf. lia.
      + exists r. split; [exact R1|]. rewrite <- R2, filled_insert by exact Z1. unfold signature_count. cbn [List.filter snd].
        destruct (sg =? 0); cbn [negb length]; lia. }
  destruct (G (replicate n 0)) as (r & R1 & R2).
  - apply replicate_length.
  - apply Forall_forall. intros p Hp. rewrite Forall_forall in Hb. specialize (Hb p Hp). apply lookup_replicate_2. lia.
  - exists r. split; [exact R1|]. assert (Z : filled (replicate n 0) = 0%nat) by (clear; induction n; [reflexivity|exact IHn]). rewrite Z in R2. lia.
Qed.
Example C51_count_case : signature_count [(1, 18); (3, 0); (4, 5)] = 2 /\ expanded 5 [(1, 18); (3, 0); (4, 5)] = Ok [0; 18; 0; 0; 5].
Proof. vm_compute. auto. Qed.
Example C51_case : StronglySorted (fun p q : N * N => fst p < fst q) [(1, 18); (3, 20); (7, 5)] /\ expanded 5 [(1, 18); (3, 20); (7, 5)] = Ok [0; 18; 0; 20; 0].
Proof. split; [repeat constructor; cbn; lia|vm_compute; reflexivity]. Qed.

(** ** C81 *)
(** The set is unchanged, the node is honest and uses a key of the set, each event is announced once and thresholds are at
    least one.  Once the event has been announced and enough validators' witnesses have arrived, in whatever order, its
    proof has been published - unless all events published so far have greater ids (C50). *)
Theorem C81_published_partial digest_of verify zero V X id c data ops A : 1 <= thr V -> 1 <= thr X -> digest_of c data zero <> None ->
  Forall (honest digest_of verify V id c data) ops -> NoDup (announced ops) ->
  (exists o, In o ops /\ notes digest_of id o) ->
  NoDup A -> needed V X c <= N.of_nat (length A) ->
  Forall (fun a => counts_for V X c a /\ exists sg dg, digest_of c data a = Some dg /\ verify a sg dg = true /\ In (WGossip (Wit dg id a sg)) ops) A ->
  let P := map pid (proofs (run (wstep digest_of verify zero) ops (Work (wrec0 V X) []))) in
  In id P \/ forall j, In j P -> id < j.
Proof.
  intros Hv Hx Hz Ho Hn Hnote HA Hlen Hall. cbn zeta.
  pose proof (wrun_K digest_of verify zero V id c data Hz ops [] (fun _ => False) False _ (WA_init V X Hv Hx) eq_refl Ho Hn ltac:(intros; intros []) (K_init digest_of verify V X id c data (fun _ => False) ltac:(auto))) as Hk.
  assert (Hpos : Forall positive ops) by (eapply Forall_impl; [exact Ho|]; intros [] Hh; try exact I; destruct Hh).
  pose proof (wrun_WA digest_of verify zero ops [] _ Hpos Hn ltac:(intros; intros []) (WA_init V X Hv Hx)) as Hs.
  assert (Hvals : wvals (rec (run (wstep digest_of verify zero) ops (Work (wrec0 V X) []))) = V /\ xvals (rec (run (wstep digest_of verify zero) ops (Work (wrec0 V X) []))) = X).
  { assert (Hgen : forall ops s, Forall wno_set ops -> wvals (rec (run (wstep digest_of verify zero) ops s)) = wvals (rec s) /\ xvals (rec (run (wstep digest_of verify zero) ops s)) = xvals (rec s)).
    { clear. induction ops as [|o ops IH]; intros s Ho; [auto|]. apply Forall_cons in Ho. destruct Ho as [H1 H2]. cbn [run fold_left]. destruct (IH (wstep digest_of verify zero s o) H2) as [A B]. destruct (step_vals digest_of verify zero s o H1) as [C D]. unfold run in A, B. split; congruence. }
    apply (Hgen ops (Work (wrec0 V X) [])). eapply Forall_impl; [exact Ho|]; intros [] Hh; try exact I; destruct Hh. }
  set (s := run _ ops _) in *. change (map pid (proofs s)) with (ids s). destruct Hk as [Hk|[Hk|[[_ Hk]|(W1 & W2 & W3 & W4 & W5)]]].
  - left. exact Hk.
  - destruct (in_dec N.eq_dec id (ids s)) as [Hi|Hi]; [left; exact Hi|right]. intros j Hj. destruct (N.lt_ge_cases id j) as [Hlt|Hge]; [exact Hlt|]. exfalso. apply Hi.
    destruct Hk as [Hk|[_ Hh]]; [exact (fi_sub _ _ (wa_fill _ _ Hs) _ Hk)|]. exact (fi_all _ _ (wa_fill _ _ Hs) j id Hj Hge Hh).
  - exfalso. apply Hk. right. exact Hnote.
  - exfalso. unfold has_consensus in W2. apply N.leb_gt in W2. destruct Hvals as [EV EX].
    assert (Hin : forall a, In a A -> exists i sg, position a (vals V) = Some i /\ match c with Ethereum => true | Xrpl => xrpl_signer (rec s) i end = true /\ In (i, sg) (default [] (wits (rec s) !! id))).
    { intros a Ha. rewrite List.Forall_forall in Hall. destruct (Hall a Ha) as [Hc (sg & dg & D1 & D2 & D3)].
      assert (Hia : In a (vals V)) by (destruct c; [exact Hc|apply Hc]). destruct (position_in a (vals V) Hia) as [i Hi].
      destruct (W5 a) as (i' & sg' & P1 & P2).
      { right. exists (WGossip (Wit dg id a sg)). split; [exact D3|]. exists (Wit dg id a sg). split; [reflexivity|]. split; [reflexivity|]. split; [reflexivity|]. cbn. split; [exact D1|]. split; [exact D2|]. exists i. exact Hi. }
      exists i', sg'. split; [exact P1|]. split; [|exact P2]. destruct c; [reflexivity|]. unfold xrpl_signer. rewrite EV, EX, (position_some _ _ _ P1). destruct (position_in a (vals X) (proj2 Hc)) as [k ->]. reflexivity. }
    pose proof (count_distinct (vals V) (fun i => match c with Ethereum => true | Xrpl => xrpl_signer (rec s) i end) _ A HA Hin) as Hcd. unfold count_for, threshold in W2. rewrite EV, EX in W2.
    destruct c; cbn [needed] in Hlen; destruct (wits (rec s) !! id) as [l|]; cbn [default] in Hcd; try (cbn in Hcd; lia).
    + unfold Datatypes.id in Hcd. assert (E : List.filter (fun x : N * N => true) l = l) by (clear; induction l as [|y l IHl]; [reflexivity|cbn; rewrite IHl; reflexivity]). rewrite E in Hcd. lia.
Qed.
Example C81_case : Forall (honest wdig wver V3 7 Ethereum 5) w7 /\ 7 ∈ announced w7 /\ map pid (proofs (run (wstep wdig wver 0) w7 (Work (wrec0 V3 X2) []))) = [7].
Proof. split; [repeat constructor|]. split; [apply elem_of_list_In; now left|vm_compute; reflexivity]. Qed.
(** The provisos hold for [w50] and event 3, whose proof is missing: C50. *)
Theorem C81_passed_over_refuted : exists ops, Forall (honest wdig wver V3 3 Ethereum 0) ops /\ NoDup (announced ops) /\ (exists o, In o ops /\ notes wdig 3 o) /\
  (forall a, In a (vals V3) -> In (WGossip (wit3 3 a 0)) ops) /\ ~ In 3 (map pid (proofs (run (wstep wdig wver 0) ops (Work (wrec0 V3 X2) [])))).
Proof.
  exists w50. split; [unfold w50; repeat (apply Forall_cons; split; [cbn; try exact I; intros E; try discriminate; auto|]); constructor|]. split; [apply NoDup_ListNoDup; repeat (constructor; [cbn; intuition discriminate|]); constructor|].
  split; [exists (WPassive 3 Ethereum 0); split; [cbn; tauto|reflexivity]|]. split; [intros a Ha; cbn in Ha; decompose [or] Ha; subst; cbn; tauto|]. vm_compute. intuition discriminate.
Qed.

Print Assumptions C48_record_partial. Print Assumptions C48_worker_partial. Print Assumptions C48_reopen_refuted. Print Assumptions C48_worker_refuted.
Print Assumptions C49_consensus. Print Assumptions C49_published. Print Assumptions C49_needs_unchanged_set.
Print Assumptions C50_partial. Print Assumptions C50_refuted. Print Assumptions C50_worker_refuted. Print Assumptions C51_expanded. Print Assumptions C51_count.
Print Assumptions C81_published_partial. Print Assumptions C81_passed_over_refuted.
