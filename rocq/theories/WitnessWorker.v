(** The worker of the ethy gadget: invariants over everything that reaches it. *)
From Coq Require Import Sorting.Sorted.
From Verif Require Import WitnessModel WitnessProofs.

Lemma position_inj a b l i : position a l = Some i -> position b l = Some i -> a = b.
Proof. intros Ha Hb. apply position_some in Ha, Hb. congruence. Qed.
Lemma count_distinct (V : list N) (f : N -> bool) (l : list (N * N)) (A : list N) : NoDup A ->
  (forall a, In a A -> exists i sg, position a V = Some i /\ f i = true /\ In (i, sg) l) -> (length A <= length (List.filter (fun x => f (fst x)) l))%nat.
Proof.
  intros Hnd HA. set (idx := fun a => default 0 (position a V)).
  assert (Hnd' : List.NoDup (map idx A)).
  { apply NoDup_ListNoDup in Hnd. revert HA. induction Hnd as [|a A Ha Hnd IH]; intros HA; [constructor|]. cbn [map]. constructor; [|apply IH; intros b Hb; apply HA; now right].
    intros Hin. apply in_map_iff in Hin. destruct Hin as (b & E & Hb). destruct (HA a (or_introl eq_refl)) as (i & s1 & P1 & _). destruct (HA b (or_intror Hb)) as (j & s2 & P2 & _).
    unfold idx in E. rewrite P1, P2 in E. cbn in E. subst j. rewrite (position_inj _ _ _ _ P1 P2) in Ha. contradiction. }
  rewrite <- (map_length idx A), <- (map_length fst (List.filter _ l)). apply NoDup_incl_length; [exact Hnd'|]. intros i Hi. apply in_map_iff in Hi. destruct Hi as (a & E & Ha).
  destruct (HA a Ha) as (j & sg & P1 & P2 & P3). unfold idx in E. rewrite P1 in E. cbn in E. subst j. apply in_map_iff. exists (i, sg). split; [reflexivity|]. apply filter_In. split; [exact P3|exact P2].
Qed.
Lemma count_none s id c : wits s !! id = None -> count_for s id c = 0.
Proof. intros H. unfold count_for. rewrite H. reflexivity. Qed.

Section worker.
  Variable digest_of : chain -> N -> N -> option N.
  Variable verify : N -> N -> N -> bool.
  Variable zero : N.
  Notation note := (note digest_of verify). Notation process := (process digest_of verify).
  Notation try_proof := (try_proof digest_of verify zero). Notation handle := (handle digest_of verify zero). Notation wstep := (wstep digest_of verify zero).
  Definition pid (p : N * (chain * N) * list (N * N)) : N := fst (fst p).
  Definition ids (s : worker) : list N := map pid (proofs s).

  (** [try_proof] in cases. *)
  Lemma try_cases s id :
    (metas (rec s) !! id = None /\ try_proof s id = s) \/
    exists c data, metas (rec s) !! id = Some (c, data) /\ let r := process (rec s) id in
      ((has_consensus r id c = false \/ digest_of c data zero = None) /\ try_proof s id = Work r (proofs s) \/
       has_consensus r id c = true /\ digest_of c data zero <> None /\ try_proof s id = Work (mark_complete r id) ((id, (c, data), default [] (wits r !! id)) :: proofs s)).
  Proof.
    unfold WitnessModel.try_proof. destruct (metas (rec s) !! id) as [[c data]|] eqn:E; [right|left; auto]. exists c, data. split; [reflexivity|]. cbn zeta.
    destruct (has_consensus (process (rec s) id) id c); [|left; auto]. destruct (digest_of c data zero) eqn:Ed; [right|left; auto]. split; [reflexivity|]. split; [discriminate|reflexivity].
  Qed.

  (** ** Published events stay refused *)
  Record WA (H : list N) (s : worker) : Prop := {
    wa_fill : filled (done (rec s)) (ids s);
    wa_kept : forall id, In id (ids s) -> kept (done (rec s)) id;
    wa_nd : NoDup (ids s);
    wa_wits : forall id, wits (rec s) !! id <> None -> metas (rec s) !! id <> None;
    wa_meta : forall id, metas (rec s) !! id <> None -> In id H;
    wa_un : forall id l, unver (rec s) !! id = Some l -> Forall (fun w => wevent w = id) l;
    wa_thr : 1 <= thr (wvals (rec s)) /\ 1 <= thr (xvals (rec s)) }.
  Lemma note_WA H s w : WA H s -> WA H (Work (fst (note (rec s) w)) (proofs s)).
  Proof.
    intros [H0 H1 H2 H3 H4 H5 H6]. destruct (note_keeps digest_of verify (rec s) w) as (E1 & E2 & E3 & E4 & _). cbn zeta in *.
    split; cbn [rec proofs]; unfold ids; cbn [proofs]; rewrite ?E1, ?E2, ?E3, ?E4; try assumption.
    - intros id. destruct (note_cases digest_of verify (rec s) w) as [r Hr|Hr Hm|c data dg i Hr Hse Hm Hd He Hv Hp]; cbn [fst]; [apply H3..|]. cbn.
      destruct (N.eq_dec (wevent w) id) as [<-|Hne]; [rewrite Hm; discriminate|rewrite lookup_insert_ne by exact Hne; apply H3].
    - intros id l. destruct (note_cases digest_of verify (rec s) w) as [r Hr|Hr Hm|c data dg i Hr Hse Hm Hd He Hv Hp]; cbn [fst]; [apply H5| |apply H5]. cbn.
      rewrite lookup_insert_Some. intros [[<- <-]|[_ Hl]]; [|exact (H5 _ _ Hl)]. apply Forall_app. split; [|constructor; [reflexivity|constructor]].
      destruct (unver (rec s) !! wevent w) eqn:E; cbn [default]; [exact (H5 _ _ E)|constructor].
  Qed.
  Lemma fold_WA H l p : forall r, WA H (Work r p) -> WA H (Work (fold_left (fun s w => fst (note s w)) l r) p).
  Proof. induction l as [|w l IH]; intros r Hr; [exact Hr|]. cbn [fold_left]. apply IH. exact (note_WA H (Work r p) w Hr). Qed.
  Lemma process_WA H s id : WA H s -> WA H (Work (process (rec s) id) (proofs s)).
  Proof.
    intros Hs. unfold WitnessModel.process. destruct (unver (rec s) !! id) as [l|] eqn:E; [|destruct s; exact Hs]. apply fold_WA. destruct Hs as [H0 H1 H2 H3 H4 H5 H6]. split; try assumption.
    intros j q. cbn. rewrite lookup_delete_Some. intros [_ Hq]. exact (H5 _ _ Hq).
  Qed.
  Lemma process_refused s id : refused s id = true -> (forall l, unver s !! id = Some l -> Forall (fun w => wevent w = id) l) -> wits (process s id) = wits s.
  Proof.
    intros Hr Hu. unfold WitnessModel.process. destruct (unver s !! id) as [l|] eqn:E; [|reflexivity]. specialize (Hu _ eq_refl).
    assert (Hgen : forall l r, Forall (fun w => wevent w = id) l -> refused r id = true -> fold_left (fun s w => fst (note s w)) l r = r); [|rewrite Hgen; [reflexivity|exact Hu|exact Hr]].
    clear. induction l as [|w l IH]; intros r Hl Hr; [reflexivity|]. apply Forall_cons in Hl. destruct Hl as [Hw Hl]. cbn [fold_left]. rewrite note_refused by (rewrite Hw; exact Hr). apply IH; assumption.
  Qed.
  Lemma try_WA H s id : WA H s -> refused (rec s) id = false \/ wits (rec s) !! id = None ->
    WA H (try_proof s id) /\ forall j, kept (done (rec s)) j -> kept (done (rec (try_proof s id))) j.
  Proof.
    intros Hs Hc. destruct (try_cases s id) as [[_ ->]|(c & data & Hm & [[_ ->]|(Hcon & Hd & ->)])]; [auto|split; [apply process_WA, Hs|intros j Hj; cbn [rec]; destruct (process_keeps digest_of verify (rec s) id) as (-> & _); exact Hj]|].
    pose proof (process_WA H s id Hs) as Hp. set (r := process (rec s) id) in *. destruct (process_keeps digest_of verify (rec s) id) as (E1 & E2 & E3 & E4). fold r in E1, E2, E3, E4.
    assert (Hnr : ~ kept (done r) id).
    { rewrite <- kept_refused, (refused_done (rec s) r id E1). intros Hr. destruct Hc as [Hc|Hc]; [congruence|].
      assert (Hw : wits r !! id = None) by (unfold r; rewrite (process_refused (rec s) id Hr (wa_un _ _ Hs id)); exact Hc).
      unfold has_consensus in Hcon. rewrite (count_none r id c Hw) in Hcon. apply N.leb_le in Hcon. destruct (wa_thr _ _ Hp) as [T1 T2]. cbn [rec] in T1, T2. destruct c; cbn [threshold] in Hcon; lia. }
    destruct Hp as [H0 H1 H2 H3 H4 H5 H6]. cbn [rec proofs] in *. change (ids (Work r (proofs s))) with (ids s) in *. pose proof (fi_inc _ _ H0) as Hinc.
    split.
    - split; cbn [rec proofs]; change (ids (Work (mark_complete r id) ((id, (c, data), default [] (wits r !! id)) :: proofs s))) with (id :: ids s); try assumption.
      + apply fdone_filled, H0.
      + intros j [<-|Hj]; [apply fdone_self, Hinc|apply fdone_kept; auto].
      + apply NoDup_cons. split; [|exact H2]. intros Hi. apply elem_of_list_In in Hi. exact (Hnr (H1 _ Hi)).
      + intros j. cbn. destruct (N.eq_dec id j) as [->|Hne]; [rewrite !lookup_delete; auto|rewrite !lookup_delete_ne by exact Hne; apply H3].
      + intros j. cbn. destruct (N.eq_dec id j) as [->|Hne]; [rewrite lookup_delete; congruence|rewrite lookup_delete_ne by exact Hne; apply H4].
      + intros j l. cbn. rewrite lookup_delete_Some. intros [_ Hl]. exact (H5 _ _ Hl).
    - intros j Hj. apply fdone_kept; [exact Hinc|exact Hnr|rewrite E1; exact Hj].
  Qed.
  Lemma handle_WA H s w : WA H s -> WA H (handle s w) /\ forall j, kept (done (rec s)) j -> kept (done (rec (handle s w))) j.
  Proof.
    intros Hs. unfold WitnessModel.handle. pose proof (note_WA H s w Hs) as Hn. pose proof (note_cases digest_of verify (rec s) w) as Hca. destruct (note_keeps digest_of verify (rec s) w) as (E1 & _). cbn zeta in E1.
    destruct (note (rec s) w) as [r x] eqn:E. cbn [fst] in Hn, E1. destruct (wok x) eqn:Ex; [|auto].
    assert (Hr : refused (rec s) (wevent w) = false) by (inversion Hca; subst; [cbn in *; congruence|assumption|assumption]).
    destruct (try_WA H (Work r (proofs s)) (wevent w) Hn) as [T1 T2]; [left; cbn [rec]; rewrite (refused_done (rec s) r _ E1); exact Hr|]. split; [exact T1|]. intros j Hj. apply T2. cbn [rec]. rewrite E1. exact Hj.
  Qed.
  Definition announces (o : wop) : list N := match o with WPassive id _ _ => [id] | WActive id _ _ _ _ => [id] | _ => [] end.
  Definition announced (ops : list wop) : list N := flat_map announces ops.
  (** Thresholds are at least one. *)
  Definition positive (o : wop) : Prop := match o with WSet v x => 1 <= thr v /\ 1 <= thr x | _ => True end.
  Lemma meta_WA H s id c data : WA H s -> WA (id :: H) (Work (note_meta (rec s) id c data) (proofs s)).
  Proof.
    intros [H0 H1 H2 H3 H4 H5 H6]. destruct (note_meta_keeps (rec s) id c data) as (E1 & E2 & E3 & E4 & E5 & E6 & E7).
    split; cbn [rec proofs]; change (ids (Work (note_meta (rec s) id c data) (proofs s))) with (ids s); rewrite ?E1, ?E2, ?E4, ?E5, ?E6; try assumption.
    - intros j Hj. rewrite E7. destruct (id =? j); [discriminate|exact (H3 _ Hj)].
    - intros j. rewrite E7. destruct (N.eqb_spec id j) as [->|]; [intros _; now left|]. intros Hj. right. exact (H4 _ Hj).
  Qed.
  Lemma wstep_WA H s o : positive o -> (forall id, In id (announces o) -> ~ In id H) -> WA H s ->
    WA (announces o ++ H) (wstep s o) /\ forall j, kept (done (rec s)) j -> kept (done (rec (wstep s o))) j.
  Proof.
    intros Hp Hn Hs. destruct o as [id c data|id c data me sg|w|v x]; cbn [WitnessModel.wstep announces app].
    - assert (Hw : wits (rec s) !! id = None).
      { destruct (wits (rec s) !! id) eqn:E; [|reflexivity]. exfalso. apply (Hn id (or_introl eq_refl)), (wa_meta _ _ Hs), (wa_wits _ _ Hs). rewrite E. discriminate. }
      pose proof (meta_WA H s id c data Hs) as Hm. destruct (note_meta_keeps (rec s) id c data) as (E1 & E2 & _).
      destruct (try_WA _ _ id Hm) as [T1 T2]; [right; cbn [rec]; rewrite E2; exact Hw|]. split; [exact T1|]. intros j Hj. apply T2. cbn [rec]. rewrite E1. exact Hj.
    - destruct (digest_of c data me) as [dg|].
      + pose proof (meta_WA H s id c data Hs) as Hm. destruct (note_meta_keeps (rec s) id c data) as (E1 & _).
        destruct (handle_WA _ _ (Wit dg id me sg) Hm) as [T1 T2]. split; [exact T1|]. intros j Hj. apply T2. cbn [rec]. rewrite E1. exact Hj.
      + split; [|auto]. destruct Hs as [H0 H1 H2 H3 H4 H5 H6]. split; try assumption. intros j Hj. right. exact (H4 _ Hj).
    - apply handle_WA, Hs.
    - split; [|auto]. destruct Hs as [H0 H1 H2 H3 H4 H5 H6]. split; assumption.
  Qed.
  Lemma wrun_WA ops : forall H s, Forall positive ops -> NoDup (announced ops) -> (forall id, In id (announced ops) -> ~ In id H) -> WA H s ->
    WA (rev (announced ops) ++ H) (run wstep ops s).
  Proof.
    induction ops as [|o ops IH]; intros H s Hp Hnd Hn Hs; [exact Hs|]. apply Forall_cons in Hp. destruct Hp as [Hp Hps]. cbn [run fold_left]. cbn [announced flat_map] in *.
    change (flat_map announces ops) with (announced ops) in *. apply NoDup_app in Hnd. destruct Hnd as (Hn1 & Hn2 & Hn3).
    destruct (wstep_WA H s o Hp) as [Hs' _]; [intros id Hid; apply Hn, in_or_app; now left|exact Hs|].
    assert (Hlen : announces o = rev (announces o)) by (destruct o; reflexivity).
    specialize (IH (announces o ++ H) (wstep s o) Hps Hn3). unfold run in IH. rewrite rev_app_distr, <- app_assoc, <- Hlen. apply IH; [|exact Hs'].
    intros id Hid Hin. apply in_app_or in Hin. destruct Hin as [Hin|Hin]; [apply (Hn2 id); apply elem_of_list_In; assumption|]. apply (Hn id); [apply in_or_app; now right|exact Hin].
  Qed.
  Lemma WA_init v x : 1 <= thr v -> 1 <= thr x -> WA [] (Work (wrec0 v x) []).
  Proof.
    intros Hv Hx. split; cbn; try (intros; rewrite ?lookup_empty in *; congruence); try (intros id []); [split; [constructor|intros x0 []|congruence|intros c x0 []]|constructor|auto].
  Qed.

  (** ** What is published is valid *)
  Section fixed.
    Variables (V X : vset).
    Definition heard_one (o : wop) : list witness :=
      match o with
      | WGossip w => [w]
      | WActive id c data me sg => match digest_of c data me with Some dg => [Wit dg id me sg] | None => [] end
      | _ => []
      end.
    Definition heard (ops : list wop) : list witness := flat_map heard_one ops.
    Definition wno_set (o : wop) : Prop := match o with WSet _ _ => False | _ => True end.
    Definition enough (c : chain) (l : list (N * N)) : Prop :=
      match c with
      | Ethereum => thr V <= N.of_nat (length l)
      | Xrpl => thr X <= N.of_nat (length (List.filter (fun x => match vals V !! N.to_nat (fst x) with None => false | Some a => match position a (vals X) with Some _ => true | None => false end end) l))
      end.
    Definition proof_ok (W : list witness) (p : N * (chain * N) * list (N * N)) : Prop :=
      let '(id, (c, data), l) := p in sigs_ok digest_of verify V W id c data l /\ enough c l.
    Definition WV (W : list witness) (s : worker) : Prop := SI digest_of verify V X W (rec s) /\ Forall (proof_ok W) (proofs s).
    Lemma consensus_enough W r id c l : SI digest_of verify V X W r -> wits r !! id = l -> has_consensus r id c = true -> enough c (default [] l).
    Proof.
      intros Hs <- Hc. unfold has_consensus, threshold, count_for, xrpl_signer in Hc. apply N.leb_le in Hc. unfold enough. rewrite (si_v _ _ _ _ _ _ Hs), (si_x _ _ _ _ _ _ Hs) in Hc.
      destruct (wits r !! id); cbn [default]; destruct c; exact Hc.
    Qed.
    Lemma try_WV W s id : WV W s -> WV W (try_proof s id).
    Proof.
      intros [Hs Hp]. destruct (try_cases s id) as [[_ ->]|(c & data & Hm & [[_ ->]|(Hcon & Hd & ->)])]; [split; assumption|split; [apply process_SI, Hs|exact Hp]|].
      pose proof (process_SI digest_of verify V X W (rec s) id Hs) as Hr. split; [apply mark_SI, Hr|]. cbn [proofs]. constructor; [|exact Hp]. split; [|eapply consensus_enough; [exact Hr|reflexivity|exact Hcon]].
      destruct (wits (process (rec s) id) !! id) as [l|] eqn:E; cbn [default]; [|split; constructor]. destruct (si_w _ _ _ _ _ _ Hr _ _ E) as (c' & data' & Hm' & Ho).
      destruct (process_keeps digest_of verify (rec s) id) as (_ & E2 & _). rewrite E2, Hm in Hm'. injection Hm' as <- <-. exact Ho.
    Qed.
    Lemma handle_WV W s w : In w W -> WV W s -> WV W (handle s w).
    Proof.
      intros Hw [Hs Hp]. unfold WitnessModel.handle. pose proof (note_SI digest_of verify V X W (rec s) w Hw Hs) as Hn. destruct (note (rec s) w) as [r x]. cbn [fst] in Hn. destruct (wok x); [|split; assumption].
      apply try_WV. split; assumption.
    Qed.
    Lemma WV_mono W W' s : (forall w, In w W -> In w W') -> WV W s -> WV W' s.
    Proof.
      intros Hw [H1 H2]. split; [exact (SI_mono _ _ _ _ _ _ _ Hw H1)|]. eapply Forall_impl; [exact H2|]. intros [[id [c data]] l] [A B]. split; [exact (sigs_mono _ _ _ _ _ _ _ _ _ Hw A)|exact B].
    Qed.
    Lemma wrun_WV ops : forall W s, Forall wno_set ops -> WV W s -> WV (W ++ heard ops) (run wstep ops s).
    Proof.
      induction ops as [|o ops IH]; intros W s Ho Hs; [rewrite app_nil_r; exact Hs|]. apply Forall_cons in Ho. destruct Ho as [Ho Hops]. cbn [run fold_left].
      assert (Hs' : WV (W ++ heard_one o) (wstep s o)).
      { assert (Hm : WV (W ++ heard_one o) s) by (eapply WV_mono; [|exact Hs]; intros w Hw; apply in_or_app; now left).
        destruct o as [id c data|id c data me sg|w|v x]; cbn [WitnessModel.wstep].
        - apply try_WV. destruct Hm as [M1 M2]. split; [apply meta_SI, M1|exact M2].
        - cbn [heard_one] in *. destruct (digest_of c data me) as [dg|]; [|exact Hm]. apply handle_WV; [apply in_or_app; right; now left|]. destruct Hm as [M1 M2]. split; [apply meta_SI, M1|exact M2].
        - apply handle_WV; [apply in_or_app; right; now left|exact Hm].
        - destruct Ho. }
      specialize (IH _ _ Hops Hs'). unfold run in IH. cbn [heard flat_map]. rewrite app_assoc. exact IH.
    Qed.
    Lemma WV_init W : WV W (Work (wrec0 V X) []).
    Proof. split; [apply SI_init|constructor]. Qed.

    (** ** Enough witnesses give a proof *)
    Variables (id0 : N) (c0 : chain) (d0 : N).
    Definition valid_wit (w : witness) : Prop :=
      wevent w = id0 /\ digest_of c0 d0 (wauth w) = Some (wdigest w) /\ verify (wauth w) (wsig w) (wdigest w) = true /\ exists i, position (wauth w) (vals V) = Some i.
    Definition inw (r : wrec) (a : N) : Prop := exists i sg, position a (vals V) = Some i /\ In (i, sg) (default [] (wits r !! id0)).
    Definition good (r : wrec) : Prop := forall a, In a (default [] (seen r !! id0)) -> inw r a.
    (** An honest node, with its own key among the validators; the request for [id0] has the given contents. *)
    Definition honest (o : wop) : Prop :=
      match o with
      | WPassive id c data => id = id0 -> c = c0 /\ data = d0
      | WActive id c data me sg => (id = id0 -> c = c0 /\ data = d0) /\ In me (vals V) /\ forall dg, digest_of c data me = Some dg -> verify me sg dg = true
      | WGossip _ => True
      | WSet _ _ => False
      end.
    (** What has arrived for the event: its authors; and whether the request was noted. *)
    Definition arrives (a : N) (o : wop) : Prop := exists w, o = WGossip w /\ wauth w = a /\ valid_wit w.
    Definition notes (o : wop) : Prop :=
      match o with WPassive id _ _ => id = id0 | WActive id c data me _ => id = id0 /\ digest_of c data me <> None | _ => False end.
    Definition waiting (Arr : N -> Prop) (r : wrec) : Prop :=
      metas r !! id0 = None /\ wits r !! id0 = None /\ seen r !! id0 = None /\ forall a, Arr a -> exists w, In w (default [] (unver r !! id0)) /\ wauth w = a /\ valid_wit w.
    Definition counting (Arr : N -> Prop) (r : wrec) : Prop :=
      metas r !! id0 = Some (c0, d0) /\ has_consensus r id0 c0 = false /\ unver r !! id0 = None /\ good r /\ forall a, Arr a -> inw r a.
    Definition K (Arr : N -> Prop) (ann : Prop) (s : worker) : Prop :=
      In id0 (ids s) \/ kept (done (rec s)) id0 \/ (waiting Arr (rec s) /\ ~ ann) \/ counting Arr (rec s).
    Hypothesis Hzero : digest_of c0 d0 zero <> None.

    Lemma record_inw r i a sg : position a (vals V) = Some i ->
      inw (record_wit r id0 i a sg) a /\ (forall b, inw r b -> inw (record_wit r id0 i a sg) b).
    Proof.
      intros Hp. unfold inw, record_wit. cbn. rewrite lookup_insert. cbn [default]. split.
      - destruct (wits r !! id0) as [l|] eqn:El; [|exists i, sg; split; [exact Hp|now left]]. destruct (has_key fst i l) eqn:E.
        + apply has_key_true in E. destruct E as ([j s'] & E1 & E2). cbn in E2. subst j. exists i, s'. auto.
        + exists i, sg. split; [exact Hp|]. apply insert_key_in. now left.
      - intros b (j & s' & P1 & P2). exists j, s'. split; [exact P1|]. destruct (wits r !! id0) as [l|] eqn:El; cbn [default] in P2; [|destruct P2]. destruct (has_key fst i l); [exact P2|]. apply insert_key_in. now right.
    Qed.
    Lemma record_good r i a sg : position a (vals V) = Some i -> good r -> good (record_wit r id0 i a sg).
    Proof.
      intros Hp Hg b Hb. destruct (record_inw r i a sg Hp) as [R1 R2]. unfold record_wit in Hb. cbn in Hb. rewrite lookup_insert in Hb. cbn [default] in Hb.
      assert (Hcase : b = a \/ In b (default [] (seen r !! id0))).
      { destruct (seen r !! id0) as [l|]; cbn [default]; [|destruct Hb as [<-|[]]; now left]. destruct (has_key idk a l); [now right|]. apply insert_key_in in Hb. exact Hb. }
      destruct Hcase as [->|Hc]; [exact R1|apply R2, Hg, Hc].
    Qed.
    (** Noting a witness for [id0] once its data are known. *)
    Lemma note_counting r w : wvals r = V -> refused r id0 = false -> metas r !! id0 = Some (c0, d0) -> wevent w = id0 -> good r ->
      let r' := fst (note r w) in good r' /\ (forall a, inw r a -> inw r' a) /\ unver r' = unver r /\ (valid_wit w -> inw r' (wauth w)).
    Proof.
      intros Hv Hr Hm Hw Hg. cbn zeta. unfold WitnessModel.note. rewrite Hw, Hr. destruct (match seen r !! id0 with Some l => has_key idk (wauth w) l | None => false end) eqn:Es.
      - cbn [fst]. split; [exact Hg|]. split; [auto|]. split; [reflexivity|]. intros _. apply Hg. destruct (seen r !! id0) as [l|]; [|discriminate]. apply has_idk in Es. exact Es.
      - rewrite Hm. destruct (digest_of c0 d0 (wauth w)) as [dg|] eqn:Ed; [|cbn [fst]; repeat split; auto; intros (_ & V1 & _); congruence].
        destruct (N.eqb_spec dg (wdigest w)) as [E|Hne]; cbn [negb]; [|cbn [fst]; repeat split; auto; intros (_ & V1 & _); congruence].
        destruct (verify (wauth w) (wsig w) dg) eqn:Ev; cbn [negb]; [|cbn [fst]; repeat split; auto; intros (_ & _ & V1 & _); congruence].
        destruct (position (wauth w) (vals (wvals r))) as [i|] eqn:Ep; [|cbn [fst]; repeat split; auto; intros (_ & _ & _ & i & V1); congruence].
        cbn [fst]. rewrite Hv in Ep. destruct (record_inw r i (wauth w) (wsig w) Ep) as [R1 R2]. split; [apply record_good; assumption|]. split; [exact R2|]. split; [reflexivity|]. intros _. exact R1.
    Qed.
    Lemma fold_counting l : forall r, Forall (fun w => wevent w = id0) l -> wvals r = V -> refused r id0 = false -> metas r !! id0 = Some (c0, d0) -> good r ->
      let r' := fold_left (fun s w => fst (note s w)) l r in good r' /\ (forall a, inw r a -> inw r' a) /\ unver r' = unver r /\ (forall w, In w l -> valid_wit w -> inw r' (wauth w)).
    Proof.
      induction l as [|w l IH]; intros r Hl Hv Hr Hm Hg; [repeat split; auto; intros w []|]. apply Forall_cons in Hl. destruct Hl as [Hw Hl]. cbn [fold_left].
      destruct (note_counting r w Hv Hr Hm Hw Hg) as (A1 & A2 & A3 & A4). destruct (note_keeps digest_of verify r w) as (E1 & E2 & E3 & _). cbn zeta in *.
      destruct (IH (fst (note r w)) Hl) as (B1 & B2 & B3 & B4); [congruence|rewrite (refused_done r _ id0 E1); exact Hr|congruence|exact A1|].
      cbn zeta in *. split; [exact B1|]. split; [auto|]. split; [congruence|]. intros w' [<-|Hw'] Hval; [apply B2, A4, Hval|exact (B4 _ Hw' Hval)].
    Qed.
    (** After the witnesses kept for later have been processed: a proof, or not enough yet. *)
    Lemma try_counting (Arr : N -> Prop) s : wvals (rec s) = V -> refused (rec s) id0 = false -> metas (rec s) !! id0 = Some (c0, d0) -> good (rec s) ->
      (forall l, unver (rec s) !! id0 = Some l -> Forall (fun w => wevent w = id0) l) ->
      (forall a, Arr a -> inw (rec s) a \/ exists w, In w (default [] (unver (rec s) !! id0)) /\ wauth w = a /\ valid_wit w) ->
      In id0 (ids (try_proof s id0)) \/ counting Arr (rec (try_proof s id0)).
    Proof.
      intros Hv Hr Hm Hg Hu Ha. assert (Hp : good (process (rec s) id0) /\ unver (process (rec s) id0) !! id0 = None /\ forall a, Arr a -> inw (process (rec s) id0) a).
      { unfold WitnessModel.process. destruct (unver (rec s) !! id0) as [l|] eqn:E; cbn [default] in Ha.
        - destruct (fold_counting l (set_unver (rec s) (delete id0 (unver (rec s)))) (Hu _ eq_refl) Hv Hr Hm Hg) as (A1 & A2 & A3 & A4). cbn zeta in *.
          split; [exact A1|]. split; [rewrite A3; cbn; apply lookup_delete|]. intros a Haa. destruct (Ha a Haa) as [Hi|(w & W1 & <- & W3)]; [apply A2, Hi|exact (A4 w W1 W3)].
        - split; [exact Hg|]. split; [exact E|]. intros a Haa. destruct (Ha a Haa) as [Hi|(w & [] & _)]. exact Hi. }
      destruct Hp as (P1 & P2 & P3). destruct (process_keeps digest_of verify (rec s) id0) as (E1 & E2 & E3 & E4).
      destruct (try_cases s id0) as [[Hn _]|(c & data & Hm' & [[Hcon ->]|(Hcon & Hd & ->)])]; [congruence| |left; now left].
      rewrite Hm in Hm'. injection Hm' as <- <-. right. cbn [rec]. destruct Hcon as [Hcon|Hcon]; [|contradiction]. split; [rewrite E2; exact Hm|]. auto.
    Qed.
    Lemma ids_try s id : forall j, In j (ids s) -> In j (ids (try_proof s id)).
    Proof. intros j Hj. destruct (try_cases s id) as [[_ ->]|(c & data & Hm & [[_ ->]|(Hcon & Hd & ->)])]; [exact Hj|exact Hj|right; exact Hj]. Qed.
    (** Steps about other events leave [id0] alone. *)
    Definition same (r r' : wrec) : Prop := metas r' !! id0 = metas r !! id0 /\ wits r' !! id0 = wits r !! id0 /\ seen r' !! id0 = seen r !! id0 /\ unver r' !! id0 = unver r !! id0 /\
      wvals r' = wvals r /\ xvals r' = xvals r.
    Lemma same_waiting Arr r r' : same r r' -> waiting Arr r -> waiting Arr r'.
    Proof. intros (S1 & S2 & S3 & S4 & S5 & S6) (W1 & W2 & W3 & W4). unfold waiting. rewrite S1, S2, S3, S4. auto. Qed.
    Lemma same_counting Arr r r' : same r r' -> counting Arr r -> counting Arr r'.
    Proof.
      intros (S1 & S2 & S3 & S4 & S5 & S6) (W1 & W2 & W3 & W4 & W5). unfold counting, good, inw in *. rewrite S1, S2, S3, S4.
      replace (has_consensus r' id0 c0) with (has_consensus r id0 c0); [auto|]. unfold has_consensus, threshold, count_for, xrpl_signer. rewrite S2, S5, S6. reflexivity.
    Qed.
    Lemma same_trans a b c : same a b -> same b c -> same a c.
    Proof. intros (A1 & A2 & A3 & A4 & A5 & A6) (B1 & B2 & B3 & B4 & B5 & B6). repeat split; congruence. Qed.
    Lemma note_same r w : wevent w <> id0 -> same r (fst (note r w)).
    Proof. intros Hw. destruct (note_keeps digest_of verify r w) as (E1 & E2 & E3 & E4 & E5). destruct (E5 id0 ltac:(congruence)) as (F1 & F2 & F3). cbn zeta in *. repeat split; congruence. Qed.
    Lemma try_same s id : id <> id0 -> (forall l, unver (rec s) !! id = Some l -> Forall (fun w => wevent w = id) l) -> same (rec s) (rec (try_proof s id)).
    Proof.
      intros Hid Hu. assert (Hp : same (rec s) (process (rec s) id)).
      { destruct (process_keeps digest_of verify (rec s) id) as (E1 & E2 & E3 & E4). unfold WitnessModel.process in *. destruct (unver (rec s) !! id) as [l|] eqn:E; [|repeat split].
        destruct (fold_other digest_of verify l id (Hu _ eq_refl) (set_unver (rec s) (delete id (unver (rec s)))) id0 ltac:(congruence)) as (F1 & F2 & F3). cbn zeta in *.
        unfold set_unver in F1, F2, F3. cbn [wits seen unver] in F1, F2, F3. rewrite lookup_delete_ne in F3 by exact Hid. unfold set_unver in E2, E3, E4; unfold set_unver, same; rewrite E2, F1, F2, F3, E3, E4; repeat split. }
      destruct (try_cases s id) as [[_ ->]|(c & data & Hm & [[_ ->]|(Hcon & Hd & ->)])]; [repeat split|exact Hp|]. eapply same_trans; [exact Hp|]. cbn. repeat split; apply lookup_delete_ne; exact Hid.
    Qed.
    Lemma K_mono (Arr Arr' : N -> Prop) (ann ann' : Prop) s : (forall a, Arr' a -> Arr a) -> (ann' -> ann) -> K Arr ann s -> K Arr' ann' s.
    Proof.
      intros H1 H2 [Hk|[Hk|[[(W1 & W2 & W3 & W4) Hn]|(W1 & W2 & W3 & W4 & W5)]]]; [left; exact Hk|right; left; exact Hk|right; right; left|right; right; right].
      - split; [|auto]. repeat split; auto.
      - repeat split; auto.
    Qed.
    (** Handling a witness for [id0]. *)
    Lemma handle_id0 H (Arr : N -> Prop) ann s w : WA H s -> wvals (rec s) = V -> wevent w = id0 -> K Arr ann s -> K (fun a => Arr a \/ (wauth w = a /\ valid_wit w)) ann (handle s w).
    Proof.
      intros Hs Hv Hw Hk. destruct (handle_WA H s w Hs) as [_ Hmono]. unfold WitnessModel.handle in *. destruct (kept_dec (rec s) id0) as [Hr|Hr].
      { rewrite note_refused by (rewrite Hw; exact Hr). cbn [wok]. right. left. apply kept_refused, Hr. }
      destruct Hk as [Hk|[Hk|[[(W1 & W2 & W3 & W4) Hn]|(W1 & W2 & W3 & W4 & W5)]]].
      - left. destruct (note (rec s) w) as [r x]. destruct (wok x); [apply ids_try; exact Hk|exact Hk].
      - apply kept_refused in Hk. congruence.
      - assert (En : note (rec s) w = (set_unver (rec s) (<[id0 := default [] (unver (rec s) !! id0) ++ [w]]> (unver (rec s))), DigestUnverified)).
        { unfold WitnessModel.note. rewrite Hw, Hr, W3, W1. destruct (unver (rec s) !! id0); reflexivity. }
        rewrite En. cbn [wok]. assert (Et : try_proof (Work (set_unver (rec s) (<[id0:=default [] (unver (rec s) !! id0) ++ [w]]> (unver (rec s)))) (proofs s)) (wevent w) = Work (set_unver (rec s) (<[id0:=default [] (unver (rec s) !! id0) ++ [w]]> (unver (rec s)))) (proofs s)).
        { unfold WitnessModel.try_proof. cbn [rec]. rewrite Hw. cbn. rewrite W1. reflexivity. }
        rewrite Et. right. right. left. split; [|exact Hn]. cbn [rec]. unfold waiting. cbn. rewrite lookup_insert. cbn [default]. do 3 (split; [assumption|]).
        intros a [Ha|[<- Hval]]; [destruct (W4 a Ha) as (w' & A1 & A2); exists w'; split; [apply in_or_app; now left|exact A2]|exists w; split; [apply in_or_app; right; now left|auto]].
      - destruct (note_counting (rec s) w Hv Hr W1 Hw W4) as (A1 & A2 & A3 & A4). destruct (note_keeps digest_of verify (rec s) w) as (E1 & E2 & E3 & E4 & _). cbn zeta in *.
        pose proof (note_cases digest_of verify (rec s) w) as Hcs. destruct (note (rec s) w) as [r x]. cbn [fst] in *. destruct (wok x) eqn:Ex.
        + rewrite Hw. assert (Hu : unver r !! id0 = None) by (rewrite A3; exact W3).
          destruct (try_counting (fun a => Arr a \/ (wauth w = a /\ valid_wit w)) (Work r (proofs s))) as [Hd|Hd]; cbn [rec]; [congruence|rewrite (refused_done (rec s) r id0 E1); exact Hr|congruence|exact A1|intros l Hl; congruence| |left; exact Hd|right; right; right; exact Hd].
          intros a [Ha|[<- Hval]]; left; [apply A2, W5, Ha|apply A4, Hval].
        + assert (Er : r = rec s) by (inversion Hcs; subst; [reflexivity|discriminate..]). subst r. right. right. right. repeat (split; [assumption|]). intros a [Ha|[<- Hval]]; [apply W5, Ha|apply A4, Hval].
    Qed.
    Lemma K_same Arr ann s s' : same (rec s) (rec s') -> (forall j, In j (ids s) -> In j (ids s')) -> (forall j, kept (done (rec s)) j -> kept (done (rec s')) j) -> K Arr ann s -> K Arr ann s'.
    Proof.
      intros H1 H2 H3 [Hk|[Hk|[[Hk Hn]|Hk]]]; [left; auto|right; left; auto|right; right; left; split; [exact (same_waiting _ _ _ H1 Hk)|exact Hn]|right; right; right; exact (same_counting _ _ _ H1 Hk)].
    Qed.
    Lemma handle_other H s w : WA H s -> wevent w <> id0 -> same (rec s) (rec (handle s w)) /\ forall j, In j (ids s) -> In j (ids (handle s w)).
    Proof.
      intros Hs Hw. unfold WitnessModel.handle. pose proof (note_WA H s w Hs) as Hn. pose proof (note_same (rec s) w Hw) as Hsm. destruct (note (rec s) w) as [r x]. cbn [fst] in *. destruct (wok x); [|split; [repeat split|auto]].
      split; [eapply same_trans; [exact Hsm|]; apply (try_same (Work r (proofs s)) (wevent w) Hw); exact (wa_un _ _ Hn (wevent w))|intros j Hj; apply ids_try; exact Hj].
    Qed.
    Lemma step_vals s o : wno_set o -> wvals (rec (wstep s o)) = wvals (rec s) /\ xvals (rec (wstep s o)) = xvals (rec s).
    Proof.
      assert (Ht : forall s id, wvals (rec (try_proof s id)) = wvals (rec s) /\ xvals (rec (try_proof s id)) = xvals (rec s)).
      { intros t id. destruct (process_keeps digest_of verify (rec t) id) as (_ & _ & E3 & E4). destruct (try_cases t id) as [[_ ->]|(c & data & Hm & [[_ ->]|(Hcon & Hd & ->)])]; cbn; auto. }
      assert (Hh : forall s w, wvals (rec (handle s w)) = wvals (rec s) /\ xvals (rec (handle s w)) = xvals (rec s)).
      { intros t w. unfold WitnessModel.handle. destruct (note_keeps digest_of verify (rec t) w) as (_ & _ & E3 & E4 & _). destruct (note (rec t) w) as [r x]. cbn [fst] in *. destruct (wok x); [|auto].
        destruct (Ht (Work r (proofs t)) (wevent w)) as [A B]. cbn [rec] in *. split; congruence. }
      intros Ho. destruct o as [id c data|id c data me sg|w|v x]; cbn [WitnessModel.wstep].
      - destruct (Ht (Work (note_meta (rec s) id c data) (proofs s)) id) as [A B]. destruct (note_meta_keeps (rec s) id c data) as (_ & _ & _ & _ & E5 & E6 & _). cbn [rec] in *. split; congruence.
      - destruct (digest_of c data me) as [dg|]; [|auto]. destruct (Hh (Work (note_meta (rec s) id c data) (proofs s)) (Wit dg id me sg)) as [A B]. destruct (note_meta_keeps (rec s) id c data) as (_ & _ & _ & _ & E5 & E6 & _). cbn [rec] in *. split; congruence.
      - apply Hh.
      - destruct Ho.
    Qed.
    Lemma meta_same s id c data : id <> id0 -> same (rec s) (note_meta (rec s) id c data).
    Proof.
      intros Hid. destruct (note_meta_keeps (rec s) id c data) as (E1 & E2 & E3 & E4 & E5 & E6 & E7). unfold same. rewrite E2, E3, E4, E5, E6, E7. destruct (N.eqb_spec id id0); [contradiction|]. repeat split.
    Qed.
    Lemma wstep_K H (Arr : N -> Prop) (ann : Prop) s o : WA H s -> wvals (rec s) = V -> (forall id, In id (announces o) -> ~ In id H) -> honest o ->
      K Arr ann s -> K (fun a => Arr a \/ arrives a o) (ann \/ notes o) (wstep s o).
    Proof.
      intros Hs Hv Hn Ho Hk. assert (Hpos : positive o) by (destruct o; [exact I..|destruct Ho]). destruct (wstep_WA H s o Hpos Hn Hs) as [_ Hmono].
      destruct o as [id c data|id c data me sg|w|v x]; cbn [WitnessModel.wstep] in *; cbn [honest notes] in *.
      - pose proof (meta_WA H s id c data Hs) as Hm. destruct (N.eq_dec id id0) as [->|Hne].
        + destruct (Ho eq_refl) as [-> ->]. destruct (note_meta_keeps (rec s) id0 c0 d0) as (E1 & E2 & E3 & E4 & E5 & E6 & E7).
          apply (K_mono Arr _ True); [intros a [Ha|(w & [=] & _)]; exact Ha|auto|]. destruct (kept_dec (rec s) id0) as [Hr|Hr]; [right; left; apply Hmono, kept_refused, Hr|].
          assert (Hmeta : metas (rec s) !! id0 = None) by (destruct (metas (rec s) !! id0) eqn:E; [|reflexivity]; exfalso; apply (Hn id0 (or_introl eq_refl)), (wa_meta _ _ Hs); rewrite E; discriminate).
          destruct Hk as [Hk|[Hk|[[(W1 & W2 & W3 & W4) Hnn]|(W1 & _)]]]; [left; apply ids_try; exact Hk|right; left; apply Hmono, Hk| |congruence].
          destruct (try_counting Arr (Work (note_meta (rec s) id0 c0 d0) (proofs s))) as [Hd|Hd]; cbn [rec].
          * congruence.
          * rewrite (refused_done (rec s) _ id0 E1). exact Hr.
          * rewrite E7, N.eqb_refl, Hmeta. reflexivity.
          * intros a Ha. rewrite E3, W3 in Ha. destruct Ha.
          * rewrite E4. exact (wa_un _ _ Hs id0).
          * intros a Ha. right. rewrite E4. exact (W4 a Ha).
          * left. exact Hd.
          * right. right. right. exact Hd.
        + apply (K_mono Arr _ ann); [intros a [Ha|(w & [=] & _)]; exact Ha|intros [Ha|Ha]; [exact Ha|contradiction]|].
          eapply K_same; [eapply same_trans; [apply (meta_same s id c data Hne)|]; exact (try_same (Work (note_meta (rec s) id c data) (proofs s)) id Hne (wa_un _ _ Hm id))|intros j Hj; apply ids_try; exact Hj|exact Hmono|exact Hk].
      - destruct Ho as (Ho1 & Ho2 & Ho3). destruct (digest_of c data me) as [dg|] eqn:Ed.
        + pose proof (meta_WA H s id c data Hs) as Hm. destruct (N.eq_dec id id0) as [->|Hne].
          * destruct (Ho1 eq_refl) as [-> ->]. destruct (note_meta_keeps (rec s) id0 c0 d0) as (E1 & E2 & E3 & E4 & E5 & E6 & E7).
            apply (K_mono Arr _ True); [intros a [Ha|(w & [=] & _)]; exact Ha|auto|]. destruct (kept_dec (rec s) id0) as [Hr|Hr]; [right; left; apply Hmono, kept_refused, Hr|].
            assert (Hmeta : metas (rec s) !! id0 = None) by (destruct (metas (rec s) !! id0) eqn:E; [|reflexivity]; exfalso; apply (Hn id0 (or_introl eq_refl)), (wa_meta _ _ Hs); rewrite E; discriminate).
            destruct Hk as [Hk|[Hk|[[(W1 & W2 & W3 & W4) Hnn]|(W1 & _)]]]; [|right; left; apply Hmono, Hk| |congruence].
            { left. unfold WitnessModel.handle. destruct (note _ _) as [r x]. destruct (wok x); [apply ids_try; exact Hk|exact Hk]. }
            destruct (position_in me (vals V) Ho2) as [i Hi]. assert (En : note (note_meta (rec s) id0 c0 d0) (Wit dg id0 me sg) = (record_wit (note_meta (rec s) id0 c0 d0) id0 i me sg, Verified)).
            { unfold WitnessModel.note. cbn [wevent wauth wdigest wsig]. rewrite (refused_done (rec s) _ id0 E1), Hr, E3, W3, E7, N.eqb_refl, Hmeta. cbn [default]. rewrite Ed, N.eqb_refl. cbn [negb]. rewrite (Ho3 dg eq_refl). cbn [negb]. rewrite E5, Hv, Hi. reflexivity. }
            unfold WitnessModel.handle. cbn [rec proofs]. rewrite En. cbn [wok wevent].
            destruct (try_counting Arr (Work (record_wit (note_meta (rec s) id0 c0 d0) id0 i me sg) (proofs s))) as [Hd|Hd]; cbn [rec].
            -- cbn. congruence.
            -- rewrite (refused_done (rec s) (record_wit (note_meta (rec s) id0 c0 d0) id0 i me sg) id0 E1). exact Hr.
            -- change (metas (record_wit (note_meta (rec s) id0 c0 d0) id0 i me sg)) with (metas (note_meta (rec s) id0 c0 d0)). rewrite E7, N.eqb_refl, Hmeta. reflexivity.
            -- apply record_good; [exact Hi|]. intros a Ha. rewrite E3, W3 in Ha. destruct Ha.
            -- change (unver (record_wit (note_meta (rec s) id0 c0 d0) id0 i me sg)) with (unver (note_meta (rec s) id0 c0 d0)). rewrite E4. exact (wa_un _ _ Hs id0).
            -- intros a Ha. right. change (unver (record_wit (note_meta (rec s) id0 c0 d0) id0 i me sg)) with (unver (note_meta (rec s) id0 c0 d0)). rewrite E4. exact (W4 a Ha).
            -- left. exact Hd.
            -- right. right. right. exact Hd.
          * apply (K_mono Arr _ ann); [intros a [Ha|(w & [=] & _)]; exact Ha|intros [Ha|[Ha _]]; [exact Ha|contradiction]|].
            destruct (handle_other (id :: H) (Work (note_meta (rec s) id c data) (proofs s)) (Wit dg id me sg) Hm Hne) as [S1 S2].
            eapply K_same; [eapply same_trans; [apply (meta_same s id c data Hne)|exact S1]|exact S2|exact Hmono|exact Hk].
        + apply (K_mono Arr _ ann); [intros a [Ha|(w & [=] & _)]; exact Ha|intros [Ha|[_ Ha]]; [exact Ha|contradiction]|exact Hk].
      - destruct (N.eq_dec (wevent w) id0) as [Hw|Hw].
        + eapply K_mono; [| |exact (handle_id0 H Arr ann s w Hs Hv Hw Hk)]; [intros a [Ha|(w' & [= ->] & Ha)]; [left; exact Ha|right; exact Ha]|tauto].
        + apply (K_mono Arr _ ann); [intros a [Ha|(w' & [= ->] & _ & Ha & _)]; [exact Ha|contradiction]|tauto|]. destruct (handle_other H s w Hs Hw) as [S1 S2]. eapply K_same; [exact S1|exact S2|exact Hmono|exact Hk].
      - destruct Ho.
    Qed.
    Lemma wrun_K ops : forall H Arr ann s, WA H s -> wvals (rec s) = V -> Forall honest ops -> NoDup (announced ops) -> (forall id, In id (announced ops) -> ~ In id H) ->
      K Arr ann s -> K (fun a => Arr a \/ exists o, In o ops /\ arrives a o) (ann \/ exists o, In o ops /\ notes o) (run wstep ops s).
    Proof.
      induction ops as [|o ops IH]; intros H Arr ann s Hs Hv Ho Hnd Hn Hk.
      - apply (K_mono Arr _ ann); [intros a [Ha|(o & [] & _)]; exact Ha|intros [Ha|(o & [] & _)]; exact Ha|exact Hk].
      - apply Forall_cons in Ho. destruct Ho as [Ho Hops]. cbn [run fold_left]. cbn [announced flat_map] in *. change (flat_map announces ops) with (announced ops) in *.
        apply NoDup_app in Hnd. destruct Hnd as (Hn1 & Hn2 & Hn3). assert (Hno : forall id, In id (announces o) -> ~ In id H) by (intros id Hid; apply Hn, in_or_app; now left).
        assert (Hpos : positive o) by (destruct o; [exact I..|destruct Ho]). assert (Hns : wno_set o) by (destruct o; [exact I..|destruct Ho]).
        destruct (wstep_WA H s o Hpos Hno Hs) as [Hs' _]. pose proof (wstep_K H Arr ann s o Hs Hv Hno Ho Hk) as Hk'. destruct (step_vals s o Hns) as [Hv' _].
        specialize (IH (announces o ++ H) (fun a => Arr a \/ arrives a o) (ann \/ notes o) _ Hs' ltac:(congruence) Hops Hn3). unfold run in IH. eapply K_mono; [| |apply IH; [|exact Hk']].
        + intros a [Ha|(o' & [<-|Hi] & Ha)]; [left; left; exact Ha|left; right; exact Ha|right; exists o'; auto].
        + intros [Ha|(o' & [<-|Hi] & Ha)]; [left; left; exact Ha|left; right; exact Ha|right; exists o'; auto].
        + intros id Hid Hin. apply in_app_or in Hin. destruct Hin as [Hin|Hin]; [apply (Hn2 id); apply elem_of_list_In; assumption|]. apply (Hn id); [apply in_or_app; now right|exact Hin].
    Qed.
    Lemma K_init (Arr : N -> Prop) : (forall a, ~ Arr a) -> K Arr False (Work (wrec0 V X) []).
    Proof.
      intros Ha. right. right. left. split; [|auto]. unfold waiting. cbn. rewrite !lookup_empty. repeat split. intros a H. destruct (Ha a H).
    Qed.
  End fixed.
End worker.
