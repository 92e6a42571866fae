(** The record takes the node's own witnesses. *)
From Coq Require Import Sorting.Sorted.
From Verif Require Import WitnessModel WitnessProofs WitnessWorker NetModel.

Section own.
  Variable digest_of : chain -> N -> N -> option N.
  Variable verify : N -> N -> N -> bool.
  Variable zero : N.
  (** Only events announced so far ([H]) have metadata or are completed, and only events with metadata have witnesses. *)
  Definition J (H : list N) (r : wrec) : Prop :=
    (forall id, seen r !! id <> None -> metas r !! id <> None) /\
    (forall id, metas r !! id <> None -> In id H) /\ (forall id, In id (done r) -> In id H).
  Lemma note_J H r w : J H r -> J H (fst (note digest_of verify r w)).
  Proof.
    intros (A & B & C). destruct (note_cases digest_of verify r w) as [x Hr|Hr Hm|c data dg i Hr Hse Hm Hd He Hv Hp]; cbn [fst];
      (split; [|split; [exact B|exact C]]); [exact A|exact A|].
    intros id. cbn. destruct (N.eq_dec (wevent w) id) as [<-|Hne]; [rewrite Hm; discriminate|].
    rewrite lookup_insert_ne by exact Hne. apply A.
  Qed.
  Lemma process_J H r id : J H r -> J H (process digest_of verify r id).
  Proof.
    intros Hr. unfold process. destruct (unver r !! id) as [l|]; [|exact Hr].
    assert (Hs : J H (set_unver r (delete id (unver r)))) by exact Hr. revert Hs. generalize (set_unver r (delete id (unver r))).
    induction l as [|w l IH]; intros r' Hs; [exact Hs|]. cbn [fold_left]. apply IH, note_J, Hs.
  Qed.
  Lemma compact_sub l : forall x, In x (compact l) -> In x l.
  Proof.
    induction l as [|a r IH]; intros x; [auto|]. cbn [compact]. destruct r as [|b [|c q]]; auto.
    destruct (_ =? b); auto. intros I. right. apply IH, I.
  Qed.
  Lemma try_J H s id : J H (rec s) -> J H (rec (try_proof digest_of verify zero s id)).
  Proof.
    intros Hs. destruct (try_cases digest_of verify zero s id) as [[_ ->]|(c & data & Hm & [[_ ->]|(_ & _ & ->)])]; cbn [rec]; [exact Hs|apply process_J, Hs|].
    pose proof (process_J H (rec s) id Hs) as (A & B & C). destruct (process_keeps digest_of verify (rec s) id) as (_ & Em & _).
    assert (I : In id H) by (apply B; rewrite Em, Hm; discriminate). split; [|split]; cbn.
    - intros j. destruct (N.eq_dec id j) as [<-|Hne]; [rewrite lookup_delete; congruence|]. rewrite !lookup_delete_ne by exact Hne. apply A.
    - intros j. destruct (N.eq_dec id j) as [<-|Hne]; [rewrite lookup_delete; congruence|]. rewrite lookup_delete_ne by exact Hne. apply B.
    - intros j. destruct (has_key idk id _); [apply C|]. intros K. apply compact_sub, insert_key_in in K.
      destruct K as [->|K]; [exact I|apply C, K].
  Qed.
  Lemma handle_J H s w : J H (rec s) -> J H (rec (handle digest_of verify zero s w)).
  Proof.
    intros Hs. unfold handle. pose proof (note_J H (rec s) w Hs) as Hn. destruct (note digest_of verify (rec s) w) as [r x]. cbn [fst] in Hn.
    destruct (wok x); [|exact Hs]. apply try_J. exact Hn.
  Qed.
  Lemma meta_J H r id c data : J H r -> J (id :: H) (note_meta r id c data).
  Proof.
    intros (A & B & C). destruct (note_meta_keeps r id c data) as (E1 & _ & E3 & _ & _ & _ & E7). split; [|split].
    - intros j K. rewrite E3 in K. rewrite E7. destruct (id =? j); [discriminate|apply A, K].
    - intros j. rewrite E7. destruct (N.eqb_spec id j) as [->|]; [left; reflexivity|]. intros K. right. apply B, K.
    - intros j K. rewrite E1 in K. right. apply C, K.
  Qed.
  Lemma J_more H id r : J H r -> J (id :: H) r.
  Proof. intros (A & B & C). split; [exact A|]. split; intros j K; right; auto. Qed.
  Lemma step_J H s o : J H (rec s) -> J (announces o ++ H) (rec (wstep digest_of verify zero s o)).
  Proof.
    intros Hs. destruct o as [id c data|id c data me sg|w|v x]; cbn [announces app wstep].
    - apply try_J. cbn [rec]. apply meta_J, Hs.
    - destruct (digest_of c data me); [|apply J_more, Hs]. apply handle_J. cbn [rec]. apply meta_J, Hs.
    - apply handle_J, Hs.
    - exact Hs.
  Qed.
  (** A node's own witness for an event not announced before. *)
  Lemma own_taken0 H s id c data k sg dg : J H (rec s) -> ~ In id H -> refused (rec s) id = false -> In k (vals (wvals (rec s))) ->
    digest_of c data k = Some dg -> verify k sg dg = true ->
    taken digest_of verify (note_meta (rec s) id c data) (Wit dg id k sg) = [Wit dg id k sg].
  Proof.
    intros (A & B & C) Nin R0 K D Vf. destruct (note_meta_keeps (rec s) id c data) as (E1 & _ & E3 & _ & E5 & _ & E7).
    assert (Em : metas (rec s) !! id = None) by (destruct (metas (rec s) !! id) eqn:E; [|reflexivity]; exfalso; apply Nin, B; rewrite E; discriminate).
    assert (Es : seen (rec s) !! id = None) by (destruct (seen (rec s) !! id) eqn:E; [|reflexivity]; exfalso; apply (A id); [rewrite E; discriminate|exact Em]).
    assert (R : refused (note_meta (rec s) id c data) id = false) by (unfold refused in *; rewrite E1; exact R0).
    unfold taken, note. cbn [wevent wauth wdigest wsig]. rewrite R, E3, Es, E7, N.eqb_refl, Em. cbn [default from_option].
    unfold Datatypes.id. rewrite D, N.eqb_refl, Vf. cbn [negb]. rewrite E5.
    assert (P : exists i, position k (vals (wvals (rec s))) = Some i).
    { clear - K. induction (vals (wvals (rec s))) as [|y l IH]; [destruct K|]. cbn [position]. destruct (N.eqb_spec y k); [eauto|].
      destruct K as [K|K]; [contradiction|]. destruct (IH K) as (i & ->). cbn. eauto. }
    destruct P as (i & ->). reflexivity.
  Qed.
  (** One later than all before. *)
  Lemma own_taken H s id c data k sg dg : J H (rec s) -> Forall (fun j => j < id) H -> In k (vals (wvals (rec s))) ->
    digest_of c data k = Some dg -> verify k sg dg = true ->
    taken digest_of verify (note_meta (rec s) id c data) (Wit dg id k sg) = [Wit dg id k sg].
  Proof.
    intros Hj L. pose proof Hj as (A & B & C). rewrite List.Forall_forall in L.
    assert (Nin : ~ In id H) by (intros I; specialize (L id I); lia). apply (own_taken0 H s); [exact Hj|exact Nin|].
    unfold refused. destruct (has_key idk id (done (rec s))) eqn:Hk.
    - exfalso. apply has_idk in Hk. apply Nin, C, Hk.
    - cbn [orb]. destruct (done (rec s)) as [|m l] eqn:Ed; [apply andb_false_r|].
      specialize (L m (C m (or_introl eq_refl))). destruct (N.leb_spec id m); [lia|apply andb_false_r].
  Qed.
  (** Only announced events have proofs. *)
  Definition told (H : list N) (s : worker) : Prop := J H (rec s) /\ forall j, In j (map pid (proofs s)) -> In j H.
  Lemma try_told H s id : told H s -> told H (try_proof digest_of verify zero s id).
  Proof.
    intros [Hj Hp]. split; [apply try_J, Hj|]. destruct (try_cases digest_of verify zero s id) as [[_ ->]|(c & data & Hm & [[_ ->]|(_ & _ & ->)])]; cbn [proofs]; [exact Hp..|].
    intros j [<-|K]; [|apply Hp, K]. cbn. destruct Hj as (_ & B & _). apply B. rewrite Hm. discriminate.
  Qed.
  Lemma handle_told H s w : told H s -> told H (handle digest_of verify zero s w).
  Proof.
    intros [Hj Hp]. unfold handle. pose proof (note_J H (rec s) w Hj) as Hn. destruct (note digest_of verify (rec s) w) as [r x]. cbn [fst] in Hn.
    destruct (wok x); [|split; assumption]. apply try_told. split; assumption.
  Qed.
  Lemma meta_told H s id c data : told H s -> told (id :: H) (Work (note_meta (rec s) id c data) (proofs s)).
  Proof. intros [Hj Hp]. split; [apply meta_J, Hj|]. intros j K. right. apply Hp, K. Qed.
  Lemma step_told H s o : told H s -> told (announces o ++ H) (wstep digest_of verify zero s o).
  Proof.
    intros Hs. destruct o as [id c data|id c data me sg|w|v x]; cbn [announces app wstep].
    - apply try_told, meta_told, Hs.
    - destruct (digest_of c data me); [apply handle_told, meta_told, Hs|]. destruct Hs as [Hj Hp]. split; [apply J_more, Hj|]. intros j K. right. apply Hp, K.
    - apply handle_told, Hs.
    - exact Hs.
  Qed.
  Lemma run_told ops : forall H s, told H s -> exists H', told H' (run (wstep digest_of verify zero) ops s) /\
    forall j, In j H' -> In j (announced ops) \/ In j H.
  Proof.
    induction ops as [|o ops IH]; intros H s Hs; [exists H; auto|]. cbn [run fold_left].
    destruct (IH (announces o ++ H) _ (step_told H s o Hs)) as (H' & Ht & Hi). exists H'. split; [exact Ht|].
    intros j K. unfold announced. cbn [flat_map]. destruct (Hi j K) as [L|L]; [left; apply in_or_app; right; exact L|].
    apply in_app_or in L. destruct L as [L|L]; [left; apply in_or_app; left; exact L|right; exact L].
  Qed.

  (** What is kept of others' witnesses has been passed on ([G]). *)
  Definition Sh (G : list witness) (r : wrec) : Prop :=
    (forall id l a, seen r !! id = Some l -> In a l -> exists w, In w G /\ wevent w = id /\ wauth w = a) /\
    (forall id l w, unver r !! id = Some l -> In w l -> In w G).
  Lemma Sh_more G G' r : Sh G r -> Sh (G ++ G') r.
  Proof.
    intros (A & B). split.
    - intros id l a E I. destruct (A id l a E I) as (w & W & E1). exists w. split; [apply in_or_app; left; exact W|exact E1].
    - intros id l w E I. apply in_or_app. left. apply (B id l w E I).
  Qed.
  Lemma note_Sh G r w : Sh G r -> In w G -> Sh G (fst (note digest_of verify r w)).
  Proof.
    intros (A & B) W. destruct (note_cases digest_of verify r w) as [x Hr|Hr Hm|c data dg i Hr Hse Hm Hd He Hv Hp]; cbn [fst]; [split; assumption|split; [exact A|]|split; [|exact B]].
    - intros id l y. cbn. destruct (N.eq_dec (wevent w) id) as [<-|Hne]; [|rewrite lookup_insert_ne by exact Hne; apply B].
      rewrite lookup_insert. intros E I. injection E as <-. destruct (unver r !! wevent w) as [l'|] eqn:E'.
      + apply in_app_or in I. destruct I as [I|[<-|[]]]; [exact (B _ _ _ E' I)|exact W].
      + destruct I as [<-|[]]. exact W.
    - intros id l a. cbn. destruct (N.eq_dec (wevent w) id) as [<-|Hne]; [|rewrite lookup_insert_ne by exact Hne; apply A].
      rewrite lookup_insert. intros E I. injection E as <-. destruct (seen r !! wevent w) as [l'|] eqn:E'.
      + destruct (has_key idk (wauth w) l'); [exact (A _ _ _ E' I)|]. apply insert_key_in in I. destruct I as [->|I]; [|exact (A _ _ _ E' I)].
        exists w. auto.
      + destruct I as [<-|[]]. exists w. auto.
  Qed.
  Lemma process_Sh G r id : Sh G r -> Sh G (process digest_of verify r id).
  Proof.
    intros (A & B). unfold process. destruct (unver r !! id) as [l|] eqn:E; [|split; assumption].
    assert (L : forall w, In w l -> In w G) by (intros w; apply (B id l w E)).
    assert (Hs : Sh G (set_unver r (delete id (unver r)))).
    { split; [exact A|]. intros j l' w. cbn. intros K. apply lookup_delete_Some in K. destruct K as [_ K]. apply (B j l' w K). }
    revert Hs. generalize (set_unver r (delete id (unver r))). clear E A B.
    induction l as [|w l IH]; intros r' Hs; [exact Hs|]. cbn [fold_left]. apply IH; [intros y Y; apply L; right; exact Y|].
    apply note_Sh; [exact Hs|]. apply L. left. reflexivity.
  Qed.
  Lemma try_Sh G s id : Sh G (rec s) -> Sh G (rec (try_proof digest_of verify zero s id)).
  Proof.
    intros Hs. destruct (try_cases digest_of verify zero s id) as [[_ ->]|(c & data & Hm & [[_ ->]|(_ & _ & ->)])]; cbn [rec]; [exact Hs|apply process_Sh, Hs|].
    destruct (process_Sh G (rec s) id Hs) as (A & B). split; cbn.
    - intros j l a K. apply lookup_delete_Some in K. destruct K as [_ K]. apply (A j l a K).
    - intros j l w K. apply lookup_delete_Some in K. destruct K as [_ K]. apply (B j l w K).
  Qed.
  Lemma handle_Sh G s w : Sh G (rec s) -> Sh (G ++ taken digest_of verify (rec s) w) (rec (handle digest_of verify zero s w)).
  Proof.
    intros Hs. unfold handle, taken. destruct (note digest_of verify (rec s) w) as [r x] eqn:E. cbn [snd].
    destruct (wok x) eqn:Ex; [|rewrite app_nil_r; exact Hs]. apply try_Sh. cbn [rec].
    replace r with (fst (note digest_of verify (rec s) w)) by (rewrite E; reflexivity).
    apply note_Sh; [apply Sh_more, Hs|]. apply in_or_app. right. left. reflexivity.
  Qed.
  Lemma meta_Sh G r id c data : Sh G r -> Sh G (note_meta r id c data).
  Proof. intros (A & B). destruct (note_meta_keeps r id c data) as (_ & _ & E3 & E4 & _). unfold Sh. rewrite E3, E4. auto. Qed.
  Lemma step_Sh G s o : Sh G (rec s) -> Sh (G ++ shares digest_of verify s o) (rec (wstep digest_of verify zero s o)).
  Proof.
    intros Hs. destruct o as [id c data|id c data me sg|w|v x]; cbn [shares wstep].
    - rewrite app_nil_r. apply try_Sh. cbn [rec]. apply meta_Sh, Hs.
    - destruct (digest_of c data me); [|rewrite app_nil_r; exact Hs]. apply (handle_Sh G (Work (note_meta (rec s) id c data) (proofs s))). cbn [rec]. apply meta_Sh, Hs.
    - apply handle_Sh, Hs.
    - rewrite app_nil_r. exact Hs.
  Qed.
  Lemma run_Sh ops : forall G s, Sh G (rec s) -> Sh (G ++ shared digest_of verify zero s ops) (rec (run (wstep digest_of verify zero) ops s)).
  Proof.
    induction ops as [|o ops IH]; intros G s Hs; cbn [shared run fold_left]; [rewrite app_nil_r; exact Hs|].
    rewrite app_assoc. apply IH, step_Sh, Hs.
  Qed.
  Lemma shared_app ops1 ops2 : forall s, shared digest_of verify zero s (ops1 ++ ops2) =
    shared digest_of verify zero s ops1 ++ shared digest_of verify zero (run (wstep digest_of verify zero) ops1 s) ops2.
  Proof. induction ops1 as [|o ops1 IH]; intros s; cbn [shared app run fold_left]; [reflexivity|]. rewrite IH, app_assoc. reflexivity. Qed.

  (** Metadata is what was announced ([T]). *)
  Definition Me (T : N -> chain -> N -> Prop) (r : wrec) : Prop := forall id c d, metas r !! id = Some (c, d) -> T id c d.
  Definition tells (T : N -> chain -> N -> Prop) (o : wop) : Prop :=
    match o with WPassive id c d => T id c d | WActive id c d _ _ => T id c d | _ => True end.
  Lemma try_Me T s id : Me T (rec s) -> Me T (rec (try_proof digest_of verify zero s id)).
  Proof.
    intros Hs. destruct (process_keeps digest_of verify (rec s) id) as (_ & Em & _).
    destruct (try_cases digest_of verify zero s id) as [[_ ->]|(c & data & Hm & [[_ ->]|(_ & _ & ->)])]; cbn [rec]; [exact Hs| |].
    - unfold Me. rewrite Em. exact Hs.
    - intros j c' d'. cbn. rewrite Em. intros K. apply lookup_delete_Some in K. apply Hs, K.
  Qed.
  Lemma handle_Me T s w : Me T (rec s) -> Me T (rec (handle digest_of verify zero s w)).
  Proof.
    intros Hs. unfold handle. destruct (note_keeps digest_of verify (rec s) w) as (_ & Em & _). destruct (note digest_of verify (rec s) w) as [r x]. cbn [fst] in Em.
    destruct (wok x); [|exact Hs]. apply try_Me. unfold Me. cbn [rec]. rewrite Em. exact Hs.
  Qed.
  Lemma meta_Me (T : N -> chain -> N -> Prop) r id c data : T id c data -> Me T r -> Me T (note_meta r id c data).
  Proof.
    intros Ht Hs j c' d'. destruct (note_meta_keeps r id c data) as (_ & _ & _ & _ & _ & _ & E7). rewrite E7.
    destruct (N.eqb_spec id j) as [<-|]; [|apply Hs]. intros K. injection K as K. destruct (metas r !! id) as [[c0 d0]|] eqn:E; cbn in K; injection K as <- <-; [apply Hs, E|exact Ht].
  Qed.
  Lemma run_Me T ops : forall s, Forall (tells T) ops -> Me T (rec s) -> Me T (rec (run (wstep digest_of verify zero) ops s)).
  Proof.
    induction ops as [|o ops IH]; intros s Ho Hs; [exact Hs|]. apply Forall_cons in Ho. destruct Ho as [H1 H2]. cbn [run fold_left]. apply IH; [exact H2|].
    destruct o as [id c data|id c data me sg|w|v x]; cbn [wstep].
    - apply try_Me. cbn [rec]. apply meta_Me; assumption.
    - destruct (digest_of c data me); [|exact Hs]. apply handle_Me. cbn [rec]. apply meta_Me; assumption.
    - apply handle_Me, Hs.
    - exact Hs.
  Qed.
  (** The record knows an event, or the node has its proof. *)
  Definition Kn (id : N) (s : worker) : Prop := metas (rec s) !! id <> None \/ In id (map pid (proofs s)).
  Lemma try_Kn j s id : Kn j s -> Kn j (try_proof digest_of verify zero s id).
  Proof.
    intros Hs. destruct (process_keeps digest_of verify (rec s) id) as (_ & Em & _).
    destruct (try_cases digest_of verify zero s id) as [[_ ->]|(c & data & Hm & [[_ ->]|(_ & _ & ->)])]; [exact Hs| |]; unfold Kn in *; cbn [rec proofs].
    - rewrite Em. exact Hs.
    - cbn. rewrite Em. destruct (N.eq_dec id j) as [<-|Ne]; [right; left; reflexivity|]. rewrite lookup_delete_ne by exact Ne. tauto.
  Qed.
  Lemma handle_Kn j s w : Kn j s -> Kn j (handle digest_of verify zero s w).
  Proof.
    intros Hs. unfold handle. destruct (note_keeps digest_of verify (rec s) w) as (_ & Em & _). destruct (note digest_of verify (rec s) w) as [r x]. cbn [fst] in Em.
    destruct (wok x); [|exact Hs]. apply try_Kn. unfold Kn. cbn [rec proofs]. rewrite Em. exact Hs.
  Qed.
  Lemma meta_Kn j s id c data : j = id \/ Kn j s -> Kn j (Work (note_meta (rec s) id c data) (proofs s)).
  Proof.
    intros Hs. unfold Kn in *. cbn [rec proofs]. destruct (note_meta_keeps (rec s) id c data) as (_ & _ & _ & _ & _ & _ & E7). rewrite E7.
    destruct (N.eqb_spec id j) as [<-|Ne]; [left; discriminate|]. destruct Hs as [->|Hs]; [contradiction|exact Hs].
  Qed.
  Lemma run_Kn j ops : forall s, Kn j s -> Kn j (run (wstep digest_of verify zero) ops s).
  Proof.
    induction ops as [|o ops IH]; intros s Hs; [exact Hs|]. cbn [run fold_left]. apply IH. destruct o as [id c data|id c data me sg|w|v x]; cbn [wstep].
    - apply try_Kn, meta_Kn. auto.
    - destruct (digest_of c data me); [|exact Hs]. apply handle_Kn, meta_Kn. auto.
    - apply handle_Kn, Hs.
    - exact Hs.
  Qed.
  Lemma told_Kn j c data ops s : (exists o, In o ops /\ (o = WPassive j c data \/ exists me sg, o = WActive j c data me sg /\ digest_of c data me <> None)) ->
    Kn j (run (wstep digest_of verify zero) ops s).
  Proof.
    intros (o & I & O). revert s. induction ops as [|o' ops IH]; intros s; [destruct I|]. cbn [run fold_left]. destruct I as [->|I]; [|apply IH, I]. apply run_Kn.
    destruct O as [->|(me & sg & -> & Dg)]; cbn [wstep].
    - apply try_Kn, meta_Kn. auto.
    - destruct (digest_of c data me); [|contradiction]. apply handle_Kn, meta_Kn. auto.
  Qed.
End own.
