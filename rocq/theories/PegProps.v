(** C40, C41: theorems about the ERC-20 peg. *)
From Verif Require Import XrplModel XrplDeposits.
From Verif Require Import PegModel PegBacking PegSched PegSteps.

(** A chain before its first bridged payment: any balances, any settings, any block. *)
Record peg_start (native : N) (s : peg) : Prop := {
  st_books : books (pbk s);
  st_e2a : e2a s = ∅; st_a2e : a2e s = ∅; st_sch : psch s = ∅; st_ready : ready s = []; st_pend : pend s = ∅; st_log : plog s = [];
  st_fresh : forall a, nexta s <= a -> issuance (pbk s) a = 0;
  st_nat : native < nexta s }.

Section props.
  Variables (native pot maxready rd wr : N).
  Notation prun := (run (pstep native pot maxready rd wr)).
  Notation palong := (along (pstep native pot maxready rd wr)).

  (** * C40 *)
  Lemma start_inv s : peg_start native s -> inv native pot (balance (pbk s) native pot) s.
  Proof.
    intros [H1 H2 H3 H4 H5 H6 H7 H8 H9]. split; split; unfold in_log, pending_dep, pending_wd; rewrite ?H2, ?H3, ?H6, ?H7; try assumption.
    - intros k a. rewrite !lookup_empty. split; discriminate.
    - intros a Ha. rewrite lookup_empty. split; [reflexivity|auto].
    - reflexivity.
    - intros k. rewrite lookup_empty. split; reflexivity.
    - intros k. reflexivity.
    - intros k. reflexivity.
    - intros id p. rewrite lookup_empty. discriminate.
    - intros id w k v b. rewrite lookup_empty. discriminate.
    - intros id k v b. rewrite lookup_empty. discriminate.
  Qed.
  (** For every bridged token: deposits accepted = in circulation + pending deposits + failed deposits
      + withdrawals pending and sent.  For ROOT, the chain's own currency, circulation is the decrease of the bridge's
      account. *)
  Theorem C40_backed_partial : forall ops s k,
    peg_start native s -> palong (backed_ok native pot) ops s ->
    let s' := prun ops s in
    match e2a s' !! k with
    | None => pending_wd k s' = 0 /\ in_log (e_sent k) s' = 0
    | Some a =>
        if a =? native
        then balance (pbk s') native pot + in_log (e_acc k) s'
             = balance (pbk s) native pot + pending_dep k s' + in_log (e_fail k) s' + pending_wd k s' + in_log (e_sent k) s'
        else in_log (e_acc k) s' = issuance (pbk s') a + pending_dep k s' + in_log (e_fail k) s' + pending_wd k s' + in_log (e_sent k) s'
    end.
  Proof.
    intros ops s k Hs Ha. cbn zeta.
    assert (Hi : inv native pot (balance (pbk s) native pot) (prun ops s)).
    { apply (run_along _ (backed_ok native pot)); [intros x o; apply step_inv|exact Ha|apply start_inv, Hs]. }
    set (s' := prun ops s) in *. clearbody s'. destruct Hi as [[_ _ _ _ _ He] [Q1 Q2 _ _ _]]. specialize (He k). specialize (Q1 k). specialize (Q2 k).
    unfold in_log in *. rewrite sum_acc, sum_sent. pose proof (sum_minted k (plog s')) as E1. pose proof (sum_burn k (plog s')) as E2. unfold meq in He.
    destruct (e2a s' !! k) as [a|].
    - destruct (a =? native); lia.
    - destruct He as [F1 F2]. split; lia.
  Qed.

  (** * C41 *)
  Notation idle_max rem := (sat 255 ((rem - rd) / per_payment rd wr)).
  Lemma start_SI s : peg_start native s -> SI [] s.
  Proof.
    intros [H1 H2 H3 H4 H5 H6 H7 H8 H9].
    assert (Hl : forall k, listed (psch s) k = []) by (intros k; unfold listed; rewrite H4, lookup_empty; reflexivity).
    split; unfold accepted, decided; rewrite ?H6, ?H7.
    - intros k. rewrite Hl. constructor.
    - intros id k k'. rewrite Hl. intros [].
    - constructor.
    - intros id [].
    - intros id k. rewrite Hl. intros [].
    - intros id p. rewrite lookup_empty. discriminate.
    - intros id d p [].
    - intros id d p d' p' [].
    - intros id d p [].
    - reflexivity.
    - intros e id [].
  Qed.
  Lemma process_SI s k amt ben : SI [] s -> SI [] (fst (process_deposit native pot s None k amt ben)).
  Proof.
    intros H. destruct (process_deposit native pot s None k amt ben) as [s' ok] eqn:E. cbn [fst].
    destruct (process_frame _ _ _ _ _ _ _ _ _ E) as (P1 & P2 & P3 & _ & _ & _ & _ & _ & a & P8).
    apply (SI_same [] s); try assumption; [intros j; rewrite P2; reflexivity|]. destruct ok; [right|now left].
    eexists. split; [exact P8|]. split; [reflexivity|intros; discriminate].
  Qed.
  Lemma remove_first_perm x l : In x l -> Permutation (x :: remove_first x l) l.
  Proof.
    induction l as [|y r IH]; [intros []|]. cbn [remove_first]. destruct (N.eqb_spec y x) as [->|Hne]; [reflexivity|].
    intros [E|H]; [congruence|]. rewrite Permutation_swap. apply perm_skip, IH, H.
  Qed.
  Lemma claim_SI s k id s' : SI [] s -> claim native pot s k id = Ok s' -> SI [] s'.
  Proof.
    intros HS H. unfold claim in H. change (default [] (psch s !! k)) with (listed (psch s) k) in H.
    destruct (existsb (N.eqb id) (listed (psch s) k)) eqn:Ex; cbn [ensure rbind] in H; [|discriminate]. injection H as <-.
    apply existsb_exists in Ex. destruct Ex as (y & Hin & Ey). apply N.eqb_eq in Ey. subst y.
    apply SI_release. apply (SI_take s k [id] (remove_first id (listed (psch s) k))); [exact HS|exact (remove_first_perm _ _ Hin)|].
    intros j. apply listed_insert.
  Qed.
  Lemma idle_SI s rem : SI [] s -> SI [] (on_idle native pot rd wr s rem).
  Proof.
    intros HS. unfold on_idle. destruct (_ <=? _); [exact HS|]. destruct (ready s) as [|b r] eqn:Er; [exact HS|]. rewrite <- Er.
    pose proof (loop_SI native pot (ready s) s (idle_max rem) 0 HS) as H.
    destruct (idle_loop _ _ _ _ _ _) as [s1 bc]. cbn [fst] in H. apply (SI_same [] s1); try reflexivity; [exact H|now left].
  Qed.
  Lemma step_SI s o : SI [] s -> SI [] (pstep native pot maxready rd wr s o).
  Proof.
    intros HS. unfold pstep. destruct o as [src k amt ben|who a amt ben evm|rem| |kk id|a k|a mn delay|c|a from to v|a who v|]; cbn [pexec commit].
    - unfold do_deposit. destruct (negb _); [exact HS|]. destruct (_ || _); [exact HS|].
      destruct (e2a s !! k) as [a|]; [|apply process_SI, HS]. destruct (negb _); [exact HS|].
      destruct (pdl s !! a) as [[mn delay]|]; [|apply process_SI, HS]. destruct (_ && _); [apply SI_delay, HS|apply process_SI, HS].
    - destruct (amt <=? U128MAX); cbn [ensure rbind commit]; [|exact HS]. unfold do_withdrawal.
      destruct (wd_on (pcf s)); cbn [ensure rbind commit]; [|exact HS]. destruct (a2e s !! a) as [k|]; cbn [of_opt rbind commit]; [|exact HS].
      destruct (burn_or_transfer native pot (pbk s) a who amt) as [l|]; cbn [rbind].
      2: { destruct (pdl s !! a) as [[mn delay]|]; [destruct (_ && _); [destruct evm|]|]; exact HS. }
      assert (Hn : SI [] (send (p_bk s l) None a who k amt ben)).
      { apply (SI_same [] s); try reflexivity; [exact HS|]. right. eexists. split; [reflexivity|]. split; [reflexivity|intros; discriminate]. }
      destruct (pdl s !! a) as [[mn delay]|]; [|exact Hn]. destruct (_ && _); [|exact Hn]. destruct evm; cbn [commit]; [exact HS|].
      apply SI_delay. apply (SI_same [] s); try reflexivity; [exact HS|now left].
    - apply idle_SI, HS.
    - unfold next_block. destruct (psch s !! _); [destruct (_ <? _)|]; (apply (SI_same [] s); try reflexivity; [exact HS|now left]).
    - destruct (claim native pot s kk id) as [s'|] eqn:E; [exact (claim_SI _ _ _ _ HS E)|exact HS].
    - apply (SI_same [] s); try reflexivity; [exact HS|now left].
    - apply (SI_same [] s); try reflexivity; [exact HS|now left].
    - apply (SI_same [] s); try reflexivity; [exact HS|now left].
    - destruct (transfer _ _ _ _ _) as [l|]; cbn [rbind commit]; [|exact HS]. apply (SI_same [] s); try reflexivity; [exact HS|now left].
    - destruct (mint _ _ _ _) as [l|]; cbn [rbind commit]; [|exact HS]. apply (SI_same [] s); try reflexivity; [exact HS|now left].
    - apply (SI_same [] s); try reflexivity; [exact HS|now left].
  Qed.
  Lemma run_SI ops s : peg_start native s -> SI [] (prun ops s).
  Proof. intros H. apply (run_inv (pstep native pot maxready rd wr) (SI [])); [intros x o; apply step_SI|apply start_SI, H]. Qed.

  Lemma decided_in id s : decided id s = 1%nat -> exists e, In e (plog s) /\ dec_of e = Some id.
  Proof.
    unfold decided. destruct (List.filter (is_dec id) (plog s)) as [|e r] eqn:E; [discriminate|]. intros _.
    assert (H : In e (List.filter (is_dec id) (plog s))) by (rewrite E; now left). apply filter_In in H. destruct H as [H1 H2].
    exists e. split; [exact H1|]. apply bool_decide_eq_true in H2. exact H2.
  Qed.
  (** In every history every accepted delayed payment is either still pending and undecided, or decided exactly once, with
      the promised token, amount and beneficiary or a reported failure. *)
  Theorem C41_once : forall ops s id due p,
    peg_start native s -> accepted id due p (prun ops s) ->
    let s' := prun ops s in
    (pend s' !! id = Some p /\ decided id s' = 0%nat) \/
    (pend s' !! id = None /\ decided id s' = 1%nat /\
     exists e, In e (plog s') /\ dec_of e = Some id /\ (pays id p e \/ exists b, e = VFail id b p)).
  Proof.
    intros ops s id due p Hs Ha. cbn zeta. pose proof (run_SI ops s Hs) as HS. set (s' := prun ops s) in *. clearbody s'.
    destruct (s_dec _ _ HS _ _ _ Ha) as [H|[H1 H2]]; [now left|]. right. split; [exact H1|]. split; [exact H2|].
    destruct (decided_in _ _ H2) as (e & He & Hd). exists e. split; [exact He|]. split; [exact Hd|].
    destruct (s_match _ _ HS _ _ He Hd) as (d' & p' & F1 & F2). destruct (s_uniq _ _ HS _ _ _ _ _ Ha F1) as [_ ->]. exact F2.
  Qed.
  (** Nothing is ever released that was not accepted. *)
  Theorem C41_only_accepted : forall ops s e id,
    peg_start native s -> In e (plog (prun ops s)) -> dec_of e = Some id ->
    exists due p, accepted id due p (prun ops s) /\ (pays id p e \/ exists b, e = VFail id b p).
  Proof. intros ops s e id Hs He Hd. exact (s_match _ _ (run_SI ops s Hs) _ _ He Hd). Qed.

  (** ** Not before its time *)
  (** Block numbers do not wrap, and root does not claim this payment early. *)
  Definition no_claim (id : N) (s : peg) (o : pop) : Prop :=
    match o with PBlock => pblk s + 1 < 2 ^ 32 | PClaim _ j => j <> id | _ => True end.
  Lemma wrap_small b : b + 1 < 2 ^ 32 -> wrap32 (b + 1) = b + 1.
  Proof. intros H. unfold wrap32. apply N.mod_small, H. Qed.
  Definition TI (id : N) (s : peg) : Prop := SI [] s /\ timely id s /\ (forall k, In k (ready s) -> k <= pblk s).
  Lemma timely_add id s s' : timely id s -> (forall i d p, accepted i d p s' -> accepted i d p s \/ decided i s = 0%nat) ->
    (plog s' = plog s \/ exists e, plog s' = e :: plog s /\ dec_of e <> Some id) -> timely id s'.
  Proof.
    intros Ht Ha El e d p He Hd Hac.
    assert (He' : In e (plog s)). { destruct El as [E|(e0 & E & Hn)]; rewrite E in He; [exact He|]. destruct He as [<-|He]; [congruence|exact He]. }
    destruct (Ha _ _ _ Hac) as [H|H]; [exact (Ht _ _ _ He' Hd H)|]. exfalso.
    unfold decided in H. apply length_zero_iff_nil in H. assert (Hin : In e (List.filter (is_dec id) (plog s))) by (apply filter_In; split; [exact He'|apply is_dec_same, Hd]).
    rewrite H in Hin. exact Hin.
  Qed.
  Lemma TI_light id s s' : TI id s -> SI [] s' -> ready s' = ready s -> pblk s' = pblk s -> plog s' = plog s -> TI id s'.
  Proof.
    intros (_ & H2 & H3) HS E1 E2 E3. split; [exact HS|]. split; [|rewrite E1, E2; exact H3].
    apply (timely_add id s); [exact H2| |now left]. unfold accepted. rewrite E3. tauto.
  Qed.
  Lemma TI_event id s s' e : TI id s -> SI [] s' -> ready s' = ready s -> pblk s' = pblk s -> plog s' = e :: plog s -> dec_of e <> Some id ->
    (forall i d p, e = VDelayed i d p -> i = pnext s) -> TI id s'.
  Proof.
    intros (H1 & H2 & H3) HS E1 E2 E3 E4 E5. split; [exact HS|]. split; [|rewrite E1, E2; exact H3].
    apply (timely_add id s); [exact H2| |right; exists e; split; assumption]. intros i d p. unfold accepted. rewrite E3. intros [H|H]; [|now left].
    right. rewrite (E5 _ _ _ H). apply (s_none _ _ H1). lia.
  Qed.
  Lemma step_TI id s o : no_claim id s o -> TI id s -> TI id (pstep native pot maxready rd wr s o).
  Proof.
    intros Hg HT. pose proof (step_SI s o (proj1 HT)) as HS'. destruct HT as (HS & Ht & Hr). pose proof (conj HS (conj Ht Hr) : TI id s) as HT.
    assert (Hp : forall k amt ben, SI [] (fst (process_deposit native pot s None k amt ben)) -> TI id (fst (process_deposit native pot s None k amt ben))).
    { intros k amt ben. destruct (process_deposit native pot s None k amt ben) as [s' ok] eqn:E. cbn [fst].
      destruct (process_frame _ _ _ _ _ _ _ _ _ E) as (P1 & P2 & P3 & P4 & P5 & _ & _ & _ & a & P8). intros HS2. destruct ok.
      - eapply (TI_event id s); try eassumption; [discriminate|intros; discriminate].
      - apply (TI_light id s); assumption. }
    assert (Hdl : forall x delay p, ready x = ready s -> pblk x = pblk s -> plog x = plog s -> pnext x = pnext s -> SI [] (delay_payment x delay p) -> TI id (delay_payment x delay p)).
    { intros x delay p E1 E2 E3 E4 HS2. destruct (delay_cases x delay p) as [E|(_ & _ & _ & P4 & P5 & P6 & _)].
      - eapply (TI_event id s _ (VNoId p) HT HS2); try (rewrite E; cbn [p_log ready pblk plog]; assumption || (rewrite E3; reflexivity)); [discriminate|intros; discriminate].
      - eapply (TI_event id s); [exact HT|exact HS2|congruence|congruence|rewrite P4, E3; reflexivity|discriminate|]. intros i d q [= <- _ _]. exact E4. }
    unfold pstep in *. destruct o as [src k amt ben|who a amt ben evm|rem| |kk j|a k|a mn delay|c|a from to v|a who v|]; cbn [pexec commit no_claim] in *.
    - unfold do_deposit in *. destruct (negb _); [exact HT|]. destruct (_ || _); [exact HT|].
      destruct (e2a s !! k) as [a|]; [|exact (Hp _ _ _ HS')]. destruct (negb _); [exact HT|].
      destruct (pdl s !! a) as [[mn delay]|]; [|exact (Hp _ _ _ HS')]. destruct (_ && _); [|exact (Hp _ _ _ HS')].
      apply Hdl; try reflexivity. exact HS'.
    - destruct (amt <=? U128MAX); cbn [ensure rbind commit] in *; [|exact HT]. unfold do_withdrawal in *.
      destruct (wd_on (pcf s)); cbn [ensure rbind commit] in *; [|exact HT]. destruct (a2e s !! a) as [k|]; cbn [of_opt rbind commit] in *; [|exact HT].
      destruct (burn_or_transfer native pot (pbk s) a who amt) as [l|]; cbn [rbind] in *.
      2: { destruct (pdl s !! a) as [[mn delay]|]; [destruct (_ && _); [destruct evm|]|]; exact HT. }
      assert (Hn : SI [] (send (p_bk s l) None a who k amt ben) -> TI id (send (p_bk s l) None a who k amt ben)).
      { intros H. eapply (TI_event id s); try reflexivity; [exact HT|exact H|discriminate|intros; discriminate]. }
      destruct (pdl s !! a) as [[mn delay]|]; [|exact (Hn HS')]. destruct (_ && _); [|exact (Hn HS')]. destruct evm; cbn [commit] in *; [exact HT|].
      apply Hdl; try reflexivity. exact HS'.
    - unfold on_idle in *. destruct (_ <=? _); [exact HT|]. destruct (ready s) as [|b r] eqn:Er; [exact HT|]. rewrite <- Er in *.
      destruct (loop_timely native pot id (ready s) s (idle_max rem) 0 HS Hr Ht) as (F1 & F2 & F3).
      destruct (idle_loop _ _ _ _ _ _) as [s1 bc]. cbn [fst] in F1, F2, F3. split; [exact HS'|]. split; [exact F1|]. cbn [p_ready ready pblk].
      intros k Hk. rewrite F2. apply Hr. rewrite <- (firstn_skipn (N.to_nat bc)). apply in_or_app. now right.
    - split; [exact HS'|]. unfold next_block. rewrite wrap_small by exact Hg. destruct (psch s !! _); [destruct (_ <? _)|]; cbn [p_ready ready pblk].
      + split; [exact Ht|]. intros k Hk. apply in_app_or in Hk. destruct Hk as [Hk|[<-|[]]]; [apply Hr in Hk|]; lia.
      + split; [exact Ht|]. intros k Hk. apply Hr in Hk. lia.
      + split; [exact Ht|]. intros k Hk. apply Hr in Hk. lia.
    - unfold claim in *. destruct (existsb _ _); cbn [ensure rbind commit] in *; [|exact HT].
      set (x := p_sch s _) in *. destruct (release_keep native pot x j) as (_ & _ & P3 & P4 & _ & P6 & P7 & _). cbn zeta in *.
      split; [exact HS'|]. split; [|rewrite P3, P4; exact Hr].
      intros e d p He Hd Hac. apply P6 in Hac. apply P7 in He. destruct He as [He|[H1 _]]; [exact (Ht _ _ _ He Hd Hac)|congruence].
    - apply (TI_light id s); try reflexivity; assumption.
    - apply (TI_light id s); try reflexivity; assumption.
    - apply (TI_light id s); try reflexivity; assumption.
    - destruct (transfer _ _ _ _ _) as [l|]; cbn [rbind commit] in *; [|exact HT]. apply (TI_light id s); try reflexivity; assumption.
    - destruct (mint _ _ _ _) as [l|]; cbn [rbind commit] in *; [|exact HT]. apply (TI_light id s); try reflexivity; assumption.
    - apply (TI_light id s); try reflexivity; assumption.
  Qed.
  Theorem C41_not_early : forall ops s id due p e,
    peg_start native s -> palong (no_claim id) ops s ->
    accepted id due p (prun ops s) -> In e (plog (prun ops s)) -> dec_of e = Some id -> due <= blk_of e.
  Proof.
    intros ops s id due p e Hs Ha Hac He Hd.
    assert (HT : TI id (prun ops s)).
    { apply (run_along _ (no_claim id)); [intros x o; apply step_TI|exact Ha|]. split; [apply start_SI, Hs|]. split.
      - intros e' d' p'. rewrite (st_log _ _ Hs). intros [].
      - rewrite (st_ready _ _ Hs). intros k []. }
    destruct HT as (_ & Ht & _). exact (Ht _ _ _ He Hd Hac).
  Qed.
End props.
