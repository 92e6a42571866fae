(** C102: what one bridged deposit and one withdrawal do, in full. *)
From Verif Require Import XrplModel XrplDeposits.
From Verif Require Import PegModel PegBacking PegSched PegSteps PegProps.

Section fates.
  Variables (native pot maxready rd wr : N).
  Notation pstep := (pstep native pot maxready rd wr).
  Notation pexec := (pexec native pot maxready rd wr).
  Notation prun := (run pstep).

  Lemma release_books s id : books (pbk s) -> books (pbk (release native pot s id)).
  Proof.
    intros Hb. unfold release. destruct (pend s !! id) as [[t v b|w t v b]|]; [| |exact Hb].
    - destruct (process_deposit _ _ _ _ _ _ _) as [s2 ok] eqn:E. assert (H2 : books (pbk s2)).
      { unfold process_deposit in E. destruct (match e2a _ !! t with Some a => _ | None => _ end) as [s1 a] eqn:E1.
        assert (H1 : pbk s1 = pbk s) by (destruct (e2a _ !! t); injection E1 as <- <-; reflexivity).
        unfold mint_or_transfer in E. destruct (a =? native).
        - destruct (transfer _ _ _ _ _) as [l|] eqn:El; injection E as <- <-; [|rewrite H1; exact Hb]. cbn. eapply transfer_books; [exact El|rewrite H1; exact Hb].
        - destruct (mint _ _ _ _) as [l|] eqn:El; injection E as <- <-; [|rewrite H1; exact Hb]. cbn. eapply mint_books; [exact El|rewrite H1; exact Hb]. }
      destruct ok; exact H2.
    - destruct (e2a _ !! t); exact Hb.
  Qed.
  Lemma releases_books l : forall s, books (pbk s) -> books (pbk (fold_left (release native pot) l s)).
  Proof. induction l as [|i l IH]; intros s Hb; [exact Hb|]. cbn. apply IH, release_books, Hb. Qed.
  Lemma idle_books bl : forall s left bc, books (pbk s) -> books (pbk (fst (idle_loop native pot s left bc bl))).
  Proof.
    induction bl as [|b bl IH]; intros s left bc Hb; [exact Hb|]. cbn [idle_loop]. cbv zeta.
    match goal with |- context [fold_left _ ?l ?t] => assert (H2 : books (pbk (fold_left (release native pot) l t))) by (apply releases_books; exact Hb) end.
    destruct (_ =? 0); [exact H2|]. apply IH. exact H2.
  Qed.
  Lemma delay_books s d p : books (pbk s) -> books (pbk (delay_payment s d p)).
  Proof. intros Hb. unfold delay_payment. destruct (_ <? _); exact Hb. Qed.
  Lemma process_books s o t v b : books (pbk s) -> books (pbk (fst (process_deposit native pot s o t v b))).
  Proof.
    intros Hb. unfold process_deposit. destruct (match e2a s !! t with Some a => _ | None => _ end) as [s1 a] eqn:E1.
    assert (H1 : pbk s1 = pbk s) by (destruct (e2a s !! t); injection E1 as <- <-; reflexivity).
    unfold mint_or_transfer. destruct (a =? native).
    - destruct (transfer _ _ _ _ _) as [l|] eqn:El; cbn; [|rewrite H1; exact Hb]. eapply transfer_books; [exact El|rewrite H1; exact Hb].
    - destruct (mint _ _ _ _) as [l|] eqn:El; cbn; [|rewrite H1; exact Hb]. eapply mint_books; [exact El|rewrite H1; exact Hb].
  Qed.
  Lemma take_books l a who v l' : burn_or_transfer native pot l a who v = Ok l' -> books l -> books l'.
  Proof. unfold burn_or_transfer. destruct (a =? native); [apply transfer_books|apply burn_books]. Qed.
  Lemma step_books s o : books (pbk s) -> books (pbk (pstep s o)).
  Proof.
    intros Hb. unfold PegModel.pstep. destruct (pexec s o) as [s'|] eqn:E; cbn [commit]; [|exact Hb]. destruct o; cbn [PegModel.pexec] in E; try (injection E as <-).
    - unfold do_deposit. destruct (negb _); [exact Hb|]. destruct (_ || _); [exact Hb|]. destruct (e2a s !! token) as [a|]; [|apply process_books, Hb].
      destruct (negb _); [exact Hb|]. destruct (pdl s !! a) as [[mn d]|]; [|apply process_books, Hb]. destruct (_ && _); [apply delay_books, Hb|apply process_books, Hb].
    - apply rbind_ok in E. destruct E as (u & _ & E). unfold do_withdrawal in E. inv_ok. destruct (pdl s !! a) as [[mn d]|].
      + destruct (_ && _); [destruct evm; [discriminate|]|]; inv_ok; subst s'; [apply delay_books; cbn|cbn]; eapply take_books; eassumption.
      + inv_ok. subst s'. cbn. eapply take_books; eassumption.
    - unfold on_idle. destruct (_ <=? _); [exact Hb|]. destruct (ready s) as [|b r]; [exact Hb|].
      pose proof (idle_books (b :: r) s (sat 255 ((rem - rd) / per_payment rd wr)) 0 Hb) as H. destruct (idle_loop _ _ _ _ _ _) as [s1 bc]. exact H.
    - unfold next_block. cbv zeta. destruct (psch s !! _); [destruct (_ <? _)|]; exact Hb.
    - unfold claim in E. inv_ok. subst s'. apply release_books. exact Hb.
    - exact Hb.
    - exact Hb.
    - exact Hb.
    - inv_ok. subst s'. cbn. eapply transfer_books; eassumption.
    - inv_ok. subst s'. cbn. eapply mint_books; eassumption.
    - exact Hb.
  Qed.
  Lemma run_books ops s : peg_start native s -> books (pbk (prun ops s)).
  Proof. intros Hs. apply (run_inv pstep (fun s => books (pbk s))); [intros; apply step_books; assumption|exact (st_books _ _ Hs)]. Qed.

  (** The contract entitled to report deposits of a token; an unknown token may come from either. *)
  Definition entitled (s : peg) (src token : N) : Prop :=
    match e2a s !! token with
    | Some a => src = if a =? native then rootaddr (pcf s) else pegaddr (pcf s)
    | None => src = pegaddr (pcf s) \/ src = rootaddr (pcf s)
    end.
  (** The delay that payments of [amt] of asset [a] are subject to while delays are switched on. *)
  Definition held (on : bool) (s : peg) (a amt d : N) : Prop := on = true /\ exists mn, pdl s !! a = Some (mn, d) /\ mn <= amt.
  (** [a]'s holder [y] has [amt] more, taken from the bridge's account for the native asset. *)
  Definition credited (l l' : ledger N) (a y amt : N) : Prop :=
    (forall b z, balance l' b z + (if decide (a = native /\ (native, pot) = (b, z)) then amt else 0) = balance l b z + (if decide ((a, y) = (b, z)) then amt else 0)) /\
    forall b, issuance l' b = issuance l b + (if (a =? b) && negb (a =? native) then amt else 0).
  Definition debited (l l' : ledger N) (a y amt : N) : Prop :=
    (forall b z, balance l' b z + (if decide ((a, y) = (b, z)) then amt else 0) = balance l b z + (if decide (a = native /\ (native, pot) = (b, z)) then amt else 0)) /\
    forall b, issuance l' b + (if (a =? b) && negb (a =? native) then amt else 0) = issuance l b.

  Inductive dep_fate (s : peg) (src token amt ben : N) : peg -> Prop :=
  | DRejected : ~ entitled s src token \/ dep_on (pcf s) = false \/ U128MAX <= amt -> dep_fate s src token amt ben s
  | DLater a d s' : entitled s src token -> dep_on (pcf s) = true -> amt < U128MAX ->
      e2a s !! token = Some a -> held (ddel (pcf s)) s a amt d ->
      pbk s' = pbk s -> pend s' = <[pnext s := PDep token amt ben]> (pend s) ->
      plog s' = VDelayed (pnext s) (N.min (pblk s + d) U32MAX) (PDep token amt ben) :: plog s -> dep_fate s src token amt ben s'
  | DNoId a d : entitled s src token -> e2a s !! token = Some a -> held (ddel (pcf s)) s a amt d -> U64MAX <= pnext s ->
      dep_fate s src token amt ben (p_log s (VNoId (PDep token amt ben)))
  | DNow a s' : entitled s src token -> dep_on (pcf s) = true -> amt < U128MAX ->
      (forall b d, e2a s !! token = Some b -> ~ held (ddel (pcf s)) s b amt d) ->
      e2a s' !! token = Some a -> (forall b, e2a s !! token = Some b -> a = b) -> (e2a s !! token = None -> a = nexta s) ->
      credited (pbk s) (pbk s') a ben amt -> pend s' = pend s -> plog s' = VCredit None (pblk s) token a amt ben :: plog s -> dep_fate s src token amt ben s'
  | DFailed a s' : entitled s src token -> e2a s' !! token = Some a ->
      (if a =? native then balance (pbk s) native pot < amt else U128MAX < issuance (pbk s) a + amt) ->
      pbk s' = pbk s -> pend s' = pend s -> plog s' = plog s -> dep_fate s src token amt ben s'.

  Lemma process_fate s src token amt ben : books (pbk s) ->
    entitled s src token -> dep_on (pcf s) = true -> amt < U128MAX ->
    (forall b d, e2a s !! token = Some b -> ~ held (ddel (pcf s)) s b amt d) ->
    dep_fate s src token amt ben (fst (process_deposit native pot s None token amt ben)).
  Proof.
    intros Hb He Hd Ha Hn. unfold process_deposit. destruct (match e2a s !! token with Some a => _ | None => _ end) as [s1 a] eqn:E1.
    assert (H1 : pbk s1 = pbk s /\ pend s1 = pend s /\ plog s1 = plog s /\ pblk s1 = pblk s /\ e2a s1 !! token = Some a /\
      (forall b, e2a s !! token = Some b -> a = b) /\ (e2a s !! token = None -> a = nexta s)).
    { destruct (e2a s !! token) as [b|] eqn:Et; injection E1 as <- <-.
      - repeat (split; [first [reflexivity|exact Et|intros; congruence]|]). discriminate.
      - repeat (split; [first [reflexivity|apply lookup_insert|discriminate]|]). reflexivity. }
    destruct H1 as (Hk & Hp & Hl & Hbk & Ht & Hs1 & Hs2).
    assert (Hfail : (if a =? native then balance (pbk s) native pot < amt else U128MAX < issuance (pbk s) a + amt) -> dep_fate s src token amt ben s1).
    { intros Hf. eapply DFailed; eassumption. }
    unfold mint_or_transfer. destruct (N.eqb_spec a native) as [Ea|Hne].
    - destruct (transfer _ _ _ _ _) as [l|] eqn:El; cbn [fst].
      + apply LedgerProofs.transfer_spec in El. destruct El as (_ & Hi & Hbal). eapply (DNow _ _ _ _ _ a); try assumption; cbn; [|congruence].
        rewrite Hk in *. split.
        * intros b z. specialize (Hbal b z). rewrite Ea in *. destruct (decide ((native, pot) = (b, z))); [rewrite decide_True by tauto; exact Hbal|].
          rewrite decide_False by tauto. exact Hbal.
        * intros b. unfold issuance. rewrite Hi. destruct (N.eqb_spec a native); [|contradiction]. cbn [negb]. rewrite andb_false_r. lia.
      + apply Hfail. rewrite Hk, Ea in El. destruct (N.lt_ge_cases (balance (pbk s) native pot) amt) as [|Hge]; [assumption|].
        destruct (transfer_ok (pbk s) native pot ben amt Hb Hge) as [l' E']. congruence.
    - destruct (mint _ _ _ _) as [l|] eqn:El; cbn [fst].
      + apply LedgerProofs.mint_spec in El. destruct El as (_ & Hi & Hbal & _). eapply (DNow _ _ _ _ _ a); try assumption; cbn; [|congruence].
        rewrite Hk in *. split.
        * intros b z. rewrite (decide_False (P := a = native /\ _)) by tauto. rewrite N.add_0_r. apply Hbal.
        * intros b. rewrite Hi. destruct (N.eqb_spec a native); [contradiction|]. cbn [negb]. rewrite andb_true_r. reflexivity.
      + apply Hfail. unfold mint in El. rewrite Hk in El. destruct (N.ltb_spec U128MAX (issuance (pbk s) a + amt)); [assumption|discriminate].
  Qed.
  (** ** C102: deposits *)
  Theorem C102_deposit : forall ops s0 src token amt ben, peg_start native s0 ->
    let s := prun ops s0 in dep_fate s src token amt ben (pstep s (PDeposit src token amt ben)).
  Proof.
    intros ops s0 src token amt ben H0 s. pose proof (run_books ops s0 H0) as Hb. fold s in Hb. clearbody s. clear ops s0 H0.
    unfold PegModel.pstep. cbn [PegModel.pexec commit]. unfold do_deposit.
    destruct (negb ((src =? pegaddr (pcf s)) || (src =? rootaddr (pcf s)))) eqn:E0.
    { apply DRejected. left. apply negb_true_iff, orb_false_iff in E0. destruct E0 as [E0 E1]. apply N.eqb_neq in E0, E1. unfold entitled.
      destruct (e2a s !! token) as [a|]; [destruct (a =? native); congruence|tauto]. }
    apply negb_false_iff, orb_true_iff in E0. rewrite !N.eqb_eq in E0.
    destruct (dep_on (pcf s)) eqn:Hd; cbn [negb orb]; [|apply DRejected; tauto].
    destruct (N.ltb_spec amt U128MAX) as [Ha|Ha]; cbn [negb]; [|apply DRejected; tauto].
    destruct (e2a s !! token) as [a|] eqn:Et.
    - destruct (N.eqb_spec src (if a =? native then rootaddr (pcf s) else pegaddr (pcf s))) as [Hs|Hs]; cbn [negb].
      2:{ apply DRejected. left. unfold entitled. rewrite Et. exact Hs. }
      assert (He : entitled s src token) by (unfold entitled; rewrite Et; exact Hs).
      destruct (pdl s !! a) as [[mn d]|] eqn:Ed.
      2:{ apply process_fate; try assumption. intros b d' Hb' (_ & m & Hm & _). congruence. }
      destruct (ddel (pcf s)) eqn:Edd; cbn [andb].
      2:{ apply process_fate; try assumption. intros b d' Hb' (Hx & _). congruence. }
      destruct (N.leb_spec mn amt) as [Hm|Hm].
      + assert (Hh : held (ddel (pcf s)) s a amt d) by (split; [exact Edd|exists mn; auto]).
        unfold delay_payment. destruct (N.ltb_spec U64MAX (pnext s + 1)) as [Hx|Hx].
        * eapply DNoId; try eassumption. lia.
        * eapply DLater; try eassumption; reflexivity.
      + apply process_fate; try assumption. intros b d' Hb' (_ & m & Hm' & Hle). assert (b = a) as -> by congruence. rewrite Ed in Hm'. injection Hm' as <- <-. lia.
    - apply process_fate; try assumption; [unfold entitled; rewrite Et; tauto|]. intros b d' Hb'. congruence.
  Qed.

  (** ** C102: withdrawals *)
  Inductive wd_fate (s : peg) (who a amt ben : N) (evm : bool) : peg -> Prop :=
  | WRefused : wd_on (pcf s) = false \/ a2e s !! a = None \/ U128MAX < amt \/ balance (pbk s) a who < amt \/ (evm = true /\ exists d, held (wdel (pcf s)) s a amt d) ->
      wd_fate s who a amt ben evm s
  | WNow token s' : wd_on (pcf s) = true -> a2e s !! a = Some token -> (forall d, ~ held (wdel (pcf s)) s a amt d) ->
      amt <= balance (pbk s) a who -> debited (pbk s) (pbk s') a who amt -> pend s' = pend s ->
      plog s' = VSend None (pblk s) a who token amt ben :: plog s -> wd_fate s who a amt ben evm s'
  | WLater token d s' : wd_on (pcf s) = true -> a2e s !! a = Some token -> evm = false -> held (wdel (pcf s)) s a amt d -> pnext s < U64MAX ->
      amt <= balance (pbk s) a who -> debited (pbk s) (pbk s') a who amt -> pend s' = <[pnext s := PWd who token amt ben]> (pend s) ->
      plog s' = VDelayed (pnext s) (N.min (pblk s + d) U32MAX) (PWd who token amt ben) :: plog s -> wd_fate s who a amt ben evm s'
  | WNoId token d s' : a2e s !! a = Some token -> evm = false -> held (wdel (pcf s)) s a amt d -> U64MAX <= pnext s ->
      debited (pbk s) (pbk s') a who amt -> plog s' = VNoId (PWd who token amt ben) :: plog s -> wd_fate s who a amt ben evm s'.
  Lemma take_spec l a who v l' : books l -> burn_or_transfer native pot l a who v = Ok l' -> v <= balance l a who /\ debited l l' a who v.
  Proof.
    intros Hb. unfold burn_or_transfer. destruct (N.eqb_spec a native) as [Ea|Hne]; intros E.
    - apply LedgerProofs.transfer_spec in E. destruct E as (Hv & Hi & Hbal). split; [exact Hv|]. split.
      + intros b z. specialize (Hbal b z). rewrite Ea in *. destruct (decide ((native, pot) = (b, z))); [rewrite (decide_True (P := native = native /\ _)) by tauto; exact Hbal|].
        rewrite (decide_False (P := native = native /\ _)) by tauto. exact Hbal.
      + intros b. unfold issuance. rewrite Hi. destruct (N.eqb_spec a native); [|contradiction]. cbn [negb]. rewrite andb_false_r. lia.
    - apply LedgerProofs.burn_spec in E; [|exact Hb]. destruct E as (Hv & Hi & Hbal & _). split; [exact Hv|]. split.
      + intros b z. rewrite (decide_False (P := a = native /\ _)) by tauto. rewrite N.add_0_r. apply Hbal.
      + intros b. destruct (N.eqb_spec a native); [contradiction|]. cbn [negb]. rewrite andb_true_r. apply Hi.
  Qed.
  Lemma take_ok l a who v : books l -> v <= balance l a who -> exists l', burn_or_transfer native pot l a who v = Ok l'.
  Proof.
    intros Hb Hv. unfold burn_or_transfer. destruct (a =? native); [apply transfer_ok; assumption|]. unfold burn.
    destruct (N.ltb_spec (balance l a who) v); [lia|eauto].
  Qed.
  Theorem C102_withdrawal : forall ops s0 who a amt ben evm, peg_start native s0 ->
    let s := prun ops s0 in wd_fate s who a amt ben evm (pstep s (PWithdraw who a amt ben evm)).
  Proof.
    intros ops s0 who a amt ben evm H0 s. pose proof (run_books ops s0 H0) as Hb. fold s in Hb. clearbody s. clear ops s0 H0.
    unfold PegModel.pstep. cbn [PegModel.pexec]. destruct (N.leb_spec amt U128MAX) as [Hu|Hu]; cbn [ensure rbind commit]; [|apply WRefused; tauto].
    unfold do_withdrawal. destruct (wd_on (pcf s)) eqn:Hw; cbn [ensure rbind commit]; [|apply WRefused; tauto].
    destruct (a2e s !! a) as [token|] eqn:Et; cbn [of_opt rbind commit]; [|apply WRefused; tauto].
    assert (Hnow : (forall d, ~ held (wdel (pcf s)) s a amt d) ->
      wd_fate s who a amt ben evm (commit s (do! l <- burn_or_transfer native pot (pbk s) a who amt; Ok (send (p_bk s l) None a who token amt ben)))).
    { intros Hn. destruct (N.lt_ge_cases (balance (pbk s) a who) amt) as [Hlt|Hge].
      - destruct (burn_or_transfer _ _ _ _ _ _) as [l|] eqn:E; cbn [rbind commit]; [|apply WRefused; tauto]. destruct (take_spec _ _ _ _ _ Hb E). lia.
      - destruct (take_ok _ _ _ _ Hb Hge) as [l E]. rewrite E. cbn [rbind commit]. destruct (take_spec _ _ _ _ _ Hb E) as [_ Hd].
        eapply WNow; try eassumption; reflexivity. }
    destruct (pdl s !! a) as [[mn d]|] eqn:Ed.
    2:{ apply Hnow. intros d (_ & m & Hm & _). congruence. }
    destruct (wdel (pcf s)) eqn:Ew; cbn [andb]; [|apply Hnow; intros d' (Hx & _); congruence].
    destruct (N.leb_spec mn amt) as [Hm|Hm].
    2:{ apply Hnow. intros d' (_ & m & Hm' & Hle). rewrite Ed in Hm'. injection Hm' as <- <-. lia. }
    assert (Hh : held (wdel (pcf s)) s a amt d) by (split; [exact Ew|exists mn; auto]).
    destruct evm; [cbn [commit]; apply WRefused; rewrite Ew in Hh; right; right; right; right; split; [reflexivity|exists d; rewrite Ew; exact Hh]|].
    destruct (N.lt_ge_cases (balance (pbk s) a who) amt) as [Hlt|Hge].
    - destruct (burn_or_transfer _ _ _ _ _ _) as [l|] eqn:E; cbn [rbind commit]; [|apply WRefused; tauto]. destruct (take_spec _ _ _ _ _ Hb E). lia.
    - destruct (take_ok _ _ _ _ Hb Hge) as [l E]. rewrite E. cbn [rbind commit]. destruct (take_spec _ _ _ _ _ Hb E) as [_ Hd].
      unfold delay_payment. cbn [p_bk pnext]. destruct (N.ltb_spec U64MAX (pnext s + 1)) as [Hx|Hx].
      + eapply WNoId; try eassumption; [reflexivity|lia|reflexivity].
      + eapply WLater; try eassumption; try reflexivity. lia.
  Qed.

  (** ** C102: releases *)
  (** What the events of a list credit to an account: [Erc20Deposit] for [z]; for the native asset the
      bridge's account pays. *)
  Definition gains (b z : N) (e : pev) : N := match e with VCredit _ _ _ a v y => if decide ((a, y) = (b, z)) then v else 0 | _ => 0 end.
  Definition pays_out (b z : N) (e : pev) : N := match e with VCredit _ _ _ a v y => if decide (a = native /\ (native, pot) = (b, z)) then v else 0 | _ => 0 end.
  Definition by_events (s s' : peg) : Prop := exists new, plog s' = new ++ plog s /\
    forall b z, balance (pbk s') b z + sumL (map (pays_out b z) new) = balance (pbk s) b z + sumL (map (gains b z) new).
  Lemma sumL_cat l1 l2 : sumL (l1 ++ l2) = sumL l1 + sumL l2.
  Proof. induction l1 as [|x l IH]; cbn; [reflexivity|]. unfold sumL in *. cbn. lia. Qed.
  Lemma by_refl s s' : plog s' = plog s -> pbk s' = pbk s -> by_events s s'.
  Proof. intros H1 H2. exists []. split; [exact H1|]. intros b z. cbn. rewrite H2. reflexivity. Qed.
  Lemma by_trans s1 s2 s3 : by_events s1 s2 -> by_events s2 s3 -> by_events s1 s3.
  Proof.
    intros (n1 & L1 & B1) (n2 & L2 & B2). exists (n2 ++ n1). split; [rewrite L2, L1; apply app_assoc|]. intros b z. specialize (B1 b z). specialize (B2 b z).
    rewrite !map_app, !sumL_cat. lia.
  Qed.
  Lemma by_one s s' e : plog s' = e :: plog s -> (forall b z, balance (pbk s') b z + pays_out b z e = balance (pbk s) b z + gains b z e) -> by_events s s'.
  Proof. intros H1 H2. exists [e]. split; [exact H1|]. intros b z. cbn. rewrite !N.add_0_r. apply H2. Qed.
  Lemma process_by s o t v ben : by_events s (fst (process_deposit native pot s o t v ben)).
  Proof.
    unfold process_deposit. destruct (match e2a s !! t with Some a => _ | None => _ end) as [s1 a] eqn:E1.
    assert (H1 : pbk s1 = pbk s /\ plog s1 = plog s) by (destruct (e2a s !! t); injection E1 as <- <-; split; reflexivity). destruct H1 as [Hk Hl].
    unfold mint_or_transfer. destruct (N.eqb_spec a native) as [Ea|Hne].
    - destruct (transfer _ _ _ _ _) as [l|] eqn:El; cbn [fst]; [|apply by_refl; assumption]. apply LedgerProofs.transfer_spec in El. destruct El as (_ & _ & Hb).
      eapply by_one; [cbn; rewrite Hl; reflexivity|]. intros b z. cbn. rewrite Hk in *. specialize (Hb b z). rewrite Ea in *.
      destruct (decide ((native, pot) = (b, z))); [rewrite (decide_True (P := native = native /\ _)) by tauto; exact Hb|].
      rewrite (decide_False (P := native = native /\ _)) by tauto. exact Hb.
    - destruct (mint _ _ _ _) as [l|] eqn:El; cbn [fst]; [|apply by_refl; assumption]. apply LedgerProofs.mint_spec in El. destruct El as (_ & _ & Hb & _).
      eapply by_one; [cbn; rewrite Hl; reflexivity|]. intros b z. cbn. rewrite Hk in *. rewrite (decide_False (P := a = native /\ _)) by tauto. rewrite N.add_0_r. apply Hb.
  Qed.
  Lemma by_log s s' e : plog s' = e :: plog s -> pbk s' = pbk s -> (forall b z, pays_out b z e = 0 /\ gains b z e = 0) -> by_events s s'.
  Proof. intros H1 H2 H3. eapply by_one; [exact H1|]. intros b z. destruct (H3 b z) as [-> ->]. rewrite H2. reflexivity. Qed.
  Lemma release_by s id : by_events s (release native pot s id).
  Proof.
    unfold release. destruct (pend s !! id) as [[t v b|w t v b]|]; [| |apply by_refl; reflexivity].
    - pose proof (process_by (p_pend s (delete id (pend s))) (Some id) t v b) as H. destruct (process_deposit _ _ _ _ _ _ _) as [s2 ok]. cbn [fst] in H.
      assert (H' : by_events s s2) by exact H. destruct ok; [exact H'|]. eapply by_trans; [exact H'|]. eapply by_log; [reflexivity|reflexivity|]. split; reflexivity.
    - destruct (e2a _ !! t); (eapply by_log; [reflexivity|reflexivity|split; reflexivity]).
  Qed.
  Lemma releases_by l : forall s, by_events s (fold_left (release native pot) l s).
  Proof. induction l as [|i l IH]; intros s; [apply by_refl; reflexivity|]. cbn. eapply by_trans; [apply release_by|apply IH]. Qed.
  Lemma idle_by bl : forall s left bc, by_events s (fst (idle_loop native pot s left bc bl)).
  Proof.
    induction bl as [|b bl IH]; intros s left bc; [apply by_refl; reflexivity|]. cbn [idle_loop]. cbv zeta.
    match goal with |- context [fold_left _ ?l ?t] => assert (H2 : by_events s (fold_left (release native pot) l t)) by exact (releases_by l t) end.
    destruct (_ =? 0); [exact H2|]. eapply by_trans; [exact H2|apply IH].
  Qed.
  (** Every other operation of the peg changes balances exactly as its deposit events say. *)
  Theorem C102_release : forall s o, match o with PIdle _ | PBlock | PClaim _ _ | PMap _ _ | PDelay _ _ _ | PConf _ | PDeposit _ _ _ _ => True | _ => False end ->
    by_events s (pstep s o).
  Proof.
    intros s o Ho. unfold PegModel.pstep. destruct (pexec s o) as [s'|] eqn:E; cbn [commit]; [|apply by_refl; reflexivity]. destruct o; cbn [PegModel.pexec] in E; try contradiction; try (injection E as <-).
    - unfold do_deposit. destruct (negb _); [apply by_refl; reflexivity|]. destruct (_ || _); [apply by_refl; reflexivity|]. destruct (e2a s !! token) as [a|]; [|apply process_by].
      destruct (negb _); [apply by_refl; reflexivity|]. destruct (pdl s !! a) as [[mn d]|]; [|apply process_by]. destruct (_ && _); [|apply process_by].
      unfold delay_payment. destruct (_ <? _); (eapply by_log; [reflexivity|reflexivity|split; reflexivity]).
    - unfold on_idle. destruct (_ <=? _); [apply by_refl; reflexivity|]. destruct (ready s) as [|b r]; [apply by_refl; reflexivity|].
      pose proof (idle_by (b :: r) s (sat 255 ((rem - rd) / per_payment rd wr)) 0) as H. destruct (idle_loop _ _ _ _ _ _) as [s1 bc]. exact H.
    - unfold next_block. cbv zeta. destruct (psch s !! _); [destruct (_ <? _)|]; apply by_refl; reflexivity.
    - unfold claim in E. inv_ok. subst s'. eapply by_trans; [|apply release_by]. apply by_refl; reflexivity.
    - apply by_refl; reflexivity.
    - apply by_refl; reflexivity.
    - apply by_refl; reflexivity.
  Qed.
End fates.

(** ** Cases: every fate of a deposit and of a withdrawal *)
Local Notation st := (pstep 1 99 100 1 1).
Definition fate_ops : list pop :=
  [PConf (PCfg_ true true true true 60 61); PDeposit 60 50 300 7; PDelay 10 100 2; PMint 1 99 30; PMap 1 51].
Example C102_case_start : peg_start 1 (pinit 10).
Proof. split; try reflexivity; apply empty_books. Qed.
Example C102_case_deposits : let s := run st fate_ops (pinit 10) in
  balance (pbk s) 10 7 = 300 /\
  plog (st s (PDeposit 60 50 99 7)) = VCredit None 0 50 10 99 7 :: plog s /\ balance (pbk (st s (PDeposit 60 50 99 7))) 10 7 = 399 /\
  plog (st s (PDeposit 60 50 100 7)) = VDelayed 0 2 (PDep 50 100 7) :: plog s /\ balance (pbk (st s (PDeposit 60 50 100 7))) 10 7 = 300 /\
  plog (st s (PDeposit 61 50 99 7)) = plog s /\ plog (st s (PDeposit 62 50 99 7)) = plog s /\
  (balance (pbk (st s (PDeposit 61 51 20 7))) 1 7, balance (pbk (st s (PDeposit 61 51 20 7))) 1 99) = (20, 10) /\
  balance (pbk (st s (PDeposit 61 51 40 7))) 1 7 = 0 /\
  (e2a (st s (PDeposit 60 52 5 7)) !! 52, balance (pbk (st s (PDeposit 60 52 5 7))) 11 7) = (Some 11, 5).
Proof. vm_compute. auto 20. Qed.
Example C102_case_withdrawals : let s := run st fate_ops (pinit 10) in
  plog (st s (PWithdraw 7 10 99 77 true)) = VSend None 0 10 7 50 99 77 :: plog s /\ balance (pbk (st s (PWithdraw 7 10 99 77 true))) 10 7 = 201 /\
  plog (st s (PWithdraw 7 10 100 77 false)) = VDelayed 0 2 (PWd 7 50 100 77) :: plog s /\ balance (pbk (st s (PWithdraw 7 10 100 77 false))) 10 7 = 200 /\
  plog (st s (PWithdraw 7 10 100 77 true)) = plog s /\ plog (st s (PWithdraw 7 10 301 77 false)) = plog s /\ plog (st s (PWithdraw 7 12 1 77 false)) = plog s.
Proof. vm_compute. auto 20. Qed.

Print Assumptions C102_deposit.
Print Assumptions C102_withdrawal.
Print Assumptions C102_release.
