(** Properties of NFT collections: C14 - C18, C62, C63. *)
From Verif Require Import NftProofs.

Section props.
  Variable cap mint_limit pallet : N.
  Notation nexec := (nexec cap mint_limit pallet).
  Notation nstep := (nstep cap mint_limit pallet).

  (** What callers are trusted with: bridged mints are only meant for collections that came from
      the bridge (finding, see [C15_bridged_root_refuted]). *)
  Definition good (s : nft) (o : nop) : Prop :=
    match o with
    | NBridge _ c _ => root_of s c <> Some true
    | _ => True
    end.

  (** [pallet_nft::transfer] takes a list of serials from the user and does not reject repetitions
      (finding, see [C15_duplicate_serials_refuted]); the balances need that there are none. *)
  Definition neat (o : nop) : Prop := match o with NTransfer _ _ ns _ => NoDup ns | _ => True end.

  (** ** One step *)
  Definition quiet (s s' : nft) : Prop :=
    WF s' /\ (forall d y n, owns s' d y n <-> owns s d y n) /\
    (forall d, root_of s' d = root_of s d /\ next_of s' d = next_of s d).
  Lemma quiet_refl s : WF s -> quiet s s.
  Proof. intros Hw. split; [exact Hw|]. split; [reflexivity|]. split; reflexivity. Qed.
  Lemma quiet_same s s' : WF s -> colls s' = colls s -> quiet s s'.
  Proof.
    intros Hw E. unfold quiet, WF, owns, root_of, next_of. rewrite E. split; [exact Hw|]. split; [reflexivity|]. split; reflexivity.
  Qed.
  Lemma quiet_admin s c i j : WF s -> colls s !! c = Some i -> c_toks j = c_toks i -> c_iss j = c_iss i ->
    c_root j = c_root i -> c_next j = c_next i -> quiet s (put s c j).
  Proof. intros. eapply admin_WF; eassumption. Qed.

  (** Every operation either leaves tokens where they are, moves some, destroys one or creates some. *)
  Inductive effect (s s' : nft) (o : nop) : Prop :=
  | EfQuiet : quiet s s' -> 
      (forall c n, locks s !! (c, n) <> None -> locks s' !! (c, n) = None -> o = NUnlock c n) ->
      (forall c n x, appr s' !! (c, n) = Some x ->
         (appr s !! (c, n) = Some x /\ forall y, owner_of s c n = Some y -> o <> NUnapprove y c n) \/
         exists a y, o = NApprove a x c n /\ owner_of s c n = Some y /\ (y = a \/ appr_all s !! (y, c, a) = Some true)) ->
      (forall y c x, y <> x -> appr_all s' !! (y, c, x) = Some true ->
         (appr_all s !! (y, c, x) = Some true /\ o <> NApproveAll y x c false)
         \/ o = NApproveAll y x c true) -> effect s s' o
  | EfMove c ns from to :
      WF s' -> from <> to ->
      (forall n, n ∈ ns -> owns s c from n /\ locks s !! (c, n) = None) ->
      (forall d y n, owns s' d y n <-> if decide (d = c /\ n ∈ ns) then y = to else owns s d y n) ->
      locks s' = locks s -> appr_all s' = appr_all s ->
      (forall d n, appr s' !! (d, n) = if decide (d = c /\ n ∈ ns) then None else appr s !! (d, n)) ->
      (forall d, root_of s' d = root_of s d /\ next_of s' d = next_of s d) ->
      (o = NTransfer from c ns to \/
       exists caller n, ns = [n] /\ o = NTransferFrom caller c from to n /\ is_approved_or_owner s c n caller = true) ->
      effect s s' o
  | EfBurn c n0 who :
      WF s' -> owns s c who n0 -> locks s !! (c, n0) = None ->
      (forall d y n, owns s' d y n <-> if decide (d = c /\ n = n0) then False else owns s d y n) ->
      locks s' = locks s -> appr_all s' = appr_all s ->
      (forall d n, appr s' !! (d, n) = if decide (d = c /\ n = n0) then None else appr s !! (d, n)) ->
      (forall d, root_of s' d = root_of s d /\ next_of s' d = next_of s d) ->
      (o = NBurn who c n0 \/ exists caller, o = NBurnFrom caller c n0 /\ is_approved_or_owner s c n0 caller = true) ->
      effect s s' o
  | EfMint c to (P : N -> Prop) :
      WF s' -> (forall d y n, owns s' d y n <-> owns s d y n \/ (d = c /\ y = to /\ P n)) ->
      (forall n, P n -> forall y, ~ owns s c y n) ->
      locks s' = locks s -> appr_all s' = appr_all s -> appr s' = appr s ->
      (forall d r, root_of s d = Some r -> root_of s' d = Some r) ->
      (forall d x, next_of s d = Some x -> exists x', next_of s' d = Some x' /\ x <= x') ->
      (root_of s c = Some true -> forall n, P n -> exists x, next_of s c = Some x /\ x <= n) ->
      ((exists owner initial m r, o = NCreate c owner initial m to r) \/ (exists who q e, o = NMint who c q to e)
       \/ (exists ns, o = NBridge to c ns /\ forall n, P n -> n ∈ ns)) ->
      effect s s' o.


  (** The side conditions of [EfQuiet] for operations that touch neither locks nor approvals. *)
  Lemma effect_quiet s s' o : quiet s s' -> locks s' = locks s -> appr s' = appr s -> appr_all s' = appr_all s ->
    (forall y c n, owner_of s c n = Some y -> appr s !! (c, n) <> None -> o <> NUnapprove y c n) ->
    (forall y c x, y <> x -> o <> NApproveAll y x c false) -> effect s s' o.
  Proof.
    intros Hq El Ea Eall Hu Hall. apply EfQuiet; [exact Hq| | |].
    - intros c n H1 H2. rewrite El in H2. congruence.
    - intros c n x Hx. rewrite Ea in Hx. left. split; [exact Hx|]. intros y Hy. apply Hu; [exact Hy|congruence].
    - intros y c x Hne Hx. rewrite Eall in Hx. left. auto.
  Qed.
  Lemma step_effect s o : WF s -> good s o -> effect s (nstep s o) o.
  Proof.
    intros Hw Hg. unfold NftModel.nstep. destruct (nexec s o) as [s'|e] eqn:Ex; cbn [commit].
    2:{ apply effect_quiet; [apply quiet_refl; exact Hw|reflexivity..| |].
        - intros y c n Hy Ha ->. cbn [NftModel.nexec] in Ex. unfold unapprove in Ex.
          destruct (appr s !! (c, n)) as [z|]; [|congruence]. rewrite Hy in Ex.
          rewrite bool_decide_true in Ex by eauto. rewrite bool_decide_true in Ex by reflexivity. discriminate.
        - intros y c x Hne ->. cbn [NftModel.nexec] in Ex. unfold approve_all in Ex.
          destruct (N.eqb_spec y x) as [|_]; [congruence|]. discriminate. }
    destruct o; cbn [NftModel.nexec good] in *.
    - apply create_spec in Ex; [|exact Hw]. destruct Ex as (H1 & H2 & H3 & H4 & H5 & H6 & H7 & H8 & _).
      eapply (EfMint _ _ _ id to (fun n => n < initial)); try assumption.
      + intros n _ y (i & Hi & _). congruence.
      + intros d r Hd. destruct (decide (d = id)) as [->|Hne]; [unfold root_of in Hd; rewrite H2 in Hd; discriminate|].
        rewrite (proj1 (H7 d Hne)). exact Hd.
      + intros d x Hd. destruct (decide (d = id)) as [->|Hne]; [unfold next_of in Hd; rewrite H2 in Hd; discriminate|].
        rewrite (proj2 (H7 d Hne)). exists x. split; [exact Hd|lia].
      + intros Hr. unfold root_of in Hr. rewrite H2 in Hr. discriminate.
      + left. eauto.
    - apply mint_spec in Ex; [|exact Hw]. destruct Ex as (i & Hi & Hr & Hq & _ & _ & H1 & H2 & H3 & H4 & H5 & H6 & H7 & _).
      eapply (EfMint _ _ _ c to (fun n => c_next i <= n < c_next i + q)); try assumption.
      + intros n Hn. apply H3. lia.
      + intros d r Hd. rewrite (proj1 (H7 d)). exact Hd.
      + intros d x Hd. rewrite (proj2 (H7 d)). destruct (decide (d = c)) as [->|]; [|exists x; split; [exact Hd|lia]].
        unfold next_of in Hd. rewrite Hi in Hd. cbn in Hd. injection Hd as <-. eexists. split; [reflexivity|lia].
      + intros _ n Hn. exists (c_next i). split; [unfold next_of; rewrite Hi; reflexivity|lia].
      + right. left. eauto.
    - apply bridge_spec in Ex; [|exact Hw|exact Hg]. destruct Ex as (H1 & (fresh & H2 & H3) & H4 & H5 & H6 & H7 & _).
      eapply (EfMint _ _ _ c owner (fun n => n ∈ fresh)); try assumption.
      + intros n Hn. apply H3. exact Hn.
      + intros d r Hd. rewrite (proj1 (H7 d)). exact Hd.
      + intros d x Hd. rewrite (proj2 (H7 d)). exists x. split; [exact Hd|lia].
      + contradiction.
      + right. right. exists ns. split; [reflexivity|]. intros n Hn. apply H3. exact Hn.
    - apply transfer_spec in Ex; [|assumption..]. destruct Ex as (H1 & H2 & H3 & H4 & H5 & H6 & H7 & H8 & _).
      eapply (EfMove _ _ _ c ns who to); try assumption. left. reflexivity.
    - apply burn_spec in Ex; [|assumption..]. destruct Ex as (H1 & H2 & H3 & H4 & H5 & H6 & H7 & H8 & _).
      eapply (EfBurn _ _ _ c n who); try assumption. left. reflexivity.
    - unfold transfer_from in Ex. inv_ok. apply transfer_spec in Ex; [|assumption..].
      destruct Ex as (H1 & H2 & H3 & H4 & H5 & H6 & H7 & H8 & _).
      eapply (EfMove _ _ _ c [n] from to); try assumption. right. eauto.
    - unfold burn_from in Ex. inv_ok. apply burn_spec in Ex; [|assumption..].
      destruct Ex as (H1 & H2 & H3 & H4 & H5 & H6 & H7 & H8 & _).
      eapply (EfBurn _ _ _ c n v); try assumption. right. eauto.
    - unfold set_max in Ex. inv_ok. subst s'. apply effect_quiet; try reflexivity; try discriminate.
      eapply quiet_admin; [exact Hw|eassumption|reflexivity..].
    - unfold set_owner in Ex. inv_ok. subst s'. apply effect_quiet; try reflexivity; try discriminate.
      eapply quiet_admin; [exact Hw|eassumption|reflexivity..].
    - unfold claim in Ex. inv_ok. subst s'. apply effect_quiet; try reflexivity; try discriminate.
      eapply quiet_admin; [exact Hw|eassumption|reflexivity..].
    - unfold set_flags in Ex. inv_ok. subst s'. apply effect_quiet; try reflexivity; try discriminate.
      eapply quiet_admin; [exact Hw|eassumption|reflexivity..].
    - unfold lock in Ex. inv_ok. subst s'. apply EfQuiet; [apply quiet_same; [exact Hw|reflexivity]| | |].
      + intros d m H1 H2. cbn [locks] in H2. destruct (decide ((c, n) = (d, m))) as [Eq|Hne].
        * rewrite Eq, lookup_insert in H2. discriminate.
        * rewrite lookup_insert_ne in H2 by exact Hne. congruence.
      + intros d m x Hx. left. split; [exact Hx|discriminate].
      + intros y d x _ Hx. left. split; [exact Hx|discriminate].
    - injection Ex as <-. apply EfQuiet; [apply quiet_same; [exact Hw|reflexivity]| | |].
      + intros d m H1 H2. unfold unlock in H2. cbn [locks] in H2. destruct (decide ((c, n) = (d, m))) as [[= -> ->]|Hne]; [reflexivity|].
        rewrite lookup_delete_ne in H2 by exact Hne. congruence.
      + intros d m x Hx. left. split; [exact Hx|discriminate].
      + intros y d x _ Hx. left. split; [exact Hx|discriminate].
    - unfold approve in Ex. inv_ok. subst s'. rename v into y.
      apply EfQuiet; [apply quiet_same; [exact Hw|reflexivity]| | |].
      + intros d m H1 H2. cbn [locks] in H2. congruence.
      + intros d m x Hx. cbn [appr] in Hx. destruct (decide ((c, n) = (d, m))) as [[= -> ->]|Hne].
        * rewrite lookup_insert in Hx. injection Hx as <-. right. exists caller, y. split; [reflexivity|].
          split; [assumption|]. match goal with H : (_ || _) = true |- _ => apply orb_true_iff in H; destruct H as [H|H] end.
          -- left. apply N.eqb_eq. assumption.
          -- right. unfold is_operator in *. destruct (appr_all s !! (y, d, caller)); cbn in *; congruence.
        * rewrite lookup_insert_ne in Hx by exact Hne. left. split; [exact Hx|discriminate].
      + intros z d x _ Hx. left. split; [exact Hx|discriminate].
    - unfold unapprove in Ex. inv_ok. subst s'. apply EfQuiet; [apply quiet_same; [exact Hw|reflexivity]| | |].
      + intros d m H1 H2. unfold clear_appr in H2. cbn [locks] in H2. contradiction.
      + intros d m x Hx. unfold clear_appr in Hx. cbn [appr] in Hx. rewrite clear_lookup in Hx.
        destruct (decide _) as [|Hne]; [discriminate|]. left. split; [exact Hx|].
        intros y _ [= _ -> ->]. apply Hne. split; [reflexivity|left].
      + intros z d x _ Hx. left. split; [exact Hx|discriminate].
    - unfold approve_all in Ex. inv_ok. subst s'. apply EfQuiet; [apply quiet_same; [exact Hw|reflexivity]| | |].
      + intros d m H1 H2. cbn [locks] in H2. congruence.
      + intros d m x Hx. left. split; [exact Hx|discriminate].
      + intros y d x _ Hx. cbn [appr_all] in Hx. destruct b.
        * destruct (decide ((caller, c, operator) = (y, d, x))) as [[= -> -> ->]|Hne]; [right; reflexivity|].
          rewrite lookup_insert_ne in Hx by exact Hne. left. split; [exact Hx|discriminate].
        * destruct (decide ((caller, c, operator) = (y, d, x))) as [Heq|Hne].
          -- rewrite Heq, lookup_delete in Hx. discriminate.
          -- rewrite lookup_delete_ne in Hx by exact Hne. left. split; [exact Hx|]. intros [= -> -> ->]. congruence.
  Qed.

  Lemma step_WF s o : good s o -> WF s -> WF (nstep s o).
  Proof. intros Hg Hw. destruct (step_effect s o Hw Hg) as [[H _]|? ? ? ? H|? ? ? H|? ? ? H]; exact H. Qed.
  Lemma init_WF : WF ninit.
  Proof. intros c i Hi. discriminate. Qed.
  Lemma run_WF ops s : along nstep good ops s -> WF s -> WF (run nstep ops s).
  Proof. apply run_along. intros. apply step_WF; assumption. Qed.

  (** ** C15: every token has exactly one owner, and the counts agree *)
  Theorem C15_unique_owner ops : along nstep good ops ninit ->
    let s := run nstep ops ninit in
    forall c i, colls s !! c = Some i ->
      NoDup (map fst (c_toks i)) /\
      (forall y z l l' n, In (y, l) (c_toks i) -> In (z, l') (c_toks i) -> In n l -> In n l' -> y = z /\ l = l').
  Proof.
    intros Hg s c i Hi. destruct (run_WF _ _ Hg init_WF c i Hi) as (Hnd & Hfl & _ & _). split; [exact Hnd|].
    intros y z l l' n Hy Hz Hn Hn'.
    assert (E : y = z).
    { eapply Hfl; [exists l|exists l']; split; apply elem_of_list_In; eassumption. }
    subst z. split; [reflexivity|]. clear -Hnd Hy Hz. induction (c_toks i) as [|[x k] t IH]; [destruct Hy|].
    cbn [map fst] in Hnd. apply NoDup_cons in Hnd. destruct Hnd as [Hni Hnd].
    assert (Hx : forall k', In (x, k') t -> False).
    { intros k' Hk. apply Hni. apply elem_of_list_In, in_map_iff. exists (x, k'). auto. }
    destruct Hy as [E|Hy], Hz as [E'|Hz]; [congruence| | |auto].
    - injection E as -> ->. exfalso. eapply Hx; exact Hz.
    - injection E' as -> ->. exfalso. eapply Hx; exact Hy.
  Qed.
  Lemma balance_sum t : NoDup (map fst t) ->
    sumL (map (fun y => token_balance t y) (map fst t)) = N.of_nat (length (flat t)).
  Proof.
    assert (Hb : forall t y, NoDup (map fst t) -> forall l, (y, l) ∈ t -> token_balance t y = N.of_nat (length l)).
    { clear. unfold token_balance. induction t as [|[x k] t IH]; intros y Hnd l Hin; [inversion Hin|].
      cbn [map fst] in Hnd. apply NoDup_cons in Hnd. destruct Hnd as [Hni Hnd]. cbn [List.find fst].
      apply elem_of_cons in Hin. destruct Hin as [[= -> ->]|Hin]; [rewrite N.eqb_refl; reflexivity|].
      destruct (N.eqb_spec x y) as [->|]; [|apply IH; assumption]. exfalso. apply Hni.
      apply elem_of_list_In, in_map_iff. exists (y, l). split; [reflexivity|apply elem_of_list_In; exact Hin]. }
    intros Hnd.
    assert (Hg : forall t0, (forall e, e ∈ t0 -> e ∈ t) ->
      sumL (map (fun y => token_balance t y) (map fst t0)) = N.of_nat (length (flat t0))).
    { induction t0 as [|[x k] t0 IH]; intros Hsub; [reflexivity|]. cbn [map fst flat flat_map snd].
      rewrite app_length. fold (flat t0). rewrite Nat2N.inj_add, <- IH by (intros e He; apply Hsub; right; exact He).
      unfold sumL. cbn [fold_right map]. rewrite (Hb t x Hnd k) by (apply Hsub; left). reflexivity. }
    apply Hg. auto.
  Qed.
  (** The collection's count is the number of different tokens there are. *)
  Theorem C15_counts ops : along nstep good ops ninit ->
    let s := run nstep ops ninit in
    forall c i, colls s !! c = Some i ->
      (exists l, NoDup l /\ (forall n, n ∈ l <-> owner_of s c n <> None) /\ c_iss i = N.of_nat (length l)) /\
      (forall n y, owner_of s c n = Some y <-> is_token_owner (c_toks i) y n = true) /\
      (forall n, owner_of s c n = None <-> token_exists (c_toks i) n = false).
  Proof.
    intros Hg s c i Hi. pose proof (run_WF _ _ Hg init_WF) as Hw. destruct (Hw c i Hi) as (Hnd & Hfl & Hiss & _).
    assert (Hno : forall n, owner_of s c n = None <-> token_exists (c_toks i) n = false).
    { intros n. unfold owner_of. rewrite Hi, get_owner_none, <- exists_spec. destruct (token_exists _ _); intuition congruence. }
    split; [|split; [|exact Hno]].
    - exists (remove_dups (flat (c_toks i))). split; [apply NoDup_remove_dups|]. split; [|exact Hiss].
      intros n. rewrite elem_of_remove_dups, Hno, <- exists_spec. destruct (token_exists _ _); intuition congruence.
    - intros n y. unfold owner_of. fold s in Hi |- *. rewrite Hi, is_owner_spec. apply get_owner_spec. exact Hfl.
  Qed.
  (** Balances add up to it, as long as no transfer names a serial twice. *)
  Lemma step_tidy s o : WF s -> good s o -> neat o -> tidy s -> tidy (nstep s o).
  Proof.
    intros Hw Hg Hn Ht. unfold NftModel.nstep. destruct (nexec s o) as [s'|e] eqn:Ex; cbn [commit]; [|exact Ht].
    assert (Hsame : forall s', colls s' = colls s -> tidy s') by (intros s2 E; unfold tidy; rewrite E; exact Ht).
    assert (Hput : forall c i j, colls s !! c = Some i -> c_toks j = c_toks i -> tidy (put s c j)).
    { intros c i j Hc E d k Hd. unfold put in Hd. cbn [colls] in Hd. apply lookup_insert_Some in Hd.
      destruct Hd as [[<- <-]|[_ Hd]]; [rewrite E; eapply Ht; exact Hc|eapply Ht; exact Hd]. }
    destruct o; cbn [NftModel.nexec good neat] in *.
    - apply create_spec in Ex; [|exact Hw]. apply Ex, Ht.
    - apply mint_spec in Ex; [|exact Hw]. destruct Ex as (i & Ex). apply Ex, Ht.
    - apply bridge_spec in Ex; [|exact Hw|exact Hg]. apply Ex, Ht.
    - apply transfer_spec in Ex; [|exact Hw]. apply Ex; assumption.
    - apply burn_spec in Ex; [|exact Hw]. apply Ex, Ht.
    - unfold transfer_from in Ex. inv_ok. apply transfer_spec in Ex; [|exact Hw]. apply Ex; [exact Ht|apply NoDup_singleton].
    - unfold burn_from in Ex. inv_ok. apply burn_spec in Ex; [|exact Hw]. apply Ex, Ht.
    - unfold set_max in Ex. inv_ok. subst s'. eapply Hput; [eassumption|reflexivity].
    - unfold set_owner in Ex. inv_ok. subst s'. eapply Hput; [eassumption|reflexivity].
    - unfold claim in Ex. inv_ok. subst s'. eapply Hput; [eassumption|reflexivity].
    - unfold set_flags in Ex. inv_ok. subst s'. eapply Hput; [eassumption|reflexivity].
    - unfold lock in Ex. inv_ok. subst s'. apply Hsame. reflexivity.
    - injection Ex as <-. apply Hsame. reflexivity.
    - unfold approve in Ex. inv_ok. subst s'. apply Hsame. reflexivity.
    - unfold unapprove in Ex. inv_ok. subst s'. apply Hsame. reflexivity.
    - unfold approve_all in Ex. inv_ok. subst s'. apply Hsame. reflexivity.
  Qed.
  Theorem C15_balances_partial ops : along nstep (fun s o => good s o /\ neat o) ops ninit ->
    let s := run nstep ops ninit in
    forall c i, colls s !! c = Some i ->
      (forall y l, In (y, l) (c_toks i) -> NoDup l) /\
      c_iss i = sumL (map (token_balance (c_toks i)) (map fst (c_toks i))).
  Proof.
    intros Hg s c i Hi.
    assert (H : WF s /\ tidy s).
    { apply (run_along nstep (fun s o => good s o /\ neat o) (fun s => WF s /\ tidy s)); [|exact Hg|split; [apply init_WF|intros d j Hd; discriminate]].
      intros x o [H1 H2] [H3 H4]. split; [apply step_WF; assumption|apply step_tidy; assumption]. }
    destruct H as [Hw Ht]. destruct (Hw c i Hi) as (Hnd & _ & Hiss & _). specialize (Ht c i Hi). split.
    - intros y l Hin. eapply nodup_sublist; [exact Ht|]. clear -Hin. induction (c_toks i) as [|[z k] t IH]; [destruct Hin|].
      cbn [flat flat_map snd]. destruct Hin as [[= -> ->]|Hin]; [apply sublist_inserts_r; reflexivity|].
      apply sublist_inserts_l, IH, Hin.
    - rewrite Hiss, (count_nodup _ Ht). symmetry. apply balance_sum. exact Hnd.
  Qed.
  (** What a transfer does. *)
  Theorem C15_transfer_moves_exactly ops who c ns to s' : along nstep good ops ninit ->
    let s := run nstep ops ninit in
    do_transfer cap s c ns who to = Ok s' ->
    forall d n, owner_of s' d n = if decide (d = c /\ n ∈ ns) then Some to else owner_of s d n.
  Proof.
    intros Hg s E d n. pose proof (run_WF _ _ Hg init_WF) as Hw. fold s in Hw.
    apply transfer_spec in E; [|assumption..]. destruct E as (Hw' & _ & _ & Ho & _).
    destruct (decide (d = c /\ n ∈ ns)) as [Hin|Hout].
    - apply owner_owns; [exact Hw'|]. apply Ho. rewrite decide_True by exact Hin. reflexivity.
    - apply owner_ext; [exact Hw|exact Hw'|]. intros y. rewrite Ho, decide_False by exact Hout. reflexivity.
  Qed.

  (** ** C18: a locked token stays where it is *)
  Lemma step_locked s o c n : WF s -> good s o -> locks s !! (c, n) <> None -> o <> NUnlock c n ->
    owner_of (nstep s o) c n = owner_of s c n \/ (owner_of s c n = None /\ owner_of (nstep s o) c n <> None).
  Proof.
    intros Hw Hg Hl Ho. pose proof (step_WF s o Hg Hw) as Hw'.
    destruct (step_effect s o Hw Hg) as [Hq _ _ _|d ns from to _ _ Hpre He _ _ _ _ _|d n0 who _ _ Hpre He _ _ _ _ _|d to P _ He _ _ _ _ _ _ _ _].
    - left. apply owner_ext; [assumption..|]. intros y. apply Hq.
    - left. apply owner_ext; [assumption..|]. intros y. rewrite He. rewrite decide_False; [reflexivity|].
      intros [-> Hin]. apply Hpre in Hin. tauto.
    - left. apply owner_ext; [assumption..|]. intros y. rewrite He. rewrite decide_False; [reflexivity|].
      intros [-> ->]. tauto.
    - destruct (owner_of s c n) as [y|] eqn:E.
      + left. apply owner_owns; [exact Hw'|]. apply He. left. apply owner_owns; assumption.
      + destruct (owner_of (nstep s o) c n) eqn:E'; [right; split; [reflexivity|discriminate]|left; reflexivity].
  Qed.
  Lemma step_lock_kept s o c n : WF s -> good s o -> locks s !! (c, n) <> None -> o <> NUnlock c n ->
    locks (nstep s o) !! (c, n) <> None.
  Proof.
    intros Hw Hg Hl Ho. destruct (step_effect s o Hw Hg) as [Hq Hk _ _|d ns from to _ _ _ _ El _ _ _ _|d n0 who _ _ _ _ El _ _ _ _|d to P _ _ _ El _ _ _ _ _ _].
    - intros E. apply Ho. apply Hk; assumption.
    - rewrite El. exact Hl.
    - rewrite El. exact Hl.
    - rewrite El. exact Hl.
  Qed.
  Theorem C18_locked_immovable ops1 ops2 c n y :
    along nstep good (ops1 ++ ops2) ninit ->
    let s := run nstep ops1 ninit in
    locks s !! (c, n) <> None -> owner_of s c n = Some y ->
    (forall o, In o ops2 -> o <> NUnlock c n) ->
    owner_of (run nstep ops2 s) c n = Some y /\ locks (run nstep ops2 s) !! (c, n) <> None.
  Proof.
    intros Hg s Hl Ho Hno. apply along_app in Hg. destruct Hg as [Hg1 Hg2]. fold s in Hg2.
    pose proof (run_WF _ _ Hg1 init_WF) as Hw. fold s in Hw. clearbody s. clear Hg1 ops1.
    revert s Hg2 Hw Hl Ho. induction ops2 as [|o ops IH]; intros s Hg Hw Hl Ho; [auto|].
    destruct Hg as [Hgo Hg]. change (run nstep (o :: ops) s) with (run nstep ops (nstep s o)).
    assert (Hne : o <> NUnlock c n) by (apply Hno; left; reflexivity).
    apply IH; [intros o' Hin; apply Hno; right; exact Hin|exact Hg|apply step_WF; assumption|apply step_lock_kept; assumption|].
    destruct (step_locked s o c n Hw Hgo Hl Hne) as [E|[E _]]; congruence.
  Qed.
  (** Each moving or destroying call on a locked token is refused. *)
  Theorem C18_locked_calls_fail s c n caller from to ns : locks s !! (c, n) <> None ->
    (In n ns -> is_ok (do_transfer cap s c ns from to) = false) /\
    is_ok (transfer_from cap s caller c from to n) = false /\
    is_ok (do_burn s from c n) = false /\ is_ok (burn_from s caller c n) = false.
  Proof.
    intros Hl. assert (Hk : locked s c n = true).
    { apply locked_spec. destruct (locks s !! (c, n)); [eauto|congruence]. }
    assert (Ht : forall ns, In n ns -> is_ok (do_transfer cap s c ns from to) = false).
    { intros ns' Hin. destruct (do_transfer cap s c ns' from to) eqn:Et; [|reflexivity]. exfalso. unfold do_transfer in Et. inv_ok.
      match goal with H : forallb _ ns' = true |- _ => rewrite forallb_forall in H; specialize (H n Hin); rewrite Hk in H;
        rewrite andb_false_r in H; discriminate end. }
    split; [apply Ht|]. split; [|split].
    - destruct (transfer_from cap s caller c from to n) eqn:Et; [|reflexivity]. exfalso. unfold transfer_from in Et. inv_ok.
      specialize (Ht [n] (or_introl eq_refl)). rewrite Et in Ht. discriminate.
    - unfold do_burn. rewrite Hk. reflexivity.
    - destruct (burn_from s caller c n) eqn:Et; [|reflexivity]. exfalso. unfold burn_from in Et. inv_ok.
      unfold do_burn in Et. rewrite Hk in Et. discriminate.
  Qed.

  (** ** C17: a serial of a native collection is never issued twice *)
  Definition spent_serial (s : nft) (c n : N) : Prop :=
    root_of s c = Some true /\ exists x, next_of s c = Some x /\ n < x.
  Lemma exists_spent s c n y : WF s -> root_of s c = Some true -> owns s c y n -> spent_serial s c n.
  Proof.
    intros Hw Hr (i & Hi & Ho). split; [exact Hr|]. unfold root_of, next_of in *. rewrite Hi in Hr |- *. cbn in *.
    injection Hr as Hr. destruct (Hw c i Hi) as (_ & _ & _ & Hroot). destruct (Hroot Hr) as [Hall _].
    exists (c_next i). split; [reflexivity|]. rewrite Forall_forall in Hall. apply Hall. apply own_flat. eauto.
  Qed.
  Lemma step_spent s o c n : WF s -> good s o -> spent_serial s c n -> spent_serial (nstep s o) c n.
  Proof.
    intros Hw Hg [Hr (x & Hx & Hlt)]. unfold spent_serial.
    destruct (step_effect s o Hw Hg) as [(_ & _ & Hk) _ _ _|d ns from to _ _ _ _ _ _ _ Hk _|d n0 who _ _ _ _ _ _ _ Hk _|d to P _ _ _ _ _ _ Hk1 Hk2 _ _].
    - rewrite (proj1 (Hk c)), (proj2 (Hk c)). eauto.
    - rewrite (proj1 (Hk c)), (proj2 (Hk c)). eauto.
    - rewrite (proj1 (Hk c)), (proj2 (Hk c)). eauto.
    - split; [apply Hk1; exact Hr|]. destruct (Hk2 c x Hx) as (x' & Hx' & Hle). exists x'. split; [exact Hx'|lia].
  Qed.
  Lemma spent_no_mint s o c n : WF s -> good s o -> spent_serial s c n -> owner_of s c n = None -> owner_of (nstep s o) c n = None.
  Proof.
    intros Hw Hg [Hr (x & Hx & Hlt)] Hn. pose proof (step_WF s o Hg Hw) as Hw'.
    apply owner_none; [exact Hw'|]. pose proof (proj1 (owner_none s c n Hw) Hn) as Hno. intros y.
    destruct (step_effect s o Hw Hg) as [(_ & Hq & _) _ _ _|d ns from to _ _ Hpre He _ _ _ _ _|d n0 who _ _ _ He _ _ _ _ _|d to P _ He _ _ _ _ _ _ Hk _].
    - rewrite Hq. apply Hno.
    - rewrite He. destruct (decide _) as [[-> Hin]|]; [|apply Hno]. intros _. apply Hpre in Hin. eapply Hno. apply Hin.
    - rewrite He. destruct (decide _); [tauto|apply Hno].
    - rewrite He. intros [Ho|(-> & -> & HP)]; [eapply Hno; exact Ho|].
      destruct (Hk Hr n HP) as (x' & Hx' & Hle). rewrite Hx in Hx'. injection Hx' as <-. lia.
  Qed.
  (** Once a token of a native collection has existed, no later operation brings its serial back. *)
  Theorem C17_never_reissued ops1 ops2 o c n y :
    along nstep good (ops1 ++ ops2 ++ [o]) ninit ->
    let s1 := run nstep ops1 ninit in let s2 := run nstep ops2 s1 in
    root_of s1 c = Some true -> owner_of s1 c n = Some y ->
    owner_of s2 c n = None -> owner_of (nstep s2 o) c n = None.
  Proof.
    intros Hg s1 s2 Hr Hy Hn. apply along_app in Hg. destruct Hg as [Hg1 Hg2]. fold s1 in Hg2. apply along_app in Hg2.
    destruct Hg2 as [Hg2 [Hg3 _]]. fold s2 in Hg3.
    pose proof (run_WF _ _ Hg1 init_WF) as Hw1. fold s1 in Hw1.
    assert (Hs1 : spent_serial s1 c n) by (eapply exists_spent; [exact Hw1|exact Hr|apply owner_owns; [exact Hw1|exact Hy]]).
    assert (Hw2 : WF s2 /\ spent_serial s2 c n).
    { unfold s2. apply (run_along nstep good (fun s => WF s /\ spent_serial s c n)); [|exact Hg2|auto].
      intros s o' Ho [H1 H2]. split; [apply step_WF; assumption|apply step_spent; assumption]. }
    apply spent_no_mint; tauto.
  Qed.
  (** Two successful mints of a native collection hand out disjoint serials. *)
  Theorem C17_mint_fresh ops who c q to e s' : along nstep good ops ninit ->
    let s := run nstep ops ninit in
    mint cap mint_limit s who c q to e = Ok s' ->
    exists a, (forall n, a <= n < a + q -> owner_of s c n = None /\ owner_of s' c n = Some to) /\
      (forall d n, ~ (d = c /\ a <= n < a + q) -> owner_of s' d n = owner_of s d n) /\
      (forall n y, owner_of s c n = Some y -> n < a).
  Proof.
    intros Hg s E. pose proof (run_WF _ _ Hg init_WF) as Hw. fold s in Hw.
    apply mint_spec in E; [|exact Hw]. destruct E as (i & Hi & Hr & Hq & _ & _ & Hw' & H2 & H3 & _).
    exists (c_next i). split; [|split].
    - intros n Hn. split; [apply owner_none; [exact Hw|]; apply H3; lia|]. apply owner_owns; [exact Hw'|]. apply H2. right. auto.
    - intros d n Hn. apply owner_ext; [assumption..|]. intros y. rewrite H2. tauto.
    - intros n y Hy. apply owner_owns in Hy; [|exact Hw]. destruct (N.lt_ge_cases n (c_next i)) as [|Hge]; [assumption|].
      exfalso. eapply H3; eassumption.
  Qed.

  (** Without any assumption on the callers: two successful calls of [mint] never hand out the
      same serial, whatever happened in between. *)
  Lemma step_next s o c x : next_of s c = Some x -> exists x', next_of (nstep s o) c = Some x' /\ x <= x'.
  Proof.
    intros Hx. unfold NftModel.nstep. destruct (nexec s o) as [s'|e] eqn:Ex; cbn [commit]; [|exists x; split; [exact Hx|lia]].
    assert (Hput : forall d i j, colls s !! d = Some i -> c_next i <= c_next j -> exists x', next_of (put s d j) c = Some x' /\ x <= x').
    { intros d i j Hd Hn. unfold next_of, put in *. cbn [colls]. destruct (decide (d = c)) as [->|Hne].
      - rewrite lookup_insert. rewrite Hd in Hx. cbn in Hx |- *. injection Hx as <-. eauto.
      - rewrite lookup_insert_ne by exact Hne. exists x. split; [exact Hx|lia]. }
    assert (Hsame : forall s', colls s' = colls s -> exists x', next_of s' c = Some x' /\ x <= x').
    { intros s2 E. unfold next_of in *. rewrite E. exists x. split; [exact Hx|lia]. }
    assert (Hclear : forall s2 d ns, next_of (clear_appr s2 d ns) c = next_of s2 c) by reflexivity.
    assert (Ht : forall d ns from to s', do_transfer cap s d ns from to = Ok s' -> exists x', next_of s' c = Some x' /\ x <= x').
    { intros d ns from to s2 E. unfold do_transfer in E. inv_ok. subst s2. rewrite Hclear. eapply Hput; [eassumption|]. cbn. lia. }
    assert (Hb : forall who d n s', do_burn s who d n = Ok s' -> exists x', next_of s' c = Some x' /\ x <= x').
    { intros who d n s2 E. unfold do_burn in E. inv_ok. subst s2. rewrite Hclear. eapply Hput; [eassumption|]. cbn. lia. }
    assert (Hm : forall d i j to ns s', colls s !! d = Some i -> c_next i <= c_next j -> do_mint cap s d j to ns = Ok s' ->
              exists x', next_of s' c = Some x' /\ x <= x').
    { intros d i j to ns s2 Hd Hn E. unfold do_mint in E. inv_ok. subst s2. eapply Hput; [eassumption|]. cbn. exact Hn. }
    destruct o; cbn [NftModel.nexec] in Ex.
    - unfold create in Ex. inv_ok. subst s'.
      match goal with H : bool_decide _ = true |- _ => apply bool_decide_eq_true in H; rename H into Hid end.
      unfold next_of, put in *. cbn [colls]. destruct (decide (id = c)) as [->|Hne]; [rewrite Hid in Hx; discriminate|].
      rewrite lookup_insert_ne by exact Hne. exists x. split; [exact Hx|lia].
    - unfold mint in Ex. inv_ok. subst s'. match goal with H : do_mint _ _ _ _ _ _ = Ok _ |- _ => eapply Hm in H; [exact H|eassumption|cbn; lia] end.
    - unfold mint_bridged in Ex. destruct ns as [|n1 ns']; [injection Ex as <-; apply Hsame; reflexivity|].
      destruct (colls s !! c0) as [i|] eqn:Hc; [|injection Ex as <-; apply Hsame; reflexivity]. cbv zeta in Ex.
      destruct (_ <=? cap); [|injection Ex as <-; apply Hsame; reflexivity]. eapply Hm in Ex; [exact Ex|exact Hc|lia].
    - eapply Ht; exact Ex.
    - eapply Hb; exact Ex.
    - unfold transfer_from in Ex. inv_ok. eapply Ht; exact Ex.
    - unfold burn_from in Ex. inv_ok. eapply Hb; exact Ex.
    - unfold set_max in Ex. inv_ok. subst s'. eapply Hput; [eassumption|cbn; lia].
    - unfold set_owner in Ex. inv_ok. subst s'. eapply Hput; [eassumption|cbn; lia].
    - unfold claim in Ex. inv_ok. subst s'. eapply Hput; [eassumption|cbn; lia].
    - unfold set_flags in Ex. inv_ok. subst s'. eapply Hput; [eassumption|cbn; lia].
    - unfold lock in Ex. inv_ok. subst s'. apply Hsame. reflexivity.
    - injection Ex as <-. apply Hsame. reflexivity.
    - unfold approve in Ex. inv_ok. subst s'. apply Hsame. reflexivity.
    - unfold unapprove in Ex. inv_ok. subst s'. apply Hsame. reflexivity.
    - unfold approve_all in Ex. inv_ok. subst s'. apply Hsame. reflexivity.
  Qed.
  (** The serials a mint call announces: [pre_mint]'s answer for the stored collection. *)
  Definition minted (s : nft) (who c q : N) : list N :=
    match colls s !! c with Some i => match pre_mint cap who q i with Ok ns => ns | Err _ => [] end | None => [] end.
  Theorem C17_mints_disjoint s ops w1 c q1 t1 e1 w2 q2 t2 e2 n :
    let s1 := nstep s (NMint w1 c q1 t1 e1) in
    let s2 := run nstep ops s1 in
    is_ok (nexec s (NMint w1 c q1 t1 e1)) = true -> is_ok (nexec s2 (NMint w2 c q2 t2 e2)) = true ->
    In n (minted s w1 c q1) -> ~ In n (minted s2 w2 c q2).
  Proof.
    intros s1 s2 Ok1 _ Hin1 Hin2.
    assert (Hm : forall s who q n, In n (minted s who c q) -> exists x, next_of s c = Some x /\ x <= n < x + q).
    { intros s0 who q m Hin. unfold minted in Hin. unfold next_of. destruct (colls s0 !! c) as [i|]; [|destruct Hin].
      destruct (pre_mint cap who q i) as [ns|] eqn:Ep; [|destruct Hin]. unfold pre_mint in Ep. inv_ok. subst ns.
      apply elem_of_list_In, serials_elem in Hin. cbn. eauto. }
    destruct (Hm _ _ _ _ Hin1) as (a & Ha & Hna). destruct (Hm _ _ _ _ Hin2) as (b & Hb & Hnb).
    assert (Hs1 : next_of s1 c = Some (a + q1)).
    { unfold s1, NftModel.nstep. destruct (nexec s _) as [s'|] eqn:Ex; [|discriminate]. cbn [commit NftModel.nexec] in *.
      unfold mint in Ex. inv_ok. subst s'. unfold next_of in *.
      match goal with H : colls s !! c = Some _ |- _ => rewrite H in Ha; cbn in Ha end. injection Ha as <-.
      match goal with H : do_mint _ _ _ _ _ _ = Ok _ |- _ => unfold do_mint in H; inv_ok end. subst.
      unfold put. cbn [colls]. rewrite lookup_insert. reflexivity. }
    assert (Hmono : forall ops s x, next_of s c = Some x -> exists x', next_of (run nstep ops s) c = Some x' /\ x <= x').
    { clear. induction ops as [|o ops IH]; intros s x Hx; [exists x; split; [exact Hx|lia]|].
      destruct (step_next s o c x Hx) as (x1 & Hx1 & Hle). destruct (IH _ _ Hx1) as (x2 & Hx2 & Hle2).
      exists x2. split; [exact Hx2|lia]. }
    destruct (Hmono ops s1 _ Hs1) as (b' & Hb' & Hle). fold s2 in Hb'. rewrite Hb in Hb'. injection Hb' as <-. lia.
  Qed.

  (** ** C16: maximum issuance *)
  Definition good16 (s : nft) (o : nop) : Prop :=
    good s o /\ match o with NBridge _ c _ => forall i, colls s !! c = Some i -> c_max i = None | _ => True end.
  Definition capped (s : nft) : Prop := forall c i m, colls s !! c = Some i -> c_max i = Some m -> c_iss i <= m.
  Lemma put_capped s c j : capped s -> (forall m, c_max j = Some m -> c_iss j <= m) -> capped (put s c j).
  Proof.
    intros Hs Hj d i m Hd Hm. unfold put in Hd. cbn [colls] in Hd. destruct (decide (c = d)) as [->|Hne].
    - rewrite lookup_insert in Hd. injection Hd as <-. auto.
    - rewrite lookup_insert_ne in Hd by exact Hne. eapply Hs; eassumption.
  Qed.
  Lemma step_capped s o : good16 s o -> WF s -> capped s -> capped (nstep s o).
  Proof.
    intros [Hg Hg2] Hw Hs. unfold NftModel.nstep. destruct (nexec s o) as [s'|e] eqn:Ex; cbn [commit]; [|exact Hs].
    assert (Hsame : forall s', colls s' = colls s -> capped s') by (intros s2 E; unfold capped; rewrite E; exact Hs).
    assert (Hclear : forall s2 d ns, capped s2 -> capped (clear_appr s2 d ns)) by (intros; assumption).
    assert (Ht : forall d ns from to s', do_transfer cap s d ns from to = Ok s' -> capped s').
    { intros d ns from to s2 E. unfold do_transfer in E. inv_ok. subst s2. apply Hclear, put_capped; [exact Hs|].
      intros m Hm. cbn in *. eapply Hs; eassumption. }
    assert (Hb : forall who d n s', do_burn s who d n = Ok s' -> capped s').
    { intros who d n s2 E. unfold do_burn in E. inv_ok. subst s2. apply Hclear, put_capped; [exact Hs|].
      intros m Hm. cbn in *. match goal with H : colls s !! d = Some ?i |- _ => pose proof (Hs d i m H Hm) end. lia. }
    destruct o; cbn [NftModel.nexec] in Ex.
    - unfold create in Ex. inv_ok. subst s'. apply put_capped; [exact Hs|]. cbn. intros m ->.
      match goal with H : _ && _ = true |- _ => apply andb_true_iff in H; destruct H as [H _]; apply andb_true_iff in H; destruct H as [_ H]; apply N.leb_le in H; exact H end.
    - unfold mint in Ex. inv_ok. subst s'. rename v into i.
      match goal with H : colls s !! c = Some i |- _ => rename H into Hi end.
      match goal with H : pre_mint _ _ _ _ = Ok _ |- _ => unfold pre_mint in H; inv_ok end.
      match goal with H : do_mint _ _ _ _ _ _ = Ok _ |- _ => unfold do_mint in H; inv_ok end. subst.
      apply put_capped; [exact Hs|]. cbn [with_toks with_iss with_next c_max c_iss c_next] in *. intros m Hm.
      destruct (Hw c i Hi) as (_ & _ & _ & Hroot).
      match goal with H : c_root i = true |- _ => destruct (Hroot H) as [_ Hle] end.
      rewrite Hm in *. rewrite serials_length in *. lia.
    - unfold mint_bridged in Ex. destruct ns as [|n1 ns']; [injection Ex as <-; exact Hs|].
      destruct (colls s !! c) as [i|] eqn:Hc; [|injection Ex as <-; exact Hs]. cbv zeta in Ex.
      destruct (_ <=? cap); [|injection Ex as <-; exact Hs]. unfold do_mint in Ex. inv_ok. subst s'.
      apply put_capped; [exact Hs|]. intros m Hm. cbn in Hm. rewrite (Hg2 i) in Hm by first [reflexivity|assumption]. discriminate.
    - eapply Ht; exact Ex.
    - eapply Hb; exact Ex.
    - unfold transfer_from in Ex. inv_ok. eapply Ht; exact Ex.
    - unfold burn_from in Ex. inv_ok. eapply Hb; exact Ex.
    - unfold set_max in Ex. inv_ok. subst s'. apply put_capped; [exact Hs|]. cbn. intros k [= <-]. lia.
    - unfold set_owner in Ex. inv_ok. subst s'. apply put_capped; [exact Hs|]. cbn. intros k Hk. eapply Hs; eassumption.
    - unfold claim in Ex. inv_ok. subst s'. apply put_capped; [exact Hs|]. cbn. intros k Hk. eapply Hs; eassumption.
    - unfold set_flags in Ex. inv_ok. subst s'. apply put_capped; [exact Hs|]. cbn. intros k Hk. eapply Hs; eassumption.
    - unfold lock in Ex. inv_ok. subst s'. apply Hsame. reflexivity.
    - injection Ex as <-. apply Hsame. reflexivity.
    - unfold approve in Ex. inv_ok. subst s'. apply Hsame. reflexivity.
    - unfold unapprove in Ex. inv_ok. subst s'. apply Hsame. reflexivity.
    - unfold approve_all in Ex. inv_ok. subst s'. apply Hsame. reflexivity.
  Qed.
  (** Unless tokens arrive by the bridge in a collection that has a maximum, the number of
      tokens in a collection never exceeds its maximum. *)
  Theorem C16_max_issuance ops : along nstep good16 ops ninit ->
    forall c i m, colls (run nstep ops ninit) !! c = Some i -> c_max i = Some m ->
      exists l, NoDup l /\ (forall n, n ∈ l <-> owner_of (run nstep ops ninit) c n <> None) /\ N.of_nat (length l) <= m.
  Proof.
    intros Hg c i m Hi Hm.
    assert (H : WF (run nstep ops ninit) /\ capped (run nstep ops ninit)).
    { apply (run_along nstep good16 (fun s => WF s /\ capped s)); [|exact Hg|split; [apply init_WF|intros d j k Hd; discriminate]].
      intros s o Ho [H1 H2]. split; [apply step_WF; [apply Ho|exact H1]|apply step_capped; assumption]. }
    destruct H as [Hw Hc]. destruct (Hw c i Hi) as (_ & _ & Hiss & _). exists (remove_dups (flat (c_toks i))).
    split; [apply NoDup_remove_dups|]. split; [|fold (count (flat (c_toks i))); rewrite <- Hiss; eapply Hc; eassumption].
    intros n. unfold owner_of. rewrite elem_of_remove_dups, Hi, get_owner_none. destruct (decide (n ∈ flat (c_toks i))); tauto.
  Qed.
  (** Once declared, a maximum is never changed or removed. *)
  Theorem C16_max_fixed ops s c i m : colls s !! c = Some i -> c_max i = Some m ->
    exists j, colls (run nstep ops s) !! c = Some j /\ c_max j = Some m.
  Proof.
    revert s i. induction ops as [|o ops IH]; intros s i Hi Hm; [eauto|].
    change (run nstep (o :: ops) s) with (run nstep ops (nstep s o)).
    assert (H : exists j, colls (nstep s o) !! c = Some j /\ c_max j = Some m); [|destruct H as (j & Hj & Hjm); eapply IH; eassumption].
    clear IH. unfold NftModel.nstep. destruct (nexec s o) as [s'|e] eqn:Ex; cbn [commit]; [|eauto].
    assert (Hput : forall d j k, colls s !! d = Some j -> (c_max j = Some m -> c_max k = Some m) -> exists x, colls (put s d k) !! c = Some x /\ c_max x = Some m).
    { intros d j k Hd Hk. unfold put. cbn [colls]. destruct (decide (d = c)) as [->|Hne].
      - rewrite lookup_insert. rewrite Hi in Hd. injection Hd as <-. eauto.
      - rewrite lookup_insert_ne by exact Hne. eauto. }
    assert (Ht : forall d ns from to s', do_transfer cap s d ns from to = Ok s' -> exists x, colls s' !! c = Some x /\ c_max x = Some m).
    { intros d ns from to s2 E. unfold do_transfer in E. inv_ok. subst s2. unfold clear_appr. cbn [colls]. eapply Hput; [eassumption|auto]. }
    assert (Hb : forall who d n s', do_burn s who d n = Ok s' -> exists x, colls s' !! c = Some x /\ c_max x = Some m).
    { intros who d n s2 E. unfold do_burn in E. inv_ok. subst s2. unfold clear_appr. cbn [colls]. eapply Hput; [eassumption|auto]. }
    destruct o; cbn [NftModel.nexec] in Ex.
    - unfold create in Ex. inv_ok. subst s'.
      match goal with H : bool_decide _ = true |- _ => apply bool_decide_eq_true in H; rename H into Hid end.
      unfold put. cbn [colls]. destruct (decide (id = c)) as [->|Hne]; [congruence|]. rewrite lookup_insert_ne by exact Hne. eauto.
    - unfold mint in Ex. inv_ok. subst s'.
      match goal with H : do_mint _ _ _ _ _ _ = Ok _ |- _ => unfold do_mint in H; inv_ok end. subst. eapply Hput; [eassumption|auto].
    - unfold mint_bridged in Ex. destruct ns as [|n1 ns']; [injection Ex as <-; eauto|].
      destruct (colls s !! c0) as [j|] eqn:Hc; [|injection Ex as <-; eauto]. cbv zeta in Ex.
      destruct (_ <=? cap); [|injection Ex as <-; eauto]. unfold do_mint in Ex. inv_ok. subst s'. eapply Hput; [eassumption|auto].
    - eapply Ht; exact Ex.
    - eapply Hb; exact Ex.
    - unfold transfer_from in Ex. inv_ok. eapply Ht; exact Ex.
    - unfold burn_from in Ex. inv_ok. eapply Hb; exact Ex.
    - unfold set_max in Ex. inv_ok. subst s'. eapply Hput; [eassumption|]. intros Hk. rewrite Hk in *. discriminate.
    - unfold set_owner in Ex. inv_ok. subst s'. eapply Hput; [eassumption|auto].
    - unfold claim in Ex. inv_ok. subst s'. eapply Hput; [eassumption|auto].
    - unfold set_flags in Ex. inv_ok. subst s'. eapply Hput; [eassumption|auto].
    - unfold lock in Ex. inv_ok. subst s'. eauto.
    - injection Ex as <-. eauto.
    - unfold approve in Ex. inv_ok. subst s'. eauto.
    - unfold unapprove in Ex. inv_ok. subst s'. eauto.
    - unfold approve_all in Ex. inv_ok. subst s'. eauto.
  Qed.

  (** ** C14: authorisation *)
  Theorem C14_authorised_iff s c n who :
    is_approved_or_owner s c n who = true <->
    owner_of s c n = Some who \/ appr s !! (c, n) = Some who \/
    (exists y, owner_of s c n = Some y /\ appr_all s !! (y, c, who) = Some true).
  Proof.
    unfold is_approved_or_owner. rewrite !orb_true_iff, !bool_decide_eq_true.
    assert (Hop : match owner_of s c n with Some o => is_operator s o c who | None => false end = true <->
                  exists y, owner_of s c n = Some y /\ appr_all s !! (y, c, who) = Some true).
    { unfold is_operator. destruct (owner_of s c n) as [y|].
      - split.
        + intros H. exists y. split; [reflexivity|]. destruct (appr_all s !! (y, c, who)); cbn in H; congruence.
        + intros (z & [= <-] & ->). reflexivity.
      - split; [discriminate|]. intros (z & Hz & _). discriminate. }
    rewrite Hop. tauto.
  Qed.

  (** A change of a token's owner is the doing of its owner or of someone authorised. *)
  Lemma step_change s o c n y : WF s -> good s o -> owner_of s c n = Some y -> owner_of (nstep s o) c n <> Some y ->
    ((exists ns to, o = NTransfer y c ns to /\ n ∈ ns) \/ o = NBurn y c n \/
     exists caller, is_approved_or_owner s c n caller = true /\
       ((exists to, o = NTransferFrom caller c y to n) \/ o = NBurnFrom caller c n))
    /\ appr (nstep s o) !! (c, n) = None.
  Proof.
    intros Hw Hg Hy Hch. pose proof (step_WF s o Hg Hw) as Hw'.
    assert (Hys : owns s c y n) by (apply owner_owns; assumption).
    destruct (step_effect s o Hw Hg) as [(_ & Hq & _) _ _ _|d ns from to _ Hft Hpre He _ _ Ha _ Hop|d n0 who _ Hwho _ He _ _ Ha _ Hop|d to P _ He _ _ _ _ _ _ _ _].
    - exfalso. apply Hch. apply owner_owns; [exact Hw'|]. apply Hq. exact Hys.
    - destruct (decide (c = d /\ n ∈ ns)) as [[-> Hin]|Hout].
      + destruct (Hpre n Hin) as [Hfrom _]. assert (from = y) as ->.
        { apply owner_owns in Hfrom; [|exact Hw]. congruence. }
        split; [|rewrite Ha, decide_True by auto; reflexivity].
        destruct Hop as [->|(caller & m & -> & -> & Hau)]; [left; eauto|].
        apply elem_of_list_singleton in Hin. subst m. right. right. exists caller. split; [exact Hau|left; eauto].
      + exfalso. apply Hch. apply owner_owns; [exact Hw'|]. apply He. rewrite decide_False by exact Hout. exact Hys.
    - destruct (decide (c = d /\ n = n0)) as [[-> ->]|Hout].
      + assert (who = y) as ->. { apply owner_owns in Hwho; [|exact Hw]. congruence. }
        split; [|rewrite Ha, decide_True by auto; reflexivity].
        destruct Hop as [->|(caller & -> & Hau)]; [auto|]. right. right. eauto.
      + exfalso. apply Hch. apply owner_owns; [exact Hw'|]. apply He. rewrite decide_False by exact Hout. exact Hys.
    - exfalso. apply Hch. apply owner_owns; [exact Hw'|]. apply He. left. exact Hys.
  Qed.
  Lemma step_appr s o c n x : WF s -> good s o -> appr (nstep s o) !! (c, n) = Some x ->
    (appr s !! (c, n) = Some x /\ (forall y, owner_of s c n = Some y -> o <> NUnapprove y c n)) \/
    exists a y, o = NApprove a x c n /\ owner_of s c n = Some y /\ owner_of (nstep s o) c n = Some y /\
      (y = a \/ appr_all s !! (y, c, a) = Some true).
  Proof.
    intros Hw Hg Hx. pose proof (step_WF s o Hg Hw) as Hw'.
    destruct (step_effect s o Hw Hg) as [(_ & Hq & _) _ Ha _|d ns from to _ _ _ _ _ _ Ha _ Hop|d n0 who _ _ _ _ _ _ Ha _ Hop|d to P _ _ _ _ _ Ha _ _ _ Hop].
    - destruct (Ha c n x Hx) as [H|(a & y & -> & Hy & Hor)]; [left; exact H|right]. exists a, y. split; [reflexivity|].
      split; [exact Hy|]. split; [|exact Hor]. apply owner_owns; [exact Hw'|]. apply Hq. apply owner_owns; assumption.
    - rewrite Ha in Hx. destruct (decide _); [discriminate|]. left. split; [exact Hx|].
      destruct Hop as [->|(? & ? & _ & -> & _)]; discriminate.
    - rewrite Ha in Hx. destruct (decide _); [discriminate|]. left. split; [exact Hx|].
      destruct Hop as [->|(? & -> & _)]; discriminate.
    - rewrite Ha in Hx. left. split; [exact Hx|].
      destruct Hop as [(? & ? & ? & ? & ->)|[(? & ? & ? & ->)|(? & -> & _)]]; discriminate.
  Qed.
  (** A token's single approval was given by the account that owns the token now (or by one of its
      operators), the token has not changed hands since, and the approval was not revoked. *)
  Theorem C14_approval_is_current ops c n x : along nstep good ops ninit ->
    appr (run nstep ops ninit) !! (c, n) = Some x ->
    exists pre a post y, ops = pre ++ NApprove a x c n :: post /\
      let s := run nstep pre ninit in
      owner_of s c n = Some y /\ (y = a \/ appr_all s !! (y, c, a) = Some true) /\
      (forall k, owner_of (run nstep (firstn k post) (nstep s (NApprove a x c n))) c n = Some y) /\
      ~ In (NUnapprove y c n) post.
  Proof.
    induction ops as [|o ops IH] using rev_ind; intros Hg Hx; [discriminate|].
    apply along_app in Hg. destruct Hg as [Hg [Ho _]]. rewrite run_app in Hx.
    set (s := run nstep ops ninit) in *. pose proof (run_WF _ _ Hg init_WF) as Hw. fold s in Hw.
    change (run nstep [o] s) with (nstep s o) in Hx.
    destruct (step_appr s o c n x Hw Ho Hx) as [[Hx' Hnu]|(a & y & -> & Hy & Hy' & Hor)].
    - destruct (IH Hg Hx') as (pre & a & post & y & -> & Hy & Hor & Hk & Hnu').
      assert (Hlast : owner_of s c n = Some y).
      { specialize (Hk (length post)). rewrite firstn_all in Hk. unfold s. rewrite run_app. exact Hk. }
      exists pre, a, (post ++ [o]), y. split; [rewrite <- app_assoc; reflexivity|]. split; [exact Hy|]. split; [exact Hor|]. split.
      + intros k. destruct (Nat.le_gt_cases k (length post)) as [Hle|Hgt].
        * rewrite firstn_app. replace (k - length post)%nat with 0%nat by lia. cbn [firstn]. rewrite app_nil_r. apply Hk.
        * rewrite firstn_all2 by (rewrite app_length; cbn; lia). rewrite run_app.
          assert (Es : run nstep post (nstep (run nstep pre ninit) (NApprove a x c n)) = s).
          { unfold s. rewrite run_app. reflexivity. }
          rewrite Es. change (run nstep [o] s) with (nstep s o).
          destruct (decide (owner_of (nstep s o) c n = Some y)) as [E|Hne]; [exact E|].
          destruct (step_change s o c n y Hw Ho Hlast Hne) as [_ Hnone]. congruence.
      + intros Hin. apply in_app_or in Hin. destruct Hin as [Hin|[Eo|[]]]; [contradiction|]. apply (Hnu y Hlast). exact Eo.
    - exists ops, a, [], y. split; [reflexivity|]. split; [exact Hy|]. split; [exact Hor|]. split; [|intros []].
      intros k. rewrite firstn_nil. exact Hy'.
  Qed.
  (** An operator approval was given by that very account and not revoked since. *)
  Theorem C14_operator_is_current ops y c x : along nstep good ops ninit -> y <> x ->
    appr_all (run nstep ops ninit) !! (y, c, x) = Some true ->
    exists pre post, ops = pre ++ NApproveAll y x c true :: post /\ ~ In (NApproveAll y x c false) post.
  Proof.
    induction ops as [|o ops IH] using rev_ind; intros Hg Hne Hx; [discriminate|].
    apply along_app in Hg. destruct Hg as [Hg [Ho _]]. rewrite run_app in Hx.
    set (s := run nstep ops ninit) in *. pose proof (run_WF _ _ Hg init_WF) as Hw. fold s in Hw.
    change (run nstep [o] s) with (nstep s o) in Hx.
    assert (H : (appr_all s !! (y, c, x) = Some true /\ o <> NApproveAll y x c false) \/ o = NApproveAll y x c true).
    { destruct (step_effect s o Hw Ho) as [_ _ _ Hall|d ns from to _ _ _ _ _ Ha _ _ Hop|d n0 who _ _ _ _ _ Ha _ _ Hop|d to P _ _ _ _ Ha _ _ _ _ Hop].
      - apply Hall; assumption.
      - left. rewrite Ha in Hx. split; [exact Hx|]. destruct Hop as [->|(? & ? & _ & -> & _)]; discriminate.
      - left. rewrite Ha in Hx. split; [exact Hx|]. destruct Hop as [->|(? & -> & _)]; discriminate.
      - left. rewrite Ha in Hx. split; [exact Hx|].
        destruct Hop as [(? & ? & ? & ? & ->)|[(? & ? & ? & ->)|(? & -> & _)]]; discriminate. }
    destruct H as [[Hx1 Hno]| -> ].
    - destruct (IH Hg Hne Hx1) as (pre & post & -> & Hni). exists pre, (post ++ [o]). split; [rewrite <- app_assoc; reflexivity|].
      intros Hin. apply in_app_or in Hin. destruct Hin as [Hin|[E|[]]]; [contradiction|]. congruence.
    - exists ops, []. split; [reflexivity|]. intros [].
  Qed.
  (** Put together: whenever a token leaves its owner, the owner asked for it or someone the
      owner trusted at that time did. *)
  Theorem C14_only_with_consent ops o c n y :
    along nstep good (ops ++ [o]) ninit ->
    let s := run nstep ops ninit in
    owner_of s c n = Some y -> owner_of (nstep s o) c n <> Some y ->
    (exists ns to, o = NTransfer y c ns to /\ In n ns) \/ o = NBurn y c n \/
    exists caller, ((exists to, o = NTransferFrom caller c y to n) \/ o = NBurnFrom caller c n) /\
      (caller = y
       \/ (exists pre post, ops = pre ++ NApproveAll y caller c true :: post /\ ~ In (NApproveAll y caller c false) post)
       \/ (exists pre a post, ops = pre ++ NApprove a caller c n :: post /\
             (a = y \/ exists pre' post', pre = pre' ++ NApproveAll y a c true :: post' /\ ~ In (NApproveAll y a c false) post') /\
             (forall k, owner_of (run nstep (firstn k (NApprove a caller c n :: post)) (run nstep pre ninit)) c n = Some y) /\
             ~ In (NUnapprove y c n) post)).
  Proof.
    intros Hg s Hy Hch. apply along_app in Hg. destruct Hg as [Hg [Ho _]]. fold s in Ho.
    pose proof (run_WF _ _ Hg init_WF) as Hw. fold s in Hw.
    destruct (step_change s o c n y Hw Ho Hy Hch) as [[(ns & to & -> & Hin)|[->|(caller & Hau & Hop)]] _].
    - left. exists ns, to. split; [reflexivity|]. apply elem_of_list_In. exact Hin.
    - right. left. reflexivity.
    - right. right. exists caller. split; [exact Hop|].
      destruct (decide (caller = y)) as [->|Hcy]; [left; reflexivity|].
      apply C14_authorised_iff in Hau. destruct Hau as [Hown|[Ha|(z & Hz & Ha)]].
      + left. congruence.
      + right. right. destruct (C14_approval_is_current ops c n caller Hg Ha) as (pre & a & post & y' & E & Hy' & Hor & Hk & Hnu).
        assert (y' = y) as ->.
        { specialize (Hk (length post)). rewrite firstn_all in Hk.
          assert (Es : run nstep post (nstep (run nstep pre ninit) (NApprove a caller c n)) = s).
          { unfold s. rewrite E, run_app. reflexivity. }
          rewrite Es in Hk. congruence. }
        exists pre, a, post. split; [exact E|]. split; [|split; [|exact Hnu]].
        * destruct (decide (a = y)) as [->|Hne]; [left; reflexivity|right]. destruct Hor as [->|Hor]; [congruence|].
          apply C14_operator_is_current; [|congruence|exact Hor]. rewrite E in Hg. apply along_app in Hg. apply Hg.
        * intros [|k]; [exact Hy'|]. apply (Hk k).
      + right. left. assert (z = y) as -> by congruence. apply C14_operator_is_current; [exact Hg|congruence|exact Ha].
  Qed.
End props.

Section liveness.
  Variable cap mint_limit pallet : N.
  Notation nstep := (nstep cap mint_limit pallet).

  (** ** C62: can an owner always transfer? *)
  Lemma add_serials_ok ns : forall l, N.of_nat (length l) + N.of_nat (length ns) <= cap -> exists l', add_serials cap l ns = Some l'.
  Proof.
    induction ns as [|n ns IH]; intros l Hl; cbn [add_serials]; [eauto|]. cbn [length] in Hl.
    assert (Hlt : N.of_nat (length l) <? cap = true) by (apply N.ltb_lt; lia). rewrite Hlt.
    apply IH. rewrite (Permutation_length (sort_perm _)), app_length. cbn [length]. lia.
  Qed.
  Lemma add_existing_ok who ns t : (forall l, In (who, l) t -> N.of_nat (length l) + N.of_nat (length ns) <= cap) ->
    exists t', add_existing cap t who ns = Some t'.
  Proof.
    induction t as [|[o l] t IH]; intros Hl; cbn [add_existing]; [eauto|].
    destruct IH as [t' Et]; [intros k Hk; apply Hl; right; exact Hk|]. rewrite Et.
    destruct (N.eqb_spec o who) as [->|]; [|eauto].
    destruct (add_serials_ok ns l) as [l' El]; [apply Hl; left; reflexivity|]. rewrite El. eauto.
  Qed.
  Lemma filter_in_owner (t : list (N * list N)) who e : In e (List.filter (fun e => negb (fst e =? who)) t) -> In e t.
  Proof. intros H. apply List.filter_In in H. tauto. Qed.
  Lemma retain_other t who ns : forall y l, y <> who -> In (y, l) (fst (retain_first t who ns)) -> In (y, l) t.
  Proof.
    induction t as [|[o k] t IH]; intros y l Hne Hin; cbn [retain_first] in Hin; [destruct Hin|].
    destruct (N.eqb_spec o who) as [->|].
    - cbn [fst] in Hin. destruct Hin as [[= -> _]|Hin]; [congruence|right; exact Hin].
    - destruct (retain_first t who ns) as [r b]. cbn [fst] in *. destruct Hin as [E|Hin]; [left; exact E|right; apply (IH y l Hne Hin)].
  Qed.
  Lemma retain_length t who ns : length (fst (retain_first t who ns)) = length t.
  Proof.
    induction t as [|[o k] t IH]; cbn [retain_first]; [reflexivity|]. destruct (o =? who); [reflexivity|].
    destruct (retain_first t who ns) as [r b]. cbn in *. congruence.
  Qed.
  Lemma remove_other t who ns y l : y <> who -> In (y, l) (remove_user_tokens t who ns) -> In (y, l) t.
  Proof.
    intros Hne Hin. unfold remove_user_tokens in Hin. pose proof (retain_other t who ns y l Hne) as H.
    destruct (retain_first t who ns) as [r b]. cbn [fst] in H. destruct b; [apply filter_in_owner in Hin|]; auto.
  Qed.
  Lemma filter_length_le {A} (p : A -> bool) l : (length (List.filter p l) <= length l)%nat.
  Proof. induction l as [|a l IH]; cbn; [lia|]. destruct (p a); cbn; lia. Qed.
  Lemma remove_length t who ns : (length (remove_user_tokens t who ns) <= length t)%nat.
  Proof.
    unfold remove_user_tokens. pose proof (retain_length t who ns) as H. destruct (retain_first t who ns) as [r b].
    cbn [fst] in H. destruct b; [pose proof (filter_length_le (fun e => negb (fst e =? who)) r)|]; lia.
  Qed.

  (** With fewer ownership entries than the bound (in practice: fewer than a million accounts
      listed for the collection) and room in the receiver's list, an owner's transfer of an
      unlocked token of a transferable collection succeeds. *)
  Theorem C62_owner_can_transfer s c i n y to :
    colls s !! c = Some i -> c_transferable i = true -> owner_of s c n = Some y -> locks s !! (c, n) = None -> y <> to ->
    N.of_nat (length (c_toks i)) < cap ->
    (forall l, In (to, l) (c_toks i) -> N.of_nat (length l) < cap) ->
    is_ok (do_transfer cap s c [n] y to) = true.
  Proof.
    intros Hi Htr Hy Hl Hne Hcap Hroom. unfold do_transfer.
    assert (E1 : negb (y =? to) = true) by (apply negb_true_iff, N.eqb_neq; exact Hne). rewrite E1, Hi. cbn [of_opt rbind ensure].
    unfold owner_of in Hy. rewrite Hi in Hy. apply get_owner_own in Hy. apply is_owner_spec in Hy.
    assert (E2 : locked s c n = false). { unfold locked. rewrite Hl. reflexivity. }
    rewrite Htr. cbn [forallb rbind ensure]. rewrite Hy, E2. cbn [negb andb rbind ensure].
    assert (Ht : exists t, add_user_tokens cap (remove_user_tokens (c_toks i) y [n]) to [n] = Some t).
    { unfold add_user_tokens. destruct (existsb _ _) eqn:Ex.
      - apply add_existing_ok. intros l Hin. apply remove_other in Hin; [|congruence]. specialize (Hroom l Hin). cbn [length]. lia.
      - pose proof (remove_length (c_toks i) y [n]). assert (Hlt : N.of_nat (length (remove_user_tokens (c_toks i) y [n])) <? cap = true) by (apply N.ltb_lt; lia).
        rewrite Hlt. eauto. }
    destruct Ht as [t Et]. rewrite Et. reflexivity.
  Qed.

  (** The entries can be used up by anyone: [transfer] with an empty list of serials needs no
      token and adds an (empty) entry for any fresh receiver. *)
  Lemma remove_absent t who ns : who ∉ map fst t -> remove_user_tokens t who ns = t.
  Proof.
    intros Hni. unfold remove_user_tokens.
    assert (E : retain_first t who ns = (t, false)); [|rewrite E; reflexivity].
    induction t as [|[o k] t IH]; cbn [retain_first]; [reflexivity|]. cbn [map fst] in Hni. rewrite elem_of_cons in Hni.
    destruct (N.eqb_spec o who) as [->|]; [tauto|]. rewrite IH by tauto. reflexivity.
  Qed.
  Lemma spam s c i x a : colls s !! c = Some i -> c_transferable i = true -> x <> a ->
    x ∉ map fst (c_toks i) -> a ∉ map fst (c_toks i) -> N.of_nat (length (c_toks i)) < cap ->
    do_transfer cap s c [] x a = Ok (put s c (with_toks i (c_toks i ++ [(a, [])]))).
  Proof.
    intros Hi Htr Hxa Hx Ha Hcap. unfold do_transfer.
    assert (E1 : negb (x =? a) = true) by (apply negb_true_iff, N.eqb_neq; exact Hxa). rewrite E1, Hi. cbn [of_opt rbind ensure].
    rewrite Htr. cbn [forallb rbind ensure]. rewrite (remove_absent _ _ _ Hx). unfold add_user_tokens.
    assert (Ex : existsb (fun e => fst e =? a) (c_toks i) = false).
    { destruct (existsb _ _) eqn:Ex; [|reflexivity]. apply any_owner in Ex. contradiction. }
    rewrite Ex. assert (Hlt : N.of_nat (length (c_toks i)) <? cap = true) by (apply N.ltb_lt; lia). rewrite Hlt. reflexivity.
  Qed.
  Definition spam_ops (x c : N) (accs : list N) : list nop := map (fun a => NTransfer x c [] a) accs.
  Lemma spam_run x c accs : forall s i, colls s !! c = Some i -> c_transferable i = true ->
    NoDup accs -> x ∉ accs -> x ∉ map fst (c_toks i) -> (forall a, a ∈ accs -> a ∉ map fst (c_toks i)) ->
    N.of_nat (length (c_toks i)) + N.of_nat (length accs) <= cap ->
    run nstep (spam_ops x c accs) s = match accs with [] => s | _ => put s c (with_toks i (c_toks i ++ map (fun a => (a, [])) accs)) end.
  Proof.
    induction accs as [|a accs IH]; intros s i Hi Htr Hnd Hxa Hx Hfresh Hlen; [reflexivity|].
    cbn [spam_ops map]. change (run nstep (?o :: ?os) s) with (run nstep os (nstep s o)). cbn [length] in Hlen.
    apply NoDup_cons in Hnd. destruct Hnd as [Hna Hnd]. rewrite elem_of_cons in Hxa.
    set (i1 := with_toks i (c_toks i ++ [(a, [])])). set (s1 := put s c i1).
    assert (Es : nstep s (NTransfer x c [] a) = s1).
    { unfold NftModel.nstep. cbn [nexec]. rewrite (spam s c i x a); [reflexivity|assumption..| | | |].
      - intros ->. tauto.
      - assumption.
      - apply Hfresh. left.
      - lia. }
    rewrite Es. change (map (fun a0 => NTransfer x c [] a0) accs) with (spam_ops x c accs).
    rewrite (IH s1 i1).
    - destruct accs as [|b accs]; [reflexivity|]. unfold s1, i1, put, with_toks. cbn [colls c_toks c_owner c_max c_root c_next c_iss c_public c_mintable c_transferable c_burnable locks appr appr_all].
      rewrite insert_insert, <- app_assoc. reflexivity.
    - unfold s1, put. cbn [colls]. apply lookup_insert.
    - exact Htr.
    - exact Hnd.
    - tauto.
    - unfold i1. cbn [with_toks c_toks]. rewrite map_app, elem_of_app. cbn. rewrite elem_of_list_singleton. tauto.
    - intros b Hb. unfold i1. cbn [with_toks c_toks]. rewrite map_app, elem_of_app. cbn. rewrite elem_of_list_singleton.
      intros [H| ->]; [|contradiction]. apply (Hfresh b); [right; exact Hb|exact H].
    - unfold i1. cbn [with_toks c_toks]. rewrite app_length. cbn [length]. lia.
  Qed.
  (** For every bound, an outsider [x] who owns nothing can bring a collection into a state in
      which an owner of two tokens can send them to no account outside the listed ones. *)
  Theorem C62_outsider_blocks_transfers_refuted : 2 <= cap -> 2 <= mint_limit ->
    forall victim x, victim <> x -> exists accs,
    let s0 := nstep ninit (NCreate 1 victim 2 None victim true) in
    let s := run nstep (spam_ops x 1 accs) s0 in
    owner_of s 1 0 = Some victim /\ locks s !! (1, 0) = None /\
    forall to, to <> victim -> ~ In to accs -> do_transfer cap s 1 [0] victim to = Err 5.
  Proof.
    intros Hc Hm v x Hvx.
    assert (Hs0 : nstep ninit (NCreate 1 v 2 None v true)
                  = put ninit 1 (Coll v None true 2 2 [(v, serials 0 2)] false true true true)).
    { unfold NftModel.nstep. cbn [nexec]. unfold create. rewrite bool_decide_true by reflexivity.
      assert (E1 : 2 <=? mint_limit = true) by (apply N.leb_le; exact Hm).
      assert (E2 : 2 <=? cap = true) by (apply N.leb_le; exact Hc). rewrite E1, E2. reflexivity. }
    set (i := Coll v None true 2 2 [(v, serials 0 2)] false true true true) in *.
    (* cap - 1 accounts different from v and x *)
    set (accs := map (fun k => N.max v x + 1 + N.of_nat k) (seq 0 (N.to_nat (cap - 1)))).
    assert (Hin : forall a, a ∈ accs -> N.max v x < a).
    { intros a Ha. apply elem_of_list_In, in_map_iff in Ha. destruct Ha as (k & <- & _). lia. }
    assert (Hlen : length accs = N.to_nat (cap - 1)) by (unfold accs; rewrite map_length, seq_length; reflexivity).
    assert (Hnd : NoDup accs).
    { unfold accs. apply NoDup_ListNoDup. apply FinFun.Injective_map_NoDup; [intros a b; lia|apply seq_NoDup]. }
    exists accs. cbv zeta. rewrite Hs0.
    assert (Hi : colls (put ninit 1 i) !! 1 = Some i) by (unfold put; cbn [colls]; apply lookup_insert).
    assert (Hrun : run nstep (spam_ops x 1 accs) (put ninit 1 i) = put ninit 1 (with_toks i (c_toks i ++ map (fun a => (a, [])) accs))).
    { rewrite (spam_run x 1 accs (put ninit 1 i) i Hi eq_refl Hnd).
      - destruct accs as [|a accs']; [cbn in Hlen; lia|]. unfold put. cbn [colls locks appr appr_all]. rewrite insert_insert. reflexivity.
      - intros Hx. apply Hin in Hx. lia.
      - cbn. rewrite elem_of_list_singleton. congruence.
      - intros a Ha Hv. cbn in Hv. apply elem_of_list_singleton in Hv. subst. apply Hin in Ha. lia.
      - cbn [i c_toks length]. rewrite Hlen. lia. }
    rewrite Hrun. set (t := c_toks i ++ map (fun a => (a, [])) accs). set (s := put ninit 1 (with_toks i t)).
    assert (Hs : colls s !! 1 = Some (with_toks i t)) by (unfold s, put; cbn [colls]; apply lookup_insert).
    split; [|split].
    - unfold owner_of. rewrite Hs. reflexivity.
    - reflexivity.
    - intros to Hto Hna. unfold do_transfer.
      assert (E1 : negb (v =? to) = true) by (apply negb_true_iff, N.eqb_neq; congruence). rewrite E1, Hs. cbn [of_opt rbind ensure].
      change (c_transferable (with_toks i t)) with true. cbn [forallb rbind ensure].
      change (c_toks (with_toks i t)) with t.
      assert (E2 : is_token_owner t v 0 = true).
      { unfold t. cbn. rewrite N.eqb_refl. reflexivity. }
      assert (E3 : locked s 1 0 = false) by reflexivity.
      rewrite E2, E3. cbn [negb andb rbind ensure].
      assert (E4 : remove_user_tokens t v [0] = (v, [1]) :: map (fun a => (a, [])) accs).
      { unfold remove_user_tokens, t. cbn [i c_toks app retain_first]. rewrite N.eqb_refl. reflexivity. }
      rewrite E4. unfold add_user_tokens.
      assert (E5 : existsb (fun e : N * list N => fst e =? to) ((v, [1]) :: map (fun a => (a, [])) accs) = false).
      { destruct (existsb _ _) eqn:Ex; [|reflexivity]. apply any_owner in Ex. cbn [map fst] in Ex.
        apply elem_of_cons in Ex. destruct Ex as [->|Ex]; [congruence|]. rewrite map_map in Ex. cbn in Ex. rewrite map_id in Ex.
        apply elem_of_list_In in Ex. contradiction. }
      rewrite E5. cbn [length]. rewrite map_length, Hlen.
      assert (E6 : N.of_nat (S (N.to_nat (cap - 1))) <? cap = false) by (apply N.ltb_ge; lia). rewrite E6. reflexivity.
  Qed.

  (** ** C63: safe transfers *)
  (** With a receiver that has no code or makes no calls of its own, only an authorised caller can
      succeed, only for the actual owner, and only if the receiver answers with the selector. *)
  Theorem C63_safe_transfer_passive s caller c from to n cb s' : WF s ->
    safe_transfer_from cap mint_limit pallet s caller c from to n cb = Ok s' ->
    match cb with
    | None => True
    | Some (calls, ok, out) => calls = [] -> ok = true /\ firstn 4 out = on_received_selector
    end /\
    (match cb with None => True | Some (calls, _, _) => calls = [] end ->
    is_approved_or_owner s c n caller = true /\
    owner_of s c n = Some from /\ owner_of s' c n = Some to /\ appr s' !! (c, n) = None).
  Proof.
    intros Hw E. unfold safe_transfer_from in E. inv_ok.
    match goal with H : match cb with _ => _ end = Ok _ |- _ => rename H into Hcb end.
    rename v into s1.
    assert (H : match cb with
      | None => s1 = s
      | Some (calls, ok, out) => ok = true /\ firstn 4 out = on_received_selector /\ (calls = [] -> s1 = s) end).
    { destruct cb as [[[calls ok] out]|]; [|injection Hcb as <-; reflexivity].
      destruct ok; [|discriminate]. destruct (Nat.ltb (length out) 4); [discriminate|].
      destruct (bool_decide (firstn 4 out = on_received_selector)) eqn:Eb; [|discriminate]. injection Hcb as <-.
      apply bool_decide_eq_true in Eb. split; [reflexivity|]. split; [exact Eb|]. intros ->. reflexivity. }
    split; [destruct cb as [[[calls ok] out]|]; [intros _; tauto|exact I]|]. intros Hno.
    assert (s1 = s) as -> by (destruct cb as [[[calls ok] out]|]; [apply H; exact Hno|exact H]).
    apply transfer_spec in E; [|first [assumption|apply NoDup_singleton]..].
    destruct E as (Hw' & _ & Hpre & Ho & _ & _ & Ha & _). split; [assumption|].
    destruct (Hpre n ltac:(left)) as [Hf _]. split; [apply owner_owns; assumption|]. split.
    - apply owner_owns; [exact Hw'|]. apply Ho. rewrite decide_True; [reflexivity|]. split; [reflexivity|left].
    - rewrite Ha, decide_True; [reflexivity|]. split; [reflexivity|left].
  Qed.
  (** A receiver contract whose fallback accepts the call and answers with fewer than four bytes
      makes the slice [output[..4]] panic - for every state and token. *)
  Theorem C63_short_answer_panics s caller c from to n calls :
    is_approved_or_owner s c n caller = true ->
    safe_transfer_from cap mint_limit pallet s caller c from to n (Some (calls, true, [])) = Err 99.
  Proof. intros Ha. unfold safe_transfer_from. rewrite Ha. reflexivity. Qed.
End liveness.

(** ** Witnesses *)
Notation run1 := (run (nstep 1000000 1000 77)).
(** [transfer] with the same serial twice: the receiver's list holds the serial twice and its
    balance is 2 while one token exists. *)
Theorem C15_duplicate_serials_refuted : exists ops c y,
  match colls (run1 ops ninit) !! c with
  | Some i => token_balance (c_toks i) y = 2 /\ c_iss i = 1 /\ c_toks i = [(y, [0; 0])]
  | None => False end.
Proof. exists [NCreate 1 10 1 None 10 true; NTransfer 10 1 [0; 0] 20], 1, 20. vm_compute. auto. Qed.
(** A bridged mint into a collection that also mints natively: the native mint then hands out a
    serial that exists, giving one token two owners. *)
Theorem C15_bridged_root_refuted : exists ops c n y z, y <> z /\
  match colls (run1 ops ninit) !! c with
  | Some i => is_token_owner (c_toks i) y n = true /\ is_token_owner (c_toks i) z n = true
  | None => False end.
Proof. exists [NCreate 1 10 1 None 10 true; NBridge 20 1 [1]; NMint 10 1 1 30 true], 1, 1, 20, 30. split; [discriminate|]. vm_compute. auto. Qed.
(** ... and brings back a serial the mint call had issued and that was burned. *)
Theorem C17_bridged_root_refuted : exists ops c n,
  owner_of (run1 (firstn 1 ops) ninit) c n <> None /\ owner_of (run1 (firstn 2 ops) ninit) c n = None /\
  owner_of (run1 ops ninit) c n <> None.
Proof. exists [NCreate 1 10 1 None 10 true; NBurn 10 1 0; NBridge 20 1 [0]], 1, 0. vm_compute. repeat split; discriminate. Qed.
(** A bridged collection claimed by an account that then declares a maximum of 1 grows past it. *)
Theorem C16_bridged_mint_refuted : exists ops c,
  match colls (run1 ops ninit) !! c with
  | Some i => c_max i = Some 1 /\ c_iss i = 3 /\ c_root i = false
  | None => False end.
Proof.
  exists [NCreate 1 77 0 None 77 false; NBridge 20 1 [5]; NClaim 1 30; NSetMax 30 1 1; NBridge 21 1 [6; 7]], 1.
  vm_compute. auto.
Qed.
(** Re-entrancy: the authorisation of [safeTransferFrom] is checked before the receiver runs and
    [from] only afterwards.  The attacker owns token 0 and trusts its contract 30.  It calls
    [safeTransferFrom] with [from] set to the victim 20; in the callback the contract hands the
    token to the victim, and the call then takes it away from the victim, who approved nobody. *)
Theorem C63_reentrant_receiver_refuted : exists setup caller c n victim receiver calls out,
  let s := run1 setup ninit in
  (forall o, In o (setup ++ calls) -> match o with
     | NApprove a _ _ _ | NApproveAll a _ _ _ => a <> victim
     | NTransfer a _ _ _ | NBurn a _ _ | NTransferFrom a _ _ _ _ | NBurnFrom a _ _ => a <> victim
     | _ => True end) /\ caller <> victim /\
  owner_of (run1 calls s) c n = Some victim /\
  match safe_transfer_from 1000000 1000 77 s caller c victim receiver n (Some (calls, true, out)) with
  | Ok s' => owner_of s' c n = Some receiver
  | Err _ => False end.
Proof.
  exists [NCreate 1 10 1 None 10 true; NApproveAll 10 30 1 true], 10, 1, 0, 20, 30, [NTransferFrom 30 1 10 20 0], [21; 11; 122; 2].
  split; [|split; [discriminate|split; vm_compute; reflexivity]].
  intros o [<-|[<-|[<-|[]]]]; [exact I|discriminate|discriminate].
Qed.

(** The panic is reachable by an owner's own call, with an ordinary contract wallet as receiver. *)
Theorem C63_panic_refuted : exists setup caller c n to out,
  let s := run1 setup ninit in owner_of s c n = Some caller /\
  safe_transfer_from 1000000 1000 77 s caller c caller to n (Some ([], true, out)) = Err 99.
Proof. exists [NCreate 1 10 1 None 10 true], 10, 1, 0, 30, [1; 2; 3]. vm_compute. auto. Qed.

(** ** Concrete cases meeting the hypotheses *)
Definition ex_ops : list nop :=
  [NCreate 1 10 2 (Some 5) 10 true; NMint 10 1 2 20 true; NApprove 10 40 1 0; NApproveAll 20 50 1 true;
   NTransferFrom 40 1 10 60 0; NBurnFrom 50 1 2; NLock 20 1 3 9; NTransfer 20 1 [3] 60; NMint 10 1 1 10 true].
Example ex_good : along (nstep 1000000 1000 77) (good16) ex_ops ninit.
Proof.
  unfold ex_ops. cbn [along]. repeat split.
Qed.
Example ex_neat : along (nstep 1000000 1000 77) (fun s o => good s o /\ neat o) ex_ops ninit.
Proof.
  unfold ex_ops. cbn [along]. repeat split. apply NoDup_singleton.
Qed.
(** A repeated serial meets the hypotheses of all but the balances. *)
Example ex_repeat : let ops := [NCreate 1 10 2 None 10 true; NTransfer 10 1 [0; 0] 20; NTransfer 20 1 [0] 30; NBurn 30 1 0] in
  along (nstep 1000000 1000 77) good16 ops ninit /\ map (owner_of (run1 (firstn 3 ops) ninit) 1) [0; 1] = [Some 30; Some 10] /\
  map (owner_of (run1 ops ninit) 1) [0; 1] = [None; Some 10].
Proof. cbv zeta. split; [cbn [along]; repeat split|]. vm_compute. auto. Qed.
Example ex_owners : map (owner_of (run1 ex_ops ninit) 1) [0; 1; 2; 3; 4; 5] = [Some 60; Some 10; None; Some 20; Some 10; None].
Proof. vm_compute. reflexivity. Qed.
Example ex_locked : locks (run1 ex_ops ninit) !! (1, 3) = Some 9 /\ appr (run1 ex_ops ninit) !! (1, 0) = None.
Proof. vm_compute. auto. Qed.
Example ex_issuance : match colls (run1 ex_ops ninit) !! 1 with Some i => c_iss i = 4 /\ c_next i = 5 /\ c_max i = Some 5 | None => False end.
Proof. vm_compute. auto. Qed.
Example ex_cap_reached : is_ok (mint 1000000 1000 (run1 ex_ops ninit) 10 1 1 10 true) = false.
Proof. vm_compute. reflexivity. Qed.
Example ex_safe_passive : match safe_transfer_from 1000000 1000 77 (run1 ex_ops ninit) 60 1 60 70 0 (Some ([], true, [21; 11; 122; 2; 0])) with
  | Ok s => owner_of s 1 0 = Some 70 | Err _ => False end.
Proof. vm_compute. reflexivity. Qed.

Print Assumptions C14_authorised_iff.
Print Assumptions C14_approval_is_current.
Print Assumptions C14_operator_is_current.
Print Assumptions C14_only_with_consent.
Print Assumptions C15_unique_owner.
Print Assumptions C15_counts.
Print Assumptions C15_balances_partial.
Print Assumptions C15_transfer_moves_exactly.
Print Assumptions C16_max_issuance.
Print Assumptions C16_max_fixed.
Print Assumptions C17_never_reissued.
Print Assumptions C17_mint_fresh.
Print Assumptions C17_mints_disjoint.
Print Assumptions C18_locked_immovable.
Print Assumptions C18_locked_calls_fail.
Print Assumptions C62_owner_can_transfer.
Print Assumptions C62_outsider_blocks_transfers_refuted.
Print Assumptions C63_safe_transfer_passive.
Print Assumptions C63_short_answer_panics.
Print Assumptions C63_panic_refuted.
Print Assumptions C63_reentrant_receiver_refuted.
