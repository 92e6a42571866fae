(** Who may change the settings of NFT and SFT collections, and what the settings stop (C100, C101). *)
From Verif Require Import NftModel SftModel NftProofs NftProps SftProofs SftProps.
Notation nquiet := NftProps.quiet.

(** ** NFT collections *)
(** What an owner decides about a collection. *)
Definition settings (i : coll) := (c_owner i, c_max i, c_root i, (c_public i, c_mintable i, c_transferable i, c_burnable i)).

Section nfts.
  Variable cap mint_limit pallet : N.
  Notation nexec := (nexec cap mint_limit pallet).
  Notation nstep := (nstep cap mint_limit pallet).

  Lemma do_mint_settings s c i to ns s' : do_mint cap s c i to ns = Ok s' ->
    exists j, s' = put s c j /\ settings j = settings i.
  Proof. intros E. unfold do_mint in E. inv_ok. subst s'. eexists. split; [reflexivity|]. reflexivity. Qed.
  Lemma do_transfer_settings s c ns from to s' : do_transfer cap s c ns from to = Ok s' ->
    exists i j, colls s !! c = Some i /\ colls s' = <[c := j]> (colls s) /\ settings j = settings i.
  Proof. intros E. unfold do_transfer in E. inv_ok. subst s'. eexists _, _. split; [eassumption|]. split; reflexivity. Qed.
  Lemma do_burn_settings s who c n s' : do_burn s who c n = Ok s' ->
    exists i j, colls s !! c = Some i /\ colls s' = <[c := j]> (colls s) /\ settings j = settings i.
  Proof. intros E. unfold do_burn in E. inv_ok. subst s'. eexists _, _. split; [eassumption|]. split; reflexivity. Qed.

  (** ** C100 *)
  (** The owner, the maximum, the public mint switch and the utility flags of a collection only
      change by a call of its owner (or of the chain's root for a collection owned by the NFT
      pallet), a maximum can only be set once and not below what exists, and nothing else about
      the collection changes with it. *)
  Inductive nft_change (o : nop) (c : N) (i : coll) : coll -> Prop :=
  | NKept i' : settings i' = settings i -> nft_change o c i i'
  | NHanded new : o = NSetOwner (c_owner i) c new -> nft_change o c i (with_owner i new)
  | NClaimed new : o = NClaim c new -> c_owner i = pallet -> nft_change o c i (with_owner i new)
  | NLimited m : o = NSetMax (c_owner i) c m -> c_max i = None -> 0 < m -> c_iss i <= m -> nft_change o c i (with_max i (Some m))
  | NSwitched p m t b : o = NSetFlags (c_owner i) c p m t b -> nft_change o c i (with_flags i p m t b).
  Theorem C100_nft_settings : forall s o s' c i, nexec s o = Ok s' -> colls s !! c = Some i ->
    exists i', colls s' !! c = Some i' /\ nft_change o c i i'.
  Proof.
    intros s o s' c i E Hc.
    assert (Hsame : colls s' = colls s -> exists i', colls s' !! c = Some i' /\ nft_change o c i i').
    { intros ->. exists i. split; [exact Hc|apply NKept; reflexivity]. }
    assert (Hput : forall d k j, colls s !! d = Some k -> colls s' = <[d := j]> (colls s) -> settings j = settings k ->
      exists i', colls s' !! c = Some i' /\ nft_change o c i i').
    { intros d k j Hd -> Hj. destruct (N.eq_dec d c) as [->|Hne].
      - exists j. rewrite lookup_insert. split; [reflexivity|]. apply NKept. congruence.
      - exists i. rewrite lookup_insert_ne by exact Hne. split; [exact Hc|apply NKept; reflexivity]. }
    assert (Hone : forall d k j, colls s !! d = Some k -> colls s' = <[d := j]> (colls s) -> (d = c -> nft_change o c k j) ->
      exists i', colls s' !! c = Some i' /\ nft_change o c i i').
    { intros d k j Hd -> Hj. destruct (N.eq_dec d c) as [->|Hne].
      - exists j. rewrite lookup_insert. split; [reflexivity|]. assert (k = i) as <- by congruence. apply Hj. reflexivity.
      - exists i. rewrite lookup_insert_ne by exact Hne. split; [exact Hc|apply NKept; reflexivity]. }
    destruct o; cbn [NftModel.nexec] in E.
    - unfold create in E. inv_ok. subst s'. exists i. cbn. rewrite lookup_insert_ne; [split; [exact Hc|apply NKept; reflexivity]|]. intros ->.
      match goal with H : bool_decide _ = true |- _ => apply bool_decide_eq_true in H; congruence end.
    - unfold mint in E. inv_ok. rename v into k. subst s'.
      match goal with H : do_mint _ _ _ _ _ _ = Ok _ |- _ => apply do_mint_settings in H; destruct H as (j & -> & Hj) end.
      eapply (Hput c0); [eassumption|reflexivity|exact Hj].
    - unfold mint_bridged in E. destruct ns; [injection E as <-; apply Hsame; reflexivity|].
      destruct (colls s !! c0) as [k|] eqn:Ek; [|injection E as <-; apply Hsame; reflexivity].
      destruct (_ <=? cap) in E; [|injection E as <-; apply Hsame; reflexivity].
      apply do_mint_settings in E. destruct E as (j & -> & Hj). eapply (Hput c0); [exact Ek|reflexivity|exact Hj].
    - apply do_transfer_settings in E. destruct E as (k & j & Hk & Ej & Hj). exact (Hput _ _ _ Hk Ej Hj).
    - apply do_burn_settings in E. destruct E as (k & j & Hk & Ej & Hj). exact (Hput _ _ _ Hk Ej Hj).
    - unfold transfer_from in E. inv_ok. apply do_transfer_settings in E. destruct E as (k & j & Hk & Ej & Hj). exact (Hput _ _ _ Hk Ej Hj).
    - unfold burn_from in E. inv_ok. apply do_burn_settings in E. destruct E as (k & j & Hk & Ej & Hj). exact (Hput _ _ _ Hk Ej Hj).
    - unfold set_max in E. inv_ok. rename v into k. subst s'. eapply (Hone c0); [eassumption|reflexivity|]. intros ->.
      match goal with H : (c_owner k =? who) = true |- _ => apply N.eqb_eq in H; subst who end.
      match goal with H : negb (m =? 0) = true |- _ => apply negb_true_iff, N.eqb_neq in H; rename H into Hm end.
      match goal with H : (c_iss k <=? m) = true |- _ => apply N.leb_le in H; rename H into Hi end.
      apply NLimited; [reflexivity| |lia|exact Hi]. destruct (c_max k); [discriminate|reflexivity].
    - unfold set_owner in E. inv_ok. rename v into k. subst s'. eapply (Hone c0); [eassumption|reflexivity|]. intros ->.
      match goal with H : (c_owner k =? who) = true |- _ => apply N.eqb_eq in H; subst who end. apply NHanded. reflexivity.
    - unfold claim in E. inv_ok. rename v into k. subst s'. eapply (Hone c0); [eassumption|reflexivity|]. intros ->.
      match goal with H : (c_owner k =? pallet) = true |- _ => apply N.eqb_eq in H; apply NClaimed; [reflexivity|exact H] end.
    - unfold set_flags in E. inv_ok. rename v into k. subst s'. eapply (Hone c0); [eassumption|reflexivity|]. intros ->.
      match goal with H : (c_owner k =? who) = true |- _ => apply N.eqb_eq in H; subst who end. apply NSwitched. reflexivity.
    - unfold lock in E. inv_ok. subst s'. apply Hsame. reflexivity.
    - injection E as <-. apply Hsame. reflexivity.
    - unfold approve in E. inv_ok. subst s'. apply Hsame. reflexivity.
    - unfold unapprove in E. inv_ok. subst s'. apply Hsame. reflexivity.
    - unfold approve_all in E. inv_ok. subst s'. apply Hsame. reflexivity.
  Qed.

  (** ** C101 *)
  (** A token of a collection that is not transferable never goes from one account to another. *)
  Lemma locked_in s o c i n y : WF s -> good s o -> colls s !! c = Some i -> c_transferable i = false -> owner_of s c n = Some y ->
    owner_of (nstep s o) c n = Some y \/ owner_of (nstep s o) c n = None /\ c_burnable i = true.
  Proof.
    intros Hw Hg Hc Ht Ho. destruct (decide (owner_of (nstep s o) c n = Some y)) as [|Hch]; [auto|]. right.
    assert (Hnt : forall ns from to, is_ok (do_transfer cap s c ns from to) = false).
    { intros ns from to. unfold do_transfer. destruct (negb _); [|reflexivity]. cbn [ensure rbind]. rewrite Hc. cbn [of_opt rbind]. rewrite Ht. reflexivity. }
    destruct (step_change cap mint_limit pallet s o c n y Hw Hg Ho Hch) as [H _].
    destruct H as [(ns & to & -> & _)|[->|(caller & Hau & [(to & ->)| ->])]].
    - exfalso. apply Hch. specialize (Hnt ns y to). unfold NftModel.nstep. cbn [NftModel.nexec]. destruct (do_transfer _ _ _ _ _ _); [discriminate|exact Ho].
    - unfold NftModel.nstep in *. cbn [NftModel.nexec] in *. destruct (do_burn s y c n) as [s'|] eqn:E; cbn [commit] in *; [|congruence].
      pose proof (burn_spec _ _ _ _ _ Hw E) as H. unfold do_burn in E. inv_ok. rename v into k.
      match goal with H : colls s !! c = Some k |- _ => rewrite Hc in H; injection H as <- end.
      split; [|assumption]. apply owner_none; [apply H|]. intros z Hz. apply H in Hz. rewrite decide_True in Hz by auto. exact Hz.
    - exfalso. apply Hch. specialize (Hnt [n] y to). unfold NftModel.nstep. cbn [NftModel.nexec]. unfold transfer_from. rewrite Hau. cbn [ensure rbind].
      destruct (do_transfer _ _ _ _ _ _); [discriminate|exact Ho].
    - unfold NftModel.nstep in *. cbn [NftModel.nexec] in *. unfold burn_from in *. rewrite Hau, Ho in *. cbn [ensure of_opt rbind] in *.
      destruct (do_burn s y c n) as [s'|] eqn:E; cbn [commit] in *; [|congruence].
      pose proof (burn_spec _ _ _ _ _ Hw E) as H. unfold do_burn in E. inv_ok. rename v into k.
      match goal with H : colls s !! c = Some k |- _ => rewrite Hc in H; injection H as <- end.
      split; [|assumption]. apply owner_none; [apply H|]. intros z Hz. apply H in Hz. rewrite decide_True in Hz by auto. exact Hz.
  Qed.
  Theorem C101_nft_transfers_off : forall ops o c i n y, along nstep good (ops ++ [o]) ninit ->
    let s := run nstep ops ninit in
    colls s !! c = Some i -> c_transferable i = false -> owner_of s c n = Some y ->
    owner_of (nstep s o) c n = Some y \/ owner_of (nstep s o) c n = None /\ c_burnable i = true.
  Proof.
    intros ops o c i n y Hg s Hc Ht Ho. apply along_app in Hg. destruct Hg as [Hg [Hgo _]]. fold s in Hgo.
    apply locked_in; try assumption. unfold s. apply run_WF; [exact Hg|apply init_WF].
  Qed.
  (** No token of a collection that is not burnable disappears. *)
  Theorem C101_nft_burns_off : forall ops o c i n y, along nstep good (ops ++ [o]) ninit ->
    let s := run nstep ops ninit in
    colls s !! c = Some i -> c_burnable i = false -> owner_of s c n = Some y -> exists z, owner_of (nstep s o) c n = Some z.
  Proof.
    intros ops o c i n y Hg s Hc Hb Ho. apply along_app in Hg. destruct Hg as [Hg [Hgo _]]. fold s in Hgo.
    pose proof (run_WF _ _ _ _ _ Hg init_WF) as Hw. fold s in Hw. clearbody s. clear Hg ops. pose proof (step_WF cap mint_limit pallet s o Hgo Hw) as Hw'.
    assert (Hys : owns s c y n) by (apply owner_owns; assumption).
    assert (Hnb : forall who m, is_ok (do_burn s who c m) = false).
    { intros who m. unfold do_burn. destruct (negb _); [|reflexivity]. cbn [ensure rbind]. rewrite Hc. cbn [of_opt rbind]. rewrite Hb. reflexivity. }
    destruct (step_effect cap mint_limit pallet s o Hw Hgo) as [(_ & Hq & _) _ _ _|d ns from to _ Hft Hpre He _ _ Ha _ Hop|d n0 who _ Hwho _ He _ _ Ha _ Hop|d to P _ He _ _ _ _ _ _ _ _].
    - exists y. apply owner_owns; [exact Hw'|]. apply Hq. exact Hys.
    - destruct (decide (c = d /\ n ∈ ns)) as [Hin|Hout].
      + exists to. apply owner_owns; [exact Hw'|]. apply He. rewrite decide_True by exact Hin. reflexivity.
      + exists y. apply owner_owns; [exact Hw'|]. apply He. rewrite decide_False by exact Hout. exact Hys.
    - exists y. destruct (N.eq_dec c d) as [->|Hne].
      + assert (Es : nstep s o = s); [|rewrite Es; exact Ho]. unfold NftModel.nstep. destruct Hop as [->|(caller & -> & Hau)]; cbn [NftModel.nexec].
        * specialize (Hnb who n0). destruct (do_burn s who d n0); [discriminate|reflexivity].
        * unfold burn_from. rewrite Hau. cbn [ensure rbind]. destruct (owner_of s d n0) as [z|]; [|reflexivity]. cbn [of_opt rbind].
          specialize (Hnb z n0). destruct (do_burn s z d n0); [discriminate|reflexivity].
      + apply owner_owns; [exact Hw'|]. apply He. rewrite decide_False by tauto. exact Hys.
    - exists y. apply owner_owns; [exact Hw'|]. apply He. left. exact Hys.
  Qed.
  (** New tokens of an existing collection only appear by bridging or by a mint that is switched on
      and made by the owner or open to the public. *)
  Theorem C101_nft_mints : forall ops o c i n y, along nstep good (ops ++ [o]) ninit ->
    let s := run nstep ops ninit in
    colls s !! c = Some i -> owner_of s c n = None -> owner_of (nstep s o) c n = Some y ->
    (exists ns, o = NBridge y c ns /\ n ∈ ns) \/
    exists who q e, o = NMint who c q y e /\ c_mintable i = true /\ (who = c_owner i \/ c_public i = true).
  Proof.
    intros ops o c i n y Hg s Hc Ho Ho'. apply along_app in Hg. destruct Hg as [Hg [Hgo _]]. fold s in Hgo.
    pose proof (run_WF _ _ _ _ _ Hg init_WF) as Hw. fold s in Hw. clearbody s. clear Hg ops. pose proof (step_WF cap mint_limit pallet s o Hgo Hw) as Hw'.
    pose proof (proj1 (owner_none s c n Hw) Ho) as Hno. apply owner_owns in Ho'; [|exact Hw'].
    destruct (step_effect cap mint_limit pallet s o Hw Hgo) as [(_ & Hq & _) _ _ _|d ns from to _ Hft Hpre He _ _ Ha _ Hop|d n0 who _ Hwho _ He _ _ Ha _ Hop|d to P _ He _ _ _ _ _ _ _ Hop].
    - exfalso. apply Hq in Ho'. exact (Hno _ Ho').
    - exfalso. apply He in Ho'. destruct (decide (c = d /\ n ∈ ns)) as [[-> Hin]|_]; [|exact (Hno _ Ho')]. destruct (Hpre n Hin) as [H _]. exact (Hno _ H).
    - exfalso. apply He in Ho'. destruct (decide _) in Ho'; [exact Ho'|exact (Hno _ Ho')].
    - pose proof Ho' as Hnew. apply He in Ho'. destruct Ho' as [Ho'|(-> & -> & HP)]; [exfalso; exact (Hno _ Ho')|].
      destruct Hop as [(ow & ini & m & r & ->)|[(who & q & e & ->)|(ns & -> & Hns)]].
      + exfalso. unfold NftModel.nstep in Hnew. cbn [NftModel.nexec] in Hnew. unfold create in Hnew. rewrite bool_decide_false in Hnew by congruence. cbn in Hnew. exact (Hno _ Hnew).
      + right. exists who, q, e. split; [reflexivity|]. unfold NftModel.nstep in Hnew. cbn [NftModel.nexec] in Hnew.
        destruct (mint cap mint_limit s who d q to e) as [s'|] eqn:E; cbn [commit] in Hnew; [|exfalso; exact (Hno _ Hnew)].
        unfold mint in E. inv_ok. rename v into k. match goal with H : colls s !! d = Some k |- _ => rewrite Hc in H; injection H as <- end.
        split; [assumption|]. match goal with H : pre_mint _ _ _ _ = Ok _ |- _ => unfold pre_mint in H end. inv_ok.
        match goal with H : (c_owner i =? who) || c_public i = true |- _ => apply orb_true_iff in H; destruct H as [H|H]; [left; apply N.eqb_eq in H; congruence|right; exact H] end.
      + left. exists ns. split; [reflexivity|]. apply Hns. exact HP.
  Qed.
  (** A collection without transfers and burns: every token stays with its holder until somebody
      changes the flags. *)
  Theorem C101_soulbound : forall ops1 ops2 c i n y, along nstep good (ops1 ++ ops2) ninit ->
    let s := run nstep ops1 ninit in
    colls s !! c = Some i -> c_transferable i = false -> c_burnable i = false -> owner_of s c n = Some y ->
    (forall who p m t b, NSetFlags who c p m t b ∉ ops2) -> owner_of (run nstep ops2 s) c n = Some y.
  Proof.
    intros ops1 ops2 c i n y Hg s Hc Ht Hb Ho Hno. apply along_app in Hg. destruct Hg as [Hg1 Hg2]. fold s in Hg2.
    pose proof (run_WF _ _ _ _ _ Hg1 init_WF) as Hw. fold s in Hw. clearbody s. clear Hg1 ops1.
    revert s i Hg2 Hw Hc Ht Hb Ho. induction ops2 as [|o ops IH]; intros s i Hg Hw Hc Ht Hb Ho; [exact Ho|]. destruct Hg as [Hgo Hg].
    change (run nstep (o :: ops) s) with (run nstep ops (nstep s o)).
    assert (Hi : exists j, colls (nstep s o) !! c = Some j /\ c_transferable j = false /\ c_burnable j = false).
    { unfold NftModel.nstep. destruct (nexec s o) as [s'|] eqn:E; cbn [commit]; [|eauto].
      destruct (C100_nft_settings s o s' c i E Hc) as (j & Hj & Hch). exists j. split; [exact Hj|].
      destruct Hch as [j Hset|new E1|new E1 _|m E1 _ _ _|p m t b ->]; [unfold settings in Hset; split; congruence|cbn; auto..|].
      exfalso. apply (Hno (c_owner i) p m t b). left. }
    destruct Hi as (j & Hj & Htj & Hbj). eapply (IH ltac:(intros; intros Hin; eapply Hno; right; exact Hin)); [exact Hg|apply step_WF; assumption|exact Hj|exact Htj|exact Hbj|].
    destruct (locked_in s o c i n y Hw Hgo Hc Ht Ho) as [|[_ H]]; [assumption|congruence].
  Qed.
End nfts.

(** ** SFT collections *)
Section sfts.
  Variable max_owners max_serials : N.
  Notation sexec := (sexec max_owners max_serials).
  Notation sstep := (sstep max_owners max_serials).

  Lemma each_frame f l s s' : (forall s e s', f s e = Ok s' -> scolls s' = scolls s /\ spub s' = spub s /\
      forall k, option_map t_max (stoks s' !! k) = option_map t_max (stoks s !! k)) ->
    each f l s = Ok s' -> scolls s' = scolls s /\ spub s' = spub s /\ forall k, option_map t_max (stoks s' !! k) = option_map t_max (stoks s !! k).
  Proof.
    intros Hf. revert s s'. induction l as [|e l IH]; intros s s' E; cbn [each] in E; [injection E as <-; auto|].
    apply rbind_ok in E. destruct E as (s1 & E1 & E2). apply Hf in E1. apply IH in E2. destruct E1 as (A1 & A2 & A3), E2 as (B1 & B2 & B3).
    split; [congruence|]. split; [congruence|]. intros k. rewrite B3. apply A3.
  Qed.
  Lemma put_frame s k t t' : stoks s !! k = Some t -> t_max t' = t_max t ->
    scolls (put_tok s k t') = scolls s /\ spub (put_tok s k t') = spub s /\ forall k', option_map t_max (stoks (put_tok s k t') !! k') = option_map t_max (stoks s !! k').
  Proof.
    intros Hk Hm. split; [reflexivity|]. split; [reflexivity|]. intros k'. unfold put_tok. cbn [stoks]. destruct (decide (k = k')) as [<-|Hne].
    - rewrite lookup_insert, Hk. cbn. congruence.
    - rewrite lookup_insert_ne by exact Hne. reflexivity.
  Qed.
  Lemma add_max t who x t' : add_balance max_owners t who x = Ok t' -> t_max t' = t_max t.
  Proof. unfold add_balance. intros E. destruct (find_bal _ _); inv_ok; subst t'; reflexivity. Qed.
  Lemma remove_max t who x t' : remove_balance t who x = Ok t' -> t_max t' = t_max t.
  Proof. unfold remove_balance. intros E. inv_ok; subst t'; reflexivity. Qed.
  Lemma mint_frame s b c to e s' : mint_one max_owners s b c to e = Ok s' ->
    scolls s' = scolls s /\ spub s' = spub s /\ forall k, option_map t_max (stoks s' !! k) = option_map t_max (stoks s !! k).
  Proof.
    destruct e as [n q]. unfold mint_one. intros E. inv_ok. subst s'. eapply put_frame; [eassumption|]. cbn.
    match goal with H : add_balance _ _ _ _ = Ok _ |- _ => exact (add_max _ _ _ _ H) end.
  Qed.
  Lemma transfer_frame s c who to e s' : transfer_one max_owners s c who to e = Ok s' ->
    scolls s' = scolls s /\ spub s' = spub s /\ forall k, option_map t_max (stoks s' !! k) = option_map t_max (stoks s !! k).
  Proof.
    destruct e as [n q]. unfold transfer_one. intros E. inv_ok. subst s'. eapply put_frame; [eassumption|].
    match goal with H : transfer_balance _ _ _ _ _ = Ok _ |- _ => unfold transfer_balance in H; destruct (who =? to); [injection H as <-; reflexivity|];
      apply rbind_ok in H; destruct H as (t1 & H1 & H2); apply add_max in H2; apply remove_max in H1; congruence end.
  Qed.
  Lemma burn_frame s c who e s' : burn_one s c who e = Ok s' ->
    scolls s' = scolls s /\ spub s' = spub s /\ forall k, option_map t_max (stoks s' !! k) = option_map t_max (stoks s !! k).
  Proof.
    destruct e as [n q]. unfold burn_one. intros E. inv_ok. subst s'. eapply put_frame; [eassumption|]. cbn.
    match goal with H : remove_balance _ _ _ = Ok _ |- _ => exact (remove_max _ _ _ _ H) end.
  Qed.

  (** The same for SFT collections; creating a token type also advances the next serial. *)
  Inductive sft_change (o : sop) (c : N) (i : scoll) : scoll -> Prop :=
  | SKept : sft_change o c i i
  | SHanded new : o = SSetOwner (sc_owner i) c new -> sft_change o c i (SColl new (sc_next i) (sc_mintable i) (sc_transferable i) (sc_burnable i))
  | SSwitched m t b : o = SSetFlags (sc_owner i) c m t b -> sft_change o c i (SColl (sc_owner i) (sc_next i) m t b)
  | SGrown init mx ow : o = SToken (sc_owner i) c init mx ow true -> sc_next i < U32MAX ->
      sft_change o c i (SColl (sc_owner i) (sc_next i + 1) (sc_mintable i) (sc_transferable i) (sc_burnable i)).
  (** One token type: its maximum is fixed unless its owner sets one where there was none. *)
  Inductive tok_change (o : sop) (c n owner : N) : option sft -> option sft -> Prop :=
  | TNone : tok_change o c n owner None None
  | TKept t t' : t_max t' = t_max t -> tok_change o c n owner (Some t) (Some t')
  | TLimited t m : o = SSetMax owner c n m -> t_max t = None -> 0 < m -> t_iss t <= m -> tok_change o c n owner (Some t) (Some (Sft (Some m) (t_iss t) (t_own t)))
  | TNew init mx ow t : o = SToken owner c init mx ow true -> t_max t = mx -> t_iss t = init ->
      (forall y, balof (t_own t) y = if y =? ow then (init, 0) else (0, 0)) -> tok_change o c n owner None (Some t).
  Lemma sft_settings : forall s o s' c i, fresh_serials s -> sexec s o = Ok s' -> scolls s !! c = Some i ->
    (exists i', scolls s' !! c = Some i' /\ sft_change o c i i') /\
    (forall n, tok_change o c n (sc_owner i) (stoks s !! (c, n)) (stoks s' !! (c, n))) /\
    (forall n, spub s' !! (c, n) = spub s !! (c, n) \/ exists b, o = SSetPublic (sc_owner i) c n b /\ spub s' !! (c, n) = Some b).
  Proof.
    intros s o s' c i Hfr E Hc.
    assert (Htok : forall n, option_map t_max (stoks s' !! (c, n)) = option_map t_max (stoks s !! (c, n)) -> tok_change o c n (sc_owner i) (stoks s !! (c, n)) (stoks s' !! (c, n))).
    { intros n Hn. destruct (stoks s !! (c, n)) as [t|], (stoks s' !! (c, n)) as [t'|]; cbn in Hn; try discriminate; [|constructor]. apply TKept. congruence. }
    assert (Hframe : (scolls s' = scolls s /\ spub s' = spub s /\ forall k, option_map t_max (stoks s' !! k) = option_map t_max (stoks s !! k)) ->
      (exists i', scolls s' !! c = Some i' /\ sft_change o c i i') /\
      (forall n, tok_change o c n (sc_owner i) (stoks s !! (c, n)) (stoks s' !! (c, n))) /\
      (forall n, spub s' !! (c, n) = spub s !! (c, n) \/ exists b, o = SSetPublic (sc_owner i) c n b /\ spub s' !! (c, n) = Some b)).
    { intros (H1 & H2 & H3). split; [exists i; rewrite H1; split; [exact Hc|constructor]|]. split; [intros n; apply Htok, H3|]. intros n. left. rewrite H2. reflexivity. }
    assert (Hcoll : forall d k j, scolls s !! d = Some k -> s' = put_coll s d j -> (d = c -> sft_change o c k j) ->
      (exists i', scolls s' !! c = Some i' /\ sft_change o c i i') /\
      (forall n, tok_change o c n (sc_owner i) (stoks s !! (c, n)) (stoks s' !! (c, n))) /\
      (forall n, spub s' !! (c, n) = spub s !! (c, n) \/ exists b, o = SSetPublic (sc_owner i) c n b /\ spub s' !! (c, n) = Some b)).
    { intros d k j Hd -> Hj. cbn. split; [|split; [intros n; apply Htok; reflexivity|intros n; left; reflexivity]]. destruct (N.eq_dec d c) as [->|Hne].
      - exists j. rewrite lookup_insert. split; [reflexivity|]. assert (k = i) as <- by congruence. apply Hj. reflexivity.
      - exists i. rewrite lookup_insert_ne by exact Hne. split; [exact Hc|constructor]. }
    destruct o; cbn [SftModel.sexec] in E.
    - unfold screate in E. inv_ok. subst s'. cbn. split; [|split; [intros n; apply Htok; reflexivity|intros n; left; reflexivity]].
      exists i. rewrite lookup_insert_ne; [split; [exact Hc|constructor]|]. intros ->.
      match goal with H : bool_decide _ = true |- _ => apply bool_decide_eq_true in H; congruence end.
    - unfold create_token in E. inv_ok. rename v into k. match goal with H : (who =? sc_owner k) = true |- _ => apply N.eqb_eq in H; subst who end.
      match goal with H : scolls s !! c0 = Some k |- _ => rename H into Hk end.
      subst ext_ok s'. cbn. split; [|split; [|intros n; left; reflexivity]].
      + destruct (N.eq_dec c0 c) as [->|Hne].
        * assert (k = i) as -> by congruence. eexists. rewrite lookup_insert. split; [reflexivity|]. eapply SGrown; [reflexivity|lia].
        * exists i. rewrite lookup_insert_ne by exact Hne. split; [exact Hc|constructor].
      + intros n. destruct (decide ((c0, sc_next k) = (c, n))) as [[= -> <-]|Hne].
        * assert (k = i) as -> by congruence. rewrite lookup_insert. destruct (stoks s !! (c, sc_next i)) as [t|] eqn:Et.
          { destruct (Hfr _ _ _ Et) as (j & Hj & Hjl). assert (j = i) as -> by congruence. lia. }
          eapply TNew; [reflexivity|reflexivity|reflexivity|]. intros y. cbn. unfold balof. destruct (N.ltb_spec 0 initial) as [Hi|Hi]; cbn [find_bal].
          { rewrite (N.eqb_sym owner y). destruct (y =? owner); reflexivity. }
          { assert (initial = 0) as -> by lia. destruct (y =? owner); reflexivity. }
        * apply Htok. cbn. rewrite lookup_insert_ne by exact Hne. reflexivity.
    - unfold smint in E. inv_ok. apply Hframe. eapply each_frame; [|eassumption]. intros ? ? ? H. exact (mint_frame _ _ _ _ _ _ H).
    - unfold stransfer in E. inv_ok. apply Hframe. eapply each_frame; [|eassumption]. intros ? ? ? H. exact (transfer_frame _ _ _ _ _ _ H).
    - unfold sburn in E. inv_ok. apply Hframe. eapply each_frame; [|eassumption]. intros ? ? ? H. exact (burn_frame _ _ _ _ _ H).
    - unfold sset_max in E. inv_ok. rename v into k, v0 into t. match goal with H : (sc_owner k =? who) = true |- _ => apply N.eqb_eq in H; subst who end.
      subst s'. cbn. split; [exists i; split; [exact Hc|constructor]|]. split; [|intros n0; left; reflexivity]. intros n0.
      match goal with H : stoks s !! (c0, n) = Some t |- _ => rename H into Ht end.
      destruct (decide ((c0, n) = (c, n0))) as [[= -> ->]|Hne].
      + match goal with H : scolls s !! c = Some k |- _ => assert (k = i) as -> by congruence end. rewrite lookup_insert, Ht.
        match goal with H : negb (m =? 0) = true |- _ => apply negb_true_iff, N.eqb_neq in H; rename H into Hm end.
        match goal with H : (t_iss t <=? m) = true |- _ => apply N.leb_le in H; rename H into Hi end.
        apply TLimited; [reflexivity|destruct (t_max t); [discriminate|reflexivity]|lia|exact Hi].
      + apply Htok. cbn. rewrite lookup_insert_ne by exact Hne. reflexivity.
    - unfold sset_owner in E. inv_ok. rename v into k. match goal with H : (sc_owner k =? who) = true |- _ => apply N.eqb_eq in H; subst who end.
      eapply (Hcoll c0); [eassumption|symmetry; eassumption|]. intros ->. apply SHanded. reflexivity.
    - unfold sset_flags in E. inv_ok. rename v into k. match goal with H : (sc_owner k =? who) = true |- _ => apply N.eqb_eq in H; subst who end.
      eapply (Hcoll c0); [eassumption|symmetry; eassumption|]. intros ->. apply SSwitched. reflexivity.
    - unfold sset_public in E. inv_ok. rename v into k. match goal with H : (sc_owner k =? who) = true |- _ => apply N.eqb_eq in H; subst who end.
      subst s'. cbn. split; [exists i; split; [exact Hc|constructor]|]. split; [intros n0; apply Htok; reflexivity|]. intros n0.
      destruct (decide ((c0, n) = (c, n0))) as [[= -> ->]|Hne]; [right|left; apply lookup_insert_ne; exact Hne].
      exists b. match goal with H : scolls s !! c = Some k |- _ => assert (k = i) as -> by congruence end. split; [reflexivity|apply lookup_insert].
    - unfold sreserve in E. inv_ok. subst s'. apply Hframe. eapply put_frame; [eassumption|].
      match goal with H : reserve_balance _ _ _ = Ok _ |- _ => unfold reserve_balance in H end. inv_ok. subst. reflexivity.
    - unfold sfree in E. inv_ok. subst s'. apply Hframe. eapply put_frame; [eassumption|].
      match goal with H : free_reserved _ _ _ = Ok _ |- _ => unfold free_reserved in H end. inv_ok. subst. reflexivity.
  Qed.

  Theorem C100_sft_settings : forall ops o s' c i, Forall sop_u128 ops -> let s := run sstep ops sinit in
    sexec s o = Ok s' -> scolls s !! c = Some i ->
    (exists i', scolls s' !! c = Some i' /\ sft_change o c i i') /\
    (forall n, tok_change o c n (sc_owner i) (stoks s !! (c, n)) (stoks s' !! (c, n))) /\
    (forall n, spub s' !! (c, n) = spub s !! (c, n) \/ exists b, o = SSetPublic (sc_owner i) c n b /\ spub s' !! (c, n) = Some b).
  Proof. intros ops o s' c i Hu s. apply sft_settings. apply (run_SInv max_owners max_serials ops Hu). Qed.

  (** ** C101 *)
  (** What an account holds (free and reserved) only falls by its own transfer or burn, and only
      rises by a transfer, a mint or the creation of the token type, each with its switch on. *)
  Theorem C101_sft : forall ops o s' c i n y, Forall sop_u128 (ops ++ [o]) -> let s := run sstep ops sinit in
    sexec s o = Ok s' -> scolls s !! c = Some i ->
    (tot (sbal s' c n y) < tot (sbal s c n y) ->
      (exists l to, o = STransfer y c l to /\ sc_transferable i = true) \/ exists l, o = SBurn y c l /\ sc_burnable i = true) /\
    (tot (sbal s c n y) < tot (sbal s' c n y) ->
      (exists from l, o = STransfer from c l y /\ sc_transferable i = true) \/
      (exists who l, o = SMint who c l y true /\ sc_mintable i = true /\ (who = sc_owner i \/ spub s !! (c, n) = Some true)) \/
      exists init mx, o = SToken (sc_owner i) c init mx y true).
  Proof.
    intros ops o s' c i n y Hu s E Hc. apply Forall_app in Hu. destruct Hu as [Hu Ho]. apply Forall_inv in Ho.
    pose proof (run_SInv max_owners max_serials ops Hu) as Hs. fold s in Hs. clearbody s. clear ops Hu.
    destruct (exec_spec max_owners max_serials s o s' Hs Ho E) as [_ Hm]. specialize (Hm c n y). destruct Hm as [Hm1 Hm2].
    unfold tot. destruct o; cbn [transferred received res_up res_down] in Hm1, Hm2; cbn [SftModel.sexec] in E; try (split; intros; exfalso; lia).
    - (* SToken *) split; [intros; exfalso; lia|]. intros Hlt. right. right.
      unfold create_token in E. inv_ok. rename v into k.
      match goal with H : scolls s !! c0 = Some k |- _ => rename H into Hk end. rewrite Hk in Hm1.
      destruct (N.eqb_spec c c0) as [<-|]; [|exfalso; cbn in Hm1; lia]. assert (k = i) as -> by congruence.
      match goal with H : (who =? sc_owner i) = true |- _ => apply N.eqb_eq in H; subst who end. subst ext_ok.
      destruct (N.eqb_spec y owner) as [<-|]; [|exfalso; rewrite andb_false_r in Hm1; lia]. eauto.
    - (* SMint *) split; [intros; exfalso; lia|]. intros Hlt. right. left.
      unfold smint in E. inv_ok. rename v into k. destruct (N.eqb_spec c c0) as [<-|]; [|exfalso; cbn in Hm1; lia].
      match goal with H : scolls s !! c = Some k |- _ => assert (k = i) as -> by congruence end.
      destruct (N.eqb_spec y owner) as [<-|]; [|exfalso; cbn in Hm1; lia]. cbn [andb] in Hm1. subst ext_ok. exists who, l. split; [reflexivity|]. split; [assumption|].
      match goal with H : each _ _ _ = Ok _ |- _ => destruct (mint_each_spec max_owners _ _ _ _ _ _ H (proj1 Hs)) as (_ & _ & _ & Hauth & _) end.
      assert (Hq : 0 < qty n l) by lia. assert (Hin : exists q, In (n, q) l).
      { clear - Hq. induction l as [|[m q] l IH]; [cbn in Hq; lia|]. rewrite qty_cons in Hq. destruct (N.eqb_spec m n) as [->|]; [exists q; left; reflexivity|].
        destruct IH as [q' H]; [lia|]. exists q'. right. exact H. }
      destruct Hin as [q Hin]. destruct (Hauth n q Hin) as [H|H]; [left; apply N.eqb_eq in H; congruence|right; exact H].
    - (* STransfer *) unfold stransfer in E. inv_ok. destruct (N.eqb_spec c c0) as [<-|]; [|cbn in Hm1; split; intros; exfalso; lia]. cbn [andb] in Hm1.
      match goal with H : flag sc_transferable s c = true |- _ => unfold flag in H; rewrite Hc in H end.
      split; intros Hlt.
      + destruct (N.eqb_spec y who) as [<-|]; [left; eauto|exfalso; destruct (y =? to); lia].
      + destruct (N.eqb_spec y to) as [<-|]; [left; eauto|exfalso; destruct (y =? who); lia].
    - (* SBurn *) unfold sburn in E. inv_ok. destruct (N.eqb_spec c c0) as [<-|]; [|cbn in Hm1; split; intros; exfalso; lia]. cbn [andb] in Hm1.
      match goal with H : flag sc_burnable s c = true |- _ => unfold flag in H; rewrite Hc in H end.
      split; intros Hlt; [|exfalso; lia]. right. destruct (N.eqb_spec y who) as [<-|]; [eauto|exfalso; lia].
  Qed.
End sfts.

(** ** Cases that meet the hypotheses *)
(** Collection 1 of account 10 with three tokens, one given to 20, then switched off. *)
Definition adm_ops : list nop := [NCreate 1 10 3 None 10 true; NTransfer 10 1 [2] 20; NSetFlags 10 1 true true false false].
(** The owner sets a maximum, everybody tries to move or destroy tokens, somebody else mints. *)
Definition adm_more : list nop :=
  [NSetMax 20 1 5; NSetMax 10 1 5; NTransfer 20 1 [2] 30; NBurn 20 1 2; NMint 44 1 1 44 true; NSetOwner 44 1 44; NSetOwner 10 1 50].
Example adm_good : along (nstep 1000000 1000 77) good (adm_ops ++ adm_more) ninit.
Proof. unfold adm_ops, adm_more. cbn [along app]. repeat split. Qed.
Example adm_state : let s := run (nstep 1000000 1000 77) adm_ops ninit in
  match colls s !! 1 with Some i => c_transferable i = false /\ c_burnable i = false /\ c_mintable i = true /\ c_owner i = 10 | None => False end /\
  owner_of s 1 2 = Some 20 /\ owner_of s 1 3 = None.
Proof. vm_compute. auto 10. Qed.
Example adm_later : let s := run (nstep 1000000 1000 77) (adm_ops ++ adm_more) ninit in
  map (owner_of s 1) [0; 1; 2; 3] = [Some 10; Some 10; Some 20; Some 44] /\
  match colls s !! 1 with Some i => settings i = (50, Some 5, true, (true, true, false, false)) | None => False end.
Proof. vm_compute. auto. Qed.
Example adm_claim : let s := run (nstep 1000000 1000 77) [NCreate 2 77 0 None 77 false] ninit in
  match nexec 1000000 1000 77 s (NClaim 2 60) with
  | Ok s' => match colls s' !! 2 with Some i => c_owner i = 60 | None => False end | Err _ => False end.
Proof. vm_compute. auto. Qed.
Definition adm_sft : list sop := [SCreate 1 10; SToken 10 1 100 None 20 true; SSetFlags 10 1 true false false; SSetPublic 10 1 0 true].
Example adm_sft_ok : Forall sop_u128 adm_sft.
Proof. repeat constructor. cbn. vm_compute. discriminate. Qed.
Example adm_sft_state : let s := run (sstep 1000 10) adm_sft sinit in
  scolls s !! 1 = Some (SColl 10 1 true false false) /\ sbal s 1 0 20 = (100, 0) /\
  is_ok (sexec 1000 10 s (STransfer 20 1 [(0, 5)] 30)) = false /\ is_ok (sexec 1000 10 s (SBurn 20 1 [(0, 5)])) = false /\
  is_ok (sexec 1000 10 s (SSetMax 20 1 0 200)) = false /\ is_ok (sexec 1000 10 s (SSetFlags 20 1 true true true)) = false /\
  match sexec 1000 10 s (SMint 44 1 [(0, 7)] 44 true) with Ok s' => sbal s' 1 0 44 = (7, 0) | Err _ => False end /\
  match sexec 1000 10 s (SSetMax 10 1 0 200) with Ok s' => option_map t_max (stoks s' !! (1, 0)) = Some (Some 200) | Err _ => False end /\
  match sexec 1000 10 s (SSetOwner 10 1 20) with Ok s' => scolls s' !! 1 = Some (SColl 20 1 true false false) | Err _ => False end.
Proof. vm_compute. auto 10. Qed.

Print Assumptions C100_nft_settings.
Print Assumptions C101_nft_transfers_off.
Print Assumptions C101_nft_burns_off.
Print Assumptions C101_nft_mints.
Print Assumptions C101_soulbound.
Print Assumptions C100_sft_settings.
Print Assumptions C101_sft.
