(** What wallets and contracts can rely on when they use a token collection as an ERC-1155 contract:
    C121 to C125. *)
From Verif Require Import FpassProofs SftProps AbiProps Erc1155Proofs.
From Verif Require Import SftModel.

(** ** Histories *)
(** [P] holds of an operation and of everything the contracts it calls do meanwhile. *)
Fixpoint every (P : pop -> Prop) (o : pop) {struct o} : Prop :=
  P o /\ match o with
         | PCall _ _ _ _ _ _ (Some (ops, _)) => (fix all (l : list pop) := match l with [] => True | x :: r => every P x /\ all r end) ops
         | _ => True
         end.
Lemma pop_all (Q : pop -> Prop) :
  (forall o, Q (PSft o)) ->
  (forall caller c st v call ext, Q (PCall caller c st v call ext None)) ->
  (forall caller c st v call ext ops ans, Forall Q ops -> Q (PCall caller c st v call ext (Some (ops, ans)))) ->
  forall o, Q o.
Proof.
  intros H1 H2 H3. fix IH 1. intros [o|caller c st v call ext [[ops ans]|]].
  - apply H1.
  - apply H3. revert ops. fix go 1. intros [|x l]; constructor; [apply IH|apply go].
  - apply H2.
Qed.
Lemma every_list P ops : (fix all (l : list pop) := match l with [] => True | x :: r => every P x /\ all r end) ops <-> Forall (every P) ops.
Proof.
  induction ops as [|x l IH]; [split; auto|]. split.
  - intros [H1 H2]. constructor; [exact H1|apply IH, H2].
  - intros H. inversion H; subst. split; [assumption|apply IH; assumption].
Qed.

Section props.
  Variable max_owners max_serials string_limit : N.
  Variable utf8 : list N -> bool.
  (** 1 000 in the runtime. *)
  Hypothesis max_small : max_serials <= 2 ^ 20.
  Notation sexec := (sexec max_owners max_serials).
  Notation execute := (execute max_owners max_serials string_limit utf8).
  Notation pstep := (pstep max_owners max_serials string_limit utf8).
  Notation eff := (eff max_owners max_serials).

  (** Call data are bytes, and amounts of the pallet's calls u128. *)
  Definition typed (o : pop) : Prop :=
    match o with PSft o => sop_u128 o | PCall _ _ _ _ call _ _ => isbytes call end.

  (** A relation that holds across pallet calls and across the effect of each precompile call holds
      across whole operations, receivers included. *)
  Lemma pstep_rel (P : pop -> Prop) (R : pstate -> pstate -> Prop) :
    (forall s, R s s) -> (forall a b c, R a b -> R b c -> R a c) ->
    (forall o, P o -> typed o) ->
    (forall s o x, P (PSft o) -> sexec (p_sft s) o = Ok x -> R s (with_sft s x)) ->
    (forall caller c st v call ext r s s', P (PCall caller c st v call ext r) -> eff caller c call s s' -> R s s') ->
    forall o s, every P o -> R s (pstep s o).
  Proof.
    intros Hr Ht Hty Hs He. induction o as [o|caller c st v call ext|caller c st v call ext ops ans IH] using pop_all; intros s Hv.
    - destruct Hv as [Hv _]. cbn [Erc1155Model.pstep]. destruct (sexec (p_sft s) o) as [x|] eqn:E; cbn [commit].
      + apply (Hs s o); assumption.
      + destruct s; apply Hr.
    - destruct Hv as [Hv _]. cbn [Erc1155Model.pstep].
      destruct (execute s None caller c st v call ext) as [[s' o]|] eqn:E; [|apply Hr].
      apply execute_inv in E as (s1 & [->|[ans [=]]] & E); [|exact max_small|exact (Hty _ Hv)]. eapply He; eassumption.
    - destruct Hv as [Hv Hops]. apply every_list in Hops. cbn [Erc1155Model.pstep].
      set (mid := fold_left _ ops s).
      assert (M : R s mid).
      { unfold mid. clear mid Hv. revert s Hops. induction IH as [|o ops Ho Hf IHf]; intros s Hops; [apply Hr|].
        inversion Hops; subst. cbn [fold_left]. eapply Ht; [apply Ho; assumption|apply IHf; assumption]. }
      destruct (execute s (Some (mid, ans)) caller c st v call ext) as [[s' o]|] eqn:E; [|apply Hr].
      apply execute_inv in E as (s1 & Hs1 & E); [|exact max_small|exact (Hty _ Hv)].
      assert (R s s1) by (destruct Hs1 as [->|[a [= <- _]]]; [apply Hr|exact M]).
      eapply Ht; [eassumption|]. eapply He; eassumption.
  Qed.
  Lemma prun_rel (P : pop -> Prop) (R : pstate -> pstate -> Prop) :
    (forall s, R s s) -> (forall a b c, R a b -> R b c -> R a c) ->
    (forall o s, every P o -> R s (pstep s o)) ->
    forall ops s, Forall (every P) ops -> R s (run pstep ops s).
  Proof.
    intros Hr Ht Hs ops. induction ops as [|o ops IH]; intros s Hf; [apply Hr|]. inversion Hf; subst.
    change (run pstep (o :: ops) s) with (run pstep ops (pstep s o)). eapply Ht; [apply (Hs o s); assumption|apply IH; assumption].
  Qed.
  Lemma eff_SInv caller c call s s' : eff caller c call s s' -> SInv (p_sft s) -> SInv (p_sft s').
  Proof. intros [| |s0 o x g Hx Hu _ _ _ _|]; auto. intros H. cbn [p_sft]. eapply exec_spec; eassumption. Qed.
  Lemma prun_SInv ops : Forall (every typed) ops -> SInv (p_sft (run pstep ops pinit)).
  Proof.
    intros Hf. pose (R := fun s s' : pstate => SInv (p_sft s) -> SInv (p_sft s')).
    assert (H0 : SInv (p_sft pinit)) by (apply (run_SInv max_owners max_serials []); constructor). revert H0.
    apply (prun_rel typed R); unfold R; auto.
    intros o s Hv. apply (pstep_rel typed R); unfold R; auto.
    - intros s0 o0 x Hu E H. cbn [with_sft p_sft]. eapply exec_spec; eassumption.
    - intros caller c st v call ext r s0 s' _ E. eapply eff_SInv, E.
  Qed.

  (** ** C121: balances, supplies, approvals and owners are answered as recorded *)
  Lemma len_small ts l sel : nlen (enc_all ts l) <= USIZE -> wt_all ts l -> sel < 2 ^ 32 ->
    read_selector (build_call sel ts l) = Ok sel /\ read_args ts (build_call sel ts l) = Ok l.
  Proof. intros H1 H2 H3. pose proof (C117_roundtrip ts l sel [] H3 H2) as H. rewrite !app_nil_r in H. auto. Qed.
  (** The query functions, which a static call may use. *)
  Definition query (sel : N) : bool :=
    existsb (N.eqb sel) [S_balanceOf; S_balanceOfBatch; S_isApprovedForAll; S_totalSupply; S_exists; S_uri; S_owner].
  Lemma query_pure sel st : query sel = true -> st && non_payable sel = false.
  Proof.
    intros Hq. unfold query in Hq. cbn [existsb] in Hq. rewrite !orb_true_iff in Hq.
    repeat destruct Hq as [Hq|Hq]; try discriminate Hq; apply N.eqb_eq in Hq; subst sel; destruct st; reflexivity.
  Qed.
  Lemma free_sbal s c n y : free_of s c n y = fst (sbal s c n y).
  Proof. unfold free_of, sbal, balof. destruct (stoks s !! (c, n)); [|reflexivity]. destruct (find_bal _ y); reflexivity. Qed.
  Lemma free_bound s c n y : SInv s -> fst (sbal s c n y) <= U128MAX.
  Proof.
    intros [Hs _]. unfold sbal. destruct (stoks s !! (c, n)) as [t|] eqn:E; [|cbn; unfold U128MAX; lia].
    destruct (Hs _ _ E) as (_ & H1 & H2 & _). pose proof (bal_le_sum (t_own t) y) as H. unfold tot in H. lia.
  Qed.
  Lemma enter s r caller c st call ext i sel : scolls (p_sft s) !! c = Some i -> read_selector call = Ok sel -> query sel = true ->
    execute s r caller c st 0 call ext = dispatch_fn max_owners max_serials string_limit utf8 sel s r caller c call ext.
  Proof. intros Hc Hs Hq. eapply (execute_eq _ _ _ _ s r caller c st 0); eauto using query_pure. Qed.
  Ltac enterE E R1 := apply (execute_ok _ _ _ _ _ _ _ _ _ _ _ _ _ _ R1) in E as (? & ? & (? & ?) & E).

  Theorem C121_balance_of s r caller c st ext owner id : scolls (p_sft s) !! c <> None -> owner < 2 ^ 160 -> id <= U32MAX ->
    execute s r caller c st 0 (build_call S_balanceOf [tA; tU] [VN owner; VN id]) ext =
      Ok (s, word (fst (sbal (p_sft s) c id owner))).
  Proof.
    intros Hc Ho Hi. destruct (scolls (p_sft s) !! c) as [i|] eqn:Ec; [|congruence].
    assert (W : wt_all [tA; tU] [VN owner; VN id]) by (split; [exact Ho|split; [apply wt_tU; unfold U32MAX in Hi; lia|exact I]]).
    destruct (len_small [tA; tU] [VN owner; VN id] S_balanceOf) as [R1 R2]; [vm_compute; discriminate|exact W|reflexivity|].
    rewrite (enter s r caller c st _ ext i S_balanceOf Ec R1 eq_refl), d_balanceOf.
    unfold f_balance_of. rewrite R2. cbn [rbind]. rewrite (proj2 (N.leb_le _ _)) by exact Hi. cbn [ensure rbind].
    rewrite free_sbal. reflexivity.
  Qed.
  Theorem C121_balance_of_batch ops r caller c st ext (l : list (N * N)) : Forall (every typed) ops ->
    let s := run pstep ops pinit in
    scolls (p_sft s) !! c <> None -> Forall (fun e => fst e < 2 ^ 160 /\ snd e <= U32MAX) l -> N.of_nat (length l) <= 2 ^ 20 ->
    execute s r caller c st 0 (build_call S_balanceOfBatch [tAs; tUs] [VL (map VN (map fst l)); VL (map VN (map snd l))]) ext =
      Ok (s, enc_all [tUs] [VL (map (fun e => VN (fst (sbal (p_sft s) c (snd e) (fst e)))) l)]).
  Proof.
    intros Hops s Hc Hl Hn. pose proof (prun_SInv ops Hops) as Hs. fold s in Hs. clearbody s.
    destruct (scolls (p_sft s) !! c) as [i|] eqn:Ec; [|congruence].
    assert (Wa : Forall (wt tA) (map VN (map fst l))).
    { rewrite map_map. apply Forall_map. eapply Forall_impl; [exact Hl|]. intros e [H _]. exact H. }
    assert (Wu : Forall (wt tU) (map VN (map snd l))).
    { rewrite map_map. apply Forall_map. eapply Forall_impl; [exact Hl|]. intros e [_ H]. apply wt_tU. unfold U32MAX in H. lia. }
    assert (W : wt_all [tAs; tUs] [VL (map VN (map fst l)); VL (map VN (map snd l))]).
    { split; [|split; [|exact I]]; apply wt_vec; (split; [rewrite !map_length; unfold U32MAX; lia|assumption]). }
    assert (Ln : nlen (enc_all [tAs; tUs] [VL (map VN (map fst l)); VL (map VN (map snd l))]) <= USIZE).
    { assert (G : enc_all [tAs; tUs] [VL (map VN (map fst l)); VL (map VN (map snd l))] =
                  enc_all [tUs; tUs] [VL (map VN (map fst l)); VL (map VN (map snd l))]).
      { reflexivity. }
      rewrite G, enc_batch_len.
      - rewrite !map_length. unfold USIZE, U32MAX. lia.
      - eapply Forall_impl; [exact Wa|]. intros x Hx. destruct x; [|contradiction..]. apply wt_tU. change (n < 2 ^ 160) in Hx. lia.
      - exact Wu. }
    destruct (len_small _ _ S_balanceOfBatch Ln W) as [R1 R2]; [reflexivity|].
    rewrite (enter s r caller c st _ ext i S_balanceOfBatch Ec R1 eq_refl), d_balanceOfBatch.
    unfold f_balance_of_batch. rewrite R2. cbn [rbind]. rewrite !map_length, Nat.eqb_refl. cbn [ensure rbind]. rewrite !nums_map.
    assert (all_le U32MAX (map snd l) = true) as ->.
    { unfold all_le. apply forallb_forall. intros x Hx. apply in_map_iff in Hx as (e & <- & He). rewrite Forall_forall in Hl.
      apply N.leb_le, Hl, elem_of_list_In, He. }
    cbn [ensure rbind].
    assert (C : combine (map fst l) (map snd l) = l) by (clear; induction l as [|[a b] l IH]; [reflexivity|cbn; rewrite IH; reflexivity]).
    rewrite C. rewrite (map_ext _ (fun e => VN (fst (sbal (p_sft s) c (snd e) (fst e))))) by (intros e; rewrite free_sbal; reflexivity).
    rewrite out_spec; [reflexivity|]. split; [|exact I]. apply wt_vec. split; [rewrite map_length; unfold U32MAX; lia|].
    apply Forall_map. apply Forall_forall. intros e _. apply wt_tU. pose proof (free_bound (p_sft s) c (snd e) (fst e) Hs). unfold U128MAX in *. lia.
  Qed.
  (** A token's supply is what all its holders have together, free or reserved. *)
  Theorem C121_supply ops r caller c st ext id : Forall (every typed) ops ->
    let s := run pstep ops pinit in
    scolls (p_sft s) !! c <> None -> id <= U32MAX ->
    execute s r caller c st 0 (build_call S_totalSupply [tU] [VN id]) ext =
      Ok (s, word (match stoks (p_sft s) !! (c, id) with
                   | Some t => sumL (map (fun e => fst (snd e) + snd (snd e)) (t_own t)) | None => 0 end)) /\
    execute s r caller c st 0 (build_call S_exists [tU] [VN id]) ext =
      Ok (s, word (match stoks (p_sft s) !! (c, id) with Some _ => 1 | None => 0 end)).
  Proof.
    intros Hops s Hc Hi. pose proof (prun_SInv ops Hops) as Hs. fold s in Hs. clearbody s.
    destruct (scolls (p_sft s) !! c) as [i|] eqn:Ec; [|congruence].
    assert (W : wt_all [tU] [VN id]) by (split; [apply wt_tU; unfold U32MAX in Hi; lia|exact I]).
    destruct (len_small [tU] [VN id] S_totalSupply) as [R1 R2]; [vm_compute; discriminate|exact W|reflexivity|].
    destruct (len_small [tU] [VN id] S_exists) as [R3 R4]; [vm_compute; discriminate|exact W|reflexivity|].
    split.
    - rewrite (enter s r caller c st _ ext i S_totalSupply Ec R1 eq_refl), d_totalSupply.
      unfold f_total_supply, f_by_id. rewrite R2. cbn [rbind]. rewrite (proj2 (N.leb_le _ _)) by exact Hi. cbn [ensure rbind].
      unfold supply_of. destruct (stoks (p_sft s) !! (c, id)) as [t|] eqn:Et; [|reflexivity].
      destruct (proj1 Hs _ _ Et) as (_ & <- & _). reflexivity.
    - rewrite (enter s r caller c st _ ext i S_exists Ec R3 eq_refl), d_exists.
      unfold f_exists, f_by_id. rewrite R4. cbn [rbind]. rewrite (proj2 (N.leb_le _ _)) by exact Hi. reflexivity.
  Qed.
  Theorem C121_approval_and_owner s r caller c st ext owner operator i : scolls (p_sft s) !! c = Some i ->
    owner < 2 ^ 160 -> operator < 2 ^ 160 ->
    execute s r caller c st 0 (build_call S_isApprovedForAll [tA; tA] [VN owner; VN operator]) ext =
      Ok (s, word (if approved s owner c operator then 1 else 0)) /\
    execute s r caller c st 0 (build_call S_owner [] []) ext = Ok (s, word (sc_owner i)).
  Proof.
    intros Ec Ho Hp.
    assert (W : wt_all [tA; tA] [VN owner; VN operator]) by (split; [exact Ho|split; [exact Hp|exact I]]).
    destruct (len_small [tA; tA] [VN owner; VN operator] S_isApprovedForAll) as [R1 R2]; [vm_compute; discriminate|exact W|reflexivity|].
    split.
    - rewrite (enter s r caller c st _ ext i S_isApprovedForAll Ec R1 eq_refl), d_isApprovedForAll.
      unfold f_is_approved. rewrite R2. cbn [rbind]. reflexivity.
    - rewrite (enter s r caller c st (build_call S_owner [] []) ext i S_owner Ec eq_refl eq_refl), d_owner.
      unfold f_owner. rewrite Ec. reflexivity.
  Qed.
  (** Token ids beyond 32 bits are refused, not cut down to another token. *)
  Lemma wide_by_id s r caller c st v ext id sel call : U32MAX < id -> In sel [S_totalSupply; S_exists; S_uri] ->
    read_selector call = Ok sel -> read_args [tU] call = Ok [VN id] -> is_ok (execute s r caller c st v call ext) = false.
  Proof.
    intros Hi Hsel R1 R2. destruct (execute s r caller c st v call ext) as [[s' o]|] eqn:E; [exfalso|reflexivity]. enterE E R1.
    destruct Hsel as [<-|[<-|[<-|[]]]]; rewrite ?d_totalSupply, ?d_exists, ?d_uri in E;
      unfold f_total_supply, f_exists, f_uri, f_by_id in E; rewrite R2 in E; cbn [rbind] in E; inv_ok; lia.
  Qed.
  Lemma wide_balance s r caller c st v ext owner id call : U32MAX < id ->
    read_selector call = Ok S_balanceOf -> read_args [tA; tU] call = Ok [VN owner; VN id] ->
    is_ok (execute s r caller c st v call ext) = false.
  Proof.
    intros Hi R1 R2. destruct (execute s r caller c st v call ext) as [[s' o]|] eqn:E; [exfalso|reflexivity].
    enterE E R1. rewrite d_balanceOf in E. unfold f_balance_of in E. rewrite R2 in E. cbn [rbind] in E. inv_ok. lia.
  Qed.
  Theorem C121_wide_id s r caller c st v ext owner id sel : owner < 2 ^ 160 -> U32MAX < id -> id < 2 ^ 256 ->
    In sel [S_totalSupply; S_exists; S_uri] ->
    is_ok (execute s r caller c st v (build_call sel [tU] [VN id]) ext) = false /\
    is_ok (execute s r caller c st v (build_call S_balanceOf [tA; tU] [VN owner; VN id]) ext) = false.
  Proof.
    intros Ho Hi Hw Hsel. split.
    - destruct (len_small [tU] [VN id] sel) as [R1 R2].
      + vm_compute. discriminate.
      + split; [apply wt_tU; exact Hw|exact I].
      + destruct Hsel as [<-|[<-|[<-|[]]]]; reflexivity.
      + eapply wide_by_id; eassumption.
    - destruct (len_small [tA; tU] [VN owner; VN id] S_balanceOf) as [R1 R2].
      + vm_compute. discriminate.
      + split; [exact Ho|split; [apply wt_tU; exact Hw|exact I]].
      + reflexivity.
      + eapply wide_balance; eassumption.
  Qed.
  (** Two tokens of a collection never share a metadata address. *)
  Lemma digits_inj k : forall a b, a < 10 ^ N.of_nat k -> b < 10 ^ N.of_nat k -> digits k a = digits k b -> a = b.
  Proof.
    induction k as [|k IH]; intros a b Ha Hb H. { change (10 ^ N.of_nat 0) with 1 in *. lia. }
    cbn [digits] in H. apply app_inj_2 in H as [H1 H2]; [|reflexivity].
    assert (M : a mod 10 = b mod 10) by (injection H2; nodiv; lia). clear H2.
    replace (N.of_nat (S k)) with (N.succ (N.of_nat k)) in * by lia. rewrite N.pow_succ_r' in *.
    pose proof (N.div_mod a 10 ltac:(lia)) as Da. pose proof (N.div_mod b 10 ltac:(lia)) as Db.
    assert (L : forall x y, x < 10 -> ~ y < 10 -> [] = digits k (y / 10) -> y < 10 * 10 ^ N.of_nat k -> False).
    { intros x y _ Hy E Hk. destruct k as [|k]; [change (10 ^ N.of_nat 0) with 1 in Hk; lia|]. cbn [digits] in E. symmetry in E. apply app_eq_nil in E as [_ E]. discriminate E. }
    destruct (a <? 10) eqn:Ea, (b <? 10) eqn:Eb.
    - rewrite (N.mod_small a 10), (N.mod_small b 10) in M by lia. exact M.
    - exfalso. eapply (L a b); [lia..| |]; eassumption.
    - exfalso. symmetry in H1. eapply (L b a); [lia..| |]; eassumption.
    - assert (E : a / 10 = b / 10) by (apply IH; [apply N.div_lt_upper_bound; lia..|exact H1]). rewrite Da, Db, E, M. reflexivity.
  Qed.
  Theorem C121_uri_distinct s r caller c st ext id1 id2 o : id1 <= U32MAX -> id2 <= U32MAX ->
    nlen (default [] (p_uri s !! c)) <= 200 ->
    execute s r caller c st 0 (build_call S_uri [tU] [VN id1]) ext = Ok (s, o) ->
    execute s r caller c st 0 (build_call S_uri [tU] [VN id2]) ext = Ok (s, o) -> id1 = id2.
  Proof.
    intros H1 H2 Hl. assert (G : forall id call, id <= U32MAX -> read_selector call = Ok S_uri -> read_args [tU] call = Ok [VN id] ->
      execute s r caller c st 0 call ext = Ok (s, o) -> o = out [tBytes] [VB (token_uri utf8 s c id)]).
    { intros id call Hi R1 R2 E. enterE E R1. rewrite d_uri in E. unfold f_uri, f_by_id in E. rewrite R2 in E. cbn [rbind] in E. inv_ok.
      congruence. }
    assert (C : forall id, id <= U32MAX -> read_selector (build_call S_uri [tU] [VN id]) = Ok S_uri /\ read_args [tU] (build_call S_uri [tU] [VN id]) = Ok [VN id]).
    { intros id Hi. apply len_small; [vm_compute; discriminate|split; [apply wt_tU; unfold U32MAX in Hi; lia|exact I]|reflexivity]. }
    intros E1 E2. apply (G id1) in E1; [|exact H1|apply C, H1..]. apply (G id2) in E2; [|exact H2|apply C, H2..]. clear G C. subst o.
    assert (L : forall id, nlen (token_uri utf8 s c id) <= 210).
    { intros id. unfold token_uri. rewrite nlen_app. assert (Hd : forall k n, nlen (digits k n) <= N.of_nat k).
      { induction k as [|k IH]; intros n; [cbn; lia|]. cbn [digits]. rewrite nlen_app. specialize (IH (n / 10)).
        destruct (n <? 10); unfold nlen in *; cbn [length]; lia. }
      specialize (Hd 10%nat id). destruct (utf8 _); [lia|change (nlen []) with 0; lia]. }
    assert (W : forall id, wt_all [tBytes] [VB (token_uri utf8 s c id)]).
    { intros id. split; [|exact I]. cbn [wt tBytes]. specialize (L id). unfold U32MAX. lia. }
    rewrite !out_spec in E2 by apply W. apply C117_unambiguous in E2; [|apply W..|].
    - injection E2 as E. unfold token_uri in E. apply app_inv_head in E.
      apply (digits_inj 10); [| |exact E]; change (10 ^ N.of_nat 10) with 10000000000; unfold U32MAX in *; lia.
    - specialize (L id1). unfold enc_all, abi_seq. rewrite nlen_app. unfold nlen at 1. rewrite heads_length.
      change (parts [tBytes] [VB (token_uri utf8 s c id1)]) with [(false, word (nlen (token_uri utf8 s c id1)) ++ pad32 (token_uri utf8 s c id1))].
      cbn [hsize tails]. rewrite app_nil_r, nlen_app, nlen_word. unfold USIZE, U32MAX.
      assert (P : nlen (pad32 (token_uri utf8 s c id1)) <= nlen (token_uri utf8 s c id1) + 32); [|lia].
      unfold pad32. rewrite nlen_app. unfold nlen at 2. rewrite repeat_length.
      assert (forall a : nat, (a mod 32 <= 31)%nat) by (intros; pose proof (Nat.mod_upper_bound a 32); lia). 
      lia.
  Qed.

  (** ** C122: only the holder, or an operator they approved, moves tokens *)
  (** Nothing in the operation, nor in what receiving contracts do meanwhile, is done by [a] or by an
      account [a] had approved ([A]) for the collection. *)
  Definition idle (a : N) (A : N -> N -> bool) (o : pop) : Prop :=
    typed o /\
    match o with
    | PSft (STransfer w _ _ _) | PSft (SBurn w _ _) | PSft (SReserve w _ _ _) => w <> a
    | PSft _ => True
    | PCall caller c _ _ _ _ _ => caller <> a /\ A c caller = false
    end.
  Theorem C122_only_holder_or_operator ops1 ops2 a : Forall (every typed) ops1 ->
    let s := run pstep ops1 pinit in
    Forall (every (idle a (fun c operator => approved s a c operator))) ops2 ->
    let s' := run pstep ops2 s in
    (forall c n, fst (sbal (p_sft s) c n a) <= fst (sbal (p_sft s') c n a)) /\
    (forall c operator, approved s' a c operator = approved s a c operator).
  Proof.
    intros H1 s H2. pose proof (prun_SInv ops1 H1) as Hs. fold s in Hs.
    set (A := fun c operator => approved s a c operator) in *.
    assert (HA : forall c operator, approved s a c operator = A c operator) by reflexivity.
    clearbody A s. clear H1.
    pose (R := fun s s' : pstate => SInv (p_sft s) /\ (forall c op, approved s a c op = A c op) ->
      (SInv (p_sft s') /\ (forall c op, approved s' a c op = A c op)) /\
      forall c n, fst (sbal (p_sft s) c n a) <= fst (sbal (p_sft s') c n a)).
    assert (Rr : forall s, R s s) by (intros x Hx; split; [exact Hx|intros; lia]).
    assert (Rt : forall x y z, R x y -> R y z -> R x z).
    { intros x y z Hxy Hyz Hx. destruct (Hxy Hx) as [Hy L1]. destruct (Hyz Hy) as [Hz L2]. split; [exact Hz|].
      intros c n. specialize (L1 c n). specialize (L2 c n). lia. }
    assert (Rstep : forall o s, every (idle a A) o -> R s (pstep s o)).
    { apply pstep_rel; auto.
      - intros o Ho. apply Ho.
      - intros s0 o x [Hty Hid] E [Hi Ha]. cbn [with_sft p_sft].
        destruct (exec_spec max_owners max_serials _ _ _ Hi Hty E) as [Hi' M]. split; [split; [exact Hi'|exact Ha]|].
        intros c n. destruct (M c n a) as [M1 _]. assert (Z : transferred o c n a = 0); [|lia].
        destruct o; cbn [transferred]; auto; destruct (N.eqb_spec a who); subst; try congruence; rewrite andb_false_r; reflexivity.
      - intros caller c st v call ext r s0 s' [_ [Hca HAc]] E [Hi Ha].
        destruct E as [s0|s0 operator ok g Hne _ _|s0 o x g Hx Hu Hau _ _ _|s0 u f g _ _].
        + split; [auto|]. intros; lia.
        + split; [|intros; cbn [p_sft]; lia]. split; [exact Hi|]. intros c' op. unfold approved. cbn [p_appr]. rewrite <- Ha. unfold approved.
          destruct ok; [rewrite lookup_insert_ne by congruence|rewrite lookup_delete_ne by congruence]; reflexivity.
        + cbn [p_sft]. destruct (exec_spec max_owners max_serials _ _ _ Hi Hu Hx) as [Hi' M]. split; [split; [exact Hi'|exact Ha]|].
          intros d n. destruct (M d n a) as [M1 _]. assert (Z : transferred o d n a = 0); [|lia].
          destruct o; cbn [transferred authorised] in *; auto; try contradiction.
          * destruct Hau as (-> & _ & Hw). destruct (N.eqb_spec a who); [subst who|rewrite andb_false_r; reflexivity].
            destruct Hw as [->|Hw]; [congruence|]. rewrite Ha in Hw. congruence.
          * destruct Hau as (-> & Hw). destruct (N.eqb_spec a who); [subst who|rewrite andb_false_r; reflexivity].
            destruct Hw as [->|Hw]; [congruence|]. rewrite Ha in Hw. congruence.
        + split; [auto|]. intros; cbn [p_sft]; lia. }
    destruct (prun_rel (idle a A) R Rr Rt Rstep ops2 s H2 (conj Hs HA)) as [[_ Ha] L]. split; [exact L|].
    intros c op. rewrite Ha, <- HA. reflexivity.
  Qed.

  (** An approval is exactly what its owner last said, for that operator and collection only. *)
  Lemma set_approval_call s r caller c st v ext operator b call s' o :
    read_selector call = Ok S_setApprovalForAll -> read_args [tA; tB] call = Ok [VN operator; VN b] ->
    execute s r caller c st v call ext = Ok (s', o) ->
    p_sft s' = p_sft s /\ p_logs s' = p_logs s ++ [Elog c [L_approval; caller; operator] (word b)] /\ o = [] /\
    forall w d op, approved s' w d op =
      if decide (w = caller /\ d = c /\ op = operator) then b =? 1 else approved s w d op.
  Proof.
    intros R1 R2 E. enterE E R1. rewrite d_setApprovalForAll in E. unfold f_set_approval in E. rewrite R2 in E. cbn [rbind] in E. inv_ok.
    injection E as <- <-. split; [reflexivity|]. split; [reflexivity|]. split; [reflexivity|]. intros w d op.
    unfold approved. cbn [log with_appr p_appr]. destruct (decide _) as [(-> & -> & ->)|Hn].
    - destruct (b =? 1); [rewrite lookup_insert|rewrite lookup_delete]; reflexivity.
    - destruct (b =? 1); [rewrite lookup_insert_ne|rewrite lookup_delete_ne]; try reflexivity; intros [= -> -> ->]; tauto.
  Qed.
  Theorem C122_approval_exact s r caller c st v ext operator b s' o : operator < 2 ^ 160 -> b < 2 ->
    execute s r caller c st v (build_call S_setApprovalForAll [tA; tB] [VN operator; VN b]) ext = Ok (s', o) ->
    p_sft s' = p_sft s /\ p_logs s' = p_logs s ++ [Elog c [L_approval; caller; operator] (word b)] /\ o = [] /\
    forall w d op, approved s' w d op =
      if decide (w = caller /\ d = c /\ op = operator) then b =? 1 else approved s w d op.
  Proof.
    intros Ho Hb. destruct (len_small [tA; tB] [VN operator; VN b] S_setApprovalForAll) as [R1 R2].
    - vm_compute. discriminate.
    - split; [exact Ho|split; [exact Hb|exact I]].
    - reflexivity.
    - apply set_approval_call; assumption.
  Qed.

  (** And the holder can: a transfer of tokens they have free, to another account, in a transferable
      collection, succeeds. *)
  Lemma add_free_ok b x : fst b + x <= U128MAX -> add_free b x = Ok (fst b + x, snd b).
  Proof. intros H. unfold add_free, chk_add. rewrite (proj2 (N.leb_le _ _)) by exact H. reflexivity. Qed.
  Lemma transfer_can s c from to id x t : SInv s -> stoks s !! (c, id) = Some t -> from <> to -> 0 < x -> x <= fst (sbal s c id from) ->
    N.of_nat (length (t_own t)) < max_owners -> 1 <= max_serials -> flag sc_transferable s c = true ->
    is_ok (stransfer max_owners max_serials s from c [(id, x)] to) = true.
  Proof.
    intros Hi Ht Hne Hx Hle Hown Hms Hfl. unfold stransfer. cbn [length]. rewrite (proj2 (N.leb_le _ _)) by lia. cbn [ensure rbind Nat.eqb negb].
    rewrite (proj2 (N.eqb_neq _ _)) by exact Hne. cbn [negb ensure rbind]. rewrite Hfl. cbn [ensure rbind each]. unfold transfer_one.
    rewrite (proj2 (N.eqb_neq _ _)) by lia. cbn [negb ensure rbind]. rewrite Ht. cbn [of_opt rbind]. unfold transfer_balance.
    rewrite (proj2 (N.eqb_neq _ _)) by exact Hne.
    assert (Hle' : x <= fst (balof (t_own t) from)) by (unfold sbal in Hle; rewrite Ht in Hle; exact Hle).
    destruct (find_bal (t_own t) from) as [b|] eqn:Eb; [|unfold balof in Hle'; rewrite Eb in Hle'; cbn in Hle'; lia].
    assert (Er : exists t1, remove_balance t from x = Ok t1).
    { unfold remove_balance. rewrite Eb. cbn [of_opt rbind]. unfold remove_free. unfold balof in Hle'. rewrite Eb in Hle'.
      rewrite (proj2 (N.leb_le _ _)) by exact Hle'. cbn [ensure rbind]. eauto. }
    destruct Er as [t1 Er]. rewrite Er. cbn [rbind].
    destruct (proj1 Hi _ _ Ht) as (Hnd & Hsum & Hiss & Hmx).
    destruct (remove_spec t from x t1 (conj Hnd (conj Hsum (conj Hiss Hmx))) Er) as (_ & _ & Hnd1 & Hsum1 & _ & Hb1).
    assert (Hlen : (length (t_own t1) <= length (t_own t))%nat).
    { unfold remove_balance in Er. rewrite Eb in Er. cbn [of_opt rbind] in Er. inv_ok. subst t1. cbn [t_own].
      assert (L : forall l w b', length (set_bal l w b') = length l).
      { induction l as [|[k y] l IH]; intros w b'; cbn; [reflexivity|]. destruct (k =? w); cbn; [reflexivity|rewrite IH; reflexivity]. }
      destruct (total_bal _ =? 0).
      - etransitivity; [|rewrite <- (L (t_own t) from v); reflexivity].
        clear. generalize (set_bal (t_own t) from v). intros l. induction l as [|e l IH]; [auto|]. cbn. destruct (negb _); cbn; lia.
      - rewrite L. lia. }
    unfold add_balance. destruct (find_bal (t_own t1) to) as [b2|] eqn:E2.
    - pose proof (bal_le_sum (t_own t1) to) as Hb2. unfold balof in Hb2. rewrite E2 in Hb2. unfold tot in Hb2.
      rewrite add_free_ok by lia. reflexivity.
    - rewrite (proj2 (N.ltb_lt _ _)) by lia. reflexivity.
  Qed.
  Lemma holder_can_call s caller c from to id x data ext call t : SInv (p_sft s) -> read_selector call = Ok S_safeTransferFrom ->
    read_args [tA; tA; tU; tU; tBytes] call = Ok [VN from; VN to; VN id; VN x; VB data] ->
    scolls (p_sft s) !! c <> None -> id <= U32MAX ->
    (caller = from \/ approved s from c caller = true) -> to <> 0 -> from <> to ->
    stoks (p_sft s) !! (c, id) = Some t -> 0 < x -> x <= fst (sbal (p_sft s) c id from) ->
    N.of_nat (length (t_own t)) < max_owners -> 1 <= max_serials -> flag sc_transferable (p_sft s) c = true ->
    is_ok (execute s None caller c false 0 call ext) = true.
  Proof.
    intros Hi R1 R2 Hc Hid Hau Hto Hne Ht Hx Hle Hown Hms Hfl.
    destruct (scolls (p_sft s) !! c) as [i|] eqn:Ec; [|congruence].
    rewrite (proj1 (execute_eq max_owners max_serials string_limit utf8 s None caller c false 0 call ext _ i Ec R1 eq_refl)), d_safeTransferFrom.
    unfold f_safe_transfer. rewrite R2. cbn [rbind accept].
    pose proof (free_bound (p_sft s) c id from Hi) as Hb.
    rewrite (proj2 (N.leb_le _ _)) by exact Hid. cbn [ensure rbind]. rewrite (proj2 (N.leb_le _ _)) by lia. cbn [ensure rbind].
    unfold do_safe_transfer. cbn [length Nat.eqb ensure rbind combine]. rewrite (proj2 (N.eqb_neq _ _)) by exact Hto. cbn [negb ensure rbind].
    assert (may_move s from c caller = true) as ->.
    { unfold may_move. destruct Hau as [->| ->]; [rewrite N.eqb_refl; reflexivity|apply orb_true_r]. }
    cbn [ensure rbind]. rewrite (proj2 (N.leb_le _ _)) by (change (N.of_nat 1) with 1; lia). cbn [ensure rbind].
    pose proof (transfer_can (p_sft s) c from to id x t Hi Ht Hne Hx Hle Hown Hms Hfl) as Hok.
    destruct (stransfer max_owners max_serials (p_sft s) from c [(id, x)] to) as [y|]; [reflexivity|discriminate].
  Qed.
  Theorem C122_holder_can ops caller c from to id x ext t : Forall (every typed) ops ->
    let s := run pstep ops pinit in
    scolls (p_sft s) !! c <> None -> id <= U32MAX -> from < 2 ^ 160 -> to < 2 ^ 160 ->
    (caller = from \/ approved s from c caller = true) -> to <> 0 -> from <> to ->
    stoks (p_sft s) !! (c, id) = Some t -> 0 < x -> x <= fst (sbal (p_sft s) c id from) ->
    N.of_nat (length (t_own t)) < max_owners -> 1 <= max_serials -> flag sc_transferable (p_sft s) c = true ->
    is_ok (execute s None caller c false 0
      (build_call S_safeTransferFrom [tA; tA; tU; tU; tBytes] [VN from; VN to; VN id; VN x; VB []]) ext) = true.
  Proof.
    intros Hops s Hc Hid Hf Htl Hau Hto Hne Ht Hx Hle Hown Hms Hfl. pose proof (prun_SInv ops Hops) as Hi. fold s in Hi.
    pose proof (free_bound (p_sft s) c id from Hi) as Hb.
    destruct (len_small [tA; tA; tU; tU; tBytes] [VN from; VN to; VN id; VN x; VB []] S_safeTransferFrom) as [R1 R2].
    - vm_compute. discriminate.
    - split; [exact Hf|]. split; [exact Htl|]. split; [apply wt_tU; unfold U32MAX in *; lia|]. split; [apply wt_tU; unfold U128MAX in *; lia|].
      split; [|exact I]. cbn. unfold U32MAX. lia.
    - reflexivity.
    - eapply holder_can_call; eassumption.
  Qed.

  (** ** C123: balances and logs *)
  (** [l] (ids and amounts) of collection [c] left [from] and arrived at [to] ([None]: the tokens were
      minted or burned), nothing reserved changed, and no other balance. *)
  Definition is (w : option N) (y : N) : bool := match w with Some a => y =? a | None => false end.
  Definition moved (c : N) (from to : option N) (l : list (N * N)) (s s' : pstate) : Prop := forall d n y,
    fst (sbal (p_sft s') d n y) + (if (d =? c) && is from y then qty n l else 0) =
    fst (sbal (p_sft s) d n y) + (if (d =? c) && is to y then qty n l else 0) /\
    snd (sbal (p_sft s') d n y) = snd (sbal (p_sft s) d n y).
  (** The state once a contract that is to receive tokens has been called, if any. *)
  Definition asked (s : pstate) (r : option (list pop * (N -> list N -> option (list N)))) : pstate :=
    match r with Some (ops, _) => run pstep ops s | None => s end.
  Definition callee_of (s : pstate) (r : option (list pop * (N -> list N -> option (list N)))) : callee :=
    match r with Some (ops, ans) => Some (run pstep ops s, ans) | None => None end.
  Definition ok_callee (r : option (list pop * (N -> list N -> option (list N)))) : Prop :=
    match r with Some (ops, _) => Forall (every typed) ops | None => True end.
  Lemma asked_SInv ops r : Forall (every typed) ops -> ok_callee r -> SInv (p_sft (asked (run pstep ops pinit) r)).
  Proof.
    intros H1 H2. destruct r as [[ops2 ans]|]; cbn [asked]; [|apply prun_SInv, H1].
    rewrite <- run_app. apply prun_SInv. apply Forall_app. split; assumption.
  Qed.
  Lemma accept_asked s r sender input magic s1 : accept s (callee_of s r) sender input magic = Ok s1 -> s1 = asked s r.
  Proof.
    intros H. apply accept_ok in H as [[Hr ->]|(ans & o & Hr & _)]; destruct r as [[ops a]|]; cbn in Hr; try discriminate; [reflexivity|].
    injection Hr as <- _. reflexivity.
  Qed.
  (** The balances, the log, the answer and nothing else. *)
  Definition reported (c : N) (from to : option N) (l : list (N * N)) (s s' : pstate) (g : elog) (o : list N) : Prop :=
    moved c from to l s s' /\ p_logs s' = p_logs s ++ [g] /\ o = [] /\ p_appr s' = p_appr s /\ p_uri s' = p_uri s /\ p_fee s' = p_fee s.
  Lemma transfer_reported s s2 caller c from to ids xs g : SInv (p_sft s) ->
    do_safe_transfer max_owners max_serials s caller c from to ids xs = Ok s2 ->
    length ids = length xs /\ to <> 0 /\
    reported c (Some from) (Some to) (combine ids xs) s (log s2 c (lg_topics g) (lg_data g)) (Elog c (lg_topics g) (lg_data g)) [].
  Proof.
    intros Hi H. apply safe_transfer_inv in H as (Hl & x & Hx & -> & (_ & Hto & _) & _). split; [exact Hl|]. split; [exact Hto|].
    destruct (exec_spec max_owners max_serials (p_sft s) (STransfer from c (combine ids xs) to) x Hi I Hx) as [_ M].
    split; [|repeat split]. intros d n y. destruct (M d n y) as [M1 M2]. cbn [transferred received res_up res_down] in M1, M2.
    cbn [log with_sft p_sft is]. split; [exact M1|lia].
  Qed.

  Lemma safe_transfer_call s r caller c st v from to id x data ext call s' o : SInv (p_sft (asked s r)) ->
    read_selector call = Ok S_safeTransferFrom -> read_args [tA; tA; tU; tU; tBytes] call = Ok [VN from; VN to; VN id; VN x; VB data] ->
    execute s (callee_of s r) caller c st v call ext = Ok (s', o) ->
    reported c (Some from) (Some to) [(id, x)] (asked s r) s' (Elog c [L_single; caller; from; to] (out [tU; tU] [VN id; VN x])) o.
  Proof.
    intros Hi R1 R2 E. enterE E R1. rewrite d_safeTransferFrom in E. unfold f_safe_transfer in E. rewrite R2 in E. cbn [rbind] in E.
    apply rbind_ok in E. destruct E as [s1 [Ha E]]. apply accept_asked in Ha. subst s1. inv_ok. injection E as <- <-.
    eapply (transfer_reported _ _ _ _ _ _ [id] [x] (Elog c _ _)) in Hi; [|eassumption]. apply Hi.
  Qed.
  Lemma safe_batch_call s r caller c st v from to ids xs data ext call s' o : SInv (p_sft (asked s r)) ->
    read_selector call = Ok S_safeBatchTransferFrom ->
    read_args [tA; tA; tUs; tUs; tBytes] call = Ok [VN from; VN to; VL (map VN ids); VL (map VN xs); VB data] ->
    execute s (callee_of s r) caller c st v call ext = Ok (s', o) ->
    length ids = length xs /\
    reported c (Some from) (Some to) (combine ids xs) (asked s r) s'
      (Elog c [L_batch; caller; from; to] (out [tUs; tUs] [VL (map VN ids); VL (map VN xs)])) o.
  Proof.
    intros Hi R1 R2 E. enterE E R1. rewrite d_safeBatchTransferFrom in E. unfold f_safe_batch_transfer in E. rewrite R2 in E. cbn [rbind] in E.
    apply rbind_ok in E. destruct E as [s1 [Ha E]]. apply accept_asked in Ha. subst s1. inv_ok. injection E as <- <-.
    rewrite !nums_map in *.
    eapply (transfer_reported _ _ _ _ _ _ ids xs (Elog c _ _)) in Hi; [|eassumption]. destruct Hi as (Hl1 & _ & Hl2). split; [exact Hl1|exact Hl2].
  Qed.
  Lemma burn_call s r caller c st v who id x ext call s' o : SInv (p_sft s) ->
    read_selector call = Ok S_burn -> read_args [tA; tU; tU] call = Ok [VN who; VN id; VN x] ->
    execute s r caller c st v call ext = Ok (s', o) ->
    reported c (Some who) None [(id, x)] s s' (Elog c [L_single; caller; who; 0] (out [tU; tU] [VN id; VN x])) o.
  Proof.
    intros Hi R1 R2 E. enterE E R1. rewrite d_burn in E. unfold f_burn in E. rewrite R2 in E. cbn [rbind] in E. inv_ok. injection E as <- <-.
    match goal with H : sburn _ _ _ _ _ = Ok ?y |- _ => rename H into Hx, y into z end.
    assert (T : truncate max_serials [(id, x)] = [(id, x)]).
    { apply (trunc_ok max_serials (id, x) (fun l => sburn max_serials (p_sft s) who c l = Ok z)); [|assumption]. intros HH. unfold sburn in HH. inv_ok. discriminate. }
    rewrite T in Hx. destruct (exec_spec max_owners max_serials (p_sft s) (SBurn who c [(id, x)]) z Hi I Hx) as [_ M].
    split; [|repeat split]. intros d n y. destruct (M d n y) as [M1 M2]. cbn [transferred received res_up res_down] in M1, M2.
    cbn [log with_sft p_sft is]. rewrite andb_false_r. split; [exact M1|lia].
  Qed.
  Lemma burn_batch_call s r caller c st v who ids xs ext call s' o : SInv (p_sft s) ->
    read_selector call = Ok S_burnBatch -> read_args [tA; tUs; tUs] call = Ok [VN who; VL (map VN ids); VL (map VN xs)] ->
    execute s r caller c st v call ext = Ok (s', o) ->
    length ids = length xs /\
    reported c (Some who) None (combine ids xs) s s' (Elog c [L_batch; caller; who; 0] (out [tUs; tUs] [VL (map VN ids); VL (map VN xs)])) o.
  Proof.
    intros Hi R1 R2 E. enterE E R1. rewrite d_burnBatch in E. unfold f_burn_batch in E. rewrite R2 in E. cbn [rbind] in E. inv_ok. injection E as <- <-.
    match goal with H : Nat.eqb _ _ = true |- _ => apply Nat.eqb_eq in H; rewrite !map_length in H; rename H into Hl end. split; [exact Hl|].
    rewrite !nums_map in *. match goal with H : sburn _ _ _ _ _ = Ok ?y |- _ => rename H into Hx, y into z end.
    destruct (exec_spec max_owners max_serials (p_sft s) (SBurn who c _) z Hi I Hx) as [_ M].
    split; [|repeat split]. intros d n y. destruct (M d n y) as [M1 M2]. cbn [transferred received res_up res_down] in M1, M2.
    cbn [log with_sft p_sft is]. rewrite andb_false_r. split; [exact M1|lia].
  Qed.
  Lemma mint_call s r caller c st v to id x ext call s' o : SInv (p_sft s) ->
    read_selector call = Ok S_mint -> read_args [tA; tU; tU] call = Ok [VN to; VN id; VN x] ->
    execute s r caller c st v call ext = Ok (s', o) ->
    reported c None (Some to) [(id, x)] s s' (Elog c [L_single; caller; 0; to] (out [tU; tU] [VN id; VN x])) o.
  Proof.
    intros Hi R1 R2 E. enterE E R1. rewrite d_mint in E. unfold f_mint in E. rewrite R2 in E. cbn [rbind] in E. inv_ok. injection E as <- <-.
    match goal with H : smint _ _ _ _ _ _ _ _ = Ok ?y |- _ => rename H into Hx, y into z end.
    assert (T : truncate max_serials [(id, x)] = [(id, x)]).
    { apply (trunc_ok max_serials (id, x) (fun l => smint max_owners max_serials (p_sft s) caller c l to ext = Ok z)); [|assumption]. intros HH. unfold smint in HH. inv_ok. discriminate. }
    rewrite T in Hx. destruct (exec_spec max_owners max_serials (p_sft s) (SMint caller c [(id, x)] to ext) z Hi I Hx) as [_ M].
    split; [|repeat split]. intros d n y. destruct (M d n y) as [M1 M2]. cbn [transferred received res_up res_down] in M1, M2.
    cbn [log with_sft p_sft is]. rewrite andb_false_r. split; [exact M1|lia].
  Qed.
  Lemma mint_batch_call s r caller c st v to ids xs ext call s' o : SInv (p_sft s) ->
    read_selector call = Ok S_mintBatch -> read_args [tA; tUs; tUs] call = Ok [VN to; VL (map VN ids); VL (map VN xs)] ->
    execute s r caller c st v call ext = Ok (s', o) ->
    length ids = length xs /\
    reported c None (Some to) (combine ids xs) s s' (Elog c [L_batch; caller; 0; to] (out [tUs; tUs] [VL (map VN ids); VL (map VN xs)])) o.
  Proof.
    intros Hi R1 R2 E. enterE E R1. rewrite d_mintBatch in E. unfold f_mint_batch in E. rewrite R2 in E. cbn [rbind] in E. inv_ok. injection E as <- <-.
    match goal with H : Nat.eqb _ _ = true |- _ => apply Nat.eqb_eq in H; rewrite !map_length in H; rename H into Hl end. split; [symmetry; exact Hl|].
    rewrite !nums_map in *. match goal with H : smint _ _ _ _ _ _ _ _ = Ok ?y |- _ => rename H into Hx, y into z end.
    destruct (exec_spec max_owners max_serials (p_sft s) (SMint caller c _ to ext) z Hi I Hx) as [_ M].
    split; [|repeat split]. intros d n y. destruct (M d n y) as [M1 M2]. cbn [transferred received res_up res_down] in M1, M2.
    cbn [log with_sft p_sft is]. rewrite andb_false_r. split; [exact M1|lia].
  Qed.

  Theorem C123_transfer ops r caller c st v from to id x data ext s' o : Forall (every typed) ops -> ok_callee r ->
    let s := run pstep ops pinit in let ts := [tA; tA; tU; tU; tBytes] in let args := [VN from; VN to; VN id; VN x; VB data] in
    wt_all ts args -> nlen (enc_all ts args) <= USIZE ->
    execute s (callee_of s r) caller c st v (build_call S_safeTransferFrom ts args) ext = Ok (s', o) ->
    reported c (Some from) (Some to) [(id, x)] (asked s r) s' (Elog c [L_single; caller; from; to] (enc_all [tU; tU] [VN id; VN x])) o.
  Proof.
    intros Hops Hr s ts args Hw Hn. pose proof (asked_SInv ops r Hops Hr) as Hi. fold s in Hi. clearbody s.
    destruct (len_small ts args S_safeTransferFrom Hn Hw eq_refl) as [R1 R2]. rewrite <- out_spec; [|split; [apply Hw|split; [apply Hw|exact I]]].
    intros E. eapply safe_transfer_call; [exact Hi|exact R1|exact R2|exact E].
  Qed.
  Theorem C123_batch_transfer ops r caller c st v from to ids xs data ext s' o : Forall (every typed) ops -> ok_callee r ->
    let s := run pstep ops pinit in let ts := [tA; tA; tUs; tUs; tBytes] in
    let args := [VN from; VN to; VL (map VN ids); VL (map VN xs); VB data] in
    wt_all ts args -> nlen (enc_all ts args) <= USIZE ->
    execute s (callee_of s r) caller c st v (build_call S_safeBatchTransferFrom ts args) ext = Ok (s', o) ->
    length ids = length xs /\
    reported c (Some from) (Some to) (combine ids xs) (asked s r) s'
      (Elog c [L_batch; caller; from; to] (enc_all [tUs; tUs] [VL (map VN ids); VL (map VN xs)])) o.
  Proof.
    intros Hops Hr s ts args Hw Hn. pose proof (asked_SInv ops r Hops Hr) as Hi. fold s in Hi. clearbody s.
    destruct (len_small ts args S_safeBatchTransferFrom Hn Hw eq_refl) as [R1 R2].
    rewrite <- out_spec; [|destruct Hw as (_ & _ & W1 & W2 & _); split; [exact W1|split; [exact W2|exact I]]].
    intros E. eapply safe_batch_call; [exact Hi|exact R1|exact R2|exact E].
  Qed.
  Theorem C123_burn ops r caller c st v who id x ext s' o : Forall (every typed) ops ->
    let s := run pstep ops pinit in let ts := [tA; tU; tU] in let args := [VN who; VN id; VN x] in wt_all ts args ->
    execute s r caller c st v (build_call S_burn ts args) ext = Ok (s', o) ->
    reported c (Some who) None [(id, x)] s s' (Elog c [L_single; caller; who; 0] (enc_all [tU; tU] [VN id; VN x])) o.
  Proof.
    intros Hops s ts args Hw. pose proof (prun_SInv ops Hops) as Hi. fold s in Hi. clearbody s.
    assert (Hn : nlen (enc_all ts args) <= USIZE) by (vm_compute; discriminate).
    destruct (len_small ts args S_burn Hn Hw eq_refl) as [R1 R2].
    rewrite <- out_spec; [|split; [apply Hw|split; [apply Hw|exact I]]]. intros E. eapply burn_call; [exact Hi|exact R1|exact R2|exact E].
  Qed.
  Theorem C123_burn_batch ops r caller c st v who ids xs ext s' o : Forall (every typed) ops ->
    let s := run pstep ops pinit in let ts := [tA; tUs; tUs] in let args := [VN who; VL (map VN ids); VL (map VN xs)] in
    wt_all ts args -> nlen (enc_all ts args) <= USIZE ->
    execute s r caller c st v (build_call S_burnBatch ts args) ext = Ok (s', o) ->
    length ids = length xs /\
    reported c (Some who) None (combine ids xs) s s' (Elog c [L_batch; caller; who; 0] (enc_all [tUs; tUs] [VL (map VN ids); VL (map VN xs)])) o.
  Proof.
    intros Hops s ts args Hw Hn. pose proof (prun_SInv ops Hops) as Hi. fold s in Hi. clearbody s.
    destruct (len_small ts args S_burnBatch Hn Hw eq_refl) as [R1 R2].
    rewrite <- out_spec; [|destruct Hw as (_ & W1 & W2 & _); split; [exact W1|split; [exact W2|exact I]]].
    intros E. eapply burn_batch_call; [exact Hi|exact R1|exact R2|exact E].
  Qed.
  Theorem C123_mint ops r caller c st v to id x ext s' o : Forall (every typed) ops ->
    let s := run pstep ops pinit in let ts := [tA; tU; tU] in let args := [VN to; VN id; VN x] in wt_all ts args ->
    execute s r caller c st v (build_call S_mint ts args) ext = Ok (s', o) ->
    reported c None (Some to) [(id, x)] s s' (Elog c [L_single; caller; 0; to] (enc_all [tU; tU] [VN id; VN x])) o.
  Proof.
    intros Hops s ts args Hw. pose proof (prun_SInv ops Hops) as Hi. fold s in Hi. clearbody s.
    assert (Hn : nlen (enc_all ts args) <= USIZE) by (vm_compute; discriminate).
    destruct (len_small ts args S_mint Hn Hw eq_refl) as [R1 R2].
    rewrite <- out_spec; [|split; [apply Hw|split; [apply Hw|exact I]]]. intros E. eapply mint_call; [exact Hi|exact R1|exact R2|exact E].
  Qed.
  Theorem C123_mint_batch ops r caller c st v to ids xs ext s' o : Forall (every typed) ops ->
    let s := run pstep ops pinit in let ts := [tA; tUs; tUs] in let args := [VN to; VL (map VN ids); VL (map VN xs)] in
    wt_all ts args -> nlen (enc_all ts args) <= USIZE ->
    execute s r caller c st v (build_call S_mintBatch ts args) ext = Ok (s', o) ->
    length ids = length xs /\
    reported c None (Some to) (combine ids xs) s s' (Elog c [L_batch; caller; 0; to] (enc_all [tUs; tUs] [VL (map VN ids); VL (map VN xs)])) o.
  Proof.
    intros Hops s ts args Hw Hn. pose proof (prun_SInv ops Hops) as Hi. fold s in Hi. clearbody s.
    destruct (len_small ts args S_mintBatch Hn Hw eq_refl) as [R1 R2].
    rewrite <- out_spec; [|destruct Hw as (_ & W1 & W2 & _); split; [exact W1|split; [exact W2|exact I]]].
    intros E. eapply mint_batch_call; [exact Hi|exact R1|exact R2|exact E].
  Qed.

  (** An indexer adds up the Transfer logs. *)
  Definition says (side : N * N * list (N * N) -> N) (c n y : N) (g : elog) : N :=
    if lg_coll g =? c then
      match log_moves g with Some m => if y =? side m then qty n (snd m) else 0 | None => 0 end
    else 0.
  Definition debits (c n y : N) (l : list elog) : N := sumL (map (says (fun m => fst (fst m)) c n y) l).
  Definition credits (c n y : N) (l : list elog) : N := sumL (map (says (fun m => snd (fst m)) c n y) l).
  (** Everything goes through the precompile, and no token is created with an initial issuance. *)
  Definition logged (o : pop) : Prop :=
    typed o /\
    match o with
    | PSft (STransfer _ _ _ _) | PSft (SBurn _ _ _) | PSft (SMint _ _ _ _ _) | PSft (SReserve _ _ _ _) | PSft (SFree _ _ _ _) => False
    | PSft (SToken _ _ initial _ _ _) => initial = 0
    | PSft _ => True
    | PCall _ _ _ _ call _ _ => forall name initial mx ow, read_selector call = Ok S_createToken ->
        read_args [tBytes; tU; tU; tA] call = Ok [VB name; VN initial; VN mx; VN ow] -> initial = 0
    end.
  Lemma sumL_app' l l' : sumL (l ++ l') = sumL l + sumL l'.
  Proof. induction l as [|x l IH]; [reflexivity|]. cbn [app]. unfold sumL in *. cbn [fold_right]. lia. Qed.
  Lemma zero_token s who d initial m own e c n y : initial = 0 -> received s (SToken who d initial m own e) c n y = 0.
  Proof. intros ->. cbn [received]. destruct (scolls s !! d); [|reflexivity]. destruct (_ && _ && _); reflexivity. Qed.
  Lemma one_log c n y side g : sumL (map (says side c n y) [g]) = says side c n y g.
  Proof. cbn. unfold sumL. cbn. lia. Qed.
  Theorem C123_logs_partial ops1 ops2 : Forall (every typed) ops1 -> Forall (every logged) ops2 ->
    let s := run pstep ops1 pinit in let s' := run pstep ops2 s in
    exists g, p_logs s' = p_logs s ++ g /\
      forall c n y, y <> 0 ->
        fst (sbal (p_sft s') c n y) + debits c n y g = fst (sbal (p_sft s) c n y) + credits c n y g.
  Proof.
    intros H1 H2 s s'. pose proof (prun_SInv ops1 H1) as Hs. fold s in Hs. subst s'. clearbody s. clear H1. revert H2 Hs.
    pose (R := fun s s' : pstate => SInv (p_sft s) -> SInv (p_sft s') /\ exists g, p_logs s' = p_logs s ++ g /\
      forall c n y, y <> 0 ->
        fst (sbal (p_sft s') c n y) + debits c n y g = fst (sbal (p_sft s) c n y) + credits c n y g).
    assert (Rr : forall s, R s s).
    { intros x Hx. split; [exact Hx|]. exists []. rewrite app_nil_r. split; [reflexivity|]. intros. reflexivity. }
    assert (Rt : forall x y z, R x y -> R y z -> R x z).
    { intros x y z Hxy Hyz Hx. destruct (Hxy Hx) as (Hy & g1 & L1 & B1). destruct (Hyz Hy) as (Hz & g2 & L2 & B2). split; [exact Hz|].
      exists (g1 ++ g2). split; [rewrite L2, L1, app_assoc; reflexivity|]. intros c n w Hw. specialize (B1 c n w Hw). specialize (B2 c n w Hw).
      unfold debits, credits in *. rewrite !map_app, !sumL_app'. lia. }
    assert (R0 : forall s s' g, (SInv (p_sft s) -> SInv (p_sft s')) -> p_sft s' = p_sft s -> p_logs s' = p_logs s ++ [g] -> log_moves g = None -> R s s').
    { intros x y g Hi Hp Hl Hg Hx. split; [auto|]. exists [g]. split; [exact Hl|]. intros c n w _. unfold debits, credits. rewrite !one_log, Hp.
      unfold says. rewrite Hg. destruct (_ =? _); lia. }
    assert (Rstep : forall o s, every logged o -> R s (pstep s o)).
    { apply pstep_rel; auto.
      - intros o Ho. apply Ho.
      - intros s0 o x [Hty Hid] E Hi. cbn [with_sft p_sft p_logs].
        destruct (exec_spec max_owners max_serials _ _ _ Hi Hty E) as [Hi' M]. split; [exact Hi'|].
        exists []. rewrite app_nil_r. split; [reflexivity|].
        intros c n y _. destruct (M c n y) as [M1 _]. cbn. destruct o; try contradiction; try (cbn [transferred received] in M1; lia).
        rewrite zero_token in M1 by exact Hid. cbn [transferred] in M1. lia.
      - intros caller c st v call ext r s0 s' [_ Hct] E.
        destruct E as [s0|s0 operator ok g _ _ Hg|s0 o x g Hx Hu Hau Hc Hg Htk|s0 u f g _ Hg]; [auto|eapply R0; eauto| |eapply R0; eauto].
        intros Hi. cbn [p_sft p_logs]. destruct (exec_spec max_owners max_serials _ _ _ Hi Hu Hx) as [Hi' M]. split; [exact Hi'|].
        exists [g]. split; [reflexivity|]. intros d n y Hy. destruct (M d n y) as [M1 _]. unfold debits, credits. rewrite !one_log.
        unfold says. rewrite Hg, Hc, (N.eqb_sym c d).
        assert (Hy0 : (y =? 0) = false) by (apply N.eqb_neq, Hy).
        destruct o; cbn [op_moves fst snd transferred received authorised] in *; try (destruct (d =? c); lia);
          try (destruct Hau as [-> Hau]; rewrite ?Hy0; destruct (d =? c); cbn [andb] in M1; lia).
        + destruct (Htk _ _ _ _ _ _ eq_refl) as (name & mx & ow & T1 & T2). pose proof (Hct _ _ _ _ T1 T2) as Hz.
          pose proof (zero_token (p_sft s0) who c0 initial max owner ext_ok d n y Hz) as HZ. cbn [received] in HZ. destruct (d =? c); lia. }
    intros H2 Hs. exact (proj2 (prun_rel logged R Rr Rt Rstep ops2 s H2 Hs)).
  Qed.

  (** ** C124: contracts are asked before they are sent tokens *)
  (** The bytes of [onERC1155Received(operator, from, id, amount, data)]. *)
  Definition received_call (operator from id x : N) (data : list N) : list N :=
    be_bytes 4 S_onReceived ++ enc_all [tA; tA; tU; tU; tBytes] [VN operator; VN from; VN id; VN x; VB data].
  Lemma accepted_call s s1 ans caller c st v from to id x data ext call s' o :
    read_selector call = Ok S_safeTransferFrom -> read_args [tA; tA; tU; tU; tBytes] call = Ok [VN from; VN to; VN id; VN x; VB data] ->
    execute s (Some (s1, ans)) caller c st v call ext = Ok (s', o) ->
    exists a, ans caller (build_call S_onReceived [tA; tA; tU; tU; tBytes] [VN caller; VN from; VN id; VN x; VB data]) = Some a /\
      (4 <= length a)%nat /\ of_be (firstn 4 a) = S_onReceived.
  Proof.
    intros R1 R2 E. enterE E R1. rewrite d_safeTransferFrom in E. unfold f_safe_transfer in E. rewrite R2 in E. cbn [rbind] in E.
    apply rbind_ok in E. destruct E as [s2 [Ha _]]. apply accept_ok in Ha as [[[=] _]|(ans' & a & [= -> ->] & Ha & Hl & Hm)]. eauto.
  Qed.
  Theorem C124_accepted s s1 ans caller c st v from to id x data ext s' o :
    let ts := [tA; tA; tU; tU; tBytes] in let args := [VN from; VN to; VN id; VN x; VB data] in
    wt_all ts args -> nlen (enc_all ts args) <= USIZE -> caller < 2 ^ 160 ->
    execute s (Some (s1, ans)) caller c st v (build_call S_safeTransferFrom ts args) ext = Ok (s', o) ->
    exists a, ans caller (received_call caller from id x data) = Some a /\
      (4 <= length a)%nat /\ of_be (firstn 4 a) = S_onReceived.
  Proof.
    intros ts args Hw Hn Hc E. destruct (len_small ts args S_safeTransferFrom Hn Hw eq_refl) as [R1 R2].
    destruct (accepted_call _ _ _ _ _ _ _ _ _ _ _ _ _ _ _ _ R1 R2 E) as (a & Ha & H). exists a. split; [|exact H].
    rewrite C116_call in Ha; [exact Ha|]. destruct Hw as (W1 & _ & W3). split; [exact Hc|split; [exact W1|exact W3]].
  Qed.
  (** A contract that answers single transfers as the standard says. *)
  Definition compliant (ans : N -> list N -> option (list N)) : Prop := forall sender input,
    read_selector input = Ok S_onReceived -> exists rest, ans sender input = Some (be_bytes 4 S_onReceived ++ rest).
  Lemma batch_call s s1 ans caller c st v from to ids xs data ext call :
    read_selector call = Ok S_safeBatchTransferFrom ->
    read_args [tA; tA; tUs; tUs; tBytes] call = Ok [VN from; VN to; VL ids; VL xs; VB data] ->
    (forall input, input = build_call S_onReceived [tA; tA; tUs; tUs; tBytes] [VN caller; VN from; VL ids; VL xs; VB data] ->
      exists rest, ans caller input = Some (be_bytes 4 S_onReceived ++ rest)) ->
    is_ok (execute s (Some (s1, ans)) caller c st v call ext) = false.
  Proof.
    intros R1 R2 Ha. destruct (execute s (Some (s1, ans)) caller c st v call ext) as [[s' o]|] eqn:E; [exfalso|reflexivity].
    enterE E R1. rewrite d_safeBatchTransferFrom in E. unfold f_safe_batch_transfer in E. rewrite R2 in E. cbn [rbind] in E.
    apply rbind_ok in E. destruct E as [s2 [E _]]. apply accept_ok in E as [[[=] _]|(ans' & a & [= -> ->] & E & _ & Hm)].
    destruct (Ha _ eq_refl) as [rest Hr]. rewrite Hr in E. injection E as <-. vm_compute in Hm. discriminate Hm.
  Qed.
  Lemma sel_received l : read_selector (be_bytes 4 S_onReceived ++ l) = Ok S_onReceived.
  Proof.
    unfold read_selector. rewrite nlen_app. change (nlen (be_bytes 4 S_onReceived)) with 4. rewrite (proj2 (N.leb_le _ _)) by lia.
    cbn [ensure rbind]. reflexivity.
  Qed.
  Theorem C124_batch_never s s1 ans caller c st v from to ids xs data ext : compliant ans ->
    let ts := [tA; tA; tUs; tUs; tBytes] in let args := [VN from; VN to; VL ids; VL xs; VB data] in
    wt_all ts args -> nlen (enc_all ts args) <= USIZE -> caller < 2 ^ 160 ->
    is_ok (execute s (Some (s1, ans)) caller c st v (build_call S_safeBatchTransferFrom ts args) ext) = false.
  Proof.
    intros Hcm ts args Hw Hn Hc. destruct (len_small ts args S_safeBatchTransferFrom Hn Hw eq_refl) as [R1 R2].
    eapply batch_call; [exact R1|exact R2|]. intros input Hin. apply Hcm. rewrite Hin, C116_call.
    - apply sel_received.
    - destruct Hw as (W1 & _ & W3). split; [exact Hc|split; [exact W1|exact W3]].
  Qed.

  (** ** C125: static calls and attached value *)
  Theorem C125_value s r caller c st v call ext : v <> 0 -> is_ok (execute s r caller c st v call ext) = false.
  Proof.
    intros Hv. destruct (execute s r caller c st v call ext) as [x|] eqn:E; [exfalso|reflexivity].
    unfold Erc1155Model.execute in E. inv_ok. apply Hv, N.eqb_eq. assumption.
  Qed.
  (** In a static call only the queries, and the five functions below, can succeed; the queries change
      nothing. *)
  Definition state_changing_view (sel : N) : bool :=
    existsb (N.eqb sel) [S_renounceOwnership; S_transferOwnership; S_createToken; S_setMaxSupply; S_setBaseURI].
  Theorem C125_static_partial s r caller c v call ext s' o sel : read_selector call = Ok sel -> state_changing_view sel = false ->
    execute s r caller c true v call ext = Ok (s', o) -> query sel = true /\ s' = s.
  Proof.
    intros R1 Hv E. apply (execute_ok _ _ _ _ _ _ _ _ _ _ _ _ _ _ R1) in E as (_ & Hn & _ & E). cbn [andb] in Hn.
    unfold dispatch_fn in E. unfold non_payable in Hn. cbn [existsb] in Hn. unfold state_changing_view in Hv. cbn [existsb] in Hv.
    rewrite !orb_false_iff in Hn. destruct Hn as (N1 & N2 & N3 & N4 & N5 & N6 & N7 & N8 & N9 & _).
    rewrite !orb_false_iff in Hv. destruct Hv as (V1 & V2 & V3 & V4 & V5 & _).
    unfold query. cbn [existsb].
    rewrite N1, N2, N3, N4, N5, N6, N7, N8, N9, V1, V2, V3, V4, V5 in E.
    destruct (sel =? S_balanceOf). { split; [reflexivity|]. unfold f_balance_of in E. isargs E. inv_ok. congruence. }
    destruct (sel =? S_balanceOfBatch). { split; [reflexivity|]. unfold f_balance_of_batch in E. isargs E. inv_ok. congruence. }
    destruct (sel =? S_isApprovedForAll). { split; [reflexivity|]. unfold f_is_approved in E. isargs E. inv_ok. congruence. }
    destruct (sel =? S_totalSupply). { split; [reflexivity|]. unfold f_total_supply, f_by_id in E. isargs E. inv_ok. congruence. }
    destruct (sel =? S_exists). { split; [reflexivity|]. unfold f_exists, f_by_id in E. isargs E. inv_ok. congruence. }
    destruct (sel =? S_uri). { split; [reflexivity|]. unfold f_uri, f_by_id in E. isargs E. inv_ok. congruence. }
    destruct (sel =? S_owner). { split; [reflexivity|]. unfold f_owner in E. inv_ok. congruence. }
    discriminate E.
  Qed.
End props.

(** ** Examples and counterexamples *)
(** Collection 1 of account 10; token 0 has 100 minted to account 20, token 1 has 50.  Account 20
    approves 30. *)
Definition xpstep := pstep 1000 10 200 (fun _ => true).
Definition xexec := execute 1000 10 200 (fun _ => true).
Definition c_token initial := build_call S_createToken [tBytes; tU; tU; tA] [VB [65]; VN initial; VN 0; VN 0].
Definition c_mint to id x := build_call S_mint [tA; tU; tU] [VN to; VN id; VN x].
Definition c_approve op := build_call S_setApprovalForAll [tA; tB] [VN op; VN 1].
Definition c_move from to id x := build_call S_safeTransferFrom [tA; tA; tU; tU; tBytes] [VN from; VN to; VN id; VN x; VB []].
Definition c_moves from to ids xs :=
  build_call S_safeBatchTransferFrom [tA; tA; tUs; tUs; tBytes] [VN from; VN to; VL (map VN ids); VL (map VN xs); VB []].
Definition c_burn who id x := build_call S_burn [tA; tU; tU] [VN who; VN id; VN x].
Definition call caller data := PCall caller 1 false 0 data true None.
Definition ex_ops : list pop :=
  [PSft (SCreate 1 10); call 10 (c_token 0); call 10 (c_token 0); call 10 (c_mint 20 0 100); call 10 (c_mint 20 1 50); call 20 (c_approve 30)].
Definition ex_s := run xpstep ex_ops pinit.
Lemma isbytes_check l : forallb (fun b => b <? 256) l = true -> isbytes l.
Proof. intros H. apply Forall_forall. intros b Hb. rewrite forallb_forall in H. apply elem_of_list_In in Hb. apply N.ltb_lt, H, Hb. Qed.
Ltac typed_ops := repeat (apply Forall_nil || (apply Forall_cons; split)); cbn [every typed];
  repeat split; try exact I; apply isbytes_check; vm_compute; reflexivity.
Example ex_typed : Forall (every typed) ex_ops.
Proof. unfold ex_ops, call. typed_ops. Qed.
Example ex_C121 : xexec ex_s None 77 1 true 0 (build_call S_balanceOf [tA; tU] [VN 20; VN 0]) true = Ok (ex_s, word 100) /\
  xexec ex_s None 77 1 true 0 (build_call S_balanceOfBatch [tAs; tUs] [VL [VN 20; VN 30]; VL [VN 1; VN 1]]) true =
    Ok (ex_s, word 32 ++ word 2 ++ word 50 ++ word 0) /\
  xexec ex_s None 77 1 true 0 (build_call S_totalSupply [tU] [VN 1]) true = Ok (ex_s, word 50) /\
  xexec ex_s None 77 1 true 0 (build_call S_isApprovedForAll [tA; tA] [VN 20; VN 30]) true = Ok (ex_s, word 1).
Proof. vm_compute. auto. Qed.
(** The operator moves 7, and burns 3; a stranger moves nothing. *)
Definition ex_more : list pop := [call 30 (c_move 20 40 0 7); call 30 (c_burn 20 0 3); call 50 (c_move 20 50 0 7); call 40 (c_move 40 20 0 1)].
Example ex_C122 : let s := run xpstep ex_more ex_s in
  fst (sbal (p_sft s) 1 0 20) = 91 /\ fst (sbal (p_sft s) 1 0 40) = 6 /\ fst (sbal (p_sft s) 1 0 50) = 0 /\
  approved ex_s 20 1 30 = true /\ approved ex_s 20 1 50 = false.
Proof. vm_compute. auto. Qed.
(** A contract that 40 sends a token to tries to take account 20's tokens when called: [idle] histories
    include re-entrant calls. *)
Definition answer_ok : N -> list N -> option (list N) := fun _ _ => Some (word (S_onReceived * 2 ^ 224)).
Definition ex_idle : list pop :=
  [call 50 (c_move 20 50 0 7); call 10 (c_mint 40 0 9);
   PCall 40 1 false 0 (c_move 40 60 0 2) true (Some ([call 60 (c_move 20 60 0 7); call 60 (c_approve 61)], answer_ok))].
Example ex_C122_idle : Forall (every (idle 20 (fun c op => approved ex_s 20 c op))) ex_idle /\
  let s := run xpstep ex_idle ex_s in fst (sbal (p_sft s) 1 0 20) = 100 /\ fst (sbal (p_sft s) 1 0 60) = 2 /\ approved s 60 1 61 = true.
Proof.
  split; [|vm_compute; auto]. unfold ex_idle, call. repeat (apply Forall_nil || (apply Forall_cons; split)); cbn [every idle typed];
  repeat split; try exact I; try discriminate; try (apply isbytes_check; vm_compute; reflexivity); vm_compute; reflexivity.
Qed.
Example ex_C123 : let s := run xpstep ex_more ex_s in
  credits 1 0 20 (p_logs s) = 101 /\ debits 1 0 20 (p_logs s) = 10 /\ length (p_logs s) = 8%nat /\
  credits 1 0 40 (p_logs s) = 7 /\ debits 1 0 40 (p_logs s) = 1.
Proof. vm_compute. auto. Qed.
Example ex_C123_logged : Forall (every logged) ex_more.
Proof.
  unfold ex_more, call. repeat (apply Forall_nil || (apply Forall_cons; split)); cbn [every logged typed];
  repeat split; try exact I; try (apply isbytes_check; vm_compute; reflexivity); intros ? ? ? ? H; vm_compute in H; discriminate H.
Qed.
(** "Balances are what the Transfer logs add up to" fails for tokens created with an initial
    issuance. *)
Theorem C123_logs_refuted : exists ops, Forall (every typed) ops /\
  let s := run xpstep ops pinit in
  fst (sbal (p_sft s) 1 0 10) = 5 /\ credits 1 0 10 (p_logs s) = 0 /\ debits 1 0 10 (p_logs s) = 0.
Proof. exists [PSft (SCreate 1 10); call 10 (c_token 5)]. split; [unfold call; typed_ops|vm_compute; auto]. Qed.

(** A compliant receiver gets single transfers. *)
Definition answer_std : N -> list N -> option (list N) := fun _ input =>
  match read_selector input with
  | Ok sel => if sel =? S_onReceived then Some (word (S_onReceived * 2 ^ 224))
              else if sel =? S_onBatchReceived then Some (word (S_onBatchReceived * 2 ^ 224)) else None
  | Err _ => None
  end.
Example ex_C124 : compliant answer_std /\
  is_ok (xexec ex_s (Some (ex_s, answer_std)) 20 1 false 0 (c_move 20 60 0 7) true) = true /\
  is_ok (xexec ex_s (Some (ex_s, fun _ _ => Some (word 0))) 20 1 false 0 (c_move 20 60 0 7) true) = false.
Proof.
  split; [|vm_compute; auto]. intros sender input H. unfold answer_std. rewrite H, N.eqb_refl. eexists.
  vm_compute. reflexivity.
Qed.
(** "A contract that implements the receiver interface can receive batches": it cannot, though an
    account without code gets the same batch. *)
Theorem C124_batch_refuted :
  is_ok (xexec ex_s None 20 1 false 0 (c_moves 20 60 [0; 1] [7; 5]) true) = true /\
  is_ok (xexec ex_s (Some (ex_s, answer_std)) 20 1 false 0 (c_moves 20 60 [0; 1] [7; 5]) true) = false /\
  answer_std 20 (build_call S_onBatchReceived [tA; tA; tUs; tUs; tBytes] [VN 20; VN 20; VL [VN 0; VN 1]; VL [VN 7; VN 5]; VB []]) =
    Some (word (S_onBatchReceived * 2 ^ 224)).
Proof. vm_compute. auto. Qed.
(** "A refused transfer is an error the sender sees": a contract that answers fewer than four bytes
    panics the node. *)
Theorem C124_panic_refuted : xexec ex_s (Some (ex_s, fun _ _ => Some [])) 20 1 false 0 (c_move 20 60 0 7) true = Err panic.
Proof. vm_compute. reflexivity. Qed.
(** "When it is asked, the receiver already has the tokens": what it tries to forward is not there. *)
Theorem C124_before_refuted :
  let s := xpstep ex_s (PCall 20 1 false 0 (c_move 20 60 0 7) true (Some ([call 60 (c_move 60 70 0 7)], answer_ok))) in
  fst (sbal (p_sft s) 1 0 60) = 7 /\ fst (sbal (p_sft s) 1 0 70) = 0 /\
  fst (sbal (p_sft (xpstep s (call 60 (c_move 60 70 0 7)))) 1 0 70) = 7.
Proof. vm_compute. auto. Qed.
(** "A contract that refuses tokens is not sent any": minting does not ask. *)
Theorem C124_mint_refuted : exists s' o,
  xexec ex_s (Some (ex_s, fun _ _ => None)) 10 1 false 0 (c_mint 60 0 9) true = Ok (s', o) /\ fst (sbal (p_sft s') 1 0 60) = 9.
Proof. eexists _, _. split; vm_compute; reflexivity. Qed.

(** "A static call changes nothing": these five do. *)
Definition c_owner new := build_call S_transferOwnership [tA] [VN new].
Theorem C125_static_refuted : exists s',
  xexec ex_s None 10 1 true 0 (c_owner 66) true = Ok (s', word 1) /\
  option_map sc_owner (scolls (p_sft ex_s) !! 1) = Some 10 /\ option_map sc_owner (scolls (p_sft s') !! 1) = Some 66.
Proof. eexists. split; [|split]; vm_compute; reflexivity. Qed.
Theorem C125_static_others_refuted :
  (exists s', xexec ex_s None 10 1 true 0 (build_call S_renounceOwnership [] []) true = Ok (s', word 1) /\
     option_map sc_owner (scolls (p_sft s') !! 1) = Some 0) /\
  (exists s', xexec ex_s None 10 1 true 0 (c_token 5) true = Ok (s', word 2) /\ fst (sbal (p_sft s') 1 2 10) = 5) /\
  (exists s', xexec ex_s None 10 1 true 0 (build_call S_setMaxSupply [tU; tU] [VN 0; VN 200]) true = Ok (s', []) /\
     option_map t_max (stoks (p_sft s') !! (1, 0)) = Some (Some 200)) /\
  (exists s', xexec ex_s None 10 1 true 0 (build_call S_setBaseURI [tBytes] [VB [104]]) true = Ok (s', []) /\ p_uri s' !! 1 = Some [104]).
Proof. split; [|split; [|split]]; eexists; split; vm_compute; reflexivity. Qed.
Example ex_C125 : is_ok (xexec ex_s None 20 1 true 0 (c_move 20 40 0 7) true) = false /\
  is_ok (xexec ex_s None 20 1 false 0 (c_move 20 40 0 7) true) = true /\
  is_ok (xexec ex_s None 20 1 false 1 (c_move 20 40 0 7) true) = false.
Proof. vm_compute. auto. Qed.

Print Assumptions C121_balance_of.
Print Assumptions C121_balance_of_batch.
Print Assumptions C121_supply.
Print Assumptions C121_approval_and_owner.
Print Assumptions C121_wide_id.
Print Assumptions C121_uri_distinct.
Print Assumptions C122_only_holder_or_operator.
Print Assumptions C122_approval_exact.
Print Assumptions C122_holder_can.
Print Assumptions C123_transfer.
Print Assumptions C123_batch_transfer.
Print Assumptions C123_burn.
Print Assumptions C123_burn_batch.
Print Assumptions C123_mint.
Print Assumptions C123_mint_batch.
Print Assumptions C123_logs_partial.
Print Assumptions C123_logs_refuted.
Print Assumptions C124_accepted.
Print Assumptions C124_batch_never.
Print Assumptions C124_batch_refuted.
Print Assumptions C124_panic_refuted.
Print Assumptions C124_before_refuted.
Print Assumptions C124_mint_refuted.
Print Assumptions C125_value.
Print Assumptions C125_static_partial.
Print Assumptions C125_static_refuted.
Print Assumptions C125_static_others_refuted.
