(** Lemmas about the ERC-1155 precompile. *)
From Verif Require Export Erc1155Model SftProofs AbiProofs.
From Verif Require Import FpassProofs SftProps AbiProps.
From Verif Require Export SftModel.

(** ** Reading arguments *)
Ltac isargs H :=
  let a := fresh "a" in let E := fresh "Ea" in
  apply rbind_ok in H; destruct H as [a [E H]]; cbv beta in H;
  repeat (match type of H with match ?x with _ => _ end = Ok _ => destruct x; try discriminate H end).

(** What a Transfer log says: from, to, and the amounts of each token id. *)
Definition log_moves (g : elog) : option (N * N * list (N * N)) :=
  match lg_topics g with
  | [t; _; from; to] =>
      if t =? L_single then
        match read_all [tU; tU] (lg_data g) 0 with
        | Ok ([VN id; VN x], _) => Some (from, to, [(id, x)]) | _ => None end
      else if t =? L_batch then
        match read_all [tUs; tUs] (lg_data g) 0 with
        | Ok ([VL ids; VL xs], _) => Some (from, to, combine (nums ids) (nums xs)) | _ => None end
      else None
  | _ => None
  end.

Lemma out_spec ts l : wt_all ts l -> out ts l = enc_all ts l.
Proof. apply build_all. Qed.
Lemma read_enc ts l : wt_all ts l -> nlen (enc_all ts l) <= USIZE ->
  read_all ts (enc_all ts l) 0 = Ok (l, N.of_nat (hsize (parts ts l))).
Proof.
  intros Hw Hs. apply read_all_seq; auto.
  - apply Forall_forall. intros t _. apply read_spec.
  - exists [], []. rewrite app_nil_r. auto.
Qed.
Lemma wt_tU n : n < 2 ^ 256 <-> wt tU (VN n).
Proof. unfold tU. cbn [wt fits]. unfold U256MAX. split; [intros; split; lia|intros [_ H]; exact H]. Qed.
Lemma wt_nums l : Forall (wt tU) l -> l = map VN (nums l).
Proof.
  induction 1 as [|x l Hx Hl IH]; [reflexivity|]. cbn [nums map]. unfold nums in IH. rewrite <- IH.
  destruct x; [reflexivity|contradiction..].
Qed.
Lemma nums_map l : nums (map VN l) = l.
Proof. unfold nums. rewrite map_map. cbn. apply map_id. Qed.
Lemma enc_single_len id x : nlen (enc_all [tU; tU] [VN id; VN x]) = 64.
Proof. reflexivity. Qed.
Lemma enc_us_len l : Forall (wt tU) l -> nlen (enc tUs (VL l)) = 32 + 32 * N.of_nat (length l).
Proof.
  intros Hl. change (enc tUs (VL l)) with (word (N.of_nat (length l)) ++ abi_seq (map (fun x => (is_static tU, enc tU x)) l)).
  rewrite nlen_app, nlen_word. f_equal.
  change (is_static tU) with true. unfold abi_seq. rewrite nlen_app. unfold nlen. rewrite heads_length.
  assert (H : hsize (map (fun x => (true, enc tU x)) l) = (32 * length l)%nat /\ tails (map (fun x => (true, enc tU x)) l) = []).
  { induction Hl as [|x l Hx Hl [IH1 IH2]]; [auto|]. cbn [map hsize tails length]. rewrite IH1, IH2.
    destruct x; [|contradiction..]. change (enc tU (VN n)) with (word n). rewrite word_length. split; [lia|reflexivity]. }
  destruct H as [-> ->]. cbn [length]. lia.
Qed.
Lemma enc_batch_len l1 l2 : Forall (wt tU) l1 -> Forall (wt tU) l2 ->
  nlen (enc_all [tUs; tUs] [VL l1; VL l2]) = 128 + 32 * N.of_nat (length l1) + 32 * N.of_nat (length l2).
Proof.
  intros H1 H2. unfold enc_all, abi_seq. rewrite nlen_app.
  unfold nlen at 1. rewrite heads_length. unfold parts. change (is_static tUs) with false. cbn [hsize tails].
  rewrite app_nil_r, nlen_app, !enc_us_len by assumption. lia.
Qed.
Lemma log_single c caller from to id x : id < 2 ^ 256 -> x < 2 ^ 256 ->
  log_moves (Elog c [L_single; caller; from; to] (out [tU; tU] [VN id; VN x])) = Some (from, to, [(id, x)]).
Proof.
  intros H1 H2. assert (W : wt_all [tU; tU] [VN id; VN x]) by (split; [apply wt_tU, H1|split; [apply wt_tU, H2|exact I]]).
  unfold log_moves. cbn [lg_topics lg_data]. rewrite N.eqb_refl, out_spec, read_enc; auto.
  rewrite enc_single_len. vm_compute. discriminate.
Qed.
Lemma log_batch c caller from to l1 l2 : Forall (wt tU) l1 -> Forall (wt tU) l2 ->
  N.of_nat (length l1) <= 2 ^ 20 -> N.of_nat (length l2) <= 2 ^ 20 ->
  log_moves (Elog c [L_batch; caller; from; to] (out [tUs; tUs] [VL l1; VL l2])) = Some (from, to, combine (nums l1) (nums l2)).
Proof.
  intros W1 W2 H1 H2. assert (W : wt_all [tUs; tUs] [VL l1; VL l2]).
  { split; [apply wt_vec; split; [unfold U32MAX; lia|exact W1]|split; [apply wt_vec; split; [unfold U32MAX; lia|exact W2]|exact I]]. }
  unfold log_moves. cbn [lg_topics lg_data]. change (L_batch =? L_single) with false. cbn iota. rewrite N.eqb_refl, out_spec, read_enc; auto.
  rewrite enc_batch_len by auto. unfold USIZE, U32MAX. lia.
Qed.

Ltac pickg :=
  repeat match goal with |- (if ?a =? ?b then _ else _) = _ =>
    let v := eval vm_compute in (a =? b) in rewrite (eq_refl v : (a =? b) = v); cbv iota end.

Section proofs.
  Variable max_owners max_serials string_limit : N.
  Variable utf8 : list N -> bool.
  Hypothesis max_small : max_serials <= 2 ^ 20.
  Notation sexec := (sexec max_owners max_serials).
  Notation execute := (execute max_owners max_serials string_limit utf8).
  Notation pstep := (pstep max_owners max_serials string_limit utf8).

  (** ** What a successful call did, after the receiver was asked *)
  (** [authorised s caller c o]: the token operation [o] belongs to collection [c] and acts for the
      caller or for an account that approved the caller. *)
  Definition authorised (s : pstate) (caller c : N) (o : sop) : Prop :=
    match o with
    | STransfer who d l to => d = c /\ to <> 0 /\ (who = caller \/ approved s who c caller = true)
    | SBurn who d l => d = c /\ (who = caller \/ approved s who c caller = true)
    | SMint who d l to _ => d = c /\ who = caller
    | SToken who d _ _ _ _ => d = c /\ who = caller
    | SSetMax who d _ _ | SSetOwner who d _ | SSetPublic who d _ _ => d = c /\ who = caller
    | _ => False
    end.
  (** The Transfer log an operation should leave. *)
  Definition op_moves (o : sop) : option (N * N * list (N * N)) :=
    match o with
    | STransfer who _ l to => Some (who, to, l)
    | SBurn who _ l => Some (who, 0, l)
    | SMint _ _ l to _ => Some (0, to, l)
    | _ => None
    end.
  Inductive eff (caller c : N) (call : list N) : pstate -> pstate -> Prop :=
  | eff_same s : eff caller c call s s
  | eff_appr s operator (ok : bool) g : caller <> operator -> lg_coll g = c -> log_moves g = None ->
      eff caller c call s (PState (p_sft s)
        (if ok then <[(caller, c, operator) := tt]> (p_appr s) else delete (caller, c, operator) (p_appr s))
        (p_uri s) (p_fee s) (p_logs s ++ [g]))
  | eff_sft s o x g : sexec (p_sft s) o = Ok x -> sop_u128 o -> authorised s caller c o ->
      lg_coll g = c -> log_moves g = op_moves o ->
      (forall w d initial m own e, o = SToken w d initial m own e ->
         exists name mx ow, read_selector call = Ok S_createToken /\
           read_args [tBytes; tU; tU; tA] call = Ok [VB name; VN initial; VN mx; VN ow]) ->
      eff caller c call s (PState x (p_appr s) (p_uri s) (p_fee s) (p_logs s ++ [g]))
  | eff_meta s u f g : lg_coll g = c -> log_moves g = None ->
      eff caller c call s (PState (p_sft s) (p_appr s) u f (p_logs s ++ [g])).

  Lemma args_wt ts call l : forallb okty ts = true -> isbytes call -> read_args ts call = Ok l -> wt_all ts l.
  Proof. apply C118_in_range. Qed.
  Lemma all_le_wt mx l : mx <= U128MAX -> Forall (wt tU) l -> all_le mx (nums l) = true -> Forall (fun n => n <= mx) (nums l).
  Proof.
    intros _ _ H. unfold all_le in H. rewrite forallb_forall in H. apply Forall_forall. intros x Hx.
    apply elem_of_list_In in Hx. apply N.leb_le, H, Hx.
  Qed.
  Lemma accept_ok s r sender input magic s1 : accept s r sender input magic = Ok s1 ->
    (r = None /\ s1 = s) \/ exists ans o, r = Some (s1, ans) /\ ans sender input = Some o /\ (4 <= length o)%nat /\ of_be (firstn 4 o) = magic.
  Proof.
    unfold accept. destruct r as [[s' ans]|]; [|intros [= <-]; auto].
    destruct (ans sender input) as [o|] eqn:Ea; [|discriminate]. intros H.
    inv_ok. subst s'. right. exists ans, o. repeat split; auto.
    - apply Nat.leb_le. assumption.
    - apply N.eqb_eq. assumption.
  Qed.
  Lemma may_move_ok s from c caller : may_move s from c caller = true -> from = caller \/ approved s from c caller = true.
  Proof. unfold may_move. intros H. apply orb_true_iff in H as [H|H]; [left; apply N.eqb_eq; exact H|auto]. Qed.
  Lemma trunc_ok {A} (x : A) (P : list A -> Prop) : ~ P [] -> P (truncate max_serials [x]) -> truncate max_serials [x] = [x].
  Proof.
    intros H0 H. unfold truncate in *. destruct (N.to_nat max_serials); [contradiction|]. cbn. destruct n; reflexivity.
  Qed.
  Lemma combine_len ids xs : N.of_nat (length (combine (nums ids) (nums xs))) <= max_serials -> length ids = length xs ->
    N.of_nat (length ids) <= 2 ^ 20 /\ N.of_nat (length xs) <= 2 ^ 20.
  Proof. rewrite combine_length. unfold nums. rewrite !map_length. intros H E. lia. Qed.

  Ltac nolog := unfold log_moves; cbn [lg_topics]; first [reflexivity|vm_compute; reflexivity].

  Lemma safe_transfer_inv s caller c from to ids xs s2 : do_safe_transfer max_owners max_serials s caller c from to ids xs = Ok s2 ->
    length ids = length xs /\ exists x, sexec (p_sft s) (STransfer from c (combine ids xs) to) = Ok x /\ s2 = with_sft s x /\
    authorised s caller c (STransfer from c (combine ids xs) to) /\ N.of_nat (length (combine ids xs)) <= max_serials.
  Proof.
    unfold do_safe_transfer. intros H. inv_ok. subst s2. split; [apply Nat.eqb_eq; assumption|]. exists v. split; [assumption|]. split; [reflexivity|].
    split; [|apply N.leb_le; assumption]. split; [reflexivity|]. split.
    - match goal with H : negb (to =? 0) = true |- _ => apply negb_true_iff, N.eqb_neq in H; exact H end.
    - apply may_move_ok. assumption.
  Qed.

  Lemma execute_inv s r caller c static value call ext s' o : isbytes call ->
    execute s r caller c static value call ext = Ok (s', o) ->
    exists s1, (s1 = s \/ exists ans, r = Some (s1, ans)) /\ eff caller c call s1 s'.
  Proof.
    intros Hb H. unfold execute in H.
    apply rbind_ok in H. destruct H as [i0 [Hc H]]. cbv beta in H.
    apply rbind_ok in H. destruct H as [sel [Hsel H]]. cbv beta in H. do 2 inv_ok1. unfold dispatch_fn in H.
    destruct (sel =? S_balanceOf). { unfold f_balance_of in H. isargs H. inv_ok. injection H as <- <-. eexists; split; [left; reflexivity|constructor]. }
    destruct (sel =? S_balanceOfBatch). { unfold f_balance_of_batch in H. isargs H. inv_ok. injection H as <- <-. eexists; split; [left; reflexivity|constructor]. }
    destruct (sel =? S_setApprovalForAll).
    { unfold f_set_approval in H. isargs H. inv_ok. injection H as <- <-.
      exists s. split; [auto|]. refine (eff_appr caller c call s n (n0 =? 1) _ _ _ _); [|reflexivity|nolog].
      apply negb_true_iff in E1. apply N.eqb_neq in E1. exact E1. }
    destruct (sel =? S_isApprovedForAll). { unfold f_is_approved in H. isargs H. inv_ok. injection H as <- <-. eexists; split; [left; reflexivity|constructor]. }
    destruct (sel =? S_safeTransferFrom).
    { unfold f_safe_transfer in H. isargs H.
      apply rbind_ok in H. destruct H as [s1 [Ha H]]. cbv beta in H. inv_ok. injection H as <- <-.
      rename v into s2. match goal with H : do_safe_transfer _ _ _ _ _ _ _ _ _ = _ |- _ => apply safe_transfer_inv in H as (_ & x & Hx & -> & Hau & _) end.
      exists s1. split. { apply accept_ok in Ha as [[_ ->]|(ans & ? & -> & _)]; eauto. }
      refine (eff_sft caller c call s1 (STransfer n c [(n1, n2)] n0) x _ Hx I Hau _ _ _); [reflexivity| |intros ? ? ? ? ? ? [=]].
      apply log_single; unfold U32MAX, U128MAX in *; lia. }
    destruct (sel =? S_safeBatchTransferFrom).
    { unfold f_safe_batch_transfer in H. isargs H. 
      apply rbind_ok in H. destruct H as [s1 [Ha H]]. cbv beta in H. inv_ok. injection H as <- <-.
      rename v into s2. match goal with H : do_safe_transfer _ _ _ _ _ _ _ _ _ = _ |- _ => apply safe_transfer_inv in H as (Hl & x & Hx & -> & Hau & Hn) end.
      apply args_wt in Ea; [|reflexivity|exact Hb]. destruct Ea as (_ & _ & W1 & W2 & _). apply wt_vec in W1 as [_ W1]. apply wt_vec in W2 as [_ W2].
      unfold nums in Hl. rewrite !map_length in Hl. destruct (combine_len l l0 Hn Hl) as [L1 L2].
      exists s1. split. { apply accept_ok in Ha as [[_ ->]|(ans & ? & -> & _)]; eauto. }
      refine (eff_sft caller c call s1 (STransfer n c _ n0) x _ Hx I Hau _ _ _); [reflexivity| |intros ? ? ? ? ? ? [=]].
      apply log_batch; assumption. }
    destruct (sel =? S_burn).
    { unfold f_burn in H. isargs H. inv_ok. injection H as <- <-. exists s. split; [auto|].
      assert (T : truncate max_serials [(n0, n1)] = [(n0, n1)]).
      { apply (trunc_ok (n0, n1) (fun l => sburn max_serials (p_sft s) n c l = Ok v)); [|assumption]. intros HH. unfold sburn in HH. inv_ok. discriminate. }
      rewrite T in *. refine (eff_sft caller c call s (SBurn n c [(n0, n1)]) v _ _ I _ _ _ _); [assumption| |reflexivity| |intros ? ? ? ? ? ? [=]].
      - split; [reflexivity|]. apply may_move_ok. assumption.
      - apply log_single; unfold U32MAX, U128MAX in *; lia. }
    destruct (sel =? S_burnBatch).
    { unfold f_burn_batch in H. isargs H. inv_ok. injection H as <- <-. exists s. split; [auto|].
      apply args_wt in Ea; [|reflexivity|exact Hb]. destruct Ea as (_ & W1 & W2 & _). apply wt_vec in W1 as [_ W1]. apply wt_vec in W2 as [_ W2].
      match goal with H : Nat.eqb _ _ = true |- _ => apply Nat.eqb_eq in H; rename H into Hl end.
      match goal with H : (N.of_nat (length (combine _ _)) <=? _) = true |- _ => apply N.leb_le in H; destruct (combine_len l l0 H Hl) as [L1 L2] end.
      refine (eff_sft caller c call s (SBurn n c _) v _ _ I _ _ _ _); [eassumption| |reflexivity| |intros ? ? ? ? ? ? [=]].
      - split; [reflexivity|]. apply may_move_ok. assumption.
      - apply log_batch; assumption. }
    destruct (sel =? S_totalSupply). { unfold f_total_supply, f_by_id in H. isargs H. inv_ok. injection H as <- <-. eexists; split; [left; reflexivity|constructor]. }
    destruct (sel =? S_exists). { unfold f_exists, f_by_id in H. isargs H. inv_ok. injection H as <- <-. eexists; split; [left; reflexivity|constructor]. }
    destruct (sel =? S_uri). { unfold f_uri, f_by_id in H. isargs H. inv_ok. injection H as <- <-. eexists; split; [left; reflexivity|constructor]. }
    destruct (sel =? S_owner). { unfold f_owner in H. inv_ok. injection H as <- <-. eexists; split; [left; reflexivity|constructor]. }
    destruct (sel =? S_renounceOwnership).
    { unfold f_set_owner in H. inv_ok. injection H as <- <-. exists s. split; [auto|].
      refine (eff_sft caller c call s (SSetOwner caller c 0) v _ _ I _ _ _ _); [assumption|split; reflexivity|reflexivity|nolog|intros ? ? ? ? ? ? [=]]. }
    destruct (sel =? S_transferOwnership).
    { unfold f_transfer_ownership, f_set_owner in H. isargs H. inv_ok. injection H as <- <-. exists s. split; [auto|].
      refine (eff_sft caller c call s (SSetOwner caller c n) v _ _ I _ _ _ _); [assumption|split; reflexivity|reflexivity|nolog|intros ? ? ? ? ? ? [=]]. }
    destruct (sel =? S_createToken) eqn:Esel.
    { apply N.eqb_eq in Esel. unfold f_create_token in H. isargs H. inv_ok. injection H as <- <-. exists s. split; [auto|].
      refine (eff_sft caller c call s (SToken caller c n _ _ ext) v0 _ _ _ _ _ _ _); [eassumption| |split; reflexivity|reflexivity|nolog|].
      - cbn [sop_u128]. apply N.leb_le. assumption.
      - intros w d ini m own e [= <- <- <- _ _ _]. exists b, n0, n1. rewrite Hsel, Esel. auto. }
    destruct (sel =? S_mint).
    { unfold f_mint in H. isargs H. inv_ok. injection H as <- <-. exists s. split; [auto|].
      assert (T : truncate max_serials [(n0, n1)] = [(n0, n1)]).
      { apply (trunc_ok (n0, n1) (fun l => smint max_owners max_serials (p_sft s) caller c l n ext = Ok v)); [|assumption]. intros HH. unfold smint in HH. inv_ok. discriminate. }
      rewrite T in *. refine (eff_sft caller c call s (SMint caller c [(n0, n1)] n ext) v _ _ I _ _ _ _); [assumption|split; reflexivity|reflexivity| |intros ? ? ? ? ? ? [=]].
      apply log_single; unfold U32MAX, U128MAX in *; lia. }
    destruct (sel =? S_mintBatch).
    { unfold f_mint_batch in H. isargs H. inv_ok. injection H as <- <-. exists s. split; [auto|].
      apply args_wt in Ea; [|reflexivity|exact Hb]. destruct Ea as (_ & W1 & W2 & _). apply wt_vec in W1 as [_ W1]. apply wt_vec in W2 as [_ W2].
      match goal with H : Nat.eqb _ _ = true |- _ => apply Nat.eqb_eq in H; symmetry in H; rename H into Hl end.
      match goal with H : (N.of_nat (length (combine _ _)) <=? _) = true |- _ => apply N.leb_le in H; destruct (combine_len l l0 H Hl) as [L1 L2] end.
      refine (eff_sft caller c call s (SMint caller c _ n ext) v _ _ I _ _ _ _); [eassumption|split; reflexivity|reflexivity| |intros ? ? ? ? ? ? [=]].
      apply log_batch; assumption. }
    destruct (sel =? S_setMaxSupply).
    { unfold f_set_max in H. isargs H. inv_ok. injection H as <- <-. exists s. split; [auto|].
      refine (eff_sft caller c call s (SSetMax caller c n n0) v _ _ I _ _ _ _); [assumption|split; reflexivity|reflexivity|nolog|intros ? ? ? ? ? ? [=]]. }
    destruct (sel =? S_setBaseURI).
    { unfold f_set_base_uri in H. isargs H. inv_ok. injection H as <- <-. exists s. split; [auto|].
      apply (eff_meta caller c call s); [reflexivity|nolog]. }
    destruct (sel =? S_togglePublicMint).
    { unfold f_toggle in H. isargs H. inv_ok. injection H as <- <-. exists s. split; [auto|].
      refine (eff_sft caller c call s (SSetPublic caller c n (n0 =? 1)) v _ _ I _ _ _ _); [assumption|split; reflexivity|reflexivity|nolog|intros ? ? ? ? ? ? [=]]. }
    destruct (sel =? S_setMintFee).
    { unfold f_set_fee in H. isargs H. inv_ok. injection H as <- <-. exists s. split; [auto|].
      apply (eff_meta caller c call s); [reflexivity|nolog]. }
    discriminate H.
  Qed.

  (** ** The function behind each selector *)
  Lemma execute_eq s r caller c st v call ext sel i : scolls (p_sft s) !! c = Some i -> read_selector call = Ok sel ->
    st && non_payable sel = false ->
    execute s r caller c st 0 call ext = dispatch_fn max_owners max_serials string_limit utf8 sel s r caller c call ext /\
    (v <> 0 -> is_ok (execute s r caller c st v call ext) = false).
  Proof.
    intros Hc Hs Hn. unfold Erc1155Model.execute. rewrite Hc, Hs. cbn [of_opt rbind]. rewrite Hn. cbn [negb ensure rbind].
    split; [reflexivity|]. intros Hv. rewrite (proj2 (N.eqb_neq v 0)) by exact Hv. reflexivity.
  Qed.
  Lemma execute_ok s r caller c st v call ext sel x : read_selector call = Ok sel -> execute s r caller c st v call ext = Ok x ->
    v = 0 /\ st && non_payable sel = false /\ (exists i, scolls (p_sft s) !! c = Some i) /\
    dispatch_fn max_owners max_serials string_limit utf8 sel s r caller c call ext = Ok x.
  Proof.
    intros Hs H. unfold Erc1155Model.execute in H. rewrite Hs in H. inv_ok.
    assert (v1 = sel) by congruence. subst v1.
    split; [apply N.eqb_eq; assumption|]. split; [apply negb_true_iff; assumption|]. split; [eauto|assumption].
  Qed.
  Lemma d_balanceOf s r caller c call ext : dispatch_fn max_owners max_serials string_limit utf8 S_balanceOf s r caller c call ext = f_balance_of s c call.
  Proof. unfold dispatch_fn. pickg. reflexivity. Qed.
  Lemma d_balanceOfBatch s r caller c call ext : dispatch_fn max_owners max_serials string_limit utf8 S_balanceOfBatch s r caller c call ext = f_balance_of_batch s c call.
  Proof. unfold dispatch_fn. pickg. reflexivity. Qed.
  Lemma d_setApprovalForAll s r caller c call ext : dispatch_fn max_owners max_serials string_limit utf8 S_setApprovalForAll s r caller c call ext = f_set_approval s caller c call.
  Proof. unfold dispatch_fn. pickg. reflexivity. Qed.
  Lemma d_isApprovedForAll s r caller c call ext : dispatch_fn max_owners max_serials string_limit utf8 S_isApprovedForAll s r caller c call ext = f_is_approved s c call.
  Proof. unfold dispatch_fn. pickg. reflexivity. Qed.
  Lemma d_safeTransferFrom s r caller c call ext : dispatch_fn max_owners max_serials string_limit utf8 S_safeTransferFrom s r caller c call ext = f_safe_transfer max_owners max_serials s r caller c call.
  Proof. unfold dispatch_fn. pickg. reflexivity. Qed.
  Lemma d_safeBatchTransferFrom s r caller c call ext : dispatch_fn max_owners max_serials string_limit utf8 S_safeBatchTransferFrom s r caller c call ext = f_safe_batch_transfer max_owners max_serials s r caller c call.
  Proof. unfold dispatch_fn. pickg. reflexivity. Qed.
  Lemma d_burn s r caller c call ext : dispatch_fn max_owners max_serials string_limit utf8 S_burn s r caller c call ext = f_burn max_serials s caller c call.
  Proof. unfold dispatch_fn. pickg. reflexivity. Qed.
  Lemma d_burnBatch s r caller c call ext : dispatch_fn max_owners max_serials string_limit utf8 S_burnBatch s r caller c call ext = f_burn_batch max_serials s caller c call.
  Proof. unfold dispatch_fn. pickg. reflexivity. Qed.
  Lemma d_totalSupply s r caller c call ext : dispatch_fn max_owners max_serials string_limit utf8 S_totalSupply s r caller c call ext = f_total_supply s c call.
  Proof. unfold dispatch_fn. pickg. reflexivity. Qed.
  Lemma d_exists s r caller c call ext : dispatch_fn max_owners max_serials string_limit utf8 S_exists s r caller c call ext = f_exists s c call.
  Proof. unfold dispatch_fn. pickg. reflexivity. Qed.
  Lemma d_uri s r caller c call ext : dispatch_fn max_owners max_serials string_limit utf8 S_uri s r caller c call ext = f_uri utf8 s c call.
  Proof. unfold dispatch_fn. pickg. reflexivity. Qed.
  Lemma d_owner s r caller c call ext : dispatch_fn max_owners max_serials string_limit utf8 S_owner s r caller c call ext = f_owner s c.
  Proof. unfold dispatch_fn. pickg. reflexivity. Qed.
  Lemma d_renounceOwnership s r caller c call ext : dispatch_fn max_owners max_serials string_limit utf8 S_renounceOwnership s r caller c call ext = f_set_owner s caller c 0.
  Proof. unfold dispatch_fn. pickg. reflexivity. Qed.
  Lemma d_transferOwnership s r caller c call ext : dispatch_fn max_owners max_serials string_limit utf8 S_transferOwnership s r caller c call ext = f_transfer_ownership s caller c call.
  Proof. unfold dispatch_fn. pickg. reflexivity. Qed.
  Lemma d_createToken s r caller c call ext : dispatch_fn max_owners max_serials string_limit utf8 S_createToken s r caller c call ext = f_create_token string_limit utf8 s caller c call ext.
  Proof. unfold dispatch_fn. pickg. reflexivity. Qed.
  Lemma d_mint s r caller c call ext : dispatch_fn max_owners max_serials string_limit utf8 S_mint s r caller c call ext = f_mint max_owners max_serials s caller c call ext.
  Proof. unfold dispatch_fn. pickg. reflexivity. Qed.
  Lemma d_mintBatch s r caller c call ext : dispatch_fn max_owners max_serials string_limit utf8 S_mintBatch s r caller c call ext = f_mint_batch max_owners max_serials s caller c call ext.
  Proof. unfold dispatch_fn. pickg. reflexivity. Qed.
  Lemma d_setMaxSupply s r caller c call ext : dispatch_fn max_owners max_serials string_limit utf8 S_setMaxSupply s r caller c call ext = f_set_max s caller c call.
  Proof. unfold dispatch_fn. pickg. reflexivity. Qed.
  Lemma d_setBaseURI s r caller c call ext : dispatch_fn max_owners max_serials string_limit utf8 S_setBaseURI s r caller c call ext = f_set_base_uri s caller c call.
  Proof. unfold dispatch_fn. pickg. reflexivity. Qed.
  Lemma d_togglePublicMint s r caller c call ext : dispatch_fn max_owners max_serials string_limit utf8 S_togglePublicMint s r caller c call ext = f_toggle s caller c call.
  Proof. unfold dispatch_fn. pickg. reflexivity. Qed.
  Lemma d_setMintFee s r caller c call ext : dispatch_fn max_owners max_serials string_limit utf8 S_setMintFee s r caller c call ext = f_set_fee s caller c call.
  Proof. unfold dispatch_fn. pickg. reflexivity. Qed.
End proofs.
