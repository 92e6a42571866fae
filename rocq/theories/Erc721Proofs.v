(** Lemmas about the ERC-721 precompile. *)
From Verif Require Export Erc721Model NftProofs.
From Verif Require Import AbiProofs AbiProps NftProps Erc1155Proofs.
From Verif Require Export NftModel.

(** What a Transfer log says: from, to and the token id. *)
Definition log_move (g : elog) : option (N * N * N) :=
  match lg_topics g with
  | [t; from; to; n] => if t =? L_transfer then Some (from, to, n) else None
  | _ => None
  end.
Definition tlog (c from to n : N) : elog := Elog c [L_transfer; from; to; n] [].

(** The two forms of [safeTransferFrom]. *)
Definition safe_args (call : list N) (from to id : N) (data : list N) : Prop :=
  (read_selector call = Ok Q_safeTransferFrom /\ read_args [tA; tA; tU] call = Ok [VN from; VN to; VN id] /\ data = []) \/
  (read_selector call = Ok Q_safeTransferFromData /\ read_args [tA; tA; tU; tBytes] call = Ok [VN from; VN to; VN id; VB data]).
(** The bytes of the call that the receiver gets. *)
Definition ask (from to id : N) (data : list N) : list N :=
  build_call Q_onReceived [tA; tA; tU; tBytes] [VN from; VN to; VN id; VB data].

Section proofs.
  Variable cap mint_limit pallet max_xls20 : N.
  Variable utf8 : list N -> bool.
  Notation nexec := (nexec cap mint_limit pallet).
  Notation execute := (execute721 cap mint_limit max_xls20 utf8).
  Notation dispatch := (dispatch721 cap mint_limit max_xls20 utf8).
  Notation estep := (estep cap mint_limit pallet max_xls20 utf8).

  (** ** What a successful call did *)
  (** The token operation belongs to collection [c] and acts for the caller. *)
  Definition acts (caller c : N) (o : nop) : Prop :=
    match o with
    | NTransferFrom k d _ _ _ | NBurnFrom k d _ | NMint k d _ _ _ | NSetMax k d _ | NSetOwner k d _
    | NSetFlags k d _ _ _ _ | NApprove k _ d _ | NApproveAll k _ d _ => k = caller /\ d = c
    | _ => False
    end.
  (** The logs an operation leaves. *)
  Definition told (s : nft) (c : N) (o : nop) (l : list elog) : Prop :=
    match o with
    | NTransferFrom _ _ from to n => l = [tlog c from to n]
    | NBurnFrom _ _ n => exists y, owner_of s c n = Some y /\ l = [tlog c y 0 n]
    | NMint _ _ q to _ => exists i, colls s !! c = Some i /\ l = map (tlog c 0 to) (serials (c_next i) q)
    | _ => Forall (fun g => log_move g = None) l
    end.
  Inductive eff721 (caller c : N) : estate -> estate -> Prop :=
  | x_same s : eff721 caller c s s
  | x_op s o x l : nexec (e_nft s) o = Ok x -> acts caller c o -> told (e_nft s) c o l ->
      eff721 caller c s (EState x (e_name s) (e_uri s) (e_fee s) (e_xrpl s) (e_logs s ++ l))
  | x_meta s u f m l : Forall (fun g => log_move g = None) l ->
      eff721 caller c s (EState (e_nft s) (e_name s) u f m (e_logs s ++ l)).
  Inductive outcome (s : estate) (r : callee721) (caller c : N) (call : list N) (s' : estate) : Prop :=
  | o_eff : eff721 caller c s s' -> outcome s r caller c call s'
  | o_safe s1 ans from to id data x : r = Some (s1, ans) -> is_approved_or_owner (e_nft s) c id caller = true ->
      safe_args call from to id data -> accept721 s r caller (ask from to id data) = Ok s1 ->
      do_transfer cap (e_nft s1) c [id] from to = Ok x ->
      s' = elogs (with_nft s1 x) [tlog c from to id] -> outcome s r caller c call s'.

  Lemma accept721_ok s r sender input s1 : accept721 s r sender input = Ok s1 ->
    (r = None /\ s1 = s) \/ exists ans o, r = Some (s1, ans) /\ ans sender input = Some o /\ (4 <= length o)%nat /\ of_be (firstn 4 o) = Q_onReceived.
  Proof.
    unfold accept721. destruct r as [[s' ans]|]; [|intros [= <-]; auto].
    destruct (ans sender input) as [o|] eqn:Ea; [|discriminate]. intros H.
    inv_ok. subst s'. right. exists ans, o. repeat split; auto.
    - apply Nat.leb_le. assumption.
    - apply N.eqb_eq. assumption.
  Qed.
  Lemma mint_next s who c q to e x : mint cap mint_limit s who c q to e = Ok x ->
    exists i, colls s !! c = Some i /\ c_next i + q <= U32MAX.
  Proof.
    unfold mint. intros H. inv_ok. exists v. split; [assumption|].
    assumption.
  Qed.
  Lemma do_safe_inv s r caller c from to id data call s' o : safe_args call from to id data ->
    g_do_safe cap s r caller c from to id data = Ok (s', o) -> o = [] /\ outcome s r caller c call s'.
  Proof.
    intros Ha H. unfold g_do_safe in H. inv_ok. injection H as <- <-. split; [reflexivity|].
    match goal with H : accept721 _ _ _ _ = _ |- _ => pose proof H as Hacc; apply accept721_ok in H as [[-> ->]|(ans & ? & -> & _)] end.
    - apply o_eff. refine (x_op caller c s (NTransferFrom caller c from to id) v0 _ _ _ _); [|split; reflexivity|reflexivity].
      cbn [NftModel.nexec]. unfold transfer_from. rewrite E0. cbn [ensure rbind]. assumption.
    - eapply o_safe; eauto.
  Qed.
  Ltac nolog := repeat constructor.
  Ltac reads := match goal with H : _ = Ok (_, _) |- _ => injection H as <- <- | H : (_, _) = (_, _) |- _ => injection H as <- <- end; apply o_eff; constructor.

  Lemma execute_outcome s r caller c static value call ext s' o :
    execute s r caller c static value call ext = Ok (s', o) -> outcome s r caller c call s'.
  Proof.
    intros H. unfold execute721 in H.
    apply rbind_ok in H. destruct H as [i0 [Hc H]]. cbv beta in H.
    apply rbind_ok in H. destruct H as [sel [Hsel H]]. cbv beta in H. do 2 inv_ok1. unfold dispatch721 in H.
    destruct (sel =? Q_ownerOf). { unfold g_owner_of, g_by_id in H. isargs H. inv_ok. reads. }
    destruct (sel =? Q_balanceOf). { unfold g_balance_of in H. isargs H. reads. }
    destruct (sel =? Q_approve).
    { unfold g_approve in H. isargs H. inv_ok. injection H as <- <-. apply o_eff.
      refine (x_op caller c s (NApprove caller n c n0) v _ _ _ _); [assumption|split; reflexivity|nolog]. }
    destruct (sel =? Q_getApproved). { unfold g_get_approved, g_by_id in H. isargs H. inv_ok. reads. }
    destruct (sel =? Q_transferFrom).
    { unfold g_transfer in H. isargs H. inv_ok. injection H as <- <-. apply o_eff.
      refine (x_op caller c s (NTransferFrom caller c n n0 n1) v _ _ _ _); [|split; reflexivity|reflexivity].
      cbn [NftModel.nexec]. unfold transfer_from. match goal with H : is_approved_or_owner _ _ _ _ = true |- _ => rewrite H end. assumption. }
    destruct (sel =? Q_safeTransferFrom) eqn:Es.
    { unfold g_safe in H. isargs H. apply N.eqb_eq in Es. subst sel. eapply do_safe_inv; [|exact H]. left. auto. }
    destruct (sel =? Q_safeTransferFromData) eqn:Esd.
    { unfold g_safe_data in H. isargs H. apply N.eqb_eq in Esd. subst sel. eapply do_safe_inv; [|exact H]. right. auto. }
    destruct (sel =? Q_isApprovedForAll). { unfold g_is_approved in H. isargs H. reads. }
    destruct (sel =? Q_setApprovalForAll).
    { unfold g_set_approval in H. isargs H. inv_ok. injection H as <- <-. apply o_eff.
      refine (x_op caller c s (NApproveAll caller n c (n0 =? 1)) v _ _ _ _); [assumption|split; reflexivity|nolog]. }
    destruct (sel =? Q_name). { unfold g_name in H. inv_ok. reads. }
    destruct (sel =? Q_symbol). { unfold g_name in H. inv_ok. reads. }
    destruct (sel =? Q_tokenURI). { unfold g_token_uri, g_by_id in H. isargs H. inv_ok. reads. }
    destruct (sel =? Q_owner). { unfold g_owner in H. inv_ok. reads. }
    destruct (sel =? Q_renounceOwnership).
    { unfold g_set_owner in H. inv_ok. injection H as <- <-. apply o_eff.
      refine (x_op caller c s (NSetOwner caller c 0) v _ _ _ _); [assumption|split; reflexivity|nolog]. }
    destruct (sel =? Q_transferOwnership).
    { unfold g_transfer_ownership, g_set_owner in H. isargs H. inv_ok. injection H as <- <-. apply o_eff.
      refine (x_op caller c s (NSetOwner caller c n) v _ _ _ _); [assumption|split; reflexivity|nolog]. }
    destruct (sel =? Q_burn).
    { unfold g_burn, g_by_id in H. isargs H. inv_ok. injection H as <- <-. apply o_eff.
      refine (x_op caller c s (NBurnFrom caller c n) v0 _ _ _ _); [|split; reflexivity|].
      - cbn [NftModel.nexec]. unfold burn_from.
        match goal with H : is_approved_or_owner _ _ _ _ = true |- _ => rewrite H end.
        match goal with H : owner_of _ _ _ = Some _ |- _ => rewrite H end. assumption.
      - eexists. split; [eassumption|reflexivity]. }
    destruct (sel =? Q_totalSupply). { unfold g_total_supply in H. inv_ok. reads. }
    destruct (sel =? Q_mint).
    { unfold g_mint in H. isargs H. inv_ok. injection H as <- <-. apply o_eff.
      match goal with H : mint _ _ _ _ _ _ _ _ = Ok _ |- _ => pose proof (mint_next _ _ _ _ _ _ _ H) as (i & Hi & Hn) end.
      assert (v = i) by congruence. subst v.
      refine (x_op caller c s (NMint caller c n0 n ext) v0 _ _ _ _); [assumption|split; reflexivity|].
      exists i. split; [exact Hi|]. unfold sat. rewrite N.min_l by exact Hn.
      replace (c_next i + n0 - c_next i) with n0 by lia. reflexivity. }
    destruct (sel =? Q_setMaxSupply).
    { unfold g_set_max in H. isargs H. inv_ok. injection H as <- <-. apply o_eff.
      refine (x_op caller c s (NSetMax caller c n) v _ _ _ _); [assumption|split; reflexivity|nolog]. }
    destruct (sel =? Q_setBaseURI).
    { unfold g_set_base_uri in H. isargs H. inv_ok. injection H as <- <-. apply o_eff. apply (x_meta caller c s). nolog. }
    destruct (sel =? Q_ownedTokens).
    { unfold g_owned in H. isargs H. inv_ok. destruct (owned_tokens _ _ _ _ _) as [[? ?] ?]. reads. }
    destruct (sel =? Q_togglePublicMint).
    { unfold g_toggle in H. isargs H. inv_ok. injection H as <- <-. apply o_eff.
      refine (x_op caller c s (NSetFlags caller c (n =? 1) _ _ _) _ _ _ _ _); [eassumption|split; reflexivity|nolog]. }
    destruct (sel =? Q_setMintFee).
    { unfold g_set_fee in H. isargs H. inv_ok. injection H as <- <-. apply o_eff. apply (x_meta caller c s). nolog. }
    destruct (sel =? Q_enableXls20).
    { unfold g_enable in H. inv_ok. injection H as <- <-. apply o_eff. apply (x_meta caller c s). nolog. }
    destruct (sel =? Q_reRequestXls20).
    { unfold g_re_request in H. isargs H. inv_ok. injection H as <- <-. apply o_eff. apply (x_meta caller c s).
      apply Forall_forall. intros g Hg. apply elem_of_list_In, in_map_iff in Hg as (n & <- & _). reflexivity. }
    destruct (sel =? Q_supportsInterface).
    { unfold g_supports in H. isargs H; reads. }
    discriminate H.
  Qed.

  (** ** The function behind each selector *)
  Lemma exec721_ok s r caller c st v call ext sel x : read_selector call = Ok sel -> execute s r caller c st v call ext = Ok x ->
    v = 0 /\ st && non_payable721 sel = false /\ (exists i, colls (e_nft s) !! c = Some i) /\
    dispatch sel s r caller c call ext = Ok x.
  Proof.
    intros Hs H. unfold execute721 in H. rewrite Hs in H. inv_ok.
    assert (v1 = sel) by congruence. subst v1.
    split; [apply N.eqb_eq; assumption|]. split; [apply negb_true_iff; assumption|]. split; [eauto|assumption].
  Qed.
  Lemma exec721_eq s r caller c st call ext sel i : colls (e_nft s) !! c = Some i -> read_selector call = Ok sel ->
    st && non_payable721 sel = false -> execute s r caller c st 0 call ext = dispatch sel s r caller c call ext.
  Proof. intros Hc Hs Hn. unfold execute721. rewrite Hc, Hs. cbn [of_opt rbind]. rewrite Hn. reflexivity. Qed.
  Lemma q_ownerOf s r caller c call ext : dispatch Q_ownerOf s r caller c call ext = g_owner_of s c call.
  Proof. unfold dispatch721. pickg. reflexivity. Qed.
  Lemma q_balanceOf s r caller c call ext : dispatch Q_balanceOf s r caller c call ext = g_balance_of s c call.
  Proof. unfold dispatch721. pickg. reflexivity. Qed.
  Lemma q_approve s r caller c call ext : dispatch Q_approve s r caller c call ext = g_approve s caller c call.
  Proof. unfold dispatch721. pickg. reflexivity. Qed.
  Lemma q_getApproved s r caller c call ext : dispatch Q_getApproved s r caller c call ext = g_get_approved s c call.
  Proof. unfold dispatch721. pickg. reflexivity. Qed.
  Lemma q_transferFrom s r caller c call ext : dispatch Q_transferFrom s r caller c call ext = g_transfer cap s caller c call.
  Proof. unfold dispatch721. pickg. reflexivity. Qed.
  Lemma q_safeTransferFrom s r caller c call ext : dispatch Q_safeTransferFrom s r caller c call ext = g_safe cap s r caller c call.
  Proof. unfold dispatch721. pickg. reflexivity. Qed.
  Lemma q_safeTransferFromData s r caller c call ext : dispatch Q_safeTransferFromData s r caller c call ext = g_safe_data cap s r caller c call.
  Proof. unfold dispatch721. pickg. reflexivity. Qed.
  Lemma q_isApprovedForAll s r caller c call ext : dispatch Q_isApprovedForAll s r caller c call ext = g_is_approved s c call.
  Proof. unfold dispatch721. pickg. reflexivity. Qed.
  Lemma q_setApprovalForAll s r caller c call ext : dispatch Q_setApprovalForAll s r caller c call ext = g_set_approval s caller c call.
  Proof. unfold dispatch721. pickg. reflexivity. Qed.
  Lemma q_name s r caller c call ext : dispatch Q_name s r caller c call ext = g_name s c.
  Proof. unfold dispatch721. pickg. reflexivity. Qed.
  Lemma q_symbol s r caller c call ext : dispatch Q_symbol s r caller c call ext = g_name s c.
  Proof. unfold dispatch721. pickg. reflexivity. Qed.
  Lemma q_tokenURI s r caller c call ext : dispatch Q_tokenURI s r caller c call ext = g_token_uri utf8 s c call.
  Proof. unfold dispatch721. pickg. reflexivity. Qed.
  Lemma q_owner s r caller c call ext : dispatch Q_owner s r caller c call ext = g_owner s c.
  Proof. unfold dispatch721. pickg. reflexivity. Qed.
  Lemma q_burn s r caller c call ext : dispatch Q_burn s r caller c call ext = g_burn s caller c call.
  Proof. unfold dispatch721. pickg. reflexivity. Qed.
  Lemma q_totalSupply s r caller c call ext : dispatch Q_totalSupply s r caller c call ext = g_total_supply s c.
  Proof. unfold dispatch721. pickg. reflexivity. Qed.
  Lemma q_mint s r caller c call ext : dispatch Q_mint s r caller c call ext = g_mint cap mint_limit s caller c call ext.
  Proof. unfold dispatch721. pickg. reflexivity. Qed.
  Lemma q_ownedTokens s r caller c call ext : dispatch Q_ownedTokens s r caller c call ext = g_owned s c call.
  Proof. unfold dispatch721. pickg. reflexivity. Qed.
  Lemma q_reRequestXls20 s r caller c call ext : dispatch Q_reRequestXls20 s r caller c call ext = g_re_request max_xls20 s caller c call ext.
  Proof. unfold dispatch721. pickg. reflexivity. Qed.
  Lemma q_supportsInterface s r caller c call ext : dispatch Q_supportsInterface s r caller c call ext = g_supports s call.
  Proof. unfold dispatch721. pickg. reflexivity. Qed.
End proofs.
