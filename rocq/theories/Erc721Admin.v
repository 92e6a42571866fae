(** Who may change what an NFT collection shows and allows, through the EVM or the pallet: C133. *)
From Verif Require Import NftProofs AbiProps Erc1155Proofs TokenAdmin Erc721Proofs Erc721Props.
From Verif Require Import NftModel Erc721Model.

(** Everything an owner decides about a collection: who owns it, its maximum, its origin and flags, its
    name, the base of its token URIs and its mint price. *)
Definition decided (s : estate) (c : N) :=
  (option_map settings (colls (e_nft s) !! c), e_name s !! c, e_uri s !! c, e_fee s !! c).

Section admin.
  Variable cap mint_limit pallet max_xls20 : N.
  Variable utf8 : list N -> bool.
  Notation nexec := (nexec cap mint_limit pallet).
  Notation nstep := (nstep cap mint_limit pallet).
  Notation execute := (execute721 cap mint_limit max_xls20 utf8).
  Notation dispatch := (dispatch721 cap mint_limit max_xls20 utf8).
  Notation estep := (estep cap mint_limit pallet max_xls20 utf8).

  (** The operation is not one that account [w], or the chain's root, makes to change collection [c]. *)
  Definition not_by (w c : N) (o : eop) : Prop :=
    match o with
    | ENft (NSetMax x d _) | ENft (NSetOwner x d _) | ENft (NSetFlags x d _ _ _ _) => x <> w \/ d <> c
    | ENft (NClaim d _) => d <> c
    | ENft _ => True
    | EName x d _ => x <> w \/ d <> c
    | ECall x d _ _ _ _ _ => x <> w \/ d <> c
    end.

  Lemma kept_nft s o s' c i : nexec s o = Ok s' -> colls s !! c = Some i -> not_by (c_owner i) c (ENft o) ->
    option_map settings (colls s' !! c) = option_map settings (colls s !! c).
  Proof.
    intros E Hc Hn. destruct (C100_nft_settings cap mint_limit pallet s o s' c i E Hc) as (j & Hj & Hch). rewrite Hj, Hc.
    cbn [option_map]. f_equal. destruct Hch as [j Hs|new ->|new -> _|m -> _ _ _|p m t b ->]; [exact Hs|cbn in Hn..]; try contradiction; destruct Hn; congruence.
  Qed.
  Lemma acts_not_by caller d o w c : acts caller d o -> caller <> w \/ d <> c -> not_by w c (ENft o).
  Proof. destruct o; cbn; auto; intros [-> ->]; auto. Qed.

  (** What a successful call does to the names, URIs and prices. *)
  Lemma exec_meta s r caller c static value call ext s' o :
    execute s r caller c static value call ext = Ok (s', o) ->
    exists s1, (s1 = s \/ exists ans, r = Some (s1, ans)) /\ e_name s' = e_name s1 /\
      forall d, (e_uri s' !! d = e_uri s1 !! d /\ e_fee s' !! d = e_fee s1 !! d) \/
        (d = c /\ exists i, colls (e_nft s) !! c = Some i /\ c_owner i = caller).
  Proof.
    intros H. unfold execute721 in H.
    apply rbind_ok in H. destruct H as [i0 [Hc H]]. cbv beta in H.
    apply rbind_ok in H. destruct H as [sel [Hsel H]]. cbv beta in H. do 2 inv_ok1.
    unfold dispatch721, g_owner_of, g_balance_of, g_approve, g_get_approved, g_transfer, g_is_approved, g_set_approval, g_name, g_token_uri,
      g_owner, g_transfer_ownership, g_set_owner, g_burn, g_total_supply, g_mint, g_set_max, g_owned, g_toggle, g_enable, g_re_request, g_supports, g_by_id in H.
    assert (Q : forall from to id data, g_do_safe cap s r caller c from to id data = Ok (s', o) ->
      exists s1, (s1 = s \/ exists ans, r = Some (s1, ans)) /\ e_name s' = e_name s1 /\
      forall d, (e_uri s' !! d = e_uri s1 !! d /\ e_fee s' !! d = e_fee s1 !! d) \/
        (d = c /\ exists i, colls (e_nft s) !! c = Some i /\ c_owner i = caller)).
    { clear H. intros from to id data H. unfold g_do_safe in H. inv_ok. injection H as <- <-.
      match goal with H : accept721 _ _ _ _ = Ok ?v |- _ => exists v; apply accept721_ok in H as [[-> ->]|(ans & ? & -> & _)] end.
      - split; [auto|]. split; [reflexivity|]. intros d. left. split; reflexivity.
      - split; [eauto|]. split; [reflexivity|]. intros d. left. split; reflexivity. }
    repeat match type of H with (if ?b then _ else _) = Ok _ =>
      match b with
      | _ =? Q_safeTransferFrom => destruct b; [unfold g_safe in H; isargs H; eapply Q, H|]
      | _ =? Q_safeTransferFromData => destruct b; [unfold g_safe_data in H; isargs H; eapply Q, H|]
      | _ =? Q_setBaseURI => destruct b; [unfold g_set_base_uri in H; isargs H; inv_ok; injection H as <- <-; exists s;
          split; [auto|]; split; [reflexivity|]; intros d; destruct (N.eq_dec d c) as [->|Hne];
          [right; split; [reflexivity|]; eexists; split; [eassumption|]; apply N.eqb_eq; assumption
          |left; split; [apply lookup_insert_ne; congruence|reflexivity]]|]
      | _ =? Q_setMintFee => destruct b; [unfold g_set_fee in H; isargs H; inv_ok; injection H as <- <-; exists s;
          split; [auto|]; split; [reflexivity|]; intros d; destruct (N.eq_dec d c) as [->|Hne];
          [right; split; [reflexivity|]; eexists; split; [eassumption|]; apply N.eqb_eq; assumption
          |left; split; [reflexivity|cbn; match goal with |- context[if ?b then _ else _] => destruct b end; [apply lookup_delete_ne|apply lookup_insert_ne]; congruence]]|]
      | _ => destruct b; [
          (try (isargs H)); inv_ok; (try (destruct (owned_tokens _ _ _ _ _) as [[? ?] ?]));
          (injection H as <- <-; exists s; split; [auto|]; split; [reflexivity|]; intros d; left; split; reflexivity)|]
      end end.
    discriminate H.
  Qed.
  Lemma kept_call s r caller d st v call ext s' o c i : 
    execute s r caller d st v call ext = Ok (s', o) ->
    (forall s1 ans, r = Some (s1, ans) -> decided s1 c = decided s c) ->
    colls (e_nft s) !! c = Some i -> caller <> c_owner i \/ d <> c -> decided s' c = decided s c.
  Proof.
    intros E Hr Hc Hn. pose proof (exec_meta _ _ _ _ _ _ _ _ _ _ E) as (s1 & Hs1 & Hname & Hm).
    apply (execute_outcome cap mint_limit pallet) in E.
    assert (D1 : decided s1 c = decided s c) by (destruct Hs1 as [->|[ans Hs1]]; [reflexivity|eapply Hr, Hs1]).
    assert (M : (e_name s' !! c, e_uri s' !! c, e_fee s' !! c) = (e_name s !! c, e_uri s !! c, e_fee s !! c)).
    { unfold decided in D1. injection D1 as _ D2 D3 D4. rewrite Hname. destruct (Hm c) as [[-> ->]|(-> & j & Hj & Ho)]; [congruence|].
      destruct Hn as [Hn|Hn]; congruence. }
    assert (K : option_map settings (colls (e_nft s') !! c) = option_map settings (colls (e_nft s) !! c)); [|unfold decided; congruence].
    destruct E as [E|s2 ans from to id data x Hs2 _ _ _ Hx ->].
    - destruct E as [s|s o0 x l Hx Ha _|s u f m l _]; [reflexivity| |reflexivity]. cbn [e_nft].
      eapply kept_nft; [exact Hx|exact Hc|]. eapply acts_not_by; eassumption.
    - specialize (Hr _ _ Hs2). unfold decided in Hr. injection Hr as Hr _ _ _. rewrite <- Hr. cbn [e_nft elogs with_nft].
      rewrite Hc in Hr. destruct (colls (e_nft s2) !! c) as [j|] eqn:Hj; [|discriminate Hr]. rewrite <- Hj.
      eapply (kept_nft _ (NTransfer from d [id] to)); [exact Hx|exact Hj|exact I].
  Qed.
  (** ** C133: nobody but the owner changes what a collection shows and allows *)
  (** As long as the owner of a collection makes no call that changes it (and root does not hand it over),
      its owner, maximum, flags, name, base URI and mint price stay what they are, whatever other accounts
      and contracts do, also while the chain calls them to deliver tokens. *)
  Theorem C133_nft_owner_only s ops c i : colls (e_nft s) !! c = Some i ->
    Forall (every (not_by (c_owner i) c)) ops -> decided (run estep ops s) c = decided s c.
  Proof.
    intros Hc.
    pose (R := fun s s' : estate => (exists j, colls (e_nft s) !! c = Some j /\ c_owner j = c_owner i) -> decided s' c = decided s c).
    assert (Rp : forall s s', decided s' c = decided s c -> (exists j, colls (e_nft s) !! c = Some j /\ c_owner j = c_owner i) ->
      exists j, colls (e_nft s') !! c = Some j /\ c_owner j = c_owner i).
    { intros x y H (j & Hj & Ho). unfold decided in H. injection H as H _ _ _. rewrite Hj in H. destruct (colls (e_nft y) !! c) as [k|]; [|discriminate].
      exists k. split; [reflexivity|]. cbn in H. unfold settings in H. congruence. }
    assert (Rr : forall s, R s s) by (intros x _; reflexivity).
    assert (Rt : forall x y z, R x y -> R y z -> R x z).
    { intros x y z H1 H2 Hx. specialize (H1 Hx). rewrite (H2 (Rp _ _ H1 Hx)). exact H1. }
    assert (Rs : forall o s, every (not_by (c_owner i) c) o -> R s (estep s o)).
    { clear s Hc ops. induction o as [o|who d name|caller d st v call ext|caller d st v call ext ops ans IH] using eop_all; intros s Hv (j & Hj & Ho).
      - destruct Hv as [Hv _]. cbn [Erc721Model.estep]. unfold decided. cbn [with_nft e_nft e_name e_uri e_fee]. f_equal. f_equal. f_equal.
        unfold NftModel.nstep. destruct (nexec (e_nft s) o) as [x|] eqn:E; cbn [commit]; [|reflexivity].
        eapply kept_nft; [exact E|exact Hj|]. rewrite Ho. exact Hv.
      - destruct Hv as [Hv _]. cbn [Erc721Model.estep]. destruct (set_name utf8 s who d name) as [x|] eqn:E; cbn [commit]; [|reflexivity].
        unfold set_name in E. inv_ok. subst x. unfold decided. cbn [e_nft e_name e_uri e_fee]. f_equal. f_equal. f_equal.
        apply lookup_insert_ne. intros ->. cbn in Hv. match goal with H : (c_owner v =? who) = true |- _ => apply N.eqb_eq in H end.
        assert (v = j) by congruence. subst. destruct Hv; congruence.
      - destruct Hv as [Hv _]. cbn [Erc721Model.estep]. destruct (execute s None caller d st v call ext) as [[s' o]|] eqn:E; [|reflexivity].
        eapply kept_call; [exact E|discriminate|exact Hj|rewrite Ho; exact Hv].
      - destruct Hv as [Hv Hops]. apply every_list in Hops. cbn [Erc721Model.estep]. set (mid := fold_left _ ops s).
        assert (M : R s mid).
        { unfold mid. clear mid Hv Hj j Ho. revert s Hops. induction IH as [|o ops Ho Hf IHf]; intros s Hops; [apply Rr|].
          inversion Hops; subst. cbn [fold_left]. eapply Rt; [apply Ho; assumption|apply IHf; assumption]. }
        destruct (execute s (Some (mid, ans)) caller d st v call ext) as [[s' o]|] eqn:E; [|reflexivity].
        eapply kept_call; [exact E| |exact Hj|rewrite Ho; exact Hv]. intros s1 a [= <- _]. apply M. eauto. }
    intros Hf. assert (G : R s (run estep ops s)); [|apply G; eauto].
    apply (erun_rel cap mint_limit pallet max_xls20 utf8 (not_by (c_owner i) c)); auto.
  Qed.

  (** The owner can set the base URI of a collection of this chain that is not on the XRPL, and only they:
      then it is what [tokenURI] shows, and nothing else changed. *)
  Lemma set_uri_call s r caller c ext uri call : read_selector call = Ok Q_setBaseURI -> read_args [tBytes] call = Ok [VB uri] ->
    execute s r caller c false 0 call ext =
      match colls (e_nft s) !! c with
      | None => Err 20
      | Some i => if negb (c_owner i =? caller) then Err 12
                  else if match e_xrpl s !! c with Some _ => true | None => negb (c_root i) end then Err 13
                  else if 200 <? nlen uri then Err 11
                  else Ok (EState (e_nft s) (e_name s) (<[c := uri]> (e_uri s)) (e_fee s) (e_xrpl s)
                             (e_logs s ++ [Elog c [L_baseURI] (out [tBytes] [VB uri])]), [])
      end.
  Proof.
    intros R1 R2. unfold execute721. destruct (colls (e_nft s) !! c) as [i|] eqn:Ec; [|reflexivity]. cbn [of_opt rbind]. rewrite R1. cbn [rbind].
    change (negb (false && non_payable721 Q_setBaseURI)) with true. change (0 =? 0) with true. cbn [ensure rbind].
    transitivity (g_set_base_uri s caller c call); [reflexivity|]. unfold g_set_base_uri. rewrite R2. cbn [rbind]. rewrite Ec. cbn [of_opt rbind].
    destruct (c_owner i =? caller); [|reflexivity]. cbn [ensure rbind negb].
    destruct (e_xrpl s !! c); [reflexivity|]. cbn [ensure rbind]. destruct (c_root i); [|reflexivity]. cbn [ensure rbind negb].
    rewrite N.ltb_antisym. destruct (nlen uri <=? 200); reflexivity.
  Qed.
  Lemma bytes_call sel uri : sel < 2 ^ 32 -> nlen uri <= 2 ^ 31 -> read_selector (build_call sel [tBytes] [VB uri]) = Ok sel /\
    read_args [tBytes] (build_call sel [tBytes] [VB uri]) = Ok [VB uri].
  Proof.
    intros Hs Hl. apply Erc1155Props.len_small; [|split; [cbn [wt tBytes]; unfold U32MAX; lia|exact I]|exact Hs].
    unfold enc_all, abi_seq. rewrite nlen_app. unfold nlen at 1. rewrite heads_length.
    change (parts [tBytes] [VB uri]) with [(false, word (nlen uri) ++ pad32 uri)]. cbn [hsize tails]. rewrite app_nil_r, nlen_app, nlen_word.
    unfold USIZE, U32MAX in *. assert (P : nlen (pad32 uri) <= nlen uri + 32); [|lia].
    unfold pad32. rewrite nlen_app. unfold nlen at 2. rewrite repeat_length.
    assert (forall a : nat, (a mod 32 <= 31)%nat) by (intros; pose proof (Nat.mod_upper_bound a 32); lia). lia.
  Qed.
  Theorem C133_nft_set_uri s r caller c ext uri : nlen uri <= 2 ^ 31 ->
    let call := build_call Q_setBaseURI [tBytes] [VB uri] in
    (is_ok (execute s r caller c false 0 call ext) = true <->
       (exists i, colls (e_nft s) !! c = Some i /\ c_owner i = caller /\ c_root i = true) /\ e_xrpl s !! c = None /\ nlen uri <= 200) /\
    forall s' o, execute s r caller c false 0 call ext = Ok (s', o) ->
      e_nft s' = e_nft s /\ e_name s' = e_name s /\ e_fee s' = e_fee s /\ (forall d, d <> c -> e_uri s' !! d = e_uri s !! d) /\
      e_logs s' = e_logs s ++ [Elog c [L_baseURI] (enc_all [tBytes] [VB uri])] /\
      forall r2 asker ext2 st id, utf8 uri = true -> id <= U32MAX ->
        execute s' r2 asker c st 0 (build_call Q_tokenURI [tU] [VN id]) ext2 = Ok (s', enc_all [tBytes] [VB (uri ++ digits 10 id)]).
  Proof.
    intros Hl call. destruct (bytes_call Q_setBaseURI uri ltac:(reflexivity) Hl) as [R1 R2]. fold call in R1, R2. clearbody call.
    rewrite (set_uri_call s r caller c ext uri call R1 R2).
    destruct (colls (e_nft s) !! c) as [i|] eqn:Ec.
    2:{ split; [split; [discriminate|intros [(? & ? & _) _]; discriminate]|discriminate]. }
    destruct (N.eqb_spec (c_owner i) caller) as [Ho|Ho]; cbn [negb].
    2:{ split; [split; [discriminate|intros [(j & [= <-] & ? & _) _]; contradiction]|discriminate]. }
    destruct (e_xrpl s !! c) eqn:Ex. { split; [split; [discriminate|intros (_ & ? & _); discriminate]|discriminate]. }
    destruct (c_root i) eqn:Er; cbn [negb].
    2:{ split; [split; [discriminate|intros [(j & [= <-] & _ & ?) _]; congruence]|discriminate]. }
    destruct (N.ltb_spec 200 (nlen uri)) as [Hn|Hn].
    { split; [split; [discriminate|intros (_ & _ & ?); lia]|discriminate]. }
    split; [split; [intros _; eauto 6|reflexivity]|].
    intros s' o [= <- <-]. cbn [e_nft e_name e_fee e_uri e_logs]. split; [reflexivity|]. split; [reflexivity|]. split; [reflexivity|].
    split; [intros d Hd; apply lookup_insert_ne; congruence|]. split; [rewrite out_spec by (split; [cbn [wt tBytes]; unfold U32MAX; lia|exact I]); reflexivity|].
    intros r2 asker ext2 st id Hu Hi. set (s' := EState _ _ _ _ _ _).
    destruct (Erc1155Props.len_small [tU] [VN id] Q_tokenURI) as [Q1 Q2]; [vm_compute; discriminate|apply small_id, Hi|reflexivity|].
    assert (E : uri721 utf8 s' c id = uri ++ digits 10 id).
    { unfold uri721, s'. cbn [e_uri]. rewrite lookup_insert. cbn. rewrite Hu. reflexivity. }
    assert (H0 : colls (e_nft s') !! c = Some i) by exact Ec. rewrite <- (out_spec [tBytes]).
    - rewrite <- E. clearbody s'. rewrite (exec721_eq cap mint_limit max_xls20 utf8 s' r2 asker c st _ ext2 Q_tokenURI i H0 Q1) by (destruct st; reflexivity).
      rewrite q_tokenURI. unfold g_token_uri, g_by_id. rewrite Q2. cbn [rbind]. destruct (N.leb_spec id U32MAX); [reflexivity|lia].
    - split; [|exact I]. cbn [wt tBytes]. rewrite nlen_app. pose proof (uri_len utf8 s' c id) as U. rewrite E, nlen_app in U. unfold s' in U; cbn [e_uri] in U. rewrite lookup_insert in U. specialize (U Hn). unfold U32MAX; lia.
  Qed.
  (** The same for the price of a public mint: the asset is given by its address, and price 0 means free. *)
  Lemma set_fee_call s r caller c ext asset fee call : read_selector call = Ok Q_setMintFee -> read_args [tA; tU] call = Ok [VN asset; VN fee] ->
    execute s r caller c false 0 call ext =
      match colls (e_nft s) !! c with
      | None => Err 20
      | Some i => match asset_at asset with
                  | None => Err 14
                  | Some x => if U128MAX <? fee then Err 9 else if negb (c_owner i =? caller) then Err 12
                      else Ok (EState (e_nft s) (e_name s) (e_uri s) (if fee =? 0 then delete c (e_fee s) else <[c := (x, fee)]> (e_fee s)) (e_xrpl s)
                                 (e_logs s ++ [Elog c [L_mintFee721; asset; fee] []]), [])
                  end
      end.
  Proof.
    intros R1 R2. unfold execute721. destruct (colls (e_nft s) !! c) as [i|] eqn:Ec; [|reflexivity]. cbn [of_opt rbind]. rewrite R1. cbn [rbind].
    change (negb (false && non_payable721 Q_setMintFee)) with true. change (0 =? 0) with true. cbn [ensure rbind].
    transitivity (g_set_fee s caller c call); [reflexivity|]. unfold g_set_fee. rewrite R2. cbn [rbind]. rewrite Ec.
    destruct (asset_at asset) as [x|]; [|reflexivity]. cbn [of_opt rbind]. rewrite N.ltb_antisym. destruct (fee <=? U128MAX); [|reflexivity].
    cbn [ensure rbind negb]. destruct (c_owner i =? caller); reflexivity.
  Qed.
  (** The address of asset [x]: 0xCCCCCCCC, the id, and zeros. *)
  Definition asset_address (x : N) : N := 0xcccccccc * 2 ^ 128 + x * 2 ^ 96.
  Theorem C133_nft_set_price s r caller c ext x fee : x <= U32MAX -> fee < 2 ^ 256 ->
    let call := build_call Q_setMintFee [tA; tU] [VN (asset_address x); VN fee] in
    (is_ok (execute s r caller c false 0 call ext) = true <->
       (exists i, colls (e_nft s) !! c = Some i /\ c_owner i = caller) /\ fee <= U128MAX) /\
    forall s' o, execute s r caller c false 0 call ext = Ok (s', o) ->
      e_nft s' = e_nft s /\ e_name s' = e_name s /\ e_uri s' = e_uri s /\
      forall d, e_fee s' !! d = if d =? c then (if fee =? 0 then None else Some (x, fee)) else e_fee s !! d.
  Proof.
    intros Hx Hf call.
    assert (Ha : asset_address x < 2 ^ 160) by (unfold asset_address, U32MAX in *; lia).
    assert (Hat : asset_at (asset_address x) = Some x).
    { unfold asset_at, asset_address, U32MAX in *.
      assert (E1 : (3435973836 * 2 ^ 128 + x * 2 ^ 96) / 2 ^ 128 = 3435973836) by (symmetry; apply (N.div_unique _ _ _ (x * 2 ^ 96)); lia).
      assert (E2 : (3435973836 * 2 ^ 128 + x * 2 ^ 96) / 2 ^ 96 = 3435973836 * 2 ^ 32 + x) by (symmetry; apply (N.div_unique _ _ _ 0); lia).
      rewrite E1, E2, N.eqb_refl. f_equal. symmetry. apply (N.mod_unique _ _ 3435973836); lia. }
    destruct (Erc1155Props.len_small [tA; tU] [VN (asset_address x); VN fee] Q_setMintFee) as [R1 R2];
      [| |reflexivity|].
    { unfold enc_all, abi_seq. vm_compute. discriminate. }
    { split; [|split; [apply wt_tU; exact Hf|exact I]]. cbn [wt tA]. cbn. exact Ha. }
    fold call in R1, R2. clearbody call. rewrite (set_fee_call s r caller c ext _ fee call R1 R2), Hat.
    destruct (colls (e_nft s) !! c) as [i|] eqn:Ec.
    2:{ split; [split; [discriminate|intros [(? & ? & _) _]; discriminate]|discriminate]. }
    destruct (N.ltb_spec U128MAX fee) as [Hn|Hn].
    { split; [split; [discriminate|intros (_ & ?); lia]|discriminate]. }
    destruct (N.eqb_spec (c_owner i) caller) as [Ho|Ho]; cbn [negb].
    2:{ split; [split; [discriminate|intros [(j & [= <-] & ?) _]; contradiction]|discriminate]. }
    split; [split; [intros _; eauto|reflexivity]|]. intros s' o [= <- <-]. cbn [e_nft e_name e_fee e_uri].
    split; [reflexivity|]. split; [reflexivity|]. split; [reflexivity|]. intros d.
    destruct (N.eqb_spec d c) as [->|Hd]; destruct (fee =? 0).
    - apply lookup_delete.
    - apply lookup_insert.
    - apply lookup_delete_ne. congruence.
    - apply lookup_insert_ne. congruence.
  Qed.
End admin.

(** ** A concrete case *)
(** Account 10 owns collection 1 of the history of [Erc721Props]: it names it, sets its base URI and price;
    then strangers, and a contract while it is sent a token, try to change it. *)
Notation wrun := (run (estep 1000 1000 2 10 (fun _ => true))).
Definition uri0 : list N := [104; 116; 116; 112; 58].
Definition w_uri (u : list N) : list N := build_call Q_setBaseURI [tBytes] [VB u].
Definition w_fee (x fee : N) : list N := build_call Q_setMintFee [tA; tU] [VN (asset_address x); VN fee].
Definition w_admin : list eop := [ENft (NCreate 1 10 3 None 20 true); EName 10 1 uri0; ECall 10 1 false 0 (w_uri uri0) true None; ECall 10 1 false 0 (w_fee 2 500) true None].
Definition w_calls (w : N) : list eop :=
  [ECall w 1 false 0 (w_uri [1]) true None; ECall w 1 false 0 (w_fee 2 0) true None; EName w 1 [1]; ENft (NSetOwner w 1 w); ENft (NSetFlags w 1 true true true true)].
Definition w_tries : list eop :=
  w_calls 50 ++ [ECall 20 1 false 0 (build_call Q_safeTransferFrom [tA; tA; tU] [VN 20; VN 70; VN 0]) true
    (Some (w_calls 70, fun _ _ => Some (word (Q_onReceived * 2 ^ 224))))].
Example w_133_nft : let s := wrun w_admin einit in
  (exists i, colls (e_nft s) !! 1 = Some i /\ c_owner i = 10 /\ Forall (every (not_by (c_owner i) 1)) w_tries) /\
  e_name s !! 1 = Some uri0 /\ e_uri s !! 1 = Some uri0 /\ e_fee s !! 1 = Some (2, 500) /\
  decided (wrun w_tries s) 1 = decided s 1 /\ owner_of (e_nft (wrun w_tries s)) 1 0 = Some 70.
Proof.
  split; [|vm_compute; auto 10]. eexists. split; [vm_compute; reflexivity|]. split; [reflexivity|].
  unfold w_tries, w_calls. cbn [app]. cbn [c_owner].
  repeat (apply Forall_nil || (apply Forall_cons; split)); cbn [every not_by]; repeat split; try exact I; left; lia.
Qed.
Definition all_C133_nft := (@C133_nft_owner_only, @C133_nft_set_uri, @C133_nft_set_price).
Print Assumptions all_C133_nft.
