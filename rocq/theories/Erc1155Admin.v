(** Who may change what a semi-fungible collection shows and allows, through the EVM or the pallet: C133. *)
From Verif Require Import SftProofs SftProps AbiProps TokenAdmin Erc1155Proofs Erc1155Props.
From Verif Require Import SftModel Erc1155Model.

(** What an owner decides about a collection and each of its token types: owner, next type and flags, the
    maximum and whether the public may mint, the base of the token URIs and the mint prices. *)
Definition decided (s : pstate) (c : N) (n : N) :=
  (scolls (p_sft s) !! c, option_map t_max (stoks (p_sft s) !! (c, n)), spub (p_sft s) !! (c, n), p_uri s !! c, p_fee s !! (c, n)).

Section admin.
  Variable max_owners max_serials string_limit : N.
  Variable utf8 : list N -> bool.
  Hypothesis max_small : max_serials <= 2 ^ 20.
  Notation sexec := (sexec max_owners max_serials).
  Notation sstep := (sstep max_owners max_serials).
  Notation execute := (execute max_owners max_serials string_limit utf8).
  Notation pstep := (pstep max_owners max_serials string_limit utf8).

  (** The operation is not one that account [w] makes to change collection [c]. *)
  Definition not_by (w c : N) (o : pop) : Prop :=
    typed o /\
    match o with
    | PSft (SToken x d _ _ _ _) | PSft (SSetMax x d _ _) | PSft (SSetOwner x d _) | PSft (SSetFlags x d _ _ _) | PSft (SSetPublic x d _ _) => x <> w \/ d <> c
    | PSft _ => True
    | PCall x d _ _ _ _ _ => x <> w \/ d <> c
    end.

  Lemma kept_sft s o s' c i n : SInv s -> sop_u128 o -> sexec s o = Ok s' -> scolls s !! c = Some i -> not_by (sc_owner i) c (PSft o) ->
    scolls s' !! c = scolls s !! c /\ option_map t_max (stoks s' !! (c, n)) = option_map t_max (stoks s !! (c, n)) /\ spub s' !! (c, n) = spub s !! (c, n).
  Proof.
    intros [_ Hfr] Hu E Hc [_ Hn]. destruct (sft_settings max_owners max_serials s o s' c i Hfr E Hc) as ((j & Hj & Hch) & Htok & Hpub).
    split; [|split].
    - rewrite Hj, Hc. f_equal. destruct Hch as [|new ->|m t b ->|init mx ow -> _]; [reflexivity|destruct Hn; congruence..].
    - specialize (Htok n). destruct Htok as [|t t' H|t m -> _ _ _|init mx ow t -> _ _ _]; [reflexivity|cbn; congruence|destruct Hn; congruence..].
    - destruct (Hpub n) as [H|(b & -> & _)]; [exact H|destruct Hn; congruence].
  Qed.
  Lemma authorised_not_by s caller d o w c : authorised s caller d o -> sop_u128 o -> caller <> w \/ d <> c -> not_by w c (PSft o).
  Proof.
    intros Ha Hu Hn. split; [exact Hu|]. destruct o; cbn in *; try exact I; try contradiction; destruct Ha as [-> ->]; assumption.
  Qed.

  (** What a successful call does to the URIs and prices. *)
  Lemma exec_meta s r caller c static value call ext s' o :
    execute s r caller c static value call ext = Ok (s', o) ->
    exists s1, (s1 = s \/ exists ans, r = Some (s1, ans)) /\
      forall d, (p_uri s' !! d = p_uri s1 !! d /\ forall n, p_fee s' !! (d, n) = p_fee s1 !! (d, n)) \/
        (d = c /\ exists i, scolls (p_sft s) !! c = Some i /\ sc_owner i = caller).
  Proof.
    intros H. unfold Erc1155Model.execute in H.
    apply rbind_ok in H. destruct H as [i0 [Hc H]]. cbv beta in H.
    apply rbind_ok in H. destruct H as [sel [Hsel H]]. cbv beta in H. do 2 inv_ok1.
    unfold dispatch_fn, f_balance_of, f_balance_of_batch, f_set_approval, f_is_approved, f_burn, f_burn_batch, f_total_supply, f_exists, f_uri, f_by_id,
      f_owner, f_transfer_ownership, f_set_owner, f_create_token, f_mint, f_mint_batch, f_set_max, f_toggle in H.
    assert (Q : forall from to ids xs s1 s2, (s1 = s \/ exists ans, r = Some (s1, ans)) ->
      do_safe_transfer max_owners max_serials s1 caller c from to ids xs = Ok s2 -> p_uri s' = p_uri s2 -> p_fee s' = p_fee s2 ->
      exists s1, (s1 = s \/ exists ans, r = Some (s1, ans)) /\
      forall d, (p_uri s' !! d = p_uri s1 !! d /\ forall n, p_fee s' !! (d, n) = p_fee s1 !! (d, n)) \/
        (d = c /\ exists i, scolls (p_sft s) !! c = Some i /\ sc_owner i = caller)).
    { clear H. intros from to ids xs s1 s2 Hs1 H E3 E4. exists s1. split; [exact Hs1|]. unfold do_safe_transfer in H. inv_ok. subst s2.
      intros d. left. rewrite E3, E4. split; reflexivity. }
    repeat match type of H with (if ?b then _ else _) = Ok _ =>
      match b with
      | _ =? S_safeTransferFrom => destruct b; [unfold f_safe_transfer in H; isargs H;
          apply rbind_ok in H; destruct H as [s1 [Ha H]]; cbv beta in H; inv_ok; injection H as <- <-;
          eapply (Q _ _ _ _ s1); [apply accept_ok in Ha as [[_ ->]|(ans & ? & -> & _)]; eauto|eassumption|reflexivity|reflexivity]|]
      | _ =? S_safeBatchTransferFrom => destruct b; [unfold f_safe_batch_transfer in H; isargs H;
          apply rbind_ok in H; destruct H as [s1 [Ha H]]; cbv beta in H; inv_ok; injection H as <- <-;
          eapply (Q _ _ _ _ s1); [apply accept_ok in Ha as [[_ ->]|(ans & ? & -> & _)]; eauto|eassumption|reflexivity|reflexivity]|]
      | _ =? S_setBaseURI => destruct b; [unfold f_set_base_uri in H; isargs H; inv_ok; injection H as <- <-; exists s;
          split; [auto|]; intros d; destruct (N.eq_dec d c) as [->|Hne];
          [right; split; [reflexivity|]; eexists; split; [eassumption|]; apply N.eqb_eq; assumption
          |left; split; [apply lookup_insert_ne; congruence|reflexivity]]|]
      | _ =? S_setMintFee => destruct b; [unfold f_set_fee in H; isargs H; inv_ok; injection H as <- <-; exists s;
          split; [auto|]; intros d; destruct (N.eq_dec d c) as [->|Hne];
          [right; split; [reflexivity|]; eexists; split; [eassumption|]; apply N.eqb_eq; assumption
          |left; split; [reflexivity|intros n9; cbn; match goal with |- context[if ?b then _ else _] => destruct b end; [apply lookup_delete_ne|apply lookup_insert_ne]; congruence]]|]
      | _ => destruct b; [
          (try (isargs H)); inv_ok;
          (injection H as <- <-; exists s; split; [auto|]; intros d; left; split; reflexivity)|]
      end end.
    discriminate H.
  Qed.
  Lemma kept_call s r caller d st v call ext s' o c i : SInv (p_sft s) -> isbytes call ->
    execute s r caller d st v call ext = Ok (s', o) ->
    (forall s1 ans, r = Some (s1, ans) -> SInv (p_sft s1) /\ forall n, decided s1 c n = decided s c n) ->
    scolls (p_sft s) !! c = Some i -> caller <> sc_owner i \/ d <> c -> forall n, decided s' c n = decided s c n.
  Proof.
    intros Hi Hb E Hr Hc Hn n. pose proof (exec_meta _ _ _ _ _ _ _ _ _ _ E) as (s1 & Hs1 & Hm).
    apply execute_inv in E as (s2 & Hs2 & E); [|exact max_small|exact Hb].
    assert (D1 : decided s1 c n = decided s c n) by (destruct Hs1 as [->|[ans Hs1]]; [reflexivity|eapply Hr, Hs1]).
    assert (D2 : decided s2 c n = decided s c n) by (destruct Hs2 as [->|[ans Hs2]]; [reflexivity|eapply Hr, Hs2]).
    assert (Hi2 : SInv (p_sft s2)) by (destruct Hs2 as [->|[ans Hs2]]; [exact Hi|eapply Hr, Hs2]).
    assert (M : (p_uri s' !! c, p_fee s' !! (c, n)) = (p_uri s !! c, p_fee s !! (c, n))).
    { unfold decided in D1. injection D1 as _ _ _ D3 D4. destruct (Hm c) as [[-> Hf]|(-> & j & Hj & Ho)]; [rewrite Hf; congruence|].
      destruct Hn as [Hn|Hn]; congruence. }
    assert (K : (scolls (p_sft s') !! c, option_map t_max (stoks (p_sft s') !! (c, n)), spub (p_sft s') !! (c, n)) =
      (scolls (p_sft s2) !! c, option_map t_max (stoks (p_sft s2) !! (c, n)), spub (p_sft s2) !! (c, n))); [|unfold decided in *; congruence].
    assert (Hc2 : scolls (p_sft s2) !! c = Some i) by (unfold decided in D2; injection D2 as D2 _ _ _ _; congruence).
    destruct E as [s2|s2 operator ok g _ _ _|s2 o0 x g Hx Hu Ha _ _ _|s2 u f g _ _]; [reflexivity|reflexivity| |reflexivity]. cbn [p_sft].
    destruct (kept_sft (p_sft s2) o0 x c i n Hi2 Hu Hx Hc2) as (-> & -> & ->); [|reflexivity]. eapply authorised_not_by; eassumption.
  Qed.

  (** ** C133 *)
  (** As long as the owner of a collection makes no call that changes it, its owner, flags, token types and
      their maxima, public mint switches, base URI and mint prices stay what they are, whatever other accounts
      and contracts do, also while the chain calls them to deliver tokens. *)
  Theorem C133_sft_owner_only ops1 ops2 c i : Forall (every typed) ops1 -> let s := run pstep ops1 pinit in
    scolls (p_sft s) !! c = Some i ->
    Forall (every (not_by (sc_owner i) c)) ops2 -> forall n, decided (run pstep ops2 s) c n = decided s c n.
  Proof.
    intros H1 s Hc. pose proof (prun_SInv max_owners max_serials string_limit utf8 max_small ops1 H1) as Hs. fold s in Hs. clearbody s. clear ops1 H1.
    pose (R := fun s s' : pstate => SInv (p_sft s) /\ scolls (p_sft s) !! c = Some i ->
      (SInv (p_sft s') /\ scolls (p_sft s') !! c = Some i) /\ forall n, decided s' c n = decided s c n).
    assert (Rd : forall s s', (forall n, decided s' c n = decided s c n) -> scolls (p_sft s) !! c = Some i -> scolls (p_sft s') !! c = Some i).
    { intros x y H E. specialize (H 0). unfold decided in H. injection H as H _ _ _ _. congruence. }
    assert (Rr : forall s, R s s) by (intros x Hx; split; [exact Hx|reflexivity]).
    assert (Rt : forall x y z, R x y -> R y z -> R x z).
    { intros x y z Hxy Hyz Hx. destruct (Hxy Hx) as [Hy E1]. destruct (Hyz Hy) as [Hz E2]. split; [exact Hz|]. intros n. rewrite E2. apply E1. }
    assert (Rs : forall o s, every (not_by (sc_owner i) c) o -> R s (pstep s o)).
    { clear s Hc Hs ops2. induction o as [o|caller d st v call ext|caller d st v call ext ops ans IH] using pop_all; intros s Hv [Hi Hc].
      - destruct Hv as [Hv _]. cbn [Erc1155Model.pstep]. destruct (sexec (p_sft s) o) as [x|] eqn:E; cbn [commit];
          [|split; [split; assumption|reflexivity]].
        assert (Hu : sop_u128 o) by apply Hv.
        assert (D : forall n, decided (with_sft s x) c n = decided s c n).
        { intros n. destruct (kept_sft (p_sft s) o x c i n Hi Hu E Hc Hv) as (E1 & E2 & E3). unfold decided. cbn [with_sft p_sft p_uri p_fee]. congruence. }
        split; [|exact D]. split; [|eapply Rd; eassumption]. cbn [with_sft p_sft]. eapply exec_spec; eassumption.
      - destruct Hv as [Hv _]. cbn [Erc1155Model.pstep]. destruct (execute s None caller d st v call ext) as [[s' o]|] eqn:E;
          [|split; [split; assumption|reflexivity]]. destruct Hv as [Hb Hv].
        assert (D : forall n, decided s' c n = decided s c n) by (eapply kept_call; [exact Hi|exact Hb|exact E|discriminate|exact Hc|exact Hv]).
        split; [|exact D]. split; [|eapply Rd; eassumption].
        apply execute_inv in E as (s1 & [->|[? [=]]] & E); [|exact max_small|exact Hb]. eapply eff_SInv; eassumption.
      - destruct Hv as [Hv Hops]. apply every_list in Hops. cbn [Erc1155Model.pstep]. set (mid := fold_left _ ops s).
        assert (M : R s mid).
        { unfold mid. clear mid Hv Hi Hc. revert s Hops. induction IH as [|o ops Ho Hf IHf]; intros s Hops; [apply Rr|].
          inversion Hops; subst. cbn [fold_left]. eapply Rt; [apply Ho; assumption|apply IHf; assumption]. }
        destruct (M (conj Hi Hc)) as [[Mi _] Md].
        destruct (execute s (Some (mid, ans)) caller d st v call ext) as [[s' o]|] eqn:E;
          [|split; [split; assumption|reflexivity]]. destruct Hv as [Hb Hv].
        assert (D : forall n, decided s' c n = decided s c n).
        { eapply kept_call; [exact Hi|exact Hb|exact E| |exact Hc|exact Hv]. intros s1 a [= <- _]. auto. }
        split; [|exact D]. split; [|eapply Rd; eassumption].
        apply execute_inv in E as (s1 & Hs1 & E); [|exact max_small|exact Hb]. eapply eff_SInv; [exact E|].
        destruct Hs1 as [->|[a [= <- _]]]; assumption. }
    intros Hf. apply (prun_rel max_owners max_serials string_limit utf8 (not_by (sc_owner i) c) R Rr Rt Rs ops2 s Hf). auto.
  Qed.

  (** The owner, and only the owner, sets the base URI: then it is what [uri] shows, and nothing else changed. *)
  Lemma set_uri_call s r caller c ext uri call : read_selector call = Ok S_setBaseURI -> read_args [tBytes] call = Ok [VB uri] ->
    execute s r caller c false 0 call ext =
      match scolls (p_sft s) !! c with
      | None => Err 20
      | Some i => if 200 <? nlen uri then Err 11 else if negb (sc_owner i =? caller) then Err 12
                  else Ok (PState (p_sft s) (p_appr s) (<[c := uri]> (p_uri s)) (p_fee s)
                             (p_logs s ++ [Elog c [L_baseURI] (out [tBytes] [VB uri])]), [])
      end.
  Proof.
    intros R1 R2. unfold Erc1155Model.execute. destruct (scolls (p_sft s) !! c) as [i|] eqn:Ec; [|reflexivity]. cbn [of_opt rbind]. rewrite R1. cbn [rbind].
    change (negb (false && non_payable S_setBaseURI)) with true. change (0 =? 0) with true. cbn [ensure rbind].
    transitivity (f_set_base_uri s caller c call); [reflexivity|]. unfold f_set_base_uri. rewrite R2. cbn [rbind]. rewrite Ec. cbn [of_opt rbind].
    rewrite N.ltb_antisym. destruct (nlen uri <=? 200); [|reflexivity]. cbn [ensure rbind negb]. destruct (sc_owner i =? caller); reflexivity.
  Qed.
  Lemma bytes_call sel uri : sel < 2 ^ 32 -> nlen uri <= 2 ^ 31 -> read_selector (build_call sel [tBytes] [VB uri]) = Ok sel /\
    read_args [tBytes] (build_call sel [tBytes] [VB uri]) = Ok [VB uri].
  Proof.
    intros Hs Hl. apply len_small; [|split; [cbn [wt tBytes]; unfold U32MAX; lia|exact I]|exact Hs].
    unfold enc_all, abi_seq. rewrite nlen_app. unfold nlen at 1. rewrite heads_length.
    change (parts [tBytes] [VB uri]) with [(false, word (nlen uri) ++ pad32 uri)]. cbn [hsize tails]. rewrite app_nil_r, nlen_app, nlen_word.
    unfold USIZE, U32MAX in *. assert (P : nlen (pad32 uri) <= nlen uri + 32); [|lia].
    unfold pad32. rewrite nlen_app. unfold nlen at 2. rewrite repeat_length.
    assert (forall a : nat, (a mod 32 <= 31)%nat) by (intros; pose proof (Nat.mod_upper_bound a 32); lia). lia.
  Qed.
  Theorem C133_sft_set_uri s r caller c ext uri : nlen uri <= 2 ^ 31 ->
    let call := build_call S_setBaseURI [tBytes] [VB uri] in
    (is_ok (execute s r caller c false 0 call ext) = true <->
       (exists i, scolls (p_sft s) !! c = Some i /\ sc_owner i = caller) /\ nlen uri <= 200) /\
    forall s' o, execute s r caller c false 0 call ext = Ok (s', o) ->
      p_sft s' = p_sft s /\ p_appr s' = p_appr s /\ p_fee s' = p_fee s /\ (forall d, d <> c -> p_uri s' !! d = p_uri s !! d) /\
      p_logs s' = p_logs s ++ [Elog c [L_baseURI] (enc_all [tBytes] [VB uri])] /\
      forall r2 asker ext2 st id, utf8 uri = true -> id <= U32MAX ->
        execute s' r2 asker c st 0 (build_call S_uri [tU] [VN id]) ext2 = Ok (s', enc_all [tBytes] [VB (uri ++ digits 10 id)]).
  Proof.
    intros Hl call. destruct (bytes_call S_setBaseURI uri ltac:(reflexivity) Hl) as [R1 R2]. fold call in R1, R2. clearbody call.
    rewrite (set_uri_call s r caller c ext uri call R1 R2).
    destruct (scolls (p_sft s) !! c) as [i|] eqn:Ec.
    2:{ split; [split; [discriminate|intros [(? & ? & _) _]; discriminate]|discriminate]. }
    destruct (N.ltb_spec 200 (nlen uri)) as [Hn|Hn].
    { split; [split; [discriminate|intros (_ & ?); lia]|discriminate]. }
    destruct (N.eqb_spec (sc_owner i) caller) as [Ho|Ho]; cbn [negb].
    2:{ split; [split; [discriminate|intros [(j & [= <-] & ?) _]; contradiction]|discriminate]. }
    split; [split; [intros _; eauto 6|reflexivity]|].
    intros s' o [= <- <-]. cbn [p_sft p_appr p_fee p_uri p_logs]. split; [reflexivity|]. split; [reflexivity|]. split; [reflexivity|].
    split; [intros d Hd; apply lookup_insert_ne; congruence|]. split; [rewrite out_spec by (split; [cbn [wt tBytes]; unfold U32MAX; lia|exact I]); reflexivity|].
    intros r2 asker ext2 st id Hu Hi. set (s' := PState _ _ _ _ _).
    destruct (len_small [tU] [VN id] S_uri) as [Q1 Q2]; [vm_compute; discriminate|split; [apply wt_tU; unfold U32MAX in Hi; lia|exact I]|reflexivity|].
    assert (E : token_uri utf8 s' c id = uri ++ digits 10 id).
    { unfold token_uri, s'. cbn [p_uri]. rewrite lookup_insert. cbn. rewrite Hu. reflexivity. }
    assert (H0 : scolls (p_sft s') !! c = Some i) by exact Ec. rewrite <- (out_spec [tBytes]).
    - rewrite <- E. clearbody s'. destruct (execute_eq max_owners max_serials string_limit utf8 s' r2 asker c st 0 _ ext2 S_uri i H0 Q1) as [-> _]; [destruct st; reflexivity|]. rewrite d_uri.
      unfold f_uri, f_by_id. rewrite Q2. cbn [rbind]. destruct (N.leb_spec id U32MAX); [reflexivity|lia].
    - split; [|exact I]. cbn [wt tBytes]. rewrite nlen_app. 
      assert (Hd : forall k n, nlen (digits k n) <= N.of_nat k).
      { induction k as [|k IH]; intros n; [cbn; lia|]. cbn [digits]. rewrite nlen_app. specialize (IH (n / 10)).
        destruct (n <? 10); unfold nlen in *; cbn [length]; lia. }
      specialize (Hd 10%nat id). unfold U32MAX. lia.
  Qed.
  (** The same for the price of a public mint of a token type. *)
  Lemma set_fee_call s r caller c ext id asset fee call : read_selector call = Ok S_setMintFee -> read_args [tU; tA; tU] call = Ok [VN id; VN asset; VN fee] ->
    execute s r caller c false 0 call ext =
      match scolls (p_sft s) !! c with
      | None => Err 20
      | Some i => if U32MAX <? id then Err 1 else
                  match asset_at asset with
                  | None => Err 13
                  | Some x => if U128MAX <? fee then Err 9 else if negb (sc_owner i =? caller) then Err 12
                      else Ok (PState (p_sft s) (p_appr s) (p_uri s) (if fee =? 0 then delete (c, id) (p_fee s) else <[(c, id) := (x, fee)]> (p_fee s))
                                 (p_logs s ++ [Elog c [L_mintFee; id; asset; fee] []]), [])
                  end
      end.
  Proof.
    intros R1 R2. unfold Erc1155Model.execute. destruct (scolls (p_sft s) !! c) as [i|] eqn:Ec; [|reflexivity]. cbn [of_opt rbind]. rewrite R1. cbn [rbind].
    change (negb (false && non_payable S_setMintFee)) with true. change (0 =? 0) with true. cbn [ensure rbind].
    transitivity (f_set_fee s caller c call); [reflexivity|]. unfold f_set_fee. rewrite R2. cbn [rbind]. rewrite Ec, !N.ltb_antisym.
    destruct (id <=? U32MAX); [|reflexivity]. cbn [ensure rbind negb].
    destruct (asset_at asset) as [x|]; [|reflexivity]. cbn [of_opt rbind]. destruct (fee <=? U128MAX); [|reflexivity].
    cbn [ensure rbind negb]. destruct (sc_owner i =? caller); reflexivity.
  Qed.
  (** The address of asset [x]: 0xCCCCCCCC, the id, and zeros. *)
  Definition asset_address (x : N) : N := 0xcccccccc * 2 ^ 128 + x * 2 ^ 96.
  Theorem C133_sft_set_price s r caller c ext id x fee : id < 2 ^ 256 -> x <= U32MAX -> fee < 2 ^ 256 ->
    let call := build_call S_setMintFee [tU; tA; tU] [VN id; VN (asset_address x); VN fee] in
    (is_ok (execute s r caller c false 0 call ext) = true <->
       (exists i, scolls (p_sft s) !! c = Some i /\ sc_owner i = caller) /\ id <= U32MAX /\ fee <= U128MAX) /\
    forall s' o, execute s r caller c false 0 call ext = Ok (s', o) ->
      p_sft s' = p_sft s /\ p_appr s' = p_appr s /\ p_uri s' = p_uri s /\
      forall d n, p_fee s' !! (d, n) = if (d =? c) && (n =? id) then (if fee =? 0 then None else Some (x, fee)) else p_fee s !! (d, n).
  Proof.
    intros Hid Hx Hf call.
    assert (Ha : asset_address x < 2 ^ 160) by (unfold asset_address, U32MAX in *; lia).
    assert (Hat : asset_at (asset_address x) = Some x).
    { unfold asset_at, asset_address, U32MAX in *.
      assert (E1 : (3435973836 * 2 ^ 128 + x * 2 ^ 96) / 2 ^ 128 = 3435973836) by (symmetry; apply (N.div_unique _ _ _ (x * 2 ^ 96)); lia).
      assert (E2 : (3435973836 * 2 ^ 128 + x * 2 ^ 96) / 2 ^ 96 = 3435973836 * 2 ^ 32 + x) by (symmetry; apply (N.div_unique _ _ _ 0); lia).
      rewrite E1, E2, N.eqb_refl. f_equal. symmetry. apply (N.mod_unique _ _ 3435973836); lia. }
    destruct (len_small [tU; tA; tU] [VN id; VN (asset_address x); VN fee] S_setMintFee) as [R1 R2];
      [| |reflexivity|].
    { unfold enc_all, abi_seq. vm_compute. discriminate. }
    { split; [apply wt_tU; exact Hid|split; [|split; [apply wt_tU; exact Hf|exact I]]]. cbn [wt tA]. cbn. exact Ha. }
    fold call in R1, R2. clearbody call. rewrite (set_fee_call s r caller c ext id _ fee call R1 R2), Hat.
    destruct (scolls (p_sft s) !! c) as [i|] eqn:Ec.
    2:{ split; [split; [discriminate|intros [(? & ? & _) _]; discriminate]|discriminate]. }
    destruct (N.ltb_spec U32MAX id) as [Hn0|Hn0].
    { split; [split; [discriminate|intros (_ & ? & _); lia]|discriminate]. }
    destruct (N.ltb_spec U128MAX fee) as [Hn|Hn].
    { split; [split; [discriminate|intros (_ & _ & ?); lia]|discriminate]. }
    destruct (N.eqb_spec (sc_owner i) caller) as [Ho|Ho]; cbn [negb].
    2:{ split; [split; [discriminate|intros [(j & [= <-] & ?) _]; contradiction]|discriminate]. }
    split; [split; [intros _; eauto|reflexivity]|]. intros s' o [= <- <-]. cbn [p_sft p_appr p_fee p_uri].
    split; [reflexivity|]. split; [reflexivity|]. split; [reflexivity|]. intros d n.
    destruct (N.eqb_spec d c) as [->|Hd], (N.eqb_spec n id) as [->|Hni]; cbn [andb]; destruct (fee =? 0);
      first [apply lookup_delete|apply lookup_insert|apply lookup_delete_ne; congruence|apply lookup_insert_ne; congruence].
  Qed.
End admin.

(** ** A concrete case *)
(** Account 10 makes a collection and sets its base URI and a price; then strangers, and a contract while it
    is sent tokens, try to change it. *)
Notation wrun := (run (pstep 1000 1000 50 (fun _ => true))).
Definition uri0 : list N := [104; 116; 116; 112; 58].
Definition w_uri (u : list N) : list N := build_call S_setBaseURI [tBytes] [VB u].
Definition w_fee (id x fee : N) : list N := build_call S_setMintFee [tU; tA; tU] [VN id; VN (asset_address x); VN fee].
Definition w_admin : list pop := [PSft (SCreate 1 10); PSft (SToken 10 1 100 None 20 true); PCall 10 1 false 0 (w_uri uri0) true None; PCall 10 1 false 0 (w_fee 0 2 500) true None].
Definition w_calls (w : N) : list pop :=
  [PCall w 1 false 0 (w_uri [1]) true None; PCall w 1 false 0 (w_fee 0 2 0) true None; PSft (SSetOwner w 1 w); PSft (SSetPublic w 1 0 true)].
Definition w_tries : list pop :=
  w_calls 50 ++ [PCall 20 1 false 0 (build_call S_safeTransferFrom [tA; tA; tU; tU; tBytes] [VN 20; VN 70; VN 0; VN 7; VB []]) true
    (Some (w_calls 70, fun _ _ => Some (word (S_onReceived * 2 ^ 224))))].
Example w_133_sft : let s := wrun w_admin pinit in
  (exists i, scolls (p_sft s) !! 1 = Some i /\ sc_owner i = 10 /\ Forall (every typed) w_admin /\ Forall (every (not_by (sc_owner i) 1)) w_tries) /\
  p_uri s !! 1 = Some uri0 /\ p_fee s !! (1, 0) = Some (2, 500) /\
  decided (wrun w_tries s) 1 0 = decided s 1 0 /\ fst (sbal (p_sft (wrun w_tries s)) 1 0 70) = 7.
Proof.
  split; [|vm_compute; auto 10]. eexists. split; [vm_compute; reflexivity|]. split; [reflexivity|].
  assert (B : forall l, forallb (fun x => x <? 256) l = true -> isbytes l).
  { intros l H. apply Forall_forall. intros x Hx. rewrite forallb_forall in H. apply N.ltb_lt, H, elem_of_list_In, Hx. }
  split; unfold w_admin, w_tries, w_calls; cbn [app]; cbn [sc_owner];
  repeat (apply Forall_nil || (apply Forall_cons; split)); cbn [every not_by typed sop_u128]; repeat split; try exact I;
    try (apply B; vm_compute; reflexivity); try (left; lia); unfold U128MAX; lia.
Qed.
Definition all_C133_sft := (@C133_sft_owner_only, @C133_sft_set_uri, @C133_sft_set_price).
Print Assumptions all_C133_sft.
