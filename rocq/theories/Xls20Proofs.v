(** Facts about XLS-20 token ids and the deposits and withdrawals of XLS-20 tokens. *)
From Verif Require Export NftProofs NftProps Xls20Model.

(** ** Token ids.  Specification: the format of the XRPL documentation. *)
Fixpoint to_be (k : nat) (n : N) : list N := match k with O => [] | S k' => to_be k' (n / 256) ++ [n mod 256] end.
Definition scramble (taxon sequence : N) : N := N.lxor taxon ((384160001 * sequence + 2459) mod 2 ^ 32).
Definition encode (flags fee issuer taxon sequence : N) : list N :=
  to_be 2 flags ++ to_be 2 fee ++ to_be 20 issuer ++ to_be 4 (scramble taxon sequence) ++ to_be 4 sequence.
Definition bytes (k : nat) (l : list N) : Prop := length l = k /\ Forall (fun b => b < 256) l.

Lemma be_snoc l b : be (l ++ [b]) = 256 * be l + b.
Proof. unfold be. rewrite fold_left_app. reflexivity. Qed.
Lemma to_be_length k : forall n, length (to_be k n) = k.
Proof. induction k as [|k IH]; intros n; cbn; [reflexivity|]. rewrite app_length, IH. cbn. lia. Qed.
Lemma be_to_be k : forall n, n < 256 ^ N.of_nat k -> be (to_be k n) = n.
Proof.
  induction k as [|k IH]; intros n H; [cbn in *; lia|]. cbn [to_be]. rewrite be_snoc, IH.
  - rewrite <- N.div_mod by lia. reflexivity.
  - rewrite Nat2N.inj_succ, N.pow_succ_r' in H. apply N.div_lt_upper_bound; lia.
Qed.
Lemma to_be_be k : forall l, bytes k l -> to_be k (be l) = l.
Proof.
  induction k as [|k IH]; intros l [L F]; [destruct l; [reflexivity|discriminate]|].
  destruct (exists_last (l := l)) as (l' & b & ->); [intros ->; discriminate|].
  rewrite app_length in L. cbn in L. apply Forall_app in F as [F Fb]. apply Forall_inv in Fb.
  cbn [to_be]. rewrite be_snoc. assert ((256 * be l' + b) / 256 = be l') as ->.
  { rewrite N.mul_comm, N.div_add_l by lia. rewrite N.div_small by exact Fb. lia. }
  rewrite IH by (split; [lia|exact F]). f_equal. f_equal.
  rewrite N.add_comm, N.mul_comm, N.mod_add by lia. apply N.mod_small, Fb.
Qed.
Lemma be_bound l : forall k, bytes k l -> be l < 256 ^ N.of_nat k.
Proof.
  induction l as [|b l IH] using rev_ind; intros k [L F]; [cbn in L; subst k; vm_compute; reflexivity|].
  rewrite app_length in L. cbn in L. destruct k as [|k]; [lia|]. apply Forall_app in F as [F Fb]. apply Forall_inv in Fb.
  rewrite be_snoc. assert (be l < 256 ^ N.of_nat k) by (apply IH; split; [lia|exact F]).
  rewrite Nat2N.inj_succ, N.pow_succ_r'. lia.
Qed.
Lemma lxor_bound a b k : a < 2 ^ k -> b < 2 ^ k -> N.lxor a b < 2 ^ k.
Proof.
  intros A B. destruct (N.eq_dec (N.lxor a b) 0) as [->|Hz]; [assert (2 ^ k <> 0) by (apply N.pow_nonzero; lia); lia|].
  apply N.log2_lt_pow2; [lia|]. eapply N.le_lt_trans; [apply N.log2_lxor|].
  assert (forall x, x < 2 ^ k -> 0 < k -> N.log2 x < k) as Q.
  { intros x X K. destruct (N.eq_dec x 0) as [->|]; [exact K|]. apply N.log2_lt_pow2; lia. }
  destruct (N.eq_dec k 0) as [->|Kz].
  - change (2 ^ 0) with 1 in *. assert (a = 0) by lia. assert (b = 0) by lia. subst. cbn in Hz. congruence.
  - apply N.max_lub_lt; apply Q; lia.
Qed.
Lemma unscramble_spec taxon seq : seq < 2 ^ 32 -> unscramble taxon seq = scramble taxon seq.
Proof.
  intros H. unfold unscramble, scramble. change (2 ^ 32) with 4294967296 in *. f_equal.
  unfold sat, U64MAX. rewrite (N.min_l (384160001 * seq)) by lia.
  set (a := 384160001 * seq). assert (a mod 4294967296 < 4294967296) by (apply N.mod_lt; lia).
  rewrite N.min_l by lia. rewrite N.mod_mod by lia. rewrite N.add_mod_idemp_l by lia. reflexivity.
Qed.
Lemma scramble_involutive taxon seq : scramble (scramble taxon seq) seq = taxon.
Proof. unfold scramble. rewrite N.lxor_assoc, N.lxor_nilpotent. apply N.lxor_0_r. Qed.
Lemma scramble_bound taxon seq : taxon < 2 ^ 32 -> scramble taxon seq < 2 ^ 32.
Proof. intros H. apply lxor_bound; [exact H|]. apply N.mod_lt. discriminate. Qed.
Lemma permill_exact fee : fee < 2 ^ 16 -> permill_rational fee 100000 = 10 * fee.
Proof.
  intros H. change (2 ^ 16) with 65536 in H. unfold permill_rational.
  replace (fee * 1000000) with ((10 * fee) * 100000) by lia. rewrite N.div_mul by lia. lia.
Qed.
Lemma bytes_take k j l : bytes k l -> (j <= k)%nat -> bytes j (take j l).
Proof. intros [L F] H. split; [rewrite firstn_length; lia|apply Forall_take, F]. Qed.
Lemma bytes_drop k j l : bytes k l -> bytes (k - j) (drop j l).
Proof. intros [L F]. split; [rewrite skipn_length; lia|apply Forall_drop, F]. Qed.
Lemma cut5 (a b c d e : list N) : length a = 2%nat -> length b = 2%nat -> length c = 20%nat -> length d = 4%nat -> length e = 4%nat ->
  let l := a ++ b ++ c ++ d ++ e in
  take 2 l = a /\ take 2 (drop 2 l) = b /\ take 20 (drop 4 l) = c /\ take 4 (drop 24 l) = d /\ drop 28 l = e.
Proof.
  intros La Lb Lc Ld Le l.
  assert (drop 2 l = b ++ c ++ d ++ e) as D2 by (unfold l; rewrite <- La at 1; apply drop_app).
  assert (drop 4 l = c ++ d ++ e) as D4 by (change 4%nat with (2 + 2)%nat; rewrite <- drop_drop, D2; rewrite <- Lb; apply drop_app).
  assert (drop 24 l = d ++ e) as D24 by (change 24%nat with (4 + 20)%nat; rewrite <- drop_drop, D4; rewrite <- Lc; apply drop_app).
  assert (drop 28 l = e) as D28 by (change 28%nat with (24 + 4)%nat; rewrite <- drop_drop, D24; rewrite <- Ld; apply drop_app).
  rewrite D2, D4, D24, D28. unfold l. repeat split; [rewrite <- La|rewrite <- Lb|rewrite <- Lc|rewrite <- Ld]; apply take_app.
Qed.
Lemma decode_encode flags fee issuer taxon seq :
  flags < 2 ^ 16 -> fee < 2 ^ 16 -> issuer < 2 ^ 160 -> taxon < 2 ^ 32 -> seq < 2 ^ 32 ->
  decode (encode flags fee issuer taxon seq) = XToken flags (10 * fee) issuer taxon seq.
Proof.
  intros H1 H2 H3 H4 H5. unfold decode, encode.
  destruct (cut5 (to_be 2 flags) (to_be 2 fee) (to_be 20 issuer) (to_be 4 (scramble taxon seq)) (to_be 4 seq)) as (E1 & E2 & E3 & E4 & E5);
    try apply to_be_length.
  rewrite E1, E2, E3, E4, E5. pose proof (scramble_bound taxon seq H4).
  rewrite !be_to_be by assumption. rewrite permill_exact by exact H2. rewrite unscramble_spec by exact H5. rewrite scramble_involutive. reflexivity.
Qed.
Lemma encode_decode l : bytes 32 l ->
  let t := decode l in encode (xt_flags t) (xt_fee t / 10) (xt_issuer t) (xt_taxon t) (xt_seq t) = l /\
  xt_flags t < 2 ^ 16 /\ xt_fee t / 10 < 2 ^ 16 /\ 10 * (xt_fee t / 10) = xt_fee t /\ xt_issuer t < 2 ^ 160 /\ xt_taxon t < 2 ^ 32 /\ xt_seq t < 2 ^ 32.
Proof.
  intros B. cbn zeta. unfold decode. cbn [xt_flags xt_fee xt_issuer xt_taxon xt_seq].
  set (a := take 2 l). set (b := take 2 (drop 2 l)). set (c := take 20 (drop 4 l)). set (d := take 4 (drop 24 l)). set (e := drop 28 l).
  assert (l = a ++ b ++ c ++ d ++ e) as El.
  { unfold a, b, c, d, e.
    assert (drop 28 l = drop 4 (drop 24 l)) as -> by (rewrite drop_drop; reflexivity). rewrite take_drop.
    assert (drop 24 l = drop 20 (drop 4 l)) as -> by (rewrite drop_drop; reflexivity). rewrite take_drop.
    assert (drop 4 l = drop 2 (drop 2 l)) as -> by (rewrite drop_drop; reflexivity). rewrite take_drop. rewrite take_drop. reflexivity. }
  assert (bytes 2 a) as Ba by (apply (bytes_take 32); [exact B|lia]).
  assert (bytes 2 b) as Bb by (apply (bytes_take 30); [apply (bytes_drop 32 2), B|lia]).
  assert (bytes 20 c) as Bc by (apply (bytes_take 28); [apply (bytes_drop 32 4), B|lia]).
  assert (bytes 4 d) as Bd by (apply (bytes_take 8); [apply (bytes_drop 32 24), B|lia]).
  assert (bytes 4 e) as Be by (apply (bytes_drop 32 28), B).
  pose proof (be_bound _ _ Ba : be a < 2 ^ 16). pose proof (be_bound _ _ Bb : be b < 2 ^ 16). pose proof (be_bound _ _ Bc : be c < 2 ^ 160).
  pose proof (be_bound _ _ Bd : be d < 2 ^ 32). pose proof (be_bound _ _ Be : be e < 2 ^ 32).
  rewrite unscramble_spec by assumption. rewrite permill_exact by assumption.
  assert (10 * be b / 10 = be b) as -> by (rewrite N.mul_comm, N.div_mul by lia; reflexivity).
  split; [|repeat split; try assumption; apply scramble_bound; assumption].
  unfold encode. rewrite scramble_involutive, !to_be_be by assumption. symmetry. exact El.
Qed.

(** ** Deposits and withdrawals *)
Section bridge.
  Variables (cap mint_limit nft_pallet me : N).
  Hypothesis Hcap : 1 <= cap.
  (** The tokens that exist on the XRPL: an issuer uses a sequence number once. *)
  Variable world : list N -> Prop.
  Hypothesis Huniq : forall x y, world x -> world y -> xt_issuer (decode x) = xt_issuer (decode y) -> xt_seq (decode x) = xt_seq (decode y) -> x = y.
  Notation nstep := (nstep cap mint_limit nft_pallet).
  Notation xstep := (xstep cap mint_limit nft_pallet me).
  Notation deposit := (deposit cap mint_limit me).

  (** What is taken for granted of each step.  Deposits and relayed mints put tokens in the door account that exist and were
      not there before; NFT actions are as in NftProps, without bridged mints by others; the root origin does not map a
      collection by hand. *)
  Definition genuine (s : xls) (o : xop) : Prop :=
    match o with
    | XDeposit _ x _ => world x /\ x ∉ x_door s
    | XNft o => good (x_nft s) o /\ match o with NBridge _ _ _ => False | _ => True end
    | XFulfill _ _ ms => NoDup (map snd ms) /\ Forall (fun x => x ∉ x_door s) (map snd ms)
    | XMap _ _ => False
    | _ => True
    end.

  Definition live (f : nft) (c n : N) : Prop := exists y, owns f c y n.
  Record Inv (s : xls) : Prop := {
    i_wf : WF (x_nft s);
    i_root : forall k c, x_cmap s !! k = Some c -> root_of (x_nft s) c = Some false;
    i_inj : forall k k' c, x_cmap s !! k = Some c -> x_cmap s !! k' = Some c -> k = k';
    i_bridged : forall k c n, x_cmap s !! k = Some c -> live (x_nft s) c n ->
      exists x, x_tmap s !! (c, n) = Some x /\ world x /\ xkey x = k /\ xt_seq (decode x) = n;
    i_door : forall c n x, x_tmap s !! (c, n) = Some x -> live (x_nft s) c n -> x ∈ x_door s;
    i_one : forall c n c' n' x, x_tmap s !! (c, n) = Some x -> x_tmap s !! (c', n') = Some x ->
      live (x_nft s) c n -> live (x_nft s) c' n' -> c = c' /\ n = n';
    i_spent : forall c n x, x_tmap s !! (c, n) = Some x ->
      exists r k, root_of (x_nft s) c = Some r /\ next_of (x_nft s) c = Some k /\ (r = true -> n < k) }.

  Lemma wf_spent f c n y : WF f -> owns f c y n -> exists r k, root_of f c = Some r /\ next_of f c = Some k /\ (r = true -> n < k).
  Proof.
    intros W (i & Hi & Ho). exists (c_root i), (c_next i). unfold root_of, next_of. rewrite Hi. repeat split. intros R.
    destruct (W c i Hi) as (_ & _ & _ & Q). destruct (Q R) as [F _]. rewrite Forall_forall in F. apply F. apply own_flat. eauto.
  Qed.

  (** NFT actions other than bridged mints: nothing comes to life but new serials of the chain's own collections. *)
  Definition nobridge (o : nop) : Prop := match o with NBridge _ _ _ => False | _ => True end.
  Lemma nft_live f o c n r k : WF f -> good f o -> nobridge o -> root_of f c = Some r -> next_of f c = Some k -> (r = true -> n < k) ->
    live (nstep f o) c n -> live f c n.
  Proof.
    intros W G NB R K Hn (y & Hy). destruct (step_effect cap mint_limit nft_pallet f o W G) as [(_ & Q & _) _ _ _|d ns from to _ _ Hf Q _ _ _ _ _|d n0 who _ _ _ Q _ _ _ _ _|d to P _ Q Hfr _ _ _ _ _ Hroot Ho].
    - exists y. apply Q, Hy.
    - apply Q in Hy. destruct (decide (c = d /\ n ∈ ns)) as [[-> I]|]; [exists from; apply Hf, I|exists y; exact Hy].
    - apply Q in Hy. destruct (decide _); [destruct Hy|exists y; exact Hy].
    - apply Q in Hy. destruct Hy as [Hy|(E1 & E2 & Pn)]; [exists y; exact Hy|]. subst d y. exfalso. rename c into d. destruct r.
      + destruct (Hroot R n Pn) as (k' & K' & L). specialize (Hn eq_refl). rewrite K in K'. injection K' as <-. lia.
      + assert (exists y, owns (nstep f o) d y n) as (z & Hz) by (exists to; apply Q; right; auto).
        destruct Ho as [(ow & ini & m & rr & ->)|[(who & q & e & ->)|(ns & -> & _)]]; [| |exact NB].
        * unfold NftModel.nstep in Hz. cbn [nexec] in Hz. unfold create in Hz. unfold root_of in R.
          destruct (colls f !! d) as [i|] eqn:Ed; [|discriminate].
          rewrite bool_decide_eq_false_2 in Hz by discriminate. cbn in Hz. eapply Hfr; eassumption.
        * unfold NftModel.nstep in Hz. cbn [nexec] in Hz. destruct (NftModel.mint cap mint_limit f who d q to e) as [f'|] eqn:Em; cbn in Hz; [|eapply Hfr; eassumption].
          apply mint_spec in Em; [|exact W]. destruct Em as (i & Hi & Hr & _). unfold root_of in R. rewrite Hi in R. cbn in R. congruence.
  Qed.
  Lemma nft_root f o c r : WF f -> good f o -> root_of f c = Some r -> root_of (nstep f o) c = Some r.
  Proof.
    intros W G R. destruct (step_effect cap mint_limit nft_pallet f o W G) as [(_ & _ & Q) _ _ _|? ? ? ? _ _ _ _ _ _ _ Q _|? ? ? _ _ _ _ _ _ _ Q _|? ? ? _ _ _ _ _ _ Q _ _ _];
      [rewrite (proj1 (Q c)); exact R|rewrite (proj1 (Q c)); exact R|rewrite (proj1 (Q c)); exact R|apply Q, R].
  Qed.
  Lemma nft_inv s o : Inv s -> good (x_nft s) o -> nobridge o ->
    Inv (Xls (nstep (x_nft s) o) (x_comp s) (x_cmap s) (x_tmap s) (x_relayer s) (x_door s)).
  Proof.
    intros I G NB. destruct I as [W R J B D O S].
    assert (forall c n x, x_tmap s !! (c, n) = Some x -> live (nstep (x_nft s) o) c n -> live (x_nft s) c n) as Back.
    { intros c n x T L. destruct (S c n x T) as (r & k & H1 & H2 & H3). eapply nft_live; eassumption. }
    constructor; cbn.
    - apply step_WF; assumption.
    - intros k c Hk. apply nft_root; auto. exact (R k c Hk).
    - exact J.
    - intros k c n Hk L. apply (B k c n Hk). pose proof (R k c Hk) as Rc.
      assert (exists x, next_of (x_nft s) c = Some x) as (x & Hx).
      { unfold root_of in Rc. unfold next_of. destruct (colls (x_nft s) !! c); [eexists; reflexivity|discriminate]. }
      eapply (nft_live _ _ _ _ false x); [exact W|exact G|exact NB|exact Rc|exact Hx|discriminate|exact L].
    - intros c n x T L. eapply D; eauto.
    - intros c n c' n' x T T' L L'. eapply O; eauto.
    - intros c n x T. destruct (S c n x T) as (r & k & H1 & H2 & H3).
      destruct (step_next cap mint_limit nft_pallet (x_nft s) o c k H2) as (k' & K' & Le).
      exists r, k'. split; [apply nft_root; assumption|]. split; [exact K'|]. intros E. specialize (H3 E). lia.
  Qed.

  (** A single bridged mint of a serial that does not exist. *)
  Lemma bridge_one f r c n f' : WF f -> root_of f c = Some false -> ~ live f c n -> mint_bridged cap f r c [n] = Ok f' ->
    WF f' /\ (forall d y m, owns f' d y m <-> owns f d y m \/ (d = c /\ y = r /\ m = n)) /\
    (forall d, root_of f' d = root_of f d /\ next_of f' d = next_of f d).
  Proof.
    intros W R NL E. unfold mint_bridged in E. destruct (colls f !! c) as [i|] eqn:Hi; [|unfold root_of in R; rewrite Hi in R; discriminate].
    cbn [sort fold_right ins dedup] in E. cbn [List.filter] in E.
    assert (token_exists (c_toks i) n = false) as T.
    { destruct (token_exists (c_toks i) n) eqn:T; [|reflexivity]. destruct NL. apply exists_spec, own_flat in T. destruct T as (y & Hy). exists y, i. auto. }
    rewrite T in E. cbn [negb] in E. cbn [length] in E. change (N.of_nat 1) with 1 in E.
    rewrite (proj2 (N.leb_le 1 cap) Hcap) in E.
    assert (c_root i = false) as Ri by (unfold root_of in R; rewrite Hi in R; cbn in R; congruence).
    apply (do_mint_spec cap f c i i r [n] f' W Hi) in E; try reflexivity; try congruence.
    - destruct E as (A & Bo & _ & _ & _ & _ & Q & _). split; [exact A|]. split.
      + intros d y m. rewrite Bo. rewrite elem_of_list_singleton. reflexivity.
      + intros d. destruct (Q d) as [Q1 Q2]. split; [exact Q1|]. rewrite Q2. destruct (decide (d = c)) as [->|]; [|reflexivity].
        unfold next_of. rewrite Hi. reflexivity.
    - apply NoDup_singleton.
    - intros m Hm. apply elem_of_list_singleton in Hm as ->. intros F. apply exists_spec in F. congruence.
  Qed.

  (** The state after a mint for a mapped collection. *)
  Lemma minted_inv s r c k x f' : Inv s -> world x -> x ∉ x_door s -> x_cmap s !! k = Some c -> xkey x = k ->
    mint_bridged cap (x_nft s) r c [xt_seq (decode x)] = Ok f' ->
    Inv (to_door (Xls f' (x_comp s) (x_cmap s) (<[(c, xt_seq (decode x)) := x]> (x_tmap s)) (x_relayer s) (x_door s)) x) /\
    owns f' c r (xt_seq (decode x)).
  Proof.
    intros I Wx Dx Hk Kx E. destruct I as [W R J B D O S]. set (n := xt_seq (decode x)) in *.
    assert (~ live (x_nft s) c n) as NL.
    { intros L. destruct (B k c n Hk L) as (y & Ty & Wy & Ky & Sy). assert (y = x) as ->.
      { apply Huniq; auto. unfold xkey in Ky, Kx. congruence. }
      apply Dx. eapply D; eassumption. }
    destruct (bridge_one _ _ _ _ _ W (R k c Hk) NL E) as (W' & Q & Rn).
    assert (forall d m, live f' d m -> live (x_nft s) d m \/ (d = c /\ m = n)) as LL.
    { intros d m (y & Hy). apply Q in Hy as [Hy|(-> & _ & ->)]; [left; exists y; exact Hy|right; auto]. }
    split; [|apply Q; auto]. constructor; cbn.
    - exact W'.
    - intros k' c' Hk'. rewrite (proj1 (Rn c')). eapply R; eassumption.
    - exact J.
    - intros k' c' m Hk' L. destruct (decide ((c, n) = (c', m))) as [[= <- <-]|Ne].
      + exists x. rewrite lookup_insert. repeat split; auto. rewrite Kx. eapply J; eassumption.
      + rewrite lookup_insert_ne by exact Ne. apply B; [exact Hk'|]. destruct (LL _ _ L) as [L'|[-> ->]]; [exact L'|congruence].
    - intros c' m y T L. destruct (decide ((c, n) = (c', m))) as [[= <- <-]|Ne].
      + rewrite lookup_insert in T. injection T as <-. set_solver.
      + rewrite lookup_insert_ne in T by exact Ne. destruct (LL _ _ L) as [L'|[-> ->]]; [|congruence]. specialize (D _ _ _ T L'). set_solver.
    - intros c1 n1 c2 n2 y T1 T2 L1 L2.
      destruct (decide ((c, n) = (c1, n1))) as [[= <- <-]|Ne1], (decide ((c, n) = (c2, n2))) as [[= <- <-]|Ne2]; [auto| | |].
      + rewrite lookup_insert in T1. rewrite lookup_insert_ne in T2 by exact Ne2. injection T1 as <-.
        destruct (LL _ _ L2) as [L'|[-> ->]]; [|congruence]. destruct Dx. eapply D; eassumption.
      + rewrite lookup_insert in T2. rewrite lookup_insert_ne in T1 by exact Ne1. injection T2 as <-.
        destruct (LL _ _ L1) as [L'|[-> ->]]; [|congruence]. destruct Dx. eapply D; eassumption.
      + rewrite lookup_insert_ne in T1 by exact Ne1. rewrite lookup_insert_ne in T2 by exact Ne2.
        destruct (LL _ _ L1) as [L1'|[-> ->]]; [|congruence]. destruct (LL _ _ L2) as [L2'|[-> ->]]; [|congruence]. eapply O; eassumption.
    - intros c' m y T. destruct (Rn c') as [-> ->]. destruct (decide ((c, n) = (c', m))) as [[= <- <-]|Ne].
      + pose proof (R k c Hk) as Rc. exists false. unfold root_of in Rc. unfold root_of, next_of. destruct (colls (x_nft s) !! c); [|discriminate].
        eexists. split; [exact Rc|]. split; [reflexivity|discriminate].
      + rewrite lookup_insert_ne in T by exact Ne. eapply S; eassumption.
  Qed.

  Lemma to_door_inv s x : Inv s -> Inv (to_door s x).
  Proof. intros [W R J B D O S]. constructor; cbn; auto. intros c n y T L. specialize (D c n y T L). set_solver. Qed.

  (** Creating the collection for a key without one. *)
  Lemma create_inv s k newc n1 : Inv s -> x_cmap s !! k = None ->
    create cap mint_limit (x_nft s) newc me 0 None me false = Ok n1 ->
    Inv (Xls n1 ({[newc]} ∪ x_comp s) (<[k := newc]> (x_cmap s)) (x_tmap s) (x_relayer s) (x_door s)).
  Proof.
    intros [W R J B D O S] Hk E. pose proof E as E'. apply create_spec in E; [|exact W]. destruct E as (W' & Fr & Q & _ & _ & _ & Rn & Nx & _).
    assert (root_of n1 newc = Some false) as Rc.
    { unfold create in E'. repeat match type of E' with context [ensure ?b _] => destruct b; cbn in E'; try discriminate end.
      injection E' as <-. unfold root_of, put. cbn. rewrite lookup_insert. reflexivity. }
    assert (forall d m, live n1 d m <-> live (x_nft s) d m) as LL.
    { intros d m. split; intros (y & Hy); exists y; [apply Q in Hy as [Hy|(_ & _ & F)]; [exact Hy|lia]|apply Q; left; exact Hy]. }
    assert (forall k', x_cmap s !! k' <> Some newc) as NC.
    { intros k' H. specialize (R k' newc H). unfold root_of in R. rewrite Fr in R. discriminate. }
    constructor; cbn.
    - exact W'.
    - intros k' c H. destruct (decide (k = k')) as [<-|Ne]; [rewrite lookup_insert in H; injection H as <-; exact Rc|].
      rewrite lookup_insert_ne in H by exact Ne. destruct (decide (c = newc)) as [->|Nc]; [destruct (NC _ H)|].
      rewrite (proj1 (Rn c Nc)). eapply R; eassumption.
    - intros k1 k2 c H1 H2. destruct (decide (k = k1)) as [<-|Ne1], (decide (k = k2)) as [<-|Ne2]; [reflexivity| | |].
      + rewrite lookup_insert in H1. rewrite lookup_insert_ne in H2 by exact Ne2. injection H1 as <-. destruct (NC _ H2).
      + rewrite lookup_insert in H2. rewrite lookup_insert_ne in H1 by exact Ne1. injection H2 as <-. destruct (NC _ H1).
      + rewrite lookup_insert_ne in H1 by exact Ne1. rewrite lookup_insert_ne in H2 by exact Ne2. eapply J; eassumption.
    - intros k' c n H L. apply LL in L. destruct (decide (k = k')) as [<-|Ne].
      + rewrite lookup_insert in H. injection H as <-. destruct L as (y & i & Hi & _). congruence.
      + rewrite lookup_insert_ne in H by exact Ne. eapply B; eassumption.
    - intros c n x T L. apply LL in L. eapply D; eassumption.
    - intros c n c' n' x T T' L L'. apply LL in L, L'. eapply O; eassumption.
    - intros c n x T. destruct (S c n x T) as (r & j & H1 & H2 & H3).
      assert (c <> newc) as Nc by (intros ->; unfold root_of in H1; rewrite Fr in H1; discriminate).
      exists r, j. rewrite (proj1 (Rn c Nc)), (proj2 (Rn c Nc)). auto.
  Qed.

  Lemma deposit_inv s r x newc : Inv s -> world x -> x ∉ x_door s ->
    Inv (to_door (fst (deposit s r x newc)) x) /\
    (snd (deposit s r x newc) = true -> exists c, let s' := to_door (fst (deposit s r x newc)) x in
      x_cmap s' !! xkey x = Some c /\ x_tmap s' !! (c, xt_seq (decode x)) = Some x /\ owns (x_nft s') c r (xt_seq (decode x)) /\
      (forall c', x_cmap s !! xkey x = Some c' -> c' = c) /\ (x_cmap s !! xkey x = None -> c = newc)).
  Proof.
    intros I Wx Dx. unfold Xls20Model.deposit. destruct (is_burnable _).
    { split; [apply to_door_inv, I|discriminate]. }
    destruct (x_cmap s !! xkey x) as [c|] eqn:Hk.
    - destruct (mint_bridged cap (x_nft s) r c [xt_seq (decode x)]) as [f'|] eqn:E; [|split; [apply to_door_inv, I|discriminate]].
      destruct (minted_inv s r c (xkey x) x f' I Wx Dx Hk eq_refl E) as [I' Ow]. split; [exact I'|]. intros _. exists c. cbn.
      rewrite lookup_insert. repeat split; auto; congruence.
    - destruct (create cap mint_limit (x_nft s) newc me 0 None me false) as [n1|] eqn:Ec; [|split; [apply to_door_inv, I|discriminate]].
      pose proof (create_inv s (xkey x) newc n1 I Hk Ec) as I1.
      destruct (mint_bridged cap n1 r newc [xt_seq (decode x)]) as [f'|] eqn:E; cbn [fst snd]; [|split; [apply to_door_inv, I1|discriminate]].
      destruct (minted_inv _ r newc (xkey x) x f' I1 Wx Dx (lookup_insert _ _ _) eq_refl E) as [I' Ow]. split; [exact I'|]. intros _. exists newc.
      cbn. rewrite !lookup_insert. repeat split; auto; congruence.
  Qed.

  Lemma withdraw_inv s who c n ok s' x : Inv s -> withdraw s who c n ok = Ok (s', x) ->
    Inv s' /\ owns (x_nft s) c who n /\ x_tmap s !! (c, n) = Some x /\ x ∈ x_door s /\ x ∉ x_door s' /\ ~ live (x_nft s') c n /\ x_cmap s' = x_cmap s.
  Proof.
    intros [W R J B D O S] E. unfold withdraw in E. destruct (colls (x_nft s) !! c) eqn:Hc; cbn in E; [|discriminate].
    destruct (bool_decide _); cbn in E; [|discriminate]. destruct (do_burn (x_nft s) who c n) as [f|] eqn:Eb; cbn in E; [|discriminate].
    destruct (x_tmap s !! (c, n)) as [y|] eqn:T; cbn in E; [|discriminate]. destruct ok; cbn in E; [|discriminate]. injection E as <- <-.
    apply burn_spec in Eb; [|exact W]. destruct Eb as (W' & Ow & _ & Q & _ & _ & _ & Rn & _).
    assert (live (x_nft s) c n) as L0 by (exists who; exact Ow).
    assert (forall d m, live f d m -> live (x_nft s) d m /\ (d, m) <> (c, n)) as LL.
    { intros d m (z & Hz). apply Q in Hz. destruct (decide (d = c /\ m = n)) as [|Ne]; [destruct Hz|]. split; [exists z; exact Hz|].
      intros [= -> ->]. apply Ne. auto. }
    split; [|repeat split; cbn; auto; [eapply D; eassumption|set_solver|intros L; destruct (LL _ _ L); congruence]].
    constructor; cbn.
    - exact W'.
    - intros k d H. rewrite (proj1 (Rn d)). eapply R; eassumption.
    - exact J.
    - intros k d m H L. apply B; [exact H|]. apply LL, L.
    - intros d m z Tz L. destruct (LL _ _ L) as [L' Ne]. assert (z <> y); [|specialize (D _ _ _ Tz L'); set_solver].
      intros ->. destruct (O _ _ _ _ _ Tz T L' L0) as [-> ->]. congruence.
    - intros d m d' m' z T1 T2 L1 L2. eapply O; try eassumption; [apply LL, L1|apply LL, L2].
    - intros d m z Tz. destruct (Rn d) as [-> ->]. eapply S; eassumption.
  Qed.

  Lemma ful_inv c i ms : forall s s', Inv s -> colls (x_nft s) !! c = Some i -> NoDup (map snd ms) -> Forall (fun x => x ∉ x_door s) (map snd ms) ->
    ful_all c i s ms = Ok s' -> Inv s' /\ x_cmap s' = x_cmap s /\ x_nft s' = x_nft s /\ (forall k, x_cmap s !! k = Some c -> ms = []).
  Proof.
    induction ms as [|[n x] ms IH]; intros s s' I Hi ND F E; cbn [ful_all] in E.
    { injection E as <-. auto. }
    unfold ful_one in E. cbn [fst snd] in E.
    destruct (token_exists (c_toks i) n) eqn:Te; cbn in E; [|discriminate].
    destruct (bool_decide (x_tmap s !! (c, n) = None)) eqn:Tn; cbn in E; [|discriminate]. apply bool_decide_eq_true in Tn.
    cbn in ND, F. apply NoDup_cons in ND as [Nx ND]. apply Forall_cons in F as [Fx F].
    assert (live (x_nft s) c n) as L0.
    { apply exists_spec, own_flat in Te. destruct Te as (y & Hy). exists y, i. auto. }
    pose proof I as I0. destruct I as [W R J B D O S].
    assert (forall k, x_cmap s !! k <> Some c) as NB.
    { intros k Hk. destruct (B k c n Hk L0) as (z & Tz & _). congruence. }
    set (s1 := to_door _ x) in E.
    assert (Inv s1) as I1.
    { constructor; cbn; auto.
      - intros k d m H L. rewrite lookup_insert_ne by (intros [= -> ->]; exact (NB _ H)). eapply B; eassumption.
      - intros d m z Tz L. destruct (decide ((c, n) = (d, m))) as [[= <- <-]|Ne].
        + rewrite lookup_insert in Tz. injection Tz as <-. set_solver.
        + rewrite lookup_insert_ne in Tz by exact Ne. specialize (D _ _ _ Tz L). set_solver.
      - intros d m d' m' z T1 T2 L1 L2.
        destruct (decide ((c, n) = (d, m))) as [[= <- <-]|Ne1], (decide ((c, n) = (d', m'))) as [[= <- <-]|Ne2]; [auto| | |].
        + rewrite lookup_insert in T1. rewrite lookup_insert_ne in T2 by exact Ne2. injection T1 as <-. destruct Fx. eapply D; eassumption.
        + rewrite lookup_insert in T2. rewrite lookup_insert_ne in T1 by exact Ne1. injection T2 as <-. destruct Fx. eapply D; eassumption.
        + rewrite lookup_insert_ne in T1 by exact Ne1. rewrite lookup_insert_ne in T2 by exact Ne2. eapply O; eassumption.
      - intros d m z Tz. destruct (decide ((c, n) = (d, m))) as [[= <- <-]|Ne].
        + destruct L0 as (y & Hy). eapply wf_spent; eassumption.
        + rewrite lookup_insert_ne in Tz by exact Ne. eapply S; eassumption. }
    destruct (IH s1 s' I1 Hi ND) as (I' & Ec & En & _); [|exact E|].
    { rewrite Forall_forall in F |- *. intros z Hz. cbn. specialize (F z Hz). assert (z <> x) by congruence. set_solver. }
    split; [exact I'|]. split; [exact Ec|]. split; [exact En|]. intros k Hk. destruct (NB k Hk).
  Qed.

  Lemma step_inv s o : genuine s o -> Inv s -> Inv (xstep s o) /\ forall k c, x_cmap s !! k = Some c -> x_cmap (xstep s o) !! k = Some c.
  Proof.
    intros G I. destruct o as [r x newc|who c n ok|o|who c|who c ms|k c|a]; cbn [Xls20Model.xstep].
    - destruct G as [Wx Dx]. split; [apply deposit_inv; assumption|]. intros k c Hk. unfold Xls20Model.deposit.
      destruct (is_burnable _); [exact Hk|]. destruct (x_cmap s !! xkey x) as [c'|] eqn:E.
      + destruct (mint_bridged _ _ _ _ _); exact Hk.
      + destruct (create _ _ _ _ _ _ _ _ _); [|exact Hk].
        destruct (mint_bridged _ _ _ _ _); cbn; rewrite lookup_insert_ne by congruence; exact Hk.
    - destruct (withdraw s who c n ok) as [[s' x]|] eqn:E; [|auto]. destruct (withdraw_inv _ _ _ _ _ _ _ I E) as (I' & _ & _ & _ & _ & _ & ->). auto.
    - destruct G as [G NB]. split; [apply nft_inv; assumption|auto].
    - unfold compat. destruct (colls _ !! c); cbn; [|auto]. destruct (_ =? who); cbn; [|auto]. destruct (_ =? 0); cbn; [|auto].
      split; [|auto]. destruct I. constructor; assumption.
    - destruct G as [ND F]. unfold fulfill. destruct (negb _); cbn; [|auto]. destruct (bool_decide _); cbn; [|auto].
      destruct (colls _ !! c) as [i|] eqn:Hi; cbn; [|auto]. destruct (ful_all c i s ms) as [s'|] eqn:E; cbn; [|auto].
      destruct (ful_inv c i ms s s' I Hi ND F E) as (I' & -> & _). auto.
    - destruct G.
    - split; [|auto]. destruct I. constructor; assumption.
  Qed.
  Lemma inv0 : Inv xls0.
  Proof.
    constructor; cbn; intros; discriminate.
  Qed.
  Lemma run_inv_x ops s : along xstep genuine ops s -> Inv s -> Inv (run xstep ops s).
  Proof. apply run_along. intros s0 o G I. apply step_inv; assumption. Qed.
  Lemma run_cmap ops : forall s k c, along xstep genuine ops s -> Inv s -> x_cmap s !! k = Some c -> x_cmap (run xstep ops s) !! k = Some c.
  Proof.
    induction ops as [|o ops IH]; intros s k c A I H; cbn; [exact H|]. destruct A as [G A].
    destruct (step_inv s o G I) as [I' P]. apply IH; auto.
  Qed.
End bridge.
