(** C152-C157: theorems about futurepasses in the EVM. *)
From Verif Require Import AbiProps Erc1155Proofs UtilsProofs FpassFundProps FpassEvmProofs.

(** Nobody holds the key of a precompile's address, and there is room for as many futurepasses as the transaction could
    create. *)
Definition efine (s : es) (o : eop) : Prop :=
  match o with
  | EExt who _ => is_fp who = false /\ N.of_nat (length (born (f_fp (e_m s)))) < 2 ^ 128
  | ECall who _ _ _ inner _ => classify who = PNone /\ N.of_nat (length (born (f_fp (e_m s))) + S (lsize inner)) <= 2 ^ 128
  | EBlock => True
  end.

(** ** Reading calls *)
Lemma call_reads ts l sel : nlen (enc_all ts l) <= USIZE -> wt_all ts l -> sel < 2 ^ 32 ->
  read_selector (build_call sel ts l) = Ok sel /\ read_args ts (build_call sel ts l) = Ok l.
Proof. intros H1 H2 H3. pose proof (C117_roundtrip ts l sel [] H3 H2) as H. rewrite !app_nil_r in H. auto. Qed.
Lemma addr_call n sel : n < 2 ^ 160 -> sel < 2 ^ 32 -> read_selector (build_call sel [tA] [VN n]) = Ok sel /\ read_args [tA] (build_call sel [tA] [VN n]) = Ok [VN n].
Proof. intros Hn Hs. apply call_reads; [|split; [exact Hn|exact I]|exact Hs]. change (enc_all [tA] [VN n]) with ((word n ++ []) ++ []). rewrite !app_nil_r. unfold nlen. rewrite word_length. vm_compute. discriminate. Qed.
Lemma sel_first call sel : read_selector call = Ok sel -> (4 <=? nlen call) = true /\ of_be (firstn 4 call) = sel.
Proof. unfold read_selector. destruct (4 <=? nlen call); cbn [ensure rbind]; [|discriminate]. intros H. injection H as <-. auto. Qed.
Lemma pad_len l : nlen (pad32 l) <= nlen l + 31.
Proof. unfold pad32, nlen. rewrite app_length, repeat_length. pose proof (Nat.mod_upper_bound (32 - length l mod 32) 32 ltac:(discriminate)). lia. Qed.
Lemma four_call k1 k2 k3 mx n1 n2 n3 b sel : fits k1 n1 -> fits k2 n2 -> fits k3 n3 -> nlen b <= mx -> mx <= 65536 -> sel < 2 ^ 32 ->
  let ts := [TW k1; TW k2; TW k3; TBytes mx] in let l := [VN n1; VN n2; VN n3; VB b] in
  read_selector (build_call sel ts l) = Ok sel /\ read_args ts (build_call sel ts l) = Ok l.
Proof.
  intros H1 H2 H3 H4 H5 Hs ts l. apply call_reads; [|cbn [wt_all ts l wt]; auto|exact Hs].
  change (enc_all ts l) with (abi_seq [(true, word n1); (true, word n2); (true, word n3); (false, word (nlen b) ++ pad32 b)]).
  unfold abi_seq. rewrite nlen_app. unfold nlen at 1. rewrite heads_length. cbn [hsize tails]. rewrite !app_nil_l, app_nil_r, nlen_app. unfold nlen at 1. rewrite !word_length.
  pose proof (pad_len b). change USIZE with 4294967295. lia.
Qed.
(** The selector of a call, padded, as logged. *)
Definition topic4 (d : list N) : list N := (if nlen d <? 4 then [0; 0; 0; 0] else firstn 4 d) ++ repeat 0 28.
Lemma out_topic d : out [TPost] [VB (get_selector d)] = topic4 d.
Proof.
  assert (X : forall b, length b = 4%nat -> out [TPost] [VB b] = b ++ repeat 0 28) by (intros [|a [|b [|c [|e [|]]]]] H; try discriminate H; reflexivity).
  apply X. unfold get_selector. destruct (N.ltb_spec (nlen d) 4); [reflexivity|]. rewrite firstn_length. unfold nlen in *. lia.
Qed.

Section props.
  Variable maxp ed base factor : N.
  Variable keccak : list N -> list N.
  Variable recover : list N -> list N -> option N.
  Variable code : N -> bool.
  Variable made : es -> N -> list N -> N.
  Hypothesis small : base + factor * (maxp + 1) + ed <= U128MAX.
  (** The address of a contract is a hash; it has none of the reserved prefixes. *)
  Hypothesis made_none : forall s f d, classify (made s f d) = PNone.
  Notation exec := (mdispatch maxp ed base factor).
  Notation step := (estep maxp ed base factor keccak recover code made).
  Notation perform := (perform maxp ed base factor keccak recover code made).
  Notation acts := (acts maxp ed base factor keccak recover code made).
  Notation fut_leaf := (fut_leaf maxp ed base factor keccak recover).
  Notation fut_run := (fut_run maxp ed base factor keccak recover code made).
  Notation proxy_call := (proxy_call maxp ed base factor keccak recover code made).
  Notation funded := (funded maxp base factor).
  Notation erun := (fun money other drops ops => run step ops (einit money other drops)).
  Notation epast := (fun money other drops ops => along step efine ops (einit money other drops)).
  Notation inv := (inv maxp base factor).
  Notation signed := (signed keccak recover).

  (** ** What holds after any history *)
  Definition good (s : es) : Prop := funded (e_m s) /\ FI (f_fp (e_m s)) /\ typed (f_fp (e_m s)).
  Lemma untouched_refl A s : untouched A s s.
  Proof. constructor; auto; try reflexivity. exists []. rewrite app_nil_r. auto. Qed.
  Lemma step_inv A s0 s o : (forall t, code t = true -> A t = false) -> (forall s f d, A (made s f d) = false) ->
    efine s o -> match o with EExt _ _ => False | ECall who _ _ _ _ _ => A who = false | EBlock => True end -> inv A s0 0 s -> inv A s0 0 (step s o).
  Proof.
    intros HC HM Hf HA HV. destruct o as [who c|who target value data inner ret|]; [destruct HA| |].
    - cbn [estep]. destruct (perform _ _ s) as [[s' o]|] eqn:E; cbn [fst]; [|exact HV]. destruct Hf as [F1 F2].
      apply (apart_perform maxp ed base factor keccak recover code made small A HC (fun s f d => conj (HM s f d) (made_none s f d)) _ 0 _ s0) in E; [exact (proj1 E)| | |].
      + destruct HV as [VF VI VT VR VC VU]. constructor; try assumption. cbn [asize]. rewrite Nat.add_0_r. exact F2.
      + apply outside_none; assumption.
      + left. apply outside_none; assumption.
    - destruct HV as [VF VI VT VR VC [U1 U2 U3 U4 U5 U6]]. constructor; try assumption. constructor; assumption.
  Qed.
  Lemma good_inv s : good s -> N.of_nat (length (born (f_fp (e_m s)))) <= 2 ^ 128 -> inv (fun _ => false) s 0 s.
  Proof.
    intros (H1 & H2 & H3) Hr. constructor; try assumption; [rewrite Nat.add_0_r; exact Hr| |apply untouched_refl]. split; discriminate.
  Qed.
  Lemma step_good s o : good s -> efine s o -> good (step s o).
  Proof.
    intros HG Hf. destruct o as [who c|who target value data inner ret|]; [| |exact HG].
    - cbn [estep]. unfold good. cbn [with_m e_m]. destruct (exec (e_m s) who None c) as [m|] eqn:E; cbn [commit]; [|exact HG]. destruct HG as (H1 & H2 & H3). destruct Hf as [F1 F2].
      split; [exact (outcome_funded maxp ed base factor small _ _ _ (call_outcome maxp ed base factor _ _ _ _ E) H1)|].
      destruct (refine maxp ed base factor small _ _ _ _ H1 E) as [b Hb].
      assert (Ha : actor_ok (f_fp (e_m s)) who) by (intros X; congruence).
      split; [exact (dispatch_FI _ _ _ _ _ _ _ H2 F2 Ha (fun _ => F1) Hb)|exact (dispatch_typed _ _ _ _ _ _ _ H2 H3 (fun _ => F1) Hb)].
    - assert (Hr : N.of_nat (length (born (f_fp (e_m s)))) <= 2 ^ 128) by (destruct Hf; lia).
      pose proof (step_inv (fun _ => false) s s _ (fun _ _ => eq_refl) (fun _ _ _ => eq_refl) Hf eq_refl (good_inv s HG Hr)) as [V1 V2 V3 _ _ _]. split; [exact V1|split; assumption].
  Qed.
  Lemma init_good money other drops : good (einit money other drops).
  Proof.
    split; [exact (init_funded maxp ed base factor small money other)|]. split; [exact finit_FI|]. intros f x _ Hx. unfold einit, minit, defs in Hx. cbn [e_m f_fp finit prox] in Hx.
    rewrite lookup_empty in Hx. destruct Hx.
  Qed.
  Lemma past_good money other drops ops : epast money other drops ops -> good (erun money other drops ops).
  Proof.
    cbn beta. generalize (init_good money other drops). generalize (einit money other drops). induction ops as [|o r IH]; intros s HG H; [exact HG|].
    destruct H as [H1 H2]. cbn [run fold_left]. apply IH; [apply step_good; assumption|exact H2].
  Qed.

  (** * C152: whose transactions change what *)
  (** [A]: accounts that hold all those who may act for them (the futurepasses in [A] exist); contracts are not in [A]. *)
  Definition party (A : N -> bool) (s : es) : Prop :=
    (forall f d t, A f = true -> In (d, t) (defs (f_fp (e_m s)) f) -> A d = true) /\
    (forall f, A f = true -> is_fp f = true -> In f (born (f_fp (e_m s)))) /\
    (forall t, code t = true -> A t = false) /\ (forall s f d, A (made s f d) = false).
  (** A transaction through the EVM signed by an account outside [A]. *)
  Definition others (A : N -> bool) (s : es) (o : eop) : Prop :=
    efine s o /\ match o with EExt _ _ => False | ECall who _ _ _ _ _ => A who = false | EBlock => True end.
  Lemma party_inv A s : good s -> party A s -> N.of_nat (length (born (f_fp (e_m s)))) <= 2 ^ 128 -> inv A s 0 s.
  Proof. intros (H1 & H2 & H3) (P1 & P2 & _) Hr. constructor; try assumption; [rewrite Nat.add_0_r; exact Hr|split; assumption|apply untouched_refl]. Qed.
  (** Whatever others send to whatever contracts, the delegates, holders, money and deposits of [A] stay as they are, no
      XRP of theirs is spent and no call is made in their name. *)
  Theorem C152_outsiders money other drops ops A l : epast money other drops ops -> let s := erun money other drops ops in
    N.of_nat (length (born (f_fp (e_m s)))) <= 2 ^ 128 -> party A s -> along step (others A) l s -> let s' := run step l s in
    (forall a, A a = true ->
       defs (f_fp (e_m s')) a = defs (f_fp (e_m s)) a /\ (forall f, hold (f_fp (e_m s)) !! a = Some f -> hold (f_fp (e_m s')) !! a = Some f) /\
       free (e_m s') a = free (e_m s) a /\ res (e_m s') a = res (e_m s) a /\ xrp s a <= xrp s' a) /\
    exists cs, e_calls s' = e_calls s ++ cs /\ Forall (fun c => A (c_from c) = false) cs.
  Proof.
    intros Hp s Hr HP Hl s'. pose proof (past_good _ _ _ _ Hp) as HG. fold s in HG. destruct HP as (P1 & P2 & P3 & P4).
    assert (X : forall l t, inv A s 0 t -> along step (others A) l t -> inv A s 0 (run step l t)).
    { clear - P3 P4 small made_none. induction l as [|o r IH]; intros t HV Hl; [exact HV|]. destruct Hl as [[H1 H2] Hl]. cbn [run fold_left]. apply IH; [|exact Hl]. apply step_inv; assumption. }
    specialize (X l s (party_inv A s HG (conj P1 (conj P2 (conj P3 P4))) Hr) Hl). fold s' in X.
    destruct X as [_ _ _ _ _ [U1 U2 U3 U4 U5 U6]]. split; [|exact U6]. intros a Ha. split; [apply U1, Ha|]. split; [intros f; apply U2, Ha|]. split; [apply U3, Ha|]. split; [apply U4, Ha|apply U5, Ha].
  Qed.
  (** A member of [A] that calls a contract: unless contracts make a DELEGATECALL to a futurepass, the member loses no more
      than the value sent (in whole drops), and that call is the only one in the name of [A]. *)
  Theorem C152_participants money other drops ops A who target value data inner ret : epast money other drops ops -> let s := erun money other drops ops in
    party A s -> efine s (ECall who target value data inner ret) -> code target = true -> classify target = PNone -> nodels inner ->
    let s' := step s (ECall who target value data inner ret) in
    (forall a, A a = true ->
       defs (f_fp (e_m s')) a = defs (f_fp (e_m s)) a /\ (forall f, hold (f_fp (e_m s)) !! a = Some f -> hold (f_fp (e_m s')) !! a = Some f) /\
       free (e_m s') a = free (e_m s) a /\ res (e_m s') a = res (e_m s) a /\ (a <> who -> xrp s a <= xrp s' a)) /\
    (exists v, v * XRP_UNIT < value + XRP_UNIT /\ (A who = true -> xrp s who <= xrp s' who + v)) /\
    (s' = s \/ exists cs, e_calls s' = e_calls s ++ Ecall who target value data :: cs /\ Forall (fun c => A (c_from c) = false) cs).
  Proof.
    intros Hp s HP [F1 F2] Hc Ht Hn s'. pose proof (past_good _ _ _ _ Hp) as HG. fold s in HG.
    assert (Hr : N.of_nat (length (born (f_fp (e_m s)))) <= 2 ^ 128) by lia. pose proof (party_inv A s HG HP Hr) as V0. destruct HP as (P1 & P2 & P3 & P4).
    destruct (perform (Act KCall target value data inner ret) (FpassEvmModel.top who) s) as [[s2 o]|e] eqn:E.
    2: { assert (Es : s' = s) by (subst s'; cbn [estep]; rewrite E; reflexivity). rewrite Es. split; [intros a _; split; [reflexivity|]; split; [auto|]; split; [reflexivity|]; split; [reflexivity|intros _; apply N.le_refl]|].
      split; [|left; reflexivity]. exists 0. split; [pose proof unit_pos; lia|intros _; lia]. }
    assert (Es : s' = s2) by (subst s'; cbn [estep]; rewrite E; reflexivity). rewrite Es. clear s' Es.
    rewrite perform_eq in E. cbn [FpassEvmModel.top fr_static negb orb ensure rbind fr_self] in E.
    destruct (xmove s who target value) as [s1|] eqn:Ex; cbn [rbind] in E; [|discriminate E]. destruct (xmove_ok _ _ _ _ _ Ex) as (X1 & X2 & _ & _ & v & X5 & X6 & X7 & X8 & X9).
    unfold go, enter in E. rewrite Ht, Hc in E. cbv zeta in E. cbn [fr_stack FpassEvmModel.top] in E. set (s3 := called s1 who target value data) in *.
    destruct (acts false _ inner s3) as [s4|] eqn:Ea; cbn [rbind] in E; [|discriminate E]. destruct ret as [o'|]; cbn [of_opt rbind] in E; [|discriminate E]. injection E as <- _.
    pose proof (P3 _ Hc) as At.
    assert (V3 : inv A s3 (lsize inner + 0) s3).
    { destruct V0 as [VF VI VT VR VC VU]. constructor; subst s3; cbn [called e_m]; rewrite ?X1; try assumption; [lia|apply untouched_refl]. }
    apply (apart_acts maxp ed base factor keccak recover code made small A P3 (fun s f d => conj (P4 s f d) (made_none s f d)) false _ inner 0%nat s3) in Ea;
      [|exact V3|cbn [fr_self]; apply outside_none; assumption|right; exact Hn].
    destruct Ea as [_ _ _ _ _ [U1 U2 U3 U4 U5 (cs & U6 & U7)]]. subst s3. cbn [called e_m e_calls] in U1, U2, U3, U4, U6. rewrite X1 in U1, U2, U3, U4. rewrite X2 in U6.
    assert (U5' : forall a, A a = true -> xrp s1 a <= xrp s4 a) by exact U5.
    split; [|split].
    - intros a Ha. split; [apply U1, Ha|]. split; [intros f; apply U2, Ha|]. split; [apply U3, Ha|]. split; [apply U4, Ha|]. intros Hw. specialize (U5' a Ha).
      assert (a <> target) by congruence. rewrite X9 in U5' by assumption. exact U5'.
    - exists v. split; [apply scale6 in X5; lia|]. intros Hw. specialize (U5' who Hw). assert (Hwt : who <> target) by congruence. destruct (X8 Hwt) as [X8' _]. lia.
    - right. exists cs. rewrite U6, <- app_assoc. split; [reflexivity|exact U7].
  Qed.

  (** * C153: read-only calls *)
  (** Nothing that a read-only call leads to changes anything, as long as it reaches no futurepass. *)
  Theorem C153_static_partial fr s target value data inner ret s' o : nofuts inner -> is_fp target = false ->
    perform (Act KStatic target value data inner ret) fr s = Ok (s', o) -> e_m s' = e_m s /\ e_xrp s' = e_xrp s /\ e_logs s' = e_logs s /\ e_now s' = e_now s.
  Proof.
    intros Hi Ht H. set (R := fun s s' : es => e_m s' = e_m s /\ e_xrp s' = e_xrp s /\ e_logs s' = e_logs s /\ e_now s' = e_now s).
    assert (HR : forall a fr s s' o, nofut a -> fr_static fr = true -> perform a fr s = Ok (s', o) -> R s s').
    { clear. intros a fr s s' o Hn Hs. apply (nofut_perform maxp ed base factor keccak recover code made R (fun b _ => b = true)); try assumption.
      - intros t. repeat split.
      - intros t1 t2 t3 (A1 & A2 & A3 & A4) (B1 & B2 & B3 & B4). repeat split; congruence.
      - reflexivity.
      - auto.
      - intros b st t a1 c v t' Hb [Hx|[->|<-]] H; [congruence|injection H as <-; repeat split|]. destruct (xmove_ok _ _ _ _ _ H) as (_ & _ & _ & _ & v' & _ & _ & X & _). rewrite (X eq_refl). repeat split.
      - intros; repeat split.
      - intros b st t c v d t' o' -> H. unfold r_run in H. destruct (read_selector d) as [sel|]; cbn [rbind] in H; [|discriminate H].
        destruct (sel =? S_futurepassOf).
        + destruct (v =? 0); cbn [ensure rbind] in H; [|discriminate H]. destruct (read_args [tA] d) as [[|[n| |] [|]]|]; cbn [rbind] in H; try discriminate H. injection H as <- _. repeat split.
        + destruct (sel =? S_create); cbn [negb ensure rbind] in H; discriminate H. }
    apply (HR (Act KCall target 0 data inner ret) (Frame (fr_self fr) (fr_caller fr) (fr_value fr) true (fr_stack fr)) s s' o); [split; assumption|reflexivity|].
    rewrite perform_eq in H |- *. cbn [fr_static fr_self negb orb N.eqb ensure rbind xmove]. exact H.
  Qed.

  (** * C154: the contract and the pallet *)
  (** A call to a futurepass without value. *)
  Lemma call_fut f data inner ret fr s : is_fp f = true -> (level f (fr_stack fr) <= 1)%nat ->
    perform (Act KCall f 0 data inner ret) fr s =
    fut_run (fun cb fr' s => acts cb fr' inner s) ret (fr_self fr) f 0 (fr_static fr) data (called s (fr_self fr) f 0 data) (f :: fr_stack fr).
  Proof.
    intros Hf Hl. rewrite perform_eq. replace (negb (fr_static fr) || (0 =? 0)) with true by (rewrite orb_true_r; reflexivity). cbn [ensure rbind xmove N.eqb]. unfold go, enter.
    apply classify_fp in Hf. rewrite Hf. destruct (Nat.leb_spec (level f (fr_stack fr)) 1); [reflexivity|lia].
  Qed.
  Lemma static_fut f value data inner ret fr s : is_fp f = true -> (level f (fr_stack fr) <= 1)%nat ->
    perform (Act KStatic f value data inner ret) fr s =
    fut_run (fun cb fr' s => acts cb fr' inner s) ret (fr_self fr) f 0 true data (called s (fr_self fr) f 0 data) (f :: fr_stack fr).
  Proof.
    intros Hf Hl. rewrite perform_eq. unfold go, enter. apply classify_fp in Hf. rewrite Hf. destruct (Nat.leb_spec (level f (fr_stack fr)) 1); [reflexivity|lia].
  Qed.
  Lemma fut_leaf_of runl ret caller f value static call s stack sel : read_selector call = Ok sel -> (sel =? S_proxyCall) = false ->
    fut_run runl ret caller f value static call s stack = fut_leaf s caller f value call.
  Proof. intros H1 H2. destruct (sel_first _ _ H1) as [E1 E2]. unfold FpassEvmModel.fut_run. rewrite E1, E2, H2. reflexivity. Qed.

  (** transferOwnership is the extrinsic that gives away the caller's own futurepass. *)
  Theorem C154_transferOwnership s fr f n inner ret : is_fp f = true -> (level f (fr_stack fr) <= 1)%nat -> n < 2 ^ 160 ->
    let data := build_call 0xf2fde38b [tA] [VN n] in let me := fr_self fr in
    perform (Act KCall f 0 data inner ret) fr s =
    match exec (e_m s) me None (MTransfer me (Some n)) with
    | Ok m => Ok (elogged (with_m (called s me f 0 data) m) f [0x8be0079c531659141344cd1fd0a4f28419497f9722a3daafe3b4186f6b6457e0; me; n] [], enc_all [tB] [VN 1])
    | Err e => Err e
    end.
  Proof.
    intros Hf Hl Hn data me. rewrite (call_fut f data inner ret fr s Hf Hl). destruct (addr_call n 0xf2fde38b Hn eq_refl) as [E1 E2]. fold data in E1, E2.
    rewrite (fut_leaf_of _ _ _ _ _ _ _ _ _ _ E1 eq_refl). unfold FpassEvmModel.fut_leaf. rewrite E1. match goal with |- _ = ?r => change (f_transfer maxp ed base factor (called s me f 0 data) me f data = r) end.
    unfold f_transfer. rewrite E2. cbn [rbind mdispatch ensure called e_m]. rewrite out_spec by (split; [reflexivity|exact I]). destruct (m_transfer maxp ed base factor (e_m s) me me (Some n)); reflexivity.
  Qed.
  Theorem C154_renounceOwnership s fr f data inner ret : is_fp f = true -> (level f (fr_stack fr) <= 1)%nat -> read_selector data = Ok 0x715018a6 ->
    let me := fr_self fr in
    perform (Act KCall f 0 data inner ret) fr s =
    match exec (e_m s) me None (MTransfer me None) with
    | Ok m => Ok (elogged (with_m (called s me f 0 data) m) f [0x8be0079c531659141344cd1fd0a4f28419497f9722a3daafe3b4186f6b6457e0; me; 0] [], enc_all [tB] [VN 1])
    | Err e => Err e
    end.
  Proof.
    intros Hf Hl E1 me. rewrite (call_fut f data inner ret fr s Hf Hl), (fut_leaf_of _ _ _ _ _ _ _ _ _ _ E1 eq_refl). unfold FpassEvmModel.fut_leaf. rewrite E1.
    match goal with |- _ = ?r => change (f_renounce maxp ed base factor (called s me f 0 data) me f = r) end. unfold f_renounce. rewrite out_spec by (split; [reflexivity|exact I]).
    cbn [rbind mdispatch ensure called e_m]. destruct (m_transfer maxp ed base factor (e_m s) me me None); reflexivity.
  Qed.
  (** unregisterDelegate is the extrinsic. *)
  Theorem C154_unregister s fr f d inner ret : is_fp f = true -> (level f (fr_stack fr) <= 1)%nat -> d < 2 ^ 160 ->
    let data := build_call 0x8376e5ae [tA] [VN d] in let me := fr_self fr in
    perform (Act KCall f 0 data inner ret) fr s =
    match exec (e_m s) me None (MUnregister f d) with
    | Ok m => Ok (elogged (with_m (called s me f 0 data) m) f [0x35dca1bf1d17be7853aa0ec72f021ab0188ddda31357b90201a6ef08d27bf3b8; f] (enc_all [tA] [VN d]), [])
    | Err e => Err e
    end.
  Proof.
    intros Hf Hl Hn data me. rewrite (call_fut f data inner ret fr s Hf Hl). destruct (addr_call d 0x8376e5ae Hn eq_refl) as [E1 E2]. fold data in E1, E2.
    rewrite (fut_leaf_of _ _ _ _ _ _ _ _ _ _ E1 eq_refl). unfold FpassEvmModel.fut_leaf. rewrite E1. match goal with |- _ = ?r => change (f_unregister ed base factor (called s me f 0 data) me f data = r) end.
    unfold f_unregister. rewrite E2. cbn [rbind mdispatch ensure called e_m]. rewrite out_spec by (split; [exact Hn|exact I]). destruct (m_unregister ed base factor (e_m s) me f d); reflexivity.
  Qed.
  (** create(address) of the registrar is the extrinsic; it answers the address of the new futurepass. *)
  Theorem C154_create s fr o inner ret : level registrar (fr_stack fr) = 0%nat -> o < 2 ^ 160 -> fr_static fr = false ->
    let data := build_call 0x9ed93318 [tA] [VN o] in let me := fr_self fr in
    perform (Act KCall registrar 0 data inner ret) fr s =
    match exec (e_m s) me None (MCreate o) with
    | Ok m => let f := faddr (nextf (f_fp (e_m s))) in
        Ok (elogged (with_m (called s me registrar 0 data) m) registrar [0xf0c2622397f61a66478f7f5b0e984494425479b88abf1507869c475d56f76308; f] (enc_all [tA] [VN o]), enc_all [tA] [VN f])
    | Err e => Err e
    end.
  Proof.
    intros Hl Hn Hs data me. rewrite perform_eq, Hs. cbn [negb orb ensure rbind]. change (xmove s (fr_self fr) registrar 0) with (Ok s). cbn [rbind]. unfold go, enter. change (classify registrar) with PReg. cbv iota. rewrite Hl, N.eqb_refl. cbn [ensure rbind Nat.leb].
    destruct (addr_call o 0x9ed93318 Hn eq_refl) as [E1 E2]. fold data in E1, E2. unfold r_run. fold me. rewrite E1. cbn [rbind]. change (0x9ed93318 =? S_futurepassOf) with false. change (0x9ed93318 =? S_create) with true. cbv iota.
    change (0 =? 0) with true. cbn [negb ensure rbind]. rewrite E2. cbn [rbind mdispatch ensure called e_m]. cbv zeta. rewrite (out_spec [tA] [VN o]) by (split; [exact Hn|exact I]).
    destruct (m_create maxp ed base factor (e_m s) me o); [|reflexivity]. cbn [rbind]. rewrite out_spec; [reflexivity|]. split; [|exact I]. change (faddr (nextf (f_fp (e_m s))) < 2 ^ 160). rewrite faddr_value. pose proof (N.mod_lt (nextf (f_fp (e_m s))) (2 ^ 128) ltac:(discriminate)). change (2 ^ 160) with (4294967295 * 2 ^ 128 + 2 ^ 128). lia.
  Qed.
  (** registerDelegateWithSignature is the extrinsic with the type named by the number. *)
  Theorem C154_register s fr f d n t deadline sig inner ret : is_fp f = true -> (level f (fr_stack fr) <= 1)%nat -> d < 2 ^ 160 -> deadline < 2 ^ 32 -> nlen sig = 65 ->
    In (n, t) [(0, TNone); (1, TAny); (2, TNonTransfer); (3, TGov); (4, TStaking); (255, TOwner)] ->
    let data := build_call 0xfb243a5c [tA; tU8; tU32; TBytes 65] [VN d; VN n; VN deadline; VB sig] in let me := fr_self fr in
    perform (Act KCall f 0 data inner ret) fr s =
    match exec (e_m s) me None (MRegister f d t (signed (e_now s) f d t deadline sig)) with
    | Ok m => Ok (elogged (with_m (called s me f 0 data) m) f [0x6baa10aed47b514e03e204dd6e42a396027df1835dde4918eb6c8517f16eac78; f; d] (enc_all [tU8] [VN n]), [])
    | Err e => Err e
    end.
  Proof.
    intros Hf Hl Hd Hdl Hsig Hn data me. rewrite (call_fut f data inner ret fr s Hf Hl).
    assert (Hn255 : n <= 255 /\ ptype_of n = Some t) by (cbn [In] in Hn; decompose [or] Hn; try contradiction; match goal with H : (_, _) = (_, _) |- _ => injection H as <- <- end; split; vm_compute; congruence).
    destruct Hn255 as [Hn255 Hpt].
    assert (W2 : fits (WUint 255) n) by (split; [exact Hn255|apply N.le_lt_trans with (1 := Hn255); reflexivity]).
    assert (W3 : fits (WUint U32MAX) deadline) by (split; [unfold U32MAX; lia|apply N.lt_trans with (1 := Hdl); reflexivity]).
    destruct (four_call WAddr (WUint 255) (WUint U32MAX) 65 d n deadline sig 0xfb243a5c Hd W2 W3 ltac:(lia) ltac:(lia) eq_refl) as [E1 E2].
    change (build_call 0xfb243a5c [TW WAddr; TW (WUint 255); TW (WUint U32MAX); TBytes 65] [VN d; VN n; VN deadline; VB sig]) with data in E1, E2.
    change [TW WAddr; TW (WUint 255); TW (WUint U32MAX); TBytes 65] with [tA; tU8; tU32; TBytes 65] in E2.
    rewrite (fut_leaf_of _ _ _ _ _ _ _ _ _ _ E1 eq_refl). unfold FpassEvmModel.fut_leaf. rewrite E1.
    match goal with |- _ = ?r => change (f_register maxp ed base factor keccak recover (called s me f 0 data) me f data = r) end.
    unfold f_register. rewrite E2. cbn [rbind]. rewrite Hpt, Hsig. cbn [of_opt rbind]. change (65 =? 65) with true. cbn [ensure rbind mdispatch called e_m e_now]. rewrite out_spec by (split; [exact W2|exact I]).
    destruct (m_register _ _ _ _ _ (e_m s) me f d t); reflexivity.
  Qed.
  (** owner() is the account that holds the futurepass, or zero; also in a read-only call. *)
  Theorem C154_owner money other drops ops k fr f data inner ret : epast money other drops ops -> let s := erun money other drops ops in
    In k [KCall; KStatic] -> is_fp f = true -> (level f (fr_stack fr) <= 1)%nat -> read_selector data = Ok 0x8da5cb5b ->
    let s1 := called s (fr_self fr) f 0 data in
    (forall o, o < 2 ^ 160 -> hold (f_fp (e_m s)) !! o = Some f -> perform (Act k f 0 data inner ret) fr s = Ok (s1, enc_all [tA] [VN o])) /\
    ((forall o, hold (f_fp (e_m s)) !! o <> Some f) -> perform (Act k f 0 data inner ret) fr s = Ok (s1, enc_all [tA] [VN 0])).
  Proof.
    intros Hp s Hk Hf Hl E1 s1. pose proof (past_good _ _ _ _ Hp) as (_ & HI & _). fold s in HI.
    assert (X : perform (Act k f 0 data inner ret) fr s = f_owner s1 f).
    { assert (Y : forall b, fut_run (fun cb fr' s => acts cb fr' inner s) ret (fr_self fr) f 0 b data s1 (f :: fr_stack fr) = f_owner s1 f).
      { intros b. rewrite (fut_leaf_of _ _ _ _ _ _ _ _ _ _ E1 eq_refl). unfold FpassEvmModel.fut_leaf. rewrite E1. reflexivity. }
      destruct Hk as [<-|[<-|[]]]; [rewrite (call_fut f data inner ret fr s Hf Hl)|rewrite (static_fut f 0 data inner ret fr s Hf Hl)]; apply Y. }
    rewrite X. unfold f_owner. destruct (List.find _ (defs (f_fp (e_m s1)) f)) as [[o' t]|] eqn:E.
    - apply List.find_some in E. destruct E as [Ei Et]. apply bool_decide_eq_true in Et. cbn [snd] in Et. subst t. pose proof (i_only _ HI _ _ Hf Ei) as Ho. split.
      + intros o Ho1 Ho2. cbn [fst]. rewrite (i_one _ HI _ _ _ Ho2 Ho) in *. rewrite out_spec by (split; [exact Ho1|exact I]). reflexivity.
      + intros Hx. destruct (Hx o' Ho).
    - split; [|intros _; rewrite out_spec by (split; [reflexivity|exact I]); reflexivity].
      intros o _ Ho. destruct (i_own _ HI _ _ Ho) as [Hi _]. apply (List.find_none _ _ E) in Hi. cbn [snd] in Hi. apply bool_decide_eq_false in Hi. congruence.
  Qed.
  (** delegateType(d) is 0 for those who may not act for the futurepass, and 1 or 255 for those who may; 255 only for the owner. *)
  Theorem C154_delegateType_partial money other drops ops k fr f d inner ret : epast money other drops ops -> let s := erun money other drops ops in
    In k [KCall; KStatic] -> is_fp f = true -> (level f (fr_stack fr) <= 1)%nat -> d < 2 ^ 160 -> let data := build_call 0x2e51ee70 [tA] [VN d] in
    exists n, perform (Act k f 0 data inner ret) fr s = Ok (called s (fr_self fr) f 0 data, enc_all [tU8] [VN n]) /\ In n [0; 1; 255] /\
      (n = 0 <-> forall t, ~ In (d, t) (defs (f_fp (e_m s)) f)) /\ (n = 255 -> hold (f_fp (e_m s)) !! d = Some f).
  Proof.
    intros Hp s Hk Hf Hl Hd data. pose proof (past_good _ _ _ _ Hp) as (_ & HI & HT). fold s in HI, HT. set (s1 := called s (fr_self fr) f 0 data).
    destruct (addr_call d 0x2e51ee70 Hd eq_refl) as [E1 E2]. fold data in E1, E2.
    assert (X : perform (Act k f 0 data inner ret) fr s = f_delegate_type s1 f data).
    { assert (Y : forall b, fut_run (fun cb fr' s => acts cb fr' inner s) ret (fr_self fr) f 0 b data s1 (f :: fr_stack fr) = f_delegate_type s1 f data).
      { intros b. rewrite (fut_leaf_of _ _ _ _ _ _ _ _ _ _ E1 eq_refl). unfold FpassEvmModel.fut_leaf. rewrite E1. reflexivity. }
      destruct Hk as [<-|[<-|[]]]; [rewrite (call_fut f data inner ret fr s Hf Hl)|rewrite (static_fut f 0 data inner ret fr s Hf Hl)]; apply Y. }
    rewrite X. unfold f_delegate_type. rewrite E2. cbn [rbind]. change (f_fp (e_m s1)) with (f_fp (e_m s)). destruct (find_def d None (defs (f_fp (e_m s)) f)) as [[d' t]|] eqn:E.
    - destruct (FpassProofs.find_some _ _ _ _ E) as (Ei & Ed & _). cbn [fst] in Ed. subst d'. cbn [snd]. destruct (HT _ _ Hf Ei) as [Et|Et]; cbn [snd] in Et; subst t; cbn [ptype_n].
      + exists 1. rewrite out_spec by (split; [split; [discriminate|reflexivity]|exact I]). split; [reflexivity|]. split; [right; left; reflexivity|]. split; [|discriminate]. split; [discriminate|]. intros H. destruct (H _ Ei).
      + exists 255. rewrite out_spec by (split; [split; [discriminate|reflexivity]|exact I]). split; [reflexivity|]. split; [right; right; left; reflexivity|]. split; [|intros _; exact (i_only _ HI _ _ Hf Ei)]. split; [discriminate|]. intros H. destruct (H _ Ei).
    - exists 0. rewrite out_spec by (split; [split; [discriminate|reflexivity]|exact I]). split; [reflexivity|]. split; [left; reflexivity|]. split; [|discriminate]. split; [intros _; exact (FpassProofs.find_none _ _ E)|reflexivity].
  Qed.
  (** futurepassOf(o) is the futurepass that [o] holds, or zero. *)
  Theorem C154_futurepassOf money other drops ops k fr o inner ret : epast money other drops ops -> let s := erun money other drops ops in
    In k [KCall; KStatic] -> level registrar (fr_stack fr) = 0%nat -> o < 2 ^ 160 -> let data := build_call 0x4dde5a44 [tA] [VN o] in
    perform (Act k registrar 0 data inner ret) fr s =
    Ok (called s (fr_self fr) registrar 0 data, enc_all [tA] [VN (match hold (f_fp (e_m s)) !! o with Some f => f | None => 0 end)]).
  Proof.
    intros Hp s Hk Hl Ho data. pose proof (past_good _ _ _ _ Hp) as (_ & HI & _). fold s in HI. destruct (addr_call o 0x4dde5a44 Ho eq_refl) as [E1 E2]. fold data in E1, E2.
    assert (W : match hold (f_fp (e_m s)) !! o with Some f => f | None => 0 end < 2 ^ 160).
    { destruct (hold (f_fp (e_m s)) !! o) as [f|] eqn:Eh; [|reflexivity]. destruct (i_own _ HI _ _ Eh) as [_ Hb]. apply (born_fp _ _ HI) in Hb. unfold is_fp in Hb. apply N.eqb_eq in Hb.
      change (2 ^ 160) with (4294967296 * 2 ^ 128). pose proof (N.mod_lt f (2 ^ 128) ltac:(discriminate)). pose proof (N.div_mod f (2 ^ 128) ltac:(discriminate)). lia. }
    assert (X : forall b, r_run maxp ed base factor (called s (fr_self fr) registrar 0 data) (fr_self fr) 0 b data =
      Ok (called s (fr_self fr) registrar 0 data, enc_all [tA] [VN (match hold (f_fp (e_m s)) !! o with Some f => f | None => 0 end)])).
    { intros b. unfold r_run. rewrite E1. cbn [rbind]. change (0x4dde5a44 =? S_futurepassOf) with true. change (0 =? 0) with true. cbn [ensure rbind]. rewrite E2. cbn [rbind called e_m].
      rewrite out_spec; [destruct (hold (f_fp (e_m s)) !! o); reflexivity|]. split; [|exact I]. cbn [wt tA fits]. destruct (hold (f_fp (e_m s)) !! o); exact W. }
    rewrite perform_eq. destruct Hk as [<-|[<-|[]]].
    - replace (negb (fr_static fr) || (0 =? 0)) with true by (rewrite orb_true_r; reflexivity). cbn [ensure rbind]. change (xmove s (fr_self fr) registrar 0) with (Ok s). cbn [rbind]. unfold go, enter. change (classify registrar) with PReg. cbv iota.
      rewrite Hl, N.eqb_refl. cbn [ensure rbind Nat.leb]. apply X.
    - unfold go, enter. change (classify registrar) with PReg. cbv iota. rewrite Hl, N.eqb_refl. cbn [ensure rbind Nat.leb]. apply X.
  Qed.

  (** * C155: what proxyCall does *)
  Definition proxy_data (ct to v : N) (d : list N) : list N := build_call 0xc579191c [tU8; tA; tU; TBytes 65536] [VN ct; VN to; VN v; VB d].
  Lemma proxy_eq s fr f ct to v d inner ret : is_fp f = true -> (level f (fr_stack fr) <= 1)%nat -> ct <= 255 -> to < 2 ^ 160 -> v < 2 ^ 256 -> nlen d <= 65536 ->
    perform (Act KCall f 0 (proxy_data ct to v d) inner ret) fr s =
    proxy_call (fun cb fr' s => acts cb fr' inner s) ret (called s (fr_self fr) f 0 (proxy_data ct to v d)) (fr_self fr) (fr_static fr) (f :: fr_stack fr) f ct to v d.
  Proof.
    intros Hf Hl H1 H2 H3 H4. rewrite (call_fut f _ inner ret fr s Hf Hl). unfold proxy_data.
    assert (W1 : fits (WUint 255) ct) by (split; [exact H1|apply N.le_lt_trans with (1 := H1); reflexivity]).
    assert (W3 : fits (WUint U256MAX) v) by (split; [change U256MAX with (2 ^ 256 - 1); lia|exact H3]).
    destruct (four_call (WUint 255) WAddr (WUint U256MAX) 65536 ct to v d 0xc579191c W1 H2 W3 H4 ltac:(lia) eq_refl) as [E1 E2].
    change [TW (WUint 255); TW WAddr; TW (WUint U256MAX); TBytes 65536] with [tU8; tA; tU; TBytes 65536] in E1, E2.
    destruct (sel_first _ _ E1) as [F1 F2]. unfold FpassEvmModel.fut_run. rewrite F1, F2. change (0xc579191c =? S_proxyCall) with true. cbn [andb]. rewrite E2. reflexivity.
  Qed.
  (** Only delegates act through a futurepass. *)
  Theorem C155_delegates s fr f ct to v d inner ret s' o : is_fp f = true -> (level f (fr_stack fr) <= 1)%nat -> ct <= 255 -> to < 2 ^ 160 -> v < 2 ^ 256 -> nlen d <= 65536 ->
    perform (Act KCall f 0 (proxy_data ct to v d) inner ret) fr s = Ok (s', o) -> ct < 5 /\ ct <> 2 /\ exists t, In (fr_self fr, t) (defs (f_fp (e_m s)) f).
  Proof.
    intros Hf Hl H1 H2 H3 H4 H. rewrite (proxy_eq s fr f ct to v d inner ret Hf Hl H1 H2 H3 H4) in H. unfold FpassEvmModel.proxy_call in H.
    destruct (N.ltb_spec ct 5) as [Hc|]; cbn [ensure rbind] in H; [|discriminate H]. split; [exact Hc|].
    destruct (negb (is_fp to && _)); cbn [ensure rbind] in H; [|discriminate H]. destruct (_ || _); cbn [ensure rbind] in H; [|discriminate H].
    cbn [called e_m] in H. destruct (find_def (fr_self fr) None (defs (f_fp (e_m s)) f)) as [[a t]|] eqn:E; cbn [of_opt rbind] in H; [|discriminate H].
    destruct (FpassProofs.find_some _ _ _ _ E) as (Ei & Ea & _). cbn [fst] in Ea. subst a. split; [|exists t; exact Ei]. intros ->.
    change (2 <? 2) with false in H. change (negb (2 =? 2)) with false in H. cbn [ensure rbind] in H.
    destruct (negb _); cbn [ensure rbind] in H; [|discriminate H]. destruct (if _ : bool then _ else _); cbn [ensure rbind] in H; discriminate H.
  Qed.
  (** What a delegate may ask for, at an address that is no futurepass and not the registrar. *)
  Lemma proxy_pass runl ret s caller static stack f ct to v d t : good s -> is_fp f = true -> In (caller, t) (defs (f_fp (e_m s)) f) -> ct < 5 -> is_fp to = false -> to <> registrar ->
    proxy_call runl ret s caller static stack f ct to v d =
    if ct <? 2 then
      do! s1 <- xmove s f to v;
      do! r <- FpassEvmModel.enter maxp ed base factor code (fun s2 _ => fut_leaf s2 f to v d) runl ret s1 true to f v (static || (ct =? 0)) stack to d;
      Ok (elogged (fst r) f [L_executed; ct; to; v] (topic4 d), snd r)
    else
      ensure! negb (ct =? 2) else 15;
      ensure! (ct =? 3) || (32 <=? nlen d) else panic;
      let a := made s f d in
      do! s1 <- xmove s f a v;
      do! s2 <- runl false (Frame a f v false []) (called s1 f a v d);
      do! _ <- of_opt ret 40;
      Ok (elogged s2 f [L_contract; ct; a; v] (word (if ct =? 3 then 0 else of_be (skipn (length d - 32) d))), be_bytes 20 a).
  Proof.
    intros (_ & _ & HT) Hf Hi Hc Ht Hr. unfold FpassEvmModel.proxy_call. rewrite Ht, out_topic. destruct (N.ltb_spec ct 5); [|lia]. cbn [andb negb orb ensure rbind].
    destruct (find_def caller None (defs (f_fp (e_m s)) f)) as [x|] eqn:E; [|destruct (FpassProofs.find_none _ _ E t Hi)]. cbn [of_opt rbind].
    destruct (N.eqb_spec to registrar); [congruence|]. cbn [orb andb negb ensure rbind]. destruct (FpassProofs.find_some _ _ _ _ E) as (Ei & _ & _).
    destruct (HT _ _ Hf Ei) as [Et|Et]; rewrite Et; reflexivity.
  Qed.
  (** With call type 1, any delegate pays out of the futurepass to a plain account. *)
  Theorem C155_pay money other drops ops fr f t to v d inner ret : epast money other drops ops -> let s := erun money other drops ops in let me := fr_self fr in
    is_fp f = true -> (level f (fr_stack fr) <= 1)%nat -> In (me, t) (defs (f_fp (e_m s)) f) -> classify to = PNone -> code to = false -> to < 2 ^ 160 -> v < 2 ^ 256 -> nlen d <= 65536 ->
    (forall s' o, perform (Act KCall f 0 (proxy_data 1 to v d) inner ret) fr s = Ok (s', o) ->
       o = [] /\ e_m s' = e_m s /\ e_logs s' = e_logs s ++ [Elog f [0x947255a71a111efd74e4a20f59cf2f04a9bc9fc00ff98a7ef5c0e2aede96a88b; 1; to; v] (topic4 d)] /\
       e_calls s' = e_calls s ++ [Ecall me f 0 (proxy_data 1 to v d); Ecall f to v d] /\
       exists drops, v <= drops * XRP_UNIT < v + XRP_UNIT /\ xrp s' f + drops = xrp s f /\ xrp s' to = xrp s to + drops /\ forall a, a <> f -> a <> to -> xrp s' a = xrp s a) /\
    (v <= U128MAX -> v <= xrp s f * XRP_UNIT -> exists p, perform (Act KCall f 0 (proxy_data 1 to v d) inner ret) fr s = Ok p).
  Proof.
    intros Hp s me Hf Hl Hi Ht Hc H2 H3 H4. pose proof (past_good _ _ _ _ Hp) as HG. fold s in HG.
    assert (Hft : f <> to) by (intros <-; apply classify_fp in Hf; congruence).
    assert (Htr : to <> registrar) by (intros ->; discriminate Ht). set (s0 := called s me f 0 (proxy_data 1 to v d)).
    assert (X : perform (Act KCall f 0 (proxy_data 1 to v d) inner ret) fr s =
      do! s1 <- xmove s0 f to v; Ok (elogged (called s1 f to v d) f [L_executed; 1; to; v] (topic4 d), [])).
    { rewrite (proxy_eq s fr f 1 to v d inner ret Hf Hl ltac:(lia) H2 H3 H4). fold me s0. rewrite (proxy_pass _ ret s0 me (fr_static fr) (f :: fr_stack fr) f 1 to v d t HG Hf Hi ltac:(lia) (none_fp to Ht) Htr).
      change (1 <? 2) with true. cbv iota. destruct (xmove s0 f to v) as [s1|]; cbn [rbind]; [|reflexivity]. unfold enter. rewrite Ht, Hc. reflexivity. }
    split.
    - intros s' o H. rewrite X in H. destruct (xmove s0 f to v) as [s1|] eqn:Ex; cbn [rbind] in H; [|discriminate H]. injection H as <- <-.
      destruct (xmove_ok _ _ _ _ _ Ex) as (X1 & X2 & _ & X4 & w & X5 & X6 & _ & X8 & X9). split; [reflexivity|]. cbn [elogged called e_m e_logs e_calls]. rewrite X1, X2, X4. split; [reflexivity|]. split; [reflexivity|].
      split; [subst s0; cbn [called e_calls]; rewrite <- app_assoc; reflexivity|]. destruct (X8 Hft) as [Y1 Y2]. exists w. split; [exact (scale6 _ _ X5)|]. split; [exact Y1|]. split; [exact Y2|exact X9].
    - intros V1 V2. rewrite X. unfold xmove. destruct (N.eqb_spec v 0); [eexists; reflexivity|]. destruct (N.leb_spec v U128MAX); [|lia]. cbn [ensure rbind].
      set (w := (v + (XRP_UNIT - 1)) / XRP_UNIT).
      assert (Hw : v <= w * XRP_UNIT < v + XRP_UNIT).
      { pose proof (N.div_mod (v + (XRP_UNIT - 1)) XRP_UNIT ltac:(discriminate)) as D. pose proof (N.mod_lt (v + (XRP_UNIT - 1)) XRP_UNIT ltac:(discriminate)). fold w in D. pose proof unit_pos. lia. }
      assert (Hu : w <= U128MAX) by (pose proof unit_pos; nia).
      destruct (scale6_iff v w) as [_ Hs]. rewrite (Hs (conj Hu Hw)). cbn [rbind]. change (xrp s0 f) with (xrp s f). destruct (N.leb_spec w (xrp s f)) as [_|Hx]; [cbn [ensure rbind]|exfalso; pose proof unit_pos; nia].
      destruct (f =? to); cbn [rbind]; eexists; reflexivity.
  Qed.
  (** A contract is run with the futurepass as its caller; if it fails, so does the whole call. *)
  Theorem C155_contract money other drops ops fr f t ct to v d inner ret : epast money other drops ops -> let s := erun money other drops ops in let me := fr_self fr in
    is_fp f = true -> (level f (fr_stack fr) <= 1)%nat -> In (me, t) (defs (f_fp (e_m s)) f) -> In ct [0; 1] -> classify to = PNone -> code to = true -> to < 2 ^ 160 -> v < 2 ^ 256 -> nlen d <= 65536 ->
    let s0 := called s me f 0 (proxy_data ct to v d) in
    perform (Act KCall f 0 (proxy_data ct to v d) inner ret) fr s =
    match xmove s0 f to v with
    | Err e => Err e
    | Ok s1 => match acts false (Frame to f v (fr_static fr || (ct =? 0)) (f :: fr_stack fr)) inner (called s1 f to v d), ret with
               | Err e, _ => Err e
               | Ok _, None => Err 40
               | Ok s2, Some o => Ok (elogged s2 f [0x947255a71a111efd74e4a20f59cf2f04a9bc9fc00ff98a7ef5c0e2aede96a88b; ct; to; v] (topic4 d), o)
               end
    end.
  Proof.
    intros Hp s me Hf Hl Hi Hct Ht Hc H2 H3 H4 s0. pose proof (past_good _ _ _ _ Hp) as HG. fold s in HG.
    assert (Htr : to <> registrar) by (intros ->; discriminate Ht). assert (Hc2 : ct < 2) by (cbn [In] in Hct; lia).
    rewrite (proxy_eq s fr f ct to v d inner ret Hf Hl ltac:(lia) H2 H3 H4). fold me s0. rewrite (proxy_pass _ ret s0 me (fr_static fr) (f :: fr_stack fr) f ct to v d t HG Hf Hi ltac:(lia) (none_fp to Ht) Htr).
    destruct (N.ltb_spec ct 2); [|lia]. destruct (xmove s0 f to v) as [s1|]; cbn [rbind]; [|reflexivity]. unfold enter. rewrite Ht, Hc. cbv zeta.
    destruct (acts false _ inner _) as [s2|]; cbn [rbind]; [|reflexivity]. destruct ret; reflexivity.
  Qed.
  (** A futurepass never creates a futurepass, and of futurepasses it calls three functions only. *)
  Theorem C155_listed s fr f ct to v d inner ret s' o : is_fp f = true -> (level f (fr_stack fr) <= 1)%nat -> ct <= 255 -> to < 2 ^ 160 -> v < 2 ^ 256 -> nlen d <= 65536 ->
    perform (Act KCall f 0 (proxy_data ct to v d) inner ret) fr s = Ok (s', o) -> ct < 2 ->
    to <> registrar /\ (is_fp to = true -> In (of_be (firstn 4 d)) [0xfb243a5c; 0x8376e5ae; 0xf2fde38b] /\ hold (f_fp (e_m s)) !! fr_self fr = Some f).
  Proof.
    intros Hf Hl H1 H2 H3 H4 H Hc. rewrite (proxy_eq s fr f ct to v d inner ret Hf Hl H1 H2 H3 H4) in H. unfold FpassEvmModel.proxy_call in H.
    destruct (N.ltb_spec ct 5); cbn [ensure rbind] in H; [|discriminate H]. destruct (negb (is_fp to && _)) eqn:Ep; cbn [ensure rbind] in H; [|discriminate H].
    destruct (_ || _) eqn:Eo; cbn [ensure rbind] in H; [|discriminate H]. cbn [called e_m] in H, Eo. destruct (find_def _ None _) as [x|]; cbn [of_opt rbind] in H; [|discriminate H].
    cbv zeta in H. destruct (negb (((to =? registrar) || is_fp to) && (nlen d <? 4))) eqn:Es; cbn [ensure rbind] in H; [|discriminate H]. split.
    - intros ->. change (registrar =? registrar) with true in H, Es. cbn [orb andb] in H, Es. destruct (listed d) eqn:El; cbn [ensure rbind] in H; [|discriminate H]. destruct (N.ltb_spec ct 2); [|lia].
      destruct (xmove _ f registrar v) as [s1|]; cbn [rbind] in H; [|discriminate H]. unfold enter in H. change (classify registrar) with PReg in H. cbv iota in H. change (registrar =? registrar) with true in H. cbn [ensure rbind] in H.
      destruct (Nat.leb _ 0); cbn [ensure rbind] in H; [|discriminate H]. unfold r_run, read_selector in H. apply negb_true_iff, N.ltb_ge in Es. destruct (N.leb_spec 4 (nlen d)); [|lia]. cbn [ensure rbind] in H.
      unfold listed in El. cbn [existsb] in El. rewrite orb_false_r in El.
      destruct (N.eqb_spec (of_be (firstn 4 d)) S_registerDelegate) as [Eq|_]; [rewrite Eq in H; discriminate H|]. destruct (N.eqb_spec (of_be (firstn 4 d)) S_unregisterDelegate) as [Eq|_]; [rewrite Eq in H; discriminate H|].
      destruct (N.eqb_spec (of_be (firstn 4 d)) S_transferOwnership) as [Eq|_]; [rewrite Eq in H; discriminate H|]. discriminate El.
    - intros Ht. rewrite Ht in H, Eo. rewrite orb_true_r in H. cbn [andb] in Eo. destruct (listed d) eqn:El; cbn [ensure rbind] in H; [|discriminate H]. cbn [negb orb] in Eo. split.
      + unfold listed in El. apply existsb_exists in El. destruct El as (y & Hy & Ey). apply N.eqb_eq in Ey. rewrite Ey. exact Hy.
      + unfold holds in Eo. apply bool_decide_eq_true in Eo. exact Eo.
  Qed.

  (** * C156: the delegate's consent *)
  (** What the delegate signs: the hash of "\x19Ethereum Signed Message:\n64" and, in hexadecimal, of the hash of the
      futurepass, the delegate, the type Any and the deadline. *)
  Definition consent (f d deadline : N) : list N :=
    keccak ([25; 69; 116; 104; 101; 114; 101; 117; 109; 32; 83; 105; 103; 110; 101; 100; 32; 77; 101; 115; 115; 97; 103; 101; 58; 10; 54; 52] ++
            hex (keccak (be_bytes 20 f ++ be_bytes 20 d ++ [1] ++ be_bytes 4 deadline))).
  Lemma hex_length l : length (hex l) = (2 * length l)%nat.
  Proof. induction l as [|x r IH]; [reflexivity|]. cbn [hex flat_map app length]. change (flat_map _ r) with (hex r). rewrite IH. lia. Qed.
  Hypothesis keccak_len : forall l, length (keccak l) = 32%nat.
  Lemma consent_eq f d deadline : consent f d deadline = sign_hash keccak f d TAny deadline.
  Proof.
    unfold consent, sign_hash, eth_message, packed. cbn [ptype_n]. set (h := hex (keccak (be_bytes 20 f ++ be_bytes 20 d ++ [1] ++ be_bytes 4 deadline))).
    assert (L : nlen h = 64) by (unfold nlen, h; rewrite hex_length, keccak_len; reflexivity). rewrite L. reflexivity.
  Qed.
  (** A delegate is only registered while the deadline has not passed, by the owner or the futurepass itself, with all
      rights, and with the delegate's signature. *)
  Theorem C156_consent s fr f d n deadline sig inner ret s' o : is_fp f = true -> (level f (fr_stack fr) <= 1)%nat -> d < 2 ^ 160 -> n <= 255 -> deadline < 2 ^ 32 -> nlen sig <= 65 ->
    perform (Act KCall f 0 (build_call 0xfb243a5c [tA; tU8; tU32; TBytes 65] [VN d; VN n; VN deadline; VB sig]) inner ret) fr s = Ok (s', o) ->
    n = 1 /\ e_now s <= deadline /\ nlen sig = 65 /\ recover sig (consent f d deadline) = Some d /\
    (hold (f_fp (e_m s)) !! fr_self fr = Some f \/ fr_self fr = f) /\ forall t, ~ In (d, t) (defs (f_fp (e_m s)) f).
  Proof.
    intros Hf Hl Hd Hn Hdl Hsig H. set (data := build_call _ _ _) in H.
    assert (W2 : fits (WUint 255) n) by (split; [exact Hn|apply N.le_lt_trans with (1 := Hn); reflexivity]).
    assert (W3 : fits (WUint U32MAX) deadline) by (split; [unfold U32MAX; lia|apply N.lt_trans with (1 := Hdl); reflexivity]).
    destruct (four_call WAddr (WUint 255) (WUint U32MAX) 65 d n deadline sig 0xfb243a5c Hd W2 W3 Hsig ltac:(lia) eq_refl) as [E1 E2].
    change (build_call 0xfb243a5c [TW WAddr; TW (WUint 255); TW (WUint U32MAX); TBytes 65] [VN d; VN n; VN deadline; VB sig]) with data in E1, E2.
    rewrite (call_fut f data inner ret fr s Hf Hl), (fut_leaf_of _ _ _ _ _ _ _ _ _ _ E1 eq_refl) in H. unfold FpassEvmModel.fut_leaf in H. rewrite E1 in H.
    match type of H with _ = ?r => change (f_register maxp ed base factor keccak recover (called s (fr_self fr) f 0 data) (fr_self fr) f data = r) in H end.
    unfold f_register in H. change [tA; tU8; tU32; TBytes 65] with [TW WAddr; TW (WUint 255); TW (WUint U32MAX); TBytes 65] in H. rewrite E2 in H. cbn [rbind] in H.
    destruct (ptype_of n) as [t|] eqn:Ept; cbn [of_opt rbind] in H; [|discriminate H]. destruct (N.eqb_spec (nlen sig) 65) as [Es|]; cbn [ensure rbind] in H; [|discriminate H].
    destruct (m_register _ _ _ _ _ _ _ _ _ _) as [m|] eqn:Em; cbn [rbind] in H; [|discriminate H]. clear H. unfold m_register in Em. cbn [called e_m e_now] in Em.
    destruct ((fr_self fr =? f) || _) eqn:Eo; cbn [ensure rbind] in Em; [|discriminate Em]. destruct ((fr_self fr =? f) || exists_def _ _ _); cbn [ensure rbind] in Em; [|discriminate Em].
    destruct (bool_decide (t = TAny)) eqn:Et; cbn [ensure rbind] in Em; [|discriminate Em]. apply bool_decide_eq_true in Et. subst t.
    destruct (exists_def (f_fp (e_m s)) f d) eqn:Ex; cbn [negb ensure rbind] in Em; [discriminate Em|]. destruct (signed _ _ _ _ _ _) eqn:Eg; cbn [ensure rbind] in Em; [|discriminate Em]. clear Em.
    unfold FpassEvmModel.signed in Eg. apply andb_prop in Eg. destruct Eg as [G1 G2]. apply N.leb_le in G1. apply bool_decide_eq_true in G2. rewrite consent_eq.
    split. { unfold ptype_of in Ept. destruct (n =? 0); [discriminate Ept|]. destruct (N.eqb_spec n 1) as [|_]; [assumption|]. repeat (destruct (n =? _); [discriminate Ept|]). discriminate Ept. }
    split; [exact G1|]. split; [exact Es|]. split; [exact G2|]. split.
    - apply orb_prop in Eo. destruct Eo as [Eo|Eo]; [right; apply N.eqb_eq, Eo|left; unfold holds in Eo; apply bool_decide_eq_true in Eo; exact Eo].
    - intros t Hi. unfold exists_def in Ex. destruct (find_def d None (defs (f_fp (e_m s)) f)) eqn:Ef; [discriminate Ex|]. exact (FpassProofs.find_none _ _ Ef t Hi).
  Qed.
  (** A signature for one registration is none for another one, up to collisions of the hash. *)
  Theorem C156_binding f d t f' d' t' : (forall l, Forall (fun b => b < 256) (keccak l)) -> f < 2 ^ 160 -> d < 2 ^ 160 -> t < 2 ^ 32 -> f' < 2 ^ 160 -> d' < 2 ^ 160 -> t' < 2 ^ 32 ->
    consent f d t = consent f' d' t' -> (f = f' /\ d = d' /\ t = t') \/ exists x y, x <> y /\ keccak x = keccak y.
  Proof.
    intros HB F1 F2 F3 F4 F5 F6 H. unfold consent in H.
    match type of H with keccak ?x = keccak ?y => destruct (decide (x = y)) as [E|E]; [|right; exists x, y; auto] end. apply app_inv_head in E.
    set (p := be_bytes 20 f ++ be_bytes 20 d ++ [1] ++ be_bytes 4 t) in *. set (p' := be_bytes 20 f' ++ be_bytes 20 d' ++ [1] ++ be_bytes 4 t') in *.
    assert (Ek : keccak p = keccak p').
    { revert E. generalize (HB p) (HB p'). generalize (keccak p) (keccak p'). clear. induction l as [|x r IH]; intros [|y r'] H1 H2 E; try discriminate E; [reflexivity|].
      inversion H1; subst. inversion H2; subst. cbn [hex flat_map app] in E. injection E as E1 E2 E3. f_equal; [|apply IH; assumption].
      assert (D : forall a b, a < 16 -> b < 16 -> hexdigit a = hexdigit b -> a = b) by (clear; intros a b Ha Hb; unfold hexdigit; destruct (N.ltb_spec a 10), (N.ltb_spec b 10); lia).
      apply D in E1; [|apply N.div_lt_upper_bound; lia|apply N.div_lt_upper_bound; lia]. apply D in E2; [|apply N.mod_lt; discriminate|apply N.mod_lt; discriminate].
      rewrite (N.div_mod x 16), (N.div_mod y 16) by discriminate. congruence. }
    destruct (decide (p = p')) as [Ep|Ep]; [|right; exists p, p'; auto]. left. subst p p'.
    assert (L : forall k a b, length (be_bytes k a) = length (be_bytes k b)) by (intros; rewrite !be_bytes_length; reflexivity).
    apply app_inj_1 in Ep; [|apply L]. destruct Ep as [P1 P2]. apply app_inj_1 in P2; [|apply L]. destruct P2 as [P2 P3]. apply app_inv_head in P3.
    assert (I : forall k a b, a < 256 ^ N.of_nat k -> b < 256 ^ N.of_nat k -> be_bytes k a = be_bytes k b -> a = b).
    { intros k a b Ha Hb Hab. apply (f_equal of_be) in Hab. rewrite !of_be_bytes, !N.mod_small in Hab by assumption. exact Hab. }
    split; [apply (I 20%nat); assumption|]. split; [apply (I 20%nat); assumption|apply (I 4%nat); assumption].
  Qed.
  (** The message that the documentation gives (/repo/pallet/futurepass/src/lib.rs:246-252), with "\n32" and the hash
      itself, is never the one that is checked. *)
  Definition documented (f d deadline : N) : list N :=
    [25; 69; 116; 104; 101; 114; 101; 117; 109; 32; 83; 105; 103; 110; 101; 100; 32; 77; 101; 115; 115; 97; 103; 101; 58; 10; 51; 50] ++
    keccak (be_bytes 20 f ++ be_bytes 20 d ++ [1] ++ be_bytes 4 deadline).
  Theorem C156_documented_refuted f d deadline : exists m, sign_hash keccak f d TAny deadline = keccak m /\ m <> documented f d deadline.
  Proof.
    eexists. split; [reflexivity|]. intros H. apply (f_equal (@length N)) in H. unfold eth_message, documented in H. rewrite !app_length, hex_length, !keccak_len in H.
    change (length eth_prefix) with 26%nat in H. cbn [length] in H. lia.
  Qed.

  (** * C157: the precompile set *)
  (** Precompiles other than futurepasses and the stateless ones do not run in the name of somebody else. *)
  Theorem C157_delegate k fr s target value data inner ret p : In k [KDelegate; KCallCode] -> In (classify target) [PState; PReg] -> fr_self fr <> target ->
    perform (Act k target value data inner ret) fr s <> Ok p.
  Proof.
    intros Hk Hc Hn H. rewrite perform_eq in H. apply N.eqb_neq in Hn. destruct Hk as [<-|[<-|[]]].
    - unfold go, enter in H. destruct Hc as [Hc|[Hc|[]]]; rewrite <- Hc, Hn in H; discriminate H.
    - destruct (xmove _ _ _ _) as [s1|]; cbn [rbind] in H; [|discriminate H]. unfold go, enter in H. destruct Hc as [Hc|[Hc|[]]]; rewrite <- Hc, Hn in H; discriminate H.
  Qed.
  (** While a token's precompile has called a receiver, nothing calls that precompile again, unless a futurepass is
      involved. *)
  Theorem C157_reentry_partial fr s t value data inner ret s' o : classify t = PState -> nofuts inner -> perform (Act KCall t value data inner ret) fr s = Ok (s', o) ->
    exists cs, e_calls s' = e_calls s ++ Ecall (fr_self fr) t value data :: cs /\ Forall (fun c => c_to c <> t) cs.
  Proof.
    intros Ht Hi H. rewrite perform_eq in H. destruct (negb (fr_static fr) || _); cbn [ensure rbind] in H; [|discriminate H].
    destruct (xmove s (fr_self fr) t value) as [s1|] eqn:Ex; cbn [rbind] in H; [|discriminate H]. destruct (xmove_ok _ _ _ _ _ Ex) as (_ & X2 & _). unfold go, enter in H. rewrite Ht, N.eqb_refl in H. cbn [ensure rbind] in H.
    destruct (Nat.leb _ 0); cbn [ensure rbind] in H; [|discriminate H]. destruct (acts true _ inner _) as [s2|] eqn:Ea; cbn [rbind] in H; [|discriminate H]. destruct ret; cbn [of_opt rbind] in H; [|discriminate H]. injection H as <- _.
    set (R := fun s s' : es => exists cs, e_calls s' = e_calls s ++ cs /\ Forall (fun c => c_to c <> t) cs).
    assert (X : R (called s1 (fr_self fr) t value data) s2).
    { revert Ea. apply (nofut_acts maxp ed base factor keccak recover code made R (fun _ st => level t st <> 0%nat)); [| |auto| | | | |exact Hi|].
      - intros x. exists []. rewrite app_nil_r. auto.
      - intros x1 x2 x3 (l1 & A1 & B1) (l2 & A2 & B2). exists (l1 ++ l2). rewrite A2, A1, app_assoc. split; [reflexivity|]. apply Forall_app. auto.
      - intros b st a Hl. unfold level in *. cbn [List.filter]. destruct (t =? a); cbn [length]; lia.
      - intros b st x a c v x' _ _ Hx. destruct (xmove_ok _ _ _ _ _ Hx) as (_ & E & _). exists []. rewrite E, app_nil_r. auto.
      - intros b st x c t' v d Hl Hc. exists [Ecall c t' v d]. split; [reflexivity|]. constructor; [|constructor]. cbn [c_to]. intros ->. destruct Hc; [congruence|contradiction].
      - intros b st x c v d x' o' _ Hx. exists []. rewrite app_nil_r. split; [|constructor]. unfold r_run in Hx. destruct (read_selector d) as [sel|]; cbn [rbind] in Hx; [|discriminate Hx].
        destruct (sel =? S_futurepassOf).
        + destruct (v =? 0); cbn [ensure rbind] in Hx; [|discriminate Hx]. destruct (read_args [tA] d) as [[|[n| |] [|]]|]; cbn [rbind] in Hx; try discriminate Hx. injection Hx as <- _. reflexivity.
        + destruct (sel =? S_create); [|discriminate Hx]. destruct b; cbn [negb ensure rbind] in Hx; [discriminate Hx|]. destruct (v =? 0); cbn [ensure rbind] in Hx; [|discriminate Hx].
          destruct (read_args [tA] d) as [[|[n| |] [|]]|]; cbn [rbind] in Hx; try discriminate Hx. cbv zeta in Hx. destruct (m_create _ _ _ _ _ c n); cbn [rbind] in Hx; [|discriminate Hx]. injection Hx as <- _. reflexivity.
      - cbn [fr_stack]. unfold level. cbn [List.filter]. rewrite N.eqb_refl. discriminate. }
    destruct X as (cs & X1 & X3). exists cs. rewrite X1. cbn [called e_calls]. rewrite X2, <- app_assoc. split; [reflexivity|exact X3].
  Qed.
  (** A futurepass already called twice by calls under way cannot be called again. *)
  Theorem C157_depth k fr s f value data inner ret p : is_fp f = true -> (2 <= level f (fr_stack fr))%nat -> perform (Act k f value data inner ret) fr s <> Ok p.
  Proof.
    intros Hf Hl H. apply classify_fp in Hf. assert (G : forall s1 bn a c v st, go maxp ed base factor keccak recover code made f data inner ret fr s1 bn a c v st = Err 42).
    { intros. unfold go, enter. rewrite Hf. destruct (Nat.leb_spec (level f (fr_stack fr)) 1); [lia|reflexivity]. }
    rewrite perform_eq in H. destruct k; rewrite ?G in H; try discriminate H.
    - destruct (negb _ || _); cbn [ensure rbind] in H; [|discriminate H]. destruct (xmove _ _ _ _); cbn [rbind] in H; rewrite ?G in H; discriminate H.
    - destruct (xmove _ _ _ _); cbn [rbind] in H; rewrite ?G in H; discriminate H.
  Qed.
End props.

(** ** Cases and counterexamples *)
(** A contract at 50; the contracts created through futurepasses are at 60. *)
Definition wcode (a : N) : bool := a =? 50.
Definition wmade (_ : es) (_ : N) (_ : list N) : N := 60.
Lemma wmade_none s f d : classify (wmade s f d) = PNone. Proof. reflexivity. Qed.
Lemma w_small : 148 + 126 * (32 + 1) + 1 <= U128MAX. Proof. vm_compute. discriminate. Qed.
Definition w_money : gmap N N := <[1001 := 1000000]> (<[1000 := 1000000]> ∅).
Definition w_drops : gmap N N := <[1000 := 5000000]> ∅.
Definition wf : N := 0xFFFFFFFF00000000000000000000000000000001.
(** 1000 has a futurepass with a million drops. *)
Definition w_ops : list eop := [EExt 1000 (MCreate 1000); ECall 1000 wf 1000000000000000000 [] [] None].
(** The owner and the futurepass. *)
Definition wA (a : N) : bool := (a =? 1000) || (a =? wf).
Section cases.
  Variable keccak : list N -> list N.
  Variable recover : list N -> list N -> option N.
  Notation step := (estep 32 1 148 126 keccak recover wcode wmade).
  Notation perform := (perform 32 1 148 126 keccak recover wcode wmade).
  Notation w_state := (fun ops => run step ops (einit w_money ∅ w_drops)).
  Notation w_past := (fun ops => along step efine ops (einit w_money ∅ w_drops)).
  Lemma w_past_ok : w_past w_ops.
  Proof. split; [split; reflexivity|]. split; [split; [reflexivity|vm_compute; discriminate]|exact I]. Qed.
  Lemma w_defs f : defs (f_fp (e_m (w_state w_ops))) f = if f =? wf then [(1000, TOwner)] else [].
  Proof.
    set (p := f_fp _). assert (E : prox p = {[ wf := [(1000, TOwner)] ]}) by (vm_compute; reflexivity). unfold defs. rewrite E. destruct (N.eqb_spec f wf) as [->|Hn]; [rewrite lookup_singleton; reflexivity|].
    rewrite lookup_singleton_ne by congruence. reflexivity.
  Qed.
  Lemma w_party : party wcode wmade wA (w_state w_ops).
  Proof.
    split.
    - intros f d t _. rewrite w_defs. destruct (f =? wf); [|intros []]. intros [H|[]]. injection H as <- <-. reflexivity.
    - split; [|split].
      + intros f Hf Hp. unfold wA in Hf. apply orb_prop in Hf. destruct Hf as [Hf|Hf]; apply N.eqb_eq in Hf; subst f; [discriminate Hp|]. vm_compute. left. reflexivity.
      + intros t Ht. unfold wcode in Ht. apply N.eqb_eq in Ht. subst t. reflexivity.
      + reflexivity.
  Qed.
  (** The theorems of C152 at work: an outsider tries to take the futurepass through a contract; the owner calls a harmless one. *)
  Definition w_attack : eop := ECall 2000 50 0 [] [Act KDelegate wf 0 (build_call S_transferOwnership [tA] [VN 2000]) [] None] (Some []).
  Example C152_outsiders_case : along step (others wA) [w_attack] (w_state w_ops).
  Proof. split; [|exact I]. split; [|reflexivity]. split; [reflexivity|vm_compute; discriminate]. Qed.
  Definition w_visit : eop := ECall 1000 50 1000000000000 [7] [Act KCall wf 0 (build_call S_transferOwnership [tA] [VN 2000]) [] None; Act KCall 3000 1000000000000 [] [] None] (Some []).
  Example C152_participants_case : let s := w_state w_ops in let s' := step s w_visit in
    efine s w_visit /\ xrp s' 1000 + 1 = xrp s 1000 /\ xrp s' 3000 = 1 /\ hold (f_fp (e_m s')) !! 1000 = Some wf /\ e_calls s' = e_calls s ++ [Ecall 1000 50 1000000000000 [7]; Ecall 50 3000 1000000000000 []].
  Proof. split; [split; [reflexivity|vm_compute; discriminate]|]. vm_compute. repeat split. Qed.
  (** An owner who calls any contract may lose the futurepass, or what it has: a DELEGATECALL to the futurepass shows it
      the owner as the caller. *)
  Definition w_bait (d : list N) : eop := ECall 1000 50 0 [] [Act KDelegate wf 0 d [] None] (Some []).
  Theorem C152_delegatecall_refuted : exists ops o o' thief, w_past ops /\ let s := w_state ops in
    party wcode wmade wA s /\ efine s o /\ efine s o' /\ wA thief = false /\ hold (f_fp (e_m s)) !! 1000 = Some wf /\
    hold (f_fp (e_m (step s o))) !! thief = Some wf /\ hold (f_fp (e_m (step s o))) !! 1000 = None /\
    xrp s wf = 1000000 /\ xrp (step s o') wf = 0 /\ xrp (step s o') thief = 1000000.
  Proof.
    exists w_ops, (w_bait (build_call S_transferOwnership [tA] [VN 2000])), (w_bait (proxy_data 1 2000 1000000000000000000 [])), 2000.
    split; [exact w_past_ok|]. split; [exact w_party|]. split; [split; [reflexivity|vm_compute; discriminate]|]. split; [split; [reflexivity|vm_compute; discriminate]|]. vm_compute. repeat split.
  Qed.

  (** A read-only call to a futurepass gives it away or spends its XRP; a read-only sub-call moves value. *)
  Theorem C153_static_refuted : exists ops, w_past ops /\ let s := w_state ops in
    (exists fr data s' o, perform (Act KStatic wf 0 data [] None) fr s = Ok (s', o) /\ fr_self fr = 1000 /\ hold (f_fp (e_m s)) !! 1000 = Some wf /\ hold (f_fp (e_m s')) !! 2000 = Some wf /\ e_logs s' <> e_logs s) /\
    (exists fr data s' o, perform (Act KStatic wf 0 data [] None) fr s = Ok (s', o) /\ xrp s' 2000 = xrp s 2000 + 1) /\
    (exists s' o, perform (Act KCall wf 0 (proxy_data 0 2000 1000000000000 []) [] None) (Frame 1000 1000 0 false []) s = Ok (s', o) /\ xrp s' 2000 = xrp s 2000 + 1).
  Proof.
    exists w_ops. split; [exact w_past_ok|]. split; [|split].
    - exists (Frame 1000 1000 0 true []), (build_call S_transferOwnership [tA] [VN 2000]). eexists _, _. split; [vm_compute; reflexivity|]. split; [reflexivity|]. split; [vm_compute; reflexivity|]. split; [vm_compute; reflexivity|]. vm_compute. discriminate.
    - exists (Frame 1000 1000 0 true []), (proxy_data 1 2000 1000000000000 []). eexists _, _. split; [vm_compute; reflexivity|]. vm_compute. reflexivity.
    - eexists _, _. split; [vm_compute; reflexivity|]. vm_compute. reflexivity.
  Qed.
  Example C153_case : exists s' o, perform (Act KStatic 50 0 [1] [Act KCall registrar 0 (build_call S_create [tA] [VN 3000]) [] None; Act KStatic registrar 0 (build_call S_futurepassOf [tA] [VN 1000]) [] None; Act KCall 3000 1 [] [] None] (Some [9]))
    (Frame 1000 1000 0 false []) (w_state w_ops) = Ok (s', o) /\ length (e_calls s') = S (S (length (e_calls (w_state w_ops)))).
  Proof. eexists _, _. split; [vm_compute; reflexivity|]. vm_compute. reflexivity. Qed.

  (** transferOwnership at somebody else's futurepass gives away the caller's own, and says at the other address that the
      ownership changed. *)
  Theorem C154_address_refuted : exists ops f g s' o, w_past ops /\ let s := w_state ops in
    hold (f_fp (e_m s)) !! 1000 = Some f /\ hold (f_fp (e_m s)) !! 1001 = Some g /\ f <> g /\
    perform (Act KCall f 0 (build_call S_transferOwnership [tA] [VN 2000]) [] None) (Frame 1001 1001 0 false []) s = Ok (s', o) /\
    hold (f_fp (e_m s')) !! 1000 = Some f /\ hold (f_fp (e_m s')) !! 2000 = Some g /\ e_logs s' = e_logs s ++ [Elog f [L_ownership; 1001; 2000] []].
  Proof.
    exists (w_ops ++ [EExt 1001 (MCreate 1001)]), wf, (wf + 1). eexists _, _. split.
    { split; [split; reflexivity|]. split; [split; [reflexivity|vm_compute; discriminate]|]. split; [split; [reflexivity|vm_compute; reflexivity]|exact I]. }
    split; [vm_compute; reflexivity|]. split; [vm_compute; reflexivity|]. split; [discriminate|]. split; [vm_compute; reflexivity|]. split; [vm_compute; reflexivity|]. split; vm_compute; reflexivity.
  Qed.
  (** delegateType of an owner that was a delegate before. *)
  Theorem C154_delegateType_refuted : exists ops, w_past ops /\ let s := w_state ops in hold (f_fp (e_m s)) !! 2000 = Some wf /\
    exists s', perform (Act KStatic wf 0 (build_call S_delegateType [tA] [VN 2000]) [] None) (Frame 1000 1000 0 false []) s = Ok (s', enc_all [tU8] [VN 1]).
  Proof.
    exists (w_ops ++ [EExt 1000 (MRegister wf 2000 TAny true); EExt 1000 (MTransfer 1000 (Some 2000))]). split.
    { split; [split; reflexivity|]. split; [split; [reflexivity|vm_compute; discriminate]|]. split; [split; [reflexivity|vm_compute; reflexivity]|]. split; [split; [reflexivity|vm_compute; reflexivity]|exact I]. }
    split; [vm_compute; reflexivity|]. eexists. vm_compute. reflexivity.
  Qed.
  (** The hypotheses of C154 and C155. *)
  Example C155_pay_case : exists s' o, perform (Act KCall wf 0 (proxy_data 1 2000 1500000000000 [1; 2; 3; 4; 5]) [] None) (Frame 1000 1000 0 false []) (w_state w_ops) = Ok (s', o) /\ xrp s' wf = 999998 /\ xrp s' 2000 = 2.
  Proof. eexists _, _. split; [vm_compute; reflexivity|]. split; vm_compute; reflexivity. Qed.
  Example C155_contract_case : exists s' o, perform (Act KCall wf 0 (proxy_data 1 50 1000000000000 [9]) [Act KCall 2000 1000000000000 [] [] None] (Some [5])) (Frame 1000 1000 0 false []) (w_state w_ops) = Ok (s', o) /\
    o = [5] /\ e_calls s' = e_calls (w_state w_ops) ++ [Ecall 1000 wf 0 (proxy_data 1 50 1000000000000 [9]); Ecall wf 50 1000000000000 [9]; Ecall 50 2000 1000000000000 []].
  Proof. eexists _, _. split; [vm_compute; reflexivity|]. split; vm_compute; reflexivity. Qed.
  (** A futurepass 1000 uses to register a delegate of itself by a call to itself. *)
  Example C155_listed_case : exists s' o, perform (Act KCall wf 0 (proxy_data 1 wf 0 (build_call S_unregisterDelegate [tA] [VN 2000])) [] None) (Frame 1000 1000 0 false [])
    (w_state (w_ops ++ [EExt 1000 (MRegister wf 2000 TAny true)])) = Ok (s', o) /\ defs (f_fp (e_m s')) wf = [(1000, TOwner)].
  Proof. eexists _, _. split; [vm_compute; reflexivity|]. vm_compute. reflexivity. Qed.

  (** A contract created through a futurepass calls the token's precompile again while it calls a receiver. *)
  Theorem C157_reentry_refuted : exists ops t s' o, w_past ops /\ let s := w_state ops in classify t = PState /\
    perform (Act KCall t 0 [1] [Act KCall 50 0 [2] [Act KCall wf 0 (proxy_data 3 0 0 [3]) [Act KCall t 0 [4] [] (Some [])] (Some [])] (Some [])] (Some [])) (Frame 1000 1000 0 false []) s = Ok (s', o) /\
    exists cs, e_calls s' = e_calls s ++ Ecall 1000 t 0 [1] :: cs /\ In (Ecall 60 t 0 [4]) cs.
  Proof.
    exists [EExt 1000 (MCreate 50)], (0xAAAAAAAA * 2 ^ 128). eexists _, _. split; [split; [split; reflexivity|exact I]|]. split; [vm_compute; reflexivity|]. split; [vm_compute; reflexivity|].
    eexists. split; [vm_compute; reflexivity|]. do 3 right. left. reflexivity.
  Qed.
  Example C157_reentry_case : exists s' o, perform (Act KCall (0xAAAAAAAA * 2 ^ 128) 0 [1] [Act KCall 50 0 [2] [Act KCall (0xAAAAAAAA * 2 ^ 128) 0 [4] [] (Some [])] (Some [])] (Some [])) (Frame 1000 1000 0 false []) (w_state w_ops) = Ok (s', o) /\
    e_calls s' = e_calls (w_state w_ops) ++ [Ecall 1000 (0xAAAAAAAA * 2 ^ 128) 0 [1]; Ecall 1000 50 0 [2]].
  Proof. eexists _, _. split; [vm_compute; reflexivity|]. vm_compute. reflexivity. Qed.
End cases.

(** A signature still works after the delegate left. *)
Definition w_sig : list N := repeat 7 65.
Definition w_recover (sig _ : list N) : option N := if bool_decide (sig = w_sig) then Some 2000 else None.
Definition w_keccak (l : list N) : list N := firstn 32 (l ++ repeat 0 32).
Definition w_register : eop := ECall 1000 wf 0 (build_call S_registerDelegate [tA; tU8; tU32; TBytes 65] [VN 2000; VN 1; VN 100; VB w_sig]) [] None.
Definition w_leave : eop := ECall 2000 wf 0 (build_call S_unregisterDelegate [tA] [VN 2000]) [] None.
Theorem C156_replay_refuted : exists ops, let step := estep 32 1 148 126 w_keccak w_recover wcode wmade in let s := run step ops (einit w_money ∅ w_drops) in
  along step efine ops (einit w_money ∅ w_drops) /\
  let s1 := step s w_register in let s2 := step s1 w_leave in let s3 := step s2 w_register in
  defs (f_fp (e_m s)) wf = [(1000, TOwner)] /\ In (2000, TAny) (defs (f_fp (e_m s1)) wf) /\ defs (f_fp (e_m s2)) wf = [(1000, TOwner)] /\ In (2000, TAny) (defs (f_fp (e_m s3)) wf).
Proof.
  exists w_ops. cbv zeta. split; [apply w_past_ok|]. split; [vm_compute; reflexivity|]. split; [vm_compute; auto|]. split; [vm_compute; reflexivity|vm_compute; auto].
Qed.
Definition all_assumptions := (C152_outsiders, C152_participants, C152_delegatecall_refuted, C153_static_partial, C153_static_refuted, C154_transferOwnership, C154_renounceOwnership,
  C154_unregister, C154_create, C154_register, C154_owner, C154_delegateType_partial, C154_futurepassOf, C154_address_refuted, C154_delegateType_refuted, C155_delegates, C155_pay,
  C155_contract, C155_listed, C156_consent, C156_binding, C156_documented_refuted, C156_replay_refuted, C157_delegate, C157_reentry_partial, C157_depth, C157_reentry_refuted).
Print Assumptions all_assumptions.
