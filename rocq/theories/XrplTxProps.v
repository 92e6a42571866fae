(** Properties of XRPL-signed transactions: C110 to C114. *)
From Verif Require Import XrplTxProofs.

Section props.
  Variable maxp : N.
  Variable dec : list N -> option xtx.
  Variable utf8 : list N -> bool.
  Variable radr : list N -> option (list N).
  Variable acct : xkey -> option N.
  Variable verify : xkey -> payload -> list N -> bool.
  Variable hash : xcall -> list N.
  Variable paused : xcall -> bool.
  Variable genesis : list N.
  Notation exec := (exec maxp).
  Notation xstep := (xstep maxp dec utf8 radr acct verify hash paused genesis).
  Notation included := (included maxp dec utf8 radr acct verify hash paused genesis).
  Notation xpast ops := (along xstep xfine ops xinit).
  Notation xrun ops := (run xstep ops xinit).
  (** No key belongs to an address with the futurepass prefix (as in C42). *)
  Definition no_fp_key : Prop := forall k a, acct k = Some a -> is_fp a = false.

  Lemma past_FI ops : no_fp_key -> xpast ops -> FI (x_fp (xrun ops)).
  Proof.
    intros Hk Hp. apply (run_along xstep xfine (fun s => FI (x_fp s))); [|exact Hp|exact finit_FI].
    intros s o Hf HI. apply xstep_FI; assumption.
  Qed.
  Lemma step_included s pay msg sig c fee : xstep s (OTx pay msg sig c fee) = s \/
    exists x k a payer p d s2, included s pay msg sig c fee (xstep s (OTx pay msg sig c fee)) x k a payer p d s2.
  Proof.
    cbn [XrplTxModel.xstep]. destruct (apply_tx _ _ _ _ _ _ _ _ _ _ _ _ _ _ _) as [s'|] eqn:Ea; cbn [commit]; [|left; reflexivity].
    right. exact (apply_included _ _ _ _ _ _ _ _ _ _ _ _ _ _ _ _ Ea).
  Qed.
  Lemma step_log s o : x_log (xstep s o) = x_log s \/
    exists pay msg sig c fee x k a payer p d s2 s3, o = OTx pay msg sig c fee /\
      included s pay msg sig c fee (xstep s o) x k a payer p d s2 /\ exec pay s2 a c = Ok s3 /\ paused c = false /\
      xstep s o = XState (x_fp s3) (x_nonce s3) (x_xrp s3) (x_refs s3) (x_now s3) (x_killed s3) (x_fees s3)
                    (x_log s ++ [XEvent k a (x_account x) c (g_nonce d)]).
  Proof.
    destruct o as [pay msg sig c fee|f|a n|a n|a n|a|]; try (left; reflexivity).
    - destruct (step_included s pay msg sig c fee) as [E|(x & k & a & payer & p & d & s2 & Hin)]; [left; rewrite E; reflexivity|].
      pose proof Hin as [N1 N2 N3 N4 N5 N6 N7 N8 N9 N10 N11 N12 (_ & _ & _ & El & _) N14 N15 N16]. destruct N16 as [[E _]|(Hp & s3 & Hex & E)]; [left; rewrite E; exact El|].
      right. exists pay, msg, sig, c, fee, x, k, a, payer, p, d, s2, s3. split; [reflexivity|]. split; [exact Hin|].
      split; [exact Hex|]. split; [exact Hp|]. rewrite E at 1. destruct (exec_spec _ _ _ _ _ _ Hex) as (El3 & _). rewrite El3, El. reflexivity.
    - left. cbn [XrplTxModel.xstep]. destruct (debit s a n) as [s'|] eqn:Ed; cbn [commit]; [|reflexivity].
      destruct (debit_spec _ _ _ _ Ed) as (_ & (_ & _ & _ & _ & E) & _). exact E.
    - left. cbn [XrplTxModel.xstep]. destruct (n <? _); [|reflexivity]. unfold reap. destruct (_ && _); reflexivity.
  Qed.

  (** ** C110.  Whatever is executed, and reported, was signed: the key verifies the message, whose first memo of type
      "extrinsic" names this chain, this call (by its hash), the nonce and a last block that has not passed.  The call
      was executed exactly as the account of that key, on the state the fee and the nonce left. *)
  Theorem C110_signed ops o e :
    In e (x_log (xrun (ops ++ [o]))) -> ~ In e (x_log (xrun ops)) ->
    let s := xrun ops in let s' := xrun (ops ++ [o]) in
    exists pay msg sig fee x p mx tip s2 s3, o = OTx pay msg sig (e_call e) fee /\
      dec msg = Some x /\ get_public_key x = Ok (e_key e) /\ acct (e_key e) = Some (e_caller e) /\
      signing radr x = Some p /\ verify (e_key e) p sig = true /\
      announces (p_memos p) genesis (e_nonce e) mx tip (hash (e_call e)) /\ x_now s <= mx /\
      paused (e_call e) = false /\ e_call e <> XTransact /\
      (x_fp s2 = x_fp s /\ x_refs s2 = x_refs s) /\ exec pay s2 (e_caller e) (e_call e) = Ok s3 /\
      x_fp s' = x_fp s3 /\ x_xrp s' = x_xrp s3 /\ x_log s' = x_log s ++ [e].
  Proof.
    intros He Hne s s'. rewrite run_app in He. unfold s'. rewrite run_app. cbn [run fold_left] in *. fold s in He, Hne |- *.
    destruct (step_log s o) as [E|(pay & msg & sig & c & fee & x & k & a & payer & p & d & s2 & s3 & -> & Hin & Hex & Hp & E)];
      [rewrite E in He; contradiction|].
    pose proof He as He'. rewrite E in He'. cbn in He'. apply in_app_iff in He'. destruct He' as [He'|[<-|[]]]; [contradiction|]. cbn [e_key e_caller e_call e_nonce].
    destruct Hin as [N1 N2 N3 N4 N5 N6 N7 N8 N9 N10 N11 N12 N13 N14 N15 N16].
    exists pay, msg, sig, fee, x, p, (g_max d), (g_tip d), s2, s3.
    assert (Hb : exists bs, blobs (x_memos x) = Some bs /\ p_memos p = bs).
    { unfold signing in N10. destruct (blobs (x_memos x)) as [bs|]; [|discriminate]. exists bs. split; [reflexivity|].
      destruct (hash32 _); [|discriminate]. destruct (hex_decode _); [|discriminate]. destruct (radr _); [|discriminate]. injection N10 as <-. reflexivity. }
    destruct Hb as (bs & Hb & ->). pose proof (extrinsic_announces utf8 _ _ _ N6 Hb) as Han. rewrite N7, N8 in Han.
    split; [reflexivity|]. split; [exact N1|]. split; [exact N2|]. split; [exact N3|]. split; [exact N10|]. split; [exact N11|].
    split; [exact Han|]. split; [exact N9|]. split; [exact Hp|].
    split; [intros ->; cbn in Hex; discriminate|]. split; [destruct N13 as (A1 & A2 & _); auto|]. split; [exact Hex|]. rewrite E. auto.
  Qed.

  (** A transaction that reports nothing did nothing but charge the fee and use up the nonce. *)
  Theorem C110_failed s pay msg sig c fee : let s' := xstep s (OTx pay msg sig c fee) in
    x_log s' = x_log s ->
    s' = s \/ exists payer, x_fees s' = x_fees s ++ [(payer, fee)] /\ x_fp s' = x_fp s /\ x_refs s' = x_refs s /\
      (forall y, y <> payer -> getN (x_xrp s') y = getN (x_xrp s) y) /\ getN (x_xrp s') payer + fee = getN (x_xrp s) payer.
  Proof.
    intros s' Hl. destruct (step_included s pay msg sig c fee) as [E|(x & k & a & payer & p & d & s2 & [N1 N2 N3 N4 N5 N6 N7 N8 N9 N10 N11 N12 N13 N14 N15 N16])]; [left; exact E|].
    right. exists payer. destruct N13 as (A1 & A2 & A3 & A4 & A5). destruct N16 as [[E _]|(_ & s3 & Hex & E)].
    - unfold s'. rewrite E. split; [exact A5|]. split; [exact A1|]. split; [exact A2|]. split.
      + intros y Hy. rewrite N14. destruct (N.eqb_spec payer y); [congruence|reflexivity].
      + rewrite N14, N.eqb_refl. lia.
    - exfalso. unfold s' in Hl. rewrite E in Hl. cbn in Hl. destruct (exec_spec _ _ _ _ _ _ Hex) as (El & _). rewrite El, A4 in Hl.
      apply (f_equal (@length _)) in Hl. rewrite app_length in Hl. cbn in Hl. lia.
  Qed.

  (** ** C111.  The same signed message is executed at most once while the account is not removed from the chain.
      Full statement: without the condition about [KilledAccount]; refuted below. *)
  Lemma step_keeps a s o : exists ks, x_killed (xstep s o) = x_killed s ++ ks /\
    (~ In a ks -> getN (x_nonce s) a + 1 < 2 ^ 32 -> getN (x_nonce s) a <= getN (x_nonce (xstep s o)) a).
  Proof.
    assert (Hw : keeps a s (xstep s o) -> exists ks, x_killed (xstep s o) = x_killed s ++ ks /\
      (~ In a ks -> getN (x_nonce s) a + 1 < 2 ^ 32 -> getN (x_nonce s) a <= getN (x_nonce (xstep s o)) a)).
    { intros (ks & H1 & H2). exists ks. auto. }
    destruct o as [pay msg sig c fee|f|b n|b n|b n|b|]; try (apply Hw, keeps_refl; reflexivity).
    - destruct (step_included s pay msg sig c fee) as [E|(x & k & a' & payer & p & d & s2 & [N1 N2 N3 N4 N5 N6 N7 N8 N9 N10 N11 N12 N13 N14 N15 N16])];
        [rewrite E in Hw |- *; apply Hw, keeps_refl; reflexivity|].
      assert (H2 : exists ks, x_killed s2 = x_killed s ++ ks /\ (~ In a ks -> getN (x_nonce s) a + 1 < 2 ^ 32 -> getN (x_nonce s) a <= getN (x_nonce s2) a)).
      { cbv zeta in N15. destruct N15 as (n1 & Hn1 & Hg & Hn2). remember (if proxies c then owner_of (x_fp s) payer else payer) as e eqn:He.
        assert (Hle : getN n1 a + 1 < 2 ^ 32 -> getN n1 a <= getN (x_nonce s2) a).
        { intros Hlt. rewrite Hn2. destruct (N.eq_dec e a) as [->|Hne]; [|rewrite getN_insert_ne by exact Hne; lia].
          rewrite getN_insert, Hg, N.mod_small by exact Hlt. lia. }
        destruct Hn1 as [[-> Ek]|[-> Ek]].
        - exists []. rewrite app_nil_r. split; [exact Ek|]. intros _. exact Hle.
        - exists [payer]. split; [exact Ek|]. intros Hni. assert (payer <> a) by (intros ->; apply Hni; left; reflexivity).
          assert (Eg : getN (delete payer (x_nonce s)) a = getN (x_nonce s) a) by (unfold getN; rewrite lookup_delete_ne by assumption; reflexivity).
          rewrite Eg in Hle. exact Hle. }
      destruct H2 as (k2 & K1 & K2).
      destruct N16 as [[-> _]|(_ & s3 & Hex & ->)]; [exists k2; auto|].
      destruct (exec_spec _ _ _ _ _ _ Hex) as (_ & _ & _ & _ & _ & Hk). destruct (Hk a) as (k3 & K3 & K4). cbn.
      exists (k2 ++ k3). rewrite K3, K1, app_assoc. split; [reflexivity|]. intros Hni Hr. rewrite in_app_iff in Hni.
      specialize (K2 (fun X => Hni (or_introl X)) Hr). specialize (K4 (fun X => Hni (or_intror X))). lia.
    - apply Hw. cbn [XrplTxModel.xstep]. destruct (debit s b n) as [s'|] eqn:Ed; cbn [commit]; [exact (debit_keeps _ _ _ _ _ Ed)|apply keeps_refl; reflexivity].
    - apply Hw. cbn [XrplTxModel.xstep]. destruct (n <? _); [|apply keeps_refl; reflexivity]. unfold reap. destruct (_ && _); [apply keeps_delete with b; reflexivity|apply keeps_refl; reflexivity].
    - cbn [XrplTxModel.xstep]. exists []. rewrite app_nil_r. split; [reflexivity|]. intros _ Hr. cbn. destruct (N.eq_dec b a) as [->|Hne].
      + rewrite getN_insert, N.mod_small by exact Hr. lia.
      + rewrite getN_insert_ne by exact Hne. lia.
  Qed.
  Lemma step_event a s o e : FI (x_fp s) -> getN (x_nonce s) a + 1 < 2 ^ 32 -> x_log (xstep s o) = x_log s ++ [e] -> e_caller e = a ->
    exists ks, x_killed (xstep s o) = x_killed s ++ ks /\
      (~ In a ks -> e_nonce e = getN (x_nonce s) a /\ e_nonce e < getN (x_nonce (xstep s o)) a).
  Proof.
    intros HI Hr Hl Hc. destruct (step_log s o) as [E|(pay & msg & sig & c & fee & x & k & a' & payer & p & d & s2 & s3 & -> & Hin & Hex & Hp & E)].
    { rewrite E in Hl. apply (f_equal (@length _)) in Hl. rewrite app_length in Hl. cbn in Hl. lia. }
    rewrite E in Hl |- *. cbn [x_log x_killed x_nonce] in *. apply app_inv_head in Hl. injection Hl as <-. cbn in Hc. subst a'. cbn [e_nonce].
    destruct Hin as [N1 N2 N3 N4 N5 N6 N7 N8 N9 N10 N11 N12 N13 N14 N15 N16].
    assert (He : (if proxies c then owner_of (x_fp s) payer else payer) = a).
    { destruct (proxies c); [exact (owner_is_holder _ _ _ HI N4)|exact N4]. }
    cbv zeta in N15. rewrite He in N15. destruct N15 as (n1 & Hn1 & Hg & Hn2).
    destruct (exec_spec _ _ _ _ _ _ Hex) as (_ & _ & _ & _ & _ & Hk). destruct (Hk a) as (k3 & K1 & K2).
    rewrite Hn2, getN_insert in K2. destruct Hn1 as [[-> Ek]|[-> Ek]].
    - exists k3. rewrite K1, Ek. split; [reflexivity|]. intros Hni. specialize (K2 Hni). rewrite N.mod_small in K2 by (rewrite Hg; exact Hr). split; [exact Hg|lia].
    - exists (payer :: k3). rewrite K1, Ek, <- app_assoc. split; [reflexivity|]. intros Hni.
      assert (Hpa : payer <> a) by (intros ->; apply Hni; left; reflexivity). specialize (K2 (fun X => Hni (or_intror X))).
      assert (Eg : getN (delete payer (x_nonce s)) a = getN (x_nonce s) a) by (unfold getN; rewrite lookup_delete_ne by assumption; reflexivity).
      rewrite Eg in Hg. rewrite N.mod_small in K2 by (rewrite Hg; exact Hr). split; [exact Hg|lia].
  Qed.
  Lemma later_events a n ops : no_fp_key -> forall s, FI (x_fp s) ->
    along xstep (fun s o => xfine s o /\ getN (x_nonce s) a + 1 < 2 ^ 32) ops s ->
    exists ks new, x_killed (run xstep ops s) = x_killed s ++ ks /\ x_log (run xstep ops s) = x_log s ++ new /\
      (~ In a ks -> n < getN (x_nonce s) a -> forall e, In e new -> e_caller e = a -> n < e_nonce e).
  Proof.
    intros Hkey. induction ops as [|o ops IH]; intros s HI Hal.
    { exists [], []. cbn. rewrite !app_nil_r. split; [reflexivity|]. split; [reflexivity|]. intros _ _ e []. }
    destruct Hal as [[Hf Hr] Hal]. cbn [run fold_left]. change (fold_left xstep ops (xstep s o)) with (run xstep ops (xstep s o)).
    destruct (IH (xstep s o)) as (k2 & new2 & K2 & L2 & H2); [apply xstep_FI; assumption|exact Hal|].
    destruct (step_keeps a s o) as (k1 & K1 & H1). rewrite K2, K1, L2.
    assert (Hnew : exists new1, x_log (xstep s o) = x_log s ++ new1 /\ (new1 = [] \/ exists e, new1 = [e])).
    { destruct (step_log s o) as [E|(pay & msg & sig & c & fee & x & k & a' & payer & p & d & s2 & s3 & -> & _ & _ & _ & E)].
      - exists []. rewrite app_nil_r. auto.
      - eexists. rewrite E. cbn. split; [reflexivity|]. right. eexists. reflexivity. }
    destruct Hnew as (new1 & L1 & Hnew). exists (k1 ++ k2), (new1 ++ new2). rewrite L1, !app_assoc. split; [reflexivity|]. split; [reflexivity|].
    intros Hni Hn e He Hc. rewrite in_app_iff in Hni. specialize (H1 (fun X => Hni (or_introl X)) Hr).
    specialize (H2 (fun X => Hni (or_intror X)) ltac:(lia)). apply in_app_iff in He. destruct He as [He|He]; [|exact (H2 e He Hc)].
    destruct Hnew as [->|[e' ->]]; [destruct He|]. destruct He as [<-|[]].
    destruct (step_event a s o e' HI Hr L1 Hc) as (k1' & K1' & H3). rewrite K1 in K1'. apply app_inv_head in K1'. subst k1'.
    destruct (H3 (fun X => Hni (or_introl X))) as [-> _]. exact Hn.
  Qed.
  (** [o] executes [e], and everything of its caller that is executed later has a larger nonce, provided the caller's
      account is not removed from then on. *)
  Theorem C111_once_partial ops o more e : no_fp_key -> let a := e_caller e in
    along xstep (fun s o => xfine s o /\ getN (x_nonce s) a + 1 < 2 ^ 32) (ops ++ o :: more) xinit ->
    x_log (xrun (ops ++ [o])) = x_log (xrun ops) ++ [e] ->
    exists killed new, x_killed (xrun (ops ++ o :: more)) = x_killed (xrun ops) ++ killed /\
      x_log (xrun (ops ++ o :: more)) = x_log (xrun (ops ++ [o])) ++ new /\
      (~ In a killed -> forall e', In e' new -> e_caller e' = a -> e_nonce e < e_nonce e').
  Proof.
    intros Hkey a Hal Hl. apply along_app in Hal. destruct Hal as [Hal1 Hal2]. destruct Hal2 as [[Hf Hr] Hal3].
    assert (Hp : xpast ops) by (eapply along_impl; [|exact Hal1]; intros ? ? [H _]; exact H).
    pose proof (past_FI ops Hkey Hp) as HI. rewrite run_app in Hl |- *. cbn [run fold_left] in *.
    change (fold_left xstep more ?t) with (run xstep more t). rewrite run_app. cbn [run fold_left].
    set (s := xrun ops) in *.
    destruct (later_events a (e_nonce e) more Hkey (xstep s o)) as (k2 & new & K2 & L2 & H2); [apply xstep_FI; assumption|exact Hal3|].
    destruct (step_event a s o e HI Hr Hl eq_refl) as (k1 & K1 & H1). exists (k1 ++ k2), new. rewrite K2, K1, app_assoc.
    split; [reflexivity|]. split; [exact L2|]. intros Hni. rewrite in_app_iff in Hni.
    apply H2; [intros X; apply Hni; right; exact X|]. apply H1. intros X. apply Hni. left. exact X.
  Qed.

  (** ** C112.  The fee is paid by the signer, or by the futurepass that the signer owns when the call goes through a
      futurepass; nobody else's XRP falls, and theirs by no more than the fee and the payment they signed. *)
  Definition via_futurepass (c : xcall) : Prop := exists f c', c = XFp (CProxyExt f c') \/ c = XFee (XFp (CProxyExt f c')).
  Theorem C112_payer s pay msg sig c fee : let s' := xstep s (OTx pay msg sig c fee) in
    s' = s \/ exists x k a payer, dec msg = Some x /\ get_public_key x = Ok k /\ acct k = Some a /\
      x_fees s' = x_fees s ++ [(payer, fee)] /\
      (via_futurepass c -> hold (x_fp s) !! a = Some payer) /\ (~ via_futurepass c -> payer = a) /\
      forall y, getN (x_xrp s) y <= getN (x_xrp s') y + (if y =? payer then fee else 0) + (if y =? a then spends c else 0).
  Proof.
    intros s'. destruct (step_included s pay msg sig c fee) as [E|(x & k & a & payer & p & d & s2 & [N1 N2 N3 N4 N5 N6 N7 N8 N9 N10 N11 N12 N13 N14 N15 N16])]; [left; exact E|].
    right. exists x, k, a, payer. split; [exact N1|]. split; [exact N2|]. split; [exact N3|]. destruct N13 as (A1 & A2 & A3 & A4 & A5).
    assert (Hpr : proxies c = true <-> via_futurepass c).
    { split.
      - unfold via_futurepass. destruct c as [| []| [| []| | | ]| | ]; try discriminate; eauto.
      - intros (f & c' & [->| ->]); reflexivity. }
    assert (Hxy : forall y, getN (x_xrp s) y <= getN (x_xrp s2) y + if y =? payer then fee else 0).
    { intros y. rewrite N14, (N.eqb_sym y payer). destruct (N.eqb_spec payer y) as [->|]; lia. }
    split; [|split; [|split]].
    - unfold s'. destruct N16 as [[-> _]|(_ & s3 & Hex & ->)]; [exact A5|]. cbn. destruct (exec_spec _ _ _ _ _ _ Hex) as (_ & _ & E & _). rewrite E. exact A5.
    - intros Hv. apply Hpr in Hv. rewrite Hv in N4. exact N4.
    - intros Hv. destruct (proxies c); [exfalso; apply Hv, Hpr; reflexivity|exact N4].
    - intros y. specialize (Hxy y). unfold s'. destruct N16 as [[-> _]|(_ & s3 & Hex & ->)].
      + destruct (y =? payer), (y =? a); lia.
      + cbn. destruct (exec_spec _ _ _ _ _ _ Hex) as (_ & _ & _ & _ & Hx & _). specialize (Hx y). destruct (y =? payer), (y =? a); lia.
  Qed.

  (** ** C113.  The memo is understood as documented: whatever it announces is read, and nothing else. *)
  Theorem C113_read ms bs g n mx tip h : blobs ms = Some bs -> Forall (fun b => utf8 (fst b) = true /\ utf8 (snd b) = true) bs ->
    (get_extrinsic_data utf8 ms = Ok (MData g n mx tip h) <-> announces bs g n mx tip h).
  Proof.
    intros Hb Hu. split.
    - intros H. exact (extrinsic_announces utf8 ms _ bs H Hb).
    - exact (announces_extrinsic utf8 ms bs g n mx tip h Hb Hu).
  Qed.
  (** A memo announces one thing only. *)
  Theorem C113_unambiguous bs g n mx tip h g' n' mx' tip' h' :
    announces bs g n mx tip h -> announces bs g' n' mx' tip' h' -> (g, n, mx, tip, h) = (g', n', mx', tip', h').
  Proof. apply announces_one. Qed.

  (** ** C114.  No message with a signing key makes validation panic.  Full statement: no message at all; refuted below. *)
  Lemma get_public_key_total x : x_key x <> [] -> get_public_key x <> Err panic.
  Proof.
    intros Hne. unfold get_public_key. destruct (hex_decode (x_key x)) as [b|] eqn:E; cbn [of_opt rbind]; [|discriminate].
    destruct (x_key x) as [|c1 [|c2 r]]; [contradiction|discriminate|].
    destruct (bool_decide _); [destruct (Nat.eqb _ _); discriminate|]. destruct (_ || _); [destruct (Nat.eqb _ _); discriminate|discriminate].
  Qed.
  Lemma read_memo_total data : read_memo utf8 data <> Err panic.
  Proof.
    unfold read_memo. destruct (hex_decode data) as [t|]; cbn [of_opt rbind]; [|discriminate]. destruct (utf8 t); cbn [ensure rbind]; [|discriminate].
    destruct (split t) as [|f1 [|f2 [|f3 [|f4 [|f5 r]]]]]; try discriminate.
    destruct (hash32 f1); cbn [of_opt rbind]; [|discriminate]. destruct (parse_uint U32MAX f2); cbn [of_opt rbind]; [|discriminate].
    destruct (parse_uint U32MAX f3); cbn [of_opt rbind]; [|discriminate]. destruct (parse_uint U64MAX f4); cbn [of_opt rbind]; [|discriminate].
    destruct (hash32 f5); discriminate.
  Qed.
  Lemma extrinsic_total ms : get_extrinsic_data utf8 ms <> Err panic.
  Proof.
    induction ms as [|m ms IH]; cbn [get_extrinsic_data]; [discriminate|]. destruct (hex_decode (m_type m)) as [ty|]; cbn [of_opt rbind]; [|discriminate].
    destruct (utf8 ty); cbn [ensure rbind]; [|discriminate]. destruct (bool_decide _); [apply read_memo_total|exact IH].
  Qed.
  Theorem C114_no_panic_partial s pay msg sig c fee : (forall x, dec msg = Some x -> x_key x <> []) ->
    apply_tx maxp dec utf8 radr acct verify hash paused genesis pay s msg sig c fee <> Err panic.
  Proof.
    intros Hne. unfold apply_tx, check_self, get_account, validate_params, verify_tx. destruct (dec msg) as [x|]; cbn [of_opt rbind]; [|discriminate].
    pose proof (get_public_key_total x (Hne x eq_refl)) as Hk. destruct (get_public_key x) as [k|]; cbn [rbind]; [|congruence].
    destruct (acct k) as [a|]; cbn [of_opt rbind]; [|discriminate].
    destruct (if proxies c then of_opt (hold (x_fp s) !! a) 6 else Ok a) as [payer|] eqn:Ep; cbn [rbind].
    2:{ destruct (proxies c); [|discriminate]. destruct (hold (x_fp s) !! a); [discriminate|]. cbn in Ep. injection Ep as <-. discriminate. }
    pose proof (extrinsic_total (x_memos x)) as Hd. destruct (get_extrinsic_data utf8 (x_memos x)) as [d|]; cbn [rbind]; [|congruence].
    destruct (bool_decide (genesis = g_hash d)); cbn [ensure rbind]; [|discriminate]. destruct (bool_decide (hash c = g_call d)); cbn [ensure rbind]; [|discriminate].
    destruct (negb _); cbn [ensure rbind]; [|discriminate]. destruct (x_now s <=? g_max d); cbn [ensure rbind]; [|discriminate].
    destruct (signing radr x) as [p|]; cbn [of_opt rbind]; [|discriminate]. destruct (verify k p sig); cbn [ensure rbind fst]; [|discriminate].
    destruct (negb (payer =? 0)); cbn [ensure rbind]; [|discriminate].
    unfold debit. destruct (fee <=? _); cbn [ensure rbind]; [|discriminate]. destruct (fee =? 0); cbn [rbind];
      (destruct (negb (proxies c && _)); cbn [ensure rbind]; [|discriminate]; destruct (g_nonce d =? _); discriminate).
  Qed.

  (** ** C115.  The event names the account that acted, and its key.  Full statement: also the XRPL address of the
      signer; refuted below. *)
  Theorem C115_caller_partial ops e : In e (x_log (xrun ops)) -> acct (e_key e) = Some (e_caller e).
  Proof.
    induction ops as [|o ops IH] using rev_ind; [intros []|]. rewrite run_app. cbn [run fold_left]. intros He.
    destruct (step_log (xrun ops) o) as [E|(pay & msg & sig & c & fee & x & k & a & payer & p & d & s2 & s3 & -> & Hin & Hex & Hp & E)].
    - rewrite E in He. exact (IH He).
    - rewrite E in He. cbn in He. apply in_app_iff in He. destruct He as [He|[<-|[]]]; [exact (IH He)|]. destruct Hin as [N1 N2 N3]. exact N3.
  Qed.
End props.

(** ** A small concrete instance *)
Definition hexchar (v : N) : N := if v <? 10 then 48 + v else 87 + v.
Definition to_hex (l : list N) : list N := flat_map (fun b => [hexchar (b / 16); hexchar (b mod 16)]) l.
Definition ex_genesis : list N := repeat 171 32.
Definition ex_hash (c : xcall) : list N :=
  match c with XPay d n => d :: n mod 256 :: n / 256 :: repeat 1 29 | XFp _ => repeat 2 32 | XFee _ => repeat 3 32 | XTransact => repeat 4 32 | XOther k => k :: repeat 5 31 end.
(** Key bytes 2, k, 0, ...; account 100 + k; the only accepted signature of a key is its first two bytes. *)
Definition ex_keyb (k : N) : list N := 2 :: k :: repeat 0 31.
Definition ex_acct (k : xkey) : option N := match k with KEc (_ :: n :: _) => if n <? 256 then Some (100 + n) else None | _ => None end.
Definition ex_verify (k : xkey) (p : payload) (sig : list N) : bool := match k with KEc b => bool_decide (sig = firstn 2 b) | KEd _ => false end.
Definition ex_text (n mx : N) (c : xcall) : list N := to_hex ex_genesis ++ 58 :: (48 + n) :: 58 :: (48 + mx) :: 58 :: 48 :: 58 :: to_hex (ex_hash c).
Definition ex_x (raddr : list N) (k n mx : N) (c : xcall) : xtx :=
  Xtx raddr (to_hex (repeat 0 32)) [Memo [] (to_hex [104; 105]); Memo (to_hex (ex_text n mx c)) (to_hex [69; 88; 84; 82; 73; 78; 83; 73; 67])] (to_hex (ex_keyb k)).
(** Messages: [1], [2], ... *)
Definition ex_pay : xcall := XPay 9 10.
Definition ex_all : xcall := XPay 9 980.
Definition ex_proxy : xcall := XFp (CProxyExt (faddr 1) COther).
Definition ex_dec (m : list N) : option xtx :=
  match m with
  | [1] => Some (ex_x [1] 1 0 9 ex_pay)
  | [2] => Some (ex_x [1] 1 1 9 ex_all)
  | [3] => Some (ex_x [77] 1 0 9 ex_pay)
  | [4] => Some (Xtx [1] (to_hex (repeat 0 32)) [] [])
  | [5] => Some (ex_x [1] 1 0 9 ex_proxy)
  | _ => None
  end.
Local Notation ex_step := (xstep 32 ex_dec (fun _ => true) Some ex_acct ex_verify ex_hash (fun _ => false) ex_genesis).
Local Notation ex_run ops := (run ex_step ops xinit).
Definition ex_key : xkey := KEc (ex_keyb 1).
Definition ex_sig : list N := [2; 1].
Definition ex_event : xevent := XEvent ex_key 101 [1] ex_pay 0.

(** A payment is executed once; again, or with a wrong signature or after its last block, it is not. *)
Example ex_once : x_log (ex_run [OCredit 101 1000; OTx true [1] ex_sig ex_pay 5; OTx true [1] ex_sig ex_pay 5]) = [ex_event] /\
  x_log (ex_run [OCredit 101 1000; OTx true [1] [2; 2] ex_pay 5]) = [] /\
  x_log (ex_run (OCredit 101 1000 :: repeat OBlock 10 ++ [OTx true [1] ex_sig ex_pay 5])) = [] /\
  x_log (ex_run [OCredit 101 1000; OTx true [1] ex_sig (XPay 9 11) 5]) = [].
Proof. vm_compute. auto. Qed.
(** The hypotheses of C111 hold of a history in which the message is sent twice and a second one follows. *)
Lemma ex_no_fp_key : no_fp_key ex_acct.
Proof.
  intros [b|b] a; cbn; [discriminate|]. destruct b as [|x [|n b]]; try discriminate. destruct (N.ltb_spec n 256); [|discriminate]. intros [= <-].
  unfold is_fp. rewrite N.div_small; [reflexivity|]. lia.
Qed.
Example ex_C111 : exists ops o more e,
  along ex_step (fun s o => xfine s o /\ getN (x_nonce s) (e_caller e) + 1 < 2 ^ 32) (ops ++ o :: more) xinit /\
  x_log (ex_run (ops ++ [o])) = x_log (ex_run ops) ++ [e] /\ length (x_log (ex_run (ops ++ o :: more))) = 2%nat /\
  x_killed (ex_run (ops ++ o :: more)) = [].
Proof.
  exists [OCredit 101 2000], (OTx true [1] ex_sig ex_pay 5), [OTx true [1] ex_sig ex_pay 5; OTx true [2] ex_sig ex_all 5], ex_event.
  split; [|vm_compute; auto]. cbn [along app]. unfold xfine. repeat split; vm_compute; reflexivity.
Qed.
(** The fee of a call through a futurepass is paid by the futurepass; the nonce used is the signer's. *)
Example ex_futurepass :
  let s := ex_run [OFp (FExt true 101 (CCreate 101)); OCredit (faddr 1) 1000; OTx true [5] ex_sig ex_proxy 5; OTx true [5] ex_sig ex_proxy 5] in
  x_fees s = [(faddr 1, 5)] /\ length (x_log s) = 1%nat /\ getN (x_nonce s) 101 = 1 /\ getN (x_nonce s) (faddr 1) = 0.
Proof. vm_compute. auto. Qed.
(** What the memo of the instance announces. *)
Example ex_announces : announces [([], [104; 105]); (ex_text 0 9 ex_pay, [69; 88; 84; 82; 73; 78; 83; 73; 67])] ex_genesis 0 9 0 (ex_hash ex_pay).
Proof.
  apply (C113_read (fun _ => true) (x_memos (ex_x [1] 1 0 9 ex_pay))); [vm_compute; reflexivity| |vm_compute; reflexivity].
  repeat constructor.
Qed.

(** C111 as stated is false: the account spends all it has, is removed from the chain with its nonce, receives XRP
    again, and anybody can send the first message a second time. *)
Theorem C111_replay_refuted : exists ops o e, o = OTx true [1] ex_sig ex_pay 5 /\
  x_log (ex_run (ops ++ [o])) = [e] /\
  x_log (ex_run (ops ++ [o; OTx true [2] ex_sig ex_all 5; OCredit 101 1000; o])) = [e; XEvent ex_key 101 [1] ex_all 1; e] /\
  x_killed (ex_run (ops ++ [o; OTx true [2] ex_sig ex_all 5])) = [101].
Proof. exists [OCredit 101 1000], (OTx true [1] ex_sig ex_pay 5), ex_event. vm_compute. auto. Qed.

(** C113: one memo with a type that is not text hides a readable one that follows. *)
Definition ascii_only (l : list N) : bool := forallb (fun b => b <? 128) l.
Theorem C113_hidden_refuted : exists m ms d, get_extrinsic_data ascii_only ms = Ok d /\ get_extrinsic_data ascii_only (m :: ms) = Err 18 /\
  exists bs, blobs (m :: ms) = Some bs /\ announces bs (g_hash d) (g_nonce d) (g_max d) (g_tip d) (g_call d).
Proof.
  exists (Memo [] (to_hex [255])), (x_memos (ex_x [1] 1 0 9 ex_pay)), (MData ex_genesis 0 9 0 (ex_hash ex_pay)).
  split; [vm_compute; reflexivity|]. split; [vm_compute; reflexivity|]. eexists. split; [vm_compute; reflexivity|].
  apply (C113_read (fun _ => true) (Memo [] (to_hex [255]) :: x_memos (ex_x [1] 1 0 9 ex_pay))); [vm_compute; reflexivity| |vm_compute; reflexivity].
  repeat constructor.
Qed.

(** C114 as stated is false: an empty signing key, which XRPL uses for multi-signed transactions, is sliced. *)
Theorem C114_empty_key_refuted : exists x, x_key x = [] /\ get_public_key x = Err panic /\
  apply_tx 32 ex_dec (fun _ => true) Some ex_acct ex_verify ex_hash (fun _ => false) ex_genesis true xinit [4] [] ex_pay 5 = Err panic.
Proof. exists (Xtx [1] (to_hex (repeat 0 32)) [] []). vm_compute. auto. Qed.

(** C115 as stated is false: the signer writes somebody else's address (here [77]) into the message. *)
Theorem C115_raddr_refuted : exists ops e e', x_log (ex_run ops) = [e] /\ e_raddr e = [77] /\
  x_log (ex_run [OCredit 101 1000; OTx true [1] ex_sig ex_pay 5]) = [e'] /\ e_key e' = e_key e /\ e_raddr e' = [1].
Proof.
  exists [OCredit 101 1000; OTx true [3] ex_sig ex_pay 5], (XEvent ex_key 101 [77] ex_pay 0), ex_event. vm_compute. auto.
Qed.
Print Assumptions C110_signed.
Print Assumptions C110_failed.
Print Assumptions C111_once_partial.
Print Assumptions C111_replay_refuted.
Print Assumptions C112_payer.
Print Assumptions C113_read.
Print Assumptions C113_unambiguous.
Print Assumptions C113_hidden_refuted.
Print Assumptions C114_no_panic_partial.
Print Assumptions C114_empty_key_refuted.
Print Assumptions C115_caller_partial.
Print Assumptions C115_raddr_refuted.
