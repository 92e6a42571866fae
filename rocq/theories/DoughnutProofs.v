(** Lemmas about doughnuts. *)
From Verif Require Export DoughnutModel LedgerProofs.

Section proofs.
  Variable decode : list N -> option doughnut.
  Variable hash : list N -> N.
  Variable addr : N -> option N.
  Variable in_period : doughnut -> N -> bool.
  Variable verify : doughnut -> bool.
  Variable signed : N -> tx -> bool.
  Variable permission : list N -> option (N -> list ptype -> bool).
  Variable paused : call -> bool.
  Variable abytes : N -> list N.
  Variable may : N -> N -> bool.
  Variable fpass_of : N -> option N.
  Variable other : N -> N -> ledger N -> result (ledger N).
  Variable genesis : N.

  Notation transact := (transact decode hash addr verify permission paused abytes may other).
  Notation apply_tx := (apply_tx decode hash addr in_period verify signed permission paused abytes may fpass_of other genesis).
  Notation dstep := (dstep decode hash addr in_period verify signed permission paused abytes may fpass_of other genesis).

  (** What a successful [transact] has checked and done. *)
  Lemma transact_spec s t s' : transact s t = Ok s' ->
    exists d i h tp perm,
      decode (t_payload t) = Some d /\ verify d = true /\ addr (d_issuer d) = Some i /\ addr (d_holder d) = Some h /\
      bget (d_white s) h = true /\ bget (d_bdough s) (hash (t_payload t)) = false /\
      bget (d_bhold s) (i, h) = false /\
      d_top d = Some tp /\ permission tp = Some perm /\ check_call paused abytes perm (t_call t) = Ok tt /\
      d_led s' = commit (d_led s) (exec may other (d_led s) i (t_call t)) /\
      d_log s' = d_log s ++ [(i, h, t)] /\
      d_white s' = d_white s /\ d_bdough s' = d_bdough s /\ d_bhold s' = d_bhold s /\
      d_nonce s' = d_nonce s /\ d_now s' = d_now s.
  Proof.
    unfold DoughnutModel.transact. intros H. 
    destruct (decode (t_payload t)) as [d|] eqn:Ed; [|discriminate]. cbn [of_opt rbind] in H.
    destruct (verify d) eqn:Ev; [|discriminate]. cbn [ensure rbind] in H.
    destruct (addr (d_issuer d)) as [i|] eqn:Ei; [|discriminate]. cbn [of_opt rbind] in H.
    destruct (addr (d_holder d)) as [h|] eqn:Eh; [|discriminate]. cbn [of_opt rbind] in H.
    destruct (bget (d_white s) h) eqn:Ew; [|discriminate]. cbn [ensure rbind] in H.
    destruct (bget (d_bdough s) (hash (t_payload t))) eqn:Eb; [discriminate|]. cbn [negb ensure rbind] in H.
    destruct (bget (d_bhold s) (i, h)) eqn:Ebh; [discriminate|]. cbn [negb ensure rbind] in H.
    destruct (d_top d) as [tp|] eqn:Et; [|discriminate]. cbn [of_opt rbind] in H.
    destruct (permission tp) as [perm|] eqn:Ep; [|discriminate]. cbn [of_opt rbind] in H.
    destruct (check_call paused abytes perm (t_call t)) as [[]|] eqn:Ec; [|discriminate]. cbn [rbind] in H.
    apply Ok_inj in H. subst s'. cbn.
    exists d, i, h, tp, perm. repeat (split; [assumption || reflexivity|]). reflexivity.
  Qed.

  (** What a transaction does: nothing but a nonce and a fee, or in addition a [transact]. *)
  Lemma apply_spec s t fee s' : apply_tx s t fee = Ok s' ->
    exists d h l,
      decode (t_payload t) = Some d /\ in_period d (d_now s) = true /\ verify d = true /\
      addr (d_holder d) = Some h /\ signed (d_holder d) t = true /\ t_gen t = genesis /\
      t_nonce t = getN (d_nonce s) h /\
      let s1 := with_led (with_nonce s (<[h := (t_nonce t + 1) mod 2 ^ 32]> (d_nonce s))) l in
      s' = commit s1 (transact s1 t).
  Proof.
    unfold DoughnutModel.apply_tx, check_tx, fee_payer. intros H.
    destruct (decode (t_payload t)) as [d|] eqn:Ed; [|discriminate]. cbn [of_opt rbind] in H.
    destruct (in_period d (d_now s)) eqn:Ep; [|discriminate]. cbn [ensure rbind] in H.
    destruct (verify d) eqn:Ev; [|discriminate]. cbn [ensure rbind] in H.
    destruct (addr (d_holder d)) as [h|] eqn:Eh; [|discriminate]. cbn [of_opt rbind] in H.
    destruct (signed (d_holder d) t) eqn:Es; [|discriminate]. cbn [ensure rbind] in H.
    destruct (N.eqb_spec (t_gen t) genesis) as [Eg|]; [|discriminate]. cbn [ensure rbind] in H.
    apply rbind_ok in H. destruct H as [payer [_ H]].
    destruct (negb (h =? 0)); [|discriminate]. cbn [ensure rbind] in H.
    destruct (N.eqb_spec (t_nonce t) (getN (d_nonce s) h)) as [En|]; [|discriminate]. cbn [ensure rbind] in H.
    apply rbind_ok in H. destruct H as [l [_ H]]. apply Ok_inj in H.
    exists d, h, l. cbv zeta. repeat (split; [assumption || reflexivity|]). symmetry. exact H.
  Qed.

  (** How a step can change the trace. *)
  Lemma step_log s o : d_log (dstep s o) = d_log s \/
    exists t fee d i h, o = OTx t fee /\ d_log (dstep s o) = d_log s ++ [(i, h, t)] /\
      decode (t_payload t) = Some d /\ verify d = true /\ in_period d (d_now s) = true /\
      addr (d_issuer d) = Some i /\ addr (d_holder d) = Some h /\ signed (d_holder d) t = true /\
      t_gen t = genesis /\ t_nonce t = getN (d_nonce s) h /\
      bget (d_white s) h = true /\ bget (d_bdough s) (hash (t_payload t)) = false /\
      bget (d_bhold s) (i, h) = false /\
      getN (d_nonce (dstep s o)) h = (t_nonce t + 1) mod 2 ^ 32.
  Proof.
    destruct o as [t fee|who p b|who h b|h b| |who|l|who]; cbn [DoughnutModel.dstep]; try (left; reflexivity).
    - destruct (apply_tx s t fee) as [s'|] eqn:Ea; [|left; reflexivity]. cbn [commit].
      destruct (apply_spec _ _ _ _ Ea) as (d & h & l & Hd & Hp & Hv & Hh & Hs & Hg & Hn & He).
      cbv zeta in He. set (s1 := with_led _ l) in He.
      destruct (transact s1 t) as [s2|] eqn:Et; cbn [commit] in He; subst s'; [|left; reflexivity].
      destruct (transact_spec _ _ _ Et) as (d' & i & h' & tp & perm & Hd' & _ & Hi & Hh' & Hw & Hb & Hbh & _ & _ & _ & _ & Hl & _ & _ & _ & Hno & _).
      assert (d' = d) by congruence. subst d'. assert (h' = h) by congruence. subst h'.
      right. exists t, fee, d, i, h. repeat (split; [assumption || reflexivity|]).
      rewrite Hno. unfold s1. cbn. apply getN_insert.
    - left. unfold revoke_doughnut. destruct (decode p); cbn; [|reflexivity].
      destruct (addr _); cbn; [|reflexivity]. destruct (who =? _); reflexivity.
    - left. destruct (_ && _); reflexivity.
  Qed.

  Lemma step_bhold s o i h : bget (d_bhold s) (i, h) = true -> o <> ORevokeHolder i h false ->
    bget (d_bhold (dstep s o)) (i, h) = true.
  Proof.
    intros Hb Hne. destruct o as [t fee|who p b|who h' b|h' b| |who|l|who]; cbn [DoughnutModel.dstep]; try exact Hb.
    - destruct (apply_tx s t fee) as [s'|] eqn:Ea; [|exact Hb]. cbn [commit].
      destruct (apply_spec _ _ _ _ Ea) as (d & h0 & l & _ & _ & _ & _ & _ & _ & _ & He).
      cbv zeta in He. set (s1 := with_led _ l) in He.
      destruct (transact s1 t) as [s2|] eqn:Et; cbn [commit] in He; subst s'; [|exact Hb].
      destruct (transact_spec _ _ _ Et) as (d' & i' & h' & tp & perm & _ & _ & _ & _ & _ & _ & _ & _ & _ & _ & _ & _ & _ & _ & Hh & _).
      rewrite Hh. exact Hb.
    - unfold revoke_doughnut. destruct (decode p); cbn; [|exact Hb].
      destruct (addr _); cbn; [|exact Hb]. destruct (who =? _); cbn; exact Hb.
    - unfold revoke_holder, bget. cbn. destruct (decide ((who, h') = (i, h))) as [[= -> ->]|Hd].
      + destruct b; [|congruence]. rewrite lookup_insert. reflexivity.
      + destruct b; [rewrite lookup_insert_ne by exact Hd|rewrite lookup_delete_ne by exact Hd]; exact Hb.
    - destruct (_ && _); exact Hb.
  Qed.

  Lemma step_bdough s o i p d : (forall q q', hash q = hash q' -> q = q') ->
    decode p = Some d -> addr (d_issuer d) = Some i ->
    bget (d_bdough s) (hash p) = true -> o <> ORevoke i p false ->
    bget (d_bdough (dstep s o)) (hash p) = true.
  Proof.
    intros Hinj Hd Hi Hb Hne. destruct o as [t fee|who q b|who h' b|h' b| |who|l|who]; cbn [DoughnutModel.dstep]; try exact Hb.
    - destruct (apply_tx s t fee) as [s'|] eqn:Ea; [|exact Hb]. cbn [commit].
      destruct (apply_spec _ _ _ _ Ea) as (d0 & h0 & l & _ & _ & _ & _ & _ & _ & _ & He).
      cbv zeta in He. set (s1 := with_led _ l) in He.
      destruct (transact s1 t) as [s2|] eqn:Et; cbn [commit] in He; subst s'; [|exact Hb].
      destruct (transact_spec _ _ _ Et) as (d' & i' & h' & tp & perm & _ & _ & _ & _ & _ & _ & _ & _ & _ & _ & _ & _ & _ & Hh & _).
      rewrite Hh. exact Hb.
    - unfold revoke_doughnut. destruct (decode q) as [d1|] eqn:Eq; cbn; [|exact Hb].
      destruct (addr (d_issuer d1)) as [i1|] eqn:Ei1; cbn; [|exact Hb].
      destruct (N.eqb_spec who i1) as [->|]; cbn; [|exact Hb].
      unfold bget. destruct (decide (hash q = hash p)) as [Hq|Hq].
      + destruct b; [rewrite Hq, lookup_insert; reflexivity|].
        apply Hinj in Hq. subst q. assert (d1 = d) by congruence. subst. congruence.
      + destruct b; [rewrite lookup_insert_ne by exact Hq|rewrite lookup_delete_ne by exact Hq]; exact Hb.
    - destruct (_ && _); exact Hb.
  Qed.

  (** No two entries of the trace for holder [h] have the same nonce while it does not wrap and
      the account is not removed. *)
  Definition room (h : N) (s : dstate) (o : dop) : Prop := getN (d_nonce s) h + 1 < 2 ^ 32 /\ o <> OReap h.
  Definition once (h : N) (s : dstate) : Prop :=
    (forall k1 k2 i1 i2 t1 t2, d_log s !! k1 = Some (i1, h, t1) -> d_log s !! k2 = Some (i2, h, t2) -> t_nonce t1 = t_nonce t2 -> k1 = k2) /\
    forall i t, In (i, h, t) (d_log s) -> t_nonce t < getN (d_nonce s) h.

  Lemma step_nonce a s o : room a s o -> getN (d_nonce s) a <= getN (d_nonce (dstep s o)) a.
  Proof.
    intros [Hr Hk]. destruct o as [t fee|who p b|who h' b|h' b| |who|l|who]; cbn [DoughnutModel.dstep]; try reflexivity.
    - destruct (apply_tx s t fee) as [s'|] eqn:Ea; [|reflexivity]. cbn [commit].
      destruct (apply_spec _ _ _ _ Ea) as (d0 & h0 & l & _ & _ & _ & _ & _ & _ & Hn & He).
      cbv zeta in He. set (s1 := with_led _ l) in He.
      assert (Hno : d_nonce s' = <[h0 := (t_nonce t + 1) mod 2 ^ 32]> (d_nonce s)).
      { destruct (transact s1 t) as [s2|] eqn:Et; cbn [commit] in He; subst s'; [|reflexivity].
        destruct (transact_spec _ _ _ Et) as (d' & i' & h' & tp & perm & _ & _ & _ & _ & _ & _ & _ & _ & _ & _ & _ & _ & _ & _ & _ & Hh & _).
        exact Hh. }
      rewrite Hno. destruct (decide (h0 = a)) as [->|Hd].
      + rewrite getN_insert, Hn. rewrite N.mod_small by apply Hr. lia.
      + rewrite getN_insert_ne by exact Hd. reflexivity.
    - unfold revoke_doughnut. destruct (decode p); cbn; [|reflexivity].
      destruct (addr _); cbn; [|reflexivity]. destruct (who =? _); reflexivity.
    - cbn. destruct (decide (who = a)) as [->|Hd].
      + rewrite getN_insert. rewrite N.mod_small by apply Hr. lia.
      + rewrite getN_insert_ne by exact Hd. reflexivity.
    - destruct (_ && _); [|reflexivity]. cbn. unfold getN. rewrite lookup_delete_ne; [reflexivity|]. congruence.
  Qed.

  Lemma step_once h s o : room h s o -> once h s -> once h (dstep s o).
  Proof.
    intros Hr [Hnd Hlt]. pose proof (step_nonce h s o Hr) as Hle.
    destruct (step_log s o) as [E|(t & fee & d & i & h' & -> & E & _ & _ & _ & _ & _ & _ & _ & Hn & _ & _ & _ & Hno)].
    - split; rewrite E; [exact Hnd|]. intros i t He. specialize (Hlt i t He). lia.
    - assert (Hlog : forall k i1 t1, d_log (dstep s (OTx t fee)) !! k = Some (i1, h, t1) ->
        d_log s !! k = Some (i1, h, t1) \/ (k = length (d_log s) /\ t1 = t /\ h' = h)).
      { intros k i1 t1. rewrite E. destruct (lt_dec k (length (d_log s))) as [Hk|Hk].
        - rewrite lookup_app_l by exact Hk. auto.
        - rewrite lookup_app_r by lia. destruct (Nat.eq_dec k (length (d_log s))) as [->|Hne].
          + rewrite Nat.sub_diag. cbn. intros [= <- -> <-]. auto.
          + rewrite lookup_ge_None_2 by (cbn; lia). discriminate. }
      split.
      + intros k1 k2 i1 i2 t1 t2 H1 H2 Ht. apply Hlog in H1, H2.
        destruct H1 as [H1|(-> & -> & Hh)], H2 as [H2|(-> & -> & Hh')].
        * exact (Hnd _ _ _ _ _ _ H1 H2 Ht).
        * subst h'. apply elem_of_list_lookup_2, elem_of_list_In, Hlt in H1. lia.
        * subst h'. apply elem_of_list_lookup_2, elem_of_list_In, Hlt in H2. lia.
        * reflexivity.
      + intros i1 t1 He. rewrite E in He. apply in_app_iff in He. destruct He as [He|[[= <- -> <-]|[]]].
        * specialize (Hlt i1 t1 He). lia.
        * rewrite Hno, N.mod_small; [lia|]. rewrite Hn. apply Hr.
  Qed.

  (** Amounts named by a call. *)
  Fixpoint amounts (c : call) : list N :=
    match c with
    | CTransfer _ v | CKeepAlive _ v | CAsset _ _ v _ => [v]
    | CProxy _ i | CFee _ _ i => amounts i
    | _ => []
    end.

  (** A checked call moves money at most once, from the issuer or a futurepass the issuer may act
      for, and the permission has seen the destination and the amount modulo 2^64. *)
  Definition moved (perm : N -> list ptype -> bool) (l : ledger N) (src : N) (amt : N -> Prop) (r : result (ledger N)) : Prop :=
    r = Ok l \/ (exists e, r = Err e) \/
    exists a dest v l', r = Ok l' /\ transfer l a src dest v = Ok l' /\ amt v /\
      ((a = ROOT /\ perm 1 [PStr (abytes dest); PNum (v mod 2 ^ 64)] = true) \/
       (a = ROOT /\ perm 2 [PStr (abytes dest); PNum (v mod 2 ^ 64)] = true) \/
       (exists k, perm 5 [PNum a; PStr (abytes dest); PNum (v mod 2 ^ 64); PNum k] = true)).

  Lemma exec_flat perm l src a :
    (match a with
     | CTransfer dest v | CKeepAlive dest v =>
         ensure (perm (cname a) [PStr (abytes dest); PNum (as_u64 v)]) 2
     | CCreate acc => ensure (perm (cname a) [PStr (abytes acc)]) 2
     | CRemark b => ensure (perm (cname a) [PStr b]) 2
     | CAsset asset dest v k =>
         ensure (perm (cname a) [PNum asset; PStr (abytes dest); PNum (as_u64 v); PNum (num_of_bool k)]) 2
     | _ => Err 2
     end) = Ok tt -> moved perm l src (fun v => In v (amounts a)) (exec may other l src a).
  Proof.
    intros H. unfold moved. destruct a as [dest v|dest v|acc|b|asset dest v k|fp c|as' mx c|k]; cbn [exec cname amounts] in *; try discriminate;
      try (left; reflexivity); apply ensure_ok in H.
    - destruct (transfer l ROOT src dest v) as [l'|e] eqn:E; [right; right|right; left; eauto].
      exists ROOT, dest, v, l'. repeat (split; [auto using in_eq; fail|]). left. auto.
    - destruct (transfer l ROOT src dest v) as [l'|e] eqn:E; [right; right|right; left; eauto].
      exists ROOT, dest, v, l'. repeat (split; [auto using in_eq; fail|]). right; left. auto.
    - destruct (transfer l asset src dest v) as [l'|e] eqn:E; [right; right|right; left; eauto].
      exists asset, dest, v, l'. repeat (split; [auto using in_eq; fail|]). right; right. eauto.
  Qed.

  Lemma moved_mono perm l src (P Q : N -> Prop) r : (forall v, P v -> Q v) -> moved perm l src P r -> moved perm l src Q r.
  Proof.
    intros Hpq [H|[H|(a & dest & v & l' & H1 & H2 & H3 & H4)]]; [left; exact H|right; left; exact H|].
    right; right. exists a, dest, v, l'. auto.
  Qed.

  (** Effect of a whole checked call on the ledger. *)
  Lemma checked_exec perm l i c : check_call paused abytes perm c = Ok tt ->
    exists src, (src = i \/ may i src = true) /\
      (commit l (exec may other l i c) = l \/
       exists a dest v l', commit l (exec may other l i c) = l' /\ transfer l a src dest v = Ok l' /\ In v (amounts c) /\
      ((a = ROOT /\ perm 1 [PStr (abytes dest); PNum (v mod 2 ^ 64)] = true) \/
       (a = ROOT /\ perm 2 [PStr (abytes dest); PNum (v mod 2 ^ 64)] = true) \/
       (exists k, perm 5 [PNum a; PStr (abytes dest); PNum (v mod 2 ^ 64); PNum k] = true))).
  Proof.
    unfold check_call. intros H. cbv zeta in H.
    destruct (paused (actual_call c)); [discriminate|]. cbn [negb ensure rbind] in H.
    assert (Hfin : forall src r, moved perm l src (fun v => In v (amounts c)) r ->
      commit l r = l \/ exists a dest v l', commit l r = l' /\ transfer l a src dest v = Ok l' /\ In v (amounts c) /\
      ((a = ROOT /\ perm 1 [PStr (abytes dest); PNum (v mod 2 ^ 64)] = true) \/
       (a = ROOT /\ perm 2 [PStr (abytes dest); PNum (v mod 2 ^ 64)] = true) \/
       (exists k, perm 5 [PNum a; PStr (abytes dest); PNum (v mod 2 ^ 64); PNum k] = true))).
    { intros src r [->|[[e ->]|(a & dest & v & l' & -> & H2)]]; cbn [commit]; [left; reflexivity|left; reflexivity|].
      right. exists a, dest, v, l'. split; [reflexivity|exact H2]. }
    assert (Hplain : forall i' c', match c' with CProxy _ _ | CFee _ _ _ => False | _ => True end ->
       c' = actual_call c -> (forall v, In v (amounts c') -> In v (amounts c)) ->
       moved perm l i' (fun v => In v (amounts c)) (exec may other l i' c')).
    { intros i' c' _ Ec Hin. eapply moved_mono; [exact Hin|]. apply exec_flat. rewrite Ec. exact H. }
    destruct c as [dest v|dest v|acc|b|asset dest v k|fp c|as' mx c|k]; cbn [actual_call] in *; try discriminate.
    - exists i. split; [left; reflexivity|]. apply Hfin, Hplain; [exact I|reflexivity|auto].
    - exists i. split; [left; reflexivity|]. apply Hfin, Hplain; [exact I|reflexivity|auto].
    - exists i. split; [left; reflexivity|]. apply Hfin, Hplain; [exact I|reflexivity|auto].
    - exists i. split; [left; reflexivity|]. apply Hfin, Hplain; [exact I|reflexivity|auto].
    - exists i. split; [left; reflexivity|]. apply Hfin, Hplain; [exact I|reflexivity|auto].
    - cbn [exec amounts] in *. destruct (may i fp) eqn:Em.
      + exists fp. split; [right; exact Em|]. cbn [ensure rbind].
        cbn [commit]. apply Hfin. apply exec_flat. exact H.
      + exists i. split; [left; reflexivity|]. left. reflexivity.
    - cbn [exec amounts] in *. destruct (negb (as' =? XRP)); cbn [ensure rbind];
        [|exists i; split; [left; reflexivity|left; reflexivity]].
      destruct c as [dest v|dest v|acc|b|asset dest v k|fp c|as2 mx2 c|k]; try discriminate; cbn [ensure rbind];
        try (exists i; split; [left; reflexivity|]; apply Hfin; apply exec_flat; exact H).
      cbn [exec amounts] in *. destruct (may i fp) eqn:Em.
      + exists fp. split; [right; exact Em|]. cbn [ensure rbind commit]. apply Hfin. apply exec_flat. exact H.
      + exists i. split; [left; reflexivity|]. left. reflexivity.
  Qed.
End proofs.
