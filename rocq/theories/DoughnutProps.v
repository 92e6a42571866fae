(** Doughnut properties: C52, C53, C87. *)
From Verif Require Import DoughnutProofs.

(** The permission accepts only amounts satisfying [cond], in each of the three transfer calls. *)
Definition limits (perm : N -> list ptype -> bool) (cond : N -> Prop) : Prop :=
  forall v, (forall dest, perm 1 [dest; PNum v] = true -> cond v) /\
            (forall dest, perm 2 [dest; PNum v] = true -> cond v) /\
            (forall asset dest k, perm 5 [asset; dest; PNum v; k] = true -> cond v).

Section props.
  Variable decode : list N -> option doughnut.
  Variable hash : list N -> N.
  Variable addr : N -> option N.
  Variable in_period : doughnut -> N -> bool.
  Variable verify : doughnut -> bool.
  Variable signed : N -> tx -> bool.
  Variable permission : list N -> option (N -> list ptype -> bool).
  Variable paused : call -> bool.
  Variable abytes : N -> list N.
  Variable may : N -> N -> bool.
  Variable fpass_of : N -> option N.
  Variable other : N -> N -> ledger N -> result (ledger N).
  Variable genesis : N.

  Notation transact := (transact decode hash addr verify permission paused abytes may other).
  Notation dstep := (dstep decode hash addr in_period verify signed permission paused abytes may fpass_of other genesis).

  (** C52, for amounts below 2^64.  Full statement: without [Forall (< 2^64)]; it is refuted
      below.  Every balance that falls belongs to the issuer or to a futurepass the issuer may
      act for, falls by an amount the permission's condition accepts, and the asset and the rest
      of the ledger are as the permission saw them. *)
  Theorem C52_limit_partial s t s' d i tp perm cond :
    transact s t = Ok s' -> decode (t_payload t) = Some d -> addr (d_issuer d) = Some i ->
    d_top d = Some tp -> permission tp = Some perm -> limits perm cond ->
    Forall (fun v => v < 2 ^ 64) (amounts (t_call t)) ->
    forall asset x, balance (d_led s') asset x < balance (d_led s) asset x ->
      (x = i \/ may i x = true) /\ cond (balance (d_led s) asset x - balance (d_led s') asset x).
  Proof.
    intros Ht Hd Hi Htp Hp Hlim Hsm asset x Hlt.
    destruct (transact_spec _ _ _ _ _ _ _ _ _ _ _ _ Ht) as (d' & i' & h & tp' & perm' & Hd' & _ & Hi' & _ & _ & _ & _ & Htp' & Hp' & Hc & Hl & _).
    assert (d' = d) by congruence. subst d'. assert (i' = i) by congruence. subst i'.
    assert (tp' = tp) by congruence. subst tp'. assert (perm' = perm) by congruence. subst perm'.
    destruct (checked_exec paused abytes may other perm (d_led s) i (t_call t) Hc) as (src & Hsrc & [He|(a & dest & v & l' & He & Htr & Hin & Hperm)]).
    - rewrite Hl, He in Hlt. lia.
    - rewrite Hl, He in Hlt |- *. apply transfer_spec in Htr. destruct Htr as (Hv & _ & Hb). specialize (Hb asset x).
      assert (Hv64 : v < 2 ^ 64). { rewrite Forall_forall in Hsm. apply Hsm. apply elem_of_list_In. exact Hin. }
      rewrite N.mod_small in Hperm by exact Hv64.
      destruct (decide ((a, src) = (asset, x))) as [[= -> ->]|Hne]; [|lia].
      destruct (decide ((asset, dest) = (asset, x))); [lia|].
      split; [exact Hsrc|]. replace (balance (d_led s) asset x - balance l' asset x) with v by lia.
      destruct (Hlim v) as (L1 & L2 & L3). destruct Hperm as [[_ Hq]|[[_ Hq]|[k Hq]]]; eauto.
  Qed.

  (** Whatever the amount, at most one transfer is made, the permission accepted its asset and
      destination, and nothing else moves. *)
  Theorem C52_one_transfer s t s' d i tp perm :
    transact s t = Ok s' -> decode (t_payload t) = Some d -> addr (d_issuer d) = Some i ->
    d_top d = Some tp -> permission tp = Some perm ->
    d_led s' = d_led s \/
    exists a src dest v, (src = i \/ may i src = true) /\ v <= balance (d_led s) a src /\
      (exists n, (a = ROOT /\ (perm 1 [PStr (abytes dest); PNum n] = true \/ perm 2 [PStr (abytes dest); PNum n] = true)) \/
        exists k, perm 5 [PNum a; PStr (abytes dest); PNum n; PNum k] = true) /\
      forall b y, balance (d_led s') b y + (if decide ((a, src) = (b, y)) then v else 0)
                = balance (d_led s) b y + (if decide ((a, dest) = (b, y)) then v else 0).
  Proof.
    intros Ht Hd Hi Htp Hp.
    destruct (transact_spec _ _ _ _ _ _ _ _ _ _ _ _ Ht) as (d' & i' & h & tp' & perm' & Hd' & _ & Hi' & _ & _ & _ & _ & Htp' & Hp' & Hc & Hl & _).
    assert (d' = d) by congruence. subst d'. assert (i' = i) by congruence. subst i'.
    assert (tp' = tp) by congruence. subst tp'. assert (perm' = perm) by congruence. subst perm'.
    destruct (checked_exec paused abytes may other perm (d_led s) i (t_call t) Hc) as (src & Hsrc & [He|(a & dest & v & l' & He & Htr & Hin & Hperm)]).
    - left. congruence.
    - right. exists a, src, dest, v. apply transfer_spec in Htr. destruct Htr as (Hv & _ & Hb).
      rewrite Hl, He. split; [exact Hsrc|]. split; [exact Hv|]. split; [|exact Hb].
      exists (v mod 2 ^ 64). destruct Hperm as [[-> Hq]|[[-> Hq]|[k Hq]]]; eauto.
  Qed.

  (** C53 for a revoked holder: from then on, in every history in which the issuer does not undo
      it, nothing of that issuer is executed for that holder, under any doughnut and encoding. *)
  Theorem C53_holder s i h ops :
    ~ In (ORevokeHolder i h false) ops ->
    forall t, In (i, h, t) (d_log (run dstep ops (dstep s (ORevokeHolder i h true)))) -> In (i, h, t) (d_log s).
  Proof.
    intros Hno. set (s0 := dstep s _).
    assert (H0 : bget (d_bhold s0) (i, h) = true /\ forall t, In (i, h, t) (d_log s0) -> In (i, h, t) (d_log s)).
    { split; [|auto]. unfold s0, bget. cbn. rewrite lookup_insert. reflexivity. }
    clearbody s0. revert s0 H0. induction ops as [|o ops IH]; intros s0 [Hb Hl]; [exact Hl|].
    cbn. apply IH; [intros Hin; apply Hno; right; exact Hin|].
    assert (Hne : o <> ORevokeHolder i h false) by (intros ->; apply Hno; left; reflexivity).
    split; [apply step_bhold; assumption|].
    intros t Ht. destruct (step_log decode hash addr in_period verify signed permission paused abytes may fpass_of other genesis s0 o) as [E|(t' & fee & d & i' & h' & -> & E & _ & _ & _ & _ & _ & _ & _ & _ & _ & _ & Hbh & _)];
      rewrite E in Ht; [apply Hl, Ht|].
    apply in_app_iff in Ht. destruct Ht as [Ht|[[= -> -> ->]|[]]]; [apply Hl, Ht|]. congruence.
  Qed.

  (** C53 for a revoked doughnut, used with exactly the bytes that were revoked.  Full statement:
      for every payload that decodes to the same doughnut; refuted below. *)
  Theorem C53_bytes_partial s i p s1 ops :
    (forall q q', hash q = hash q' -> q = q') ->
    revoke_doughnut decode hash addr s i p true = Ok s1 ->
    ~ In (ORevoke i p false) ops ->
    forall j h t, t_payload t = p -> In (j, h, t) (d_log (run dstep ops s1)) -> In (j, h, t) (d_log s).
  Proof.
    intros Hinj Hr Hno. unfold revoke_doughnut in Hr.
    destruct (decode p) as [d|] eqn:Ed; [|discriminate]. cbn [of_opt rbind] in Hr.
    destruct (addr (d_issuer d)) as [i'|] eqn:Ei; [|discriminate]. cbn [of_opt rbind] in Hr.
    destruct (N.eqb_spec i i') as [<-|]; [|discriminate]. cbn [ensure rbind] in Hr. apply Ok_inj in Hr.
    assert (H0 : bget (d_bdough s1) (hash p) = true /\
                 forall j h t, t_payload t = p -> In (j, h, t) (d_log s1) -> In (j, h, t) (d_log s)).
    { subst s1. cbn. split; [unfold bget; rewrite lookup_insert; reflexivity|auto]. }
    clear Hr. revert s1 H0. induction ops as [|o ops IH]; intros s0 [Hb Hl]; [exact Hl|].
    cbn. apply IH; [intros Hin; apply Hno; right; exact Hin|].
    assert (Hne : o <> ORevoke i p false) by (intros ->; apply Hno; left; reflexivity).
    split; [eapply step_bdough; eassumption|].
    intros j h t Hp Ht. destruct (step_log decode hash addr in_period verify signed permission paused abytes may fpass_of other genesis s0 o) as [E|(t' & fee & d' & i' & h' & -> & E & _ & _ & _ & _ & _ & _ & _ & _ & _ & Hbd & _)];
      rewrite E in Ht; [apply Hl; [exact Hp|exact Ht]|].
    apply in_app_iff in Ht. destruct Ht as [Ht|[[= -> -> ->]|[]]]; [apply Hl; [exact Hp|exact Ht]|]. congruence.
  Qed.

  (** Only the issuer can revoke or restore a doughnut. *)
  Theorem C53_only_issuer s who p b s' : revoke_doughnut decode hash addr s who p b = Ok s' ->
    exists d, decode p = Some d /\ addr (d_issuer d) = Some who.
  Proof.
    unfold revoke_doughnut. intros Hr. destruct (decode p) as [d|] eqn:Ed; [|discriminate]. cbn [of_opt rbind] in Hr.
    destruct (addr (d_issuer d)) as [i'|] eqn:Ei; [|discriminate]. cbn [of_opt rbind] in Hr.
    destruct (N.eqb_spec who i') as [<-|]; [|discriminate]. eauto.
  Qed.

  (** For every decoder that ignores what follows the doughnut (SCALE decoders reading from a
      slice do), a revoked doughnut works as before once a byte is appended. *)
  Theorem C53_trailing_byte s p s1 t :
    (forall q b, decode q <> None -> decode (q ++ b) = decode q) ->
    (forall q, hash (q ++ [0]) <> hash q) ->
    forall i, revoke_doughnut decode hash addr s i p true = Ok s1 ->
    bget (d_bdough s) (hash (p ++ [0])) = false ->
    t_payload t = p -> is_ok (transact s t) = true ->
    is_ok (transact s1 (Tx (t_call t) (p ++ [0]) (t_nonce t) (t_gen t) (t_tip t) (t_sig t))) = true.
  Proof.
    intros Hpre Hh i Hr Hfree Hp Hok. unfold revoke_doughnut in Hr.
    destruct (decode p) as [d|] eqn:Ed; [|discriminate]. cbn [of_opt rbind] in Hr.
    destruct (addr (d_issuer d)) as [i'|] eqn:Ei; [|discriminate]. cbn [of_opt rbind] in Hr.
    destruct (N.eqb_spec i i') as [<-|]; [|discriminate]. cbn [ensure rbind] in Hr. apply Ok_inj in Hr. subst s1.
    destruct (transact s t) as [s2|] eqn:Et; [|discriminate].
    destruct (transact_spec _ _ _ _ _ _ _ _ _ _ _ _ Et) as (d' & i' & h & tp & perm & Hd' & Hv & Hi' & Hhd & Hw & Hb & Hbh & Htp & Hpm & Hc & _).
    rewrite Hp, Ed in Hd'. injection Hd' as <-. assert (i' = i) by congruence. subst i'.
    unfold DoughnutModel.transact. cbn [t_payload t_call d_white d_bdough d_bhold].
    rewrite Hpre, Ed by congruence. cbn [of_opt rbind]. rewrite Hv. cbn [ensure rbind]. rewrite Ei. cbn [of_opt rbind].
    rewrite Hhd. cbn [of_opt rbind]. rewrite Hw. cbn [ensure rbind].
    unfold bget at 1. rewrite lookup_insert_ne by (intros E; apply (Hh p); symmetry; exact E).
    unfold bget at 1 in Hfree. rewrite Hfree. cbn [negb ensure rbind]. rewrite Hbh. cbn [negb ensure rbind].
    rewrite Htp. cbn [of_opt rbind]. rewrite Hpm. cbn [of_opt rbind]. rewrite Hc. reflexivity.
  Qed.

  (** C87: whatever is executed was signed by the holder for this chain, under a doughnut the
      issuer signed, in its period, for a whitelisted holder, neither being revoked... *)
  Theorem C87_authorised s o e : In e (d_log (dstep s o)) -> In e (d_log s) \/
    exists t fee d i h, e = (i, h, t) /\ o = OTx t fee /\
      decode (t_payload t) = Some d /\ verify d = true /\ in_period d (d_now s) = true /\
      addr (d_issuer d) = Some i /\ addr (d_holder d) = Some h /\ signed (d_holder d) t = true /\
      t_gen t = genesis /\ bget (d_white s) h = true /\
      bget (d_bdough s) (hash (t_payload t)) = false /\ bget (d_bhold s) (i, h) = false.
  Proof.
    intros He. destruct (step_log decode hash addr in_period verify signed permission paused abytes may fpass_of other genesis s o)
      as [E|(t & fee & d & i & h & -> & E & H1 & H2 & H3 & H4 & H5 & H6 & H7 & H8 & H9 & H10 & H11 & _)]; rewrite E in He; [left; exact He|].
    apply in_app_iff in He. destruct He as [He|[<-|[]]]; [left; exact He|]. right.
    exists t, fee, d, i, h. repeat (split; [assumption || reflexivity|]). assumption.
  Qed.

  (** ... and it was executed once: no two executions share holder and nonce, so no signed
      transaction runs twice, in every history in which the holder's nonce stays below 2^32 - 1 and
      the holder's account is not removed.  Full statement: without the last condition; refuted below. *)
  Theorem C87_once_partial h ops : along dstep (room h) ops dinit ->
    forall k1 k2 i1 i2 t1 t2,
      d_log (run dstep ops dinit) !! k1 = Some (i1, h, t1) -> d_log (run dstep ops dinit) !! k2 = Some (i2, h, t2) ->
      t_nonce t1 = t_nonce t2 -> k1 = k2.
  Proof.
    intros Hal. assert (Ho : once h (run dstep ops dinit)).
    { eapply (run_along dstep (room h)); [|exact Hal|].
      - intros s o Hr Ho. apply step_once; assumption.
      - split; [intros k1 k2 i1 i2 t1 t2 H; discriminate|]. intros i t []. }
    apply Ho.
  Qed.
End props.
Print Assumptions C52_limit_partial.
Print Assumptions C52_one_transfer.
Print Assumptions C53_holder.
Print Assumptions C53_bytes_partial.
Print Assumptions C53_only_issuer.
Print Assumptions C53_trailing_byte.
Print Assumptions C87_authorised.
Print Assumptions C87_once_partial.

(** A small concrete instance.  Payload: issuer key, holder key, then the limit; anything after
    is ignored.  The permission is a limit on amounts. *)
Definition ex_decode (p : list N) : option doughnut :=
  match p with i :: h :: m :: _ => Some (Dough i h i (Some [m]) 0) | _ => None end.
Definition ex_hash (p : list N) : N := fold_left (fun a b => a * 1000 + b + 1) p 0.
Definition ex_perm (tp : list N) : option (N -> list ptype -> bool) :=
  match tp with
  | [m] => Some (fun name args =>
      match args with
      | [_; PNum v] => ((name =? 1) || (name =? 2)) && (v <=? m)
      | [_; _; PNum v; _] => (name =? 5) && (v <=? m)
      | _ => false
      end)
  | _ => None
  end.
Local Notation ex_transact := (transact ex_decode ex_hash Some (fun _ => true) ex_perm (fun _ => false) (fun a => [a]) (fun _ _ => false) (fun _ _ l => Ok l)).
Local Notation ex_step := (dstep ex_decode ex_hash Some (fun _ _ => true) (fun _ => true) (fun _ _ => true) ex_perm (fun _ => false) (fun a => [a]) (fun _ _ => false) (fun _ => None) (fun _ _ l => Ok l) 7).
Definition ex_ledger : ledger N := Ledger {[ (ROOT, 10) := 2 ^ 70; (XRP, 10) := 500 ]} {[ ROOT := 2 ^ 70; XRP := 500 ]}.
Definition ex_start : list dop := [OLedger ex_ledger; OWhite 20 true].
Definition ex_tx (v : N) (p : list N) (n : N) : tx := Tx (CTransfer 30 v) p n 7 0 0.
Definition ex_s : dstate := run ex_step ex_start dinit.

(** The limit of the instance is a limit in the sense of [limits]. *)
Lemma ex_limits : limits (fun name args =>
      match args with
      | [_; PNum v] => ((name =? 1) || (name =? 2)) && (v <=? 100)
      | [_; _; PNum v; _] => (name =? 5) && (v <=? 100)
      | _ => false
      end) (fun v => v <= 100).
Proof.
  intros v. split; [|split].
  - intros dest H. destruct (N.leb_spec v 100); [assumption|]. rewrite andb_false_r in H. discriminate.
  - intros dest H. destruct (N.leb_spec v 100); [assumption|]. rewrite andb_false_r in H. discriminate.
  - intros asset [bb | nn] k H; cbn in H; (destruct (N.leb_spec v 100); [assumption|rewrite andb_false_r in H; discriminate]).
Qed.
(** A transfer within the limit runs and takes what it says. *)
Example ex_within : exists s', ex_transact ex_s (ex_tx 60 [10; 20; 100] 0) = Ok s' /\
  balance (d_led s') ROOT 10 + 60 = balance (d_led ex_s) ROOT 10 /\ balance (d_led s') ROOT 30 = 60.
Proof. eexists. split; [vm_compute; reflexivity|]. vm_compute. auto. Qed.
(** One above it does not. *)
Example ex_above : is_ok (ex_transact ex_s (ex_tx 101 [10; 20; 100] 0)) = false.
Proof. vm_compute. reflexivity. Qed.
(** A run meeting the hypotheses of [C87_once_partial] with two executions. *)
Example ex_two : along ex_step (room 20) (ex_start ++ [OTx (ex_tx 60 [10; 20; 100] 0) 5; OTx (ex_tx 60 [10; 20; 100] 0) 5; OTx (ex_tx 50 [10; 20; 100] 1) 5]) dinit /\
  length (d_log (run ex_step (ex_start ++ [OTx (ex_tx 60 [10; 20; 100] 0) 5; OTx (ex_tx 60 [10; 20; 100] 0) 5; OTx (ex_tx 50 [10; 20; 100] 1) 5]) dinit)) = 2%nat.
Proof.
  split; [|vm_compute; reflexivity]. cbn [along ex_start app]. unfold room.
  repeat match goal with |- _ /\ _ => split | |- True => exact I | |- _ <> _ => discriminate | |- _ < _ => vm_compute; reflexivity end.
Qed.
(** C87 as stated is false: the holder's account is removed (the holder
    received some XRP and spent all of it), its nonce starts again at 0, and the same signed transaction runs a second time. *)
Theorem C87_replay_refuted : exists t, 
  d_log (run ex_step (ex_start ++ [OTx t 5; OTx t 5]) dinit) = [(10, 20, t)] /\
  d_log (run ex_step (ex_start ++ [OTx t 5; OReap 20; OTx t 5]) dinit) = [(10, 20, t); (10, 20, t)].
Proof. exists (ex_tx 60 [10; 20; 100] 0). vm_compute. auto. Qed.
Print Assumptions C87_replay_refuted.

(** C52 as stated is false: a doughnut limited to 100 moves 2^64 + 50 (impls.rs 979). *)
Theorem C52_truncated_refuted : exists s t s' d tp perm,
  ex_transact s t = Ok s' /\ ex_decode (t_payload t) = Some d /\ d_top d = Some tp /\ ex_perm tp = Some perm /\
  limits perm (fun v => v <= 100) /\
  balance (d_led s) ROOT 10 = balance (d_led s') ROOT 10 + (2 ^ 64 + 50).
Proof.
  exists ex_s, (ex_tx (2 ^ 64 + 50) [10; 20; 100] 0). eexists. eexists. eexists. eexists.
  split; [vm_compute; reflexivity|]. split; [reflexivity|]. split; [reflexivity|]. split; [reflexivity|].
  split; [exact ex_limits|]. vm_compute. reflexivity.
Qed.
Print Assumptions C52_truncated_refuted.

(** C53 as stated is false: after the issuer (10) revokes the doughnut, the holder (20) uses it
    with one byte appended; both payloads decode to the same doughnut (lib.rs 481, 596). *)
Theorem C53_trailing_refuted : exists p p' t,
  ex_decode p = ex_decode p' /\ ex_decode p <> None /\ t_payload t = p' /\
  d_log (run ex_step (ex_start ++ [ORevoke 10 p true]) dinit) = [] /\
  is_ok (revoke_doughnut ex_decode ex_hash Some ex_s 10 p true) = true /\
  d_log (run ex_step (ex_start ++ [ORevoke 10 p true; OTx t 5]) dinit) = [(10, 20, t)].
Proof.
  exists [10; 20; 100], [10; 20; 100; 0], (ex_tx 60 [10; 20; 100; 0] 0).
  repeat split; try (vm_compute; reflexivity). discriminate.
Qed.
Print Assumptions C53_trailing_refuted.
(** With the same bytes it does not run, and revoking the holder stops every encoding. *)
Example ex_revoked :
  d_log (run ex_step (ex_start ++ [ORevoke 10 [10; 20; 100] true; OTx (ex_tx 60 [10; 20; 100] 0) 5]) dinit) = [] /\
  d_log (run ex_step (ex_start ++ [ORevokeHolder 10 20 true; OTx (ex_tx 60 [10; 20; 100; 0] 0) 5]) dinit) = [].
Proof. vm_compute. auto. Qed.
