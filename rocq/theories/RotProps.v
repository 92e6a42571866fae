(** C181-C183: the rotation of the bridge's notary keys. *)
From Verif Require Export RotProofs.

(** The runtime's numbers: 75 blocks of delay, 3600 of an epoch, 6 sessions in an era, messages of 3200 bytes. *)
Notation trn_step := (rstep 75 3600 6 3200).
Notation trn_allowed := (allowed 75 3600 3200).
Fixpoint alongb {S O} (step : S -> O -> S) (P : S -> O -> bool) (ops : list O) (s : S) : bool :=
  match ops with [] => true | o :: ops' => P s o && alongb step P ops' (step s o) end.
Lemma alongb_ok {S O} (step : S -> O -> S) (P : S -> O -> bool) ops : forall s, alongb step P ops s = true -> along step (fun s o => P s o = true) ops s.
Proof. induction ops as [|o ops IH]; intros s; cbn; [auto|]. rewrite andb_true_iff. intros [H1 H2]. auto. Qed.
(** A session of [n] blocks more, and what its end brings. *)
Definition session (n : nat) (elect : option keys) (rekey : keys) : list rop := repeat (RBlock None) (pred n) ++ [RBlock (Some (elect, rekey))].
Definition blocks (n : nat) : list rop := repeat (RBlock None) n.

Section props.
  Variables delay epoch per mxd : N.
  Hypothesis Hdelay : 0 < delay.
  Hypothesis Hepoch : 2 * delay < epoch.
  Hypothesis Hfit : 96 <= mxd.
  Notation step := (rstep delay epoch per mxd).
  Notation ok := (fun s o => allowed delay epoch mxd s o = true).

  (** ** C181: the notaries installed are those announced to Ethereum *)
  (** Each set, with its id, was announced before it was installed, and nothing else was announced but, at most, one more
      set that is still to be installed. *)
  Theorem C181_announced g ops : fits mxd g = true -> along step ok ops (rot0 g) ->
    let l := rlog (run step ops (rot0 g)) in
    told l /\ (map what (anns l) = inss l \/ exists a r, anns l = a :: r /\ map what r = inss l).
  Proof.
    intros Hg H. cbv zeta. destruct (Inv_run delay epoch per mxd Hdelay Hepoch Hfit g ops Hg H) as ([_ Ha Hc Hq _ _ _ Ht _] & _). split; [exact Ht|].
    destruct (changed (run step ops (rot0 g))) eqn:C; [right|left; auto]. destruct Ha as [Ea|(ks & _ & _ & _ & l & P & Q)]; [destruct (Hc eq_refl Ea) as (_ & _ & _ & l & P & Q)|]; eauto.
  Qed.
  (** The ids of the installed sets are 1, 2, 3, ..., newest first. *)
  Theorem C181_ids g ops : fits mxd g = true -> along step ok ops (rot0 g) ->
    let s := run step ops (rot0 g) in exists n, map snd (inss (rlog s)) = map (fun k => N.of_nat k mod 2 ^ 64) (List.rev (seq 1 n)) /\ setid s = N.of_nat n mod 2 ^ 64.
  Proof. intros Hg H. destruct (Inv_run delay epoch per mxd Hdelay Hepoch Hfit g ops Hg H) as ([_ _ _ _ _ _ _ _ Hi] & _). exact Hi. Qed.

  (** ** C182: the notaries are the validators of the era *)
  (** Eras that end in their time: whenever the bridge is open its notaries are those who began the era as validators. *)
  Theorem C182_natural g ops : 2 <= per -> fits mxd g = true -> along step (fun s o => allowed delay epoch mxd s o = true /\ natural s o = true) ops (rot0 g) ->
    let s := run step ops (rot0 g) in stopped s = false -> in_charge (rlog s) = (act s, notary s).
  Proof.
    intros Hp Hg H. cbv zeta. intros Hs. destruct (Nat_run delay epoch per mxd Hdelay Hepoch Hfit Hp g ops Hg H) as (([_ Ha _ _ _ Hst _ _ _] & _) & [_ _ _ _ _ F6 F7 _]).
    assert (Ea : agenda (run step ops (rot0 g)) = []) by (destruct Ha as [Ea|(ks & _ & _ & C & _)]; [exact Ea|congruence]). rewrite (F7 Ea), <- F6. apply surjective_pairing.
  Qed.

  (** ** C183: the bridge is closed for the change of notaries for at most [delay] blocks *)
  Theorem C183_pause g ops : fits mxd g = true -> along step ok ops (rot0 g) ->
    let s := run step ops (rot0 g) in stopped s = true -> exists b ks id r, anns (rlog s) = (b, ks, id) :: r /\ b <= now s < b + delay.
  Proof.
    intros Hg H. cbv zeta. intros Hs. destruct (Inv_run delay epoch per mxd Hdelay Hepoch Hfit g ops Hg H) as ([Hn Ha Hc _ _ Hst _ _ _] & Hlt & _).
    destruct Ha as [Ea|(ks & _ & L & _ & l & P & Q)]; [|do 4 eexists; split; [exact P|lia]]. rewrite Hst in Hs. destruct (Hc Hs Ea) as (_ & _ & L & l & P & _). do 4 eexists. split; [exact P|lia].
  Qed.
  (** It is closed whenever a set is announced and not yet installed. *)
  Theorem C183_open g ops : fits mxd g = true -> along step ok ops (rot0 g) ->
    let s := run step ops (rot0 g) in stopped s = false <-> map what (anns (rlog s)) = inss (rlog s).
  Proof.
    intros Hg H. cbv zeta. destruct (Inv_run delay epoch per mxd Hdelay Hepoch Hfit g ops Hg H) as ([Hn Ha Hc Hq _ Hst _ _ _] & _). rewrite Hst. split; [exact Hq|]. intros E.
    destruct (changed (run step ops (rot0 g))) eqn:C; [|reflexivity]. exfalso.
    assert (K : exists a r, anns (rlog (run step ops (rot0 g))) = a :: r /\ map what r = inss (rlog (run step ops (rot0 g)))) by (destruct Ha as [Ea|(ks & _ & _ & _ & l & P & Q)]; [destruct (Hc eq_refl Ea) as (_ & _ & _ & l & P & Q)|]; eauto).
    destruct K as (a & r & K & Q). rewrite K, <- Q in E. apply (f_equal (@length _)) in E. cbn in E. lia.
  Qed.
End props.

(** *** Where they fail *)
(** Ninety-eight validators do not fit the message: they become notaries unannounced, and the change is tried twice. *)
Theorem C181_many_refuted : exists g ops, Forall (fun o => match o with RForce _ => False | _ => True end) ops /\
  inss (rlog (run trn_step ops (rot0 g))) = [(g, 1)] /\ anns (rlog (run trn_step ops (rot0 g))) = [] /\ length g = 98%nat.
Proof.
  set (g := map N.of_nat (seq 1 98)). exists g, (concat (repeat (session 80 (Some g) g) 6) ++ blocks 75). split; [|vm_compute; auto].
  apply Forall_app. split; [|repeat constructor]. repeat (apply Forall_app; split; [apply Forall_app; split; [repeat constructor|repeat constructor]|]). constructor.
Qed.
(** A forced era called off after the announcement, and another one forced: the next set is installed unannounced. *)
Definition withdrawn_ops : list rop :=
  session 80 (Some [1; 2]) [1; 2] ++ [RForce ForceAlways] ++ session 80 (Some [1; 2]) [1; 2] ++ blocks 3526 ++ [RForce NotForcing] ++ session 70 (Some [1; 2]) [1; 3] ++
  [RForce ForceNew] ++ session 80 (Some [4; 5]) [4; 5].
Theorem C181_withdrawn_refuted : exists ks id, List.In (ks, id) (inss (rlog (run trn_step withdrawn_ops (rot0 [1; 2])))) /\ ~ List.In (ks, id) (map what (anns (rlog (run trn_step withdrawn_ops (rot0 [1; 2]))))).
Proof.
  exists [1; 3], 2. assert (E : inss (rlog (run trn_step withdrawn_ops (rot0 [1; 2]))) = [([1; 3], 2); ([1; 2], 1)] /\ map what (anns (rlog (run trn_step withdrawn_ops (rot0 [1; 2])))) = [([1; 2], 2); ([1; 2], 1)]) by (vm_compute; auto).
  destruct E as [-> ->]. split; [left; reflexivity|]. intros [E|[E|[]]]; discriminate E.
Qed.
(** A forced era: the old validators are announced and installed again a session too early, and the new ones not at all;
    the old ones stay notaries until the new era is over. *)
Definition forced_ops : list rop :=
  session 80 (Some [3; 4]) [1; 2] ++ blocks 10 ++ [RForce ForceNew] ++ session 80 (Some [3; 4]) [1; 2] ++ session 80 (Some [5; 6]) [1; 2] ++ concat (repeat (session 80 (Some [5; 6]) [3; 4]) 5) ++ blocks 79.
Theorem C182_forced_refuted : along trn_step (fun s o => trn_allowed s o = true) forced_ops (rot0 [1; 2]) /\
  let s := run trn_step forced_ops (rot0 [1; 2]) in stopped s = false /\ in_charge (rlog s) = (1, [3; 4]) /\ notary s = [1; 2] /\
  List.In (EvSession 3 1 [3; 4]) (rlog s) /\ sess s = 8 /\ now s = since s + 79 /\ inss (rlog s) = [([1; 2], 1)].
Proof. split; [apply alongb_ok; vm_compute; reflexivity|]. vm_compute. repeat split; auto 10. Qed.
(** An election that comes a session late has the same effect. *)
Definition late_ops : list rop := concat (repeat (session 80 (Some [3; 4]) [1; 2]) 4) ++ session 80 None [1; 2] ++ session 80 (Some [3; 4]) [1; 2] ++ session 80 (Some [5; 6]) [1; 2] ++ concat (repeat (session 80 (Some [5; 6]) [3; 4]) 5) ++ blocks 79.
Theorem C182_late_refuted : along trn_step (fun s o => trn_allowed s o = true) late_ops (rot0 [1; 2]) /\
  let s := run trn_step late_ops (rot0 [1; 2]) in stopped s = false /\ in_charge (rlog s) = (1, [3; 4]) /\ notary s = [1; 2].
Proof. split; [apply alongb_ok; vm_compute; reflexivity|]. vm_compute. auto. Qed.
(** A forced era called off after the announcement: the bridge stays closed for the rest of the era. *)
Definition stuck_ops : list rop :=
  session 80 (Some [1; 2]) [1; 2] ++ [RForce ForceAlways] ++ session 80 (Some [1; 2]) [1; 2] ++ blocks 3526 ++ [RForce NotForcing] ++ session 70 (Some [1; 2]) [1; 2] ++ concat (repeat (session 3600 (Some [1; 2]) [1; 2]) 4).
Theorem C183_stuck_refuted : let s := run trn_step stuck_ops (rot0 [1; 2]) in
  stopped s = true /\ exists b ks id r, anns (rlog s) = (b, ks, id) :: r /\ b + 4 * 3600 < now s.
Proof. vm_compute. split; [reflexivity|]. do 4 eexists. split; [reflexivity|]. reflexivity. Qed.

(** *** A history that meets the hypotheses: two eras, the first one's end announced in time, the second's at its end *)
Definition calm_ops : list rop := concat (repeat (session 80 (Some [3; 4]) [1; 2]) 5) ++ session 3600 (Some [3; 4]) [1; 2] ++ concat (repeat (session 80 (Some [5; 6]) [3; 4]) 6) ++ blocks 20.
Example C181_example : alongb trn_step (fun s o => trn_allowed s o && natural s o) calm_ops (rot0 [1; 2]) = true /\ let s := run trn_step calm_ops (rot0 [1; 2]) in
  anns (rlog s) = [(4480, [5; 6], 2); (3925, [3; 4], 1)] /\ inss (rlog s) = [([3; 4], 1)] /\ stopped s = true /\ now s = 4500 /\
  let t := run trn_step (blocks 55) s in stopped t = false /\ notary t = [5; 6] /\ in_charge (rlog t) = (2, [5; 6]).
Proof. vm_compute. auto 10. Qed.
Example C182_example : 2 <= 6 /\ fits 3200 [1; 2] = true /\ along trn_step (fun s o => trn_allowed s o = true /\ natural s o = true) calm_ops (rot0 [1; 2]).
Proof.
  split; [lia|]. split; [reflexivity|]. eapply along_impl; [|apply (alongb_ok _ (fun s o => trn_allowed s o && natural s o)); vm_compute; reflexivity]. intros s o H. apply andb_true_iff in H. exact H.
Qed.

Definition rot_theorems := (C181_announced, C181_ids, C181_many_refuted, C181_withdrawn_refuted, C182_natural, C182_forced_refuted, C182_late_refuted, C183_pause, C183_open, C183_stuck_refuted).
Print Assumptions rot_theorems.
