(** C42, C43, C78, C79, C80: theorems about futurepasses. *)
From Verif Require Import FpassModel FpassProofs.

(** * What an operation does, and as whom *)
Section effects.
  Variable maxp : N.
  (** The accounts a signer may act as: itself and those that gave it owner-level rights. *)
  Definition acts (s : fps) (who a : N) : Prop := a = who \/ In (who, TOwner) (defs s a).
  (** The registration an operation asks for: the delegate and whether the delegate signed. *)
  Fixpoint creg (c : fcall) : option (N * bool) :=
    match c with CRegister _ d _ sg => Some (d, sg) | CProxyExt _ c' => creg c' | CProxy _ _ c' => creg c' | _ => None end.
  Fixpoint ereg (x : esub) : option (N * bool) :=
    match x with SReg d _ sg => Some (d, sg) | SProxy _ _ y => ereg y | _ => None end.
  Definition oreg (o : fop) : option (N * bool) := match o with FExt _ _ c => creg c | FEvm _ _ _ _ x => ereg x end.
  Inductive effect (s : fps) (rg : option (N * bool)) (a : N) (s' : fps) : Prop :=
  | E_same : s' = s -> effect s rg a s'
  | E_create pay account : create maxp pay s account = Ok s' -> effect s rg a s'
  | E_reg pay f d t sg : rg = Some (d, sg) -> register maxp pay sg s a f d t = Ok s' -> effect s rg a s'
  | E_unreg pay f d : unregister pay s a f d = Ok s' -> effect s rg a s'
  | E_transfer pay cur new : transfer_fp maxp pay s a cur new = Ok s' -> effect s rg a s'
  | E_own : is_fp a = false -> hold s' = hold s -> born s' = born s -> (forall g, g <> a -> defs s' g = defs s g) -> effect s rg a s'.

  Lemma leaf_effect pay s who t c s' : dispatch maxp pay s who (Some t) c = Ok s' -> t = TOwner \/ s' = s.
  Proof.
    destruct c; cbn [dispatch allows ensure rbind]; try discriminate;
      try (destruct (bool_decide_reflect (t = TOwner)) as [->|]; cbn [ensure rbind]; [intros _; left; reflexivity|discriminate]).
    destruct (_ || _); cbn [ensure rbind]; [|discriminate]. intros [= <-]. right. reflexivity.
  Qed.
  Lemma leaf_effect2 pay s who c s' t : dispatch maxp pay s who (Some t) c = Ok s' -> effect s (creg c) who s'.
  Proof.
    destruct c; cbn [dispatch]; (destruct (allows t _) eqn:Ea; cbn [ensure rbind]; [|discriminate]); try discriminate.
    - intros H. exact (E_reg _ _ _ _ _ _ _ _ _ eq_refl H).
    - intros H. exact (E_unreg _ _ _ _ _ _ _ H).
    - intros H. exact (E_transfer _ _ _ _ _ _ _ H).
    - intros [= <-]. apply E_same. reflexivity.
  Qed.
  Lemma via_effect pay s who real force c s' :
    (do! d <- of_opt (find_def who force (defs s real)) 13; Ok (commit s (dispatch maxp pay s real (Some (snd d)) c))) = Ok s' ->
    exists a, acts s who a /\ effect s (creg c) a s'.
  Proof.
    destruct (find_def who force (defs s real)) as [d|] eqn:Ed; cbn [of_opt rbind]; [|discriminate]. apply FpassProofs.find_some in Ed. destruct Ed as (E1 & E2 & _).
    intros [= <-]. destruct (dispatch maxp pay s real (Some (snd d)) c) as [s1|] eqn:E; cbn [commit].
    - destruct (leaf_effect _ _ _ _ _ _ E) as [Ho|Hs]; [|exists who; split; [now left|apply E_same, Hs]].
      exists real. split; [right|exact (leaf_effect2 _ _ _ _ _ _ E)]. destruct d as [x t]. cbn in *. subst. exact E1.
    - exists who. split; [now left|apply E_same; reflexivity].
  Qed.
  Lemma dispatch_effect pay s who c s' : is_fp who = false -> dispatch maxp pay s who None c = Ok s' -> exists a, acts s who a /\ effect s (creg c) a s'.
  Proof.
    intros Hf H. destruct c as [account|f d t signed|f d|cur new|f c'|real force c'|d t|d t| |]; cbn [dispatch ensure rbind] in H.
    - exists who. split; [now left|exact (E_create _ _ _ _ _ _ H)].
    - exists who. split; [now left|exact (E_reg _ _ _ _ _ _ _ _ _ eq_refl H)].
    - exists who. split; [now left|exact (E_unreg _ _ _ _ _ _ _ H)].
    - exists who. split; [now left|exact (E_transfer _ _ _ _ _ _ _ H)].
    - apply (via_effect pay s who f None c' s'). destruct c'; try exact H; (destruct (holds s who f); cbn [ensure rbind] in H; [exact H|discriminate]).
    - exact (via_effect _ _ _ _ _ _ _ H).
    - exists who. split; [now left|]. destruct pay; cbn [ensure rbind] in H; [|discriminate].
      destruct (add_def_ok _ _ _ _ _ _ H) as (A1 & A2 & A3 & A4 & A5 & A6). apply E_own; try assumption.
      intros g Hg. rewrite A6. destruct (N.eqb_spec who g); [congruence|reflexivity].
    - exists who. split; [now left|]. destruct (has_def (d, t) (defs s who)); cbn [ensure rbind] in H; [|discriminate]. injection H as <-. apply E_own; try reflexivity; [exact Hf|].
      intros g Hg. rewrite defs_set. destruct (N.eqb_spec who g); [congruence|reflexivity].
    - exists who. split; [now left|]. injection H as <-. apply E_own; try reflexivity; [exact Hf|].
      intros g Hg. unfold defs. cbn [prox]. rewrite lookup_delete_ne by congruence. reflexivity.
    - exists who. split; [now left|]. injection H as <-. apply E_same. reflexivity.
  Qed.
  Lemma evm_direct pay reg s caller target x s' : (forall ct to y, x <> SProxy ct to y) -> evm maxp pay reg s caller target x = Ok s' -> effect s (ereg x) caller s'.
  Proof.
    intros Hx H. destruct x; cbn [evm] in H; (destruct (is_fp target) eqn:Ef; cbn [negb] in H; [|injection H as <-; apply E_same; reflexivity]).
    - exact (E_reg _ _ _ _ _ _ _ _ _ eq_refl H).
    - exact (E_unreg _ _ _ _ _ _ _ H).
    - exact (E_transfer _ _ _ _ _ _ _ H).
    - exact (E_transfer _ _ _ _ _ _ _ H).
    - destruct (Hx _ _ _ eq_refl).
    - injection H as <-. apply E_same. reflexivity.
    - injection H as <-. apply E_same. reflexivity.
  Qed.
  Lemma evm_effect pay reg s caller target x s' : FI s -> evm maxp pay reg s caller target x = Ok s' -> exists a, acts s caller a /\ effect s (ereg x) a s'.
  Proof.
    intros HI H. destruct x as [d t signed|d|n| |ct to data| |];
      try (exists caller; split; [now left|eapply evm_direct; [|exact H]; intros ? ? ?; discriminate]).
    cbn [evm] in H. destruct (is_fp target) eqn:Ef; cbn [negb] in H; [|exists caller; split; [now left|injection H as <-; apply E_same; reflexivity]].
    destruct (ct <? 5); cbn [ensure rbind] in H; [|discriminate]. destruct (negb (is_fp to && _)) eqn:E1; cbn [ensure rbind] in H; [|discriminate].
    destruct (negb (is_fp to && listed_sel data) || holds s caller target) eqn:E2; cbn [ensure rbind] in H; [|discriminate].
    destruct (find_def caller None (defs s target)) as [d|] eqn:Ed; cbn [of_opt rbind] in H; [|discriminate].
    destruct (negb (((to =? reg) || is_fp to) && _)) eqn:E3; cbn [ensure rbind] in H; [|discriminate].
    destruct (if (to =? reg) || is_fp to then listed_sel data else _) eqn:E4; cbn [ensure rbind] in H; [|discriminate].
    destruct (negb (ct =? 2)); cbn [ensure rbind] in H; [|discriminate].
    assert (Hsame : s' = s -> exists a, acts s caller a /\ effect s (ereg (SProxy ct to data)) a s') by (intros ->; exists caller; split; [now left|apply E_same; reflexivity]).
    destruct (ct <? 2); [|injection H as <-; apply Hsame; reflexivity].
    destruct (is_fp to) eqn:Et.
    - rewrite orb_true_r in E4. rewrite E4 in E2. cbn [andb negb orb] in E2. unfold holds in E2. apply bool_decide_eq_true in E2.
      exists target. split; [right; apply (i_own _ HI), E2|]. cbn [ereg]. eapply evm_direct; [|exact H]. intros ct2 to2 y ->. discriminate.
    - apply Hsame. destruct data; cbn [evm] in H; rewrite Et in H; cbn [negb] in H; injection H as <-; reflexivity.
  Qed.
  Lemma fexec_effect s o s' : FI s -> is_fp (signer o) = false -> fexec maxp s o = Ok s' -> exists a, acts s (signer o) a /\ effect s (oreg o) a s'.
  Proof.
    intros HI Hf H. destruct o as [pay who c|pay reg caller target x]; cbn [fexec signer oreg] in *; [exact (dispatch_effect _ _ _ _ _ Hf H)|exact (evm_effect _ _ _ _ _ _ _ HI H)].
  Qed.

  (** ** A futurepass has an owner, or no delegates at all *)
  Definition owned (s : fps) (f : N) : Prop := exists a, hold s !! a = Some f.
  Definition alive (s : fps) : Prop := forall f, In f (born s) -> owned s f \/ defs s f = [].
  (** Holders and definitions of a futurepass across one operation. *)
  Lemma fstep_alive s o : fine s o -> FI s /\ alive s -> FI (fstep maxp s o) /\ alive (fstep maxp s o).
  Proof.
    intros Hfine [HI Hal]. split; [exact (fstep_FI maxp s o Hfine HI)|]. destruct Hfine as [Hf Hn]. unfold fstep. apply (commit_inv alive); [exact Hal|].
    intros s' H. destruct (fexec_effect _ _ _ HI Hf H) as (a & Hact & He).
    assert (Hnot : forall x, In x (defs s a) -> In a (born s) -> owned s a) by (intros x Hx Hb; destruct (Hal a Hb) as [Hh|E]; [exact Hh|rewrite E in Hx; destruct Hx]).
    destruct He as [->|pay account Hc|pay f d t sg Hr Hc|pay f d Hc|pay cur new Hc|E0 E1 E3 E4]; [exact Hal|intros g Hg ..].
    - destruct (create_ok _ _ _ _ _ Hc) as (C1 & E1 & E2 & E3 & C2 & E4). rewrite E3 in Hg. unfold owned. rewrite E1, E4. destruct Hg as [<-|Hg].
      + left. exists account. apply lookup_insert.
      + destruct (N.eqb_spec (faddr (nextf s)) g) as [<-|Hne]; [left; exists account; apply lookup_insert|]. destruct (Hal g Hg) as [[b Hb]|E]; [left; exists b|right; exact E].
        rewrite lookup_insert_ne; [exact Hb|congruence].
    - destruct (register_ok _ _ _ _ _ _ _ _ _ Hc) as (R1 & R2 & R3 & R4 & E1 & E2 & E3 & E4). rewrite E3 in Hg. unfold owned. rewrite E1, E4.
      destruct (N.eqb_spec f g) as [->|Hne]; [|exact (Hal g Hg)]. left. destruct R1 as [->|R1]; [|exists a; exact R1].
      destruct Hact as [->|Hact]; [rewrite (born_fp _ _ HI Hg) in Hf; discriminate|]. exact (Hnot _ Hact Hg).
    - destruct (unregister_ok _ _ _ _ _ _ Hc) as (U1 & _ & x & U2 & U3 & E1 & E2 & E3 & E4). rewrite E3 in Hg. unfold owned. rewrite E1, E4.
      destruct (N.eqb_spec f g) as [->|Hne]; [|exact (Hal g Hg)]. left. destruct (Hal g Hg) as [Hh|E]; [exact Hh|rewrite E in U2; destruct U2].
    - destruct (transfer_ok _ _ _ _ _ _ _ (i_nd _ HI _) Hc) as (f & T1 & T2 & E2 & E3 & T3 & T4). rewrite E3 in Hg. destruct (N.eq_dec g f) as [->|Hne].
      + destruct new as [n|]; [left; exists n|right; exact (proj2 T4)]. destruct T4 as (_ & -> & _). apply lookup_insert.
      + rewrite (T3 g Hne). destruct (Hal g Hg) as [[b Hb]|E]; [left; exists b|right; exact E]. assert (Hbc : b <> cur) by congruence.
        destruct new as [n|]; [destruct T4 as (N1 & -> & _)|destruct T4 as (-> & _)].
        * assert (b <> n) by (intros ->; destruct N1; congruence). rewrite lookup_insert_ne, lookup_delete_ne by congruence. exact Hb.
        * rewrite lookup_delete_ne by congruence. exact Hb.
    - rewrite E3 in Hg. unfold owned. rewrite E1. assert (Hga : g <> a) by (intros ->; rewrite (born_fp _ _ HI Hg) in E0; discriminate). rewrite (E4 g Hga). exact (Hal g Hg).
  Qed.
  Lemma frun_inv ops : along (fstep maxp) fine ops finit -> FI (run (fstep maxp) ops finit) /\ alive (run (fstep maxp) ops finit).
  Proof.
    intros H. apply (run_along (fstep maxp) fine (fun s => FI s /\ alive s) fstep_alive); [exact H|]. split; [exact finit_FI|]. intros f [].
  Qed.
End effects.

Section props.
  Variable maxp : N.
  Notation frun ops := (run (fstep maxp) ops finit).
  Notation fpast ops := (along (fstep maxp) fine ops finit).

  (** * C42 *)
  (** Owners and futurepasses correspond one to one; a created futurepass without owner has no delegates either. *)
  Theorem C42_one_owner ops : fpast ops -> let s := frun ops in
    (forall a f g, hold s !! a = Some f -> hold s !! a = Some g -> f = g) /\
    (forall a b f, hold s !! a = Some f -> hold s !! b = Some f -> a = b) /\
    (forall f, In f (born s) -> (exists a, hold s !! a = Some f) \/ defs s f = []) /\
    (forall a f, hold s !! a = Some f -> In f (born s)).
  Proof.
    intros H s. destruct (frun_inv maxp ops H) as [HI Hal]. split; [intros a f g H1 H2; congruence|]. split; [exact (i_one _ HI)|]. split; [exact Hal|]. intros a f Ha. apply (i_own _ HI _ _ Ha).
  Qed.
  (** The owner, and nobody else, is an owner-level delegate. *)
  Theorem C42_owner_level ops : fpast ops -> forall a f, In f (born (frun ops)) ->
    (hold (frun ops) !! a = Some f <-> In (a, TOwner) (defs (frun ops) f)).
  Proof.
    intros H a f Hb. pose proof (frun_FI maxp ops H) as HI. split; [intros Ha; apply (i_own _ HI _ _ Ha)|intros Ha; apply (i_only _ HI); [exact (born_fp _ _ HI Hb)|exact Ha]].
  Qed.
  (** Whenever an operation makes somebody the owner of a futurepass, they are its only delegate. *)
  Theorem C42_new_owner_alone ops o : fpast (ops ++ [o]) -> forall n f,
    hold (frun ops) !! n <> Some f -> hold (frun (ops ++ [o])) !! n = Some f ->
    forall d t, In (d, t) (defs (frun (ops ++ [o])) f) -> d = n.
  Proof.
    intros H n f Hn Hn' d t Hd. apply along_app in H. destruct H as [H [Hfine _]]. pose proof (frun_FI maxp ops H) as HI. rewrite run_app in Hn', Hd. cbn [run fold_left] in Hn', Hd.
    set (s := frun ops) in *. unfold fstep in Hn', Hd. destruct (fexec maxp s o) as [s'|] eqn:E; cbn [commit] in *; [|contradiction]. destruct Hfine as [Hf Hroom].
    destruct (fexec_effect maxp _ _ _ HI Hf E) as (a & Hact & [->|pay account Hc|pay g e u sg Hr Hc|pay g e Hc|pay cur new Hc|E0 E1 E3 E4]); [contradiction|..].
    - destruct (create_ok _ _ _ _ _ Hc) as (C1 & E1 & E2 & E3 & C2 & E4). rewrite E1 in Hn'. apply lookup_insert_Some in Hn'. destruct Hn' as [[<- <-]|[_ Hn']]; [|contradiction].
      rewrite E4, N.eqb_refl, (i_empty _ HI _ (faddr_fp _) (fresh_fp _ HI Hroom)) in Hd. cbn in Hd. destruct Hd as [Hd|[]]. congruence.
    - destruct (register_ok _ _ _ _ _ _ _ _ _ Hc) as (_ & _ & _ & _ & E1 & _). rewrite E1 in Hn'. contradiction.
    - destruct (unregister_ok _ _ _ _ _ _ Hc) as (_ & _ & x & _ & _ & E1 & _). rewrite E1 in Hn'. contradiction.
    - destruct (transfer_ok _ _ _ _ _ _ _ (i_nd _ HI _) Hc) as (g & T1 & T2 & E2 & E3 & T3 & T4). destruct new as [m|].
      + destruct T4 as (N1 & E1 & N2 & N3 & N4 & N5). rewrite E1 in Hn'. apply lookup_insert_Some in Hn'. destruct Hn' as [[<- <-]|[_ Hn']]; [exact (proj1 (N4 _ Hd))|].
        apply lookup_delete_Some in Hn'. destruct Hn' as [_ Hn']. contradiction.
      + destruct T4 as (E1 & _). rewrite E1 in Hn'. apply lookup_delete_Some in Hn'. destruct Hn' as [_ Hn']. contradiction.
    - rewrite E1 in Hn'. contradiction.
  Qed.
  (** A renounced futurepass stays without owner and without delegates for ever. *)
  Theorem C42_renounced ops more : fpast (ops ++ more) -> forall f, In f (born (frun ops)) -> (forall a, hold (frun ops) !! a <> Some f) ->
    (forall a, hold (frun (ops ++ more)) !! a <> Some f) /\ defs (frun (ops ++ more)) f = [].
  Proof.
    intros H f Hb Hno. apply along_app in H. destruct H as [H Hm]. destruct (frun_inv maxp ops H) as [HI Hal]. rewrite run_app. set (s := frun ops) in *. clearbody s.
    assert (HP : (FI s /\ alive s) /\ In f (born s) /\ forall a, hold s !! a <> Some f) by (split; [split; assumption|split; assumption]).
    pose proof (run_along (fstep maxp) fine (fun s => (FI s /\ alive s) /\ In f (born s) /\ forall a, hold s !! a <> Some f)) as R.
    assert (Hend : (FI (run (fstep maxp) more s) /\ alive (run (fstep maxp) more s)) /\ In f (born (run (fstep maxp) more s)) /\ forall a, hold (run (fstep maxp) more s) !! a <> Some f).
    { apply R; [|exact Hm|exact HP]. clear s H Hm HI Hal Hb Hno HP R. intros s o Hfine ([HI Hal] & Hb & Hno). split; [exact (fstep_alive maxp s o Hfine (conj HI Hal))|]. destruct Hfine as [Hf Hroom].
      unfold fstep. destruct (fexec maxp s o) as [s'|] eqn:E; cbn [commit]; [|split; assumption].
      destruct (fexec_effect maxp _ _ _ HI Hf E) as (a & Hact & [->|pay account Hc|pay g e u sg Hr Hc|pay g e Hc|pay cur new Hc|E0 E1 E3 E4]); [split; assumption|..].
      - destruct (create_ok _ _ _ _ _ Hc) as (C1 & E1 & E2 & E3 & C2 & E4). rewrite E3. split; [right; exact Hb|]. intros b. rewrite E1, lookup_insert_Some. intros [[_ <-]|[_ Hx]]; [exact (fresh_fp _ HI Hroom Hb)|exact (Hno _ Hx)].
      - destruct (register_ok _ _ _ _ _ _ _ _ _ Hc) as (_ & _ & _ & _ & E1 & _ & E3 & _). rewrite E1, E3. split; assumption.
      - destruct (unregister_ok _ _ _ _ _ _ Hc) as (_ & _ & x & _ & _ & E1 & _ & E3 & _). rewrite E1, E3. split; assumption.
      - destruct (transfer_ok _ _ _ _ _ _ _ (i_nd _ HI _) Hc) as (g & T1 & T2 & E2 & E3 & T3 & T4). rewrite E3. split; [exact Hb|]. intros b. assert (Hgf : g <> f) by (intros ->; exact (Hno _ T1)).
        destruct new as [m|]; [destruct T4 as (N1 & -> & _); rewrite lookup_insert_Some, lookup_delete_Some; intros [[_ Hx]|[_ [_ Hx]]]; [contradiction|exact (Hno _ Hx)]|].
        destruct T4 as (-> & _). rewrite lookup_delete_Some. intros [_ Hx]. exact (Hno _ Hx).
      - rewrite E1, E3. split; assumption. }
    destruct Hend as ([HI' Hal'] & Hb' & Hno'). split; [exact Hno'|]. destruct (Hal' f Hb') as [[a Ha]|E]; [destruct (Hno' _ Ha)|exact E].
  Qed.

  (** * C43 *)
  Theorem C43_unique ops : fpast ops -> NoDup (born (frun ops)).
  Proof.
    intros H. assert (HP : FI (frun ops) /\ NoDup (born (frun ops))); [|exact (proj2 HP)].
    apply (run_along (fstep maxp) fine (fun s => FI s /\ NoDup (born s))); [|exact H|split; [exact finit_FI|constructor]].
    intros s o Hfine [HI Hnd]. split; [exact (fstep_FI maxp s o Hfine HI)|]. destruct Hfine as [Hf Hroom]. unfold fstep. destruct (fexec maxp s o) as [s'|] eqn:E; cbn [commit]; [|exact Hnd].
    destruct (fexec_effect maxp _ _ _ HI Hf E) as (a & Hact & [->|pay account Hc|pay g e u sg Hr Hc|pay g e Hc|pay cur new Hc|E0 E1 E3 E4]); [exact Hnd|..].
    - destruct (create_ok _ _ _ _ _ Hc) as (C1 & E1 & E2 & E3 & C2 & E4). rewrite E3. apply NoDup_cons. split; [|exact Hnd]. intros Hi. apply elem_of_list_In in Hi. exact (fresh_fp _ HI Hroom Hi).
    - destruct (register_ok _ _ _ _ _ _ _ _ _ Hc) as (_ & _ & _ & _ & _ & _ & E3 & _). rewrite E3. exact Hnd.
    - destruct (unregister_ok _ _ _ _ _ _ Hc) as (_ & _ & x & _ & _ & _ & _ & E3 & _). rewrite E3. exact Hnd.
    - destruct (transfer_ok _ _ _ _ _ _ _ (i_nd _ HI _) Hc) as (g & _ & _ & _ & E3 & _). rewrite E3. exact Hnd.
    - rewrite E3. exact Hnd.
  Qed.
  (** Read as 20 bytes, the address starts with ff ff ff ff; and the byte strings of different ids differ. *)
  Theorem C43_prefix ops : fpast ops -> forall f, In f (born (frun ops)) ->
    exists id, id < 2 ^ 128 /\ f = of_be (fp_bytes id) /\ length (fp_bytes id) = 20%nat /\ take 4 (fp_bytes id) = [255; 255; 255; 255].
  Proof.
    intros H f Hf. pose proof (frun_FI maxp ops H) as HI. rewrite (i_born _ HI) in Hf. apply in_rev, in_map_iff in Hf. destruct Hf as (i & <- & _).
    exists ((1 + N.of_nat i) mod 2 ^ 128). split; [apply N.mod_lt, N.pow_nonzero; discriminate|]. split; [reflexivity|]. split; [|reflexivity].
    unfold fp_bytes. rewrite app_length, be_bytes_length. reflexivity.
  Qed.
  Theorem C43_bytes i j : i < 2 ^ 128 -> j < 2 ^ 128 -> fp_bytes i = fp_bytes j -> i = j.
  Proof. intros Hi Hj E. apply faddr_inj; [assumption..|]. unfold faddr. rewrite E. reflexivity. Qed.

  (** * C79: only the owner changes a futurepass *)
  (** Who may act for the owner of [f]: the owner, and whoever the owner's own account made an owner-level proxy. *)
  Definition for_owner (s : fps) (who f : N) : Prop := exists b, hold s !! b = Some f /\ (who = b \/ In (who, TOwner) (defs s b)).
  Lemma actor_owner s who a f : FI s -> is_fp who = false -> is_fp f = true -> acts s who a -> a = f \/ hold s !! a = Some f -> for_owner s who f.
  Proof.
    intros HI Hw Hf Hact [->|Ha].
    - destruct Hact as [->|Hact]; [congruence|]. exists who. split; [exact (i_only _ HI _ _ Hf Hact)|now left].
    - exists a. split; [exact Ha|]. destruct Hact as [->|Hact]; [now left|now right].
  Qed.
  Theorem C79_owner_leaves ops o : fpast (ops ++ [o]) -> forall b f,
    hold (frun ops) !! b = Some f -> hold (frun (ops ++ [o])) !! b <> Some f -> for_owner (frun ops) (signer o) f.
  Proof.
    intros H b f Hb Hb'. apply along_app in H. destruct H as [H [[Hf Hroom] _]]. pose proof (frun_FI maxp ops H) as HI. rewrite run_app in Hb'. cbn [run fold_left] in Hb'.
    set (s := frun ops) in *. unfold fstep in Hb'. destruct (fexec maxp s o) as [s'|] eqn:E; cbn [commit] in *; [|contradiction].
    destruct (fexec_effect maxp _ _ _ HI Hf E) as (a & Hact & [->|pay account Hc|pay g e u sg Hr Hc|pay g e Hc|pay cur new Hc|E0 E1 E3 E4]); [contradiction|..].
    - destruct (create_ok _ _ _ _ _ Hc) as (C1 & E1 & _). rewrite E1 in Hb'. exfalso. apply Hb'. rewrite lookup_insert_ne; [exact Hb|congruence].
    - destruct (register_ok _ _ _ _ _ _ _ _ _ Hc) as (_ & _ & _ & _ & E1 & _). rewrite E1 in Hb'. contradiction.
    - destruct (unregister_ok _ _ _ _ _ _ Hc) as (_ & _ & x & _ & _ & E1 & _). rewrite E1 in Hb'. contradiction.
    - destruct (transfer_ok _ _ _ _ _ _ _ (i_nd _ HI _) Hc) as (g & T1 & T2 & E2 & E3 & T3 & T4).
      assert (Hbc : b = cur). { destruct (N.eq_dec b cur) as [->|Hne]; [reflexivity|]. exfalso. apply Hb'. destruct new as [m|]; [destruct T4 as (N1 & -> & _)|destruct T4 as (-> & _)].
        - assert (m <> b) by (intros ->; destruct N1; congruence). rewrite lookup_insert_ne, lookup_delete_ne by congruence. exact Hb.
        - rewrite lookup_delete_ne by congruence. exact Hb. }
      subst b. rewrite T1 in Hb. injection Hb as ->. apply (actor_owner s (signer o) a f HI Hf); [apply (born_fp _ _ HI), (i_own _ HI _ _ T1)|exact Hact|]. destruct T2 as [-> | ->]; [right; exact T1|left; reflexivity].
    - rewrite E1 in Hb'. contradiction.
  Qed.
  (** New delegates: by the owner; an ordinary delegate only with their own signature. *)
  Theorem C79_delegate_added ops o : fpast (ops ++ [o]) -> forall f d t, In f (born (frun ops)) ->
    ~ In (d, t) (defs (frun ops) f) -> In (d, t) (defs (frun (ops ++ [o])) f) ->
    for_owner (frun ops) (signer o) f /\
    (t = TOwner \/ t = TAny /\ oreg o = Some (d, true) /\ (forall u, ~ In (d, u) (defs (frun ops) f))).
  Proof.
    intros H f d t Hb Hn Hn'. apply along_app in H. destruct H as [H [[Hf Hroom] _]]. pose proof (frun_FI maxp ops H) as HI. rewrite run_app in Hn'. cbn [run fold_left] in Hn'.
    set (s := frun ops) in *. unfold fstep in Hn'. destruct (fexec maxp s o) as [s'|] eqn:E; cbn [commit] in *; [|contradiction]. pose proof (born_fp _ _ HI Hb) as Hfp.
    destruct (fexec_effect maxp _ _ _ HI Hf E) as (a & Hact & [->|pay account Hc|pay g e u sg Hr Hc|pay g e Hc|pay cur new Hc|E0 E1 E3 E4]); [contradiction|..].
    - destruct (create_ok _ _ _ _ _ Hc) as (C1 & E1 & E2 & E3 & C2 & E4). rewrite E4 in Hn'. destruct (N.eqb_spec (faddr (nextf s)) f) as [<-|]; [destruct (fresh_fp _ HI Hroom Hb)|contradiction].
    - destruct (register_ok _ _ _ _ _ _ _ _ _ Hc) as (R1 & R2 & R3 & R4 & E1 & E2 & E3 & E4). rewrite E4 in Hn'. destruct (N.eqb_spec g f) as [->|]; [|contradiction].
      apply insert_in in Hn'. destruct Hn' as [Hn2|Hn2]; [injection Hn2 as -> ->|contradiction]. split; [apply (actor_owner s (signer o) a f HI Hf Hfp Hact R1)|right]. subst sg. split; [reflexivity|]. split; [exact Hr|exact R3].
    - destruct (unregister_ok _ _ _ _ _ _ Hc) as (_ & _ & x & _ & _ & _ & _ & _ & E4). rewrite E4 in Hn'. destruct (g =? f) eqn:Eg; [|contradiction]. apply N.eqb_eq in Eg. subst g. apply remove_sub in Hn'. contradiction.
    - destruct (transfer_ok _ _ _ _ _ _ _ (i_nd _ HI _) Hc) as (g & T1 & T2 & E2 & E3 & T3 & T4). destruct (N.eq_dec f g) as [->|Hne]; [|rewrite (T3 f Hne) in Hn'; contradiction].
      destruct new as [m|]; [|destruct T4 as (_ & E5); rewrite E5 in Hn'; destruct Hn']. destruct T4 as (N1 & E1 & N2 & N3 & N4 & N5). destruct (N4 _ Hn') as [_ [Hi|Hi]]; [injection Hi as -> ->|contradiction].
      split; [|now left]. apply (actor_owner s (signer o) a g HI Hf Hfp Hact). destruct T2 as [-> | ->]; [right; exact T1|left; reflexivity].
    - rewrite E4 in Hn' by congruence. contradiction.
  Qed.
  (** A delegate is removed by the owner, or leaves by itself. *)
  Theorem C79_delegate_removed ops o : fpast (ops ++ [o]) -> forall f d t, In f (born (frun ops)) ->
    In (d, t) (defs (frun ops) f) -> ~ In (d, t) (defs (frun (ops ++ [o])) f) ->
    for_owner (frun ops) (signer o) f \/ signer o = d \/ In (signer o, TOwner) (defs (frun ops) d).
  Proof.
    intros H f d t Hb Hn Hn'. apply along_app in H. destruct H as [H [[Hf Hroom] _]]. pose proof (frun_FI maxp ops H) as HI. rewrite run_app in Hn'. cbn [run fold_left] in Hn'.
    set (s := frun ops) in *. unfold fstep in Hn'. destruct (fexec maxp s o) as [s'|] eqn:E; cbn [commit] in *; [|contradiction]. pose proof (born_fp _ _ HI Hb) as Hfp.
    destruct (fexec_effect maxp _ _ _ HI Hf E) as (a & Hact & [->|pay account Hc|pay g e u sg Hr Hc|pay g e Hc|pay cur new Hc|E0 E1 E3 E4]); [contradiction|..].
    - destruct (create_ok _ _ _ _ _ Hc) as (C1 & E1 & E2 & E3 & C2 & E4). rewrite E4 in Hn'. destruct (N.eqb_spec (faddr (nextf s)) f) as [<-|]; [destruct (fresh_fp _ HI Hroom Hb)|contradiction].
    - destruct (register_ok _ _ _ _ _ _ _ _ _ Hc) as (R1 & R2 & R3 & R4 & E1 & E2 & E3 & E4). rewrite E4 in Hn'. destruct (N.eqb_spec g f) as [->|]; [|contradiction]. exfalso. apply Hn', insert_in. now right.
    - destruct (unregister_ok _ _ _ _ _ _ Hc) as (_ & U & x & U2 & U3 & _ & _ & _ & E4). rewrite E4 in Hn'. destruct (N.eqb_spec g f) as [->|]; [|contradiction].
      destruct U as [U|[U|U]]; [left; apply (actor_owner s (signer o) a f HI Hf Hfp Hact); now right|left; apply (actor_owner s (signer o) a f HI Hf Hfp Hact); now left|].
      right. assert (Hx : (d, t) = x). { destruct (decide ((d, t) = x)) as [Ex|Ex]; [exact Ex|]. destruct (Hn' (remove_keep _ _ _ Hn Ex)). } subst x. cbn in U3. subst.
      destruct Hact as [->|Hact]; [left; reflexivity|right; exact Hact].
    - destruct (transfer_ok _ _ _ _ _ _ _ (i_nd _ HI _) Hc) as (g & T1 & T2 & E2 & E3 & T3 & T4). destruct (N.eq_dec f g) as [->|Hne]; [|rewrite (T3 f Hne) in Hn'; contradiction].
      left. apply (actor_owner s (signer o) a g HI Hf Hfp Hact). destruct T2 as [-> | ->]; [right; exact T1|left; reflexivity].
    - rewrite E4 in Hn' by congruence. contradiction.
  Qed.

  (** * C80: an owner can hand the futurepass over *)
  Lemma remove_others_total f n l : forall s, (forall d, d <> n -> (cnt d l <= cnt d (defs s f))%nat) -> exists s', remove_others true s f n l = Ok s'.
  Proof.
    induction l as [|y r IH]; intros s Hc; cbn [remove_others]; [eexists; reflexivity|]. destruct (N.eqb_spec (fst y) n) as [E|Hne].
    - apply IH. intros d Hd. specialize (Hc d Hd). rewrite cnt_cons in Hc. lia.
    - unfold remove_delegate. destruct (find_def (fst y) None (defs s f)) as [x|] eqn:Ef.
      + cbn [of_opt rbind ensure]. apply FpassProofs.find_some in Ef. destruct Ef as (F1 & F2 & _). apply IH. intros d Hd. rewrite defs_set, N.eqb_refl, (cnt_remove d x _ F1), F2. specialize (Hc d Hd). rewrite cnt_cons in Hc.
        destruct (fst y =? d); lia.
      + exfalso. pose proof (FpassProofs.find_none _ _ Ef) as Hnone. specialize (Hc _ Hne). rewrite cnt_cons, N.eqb_refl in Hc. unfold cnt in Hc.
        destruct (List.filter (fun d => fst d =? fst y) (defs s f)) as [|[z t] q] eqn:Eq; [cbn in Hc; lia|].
        assert (Hin : In (z, t) (List.filter (fun d => fst d =? fst y) (defs s f))) by (rewrite Eq; now left). apply filter_In in Hin. destruct Hin as [Hin Hz]. cbn in Hz. apply N.eqb_eq in Hz. subst z. exact (Hnone t Hin).
  Qed.
  Theorem C80_transfer_partial ops a f n : fpast ops -> hold (frun ops) !! a = Some f -> hold (frun ops) !! n = None -> n <> f -> is_fp a = false ->
    N.of_nat (length (defs (frun ops) f)) < maxp ->
    hold (frun (ops ++ [FExt true a (CTransfer a (Some n))])) !! n = Some f.
  Proof.
    intros H Ha Hn Hnf Hfa Hlen. pose proof (frun_FI maxp ops H) as HI. rewrite run_app. cbn [run fold_left]. set (s := frun ops) in *. clearbody s.
    assert (Hnew : ~ In (n, TOwner) (defs s f)). { intros Hi. apply (i_only _ HI) in Hi; [congruence|]. apply (born_fp _ _ HI), (i_own _ HI _ _ Ha). }
    unfold fstep. cbn [fexec dispatch ensure rbind]. unfold transfer_fp. rewrite Ha. cbn [of_opt rbind]. rewrite N.eqb_refl. cbn [orb ensure rbind set_hold hold].
    rewrite lookup_delete_ne by congruence. rewrite Hn. rewrite bool_decide_true by reflexivity. cbn [ensure rbind]. unfold add_delegate, add_def. cbn [ensure rbind].
    destruct (N.eqb_spec f n); [congruence|]. cbn [negb ensure rbind].
    change (defs (set_hold s (delete a (hold s))) f) with (defs s f).
    unfold has_def. rewrite bool_decide_false by (intros Hi; apply Hnew, elem_of_list_In, Hi). cbn [negb ensure rbind].
    apply N.ltb_lt in Hlen. rewrite Hlen. cbn [ensure rbind]. rewrite defs_set, N.eqb_refl.
    match goal with |- context[remove_others true ?s2 f n ?l] => destruct (remove_others_total f n l s2) as [s3 E3] end.
    { intros d Hd. rewrite defs_set, N.eqb_refl. lia. }
    rewrite E3. cbn [rbind commit set_hold hold]. apply lookup_insert.
  Qed.
End props.

(** * Cases *)
Definition wops : list fop := [FExt true 10 (CCreate 10); FExt true 10 (CCreate 11); FExt true 10 (CRegister (faddr 1) 12 TAny true);
  FEvm true 0 12 (faddr 1) (SUnreg 12); FExt true 10 (CRegister (faddr 1) 13 TAny true); FExt true 10 (CProxyExt (faddr 1) (CTransfer 10 (Some 14)))].
Lemma along_fine_small maxp ops : forall s, Forall (fun o => is_fp (signer o) = false) ops -> N.of_nat (length (born s)) + N.of_nat (length ops) < 2 ^ 128 ->
  FI s -> along (fstep maxp) fine ops s.
Proof.
  induction ops as [|o ops IH]; intros s Ho Hl HI; [exact I|]. apply Forall_cons in Ho. destruct Ho as [Ho1 Ho2]. cbn [length] in Hl. assert (Hfine : fine s o) by (split; [exact Ho1|lia]).
  split; [exact Hfine|]. assert (Hlen : (length (born (fstep maxp s o)) <= S (length (born s)))%nat).
  { unfold fstep. destruct (fexec maxp s o) as [s'|] eqn:E; cbn [commit]; [|lia].
    destruct (fexec_effect maxp _ _ _ HI Ho1 E) as (a & Hact & [->|pay account Hc|pay g e u sg Hr Hc|pay g e Hc|pay cur new Hc|E0 E1 E3 E4]); [lia|..].
    - destruct (create_ok _ _ _ _ _ Hc) as (_ & _ & _ & E3 & _). rewrite E3. cbn. lia.
    - destruct (register_ok _ _ _ _ _ _ _ _ _ Hc) as (_ & _ & _ & _ & _ & _ & E3 & _). rewrite E3. lia.
    - destruct (unregister_ok _ _ _ _ _ _ Hc) as (_ & _ & x & _ & _ & _ & _ & E3 & _). rewrite E3. lia.
    - destruct (transfer_ok _ _ _ _ _ _ _ (i_nd _ HI _) Hc) as (g & _ & _ & _ & E3 & _). rewrite E3. lia.
    - rewrite E3. lia. }
  apply IH; [exact Ho2|lia|apply fstep_FI; assumption].
Qed.
Lemma fine_init maxp ops : Forall (fun o => is_fp (signer o) = false) ops -> N.of_nat (length ops) < 2 ^ 128 -> along (fstep maxp) fine ops finit.
Proof. intros H1 H2. apply along_fine_small; [exact H1|exact H2|exact finit_FI]. Qed.
Ltac fine_list := apply fine_init; [repeat (apply Forall_cons; split; [vm_compute; reflexivity|]); apply Forall_nil; exact I|vm_compute; reflexivity].
Example wops_fine : along (fstep 32) fine wops finit. Proof. fine_list. Qed.
(** Two futurepasses are created, a delegate joins and leaves, another joins, and the owner hands over through the futurepass. *)
Example wops_case : let s := run (fstep 32) wops finit in
  hold s !! 14 = Some (faddr 1) /\ hold s !! 10 = None /\ hold s !! 11 = Some (faddr 2) /\ defs s (faddr 1) = [(14, TOwner)] /\ length (born s) = 2%nat.
Proof. vm_compute. repeat split. Qed.
Example wops_case2 : let s := run (fstep 32) (take 5 wops) finit in hold s !! 10 = Some (faddr 1) /\ defs s (faddr 1) = [(10, TOwner); (13, TAny)].
Proof. vm_compute. repeat split. Qed.
(** A renounced futurepass. *)
Example renounce_case : let s := run (fstep 32) (wops ++ [FEvm true 0 14 (faddr 1) SRenounce]) finit in hold s !! 14 = None /\ defs s (faddr 1) = [] /\ In (faddr 1) (born s).
Proof. vm_compute. repeat split. right. left. reflexivity. Qed.

(** ** C80 refuted: with the list of delegates full, the owner cannot hand over, because the new owner is added before the others are removed *)
Definition full_ops : list fop := FExt true 10 (CCreate 10) :: map (fun i => FExt true 10 (CRegister (faddr 1) (100 + N.of_nat i) TAny true)) (seq 0 31).
Theorem C80_full_refuted : exists ops a f n, along (fstep 32) fine ops finit /\ hold (run (fstep 32) ops finit) !! a = Some f /\ hold (run (fstep 32) ops finit) !! n = None /\ n <> f /\
  fexec 32 (run (fstep 32) ops finit) (FExt true a (CTransfer a (Some n))) = Err 3.
Proof.
  exists full_ops, 10, (faddr 1), 11. split; [|vm_compute; repeat split; discriminate].
  apply fine_init; [|vm_compute; reflexivity]. apply Forall_cons. split; [vm_compute; reflexivity|]. apply Forall_forall. intros o Ho. apply elem_of_list_In, in_map_iff in Ho. destruct Ho as (i & <- & _). vm_compute. reflexivity.
Qed.

(** * C78: a proxied EVM call never brings the node down *)
(** With at least four bytes of call data at every level it does not. *)
Fixpoint no_short (x : esub) : Prop := match x with SShort => False | SProxy _ _ y => no_short y | _ => True end.
Lemma no_panic_prims maxp pay sg s a f d t cur new :
  register maxp pay sg s a f d t <> Err panic /\ unregister pay s a f d <> Err panic /\ transfer_fp maxp pay s a cur new <> Err panic.
Proof.
  assert (Hadd : forall s f d t, add_delegate maxp pay s f d t <> Err panic).
  { intros. unfold add_delegate, add_def. repeat (match goal with |- context[ensure ?b _] => destruct b; cbn [ensure rbind]; [|discriminate] end). discriminate. }
  assert (Hrem : forall s f d, remove_delegate pay s f d <> Err panic).
  { intros. unfold remove_delegate. destruct (find_def _ _ _); cbn [of_opt rbind]; [|discriminate]. destruct pay; cbn [ensure rbind]; discriminate. }
  split; [|split].
  - unfold register. repeat (match goal with |- context[ensure ?b _] => destruct b; cbn [ensure rbind]; [|discriminate] end). apply Hadd.
  - unfold unregister. repeat (match goal with |- context[ensure ?b _] => destruct b; cbn [ensure rbind]; [|discriminate] end). apply Hrem.
  - unfold transfer_fp. destruct (hold s !! cur); cbn [of_opt rbind]; [|discriminate]. destruct (_ || _); cbn [ensure rbind]; [|discriminate]. destruct new as [m|].
    + destruct (bool_decide _); cbn [ensure rbind]; [|discriminate]. match goal with |- context[add_delegate maxp pay ?s1 ?f1 ?d1 ?t1] => pose proof (Hadd s1 f1 d1 t1) as Ha; destruct (add_delegate maxp pay s1 f1 d1 t1) as [s2|e] end; cbn [rbind]; [|congruence].
      assert (Hoth : forall l s f n, remove_others pay s f n l <> Err panic).
      { induction l as [|y r IH]; intros; cbn [remove_others]; [discriminate|]. destruct (_ =? _); [apply IH|]. match goal with |- context[remove_delegate pay ?s1 ?f1 ?d1] => pose proof (Hrem s1 f1 d1) as Hr; destruct (remove_delegate pay s1 f1 d1) end; cbn [rbind]; [apply IH|congruence]. }
      match goal with |- context[remove_others pay ?s1 ?f1 ?d1 ?l1] => pose proof (Hoth l1 s1 f1 d1) as Hr; destruct (remove_others pay s1 f1 d1 l1) end; cbn [rbind]; [discriminate|congruence].
    + destruct pay; cbn [ensure rbind]; discriminate.
Qed.
Theorem C78_no_panic_partial maxp pay reg x : no_short x -> forall s caller target, evm maxp pay reg s caller target x <> Err panic.
Proof.
  induction x as [d t sg|d|n| |ct to y IH| |]; intros Hs s caller target; cbn [evm]; (destruct (is_fp target); cbn [negb]; [|discriminate]); try discriminate.
  - apply (no_panic_prims maxp pay sg s caller target d t 0 None).
  - apply (no_panic_prims maxp pay false s caller target d TAny 0 None).
  - apply (no_panic_prims maxp pay false s caller target 0 TAny caller (Some n)).
  - apply (no_panic_prims maxp pay false s caller target 0 TAny caller None).
  - cbn [no_short] in Hs. destruct (ct <? 5); cbn [ensure rbind]; [|discriminate].
    assert (E : forall b, negb (b && match y with SShort => true | _ => false end) = true) by (intros b; destruct y; try (rewrite andb_false_r; reflexivity); destruct Hs).
    rewrite !E. cbn [ensure rbind]. destruct (_ || _); cbn [ensure rbind]; [|discriminate]. destruct (find_def _ _ _); cbn [of_opt rbind]; [|discriminate].
    destruct (if (to =? reg) || is_fp to then _ else _); cbn [ensure rbind]; [|discriminate]. destruct (negb _); cbn [ensure rbind]; [|discriminate].
    destruct (ct <? 2); [apply IH, Hs|discriminate].
Qed.
(** A delegate sending value with empty call data from one futurepass to another: slicing the first four bytes panics. *)
Theorem C78_short_refuted : exists ops caller target to, along (fstep 32) fine ops finit /\
  fexec 32 (run (fstep 32) ops finit) (FEvm true 0 caller target (SProxy 1 to SShort)) = Err panic.
Proof. exists wops, 14, (faddr 1), (faddr 2). split; [exact wops_fine|vm_compute; reflexivity]. Qed.

Print Assumptions C42_one_owner. Print Assumptions C42_owner_level. Print Assumptions C42_new_owner_alone. Print Assumptions C42_renounced.
Print Assumptions C43_unique. Print Assumptions C43_prefix. Print Assumptions C43_bytes.
Print Assumptions C79_owner_leaves. Print Assumptions C79_delegate_added. Print Assumptions C79_delegate_removed.
Print Assumptions C80_transfer_partial. Print Assumptions C80_full_refuted. Print Assumptions C78_no_panic_partial. Print Assumptions C78_short_refuted.
