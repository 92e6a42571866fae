(** The invariant of the claim bookkeeping, preserved by every kind of change. *)
From Verif Require Export EthyProofs.

Definition done (log : list elog) (id : N) : Prop := exists o b, In (LDone id o b) log.
(** How often an id's claim was handed to the router. *)
Definition is_route (id : N) (e : elog) : bool :=
  match e with LDone i (Some _) _ => i =? id | _ => false end.
Definition routes (log : list elog) (id : N) : nat := length (List.filter (is_route id) log).
(** Is the id under an undecided challenge?  Newest entry about it decides. *)
Fixpoint open (log : list elog) (id : N) : bool :=
  match log with
  | [] => false
  | LChal i _ :: old => if i =? id then true else open old id
  | LSub i _ _ _ :: old | LVerdict i _ :: old | LDone i _ _ :: old => if i =? id then false else open old id
  | _ :: old => open old id
  end.
(** Latest submission of an id: claim, block, challenge period then in force. *)
Fixpoint last_sub (log : list elog) (id : N) : option (N * N * N) :=
  match log with
  | [] => None
  | LSub i cl b p :: old => if i =? id then Some (cl, b, p) else last_sub old id
  | _ :: old => last_sub old id
  end.
Definition due (log : list elog) (id b : N) : Prop := exists cl b0 p0, In (LSub id cl b0 p0) log /\ b0 + p0 <= b.
Fixpoint first_done (log : list elog) : option N :=
  match log with
  | [] => None
  | e :: old => match first_done old with
                | Some f => Some f
                | None => match e with LDone id _ _ => Some id | _ => None end
                end
  end.
Definition struck (log : list elog) (id : N) : Prop := exists lo hi, In (LStruck lo hi) log /\ lo <= id <= hi.

(** Properties of every processing recorded in a log. *)
Fixpoint log_ok (log : list elog) : Prop :=
  match log with
  | [] => True
  | LDone id o b :: old =>
      open old id = false /\ due old id b /\
      (forall cl, o = Some cl -> exists b0 p0, last_sub old id = Some (cl, b0, p0)) /\ log_ok old
  | _ :: old => log_ok old
  end.

Record CI (c : core) : Prop := {
  ci_p : SS (procd c);
  ci_m : SS (missed c);
  ci_mb : forall x, In x (missed c) -> below (procd c) x;
  ci_done : forall id, done (clog c) id ->
     (below (procd c) id \/ In id (procd c)) /\ ~ In id (missed c) /\ pend c !! id = None;
  ci_pd : forall id, In id (procd c) -> done (clog c) id;
  ci_one : forall id, (routes (clog c) id <= 1)%nat;
  ci_open : forall id, stat c !! id = Some Challenged <-> open (clog c) id = true;
  ci_log : log_ok (clog c);
  ci_vat : forall k id, In id (at_block c k) -> due (clog c) id k \/ k <= blk c;
  ci_pend : forall id cl, pend c !! id = Some cl -> exists b0 p0, last_sub (clog c) id = Some (cl, b0, p0);
  ci_first : first_done (clog c) = None -> procd c = [];
  ci_reach : forall f id, first_done (clog c) = Some f -> f <= id ->
     done (clog c) id \/ struck (clog c) id \/ In id (missed c) \/ ~ below (procd c) id }.

Lemma done_cons e log id : done (e :: log) id <-> (exists o b, e = LDone id o b) \/ done log id.
Proof.
  unfold done. split.
  - intros (o & b & [E|Hin]); [left; eauto|right; eauto].
  - intros [(o & b & E)|(o & b & Hin)]; exists o, b; cbn; auto.
Qed.
Lemma due_cons e log id b : due log id b -> due (e :: log) id b.
Proof. intros (cl & b0 & p0 & Hin & Hle). exists cl, b0, p0. cbn. auto. Qed.
Lemma struck_cons e log id : struck log id -> struck (e :: log) id.
Proof. intros (lo & hi & Hin & Hle). exists lo, hi. cbn. auto. Qed.
Lemma routes_none log id : ~ done log id -> routes log id = 0%nat.
Proof.
  unfold routes. induction log as [|e log IH]; cbn; intros Hn; [reflexivity|].
  rewrite done_cons in Hn. destruct (is_route id e) eqn:Er; [exfalso|apply IH; tauto].
  destruct e as [| | | |i [cl|] b|]; cbn in Er; try discriminate. apply N.eqb_eq in Er. subst. apply Hn. left. eauto.
Qed.
Lemma not_done_e e log id : match e with LDone _ _ _ => False | _ => True end -> done (e :: log) id <-> done log id.
Proof. intros He. rewrite done_cons. split; [intros [(o & b & ->)|H]; [destruct He|exact H]|tauto]. Qed.
Lemma routes_e e log id : match e with LDone _ _ _ => False | _ => True end -> routes (e :: log) id = routes log id.
Proof. intros He. destruct e; try reflexivity. destruct He. Qed.
Lemma first_e e log : match e with LDone _ _ _ => False | _ => True end -> first_done (e :: log) = first_done log.
Proof. intros He. cbn. destruct (first_done log); [reflexivity|]. destruct e; try reflexivity. destruct He. Qed.

Lemma later_cases b p : p <= U32MAX -> b <= U32MAX -> later b p = b + p \/ later b p <= b.
Proof.
  unfold later. change U32MAX with 4294967295. change (2 ^ 32) with 4294967296. intros Hp Hb.
  destruct (N.lt_ge_cases (b + p) 4294967296) as [H|H]; [left; apply N.mod_small; exact H|right].
  assert (E : b + p = 4294967296 * 1 + (b + p - 4294967296)) by lia.
  rewrite <- (N.mod_unique (b + p) 4294967296 1 (b + p - 4294967296)); lia.
Qed.
Lemma at_insert m k v k' : default [] (<[k := v]> m !! k') = if k =? k' then v else default [] ((m : gmap N (list N)) !! k').
Proof.
  destruct (N.eqb_spec k k') as [->|Hne]; [rewrite lookup_insert; reflexivity|rewrite lookup_insert_ne by exact Hne; reflexivity].
Qed.

(** ** Submissions *)
Lemma do_submit_CI mxm c p id claim c' :
  CI c -> p <= U32MAX -> blk c <= U32MAX -> ~ done (clog c) id ->
  do_submit mxm c p id claim = Ok c' -> CI c'.
Proof.
  intros [] Hp Hb Hnd. unfold do_submit. destruct (pend c !! id) eqn:Ep; [discriminate|]. cbn [ensure rbind].
  destruct (Nat.ltb _ mxm); [|discriminate]. cbn [ensure rbind]. intros [= <-].
  constructor; cbn [blk pend stat vat procd missed clog]; try assumption.
  - intros i. rewrite not_done_e by exact I. intros Hd. pose proof (ci_done0 i Hd) as (H1 & H2 & H3).
    rewrite lookup_insert_ne; [tauto|]. intros ->. tauto.
  - intros i Hi. rewrite not_done_e by exact I. auto.
  - intros i. cbn [open]. destruct (N.eqb_spec id i) as [->|Hne].
    + rewrite lookup_insert. split; congruence.
    + rewrite lookup_insert_ne by exact Hne. apply ci_open0.
  - intros k i. unfold at_block; cbn [vat]. rewrite at_insert. destruct (N.eqb_spec (later (blk c) p) k) as [Ek|Hk].
    + intros Hin. apply in_app_or in Hin. destruct Hin as [Hin|[<-|[]]].
      * subst k. destruct (ci_vat0 _ _ Hin) as [H|H]; [left; apply due_cons; exact H|right; exact H].
      * destruct (later_cases (blk c) p Hp Hb) as [E|E]; [|right; lia].
        left. exists claim, (blk c), p. split; [left; reflexivity|lia].
    + intros Hin. destruct (ci_vat0 _ _ Hin) as [H|H]; [left; apply due_cons; exact H|right; exact H].
  - intros i cl. cbn [last_sub]. destruct (N.eqb_spec id i) as [->|Hne].
    + rewrite lookup_insert. intros [= <-]. eauto.
    + rewrite lookup_insert_ne by exact Hne. apply ci_pend0.
  - rewrite first_e by exact I. exact ci_first0.
  - intros f i. rewrite first_e by exact I. intros Hf Hle. rewrite not_done_e by exact I.
    destruct (ci_reach0 f i Hf Hle) as [H|[H|[H|H]]]; auto. right. left. apply struck_cons. exact H.
Qed.
Lemma submit_fresh c id : CI c -> fresh_id c id = true -> ~ done (clog c) id.
Proof.
  intros [] Hf Hd. destruct (ci_done0 id Hd) as (H1 & _ & _). unfold fresh_id in Hf.
  destruct (procd c) as [|h t] eqn:E; [cbn in H1; tauto|]. apply andb_prop in Hf. destruct Hf as [Hf Hm].
  apply N.ltb_lt in Hf. apply negb_true_iff in Hm. apply memb_false in Hm. cbn [below] in H1. destruct H1; [lia|tauto].
Qed.
Lemma submit_CI mxm c p id claim c' : CI c -> p <= U32MAX -> blk c <= U32MAX ->
  submit_core mxm c p id claim = Ok c' -> CI c'.
Proof.
  intros HI Hp Hb. unfold submit_core. destruct (fresh_id c id) eqn:Ef; [|discriminate]. cbn [ensure rbind].
  apply do_submit_CI; auto. apply submit_fresh; assumption.
Qed.
Lemma submit_missing_CI mxm c p id claim c' : CI c -> p <= U32MAX -> blk c <= U32MAX ->
  submit_missing_core mxm c p id claim = Ok c' -> CI c'.
Proof.
  intros HI Hp Hb. unfold submit_missing_core. destruct (memb id (missed c)) eqn:Ef; [|discriminate]. cbn [ensure rbind].
  apply do_submit_CI; auto. intros Hd. apply memb_in in Ef. destruct HI. destruct (ci_done0 id Hd) as (_ & H & _). tauto.
Qed.

(** ** Entries that only touch the log or one status *)
Lemma strike_CI c lo hi : CI c -> CI (strike c lo hi).
Proof.
  intros []. unfold strike.
  constructor; cbn [blk pend stat vat procd missed clog]; try assumption.
  - apply filter_SS. assumption.
  - intros x Hx. apply filter_In in Hx. apply ci_mb0. tauto.
  - intros i. rewrite not_done_e by exact I. intros Hd. destruct (ci_done0 i Hd) as (H1 & H2 & H3).
    split; [exact H1|]. split; [|exact H3]. intros Hx. apply filter_In in Hx. tauto.
  - intros i Hi. rewrite not_done_e by exact I. auto.
  - intros k i Hin. destruct (ci_vat0 _ _ Hin) as [H|H]; [left; apply due_cons; exact H|right; exact H].
  - rewrite first_e by exact I. exact ci_first0.
  - intros f i. rewrite first_e by exact I. intros Hf Hle. rewrite not_done_e by exact I.
    destruct (ci_reach0 f i Hf Hle) as [H|[H|[H|H]]]; auto; [right; left; apply struck_cons; exact H|].
    destruct ((i <? lo) || (hi <? i)) eqn:E.
    + right. right. left. apply filter_In. auto.
    + right. left. exists lo, hi. split; [left; reflexivity|]. lia.
Qed.

Lemma note_CI c e st : CI c ->
  match e with LSub _ _ _ _ | LDone _ _ _ => False | _ => True end ->
  (forall id, st !! id = Some Challenged <-> open (e :: clog c) id = true) ->
  log_ok (e :: clog c) ->
  CI (Core (blk c) (pend c) st (vat c) (procd c) (missed c) (e :: clog c)).
Proof.
  intros [] He Hst Hlog.
  assert (He2 : match e with LDone _ _ _ => False | _ => True end) by (destruct e; tauto).
  constructor; cbn [blk pend stat vat procd missed clog]; try assumption.
  - intros i. rewrite not_done_e by exact He2. apply ci_done0.
  - intros i Hi. rewrite not_done_e by exact He2. auto.
  - intros i. rewrite routes_e by exact He2. auto.
  - intros k i Hin. destruct (ci_vat0 _ _ Hin) as [H|H]; [left; apply due_cons; exact H|right; exact H].
  - intros i cl H. replace (last_sub (e :: clog c) i) with (last_sub (clog c) i); [apply ci_pend0; exact H|].
    destruct e; try reflexivity. destruct He.
  - rewrite first_e by exact He2. exact ci_first0.
  - intros f i. rewrite first_e by exact He2. intros Hf Hle. rewrite not_done_e by exact He2.
    destruct (ci_reach0 f i Hf Hle) as [H|[H|[H|H]]]; auto. right. left. apply struck_cons. exact H.
Qed.
Lemma chal_CI c id who : CI c -> CI (noted (set_stat c id Challenged) (LChal id who)).
Proof.
  intros HI. apply (note_CI c (LChal id who) (<[id := Challenged]> (stat c))); [exact HI|exact I| |exact (ci_log _ HI)].
  intros i. cbn [open]. destruct (N.eqb_spec id i) as [->|Hne]; [rewrite lookup_insert; tauto|].
  rewrite lookup_insert_ne by exact Hne. apply (ci_open _ HI).
Qed.
Lemma vote_CI c id k v : CI c -> CI (noted c (LVote id k v)).
Proof. intros HI. apply (note_CI c (LVote id k v) (stat c)); [exact HI|exact I|apply (ci_open _ HI)|exact (ci_log _ HI)]. Qed.
Lemma valid_CI c id : CI c -> CI (noted (set_stat c id ProvenValid) (LVerdict id true)).
Proof.
  intros HI. apply (note_CI c (LVerdict id true) (<[id := ProvenValid]> (stat c))); [exact HI|exact I| |exact (ci_log _ HI)].
  intros i. cbn [open]. destruct (N.eqb_spec id i) as [->|Hne]; [rewrite lookup_insert; split; congruence|].
  rewrite lookup_insert_ne by exact Hne. apply (ci_open _ HI).
Qed.
Lemma drop_pend_CI c id : CI c -> CI (Core (blk c) (delete id (pend c)) (stat c) (vat c) (procd c) (missed c) (clog c)).
Proof.
  intros []. constructor; cbn [blk pend stat vat procd missed clog]; try assumption.
  - intros i Hd. destruct (ci_done0 i Hd) as (H1 & H2 & H3). split; [exact H1|]. split; [exact H2|].
    apply lookup_delete_None. auto.
  - intros i cl H. apply lookup_delete_Some in H. apply ci_pend0. tauto.
Qed.
Lemma invalid_CI c id : CI c ->
  CI (Core (blk c) (delete id (pend c)) (delete id (stat c)) (vat c) (procd c) (missed c) (LVerdict id false :: clog c)).
Proof.
  intros HI. apply (note_CI _ (LVerdict id false) (delete id (stat c)) (drop_pend_CI c id HI)); [exact I| |exact (ci_log _ HI)].
  intros i. cbn [open clog]. destruct (N.eqb_spec id i) as [->|Hne]; [rewrite lookup_delete; split; congruence|].
  rewrite lookup_delete_ne by exact Hne. apply (ci_open _ HI).
Qed.

(** ** The message loop *)
Definition LI (p : N) (cf : core * bool) (l : list N) : Prop :=
  CI (fst cf) /\ (forall id, In id l -> due (clog (fst cf)) id (blk (fst cf))) /\
  (snd cf = true -> procd (fst cf) <> []).

Lemma process1_LI p cf id l : p <= U32MAX -> blk (fst cf) <= U32MAX -> LI p cf (id :: l) -> LI p (process1 p cf id) l.
Proof.
  intros Hp Hb [HI [Hdue Hflag]]. destruct cf as [c flag]. cbn [fst snd] in *. unfold process1.
  pose proof (Hdue id (or_introl eq_refl)) as Hd0.
  assert (Hdl : forall i, In i l -> due (clog c) i (blk c)) by (intros i Hi; apply Hdue; right; exact Hi).
  destruct (decide (stat c !! id = Some Challenged)) as [Ec|Ec];
    [rewrite bool_decide_eq_true_2 by exact Ec|rewrite bool_decide_eq_false_2 by exact Ec].
  - split; [|split; [exact Hdl|exact Hflag]]. destruct HI.
    constructor; cbn [fst snd blk pend stat vat procd missed clog]; try assumption.
    intros k i. unfold at_block; cbn [vat]. rewrite at_insert. destruct (N.eqb_spec (later (blk c) p) k) as [Ek|Hk].
    + intros Hin. apply in_app_or in Hin. destruct Hin as [Hin|[<-|[]]]; [subst k; apply ci_vat0; exact Hin|].
      destruct (later_cases (blk c) p Hp Hb) as [E|E]; [|right; lia].
      left. destruct Hd0 as (cl & b0 & p0 & H1 & H2). exists cl, b0, p0. split; [exact H1|lia].
    + apply ci_vat0.
  - set (e := LDone id (pend c !! id) (blk c)).
    assert (Hopen : open (clog c) id = false).
    { destruct (open (clog c) id) eqn:Eo; [|reflexivity]. apply (ci_open _ HI) in Eo. contradiction. }
    assert (Hlog : log_ok (e :: clog c)).
    { unfold e. cbn [log_ok]. split; [exact Hopen|]. split; [exact Hd0|]. split; [|exact (ci_log _ HI)].
      intros cl Hcl. apply (ci_pend _ HI). exact Hcl. }
    assert (Hone : forall i, (routes (e :: clog c) i <= 1)%nat).
    { intros i. unfold routes, e. cbn [List.filter is_route].
      destruct (pend c !! id) as [cl|] eqn:Ep; [|apply (ci_one _ HI)].
      destruct (N.eqb_spec id i) as [->|Hne]; [|apply (ci_one _ HI)]. cbn [length].
      change (length (List.filter (is_route i) (clog c))) with (routes (clog c) i). rewrite (routes_none (clog c) i); [lia|]. intros Hd. destruct (ci_done _ HI i Hd) as (_ & _ & H). congruence. }
    assert (Hopen2 : forall i, delete id (stat c) !! i = Some Challenged <-> open (e :: clog c) i = true).
    { intros i. unfold e. cbn [open]. destruct (N.eqb_spec id i) as [->|Hne]; [rewrite lookup_delete; split; congruence|].
      rewrite lookup_delete_ne by exact Hne. apply (ci_open _ HI). }
    assert (Hpend2 : forall i cl, delete id (pend c) !! i = Some cl -> exists b0 p0, last_sub (e :: clog c) i = Some (cl, b0, p0)).
    { intros i cl H. apply lookup_delete_Some in H. apply (ci_pend _ HI). tauto. }
    assert (Hvat2 : forall k i, In i (at_block c k) -> due (e :: clog c) i k \/ k <= blk c).
    { intros k i Hin. destruct (ci_vat _ HI _ _ Hin) as [H|H]; [left; apply due_cons; exact H|right; exact H]. }
    assert (Hdone : forall i, done (e :: clog c) i <-> i = id \/ done (clog c) i).
    { intros i. rewrite done_cons. split; [intros [(o & b & E)|H]; [injection E; auto|auto]|intros [->|H]; [left; unfold e; eauto|auto]]. }
    assert (Hpn : forall i, i = id \/ done (clog c) i -> delete id (pend c) !! i = None).
    { intros i Hi. apply lookup_delete_None. destruct Hi as [->|Hi]; [auto|]. right. apply (ci_done _ HI i Hi). }
    pose proof (ci_p _ HI) as Hsp. pose proof (ci_m _ HI) as Hsm. pose proof (ci_mb _ HI) as Hmb.
    destruct (procd c) as [|h t] eqn:Epr.
    + (* nothing processed yet *)
      assert (Hem : forall x, ~ In x (missed c)) by (intros x Hx; apply (Hmb x Hx)).
      assert (Hnodone : forall i, ~ done (clog c) i).
      { intros i Hd. destruct (ci_done _ HI i Hd) as ([H|H] & _); rewrite Epr in H; [exact H|exact H]. }
      replace (0 <=? id) with true by lia. cbn [ins_id].
      split; [|split; [|cbn [fst snd procd]; discriminate]].
      * cbn [fst]. constructor; cbn [blk pend stat vat procd missed clog]; try assumption.
        -- repeat constructor.
        -- intros x Hx. destruct (Hem x Hx).
        -- intros i. rewrite Hdone. intros [->|Hd]; [|destruct (Hnodone i Hd)].
           split; [right; left; reflexivity|]. split; [apply Hem|]. apply Hpn. auto.
        -- intros i [<-|[]]. apply Hdone. auto.
        -- cbn [first_done]. unfold e. destruct (first_done (clog c)); discriminate.
        -- intros f i Hf Hle. rewrite Hdone. right. right. right. cbn [below].
           cbn [first_done] in Hf. destruct (first_done (clog c)) as [f'|] eqn:Ef.
           ++ exfalso. assert (Hfd : exists o b, In (LDone f' o b) (clog c)).
              { clear - Ef. induction (clog c) as [|x log IH]; [discriminate|]. cbn in Ef.
                destruct (first_done log) as [g|]; [injection Ef as ->; destruct (IH eq_refl) as (o & b & H); exists o, b; right; exact H|].
                destruct x; try discriminate. injection Ef as ->. eexists _, _. left. reflexivity. }
              apply (Hnodone f'). exact Hfd.
           ++ unfold e in Hf. injection Hf as ->. lia.
      * cbn [fst]. intros i Hi. cbn [clog blk]. apply due_cons. apply Hdl. exact Hi.
    + assert (Hfirst : first_done (clog c) <> None) by (intros E; apply (ci_first _ HI) in E; congruence).
      assert (Efirst : first_done (e :: clog c) = first_done (clog c)).
      { cbn [first_done]. destruct (first_done (clog c)); [reflexivity|congruence]. }
      assert (Hreach : forall f i, first_done (clog c) = Some f -> f <= i ->
                done (clog c) i \/ struck (e :: clog c) i \/ In i (missed c) \/ ~ below (h :: t) i).
      { intros f i Hf Hle. destruct (ci_reach _ HI f i Hf Hle) as [H|[H|[H|H]]]; auto;
          [right; left; apply struck_cons; exact H|rewrite Epr in H; auto]. }
      destruct (N.leb_spec h id) as [Hle|Hlt].
      * assert (Hbelow : forall y, below (ins_id id (h :: t)) y <-> below (h :: t) y) by (apply ins_hd; [discriminate|exact Hle]).
        split; [|split; [|cbn [fst snd procd]; intros _; apply ins_nonempty]].
        -- cbn [fst]. constructor; cbn [blk pend stat vat procd missed clog]; try assumption.
           ++ apply ins_SS. assumption.
           ++ intros x Hx. apply Hbelow. apply Hmb. exact Hx.
           ++ intros i. rewrite Hdone. intros Hd. split; [|split; [|apply Hpn; exact Hd]].
              ** destruct Hd as [->|Hd]; [right; apply ins_in; auto|].
                 destruct (ci_done _ HI i Hd) as ([H|H] & _); rewrite Epr in H; [left; apply Hbelow; exact H|right; apply ins_in; auto].
              ** destruct Hd as [->|Hd]; [|apply (ci_done _ HI i Hd)]. intros Hx. apply Hmb in Hx. cbn in Hx. lia.
           ++ intros i Hi. apply ins_in in Hi. apply Hdone. destruct Hi as [->|Hi]; [auto|right]. apply (ci_pd _ HI). rewrite Epr. exact Hi.
           ++ rewrite Efirst. congruence.
           ++ intros f i. rewrite Efirst. intros Hf Hfi. rewrite Hdone, Hbelow. pose proof (Hreach f i Hf Hfi). tauto.
        -- cbn [fst]. intros i Hi. cbn [clog blk]. apply due_cons. apply Hdl. exact Hi.
      * split; [|split; [|cbn [fst snd procd]; discriminate]].
        -- cbn [fst]. constructor; cbn [blk pend stat vat procd missed clog]; try assumption.
           ++ apply filter_SS. assumption.
           ++ intros x Hx. apply del_in in Hx. apply Hmb. tauto.
           ++ intros i. rewrite Hdone. intros Hd. split; [|split; [|apply Hpn; exact Hd]].
              ** destruct Hd as [->|Hd]; [left; exact Hlt|]. destruct (ci_done _ HI i Hd) as (H & _). rewrite Epr in H. exact H.
              ** rewrite del_in. destruct Hd as [->|Hd]; [tauto|]. pose proof (ci_done _ HI i Hd). tauto.
           ++ intros i Hi. apply Hdone. right. apply (ci_pd _ HI). rewrite Epr. exact Hi.
           ++ rewrite Efirst. congruence.
           ++ intros f i. rewrite Efirst. intros Hf Hfi. rewrite Hdone, del_in. pose proof (Hreach f i Hf Hfi).
              destruct (N.eq_dec i id); tauto.
        -- cbn [fst]. intros i Hi. cbn [clog blk]. apply due_cons. apply Hdl. exact Hi.
Qed.
Lemma process1_blk p cf id : blk (fst (process1 p cf id)) = blk (fst cf).
Proof. destruct cf as [c f]. unfold process1. case_bool_decide; [reflexivity|]. destruct (_ <=? id); reflexivity. Qed.
Lemma loop_blk p l : forall cf, blk (fst (fold_left (process1 p) l cf)) = blk (fst cf).
Proof. induction l as [|a l IH]; cbn; intros cf; [reflexivity|]. rewrite IH. apply process1_blk. Qed.
Lemma loop_LI p l : p <= U32MAX -> forall cf, blk (fst cf) <= U32MAX -> LI p cf l -> LI p (fold_left (process1 p) l cf) [].
Proof.
  intros Hp. induction l as [|a l IH]; cbn; intros cf Hb HL; [exact HL|]. apply IH; [rewrite process1_blk; exact Hb|].
  apply process1_LI; assumption.
Qed.

Lemma prune_CI mx c : (1 <= mx)%nat -> CI c -> procd c <> [] ->
  CI (Core (blk c) (pend c) (stat c) (vat c) (firstn mx (fst (prune mx (procd c) (missed c)))) (snd (prune mx (procd c) (missed c))) (clog c)).
Proof.
  intros Hmx [] Hne. destruct (prune_spec mx (procd c) (missed c) Hmx ci_p0 ci_m0 Hne) as (P1 & P2 & P3 & P4 & P5 & P6 & P7 & P8 & P9 & P10).
  rewrite firstn_all2 by lia. set (ids := fst _) in *. set (ms := snd _) in *.
  constructor; cbn [blk pend stat vat procd missed clog]; try assumption.
  - intros x Hx. destruct (P9 x Hx) as [H|(_ & _ & H)]; [|exact H]. apply ci_mb0 in H.
    destruct (procd c) as [|h t]; [tauto|]. destruct ids as [|h2 t2]; [congruence|]. cbn in *.
    pose proof (P7 h2 (N.le_refl _)). lia.
  - intros i Hd. destruct (ci_done0 i Hd) as (H1 & H2 & H3). split; [|split; [|exact H3]].
    + destruct H1 as [H1|H1]; [left|destruct (P6 i H1); auto].
      destruct (procd c) as [|h t]; [tauto|]. destruct ids as [|h2 t2]; [congruence|]. cbn in *. pose proof (P7 h2 (N.le_refl _)). lia.
    + intros Hx. destruct (P9 i Hx) as [H|(H4 & H5 & _)]; [tauto|]. destruct H1 as [H1|H1]; [|tauto].
      destruct (procd c); cbn in *; [tauto|lia].
  - intros i Hi. auto.
  - intros E. apply ci_first0 in E. congruence.
  - intros f i Hf Hle. destruct (ci_reach0 f i Hf Hle) as [H|[H|[H|H]]]; auto.
    destruct (N.lt_ge_cases i (hd 0 ids)) as [Hl|Hl].
    + destruct (P10 i) as [H1|H1]; [destruct (procd c); cbn in *; [tauto|lia]|destruct ids; [congruence|exact Hl]|auto|auto].
    + right. right. right. destruct ids; [tauto|]. cbn in *. lia.
Qed.

Lemma tick_CI mx c p c' : (1 <= mx)%nat -> p <= U32MAX -> CI c -> tick_core mx c p = Ok c' -> CI c'.
Proof.
  intros Hmx Hp HI. unfold tick_core. destruct (N.ltb_spec (blk c) U32MAX) as [Hb|]; [|discriminate]. cbn [ensure rbind].
  set (c1 := Core _ _ _ _ _ _ _).
  assert (HL : LI p (c1, false) (at_block c (blk c + 1))).
  { split; [|split; [|discriminate]].
    - destruct HI. constructor; cbn [fst c1 blk pend stat vat procd missed clog]; try assumption.
      intros k i. unfold at_block, c1; cbn [vat blk]. destruct (N.eq_dec (blk c + 1) k) as [<-|Hk]; [rewrite lookup_delete; intros []|].
      rewrite lookup_delete_ne by exact Hk. intros Hin. destruct (ci_vat0 k i Hin) as [H|H]; [left; exact H|right; lia].
    - cbn [fst]. intros id Hin. destruct (ci_vat _ HI _ _ Hin) as [H|H]; [exact H|lia]. }
  apply loop_LI in HL; [|exact Hp|cbn [fst c1 blk]; lia].
  destruct (fold_left (process1 p) (at_block c (blk c + 1)) (c1, false)) as [c2 flag] eqn:Ef. cbn [fst snd] in HL.
  destruct HL as (HI2 & _ & Hfl). cbn [fst snd] in *.
  destruct (flag && negb (Nat.eqb (length (procd c2)) 0)) eqn:E; [|intros [= <-]; exact HI2].
  destruct (prune mx (procd c2) (missed c2)) as [ids ms] eqn:Epr. intros [= <-].
  apply andb_prop in E. destruct E as [E _]. pose proof (prune_CI mx c2 Hmx HI2 (Hfl E)) as H. rewrite Epr in H. exact H.
Qed.

Lemma CI0 : CI ecore0.
Proof.
  constructor; unfold ecore0; cbn [blk pend stat vat procd missed clog].
  - constructor.
  - constructor.
  - intros x [].
  - intros i (o & b & []).
  - intros i [].
  - intros i. cbn. lia.
  - intros i. rewrite lookup_empty. cbn. split; congruence.
  - exact I.
  - intros k i. unfold at_block; cbn. rewrite lookup_empty. intros [].
  - intros i cl. rewrite lookup_empty. discriminate.
  - reflexivity.
  - intros f i. discriminate.
Qed.
