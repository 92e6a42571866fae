(** C40: the bridged supply is backed. *)
From Verif Require Import PegModel.

(** * Specification: sums over the observable log *)
Definition on_tok (k token amt : N) : N := if token =? k then amt else 0.
(** Accepted deposits of token [k]: credited at once, or delayed. *)
Definition e_acc (k : N) (e : pev) : N :=
  match e with
  | VCredit None _ token _ amt _ => on_tok k token amt
  | VDelayed _ _ (PDep token amt _) => on_tok k token amt
  | _ => 0
  end.
(** Withdrawals of token [k] handed to the bridge. *)
Definition e_sent (k : N) (e : pev) : N := match e with VSend _ _ _ _ token amt _ => on_tok k token amt | _ => 0 end.
(** Deposits of token [k] which failed on release. *)
Definition e_fail (k : N) (e : pev) : N := match e with VFail _ _ (PDep token amt _) => on_tok k token amt | _ => 0 end.
Definition in_log (f : pev -> N) (s : peg) : N := sumL (map f (plog s)).
(** Pending payments of token [k]. *)
Definition w_dep (k : N) (_ : N) (p : pending) : N := match p with PDep token amt _ => on_tok k token amt | _ => 0 end.
Definition w_wd (k : N) (_ : N) (p : pending) : N := match p with PWd _ token amt _ => on_tok k token amt | _ => 0 end.
Definition pending_dep (k : N) (s : peg) : N := sumf (w_dep k) (pend s).
Definition pending_wd (k : N) (s : peg) : N := sumf (w_wd k) (pend s).

(** * Auxiliary sums *)
Definition e_minted (k : N) (e : pev) : N := match e with VCredit _ _ token _ amt _ => on_tok k token amt | _ => 0 end.
Definition e_rel (k : N) (e : pev) : N := match e with VCredit (Some _) _ token _ amt _ => on_tok k token amt | _ => 0 end.
Definition e_imm (k : N) (e : pev) : N := match e with VCredit None _ token _ amt _ => on_tok k token amt | _ => 0 end.
Definition e_ddep (k : N) (e : pev) : N := match e with VDelayed _ _ (PDep token amt _) => on_tok k token amt | _ => 0 end.
Definition e_dwd (k : N) (e : pev) : N := match e with VDelayed _ _ (PWd _ token amt _) => on_tok k token amt | _ => 0 end.
Definition e_snow (k : N) (e : pev) : N := match e with VSend None _ _ _ token amt _ => on_tok k token amt | _ => 0 end.
Definition e_srel (k : N) (e : pev) : N := match e with VSend (Some _) _ _ _ token amt _ => on_tok k token amt | _ => 0 end.
Definition e_burn (k : N) (e : pev) : N := e_snow k e + e_dwd k e.
Lemma sumL_map_cons {A} (f : A -> N) e l : sumL (map f (e :: l)) = f e + sumL (map f l).
Proof. reflexivity. Qed.
Lemma sum_acc k l : sumL (map (e_acc k) l) = sumL (map (e_imm k) l) + sumL (map (e_ddep k) l).
Proof. induction l as [|e l IH]; [reflexivity|]. rewrite !sumL_map_cons, IH. destruct e as [? ? []|[] ? ? ? ? ?| | |]; unfold e_acc, e_imm, e_ddep; lia. Qed.
Lemma sum_minted k l : sumL (map (e_minted k) l) = sumL (map (e_imm k) l) + sumL (map (e_rel k) l).
Proof. induction l as [|e l IH]; [reflexivity|]. rewrite !sumL_map_cons, IH. destruct e as [? ? []|[] ? ? ? ? ?| | |]; unfold e_minted, e_imm, e_rel; lia. Qed.
Lemma sum_sent k l : sumL (map (e_sent k) l) = sumL (map (e_snow k) l) + sumL (map (e_srel k) l).
Proof. induction l as [|e l IH]; [reflexivity|]. rewrite !sumL_map_cons, IH. destruct e as [? ? []|[] ? ? ? ? ?|[] ? ? ? ? ?| |]; unfold e_sent, e_snow, e_srel; lia. Qed.
Lemma sum_burn k l : sumL (map (e_burn k) l) = sumL (map (e_snow k) l) + sumL (map (e_dwd k) l).
Proof. induction l as [|e l IH]; [reflexivity|]. rewrite !sumL_map_cons, IH. unfold e_burn. lia. Qed.

(** * Money moved by one payment *)
Lemma credit_effect native pot l a ben amt l' :
  mint_or_transfer native pot l a ben amt = Ok l' -> books l ->
  books l' /\
  (a = native -> ben <> pot -> balance l' native pot + amt = balance l native pot /\ (forall b, issuance l' b = issuance l b)) /\
  (a = native -> forall b, issuance l' b = issuance l b) /\
  (a <> native -> balance l' native pot = balance l native pot /\ (forall b, issuance l' b = issuance l b + (if a =? b then amt else 0))).
Proof.
  unfold mint_or_transfer. intros H Hb. destruct (N.eqb_spec a native) as [E|Hne].
  - split; [exact (transfer_books _ _ _ _ _ _ H Hb)|]. split; [|split; [intros _ b; exact (transfer_issuance _ _ _ _ _ _ b H)|tauto]].
    intros _ Hp. split; [|intros b; exact (transfer_issuance _ _ _ _ _ _ b H)].
    apply LedgerProofs.transfer_spec in H. destruct H as (_ & _ & H). specialize (H native pot). subst a.
    rewrite decide_True in H by reflexivity. rewrite decide_False in H by congruence. lia.
  - split; [exact (mint_books _ _ _ _ _ H Hb)|]. split; [tauto|]. split; [tauto|]. intros _.
    apply LedgerProofs.mint_spec in H. destruct H as (_ & Hi & Hbal & _). split; [|exact Hi].
    rewrite Hbal. rewrite decide_False by congruence. lia.
Qed.
Lemma debit_effect native pot l a who amt l' :
  burn_or_transfer native pot l a who amt = Ok l' -> books l ->
  books l' /\
  (a = native -> who <> pot -> balance l' native pot = balance l native pot + amt /\ (forall b, issuance l' b = issuance l b)) /\
  (a <> native -> balance l' native pot = balance l native pot /\ (forall b, issuance l' b + (if a =? b then amt else 0) = issuance l b)).
Proof.
  unfold burn_or_transfer. intros H Hb. destruct (N.eqb_spec a native) as [E|Hne].
  - split; [exact (transfer_books _ _ _ _ _ _ H Hb)|]. split; [|tauto].
    intros _ Hp. split; [|intros b; exact (transfer_issuance _ _ _ _ _ _ b H)].
    apply LedgerProofs.transfer_spec in H. destruct H as (_ & _ & H). specialize (H native pot). subst a.
    rewrite decide_False in H by congruence. rewrite decide_True in H by reflexivity. lia.
  - split; [exact (burn_books _ _ _ _ _ H Hb)|]. split; [tauto|]. intros _.
    apply LedgerProofs.burn_spec in H; [|exact Hb]. destruct H as (_ & Hi & Hbal & _). split; [|exact Hi].
    specialize (Hbal native pot). rewrite decide_False in Hbal by congruence. lia.
Qed.

Lemma on_tok_same k v : on_tok k k v = v.
Proof. unfold on_tok. rewrite N.eqb_refl. reflexivity. Qed.
Lemma on_tok_ne k t v : t <> k -> on_tok k t v = 0.
Proof. unfold on_tok. destruct (N.eqb_spec t k); [contradiction|reflexivity]. Qed.

(** * The money invariant: maps one-to-one, credited = issued + debited *)
Definition meq (native pot pot0 : N) (l : ledger N) (lg : list pev) (k : N) (o : option N) : Prop :=
  match o with
  | None => sumL (map (e_minted k) lg) = 0 /\ sumL (map (e_burn k) lg) = 0
  | Some a => if a =? native then balance l native pot + sumL (map (e_minted k) lg) = pot0 + sumL (map (e_burn k) lg)
              else sumL (map (e_minted k) lg) = issuance l a + sumL (map (e_burn k) lg)
  end.
Record M (native pot pot0 : N) (s : peg) : Prop := {
  m_books : books (pbk s);
  m_bij : forall k a, e2a s !! k = Some a <-> a2e s !! a = Some k;
  m_fresh : forall a, nexta s <= a -> a2e s !! a = None /\ issuance (pbk s) a = 0;
  m_nat : native < nexta s;
  m_pot : a2e s !! native = None -> balance (pbk s) native pot = pot0;
  m_eq : forall k, meq native pot pot0 (pbk s) (plog s) k (e2a s !! k) }.

(** Changes that leave the money alone. *)
Lemma M_same native pot pot0 s s' :
  M native pot pot0 s -> pbk s' = pbk s -> e2a s' = e2a s -> a2e s' = a2e s -> nexta s' = nexta s ->
  (forall k, sumL (map (e_minted k) (plog s')) = sumL (map (e_minted k) (plog s)) /\ sumL (map (e_burn k) (plog s')) = sumL (map (e_burn k) (plog s))) ->
  M native pot pot0 s'.
Proof.
  intros [Hb Hj Hf Hn Hp He] E1 E2 E3 E4 El. split; rewrite ?E1, ?E2, ?E3, ?E4; try assumption.
  intros k. destruct (El k) as [F1 F2]. specialize (He k). unfold meq in *. rewrite F1, F2. exact He.
Qed.
Lemma M_map native pot pot0 s a k :
  M native pot pot0 s -> e2a s !! k = None -> a2e s !! a = None -> a < nexta s \/ a = nexta s ->
  (a = native \/ issuance (pbk s) a = 0) -> forall s', pbk s' = pbk s -> e2a s' = <[k := a]> (e2a s) -> a2e s' = <[a := k]> (a2e s) ->
  a < nexta s' -> nexta s <= nexta s' -> plog s' = plog s -> M native pot pot0 s'.
Proof.
  intros [Hb Hj Hf Hn Hp He] Hk Ha Hlt Hz s' E1 E2 E3 E4 E4' E5. split; rewrite ?E1, ?E5; try assumption.
  - intros k' a'. rewrite E2, E3. destruct (N.eqb_spec k k') as [E|Hne]; [subst k'; rewrite lookup_insert|rewrite lookup_insert_ne by exact Hne];
      (destruct (N.eqb_spec a a') as [F|Hna]; [subst a'; rewrite lookup_insert|rewrite lookup_insert_ne by exact Hna]).
    + tauto.
    + split; [congruence|]. intros H. apply Hj in H. congruence.
    + split; [|congruence]. intros H. apply Hj in H. congruence.
    + apply Hj.
  - intros b Hge. rewrite E3. rewrite lookup_insert_ne by lia. apply Hf. lia.
  - lia.
  - intros H. apply Hp. rewrite E3 in H. destruct (N.eqb_spec a native) as [E|Hne]; [subst; exact Ha|]. rewrite lookup_insert_ne in H by exact Hne. exact H.
  - intros k'. rewrite E2. destruct (N.eqb_spec k k') as [E|Hne]; [subst k'|rewrite lookup_insert_ne by exact Hne; apply He].
    rewrite lookup_insert. specialize (He k). rewrite Hk in He. destruct He as [F1 F2]. unfold meq. rewrite F1, F2.
    destruct (N.eqb_spec a native) as [E|Hna]; [subst a; rewrite (Hp Ha); lia|]. destruct Hz; [contradiction|lia].
Qed.

Section backing.
  Variables (native pot maxready rd wr pot0 : N).
  Notation MM := (M native pot pot0).
  Notation pstp := (pstep native pot maxready rd wr).

  Lemma M_credit s o k a amt ben l :
    MM s -> e2a s !! k = Some a -> ben <> pot -> mint_or_transfer native pot (pbk s) a ben amt = Ok l ->
    MM (p_log (p_bk s l) (VCredit o (pblk s) k a amt ben)).
  Proof.
    intros [Hb Hj Hf Hn Hp He] Hk Hben Hc. destruct (credit_effect _ _ _ _ _ _ _ Hc Hb) as (Hb' & Hnat & _ & Hoth).
    assert (Hak : a2e s !! a = Some k) by (apply Hj; exact Hk).
    assert (Hlt : a < nexta s). { destruct (N.ltb_spec a (nexta s)); [assumption|]. destruct (Hf a ltac:(lia)). congruence. }
    split; cbn [p_log p_bk pbk e2a a2e nexta plog]; try assumption.
    - intros b Hge. destruct (Hf b Hge) as [F1 F2]. split; [exact F1|]. destruct (N.eqb_spec a native) as [E|Hna].
      + destruct (Hnat E Hben) as [_ ->]. exact F2.
      + destruct (Hoth Hna) as [_ ->]. destruct (N.eqb_spec a b); [lia|]. lia.
    - intros H. destruct (N.eqb_spec a native) as [E|Hna]; [congruence|]. destruct (Hoth Hna) as [-> _]. apply Hp, H.
    - intros k'. specialize (He k'). unfold meq in *. rewrite !sumL_map_cons. cbn [e_minted].
      assert (Eb : e_burn k' (VCredit o (pblk s) k a amt ben) = 0) by reflexivity. rewrite Eb. clear Eb.
      destruct (N.eqb_spec k k') as [E|Hne].
      + subst k'. rewrite on_tok_same. rewrite Hk in *. destruct (N.eqb_spec a native) as [E|Hna].
        * destruct (Hnat E Hben) as [H1 _]. lia.
        * destruct (Hoth Hna) as [_ H1]. specialize (H1 a). rewrite N.eqb_refl in H1. lia.
      + rewrite on_tok_ne by exact Hne. destruct (e2a s !! k') as [a'|] eqn:Ek'; [|lia].
        assert (Haa : a <> a'). { intros F. subst a'. apply Hj in Ek'. congruence. }
        destruct (N.eqb_spec a' native) as [E|Hna'].
        * destruct (N.eqb_spec a native) as [E2|Hna]; [congruence|]. destruct (Hoth Hna) as [-> _]. lia.
        * destruct (N.eqb_spec a native) as [E2|Hna].
          -- destruct (Hnat E2 Hben) as [_ H1]. rewrite H1. lia.
          -- destruct (Hoth Hna) as [_ H1]. rewrite H1. destruct (N.eqb_spec a a'); [contradiction|lia].
  Qed.
  Lemma M_debit s k a amt who l e :
    MM s -> a2e s !! a = Some k -> who <> pot -> burn_or_transfer native pot (pbk s) a who amt = Ok l ->
    (forall k', e_minted k' e = 0 /\ e_burn k' e = on_tok k' k amt) ->
    forall s', pbk s' = l -> e2a s' = e2a s -> a2e s' = a2e s -> nexta s' = nexta s -> plog s' = e :: plog s -> MM s'.
  Proof.
    intros [Hb Hj Hf Hn Hp He] Hak Hben Hc Hev s' E1 E2 E3 E4 E5. destruct (debit_effect _ _ _ _ _ _ _ Hc Hb) as (Hb' & Hnat & Hoth).
    assert (Hk : e2a s !! k = Some a) by (apply Hj; exact Hak).
    split; rewrite ?E1, ?E2, ?E3, ?E4, ?E5; try assumption.
    - intros b Hge. destruct (Hf b Hge) as [F1 F2]. split; [exact F1|]. destruct (N.eqb_spec a native) as [E|Hna].
      + destruct (Hnat E Hben) as [_ ->]. exact F2.
      + destruct (Hoth Hna) as [_ H1]. specialize (H1 b). lia.
    - intros H. destruct (N.eqb_spec a native) as [E|Hna]; [congruence|]. destruct (Hoth Hna) as [-> _]. apply Hp, H.
    - intros k'. specialize (He k'). destruct (Hev k') as [V1 V2]. unfold meq in *. rewrite !sumL_map_cons, V1, V2.
      destruct (N.eqb_spec k k') as [E|Hne].
      + subst k'. rewrite on_tok_same. rewrite Hk in *. destruct (N.eqb_spec a native) as [E|Hna].
        * destruct (Hnat E Hben) as [H1 _]. lia.
        * destruct (Hoth Hna) as [_ H1]. specialize (H1 a). rewrite N.eqb_refl in H1. lia.
      + rewrite on_tok_ne by exact Hne. destruct (e2a s !! k') as [a'|] eqn:Ek'; [|lia].
        assert (Haa : a <> a'). { intros F. subst a'. apply Hj in Ek'. congruence. }
        destruct (N.eqb_spec a' native) as [E|Hna'].
        * destruct (N.eqb_spec a native) as [E6|Hna]; [congruence|]. destruct (Hoth Hna) as [-> _]. lia.
        * destruct (N.eqb_spec a native) as [E6|Hna].
          -- destruct (Hnat E6 Hben) as [_ H1]. rewrite H1. lia.
          -- destruct (Hoth Hna) as [_ H1]. specialize (H1 a'). destruct (N.eqb_spec a a'); [contradiction|lia].
  Qed.

  (** What [process_deposit] does to the rest of the state. *)
  Lemma process_frame s o k amt ben s' ok :
    process_deposit native pot s o k amt ben = (s', ok) ->
    pend s' = pend s /\ psch s' = psch s /\ pnext s' = pnext s /\ ready s' = ready s /\ pblk s' = pblk s /\ pcf s' = pcf s /\ pdl s' = pdl s /\
    (forall t a, e2a s !! t = Some a -> e2a s' !! t = Some a) /\
    exists a, plog s' = (if ok then VCredit o (pblk s) k a amt ben :: plog s else plog s).
  Proof.
    unfold process_deposit. destruct (e2a s !! k) as [a|] eqn:Ek.
    - destruct (mint_or_transfer native pot (pbk s) a ben amt) as [l|]; intros [= <- <-];
        (do 7 (split; [reflexivity|]); split; [intros t x Ht; exact Ht|exists a; reflexivity]).
    - destruct (mint_or_transfer native pot _ (nexta s) ben amt) as [l|]; intros [= <- <-];
        (do 7 (split; [reflexivity|]); split; [|exists (nexta s); reflexivity]); intros t a Ht; cbn [p_log p_bk p_nexta p_map e2a];
        (rewrite lookup_insert_ne; [exact Ht|congruence]).
  Qed.
  Lemma M_process s o k amt ben s' ok : MM s -> ben <> pot -> process_deposit native pot s o k amt ben = (s', ok) -> MM s'.
  Proof.
    intros HM Hben. unfold process_deposit. destruct (e2a s !! k) as [a|] eqn:Ek.
    - destruct (mint_or_transfer native pot (pbk s) a ben amt) as [l|] eqn:El; intros [= <- <-]; [|exact HM].
      exact (M_credit s o k a amt ben l HM Ek Hben El).
    - assert (HM1 : MM (p_nexta (p_map s (nexta s) k))).
      { destruct (m_fresh _ _ _ _ HM (nexta s) ltac:(lia)) as [F1 F2].
        eapply (M_map native pot pot0 s (nexta s) k HM Ek F1); cbn [p_nexta p_map pbk e2a a2e nexta plog]; try reflexivity; lia. }
      destruct (mint_or_transfer native pot _ (nexta s) ben amt) as [l|] eqn:El; intros [= <- <-]; [|exact HM1].
      apply (M_credit (p_nexta (p_map s (nexta s) k)) o k (nexta s) amt ben l HM1); [|exact Hben|exact El].
      cbn [p_nexta p_map e2a]. apply lookup_insert.
  Qed.

  (** * The pending payments *)
  Record Q (s : peg) : Prop := {
    q_dep : forall k, in_log (e_ddep k) s = pending_dep k s + in_log (e_rel k) s + in_log (e_fail k) s;
    q_wd : forall k, in_log (e_dwd k) s = pending_wd k s + in_log (e_srel k) s;
    q_next : forall id p, pend s !! id = Some p -> id < pnext s;
    q_mapped : forall id w k v b, pend s !! id = Some (PWd w k v b) -> e2a s !! k <> None;
    q_ben : forall id k v b, pend s !! id = Some (PDep k v b) -> b <> pot }.
  Definition inv (s : peg) : Prop := MM s /\ Q s.

  Lemma Q_same s s' : Q s -> pend s' = pend s -> pnext s' = pnext s -> (forall t a, e2a s !! t = Some a -> e2a s' !! t <> None) ->
    (forall k, in_log (e_ddep k) s' = in_log (e_ddep k) s /\ in_log (e_rel k) s' = in_log (e_rel k) s /\ in_log (e_fail k) s' = in_log (e_fail k) s
       /\ in_log (e_dwd k) s' = in_log (e_dwd k) s /\ in_log (e_srel k) s' = in_log (e_srel k) s) -> Q s'.
  Proof.
    intros [H1 H2 H3 H4 H5] E1 E2 E3 El. split; unfold pending_dep, pending_wd; rewrite ?E1, ?E2; try assumption.
    - intros k. destruct (El k) as (-> & -> & -> & _ & _). apply H1.
    - intros k. destruct (El k) as (_ & _ & _ & -> & ->). apply H2.
    - intros id w k v b Hid. specialize (H4 _ _ _ _ _ Hid). destruct (e2a s !! k) as [a|] eqn:E; [|congruence]. exact (E3 _ _ E).
  Qed.

  Lemma release_inv s id : inv s -> inv (release native pot s id).
  Proof.
    intros [HM HQ]. unfold release. destruct (pend s !! id) as [p|] eqn:Ep; [|split; assumption].
    set (s1 := p_pend s (delete id (pend s))).
    assert (HM1 : MM s1) by (apply (M_same _ _ _ s); try reflexivity; [exact HM|intros; split; reflexivity]).
    destruct HQ as [Q1 Q2 Q3 Q4 Q5].
    assert (Dd : forall k, w_dep k id p + sumf (w_dep k) (delete id (pend s)) = sumf (w_dep k) (pend s)).
    { intros k. rewrite <- (sumf_delete (w_dep k) (pend s) id). unfold contrib. rewrite Ep. reflexivity. }
    assert (Dw : forall k, w_wd k id p + sumf (w_wd k) (delete id (pend s)) = sumf (w_wd k) (pend s)).
    { intros k. rewrite <- (sumf_delete (w_wd k) (pend s) id). unfold contrib. rewrite Ep. reflexivity. }
    assert (Hdel : forall j q, delete id (pend s) !! j = Some q -> pend s !! j = Some q).
    { intros j q H. apply lookup_delete_Some in H. tauto. }
    destruct p as [k v b|w k v b].
    - destruct (process_deposit native pot s1 (Some id) k v b) as [s2 ok] eqn:E2.
      pose proof (M_process s1 (Some id) k v b s2 ok HM1 (Q5 _ _ _ _ Ep) E2) as HM2.
      destruct (process_frame _ _ _ _ _ _ _ E2) as (P1 & _ & P3 & _ & _ & _ & _ & P5 & a & P6).
      change (pend s1) with (delete id (pend s)) in P1. change (pnext s1) with (pnext s) in P3. change (e2a s1) with (e2a s) in P5. change (plog s1) with (plog s) in P6. change (pblk s1) with (pblk s) in P6.
      destruct ok.
      + split; [exact HM2|]. split; unfold pending_dep, pending_wd, in_log; rewrite ?P1, ?P6.
        * intros t. rewrite !sumL_map_cons. specialize (Q1 t). specialize (Dd t). unfold in_log, pending_dep in Q1. cbn [e_ddep e_rel e_fail w_dep] in *. lia.
        * intros t. rewrite !sumL_map_cons. specialize (Q2 t). specialize (Dw t). unfold in_log, pending_wd in Q2. cbn [e_dwd e_srel w_wd] in *. lia.
        * intros j q H. rewrite P3. exact (Q3 _ _ (Hdel _ _ H)).
        * intros j w' t v' b' H. specialize (Q4 _ _ _ _ _ (Hdel _ _ H)). destruct (e2a s !! t) as [x|] eqn:Ex; [|congruence]. rewrite (P5 _ _ Ex). congruence.
        * intros j t v' b' H. exact (Q5 _ _ _ _ (Hdel _ _ H)).
      + split; [apply (M_same _ _ _ s2); try reflexivity; [exact HM2|intros t; split; reflexivity]|].
        split; unfold pending_dep, pending_wd, in_log; cbn [p_log plog pend pnext e2a]; rewrite ?P1, ?P6.
        * intros t. rewrite !sumL_map_cons. specialize (Q1 t). specialize (Dd t). unfold in_log, pending_dep in Q1. cbn [e_ddep e_rel e_fail w_dep] in *. lia.
        * intros t. rewrite !sumL_map_cons. specialize (Q2 t). specialize (Dw t). unfold in_log, pending_wd in Q2. cbn [e_dwd e_srel w_wd] in *. lia.
        * intros j q H. rewrite P3. exact (Q3 _ _ (Hdel _ _ H)).
        * intros j w' t v' b' H. specialize (Q4 _ _ _ _ _ (Hdel _ _ H)). destruct (e2a s !! t) as [x|] eqn:Ex; [|congruence]. rewrite (P5 _ _ Ex). congruence.
        * intros j t v' b' H. exact (Q5 _ _ _ _ (Hdel _ _ H)).
    - change (e2a s1) with (e2a s). specialize (Q4 _ _ _ _ _ Ep) as Hm. destruct (e2a s !! k) as [a|] eqn:Ek; [|congruence].
      split; [apply (M_same _ _ _ s); try reflexivity; [exact HM|intros t; split; reflexivity]|].
      split; unfold pending_dep, pending_wd, in_log; cbn [send p_log s1 p_pend plog pend pnext e2a pblk].
      + intros t. rewrite !sumL_map_cons. specialize (Q1 t). specialize (Dd t). unfold in_log, pending_dep in Q1. cbn [e_ddep e_rel e_fail w_dep] in *. lia.
      + intros t. rewrite !sumL_map_cons. specialize (Q2 t). specialize (Dw t). unfold in_log, pending_wd in Q2. cbn [e_dwd e_srel w_wd] in *. lia.
      + intros j q H. exact (Q3 _ _ (Hdel _ _ H)).
      + intros j w' t v' b' H. exact (Q4 _ _ _ _ _ (Hdel _ _ H)).
      + intros j t v' b' H. exact (Q5 _ _ _ _ (Hdel _ _ H)).
  Qed.
  Lemma inv_sch s m : inv s -> inv (p_sch s m).
  Proof. intros [HM HQ]. split; [apply (M_same _ _ _ s); try reflexivity; [exact HM|intros; split; reflexivity]|]. apply (Q_same s); try reflexivity; [exact HQ|cbn; congruence|intros; repeat split; reflexivity]. Qed.
  Lemma inv_ready s m : inv s -> inv (p_ready s m).
  Proof. intros [HM HQ]. split; [apply (M_same _ _ _ s); try reflexivity; [exact HM|intros; split; reflexivity]|]. apply (Q_same s); try reflexivity; [exact HQ|cbn; congruence|intros; repeat split; reflexivity]. Qed.
  Lemma fold_inv ids : forall s, inv s -> inv (fold_left (release native pot) ids s).
  Proof. induction ids as [|i ids IH]; intros s H; [exact H|]. apply IH, release_inv, H. Qed.
  Lemma loop_inv blocks : forall s left bc, inv s -> inv (fst (idle_loop native pot s left bc blocks)).
  Proof.
    induction blocks as [|b r IH]; intros s left bc H; [exact H|]. cbn [idle_loop].
    match goal with |- context [fold_left _ ?n ?x] => assert (H2 : inv (fold_left (release native pot) n x)) by (apply fold_inv, inv_sch, H) end.
    destruct (_ =? 0); [exact H2|]. apply IH, H2.
  Qed.

  (** The conditions of C40: governance maps only unmapped pairs, with nothing of a non-native asset issued before;
      bridged assets are issued by the bridge alone and the account of the pallet is used by the bridge alone;
      fewer than 2^64-1 payments are delayed. *)
  Definition backed_ok (s : peg) (o : pop) : Prop :=
    match o with
    | PDeposit _ _ _ ben => ben <> pot /\ pnext s + 1 <= U64MAX
    | PWithdraw who _ _ _ _ => who <> pot /\ pnext s + 1 <= U64MAX
    | PMap a k => e2a s !! k = None /\ a2e s !! a = None /\ a < nexta s /\ (a = native \/ issuance (pbk s) a = 0)
    | PXfer a from to _ => a = native -> from <> pot /\ to <> pot
    | PMint a who _ => a < nexta s /\ (a = native -> who <> pot) /\ (a <> native -> a2e s !! a = None)
    | _ => True
    end.

  Lemma delay_inv s delay p k w v b :
    pnext s + 1 <= U64MAX -> Q s ->
    (p = PDep k v b /\ b <> pot \/ p = PWd w k v b /\ e2a s !! k <> None) -> Q (delay_payment s delay p).
  Proof.
    intros Hn [Q1 Q2 Q3 Q4 Q5] Hp. unfold delay_payment. destruct (N.ltb_spec U64MAX (pnext s + 1)); [lia|]. clear Hn.
    assert (Hf : pend s !! pnext s = None).
    { destruct (pend s !! pnext s) as [q|] eqn:E; [|reflexivity]. apply Q3 in E. lia. }
    assert (Ed : forall t, sumf (w_dep t) (<[pnext s := p]> (pend s)) = w_dep t (pnext s) p + sumf (w_dep t) (pend s)) by (intros t; apply sumf_insert_new, Hf).
    assert (Ew : forall t, sumf (w_wd t) (<[pnext s := p]> (pend s)) = w_wd t (pnext s) p + sumf (w_wd t) (pend s)) by (intros t; apply sumf_insert_new, Hf).
    split; unfold pending_dep, pending_wd, in_log; cbn [plog pend pnext e2a].
    - intros t. rewrite !sumL_map_cons, Ed. specialize (Q1 t). unfold in_log, pending_dep in Q1. destruct Hp as [[-> _]|[-> _]]; cbn [e_ddep e_rel e_fail w_dep]; lia.
    - intros t. rewrite !sumL_map_cons, Ew. specialize (Q2 t). unfold in_log, pending_wd in Q2. destruct Hp as [[-> _]|[-> _]]; cbn [e_dwd e_srel w_wd]; lia.
    - intros id q. destruct (N.eqb_spec (pnext s) id) as [E|Hne]; [lia|]. rewrite lookup_insert_ne by exact Hne. intros H1. specialize (Q3 _ _ H1). lia.
    - intros id w' t v' b'. destruct (N.eqb_spec (pnext s) id) as [E|Hne].
      + subst id. rewrite lookup_insert. intros [= ->]. destruct Hp as [[? _]|[E1 E2]]; [discriminate|]. injection E1 as _ -> _ _. exact E2.
      + rewrite lookup_insert_ne by exact Hne. apply Q4.
    - intros id t v' b'. destruct (N.eqb_spec (pnext s) id) as [E|Hne].
      + subst id. rewrite lookup_insert. intros [= ->]. destruct Hp as [[E1 E2]|[? _]]; [|discriminate]. injection E1 as _ _ ->. exact E2.
      + rewrite lookup_insert_ne by exact Hne. apply Q5.
  Qed.

  Lemma process_inv s k amt ben : inv s -> ben <> pot -> inv (fst (process_deposit native pot s None k amt ben)).
  Proof.
    intros [HM HQ] Hben. destruct (process_deposit native pot s None k amt ben) as [s' ok] eqn:E. cbn [fst].
    split; [exact (M_process _ _ _ _ _ _ _ HM Hben E)|]. destruct (process_frame _ _ _ _ _ _ _ E) as (P1 & _ & P3 & _ & _ & _ & _ & P5 & a & P6).
    apply (Q_same s); try assumption.
    - intros t x Hx. rewrite (P5 _ _ Hx). congruence.
    - intros t. unfold in_log. rewrite P6. destruct ok; rewrite ?sumL_map_cons; repeat split; reflexivity.
  Qed.

  Lemma step_inv s o : backed_ok s o -> inv s -> inv (pstp s o).
  Proof.
    intros Hg [HM HQ]. unfold pstep. destruct o as [src k amt ben|who a amt ben evm|rem| |kk id|a k|a mn delay|c|a from to v|a who v|];
      cbn [pexec backed_ok] in *; try cbn [commit].
    - destruct Hg as [Hben Hn]. unfold do_deposit. destruct (negb _); [split; assumption|]. destruct (_ || _); [split; assumption|].
      destruct (e2a s !! k) as [a|] eqn:Ek; [|exact (process_inv s k amt ben (conj HM HQ) Hben)].
      destruct (negb _); [split; assumption|].
      destruct (pdl s !! a) as [[mn delay]|]; [|exact (process_inv s k amt ben (conj HM HQ) Hben)].
      destruct (_ && _); [|exact (process_inv s k amt ben (conj HM HQ) Hben)].
      split; [|apply (delay_inv s delay _ k 0 amt ben Hn HQ); left; split; [reflexivity|exact Hben]].
      unfold delay_payment. destruct (_ <? _); (apply (M_same _ _ _ s); try reflexivity; [exact HM|intros t; split; reflexivity]).
    - destruct Hg as [Hben Hn]. destruct (amt <=? U128MAX); cbn [ensure rbind commit]; [|split; assumption].
      unfold do_withdrawal. destruct (wd_on (pcf s)); cbn [ensure rbind commit]; [|split; assumption].
      destruct (a2e s !! a) as [k|] eqn:Ek; cbn [of_opt rbind commit]; [|split; assumption].
      assert (Hk : e2a s !! k <> None). { apply (m_bij _ _ _ _ HM) in Ek. congruence. }
      destruct (burn_or_transfer native pot (pbk s) a who amt) as [l|] eqn:El; cbn [rbind].
      2: { destruct (pdl s !! a) as [[mn delay]|]; [destruct (_ && _); [destruct evm|]|]; cbn [commit]; split; assumption. }
      assert (Hnow : inv (send (p_bk s l) None a who k amt ben)).
      { split; [eapply (M_debit s k a amt who l _ HM Ek Hben El); try reflexivity; intros t; split; [reflexivity|]; unfold e_burn; cbn [e_snow e_dwd]; lia|].
        apply (Q_same s); try reflexivity; [exact HQ|cbn; congruence|intros; repeat split; reflexivity]. }
      destruct (pdl s !! a) as [[mn delay]|]; [|exact Hnow]. destruct (_ && _); [|exact Hnow]. destruct evm; cbn [commit]; [split; assumption|].
      split.
      + unfold delay_payment. cbn [p_bk pnext]. destruct (N.ltb_spec U64MAX (pnext s + 1)); [lia|].
        eapply (M_debit s k a amt who l _ HM Ek Hben El); try reflexivity. intros t; split; reflexivity.
      + apply (delay_inv (p_bk s l) delay _ k who amt ben Hn); [|right; split; [reflexivity|exact Hk]].
        apply (Q_same s); try reflexivity; [exact HQ|cbn; congruence|intros; repeat split; reflexivity].
    - unfold on_idle. destruct (_ <=? _); [split; assumption|]. destruct (ready s) as [|b r] eqn:Er; [split; assumption|]. rewrite <- Er.
      pose proof (loop_inv (ready s) s (sat 255 ((rem - rd) / per_payment rd wr)) 0 (conj HM HQ)) as H.
      destruct (idle_loop _ _ _ _ _ _) as [s1 bc]. cbn [fst] in H. apply inv_ready, H.
    - unfold next_block. destruct (psch s !! _); [destruct (_ <? _)|];
        (split; [apply (M_same _ _ _ s); try reflexivity; [exact HM|intros; split; reflexivity]|]; apply (Q_same s); try reflexivity; [exact HQ|cbn; congruence|intros; repeat split; reflexivity]).
    - unfold claim. destruct (existsb _ _); cbn [ensure rbind commit]; [|split; assumption]. apply release_inv, inv_sch. split; assumption.
    - destruct Hg as (G1 & G2 & G3 & G4). split.
      + eapply (M_map native pot pot0 s a k HM G1 G2); cbn [p_map pbk e2a a2e nexta plog]; try reflexivity; try lia; exact G4.
      + apply (Q_same s); try reflexivity; [exact HQ| |intros; repeat split; reflexivity].
        intros t x Hx. cbn [p_map e2a]. destruct (N.eqb_spec k t) as [->|Hne]; [rewrite lookup_insert; congruence|rewrite lookup_insert_ne by exact Hne; congruence].
    - split; [apply (M_same _ _ _ s); try reflexivity; [exact HM|intros; split; reflexivity]|]. apply (Q_same s); try reflexivity; [exact HQ|cbn; congruence|intros; repeat split; reflexivity].
    - split; [apply (M_same _ _ _ s); try reflexivity; [exact HM|intros; split; reflexivity]|]. apply (Q_same s); try reflexivity; [exact HQ|cbn; congruence|intros; repeat split; reflexivity].
    - destruct (transfer (pbk s) a from to v) as [l|] eqn:El; cbn [rbind commit]; [|split; assumption].
      split; [|apply (Q_same s); try reflexivity; [exact HQ|cbn; congruence|intros; repeat split; reflexivity]].
      assert (Hi : forall b, issuance l b = issuance (pbk s) b) by (intros b; exact (transfer_issuance _ _ _ _ _ _ b El)).
      assert (Hpot : balance l native pot = balance (pbk s) native pot).
      { apply LedgerProofs.transfer_spec in El. destruct El as (_ & _ & H). specialize (H native pot).
        destruct (decide (a = native)) as [E|Hne].
        - destruct (Hg E). rewrite !decide_False in H by congruence. lia.
        - rewrite !decide_False in H by congruence. lia. }
      destruct HM as [Hb Hj Hf Hn Hp He]. split; cbn [p_bk pbk e2a a2e nexta plog]; try assumption.
      + exact (transfer_books _ _ _ _ _ _ El Hb).
      + intros b Hge. rewrite (Hi b). apply Hf, Hge.
      + intros H. rewrite Hpot. apply Hp, H.
      + intros t. specialize (He t). unfold meq in *. destruct (e2a s !! t); [|exact He]. rewrite Hpot, (Hi _). exact He.
    - destruct (mint (pbk s) a who v) as [l|] eqn:El; cbn [rbind commit]; [|split; assumption].
      split; [|apply (Q_same s); try reflexivity; [exact HQ|cbn; congruence|intros; repeat split; reflexivity]].
      destruct Hg as (G1 & G2 & G3). pose proof El as Em. apply LedgerProofs.mint_spec in Em. destruct Em as (_ & Hi & Hbal & _).
      assert (Hpot : balance l native pot = balance (pbk s) native pot).
      { rewrite Hbal. destruct (decide (a = native)) as [E|Hne]; [specialize (G2 E)|]; rewrite decide_False by congruence; lia. }
      destruct HM as [Hb Hj Hf Hn Hp He]. split; cbn [p_bk pbk e2a a2e nexta plog]; try assumption.
      + exact (mint_books _ _ _ _ _ El Hb).
      + intros b Hge. rewrite Hi. destruct (N.eqb_spec a b); [lia|]. rewrite N.add_0_r. apply Hf, Hge.
      + intros H. rewrite Hpot. apply Hp, H.
      + intros t. specialize (He t). unfold meq in *. destruct (e2a s !! t) as [x|] eqn:Ex; [|exact He]. rewrite Hpot, Hi.
        destruct (N.eqb_spec x native) as [E|Hne]; [exact He|]. destruct (N.eqb_spec a x) as [F|]; [|rewrite N.add_0_r; exact He].
        subst x. apply Hj in Ex. specialize (G3 Hne). congruence.
    - split; [|apply (Q_same s); try reflexivity; [exact HQ|cbn; congruence|intros; repeat split; reflexivity]].
      destruct HM as [Hb Hj Hf Hn Hp He]. split; cbn [p_nexta pbk e2a a2e nexta plog]; try assumption; [intros b Hge; apply Hf; lia|lia].
  Qed.
End backing.
