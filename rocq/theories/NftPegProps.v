(** Properties of bridged Ethereum NFTs: C55, C56, C90. *)
From Verif Require Import NftProofs NftProps NftPegProofs.

(** ** C56 needs nothing of the state: one burn takes the token away from the caller. *)
Lemma burn_any x who c n x' : do_burn x who c n = Ok x' ->
  owns x c who n /\ (forall d y m, owns x' d y m <-> owns x d y m /\ ~ (d = c /\ y = who /\ m = n)).
Proof.
  unfold do_burn. intros E. destruct (negb (locked x c n)); [|discriminate]. cbn [ensure rbind] in E.
  destruct (colls x !! c) as [i|] eqn:Ec; [|discriminate]. cbn [of_opt rbind] in E.
  destruct (c_burnable i); [|discriminate]. cbn [ensure rbind] in E.
  destruct (is_token_owner (c_toks i) who n) eqn:Eo; [|discriminate]. cbn [ensure rbind] in E. apply Ok_inj in E. subst x'.
  apply is_owner_spec in Eo. split; [exists i; auto|]. intros d y m. rewrite clear_owns, put_owns. cbn [c_toks with_toks].
  destruct (decide (d = c)) as [->|Hne]; [|tauto].
  assert (H : forall t, own (map (fun e => if fst e =? who then (fst e, List.filter (fun m0 => negb (m0 =? n)) (snd e)) else e) t) y m
                    <-> own t y m /\ ~ (y = who /\ m = n)).
  { induction t as [|[o l] t IH]; cbn [map fst snd]; [rewrite own_nil; tauto|]. destruct (N.eqb_spec o who) as [->|Ho].
    - rewrite !own_cons, IH, elem_of_list_In, List.filter_In, <- elem_of_list_In, negb_true_iff, N.eqb_neq. tauto.
    - rewrite !own_cons, IH. split; [|tauto]. intros [[-> Hm]|Hm]; [|tauto]. split; [tauto|]. intros [-> _]. congruence. }
  rewrite H. unfold owns. split.
  - intros [H1 H2]. split; [exists i; auto|tauto].
  - intros [(j & Hj & H1) H2]. assert (j = i) by congruence. subst j. split; [exact H1|tauto].
Qed.
Lemma burn_all_any who c ns : forall x x', burn_all x who c ns = Ok x' ->
  NoDup ns /\ (forall n, n ∈ ns -> owns x c who n) /\
  (forall d y n, owns x' d y n <-> owns x d y n /\ ~ (d = c /\ y = who /\ n ∈ ns)).
Proof.
  induction ns as [|n ns IH]; intros x x' E; cbn [burn_all] in E.
  - apply Ok_inj in E. subst x'. split; [constructor|]. split; [intros n H; inversion H|].
    intros d y n. rewrite elem_of_nil. tauto.
  - destruct (do_burn x who c n) as [x1|] eqn:Eb; [|discriminate]. cbn [rbind] in E.
    destruct (burn_any x who c n x1 Eb) as [Hown Ho]. destruct (IH _ _ E) as (Hnd & Hall & Ho').
    split; [|split].
    + constructor; [|exact Hnd]. intros Hin. specialize (Hall n Hin). apply Ho in Hall. tauto.
    + intros m Hm. apply elem_of_cons in Hm. destruct Hm as [->|Hm]; [exact Hown|]. specialize (Hall m Hm). apply Ho in Hall. tauto.
    + intros d y m. rewrite Ho', Ho, elem_of_cons. tauto.
Qed.
Lemma loop_any who l : forall s s' m, withdraw_loop s who l = Ok (s', m) ->
  s' = g_with_nft s (g_nft s') /\ NoDup (pairs l) /\ (forall c n, (c, n) ∈ pairs l -> owns (g_nft s) c who n) /\
  (forall d y n, owns (g_nft s') d y n <-> owns (g_nft s) d y n /\ ~ (y = who /\ (d, n) ∈ pairs l)) /\
  Forall2 (fun g h => g_r2e s !! (fst g) = Some (fst h) /\ snd g = snd h) l m.
Proof.
  induction l as [|[c ns] rest IH]; intros s s' m E; cbn [withdraw_loop] in E.
  - apply Ok_inj in E. injection E as <- <-. split; [destruct s; reflexivity|]. split; [constructor|].
    split; [intros c n H; inversion H|]. split; [|constructor]. intros d y n. cbn. rewrite elem_of_nil. tauto.
  - destruct (bool_decide (is_Some (colls (g_nft s) !! c))); [|discriminate]. cbn [ensure rbind] in E.
    destruct (bool_decide (is_Some (g_eth s !! c))); [|discriminate]. cbn [ensure rbind] in E.
    destruct (burn_all (g_nft s) who c ns) as [x|] eqn:Eb; [|discriminate]. cbn [rbind] in E.
    destruct (g_r2e s !! c) as [a|] eqn:Ea; [|discriminate]. cbn [of_opt rbind] in E.
    destruct (withdraw_loop (g_with_nft s x) who rest) as [[s2 m2]|] eqn:El; [|discriminate]. cbn [rbind fst snd] in E.
    apply Ok_inj in E. injection E as <- <-.
    destruct (burn_all_any who c ns _ _ Eb) as (Hnd & Hall & Ho). destruct (IH _ _ _ El) as (Hs2 & Hnd2 & Hall2 & Ho2 & HF2).
    cbn [g_with_nft g_nft] in *. split; [rewrite Hs2; reflexivity|]. split; [|split; [|split]].
    + apply pairs_nodup_cons. split; [exact Hnd|]. split; [|exact Hnd2]. intros n Hn Hin. apply Hall2 in Hin. apply Ho in Hin. tauto.
    + intros c' n Hin. rewrite pairs_cons in Hin. apply elem_of_app in Hin. destruct Hin as [Hin|Hin].
      * apply pair_elem in Hin. destruct Hin as [-> Hn]. apply Hall, Hn.
      * apply Hall2 in Hin. apply Ho in Hin. apply Hin.
    + intros d y n. rewrite Ho2, Ho, pairs_cons, elem_of_app, pair_elem. tauto.
    + constructor; [split; [exact Ea|reflexivity]|exact HF2].
Qed.

Section props.
  Variables cap mint_limit pallet : N.
  Variables max_addr max_tok max_coll max_ser max_id : N.
  Notation gstep := (gstep cap mint_limit pallet max_addr max_tok max_coll max_ser max_id).
  Notation deposit := (deposit cap mint_limit pallet max_addr max_tok max_ser max_id).
  Notation withdraw := (withdraw max_coll max_ser).

  (** ** C56.  A withdrawal, from any state: the message names each token of the arguments once, under the address of its
      collection, and nothing else; the caller owned every one before, and owns none after; no other ownership changes. *)
  Theorem C56_burned s who cs ns dest s' : withdraw s who cs ns dest = Ok s' ->
    exists m, g_out s' = g_out s ++ [(m, dest)] /\
      NoDup (pairs (combine cs ns)) /\
      Forall2 (fun g h => g_r2e s !! (fst g) = Some (fst h) /\ snd g = snd h) (combine cs ns) m /\
      (forall c n, (c, n) ∈ pairs (combine cs ns) -> owns (g_nft s) c who n /\ ~ owns (g_nft s') c who n) /\
      (forall c y n, (c, n) ∉ pairs (combine cs ns) \/ y <> who -> owns (g_nft s') c y n <-> owns (g_nft s) c y n).
  Proof.
    unfold NftPegModel.withdraw. intros E. destruct (_ && _); [|discriminate]. cbn [ensure rbind] in E.
    destruct (Nat.eqb _ _); [|discriminate]. cbn [ensure rbind] in E.
    destruct (withdraw_loop s who (combine cs ns)) as [[s1 m]|] eqn:El; [|discriminate]. cbn [rbind fst snd] in E. apply Ok_inj in E. subst s'.
    destruct (loop_any who _ _ _ _ El) as (Hs1 & Hnd & Hall & Ho & HF). exists m. cbn [release g_out g_nft].
    split; [rewrite Hs1; reflexivity|]. split; [exact Hnd|]. split; [exact HF|]. split.
    - intros c n Hin. split; [apply Hall, Hin|]. rewrite Ho. tauto.
    - intros c y n H. rewrite Ho. tauto.
  Qed.
  (** Reclaiming, from any state: it is the recorded destination who does it, the message names what was recorded, and the
      record is gone, so that nobody can do it again. *)
  Theorem C56_reclaim_once s who id dest s' : reclaim s who id dest = Ok s' ->
    (exists c ns a, g_blocked s !! id = Some (c, who, ns) /\ g_r2e s !! c = Some a /\ g_out s' = g_out s ++ [([(a, ns)], dest)]) /\
    g_blocked s' !! id = None /\ (forall who' dest', is_ok (reclaim s' who' id dest') = false) /\
    (forall c y n, owns (g_nft s') c y n <-> owns (g_nft s) c y n).
  Proof.
    intros E. destruct (reclaim_spec _ _ _ _ _ E) as (c & ns & a & Hb & Ha & Hout & Hbl & Hnft & _).
    split; [eauto 6|]. assert (Hn : g_blocked s' !! id = None) by (rewrite Hbl; apply lookup_delete).
    split; [exact Hn|]. split; [|rewrite Hnft; reflexivity]. intros who' dest'. unfold reclaim. rewrite Hn. reflexivity.
  Qed.
  (** Nothing else sends a message. *)
  Theorem C56_only_these s o m dest : gstep s o <> s -> g_out (gstep s o) = g_out s ++ [(m, dest)] ->
    (exists who cs ns, o = PWithdraw who cs ns dest) \/ (exists who id, o = PReclaim who id dest).
  Proof.
    assert (Hd : forall g t d, g_out (fst (do_deposit cap mint_limit pallet max_ser max_id t d g)) = g_out t).
    { induction g as [|[a ns] g IH]; intros t d; cbn [do_deposit]; [reflexivity|].
      assert (forall t1 c, collection_for cap mint_limit pallet max_id t d a = Ok (t1, c) -> g_out t1 = g_out t) as Hc.
      { intros t1 c. unfold collection_for. destruct (g_e2r t !! a); [intros [= <- <-]; reflexivity|]. cbv zeta.
        destruct (g_id t <? max_id); [|discriminate]. cbn [ensure rbind]. destruct (create _ _ _ _ _ _ _ _ _); [|discriminate].
        cbn [rbind]. intros [= <- <-]. reflexivity. }
      destruct (collection_for _ _ _ _ t d a) as [[t1 c]|] eqn:E; [|reflexivity]. specialize (Hc t1 c eq_refl).
      destruct (mint_bridged _ _ _ _ _); [rewrite IH; exact Hc|]. destruct (_ <=? _); exact Hc. }
    assert (Hl : forall (l : list (list (N * list N) * N)) x, l <> l ++ [x]).
    { intros l x H. apply (f_equal length) in H. rewrite app_length in H. cbn in H. lia. }
    intros Hne Hout. destruct o as [addrs ids d|who cs ns d|who id d|owner initial mx to root|o]; cbn [NftPegModel.gstep] in *.
    - exfalso. unfold NftPegModel.deposit in Hout. destruct (_ && _); [rewrite Hd in Hout|]; cbn in Hout; eapply Hl; exact Hout.
    - left. exists who, cs, ns. destruct (withdraw s who cs ns d) as [s'|] eqn:E; cbn [commit] in *; [|congruence].
      destruct (C56_burned _ _ _ _ _ _ E) as (m' & H & _). rewrite H in Hout. apply app_inj_tail in Hout. destruct Hout as [_ [= _ ->]]. reflexivity.
    - right. exists who, id. destruct (reclaim s who id d) as [s'|] eqn:E; cbn [commit] in *; [|congruence].
      destruct (C56_reclaim_once _ _ _ _ _ E) as [(? & ? & ? & _ & _ & H) _]. rewrite H in Hout. apply app_inj_tail in Hout. destruct Hout as [_ [= _ ->]]. reflexivity.
    - exfalso. destruct (create _ _ _ _ _ _ _ _ _); [|congruence]. cbn in Hout. eapply Hl; exact Hout.
    - exfalso. cbn in Hout. eapply Hl; exact Hout.
  Qed.

  (** ** C55.  The full statement would have [post = []]: it is false, see below.  What holds: a prefix of the groups is
      accounted for; it is everything, or it ends with the group whose mint was blocked, or the next group is of a
      collection that could not be made. *)
  Theorem C55_prefix_partial ops addrs ids dest : max_tok <= cap -> max_tok <= max_ser ->
    along gstep genuine (ops ++ [PDeposit addrs ids dest]) ginit ->
    length addrs = length ids -> N.of_nat (length addrs) <= max_addr -> (forall l, l ∈ ids -> N.of_nat (length l) <= max_tok) ->
    let s' := run gstep (ops ++ [PDeposit addrs ids dest]) ginit in
    exists pre post, combine addrs ids = pre ++ post /\
      (forall a n, (a, n) ∈ pairs pre -> exists c, g_e2r s' !! a = Some c /\
         (owner_of (g_nft s') c n = Some dest \/ exists id ns, g_blocked s' !! id = Some (c, dest, ns) /\ n ∈ ns)) /\
      (post = [] \/
       (exists a ns id c, last pre = Some (a, ns) /\ g_e2r s' !! a = Some c /\ g_blocked s' !! id = Some (c, dest, ns)) \/
       (exists a ns, head post = Some (a, ns) /\ g_e2r s' !! a = None)).
  Proof.
    intros Hcap Hser Hal Hlen Hna Htok s'. apply along_app in Hal. destruct Hal as [Hal [Hg _]].
    assert (Es : s' = gstep (run gstep ops ginit) (PDeposit addrs ids dest)) by (unfold s'; rewrite run_app; reflexivity).
    pose proof (reach_inv cap mint_limit pallet max_addr max_tok max_coll max_ser max_id ops Hal) as Hi.
    set (s := run gstep ops ginit) in *. clearbody s. clearbody s'. cbn [NftPegModel.gstep genuine] in *.
    destruct Hg as (Hnd & Hno & Hsm & Hroom). unfold NftPegModel.deposit in Es.
    assert (Hi0 : INV (g_with_held s (hold (g_held s) (pairs (combine addrs ids))))).
    { apply held_inv; [exact Hi|]. intros k Hk. apply hold_spec. auto. }
    assert (Hb : (N.of_nat (length addrs) <=? max_addr) && forallb (fun l => N.of_nat (length l) <=? max_tok) ids
       && (N.of_nat (length ids) <=? max_addr) && Nat.eqb (length addrs) (length ids) = true).
    { rewrite !andb_true_iff. rewrite <- Hlen, Nat.eqb_refl. rewrite forallb_forall. rewrite !(proj2 (N.leb_le _ _)) by exact Hna.
      repeat split. intros l Hl. apply N.leb_le, Htok, elem_of_list_In, Hl. }
    rewrite Hb, (sat_ids _ _ Hsm) in Es.
    destruct (do_deposit _ _ _ _ _ _ dest (combine addrs ids)) as [s2 ok] eqn:E. cbn [fst] in Es. subst s2.
    destruct (deposit_inv cap mint_limit pallet max_ser max_id dest (combine addrs ids) _ s' ok Hi0 Hroom (fresh_held s _ Hi Hno) Hnd E) as (Hset & Hi' & _).
    destruct Hset as (pre & post & Hc & Hs & Hok & Hpost).
    { apply Forall_forall. intros [a l] Hin. cbn [snd]. apply elem_of_list_In, in_combine_r, elem_of_list_In in Hin.
      specialize (Htok l Hin). lia. }
    exists pre, post. split; [exact Hc|]. split.
    - intros a n Hin. destruct (Hs a n Hin) as (c & H1 & H2). exists c. split; [exact H1|]. destruct H2 as [H2|H2]; [left|right; exact H2].
      apply owner_owns; [exact (v_wf s' Hi')|exact H2].
    - destruct post as [|[a l] post]; [left; reflexivity|right]. destruct Hpost as [(id & [a' ns'] & H1 & c & H2 & H3)|(a' & H1 & H2)]; [discriminate| |].
      + left. exists a', ns', id, c. split; [exact H1|]. split; [apply (v_inv s' Hi'); exact H3|exact H2].
      + right. cbn in H2. injection H2 as <-. exists a, l. split; [reflexivity|]. destruct (g_e2r s' !! a) eqn:Ea; [|reflexivity]. exfalso. apply H1. eauto.
  Qed.
  (** A deposit of one collection that this chain knows loses nothing. *)
  Theorem C55_single_partial ops a ns dest c n : max_tok <= cap -> max_tok <= max_ser -> 1 <= max_addr ->
    along gstep genuine (ops ++ [PDeposit [a] [ns] dest]) ginit -> N.of_nat (length ns) <= max_tok ->
    let s' := run gstep (ops ++ [PDeposit [a] [ns] dest]) ginit in g_e2r s' !! a = Some c -> n ∈ ns ->
    owner_of (g_nft s') c n = Some dest \/ exists id ns, g_blocked s' !! id = Some (c, dest, ns) /\ n ∈ ns.
  Proof.
    intros Hcap Hser Hone Hal Hlen s' Ha Hn.
    destruct (C55_prefix_partial ops [a] [ns] dest Hcap Hser Hal eq_refl) as (pre & post & Hc & Hs & Hp).
    { cbn. lia. }
    { intros l Hl. apply elem_of_list_singleton in Hl. subst l. exact Hlen. }
    fold s' in Hs, Hp. cbn [combine] in Hc. destruct pre as [|g pre].
    - cbn in Hc. subst post. destruct Hp as [Hp|[(? & ? & ? & ? & Hp & _)|(a' & ns' & Hp & Hq)]]; [discriminate|discriminate|].
      cbn in Hp. injection Hp as <- <-. congruence.
    - cbn in Hc. injection Hc as <- Hc. destruct pre; [|discriminate]. destruct (Hs a n) as (c' & H1 & H2).
      { apply pairs_elem. exists ns. split; [left|exact Hn]. }
      assert (c' = c) by congruence. subst c'. exact H2.
  Qed.
  (** Whoever a blocked entry is for can have it back, at any time, and gets just what is recorded. *)
  Theorem C55_reclaim ops id c who ns dest : along gstep genuine ops ginit -> let s := run gstep ops ginit in
    g_blocked s !! id = Some (c, who, ns) ->
    exists s' a, reclaim s who id dest = Ok s' /\ g_e2r s !! a = Some c /\ g_out s' = g_out s ++ [([(a, ns)], dest)].
  Proof.
    intros Hal s Hb. pose proof (reach_inv cap mint_limit pallet max_addr max_tok max_coll max_ser max_id ops Hal) as Hi. fold s in Hi.
    destruct (v_blk s Hi id c who ns Hb) as (_ & _ & a & Ha & _). destruct (v_col s Hi c a Ha) as [Hroot He].
    unfold reclaim. rewrite Hb. cbn [of_opt rbind]. rewrite N.eqb_refl. cbn [ensure rbind].
    rewrite bool_decide_eq_true_2 by (apply root_exists; rewrite Hroot; eauto). cbn [ensure rbind].
    rewrite bool_decide_eq_true_2 by exact He. cbn [ensure rbind]. rewrite Ha. cbn [of_opt rbind].
    eexists _, a. split; [reflexivity|]. split; [apply (v_inv s Hi); exact Ha|reflexivity].
  Qed.
  (** And the entry stays until they do. *)
  Theorem C55_kept ops o id c who ns : along gstep genuine (ops ++ [o]) ginit -> let s := run gstep ops ginit in
    g_blocked s !! id = Some (c, who, ns) -> (forall dest, o <> PReclaim who id dest) ->
    g_blocked (gstep s o) !! id = Some (c, who, ns).
  Proof.
    intros Hal s Hb Hne. apply along_app in Hal. destruct Hal as [Hal [Hg _]]. fold s in Hg.
    pose proof (reach_inv cap mint_limit pallet max_addr max_tok max_coll max_ser max_id ops Hal) as Hi. fold s in Hi. clearbody s.
    destruct o as [addrs ids d|w cs l d|w j d|owner initial mx to root|o]; cbn [NftPegModel.gstep genuine] in *.
    - destruct Hg as (Hnd & Hno & Hsm & Hroom). unfold NftPegModel.deposit. destruct (_ && _); [|exact Hb]. rewrite (sat_ids _ _ Hsm).
      destruct (do_deposit _ _ _ _ _ _ d (combine addrs ids)) as [s2 ok] eqn:E. cbn [fst].
      eapply (deposit_inv cap mint_limit pallet max_ser max_id d (combine addrs ids)) in E;
        [|apply held_inv; [exact Hi|intros k Hk; apply hold_spec; auto]|exact Hroom|apply fresh_held; assumption|exact Hnd].
      apply E. exact Hb.
    - destruct (withdraw s w cs l d) as [s'|] eqn:E; [|exact Hb]. unfold NftPegModel.withdraw in E. destruct (_ && _); [|discriminate]. cbn [ensure rbind] in E.
      destruct (Nat.eqb _ _); [|discriminate]. cbn [ensure rbind] in E.
      destruct (withdraw_loop s w (combine cs l)) as [[s1 m]|] eqn:El; [|discriminate]. cbn [rbind fst snd] in E. apply Ok_inj in E. subst s'.
      destruct (loop_any w _ _ _ _ El) as (Hs1 & _). cbn. rewrite Hs1. exact Hb.
    - destruct (reclaim s w j d) as [s'|] eqn:E; [|exact Hb]. destruct (reclaim_spec _ _ _ _ _ E) as (c' & ns' & a & Hb' & _ & _ & Hbl & _).
      cbn [commit]. rewrite Hbl. destruct (decide (j = id)) as [->|Hj]; [|rewrite lookup_delete_ne by exact Hj; exact Hb].
      exfalso. apply (Hne d). f_equal. congruence.
    - destruct (create _ _ _ _ _ _ _ _ _); exact Hb.
    - exact Hb.
  Qed.

  (** ** C90.  Every release message, in every genuine history, names tokens that the contract holds, each once. *)
  Theorem C90_backed_partial ops o m dest : along gstep genuine (ops ++ [o]) ginit -> let s := run gstep ops ginit in
    g_out (gstep s o) = g_out s ++ [(m, dest)] ->
    NoDup (pairs m) /\ (forall k, k ∈ pairs m -> isin (g_held s) k) /\ (forall k, k ∈ pairs m -> ~ isin (g_held (gstep s o)) k).
  Proof.
    intros Hal s Hout. apply along_app in Hal. destruct Hal as [Hal _].
    pose proof (reach_inv cap mint_limit pallet max_addr max_tok max_coll max_ser max_id ops Hal) as Hi. fold s in Hi. clearbody s.
    assert (Hne : gstep s o <> s).
    { intros E. rewrite E in Hout. apply (f_equal length) in Hout. rewrite app_length in Hout. cbn in Hout. lia. }
    destruct (C56_only_these s o m dest Hne Hout) as [(who & cs & ns & ->)|(who & id & ->)]; cbn [NftPegModel.gstep] in *.
    - destruct (withdraw s who cs ns dest) as [s'|] eqn:E; cbn [commit] in *; [|congruence].
      unfold NftPegModel.withdraw in E. destruct (_ && _); [|discriminate]. cbn [ensure rbind] in E.
      destruct (Nat.eqb _ _); [|discriminate]. cbn [ensure rbind] in E.
      destruct (withdraw_loop s who (combine cs ns)) as [[s1 m1]|] eqn:El; [|discriminate]. cbn [rbind fst snd] in E. apply Ok_inj in E. subst s'.
      destruct (loop_any who _ _ _ _ El) as (Hs1 & _). cbn [release g_out] in Hout.
      assert (m1 = m). { rewrite Hs1 in Hout. cbn in Hout. apply app_inj_tail in Hout. destruct Hout as [_ [= ->]]. reflexivity. }
      subst m1. destruct (withdraw_inv s who _ s1 m dest Hi El) as (_ & H1 & H2). split; [exact H1|]. split; [exact H2|].
      intros k Hk H. cbn in H. apply drop_spec in H. tauto.
    - destruct (reclaim s who id dest) as [s'|] eqn:E; cbn [commit] in *; [|congruence].
      destruct (reclaim_inv _ _ _ _ _ Hi E) as (_ & m' & H1 & H2 & H3). rewrite H1 in Hout. apply app_inj_tail in Hout.
      destruct Hout as [_ [= ->]]. split; [exact H2|]. split; [exact H3|]. intros k Hk H.
      destruct (reclaim_spec _ _ _ _ _ E) as (c & ns & a & _ & _ & Ho & _ & _ & _ & _ & _ & _ & _ & Hh).
      rewrite Ho in H1. apply app_inj_tail in H1. destruct H1 as [_ [= <-]]. rewrite Hh in H. apply drop_spec in H. tauto.
  Qed.
End props.

(** ** Witnesses: collections of at most 3 tokens, ids from 0, accounts 7 and 8, addresses 101 and 102. *)
Local Notation st := (NftPegModel.gstep 3 3 999 10 3 10 3 100).
Local Notation gen := (@genuine).
Lemma genuine_dep s addrs ids dest : NoDup (pairs (combine addrs ids)) ->
  forallb (fun k => negb (bool_decide (is_Some (g_held s !! k))) && (snd k <? 2 ^ 32)) (pairs (combine addrs ids)) = true ->
  g_nextb s + 1 < 2 ^ 32 -> genuine s (PDeposit addrs ids dest).
Proof.
  intros Hnd Hall Hr. rewrite forallb_forall in Hall. split; [exact Hnd|]. split; [|split; [|exact Hr]].
  - intros k Hk. apply elem_of_list_In, Hall, andb_true_iff in Hk. destruct Hk as [Hk _]. apply negb_true_iff, bool_decide_eq_false in Hk. exact Hk.
  - intros a n Hk. apply elem_of_list_In, Hall, andb_true_iff in Hk. destruct Hk as [_ Hk]. apply N.ltb_lt in Hk. exact Hk.
Qed.
Ltac dep := apply genuine_dep; [apply (bool_decide_unpack _); vm_compute; exact I|vm_compute; reflexivity|vm_compute; reflexivity].

(** Two collections in one message; the first is full.  Its token is blocked, and the second collection's token is neither
    minted nor recorded: the loop stopped (lib.rs 348-379).  The contract holds it for good. *)
Definition full_then_two : list pop := [PDeposit [101] [[1; 2; 3]] 7; PDeposit [102] [[5]] 8; PDeposit [101; 102] [[4]; [6]] 7].
Theorem C55_partial_failure_refuted : exists ops a n c, along st gen ops ginit /\ let s := run st ops ginit in
  isin (g_held s) (a, n) /\ g_e2r s !! a = Some c /\ owner_of (g_nft s) c n = None /\
  forall id c' d ns, g_blocked s !! id = Some (c', d, ns) -> c' = c -> n ∉ ns.
Proof.
  exists full_then_two, 102, 6, 1. split.
  - split; [dep|]. split; [dep|]. split; [dep|]. exact I.
  - repeat split; try (vm_compute; reflexivity).
    + exists tt. vm_compute. reflexivity.
    + intros id c' d ns H. 
      assert (E : map_to_list (g_blocked (run st full_then_two ginit)) = [(0, (0, 7, [4]))]) by (vm_compute; reflexivity).
      apply elem_of_map_to_list in H. rewrite E in H. apply elem_of_list_singleton in H. injection H as -> -> -> ->. discriminate.
Qed.
(** Token ids of 2^32 and above are taken for 2^32 - 1 (lib.rs 247): the second such deposit gives nothing, and withdrawing
    the one NFT releases a token that the contract does not hold. *)
Definition big_ids : list pop := [PDeposit [101] [[2 ^ 32 + 5]] 7; PDeposit [101] [[2 ^ 40]] 8].
Theorem C55_big_id_refuted : exists ops, let s := run st ops ginit in
  isin (g_held s) (101, 2 ^ 40) /\ g_e2r s !! 101 = Some 0 /\ owner_of (g_nft s) 0 (2 ^ 32 - 1) = Some 7 /\
  owner_of (g_nft s) 0 (2 ^ 40) = None /\ g_blocked s = ∅ /\ List.In (PDeposit [101] [[2 ^ 40]] 8) ops.
Proof. exists big_ids. repeat split; try (vm_compute; reflexivity); [exists tt; vm_compute; reflexivity|right; left; reflexivity]. Qed.
Theorem C90_big_id_refuted : exists ops o m dest, let s := run st ops ginit in
  g_out (st s o) = g_out s ++ [(m, dest)] /\ exists k, k ∈ pairs m /\ g_held s !! k = None.
Proof.
  exists big_ids, (PWithdraw 7 [0] [[2 ^ 32 - 1]] 55), [(101, [2 ^ 32 - 1])], 55. split; [vm_compute; reflexivity|].
  exists (101, 2 ^ 32 - 1). split; [left|vm_compute; reflexivity].
Qed.
(** A history with mints, transfers, a blocked mint, a withdrawal and a reclaim that meets the hypotheses. *)
Definition story : list pop := full_then_two ++
  [PNft (NTransfer 7 0 [2] 8); PCreate 8 1 None 8 true; PNft (NMint 8 2 1 7 true); PWithdraw 7 [0] [[1; 3]] 55; PReclaim 7 0 56; PDeposit [101] [[1]] 8].
Example ex_story : along st gen story ginit /\ let s := run st story ginit in
  g_out s = [([(101, [1; 3])], 55); ([(101, [4])], 56)] /\ owner_of (g_nft s) 0 1 = Some 8 /\ owner_of (g_nft s) 0 2 = Some 8 /\
  owner_of (g_nft s) 2 1 = Some 7.
Proof.
  split.
  - split; [dep|]. split; [dep|]. split; [dep|]. split; [split; [apply (bool_decide_unpack _); vm_compute; exact I|exact I]|].
    split; [exact I|]. split; [split; exact I|]. split; [exact I|]. split; [exact I|]. split; [dep|]. exact I.
  - vm_compute. auto.
Qed.
Example ex_blocked : let s := run st full_then_two ginit in g_blocked s !! 0 = Some (0, 7, [4]) /\ is_ok (reclaim s 7 0 56) = true /\ is_ok (reclaim s 8 0 56) = false.
Proof. vm_compute. auto. Qed.

Print Assumptions C55_prefix_partial.
Print Assumptions C55_single_partial.
Print Assumptions C55_reclaim.
Print Assumptions C55_kept.
Print Assumptions C55_partial_failure_refuted.
Print Assumptions C55_big_id_refuted.
Print Assumptions C56_burned.
Print Assumptions C56_reclaim_once.
Print Assumptions C56_only_these.
Print Assumptions C90_backed_partial.
Print Assumptions C90_big_id_refuted.
