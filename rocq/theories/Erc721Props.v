(** What wallets and contracts can rely on when they use an NFT collection as an ERC-721 contract:
    C126 to C132. *)
From Verif Require Import AbiProofs AbiProps NftProps Erc1155Proofs Erc721Proofs.
From Coq Require Import Sorted.
From Verif Require Erc1155Props.
From Verif Require Import NftProofs NftModel.

(** ** Histories *)
(** [P] holds of an operation and of everything the contracts it calls do meanwhile. *)
Fixpoint every (P : eop -> Prop) (o : eop) {struct o} : Prop :=
  P o /\ match o with
         | ECall _ _ _ _ _ _ (Some (ops, _)) => (fix all (l : list eop) := match l with [] => True | x :: r => every P x /\ all r end) ops
         | _ => True
         end.
Lemma eop_all (Q : eop -> Prop) :
  (forall o, Q (ENft o)) -> (forall who c name, Q (EName who c name)) ->
  (forall caller c st v call ext, Q (ECall caller c st v call ext None)) ->
  (forall caller c st v call ext ops ans, Forall Q ops -> Q (ECall caller c st v call ext (Some (ops, ans)))) ->
  forall o, Q o.
Proof.
  intros H0 H1 H2 H3. fix IH 1. intros [o|who c name|caller c st v call ext [[ops ans]|]].
  - apply H0.
  - apply H1.
  - apply H3. revert ops. fix go 1. intros [|x l]; constructor; [apply IH|apply go].
  - apply H2.
Qed.
Lemma every_list P ops : (fix all (l : list eop) := match l with [] => True | x :: r => every P x /\ all r end) ops <-> Forall (every P) ops.
Proof.
  induction ops as [|x l IH]; [split; auto|]. split.
  - intros [H1 H2]. constructor; [exact H1|apply IH, H2].
  - intros H. inversion H; subst. split; [assumption|apply IH; assumption].
Qed.
Lemma every_impl (P Q : eop -> Prop) : (forall o, P o -> Q o) -> forall o, every P o -> every Q o.
Proof.
  intros HPQ. induction o as [o|who c name|caller c st v call ext|caller c st v call ext ops ans IH] using eop_all; intros [H1 H2]; split; auto.
  apply every_list in H2. apply every_list. clear -IH H2. induction IH; inversion H2; subst; constructor; auto.
Qed.

(** Which collections the bridge mints into is fixed: those are not created on this chain (finding
    [C15_bridged_root_refuted]).  [bridged] is the set of these collections. *)
Definition fair (bridged : N -> Prop) (o : eop) : Prop :=
  match o with
  | ENft (NBridge _ c _) => bridged c
  | ENft (NCreate id _ _ _ _ true) => ~ bridged id
  | _ => True
  end.
(** Pallet transfers do not name a token twice (finding [C15_duplicate_serials_refuted]). *)
Definition tidy_op (o : eop) : Prop := match o with ENft o => neat o | _ => True end.
(** Serial numbers are u32. *)
Definition u32_op (o : eop) : Prop :=
  match o with
  | ENft (NBridge _ _ ns) => Forall (fun n => n <= U32MAX) ns
  | ENft (NCreate _ _ initial _ _ _) => initial <= U32MAX
  | _ => True
  end.

(** ** Sorted lists and pages of them *)
Lemma sorted_app a b : sorted (a ++ b) -> sorted a /\ sorted b /\ forall x y, x ∈ a -> y ∈ b -> x <= y.
Proof.
  induction a as [|m a IH]; intros H; [split; [constructor|split; [exact H|intros x y Hx; inversion Hx]]|].
  cbn [app] in H. inversion H as [|? ? H1 H2]; subst. destruct (IH H1) as (Ha & Hb & Hc).
  apply Forall_app in H2 as [H2 H3]. split; [constructor; assumption|]. split; [exact Hb|].
  intros x y Hx Hy. apply elem_of_cons in Hx as [->|Hx]; [|auto]. rewrite Forall_forall in H3. apply H3, Hy.
Qed.
Lemma sorted_filter p l : sorted l -> sorted (List.filter p l).
Proof.
  induction 1 as [|x l Hl IH Hx]; [constructor|]. cbn [List.filter]. destruct (p x); [|exact IH]. constructor; [exact IH|].
  apply Forall_forall. intros y Hy. apply elem_of_list_In, filter_In in Hy as [Hy _]. rewrite Forall_forall in Hx.
  apply Hx, elem_of_list_In, Hy.
Qed.
Lemma last_in (l : list N) : l <> [] -> List.last l 0 ∈ l.
Proof.
  induction l as [|x l IH]; [congruence|intros _]. destruct l as [|y l]; [left|]. right. apply IH. discriminate.
Qed.
Lemma sorted_last l x : sorted l -> x ∈ l -> x <= List.last l 0.
Proof.
  intros H Hx. destruct l as [|y l] using rev_ind; [inversion Hx|]. clear IHl. rewrite last_last.
  apply sorted_app in H as (_ & _ & H). apply elem_of_app in Hx as [Hx|Hx]; [apply H; [exact Hx|left]|].
  apply elem_of_list_singleton in Hx. lia.
Qed.
Lemma in_filter cur (l : list N) n : n ∈ List.filter (fun n => cur <=? n) l <-> n ∈ l /\ cur <= n.
Proof. rewrite elem_of_list_In, filter_In, <- elem_of_list_In, N.leb_le. reflexivity. Qed.
Lemma filter_filter cur nxt (l : list N) : cur <= nxt ->
  List.filter (fun n => nxt <=? n) (List.filter (fun n => cur <=? n) l) = List.filter (fun n => nxt <=? n) l.
Proof.
  intros H. induction l as [|x l IH]; [reflexivity|]. cbn [List.filter]. destruct (N.leb_spec cur x); cbn [List.filter]; rewrite IH; [reflexivity|].
  destruct (N.leb_spec nxt x); [lia|reflexivity].
Qed.
Lemma filter_none (l : list N) nxt : (forall x, x ∈ l -> x < nxt) -> List.filter (fun n => nxt <=? n) l = [].
Proof.
  induction l as [|x l IH]; intros H; [reflexivity|]. cbn [List.filter]. destruct (N.leb_spec nxt x).
  - specialize (H x ltac:(left)). lia.
  - apply IH. intros y Hy. apply H. right. exact Hy.
Qed.
Lemma filter_all (l : list N) nxt : (forall x, x ∈ l -> nxt <= x) -> List.filter (fun n => nxt <=? n) l = l.
Proof.
  induction l as [|x l IH]; intros H; [reflexivity|]. cbn [List.filter]. destruct (N.leb_spec nxt x).
  - f_equal. apply IH. intros y Hy. apply H. right. exact Hy.
  - specialize (H x ltac:(left)). lia.
Qed.
Lemma owned_own t who n : NoDup (map fst t) -> n ∈ owned_list t who <-> own t who n.
Proof.
  unfold owned_list. induction t as [|[y l] t IH]; intros Hnd; [cbn; rewrite own_nil; split; [intros H; inversion H|tauto]|].
  cbn [map fst] in Hnd. apply NoDup_cons in Hnd as [Hni Hnd]. cbn [List.find fst]. rewrite own_cons.
  destruct (N.eqb_spec y who) as [->|Hne].
  - cbn [snd]. split; [auto|]. intros [[_ H]|(k & Hk & _)]; [exact H|]. exfalso. apply Hni, elem_of_list_In, in_map_iff.
    exists (who, k). split; [reflexivity|apply elem_of_list_In, Hk].
  - rewrite IH by exact Hnd. split; [auto|]. intros [[-> _]|H]; [congruence|exact H].
Qed.
Lemma owned_nodup t who : NoDup (flat t) -> NoDup (owned_list t who).
Proof.
  unfold owned_list. induction t as [|[y l] t IH]; intros H; [constructor|]. cbn [flat flat_map snd] in H. apply NoDup_app in H as (H1 & _ & H2).
  cbn [List.find fst]. destruct (y =? who); [exact H1|apply IH, H2].
Qed.
Lemma balance_length t who : token_balance t who = N.of_nat (length (owned_list t who)).
Proof. unfold token_balance, owned_list. destruct (List.find _ _); reflexivity. Qed.

(** A reader of [ownedTokens] asks with cursor 0, then with the cursor of each answer, until that is 0.
    Tokens may move between the questions: [ss] are the states in which they are asked, and
    [asks s cursor next page] the answer they get. *)
Inductive walked {S} (asks : S -> N -> N -> list N -> Prop) : list S -> N -> list N -> Prop :=
| w_last s cur page : asks s cur 0 page -> walked asks [s] cur page
| w_more s ss cur next page rest : asks s cur next page -> next <> 0 ->
    walked asks ss next rest -> walked asks (s :: ss) cur (page ++ rest).
Definition page_of (c who limit : N) (s : nft) (cur next : N) (page : list N) : Prop :=
  exists total, owned_tokens s c who cur limit = (next, total, page).

Lemma page_spec s c i who cur limit next total page : colls s !! c = Some i -> NoDup (map fst (c_toks i)) -> 0 < limit ->
  owned_tokens s c who cur limit = (next, total, page) ->
  (forall n, own (c_toks i) who n -> cur <= n -> n ∈ page \/ (next <> 0 /\ next <= n)) /\
  (forall n, n ∈ page -> own (c_toks i) who n /\ cur <= n) /\
  ((forall n, own (c_toks i) who n -> n <= U32MAX) -> next <> 0 -> forall n, n ∈ page -> n < next) /\
  (NoDup (flat (c_toks i)) -> NoDup page).
Proof.
  intros Hc Hnd Hl E. unfold owned_tokens in E. rewrite Hc in E. injection E as En _ Ep.
  set (all := sort (owned_list (c_toks i) who)) in *.
  assert (Hall : forall n, n ∈ all <-> own (c_toks i) who n).
  { intros n. unfold all. rewrite <- owned_own by exact Hnd. rewrite sort_perm. reflexivity. }
  pose proof (sort_sorted (owned_list (c_toks i) who)) as Hs. fold all in Hs.
  set (f := List.filter (fun n => cur <=? n) all) in *. set (k := N.to_nat (N.min limit 1000)) in *.
  assert (Hk : (1 <= k)%nat) by (unfold k; lia). pose proof (sorted_filter (fun n => cur <=? n) all Hs) as Hf. fold f in Hf.
  pose proof (firstn_skipn k f) as Hsp. rewrite Ep in Hsp, En. pose proof Hf as Hf'. rewrite <- Hsp in Hf'. apply sorted_app in Hf' as (Sp & _ & Sc).
  assert (Hsub : forall n, n ∈ page -> n ∈ f) by (intros n Hn; rewrite <- Hsp; apply elem_of_app; auto).
  assert (Hne : page <> [] -> List.last page 0 ∈ page) by apply last_in.
  assert (Hin : forall n, n ∈ page -> own (c_toks i) who n /\ cur <= n).
  { intros n Hn. apply Hsub, in_filter in Hn as [H1 H2]. rewrite <- Hall. auto. }
  split; [|split; [exact Hin|split]].
  - intros n Ho Hn. apply Hall in Ho. assert (Hnf : n ∈ f) by (apply in_filter; auto). rewrite <- Hsp in Hnf.
    apply elem_of_app in Hnf as [Hnf|Hnf]; [auto|].
    assert (Hp : page <> []).
    { intros E. rewrite E in Ep. destruct f as [|x f0]; [rewrite skipn_nil in Hnf; inversion Hnf|]. destruct k; [lia|discriminate Ep]. }
    specialize (Hne Hp). pose proof (Sc _ _ Hne Hnf) as Hle. destruct page as [|x0 page0] eqn:Epage; [congruence|]. rewrite <- Epage in *.
    destruct (N.eqb_spec (List.last page 0) (List.last all 0)) as [El|El]; cbn [negb] in En.
    + left. pose proof (sorted_last all n Hs Ho). assert (n = List.last page 0) as -> by lia. exact Hne.
    + destruct (decide (n = List.last page 0)) as [->|]; [auto|]. right. subst next. unfold sat. unfold U32MAX. lia.
  - intros Hu Hnx n Hn. destruct page as [|x0 page0] eqn:Epage; [inversion Hn|]. rewrite <- Epage in *. assert (Hp : page <> []) by congruence.
    specialize (Hne Hp). destruct (N.eqb_spec (List.last page 0) (List.last all 0)) as [El|El]; cbn [negb] in En; [congruence|].
    pose proof (sorted_last page n Sp Hn). apply Hin in Hne as Hin'. destruct Hin' as [Ho _]. apply Hall in Ho as Ha.
    pose proof (sorted_last all _ Hs Ha) as Hla.
    assert (Hal : List.last all 0 ∈ all) by (apply last_in; intros E0; rewrite E0 in Ha; inversion Ha).
    apply Hall, Hu in Hal. subst next. unfold sat. rewrite N.min_l by lia. lia.
  - intros Ht. apply (owned_nodup _ who) in Ht. rewrite <- sort_perm in Ht. fold all in Ht.
    assert (NoDup f) as Hdf by (apply NoDup_ListNoDup, List.NoDup_filter, NoDup_ListNoDup, Ht).
    rewrite <- Hsp in Hdf. apply NoDup_app in Hdf. apply Hdf.
Qed.

(** The pages of one state are its sorted list. *)
Lemma last_filter all cur : sorted all -> List.filter (fun n => cur <=? n) all <> [] ->
  List.last (List.filter (fun n => cur <=? n) all) 0 = List.last all 0.
Proof.
  intros Hs Hne. pose proof (sorted_filter (fun n => cur <=? n) all Hs) as Hf.
  pose proof (last_in _ Hne) as Hin. pose proof Hin as Hin'. apply in_filter in Hin' as [Ha Hc].
  pose proof (sorted_last all _ Hs Ha) as Hle. apply N.le_antisymm; [exact Hle|].
  apply sorted_last; [exact Hf|]. apply in_filter. split; [|lia]. apply last_in. intros ->. inversion Ha.
Qed.
Lemma walk_state s c i who limit : colls s !! c = Some i -> NoDup (map fst (c_toks i)) -> NoDup (flat (c_toks i)) ->
  (forall n, own (c_toks i) who n -> n <= U32MAX) -> 0 < limit ->
  forall m cur f, f = List.filter (fun n => cur <=? n) (sort (owned_list (c_toks i) who)) -> (length f <= m)%nat ->
  exists k, (k <= S m)%nat /\ walked (page_of c who limit) (repeat s k) cur f.
Proof.
  intros Hc Hnd Ht Hu Hl. set (all := sort (owned_list (c_toks i) who)).
  assert (Hall : forall n, n ∈ all <-> own (c_toks i) who n).
  { intros n. unfold all. rewrite <- owned_own by exact Hnd. rewrite sort_perm. reflexivity. }
  pose proof (sort_sorted (owned_list (c_toks i) who)) as Hs. fold all in Hs.
  assert (Hda : NoDup all) by (unfold all; rewrite sort_perm; apply owned_nodup, Ht).
  set (k := N.to_nat (N.min limit 1000)). assert (Hk : (1 <= k)%nat) by (unfold k; lia).
  assert (EQ : forall cur, owned_tokens s c who cur limit =
    (match firstn k (List.filter (fun n => cur <=? n) all) with
     | [] => 0
     | _ => if negb (List.last (firstn k (List.filter (fun n => cur <=? n) all)) 0 =? List.last all 0)
            then sat U32MAX (List.last (firstn k (List.filter (fun n => cur <=? n) all)) 0 + 1) else 0 end,
     sat U32MAX (N.of_nat (length all)), firstn k (List.filter (fun n => cur <=? n) all))).
  { intros cur. unfold owned_tokens. rewrite Hc. reflexivity. }
  assert (Hdone : forall cur f, f = List.filter (fun n => cur <=? n) all -> (length f <= k)%nat -> walked (page_of c who limit) [s] cur f).
  { intros cur f Ef Hle. pose proof (EQ cur) as E. rewrite <- Ef in E. rewrite firstn_all2 in E by exact Hle. eapply w_last. exists (sat U32MAX (N.of_nat (length all))). rewrite E. f_equal. f_equal.
    destruct f as [|x f0] eqn:Eff; [reflexivity|]. rewrite <- Eff in *.
    assert (List.last f 0 = List.last all 0) as ->. { subst f. rewrite Ef. apply last_filter; [exact Hs|]. rewrite <- Ef. congruence. }
    rewrite N.eqb_refl. reflexivity. }
  induction m as [|m IH]; intros cur f Ef Hm.
  - exists 1%nat. split; [lia|]. apply Hdone; [exact Ef|lia].
  - destruct (Nat.le_gt_cases (length f) k) as [Hle|Hgt]; [exists 1%nat; split; [lia|]; apply Hdone; assumption|].
    set (p := firstn k f). pose proof (firstn_skipn k f) as Hsp. fold p in Hsp.
    assert (Hlp : length p = k) by (unfold p; rewrite firstn_length; lia).
    assert (Hp : p <> []) by (intros E; rewrite E in Hlp; cbn in Hlp; lia).
    assert (Hds : skipn k f <> []). { intros E. rewrite E, app_nil_r in Hsp. rewrite Hsp in Hlp. lia. }
    assert (Hfa : forall x, x ∈ p \/ x ∈ skipn k f -> x ∈ all /\ cur <= x).
    { intros x Hx. apply in_filter. rewrite <- Ef, <- Hsp. apply elem_of_app, Hx. }
    assert (Hfs : sorted f) by (subst f; apply sorted_filter, Hs).
    assert (Hdf : NoDup f) by (subst f; apply NoDup_ListNoDup, List.NoDup_filter, NoDup_ListNoDup, Hda).
    rewrite <- Hsp in Hfs, Hdf. apply sorted_app in Hfs as (Sp & Ss & Sc). apply NoDup_app in Hdf as (_ & Hdis & _).
    pose proof (last_in p Hp) as Hlast.
    assert (Hlt : forall x, x ∈ skipn k f -> List.last p 0 < x).
    { intros x Hx. pose proof (Sc _ _ Hlast Hx). destruct (decide (x = List.last p 0)) as [->|]; [|lia]. exfalso. eapply Hdis; eassumption. }
    pose proof (last_in _ Hds) as Hq. pose proof (Hlt _ Hq) as Hq1.
    assert (Hqa : List.last (skipn k f) 0 ∈ all) by (apply Hfa; auto).
    pose proof (sorted_last all _ Hs Hqa) as Hq2. apply Hall, Hu in Hqa.
    assert (Hcur : cur <= List.last p 0) by (apply Hfa; auto).
    assert (Eo : owned_tokens s c who cur limit = (List.last p 0 + 1, sat U32MAX (N.of_nat (length all)), p)).
    { rewrite EQ, <- Ef. fold p. f_equal. f_equal. destruct p as [|x0 p0] eqn:Epp; [congruence|]. rewrite <- Epp in *.
      destruct (N.eqb_spec (List.last p 0) (List.last all 0)); [lia|]. cbn [negb]. unfold sat. rewrite N.min_l by lia. reflexivity. }
    destruct (IH (List.last p 0 + 1) (skipn k f)) as (j & Hj & Hw).
    + rewrite <- (filter_filter cur) by lia. rewrite <- Ef. transitivity (List.filter (fun n => List.last p 0 + 1 <=? n) (p ++ skipn k f)); [|rewrite Hsp; reflexivity].
      rewrite List.filter_app, filter_none, filter_all; [reflexivity|intros x Hx; apply Hlt in Hx; lia|].
      intros x Hx. pose proof (sorted_last p x Sp Hx). lia.
    + rewrite skipn_length. lia.
    + exists (S j). split; [lia|]. rewrite <- Hsp. cbn [repeat]. eapply w_more; [eexists; exact Eo|lia|exact Hw].
Qed.

Section props.
  Variable cap mint_limit pallet max_xls20 : N.
  Variable utf8 : list N -> bool.
  Notation nexec := (nexec cap mint_limit pallet).
  Notation nstep := (nstep cap mint_limit pallet).
  Notation execute := (execute721 cap mint_limit max_xls20 utf8).
  Notation dispatch := (dispatch721 cap mint_limit max_xls20 utf8).
  Notation estep := (estep cap mint_limit pallet max_xls20 utf8).
  Notation eff := (eff721 cap mint_limit pallet).
  Notation step_effect := (step_effect cap mint_limit pallet).

  Lemma estep_rel (P : eop -> Prop) (R : estate -> estate -> Prop) :
    (forall s, R s s) -> (forall a b c, R a b -> R b c -> R a c) ->
    (forall s o, P (ENft o) -> R s (with_nft s (nstep (e_nft s) o))) ->
    (forall s m, R s (EState (e_nft s) m (e_uri s) (e_fee s) (e_xrpl s) (e_logs s))) ->
    (forall caller c st v call ext r s s', P (ECall caller c st v call ext r) -> eff caller c s s' -> R s s') ->
    (forall caller c st v call ext r s s1 from to id x, P (ECall caller c st v call ext r) -> R s s1 ->
       is_approved_or_owner (e_nft s) c id caller = true -> do_transfer cap (e_nft s1) c [id] from to = Ok x ->
       R s (elogs (with_nft s1 x) [tlog c from to id])) ->
    forall o s, every P o -> R s (estep s o).
  Proof.
    intros Hr Ht Hn Hm He Hs. induction o as [o|who c name|caller c st v call ext|caller c st v call ext ops ans IH] using eop_all; intros s Hv.
    - destruct Hv as [Hv _]. cbn [Erc721Model.estep]. apply Hn, Hv.
    - cbn [Erc721Model.estep]. destruct (set_name utf8 s who c name) as [x|] eqn:E; cbn [commit]; [|apply Hr].
      unfold set_name in E. inv_ok. subst x. apply Hm.
    - destruct Hv as [Hv _]. cbn [Erc721Model.estep].
      destruct (execute s None caller c st v call ext) as [[s' o]|] eqn:E; [|apply Hr].
      apply (execute_outcome cap mint_limit pallet) in E as [E|? ? ? ? ? ? ? [=]]. eapply He; eassumption.
    - destruct Hv as [Hv Hops]. apply every_list in Hops. cbn [Erc721Model.estep].
      set (mid := fold_left _ ops s).
      assert (M : R s mid).
      { unfold mid. clear mid Hv. revert s Hops. induction IH as [|o ops Ho Hf IHf]; intros s Hops; [apply Hr|].
        inversion Hops; subst. cbn [fold_left]. eapply Ht; [apply Ho; assumption|apply IHf; assumption]. }
      destruct (execute s (Some (mid, ans)) caller c st v call ext) as [[s' o]|] eqn:E; [|apply Hr].
      apply (execute_outcome cap mint_limit pallet) in E as [E|s1 a from to id data x [= <- <-] Ha _ _ Hx ->].
      + eapply He; eassumption.
      + eapply Hs; eassumption.
  Qed.
  Lemma erun_rel (P : eop -> Prop) (R : estate -> estate -> Prop) :
    (forall s, R s s) -> (forall a b c, R a b -> R b c -> R a c) ->
    (forall o s, every P o -> R s (estep s o)) ->
    forall ops s, Forall (every P) ops -> R s (run estep ops s).
  Proof.
    intros Hr Ht Hs ops. induction ops as [|o ops IH]; intros s Hf; [apply Hr|]. inversion Hf; subst.
    change (run estep (o :: ops) s) with (run estep ops (estep s o)). eapply Ht; [apply (Hs o s); assumption|apply IH; assumption].
  Qed.
  (** What a call does to the tokens is one of the operations of the token model that move no lists. *)
  Lemma eff_nft caller c s s' : eff caller c s s' ->
    e_nft s' = e_nft s \/ exists o, e_nft s' = nstep (e_nft s) o /\ nexec (e_nft s) o = Ok (e_nft s') /\ acts caller c o.
  Proof.
    intros [s0|s0 o x l Hx Ha _|s0 u f m l _]; [left; reflexivity| |left; reflexivity].
    right. exists o. cbn [e_nft]. split; [unfold NftModel.nstep; rewrite Hx; reflexivity|]. auto.
  Qed.
  Lemma acts_good caller c o s : acts caller c o -> good s o.
  Proof. destruct o; cbn; auto; contradiction. Qed.
  Lemma acts_neat caller c o : acts caller c o -> neat o.
  Proof. destruct o; cbn; auto; contradiction. Qed.

  (** ** The invariant *)
  Definition Inv (b : N -> Prop) (s : estate) : Prop :=
    WF (e_nft s) /\ forall c, root_of (e_nft s) c = Some true -> ~ b c.
  Lemma step_root s o d r : WF s -> good s o -> root_of (nstep s o) d = Some r ->
    root_of s d = Some r \/ exists w i m t, o = NCreate d w i m t r.
  Proof.
    intros Hw Hg. unfold NftModel.nstep. destruct (nexec s o) as [s'|] eqn:Ex; cbn [commit]; [|auto].
    assert (Hput : forall c i j, colls s !! c = Some i -> c_root j = c_root i -> root_of (put s c j) d = Some r -> root_of s d = Some r).
    { intros c i j Hc E. unfold root_of, put. cbn [colls]. destruct (decide (c = d)) as [->|Hne].
      - rewrite lookup_insert, Hc. cbn. congruence.
      - rewrite lookup_insert_ne by exact Hne. auto. }
    destruct o; cbn [NftModel.nexec good] in *; intros Hr.
    - destruct (decide (d = id)) as [->|Hne].
      + right. unfold create in Ex. inv_ok. subst s'. unfold root_of, put in Hr. cbn [colls] in Hr. rewrite lookup_insert in Hr.
        cbn in Hr. injection Hr as <-. eauto.
      + left. apply create_spec in Ex as (_ & _ & _ & _ & _ & _ & H & _); [|exact Hw]. rewrite <- (proj1 (H d Hne)). exact Hr.
    - left. apply mint_spec in Ex as (i & _ & _ & _ & _ & _ & _ & _ & _ & _ & _ & _ & H & _); [|exact Hw]. rewrite <- (proj1 (H d)). exact Hr.
    - left. apply bridge_spec in Ex as (_ & _ & _ & _ & _ & H & _); [|exact Hw|exact Hg]. rewrite <- (proj1 (H d)). exact Hr.
    - left. apply transfer_spec in Ex as (_ & _ & _ & _ & _ & _ & _ & H & _); [|exact Hw]. rewrite <- (proj1 (H d)). exact Hr.
    - left. apply burn_spec in Ex as (_ & _ & _ & _ & _ & _ & _ & H & _); [|exact Hw]. rewrite <- (proj1 (H d)). exact Hr.
    - left. unfold transfer_from in Ex. inv_ok.
      apply transfer_spec in Ex as (_ & _ & _ & _ & _ & _ & _ & H & _); [|exact Hw]. rewrite <- (proj1 (H d)). exact Hr.
    - left. unfold burn_from in Ex. inv_ok.
      apply burn_spec in Ex as (_ & _ & _ & _ & _ & _ & _ & H & _); [|exact Hw]. rewrite <- (proj1 (H d)). exact Hr.
    - left. unfold set_max in Ex. inv_ok. subst s'. eapply Hput; [eassumption| |exact Hr]. reflexivity.
    - left. unfold set_owner in Ex. inv_ok. subst s'. eapply Hput; [eassumption| |exact Hr]. reflexivity.
    - left. unfold claim in Ex. inv_ok. subst s'. eapply Hput; [eassumption| |exact Hr]. reflexivity.
    - left. unfold set_flags in Ex. inv_ok. subst s'. eapply Hput; [eassumption| |exact Hr]. reflexivity.
    - left. unfold lock in Ex. inv_ok. subst s'. exact Hr.
    - left. injection Ex as <-. exact Hr.
    - left. unfold approve in Ex. inv_ok. subst s'. exact Hr.
    - left. unfold unapprove in Ex. inv_ok. subst s'. exact Hr.
    - left. unfold approve_all in Ex. inv_ok. subst s'. exact Hr.
  Qed.
  Lemma fair_good b s o : Inv b s -> fair b (ENft o) -> good (e_nft s) o.
  Proof. intros [_ Hb] Hf. destruct o; cbn in *; auto. intros Hr. eapply Hb; eassumption. Qed.
  Lemma Inv_nft b s o : Inv b s -> fair b (ENft o) -> Inv b (with_nft s (nstep (e_nft s) o)).
  Proof.
    intros Hi Hf. pose proof (fair_good b s o Hi Hf) as Hg. destruct Hi as [Hw Hb]. split; cbn [with_nft e_nft].
    - apply step_WF; assumption.
    - intros c Hr. apply step_root in Hr as [Hr|(w & i & m & t & ->)]; [apply Hb; exact Hr|exact Hf|exact Hw|exact Hg].
  Qed.
  Lemma Inv_eq b s s' : e_nft s' = e_nft s -> Inv b s -> Inv b s'.
  Proof. unfold Inv. intros ->. auto. Qed.
  Lemma acts_fair b caller c o : acts caller c o -> fair b (ENft o).
  Proof. destruct o; cbn; auto; contradiction. Qed.
  Lemma Inv_eff b caller c s s' : eff caller c s s' -> Inv b s -> Inv b s'.
  Proof.
    intros He Hi. apply eff_nft in He as [E|(o & E & _ & Ha)]; [apply (Inv_eq b s s' E Hi)|].
    apply (Inv_eq b (with_nft s (nstep (e_nft s) o))); [exact E|]. apply Inv_nft; [exact Hi|]. eapply acts_fair, Ha.
  Qed.
  Lemma Inv_transfer b s x c ns from to l : Inv b s -> do_transfer cap (e_nft s) c ns from to = Ok x ->
    Inv b (elogs (with_nft s x) l).
  Proof.
    intros [Hw Hb] H. apply transfer_spec in H as (H1 & _ & _ & _ & _ & _ & _ & H2 & _); [|exact Hw].
    split; [exact H1|]. intros d. cbn [elogs with_nft e_nft]. rewrite (proj1 (H2 d)). apply Hb.
  Qed.
  Lemma Inv_step b o s : every (fair b) o -> Inv b s -> Inv b (estep s o).
  Proof.
    pose (R := fun s s' : estate => Inv b s -> Inv b s'). intros Hv. change (R s (estep s o)). revert o s Hv.
    apply estep_rel; unfold R; auto.
    - intros s o Hf Hi. apply Inv_nft; assumption.
    - intros caller c st v call ext r s s' _ He. eapply Inv_eff, He.
    - intros caller c st v call ext r s s1 from to id x _ H1 _ Hx Hi. eapply Inv_transfer; eauto.
  Qed.
  Lemma Inv_run b ops s : Forall (every (fair b)) ops -> Inv b s -> Inv b (run estep ops s).
  Proof.
    intros Hf. pose (R := fun s s' : estate => Inv b s -> Inv b s'). change (R s (run estep ops s)). revert ops s Hf.
    apply erun_rel; unfold R; auto. intros o s Hv. apply Inv_step, Hv.
  Qed.
  Lemma Inv_init b : Inv b einit.
  Proof. split; [apply init_WF|]. intros c H. discriminate H. Qed.

  (** No list names a token twice, if no transfer does. *)
  Definition tfair (b : N -> Prop) (o : eop) : Prop := fair b o /\ tidy_op o.
  Lemma tidy_run b ops : Forall (every (tfair b)) ops -> let s := run estep ops einit in Inv b s /\ tidy (e_nft s).
  Proof.
    intros Hf. pose (R := fun s s' : estate => Inv b s /\ tidy (e_nft s) -> Inv b s' /\ tidy (e_nft s')).
    cbv zeta. assert (H0 : Inv b einit /\ tidy (e_nft einit)) by (split; [apply Inv_init|intros d j Hd; discriminate Hd]).
    revert H0. change (R einit (run estep ops einit)). revert Hf. apply (erun_rel (tfair b) R); unfold R; auto. clear ops.
    intros o s. apply (estep_rel (tfair b) R); unfold R; auto; clear o s.
    - intros s o [Hf Ht] [Hi Htd]. pose proof (fair_good b s o Hi Hf) as Hg. split; [apply Inv_nft; assumption|].
      apply step_tidy; [apply Hi|exact Hg|exact Ht|exact Htd].
    - intros caller c st v call ext r s s' _ He [Hi Ht]. split; [eapply Inv_eff; eassumption|].
      apply eff_nft in He as [->|(o & -> & _ & Ha)]; [exact Ht|].
      apply step_tidy; [apply Hi|eapply acts_good, Ha|eapply acts_neat, Ha|exact Ht].
    - intros caller c st v call ext r s s1 from to id x _ H1 _ Hx Hi. destruct (H1 Hi) as [Hi1 Ht1].
      split; [eapply Inv_transfer; eassumption|]. cbn [elogs with_nft e_nft].
      apply transfer_spec in Hx as (_ & _ & _ & _ & _ & _ & _ & _ & H); [|apply Hi1]. apply H; [exact Ht1|apply NoDup_singleton].
  Qed.
  (** All serial numbers are u32. *)
  Definition ufair (b : N -> Prop) (o : eop) : Prop := fair b o /\ u32_op o.
  Definition u32s (s : nft) : Prop := forall c y n, owns s c y n -> n <= U32MAX.
  Lemma u32_step s o : WF s -> good s o -> u32_op (ENft o) -> u32s s -> u32s (nstep s o).
  Proof.
    intros Hw Hg Hu H d y n Ho.
    destruct (step_effect s o Hw Hg) as [(_ & Hq & _) _ _ _|c ns from to _ _ Hpre He _ _ _ _ _|c n0 who _ _ _ He _ _ _ _ _|c to P _ He _ _ _ _ _ _ _ Hop].
    - apply Hq in Ho. eapply H, Ho.
    - apply He in Ho. destruct (decide _) as [[-> Hin]|_]; [|eapply H, Ho]. eapply H. apply Hpre, Hin.
    - apply He in Ho. destruct (decide _); [contradiction|eapply H, Ho].
    - unfold NftModel.nstep in Ho. destruct (nexec s o) as [s'|] eqn:Ex; cbn [commit] in Ho; [|eapply H, Ho].
      destruct Hop as [(w & i & m & r & ->)|[(w & q & e & ->)|(ns & -> & HP)]]; cbn [NftModel.nexec u32_op] in *.
      + apply create_spec in Ex as (_ & _ & Hn & _); [|exact Hw]. apply Hn in Ho as [Ho|(_ & _ & Hlt)]; [eapply H, Ho|lia].
      + pose proof (mint_next _ _ _ _ _ _ _ _ _ Ex) as (j & Hj & Hle).
        apply mint_spec in Ex as (i & Hi & _ & _ & _ & _ & _ & Hn & _); [|exact Hw]. assert (i = j) as -> by congruence.
        apply Hn in Ho as [Ho|(_ & _ & Hlt)]; [eapply H, Ho|lia].
      + apply bridge_spec in Ex as (_ & (fresh & Hn & Hfr) & _); [|exact Hw|exact Hg].
        apply Hn in Ho as [Ho|(_ & _ & Hin)]; [eapply H, Ho|]. apply Hfr in Hin as [Hin _]. rewrite Forall_forall in Hu. apply Hu, Hin.
  Qed.
  Lemma u32_run b ops : Forall (every (ufair b)) ops -> let s := run estep ops einit in Inv b s /\ u32s (e_nft s).
  Proof.
    intros Hf. pose (R := fun s s' : estate => Inv b s /\ u32s (e_nft s) -> Inv b s' /\ u32s (e_nft s')).
    cbv zeta. assert (H0 : Inv b einit /\ u32s (e_nft einit)) by (split; [apply Inv_init|intros d y n (i & Hi & _); discriminate Hi]).
    revert H0. change (R einit (run estep ops einit)). revert Hf. apply (erun_rel (ufair b) R); unfold R; auto. clear ops.
    intros o s. apply (estep_rel (ufair b) R); unfold R; auto; clear o s.
    - intros s o [Hf Ht] [Hi Htd]. pose proof (fair_good b s o Hi Hf) as Hg. split; [apply Inv_nft; assumption|].
      apply u32_step; [apply Hi|exact Hg|exact Ht|exact Htd].
    - intros caller c st v call ext r s s' _ He [Hi Ht]. split; [eapply Inv_eff; eassumption|].
      apply eff_nft in He as [->|(o & -> & _ & Ha)]; [exact Ht|].
      apply u32_step; [apply Hi|eapply acts_good, Ha| |exact Ht]. destruct o; cbn in *; auto; contradiction.
    - intros caller c st v call ext r s s1 from to id x _ H1 _ Hx Hi. destruct (H1 Hi) as [Hi1 Ht1].
      split; [eapply Inv_transfer; eassumption|]. cbn [elogs with_nft e_nft].
      apply transfer_spec in Hx as (_ & _ & Hpre & He & _); [|apply Hi1]. intros d y n Ho. apply He in Ho.
      destruct (decide _) as [[-> Hin]|_]; [|eapply Ht1, Ho]. eapply Ht1. apply Hpre, Hin.
  Qed.
  Lemma fair_run b ops : Forall (every (fair b)) ops -> Inv b (run estep ops einit).
  Proof. intros Hf. apply Inv_run; [exact Hf|apply Inv_init]. Qed.

  (** ** C126: owners, balances, supplies and approvals are answered as recorded *)
  (** The functions that a static call may use. *)
  Definition query (sel : N) : bool :=
    existsb (N.eqb sel) [Q_ownerOf; Q_balanceOf; Q_getApproved; Q_isApprovedForAll; Q_name; Q_symbol; Q_tokenURI; Q_owner; Q_totalSupply;
                         Q_ownedTokens; Q_supportsInterface].
  Lemma query_pure sel st : query sel = true -> st && non_payable721 sel = false.
  Proof.
    intros Hq. unfold query in Hq. cbn [existsb] in Hq. rewrite !orb_true_iff in Hq.
    repeat destruct Hq as [Hq|Hq]; try discriminate Hq; apply N.eqb_eq in Hq; subst sel; destruct st; reflexivity.
  Qed.
  Lemma enter s r caller c st call ext i sel : colls (e_nft s) !! c = Some i -> read_selector call = Ok sel -> query sel = true ->
    execute s r caller c st 0 call ext = dispatch sel s r caller c call ext.
  Proof. intros Hc Hs Hq. eapply (exec721_eq _ _ _ _ s r caller c st); eauto using query_pure. Qed.
  Ltac enterE E R1 := apply (exec721_ok _ _ _ _ _ _ _ _ _ _ _ _ _ _ R1) in E as (? & ? & (? & ?) & E).
  Lemma small_id id : id <= U32MAX -> wt_all [tU] [VN id].
  Proof. intros H. split; [apply wt_tU; unfold U32MAX in H; lia|exact I]. Qed.
  Ltac by_id Hi R1 R2 id sel :=
    destruct (Erc1155Props.len_small [tU] [VN id] sel) as [R1 R2]; [vm_compute; discriminate|apply small_id, Hi|reflexivity|].

  Theorem C126_owner_of b ops r caller c st ext id : Forall (every (fair b)) ops ->
    let s := run estep ops einit in colls (e_nft s) !! c <> None -> id <= U32MAX ->
    let call := build_call Q_ownerOf [tU] [VN id] in
    (forall y, owns (e_nft s) c y id -> execute s r caller c st 0 call ext = Ok (s, word y)) /\
    ((forall y, ~ owns (e_nft s) c y id) -> is_ok (execute s r caller c st 0 call ext) = false).
  Proof.
    intros Hops s Hc Hi call. destruct (fair_run b ops Hops) as [Hw _]. fold s in Hw. clearbody s.
    destruct (colls (e_nft s) !! c) as [i|] eqn:Ec; [|congruence]. unfold call. by_id Hi R1 R2 id Q_ownerOf. clearbody call.
    rewrite (enter s r caller c st _ ext i Q_ownerOf Ec R1 eq_refl), q_ownerOf.
    unfold g_owner_of, g_by_id. rewrite R2. cbn [rbind]. rewrite (proj2 (N.leb_le _ _)) by exact Hi. cbn [ensure rbind]. split.
    - intros y Ho. apply owner_owns in Ho; [|exact Hw]. rewrite Ho. reflexivity.
    - intros Hn. apply owner_none in Hn; [|exact Hw]. rewrite Hn. reflexivity.
  Qed.
  Theorem C126_balance_of b ops r caller c st ext who : Forall (every (tfair b)) ops ->
    let s := run estep ops einit in colls (e_nft s) !! c <> None -> who < 2 ^ 160 ->
    exists l, NoDup l /\ (forall n, n ∈ l <-> owns (e_nft s) c who n) /\
      execute s r caller c st 0 (build_call Q_balanceOf [tA] [VN who]) ext = Ok (s, word (N.of_nat (length l))).
  Proof.
    intros Hops s Hc Hwho. destruct (tidy_run b ops Hops) as [[Hw _] Ht]. fold s in Hw, Ht. clearbody s.
    destruct (colls (e_nft s) !! c) as [i|] eqn:Ec; [|congruence].
    destruct (Hw c i Ec) as (Hnd & _). exists (owned_list (c_toks i) who).
    split; [apply owned_nodup, (Ht c i Ec)|]. split.
    - intros n. rewrite owned_own by exact Hnd. unfold owns. split; [eauto|]. intros (j & Hj & Ho). congruence.
    - destruct (Erc1155Props.len_small [tA] [VN who] Q_balanceOf) as [R1 R2]; [vm_compute; discriminate|split; [exact Hwho|exact I]|reflexivity|].
      rewrite (enter s r caller c st _ ext i Q_balanceOf Ec R1 eq_refl), q_balanceOf. unfold g_balance_of. rewrite R2. cbn [rbind].
      unfold balance721. rewrite Ec, balance_length. reflexivity.
  Qed.
  Theorem C126_total_supply b ops r caller c st ext : Forall (every (fair b)) ops ->
    let s := run estep ops einit in colls (e_nft s) !! c <> None ->
    exists l, NoDup l /\ (forall n, n ∈ l <-> exists y, owns (e_nft s) c y n) /\
      execute s r caller c st 0 (build_call Q_totalSupply [] []) ext = Ok (s, word (N.of_nat (length l))).
  Proof.
    intros Hops s Hc. destruct (fair_run b ops Hops) as [Hw _]. fold s in Hw. clearbody s.
    destruct (colls (e_nft s) !! c) as [i|] eqn:Ec; [|congruence].
    destruct (Hw c i Ec) as (Hnd & _ & Hiss & _). exists (remove_dups (flat (c_toks i))).
    split; [apply NoDup_remove_dups|]. split.
    - intros n. rewrite elem_of_remove_dups, <- own_flat. unfold owns. split; intros (y & H); exists y; [eauto|].
      destruct H as (j & Hj & Ho). congruence.
    - destruct (Erc1155Props.len_small [] [] Q_totalSupply) as [R1 R2]; [vm_compute; discriminate|exact I|reflexivity|].
      rewrite (enter s r caller c st _ ext i Q_totalSupply Ec R1 eq_refl), q_totalSupply. unfold g_total_supply. rewrite Ec. cbn [of_opt rbind].
      rewrite Hiss. reflexivity.
  Qed.
  Theorem C126_approvals_and_owner s r caller c st ext id owner operator i : colls (e_nft s) !! c = Some i ->
    id <= U32MAX -> owner < 2 ^ 160 -> operator < 2 ^ 160 ->
    execute s r caller c st 0 (build_call Q_getApproved [tU] [VN id]) ext =
      Ok (s, word (match appr (e_nft s) !! (c, id) with Some x => x | None => 0 end)) /\
    execute s r caller c st 0 (build_call Q_isApprovedForAll [tA; tA] [VN owner; VN operator]) ext =
      Ok (s, word (if decide (appr_all (e_nft s) !! (owner, c, operator) = Some true) then 1 else 0)) /\
    execute s r caller c st 0 (build_call Q_owner [] []) ext = Ok (s, word (c_owner i)).
  Proof.
    intros Ec Hi Ho Hop. by_id Hi R1 R2 id Q_getApproved.
    destruct (Erc1155Props.len_small [tA; tA] [VN owner; VN operator] Q_isApprovedForAll) as [R3 R4];
      [vm_compute; discriminate|split; [exact Ho|split; [exact Hop|exact I]]|reflexivity|].
    destruct (Erc1155Props.len_small [] [] Q_owner) as [R5 R6]; [vm_compute; discriminate|exact I|reflexivity|].
    split; [|split].
    - rewrite (enter s r caller c st _ ext i Q_getApproved Ec R1 eq_refl), q_getApproved.
      unfold g_get_approved, g_by_id. rewrite R2. cbn [rbind]. rewrite (proj2 (N.leb_le _ _)) by exact Hi. cbn [ensure rbind].
      destruct (appr (e_nft s) !! (c, id)); reflexivity.
    - rewrite (enter s r caller c st _ ext i Q_isApprovedForAll Ec R3 eq_refl), q_isApprovedForAll.
      unfold g_is_approved. rewrite R4. cbn [rbind]. unfold is_operator.
      destruct (appr_all (e_nft s) !! (owner, c, operator)) as [[|]|] eqn:Ea.
      + rewrite decide_True by reflexivity. reflexivity.
      + rewrite decide_False by discriminate. reflexivity.
      + rewrite decide_False by discriminate. reflexivity.
    - rewrite (enter s r caller c st _ ext i Q_owner Ec R5 eq_refl), q_owner. unfold g_owner. rewrite Ec. reflexivity.
  Qed.
  (** An id that is not a u32 is refused, not truncated. *)
  Lemma wide_by_id s r caller c st v ext id sel call : U32MAX < id -> In sel [Q_ownerOf; Q_getApproved; Q_tokenURI; Q_burn] ->
    read_selector call = Ok sel -> read_args [tU] call = Ok [VN id] -> is_ok (execute s r caller c st v call ext) = false.
  Proof.
    intros Hi Hs R1 R2. destruct (execute s r caller c st v call ext) as [x|] eqn:E; [|reflexivity]. exfalso. enterE E R1.
    assert (B : (id <=? U32MAX) = false) by (apply N.leb_gt; exact Hi).
    destruct Hs as [<-|[<-|[<-|[<-|[]]]]];
      [rewrite q_ownerOf in E; unfold g_owner_of, g_by_id in E|rewrite q_getApproved in E; unfold g_get_approved, g_by_id in E
      |rewrite q_tokenURI in E; unfold g_token_uri, g_by_id in E|rewrite q_burn in E; unfold g_burn, g_by_id in E];
      rewrite R2 in E; cbn [rbind] in E; rewrite B in E; discriminate E.
  Qed.
  Lemma wide_approve s r caller c st v ext to id call : U32MAX < id ->
    read_selector call = Ok Q_approve -> read_args [tA; tU] call = Ok [VN to; VN id] -> is_ok (execute s r caller c st v call ext) = false.
  Proof.
    intros Hi R1 R2. destruct (execute s r caller c st v call ext) as [x|] eqn:E; [|reflexivity]. exfalso. enterE E R1.
    rewrite q_approve in E. unfold g_approve in E. rewrite R2 in E. cbn [rbind] in E.
    assert (B : (id <=? U32MAX) = false) by (apply N.leb_gt; exact Hi). rewrite B in E. discriminate E.
  Qed.
  Lemma wide_transfer s r caller c st v ext from to id call : U32MAX < id ->
    In (read_selector call) [Ok Q_transferFrom; Ok Q_safeTransferFrom] -> read_args [tA; tA; tU] call = Ok [VN from; VN to; VN id] ->
    is_ok (execute s r caller c st v call ext) = false.
  Proof.
    intros Hi R1 R2. destruct (execute s r caller c st v call ext) as [x|] eqn:E; [|reflexivity]. exfalso.
    assert (B : (id <=? U32MAX) = false) by (apply N.leb_gt; exact Hi).
    destruct R1 as [R1|[R1|[]]]; symmetry in R1; enterE E R1.
    - rewrite q_transferFrom in E. unfold g_transfer in E. rewrite R2 in E. cbn [rbind] in E. rewrite B in E. discriminate E.
    - rewrite q_safeTransferFrom in E. unfold g_safe, g_do_safe in E. rewrite R2 in E. cbn [rbind] in E. rewrite B in E. discriminate E.
  Qed.
  Theorem C126_wide_id s r caller c st v ext from to id : from < 2 ^ 160 -> to < 2 ^ 160 -> U32MAX < id -> id < 2 ^ 256 ->
    (forall sel, In sel [Q_ownerOf; Q_getApproved; Q_tokenURI; Q_burn] ->
       is_ok (execute s r caller c st v (build_call sel [tU] [VN id]) ext) = false) /\
    is_ok (execute s r caller c st v (build_call Q_approve [tA; tU] [VN to; VN id]) ext) = false /\
    (forall sel, In sel [Q_transferFrom; Q_safeTransferFrom] ->
       is_ok (execute s r caller c st v (build_call sel [tA; tA; tU] [VN from; VN to; VN id]) ext) = false).
  Proof.
    intros Hf Ht Hi Hb. assert (W : wt tU (VN id)) by (apply wt_tU, Hb). split; [|split].
    - intros sel Hs. assert (Hsel : sel < 2 ^ 32) by (destruct Hs as [<-|[<-|[<-|[<-|[]]]]]; reflexivity).
      destruct (Erc1155Props.len_small [tU] [VN id] sel) as [R1 R2]; [vm_compute; discriminate|split; [exact W|exact I]|exact Hsel|].
      eapply wide_by_id; eassumption.
    - destruct (Erc1155Props.len_small [tA; tU] [VN to; VN id] Q_approve) as [R1 R2];
        [vm_compute; discriminate|split; [exact Ht|split; [exact W|exact I]]|reflexivity|].
      eapply wide_approve; eassumption.
    - intros sel Hs. assert (Hsel : sel < 2 ^ 32) by (destruct Hs as [<-|[<-|[]]]; reflexivity).
      destruct (Erc1155Props.len_small [tA; tA; tU] [VN from; VN to; VN id] sel) as [R1 R2];
        [vm_compute; discriminate|split; [exact Hf|split; [exact Ht|split; [exact W|exact I]]]|exact Hsel|].
      eapply wide_transfer; [exact Hi| |exact R2]. rewrite R1. destruct Hs as [<-|[<-|[]]]; [left|right; left]; reflexivity.
  Qed.
  Lemma uri_len s c id : nlen (default [] (e_uri s !! c)) <= 200 -> nlen (uri721 utf8 s c id) <= 210.
  Proof.
    intros Hl. unfold uri721. rewrite nlen_app. assert (Hd : forall k n, nlen (digits k n) <= N.of_nat k).
    { induction k as [|k IH]; intros n; [cbn; lia|]. cbn [digits]. rewrite nlen_app. specialize (IH (n / 10)).
      destruct (n <? 10); unfold nlen in *; cbn [length]; lia. }
    specialize (Hd 10%nat id). destruct (utf8 _); [lia|change (nlen []) with 0; lia].
  Qed.
  (** Different tokens have different URIs. *)
  Theorem C126_uri_distinct s r caller c st ext id1 id2 o : id1 <= U32MAX -> id2 <= U32MAX ->
    nlen (default [] (e_uri s !! c)) <= 200 ->
    execute s r caller c st 0 (build_call Q_tokenURI [tU] [VN id1]) ext = Ok (s, o) ->
    execute s r caller c st 0 (build_call Q_tokenURI [tU] [VN id2]) ext = Ok (s, o) -> id1 = id2.
  Proof.
    intros H1 H2 Hl. assert (G : forall id call, id <= U32MAX -> read_selector call = Ok Q_tokenURI -> read_args [tU] call = Ok [VN id] ->
      execute s r caller c st 0 call ext = Ok (s, o) -> o = out [tBytes] [VB (uri721 utf8 s c id)]).
    { intros id call Hi R1 R2 E. enterE E R1. rewrite q_tokenURI in E. unfold g_token_uri, g_by_id in E. rewrite R2 in E. cbn [rbind] in E. inv_ok.
      congruence. }
    assert (C : forall id, id <= U32MAX -> read_selector (build_call Q_tokenURI [tU] [VN id]) = Ok Q_tokenURI /\ read_args [tU] (build_call Q_tokenURI [tU] [VN id]) = Ok [VN id]).
    { intros id Hi. by_id Hi R1 R2 id Q_tokenURI. auto. }
    intros E1 E2. apply (G id1) in E1; [|exact H1|apply C, H1..]. apply (G id2) in E2; [|exact H2|apply C, H2..]. clear G C. subst o.
    assert (L : forall id, nlen (uri721 utf8 s c id) <= 210) by (intros id; apply uri_len, Hl).
    assert (W : forall id, wt_all [tBytes] [VB (uri721 utf8 s c id)]).
    { intros id. split; [|exact I]. cbn [wt tBytes]. specialize (L id). unfold U32MAX. lia. }
    rewrite !out_spec in E2 by apply W. apply C117_unambiguous in E2; [|apply W..|].
    - injection E2 as E. unfold uri721 in E. apply app_inv_head in E.
      apply (Erc1155Props.digits_inj 0 ltac:(lia) 10); [| |exact E]; change (10 ^ N.of_nat 10) with 10000000000; unfold U32MAX in *; lia.
    - specialize (L id1). unfold enc_all, abi_seq. rewrite nlen_app. unfold nlen at 1. rewrite heads_length.
      change (parts [tBytes] [VB (uri721 utf8 s c id1)]) with [(false, word (nlen (uri721 utf8 s c id1)) ++ pad32 (uri721 utf8 s c id1))].
      cbn [hsize tails]. rewrite app_nil_r, nlen_app, nlen_word. unfold USIZE, U32MAX.
      assert (P : nlen (pad32 (uri721 utf8 s c id1)) <= nlen (uri721 utf8 s c id1) + 32); [|lia].
      unfold pad32. rewrite nlen_app. unfold nlen at 2. rewrite repeat_length.
      assert (forall a : nat, (a mod 32 <= 31)%nat) by (intros; pose proof (Nat.mod_upper_bound a 32); lia).
      lia.
  Qed.

  (** ** C127: an account's tokens can be listed page by page *)
  Definition page_ty : list ty := [TW (WUint U32MAX); TW (WUint U32MAX); tU32s].
  Lemma enc_page_len next total l : Forall (wt tU) l -> nlen (enc_all page_ty [VN next; VN total; VL l]) = 128 + 32 * N.of_nat (length l).
  Proof.
    intros H1. assert (G : enc_all page_ty [VN next; VN total; VL l] = enc_all [tU; tU; tUs] [VN next; VN total; VL l]) by reflexivity.
    rewrite G. unfold enc_all, abi_seq. rewrite nlen_app. unfold nlen at 1. rewrite heads_length.
    change (parts [tU; tU; tUs] [VN next; VN total; VL l]) with [(true, word next); (true, word total); (false, enc tUs (VL l))].
    cbn [hsize tails app]. rewrite app_nil_r. pose proof (enc_us_len l H1) as L. rewrite !word_length. rewrite L. lia.
  Qed.
  (** What a reader learns from a call: the next cursor and the page, decoded. *)
  Definition answered (c who limit : N) (s : estate) (cur next : N) (page : list N) : Prop :=
    exists r caller st ext total, next <= U32MAX /\ total <= U32MAX /\ Forall (fun n => n <= U32MAX) page /\ N.of_nat (length page) <= U32MAX /\
      execute s r caller c st 0 (build_call Q_ownedTokens [tA; tU; tU] [VN who; VN limit; VN cur]) ext =
        Ok (s, enc_all page_ty [VN next; VN total; VL (map VN page)]).
  Lemma owned_call s r caller c st ext who limit cur call s' o : limit <= 65535 -> cur <= U32MAX ->
    read_selector call = Ok Q_ownedTokens -> read_args [tA; tU; tU] call = Ok [VN who; VN limit; VN cur] ->
    execute s r caller c st 0 call ext = Ok (s', o) ->
    (exists i, colls (e_nft s) !! c = Some i) /\ exists next total page, owned_tokens (e_nft s) c who cur limit = (next, total, page) /\
      s' = s /\ o = out page_ty [VN next; VN total; VL (map VN page)].
  Proof.
    intros Hl Hc R1 R2 E. enterE E R1. split; [eauto|]. rewrite q_ownedTokens in E. unfold g_owned in E. rewrite R2 in E. cbn [rbind] in E.
    rewrite (proj2 (N.leb_le _ _)) in E by exact Hl. cbn [ensure rbind] in E.
    rewrite (proj2 (N.leb_le _ _)) in E by exact Hc. cbn [ensure rbind] in E.
    destruct (owned_tokens (e_nft s) c who cur limit) as [[next total] page]. injection E as <- <-. eauto 6.
  Qed.
  Lemma owned_call_ok s r caller c st ext who limit cur call i next total page : limit <= 65535 -> cur <= U32MAX -> colls (e_nft s) !! c = Some i ->
    read_selector call = Ok Q_ownedTokens -> read_args [tA; tU; tU] call = Ok [VN who; VN limit; VN cur] ->
    owned_tokens (e_nft s) c who cur limit = (next, total, page) ->
    execute s r caller c st 0 call ext = Ok (s, out page_ty [VN next; VN total; VL (map VN page)]).
  Proof.
    intros Hl Hc Ec R1 R2 E. rewrite (enter s r caller c st _ ext i Q_ownedTokens Ec R1 eq_refl), q_ownedTokens. unfold g_owned.
    rewrite R2. cbn [rbind]. rewrite (proj2 (N.leb_le _ _)) by exact Hl. cbn [ensure rbind].
    rewrite (proj2 (N.leb_le _ _)) by exact Hc. cbn [ensure rbind]. rewrite E. reflexivity.
  Qed.
  Lemma page_small s c who cur limit next total page : u32s s -> WF s -> owned_tokens s c who cur limit = (next, total, page) ->
    next <= U32MAX /\ total <= U32MAX /\ Forall (fun n => n <= U32MAX) page /\ N.of_nat (length page) <= 1000.
  Proof.
    intros Hu Hw E. unfold owned_tokens in E. destruct (colls s !! c) as [i|] eqn:Ec.
    2:{ injection E as <- <- <-. cbn. unfold U32MAX. repeat split; try lia. constructor. }
    injection E as En Et Ep. split; [|split; [|split]].
    - rewrite <- En. destruct (firstn _ _); [unfold U32MAX; lia|]. destruct (negb _); unfold sat, U32MAX; lia.
    - rewrite <- Et. unfold sat. lia.
    - rewrite <- Ep. apply Forall_take, Forall_forall. intros n Hn. apply in_filter in Hn as [Hn _].
      rewrite sort_perm in Hn. apply (Hu c who n). exists i. split; [exact Ec|]. apply owned_own; [apply (Hw c i Ec)|exact Hn].
    - rewrite <- Ep, firstn_length. lia.
  Qed.
  Lemma page_wt next total page : next <= U32MAX -> total <= U32MAX -> Forall (fun n => n <= U32MAX) page -> N.of_nat (length page) <= U32MAX ->
    wt_all page_ty [VN next; VN total; VL (map VN page)].
  Proof.
    intros H1 H2 H3 H4. split; [cbn [wt fits]; split; [lia|unfold U32MAX in *; lia]|]. split; [cbn [wt fits]; split; [lia|unfold U32MAX in *; lia]|].
    split; [|exact I]. apply wt_vec. rewrite map_length. split; [exact H4|]. apply Forall_map. eapply Forall_impl; [exact H3|].
    intros n Hn. change (n <= U32MAX /\ n < 2 ^ 256). split; [exact Hn|unfold U32MAX in *; lia].
  Qed.
  Lemma page_wtU page : Forall (fun n => n <= U32MAX) page -> Forall (wt tU) (map VN page).
  Proof. intros H. apply Forall_map. eapply Forall_impl; [exact H|]. intros n Hn. apply wt_tU. unfold U32MAX in *. lia. Qed.
  Lemma own_call who limit cur : who < 2 ^ 160 -> limit <= 65535 -> cur <= U32MAX ->
    let call := build_call Q_ownedTokens [tA; tU; tU] [VN who; VN limit; VN cur] in
    read_selector call = Ok Q_ownedTokens /\ read_args [tA; tU; tU] call = Ok [VN who; VN limit; VN cur].
  Proof.
    intros Hw Hl Hc. apply Erc1155Props.len_small; [vm_compute; discriminate| |reflexivity].
    split; [exact Hw|split; [apply wt_tU; lia|split; [apply wt_tU; unfold U32MAX in Hc; lia|exact I]]].
  Qed.
  (** The reader decodes exactly the pallet's page. *)
  Lemma answered_page b s c who limit cur next page : who < 2 ^ 160 -> limit <= 65535 -> cur <= U32MAX -> Inv b s -> u32s (e_nft s) ->
    answered c who limit s cur next page ->
    page_of c who limit (e_nft s) cur next page /\ exists i, colls (e_nft s) !! c = Some i.
  Proof.
    intros Hwho Hl Hc [Hw _] Hu (r & caller & st & ext & total & H1 & H2 & H3 & H4 & E).
    destruct (own_call who limit cur Hwho Hl Hc) as [R1 R2].
    revert E. generalize dependent (build_call Q_ownedTokens [tA; tU; tU] [VN who; VN limit; VN cur]). intros call R1 R2 E.
    apply (owned_call s r caller c st ext who limit cur call) in E as (Hcol & n & t & p & Eo & _ & Eq); try assumption. split; [|exact Hcol].
    destruct (page_small _ _ _ _ _ _ _ _ Hu Hw Eo) as (G1 & G2 & G3 & G4).
    assert (G5 : N.of_nat (length p) <= U32MAX) by (unfold U32MAX; lia).
    rewrite out_spec in Eq by (apply page_wt; assumption). symmetry in Eq.
    apply C117_unambiguous in Eq; [|apply page_wt; assumption..|].
    - injection Eq as -> -> Ep. assert (p = page) as ->; [|exists total; exact Eo].
      clear -Ep. revert page Ep. induction p as [|x p IH]; intros [|y l]; cbn [map]; try discriminate; [reflexivity|]. intros [= -> E]. f_equal. apply IH, E.
    - rewrite enc_page_len by (apply page_wtU; assumption). rewrite map_length. unfold USIZE, U32MAX. lia.
  Qed.
  Lemma page_answered s c i who limit cur next page : who < 2 ^ 160 -> limit <= 65535 -> cur <= U32MAX -> WF (e_nft s) -> u32s (e_nft s) ->
    colls (e_nft s) !! c = Some i -> page_of c who limit (e_nft s) cur next page -> answered c who limit s cur next page.
  Proof.
    intros Hwho Hl Hc Hw Hu Hi [total Eo]. destruct (page_small _ _ _ _ _ _ _ _ Hu Hw Eo) as (G1 & G2 & G3 & G4).
    assert (G5 : N.of_nat (length page) <= U32MAX) by (unfold U32MAX; lia).
    exists None, 0, false, true, total. repeat (split; [assumption|]). destruct (own_call who limit cur Hwho Hl Hc) as [R1 R2].
    rewrite (owned_call_ok s None 0 c false true who limit cur _ i next total page Hl Hc Hi R1 R2 Eo). rewrite out_spec by (apply page_wt; assumption). reflexivity.
  Qed.
  Lemma walk_reader b c who limit ss : forall cur l, who < 2 ^ 160 -> limit <= 65535 -> cur <= U32MAX ->
    Forall (fun s => Inv b s /\ u32s (e_nft s)) ss -> walked (answered c who limit) ss cur l ->
    walked (page_of c who limit) (map e_nft ss) cur l /\ Forall (fun s => exists i, colls (e_nft s) !! c = Some i) ss.
  Proof.
    intros cur l Hwho Hl Hc Hf Hk. induction Hk as [s cur page Ha|s ss cur next page rest Ha Hn Hk IH].
    - inversion Hf as [|? ? [Hi Hu] Hf']; subst. destruct (answered_page b s c who limit cur 0 page) as [H1 H2]; try assumption. split; [constructor; exact H1|]. repeat constructor. exact H2.
    - inversion Hf as [|? ? [Hi Hu] Hf']; subst. destruct (answered_page b s c who limit cur next page) as [H1 H2]; try assumption.
      assert (Hnx : next <= U32MAX). { destruct H1 as [t H1]. apply page_small in H1; [apply H1|exact Hu|apply Hi]. }
      destruct (IH Hnx Hf') as [G1 G2]. split; [cbn [map]; econstructor; eassumption|]. constructor; assumption.
  Qed.
  Definition reached (P : eop -> Prop) (s : estate) : Prop := exists ops, Forall (every P) ops /\ s = run estep ops einit.
  (** Whatever else moves between the calls, a token that stays with its owner is listed. *)
  Theorem C127_lists_all b c who limit ss l n : Forall (reached (ufair b)) ss -> who < 2 ^ 160 -> 0 < limit -> limit <= 65535 ->
    walked (answered c who limit) ss 0 l -> Forall (fun s => owns (e_nft s) c who n) ss -> n ∈ l.
  Proof.
    intros Hr Hwho Hl0 Hl Hk Ho.
    assert (Hf : Forall (fun s => Inv b s /\ u32s (e_nft s)) ss).
    { eapply Forall_impl; [exact Hr|]. intros s (ops & Hops & ->). apply u32_run, Hops. }
    apply (walk_reader b) in Hk as [Hk Hcol]; [|assumption|assumption|unfold U32MAX; lia|exact Hf].
    assert (G : forall ns cur l, walked (page_of c who limit) ns cur l -> Forall (fun s => WF s /\ owns s c who n) ns -> cur <= n -> n ∈ l).
    { clear -Hl0. intros ns cur l Hk. induction Hk as [s cur page [total Ha]|s ss cur next page rest [total Ha] Hn Hk IH]; intros Hf Hcur;
        inversion Hf as [|? ? [Hw (i & Hi & Ho)] Hf']; subst; destruct (Hw c i Hi) as (Hnd & _).
      - destruct (page_spec s c i who cur limit 0 total page Hi Hnd Hl0 Ha) as (H & _). destruct (H n Ho Hcur) as [H1|[H1 _]]; [exact H1|congruence].
      - destruct (page_spec s c i who cur limit next total page Hi Hnd Hl0 Ha) as (H & _). apply elem_of_app.
        destruct (H n Ho Hcur) as [H1|[_ H1]]; [left; exact H1|right]. apply IH; assumption. }
    apply (G _ _ _ Hk); [|lia]. apply Forall_map. rewrite Forall_forall in *. intros s Hs. split; [apply Hf, Hs|apply Ho, Hs].
  Qed.
  (** Nothing is listed twice, and nothing the owner did not have when the page was read. *)
  Theorem C127_lists_once b c who limit ss l : Forall (reached (fun o => ufair b o /\ tidy_op o)) ss -> who < 2 ^ 160 -> 0 < limit -> limit <= 65535 ->
    walked (answered c who limit) ss 0 l -> NoDup l /\ forall n, n ∈ l -> exists s, s ∈ ss /\ owns (e_nft s) c who n.
  Proof.
    intros Hr Hwho Hl0 Hl Hk.
    assert (Hf : Forall (fun s => (Inv b s /\ u32s (e_nft s)) /\ tidy (e_nft s)) ss).
    { eapply Forall_impl; [exact Hr|]. intros s (ops & Hops & ->). split.
      - apply u32_run. eapply Forall_impl; [exact Hops|]. intros o. apply every_impl. tauto.
      - apply (tidy_run b). eapply Forall_impl; [exact Hops|]. intros o. apply every_impl. unfold tfair, ufair. tauto. }
    apply (walk_reader b) in Hk as [Hk Hcol]; [|assumption|assumption|unfold U32MAX; lia|eapply Forall_impl; [exact Hf|intros ? HH; exact (proj1 HH)]].
    assert (G : forall ns cur l, walked (page_of c who limit) ns cur l ->
      Forall (fun s => WF s /\ u32s s /\ tidy s /\ exists i, colls s !! c = Some i) ns ->
      NoDup l /\ forall n, n ∈ l -> cur <= n /\ exists s, s ∈ ns /\ owns s c who n).
    { clear -Hl0. intros ns cur l Hk. induction Hk as [s cur page [total Ha]|s ss cur next page rest [total Ha] Hn Hk IH]; intros Hf;
        inversion Hf as [|? ? (Hw & Hu & Ht & (i & Hi)) Hf']; subst; destruct (Hw c i Hi) as (Hnd & _).
      - destruct (page_spec s c i who cur limit 0 total page Hi Hnd Hl0 Ha) as (_ & H & _ & Hd). split; [apply Hd, (Ht c i Hi)|].
        intros n Hin. apply H in Hin as [Ho Hc]. split; [exact Hc|]. exists s. split; [left|exists i; auto].
      - destruct (page_spec s c i who cur limit next total page Hi Hnd Hl0 Ha) as (_ & H & Hlt & Hd). destruct (IH Hf') as [Hd' H'].
        assert (Hlt' : forall n, n ∈ page -> n < next) by (apply Hlt; [intros n Ho; apply (Hu c who n); exists i; auto|exact Hn]).
        split.
        + apply NoDup_app. split; [apply Hd, (Ht c i Hi)|]. split; [|exact Hd']. intros n H1 H2. apply Hlt' in H1. apply H' in H2 as [H2 _]. lia.
        + intros n Hin. apply elem_of_app in Hin as [Hin|Hin].
          * apply H in Hin as [Ho Hc]. split; [exact Hc|]. exists s. split; [left|exists i; auto].
          * destruct (H' n Hin) as [H1 (s' & Hs' & Ho)]. split; [|exists s'; split; [right; exact Hs'|exact Ho]].
            destruct page as [|x page]; [|specialize (H x ltac:(left)); specialize (Hlt' x ltac:(left)); lia].
            exfalso. unfold owned_tokens in Ha. rewrite Hi in Ha. injection Ha as Ha _ Hp. rewrite Hp in Ha. congruence. }
    destruct (G _ _ _ Hk) as [H1 H2].
    - apply Forall_map. rewrite Forall_forall in *. intros s Hs. destruct (Hf s Hs) as [[[Hw _] Hu] Ht]. auto.
    - split; [exact H1|]. intros n Hn. destruct (H2 n Hn) as [_ (s & Hs & Ho)]. apply elem_of_list_fmap in Hs as (s0 & -> & Hs). eauto.
  Qed.
  (** And the reader gets there: if nothing moves, in at most one call more than there are tokens. *)
  Theorem C127_terminates b ops c who limit : Forall (every (fun o => ufair b o /\ tidy_op o)) ops -> who < 2 ^ 160 -> 0 < limit -> limit <= 65535 ->
    let s := run estep ops einit in colls (e_nft s) !! c <> None ->
    exists l k, walked (answered c who limit) (repeat s k) 0 l /\ (k <= S (length l))%nat /\ StronglySorted N.lt l /\
      forall n, n ∈ l <-> owns (e_nft s) c who n.
  Proof.
    intros Hops Hwho Hl0 Hl s Hc.
    assert (Hu : Inv b s /\ u32s (e_nft s)).
    { apply u32_run. eapply Forall_impl; [exact Hops|]. intros o. apply every_impl. tauto. }
    assert (Ht : tidy (e_nft s)).
    { apply (tidy_run b). eapply Forall_impl; [exact Hops|]. intros o. apply every_impl. unfold tfair, ufair. tauto. }
    clearbody s. destruct Hu as [[Hw _] Hu]. destruct (colls (e_nft s) !! c) as [i|] eqn:Hi; [|congruence]. destruct (Hw c i Hi) as (Hnd & _).
    set (l := sort (owned_list (c_toks i) who)).
    assert (Hin : forall n, n ∈ l <-> owns (e_nft s) c who n).
    { intros n. unfold l. rewrite sort_perm, owned_own by exact Hnd. unfold owns. split; [eauto|]. intros (j & Hj & Ho). congruence. }
    assert (Ef : l = List.filter (fun n => 0 <=? n) l) by (symmetry; apply filter_all; intros; lia).
    destruct (walk_state (e_nft s) c i who limit Hi Hnd (Ht c i Hi)) with (m := length l) (cur := 0) (f := l) as (k & Hk & Hwk);
      [intros n Ho; apply (Hu c who n); exists i; auto|exact Hl0|exact Ef|lia|].
    exists l, k. split; [|split; [exact Hk|split; [|exact Hin]]].
    - assert (G : forall k cur l, cur <= U32MAX -> walked (page_of c who limit) (repeat (e_nft s) k) cur l -> walked (answered c who limit) (repeat s k) cur l).
      { clear Hk Hwk. induction k0 as [|k0 IH]; intros cur l0 Hcur H; inversion H; subst.
        - match goal with E : [] = repeat _ _ |- _ => destruct k0; [|discriminate E] end. apply w_last. eapply page_answered; eassumption.
        - eapply w_more; [eapply page_answered; eassumption|assumption|]. apply IH; [|assumption].
          match goal with E : page_of _ _ _ _ _ _ _ |- _ => destruct E as [t E]; apply page_small in E; [apply E|assumption..] end. }
      apply G; [unfold U32MAX; lia|exact Hwk].
    - pose proof (sort_sorted (owned_list (c_toks i) who)) as Hs. assert (Hd : NoDup l) by (unfold l; rewrite sort_perm; apply owned_nodup, (Ht c i Hi)).
      fold l in Hs. clear -Hs Hd. induction Hs as [|x l Hl IH Hx]; [constructor|]. apply NoDup_cons in Hd as [Hni Hd]. constructor; [apply IH, Hd|].
      apply Forall_forall. intros y Hy. rewrite Forall_forall in Hx. specialize (Hx y Hy). assert (x <> y) by (intros ->; contradiction). lia.
  Qed.

  (** ** C128: a token moves only if its owner, or someone they approved, acts *)
  (** Who acts in an operation that moves or approves tokens. *)
  Definition actor (o : eop) : option N :=
    match o with
    | ENft (NTransfer w _ _ _) | ENft (NBurn w _ _) | ENft (NTransferFrom w _ _ _ _) | ENft (NBurnFrom w _ _)
    | ENft (NApprove w _ _ _) | ENft (NApproveAll w _ _ _) => Some w
    | ECall caller _ _ _ _ _ _ => Some caller
    | _ => None
    end.
  Definition idle (y : N) (A : N -> Prop) (o : eop) : Prop := forall w, actor o = Some w -> w <> y /\ ~ A w.
  (** [y] has token [n], and who else could move it is among [A]. *)
  Definition safe (y : N) (A : N -> Prop) (c n : N) (s : nft) : Prop :=
    owner_of s c n = Some y /\ (forall x, appr s !! (c, n) = Some x -> A x) /\
    (forall x, y <> x -> appr_all s !! (y, c, x) = Some true -> A x).
  Lemma safe_auth y A c n s w : safe y A c n s -> is_approved_or_owner s c n w = true -> w = y \/ A w.
  Proof.
    intros (Ho & Ha & Hall) H. apply C14_authorised_iff in H as [H|[H|(z & Hz & H)]]; [left; congruence|auto|].
    assert (z = y) as -> by congruence. destruct (decide (y = w)) as [->|Hne]; auto.
  Qed.
  Lemma safe_step y A c n s o : WF s -> good s o -> idle y A (ENft o) -> safe y A c n s -> safe y A c n (nstep s o).
  Proof.
    intros Hw Hg Hid Hs. pose proof Hs as (Ho & Ha & Hall).
    assert (Hi : forall w, actor (ENft o) = Some w -> w <> y /\ ~ A w) by exact Hid.
    split; [|split].
    - destruct (decide (owner_of (nstep s o) c n = Some y)) as [E|Hne]; [exact E|exfalso].
      apply step_change in Hne as [[(ns & to & -> & _)|[->|(w & Hau & Hop)]] _]; try assumption.
      + destruct (Hi y eq_refl). congruence.
      + destruct (Hi y eq_refl). congruence.
      + assert (actor (ENft o) = Some w) as Hact by (destruct Hop as [[to ->]| ->]; reflexivity).
        destruct (Hi w Hact). destruct (safe_auth _ _ _ _ _ _ Hs Hau); contradiction.
    - intros x Hx. apply step_appr in Hx as [[Hx _]|(a & z & -> & Hz & _ & Hor)]; try assumption; [apply Ha, Hx|].
      destruct (Hi a eq_refl) as [H1 H2]. assert (z = y) as -> by congruence. destruct Hor as [->|Hor]; [congruence|].
      exfalso. apply H2, Hall; [congruence|exact Hor].
    - intros x Hne Hx.
      destruct (step_effect s o Hw Hg) as [_ _ _ H|d ns from to _ _ _ _ _ H _ _ _|d n0 who _ _ _ _ _ H _ _ _|d to P _ _ _ _ H _ _ _ _ _];
        [|rewrite H in Hx; apply Hall; assumption..].
      apply H in Hx as [[Hx _]|Eo]; [apply Hall; assumption| |exact Hne]. subst o. destruct (Hi y eq_refl). congruence.
  Qed.
  Lemma acts_actor caller c o : acts caller c o -> forall w, actor (ENft o) = Some w -> w = caller.
  Proof. destruct o; cbn; intros H w [= <-]; tauto. Qed.
  Theorem C128_only_with_consent b ops1 ops2 c n y : Forall (every (fair b)) ops1 ->
    let s := run estep ops1 einit in
    let trusted x := appr (e_nft s) !! (c, n) = Some x \/ appr_all (e_nft s) !! (y, c, x) = Some true in
    owner_of (e_nft s) c n = Some y ->
    Forall (every (fun o => fair b o /\ idle y trusted o)) ops2 ->
    let s' := run estep ops2 s in
    owner_of (e_nft s') c n = Some y /\ forall x, appr (e_nft s') !! (c, n) = Some x -> trusted x.
  Proof.
    intros H1 s trusted Ho H2 s'. pose proof (fair_run b ops1 H1) as Hi. fold s in Hi.
    assert (G : Inv b s' /\ safe y trusted c n (e_nft s')).
    { assert (H0 : Inv b s /\ safe y trusted c n (e_nft s)).
      { split; [exact Hi|]. split; [exact Ho|]. split; [intros x Hx; left; exact Hx|intros x _ Hx; right; exact Hx]. }
      unfold s'. clearbody trusted s. clear s' H1 Ho Hi. revert H0.
      pose (R := fun s s' : estate => Inv b s /\ safe y trusted c n (e_nft s) -> Inv b s' /\ safe y trusted c n (e_nft s')).
      change (R s (run estep ops2 s)). revert H2. apply (erun_rel (fun o => fair b o /\ idle y trusted o) R); unfold R; auto. clear s ops2.
      intros o s. apply (estep_rel (fun o => fair b o /\ idle y trusted o) R); unfold R; auto; clear o s.
      - intros s o [Hf Hid] [Hi Hs]. pose proof (fair_good b s o Hi Hf) as Hg. split; [apply Inv_nft; assumption|].
        apply safe_step; [apply Hi|assumption..].
      - intros caller d st v call ext r s s' [_ Hid] He [Hi Hs]. split; [eapply Inv_eff; eassumption|].
        apply eff_nft in He as [->|(o & -> & _ & Ha)]; [exact Hs|].
        apply safe_step; [apply Hi|eapply acts_good, Ha| |exact Hs]. intros w Hact. apply (acts_actor _ _ _ Ha) in Hact as ->. apply Hid. reflexivity.
      - intros caller d st v call ext r s s1 from to id x [_ Hid] HR Hau Hx Hs. destruct (HR Hs) as [Hi1 (Hs1 & Hs2 & Hs3)].
        split; [eapply Inv_transfer; eassumption|]. cbn [elogs with_nft e_nft].
        pose proof Hx as Hx'. apply transfer_spec in Hx as (Hw' & _ & _ & He & _ & Hall & Hap & _); [|apply Hi1].
        assert (Hne : ~ (c = d /\ n ∈ [id])).
        { intros [-> Hin]. apply elem_of_list_singleton in Hin as ->. destruct Hs as [_ Hs]. destruct (Hid caller eq_refl) as [N1 N2].
          destruct (safe_auth _ _ _ _ _ _ Hs Hau); contradiction. }
        split; [|split].
        + apply owner_owns; [exact Hw'|]. apply He. rewrite decide_False by exact Hne. apply owner_owns; [apply Hi1|exact Hs1].
        + intros z Hz. rewrite Hap, decide_False in Hz by exact Hne. apply Hs2, Hz.
        + intros z Hz. rewrite Hall. apply Hs3, Hz. }
    destruct G as [_ (G1 & G2 & _)]. split; [exact G1|exact G2].
  Qed.

  (** What [transferFrom] does: the caller is the owner, an operator of the owner or the token's approved
      account; the token goes from its owner to the new one, and its approval ends; nothing else moves. *)
  Definition moved (s s' : estate) (c id from to : N) : Prop :=
    owner_of (e_nft s) c id = Some from /\ from <> to /\ locks (e_nft s) !! (c, id) = None /\
    owner_of (e_nft s') c id = Some to /\ appr (e_nft s') !! (c, id) = None /\
    (forall d n, (d, n) <> (c, id) -> owner_of (e_nft s') d n = owner_of (e_nft s) d n /\ appr (e_nft s') !! (d, n) = appr (e_nft s) !! (d, n)) /\
    appr_all (e_nft s') = appr_all (e_nft s) /\ locks (e_nft s') = locks (e_nft s) /\
    e_logs s' = e_logs s ++ [Elog c [L_transfer; from; to; id] []].
  Definition may_move (s : nft) (c id caller : N) : Prop :=
    exists y, owner_of s c id = Some y /\ (caller = y \/ appr_all s !! (y, c, caller) = Some true) \/ appr s !! (c, id) = Some caller.
  Lemma moved_by s c id from to x : WF (e_nft s) -> do_transfer cap (e_nft s) c [id] from to = Ok x ->
    moved s (elogs (with_nft s x) [tlog c from to id]) c id from to.
  Proof.
    intros Hw Hx. apply transfer_spec in Hx as (Hw' & Hne & Hpre & He & Hl & Hall & Hap & _); [|exact Hw].
    destruct (Hpre id) as [Ho Hlk]; [left|]. unfold moved. cbn [elogs with_nft e_nft e_logs].
    split; [apply owner_owns; assumption|]. split; [exact Hne|]. split; [exact Hlk|].
    split; [apply owner_owns; [exact Hw'|]; apply He; rewrite decide_True by (split; [reflexivity|left]); reflexivity|].
    split; [rewrite Hap, decide_True by (split; [reflexivity|left]); reflexivity|]. split; [|auto].
    intros d n Hdn. assert (Hd : ~ (d = c /\ n ∈ [id])) by (intros [-> Hin]; apply elem_of_list_singleton in Hin as ->; congruence).
    split; [|rewrite Hap, decide_False by exact Hd; reflexivity].
    apply owner_ext; [exact Hw|exact Hw'|]. intros y. rewrite He, decide_False by exact Hd. reflexivity.
  Qed.
  Lemma auth_may s c id caller : is_approved_or_owner s c id caller = true -> may_move s c id caller.
  Proof.
    intros H. apply C14_authorised_iff in H as [H|[H|(z & Hz & H)]]; [exists caller; left; auto|exists caller; right; exact H|exists z; left; auto].
  Qed.
  Lemma transfer_call s r caller c st v ext from to id call s' o : WF (e_nft s) ->
    read_selector call = Ok Q_transferFrom -> read_args [tA; tA; tU] call = Ok [VN from; VN to; VN id] ->
    execute s r caller c st v call ext = Ok (s', o) -> may_move (e_nft s) c id caller /\ moved s s' c id from to.
  Proof.
    intros Hw R1 R2 E. enterE E R1. rewrite q_transferFrom in E. unfold g_transfer in E. rewrite R2 in E. cbn [rbind] in E. inv_ok.
    injection E as <- <-. split; [apply auth_may; assumption|]. apply moved_by; assumption.
  Qed.
  Theorem C128_transfer b ops r caller c st v ext from to id s' o : Forall (every (fair b)) ops ->
    let s := run estep ops einit in from < 2 ^ 160 -> to < 2 ^ 160 -> id < 2 ^ 256 ->
    execute s r caller c st v (build_call Q_transferFrom [tA; tA; tU] [VN from; VN to; VN id]) ext = Ok (s', o) ->
    may_move (e_nft s) c id caller /\ moved s s' c id from to.
  Proof.
    intros Hops s Hf Ht Hi. destruct (fair_run b ops Hops) as [Hw _]. fold s in Hw. clearbody s.
    destruct (Erc1155Props.len_small [tA; tA; tU] [VN from; VN to; VN id] Q_transferFrom) as [R1 R2];
      [vm_compute; discriminate|split; [exact Hf|split; [exact Ht|split; [apply wt_tU, Hi|exact I]]]|reflexivity|].
    apply transfer_call; assumption.
  Qed.
  (** And the owner, an operator or the approved account can. *)
  Lemma can_transfer_call s r caller c ext from to id i call : id <= U32MAX ->
    read_selector call = Ok Q_transferFrom -> read_args [tA; tA; tU] call = Ok [VN from; VN to; VN id] ->
    colls (e_nft s) !! c = Some i -> is_approved_or_owner (e_nft s) c id caller = true ->
    is_ok (do_transfer cap (e_nft s) c [id] from to) = true ->
    is_ok (execute s r caller c false 0 call ext) = true.
  Proof.
    intros Hi R1 R2 Ec Ha Hx. rewrite (exec721_eq _ _ _ _ s r caller c false call ext Q_transferFrom i Ec R1 eq_refl), q_transferFrom.
    unfold g_transfer. rewrite R2. cbn [rbind]. rewrite (proj2 (N.leb_le _ _)) by exact Hi. cbn [ensure rbind]. rewrite Ha. cbn [ensure rbind].
    destruct (do_transfer _ _ _ _ _ _); [reflexivity|discriminate Hx].
  Qed.
  Theorem C128_authorised_can s r caller c ext from to id i : colls (e_nft s) !! c = Some i -> c_transferable i = true ->
    from < 2 ^ 160 -> to < 2 ^ 160 -> id <= U32MAX -> owner_of (e_nft s) c id = Some from -> from <> to ->
    locks (e_nft s) !! (c, id) = None ->
    N.of_nat (length (c_toks i)) < cap -> (forall l, In (to, l) (c_toks i) -> N.of_nat (length l) < cap) ->
    caller = from \/ appr_all (e_nft s) !! (from, c, caller) = Some true \/ appr (e_nft s) !! (c, id) = Some caller ->
    is_ok (execute s r caller c false 0 (build_call Q_transferFrom [tA; tA; tU] [VN from; VN to; VN id]) ext) = true.
  Proof.
    intros Ec Htr Hf Ht Hi Ho Hne Hl H1 H2 Ha.
    destruct (Erc1155Props.len_small [tA; tA; tU] [VN from; VN to; VN id] Q_transferFrom) as [R1 R2];
      [vm_compute; discriminate|split; [exact Hf|split; [exact Ht|split; [apply wt_tU; unfold U32MAX in Hi; lia|exact I]]]|reflexivity|].
    eapply can_transfer_call; try eassumption.
    - apply C14_authorised_iff. destruct Ha as [->|[Ha|Ha]]; [left; exact Ho|right; right; eauto|right; left; exact Ha].
    - eapply C62_owner_can_transfer; eassumption.
  Qed.
  (** What [approve] does. *)
  Lemma approve_call s r caller c st v ext to id call s' o :
    read_selector call = Ok Q_approve -> read_args [tA; tU] call = Ok [VN to; VN id] ->
    execute s r caller c st v call ext = Ok (s', o) ->
    caller <> to /\ (exists y, owner_of (e_nft s) c id = Some y /\ (caller = y \/ appr_all (e_nft s) !! (y, c, caller) = Some true)) /\
    e_nft s' = Nft (colls (e_nft s)) (locks (e_nft s)) (<[(c, id) := to]> (appr (e_nft s))) (appr_all (e_nft s)) /\
    e_logs s' = e_logs s ++ [Elog c [L_approve; caller; to; id] []].
  Proof.
    intros R1 R2 E. enterE E R1. rewrite q_approve in E. unfold g_approve, approve in E. rewrite R2 in E. cbn [rbind] in E. inv_ok.
    injection E as <- <-. match goal with H : negb _ = true |- _ => apply negb_true_iff, N.eqb_neq in H; rename H into Hne end.
    split; [exact Hne|]. split.
    - eexists. split; [eassumption|]. match goal with H : _ || _ = true |- _ => apply orb_true_iff in H as [H|H] end.
      + left. symmetry. apply N.eqb_eq. assumption.
      + right. unfold is_operator in *. destruct (appr_all (e_nft s) !! _) as [[|]|]; cbn in *; congruence.
    - match goal with H : Nft _ _ _ _ = _ |- _ => subst end. split; reflexivity.
  Qed.
  Theorem C128_approve s r caller c st v ext to id s' o : to < 2 ^ 160 -> id < 2 ^ 256 ->
    execute s r caller c st v (build_call Q_approve [tA; tU] [VN to; VN id]) ext = Ok (s', o) ->
    caller <> to /\ (exists y, owner_of (e_nft s) c id = Some y /\ (caller = y \/ appr_all (e_nft s) !! (y, c, caller) = Some true)) /\
    e_nft s' = Nft (colls (e_nft s)) (locks (e_nft s)) (<[(c, id) := to]> (appr (e_nft s))) (appr_all (e_nft s)) /\
    e_logs s' = e_logs s ++ [Elog c [L_approve; caller; to; id] []].
  Proof.
    intros Ht Hi. destruct (Erc1155Props.len_small [tA; tU] [VN to; VN id] Q_approve) as [R1 R2];
      [vm_compute; discriminate|split; [exact Ht|split; [apply wt_tU, Hi|exact I]]|reflexivity|].
    apply approve_call; assumption.
  Qed.
  Lemma approve_all_call s r caller c st v ext op on call s' o :
    read_selector call = Ok Q_setApprovalForAll -> read_args [tA; tB] call = Ok [VN op; VN on] ->
    execute s r caller c st v call ext = Ok (s', o) ->
    colls (e_nft s') = colls (e_nft s) /\ appr (e_nft s') = appr (e_nft s) /\ locks (e_nft s') = locks (e_nft s) /\
    (forall w d x, appr_all (e_nft s') !! (w, d, x) =
       if decide (w = caller /\ d = c /\ x = op) then (if on =? 1 then Some true else None) else appr_all (e_nft s) !! (w, d, x)) /\
    e_logs s' = e_logs s ++ [Elog c [L_approval; caller; op] (word on)].
  Proof.
    intros R1 R2 E. enterE E R1. rewrite q_setApprovalForAll in E. unfold g_set_approval, approve_all in E. rewrite R2 in E. cbn [rbind] in E. inv_ok.
    injection E as <- <-. match goal with H : Nft _ _ _ _ = _ |- _ => subst end.
    split; [reflexivity|]. split; [reflexivity|]. split; [reflexivity|]. split; [|reflexivity].
    intros w d z. cbn [log721 elogs with_nft e_nft appr_all]. destruct (decide _) as [(-> & -> & ->)|Hn].
    - destruct (on =? 1); [apply lookup_insert|apply lookup_delete].
    - destruct (on =? 1); [rewrite lookup_insert_ne|rewrite lookup_delete_ne]; try reflexivity; intros [= -> -> ->]; tauto.
  Qed.
  Theorem C128_approve_all s r caller c st v ext op on s' o : op < 2 ^ 160 -> on < 2 ->
    execute s r caller c st v (build_call Q_setApprovalForAll [tA; tB] [VN op; VN on]) ext = Ok (s', o) ->
    colls (e_nft s') = colls (e_nft s) /\ appr (e_nft s') = appr (e_nft s) /\ locks (e_nft s') = locks (e_nft s) /\
    (forall w d x, appr_all (e_nft s') !! (w, d, x) =
       if decide (w = caller /\ d = c /\ x = op) then (if on =? 1 then Some true else None) else appr_all (e_nft s) !! (w, d, x)) /\
    e_logs s' = e_logs s ++ [Elog c [L_approval; caller; op] (word on)].
  Proof.
    intros Ht Hi. destruct (Erc1155Props.len_small [tA; tB] [VN op; VN on] Q_setApprovalForAll) as [R1 R2];
      [vm_compute; discriminate|split; [exact Ht|split; [exact Hi|exact I]]|reflexivity|].
    apply approve_all_call; assumption.
  Qed.

  (** ** C129: the Transfer logs follow the owners of tokens *)
  (** [follows c n o l o']: read in order, the Transfer logs of token [n] in [l] take it from owner [o] to
      owner [o']; each names the account that had it (zero for a new token) and the one that gets it (zero
      for a burnt one). *)
  Inductive follows (c n : N) : option N -> list elog -> option N -> Prop :=
  | fo_nil o : follows c n o [] o
  | fo_skip o g l o' : (lg_coll g = c -> forall f t, log_move g <> Some (f, t, n)) -> follows c n o l o' -> follows c n o (g :: l) o'
  | fo_mint to l o' : follows c n (Some to) l o' -> follows c n None (Elog c [L_transfer; 0; to; n] [] :: l) o'
  | fo_move y to l o' : follows c n (Some to) l o' -> follows c n (Some y) (Elog c [L_transfer; y; to; n] [] :: l) o'
  | fo_burn y l o' : follows c n None l o' -> follows c n (Some y) (Elog c [L_transfer; y; 0; n] [] :: l) o'.
  Lemma follows_app c n o l o1 l' o2 : follows c n o l o1 -> follows c n o1 l' o2 -> follows c n o (l ++ l') o2.
  Proof. induction 1; intros; cbn [app]; [assumption|apply fo_skip; auto|apply fo_mint; auto|apply fo_move; auto|apply fo_burn; auto]. Qed.
  Lemma follows_skips c n o l : Forall (fun g => lg_coll g = c -> forall f t, log_move g <> Some (f, t, n)) l -> follows c n o l o.
  Proof. induction 1; [apply fo_nil|apply fo_skip; assumption]. Qed.
  Lemma follows_silent c n o l : Forall (fun g => log_move g = None) l -> follows c n o l o.
  Proof. intros H. apply follows_skips. eapply Forall_impl; [exact H|]. intros g E _ f t. rewrite E. discriminate. Qed.
  Lemma move_tlog c f t n : log_move (tlog c f t n) = Some (f, t, n).
  Proof. reflexivity. Qed.
  Lemma skip_other c n d f t m : (d, m) <> (c, n) -> lg_coll (tlog d f t m) = c -> forall f' t', log_move (tlog d f t m) <> Some (f', t', n).
  Proof. rewrite move_tlog. cbn [lg_coll tlog]. intros H -> f' t' [= -> -> ->]. congruence. Qed.
  Lemma follows_mints c n d to ns : NoDup ns -> forall o,
    (d = c -> n ∈ ns -> o = None) -> follows c n o (map (tlog d 0 to) ns) (if decide (d = c /\ n ∈ ns) then Some to else o).
  Proof.
    induction 1 as [|m ns Hm Hnd IH]; intros o Ho.
    { rewrite decide_False by (intros [_ H]; inversion H). constructor. }
    cbn [map]. destruct (decide (d = c /\ m = n)) as [[-> ->]|Hne].
    - rewrite decide_True by (split; [reflexivity|left]). rewrite (Ho eq_refl ltac:(left)). apply fo_mint.
      specialize (IH (Some to)). rewrite decide_False in IH by tauto. apply IH. intros _ H. contradiction.
    - apply fo_skip; [apply skip_other; intros [= -> ->]; tauto|].
      specialize (IH o). destruct (decide (d = c /\ n ∈ ns)) as [[H1 H2]|Hno].
      + rewrite decide_True by (split; [exact H1|right; exact H2]). apply IH. intros E H. apply Ho; [exact E|right; exact H].
      + rewrite decide_False; [apply IH; intros E H; exfalso; tauto|].
        intros [H1 H2]. apply elem_of_cons in H2 as [H2|H2]; [symmetry in H2|]; tauto.
  Qed.
  (** The pallets' own calls leave the tokens of collection [c] where they are. *)
  Definition elsewhere (c : N) (o : eop) : Prop :=
    match o with
    | ENft (NCreate d _ _ _ _ _) | ENft (NMint _ d _ _ _) | ENft (NBridge _ d _) | ENft (NTransfer _ d _ _) | ENft (NBurn _ d _)
    | ENft (NTransferFrom _ d _ _ _) | ENft (NBurnFrom _ d _) => d <> c
    | _ => True
    end.
  Lemma elsewhere_owner s o c n : WF s -> good s o -> elsewhere c (ENft o) -> owner_of (nstep s o) c n = owner_of s c n.
  Proof.
    intros Hw Hg He. pose proof (step_WF cap mint_limit pallet s o Hg Hw) as Hw'.
    destruct (step_effect s o Hw Hg) as [(_ & Hq & _) _ _ _|d ns from to _ _ _ H _ _ _ _ Hop|d n0 who _ _ _ H _ _ _ _ Hop|d to P _ H _ _ _ _ _ _ _ Hop];
      apply owner_ext; try assumption; intros y; [apply Hq|rewrite H..].
    - assert (d <> c) by (destruct Hop as [->|(? & ? & _ & -> & _)]; exact He). rewrite decide_False by intuition congruence. reflexivity.
    - assert (d <> c) by (destruct Hop as [->|(? & -> & _)]; exact He). rewrite decide_False by intuition congruence. reflexivity.
    - assert (d <> c) by (destruct Hop as [(? & ? & ? & ? & ->)|[(? & ? & ? & ->)|(? & -> & _)]]; exact He). intuition congruence.
  Qed.
  Lemma follow_move s x d id from to c n : WF s -> do_transfer cap s d [id] from to = Ok x ->
    follows c n (owner_of s c n) [tlog d from to id] (owner_of x c n).
  Proof.
    intros Hw Hx. apply transfer_spec in Hx as (Hw' & _ & Hpre & He & _); [|exact Hw]. destruct (Hpre id) as [Ho _]; [left|].
    destruct (decide ((d, id) = (c, n))) as [[= -> ->]|Hne].
    - apply owner_owns in Ho; [|exact Hw]. rewrite Ho. assert (Hx : owner_of x c n = Some to).
      { apply owner_owns; [exact Hw'|]. apply He. rewrite decide_True by (split; [reflexivity|left]). reflexivity. }
      rewrite Hx. apply fo_move, fo_nil.
    - assert (Hx : owner_of x c n = owner_of s c n).
      { apply owner_ext; [exact Hw|exact Hw'|]. intros y. rewrite He, decide_False; [reflexivity|].
        intros [-> Hin]. apply elem_of_list_singleton in Hin as ->. congruence. }
      rewrite Hx. apply fo_skip; [apply skip_other; congruence|apply fo_nil].
  Qed.
  Lemma follow_op s d caller o x l c n : WF s -> nexec s o = Ok x -> acts caller d o -> told s d o l ->
    follows c n (owner_of s c n) l (owner_of x c n).
  Proof.
    intros Hw Hx Ha Ht.
    assert (Hstay : (forall e, elsewhere e (ENft o)) -> owner_of x c n = owner_of s c n).
    { intros He. assert (x = nstep s o) as -> by (unfold NftModel.nstep; rewrite Hx; reflexivity).
      apply elsewhere_owner; [exact Hw|eapply acts_good, Ha|apply He]. }
    destruct o; cbn [acts told NftModel.nexec] in *; try contradiction; destruct Ha as [-> ->].
    - destruct Ht as (i & Hi & ->). apply mint_spec in Hx as (j & Hj & _ & _ & _ & _ & Hw' & He & Hfr & _); [|exact Hw].
      assert (j = i) as -> by congruence.
      assert (E : owner_of x c n = if decide (d = c /\ n ∈ serials (c_next i) q) then Some to else owner_of s c n).
      { destruct (decide _) as [[-> Hin]|Hno].
        - apply owner_owns; [exact Hw'|]. apply He. right. apply serials_elem in Hin. auto.
        - apply owner_ext; [exact Hw|exact Hw'|]. intros y. rewrite He. split; [|auto]. intros [H|(-> & _ & H)]; [exact H|].
          exfalso. apply Hno. split; [reflexivity|apply serials_elem, H]. }
      rewrite E. apply follows_mints; [apply serials_nodup|]. intros -> Hin. apply owner_none; [exact Hw|]. apply Hfr.
      apply serials_elem in Hin. lia.
    - subst l. unfold transfer_from in Hx. inv_ok. eapply follow_move; eassumption.
    - destruct Ht as (y & Hy & ->). unfold burn_from in Hx. rewrite Hy in Hx. inv_ok.
      apply burn_spec in Hx as (Hw' & Ho & _ & He & _); [|exact Hw].
      destruct (decide ((d, n0) = (c, n))) as [[= -> ->]|Hne].
      + rewrite Hy. assert (Hx : owner_of x c n = None).
        { apply owner_none; [exact Hw'|]. intros z. rewrite He, decide_True by auto. tauto. }
        rewrite Hx. apply fo_burn, fo_nil.
      + assert (Hx : owner_of x c n = owner_of s c n).
        { apply owner_ext; [exact Hw|exact Hw'|]. intros z. rewrite He, decide_False; [reflexivity|]. intros [-> ->]. congruence. }
        rewrite Hx. apply fo_skip; [apply skip_other; congruence|apply fo_nil].
    - rewrite Hstay by (intros; exact I). apply follows_silent, Ht.
    - rewrite Hstay by (intros; exact I). apply follows_silent, Ht.
    - rewrite Hstay by (intros; exact I). apply follows_silent, Ht.
    - rewrite Hstay by (intros; exact I). apply follows_silent, Ht.
    - rewrite Hstay by (intros; exact I). apply follows_silent, Ht.
  Qed.
  (** The full statement - of every history - is false, see [C129_logs_refuted]. *)
  Theorem C129_logs_partial b ops1 ops2 c : Forall (every (fair b)) ops1 ->
    let s := run estep ops1 einit in
    Forall (every (fun o => fair b o /\ elsewhere c o)) ops2 ->
    let s' := run estep ops2 s in
    exists l, e_logs s' = e_logs s ++ l /\ forall n, follows c n (owner_of (e_nft s) c n) l (owner_of (e_nft s') c n).
  Proof.
    intros H1 s H2 s'. pose proof (fair_run b ops1 H1) as Hi. fold s in Hi. unfold s'. clearbody s. clear s' H1.
    pose (R := fun s s' : estate => Inv b s -> Inv b s' /\
      exists l, e_logs s' = e_logs s ++ l /\ forall n, follows c n (owner_of (e_nft s) c n) l (owner_of (e_nft s') c n)).
    enough (HR : R s (run estep ops2 s)) by (apply (HR Hi)). clear Hi.
    assert (Hrefl : forall s, R s s).
    { intros s0 Hi. split; [exact Hi|]. exists []. rewrite app_nil_r. split; [reflexivity|]. intros n. apply fo_nil. }
    assert (Htrans : forall a b c, R a b -> R b c -> R a c).
    { intros s1 s2 s3 Ha Hb Hi. destruct (Ha Hi) as [Hi2 (l1 & E1 & F1)]. destruct (Hb Hi2) as [Hi3 (l2 & E2 & F2)]. split; [exact Hi3|].
      exists (l1 ++ l2). rewrite E2, E1, app_assoc. split; [reflexivity|]. intros n. eapply follows_app; [apply F1|apply F2]. }
    revert H2. apply (erun_rel (fun o => fair b o /\ elsewhere c o) R); [exact Hrefl|exact Htrans|]. clear s ops2.
    intros o s. apply (estep_rel (fun o => fair b o /\ elsewhere c o) R); [exact Hrefl|exact Htrans|..]; clear o s.
    - intros s o [Hf He] Hi. pose proof (fair_good b s o Hi Hf) as Hg. split; [apply Inv_nft; assumption|]. exists [].
      rewrite app_nil_r. split; [reflexivity|]. intros n. cbn [with_nft e_nft]. rewrite elsewhere_owner; [apply fo_nil|apply Hi|exact Hg|exact He].
    - intros s m Hi. split; [apply (Inv_eq b s); [reflexivity|exact Hi]|]. exists []. rewrite app_nil_r. split; [reflexivity|]. intros n. apply fo_nil.
    - intros caller d st v call ext r s s' _ He Hi. split; [eapply Inv_eff; eassumption|].
      destruct He as [s|s o x l Hx Ha Ht|s u f m l Hl]; cbn [e_nft e_logs].
      + exists []. rewrite app_nil_r. split; [reflexivity|]. intros n. apply fo_nil.
      + exists l. split; [reflexivity|]. intros n. eapply follow_op; [apply Hi|eassumption..].
      + exists l. split; [reflexivity|]. intros n. apply follows_silent, Hl.
    - intros caller d st v call ext r s s1 from to id x _ HR _ Hx Hi. destruct (HR Hi) as [Hi1 (l & E & F)].
      split; [eapply Inv_transfer; eassumption|]. exists (l ++ [tlog d from to id]). cbn [elogs with_nft e_nft e_logs]. rewrite E, app_assoc.
      split; [reflexivity|]. intros n. eapply follows_app; [apply F|]. eapply follow_move; [apply Hi1|exact Hx].
  Qed.
  (** So the last Transfer log of a token tells its owner. *)
  Lemma follows_last c n o l g l' o' f t : follows c n o (l ++ g :: l') o' -> lg_coll g = c -> log_move g = Some (f, t, n) ->
    Forall (fun g => lg_coll g = c -> forall f t, log_move g <> Some (f, t, n)) l' -> t <> 0 -> o' = Some t.
  Proof.
    intros F Hg Hm Hl Ht. remember (l ++ g :: l') as k eqn:Ek. revert l Ek. induction F as [o|o h k o' Hh F IH|to k o' F IH|y to k o' F IH|y k o' F IH]; intros l Ek.
    - destruct l; discriminate Ek.
    - destruct l as [|h' l]; injection Ek as -> ->; [exfalso; eapply Hh; eassumption|]. eapply IH. reflexivity.
    - destruct l as [|h' l]; injection Ek as E ->; [|eapply IH; reflexivity]. subst g. injection Hm as <- <-.
      clear -F Hl. remember (Some to) as o eqn:Eo. induction F; inversion Hl; subst; [reflexivity|auto|discriminate Eo|exfalso..].
      + match goal with H : _ -> forall _ _, _ |- _ => eapply H; reflexivity end.
      + match goal with H : _ -> forall _ _, _ |- _ => eapply H; reflexivity end.
    - destruct l as [|h' l]; injection Ek as E ->; [|eapply IH; reflexivity]. subst g. injection Hm as <- <-.
      clear -F Hl. remember (Some to) as o eqn:Eo. induction F; inversion Hl; subst; [reflexivity|auto|discriminate Eo|exfalso..].
      + match goal with H : _ -> forall _ _, _ |- _ => eapply H; reflexivity end.
      + match goal with H : _ -> forall _ _, _ |- _ => eapply H; reflexivity end.
    - destruct l as [|h' l]; injection Ek as E ->; [|eapply IH; reflexivity]. subst g. injection Hm as <- <-. congruence.
  Qed.
  Theorem C129_last_log_partial b ops1 ops2 c n l g l' f t : Forall (every (fair b)) ops1 ->
    let s := run estep ops1 einit in
    Forall (every (fun o => fair b o /\ elsewhere c o)) ops2 ->
    let s' := run estep ops2 s in
    e_logs s' = e_logs s ++ l ++ g :: l' -> lg_coll g = c -> log_move g = Some (f, t, n) -> t <> 0 ->
    Forall (fun g => lg_coll g = c -> forall f t, log_move g <> Some (f, t, n)) l' ->
    owner_of (e_nft s') c n = Some t.
  Proof.
    intros H1 s H2 s' El Hg Hm Ht Hl. destruct (C129_logs_partial b ops1 ops2 c H1 H2) as (k & Ek & F). fold s in Ek, F. fold s' in Ek, F.
    rewrite El in Ek. apply app_inv_head in Ek. subst k. eapply follows_last; eauto.
  Qed.

  (** ** C130: static calls, attached value and panics *)
  Theorem C130_value s r caller c st v call ext : v <> 0 -> is_ok (execute s r caller c st v call ext) = false.
  Proof.
    intros Hv. destruct (execute s r caller c st v call ext) as [x|] eqn:E; [exfalso|reflexivity].
    unfold execute721 in E. inv_ok. apply Hv, N.eqb_eq. assumption.
  Qed.
  (** The full statement - without the exception of [burn] - is false, see [C130_static_refuted]. *)
  Theorem C130_static_partial s r caller c v call ext s' o sel : read_selector call = Ok sel -> sel <> Q_burn ->
    execute s r caller c true v call ext = Ok (s', o) -> query sel = true /\ s' = s.
  Proof.
    intros Hs Hb E. enterE E Hs. cbn [andb] in *.
    match goal with H : non_payable721 sel = false |- _ => rename H into Hp end.
    unfold non_payable721 in Hp. cbn [existsb] in Hp. repeat apply orb_false_iff in Hp as [? Hp].
    unfold dispatch721 in E. unfold query. cbn [existsb].
    repeat match goal with H : (sel =? _) = false |- _ => rewrite H in E; clear H end.
    rewrite (proj2 (N.eqb_neq sel Q_burn) Hb) in E.
    Ltac viewed E := rewrite ?orb_true_r, ?orb_true_l; split; [reflexivity|]; inv_ok; congruence.
    destruct (sel =? Q_ownerOf). { unfold g_owner_of, g_by_id in E. isargs E. viewed E. }
    destruct (sel =? Q_balanceOf). { unfold g_balance_of in E. isargs E. viewed E. }
    destruct (sel =? Q_getApproved). { unfold g_get_approved, g_by_id in E. isargs E. viewed E. }
    destruct (sel =? Q_isApprovedForAll). { unfold g_is_approved in E. isargs E. viewed E. }
    destruct (sel =? Q_name). { unfold g_name in E. viewed E. }
    destruct (sel =? Q_symbol). { unfold g_name in E. viewed E. }
    destruct (sel =? Q_tokenURI). { unfold g_token_uri, g_by_id in E. isargs E. viewed E. }
    destruct (sel =? Q_owner). { unfold g_owner in E. viewed E. }
    destruct (sel =? Q_totalSupply). { unfold g_total_supply in E. viewed E. }
    destruct (sel =? Q_ownedTokens). { unfold g_owned in E. isargs E. inv_ok. destruct (owned_tokens _ _ _ _ _) as [[? ?] ?]. viewed E. }
    destruct (sel =? Q_supportsInterface). { unfold g_supports in E. isargs E; viewed E. }
    discriminate E.
  Qed.
  (** A call that is not among the functions' selectors, or shorter than one, fails. *)
  Definition changes (sel : N) : bool := non_payable721 sel || (sel =? Q_burn).
  Theorem C130_unknown s r caller c st v call ext : 
    (forall sel, read_selector call = Ok sel -> query sel = false /\ changes sel = false) \/ colls (e_nft s) !! c = None ->
    is_ok (execute s r caller c st v call ext) = false.
  Proof.
    intros H. destruct (execute s r caller c st v call ext) as [x|] eqn:E; [exfalso|reflexivity].
    destruct H as [H|H]; [|unfold execute721 in E; rewrite H in E; discriminate E].
    destruct (read_selector call) as [sel|] eqn:Hs; [|unfold execute721 in E; rewrite Hs in E; inv_ok; discriminate].
    enterE E Hs. destruct (H sel eq_refl) as [Hq Hc]. unfold changes, non_payable721 in Hc. unfold query in Hq. cbn [existsb] in Hq, Hc.
    repeat match goal with H : _ || _ = false |- _ => apply orb_false_iff in H as [? H] end.
    repeat match goal with H : _ || _ = false |- _ => apply orb_false_iff in H as [H ?] end.
    unfold dispatch721 in E. repeat match goal with H : (sel =? _) = false |- _ => rewrite H in E; clear H end. discriminate E.
  Qed.

  (** What cannot panic. *)
  Definition np {A} (r : result A) : Prop := r <> Err panic.
  Lemma np_ok {A} (a : A) : np (Ok a).
  Proof. discriminate. Qed.
  Lemma np_err {A} e : e <> panic -> np (@Err A e).
  Proof. intros H [= E]. contradiction. Qed.
  Lemma np_bind {A B} (a : result A) (k : A -> result B) : np a -> (forall v, a = Ok v -> np (k v)) -> np (rbind a k).
  Proof. intros Ha Hk. destruct a as [v|e]; cbn [rbind]; [apply Hk; reflexivity|]. intros [= E]. apply Ha. congruence. Qed.
  Lemma np_ensure b e : e <> panic -> np (ensure b e).
  Proof. intros H. destruct b; [discriminate|]. intros [= E]. contradiction. Qed.
  Lemma np_opt {A} (o : option A) e : e <> panic -> np (of_opt o e).
  Proof. intros H. destruct o; [discriminate|]. intros [= E]. contradiction. Qed.
  Ltac nps := repeat first
    [apply np_ok | apply np_err; discriminate | apply np_ensure; discriminate | apply np_opt; discriminate | assumption
    | apply np_bind; [|intros ? ?] | match goal with |- np (match ?x with _ => _ end) => destruct x end].
  Lemma np_take inp cur len : np (take_at inp cur len).
  Proof. unfold take_at. nps. Qed.
  Lemma np_word inp cur : np (read_word inp cur).
  Proof. unfold read_word. apply np_bind; [apply np_take|nps]. intros. nps. Qed.
  Lemma np_usize inp cur : np (read_usize inp cur).
  Proof. unfold read_usize. apply np_bind; [apply np_word|intros; nps]. Qed.
  Lemma np_pointer inp cur : np (read_pointer inp cur).
  Proof. unfold read_pointer. apply np_bind; [apply np_usize|intros; nps]. Qed.
  Lemma np_read t : forall inp cur, np (read t inp cur).
  Proof.
    induction t as [k| |mx|mx t IH|ts IH] using ty_all; intros inp cur; cbn [read].
    - apply np_bind; [apply np_word|]. intros. unfold of_word. nps.
    - apply np_bind; [apply np_take|]. intros. nps.
    - apply np_bind; [apply np_pointer|]. intros. apply np_bind; [apply np_usize|]. intros. apply np_bind; [nps|]. intros.
      apply np_bind; [apply np_take|]. intros. nps.
    - apply np_bind; [apply np_pointer|]. intros p _. apply np_bind; [apply np_usize|]. intros n _. apply np_bind; [nps|]. intros.
      apply np_bind; [|intros; nps]. generalize 0 at 1. induction (N.to_nat (fst n)) as [|m IHm]; intros c0; [nps|].
      apply np_bind; [apply IH|]. intros. apply np_bind; [apply IHm|]. intros. nps.
    - match goal with |- np (if _ then do! r <- ?go ts inp cur; _ else _) => assert (Hgo : forall l, Forall (fun t => forall inp cur, np (read t inp cur)) l -> forall i c0, np (go l i c0)) end.
      { clear. induction 1 as [|t ts Ht Hts IH]; intros i c0; [nps|]. apply np_bind; [apply Ht|]. intros. apply np_bind; [apply IH|]. intros. nps. }
      destruct (is_static _); [apply np_bind; [apply Hgo, IH|intros; nps]|].
      apply np_bind; [apply np_pointer|]. intros. apply np_bind; [apply Hgo, IH|]. intros. nps.
  Qed.
  Lemma np_read_all ts : forall inp cur, np (read_all ts inp cur).
  Proof.
    induction ts as [|t ts IH]; intros inp c0; cbn [read_all]; [nps|].
    apply np_bind; [apply np_read|]. intros. apply np_bind; [apply IH|]. intros. nps.
  Qed.
  Lemma np_args ts call : np (read_args ts call).
  Proof. unfold read_args. apply np_bind; [nps|]. intros. apply np_bind; [nps|]. intros. apply np_bind; [apply np_read_all|]. intros. nps. Qed.
  Lemma np_nft s o : np (nexec s o).
  Proof.
    destruct o; cbn [NftModel.nexec]; unfold create, mint, pre_mint, mint_bridged, do_mint, do_transfer, do_burn, transfer_from, burn_from, set_max,
      set_owner, claim, set_flags, lock, approve, unapprove, approve_all, do_transfer, do_burn; cbv zeta; nps.
  Qed.
  Lemma np_transfer s c ns from to : np (do_transfer cap s c ns from to).
  Proof. apply (np_nft s (NTransfer from c ns to)). Qed.
  (** The two ways to panic the node: a receiver answering fewer than four bytes, and asking for more
      XLS-20 mints than [MaxTokensPerXls20Mint]. *)
  Definition short_answer (s : estate) (r : callee721) (caller c : N) (call : list N) : Prop :=
    exists s1 ans from to id data a, r = Some (s1, ans) /\ safe_args call from to id data /\ id <= U32MAX /\
      is_approved_or_owner (e_nft s) c id caller = true /\ ans caller (ask from to id data) = Some a /\ (length a < 4)%nat.
  Definition many_ids (call : list N) : Prop :=
    read_selector call = Ok Q_reRequestXls20 /\
    exists ids, read_args [tUs] call = Ok [VL ids] /\ Forall (fun n => n <= U32MAX) (nums ids) /\ max_xls20 < N.of_nat (length ids).
  Lemma safe_panic s r caller c from to id data call : safe_args call from to id data ->
    g_do_safe cap s r caller c from to id data = Err panic -> short_answer s r caller c call.
  Proof.
    intros Ha. unfold g_do_safe. destruct (N.leb_spec id U32MAX) as [Hid|]; cbn [ensure rbind]; [|discriminate].
    destruct (is_approved_or_owner _ _ _ _) eqn:Hau; cbn [ensure rbind]; [|discriminate]. fold (ask from to id data).
    unfold accept721. destruct r as [[s1 ans]|]; cbn [rbind].
    - destruct (ans caller (ask from to id data)) as [a|] eqn:Ea; cbn [rbind]; [|discriminate].
      destruct (Nat.leb 4 (length a)) eqn:El; cbn [ensure rbind].
      + intros E. exfalso. revert E. match goal with |- ?a = Err panic -> False => change (np a) end.
        apply np_bind; [nps|]. intros. apply np_bind; [apply np_transfer|]. intros. nps.
      + intros _. exists s1, ans, from, to, id, data, a. apply Nat.leb_gt in El. auto 10.
    - intros E. exfalso. revert E. match goal with |- ?a = Err panic -> False => change (np a) end.
      apply np_bind; [apply np_transfer|]. intros. nps.
  Qed.
  Ltac noway E := exfalso; revert E; match goal with |- ?a = Err panic -> False => change (np a) end;
    repeat first [apply np_args | apply np_transfer | apply np_ok | apply np_err; discriminate | apply np_ensure; discriminate
      | apply np_opt; discriminate | apply np_bind; [|intros ? ?] | match goal with |- np (match ?x with _ => _ end) => destruct x end
      | match goal with
        | |- np (approve ?s ?a ?b ?c ?d) => apply (np_nft s (NApprove a b c d))
        | |- np (approve_all ?s ?a ?b ?c ?d) => apply (np_nft s (NApproveAll a b c d))
        | |- np (set_owner ?s ?a ?b ?c) => apply (np_nft s (NSetOwner a b c))
        | |- np (set_max ?s ?a ?b ?c) => apply (np_nft s (NSetMax a b c))
        | |- np (set_flags ?s ?a ?b ?p ?m ?t ?u) => apply (np_nft s (NSetFlags a b p m t u))
        | |- np (do_burn ?s ?a ?b ?c) => apply (np_nft s (NBurn a b c))
        | |- np (mint _ _ ?s ?a ?b ?q ?t ?e) => apply (np_nft s (NMint a b q t e))
        end].
  Lemma dispatch_panic sel s r caller c call ext : read_selector call = Ok sel -> dispatch sel s r caller c call ext = Err panic ->
    (In sel [Q_safeTransferFrom; Q_safeTransferFromData] /\ short_answer s r caller c call) \/ (sel = Q_reRequestXls20 /\ many_ids call).
  Proof.
    intros Hs E. unfold dispatch721 in E.
    destruct (sel =? Q_ownerOf). { unfold g_owner_of, g_by_id in E. noway E. }
    destruct (sel =? Q_balanceOf). { unfold g_balance_of in E. noway E. }
    destruct (sel =? Q_approve). { unfold g_approve in E. noway E. }
    destruct (sel =? Q_getApproved). { unfold g_get_approved, g_by_id in E. noway E. }
    destruct (sel =? Q_transferFrom). { unfold g_transfer in E. noway E. }
    destruct (N.eqb_spec sel Q_safeTransferFrom) as [->|].
    { left. split; [left; reflexivity|]. unfold g_safe in E. destruct (read_args [tA; tA; tU] call) as [a|] eqn:Ea; [|exfalso; cbn [rbind] in E; injection E as ->; apply (np_args _ _ Ea)].
      cbn [rbind] in E. repeat (match type of E with match ?x with _ => _ end = Err _ => destruct x; try discriminate E end).
      eapply safe_panic; [|exact E]. left. auto. }
    destruct (N.eqb_spec sel Q_safeTransferFromData) as [->|].
    { left. split; [right; left; reflexivity|]. unfold g_safe_data in E. destruct (read_args [tA; tA; tU; tBytes] call) as [a|] eqn:Ea; [|exfalso; cbn [rbind] in E; injection E as ->; apply (np_args _ _ Ea)].
      cbn [rbind] in E. repeat (match type of E with match ?x with _ => _ end = Err _ => destruct x; try discriminate E end).
      eapply safe_panic; [|exact E]. right. auto. }
    destruct (sel =? Q_isApprovedForAll). { unfold g_is_approved in E. noway E. }
    destruct (sel =? Q_setApprovalForAll). { unfold g_set_approval in E. noway E. }
    destruct (sel =? Q_name). { unfold g_name in E. noway E. }
    destruct (sel =? Q_symbol). { unfold g_name in E. noway E. }
    destruct (sel =? Q_tokenURI). { unfold g_token_uri, g_by_id in E. noway E. }
    destruct (sel =? Q_owner). { unfold g_owner in E. noway E. }
    destruct (sel =? Q_renounceOwnership). { unfold g_set_owner in E. noway E. }
    destruct (sel =? Q_transferOwnership). { unfold g_transfer_ownership, g_set_owner in E. noway E. }
    destruct (sel =? Q_burn). { unfold g_burn, g_by_id in E. noway E. }
    destruct (sel =? Q_totalSupply). { unfold g_total_supply in E. noway E. }
    destruct (sel =? Q_mint). { unfold g_mint in E. cbv zeta in E. noway E. }
    destruct (sel =? Q_setMaxSupply). { unfold g_set_max in E. noway E. }
    destruct (sel =? Q_setBaseURI). { unfold g_set_base_uri in E. cbv zeta in E. noway E. }
    destruct (sel =? Q_ownedTokens). { unfold g_owned in E. noway E. }
    destruct (sel =? Q_togglePublicMint). { unfold g_toggle in E. noway E. }
    destruct (sel =? Q_setMintFee). { unfold g_set_fee in E. cbv zeta in E. noway E. }
    destruct (sel =? Q_enableXls20). { unfold g_enable in E. cbv zeta in E. noway E. }
    destruct (N.eqb_spec sel Q_reRequestXls20) as [->|].
    { right. split; [reflexivity|]. split; [exact Hs|]. unfold g_re_request in E.
      destruct (read_args [tUs] call) as [a|] eqn:Ea; [|exfalso; cbn [rbind] in E; injection E as ->; apply (np_args _ _ Ea)].
      cbn [rbind] in E. repeat (match type of E with match ?x with _ => _ end = Err _ => destruct x; try discriminate E end).
      exists l. split; [reflexivity|]. destruct (all_le U32MAX (nums l)) eqn:Hl; cbn [ensure rbind] in E; [|discriminate E].
      split. { apply Forall_forall. intros k Hk. unfold all_le in Hl. rewrite forallb_forall in Hl. apply N.leb_le, Hl, elem_of_list_In, Hk. }
      destruct (N.leb_spec (N.of_nat (length l)) max_xls20) as [|H]; cbn [ensure rbind] in E; [noway E|exact H]. }
    destruct (sel =? Q_supportsInterface). { unfold g_supports in E. cbv zeta in E. noway E. }
    discriminate E.
  Qed.
  Theorem C130_panics s r caller c st v call ext : execute s r caller c st v call ext = Err panic <->
    v = 0 /\ st = false /\ colls (e_nft s) !! c <> None /\ (short_answer s r caller c call \/ many_ids call).
  Proof.
    split.
    - intros E. unfold execute721 in E. destruct (colls (e_nft s) !! c) as [i|] eqn:Ec; cbn [of_opt rbind] in E; [|discriminate E].
      destruct (read_selector call) as [sel|e] eqn:Hs; cbn [rbind] in E.
      2:{ exfalso. unfold read_selector in Hs. destruct (4 <=? nlen call); cbn in Hs; [discriminate|]. injection Hs as <-. discriminate E. }
      destruct (negb (st && non_payable721 sel)) eqn:Hp; cbn [ensure rbind] in E; [|discriminate E].
      destruct (N.eqb_spec v 0) as [->|]; cbn [ensure rbind] in E; [|discriminate E].
      assert (Hst : non_payable721 sel = true -> st = false) by (intros H; rewrite H, andb_true_r in Hp; apply negb_true_iff; exact Hp).
      apply dispatch_panic in E; [|exact Hs]. split; [reflexivity|]. destruct E as [[Hin H]|[-> H]].
      + split; [apply Hst; destruct Hin as [<-|[<-|[]]]; reflexivity|]. split; [discriminate|auto].
      + split; [apply Hst; reflexivity|]. split; [discriminate|auto].
    - intros (-> & -> & Hc & H). destruct (colls (e_nft s) !! c) as [i|] eqn:Ec; [|congruence].
      assert (Hsafe : forall from to id data s1 ans a, r = Some (s1, ans) -> id <= U32MAX -> is_approved_or_owner (e_nft s) c id caller = true ->
        ans caller (ask from to id data) = Some a -> (length a < 4)%nat -> g_do_safe cap s r caller c from to id data = Err panic).
      { intros from to id data s1 ans a -> Hid Hau Ha Hl. unfold g_do_safe. rewrite (proj2 (N.leb_le _ _)) by exact Hid. rewrite Hau. cbn [ensure rbind].
        fold (ask from to id data). unfold accept721. rewrite Ha. rewrite (proj2 (Nat.leb_gt _ _)) by exact Hl. reflexivity. }
      destruct H as [(s1 & ans & from & to & id & data & a & Hr & Hargs & Hid & Hau & Ha & Hl)|[R1 (ids & R2 & Hids & Hlen)]].
      + destruct Hargs as [(R1 & R2 & ->)|(R1 & R2)].
        * rewrite (exec721_eq _ _ _ _ s r caller c false call ext _ i Ec R1 eq_refl), q_safeTransferFrom. unfold g_safe. rewrite R2. cbn [rbind].
          eapply Hsafe; eassumption.
        * rewrite (exec721_eq _ _ _ _ s r caller c false call ext _ i Ec R1 eq_refl), q_safeTransferFromData. unfold g_safe_data. rewrite R2. cbn [rbind].
          eapply Hsafe; eassumption.
      + rewrite (exec721_eq _ _ _ _ s r caller c false call ext _ i Ec R1 eq_refl), q_reRequestXls20. unfold g_re_request. rewrite R2. cbn [rbind].
        assert (all_le U32MAX (nums ids) = true) as ->. { apply forallb_forall. intros n Hn. rewrite Forall_forall in Hids. apply N.leb_le, Hids, elem_of_list_In, Hn. }
        cbn [ensure rbind]. rewrite (proj2 (N.leb_gt _ _)) by exact Hlen. reflexivity.
  Qed.

  (** ** C131: [supportsInterface] *)
  (** ERC-165: the id of an interface is the xor of the selectors of its functions. *)
  Definition interface_id (sels : list N) : N := fold_right N.lxor 0 sels.
  (** [supportsInterface(bytes4)]; the functions of ERC-721, its metadata and the extensions. *)
  Definition I_erc165 : list N := [0x01ffc9a7].
  Definition I_erc721 : list N := [0x70a08231; 0x6352211e; 0x095ea7b3; 0x081812fc; 0xa22cb465; 0xe985e9c5; 0x23b872dd; 0x42842e0e; 0xb88d4fde].
  Definition I_metadata : list N := [0x06fdde03; 0x95d89b41; 0xc87b56dd].
  Definition I_burnable : list N := [0x42966c68].
  Definition I_ownable : list N := [0x8da5cb5b; 0x715018a6; 0xf2fde38b].
  (** README.md:44-57: [totalSupply()], [mint(address,uint32)], [setMaxSupply(uint32)], [setBaseURI(bytes)],
      [ownedTokens(address,uint16,uint32)], [togglePublicMint(bool)], [setMintFee(address,uint256)]. *)
  Definition I_trn721 : list N := [0x18160ddd; 0xd35e29d7; 0xf9da3224; 0x55e42958; 0x048ed3f9; 0x9b7c1c83; 0xd2c678e0].
  Definition interfaces : list (list N) := [I_erc165; I_erc721; I_metadata; I_burnable; I_ownable; I_trn721].
  Lemma supports_call s r caller c st ext x call i : colls (e_nft s) !! c = Some i ->
    read_selector call = Ok Q_supportsInterface -> read_args [tU] call = Ok [VN x] ->
    execute s r caller c st 0 call ext = Ok (s, word (b2n (negb (x / 2 ^ 224 =? 0xffffffff) && existsb (N.eqb (x / 2 ^ 224)) interface_ids))).
  Proof.
    intros Ec R1 R2. rewrite (enter s r caller c st _ ext i _ Ec R1 eq_refl), q_supportsInterface.
    unfold g_supports. rewrite R2. cbn [rbind]. cbv zeta. set (id := x / 2 ^ 224). clearbody id.
    destruct (id =? 0xffffffff); [reflexivity|]. destruct (existsb (N.eqb id) interface_ids); reflexivity.
  Qed.
  Lemma ids_of id : existsb (N.eqb id) interface_ids = true <-> exists l, In l interfaces /\ id = interface_id l.
  Proof.
    split.
    - intros E. apply existsb_exists in E as (y & Hy & E). apply N.eqb_eq in E. subst y.
      destruct Hy as [<-|[<-|[<-|[<-|[<-|[<-|[]]]]]]]; [exists I_erc165|exists I_erc721|exists I_metadata|exists I_burnable|exists I_ownable|exists I_trn721];
        (split; [cbn [interfaces In]; tauto|vm_compute; reflexivity]).
    - intros (l & Hl & ->). destruct Hl as [<-|[<-|[<-|[<-|[<-|[<-|[]]]]]]]; vm_compute; reflexivity.
  Qed.
  (** Whatever follows the four bytes, the answer is whether they are the id of one of the interfaces. *)
  Theorem C131_supports s r caller c st ext x : colls (e_nft s) !! c <> None -> x < 2 ^ 256 ->
    exists a, execute s r caller c st 0 (build_call Q_supportsInterface [tU] [VN x]) ext = Ok (s, word a) /\
      (a = 1 /\ (exists l, In l interfaces /\ x / 2 ^ 224 = interface_id l) \/
       a = 0 /\ forall l, In l interfaces -> x / 2 ^ 224 <> interface_id l).
  Proof.
    intros Hc Hx. destruct (colls (e_nft s) !! c) as [i|] eqn:Ec; [|congruence].
    destruct (Erc1155Props.len_small [tU] [VN x] Q_supportsInterface) as [R1 R2]; [vm_compute; discriminate|split; [apply wt_tU, Hx|exact I]|reflexivity|].
    eexists. split; [exact (supports_call s r caller c st ext x _ i Ec R1 R2)|].
    set (id := x / 2 ^ 224). clearbody id. destruct (existsb (N.eqb id) interface_ids) eqn:E.
    - left. apply ids_of in E as (l & Hl & ->). split; [|eauto]. destruct Hl as [<-|[<-|[<-|[<-|[<-|[<-|[]]]]]]]; reflexivity.
    - right. rewrite andb_false_r. split; [reflexivity|]. intros l Hl El. enough (existsb (N.eqb id) interface_ids = true) by congruence.
      apply ids_of. eauto.
  Qed.

  (** ** C132: receivers of safe transfers *)
  Definition safe_sel (sel : N) (ts : list ty) (vs : list val) (from to id : N) (data : list N) : Prop :=
    (sel = Q_safeTransferFrom /\ ts = [tA; tA; tU] /\ vs = [VN from; VN to; VN id] /\ data = []) \/
    (sel = Q_safeTransferFromData /\ ts = [tA; tA; tU; tBytes] /\ vs = [VN from; VN to; VN id; VB data]).
  Lemma safe_call s r caller c st v ext from to id data call s' o : safe_args call from to id data ->
    execute s r caller c st v call ext = Ok (s', o) ->
    is_approved_or_owner (e_nft s) c id caller = true /\
    exists s1 x, accept721 s r caller (ask from to id data) = Ok s1 /\ do_transfer cap (e_nft s1) c [id] from to = Ok x /\
      s' = elogs (with_nft s1 x) [tlog c from to id].
  Proof.
    intros Ha E.
    assert (G : g_do_safe cap s r caller c from to id data = Ok (s', o) -> is_approved_or_owner (e_nft s) c id caller = true /\
      exists s1 x, accept721 s r caller (ask from to id data) = Ok s1 /\ do_transfer cap (e_nft s1) c [id] from to = Ok x /\
      s' = elogs (with_nft s1 x) [tlog c from to id]).
    { unfold g_do_safe. intros H. inv_ok. injection H as <- <-. split; [assumption|]. eauto. }
    destruct Ha as [(R1 & R2 & ->)|(R1 & R2)]; enterE E R1.
    - rewrite q_safeTransferFrom in E. unfold g_safe in E. rewrite R2 in E. apply G, E.
    - rewrite q_safeTransferFromData in E. unfold g_safe_data in E. rewrite R2 in E. apply G, E.
  Qed.
  Lemma safe_is sel ts vs from to id data : safe_sel sel ts vs from to id data -> wt_all ts vs -> nlen (enc_all ts vs) <= USIZE ->
    safe_args (build_call sel ts vs) from to id data.
  Proof.
    intros H Hw Hn. destruct (Erc1155Props.len_small ts vs sel Hn Hw) as [R1 R2].
    { destruct H as [(-> & _)|(-> & _)]; reflexivity. }
    destruct H as [(-> & -> & -> & ->)|(-> & -> & ->)]; [left|right]; auto.
  Qed.
  (** To an account without code the token just moves. *)
  Theorem C132_no_code b ops caller c st v ext sel ts vs from to id data s' o : Forall (every (fair b)) ops ->
    let s := run estep ops einit in
    safe_sel sel ts vs from to id data -> wt_all ts vs -> nlen (enc_all ts vs) <= USIZE ->
    execute s None caller c st v (build_call sel ts vs) ext = Ok (s', o) ->
    may_move (e_nft s) c id caller /\ moved s s' c id from to.
  Proof.
    intros Hops s Hsel Hw Hn E. destruct (fair_run b ops Hops) as [Hwf _]. fold s in Hwf.
    pose proof (safe_is _ _ _ _ _ _ _ Hsel Hw Hn) as Ha. revert E Ha. generalize (build_call sel ts vs). intros call E Ha.
    destruct (safe_call _ _ _ _ _ _ _ _ _ _ _ _ _ _ Ha E) as (Hau & s1 & x & Hacc & Hx & ->). injection Hacc as <-.
    split; [apply auth_may, Hau|]. apply moved_by; assumption.
  Qed.
  (** A contract gets the token only if, called by the sender with the four arguments, it answers the
      selector of [onERC721Received]; the token then moves from the state it left. *)
  Theorem C132_accepted s s1 ans caller c st v ext sel ts vs from to id data s' o :
    safe_sel sel ts vs from to id data -> wt_all ts vs -> nlen (enc_all ts vs) <= USIZE ->
    execute s (Some (s1, ans)) caller c st v (build_call sel ts vs) ext = Ok (s', o) ->
    may_move (e_nft s) c id caller /\
    (exists a rest, ans caller (build_call 0x150b7a02 [tA; tA; tU; tBytes] [VN from; VN to; VN id; VB data]) = Some (a ++ rest) /\
      length a = 4%nat /\ of_be a = 0x150b7a02) /\
    (WF (e_nft s1) -> moved s1 s' c id from to).
  Proof.
    intros Hsel Hw Hn E.
    pose proof (safe_is _ _ _ _ _ _ _ Hsel Hw Hn) as Ha. revert E Ha. generalize (build_call sel ts vs). intros call E Ha.
    destruct (safe_call _ _ _ _ _ _ _ _ _ _ _ _ _ _ Ha E) as (Hau & s2 & x & Hacc & Hx & ->).
    apply accept721_ok in Hacc as [[[=] _]|(ans' & a & [= -> ->] & Hans & Hl & Hm)].
    split; [apply auth_may, Hau|]. split; [|intros Hwf; apply moved_by; assumption].
    exists (firstn 4 a), (skipn 4 a). rewrite firstn_skipn. split; [exact Hans|]. split; [rewrite firstn_length; lia|exact Hm].
  Qed.
End props.

(** ** Examples and counterexamples *)
(** Collection 1 of account 10; account 20 is minted tokens 0, 1 and 2, approves 30 for token 0, and makes
    40 an operator. *)
Definition wstep := estep 1000000 1000 77 1000 (fun _ => true).
Definition wexec := execute721 1000000 1000 1000 (fun _ => true).
Definition k_mint to q := build_call Q_mint [tA; tU] [VN to; VN q].
Definition k_approve to id := build_call Q_approve [tA; tU] [VN to; VN id].
Definition k_all op on := build_call Q_setApprovalForAll [tA; tB] [VN op; VN on].
Definition k_move from to id := build_call Q_transferFrom [tA; tA; tU] [VN from; VN to; VN id].
Definition k_safe from to id := build_call Q_safeTransferFrom [tA; tA; tU] [VN from; VN to; VN id].
Definition k_burn id := build_call Q_burn [tU] [VN id].
Definition k_ask sel id := build_call sel [tU] [VN id].
Definition k_owned who limit cursor := build_call Q_ownedTokens [tA; tU; tU] [VN who; VN limit; VN cursor].
Definition says caller data := ECall caller 1 false 0 data true None.
Definition w_ops : list eop := [ENft (NCreate 1 10 0 None 10 true); says 10 (k_mint 20 3); says 20 (k_approve 30 0); says 20 (k_all 40 1)].
Definition w_s := run wstep w_ops einit.
Definition nobridge : N -> Prop := fun _ => False.
Ltac histories := repeat (apply Forall_nil || (apply Forall_cons; split)); cbn [every]; repeat split; try exact I;
  repeat (apply Forall_nil || (apply Forall_cons; split)); try solve [vm_compute; tauto | vm_compute; discriminate].
Example w_fair : Forall (every (fun o => ufair nobridge o /\ tidy_op o)) w_ops.
Proof. unfold w_ops, says. histories. Qed.
Example w_126 : wexec w_s None 77 1 true 0 (k_ask Q_ownerOf 2) true = Ok (w_s, word 20) /\
  is_ok (wexec w_s None 77 1 true 0 (k_ask Q_ownerOf 3) true) = false /\
  is_ok (wexec w_s None 77 1 true 0 (k_ask Q_ownerOf (2 ^ 32 + 2)) true) = false /\
  wexec w_s None 77 1 true 0 (build_call Q_balanceOf [tA] [VN 20]) true = Ok (w_s, word 3) /\
  wexec w_s None 77 1 true 0 (build_call Q_totalSupply [] []) true = Ok (w_s, word 3) /\
  wexec w_s None 77 1 true 0 (k_ask Q_getApproved 0) true = Ok (w_s, word 30) /\
  wexec w_s None 77 1 true 0 (build_call Q_isApprovedForAll [tA; tA] [VN 20; VN 40]) true = Ok (w_s, word 1) /\
  wexec w_s None 77 1 true 0 (k_ask Q_tokenURI 12) true = Ok (w_s, word 32 ++ word 2 ++ [49; 50] ++ repeat 0 30).
Proof. vm_compute. repeat split. Qed.
(** "A query about a token that does not exist fails" (EIP-721: [getApproved] "throws if the NFT is not a
    valid NFT", [tokenURI] likewise): both answer. *)
Theorem C126_missing_refuted : exists ops id, Forall (every (fair nobridge)) ops /\
  let s := run wstep ops einit in colls (e_nft s) !! 1 <> None /\ owner_of (e_nft s) 1 id = None /\
  is_ok (wexec s None 77 1 true 0 (k_ask Q_ownerOf id) true) = false /\
  wexec s None 77 1 true 0 (k_ask Q_getApproved id) true = Ok (s, word 0) /\
  is_ok (wexec s None 77 1 true 0 (k_ask Q_tokenURI id) true) = true.
Proof.
  exists w_ops, 9. split; [unfold w_ops, says; histories|]. vm_compute. repeat split; discriminate.
Qed.
(** The tokens of 20, two at a time. *)
Example w_127 : wexec w_s None 77 1 true 0 (k_owned 20 2 0) true = Ok (w_s, word 2 ++ word 3 ++ word 96 ++ word 2 ++ word 0 ++ word 1) /\
  wexec w_s None 77 1 true 0 (k_owned 20 2 2) true = Ok (w_s, word 0 ++ word 3 ++ word 96 ++ word 1 ++ word 2).
Proof. vm_compute. auto. Qed.
(** Asked for pages of no tokens, the answer is that there are no more. *)
Example w_127_zero : exists s who,
  wexec s None 77 1 true 0 (k_owned who 0 0) true = Ok (s, word 0 ++ word 3 ++ word 96 ++ word 0) /\
  owner_of (e_nft s) 1 0 = Some who.
Proof. exists w_s, 20. vm_compute. auto. Qed.
(** The approved account moves token 0, the operator token 1; a stranger moves nothing. *)
Definition w_later : list eop := [says 30 (k_move 20 50 0); says 40 (k_move 20 60 1); says 50 (k_move 20 50 2)].
Example w_128 : let s := run wstep w_later w_s in
  owner_of (e_nft s) 1 0 = Some 50 /\ owner_of (e_nft s) 1 1 = Some 60 /\ owner_of (e_nft s) 1 2 = Some 20 /\ appr (e_nft s) !! (1, 0) = None.
Proof. vm_compute. auto. Qed.
(** Others mint, send and approve what is theirs, and a receiving contract tries to take token 2 when it is
    called. *)
Definition accepts : N -> list N -> option (list N) := fun _ _ => Some (word (Q_onReceived * 2 ^ 224)).
Definition w_idle : list eop :=
  [says 50 (k_move 20 50 2); says 10 (k_mint 60 2); says 60 (k_approve 61 3);
   ECall 60 1 false 0 (k_safe 60 70 3) true (Some ([says 70 (k_move 20 70 2); says 70 (k_approve 70 2)], accepts))].
Example w_128_idle : Forall (every (fun o => fair nobridge o /\ idle 20 (fun x => x = 30 \/ x = 40) o)) w_idle /\
  let s := run wstep w_idle w_s in owner_of (e_nft s) 1 2 = Some 20 /\ owner_of (e_nft s) 1 3 = Some 70.
Proof.
  split; [|vm_compute; auto]. unfold w_idle, says.
  repeat (apply Forall_nil || (apply Forall_cons; split)); cbn [every]; repeat split; try exact I;
    match goal with H : actor _ = Some _ |- _ => injection H as <- end; lia.
Qed.
(** "The Approval log names the owner" (EIP-721: "the NFT's owner, the approved address"): when an operator
    approves, it names the operator. *)
Theorem C128_approval_log_refuted : exists s', 
  wexec w_s None 40 1 false 0 (k_approve 50 1) true = Ok (s', []) /\ owner_of (e_nft w_s) 1 1 = Some 20 /\
  e_logs s' = e_logs w_s ++ [Elog 1 [L_approve; 40; 50; 1] []].
Proof. eexists. split; [vm_compute; reflexivity|]. vm_compute. auto. Qed.

(** The logs of token 0: minted to 20, moved to 50. *)
Example w_129 : Forall (every (fun o => fair nobridge o /\ elsewhere 1 o)) w_later /\
  let s := run wstep w_later w_s in
  List.filter (fun g => match log_move g with Some (_, _, n) => n =? 0 | None => false end) (e_logs s) =
    [Elog 1 [L_transfer; 0; 20; 0] []; Elog 1 [L_transfer; 20; 50; 0] []].
Proof. split; [unfold w_later, says; histories|vm_compute; reflexivity]. Qed.
(** "The last Transfer log of a token tells its owner, and a token without one does not exist": tokens that
    the collection was created with, and tokens that the pallet's extrinsics or the bridge move, have no log,
    and a transfer to the zero address is logged like a burn. *)
Definition last_move (c n : N) (l : list elog) : option N :=
  fold_left (fun a g => match log_move g with
                        | Some (_, to, m) => if (lg_coll g =? c) && (m =? n) then Some to else a
                        | None => a end) l None.
Theorem C129_logs_refuted : exists ops, Forall (every (fair (fun c => c = 2))) ops /\
  let s := run wstep ops einit in
  (owner_of (e_nft s) 1 0 = Some 20 /\ last_move 1 0 (e_logs s) = None) /\
  (owner_of (e_nft s) 1 1 = Some 30 /\ last_move 1 1 (e_logs s) = Some 20) /\
  (owner_of (e_nft s) 2 5 = Some 20 /\ last_move 2 5 (e_logs s) = None) /\
  (owner_of (e_nft s) 1 2 = Some 0 /\ last_move 1 2 (e_logs s) = Some 0) /\
  (owner_of (e_nft s) 1 3 = None /\ last_move 1 3 (e_logs s) = Some 0).
Proof.
  exists [ENft (NCreate 1 10 1 None 20 true); says 10 (k_mint 20 3); ENft (NTransfer 20 1 [1] 30);
          ENft (NCreate 2 10 0 None 10 false); ENft (NBridge 20 2 [5]); says 20 (k_move 20 0 2); says 20 (k_burn 3)].
  split; [unfold says; histories|vm_compute; auto 10].
Qed.

(** "A static call changes nothing": [burn] does. *)
Theorem C130_static_refuted : exists s',
  wexec w_s None 20 1 true 0 (k_burn 2) true = Ok (s', []) /\ owner_of (e_nft w_s) 1 2 = Some 20 /\ owner_of (e_nft s') 1 2 = None /\
  is_ok (wexec w_s None 20 1 true 0 (k_move 20 50 2) true) = false.
Proof. eexists. split; [vm_compute; reflexivity|]. vm_compute. auto. Qed.
(** "A call that cannot be served fails": these two panic. *)
Theorem C130_panic_refuted :
  wexec w_s (Some (w_s, fun _ _ => Some [])) 20 1 false 0 (k_safe 20 60 0) true = Err panic /\
  execute721 1000000 1000 2 (fun _ => true) w_s None 99 1 false 0 (build_call Q_reRequestXls20 [tUs] [VL (map VN [0; 1; 2])]) true = Err panic.
Proof. vm_compute. auto. Qed.
Example w_130 : is_ok (wexec w_s None 20 1 false 1 (k_move 20 50 2) true) = false /\
  is_ok (wexec w_s None 20 1 false 0 (k_move 20 50 2) true) = true /\
  is_ok (wexec w_s None 20 1 false 0 [1; 2; 3] true) = false /\ is_ok (wexec w_s None 20 2 false 0 (k_move 20 50 2) true) = false.
Proof. vm_compute. auto. Qed.

(** A function is served if some call of it succeeds. *)
Definition served (sel : N) : Prop := exists ops r caller call, Forall (every (fair nobridge)) ops /\ read_selector call = Ok sel /\
  is_ok (wexec (run wstep ops einit) r caller 1 false 0 call true) = true.
Theorem C131_standard_served l sel : In l [I_erc165; I_erc721; I_metadata; I_burnable; I_ownable] -> In sel l -> served sel.
Proof.
  assert (G : forall caller ts vs, is_ok (wexec w_s None caller 1 false 0 (build_call sel ts vs) true) = true ->
    read_selector (build_call sel ts vs) = Ok sel -> served sel).
  { intros caller ts vs H1 H2. exists w_ops, None, caller, (build_call sel ts vs). split; [unfold w_ops, says; histories|]. split; assumption. }
  intros Hl Hs. destruct Hl as [<-|[<-|[<-|[<-|[<-|[]]]]]]; cbn [I_erc165 I_erc721 I_metadata I_burnable I_ownable In] in Hs.
  - destruct Hs as [<-|[]]. apply (G 20 [tU] [VN 0]); vm_compute; reflexivity.
  - destruct Hs as [<-|[<-|[<-|[<-|[<-|[<-|[<-|[<-|[<-|[]]]]]]]]]].
    + apply (G 20 [tA] [VN 20]); vm_compute; reflexivity.
    + apply (G 20 [tU] [VN 0]); vm_compute; reflexivity.
    + apply (G 20 [tA; tU] [VN 30; VN 1]); vm_compute; reflexivity.
    + apply (G 20 [tU] [VN 0]); vm_compute; reflexivity.
    + apply (G 20 [tA; tB] [VN 30; VN 1]); vm_compute; reflexivity.
    + apply (G 20 [tA; tA] [VN 20; VN 40]); vm_compute; reflexivity.
    + apply (G 20 [tA; tA; tU] [VN 20; VN 50; VN 0]); vm_compute; reflexivity.
    + apply (G 20 [tA; tA; tU] [VN 20; VN 50; VN 0]); vm_compute; reflexivity.
    + apply (G 20 [tA; tA; tU; tBytes] [VN 20; VN 50; VN 0; VB [1; 2; 3]]); vm_compute; reflexivity.
  - destruct Hs as [<-|[<-|[<-|[]]]]; [apply (G 20 [] [])|apply (G 20 [] [])|apply (G 20 [tU] [VN 0])]; vm_compute; reflexivity.
  - destruct Hs as [<-|[]]. apply (G 20 [tU] [VN 0]); vm_compute; reflexivity.
  - destruct Hs as [<-|[<-|[<-|[]]]]; [apply (G 10 [] [])|apply (G 10 [] [])|apply (G 10 [tA] [VN 20])]; vm_compute; reflexivity.
Qed.
(** "A collection that says it supports an interface serves its functions": it says so of TRN721, but no
    call of [setMintFee(address,uint256)] succeeds, whatever the state. *)
Theorem C131_trn721_refuted :
  (exists s, wexec s None 20 1 true 0 (build_call Q_supportsInterface [tU] [VN (interface_id I_trn721 * 2 ^ 224)]) true = Ok (s, word 1)) /\
  exists sel, In sel I_trn721 /\ forall cap limit xls utf8 s r caller c st v call ext, read_selector call = Ok sel ->
    is_ok (execute721 cap limit xls utf8 s r caller c st v call ext) = false.
Proof.
  split; [exists w_s; vm_compute; reflexivity|]. exists 0xd2c678e0. split; [cbn; tauto|].
  intros cap limit xls utf8 s r caller c st v call ext Hs. apply C130_unknown. left. intros sel Hsel. rewrite Hs in Hsel. injection Hsel as <-.
  split; reflexivity.
Qed.
Example w_131 : interface_id I_erc721 = 0x80ac58cd /\ interface_id I_metadata = 0x5b5e139f /\
  wexec w_s None 20 1 true 0 (build_call Q_supportsInterface [tU] [VN (0x80ac58cd * 2 ^ 224)]) true = Ok (w_s, word 1) /\
  wexec w_s None 20 1 true 0 (build_call Q_supportsInterface [tU] [VN (0xffffffff * 2 ^ 224)]) true = Ok (w_s, word 0).
Proof. vm_compute. auto. Qed.

(** A contract that refuses does not get the token; one that answers with the selector does. *)
Example w_132 : is_ok (wexec w_s (Some (w_s, fun _ _ => None)) 20 1 false 0 (k_safe 20 60 0) true) = false /\
  is_ok (wexec w_s (Some (w_s, fun _ _ => Some (word 1))) 20 1 false 0 (k_safe 20 60 0) true) = false /\
  (exists s', wexec w_s (Some (w_s, accepts)) 20 1 false 0 (k_safe 20 60 0) true = Ok (s', []) /\ owner_of (e_nft s') 1 0 = Some 60) /\
  (exists s', wexec w_s None 20 1 false 0 (k_safe 20 60 0) true = Ok (s', []) /\ owner_of (e_nft s') 1 0 = Some 60).
Proof. split; [vm_compute; reflexivity|]. split; [vm_compute; reflexivity|]. split; eexists; (split; [vm_compute; reflexivity|vm_compute; reflexivity]). Qed.
(** "The receiver is told who sends the token and whose it was" (EIP-721:
    [onERC721Received(operator, from, id, data)]): it is told [from] and itself, so a contract that takes
    tokens of account 20 from anyone refuses them. *)
Definition from_20 : N -> list N -> option (list N) := fun _ input =>
  match read_args [tA; tA; tU; tBytes] input with
  | Ok [VN operator; VN from; VN id; VB data] => if from =? 20 then Some (word (Q_onReceived * 2 ^ 224)) else None
  | _ => None
  end.
Theorem C132_arguments_refuted :
  from_20 20 (build_call Q_onReceived [tA; tA; tU; tBytes] [VN 20; VN 20; VN 0; VB []]) = Some (word (Q_onReceived * 2 ^ 224)) /\
  is_ok (wexec w_s (Some (w_s, from_20)) 20 1 false 0 (k_safe 20 60 0) true) = false /\
  is_ok (wexec w_s None 20 1 false 0 (k_safe 20 60 0) true) = true.
Proof. vm_compute. auto. Qed.
(** "When it is asked, the receiver already has the token": what it tries to forward is not its. *)
Theorem C132_before_refuted :
  let s := wstep w_s (ECall 20 1 false 0 (k_safe 20 60 0) true (Some ([says 60 (k_move 60 70 0)], accepts))) in
  owner_of (e_nft s) 1 0 = Some 60 /\ owner_of (e_nft (wstep s (says 60 (k_move 60 70 0)))) 1 0 = Some 70.
Proof. vm_compute. auto. Qed.
(** "A token only leaves its owner with their consent", within one transaction: 20 asks to move token 0 from
    account 50 to its own contract 60.  It owns the token when it is checked; the contract then sells the
    token to 50, and after that it is moved to the contract.  Account 50 did nothing. *)
Theorem C132_reentrant_refuted : exists inner,
  let s := wstep w_s (says 20 (k_all 60 1)) in
  let bought := run wstep inner s in
  let s' := wstep s (ECall 20 1 false 0 (k_safe 50 60 0) true (Some (inner, accepts))) in
  owner_of (e_nft bought) 1 0 = Some 50 /\ (forall x, appr (e_nft bought) !! (1, 0) <> Some x) /\
  is_approved_or_owner (e_nft bought) 1 0 20 = false /\ is_approved_or_owner (e_nft bought) 1 0 60 = false /\
  owner_of (e_nft s') 1 0 = Some 60.
Proof. exists [says 60 (k_move 20 50 0)]. vm_compute. repeat split. intros x. discriminate. Qed.

(** The axioms of all of them. *)
Definition all_C126_to_C132 :=
  (@C126_owner_of,
   @C126_balance_of,
   @C126_total_supply,
   @C126_approvals_and_owner,
   @C126_wide_id,
   @C126_uri_distinct,
   @C126_missing_refuted,
   @C127_lists_all,
   @C127_lists_once,
   @C127_terminates,
   @C128_only_with_consent,
   @C128_transfer,
   @C128_authorised_can,
   @C128_approve,
   @C128_approve_all,
   @C128_approval_log_refuted,
   @C129_logs_partial,
   @C129_last_log_partial,
   @C129_logs_refuted,
   @C130_value,
   @C130_static_partial,
   @C130_unknown,
   @C130_panics,
   @C130_static_refuted,
   @C130_panic_refuted,
   @C131_supports,
   @C131_standard_served,
   @C131_trn721_refuted,
   @C132_no_code,
   @C132_accepted,
   @C132_arguments_refuted,
   @C132_before_refuted,
   @C132_reentrant_refuted).
Print Assumptions all_C126_to_C132.
