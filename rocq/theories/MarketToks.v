(** Lemmas about the marketplace's use of tokens: locks and reserves of open listings. *)
From Verif Require Export MarketModel.
From Verif Require Import NftProofs NftProps SftProofs SftProps.

Definition sft_part (c n y : N) (l : listing) : N :=
  if l_seller l =? y then match l_toks l with LSft d k => if d =? c then qty n k else 0 | LNft _ _ => 0 end else 0.
(** Amount of (c, n) that [y] has put into open listings. *)
Definition listed (L : gmap N listing) (c n y : N) : N := sumf (fun _ l => sft_part c n y l) L.
(** The tokens of an open listing are locked under its id and belong to the seller. *)
Definition lid_locked (t : nft) (lid : N) (l : listing) : Prop :=
  match l_toks l with
  | LNft c ns => ns <> [] /\ NoDup ns /\ forall n, n ∈ ns -> locks t !! (c, n) = Some lid /\ owner_of t c n = Some (l_seller l)
  | LSft _ k => Forall (fun e => 0 < snd e) k
  end.
Definition Tok (t : nft) (f : sstate) (L : gmap N listing) : Prop :=
  WF t /\ SInv f /\ (forall lid l, L !! lid = Some l -> lid_locked t lid l) /\
  (forall c n y, listed L c n y <= snd (sbal f c n y)).

Lemma listed_insert L lid l c n y : L !! lid = None -> listed (<[lid := l]> L) c n y = sft_part c n y l + listed L c n y.
Proof. intros E. unfold listed. rewrite sumf_insert_new by exact E. reflexivity. Qed.
Lemma listed_delete L lid l c n y : L !! lid = Some l -> sft_part c n y l + listed (delete lid L) c n y = listed L c n y.
Proof.
  intros E. unfold listed. pose proof (sumf_delete (fun _ l => sft_part c n y l) L lid) as Hd.
  unfold contrib in Hd. rewrite E in Hd. exact Hd.
Qed.
Lemma listed_update L lid l l' c n y : L !! lid = Some l -> l_seller l' = l_seller l -> l_toks l' = l_toks l ->
  listed (<[lid := l']> L) c n y = listed L c n y.
Proof.
  intros E E1 E2. unfold listed. pose proof (sumf_insert (fun _ l => sft_part c n y l) L lid l') as Hd.
  unfold contrib in Hd. rewrite E in Hd. unfold sft_part at 2 4 in Hd. rewrite E1, E2 in Hd. lia.
Qed.

Lemma Tok_drop t f L lid : Tok t f L -> Tok t f (delete lid L).
Proof.
  intros (H1 & H2 & H3 & H4). split; [exact H1|]. split; [exact H2|]. split.
  - intros i l Hi. apply lookup_delete_Some in Hi. apply H3, Hi.
  - intros c n y. destruct (L !! lid) as [l|] eqn:E; [|rewrite delete_notin by exact E; apply H4].
    pose proof (listed_delete L lid l c n y E). specialize (H4 c n y). lia.
Qed.
Lemma Tok_update t f L lid l l' : Tok t f L -> L !! lid = Some l -> l_seller l' = l_seller l -> l_toks l' = l_toks l ->
  Tok t f (<[lid := l']> L).
Proof.
  intros (H1 & H2 & H3 & H4) E E1 E2. split; [exact H1|]. split; [exact H2|]. split.
  - intros i k Hi. destruct (decide (lid = i)) as [<-|Hne].
    + rewrite lookup_insert in Hi. injection Hi as <-. unfold lid_locked. rewrite E1, E2. apply H3. exact E.
    + rewrite lookup_insert_ne in Hi by exact Hne. apply H3. exact Hi.
  - intros c n y. rewrite (listed_update L lid l l' c n y E E1 E2). apply H4.
Qed.

(** ** Locking *)
Lemma lock_all_spec ns : forall t who c lid t', lock_all t who c lid ns = Ok t' ->
  colls t' = colls t /\ NoDup ns /\
  (forall n, n ∈ ns -> locks t !! (c, n) = None /\ owner_of t c n = Some who) /\
  (forall d n, locks t' !! (d, n) = if decide (d = c /\ n ∈ ns) then Some lid else locks t !! (d, n)).
Proof.
  induction ns as [|m ns IH]; intros t who c lid t' E; cbn [lock_all] in E.
  - injection E as <-. split; [reflexivity|]. split; [constructor|]. split; [intros n Hn; inversion Hn|].
    intros d n. rewrite decide_False; [reflexivity|]. intros [_ Hn]. inversion Hn.
  - inv_ok. rename v into t1. match goal with H : lock _ _ _ _ _ = _ |- _ => unfold lock in H; rename H into Hl end.
    inv_ok. subst t1. match goal with H : negb (locked _ _ _) = true |- _ => apply negb_true_iff in H; rename H into Hk end.
    match goal with H : bool_decide _ = true |- _ => apply bool_decide_eq_true in H; rename H into Ho end.
    destruct (IH _ _ _ _ _ E) as (E1 & Hnd & Hpre & Hpost). cbn [colls locks] in *.
    assert (Hm : locks t !! (c, m) = None).
    { destruct (locks t !! (c, m)) eqn:Em; [|reflexivity]. exfalso.
      assert (Ht : locked t c m = true) by (apply locked_spec; eauto). congruence. }
    assert (Hmi : m ∉ ns). { intros Hin. apply Hpre in Hin. rewrite lookup_insert in Hin. destruct Hin. discriminate. }
    split; [exact E1|]. split; [constructor; assumption|]. split.
    + intros n Hn. apply elem_of_cons in Hn. destruct Hn as [->|Hn]; [auto|]. destruct (Hpre n Hn) as [H1 H2].
      rewrite lookup_insert_ne in H1 by (intros [= ->]; contradiction). split; [exact H1|exact H2].
    + intros d n. rewrite Hpost. destruct (decide (d = c /\ n ∈ ns)) as [[-> Hn]|Hno].
      * rewrite decide_True by (split; [reflexivity|right; exact Hn]). reflexivity.
      * destruct (decide ((c, m) = (d, n))) as [[= <- <-]|Hne].
        -- rewrite lookup_insert, decide_True by (split; [reflexivity|left]). reflexivity.
        -- rewrite lookup_insert_ne by exact Hne. rewrite decide_False; [reflexivity|]. intros [-> Hn].
           apply elem_of_cons in Hn. destruct Hn as [->|Hn]; [congruence|]. apply Hno. auto.
Qed.
Lemma reserve_all_spec l : forall f who c f', SInv f -> reserve_all f who c l = Ok f' ->
  SInv f' /\ scolls f' = scolls f /\ forall d m y, snd (sbal f' d m y) = snd (sbal f d m y) + (if (d =? c) && (y =? who) then qty m l else 0).
Proof.
  induction l as [|[n x] l IH]; intros f who c f' Hf E; cbn [reserve_all] in E.
  - injection E as <-. split; [exact Hf|]. split; [reflexivity|]. intros. unfold qty. cbn. destruct (_ && _); lia.
  - inv_ok. rename v into f1. match goal with H : sreserve _ _ _ _ _ = _ |- _ => rename H into Hr end.
    destruct (exec_spec 0 0 f (SReserve who c n x) f1 Hf I Hr) as [Hf1 M1].
    destruct (IH _ _ _ _ Hf1 E) as (Hf' & Ec & M2). split; [exact Hf'|]. split.
    { rewrite Ec. unfold sreserve in Hr. inv_ok. subst f1. reflexivity. }
    intros d m y. rewrite M2, qty_cons. destruct (M1 d m y) as [_ M]. cbn [res_down res_up] in M.
    rewrite (N.eqb_sym n m). destruct (d =? c), (m =? n), (y =? who); cbn [andb] in *; lia.
Qed.
Lemma owner_colls t t' c n : colls t' = colls t -> owner_of t' c n = owner_of t c n.
Proof. intros E. unfold owner_of. rewrite E. reflexivity. Qed.
Lemma WF_colls t t' : colls t' = colls t -> WF t -> WF t'.
Proof. intros E Hw. unfold WF. rewrite E. exact Hw. Qed.

Lemma lock_Tok t f L tk who lid t' f' l : Tok t f L -> L !! lid = None -> toks_valid tk = true ->
  lock_tokens (t, f) tk who lid = Ok (t', f') -> l_toks l = tk -> l_seller l = who -> Tok t' f' (<[lid := l]> L).
Proof.
  intros (H1 & H2 & H3 & H4) Hn Hv E El Es. unfold lock_tokens in E. destruct tk as [c ns|c k]; cbn [fst snd] in E; inv_ok.
  - rename v into t1. injection E as <- <-. match goal with H : lock_all _ _ _ _ _ = _ |- _ => apply lock_all_spec in H; destruct H as (Ec & Hnd & Hpre & Hpost) end.
    split; [eapply WF_colls; eassumption|]. split; [exact H2|]. split.
    + intros i k Hi. destruct (decide (lid = i)) as [<-|Hne].
      * rewrite lookup_insert in Hi. injection Hi as <-. unfold lid_locked. rewrite El, Es. split; [|split; [exact Hnd|]].
        -- intros ->. discriminate.
        -- intros n Hin. rewrite Hpost, decide_True by auto. rewrite (owner_colls t t1) by exact Ec. split; [reflexivity|apply Hpre; exact Hin].
      * rewrite lookup_insert_ne in Hi by exact Hne. specialize (H3 i k Hi). unfold lid_locked in *.
        destruct (l_toks k) as [d ms|]; [|exact H3]. destruct H3 as (A & B & C). split; [exact A|]. split; [exact B|].
        intros n Hin. destruct (C n Hin) as [C1 C2]. rewrite (owner_colls t t1) by exact Ec. split; [|exact C2]. rewrite Hpost.
        rewrite decide_False; [exact C1|]. intros [-> Hin']. destruct (Hpre n Hin') as [C3 _]. congruence.
    + intros d n y. rewrite listed_insert by exact Hn. unfold sft_part. rewrite El. specialize (H4 d n y). destruct (_ =? y); lia.
  - rename v into f1. injection E as <- <-. match goal with H : reserve_all _ _ _ _ = _ |- _ => apply reserve_all_spec in H; [|exact H2]; destruct H as (Hf & _ & M) end.
    split; [exact H1|]. split; [exact Hf|]. split.
    + intros i j Hi. destruct (decide (lid = i)) as [<-|Hne].
      * rewrite lookup_insert in Hi. injection Hi as <-. unfold lid_locked. rewrite El. cbn [toks_valid] in Hv.
        apply andb_true_iff in Hv. destruct Hv as [_ Hv]. rewrite forallb_forall in Hv. apply Forall_forall. intros e He.
        apply elem_of_list_In, Hv in He. apply negb_true_iff, N.eqb_neq in He. lia.
      * rewrite lookup_insert_ne in Hi by exact Hne. apply H3. exact Hi.
    + intros d n y. rewrite listed_insert by exact Hn. unfold sft_part. rewrite El, Es, M. specialize (H4 d n y).
      rewrite (N.eqb_sym c d), (N.eqb_sym who y). destruct (y =? who), (d =? c); cbn [andb]; lia.
Qed.

(** ** Unlocking *)
Lemma unlock_all_spec c ns : forall t, colls (unlock_all t c ns) = colls t /\
  (forall d n, locks (unlock_all t c ns) !! (d, n) = if decide (d = c /\ n ∈ ns) then None else locks t !! (d, n)).
Proof.
  induction ns as [|m ns IH]; intros t; cbn [unlock_all fold_left].
  - split; [reflexivity|]. intros d n. rewrite decide_False; [reflexivity|]. intros [_ H]. inversion H.
  - fold (unlock_all (unlock t c m) c ns). destruct (IH (unlock t c m)) as [E H]. split; [rewrite E; reflexivity|].
    intros d n. rewrite H. destruct (decide (d = c /\ n ∈ ns)) as [[-> Hn]|Hno].
    + rewrite decide_True by (split; [reflexivity|right; exact Hn]). reflexivity.
    + unfold unlock. cbn [locks]. destruct (decide ((c, m) = (d, n))) as [[= <- <-]|Hne].
      * rewrite lookup_delete, decide_True by (split; [reflexivity|left]). reflexivity.
      * rewrite lookup_delete_ne by exact Hne. rewrite decide_False; [reflexivity|]. intros [-> Hn].
        apply elem_of_cons in Hn. destruct Hn as [->|Hn]; [congruence|auto].
Qed.
Lemma free_all_spec l : forall f who c, SInv f -> Forall (fun e => 0 < snd e) l ->
  (forall m, qty m l <= snd (sbal f c m who)) ->
  exists f', free_all f who c l = (f', true) /\ SInv f' /\ scolls f' = scolls f /\
    forall d m y, snd (sbal f' d m y) + (if (d =? c) && (y =? who) then qty m l else 0) = snd (sbal f d m y) /\
                  fst (sbal f' d m y) = fst (sbal f d m y) + (if (d =? c) && (y =? who) then qty m l else 0).
Proof.
  induction l as [|[n x] l IH]; intros f who c Hf Hp Hq; cbn [free_all].
  - exists f. split; [reflexivity|]. split; [exact Hf|]. split; [reflexivity|]. intros. unfold qty. cbn. destruct (_ && _); lia.
  - inversion Hp as [|? ? Hx Hp']; subst. cbn [snd] in Hx.
    assert (Hok : is_ok (sfree f who c n x) = true).
    { apply free_ok; [apply Hf|exact Hx|]. specialize (Hq n). rewrite qty_cons, N.eqb_refl in Hq. lia. }
    destruct (sfree f who c n x) as [f1|] eqn:Ef; [|discriminate].
    destruct (exec_spec 0 0 f (SFree who c n x) f1 Hf I Ef) as [Hf1 M1].
    assert (Hq1 : forall m, qty m l <= snd (sbal f1 c m who)).
    { intros m. destruct (M1 c m who) as [_ M]. cbn [res_down res_up] in M. specialize (Hq m). rewrite qty_cons in Hq.
      rewrite !N.eqb_refl in M. rewrite (N.eqb_sym n m) in Hq. destruct (m =? n); cbn [andb] in M; lia. }
    destruct (IH f1 who c Hf1 Hp' Hq1) as (f' & E & Hf' & Ec & M2). exists f'. split; [exact E|]. split; [exact Hf'|]. split.
    { rewrite Ec. unfold sfree in Ef. inv_ok. subst f1. reflexivity. }
    intros d m y. destruct (M2 d m y) as [A B]. destruct (M1 d m y) as [C D].
    cbn [transferred received res_down res_up] in C, D. rewrite qty_cons, (N.eqb_sym n m).
    destruct (d =? c), (m =? n), (y =? who); cbn [andb] in *; lia.
Qed.
Lemma listed_ge L lid l c n y : L !! lid = Some l -> sft_part c n y l <= listed L c n y.
Proof. intros E. pose proof (listed_delete L lid l c n y E). lia. Qed.

(** Closing a listing without a sale. *)
Lemma unlock_Tok t f L lid l : Tok t f L -> L !! lid = Some l ->
  exists t' f', unlock_tokens (t, f) (l_toks l) (l_seller l) = ((t', f'), true) /\ Tok t' f' (delete lid L) /\
    colls t' = colls t /\
    (forall d n, locks t' !! (d, n) = match l_toks l with LNft c ns => if decide (d = c /\ n ∈ ns) then None else locks t !! (d, n)
                                                  | LSft _ _ => locks t !! (d, n) end) /\
    (forall c n y, snd (sbal f' c n y) + sft_part c n y l = snd (sbal f c n y)).
Proof.
  intros (H1 & H2 & H3 & H4) El. pose proof (H3 lid l El) as Hl. unfold lid_locked in Hl. unfold unlock_tokens.
  destruct (l_toks l) as [c ns|c k] eqn:Et; cbn [fst snd].
  - destruct Hl as (Hne & Hnd & Hin). destruct (unlock_all_spec c ns t) as [Ec Ho].
    exists (unlock_all t c ns), f. split; [reflexivity|]. split; [|split; [exact Ec|split; [exact Ho|]]].
    2:{ intros d n y. unfold sft_part. rewrite Et. destruct (_ =? y); lia. }
    split; [eapply WF_colls; eassumption|]. split; [exact H2|]. split.
    + intros i j Hi. apply lookup_delete_Some in Hi. destruct Hi as [Hne' Hi]. specialize (H3 i j Hi). unfold lid_locked in *.
      destruct (l_toks j) as [d ms|]; [|exact H3]. destruct H3 as (A & B & C). split; [exact A|]. split; [exact B|].
      intros n Hn. destruct (C n Hn) as [C1 C2]. rewrite (owner_colls t) by exact Ec. split; [|exact C2]. rewrite Ho.
      rewrite decide_False; [exact C1|]. intros [-> Hn']. destruct (Hin n Hn') as [C3 _]. congruence.
    + intros d n y. pose proof (listed_delete L lid l d n y El). specialize (H4 d n y). lia.
  - destruct (free_all_spec k f (l_seller l) c H2 Hl) as (f' & Ef & Hf' & Ecf & M).
    { intros m. etransitivity; [|apply (H4 c m (l_seller l))]. etransitivity; [|apply (listed_ge L lid l c m _ El)].
      unfold sft_part. rewrite Et, !N.eqb_refl. lia. }
    rewrite Ef. exists t, f'. split; [reflexivity|].
    assert (Hr : forall d n y, snd (sbal f' d n y) + sft_part d n y l = snd (sbal f d n y)).
    { intros d n y. destruct (M d n y) as [M1 _]. unfold sft_part. rewrite Et, (N.eqb_sym c d), (N.eqb_sym (l_seller l) y).
      destruct (d =? c), (y =? l_seller l); cbn [andb] in *; lia. }
    split; [|split; [reflexivity|split; [reflexivity|exact Hr]]].
    split; [exact H1|]. split; [exact Hf'|]. split.
    + intros i j Hi. apply lookup_delete_Some in Hi. apply H3, Hi.
    + intros d n y. pose proof (listed_delete L lid l d n y El). specialize (H4 d n y). specialize (Hr d n y). lia.
Qed.

(** ** Delivery *)
Lemma deliver_nft cap t f L c ns from to t' : Tok t f L -> NoDup ns ->
  (forall lid l n, L !! lid = Some l -> n ∈ ns -> match l_toks l with LNft d ms => d = c -> n ∉ ms | LSft _ _ => True end) ->
  do_transfer cap (unlock_all t c ns) c ns from to = Ok t' ->
  Tok t' f L /\ (forall n, n ∈ ns -> owner_of t' c n = Some to) /\
  (forall d n, locks t' !! (d, n) = if decide (d = c /\ n ∈ ns) then None else locks t !! (d, n)).
Proof.
  intros (H1 & H2 & H3 & H4) Hnd Hdis E. destruct (unlock_all_spec c ns t) as [Ec Ho].
  assert (Hw : WF (unlock_all t c ns)) by (eapply WF_colls; eassumption).
  apply NftProofs.transfer_spec in E; [|exact Hw]. destruct E as (Hw' & Hft & Hpre & Hown & El & _).
  split; [|split].
  - split; [exact Hw'|]. split; [exact H2|]. split; [|exact H4].
    intros i j Hi. pose proof (H3 i j Hi) as Hj. unfold lid_locked in *. destruct (l_toks j) as [d ms|] eqn:Ej; [|exact Hj].
    destruct Hj as (A & B & C). split; [exact A|]. split; [exact B|]. intros n Hn. destruct (C n Hn) as [C1 C2].
    assert (Hout : ~ (d = c /\ n ∈ ns)).
    { intros [-> Hin]. specialize (Hdis i j n Hi Hin). rewrite Ej in Hdis. exact (Hdis eq_refl Hn). }
    split.
    + rewrite El, Ho, decide_False by exact Hout. exact C1.
    + rewrite <- C2, <- (owner_colls t (unlock_all t c ns) d n Ec). apply owner_ext; [exact Hw|exact Hw'|].
      intros y. rewrite Hown, decide_False by exact Hout. reflexivity.
  - intros n Hin. apply owner_owns; [exact Hw'|]. apply Hown. rewrite decide_True by auto. reflexivity.
  - intros d n. rewrite El. apply Ho.
Qed.
Lemma deliver_sft mo ms t f L c k from to f' : Tok t f L -> stransfer mo ms f from c k to = Ok f' -> Tok t f' L /\
  forall d m y, snd (sbal f' d m y) = snd (sbal f d m y).
Proof.
  intros (H1 & H2 & H3 & H4) E. destruct (exec_spec mo ms f (STransfer from c k to) f' H2 I E) as [Hf' M].
  assert (Hr : forall d m y, snd (sbal f' d m y) = snd (sbal f d m y)).
  { intros d m y. destruct (M d m y) as [_ Hm]. cbn [res_up res_down] in Hm. lia. }
  split; [|exact Hr]. split; [exact H1|]. split; [exact Hf'|]. split; [exact H3|]. intros d m y. rewrite Hr. apply H4.
Qed.
(** Two listings never share an NFT. *)
Lemma listings_disjoint t f L i j li lj c ns ms n : Tok t f L -> L !! i = Some li -> L !! j = Some lj -> i <> j ->
  l_toks li = LNft c ns -> l_toks lj = LNft c ms -> n ∈ ns -> n ∉ ms.
Proof.
  intros (_ & _ & H3 & _) Hi Hj Hne Ei Ej Hn Hm. pose proof (H3 i li Hi) as A. pose proof (H3 j lj Hj) as B.
  unfold lid_locked in *. rewrite Ei in A. rewrite Ej in B. destruct A as (_ & _ & A), B as (_ & _ & B).
  destruct (A n Hn) as [A1 _]. destruct (B n Hm) as [B1 _]. congruence.
Qed.
Lemma deliver_listing cap mo ms t f L lid l to t' f' : Tok t f L -> L !! lid = Some l ->
  unlock_and_transfer cap mo ms (t, f) (l_toks l) (l_seller l) to = Ok (t', f') ->
  Tok t' f' (delete lid L) /\
  (forall d n, locks t' !! (d, n) = match l_toks l with LNft c ns => if decide (d = c /\ n ∈ ns) then None else locks t !! (d, n)
                                                | LSft _ _ => locks t !! (d, n) end) /\
  (forall c n y, snd (sbal f' c n y) + sft_part c n y l = snd (sbal f c n y)) /\
  match l_toks l with LNft c ns => forall n, n ∈ ns -> owner_of t' c n = Some to | LSft _ _ => True end.
Proof.
  intros Ht El E. unfold unlock_and_transfer in E. destruct (l_toks l) as [c ns|c k] eqn:Et; cbn [fst snd] in E.
  - inv_ok. rename v into t1. injection E as <- <-. pose proof Ht as (H1 & H2 & H3 & H4).
    pose proof (H3 lid l El) as Hl. unfold lid_locked in Hl. rewrite Et in Hl. destruct Hl as (_ & Hnd & _).
    match goal with H : do_transfer _ _ _ _ _ _ = Ok _ |- _ =>
      apply (deliver_nft cap t f (delete lid L)) in H; [destruct H as (A & B & C)|apply Tok_drop; exact Ht|exact Hnd|] end.
    + split; [exact A|]. split; [exact C|]. split; [|exact B]. intros d n y. unfold sft_part. rewrite Et. destruct (_ =? y); lia.
    + intros i j n Hi Hn. apply lookup_delete_Some in Hi. destruct Hi as [Hne Hi]. destruct (l_toks j) as [d ms'|] eqn:Ej; [|exact I].
      intros ->. eapply (listings_disjoint t f L lid i); eassumption.
  - destruct (unlock_Tok t f L lid l Ht El) as (t2 & f2 & Eu & Ht2 & Ec & Hlk & Hr). unfold unlock_tokens in Eu. rewrite Et in Eu. cbn [fst snd] in Eu.
    destruct (free_all f (l_seller l) c k) as [f1 ok]. injection Eu as <- <- ->. cbn [ensure rbind] in E. inv_ok. rename v into f3. injection E as <- <-.
    match goal with H : stransfer _ _ _ _ _ _ _ = Ok _ |- _ => destruct (deliver_sft _ _ _ _ _ _ _ _ _ _ Ht2 H) as [Ht3 M] end.
    split; [exact Ht3|]. split; [reflexivity|]. split; [|exact I]. intros d n y. rewrite M. apply Hr.
Qed.

(** ** Everything else that happens to tokens *)
Definition foreign_nop (o : nop) : Prop := match o with NLock _ _ _ _ | NUnlock _ _ => False | _ => True end.
Definition foreign_sop (o : sop) : Prop := match o with SReserve _ _ _ _ | SFree _ _ _ _ => False | _ => True end.
Lemma nft_locks_same cap ml np t o t' : foreign_nop o -> nexec cap ml np t o = Ok t' -> locks t' = locks t.
Proof.
  intros Hf E. destruct o; cbn [nexec foreign_nop] in *; try contradiction.
  - unfold create in E. inv_ok. subst. reflexivity.
  - unfold NftModel.mint in E. inv_ok. subst t'. match goal with H : do_mint _ _ _ _ _ _ = Ok ?v |- _ => unfold do_mint in H; inv_ok; subst v end. reflexivity.
  - unfold mint_bridged in E. destruct ns; [injection E as <-; reflexivity|]. destruct (colls t !! c); [|injection E as <-; reflexivity].
    cbv zeta in E. destruct (_ <=? cap); [|injection E as <-; reflexivity]. unfold do_mint in E. inv_ok. subst. reflexivity.
  - unfold do_transfer in E. inv_ok. subst. reflexivity.
  - unfold do_burn in E. inv_ok. subst. reflexivity.
  - unfold transfer_from in E. inv_ok. unfold do_transfer in E. inv_ok. subst. reflexivity.
  - unfold burn_from in E. inv_ok. unfold do_burn in E. inv_ok. subst. reflexivity.
  - unfold set_max in E. inv_ok. subst. reflexivity.
  - unfold set_owner in E. inv_ok. subst. reflexivity.
  - unfold claim in E. inv_ok. subst. reflexivity.
  - unfold set_flags in E. inv_ok. subst. reflexivity.
  - unfold approve in E. inv_ok. subst. reflexivity.
  - unfold unapprove in E. inv_ok. subst. reflexivity.
  - unfold approve_all in E. inv_ok. subst. reflexivity.
Qed.
Lemma nft_op_Tok cap ml np t f L o t' : Tok t f L -> foreign_nop o -> good t o -> nexec cap ml np t o = Ok t' -> Tok t' f L.
Proof.
  intros (H1 & H2 & H3 & H4) Hf Hg E.
  assert (Es : nstep cap ml np t o = t') by (unfold nstep; rewrite E; reflexivity).
  pose proof (nft_locks_same _ _ _ _ _ _ Hf E) as El.
  assert (Hw : WF t') by (rewrite <- Es; apply step_WF; assumption).
  split; [exact Hw|]. split; [exact H2|]. split; [|exact H4]. intros i j Hi. specialize (H3 i j Hi). unfold lid_locked in *.
  destruct (l_toks j) as [c ns|]; [|exact H3]. destruct H3 as (A & B & C). split; [exact A|]. split; [exact B|].
  intros n Hn. destruct (C n Hn) as [C1 C2]. rewrite El. split; [exact C1|].
  destruct (step_locked cap ml np t o c n H1 Hg ltac:(congruence)) as [Ho|[Ho _]]; [|congruence|congruence].
  intros ->. exact Hf.
Qed.
Lemma sft_op_Tok mo ms t f L o f' : Tok t f L -> foreign_sop o -> sop_u128 o -> sexec mo ms f o = Ok f' ->
  Tok t f' L /\ forall c n y, snd (sbal f' c n y) = snd (sbal f c n y).
Proof.
  intros (H1 & H2 & H3 & H4) Hf Hu E. destruct (exec_spec mo ms f o f' H2 Hu E) as [Hf' M].
  assert (Hr : forall c n y, snd (sbal f' c n y) = snd (sbal f c n y)).
  { intros c n y. destruct (M c n y) as [_ Hm]. destruct o; cbn [res_up res_down foreign_sop] in *; try contradiction; lia. }
  split; [|exact Hr]. split; [exact H1|]. split; [exact Hf'|]. split; [exact H3|]. intros c n y. rewrite Hr. apply H4.
Qed.
