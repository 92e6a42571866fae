(** Arithmetic of the crowdsale, its specification vocabulary and the invariant of its money. *)
From Verif Require Export CrowdModel NftProofs LedgerProofs.

(** Specification: the vouchers (in millionths) a contribution of [c] is worth in a sale of [m]
    tokens at [price] that raised [funds]. *)
Definition due (price funds m c : N) : N :=
  if price * m <? funds then c * UNIT * m / funds else c * UNIT / price.

Lemma unit_val : UNIT = 1000000.
Proof. reflexivity. Qed.
Lemma u256_big : (U128MAX + 1) * (U128MAX + 1) = U256MAX + 1.
Proof. reflexivity. Qed.
Lemma mul_u256 a b : a <= U128MAX -> b <= U128MAX -> a * b <= U256MAX.
Proof. pose proof u256_big. intros. nia. Qed.
Lemma sat_id mx a : a <= mx -> sat mx a = a.
Proof. unfold sat. lia. Qed.

Lemma due_le price funds m c : price <> 0 -> c <= funds -> due price funds m c <= m * UNIT.
Proof.
  intros Hp Hc. unfold due. destruct (N.ltb_spec (price * m) funds) as [Hlt|Hge].
  - apply N.div_le_upper_bound; [lia|]. rewrite (N.mul_comm m UNIT), <- (N.mul_assoc c).
    apply N.mul_le_mono_r. exact Hc.
  - apply N.div_le_upper_bound; [exact Hp|]. rewrite N.mul_assoc. apply N.mul_le_mono_r. lia.
Qed.
Lemma rewards_due price funds c m : price <> 0 -> funds <= U128MAX -> c <= funds -> m * UNIT <= U128MAX ->
  rewards price funds c m = Ok (due price funds m c).
Proof.
  intros Hp Hf Hc Hm. pose proof (due_le price funds m c Hp Hc) as Hd. unfold rewards, due in *.
  assert (Hu : UNIT <= U128MAX) by (vm_compute; discriminate).
  assert (H1 : c * UNIT <= U256MAX) by (apply mul_u256; lia).
  assert (H2 : c * UNIT * m <= U256MAX).
  { rewrite <- N.mul_assoc. apply mul_u256; [lia|]. rewrite N.mul_comm. exact Hm. }
  rewrite (sat_id U256MAX (c * UNIT)) by exact H1. rewrite (sat_id U256MAX (c * UNIT * m)) by exact H2.
  cbv zeta. unfold sat at 1.
  destruct (N.ltb_spec (price * m) funds) as [Hlt|Hge].
  - destruct (N.ltb_spec (N.min (price * m) U128MAX) funds) as [_|]; [|lia].
    unfold chk_div. destruct (N.eqb_spec funds 0); [lia|]. cbn [of_opt rbind]. rewrite sat_id; [reflexivity|lia].
  - destruct (N.ltb_spec (N.min (price * m) U128MAX) funds) as [|_]; [lia|].
    unfold chk_div. destruct (N.eqb_spec price 0); [lia|]. cbn [of_opt rbind]. rewrite sat_id; [reflexivity|lia].
Qed.

(** Sum of floors against floor of the sum. *)
Lemma div_add_le a b p : p <> 0 -> a / p + b / p <= (a + b) / p.
Proof.
  intros Hp. apply N.div_le_lower_bound; [exact Hp|].
  pose proof (N.mul_div_le a p Hp). pose proof (N.mul_div_le b p Hp). rewrite N.mul_add_distr_l. lia.
Qed.
Lemma sum_floors `{Countable K} (w : K -> N -> N) (m : gmap K N) (k p : N) : p <> 0 ->
  sumf (fun x c => w x c * k / p) m <= sumf w m * k / p.
Proof.
  intros Hp. induction m as [|x c m Hn IH] using map_ind.
  - rewrite !sumf_empty. apply N.le_0_l.
  - rewrite !sumf_insert_new by exact Hn. rewrite N.mul_add_distr_r.
    eapply N.le_trans; [|apply div_add_le; exact Hp]. lia.
Qed.

(** What the participants of a sale put in, and what they are due. *)
Definition psum (p : gmap (N * N) N) (sid : N) : N := sumf (fun k c => if fst k =? sid then c else 0) p.
Definition dsum (p : gmap (N * N) N) (sid price funds m : N) : N :=
  sumf (fun k c => if fst k =? sid then due price funds m c else 0) p.
Lemma dsum_le p sid price funds m : price <> 0 -> psum p sid <= funds ->
  dsum p sid price funds m <=
  if price * m <? funds then psum p sid * UNIT * m / funds else psum p sid * UNIT / price.
Proof.
  intros Hp Hs. unfold dsum, due. destruct (N.ltb_spec (price * m) funds) as [Hlt|Hge].
  - pose proof (sum_floors (fun (k : N * N) c => if fst k =? sid then c else 0) p (UNIT * m) funds ltac:(lia)) as Hf.
    fold (psum p sid) in Hf. rewrite N.mul_assoc in Hf. etransitivity; [|exact Hf].
    apply sumf_le. intros k c _. destruct (fst k =? sid); [rewrite N.mul_assoc; apply N.le_refl|apply N.le_0_l].
  - pose proof (sum_floors (fun (k : N * N) c => if fst k =? sid then c else 0) p UNIT price ltac:(lia)) as Hf.
    fold (psum p sid) in Hf. etransitivity; [|exact Hf].
    apply sumf_le. intros k c _. destruct (fst k =? sid); [apply N.le_refl|apply N.le_0_l].
Qed.

Lemma psum_part p sid who c : p !! (sid, who) = Some c -> c <= psum p sid.
Proof.
  intros E. pose proof (sumf_contrib_le (fun (k : N * N) c => if fst k =? sid then c else 0) p (sid, who)) as Hs.
  unfold contrib in Hs. rewrite E in Hs. cbn [fst] in Hs. rewrite N.eqb_refl in Hs. exact Hs.
Qed.
Lemma psum_insert p sid who sid' c : psum (<[(sid, who) := c]> p) sid' + (if sid =? sid' then default 0 (p !! (sid, who)) else 0)
  = psum p sid' + (if sid =? sid' then c else 0).
Proof.
  pose proof (sumf_insert (fun (k : N * N) c => if fst k =? sid' then c else 0) p (sid, who) c) as Hs.
  unfold contrib in Hs. cbn [fst] in Hs. unfold psum. destruct (p !! (sid, who)); cbn [default from_option] in *; destruct (sid =? sid'); unfold id in *; lia.
Qed.
Lemma dsum_delete p sid who price funds m c : p !! (sid, who) = Some c ->
  due price funds m c + dsum (delete (sid, who) p) sid price funds m = dsum p sid price funds m.
Proof.
  intros E. pose proof (sumf_delete (fun (k : N * N) c => if fst k =? sid then due price funds m c else 0) p (sid, who)) as Hs.
  unfold contrib in Hs. rewrite E in Hs. cbn [fst] in Hs. rewrite N.eqb_refl in Hs. exact Hs.
Qed.
Lemma dsum_ext p p' sid price funds m : (forall who, p' !! (sid, who) = p !! (sid, who)) ->
  dsum p' sid price funds m = dsum p sid price funds m.
Proof.
  intros Hx. unfold dsum.
  assert (Hf : forall q : gmap (N * N) N, sumf (fun k c => if fst k =? sid then due price funds m c else 0) q
     = sumf (fun _ c => due price funds m c) (filter (fun e : (N * N) * N => fst (fst e) = sid) q)).
  { intros q. induction q as [|k c q Hn IH] using map_ind.
    - reflexivity.
    - rewrite sumf_insert_new by exact Hn. rewrite map_filter_insert. cbn [fst]. destruct (decide (fst k = sid)) as [He|He].
      + rewrite sumf_insert_new.
        * rewrite IH. destruct (N.eqb_spec (fst k) sid); [reflexivity|contradiction].
        * apply map_filter_lookup_None. left. exact Hn.
      + rewrite (delete_notin q k) by exact Hn.
        rewrite IH. destruct (N.eqb_spec (fst k) sid); [contradiction|reflexivity]. }
  rewrite !Hf. f_equal. apply map_eq. intros [x y].
  destruct (decide (x = sid)) as [->|Hne].
  - rewrite !map_filter_lookup. rewrite Hx. reflexivity.
  - rewrite !map_filter_lookup. destruct (p' !! (x, y)), (p !! (x, y)); cbn; rewrite ?option_guard_False by exact Hne; reflexivity.
Qed.
Lemma psum_ext p p' sid : (forall who, p' !! (sid, who) = p !! (sid, who)) -> psum p' sid = psum p sid.
Proof.
  intros Hx. pose proof (dsum_ext p p' sid UNIT 0 0 Hx) as Hd. unfold dsum, due in Hd.
  unfold psum. 
  assert (Hq : forall q : gmap (N * N) N, sumf (fun k c => if fst k =? sid then if UNIT * 0 <? 0 then c * UNIT * 0 / 0 else c * UNIT / UNIT else 0) q
    = sumf (fun k c => if fst k =? sid then c else 0) q).
  { intros q. apply sumf_ext. intros k c _. destruct (fst k =? sid); [|reflexivity].
    replace (UNIT * 0 <? 0) with false by (symmetry; apply N.ltb_ge; apply N.le_0_l). apply N.div_mul. discriminate. }
  rewrite !Hq in Hd. exact Hd.
Qed.
Lemma psum_none p sid : (forall who, p !! (sid, who) = None) -> psum p sid = 0.
Proof.
  intros Hx. unfold psum. apply sumf_zero. intros [x y] c E. cbn [fst]. destruct (N.eqb_spec x sid) as [->|]; [|reflexivity].
  rewrite Hx in E. discriminate.
Qed.

Lemma parts_of_in p sid who : who ∈ parts_of p sid <-> is_Some (p !! (sid, who)).
Proof.
  unfold parts_of. rewrite elem_of_list_In, in_map_iff. split.
  - intros ([[x y] c] & Hy & Hin). cbn in Hy. subst y. apply filter_In in Hin. destruct Hin as [Hin He]. cbn in He.
    apply N.eqb_eq in He. subst x. apply elem_of_list_In, elem_of_map_to_list in Hin. rewrite Hin. eauto.
  - intros [c Hc]. exists (sid, who, c). split; [reflexivity|]. apply filter_In. split.
    + apply elem_of_list_In, elem_of_map_to_list. exact Hc.
    + cbn. apply N.eqb_refl.
Qed.
Lemma parts_of_nil p sid : parts_of p sid = [] <-> forall who, p !! (sid, who) = None.
Proof.
  split.
  - intros E who. destruct (p !! (sid, who)) eqn:Ep; [|reflexivity]. exfalso.
    assert (Hin : who ∈ parts_of p sid) by (apply parts_of_in; eauto). rewrite E in Hin. inversion Hin.
  - intros Hx. destruct (parts_of p sid) as [|y l] eqn:E; [reflexivity|]. exfalso.
    assert (Hin : y ∈ parts_of p sid) by (rewrite E; left). apply parts_of_in in Hin. rewrite Hx in Hin. destruct Hin. discriminate.
Qed.
Lemma parts_of_nodup p sid : NoDup (parts_of p sid).
Proof.
  unfold parts_of. pose proof (NoDup_fst_map_to_list p) as Hn.
  assert (Hg : forall l : list ((N * N) * N), NoDup (fst <$> l) ->
    NoDup (map (fun e => snd (fst e)) (List.filter (fun e => fst (fst e) =? sid) l))).
  { induction l as [|[[x y] c] l IH]; intros Hl; cbn; [constructor|].
    cbn in Hl. apply NoDup_cons in Hl. destruct Hl as [Hni Hl]. destruct (N.eqb_spec x sid) as [->|]; [|auto].
    cbn. constructor; [|auto]. intros Hin. apply Hni. apply elem_of_list_In, in_map_iff in Hin.
    destruct Hin as ([[x' y'] c'] & Hy & Hin). cbn in Hy. subst y'. apply filter_In in Hin. destruct Hin as [Hin He].
    cbn in He. apply N.eqb_eq in He. subst x'. apply elem_of_list_fmap. exists (sid, y, c'). split; [reflexivity|].
    apply elem_of_list_In. exact Hin. }
  apply Hg. exact Hn.
Qed.

Lemma order_in pick l x : x ∈ order_of pick l <-> x ∈ l.
Proof.
  unfold order_of. rewrite elem_of_app, !elem_of_list_In, !filter_In. rewrite has_spec, negb_true_iff, has_false, <- !elem_of_list_In, elem_of_remove_dups.
  destruct (decide (x ∈ pick)); tauto.
Qed.
Lemma filter_nodup {A} (f : A -> bool) (l : list A) : NoDup l -> NoDup (List.filter f l).
Proof.
  induction l as [|x l IH]; intros Hn; cbn; [constructor|]. apply NoDup_cons in Hn. destruct (f x); [|tauto].
  constructor; [|tauto]. intros Hin. apply (proj1 Hn). apply elem_of_list_In in Hin. apply filter_In in Hin. apply elem_of_list_In. tauto.
Qed.
Lemma order_nodup pick l : NoDup l -> NoDup (order_of pick l).
Proof.
  intros Hl. unfold order_of. apply NoDup_app. split; [apply filter_nodup, NoDup_remove_dups|]. split; [|apply filter_nodup; exact Hl].
  intros x Hx Hy. rewrite elem_of_list_In, filter_In in Hx, Hy. rewrite <- elem_of_list_In, elem_of_remove_dups in Hx.
  rewrite negb_true_iff, has_false in Hy. tauto.
Qed.

Lemma vault_inj a b : vault a = vault b -> a = b.
Proof. unfold vault. lia. Qed.
Lemma vault_is sid : is_vault (vault sid) = true.
Proof. unfold is_vault, vault. rewrite N.odd_add, N.odd_mul. reflexivity. Qed.
Lemma user_not_vault x sid : is_vault x = false -> x <> vault sid.
Proof. intros Hx ->. rewrite vault_is in Hx. discriminate. Qed.
