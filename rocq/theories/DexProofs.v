(** Proofs about the exchange model. *)
From Verif Require Export DexModel LedgerProofs.

(** ** Pairs *)
Lemma pair_of_sorted a b : a <> b -> fst (pair_of a b) < snd (pair_of a b).
Proof. intros. unfold pair_of. destruct (N.ltb_spec b a); cbn; lia. Qed.
Lemma pair_of_comm a b : pair_of a b = pair_of b a.
Proof. unfold pair_of. destruct (N.ltb_spec b a), (N.ltb_spec a b); f_equal; lia. Qed.
Lemma pair_of_cases a b : pair_of a b = (a, b) \/ pair_of a b = (b, a).
Proof. unfold pair_of. destruct (b <? a); auto. Qed.
Lemma pool_addr_inj p q : pool_addr p = pool_addr q -> p = q.
Proof. destruct p, q. unfold pool_addr. cbn. congruence. Qed.

(** ** What a successful swap leg does *)
Definition frame_eq (s s' : dex) : Prop :=
  lp s' = lp s /\ enabled s' = enabled s /\ feeto s' = feeto s /\ next_asset s' = next_asset s /\
  now s' = now s /\ plimit s' = plimit s.

Lemma frame_eq_refl s : frame_eq s s.
Proof. repeat split. Qed.
Lemma frame_eq_trans s1 s2 s3 : frame_eq s1 s2 -> frame_eq s2 s3 -> frame_eq s1 s3.
Proof. unfold frame_eq. intuition congruence. Qed.

Lemma update_lastk_frame s p i :
  frame_eq s (update_lastk s p i) /\ lg (update_lastk s p i) = lg s /\ pool (update_lastk s p i) = pool s.
Proof.
  unfold update_lastk. destruct (reserves s p) as [ra rb]. 
  destruct (chk_mul U256MAX ra rb); repeat split.
Qed.

Lemma update_lastk_val s p i ra rb :
  reserves s p = (ra, rb) -> ra * rb <= U256MAX -> getN (lastk (update_lastk s p i)) i = ra * rb.
Proof.
  intros Hr Hle. unfold update_lastk. rewrite Hr. unfold chk_mul.
  destruct (N.leb_spec (ra * rb) U256MAX); [|lia]. cbn. apply getN_insert.
Qed.
Lemma update_lastk_other s p i j :
  i <> j -> getN (lastk (update_lastk s p i)) j = getN (lastk s) j.
Proof.
  intros Hne. unfold update_lastk. destruct (reserves s p) as [ra rb].
  destruct (chk_mul U256MAX ra rb); [|reflexivity]. cbn. apply getN_insert_ne. exact Hne.
Qed.

(** The shares minted by [mint_fee]. *)
Definition fee_shares (ts k_last k : N) : N :=
  if k_last =? 0 then 0 else
  if N.sqrt k_last <? N.sqrt k
  then sat128 (ts * (N.sqrt k - N.sqrt k_last) / (N.sqrt k * 5 + N.sqrt k_last)) else 0.

Lemma mint_zero_spec (l : ledger acct) : forall b y a to,
  balance l b y = balance l b y + (if decide ((a, to) = (b, y)) then 0 else 0).
Proof. intros. destruct (decide _); lia. Qed.

Lemma mint_fee_spec s i ra rb s' on :
  mint_fee s i ra rb = Ok (s', on) -> ra * rb <= U256MAX ->
  frame_eq s s' /\ pool s' = pool s /\
  match feeto s with
  | Some f =>
      on = true /\ lastk s' = lastk s /\
      ((fee_shares (issuance (lg s) i) (getN (lastk s) i) (ra * rb) = 0 /\ lg s' = lg s) \/
       mint (lg s) i f (fee_shares (issuance (lg s) i) (getN (lastk s) i) (ra * rb)) = Ok (lg s'))
  | None => on = false /\ lg s' = lg s
  end.
Proof.
  intros Hm Hk. unfold mint_fee in Hm. unfold fee_shares.
  assert (Hs : sat U256MAX (ra * rb) = ra * rb) by (unfold sat; lia). rewrite Hs in Hm. clear Hs.
  destruct (feeto s) as [f|] eqn:Ef.
  - destruct (N.eqb_spec (getN (lastk s) i) 0).
    + inv_ok. injection Hm as <- <-. repeat split; auto.
    + destruct (N.ltb_spec (N.sqrt (getN (lastk s) i)) (N.sqrt (ra * rb))).
      * unfold usub, umul, uadd, udiv in Hm. inv_ok.
        match type of Hm with context [0 <? ?q] => destruct (N.ltb_spec 0 q) as [Hq|Hq] end.
        -- inv_ok. injection Hm as <- <-. cbn [feeto set_lg lg].
           split; [repeat split; auto|]. split; [reflexivity|]. split; [reflexivity|].
           split; [reflexivity|]. right. assumption.
        -- inv_ok. injection Hm as <- <-. repeat split; auto. left. split; [|reflexivity].
           apply N.le_0_r in Hq. unfold sat128, sat. rewrite Hq. reflexivity.
      * inv_ok. injection Hm as <- <-. repeat split; auto.
  - destruct (N.eqb_spec (getN (lastk s) i) 0); inv_ok; injection Hm as <- <-; repeat split; auto.
Qed.

Lemma reserves_set_pool s p v q :
  reserves (set_pool s p v) q = if decide (p = q) then v else reserves s q.
Proof.
  unfold reserves, set_pool. cbn. destruct (decide (p = q)) as [->|Hne].
  - rewrite lookup_insert. reflexivity.
  - rewrite lookup_insert_ne by exact Hne. reflexivity.
Qed.

Lemma adj_product b0 b1 x y r0 r1 :
  r0 * r1 * (FEE_DEN * FEE_DEN) <= (b0 * FEE_DEN - x) * (b1 * FEE_DEN - y) ->
  r0 * r1 <= b0 * b1.
Proof.
  unfold FEE_DEN. intros Hle.
  assert ((b0 * 1000 - x) * (b1 * 1000 - y) <= (b0 * 1000) * (b1 * 1000)).
  { apply N.mul_le_mono; lia. }
  nia.
Qed.

Definition out_side (p : N * N) (output : N) (r : N * N) : N :=
  if output =? fst p then fst r else snd r.

Record leg_effect (s s' : dex) (input output ao : N) (to : acct) (l2 : ledger acct) : Prop := {
  le_neq : input <> output;
  le_frame : frame_eq s s';
  le_transfer : transfer (lg s) output (pool_addr (pair_of input output)) to ao = Ok l2;
  le_pos : 0 < ao;
  le_bal : balance l2 (fst (pair_of input output)) (pool_addr (pair_of input output)) <= U128MAX
        /\ balance l2 (snd (pair_of input output)) (pool_addr (pair_of input output)) <= U128MAX;
  le_k : fst (reserves s (pair_of input output)) * snd (reserves s (pair_of input output))
       <= balance l2 (fst (pair_of input output)) (pool_addr (pair_of input output)) *
          balance l2 (snd (pair_of input output)) (pool_addr (pair_of input output));
  le_rpos : 0 < fst (reserves s (pair_of input output)) /\ 0 < snd (reserves s (pair_of input output));
  le_res : forall q, reserves s' q = if decide (pair_of input output = q)
     then (balance l2 (fst q) (pool_addr q), balance l2 (snd q) (pool_addr q))
     else reserves s q;
  le_ledger :
     match feeto s with
     | None => lg s' = l2 /\ lastk s' = lastk s
     | Some f => exists i, lp s !! pair_of input output = Some i /\
         ((fee_shares (issuance l2 i) (getN (lastk s) i)
             (fst (reserves s' (pair_of input output)) * snd (reserves s' (pair_of input output))) = 0
             /\ lg s' = l2) \/
          mint l2 i f (fee_shares (issuance l2 i) (getN (lastk s) i)
             (fst (reserves s' (pair_of input output)) * snd (reserves s' (pair_of input output)))) = Ok (lg s')) /\
         (forall j, getN (lastk s') j = if i =? j then
             fst (reserves s' (pair_of input output)) * snd (reserves s' (pair_of input output))
             else getN (lastk s) j)
     end
}.

Lemma mul128 a b : a <= U128MAX -> b <= U128MAX -> a * b <= U256MAX.
Proof.
  intros. assert (a * b <= U128MAX * U128MAX) by (apply N.mul_le_mono; assumption).
  assert (U128MAX * U128MAX <= U256MAX) by (vm_compute; discriminate). lia.
Qed.

Lemma books_bal128 l a (x : acct) : books l -> balance l a x <= U128MAX.
Proof.
  intros Hb. destruct (Hb a) as [Ht Hi]. pose proof (balance_le_total l a x). lia.
Qed.

Lemma swap_leg_spec s input output ao to s' :
  swap_leg s input output ao to = Ok s' -> books (lg s) ->
  exists l2, leg_effect s s' input output ao to l2.
Proof.
  intros Hs Hbooks. unfold swap_leg in Hs. inv_ok.
  set (p := pair_of input output) in *.
  assert (Hne : input <> output) by (intros ->; rewrite N.eqb_refl in E; discriminate).
  assert (Hp : (fst p = input /\ snd p = output) \/ (fst p = output /\ snd p = input)).
  { unfold p. destruct (pair_of_cases input output) as [->| ->]; auto. }
  destruct (reserves s p) as [r0 r1] eqn:Er.
  set (dirs := if input =? fst p then (0, ao) else (ao, 0)) in *.
  destruct dirs as [a0out a1out] eqn:Edirs.
  inv_ok.
  match goal with H : (if 0 <? a0out then _ else _) = Ok ?l |- _ => rename H into Ht0; rename l into l1 end.
  match goal with H : (if 0 <? a1out then _ else _) = Ok ?l |- _ => rename H into Ht1; rename l into l2 end.
  (* the output transfer *)
  assert (Htr : transfer (lg s) output (pool_addr p) to ao = Ok l2 /\ 0 < ao).
  { subst dirs. destruct Hp as [[Hp1 Hp2]|[Hp1 Hp2]]; rewrite Hp1, Hp2 in *.
    - rewrite N.eqb_refl in Edirs. injection Edirs as <- <-.
      rewrite N.ltb_irrefl in *. cbn [orb] in *. rewrite E0 in *. inv_ok. subst l1.
      split; [assumption|lia].
    - destruct (N.eqb_spec input output); [congruence|]. injection Edirs as <- <-.
      rewrite N.ltb_irrefl in *. rewrite orb_false_r in E0. rewrite E0 in *. inv_ok. subst l2.
      split; [assumption|lia]. }
  clear Ht0 Ht1. destruct Htr as [Htr Hao].
  unfold usub, umul in *. inv_ok.
  set (b0 := balance l2 (fst p) (pool_addr p)) in *.
  set (b1 := balance l2 (snd p) (pool_addr p)) in *.
  assert (Hb2 : books l2) by (eapply transfer_books; eassumption).
  assert (Hbb : b0 <= U128MAX /\ b1 <= U128MAX) by (split; apply books_bal128; exact Hb2).
  assert (Hk : r0 * r1 <= b0 * b1).
  { eapply adj_product. apply N.leb_le. eassumption. }
  assert (Hbk : b0 * b1 <= U256MAX) by (apply mul128; tauto).
  exists l2.
  assert (Hfeeto : feeto (set_pool (set_lg s l2) p (b0, b1)) = feeto s) by reflexivity.
  rewrite Hfeeto in Hs.
  destruct (feeto s) as [f|] eqn:Ef.
  - inv_ok.
    match goal with H : lp _ !! _ = Some ?i |- _ => rename H into Hlp; rename i into lpid end.
    match goal with H : mint_fee _ _ _ _ = Ok ?r |- _ => rename H into Hmf; rename r into mf end.
    destruct mf as [s3 on].
    cbn [lp set_pool set_lg] in Hlp.
    pose proof (mint_fee_spec _ _ _ _ _ _ Hmf Hbk) as [Hf3 [Hp3 Hm3]].
    cbn [feeto set_pool set_lg] in Hm3. rewrite Ef in Hm3. destruct Hm3 as [-> [Hlk3 Hm3]].
    inv_ok.
    pose proof (update_lastk_frame s3 p lpid) as [Hfu [Hlu Hpu]].
    rewrite Hs in Hfu, Hlu, Hpu.
    assert (Hres : forall q, reserves s' q = if decide (p = q)
       then (balance l2 (fst q) (pool_addr q), balance l2 (snd q) (pool_addr q))
       else reserves s q).
    { intros q. unfold reserves at 1. rewrite Hpu, Hp3.
      fold (reserves (set_pool (set_lg s l2) p (b0, b1)) q).
      rewrite reserves_set_pool. destruct (decide (p = q)) as [<-|]; reflexivity. }
    assert (Hresp : reserves s' p = (b0, b1)).
    { rewrite Hres. destruct (decide (p = p)); [reflexivity|congruence]. }
    split; fold p; try assumption; rewrite ?Er; cbn [fst snd]; try lia.
    + eapply frame_eq_trans; [|exact Hfu]. eapply frame_eq_trans; [|exact Hf3]. repeat split.
    + rewrite Ef. exists lpid. split; [assumption|].
      rewrite Hresp. cbn [fst snd]. rewrite Hlu. split; [exact Hm3|].
      intros j. rewrite <- Hs. destruct (N.eqb_spec lpid j) as [<-|Hj].
      * apply update_lastk_val; [|exact Hbk]. unfold reserves. rewrite Hp3. cbn.
        rewrite lookup_insert. reflexivity.
      * rewrite update_lastk_other by exact Hj. rewrite Hlk3. reflexivity.
  - inv_ok. subst s'. split; fold p; try assumption; rewrite ?Er; cbn [fst snd]; try lia.
    + repeat split; cbn; congruence.
    + intros q. rewrite reserves_set_pool. destruct (decide (p = q)) as [<-|]; reflexivity.
    + rewrite Ef. split; reflexivity.
Qed.

(** ** What a successful deposit does *)
Lemma mul_div_le x y z : z <> 0 -> x * y / z * z <= x * y.
Proof. intros. rewrite N.mul_comm. apply N.mul_div_le. assumption. Qed.

Lemma sat128_le x : sat128 x <= x.
Proof. unfold sat128, sat. lia. Qed.

Lemma post_lastk_frame s p i :
  let s2 := match feeto s with Some _ => update_lastk s p i | None => s end in
  frame_eq s s2 /\ lg s2 = lg s /\ pool s2 = pool s.
Proof.
  cbv zeta. destruct (feeto s); [apply update_lastk_frame|repeat split].
Qed.

Record add_effect (s0 s' : dex) (who to : acct) (p : N * N) (am0 am1 liq : N)
    (i x0 x1 : N) (l1 l2 l3 : ledger acct) : Prop := AddEffect {
  ae_sorted : fst p < snd p;
  ae_lp : (lp s0 !! p = Some i /\ lp s' = lp s0 /\ next_asset s' = next_asset s0) \/
          (lp s0 !! p = None /\ i = next_asset s0 /\ lp s' = <[p := i]> (lp s0) /\
            next_asset s' = next_asset s0 + 1);
  ae_feeto : feeto s' = feeto s0;
  ae_t1 : transfer (lg s0) (fst p) who (pool_addr p) x0 = Ok l1;
  ae_t2 : transfer l1 (snd p) who (pool_addr p) x1 = Ok l2;
  ae_am0 : am0 + fst (reserves s0 p) = balance l2 (fst p) (pool_addr p);
  ae_am1 : am1 + snd (reserves s0 p) = balance l2 (snd p) (pool_addr p);
  ae_first : fst (reserves s0 p) = 0 /\ snd (reserves s0 p) = 0 -> 0 < x0 /\ 0 < x1;
  ae_liq :
    (issuance l2 i = 0 /\ mint l2 i ABurn MIN_LIQ = Ok l3 /\
       liq + MIN_LIQ <= N.sqrt (am0 * am1)) \/
    (issuance l2 i <> 0 /\ l3 = l2 /\
       liq * fst (reserves s0 p) <= am0 * issuance l2 i /\
       liq * snd (reserves s0 p) <= am1 * issuance l2 i /\
       fst (reserves s0 p) <> 0 /\ snd (reserves s0 p) <> 0);
  ae_pos : 0 < liq;
  ae_mint : mint l3 i to liq = Ok (lg s');
  ae_res : forall q, reserves s' q = if decide (p = q)
     then (balance l2 (fst q) (pool_addr q), balance l2 (snd q) (pool_addr q))
     else reserves s0 q;
  ae_lastk : forall j, getN (lastk s') j =
     match feeto s0 with
     | Some _ => if i =? j then fst (reserves s' p) * snd (reserves s' p) else getN (lastk s0) j
     | None => getN (lastk s0) j
     end
}.

Lemma sat128_pos x : 0 < x -> 0 < sat128 x.
Proof. unfold sat128, sat, U128MAX. lia. Qed.

Lemma sqrt_bound m x : 0 < sat128 (N.sqrt m - x) -> x <= N.sqrt m -> sat128 (N.sqrt m - x) + x <= N.sqrt m.
Proof. pose proof (sat128_le (N.sqrt m - x)). lia. Qed.

Lemma add_liquidity_spec s0 who a b da db ma mb to dl s' am0 am1 liq :
  add_liquidity s0 who a b da db ma mb to dl = Ok (s', (am0, am1, liq)) -> books (lg s0) ->
  exists i x0 x1 l1 l2 l3, add_effect s0 s' who to (pair_of a b) am0 am1 liq i x0 x1 l1 l2 l3.
Proof.
  intros Ha Hbooks. unfold add_liquidity in Ha. inv_ok.
  assert (Hne : a <> b) by (intros ->; rewrite N.eqb_refl in E; discriminate).
  pose proof (pair_of_sorted a b Hne) as Hsort.
  set (p := pair_of a b) in *. 
  set (cr := match lp s0 !! p with Some i => (s0, i) | None => create_lp_token s0 p end) in *.
  assert (Hcr : exists s i, cr = (s, i) /\ lg s = lg s0 /\ pool s = pool s0 /\ feeto s = feeto s0 /\
     lastk s = lastk s0 /\
     ((lp s0 !! p = Some i /\ lp s = lp s0 /\ next_asset s = next_asset s0) \/
      (lp s0 !! p = None /\ i = next_asset s0 /\ lp s = <[p := i]> (lp s0) /\
       next_asset s = next_asset s0 + 1))).
  { subst cr. destruct (lp s0 !! p) as [i|] eqn:El.
    - exists s0, i. repeat split; auto.
    - eexists _, _. split; [reflexivity|]. repeat split; auto. }
  destruct Hcr as (s & i & Hcr & Hlg & Hpool & Hfee & Hlk & Hlp). rewrite Hcr in Ha. clearbody cr. clear cr Hcr.
  set (sw := if a =? fst p then (da, db, ma, mb) else (db, da, mb, ma)) in *.
  assert (Hsw : exists da' db' ma' mb', sw = (da', db', ma', mb') /\ 0 < da' /\ 0 < db').
  { subst sw. destruct (a =? fst p); eexists _, _, _, _; (split; [reflexivity|]); lia. }
  destruct Hsw as (da' & db' & ma' & mb' & Hsw & Hda & Hdb). rewrite Hsw in Ha. clearbody sw. clear sw Hsw.
  inv_ok.
  assert (Hres0 : reserves s p = reserves s0 p) by (unfold reserves; rewrite Hpool; reflexivity).
  rewrite Hres0 in Ha.
  destruct (reserves s0 p) as [ra rb] eqn:Er.
  inv_ok.
  match goal with H : (if (ra =? 0) && (rb =? 0) then _ else _) = Ok ?r |- _ =>
    rename H into Hab; rename r into ab end.
  destruct ab as [aa bb]. rewrite Hlg in Ha. inv_ok.
  match goal with H : transfer (lg s0) _ _ _ _ = Ok ?r |- _ => rename H into Ht1; rename r into l1 end.
  match goal with H : transfer l1 _ _ _ _ = Ok ?r |- _ => rename H into Ht2; rename r into l2 end.
  unfold usub in *. inv_ok.
  match goal with H : (if issuance l2 i =? 0 then _ else _) = Ok ?r |- _ =>
    rename H into Hlq; rename r into lq end.
  destruct lq as [liq' l3]. inv_ok.
  match goal with H : mint l3 _ _ _ = Ok ?r |- _ => rename H into Hmt; rename r into l4 end.
  injection Ha as Hs' <- <- Hl. subst liq'.
  set (b0 := balance l2 (fst p) (pool_addr p)) in *.
  set (b1 := balance l2 (snd p) (pool_addr p)) in *.
  assert (Hb2 : books l2).
  { eapply transfer_books; [eassumption|]. eapply transfer_books; eassumption. }
  pose proof (post_lastk_frame (set_pool (set_lg s l4) p (b0, b1)) p i) as Hpf.
  cbv zeta in Hpf. cbn [feeto set_pool set_lg] in Hpf, Hs'. cbn [set_pool set_lg] in *. rewrite Hs' in Hpf. destruct Hpf as [Hf' [Hlg' Hpool']].
  cbn [lg set_pool set_lg] in Hlg'.
  assert (Hres : forall q, reserves s' q = if decide (p = q)
     then (balance l2 (fst q) (pool_addr q), balance l2 (snd q) (pool_addr q))
     else reserves s0 q).
  { intros q. unfold reserves at 1. rewrite Hpool'. 
    fold (reserves (set_pool (set_lg s l4) p (b0, b1)) q). rewrite reserves_set_pool.
    destruct (decide (p = q)) as [<-|]; [reflexivity|].
    unfold reserves. cbn. rewrite Hpool. reflexivity. }
  assert (Hrp : reserves s' p = (b0, b1)).
  { rewrite Hres. destruct (decide (p = p)); [reflexivity|congruence]. }
  exists i, (sat128 aa), (sat128 bb), l1, l2, l3.
  destruct Hf' as (Hf1 & Hf2 & Hf3 & Hf4 & Hf5 & Hf6). cbn in Hf1, Hf3, Hf4.
  split; rewrite ?Er; cbn [fst snd]; try assumption; try lia.
  - rewrite Hf1, Hf4. exact Hlp.
  - congruence.
  - intros [-> ->]. rewrite N.eqb_refl in Hab. cbn in Hab. inv_ok. injection Hab as <- <-.
    split; apply sat128_pos; assumption.
  - destruct (N.eqb_spec (issuance l2 i) 0) as [Hz|Hz].
    + left. unfold umul, usub in Hlq. inv_ok. injection Hlq as <- <-.
      split; [exact Hz|]. split; [assumption|].
      match goal with |- sat128 (?x - ?y) + _ <= _ => pose proof (sat128_le (x - y)) end. lia.
    + right. unfold umul, udiv in Hlq. inv_ok. injection Hlq as <- <-.
      split; [exact Hz|]. split; [reflexivity|].
      match goal with |- context [sat128 (N.min ?x ?y)] => pose proof (sat128_le (N.min x y)) as Hle end.
      repeat split; try assumption.
      * etransitivity; [|apply mul_div_le with (z := ra); assumption].
        apply N.mul_le_mono_r. etransitivity; [exact Hle|]. apply N.le_min_l.
      * etransitivity; [|apply mul_div_le with (z := rb); assumption].
        apply N.mul_le_mono_r. etransitivity; [exact Hle|]. apply N.le_min_r.
  - congruence.
  - intros j. rewrite Hrp. rewrite <- Hs'. cbn [feeto set_pool set_lg]. rewrite Hfee.
    destruct (feeto s0) eqn:Ef.
    + destruct (N.eqb_spec i j) as [<-|Hj].
      * rewrite (update_lastk_val _ _ _ b0 b1).
        -- reflexivity.
        -- rewrite reserves_set_pool. destruct (decide (p = p)); [reflexivity|congruence].
        -- apply mul128; apply books_bal128; exact Hb2.
      * rewrite update_lastk_other by exact Hj. cbn. rewrite Hlk. reflexivity.
    + cbn. rewrite Hlk. reflexivity.
Qed.

(** ** What a successful withdrawal does *)
Record rem_effect (s s' : dex) (who to : acct) (p : N * N) (liq_in am0 am1 : N)
    (i liq : N) (l1 l2 l3 : ledger acct) : Prop := RemEffect {
  re_sorted : fst p < snd p;
  re_lp : lp s !! p = Some i;
  re_frame : frame_eq s s';
  re_t1 : transfer (lg s) i who (pool_addr p) liq_in = Ok l1;
  re_liq : liq = balance l1 i (pool_addr p);
  re_ts : issuance l1 i <> 0;
  re_am0 : am0 * issuance l1 i <= liq * balance l1 (fst p) (pool_addr p);
  re_am1 : am1 * issuance l1 i <= liq * balance l1 (snd p) (pool_addr p);
  re_pos : 0 < am0 /\ 0 < am1;
  re_burn : burn l1 i (pool_addr p) liq = Ok l2;
  re_t2 : transfer l2 (fst p) (pool_addr p) to am0 = Ok l3;
  re_t3 : transfer l3 (snd p) (pool_addr p) to am1 = Ok (lg s');
  re_res : forall q, reserves s' q = if decide (p = q)
     then (balance (lg s') (fst q) (pool_addr q), balance (lg s') (snd q) (pool_addr q))
     else reserves s q;
  re_lastk : forall j, getN (lastk s') j =
     match feeto s with
     | Some _ => if i =? j then fst (reserves s' p) * snd (reserves s' p) else getN (lastk s) j
     | None => getN (lastk s) j
     end
}.

Lemma remove_liquidity_spec s who a b lq ma mb to dl s' am0 am1 :
  remove_liquidity s who a b lq ma mb to dl = Ok (s', (am0, am1)) -> books (lg s) ->
  exists i liq l1 l2 l3, rem_effect s s' who to (pair_of a b) lq am0 am1 i liq l1 l2 l3.
Proof.
  intros Ha Hbooks. unfold remove_liquidity in Ha. inv_ok.
  set (p := pair_of a b) in *.
  match goal with H : lp s !! p = Some ?r |- _ => rename H into Hlp; rename r into i end.
  match goal with H : negb (a =? b) = true |- _ => rename H into Hn end.
  assert (Hne : a <> b) by (intros ->; rewrite N.eqb_refl in Hn; discriminate).
  pose proof (pair_of_sorted a b Hne) as Hsort.
  match goal with H : transfer (lg s) _ _ _ _ = Ok ?r |- _ => rename H into Ht1; rename r into l1 end.
  destruct (if a =? fst p then (ma, mb) else (mb, ma)) as [ma' mb'].
  unfold umul, udiv in *. inv_ok.
  match goal with H : burn l1 _ _ _ = Ok ?r |- _ => rename H into Hbn; rename r into l2 end.
  match goal with H : transfer l2 _ _ _ _ = Ok ?r |- _ => rename H into Ht2; rename r into l3 end.
  match goal with H : transfer l3 _ _ _ _ = Ok ?r |- _ => rename H into Ht3; rename r into l4 end.
  injection Ha as Hs' <- <-.
  set (b0 := balance l4 (fst p) (pool_addr p)) in *.
  set (b1 := balance l4 (snd p) (pool_addr p)) in *.
  assert (Hb4 : books l4).
  { eapply transfer_books; [eassumption|]. eapply transfer_books; [eassumption|].
    eapply burn_books; [eassumption|]. eapply transfer_books; eassumption. }
  pose proof (post_lastk_frame (set_pool (set_lg s l4) p (b0, b1)) p i) as Hpf.
  cbv zeta in Hpf. cbn [feeto set_pool set_lg] in Hpf, Hs'. cbn [set_pool set_lg] in *. rewrite Hs' in Hpf. destruct Hpf as [Hf' [Hlg' Hpool']].
  cbn [lg set_pool set_lg] in Hlg'.
  assert (Hres : forall q, reserves s' q = if decide (p = q)
     then (balance (lg s') (fst q) (pool_addr q), balance (lg s') (snd q) (pool_addr q))
     else reserves s q).
  { intros q. unfold reserves at 1. rewrite Hpool', Hlg'.
    fold (reserves (set_pool (set_lg s l4) p (b0, b1)) q). rewrite reserves_set_pool.
    destruct (decide (p = q)) as [<-|]; reflexivity. }
  assert (Hrp : reserves s' p = (b0, b1)).
  { rewrite Hres, Hlg'. destruct (decide (p = p)); [reflexivity|congruence]. }
  exists i, (balance l1 i (pool_addr p)), l1, l2, l3.
  split; try assumption; try reflexivity.
  - etransitivity; [apply N.mul_le_mono_r, sat128_le|]. apply mul_div_le. assumption.
  - etransitivity; [apply N.mul_le_mono_r, sat128_le|]. apply mul_div_le. assumption.
  - lia.
  - congruence.
  - intros j. rewrite Hrp. rewrite <- Hs'. cbn [feeto set_pool set_lg].
    destruct (feeto s) eqn:Ef.
    + destruct (N.eqb_spec i j) as [<-|Hj].
      * rewrite (update_lastk_val _ _ _ b0 b1).
        -- reflexivity.
        -- rewrite reserves_set_pool. destruct (decide (p = p)); [reflexivity|congruence].
        -- apply mul128; apply books_bal128; exact Hb4.
      * rewrite update_lastk_other by exact Hj. reflexivity.
    + reflexivity.
Qed.
