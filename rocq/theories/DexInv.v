(** Invariant of the exchange under every history. *)
From Verif Require Export DexProofs.

Lemma transfer_mono (l : ledger acct) a x to v l' b y :
  transfer l a x to v = Ok l' -> y <> x -> balance l b y <= balance l' b y.
Proof.
  intros Ht Hy. apply transfer_spec in Ht. destruct Ht as [_ [_ Hb]]. specialize (Hb b y).
  destruct (decide ((a, x) = (b, y))); [congruence|]. lia.
Qed.
Lemma transfer_mono_asset (l : ledger acct) a x to v l' b y :
  transfer l a x to v = Ok l' -> a <> b -> balance l b y = balance l' b y.
Proof.
  intros Ht Hy. apply transfer_spec in Ht. destruct Ht as [_ [_ Hb]]. specialize (Hb b y).
  destruct (decide ((a, x) = (b, y))); [congruence|].
  destruct (decide ((a, to) = (b, y))); [congruence|]. lia.
Qed.
Lemma mint_mono (l : ledger acct) a to v l' b y :
  mint l a to v = Ok l' -> balance l b y <= balance l' b y.
Proof. intros Hm. apply mint_spec in Hm. destruct Hm as (_ & _ & Hb & _). rewrite Hb. lia. Qed.

Record DexInv (s : dex) : Prop := {
  di_books : books (lg s);
  di_fresh : forall a, next_asset s <= a -> issuance (lg s) a = 0;
  di_none : forall p, lp s !! p = None -> reserves s p = (0, 0);
  di_some : forall p i, lp s !! p = Some i ->
    i < next_asset s /\ i <> fst p /\ i <> snd p /\ fst p < snd p;
  di_inj : forall p q i, lp s !! p = Some i -> lp s !! q = Some i -> p = q;
  di_backed : forall p, fst (reserves s p) <= balance (lg s) (fst p) (pool_addr p) /\
                        snd (reserves s p) <= balance (lg s) (snd p) (pool_addr p);
  di_live : forall p i, lp s !! p = Some i ->
    0 < fst (reserves s p) /\ 0 < snd (reserves s p) /\ MIN_LIQ <= balance (lg s) i ABurn
}.

Lemma fresh_balance s a x : DexInv s -> next_asset s <= a -> balance (lg s) a x = 0.
Proof.
  intros Hi Ha. pose proof (di_fresh s Hi a Ha). destruct (di_books s Hi a) as [Ht _].
  pose proof (balance_le_total (lg s) a x). lia.
Qed.

Lemma init_inv n0 lim fee : DexInv (init n0 lim fee).
Proof.
  split; cbn.
  - apply empty_books.
  - intros. unfold issuance. cbn. apply getN_empty.
  - intros. unfold reserves. cbn. rewrite lookup_empty. reflexivity.
  - intros p i Hp. rewrite lookup_empty in Hp. discriminate.
  - intros p q i Hp. rewrite lookup_empty in Hp. discriminate.
  - intros. unfold reserves. cbn. rewrite lookup_empty. cbn. lia.
  - intros p i Hp. rewrite lookup_empty in Hp. discriminate.
Qed.

Lemma inv_transfer s a w to v l :
  DexInv s -> transfer (lg s) a (AUser w) to v = Ok l -> DexInv (set_lg s l).
Proof.
  intros Hi Ht. split; cbn [lg set_lg lp next_asset]; try apply Hi.
  - eapply transfer_books; [eassumption|]. apply Hi.
  - intros b Hb. rewrite (transfer_issuance _ _ _ _ _ _ b Ht). apply Hi. exact Hb.
  - intros p. change (reserves (set_lg s l) p) with (reserves s p).
    pose proof (di_backed s Hi p) as [H0 H1].
    pose proof (transfer_mono _ _ _ _ _ _ (fst p) (pool_addr p) Ht ltac:(discriminate)).
    pose proof (transfer_mono _ _ _ _ _ _ (snd p) (pool_addr p) Ht ltac:(discriminate)). lia.
  - intros p i Hp. change (reserves (set_lg s l) p) with (reserves s p).
    pose proof (di_live s Hi p i Hp) as (H0 & H1 & H2).
    pose proof (transfer_mono _ _ _ _ _ _ i ABurn Ht ltac:(discriminate)). lia.
Qed.

Lemma inv_mint s a to v l :
  DexInv s -> a < next_asset s -> mint (lg s) a to v = Ok l -> DexInv (set_lg s l).
Proof.
  intros Hi Ha Hm. split; cbn [lg set_lg lp next_asset]; try apply Hi.
  - eapply mint_books; [eassumption|]. apply Hi.
  - intros b Hb. pose proof (mint_spec _ _ _ _ _ Hm) as (_ & Hs & _ & _). rewrite Hs.
    destruct (N.eqb_spec a b); [lia|]. rewrite (di_fresh s Hi b Hb). reflexivity.
  - intros p. change (reserves (set_lg s l) p) with (reserves s p).
    pose proof (di_backed s Hi p) as [H0 H1].
    pose proof (mint_mono _ _ _ _ _ (fst p) (pool_addr p) Hm).
    pose proof (mint_mono _ _ _ _ _ (snd p) (pool_addr p) Hm). lia.
  - intros p i Hp. change (reserves (set_lg s l) p) with (reserves s p).
    pose proof (di_live s Hi p i Hp) as (H0 & H1 & H2).
    pose proof (mint_mono _ _ _ _ _ i ABurn Hm). lia.
Qed.

Lemma prod_pos a b c d : 0 < a -> 0 < b -> a * b <= c * d -> 0 < c /\ 0 < d.
Proof. intros. destruct (N.eq_0_gt_0_cases c), (N.eq_0_gt_0_cases d); subst; nia. Qed.

Lemma inv_leg s i o ao to s' : DexInv s -> swap_leg s i o ao to = Ok s' -> DexInv s'.
Proof.
  intros Hi Hs. destruct (swap_leg_spec _ _ _ _ _ _ Hs (di_books s Hi)) as [l2 He].
  set (p := pair_of i o) in *.
  destruct He as [Hne Hf Ht Hao Hb Hk Hr Hres Hled]. fold p in Ht, Hb, Hk, Hr, Hres, Hled.
  destruct Hf as (Hlp & _ & Hft & Hnx & _ & _).
  assert (Hb2 : books l2) by (eapply transfer_books; [eassumption|apply Hi]).
  assert (Hfr2 : forall a, next_asset s <= a -> issuance l2 a = 0).
  { intros a Ha. rewrite (transfer_issuance _ _ _ _ _ _ a Ht). apply Hi. exact Ha. }
  (* the final ledger dominates l2 *)
  assert (Hlg : books (lg s') /\ (forall b y, balance l2 b y <= balance (lg s') b y) /\
                (forall a, next_asset s <= a -> issuance (lg s') a = 0)).
  { destruct (feeto s) as [f|] eqn:Ef.
    - destruct Hled as (j & Hj & [[_ ->]|Hm] & _).
      + split; [exact Hb2|]. split; [reflexivity|exact Hfr2].
      + split; [eapply mint_books; eassumption|]. split.
        * intros. eapply mint_mono. eassumption.
        * intros a Ha. pose proof (mint_spec _ _ _ _ _ Hm) as (_ & Hs' & _ & _). rewrite Hs'.
          pose proof (di_some s Hi _ _ Hj). destruct (N.eqb_spec j a); [lia|].
          rewrite Hfr2 by exact Ha. reflexivity.
    - destruct Hled as [-> _]. split; [exact Hb2|]. split; [reflexivity|exact Hfr2]. }
  destruct Hlg as (Hbk & Hmono & Hfr).
  assert (Hlpp : exists j, lp s !! p = Some j).
  { destruct (lp s !! p) as [j|] eqn:El; [eauto|]. rewrite (di_none s Hi p El) in Hr. cbn in Hr. lia. }
  split.
  - exact Hbk.
  - rewrite Hnx. exact Hfr.
  - intros q Hq. rewrite Hlp in Hq. rewrite Hres. destruct (decide (p = q)) as [<-|].
    + destruct Hlpp. congruence.
    + apply Hi. exact Hq.
  - rewrite Hlp, Hnx. apply Hi.
  - rewrite Hlp. apply Hi.
  - intros q. rewrite Hres. destruct (decide (p = q)) as [<-|Hq].
    + cbn [fst snd]. split; apply Hmono.
    + pose proof (di_backed s Hi q) as [H0 H1].
      assert (Hqq : pool_addr q <> pool_addr p) by (intros E; apply pool_addr_inj in E; congruence).
      pose proof (transfer_mono _ _ _ _ _ _ (fst q) (pool_addr q) Ht Hqq).
      pose proof (transfer_mono _ _ _ _ _ _ (snd q) (pool_addr q) Ht Hqq).
      pose proof (Hmono (fst q) (pool_addr q)). pose proof (Hmono (snd q) (pool_addr q)). lia.
  - intros q j Hq. rewrite Hlp in Hq. pose proof (di_live s Hi q j Hq) as (H0 & H1 & H2).
    pose proof (transfer_mono _ _ _ _ _ _ j ABurn Ht ltac:(discriminate)).
    pose proof (Hmono j ABurn). rewrite Hres. destruct (decide (p = q)) as [<-|Hpq].
    + cbn [fst snd]. destruct (prod_pos _ _ _ _ (proj1 Hr) (proj2 Hr) Hk). lia.
    + lia.
Qed.

Lemma inv_swap_loop rest : forall s x amounts to s',
  DexInv s -> swap_loop s x rest amounts to = Ok s' -> DexInv s'.
Proof.
  induction rest as [|y rest IH]; intros s x amounts to s' Hi Hs; cbn in Hs.
  - inv_ok. subst. exact Hi.
  - destruct amounts as [|ao amounts]; [inv_ok; subst; exact Hi|].
    inv_ok. eapply IH; [|eassumption]. eapply inv_leg; eassumption.
Qed.

Lemma inv_swap_supply s w ai mo path to d s' :
  DexInv s -> swap_with_exact_supply s (AUser w) ai mo path to d = Ok s' -> DexInv s'.
Proof.
  intros Hi Hs. unfold swap_with_exact_supply in Hs. inv_ok.
  destruct path as [|x [|y rest]]; try discriminate. destruct v as [|a0 ar]; [discriminate|].
  inv_ok. eapply inv_swap_loop; [|eassumption]. eapply inv_transfer; eassumption.
Qed.
Lemma inv_swap_target s w ai mo path to d s' :
  DexInv s -> swap_with_exact_target s (AUser w) ai mo path to d = Ok s' -> DexInv s'.
Proof.
  intros Hi Hs. unfold swap_with_exact_target in Hs. inv_ok.
  destruct path as [|x [|y rest]]; try discriminate. destruct v as [|a0 ar]; [discriminate|].
  inv_ok. eapply inv_swap_loop; [|eassumption]. eapply inv_transfer; eassumption.
Qed.

Lemma inv_add s w a b da db ma mb to d s' r :
  DexInv s -> add_liquidity s (AUser w) a b da db ma mb to d = Ok (s', r) -> DexInv s'.
Proof.
  intros Hi Hs. destruct r as [[am0 am1] liq].
  destruct (add_liquidity_spec _ _ _ _ _ _ _ _ _ _ _ _ _ _ Hs (di_books s Hi))
    as (i & x0 & x1 & l1 & l2 & l3 & He).
  set (p := pair_of a b) in *.
  destruct He as [Hsort Hlp Hft Ht1 Ht2 Ham0 Ham1 Hfirst Hliq Hpos Hmint Hres Hlk].
  assert (Hb1 : books l1) by (eapply transfer_books; [eassumption|apply Hi]).
  assert (Hb2 : books l2) by (eapply transfer_books; eassumption).
  assert (Hiss2 : forall c, issuance l2 c = issuance (lg s) c).
  { intros c. rewrite (transfer_issuance _ _ _ _ _ _ c Ht2). apply (transfer_issuance _ _ _ _ _ _ c Ht1). }
  assert (Hm2 : forall c y, (forall n, y <> AUser n) -> balance (lg s) c y <= balance l2 c y).
  { intros c y Hy. etransitivity.
    - eapply transfer_mono; [exact Ht1|]. apply Hy.
    - eapply transfer_mono; [exact Ht2|]. apply Hy. }
  assert (Hm3 : forall c y, balance l2 c y <= balance l3 c y).
  { intros c y. destruct Hliq as [(_ & Hm & _)|(_ & -> & _)]; [eapply mint_mono; eassumption|lia]. }
  assert (Hm4 : forall c y, balance l3 c y <= balance (lg s') c y).
  { intros. eapply mint_mono; eassumption. }
  assert (Hb3 : books l3).
  { destruct Hliq as [(_ & Hm & _)|(_ & -> & _)]; [eapply mint_books; eassumption|exact Hb2]. }
  (* the LP token is not one of the pair's tokens *)
  assert (Hin : i < next_asset s' /\ i <> fst p /\ i <> snd p).
  { destruct Hlp as [(Hl & _ & Hn)|(Hl & Hieq & _ & Hn)].
    - rewrite Hn. pose proof (di_some s Hi p i Hl). tauto.
    - rewrite Hn. split; [lia|].
      pose proof (di_none s Hi p Hl) as Hz. rewrite Hz in Hfirst. cbn in Hfirst.
      destruct Hfirst as [Hx0 Hx1]; [auto|].
      apply transfer_spec in Ht1. destruct Ht1 as (Hle1 & _ & Hbal1).
      apply transfer_spec in Ht2. destruct Ht2 as (Hle2 & _ & _).
      assert (Hf : forall y, balance (lg s) i y = 0).
      { intros y. apply fresh_balance; [exact Hi|lia]. }
      split; intros E.
      + rewrite <- E, Hf in Hle1. lia.
      + specialize (Hbal1 (snd p) (AUser w)).
        destruct (decide ((fst p, AUser w) = (snd p, AUser w))) as [E'|E']; [injection E'; lia|].
        destruct (decide ((fst p, pool_addr p) = (snd p, AUser w))) as [E''|E'']; [discriminate|].
        rewrite <- E, Hf in Hbal1. rewrite <- E in Hle2. lia. }
  destruct Hin as (Hin & Hi0 & Hi1).
  assert (Hlpi : lp s' !! p = Some i).
  { destruct Hlp as [(Hl & -> & _)|(_ & _ & -> & _)]; [exact Hl|apply lookup_insert]. }
  assert (Hlpo : forall q, q <> p -> lp s' !! q = lp s !! q).
  { intros q Hq. destruct Hlp as [(_ & -> & _)|(_ & _ & -> & _)]; [reflexivity|].
    apply lookup_insert_ne. congruence. }
  assert (Hnx : next_asset s <= next_asset s').
  { destruct Hlp as [(_ & _ & ->)|(_ & _ & _ & ->)]; lia. }
  assert (Hbs' : books (lg s')) by (eapply mint_books; eassumption).
  assert (Hburn : MIN_LIQ <= balance (lg s') i ABurn).
  { etransitivity; [|apply Hm4]. destruct Hliq as [(_ & Hm & _)|(Hz & -> & _)].
    - pose proof (mint_spec _ _ _ _ _ Hm) as (_ & _ & Hb & _). rewrite Hb.
      destruct (decide ((i, ABurn) = (i, ABurn))); [lia|congruence].
    - etransitivity; [|apply Hm2; discriminate].
      destruct Hlp as [(Hl & _)|(Hl & Hieq & _)].
      + apply (di_live s Hi p i Hl).
      + exfalso. apply Hz. rewrite Hiss2. apply Hi. lia. }
  split.
  - exact Hbs'.
  - intros c Hc. pose proof (mint_spec _ _ _ _ _ Hmint) as (_ & Hs4 & _ & _). rewrite Hs4.
    destruct (N.eqb_spec i c); [lia|]. 
    destruct Hliq as [(_ & Hm & _)|(_ & -> & _)].
    + pose proof (mint_spec _ _ _ _ _ Hm) as (_ & Hs3 & _ & _). rewrite Hs3.
      destruct (N.eqb_spec i c); [lia|]. rewrite Hiss2, (di_fresh s Hi c) by lia. reflexivity.
    + rewrite Hiss2, (di_fresh s Hi c) by lia. reflexivity.
  - intros q Hq. destruct (decide (q = p)) as [->|Hqp]; [congruence|].
    rewrite Hlpo in Hq by exact Hqp. rewrite Hres. destruct (decide (p = q)); [congruence|].
    apply Hi. exact Hq.
  - intros q j Hq. destruct (decide (q = p)) as [->|Hqp].
    + rewrite Hlpi in Hq. injection Hq as <-. auto.
    + rewrite Hlpo in Hq by exact Hqp. pose proof (di_some s Hi q j Hq). intuition lia.
  - intros q q' j Hq Hq'. 
    assert (Hold : forall r k, r <> p -> lp s' !! r = Some k -> k <> i).
    { intros r k Hr Hk ->. rewrite Hlpo in Hk by exact Hr.
      destruct Hlp as [(Hl & _)|(_ & Hieq & _)].
      - apply Hr. eapply (di_inj s Hi); eassumption.
      - pose proof (di_some s Hi r i Hk). lia. }
    destruct (decide (q = p)) as [->|Hqp], (decide (q' = p)) as [->|Hqp']; auto.
    + rewrite Hlpi in Hq. injection Hq as <-. exfalso. exact (Hold q' i Hqp' Hq' eq_refl).
    + rewrite Hlpi in Hq'. injection Hq' as <-. exfalso. exact (Hold q i Hqp Hq eq_refl).
    + rewrite Hlpo in Hq, Hq' by assumption. eapply (di_inj s Hi); eassumption.
  - intros q. rewrite Hres. destruct (decide (p = q)) as [<-|Hpq].
    + cbn [fst snd]. split; (etransitivity; [apply Hm3|apply Hm4]).
    + pose proof (di_backed s Hi q) as [H0 H1].
      pose proof (Hm2 (fst q) (pool_addr q) ltac:(discriminate)).
      pose proof (Hm2 (snd q) (pool_addr q) ltac:(discriminate)).
      pose proof (Hm3 (fst q) (pool_addr q)). pose proof (Hm4 (fst q) (pool_addr q)).
      pose proof (Hm3 (snd q) (pool_addr q)). pose proof (Hm4 (snd q) (pool_addr q)). lia.
  - intros q j Hq. rewrite Hres. destruct (decide (p = q)) as [<-|Hpq].
    + rewrite Hlpi in Hq. injection Hq as <-. cbn [fst snd]. split; [|split; [|exact Hburn]].
      * destruct Hliq as [(_ & _ & Hsq)|(_ & _ & _ & _ & Hnz & _)]; [|lia].
        assert (0 < am0); [|lia]. destruct (N.eq_0_gt_0_cases am0) as [->|]; [|assumption].
        rewrite N.mul_0_l in Hsq. change (N.sqrt 0) with 0 in Hsq. unfold MIN_LIQ in Hsq. lia.
      * destruct Hliq as [(_ & _ & Hsq)|(_ & _ & _ & _ & _ & Hnz)]; [|lia].
        assert (0 < am1); [|lia]. destruct (N.eq_0_gt_0_cases am1) as [->|]; [|assumption].
        rewrite N.mul_0_r in Hsq. change (N.sqrt 0) with 0 in Hsq. unfold MIN_LIQ in Hsq. lia.
    + rewrite Hlpo in Hq by congruence. pose proof (di_live s Hi q j Hq) as (H0 & H1 & H2).
      pose proof (Hm2 j ABurn ltac:(discriminate)). pose proof (Hm3 j ABurn). pose proof (Hm4 j ABurn). lia.
Qed.

(** Floors of a share strictly below the whole leave something. *)
Lemma share_leaves am liq b ts : ts <> 0 -> am * ts <= liq * b -> liq < ts -> 0 < b -> am < b.
Proof. intros. nia. Qed.

Lemma inv_remove s w a b lq ma mb to d s' r :
  DexInv s -> remove_liquidity s (AUser w) a b lq ma mb to d = Ok (s', r) -> DexInv s'.
Proof.
  intros Hi Hs. destruct r as [am0 am1].
  destruct (remove_liquidity_spec _ _ _ _ _ _ _ _ _ _ _ _ Hs (di_books s Hi))
    as (i & liq & l1 & l2 & l3 & He).
  set (p := pair_of a b) in *.
  destruct He as [Hsort Hlp Hf Ht1 Hliq Hts Ham0 Ham1 Hpos Hburn Ht2 Ht3 Hres Hlk].
  destruct Hf as (Hlpeq & _ & Hft & Hnx & _ & _).
  pose proof (di_some s Hi p i Hlp) as (Hilt & Hi0 & Hi1 & _).
  assert (Hb1 : books l1) by (eapply transfer_books; [eassumption|apply Hi]).
  pose proof (burn_spec _ _ _ _ _ Hburn Hb1) as (Hble & Hbi & Hbb & _).
  assert (Hb2 : books l2) by (eapply burn_books; eassumption).
  assert (Hb3 : books l3) by (eapply transfer_books; eassumption).
  assert (Hb4 : books (lg s')) by (eapply transfer_books; eassumption).
  (* balances that never fall *)
  assert (Hmono : forall c y, (forall n, y <> AUser n) -> y <> pool_addr p ->
            balance (lg s) c y <= balance (lg s') c y).
  { intros c y Hy Hyp. 
    pose proof (transfer_mono _ _ _ _ _ _ c y Ht1 (Hy w)).
    pose proof (transfer_mono _ _ _ _ _ _ c y Ht2 Hyp).
    pose proof (transfer_mono _ _ _ _ _ _ c y Ht3 Hyp).
    pose proof (Hbb c y). destruct (decide ((i, pool_addr p) = (c, y))); [congruence|]. lia. }
  (* the burned amount leaves the locked liquidity *)
  assert (Hlt : liq < issuance l1 i).
  { destruct (Hb1 i) as [<- _].
    pose proof (balance_two l1 i (pool_addr p) ABurn ltac:(discriminate)).
    pose proof (di_live s Hi p i Hlp) as (_ & _ & HB).
    pose proof (transfer_mono _ _ _ _ _ _ i ABurn Ht1 ltac:(discriminate)).
    unfold MIN_LIQ in HB. lia. }
  (* pool balances *)
  assert (Hx0 : balance l1 (fst p) (pool_addr p) <= balance (lg s') (fst p) (pool_addr p) + am0 /\
                0 < balance (lg s') (fst p) (pool_addr p)).
  { pose proof (Hbb (fst p) (pool_addr p)) as Hq.
    destruct (decide ((i, pool_addr p) = (fst p, pool_addr p))) as [E|_]; [injection E; lia|].
    pose proof (transfer_spec _ _ _ _ _ _ Ht2) as (_ & _ & Hq2). specialize (Hq2 (fst p) (pool_addr p)).
    destruct (decide ((fst p, pool_addr p) = (fst p, pool_addr p))) as [_|E]; [|congruence].
    pose proof (transfer_mono_asset _ _ _ _ _ _ (fst p) (pool_addr p) Ht3 ltac:(lia)).
    pose proof (di_live s Hi p i Hlp) as (Hr0 & _ & _). pose proof (di_backed s Hi p) as [Hbk _].
    pose proof (transfer_mono _ _ _ _ _ _ (fst p) (pool_addr p) Ht1 ltac:(discriminate)).
    pose proof (share_leaves am0 liq (balance l1 (fst p) (pool_addr p)) (issuance l1 i) Hts Ham0 Hlt).
    destruct (decide ((fst p, to) = (fst p, pool_addr p))); lia. }
  assert (Hx1 : balance l1 (snd p) (pool_addr p) <= balance (lg s') (snd p) (pool_addr p) + am1 /\
                0 < balance (lg s') (snd p) (pool_addr p)).
  { pose proof (Hbb (snd p) (pool_addr p)) as Hq.
    destruct (decide ((i, pool_addr p) = (snd p, pool_addr p))) as [E|_]; [injection E; lia|].
    pose proof (transfer_spec _ _ _ _ _ _ Ht3) as (_ & _ & Hq2). specialize (Hq2 (snd p) (pool_addr p)).
    destruct (decide ((snd p, pool_addr p) = (snd p, pool_addr p))) as [_|E]; [|congruence].
    pose proof (transfer_mono_asset _ _ _ _ _ _ (snd p) (pool_addr p) Ht2 ltac:(lia)).
    pose proof (di_live s Hi p i Hlp) as (_ & Hr0 & _). pose proof (di_backed s Hi p) as [_ Hbk].
    pose proof (transfer_mono _ _ _ _ _ _ (snd p) (pool_addr p) Ht1 ltac:(discriminate)).
    pose proof (share_leaves am1 liq (balance l1 (snd p) (pool_addr p)) (issuance l1 i) Hts Ham1 Hlt).
    destruct (decide ((snd p, to) = (snd p, pool_addr p))); lia. }
  split.
  - exact Hb4.
  - intros c Hc. rewrite Hnx in Hc. rewrite (transfer_issuance _ _ _ _ _ _ c Ht3).
    rewrite (transfer_issuance _ _ _ _ _ _ c Ht2). specialize (Hbi c).
    rewrite (transfer_issuance _ _ _ _ _ _ c Ht1), (di_fresh s Hi c Hc) in Hbi.
    destruct (i =? c); lia.
  - intros q Hq. rewrite Hlpeq in Hq. rewrite Hres. destruct (decide (p = q)) as [<-|]; [congruence|].
    apply Hi. exact Hq.
  - rewrite Hlpeq, Hnx. apply Hi.
  - rewrite Hlpeq. apply Hi.
  - intros q. rewrite Hres. destruct (decide (p = q)) as [<-|Hpq]; [cbn; lia|].
    pose proof (di_backed s Hi q) as [H0 H1].
    assert (Hqq : pool_addr q <> pool_addr p) by (intros E; apply pool_addr_inj in E; congruence).
    pose proof (Hmono (fst q) (pool_addr q) ltac:(discriminate) Hqq).
    pose proof (Hmono (snd q) (pool_addr q) ltac:(discriminate) Hqq). lia.
  - intros q j Hq. rewrite Hlpeq in Hq. pose proof (di_live s Hi q j Hq) as (H0 & H1 & H2).
    pose proof (Hmono j ABurn ltac:(discriminate) ltac:(discriminate)).
    rewrite Hres. destruct (decide (p = q)) as [<-|Hpq]; cbn [fst snd]; lia.
Qed.

Lemma inv_set_enabled s p v : DexInv s -> DexInv (set_enabled s p v).
Proof. intros []; split; assumption. Qed.

Lemma is_lp_false s a : is_lp s a = false -> forall p i, lp s !! p = Some i -> i <> a.
Proof.
  unfold is_lp. intros He p i Hp ->.
  assert (Ht : existsb (fun e => snd e =? a) (map_to_list (lp s)) = true); [|congruence].
  apply existsb_exists. exists (p, a). split; [|cbn; apply N.eqb_refl].
  apply elem_of_list_In, elem_of_map_to_list. exact Hp.
Qed.

Lemma step_inv s o : DexInv s -> DexInv (step s o).
Proof.
  intros Hi. destruct o; cbn [step].
  - destruct (swap_with_exact_supply _ _ _ _ _ _ _) eqn:E; cbn; [|exact Hi].
    eapply inv_swap_supply; eassumption.
  - destruct (swap_with_exact_target _ _ _ _ _ _ _) eqn:E; cbn; [|exact Hi].
    eapply inv_swap_target; eassumption.
  - destruct (add_liquidity _ _ _ _ _ _ _ _ _ _) as [[s' r]|] eqn:E; [|exact Hi].
    eapply inv_add; eassumption.
  - destruct (remove_liquidity _ _ _ _ _ _ _ _ _) as [[s' r]|] eqn:E; [|exact Hi].
    eapply inv_remove; eassumption.
  - destruct Hi; split; assumption.
  - cbv zeta. destruct (lp s !! pair_of a b); [|exact Hi]. destruct (is_enabled _ _); [exact Hi|].
    apply inv_set_enabled; exact Hi.
  - cbv zeta. destruct (lp s !! pair_of a b); [|exact Hi]. destruct (is_enabled _ _); [|exact Hi].
    apply inv_set_enabled; exact Hi.
  - destruct (transfer _ _ _ _ _) eqn:E; [|exact Hi]. eapply inv_transfer; eassumption.
  - split; cbn; try apply Hi.
    + intros. apply Hi. lia.
    + intros p i Hp. pose proof (di_some s Hi p i Hp). intuition lia.
  - destruct (_ && _) eqn:Eb; [|exact Hi]. destruct (mint _ _ _ _) eqn:E; [|exact Hi].
    eapply inv_mint; [exact Hi| |eassumption]. lia.
  - destruct Hi; split; assumption.
Qed.

Theorem run_dex_inv ops s : DexInv s -> DexInv (run step ops s).
Proof. apply run_inv. intros; apply step_inv; assumption. Qed.
