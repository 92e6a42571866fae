(** NFI properties: C54, C88, C89. *)
From Verif Require Import LedgerProofs NftProofs NftProps MarketProps NfiModel.

(** Who gets what when [total] is charged to [who]: [net] to the pot (the given share, rounded to
    the nearest unit, when a pot is set) and the rest to the receiver. *)
Definition charged (pct : N) (l l' : ledger N) (asset who : N) (pot : option N) (recv total : N) : Prop :=
  iss l' = iss l /\
  match pot with
  | None => forall b y, balance l' b y + (if decide ((asset, who) = (b, y)) then total else 0)
                      = balance l b y + (if decide ((asset, recv) = (b, y)) then total else 0)
  | Some p => exists net rest, net + rest = total /\ nearest pct total net /\
      forall b y, balance l' b y + (if decide ((asset, who) = (b, y)) then total else 0)
                = balance l b y + (if decide ((asset, p) = (b, y)) then net else 0)
                                + (if decide ((asset, recv) = (b, y)) then rest else 0)
  end.

Section props.
  Variables cap mint_limit pallet chain pct : N.
  Hypothesis Hpct : pct <= ACC.
  Notation fstep := (fstep cap mint_limit pallet chain pct).
  Notation pay_mint_fee := (pay_mint_fee pct).

  Lemma pay_spec s who n s' : pay_mint_fee s who n = Ok s' ->
    exists l, s' = Nfi (f_nft s) (f_sft s) (f_sowner s) l (f_relayer s) (f_fee s) (f_to s) (f_on s) (f_data s) (f_req s) /\
    match f_fee s with
    | None => l = f_led s
    | Some (asset, amount, recv) => charged pct (f_led s) l asset who (f_to s) recv (N.min (n * amount) U128MAX)
    end.
  Proof.
    unfold NfiModel.pay_mint_fee. destruct (f_fee s) as [[[asset amount] recv]|] eqn:Ef.
    2:{ intros [= <-]. exists (f_led s). split; [|reflexivity]. rewrite <- Ef. destruct s; reflexivity. }
    intros H. cbv zeta in H. unfold sat in H. set (total := N.min (n * amount) U128MAX) in *.
    destruct (f_to s) as [pot|] eqn:Et.
    - destruct (transfer (f_led s) asset who pot (permill_mul pct total)) as [l1|] eqn:E1; [|discriminate].
      cbn [rbind fst snd] in H. destruct (transfer l1 asset who recv (total - permill_mul pct total)) as [l2|] eqn:E2; [|discriminate].
      cbn [rbind] in H. apply Ok_inj in H. exists l2. split; [symmetry; exact H|].
      apply LedgerProofs.transfer_spec in E1, E2. destruct E1 as (_ & I1 & B1). destruct E2 as (_ & I2 & B2).
      split; [congruence|]. pose proof (permill_le pct total Hpct) as Hle. pose proof (permill_near pct total) as [Hn _].
      exists (permill_mul pct total), (total - permill_mul pct total). set (net := permill_mul pct total) in *.
      split; [lia|]. split; [exact Hn|]. clear Hn H. clearbody net. intros b y. specialize (B1 b y). specialize (B2 b y).
      destruct (decide ((asset, who) = (b, y))), (decide ((asset, pot) = (b, y))), (decide ((asset, recv) = (b, y))); lia.
    - cbn [rbind fst snd] in H. destruct (transfer (f_led s) asset who recv total) as [l2|] eqn:E2; [|discriminate].
      cbn [rbind] in H. apply Ok_inj in H. exists l2. split; [symmetry; exact H|].
      apply LedgerProofs.transfer_spec in E2. destruct E2 as (_ & I2 & B2). split; [exact I2|]. exact B2.
  Qed.

  (** C54: the charge is exact, whatever the count, the fee and the percentage.  Full statement:
      without the bound on the product; refuted below. *)
  Theorem C54_exact_partial s who n s' asset amount recv :
    pay_mint_fee s who n = Ok s' -> f_fee s = Some (asset, amount, recv) -> n * amount <= U128MAX ->
    charged pct (f_led s) (f_led s') asset who (f_to s) recv (n * amount).
  Proof.
    intros H Hf Hm. destruct (pay_spec _ _ _ _ H) as (l & -> & Hl). rewrite Hf in Hl. rewrite N.min_l in Hl by exact Hm. exact Hl.
  Qed.

  (** Requests made by a step: the same account asked for all of them, and the fee it was charged
      is the fee for that many. *)
  Definition asked (s s' : nfi) : Prop :=
    exists who ts, f_req s' = f_req s ++ map (fun t => (who, t)) ts /\
      match f_fee s with
      | Some (asset, amount, recv) =>
          (ts = [] /\ f_led s' = f_led s) \/
          charged pct (f_led s) (f_led s') asset who (f_to s) recv (N.min (N.of_nat (length ts) * amount) U128MAX)
      | None => f_led s' = f_led s
      end.
  Lemma asked_none s s' : f_req s' = f_req s -> f_led s' = f_led s -> asked s s'.
  Proof.
    intros Hr Hl. exists 0, []. cbn [map]. rewrite app_nil_r. split; [exact Hr|].
    destruct (f_fee s) as [[[? ?] ?]|]; [left; auto|exact Hl].
  Qed.
  Lemma request_asked s who c ns s' : NfiModel.request chain pct s who c ns = Ok s' ->
    (exists l, s' = Nfi (f_nft s) (f_sft s) (f_sowner s) l (f_relayer s) (f_fee s) (f_to s) (f_on s) (f_data s) (f_req s')) /\
    asked s s' /\ (enabled chain s (GU32 c) = true -> f_req s' = f_req s ++ map (fun n => (who, trn chain c n)) ns).
  Proof.
    unfold NfiModel.request. destruct (enabled chain s (GU32 c)).
    - intros H. destruct (pay_mint_fee s who (N.of_nat (length ns))) as [s1|] eqn:Ep; [|discriminate]. cbn [rbind] in H.
      apply Ok_inj in H. subst s'. destruct (pay_spec _ _ _ _ Ep) as (l & -> & Hl). split; [|split].
      + exists l. reflexivity.
      + exists who, (map (trn chain c) ns). split; [reflexivity|]. cbn. rewrite map_length.
        destruct (f_fee s) as [[[? ?] ?]|]; [right|]; exact Hl.
      + intros _. cbn. rewrite map_map. reflexivity.
    - intros [= <-]. split; [exists (f_led s); destruct s; reflexivity|]. split; [apply asked_none; reflexivity|discriminate].
  Qed.

  (** C54 for whole operations: every step charges its requests and nothing else. *)
  Theorem C54_requests s o : (forall l, o <> FLedger l) -> asked s (fstep s o).
  Proof.
    intros Hno. destruct o as [n|who c|who c|who c|who t|who t d|r|t|f|l]; cbn [NfiModel.fstep].
    - unfold nft_op. destruct (nexec cap mint_limit pallet (f_nft s) n) as [x|]; cbn [rbind commit]; [|apply asked_none; reflexivity].
      assert (Hq : asked s (with_nft s x)) by (apply asked_none; reflexivity).
      destruct n as [id owner i m to r|who c q to e|owner c ns|who c ns to|who c n|caller c from to n|caller c n|who c m|who c new|c new|who c p m t b|who c n lid|c n|caller op c n|who c n|caller op c b]; cbn [commit]; try exact Hq.
      destruct (colls (f_nft s) !! c) as [i|]; cbn [commit]; [|exact Hq].
        destruct (NfiModel.request chain pct (with_nft s x) who c (serials (c_next i) q)) as [s'|] eqn:Er; cbn [commit];
          [|apply asked_none; reflexivity].
        destruct (request_asked _ _ _ _ _ Er) as (_ & Ha & _). exact Ha.
    - unfold sft_create. destruct (bool_decide _); cbn; apply asked_none; reflexivity.
    - unfold sft_token. destruct (f_sowner s !! c) as [o|]; cbn [of_opt rbind commit]; [|apply asked_none; reflexivity].
      destruct (who =? fst o); cbn [ensure rbind commit]; [|apply asked_none; reflexivity].
      destruct (chk_add U32MAX (snd o) 1) as [next|]; cbn [of_opt rbind commit]; [|apply asked_none; reflexivity].
      destruct (NfiModel.request chain pct s who c [snd o]) as [s1|] eqn:Er; cbn [rbind commit]; [|apply asked_none; reflexivity].
      destruct (request_asked _ _ _ _ _ Er) as (_ & Ha & _). exact Ha.
    - unfold enable. destruct (is_collection_owner s c who); cbn; apply asked_none; reflexivity.
    - unfold manual. destruct t as [[ch gc] gs].
      match goal with |- asked s (commit s (rbind ?r _)) => destruct r as [[]|] end; cbn [rbind commit]; [|apply asked_none; reflexivity].
      destruct (pay_mint_fee s who 1) as [s1|] eqn:Ep; cbn [rbind commit]; [|apply asked_none; reflexivity].
      destruct (pay_spec _ _ _ _ Ep) as (l & -> & Hl). exists who, [(ch, gc, gs)]. split; [reflexivity|]. cbn.
      destruct (f_fee s) as [[[? ?] ?]|]; [right|]; exact Hl.
    - unfold submit. destruct t as [[ch gc] gs]. destruct (bool_decide _); cbn [ensure rbind commit]; [|apply asked_none; reflexivity].
      match goal with |- asked s (commit s (rbind ?r _)) => destruct r as [[]|] end; cbn [rbind commit]; apply asked_none; reflexivity.
    - apply asked_none; reflexivity.
    - apply asked_none; reflexivity.
    - unfold set_fee. destruct f as [[[? ?] ?]|]; cbn; [destruct (negb _); cbn|]; apply asked_none; reflexivity.
    - exfalso. eapply Hno. reflexivity.
  Qed.

  (** C88: NFI data of this chain's tokens belongs to tokens that exist. *)
  Definition alive (s : nfi) (t : mtoken) : Prop :=
    exists c n, t = trn chain c n /\ ((exists y, owner_of (f_nft s) c n = Some y) \/ is_Some (f_sft s !! (c, n))).
  Definition tidy (s : nfi) : Prop :=
    WF (f_nft s) /\ forall t d, f_data s !! t = Some d -> fst (fst t) = chain -> alive s t.
  Definition fgood (s : nfi) (o : fop) : Prop := match o with FNft n => good (f_nft s) n | _ => True end.

  Lemma alive_mono s s' t : (forall c n y, owner_of (f_nft s) c n = Some y -> exists y', owner_of (f_nft s') c n = Some y') ->
    (forall k, is_Some (f_sft s !! k) -> is_Some (f_sft s' !! k)) -> alive s t -> alive s' t.
  Proof. intros H1 H2 (c & n & -> & [[y Hy]|Hs]); exists c, n; (split; [reflexivity|]); [left; eauto|right; eauto]. Qed.
  Lemma tidy_same s s' : f_nft s' = f_nft s -> f_data s' = f_data s -> (forall k, is_Some (f_sft s !! k) -> is_Some (f_sft s' !! k)) -> tidy s -> tidy s'.
  Proof.
    intros En Ed Es [Hw Ht]. split; [rewrite En; exact Hw|]. intros t d Hd Hc. rewrite Ed in Hd.
    eapply alive_mono; [|exact Es|eapply Ht; eassumption]. rewrite En. eauto.
  Qed.
  Lemma request_same s who c ns s' : NfiModel.request chain pct s who c ns = Ok s' ->
    f_nft s' = f_nft s /\ f_data s' = f_data s /\ f_sft s' = f_sft s.
  Proof. intros H. destruct (request_asked _ _ _ _ _ H) as ([l ->] & _). auto. Qed.

  Lemma step_tidy s o : fgood s o -> tidy s -> tidy (fstep s o).
  Proof.
    intros Hg Ht. pose proof Ht as [Hw Hd].
    destruct o as [n|who c|who c|who c|who t|who t d|r|t|f|l]; cbn [NfiModel.fstep fgood] in *;
      try (apply (tidy_same s); [reflexivity|reflexivity|auto|exact Ht]).
    - unfold nft_op. destruct (nexec cap mint_limit pallet (f_nft s) n) as [x|] eqn:Ex; cbn [rbind commit]; [|exact Ht].
      assert (Hx : x = nstep cap mint_limit pallet (f_nft s) n) by (unfold nstep; rewrite Ex; reflexivity).
      pose proof (step_WF cap mint_limit pallet (f_nft s) n Hg Hw) as Hw'. rewrite <- Hx in Hw'.
      pose proof (step_effect cap mint_limit pallet (f_nft s) n Hw Hg) as He. rewrite <- Hx in He.
      (* a token that disappears was named by a burn *)
      assert (Hkeep : forall c m y, owner_of (f_nft s) c m = Some y ->
        (exists y', owner_of x c m = Some y') \/ ((exists w, n = NBurn w c m) \/ (exists w, n = NBurnFrom w c m))).
      { intros c m y Hy. destruct (owner_of x c m) as [y'|] eqn:Ey; [left; eauto|]. right.
        assert (Hch : owner_of (nstep cap mint_limit pallet (f_nft s) n) c m <> Some y) by (rewrite <- Hx; congruence).
        apply owner_owns in Hy; [|exact Hw]. pose proof (proj1 (owner_none x c m Hw') Ey) as Hnone. clear Hch Ey.
        destruct He as [(_ & Hq & _) _ _ _|c0 ns from to _ _ _ Hs _ _ _ _ _|c0 n0 who _ _ _ Hs _ _ _ _ Hop|c0 to P _ Hs _ _ _ _ _ _ _ _].
        - exfalso. apply (Hnone y). apply Hq. exact Hy.
        - exfalso. destruct (decide (c = c0 /\ m ∈ ns)) as [Hin|Hin].
          + apply (Hnone to). apply Hs. rewrite decide_True by exact Hin. reflexivity.
          + apply (Hnone y). apply Hs. rewrite decide_False by exact Hin. exact Hy.
        - destruct (decide (c = c0 /\ m = n0)) as [[-> ->]|Hin].
          + destruct Hop as [->|(caller & -> & _)]; eauto.
          + exfalso. apply (Hnone y). apply Hs. rewrite decide_False by exact Hin. exact Hy.
        - exfalso. apply (Hnone y). apply Hs. left. exact Hy. }
      assert (Hq : (forall c m w, n <> NBurn w c m /\ n <> NBurnFrom w c m) -> tidy (with_nft s x)).
      { intros Hnb. split; [exact Hw'|]. intros t d Hdt Hc. eapply alive_mono; [| |eapply Hd; eassumption]; [|auto].
        intros c m y Hy. destruct (Hkeep c m y Hy) as [H|[[w H]|[w H]]]; [exact H| |]; exfalso; destruct (Hnb c m w) as [N1 N2]; contradiction. }
      assert (Hb : forall c0 n0 w, n = NBurn w c0 n0 \/ n = NBurnFrom w c0 n0 -> tidy (on_burn chain (with_nft s x) c0 n0)).
      { intros c0 n0 w Hn. split; [exact Hw'|]. intros t d Hdt Hc. cbn [on_burn with_data f_data] in Hdt.
        apply lookup_delete_Some in Hdt. destruct Hdt as [Hne Hdt]. specialize (Hd t d Hdt Hc).
        destruct Hd as (c & m & -> & [[y Hy]|Hs]); exists c, m; (split; [reflexivity|]); [|right; exact Hs]. left.
        destruct (Hkeep c m y Hy) as [H|[[w' H]|[w' H]]]; [exact H| |]; exfalso; apply Hne; destruct Hn as [-> | ->]; congruence. }
      destruct n as [id owner i m to r|who c q to e|owner c ns|who c ns to|who c n|caller c from to n|caller c n|who c m|who c new|c new|who c p m t b|who c n lid|c n|caller op c n|who c n|caller op c b]; cbn [commit];
        try (apply Hq; intros; split; discriminate).
      + destruct (colls (f_nft s) !! c) as [i|]; cbn [commit]; [|apply Hq; intros; split; discriminate].
        destruct (NfiModel.request chain pct (with_nft s x) who c (serials (c_next i) q)) as [s'|] eqn:Er; cbn [commit]; [|exact Ht].
        apply request_same in Er. destruct Er as (E1 & E2 & E3). apply (tidy_same (with_nft s x)); [exact E1|exact E2|rewrite E3; auto|].
        apply Hq. intros; split; discriminate.
      + eapply Hb. left. reflexivity.
      + eapply Hb. right. reflexivity.
    - unfold sft_create. destruct (bool_decide _); cbn [ensure rbind commit]; [|exact Ht]. apply (tidy_same s); [reflexivity|reflexivity|auto|exact Ht].
    - unfold sft_token. destruct (f_sowner s !! c) as [o|]; cbn [of_opt rbind commit]; [|exact Ht].
      destruct (who =? fst o); cbn [ensure rbind commit]; [|exact Ht].
      destruct (chk_add U32MAX (snd o) 1) as [next|]; cbn [of_opt rbind commit]; [|exact Ht].
      destruct (NfiModel.request chain pct s who c [snd o]) as [s1|] eqn:Er; cbn [rbind commit]; [|exact Ht].
      apply request_same in Er. destruct Er as (E1 & E2 & E3). apply (tidy_same s); [exact E1|exact E2| |exact Ht].
      intros k Hk. cbn [f_sft]. rewrite E3. destruct (decide ((c, snd o) = k)) as [<-|Hne]; [rewrite lookup_insert; eauto|].
      rewrite lookup_insert_ne by exact Hne. exact Hk.
    - unfold enable. destruct (is_collection_owner s c who); cbn [ensure rbind commit]; [|exact Ht]. apply (tidy_same s); [reflexivity|reflexivity|auto|exact Ht].
    - unfold manual. destruct t as [[ch gc] gs].
      match goal with |- tidy (commit s (rbind ?r _)) => destruct r as [[]|] end; cbn [rbind commit]; [|exact Ht].
      destruct (pay_mint_fee s who 1) as [s1|] eqn:Ep; cbn [rbind commit]; [|exact Ht].
      destruct (pay_spec _ _ _ _ Ep) as (l & -> & Hl). apply (tidy_same s); [reflexivity|reflexivity|auto|exact Ht].
    - unfold submit. destruct t as [[ch gc] gs]. destruct (bool_decide _); cbn [ensure rbind commit]; [|exact Ht].
      match goal with |- tidy (commit s (rbind ?r _)) => destruct r as [[]|] eqn:Er end; cbn [rbind commit]; [|exact Ht].
      split; [exact Hw|]. intros t d' Hdt Hc. cbn [with_data f_data] in Hdt.
      apply lookup_insert_Some in Hdt. destruct Hdt as [[<- <-]|[_ Hdt]]; [|exact (Hd t d' Hdt Hc)].
      cbn [fst] in Hc. subst ch. rewrite N.eqb_refl in Er. apply rbind_ok in Er. destruct Er as (u & _ & Er).
      destruct gc as [c|c], gs as [m|m]; try discriminate. apply ensure_ok in Er. unfold nfi_token_exists in Er.
      apply orb_true_iff in Er. exists c, m. split; [reflexivity|]. cbn [with_data f_nft f_sft].
      destruct Er as [Er|Er]; apply bool_decide_eq_true in Er; [left; exact Er|right; exact Er].
    - unfold set_fee. destruct f as [[[? ?] ?]|]; cbn [ensure rbind commit]; [destruct (negb _); cbn [ensure rbind commit]|]; try exact Ht;
        apply (tidy_same s); try reflexivity; auto.
  Qed.

  Theorem C88_data_exists ops : along fstep fgood ops finit ->
    forall gc gs d, f_data (run fstep ops finit) !! (chain, gc, gs) = Some d ->
    exists c n, gc = GU32 c /\ gs = GU32 n /\
      ((exists y, owner_of (f_nft (run fstep ops finit)) c n = Some y) \/ is_Some (f_sft (run fstep ops finit) !! (c, n))).
  Proof.
    intros Hal gc gs d Hd.
    assert (Ht : tidy (run fstep ops finit)).
    { eapply (run_along fstep fgood tidy); [|exact Hal|].
      - intros s o Hg Ht. apply step_tidy; assumption.
      - split; [intros c i Hi; cbn in Hi; rewrite lookup_empty in Hi; discriminate|]. intros t d' Hd'. cbn in Hd'. rewrite lookup_empty in Hd'. discriminate. }
    destruct Ht as [_ Ht]. destruct (Ht _ _ Hd eq_refl) as (c & n & [= -> ->] & H). eauto.
  Qed.

  (** Data appears or changes only by the relayer's hand. *)
  Theorem C88_relayer s o t d : f_data (fstep s o) !! t = Some d -> f_data s !! t = Some d \/
    exists who, o = FSubmit who t d /\ f_relayer s = Some who.
  Proof.
    intros H. destruct o as [n|who c|who c|who c|who t'|who t' d'|r|t'|f|l]; cbn [NfiModel.fstep] in H; try (left; exact H).
    - unfold nft_op in H. destruct (nexec cap mint_limit pallet (f_nft s) n) as [x|]; cbn [rbind commit] in H; [|left; exact H]. left.
      destruct n as [id owner i m to r|who c q to e|owner c ns|who c ns to|who c n|caller c from to n|caller c n|who c m|who c new|c new|who c p m t' b|who c n lid|c n|caller op c n|who c n|caller op c b]; cbn [commit] in H; try exact H.
      + destruct (colls (f_nft s) !! c) as [i|]; cbn [commit] in H; [|exact H].
        destruct (NfiModel.request chain pct (with_nft s x) who c (serials (c_next i) q)) as [s'|] eqn:Er; cbn [commit] in H; [|exact H].
        apply request_same in Er. destruct Er as (_ & E & _). rewrite E in H. exact H.
      + cbn in H. apply lookup_delete_Some in H. apply H.
      + cbn in H. apply lookup_delete_Some in H. apply H.
    - left. unfold sft_create in H. destruct (bool_decide _); exact H.
    - left. unfold sft_token in H. destruct (f_sowner s !! c) as [o|]; cbn [of_opt rbind commit] in H; [|exact H].
      destruct (who =? fst o); cbn [ensure rbind commit] in H; [|exact H].
      destruct (chk_add U32MAX (snd o) 1) as [next|]; cbn [of_opt rbind commit] in H; [|exact H].
      destruct (NfiModel.request chain pct s who c [snd o]) as [s1|] eqn:Er; cbn [rbind commit] in H; [|exact H].
      apply request_same in Er. destruct Er as (_ & E & _). cbn [f_data] in H. rewrite E in H. exact H.
    - left. unfold enable in H. destruct (is_collection_owner s c who); exact H.
    - left. unfold manual in H. destruct t' as [[ch gc] gs].
      match type of H with f_data (commit s (rbind ?r _)) !! _ = _ => destruct r as [[]|] end; cbn [rbind commit] in H; [|exact H].
      destruct (pay_mint_fee s who 1) as [s1|] eqn:Ep; cbn [rbind commit] in H; [|exact H].
      destruct (pay_spec _ _ _ _ Ep) as (l & -> & Hl). exact H.
    - unfold submit in H. destruct t' as [[ch gc] gs]. destruct (bool_decide_reflect (Some who = f_relayer s)) as [Hr|]; cbn [ensure rbind commit] in H; [|left; exact H].
      match type of H with f_data (commit s (rbind ?r _)) !! _ = _ => destruct r as [[]|] end; cbn [rbind commit] in H; [|left; exact H].
      cbn in H. apply lookup_insert_Some in H. destruct H as [[<- <-]|[_ H]]; [right; eauto|left; exact H].
    - left. unfold set_fee in H. destruct f as [[[? ?] ?]|]; cbn [ensure rbind commit] in H; [destruct (negb _)|]; exact H.
  Qed.

  (** C89 for the [mint] call: data is requested for every token that appears. *)
  Theorem C89_mint_call_partial s who c q to e :
    enabled chain s (GU32 c) = true -> WF (f_nft s) ->
    forall n y, owner_of (f_nft s) c n = None -> owner_of (f_nft (fstep s (FNft (NMint who c q to e)))) c n = Some y ->
      In (who, trn chain c n) (f_req (fstep s (FNft (NMint who c q to e)))).
  Proof.
    intros Hon Hw n y Hbefore Hafter. cbn [NfiModel.fstep] in *. unfold nft_op in *.
    destruct (nexec cap mint_limit pallet (f_nft s) (NMint who c q to e)) as [x|] eqn:Ex; cbn [rbind commit] in *; [|congruence].
    cbn [nexec] in Ex. pose proof Ex as Ex'. unfold NftModel.mint in Ex'.
    destruct (q <=? mint_limit); [|discriminate]. cbn [ensure rbind] in Ex'.
    destruct (colls (f_nft s) !! c) as [i|] eqn:Ec; [|discriminate]. cbn [of_opt rbind] in Ex'.
    destruct (NfiModel.request chain pct (with_nft s x) who c (serials (c_next i) q)) as [s'|] eqn:Er; cbn [commit] in *; [|congruence].
    destruct (request_asked _ _ _ _ _ Er) as ([l Hs'] & _ & Hreq). rewrite (Hreq Hon).
    apply in_app_iff. right. apply in_map_iff. exists n. split; [reflexivity|]. apply elem_of_list_In.
    assert (En : f_nft s' = x) by (rewrite Hs'; reflexivity). rewrite En in Hafter.
    destruct (NftProofs.mint_spec cap mint_limit (f_nft s) who c q to e x Hw Ex) as (i' & Hi' & Hm).
    rewrite Ec in Hi'. injection Hi' as <-.
    destruct Hm as (_ & _ & _ & _ & Hw' & Ho & _). apply owner_owns in Hafter; [|exact Hw']. apply Ho in Hafter.
    destruct Hafter as [Hold|(_ & _ & Hin)]; [|apply serials_elem; exact Hin].
    exfalso. pose proof (proj1 (owner_none (f_nft s) c n Hw) Hbefore y). contradiction.
  Qed.
End props.

Print Assumptions C54_exact_partial.
Print Assumptions C54_requests.
Print Assumptions C88_data_exists.
Print Assumptions C88_relayer.
Print Assumptions C89_mint_call_partial.

(** A concrete run: chain 7672, fee 1000 of asset 2 to account 50, network share 0.5% to account
    60; account 1 creates collection 5, enables NFI, mints three tokens; the relayer 9 writes data
    for token 1 and for token 2; token 1 is burned. *)
Local Notation ex_step := (fstep 100 100 999 7672 5000).
Definition ex_led : ledger N := Ledger {[ (2, 1) := 10000 ]} {[ 2 := 10000 ]}.
Definition ex_ops : list fop :=
  [FLedger ex_led; FFee (Some (2, 1000, 50)); FFeeTo (Some 60); FRelayer 9;
   FNft (NCreate 5 1 0 None 1 true); FEnable 1 5; FNft (NMint 1 5 3 1 true);
   FSubmit 9 (trn 7672 5 1) 77; FSubmit 9 (trn 7672 5 2) 78; FSubmit 9 (trn 7672 5 3) 79; FSubmit 8 (trn 7672 5 0) 80;
   FNft (NBurn 1 5 1)].
Example ex_run : let s := run ex_step ex_ops finit in
  along ex_step fgood ex_ops finit /\
  (balance (f_led s) 2 1, balance (f_led s) 2 50, balance (f_led s) 2 60) = (7000, 2985, 15) /\
  f_req s = map (fun n => (1, trn 7672 5 n)) [0; 1; 2] /\
  f_data s !! trn 7672 5 2 = Some 78 /\ f_data s !! trn 7672 5 1 = None /\ f_data s !! trn 7672 5 3 = None /\
  f_data s !! trn 7672 5 0 = None.
Proof. cbv zeta. split; [cbn [along ex_ops]; repeat split|]. vm_compute. repeat split. Qed.

(** C54 as stated is false for products beyond 2^128 - 1: two items at 2^127 each cost
    2^128 - 1 (lib.rs 325). *)
Theorem C54_saturated_refuted : exists s s' who amount,
  f_fee s = Some (2, amount, 50) /\ who <> 50 /\ f_to s = None /\
  pay_mint_fee 5000 s who 2 = Ok s' /\
  balance (f_led s) 2 who - balance (f_led s') 2 who <> 2 * amount.
Proof.
  exists (run ex_step [FLedger (Ledger {[ (2, 1) := U128MAX ]} {[ 2 := U128MAX ]}); FFee (Some (2, 2 ^ 127, 50))] finit).
  eexists. exists 1, (2 ^ 127). split; [vm_compute; reflexivity|]. split; [discriminate|]. split; [reflexivity|].
  split; [vm_compute; reflexivity|]. vm_compute. discriminate.
Qed.
Print Assumptions C54_saturated_refuted.

(** C89 as stated is false: tokens that arrive over the bridge in an enabled collection (and, in
    the code, those minted by crowdsales through [do_mint]) are not requested. *)
Theorem C89_bridged_refuted : exists ops s s',
  s = run ex_step ops finit /\ s' = ex_step s (FNft (NBridge 1 5 [4])) /\ enabled 7672 s (GU32 5) = true /\
  owner_of (f_nft s) 5 4 = None /\ owner_of (f_nft s') 5 4 = Some 1 /\ f_req s' = [].
Proof.
  exists [FNft (NCreate 5 1 0 None 1 false); FEnable 1 5]. eexists. eexists. split; [reflexivity|]. split; [reflexivity|].
  vm_compute. auto.
Qed.
Print Assumptions C89_bridged_refuted.
