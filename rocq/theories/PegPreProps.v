(** C158-C161: theorems about the bridge's EVM contract. *)
From Verif Require Import PegPreProofs.
From Verif Require PegModel NftPegModel NftPegProps PegTight.

(** The account pays [amt] of asset [a]: into the bridge's account for the chain's own currency, otherwise the amount
    ceases to exist.  Nobody else's balance, and no other asset, changes. *)
Definition pays (native pot : N) (l l' : ledger N) (a who amt : N) : Prop :=
  (forall b y, balance l' b y + (if bool_decide ((b, y) = (a, who)) then amt else 0)
             = balance l b y + (if (a =? native) && bool_decide ((b, y) = (native, pot)) then amt else 0)) /\
  (forall b, issuance l' b + (if (b =? a) && negb (a =? native) then amt else 0) = issuance l b).
(** The peg apart from its balances and its log of events. *)
Definition same_peg (p p' : PegModel.peg) : Prop :=
  PegModel.pblk p' = PegModel.pblk p /\ PegModel.e2a p' = PegModel.e2a p /\ PegModel.a2e p' = PegModel.a2e p /\
  PegModel.pcf p' = PegModel.pcf p /\ PegModel.pdl p' = PegModel.pdl p /\ PegModel.psch p' = PegModel.psch p /\
  PegModel.ready p' = PegModel.ready p /\ PegModel.pend p' = PegModel.pend p /\ PegModel.pnext p' = PegModel.pnext p /\
  PegModel.nexta p' = PegModel.nexta p.

Section props.
  Variables native pot maxready rd wr : N.
  Variables cap mint_limit pallet : N.
  Variables max_addr max_tok max_coll max_ser max_id : N.
  Variables nsrc max_data : N.
  Notation b_execute := (b_execute native pot max_coll max_ser nsrc max_data).
  Notation bstep := (bstep native pot maxready rd wr cap mint_limit pallet max_addr max_tok max_coll max_ser max_id nsrc max_data).
  Notation pstep := (PegModel.pstep native pot maxready rd wr).
  Notation gstep := (NftPegModel.gstep cap mint_limit pallet max_addr max_tok max_coll max_ser max_id).
  Notation withdraw := (NftPegModel.withdraw max_coll max_ser).
  Implicit Types s : bst.

  Lemma take_pays l a who amt l' : books l -> PegModel.burn_or_transfer native pot l a who amt = Ok l' -> amt <= balance l a who /\ pays native pot l l' a who amt.
  Proof.
    unfold PegModel.burn_or_transfer, pays. intros Hb H. destruct (N.eqb_spec a native) as [->|Hne].
    - destruct (transfer_spec _ _ _ _ _ _ H) as (H1 & _ & H3). split; [exact H1|]. split.
      + intros b y. specialize (H3 b y). cbn [andb].
        destruct (decide ((native, who) = (b, y))) as [E|E]; [rewrite (bool_decide_eq_true_2 ((b, y) = (native, who))) by congruence|rewrite (bool_decide_eq_false_2 ((b, y) = (native, who))) by congruence];
        (destruct (decide ((native, pot) = (b, y))) as [F|F]; [rewrite (bool_decide_eq_true_2 ((b, y) = (native, pot))) by congruence|rewrite (bool_decide_eq_false_2 ((b, y) = (native, pot))) by congruence]); exact H3.
      + intros b. rewrite andb_false_r, (transfer_issuance _ _ _ _ _ _ b H). lia.
    - destruct (burn_spec _ _ _ _ _ H Hb) as (H1 & H2 & H3 & _). split; [exact H1|]. split.
      + intros b y. specialize (H3 b y). cbn [andb]. rewrite N.add_0_r.
        destruct (decide ((a, who) = (b, y))) as [E|E]; [rewrite (bool_decide_eq_true_2 ((b, y) = (a, who))) by congruence|rewrite (bool_decide_eq_false_2 ((b, y) = (a, who))) by congruence]; exact H3.
      + intros b. specialize (H2 b). cbn [negb]. rewrite andb_true_r, N.eqb_sym. exact H2.
  Qed.
  Lemma take_ok l a who amt : books l -> amt <= balance l a who -> exists l', PegModel.burn_or_transfer native pot l a who amt = Ok l'.
  Proof.
    intros Hb Hle. unfold PegModel.burn_or_transfer. destruct (a =? native); [apply transfer_ok; assumption|].
    unfold burn. rewrite (proj2 (N.ltb_ge _ _) Hle). eauto.
  Qed.
  Lemma out_id s : numbered s -> out [tU] [VN (b_next s)] = word (b_next s).
  Proof. intros H. pose proof (next_small _ H). rewrite out_spec by (split; [apply wtU; lia|exact I]). reflexivity. Qed.

  (** * C158 *)
  Theorem C158_withdrawn ops first caller ben a amt s' o : let s := run bstep ops (binit first) in
    ben < 2 ^ 160 -> a <= U32MAX -> amt < 2 ^ 256 ->
    b_execute s caller false 0 (withdraw20 ben a amt) = Ok (s', o) ->
    pays native pot (PegModel.pbk (b_peg s)) (PegModel.pbk (b_peg s')) a caller amt /\
    same_peg (b_peg s) (b_peg s') /\ b_np s' = b_np s /\ b_nftpeg s' = b_nftpeg s /\
    exists token m, PegModel.a2e (b_peg s) !! a = Some token /\
      b_out s' = b_out s ++ [m] /\ mg_src m = pot /\
      mg_dst m = (if a =? native then PegModel.rootaddr (PegModel.pcf (b_peg s)) else PegModel.pegaddr (PegModel.pcf (b_peg s))) /\
      (token < 2 ^ 160 -> exists c, read_all [tA; tU; tA] (mg_data m) 0 = Ok ([VN token; VN amt; VN ben], c)) /\
      o = word (mg_id m) /\
      b_logs s' = b_logs s ++ [Elog 0x793 [H_Erc20Withdrawal; mg_id m; ben; erc20_at a] (word amt)].
  Proof.
    intros s H1 H2 H3 E. pose proof (books_run native pot maxready rd wr cap mint_limit pallet max_addr max_tok max_coll max_ser max_id nsrc max_data ops first) as Hb.
    pose proof (numbered_run native pot maxready rd wr cap mint_limit pallet max_addr max_tok max_coll max_ser max_id nsrc max_data ops first) as Hn.
    fold s in Hb, Hn. clearbody s. destruct (withdraw20_read ben a amt H1 H2 H3) as [Hs R]. rewrite exec_20 in E by exact Hs.
    apply erc20_inv in E. destruct E as (ben' & asset & a' & amt' & token & l & R' & A1 & A2 & A3 & A4 & A5 & A6 & A7 & -> & ->).
    rewrite R in R'. apply Ok_inj in R'. injection R' as <- <- <-. rewrite asset_at_20 in A1 by exact H2. injection A1 as <-.
    destruct (take_pays _ _ _ _ _ Hb A6) as [_ P]. split; [exact P|]. split; [unfold same_peg; tauto|]. split; [reflexivity|]. split; [reflexivity|].
    exists token, (Msg (b_next s) pot (erc20_dst native (b_peg s) a) (erc20_msg token amt ben)). split; [exact A5|]. split; [reflexivity|].
    split; [reflexivity|]. split; [reflexivity|]. split; [intros Ht; apply msg20_read; assumption|]. cbn [mg_id].
    split; [apply out_id, Hn|]. cbn [after20 b_logs]. rewrite (out_spec [tU128] [VN amt]); [reflexivity|]. split; [split; [exact A2|exact H3]|exact I].
  Qed.
  (** When it is accepted. *)
  Theorem C158_accepted ops first caller ben a amt : let s := run bstep ops (binit first) in
    ben < 2 ^ 160 -> a <= U32MAX -> amt < 2 ^ 256 -> 96 <= max_data ->
    is_ok (b_execute s caller false 0 (withdraw20 ben a amt)) = true <->
      amt <= U128MAX /\ PegModel.wd_on (PegModel.pcf (b_peg s)) = true /\ (exists token, PegModel.a2e (b_peg s) !! a = Some token) /\
      amt <= balance (PegModel.pbk (b_peg s)) a caller /\
      ~ (exists mn d, PegModel.pdl (b_peg s) !! a = Some (mn, d) /\ PegModel.wdel (PegModel.pcf (b_peg s)) = true /\ mn <= amt).
  Proof.
    intros s H1 H2 H3 Hd. pose proof (books_run native pot maxready rd wr cap mint_limit pallet max_addr max_tok max_coll max_ser max_id nsrc max_data ops first) as Hb.
    fold s in Hb. clearbody s. destruct (withdraw20_read ben a amt H1 H2 H3) as [Hs R]. rewrite exec_20 by exact Hs. split.
    - destruct (b_erc20 native pot max_data s caller _) as [[s' o]|] eqn:E; [|discriminate]. intros _.
      apply erc20_inv in E. destruct E as (ben' & asset & a' & amt' & token & l & R' & A1 & A2 & A3 & A4 & A5 & A6 & A7 & _).
      rewrite R in R'. apply Ok_inj in R'. injection R' as <- <- <-. rewrite asset_at_20 in A1 by exact H2. injection A1 as <-.
      destruct (take_pays _ _ _ _ _ Hb A6) as [P _]. split; [exact A2|]. split; [exact A3|]. split; [eauto|]. split; [exact P|].
      intros (mn & d & Q1 & Q2 & Q3). specialize (A4 mn d Q1 Q2). lia.
    - intros (A2 & A3 & (token & A5) & P & Q). destruct (take_ok _ _ _ _ Hb P) as [l A6].
      rewrite (erc20_ok native pot max_data s caller _ ben (erc20_at a) a amt token l R (asset_at_20 a H2) A2 A3); [reflexivity| |exact A5|exact A6|exact Hd].
      intros mn d Q1 Q2. apply N.nle_gt. intros Q3. apply Q. eauto.
  Qed.
  (** Apart from the log and the answer, it is the withdrawal that the account could have made by extrinsic. *)
  Theorem C158_as_extrinsic s caller ben a amt : ben < 2 ^ 160 -> a <= U32MAX -> amt < 2 ^ 256 -> 96 <= max_data -> undelayed (b_peg s) a amt ->
    let s1 := bstep s (BCall caller false 0 (withdraw20 ben a amt)) in
    let s2 := bstep s (BPeg (PegModel.PWithdraw caller a amt ben false)) in
    b_peg s1 = b_peg s2 /\ b_np s1 = b_np s2 /\ b_next s1 = b_next s2 /\ b_out s1 = b_out s2.
  Proof.
    intros H1 H2 H3 Hd U. destruct (withdraw20_read ben a amt H1 H2 H3) as [Hs R]. cbn [PegPreModel.bstep]. rewrite exec_20 by exact Hs. cbv zeta.
    unfold b_peg_op. cbv zeta. unfold PegModel.pstep. cbn [PegModel.pexec].
    assert (Same : PegModel.do_withdrawal native pot (b_peg s) caller a amt ben false = PegModel.do_withdrawal native pot (b_peg s) caller a amt ben true).
    { unfold PegModel.do_withdrawal. destruct (PegModel.wd_on _); [|reflexivity]. destruct (PegModel.a2e (b_peg s) !! a) as [token|]; [|reflexivity].
      cbn [ensure rbind of_opt]. cbv zeta. destruct (PegModel.pdl (b_peg s) !! a) as [[mn d]|] eqn:Ed; [|reflexivity].
      destruct (PegModel.wdel (PegModel.pcf (b_peg s))) eqn:Ew; [|reflexivity]. specialize (U mn d Ed Ew). rewrite (proj2 (N.leb_gt _ _) U). reflexivity. }
    rewrite Same. clear Same.
    assert (Fail : forall x e, x = Err e -> let s2 := fold_left (sends native pot max_data) (rev (firstn (length (PegModel.plog (commit (b_peg s) x)) - length (PegModel.plog (b_peg s))) (PegModel.plog (commit (b_peg s) x))))
      (with_peg s (commit (b_peg s) x)) in s2 = s).
    { intros x e ->. cbn [commit]. rewrite Nat.sub_diag. cbn. destruct s; reflexivity. }
    destruct (b_erc20 native pot max_data s caller _) as [[s' o]|e] eqn:E.
    - apply erc20_inv in E. destruct E as (ben' & asset & a' & amt' & token & l & R' & A1 & A2 & A3 & A4 & A5 & A6 & A7 & -> & ->).
      rewrite R in R'. apply Ok_inj in R'. injection R' as <- <- <-. rewrite asset_at_20 in A1 by exact H2. injection A1 as <-.
      rewrite (proj2 (N.leb_le _ _) A2). cbn [ensure rbind fst]. rewrite (now_or_never _ _ _ _ _ _ _ _ A3 A5 A4), A6. cbn [rbind commit].
      cbn [PegModel.send PegModel.p_log PegModel.p_bk PegModel.plog length]. replace (S (length (PegModel.plog (b_peg s))) - length (PegModel.plog (b_peg s)))%nat with 1%nat by lia.
      match goal with |- context [firstn 1 (?e :: ?r)] => change (firstn 1 (e :: r)) with [e] end. cbn [rev app fold_left sends]. unfold send_event. rewrite msg20_len, (proj2 (N.leb_le _ _) Hd). cbn [ensure rbind fst]. repeat split.
    - rewrite (Fail _ (match (ensure (amt <=? U128MAX) 5) with Ok _ => match PegModel.do_withdrawal native pot (b_peg s) caller a amt ben true with Ok _ => 0 | Err c => c end | Err c => c end)).
      { repeat split. }
      destruct (N.leb_spec amt U128MAX) as [Hu|]; [|reflexivity]. cbn [ensure rbind].
      destruct (PegModel.do_withdrawal native pot (b_peg s) caller a amt ben true) as [p|] eqn:Ew; [|reflexivity]. exfalso.
      apply withdrawal_inv in Ew. destruct Ew as (P1 & P2 & token & l & P3 & P4 & _).
      rewrite (erc20_ok native pot max_data s caller _ ben (erc20_at a) a amt token l R (asset_at_20 a H2) Hu P1 P2 P3 P4 Hd) in E. discriminate.
  Qed.

  (** * C159 *)
  (** Whatever the bytes: a call makes no payment wait, and sends no withdrawal that ought to wait. *)
  Theorem C159_no_bypass s caller static value call s' o : b_execute s caller static value call = Ok (s', o) ->
    same_peg (b_peg s) (b_peg s') /\
    (PegModel.plog (b_peg s') = PegModel.plog (b_peg s) \/
     exists a token amt ben, PegModel.plog (b_peg s') = PegModel.VSend None (PegModel.pblk (b_peg s)) a caller token amt ben :: PegModel.plog (b_peg s) /\
       PegModel.a2e (b_peg s) !! a = Some token /\ PegModel.wd_on (PegModel.pcf (b_peg s)) = true /\
       forall mn d, PegModel.pdl (b_peg s) !! a = Some (mn, d) -> PegModel.wdel (PegModel.pcf (b_peg s)) = true -> amt < mn).
  Proof.
    intros E. apply exec_inv in E. destruct E as (_ & _ & [[_ E]|[_ E]]).
    - apply erc20_inv in E. destruct E as (ben & asset & a & amt & token & l & R & A1 & A2 & A3 & A4 & A5 & A6 & A7 & -> & _).
      split; [unfold same_peg; tauto|]. right. exists a, token, amt, ben. split; [reflexivity|]. split; [exact A5|]. split; [exact A3|exact A4].
    - apply erc721_inv in E. destruct E as (ben & addrs & serials & cs & np & m & R & A1 & A2 & A3 & A4 & A5 & -> & _).
      split; [unfold same_peg; tauto|]. left. reflexivity.
  Qed.

  (** * C160 *)
  Lemma listed_lengths {A B C D} (P : A * B -> C * D -> Prop) (l : list (A * B)) m : Forall2 P l m -> length m = length l.
  Proof. intros H. symmetry. exact (Forall2_length _ _ _ H). Qed.
  Lemma msg_of np who cs ns ben np' : withdraw np who cs ns ben = Ok np' ->
    length cs = length ns /\ exists m, NftPegModel.g_out np' = NftPegModel.g_out np ++ [(m, ben)] /\ map snd m = ns /\
      Forall2 (fun c a => NftPegModel.g_r2e np !! c = Some a) cs (map fst m) /\ length m = length cs.
  Proof.
    intros H. assert (L : length cs = length ns).
    { unfold NftPegModel.withdraw in H. destruct (_ && _); [|discriminate]. cbn [ensure rbind] in H. destruct (Nat.eqb_spec (length cs) (length ns)) as [e|]; [exact e|discriminate]. }
    split; [exact L|]. destruct (NftPegProps.C56_burned _ _ _ _ _ _ _ _ H) as (m & E & _ & F & _). exists m. split; [exact E|]. clear -F L.
    revert ns m F L. induction cs as [|c cs IH]; intros [|n ns] m F L; try discriminate.
    - inversion F. subst. split; [reflexivity|]. split; [constructor|reflexivity].
    - cbn [combine] in F. inversion F as [|x y l1 l2 [Hx Hy] F' Ex Ey]. subst. cbn [fst snd] in Hx, Hy. destruct (IH ns l2 F') as (I1 & I2 & I3); [cbn in L; lia|].
      cbn [map length]. split; [rewrite I1, Hy; reflexivity|]. split; [constructor; assumption|]. rewrite I3. reflexivity.
  Qed.
  Definition addresses np : Prop := forall c a, NftPegModel.g_r2e np !! c = Some a -> a < 2 ^ 160.
  Lemma decent_msg np cs ns m : addresses np -> sized cs ns -> map snd m = ns -> Forall2 (fun c a => NftPegModel.g_r2e np !! c = Some a) cs (map fst m) -> length m = length cs -> decent m.
  Proof.
    intros Ha (S1 & S2 & S3 & S4 & S5) E F L. split; [|split; [rewrite L; exact S3|rewrite E; exact S5]].
    subst ns. clear S1 S3 S4 S5 L. revert cs F. induction m as [|[a l] m IH]; intros cs F; [constructor|]. cbn [map fst snd] in *.
    inversion F as [|c x cs' l' Hc F' E1 E2]. subst. apply Forall_cons_1 in S2. destruct S2 as [T1 T2]. constructor; [split; [exact (Ha _ _ Hc)|exact T1]|].
    eapply IH; [exact T2|exact F'].
  Qed.
  Lemma items_all ns : map items (map uints ns) = ns.
  Proof. rewrite map_map. rewrite <- (map_id ns) at 2. apply map_ext. intros l. apply items_uints. Qed.
  Lemma u32_lists ns : forallb (all_le U32MAX) ns = true <-> Forall (Forall (fun n => n <= U32MAX)) ns.
  Proof.
    rewrite forallb_forall, List.Forall_forall. split; intros H l Hl; specialize (H l Hl).
    - unfold all_le in H. rewrite forallb_forall in H. apply List.Forall_forall. intros x Hx. apply N.leb_le, H, Hx.
    - apply forallb_forall. intros x Hx. apply N.leb_le. rewrite List.Forall_forall in H. auto.
  Qed.
  (** The log: one entry per collection, with the serial numbers as an ABI-encoded array. *)
  Definition entry (id ben : N) (g : N * list N) : elog :=
    Elog 0x793 [H_Erc721Withdrawal; id; ben; erc721_at (fst g)] (enc_all [TVec U32MAX tU32] [uints (snd g)]).
  Lemma entries id ben cs : forall ns, Forall (Forall (fun n => n <= U32MAX)) ns -> Forall (fun l : list N => N.of_nat (length l) <= U32MAX) ns ->
    map (fun g => Elog PEG_ADDR [H_Erc721Withdrawal; id; ben; num (fst g)] (out [TVec U32MAX tU32] [VL (map VN (snd g))])) (combine (map VN (map erc721_at cs)) ns)
    = map (entry id ben) (combine cs ns).
  Proof.
    induction cs as [|c cs IH]; intros [|n ns] H L; try reflexivity. apply Forall_cons_1 in H, L. destruct H as [H1 H2], L as [L1 L2].
    cbn [map combine fst snd num]. rewrite IH by assumption. f_equal. unfold entry. cbn [fst snd]. rewrite out_spec; [reflexivity|].
    split; [|exact I]. apply wt_vec. split; [rewrite map_length; exact L1|]. apply Forall_map. eapply Forall_impl; [exact H1|]. cbv beta. intros x Hx.
    split; [exact Hx|]. unfold U32MAX in Hx. lia.
  Qed.
  Theorem C160_withdrawn ops first caller ben cs ns s' o : let s := run bstep ops (binit first) in
    ben < 2 ^ 160 -> sized cs ns -> addresses (b_np s) ->
    b_execute s caller false 0 (withdraw721 ben cs ns) = Ok (s', o) ->
    let named := NftPegModel.pairs (combine cs ns) in
    length cs = length ns /\ NoDup named /\
    (forall c n, (c, n) ∈ named -> NftProofs.owns (NftPegModel.g_nft (b_np s)) c caller n /\ ~ NftProofs.owns (NftPegModel.g_nft (b_np s')) c caller n) /\
    (forall c y n, (c, n) ∉ named \/ y <> caller ->
       NftProofs.owns (NftPegModel.g_nft (b_np s')) c y n <-> NftProofs.owns (NftPegModel.g_nft (b_np s)) c y n) /\
    b_peg s' = b_peg s /\ b_nftpeg s' = b_nftpeg s /\
    exists m addrs, b_out s' = b_out s ++ [m] /\ mg_src m = nsrc /\ mg_dst m = b_nftpeg s /\
      Forall2 (fun c a => NftPegModel.g_r2e (b_np s) !! c = Some a) cs addrs /\
      (exists c, read_all [tAs; TVec U32MAX tUs; tA] (mg_data m) 0 = Ok ([uints addrs; VL (map uints ns); VN ben], c)) /\
      o = word (mg_id m) /\ b_logs s' = b_logs s ++ map (entry (mg_id m) ben) (combine cs ns).
  Proof.
    intros s H1 H2 Ha E named. pose proof (numbered_run native pot maxready rd wr cap mint_limit pallet max_addr max_tok max_coll max_ser max_id nsrc max_data ops first) as Hn.
    fold s in Hn. clearbody s. destruct (withdraw721_read ben cs ns H1 H2) as [Hs R]. rewrite exec_721 in E by exact Hs.
    apply erc721_inv in E. destruct E as (ben' & addrs & serials & cs' & np & m & R' & A1 & A2 & A3 & A4 & A5 & -> & ->).
    rewrite R in R'. apply Ok_inj in R'. injection R' as <- <- <-. rewrite (nfts_at_721 cs (proj1 H2)) in A1. injection A1 as <-. rewrite items_all in *.
    destruct (msg_of _ _ _ _ _ _ A3) as (L & m' & G & M1 & M2 & M3). rewrite A4 in G. apply app_inj_tail in G. destruct G as [_ [= <-]].
    destruct (NftPegProps.C56_burned _ _ _ _ _ _ _ _ A3) as (_ & _ & B1 & _ & B2 & B3).
    split; [exact L|]. split; [exact B1|]. split; [exact B2|]. split; [exact B3|]. split; [reflexivity|]. split; [reflexivity|].
    pose proof (decent_msg _ _ _ _ Ha H2 M1 M2 M3) as D.
    exists (Msg (b_next s) nsrc (b_nftpeg s) (erc721_msg m ben)), (map fst m). split; [reflexivity|]. split; [reflexivity|]. split; [reflexivity|]. split; [exact M2|].
    split; [rewrite <- M1; apply msg721_read; assumption|]. cbn [mg_id]. split; [apply out_id, Hn|].
    cbn [after721 b_logs]. f_equal. apply entries; [apply u32_lists, A2|]. apply sized_each. exact (proj2 (proj2 (proj2 (proj2 H2)))).
  Qed.
  (** It is accepted exactly when the pallet would burn the tokens and the message, 5 words, 3 for each collection and one
      for each token, is not too long. *)
  Theorem C160_accepted s caller ben cs ns : ben < 2 ^ 160 -> sized cs ns -> addresses (b_np s) ->
    is_ok (b_execute s caller false 0 (withdraw721 ben cs ns)) = true <->
      Forall (Forall (fun n => n <= U32MAX)) ns /\ is_ok (withdraw (b_np s) caller cs ns ben) = true /\
      32 * (5 + 3 * N.of_nat (length cs) + token_count ns) <= max_data.
  Proof.
    intros H1 H2 Ha. destruct (withdraw721_read ben cs ns H1 H2) as [Hs R]. rewrite exec_721 by exact Hs.
    assert (Len : forall np m, withdraw (b_np s) caller cs ns ben = Ok np -> NftPegModel.g_out np = NftPegModel.g_out (b_np s) ++ [(m, ben)] ->
      nlen (erc721_msg m ben) = 32 * (5 + 3 * N.of_nat (length cs) + token_count ns)).
    { intros np m Hw Ho. destruct (msg_of _ _ _ _ _ _ Hw) as (L & m' & G & M1 & M2 & M3). rewrite Ho in G. apply app_inj_tail in G. destruct G as [_ [= <-]].
      rewrite msg721_len by exact (decent_msg _ _ _ _ Ha H2 M1 M2 M3). rewrite M1, M3. reflexivity. }
    split.
    - destruct (b_erc721 max_coll max_ser nsrc max_data s caller _) as [[s' o]|] eqn:E; [|discriminate]. intros _.
      apply erc721_inv in E. destruct E as (ben' & addrs & serials & cs' & np & m & R' & A1 & A2 & A3 & A4 & A5 & _).
      rewrite R in R'. apply Ok_inj in R'. injection R' as <- <- <-. rewrite (nfts_at_721 cs (proj1 H2)) in A1. injection A1 as <-. rewrite items_all in *.
      split; [apply u32_lists, A2|]. rewrite A3. split; [reflexivity|]. rewrite <- (Len np m A3 A4). exact A5.
    - intros (A2 & A3 & A5). destruct (withdraw (b_np s) caller cs ns ben) as [np|] eqn:Ew; [|discriminate].
      destruct (msg_of _ _ _ _ _ _ Ew) as (L & m & G & M1 & M2 & M3).
      rewrite (erc721_ok max_coll max_ser nsrc max_data s caller _ ben _ _ cs R (nfts_at_721 cs (proj1 H2))) with (np := np) (m := m); [reflexivity| | |exact G|].
      + rewrite items_all. apply u32_lists, A2.
      + rewrite items_all. exact Ew.
      + rewrite (Len np m eq_refl G). exact A5.
  Qed.
  Theorem C160_as_extrinsic s caller ben cs ns : ben < 2 ^ 160 -> sized cs ns -> Forall (Forall (fun n => n <= U32MAX)) ns ->
    let s1 := bstep s (BCall caller false 0 (withdraw721 ben cs ns)) in
    let s2 := bstep s (BNft (NftPegModel.PWithdraw caller cs ns ben)) in
    b_peg s1 = b_peg s2 /\ b_np s1 = b_np s2 /\ b_next s1 = b_next s2 /\ b_out s1 = b_out s2.
  Proof.
    intros H1 H2 Hu. destruct (withdraw721_read ben cs ns H1 H2) as [Hs R]. cbn [PegPreModel.bstep]. rewrite exec_721 by exact Hs. cbv zeta.
    unfold b_nft_op. cbv zeta. cbn [NftPegModel.gstep].
    change (uints (map erc721_at cs)) with (VL (map VN (map erc721_at cs))) in R.
    unfold PegPreModel.b_erc721. rewrite R. cbn [rbind]. rewrite (nfts_at_721 cs (proj1 H2)). cbn [of_opt rbind]. cbv zeta. rewrite items_all.
    rewrite (proj2 (u32_lists ns) Hu). cbn [ensure rbind]. destruct (withdraw (b_np s) caller cs ns ben) as [np|] eqn:Ew; cbn [commit rbind].
    2:{ rewrite Nat.eqb_refl. repeat split. }
    destruct (last_out max_coll max_ser _ _ _ _ _ _ Ew) as (m & Ho & Hl). rewrite Ho, app_length. cbn [length].
    destruct (Nat.eqb_spec (length (NftPegModel.g_out (b_np s)) + 1) (length (NftPegModel.g_out (b_np s)))) as [Hx|_]; [lia|]. rewrite last_last. cbn [fst snd].
    unfold send_event. destruct (nlen (erc721_msg m ben) <=? max_data); cbn [ensure rbind fst]; repeat split.
  Qed.

  (** * C161 *)
  Theorem C161_only_caller ops first caller static value call s' o : let s := run bstep ops (binit first) in
    b_execute s caller static value call = Ok (s', o) ->
    static = false /\ value = 0 /\
    (forall a y, y <> caller -> balance (PegModel.pbk (b_peg s)) a y <= balance (PegModel.pbk (b_peg s')) a y) /\
    (forall c y n, y <> caller -> NftProofs.owns (NftPegModel.g_nft (b_np s')) c y n <-> NftProofs.owns (NftPegModel.g_nft (b_np s)) c y n) /\
    (forall c y n, NftProofs.owns (NftPegModel.g_nft (b_np s')) c y n -> NftProofs.owns (NftPegModel.g_nft (b_np s)) c y n) /\
    (exists m, b_out s' = b_out s ++ [m] /\ o = word (mg_id m)) /\ b_nftpeg s' = b_nftpeg s.
  Proof.
    intros s E. pose proof (books_run native pot maxready rd wr cap mint_limit pallet max_addr max_tok max_coll max_ser max_id nsrc max_data ops first) as Hb.
    pose proof (numbered_run native pot maxready rd wr cap mint_limit pallet max_addr max_tok max_coll max_ser max_id nsrc max_data ops first) as Hn.
    fold s in Hb, Hn. clearbody s. apply exec_inv in E. destruct E as (E1 & E2 & E). split; [exact E1|]. split; [exact E2|]. destruct E as [[_ E]|[_ E]].
    - apply erc20_inv in E. destruct E as (ben & asset & a & amt & token & l & R & A1 & A2 & A3 & A4 & A5 & A6 & A7 & -> & ->).
      destruct (take_pays _ _ _ _ _ Hb A6) as [_ [P _]]. split; [|split; [|split; [|split; [|reflexivity]]]].
      + intros b y Hy. specialize (P b y). rewrite (bool_decide_eq_false_2 ((b, y) = (a, caller))) in P by congruence.
        change (PegModel.pbk (b_peg (after20 native pot s caller a amt ben asset token l))) with l. lia.
      + intros c y n _. reflexivity.
      + intros c y n H. exact H.
      + eexists. split; [reflexivity|]. apply out_id, Hn.
    - apply erc721_inv in E. destruct E as (ben & addrs & serials & cs & np & m & R & A1 & A2 & A3 & A4 & A5 & -> & ->).
      destruct (NftPegProps.C56_burned _ _ _ _ _ _ _ _ A3) as (_ & _ & _ & _ & B2 & B3). split; [|split; [|split; [|split; [|reflexivity]]]].
      + intros a y _. reflexivity.
      + intros c y n Hy. apply B3. right. exact Hy.
      + intros c y n H. cbn [after721 b_np] in H. destruct (decide (y = caller)) as [->|Hy]; [|apply B3; [right; exact Hy|exact H]].
        destruct (decide ((c, n) ∈ NftPegModel.pairs (combine cs (map items serials)))) as [Hin|Hin]; [apply B2; exact Hin|apply B3; [left; exact Hin|exact H]].
      + eexists. split; [reflexivity|]. apply out_id, Hn.
  Qed.
  (** Messages are numbered in order, so that two of them have different ids until 2^64 have been sent. *)
  Theorem C161_ids ops first i j m m' : let s := run bstep ops (binit first) in
    N.of_nat (length (b_out s)) <= 2 ^ 64 -> nth_error (b_out s) i = Some m -> nth_error (b_out s) j = Some m' ->
    mg_id m = N.of_nat i /\ (mg_id m = mg_id m' -> i = j).
  Proof.
    intros s Hl Hi Hj. pose proof (numbered_run native pot maxready rd wr cap mint_limit pallet max_addr max_tok max_coll max_ser max_id nsrc max_data ops first) as [_ H].
    fold s in H. clearbody s. pose proof (H _ _ Hi) as Ei. pose proof (H _ _ Hj) as Ej.
    assert (i < length (b_out s))%nat by (apply nth_error_Some; congruence). assert (j < length (b_out s))%nat by (apply nth_error_Some; congruence).
    rewrite N.mod_small in Ei, Ej by lia. split; [exact Ei|]. rewrite Ei, Ej. lia.
  Qed.
  (** With the contract there, each peg still goes through its own operations only, the contract's withdrawals being those of
      its callers: everything proved of the pegs (C40, C41, C55, C56, C90, C102) holds with it. *)
  Theorem C161_refines ops : forall s,
    exists pops gops, b_peg (run bstep ops s) = run pstep pops (b_peg s) /\ b_np (run bstep ops s) = run gstep gops (b_np s) /\
      (forall o, In o pops -> In (BPeg o) ops \/ exists caller call v st a amt ben, In (BCall caller st v call) ops /\ o = PegModel.PWithdraw caller a amt ben true) /\
      (forall o, In o gops -> In (BNft o) ops \/ exists caller call v st cs ns ben, In (BCall caller st v call) ops /\ o = NftPegModel.PWithdraw caller cs ns ben).
  Proof.
    induction ops as [|x ops IH]; intros s.
    - exists [], []. repeat split; intros o [].
    - destruct (IH (bstep s x)) as (pops & gops & E1 & E2 & I1 & I2). cbn [run fold_left] in *.
      assert (P : exists pops', run pstep pops' (b_peg s) = run pstep pops (b_peg (bstep s x)) /\
        forall o, In o pops' -> In (BPeg o) (x :: ops) \/ exists caller call v st a amt ben, In (BCall caller st v call) (x :: ops) /\ o = PegModel.PWithdraw caller a amt ben true).
      { destruct (peg_step native pot maxready rd wr cap mint_limit pallet max_addr max_tok max_coll max_ser max_id nsrc max_data s x) as [E|(o & E & Ho)].
        - exists pops. rewrite E. split; [reflexivity|]. intros o Hin. destruct (I1 o Hin) as [H|(caller & call & v & st & a & amt & ben & H & ->)]; [left; right; exact H|].
          right. exists caller, call, v, st, a, amt, ben. split; [right; exact H|reflexivity].
        - exists (o :: pops). rewrite E. split; [reflexivity|]. intros o' [->|Hin].
          + destruct Ho as [->|(caller & st & v & call & a & amt & ben & -> & ->)]; [left; left; reflexivity|].
            right. exists caller, call, v, st, a, amt, ben. split; [left; reflexivity|reflexivity].
          + destruct (I1 o' Hin) as [H|(caller & call & v & st & a & amt & ben & H & ->)]; [left; right; exact H|].
            right. exists caller, call, v, st, a, amt, ben. split; [right; exact H|reflexivity]. }
      assert (G : exists gops', run gstep gops' (b_np s) = run gstep gops (b_np (bstep s x)) /\
        forall o, In o gops' -> In (BNft o) (x :: ops) \/ exists caller call v st cs ns ben, In (BCall caller st v call) (x :: ops) /\ o = NftPegModel.PWithdraw caller cs ns ben).
      { destruct (nft_step native pot maxready rd wr cap mint_limit pallet max_addr max_tok max_coll max_ser max_id nsrc max_data s x) as [E|(o & E & Ho)].
        - exists gops. rewrite E. split; [reflexivity|]. intros o Hin. destruct (I2 o Hin) as [H|(caller & call & v & st & cs & ns & ben & H & ->)]; [left; right; exact H|].
          right. exists caller, call, v, st, cs, ns, ben. split; [right; exact H|reflexivity].
        - exists (o :: gops). rewrite E. split; [reflexivity|]. intros o' [->|Hin].
          + destruct Ho as [->|(caller & st & v & call & cs & ns & ben & -> & ->)]; [left; left; reflexivity|].
            right. exists caller, call, v, st, cs, ns, ben. split; [left; reflexivity|reflexivity].
          + destruct (I2 o' Hin) as [H|(caller & call & v & st & cs & ns & ben & H & ->)]; [left; right; exact H|].
            right. exists caller, call, v, st, cs, ns, ben. split; [right; exact H|reflexivity]. }
      destruct P as (pops' & P1 & P2). destruct G as (gops' & G1 & G2). exists pops', gops'. split; [rewrite P1; exact E1|]. split; [rewrite G1; exact E2|]. split; [exact P2|exact G2].
  Qed.
End props.

(** ** Concrete cases: the runtime's limits; asset 1 is the native currency, account 900 the ERC-20 peg's, 901 the NFT peg's *)
Local Notation step := (bstep 1 900 10 1 1 1000000 1000 999 10 50 10 50 100 901 3200).
Local Notation exec := (b_execute 1 900 10 50 901 3200).
(** Account 7 has 100 of asset 5, which is bridged from the contract 777; withdrawals of 50 or more wait 1000 blocks. *)
Definition funded : list bop :=
  [BPeg (PegModel.PConf (PegModel.PCfg_ true true true true 111 222)); BPeg (PegModel.PMap 5 777); BPeg (PegModel.PMint 5 7 100);
   BPeg (PegModel.PDelay 5 50 1000); BOther 3 4 [1; 2]].
(** Account 7 has 50 tokens of each of two bridged collections. *)
Definition ids50 : list N := map N.of_nat (seq 0 50).
Definition tokens : list bop := [BAddr 333; BNft (NftPegModel.PDeposit [101] [ids50] 7); BNft (NftPegModel.PDeposit [102] [ids50] 7)].

Example C158_case :
  let s := run step funded (binit 10) in
  let r := exec s 7 false 0 (withdraw20 44 5 40) in
  is_ok r = true /\ snd (match r with Ok x => x | Err _ => (s, []) end) = word 1 /\
  (let s' := step s (BCall 7 false 0 (withdraw20 44 5 40)) in
   balance (PegModel.pbk (b_peg s')) 5 7 = 60 /\ issuance (PegModel.pbk (b_peg s')) 5 = 60 /\
   map mg_id (b_out s') = [0; 1] /\ map mg_dst (b_out s') = [4; 111] /\ map (fun g => lg_coll g) (b_logs s') = [0x793]) /\
  is_ok (exec s 8 false 0 (withdraw20 44 5 40)) = false /\ is_ok (exec s 7 true 0 (withdraw20 44 5 40)) = false /\
  is_ok (exec s 7 false 1 (withdraw20 44 5 40)) = false /\ is_ok (exec s 7 false 0 (withdraw20 44 6 40)) = false.
Proof. vm_compute. auto 20. Qed.
(** The minimum from which withdrawals wait can be undercut: two calls in one block take out 80 at once, although a
    withdrawal of 50 or more is refused (by extrinsic it would wait).  The extrinsic can be split as well. *)
Theorem C159_split_refuted : exists ops ben, let s := run step ops (binit 10) in
  PegModel.pdl (b_peg s) !! 5 = Some (50, 1000) /\ PegModel.wdel (PegModel.pcf (b_peg s)) = true /\
  is_ok (exec s 7 false 0 (withdraw20 ben 5 80)) = false /\
  let s' := run step [BCall 7 false 0 (withdraw20 ben 5 40); BCall 7 false 0 (withdraw20 ben 5 40)] s in
  PegModel.pblk (b_peg s') = PegModel.pblk (b_peg s) /\ PegModel.pdl (b_peg s') !! 5 = Some (50, 1000) /\
  balance (PegModel.pbk (b_peg s')) 5 7 + 80 = balance (PegModel.pbk (b_peg s)) 5 7 /\
  PegModel.plog (b_peg s') = [PegModel.VSend None 0 5 7 777 40 ben; PegModel.VSend None 0 5 7 777 40 ben] ++ PegModel.plog (b_peg s) /\
  length (b_out s') = (length (b_out s) + 2)%nat.
Proof. exists funded, 44. vm_compute. auto 20. Qed.
Example C160_case :
  let s := run step tokens (binit 10) in
  is_ok (exec s 7 false 0 (withdraw721 44 [0; 1] [[3; 5]; [4]])) = true /\
  (let s' := step s (BCall 7 false 0 (withdraw721 44 [0; 1] [[3; 5]; [4]])) in
   map mg_dst (b_out s') = [333] /\ map (fun m => nlen (mg_data m)) (b_out s') = [448] /\ length (b_logs s') = 2%nat) /\
  is_ok (exec s 8 false 0 (withdraw721 44 [0; 1] [[3; 5]; [4]])) = false /\
  is_ok (exec s 7 false 0 (withdraw721 44 [0] [[2 ^ 32 + 3]])) = false.
Proof. vm_compute. auto 20. Qed.
Lemma C160_case_addresses : addresses (b_np (run step tokens (binit 10))).
Proof.
  intros c a. assert (E : NftPegModel.g_r2e (b_np (run step tokens (binit 10))) = <[1 := 102]> (<[0 := 101]> ∅)) by (vm_compute; reflexivity).
  rewrite E, lookup_insert_Some, lookup_insert_Some, lookup_empty. intros [[_ <-]|[_ [[_ <-]|[_ H]]]]; [reflexivity|reflexivity|discriminate].
Qed.
(** "Up to MaxCollectionsPerWithdraw (10) collections of up to MaxSerialsPerWithdraw (50) tokens": two collections of 50
    tokens, all of them the caller's, are refused because the message of 111 words exceeds [MaxEthData] (100 words). *)
Theorem C160_limits_refuted : exists ops caller ben cs ns, let s := run step ops (binit 10) in
  (length cs <= 10)%nat /\ length ns = length cs /\ forallb (fun l => (length l <=? 50)%nat) ns = true /\
  is_ok (NftPegModel.withdraw 10 50 (b_np s) caller cs ns ben) = true /\
  is_ok (exec s caller false 0 (withdraw721 ben cs ns)) = false /\
  length (b_out (step s (BNft (NftPegModel.PWithdraw caller cs ns ben)))) = length (b_out s) /\
  forallb (fun g => is_ok (exec s caller false 0 (withdraw721 ben [fst g] [snd g]))) (combine cs ns) = true.
Proof. exists tokens, 7, 44, [0; 1], [ids50; ids50]. vm_compute. auto 20. Qed.
Example C161_case :
  let s := run step (funded ++ tokens ++ [BCall 7 false 0 (withdraw20 44 5 40); BCall 7 false 0 (withdraw721 44 [0] [[3]])]) (binit 10) in
  map mg_id (b_out s) = [0; 1; 2] /\ map mg_src (b_out s) = [3; 900; 901].
Proof. vm_compute. auto. Qed.

Definition pegpre_assumptions := (C158_withdrawn, C158_accepted, C158_as_extrinsic, C159_no_bypass, C159_split_refuted,
  C160_withdrawn, C160_accepted, C160_as_extrinsic, C160_limits_refuted, C161_only_caller, C161_ids, C161_refines).
Print Assumptions pegpre_assumptions.
