(** Lemmas about the bridge's EVM contract. *)
From Verif Require Export Ledger LedgerProofs PegPreModel Erc1155Proofs AbiProps.
From Verif Require PegBacking PegTight PegProps NftPegProps.
From Verif Require NftProofs.

(** ** Calls as a caller writes them *)
(** The address of the ERC-20 contract of an asset and of the ERC-721 contract of a collection. *)
Definition erc20_at (a : N) : N := 0xcccccccc * 2 ^ 128 + a * 2 ^ 96.
Definition erc721_at (c : N) : N := 0xaaaaaaaa * 2 ^ 128 + c * 2 ^ 96.
Definition uints (l : list N) : val := VL (map VN l).
Definition withdraw20 (ben a amt : N) : list N :=
  build_call 0x6c4f1a68 [tA; tA; tU] [VN ben; VN (erc20_at a); VN amt].
Definition withdraw721 (ben : N) (cs : list N) (ns : list (list N)) : list N :=
  build_call 0x39ab0a42 [tA; tAs; TVec U32MAX tUs] [VN ben; uints (map erc721_at cs); VL (map uints ns)].
Definition token_count (ns : list (list N)) : N := N.of_nat (list_sum (map (@length N) ns)).

Lemma call_reads ts l sel : nlen (enc_all ts l) <= USIZE -> wt_all ts l -> sel < 2 ^ 32 ->
  read_selector (build_call sel ts l) = Ok sel /\ read_args ts (build_call sel ts l) = Ok l.
Proof. intros H1 H2 H3. pose proof (C117_roundtrip ts l sel [] H3 H2) as H. rewrite !app_nil_r in H. auto. Qed.
Lemma erc_prefix p c : c <= U32MAX -> (p * 2 ^ 128 + c * 2 ^ 96) / 2 ^ 128 = p.
Proof. intros H. unfold U32MAX in H. symmetry. apply (N.div_unique _ _ _ (c * 2 ^ 96)); lia. Qed.
Lemma erc_number p c : c <= U32MAX -> (p * 2 ^ 128 + c * 2 ^ 96) / 2 ^ 96 mod 2 ^ 32 = c.
Proof.
  intros H. unfold U32MAX in H. replace ((p * 2 ^ 128 + c * 2 ^ 96) / 2 ^ 96) with (p * 2 ^ 32 + c) by (apply (N.div_unique _ _ _ 0); lia).
  symmetry. apply (N.mod_unique _ _ p); lia.
Qed.
Lemma asset_at_20 a : a <= U32MAX -> asset_at (erc20_at a) = Some a.
Proof. intros H. unfold asset_at, erc20_at. rewrite erc_prefix, erc_number by exact H. reflexivity. Qed.
Lemma nft_at_721 c : c <= U32MAX -> nft_at (erc721_at c) = Some c.
Proof. intros H. unfold nft_at, erc721_at. rewrite erc_prefix, erc_number by exact H. reflexivity. Qed.
Lemma nfts_at_721 cs : Forall (fun c => c <= U32MAX) cs -> nfts_at (map VN (map erc721_at cs)) = Some cs.
Proof. induction 1 as [|c cs Hc _ IH]; [reflexivity|]. cbn [map nfts_at num]. rewrite nft_at_721, IH by exact Hc. reflexivity. Qed.
Lemma erc20_small a : a <= U32MAX -> erc20_at a < 2 ^ 160.
Proof. intros H. unfold erc20_at, U32MAX in *. lia. Qed.
Lemma erc721_small c : c <= U32MAX -> erc721_at c < 2 ^ 160.
Proof. intros H. unfold erc721_at, U32MAX in *. lia. Qed.
Lemma wtA n : n < 2 ^ 160 -> wt tA (VN n).
Proof. intros H. exact H. Qed.
Lemma wtU n : n < 2 ^ 256 -> wt tU (VN n).
Proof. apply wt_tU. Qed.

Lemma uints_wt l : Forall (fun n => n < 2 ^ 256) l -> N.of_nat (length l) <= U32MAX ->
  wt tUs (uints l) /\ nlen (enc tUs (uints l)) = 32 + 32 * N.of_nat (length l).
Proof.
  intros H1 H2. assert (W : Forall (wt tU) (map VN l)) by (apply Forall_map; eapply Forall_impl; [exact H1|intros x Hx; apply wt_tU; exact Hx]).
  split; [apply wt_vec; split; [rewrite map_length; exact H2|exact W]|]. unfold uints. rewrite enc_us_len, map_length by exact W. reflexivity.
Qed.
Lemma addrs_wt l : Forall (fun n => n < 2 ^ 160) l -> N.of_nat (length l) <= U32MAX ->
  wt tAs (uints l) /\ nlen (enc tAs (uints l)) = 32 + 32 * N.of_nat (length l).
Proof.
  intros H1 H2. split.
  - apply wt_vec. split; [rewrite map_length; exact H2|]. apply Forall_map. exact H1.
  - change (enc tAs (uints l)) with (enc tUs (uints l)). apply uints_wt; [|exact H2]. eapply Forall_impl; [exact H1|]. cbv beta. intros; lia.
Qed.
Lemma token_count_cons n ns : token_count (n :: ns) = N.of_nat (length n) + token_count ns.
Proof. unfold token_count, list_sum. cbn [map fold_right]. lia. Qed.
Lemma nested_wt ns : Forall (Forall (fun n => n < 2 ^ 256)) ns -> N.of_nat (length ns) <= U32MAX -> Forall (fun l => N.of_nat (length l) <= U32MAX) ns ->
  wt (TVec U32MAX tUs) (VL (map uints ns)) /\
  nlen (enc (TVec U32MAX tUs) (VL (map uints ns))) = 32 + 64 * N.of_nat (length ns) + 32 * token_count ns.
Proof.
  intros H1 H2 H3. split.
  - apply wt_vec. split; [rewrite map_length; exact H2|]. apply Forall_map. rewrite Forall_forall in H1, H3 |- *. intros l Hl.
    apply uints_wt; [apply H1, Hl|apply H3, Hl].
  - change (enc (TVec U32MAX tUs) (VL (map uints ns))) with
      (word (N.of_nat (length (map uints ns))) ++ abi_seq (map (fun x => (is_static tUs, enc tUs x)) (map uints ns))).
    rewrite nlen_app, nlen_word. change (is_static tUs) with false. unfold abi_seq. rewrite nlen_app. unfold nlen at 1. rewrite heads_length.
    clear H2. assert (H : hsize (map (fun x => (false, enc tUs x)) (map uints ns)) = (32 * length ns)%nat /\
                nlen (tails (map (fun x => (false, enc tUs x)) (map uints ns))) = 32 * N.of_nat (length ns) + 32 * token_count ns).
    { induction ns as [|l ns IH]; [split; reflexivity|]. apply Forall_cons_1 in H1, H3. destruct H1 as [A1 A2], H3 as [B1 B2].
      destruct (IH A2 B2) as [IH1 IH2]. cbn [map hsize tails length]. rewrite IH1, nlen_app, IH2, token_count_cons.
      rewrite (proj2 (uints_wt l A1 B1)). split; lia. }
    destruct H as [-> ->]. lia.
Qed.
Lemma lenW n : length (enc tA (VN n)) = 32%nat.
Proof. exact (word_length n). Qed.
Lemma lenU n : length (enc tU (VN n)) = 32%nat.
Proof. exact (word_length n). Qed.
Ltac enc_len := unfold enc_all, abi_seq; rewrite nlen_app; unfold nlen at 1; rewrite heads_length; unfold AbiProofs.parts;
  change (is_static tU) with true; change (is_static tA) with true; change (is_static tAs) with false; change (is_static tUs) with false;
  change (is_static (TVec U32MAX tUs)) with false; cbn [hsize tails];
  rewrite ?app_nil_l, ?app_nil_r, ?nlen_app, ?lenU, ?lenW; change (nlen []) with 0.

Lemma withdraw20_read ben a amt : ben < 2 ^ 160 -> a <= U32MAX -> amt < 2 ^ 256 ->
  read_selector (withdraw20 ben a amt) = Ok B_erc20Withdraw /\
  read_args [tA; tA; tU] (withdraw20 ben a amt) = Ok [VN ben; VN (erc20_at a); VN amt].
Proof.
  intros H1 H2 H3. apply call_reads; [enc_len; unfold USIZE, U32MAX; lia| |reflexivity].
  split; [apply wtA, H1|]. split; [apply wtA, erc20_small, H2|]. split; [apply wtU, H3|exact I].
Qed.
(** Lists of a size that a call can have. *)
Definition sized (cs : list N) (ns : list (list N)) : Prop :=
  Forall (fun c => c <= U32MAX) cs /\ Forall (Forall (fun n => n < 2 ^ 256)) ns /\
  N.of_nat (length cs) <= 2 ^ 20 /\ N.of_nat (length ns) <= 2 ^ 20 /\ token_count ns <= 2 ^ 20.
Lemma sized_each ns : token_count ns <= 2 ^ 20 -> Forall (fun l : list N => N.of_nat (length l) <= U32MAX) ns.
Proof.
  induction ns as [|l ns IH]; [constructor|]. rewrite token_count_cons. intros H. constructor; [unfold U32MAX; lia|]. apply IH. lia.
Qed.
Lemma withdraw721_read ben cs ns : ben < 2 ^ 160 -> sized cs ns ->
  read_selector (withdraw721 ben cs ns) = Ok B_erc721Withdraw /\
  read_args [tA; tAs; TVec U32MAX tUs] (withdraw721 ben cs ns) = Ok [VN ben; uints (map erc721_at cs); VL (map uints ns)].
Proof.
  intros H1 (A1 & A2 & A3 & A4 & A5).
  destruct (addrs_wt (map erc721_at cs)) as [W1 L1].
  { apply Forall_map. eapply Forall_impl; [exact A1|]. intros c Hc. apply erc721_small, Hc. }
  { rewrite map_length. unfold U32MAX. lia. }
  destruct (nested_wt ns A2) as [W2 L2]; [unfold U32MAX; lia|apply sized_each, A5|].
  apply call_reads; [enc_len; rewrite L1, L2, map_length; unfold USIZE, U32MAX; lia| |reflexivity].
  split; [apply wtA, H1|]. split; [exact W1|]. split; [exact W2|exact I].
Qed.
(** The messages. *)
Lemma msg20_len token amt ben : nlen (erc20_msg token amt ben) = 96.
Proof. unfold erc20_msg. enc_len. reflexivity. Qed.
Lemma msg20_read token amt ben : token < 2 ^ 160 -> amt < 2 ^ 256 -> ben < 2 ^ 160 ->
  exists c, read_all [tA; tU; tA] (erc20_msg token amt ben) 0 = Ok ([VN token; VN amt; VN ben], c).
Proof.
  intros H1 H2 H3. eexists. apply read_enc; [|change (nlen (erc20_msg token amt ben) <= USIZE); rewrite msg20_len; unfold USIZE, U32MAX; lia].
  split; [apply wtA, H1|]. split; [apply wtU, H2|]. split; [apply wtA, H3|exact I].
Qed.
Lemma msg721_shape m dest : erc721_msg m dest = enc_all [tAs; TVec U32MAX tUs; tA] [uints (map fst m); VL (map uints (map snd m)); VN dest].
Proof. unfold erc721_msg, uints. rewrite !map_map. reflexivity. Qed.
Definition decent (m : list (N * list N)) : Prop :=
  Forall (fun g => fst g < 2 ^ 160 /\ Forall (fun n => n < 2 ^ 256) (snd g)) m /\ N.of_nat (length m) <= 2 ^ 20 /\ token_count (map snd m) <= 2 ^ 20.
Lemma decent_wt m : decent m -> (wt tAs (uints (map fst m)) /\ nlen (enc tAs (uints (map fst m))) = 32 + 32 * N.of_nat (length m)) /\
  wt (TVec U32MAX tUs) (VL (map uints (map snd m))) /\
  nlen (enc (TVec U32MAX tUs) (VL (map uints (map snd m)))) = 32 + 64 * N.of_nat (length m) + 32 * token_count (map snd m).
Proof.
  intros (D1 & D2 & D3). split.
  - destruct (addrs_wt (map fst m)) as [W L]; [|rewrite map_length; unfold U32MAX; lia|].
    + apply Forall_map. eapply Forall_impl; [exact D1|]. cbv beta. tauto.
    + rewrite L, map_length. auto.
  - destruct (nested_wt (map snd m)) as [W L]; [|rewrite map_length; unfold U32MAX; lia|apply sized_each, D3|].
    + apply Forall_map. eapply Forall_impl; [exact D1|]. cbv beta. tauto.
    + rewrite L, map_length. auto.
Qed.
Lemma msg721_len m dest : decent m -> nlen (erc721_msg m dest) = 32 * (5 + 3 * N.of_nat (length m) + token_count (map snd m)).
Proof. intros D. destruct (decent_wt m D) as [[_ L1] [_ L2]]. rewrite msg721_shape. enc_len. rewrite L1, L2. lia. Qed.
Lemma msg721_read m dest : decent m -> dest < 2 ^ 160 ->
  exists c, read_all [tAs; TVec U32MAX tUs; tA] (erc721_msg m dest) 0 = Ok ([uints (map fst m); VL (map uints (map snd m)); VN dest], c).
Proof.
  intros D H. destruct (decent_wt m D) as [[W1 L1] [W2 L2]]. eexists. rewrite msg721_shape. apply read_enc.
  - split; [exact W1|]. split; [exact W2|]. split; [apply wtA, H|exact I].
  - rewrite <- msg721_shape, msg721_len by exact D. destruct D as (_ & D2 & D3). unfold USIZE, U32MAX. lia.
Qed.
Lemma items_uints l : items (uints l) = l.
Proof. apply nums_map. Qed.

(** ** What a successful call does *)
Definition undelayed (p : PegModel.peg) (a amt : N) : Prop :=
  forall mn d, PegModel.pdl p !! a = Some (mn, d) -> PegModel.wdel (PegModel.pcf p) = true -> amt < mn.
Section pegpre.
  Variables native pot maxready rd wr : N.
  Variables cap mint_limit pallet : N.
  Variables max_addr max_tok max_coll max_ser max_id : N.
  Variables nsrc max_data : N.
  Notation b_execute := (b_execute native pot max_coll max_ser nsrc max_data).
  Notation b_erc20 := (b_erc20 native pot max_data).
  Notation b_erc721 := (b_erc721 max_coll max_ser nsrc max_data).
  Notation bstep := (bstep native pot maxready rd wr cap mint_limit pallet max_addr max_tok max_coll max_ser max_id nsrc max_data).
  Notation pstep := (PegModel.pstep native pot maxready rd wr).
  Notation gstep := (NftPegModel.gstep cap mint_limit pallet max_addr max_tok max_coll max_ser max_id).
  Notation withdraw := (NftPegModel.withdraw max_coll max_ser).
  Implicit Types s : bst.

  Lemma now_or_never p who a amt ben token : PegModel.wd_on (PegModel.pcf p) = true -> PegModel.a2e p !! a = Some token -> undelayed p a amt ->
    PegModel.do_withdrawal native pot p who a amt ben true =
    (do! l <- PegModel.burn_or_transfer native pot (PegModel.pbk p) a who amt; Ok (PegModel.send (PegModel.p_bk p l) None a who token amt ben)).
  Proof.
    intros H1 H2 H3. unfold PegModel.do_withdrawal. rewrite H1, H2. cbn [ensure rbind of_opt]. cbv zeta. unfold undelayed in H3.
    destruct (PegModel.pdl p !! a) as [[mn d]|]; [|reflexivity]. specialize (H3 mn d eq_refl).
    destruct (PegModel.wdel (PegModel.pcf p)); [|reflexivity]. cbn [andb]. rewrite (proj2 (N.leb_gt mn amt)) by (apply H3; reflexivity). reflexivity.
  Qed.
  Lemma withdrawal_inv p who a amt ben p' : PegModel.do_withdrawal native pot p who a amt ben true = Ok p' ->
    PegModel.wd_on (PegModel.pcf p) = true /\ undelayed p a amt /\
    exists token l, PegModel.a2e p !! a = Some token /\ PegModel.burn_or_transfer native pot (PegModel.pbk p) a who amt = Ok l /\
      p' = PegModel.send (PegModel.p_bk p l) None a who token amt ben.
  Proof.
    intros H. destruct (PegModel.wd_on (PegModel.pcf p)) eqn:E1; [|unfold PegModel.do_withdrawal in H; rewrite E1 in H; discriminate].
    destruct (PegModel.a2e p !! a) as [token|] eqn:E2; [|unfold PegModel.do_withdrawal in H; rewrite E1, E2 in H; discriminate].
    assert (U : undelayed p a amt).
    { intros mn d Hd Hw. unfold PegModel.do_withdrawal in H. rewrite E1, E2, Hd, Hw in H. cbn [ensure rbind of_opt andb] in H. cbv zeta in H.
      destruct (N.leb_spec mn amt) as [_|Hlt]; [discriminate|exact Hlt]. }
    split; [reflexivity|]. split; [exact U|]. rewrite (now_or_never _ _ _ _ _ _ E1 E2 U) in H.
    destruct (PegModel.burn_or_transfer native pot (PegModel.pbk p) a who amt) as [l|]; [|discriminate]. cbn [rbind] in H. apply Ok_inj in H.
    exists token, l. auto.
  Qed.
  Definition after20 s caller a amt ben asset token l : bst :=
    Bst (PegModel.send (PegModel.p_bk (b_peg s) l) None a caller token amt ben) (b_np s) (b_nftpeg s) ((b_next s + 1) mod 2 ^ 64)
      (b_out s ++ [Msg (b_next s) pot (erc20_dst native (b_peg s) a) (erc20_msg token amt ben)])
      (b_logs s ++ [Elog PEG_ADDR [H_Erc20Withdrawal; b_next s; ben; asset] (out [tU128] [VN amt])]).
  Lemma erc20_inv s caller call s' o : b_erc20 s caller call = Ok (s', o) ->
    exists ben asset a amt token l, read_args [tA; tA; tU] call = Ok [VN ben; VN asset; VN amt] /\ asset_at asset = Some a /\ amt <= U128MAX /\
      PegModel.wd_on (PegModel.pcf (b_peg s)) = true /\ undelayed (b_peg s) a amt /\ PegModel.a2e (b_peg s) !! a = Some token /\
      PegModel.burn_or_transfer native pot (PegModel.pbk (b_peg s)) a caller amt = Ok l /\ 96 <= max_data /\
      s' = after20 s caller a amt ben asset token l /\ o = out [tU] [VN (b_next s)].
  Proof.
    unfold PegPreModel.b_erc20. intros H. apply rbind_ok in H. destruct H as (args & R & H).
    destruct args as [|[ben| |] [|[asset| |] [|[amt| |] [|]]]]; try discriminate.
    apply rbind_ok in H. destruct H as (a & Ha & H). apply of_opt_ok in Ha.
    destruct (N.leb_spec amt U128MAX) as [Hu|]; [|discriminate]. cbn [ensure rbind] in H.
    apply rbind_ok in H. destruct H as (p & Hp & H). apply withdrawal_inv in Hp. destruct Hp as (P1 & P2 & token & l & P3 & P4 & ->).
    rewrite P3 in H. cbn [of_opt rbind] in H. unfold send_event in H.
    rewrite msg20_len in H. destruct (N.leb_spec 96 max_data) as [Hd|]; [|discriminate]. cbn [ensure rbind fst snd] in H. apply Ok_inj in H.
    injection H as <- <-. exists ben, asset, a, amt, token, l. tauto.
  Qed.
  Lemma erc20_ok s caller call ben asset a amt token l : read_args [tA; tA; tU] call = Ok [VN ben; VN asset; VN amt] -> asset_at asset = Some a -> amt <= U128MAX ->
    PegModel.wd_on (PegModel.pcf (b_peg s)) = true -> undelayed (b_peg s) a amt -> PegModel.a2e (b_peg s) !! a = Some token ->
    PegModel.burn_or_transfer native pot (PegModel.pbk (b_peg s)) a caller amt = Ok l -> 96 <= max_data ->
    b_erc20 s caller call = Ok (after20 s caller a amt ben asset token l, out [tU] [VN (b_next s)]).
  Proof.
    intros R Ha Hu P1 P2 P3 P4 Hd. unfold PegPreModel.b_erc20. rewrite R. cbn [rbind]. rewrite Ha. cbn [of_opt rbind].
    rewrite (proj2 (N.leb_le _ _) Hu). cbn [ensure rbind]. rewrite (now_or_never _ _ _ _ _ _ P1 P3 P2), P4. cbn [rbind].
    rewrite P3. cbn [of_opt rbind]. unfold send_event. rewrite msg20_len, (proj2 (N.leb_le _ _) Hd). cbn [ensure rbind fst snd]. reflexivity.
  Qed.
  Definition after721 s np m ben addrs ns : bst :=
    Bst (b_peg s) np (b_nftpeg s) ((b_next s + 1) mod 2 ^ 64) (b_out s ++ [Msg (b_next s) nsrc (b_nftpeg s) (erc721_msg m ben)])
      (b_logs s ++ map (fun g => Elog PEG_ADDR [H_Erc721Withdrawal; b_next s; ben; num (fst g)] (out [TVec U32MAX tU32] [VL (map VN (snd g))]))
                       (combine addrs ns)).
  Lemma last_out np who cs ns ben np' : withdraw np who cs ns ben = Ok np' ->
    exists m, NftPegModel.g_out np' = NftPegModel.g_out np ++ [(m, ben)] /\ fst (List.last (NftPegModel.g_out np') ([], 0)) = m.
  Proof.
    intros H. destruct (NftPegProps.C56_burned _ _ _ _ _ _ _ _ H) as (m & E & _). exists m. split; [exact E|]. rewrite E, last_last. reflexivity.
  Qed.
  Lemma erc721_inv s caller call s' o : b_erc721 s caller call = Ok (s', o) ->
    exists ben addrs serials cs np m, read_args [tA; tAs; TVec U32MAX tUs] call = Ok [VN ben; VL addrs; VL serials] /\ nfts_at addrs = Some cs /\
      forallb (all_le U32MAX) (map items serials) = true /\
      withdraw (b_np s) caller cs (map items serials) ben = Ok np /\ NftPegModel.g_out np = NftPegModel.g_out (b_np s) ++ [(m, ben)] /\
      nlen (erc721_msg m ben) <= max_data /\
      s' = after721 s np m ben addrs (map items serials) /\ o = out [tU] [VN (b_next s)].
  Proof.
    unfold PegPreModel.b_erc721. intros H. apply rbind_ok in H. destruct H as (args & R & H).
    destruct args as [|[ben| |] [|[|addrs|addrs] [|[|serials|serials] [|]]]]; try discriminate.
    apply rbind_ok in H. destruct H as (cs & Hc & H). apply of_opt_ok in Hc. cbv zeta in H.
    destruct (forallb (all_le U32MAX) (map items serials)) eqn:Hu; [|discriminate]. cbn [ensure rbind] in H.
    apply rbind_ok in H. destruct H as (np & Hp & H). destruct (last_out _ _ _ _ _ _ Hp) as (m & Ho & Hl). rewrite Hl in H. unfold send_event in H.
    destruct (N.leb_spec (nlen (erc721_msg m ben)) max_data) as [Hd|]; [|discriminate]. cbn [ensure rbind fst snd] in H. apply Ok_inj in H.
    injection H as <- <-. exists ben, addrs, serials, cs, np, m. split; [exact R|]. split; [exact Hc|]. split; [exact Hu|]. split; [exact Hp|]. auto.
  Qed.
  Lemma erc721_ok s caller call ben addrs serials cs : read_args [tA; tAs; TVec U32MAX tUs] call = Ok [VN ben; VL addrs; VL serials] -> nfts_at addrs = Some cs ->
    forallb (all_le U32MAX) (map items serials) = true ->
    forall np m, withdraw (b_np s) caller cs (map items serials) ben = Ok np -> NftPegModel.g_out np = NftPegModel.g_out (b_np s) ++ [(m, ben)] ->
    nlen (erc721_msg m ben) <= max_data ->
    b_erc721 s caller call = Ok (after721 s np m ben addrs (map items serials), out [tU] [VN (b_next s)]).
  Proof.
    intros R Hc Hu np m Hw Ho Hd. unfold PegPreModel.b_erc721. rewrite R. cbn [rbind]. rewrite Hc. cbn [of_opt rbind]. cbv zeta. rewrite Hu. cbn [ensure rbind].
    rewrite Hw. cbn [rbind]. rewrite Ho, last_last. cbn [fst]. unfold send_event. rewrite (proj2 (N.leb_le _ _) Hd). reflexivity.
  Qed.
  Lemma exec_inv s caller static value call s' o : b_execute s caller static value call = Ok (s', o) ->
    static = false /\ value = 0 /\
    ((read_selector call = Ok B_erc20Withdraw /\ b_erc20 s caller call = Ok (s', o)) \/
     (read_selector call = Ok B_erc721Withdraw /\ b_erc721 s caller call = Ok (s', o))).
  Proof.
    unfold PegPreModel.b_execute. intros H. apply rbind_ok in H. destruct H as (sel & Hs & H).
    destruct ((sel =? B_erc20Withdraw) || (sel =? B_erc721Withdraw)) eqn:E; [|discriminate]. cbn [ensure rbind] in H.
    destruct static; [discriminate|]. cbn [negb ensure rbind] in H.
    destruct (N.eqb_spec value 0) as [Hv|]; [|discriminate]. cbn [ensure rbind] in H.
    split; [reflexivity|]. split; [exact Hv|]. destruct (N.eqb_spec sel B_erc20Withdraw) as [->|Hn]; [left; auto|]. cbn [orb] in E.
    apply N.eqb_eq in E. subst sel. right. auto.
  Qed.
  Lemma exec_20 s caller call : read_selector call = Ok B_erc20Withdraw -> b_execute s caller false 0 call = b_erc20 s caller call.
  Proof. intros H. unfold PegPreModel.b_execute. rewrite H. reflexivity. Qed.
  Lemma exec_721 s caller call : read_selector call = Ok B_erc721Withdraw -> b_execute s caller false 0 call = b_erc721 s caller call.
  Proof. intros H. unfold PegPreModel.b_execute. rewrite H. reflexivity. Qed.

  (** ** Both pegs go through operations of their own *)
  Lemma send_event_frame s src dst m r : send_event max_data s src dst m = Ok r -> b_peg (fst r) = b_peg s /\ b_np (fst r) = b_np s.
  Proof. unfold send_event. destruct (_ <=? _); [|discriminate]. cbn [ensure rbind]. intros H. apply Ok_inj in H. subst r. auto. Qed.
  Lemma sends_frame l : forall s, b_peg (fold_left (sends native pot max_data) l s) = b_peg s /\ b_np (fold_left (sends native pot max_data) l s) = b_np s.
  Proof.
    induction l as [|e l IH]; intros s; [auto|]. cbn [fold_left]. destruct (IH (sends native pot max_data s e)) as [-> ->].
    destruct e; cbn [sends]; try (split; reflexivity).
    destruct (send_event _ _ _ _ _) as [r|] eqn:E; [|auto]. exact (send_event_frame _ _ _ _ _ E).
  Qed.
  Lemma peg_step s x : b_peg (bstep s x) = b_peg s \/
    (exists o, b_peg (bstep s x) = pstep (b_peg s) o /\ (x = BPeg o \/ exists caller st v call a amt ben, x = BCall caller st v call /\ o = PegModel.PWithdraw caller a amt ben true)).
  Proof.
    destruct x as [o|o|src dst m|a|caller st v call]; cbn [PegPreModel.bstep].
    - right. exists o. split; [|left; reflexivity]. unfold b_peg_op. cbv zeta. rewrite (proj1 (sends_frame _ _)). reflexivity.
    - left. unfold b_nft_op. cbv zeta. destruct (Nat.eqb _ _); [reflexivity|]. destruct (send_event _ _ _ _ _) as [r|] eqn:E; [|reflexivity].
      rewrite (proj1 (send_event_frame _ _ _ _ _ E)). reflexivity.
    - left. destruct (send_event _ _ _ _ _) as [r|] eqn:E; [|reflexivity]. exact (proj1 (send_event_frame _ _ _ _ _ E)).
    - left. reflexivity.
    - destruct (b_execute s caller st v call) as [[s' out]|] eqn:E; [|left; reflexivity]. cbn [fst]. apply exec_inv in E.
      destruct E as (_ & _ & [[_ E]|[_ E]]).
      + right. apply erc20_inv in E. destruct E as (ben & asset & a & amt & token & l & R & A1 & A2 & A3 & A4 & A5 & A6 & A7 & -> & _).
        exists (PegModel.PWithdraw caller a amt ben true). split; [|right; eauto 10].
        unfold PegModel.pstep. cbn [PegModel.pexec]. rewrite (proj2 (N.leb_le _ _) A2). cbn [ensure rbind].
        rewrite (now_or_never _ _ _ _ _ _ A3 A5 A4), A6. reflexivity.
      + left. apply erc721_inv in E. destruct E as (ben & addrs & serials & cs & np & m & R & A1 & A2 & A3 & A4 & A5 & -> & _). reflexivity.
  Qed.
  Lemma nft_step s x : b_np (bstep s x) = b_np s \/
    (exists o, b_np (bstep s x) = gstep (b_np s) o /\ (x = BNft o \/ exists caller st v call cs ns ben, x = BCall caller st v call /\ o = NftPegModel.PWithdraw caller cs ns ben)).
  Proof.
    destruct x as [o|o|src dst m|a|caller st v call]; cbn [PegPreModel.bstep].
    - left. unfold b_peg_op. cbv zeta. rewrite (proj2 (sends_frame _ _)). reflexivity.
    - unfold b_nft_op. cbv zeta. destruct (Nat.eqb _ _); [right; exists o; split; [reflexivity|left; reflexivity]|].
      destruct (send_event _ _ _ _ _) as [r|] eqn:E; [|left; reflexivity].
      right. exists o. rewrite (proj2 (send_event_frame _ _ _ _ _ E)). split; [reflexivity|left; reflexivity].
    - left. destruct (send_event _ _ _ _ _) as [r|] eqn:E; [|reflexivity]. exact (proj2 (send_event_frame _ _ _ _ _ E)).
    - left. reflexivity.
    - destruct (b_execute s caller st v call) as [[s' out]|] eqn:E; [|left; reflexivity]. cbn [fst]. apply exec_inv in E.
      destruct E as (_ & _ & [[_ E]|[_ E]]).
      + left. apply erc20_inv in E. destruct E as (ben & asset & a & amt & token & l & R & A1 & A2 & A3 & A4 & A5 & A6 & A7 & -> & _). reflexivity.
      + right. apply erc721_inv in E. destruct E as (ben & addrs & serials & cs & np & m & R & A1 & A2 & A3 & A4 & A5 & -> & _).
        exists (NftPegModel.PWithdraw caller cs (map items serials) ben). split; [|right; eauto 10]. cbn [NftPegModel.gstep after721 b_np]. rewrite A3. reflexivity.
  Qed.

  (** ** The queue of messages *)
  Definition numbered s : Prop := b_next s = N.of_nat (length (b_out s)) mod 2 ^ 64 /\
    forall i m, nth_error (b_out s) i = Some m -> mg_id m = N.of_nat i mod 2 ^ 64.
  Lemma numbered_add s p np c m l : numbered s -> mg_id m = b_next s ->
    numbered (Bst p np c ((b_next s + 1) mod 2 ^ 64) (b_out s ++ [m]) l).
  Proof.
    intros [H1 H2] Hm. split; cbn [b_next b_out].
    - rewrite app_length, H1. cbn [length]. rewrite N.add_mod_idemp_l by discriminate. f_equal. lia.
    - intros i x Hx. destruct (Nat.lt_ge_cases i (length (b_out s))) as [Hi|Hi].
      + rewrite nth_error_app1 in Hx by exact Hi. apply H2, Hx.
      + rewrite nth_error_app2 in Hx by exact Hi. destruct (i - length (b_out s))%nat as [|k] eqn:Ek; [|destruct k; discriminate].
        cbn in Hx. injection Hx as <-. rewrite Hm, H1. f_equal. lia.
  Qed.
  Lemma numbered_event s src dst m r : send_event max_data s src dst m = Ok r -> numbered s -> numbered (fst r).
  Proof.
    unfold send_event. destruct (_ <=? _); [|discriminate]. cbn [ensure rbind]. intros H Hn. apply Ok_inj in H. subst r. cbn [fst].
    apply numbered_add; [exact Hn|reflexivity].
  Qed.
  Lemma numbered_step s x : numbered s -> numbered (bstep s x).
  Proof.
    intros Hn. destruct x as [o|o|src dst m|a|caller st v call]; cbn [PegPreModel.bstep].
    - unfold b_peg_op. cbv zeta. match goal with |- numbered (fold_left _ ?l ?t) => generalize l; assert (Ht : numbered t) by exact Hn; revert Ht; generalize t end.
      clear. intros s Hn l. revert s Hn. induction l as [|e l IH]; intros s Hn; [exact Hn|]. cbn [fold_left]. apply IH.
      destruct e; cbn [sends]; try exact Hn. destruct (send_event _ _ _ _ _) as [r|] eqn:E; [|exact Hn]. exact (numbered_event _ _ _ _ _ E Hn).
    - unfold b_nft_op. cbv zeta. destruct (Nat.eqb _ _); [exact Hn|]. destruct (send_event _ _ _ _ _) as [r|] eqn:E; [|exact Hn].
      apply (numbered_event _ _ _ _ _ E). exact Hn.
    - destruct (send_event _ _ _ _ _) as [r|] eqn:E; [|exact Hn]. exact (numbered_event _ _ _ _ _ E Hn).
    - exact Hn.
    - destruct (b_execute s caller st v call) as [[s' out]|] eqn:E; [|exact Hn]. cbn [fst]. apply exec_inv in E.
      destruct E as (_ & _ & [[_ E]|[_ E]]).
      + apply erc20_inv in E. destruct E as (ben & asset & a & amt & token & l & R & A1 & A2 & A3 & A4 & A5 & A6 & A7 & -> & _).
        apply numbered_add; [exact Hn|reflexivity].
      + apply erc721_inv in E. destruct E as (ben & addrs & serials & cs & np & m & R & A1 & A2 & A3 & A4 & A5 & -> & _).
        apply numbered_add; [exact Hn|reflexivity].
  Qed.
  Lemma numbered_run ops first : numbered (run bstep ops (binit first)).
  Proof.
    assert (H0 : numbered (binit first)) by (split; [reflexivity|intros [|i] m; discriminate]). revert H0. generalize (binit first) as s.
    induction ops as [|o ops IH]; intros s Hs; [exact Hs|]. cbn [run fold_left]. apply IH, numbered_step, Hs.
  Qed.
  Lemma next_small s : numbered s -> b_next s < 2 ^ 64.
  Proof. intros [-> _]. apply N.mod_lt. discriminate. Qed.
  Lemma books_run ops first : books (PegModel.pbk (b_peg (run bstep ops (binit first)))).
  Proof.
    assert (H0 : books (PegModel.pbk (b_peg (binit first)))) by apply empty_books. revert H0. generalize (binit first) as s.
    induction ops as [|o ops IH]; intros s Hs; [exact Hs|]. cbn [run fold_left]. apply IH.
    destruct (peg_step s o) as [E|(o' & E & _)]; rewrite E; [exact Hs|]. apply PegTight.step_books, Hs.
  Qed.
End pegpre.
