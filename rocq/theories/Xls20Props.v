(** Properties of XLS-20 tokens: C46, C47, C85, C86. *)
From Verif Require Import LedgerProofs Xls20Proofs.

(** ** C46.  Decoding takes every id of the XRPL's format apart into what it was made from; every 32 bytes are such an id; so
    ids with the same parts are the same, and the scrambling of the taxon is its own inverse. *)
Theorem C46_decode_encode flags fee issuer taxon seq :
  flags < 2 ^ 16 -> fee < 2 ^ 16 -> issuer < 2 ^ 160 -> taxon < 2 ^ 32 -> seq < 2 ^ 32 ->
  decode (encode flags fee issuer taxon seq) = XToken flags (10 * fee) issuer taxon seq.
Proof. exact (decode_encode flags fee issuer taxon seq). Qed.
Theorem C46_encode_decode l : bytes 32 l -> exists flags fee issuer taxon seq,
  flags < 2 ^ 16 /\ fee < 2 ^ 16 /\ issuer < 2 ^ 160 /\ taxon < 2 ^ 32 /\ seq < 2 ^ 32 /\
  l = encode flags fee issuer taxon seq /\ decode l = XToken flags (10 * fee) issuer taxon seq.
Proof.
  intros B. destruct (encode_decode l B) as (E & H1 & H2 & H3 & H4 & H5 & H6). set (t := decode l) in *.
  exists (xt_flags t), (xt_fee t / 10), (xt_issuer t), (xt_taxon t), (xt_seq t). repeat split; try assumption; [congruence|].
  rewrite H3. destruct t; reflexivity.
Qed.
Theorem C46_injective l l' : bytes 32 l -> bytes 32 l' -> decode l = decode l' -> l = l'.
Proof. intros B B' E. destruct (encode_decode l B) as (E1 & _), (encode_decode l' B') as (E2 & _). rewrite <- E1, <- E2, E. reflexivity. Qed.
Theorem C46_involution taxon seq : taxon < 2 ^ 32 -> seq < 2 ^ 32 -> unscramble (unscramble taxon seq) seq = taxon /\ unscramble taxon seq < 2 ^ 32.
Proof. intros T S. rewrite !unscramble_spec by exact S. rewrite scramble_involutive. split; [reflexivity|apply scramble_bound, T]. Qed.
(** The example of the XRPL documentation, 000B0C44 95F1..0EE2 BC8B858E 00000D65: taxon 146999694, sequence 3429, burnable. *)
Definition doc_id : list N :=
  [0; 11; 12; 68; 149; 241; 75; 14; 68; 247; 138; 38; 78; 65; 113; 60; 100; 181; 248; 146; 66; 84; 14; 226; 188; 139; 133; 142; 0; 0; 13; 101].
Example ex_doc : xt_taxon (decode doc_id) = 146999694 /\ xt_seq (decode doc_id) = 3429 /\ xt_fee (decode doc_id) = 31400 /\
  is_burnable (decode doc_id) = true /\ bytes 32 doc_id.
Proof. repeat split; try (vm_compute; reflexivity). repeat constructor. Qed.

(** ** C47.  Fee times count, from the owner to the relayer, as long as the product and the fee fit in 32 bits. *)
Theorem C47_fee_exact_partial l asset r fee who count l' : 0 < fee -> fee * count <= U32MAX -> who <> r ->
  pay_xls20_fee l asset (Some r) fee who count = Ok l' ->
  balance l' asset who + fee * count = balance l asset who /\ balance l' asset r = balance l asset r + fee * count.
Proof.
  intros F B Ne E. unfold pay_xls20_fee in E. rewrite (proj2 (N.eqb_neq fee 0)) in E by lia.
  assert (sat U32MAX (sat U32MAX count * (fee mod (U32MAX + 1))) = fee * count) as V.
  { destruct (N.eq_dec count 0) as [->|Hc].
    - rewrite N.mul_0_r. reflexivity.
    - assert (fee <= U32MAX /\ count <= U32MAX) as [F1 C1] by nia. unfold sat. rewrite (N.min_l count) by exact C1.
      rewrite N.mod_small by lia. rewrite (N.mul_comm count fee). apply N.min_l, B. }
  rewrite V in E. apply LedgerProofs.transfer_spec in E as (_ & _ & E).
  pose proof (E asset who) as Ew. pose proof (E asset r) as Er.
  rewrite decide_True in Ew by reflexivity. rewrite decide_False in Ew by congruence.
  rewrite decide_False in Er by congruence. rewrite decide_True in Er by reflexivity. lia.
Qed.
(** Nothing is asked for without a fee or a relayer. *)
Theorem C47_no_fee l asset r fee who count : fee = 0 \/ r = None -> pay_xls20_fee l asset r fee who count = Ok l.
Proof. unfold pay_xls20_fee. intros [-> | ->]; [reflexivity|]. destruct (fee =? 0); reflexivity. Qed.
(** A fee of 2^32 drops (4295 XRP) is charged as nothing; 10 drops more as 10; and 100 tokens at 50 XRP cost 4294.967295. *)
Notation lg x := (Ledger (A := N) {[(2, 1) := x]} {[2 := x]}).
Theorem C47_truncated_refuted : exists (l : ledger N) fee count l' l1 l2,
  pay_xls20_fee l 2 (Some 9) fee 1 count = Ok l' /\ balance l' 2 1 = balance l 2 1 /\ 0 < fee * count /\
  pay_xls20_fee l 2 (Some 9) (fee + 10) 1 count = Ok l1 /\ balance l1 2 9 = 10 * count /\
  pay_xls20_fee l 2 (Some 9) 50000000 1 100 = Ok l2 /\ balance l2 2 9 = 4294967295 /\ 50000000 * 100 <= balance l 2 1.
Proof.
  exists (lg 100000000000), 4294967296, 3. eexists _, _, _. repeat split; try (vm_compute; reflexivity). vm_compute. discriminate.
Qed.
Example ex_fee : exists l', pay_xls20_fee (lg 1000) 2 (Some 9) 100 1 3 = Ok l' /\ balance l' 2 1 = 700 /\ balance l' 2 9 = 300.
Proof. eexists. vm_compute. auto. Qed.

(** ** C85.  Whatever is deposited, minted, moved, burned and withdrawn: a withdrawal asks the door for a token it has, and
    for the one that the NFT stands for; no two NFTs stand for the same token. *)
Section props.
  Variables (cap mint_limit nft_pallet me : N) (world : list N -> Prop).
  Hypothesis Hcap : 1 <= cap.
  Hypothesis Huniq : forall x y, world x -> world y -> xt_issuer (decode x) = xt_issuer (decode y) -> xt_seq (decode x) = xt_seq (decode y) -> x = y.
  Notation xstep := (xstep cap mint_limit nft_pallet me).
  Notation gen := (genuine world).

  Theorem C85_backed_partial ops : along xstep gen ops xls0 ->
    let s := run xstep ops xls0 in
    (forall who c n ok s' x, withdraw s who c n ok = Ok (s', x) ->
       owner_of (x_nft s) c n = Some who /\ x ∈ x_door s /\ x ∉ x_door s' /\ owner_of (x_nft s') c n = None) /\
    (forall c n c' n' x, x_tmap s !! (c, n) = Some x -> x_tmap s !! (c', n') = Some x ->
       owner_of (x_nft s) c n <> None -> owner_of (x_nft s) c' n' <> None -> (c, n) = (c', n')).
  Proof.
    intros A s. pose proof (run_inv_x cap mint_limit nft_pallet me Hcap world Huniq ops xls0 A (inv0 world)) as I. fold s in I.
    pose proof (i_wf _ _ I) as W. split.
    - intros who c n ok s' x E. destruct (withdraw_inv cap Hcap world Huniq s who c n ok s' x I E) as (I' & Ow & _ & D & D' & NL & _).
      repeat split; auto; [apply owner_owns; assumption|]. apply owner_none; [apply I'|]. intros y H. apply NL. exists y. exact H.
    - intros c n c' n' x T T' L L'.
      assert (forall c n, owner_of (x_nft s) c n <> None -> live (x_nft s) c n) as Q.
      { intros d m H. destruct (owner_of (x_nft s) d m) as [y|] eqn:E; [|congruence]. exists y. apply owner_owns; assumption. }
      destruct (i_one _ _ I _ _ _ _ _ T T' (Q _ _ L) (Q _ _ L')) as [-> ->]. reflexivity.
  Qed.
  (** A successful deposit gives the receiver an NFT, and withdrawing that NFT, at any later time, by whoever has it, releases the
      deposited token. *)
  Theorem C85_deposit_partial ops r x newc ops' : along xstep gen (ops ++ XDeposit r x newc :: ops') xls0 ->
    let s := run xstep ops xls0 in let s1 := xstep s (XDeposit r x newc) in let s2 := run xstep ops' s1 in
    snd (deposit cap mint_limit me s r x newc) = true ->
    exists c, owner_of (x_nft s1) c (xt_seq (decode x)) = Some r /\ x_cmap s1 !! xkey x = Some c /\
      forall who ok s' x', withdraw s2 who c (xt_seq (decode x)) ok = Ok (s', x') -> x' = x.
  Proof.
    intros A s s1 s2 Ok1. apply along_app in A as [A0 [G A2]]. fold s in G, A2.
    pose proof (run_inv_x cap mint_limit nft_pallet me Hcap world Huniq ops xls0 A0 (inv0 world)) as I. fold s in I.
    destruct G as [Wx Dx]. destruct (deposit_inv cap mint_limit me Hcap world Huniq s r x newc I Wx Dx) as [I1 Q].
    destruct (Q Ok1) as (c & Hc & Ht & Ow & _). exists c. change (to_door (fst (deposit cap mint_limit me s r x newc)) x) with s1 in *.
    split; [apply owner_owns; [apply I1|exact Ow]|]. split; [exact Hc|]. intros who ok s' x' E.
    pose proof (run_inv_x cap mint_limit nft_pallet me Hcap world Huniq ops' s1 A2 I1) as I2. fold s2 in I2.
    pose proof (run_cmap cap mint_limit nft_pallet me Hcap world Huniq ops' s1 _ _ A2 I1 Hc) as Hc2. fold s2 in Hc2.
    destruct (withdraw_inv cap Hcap world Huniq s2 who c _ ok s' x' I2 E) as (_ & Ow2 & Ht2 & _).
    assert (live (x_nft s2) c (xt_seq (decode x))) as L2 by (exists who; exact Ow2).
    destruct (i_bridged _ _ I2 _ _ _ Hc2 L2) as (y & Ty & Wy & Ky & Sy). rewrite Ht2 in Ty. injection Ty as <-.
    apply Huniq; auto. unfold xkey in Ky. congruence.
  Qed.
  (** ** C86.  An NFT of a collection that came from the XRPL, withdrawn and later deposited again, is the same NFT. *)
  Theorem C86_bridged_round_trip_partial ops who c n ok x s1 ops' r newc k :
    along xstep gen ops xls0 -> let s := run xstep ops xls0 in
    x_cmap s !! k = Some c -> withdraw s who c n ok = Ok (s1, x) ->
    along xstep gen (ops' ++ [XDeposit r x newc]) s1 ->
    let s2 := run xstep ops' s1 in snd (deposit cap mint_limit me s2 r x newc) = true ->
    owner_of (x_nft (xstep s2 (XDeposit r x newc))) c n = Some r.
  Proof.
    intros A s Hk E A' s2 Ok2.
    pose proof (run_inv_x cap mint_limit nft_pallet me Hcap world Huniq ops xls0 A (inv0 world)) as I. fold s in I.
    destruct (withdraw_inv cap Hcap world Huniq s who c n ok s1 x I E) as (I1 & Ow & Ht & _ & _ & _ & Ec).
    assert (live (x_nft s) c n) as L by (exists who; exact Ow).
    destruct (i_bridged _ _ I _ _ _ Hk L) as (y & Ty & Wy & Ky & Sy). rewrite Ht in Ty. injection Ty as <-.
    apply along_app in A' as [A1 [G _]]. fold s2 in G. rewrite <- Ec in Hk.
    pose proof (run_inv_x cap mint_limit nft_pallet me Hcap world Huniq ops' s1 A1 I1) as I2. fold s2 in I2.
    pose proof (run_cmap cap mint_limit nft_pallet me Hcap world Huniq ops' s1 _ _ A1 I1 Hk) as Hk2. fold s2 in Hk2.
    destruct G as [Wx Dx]. destruct (deposit_inv cap mint_limit me Hcap world Huniq s2 r x newc I2 Wx Dx) as [I3 Q].
    destruct (Q Ok2) as (c' & _ & _ & Ow' & Same & _). rewrite Ky in Same. rewrite (Same _ Hk2), <- Sy.
    apply owner_owns; [apply I3|exact Ow'].
  Qed.
End props.

(** ** Where it fails *)
Notation st := (xstep 1000000 1000 8 7).
Notation mk fl issuer taxon seq := (encode fl 0 issuer taxon seq).
(** The root origin maps issuer 5, taxon 0 to a collection of this chain, whose serial 0 belongs to account 1.  Account 2 deposits
    the XRPL token with sequence 0: the deposit succeeds, account 2 gets nothing, and account 1 withdraws account 2's token. *)
Theorem C85_mapped_collection_refuted : exists ops x,
  let s := run st ops xls0 in
  snd (deposit 1000000 1000 7 s 2 x 99) = true /\ x ∉ x_door s /\
  let s1 := st s (XDeposit 2 x 99) in
  owner_of (x_nft s1) 40 0 = Some 1 /\ (forall n, owner_of (x_nft s1) 40 n <> Some 2) /\
  exists s2, withdraw s1 1 40 0 true = Ok (s2, x).
Proof.
  exists [XNft (NCreate 40 1 0 None 1 true); XCompat 1 40; XNft (NMint 1 40 1 1 true); XMap (5, 0) 40], (mk 8 5 0 0).
  cbn zeta. split; [vm_compute; reflexivity|]. split; [vm_compute; intros H; inversion H|]. split; [vm_compute; reflexivity|].
  split; [|eexists; vm_compute; reflexivity]. intros n. unfold owner_of, get_token_owner.
  match goal with |- match ?m !! _ with _ => _ end <> _ => let v := eval vm_compute in (m !! 40) in change (m !! 40) with v end.
  cbn. destruct n; cbn; discriminate.
Qed.
(** A token the issuer can burn is not taken: the door has it, and nobody gets an NFT for it. *)
Theorem C85_burnable_refuted : exists r x s, is_burnable (decode x) = true /\ s = st xls0 (XDeposit r x 99) /\
  x ∈ x_door s /\ x_tmap s = ∅ /\ colls (x_nft s) = ∅.
Proof.
  exists 2, (mk 9 5 0 0), (st xls0 (XDeposit 2 (mk 9 5 0 0) 99)). repeat split; try (vm_compute; reflexivity).
Qed.
(** A collection of this chain with XLS-20 enabled: NFT 0 is token 77 of issuer 5 on the XRPL.  Withdrawn and deposited again it is
    serial 77 of a new collection. *)
Theorem C86_native_refuted : exists ops x s1 s2,
  let s := run st ops xls0 in
  owner_of (x_nft s) 40 0 = Some 1 /\ withdraw s 1 40 0 true = Ok (s1, x) /\ s2 = st s1 (XDeposit 1 x 41) /\
  snd (deposit 1000000 1000 7 s1 1 x 41) = true /\ owner_of (x_nft s2) 40 0 = None /\ owner_of (x_nft s2) 41 77 = Some 1.
Proof.
  exists [XNft (NCreate 40 1 0 None 1 true); XCompat 1 40; XNft (NMint 1 40 1 1 true); XRelayer 3; XFulfill 3 40 [(0, mk 8 5 0 77)]], (mk 8 5 0 77).
  eexists _, _. repeat split; vm_compute; reflexivity.
Qed.

(** ** The hypotheses are met: two tokens deposited, one moved and withdrawn by the new owner, deposited again. *)
Definition ex_world (x : list N) : Prop := exists seq, seq < 10 /\ x = mk 8 5 3 seq.
Lemma ex_decode a : a < 10 -> decode (mk 8 5 3 a) = XToken 8 0 5 3 a.
Proof. intros A. apply (decode_encode 8 0 5 3 a); [reflexivity|reflexivity|reflexivity|reflexivity|]. eapply N.lt_trans; [exact A|reflexivity]. Qed.
Lemma ex_world_uniq x y : ex_world x -> ex_world y -> xt_issuer (decode x) = xt_issuer (decode y) -> xt_seq (decode x) = xt_seq (decode y) -> x = y.
Proof. intros (a & A & ->) (b & B & ->) _. rewrite (ex_decode a A), (ex_decode b B). cbn [xt_seq]. congruence. Qed.
Definition ex_ops : list xop :=
  [XDeposit 1 (mk 8 5 3 4) 40; XDeposit 2 (mk 8 5 3 6) 41; XNft (NTransfer 1 40 [4] 3); XWithdraw 3 40 4 true].
Example ex_genuine : along st (genuine ex_world) ex_ops xls0.
Proof.
  split; [split; [exists 4; split; reflexivity|apply not_elem_of_empty]|].
  split; [split; [exists 6; split; reflexivity|vm_compute; intros H; inversion H]|].
  split; [split; [exact I|exact I]|]. split; exact I.
Qed.
Example ex_result : let s := run st ex_ops xls0 in
  snd (deposit 1000000 1000 7 s 9 (mk 8 5 3 4) 50) = true /\ owner_of (x_nft (st s (XDeposit 9 (mk 8 5 3 4) 50))) 40 4 = Some 9 /\
  owner_of (x_nft s) 40 6 = Some 2 /\ owner_of (x_nft s) 40 4 = None /\ x_cmap s !! (5, 3) = Some 40 /\ is_ok (withdraw s 2 40 6 true) = true.
Proof. vm_compute. auto 10. Qed.

Print Assumptions C46_decode_encode.
Print Assumptions C46_encode_decode.
Print Assumptions C46_injective.
Print Assumptions C46_involution.
Print Assumptions C47_fee_exact_partial.
Print Assumptions C47_no_fee.
Print Assumptions C47_truncated_refuted.
Print Assumptions C85_backed_partial.
Print Assumptions C85_deposit_partial.
Print Assumptions C85_mapped_collection_refuted.
Print Assumptions C85_burnable_refuted.
Print Assumptions C86_bridged_round_trip_partial.
Print Assumptions C86_native_refuted.
