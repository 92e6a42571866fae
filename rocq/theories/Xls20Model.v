(** XLS-20 tokens: /repo/pallet/xls20/src/{lib,types}.rs, and the withdrawal in /repo/pallet/xrpl-bridge/src/lib.rs 1383-1410,
    on top of the NFT collections of NftModel.v. *)
From Verif Require Export NftModel Ledger.

(** ** Token ids, types.rs.  An id is 32 bytes. *)
Definition be (l : list N) : N := fold_left (fun a b => 256 * a + b) l 0. (* [from_be_bytes] *)
(** [unscramble_taxon], 40-52. *)
Definition unscramble (taxon sequence : N) : N :=
  let scramble := sat U64MAX (384160001 * sequence) mod 4294967296 in
  let scramble := sat U64MAX (scramble + 2459) mod 4294967296 in
  N.lxor taxon (scramble mod 4294967296).
(** [Permill::from_rational(fee, 100_000)], in millionths: rounded down, at most one. *)
Definition permill_rational (p q : N) : N := N.min 1000000 (p * 1000000 / q).
Record xtoken := XToken { xt_flags : N; xt_fee : N; xt_issuer : N; xt_taxon : N; xt_seq : N }.
(** [From<Xls20TokenId>], 55-81. *)
Definition decode (l : list N) : xtoken :=
  let sequence := be (drop 28 l) in
  XToken (be (take 2 l)) (permill_rational (be (take 2 (drop 2 l))) 100000) (be (take 20 (drop 4 l)))
         (unscramble (be (take 4 (drop 24 l))) sequence) sequence.
(** [is_burnable], 35-37. *)
Definition is_burnable (t : xtoken) : bool := N.land (xt_flags t) 1 =? 1.
Definition xkey (l : list N) : N * N := (xt_issuer (decode l), xt_taxon (decode l)). (* [Xls20Collection::new] *)

(** ** The fee, lib.rs 300-324: [token_count] and the fee are cut down to 32 bits. *)
Definition pay_xls20_fee (l : ledger N) (asset : N) (relayer : option N) (fee : N) (who count : N) : result (ledger N) :=
  if fee =? 0 then Ok l
  else match relayer with
       | None => Ok l
       | Some r => transfer l asset who r (sat U32MAX (sat U32MAX count * (fee mod (U32MAX + 1))))
       end.

Section xls20.
  Variable cap mint_limit nft_pallet : N. (* as in NftModel *)
  Variable me : N.                        (* the pallet's account *)
  (** [x_comp]: the collections with [cross_chain_compatibility.xrpl]; [x_cmap]: [CollectionMapping]; [x_tmap]:
      [Xls20TokenMap].  [x_door] is not in storage: the tokens the door account has on the XRPL. *)
  Record xls := Xls { x_nft : nft; x_comp : gset N; x_cmap : gmap (N * N) N; x_tmap : gmap (N * N) (list N); x_relayer : option N;
                      x_door : gset (list N) }.
  Definition xls0 : xls := Xls ninit ∅ ∅ ∅ None ∅.
  Definition to_door (s : xls) (x : list N) : xls := Xls (x_nft s) (x_comp s) (x_cmap s) (x_tmap s) (x_relayer s) ({[x]} ∪ x_door s).

  (** [deposit_xls20_token], lib.rs 368-425; an error does not undo what was written before it.  [newc] is the next
      collection id. *)
  Definition deposit (s : xls) (receiver : N) (x : list N) (newc : N) : xls * bool :=
    let t := decode x in
    if is_burnable t then (s, false)
    else
      match x_cmap s !! xkey x with
      | Some c =>
          match mint_bridged cap (x_nft s) receiver c [xt_seq t] with
          | Err _ => (s, false)
          | Ok n => (Xls n (x_comp s) (x_cmap s) (<[(c, xt_seq t) := x]> (x_tmap s)) (x_relayer s) (x_door s), true)
          end
      | None =>
          match create cap mint_limit (x_nft s) newc me 0 None me false with
          | Err _ => (s, false)
          | Ok n1 =>
              let s1 := Xls n1 ({[newc]} ∪ x_comp s) (<[xkey x := newc]> (x_cmap s)) (x_tmap s) (x_relayer s) (x_door s) in
              match mint_bridged cap n1 receiver newc [xt_seq t] with
              | Err _ => (s1, false)
              | Ok n => (Xls n (x_comp s1) (x_cmap s1) (<[(newc, xt_seq t) := x]> (x_tmap s1)) (x_relayer s1) (x_door s1), true)
              end
          end
      end.
  (** [do_nft_withdrawal], xrpl-bridge lib.rs 1384-1410: which token the door is asked to offer.  [ok]: a door address, a
      ticket and the signing request succeed. *)
  Definition withdraw (s : xls) (who c n : N) (ok : bool) : result (xls * list N) :=
    do! _ <- of_opt (colls (x_nft s) !! c) 1;
    ensure! bool_decide (c ∈ x_comp s) else 2;
    do! f <- do_burn (x_nft s) who c n;
    do! x <- of_opt (x_tmap s !! (c, n)) 3;
    ensure! ok else 4;
    Ok (Xls f (x_comp s) (x_cmap s) (x_tmap s) (x_relayer s) (x_door s ∖ {[x]}), x).
  (** [enable_xls20_compatibility], nft/src/impls.rs 507-525. *)
  Definition compat (s : xls) (who c : N) : result xls :=
    do! i <- of_opt (colls (x_nft s) !! c) 1;
    ensure! c_owner i =? who else 2;
    ensure! c_iss i =? 0 else 3;
    Ok (Xls (x_nft s) ({[c]} ∪ x_comp s) (x_cmap s) (x_tmap s) (x_relayer s) (x_door s)).
  (** [fulfill_xls20_mint], lib.rs 245-277.  The relayer minted the tokens for the door account. *)
  Definition ful_one (c : N) (i : coll) (s : xls) (m : N * list N) : result xls :=
    ensure! token_exists (c_toks i) (fst m) else 3;
    ensure! bool_decide (x_tmap s !! (c, fst m) = None) else 4;
    Ok (to_door (Xls (x_nft s) (x_comp s) (x_cmap s) (<[(c, fst m) := snd m]> (x_tmap s)) (x_relayer s) (x_door s)) (snd m)).
  Fixpoint ful_all (c : N) (i : coll) (s : xls) (ms : list (N * list N)) : result xls :=
    match ms with [] => Ok s | m :: ms' => do! s1 <- ful_one c i s m; ful_all c i s1 ms' end.
  Definition fulfill (s : xls) (who c : N) (ms : list (N * list N)) : result xls :=
    ensure! negb (bool_decide (ms = [])) else 3;
    ensure! bool_decide (x_relayer s = Some who) else 1;
    do! i <- of_opt (colls (x_nft s) !! c) 2;
    ful_all c i s ms.

  (** [XMap]: [set_collection_mappings], 284-294, one at a time.  [XRelayer]: 162-167.  [XNft]: anything done with NFTs;
      a marketplace or NFT-peg action is a sequence of these. *)
  Inductive xop :=
  | XDeposit (receiver : N) (x : list N) (newc : N) | XWithdraw (who c n : N) (ok : bool) | XNft (o : nop) | XCompat (who c : N)
  | XFulfill (who c : N) (ms : list (N * list N)) | XMap (k : N * N) (c : N) | XRelayer (a : N).
  Definition xstep (s : xls) (o : xop) : xls :=
    match o with
    | XDeposit r x newc => to_door (fst (deposit s r x newc)) x
    | XWithdraw who c n ok => match withdraw s who c n ok with Ok (s', _) => s' | Err _ => s end
    | XNft o => Xls (nstep cap mint_limit nft_pallet (x_nft s) o) (x_comp s) (x_cmap s) (x_tmap s) (x_relayer s) (x_door s)
    | XCompat who c => commit s (compat s who c)
    | XFulfill who c ms => commit s (fulfill s who c ms)
    | XMap k c => Xls (x_nft s) (x_comp s) (<[k := c]> (x_cmap s)) (x_tmap s) (x_relayer s) (x_door s)
    | XRelayer a => Xls (x_nft s) (x_comp s) (x_cmap s) (x_tmap s) (Some a) (x_door s)
    end.
End xls20.
