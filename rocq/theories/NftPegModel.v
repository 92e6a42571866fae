(** NFTs bridged from Ethereum.
    Code: /repo/pallet/nft-peg/src/lib.rs and types.rs; minting and burning in NftModel.v.
    The ABI decoding of the message (lib.rs 201-253) is taken for granted: the model starts from
    the decoded address list and token-id lists.  [send_event] of the bridge always succeeds. *)
From Verif Require Export NftModel.

(** Storage (lib.rs 68-88).  [g_eth]: collections with [OriginChain::Ethereum]; [g_id]: the next
    collection id; [g_out]: the release messages sent.  [g_held] is a ghost: the tokens (contract
    address, token id) that the peg contract on Ethereum keeps. *)
Record npeg := NPeg {
  g_nft : nft;
  g_e2r : gmap N N;                        (* EthToRootNft *)
  g_r2e : gmap N N;                        (* RootNftToErc721 *)
  g_eth : gmap N unit;
  g_blocked : gmap N (N * N * list N);     (* BlockedTokens: collection, destination, serials *)
  g_nextb : N;                             (* NextBlockedMintId *)
  g_id : N;
  g_held : gmap (N * N) unit;
  g_out : list (list (N * list N) * N)
}.
Definition g_with_nft (s : npeg) (x : nft) : npeg :=
  NPeg x (g_e2r s) (g_r2e s) (g_eth s) (g_blocked s) (g_nextb s) (g_id s) (g_held s) (g_out s).
Definition g_with_held (s : npeg) (h : gmap (N * N) unit) : npeg :=
  NPeg (g_nft s) (g_e2r s) (g_r2e s) (g_eth s) (g_blocked s) (g_nextb s) (g_id s) h (g_out s).

Section peg.
  Variables cap mint_limit pallet : N.                    (* of the NFT pallet *)
  Variables max_addr max_tok max_coll max_ser max_id : N. (* bounds of the vectors, ids available *)

  (** [EthToRootNft::get] or create, lib.rs 302-335. *)
  Definition collection_for (s : npeg) (dest a : N) : result (npeg * N) :=
    match g_e2r s !! a with
    | Some c => Ok (s, c)
    | None =>
        let c := g_id s in
        ensure! c <? max_id else 1;
        do! x <- create cap mint_limit (g_nft s) c pallet 0 None dest false;
        Ok (NPeg x (<[a := c]> (g_e2r s)) (<[c := a]> (g_r2e s)) (<[c := tt]> (g_eth s)) (g_blocked s)
              (g_nextb s) (g_id s + 1) (g_held s) (g_out s), c)
    end.
  (** [do_deposit], lib.rs 290-394: the state and whether it ended without error.  An error does
      not undo what was done before (the event handler is not transactional). *)
  Fixpoint do_deposit (s : npeg) (dest : N) (groups : list (N * list N)) : npeg * bool :=
    match groups with
    | [] => (s, true)
    | (a, ns) :: rest =>
        match collection_for s dest a with
        | Err _ => (s, false)
        | Ok (s1, c) =>
            match mint_bridged cap (g_nft s1) dest c ns with
            | Ok x => do_deposit (g_with_nft s1 x) dest rest
            | Err _ =>
                if N.of_nat (length ns) <=? max_ser then
                  (NPeg (g_nft s1) (g_e2r s1) (g_r2e s1) (g_eth s1) (<[g_nextb s1 := (c, dest, ns)]> (g_blocked s1))
                     ((g_nextb s1 + 1) mod 2 ^ 32) (g_id s1) (g_held s1) (g_out s1), false)
                else (s1, false)
            end
        end
    end.
  (** [decode_deposit_event] after ABI decoding, lib.rs 220-280.  Token ids are saturated to 32
      bits (247).  Same bounds for both lists. *)
  Definition deposit (s : npeg) (addrs : list N) (ids : list (list N)) (dest : N) : npeg * bool :=
    if (N.of_nat (length addrs) <=? max_addr) && forallb (fun l => N.of_nat (length l) <=? max_tok) ids
       && (N.of_nat (length ids) <=? max_addr) && Nat.eqb (length addrs) (length ids)
    then do_deposit s dest (combine addrs (map (map (sat U32MAX)) ids))
    else (s, false).

  Fixpoint burn_all (x : nft) (who c : N) (ns : list N) : result nft :=
    match ns with
    | [] => Ok x
    | n :: ns' => do! x' <- do_burn x who c n; burn_all x' who c ns'
    end.
  (** The loop of [do_withdrawal], lib.rs 412-445, without a blocked mint id. *)
  Fixpoint withdraw_loop (s : npeg) (who : N) (l : list (N * list N)) : result (npeg * list (N * list N)) :=
    match l with
    | [] => Ok (s, [])
    | (c, ns) :: rest =>
        ensure! bool_decide (is_Some (colls (g_nft s) !! c)) else 2;
        ensure! bool_decide (is_Some (g_eth s !! c)) else 3;
        do! x <- burn_all (g_nft s) who c ns;
        do! a <- of_opt (g_r2e s !! c) 4;
        do! r <- withdraw_loop (g_with_nft s x) who rest;
        Ok (fst r, (a, ns) :: snd r)
    end.
  (** The released tokens leave the contract. *)
  Definition pairs (l : list (N * list N)) : list (N * N) := flat_map (fun g => map (pair (fst g)) (snd g)) l.
  Definition release (s : npeg) (m : list (N * list N)) (dest : N) : npeg :=
    NPeg (g_nft s) (g_e2r s) (g_r2e s) (g_eth s) (g_blocked s) (g_nextb s) (g_id s)
      (fold_left (fun h k => delete k h) (pairs m) (g_held s)) (g_out s ++ [(m, dest)]).
  (** [withdraw], lib.rs 167-179 and 397-465. *)
  Definition withdraw (s : npeg) (who : N) (cs : list N) (ns : list (list N)) (dest : N) : result npeg :=
    ensure! (N.of_nat (length cs) <=? max_coll) && (N.of_nat (length ns) <=? max_coll)
            && forallb (fun l => N.of_nat (length l) <=? max_ser) ns else 5;
    ensure! Nat.eqb (length cs) (length ns) else 6;
    do! r <- withdraw_loop s who (combine cs ns);
    Ok (release (fst r) (snd r) dest).
  (** [reclaim_blocked_nfts], lib.rs 185-193, 467-486, with the blocked branch of
      [do_withdrawal], 424-432.  The one-element vectors need [max_coll] at least 1. *)
  Definition reclaim (s : npeg) (who id dest : N) : result npeg :=
    do! b <- of_opt (g_blocked s !! id) 7;
    let '(c, d, ns) := b in
    ensure! d =? who else 8;
    ensure! bool_decide (is_Some (colls (g_nft s) !! c)) else 2;
    ensure! bool_decide (is_Some (g_eth s !! c)) else 3;
    do! a <- of_opt (g_r2e s !! c) 4;
    let s1 := NPeg (g_nft s) (g_e2r s) (g_r2e s) (g_eth s) (delete id (g_blocked s)) (g_nextb s) (g_id s) (g_held s) (g_out s) in
    Ok (release s1 [(a, ns)] dest).

  (** Everything that happens.  [PDeposit]: an event from the contract, which then holds the
      tokens, whatever this chain makes of it.  [PCreate]: another collection takes the next id. *)
  Inductive pop :=
  | PDeposit (addrs : list N) (ids : list (list N)) (dest : N)
  | PWithdraw (who : N) (cs : list N) (ns : list (list N)) (dest : N)
  | PReclaim (who id dest : N)
  | PCreate (owner initial : N) (mx : option N) (to : N) (root : bool)
  | PNft (o : nop).
  Definition hold (h : gmap (N * N) unit) (l : list (N * N)) : gmap (N * N) unit :=
    fold_left (fun h k => <[k := tt]> h) l h.
  Definition gstep (s : npeg) (o : pop) : npeg :=
    match o with
    | PDeposit addrs ids dest => fst (deposit (g_with_held s (hold (g_held s) (pairs (combine addrs ids)))) addrs ids dest)
    | PWithdraw who cs ns dest => commit s (withdraw s who cs ns dest)
    | PReclaim who id dest => commit s (reclaim s who id dest)
    | PCreate owner initial mx to root =>
        match create cap mint_limit (g_nft s) (g_id s) owner initial mx to root with
        | Ok x => NPeg x (g_e2r s) (g_r2e s) (g_eth s) (g_blocked s) (g_nextb s) (g_id s + 1) (g_held s) (g_out s)
        | Err _ => s
        end
    | PNft o => g_with_nft s (nstep cap mint_limit pallet (g_nft s) o)
    end.
  Definition ginit : npeg := NPeg ninit ∅ ∅ ∅ ∅ 0 0 ∅ [].
End peg.
