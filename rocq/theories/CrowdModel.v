(** Model of the crowdsale pallet ([/repo/pallet/crowdsale/src/{lib,impls,types}.rs]) on top of
    the fungible ledger ([Ledger]) and the NFT collections ([NftModel]).

    Accounts are numbers.  The vault account of a sale is a hash of the pallet id and the sale id
    (impls.rs:25-29) whose key nobody holds; here the odd numbers are the vaults and the even ones
    everybody else, which assumes exactly that the hash does not collide.  Asset metadata, voucher
    names, weights and [NextUnsignedAt] (pacing of the offchain worker) are not modelled.  Asset
    ids are fresh by property C10. *)
From Verif Require Export NftModel Ledger.

(** [vault_account], impls.rs:25-29. *)
Definition vault (sid : N) : N := 2 * sid + 1.
Definition is_vault (x : N) : bool := N.odd x.

(** [VOUCHER_DECIMALS], types.rs:10. *)
Definition UNIT : N := 10 ^ 6.

(** [SaleStatus], types.rs:37-50; block numbers that nothing reads are dropped. *)
Inductive status := Pending | Enabled (at_ : N) | Distributing (given : N) | Ended | DistFailed.

(** [SaleInformation], types.rs:13-34 ([vault] is [vault sid], [participant_count] is not read by
    any code). *)
Record sale := Sale {
  s_status : status; s_admin : N; s_pay : N; s_coll : N; s_price : N; s_funds : N;
  s_voucher : N; s_dur : N }.
Definition with_status (i : sale) (st : status) : sale :=
  Sale st (s_admin i) (s_pay i) (s_coll i) (s_price i) (s_funds i) (s_voucher i) (s_dur i).
Definition with_funds (i : sale) (f : N) : sale :=
  Sale (s_status i) (s_admin i) (s_pay i) (s_coll i) (s_price i) f (s_voucher i) (s_dur i).

(** Events [CrowdsaleParticipated] and [CrowdsaleVouchersClaimed], lib.rs:197-215. *)
Inductive event := EPart (sid who amt : N) | EClaim (sid who amt : N).

(** [SaleInfo], [SaleParticipation], [SaleEndBlocks], [SaleDistribution] (lib.rs:144-173), the
    event log, the block number, and the ledger, asset owners and collections of other pallets. *)
Record cs := CS {
  led : ledger N; next_asset : N; a_owner : gmap N N; nfts : nft;
  next_sale : N; sales : gmap N sale; parts : gmap (N * N) N;
  ends : gmap N (list N); dist : list N; now : N; log : list event }.
Definition set_led (s : cs) (l : ledger N) : cs :=
  CS l (next_asset s) (a_owner s) (nfts s) (next_sale s) (sales s) (parts s) (ends s) (dist s) (now s) (log s).
Definition set_nfts (s : cs) (n : nft) : cs :=
  CS (led s) (next_asset s) (a_owner s) n (next_sale s) (sales s) (parts s) (ends s) (dist s) (now s) (log s).
Definition set_sale (s : cs) (sid : N) (i : sale) : cs :=
  CS (led s) (next_asset s) (a_owner s) (nfts s) (next_sale s) (<[sid := i]> (sales s)) (parts s) (ends s) (dist s) (now s) (log s).
Definition set_parts (s : cs) (p : gmap (N * N) N) : cs :=
  CS (led s) (next_asset s) (a_owner s) (nfts s) (next_sale s) (sales s) p (ends s) (dist s) (now s) (log s).
Definition set_ends (s : cs) (e : gmap N (list N)) : cs :=
  CS (led s) (next_asset s) (a_owner s) (nfts s) (next_sale s) (sales s) (parts s) e (dist s) (now s) (log s).
Definition set_dist (s : cs) (d : list N) : cs :=
  CS (led s) (next_asset s) (a_owner s) (nfts s) (next_sale s) (sales s) (parts s) (ends s) d (now s) (log s).
Definition set_now (s : cs) (n : N) : cs :=
  CS (led s) (next_asset s) (a_owner s) (nfts s) (next_sale s) (sales s) (parts s) (ends s) (dist s) n (log s).
Definition emit (s : cs) (e : event) : cs :=
  CS (led s) (next_asset s) (a_owner s) (nfts s) (next_sale s) (sales s) (parts s) (ends s) (dist s) (now s) (log s ++ [e]).
Definition set_assets (s : cs) (n : N) (o : gmap N N) : cs :=
  CS (led s) n o (nfts s) (next_sale s) (sales s) (parts s) (ends s) (dist s) (now s) (log s).
Definition set_next_sale (s : cs) (n : N) : cs :=
  CS (led s) (next_asset s) (a_owner s) (nfts s) n (sales s) (parts s) (ends s) (dist s) (now s) (log s).

(** [calculate_voucher_rewards], impls.rs:67-98. *)
Definition rewards (price funds contribution supply : N) : result N :=
  let target := sat U128MAX (price * supply) in
  let c := sat U256MAX (contribution * UNIT) in
  do! q <- (if target <? funds then of_opt (chk_div (sat U256MAX (c * supply)) funds) 30
            else of_opt (chk_div c price) 31);
  Ok (sat U128MAX q).

(** [transfer_user_vouchers], impls.rs:101-134; returns what it computed, not what it moved. *)
Definition pay_vouchers (l : ledger N) (sid : N) (i : sale) (who contribution supply : N) : result (ledger N * N) :=
  do! claimable <- rewards (s_price i) (s_funds i) contribution supply;
  let v := N.min (balance l (s_voucher i) (vault sid)) claimable in
  do! l' <- transfer l (s_voucher i) (vault sid) who v;
  Ok (l', claimable).

(** [NFTExt::get_collection_issuance], nft/src/impls.rs:604-610, with [.1] required. *)
Definition max_of (s : cs) (c : N) : result N :=
  do! i <- of_opt (colls (nfts s) !! c) 2;
  of_opt (c_max i) 32.

(** The participants of a sale, and the storage iteration order: any order of them, chosen by
    [pick] ([drain_prefix] iterates by hash). *)
Definition parts_of (p : gmap (N * N) N) (sid : N) : list N :=
  map (fun e => snd (fst e)) (List.filter (fun e => fst (fst e) =? sid) (map_to_list p)).
Definition order_of (pick l : list N) : list N :=
  List.filter (fun x => has x l) (remove_dups pick) ++ List.filter (fun x => negb (has x pick)) l.

(** End of a distribution: the admin gets the rest of the vouchers, lib.rs:625-642 and 714-731. *)
Definition sweep (l : ledger N) (sid : N) (i : sale) : ledger N :=
  let b := balance l (s_voucher i) (vault sid) in
  if 0 <? b then commit l (transfer l (s_voucher i) (vault sid) (s_admin i) b) else l.

Section crowd.
  (** NFT limits and pallet account as in [NftModel]; [MaxSalesPerBlock], [MaxConsecutiveSales],
      [MaxPaymentsPerBlock], [MaxSaleDuration], runtime/src/lib.rs:1354-1359. *)
  Variable cap mint_limit pallet max_sales max_dist max_pay max_dur : N.

  (** [create_voucher_asset], impls.rs:33-59. *)
  Definition create_voucher (s : cs) (sid supply : N) : result (cs * N) :=
    let a := next_asset s in
    do! total <- of_opt (chk_mul U128MAX supply UNIT) 33;
    do! l <- Ledger.mint (led s) a (vault sid) total;
    Ok (set_led (set_assets s (a + 1) (<[a := vault sid]> (a_owner s))) l, a).

  (** [initialize], lib.rs:356-429. *)
  Definition initialize (s : cs) (who pay coll price dur : N) : result cs :=
    let sid := next_sale s in
    do! nx <- of_opt (chk_add U64MAX sid 1) 34;
    ensure! bool_decide (is_Some (a_owner s !! pay)) else 35;
    ensure! negb (price =? 0) else 36;
    ensure! dur <=? max_dur else 37;
    do! c <- of_opt (colls (nfts s) !! coll) 2;
    do! m <- of_opt (c_max c) 32;
    ensure! c_iss c =? 0 else 38;
    ensure! negb (c_public c) else 39;
    do! n <- set_owner (nfts s) who coll (vault sid);
    do! (s1, voucher) <- create_voucher (set_nfts (set_next_sale s nx) n) sid m;
    Ok (set_sale s1 sid (Sale Pending who pay coll price 0 voucher dur)).

  (** [enable], lib.rs:444-486. *)
  Definition enable (s : cs) (who sid : N) : result cs :=
    do! i <- of_opt (sales s !! sid) 40;
    ensure! match s_status i with Pending => true | _ => false end else 41;
    ensure! s_admin i =? who else 42;
    let e := sat U32MAX (s_dur i + now s) in
    do! l <- match ends s !! e with
             | Some l => if N.of_nat (length l) <? max_sales then Ok (l ++ [sid]) else Err 43
             | None => Ok [sid]
             end;
    Ok (set_sale (set_ends s (<[e := l]> (ends s))) sid (with_status i (Enabled (now s)))).

  (** [participate], lib.rs:501-554. *)
  Definition participate (s : cs) (who sid amt : N) : result cs :=
    ensure! 0 <? amt else 44;
    do! i <- of_opt (sales s !! sid) 40;
    ensure! match s_status i with Enabled _ => true | _ => false end else 41;
    do! l <- transfer (led s) (s_pay i) who (vault sid) amt;
    let c := match parts s !! (sid, who) with Some c => sat U128MAX (c + amt) | None => amt end in
    Ok (emit (set_sale (set_parts (set_led s l) (<[(sid, who) := c]> (parts s)))
                       sid (with_funds i (sat U128MAX (s_funds i + amt))))
             (EPart sid who amt)).

  (** One round of the loop of [distribute_crowdsale_rewards], lib.rs:592-621: the entry is gone
      from storage whether or not the payment succeeds. *)
  Definition pay_one (sid : N) (i : sale) (supply : N) (st : cs * N) (who : N) : cs * N :=
    let (s, given) := st in
    match parts s !! (sid, who) with
    | None => (s, given)
    | Some c =>
        let s1 := set_parts s (delete (sid, who) (parts s)) in
        match pay_vouchers (led s1) sid i who c supply with
        | Err _ => (s1, given)
        | Ok (l, v) => (emit (set_led s1 l) (EClaim sid who v), sat U128MAX (given + v))
        end
    end.
  (** The end of a round of distribution, lib.rs:623-656 and 710-744. *)
  Definition conclude (s : cs) (sid : N) (i : sale) (given : N) (d : list N) : cs :=
    match parts_of (parts s) sid with
    | [] => set_dist (set_sale (set_led s (sweep (led s) sid i)) sid (with_status i Ended)) d
    | _ => set_sale s sid (with_status i (Distributing given))
    end.

  (** [distribute_crowdsale_rewards], lib.rs:570-658. *)
  Definition distribute (s : cs) (pick : list N) : result cs :=
    do! sid <- of_opt (hd_error (dist s)) 40;
    do! i <- of_opt (sales s !! sid) 40;
    do! given <- match s_status i with Distributing g => Ok g | _ => Err 41 end;
    do! supply <- max_of s (s_coll i);
    let todo := firstn (N.to_nat max_pay) (order_of pick (parts_of (parts s) sid)) in
    let (s1, given1) := fold_left (pay_one sid i supply) todo (s, given) in
    Ok (conclude s1 sid i given1 (tl (dist s))).

  (** [claim_voucher], lib.rs:672-756. *)
  Definition claim_voucher (s : cs) (who sid : N) : result cs :=
    do! i <- of_opt (sales s !! sid) 40;
    do! given <- match s_status i with Distributing g => Ok g | _ => Err 41 end;
    do! c <- of_opt (parts s !! (sid, who)) 45;
    let s1 := set_parts s (delete (sid, who) (parts s)) in
    do! supply <- max_of s (s_coll i);
    do! (l, v) <- match pay_vouchers (led s1) sid i who c supply with Ok r => Ok r | Err _ => Err 46 end;
    Ok (emit (conclude (set_led s1 l) sid i (sat U128MAX (given + v))
                       (List.filter (fun x => negb (x =? sid)) (dist s)))
             (EClaim sid who v)).

  (** [redeem_voucher], lib.rs:771-816.  The quantity is scaled in 32 bits. *)
  Definition redeem (s : cs) (who sid q : N) (ext_ok : bool) : result cs :=
    ensure! 0 <? q else 47;
    do! i <- of_opt (sales s !! sid) 40;
    ensure! match s_status i with Distributing _ | Ended => true | _ => false end else 41;
    do! l <- Ledger.burn (led s) (s_voucher i) who (sat U32MAX (q * UNIT));
    do! n <- NftModel.mint cap mint_limit (nfts s) (vault sid) (s_coll i) q who ext_ok;
    Ok (set_nfts (set_led s l) n).

  (** [try_force_distribution], lib.rs:866-898. *)
  Definition force (s : cs) (sid : N) : result cs :=
    do! i <- of_opt (sales s !! sid) 40;
    ensure! match s_status i with DistFailed => true | _ => false end else 41;
    ensure! N.of_nat (length (dist s)) <? max_dist else 48;
    Ok (set_sale (set_dist s (dist s ++ [sid])) sid
          (with_status i (if s_funds i =? 0 then Ended else Distributing 0))).

  (** [proxy_vault_call], lib.rs:833-859, with [CrowdsaleProxyVaultValidator],
      runtime/src/impls.rs:1110-1129: the calls it lets through (remark, set_base_uri, set_name,
      set_royalties_schedule) change nothing that is modelled. *)
  Definition proxy_vault (s : cs) (who sid : N) : result cs :=
    do! i <- of_opt (sales s !! sid) 40;
    ensure! s_admin i =? who else 42;
    Ok s.

  (** The body of the loop of [close_sales_at], impls.rs:144-214.  [try_mutate] keeps the sale as
      it was when the closure fails, but what the closure did to the ledger stays. *)
  Definition close_one (s : cs) (sid : N) : cs :=
    match sales s !! sid with
    | None => s
    | Some i =>
        match s_status i with
        | Enabled _ =>
            match transfer (led s) (s_pay i) (vault sid) (s_admin i) (s_funds i) with
            | Err _ => s
            | Ok l1 =>
                match max_of s (s_coll i) with
                | Err _ => set_led s l1
                | Ok m =>
                    let target := sat U128MAX (s_price i * m) in
                    let refund := sat U128MAX (m * UNIT) - sat U128MAX (s_funds i * UNIT) / s_price i in
                    match (if s_funds i <? target
                           then transfer l1 (s_voucher i) (vault sid) (s_admin i) refund else Ok l1) with
                    | Err _ => set_led s l1
                    | Ok l2 =>
                        let s2 := set_led s l2 in
                        if s_funds i =? 0 then set_sale s2 sid (with_status i Ended)
                        else if N.of_nat (length (dist s)) <? max_dist
                        then set_sale (set_dist s2 (dist s ++ [sid])) sid (with_status i (Distributing 0))
                        else set_sale s2 sid (with_status i DistFailed)
                    end
                end
            end
        | _ => s
        end
    end.
  (** [close_sales_at], impls.rs:137-216, run by [on_initialize], lib.rs:272-287, of a new block. *)
  Definition new_block (s : cs) : cs :=
    let s1 := set_now s (now s + 1) in
    match ends s1 !! now s1 with
    | None => s1
    | Some l => fold_left close_one l (set_ends s1 (delete (now s1) (ends s1)))
    end.

  (** Who signs an NFT operation ([None]: root, the bridge or another pallet). *)
  Definition nsigner (o : nop) : option N :=
    match o with
    | NCreate _ owner _ _ _ _ => Some owner
    | NMint who _ _ _ _ | NTransfer who _ _ _ | NBurn who _ _ | NTransferFrom who _ _ _ _
    | NBurnFrom who _ _ | NSetMax who _ _ | NSetOwner who _ _ | NSetFlags who _ _ _ _ _
    | NLock who _ _ _ | NApprove who _ _ _ | NUnapprove who _ _ | NApproveAll who _ _ _ => Some who
    | NBridge _ _ _ | NClaim _ _ | NUnlock _ _ => None
    end.

  (** The calls of the pallet, new blocks, and what the other pallets let people do meanwhile:
      create assets, mint and burn assets they own (pallet-assets [mint], [burn]), hand an asset
      over, send tokens, and anything on NFTs. *)
  Inductive cop :=
  | CInit (who pay coll price dur : N)
  | CEnable (who sid : N)
  | CPart (who sid amt : N)
  | CDist (pick : list N)
  | CClaim (who sid : N)
  | CRedeem (who sid q : N) (ext_ok : bool)
  | CForce (who sid : N)
  | CProxy (who sid : N)
  | CBlock
  | CAsset (who : N)
  | CMint (who a to v : N)
  | CBurn (who a from v : N)
  | CGive (who a new : N)
  | CSend (who a to v : N)
  | CNft (o : nop).

  Definition csigner (o : cop) : option N :=
    match o with
    | CInit who _ _ _ _ | CEnable who _ | CPart who _ _ | CClaim who _ | CRedeem who _ _ _
    | CForce who _ | CProxy who _ | CAsset who | CMint who _ _ _ | CBurn who _ _ _ | CGive who _ _
    | CSend who _ _ _ => Some who
    | CDist _ | CBlock => None
    | CNft o => nsigner o
    end.
  Definition owns_asset (s : cs) (who a : N) : bool := bool_decide (a_owner s !! a = Some who).

  Definition cexec (s : cs) (o : cop) : result cs :=
    ensure! match csigner o with Some who => negb (is_vault who) | None => true end else 49;
    match o with
    | CInit who pay coll price dur => initialize s who pay coll price dur
    | CEnable who sid => enable s who sid
    | CPart who sid amt => participate s who sid amt
    | CDist pick => distribute s pick
    | CClaim who sid => claim_voucher s who sid
    | CRedeem who sid q e => redeem s who sid q e
    | CForce _ sid => force s sid
    | CProxy who sid => proxy_vault s who sid
    | CBlock => Ok (new_block s)
    | CAsset who => Ok (set_assets s (next_asset s + 1) (<[next_asset s := who]> (a_owner s)))
    | CMint who a to v =>
        ensure! owns_asset s who a else 50;
        do! l <- Ledger.mint (led s) a to v; Ok (set_led s l)
    | CBurn who a from v =>
        ensure! owns_asset s who a else 50;
        do! l <- Ledger.burn (led s) a from v; Ok (set_led s l)
    | CGive who a new =>
        ensure! owns_asset s who a else 50;
        Ok (set_assets s (next_asset s) (<[a := new]> (a_owner s)))
    | CSend who a to v => do! l <- transfer (led s) a who to v; Ok (set_led s l)
    | CNft o => do! n <- nexec cap mint_limit pallet (nfts s) o; Ok (set_nfts s n)
    end.
  Definition cstep (s : cs) (o : cop) : cs := commit s (cexec s o).
  Definition cinit : cs := CS empty_ledger 0 ∅ ninit 0 ∅ ∅ ∅ [] 0 [].
End crowd.
