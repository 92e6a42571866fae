(** Model of NFT collections ([/repo/pallet/nft/src/{impls,types,lib}.rs]), of the NFT approvals
    ([/repo/pallet/token-approvals/src/lib.rs]) and of the ERC-721 precompile's moving calls
    ([/repo/evm-precompiles/erc721/src/lib.rs]).  Accounts, collection ids and serial numbers are
    numbers.  Names, metadata, royalties, fees, events and NFI/XLS-20 requests are not modelled;
    whether the fee and request hooks of a mint succeed is an input ([ext_ok]). *)
From Verif Require Export Base.

(** [CollectionInformation], types.rs:84-111, with the [UtilityFlags] and the [enabled] flag of
    [PublicMintInfo] of the collection, which live in separate maps with the same key. *)
Record coll := Coll {
  c_owner : N; c_max : option N; c_root : bool; c_next : N; c_iss : N;
  c_toks : list (N * list N);
  c_public : bool; c_mintable : bool; c_transferable : bool; c_burnable : bool }.

Definition with_toks (c : coll) (t : list (N * list N)) : coll :=
  Coll (c_owner c) (c_max c) (c_root c) (c_next c) (c_iss c) t (c_public c) (c_mintable c) (c_transferable c) (c_burnable c).
Definition with_iss (c : coll) (i : N) : coll :=
  Coll (c_owner c) (c_max c) (c_root c) (c_next c) i (c_toks c) (c_public c) (c_mintable c) (c_transferable c) (c_burnable c).
Definition with_next (c : coll) (i : N) : coll :=
  Coll (c_owner c) (c_max c) (c_root c) i (c_iss c) (c_toks c) (c_public c) (c_mintable c) (c_transferable c) (c_burnable c).
Definition with_owner (c : coll) (o : N) : coll :=
  Coll o (c_max c) (c_root c) (c_next c) (c_iss c) (c_toks c) (c_public c) (c_mintable c) (c_transferable c) (c_burnable c).
Definition with_max (c : coll) (m : option N) : coll :=
  Coll (c_owner c) m (c_root c) (c_next c) (c_iss c) (c_toks c) (c_public c) (c_mintable c) (c_transferable c) (c_burnable c).
Definition with_flags (c : coll) (p m t b : bool) : coll :=
  Coll (c_owner c) (c_max c) (c_root c) (c_next c) (c_iss c) (c_toks c) p m t b.

(** [contains_serial], types.rs:73-75. *)
Definition has (n : N) (l : list N) : bool := existsb (N.eqb n) l.
(** [token_exists], types.rs:121-125. *)
Definition token_exists (t : list (N * list N)) (n : N) : bool := existsb (fun e => has n (snd e)) t.
(** [is_token_owner], types.rs:133-141. *)
Definition is_token_owner (t : list (N * list N)) (who n : N) : bool :=
  existsb (fun e => (fst e =? who) && has n (snd e)) t.
(** [get_token_owner], types.rs:144-147. *)
Definition get_token_owner (t : list (N * list N)) (n : N) : option N :=
  match List.find (fun e => has n (snd e)) t with Some e => Some (fst e) | None => None end.
(** [token_balance_of], impls.rs:56-69. *)
Definition token_balance (t : list (N * list N)) (who : N) : N :=
  match List.find (fun e => fst e =? who) t with Some e => N.of_nat (length (snd e)) | None => 0 end.

(** [Vec::sort] as insertion sort. *)
Fixpoint ins (n : N) (l : list N) : list N :=
  match l with [] => [n] | m :: l' => if n <=? m then n :: m :: l' else m :: ins n l' end.
Definition sort (l : list N) : list N := fold_right ins [] l.
(** [Vec::dedup]: drops consecutive repetitions. *)
Fixpoint dedup (l : list N) : list N :=
  match l with
  | [] => []
  | n :: l' => match dedup l' with
               | m :: r => if n =? m then m :: r else n :: m :: r
               | [] => [n]
               end
  end.
(** The serials [from], [from+1], ..., [from+q-1]. *)
Definition serials (from q : N) : list N := map (fun i => from + N.of_nat i) (seq 0 (N.to_nat q)).

Section nft.
  (** [MaxTokensPerCollection] and [MintLimit] (runtime/src/lib.rs:458-460), and the account of
      the NFT pallet. *)
  Variable cap mint_limit pallet : N.

  (** [TokenOwnership::add] for each serial in turn, types.rs:64-70 and 165-167. *)
  Fixpoint add_serials (l : list N) (ns : list N) : option (list N) :=
    match ns with
    | [] => Some l
    | n :: ns' => if N.of_nat (length l) <? cap then add_serials (sort (l ++ [n])) ns' else None
    end.
  (** The loop of types.rs:160-168. *)
  Fixpoint add_existing (t : list (N * list N)) (who : N) (ns : list N) : option (list (N * list N)) :=
    match t with
    | [] => Some []
    | (o, l) :: t' =>
        match (if o =? who then add_serials l ns else Some l), add_existing t' who ns with
        | Some l', Some r => Some ((o, l') :: r)
        | _, _ => None
        end
    end.
  (** [add_user_tokens], types.rs:150-177. *)
  Definition add_user_tokens (t : list (N * list N)) (who : N) (ns : list N) : option (list (N * list N)) :=
    if existsb (fun e => fst e =? who) t then add_existing t who ns
    else if N.of_nat (length t) <? cap then Some (t ++ [(who, ns)]) else None.

  (** The first loop of [remove_user_tokens], types.rs:186-193; also says whether the visited
      entry became empty. *)
  Fixpoint retain_first (t : list (N * list N)) (who : N) (ns : list N) : list (N * list N) * bool :=
    match t with
    | [] => ([], false)
    | (o, l) :: t' =>
        if o =? who then
          let l' := List.filter (fun n => negb (has n ns)) l in
          ((o, l') :: t', match l' with [] => true | _ => false end)
        else let (r, b) := retain_first t' who ns in ((o, l) :: r, b)
    end.
  (** [remove_user_tokens], types.rs:180-199. *)
  Definition remove_user_tokens (t : list (N * list N)) (who : N) (ns : list N) : list (N * list N) :=
    let (t', empty) := retain_first t who ns in
    if empty then List.filter (fun e => negb (fst e =? who)) t' else t'.

  (** [CollectionInfo], [TokenLocks] (value: listing id), [ERC721Approvals],
      [ERC721ApprovalsForAll] keyed by (owner, collection, operator). *)
  Record nft := Nft {
    colls : gmap N coll; locks : gmap (N * N) N;
    appr : gmap (N * N) N; appr_all : gmap (N * N * N) bool }.
  Definition put (s : nft) (c : N) (i : coll) : nft := Nft (<[c := i]> (colls s)) (locks s) (appr s) (appr_all s).
  (** [NFTExt::get_token_owner], impls.rs:599-602. *)
  Definition owner_of (s : nft) (c n : N) : option N :=
    match colls s !! c with Some i => get_token_owner (c_toks i) n | None => None end.
  Definition locked (s : nft) (c n : N) : bool := bool_decide (is_Some (locks s !! (c, n))).
  (** [on_nft_transfer], token-approvals/src/lib.rs:290-293, for each serial. *)
  Definition clear_appr (s : nft) (c : N) (ns : list N) : nft :=
    Nft (colls s) (locks s) (fold_left (fun m n => delete (c, n) m) ns (appr s)) (appr_all s).

  (** [do_transfer], impls.rs:84-128. *)
  Definition do_transfer (s : nft) (c : N) (ns : list N) (from to : N) : result nft :=
    ensure! negb (from =? to) else 1;
    do! i <- of_opt (colls s !! c) 2;
    ensure! c_transferable i else 3;
    ensure! forallb (fun n => is_token_owner (c_toks i) from n && negb (locked s c n)) ns else 4;
    do! t <- of_opt (add_user_tokens (remove_user_tokens (c_toks i) from ns) to ns) 5;
    Ok (clear_appr (put s c (with_toks i t)) c ns).

  (** [do_mint], impls.rs:287-316. *)
  Definition do_mint (s : nft) (c : N) (i : coll) (to : N) (ns : list N) : result nft :=
    do! iss <- of_opt (chk_add U32MAX (c_iss i) (N.of_nat (length ns))) 6;
    ensure! iss <=? cap else 7;
    do! t <- of_opt (add_user_tokens (c_toks i) to ns) 5;
    Ok (put s c (with_toks (with_iss i iss) t)).

  (** [pre_mint], impls.rs:201-251. *)
  Definition pre_mint (who q : N) (i : coll) : result (list N) :=
    ensure! 0 <? q else 8;
    ensure! (c_owner i =? who) || c_public i else 9;
    ensure! sat U32MAX (c_iss i + q) <? cap else 7;
    ensure! c_root i else 10;
    do! next <- of_opt (chk_add U32MAX (c_next i) q) 11;
    ensure! next <=? cap else 7;
    ensure! match c_max i with Some m => next <=? m | None => true end else 12;
    Ok (serials (c_next i) q).

  (** [mint], lib.rs:518-583. *)
  Definition mint (s : nft) (who c q : N) (to : N) (ext_ok : bool) : result nft :=
    ensure! q <=? mint_limit else 13;
    do! i <- of_opt (colls s !! c) 2;
    ensure! c_mintable i else 14;
    do! ns <- pre_mint who q i;
    do! next <- of_opt (chk_add U32MAX (c_next i) q) 11;
    do! s' <- do_mint s c (with_next i next) to ns;
    ensure! ext_ok else 15;
    Ok s'.

  (** [mint_bridged_token], impls.rs:134-197. *)
  Definition mint_bridged (s : nft) (owner c : N) (ns : list N) : result nft :=
    match ns with
    | [] => Ok s
    | _ =>
        match colls s !! c with
        | None => Ok s
        | Some i =>
            let fresh := List.filter (fun n => negb (token_exists (c_toks i) n)) (dedup (sort ns)) in
            if N.of_nat (length fresh) <=? cap then do_mint s c i owner fresh else Ok s
        end
    end.

  (** [do_burn], impls.rs:474-504. *)
  Definition do_burn (s : nft) (who c n : N) : result nft :=
    ensure! negb (locked s c n) else 16;
    do! i <- of_opt (colls s !! c) 2;
    ensure! c_burnable i else 17;
    ensure! is_token_owner (c_toks i) who n else 18;
    let t := map (fun e => if fst e =? who then (fst e, List.filter (fun m => negb (m =? n)) (snd e)) else e) (c_toks i) in
    Ok (clear_appr (put s c (with_toks (with_iss i (c_iss i - 1)) t)) c [n]).

  (** [do_create_collection], impls.rs:377-471.  The id comes from [next_collection_uuid], which
      never repeats an id (property C10): a used id is refused here. *)
  Definition create (s : nft) (id owner initial : N) (max : option N) (to : N) (root : bool) : result nft :=
    ensure! bool_decide (colls s !! id = None) else 19;
    ensure! match max with Some m => (0 <? m) && (initial <=? m) && (m <=? cap) | None => true end else 20;
    ensure! initial <=? mint_limit else 13;
    ensure! initial <=? cap else 7;
    Ok (put s id (Coll owner max root initial initial
                   (if initial =? 0 then [] else [(to, serials 0 initial)]) false true true true)).

  (** [set_max_issuance], lib.rs:342-362. *)
  Definition set_max (s : nft) (who c m : N) : result nft :=
    do! i <- of_opt (colls s !! c) 2;
    ensure! negb (m =? 0) else 20;
    ensure! c_owner i =? who else 21;
    ensure! match c_max i with None => true | Some _ => false end else 22;
    ensure! c_iss i <=? m else 20;
    Ok (put s c (with_max i (Some m))).
  (** [do_set_owner], impls.rs:528-543. *)
  Definition set_owner (s : nft) (who c new : N) : result nft :=
    do! i <- of_opt (colls s !! c) 2;
    ensure! c_owner i =? who else 21;
    Ok (put s c (with_owner i new)).
  (** [claim_unowned_collection], lib.rs:302-323 (root origin). *)
  Definition claim (s : nft) (c new : N) : result nft :=
    do! i <- of_opt (colls s !! c) 2;
    ensure! c_owner i =? pallet else 23;
    Ok (put s c (with_owner i new)).
  (** [toggle_public_mint], lib.rs:439-465 and [set_utility_flags], lib.rs:677-697. *)
  Definition set_flags (s : nft) (who c : N) (p m t b : bool) : result nft :=
    do! i <- of_opt (colls s !! c) 2;
    ensure! c_owner i =? who else 21;
    Ok (put s c (with_flags i p m t b)).

  (** [set_token_lock] / [remove_token_lock], impls.rs:657-670 (called by the marketplace). *)
  Definition lock (s : nft) (who c n lid : N) : result nft :=
    ensure! negb (locked s c n) else 16;
    ensure! bool_decide (owner_of s c n = Some who) else 18;
    Ok (Nft (colls s) (<[(c, n) := lid]> (locks s)) (appr s) (appr_all s)).
  Definition unlock (s : nft) (c n : N) : nft :=
    Nft (colls s) (delete (c, n) (locks s)) (appr s) (appr_all s).

  (** [erc721_approval], token-approvals/src/lib.rs:124-147. *)
  Definition is_operator (s : nft) (owner c who : N) : bool := default false (appr_all s !! (owner, c, who)).
  Definition approve (s : nft) (caller operator c n : N) : result nft :=
    ensure! negb (caller =? operator) else 24;
    do! o <- of_opt (owner_of s c n) 25;
    ensure! (o =? caller) || is_operator s o c caller else 26;
    Ok (Nft (colls s) (locks s) (<[(c, n) := operator]> (appr s)) (appr_all s)).
  (** [erc721_remove_approval], lib.rs:152-161. *)
  Definition unapprove (s : nft) (who c n : N) : result nft :=
    ensure! bool_decide (is_Some (appr s !! (c, n))) else 27;
    ensure! bool_decide (owner_of s c n = Some who) else 18;
    Ok (clear_appr s c [n]).
  (** [erc721_approval_for_all], lib.rs:209-228. *)
  Definition approve_all (s : nft) (caller operator c : N) (b : bool) : result nft :=
    ensure! negb (caller =? operator) else 24;
    Ok (Nft (colls s) (locks s) (appr s)
         (if b then <[(caller, c, operator) := true]> (appr_all s)
          else delete (caller, c, operator) (appr_all s))).
  (** [is_approved_or_owner], lib.rs:267-285. *)
  Definition is_approved_or_owner (s : nft) (c n who : N) : bool :=
    bool_decide (owner_of s c n = Some who)
    || match owner_of s c n with Some o => is_operator s o c who | None => false end
    || bool_decide (appr s !! (c, n) = Some who).
  (** Precompile [transfer_from], erc721/src/lib.rs:342-399, and [burn], 1040-1095. *)
  Definition transfer_from (s : nft) (caller c from to n : N) : result nft :=
    ensure! is_approved_or_owner s c n caller else 28;
    do_transfer s c [n] from to.
  Definition burn_from (s : nft) (caller c n : N) : result nft :=
    ensure! is_approved_or_owner s c n caller else 28;
    do! o <- of_opt (owner_of s c n) 25;
    do_burn s o c n.

  Inductive nop :=
  | NCreate (id owner initial : N) (max : option N) (to : N) (root : bool)
  | NMint (who c q to : N) (ext_ok : bool)
  | NBridge (owner c : N) (ns : list N)
  | NTransfer (who c : N) (ns : list N) (to : N)
  | NBurn (who c n : N)
  | NTransferFrom (caller c from to n : N)
  | NBurnFrom (caller c n : N)
  | NSetMax (who c m : N)
  | NSetOwner (who c new : N)
  | NClaim (c new : N)
  | NSetFlags (who c : N) (p m t b : bool)
  | NLock (who c n lid : N)
  | NUnlock (c n : N)
  | NApprove (caller operator c n : N)
  | NUnapprove (who c n : N)
  | NApproveAll (caller operator c : N) (b : bool).

  Definition nexec (s : nft) (o : nop) : result nft :=
    match o with
    | NCreate id owner i m to r => create s id owner i m to r
    | NMint who c q to e => mint s who c q to e
    | NBridge owner c ns => mint_bridged s owner c ns
    | NTransfer who c ns to => do_transfer s c ns who to
    | NBurn who c n => do_burn s who c n
    | NTransferFrom caller c from to n => transfer_from s caller c from to n
    | NBurnFrom caller c n => burn_from s caller c n
    | NSetMax who c m => set_max s who c m
    | NSetOwner who c new => set_owner s who c new
    | NClaim c new => claim s c new
    | NSetFlags who c p m t b => set_flags s who c p m t b
    | NLock who c n lid => lock s who c n lid
    | NUnlock c n => Ok (unlock s c n)
    | NApprove caller op c n => approve s caller op c n
    | NUnapprove who c n => unapprove s who c n
    | NApproveAll caller op c b => approve_all s caller op c b
    end.
  Definition nstep (s : nft) (o : nop) : nft := commit s (nexec s o).
  Definition ninit : nft := Nft ∅ ∅ ∅ ∅.

  (** Precompile [do_safe_transfer], erc721/src/lib.rs:439-522.  [cb] is what the receiver's
      [onERC721Received] does before it returns: [None] if the receiver has no code, otherwise the
      calls it makes, whether it succeeded, and the bytes it returned.  Error 99 stands for the
      panic of [output[..4]] on a short answer. *)
  Definition on_received_selector : list N := [21; 11; 122; 2].
  Definition safe_transfer_from (s : nft) (caller c from to n : N)
      (cb : option (list nop * bool * list N)) : result nft :=
    ensure! is_approved_or_owner s c n caller else 28;
    do! s1 <- match cb with
              | None => Ok s
              | Some (calls, ok, out) =>
                  if ok then
                    if Nat.ltb (length out) 4 then Err 99
                    else if bool_decide (firstn 4 out = on_received_selector)
                    then Ok (run nstep calls s) else Err 29
                  else Err 29
              end;
    do_transfer s1 c [n] from to.
End nft.
