(** Model of semi-fungible tokens ([/repo/pallet/sft/src/{types,impls,lib}.rs]).  Names, metadata,
    royalties and events are not modelled; whether mint fees and the NFI request can be paid is an
    input ([ext_ok]). *)
From Verif Require Export Base.

(** [SftTokenBalance], types.rs:181-186: free and reserved. *)
Definition bal2 := (N * N)%type.
(** [SftTokenInformation], types.rs:57-71. *)
Record sft := Sft { t_max : option N; t_iss : N; t_own : list (N * bal2) }.
(** [SftCollectionInformation], types.rs:33-50, with [UtilityFlags]. *)
Record scoll := SColl { sc_owner : N; sc_next : N; sc_mintable : bool; sc_transferable : bool; sc_burnable : bool }.
Record sstate := SState { stoks : gmap (N * N) sft; scolls : gmap N scoll; spub : gmap (N * N) bool }.
Definition sinit : sstate := SState ∅ ∅ ∅.
Definition put_tok (s : sstate) (k : N * N) (t : sft) : sstate := SState (<[k := t]> (stoks s)) (scolls s) (spub s).
Definition put_coll (s : sstate) (c : N) (i : scoll) : sstate := SState (stoks s) (<[c := i]> (scolls s)) (spub s).

(** [iter_mut().find(..)], e.g. types.rs:95: the first entry of an account. *)
Fixpoint find_bal (l : list (N * bal2)) (who : N) : option bal2 :=
  match l with [] => None | (a, b) :: l' => if a =? who then Some b else find_bal l' who end.
Fixpoint set_bal (l : list (N * bal2)) (who : N) (b : bal2) : list (N * bal2) :=
  match l with [] => [] | (a, x) :: l' => if a =? who then (a, b) :: l' else (a, x) :: set_bal l' who b end.

(** [SftTokenBalance::{add_free_balance, remove_free_balance, place_reserve, remove_reserve}],
    types.rs:215-246. *)
Definition add_free (b : bal2) (x : N) : result bal2 :=
  do! f <- of_opt (chk_add U128MAX (fst b) x) 1; Ok (f, snd b).
Definition remove_free (b : bal2) (x : N) : result bal2 :=
  ensure! x <=? fst b else 2; Ok (fst b - x, snd b).
Definition place_reserve (b : bal2) (x : N) : result bal2 :=
  do! b' <- remove_free b x; do! r <- of_opt (chk_add U128MAX (snd b') x) 1; Ok (fst b', r).
Definition remove_reserve (b : bal2) (x : N) : result bal2 :=
  ensure! x <=? snd b else 2; add_free (fst b, snd b - x) x.
(** [total_balance], types.rs:210-212: an unchecked u128 sum. *)
Definition total_bal (b : bal2) : N := (fst b + snd b) mod 2 ^ 128.

Section sft.
  (** [MaxOwnersPerSftToken] and [MaxSerialsPerMint]. *)
  Variable max_owners max_serials : N.

  (** [add_balance], types.rs:90-108. *)
  Definition add_balance (t : sft) (who x : N) : result sft :=
    match find_bal (t_own t) who with
    | Some b => do! b' <- add_free b x; Ok (Sft (t_max t) (t_iss t) (set_bal (t_own t) who b'))
    | None => ensure! N.of_nat (length (t_own t)) <? max_owners else 3;
              Ok (Sft (t_max t) (t_iss t) (t_own t ++ [(who, (x, 0))]))
    end.
  (** [remove_balance], types.rs:111-130. *)
  Definition remove_balance (t : sft) (who x : N) : result sft :=
    do! b <- of_opt (find_bal (t_own t) who) 2;
    do! b' <- remove_free b x;
    let l := set_bal (t_own t) who b' in
    Ok (Sft (t_max t) (t_iss t) (if total_bal b' =? 0 then List.filter (fun e => negb (fst e =? who)) l else l)).
  (** [transfer_balance], types.rs:133-145. *)
  Definition transfer_balance (t : sft) (from to x : N) : result sft :=
    if from =? to then Ok t else do! t' <- remove_balance t from x; add_balance t' to x.
  (** [reserve_balance] and [free_reserved_balance], types.rs:148-175. *)
  Definition reserve_balance (t : sft) (who x : N) : result sft :=
    do! b <- of_opt (find_bal (t_own t) who) 2;
    do! b' <- place_reserve b x; Ok (Sft (t_max t) (t_iss t) (set_bal (t_own t) who b')).
  Definition free_reserved (t : sft) (who x : N) : result sft :=
    do! b <- of_opt (find_bal (t_own t) who) 2;
    do! b' <- remove_reserve b x; Ok (Sft (t_max t) (t_iss t) (set_bal (t_own t) who b')).

  (** [do_create_collection], impls.rs:25-80; ids are never reused (property C10). *)
  Definition screate (s : sstate) (id owner : N) : result sstate :=
    ensure! bool_decide (scolls s !! id = None) else 10;
    Ok (put_coll s id (SColl owner 0 true true true)).
  (** [do_create_token], impls.rs:82-137. *)
  Definition create_token (s : sstate) (who c initial : N) (max : option N) (owner : N) (ext_ok : bool) : result sstate :=
    do! i <- of_opt (scolls s !! c) 11;
    ensure! who =? sc_owner i else 12;
    ensure! match max with Some m => (0 <? m) && (initial <=? m) | None => true end else 13;
    do! next <- of_opt (chk_add U32MAX (sc_next i) 1) 1;
    ensure! ext_ok else 14;
    let t := Sft max initial (if 0 <? initial then [(owner, (initial, 0))] else []) in
    Ok (put_coll (put_tok s (c, sc_next i) t) c (SColl (sc_owner i) next (sc_mintable i) (sc_transferable i) (sc_burnable i))).

  (** One iteration of the loop of [do_mint], impls.rs:190-234. *)
  Definition mint_one (s : sstate) (is_owner : bool) (c : N) (owner : N) (e : N * N) : result sstate :=
    let (n, q) := e in
    ensure! negb (q =? 0) else 15;
    ensure! is_owner || default false (spub s !! (c, n)) else 16;
    do! t <- of_opt (stoks s !! (c, n)) 17;
    do! iss <- of_opt (chk_add U128MAX (t_iss t) q) 1;
    ensure! match t_max t with Some m => iss <=? m | None => true end else 18;
    do! t' <- add_balance t owner q;
    Ok (put_tok s (c, n) (Sft (t_max t') iss (t_own t'))).
  (** One iteration of [do_transfer], impls.rs:260-272, and of [do_burn], 298-309. *)
  Definition transfer_one (s : sstate) (c who to : N) (e : N * N) : result sstate :=
    let (n, q) := e in
    ensure! negb (q =? 0) else 15;
    do! t <- of_opt (stoks s !! (c, n)) 17;
    do! t' <- transfer_balance t who to q;
    Ok (put_tok s (c, n) t').
  Definition burn_one (s : sstate) (c who : N) (e : N * N) : result sstate :=
    let (n, q) := e in
    ensure! negb (q =? 0) else 15;
    do! t <- of_opt (stoks s !! (c, n)) 17;
    do! t' <- remove_balance t who q;
    Ok (put_tok s (c, n) (Sft (t_max t') (t_iss t' - q) (t_own t'))).
  Fixpoint each (f : sstate -> N * N -> result sstate) (l : list (N * N)) (s : sstate) : result sstate :=
    match l with [] => Ok s | e :: l' => do! s' <- f s e; each f l' s' end.

  (** [do_mint], impls.rs:174-240; [do_transfer], 244-284; [do_burn], 289-320. *)
  Definition smint (s : sstate) (who c : N) (l : list (N * N)) (owner : N) (ext_ok : bool) : result sstate :=
    ensure! N.of_nat (length l) <=? max_serials else 19;
    ensure! negb (Nat.eqb (length l) 0) else 17;
    do! i <- of_opt (scolls s !! c) 11;
    ensure! sc_mintable i else 20;
    ensure! ext_ok else 14;
    each (fun s e => mint_one s (sc_owner i =? who) c owner e) l s.
  (** [UtilityFlags::get] of an unknown collection is the default, all true. *)
  Definition flag (f : scoll -> bool) (s : sstate) (c : N) : bool := match scolls s !! c with Some i => f i | None => true end.
  Definition stransfer (s : sstate) (who c : N) (l : list (N * N)) (to : N) : result sstate :=
    ensure! N.of_nat (length l) <=? max_serials else 19;
    ensure! negb (Nat.eqb (length l) 0) else 17;
    ensure! negb (who =? to) else 21;
    ensure! flag sc_transferable s c else 22;
    each (fun s e => transfer_one s c who to e) l s.
  Definition sburn (s : sstate) (who c : N) (l : list (N * N)) : result sstate :=
    ensure! N.of_nat (length l) <=? max_serials else 19;
    ensure! negb (Nat.eqb (length l) 0) else 17;
    ensure! flag sc_burnable s c else 23;
    each (fun s e => burn_one s c who e) l s.
  (** [do_set_max_issuance], impls.rs:341-365. *)
  Definition sset_max (s : sstate) (who c n m : N) : result sstate :=
    ensure! negb (m =? 0) else 13;
    do! i <- of_opt (scolls s !! c) 11;
    ensure! sc_owner i =? who else 12;
    do! t <- of_opt (stoks s !! (c, n)) 17;
    ensure! match t_max t with None => true | Some _ => false end else 24;
    ensure! t_iss t <=? m else 13;
    Ok (put_tok s (c, n) (Sft (Some m) (t_iss t) (t_own t))).
  (** [do_set_owner], impls.rs:322-336; [set_utility_flags], lib.rs:495-515; [toggle_public_mint],
      lib.rs:426-452. *)
  Definition sset_owner (s : sstate) (who c new : N) : result sstate :=
    do! i <- of_opt (scolls s !! c) 11;
    ensure! sc_owner i =? who else 12;
    Ok (put_coll s c (SColl new (sc_next i) (sc_mintable i) (sc_transferable i) (sc_burnable i))).
  Definition sset_flags (s : sstate) (who c : N) (m t b : bool) : result sstate :=
    do! i <- of_opt (scolls s !! c) 11;
    ensure! sc_owner i =? who else 12;
    Ok (put_coll s c (SColl (sc_owner i) (sc_next i) m t b)).
  Definition sset_public (s : sstate) (who c n : N) (b : bool) : result sstate :=
    do! i <- of_opt (scolls s !! c) 11;
    ensure! sc_owner i =? who else 12;
    Ok (SState (stoks s) (scolls s) (<[(c, n) := b]> (spub s))).
  (** [SFTExt::reserve_balance] and [free_reserved_balance], impls.rs:496-516. *)
  Definition sreserve (s : sstate) (who c n x : N) : result sstate :=
    do! t <- of_opt (stoks s !! (c, n)) 17;
    do! t' <- reserve_balance t who x; Ok (put_tok s (c, n) t').
  Definition sfree (s : sstate) (who c n x : N) : result sstate :=
    do! t <- of_opt (stoks s !! (c, n)) 17;
    do! t' <- free_reserved t who x; Ok (put_tok s (c, n) t').

  Inductive sop :=
  | SCreate (id owner : N)
  | SToken (who c initial : N) (max : option N) (owner : N) (ext_ok : bool)
  | SMint (who c : N) (l : list (N * N)) (owner : N) (ext_ok : bool)
  | STransfer (who c : N) (l : list (N * N)) (to : N)
  | SBurn (who c : N) (l : list (N * N))
  | SSetMax (who c n m : N)
  | SSetOwner (who c new : N)
  | SSetFlags (who c : N) (m t b : bool)
  | SSetPublic (who c n : N) (b : bool)
  | SReserve (who c n x : N)
  | SFree (who c n x : N).
  Definition sexec (s : sstate) (o : sop) : result sstate :=
    match o with
    | SCreate id owner => screate s id owner
    | SToken who c i m owner e => create_token s who c i m owner e
    | SMint who c l owner e => smint s who c l owner e
    | STransfer who c l to => stransfer s who c l to
    | SBurn who c l => sburn s who c l
    | SSetMax who c n m => sset_max s who c n m
    | SSetOwner who c new => sset_owner s who c new
    | SSetFlags who c m t b => sset_flags s who c m t b
    | SSetPublic who c n b => sset_public s who c n b
    | SReserve who c n x => sreserve s who c n x
    | SFree who c n x => sfree s who c n x
    end.
  Definition sstep (s : sstate) (o : sop) : sstate := commit s (sexec s o).
  (** Amounts are u128 in the calls. *)
  Definition sop_u128 (o : sop) : Prop :=
    match o with SToken _ _ i _ _ _ => i <= U128MAX | _ => True end.
End sft.
