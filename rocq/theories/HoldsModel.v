(** Model of the holds and split transfers of assets-ext, [/repo/pallet/assets-ext/src/lib.rs].
    Generic in the account type; [vault] is the pallet's own account
    ([T::PalletId::get().into_account_truncating()]). *)
From Verif Require Export Ledger.

Definition wrap128 (n : N) : N := n mod 2 ^ 128.

Section holds.
  Context {A : Type} `{Countable A}.
  Variable vault : A.
  (** [MaxHolds], runtime/src/lib.rs:425. *)
  Variable max_holds : nat.

  (** [Holds], lib.rs:131-141: per (asset, account) a vector of (pallet id, amount) sorted by
      pallet id. *)
  Record assets := Assets { al : ledger A; holds : gmap (N * A) (list (N * N)) }.
  Definition holds_of (s : assets) (a : N) (who : A) : list (N * N) := default [] (holds s !! (a, who)).

  (** [binary_search_by_key] on the sorted vector, replaced by a linear search for the key. *)
  Fixpoint hold_find (p : N) (h : list (N * N)) : option N :=
    match h with
    | [] => None
    | (q, v) :: h' => if q =? p then Some v else hold_find p h'
    end.
  (** [holds[index].1 = v]. *)
  Fixpoint hold_set (p v : N) (h : list (N * N)) : list (N * N) :=
    match h with
    | [] => []
    | (q, w) :: h' => if q =? p then (q, v) :: h' else (q, w) :: hold_set p v h'
    end.
  (** [holds.try_insert(index, ..)]: [index] is the sorted position. *)
  Fixpoint hold_ins (p v : N) (h : list (N * N)) : list (N * N) :=
    match h with
    | [] => [(p, v)]
    | (q, w) :: h' => if p <? q then (p, v) :: (q, w) :: h' else (q, w) :: hold_ins p v h'
    end.
  (** [holds.remove(index)]. *)
  Fixpoint hold_del (p : N) (h : list (N * N)) : list (N * N) :=
    match h with
    | [] => []
    | (q, w) :: h' => if q =? p then h' else (q, w) :: hold_del p h'
    end.

  (** [hold_balance], lib.rs:328-334. *)
  Definition hold_balance (s : assets) (p : N) (who : A) (a : N) : N :=
    default 0 (hold_find p (holds_of s a who)).

  (** The transfers of [split_transfer], lib.rs:530-538.  Stops at the first failure; returns the
      ledger as it is then, with the error if any (the caller may not be transactional). *)
  Fixpoint split_loop (l : ledger A) (who : A) (a : N) (ts : list (A * N)) : ledger A * option N :=
    match ts with
    | [] => (l, None)
    | (payee, v) :: ts' =>
        if v =? 0 then split_loop l who a ts' else
        match transfer l a who payee v with
        | Ok l' => split_loop l' who a ts'
        | Err e => (l, Some e)
        end
    end.
  Definition amounts (ts : list (A * N)) : N := sumL (map snd ts).
  (** [split_transfer], lib.rs:516-547; the u128 [sum] wraps in release builds. *)
  Definition split_raw (l : ledger A) (who : A) (a : N) (ts : list (A * N)) : ledger A * option N :=
    if balance l a who <? wrap128 (amounts ts) then (l, Some 4) else split_loop l who a ts.
  Definition split_transfer (l : ledger A) (who : A) (a : N) (ts : list (A * N)) : result (ledger A) :=
    match split_raw l who a ts with (l', None) => Ok l' | (_, Some e) => Err e end.

  (** [place_hold], lib.rs:556-594. *)
  Definition place_hold (s : assets) (p : N) (who : A) (a amount : N) : result assets :=
    let h := holds_of s a who in
    do! h' <- match hold_find p h with
              | Some e => do! x <- of_opt (chk_add U128MAX e amount) 5; Ok (hold_set p x h)
              | None => if Nat.ltb (length h) max_holds then Ok (hold_ins p amount h) else Err 6
              end;
    do! l <- transfer (al s) a who vault amount;
    Ok (Assets l (<[(a, who) := h']> (holds s))).

  (** Lines 605-611 and 651-658, and 622-626 / 662-666. *)
  Definition reduced (h : list (N * N)) (p v : N) : list (N * N) :=
    if v =? 0 then hold_del p h else hold_set p v h.
  Definition store (m : gmap (N * A) (list (N * N))) (k : N * A) (h : list (N * N)) :=
    match h with [] => delete k m | _ => <[k := h]> m end.

  (** [release_hold], lib.rs:597-639. *)
  Definition release_hold (s : assets) (p : N) (who : A) (a amount : N) : result assets :=
    let h := holds_of s a who in
    match hold_find p h with
    | Some e =>
        do! d <- of_opt (chk_sub e amount) 4;
        do! l <- transfer (al s) a vault who amount;
        Ok (Assets l (store (holds s) (a, who) (reduced h p d)))
    | None => Err 4
    end.

  (** [spend_hold], lib.rs:642-679. *)
  Definition spend_hold (s : assets) (p : N) (who : A) (a : N) (spends : list (A * N)) : result assets :=
    let total := wrap128 (amounts spends) in
    let h := holds_of s a who in
    match hold_find p h with
    | Some e =>
        do! d <- of_opt (chk_sub e total) 4;
        do! l <- split_transfer (al s) vault a spends;
        Ok (Assets l (store (holds s) (a, who) (reduced h p d)))
    | None => Err 4
    end.

  (** Histories.  [HTransfer], [HSplit], [HMint], [HBurn] stand for the other ways in which assets
      move: [transfer]/[split_transfer], [mint] (lib.rs:263-294) and [burn_from] (lib.rs:300-313,
      by the asset's admin, from any account). *)
  Inductive hop :=
  | HPlace (p : N) (who : A) (a amount : N)
  | HRelease (p : N) (who : A) (a amount : N)
  | HSpend (p : N) (who : A) (a : N) (spends : list (A * N))
  | HTransfer (from : A) (a : N) (to : A) (v : N)
  | HSplit (from : A) (a : N) (ts : list (A * N))
  | HMint (a : N) (to : A) (v : N)
  | HBurn (a : N) (from : A) (v : N).

  Definition on_ledger (s : assets) (r : result (ledger A)) : result assets :=
    do! l <- r; Ok (Assets l (holds s)).
  Definition hexec (s : assets) (o : hop) : result assets :=
    match o with
    | HPlace p who a v => place_hold s p who a v
    | HRelease p who a v => release_hold s p who a v
    | HSpend p who a sp => spend_hold s p who a sp
    | HTransfer f a t v => on_ledger s (transfer (al s) a f t v)
    | HSplit f a ts => on_ledger s (split_transfer (al s) f a ts)
    | HMint a t v => on_ledger s (mint (al s) a t v)
    | HBurn a f v => on_ledger s (burn (al s) a f v)
    end.
  Definition hstep (s : assets) (o : hop) : assets := commit s (hexec s o).
  Definition hinit : assets := Assets empty_ledger ∅.
End holds.
Arguments assets A {_ _}.
Arguments hop A : clear implicits.
