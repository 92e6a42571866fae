(** A multi-asset fungible ledger: the part of [pallet_assets]/[pallet_balances] behind
    [T::MultiCurrency] that the pallets rely on (external crates; behaviour assumed as stated in
    DESIGN.md, "Trusted base").  Accounts are any countable type.
    [/repo/pallet/assets-ext/src/impls.rs] routes the native asset and the others to two pallets
    with the same behaviour, so one ledger keyed by asset id models both.
    Simplifications: existential deposit and minimum balance are 1 (runtime/src/lib.rs:363), so
    an account balance of zero is the same as no account; freezes and keep-alive are ignored. *)
From Verif Require Export Base.

Section ledger.
  Context {A : Type} `{Countable A}.

  (** [bal]: balance per (asset, account); [iss]: total issuance per asset. *)
  Record ledger := Ledger { bal : gmap (N * A) N; iss : gmap N N }.

  Definition empty_ledger : ledger := Ledger ∅ ∅.
  Definition balance (l : ledger) (a : N) (x : A) : N := getN (bal l) (a, x).
  Definition issuance (l : ledger) (a : N) : N := getN (iss l) a.
  Definition set_balance (l : ledger) (a : N) (x : A) (v : N) : ledger :=
    Ledger (<[(a, x) := v]> (bal l)) (iss l).

  (** [MultiCurrency::transfer]: debits then credits, so a self-transfer leaves the balance as it
      is.  Error 1: not enough balance; error 2: credit overflows u128. *)
  Definition transfer (l : ledger) (a : N) (from to : A) (v : N) : result ledger :=
    if balance l a from <? v then Err 1
    else
      let l1 := set_balance l a from (balance l a from - v) in
      if U128MAX <? balance l1 a to + v then Err 2
      else Ok (set_balance l1 a to (balance l1 a to + v)).

  (** [MultiCurrency::mint_into]: error 3 when the issuance would overflow u128. *)
  Definition mint (l : ledger) (a : N) (to : A) (v : N) : result ledger :=
    if U128MAX <? issuance l a + v then Err 3
    else Ok (Ledger (<[(a, to) := balance l a to + v]> (bal l))
                    (<[a := issuance l a + v]> (iss l))).

  (** [MultiCurrency::burn_from] with [Precision::Exact]: error 1 when the balance is short. *)
  Definition burn (l : ledger) (a : N) (from : A) (v : N) : result ledger :=
    if balance l a from <? v then Err 1
    else Ok (Ledger (<[(a, from) := balance l a from - v]> (bal l))
                    (<[a := issuance l a - v]> (iss l))).
End ledger.
Arguments ledger A {_ _}.
