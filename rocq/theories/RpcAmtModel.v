(** Amounts over RPC: how the exchange's RPC reads them, /repo/pallet/dex/src/types.rs:64-121 ("types"), what it answers to a
    quote, /repo/runtime/src/lib.rs:1658-1690 with /repo/pallet/dex/rpc/src/lib.rs:103-146, and how the RPC of the assets shows
    a balance, runtime/src/lib.rs 1726-1738.  Strings are lists of bytes. *)
From Verif Require Export DexModel.
From Verif Require Import XrplTxModel.

(** A JSON value as serde_json hands it on: an integer of at most 64 bits ([visit_u64]), a larger or broken or negative
    number, a string, or something else. *)
Inductive json := JInt (n : N) | JNum | JStr (s : list N) | JOther.
(** Outcomes: error 1 is a refusal, 99 a panic. *)
Definition REFUSED : N := 1.
Definition PANIC : N := 99.
(** [&s[2..]] panics unless the second byte ends a character. *)
Definition after2 (s : list N) : result (list N) :=
  match s with
  | [] | [_] => Err PANIC
  | _ :: _ :: r => match r with
                   | c :: _ => if (128 <=? c) && (c <=? 191) then Err PANIC else Ok r
                   | [] => Ok r
                   end
  end.
(** [visit_str], types 109-120: 16 bytes in hex after the first two characters, whatever these are. *)
Definition visit_str (s : list N) : result N :=
  do! r <- after2 s;
  do! b <- of_opt (hex_decode r) REFUSED;
  ensure! Nat.eqb (length b) 16 else REFUSED;
  Ok (of_be b).
(** [WrappedBalance::deserialize], types 82-107. *)
Definition read_amount (j : json) : result N :=
  match j with JInt n => Ok (sat U128MAX n) | JStr s => visit_str s | JNum | JOther => Err REFUSED end.

(** [DexApi::quote], lib.rs 1662-1668: [low_u128] of the quote. *)
Definition rpc_quote (a ra rb : N) : result N := do! q <- quote a ra rb; Ok (q mod 2 ^ 128).
(** [get_amounts_out], [get_amounts_in] over RPC, lib.rs 1670-1692. *)
Definition rpc_out (s : dex) (j : json) (path : list N) : result (list N) := do! a <- read_amount j; get_amounts_out s a path.
Definition rpc_in (s : dex) (j : json) (path : list N) : result (list N) := do! a <- read_amount j; get_amounts_in s a path.

(** [AssetsExtApi::free_balance]: the balance in decimal digits ([format!]). *)
Fixpoint dec_digits (fuel : nat) (n : N) (acc : list N) : list N :=
  match fuel with
  | O => acc
  | S f => let acc' := 48 + n mod 10 :: acc in if n / 10 =? 0 then acc' else dec_digits f (n / 10) acc'
  end.
Definition shown (n : N) : list N := dec_digits 128 n [].
