(** What notaries send to and understand from an Ethereum node: /repo/pallet/ethy/src/ethereum_http_cli.rs ("cli") and the
    JSON of requests and answers, /repo/pallet/ethy/src/types.rs:440-661 ("types").  Strings are lists of bytes.  The worker that
    uses it is [NotaryModel]. *)
From Verif Require Export NotaryModel.
From Verif Require Import XrplTxModel.

Definition CLI_HTTP : N := 1.
Definition CLI_JSON : N := 2.
Definition CLI_PANIC : N := 99.

(** ** Bytes and numbers in JSON *)
(** [to_hex] (rustc_hex): two lower-case digits a byte; [Serialize for Bytes], types 637-647. *)
Definition hexdigit (n : N) : N := if n <? 10 then 48 + n else 87 + n.
Definition to_hex (d : list N) : list N := flat_map (fun b => [hexdigit (b / 16); hexdigit (b mod 16)]) d.
Definition ser_bytes (d : list N) : list N := 48 :: 120 :: to_hex d.
(** [u8::from_str_radix] of two characters in base 16: a plus sign may come first. *)
Definition radix2 (a b : N) : option N :=
  if a =? 43 then hexval b
  else match hexval a, hexval b with Some x, Some y => Some (x * 16 + y) | _, _ => None end.
(** [decode_hex], types 658-660, with the [expect] of types 617. *)
Fixpoint cli_decode_hex (s : list N) : result (list N) :=
  match s with
  | [] => Ok []
  | [_] => Err CLI_PANIC
  | a :: b :: r => match radix2 a b with
                   | None => Err CLI_PANIC
                   | Some v => do! t <- cli_decode_hex r; Ok (v :: t)
                   end
  end.
(** [BytesVisitor::visit_str], types 612-623. *)
Definition visit_bytes (s : list N) : result (list N) :=
  match s with
  | 48 :: 120 :: r => if Nat.even (length s) then cli_decode_hex r else Err CLI_JSON
  | _ => Err CLI_JSON
  end.
(** [{:#x}] of a block number, types 538-546 and 564-572: no leading zeros. *)
Fixpoint hex_digits (fuel : nat) (n : N) (acc : list N) : list N :=
  match fuel with
  | O => acc
  | S f => let acc' := hexdigit (n mod 16) :: acc in if n / 16 =? 0 then acc' else hex_digits f (n / 16) acc'
  end.
Definition ser_number (n : N) : list N := 48 :: 120 :: hex_digits 64 n [].

(** ** Answers *)
(** An answer: HTTP code; whether the body is JSON with a string "jsonrpc" and a number "id"; that id; the "result", if it is
    there and not null ([None] in particular when there is an "error" instead, a field [EthResponse] does not have, types 441-445). *)
Record reply (D : Type) := Reply { code : N; formed : bool; rid : N; rresult : option D }.
Arguments Reply {D}. Arguments code {D}. Arguments formed {D}. Arguments rid {D}. Arguments rresult {D}.
(** [query_eth_client], cli 107-167: [None] if no address is configured, sending fails or the time is up. *)
Definition query {D} (r : option (reply D)) : result (reply D) :=
  do! x <- of_opt r CLI_HTTP;
  ensure! code x =? 200 else CLI_HTTP;
  Ok x.
(** [get_block_by_number] and [get_transaction_receipt], cli 64-101; the result is taken as read. *)
Definition get_http {D} (r : option (reply D)) : result (option D) :=
  do! x <- query r;
  ensure! formed x else CLI_JSON;
  Ok (rresult x).
(** [eth_call], cli 46-61. *)
Definition call_http (r : option (reply (list N))) : result (list N) :=
  do! x <- query r;
  ensure! formed x else CLI_JSON;
  match rresult x with
  | None => Ok []
  | Some s => visit_bytes s
  end.

(** A notary's Ethereum node as the worker sees it; a panic ends the worker, so such answers are none. *)
Definition node_of (receipts : N -> option (reply receipt)) (blocks : option N -> option (reply eblock))
    (calls : N -> list N -> N -> option (reply (list N))) : node :=
  Node (fun h => match get_http (receipts h) with Ok r => Some r | Err _ => None end)
       (fun n => match get_http (blocks n) with Ok b => Some b | Err _ => None end)
       (fun t i n => match call_http (calls t i n) with Ok d => Some d | Err _ => None end).
