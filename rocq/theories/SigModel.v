(** Signatures on transactions: [EthereumSignature::verify], /repo/primitives/src/signature.rs ("sig"), as used for signed
    extrinsics (/repo/runtime/src/lib.rs:1464-1482). *)
From Verif Require Export Base.

Definition bytes := list N.
Definition len (m : bytes) : N := N.of_nat (length m).
(** [usize::to_string]: decimal digits in ASCII. *)
Fixpoint digits_ (fuel : nat) (n : N) : bytes :=
  match fuel with
  | O => []
  | S f => if n <? 10 then [48 + n] else digits_ f (n / 10) ++ [48 + n mod 10]
  end.
Definition digits (n : N) : bytes := digits_ (S (N.to_nat (N.log2 n))) n.
(** "\x19Ethereum Signed Message:\n" *)
Definition prefix : bytes :=
  [25; 69; 116; 104; 101; 114; 101; 117; 109; 32; 83; 105; 103; 110; 101; 100; 32; 77; 101; 115; 115; 97; 103; 101; 58; 10].
(** [ethereum_signed_message], sig 163-168. *)
Definition eth_signed (m : bytes) : bytes := prefix ++ digits (len m) ++ m.

Section sig.
  Context {sigt acct : Type}.
  Variable acct_eqb : acct -> acct -> bool.
  (** [keccak_256], [blake2_256]. *)
  Variables keccak blake : bytes -> bytes.
  (** [secp256k1_ecdsa_recover] and the address of the key it gives, [None] for every error. *)
  Variable recover : sigt -> bytes -> option acct.

  (** [verify_signature], sig 141-160. *)
  Definition verify_signature (s : sigt) (h : bytes) (who : acct) : bool :=
    match recover s h with Some a => acct_eqb a who | None => false end.
  (** [EthereumSignature::verify], sig 116-138. *)
  Definition verify (s : sigt) (m : bytes) (who : acct) : bool :=
    if verify_signature s (keccak m) who then true
    else if verify_signature s (keccak (eth_signed m)) who then true
    else verify_signature s (keccak (eth_signed (blake m))) who.
  (** [SignedPayload::using_encoded] (sp_runtime): what is signed is the payload, or its hash if it is longer than 256 bytes. *)
  Definition signable (p : bytes) : bytes := if 256 <? len p then blake p else p.
  (** A signed extrinsic with payload [p] is accepted as [who]'s. *)
  Definition accepted (s : sigt) (p : bytes) (who : acct) : bool := verify s (signable p) who.
End sig.

(** The payload of an extrinsic: the call, which begins with the indices of its pallet and function
    (/repo/runtime/src/lib.rs:1392-1455), the extensions' data, and what they add for signing: spec version, transaction
    version (4 bytes each), genesis hash and the hash of the era's first block (32 bytes each), lib 1466-1476. *)
Definition payload (pallet function : N) (args extra spec txv genesis birth : bytes) : bytes :=
  pallet :: function :: args ++ extra ++ spec ++ txv ++ genesis ++ birth.
