(** The set of precompiles: which of them answers at an address of the EVM, and how calls to them may nest.
    /repo/evm-precompiles/utils/src/precompile_set.rs ("set"), with the table of the runtime,
    /repo/runtime/src/precompiles.rs:55-99, and the sets behind the prefixes ([is_precompile] of
    /repo/evm-precompiles/erc721/src/lib.rs:249-262, erc1155 221-234, erc20 127-140, futurepass 180-186).

    An address is a number below 2^160, the first byte being the highest.  What a precompile does besides calling others is
    left out here, and gas. *)
From Verif Require Export Base.

(** [evm_id_to_runtime_id], /repo/runtime/src/impls.rs:266-283: four bytes of prefix, four of id; the other twelve are not
    looked at.  [runtime_id_to_evm_id], 285-298. *)
Definition to_id (p a : N) : option N := if a / 2 ^ 128 =? p then Some (a / 2 ^ 96 mod 2 ^ 32) else None.
Definition of_id (p id : N) : N := p * 2 ^ 128 + id * 2 ^ 96.
(** The prefixes, /repo/evm-precompiles/utils/src/constants.rs:21-29. *)
Inductive kind := K721 | K1155 | K20 | KPass.
Definition prefix (k : kind) : N := match k with K721 => 0xAAAAAAAA | K1155 => 0xBBBBBBBB | K20 => 0xCCCCCCCC | KPass => 0xFFFFFFFF end.
(** What the sets ask of the chain: the collections and assets there are. *)
Record world := World { w_nft : N -> bool; w_sft : N -> bool; w_asset : N -> bool }.
(** [is_precompile] of the four sets. *)
Definition has (w : world) (k : kind) (a : N) : bool :=
  match k with
  | K721 => match to_id (prefix k) a with Some i => w_nft w i | None => false end
  | K1155 => match to_id (prefix k) a with Some i => w_sft w i | None => false end
  | K20 => match to_id (prefix k) a with Some i => w_asset w i | None => false end
  | KPass => a / 2 ^ 128 =? prefix k
  end.

(** [PrecompileAt] and [PrecompileSetStartingWith] with the limit on recursion ([RecursionLimit]) and whether DELEGATECALL is
    allowed, set 142-400; [f_range] is the range around it, set 482-523. *)
Inductive what := At (a : N) | Pre (k : kind).
Record frag := Frag { f_range : option (N * N); f_what : what; f_limit : option N; f_dele : bool }.
Definition eth (a : N) : frag := Frag (Some (1, 65535)) (At a) (Some 0) true.
Definition own (a : N) : frag := Frag (Some (1, 65535)) (At a) (Some 0) false.
(** [FutureversePrecompiles], precompiles.rs 55-99, the range taken to each of its entries. *)
Definition NFT : N := 1721.
Definition SFT : N := 1731.
Definition PEG : N := 1939.
Definition DEX : N := 56797.
Definition REGISTRAR : N := 65535.
Definition MARKET : N := 1741.
Definition table : list frag :=
  [eth 1; eth 2; eth 3; eth 4; eth 5; eth 6; eth 7; eth 8; eth 9; own 1024; own 1026;
   own NFT; own SFT; own PEG; own DEX; own REGISTRAR; own MARKET;
   Frag None (Pre K721) (Some 0) false; Frag None (Pre K1155) (Some 0) false; Frag None (Pre K20) (Some 0) false;
   Frag None (Pre KPass) (Some 1) true].

Section set.
  Variable tab : list frag.
  (** Whether a fragment answers at all: the first lines of its [execute], with the range's, set 163-169, 333-338, 504-510. *)
  Definition answers (w : world) (a : N) (f : frag) : bool :=
    match f_range f with Some (lo, hi) => (lo <=? a) && (a <=? hi) | None => true end &&
    match f_what f with At b => b =? a | Pre k => has w k a end.
  (** [is_precompile] of a fragment, set 210-212, 386-392, 512-518, and of the whole, 456-468. *)
  Definition claims (w : world) (a : N) (f : frag) : bool :=
    match f_range f with Some (lo, hi) => (lo <=? a) && (a <=? hi) | None => true end &&
    match f_what f with At b => a =? b | Pre k => (a / 2 ^ 128 =? prefix k) && has w k a end.
  Definition is_precompile (w : world) (a : N) : bool := existsb (claims w a) tab.
  (** The first that answers, set 445-454. *)
  Fixpoint find (l : list frag) (i : nat) (w : world) (a : N) : option (nat * frag) :=
    match l with [] => None | f :: r => if answers w a f then Some (i, f) else find r (S i) w a end.
  Definition serve (w : world) (a : N) : option (nat * frag) := find tab 0 w a.

  (** The recursion levels: each fragment counts for itself, a set for each address ([u16]).  [None]: no entry yet. *)
  Notation levels := (gmap (nat * N) N).
  Definition level (l : levels) (k : nat * N) : N := default 0 (l !! k).

  (** A call as the EVM makes it: the state of the chain by then, the address whose code is run, the address in whose name
      ([context.address]: another with DELEGATECALL and CALLCODE), whether a new EVM makes it, with a new set of precompiles
      ([Runner::create] of /repo/evm-precompiles/futurepass/src/lib.rs:450-583), and the calls that are made while it runs. *)
  Inductive call := Call (w : world) (code ctx : N) (fresh : bool) (subs : list call).
  (** What became of it: code, name, outcome and the calls within. *)
  Inductive out := Contract | Refused | TooDeep | Ran (i : nat).
  Inductive done := Done (code ctx : N) (fresh : bool) (o : out) (subs : list done).

  (** [execute], set 163-207, 333-383.  A contract is not counted. *)
  Fixpoint exec (l : levels) (c : call) : levels * done :=
    let '(Call w code ctx fresh subs) := c in
    let l0 := if fresh then ∅ else l in
    let runs := fix runs (l : levels) (cs : list call) : levels * list done :=
      match cs with
      | [] => (l, [])
      | c :: cs => let '(l1, d) := exec l c in let '(l2, ds) := runs l1 cs in (l2, d :: ds)
      end in
    let '(l1, d) :=
      match serve w code with
      | None => let '(l1, ds) := runs l0 subs in (l1, Done code ctx fresh Contract ds)
      | Some (i, f) =>
        if negb (f_dele f) && negb (code =? ctx) then (l0, Done code ctx fresh Refused [])
        else
          match f_limit f with
          | None => let '(l1, ds) := runs l0 subs in (l1, Done code ctx fresh (Ran i) ds)
          | Some m =>
            if m <? level l0 (i, code) then (<[(i, code) := level l0 (i, code)]> l0, Done code ctx fresh TooDeep [])
            else
              let '(l1, ds) := runs (<[(i, code) := (level l0 (i, code) + 1) mod 2 ^ 16]> l0) subs in
              (<[(i, code) := (level l1 (i, code) + (2 ^ 16 - 1)) mod 2 ^ 16]> l1, Done code ctx fresh (Ran i) ds)
          end
      end in
    (if fresh then l else l1, d).
End set.
(** A transaction: one call, with a new set. *)
Definition transact (tab : list frag) (c : call) : done := snd (exec tab ∅ c).
