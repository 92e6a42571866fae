(** The storage migration of the NFI pallet that comes with this runtime, /repo/runtime/src/migrations/nfi.rs (run by
    [AllMigrations], migrations/mod.rs:33-48, runtime/src/lib.rs:1491), at the level of raw storage keys. *)
From Verif Require Export Base.

(** ** Raw storage: the keys after the prefix of one storage item, as bytes *)
Definition raw : Type := list N.
(** The order of [sp_io::storage::next_key]. *)
Fixpoint lexlt (a b : raw) : bool :=
  match a, b with
  | [], [] => false
  | [], _ :: _ => true
  | _ :: _, [] => false
  | x :: a', y :: b' => if x <? y then true else if y <? x then false else lexlt a' b'
  end.
(** The least of the keys above [p]. *)
Fixpoint least (p : raw) (l : list raw) : option raw :=
  match l with
  | [] => None
  | k :: l' =>
      let r := least p l' in
      if lexlt p k then match r with Some k' => if lexlt k' k then r else Some k | None => Some k end else r
  end.
Definition next_key {V} (m : gmap raw V) (p : raw) : option raw := least p (map fst (map_to_list m)).

(** [Encode] of u32 and u64: little endian. *)
Fixpoint le (n : nat) (x : N) : list N := match n with O => [] | S n' => x mod 256 :: le n' (x / 256) end.
Fixpoint unle (l : list N) : N := match l with [] => 0 | b :: l' => b + 256 * unle l' end.
(** [Decode] of a u32: the value and what is left. *)
Definition read32 (l : list N) : option (N * list N) :=
  if Nat.leb 4 (length l) then Some (unle (firstn 4 l), skipn 4 l) else None.
(** [Decode] of [NFISubType] (/repo/pallet/nfi/src/types.rs:24-28): there is one. *)
Definition read_sub (l : list N) : option unit := match l with 0 :: _ => Some tt | _ => None end.
(** [Twox64Concat::reverse] (frame_support/src/hash.rs). *)
Definition unhash (l : list N) : list N := skipn 8 l.

Section nfimig.
  (** [twox_64]: eight bytes; [chain]: [ChainId] of pallet evm-chain-id. *)
  Variable hash : list N -> list N.
  Variable chain : N.
  Definition key1 (k : list N) : raw := hash k ++ k ++ hash [0] ++ [0].

  (** Keys of [NfiData] before, nfi.rs:93-101, and after, /repo/pallet/nfi/src/lib.rs:87-95: [TokenId] and
      [MultiChainTokenId] with both ids as U32 (the first variant of both enums, types.rs:85-111). *)
  Definition data_old (t : N * N) : raw := key1 (le 4 (fst t) ++ le 4 (snd t)).
  Definition data_new (t : N * N) : raw := key1 (le 8 chain ++ 0 :: le 4 (fst t) ++ 0 :: le 4 (snd t)).
  (** What the iterator makes of a key: decodes the parts and ignores what follows ([StorageDoubleMap::iter], frame_support
      storage/generator/double_map.rs). *)
  Definition data_read (k : raw) : option (N * N) :=
    match read32 (unhash k) with
    | Some (c, r) => match read32 r with
                     | Some (n, r') => match read_sub (unhash r') with Some _ => Some (c, n) | None => None end
                     | None => None
                     end
    | None => None
    end.
  (** Keys of [NfiEnabled], nfi.rs:103-112 and nfi lib.rs:97-108. *)
  Definition on_old (c : N) : raw := key1 (le 4 c).
  Definition on_new (c : N) : raw := key1 (le 8 chain ++ 0 :: le 4 c).
  Definition on_read (k : raw) : option N :=
    match read32 (unhash k) with
    | Some (c, r) => match read_sub (unhash r) with Some _ => Some c | None => None end
    | None => None
    end.

  (** [for (..) in Map::iter() { New::insert(..) }], nfi.rs:124-143: the old and the new map are the same storage item, and
      the iterator asks for the next key of what is stored by then.  Keys that cannot be decoded are passed over.  [None]:
      not finished within [fuel] keys. *)
  Fixpoint walk {A V} (read : raw -> option A) (new : A -> raw) (fuel : nat) (m : gmap raw V) (p : raw) : option (gmap raw V) :=
    match next_key m p with
    | None => Some m
    | Some k =>
        match fuel with
        | O => None
        | S fuel' =>
            let m' := match read k, m !! k with Some a, Some v => <[new a := v]> m | _, _ => m end in
            walk read new fuel' m' k
        end
    end.

  (** Storage: the version, [NfiData] (values are numbers) and [NfiEnabled]. *)
  Record nstore := NStore { v_version : N; v_data : gmap raw N; v_on : gmap raw bool }.
  (** [on_runtime_upgrade], nfi.rs:25-47. *)
  Definition nfi_upgrade (fuel : nat) (s : nstore) : option nstore :=
    if negb (v_version s =? 0) then Some s
    else match walk data_read data_new fuel (v_data s) [], walk on_read on_new fuel (v_on s) [] with
         | Some d, Some o => Some (NStore 1 d o)
         | _, _ => None
         end.
  (** What the pallet reads afterwards: [NfiData::get] and [NfiEnabled::get] of a token or collection of this chain. *)
  Definition data_of (s : nstore) (t : N * N) : option N := v_data s !! data_new t.
  Definition enabled (s : nstore) (c : N) : bool := match v_on s !! on_new c with Some b => b | None => false end.
  (** And what it read before. *)
  Definition old_data_of (s : nstore) (t : N * N) : option N := v_data s !! data_old t.
  Definition old_enabled (s : nstore) (c : N) : bool := match v_on s !! on_old c with Some b => b | None => false end.
End nfimig.

(** ** [twox_64] of fewer than 32 bytes: XXH64 with seed 0, its 64 bits little endian *)
Definition X1 : N := 0x9E3779B185EBCA87.
Definition X2 : N := 0xC2B2AE3D27D4EB4F.
Definition X3 : N := 0x165667B19E3779F9.
Definition X4 : N := 0x85EBCA77C2B2AE63.
Definition X5 : N := 0x27D4EB2F165667C5.
Definition w64 (x : N) : N := x mod 2 ^ 64.
Definition rotl (x r : N) : N := N.lor (w64 (N.shiftl x r)) (N.shiftr x (64 - r)).
Fixpoint xx (fuel : nat) (l : list N) (h : N) : N :=
  match fuel with
  | O => h
  | S fuel' =>
      if Nat.leb 8 (length l) then
        xx fuel' (skipn 8 l) (w64 (w64 (rotl (N.lxor h (w64 (rotl (w64 (unle (firstn 8 l) * X2)) 31 * X1))) 27 * X1) + X4))
      else if Nat.leb 4 (length l) then
        xx fuel' (skipn 4 l) (w64 (w64 (rotl (N.lxor h (w64 (unle (firstn 4 l) * X1))) 23 * X2) + X3))
      else match l with
           | [] => h
           | b :: l' => xx fuel' l' (w64 (rotl (N.lxor h (w64 (b * X5))) 11 * X1))
           end
  end.
Definition xxh64 (l : list N) : N :=
  let h := xx (length l) l (w64 (X5 + N.of_nat (length l))) in
  let h := w64 (N.lxor h (N.shiftr h 33) * X2) in
  let h := w64 (N.lxor h (N.shiftr h 29) * X3) in
  N.lxor h (N.shiftr h 32).
Definition twox64 (l : list N) : list N := le 8 (xxh64 l).
