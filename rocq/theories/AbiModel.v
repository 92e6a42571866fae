(** The Solidity ABI reader and writer of the precompiles,
    [/repo/evm-precompiles/utils/src/data/mod.rs].  Bytes are numbers below 256. *)
From Verif Require Export Base FpassModel NotaryModel.

(** ** Types that implement [EvmData] *)
(** The one-word types: [U256] and [u8] to [u128] by their largest value (412-464), [Address]
    (391-410), [bool] (466-485) and [H256] (370-389; its 32 bytes are the number they spell). *)
Inductive wkind := WUint (mx : N) | WAddr | WBool | WHash.
(** [Bytes32PostPad] (558-578), [Bytes]/[BoundedBytes<S>] (487-556), [Vec]/[BoundedVec<T, S>]
    (580-667; [mx] is [S::get()], [u32::MAX] for the unbounded names) and tuples (334-368; also the
    structs read with [read_struct!], 690-698). *)
Inductive ty := TW (k : wkind) | TPost | TBytes (mx : N) | TVec (mx : N) (t : ty) | TTup (ts : list ty).
Inductive val := VN (n : N) | VB (b : list N) | VL (l : list val).

(** [has_static_size]. *)
Fixpoint is_static (t : ty) : bool :=
  match t with
  | TW _ | TPost => true
  | TBytes _ | TVec _ _ => false
  | TTup ts => forallb is_static ts
  end.

(** ** The writer *)
(** [OffsetDatum], 235-244, and [EvmDataWriter], 228-233 (the selector is added in [build_call]). *)
Record odatum := Odatum { opos : nat; odata : list N; oshift : nat }.
Record writer := Writer { wdata : list N; woffs : list odatum }.
Definition wnew : writer := Writer [] [].
(** [write_raw_bytes], 296-299. *)
Definition push (w : writer) (l : list N) : writer := Writer (wdata w ++ l) (woffs w).
(** [write_pointer], 313-318. *)
Definition pointer (w : writer) (d : list N) : writer :=
  Writer (wdata w ++ repeat 255 32) (woffs w ++ [Odatum (length (wdata w)) d 0]).
(** [to_big_endian(&mut output[pos..pos + 32])], 286-287. *)
Definition overwrite (out : list N) (pos : nat) (l : list N) : list N :=
  firstn pos out ++ l ++ skipn (pos + length l) out.
(** [bake_offsets], 273-292, and [build] without a selector, 260-270. *)
Fixpoint bake (out : list N) (offs : list odatum) : list N :=
  match offs with
  | [] => out
  | o :: r => bake (overwrite out (opos o) (word (N.of_nat (length out - oshift o))) ++ odata o) r
  end.
Definition build (w : writer) : list N := bake (wdata w) (woffs w).
(** [Vec::resize(n, 0)]. *)
Definition resize (n : nat) (l : list N) : list N := firstn n l ++ repeat 0 (n - length l)%nat.
(** The padded size of 539-543. *)
Definition padded (n : nat) : nat :=
  match (n mod 32)%nat with O => (n / 32 * 32)%nat | S _ => ((n / 32 + 1) * 32)%nat end.
(** An array item, 650-658: its own writer, whose offsets are moved into the array's. *)
Definition add_item (iw item : writer) : writer :=
  Writer (wdata iw ++ wdata item)
         (woffs iw ++ map (fun o => Odatum (opos o + length (wdata iw)) (odata o) (oshift o + 32)) (woffs item)).

(** [EvmData::write] for each type.  A value that is not of the type (impossible in Rust) writes
    nothing. *)
Fixpoint write (t : ty) (v : val) (w : writer) {struct t} : writer :=
  match t, v with
  | TW _, VN n => push w (word n)
  | TPost, VB b => push w (resize 32 b)
  | TBytes _, VB b =>
      pointer w (build (push (push wnew (word (nlen b))) (resize (padded (length b)) b)))
  | TVec _ t', VL l =>
      pointer w (build (fold_left (fun iw x => add_item iw (write t' x wnew)) l
                          (push wnew (word (N.of_nat (length l))))))
  | TTup ts, VL l =>
      let go := fix go (ts : list ty) (l : list val) (w : writer) : writer :=
        match ts, l with t1 :: ts', x :: l' => go ts' l' (write t1 x w) | _, _ => w end in
      if is_static t then go ts l w else pointer w (build (go ts l wnew))
  | _, _ => w
  end.
(** [EvmDataWriter::new().write(a).write(b)…], 302-305. *)
Fixpoint write_all (ts : list ty) (l : list val) (w : writer) : writer :=
  match ts, l with t1 :: ts', x :: l' => write_all ts' l' (write t1 x w) | _, _ => w end.
(** [new_with_selector(sel).write(a)….build()], 255-270. *)
Definition build_call (sel : N) (ts : list ty) (l : list val) : list N :=
  be_bytes 4 sel ++ build (write_all ts l wnew).

(** ** The reader *)
(** [usize::MAX] of the 32-bit Wasm runtime. *)
Definition USIZE : N := U32MAX.
(** [move_cursor] then [input.get(range)], 212-219, 372-377: the bytes and the new cursor. *)
Definition take_at (inp : list N) (cur len : N) : result (list N * N) :=
  ensure! cur + len <=? USIZE else 1;
  do! d <- of_opt (slice inp cur len) 2;
  Ok (d, cur + len).
(** [U256::read], 412-422. *)
Definition read_word (inp : list N) (cur : N) : result (N * N) :=
  do! d <- take_at inp cur 32; Ok (of_be (fst d), snd d).
(** [read::<U256>()?.try_into::<usize>()], 184-188 and 509-513. *)
Definition read_usize (inp : list N) (cur : N) : result (N * N) :=
  do! w <- read_word inp cur;
  ensure! fst w <=? USIZE else 3;
  Ok w.
(** [read_pointer], 183-195: the pointed-to input (its cursor is zero) and the cursor after the
    pointer. *)
Definition read_pointer (inp : list N) (cur : N) : result (list N * N) :=
  do! o <- read_usize inp cur;
  ensure! fst o <? nlen inp else 4;
  Ok (skipn (N.to_nat (fst o)) inp, snd o).
(** What a word means for a one-word type. *)
Definition of_word (k : wkind) (w : N) : result N :=
  match k with
  | WUint mx => if w <=? mx then Ok w else Err 3
  | WAddr => Ok (w mod 2 ^ 160)
  | WBool => Ok (if w =? 0 then 0 else 1)
  | WHash => Ok w
  end.

(** [EvmData::read] for each type: the value and the new cursor. *)
Fixpoint read (t : ty) (inp : list N) (cur : N) {struct t} : result (val * N) :=
  match t with
  | TW k => do! w <- read_word inp cur; do! n <- of_word k (fst w); Ok (VN n, snd w)
  | TPost => do! d <- take_at inp cur 32; Ok (VB (fst d), snd d)
  | TBytes mx =>
      do! p <- read_pointer inp cur;
      do! n <- read_usize (fst p) 0;
      ensure! fst n <=? mx else 3;
      do! d <- take_at (fst p) (snd n) (fst n);
      Ok (VB (fst d), snd p)
  | TVec mx t' =>
      do! p <- read_pointer inp cur;
      do! n <- read_usize (fst p) 0;
      ensure! fst n <=? mx else 3;
      let items := fix items (k : nat) (c : N) : result (list val) :=
        match k with
        | O => Ok []
        | S k' => do! x <- read t' (skipn 32 (fst p)) c;
                  do! r <- items k' (snd x);
                  Ok (fst x :: r)
        end in
      do! l <- items (N.to_nat (fst n)) 0;
      Ok (VL l, snd p)
  | TTup ts =>
      let go := fix go (ts : list ty) (inp : list N) (c : N) : result (list val * N) :=
        match ts with
        | [] => Ok ([], c)
        | t1 :: ts' => do! x <- read t1 inp c;
                       do! r <- go ts' inp (snd x);
                       Ok (fst x :: fst r, snd r)
        end in
      if is_static t then
        do! r <- go ts inp cur; Ok (VL (fst r), snd r)
      else
        do! p <- read_pointer inp cur;
        do! r <- go ts (fst p) 0;
        Ok (VL (fst r), snd p)
  end.
(** The [input.read()] of each argument, 721-725. *)
Fixpoint read_all (ts : list ty) (inp : list N) (c : N) : result (list val * N) :=
  match ts with
  | [] => Ok ([], c)
  | t1 :: ts' => do! x <- read t1 inp c;
                 do! r <- read_all ts' inp (snd x);
                 Ok (fst x :: fst r, snd r)
  end.
(** [read_args!], 714-728: [read_after_selector] (145-151), [expect_arguments] (155-161), then the
    arguments. *)
Definition read_args (ts : list ty) (call : list N) : result (list val) :=
  ensure! 4 <=? nlen call else 2;
  ensure! 32 * N.of_nat (length ts) <=? nlen (skipn 4 call) else 5;
  do! r <- read_all ts (skipn 4 call) 0;
  Ok (fst r).
(** [read_selector], 122-142, before it is matched against the known selectors. *)
Definition read_selector (call : list N) : result N :=
  ensure! 4 <=? nlen call else 2; Ok (of_be (firstn 4 call)).
