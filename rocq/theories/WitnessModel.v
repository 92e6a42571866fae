(** The witness record and the worker of the ethy gadget: /repo/ethy-gadget/src/witness_record.rs, worker.rs, types.rs, and
    the event proof, /repo/primitives/src/ethy.rs 90-215. *)
From Verif Require Export Base.

Inductive chain := Ethereum | Xrpl.
#[global] Instance chain_eq : EqDecision chain. Proof. solve_decision. Defined.
(** [ValidatorSet], primitives 92-99; authorities are numbers in the order of their keys. *)
Record vset := Vset { vals : list N; thr : N }.
(** [authority_index], primitives 124-126: the first position. *)
Fixpoint position (x : N) (l : list N) : option N :=
  match l with [] => None | y :: r => if y =? x then Some 0 else option_map N.succ (position x r) end.
(** [Witness], primitives 149-164: the fields the record looks at. *)
Record witness := Wit { wdigest : N; wevent : N; wauth : N; wsig : N }.

(** Sorted vectors.  On a sorted vector [binary_search] finds an element exactly if it is there, and otherwise gives the
    place before the first greater one; sortedness is proved as an invariant. *)
Definition has_key {A} (key : A -> N) (k : N) (l : list A) : bool := existsb (fun x => key x =? k) l.
Fixpoint insert_key {A} (key : A -> N) (x : A) (l : list A) : list A :=
  match l with [] => [x] | y :: r => if key x <? key y then x :: y :: r else y :: insert_key key x r end.
Definition idk (x : N) : N := x.

Record wrec := Wrec {
  metas : gmap N (chain * N);         (* [event_meta]: chain and digest data *)
  seen : gmap N (list N);             (* [has_witnessed] *)
  wvals : vset; xvals : vset;         (* [validators], [xrpl_validators] *)
  wits : gmap N (list (N * N));       (* [witnesses]: (validator index, signature) *)
  unver : gmap N (list witness);      (* [unverified_witnesses] *)
  done : list N }.                    (* [completed_events] *)
Definition set_seen s x := Wrec (metas s) x (wvals s) (xvals s) (wits s) (unver s) (done s).
Definition set_wits s x := Wrec (metas s) (seen s) (wvals s) (xvals s) x (unver s) (done s).
Definition set_unver s x := Wrec (metas s) (seen s) (wvals s) (xvals s) (wits s) x (done s).
Definition set_done s x := Wrec (metas s) (seen s) (wvals s) (xvals s) (wits s) (unver s) x.

(** [compact_sequence], 285-303: while three ids remain and the first two are consecutive (in [u64]), drop the first. *)
Fixpoint compact (l : list N) : list N :=
  match l with
  | a :: r => match r with b :: _ :: _ => if (a + 1) mod 2 ^ 64 =? b then compact r else l | _ => l end
  | [] => l
  end.
(** [mark_complete], 85-95. *)
Definition mark_complete (s : wrec) (id : N) : wrec :=
  Wrec (delete id (metas s)) (delete id (seen s)) (wvals s) (xvals s) (delete id (wits s)) (delete id (unver s))
    (if has_key idk id (done s) then done s else compact (insert_key idk id (done s))).
(** The completed-event test, 172-185. *)
Definition refused (s : wrec) (id : N) : bool :=
  has_key idk id (done s) || ((1 <? N.of_nat (length (done s))) && match done s with [] => false | m :: _ => id <=? m end).
(** [has_consensus], 105-134. *)
Definition xrpl_signer (s : wrec) (i : N) : bool :=
  match vals (wvals s) !! N.to_nat i with None => false | Some a => match position a (vals (xvals s)) with Some _ => true | None => false end end.
Definition count_for (s : wrec) (id : N) (c : chain) : N :=
  match wits s !! id with
  | None => 0
  | Some w => match c with Ethereum => N.of_nat (length w) | Xrpl => N.of_nat (length (List.filter (fun x => xrpl_signer s (fst x)) w)) end
  end.
Definition threshold (s : wrec) (c : chain) : N := match c with Ethereum => thr (wvals s) | Xrpl => thr (xvals s) end.
Definition has_consensus (s : wrec) (id : N) (c : chain) : bool := threshold s c <=? count_for s id c.
(** [note_event_metadata], 154-166. *)
Definition note_meta (s : wrec) (id : N) (c : chain) (data : N) : wrec :=
  match metas s !! id with
  | Some _ => s
  | None => Wrec (<[id := (c, data)]> (metas s)) (seen s) (wvals s) (xvals s) (wits s) (unver s) (done s)
  end.
(** [set_validators], 76-83. *)
Definition set_validators (s : wrec) (v x : vset) : wrec := Wrec (metas s) (seen s) v x (wits s) (unver s) (done s).

Inductive wres := DigestUnverified | Verified | CompletedEvent | DuplicateWitness | DigestCreationFailed | MismatchedDigest | BadSignature | UnknownAuthority.
Definition wok (r : wres) : bool := match r with DigestUnverified | Verified => true | _ => false end.

Section wit.
  (** [data_to_digest] (types.rs 54-68) for the key of an authority, and the signature check of the keystore. *)
  Variable digest_of : chain -> N -> N -> option N.
  Variable verify : N -> N -> N -> bool. (* authority, signature, digest *)

  (** Recording a verified witness, 242-268. *)
  Definition record_wit (s : wrec) (id i a sg : N) : wrec :=
    let ws := match wits s !! id with
              | Some l => if has_key fst i l then l else insert_key fst (i, sg) l
              | None => [(i, sg)]
              end in
    let se := match seen s !! id with
              | None => [a]
              | Some l => if has_key idk a l then l else insert_key idk a l
              end in
    set_seen (set_wits s (<[id := ws]> (wits s))) (<[id := se]> (seen s)).
  (** [note_event_witness], 169-271. *)
  Definition note (s : wrec) (w : witness) : wrec * wres :=
    let id := wevent w in
    if refused s id then (s, CompletedEvent)
    else if match seen s !! id with Some l => has_key idk (wauth w) l | None => false end then (s, DuplicateWitness)
    else match metas s !! id with
    | None => (set_unver s (<[id := match unver s !! id with Some l => l ++ [w] | None => [w] end]> (unver s)), DigestUnverified)
    | Some (c, data) =>
        match digest_of c data (wauth w) with
        | None => (s, DigestCreationFailed)
        | Some dg =>
            if negb (dg =? wdigest w) then (s, MismatchedDigest)
            else if negb (verify (wauth w) (wsig w) dg) then (s, BadSignature)
            else match position (wauth w) (vals (wvals s)) with
                 | None => (s, UnknownAuthority)
                 | Some i => (record_wit s id i (wauth w) (wsig w), Verified)
                 end
        end
    end.
  (** [process_unverified_witnesses], 143-151. *)
  Definition process (s : wrec) (id : N) : wrec :=
    match unver s !! id with
    | None => s
    | Some l => fold_left (fun s w => fst (note s w)) l (set_unver s (delete id (unver s)))
    end.

  (** ** The worker.  [proofs]: the proofs stored and sent to subscribers: event, chain, data and signatures. *)
  Record worker := Work { rec : wrec; proofs : list (N * (chain * N) * list (N * N)) }.
  (** [try_make_proof], worker.rs 346-404; [zero]: the all-zero key. *)
  Variable zero : N.
  Definition try_proof (s : worker) (id : N) : worker :=
    match metas (rec s) !! id with
    | None => s
    | Some (c, data) =>
        let r := process (rec s) id in
        if has_consensus r id c then
          match digest_of c data zero with
          | None => Work r (proofs s)
          | Some _ => Work (mark_complete r id) ((id, (c, data), default [] (wits r !! id)) :: proofs s)
          end
        else Work r (proofs s)
    end.
  (** [handle_witness], 316-335. *)
  Definition handle (s : worker) (w : witness) : worker :=
    let (r, x) := note (rec s) w in if wok x then try_proof (Work r (proofs s)) (wevent w) else s.
  (** What reaches the worker: a proof request in a finalised block, seen without or with a validator key of its own
      (175-185; 189-237), a gossiped witness, or a new validator set (276-299).  [sg] is the node's own signature. *)
  Inductive wop := WPassive (id : N) (c : chain) (data : N) | WActive (id : N) (c : chain) (data me sg : N) | WGossip (w : witness) | WSet (v x : vset).
  Definition wstep (s : worker) (o : wop) : worker :=
    match o with
    | WPassive id c data => try_proof (Work (note_meta (rec s) id c data) (proofs s)) id
    | WActive id c data me sg =>
        match digest_of c data me with
        | None => s
        | Some dg => handle (Work (note_meta (rec s) id c data) (proofs s)) (Wit dg id me sg)
        end
    | WGossip w => handle s w
    | WSet v x => Work (set_validators (rec s) v x) (proofs s)
    end.

  (** The record used directly. *)
  Inductive rop := RComplete (id : N) | RNote (w : witness) | RMeta (id : N) (c : chain) (data : N) | RProcess (id : N) | RSet (v x : vset).
  Definition rstep (s : wrec) (o : rop) : wrec :=
    match o with
    | RComplete id => mark_complete s id
    | RNote w => fst (note s w)
    | RMeta id c data => note_meta s id c data
    | RProcess id => process s id
    | RSet v x => set_validators s v x
    end.
End wit.
Definition wrec0 (v x : vset) : wrec := Wrec ∅ ∅ v x ∅ ∅ [].

(** [expanded_signatures], primitives 194-214; signatures are numbers, 0 the blank one; [n as u32] truncates; writing
    beyond the vector would panic. *)
Fixpoint expand (n : nat) (acc : list N) (l : list (N * N)) : result (list N) :=
  match l with
  | [] => Ok acc
  | (i, sg) :: r => if N.of_nat n mod 2 ^ 32 <=? i then Ok acc
                    else if N.of_nat (length acc) <=? i then Err 1
                    else expand n (<[N.to_nat i := sg]> acc) r
  end.
Definition expanded (n : nat) (l : list (N * N)) : result (list N) := expand n (replicate n 0) l.
(** [signature_count], 186-189. *)
Definition signature_count (l : list (N * N)) : N := N.of_nat (length (List.filter (fun x => negb (snd x =? 0)) l)).
