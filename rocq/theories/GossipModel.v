(** The gossip validator of the ethy gadget, /repo/ethy-gadget/src/gossip.rs: which witnesses a node takes, keeps and
    passes on. *)
From Verif Require Export Base.

(** [MAX_COMPLETE_EVENT_CACHE], gossip.rs:47; [WINDOW_SIZE], 56; [REBROADCAST_AFTER] in seconds, 50. *)
Definition CACHE : nat := 500.
Definition WINDOW : N := 90.
Definition AGAIN : N := 180.

(** [Witness], /repo/primitives/src/ethy.rs:149-164, without the chain and the validator set, which are not looked at.
    Keys are numbers in the order of their bytes. *)
Record witness := Wit { w_digest : N; w_event : N; w_auth : N; w_sig : N; w_block : N }.

(** [slice::binary_search_by] of the standard library (Rust 1.80), with [fuel] the length of the slice.  [VecDeque]'s
    looks into one of its two halves first; on sorted contents the answer is the same. *)
Fixpoint bsearch_from (fuel : nat) (l : list N) (x : N) (left right : nat) : nat + nat :=
  match fuel with
  | O => inr left
  | S fuel' =>
      if Nat.ltb left right then
        let mid := (left + (right - left) / 2)%nat in
        match nth mid l 0 ?= x with
        | Eq => inl mid
        | Lt => bsearch_from fuel' l x (S mid) right
        | Gt => bsearch_from fuel' l x left mid
        end
      else inr left
  end.
(** [inl i]: found at [i]; [inr i]: not found, to be inserted at [i]. *)
Definition bsearch (l : list N) (x : N) : nat + nat := bsearch_from (S (length l)) l x 0 (length l).
Definition insert_at (l : list N) (i : nat) (x : N) : list N := firstn i l ++ x :: skipn i l.

(** [GossipValidator], gossip.rs:63-79; [g_next]: [next_rebroadcast]. *)
Record gst := Gst { g_known : gmap N (list N); g_done : list N; g_active : list N; g_next : N }.

Section gossip.
  (** [EthyKeystore::verify_prehashed], /repo/ethy-gadget/src/keystore.rs:102-104: key, signature, digest. *)
  Variable verifies : N -> N -> N -> bool.

  (** [new], gossip.rs:86-95, at time [now]. *)
  Definition gnew (active : list N) (now : N) : gst := Gst ∅ [] active (now + AGAIN).
  (** [mark_complete], 104-119. *)
  Definition mark_complete (s : gst) (e : N) : gst :=
    let c := if Nat.leb CACHE (length (g_done s)) then tail (g_done s) else g_done s in
    Gst (base.delete e (g_known s)) (match bsearch c e with inl _ => c | inr i => insert_at c i e end) (g_active s) (g_next s).
  (** [set_active_validators], 121-125. *)
  Definition set_active (s : gst) (l : list N) : gst := Gst (g_known s) (g_done s) l (g_next s).
  Definition with_known (s : gst) (k : gmap N (list N)) : gst := Gst k (g_done s) (g_active s) (g_next s).
  Definition too_old (w : witness) (finalized : N) : bool := w_block w <? finalized - WINDOW.
  (** [validate], 134-204; [None]: bytes that are no witness; [true]: [ProcessAndKeep], [false]: [Discard]. *)
  Definition validate (s : gst) (m : option witness) (finalized : N) : gst * bool :=
    match m with
    | None => (s, false)
    | Some w =>
        let known := option_map (fun v => (v, bsearch v (w_auth w))) (g_known s !! w_event w) in
        match known with
        | Some (_, inl _) => (s, false)
        | _ =>
            if negb (existsb (N.eqb (w_auth w)) (g_active s)) then (s, false)
            else if verifies (w_auth w) (w_sig w) (w_digest w) then
              let v := match known with Some (v, inr i) => insert_at v i (w_auth w) | _ => [w_auth w] end in
              (with_known s (<[w_event w := v]> (g_known s)), negb (too_old w finalized))
            else (s, false)
        end
    end.
  (** [message_expired], 206-225. *)
  Definition expired (s : gst) (m : option witness) (finalized : N) : bool :=
    match m with
    | None => true
    | Some w => too_old w finalized || match bsearch (g_done s) (w_event w) with inl _ => true | inr _ => false end
    end.
  (** [message_allowed], 227-262: the answers to the messages of one round of sending, each with whether it is a periodic
      rebroadcast. *)
  Definition allowed1 (s : gst) (again : bool) (finalized : N) (p : bool * option witness) : bool :=
    if fst p then again
    else match snd p with
         | None => false
         | Some w => negb (too_old w finalized) && match bsearch (g_done s) (w_event w) with inl _ => false | inr _ => true end
         end.
  Definition allowed (s : gst) (now finalized : N) (l : list (bool * option witness)) : gst * list bool :=
    let again := g_next s <=? now in
    (Gst (g_known s) (g_done s) (g_active s) (if again then now + AGAIN else g_next s), map (allowed1 s again finalized) l).

  Inductive gop :=
  | GHear (m : option witness) (finalized : N)
  | GComplete (e : N)
  | GActive (l : list N)
  | GSend (now finalized : N) (l : list (bool * option witness)).
  Definition gstep (s : gst) (o : gop) : gst :=
    match o with
    | GHear m f => fst (validate s m f)
    | GComplete e => mark_complete s e
    | GActive l => set_active s l
    | GSend now f l => fst (allowed s now f l)
    end.
End gossip.
