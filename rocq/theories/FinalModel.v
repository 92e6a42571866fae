(** How a node follows finalised blocks and picks the proof requests out of them: /repo/ethy-gadget/src/worker.rs ("worker").
    What becomes of a request afterwards is in [WitnessModel]. *)
From Verif Require Export Base.

(** [ValidatorSet], /repo/primitives/src/ethy.rs:95-127, without the threshold; [empty] there has the id 0. *)
Record aset := ASet { aid : N; akeys : list N }.
Definition noset : aset := ASet 0 [].
Definition unset (a : aset) : bool := match akeys a with [] => true | _ => false end.
(** [ProofRequest], /repo/ethy-gadget/src/types.rs:31-41: the chain it is for, the event and its data. *)
Record ask := Ask { achain : N; aevent : N; adata : N }.
(** Logs of a block's digest: the two kinds of [ConsensusLog] under the bridge's engine id, and all others. *)
Inductive dlog := LSet (a : aset) | LAsk (q : ask) | LOther.
Record header := Hd { num : N; hash : N; parent : N; logs : list dlog }.

(** [extract_proof_requests], worker 457-477. *)
Fixpoint asks_in (l : list dlog) : list ask :=
  match l with [] => [] | LAsk q :: l => q :: asks_in l | _ :: l => asks_in l end.
Definition asks (h : header) : list ask := asks_in (logs h).
(** [find_authorities_change], worker 480-493: the first such log. *)
Fixpoint change_in (l : list dlog) : option aset :=
  match l with [] => None | LSet a :: _ => Some a | _ :: l => change_in l end.
Definition change_of (h : header) : option aset := change_in (logs h).

(** A request as handled: its block, itself, and the set and the key (none: only noted) it was handled under. *)
Record handled := Hnd { hblock : N; hask : ask; hset : N; hkey : option N }.
(** The worker: number of the last block processed, the sets of notaries and of XRPL signers it holds, and what it handled,
    newest first. *)
Record fin := Fin { best : N; held : aset; xheld : aset; done : list handled }.
(** A finality notification together with what the node's database and runtime answer while it is handled; a missing block
    and a failing database are both none. *)
Record notice := Nt { what : header; db : N -> option header; api : N -> option aset; xapi : N -> option aset }.

Section final.
  (** Whether the node's keystore holds the key. *)
  Variable owns : N -> bool.
  (** [authority_id], /repo/ethy-gadget/src/keystore.rs:40-50. *)
  Definition my_key (ks : list N) : option N := find owns ks.

  (** Worker 275-299: a new set is taken when the block logs a change or none is held. *)
  Definition refresh (s : fin) (n : notice) (h : header) : fin :=
    if match change_of h with Some _ => true | None => false end || unset (held s) then
      match api n (hash h) with
      | Some a =>
          if negb (aid a =? aid (held s)) || ((aid a =? 0) && unset (held s))
          then Fin (best s) a (default noset (xapi n (hash h))) (done s) else s
      | None => s
      end
    else s.
  (** Worker 301-312 with 174-185 and 187-236: the requests in the order of the digest.  A request for which no digest can be
      made or which the keystore does not sign is dropped there; here it counts as handled. *)
  Definition process (s : fin) (h : header) : fin :=
    Fin (num h) (held s) (xheld s)
      (rev (map (fun q => Hnd (hash h) q (aid (held s)) (my_key (akeys (held s)))) (asks h)) ++ done s).
  (** [handle_finality_notification], worker 239-313; [fuel] bounds the way back. *)
  Fixpoint handle (fuel : nat) (n : notice) (h : header) (s : fin) : fin :=
    match fuel with
    | O => s
    | S fuel =>
        if num h <=? best s then s else
        let s1 := if best s + 1 <? num h then
                    match db n (parent h) with Some p => handle fuel n p s | None => s end
                  else s in
        process (refresh s1 n h) h
    end.
  (** As many steps as there are blocks in between: each parent is one lower ([handle_fuel] in [FinalProps]). *)
  Definition notify (s : fin) (n : notice) : fin := handle (N.to_nat (num (what n) - best s)) n (what n) s.
  Definition follow (s : fin) (l : list notice) : fin := fold_left notify l s.
End final.
(** [new], worker 105-136: a starting node begins after the last finalised block, with no set. *)
Definition starting (b : N) : fin := Fin b noset noset [].
