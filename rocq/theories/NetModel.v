(** The nodes together: what each makes of the requests it handles, as witnesses to the others and in its own record.
    /repo/ethy-gadget/src/worker.rs ("worker"); composes [FinalModel] with [WitnessModel]. *)
From Verif Require Import WitnessModel.
From Verif Require FinalModel.

(** [EthyChainId], /repo/primitives/src/ethy.rs:65-70. *)
Definition chain_of (n : N) : chain := if n =? 1 then Ethereum else Xrpl.
(** A node: the keys in its keystore, the last finalised block when it started and the notifications it got. *)
Record node := Node { keys : N -> bool; since : N; heard : list FinalModel.notice }.
(** What it handled so far, oldest first. *)
Definition log (n : node) : list FinalModel.handled :=
  rev (FinalModel.done (FinalModel.follow (keys n) (FinalModel.starting (since n)) (heard n))).

Section net.
  Variable digest_of : chain -> N -> N -> option N.
  (** The signature of a key over a digest, [sign_prehashed]. *)
  Variable sign : N -> N -> N.
  (** Worker 301-312: a request goes to the signing or the noting branch; 174-185 and 187-236 are [wstep] of [WPassive] and
      [WActive].  Without a digest there is no signature, and [wstep] does not look at the one given. *)
  Definition does (x : FinalModel.handled) : wop :=
    let q := FinalModel.hask x in
    let c := chain_of (FinalModel.achain q) in
    match FinalModel.hkey x with
    | Some k => WActive (FinalModel.aevent q) c (FinalModel.adata q) k
                  match digest_of c (FinalModel.adata q) k with Some dg => sign k dg | None => 0 end
    | None => WPassive (FinalModel.aevent q) c (FinalModel.adata q)
    end.
  (** Worker 200-232 and [handle_witness], 316-335: the witness signed and sent for a request.  There it is sent only if the
      node's own record takes it: [shared] below. *)
  Definition sends (x : FinalModel.handled) : list witness :=
    let q := FinalModel.hask x in
    match FinalModel.hkey x with
    | Some k => match digest_of (chain_of (FinalModel.achain q)) (FinalModel.adata q) k with
                | Some dg => [Wit dg (FinalModel.aevent q) k (sign k dg)]
                | None => []
                end
    | None => []
    end.
  Definition sent (n : node) : list witness := flat_map sends (log n).
  (** What the worker really gossips, 316-335: a witness, its own or another's, that its record takes. *)
  Variable verify : N -> N -> N -> bool.
  Variable zero : N.
  Definition taken (r : wrec) (w : witness) : list witness := if wok (snd (note digest_of verify r w)) then [w] else [].
  Definition shares (s : worker) (o : wop) : list witness :=
    match o with
    | WActive id c data me sg =>
        match digest_of c data me with Some dg => taken (note_meta (rec s) id c data) (Wit dg id me sg) | None => [] end
    | WGossip w => taken (rec s) w
    | _ => []
    end.
  Fixpoint shared (s : worker) (ops : list wop) : list witness :=
    match ops with [] => [] | o :: ops => shares s o ++ shared (wstep digest_of verify zero s o) ops end.
End net.
