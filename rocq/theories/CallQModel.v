(** Notaries and the queue of requested eth_calls together: /repo/pallet/ethy/src/impls.rs ("impls") 406-437 and 725-813 on the
    oracle's state ([EthyQueue]), with what notaries find out ([NotaryModel]). *)
From Verif Require Export EthyQueue.
From Verif Require Import EthyModel NotaryModel.

(** The oracle's state with [EthCallRequests], lib.rs:388. *)
Record cq := Cq { cst : cs; queue : list N }.
Definition cq0 (ks : list N) : cq := Cq (cinit ks) [].
(** [CheckedEthCallResult] as votes hold it; 32 bytes are a number. *)
Definition told (r : callres) : cres :=
  match r with
  | COk d b t => ROk (fold_left (fun n x => n * 256 + x) d 0) b t
  | CTooLong => RFail 1 | CEmpty => RFail 2 | CProvider => RFail 3 | CBadBlock => RFail 4 | CBadTime => RFail 5
  end.

Section callq.
  (** [NotarizationThreshold]; what was asked; the Ethereum node of each notary at each time. *)
  Variables (thr : N) (stored : N -> creq) (nd : N -> nat -> node).
  (** The queue's part of [checked_eth_call], impls 1108-1119, and of the callback, impls 777-779: the only place where a request
      goes away. *)
  Definition qdo (q : cq) (o : cop) : cq :=
    let s' := cstep thr (cst q) o in
    Cq s' match o with
          | CCall => queue q ++ [nextc (cst q)]
          | CVote _ _ id _ =>
              match creqs (cst q) !! id, creqs s' !! id with Some _, None => remove1 id (queue q) | _, _ => queue q end
          | _ => queue q
          end.
  (** [offchain_worker], lib.rs:672-710, and [do_call_notarization_ocw], impls 406-437, of the notary with index [i] at time [t]:
      the first [CALLS_PER_BLOCK] = 1 of the queue, unless voted on with this key. *)
  Definition ballot (t : N) (q : cq) (i : nat) : option cop :=
    match nth_error (ckeys (cst q)) i with
    | None => None
    | Some k =>
        if pct (N.of_nat (length (ckeys (cst q)))) (cn (cst q)) <? thr then None else
        match queue q with
        | [] => None
        | id :: _ =>
            match cvotes (cst q) !! (id, k) with
            | Some _ => None
            | None =>
                match creqs (cst q) !! id with
                | Some _ => Some (CVote true i id (told (try_call t (nd t i) (stored id))))
                | None => None
                end
            end
        end
    end.
  (** A block: the notaries [who] look at the same state, and their votes are executed in this order; old votes are cleared whole. *)
  Definition ballots (t : N) (q : cq) (who : list nat) : list cop :=
    flat_map (fun i => match ballot t q i with Some o => [o] | None => [] end) who.
  Inductive hist := HRound (t : N) (who : list nat) | HDo (o : cop).
  Definition hstep (q : cq) (h : hist) : cq :=
    match h with HRound t who => run qdo (ballots t q who) q | HDo o => qdo q o end.
End callq.
