(** Notaries and the queue of challenges together: the off-chain worker of every notary, /repo/pallet/ethy/src/impls.rs:261-310
    ([worker_events] in [NotaryModel]), on the bridge's state ([EthyModel]). *)
From Verif Require Export EthyModel.
From Verif Require Import NotaryModel.

Section chal.
  Variables (mx mxm mxc : nat) (thr rb cb : N).
  (** [ContractAddress] and [EventBlockConfirmations]; a stored claim; each notary's Ethereum node. *)
  Variables (contract conf : N) (stored : N -> eclaim) (nd : nat -> node).
  Local Notation step := (estep mx mxm mxc thr rb cb).

  (** What the worker of the notary with index [i] sends in a state: the claim and whether it found it valid.  The bridge is not
      paused, and the share of validators with notary keys is not too small (lib 686-701). *)
  Definition opinion (s : ev) (i : nat) : option (N * bool) :=
    match nth_error (keys s) i with
    | None => None
    | Some k =>
        match worker_events contract conf (nd i) false (chals s) (fun id => option_map stored (pend (co s) !! id))
                (fun id => match votes s !! (id, k) with Some _ => true | None => false end) with
        | Some (id, v) => Some (id, match v with Valid => true | _ => false end)
        | None => None
        end
    end.
  (** A block: the notaries [who] look at the state, and their votes are executed in this order; old votes are cleared whole. *)
  Definition vote_of (s s' : ev) (i : nat) : ev :=
    match opinion s i with Some (id, v) => step s' (ENotarize true i id v) | None => s' end.
  Definition round (s : ev) (who : list nat) : ev := fold_left (vote_of s) who s.

  (** What goes on while nobody challenges, submits or changes notaries. *)
  Inductive life := Round (who : list nat) | Tick | Bond (a : N) | Relay (r : N).
  Definition live (s : ev) (o : life) : ev :=
    match o with
    | Round who => round s who
    | Tick => step s ETick
    | Bond a => step s (EDeposit a)
    | Relay r => step s (ESetRelayer r)
    end.
End chal.
