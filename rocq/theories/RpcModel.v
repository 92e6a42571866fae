(** Event proofs over RPC: /repo/ethy-gadget/rpc/src/lib.rs ("rpc"), on the store that the gadget's worker writes
    (/repo/ethy-gadget/src/worker.rs:345-408, types.rs:41-49). *)
From Verif Require Export WitnessModel.

(** [EventProof], /repo/primitives/src/ethy.rs:167-182: the event, the block of the request, the signatures by index. *)
Record proof := Proof { p_event : N; p_block : N; p_sigs : list (N * N) }.
(** The two answers, notification.rs 24-54. *)
Record eth_answer := EthAnswer { e_event : N; e_sigs : list N; e_validators : list N; e_set : N; e_block : N }.
Record xrpl_answer := XrplAnswer { x_event : N; x_sigs : list N; x_validators : list N; x_set : N; x_block : N }.
(** What the runtime says at a block: notaries, XRPL signers and the id of the set ([validator_set], [xrpl_signers]); [None]
    if the node has discarded the state of that block. *)
Record sets := Sets { notaries : list N; signers : list N; set_id : N }.

Section rpc.
  (** [EthyEcdsaToEthereum], [EthyEcdsaToPublicKey] (primitives 223-252). *)
  Variables address pubkey : N -> N.
  (** Signatures in DER with a low S (rpc 253-266). *)
  Variable der : N -> N.
  Variable state : N -> option sets.

  (** [build_event_proof_response], rpc 175-212; a panic in [expanded_signatures] is an error. *)
  Definition build_eth (p : proof) : result (option eth_answer) :=
    match state (p_block p) with
    | None => Ok None
    | Some t =>
      let vs := map address (notaries t) in
      do! sg <- expanded (length vs) (p_sigs p);
      Ok (Some (EthAnswer (p_event p) sg vs (set_id t) (p_block p)))
    end.
  (** The filter of [build_xrpl_tx_proof_response], rpc 231-250, which notes the public keys as it goes. *)
  Fixpoint pick (ns xs : list N) (l : list (N * N)) : list N * list N :=
    match l with
    | [] => ([], [])
    | (i, sg) :: r =>
      let '(ss, ks) := pick ns xs r in
      match ns !! N.to_nat i with
      | Some k => match position k xs with Some _ => (der sg :: ss, pubkey k :: ks) | None => (ss, ks) end
      | None => (ss, ks)
      end
    end.
  (** [build_xrpl_tx_proof_response], rpc 215-277. *)
  Definition build_xrpl (p : proof) : option xrpl_answer :=
    match state (p_block p) with
    | None => None
    | Some t => let '(ss, ks) := pick (notaries t) (signers t) (p_sigs p) in
                Some (XrplAnswer (p_event p) ss ks (set_id t) (p_block p))
    end.

  (** The proofs a node has stored, by chain and event ([make_proof_key], types.rs 41-49), and those it has told its
      subscribers of (worker 377-403), newest first. *)
  Record node := Node { stored : gmap (bool * N) proof; told : list proof }.
  Definition is_xrpl (c : chain) : bool := match c with Xrpl => true | Ethereum => false end.
  Definition make (n : node) (c : chain) (p : proof) : node := Node (<[(is_xrpl c, p_event p) := p]> (stored n)) (p :: told n).
  (** [get_event_proof], rpc 130-150. *)
  Definition get_eth (n : node) (id : N) : result (option eth_answer) :=
    match stored n !! (false, id) with Some p => build_eth p | None => Ok None end.
  (** [get_xrpl_tx_proof], rpc 152-172. *)
  Definition get_xrpl (n : node) (id : N) : option xrpl_answer :=
    match stored n !! (true, id) with Some p => build_xrpl p | None => None end.
  (** [subscribe_event_proofs], rpc 111-128: every proof, in the form for Ethereum. *)
  Definition sent (n : node) : list (result (option eth_answer)) := map build_eth (told n).
  Definition nstep (n : node) (o : chain * proof) : node := make n (fst o) (snd o).
End rpc.
