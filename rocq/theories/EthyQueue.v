(** Model of the outgoing side of the Ethereum bridge (event proofs) and of its eth_call oracle,
    [/repo/pallet/ethy/src/impls.rs] ("impls") and [lib.rs] ("lib"). *)
From Verif Require Export EthyLive.

(** ** Event proofs *)
(** [EthySigningRequest], types.rs: an Ethereum event with the id of the validator set that signs it,
    or an XRPL transaction; the payloads are numbers. *)
Inductive sreq := REth (set msg : N) | RXrp (data : N).
(** Seen by observers, newest first: a proof was requested, was put in a block for signing, an
    authority-change proof was requested while the given set was in charge. *)
Inductive qev := QReq (id : N) (r : sreq) | QEmit (id : N) (r : sreq) | QAuth (id set : N).
Record qs := Qs {
  manual : bool; authch : bool;      (* [BridgePaused] *)
  nextp : N;                         (* [NextEventProofId], u64 *)
  setid : N;                         (* [NotarySetId], u64 *)
  pendq : gmap N sreq;               (* [PendingEventProofs] *)
  perblk : N;                        (* [DelayedEventProofsPerBlock], u8 *)
  qlog : list qev }.
(** [bridge_paused], impls 95-98. *)
Definition paused (s : qs) : bool := manual s || authch s.
Definition wrap64 (n : N) : N := n mod 2 ^ 64.
Definition qlogged (s : qs) (e : qev) : qs := Qs (manual s) (authch s) (nextp s) (setid s) (pendq s) (perblk s) (e :: qlog s).

(** [do_request_event_proof], impls 944-982. *)
Definition request_proof (s : qs) (id : N) (r : sreq) : qs :=
  if paused s then Qs (manual s) (authch s) (nextp s) (setid s) (<[id := r]> (pendq s)) (perblk s) (qlog s)
  else qlogged s (QEmit id (match r with
                            | REth set msg => REth (if set <? setid s then setid s else set) msg
                            | RXrp d => RXrp d end)).
(** [send_event], impls 45-68, and [sign_xrpl_transaction], impls 76-84.  [fits] is the outcome of the
    payload length check; on failure the id has already been consumed (a dispatchable rolls that
    back, a hook does not). *)
Definition take_id (s : qs) : qs := Qs (manual s) (authch s) (wrap64 (nextp s + 1)) (setid s) (pendq s) (perblk s) (qlog s).
Definition send (s : qs) (fits : bool) (mk : N -> sreq) : qs * option N :=
  let id := nextp s in
  let s1 := take_id s in
  if fits then (request_proof (qlogged s1 (QReq id (mk (setid s)))) id (mk (setid s)), Some id) else (s1, None).
Definition send_eth (s : qs) (fits : bool) (msg : N) := send s fits (fun set => REth set msg).
Definition send_xrp (s : qs) (fits : bool) (d : N) := send s fits (fun _ => RXrp d).

(** [handle_authorities_change], impls 821-909: announce the next set to Ethereum, ask for the XRPL
    signer list proofs ([xr], payload fits or not; none if the keys did not change), then pause. *)
Definition change_authorities (s : qs) (fits : bool) (msg : N) (xr : list (bool * N)) : qs :=
  let s1 := match send_eth s fits msg with
            | (s', Some id) => qlogged s' (QAuth id (setid s))
            | (s', None) => s' end in
  let s2 := fold_left (fun t d => fst (send_xrp t (fst d) (snd d))) xr s1 in
  Qs (manual s2) true (nextp s2) (setid s2) (pendq s2) (perblk s2) (qlog s2).
(** [do_finalise_authorities_change], impls 912-941. *)
Definition finalise (s : qs) : qs := Qs (manual s) false (nextp s) (wrap64 (setid s + 1)) (pendq s) (perblk s) (qlog s).

(** One drained proof of [on_idle], lib 656-667. *)
Definition drain1 (s : qs) (e : N * sreq) : qs :=
  request_proof (Qs (manual s) (authch s) (nextp s) (setid s) (delete (fst e) (pendq s)) (perblk s) (qlog s)) (fst e) (snd e).

Section queue.
  (** Order in which [PendingEventProofs::drain()] visits the entries (storage key order). *)
  Variable ord : list (N * sreq) -> list (N * sreq).
  (** [on_idle], lib 630-670; [w] is how many proofs the remaining weight allows. *)
  Definition idle (s : qs) (w : N) : qs :=
    if (w =? 0) || paused s then s
    else fold_left drain1 (firstn (N.to_nat (N.min (perblk s) w)) (ord (map_to_list (pendq s)))) s.

  Inductive qop :=
  | QSendEth (fits : bool) (msg : N)
  | QSendXrp (fits : bool) (data : N)
  | QPause (b : bool)                (* [set_bridge_paused], lib 932-937 *)
  | QChange (fits : bool) (msg : N) (xr : list (bool * N))
  | QFinal
  | QIdle (w : N)
  | QSetPer (n : N).                 (* [set_delayed_event_proofs_per_block], lib 892-901 *)
  (** The first two are dispatchables: a payload that does not fit rolls everything back. *)
  Definition qstep (s : qs) (o : qop) : qs :=
    match o with
    | QSendEth fits msg => match send_eth s fits msg with (s', Some _) => s' | _ => s end
    | QSendXrp fits d => match send_xrp s fits d with (s', Some _) => s' | _ => s end
    | QPause b => Qs b (authch s) (nextp s) (setid s) (pendq s) (perblk s) (qlog s)
    | QChange fits msg xr => change_authorities s fits msg xr
    | QFinal => finalise s
    | QIdle w => idle s w
    | QSetPer n => if n <=? U8MAX then Qs (manual s) (authch s) (nextp s) (setid s) (pendq s) n (qlog s) else s
    end.
End queue.
(** Genesis; [DefaultDelayedEventProofsPerBlock] is 5 (lib 280-282). *)
Definition qinit : qs := Qs false false 0 0 ∅ 5 [].

(** ** eth_call oracle *)
(** [CheckedEthCallResult], types.rs: data with block and timestamp, or a failure. *)
Inductive cres := ROk (data blk ts : N) | RFail (c : N).
#[global] Instance cres_eq : EqDecision cres. Proof. solve_decision. Defined.
Record cs := Cs {
  creqs : gmap N unit;               (* [EthCallRequestInfo] *)
  cvotes : gmap (N * N) cres;        (* [EthCallNotarizations] *)
  agg : gmap N (list (cres * N));    (* [EthCallNotarizationsAggregated] *)
  ckeys : list N; cn : N; nextc : N;
  cbs : list (N * cres) }.           (* callbacks made, newest first *)
(** [*notarizations.entry(result).or_insert(0) += 1], impls 787.  A [BTreeMap] is kept in key order;
    here results are in order of first appearance, which no theorem depends on. *)
Fixpoint bump (r : cres) (l : list (cres * N)) : list (cres * N) :=
  match l with
  | [] => [(r, 1)]
  | (q, c) :: l' => if decide (q = r) then (q, c + 1) :: l' else (q, c) :: bump r l'
  end.
Section calls.
  Variable thr : N.
  (** [checked_eth_call], impls 1087-1123. *)
  Definition ccall (s : cs) : cs :=
    Cs (<[nextc s := tt]> (creqs s)) (cvotes s) (agg s) (ckeys s) (cn s) (wrap64 (nextc s + 1)) (cbs s).
  (** [do_callback_and_clean_up], impls 743-776; [cleared] as in EthyModel. *)
  Definition callback (s : cs) (cleared : bool) (id : N) (r : cres) : result cs :=
    ensure! cleared else 14;
    Ok (Cs (delete id (creqs s)) (filter (fun e => fst (fst e) <> id) (cvotes s)) (delete id (agg s))
           (ckeys s) (cn s) (nextc s) ((id, r) :: cbs s)).
  Definition csum (l : list (cres * N)) : N := sumL (map snd l).
  (** [handle_call_notarization], impls 725-813. *)
  Definition handle_call_vote (s : cs) (cleared : bool) (id key : N) (r : cres) : result cs :=
    ensure! match creqs s !! id with Some _ => true | None => false end else 1;
    let s1 := Cs (creqs s) (<[(id, key) := r]> (cvotes s)) (agg s) (ckeys s) (cn s) (nextc s) (cbs s) in
    let ns := bump r (default [] (agg s !! id)) in
    match List.find (fun e => thr <=? pct (snd e) (cn s)) ns with
    | Some (r', _) => callback s1 cleared id r'
    | None =>
        let total := csum ns in
        let out := cn s - total in
        let can := existsb (fun e => thr <=? pct (snd e + out) (cn s)) ns in
        if (total =? cn s) || negb can then callback s1 cleared id r
        else Ok (Cs (creqs s1) (cvotes s1) (<[id := ns]> (agg s)) (ckeys s1) (cn s1) (nextc s1) (cbs s1))
    end.
  (** [submit_notarization] (call payload) after [validate_unsigned], as for events. *)
  Definition cnotarize (s : cs) (cleared : bool) (idx : nat) (id : N) (r : cres) : result cs :=
    do! key <- of_opt (nth_error (ckeys s) idx) 17;
    ensure! match cvotes s !! (id, key) with None => true | _ => false end else 18;
    handle_call_vote s cleared id key r.
  Inductive cop := CCall | CVote (cleared : bool) (idx : nat) (id : N) (r : cres) | CKeys (ks : list N) | CVals (n : N).
  Definition cexec (s : cs) (o : cop) : result cs :=
    match o with
    | CCall => Ok (ccall s)
    | CVote cl idx id r => cnotarize s cl idx id r
    | CKeys ks => Ok (Cs (creqs s) (cvotes s) (agg s) ks (cn s) (nextc s) (cbs s))
    | CVals n => Ok (Cs (creqs s) (cvotes s) (agg s) (ckeys s) n (nextc s) (cbs s))
    end.
  Definition cstep (s : cs) (o : cop) : cs := commit s (cexec s o).
End calls.
Definition cinit (ks : list N) : cs := Cs ∅ ∅ ∅ ks (N.of_nat (length ks)) 0 [].
