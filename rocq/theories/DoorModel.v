(** The signers of the XRPL door accounts: the whitelist and the active XRPL notaries of the bridge pallet
    (/repo/pallet/ethy/src/lib.rs ("lib"), impls.rs ("impls")) and the [SignerListSet] transactions that the XRPL bridge
    asks them to sign (/repo/pallet/xrpl-bridge/src/lib.rs ("xb")).

    Keys are numbers in the order of their bytes; which set of keys is announced and which is installed, and when, is
    RotModel's matter and here an input. *)
From Verif Require Export Base.

Definition keys := list N.
(** [XRPLDoorAccount], /repo/pallet/xrpl-bridge/src/types.rs:187-197. *)
Inductive door := Main | Nft.
Definition doors : list door := [Main; Nft].
Definition door_eqb (a b : door) : bool := match a, b with Main, Main | Nft, Nft => true | _, _ => false end.
(** The parts of a [SignerListSet] transaction that matter: the door that sends it, the ticket it uses, the entries (account
    and weight) and the quorum, xb 1773-1784. *)
Record sls := Sls { s_door : door; s_ticket : N; s_entries : list (N * N); s_quorum : N }.
(** A signing request in a block's digest.  Every notary of that block signs it
    (/repo/ethy-gadget/src/worker.rs:186-234), and a proof is made once all but one of the XRPL signers that the gadget
    holds have signed ([has_consensus], witness_record.rs:105-134, with the threshold of
    /repo/runtime/src/lib.rs:2020-2027). *)
Record asked := Asked { a_tx : sls; a_by : keys; a_set : keys }.
Inductive dev := EvSet | EvChange (proofs : N) | EvFailed.
Record dst := Dst {
  white : gmap N bool;        (* [XrplDoorSigners] *)
  notary : keys;              (* [NotaryKeys] *)
  active : keys;              (* [NotaryXrplKeys] *)
  gadget : keys;              (* the XRPL signers a running gadget holds: those of the last change of authorities (worker.rs:277-303) *)
  told : keys;                (* the keys announced last; kept only to state which histories are meant *)
  manual : bool;              (* [BridgePaused.manual_pause] *)
  paused : bool;              (* [BridgePaused.authorities_change] *)
  addr : door -> bool;        (* [DoorAddress] is set *)
  ticket : door -> N * N;     (* the next ticket and the end of the tickets there are, those of the next bucket included *)
  later : list sls;           (* [PendingEventProofs], the signer lists among them *)
  digests : list asked;       (* requests put into blocks, newest first *)
  devs : list dev }.

Section doors.
  (** [EthyEcdsaToXRPLAccountId::convert], /repo/primitives/src/ethy.rs:254-266: the account of a public key, a hash. *)
  Variable acc : N -> N.
  (** [MaxXrplKeys] (8) and [MaxNewSigners] (20), /repo/runtime/src/lib.rs:1028-1029. *)
  Variables maxk maxn : N.

  Definition listed (w : gmap N bool) (k : N) : bool := match w !! k with Some b => b | None => false end.
  (** [get_xrpl_notary_keys], impls 220-228. *)
  Definition select (w : gmap N bool) (ks : keys) : keys := firstn (N.to_nat maxk) (List.filter (listed w) ks).
  Definition set_active (s : dst) (ks : keys) : dst :=
    Dst (white s) (notary s) ks (gadget s) (told s) (manual s) (paused s) (addr s) (ticket s) (later s) (digests s) (devs s).
  (** [update_xrpl_notary_keys], impls 209-218. *)
  Definition update (s : dst) (ks : keys) : dst := set_active s (select (white s) ks).

  (** [set_xrpl_door_signers] called by root, lib 784-804; the length is cast to u8. *)
  Definition set_signers (s : dst) (l : list (N * bool)) : dst :=
    if N.of_nat (length l) mod 256 <? maxn then
      let w := fold_left (fun w x => <[fst x := snd x]> w) l (white s) in
      let s := Dst w (notary s) (active s) (gadget s) (told s) (manual s) (paused s) (addr s) (ticket s) (later s) (digests s) (EvSet :: devs s) in
      update s (notary s)
    else s.

  (** [do_request_event_proof] and [sign_xrpl_transaction], impls 76-84, 944-979. *)
  Definition request (s : dst) (t : sls) : dst :=
    if manual s || paused s
    then Dst (white s) (notary s) (active s) (gadget s) (told s) (manual s) (paused s) (addr s) (ticket s) (later s ++ [t]) (digests s) (devs s)
    else Dst (white s) (notary s) (active s) (gadget s) (told s) (manual s) (paused s) (addr s) (ticket s) (later s) (Asked t (notary s) (gadget s) :: digests s) (devs s).
  (** [get_door_ticket_sequence], xb 1704-1753, as a counter that may run out. *)
  Definition take_ticket (s : dst) (d : door) : option (N * dst) :=
    let (n, e) := ticket s d in
    if n <? e then
      Some (n, Dst (white s) (notary s) (active s) (gadget s) (told s) (manual s) (paused s) (addr s)
                   (fun x => if door_eqb x d then (n + 1, e) else ticket s x) (later s) (digests s) (devs s))
    else None.
  (** [submit_signer_list_set_request], xb 1757-1791: one transaction for each door in turn.  It is called from a hook, so
      what it did for the first door stays when the second fails. *)
  Fixpoint submit (s : dst) (es : list (N * N)) (ds : list door) : dst * option N :=
    match ds with
    | [] => (s, Some 0)
    | d :: ds =>
      if addr s d then
        match take_ticket s d with
        | Some (n, s) =>
          let '(s, r) := submit (request s (Sls d n es (N.of_nat (length es) - 1))) es ds in
          (s, match r with Some k => Some (k + 1) | None => None end)
        | None => (s, None)
        end
      else (s, None)
    end.

  (** [Vec::sort], by insertion. *)
  Fixpoint insert_key (k : N) (l : keys) : keys :=
    match l with [] => [k] | x :: r => if k <=? x then k :: l else x :: insert_key k r end.
  Definition sort (l : keys) : keys := fold_right insert_key [] l.
  Definition same (a b : keys) : bool := bool_decide (sort a = sort b).

  (** [handle_authorities_change] from "request for proof xrpl" on, impls 862-909, for the announced keys [next]. *)
  Definition change (s : dst) (next : keys) : dst :=
    let nx := sort (select (white s) next) in
    let s :=
      if same (active s) nx then s
      else
        let '(s, r) := submit s (map (fun k => (acc k, 1)) nx) doors in
        Dst (white s) (notary s) (active s) (gadget s) (told s) (manual s) (paused s) (addr s) (ticket s) (later s) (digests s)
            ((match r with Some k => EvChange k | None => EvFailed end) :: devs s) in
    Dst (white s) (notary s) (active s) (gadget s) next (manual s) true (addr s) (ticket s) (later s) (digests s) (devs s).
  (** [do_finalise_authorities_change], impls 912-941; the digest makes the gadgets read the sets again. *)
  Definition finalise (s : dst) (next : keys) : dst :=
    let s := update (Dst (white s) next (active s) (gadget s) (told s) (manual s) false (addr s) (ticket s) (later s) (digests s) (devs s)) next in
    Dst (white s) (notary s) (active s) (active s) (told s) (manual s) (paused s) (addr s) (ticket s) (later s) (digests s) (devs s).

  Fixpoint drop_nth {A} (i : nat) (l : list A) : list A :=
    match l, i with [], _ => [] | _ :: r, O => r | x :: r, S i => x :: drop_nth i r end.
  (** One round of [on_idle], lib 630-670; the map hands out its entries in an order of its own. *)
  Definition release (s : dst) (i : nat) : dst :=
    if manual s || paused s then s
    else match nth_error (later s) i with
         | Some t => request (Dst (white s) (notary s) (active s) (gadget s) (told s) (manual s) (paused s) (addr s) (ticket s)
                                  (drop_nth i (later s)) (digests s) (devs s)) t
         | None => s
         end.

  Inductive dop :=
  | OSigners (l : list (N * bool))      (* [set_xrpl_door_signers] *)
  | OChange (next : keys)               (* the next keys are announced *)
  | OFinal (next : keys)                (* keys become the notaries *)
  | OPause (b : bool)                   (* [set_bridge_paused], lib 932-937 *)
  | OAddr (d : door) (b : bool)         (* [set_door_address], xb 651-660 *)
  | OTickets (d : door) (n e : N)       (* tickets are set or used up by other transactions *)
  | ORelease (i : nat).                 (* [on_idle] sends a delayed request *)
  Definition dstep (s : dst) (o : dop) : dst :=
    match o with
    | OSigners l => set_signers s l
    | OChange next => change s next
    | OFinal next => finalise s next
    | OPause b => Dst (white s) (notary s) (active s) (gadget s) (told s) b (paused s) (addr s) (ticket s) (later s) (digests s) (devs s)
    | OAddr d b => Dst (white s) (notary s) (active s) (gadget s) (told s) (manual s) (paused s) (fun x => if door_eqb x d then b else addr s x) (ticket s) (later s) (digests s) (devs s)
    | OTickets d n e => Dst (white s) (notary s) (active s) (gadget s) (told s) (manual s) (paused s) (addr s) (fun x => if door_eqb x d then (n, e) else ticket s x) (later s) (digests s) (devs s)
    | ORelease i => release s i
    end.
  (** Genesis: the whitelist of the chain specification (lib 121-136) and the keys of the first session (impls 988-1005). *)
  Definition genesis (w : list N) (ks : keys) : dst :=
    let wl := fold_left (fun w x => <[x := true]> w) w ∅ in
    Dst wl ks (select wl ks) (select wl ks) [] false false (fun _ => false) (fun _ => (0, 0)) [] [] [].
End doors.
