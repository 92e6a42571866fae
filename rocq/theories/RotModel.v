(** Rotation of the bridge's notary keys: sessions and eras, /repo/runtime/src/impls.rs:358-384 ("impls"), and what the
    bridge pallet does with them, /repo/pallet/ethy/src/impls.rs ("ethy") and lib.rs ("lib").

    [pallet_session] and [pallet_staking] (external crates) are modelled as far as they decide sessions, eras and the
    keys of their validators; the order of hooks in a block is that of [construct_runtime!]
    (/repo/runtime/src/lib.rs:1392-1455): Scheduler, Session, EthBridge. *)
From Verif Require Export Base.

Definition keys := list N.
(** [pallet_staking::Forcing]. *)
Inductive forcing := NotForcing | ForceNew | ForceNone | ForceAlways.
(** What can be seen from outside, newest first: a session began in an era with these validator keys; the keys and id of
    the next set were announced to Ethereum in some block ([send_event] and [AuthoritySetChange], ethy 847-856); keys were
    made the notaries under an id (the digest for the gadget, ethy 918-929). *)
Inductive rev := EvSession (index era : N) (ks : keys) | EvAnnounce (block : N) (ks : keys) (id : N) | EvInstall (ks : keys) (id : N).
Record rot := Rot {
  now : N;                    (* block number *)
  since : N;                  (* first block of the session *)
  sess : N;                   (* [Session::current_index] *)
  act : N;                    (* [Staking::active_era] *)
  cur : N;                    (* [Staking::current_era], the newest planned one *)
  starts : gmap N N;          (* [Staking::eras_start_session_index] *)
  force : forcing;            (* [Staking::force_era] *)
  queued : keys;              (* [Session::queued_keys], those of the bridge *)
  notary : keys;              (* [NotaryKeys] *)
  nexts : keys;               (* [NextNotaryKeys] *)
  setid : N;                  (* [NotarySetId], u64 *)
  change_at : option N;       (* [NextAuthorityChange] *)
  changed : bool;             (* [AuthoritiesChangedThisEra] *)
  stopped : bool;             (* [BridgePaused.authorities_change] *)
  agenda : list (N * keys);   (* [finalise_authorities_change] calls in the scheduler *)
  rlog : list rev }.

Section rot.
  (** [AuthorityChangeDelay] (75), [EpochDuration] (3600), [SessionsPerEra] (6), [MaxEthData] (3200):
      /repo/runtime/src/lib.rs:1031-1033, constants.rs:84-94. *)
  Variables delay epoch per mxd : N.
  Definition next_id (s : rot) : N := (setid s + 1) mod 2 ^ 64.

  (** [is_active_session_final], impls 362-382. *)
  Definition final (s : rot) : bool :=
    match starts s !! act s with Some x => sess s =? x + (per - 1) | None => false end ||
    match force s with ForceNew | ForceAlways => true | _ => false end.

  (** [handle_authorities_change], ethy 821-909, without the part for the XRPL.  The message is an array of addresses and a
      number, ABI encoded: three words and one for each key; [send_event] refuses more than [MaxEthData] bytes (ethy 53-54). *)
  Definition fits (ks : keys) : bool := 96 + 32 * N.of_nat (length ks) <=? mxd.
  Definition change (s : rot) : rot :=
    let ok := fits (nexts s) in
    Rot (now s) (since s) (sess s) (act s) (cur s) (starts s) (force s) (queued s) (notary s) (nexts s) (setid s) None
        (if ok then true else changed s) true (agenda s)
        (if ok then EvAnnounce (now s) (nexts s) (next_id s) :: rlog s else rlog s).
  (** [do_finalise_authorities_change], ethy 912-941. *)
  Definition install (s : rot) (ks : keys) : rot :=
    Rot (now s) (since s) (sess s) (act s) (cur s) (starts s) (force s) (queued s) ks (nexts s) (next_id s) (change_at s)
        false false (agenda s) (EvInstall ks (next_id s) :: rlog s).
  (** [on_before_session_ending], ethy 1041-1073; the scheduler takes the call and makes it on time. *)
  Definition before_ending (s : rot) : rot :=
    if final s then
      if changed s then install s (nexts s)
      else let s1 := change s in
           Rot (now s1) (since s1) (sess s1) (act s1) (cur s1) (starts s1) (force s1) (queued s1) (notary s1) (nexts s1) (setid s1)
               (change_at s1) (changed s1) (stopped s1) (agenda s1 ++ [(now s1 + delay, nexts s)]) (rlog s1)
    else s.

  (** [pallet_staking::start_session]: the next era begins with its first session. *)
  Definition start_era (s : rot) : rot :=
    match starts s !! (act s + 1) with
    | Some x => if x <=? sess s then Rot (now s) (since s) (sess s) (act s + 1) (cur s) (starts s) (force s) (queued s) (notary s) (nexts s)
                                         (setid s) (change_at s) (changed s) (stopped s) (agenda s) (rlog s)
                else s
    | None => s
    end.
  (** [pallet_staking::new_session]: plan an era for session [i] if it is time or forced and the election has a result
      ([elect]); otherwise the same validators go on, with the keys they have set by now ([rekey]). *)
  Definition era_due (s : rot) (i : N) : bool :=
    match force s with
    | ForceNew | ForceAlways => true
    | NotForcing => per <=? i - default 0 (starts s !! cur s)
    | ForceNone => false
    end.
  Definition plan (s : rot) (i : N) (elect : option keys) (rekey : keys) : rot :=
    match era_due s i, elect with
    | true, Some ks => Rot (now s) (since s) (sess s) (act s) (cur s + 1) (<[cur s + 1 := i]> (starts s))
                           (match force s with ForceNew => NotForcing | f => f end) ks (notary s) (nexts s) (setid s) (change_at s) (changed s)
                           (stopped s) (agenda s) (rlog s)
    | _, _ => Rot (now s) (since s) (sess s) (act s) (cur s) (starts s) (force s) rekey (notary s) (nexts s) (setid s) (change_at s) (changed s)
                  (stopped s) (agenda s) (rlog s)
    end.
  (** [on_new_session], ethy 1011-1035. *)
  Definition on_new (s : rot) : rot :=
    Rot (now s) (since s) (sess s) (act s) (cur s) (starts s) (force s) (queued s) (notary s) (queued s) (setid s)
        (if final s then Some (now s + (epoch - delay)) else change_at s) (changed s) (stopped s) (agenda s) (rlog s).
  (** [pallet_session::rotate_session]: the queued keys take over. *)
  Definition begin_session (s : rot) : rot :=
    Rot (now s) (now s) (sess s + 1) (act s) (cur s) (starts s) (force s) (queued s) (notary s) (nexts s) (setid s) (change_at s) (changed s)
        (stopped s) (agenda s) (rlog s).
  Definition note_session (s : rot) (ks : keys) : rot :=
    Rot (now s) (since s) (sess s) (act s) (cur s) (starts s) (force s) (queued s) (notary s) (nexts s) (setid s) (change_at s) (changed s)
        (stopped s) (agenda s) (EvSession (sess s) (act s) ks :: rlog s).
  Definition rotate (s : rot) (elect : option keys) (rekey : keys) : rot :=
    let s1 := before_ending s in
    let s2 := start_era (begin_session s1) in
    let s3 := note_session s2 (queued s2) in
    on_new (plan s3 (sess s3 + 1) elect rekey).

  (** The scheduler's part of a block: the calls due, lib 943-950. *)
  Definition run_agenda (s : rot) : rot :=
    let due := List.filter (fun e => fst e =? now s) (agenda s) in
    let s1 := Rot (now s) (since s) (sess s) (act s) (cur s) (starts s) (force s) (queued s) (notary s) (nexts s) (setid s) (change_at s) (changed s)
                  (stopped s) (List.filter (fun e => negb (fst e =? now s)) (agenda s)) (rlog s) in
    fold_left (fun t e => install t (snd e)) due s1.
  (** [on_initialize], lib 524-535. *)
  Definition check_change (s : rot) : rot :=
    match change_at s with Some b => if b =? now s then change s else s | None => s end.
  Definition next_block (s : rot) : rot :=
    Rot (now s + 1) (since s) (sess s) (act s) (cur s) (starts s) (force s) (queued s) (notary s) (nexts s) (setid s) (change_at s) (changed s)
        (stopped s) (agenda s) (rlog s).
  (** A block, in which the session may end ([pallet_babe::should_end_session]), and a change of the forcing mode: by root
      ([force_new_era], [force_new_era_always], [force_no_eras]) or, to [ForceNew], when too many validators offend. *)
  Inductive rop := RBlock (ends : option (option keys * keys)) | RForce (f : forcing).
  Definition rstep (s : rot) (o : rop) : rot :=
    match o with
    | RBlock ends =>
        let s1 := run_agenda (next_block s) in
        let s2 := match ends with Some (elect, rekey) => rotate s1 elect rekey | None => s1 end in
        check_change s2
    | RForce f => Rot (now s) (since s) (sess s) (act s) (cur s) (starts s) f (queued s) (notary s) (nexts s) (setid s) (change_at s) (changed s)
                      (stopped s) (agenda s) (rlog s)
    end.
End rot.
(** Genesis: session and era 0, with the genesis keys ([on_genesis_session], ethy 992-1009). *)
Definition rot0 (g : keys) : rot := Rot 0 0 0 0 0 {[0 := 0]} NotForcing g g [] 0 None false false [] [EvSession 0 0 g].
