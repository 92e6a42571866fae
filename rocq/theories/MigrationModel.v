(** Multi-block migrations: [/repo/pallet/migration/src/lib.rs] and the interface of a migration,
    [/repo/primitives/src/migration.rs]. *)
From Verif Require Export Base.

(** ** Weights: reference time and proof size, both u64 *)
Definition weight : Type := N * N.
(** [Weight::saturating_add], [min] and [all_lt] (both components less). *)
Definition wadd (a b : weight) : weight := (sat U64MAX (fst a + fst b), sat U64MAX (snd a + snd b)).
Definition wmin (a b : weight) : weight := (N.min (fst a) (fst b), N.min (snd a) (snd b)).
Definition wlt (a b : weight) : bool := (fst a <? fst b) && (snd a <? snd b).

(** [LastKey] is a [Vec<u8>]. *)
Definition key : Type := list N.
(** [MigrationStatus], lib.rs:40-48. *)
Inductive mstatus := MNone | MProgress (done : N) | MCompleted.

Section migration.
  (** The storage that migrations work on, and everything else of the chain. *)
  Variable D : Type.
  (** [MigrationStep], migration.rs:37-66.  A step answers its weight and the key to go on from, none if it has finished
      ([continue_step], [finish_step], 12-34: the only ways to make an answer). *)
  Record migration := Migration {
    mg_step : D -> option key -> D * (weight * option key); mg_max : weight; mg_ok : D -> bool; mg_done : D -> D }.
  (** [NoopMigration], migration.rs:61-81. *)
  Definition noop : migration := Migration (fun d _ => (d, ((0, 0), None))) (0, 0) (fun _ => true) (fun d => d).

  (** The pallet's storage, lib.rs:84-110; [m_cur]: the migration of the current runtime; [m_starts], [m_ends]: the events
      [MigrationStarted] and [MigrationComplete]. *)
  Record mst := MSt {
    m_data : D; m_on : bool; m_status : mstatus; m_key : option key; m_delay : option N; m_limit : N;
    m_cur : migration; m_starts : N; m_ends : list N }.
  Definition with_data (s : mst) (d : D) : mst :=
    MSt d (m_on s) (m_status s) (m_key s) (m_delay s) (m_limit s) (m_cur s) (m_starts s) (m_ends s).
  Definition minit (d : D) : mst := MSt d false MNone None None 100 noop 0 [].

  (** [MaxMigrationWeight]; the weight of [migrate] itself; the weight of a number of reads. *)
  Variables max_weight base : weight.
  Variable reads : N -> weight.

  Definition in_progress (s : mst) : bool := match m_status s with MProgress _ => true | _ => false end.
  (** [Migrator::ensure_migrated], lib.rs:311-317. *)
  Definition ensure_migrated (s : mst) : result unit := ensure (negb (in_progress s)) 1.

  (** The loop of [migrate], lib.rs:256-272: at most [fuel] more steps ([BlockLimit], so that the counter does not
      overflow).  The answer: the data, the weight used, the number of steps, and the last key unless it has finished. *)
  Fixpoint mloop (m : migration) (limit : weight) (fuel : nat) (d : D) (k : option key) (used : weight) (n : N)
      : D * weight * N * option (option key) :=
    match fuel with
    | O => (d, used, n, Some k)
    | S fuel' =>
        if wlt used limit then
          let r := mg_step m d k in
          let used' := wadd used (fst (snd r)) in
          match snd (snd r) with
          | None => (fst r, used', n + 1, None)
          | Some k' => mloop m limit fuel' (fst r) (Some k') used' (n + 1)
          end
        else (d, used, n, Some k)
    end.
  (** [migrate], lib.rs:218-291, with [complete_migration], 294-301. *)
  Definition migrate (s : mst) (block : N) (remaining : weight) : mst * weight :=
    let limit := wmin remaining max_weight in
    if wlt limit (wadd base (mg_max (m_cur s))) then (s, (0, 0))
    else match m_status s with
    | MProgress prev =>
        if negb (m_on s) then (s, reads 2)
        else if match m_delay s with Some d => negb (block mod d =? 0) | None => false end then (s, reads 3)
        else
          let '(d, used, n, k) := mloop (m_cur s) limit (N.to_nat (m_limit s)) (m_data s) (m_key s) base 0 in
          let total := sat U32MAX (prev + n) in
          match k with
          | None => (MSt (mg_done (m_cur s) d) (m_on s) MCompleted None (m_delay s) (m_limit s) (m_cur s) (m_starts s) (m_ends s ++ [total]), used)
          | Some k => (MSt d (m_on s) (MProgress total) k (m_delay s) (m_limit s) (m_cur s) (m_starts s) (m_ends s), used)
          end
    | _ => (s, reads 1)
    end.
  (** [on_runtime_upgrade], lib.rs:143-170, of a runtime with the migration [m]. *)
  Definition upgrade (s : mst) (m : migration) : mst :=
    if mg_ok m (m_data s) then MSt (m_data s) (m_on s) MNone (m_key s) (m_delay s) (m_limit s) m (m_starts s) (m_ends s)
    else if in_progress s then MSt (m_data s) (m_on s) (m_status s) (m_key s) (m_delay s) (m_limit s) m (m_starts s) (m_ends s)
    else MSt (m_data s) (m_on s) (MProgress 0) (m_key s) (m_delay s) (m_limit s) m (m_starts s + 1) (m_ends s).
  (** [enable_migration], [set_block_delay], [set_block_limit], lib.rs:176-213; [root]: the origin is root. *)
  Definition enable (s : mst) (root on : bool) : result mst :=
    ensure! root else 2; Ok (MSt (m_data s) on (m_status s) (m_key s) (m_delay s) (m_limit s) (m_cur s) (m_starts s) (m_ends s)).
  Definition set_delay (s : mst) (root : bool) (d : option N) : result mst :=
    ensure! root else 2;
    ensure! match d with Some d => 1 <? d | None => true end else 3;
    Ok (MSt (m_data s) (m_on s) (m_status s) (m_key s) d (m_limit s) (m_cur s) (m_starts s) (m_ends s)).
  Definition set_limit (s : mst) (root : bool) (l : N) : result mst :=
    ensure! root else 2;
    ensure! 0 <? l else 4;
    Ok (MSt (m_data s) (m_on s) (m_status s) (m_key s) (m_delay s) l (m_cur s) (m_starts s) (m_ends s)).

  (** What happens: [on_idle] at the end of a block, the three calls, a runtime upgrade, or anything else, which may
      change the data. *)
  Inductive mop :=
  | MIdle (block : N) (remaining : weight) | MEnable (root on : bool) | MDelay (root : bool) (d : option N)
  | MLimit (root : bool) (l : N) | MUpgrade (m : migration) | MElse (f : D -> D).
  Definition mstep (s : mst) (o : mop) : mst :=
    match o with
    | MIdle block remaining => fst (migrate s block remaining)
    | MEnable root on => commit s (enable s root on)
    | MDelay root d => commit s (set_delay s root d)
    | MLimit root l => commit s (set_limit s root l)
    | MUpgrade m => upgrade s m
    | MElse f => with_data s (f (m_data s))
    end.
End migration.
