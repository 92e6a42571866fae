(** Gas for work that precompiles have done outside the EVM: dispatched calls, /repo/evm-precompiles/utils/src/substrate.rs:59-93
    ("sub"), work whose weight is recorded beforehand ("Manually record gas", e.g. nft/src/lib.rs:175-178,
    dex/src/lib.rs:194, marketplace/src/lib.rs:256-259), and contracts that a futurepass creates,
    futurepass/src/lib.rs:434-545 ("fut").  Work is measured in weight (reference time).  The EVM around it (calls with a share
    of the gas, loss of it on an error, return on a revert) follows its published code, which is not in the repository. *)
From Verif Require Export Base.

(** [weight_per_gas] (pallet-evm) of the limits in runtime/src/lib.rs:196-198, 1110-1119: three quarters of 1000 ms of weight
    over the gas of a block. *)
Definition WEIGHT_PER_GAS : N := 1000000000 * 1000 * 75 / 100 / 15000000.

(** How a dispatch ends: done, with an actual weight or none given, or failed after some work. *)
Inductive outcome := Done (actual : option N) | Failed (work : N).
(** What happens in a frame of the EVM: own instructions; a call of a contract; a call of a precompile that dispatches, of one
    that records the weight first, and of a futurepass that creates a contract.  [g] is the gas the caller passes, [ov] what the
    call instruction costs, [pre] what the precompile records before (reads and logs). *)
Inductive act :=
| Compute (c : N)
| Call (g ov : N) (body : list act)
| Dispatch (g ov pre declared : N) (r : outcome)
| Recorded (g ov pre declared : N) (r : outcome)
| Create (g ov pre : N) (body : list act).

(** The end of a frame: with gas left, reverted with gas left, or with an error, which takes all its gas. *)
Inductive fin := Left (rem : N) | Reverted (rem : N) | Failing.

Section Gas.
  Context (wpg : N).
  (** [FixedGasWeightMapping::weight_to_gas]: rounded down. *)
  Definition weight_to_gas (w : N) : N := w / wpg.
  (** Work that an outcome stands for. *)
  Definition work_of (declared : N) (r : outcome) : N :=
    match r with Done (Some a) => a | Done None => declared | Failed w => w end.
  (** [try_dispatch], sub 59-93, then the success of the precompile or [revert] from the error, sub 35-44. *)
  Definition try_dispatch (rem declared : N) (r : outcome) : N * fin :=
    if rem <? weight_to_gas declared then (0, Failing)
    else match r with
         | Failed w => (w, Reverted rem)
         | Done _ => let used := weight_to_gas (work_of declared r) in
                     (work_of declared r, if used <=? rem then Left (rem - used) else Failing)
         end.
  (** [record_cost] of the weight, then the function of the pallet. *)
  Definition recorded (rem declared : N) (r : outcome) : N * fin :=
    if rem <? weight_to_gas declared then (0, Failing)
    else (match r with Failed w => w | Done _ => declared end,
          match r with Failed _ => Reverted (rem - weight_to_gas declared) | Done _ => Left (rem - weight_to_gas declared) end).
  (** Recorded beforehand ([record_cost], [record_log_costs_manual]). *)
  Definition after (pre rem : N) (k : N -> N * fin) : N * fin := if rem <? pre then (0, Failing) else k (rem - pre).
  (** A call with [g] of the gas, at most all but a 64th: what is left of it comes back, unless there was an error. *)
  Definition sub_frame (g ov rem : N) (k : N -> N * fin) : N * fin :=
    after ov rem (fun rem =>
      let given := N.min g (rem - rem / 64) in
      let (w, e) := k given in
      (w, Left (rem - given + match e with Left r | Reverted r => r | Failing => 0 end))).
  (** [do_proxy] for the call types Create and Create2, fut 434-545: another EVM with the gas that remains.  Its
      [used_gas] is not looked at.  An error or revert in it becomes one of the precompile, fut 552-560. *)
  Definition create (rem : N) (run : N -> N * fin) : N * fin :=
    let (w, e) := run rem in (w, match e with Left _ => Left rem | Reverted _ => Reverted rem | Failing => Failing end).

  (** A frame: weight done in it and below, and its end.  Own instructions do the weight their gas stands for; an error in a
      call leaves the caller going. *)
  Fixpoint exec (a : act) (rem : N) : N * fin :=
    let frame := fix frame (l : list act) (rem : N) : N * fin :=
      match l with
      | [] => (0, Left rem)
      | a :: l' => let (w, e) := exec a rem in
                   match e with Left r => let (w', e') := frame l' r in (w + w', e') | e => (w, e) end
      end in
    match a with
    | Compute c => if rem <? c then (rem * wpg, Failing) else (c * wpg, Left (rem - c))
    | Call g ov body => sub_frame g ov rem (frame body)
    | Dispatch g ov pre declared r => sub_frame g ov rem (fun rem => after pre rem (fun rem => try_dispatch rem declared r))
    | Recorded g ov pre declared r => sub_frame g ov rem (fun rem => after pre rem (fun rem => recorded rem declared r))
    | Create g ov pre body => sub_frame g ov rem (fun rem => after pre rem (fun rem => create rem (frame body)))
    end.
  Fixpoint frame (l : list act) (rem : N) : N * fin :=
    match l with
    | [] => (0, Left rem)
    | a :: l' => let (w, e) := exec a rem in
                 match e with Left r => let (w', e') := frame l' r in (w + w', e') | e => (w, e) end
    end.
  (** A transaction: what was done and the gas it is charged for. *)
  Definition transaction (limit : N) (l : list act) : N * N :=
    let (w, e) := frame l limit in (w, limit - match e with Left r | Reverted r => r | Failing => 0 end).
End Gas.

(** [log_costs], costs.rs:22-43, in 64 bits. *)
Definition log_costs (topics data : N) : option N :=
  match chk_mul U64MAX 375 topics with
  | None => None
  | Some t => match chk_mul U64MAX 8 data with
              | None => None
              | Some d => match chk_add U64MAX 375 t with None => None | Some x => chk_add U64MAX x d end
              end
  end.
