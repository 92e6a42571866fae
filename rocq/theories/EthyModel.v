(** Model of the Ethereum bridge pallet, incoming side: event claims, replay protection, challenges
    and notarisations, [/repo/pallet/ethy/src/lib.rs] ("lib") and [/repo/pallet/ethy/src/impls.rs]
    ("impls").  Accounts, notary keys, event ids and claim payloads are numbers. *)
From Verif Require Export Base.

(** [sp_arithmetic::Percent::from_rational(p, q)]: rounds down, [q = 0] counts as 1, at most 100. *)
Definition pct (p q : N) : N := let q' := N.max q 1 in N.min p q' * 100 / q'.

(** Sorted id vectors ([ProcessedMessageIds] lib 349-350, [MissedMessageIds] lib 355).
    [binary_search] is membership because the vectors are sorted (proved: [ids_sorted] in
    EthyProofs); a failed search followed by [insert(idx, id)] is a sorted insertion. *)
Fixpoint ins_id (x : N) (l : list N) : list N :=
  match l with
  | [] => [x]
  | y :: l' => if x =? y then l else if x <? y then x :: l else y :: ins_id x l'
  end.
Definition del_id (x : N) (l : list N) : list N := List.filter (fun y => negb (y =? x)) l.
Definition memb (x : N) (l : list N) : bool := existsb (N.eqb x) l.

(** The range [a .. a + n] (upper end excluded). *)
Fixpoint rangeN (a : N) (n : nat) : list N :=
  match n with O => [] | S n' => a :: rangeN (a + 1) n' end.

(** The last loop of [prune_claim_ids], impls 127-143: drop ids from the front while the next id is
    contiguous, so that the largest contiguous id stays. *)
Fixpoint drop_contig (l : list N) : list N :=
  match l with
  | x :: l' => match l' with y :: _ => if y =? x + 1 then drop_contig l' else l | [] => l end
  | [] => []
  end.

(** [prune_claim_ids], impls 101-146; [mx] is [MaxProcessedMessageIds].  Returns the ids kept and
    the new missed ids. *)
Definition prune (mx : nat) (ids missed : list N) : list N * list N :=
  if Nat.leb (length ids) 1 then (ids, missed) else
  let k := (length ids - mx)%nat in
  let removed := firstn k ids in
  let rest := skipn k ids in
  let missed' := match removed, rest with
                 | r0 :: _, c0 :: _ =>
                     fold_left (fun m id => if memb id removed then m else ins_id id m)
                               (rangeN r0 (N.to_nat (c0 - r0))) missed
                 | _, _ => missed
                 end in
  (drop_contig rest, missed').

(** [EventClaimStatus], types.rs. *)
Inductive cstatus := Pending | Challenged | ProvenValid.
#[global] Instance cstatus_eq : EqDecision cstatus. Proof. solve_decision. Defined.

(** What an observer sees, newest first: submissions (with block and challenge period), challenges,
    votes, verdicts, processed ids (with the claim handed to [EventRouter::route], if any), ids struck
    off the missed list by governance. *)
Inductive elog :=
| LSub (id claim blk period : N)
| LChal (id who : N)
| LVote (id key : N) (valid : bool)
| LVerdict (id : N) (valid : bool)
| LDone (id : N) (claim : option N) (blk : N)
| LStruck (lo hi : N).

Record core := Core {
  blk : N;                       (* current block number *)
  pend : gmap N N;               (* [PendingEventClaims] *)
  stat : gmap N cstatus;         (* [PendingClaimStatus] *)
  vat : gmap N (list N);         (* [MessagesValidAt] *)
  procd : list N;                (* [ProcessedMessageIds] *)
  missed : list N;               (* [MissedMessageIds] *)
  clog : list elog }.
Definition noted (c : core) (e : elog) : core :=
  Core (blk c) (pend c) (stat c) (vat c) (procd c) (missed c) (e :: clog c).
Definition set_stat (c : core) (id : N) (x : cstatus) : core :=
  Core (blk c) (pend c) (<[id := x]> (stat c)) (vat c) (procd c) (missed c) (clog c).

(** [block_number + ChallengePeriod] on u32 block numbers (release builds wrap). *)
Definition later (b p : N) : N := (b + p) mod 2 ^ 32.
Definition at_block (c : core) (b : N) : list N := default [] (vat c !! b).

(** [do_submit_event], impls 186-207; [mxm] is [MaxMessagesPerBlock]. *)
Definition do_submit (mxm : nat) (c : core) (p id claim : N) : result core :=
  ensure! match pend c !! id with None => true | _ => false end else 1;
  let q := later (blk c) p in
  let v := at_block c q in
  ensure! Nat.ltb (length v) mxm else 2;
  Ok (Core (blk c) (<[id := claim]> (pend c)) (<[id := Pending]> (stat c)) (<[q := v ++ [id]]> (vat c))
           (procd c) (missed c) (LSub id claim (blk c) p :: clog c)).

(** [submit_event], lib 1007-1026 (after the relayer check); the decoding of the ABI payload
    (impls 149-182) is represented by its outcome, the pair (id, claim). *)
Definition fresh_id (c : core) (id : N) : bool :=
  match procd c with [] => true | h :: _ => (h <? id) && negb (memb id (procd c)) end.
Definition submit_core (mxm : nat) (c : core) (p id claim : N) : result core :=
  ensure! fresh_id c id else 3; do_submit mxm c p id claim.
(** [submit_missing_event], lib 980-1000. *)
Definition submit_missing_core (mxm : nat) (c : core) (p id claim : N) : result core :=
  ensure! memb id (missed c) else 3; do_submit mxm c p id claim.
(** [remove_missing_event_id], lib 957-970. *)
Definition strike (c : core) (lo hi : N) : core :=
  Core (blk c) (pend c) (stat c) (vat c) (procd c)
       (List.filter (fun id => (id <? lo) || (hi <? id)) (missed c)) (LStruck lo hi :: clog c).

(** One iteration of the message loop of [on_initialize], lib 546-612.  [procd] of the record plays
    the local copy [processed_message_ids]; the boolean is [message_processed]. *)
Definition process1 (p : N) (cf : core * bool) (id : N) : core * bool :=
  let '(c, flag) := cf in
  if bool_decide (stat c !! id = Some Challenged) then
    let q := later (blk c) p in
    (Core (blk c) (pend c) (stat c) (<[q := at_block c q ++ [id]]> (vat c)) (procd c) (missed c) (clog c), flag)
  else
    let h := match procd c with [] => 0 | x :: _ => x end in
    let e := LDone id (pend c !! id) (blk c) in
    if h <=? id
    then (Core (blk c) (delete id (pend c)) (delete id (stat c)) (vat c) (ins_id id (procd c)) (missed c) (e :: clog c), true)
    else (Core (blk c) (delete id (pend c)) (delete id (stat c)) (vat c) (procd c) (del_id id (missed c)) (e :: clog c), true).

(** The claim part of [on_initialize], lib 542-626, run at the start of block [blk + 1].  The first
    lines (authority change) are in EthyQueue.  [mx] is [MaxProcessedMessageIds]. *)
Definition tick_core (mx : nat) (c : core) (p : N) : result core :=
  ensure! blk c <? U32MAX else 9;
  let b := blk c + 1 in
  let c1 := Core b (pend c) (stat c) (delete b (vat c)) (procd c) (missed c) (clog c) in
  let '(c2, flag) := fold_left (process1 p) (at_block c b) (c1, false) in
  if flag && negb (Nat.eqb (length (procd c2)) 0) then
    let '(ids, ms) := prune mx (procd c2) (missed c2) in
    Ok (Core (blk c2) (pend c2) (stat c2) (vat c2) (firstn mx ids) ms (clog c2))
  else Ok c2.

(** ** Relayer, challengers and notaries *)
Record ev := Ev {
  co : core;
  period : N;                    (* [ChallengePeriod] *)
  relayer : option N;            (* [Relayer] *)
  rbond : gmap N N;              (* [RelayerPaidBond] *)
  chal : gmap N (N * N);         (* [ChallengerAccount] *)
  chals : list N;                (* [PendingClaimChallenges] *)
  free : gmap N N;               (* native balances of accounts *)
  held : gmap N N;               (* the bridge's hold on each account ([assets-ext] holds, see C11) *)
  votes : gmap (N * N) bool;     (* [EventNotarizations]: (claim, notary key) -> Valid? *)
  keys : list N;                 (* [NotaryKeys] *)
  nvals : N }.                   (* number of session validators, [AuthoritySet::validators().len()] *)

Section params.
  (** [MaxProcessedMessageIds], [MaxMessagesPerBlock], [MaxChallenges], [NotarizationThreshold],
      [RelayerBond], [ChallengeBond]. *)
  Variables (mx mxm mxc : nat) (thr rb cb : N).

  Definition with_core (s : ev) (c : core) : ev :=
    Ev c (period s) (relayer s) (rbond s) (chal s) (chals s) (free s) (held s) (votes s) (keys s) (nvals s).
  Definition with_money (s : ev) (f h : gmap N N) : ev :=
    Ev (co s) (period s) (relayer s) (rbond s) (chal s) (chals s) f h (votes s) (keys s) (nvals s).

  (** [place_hold], [release_hold], [spend_hold] of assets-ext (HoldsModel), reduced to one asset and
      one pallet: the held amount moves between the account's own balance and its hold.  Payments
      between accounts cannot overflow because the total supply fits in u128. *)
  Definition place (s : ev) (a amt : N) : result ev :=
    do! f <- of_opt (chk_sub (getN (free s) a) amt) 4;
    Ok (with_money s (<[a := f]> (free s)) (<[a := getN (held s) a + amt]> (held s))).
  Definition pay_from_hold (s : ev) (a to amt : N) : result ev :=
    do! h <- of_opt (chk_sub (getN (held s) a) amt) 5;
    Ok (with_money s (<[to := getN (free s) to + amt]> (free s)) (<[a := h]> (held s))).

  (** [set_relayer], lib 809-820 (root). *)
  Definition set_relayer (s : ev) (r : N) : result ev :=
    ensure! rb <=? getN (rbond s) r else 6;
    Ok (Ev (co s) (period s) (Some r) (rbond s) (chal s) (chals s) (free s) (held s) (votes s) (keys s) (nvals s)).
  (** [deposit_relayer_bond], lib 824-845. *)
  Definition deposit_bond (s : ev) (a : N) : result ev :=
    ensure! getN (rbond s) a =? 0 else 7;
    do! s1 <- place s a rb;
    Ok (Ev (co s) (period s) (relayer s) (<[a := rb]> (rbond s)) (chal s) (chals s) (free s1) (held s1) (votes s) (keys s) (nvals s)).
  (** [withdraw_relayer_bond], lib 849-875. *)
  Definition withdraw_bond (s : ev) (a : N) : result ev :=
    ensure! negb (bool_decide (relayer s = Some a)) else 8;
    let b := getN (rbond s) a in
    ensure! 0 <? b else 8;
    do! s1 <- pay_from_hold s a a b;
    Ok (Ev (co s) (period s) (relayer s) (delete a (rbond s)) (chal s) (chals s) (free s1) (held s1) (votes s) (keys s) (nvals s)).

  (** [submit_event] and [submit_missing_event] with the relayer check. *)
  Definition submit (s : ev) (who id claim : N) : result ev :=
    ensure! bool_decide (relayer s = Some who) else 10;
    do! c <- submit_core mxm (co s) (period s) id claim; Ok (with_core s c).
  Definition submit_missing (s : ev) (who id claim : N) : result ev :=
    ensure! bool_decide (relayer s = Some who) else 10;
    do! c <- submit_missing_core mxm (co s) (period s) id claim; Ok (with_core s c).

  (** [submit_challenge], lib 1034-1067. *)
  Definition challenge (s : ev) (who id : N) : result ev :=
    ensure! match pend (co s) !! id with Some _ => true | None => false end else 11;
    ensure! bool_decide (stat (co s) !! id = Some Pending) else 12;
    do! s1 <- place s who cb;
    ensure! Nat.ltb (length (chals s)) mxc else 13;
    Ok (Ev (noted (set_stat (co s) id Challenged) (LChal id who)) (period s) (relayer s) (rbond s)
           (<[id := (who, cb)]> (chal s)) (chals s ++ [id]) (free s1) (held s1) (votes s) (keys s) (nvals s)).

  (** Votes on a claim, impls 592-597. *)
  Definition votes_on (m : gmap (N * N) bool) (id : N) (v : bool) : list N :=
    map (fun e => snd (fst e))
        (List.filter (fun e => (fst (fst e) =? id) && Bool.eqb (snd e) v) (map_to_list m)).
  Definition count_votes (m : gmap (N * N) bool) (id : N) (v : bool) : N := N.of_nat (length (votes_on m id v)).

  (** [clear_prefix], impls 618-627: removes every vote on the claim.  When the backend holds more
      votes than [NotaryKeys] has entries it stops early and the call fails; that outcome is left to
      the environment ([cleared = false]). *)
  Definition cleared_votes (m : gmap (N * N) bool) (id : N) : gmap (N * N) bool :=
    filter (fun e => fst (fst e) <> id) m.
  (** Removes the first occurrence, impls 629-634. *)
  Fixpoint remove1 (x : N) (l : list N) : list N :=
    match l with [] => [] | y :: l' => if y =? x then l' else y :: remove1 x l' end.

  (** [handle_invalid_claim], impls 616-671. *)
  Definition handle_invalid (s : ev) (cleared : bool) (id : N) : result ev :=
    ensure! cleared else 14;
    let vs := cleared_votes (votes s) id in
    let cs := remove1 id (chals s) in
    let c := co s in
    match pend c !! id with
    | None => Err 15
    | Some _ =>
        let c1 := Core (blk c) (delete id (pend c)) (stat c) (vat c) (procd c) (missed c) (LVerdict id false :: clog c) in
        match chal s !! id with
        | Some (who, b) =>
            let c2 := Core (blk c1) (pend c1) (delete id (stat c1)) (vat c1) (procd c1) (missed c1) (clog c1) in
            do! s1 <- pay_from_hold s who who b;
            match relayer s with
            | Some r =>
                do! s2 <- pay_from_hold s1 r who (getN (rbond s) r);
                Ok (Ev c2 (period s) None (delete r (rbond s)) (delete id (chal s)) cs (free s2) (held s2) vs (keys s) (nvals s))
            | None =>
                Ok (Ev c2 (period s) None (rbond s) (delete id (chal s)) cs (free s1) (held s1) vs (keys s) (nvals s))
            end
        | None => Ok (Ev c1 (period s) (relayer s) (rbond s) (chal s) cs (free s) (held s) vs (keys s) (nvals s))
        end
    end.

  (** [handle_valid_claim], impls 675-722. *)
  Definition handle_valid (s : ev) (cleared : bool) (id : N) : result ev :=
    ensure! cleared else 14;
    let vs := cleared_votes (votes s) id in
    let cs := remove1 id (chals s) in
    match pend (co s) !! id with
    | None => Err 15
    | Some _ =>
        match relayer s with
        | Some r =>
            let c := noted (set_stat (co s) id ProvenValid) (LVerdict id true) in
            match chal s !! id with
            | Some (who, b) =>
                do! s1 <- pay_from_hold s who r b;
                Ok (Ev c (period s) (relayer s) (rbond s) (delete id (chal s)) cs (free s1) (held s1) vs (keys s) (nvals s))
            | None => Ok (Ev c (period s) (relayer s) (rbond s) (chal s) cs (free s) (held s) vs (keys s) (nvals s))
            end
        | None => Ok (Ev (co s) (period s) (relayer s) (rbond s) (chal s) cs (free s) (held s) vs (keys s) (nvals s))
        end
    end.

  (** [handle_event_notarization], impls 569-610. *)
  Definition handle_event_vote (s : ev) (cleared : bool) (id key : N) (valid : bool) : result ev :=
    ensure! bool_decide (stat (co s) !! id = Some Challenged) else 16;
    let vs := <[(id, key) := valid]> (votes s) in
    let s1 := Ev (noted (co s) (LVote id key valid)) (period s) (relayer s) (rbond s) (chal s) (chals s)
                 (free s) (held s) vs (keys s) (nvals s) in
    let nay := count_votes vs id false in
    let yay := count_votes vs id true in
    if 100 - thr <? pct nay (nvals s) then handle_invalid s1 cleared id
    else if thr <=? pct yay (nvals s) then handle_valid s1 cleared id
    else Ok s1.
  (** [submit_notarization] (event payload), lib 1074-1098, after [validate_unsigned], lib 717-779,
      which every unsigned transaction passes again when a block is executed: the index names a
      current notary and that key has not voted on the claim.  The signature check is taken for
      granted: only the notary itself can submit its vote. *)
  Definition notarize (s : ev) (cleared : bool) (idx : nat) (id : N) (valid : bool) : result ev :=
    do! key <- of_opt (nth_error (keys s) idx) 17;
    ensure! match votes s !! (id, key) with None => true | _ => false end else 18;
    handle_event_vote s cleared id key valid.

  Inductive eop :=
  | ETick
  | ESubmit (who id claim : N)
  | ESubmitMissing (who id claim : N)
  | EChallenge (who id : N)
  | ENotarize (cleared : bool) (idx : nat) (id : N) (valid : bool)
  | EStrike (lo hi : N)
  | ESetPeriod (p : N)
  | ESetRelayer (r : N)
  | EDeposit (a : N)
  | EWithdraw (a : N)
  | EKeys (ks : list N)          (* [NotaryKeys] replaced, impls 936 *)
  | EValidators (n : N)          (* the session's validator set changed *)
  | EFund (a amt : N).           (* any other change of an account's own balance *)

  Definition eexec (s : ev) (o : eop) : result ev :=
    match o with
    | ETick => do! c <- tick_core mx (co s) (period s); Ok (with_core s c)
    | ESubmit who id claim => submit s who id claim
    | ESubmitMissing who id claim => submit_missing s who id claim
    | EChallenge who id => challenge s who id
    | ENotarize cl idx id v => notarize s cl idx id v
    | EStrike lo hi => Ok (with_core s (strike (co s) lo hi))
    | ESetPeriod p => ensure! p <=? U32MAX else 19; Ok (Ev (co s) p (relayer s) (rbond s) (chal s) (chals s) (free s) (held s) (votes s) (keys s) (nvals s))
    | ESetRelayer r => set_relayer s r
    | EDeposit a => deposit_bond s a
    | EWithdraw a => withdraw_bond s a
    | EKeys ks => Ok (Ev (co s) (period s) (relayer s) (rbond s) (chal s) (chals s) (free s) (held s) (votes s) ks (nvals s))
    | EValidators n => Ok (Ev (co s) (period s) (relayer s) (rbond s) (chal s) (chals s) (free s) (held s) (votes s) (keys s) n)
    | EFund a amt => Ok (with_money s (<[a := amt]> (free s)) (held s))
    end.
  Definition estep (s : ev) (o : eop) : ev := commit s (eexec s o).
End params.

(** Genesis: nothing submitted; [DefaultChallengePeriod] is 150 blocks (lib 243-246). *)
Definition ecore0 : core := Core 0 ∅ ∅ ∅ [] [] [].
Definition einit (ks : list N) : ev := Ev ecore0 150 None ∅ ∅ [] ∅ ∅ ∅ ks (N.of_nat (length ks)).
