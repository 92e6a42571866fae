(** Doughnuts: permissions signed by an issuer and used by a holder.
    Code: /repo/pallet/doughnut/src/lib.rs 75-609 and /repo/runtime/src/impls.rs 929-1107
    ([DoughnutCallValidator], [DoughnutFuturepassLookup]).
    The crates [doughnut_rs] (codec, validity period, signatures) and [trn_pact] (permission
    contracts) are external: they appear as section variables. *)
From Verif Require Export Ledger.

(** Permission arguments, [trn_pact::PactType] (runtime/src/impls.rs 978-979). *)
Inductive ptype := PStr (b : list N) | PNum (n : N).

(** The runtime calls the validator distinguishes (impls.rs 936-1056); [COther] is any other. *)
Inductive call :=
| CTransfer (dest value : N)                      (* Balances::transfer *)
| CKeepAlive (dest value : N)                     (* Balances::transfer_keep_alive *)
| CCreate (account : N)                           (* Futurepass::create *)
| CRemark (b : list N)                            (* System::remark *)
| CAsset (asset dest amount : N) (keep : bool)    (* AssetsExt::transfer *)
| CProxy (fp : N) (c : call)                      (* Futurepass::proxy_extrinsic *)
| CFee (asset mx : N) (c : call)                  (* FeeProxy::call_with_fee_preferences *)
| COther (k : N).

(** [CallMetadata] of the calls that can be permitted (impls.rs 962): pallet and function name,
    written as a number. *)
Definition cname (c : call) : N :=
  match c with
  | CTransfer _ _ => 1 | CKeepAlive _ _ => 2 | CCreate _ => 3 | CRemark _ => 4
  | CAsset _ _ _ _ => 5 | CProxy _ _ => 6 | CFee _ _ _ => 7 | COther k => 8 + k
  end.

(** A decoded V1 doughnut: the keys of issuer and holder, [fee_payer()], the bytes of the TRN
    permission domain (if any), and the rest (validity period, signature) as one number. *)
Record doughnut := Dough { d_issuer : N; d_holder : N; d_fee : N; d_top : option (list N); d_rest : N }.

(** Arguments of [transact] (lib.rs 449-457). *)
Record tx := Tx { t_call : call; t_payload : list N; t_nonce : N; t_gen : N; t_tip : N; t_sig : N }.

(** Storage (lib.rs 363-382), the frame-system parts it uses, the ledger, and the trace of
    [DoughnutCallExecuted] events: issuer, holder, transaction. *)
Record dstate := DState {
  d_white : gmap N bool;          (* WhitelistedHolders *)
  d_bdough : gmap N bool;         (* BlockedDoughnuts, by keccak digest *)
  d_bhold : gmap (N * N) bool;    (* BlockedHolders, by issuer and holder *)
  d_nonce : gmap N N;             (* frame_system account nonces *)
  d_now : N;                      (* block number *)
  d_led : ledger N;
  d_log : list (N * N * tx)
}.
Definition with_led (s : dstate) (l : ledger N) : dstate :=
  DState (d_white s) (d_bdough s) (d_bhold s) (d_nonce s) (d_now s) l (d_log s).
Definition with_nonce (s : dstate) (m : gmap N N) : dstate :=
  DState (d_white s) (d_bdough s) (d_bhold s) m (d_now s) (d_led s) (d_log s).

Definition bget `{Countable K} (m : gmap K bool) (k : K) : bool := default false (m !! k).

(** Native asset id of [pallet_balances] (ROOT) and the fee asset (XRP), runtime/src/lib.rs. *)
Definition ROOT : N := 1.
Definition XRP : N := 2.

(** The call the validator looks at, impls.rs 936-956. *)
Definition actual_call (c : call) : call :=
  match c with
  | CProxy _ i => i
  | CFee _ _ i => match i with CProxy _ j => j | _ => i end
  | _ => c
  end.

Section doughnut.
  (** [Doughnut::decode] of a payload, [Some] for V1 (lib.rs 592-608). *)
  Variable decode : list N -> option doughnut.
  (** [keccak_256]. *)
  Variable hash : list N -> N.
  (** [get_address], lib.rs 583-590. *)
  Variable addr : N -> option N.
  (** [DoughnutV1::validate] of the period, [DoughnutV1::verify], and the signature of the holder
      over the outer call without its signature (lib.rs 103-139). *)
  Variable in_period : doughnut -> N -> bool.
  Variable verify : doughnut -> bool.
  Variable signed : N -> tx -> bool.
  (** [Topping::decode], as the permission it stands for: [Topping::validate_module]. *)
  Variable permission : list N -> option (N -> list ptype -> bool).
  (** [call_paused] of maintenance mode (MaintModel.v). *)
  Variable paused : call -> bool.
  (** The 20 bytes of an address. *)
  Variable abytes : N -> list N.
  (** Who may act for a futurepass, and the futurepass an account owns (FpassModel.v). *)
  Variable may : N -> N -> bool.
  Variable fpass_of : N -> option N.
  (** What other calls do. *)
  Variable other : N -> N -> ledger N -> result (ledger N).
  (** Hash of block 0. *)
  Variable genesis : N.

  (** [as u64], impls.rs 979, 998, 1048: drops the high bits. *)
  Definition as_u64 (v : N) : N := v mod 2 ^ 64.
  Definition num_of_bool (b : bool) : N := if b then 1 else 0.

  (** [DoughnutCallValidator::check_extrinsic], impls.rs 934-1058.  [Lookup] is the identity
      (runtime/src/lib.rs 299).  Error 1: paused; 2: ToppingPermissionDenied. *)
  Definition check_call (perm : N -> list ptype -> bool) (c : call) : result unit :=
    let a := actual_call c in
    ensure! negb (paused a) else 1;
    match a with
    | CTransfer dest v | CKeepAlive dest v =>
        ensure (perm (cname a) [PStr (abytes dest); PNum (as_u64 v)]) 2
    | CCreate acc => ensure (perm (cname a) [PStr (abytes acc)]) 2
    | CRemark b => ensure (perm (cname a) [PStr b]) 2
    | CAsset asset dest v k =>
        ensure (perm (cname a) [PNum asset; PStr (abytes dest); PNum (as_u64 v); PNum (num_of_bool k)]) 2
    | _ => Err 2
    end.

  (** Dispatch of a call with a signed origin: the transfers on the ledger; [Futurepass::create]
      and [remark] do not touch it; [proxy_extrinsic] (futurepass/src/lib.rs 483-512) runs the
      inner call as the futurepass and keeps going when it fails (pallet_proxy);
      [call_with_fee_preferences] (fee-proxy/src/lib.rs 113-132) passes the origin on. *)
  Fixpoint exec (l : ledger N) (who : N) (c : call) : result (ledger N) :=
    match c with
    | CTransfer dest v | CKeepAlive dest v => transfer l ROOT who dest v
    | CCreate _ | CRemark _ => Ok l
    | CAsset asset dest v _ => transfer l asset who dest v
    | CProxy fp i => ensure! may who fp else 3; Ok (commit l (exec l fp i))
    | CFee asset _ i =>
        ensure! negb (asset =? XRP) else 4;
        ensure! (match i with CFee _ _ _ => false | _ => true end) else 5;
        exec l who i
    | COther k => other k who l
    end.

  (** [transact], lib.rs 449-510, with [None] origin.  A failing inner call is only reported in
      the event. *)
  Definition transact (s : dstate) (t : tx) : result dstate :=
    do! d <- of_opt (decode (t_payload t)) 6;
    ensure! verify d else 7;
    do! issuer <- of_opt (addr (d_issuer d)) 8;
    do! holder <- of_opt (addr (d_holder d)) 8;
    ensure! bget (d_white s) holder else 9;
    ensure! negb (bget (d_bdough s) (hash (t_payload t))) else 10;
    ensure! negb (bget (d_bhold s) (issuer, holder)) else 11;
    do! tp <- of_opt (d_top d) 12;
    do! perm <- of_opt (permission tp) 13;
    do! _ <- check_call perm (t_call t);
    Ok (DState (d_white s) (d_bdough s) (d_bhold s) (d_nonce s) (d_now s)
          (commit (d_led s) (exec (d_led s) issuer (t_call t)))
          (d_log s ++ [(issuer, holder, t)])).

  (** [check_self_contained], lib.rs 93-149. *)
  Definition check_tx (s : dstate) (t : tx) : result N :=
    do! d <- of_opt (decode (t_payload t)) 20;
    ensure! in_period d (d_now s) else 20;
    ensure! verify d else 20;
    do! holder <- of_opt (addr (d_holder d)) 21;
    ensure! signed (d_holder d) t else 20;
    Ok holder.

  (** [DoughnutFuturepassLookup::check_extrinsic], impls.rs 1088-1106. *)
  Definition proxies (c : call) : bool :=
    match c with CProxy _ _ | CFee _ _ (CProxy _ _) => true | _ => false end.

  (** [validate_params], lib.rs 285-319: the account that pays the fee. *)
  Definition fee_payer (t : tx) : result N :=
    ensure! t_gen t =? genesis else 22;
    do! d <- of_opt (decode (t_payload t)) 23;
    do! p <- of_opt (addr (d_fee d)) 24;
    if proxies (t_call t) then of_opt (fpass_of p) 25 else Ok p.

  (** [apply_self_contained], lib.rs 224-283, after [check_self_contained]; [CheckNonZeroSender]
      and [CheckNonce] (the nonce is a u32 and its increment wraps); the fee is burned from the
      payer, its amount left open (the refund after the call is part of it).  An error of
      [transact] keeps nonce and fee. *)
  Definition apply_tx (s : dstate) (t : tx) (fee : N) : result dstate :=
    do! holder <- check_tx s t;
    do! payer <- fee_payer t;
    ensure! negb (holder =? 0) else 26;
    ensure! t_nonce t =? getN (d_nonce s) holder else 27;
    do! l <- burn (d_led s) XRP payer fee;
    let s1 := with_led (with_nonce s (<[holder := (t_nonce t + 1) mod 2 ^ 32]> (d_nonce s))) l in
    Ok (commit s1 (transact s1 t)).

  (** [revoke_doughnut], lib.rs 515-539. *)
  Definition revoke_doughnut (s : dstate) (who : N) (payload : list N) (b : bool) : result dstate :=
    do! d <- of_opt (decode payload) 30;
    do! issuer <- of_opt (addr (d_issuer d)) 8;
    ensure! who =? issuer else 31;
    Ok (DState (d_white s)
          (if b then <[hash payload := true]> (d_bdough s) else delete (hash payload) (d_bdough s))
          (d_bhold s) (d_nonce s) (d_now s) (d_led s) (d_log s)).
  (** [revoke_holder], lib.rs 544-560. *)
  Definition revoke_holder (s : dstate) (who holder : N) (b : bool) : dstate :=
    DState (d_white s) (d_bdough s)
      (if b then <[(who, holder) := true]> (d_bhold s) else delete (who, holder) (d_bhold s))
      (d_nonce s) (d_now s) (d_led s) (d_log s).
  (** [update_whitelisted_holders], lib.rs 566-575. *)
  Definition whitelist (s : dstate) (holder : N) (b : bool) : dstate :=
    DState (<[holder := b]> (d_white s)) (d_bdough s) (d_bhold s) (d_nonce s) (d_now s) (d_led s) (d_log s).

  (** Everything that can happen: doughnut transactions, the calls above, and from the rest of
      the chain: a new block, an account's other transactions using up a nonce, arbitrary changes of
      the ledger, and the removal of an account that holds neither ROOT nor XRP, with its nonce
      (frame_system, [dec_providers] and [dec_sufficients]; event [KilledAccount]). *)
  Inductive dop :=
  | OTx (t : tx) (fee : N)
  | ORevoke (who : N) (payload : list N) (b : bool)
  | ORevokeHolder (who holder : N) (b : bool)
  | OWhite (holder : N) (b : bool)
  | OBlock
  | ONonce (who : N)
  | OLedger (l : ledger N)
  | OReap (who : N).

  Definition dstep (s : dstate) (o : dop) : dstate :=
    match o with
    | OTx t fee => commit s (apply_tx s t fee)
    | ORevoke who p b => commit s (revoke_doughnut s who p b)
    | ORevokeHolder who h b => revoke_holder s who h b
    | OWhite h b => whitelist s h b
    | OBlock => DState (d_white s) (d_bdough s) (d_bhold s) (d_nonce s) (d_now s + 1) (d_led s) (d_log s)
    | ONonce who => with_nonce s (<[who := (getN (d_nonce s) who + 1) mod 2 ^ 32]> (d_nonce s))
    | OLedger l => with_led s l
    | OReap who => if (balance (d_led s) ROOT who =? 0) && (balance (d_led s) XRP who =? 0)
                   then with_nonce s (delete who (d_nonce s)) else s
    end.
  Definition dinit : dstate := DState ∅ ∅ ∅ ∅ 0 empty_ledger [].
End doughnut.
