(** Transactions signed with an XRPL key: /repo/pallet/xrpl/src/lib.rs 60-325 and 396-490,
    /repo/pallet/xrpl/src/types.rs 15-274, the lookups of the runtime (/repo/runtime/src/impls.rs 488-562)
    and the parts of frame_system they use (account nonces, reaping).  Strings are lists of bytes.
    External and therefore section variables: the XRPL decoder, base58 addresses, signature checks, hashing,
    the derivation of accounts from keys. *)
From Verif Require Export FpassModel.

(** ** Strings *)
(** The [hex] crate: two digits of either case per byte. *)
Definition hexval (c : N) : option N :=
  if (48 <=? c) && (c <=? 57) then Some (c - 48)
  else if (65 <=? c) && (c <=? 70) then Some (c - 55)
  else if (97 <=? c) && (c <=? 102) then Some (c - 87) else None.
Fixpoint hex_decode (l : list N) : option (list N) :=
  match l with
  | [] => Some []
  | [_] => None
  | a :: b :: r =>
      match hexval a, hexval b, hex_decode r with
      | Some x, Some y, Some t => Some (16 * x + y :: t)
      | _, _, _ => None
      end
  end.
(** [to_ascii_lowercase] and [to_ascii_uppercase] of a byte. *)
Definition lower (c : N) : N := if (65 <=? c) && (c <=? 90) then c + 32 else c.
Definition upper (c : N) : N := if (97 <=? c) && (c <=? 122) then c - 32 else c.
(** [str::split(":")]; never empty. *)
Fixpoint split (l : list N) : list (list N) :=
  match l with
  | [] => [[]]
  | c :: r => if c =? 58 then [] :: split r
              else match split r with f :: fs => (c :: f) :: fs | [] => [[c]] end
  end.
(** [str::parse] for an unsigned type with maximum [mx]: an optional plus sign, then digits; checked. *)
Fixpoint digits (mx acc : N) (l : list N) : option N :=
  match l with
  | [] => Some acc
  | c :: r => if (48 <=? c) && (c <=? 57) then
                match chk_mul mx acc 10 with
                | Some a => match chk_add mx a (c - 48) with Some a' => digits mx a' r | None => None end
                | None => None
                end
              else None
  end.
Definition parse_uint (mx : N) (l : list N) : option N :=
  match l with
  | [] => None
  | c :: r => if c =? 43 then match r with [] => None | _ => digits mx 0 r end else digits mx 0 l
  end.

(** ** The XRPL transaction, types.rs 91-115 *)
Record memo := Memo { m_data : list N; m_type : list N }.
Record xtx := Xtx { x_account : list N; x_txnid : list N; x_memos : list memo; x_key : list N }.
(** [XrplPublicKey], types.rs 54-57. *)
Inductive xkey := KEd (b : list N) | KEc (b : list N).
#[global] Instance xkey_eq : EqDecision xkey. Proof. solve_decision. Defined.
(** [ExtrinsicMemoData], types.rs 23-29. *)
Record mdata := MData { g_hash : list N; g_nonce : N; g_max : N; g_tip : N; g_call : list N }.
(** What is signed, [TransactionCommon] of types.rs 245-274: every other field takes its default. *)
Record payload := Payload { p_txnid : list N; p_key : list N; p_account : list N; p_memos : list (list N * list N) }.

(** Error 99 stands for a panic. *)
(** [get_public_key], types.rs 117-140.  [signing_pub_key[0..2]] panics on the empty string. *)
Definition get_public_key (x : xtx) : result xkey :=
  do! b <- of_opt (hex_decode (x_key x)) 1;
  match x_key x with
  | c1 :: c2 :: _ =>
      let p := (upper c1, upper c2) in
      if bool_decide (p = (69, 68)) then
        ensure! Nat.eqb (length (tl b)) 32 else 2; Ok (KEd (tl b))
      else if bool_decide (p = (48, 50)) || bool_decide (p = (48, 51)) then
        ensure! Nat.eqb (length b) 33 else 2; Ok (KEc b)
      else Err 3
  | _ => Err panic
  end.

Definition EXTRINSIC : list N := [101; 120; 116; 114; 105; 110; 115; 105; 99].
Definition hash32 (l : list N) : option (list N) :=
  match hex_decode l with Some b => if Nat.eqb (length b) 32 then Some b else None | None => None end.
(** [get_extrinsic_data], types.rs 154-206. *)
Definition read_memo (utf8 : list N -> bool) (data : list N) : result mdata :=
  do! d <- of_opt (hex_decode data) 10;
  ensure! utf8 d else 11;
  match split d with
  | g :: n :: m :: t :: h :: _ =>
      do! g' <- of_opt (hash32 g) 12;
      do! n' <- of_opt (parse_uint U32MAX n) 13;
      do! m' <- of_opt (parse_uint U32MAX m) 13;
      do! t' <- of_opt (parse_uint U64MAX t) 13;
      do! h' <- of_opt (hash32 h) 14;
      Ok (MData g' n' m' t' h')
  | _ => Err 15
  end.
Fixpoint get_extrinsic_data (utf8 : list N -> bool) (l : list memo) : result mdata :=
  match l with
  | [] => Err 16
  | m :: r =>
      do! ty <- of_opt (hex_decode (m_type m)) 17;
      ensure! utf8 ty else 18;
      if bool_decide (map lower ty = EXTRINSIC) then read_memo utf8 (m_data m) else get_extrinsic_data utf8 r
  end.

(** [Blob::from_hex] of each memo, types.rs 249-260. *)
Fixpoint blobs (l : list memo) : option (list (list N * list N)) :=
  match l with
  | [] => Some []
  | m :: r => match hex_decode (m_data m), hex_decode (m_type m), blobs r with
              | Some d, Some t, Some bs => Some ((d, t) :: bs) | _, _, _ => None end
  end.
(** [TryInto<TransactionCommon>], types.rs 245-274; [radr] decodes a base58 address. *)
Definition signing (radr : list N -> option (list N)) (x : xtx) : option payload :=
  match blobs (x_memos x), hash32 (x_txnid x), hex_decode (x_key x), radr (x_account x) with
  | Some ms, Some t, Some k, Some a => Some (Payload t k a ms)
  | _, _, _, _ => None
  end.

(** ** Calls and state *)
(** The calls as far as they matter here: a payment in XRP, calls of the futurepass and proxy pallets,
    [call_with_fee_preferences], a nested [transact], anything else. *)
Inductive xcall :=
| XPay (dest amount : N)
| XFp (c : fcall)
| XFee (c : xcall)
| XTransact
| XOther (k : N).
(** [FuturepassLookup::check_extrinsic], impls.rs 520-541. *)
Definition proxies (c : xcall) : bool :=
  match c with XFp (CProxyExt _ _) | XFee (XFp (CProxyExt _ _)) => true | _ => false end.
(** [ProxyPalletProvider::owner], impls.rs 561-568; [unlookup] gives the zero address if there is none. *)
Definition owner_of (s : fps) (f : N) : N :=
  match List.find (fun d => bool_decide (snd d = TOwner)) (defs s f) with Some d => fst d | None => 0 end.

(** Event [XRPLExtrinsicExecuted] (lib.rs 388-394), with the nonce of the signed message. *)
Record xevent := XEvent { e_key : xkey; e_caller : N; e_raddr : list N; e_call : xcall; e_nonce : N }.
Record xstate := XState {
  x_fp : fps;               (* futurepasses and proxies *)
  x_nonce : gmap N N;       (* frame_system account nonces (u32) *)
  x_xrp : gmap N N;         (* XRP balances *)
  x_refs : gmap N N;        (* other references to an account: ROOT balance, other assets, ... *)
  x_now : N;                (* block number *)
  x_killed : list N;        (* events [KilledAccount] *)
  x_fees : list (N * N);    (* events [TransactionFeePaid]: payer, fee *)
  x_log : list xevent }.
Definition set_fp (s : xstate) (f : fps) : xstate := XState f (x_nonce s) (x_xrp s) (x_refs s) (x_now s) (x_killed s) (x_fees s) (x_log s).
Definition set_xrp (s : xstate) (m : gmap N N) : xstate := XState (x_fp s) (x_nonce s) m (x_refs s) (x_now s) (x_killed s) (x_fees s) (x_log s).
Definition set_nonce (s : xstate) (a n : N) : xstate := XState (x_fp s) (<[a := n]> (x_nonce s)) (x_xrp s) (x_refs s) (x_now s) (x_killed s) (x_fees s) (x_log s).

(** [dec_sufficients] and [dec_providers] of frame_system: with the last reference the account is removed,
    and its nonce with it. *)
Definition reap (s : xstate) (a : N) : xstate :=
  if (getN (x_xrp s) a =? 0) && (getN (x_refs s) a =? 0)
  then XState (x_fp s) (delete a (x_nonce s)) (x_xrp s) (x_refs s) (x_now s) (x_killed s ++ [a]) (x_fees s) (x_log s)
  else s.
(** XRP leaves or reaches an account (pallet_assets, minimum balance 1). *)
Definition debit (s : xstate) (a n : N) : result xstate :=
  ensure! n <=? getN (x_xrp s) a else 20;
  if n =? 0 then Ok s else Ok (reap (set_xrp s (<[a := getN (x_xrp s) a - n]> (x_xrp s))) a).
Definition credit (s : xstate) (a n : N) : xstate := set_xrp s (<[a := getN (x_xrp s) a + n]> (x_xrp s)).

Section xrpltx.
  Variable maxp : N.                               (* [MaxProxies] *)
  Variable dec : list N -> option xtx.             (* [XRPLTransaction::try_from], types.rs 232-244 *)
  Variable utf8 : list N -> bool.                  (* [String::from_utf8] succeeds *)
  Variable radr : list N -> option (list N).       (* [AccountId::from_address] *)
  Variable acct : xkey -> option N.                (* [XrplPublicKey -> AccountId20] *)
  Variable verify : xkey -> payload -> list N -> bool. (* ed25519, or ECDSA on half of SHA-512 *)
  Variable hash : xcall -> list N.                 (* blake2-256 of the encoded call *)
  Variable paused : xcall -> bool.                 (* [MaintenanceChecker::call_paused] *)
  Variable genesis : list N.                       (* hash of block 0 *)

  (** [get_account], types.rs 143-147. *)
  Definition get_account (x : xtx) : result N :=
    do! k <- get_public_key x; of_opt (acct k) 4.

  (** [check_self_contained], lib.rs 93-125: the account the fee is charged to. *)
  Definition check_self (s : xstate) (msg : list N) (c : xcall) : result N :=
    do! x <- of_opt (dec msg) 5;
    do! origin <- get_account x;
    if proxies c then of_opt (hold (x_fp s) !! origin) 6 else Ok origin.

  (** [verify_transaction], types.rs 211-245. *)
  Definition verify_tx (x : xtx) (sig : list N) : result bool :=
    do! p <- of_opt (signing radr x) 7;
    do! k <- get_public_key x;
    Ok (verify k p sig).

  (** [validate_params], lib.rs 271-325. *)
  Definition validate_params (s : xstate) (msg sig : list N) (c : xcall) : result (N * N) :=
    do! x <- of_opt (dec msg) 5;
    do! d <- get_extrinsic_data utf8 (x_memos x);
    ensure! bool_decide (genesis = g_hash d) else 30;
    ensure! bool_decide (hash c = g_call d) else 31;
    ensure! negb (match c with XTransact => true | _ => false end) else 32;
    ensure! x_now s <=? g_max d else 33;
    do! ok <- verify_tx x sig;
    ensure! ok else 34;
    Ok (g_nonce d, g_tip d).

  (** Dispatch of the inner call; [pay]: the deposits of the proxy pallet can be paid. *)
  Fixpoint exec (pay : bool) (s : xstate) (who : N) (c : xcall) : result xstate :=
    match c with
    | XPay dest n => if who =? dest then (ensure! n <=? getN (x_xrp s) who else 20; Ok s)
                     else do! s1 <- debit s who n; Ok (credit s1 dest n)
    | XFp f => do! f' <- dispatch maxp pay (x_fp s) who None f; Ok (set_fp s f')
    | XFee c' => exec pay s who c'
    | XTransact => Err 40 (* needs no origin *)
    | XOther _ => Ok s
    end.

  (** [transact], lib.rs 423-484. *)
  Definition transact (pay : bool) (s : xstate) (msg : list N) (c : xcall) (nonce : N) : result xstate :=
    ensure! negb (paused c) else 41;
    do! x <- of_opt (dec msg) 42;
    do! k <- get_public_key x;
    do! who <- get_account x;
    do! s1 <- exec pay s who c;
    Ok (XState (x_fp s1) (x_nonce s1) (x_xrp s1) (x_refs s1) (x_now s1) (x_killed s1) (x_fees s1)
          (x_log s1 ++ [XEvent k who (x_account x) c nonce])).

  (** [apply_self_contained], lib.rs 207-269: the fee (its amount left open, what is refunded taken off) is
      charged to the account found above, then the nonce of the signer is checked and used ([CheckNonce],
      wrapping u32).  An error of [transact] keeps nonce and fee. *)
  Definition apply_tx (pay : bool) (s : xstate) (msg sig : list N) (c : xcall) (fee : N) : result xstate :=
    do! info <- check_self s msg c;
    do! nt <- validate_params s msg sig c;
    ensure! negb (info =? 0) else 50;
    do! s1 <- debit s info fee;
    let s1 := XState (x_fp s1) (x_nonce s1) (x_xrp s1) (x_refs s1) (x_now s1) (x_killed s1) (x_fees s1 ++ [(info, fee)]) (x_log s1) in
    let eoa := if proxies c then owner_of (x_fp s1) info else info in
    ensure! negb (proxies c && (eoa =? 0)) else 51;
    ensure! fst nt =? getN (x_nonce s1) eoa else 52;
    let s2 := set_nonce s1 eoa ((fst nt + 1) mod 2 ^ 32) in
    Ok (commit s2 (transact pay s2 msg c (fst nt))).

  (** Everything that can happen: these transactions, everybody's dealings with futurepasses and proxies, XRP and
      other references coming and going, other transactions using up a nonce, blocks. *)
  Inductive xop :=
  | OTx (pay : bool) (msg sig : list N) (c : xcall) (fee : N)
  | OFp (o : fop)
  | OCredit (a n : N)
  | ODebit (a n : N)
  | ORefs (a n : N)
  | ONonce (a : N)
  | OBlock.
  Definition xstep (s : xstate) (o : xop) : xstate :=
    match o with
    | OTx pay msg sig c fee => commit s (apply_tx pay s msg sig c fee)
    | OFp o => set_fp s (fstep maxp (x_fp s) o)
    | OCredit a n => credit s a n
    | ODebit a n => commit s (debit s a n)
    | ORefs a n =>
        let s1 := XState (x_fp s) (x_nonce s) (x_xrp s) (<[a := n]> (x_refs s)) (x_now s) (x_killed s) (x_fees s) (x_log s) in
        if n <? getN (x_refs s) a then reap s1 a else s1
    | ONonce a => set_nonce s a ((getN (x_nonce s) a + 1) mod 2 ^ 32)
    | OBlock => XState (x_fp s) (x_nonce s) (x_xrp s) (x_refs s) (x_now s + 1) (x_killed s) (x_fees s) (x_log s)
    end.
  Definition xinit : xstate := XState finit ∅ ∅ ∅ 0 [] [] [].
End xrpltx.
