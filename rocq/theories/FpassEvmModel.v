(** Futurepasses in the EVM: the futurepass precompile (/repo/evm-precompiles/futurepass/src/lib.rs), the registrar
    (/repo/evm-precompiles/futurepass-registrar/src/lib.rs) and the precompile set they are part of
    (/repo/runtime/src/precompiles.rs, /repo/evm-precompiles/utils/src/precompile_set.rs), called by any contracts, on top
    of the model of the pallet with its deposits ([FpassFundModel]) and the byte-level ABI ([AbiModel]).
    Running out of gas is not modelled: it reverts the call, as if it had not been made.  Nor are the transaction fee,
    the limit on the depth of calls and the base call filter. *)
From Verif Require Export Erc1155Model UtilsModel FpassFundModel.

(** ** Selectors and log topics: keccak-256 of the signatures (futurepass 40-51, 90-102; registrar 30-38), computed
    outside Coq; those shared with [Erc1155Model] are there *)
Definition S_receive : N := 0xc5d24601.
Definition S_delegateType : N := 0x2e51ee70.
Definition S_registerDelegate : N := 0xfb243a5c.
Definition S_unregisterDelegate : N := 0x8376e5ae.
Definition S_proxyCall : N := 0xc579191c.
Definition S_futurepassOf : N := 0x4dde5a44.
Definition S_create : N := 0x9ed93318.
Definition L_registered : N := 0x6baa10aed47b514e03e204dd6e42a396027df1835dde4918eb6c8517f16eac78.
Definition L_unregistered : N := 0x35dca1bf1d17be7853aa0ec72f021ab0188ddda31357b90201a6ef08d27bf3b8.
Definition L_executed : N := 0x947255a71a111efd74e4a20f59cf2f04a9bc9fc00ff98a7ef5c0e2aede96a88b.
Definition L_contract : N := 0xadcaa89e4006ca90754f0ecdc48d0aa53c64e7ea71fadf33e1333e2eb4ff8ed3.
Definition L_futurepass : N := 0xf0c2622397f61a66478f7f5b0e984494425479b88abf1507869c475d56f76308.
Definition tU8 : ty := TW (WUint 255).
Definition tU32 : ty := TW (WUint U32MAX).

(** [TryFrom<u8>] and [From<ProxyType>], /repo/runtime/src/impls.rs:705-734. *)
Definition ptype_of (n : N) : option ptype :=
  if n =? 0 then Some TNone else if n =? 1 then Some TAny else if n =? 2 then Some TNonTransfer
  else if n =? 3 then Some TGov else if n =? 4 then Some TStaking else if n =? 255 then Some TOwner else None.
Definition ptype_n (t : ptype) : N := match t with TNone => 0 | TAny => 1 | TNonTransfer => 2 | TGov => 3 | TStaking => 4 | TOwner => 255 end.

(** ** The precompile set, precompiles.rs 55-101 *)
(** The registrar, precompile_utils constants.rs:50. *)
Definition registrar : N := 65535.
(** What is at an address: one of the stateless precompiles 1 to 9, another precompile that forbids recursion and
    DELEGATECALL, the registrar (which forbids them too), a futurepass (any address with the prefix), or no precompile.
    The collections and assets behind the prefixes AA, BB and CC are taken to exist. *)
Inductive pclass := PPlain | PState | PReg | PFut | PNone.
Definition classify (a : N) : pclass :=
  if is_fp a then PFut else if a =? registrar then PReg else if (1 <=? a) && (a <=? 9) then PPlain
  else if existsb (N.eqb a) [1024; 1026; 1721; 1731; 1939; 56797; 1741] || existsb (N.eqb (a / 2 ^ 128)) [0xAAAAAAAA; 0xBBBBBBBB; 0xCCCCCCCC]
  then PState else PNone.
(** How many calls to a precompile are under way: [current_recursion_level]. *)
Definition level (a : N) (stack : list N) : nat := length (List.filter (N.eqb a) stack).

(** ** State *)
(** A call that was made: who the callee sees as its caller, the address called, the value it sees, the data. *)
Record ecall := Ecall { c_from : N; c_to : N; c_value : N; c_data : list N }.
Record es := Es {
  e_m : fm;               (* the pallets *)
  e_xrp : gmap N N;       (* drops of XRP, the currency of the EVM *)
  e_now : N;              (* the block number *)
  e_logs : list elog;
  e_calls : list ecall }. (* observable: the calls made *)
Definition xrp (s : es) (a : N) : N := default 0 (e_xrp s !! a).
Definition with_m (s : es) (m : fm) : es := Es m (e_xrp s) (e_now s) (e_logs s) (e_calls s).
Definition elogged (s : es) (a : N) (topics data : list N) : es :=
  Es (e_m s) (e_xrp s) (e_now s) (e_logs s ++ [Elog a topics data]) (e_calls s).
Definition called (s : es) (from to value : N) (data : list N) : es :=
  Es (e_m s) (e_xrp s) (e_now s) (e_logs s) (e_calls s ++ [Ecall from to value data]).
(** The transfer that comes with a call, if its value is not zero: a value that is no [u128] is refused, then [EvmCurrencyScaler::transfer],
    impls.rs:178-194 (as [evm_transfer], on one asset). *)
Definition xmove (s : es) (a b wei : N) : result es :=
  if wei =? 0 then Ok s else
  ensure! wei <=? U128MAX else 30;
  do! v <- scale_wei_to_6dp wei;
  ensure! v <=? xrp s a else 31;
  if a =? b then Ok s else Ok (Es (e_m s) (<[b := xrp s b + v]> (<[a := xrp s a - v]> (e_xrp s))) (e_now s) (e_logs s) (e_calls s)).

(** ** What contracts do *)
(** A call: its kind, target, value and data; then what the code at the target does in turn, and what it answers
    ([None]: it reverts).  A contract can so do anything, its calls are made one after another, and it goes on after one
    of them failed. *)
Inductive kind := KCall | KStatic | KDelegate | KCallCode.
Inductive act := Act (k : kind) (target value : N) (data : list N) (inner : list act) (ret : option (list N)).
(** Code running: its address and caller, the value it sees, whether state may not be changed, and the calls to
    precompiles under way. *)
Record frame := Frame { fr_self : N; fr_caller : N; fr_value : N; fr_static : bool; fr_stack : list N }.

Section evm.
  Variable maxp ed base factor : N.
  (** [keccak_256]; [secp256k1_ecdsa_recover] of a signature and a hash, with the address of the key. *)
  Variable keccak : list N -> list N.
  Variable recover : list N -> list N -> option N.
  (** The accounts with code, those that will be created included; the address of a contract that an account creates. *)
  Variable code : N -> bool.
  Variable made : es -> N -> list N -> N.

  (** ** The signature, /repo/pallet/futurepass/src/lib.rs:570-615 *)
  Definition packed (f d : N) (t : ptype) (deadline : N) : list N := be_bytes 20 f ++ be_bytes 20 d ++ [ptype_n t] ++ be_bytes 4 deadline.
  Definition hexdigit (n : N) : N := if n <? 10 then 48 + n else 87 + n.
  (** [hex::encode]. *)
  Definition hex (l : list N) : list N := flat_map (fun b => [hexdigit (b / 16); hexdigit (b mod 16)]) l.
  (** "\x19Ethereum Signed Message:\n", /repo/primitives/src/signature.rs:165-170. *)
  Definition eth_prefix : list N := [25; 69; 116; 104; 101; 114; 101; 117; 109; 32; 83; 105; 103; 110; 101; 100; 32; 77; 101; 115; 115; 97; 103; 101; 58; 10].
  Definition eth_message (m : list N) : list N := eth_prefix ++ digits 20 (nlen m) ++ m.
  Definition sign_hash (f d : N) (t : ptype) (deadline : N) : list N := keccak (eth_message (hex (keccak (packed f d t deadline)))).
  (** lib 299-324. *)
  Definition signed (now f d : N) (t : ptype) (deadline : N) (sig : list N) : bool :=
    (now <=? deadline) && bool_decide (recover sig (sign_hash f d t deadline) = Some d).

  (** ** The futurepass precompile; [f] is its [code_address] *)
  (** [delegate_type], 213-231. *)
  Definition f_delegate_type (s : es) (f : N) (call : list N) : result (es * list N) :=
    do! a <- read_args [tA] call;
    match a with
    | [VN d] => Ok (s, out [tU8] [VN (match find_def d None (defs (f_fp (e_m s)) f) with Some x => ptype_n (snd x) | None => 0 end)])
    | _ => Err 98
    end.
  (** [register_delegate_with_signature], 233-270. *)
  Definition f_register (s : es) (caller f : N) (call : list N) : result (es * list N) :=
    do! a <- read_args [tA; tU8; tU32; TBytes 65] call;
    match a with
    | [VN d; VN n; VN deadline; VB sig] =>
        do! t <- of_opt (ptype_of n) 32;
        ensure! nlen sig =? 65 else 33;
        do! m <- m_register maxp ed base factor (signed (e_now s) f d t deadline sig) (e_m s) caller f d t;
        Ok (elogged (with_m s m) f [L_registered; f; d] (out [tU8] [VN n]), [])
    | _ => Err 98
    end.
  (** [unregister_delegate], 272-298. *)
  Definition f_unregister (s : es) (caller f : N) (call : list N) : result (es * list N) :=
    do! a <- read_args [tA] call;
    match a with
    | [VN d] =>
        do! m <- m_unregister ed base factor (e_m s) caller f d;
        Ok (elogged (with_m s m) f [L_unregistered; f] (out [tA] [VN d]), [])
    | _ => Err 98
    end.
  (** [owner], 585-594, with impls.rs:561-569. *)
  Definition f_owner (s : es) (f : N) : result (es * list N) :=
    Ok (s, out [tA] [VN (match List.find (fun x => bool_decide (snd x = TOwner)) (defs (f_fp (e_m s)) f) with Some x => fst x | None => 0 end)]).
  (** [renounce_ownership], 596-624. *)
  Definition f_renounce (s : es) (caller f : N) : result (es * list N) :=
    do! m <- m_transfer maxp ed base factor (e_m s) caller caller None;
    Ok (elogged (with_m s m) f [L_ownership; caller; 0] [], out [tB] [VN 1]).
  (** [transfer_ownership], 626-651. *)
  Definition f_transfer (s : es) (caller f : N) (call : list N) : result (es * list N) :=
    do! a <- read_args [tA] call;
    match a with
    | [VN n] =>
        do! m <- m_transfer maxp ed base factor (e_m s) caller caller (Some n);
        Ok (elogged (with_m s m) f [L_ownership; caller; n] [], out [tB] [VN 1])
    | _ => Err 98
    end.
  (** [execute], 149-178, but for [proxyCall]; calls in a static context and calls with a value are not refused. *)
  Definition fut_leaf (s : es) (caller f value : N) (call : list N) : result (es * list N) :=
    match read_selector call with
    | Err e => if (nlen call =? 0) && negb (value =? 0) then Ok (s, []) else Err e
    | Ok sel =>
        if sel =? S_receive then Ok (s, [])
        else if sel =? S_delegateType then f_delegate_type s f call
        else if sel =? S_registerDelegate then f_register s caller f call
        else if sel =? S_unregisterDelegate then f_unregister s caller f call
        else if sel =? S_owner then f_owner s f
        else if sel =? S_renounceOwnership then f_renounce s caller f
        else if sel =? S_transferOwnership then f_transfer s caller f call
        else Err 34
    end.

  (** ** The registrar, 60-143 *)
  Definition r_run (s : es) (caller value : N) (static : bool) (call : list N) : result (es * list N) :=
    do! sel <- read_selector call;
    if sel =? S_futurepassOf then
      ensure! value =? 0 else 35;
      do! a <- read_args [tA] call;
      match a with
      | [VN o] => Ok (s, out [tA] [VN (default 0 (hold (f_fp (e_m s)) !! o))])
      | _ => Err 98
      end
    else if sel =? S_create then
      ensure! negb static else 36;
      ensure! value =? 0 else 35;
      do! a <- read_args [tA] call;
      match a with
      | [VN o] =>
          let f := faddr (nextf (f_fp (e_m s))) in
          do! m <- m_create maxp ed base factor (e_m s) caller o;
          Ok (elogged (with_m s m) registrar [L_futurepass; f] (out [tA] [VN o]), out [tA] [VN f])
      | _ => Err 98
      end
    else Err 34.

  (** ** Calls *)
  (** The code at [target] is run for [caller] as [addr] ([byname]: by CALL or STATICCALL): [precompile_set.rs] 145-400, or what the contract does ([runl],
      where [true] stands for the calls that a precompile makes) and answers.  The tokens' precompiles call the contract
      that receives a token in the name of their own caller (/repo/evm-precompiles/erc721/src/lib.rs:475-486, erc1155
      432-448); what they do otherwise is left out, but the call to them is recorded.  Plain precompiles and
      contracts run by DELEGATECALL or CALLCODE are not called in anybody's name. *)
  Definition enter (fut : es -> list N -> result (es * list N)) (runl : bool -> frame -> es -> result es) (ret : option (list N))
      (s : es) (byname : bool) (addr caller value : N) (static : bool) (stack : list N) (target : N) (data : list N) : result (es * list N) :=
    match classify target with
    | PPlain => Ok (s, default [] ret)
    | PNone =>
        let s1 := if byname then called s caller target value data else s in
        if code target then
          do! s2 <- runl false (Frame addr caller value static stack) s1;
          do! o <- of_opt ret 40;
          Ok (s2, o)
        else Ok (s1, [])
    | PState =>
        ensure! addr =? target else 41;
        ensure! Nat.leb (level target stack) 0 else 42;
        do! s1 <- runl true (Frame caller caller 0 static (target :: stack)) (called s caller target value data);
        do! o <- of_opt ret 40;
        Ok (s1, o)
    | PReg =>
        ensure! addr =? target else 41;
        ensure! Nat.leb (level target stack) 0 else 42;
        r_run (called s caller target value data) caller value static data
    | PFut =>
        ensure! Nat.leb (level target stack) 1 else 42;
        fut (called s caller target value data) (target :: stack)
    end.
  (** The selectors that a futurepass may use on futurepasses, lib 314-318 and impls.rs:746-751. *)
  Definition listed (d : list N) : bool := existsb (N.eqb (of_be (firstn 4 d))) [S_registerDelegate; S_unregisterDelegate; S_transferOwnership].
  (** [get_selector], precompile_utils lib.rs:67-73. *)
  Definition get_selector (d : list N) : list N := if nlen d <? 4 then [0; 0; 0; 0] else firstn 4 d.
  (** [proxy_call], 300-331, [do_proxy], 338-583, and the filter, impls.rs:736-766.  Call types 3 and 4 run another EVM,
      which starts with no calls under way and not static. *)
  Definition proxy_call (runl : bool -> frame -> es -> result es) (ret : option (list N)) (s : es) (caller : N) (static : bool)
      (stack : list N) (f ct to value : N) (d : list N) : result (es * list N) :=
    ensure! ct <? 5 else 14;
    ensure! negb (is_fp to && (nlen d <? 4)) else panic;
    ensure! negb (is_fp to && listed d) || holds (f_fp (e_m s)) caller f else 7;
    do! x <- of_opt (find_def caller None (defs (f_fp (e_m s)) f)) 13;
    let own := (to =? registrar) || is_fp to in
    ensure! negb (own && (nlen d <? 4)) else panic;
    ensure! (if own then listed d else bool_decide (snd x = TOwner) || bool_decide (snd x = TAny)) else 12;
    if ct <? 2 then
      do! s1 <- xmove s f to value;
      do! r <- enter (fun s2 _ => fut_leaf s2 f to value d) runl ret s1 true to f value (static || (ct =? 0)) stack to d;
      Ok (elogged (fst r) f [L_executed; ct; to; value] (out [TPost] [VB (get_selector d)]), snd r)
    else
      ensure! negb (ct =? 2) else 15;
      ensure! (ct =? 3) || (32 <=? nlen d) else panic;
      let a := made s f d in
      do! s1 <- xmove s f a value;
      do! s2 <- runl false (Frame a f value false []) (called s1 f a value d);
      do! _ <- of_opt ret 40;
      Ok (elogged s2 f [L_contract; ct; a; value] (word (if ct =? 3 then 0 else of_be (skipn (length d - 32) d))), be_bytes 20 a).
  Definition fut_run (runl : bool -> frame -> es -> result es) (ret : option (list N)) (caller f value : N) (static : bool) (call : list N)
      (s : es) (stack : list N) : result (es * list N) :=
    if (4 <=? nlen call) && (of_be (firstn 4 call) =? S_proxyCall) then
      do! a <- read_args [tU8; tA; tU; TBytes 65536] call;
      match a with
      | [VN ct; VN to; VN v; VB d] => proxy_call runl ret s caller static stack f ct to v d
      | _ => Err 98
      end
    else fut_leaf s caller f value call.

  (** A call that a precompile may make: to a contract, with nothing but data. *)
  Definition callback (a : act) : bool :=
    match a with Act KCall target value _ _ _ => (value =? 0) && code target && match classify target with PNone => true | _ => false end | _ => false end.
  (** One call of the code running in frame [fr].  A failed call leaves no trace, but a panic ends it all. *)
  Fixpoint perform (a : act) (fr : frame) (s : es) {struct a} : result (es * list N) :=
    match a with
    | Act k target value data inner ret =>
        let runl := fun (cb : bool) (fr' : frame) =>
          fix go (l : list act) (s : es) : result es :=
            match l with
            | [] => Ok s
            | x :: r =>
                if cb && negb (callback x) then go r s
                else match perform x fr' s with
                     | Ok p => go r (fst p)
                     | Err e => if e =? panic then Err panic else go r s
                     end
            end in
        let run := fun cb fr' s => runl cb fr' inner s in
        let go := fun s byname addr caller value static =>
          enter (fut_run run ret caller target value static data) run ret s byname addr caller value static (fr_stack fr) target data in
        match k with
        | KCall =>
            ensure! negb (fr_static fr) || (value =? 0) else 43;
            do! s1 <- xmove s (fr_self fr) target value;
            go s1 true target (fr_self fr) value (fr_static fr)
        | KStatic => go s true target (fr_self fr) 0 true
        | KDelegate => go s false (fr_self fr) (fr_caller fr) (fr_value fr) (fr_static fr)
        | KCallCode => do! s1 <- xmove s (fr_self fr) (fr_self fr) value; go s1 false (fr_self fr) (fr_self fr) value (fr_static fr)
        end
    end.

  (** ** Transactions: an extrinsic, an Ethereum transaction, a new block *)
  Inductive eop :=
  | EExt (who : N) (c : mcall)
  | ECall (who target value : N) (data : list N) (inner : list act) (ret : option (list N))
  | EBlock.
  Definition top (who : N) : frame := Frame who who 0 false [].
  Definition estep (s : es) (o : eop) : es :=
    match o with
    | EExt who c => with_m s (commit (e_m s) (mdispatch maxp ed base factor (e_m s) who None c))
    | ECall who target value data inner ret => match perform (Act KCall target value data inner ret) (top who) s with Ok p => fst p | Err _ => s end
    | EBlock => Es (e_m s) (e_xrp s) (e_now s + 1) (e_logs s) (e_calls s)
    end.
End evm.
(** Any distribution of money at the start. *)
Definition einit (money other drops : gmap N N) : es := Es (minit money other) drops 0 [] [].
