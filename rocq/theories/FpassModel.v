(** Futurepasses: /repo/pallet/futurepass/src/lib.rs, the proxy provider of the runtime
    (/repo/runtime/src/impls.rs 554-813) and the futurepass precompile (/repo/evm-precompiles/futurepass/src/lib.rs). *)
From Verif Require Export Base.

(** Account ids are 20 bytes, here the number they spell in big-endian order. *)
Fixpoint be_bytes (k : nat) (n : N) : list N := match k with O => [] | S k' => be_bytes k' (n / 256) ++ [n mod 256] end.
Definition of_be (l : list N) : N := fold_left (fun acc b => acc * 256 + b) l 0.
(** [generate_futurepass_account], lib 533-552. *)
Definition fp_bytes (id : N) : list N := [255; 255; 255; 255] ++ be_bytes 16 id.
Definition faddr (id : N) : N := of_be (fp_bytes id).
(** [as_bytes().starts_with(FUTUREPASS_PRECOMPILE_ADDRESS_PREFIX)]: the first four of 20 bytes. *)
Definition is_fp (a : N) : bool := a / 2 ^ 128 =? 4294967295.

(** [ProxyType], impls.rs 695-703, in the order of [Ord]. *)
Inductive ptype := TNone | TAny | TNonTransfer | TGov | TStaking | TOwner.
#[global] Instance ptype_eq : EqDecision ptype. Proof. solve_decision. Defined.
Definition rank (t : ptype) : N := match t with TNone => 0 | TAny => 1 | TNonTransfer => 2 | TGov => 3 | TStaking => 4 | TOwner => 5 end.
(** [pallet_proxy]: definitions (delegate, type) kept sorted, delay 0. *)
Notation pdef := (N * ptype)%type.
Definition pkey (d : pdef) : N := fst d * 8 + rank (snd d).
Fixpoint insert_def (d : pdef) (l : list pdef) : list pdef :=
  match l with [] => [d] | x :: r => if pkey d <? pkey x then d :: x :: r else x :: insert_def d r end.
Definition has_def (d : pdef) (l : list pdef) : bool := bool_decide (d ∈ l).
Fixpoint remove_def (d : pdef) (l : list pdef) : list pdef :=
  match l with [] => [] | x :: r => if bool_decide (x = d) then r else x :: remove_def d r end.
(** [find_proxy]: the first definition of the delegate (of the forced type). *)
Definition find_def (delegate : N) (force : option ptype) (l : list pdef) : option pdef :=
  List.find (fun d => (fst d =? delegate) && match force with None => true | Some t => bool_decide (snd d = t) end) l.

Record fps := Fps {
  hold : gmap N N;            (* [Holders]: account -> futurepass *)
  prox : gmap N (list pdef);  (* [pallet_proxy::Proxies] *)
  nextf : N;                  (* [NextFuturepassId] *)
  born : list N }.            (* observable: the futurepasses created, latest first *)
Definition defs (s : fps) (f : N) : list pdef := default [] (prox s !! f).
Definition set_defs (s : fps) (f : N) (l : list pdef) : fps := Fps (hold s) (<[f := l]> (prox s)) (nextf s) (born s).
Definition set_hold (s : fps) (h : gmap N N) : fps := Fps h (prox s) (nextf s) (born s).

Section fp.
  Variable maxp : N. (* [MaxProxies] *)
  (** [add_proxy_delegate] of pallet_proxy. *)
  Definition add_def (s : fps) (f d : N) (t : ptype) : result fps :=
    ensure! negb (f =? d) else 1;
    ensure! negb (has_def (d, t) (defs s f)) else 2;
    ensure! N.of_nat (length (defs s f)) <? maxp else 3;
    Ok (set_defs s f (insert_def (d, t) (defs s f))).
  (** [add_delegate], impls 582-613; [pay]: the funding transfer and the reserve succeed (left to the environment). *)
  Definition add_delegate (pay : bool) (s : fps) (f d : N) (t : ptype) : result fps := ensure! pay else 4; add_def s f d t.
  (** [remove_delegate], impls 621-647. *)
  Definition remove_delegate (pay : bool) (s : fps) (f d : N) : result fps :=
    do! x <- of_opt (find_def d None (defs s f)) 5;
    ensure! pay else 4;
    Ok (set_defs s f (remove_def x (defs s f))).
  Definition exists_def (s : fps) (f d : N) : bool := match find_def d None (defs s f) with Some _ => true | None => false end.
  Definition holds (s : fps) (a f : N) : bool := bool_decide (hold s !! a = Some f).

  (** [do_create_futurepass], lib 554-568; the counter is a [u128] and wraps. *)
  Definition create (pay : bool) (s : fps) (account : N) : result fps :=
    ensure! bool_decide (hold s !! account = None) else 6;
    let f := faddr (nextf s) in
    add_delegate pay (Fps (<[account := f]> (hold s)) (prox s) ((nextf s + 1) mod 2 ^ 128) (f :: born s)) f account TOwner.
  (** [register_delegate_with_signature], lib 271-334; [signed]: in time and signed by the delegate. *)
  Definition register (pay signed : bool) (s : fps) (caller f d : N) (t : ptype) : result fps :=
    ensure! (caller =? f) || holds s caller f else 7;
    ensure! (caller =? f) || exists_def s f caller else 5;
    ensure! bool_decide (t = TAny) else 8;
    ensure! negb (exists_def s f d) else 9;
    ensure! signed else 10;
    add_delegate pay s f d t.
  (** [unregister_delegate], lib 356-388. *)
  Definition unregister (pay : bool) (s : fps) (caller f d : N) : result fps :=
    ensure! negb (holds s d f) else 11;
    ensure! holds s caller f || (caller =? f) || (caller =? d) else 8;
    ensure! exists_def s f d else 5;
    remove_delegate pay s f d.
  (** [transfer_futurepass], lib 415-461. *)
  Fixpoint remove_others (pay : bool) (s : fps) (f new : N) (l : list pdef) : result fps :=
    match l with
    | [] => Ok s
    | x :: r => if fst x =? new then remove_others pay s f new r
                else do! s1 <- remove_delegate pay s f (fst x); remove_others pay s1 f new r
    end.
  Definition transfer_fp (pay : bool) (s : fps) (caller cur : N) (new : option N) : result fps :=
    do! f <- of_opt (hold s !! cur) 7;
    let s1 := set_hold s (delete cur (hold s)) in
    ensure! (caller =? cur) || (f =? caller) else 7;
    match new with
    | Some n =>
        ensure! bool_decide (hold s1 !! n = None) else 6;
        do! s2 <- add_delegate pay s1 f n TOwner;
        do! s3 <- remove_others pay s2 f n (defs s2 f);
        Ok (set_hold s3 (<[n := f]> (hold s3)))
    | None =>
        ensure! pay else 4;
        Ok (Fps (hold s1) (delete f (prox s1)) (nextf s1) (born s1))
    end.

  (** The calls concerned.  [COther] is any call of another pallet. *)
  Inductive fcall :=
  | CCreate (account : N)
  | CRegister (f d : N) (t : ptype) (signed : bool)
  | CUnregister (f d : N)
  | CTransfer (cur : N) (new : option N)
  | CProxyExt (f : N) (c : fcall)                        (* [proxy_extrinsic], lib 483-512 *)
  | CProxy (real : N) (force : option ptype) (c : fcall) (* [pallet_proxy::proxy] *)
  | CAddProxy (d : N) (t : ptype) | CRemoveProxy (d : N) (t : ptype) | CRemoveProxies (* [pallet_proxy], own account *)
  | COther.
  (** [ProxyType::filter], impls 769-803, with the filter that [pallet_proxy] adds for calls of its own (subsumed). *)
  Definition allows (t : ptype) (c : fcall) : bool :=
    match c with
    | CRegister _ _ _ _ | CUnregister _ _ | CTransfer _ _ => bool_decide (t = TOwner)
    | CCreate _ | CProxyExt _ _ | CProxy _ _ _ | CAddProxy _ _ | CRemoveProxy _ _ | CRemoveProxies => false
    | COther => bool_decide (t = TOwner) || bool_decide (t = TAny)
    end.
  (** Dispatch by signed account [who], with the filter of the proxy definition it came through.  A failed inner call
      leaves the state as it was, and the proxy call succeeds. *)
  Fixpoint dispatch (pay : bool) (s : fps) (who : N) (filt : option ptype) (c : fcall) : result fps :=
    ensure! match filt with None => true | Some t => allows t c end else 12;
    let via real force c' :=
      do! d <- of_opt (find_def who force (defs s real)) 13;
      Ok (commit s (dispatch pay s real (Some (snd d)) c')) in
    match c with
    | CCreate account => create pay s account
    | CRegister f d t signed => register pay signed s who f d t
    | CUnregister f d => unregister pay s who f d
    | CTransfer cur new => transfer_fp pay s who cur new
    | CProxyExt f c' =>
        match c' with
        | CRegister _ _ _ _ | CUnregister _ _ | CTransfer _ _ => ensure! holds s who f else 7; via f None c'
        | _ => via f None c'
        end
    | CProxy real force c' => via real force c'
    | CAddProxy d t => ensure! pay else 4; add_def s who d t
    | CRemoveProxy d t => ensure! has_def (d, t) (defs s who) else 5; Ok (set_defs s who (remove_def (d, t) (defs s who)))
    | CRemoveProxies => Ok (Fps (hold s) (delete who (prox s)) (nextf s) (born s))
    | COther => Ok s
    end.

  (** ** The precompile *)
  (** Call data: one of the selectors with arguments, less than four bytes, or anything else. *)
  Inductive esub :=
  | SReg (d : N) (t : ptype) (signed : bool) | SUnreg (d : N) | STransfer (n : N) | SRenounce
  | SProxy (ct : N) (to : N) (data : esub) | SShort | SOther.
  Definition listed_sel (x : esub) : bool := match x with SReg _ _ _ | SUnreg _ | STransfer _ => true | _ => false end.
  Definition panic : N := 99.
  (** [execute] lib 149-178, [proxy_call] 300-331, [do_proxy] 338-583, the filter impls 736-766.  [reg] is the address of
      the registrar precompile.  Slicing [call_data.inner[..4]] panics on short data.  Targets other than futurepasses
      and the registrar are contracts, whose own calls come from their own address.  Call types 0 (static) and 1 (call);
      the static call is modelled as a call; creations (3, 4) do not touch futurepasses. *)
  Fixpoint evm (pay : bool) (reg : N) (s : fps) (caller target : N) (x : esub) : result fps :=
    if negb (is_fp target) then Ok s
    else match x with
    | SReg d t signed => register pay signed s caller target d t
    | SUnreg d => unregister pay s caller target d
    | STransfer n => transfer_fp pay s caller caller (Some n)
    | SRenounce => transfer_fp pay s caller caller None
    | SShort => Ok s
    | SOther => Ok s
    | SProxy ct to data =>
        ensure! ct <? 5 else 14;
        ensure! negb (is_fp to && match data with SShort => true | _ => false end) else panic;
        ensure! negb (is_fp to && listed_sel data) || holds s caller target else 7;
        do! d <- of_opt (find_def caller None (defs s target)) 13;
        ensure! negb (((to =? reg) || is_fp to) && match data with SShort => true | _ => false end) else panic;
        ensure! (if (to =? reg) || is_fp to then listed_sel data else bool_decide (snd d = TOwner) || bool_decide (snd d = TAny)) else 12;
        ensure! negb (ct =? 2) else 15;
        if ct <? 2 then evm pay reg s target to data else Ok s
    end.

  (** Transactions: signed extrinsics and EVM calls (by accounts or contracts). *)
  Inductive fop := FExt (pay : bool) (who : N) (c : fcall) | FEvm (pay : bool) (reg caller target : N) (x : esub).
  Definition fexec (s : fps) (o : fop) : result fps :=
    match o with FExt pay who c => dispatch pay s who None c | FEvm pay reg caller target x => evm pay reg s caller target x end.
  Definition fstep (s : fps) (o : fop) : fps := commit s (fexec s o).
End fp.
Definition finit : fps := Fps ∅ ∅ 1 [].
Definition signer (o : fop) : N := match o with FExt _ who _ => who | FEvm _ _ caller _ _ => caller end.
