(** The money behind futurepasses: the deposits of /repo/runtime/src/impls.rs 582-665 and of pallet_proxy, over the
    definitions of [FpassModel].  Amounts are of the native token; what staking freezes is left out, as are other
    references that keep an account alive. *)
From Verif Require Export FpassModel.

Record fm := Fm {
  f_fp : fps;
  f_dep : gmap N N;      (* the deposit recorded in [Proxies] *)
  f_free : gmap N N;     (* free balances *)
  f_res : gmap N N }.    (* reserved balances *)
Definition dep (s : fm) (a : N) : N := default 0 (f_dep s !! a).
Definition free (s : fm) (a : N) : N := default 0 (f_free s !! a).
Definition res (s : fm) (a : N) : N := default 0 (f_res s !! a).

Section fund.
  Variable maxp : N.        (* [MaxProxies] *)
  Variable ed base factor : N. (* [ExistentialDeposit], [ProxyDepositBase], [ProxyDepositFactor] *)

  (** [Currency::transfer] of pallet_balances, to an account that then holds the existential deposit; an account with
      something reserved cannot be reaped.  (Dust, left out here, does not arise when the existential deposit is 1.) *)
  Definition pay (keep : bool) (s : fm) (a b x : N) : result fm :=
    if (x =? 0) || (a =? b) then Ok s else
    ensure! x <=? free s a else 20;
    ensure! (negb keep && (res s a =? 0)) || (ed <=? free s a - x) else 21;
    ensure! ed <=? free s b + x else 22;
    Ok (Fm (f_fp s) (f_dep s) (<[b := free s b + x]> (<[a := free s a - x]> (f_free s))) (f_res s)).
  (** [ReservableCurrency::reserve]: what is left must keep the account alive. *)
  Definition reserve (s : fm) (a x : N) : result fm :=
    if x =? 0 then Ok s else
    ensure! x <=? free s a else 20;
    ensure! ed <=? free s a - x else 21;
    Ok (Fm (f_fp s) (f_dep s) (<[a := free s a - x]> (f_free s)) (<[a := res s a + x]> (f_res s))).
  (** [unreserve]: as much as is reserved. *)
  Definition unreserve (s : fm) (a x : N) : fm :=
    let y := N.min x (res s a) in
    Fm (f_fp s) (f_dep s) (<[a := free s a + y]> (f_free s)) (<[a := res s a - y]> (f_res s)).
  (** [pallet_proxy::deposit]. *)
  Definition deposit (n : nat) : N := match n with O => 0 | S _ => base + factor * N.of_nat n end.
  (** New definitions for [a], the deposit moved to what they cost: the end of [add_proxy_delegate] and of
      [remove_proxy_delegate] in pallet_proxy. *)
  Definition rejig (s : fm) (a : N) (p : fps) : result fm :=
    let new := deposit (length (defs p a)) in
    do! s1 <- if dep s a <? new then reserve s a (new - dep s a) else Ok (unreserve s a (dep s a - new));
    Ok (Fm p (<[a := new]> (f_dep s1)) (f_free s1) (f_res s1)).
  Definition m_add_def (s : fm) (a d : N) (t : ptype) : result fm :=
    do! p <- add_def maxp (f_fp s) a d t; rejig s a p.
  Definition m_remove_def (s : fm) (a : N) (x : pdef) : result fm :=
    rejig s a (set_defs (f_fp s) a (remove_def x (defs (f_fp s) a))).
  Definition sub128 (a b : N) : N := (a + 2 ^ 128 - b) mod 2 ^ 128.
  (** [add_delegate], impls 582-613. *)
  Definition m_add_delegate (s : fm) (funder f d : N) (t : ptype) : result fm :=
    let need := sub128 (deposit (S (length (defs (f_fp s) f)))) (dep s f) in
    let need := if free s f <? ed then sat U128MAX (need + ed) else need in
    do! s1 <- pay true s funder f need;
    m_add_def s1 f d t.
  (** [remove_delegate], impls 621-647. *)
  Definition m_remove_delegate (s : fm) (receiver f d : N) : result fm :=
    do! x <- of_opt (find_def d None (defs (f_fp s) f)) 5;
    do! s1 <- m_remove_def s f x;
    pay true s1 f receiver (sub128 (dep s f) (dep s1 f)).
  (** [remove_account], impls 650-663, and what [Proxies::take] leaves. *)
  Definition drop_defs (s : fm) (f : N) : fm :=
    let p := f_fp s in
    Fm (Fps (hold p) (delete f (prox p)) (nextf p) (born p)) (delete f (f_dep s)) (f_free s) (f_res s).
  Definition m_remove_account (s : fm) (receiver f : N) : result fm :=
    pay false (unreserve (drop_defs s f) f (dep s f)) f receiver (dep s f).

  Definition with_fp (s : fm) (p : fps) : fm := Fm p (f_dep s) (f_free s) (f_res s).
  (** [do_create_futurepass], lib 554-568. *)
  Definition m_create (s : fm) (funder account : N) : result fm :=
    let p := f_fp s in
    ensure! bool_decide (hold p !! account = None) else 6;
    let f := faddr (nextf p) in
    m_add_delegate (with_fp s (Fps (<[account := f]> (hold p)) (prox p) ((nextf p + 1) mod 2 ^ 128) (f :: born p))) funder f account TOwner.
  (** [register_delegate_with_signature], lib 271-334. *)
  Definition m_register (signed : bool) (s : fm) (caller f d : N) (t : ptype) : result fm :=
    ensure! (caller =? f) || holds (f_fp s) caller f else 7;
    ensure! (caller =? f) || exists_def (f_fp s) f caller else 5;
    ensure! bool_decide (t = TAny) else 8;
    ensure! negb (exists_def (f_fp s) f d) else 9;
    ensure! signed else 10;
    m_add_delegate s caller f d t.
  (** [unregister_delegate], lib 356-388. *)
  Definition m_unregister (s : fm) (caller f d : N) : result fm :=
    ensure! negb (holds (f_fp s) d f) else 11;
    ensure! holds (f_fp s) caller f || (caller =? f) || (caller =? d) else 8;
    ensure! exists_def (f_fp s) f d else 5;
    m_remove_delegate s caller f d.
  (** [transfer_futurepass], lib 415-461. *)
  Fixpoint m_remove_others (s : fm) (caller f new : N) (l : list pdef) : result fm :=
    match l with
    | [] => Ok s
    | x :: r => if fst x =? new then m_remove_others s caller f new r
                else do! s1 <- m_remove_delegate s caller f (fst x); m_remove_others s1 caller f new r
    end.
  Definition m_transfer (s : fm) (caller cur : N) (new : option N) : result fm :=
    do! f <- of_opt (hold (f_fp s) !! cur) 7;
    let s1 := with_fp s (set_hold (f_fp s) (delete cur (hold (f_fp s)))) in
    ensure! (caller =? cur) || (f =? caller) else 7;
    match new with
    | Some n =>
        ensure! bool_decide (hold (f_fp s1) !! n = None) else 6;
        do! s2 <- m_add_delegate s1 caller f n TOwner;
        do! s3 <- m_remove_others s2 caller f n (defs (f_fp s2) f);
        Ok (with_fp s3 (set_hold (f_fp s3) (<[n := f]> (hold (f_fp s3)))))
    | None => m_remove_account s1 caller f
    end.

  (** The calls, those of [FpassModel] with a payment for anything an account may do with its own money. *)
  Inductive mcall :=
  | MCreate (account : N)
  | MRegister (f d : N) (t : ptype) (signed : bool)
  | MUnregister (f d : N)
  | MTransfer (cur : N) (new : option N)
  | MProxyExt (f : N) (c : mcall)
  | MProxy (real : N) (force : option ptype) (c : mcall)
  | MAddProxy (d : N) (t : ptype) | MRemoveProxy (d : N) (t : ptype) | MRemoveProxies
  | MPay (keep : bool) (to x : N).
  Fixpoint erase (c : mcall) : fcall :=
    match c with
    | MCreate a => CCreate a | MRegister f d t g => CRegister f d t g | MUnregister f d => CUnregister f d | MTransfer cur new => CTransfer cur new
    | MProxyExt f c => CProxyExt f (erase c) | MProxy real force c => CProxy real force (erase c)
    | MAddProxy d t => CAddProxy d t | MRemoveProxy d t => CRemoveProxy d t | MRemoveProxies => CRemoveProxies | MPay _ _ _ => COther
    end.
  (** As [dispatch] of [FpassModel]. *)
  Fixpoint mdispatch (s : fm) (who : N) (filt : option ptype) (c : mcall) : result fm :=
    ensure! match filt with None => true | Some t => allows t (erase c) end else 12;
    let via real force c' :=
      do! d <- of_opt (find_def who force (defs (f_fp s) real)) 13;
      Ok (commit s (mdispatch s real (Some (snd d)) c')) in
    match c with
    | MCreate account => m_create s who account
    | MRegister f d t signed => m_register signed s who f d t
    | MUnregister f d => m_unregister s who f d
    | MTransfer cur new => m_transfer s who cur new
    | MProxyExt f c' =>
        match c' with
        | MRegister _ _ _ _ | MUnregister _ _ | MTransfer _ _ => ensure! holds (f_fp s) who f else 7; via f None c'
        | _ => via f None c'
        end
    | MProxy real force c' => via real force c'
    | MAddProxy d t => m_add_def s who d t
    | MRemoveProxy d t => ensure! has_def (d, t) (defs (f_fp s) who) else 5; m_remove_def s who (d, t)
    | MRemoveProxies => Ok (unreserve (drop_defs s who) who (dep s who))
    | MPay keep to x => pay keep s who to x
    end.
  Inductive mmop := MExt (who : N) (c : mcall).
  Definition mmstep (s : fm) (o : mmop) : fm := match o with MExt who c => commit s (mdispatch s who None c) end.
End fund.
(** Any distribution of money at the start, [other]: what other pallets have reserved (and keep reserved). *)
Definition minit (money other : gmap N N) : fm := Fm finit ∅ money other.
