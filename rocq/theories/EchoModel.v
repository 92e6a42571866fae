(** The echo pallet: messages to Ethereum and back, for trying out the bridge.  /repo/pallet/echo/src/lib.rs ("lib").

    The bridge ([EthereumBridge::send_event], /repo/pallet/ethy/src/impls.rs:45-68) is its outbox and its counter of
    proof ids; it never refuses 96 bytes.  Weights are left out. *)
From Verif Require Export NotaryModel.

(** [PING], [PONG], lib 47-51. *)
Definition PING : N := 0.
Definition PONG : N := 1.
(** [Event], lib 80-89. *)
Inductive eevent :=
| PingSent (session src dst proof : N)
| PongReceived (session src : N) (data : list N)
| PingReceived (session src : N) (data : list N)
| PongSent (session src dst proof : N).
Record emsg := EMsg { em_src : N; em_dst : N; em_data : list N; em_proof : N }.
Record echo := Echo { e_next : N; e_proof : N; e_outbox : list emsg; e_events : list eevent }.

(** [ethabi::encode(&[Uint, Uint, Address])] of three words. *)
Definition encode3 (kind session dst : N) : list N := word kind ++ word session ++ word dst.
(** [send_event], ethy/src/impls.rs:45-68. *)
Definition send (s : echo) (src dst : N) (m : list N) : echo * N :=
  (Echo (e_next s) ((e_proof s + 1) mod 2 ^ 64) (e_outbox s ++ [EMsg src dst m (e_proof s)]) (e_events s), e_proof s).
Definition emit (s : echo) (e : eevent) : echo := Echo (e_next s) (e_proof s) (e_outbox s) (e_events s ++ [e]).
(** [ping], lib 106-135. *)
Definition ping (s : echo) (who dst : N) : result echo :=
  let session := e_next s in
  ensure! session + 1 <=? U64MAX else 1;
  let '(s1, proof) := send s who dst (encode3 PING session dst) in
  let s2 := Echo (e_next s1 + 1) (e_proof s1) (e_outbox s1) (e_events s1) in
  Ok (emit s2 (PingSent session who dst proof)).
(** [on_event], lib 151-215, with the checks of [process_event], /repo/pallet/common/src/lib.rs:223-227; [verify_source]
    lets everyone pass, lib 145-149. *)
Definition on_event (s : echo) (src : N) (data : list N) : result echo :=
  do! kind <- of_opt (word_at data 0) 2;
  do! session <- of_opt (word_at data 32) 2;
  do! dst <- of_opt (addr_at data 64) 2;
  let kind := sat U8MAX kind in
  let session := sat U64MAX session in
  if kind =? PING then Ok (emit s (PongReceived session src data))
  else if kind =? PONG then
    let s1 := emit s (PingReceived session src data) in
    let '(s2, proof) := send s1 src dst (encode3 PONG session dst) in
    Ok (emit s2 (PongSent session src dst proof))
  else Err 3.

(** Operations: [ping] by a signed account, an event that came over the bridge, and another pallet's use of it. *)
Inductive eop := EPing (who dst : N) | EReceive (src : N) (data : list N) | EOther (src dst : N) (m : list N).
Definition estep (s : echo) (o : eop) : echo :=
  match o with
  | EPing who dst => commit s (ping s who dst)
  | EReceive src data => commit s (on_event s src data)
  | EOther src dst m => fst (send s src dst m)
  end.
Definition echo0 : echo := Echo 0 0 [] [].
