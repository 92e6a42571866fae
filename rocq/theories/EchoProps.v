(** C179, C180: pings over the bridge. *)
From Verif Require Export EchoModel NotaryProofs FpassProofs.

(** ** Lemmas *)
Lemma read3 kind session dst rest : kind < 2 ^ 256 -> session < 2 ^ 256 -> dst < 2 ^ 160 ->
  word_at (encode3 kind session dst ++ rest) 0 = Some kind /\ word_at (encode3 kind session dst ++ rest) 32 = Some session /\ addr_at (encode3 kind session dst ++ rest) 64 = Some dst.
Proof.
  intros Hk Hs Hd. assert (Hd' : dst < 2 ^ 256) by (eapply N.lt_trans; [exact Hd|apply N.pow_lt_mono_r; lia]). unfold encode3. rewrite <- !app_assoc. split; [|split].
  - exact (word_mid [] kind _ 0 eq_refl Hk).
  - apply (word_mid (word kind) session); [rewrite nlen_word; reflexivity|exact Hs].
  - unfold addr_at. rewrite (app_assoc (word kind) (word session)). rewrite (word_mid (word kind ++ word session) dst); [|rewrite nlen_app, !nlen_word; reflexivity|exact Hd'].
    cbn [option_map]. rewrite N.mod_small by exact Hd. reflexivity.
Qed.

(** ** C179: every ping has its session, and is answered under it *)
Definition session_of (e : eevent) : list N := match e with PingSent x _ _ _ => [x] | _ => [] end.
Definition sessions (l : list eevent) : list N := flat_map session_of l.
Lemma receive_shape s src data s' : on_event s src data = Ok s' ->
  (exists x, s' = emit s (PongReceived x src data)) \/
  (exists x dst, s' = emit (fst (send (emit s (PingReceived x src data)) src dst (encode3 PONG x dst))) (PongSent x src dst (e_proof s)) /\ x <= U64MAX).
Proof.
  unfold on_event. intros H. destruct (word_at data 0) as [k|]; cbn [of_opt rbind] in H; [|discriminate]. destruct (word_at data 32) as [x|]; cbn [of_opt rbind] in H; [|discriminate].
  destruct (addr_at data 64) as [dst|]; cbn [of_opt rbind] in H; [|discriminate]. cbv zeta in H. destruct (sat U8MAX k =? PING); [left; injection H as <-; eauto|].
  destruct (sat U8MAX k =? PONG); [|discriminate]. right. cbn [send] in H. injection H as <-. exists (sat U64MAX x), dst. split; [reflexivity|]. unfold sat. lia.
Qed.
Lemma ping_shape s who dst s' : ping s who dst = Ok s' -> e_next s + 1 <= U64MAX /\
  s' = Echo (e_next s + 1) ((e_proof s + 1) mod 2 ^ 64) (e_outbox s ++ [EMsg who dst (encode3 PING (e_next s) dst) (e_proof s)]) (e_events s ++ [PingSent (e_next s) who dst (e_proof s)]).
Proof.
  unfold ping. cbv zeta. destruct (N.leb_spec (e_next s + 1) U64MAX) as [L|]; cbn [ensure rbind]; [|discriminate]. cbn. intros H. injection H as <-. auto.
Qed.
Definition counted (s : echo) : Prop := sessions (e_events s) = map N.of_nat (seq 0 (N.to_nat (e_next s))) /\ e_next s <= U64MAX.
Lemma sessions_snoc l e : sessions (l ++ [e]) = sessions l ++ session_of e.
Proof. unfold sessions. rewrite flat_map_app. cbn. rewrite app_nil_r. reflexivity. Qed.
Lemma counted_step s o : counted s -> counted (estep s o).
Proof.
  intros [E L]. destruct o as [who dst|src data|src dst m]; cbn [estep].
  - destruct (ping s who dst) as [s'|] eqn:P; cbn [commit]; [|split; assumption]. destruct (ping_shape _ _ _ _ P) as [L' ->]. split; [|exact L']. cbn [e_events e_next]. rewrite sessions_snoc, E. cbn [session_of].
    replace (N.to_nat (e_next s + 1)) with (S (N.to_nat (e_next s))) by lia. rewrite seq_S, map_app. cbn [map]. rewrite Nat.add_0_l, N2Nat.id. reflexivity.
  - destruct (on_event s src data) as [s'|] eqn:P; cbn [commit]; [|split; assumption]. destruct (receive_shape _ _ _ _ P) as [(x & ->)|(x & d & -> & _)]; (split; [|exact L]); cbn [emit send fst e_events e_next]; rewrite !sessions_snoc; cbn [session_of]; rewrite !app_nil_r; exact E.
  - split; [exact E|exact L].
Qed.
(** The sessions of the pings sent are 0, 1, 2, ... in order, each once; the counter never runs over. *)
Theorem C179_sessions ops : let s := run estep ops echo0 in
  sessions (e_events s) = map N.of_nat (seq 0 (N.to_nat (e_next s))) /\ NoDup (sessions (e_events s)) /\ e_next s <= U64MAX.
Proof.
  cbv zeta. assert (C : counted (run estep ops echo0)). { apply (run_inv estep counted); [intros s o Hs; exact (counted_step s o Hs)|split; [reflexivity|unfold U64MAX; cbn; lia]]. }
  destruct C as [E L]. split; [exact E|]. split; [|exact L]. rewrite E. apply NoDup_ListNoDup, FinFun.Injective_map_NoDup; [intros a b; apply Nat2N.inj|apply seq_NoDup].
Qed.
(** A ping is sent unless the ids are used up, in a message that says so. *)
Theorem C179_ping s who dst : (e_next s + 1 <= U64MAX -> exists s', ping s who dst = Ok s' /\
    e_outbox s' = e_outbox s ++ [EMsg who dst (encode3 PING (e_next s) dst) (e_proof s)] /\ e_events s' = e_events s ++ [PingSent (e_next s) who dst (e_proof s)] /\ e_next s' = e_next s + 1) /\
  (U64MAX < e_next s + 1 -> is_ok (ping s who dst) = false).
Proof.
  unfold ping. cbv zeta. destruct (N.leb_spec (e_next s + 1) U64MAX) as [L|L]; cbn [ensure rbind]; (split; [intros|]); try lia; [|reflexivity]. eexists. split; [reflexivity|]. cbn. auto.
Qed.
(** If the contract sends a ping's message back, the pong is reported under the ping's session. *)
Theorem C179_back s src session dst rest : session <= U64MAX -> dst < 2 ^ 160 ->
  on_event s src (encode3 PING session dst ++ rest) = Ok (emit s (PongReceived session src (encode3 PING session dst ++ rest))).
Proof.
  intros Hs Hd. destruct (read3 PING session dst rest) as (E1 & E2 & E3); [reflexivity|eapply N.le_lt_trans; [exact Hs|reflexivity]|exact Hd|]. unfold on_event. rewrite E1, E2, E3. cbn [of_opt rbind].
  replace (sat U64MAX session) with session by (unfold sat; lia). reflexivity.
Qed.
(** A ping from Ethereum is answered at once, with one message to the stated address under the same session. *)
Theorem C179_answer s src session dst rest : session <= U64MAX -> dst < 2 ^ 160 -> exists s', on_event s src (encode3 PONG session dst ++ rest) = Ok s' /\
  e_outbox s' = e_outbox s ++ [EMsg src dst (encode3 PONG session dst) (e_proof s)] /\
  e_events s' = e_events s ++ [PingReceived session src (encode3 PONG session dst ++ rest); PongSent session src dst (e_proof s)].
Proof.
  intros Hs Hd. destruct (read3 PONG session dst rest) as (E1 & E2 & E3); [reflexivity|eapply N.le_lt_trans; [exact Hs|reflexivity]|exact Hd|]. unfold on_event. rewrite E1, E2, E3. cbn [of_opt rbind].
  replace (sat U64MAX session) with session by (unfold sat; lia). eexists. split; [reflexivity|]. split; [reflexivity|]. cbn [emit send fst e_events]. rewrite <- app_assoc. reflexivity.
Qed.
(** Anything else is refused and leaves nothing. *)
Theorem C179_refused s src data : (nlen data < 96 \/ exists k, word_at data 0 = Some k /\ 1 < k) -> estep s (EReceive src data) = s.
Proof.
  intros H. cbn [estep]. assert (E : is_ok (on_event s src data) = false).
  { unfold on_event. destruct (word_at data 0) as [k|] eqn:E0; cbn [of_opt rbind]; [|reflexivity]. destruct (word_at data 32); cbn [of_opt rbind]; [|reflexivity]. destruct (addr_at data 64) as [d|] eqn:E2; cbn [of_opt rbind]; [|reflexivity].
    destruct H as [H|(k' & Ek & H)].
    - unfold addr_at, word_at, slice in E2. destruct (N.leb_spec (64 + 32) (nlen data)); [lia|discriminate].
    - injection Ek as <-. cbv zeta. unfold sat, PING, PONG, U8MAX. rewrite (proj2 (N.eqb_neq _ 0)), (proj2 (N.eqb_neq _ 1)) by lia. reflexivity. }
  destruct (on_event s src data); [discriminate|reflexivity].
Qed.
(** The session of a ping from Ethereum is cut to 64 bits: different ones get the same answer. *)
Theorem C179_alike_refuted : exists src dst x y, x <> y /\ x < 2 ^ 256 /\ y < 2 ^ 256 /\
  map em_data (e_outbox (estep echo0 (EReceive src (encode3 PONG x dst)))) = map em_data (e_outbox (estep echo0 (EReceive src (encode3 PONG y dst)))) /\
  map em_data (e_outbox (estep echo0 (EReceive src (encode3 PONG x dst)))) = [encode3 PONG (2 ^ 64 - 1) dst].
Proof. exists 5, 6, (2 ^ 64), (2 ^ 64 + 1). split; [lia|]. vm_compute. auto. Qed.
(** A pong may be reported for a ping that was never sent, by anybody on Ethereum. *)
Theorem C179_unasked_refuted : exists ops src, sessions (e_events (run estep ops echo0)) = [] /\ exists data, List.In (PongReceived 77 src data) (e_events (run estep ops echo0)).
Proof. exists [EReceive 5 (encode3 PING 77 6)], 5. split; [vm_compute; reflexivity|]. exists (encode3 PING 77 6). vm_compute. auto. Qed.
Example C179_example : e_events (run estep [EPing 3 6; EReceive 6 (encode3 PING 0 6); EPing 4 6; EReceive 9 (encode3 PONG 12 8)] echo0) =
  [PingSent 0 3 6 0; PongReceived 0 6 (encode3 PING 0 6); PingSent 1 4 6 1; PingReceived 12 9 (encode3 PONG 12 8); PongSent 12 9 8 2].
Proof. vm_compute. reflexivity. Qed.

(** ** C180: no echo message claims another sender *)
Definition sender (o : eop) : N := match o with EPing who _ => who | EReceive src _ => src | EOther src _ _ => src end.
Theorem C180_origin ops m : List.In m (e_outbox (run estep ops echo0)) -> exists o, List.In o ops /\ em_src m = sender o.
Proof.
  intros H. assert (K : forall l s, (forall m, List.In m (e_outbox s) -> exists o, List.In o ops /\ em_src m = sender o) -> (forall o, List.In o l -> List.In o ops) ->
    forall m, List.In m (e_outbox (run estep l s)) -> exists o, List.In o ops /\ em_src m = sender o).
  { induction l as [|o l IH]; intros s Hs Hl m' Hm; [exact (Hs m' Hm)|]. change (run estep (o :: l) s) with (run estep l (estep s o)) in Hm. refine (IH _ _ _ m' Hm); [|intros o' Ho'; apply Hl; right; exact Ho'].
    clear m' Hm. intros m' Hm. assert (Ho : List.In o ops) by (apply Hl; left; reflexivity). destruct o as [who dst|src data|src dst x]; cbn [estep] in Hm.
    - destruct (ping s who dst) as [s'|] eqn:P; cbn [commit] in Hm; [|auto]. destruct (ping_shape _ _ _ _ P) as [_ ->]. cbn [e_outbox] in Hm. apply in_app_or in Hm. destruct Hm as [Hm|[<-|[]]]; [auto|]. eexists. split; [exact Ho|reflexivity].
    - destruct (on_event s src data) as [s'|] eqn:P; cbn [commit] in Hm; [|auto]. destruct (receive_shape _ _ _ _ P) as [(y & ->)|(y & d & -> & _)]; cbn [emit send fst e_outbox] in Hm; [auto|].
      apply in_app_or in Hm. destruct Hm as [Hm|[<-|[]]]; [auto|]. eexists. split; [exact Ho|reflexivity].
    - cbn [send fst e_outbox] in Hm. apply in_app_or in Hm. destruct Hm as [Hm|[<-|[]]]; [auto|]. eexists. split; [exact Ho|reflexivity]. }
  refine (K ops echo0 _ _ m H); [intros x []|auto].
Qed.
(** What the pallet sent is what its events say, in order, and in the form of echo messages only. *)
Definition sent_of (e : eevent) : list emsg :=
  match e with PingSent x src dst p => [EMsg src dst (encode3 PING x dst) p] | PongSent x src dst p => [EMsg src dst (encode3 PONG x dst) p] | _ => [] end.
Definition is_echo (o : eop) : Prop := match o with EOther _ _ _ => False | _ => True end.
Theorem C180_log ops : Forall is_echo ops -> e_outbox (run estep ops echo0) = flat_map sent_of (e_events (run estep ops echo0)).
Proof.
  intros F. assert (K : forall s, e_outbox s = flat_map sent_of (e_events s) -> e_outbox (run estep ops s) = flat_map sent_of (e_events (run estep ops s))); [|apply K; reflexivity].
  induction F as [|o ops Fo _ IH]; intros s E; [exact E|]. change (run estep (o :: ops) s) with (run estep ops (estep s o)). apply IH. destruct o as [who dst|src data|src dst x]; cbn [estep]; [| |destruct Fo].
  - destruct (ping s who dst) as [s'|] eqn:P; cbn [commit]; [|exact E]. destruct (ping_shape _ _ _ _ P) as [_ ->]. cbn [e_outbox e_events]. rewrite flat_map_app, E. reflexivity.
  - destruct (on_event s src data) as [s'|] eqn:P; cbn [commit]; [|exact E]. destruct (receive_shape _ _ _ _ P) as [(y & ->)|(y & d & -> & _)]; cbn [emit send fst e_outbox e_events e_proof]; rewrite !flat_map_app, E; cbn [flat_map sent_of app]; rewrite !app_nil_r; reflexivity.
Qed.
Example C180_example : Forall is_echo [EPing 3 6; EReceive 9 (encode3 PONG 12 8)] /\ map em_src (e_outbox (run estep [EPing 3 6; EReceive 9 (encode3 PONG 12 8)] echo0)) = [3; 9].
Proof. split; [repeat constructor|vm_compute; reflexivity]. Qed.

Definition echo_theorems := (C179_sessions, C179_ping, C179_back, C179_answer, C179_refused, C179_alike_refuted, C179_unasked_refuted, C180_origin, C180_log).
Print Assumptions echo_theorems.
