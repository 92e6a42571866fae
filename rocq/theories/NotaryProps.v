(** Properties of bridge events as relayed and as judged by the notaries: C104-C109. *)
From Verif Require Import NotaryModel NotaryProofs EthyProps FpassProofs.

(** ** Specification: what an event's bytes say *)
(** The 32 bytes at a position, as a number (Solidity's ABI: all values are big-endian words). *)
Definition rd (d : list N) (i : N) : N := of_be (firstn 32 (skipn (N.to_nat i) d)).
(** The bytes [d] are an event whose first four arguments are a number, two addresses and a byte
    string: the byte string is where the fourth word points, preceded by its length. *)
Definition abi_event (d : list N) (id src dst : N) (msg : list N) : Prop :=
  rd d 0 = id /\ rd d 32 = src /\ rd d 64 = dst /\
  exists off, rd d 96 = off /\ off + 32 + nlen msg <= nlen d /\ rd d off = nlen msg /\
              firstn (length msg) (skipn (N.to_nat (off + 32)) d) = msg.

Lemma rd_mid a n c i : i = nlen a -> n < 2 ^ 256 -> rd (a ++ word n ++ c) i = n.
Proof.
  intros -> Hn. unfold rd, nlen. rewrite Nat2N.id, skipn_app, skipn_all, Nat.sub_diag. cbn [app]. rewrite skipn_O.
  rewrite firstn_app, word_length, Nat.sub_diag. rewrite (firstn_all2 (word n)) by (rewrite word_length; lia).
  cbn [firstn]. rewrite app_nil_r. apply word_small, Hn.
Qed.
Lemma skip_mid a b i : i = nlen a -> skipn (N.to_nat i) (a ++ b) = b.
Proof. intros ->. unfold nlen. rewrite Nat2N.id, skipn_app, skipn_all, Nat.sub_diag. cbn [app]. apply skipn_O. Qed.

(** Well-formed claims: ids of 64 bits, addresses of 160 bits, messages shorter than 4 GiB. *)
Definition sized (id src dst : N) (msg : list N) : Prop := id <= U64MAX /\ src < 2 ^ 160 /\ dst < 2 ^ 160 /\ nlen msg < 2 ^ 32.
Lemma sized_words id src dst msg : sized id src dst msg -> id < 2 ^ 256 /\ src < 2 ^ 256 /\ dst < 2 ^ 256 /\ nlen msg < 2 ^ 256.
Proof.
  intros (H1 & H2 & H3 & H4). change U64MAX with 18446744073709551615 in H1.
  assert (E1 : 2 ^ 160 < 2 ^ 256) by (vm_compute; reflexivity). assert (E2 : 2 ^ 32 < 2 ^ 256) by (vm_compute; reflexivity).
  assert (E3 : 18446744073709551615 < 2 ^ 256) by (vm_compute; reflexivity). repeat split; lia.
Qed.

Lemma small128 : 128 < 2 ^ 256. Proof. vm_compute; reflexivity. Qed.
Lemma small160 : 160 < 2 ^ 256. Proof. vm_compute; reflexivity. Qed.

Lemma encode4_event id src dst msg : sized id src dst msg -> abi_event (encode4 id src dst msg) id src dst msg.
Proof.
  intros Hs. destruct (sized_words _ _ _ _ Hs) as (H1 & H2 & H3 & H4). unfold encode4, abi_event.
  repeat match goal with |- _ /\ _ => split end.
  - apply (rd_mid []); [reflexivity|exact H1].
  - apply (rd_mid (word id)); [symmetry; apply nlen_word|exact H2].
  - rewrite (app_assoc (word id)). apply rd_mid; [rewrite nlen_app, !nlen_word; reflexivity|exact H3].
  - exists 128. repeat match goal with |- _ /\ _ => split end.
    + rewrite (app_assoc (word src)), (app_assoc (word id)). apply rd_mid; [rewrite !nlen_app, !nlen_word; reflexivity|exact small128].
    + rewrite !nlen_app, !nlen_word. pose proof (nlen_pad msg). lia.
    + rewrite (app_assoc (word dst)), (app_assoc (word src)), (app_assoc (word id)). apply rd_mid; [rewrite !nlen_app, !nlen_word; reflexivity|exact H4].
    + rewrite (app_assoc (word 128)), (app_assoc (word dst)), (app_assoc (word src)), (app_assoc (word id)).
      rewrite skip_mid by (rewrite !nlen_app, !nlen_word; reflexivity). apply pad_firstn.
Qed.
Lemma encode5_event id src dst msg fee : sized id src dst msg -> abi_event (encode5 id src dst msg fee) id src dst msg.
Proof.
  intros Hs. destruct (sized_words _ _ _ _ Hs) as (H1 & H2 & H3 & H4). unfold encode5, abi_event.
  repeat match goal with |- _ /\ _ => split end.
  - apply (rd_mid []); [reflexivity|exact H1].
  - apply (rd_mid (word id)); [symmetry; apply nlen_word|exact H2].
  - rewrite (app_assoc (word id)). apply rd_mid; [rewrite nlen_app, !nlen_word; reflexivity|exact H3].
  - exists 160. repeat match goal with |- _ /\ _ => split end.
    + rewrite (app_assoc (word src)), (app_assoc (word id)). apply rd_mid; [rewrite !nlen_app, !nlen_word; reflexivity|exact small160].
    + rewrite !nlen_app, !nlen_word. pose proof (nlen_pad msg). lia.
    + rewrite (app_assoc (word 160)), (app_assoc (word dst)), (app_assoc (word src)), (app_assoc (word id)). apply rd_mid; [rewrite !nlen_app, !nlen_word; reflexivity|exact H4].
    + rewrite (app_assoc (word fee)), (app_assoc (word 160)), (app_assoc (word dst)), (app_assoc (word src)), (app_assoc (word id)).
      rewrite skip_mid by (rewrite !nlen_app, !nlen_word; reflexivity). apply pad_firstn.
Qed.

(** ** C104: a relayed event is registered as what it says *)
Lemma word_at_rd d i w : word_at d i = Some w <-> i + 32 <= nlen d /\ rd d i = w.
Proof.
  unfold word_at, slice, rd. destruct (N.leb_spec (i + 32) (nlen d)) as [H|H]; cbn [option_map].
  - change (N.to_nat 32) with 32%nat. split; [intros [= <-]; auto|intros [_ <-]; reflexivity].
  - split; [discriminate|lia].
Qed.
Lemma usize_at_rd d i w : usize_at d i = Some w <-> i + 32 <= nlen d /\ rd d i = w /\ w < 2 ^ 32.
Proof.
  unfold usize_at. destruct (word_at d i) as [x|] eqn:E.
  - apply word_at_rd in E. destruct E as [H1 H2]. destruct (N.ltb_spec x (2 ^ 32)) as [H|H].
    + split; [intros [= <-]; auto|intros (_ & <- & _); rewrite H2; reflexivity].
    + split; [discriminate|]. intros (_ & <- & H3). rewrite H2 in H3. lia.
  - split; [discriminate|]. intros (H1 & H2 & _). assert (word_at d i = Some w) by (apply word_at_rd; auto). congruence.
Qed.
Lemma bytes_at_rd d i m : bytes_at d i = Some m <->
  i + 32 <= nlen d /\ rd d i < 2 ^ 32 /\ rd d i + 32 + nlen m <= nlen d /\ rd d (rd d i) = nlen m /\ nlen m < 2 ^ 32 /\
  firstn (length m) (skipn (N.to_nat (rd d i + 32)) d) = m.
Proof.
  unfold bytes_at. destruct (usize_at d i) as [o|] eqn:Eo.
  - apply usize_at_rd in Eo. destruct Eo as (H1 & H2 & H3). rewrite H2. destruct (usize_at d o) as [len|] eqn:El.
    + apply usize_at_rd in El. destruct El as (H4 & H5 & H6). unfold slice. destruct (N.leb_spec (o + 32 + len) (nlen d)) as [H|H].
      * split.
        -- intros [= Em]. assert (Hlen : nlen m = len).
           { rewrite <- Em. unfold nlen in *. rewrite firstn_length, skipn_length. lia. }
           rewrite <- Hlen in *. repeat match goal with |- _ /\ _ => split end; try assumption.
           rewrite <- Em at 2. f_equal. unfold nlen. lia.
        -- intros (_ & _ & _ & E & _ & Em). rewrite H5 in E. rewrite E. f_equal. rewrite <- Em at 2. f_equal. unfold nlen. lia.
      * split; [discriminate|]. intros (_ & _ & Hle & E & _). rewrite H5 in E. lia.
    + split; [discriminate|]. intros (_ & _ & Hle & E & Hs & _). assert (usize_at d o = Some (nlen m)) by (apply usize_at_rd; split; [lia|auto]). congruence.
  - split; [discriminate|]. intros (H1 & H2 & _). assert (usize_at d i = Some (rd d i)) by (apply usize_at_rd; auto). congruence.
Qed.

(** Whatever is accepted is read off the submitted bytes: nothing is invented or altered except that
    an id above 64 bits saturates and addresses are cut to 160 bits. *)
Theorem C104_reads mxd h d id c : decode_event mxd h d = Ok (id, c) ->
  exists w s t, abi_event d w s t (cdata c) /\ id = N.min w U64MAX /\ source c = s mod 2 ^ 160 /\ destination c = t mod 2 ^ 160 /\
                tx_hash c = h /\ nlen (cdata c) <= mxd.
Proof.
  unfold decode_event. destruct (word_at d 0) as [w|] eqn:E0; [|discriminate]. cbn [of_opt rbind].
  unfold addr_at. destruct (word_at d 32) as [s|] eqn:E1; [|discriminate]. cbn [of_opt option_map rbind].
  destruct (word_at d 64) as [t|] eqn:E2; [|discriminate]. cbn [of_opt option_map rbind].
  destruct (bytes_at d 96) as [m|] eqn:E3; [|discriminate]. cbn [of_opt rbind].
  destruct (word_at d 128) as [f|] eqn:E4; [|discriminate]. cbn [of_opt rbind].
  destruct (N.leb_spec (nlen m) mxd) as [Hm|]; [|discriminate]. cbn [ensure rbind]. intros [= <- <-]. cbn [cdata source destination tx_hash].
  apply word_at_rd in E0, E1, E2. apply bytes_at_rd in E3. destruct E3 as (H1 & H2 & H3 & H4 & H5 & H6).
  exists w, s, t. split; [|unfold sat; repeat split; try assumption; lia].
  split; [apply E0|]. split; [apply E1|]. split; [apply E2|]. exists (rd d 96). auto.
Qed.
(** Event data in the layout the bridge contract logs and the notaries expect is registered exactly. *)
Lemma decode_event_abi mxd h d id src dst msg : abi_event d id src dst msg -> sized id src dst msg -> nlen msg <= mxd ->
  rd d 96 < 2 ^ 32 -> 160 <= nlen d -> decode_event mxd h d = Ok (id, EClaim h src dst msg).
Proof.
  intros (H1 & H2 & H3 & off & H4 & H5 & H6 & H7) (S1 & S2 & S3 & S4) Hm Hoff Hd. unfold decode_event.
  rewrite (proj2 (word_at_rd d 0 id)) by (split; [lia|exact H1]). cbn [of_opt rbind]. unfold addr_at.
  rewrite (proj2 (word_at_rd d 32 src)) by (split; [lia|exact H2]). cbn [of_opt option_map rbind].
  rewrite (proj2 (word_at_rd d 64 dst)) by (split; [lia|exact H3]). cbn [of_opt option_map rbind].
  rewrite (proj2 (bytes_at_rd d 96 msg)) by (subst off; repeat split; (assumption || lia)). cbn [of_opt rbind].
  rewrite (proj2 (word_at_rd d 128 (rd d 128))) by (split; [lia|reflexivity]). cbn [of_opt rbind].
  rewrite (proj2 (N.leb_le _ _)) by exact Hm. cbn [ensure rbind]. rewrite !N.mod_small by assumption. unfold sat. rewrite N.min_l by exact S1. reflexivity.
Qed.
Theorem C104_logged mxd h id src dst msg : sized id src dst msg -> nlen msg <= mxd ->
  decode_event mxd h (encode4 id src dst msg) = Ok (id, EClaim h src dst msg).
Proof.
  intros Hs Hm.
  assert (E96 : rd (encode4 id src dst msg) 96 = 128).
  { unfold encode4. rewrite (app_assoc (word src)), (app_assoc (word id)). apply rd_mid; [rewrite !nlen_app, !nlen_word; reflexivity|exact small128]. }
  apply decode_event_abi; [apply encode4_event, Hs|exact Hs|exact Hm|rewrite E96; reflexivity|].
  unfold encode4. rewrite !nlen_app, !nlen_word. lia.
Qed.
(** So is event data in the five-argument layout that the pallet documents. *)
Theorem C104_documented mxd h id src dst msg fee : sized id src dst msg -> nlen msg <= mxd ->
  decode_event mxd h (encode5 id src dst msg fee) = Ok (id, EClaim h src dst msg).
Proof.
  intros Hs Hm.
  assert (E96 : rd (encode5 id src dst msg fee) 96 = 160).
  { unfold encode5. rewrite (app_assoc (word src)), (app_assoc (word id)). apply rd_mid; [rewrite !nlen_app, !nlen_word; reflexivity|exact small160]. }
  apply decode_event_abi; [apply encode5_event, Hs|exact Hs|exact Hm|rewrite E96; reflexivity|].
  unfold encode5. rewrite !nlen_app, !nlen_word. lia.
Qed.
(** A message above the limit is refused, not cut. *)
Theorem C104_too_long mxd h d id src dst msg : abi_event d id src dst msg -> mxd < nlen msg -> is_ok (decode_event mxd h d) = false.
Proof.
  intros (_ & _ & _ & off & H4 & _ & H6 & _) Hm. destruct (decode_event mxd h d) as [[i c]|] eqn:E; [exfalso|reflexivity].
  apply C104_reads in E. destruct E as (w & s & t & (_ & _ & _ & off' & H4' & _ & H6' & _) & _ & _ & _ & _ & Hle).
  rewrite H4 in H4'. subst off'. rewrite H6 in H6'. lia.
Qed.
(** Two logged events with the same bytes are the same event. *)
Theorem C104_one_reading d id1 s1 t1 m1 id2 s2 t2 m2 :
  abi_event d id1 s1 t1 m1 -> abi_event d id2 s2 t2 m2 -> id1 = id2 /\ s1 = s2 /\ t1 = t2 /\ m1 = m2.
Proof.
  intros (A1 & A2 & A3 & o1 & A4 & A5 & A6 & A7) (B1 & B2 & B3 & o2 & B4 & B5 & B6 & B7).
  subst o1 o2. repeat match goal with |- _ /\ _ => split end; try congruence.
  assert (El : length m1 = length m2) by (rewrite A6 in B6; unfold nlen in B6; lia). rewrite <- A7, <- B7, El. reflexivity.
Qed.
Example C104_example : decode_event 3200 77 (encode5 9 1000 2000 [1; 2; 3] 5) = Ok (9, EClaim 77 1000 2000 [1; 2; 3]) /\
  decode_event 3200 77 (encode4 9 1000 2000 [1; 2; 3]) = Ok (9, EClaim 77 1000 2000 [1; 2; 3]) /\
  is_ok (decode_event 2 77 (encode4 9 1000 2000 [1; 2; 3])) = false /\ is_ok (decode_event 3200 77 (firstn 100 (encode4 9 1000 2000 []))) = false.
Proof. vm_compute. repeat split. Qed.

(** ** C105: a notary votes Valid only for an event the bridge contract emitted *)
(** On the node's chain the transaction succeeded and the bridge contract logged exactly this event
    in it, at least [conf] blocks below the head. *)
Definition emitted (contract conf : N) (nd : node) (txh id src dst : N) (msg : list N) : Prop :=
  exists r l b, get_receipt nd txh = Some (Some r) /\ (exists st, rstatus r = Some st /\ st <> 0) /\
    In l (rlogs r) /\ laddr l = contract /\ ltx l = Some txh /\ In SELECTOR (ltopics l) /\
    abi_event (ldata l) id src dst msg /\
    get_block nd None = Some (Some b) /\ rblock r + conf <= default 0 (bnum b).

Lemma matching_spec txh l : matching txh l = true <-> ltx l = Some txh /\ In SELECTOR (ltopics l).
Proof.
  unfold matching. rewrite andb_true_iff, bool_decide_eq_true, existsb_exists. split; intros [H1 H2]; (split; [exact H1|]).
  - destruct H2 as (x & Hx & E). apply N.eqb_eq in E. subst x. exact Hx.
  - exists SELECTOR. split; [exact H2|apply N.eqb_refl].
Qed.
Definition claim_sized (id : N) (c : eclaim) : Prop := sized id (source c) (destination c) (cdata c).

Theorem C105_valid_means_emitted contract conf nd id c : claim_sized id c -> 0 < conf ->
  try_event contract conf nd id c = Valid ->
  emitted contract conf nd (tx_hash c) id (source c) (destination c) (cdata c).
Proof.
  intros Hs Hconf. unfold try_event. destruct (get_receipt nd (tx_hash c)) as [[r|]|] eqn:Er; try discriminate.
  destruct (N.eqb_spec (default 0 (rstatus r)) 0) as [|Hst]; [discriminate|].
  case_bool_decide as Hto; [|discriminate]. cbn [negb].
  destruct (List.find (matching (tx_hash c)) (rlogs r)) as [l|] eqn:El; [|discriminate].
  case_bool_decide as Hd; [|discriminate]. cbn [negb].
  destruct (N.eqb_spec (laddr l) contract) as [Ha|]; [|discriminate]. cbn [negb].
  destruct (get_block nd None) as [[b|]|] eqn:Eb; try discriminate.
  destruct (N.ltb_spec (default 0 (bnum b) - rblock r) conf) as [|Hc]; [discriminate|]. intros _.
  apply List.find_some in El. destruct El as [Hin Hm]. apply matching_spec in Hm. destruct Hm as [Hm1 Hm2].
  exists r, l, b. split; [exact Er|]. split; [destruct (rstatus r) as [st|]; [exists st; auto|contradiction]|].
  repeat match goal with |- _ /\ _ => split end; try assumption; [rewrite Hd; apply encode4_event, Hs|lia].
Qed.
(** With no confirmations required the rest still holds, and the transaction was sent to the claimed source. *)
Theorem C105_sent_to_source contract conf nd id c : try_event contract conf nd id c = Valid ->
  exists r, get_receipt nd (tx_hash c) = Some (Some r) /\ rto r = Some (source c).
Proof.
  unfold try_event. destruct (get_receipt nd (tx_hash c)) as [[r|]|] eqn:Er; try discriminate.
  destruct (N.eqb_spec (default 0 (rstatus r)) 0) as [|Hst]; [discriminate|].
  case_bool_decide as Hto; [|discriminate]. intros _. exists r. auto.
Qed.
(** One transaction supports at most one claim: a node that votes Valid for two claims on the same
    transaction has the same claim before it twice. *)
Theorem C105_one_claim_per_transaction contract conf nd id1 c1 id2 c2 :
  claim_sized id1 c1 -> claim_sized id2 c2 -> tx_hash c1 = tx_hash c2 ->
  try_event contract conf nd id1 c1 = Valid -> try_event contract conf nd id2 c2 = Valid -> id1 = id2 /\ c1 = c2.
Proof.
  intros S1 S2 Eh. unfold try_event. rewrite Eh. destruct (get_receipt nd (tx_hash c2)) as [[r|]|]; try discriminate.
  destruct (_ =? 0); [discriminate|]. case_bool_decide; [|discriminate]. cbn [negb].
  destruct (List.find (matching (tx_hash c2)) (rlogs r)) as [l|]; [|discriminate].
  case_bool_decide as H1; [|discriminate]. intros _. case_bool_decide; [|discriminate]. cbn [negb].
  case_bool_decide as H2; [|discriminate]. intros _.
  pose proof (encode4_event _ _ _ _ S1) as E1. pose proof (encode4_event _ _ _ _ S2) as E2. rewrite <- H1 in E1. rewrite <- H2 in E2.
  destruct (C104_one_reading _ _ _ _ _ _ _ _ _ E1 E2) as (-> & E3 & E4 & E5). split; [reflexivity|].
  destruct c1, c2. cbn in *. subst. reflexivity.
Qed.

(** A node for examples: one transaction, one event of the bridge contract 500 sent to contract 1000. *)
Definition ex_log (data : list N) : elogrec := ELog 500 [SELECTOR] data (Some 77).
Definition ex_node (logs : list elogrec) (to head : N) : node :=
  Node (fun h => if h =? 77 then Some (Some (Receipt 100 logs (Some 1) (Some to))) else Some None)
       (fun n => match n with None => Some (Some (EBlock (Some head) 9000)) | Some n => Some (Some (EBlock (Some n) (n * 12))) end)
       (fun t i n => Some (repeat (n mod 256) 32)).
Definition ex_claim : eclaim := EClaim 77 1000 2000 [1; 2; 3].
Example C105_example :
  try_event 500 3 (ex_node [ex_log (encode4 9 1000 2000 [1; 2; 3])] 1000 103) 9 ex_claim = Valid /\
  try_event 500 3 (ex_node [ex_log (encode4 9 1000 2000 [1; 2; 4])] 1000 103) 9 ex_claim = UnexpectedData /\
  try_event 500 3 (ex_node [ex_log (encode4 9 1000 2000 [1; 2; 3])] 1000 102) 9 ex_claim = NotEnoughConfirmations /\
  claim_sized 9 ex_claim.
Proof. repeat match goal with |- _ /\ _ => split end; try (vm_compute; reflexivity). unfold claim_sized, sized. cbn [source destination cdata ex_claim]. split; [vm_compute; discriminate|]. repeat split; vm_compute; reflexivity. Qed.

(** ** C106: genuine events are voted Valid *)
(** True when the event is the first bridge event of its transaction and the transaction was sent
    straight to the claimed source.  Missing: the other transactions, refuted below. *)
Theorem C106_genuine_partial contract conf nd id c r l older newer b st :
  get_receipt nd (tx_hash c) = Some (Some r) -> rstatus r = Some st -> st <> 0 -> rto r = Some (source c) ->
  rlogs r = older ++ l :: newer -> (forall l', In l' older -> ltx l' <> Some (tx_hash c) \/ ~ In SELECTOR (ltopics l')) ->
  ltx l = Some (tx_hash c) -> In SELECTOR (ltopics l) -> laddr l = contract ->
  ldata l = encode4 id (source c) (destination c) (cdata c) ->
  get_block nd None = Some (Some b) -> rblock r + conf <= default 0 (bnum b) ->
  try_event contract conf nd id c = Valid.
Proof.
  intros Er Est Hst Hto El Hold Hl1 Hl2 Ha Hd Eb Hc. unfold try_event. rewrite Er, Est. change (default 0 (Some st)) with st.
  rewrite (proj2 (N.eqb_neq st 0)) by exact Hst. rewrite bool_decide_eq_true_2 by exact Hto. cbn [negb].
  assert (Ef : List.find (matching (tx_hash c)) (rlogs r) = Some l).
  { rewrite El. clear El. induction older as [|x older IH]; cbn [List.find app].
    - rewrite (proj2 (matching_spec _ _)) by auto. reflexivity.
    - destruct (matching (tx_hash c) x) eqn:Ex.
      + apply matching_spec in Ex. destruct (Hold x (or_introl eq_refl)) as [H|H]; tauto.
      + apply IH. intros l' Hin. apply Hold. right. exact Hin. }
  rewrite Ef. rewrite bool_decide_eq_true_2 by exact Hd. cbn [negb]. rewrite (proj2 (N.eqb_eq _ _)) by exact Ha. cbn [negb].
  rewrite Eb. rewrite (proj2 (N.ltb_ge _ _)) by lia. reflexivity.
Qed.
Lemma C106_genuine_example : let c := ex_claim in
  exists r l older newer b st, let nd := ex_node [ELog 42 [7] [1] (Some 77); ex_log (encode4 9 1000 2000 [1; 2; 3])] 1000 103 in
  get_receipt nd (tx_hash c) = Some (Some r) /\ rstatus r = Some st /\ st <> 0 /\ rto r = Some (source c) /\
  rlogs r = older ++ l :: newer /\ ldata l = encode4 9 (source c) (destination c) (cdata c) /\ get_block nd None = Some (Some b) /\
  rblock r + 3 <= default 0 (bnum b) /\ try_event 500 3 nd 9 c = Valid.
Proof.
  cbv zeta. exists (Receipt 100 [ELog 42 [7] [1] (Some 77); ex_log (encode4 9 1000 2000 [1; 2; 3])] (Some 1) (Some 1000)),
    (ex_log (encode4 9 1000 2000 [1; 2; 3])), [ELog 42 [7] [1] (Some 77)], [], (EBlock (Some 103) 9000), 1.
  repeat match goal with |- _ /\ _ => split end; try reflexivity; try discriminate; vm_compute; reflexivity || discriminate.
Qed.
Local Ltac emit r l b := exists r, l, b; split; [reflexivity|]; split; [exists 1; split; [reflexivity|discriminate]|];
  split; [cbn; tauto|]; split; [reflexivity|]; split; [reflexivity|]; split; [cbn; tauto|];
  split; [|split; [reflexivity|vm_compute; discriminate]].
Lemma ex_sized id src dst msg : id <= U64MAX -> src < 2 ^ 160 -> dst < 2 ^ 160 -> nlen msg < 2 ^ 32 -> sized id src dst msg.
Proof. unfold sized. auto. Qed.
(** A transaction that emits two bridge events: the second one is voted down. *)
Theorem C106_second_event_refuted : exists contract conf nd id c,
  emitted contract conf nd (tx_hash c) id (source c) (destination c) (cdata c) /\
  (exists r, get_receipt nd (tx_hash c) = Some (Some r) /\ rto r = Some (source c)) /\
  try_event contract conf nd id c = UnexpectedData.
Proof.
  pose (l1 := ex_log (encode4 8 1000 2000 [1])). pose (l2 := ex_log (encode4 9 1000 2000 [1; 2; 3])).
  exists 500, 3, (ex_node [l1; l2] 1000 103), 9, ex_claim. split; [|split; [eexists; split; reflexivity|vm_compute; reflexivity]].
  emit (Receipt 100 [l1; l2] (Some 1) (Some 1000)) l2 (EBlock (Some 103) 9000).
  apply encode4_event. apply ex_sized; vm_compute; reflexivity || discriminate.
Qed.
(** A user whose transaction goes through another contract (a wallet, a router). *)
Theorem C106_through_a_wallet_refuted : exists contract conf nd id c,
  emitted contract conf nd (tx_hash c) id (source c) (destination c) (cdata c) /\ try_event contract conf nd id c = UnexpectedSource.
Proof.
  pose (l2 := ex_log (encode4 9 1000 2000 [1; 2; 3])).
  exists 500, 3, (ex_node [l2] 3000 103), 9, ex_claim. split; [|vm_compute; reflexivity].
  emit (Receipt 100 [l2] (Some 1) (Some 3000)) l2 (EBlock (Some 103) 9000).
  apply encode4_event. apply ex_sized; vm_compute; reflexivity || discriminate.
Qed.
(** An event in the five-argument layout that [submit_event] documents and accepts. *)
Theorem C106_documented_layout_refuted : exists contract conf nd id c d h,
  decode_event 3200 h d = Ok (id, c) /\
  emitted contract conf nd (tx_hash c) id (source c) (destination c) (cdata c) /\
  (exists r l, get_receipt nd (tx_hash c) = Some (Some r) /\ rlogs r = [l] /\ ldata l = d /\ rto r = Some (source c)) /\
  try_event contract conf nd id c = UnexpectedData.
Proof.
  pose (l2 := ex_log (encode5 9 1000 2000 [1; 2; 3] 5)).
  exists 500, 3, (ex_node [l2] 1000 103), 9, ex_claim, (encode5 9 1000 2000 [1; 2; 3] 5), 77.
  split; [vm_compute; reflexivity|]. split; [|split; [do 2 eexists; repeat split|vm_compute; reflexivity]].
  emit (Receipt 100 [l2] (Some 1) (Some 1000)) l2 (EBlock (Some 103) 9000).
  apply encode5_event. apply ex_sized; vm_compute; reflexivity || discriminate.
Qed.
(** No event in that layout is ever voted Valid. *)
Theorem C106_documented_layout_never contract conf nd id src dst msg fee h r l :
  sized id src dst msg -> get_receipt nd h = Some (Some r) -> List.find (matching h) (rlogs r) = Some l ->
  ldata l = encode5 id src dst msg fee -> forall i s t m, sized i s t m -> try_event contract conf nd i (EClaim h s t m) <> Valid.
Proof.
  intros Hs Er El Ed i s t m Hs2. unfold try_event. cbn [tx_hash source destination cdata]. rewrite Er.
  destruct (_ =? 0); [discriminate|]. case_bool_decide; [|discriminate]. cbn [negb]. rewrite El.
  case_bool_decide as H2; [|discriminate]. exfalso. rewrite Ed in H2.
  assert (E1 : rd (encode5 id src dst msg fee) 96 = 160).
  { unfold encode5. rewrite (app_assoc (word src)), (app_assoc (word id)). apply rd_mid; [rewrite !nlen_app, !nlen_word; reflexivity|exact small160]. }
  assert (E2 : rd (encode4 i s t m) 96 = 128).
  { unfold encode4. rewrite (app_assoc (word s)), (app_assoc (word i)). apply rd_mid; [rewrite !nlen_app, !nlen_word; reflexivity|exact small128]. }
  rewrite H2, E2 in E1. discriminate.
Qed.

(** ** C108: a checked eth_call answers for an acceptable block *)
Theorem C108_answer now nd q d b ts : try_call now nd q = COk d b ts ->
  exists latest n, get_block nd None = Some (Some latest) /\ bnum latest = Some n /\ ctime q <= btime latest /\
    b <= n <= b + clook q + (now - cchecked q) / 12 /\
    call_eth nd (ctarget q) (cinput q) b = Some d /\ length d = 32%nat /\
    (b = n /\ ts = btime latest \/
     b = ctry q /\ exists blk, get_block nd (Some b) = Some (Some blk) /\ ts = N.min (btime blk) U64MAX) /\
    (n <= ctry q + clook q + (now - cchecked q) / 12 -> ctry q < n -> b = ctry q).
Proof.
  unfold try_call. destruct (get_block nd None) as [[latest|]|]; try discriminate.
  assert (Hsat : forall x, sat U64MAX x = N.min x U64MAX) by reflexivity. rewrite !Hsat.
  destruct (N.eqb_spec (N.min (btime latest) U64MAX) U64MAX) as [|Ht1]; [discriminate|].
  destruct (N.ltb_spec (N.min (btime latest) U64MAX) (ctime q)) as [|Ht2]; [discriminate|].
  assert (Hmin : N.min (btime latest) U64MAX = btime latest) by lia. rewrite Hmin in *.
  destruct (bnum latest) as [n|] eqn:En; [|discriminate].
  destruct ((n =? 0) || (n =? U64MAX)); [discriminate|]. remember ((now - cchecked q) / 12) as ex eqn:Eex. clear Eex.
  destruct (N.leb_spec (n - clook q - ex) (ctry q)) as [Hw1|Hw1]; destruct (N.ltb_spec (ctry q) n) as [Hw2|Hw2]; cbn [andb].
  - destruct (get_block nd (Some (ctry q))) as [[bk|]|] eqn:Ebk; try discriminate.
    destruct (call_eth nd (ctarget q) (cinput q) (ctry q)) as [[|x dd]|] eqn:Ec; try discriminate.
    destruct (Nat.eqb_spec (length (x :: dd)) 32) as [Hlen|]; [|discriminate]. intros [= <- <- <-].
    exists latest, n. repeat match goal with |- _ /\ _ => split end; try reflexivity; try assumption; try lia.
    right. split; [reflexivity|]. exists bk. auto.
  - destruct (call_eth nd (ctarget q) (cinput q) n) as [[|x dd]|] eqn:Ec; try discriminate.
    destruct (Nat.eqb_spec (length (x :: dd)) 32) as [Hlen|]; [|discriminate]. intros [= <- <- <-].
    exists latest, n. repeat match goal with |- _ /\ _ => split end; try reflexivity; try assumption; try lia; left; auto.
  - destruct (call_eth nd (ctarget q) (cinput q) n) as [[|x dd]|] eqn:Ec; try discriminate.
    destruct (Nat.eqb_spec (length (x :: dd)) 32) as [Hlen|]; [|discriminate]. intros [= <- <- <-].
    exists latest, n. repeat match goal with |- _ /\ _ => split end; try reflexivity; try assumption; try lia; left; auto.
  - destruct (call_eth nd (ctarget q) (cinput q) n) as [[|x dd]|] eqn:Ec; try discriminate.
    destruct (Nat.eqb_spec (length (x :: dd)) 32) as [Hlen|]; [|discriminate]. intros [= <- <- <-].
    exists latest, n. repeat match goal with |- _ /\ _ => split end; try reflexivity; try assumption; try lia; left; auto.
Qed.
(** A node in working order always answers: it knows the head and the hinted block, its clock is not
    behind the request, and the call returns one word. *)
Theorem C108_answers now nd q latest n : get_block nd None = Some (Some latest) -> bnum latest = Some n -> 0 < n -> n < U64MAX ->
  ctime q <= btime latest -> btime latest < U64MAX ->
  (forall b, exists blk, get_block nd (Some b) = Some (Some blk)) ->
  (forall b, exists d, call_eth nd (ctarget q) (cinput q) b = Some d /\ length d = 32%nat) ->
  exists d b ts, try_call now nd q = COk d b ts.
Proof.
  intros El En H0 Hn Ht1 Ht2 Hb Hc. unfold try_call. rewrite El.
  assert (Hs : sat U64MAX (btime latest) = btime latest) by (unfold sat; lia). rewrite Hs.
  rewrite (proj2 (N.eqb_neq _ _)) by lia. rewrite (proj2 (N.ltb_ge _ _)) by lia. rewrite En.
  rewrite (proj2 (N.eqb_neq n 0)), (proj2 (N.eqb_neq n U64MAX)) by lia. cbn [orb].
  assert (Hfin : forall tn ts, exists d b ts', match call_eth nd (ctarget q) (cinput q) tn with
     | None => CProvider | Some [] => CEmpty | Some d => if Nat.eqb (length d) 32 then COk d tn ts else CTooLong end = COk d b ts').
  { intros tn ts. destruct (Hc tn) as (d & -> & Hd). destruct d as [|x d]; [discriminate|]. rewrite Hd. do 3 eexists. reflexivity. }
  destruct ((_ <=? ctry q) && (ctry q <? n)); [|apply Hfin]. destruct (Hb (ctry q)) as (bk & ->). apply Hfin.
Qed.
Example C108_example : let nd := ex_node [] 0 103 in
  try_call 1000 nd (CReq [1] 5 900 5 100 990) = COk (repeat 100 32) 100 1200 /\      (* the hinted block *)
  try_call 1000 nd (CReq [1] 5 900 2 100 990) = COk (repeat 103 32) 103 9000 /\      (* too old: the head *)
  try_call 1002 nd (CReq [1] 5 900 2 100 990) = COk (repeat 100 32) 100 1200 /\      (* 12 s of delay: one block more *)
  try_call 1000 nd (CReq [1] 5 9001 5 100 990) = CBadTime.
Proof. vm_compute. repeat split. Qed.
(** Return data of any other length is reported as too long, even when it is too short. *)
Theorem C108_short_data_refuted : exists now nd q d, call_eth nd (ctarget q) (cinput q) (ctry q) = Some d /\ (length d < 32)%nat /\ try_call now nd q = CTooLong.
Proof.
  exists 1000, (Node (fun _ => None) (get_block (ex_node [] 0 103)) (fun _ _ _ => Some [1; 2; 3])), (CReq [1] 5 900 5 100 990), [1; 2; 3].
  split; [reflexivity|]. split; [cbn; lia|vm_compute; reflexivity].
Qed.

(** ** C107: the notaries' verdict on a challenged claim *)
Section verdicts.
  Variables (mx mxm mxc : nat) (thr rb cb : N) (ks : list N).
  Hypothesis Hmx : (1 <= mx)%nat.
  (** The notary keys that may vote anything, and whether a claim (by its number) is true. *)
  Variable bad : list N.
  Variable genuine : N -> N -> Prop.
  Local Notation reach ops := (ereach mx mxm mxc thr rb cb ks ops).
  Local Notation step := (estep mx mxm mxc thr rb cb).
  (** Every other notary says Valid only of a pending claim that is true. *)
  Definition honest_yes (s : ev) (o : eop) : Prop :=
    match o with
    | ENotarize _ idx id true => forall k cl, nth_error (keys s) idx = Some k -> ~ In k bad -> pend (co s) !! id = Some cl -> genuine id cl
    | _ => True
    end.
  (** Every other notary votes Valid on claim [id]. *)
  Definition honest_no (id : N) (s : ev) (o : eop) : Prop :=
    match o with
    | ENotarize _ idx i false => i = id -> forall k, nth_error (keys s) idx = Some k -> In k bad
    | _ => True
    end.
  Definition YES (s : ev) : Prop := forall id k cl, votes s !! (id, k) = Some true -> ~ In k bad -> pend (co s) !! id = Some cl -> genuine id cl.
  Definition NO (id : N) (s : ev) : Prop := forall k, votes s !! (id, k) = Some false -> In k bad.

  (** What one call does to the votes: nothing, or one vote is added, possibly followed by the
      removal of all votes on that claim; claims with votes keep their content. *)
  Lemma step_votes s o s' : EI rb s -> eexec mx mxm mxc thr rb cb s o = Ok s' ->
    (votes s' = votes s /\ forall id cl, is_Some (pend (co s) !! id) -> stat (co s) !! id = Some Challenged -> pend (co s') !! id = Some cl -> pend (co s) !! id = Some cl) \/
    exists cl idx i k w, o = ENotarize cl idx i w /\ nth_error (keys s) idx = Some k /\
      (forall j, j <> i -> pend (co s') !! j = pend (co s) !! j) /\
      (votes s' = <[(i, k) := w]> (votes s) /\ pend (co s') = pend (co s) \/ votes s' = cleared_votes (<[(i, k) := w]> (votes s)) i).
  Proof.
    intros HI Hex. destruct o; cbn [eexec] in Hex.
    - left. destruct (tick_core mx (co s) (period s)) as [c|] eqn:Et; [|discriminate]. injection Hex as <-. cbn [with_core co votes]. split; [reflexivity|].
      intros id cl _ Hc Hp. destruct (tick_frame _ _ _ _ id Et) as [_ Hf]. rewrite <- (Hf Hc). exact Hp.
    - left. unfold submit, submit_core in Hex. case_bool_decide; [|discriminate]. cbn [ensure rbind] in Hex.
      destruct (fresh_id (co s) id); [|discriminate]. cbn [ensure rbind] in Hex.
      destruct (do_submit mxm (co s) (period s) id claim) as [c|] eqn:Ed; [|discriminate]. injection Hex as <-. cbn [with_core co votes]. split; [reflexivity|].
      destruct (do_submit_fields _ _ _ _ _ _ Ed) as (Hn & -> & _). intros i cl [x Hx] _. rewrite lookup_insert_ne by congruence. auto.
    - left. unfold submit_missing, submit_missing_core in Hex. case_bool_decide; [|discriminate]. cbn [ensure rbind] in Hex.
      destruct (memb id (missed (co s))); [|discriminate]. cbn [ensure rbind] in Hex.
      destruct (do_submit mxm (co s) (period s) id claim) as [c|] eqn:Ed; [|discriminate]. injection Hex as <-. cbn [with_core co votes]. split; [reflexivity|].
      destruct (do_submit_fields _ _ _ _ _ _ Ed) as (Hn & -> & _). intros i cl [x Hx] _. rewrite lookup_insert_ne by congruence. auto.
    - left. unfold challenge in Hex. destruct (pend (co s) !! id); [|discriminate]. cbn [ensure rbind] in Hex.
      case_bool_decide; [|discriminate]. cbn [ensure rbind] in Hex. destruct (place s who cb); [|discriminate]. cbn [rbind] in Hex.
      destruct (Nat.ltb _ mxc); [|discriminate]. injection Hex as <-. cbn. auto.
    - right. unfold notarize in Hex. destruct (nth_error (keys s) idx) as [k|] eqn:Ek; [|discriminate]. cbn [of_opt rbind] in Hex.
      destruct (votes s !! (id, k)); [discriminate|]. cbn [ensure rbind] in Hex. exists cleared, idx, id, k, valid. split; [reflexivity|]. split; [exact Ek|].
      unfold handle_event_vote in Hex. case_bool_decide as Hc; [|discriminate]. cbn [ensure rbind] in Hex.
      destruct (_ <? pct _ _).
      + unfold handle_invalid in Hex. destruct cleared; [|discriminate]. cbn [ensure rbind] in Hex. cbn [co pend noted chal relayer votes] in Hex.
        destruct (pend (co s) !! id); [|discriminate]. cbn in Hex.
        destruct (chal s !! id) as [[who b]|]; [|injection Hex as <-; cbn; split; [intros j Hj; apply lookup_delete_ne; congruence|right; reflexivity]].
        destruct (pay_from_hold _ who who b) as [s2|]; [|discriminate]. cbn [rbind] in Hex.
        destruct (relayer s) as [r|]; [|injection Hex as <-; cbn; split; [intros j Hj; apply lookup_delete_ne; congruence|right; reflexivity]].
        destruct (pay_from_hold s2 r who _) as [s3|]; [|discriminate]. injection Hex as <-. cbn. split; [intros j Hj; apply lookup_delete_ne; congruence|right; reflexivity].
      + destruct (_ <=? pct _ _); [|injection Hex as <-; cbn; split; [reflexivity|left; auto]].
        unfold handle_valid in Hex. destruct cleared; [|discriminate]. cbn [ensure rbind] in Hex. cbn [co pend noted chal relayer votes] in Hex.
        destruct (pend (co s) !! id); [|discriminate]. cbn in Hex.
        destruct (relayer s) as [r|]; [|injection Hex as <-; cbn; split; [reflexivity|right; reflexivity]].
        destruct (chal s !! id) as [[who b]|]; [|injection Hex as <-; cbn; split; [reflexivity|right; reflexivity]].
        destruct (pay_from_hold _ who r b) as [s2|]; [|discriminate]. injection Hex as <-. cbn. split; [reflexivity|right; reflexivity].
    - left. injection Hex as <-. cbn. auto.
    - left. destruct (_ <=? _); [|discriminate]. injection Hex as <-. cbn. auto.
    - left. unfold set_relayer in Hex. destruct (_ <=? _); [|discriminate]. injection Hex as <-. cbn. auto.
    - left. unfold deposit_bond in Hex. destruct (_ =? _); [|discriminate]. cbn [ensure rbind] in Hex.
      destruct (place s a rb); [|discriminate]. injection Hex as <-. cbn. auto.
    - left. unfold withdraw_bond in Hex. destruct (negb _); [|discriminate]. cbn [ensure rbind] in Hex.
      destruct (_ <? _); [|discriminate]. cbn [ensure rbind] in Hex. destruct (pay_from_hold _ _ _ _); [|discriminate]. injection Hex as <-. cbn. auto.
    - left. injection Hex as <-. cbn. auto.
    - left. injection Hex as <-. cbn. auto.
    - left. injection Hex as <-. cbn. auto.
  Qed.

  Lemma step_YES s o s' : EI rb s -> YES s -> honest_yes s o -> eexec mx mxm mxc thr rb cb s o = Ok s' -> YES s'.
  Proof.
    intros HI HY Ho Hex id k cl Hv Hk Hp. destruct (step_votes s o s' HI Hex) as [[Ev Hpend]|(c & idx & i & k' & w & -> & Ek & Hj & Hcase)].
    - rewrite Ev in Hv. destruct (ei_votes _ _ HI id k true Hv) as [Hc _]. apply (HY id k cl Hv Hk). apply Hpend; [apply (ei_pend _ _ HI id Hc)|exact Hc|exact Hp].
    - destruct Hcase as [[Ev Ep]|Ev]; rewrite Ev in Hv.
      + rewrite Ep in Hp. destruct (decide ((i, k') = (id, k))) as [E|Hne].
        * injection E as -> ->. rewrite lookup_insert in Hv. injection Hv as ->. cbn [honest_yes] in Ho. exact (Ho k cl Ek Hk Hp).
        * rewrite lookup_insert_ne in Hv by exact Hne. exact (HY id k cl Hv Hk Hp).
      + rewrite cleared_lookup in Hv. destruct (N.eqb_spec id i) as [->|Hne]; [discriminate|].
        rewrite lookup_insert_ne in Hv by congruence. rewrite (Hj id Hne) in Hp. exact (HY id k cl Hv Hk Hp).
  Qed.
  Lemma step_NO id s o s' : EI rb s -> NO id s -> honest_no id s o -> eexec mx mxm mxc thr rb cb s o = Ok s' -> NO id s'.
  Proof.
    intros HI HN Ho Hex k Hv. destruct (step_votes s o s' HI Hex) as [[Ev _]|(c & idx & i & k' & w & -> & Ek & Hj & Hcase)].
    - rewrite Ev in Hv. exact (HN k Hv).
    - assert (Hins : <[(i, k') := w]> (votes s) !! (id, k) = Some false -> In k bad).
      { clear Hv. intros Hv. destruct (decide ((i, k') = (id, k))) as [E|Hne].
        - injection E as -> ->. rewrite lookup_insert in Hv. injection Hv as ->. cbn [honest_no] in Ho. exact (Ho eq_refl k Ek).
        - rewrite lookup_insert_ne in Hv by exact Hne. exact (HN k Hv). }
      destruct Hcase as [[Ev _]|Ev]; rewrite Ev in Hv; [exact (Hins Hv)|].
      rewrite cleared_lookup in Hv. destruct (id =? i); [discriminate|exact (Hins Hv)].
  Qed.
  Lemma reach_YES ops : along step honest_yes ops (einit ks) -> YES (reach ops).
  Proof.
    intros Ha. assert (H : EI rb (reach ops) /\ YES (reach ops)); [|apply H]. unfold ereach.
    refine (run_along step honest_yes (fun s => EI rb s /\ YES s) _ ops (einit ks) Ha _).
    - intros s o Ho [HI HY]. unfold estep. destruct (eexec mx mxm mxc thr rb cb s o) as [s'|] eqn:E; cbn [commit]; [|auto].
      split; [exact (eexec_EI mx mxm mxc thr rb cb s o s' Hmx HI E)|exact (step_YES s o s' HI HY Ho E)].
    - split; [apply (ereach_EI mx mxm mxc thr rb cb ks [] Hmx)|]. intros id k cl Hv. cbn in Hv. rewrite lookup_empty in Hv. discriminate.
  Qed.
  Lemma reach_NO id ops : along step (honest_no id) ops (einit ks) -> NO id (reach ops).
  Proof.
    intros Ha. assert (H : EI rb (reach ops) /\ NO id (reach ops)); [|apply H]. unfold ereach.
    refine (run_along step (honest_no id) (fun s => EI rb s /\ NO id s) _ ops (einit ks) Ha _).
    - intros s o Ho [HI HN]. unfold estep. destruct (eexec mx mxm mxc thr rb cb s o) as [s'|] eqn:E; cbn [commit]; [|auto].
      split; [exact (eexec_EI mx mxm mxc thr rb cb s o s' Hmx HI E)|exact (step_NO id s o s' HI HN Ho E)].
    - split; [apply (ereach_EI mx mxm mxc thr rb cb ks [] Hmx)|]. intros k Hv. cbn in Hv. rewrite lookup_empty in Hv. discriminate.
  Qed.

  (** While fewer than the threshold share of the validators' keys are bad, a challenged claim is
      found valid only if it is true. *)
  Theorem C107_no_false_claim ops o s' id rest cl : thr <= 100 ->
    along step honest_yes (ops ++ [o]) (einit ks) ->
    eexec mx mxm mxc thr rb cb (reach ops) o = Ok s' -> clog (co s') = LVerdict id true :: rest -> clog (co s') <> clog (co (reach ops)) ->
    100 * N.of_nat (length bad) < thr * nvals (reach ops) ->
    pend (co (reach ops)) !! id = Some cl -> genuine id cl.
  Proof.
    intros Ht Ha Hex El Hne Hbad Hp. apply along_app in Ha. destruct Ha as [Ha [Ho _]]. fold (reach ops) in Ho.
    pose proof (ereach_EI mx mxm mxc thr rb cb ks ops Hmx) as HI. pose proof (reach_YES ops Ha) as HY.
    destruct (verdict_step mx mxm mxc thr rb cb _ _ _ _ _ _ Ht Hex El Hne) as (c & idx & k & w & -> & Ek & Hv).
    destruct (vote_verdict thr _ c id k w s' id true rest Ht Hv El Hne) as (_ & _ & Hshare). cbv zeta in Hshare.
    set (V := votes_on (<[(id, k):=w]> (votes (reach ops))) id true) in *.
    assert (Hnd : NoDup V) by apply votes_on_nodup.
    destruct (forallb (fun x => existsb (N.eqb x) bad) V) eqn:Ef.
    - exfalso. assert (Hle : (length V <= length bad)%nat).
      { apply NoDup_ListNoDup in Hnd. apply NoDup_incl_length; [exact Hnd|]. intros x Hx. rewrite forallb_forall in Ef. specialize (Ef x Hx).
        apply existsb_exists in Ef. destruct Ef as (y & Hy & E). apply N.eqb_eq in E. subst y. exact Hy. }
      lia.
    - assert (Hex2 : exists x, In x V /\ existsb (N.eqb x) bad = false).
      { clear - Ef. induction V as [|x V IH]; [discriminate|]. cbn [forallb] in Ef. destruct (existsb (N.eqb x) bad) eqn:E; [|exists x; split; [left; reflexivity|exact E]].
        destruct (IH Ef) as (y & Hy & Hb). exists y. split; [right; exact Hy|exact Hb]. }
      destruct Hex2 as (x & Hx & Hb). assert (Hnb : ~ In x bad).
      { intros Hin. assert (existsb (N.eqb x) bad = true) by (apply existsb_exists; exists x; split; [exact Hin|apply N.eqb_refl]). congruence. }
      apply votes_on_in in Hx. destruct (decide ((id, k) = (id, x))) as [E|Hne2].
      + injection E as ->. rewrite lookup_insert in Hx. injection Hx as ->. exact (Ho x cl Ek Hnb Hp).
      + rewrite lookup_insert_ne in Hx by exact Hne2. exact (HY id x cl Hx Hnb Hp).
  Qed.
  (** While at most the complementary share is bad, a claim that all the others confirm is never rejected. *)
  Theorem C107_no_false_rejection ops o s' id e rest : thr <= 100 ->
    along step (honest_no id) (ops ++ [o]) (einit ks) ->
    eexec mx mxm mxc thr rb cb (reach ops) o = Ok s' -> clog (co s') = e :: rest -> clog (co s') <> clog (co (reach ops)) ->
    0 < nvals (reach ops) -> 100 * N.of_nat (length bad) <= (100 - thr) * nvals (reach ops) -> e <> LVerdict id false.
  Proof.
    intros Ht Ha Hex El Hne H0 Hbad ->. apply along_app in Ha. destruct Ha as [Ha [Ho _]]. fold (reach ops) in Ho.
    pose proof (ereach_EI mx mxm mxc thr rb cb ks ops Hmx) as HI. pose proof (reach_NO id ops Ha) as HN.
    destruct (verdict_step mx mxm mxc thr rb cb _ _ _ _ _ _ Ht Hex El Hne) as (c & idx & k & w & -> & Ek & Hv).
    destruct (vote_verdict thr _ c id k w s' id false rest Ht Hv El Hne) as (_ & _ & Hshare). cbv zeta in Hshare.
    destruct Hshare as [Hshare|Hz]; [|lia].
    assert (Hle : (length (votes_on (<[(id, k):=w]> (votes (reach ops))) id false) <= length bad)%nat); [|lia].
    apply NoDup_incl_length; [apply NoDup_ListNoDup, votes_on_nodup|]. intros x Hx. apply votes_on_in in Hx.
    destruct (decide ((id, k) = (id, x))) as [E|Hne2].
    - injection E as ->. rewrite lookup_insert in Hx. injection Hx as ->. exact (Ho eq_refl x Ek).
    - rewrite lookup_insert_ne in Hx by exact Hne2. exact (HN x Hx).
  Qed.
End verdicts.

(** Put together with what a notary reads: if every honest notary votes what its own node shows, a
    claim found valid was emitted by the bridge contract on the chain of one of those nodes. *)
Definition votes_its_node (contract conf : N) (decode : N -> eclaim) (bad : list N) (nodes : node -> Prop) (s : ev) (o : eop) : Prop :=
  match o with
  | ENotarize _ idx id v => forall k cl, nth_error (keys s) idx = Some k -> ~ In k bad -> pend (co s) !! id = Some cl ->
      exists nd, nodes nd /\ (v = true <-> try_event contract conf nd id (decode cl) = Valid)
  | _ => True
  end.
Theorem C107_valid_was_emitted mx mxm mxc thr rb cb ks contract conf decode bad nodes ops o s' id rest cl :
  (1 <= mx)%nat -> thr <= 100 -> 0 < conf -> id <= U64MAX -> (forall i c, i <= U64MAX -> claim_sized i (decode c)) ->
  along (estep mx mxm mxc thr rb cb) (votes_its_node contract conf decode bad nodes) (ops ++ [o]) (einit ks) ->
  let s := ereach mx mxm mxc thr rb cb ks ops in
  eexec mx mxm mxc thr rb cb s o = Ok s' -> clog (co s') = LVerdict id true :: rest -> clog (co s') <> clog (co s) ->
  100 * N.of_nat (length bad) < thr * nvals s -> pend (co s) !! id = Some cl ->
  exists nd, nodes nd /\ emitted contract conf nd (tx_hash (decode cl)) id (source (decode cl)) (destination (decode cl)) (cdata (decode cl)).
Proof.
  intros Hmx Ht Hconf Hid Hsz Ha s Hex El Hne Hbad Hp.
  apply (C107_no_false_claim mx mxm mxc thr rb cb ks Hmx bad
    (fun i c => i <= U64MAX -> exists nd, nodes nd /\ emitted contract conf nd (tx_hash (decode c)) i (source (decode c)) (destination (decode c)) (cdata (decode c)))
    ops o s' id rest cl Ht); try assumption.
  eapply along_impl; [|exact Ha]. intros s0 o0 H0. destruct o0 as [| | | |cleared idx i v| | | | | | | |]; try exact I. cbn [honest_yes votes_its_node] in *. destruct v; [|exact I].
  intros k c Ek Hk Hc Hi. destruct (H0 k c Ek Hk Hc) as (nd & Hnd & Hiff). exists nd. split; [exact Hnd|].
  apply C105_valid_means_emitted; [apply Hsz, Hi|exact Hconf|]. apply Hiff. reflexivity.
Qed.

(** Three notaries, one of them bad: a verdict needs two votes, and the honest ones look at [ex_node]. *)
Definition ex_ops : list eop := setup ++ [ESubmit 50 9 1; EChallenge 60 9; ENotarize true 0 9 true].
Definition ex_decode (n : N) : eclaim := if n =? 1 then ex_claim else EClaim 0 0 0 [].
Example C107_example :
  let s := ereach 3 100 10 66 100 10 [1; 2; 3] ex_ops in
  let nd := ex_node [ex_log (encode4 9 1000 2000 [1; 2; 3])] 1000 103 in
  along (estep 3 100 10 66 100 10) (votes_its_node 500 3 ex_decode [3] (eq nd)) (ex_ops ++ [ENotarize true 1 9 true]) (einit [1; 2; 3]) /\
  (exists s', eexec 3 100 10 66 100 10 s (ENotarize true 1 9 true) = Ok s' /\ exists rest, clog (co s') = LVerdict 9 true :: rest) /\
  100 * 1 < 66 * nvals s /\ pend (co s) !! 9 = Some 1 /\ (forall i c, i <= U64MAX -> claim_sized i (ex_decode c)).
Proof.
  cbv zeta. split; [|split; [|split; [vm_compute; reflexivity|split; [vm_compute; reflexivity|]]]].
  - unfold ex_ops, setup. cbn [app along votes_its_node].
    assert (Hv : try_event 500 3 (ex_node [ex_log (encode4 9 1000 2000 [1; 2; 3])] 1000 103) 9 ex_claim = Valid) by (vm_compute; reflexivity).
    repeat match goal with |- _ /\ _ => split end; try exact I;
      intros k cl Ek _ Hp; exists (ex_node [ex_log (encode4 9 1000 2000 [1; 2; 3])] 1000 103); (split; [reflexivity|]);
      vm_compute in Hp; injection Hp as <-; (split; [intros _; exact Hv|reflexivity]).
  - eexists. split; [vm_compute; reflexivity|]. eexists. cbn. reflexivity.
  - intros i c Hi. unfold ex_decode. destruct (c =? 1); (split; [exact Hi|]); repeat split; vm_compute; reflexivity.
Qed.

(** The same bridge when the bad notary votes first and against the claim. *)
Definition ex_ops2 : list eop := setup ++ [ESubmit 50 9 1; EChallenge 60 9; ENotarize true 2 9 false; ENotarize true 0 9 true].
Example C107_example_rejection :
  let s := ereach 3 100 10 66 100 10 [1; 2; 3] ex_ops2 in
  along (estep 3 100 10 66 100 10) (honest_no [3] 9) (ex_ops2 ++ [ENotarize true 1 9 true]) (einit [1; 2; 3]) /\
  (exists s' rest, eexec 3 100 10 66 100 10 s (ENotarize true 1 9 true) = Ok s' /\ clog (co s') = LVerdict 9 true :: rest) /\
  0 < nvals s /\ 100 * 1 <= (100 - 66) * nvals s.
Proof.
  cbv zeta. split; [|split; [|split; [vm_compute; reflexivity|vm_compute; discriminate]]].
  - unfold ex_ops2, setup. cbn [app along honest_no].
    repeat match goal with |- _ /\ _ => split end; try exact I. intros _ k Ek. vm_compute in Ek. injection Ek as <-. left. reflexivity.
  - do 2 eexists. split; [vm_compute; reflexivity|]. cbn. reflexivity.
Qed.

(** ** C109: every open challenge gets the attention of every notary *)
(** The claim at the head of the queue does. *)
Theorem C109_head_partial contract conf nd id rest claims voted c : claims id = Some c -> voted id = false ->
  worker_events contract conf nd false (id :: rest) claims voted = Some (id, try_event contract conf nd id c).
Proof. intros Hc Hv. unfold worker_events. rewrite Hc, Hv. reflexivity. Qed.
(** Whatever is sent is a vote on a challenged, still pending claim this notary has not voted on, and
    nothing is sent while the bridge is paused. *)
Theorem C109_only_open contract conf nd paused challenges claims voted id v :
  worker_events contract conf nd paused challenges claims voted = Some (id, v) ->
  paused = false /\ In id challenges /\ voted id = false /\ exists c, claims id = Some c /\ v = try_event contract conf nd id c.
Proof.
  unfold worker_events. destruct paused; [discriminate|]. destruct challenges as [|i rest]; [discriminate|].
  destruct (claims i) as [c|] eqn:Ec; [|discriminate]. destruct (voted i) eqn:Ev; [discriminate|]. intros [= <- <-].
  split; [reflexivity|]. split; [left; reflexivity|]. split; [exact Ev|]. exists c. auto.
Qed.
(** The worker signs with the key whose index it names. *)
Theorem C109_own_index local notaries k i : active_key local notaries = Some (k, i) -> In k local /\ nth_error notaries i = Some k.
Proof.
  assert (Hidx : forall l j, index_of k l = Some j -> nth_error l j = Some k).
  { induction l as [|x l IH]; intros j; cbn [index_of]; [discriminate|]. destruct (N.eqb_spec x k) as [->|]; [intros [= <-]; reflexivity|].
    destruct (index_of k l) as [j'|]; [|discriminate]. cbn. intros [= <-]. cbn. apply IH. reflexivity. }
  induction local as [|x local IH]; cbn [active_key]; [discriminate|]. destruct (index_of x notaries) as [j|] eqn:E.
  - intros [= -> <-]. split; [left; reflexivity|apply Hidx, E].
  - intros H. destruct (IH H) as [H1 H2]. split; [right; exact H1|exact H2].
Qed.
(** A challenge behind one that cannot be decided is never looked at: notary 3 is offline, notaries 1
    and 2 disagree about claim 7, and neither of them will ever vote on claim 8. *)
Definition stuck_ops : list eop :=
  setup ++ [ESubmit 50 7 1; ESubmit 50 8 2; EChallenge 60 7; EChallenge 60 8; ENotarize true 0 7 true; ENotarize true 1 7 false].
Theorem C109_starved_refuted : exists ops,
  let s := ereach 3 100 10 66 100 10 [1; 2; 3] ops in
  In 8 (chals s) /\ stat (co s) !! 8 = Some Challenged /\ pend (co s) !! 8 = Some 2 /\
  (forall k, votes s !! (8, k) = None) /\
  forall k contract conf nd decode, In k [1; 2] ->
    worker_events contract conf nd false (chals s) (fun id => option_map decode (pend (co s) !! id)) (fun id => match votes s !! (id, k) with Some _ => true | None => false end) = None.
Proof.
  exists stuck_ops. cbv zeta. split; [vm_compute; tauto|]. split; [vm_compute; reflexivity|]. split; [vm_compute; reflexivity|]. split.
  - intros k. assert (E : forall x, votes (ereach 3 100 10 66 100 10 [1; 2; 3] stuck_ops) !! x =
      (<[(7, 2) := false]> (<[(7, 1) := true]> (∅ : gmap (N * N) bool))) !! x) by (intros x; f_equal).
    rewrite E, !lookup_insert_ne by congruence. apply lookup_empty.
  - intros k contract conf nd decode [<-|[<-|[]]]; vm_compute; reflexivity.
Qed.
Example C109_example : worker_events 500 3 (ex_node [ex_log (encode4 9 1000 2000 [1; 2; 3])] 1000 103) false [9; 10] (fun _ => Some ex_claim) (fun _ => false) = Some (9, Valid) /\
  active_key [40; 2; 3] [1; 2; 3] = Some (2, 1%nat).
Proof. vm_compute. split; reflexivity. Qed.

(** A genuine claim judged before it has enough confirmations, or while the node is unreachable, is
    voted down for good: the worker sends that answer as its vote, and it counts as a rejection. *)
Theorem C106_early_vote_refuted : exists contract conf early late id c,
  get_receipt early (tx_hash c) = get_receipt late (tx_hash c) /\
  worker_events contract conf early false [id] (fun _ => Some c) (fun _ => false) = Some (id, NotEnoughConfirmations) /\
  try_event contract conf late id c = Valid /\
  let s := ereach 3 100 10 66 100 10 [1; 2; 3] (setup ++ [ESubmit 50 id 1; EChallenge 60 id; ENotarize true 0 id false; ENotarize true 1 id false]) in
  (exists rest, clog (co s) = LVerdict id false :: rest) /\ relayer s = None /\ getN (rbond s) 50 = 0.
Proof.
  exists 500, 3, (ex_node [ex_log (encode4 9 1000 2000 [1; 2; 3])] 1000 102), (ex_node [ex_log (encode4 9 1000 2000 [1; 2; 3])] 1000 103), 9, ex_claim.
  split; [reflexivity|]. split; [vm_compute; reflexivity|]. split; [vm_compute; reflexivity|]. cbv zeta.
  split; [eexists; vm_compute; reflexivity|]. split; vm_compute; reflexivity.
Qed.

Print Assumptions C104_reads.
Print Assumptions C104_logged.
Print Assumptions C104_documented.
Print Assumptions C104_too_long.
Print Assumptions C104_one_reading.
Print Assumptions C105_valid_means_emitted.
Print Assumptions C105_one_claim_per_transaction.
Print Assumptions C106_genuine_partial.
Print Assumptions C106_documented_layout_never.
Print Assumptions C108_answer.
Print Assumptions C108_answers.
Print Assumptions C107_no_false_claim.
Print Assumptions C107_no_false_rejection.
Print Assumptions C107_valid_was_emitted.
Print Assumptions C109_head_partial.
Print Assumptions C109_only_open.
Print Assumptions C109_own_index.
