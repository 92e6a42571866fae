(** Properties of the exchange of notaries with Ethereum nodes (C196). *)
From Verif Require Import EthCliModel XrplTxModel RpcAmtProps.

(** ** Spec: [hex_number] of [RpcAmtProps] is the number a string of hex digits spells *)
Definition bytes (d : list N) : Prop := Forall (fun b => b < 256) d.
(** A string of hex digits spells bytes, two digits each. *)
Inductive spells_bytes : list N -> list N -> Prop :=
| sp_nil : spells_bytes [] []
| sp_cons a b r v d : hex_number [a; b] = Some v -> spells_bytes r d -> spells_bytes (a :: b :: r) (v :: d).

Lemma hexdigit_ok n : n < 16 -> digit16 (hexdigit n) = Some n /\ hexdigit n <> 43.
Proof.
  intros H. unfold hexdigit, digit16. destruct (N.ltb_spec n 10).
  - destruct (N.leb_spec 48 (48 + n)); [|lia]. destruct (N.leb_spec (48 + n) 57); [|lia]. cbn [andb]. split; [f_equal; lia|lia].
  - destruct (N.leb_spec (87 + n) 57); [lia|]. rewrite andb_false_r. destruct (N.leb_spec (87 + n) 70); [lia|]. rewrite andb_false_r.
    destruct (N.leb_spec 97 (87 + n)); [|lia]. destruct (N.leb_spec (87 + n) 102); [|lia]. cbn [andb]. split; [f_equal; lia|lia].
Qed.
Lemma to_hex_cons b d : to_hex (b :: d) = hexdigit (b / 16) :: hexdigit (b mod 16) :: to_hex d.
Proof. reflexivity. Qed.
Lemma to_hex_length d : length (to_hex d) = (2 * length d)%nat.
Proof. induction d as [|b d IH]; [reflexivity|]. rewrite to_hex_cons. cbn [length]. lia. Qed.
Lemma decode_to_hex d : bytes d -> cli_decode_hex (to_hex d) = Ok d.
Proof.
  induction 1 as [|b d Hb _ IH]; [reflexivity|]. rewrite to_hex_cons. cbn [cli_decode_hex].
  assert (H1 : b / 16 < 16) by (apply N.div_lt_upper_bound; lia). assert (H2 : b mod 16 < 16) by (apply N.mod_lt; lia).
  unfold radix2. destruct (hexdigit_ok _ H1) as [E1 N1]. destruct (hexdigit_ok _ H2) as [E2 _].
  destruct (N.eqb_spec (hexdigit (b / 16)) 43); [contradiction|]. rewrite !hexval_digit, E1, E2, IH. cbn [rbind].
  do 2 f_equal. pose proof (N.div_mod b 16 ltac:(discriminate)). lia.
Qed.
Lemma even_double n : Nat.even (2 * n) = true.
Proof. apply Nat.even_spec. exists n. reflexivity. Qed.

(** What a notary sends as input of a call is what a reader of hex gets, and data that comes back as it was sent is read as
    the same bytes. *)
Theorem C196_bytes : forall d, bytes d -> visit_bytes (ser_bytes d) = Ok d.
Proof.
  intros d H. unfold visit_bytes, ser_bytes. cbn [length]. rewrite to_hex_length.
  change (S (S (2 * length d))) with (2 + 2 * length d)%nat. replace (2 + 2 * length d)%nat with (2 * S (length d))%nat by lia.
  rewrite even_double. exact (decode_to_hex d H).
Qed.

(** A block number is sent in hex, without leading zeros. *)
Lemma hex_digits_app f : forall n acc, hex_digits f n acc = hex_digits f n [] ++ acc.
Proof.
  induction f as [|f IH]; intros n acc; [reflexivity|]. cbn [hex_digits]. destruct (n / 16 =? 0); [reflexivity|].
  rewrite IH, (IH _ [_]), <- app_assoc. reflexivity.
Qed.
Lemma hex_digits_spell f : forall n, n < 16 ^ N.of_nat f -> (0 < f)%nat ->
  hex_number (hex_digits f n []) = Some n /\ hex_digits f n [] <> [] /\ (0 < n -> forall r, hex_digits f n [] <> 48 :: r).
Proof.
  induction f as [|f IH]; intros n Hn Hf; [lia|]. cbn [hex_digits].
  assert (Hm : n mod 16 < 16) by (apply N.mod_lt; discriminate). destruct (hexdigit_ok _ Hm) as [Hd _].
  pose proof (N.div_mod n 16 ltac:(discriminate)) as Hdm.
  destruct (N.eqb_spec (n / 16) 0) as [Hz|Hz].
  - unfold hex_number. cbn [spells]. rewrite Hd. split; [f_equal; lia|]. split; [discriminate|]. intros Hpos r E. injection E as E _.
    rewrite E in Hd. change (digit16 48) with (Some 0) in Hd. injection Hd as Hd. lia.
  - rewrite hex_digits_app. assert (Hf' : (0 < f)%nat).
    { destruct f; [|lia]. exfalso. apply Hz. apply N.div_small. exact Hn. }
    destruct (IH (n / 16)) as (I1 & I2 & I3).
    { apply N.div_lt_upper_bound; [discriminate|]. replace (N.of_nat (S f)) with (N.succ (N.of_nat f)) in Hn by lia.
      rewrite N.pow_succ_r in Hn by lia. exact Hn. }
    { exact Hf'. }
    split; [|split].
    + unfold hex_number in *. rewrite spells_app, I1. cbn [spells]. rewrite Hd. f_equal. lia.
    + destruct (hex_digits f (n / 16) []); discriminate.
    + intros _ r E. destruct (hex_digits f (n / 16) []) as [|x t] eqn:Ed; [exact (I2 eq_refl)|]. cbn in E. injection E as E _. subst x.
      exact (I3 ltac:(lia) t eq_refl).
Qed.
Theorem C196_number : forall n, n < 2 ^ 64 -> exists s, ser_number n = 48 :: 120 :: s /\ hex_number s = Some n /\
  (0 < n -> forall r, s <> 48 :: r).
Proof.
  intros n Hn. exists (hex_digits 64 n []). split; [reflexivity|]. destruct (hex_digits_spell 64 n) as (H1 & _ & H3); [|lia|auto].
  eapply N.lt_trans; [exact Hn|]. vm_compute. reflexivity.
Qed.

(** Data read from an answer is what the answer spells, if it has no plus sign. *)
Lemma decode_spells s d : cli_decode_hex s = Ok d -> ~ In 43 s -> spells_bytes s d.
Proof.
  revert d. assert (G : forall n s d, (length s <= n)%nat -> cli_decode_hex s = Ok d -> ~ In 43 s -> spells_bytes s d).
  { induction n as [|n IH]; intros t d Hn H Hp.
    - destruct t; [|cbn in Hn; lia]. injection H as <-. constructor.
    - destruct t as [|a [|b r]]; [injection H as <-; constructor|discriminate|]. cbn [cli_decode_hex] in H.
      destruct (radix2 a b) as [v|] eqn:Er; [|discriminate]. destruct (cli_decode_hex r) as [t|] eqn:Et; [|discriminate].
      cbn [rbind] in H. injection H as <-. constructor.
      + unfold radix2 in Er. destruct (N.eqb_spec a 43) as [->|]; [exfalso; apply Hp; left; reflexivity|].
        rewrite !hexval_digit in Er. unfold hex_number. cbn [spells]. destruct (digit16 a); [|discriminate].
        destruct (digit16 b); [|discriminate]. rewrite N.mul_0_l, N.add_0_l. exact Er.
      + apply IH; [cbn in Hn; lia|exact Et|]. intros Hin. apply Hp. right. right. exact Hin. }
  intros d H Hp. exact (G _ s d (le_n _) H Hp).
Qed.
Theorem C196_answer : forall r d, call_http r = Ok d -> d <> [] ->
  exists x s, r = Some x /\ code x = 200 /\ rresult x = Some (48 :: 120 :: s) /\ (~ In 43 s -> spells_bytes s d).
Proof.
  intros [x|] d H Hd; [|discriminate]. unfold call_http, query in H. cbn [of_opt rbind] in H.
  destruct (N.eqb_spec (code x) 200) as [Ec|]; [|discriminate]. cbn [ensure rbind] in H. destruct (formed x); [|discriminate].
  cbn [ensure rbind] in H. destruct (rresult x) as [s|] eqn:Es; [|injection H as <-; contradiction].
  unfold visit_bytes in H. destruct s as [|a [|b s]].
  - discriminate.
  - destruct (N.eq_dec a 48) as [->|]; [discriminate|]. exfalso.
    destruct a as [|p]; [discriminate|]. repeat (destruct p as [p|p|]; try discriminate).
  - assert (E : a = 48 /\ b = 120 /\ cli_decode_hex s = Ok d).
    { revert H. destruct (N.eq_dec a 48) as [->|Ha]; [destruct (N.eq_dec b 120) as [->|Hb]|].
      - destruct (Nat.even _); [auto|discriminate].
      - intros H. exfalso. destruct b as [|p]; [discriminate|]. repeat (destruct p as [p|p|]; try discriminate). apply Hb. reflexivity.
      - intros H. exfalso. destruct a as [|p]; [discriminate|]. repeat (destruct p as [p|p|]; try discriminate). apply Ha. reflexivity. }
    destruct E as (-> & -> & E). exists x, s. split; [reflexivity|]. split; [exact Ec|]. split; [exact Es|]. apply decode_spells, E.
Qed.
(** A receipt or block comes from an answer with code 200 that has it as its result. *)
Theorem C196_result : forall D (r : option (reply D)) v, get_http r = Ok (Some v) ->
  exists x, r = Some x /\ code x = 200 /\ formed x = true /\ rresult x = Some v.
Proof.
  intros D [x|] v H; [|discriminate]. unfold get_http, query in H. cbn [of_opt rbind] in H.
  destruct (N.eqb_spec (code x) 200); [|discriminate]. cbn [ensure rbind] in H. destruct (formed x) eqn:Ef; [|discriminate].
  cbn [ensure rbind] in H. injection H as H. exists x. auto.
Qed.
(** Without an answer, or with another code, there is no answer to the worker either. *)
Theorem C196_silence : forall r, (forall x, r = Some x -> code x <> 200) -> call_http r = Err CLI_HTTP.
Proof.
  intros [x|] H; [|reflexivity]. unfold call_http, query. cbn [of_opt rbind]. specialize (H x eq_refl).
  destruct (N.eqb_spec (code x) 200); [contradiction|]. reflexivity.
Qed.

(** ** What is wrong *)
(** An error reported by the Ethereum node (any id, no result) is taken for an answer: a call that returned nothing, and a
    transaction that does not exist.  The first is reported as the result of the call, the second is a vote against any claim. *)
Theorem C196_error_refuted : forall i,
  call_http (Some (Reply 200 true i None)) = Ok [] /\ call_http (Some (Reply 200 true i None)) = call_http (Some (Reply 200 true i (Some (ser_bytes [])))) /\
  (forall contract conf blocks calls id c, worker_events contract conf (node_of (fun _ => Some (Reply 200 true i None)) blocks calls) false [id]
      (fun _ => Some c) (fun _ => false) = Some (id, NoTxReceipt)) /\
  (forall now receipts b n q, bnum b = Some n -> 0 < n -> n < U64MAX -> btime b < U64MAX -> ctime q <= btime b -> n <= ctry q ->
      try_call now (node_of receipts (fun _ => Some (Reply 200 true i (Some b))) (fun _ _ _ => Some (Reply 200 true i None))) q = CEmpty).
Proof.
  intros i. repeat split.
  intros now receipts b n q Hn H0 H1 H2 H3 H4.
  set (nd := node_of _ _ _). assert (Eb : forall m, get_block nd m = Some (Some b)) by reflexivity.
  assert (Ec : forall t x m, call_eth nd t x m = Some []) by reflexivity. clearbody nd. unfold try_call. rewrite Eb.
  assert (Es : sat U64MAX (btime b) = btime b) by (unfold sat; lia). rewrite Es.
  destruct (N.eqb_spec (btime b) U64MAX); [lia|]. destruct (N.ltb_spec (btime b) (ctime q)); [lia|]. rewrite Hn.
  destruct (N.eqb_spec n 0); [lia|]. destruct (N.eqb_spec n U64MAX); [lia|]. cbn [orb].
  destruct (N.ltb_spec (ctry q) n); [lia|]. rewrite andb_false_r. rewrite Ec. reflexivity.
Qed.
(** The id of the answer is not compared with that of the request. *)
Theorem C196_other_id_refuted : forall (s : list N) i j, call_http (Some (Reply 200 true i (Some s))) = call_http (Some (Reply 200 true j (Some s))).
Proof. reflexivity. Qed.
(** A result that is not hex ends the worker, and a plus sign is read as a digit. *)
Theorem C196_panic_refuted : exists s, call_http (Some (Reply 200 true 1 (Some s))) = Err CLI_PANIC.
Proof. exists [48; 120; 122; 122]. reflexivity. Qed.
Theorem C196_plus_refuted : exists s t d, s <> t /\ hex_number (skipn 2 s) = None /\ visit_bytes s = Ok d /\ visit_bytes t = Ok d.
Proof. exists [48; 120; 43; 102], [48; 120; 48; 102], [15]. vm_compute. repeat split; discriminate. Qed.

Example C196_example : ser_bytes [1; 171] = [48; 120; 48; 49; 97; 98] /\ ser_number 255 = [48; 120; 102; 102] /\ ser_number 0 = [48; 120; 48] /\
  call_http (Some (Reply 200 true 0 (Some [48; 120; 48; 53; 48; 52; 48; 51]))) = Ok [5; 4; 3] /\ spells_bytes [48; 53; 48; 52; 48; 51] [5; 4; 3].
Proof. do 4 (split; [reflexivity|]). repeat constructor. Qed.

Definition EthCli_assumptions := (C196_bytes, C196_number, C196_answer, C196_result, C196_silence, C196_error_refuted, C196_other_id_refuted,
  C196_panic_refuted, C196_plus_refuted, C196_example).
Print Assumptions EthCli_assumptions.
