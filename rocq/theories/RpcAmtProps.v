(** Properties of amounts over RPC (C194). *)
From Verif Require Import RpcAmtModel XrplTxModel.

(** ** Spec: the number a string of digits spells, in base 16 and 10 *)
Definition digit16 (c : N) : option N :=
  if (48 <=? c) && (c <=? 57) then Some (c - 48)
  else if (65 <=? c) && (c <=? 70) then Some (c - 65 + 10)
  else if (97 <=? c) && (c <=? 102) then Some (c - 97 + 10) else None.
Definition digit10 (c : N) : option N := if (48 <=? c) && (c <=? 57) then Some (c - 48) else None.
Fixpoint spells (base : N) (digit : N -> option N) (s : list N) (v : N) : option N :=
  match s with
  | [] => Some v
  | c :: r => match digit c with Some d => spells base digit r (v * base + d) | None => None end
  end.
Definition hex_number (s : list N) : option N := spells 16 digit16 s 0.
Definition decimal (s : list N) : option N := spells 10 digit10 s 0.

Lemma hexval_digit c : hexval c = digit16 c.
Proof.
  unfold hexval, digit16. destruct ((48 <=? c) && (c <=? 57)); [reflexivity|].
  destruct (65 <=? c) eqn:A, (c <=? 70) eqn:B; cbn [andb]; try (f_equal; lia);
  destruct (97 <=? c) eqn:C, (c <=? 102) eqn:D; cbn [andb]; try reflexivity; f_equal; lia.
Qed.
Lemma spells_hex : forall n s v, (length s <= n)%nat -> Nat.Even (length s) ->
  spells 16 digit16 s v = match hex_decode s with Some b => Some (fold_left (fun acc x => acc * 256 + x) b v) | None => None end.
Proof.
  induction n as [|n IH]; intros s v Hn He.
  - destruct s; [reflexivity|cbn in Hn; lia].
  - destruct s as [|a [|b r]]; [reflexivity|destruct He as [k Hk]; cbn in Hk; lia|].
    cbn [hex_decode spells]. rewrite !hexval_digit. destruct (digit16 a) as [x|]; [|reflexivity].
    destruct (digit16 b) as [y|]; [|reflexivity].
    rewrite IH; [|cbn in Hn; lia|destruct He as [k Hk]; exists (k - 1)%nat; cbn in Hk; lia].
    destruct (hex_decode r) as [t|]; [|reflexivity]. cbn [fold_left]. f_equal. f_equal. lia.
Qed.
Lemma hex_decode_length : forall n s b, (length s <= n)%nat -> hex_decode s = Some b -> length s = (2 * length b)%nat.
Proof.
  induction n as [|n IH]; intros s b Hn H.
  - destruct s; [cbn in H; injection H as <-; reflexivity|cbn in Hn; lia].
  - destruct s as [|x [|y r]]; [cbn in H; injection H as <-; reflexivity|discriminate|].
    cbn [hex_decode] in H. destruct (hexval x); [|discriminate]. destruct (hexval y); [|discriminate].
    destruct (hex_decode r) as [t|] eqn:E; [|discriminate]. injection H as <-. cbn in Hn.
    apply IH in E; [|lia]. cbn. lia.
Qed.

Lemma digit_not_cont c d : digit16 c = Some d -> (128 <=? c) && (c <=? 191) = false.
Proof.
  unfold digit16. destruct (N.leb_spec 128 c); [|reflexivity]. cbn [andb].
  destruct (N.leb_spec c 57); [lia|]. destruct (N.leb_spec c 70); [lia|]. destruct (N.leb_spec c 102); [lia|].
  rewrite !andb_false_r. discriminate.
Qed.

(** What is understood: an integer as itself, and a string of two characters and 32 hexadecimal digits as the number the
    digits spell; nothing else. *)
Theorem C194_understood : forall j v, read_amount j = Ok v <->
  (exists n, j = JInt n /\ v = N.min n (2 ^ 128 - 1)) \/
  (exists x y r, j = JStr (x :: y :: r) /\ length r = 32%nat /\ hex_number r = Some v).
Proof.
  intros j v. split.
  - destruct j as [n| |s|]; cbn [read_amount]; try discriminate.
    + intros H. injection H as <-. left. exists n. auto.
    + unfold visit_str. destruct s as [|x [|y r]]; [discriminate|discriminate|]. intros H. right. exists x, y, r.
      assert (Hr : exists b, hex_decode r = Some b /\ length b = 16%nat /\ of_be b = v).
      { unfold after2 in H. destruct r as [|c r'].
        - cbn in H. discriminate.
        - destruct (_ && _); [discriminate|]. cbn [rbind] in H. destruct (hex_decode (c :: r')) as [b|]; [|discriminate].
          cbn [of_opt rbind] in H. destruct (Nat.eqb_spec (length b) 16); [|discriminate]. cbn [ensure rbind] in H.
          injection H as <-. eauto. }
      destruct Hr as (b & Hb & Hl & <-). pose proof (hex_decode_length _ _ _ (le_n _) Hb) as L. rewrite Hl in L.
      split; [reflexivity|]. split; [exact L|]. unfold hex_number.
      rewrite (spells_hex _ _ _ (le_n _)); [|exists 16%nat; exact L]. rewrite Hb. reflexivity.
  - intros [(n & -> & ->)|(x & y & r & -> & Hl & Hv)]; [reflexivity|]. cbn [read_amount]. unfold visit_str.
    destruct r as [|c r']; [discriminate|]. unfold after2.
    assert (Hc : exists d, digit16 c = Some d).
    { unfold hex_number in Hv. cbn [spells] in Hv. destruct (digit16 c); [eauto|discriminate]. }
    destruct Hc as [d Hd]. rewrite (digit_not_cont _ _ Hd). cbn [rbind].
    unfold hex_number in Hv. rewrite (spells_hex _ _ _ (le_n _)) in Hv; [|exists 16%nat; exact Hl].
    destruct (hex_decode (c :: r')) as [b|] eqn:Eb; [|discriminate]. injection Hv as <-.
    pose proof (hex_decode_length _ _ _ (le_n _) Eb) as L. cbn [of_opt rbind].
    assert (length b = 16%nat) as -> by lia. reflexivity.
Qed.

(** A string in the documented form, "0x" and 32 digits, is thus read as written. *)
Theorem C194_hex : forall r v, length r = 32%nat -> hex_number r = Some v -> read_amount (JStr (48 :: 120 :: r)) = Ok v.
Proof. intros r v Hl Hv. apply C194_understood. right. exists 48, 120, r. auto. Qed.

(** The quote is exact as long as it fits. *)
Theorem C194_quote : forall a ra rb q, a * rb / ra < 2 ^ 128 -> rpc_quote a ra rb = Ok q -> q = a * rb / ra.
Proof.
  intros a ra rb q Hb H. unfold rpc_quote, quote in H. destruct (0 <? a); [|discriminate]. cbn [ensure rbind] in H.
  destruct (N.ltb_spec 0 ra); [|discriminate]. destruct (0 <? rb); [|discriminate]. cbn [andb ensure rbind] in H.
  unfold umul, chk_mul in H. destruct (a * rb <=? U256MAX); [|discriminate]. cbn [of_opt rbind] in H.
  unfold udiv, chk_div in H. destruct (N.eqb_spec ra 0); [lia|]. cbn [of_opt rbind] in H. injection H as <-.
  apply N.mod_small. exact Hb.
Qed.

(** A balance is shown in decimal, with nothing lost. *)
Lemma spells_app b dg l1 : forall l2 v, spells b dg (l1 ++ l2) v =
  match spells b dg l1 v with Some v1 => spells b dg l2 v1 | None => None end.
Proof. induction l1 as [|c r IH]; intros l2 v; [reflexivity|]. cbn [app spells]. destruct (dg c); [apply IH|reflexivity]. Qed.
Lemma digits_app f : forall n acc, dec_digits f n acc = dec_digits f n [] ++ acc.
Proof.
  induction f as [|f IH]; intros n acc; [reflexivity|]. cbn [dec_digits]. destruct (n / 10 =? 0); [reflexivity|].
  rewrite IH, (IH _ [_]), <- app_assoc. reflexivity.
Qed.
Lemma digits_spell f : forall n, n < 10 ^ N.of_nat f -> (0 < f)%nat -> decimal (dec_digits f n []) = Some n.
Proof.
  induction f as [|f IH]; intros n Hn Hf; [lia|]. cbn [dec_digits].
  assert (Hd : digit10 (48 + n mod 10) = Some (n mod 10)).
  { unfold digit10. pose proof (N.mod_lt n 10 ltac:(discriminate)).
    destruct (N.leb_spec 48 (48 + n mod 10)); [|lia]. destruct (N.leb_spec (48 + n mod 10) 57); [|lia]. cbn [andb].
    f_equal. lia. }
  pose proof (N.div_mod n 10 ltac:(discriminate)) as Hdm.
  destruct (N.eqb_spec (n / 10) 0) as [Hz|Hz].
  - unfold decimal. cbn [spells]. rewrite Hd. f_equal. lia.
  - rewrite digits_app. unfold decimal in *. rewrite spells_app.
    assert (Hf' : (0 < f)%nat).
    { destruct f; [|lia]. exfalso. apply Hz. apply N.div_small. exact Hn. }
    rewrite (IH (n / 10)); [|apply N.div_lt_upper_bound; [discriminate|]|exact Hf'].
    + cbn [spells]. rewrite Hd. f_equal. lia.
    + replace (N.of_nat (S f)) with (N.succ (N.of_nat f)) in Hn by lia. rewrite N.pow_succ_r in Hn by lia. exact Hn.
Qed.
Theorem C194_shown : forall n, n <= 2 ^ 128 - 1 -> decimal (shown n) = Some n.
Proof.
  intros n Hn. apply digits_spell; [|lia]. eapply N.le_lt_trans; [exact Hn|]. vm_compute. reflexivity.
Qed.

(** ** What is wrong *)
(** A string of one character ends in a panic, for any state and path; so does the balance of an account that has
    nothing, given back the way the chain shows it. *)
Theorem C194_panic_refuted : (forall s path c, rpc_out s (JStr [c]) path = Err PANIC) /\
  (forall s path, rpc_in s (JStr (shown 0)) path = Err PANIC).
Proof. split; reflexivity. Qed.
(** A decimal number of 34 digits is taken for another: its first two digits are dropped and the rest read as hex. *)
Theorem C194_misread_refuted : exists n, n <= 2 ^ 128 - 1 /\ exists m, read_amount (JStr (shown n)) = Ok m /\ m <> n.
Proof. exists (10 ^ 33 + 5). split; [vm_compute; discriminate|]. exists 5. split; [vm_compute; reflexivity|discriminate]. Qed.
(** A quote that does not fit into 128 bits is answered with its rest, here 0 for more than 3 * 10^38. *)
Theorem C194_quote_refuted : exists a ra rb, a <= 2 ^ 128 - 1 /\ rb <= 2 ^ 128 - 1 /\ rpc_quote a ra rb = Ok 0 /\ a * rb / ra = 2 ^ 128.
Proof. exists (2 ^ 64), 1, (2 ^ 64). vm_compute. repeat split; discriminate. Qed.
(** Hexadecimal numbers of another length are refused. *)
Theorem C194_short_hex_refuted : exists s v, hex_number s = Some v /\ v = 1000 /\ read_amount (JStr (48 :: 120 :: s)) = Err REFUSED.
Proof. exists [48; 51; 69; 56], 1000. vm_compute. auto. Qed.

Example C194_example :
  read_amount (JStr (48 :: 120 :: repeat 48 28 ++ [48; 51; 69; 56])) = Ok 1000 /\
  rpc_quote 1000 300 600 = Ok 2000 /\ shown 1203 = [49; 50; 48; 51] /\ shown 0 = [48].
Proof. vm_compute. auto. Qed.

Definition RpcAmt_assumptions := (C194_understood, C194_hex, C194_quote, C194_shown, C194_panic_refuted, C194_misread_refuted,
  C194_quote_refuted, C194_short_hex_refuted, C194_example).
Print Assumptions RpcAmt_assumptions.
