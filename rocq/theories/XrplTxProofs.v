(** Lemmas for XRPL-signed transactions. *)
From Verif Require Export FpassProofs XrplTxModel.

(** ** What a memo says, independently of the parser *)
Definition hexdigit (c v : N) : Prop :=
  (v < 10 /\ c = 48 + v) \/ (10 <= v < 16 /\ (c = 55 + v \/ c = 87 + v)).
Inductive hexes : list N -> list N -> Prop :=
| hexes_nil : hexes [] []
| hexes_cons a b x y f l : hexdigit a x -> hexdigit b y -> hexes f l -> hexes (a :: b :: f) (16 * x + y :: l).
Definition is_digit (c : N) : Prop := 48 <= c <= 57.
Definition value (l : list N) : N := fold_left (fun acc c => acc * 10 + (c - 48)) l 0.
(** A decimal numeral, possibly with a plus sign and leading zeros. *)
Definition numeral (l : list N) (n : N) : Prop :=
  exists ds, (l = ds \/ l = 43 :: ds) /\ ds <> [] /\ Forall is_digit ds /\ value ds = n.
Definition plain (l : list N) : Prop := ~ In 58 l.
(** The text of a memo: five fields between colons; anything may follow a sixth colon. *)
Definition says (text g : list N) (n mx tip : N) (h : list N) : Prop :=
  exists f1 f2 f3 f4 f5 tail,
    text = f1 ++ 58 :: f2 ++ 58 :: f3 ++ 58 :: f4 ++ 58 :: f5 ++ tail /\
    (tail = [] \/ exists more, tail = 58 :: more) /\
    plain f1 /\ plain f2 /\ plain f3 /\ plain f4 /\ plain f5 /\
    hexes f1 g /\ length g = 32%nat /\ numeral f2 n /\ n <= U32MAX /\ numeral f3 mx /\ mx <= U32MAX /\
    numeral f4 tip /\ tip <= U64MAX /\ hexes f5 h /\ length h = 32%nat.
(** The first memo of type "extrinsic" (in any case) says it. *)
Definition announces (ms : list (list N * list N)) (g : list N) (n mx tip : N) (h : list N) : Prop :=
  exists before text ty after, ms = before ++ (text, ty) :: after /\
    Forall (fun m => map lower (snd m) <> EXTRINSIC) before /\ map lower ty = EXTRINSIC /\ says text g n mx tip h.

Lemma hexval_spec c v : hexval c = Some v <-> hexdigit c v.
Proof.
  unfold hexval, hexdigit. destruct (N.leb_spec 48 c), (N.leb_spec c 57), (N.leb_spec 65 c), (N.leb_spec c 70), (N.leb_spec 97 c), (N.leb_spec c 102);
    cbn [andb]; split; intros H'; try (injection H' as <-); try discriminate; try (f_equal; lia); try lia.
Qed.
Lemma hex_ind (P : list N -> Prop) : P [] -> (forall a, P [a]) -> (forall a b r, P r -> P (a :: b :: r)) -> forall l, P l.
Proof.
  intros H0 H1 H2 l. enough (P l /\ forall a, P (a :: l)) by tauto. induction l as [|b l [I1 I2]]; [auto|]. split; [apply I2|]. intros a. apply H2, I1.
Qed.
Lemma hex_decode_spec l : forall b, hex_decode l = Some b <-> hexes l b.
Proof.
  induction l as [|a|a b r IH] using hex_ind; intros o; cbn [hex_decode].
  - split; [intros [= <-]; constructor|inversion 1; reflexivity].
  - split; [discriminate|inversion 1].
  - split.
    + destruct (hexval a) as [x|] eqn:Ea; [|discriminate]. destruct (hexval b) as [y|] eqn:Eb; [|discriminate].
      destruct (hex_decode r) as [t|] eqn:Er; [|discriminate]. intros [= <-].
      constructor; [apply hexval_spec, Ea|apply hexval_spec, Eb|apply IH; reflexivity].
    + inversion 1; subst. match goal with H1 : hexdigit a _, H2 : hexdigit b _, H3 : hexes r _ |- _ =>
        apply hexval_spec in H1; apply hexval_spec in H2; apply IH in H3; rewrite H1, H2, H3 end. reflexivity.
Qed.
Lemma hash32_spec l b : hash32 l = Some b <-> hexes l b /\ length b = 32%nat.
Proof.
  unfold hash32. rewrite <- hex_decode_spec. destruct (hex_decode l) as [o|]; [|split; [discriminate|intros [? ?]; discriminate]].
  destruct (Nat.eqb_spec (length o) 32); split.
  - intros [= <-]. auto.
  - intros [[= <-] _]. reflexivity.
  - discriminate.
  - intros [[= <-] ?]. contradiction.
Qed.

(** Decimal numbers. *)
Lemma value_ge l : forall a, a <= fold_left (fun acc c => acc * 10 + (c - 48)) l a.
Proof. induction l as [|c l IH]; intros a; cbn; [lia|]. specialize (IH (a * 10 + (c - 48))). lia. Qed.
Lemma digits_spec mx l : forall a n, a <= mx -> (digits mx a l = Some n <->
  Forall is_digit l /\ fold_left (fun acc c => acc * 10 + (c - 48)) l a = n /\ n <= mx).
Proof.
  induction l as [|c l IH]; intros a n Ha; cbn [digits fold_left].
  - split; [intros [= <-]; auto|intros (_ & -> & _); reflexivity].
  - destruct (N.leb_spec 48 c) as [H1|H1]; cbn [andb]; [|split; [discriminate|intros (HF & _ & _); inversion_clear HF; unfold is_digit in *; lia]].
    destruct (N.leb_spec c 57) as [H2|H2]; [|split; [discriminate|intros (HF & _ & _); inversion_clear HF; unfold is_digit in *; lia]].
    unfold chk_mul, chk_add. pose proof (value_ge l (a * 10 + (c - 48))) as Hge.
    destruct (N.leb_spec (a * 10) mx) as [H3|H3]; [|split; [discriminate|intros (_ & <- & Hn); lia]].
    destruct (N.leb_spec (a * 10 + (c - 48)) mx) as [H4|H4]; [|split; [discriminate|intros (_ & <- & Hn); lia]].
    rewrite IH by exact H4. split.
    + intros (HF & He & Hn). split; [constructor; [split; assumption|exact HF]|auto].
    + intros (HF & He & Hn). inversion_clear HF. auto.
Qed.
Lemma parse_spec mx l n : parse_uint mx l = Some n <-> numeral l n /\ n <= mx.
Proof.
  unfold parse_uint, numeral. destruct l as [|c r].
  - split; [discriminate|]. intros [(ds & [<-|E] & Hne & _) _]; [contradiction|discriminate].
  - destruct (N.eqb_spec c 43) as [->|Hc].
    + destruct r as [|c' r].
      * split; [discriminate|]. intros [(ds & [<-|[= <-]] & Hne & HF & _) _]; [inversion_clear HF; unfold is_digit in *; lia|contradiction].
      * rewrite digits_spec by lia. split.
        -- intros (HF & He & Hn). split; [|exact Hn]. exists (c' :: r). split; [right; reflexivity|]. split; [discriminate|]. auto.
        -- intros [(ds & [<-|[= <-]] & Hne & HF & He) Hn]; [inversion_clear HF; unfold is_digit in *; lia|]. auto.
    + rewrite digits_spec by lia. split.
      * intros (HF & He & Hn). split; [|exact Hn]. exists (c :: r). split; [left; reflexivity|]. split; [discriminate|]. auto.
      * intros [(ds & [<-|[= -> _]] & Hne & HF & He) Hn]; [auto|contradiction].
Qed.

(** Splitting at colons. *)
Fixpoint join (fs : list (list N)) : list N :=
  match fs with [] => [] | [f] => f | f :: r => f ++ 58 :: join r end.
Lemma join_cons f r : r <> [] -> join (f :: r) = f ++ 58 :: join r.
Proof. destruct r; [contradiction|reflexivity]. Qed.
Lemma split_nonempty l : split l <> [].
Proof. destruct l as [|c l]; cbn; [discriminate|]. destruct (c =? 58); [discriminate|]. destruct (split l); discriminate. Qed.
Lemma split_join l : join (split l) = l /\ Forall plain (split l).
Proof.
  induction l as [|c l [IH1 IH2]]; cbn [split]; [split; [reflexivity|constructor; [intros []|constructor]]|].
  destruct (N.eqb_spec c 58) as [->|Hc].
  - rewrite join_cons by apply split_nonempty. rewrite IH1. split; [reflexivity|]. constructor; [intros []|exact IH2].
  - pose proof (split_nonempty l) as Hne. destruct (split l) as [|f fs]; [contradiction|].
    inversion_clear IH2. split.
    + destruct fs as [|f' fs]; [cbn in *; congruence|]. rewrite join_cons in IH1 by discriminate. rewrite join_cons by discriminate. rewrite <- IH1. reflexivity.
    + constructor; [|assumption]. intros [E|Hin]; [congruence|]. contradiction.
Qed.
Lemma split_last f : plain f -> split f = [f].
Proof.
  induction f as [|c f IH]; intros Hf; [reflexivity|]. cbn [split]. destruct (N.eqb_spec c 58) as [->|]; [exfalso; apply Hf; left; reflexivity|].
  rewrite IH; [reflexivity|]. intros Hin. apply Hf. right. exact Hin.
Qed.
Lemma split_field f r : plain f -> split (f ++ 58 :: r) = f :: split r.
Proof.
  induction f as [|c f IH]; intros Hf; [reflexivity|]. cbn [app split]. destruct (N.eqb_spec c 58) as [->|]; [exfalso; apply Hf; left; reflexivity|].
  rewrite IH; [reflexivity|]. intros Hin. apply Hf. right. exact Hin.
Qed.

Lemma says_split text g n mx tip h : says text g n mx tip h -> exists f1 f2 f3 f4 f5 more,
  split text = f1 :: f2 :: f3 :: f4 :: f5 :: more /\ hash32 f1 = Some g /\ parse_uint U32MAX f2 = Some n /\
  parse_uint U32MAX f3 = Some mx /\ parse_uint U64MAX f4 = Some tip /\ hash32 f5 = Some h.
Proof.
  intros (f1 & f2 & f3 & f4 & f5 & tail & -> & Htail & P1 & P2 & P3 & P4 & P5 & H1 & L1 & H2 & B2 & H3 & B3 & H4 & B4 & H5 & L5).
  assert (Es : exists more, split (f5 ++ tail) = f5 :: more).
  { destruct Htail as [->|(more & ->)]; [rewrite app_nil_r, split_last by assumption; eauto|rewrite split_field by assumption; eauto]. }
  destruct Es as (more & Es). exists f1, f2, f3, f4, f5, more. rewrite !split_field by assumption. rewrite Es. split; [reflexivity|].
  rewrite (proj2 (hash32_spec f1 _) (conj H1 L1)), (proj2 (parse_spec _ f2 _) (conj H2 B2)), (proj2 (parse_spec _ f3 _) (conj H3 B3)),
        (proj2 (parse_spec _ f4 _) (conj H4 B4)), (proj2 (hash32_spec f5 _) (conj H5 L5)). auto.
Qed.
Lemma announces_one bs g n mx tip h g' n' mx' tip' h' :
  announces bs g n mx tip h -> announces bs g' n' mx' tip' h' -> (g, n, mx, tip, h) = (g', n', mx', tip', h').
Proof.
  intros (b & t & ty & r & E & HF & Hty & Hs) (b' & t' & ty' & r' & E' & HF' & Hty' & Hs').
  assert (Ht : t = t').
  { rewrite E in E'. clear E Hs Hs' bs. revert b' E' HF'. induction b as [|x b IH]; intros [|x' b'] E' HF'; cbn in E'.
    - congruence.
    - injection E' as <- E'. inversion_clear HF'. cbn in *. contradiction.
    - injection E' as -> E'. inversion_clear HF. cbn in *. contradiction.
    - injection E' as <- E'. inversion_clear HF. inversion_clear HF'. eapply IH; eassumption. }
  subst t'. destruct (says_split _ _ _ _ _ _ Hs) as (f1 & f2 & f3 & f4 & f5 & more & S & A1 & A2 & A3 & A4 & A5).
  destruct (says_split _ _ _ _ _ _ Hs') as (e1 & e2 & e3 & e4 & e5 & more' & S' & B1 & B2 & B3 & B4 & B5).
  rewrite S in S'. injection S' as <- <- <- <- <- <-. congruence.
Qed.

Section memo.
  Variable utf8 : list N -> bool.
  Lemma read_memo_spec data d : read_memo utf8 data = Ok d <->
    exists text, hexes data text /\ utf8 text = true /\ says text (g_hash d) (g_nonce d) (g_max d) (g_tip d) (g_call d).
  Proof.
    unfold read_memo. split.
    - destruct (hex_decode data) as [text|] eqn:Eh; [|discriminate]. cbn [of_opt rbind]. intros H.
      destruct (utf8 text) eqn:Eu; cbn [ensure rbind] in H; [|discriminate].
      destruct (split_join text) as [Ej Ep]. destruct (split text) as [|f1 [|f2 [|f3 [|f4 [|f5 more]]]]] eqn:Es; try discriminate.
      destruct (hash32 f1) as [g|] eqn:E1; cbn [of_opt rbind] in H; [|discriminate].
      destruct (parse_uint U32MAX f2) as [n|] eqn:E2; cbn [of_opt rbind] in H; [|discriminate].
      destruct (parse_uint U32MAX f3) as [m|] eqn:E3; cbn [of_opt rbind] in H; [|discriminate].
      destruct (parse_uint U64MAX f4) as [t|] eqn:E4; cbn [of_opt rbind] in H; [|discriminate].
      destruct (hash32 f5) as [h|] eqn:E5; cbn [of_opt rbind] in H; [|discriminate]. injection H as <-. cbn.
      apply hash32_spec in E1, E5. apply parse_spec in E2, E3, E4. apply hex_decode_spec in Eh.
      exists text. split; [exact Eh|]. split; [exact Eu|].
      rewrite !Forall_cons in Ep. destruct Ep as (P1 & P2 & P3 & P4 & P5 & _).
      exists f1, f2, f3, f4, f5, (match more with [] => [] | _ => 58 :: join more end).
      split.
      { rewrite <- Ej. destruct more as [|f6 more]; [cbn [join]; rewrite app_nil_r|cbn [join]]; reflexivity. }
      split; [destruct more; eauto|]. tauto.
    - intros (text & Hh & Hu & f1 & f2 & f3 & f4 & f5 & tail & -> & Htail & P1 & P2 & P3 & P4 & P5 & H1 & L1 & H2 & B2 & H3 & B3 & H4 & B4 & H5 & L5).
      apply hex_decode_spec in Hh. rewrite Hh. cbn [of_opt rbind]. rewrite Hu. cbn [ensure rbind].
      rewrite !split_field by assumption.
      assert (Es : exists more, split (f5 ++ tail) = f5 :: more).
      { destruct Htail as [->|(more & ->)]; [rewrite app_nil_r, split_last by assumption; eauto|rewrite split_field by assumption; eauto]. }
      destruct Es as (more & ->).
      rewrite (proj2 (hash32_spec f1 _) (conj H1 L1)), (proj2 (parse_spec _ f2 _) (conj H2 B2)), (proj2 (parse_spec _ f3 _) (conj H3 B3)),
        (proj2 (parse_spec _ f4 _) (conj H4 B4)), (proj2 (hash32_spec f5 _) (conj H5 L5)). cbn [of_opt rbind]. destruct d; reflexivity.
  Qed.

  (** Reading memos whose blobs are [bs]. *)
  Lemma extrinsic_announces ms : forall d bs, get_extrinsic_data utf8 ms = Ok d -> blobs ms = Some bs ->
    announces bs (g_hash d) (g_nonce d) (g_max d) (g_tip d) (g_call d).
  Proof.
    induction ms as [|m ms IH]; intros d bs H Hb; cbn [get_extrinsic_data blobs] in *; [discriminate|].
    destruct (hex_decode (m_data m)) as [data|] eqn:Ed; [|discriminate].
    destruct (hex_decode (m_type m)) as [ty|] eqn:Et; [|discriminate]. cbn [of_opt rbind] in H.
    destruct (blobs ms) as [bs'|] eqn:Eb; [|discriminate]. injection Hb as <-.
    destruct (utf8 ty) eqn:Eu; cbn [ensure rbind] in H; [|discriminate].
    destruct (bool_decide_reflect (map lower ty = EXTRINSIC)) as [Hty|Hty].
    - apply read_memo_spec in H. destruct H as (text & Hh & _ & Hs). apply hex_decode_spec in Hh. assert (text = data) by congruence. subst text.
      exists [], data, ty, bs'. split; [reflexivity|]. split; [constructor|]. auto.
    - destruct (IH d bs' H eq_refl) as (before & text & ty' & after & -> & HF & Hty' & Hs).
      exists ((data, ty) :: before), text, ty', after. split; [reflexivity|]. split; [constructor; [exact Hty|exact HF]|]. auto.
  Qed.
  Lemma announces_extrinsic ms : forall bs g n mx tip h, blobs ms = Some bs -> Forall (fun b => utf8 (fst b) = true /\ utf8 (snd b) = true) bs ->
    announces bs g n mx tip h -> get_extrinsic_data utf8 ms = Ok (MData g n mx tip h).
  Proof.
    induction ms as [|m ms IH]; intros bs g n mx tip h Hb Hu Han; cbn [get_extrinsic_data blobs] in *.
    - injection Hb as <-. destruct Han as (before & text & ty & after & E & _). destruct before; discriminate.
    - destruct (hex_decode (m_data m)) as [data|] eqn:Ed; [|discriminate].
      destruct (hex_decode (m_type m)) as [ty|] eqn:Et; [|discriminate]. cbn [of_opt rbind].
      destruct (blobs ms) as [bs'|] eqn:Eb; [|discriminate]. injection Hb as <-.
      inversion_clear Hu as [|? ? [Hu1 Hu2] Hu']. cbn [fst snd] in Hu1, Hu2. rewrite Hu2. cbn [ensure rbind].
      destruct Han as ([|b0 before] & text & ty' & after & E & HF & Hty & Hs).
      + cbn in E. injection E as <- <- <-. rewrite bool_decide_true by exact Hty.
        apply read_memo_spec. exists data. split; [apply hex_decode_spec, Ed|]. auto.
      + cbn in E. injection E as <- ->. inversion_clear HF as [|? ? HF1 HF2]. cbn [snd] in HF1. rewrite bool_decide_false by exact HF1.
        eapply IH; [reflexivity|exact Hu'|]. exists before, text, ty', after. auto.
  Qed.
End memo.

(** ** Owners *)
Lemma owner_is_holder s a f : FI s -> hold s !! a = Some f -> owner_of s f = a.
Proof.
  intros HI Ha. destruct (i_own _ HI _ _ Ha) as [Hin Hb]. pose proof (born_fp _ _ HI Hb) as Hf. unfold owner_of.
  destruct (List.find _ (defs s f)) as [[y t]|] eqn:E.
  - apply List.find_some in E. destruct E as [Hd Ht]. cbn in Ht. apply bool_decide_eq_true in Ht. subst t.
    cbn. apply (i_one _ HI y a f); [exact (i_only _ HI _ _ Hf Hd)|exact Ha].
  - exfalso. apply (List.find_none _ _ E) in Hin. cbn in Hin. discriminate.
Qed.

(** ** Steps *)
Definition same_but_xrp (s s' : xstate) : Prop :=
  x_fp s' = x_fp s /\ x_refs s' = x_refs s /\ x_now s' = x_now s /\ x_fees s' = x_fees s /\ x_log s' = x_log s.
Lemma debit_spec s a n s' : debit s a n = Ok s' ->
  n <= getN (x_xrp s) a /\ same_but_xrp s s' /\
  (forall y, getN (x_xrp s') y = if a =? y then getN (x_xrp s) y - n else getN (x_xrp s) y) /\
  ((x_nonce s' = x_nonce s /\ x_killed s' = x_killed s) \/ (x_nonce s' = delete a (x_nonce s) /\ x_killed s' = x_killed s ++ [a])).
Proof.
  unfold debit. destruct (N.leb_spec n (getN (x_xrp s) a)) as [Hn|]; cbn [ensure rbind]; [|discriminate].
  destruct (N.eqb_spec n 0) as [->|H0]; intros [= <-].
  - split; [exact Hn|]. split; [repeat split|]. split; [intros y; destruct (N.eqb_spec a y); [rewrite N.sub_0_r|]; reflexivity|]. left. auto.
  - split; [exact Hn|].
    assert (Hx : forall y, getN (<[a := getN (x_xrp s) a - n]> (x_xrp s)) y = if a =? y then getN (x_xrp s) y - n else getN (x_xrp s) y).
    { intros y. destruct (N.eqb_spec a y) as [->|Hne]; [apply getN_insert|apply getN_insert_ne, Hne]. }
    unfold reap. destruct (_ && _); (split; [repeat split|]); (split; [exact Hx|]); auto.
Qed.
Definition keeps (a : N) (s s' : xstate) : Prop :=
  exists ks, x_killed s' = x_killed s ++ ks /\ (~ In a ks -> getN (x_nonce s) a <= getN (x_nonce s') a).
Lemma keeps_refl a s s' : x_killed s' = x_killed s -> x_nonce s' = x_nonce s -> keeps a s s'.
Proof. intros H1 H2. exists []. rewrite app_nil_r. split; [exact H1|]. intros _. rewrite H2. lia. Qed.
Lemma keeps_trans a s s1 s2 : keeps a s s1 -> keeps a s1 s2 -> keeps a s s2.
Proof.
  intros (k1 & E1 & H1) (k2 & E2 & H2). exists (k1 ++ k2). rewrite E2, E1, app_assoc. split; [reflexivity|].
  intros Hin. rewrite in_app_iff in Hin. specialize (H1 (fun X => Hin (or_introl X))). specialize (H2 (fun X => Hin (or_intror X))). lia.
Qed.
Lemma keeps_delete a b s s' : x_nonce s' = delete b (x_nonce s) -> x_killed s' = x_killed s ++ [b] -> keeps a s s'.
Proof.
  intros E1 E2. exists [b]. split; [exact E2|]. intros Hin. rewrite E1. unfold getN. rewrite lookup_delete_ne; [lia|]. intros ->. apply Hin. left. reflexivity.
Qed.
Lemma debit_keeps a s b n s' : debit s b n = Ok s' -> keeps a s s'.
Proof.
  intros H. destruct (debit_spec _ _ _ _ H) as (_ & _ & _ & [[E1 E2]|[E1 E2]]); [exact (keeps_refl _ _ _ E2 E1)|exact (keeps_delete _ _ _ _ E1 E2)].
Qed.

(** What an inner call pays away. *)
Fixpoint spends (c : xcall) : N := match c with XPay _ n => n | XFee c' => spends c' | _ => 0 end.

Section execution.
  Variable maxp : N.
  Notation exec := (exec maxp).
  Lemma exec_spec pay c : forall s who s', exec pay s who c = Ok s' ->
    x_log s' = x_log s /\ x_now s' = x_now s /\ x_fees s' = x_fees s /\ x_refs s' = x_refs s /\
    (forall y, getN (x_xrp s) y <= getN (x_xrp s') y + if y =? who then spends c else 0) /\
    (forall a, keeps a s s').
  Proof.
    induction c as [dest n|f|c IH| |k]; intros s who s' H; cbn [XrplTxModel.exec spends] in *; try discriminate.
    - destruct (N.eqb_spec who dest) as [->|Hd].
      + destruct (n <=? _); cbn [ensure rbind] in H; [|discriminate]. injection H as <-. repeat (split; [reflexivity|]). split; [intros y; lia|].
        intros a. apply keeps_refl; reflexivity.
      + destruct (debit s who n) as [s1|] eqn:Ed; cbn [rbind] in H; [|discriminate]. injection H as <-.
        pose proof (fun a => debit_keeps a _ _ _ _ Ed) as Hk.
        destruct (debit_spec _ _ _ _ Ed) as (Hn & (E1 & E2 & E3 & E4 & E5) & Hx & _). cbn. repeat (split; [assumption|]). split.
        * intros y. specialize (Hx y). destruct (N.eq_dec dest y) as [->|Hdy].
          -- rewrite getN_insert. destruct (N.eqb_spec who y); [congruence|]. destruct (y =? who); lia.
          -- rewrite getN_insert_ne by exact Hdy. rewrite Hx, (N.eqb_sym y who). destruct (who =? y); lia.
        * intros a. destruct (Hk a) as (ks & K1 & K2). exists ks. split; [exact K1|exact K2].
    - destruct (dispatch maxp pay (x_fp s) who None f) as [f'|]; cbn [rbind] in H; [|discriminate]. injection H as <-.
      repeat (split; [reflexivity|]). split; [intros y; cbn; destruct (y =? who); lia|]. intros a. apply keeps_refl; reflexivity.
    - exact (IH _ _ _ H).
    - injection H as <-. repeat (split; [reflexivity|]). split; [intros y; destruct (y =? who); lia|]. intros a. apply keeps_refl; reflexivity.
  Qed.

  Lemma exec_FI pay c : forall s who s', FI (x_fp s) -> N.of_nat (length (born (x_fp s))) < 2 ^ 128 -> is_fp who = false ->
    exec pay s who c = Ok s' -> FI (x_fp s').
  Proof.
    induction c as [dest n|f|c IH| |k]; intros s who s' HI Hb Hf H; cbn [XrplTxModel.exec] in H; try discriminate.
    - destruct (who =? dest).
      + destruct (n <=? _); cbn [ensure rbind] in H; [|discriminate]. injection H as <-. exact HI.
      + destruct (debit s who n) as [s1|] eqn:Ed; cbn [rbind] in H; [|discriminate]. injection H as <-.
        destruct (debit_spec _ _ _ _ Ed) as (_ & (E1 & _) & _). cbn. rewrite E1. exact HI.
    - destruct (dispatch maxp pay (x_fp s) who None f) as [f'|] eqn:E; cbn [rbind] in H; [|discriminate]. injection H as <-. cbn.
      refine (eq_ind _ FI (fstep_FI maxp (x_fp s) (FExt pay who f) (conj Hf Hb) HI) f' _). unfold fstep. cbn. rewrite E. reflexivity.
    - exact (IH _ _ _ HI Hb Hf H).
    - injection H as <-. exact HI.
  Qed.

End execution.

Section steps.
  Variable maxp : N.
  Variable dec : list N -> option xtx.
  Variable utf8 : list N -> bool.
  Variable radr : list N -> option (list N).
  Variable acct : xkey -> option N.
  Variable verify : xkey -> payload -> list N -> bool.
  Variable hash : xcall -> list N.
  Variable paused : xcall -> bool.
  Variable genesis : list N.
  Notation exec := (exec maxp).
  Notation transact := (transact maxp dec acct paused).
  Notation apply_tx := (apply_tx maxp dec utf8 radr acct verify hash paused genesis).
  Notation xstep := (xstep maxp dec utf8 radr acct verify hash paused genesis).

  (** The parts of a transaction that was included: the account [a] of the key [k] signed [p]; [payer] paid; the call ran
      on [s2] or failed. *)
  Record included (s : xstate) (pay : bool) (msg sig : list N) (c : xcall) (fee : N) (s' : xstate)
      (x : xtx) (k : xkey) (a payer : N) (p : payload) (d : mdata) (s2 : xstate) : Prop := {
    n_dec : dec msg = Some x;
    n_key : get_public_key x = Ok k;
    n_acct : acct k = Some a;
    n_payer : if proxies c then hold (x_fp s) !! a = Some payer else payer = a;
    n_nz : payer <> 0;
    n_data : get_extrinsic_data utf8 (x_memos x) = Ok d;
    n_gen : g_hash d = genesis;
    n_hash : g_call d = hash c;
    n_max : x_now s <= g_max d;
    n_sign : signing radr x = Some p;
    n_ver : verify k p sig = true;
    n_fee : fee <= getN (x_xrp s) payer;
    n_s2 : x_fp s2 = x_fp s /\ x_refs s2 = x_refs s /\ x_now s2 = x_now s /\ x_log s2 = x_log s /\ x_fees s2 = x_fees s ++ [(payer, fee)];
    n_xrp : forall y, getN (x_xrp s2) y = if payer =? y then getN (x_xrp s) y - fee else getN (x_xrp s) y;
    n_eoa : let e := if proxies c then owner_of (x_fp s) payer else payer in
            exists n1, ((n1 = x_nonce s /\ x_killed s2 = x_killed s) \/ (n1 = delete payer (x_nonce s) /\ x_killed s2 = x_killed s ++ [payer])) /\
            g_nonce d = getN n1 e /\ x_nonce s2 = <[e := (g_nonce d + 1) mod 2 ^ 32]> n1;
    n_res : (s' = s2 /\ (paused c = true \/ exists er, exec pay s2 a c = Err er)) \/
            (paused c = false /\ exists s3, exec pay s2 a c = Ok s3 /\
             s' = XState (x_fp s3) (x_nonce s3) (x_xrp s3) (x_refs s3) (x_now s3) (x_killed s3) (x_fees s3)
                   (x_log s3 ++ [XEvent k a (x_account x) c (g_nonce d)]))
  }.
  Lemma apply_included s pay msg sig c fee s' : apply_tx pay s msg sig c fee = Ok s' ->
    exists x k a payer p d s2, included s pay msg sig c fee s' x k a payer p d s2.
  Proof.
    unfold XrplTxModel.apply_tx, check_self, get_account, validate_params, verify_tx. intros H.
    destruct (dec msg) as [x|] eqn:Ex; cbn [of_opt rbind] in H; [|discriminate].
    destruct (get_public_key x) as [k|] eqn:Ek; cbn [rbind] in H; [|discriminate].
    destruct (acct k) as [a|] eqn:Ea; cbn [of_opt rbind] in H; [|discriminate].
    destruct (if proxies c then of_opt (hold (x_fp s) !! a) 6 else Ok a) as [payer|] eqn:Ep; cbn [rbind] in H; [|discriminate].
    destruct (get_extrinsic_data utf8 (x_memos x)) as [d|] eqn:Edat; cbn [rbind] in H; [|discriminate].
    destruct (bool_decide_reflect (genesis = g_hash d)) as [Hg|]; cbn [ensure rbind] in H; [|discriminate].
    destruct (bool_decide_reflect (hash c = g_call d)) as [Hh|]; cbn [ensure rbind] in H; [|discriminate].
    destruct (negb _) eqn:Ent in H; cbn [ensure rbind] in H; [|discriminate].
    destruct (N.leb_spec (x_now s) (g_max d)) as [Hmx|]; cbn [ensure rbind] in H; [|discriminate].
    destruct (signing radr x) as [p|] eqn:Es; cbn [of_opt rbind] in H; [|discriminate].
    destruct (verify k p sig) eqn:Ev; cbn [ensure rbind fst snd] in H; [|discriminate].
    destruct (N.eqb_spec payer 0) as [|Hnz]; cbn [negb ensure rbind] in H; [discriminate|].
    destruct (debit s payer fee) as [s1|] eqn:Ed; cbn [rbind] in H; [|discriminate].
    destruct (debit_spec _ _ _ _ Ed) as (Hfee & (D1 & D2 & D3 & D4 & D5) & Dx & Dn). cbn [x_fp x_nonce] in H. rewrite D1 in H.
    remember (if proxies c then owner_of (x_fp s) payer else payer) as e eqn:He.
    destruct (negb (proxies c && (e =? 0))) eqn:Ez; cbn [ensure rbind] in H; [|discriminate].
    destruct (N.eqb_spec (g_nonce d) (getN (x_nonce s1) e)) as [Hn|]; cbn [ensure rbind] in H; [|discriminate].
    injection H as H. unfold XrplTxModel.transact, get_account in H. rewrite Ex in H. cbn [of_opt rbind] in H. rewrite Ek in H. cbn [rbind] in H. rewrite Ea in H. cbn [of_opt rbind] in H.
    set (s2 := set_nonce _ e _) in H.
    exists x, k, a, payer, p, d, s2. split; try assumption; try congruence.
    - destruct (proxies c); [|congruence]. destruct (hold (x_fp s) !! a); [cbn in Ep; congruence|discriminate].
    - unfold s2. cbn. rewrite D2, D3, D4, D5. auto.
    - cbv zeta. rewrite <- He. exists (x_nonce s1). split; [|split; [exact Hn|reflexivity]]. unfold s2. cbn. exact Dn.
    - destruct (paused c) eqn:Epa; cbn [negb ensure rbind] in H.
      + left. cbn [commit] in H. auto.
      + destruct (exec pay s2 a c) as [s3|er] eqn:Ee; cbn [rbind commit] in H.
        * right. split; [reflexivity|]. exists s3. split; [reflexivity|]. symmetry. exact H.
        * left. split; [symmetry; exact H|]. right. exists er. reflexivity.
  Qed.

  (** The invariant of futurepasses along histories in which nobody signs for an address with the futurepass prefix. *)
  Definition xfine (s : xstate) (o : xop) : Prop :=
    N.of_nat (length (born (x_fp s))) < 2 ^ 128 /\ match o with OFp f => is_fp (signer f) = false | _ => True end.
  Lemma xstep_FI s o : (forall k a, acct k = Some a -> is_fp a = false) -> xfine s o -> FI (x_fp s) -> FI (x_fp (xstep s o)).
  Proof.
    intros Hac [Hb Hs] HI. destruct o as [pay msg sig c fee|f|a n|a n|a n|a|]; cbn [XrplTxModel.xstep]; try exact HI.
    - destruct (apply_tx pay s msg sig c fee) as [s'|] eqn:Ea; cbn [commit]; [|exact HI].
      destruct (apply_included _ _ _ _ _ _ _ Ea) as (x & k & a & payer & p & d & s2 & Hin).
      destruct (n_s2 _ _ _ _ _ _ _ _ _ _ _ _ _ _ Hin) as (E1 & _).
      destruct (n_res _ _ _ _ _ _ _ _ _ _ _ _ _ _ Hin) as [[-> _]|(_ & s3 & Hex & ->)]; [rewrite E1; exact HI|]. cbn.
      refine (exec_FI maxp pay c s2 a s3 _ _ (Hac _ _ (n_acct _ _ _ _ _ _ _ _ _ _ _ _ _ _ Hin)) Hex); rewrite E1; assumption.
    - cbn. exact (fstep_FI maxp (x_fp s) f (conj Hs Hb) HI).
    - destruct (debit s a n) as [s'|] eqn:Ed; cbn [commit]; [|exact HI]. destruct (debit_spec _ _ _ _ Ed) as (_ & (E1 & _) & _). rewrite E1. exact HI.
    - destruct (n <? _); [|exact HI]. unfold reap. destruct (_ && _); exact HI.
  Qed.
End steps.
