(** Properties of signatures on transactions (C188). *)
From Verif Require Import SigModel.

(** ** Messages wrapped for Ethereum wallets can be told apart *)
Lemma digits_mono f g n m : n <= m -> (N.to_nat (N.log2 m) < g)%nat -> (length (digits_ f n) <= length (digits_ g m))%nat.
Proof.
  revert g n m. induction f as [|f IH]; intros g n m Hn Hg; cbn [digits_]; [cbn; lia|].
  destruct g as [|g]; [lia|]. cbn [digits_].
  destruct (N.ltb_spec n 10) as [Hn'|Hn'], (N.ltb_spec m 10) as [Hm|Hm]; cbn [length]; rewrite ?app_length; cbn [length]; try lia.
  assert (X : (length (digits_ f (n / 10)) <= length (digits_ g (m / 10)))%nat); [|lia].
  apply IH; [apply N.div_le_mono; lia|].
  assert (L : N.log2 (m / 10) < N.log2 m); [|lia].
  assert (Hd : m / 10 <= m / 2) by (apply N.div_le_compat_l; lia).
  assert (Hl : N.log2 (m / 10) <= N.log2 (m / 2)) by (apply N.log2_le_mono, Hd).
  rewrite <- N.div2_div, N.div2_spec, N.log2_shiftr in Hl.
  assert (1 <= N.log2 m) by (change 1 with (N.log2 2); apply N.log2_le_mono; lia). lia.
Qed.
Lemma digits_len n m : n <= m -> (length (digits n) <= length (digits m))%nat.
Proof. intros H. apply digits_mono; [exact H|lia]. Qed.
Lemma eth_signed_length m : length (eth_signed m) = (26 + length (digits (len m)) + length m)%nat.
Proof. unfold eth_signed. rewrite !app_length. change (length prefix) with 26%nat. lia. Qed.
Lemma eth_signed_inj a b : eth_signed a = eth_signed b -> a = b.
Proof.
  intros E. assert (L : length a = length b).
  { pose proof (f_equal (@length _) E) as EL. rewrite !eth_signed_length in EL.
    destruct (Nat.lt_trichotomy (length a) (length b)) as [H|[H|H]]; [|exact H|].
    - pose proof (digits_len (len a) (len b)) as D. unfold len in *. lia.
    - pose proof (digits_len (len b) (len a)) as D. unfold len in *. lia. }
  unfold eth_signed in E. apply app_inv_head in E. unfold len in E. rewrite L in E. apply app_inv_head in E. exact E.
Qed.

(** * C188: a signature authorises one transaction *)
(** A payload as extrinsics have them: it starts with the indices of an existing function (there is none with index 69 in
    the pallet with index 25, the bridge) and ends with 72 bytes of versions and hashes. *)
Definition proper (p : bytes) : Prop := exists pallet function args extra spec txv genesis birth,
  p = payload pallet function args extra spec txv genesis birth /\ (pallet, function) <> (25, 69) /\
  length spec = 4%nat /\ length txv = 4%nat /\ length genesis = 32%nat /\ length birth = 32%nat.
(** The strings that are hashed to check a signature on [p]. *)
Definition hashed (blake : bytes -> bytes) (p : bytes) : list bytes :=
  let m := signable blake p in [m; eth_signed m; eth_signed (blake m)].
(** No hash collisions among these strings, and no signature that gives the same signer for two different hashes of them. *)
Definition sound {sigt acct : Type} (keccak blake : bytes -> bytes) (recover : sigt -> bytes -> option acct) (p q : bytes) : Prop :=
  (forall x y, In x (hashed blake p) -> In y (hashed blake q) -> keccak x = keccak y -> x = y) /\
  (forall x y, In x [p; blake p] -> In y [q; blake q] -> blake x = blake y -> x = y) /\
  (forall x, length (blake x) = 32%nat) /\
  (forall s a x y, In x (hashed blake p) -> In y (hashed blake q) ->
     recover s (keccak x) = Some a -> recover s (keccak y) = Some a -> keccak x = keccak y).

Lemma proper_long p : proper p -> (74 <= length p)%nat.
Proof.
  intros (? & ? & args & extra & spec & txv & g & b & -> & _ & H1 & H2 & H3 & H4).
  unfold payload. cbn [length]. rewrite !app_length. lia.
Qed.
Lemma proper_not_signed p m : proper p -> p <> eth_signed m.
Proof.
  intros (a & f & args & extra & spec & txv & g & b & -> & Hn & _) E.
  unfold payload, eth_signed, prefix in E. cbn [app] in E. injection E as E1 E2 _. apply Hn. congruence.
Qed.
Lemma verify_cases {sigt acct} eqb keccak blake (recover : sigt -> bytes -> option acct) s p a :
  (forall x y, eqb x y = true <-> x = y) ->
  accepted eqb keccak blake recover s p a = true -> exists x, In x (hashed blake p) /\ recover s (keccak x) = Some a.
Proof.
  intros He. unfold accepted, verify, verify_signature, hashed. set (m := signable blake p).
  intros H. destruct (recover s (keccak m)) as [b|] eqn:E1; [destruct (eqb b a) eqn:Q1|].
  1: { exists m. split; [left; reflexivity|]. apply He in Q1. congruence. }
  all: destruct (recover s (keccak (eth_signed m))) as [b2|] eqn:E2; [destruct (eqb b2 a) eqn:Q2|].
  1, 4: exists (eth_signed m); split; [right; left; reflexivity|]; apply He in Q2; congruence.
  all: destruct (recover s (keccak (eth_signed (blake m)))) as [b3|] eqn:E3; [|discriminate H].
  all: exists (eth_signed (blake m)); split; [right; right; left; reflexivity|]; apply He in H; congruence.
Qed.
Theorem C188_one {sigt acct} (eqb : acct -> acct -> bool) keccak blake (recover : sigt -> bytes -> option acct) s p q a :
  (forall x y, eqb x y = true <-> x = y) -> proper p -> proper q -> sound keccak blake recover p q ->
  accepted eqb keccak blake recover s p a = true -> accepted eqb keccak blake recover s q a = true -> p = q.
Proof.
  intros He Hp Hq (S1 & S2 & S3 & S4) A B.
  apply verify_cases in A; [|exact He]. apply verify_cases in B; [|exact He].
  destruct A as (x & Hx & Rx), B as (y & Hy & Ry).
  assert (E : x = y) by (apply S1; eauto). clear Rx Ry. subst y.
  pose proof (proper_long _ Hp) as Lp. pose proof (proper_long _ Hq) as Lq.
  assert (Sg : forall r, signable blake r = blake r /\ (256 < length r)%nat \/ signable blake r = r /\ (length r <= 256)%nat).
  { intros r. unfold signable. destruct (N.ltb_spec 256 (len r)); unfold len in *; [left|right]; split; auto; lia. }
  assert (D : forall m, (1 <= length (digits (len m)))%nat).
  { intros m. pose proof (digits_len 0 (len m) ltac:(lia)) as X. change (length (digits 0)) with 1%nat in X. exact X. }
  assert (V : forall m z, (6 <= length m)%nat -> blake z <> eth_signed m).
  { intros m z Hm Hz. apply (f_equal (@length _)) in Hz. rewrite S3, eth_signed_length in Hz. specialize (D m). lia. }
  assert (Ip : In p [p; blake p]) by (left; reflexivity). assert (Iq : In q [q; blake q]) by (left; reflexivity).
  assert (Jp : In (blake p) [p; blake p]) by (right; left; reflexivity). assert (Jq : In (blake q) [q; blake q]) by (right; left; reflexivity).
  assert (Bp : blake p <> q) by (intros Hz; apply (f_equal (@length _)) in Hz; rewrite S3 in Hz; lia).
  assert (Bq : p <> blake q) by (intros Hz; apply (f_equal (@length _)) in Hz; rewrite S3 in Hz; lia).
  unfold hashed in Hx, Hy.
  destruct (Sg p) as [[Ep Gp]|[Ep Gp]], (Sg q) as [[Eq Gq]|[Eq Gq]]; rewrite Ep in Hx; rewrite Eq in Hy; clear Ep Eq Sg.
  all: destruct Hx as [<-|[<-|[<-|[]]]], Hy as [Hy|[Hy|[Hy|[]]]].
  all: try (apply eth_signed_inj in Hy).
  all: try (exfalso; eapply proper_not_signed; [|exact Hy]; assumption).
  all: try (exfalso; eapply proper_not_signed; [|symmetry; exact Hy]; assumption).
  all: try (exfalso; revert Hy; apply V; rewrite ?S3; lia).
  all: try (exfalso; symmetry in Hy; revert Hy; apply V; rewrite ?S3; lia).
  all: try congruence.
  all: try (apply S2; auto; congruence).
  all: try (exfalso; assert (X : blake p = q) by (apply S2; auto; congruence); contradiction).
  all: try (exfalso; assert (X : p = blake q) by (apply S2; auto; congruence); contradiction).
  all: try (exfalso; apply (f_equal (@length _)) in Hy; rewrite ?S3 in Hy; lia).
  all: try (assert (X : blake p = blake q) by (apply S2; auto; congruence); apply S2; auto).
Qed.
(** Each way of signing is accepted: the payload itself, as a wallet's message, or its hash as a wallet's message; a long
    payload always by its hash. *)
Theorem C188_ways {sigt acct} (eqb : acct -> acct -> bool) keccak blake (recover : sigt -> bytes -> option acct) s p a x :
  (forall x y, eqb x y = true <-> x = y) ->
  In x (if 256 <? len p then [blake p; eth_signed (blake p)] else [p; eth_signed p; eth_signed (blake p)]) ->
  recover s (keccak x) = Some a -> accepted eqb keccak blake recover s p a = true.
Proof.
  intros He Hx Hr. assert (R : eqb a a = true) by (apply He; reflexivity).
  unfold accepted, verify, signable, verify_signature.
  destruct (256 <? len p); cbn [In] in Hx.
  - destruct Hx as [<-|[<-|[]]]; rewrite Hr, R; [reflexivity|]. destruct (recover s (keccak (blake p))) as [b|]; [destruct (eqb b a); reflexivity|reflexivity].
  - destruct Hx as [<-|[<-|[<-|[]]]]; rewrite Hr, R; [reflexivity| |].
    + destruct (recover s (keccak p)) as [b|]; [destruct (eqb b a); reflexivity|reflexivity].
    + destruct (recover s (keccak p)) as [b|]; [destruct (eqb b a); [reflexivity|]|];
      (destruct (recover s (keccak (eth_signed p))) as [c|]; [destruct (eqb c a); reflexivity|reflexivity]).
Qed.

(** ** A case: hashes that keep their input, signatures that name signer and hash.  [blake] is the input, cut or filled up to
    32 places, with what is cut off packed into the first. *)
Fixpoint pack (m : bytes) : N := match m with [] => 1 | x :: r => (x + 256 * pack r) end.
Definition blake_ (m : bytes) : bytes := pack m :: repeat 0 31.
Definition recover_ (s : N * bytes) (h : bytes) : option N := if bool_decide (snd s = h) then Some (fst s) else None.
Definition p1 : bytes := payload 5 0 [1; 2; 3] [4] (repeat 7 4) (repeat 8 4) (repeat 9 32) (repeat 10 32).
Definition p2 : bytes := payload 5 3 [1; 2; 3] [4] (repeat 7 4) (repeat 8 4) (repeat 9 32) (repeat 10 32).
Definition p3 : bytes := payload 17 3 (repeat 77 300) [4] (repeat 7 4) (repeat 8 4) (repeat 9 32) (repeat 10 32).
Lemma eqb_ok : forall x y : N, (x =? y) = true <-> x = y.
Proof. exact N.eqb_eq. Qed.
Definition soundb (p q : bytes) : bool :=
  forallb (fun x => forallb (fun y => implb (bool_decide (blake_ x = blake_ y)) (bool_decide (x = y))) [q; blake_ q]) [p; blake_ p].
Lemma sound_ok p q : soundb p q = true -> sound (fun x => x) blake_ recover_ p q.
Proof.
  intros H. split; [auto|]. split; [|split; [reflexivity|]].
  - intros x y Hx Hy E. unfold soundb in H. rewrite forallb_forall in H. specialize (H _ Hx).
    rewrite forallb_forall in H. specialize (H _ Hy). rewrite bool_decide_eq_true_2 in H by exact E.
    cbn [implb] in H. exact (bool_decide_eq_true_1 _ H).
  - intros s a x y _ _. unfold recover_. destruct (bool_decide_reflect (snd s = x)) as [<-|]; [|discriminate].
    destruct (bool_decide_reflect (snd s = y)) as [<-|]; [|discriminate]. reflexivity.
Qed.
Example C188_ex :
  proper p1 /\ proper p3 /\ sound (fun x => x) blake_ recover_ p1 p2 /\ sound (fun x => x) blake_ recover_ p1 p3 /\
  let ok s p := accepted N.eqb (fun x => x) blake_ recover_ s p 42 in
  ok (42, p1) p1 = true /\ ok (42, eth_signed (blake_ p1)) p1 = true /\ ok (42, p1) p2 = false /\
  ok (42, eth_signed (blake_ p3)) p3 = true /\ ok (42, p3) p3 = false /\ ok (43, p1) p1 = false.
Proof.
  split; [|split; [|split; [|split]]].
  - unfold proper, p1. do 8 eexists. split; [reflexivity|]. repeat split. discriminate.
  - unfold proper, p3. do 8 eexists. split; [reflexivity|]. repeat split. discriminate.
  - apply sound_ok. vm_compute. reflexivity.
  - apply sound_ok. vm_compute. reflexivity.
  - vm_compute. repeat split.
Qed.
(** That payloads do not start like a wallet's message is needed: taken as bytes, a wallet's signature on [p1] is also one
    on another message. *)
Example verify_alone : let q := eth_signed p1 in let s := (42, q) in q <> p1 /\
  verify N.eqb (fun x => x) blake_ recover_ s p1 42 = true /\ verify N.eqb (fun x => x) blake_ recover_ s q 42 = true.
Proof. vm_compute. repeat split. discriminate. Qed.

Definition C188_assumptions := (@C188_one, @C188_ways, @eth_signed_inj).
Print Assumptions C188_assumptions.
