(** C174, C175: the upgrade of the NFI pallet's storage. *)
From Verif Require Export NfiMigProofs.

(** ** Bytes *)
Lemma le_length n x : length (le n x) = n.
Proof. revert x. induction n as [|n IH]; intros x; [reflexivity|]. cbn. f_equal. apply IH. Qed.
Lemma unle_le n x : x < 256 ^ N.of_nat n -> unle (le n x) = x.
Proof.
  revert x. induction n as [|n IH]; intros x H; [cbn in *; lia|]. rewrite Nat2N.inj_succ, N.pow_succ_r' in H. cbn [le unle].
  rewrite IH by (apply N.div_lt_upper_bound; lia). pose proof (N.div_mod x 256). lia.
Qed.
Lemma le_inj n x y : x < 256 ^ N.of_nat n -> y < 256 ^ N.of_nat n -> le n x = le n y -> x = y.
Proof. intros Hx Hy H. rewrite <- (unle_le n x Hx), <- (unle_le n y Hy), H. reflexivity. Qed.
Lemma le_add a b x : le (a + b) x = le a x ++ le b (x / 256 ^ N.of_nat a).
Proof.
  revert x. induction a as [|a IH]; intros x; [cbn; rewrite N.div_1_r; reflexivity|]. cbn [Nat.add le app]. f_equal. rewrite IH. f_equal.
  rewrite Nat2N.inj_succ, N.pow_succ_r', N.div_div by (try apply N.pow_nonzero; lia). reflexivity.
Qed.
Lemma le_mod n x : le n (x mod 256 ^ N.of_nat n) = le n x.
Proof.
  revert x. induction n as [|n IH]; intros x; [reflexivity|]. cbn [le]. rewrite Nat2N.inj_succ, N.pow_succ_r'.
  assert (P : 256 ^ N.of_nat n <> 0) by (apply N.pow_nonzero; lia). set (p := 256 ^ N.of_nat n) in *.
  rewrite N.mod_mul_r by lia. rewrite <- (IH (x / 256)). fold p. clearbody p. f_equal.
  - rewrite (N.mul_comm 256), N.mod_add, N.mod_mod by lia. reflexivity.
  - rewrite (N.mul_comm 256), N.div_add by lia. rewrite N.div_small by (apply N.mod_lt; lia). reflexivity.
Qed.
Lemma read32_le x l : x < 2 ^ 32 -> read32 (le 4 x ++ l) = Some (x, l).
Proof.
  intros H. unfold read32. rewrite app_length, le_length. cbn [Nat.leb Nat.add].
  rewrite <- (le_length 4 x) at 1. rewrite firstn_app, firstn_all, Nat.sub_diag. cbn [firstn]. rewrite app_nil_r. rewrite unle_le by exact H.
  rewrite <- (le_length 4 x) at 1. rewrite skipn_app, skipn_all, Nat.sub_diag. reflexivity.
Qed.

Section props.
  Variable hash : list N -> list N.
  Variable chain : N.
  Hypothesis hash8 : forall l, length (hash l) = 8%nat.
  Hypothesis chain64 : chain < 2 ^ 64.
  Notation key1 := (key1 hash).
  Notation data_old := (data_old hash).
  Notation data_new := (data_new hash chain).
  Notation on_old := (on_old hash).
  Notation on_new := (on_new hash chain).
  Notation nfi_upgrade := (nfi_upgrade hash chain).

  (** The ids as one reads the chain id as two of them. *)
  Definition lo : N := chain mod 2 ^ 32.
  Definition hi : N := chain / 2 ^ 32.
  Definition token_ids (t : N * N) : Prop := fst t < 2 ^ 32 /\ snd t < 2 ^ 32.
  (** The storage of the version before. *)
  Definition before (s : nstore) : Prop :=
    v_version s = 0 /\ (forall k, is_Some (v_data s !! k) -> exists t, token_ids t /\ k = data_old t) /\
    (forall k, is_Some (v_on s !! k) -> exists c, c < 2 ^ 32 /\ k = on_old c).

  Lemma unhash_app l r : unhash (hash l ++ r) = r.
  Proof. unfold unhash. rewrite <- (hash8 l). rewrite skipn_app, skipn_all, Nat.sub_diag. reflexivity. Qed.
  Lemma lo_lt : lo < 2 ^ 32. Proof. apply N.mod_lt. lia. Qed.
  Lemma hi_lt : hi < 2 ^ 32. Proof. apply N.div_lt_upper_bound; [lia|]. rewrite <- N.pow_add_r. exact chain64. Qed.
  Lemma le_chain : le 8 chain = le 4 lo ++ le 4 hi.
  Proof. rewrite (le_add 4 4). unfold lo, hi. rewrite <- (le_mod 4 chain). reflexivity. Qed.
  Lemma key1_inj a b : length a = length b -> key1 a = key1 b -> a = b.
  Proof.
    intros L H. unfold NfiMigModel.key1 in H. apply app_inj_1 in H; [|rewrite !hash8; reflexivity]. destruct H as [_ H]. apply app_inj_1 in H; [|exact L]. apply H.
  Qed.
  Lemma key1_length a : length (key1 a) = (17 + length a)%nat.
  Proof. unfold NfiMigModel.key1. rewrite !app_length, !hash8. cbn. lia. Qed.
  Lemma key1_nonempty a : lexlt [] (key1 a) = true.
  Proof. pose proof (key1_length a) as L. destruct (key1 a); [discriminate|reflexivity]. Qed.

  Lemma data_read_old t : token_ids t -> data_read (data_old t) = Some t.
  Proof.
    intros [H1 H2]. unfold data_read, NfiMigModel.data_old, NfiMigModel.key1. rewrite unhash_app, <- app_assoc, read32_le, read32_le, unhash_app by assumption. cbn. destruct t; reflexivity.
  Qed.
  Lemma data_read_new t : data_read (data_new t) = None \/ data_read (data_new t) = Some (lo, hi).
  Proof.
    unfold data_read, NfiMigModel.data_new, NfiMigModel.key1. rewrite unhash_app, le_chain, <- !app_assoc, read32_le, read32_le by (apply lo_lt || apply hi_lt).
    destruct (read_sub _); auto.
  Qed.
  Lemma data_new_inj a b : token_ids a -> token_ids b -> data_new a = data_new b -> a = b.
  Proof.
    intros [A1 A2] [B1 B2] H. apply key1_inj in H; [|repeat (rewrite app_length, ?le_length; cbn [length]); rewrite !le_length; reflexivity].
    apply app_inj_1 in H; [|reflexivity]. destruct H as [_ H]. assert (H' := f_equal (@tl N) H). unfold tl in H'. apply app_inj_1 in H'; [|rewrite !le_length; reflexivity]. destruct H' as [E1 E2]. apply (f_equal (@tl N)) in E2. unfold tl in E2.
    apply le_inj in E1; [|assumption..]. apply le_inj in E2; [|assumption..]. destruct a, b. cbn in *. congruence.
  Qed.
  Lemma data_disjoint a b : data_new a <> data_old b.
  Proof.
    intros H. apply (f_equal length) in H. unfold NfiMigModel.data_new, NfiMigModel.data_old in H. rewrite !key1_length in H.
    repeat (rewrite app_length in H; cbn [length] in H). rewrite !le_length in H. lia.
  Qed.
  Lemma on_read_old c : c < 2 ^ 32 -> on_read (on_old c) = Some c.
  Proof. intros H. unfold on_read, NfiMigModel.on_old, NfiMigModel.key1. rewrite unhash_app, read32_le, unhash_app by assumption. reflexivity. Qed.
  Lemma on_read_new c : on_read (on_new c) = None \/ on_read (on_new c) = Some lo.
  Proof.
    unfold on_read, NfiMigModel.on_new, NfiMigModel.key1. rewrite unhash_app, le_chain, <- !app_assoc, read32_le by apply lo_lt. destruct (read_sub _); auto.
  Qed.
  Lemma on_new_inj a b : a < 2 ^ 32 -> b < 2 ^ 32 -> on_new a = on_new b -> a = b.
  Proof.
    intros A B H. apply key1_inj in H; [|rewrite !app_length; cbn [length]; rewrite !le_length; reflexivity].
    apply app_inj_1 in H; [|reflexivity]. destruct H as [_ H]. apply (f_equal (@tl N)) in H. unfold tl in H. apply le_inj in H; assumption.
  Qed.
  Lemma on_disjoint a b : on_new a <> on_old b.
  Proof.
    intros H. apply (f_equal length) in H. unfold NfiMigModel.on_new, NfiMigModel.on_old in H. rewrite !key1_length, app_length in H. cbn [length] in H. rewrite !le_length in H. lia.
  Qed.
  Lemma data_nonempty t : lexlt [] (data_old t) = true. Proof. apply key1_nonempty. Qed.
  Lemma on_nonempty c : lexlt [] (on_old c) = true. Proof. apply key1_nonempty. Qed.
  Lemma spur_ids : token_ids (lo, hi). Proof. split; [apply lo_lt|apply hi_lt]. Qed.

  Lemma data_result m0 fuel m' : (forall k, is_Some (m0 !! k) -> exists t, token_ids t /\ k = data_old t) ->
    walk data_read data_new fuel m0 [] = Some m' ->
    (forall a, m' !! data_old a = m0 !! data_old a) /\ (forall a, token_ids a -> a <> (lo, hi) -> m' !! data_new a = m0 !! data_old a) /\
    (forall k, is_Some (m' !! k) -> (exists a, token_ids a /\ k = data_old a) \/ (exists a, token_ids a /\ k = data_new a)) /\
    (forall v : N, m' !! data_new (lo, hi) = Some v -> exists a, token_ids a /\ m0 !! data_old a = Some v).
  Proof.
    intros H W. refine (walk_result data_read data_new data_old token_ids (lo, hi) data_read_old (fun a _ => data_read_new a) spur_ids data_new_inj data_disjoint m0 fuel m0 [] m' H _ W).
    apply (wbetween_start data_new data_old token_ids (lo, hi) data_nonempty data_disjoint m0 H).
  Qed.
  Lemma on_result m0 fuel m' : (forall k, is_Some (m0 !! k) -> exists c, c < 2 ^ 32 /\ k = on_old c) ->
    walk on_read on_new fuel m0 [] = Some m' ->
    (forall a, m' !! on_old a = m0 !! on_old a) /\ (forall a, a < 2 ^ 32 -> a <> lo -> m' !! on_new a = m0 !! on_old a) /\
    (forall k, is_Some (m' !! k) -> (exists a, a < 2 ^ 32 /\ k = on_old a) \/ (exists a, a < 2 ^ 32 /\ k = on_new a)) /\
    (forall v : bool, m' !! on_new lo = Some v -> exists a, a < 2 ^ 32 /\ m0 !! on_old a = Some v).
  Proof.
    intros H W. refine (walk_result on_read on_new on_old (fun c => c < 2 ^ 32) lo on_read_old (fun a _ => on_read_new a) lo_lt on_new_inj on_disjoint m0 fuel m0 [] m' H _ W).
    apply (wbetween_start on_new on_old (fun c => c < 2 ^ 32) lo on_nonempty on_disjoint m0 H).
  Qed.
  Lemma upgrade_inv fuel s s' : before s -> nfi_upgrade fuel s = Some s' ->
    walk data_read data_new fuel (v_data s) [] = Some (v_data s') /\ walk on_read on_new fuel (v_on s) [] = Some (v_on s') /\ v_version s' = 1.
  Proof.
    intros (B & _) H. unfold NfiMigModel.nfi_upgrade in H. rewrite B in H. cbn in H.
    destruct (walk data_read _ _ _ _) as [d|]; [|discriminate]. destruct (walk on_read _ _ _ _) as [o|]; [|discriminate]. injection H as <-. auto.
  Qed.

  (** ** C174: every token keeps its data, every collection its flag *)
  Theorem C174_kept fuel s s' : before s -> nfi_upgrade fuel s = Some s' ->
    (forall t, token_ids t -> t <> (chain mod 2 ^ 32, chain / 2 ^ 32) -> data_of hash chain s' t = old_data_of hash s t) /\
    (forall c, c < 2 ^ 32 -> c <> chain mod 2 ^ 32 -> enabled hash chain s' c = old_enabled hash s c).
  Proof.
    intros B H. destruct (upgrade_inv fuel s s' B H) as (Hd & Ho & _). destruct B as (_ & Bd & Bo).
    split; [exact (proj1 (proj2 (data_result _ _ _ Bd Hd)))|]. intros c Hc Nc. unfold enabled, old_enabled. rewrite (proj1 (proj2 (on_result _ _ _ Bo Ho)) c Hc Nc). reflexivity.
  Qed.
  (** The ids of other chains' tokens: [GenericCollectionId], [GenericSerialNumber], /repo/pallet/nfi/src/types.rs:85-111, in
      SCALE: the number of the variant, then its contents; U32 is the first. *)
  Inductive gid := GU32 (n : N) | GOther (variant : N) (payload : list N).
  Definition gid_ok (g : gid) : Prop := match g with GU32 n => n < 2 ^ 32 | GOther v _ => 1 <= v end.
  Definition scale_gid (g : gid) : list N := match g with GU32 n => 0 :: le 4 n | GOther v l => v :: l end.
  (** [Twox64Concat] of both keys of the double map; the second is the only NFI type. *)
  Definition place (k : list N) : raw := (hash k ++ k) ++ (hash [0] ++ [0]).
  Lemma place_inj a b : place a = place b -> a = b.
  Proof.
    intros E. unfold place in E. apply app_inv_tail in E. apply (app_inj_1 _ _ _ _) in E; [exact (proj2 E)|rewrite !hash8; reflexivity].
  Qed.
  (** What the pallet reads is under the id of a token or collection of this chain, with U32 ids, and is under no other id. *)
  Theorem C174_places s :
    (forall t, data_of hash chain s t = v_data s !! place (le 8 chain ++ scale_gid (GU32 (fst t)) ++ scale_gid (GU32 (snd t)))) /\
    (forall c, enabled hash chain s c = default false (v_on s !! place (le 8 chain ++ scale_gid (GU32 c)))) /\
    (forall t ch g n, token_ids t -> ch < 2 ^ 64 -> gid_ok g -> gid_ok n ->
       place (le 8 ch ++ scale_gid g ++ scale_gid n) = place (le 8 chain ++ scale_gid (GU32 (fst t)) ++ scale_gid (GU32 (snd t))) ->
       ch = chain /\ g = GU32 (fst t) /\ n = GU32 (snd t)) /\
    (forall c ch g, c < 2 ^ 32 -> ch < 2 ^ 64 -> gid_ok g ->
       place (le 8 ch ++ scale_gid g) = place (le 8 chain ++ scale_gid (GU32 c)) -> ch = chain /\ g = GU32 c).
  Proof.
    assert (C8 : forall ch r r', ch < 2 ^ 64 -> le 8 ch ++ r = le 8 chain ++ r' -> ch = chain /\ r = r').
    { intros ch r r' L E. apply (app_inj_1 _ _ _ _) in E; [|rewrite !le_length; reflexivity]. destruct E as [E ->].
      split; [|reflexivity]. apply (le_inj 8); [exact L|exact chain64|exact E]. }
    assert (G : forall g c r r', gid_ok g -> c < 2 ^ 32 -> scale_gid g ++ r = scale_gid (GU32 c) ++ r' -> g = GU32 c /\ r = r').
    { intros g c r r' O L E. destruct g as [n|v l]; cbn [scale_gid gid_ok] in *.
      - apply (f_equal (@tl N)) in E. change (le 4 n ++ r = le 4 c ++ r') in E. apply (app_inj_1 (le 4 n) (le 4 c)) in E; [|rewrite !le_length; reflexivity]. destruct E as [E ->].
        split; [|reflexivity]. f_equal. apply (le_inj 4); [exact O|exact L|exact E].
      - exfalso. cbn [app] in E. injection E as E _. lia. }
    split; [|split; [|split]].
    - intros t. unfold data_of, NfiMigModel.data_new, NfiMigModel.key1, place. cbn [scale_gid app]. rewrite <- !app_assoc. reflexivity.
    - intros c. unfold enabled, NfiMigModel.on_new, NfiMigModel.key1, place. cbn [scale_gid app]. rewrite <- !app_assoc.
      match goal with |- match ?x with Some b => b | None => false end = default false ?y => change y with x; destruct x; reflexivity end.
    - intros t ch g n [T1 T2] L Og On E. apply place_inj in E. destruct (C8 _ _ _ L E) as [-> E1].
      destruct (G g (fst t) _ _ Og T1 E1) as [-> E2]. rewrite <- (app_nil_r (scale_gid n)), <- (app_nil_r (scale_gid (GU32 (snd t)))) in E2.
      destruct (G n (snd t) _ _ On T2 E2) as [-> _]. tauto.
    - intros c ch g T L Og E. apply place_inj in E. destruct (C8 _ _ _ L E) as [-> E1].
      rewrite <- (app_nil_r (scale_gid g)), <- (app_nil_r (scale_gid (GU32 c))) in E1. destruct (G g c _ _ Og T E1) as [-> _]. tauto.
  Qed.
  (** What the one token or collection left out has afterwards is at least something some token or collection had. *)
  Theorem C174_no_invention fuel s s' : before s -> nfi_upgrade fuel s = Some s' ->
    (forall v, data_of hash chain s' (chain mod 2 ^ 32, chain / 2 ^ 32) = Some v -> exists t, token_ids t /\ old_data_of hash s t = Some v) /\
    (enabled hash chain s' (chain mod 2 ^ 32) = true -> exists c, c < 2 ^ 32 /\ old_enabled hash s c = true).
  Proof.
    intros B H. destruct (upgrade_inv fuel s s' B H) as (Hd & Ho & _). destruct B as (_ & Bd & Bo).
    split; [exact (proj2 (proj2 (proj2 (data_result _ _ _ Bd Hd))))|]. unfold enabled, old_enabled. change (chain mod 2 ^ 32) with lo.
    destruct (v_on s' !! on_new lo) as [b|] eqn:E; [|discriminate]. intros ->. destruct (proj2 (proj2 (proj2 (on_result _ _ _ Bo Ho))) true E) as (c & Hc & Ec). exists c. rewrite Ec. auto.
  Qed.
  (** The old entries all stay, for good. *)
  Theorem C174_old_stay fuel s s' : before s -> nfi_upgrade fuel s = Some s' ->
    (forall t, v_data s' !! data_old t = v_data s !! data_old t) /\ (forall c, v_on s' !! on_old c = v_on s !! on_old c).
  Proof.
    intros B H. destruct (upgrade_inv fuel s s' B H) as (Hd & Ho & _). destruct B as (_ & Bd & Bo).
    split; [exact (proj1 (data_result _ _ _ Bd Hd))|exact (proj1 (on_result _ _ _ Bo Ho))].
  Qed.

  (** ** C175: the upgrade ends, is done once, and writes nothing else *)
  Theorem C175_finishes s fuel : before s -> (2 * size (v_data s) + 1 <= fuel)%nat -> (2 * size (v_on s) + 1 <= fuel)%nat -> exists s', nfi_upgrade fuel s = Some s' /\ v_version s' = 1.
  Proof.
    intros (B & Bd & Bo) Ld Lo. unfold NfiMigModel.nfi_upgrade. rewrite B. cbn [N.eqb negb].
    assert (F : forall p l, (above p l <= length l)%nat).
    { intros p l. unfold above. induction l as [|x l IH]; [cbn; lia|]. cbn. destruct (lexlt p x); cbn; lia. }
    destruct (walk_ends data_read data_new data_old token_ids (lo, hi) data_read_old (fun a _ => data_read_new a) spur_ids data_new_inj data_nonempty data_disjoint (v_data s) fuel (v_data s) [] Bd) as [d ->].
    { apply (wbetween_start data_new data_old token_ids (lo, hi) data_nonempty data_disjoint _ Bd). }
    { etransitivity; [apply F|]. etransitivity; [|exact Ld]. eapply universe_length; eauto using data_read_old, (fun a (_ : token_ids a) => data_read_new a), spur_ids, data_new_inj, data_nonempty, data_disjoint. }
    destruct (walk_ends on_read on_new on_old (fun c => c < 2 ^ 32) lo on_read_old (fun a _ => on_read_new a) lo_lt on_new_inj on_nonempty on_disjoint (v_on s) fuel (v_on s) [] Bo) as [o ->].
    { apply (wbetween_start on_new on_old (fun c => c < 2 ^ 32) lo on_nonempty on_disjoint _ Bo). }
    { etransitivity; [apply F|]. etransitivity; [|exact Lo]. eapply universe_length with (good := fun c => c < 2 ^ 32); eauto using on_read_old, (fun a (_ : a < 2 ^ 32) => on_read_new a), lo_lt, on_new_inj, on_nonempty, on_disjoint. }
    eexists. split; reflexivity.
  Qed.
  Theorem C175_once fuel fuel' s s' : v_version s = 0 -> nfi_upgrade fuel s = Some s' -> nfi_upgrade fuel' s' = Some s'.
  Proof.
    intros V H. unfold NfiMigModel.nfi_upgrade in H. rewrite V in H. cbn [N.eqb negb] in H.
    destruct (walk data_read _ _ _ _) as [d|]; [|discriminate]. destruct (walk on_read _ _ _ _) as [o|]; [|discriminate]. injection H as <-. reflexivity.
  Qed.
  Theorem C175_only fuel s s' : before s -> nfi_upgrade fuel s = Some s' ->
    (forall k, is_Some (v_data s' !! k) -> exists t, token_ids t /\ (k = data_old t \/ k = data_new t)) /\
    (forall k, is_Some (v_on s' !! k) -> exists c, c < 2 ^ 32 /\ (k = on_old c \/ k = on_new c)).
  Proof.
    intros B H. destruct (upgrade_inv fuel s s' B H) as (Hd & Ho & _). destruct B as (_ & Bd & Bo). split.
    - intros k Hk. destruct (proj1 (proj2 (proj2 (data_result _ _ _ Bd Hd))) k Hk) as [(a & Ha & ->)|(a & Ha & ->)]; eauto.
    - intros k Hk. destruct (proj1 (proj2 (proj2 (on_result _ _ _ Bo Ho))) k Hk) as [(a & Ha & ->)|(a & Ha & ->)]; eauto.
  Qed.
End props.

(** ** The real hash and the runtime's chain id *)
Example xxh64_examples : xxh64 [] = 0xef46db3751d8e999 /\ xxh64 [97] = 0xd24ec4f1a98c6e5b /\ xxh64 [97; 98; 99] = 0x44bc2cf5ad770999.
Proof. vm_compute. auto. Qed.
Lemma twox8 l : length (twox64 l) = 8%nat. Proof. apply le_length. Qed.
(** [DefaultChainId], /repo/runtime/src/lib.rs:1099. *)
Definition CHAIN : N := 7672.
(** The tokens and collections of the unit test, nfi.rs:165-200, some with another flag. *)
Definition test_data : gmap raw N := <[data_old twox64 (1124, 123) := 1]> (<[data_old twox64 (1124, 556) := 2]> ∅).
Definition test_on : gmap raw bool := <[on_old twox64 123 := true]> (<[on_old twox64 556 := false]> ∅).
Definition test_store : nstore := NStore 0 test_data test_on.
Lemma test_before : before twox64 test_store.
Proof.
  split; [reflexivity|]. split.
  - intros k [v H]. cbn in H. unfold test_data in H. apply lookup_insert_Some in H. destruct H as [[<- _]|[_ H]]; [exists (1124, 123); repeat split; cbn; lia|].
    apply lookup_insert_Some in H. destruct H as [[<- _]|[_ H]]; [exists (1124, 556); repeat split; cbn; lia|]. rewrite lookup_empty in H. discriminate.
  - intros k [v H]. cbn in H. unfold test_on in H. apply lookup_insert_Some in H. destruct H as [[<- _]|[_ H]]; [exists 123; split; [lia|reflexivity]|].
    apply lookup_insert_Some in H. destruct H as [[<- _]|[_ H]]; [exists 556; split; [lia|reflexivity]|]. rewrite lookup_empty in H. discriminate.
Qed.
Definition after_test : nstore := match nfi_upgrade twox64 CHAIN 9 test_store with Some s => s | None => test_store end.
Example C174_example : nfi_upgrade twox64 CHAIN 9 test_store = Some after_test /\
  data_of twox64 CHAIN after_test (1124, 123) = Some 1 /\ data_of twox64 CHAIN after_test (1124, 556) = Some 2 /\ data_of twox64 CHAIN after_test (1124, 557) = None /\
  enabled twox64 CHAIN after_test 123 = true /\ enabled twox64 CHAIN after_test 556 = false /\ v_version after_test = 1.
Proof. vm_compute. auto 10. Qed.
(** The iterator also finds the entries it has just written and takes the chain id at their beginning for a token: on the
    unit test's own data, token 0 of collection 7672 gets data, and collection 7672 is enabled, though neither was
    mentioned. *)
Theorem C174_phantom_refuted : exists s s', before twox64 s /\ nfi_upgrade twox64 CHAIN 9 s = Some s' /\
  old_data_of twox64 s (7672, 0) = None /\ data_of twox64 CHAIN s' (7672, 0) = Some 1 /\
  old_enabled twox64 s 7672 = false /\ enabled twox64 CHAIN s' 7672 = true.
Proof. exists test_store, after_test. split; [exact test_before|]. vm_compute. auto 10. Qed.
(** And if that token had data, it may be lost. *)
Definition rival_store : nstore := NStore 0 (<[data_old twox64 (7672, 0) := 3]> test_data) test_on.
Theorem C174_overwritten_refuted : exists s s', before twox64 s /\ nfi_upgrade twox64 CHAIN 9 s = Some s' /\
  old_data_of twox64 s (7672, 0) = Some 3 /\ data_of twox64 CHAIN s' (7672, 0) = Some 1.
Proof.
  exists rival_store, (match nfi_upgrade twox64 CHAIN 9 rival_store with Some s => s | None => test_store end). split; [|vm_compute; auto].
  destruct test_before as (B1 & B2 & B3). split; [reflexivity|]. split; [|exact B3]. intros k [v H]. cbn in H. unfold rival_store in H.
  apply lookup_insert_Some in H. destruct H as [[<- _]|[_ H]]; [exists (7672, 0); repeat split; cbn; lia|]. apply B2. eauto.
Qed.
Example C175_example : before twox64 test_store /\ (2 * size (v_data test_store) + 1 <= 9)%nat /\ (2 * size (v_on test_store) + 1 <= 9)%nat /\
  size (v_data after_test) = 5%nat.
Proof. split; [exact test_before|]. vm_compute. repeat split; lia. Qed.

Definition nfimig_theorems := (C174_kept, C174_places, C174_no_invention, C174_old_stay, C174_phantom_refuted, C174_overwritten_refuted, C175_finishes, C175_once, C175_only).
Print Assumptions nfimig_theorems.
