(** Lemmas about the ABI form of bridge events. *)
From Verif Require Import NotaryModel FpassProofs.

(** Bytes. *)
Definition bytes (l : list N) : Prop := Forall (fun b => b < 256) l.

Lemma word_length n : length (word n) = 32%nat.
Proof. apply be_bytes_length. Qed.
Lemma word_value n : of_be (word n) = n mod 2 ^ 256.
Proof. unfold word. rewrite of_be_bytes. reflexivity. Qed.
Lemma word_small n : n < 2 ^ 256 -> of_be (word n) = n.
Proof. intros H. rewrite word_value. apply N.mod_small, H. Qed.
Lemma nlen_app a b : nlen (a ++ b) = nlen a + nlen b.
Proof. unfold nlen. rewrite app_length. lia. Qed.
Lemma nlen_word n : nlen (word n) = 32.
Proof. unfold nlen. rewrite word_length. reflexivity. Qed.
Lemma nlen_pad l : nlen l <= nlen (pad32 l).
Proof. unfold pad32. rewrite nlen_app. lia. Qed.
Lemma pad_firstn l : firstn (length l) (pad32 l) = l.
Proof. unfold pad32. rewrite firstn_app, Nat.sub_diag, firstn_all. cbn. apply app_nil_r. Qed.

(** Reading at a known position. *)
Lemma slice_mid a b c : slice (a ++ b ++ c) (nlen a) (nlen b) = Some b.
Proof.
  unfold slice. rewrite (proj2 (N.leb_le _ _)) by (rewrite !nlen_app; lia). f_equal. unfold nlen. rewrite !Nat2N.id.
  rewrite skipn_app, skipn_all, Nat.sub_diag. cbn [app]. rewrite skipn_O, firstn_app, firstn_all, Nat.sub_diag. cbn. apply app_nil_r.
Qed.
Lemma slice_at a b c off len : off = nlen a -> len = nlen b -> slice (a ++ b ++ c) off len = Some b.
Proof. intros -> ->. apply slice_mid. Qed.
Lemma word_mid a n c off : off = nlen a -> n < 2 ^ 256 -> word_at (a ++ word n ++ c) off = Some n.
Proof. intros -> Hn. unfold word_at. rewrite (slice_at a (word n) c) by (rewrite ?nlen_word; reflexivity). cbn [option_map]. rewrite word_small by exact Hn. reflexivity. Qed.
Lemma word_app_inv n m a b : n < 2 ^ 256 -> m < 2 ^ 256 -> word n ++ a = word m ++ b -> n = m /\ a = b.
Proof.
  intros Hn Hm E. apply app_inj_1 in E; [|rewrite !word_length; reflexivity]. destruct E as [E ->]. split; [|reflexivity].
  rewrite <- (word_small n Hn), <- (word_small m Hm), E. reflexivity.
Qed.
