(** ** C58: pool accounts of different pairs are different *)
From Verif Require Import DexModel.

Lemma cons_inj {X} (a b : X) l m : a :: l = b :: m -> a = b /\ l = m.
Proof. intros H. split; congruence. Qed.

Lemma be4_value n : n < 2 ^ 32 ->
  n = (n / 2 ^ 24 mod 256) * 2 ^ 24 + (n / 2 ^ 16 mod 256) * 2 ^ 16
     + (n / 2 ^ 8 mod 256) * 2 ^ 8 + n mod 256.
Proof.
  intros Hn.
  assert (E8 : n / 2 ^ 8 = n / 256) by reflexivity.
  assert (E16 : n / 2 ^ 16 = n / 256 / 256) by (rewrite N.div_div by discriminate; reflexivity).
  assert (E24 : n / 2 ^ 24 = n / 256 / 256 / 256) by (rewrite !N.div_div by discriminate; reflexivity).
  rewrite E8, E16, E24.
  pose proof (N.div_mod n 256 ltac:(discriminate)) as D1.
  pose proof (N.div_mod (n / 256) 256 ltac:(discriminate)) as D2.
  pose proof (N.div_mod (n / 256 / 256) 256 ltac:(discriminate)) as D3.
  assert (Hq : n / 256 / 256 / 256 < 256).
  { rewrite !N.div_div by discriminate. apply N.div_lt_upper_bound; [discriminate|exact Hn]. }
  rewrite (N.mod_small (n / 256 / 256 / 256)) by exact Hq.
  change (2 ^ 24) with 16777216. change (2 ^ 16) with 65536. change (2 ^ 8) with 256.
  clear E8 E16 E24 Hn Hq.
  set (q1 := n / 256) in *. set (q2 := q1 / 256) in *. set (q3 := q2 / 256) in *.
  set (m0 := n mod 256) in *. set (m1 := q1 mod 256) in *. set (m2 := q2 mod 256) in *.
  clearbody q1 q2 q3 m0 m1 m2. lia.
Qed.
Lemma be_bytes4_inj a b : a < 2 ^ 32 -> b < 2 ^ 32 -> be_bytes4 a = be_bytes4 b -> a = b.
Proof.
  intros Ha Hb E. unfold be_bytes4 in E.
  apply cons_inj in E as [E3 E]. apply cons_inj in E as [E2 E].
  apply cons_inj in E as [E1 E]. apply cons_inj in E as [E0 _].
  rewrite (be4_value b Hb), <- E3, <- E2, <- E1, <- E0. apply be4_value. exact Ha.
Qed.
Lemma pool_address_inj a b c d :
  a < 2 ^ 32 -> b < 2 ^ 32 -> c < 2 ^ 32 -> d < 2 ^ 32 ->
  pool_address_bytes a b = pool_address_bytes c d -> a = c /\ b = d.
Proof.
  intros Ha Hb Hc Hd E. unfold pool_address_bytes in E. apply app_inv_head in E.
  apply app_inj_1 in E; [|reflexivity]. destruct E as [E1 E].
  apply app_inj_1 in E; [|reflexivity]. destruct E as [E2 _].
  split; apply be_bytes4_inj; assumption.
Qed.
