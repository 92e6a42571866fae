(** Holds and split payments: properties C11, C12. *)
From Verif Require Import HoldsModel LedgerProofs HoldsProofs.

(** ** C12.  [amounts ts] is the sum of the listed amounts, [paid_to y ts] the sum of those listed
    for [y]. *)
Theorem C12_exact : forall (l l' : ledger N) who a ts,
  split_transfer l who a ts = Ok l' ->
  forall b y,
    balance l' b y + (if decide ((a, who) = (b, y)) then amounts ts else 0)
    = balance l b y + (if b =? a then paid_to y ts else 0).
Proof. intros l l' who a ts Hs. apply (split_spec _ _ _ _ _ Hs). Qed.
(** Without relying on a rollback by the caller: either everything moved, or the ledger is the old
    one and the sender's balance was too small.  [split_raw] returns the ledger at the moment the
    function returns. *)
Theorem C12_all_or_nothing : forall (l : ledger N) who a ts,
  books l -> amounts ts <= 2 ^ 128 - 1 ->
  (exists l', split_raw l who a ts = (l', None) /\ amounts ts <= balance l a who) \/
  (exists e, split_raw l who a ts = (l, Some e) /\ balance l a who < amounts ts).
Proof. intros l who a ts Hb Hs. apply split_raw_total; assumption. Qed.
(** When the amounts do not fit in 128 bits the guard wraps and an earlier payment may already
    have been made when the call fails (callers that are transactional undo it). *)
Theorem C12_wrapping_sum_refuted : exists (l : ledger N) who a ts,
  books l /\
  match split_raw l who a ts with
  | (l', Some _) => balance l' a 1 = 7 /\ balance l a 1 = 0
  | (_, None) => False
  end.
Proof.
  exists (commit empty_ledger (mint empty_ledger 5 0 10)), 0, 5, [(1, 7); (2, 2 ^ 128 - 7)].
  split; [|vm_compute; repeat split; discriminate].
  eapply mint_books; [apply ok_commit; vm_compute; reflexivity|apply empty_books].
Qed.
Definition ex_l : ledger N := commit empty_ledger (mint empty_ledger 5 0 100).
(** Duplicate payees and the sender among them. *)
Example C12_example :
  match split_transfer ex_l 0 5 [(1, 7); (0, 5); (1, 10); (2, 0)] with
  | Ok l' => balance l' 5 0 = 83 /\ balance l' 5 1 = 17
  | Err _ => False
  end.
Proof. vm_compute. repeat split. Qed.

(** ** C11.  [vault] is the account of the assets-ext pallet, which has no key.  A history is [sane] if no list
    of spends exceeds 2^128-1, and [fair] if moreover the vault account itself takes no action, is
    not itself the subject of a hold, and is not the target of a burn. *)
(** The hold vectors stay strictly sorted by pallet id, which is what makes the binary searches
    of the code find a hold exactly when there is one. *)
Theorem C11_vectors_sorted : forall (vault : N) mh ops,
  Forall sane ops ->
  forall a y, keys_sorted (holds_of (run (hstep vault mh) ops hinit) a y).
Proof. intros vault mh ops Hf. apply (hrun_HI vault mh ops Hf). Qed.
(** What a pallet can take out of a hold is bounded by what the same pallet put on it for the same
    account and asset, and the difference is the hold: nothing another pallet does touches it. *)
Theorem C11_isolated : forall (vault : N) mh ops p w a,
  Forall sane ops ->
  hold_balance (run (hstep vault mh) ops hinit) p w a + over vault mh (taken1 vault mh p w a) ops hinit
  = over vault mh (placed1 vault mh p w a) ops hinit.
Proof.
  intros vault mh ops p w a Hf.
  rewrite (hold_account vault mh ops hinit p w a (proj1 (hinit_inv vault)) Hf). reflexivity.
Qed.
(** Free plus held changes only by what was received, paid, minted or burned. *)
Theorem C11_conserved : forall (vault : N) mh ops o s' y a,
  Forall sane ops -> sane o -> y <> vault ->
  hexec vault mh (run (hstep vault mh) ops hinit) o = Ok s' ->
  let s := run (hstep vault mh) ops hinit in
  owned s' a y + loss1 y a o = owned s a y + gain1 y a o.
Proof.
  intros vault mh ops o s' y a Hf Ho Hy E s. eapply owned_step; [|exact Ho|exact Hy|exact E].
  apply hrun_HI. exact Hf.
Qed.
(** The exact effect of each hold operation on every hold and on every free balance. *)
Theorem C11_place_effect : forall (vault : N) mh s p who a v s',
  HI s -> place_hold vault mh s p who a v = Ok s' -> who <> vault ->
  (forall p' y b, hold_balance s' p' y b =
     hold_balance s p' y b + (if decide ((p, who, a) = (p', y, b)) then v else 0)) /\
  (forall b y, y <> vault -> balance (al s') b y + (if decide ((a, who) = (b, y)) then v else 0) = balance (al s) b y).
Proof.
  intros vault mh s p who a v s' Hi E Hw.
  destruct (place_spec _ _ _ _ _ _ _ _ Hi E) as (_ & Ht & Hc & _). split.
  - intros p' y b. rewrite (Hc p' y b). destruct (decide _) as [[= -> -> ->]|]; lia.
  - intros b y Hy. apply transfer_spec in Ht. destruct Ht as (_ & _ & B). specialize (B b y).
    destruct (decide ((a, vault) = (b, y))); [congruence|]. lia.
Qed.
Theorem C11_release_effect : forall (vault : N) s p who a v s',
  HI s -> release_hold vault s p who a v = Ok s' -> who <> vault ->
  (forall p' y b, hold_balance s' p' y b + (if decide ((p, who, a) = (p', y, b)) then v else 0) =
     hold_balance s p' y b) /\
  (forall b y, y <> vault -> balance (al s') b y = balance (al s) b y + (if decide ((a, who) = (b, y)) then v else 0)).
Proof.
  intros vault s p who a v s' Hi E Hw.
  destruct (release_spec _ _ _ _ _ _ _ Hi E) as (_ & Ht & Hle & Hc & _). split.
  - intros p' y b. rewrite (Hc p' y b). destruct (decide _) as [[= -> -> ->]|]; lia.
  - intros b y Hy. apply transfer_spec in Ht. destruct Ht as (_ & _ & B). specialize (B b y).
    destruct (decide ((a, vault) = (b, y))); [congruence|]. lia.
Qed.
Theorem C11_spend_effect : forall (vault : N) s p who a sp s',
  HI s -> amounts sp <= 2 ^ 128 - 1 -> spend_hold vault s p who a sp = Ok s' ->
  (forall p' y b, hold_balance s' p' y b + (if decide ((p, who, a) = (p', y, b)) then amounts sp else 0) =
     hold_balance s p' y b) /\
  (forall b y, y <> vault -> balance (al s') b y = balance (al s) b y + (if b =? a then paid_to y sp else 0)).
Proof.
  intros vault s p who a sp s' Hi Hf E.
  destruct (spend_spec _ _ _ _ _ _ _ Hi Hf E) as (_ & Ht & Hle & Hc & _). split.
  - intros p' y b. rewrite (Hc p' y b). destruct (decide _) as [[= -> -> ->]|]; lia.
  - intros b y Hy. apply split_spec in Ht. destruct Ht as (_ & _ & B). specialize (B b y).
    destruct (decide ((a, vault) = (b, y))); [congruence|]. lia.
Qed.
(** A hold can always be released or spent up to its size: the vault holds at least the sum of all
    holds, and no release or spend within a hold fails. *)
Theorem C11_always_available : forall (vault : N) mh ops,
  Forall (fair vault) ops ->
  let s := run (hstep vault mh) ops hinit in
  (forall a, held_all s a <= balance (al s) a vault) /\
  (forall p who a v, 0 < v <= hold_balance s p who a -> exists s', release_hold vault s p who a v = Ok s') /\
  (forall p who a sp, 0 < amounts sp <= hold_balance s p who a -> exists s', spend_hold vault s p who a sp = Ok s').
Proof.
  intros vault mh ops Hf s. destruct (hrun_inv vault mh ops Hf) as [Hi Hk]. split; [exact Hk|].
  split; intros; [eapply release_ok|eapply spend_ok]; eassumption.
Qed.
(** The administrator of an asset may burn from any account ([burn_from], lib.rs:298-313),
    including the holds vault; then a hold can no longer be released. *)
Theorem C11_admin_burn_refuted : exists (vault : N) mh ops p who a v,
  let s := run (hstep vault mh) ops hinit in
  hold_balance s p who a = v /\ 0 < v /\ is_ok (release_hold vault s p who a v) = false.
Proof.
  exists 99, 16%nat, [HMint 5 1 100; HPlace 7 1 5 40; HBurn 5 99 1], 7, 1, 5, 40.
  vm_compute. repeat split.
Qed.

Definition ex_ops : list (hop N) :=
  [HMint 5 1 100; HPlace 7 1 5 40; HPlace 3 1 5 20; HPlace 7 1 5 5;
   HRelease 3 1 5 21; HSpend 7 1 5 [(2, 10); (1, 5); (2, 1)]; HRelease 3 1 5 20; HTransfer 1 5 2 1].
Definition ex_s : assets N := run (hstep 99 16) ex_ops hinit.
Example C11_example_fair : Forall (fair 99) ex_ops.
Proof. repeat constructor; vm_compute; discriminate. Qed.
Example C11_example_sane : Forall sane ex_ops.
Proof. repeat constructor; vm_compute; discriminate. Qed.
Example C11_example :
  holds_of ex_s 5 1 = [(7, 29)] /\ balance (al ex_s) 5 1 = 100 - 45 + 5 - 1 /\
  balance (al ex_s) 5 2 = 12 /\ balance (al ex_s) 5 99 = 29 /\
  over 99 16 (taken1 99 16 7 1 5) ex_ops hinit = 16.
Proof. vm_compute. repeat split. Qed.

Print Assumptions C12_exact.
Print Assumptions C12_all_or_nothing.
Print Assumptions C12_wrapping_sum_refuted.
Print Assumptions C11_vectors_sorted.
Print Assumptions C11_isolated.
Print Assumptions C11_conserved.
Print Assumptions C11_place_effect.
Print Assumptions C11_release_effect.
Print Assumptions C11_spend_effect.
Print Assumptions C11_always_available.
Print Assumptions C11_admin_burn_refuted.
