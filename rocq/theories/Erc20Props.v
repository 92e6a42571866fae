(** ERC-20 allowances: properties C13, C61. *)
From Verif Require Import Erc20Model LedgerProofs Erc20Proofs.

(** ** C13 *)
(** As long as the owner does not approve again, what the spender moved plus the remaining
    allowance is the allowance at the start. *)
Theorem C13_spent_plus_remaining : forall s ops owner a spender,
  Forall (no_approval owner a spender) ops ->
  spent owner a spender ops s + allowance (run estep ops s) owner a spender = allowance s owner a spender.
Proof. intros s ops o a x Hf. pose proof (run_allowance ops s o a x Hf). lia. Qed.
(** Hence, counted from the approval itself, at most the approved amount. *)
Theorem C13_at_most_approved : forall s s' ops owner a spender amount,
  eexec s (EApprove owner spender a amount) = Ok s' ->
  Forall (no_approval owner a spender) ops ->
  spent owner a spender ops s' <= amount.
Proof.
  intros s s' ops o a x v E Hf. cbn [eexec] in E. apply approve_spec in E. destruct E as [_ Ha].
  pose proof (run_allowance ops s' o a x Hf). rewrite (Ha o a x), decide_True in H by reflexivity.
  pose proof (to_u128_le v). lia.
Qed.
(** Over a whole history from genesis the total moved never exceeds the sum of all approvals. *)
Theorem C13_history : forall ops owner a spender,
  spent owner a spender ops einit <= sumL (map (approved1 owner a spender) ops).
Proof.
  intros ops o a x. pose proof (run_allowance_any ops einit o a x) as H.
  assert (allowance einit o a x = 0) by apply getN_empty. lia.
Qed.
(** Nobody's balance falls except by their own transfer, by a burn, or by a spender within the
    allowance, and then by exactly that amount. *)
Theorem C13_no_other_way_out : forall ops op y b,
  let s := run estep ops einit in
  balance (el (estep s op)) b y < balance (el s) b y ->
  (exists t v, op = ETransfer y t b v) \/ (exists v, op = EBurn b y v) \/
  (exists c t v, op = ETransferFrom c y t b v /\ 0 < to_u128 v <= allowance s y b c /\
     balance (el s) b y - balance (el (estep s op)) b y = to_u128 v).
Proof.
  intros ops op y b s Hlt. apply decrease_reason; [|exact Hlt].
  apply (run_inv estep (fun s => books (el s))); [intros; apply estep_books; assumption|apply empty_books].
Qed.
Definition ex_ops : list eop :=
  [EMint 5 1 100; EApprove 1 2 5 30; ETransferFrom 2 1 3 5 10; ETransferFrom 2 1 3 5 25;
   ETransferFrom 2 1 4 5 20; ETransferFrom 2 1 4 5 1].
Example C13_example : spent 1 5 2 ex_ops einit = 30 /\ balance (el (run estep ex_ops einit)) 5 1 = 70 /\
  Forall (no_approval 1 5 2) (skipn 2 ex_ops).
Proof. vm_compute. repeat split; repeat constructor. Qed.

(** ** C61: what the caller asked for is what is moved *)
Theorem C61_transfer_exact : forall ops caller to a amount s',
  let s := run estep ops einit in
  amount <= 2 ^ 128 - 1 -> caller <> to -> eexec s (ETransfer caller to a amount) = Ok s' ->
  balance (el s') a to = balance (el s) a to + amount /\ balance (el s') a caller + amount = balance (el s) a caller.
Proof.
  intros ops c t a v s' s Hv Hne E. cbn [eexec] in E. unfold pc_transfer in E. inv_ok. subst s'. cbn [el].
  rewrite to_u128_small in * by exact Hv.
  match goal with H : transfer _ _ _ _ _ = _ |- _ => apply transfer_spec in H; destruct H as (_ & _ & B) end.
  pose proof (B a t) as B1. pose proof (B a c) as B2.
  destruct (decide ((a, c) = (a, c))); [|congruence]. destruct (decide ((a, t) = (a, t))); [|congruence].
  destruct (decide ((a, c) = (a, t))); [congruence|]. destruct (decide ((a, t) = (a, c))); [congruence|]. lia.
Qed.
(** An amount of 2^128 or more is silently cut to 2^128-1 and the call reports success. *)
Theorem C61_large_amount_refuted : exists ops caller to a amount,
  let s := run estep ops einit in
  match eexec s (ETransfer caller to a amount) with
  | Ok s' => balance (el s') a to < balance (el s) a to + amount
  | Err _ => False
  end.
Proof. exists [EMint 5 1 (2 ^ 128 - 1)], 1, 2, 5, (2 ^ 200). vm_compute. reflexivity. Qed.
(** Unless somebody owns the whole 128-bit range, such a call fails. *)
Theorem C61_large_amount_fails : forall ops caller to a amount s',
  let s := run estep ops einit in
  issuance (el s) a < 2 ^ 128 - 1 -> eexec s (ETransfer caller to a amount) = Ok s' -> amount <= 2 ^ 128 - 1.
Proof.
  intros ops c t a v s' s Hi E. cbn [eexec] in E. unfold pc_transfer in E. inv_ok.
  match goal with H : transfer _ _ _ _ _ = _ |- _ => apply transfer_spec in H; destruct H as (Hle & _ & _) end.
  assert (Hb : books (el s)).
  { apply (run_inv estep (fun s => books (el s))); [intros; apply estep_books; assumption|apply empty_books]. }
  pose proof (balance_le_total (el s) a c). destruct (Hb a). clearbody s. fold U128MAX in *.
  unfold to_u128, sat in *. lia.
Qed.
Example C61_example : match eexec (run estep [EMint 5 1 100] einit) (ETransfer 1 2 5 70) with
  | Ok s' => balance (el s') 5 2 = 70 /\ balance (el s') 5 1 = 30 | Err _ => False end.
Proof. vm_compute. repeat split. Qed.

Print Assumptions C13_spent_plus_remaining.
Print Assumptions C13_at_most_approved.
Print Assumptions C13_history.
Print Assumptions C13_no_other_way_out.
Print Assumptions C61_transfer_exact.
Print Assumptions C61_large_amount_refuted.
Print Assumptions C61_large_amount_fails.
