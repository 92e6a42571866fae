(** Lemmas about allowances. *)
From Verif Require Export Erc20Model LedgerProofs.
From Verif Require Import LedgerProofs.

Lemma to_u128_small v : v <= U128MAX -> to_u128 v = v.
Proof. unfold to_u128, sat. lia. Qed.
Lemma to_u128_le v : to_u128 v <= U128MAX /\ to_u128 v <= v.
Proof. unfold to_u128, sat. lia. Qed.

Lemma approve_spec s c sp a v s' : pc_approve s c sp a v = Ok s' ->
  el s' = el s /\ forall o b x, allowance s' o b x = if decide ((c, a, sp) = (o, b, x)) then to_u128 v else allowance s o b x.
Proof.
  unfold pc_approve, erc20_approval. intros E. inv_ok. subst s'. split; [reflexivity|]. intros o b x.
  unfold allowance. cbn [allow]. destruct (decide _) as [->|Hne].
  - apply getN_insert.
  - apply getN_insert_ne. exact Hne.
Qed.
Lemma update_spec s c sp a v s' : erc20_update_approval s c sp a v = Ok s' ->
  el s' = el s /\ v <= allowance s c a sp /\ is_Some (allow s !! (c, a, sp)) /\
  forall o b x, allowance s' o b x + (if decide ((c, a, sp) = (o, b, x)) then v else 0) = allowance s o b x.
Proof.
  unfold erc20_update_approval. intros E. inv_ok.
  match goal with H : allow s !! _ = Some _ |- _ => rename H into Hl end.
  assert (Ha : allowance s c a sp = v0) by (unfold allowance, getN; rewrite Hl; reflexivity).
  destruct (N.eqb_spec (v0 - v) 0) as [Hz|Hz]; inv_ok; subst s'.
  - split; [reflexivity|]. split; [lia|]. split; [eauto|]. intros o b x.
    unfold allowance in *. cbn [allow]. destruct (decide _) as [Eq|Hne].
    + rewrite <- Eq, getN_delete. lia.
    + rewrite getN_delete_ne by exact Hne. lia.
  - split; [reflexivity|]. split; [lia|]. split; [eauto|]. intros o b x.
    unfold allowance in *. cbn [allow]. destruct (decide _) as [Eq|Hne].
    + rewrite <- Eq, getN_insert. lia.
    + rewrite getN_insert_ne by exact Hne. lia.
Qed.
Lemma transfer_from_spec s c f t a v s' : pc_transfer_from s c f t a v = Ok s' ->
  transfer (el s) a f t (to_u128 v) = Ok (el s') /\ to_u128 v <= allowance s f a c /\
  is_Some (allow s !! (f, a, c)) /\
  forall o b x, allowance s' o b x + (if decide ((f, a, c) = (o, b, x)) then to_u128 v else 0) = allowance s o b x.
Proof.
  unfold pc_transfer_from. intros E. inv_ok. subst s'.
  match goal with H : erc20_update_approval _ _ _ _ _ = _ |- _ => apply update_spec in H; destruct H as (He & Hle & Hs & Ha) end.
  rewrite He in *. repeat split; try assumption.
Qed.

(** Amount the spender [x] moved out of [o]'s balance of [b] in one step. *)
Definition spent1 (o b x : N) (s : erc20) (op : eop) : N :=
  if is_ok (eexec s op) then
    match op with
    | ETransferFrom c f _ a v => if decide ((f, a, c) = (o, b, x)) then to_u128 v else 0
    | _ => 0
    end
  else 0.
Fixpoint spent (o b x : N) (ops : list eop) (s : erc20) : N :=
  match ops with [] => 0 | op :: ops' => spent1 o b x s op + spent o b x ops' (estep s op) end.
(** [o] does not renew the approval of [x]. *)
Definition no_approval (o b x : N) (op : eop) : Prop :=
  match op with EApprove c sp a _ => (c, a, sp) <> (o, b, x) | _ => True end.
Definition approved1 (o b x : N) (op : eop) : N :=
  match op with EApprove c sp a v => if decide ((c, a, sp) = (o, b, x)) then to_u128 v else 0 | _ => 0 end.

Lemma step_allowance s op o b x : no_approval o b x op ->
  allowance (estep s op) o b x + spent1 o b x s op = allowance s o b x.
Proof.
  intros Hn. unfold estep, spent1. destruct (eexec s op) as [s'|] eqn:E; cbn [commit is_ok]; [|lia].
  destruct op; cbn [eexec no_approval] in *.
  - apply approve_spec in E. destruct E as [_ Ha]. rewrite Ha. rewrite decide_False by exact Hn. lia.
  - unfold pc_transfer in E. inv_ok. subst s'. unfold allowance. cbn [allow]. lia.
  - apply transfer_from_spec in E. destruct E as (_ & _ & _ & Ha). apply Ha.
  - inv_ok. subst s'. unfold allowance. cbn [allow]. lia.
  - inv_ok. subst s'. unfold allowance. cbn [allow]. lia.
Qed.
Lemma run_allowance ops : forall s o b x, Forall (no_approval o b x) ops ->
  allowance (run estep ops s) o b x + spent o b x ops s = allowance s o b x.
Proof.
  induction ops as [|op ops IH]; intros s o b x Hf; [cbn; lia|]. inversion Hf; subst.
  change (run estep (op :: ops) s) with (run estep ops (estep s op)). cbn [spent].
  pose proof (IH (estep s op) o b x ltac:(assumption)). pose proof (step_allowance s op o b x ltac:(assumption)). lia.
Qed.
Lemma step_allowance_any s op o b x :
  allowance (estep s op) o b x + spent1 o b x s op <= allowance s o b x + approved1 o b x op.
Proof.
  destruct op; try (match goal with |- allowance (estep s ?p) _ _ _ + _ <= _ =>
      pose proof (step_allowance s p o b x I); cbn [approved1]; lia end).
  cbn [approved1]. unfold spent1, estep. destruct (eexec s _) as [s'|] eqn:E; cbn [commit is_ok]; [|lia].
  cbn [eexec] in E. apply approve_spec in E. destruct E as [_ Ha]. rewrite Ha. destruct (decide _); lia.
Qed.
Lemma run_allowance_any ops : forall s o b x,
  allowance (run estep ops s) o b x + spent o b x ops s
  <= allowance s o b x + sumL (map (approved1 o b x) ops).
Proof.
  induction ops as [|op ops IH]; intros s o b x; [cbn; lia|].
  change (run estep (op :: ops) s) with (run estep ops (estep s op)). cbn [spent map].
  change (sumL (approved1 o b x op :: map (approved1 o b x) ops)) with (approved1 o b x op + sumL (map (approved1 o b x) ops)).
  specialize (IH (estep s op) o b x). pose proof (step_allowance_any s op o b x). lia.
Qed.
Lemma estep_books s op : books (el s) -> books (el (estep s op)).
Proof.
  intros Hb. unfold estep. destruct (eexec s op) as [s'|] eqn:E; cbn [commit]; [|exact Hb].
  destruct op; cbn [eexec] in E.
  - apply approve_spec in E. destruct E as [-> _]. exact Hb.
  - unfold pc_transfer in E. inv_ok. subst s'. cbn [el]. eapply transfer_books; eassumption.
  - apply transfer_from_spec in E. destruct E as [Ht _]. eapply transfer_books; eassumption.
  - inv_ok. subst s'. cbn [el]. eapply mint_books; eassumption.
  - inv_ok. subst s'. cbn [el]. eapply burn_books; eassumption.
Qed.
Lemma decrease_reason s op y b : books (el s) ->
  balance (el (estep s op)) b y < balance (el s) b y ->
  (exists t v, op = ETransfer y t b v) \/ (exists v, op = EBurn b y v) \/
  (exists c t v, op = ETransferFrom c y t b v /\ 0 < to_u128 v <= allowance s y b c /\
     balance (el s) b y - balance (el (estep s op)) b y = to_u128 v).
Proof.
  intros Hb Hlt. unfold estep in *. destruct (eexec s op) as [s'|] eqn:E; cbn [commit] in *; [|lia].
  destruct op; cbn [eexec] in E.
  - apply approve_spec in E. destruct E as [He _]. rewrite He in Hlt. lia.
  - unfold pc_transfer in E. inv_ok. subst s'. cbn [el] in *.
    match goal with H : transfer _ _ _ _ _ = _ |- _ => apply transfer_spec in H; destruct H as (_ & _ & B) end.
    specialize (B b y). destruct (decide ((a, caller) = (b, y))) as [[= -> ->]|]; [|lia]. left. eauto.
  - apply transfer_from_spec in E. destruct E as (Ht & Hle & _ & _).
    apply transfer_spec in Ht. destruct Ht as (_ & _ & B).
    specialize (B b y). destruct (decide ((a, from) = (b, y))) as [[= -> ->]|]; [|lia]. right. right.
    destruct (decide ((b, to) = (b, y))); [lia|]. exists caller, to, amount. repeat split; [lia|assumption|lia].
  - inv_ok. subst s'. cbn [el] in *.
    match goal with H : mint _ _ _ _ = _ |- _ => apply mint_spec in H; destruct H as (_ & _ & B & _) end.
    specialize (B b y). lia.
  - inv_ok. subst s'. cbn [el] in *.
    match goal with H : burn _ _ _ _ = _ |- _ => apply burn_spec in H; [|exact Hb]; destruct H as (_ & _ & B & _) end.
    specialize (B b y). destruct (decide ((a, from) = (b, y))) as [[= -> ->]|]; [|lia]. right. left. eauto.
Qed.
