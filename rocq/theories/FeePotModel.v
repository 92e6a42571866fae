(** The fee pot between eras: /repo/pallet/tx-fee-pot/src/lib.rs ("pot") with pallet-staking (not in the repository), for which
    the runtime configures ROOT as currency and the pot as era payout, reward and remainder, /repo/runtime/src/lib.rs:912-926; and
    the call filter, runtime/src/lib.rs:253-254. *)
From Verif Require Export Base.

(** [pxrp]: XRP of the pot; [era_fees]: [EraTxFees], pot 63-65; [proot]: ROOT of the pot; [issue]: total issuance of ROOT;
    [owed]: [ErasValidatorReward] of staking, latest era first; [paid]: ROOT paid to stakers so far. *)
Record pots := Pots { pxrp : N; era_fees : N; proot : N; issue : N; owed : list N; paid : N }.
Definition pots0 (proot issue : N) : pots := Pots 0 0 proot issue [] 0.

Inductive pop :=
| Settled (a : N)                       (* a fee is settled, in XRP *)
| EraEnds                               (* staking asks for the payout of the era *)
| Payout (root : bool) (era r : N)      (* payout_stakers: stakers receive [r] of the reward of an era *)
| Remainder (a : N)                     (* what staking has left over, in ROOT *)
| Given (a : N).                        (* somebody sends ROOT to the pot *)

(** [on_nonzero_unbalanced] of a fee, pot 126-135: into the pot and into the era's sum, where [+=] wraps in a release build. *)
Definition settled (s : pots) (a : N) : pots :=
  if a =? 0 then s else Pots (pxrp s + a) ((era_fees s + a) mod 2 ^ 128) (proot s) (issue s) (owed s) (paid s).
(** [era_payout], pot 174-189: the era's sum, which starts again at nothing. *)
Definition era_payout (s : pots) : N * pots := (era_fees s, Pots (pxrp s) 0 (proot s) (issue s) (owed s) (paid s)).
Definition era_ends (s : pots) : pots :=
  let (x, s1) := era_payout s in Pots (pxrp s1) (era_fees s1) (proot s1) (issue s1) (x :: owed s1) (paid s1).
(** [on_nonzero_unbalanced] of a reward in ROOT, pot 140-158: as much is withdrawn from the pot, dropping which lowers the
    issuance; if the pot has too little, this is only logged.  The reward itself raises the issuance when dropped. *)
Definition rewarded (s : pots) (r : N) : pots :=
  if r =? 0 then s
  else if r <=? proot s then Pots (pxrp s) (era_fees s) (proot s - r) (issue s - r + r) (owed s) (paid s + r)
  else Pots (pxrp s) (era_fees s) (proot s) (issue s + r) (owed s) (paid s + r).
(** [payout_stakers]: refused to all but root by the filter; staking pays at most the reward of the era. *)
Definition payout (s : pots) (root : bool) (era r : N) : result pots :=
  ensure! root else 1;
  do! x <- of_opt (nth_error (rev (owed s)) (N.to_nat era)) 2;
  ensure! r <=? x else 3;
  Ok (rewarded s r).
Definition pstep (s : pots) (o : pop) : pots :=
  match o with
  | Settled a => settled s a
  | EraEnds => era_ends s
  | Payout root era r => commit s (payout s root era r)
  | Remainder a => Pots (pxrp s) (era_fees s) (proot s + a) (issue s + a) (owed s) (paid s)   (* pot 165-172 *)
  | Given a => Pots (pxrp s) (era_fees s) (proot s + a) (issue s) (owed s) (paid s)
  end.
