(** Imbalances: how the issuance of an asset follows the balances.  /repo/pallet/assets-ext/src/imbalances.rs,
    impls.rs ([AssetCurrency], the currency behind XRP), and what uses them when fees are settled:
    /repo/pallet/tx-fee-pot/src/lib.rs.

    Simplified: assets are sufficient (no consumer references are counted); an account with nothing left is removed.
    Errors are not told apart. *)
From Verif Require Export Base.

(** [T::NativeAssetId] of the runtime, /repo/runtime/src/lib.rs ([RootAssetId]). *)
Definition NATIVE : N := 1.

(** The parts of [AssetDetails] and the accounts of pallet-assets (external) that are used. *)
Record asset := Asset { a_supply : N; a_min : N; a_live : bool; a_bal : gmap N N; a_frozen : gset N; a_blocked : gset N }.
(** [PositiveImbalance] and [NegativeImbalance], imbalances.rs:40-45, 72-77. *)
Inductive sign := Pos | Neg.
Record imb := Imb { m_sign : sign; m_amt : N; m_asset : N }.
(** [pallet_balances::TotalIssuance], the assets, and the imbalances in existence. *)
Record ist := Ist { i_root : N; i_assets : gmap N asset; i_pool : list imb }.

Definition set_asset (s : ist) (u : N) (a : asset) : ist := Ist (i_root s) (<[u := a]> (i_assets s)) (i_pool s).
Definition add_imb (s : ist) (m : imb) : ist := Ist (i_root s) (i_assets s) (m :: i_pool s).
Definition with_bal (a : asset) (b : gmap N N) : asset := Asset (a_supply a) (a_min a) (a_live a) b (a_frozen a) (a_blocked a).
Definition with_supply (a : asset) (v : N) : asset := Asset v (a_min a) (a_live a) (a_bal a) (a_frozen a) (a_blocked a).

(** ** pallet-assets (external, as configured: no freezer) *)
(** [reducible_balance]: at most the supply; with [keep] the minimum stays. *)
Definition reducible (a : asset) (who : N) (keep : bool) : result N :=
  ensure! a_live a else 1;
  do! b <- of_opt (a_bal a !! who) 1;
  ensure! negb (bool_decide (who ∈ a_frozen a)) else 1;
  Ok (N.min (if keep then b - a_min a else b) (a_supply a)).
(** [decrease_balance] with [Precision::Exact]: what would be left below the minimum goes too.  Returns what went. *)
Definition decrease (a : asset) (who v : N) (keep : bool) : result (asset * N) :=
  if v =? 0 then Ok (a, 0) else
  do! r <- reducible a who keep;
  ensure! v <=? r else 1;
  let rest := default 0 (a_bal a !! who) - v in
  if rest <? a_min a then
    if keep then Err 1 else Ok (with_bal a (delete who (a_bal a)), v + rest)
  else Ok (with_bal a (<[who := rest]> (a_bal a)), v).
(** [increase_balance], with [can_increase]. *)
Definition increase (a : asset) (who v : N) : result asset :=
  if v =? 0 then Ok a else
  ensure! a_live a else 1;
  ensure! a_supply a + v <=? U128MAX else 1;
  match a_bal a !! who with
  | Some b =>
      ensure! negb (bool_decide (who ∈ a_blocked a)) else 1;
      ensure! b + v <=? U128MAX else 1;
      Ok (with_bal a (<[who := b + v]> (a_bal a)))
  | None =>
      ensure! a_min a <=? v else 1;
      Ok (with_bal a (<[who := v]> (a_bal a)))
  end.
Definition on_asset (s : ist) (u : N) (f : asset -> result asset) : result ist :=
  do! a <- of_opt (i_assets s !! u) 1;
  do! a1 <- f a;
  Ok (set_asset s u a1).
(** Minting, burning and transfers by pallet-assets itself, which keep the supply right themselves. *)
Definition mint (s : ist) (u who v : N) : result ist :=
  on_asset s u (fun a => do! a1 <- increase a who v; Ok (with_supply a1 (a_supply a + v))).
Definition burn (s : ist) (u who v : N) : result ist :=
  on_asset s u (fun a => do! r <- decrease a who v false; Ok (with_supply (fst r) (a_supply a - snd r))).
Definition move (s : ist) (u from to v : N) (keep : bool) : result ist :=
  on_asset s u (fun a => if from =? to then Ok a else do! r <- decrease a from v keep; increase (fst r) to v).

(** ** Imbalances *)
(** [Default], imbalances.rs:47-55, 79-87, and [zero], 106-108, 158-160: of asset 0. *)
Definition zero_imb (g : sign) : imb := Imb g 0 0.
(** [split], 116-123, 168-175. *)
Definition split_imb (m : imb) (v : N) : imb * imb :=
  let first := N.min (m_amt m) v in
  (Imb (m_sign m) first (m_asset m), Imb (m_sign m) (m_amt m - first) (m_asset m)).
(** [merge], 124-129, 176-181, and [subsume], 130-133, 182-185: the other's asset is not looked at. *)
Definition merge_imb (m o : imb) : imb := Imb (m_sign m) (sat U128MAX (m_amt m + m_amt o)) (m_asset m).
(** [offset], 134-144, 186-196: the result is of the same kind or of the other's. *)
Definition opposite (g : sign) : sign := match g with Pos => Neg | Neg => Pos end.
Definition offset_imb (m o : imb) : imb :=
  let a := m_amt m in let b := m_amt o in
  if b <=? a then Imb (m_sign m) (a - b) (m_asset m) else Imb (opposite (m_sign m)) (b - a) (m_asset m).
(** [Drop], 202-218, 220-236.  [set_total_issuance] of an unknown asset does nothing. *)
Definition squared (m : imb) (v : N) : N := match m_sign m with Pos => sat U128MAX (v + m_amt m) | Neg => v - m_amt m end.
Definition drop_imb (s : ist) (m : imb) : ist :=
  if m_asset m =? NATIVE then Ist (squared m (i_root s)) (i_assets s) (i_pool s)
  else match i_assets s !! m_asset m with
       | None => s
       | Some a => set_asset s (m_asset m) (with_supply a (squared m (a_supply a)))
       end.
(** [drop_zero], 109-115, 161-167: dropped ([None]) or given back. *)
Definition drop_zero (s : ist) (m : imb) : ist * option imb :=
  if (m_amt m =? 0) || (m_asset m =? 0) then (drop_imb s m, None) else (s, Some m).

(** ** [AssetCurrency], impls.rs *)
(** [free_balance], 104-111. *)
Definition free_balance (s : ist) (u who : N) : N :=
  match of_opt (i_assets s !! u) 1 with
  | Ok a => match reducible a who false with Ok v => v | Err _ => 0 end
  | Err _ => 0
  end.
(** [withdraw], 151-177. *)
Definition withdraw (s : ist) (u who v : N) (keep : bool) : result (ist * imb) :=
  do! s1 <- (if v =? 0 then Ok s else on_asset s u (fun a => do! r <- decrease a who v keep; Ok (fst r)));
  Ok (s1, Imb Neg v u).
(** [deposit_into_existing], 181-197. *)
Definition deposit_existing (s : ist) (u who v : N) : result (ist * imb) :=
  if v =? 0 then Ok (s, Imb Pos 0 u) else
  do! s1 <- on_asset s u (fun a => increase a who v);
  Ok (s1, Imb Pos v u).
(** [deposit_creating], 207-209. *)
Definition deposit_creating (s : ist) (u who v : N) : ist * imb :=
  match deposit_existing s u who v with Ok r => r | Err _ => (s, zero_imb Pos) end.
(** [make_free_balance_be], 211-238. *)
Definition make_free (s : ist) (u who v : N) : ist * imb :=
  let free := free_balance s u who in
  match (if v <=? free then match withdraw s u who (free - v) false with Ok r => Some r | Err _ => None end else None) with
  | Some r => r
  | None => if free <=? v then deposit_creating s u who (v - free) else (s, zero_imb Pos)
  end.

(** ** Operations: anything code may do with the currency and the imbalances it holds.  Imbalances are named by their
    place; the second one of two by its place among the rest. *)
Inductive iop :=
| IMint (u who v : N) | IBurn (u who v : N) | IMove (u from to v : N) (keep : bool)
| IWithdraw (u who v : N) (keep : bool) | IDeposit (u who v : N) | ICreating (u who v : N) | IMake (u who v : N)
| IZero (g : sign) | ISplit (i : nat) (v : N) | IMerge (i j : nat) | IOffset (i j : nat) | IDrop (i : nat) | IDropZero (i : nat).
Definition with_pool (s : ist) (p : list imb) : ist := Ist (i_root s) (i_assets s) p.
Definition taken (p : list imb) (i : nat) : option (imb * list imb) :=
  match p !! i with Some m => Some (m, delete i p) | None => None end.
Definition held (s : ist) (r : ist * imb) : ist := add_imb (fst r) (snd r).
Definition istep (s : ist) (o : iop) : ist :=
  match o with
  | IMint u who v => commit s (mint s u who v)
  | IBurn u who v => commit s (burn s u who v)
  | IMove u from to v keep => commit s (move s u from to v keep)
  | IWithdraw u who v keep => match withdraw s u who v keep with Ok r => held s r | Err _ => s end
  | IDeposit u who v => match deposit_existing s u who v with Ok r => held s r | Err _ => s end
  | ICreating u who v => held s (deposit_creating s u who v)
  | IMake u who v => held s (make_free s u who v)
  | IZero g => add_imb s (zero_imb g)
  | ISplit i v => match taken (i_pool s) i with
      | Some (m, p) => with_pool s (fst (split_imb m v) :: snd (split_imb m v) :: p) | None => s end
  | IMerge i j => match taken (i_pool s) i with
      | Some (m, p) => match taken p j with
          | Some (m', p') => match m_sign m, m_sign m' with
              | Pos, Pos | Neg, Neg => with_pool s (merge_imb m m' :: p') | _, _ => s end
          | None => s end
      | None => s end
  | IOffset i j => match taken (i_pool s) i with
      | Some (m, p) => match taken p j with
          | Some (m', p') => match m_sign m, m_sign m' with
              | Pos, Neg | Neg, Pos => with_pool s (offset_imb m m' :: p') | _, _ => s end
          | None => s end
      | None => s end
  | IDrop i => match taken (i_pool s) i with Some (m, p) => drop_imb (with_pool s p) m | None => s end
  | IDropZero i => match taken (i_pool s) i with
      | Some (m, p) => match drop_zero (with_pool s p) m with (s1, None) => s1 | (_, Some _) => s end
      | None => s end
  end.

(** ** Settling a fee *)
(** [OnUnbalanced::on_unbalanceds] (external): [fold(zero(), |i, x| x.merge(i))], then dropped if zero, else handed to
    [on_nonzero_unbalanced] of the fee pot, tx-fee-pot/src/lib.rs:126-135: the pot is credited, that imbalance dropped
    at once, the other at the end.  [era] is [EraTxFees]. *)
Definition pot_nonzero (u pot : N) (s : ist) (era : N) (m : imb) : ist * N :=
  let '(s1, p) := deposit_creating s u pot (m_amt m) in
  (drop_imb (drop_imb s1 p) m, (era + m_amt m) mod 2 ^ 128).
Definition on_unbalanceds (u pot : N) (s : ist) (era : N) (l : list imb) : ist * N :=
  match drop_zero s (fold_left (fun i x => merge_imb x i) l (zero_imb Neg)) with
  | (s1, None) => (s1, era)
  | (s1, Some m) => pot_nonzero u pot s1 era m
  end.
(** [CurrencyAdapter::withdraw_fee] and [correct_and_deposit_fee] (external), over [AssetCurrency] of asset [u]. *)
Definition take_fee (u : N) (s : ist) (who fee : N) : result (ist * option imb) :=
  if fee =? 0 then Ok (s, None) else
  do! r <- withdraw s u who fee true;
  Ok (fst r, Some (snd r)).
Definition correct_fee (u pot : N) (s : ist) (era who corrected tip : N) (paid : option imb) : result (ist * N) :=
  match paid with
  | None => Ok (s, era)
  | Some m =>
      let '(s1, back) := match deposit_existing s u who (m_amt m - corrected) with Ok r => r | Err _ => (s, zero_imb Pos) end in
      let adjusted := offset_imb m back in
      match m_sign adjusted with
      | Pos => Err 2
      | Neg => let '(t, f) := split_imb adjusted tip in Ok (on_unbalanceds u pot s1 era [f; t])
      end
  end.
