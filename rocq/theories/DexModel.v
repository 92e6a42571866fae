(** Model of the exchange pallet, [/repo/pallet/dex/src/lib.rs] and [types.rs].

    Simplifications: LP token metadata, events and weights are dropped.  Account ids are split in
    three disjoint kinds: ordinary users, the pool account of a pair, and the burn account (both
    keyless).  That pool addresses of different pairs differ as 20-byte values is proved
    separately ([pool_address_bytes] below).  Asset ids are handed out by a counter. *)
From Verif Require Export Ledger.

(** [TradingPair::pool_address], types.rs:49-61, and [burn_account_id], lib.rs:519-521. *)
Inductive acct := AUser (n : N) | APool (a b : N) | ABurn.
#[global] Instance acct_eq_dec : EqDecision acct.
Proof. solve_decision. Defined.
#[global] Instance acct_countable : Countable acct.
Proof.
  refine (inj_countable'
    (fun x => match x with AUser n => inl n | APool a b => inr (inl (a, b)) | ABurn => inr (inr tt) end)
    (fun y => match y with inl n => AUser n | inr (inl (a, b)) => APool a b | inr (inr _) => ABurn end) _).
  intros []; reflexivity.
Defined.

(** The 20 bytes of the pool address, types.rs:49-61: prefix 0xDD four times, both asset ids in
    big-endian order, eight zero bytes. *)
Definition be_bytes4 (n : N) : list N :=
  [n / 2 ^ 24 mod 256; n / 2 ^ 16 mod 256; n / 2 ^ 8 mod 256; n mod 256].
Definition pool_address_bytes (a b : N) : list N :=
  [221; 221; 221; 221] ++ be_bytes4 a ++ be_bytes4 b ++ [0; 0; 0; 0; 0; 0; 0; 0].

(** [TradingPair::new], types.rs:30-44. *)
Definition pair_of (a b : N) : N * N := if b <? a then (b, a) else (a, b).
Definition pool_addr (p : N * N) : acct := APool (fst p) (snd p).

(** Runtime constants, runtime/src/lib.rs:678. *)
Definition FEE_NUM : N := 3.
Definition FEE_DEN : N := 1000.
(** [MINIMUM_LIQUIDITY_AMOUNT], lib.rs:587. *)
Definition MIN_LIQ : N := 1000.

(** Storage, lib.rs:150-190: LP token per pair, status, reserves ([LiquidityPool]), last product
    ([LiquidityPoolLastK], per LP token), [FeeTo].  [next_asset] is the asset id counter of
    assets-ext, [now] the block number, [plimit] the [TradingPathLimit]. *)
Record dex := Dex {
  lg : ledger acct;
  lp : gmap (N * N) N;
  enabled : gmap (N * N) bool;
  pool : gmap (N * N) (N * N);
  lastk : gmap N N;
  feeto : option acct;
  next_asset : N;
  now : N;
  plimit : nat
}.

Definition set_lg s l := Dex l (lp s) (enabled s) (pool s) (lastk s) (feeto s) (next_asset s) (now s) (plimit s).
Definition set_pool s p v := Dex (lg s) (lp s) (enabled s) (<[p := v]> (pool s)) (lastk s) (feeto s) (next_asset s) (now s) (plimit s).
Definition set_lastk s i v := Dex (lg s) (lp s) (enabled s) (pool s) (<[i := v]> (lastk s)) (feeto s) (next_asset s) (now s) (plimit s).
Definition set_enabled s p v := Dex (lg s) (lp s) (<[p := v]> (enabled s)) (pool s) (lastk s) (feeto s) (next_asset s) (now s) (plimit s).

(** [LiquidityPool::get] (ValueQuery, default (0,0)). *)
Definition reserves (s : dex) (p : N * N) : N * N := default (0, 0) (pool s !! p).
(** [TradingPairStatuses::get] (default [NotEnabled]). *)
Definition is_enabled (s : dex) (p : N * N) : bool := default false (enabled s !! p).

(** [SafeMath] on U256, types.rs:136-166: checked operations. *)
Definition umul (a b : N) : result N := of_opt (chk_mul U256MAX a b) 100.
Definition uadd (a b : N) : result N := of_opt (chk_add U256MAX a b) 101.
Definition usub (a b : N) : result N := of_opt (chk_sub a b) 102.
Definition udiv (a b : N) : result N := of_opt (chk_div a b) 103.
Definition sat128 (a : N) : N := sat U128MAX a.

(** [quote], lib.rs:525-537. *)
Definition quote (amount_a reserve_a reserve_b : N) : result N :=
  ensure! (0 <? amount_a) else 10;
  ensure! (0 <? reserve_a) && (0 <? reserve_b) else 11;
  do! m <- umul amount_a reserve_b;
  udiv m reserve_a.

(** [get_liquidity], lib.rs:877-885. *)
Definition get_liquidity (s : dex) (a b : N) : N * N :=
  let p := pair_of a b in
  let '(r0, r1) := reserves s p in
  if a =? fst p then (r0, r1) else (r1, r0).

(** [get_amount_out], lib.rs:894-919. *)
Definition get_amount_out (amount_in reserve_in reserve_out : N) : result N :=
  ensure! 0 <? amount_in else 12;
  ensure! (0 <? reserve_in) && (0 <? reserve_out) else 11;
  do! f <- usub FEE_DEN FEE_NUM;
  do! amount_in_with_fee <- umul amount_in f;
  do! numerator <- umul amount_in_with_fee reserve_out;
  do! d0 <- umul reserve_in FEE_DEN;
  do! denominator <- uadd d0 amount_in_with_fee;
  do! q <- udiv numerator denominator;
  Ok (sat128 q).

(** [get_amount_in], lib.rs:922-944. *)
Definition get_amount_in (amount_out reserve_in reserve_out : N) : result N :=
  ensure! 0 <? amount_out else 13;
  ensure! (0 <? reserve_in) && (0 <? reserve_out) else 11;
  do! n0 <- umul reserve_in amount_out;
  do! numerator <- umul n0 FEE_DEN;
  do! d0 <- usub reserve_out amount_out;
  do! f <- usub FEE_DEN FEE_NUM;
  do! denominator <- umul d0 f;
  do! q <- udiv numerator denominator;
  do! r <- uadd q 1;
  Ok (sat128 r).

(** The loop of [get_amounts_out], lib.rs:955-984: amounts for the assets of [path] after the
    first one, given the amount [cur] of the first. *)
Fixpoint amounts_out_loop (s : dex) (cur : N) (x : N) (rest : list N) : result (list N) :=
  match rest with
  | [] => Ok []
  | y :: rest' =>
      ensure! is_enabled s (pair_of x y) else 14;
      let '(rin, rout) := get_liquidity s x y in
      ensure! negb (rin =? 0) && negb (rout =? 0) else 11;
      do! ao <- get_amount_out cur rin rout;
      ensure! negb (ao =? 0) else 15;
      do! l <- amounts_out_loop s ao y rest';
      Ok (ao :: l)
  end.

Definition path_ok (s : dex) (path : list N) : bool :=
  Nat.leb 2 (length path) && Nat.leb (length path) (plimit s).

(** [get_amounts_out], lib.rs:946-985. *)
Definition get_amounts_out (s : dex) (amount_in : N) (path : list N) : result (list N) :=
  ensure! path_ok s path else 16;
  match path with
  | [] => Err 16
  | x :: rest => do! l <- amounts_out_loop s amount_in x rest; Ok (amount_in :: l)
  end.

(** The loop of [get_amounts_in], lib.rs:996-1025, which runs from the end of the path. Returns
    the amounts for [x :: rest]. *)
Fixpoint amounts_in_loop (s : dex) (target : N) (x : N) (rest : list N) : result (list N) :=
  match rest with
  | [] => Ok [target]
  | y :: rest' =>
      do! l <- amounts_in_loop s target y rest';
      match l with
      | [] => Err 16
      | out :: _ =>
          ensure! is_enabled s (pair_of x y) else 14;
          let '(rin, rout) := get_liquidity s x y in
          ensure! negb (rin =? 0) && negb (rout =? 0) else 11;
          do! ai <- get_amount_in out rin rout;
          ensure! negb (ai =? 0) else 17;
          Ok (ai :: l)
      end
  end.

(** [get_amounts_in], lib.rs:987-1026. *)
Definition get_amounts_in (s : dex) (amount_out : N) (path : list N) : result (list N) :=
  ensure! path_ok s path else 16;
  match path with
  | [] => Err 16
  | x :: rest => amounts_in_loop s amount_out x rest
  end.

(** Update of [LiquidityPoolLastK] to the product of the stored reserves, lib.rs:734-738,
    855-859, 1169-1176 (a failing multiplication leaves the old value). *)
Definition update_lastk (s : dex) (p : N * N) (lpid : N) : dex :=
  let '(ra, rb) := reserves s p in
  match chk_mul U256MAX ra rb with Some k => set_lastk s lpid k | None => s end.

(** [mint_fee], lib.rs:1273-1314. Returns the new state and whether the fee is on. *)
Definition mint_fee (s : dex) (lpid ra rb : N) : result (dex * bool) :=
  let k_last := getN (lastk s) lpid in
  match feeto s with
  | Some fee_to =>
      if k_last =? 0 then Ok (s, true) else
      let root_k := N.sqrt (sat U256MAX (ra * rb)) in
      let root_k_last := N.sqrt k_last in
      if root_k_last <? root_k then
        let total_supply := issuance (lg s) lpid in
        do! d <- usub root_k root_k_last;
        do! numerator <- umul total_supply d;
        do! d5 <- umul root_k 5;
        do! denominator <- uadd d5 root_k_last;
        do! liquidity <- udiv numerator denominator;
        if 0 <? liquidity then
          do! l <- mint (lg s) lpid fee_to (sat128 liquidity);
          Ok (set_lg s l, true)
        else Ok (s, true)
      else Ok (s, true)
  | None =>
      if k_last =? 0 then Ok (s, false) else Ok (set_lastk s lpid 0, false)
  end.

(** One leg of [_swap], lib.rs:1039-1180: swap at the pool of (input, output), sending
    [amount_out] of [output] to [to]. *)
Definition swap_leg (s : dex) (input output amount_out : N) (to : acct) : result dex :=
  ensure! negb (input =? output) else 18;
  let p := pair_of input output in
  let '(a0out, a1out) := if input =? fst p then (0, amount_out) else (amount_out, 0) in
  ensure! (0 <? a0out) || (0 <? a1out) else 13;
  let '(r0, r1) := reserves s p in
  ensure! (a0out <? r0) && (a1out <? r1) else 11;
  do! l1 <- (if 0 <? a0out then transfer (lg s) (fst p) (pool_addr p) to a0out else Ok (lg s));
  do! l2 <- (if 0 <? a1out then transfer l1 (snd p) (pool_addr p) to a1out else Ok l1);
  let b0 := balance l2 (fst p) (pool_addr p) in
  let b1 := balance l2 (snd p) (pool_addr p) in
  do! sub0 <- usub r0 a0out;
  let a0in := if sat128 sub0 <? b0 then b0 - sat128 sub0 else 0 in
  do! sub1 <- usub r1 a1out;
  let a1in := if sat128 sub1 <? b1 then b1 - sat128 sub1 else 0 in
  ensure! (0 <? a0in) || (0 <? a1in) else 12;
  do! x0 <- umul b0 FEE_DEN;
  do! y0 <- umul a0in FEE_NUM;
  do! adj0 <- usub x0 y0;
  do! x1 <- umul b1 FEE_DEN;
  do! y1 <- umul a1in FEE_NUM;
  do! adj1 <- usub x1 y1;
  do! lhs <- umul adj0 adj1;
  do! k0 <- umul r0 r1;
  do! rhs <- umul k0 (FEE_DEN * FEE_DEN);
  ensure! rhs <=? lhs else 19;
  let s2 := set_pool (set_lg s l2) p (b0, b1) in
  match feeto s2 with
  | Some _ =>
      do! lpid <- of_opt (lp s2 !! p) 20;
      do! r <- mint_fee s2 lpid b0 b1;
      let '(s3, fee_on) := r in
      if fee_on then Ok (update_lastk s3 p lpid) else Ok s3
  | None => Ok s2
  end.

(** [_swap], lib.rs:1030-1185: walk the path; each leg pays to the pool of the next pair, the
    last one to [to]. [amounts] are those of the assets after [x]. *)
Fixpoint swap_loop (s : dex) (x : N) (rest amounts : list N) (to : acct) : result dex :=
  match rest, amounts with
  | y :: rest', ao :: amounts' =>
      let dest := match rest' with z :: _ => pool_addr (pair_of y z) | [] => to end in
      do! s' <- swap_leg s x y ao dest;
      swap_loop s' y rest' amounts' to
  | _, _ => Ok s
  end.

Definition deadline_ok (s : dex) (d : option N) : bool :=
  match d with Some b => now s <=? b | None => true end.

(** [do_swap_with_exact_supply], lib.rs:1189-1231. *)
Definition swap_with_exact_supply (s : dex) (who : acct) (amount_in min_out : N)
    (path : list N) (to : acct) (deadline : option N) : result dex :=
  ensure! deadline_ok s deadline else 21;
  do! amounts <- get_amounts_out s amount_in path;
  ensure! min_out <=? List.last amounts 0 else 22;
  match path, amounts with
  | x :: ((y :: _) as rest), a0 :: arest =>
      do! l <- transfer (lg s) x who (pool_addr (pair_of x y)) a0;
      swap_loop (set_lg s l) x rest arest to
  | _, _ => Err 16
  end.

(** [do_swap_with_exact_target], lib.rs:1235-1269. *)
Definition swap_with_exact_target (s : dex) (who : acct) (amount_out max_in : N)
    (path : list N) (to : acct) (deadline : option N) : result dex :=
  ensure! deadline_ok s deadline else 21;
  do! amounts <- get_amounts_in s amount_out path;
  match path, amounts with
  | x :: ((y :: _) as rest), a0 :: arest =>
      ensure! a0 <=? max_in else 23;
      do! l <- transfer (lg s) x who (pool_addr (pair_of x y)) a0;
      swap_loop (set_lg s l) x rest arest to
  | _, _ => Err 16
  end.

(** [create_lp_token], lib.rs:539-574. *)
Definition create_lp_token (s : dex) (p : N * N) : dex * N :=
  let i := next_asset s in
  (Dex (lg s) (<[p := i]> (lp s)) (<[p := true]> (enabled s)) (pool s) (lastk s) (feeto s)
       (i + 1) (now s) (plimit s), i).

(** [do_add_liquidity], lib.rs:576-746.  Returns the state and (amount_0, amount_1, liquidity) in
    pair order. *)
Definition add_liquidity (s0 : dex) (who : acct) (token_a token_b da db ma mb : N) (to : acct)
    (deadline : option N) : result (dex * (N * N * N)) :=
  ensure! negb (token_a =? token_b) else 18;
  ensure! (0 <? da) && (0 <? db) else 24;
  ensure! deadline_ok s0 deadline else 21;
  let p := pair_of token_a token_b in
  let '(s, lpid) := match lp s0 !! p with Some i => (s0, i) | None => create_lp_token s0 p end in
  ensure! is_enabled s p else 14;
  let '(da, db, ma, mb) := if token_a =? fst p then (da, db, ma, mb) else (db, da, mb, ma) in
  let '(ra, rb) := reserves s p in
  do! ab <-
    (if (ra =? 0) && (rb =? 0) then Ok (da, db)
     else
       do! b_opt <- quote da ra rb;
       if b_opt <=? db then (ensure! mb <=? b_opt else 25; Ok (da, b_opt))
       else
         do! a_opt <- quote db rb ra;
         ensure! a_opt <=? da else 10;
         ensure! ma <=? a_opt else 26;
         Ok (a_opt, db));
  let '(aa, bb) := ab in
  do! l1 <- transfer (lg s) (fst p) who (pool_addr p) (sat128 aa);
  do! l2 <- transfer l1 (snd p) who (pool_addr p) (sat128 bb);
  let b0 := balance l2 (fst p) (pool_addr p) in
  let b1 := balance l2 (snd p) (pool_addr p) in
  do! am0 <- usub b0 ra;
  do! am1 <- usub b1 rb;
  let total_supply := issuance l2 lpid in
  do! lq <-
    (if total_supply =? 0 then
       do! m <- umul am0 am1;
       do! liq <- usub (N.sqrt m) MIN_LIQ;
       do! l3 <- mint l2 lpid ABurn MIN_LIQ;
       Ok (sat128 liq, l3)
     else
       do! m0 <- umul am0 total_supply;
       do! q0 <- udiv m0 ra;
       do! m1 <- umul am1 total_supply;
       do! q1 <- udiv m1 rb;
       Ok (sat128 (N.min q0 q1), l2));
  let '(liq, l3) := lq in
  ensure! negb (liq =? 0) else 27;
  do! l4 <- mint l3 lpid to liq;
  let s1 := set_pool (set_lg s l4) p (b0, b1) in
  let s2 := match feeto s1 with Some _ => update_lastk s1 p lpid | None => s1 end in
  Ok (s2, (am0, am1, liq)).

(** [do_remove_liquidity], lib.rs:748-867.  Returns the state and the two amounts in pair order. *)
Definition remove_liquidity (s : dex) (who : acct) (token_a token_b liq_in ma mb : N) (to : acct)
    (deadline : option N) : result (dex * (N * N)) :=
  ensure! deadline_ok s deadline else 21;
  let p := pair_of token_a token_b in
  do! lpid <- of_opt (lp s !! p) 20;
  ensure! negb (token_a =? token_b) else 18;
  do! l1 <- transfer (lg s) lpid who (pool_addr p) liq_in;
  let '(ma, mb) := if token_a =? fst p then (ma, mb) else (mb, ma) in
  let b0 := balance l1 (fst p) (pool_addr p) in
  let b1 := balance l1 (snd p) (pool_addr p) in
  let liq := balance l1 lpid (pool_addr p) in
  let total_supply := issuance l1 lpid in
  do! m0 <- umul liq b0;
  do! q0 <- udiv m0 total_supply;
  do! m1 <- umul liq b1;
  do! q1 <- udiv m1 total_supply;
  let am0 := sat128 q0 in
  let am1 := sat128 q1 in
  ensure! (0 <? am0) && (0 <? am1) else 28;
  ensure! ma <=? am0 else 29;
  ensure! mb <=? am1 else 30;
  do! l2 <- burn l1 lpid (pool_addr p) liq;
  do! l3 <- transfer l2 (fst p) (pool_addr p) to am0;
  do! l4 <- transfer l3 (snd p) (pool_addr p) to am1;
  let s1 := set_pool (set_lg s l4) p
              (balance l4 (fst p) (pool_addr p), balance l4 (snd p) (pool_addr p)) in
  let s2 := match feeto s1 with Some _ => update_lastk s1 p lpid | None => s1 end in
  Ok (s2, (am0, am1)).

(** Calls of the pallet and of the environment.  [OSetFeeTo] is [set_fee_to] (lib.rs:266-277, root),
    [OEnable]/[ODisable] lib.rs:454-511 (root).  [OTransfer] is any ordinary token transfer
    between accounts (including donations to a pool and trading of LP tokens).  [OCreate] and
    [OMint] stand for the rest of the chain creating assets and minting non-LP assets; LP tokens
    are owned by the keyless pool account (lib.rs:564-570), so nobody else can mint them.
    [OTick] is the next block.  Signers are ordinary users: the pool and burn accounts have no
    keys. *)
Inductive op :=
| OSwapSupply (who : N) (amount_in min_out : N) (path : list N) (to : acct) (deadline : option N)
| OSwapTarget (who : N) (amount_out max_in : N) (path : list N) (to : acct) (deadline : option N)
| OAdd (who : N) (a b da db ma mb : N) (to : acct) (deadline : option N)
| ORemove (who : N) (a b liq ma mb : N) (to : acct) (deadline : option N)
| OSetFeeTo (f : option acct)
| OEnable (a b : N)
| ODisable (a b : N)
| OTransfer (who : N) (asset : N) (to : acct) (v : N)
| OCreate
| OMint (asset : N) (to : acct) (v : N)
| OTick.

Definition is_lp (s : dex) (a : N) : bool :=
  existsb (fun e => snd e =? a) (map_to_list (lp s)).

Definition step (s : dex) (o : op) : dex :=
  match o with
  | OSwapSupply who ai mo path to d => commit s (swap_with_exact_supply s (AUser who) ai mo path to d)
  | OSwapTarget who ao mi path to d => commit s (swap_with_exact_target s (AUser who) ao mi path to d)
  | OAdd who a b da db ma mb to d =>
      match add_liquidity s (AUser who) a b da db ma mb to d with Ok (s', _) => s' | Err _ => s end
  | ORemove who a b lq ma mb to d =>
      match remove_liquidity s (AUser who) a b lq ma mb to d with Ok (s', _) => s' | Err _ => s end
  | OSetFeeTo f => Dex (lg s) (lp s) (enabled s) (pool s) (lastk s) f (next_asset s) (now s) (plimit s)
  | OEnable a b =>
      let p := pair_of a b in
      match lp s !! p with
      | Some _ => if is_enabled s p then s else set_enabled s p true
      | None => s
      end
  | ODisable a b =>
      let p := pair_of a b in
      match lp s !! p with
      | Some _ => if is_enabled s p then set_enabled s p false else s
      | None => s
      end
  | OTransfer who asset to v =>
      match transfer (lg s) asset (AUser who) to v with Ok l => set_lg s l | Err _ => s end
  | OCreate => Dex (lg s) (lp s) (enabled s) (pool s) (lastk s) (feeto s) (next_asset s + 1) (now s) (plimit s)
  | OMint asset to v =>
      if (asset <? next_asset s) && negb (is_lp s asset) then
        match mint (lg s) asset to v with Ok l => set_lg s l | Err _ => s end
      else s
  | OTick => Dex (lg s) (lp s) (enabled s) (pool s) (lastk s) (feeto s) (next_asset s) (now s + 1) (plimit s)
  end.

(** The chain before anything happened: no asset balances, no pools; [n0] assets exist. *)
Definition init (n0 : N) (limit : nat) (fee : option acct) : dex :=
  Dex empty_ledger ∅ ∅ ∅ ∅ fee n0 0 limit.
