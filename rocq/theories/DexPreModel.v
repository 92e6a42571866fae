(** The exchange's EVM contract, [/repo/evm-precompiles/dex/src/lib.rs], on top of the exchange model
    ([DexModel]) and the byte-level ABI ([AbiModel]).  The vocabulary of arguments and logs is that of
    [Erc1155Model].  Running out of gas is not modelled: it reverts the call, as if it had not been
    made. *)
From Verif Require Export Erc1155Model UtilsModel DexModel.

(** ** Selectors and log topics: keccak-256 of the signatures of 32-40 and 60-79, computed outside Coq *)
Definition X_addLiquidity : N := 0xe8e33700.
Definition X_addLiquidityETH : N := 0xf305d719.
Definition X_removeLiquidity : N := 0xbaa2abde.
Definition X_removeLiquidityETH : N := 0x02751cec.
Definition X_swapExactTokensForTokens : N := 0x38ed1739.
Definition X_swapTokensForExactTokens : N := 0x8803dbee.
Definition X_swapExactETHForTokens : N := 0x7ff36ab5.
Definition X_swapTokensForExactETH : N := 0x4a25d94a.
Definition X_swapExactTokensForETH : N := 0x18cbafe5.
Definition X_swapETHForExactTokens : N := 0xfb3bdb41.
Definition X_quote : N := 0xad615dec.
Definition X_getAmountOut : N := 0x054d50d4.
Definition X_getAmountIn : N := 0x85f8c259.
Definition X_getAmountsOut : N := 0xd06ca61f.
Definition X_getAmountsIn : N := 0x1f00ca74.
Definition L_Mint : N := 0x4c209b5fc8ad50758f13e2e1088ba56a560dff690a1c6fef26394f4c03821c4f.
Definition L_Burn : N := 0xdccd412f0b1252819cb1fd330b93224ca42612892bb3f4f789976e6d81936496.
Definition L_Swap : N := 0xd78ad95fa46c994b6551d0da85fc275fe613ce37657fb8d5e3d130840159d822.
(** [GAS_TOKEN_ID], 30. *)
Definition GAS : N := 2.
(** [DEX_PRECOMPILE], /repo/evm-precompiles/utils/src/constants.rs:38. *)
Definition DEX_ADDR : N := 0xdddd.

(** ** Addresses *)
(** The 20 bytes of [pool_address] (see [pool_address_bytes]) as a number. *)
Definition pool_h160 (p : N * N) : N := 0xdddddddd * 2 ^ 128 + fst p * 2 ^ 96 + snd p * 2 ^ 64.
(** [burn_account_id]: "modl" and the pallet id "burn/dex" (runtime/src/lib.rs:680), padded with zeros. *)
Definition BURN_ADDR : N := 0x6d6f646c6275726e2f6465780000000000000000.
(** The account behind an address. *)
Definition acct_of (a : N) : acct :=
  if a =? BURN_ADDR then ABurn
  else if (a / 2 ^ 128 =? 0xdddddddd) && (a mod 2 ^ 64 =? 0) then APool (a / 2 ^ 96 mod 2 ^ 32) (a / 2 ^ 64 mod 2 ^ 32)
  else AUser a.

(** ** State: the exchange and the logs of the Ethereum transactions ([lg_coll] is the address) *)
Record dstate := DState { d_dex : dex; d_logs : list elog }.

(** ** What the pallet's functions return *)
(** The amounts of one hop as [_swap] reports them, /repo/pallet/dex/src/lib.rs:1095-1118 and 1180: the
    reserves after the hop are the balances the input amounts are computed from. *)
Definition surplus (r o b : N) : N := if r - o <? b then b - (r - o) else 0.
Definition leg_amounts (s s' : dex) (x y ao : N) : N * N * N * N :=
  let p := pair_of x y in
  let '(a0out, a1out) := if x =? fst p then (0, ao) else (ao, 0) in
  (surplus (fst (reserves s p)) a0out (fst (reserves s' p)), surplus (snd (reserves s p)) a1out (snd (reserves s' p)),
   a0out, a1out).
(** [_swap], /repo/pallet/dex/src/lib.rs:1030-1185, with its result. *)
Fixpoint swap_legs (s : dex) (x : N) (rest amounts : list N) (to : acct) : result (dex * list (N * N * N * N)) :=
  match rest, amounts with
  | y :: rest', ao :: amounts' =>
      let dest := match rest' with z :: _ => pool_addr (pair_of y z) | [] => to end in
      do! s1 <- swap_leg s x y ao dest;
      do! r <- swap_legs s1 y rest' amounts' to;
      Ok (fst r, leg_amounts s s1 x y ao :: snd r)
  | _, _ => Ok (s, [])
  end.
(** [do_swap_with_exact_supply], 1187-1231, with its result. *)
Definition do_swap_supply (s : dex) (who : acct) (amount_in min_out : N) (path : list N) (to : acct) (deadline : option N)
    : result (dex * list N * list (N * N * N * N)) :=
  ensure! deadline_ok s deadline else 21;
  do! amounts <- get_amounts_out s amount_in path;
  ensure! min_out <=? List.last amounts 0 else 22;
  match path, amounts with
  | x :: ((y :: _) as rest), a0 :: arest =>
      do! l <- transfer (lg s) x who (pool_addr (pair_of x y)) a0;
      do! r <- swap_legs (set_lg s l) x rest arest to;
      Ok (fst r, amounts, snd r)
  | _, _ => Err 16
  end.
(** [do_swap_with_exact_target], 1233-1269, with its result. *)
Definition do_swap_target (s : dex) (who : acct) (amount_out max_in : N) (path : list N) (to : acct) (deadline : option N)
    : result (dex * list N * list (N * N * N * N)) :=
  ensure! deadline_ok s deadline else 21;
  do! amounts <- get_amounts_in s amount_out path;
  match path, amounts with
  | x :: ((y :: _) as rest), a0 :: arest =>
      ensure! a0 <=? max_in else 23;
      do! l <- transfer (lg s) x who (pool_addr (pair_of x y)) a0;
      do! r <- swap_legs (set_lg s l) x rest arest to;
      Ok (fst r, amounts, snd r)
  | _, _ => Err 16
  end.
(** [do_add_liquidity] and [do_remove_liquidity] give the amounts in the caller's order, 741-745 and
    862-866. *)
Definition caller_order (a b x0 x1 : N) : N * N := if a =? fst (pair_of a b) then (x0, x1) else (x1, x0).
Definition do_add (s : dex) (who : acct) (a b da db ma mb : N) (to : acct) (deadline : option N) : result (dex * (N * N) * N) :=
  do! r <- add_liquidity s who a b da db ma mb to deadline;
  let '(s', (x0, x1, lq)) := r in Ok (s', caller_order a b x0 x1, lq).
Definition do_remove (s : dex) (who : acct) (a b lq ma mb : N) (to : acct) (deadline : option N) : result (dex * (N * N)) :=
  do! r <- remove_liquidity s who a b lq ma mb to deadline;
  let '(s', (x0, x1)) := r in Ok (s', caller_order a b x0 x1).

(** ** The precompile *)
(** The loop over the path, e.g. 431-439: every address has to be that of an asset. *)
Fixpoint assets_of (l : list val) : option (list N) :=
  match l with
  | [] => Some []
  | v :: l' => match asset_at (num v), assets_of l' with Some x, Some r => Some (x :: r) | _, _ => None end
  end.
(** [saturated_convert_balance], 43-48, and [saturated_convert_blocknumber], 51-56. *)
Definition conv_balance (n : N) : result N := ensure! n <=? U128MAX else 1; Ok n.
Definition conv_block (n : N) : result N := ensure! n <=? U32MAX else 1; Ok n.

(** The logs of a swap, e.g. 456-480: one per hop, at the address of the hop's pool. *)
Fixpoint swap_logs (caller to x : N) (rest : list N) (legs : list (N * N * N * N)) : list elog :=
  match rest, legs with
  | y :: rest', (i0, i1, o0, o1) :: legs' =>
      Elog (pool_h160 (pair_of x y)) [L_Swap; caller; i0; i1] (out [tU; tU; tA] [VN o0; VN o1; VN to])
      :: swap_logs caller to y rest' legs'
  | _, _ => []
  end.
Definition swap_answer (s : dstate) (caller to : N) (ids : list N) (r : dex * list N * list (N * N * N * N))
    : result (dstate * list N) :=
  let '(s', amounts, legs) := r in
  Ok (DState s' (d_logs s ++ swap_logs caller to (hd 0 ids) (tl ids) legs), out [tUs] [VL (map VN amounts)]).
(** The body of the four functions that sell an exact amount, e.g. 430-483. *)
Definition x_sell (s : dstate) (caller amount_in min_out : N) (path : list val) (to deadline : N) : result (dstate * list N) :=
  do! ids <- of_opt (assets_of path) 2;
  do! ai <- conv_balance amount_in;
  do! mo <- conv_balance min_out;
  do! d <- conv_block deadline;
  do! r <- do_swap_supply (d_dex s) (acct_of caller) ai mo ids (acct_of to) (Some d);
  swap_answer s caller to ids r.
(** The body of the functions that buy an exact amount, e.g. 500-553. *)
Definition x_buy (s : dstate) (caller amount_out max_in : N) (path : list val) (to deadline : N) : result (dstate * list N) :=
  do! ids <- of_opt (assets_of path) 2;
  do! ao <- conv_balance amount_out;
  do! mi <- conv_balance max_in;
  do! d <- conv_block deadline;
  do! r <- do_swap_target (d_dex s) (acct_of caller) ao mi ids (acct_of to) (Some d);
  swap_answer s caller to ids r.
(** [swap_exact_tokens_for_tokens], 416-484; [swap_exact_tokens_for_eth], 695-763, is the same text. *)
Definition x_swap_exact_tokens (s : dstate) (caller : N) (call : list N) : result (dstate * list N) :=
  do! a <- read_args [tU; tU; tAs; tA; tU] call;
  match a with
  | [VN amount_in; VN min_out; VL path; VN to; VN deadline] => x_sell s caller amount_in min_out path to deadline
  | _ => Err 98
  end.
(** [swap_tokens_for_exact_tokens], 486-554; [swap_tokens_for_exact_eth], 625-693, is the same text. *)
Definition x_swap_tokens_for_exact (s : dstate) (caller : N) (call : list N) : result (dstate * list N) :=
  do! a <- read_args [tU; tU; tAs; tA; tU] call;
  match a with
  | [VN amount_out; VN max_in; VL path; VN to; VN deadline] => x_buy s caller amount_out max_in path to deadline
  | _ => Err 98
  end.
(** [swap_exact_eth_for_tokens], 556-623: the amount is the value attached to the call. *)
Definition x_swap_exact_eth (s : dstate) (caller value : N) (call : list N) : result (dstate * list N) :=
  do! a <- read_args [tU; tAs; tA; tU] call;
  match a with
  | [VN min_out; VL path; VN to; VN deadline] => x_sell s caller value min_out path to deadline
  | _ => Err 98
  end.
(** [swap_eth_for_exact_tokens], 765-832: the most that may be spent is the value. *)
Definition x_swap_eth_for_exact (s : dstate) (caller value : N) (call : list N) : result (dstate * list N) :=
  do! a <- read_args [tU; tAs; tA; tU] call;
  match a with
  | [VN amount_out; VL path; VN to; VN deadline] => x_buy s caller amount_out value path to deadline
  | _ => Err 98
  end.

(** The body of [add_liquidity], 161-230, and [add_liquidity_eth], 232-292, on asset ids. *)
Definition x_do_add (s : dstate) (caller a b da db ma mb to deadline : N) : result (dstate * list N) :=
  do! da <- conv_balance da;
  do! db <- conv_balance db;
  do! ma <- conv_balance ma;
  do! mb <- conv_balance mb;
  do! d <- conv_block deadline;
  do! r <- do_add (d_dex s) (acct_of caller) a b da db ma mb (acct_of to) (Some d);
  let '(s', (x0, x1), lq) := r in
  Ok (DState s' (d_logs s ++ [Elog (pool_h160 (pair_of a b)) [L_Mint; caller; x0] (out [tU] [VN x1])]),
      out [tU; tU; tU] [VN x0; VN x1; VN lq]).
Definition x_add (s : dstate) (caller : N) (call : list N) : result (dstate * list N) :=
  do! a <- read_args [tA; tA; tU; tU; tU; tU; tA; tU] call;
  match a with
  | [VN ta; VN tb; VN da; VN db; VN ma; VN mb; VN to; VN deadline] =>
      do! a <- of_opt (asset_at ta) 2;
      do! b <- of_opt (asset_at tb) 2;
      x_do_add s caller a b da db ma mb to deadline
  | _ => Err 98
  end.
Definition x_add_eth (s : dstate) (caller value : N) (call : list N) : result (dstate * list N) :=
  do! a <- read_args [tA; tU; tU; tU; tA; tU] call;
  match a with
  | [VN ta; VN da; VN ma; VN mb; VN to; VN deadline] =>
      do! a <- of_opt (asset_at ta) 2;
      x_do_add s caller a GAS da value ma mb to deadline
  | _ => Err 98
  end.
(** The body of [remove_liquidity], 294-356, and [remove_liquidity_eth], 358-414, on asset ids. *)
Definition x_do_remove (s : dstate) (caller a b lq ma mb to deadline : N) : result (dstate * list N) :=
  do! lq <- conv_balance lq;
  do! ma <- conv_balance ma;
  do! mb <- conv_balance mb;
  do! d <- conv_block deadline;
  do! r <- do_remove (d_dex s) (acct_of caller) a b lq ma mb (acct_of to) (Some d);
  let '(s', (x0, x1)) := r in
  Ok (DState s' (d_logs s ++ [Elog (pool_h160 (pair_of a b)) [L_Burn; caller; x0; x1] (out [tA] [VN to])]),
      out [tU; tU] [VN x0; VN x1]).
Definition x_remove (s : dstate) (caller : N) (call : list N) : result (dstate * list N) :=
  do! a <- read_args [tA; tA; tU; tU; tU; tA; tU] call;
  match a with
  | [VN ta; VN tb; VN lq; VN ma; VN mb; VN to; VN deadline] =>
      do! a <- of_opt (asset_at ta) 2;
      do! b <- of_opt (asset_at tb) 2;
      x_do_remove s caller a b lq ma mb to deadline
  | _ => Err 98
  end.
Definition x_remove_eth (s : dstate) (caller : N) (call : list N) : result (dstate * list N) :=
  do! a <- read_args [tA; tU; tU; tU; tA; tU] call;
  match a with
  | [VN ta; VN lq; VN ma; VN mb; VN to; VN deadline] =>
      do! a <- of_opt (asset_at ta) 2;
      x_do_remove s caller a GAS lq ma mb to deadline
  | _ => Err 98
  end.
(** [quote], 834-855; [get_amount_out], 857-880; [get_amount_in], 882-905. *)
Definition x_quote (s : dstate) (call : list N) : result (dstate * list N) :=
  do! a <- read_args [tU; tU; tU] call;
  match a with
  | [VN x; VN ra; VN rb] =>
      do! ra <- conv_balance ra; do! rb <- conv_balance rb;
      do! y <- quote x ra rb; Ok (s, out [tU] [VN y])
  | _ => Err 98
  end.
Definition x_amount (f : N -> N -> N -> result N) (s : dstate) (call : list N) : result (dstate * list N) :=
  do! a <- read_args [tU; tU; tU] call;
  match a with
  | [VN x; VN rin; VN rout] =>
      do! x <- conv_balance x; do! rin <- conv_balance rin; do! rout <- conv_balance rout;
      do! y <- f x rin rout; Ok (s, out [tU] [VN y])
  | _ => Err 98
  end.
(** [get_amounts_out], 907-942; [get_amounts_in], 944-979. *)
Definition x_amounts (f : dex -> N -> list N -> result (list N)) (s : dstate) (call : list N) : result (dstate * list N) :=
  do! a <- read_args [tU; tAs] call;
  match a with
  | [VN x; VL path] =>
      do! ids <- of_opt (assets_of path) 2;
      do! x <- conv_balance x;
      do! l <- f (d_dex s) x ids; Ok (s, out [tUs] [VL (map VN l)])
  | _ => Err 98
  end.

(** [check_function_modifier], 107-121; everything else is [View]. *)
Definition x_non_payable (sel : N) : bool :=
  existsb (N.eqb sel)
    [X_addLiquidity; X_removeLiquidity; X_removeLiquidityETH; X_swapExactTokensForTokens; X_swapTokensForExactTokens;
     X_swapTokensForExactETH; X_swapExactTokensForETH].
Definition x_payable (sel : N) : bool :=
  existsb (N.eqb sel) [X_addLiquidityETH; X_swapExactETHForTokens; X_swapETHForExactTokens].
(** The match on the selector, 123-139. *)
Definition x_dispatch (sel : N) (s : dstate) (caller value : N) (call : list N) : result (dstate * list N) :=
  if sel =? X_addLiquidity then x_add s caller call
  else if sel =? X_addLiquidityETH then x_add_eth s caller value call
  else if sel =? X_removeLiquidity then x_remove s caller call
  else if sel =? X_removeLiquidityETH then x_remove_eth s caller call
  else if sel =? X_swapExactTokensForTokens then x_swap_exact_tokens s caller call
  else if sel =? X_swapTokensForExactTokens then x_swap_tokens_for_exact s caller call
  else if sel =? X_swapExactETHForTokens then x_swap_exact_eth s caller value call
  else if sel =? X_swapTokensForExactETH then x_swap_tokens_for_exact s caller call
  else if sel =? X_swapExactTokensForETH then x_swap_exact_tokens s caller call
  else if sel =? X_swapETHForExactTokens then x_swap_eth_for_exact s caller value call
  else if sel =? X_quote then x_quote s call
  else if sel =? X_getAmountIn then x_amount get_amount_in s call
  else if sel =? X_getAmountOut then x_amount get_amount_out s call
  else if sel =? X_getAmountsIn then x_amounts get_amounts_in s call
  else if sel =? X_getAmountsOut then x_amounts get_amounts_out s call
  else Err 23.
(** [execute], 101-140. *)
Definition x_execute (s : dstate) (caller : N) (static : bool) (value : N) (call : list N) : result (dstate * list N) :=
  do! sel <- read_selector call;
  ensure! negb (static && (x_non_payable sel || x_payable sel)) else 21;
  ensure! (value =? 0) || x_payable sel else 22;
  x_dispatch sel s caller value call.
(** A call of the contract as the EVM runs it (external crate [evm], stack executor): the attached value
    (in wei) moves to the contract's address first ([EvmCurrencyScaler::transfer], see [UtilsModel]), then the
    precompile runs; a revert undoes both. *)
Definition x_call (s : dstate) (caller : N) (static : bool) (value : N) (call : list N) : result (dstate * list N) :=
  do! l <- evm_transfer (lg (d_dex s)) GAS (acct_of caller) (AUser DEX_ADDR) value;
  x_execute (DState (set_lg (d_dex s) l) (d_logs s)) caller static value call.

(** What happens on the chain: an operation of [DexModel], or a call of the contract. *)
Inductive xop := XDex (o : op) | XCall (caller : N) (static : bool) (value : N) (call : list N).
Definition xstep (s : dstate) (o : xop) : dstate :=
  match o with
  | XDex o => DState (step (d_dex s) o) (d_logs s)
  | XCall caller static value call => match x_call s caller static value call with Ok (s', _) => s' | Err _ => s end
  end.
