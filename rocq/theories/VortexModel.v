(** Model of the vortex distribution pallet ([/repo/pallet/vortex-distribution/src/lib.rs]) over the
    fungible ledger.  Eras, weights, [NextUnsignedAt] (pacing) and the length limits of the bounded
    vectors are not modelled. *)
From Verif Require Export Ledger.

(** [VtxDistStatus], lib.rs:62-68. *)
Inductive vstatus := Disabled | Enabled | Triggered | Paying | Done.
(** Events [RewardRegistered] (one per entry) and [VtxDistPaidOut], lib.rs:245-260. *)
Inductive vevent := EReg (id who amt : N) | EPaid (id who amt : N).

(** [NextVortexId], [VtxDistStatuses], [VtxDistOrderbook] (amount, already paid), [AssetPrices],
    [TotalVortex], [VtxDistPayoutPivot] (lib.rs:158-236), [AdminAccount] and the events.  A raw
    storage key is modelled by its position in the key order; [None] is the bare prefix. *)
Record vs := VS {
  vl : ledger N; vnext : N; vadmin : option N; stat : gmap N vstatus; book : gmap (N * N) (N * bool);
  prices : gmap (N * N) N; tot : gmap N N; pivot : gmap N (option N); vlog : list vevent }.
Definition set_vl (s : vs) (l : ledger N) : vs :=
  VS l (vnext s) (vadmin s) (stat s) (book s) (prices s) (tot s) (pivot s) (vlog s).
Definition set_stat (s : vs) (id : N) (x : vstatus) : vs :=
  VS (vl s) (vnext s) (vadmin s) (<[id := x]> (stat s)) (book s) (prices s) (tot s) (pivot s) (vlog s).
Definition set_book (s : vs) (k : N * N) (e : N * bool) : vs :=
  VS (vl s) (vnext s) (vadmin s) (stat s) (<[k := e]> (book s)) (prices s) (tot s) (pivot s) (vlog s).
Definition set_tot (s : vs) (t : gmap N N) : vs :=
  VS (vl s) (vnext s) (vadmin s) (stat s) (book s) (prices s) t (pivot s) (vlog s).
Definition set_pivot (s : vs) (id : N) (p : option N) : vs :=
  VS (vl s) (vnext s) (vadmin s) (stat s) (book s) (prices s) (tot s) (<[id := p]> (pivot s)) (vlog s).
Definition set_prices (s : vs) (p : gmap (N * N) N) : vs :=
  VS (vl s) (vnext s) (vadmin s) (stat s) (book s) p (tot s) (pivot s) (vlog s).
Definition set_next (s : vs) (n : N) : vs :=
  VS (vl s) n (vadmin s) (stat s) (book s) (prices s) (tot s) (pivot s) (vlog s).
Definition set_admin (s : vs) (a : N) : vs :=
  VS (vl s) (vnext s) (Some a) (stat s) (book s) (prices s) (tot s) (pivot s) (vlog s).
Definition note (s : vs) (e : vevent) : vs :=
  VS (vl s) (vnext s) (vadmin s) (stat s) (book s) (prices s) (tot s) (pivot s) (vlog s ++ [e]).
(** [ValueQuery] reads. *)
Definition status_of (s : vs) (id : N) : vstatus := default Disabled (stat s !! id).
Definition same_status (x y : vstatus) : bool :=
  match x, y with
  | Disabled, Disabled | Enabled, Enabled | Triggered, Triggered | Paying, Paying | Done, Done => true
  | _, _ => false
  end.

Section vortex.
  (** Position of an account's entry in the storage key order (the key holds a hash of the account
      and the account itself); the pot accounts (lib.rs:655-667), the vortex and native assets, and
      [PayoutBatchSize]. *)
  Variable key : N -> N.
  Variable vault rootv feev vtx native batch : N.

  (** [ensure_root_or_admin], lib.rs:791-804 ([None]: root). *)
  Definition is_admin (s : vs) (o : option N) : bool :=
    match o with None => true | Some who => bool_decide (vadmin s = Some who) end.

  (** [safe_transfer], lib.rs:770-789. *)
  Definition safe_transfer (l : ledger N) (a from to v : N) : result (ledger N) :=
    if v =? 0 then Ok l else transfer l a from to v.

  (** [create_vtx_dist], lib.rs:367-380 (32-bit identifiers, runtime/src/lib.rs:1332). *)
  Definition create_dist (s : vs) (o : option N) : result vs :=
    ensure! is_admin s o else 1;
    do! nx <- of_opt (chk_add U32MAX (vnext s) 1) 2;
    Ok (set_stat (set_next s nx) (vnext s) Enabled).
  (** [disable_vtx_dist], lib.rs:388-397. *)
  Definition disable_dist (s : vs) (o : option N) (id : N) : result vs :=
    ensure! is_admin s o else 1;
    ensure! negb (same_status (status_of s id) Disabled) else 3;
    Ok (set_stat s id Disabled).
  (** [start_vtx_dist] and [do_start_vtx_dist], lib.rs:405-415, 677-687. *)
  Definition start_dist (s : vs) (o : option N) (id : N) : result vs :=
    ensure! is_admin s o else 1;
    ensure! same_status (status_of s id) Triggered else 4;
    do! l <- mint (vl s) vtx vault (getN (tot s) id);
    Ok (set_stat (set_tot (set_vl s l) (delete id (tot s))) id Paying).

  (** The accounts of an orderbook in storage key order, and those after a raw key. *)
  Fixpoint insert_key (w : N) (l : list N) : list N :=
    match l with
    | [] => [w]
    | x :: l' => if key w <=? key x then w :: l else x :: insert_key w l'
    end.
  Definition accounts (b : gmap (N * N) (N * bool)) (id : N) : list N :=
    fold_right insert_key [] (map (fun e => snd (fst e)) (List.filter (fun e => fst (fst e) =? id) (map_to_list b))).
  Definition beyond (p : option N) (w : N) : bool := match p with Some k => k <? key w | None => true end.

  (** The loop of [pay_unsigned], lib.rs:440-470: the entry is marked paid whether or not the
      transfer succeeds. *)
  Fixpoint pay_loop (id : N) (ws : list N) (count : N) (s : vs) (last : option N) : vs * option N :=
    match ws with
    | [] => (s, last)
    | w :: ws' =>
        match book s !! (id, w) with
        | None => pay_loop id ws' count s last
        | Some (_, true) => pay_loop id ws' count s (Some (key w))
        | Some (amt, false) =>
            let s1 := match safe_transfer (vl s) vtx vault w amt with
                      | Ok l => note (set_vl s l) (EPaid id w amt)
                      | Err _ => s
                      end in
            let s2 := set_book s1 (id, w) (amt, true) in
            if batch <? count + 1 then (s2, Some (key w)) else pay_loop id ws' (count + 1) s2 (Some (key w))
        end
    end.
  (** [pay_unsigned], lib.rs:424-489.  [drain_prefix] returns an iterator that is dropped unused,
      so the orderbook stays. *)
  Definition pay_unsigned (s : vs) (id : N) : vs :=
    match status_of s id with
    | Paying =>
        let p := pivot s !! id in
        let from := default None p in
        let (s1, last) := pay_loop id (List.filter (beyond from) (accounts (book s) id)) 0 s from in
        let s2 := if bool_decide (p = Some last) then set_stat s1 id Done else s1 in
        set_pivot s2 id last
    | _ => s
    end.

  (** [set_asset_prices] and [do_asset_price_setter], lib.rs:520-527, 690-704. *)
  Definition asset_prices (s : vs) (o : option N) (id : N) (ps : list (N * N)) : result vs :=
    ensure! is_admin s o else 1;
    ensure! forallb (fun p => negb (fst p =? vtx)) ps else 5;
    Ok (set_prices s (fold_left (fun m p => <[(id, fst p) := snd p]> m) ps (prices s))).
  (** [register_rewards], lib.rs:535-561.  The sum of one call wraps. *)
  Definition register (s : vs) (o : option N) (id : N) (rs : list (N * N)) : result vs :=
    ensure! is_admin s o else 1;
    ensure! same_status (status_of s id) Enabled else 3;
    let sum := fold_left (fun acc r => (acc + snd r) mod 2 ^ 128) rs 0 in
    let s1 := fold_left (fun t r => note (set_book t (id, fst r) (snd r, false)) (EReg id (fst r) (snd r))) rs s in
    Ok (set_tot s1 (<[id := sat U128MAX (getN (tot s1) id + sum)]> (tot s1))).
  (** The assets with a price in a distribution ([iter_prefix]). *)
  Definition assets (s : vs) (id : N) : list N :=
    map (fun e => snd (fst e)) (List.filter (fun e => fst (fst e) =? id) (map_to_list (prices s))).
  (** [trigger_vtx_distribution] and [do_vtx_distribution_trigger], lib.rs:569-581, 707-742. *)
  Definition trigger (s : vs) (o : option N) (id : N) : result vs :=
    ensure! is_admin s o else 1;
    ensure! same_status (status_of s id) Enabled else 6;
    do! l <- fold_left (fun r a => do! l <- r; safe_transfer l a feev vault (balance l a feev)) (assets s id) (Ok (vl s));
    do! l2 <- safe_transfer l native rootv vault (balance l native rootv);
    Ok (set_stat (set_vl s l2) id Triggered).
  (** [redeem_tokens_from_vault], lib.rs:590-626. *)
  Definition redeem (s : vs) (who id v : N) : result vs :=
    let total := issuance (vl s) vtx in
    ensure! 0 <? total else 7;
    ensure! (0 <? v) && (v <=? balance (vl s) vtx who) else 8;
    ensure! same_status (status_of s id) Done else 9;
    do! l <- fold_left (fun r a => do! l <- r;
               safe_transfer l a vault who (sat U128MAX (v * balance l a vault) / total)) (assets s id) (Ok (vl s));
    do! l2 <- burn l vtx who v;
    Ok (set_vl s l2).

  (** The calls, and what else happens to tokens: transfers by their holders, minting by other
      pallets, burning from any account but the vault. *)
  Inductive vop :=
  | VAdmin (new : N)
  | VCreate (o : option N)
  | VDisable (o : option N) (id : N)
  | VStart (o : option N) (id : N)
  | VPay (id : N)
  | VPrices (o : option N) (id : N) (ps : list (N * N))
  | VRegister (o : option N) (id : N) (rs : list (N * N))
  | VTrigger (o : option N) (id : N)
  | VRedeem (who id v : N)
  | VSend (who a to v : N)
  | VMint (a to v : N)
  | VBurn (a from v : N).

  Definition pot (x : N) : bool := (x =? vault) || (x =? rootv) || (x =? feev).
  Definition vexec (s : vs) (o : vop) : result vs :=
    match o with
    | VAdmin new => Ok (set_admin s new)
    | VCreate o => create_dist s o
    | VDisable o id => disable_dist s o id
    | VStart o id => start_dist s o id
    | VPay id => Ok (pay_unsigned s id)
    | VPrices o id ps => asset_prices s o id ps
    | VRegister o id rs => register s o id rs
    | VTrigger o id => trigger s o id
    | VRedeem who id v => ensure! negb (pot who) else 10; redeem s who id v
    | VSend who a to v =>
        ensure! negb (pot who) else 10;
        do! l <- transfer (vl s) a who to v; Ok (set_vl s l)
    | VMint a to v => do! l <- mint (vl s) a to v; Ok (set_vl s l)
    | VBurn a from v =>
        ensure! negb (pot from) else 10;
        do! l <- burn (vl s) a from v; Ok (set_vl s l)
    end.
  Definition vstep (s : vs) (o : vop) : vs := commit s (vexec s o).
  Definition vinit : vs := VS empty_ledger 0 None ∅ ∅ ∅ ∅ ∅ [].
End vortex.
