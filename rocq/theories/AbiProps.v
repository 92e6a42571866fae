(** What a contract or wallet that calls a precompile can rely on about its arguments and results. *)
From Verif Require Import FpassProofs AbiProofs.

Definition U256t : ty := TW (WUint U256MAX).

(** ** C116: what the precompiles write is the Solidity ABI form *)
(** [enc_all] is "enc((X1, …, Xk))" of the Solidity ABI specification; the writer of the pallets and
    precompiles (results, logs and revert reasons) produces exactly it, for every list of well-typed
    values of any nesting. *)
Theorem C116_written ts l : wt_all ts l -> build (write_all ts l wnew) = enc_all ts l.
Proof. apply build_all. Qed.
Theorem C116_call sel ts l : wt_all ts l -> build_call sel ts l = be_bytes 4 sel ++ enc_all ts l.
Proof. intros H. unfold build_call. rewrite build_all; auto. Qed.
(** The two examples of the Solidity documentation, word by word:
    [f(0x123, [0x456, 0x789], "1234567890", "Hello, world!")] and [g([[1, 2], [3]], ["one", "two", "three"])]. *)
Definition ascii10 : list N := [49; 50; 51; 52; 53; 54; 55; 56; 57; 48].
Definition hello : list N := [72; 101; 108; 108; 111; 44; 32; 119; 111; 114; 108; 100; 33].
Definition f_ty : list ty := [U256t; TVec U32MAX (TW (WUint U32MAX)); TPost; TBytes U32MAX].
Definition f_val : list val := [VN 0x123; VL [VN 0x456; VN 0x789]; VB (ascii10 ++ repeat 0 22); VB hello].
Definition one := [111; 110; 101]. Definition two := [116; 119; 111]. Definition three := [116; 104; 114; 101; 101].
Definition g_ty : list ty := [TVec U32MAX (TVec U32MAX U256t); TVec U32MAX (TBytes U32MAX)].
Definition g_val : list val := [VL [VL [VN 1; VN 2]; VL [VN 3]]; VL [VB one; VB two; VB three]].
Example C116_doc_f :
  build_call 0x8be65246 f_ty f_val =
    [0x8b; 0xe6; 0x52; 0x46] ++ word 0x123 ++ word 0x80 ++ (ascii10 ++ repeat 0 22) ++ word 0xe0 ++
    word 2 ++ word 0x456 ++ word 0x789 ++ word 0xd ++ (hello ++ repeat 0 19).
Proof. vm_compute. reflexivity. Qed.
Example C116_doc_g :
  build_call 0x2289b18c g_ty g_val =
    [0x22; 0x89; 0xb1; 0x8c] ++ word 0x40 ++ word 0x140 ++
    word 2 ++ word 0x40 ++ word 0xa0 ++ word 2 ++ word 1 ++ word 2 ++ word 1 ++ word 3 ++
    word 3 ++ word 0x60 ++ word 0xa0 ++ word 0xe0 ++
    word 3 ++ (one ++ repeat 0 29) ++ word 3 ++ (two ++ repeat 0 29) ++ word 5 ++ (three ++ repeat 0 27).
Proof. vm_compute. reflexivity. Qed.
Lemma ex_f_wt : wt_all f_ty f_val.
Proof. repeat split; try discriminate. Qed.
Lemma ex_g_wt : wt_all g_ty g_val.
Proof. repeat split; try discriminate. Qed.
Example ex_C116 : build_call 0x8be65246 f_ty f_val = be_bytes 4 0x8be65246 ++ enc_all f_ty f_val.
Proof. apply C116_call, ex_f_wt. Qed.

(** ** C117: arguments arrive as they were sent *)
(** A call in the ABI form, whatever bytes follow it, is read back as the values it was made from. *)
Lemma args_len ts l : wt_all ts l -> (32 * length ts <= hsize (parts ts l))%nat.
Proof.
  revert l. induction ts as [|t ts IH]; intros [|x l] H; simpl in *; try contradiction; try lia.
  destruct H as [Hx Hl]. specialize (IH l Hl). pose proof (enc_pos t x Hx). destruct (is_static t); lia.
Qed.
Theorem C117_read ts l sel extra : wt_all ts l -> nlen (enc_all ts l ++ extra) <= USIZE ->
  read_args ts (be_bytes 4 sel ++ enc_all ts l ++ extra) = Ok l.
Proof.
  intros Hw Hs. unfold read_args.
  assert (L4 : length (be_bytes 4 sel) = 4%nat) by reflexivity.
  rewrite (proj2 (N.leb_le _ _)) by (rewrite nlen_app; unfold nlen at 1; rewrite L4; lia). cbn [ensure rbind].
  rewrite skipn_app, L4, Nat.sub_diag, (skipn_all2 (be_bytes 4 sel)) by (rewrite L4; lia). cbn [app skipn].
  rewrite drop_0. pose proof (args_len ts l Hw) as A.
  rewrite (proj2 (N.leb_le _ _)).
  2:{ rewrite nlen_app. unfold enc_all, abi_seq. rewrite nlen_app. unfold nlen at 1. rewrite heads_length. lia. }
  cbn [ensure rbind]. rewrite (read_all_seq ts l (enc_all ts l ++ extra)); auto.
  - apply Forall_forall. intros t _. apply read_spec.
  - exists [], extra. auto.
Qed.
Theorem C117_roundtrip ts l sel extra : sel < 2 ^ 32 -> wt_all ts l -> nlen (enc_all ts l ++ extra) <= USIZE ->
  read_selector (build_call sel ts l ++ extra) = Ok sel /\ read_args ts (build_call sel ts l ++ extra) = Ok l.
Proof.
  intros Hsel Hw Hs. rewrite C116_call, <- app_assoc by auto. split; [|apply C117_read; auto].
  unfold read_selector. assert (L4 : length (be_bytes 4 sel) = 4%nat) by reflexivity.
  rewrite (proj2 (N.leb_le _ _)) by (rewrite nlen_app; unfold nlen at 1; rewrite L4; lia). cbn [ensure rbind].
  rewrite firstn_app, L4, Nat.sub_diag, firstn_O, app_nil_r. rewrite firstn_all2 by (rewrite L4; lia).
  f_equal. rewrite of_be_bytes. apply N.mod_small. exact Hsel.
Qed.
(** So no two lists of arguments share an ABI form. *)
Theorem C117_unambiguous ts l1 l2 : wt_all ts l1 -> wt_all ts l2 -> nlen (enc_all ts l1) <= USIZE ->
  enc_all ts l1 = enc_all ts l2 -> l1 = l2.
Proof.
  intros H1 H2 Hs E. pose proof (C117_read ts l1 0 [] H1) as A. pose proof (C117_read ts l2 0 [] H2) as B.
  rewrite app_nil_r in *. rewrite <- E in B. specialize (A Hs). specialize (B Hs). congruence.
Qed.
Example ex_C117 : read_args g_ty (build_call 0x2289b18c g_ty g_val ++ [7; 7]) = Ok g_val /\
  read_selector (build_call 0x2289b18c g_ty g_val ++ [7; 7]) = Ok 0x2289b18c.
Proof. apply and_comm, C117_roundtrip; [reflexivity|apply ex_g_wt|vm_compute; discriminate]. Qed.
(** A struct with a dynamic field inside an array, next to static fields. *)
Definition s_ty : list ty := [TW WAddr; TVec 10 (TTup [TW WBool; TBytes 40; TTup [TW WHash; TW (WUint U128MAX)]])].
Definition s_val : list val :=
  [VN 5; VL [VL [VN 1; VB hello; VL [VN 9; VN 8]]; VL [VN 0; VB []; VL [VN 7; VN 6]]]].
Example ex_C117_nested : read_args s_ty (build_call 1 s_ty s_val) = Ok s_val.
Proof. vm_compute. reflexivity. Qed.

(** ** C118: what is read is in range, and in memory *)
(** Whatever the call data, the arguments a precompile sees are values of their types: no number
    exceeds its type, no address its 20 bytes, no array or string its bound. *)
Theorem C118_in_range ts call l : forallb okty ts = true -> isbytes call -> read_args ts call = Ok l -> wt_all ts l.
Proof.
  intros Hok Hb. unfold read_args. destruct (4 <=? nlen call); [|discriminate]. cbn [ensure rbind].
  destruct (32 * N.of_nat (length ts) <=? nlen (skipn 4 call)); [|discriminate]. cbn [ensure rbind].
  destruct (read_all ts (skipn 4 call) 0) as [[r c]|] eqn:E; [|discriminate]. cbn [rbind fst]. injection 1 as <-.
  apply (read_all_sound ts) in E as (_ & _ & _ & W); auto.
  - apply W, Forall_drop, Hb.
  - apply Forall_forall. intros t _. apply read_sound.
Qed.
(** The memory the arguments take is bounded by the length of the call to the power of the nesting of
    arrays. *)
Theorem C118_memory ts call l : forallb okty ts = true -> read_args ts call = Ok l -> vsizes l <= bounds ts (nlen call).
Proof.
  intros Hok. unfold read_args. destruct (4 <=? nlen call); [|discriminate]. cbn [ensure rbind].
  destruct (32 * N.of_nat (length ts) <=? nlen (skipn 4 call)); [|discriminate]. cbn [ensure rbind].
  destruct (read_all ts (skipn 4 call) 0) as [[r c]|] eqn:E; [|discriminate]. cbn [rbind fst]. injection 1 as <-.
  apply (read_all_sound ts) in E as (_ & _ & W & _); auto.
  - eapply N.le_trans; [exact W|]. apply bounds_mono. unfold nlen. rewrite skipn_length. lia.
  - apply Forall_forall. intros t _. apply read_sound.
Qed.
Example ex_C118 : wt_all g_ty g_val /\ vsizes g_val <= bounds g_ty (nlen (build_call 0x2289b18c g_ty g_val)).
Proof.
  assert (R : read_args g_ty (build_call 0x2289b18c g_ty g_val) = Ok g_val) by (vm_compute; reflexivity).
  split; [|apply C118_memory; auto]. eapply C118_in_range; [reflexivity| |exact R].
  apply Forall_forall. intros b Hb.
  assert (D : forallb (fun b => b <? 256) (build_call 0x2289b18c g_ty g_val) = true) by (vm_compute; reflexivity).
  rewrite forallb_forall in D. apply N.ltb_lt, D, elem_of_list_In, Hb.
Qed.

(** ** C119: the cost of reading is proportional to the call *)
(** For arguments without arrays inside arrays it is: with [k] dynamic arguments, at most [k] times
    the call. *)
Definition flat (t : ty) : bool := match t with TVec _ (TW _) | TVec _ TPost | TBytes _ | TW _ | TPost => true | _ => false end.
Theorem C119_linear_partial ts call l : forallb okty ts = true -> forallb flat ts = true -> read_args ts call = Ok l ->
  vsizes l <= N.of_nat (length ts) * nlen call.
Proof.
  intros Hok Hf H. pose proof (C118_memory ts call l Hok H) as B. eapply N.le_trans; [exact B|]. clear B.
  assert (L : ts <> [] -> 32 <= nlen call).
  { unfold read_args in H. destruct (4 <=? nlen call); [|discriminate]. cbn [ensure rbind] in H.
    destruct (32 * N.of_nat (length ts) <=? nlen (skipn 4 call)) eqn:Q; [|discriminate]. apply N.leb_le in Q.
    unfold nlen in *. rewrite skipn_length in Q. destruct ts; [congruence|]. cbn [length] in Q. lia. }
  assert (G : forall ts', forallb flat ts' = true -> 32 <= nlen call -> bounds ts' (nlen call) <= N.of_nat (length ts') * nlen call).
  { intros ts' Hf' L'. induction ts' as [|t ts' IH]; [simpl; lia|]. simpl in Hf'. apply andb_true_iff in Hf' as [F1 F2].
    specialize (IH F2). cbn [bounds length]. assert (B : bound t (nlen call) <= nlen call).
    { pose proof (N.mul_div_le (nlen call) 32 ltac:(lia)) as D.
      destruct t as [k| |mx|mx [k| |mx'|mx' t'|ts'']|ts'']; simpl in F1; try discriminate; simpl; nodiv; lia. }
    nodiv; lia. }
  destruct ts as [|t ts]; [simpl; lia|]. apply G; auto.
Qed.
Example ex_C119 : vsizes f_val <= 4 * nlen (build_call 0x8be65246 f_ty f_val).
Proof. apply (C119_linear_partial f_ty); vm_compute; reflexivity. Qed.
(** For an array of arrays (the serial numbers of [erc721Withdraw], /repo/evm-precompiles/peg/src/lib.rs
    178-185) it is not: every inner array can be the same one.  The ratio exceeds any constant, up to what a
    32-bit machine can address. *)
Definition bomb (n : nat) : list N :=
  be_bytes 4 0 ++ word 32 ++ word (N.of_nat n) ++ concat (repeat (word (32 * N.of_nat n)) n) ++
  enc (TVec U32MAX U256t) (VL (repeat (VN 0) n)).
Lemma concat_len n k : length (concat (repeat (word k) n)) = (32 * n)%nat.
Proof. induction n as [|n IH]; cbn [repeat concat]; [reflexivity|]. rewrite app_length, word_length, IH. lia. Qed.
Lemma zeros_len n : length (enc (TVec U32MAX U256t) (VL (repeat (VN 0) n))) = (32 + 32 * n)%nat.
Proof.
  assert (H : hsize (map (fun x => (is_static U256t, enc U256t x)) (repeat (VN 0) n)) = (32 * n)%nat /\
              tails (map (fun x => (is_static U256t, enc U256t x)) (repeat (VN 0) n)) = []).
  { induction n as [|n [IH1 IH2]]; [auto|]. cbn [repeat map]. change (is_static U256t) with true in *. cbn [hsize tails app].
    rewrite IH1, IH2. change (enc U256t (VN 0)) with (word 0). rewrite word_length. split; [lia|auto]. }
  destruct H as [H1 H2]. change (length (word (N.of_nat (length (repeat (VN 0) n))) ++
    abi_seq (map (fun x => (is_static U256t, enc U256t x)) (repeat (VN 0) n))) = (32 + 32 * n)%nat).
  unfold abi_seq. rewrite !app_length, word_length, heads_length, H1, H2. simpl. lia.
Qed.
Lemma bomb_len n : nlen (bomb n) = 100 + 64 * N.of_nat n.
Proof.
  unfold bomb. rewrite !nlen_app, !nlen_word. unfold nlen. rewrite concat_len, zeros_len.
  change (length (be_bytes 4 0)) with 4%nat. lia.
Qed.
Lemma bomb_read n : N.of_nat n <= 2 ^ 20 -> (0 < n)%nat ->
  read_args [TVec U32MAX (TVec U32MAX U256t)] (bomb n) = Ok [VL (repeat (VL (repeat (VN 0) n)) n)].
Proof.
  intros Hn Hp. pose proof (bomb_len n) as BL.
  assert (Hwt : wt (TVec U32MAX U256t) (VL (repeat (VN 0) n))).
  { apply wt_vec. rewrite repeat_length. split; [unfold U32MAX; lia|]. apply Forall_forall. intros x Hx.
    apply elem_of_list_In, repeat_spec in Hx. subst. simpl. unfold U256MAX. lia. }
  set (inner := enc (TVec U32MAX U256t) (VL (repeat (VN 0) n))) in *.
  set (w := word (32 * N.of_nat n)) in *.
  set (inp := word 32 ++ word (N.of_nat n) ++ concat (repeat w n) ++ inner).
  assert (Hskip : skipn 4 (bomb n) = inp) by reflexivity.
  assert (Hlen : nlen inp = 96 + 64 * N.of_nat n).
  { unfold inp. rewrite !nlen_app, !nlen_word. unfold nlen. unfold w, inner. rewrite concat_len, zeros_len. lia. }
  assert (Hsz : nlen inp <= USIZE) by (rewrite Hlen; unfold USIZE, U32MAX; lia).
  unfold read_args. rewrite Hskip. rewrite (proj2 (N.leb_le _ _)) by lia. cbn [ensure rbind].
  rewrite (proj2 (N.leb_le _ _)) by (rewrite Hlen; cbn [length]; lia). cbn [ensure rbind].
  cbn [read_all]. 
  assert (R : read (TVec U32MAX (TVec U32MAX U256t)) inp 0 = Ok (VL (repeat (VL (repeat (VN 0) n)) n), 32)).
  { set (T := TVec U32MAX U256t) in *. cbn [read].
    assert (H0 : at_ inp 0 (word 32)) by (exists [], (word (N.of_nat n) ++ concat (repeat w n) ++ inner); auto).
    set (out := word (N.of_nat n) ++ concat (repeat w n) ++ inner) in *.
    assert (H1 : at_ inp 32 out) by (exists (word 32), []; rewrite app_nil_r; split; [reflexivity|apply nlen_word]).
    destruct (at_pointer inp 0 32 out Hsz H0 H1) as (p & Ep & Hp0 & Sp).
    { unfold out. rewrite app_length, word_length. lia. }
    rewrite Ep. cbn [rbind fst snd].
    assert (Hp1 := Hp0). unfold out in Hp1. apply at_app in Hp1 as [Hc _].
    rewrite (at_usize p 0 (N.of_nat n)); auto; [|unfold USIZE, U32MAX; lia]. cbn [rbind fst snd].
    rewrite (proj2 (N.leb_le _ _)) by (unfold U32MAX; lia). cbn [ensure rbind]. rewrite Nat2N.id.
    pose proof (at_items p out Hp0) as Hi. unfold out in Hi at 1. rewrite app_length, word_length in Hi.
    specialize (Hi ltac:(lia)).
    assert (Ho : skipn 32 out = concat (repeat w n) ++ inner) by reflexivity. rewrite Ho in Hi.
    set (q := skipn 32 p) in *.
    assert (Sq : nlen q <= USIZE) by (unfold q, nlen in *; rewrite skipn_length; lia).
    assert (Hin : at_ q (32 * N.of_nat n) inner).
    { apply at_app in Hi as [_ Hi]. unfold nlen in Hi at 1. unfold w in Hi. rewrite concat_len in Hi.
      replace (32 * N.of_nat n) with (0 + N.of_nat (32 * n)) by lia. exact Hi. }
    assert (G : forall k c, at_ q c (concat (repeat w k)) ->
      (fix items (k : nat) (c : N) : result (list val) :=
         match k with
         | O => Ok []
         | S k' => do! x <- read T q c; do! r <- items k' (snd x); Ok (fst x :: r)
         end) k c = Ok (repeat (VL (repeat (VN 0) n)) k)).
    { induction k as [|k IH]; intros c Hc'; [reflexivity|]. cbn [repeat concat] in Hc'. apply at_app in Hc' as [Ha Hb].
      destruct (read_spec T (VL (repeat (VN 0) n)) q c Hwt Sq) as [_ R2].
      rewrite (R2 eq_refl (32 * N.of_nat n) Ha Hin). cbn [rbind fst snd]. unfold w in Hb at 1. rewrite nlen_word in Hb.
      rewrite (IH _ Hb). reflexivity. }
    apply at_app in Hi as [Hi _]. rewrite (G n 0 Hi). reflexivity. }
  rewrite R. reflexivity.
Qed.
Lemma vsizes_repeat v k : vsizes (repeat v k) = N.of_nat k * vsize v.
Proof. induction k as [|k IH]; [reflexivity|]. cbn [repeat vsizes]. rewrite IH. lia. Qed.
Theorem C119_linear_refuted : forall c, c <= 30000 -> exists call l,
  read_args [TVec U32MAX (TVec U32MAX U256t)] call = Ok l /\ c * nlen call < vsizes l.
Proof.
  intros c Hc. set (n := N.to_nat (6 * c + 32)). exists (bomb n), [VL (repeat (VL (repeat (VN 0) n)) n)]. split.
  - apply bomb_read; unfold n; lia.
  - cbn [vsizes]. rewrite sizes_eq, vsizes_repeat, sizes_eq, vsizes_repeat, bomb_len. cbn [vsize]. unfold n. rewrite N2Nat.id. nia.
Qed.
(** The smallest interesting case, computed: 612 bytes of call data become 2 048 bytes of numbers. *)
Example ex_C119_bomb : nlen (bomb 8) = 612 /\
  match read_args [TVec U32MAX (TVec U32MAX U256t)] (bomb 8) with Ok l => vsizes l = 2048 | Err _ => False end.
Proof. vm_compute. split; reflexivity. Qed.

(** ** C120: an argument outside its type is refused *)
(** Numbers are: a call whose word exceeds the type reverts, it is never cut down. *)
Lemma read_one k w sel : w < 2 ^ 256 -> read_args [TW k] (be_bytes 4 sel ++ word w) = rbind (of_word k w) (fun n => Ok [VN n]).
Proof.
  intros Hw. unfold read_args. assert (L : nlen (be_bytes 4 sel ++ word w) = 36) by (rewrite nlen_app, nlen_word; reflexivity).
  rewrite L. cbn [N.leb ensure rbind]. change (skipn 4 (be_bytes 4 sel ++ word w)) with (word w). rewrite nlen_word.
  change (32 * N.of_nat (length [TW k]) <=? 32) with true. cbn [ensure rbind read_all read].
  rewrite (at_word (word w) 0 w); auto.
  - cbn [rbind fst snd]. destruct (of_word k w); reflexivity.
  - rewrite nlen_word. unfold USIZE, U32MAX. lia.
  - exists [], []. rewrite app_nil_r. auto.
Qed.
Theorem C120_uint mx w sel : w < 2 ^ 256 ->
  (w <= mx -> read_args [TW (WUint mx)] (be_bytes 4 sel ++ word w) = Ok [VN w]) /\
  (mx < w -> is_ok (read_args [TW (WUint mx)] (be_bytes 4 sel ++ word w)) = false).
Proof.
  intros Hw. rewrite read_one by auto. simpl. destruct (w <=? mx) eqn:Q; simpl; split; intros H; auto.
  - apply N.leb_le in Q. lia.
  - apply N.leb_gt in Q. lia.
Qed.
Example ex_C120 : is_ok (read_args [TW (WUint U64MAX)] (be_bytes 4 7 ++ word (2 ^ 64 + 5))) = false.
Proof. apply C120_uint; vm_compute; reflexivity. Qed.
(** Addresses and booleans are not: the first 12 bytes of an address word are dropped and any non-zero
    word is [true], where a Solidity contract reverts. *)
Theorem C120_dirty_refuted : exists w1 w2, w1 < 2 ^ 256 /\ ~ fits WAddr w1 /\ w2 < 2 ^ 256 /\ ~ fits WBool w2 /\
  read_args [TW WAddr; TW WBool] (be_bytes 4 0 ++ word w1 ++ word w2) = Ok [VN 5; VN 1].
Proof. exists (2 ^ 255 + 5), 2. repeat split; try (vm_compute; congruence). Qed.

Print Assumptions C116_call.
Print Assumptions C117_roundtrip.
Print Assumptions C117_unambiguous.
Print Assumptions C118_in_range.
Print Assumptions C118_memory.
Print Assumptions C119_linear_partial.
Print Assumptions C119_linear_refuted.
Print Assumptions C120_uint.
Print Assumptions C120_dirty_refuted.
