(** Creating collections: the theorems. *)
From Verif Require Import CreateModel CreateProofs.

Section create.
  Variables cap mint_limit string_limit para : N.
  Variable utf8 : list N -> bool.
  Notation kstep := (kstep cap mint_limit string_limit para utf8).
  Notation k_call := (k_call cap mint_limit string_limit para utf8).
  Notation nft_create := (nft_create cap mint_limit para utf8).
  Notation sft_create := (sft_create para utf8).

  (** The number of collections of both kinds. *)
  Definition collections (s : cst) : N := N.of_nat (size (colls (e_nft (k_e s)))) + N.of_nat (size (scolls (p_sft (k_p s)))).
  (** What the documentation and the pallets ask of the arguments. *)
  Definition acceptable (name meta addrs ents : list N) : Prop :=
    0 < nlen name <= string_limit /\ utf8 name = true /\ nlen meta <= 200 /\
    length addrs = length ents /\ N.of_nat (length addrs) <= 6 /\ sum (map per_million ents) <= 1000000.
  Lemma named name : nlen name <= string_limit -> name_ok utf8 name = true <-> 0 < nlen name <= string_limit /\ utf8 name = true.
  Proof.
    intros H. unfold name_ok, nlen in *. destruct name; cbn [length Nat.eqb negb andb]; [split; [discriminate|intros [[? _] _]; cbn in *; lia]|].
    split; [intros ->; split; [cbn [length] in *; lia|reflexivity]|tauto].
  Qed.

  (** ** C162: creating an NFT collection from the EVM *)
  Theorem C162_created ops owner name max meta addrs ents static value s' o : init_args owner name meta addrs ents -> max < 2 ^ 256 ->
    let s := run kstep ops kinit in
    k_call s 0x6b9 static value (init_nft owner name max meta addrs ents) = Ok (s', o) ->
    static = false /\ value = 0 /\
    exists id, id <= U32MAX /\ fresh s id /\ only_nft id s s' /\
      o = enc_all [tA; tU] [VN (0xaaaaaaaa * 2 ^ 128 + id * 2 ^ 96); VN id] /\
      colls (e_nft (k_e s')) !! id = Some (Coll owner (if max =? 0 then None else Some max) true 0 0 [] false true true true) /\
      e_name (k_e s') !! id = Some name /\ e_uri (k_e s') !! id = Some meta /\ e_xrpl (k_e s') !! id = None /\
      k_nroy s' !! id = match addrs with [] => None | _ => Some (combine addrs (map per_million ents)) end /\
      k_logs s' = k_logs s ++ [Elog 0x6b9 [H_initNft; owner] (enc_all [tA] [VN (0xaaaaaaaa * 2 ^ 128 + id * 2 ^ 96)])].
  Proof.
    intros Ha Hm s H. assert (Hi : kinv para s) by apply kinv_reach. clearbody s.
    destruct (init_nft_read owner name max meta addrs ents Ha Hm) as [R1 R2].
    apply k_call_ok in H as (-> & -> & [(_ & _ & H)|(X & _)]); [|discriminate X]. split; [reflexivity|]. split; [reflexivity|].
    apply k_init_nft_ok in H as (owner' & name' & max' & meta' & addrs' & ents' & [s1 id] & R & _ & _ & _ & _ & _ & C & -> & ->).
    rewrite R2 in R. injection R as <- <- <- <- <- <-. rewrite !nums_uints in C. pose proof (nft_create_only _ _ _ _ _ _ _ _ _ _ _ _ _ _ _ _ Hi C) as [F O].
    apply nft_create_ok in C as (E & A & B & _ & _ & _ & _ & _ & E1); [|exact Hi]. exists id. cbn [fst snd] in *.
    assert (L : id <= U32MAX) by (subst id; apply next_le_id; assumption).
    split; [exact L|]. split; [exact F|]. split; [exact O|].
    assert (W : wt tA (VN (evm_addr 0xaaaaaaaa id))) by (apply wtA, erc721_small, L).
    split. { apply out_spec. split; [exact W|]. split; [apply wtU; unfold U32MAX in L; lia|exact I]. }
    clear E. subst s1. cbn [klog k_e k_nroy k_logs e_nft colls e_name e_uri e_xrpl]. rewrite !lookup_insert, lookup_delete, set_or_eq.
    repeat (split; [reflexivity|]). rewrite out_spec; [reflexivity|]. split; [exact W|exact I].
  Qed.
  (** The contract at the answered address is the collection's: it answers the owner, the name and no supply. *)
  Theorem C162_views ops owner name max meta addrs ents s' o mx r caller static ext :
    init_args owner name meta addrs ents -> max < 2 ^ 256 ->
    k_call (run kstep ops kinit) 0x6b9 false 0 (init_nft owner name max meta addrs ents) = Ok (s', o) ->
    exists id, o = enc_all [tA; tU] [VN (0xaaaaaaaa * 2 ^ 128 + id * 2 ^ 96); VN id] /\
      let ask sel := execute721 cap mint_limit mx utf8 (k_e s') r caller id static 0 (build_call sel [] []) ext in
      ask 0x8da5cb5b = Ok (k_e s', enc_all [tA] [VN owner]) /\
      ask 0x06fdde03 = Ok (k_e s', enc_all [tBytes] [VB name]) /\
      ask 0x18160ddd = Ok (k_e s', enc_all [tU] [VN 0]).
  Proof.
    intros Ha Hm H. destruct (C162_created _ _ _ _ _ _ _ _ _ _ _ Ha Hm H) as (_ & _ & id & L & _ & _ & E & C & Nm & _). exists id. split; [exact E|].
    assert (Q : forall sel, sel < 2 ^ 32 -> read_selector (build_call sel [] []) = Ok sel).
    { intros sel Hs. apply call_reads; [vm_compute; discriminate|exact I|exact Hs]. }
    assert (W1 : wt_all [tA] [VN owner]) by (split; [apply wtA, Ha|exact I]).
    assert (W2 : wt_all [tBytes] [VB name]) by (split; [apply bytes_wt, Ha|exact I]).
    assert (W3 : wt_all [tU] [VN 0]) by (split; [apply wtU; lia|exact I]).
    cbv zeta. unfold execute721. rewrite C. cbn [of_opt rbind]. rewrite !Q by lia. cbn [rbind].
    change (non_payable721 0x8da5cb5b) with false. change (non_payable721 0x06fdde03) with false. change (non_payable721 0x18160ddd) with false.
    rewrite andb_false_r. cbn [negb ensure rbind N.eqb].
    split; [|split].
    - change (g_owner (k_e s') id = Ok (k_e s', enc_all [tA] [VN owner])). unfold g_owner. rewrite C. cbn [of_opt rbind c_owner]. rewrite out_spec by exact W1. reflexivity.
    - change (g_name (k_e s') id = Ok (k_e s', enc_all [tBytes] [VB name])). unfold g_name. rewrite C, Nm. cbn [of_opt rbind default]. rewrite out_spec by exact W2. reflexivity.
    - change (g_total_supply (k_e s') id = Ok (k_e s', enc_all [tU] [VN 0])). unfold g_total_supply. rewrite C. cbn [of_opt rbind c_iss]. rewrite out_spec by exact W3. reflexivity.
  Qed.
  Theorem C162_accepted ops owner name max meta addrs ents static value : init_args owner name meta addrs ents -> max < 2 ^ 256 -> cap <= U32MAX -> para <= 1023 ->
    let s := run kstep ops kinit in
    is_ok (k_call s 0x6b9 static value (init_nft owner name max meta addrs ents)) = true <->
    static = false /\ value = 0 /\ acceptable name meta addrs ents /\ max <= cap /\ collections s < 4194302.
  Proof.
    intros Ha Hm Hcap Hpara s. assert (Hi : kinv para s) by apply kinv_reach. clearbody s.
    destruct (init_nft_read owner name max meta addrs ents Ha Hm) as [R1 R2].
    assert (K : collections s < 4194302 <-> k_next s + 1 <= MAX_U22).
    { destruct Hi as (_ & _ & _ & I4). change MAX_U22 with 4194303. unfold collections. lia. }
    split.
    - intros H. destruct (k_call s 0x6b9 static value _) as [[s' o]|] eqn:E; [|discriminate].
      apply k_call_ok in E as (-> & -> & [(_ & _ & E)|(X & _)]); [|discriminate X]. split; [reflexivity|]. split; [reflexivity|].
      apply k_init_nft_ok in E as (owner' & name' & max' & meta' & addrs' & ents' & [s1 id] & R & L1 & L2 & L3 & L4 & L5 & C & _).
      rewrite R2 in R. injection R as <- <- <- <- <- <-. rewrite !nums_uints in *.
      apply nft_create_ok in C as (_ & A & _ & Mx & Nm & Ro & _); [|exact Hi]. rewrite roy_ok_spec in Ro by assumption. apply N.leb_le in Ro.
      apply named in Nm; [|exact L1]. split; [unfold acceptable; tauto|]. split; [|apply K, A].
      destruct (N.eqb_spec max 0) as [->|]; [lia|]. tauto.
    - intros (-> & -> & (A1 & A2 & A3 & A4 & A5 & A6) & A7 & A8). unfold CreateModel.k_call, k_execute, k_init_nft.
      change (0x6b9 =? NFT_ADDR) with true. cbn iota. rewrite R1. cbn [rbind]. rewrite N.eqb_refl. cbn [ensure rbind negb N.eqb]. rewrite R2. cbn [rbind].
      change (uints addrs) with (VL (map VN addrs)). change (uints ents) with (VL (map VN ents)). cbn iota.
      rewrite (proj2 (N.leb_le (nlen name) _)), (proj2 (N.leb_le max _)), (proj2 (N.leb_le (nlen meta) _)) by lia. cbn [ensure rbind].
      rewrite !nums_uints, (proj2 (royalties_spec addrs ents _)) by eauto. cbn [rbind].
      destruct (nft_create_can cap mint_limit para utf8 s owner name (if max =? 0 then None else Some max) None meta (stored_roy addrs ents) true false Hi) as [r ->]; [apply K, A8|exact Hpara| | | |reflexivity].
      + destruct (N.eqb_spec max 0); [exact I|lia].
      + apply named; tauto.
      + rewrite roy_ok_spec by assumption. apply N.leb_le, A6.
  Qed.

  (** ** C163: creating an SFT collection from the EVM *)
  Theorem C163_created ops owner name meta addrs ents static value s' o : init_args owner name meta addrs ents ->
    let s := run kstep ops kinit in
    k_call s 0x6c3 static value (init_sft owner name meta addrs ents) = Ok (s', o) ->
    static = false /\ value = 0 /\
    exists id, id <= U32MAX /\ fresh s id /\ only_sft id s s' /\
      o = enc_all [tA; tU] [VN (0xbbbbbbbb * 2 ^ 128 + id * 2 ^ 96); VN id] /\
      scolls (p_sft (k_p s')) !! id = Some (SColl owner 0 true true true) /\
      k_sname s' !! id = Some name /\ p_uri (k_p s') !! id = Some meta /\
      k_sroy s' !! id = match addrs with [] => None | _ => Some (combine addrs (map per_million ents)) end /\
      k_logs s' = k_logs s ++ [Elog 0x6c3 [H_initSft; owner; 0xbbbbbbbb * 2 ^ 128 + id * 2 ^ 96] []].
  Proof.
    intros Ha s H. assert (Hi : kinv para s) by apply kinv_reach. clearbody s.
    destruct (init_sft_read owner name meta addrs ents Ha) as [R1 R2].
    apply k_call_ok in H as (-> & -> & [(X & _)|(_ & _ & H)]); [discriminate X|]. split; [reflexivity|]. split; [reflexivity|].
    apply k_init_sft_ok in H as (owner' & name' & meta' & addrs' & ents' & [s1 id] & R & _ & _ & _ & _ & C & -> & ->).
    rewrite R2 in R. injection R as <- <- <- <- <-. rewrite !nums_uints in C. pose proof (sft_create_only _ _ _ _ _ _ _ _ _ Hi C) as [F O].
    apply sft_create_ok in C as (E & A & B & _ & _ & E1); [|exact Hi]. exists id. cbn [fst snd] in *.
    assert (L : id <= U32MAX) by (subst id; apply next_le_id; assumption).
    split; [exact L|]. split; [exact F|]. split; [exact O|].
    assert (W : wt tA (VN (evm_addr 0xbbbbbbbb id))) by (apply wtA; unfold evm_addr, U32MAX in *; lia).
    split. { apply out_spec. split; [exact W|]. split; [apply wtU; unfold U32MAX in L; lia|exact I]. }
    clear E. subst s1. cbn [klog k_p k_sname k_sroy k_logs p_sft scolls p_uri]. rewrite !lookup_insert, set_or_eq.
    repeat (split; [reflexivity|]). reflexivity.
  Qed.
  Theorem C163_owner ops owner name meta addrs ents s' o mo ms r caller static ext :
    init_args owner name meta addrs ents ->
    k_call (run kstep ops kinit) 0x6c3 false 0 (init_sft owner name meta addrs ents) = Ok (s', o) ->
    exists id, o = enc_all [tA; tU] [VN (0xbbbbbbbb * 2 ^ 128 + id * 2 ^ 96); VN id] /\
      execute mo ms string_limit utf8 (k_p s') r caller id static 0 (build_call 0x8da5cb5b [] []) ext = Ok (k_p s', enc_all [tA] [VN owner]).
  Proof.
    intros Ha H. destruct (C163_created _ _ _ _ _ _ _ _ _ _ Ha H) as (_ & _ & id & L & _ & _ & E & C & _). exists id. split; [exact E|].
    assert (Q : read_selector (build_call 0x8da5cb5b [] []) = Ok 0x8da5cb5b) by (apply call_reads; [vm_compute; discriminate|exact I|reflexivity]).
    assert (W1 : wt_all [tA] [VN owner]) by (split; [apply wtA, Ha|exact I]).
    unfold execute. rewrite C. cbn [of_opt rbind]. rewrite Q. cbn [rbind]. change (non_payable 0x8da5cb5b) with false.
    rewrite andb_false_r. cbn [negb ensure rbind N.eqb].
    change (f_owner (k_p s') id = Ok (k_p s', enc_all [tA] [VN owner])). unfold f_owner. rewrite C. cbn [of_opt rbind sc_owner]. rewrite out_spec by exact W1. reflexivity.
  Qed.
  Theorem C163_accepted ops owner name meta addrs ents static value : init_args owner name meta addrs ents -> para <= 1023 ->
    let s := run kstep ops kinit in
    is_ok (k_call s 0x6c3 static value (init_sft owner name meta addrs ents)) = true <->
    static = false /\ value = 0 /\ acceptable name meta addrs ents /\ collections s < 4194302.
  Proof.
    intros Ha Hpara s. assert (Hi : kinv para s) by apply kinv_reach. clearbody s.
    destruct (init_sft_read owner name meta addrs ents Ha) as [R1 R2].
    assert (K : collections s < 4194302 <-> k_next s + 1 <= MAX_U22).
    { destruct Hi as (_ & _ & _ & I4). change MAX_U22 with 4194303. unfold collections. lia. }
    split.
    - intros H. destruct (k_call s 0x6c3 static value _) as [[s' o]|] eqn:E; [|discriminate].
      apply k_call_ok in E as (-> & -> & [(X & _)|(_ & _ & E)]); [discriminate X|]. split; [reflexivity|]. split; [reflexivity|].
      apply k_init_sft_ok in E as (owner' & name' & meta' & addrs' & ents' & [s1 id] & R & L1 & L3 & L4 & L5 & C & _).
      rewrite R2 in R. injection R as <- <- <- <- <-. rewrite !nums_uints in *.
      apply sft_create_ok in C as (_ & A & _ & Nm & Ro & _); [|exact Hi]. rewrite roy_ok_spec in Ro by assumption. apply N.leb_le in Ro.
      apply named in Nm; [|exact L1]. split; [unfold acceptable; tauto|]. apply K, A.
    - intros (-> & -> & (A1 & A2 & A3 & A4 & A5 & A6) & A8). unfold CreateModel.k_call, k_execute, k_init_sft.
      change (0x6c3 =? NFT_ADDR) with false. change (0x6c3 =? SFT_ADDR) with true. cbn iota. rewrite R1. cbn [rbind]. rewrite N.eqb_refl. cbn [ensure rbind negb N.eqb]. rewrite R2. cbn [rbind].
      change (uints addrs) with (VL (map VN addrs)). change (uints ents) with (VL (map VN ents)). cbn iota.
      rewrite (proj2 (N.leb_le (nlen name) _)), (proj2 (N.leb_le (nlen meta) _)) by lia. cbn [ensure rbind].
      rewrite !nums_uints, (proj2 (royalties_spec addrs ents _)) by eauto. cbn [rbind].
      destruct (sft_create_can para utf8 s owner name meta (stored_roy addrs ents) Hi) as [r ->]; [apply K, A8|exact Hpara| | |reflexivity].
      + apply named; tauto.
      + rewrite roy_ok_spec by assumption. apply N.leb_le, A6.
  Qed.

  (** ** C164: every collection has its own id, for good *)
  (** Something new of that id is there after the step. *)
  Definition creates (s : cst) (o : kop) (id : N) : Prop := fresh s id /\ ~ fresh (kstep s o) id.
  Theorem C164_one_kind ops c : let s := run kstep ops kinit in colls (e_nft (k_e s)) !! c = None \/ scolls (p_sft (k_p s)) !! c = None.
  Proof. cbv zeta. destruct (kinv_reach cap mint_limit string_limit para utf8 ops) as (_ & _ & H & _). apply H. Qed.
  Theorem C164_kept ops ops' c : let s := run kstep ops kinit in let s' := run kstep (ops ++ ops') kinit in
    (is_Some (colls (e_nft (k_e s)) !! c) -> is_Some (colls (e_nft (k_e s')) !! c) /\ scolls (p_sft (k_p s')) !! c = None) /\
    (is_Some (scolls (p_sft (k_p s)) !! c) -> is_Some (scolls (p_sft (k_p s')) !! c) /\ colls (e_nft (k_e s')) !! c = None).
  Proof.
    cbv zeta. rewrite run_app. pose proof (kinv_reach cap mint_limit string_limit para utf8 ops) as Hi. set (s := run kstep ops kinit) in *. clearbody s.
    destruct (keep_run cap mint_limit string_limit para utf8 ops' s c Hi) as [A B].
    destruct (kinv_run cap mint_limit string_limit para utf8 ops' s Hi) as (_ & _ & D & _). specialize (D c).
    split; intros H; [apply A in H|apply B in H]; (split; [exact H|]); destruct D as [D|D]; try exact D; rewrite D in H; destruct H; discriminate.
  Qed.
  Theorem C164_never_twice ops o ops' o' id : creates (run kstep ops kinit) o id -> ~ creates (run kstep (ops ++ o :: ops') kinit) o' id.
  Proof.
    intros [_ H] [[F1 F2] _]. apply H. replace (ops ++ o :: ops') with ((ops ++ [o]) ++ ops') in F1, F2 by (rewrite <- app_assoc; reflexivity).
    replace (kstep (run kstep ops kinit) o) with (run kstep (ops ++ [o]) kinit) by (rewrite run_app; reflexivity).
    destruct (C164_kept (ops ++ [o]) ops' id) as [A B].
    split; apply eq_None_not_Some; intros X; [destruct (A X) as [[? Y] _]; rewrite F1 in Y|destruct (B X) as [[? Y] _]; rewrite F2 in Y]; discriminate.
  Qed.
  (** A creation, of either kind and whoever asks, takes an id that nothing has, and touches nothing else. *)
  Theorem C164_fresh_nft ops owner name initial max to meta roy root xrpl s' id : let s := run kstep ops kinit in
    nft_create s owner name initial max to meta roy root xrpl = Ok (s', id) -> fresh s id /\ only_nft id s s' /\ id <= U32MAX /\ id mod 1024 = para.
  Proof.
    intros s H. assert (Hi : kinv para s) by apply kinv_reach. clearbody s. destruct (nft_create_only _ _ _ _ _ _ _ _ _ _ _ _ _ _ _ _ Hi H) as [F O].
    apply nft_create_ok in H as (-> & A & B & _); [|exact Hi]. split; [exact F|]. split; [exact O|]. split; [apply next_le_id; assumption|].
    change MAX_U10 with 1023 in B. symmetry. apply (N.mod_unique _ _ (k_next s)); lia.
  Qed.
  Theorem C164_fresh_sft ops owner name meta roy s' id : let s := run kstep ops kinit in
    sft_create s owner name meta roy = Ok (s', id) -> fresh s id /\ only_sft id s s' /\ id <= U32MAX /\ id mod 1024 = para.
  Proof.
    intros s H. assert (Hi : kinv para s) by apply kinv_reach. clearbody s. destruct (sft_create_only _ _ _ _ _ _ _ _ _ Hi H) as [F O].
    apply sft_create_ok in H as (-> & A & B & _); [|exact Hi]. split; [exact F|]. split; [exact O|]. split; [apply next_le_id; assumption|].
    change MAX_U10 with 1023 in B. symmetry. apply (N.mod_unique _ _ (k_next s)); lia.
  Qed.
  (** Ids do not run out before 4194302 collections exist; then no more are created. *)
  Theorem C164_room ops owner name meta : para <= 1023 -> name <> [] -> utf8 name = true ->
    let s := run kstep ops kinit in
    is_ok (nft_create s owner name 0 None None meta None true false) = (collections s <? 4194302) /\
    is_ok (sft_create s owner name meta None) = (collections s <? 4194302).
  Proof.
    intros Hp Hn Hu s. assert (Hi : kinv para s) by apply kinv_reach. clearbody s.
    assert (K : collections s < 4194302 <-> k_next s + 1 <= MAX_U22).
    { destruct Hi as (_ & _ & _ & I4). change MAX_U22 with 4194303. unfold collections. lia. }
    assert (No : name_ok utf8 name = true) by (unfold name_ok; rewrite Hu; destruct name; [congruence|reflexivity]).
    destruct (N.ltb_spec (collections s) 4194302) as [H|H].
    - destruct (nft_create_can cap mint_limit para utf8 s owner name None None meta None true false Hi) as [r ->]; [apply K, H|exact Hp|exact I|exact No|reflexivity|].
      destruct (sft_create_can para utf8 s owner name meta None Hi) as [r' ->]; [apply K, H|exact Hp|exact No|reflexivity|]. split; reflexivity.
    - split.
      + destruct (nft_create _ _ _ _ _ _ _ _ _ _) as [[s' id]|] eqn:E; [|reflexivity]. apply nft_create_ok in E as (_ & A & _); [|exact Hi]. apply K in A. lia.
      + destruct (sft_create _ _ _ _ _) as [[s' id]|] eqn:E; [|reflexivity]. apply sft_create_ok in E as (_ & A & _); [|exact Hi]. apply K in A. lia.
  Qed.

  (** ** C165: the two contracts do what their interface says, and nothing else *)
  (** Whatever bytes are sent: either nothing happens or one collection of that contract's kind appears. *)
  Theorem C165_any_call ops addr static value call s' o : let s := run kstep ops kinit in
    k_call s addr static value call = Ok (s', o) ->
    static = false /\ value = 0 /\ exists id l, fresh s id /\ k_logs s' = k_logs s ++ [l] /\ lg_coll l = addr /\
      ((addr = 0x6b9 /\ only_nft id s s' /\ is_Some (colls (e_nft (k_e s')) !! id)) \/ (addr = 0x6c3 /\ only_sft id s s' /\ is_Some (scolls (p_sft (k_p s')) !! id))).
  Proof.
    intros s H. assert (Hi : kinv para s) by apply kinv_reach. clearbody s.
    apply k_call_ok in H as (-> & -> & [(-> & _ & H)|(-> & _ & H)]); (split; [reflexivity|]); (split; [reflexivity|]).
    - apply k_init_nft_ok in H as (owner & name & max & meta & addrs & ents & [s1 id] & _ & _ & _ & _ & _ & _ & C & -> & _).
      pose proof (nft_create_only _ _ _ _ _ _ _ _ _ _ _ _ _ _ _ _ Hi C) as [F O]. apply nft_create_ok in C as (_ & _ & _ & _ & _ & _ & _ & _ & E1); [|exact Hi].
      exists id. eexists. split; [exact F|]. cbn [fst snd] in *. split; [subst s1; reflexivity|]. split; [reflexivity|]. left. split; [reflexivity|]. split; [exact O|].
      subst s1. cbn. rewrite lookup_insert. eauto.
    - apply k_init_sft_ok in H as (owner & name & meta & addrs & ents & [s1 id] & _ & _ & _ & _ & _ & C & -> & _).
      pose proof (sft_create_only _ _ _ _ _ _ _ _ _ Hi C) as [F O]. apply sft_create_ok in C as (_ & _ & _ & _ & _ & E1); [|exact Hi].
      exists id. eexists. split; [exact F|]. cbn [fst snd] in *. split; [subst s1; reflexivity|]. split; [reflexivity|]. right. split; [reflexivity|]. split; [exact O|].
      subst s1. cbn. rewrite lookup_insert. eauto.
  Qed.
  (** The interfaces are [IERC165]; [supportsInterface] is refused whatever it is asked. *)
  Theorem C165_interface_refuted s static value args : k_call s 0x6b9 static value (be_bytes 4 0x01ffc9a7 ++ args) = Err 23 /\
    k_call s 0x6c3 static value (be_bytes 4 0x01ffc9a7 ++ args) = Err 23.
  Proof.
    assert (R : read_selector (be_bytes 4 0x01ffc9a7 ++ args) = Ok 0x01ffc9a7).
    { unfold read_selector. rewrite (proj2 (N.leb_le _ _)) by (rewrite nlen_app; change (nlen (be_bytes 4 0x01ffc9a7)) with 4; lia). reflexivity. }
    unfold CreateModel.k_call, k_execute. rewrite R. split; reflexivity.
  Qed.
  (** The SFT contract's documentation names the NFT contract's address; there the call is refused. *)
  Theorem C165_sft_address_refuted s static value owner name meta addrs ents : init_args owner name meta addrs ents ->
    k_call s 0x6b9 static value (init_sft owner name meta addrs ents) = Err 23.
  Proof. intros Ha. destruct (init_sft_read owner name meta addrs ents Ha) as [R1 _]. unfold CreateModel.k_call, k_execute. rewrite R1. reflexivity. Qed.
End create.

(** ** Concrete cases, with a parachain id of 100 and the runtime's limits *)
Definition kc := k_call 1000000 1000 50 100 (fun _ => true).
Definition ks := kstep 1000000 1000 50 100 (fun _ => true).
Definition cat : list N := [99; 97; 116].
(** A collection of 500 tokens at most for account 7, with 2.5% and 1% for 8 and 9; then one of SFTs for 7. *)
Example C162_example : init_args 7 cat [1; 2] [8; 9] [25000; 10000] /\
  match kc kinit 0x6b9 false 0 (init_nft 7 cat 500 [1; 2] [8; 9] [25000; 10000]) with
  | Ok (s, o) => o = enc_all [tA; tU] [VN (0xaaaaaaaa * 2 ^ 128 + 1124 * 2 ^ 96); VN 1124] /\ k_nroy s !! 1124 = Some [(8, 25000); (9, 10000)] /\
      match kc s 0x6c3 false 0 (init_sft 7 cat [1; 2] [] []) with
      | Ok (s', o') => o' = enc_all [tA; tU] [VN (0xbbbbbbbb * 2 ^ 128 + 2148 * 2 ^ 96); VN 2148] /\ collections s' = 2
      | Err _ => False
      end
  | Err _ => False
  end.
Proof. split; [|vm_compute; repeat split; reflexivity]. unfold init_args, nlen. cbn [length cat]. repeat (split; [first [lia|repeat constructor; lia]|]). lia. Qed.
(** Refused: no name, an empty schedule is none, too much altogether, lists of different lengths, a static call, a payment. *)
Example C163_example :
  is_ok (kc kinit 0x6c3 false 0 (init_sft 7 [] [1] [] [])) = false /\ is_ok (kc kinit 0x6c3 false 0 (init_sft 7 cat [1] [8; 9] [600000; 400001])) = false /\
  is_ok (kc kinit 0x6c3 false 0 (init_sft 7 cat [1] [8; 9] [600000; 400000])) = true /\ is_ok (kc kinit 0x6c3 false 0 (init_sft 7 cat [1] [8; 9] [600000])) = false /\
  is_ok (kc kinit 0x6c3 true 0 (init_sft 7 cat [1] [] [])) = false /\ is_ok (kc kinit 0x6c3 false 1 (init_sft 7 cat [1] [] [])) = false.
Proof. vm_compute. repeat split; reflexivity. Qed.
(** Creations by extrinsic, by the bridge (a collection of the other chain) and by the contracts share the ids. *)
Example C164_example : let s := run ks [KNft 5 cat 3 (Some 10) None [] None true false; KSft 6 cat [] None; KCall 0x6b9 false 0 (init_nft 7 cat 0 [] [] [])] kinit in
  map fst (map_to_list (colls (e_nft (k_e s)))) ≡ₚ [1124; 3172] /\ map fst (map_to_list (scolls (p_sft (k_p s)))) = [2148] /\
  creates 1000000 1000 50 100 (fun _ => true) s (KSft 6 cat [] None) 4196.
Proof. vm_compute. split; [apply Permutation_swap || reflexivity|]. split; [reflexivity|]. split; [split; reflexivity|]. intros [_ H]. discriminate H. Qed.
(** Royalties are not always the ones given: an entitlement above a million parts, 200% say, is taken and stored as 100%. *)
Theorem C165_entitlement_refuted : exists s' o,
  kc kinit 0x6b9 false 0 (init_nft 7 cat 500 [] [8] [2000000]) = Ok (s', o) /\ k_nroy s' !! 1124 = Some [(8, 1000000)].
Proof. eexists _, _. split; vm_compute; reflexivity. Qed.

Definition create_theorems := (C162_created, C162_views, C162_accepted, C163_created, C163_owner, C163_accepted, C164_one_kind, C164_kept,
  C164_never_twice, C164_fresh_nft, C164_fresh_sft, C164_room, C165_any_call, C165_interface_refuted, C165_sft_address_refuted, C165_entitlement_refuted).
Print Assumptions create_theorems.
