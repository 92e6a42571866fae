(** Lemmas about the creation of collections. *)
From Verif Require Export CreateModel UtilsProofs Erc1155Proofs AbiProps.
From Verif Require Export PegPreProofs.

(** ** The two calls as a caller writes them *)
Definition init_nft (owner : N) (name : list N) (max : N) (meta addrs ents : list N) : list N :=
  build_call 0xfe965bf7 [tA; tBytes; tU; tBytes; tAs; tUs] [VN owner; VB name; VN max; VB meta; uints addrs; uints ents].
Definition init_sft (owner : N) (name meta addrs ents : list N) : list N :=
  build_call 0x7e64e914 [tA; tBytes; tBytes; tAs; tUs] [VN owner; VB name; VB meta; uints addrs; uints ents].
(** Arguments of their Solidity types, of a size that a call can have. *)
Definition init_args (owner : N) (name meta addrs ents : list N) : Prop :=
  owner < 2 ^ 160 /\ Forall (fun a => a < 2 ^ 160) addrs /\ Forall (fun n => n < 2 ^ 256) ents /\
  nlen name <= 2 ^ 20 /\ nlen meta <= 2 ^ 20 /\ nlen addrs <= 2 ^ 20 /\ nlen ents <= 2 ^ 20.

Lemma pad_le l : nlen (pad32 l) <= nlen l + 31.
Proof. unfold pad32, nlen. rewrite app_length, repeat_length. pose proof (Nat.mod_upper_bound (32 - length l mod 32) 32 ltac:(discriminate)). lia. Qed.
Lemma bytes_len b : nlen (enc tBytes (VB b)) <= nlen b + 63.
Proof. change (enc tBytes (VB b)) with (word (nlen b) ++ pad32 b). rewrite nlen_app, nlen_word. pose proof (pad_le b). lia. Qed.
Lemma bytes_wt b : nlen b <= 2 ^ 20 -> wt tBytes (VB b).
Proof. intros H. change (nlen b <= U32MAX). unfold U32MAX. lia. Qed.
Lemma init_nft_read owner name max meta addrs ents : init_args owner name meta addrs ents -> max < 2 ^ 256 ->
  read_selector (init_nft owner name max meta addrs ents) = Ok K_initNft /\
  read_args [tA; tBytes; tU; tBytes; tAs; tUs] (init_nft owner name max meta addrs ents) =
    Ok [VN owner; VB name; VN max; VB meta; uints addrs; uints ents].
Proof.
  intros (H1 & H2 & H3 & H4 & H5 & H6 & H7) H8. unfold nlen in H6, H7.
  destruct (addrs_wt addrs H2) as [W1 L1]; [unfold U32MAX; lia|]. destruct (uints_wt ents H3) as [W2 L2]; [unfold U32MAX; lia|].
  pose proof (bytes_len name) as B1. pose proof (bytes_len meta) as B2.
  apply call_reads; [|split; [apply wtA, H1|]; split; [apply bytes_wt, H4|]; split; [apply wtU, H8|]; split; [apply bytes_wt, H5|]; split; [exact W1|]; split; [exact W2|exact I]|reflexivity].
  enc_len. change (is_static tBytes) with false. cbn [hsize tails]. rewrite ?app_nil_l, ?app_nil_r, ?nlen_app, ?lenU, ?lenW, L1, L2.
  change USIZE with 4294967295. lia.
Qed.
Lemma init_sft_read owner name meta addrs ents : init_args owner name meta addrs ents ->
  read_selector (init_sft owner name meta addrs ents) = Ok K_initSft /\
  read_args [tA; tBytes; tBytes; tAs; tUs] (init_sft owner name meta addrs ents) =
    Ok [VN owner; VB name; VB meta; uints addrs; uints ents].
Proof.
  intros (H1 & H2 & H3 & H4 & H5 & H6 & H7). unfold nlen in H6, H7.
  destruct (addrs_wt addrs H2) as [W1 L1]; [unfold U32MAX; lia|]. destruct (uints_wt ents H3) as [W2 L2]; [unfold U32MAX; lia|].
  pose proof (bytes_len name) as B1. pose proof (bytes_len meta) as B2.
  apply call_reads; [|split; [apply wtA, H1|]; split; [apply bytes_wt, H4|]; split; [apply bytes_wt, H5|]; split; [exact W1|]; split; [exact W2|exact I]|reflexivity].
  enc_len. change (is_static tBytes) with false. cbn [hsize tails]. rewrite ?app_nil_l, ?app_nil_r, ?nlen_app, ?lenU, ?lenW, L1, L2.
  change USIZE with 4294967295. lia.
Qed.
Lemma nums_uints l : nums (map VN l) = l.
Proof. apply nums_map. Qed.

(** ** Royalties *)
Definition per_million (n : N) : N := N.min n 1000000.
Definition sum (l : list N) : N := fold_right N.add 0 l.
Definition stored_roy (addrs ents : list N) : option (list (N * N)) :=
  match addrs with [] => None | _ => Some (combine addrs (map per_million ents)) end.
Lemma permill_min n : permill n = per_million n.
Proof. unfold permill, per_million, sat. change U32MAX with 4294967295. lia. Qed.
Lemma map_permill l : map permill l = map per_million l.
Proof. apply map_ext. exact permill_min. Qed.
Lemma roy_sum_from l a : a + sum (map snd l) < 2 ^ 32 -> fold_left (fun a (e : N * N) => (a + snd e) mod 2 ^ 32) l a = a + sum (map snd l).
Proof.
  revert a. induction l as [|[x y] l IH]; intros a H; [cbn; lia|]. cbn [map snd sum fold_right fold_left] in *. fold (sum (map snd l)) in *.
  rewrite N.mod_small by lia. rewrite IH by lia. lia.
Qed.
Lemma roy_sum_spec l : sum (map snd l) < 2 ^ 32 -> roy_sum l = sum (map snd l).
Proof. intros H. unfold roy_sum. rewrite roy_sum_from; lia. Qed.
Lemma combine_snd (a b : list N) : length a = length b -> map snd (combine a b) = b.
Proof. revert b. induction a as [|x a IH]; intros [|y b]; cbn; intros H; try discriminate; [reflexivity|]. f_equal. apply IH. congruence. Qed.
Lemma sum_per_million l : sum (map per_million l) <= 1000000 * N.of_nat (length l).
Proof. induction l as [|n l IH]; [cbn; lia|]. cbn [map sum fold_right length]. fold (sum (map per_million l)). unfold per_million at 1. lia. Qed.
Lemma royalties_spec addrs ents r : royalties addrs ents = Ok r <->
  length addrs = length ents /\ N.of_nat (length addrs) <= 6 /\ r = stored_roy addrs ents.
Proof.
  unfold royalties. destruct (Nat.eqb_spec (length addrs) (length ents)) as [E|E]; [|split; [discriminate|intros (? & _); congruence]].
  cbn [ensure rbind]. rewrite map_permill. destruct addrs as [|a addrs]; cbn [length Nat.eqb].
  { cbn [stored_roy]. split; [intros H; injection H as <-; split; [exact E|]; split; [lia|reflexivity]|intros (_ & _ & ->); reflexivity]. }
  set (l := combine (a :: addrs) (map per_million ents)).
  assert (L : length l = S (length addrs)) by (unfold l; rewrite combine_length, map_length, <- E; cbn [length]; lia).
  rewrite L. cbn [stored_roy]. fold l. destruct (N.leb_spec (N.of_nat (S (length addrs))) 6); cbn [ensure rbind].
  - assert (F : firstn 8 l = l) by (apply firstn_all2; lia). rewrite F.
    split; [intros X; injection X as <-; auto|intros (_ & _ & ->); reflexivity].
  - split; [discriminate|]. intros (_ & ? & _). lia.
Qed.
Lemma roy_ok_spec addrs ents : length addrs = length ents -> N.of_nat (length addrs) <= 6 ->
  roy_ok (stored_roy addrs ents) = (sum (map per_million ents) <=? 1000000).
Proof.
  intros E H. destruct addrs as [|a addrs]; [destruct ents; [reflexivity|discriminate]|]. cbn [stored_roy roy_ok].
  set (l := combine (a :: addrs) (map per_million ents)).
  assert (L : length l = S (length addrs)) by (unfold l; rewrite combine_length, map_length, <- E; cbn [length]; lia).
  assert (V : roy_sum l = sum (map per_million ents)).
  { assert (X : map snd l = map per_million ents) by (apply combine_snd; rewrite map_length; exact E).
    rewrite roy_sum_spec; rewrite X; [reflexivity|]. pose proof (sum_per_million ents). rewrite <- E in H0. cbn [length] in *. lia. }
  unfold roy_valid. rewrite V, L. cbn [length Nat.eqb negb] in *.
  rewrite (proj2 (N.leb_le _ 6)), (proj2 (N.leb_le _ 8)) by lia. reflexivity.
Qed.

(** ** Ids *)
Lemma uuid_some n p id : n < 2 ^ 32 - 1 -> next_asset_uuid n p = Some id -> n + 1 <= MAX_U22 /\ p <= MAX_U10 /\ id = n * 1024 + p.
Proof.
  intros Hn H. destruct (N.le_gt_cases (n + 1) MAX_U22) as [A|A]; [|rewrite uuid_none in H by lia; discriminate].
  destruct (N.le_gt_cases p MAX_U10) as [B|B]; [|rewrite uuid_none_para in H by exact B; discriminate].
  rewrite uuid_value in H by assumption. injection H as <-. auto.
Qed.

(** ** What a creation changes *)
(** One new NFT collection, and nothing of anything else. *)
Definition only_nft (id : N) (s s' : cst) : Prop :=
  (forall c, c <> id -> colls (e_nft (k_e s')) !! c = colls (e_nft (k_e s)) !! c /\ e_name (k_e s') !! c = e_name (k_e s) !! c /\
     e_uri (k_e s') !! c = e_uri (k_e s) !! c /\ e_xrpl (k_e s') !! c = e_xrpl (k_e s) !! c /\ k_nroy s' !! c = k_nroy s !! c) /\
  locks (e_nft (k_e s')) = locks (e_nft (k_e s)) /\ appr (e_nft (k_e s')) = appr (e_nft (k_e s)) /\
  appr_all (e_nft (k_e s')) = appr_all (e_nft (k_e s)) /\ e_fee (k_e s') = e_fee (k_e s) /\ e_logs (k_e s') = e_logs (k_e s) /\
  k_p s' = k_p s /\ k_sname s' = k_sname s /\ k_sroy s' = k_sroy s.
Definition only_sft (id : N) (s s' : cst) : Prop :=
  (forall c, c <> id -> scolls (p_sft (k_p s')) !! c = scolls (p_sft (k_p s)) !! c /\ p_uri (k_p s') !! c = p_uri (k_p s) !! c /\
     k_sname s' !! c = k_sname s !! c /\ k_sroy s' !! c = k_sroy s !! c) /\
  stoks (p_sft (k_p s')) = stoks (p_sft (k_p s)) /\ spub (p_sft (k_p s')) = spub (p_sft (k_p s)) /\
  p_appr (k_p s') = p_appr (k_p s) /\ p_fee (k_p s') = p_fee (k_p s) /\ p_logs (k_p s') = p_logs (k_p s) /\
  k_e s' = k_e s /\ k_nroy s' = k_nroy s.
Definition fresh (s : cst) (id : N) : Prop := colls (e_nft (k_e s)) !! id = None /\ scolls (p_sft (k_p s)) !! id = None.

Section proofs.
  Variables cap mint_limit string_limit para : N.
  Variable utf8 : list N -> bool.
  Notation nft_create := (nft_create cap mint_limit para utf8).
  Notation sft_create := (sft_create para utf8).
  Notation k_init_nft := (k_init_nft cap mint_limit string_limit para utf8).
  Notation k_init_sft := (k_init_sft string_limit para utf8).
  Notation k_call := (k_call cap mint_limit string_limit para utf8).
  Notation kstep := (kstep cap mint_limit string_limit para utf8).

  (** Ids given so far are those of the numbers below the next one; no id is of both kinds. *)
  Definition kinv (s : cst) : Prop :=
    1 <= k_next s <= MAX_U22 /\
    (forall c, is_Some (colls (e_nft (k_e s)) !! c) \/ is_Some (scolls (p_sft (k_p s)) !! c) ->
       para <= MAX_U10 /\ exists n, 1 <= n < k_next s /\ c = n * 1024 + para) /\
    (forall c, colls (e_nft (k_e s)) !! c = None \/ scolls (p_sft (k_p s)) !! c = None) /\
    k_next s = 1 + N.of_nat (size (colls (e_nft (k_e s)))) + N.of_nat (size (scolls (p_sft (k_p s)))).
  Lemma kinv_next s : kinv s -> k_next s < 2 ^ 32 - 1.
  Proof. intros ((_ & H) & _). change MAX_U22 with 4194303 in H. lia. Qed.
  Lemma kinv_fresh s : kinv s -> fresh s (k_next s * 1024 + para).
  Proof.
    intros (_ & H & _). split; [destruct (colls (e_nft (k_e s)) !! (k_next s * 1024 + para)) eqn:E|destruct (scolls (p_sft (k_p s)) !! (k_next s * 1024 + para)) eqn:E]; try reflexivity;
    (destruct (H (k_next s * 1024 + para)) as (Hp & n & Hn & X); [rewrite E; eauto|]); change MAX_U10 with 1023 in Hp; exfalso; lia.
  Qed.
  Lemma next_le_id n : n + 1 <= MAX_U22 -> para <= MAX_U10 -> n * 1024 + para <= U32MAX.
  Proof. change MAX_U22 with 4194303. change MAX_U10 with 1023. change U32MAX with 4294967295. lia. Qed.

  Lemma nft_create_ok s owner name initial max to meta roy root xrpl s' id : kinv s ->
    nft_create s owner name initial max to meta roy root xrpl = Ok (s', id) ->
    id = k_next s * 1024 + para /\ k_next s + 1 <= MAX_U22 /\ para <= MAX_U10 /\
    match max with Some m => 0 < m /\ initial <= m /\ m <= cap | None => True end /\
    name_ok utf8 name = true /\ roy_ok roy = true /\ initial <= mint_limit /\ initial <= cap /\
    s' = CSt (EState (Nft (<[id := Coll owner max root initial initial (if initial =? 0 then [] else [(default owner to, serials 0 initial)]) false true true true]> (colls (e_nft (k_e s))))
                          (locks (e_nft (k_e s))) (appr (e_nft (k_e s))) (appr_all (e_nft (k_e s))))
                 (<[id := name]> (e_name (k_e s))) (<[id := meta]> (e_uri (k_e s))) (e_fee (k_e s))
                 (if xrpl then <[id := tt]> (e_xrpl (k_e s)) else delete id (e_xrpl (k_e s))) (e_logs (k_e s)))
             (k_p s) (k_sname s) (set_or id roy (k_nroy s)) (k_sroy s) (k_next s + 1) (k_logs s).
  Proof.
    intros Hi H. pose proof (kinv_next _ Hi) as Hn. unfold CreateModel.nft_create in H.
    destruct (next_asset_uuid (k_next s) para) as [i|] eqn:Eu; [|discriminate]. cbn [of_opt rbind] in H.
    apply uuid_some in Eu as (A & B & ->); [|exact Hn].
    destruct (match max with Some m => (0 <? m) && (initial <=? m) && (m <=? cap) | None => true end) eqn:Em; [|discriminate]. cbn [ensure rbind] in H.
    destruct (name_ok utf8 name) eqn:En; [|discriminate]. cbn [ensure rbind] in H.
    destruct (roy_ok roy) eqn:Er; [|discriminate]. cbn [ensure rbind] in H.
    destruct ((initial =? 0) || negb xrpl) eqn:Ex; [|discriminate]. cbn [ensure rbind] in H.
    unfold NftModel.create in H. rewrite Em in H.
    rewrite bool_decide_true in H by apply (kinv_fresh _ Hi). cbn [ensure rbind] in H.
    destruct (N.leb_spec initial mint_limit); [|discriminate]. cbn [ensure rbind] in H.
    destruct (N.leb_spec initial cap); [|discriminate]. cbn [ensure rbind] in H. unfold put in H. cbv zeta in H.
    injection H as <- <-. unfold wrap32. rewrite N.mod_small by lia.
    split; [reflexivity|]. split; [exact A|]. split; [exact B|]. split.
    { destruct max as [m|]; [|exact I]. rewrite !andb_true_iff, N.ltb_lt, !N.leb_le in Em. tauto. }
    auto 10.
  Qed.
  Lemma nft_create_can s owner name max to meta roy root xrpl : kinv s -> k_next s + 1 <= MAX_U22 -> para <= MAX_U10 ->
    match max with Some m => 0 < m /\ m <= cap | None => True end -> name_ok utf8 name = true -> roy_ok roy = true ->
    exists r, nft_create s owner name 0 max to meta roy root xrpl = Ok r.
  Proof.
    intros Hi H1 H2 H3 H4 H5. unfold CreateModel.nft_create. rewrite uuid_value by assumption. cbn [of_opt rbind].
    assert (Em : match max with Some m => (0 <? m) && (0 <=? m) && (m <=? cap) | None => true end = true).
    { destruct max as [m|]; [|reflexivity]. rewrite !andb_true_iff, N.ltb_lt, !N.leb_le. lia. }
    rewrite Em, H4, H5. cbn [ensure rbind N.eqb orb]. unfold NftModel.create. rewrite Em, bool_decide_true by apply (kinv_fresh _ Hi).
    rewrite !(proj2 (N.leb_le 0 _)) by lia. cbn [ensure rbind]. eauto.
  Qed.
  Lemma sft_create_ok s owner name meta roy s' id : kinv s -> sft_create s owner name meta roy = Ok (s', id) ->
    id = k_next s * 1024 + para /\ k_next s + 1 <= MAX_U22 /\ para <= MAX_U10 /\
    name_ok utf8 name = true /\ roy_ok roy = true /\
    s' = CSt (k_e s) (PState (SState (stoks (p_sft (k_p s))) (<[id := SColl owner 0 true true true]> (scolls (p_sft (k_p s)))) (spub (p_sft (k_p s))))
                        (p_appr (k_p s)) (<[id := meta]> (p_uri (k_p s))) (p_fee (k_p s)) (p_logs (k_p s)))
             (<[id := name]> (k_sname s)) (k_nroy s) (set_or id roy (k_sroy s)) (k_next s + 1) (k_logs s).
  Proof.
    intros Hi H. pose proof (kinv_next _ Hi) as Hn. unfold CreateModel.sft_create in H.
    destruct (next_asset_uuid (k_next s) para) as [i|] eqn:Eu; [|discriminate]. cbn [of_opt rbind] in H.
    apply uuid_some in Eu as (A & B & ->); [|exact Hn].
    destruct (name_ok utf8 name) eqn:En; [|discriminate]. cbn [ensure rbind] in H.
    destruct (roy_ok roy) eqn:Er; [|discriminate]. cbn [ensure rbind] in H.
    unfold screate in H. rewrite bool_decide_true in H by apply (kinv_fresh _ Hi). cbn [ensure rbind] in H.
    destruct (k_next s + 1 <=? U32MAX); [|discriminate]. cbn [ensure rbind] in H. unfold put_coll in H. cbv zeta in H.
    injection H as <- <-. auto 10.
  Qed.
  Lemma sft_create_can s owner name meta roy : kinv s -> k_next s + 1 <= MAX_U22 -> para <= MAX_U10 ->
    name_ok utf8 name = true -> roy_ok roy = true -> exists r, sft_create s owner name meta roy = Ok r.
  Proof.
    intros Hi H1 H2 H4 H5. pose proof (kinv_next _ Hi). unfold CreateModel.sft_create. rewrite uuid_value by assumption. cbn [of_opt rbind].
    rewrite H4, H5. cbn [ensure rbind]. unfold screate. rewrite bool_decide_true by apply (kinv_fresh _ Hi). cbn [ensure rbind].
    rewrite (proj2 (N.leb_le _ U32MAX)) by (change U32MAX with 4294967295; lia). cbn [ensure rbind]. eauto.
  Qed.
  Lemma set_or_ne {A} id (o : option A) m c : c <> id -> set_or id o m !! c = m !! c.
  Proof. intros H. destruct o; cbn [set_or]; [apply lookup_insert_ne|apply lookup_delete_ne]; congruence. Qed.
  Lemma set_or_eq {A} id (o : option A) m : set_or id o m !! id = o.
  Proof. destruct o; cbn [set_or]; [apply lookup_insert|apply lookup_delete]. Qed.
  Lemma nft_create_only s owner name initial max to meta roy root xrpl s' id : kinv s ->
    nft_create s owner name initial max to meta roy root xrpl = Ok (s', id) -> fresh s id /\ only_nft id s s'.
  Proof.
    intros Hi H. apply nft_create_ok in H as (-> & _ & _ & _ & _ & _ & _ & _ & ->); [|exact Hi]. split; [apply kinv_fresh, Hi|].
    unfold only_nft. cbn. split; [|tauto]. intros c Hc. rewrite set_or_ne by exact Hc. rewrite !lookup_insert_ne by congruence.
    destruct xrpl; rewrite ?lookup_insert_ne, ?lookup_delete_ne by congruence; auto.
  Qed.
  Lemma sft_create_only s owner name meta roy s' id : kinv s ->
    sft_create s owner name meta roy = Ok (s', id) -> fresh s id /\ only_sft id s s'.
  Proof.
    intros Hi H. apply sft_create_ok in H as (-> & _ & _ & _ & _ & ->); [|exact Hi]. split; [apply kinv_fresh, Hi|].
    unfold only_sft. cbn. split; [|tauto]. intros c Hc. rewrite set_or_ne by exact Hc. rewrite !lookup_insert_ne by congruence. auto.
  Qed.
  Lemma kinv_nft s owner name initial max to meta roy root xrpl r : kinv s ->
    nft_create s owner name initial max to meta roy root xrpl = Ok r -> kinv (fst r).
  Proof.
    intros Hi. destruct r as [s' id]. intros H. apply nft_create_ok in H as (-> & A & B & _ & _ & _ & _ & _ & ->); [|exact Hi].
    pose proof (kinv_fresh _ Hi) as [F1 F2]. destruct Hi as (I1 & I2 & I3 & I4). unfold kinv. cbn [fst k_next k_e k_p e_nft colls].
    split; [lia|]. split; [|split].
    - intros c [Hc|Hc].
      + apply lookup_insert_is_Some' in Hc as [<-|Hc]; [split; [exact B|]; exists (k_next s); lia|]. destruct (I2 c (or_introl Hc)) as (? & n & ? & ?). split; [assumption|]. exists n. lia.
      + destruct (I2 c (or_intror Hc)) as (? & n & ? & ?). split; [assumption|]. exists n. lia.
    - intros c. destruct (decide (c = k_next s * 1024 + para)) as [->|Hc]; [right; exact F2|]. rewrite lookup_insert_ne by congruence. apply I3.
    - rewrite map_size_insert_None by exact F1. lia.
  Qed.
  Lemma kinv_sft s owner name meta roy r : kinv s -> sft_create s owner name meta roy = Ok r -> kinv (fst r).
  Proof.
    intros Hi. destruct r as [s' id]. intros H. apply sft_create_ok in H as (-> & A & B & _ & _ & ->); [|exact Hi].
    pose proof (kinv_fresh _ Hi) as [F1 F2]. destruct Hi as (I1 & I2 & I3 & I4). unfold kinv. cbn [fst k_next k_e k_p p_sft scolls].
    split; [lia|]. split; [|split].
    - intros c [Hc|Hc].
      + destruct (I2 c (or_introl Hc)) as (? & n & ? & ?). split; [assumption|]. exists n. lia.
      + apply lookup_insert_is_Some' in Hc as [<-|Hc]; [split; [exact B|]; exists (k_next s); lia|]. destruct (I2 c (or_intror Hc)) as (? & n & ? & ?). split; [assumption|]. exists n. lia.
    - intros c. destruct (decide (c = k_next s * 1024 + para)) as [->|Hc]; [left; exact F1|]. rewrite lookup_insert_ne by congruence. apply I3.
    - rewrite map_size_insert_None by exact F2. lia.
  Qed.
  Lemma kinv_log s l : kinv s -> kinv (klog s l).
  Proof. exact id. Qed.
  (** What a successful call is. *)
  Lemma k_init_nft_ok s call s' o : k_init_nft s call = Ok (s', o) ->
    exists owner name max meta addrs ents r, read_args [tA; tBytes; tU; tBytes; tAs; tUs] call = Ok [VN owner; VB name; VN max; VB meta; VL addrs; VL ents] /\
      nlen name <= string_limit /\ max <= U32MAX /\ nlen meta <= 200 /\
      length (nums addrs) = length (nums ents) /\ N.of_nat (length (nums addrs)) <= 6 /\
      nft_create s owner name 0 (if max =? 0 then None else Some max) None meta (stored_roy (nums addrs) (nums ents)) true false = Ok r /\
      s' = klog (fst r) (Elog NFT_ADDR [H_initNft; owner] (out [tA] [VN (evm_addr 0xaaaaaaaa (snd r))])) /\
      o = out [tA; tU] [VN (evm_addr 0xaaaaaaaa (snd r)); VN (snd r)].
  Proof.
    unfold CreateModel.k_init_nft. intros H. destruct (read_args _ call) as [l|] eqn:E; [|discriminate]. cbn [rbind] in H.
    destruct l as [|[owner| |] [|[|name|] [|[max| |] [|[|meta|] [|[| |addrs] [|[| |ents] [|]]]]]]]; try discriminate H.
    exists owner, name, max, meta, addrs, ents.
    destruct (N.leb_spec (nlen name) string_limit); [|discriminate]. cbn [ensure rbind] in H.
    destruct (N.leb_spec max U32MAX); [|discriminate]. cbn [ensure rbind] in H.
    destruct (N.leb_spec (nlen meta) 200); [|discriminate]. cbn [ensure rbind] in H.
    destruct (royalties (nums addrs) (nums ents)) as [roy|] eqn:Er; [|discriminate]. cbn [rbind] in H.
    apply royalties_spec in Er as (R1 & R2 & ->).
    destruct (nft_create s owner name 0 (if max =? 0 then None else Some max) None meta (stored_roy (nums addrs) (nums ents)) true false) as [r|] eqn:Ec; [|discriminate]. cbn [rbind] in H.
    exists r. injection H as <- <-. auto 12.
  Qed.
  Lemma k_init_sft_ok s call s' o : k_init_sft s call = Ok (s', o) ->
    exists owner name meta addrs ents r, read_args [tA; tBytes; tBytes; tAs; tUs] call = Ok [VN owner; VB name; VB meta; VL addrs; VL ents] /\
      nlen name <= string_limit /\ nlen meta <= 200 /\
      length (nums addrs) = length (nums ents) /\ N.of_nat (length (nums addrs)) <= 6 /\
      sft_create s owner name meta (stored_roy (nums addrs) (nums ents)) = Ok r /\
      s' = klog (fst r) (Elog SFT_ADDR [H_initSft; owner; evm_addr 0xbbbbbbbb (snd r)] []) /\
      o = out [tA; tU] [VN (evm_addr 0xbbbbbbbb (snd r)); VN (snd r)].
  Proof.
    unfold CreateModel.k_init_sft. intros H. destruct (read_args _ call) as [l|] eqn:E; [|discriminate]. cbn [rbind] in H.
    destruct l as [|[owner| |] [|[|name|] [|[|meta|] [|[| |addrs] [|[| |ents] [|]]]]]]; try discriminate H.
    exists owner, name, meta, addrs, ents.
    destruct (N.leb_spec (nlen name) string_limit); [|discriminate]. cbn [ensure rbind] in H.
    destruct (N.leb_spec (nlen meta) 200); [|discriminate]. cbn [ensure rbind] in H.
    destruct (royalties (nums addrs) (nums ents)) as [roy|] eqn:Er; [|discriminate]. cbn [rbind] in H.
    apply royalties_spec in Er as (R1 & R2 & ->).
    destruct (sft_create s owner name meta (stored_roy (nums addrs) (nums ents))) as [r|] eqn:Ec; [|discriminate]. cbn [rbind] in H.
    exists r. injection H as <- <-. auto 12.
  Qed.
  Lemma k_execute_ok sel0 f s static value call r : k_execute sel0 f s static value call = Ok r ->
    read_selector call = Ok sel0 /\ static = false /\ value = 0 /\ f s call = Ok r.
  Proof.
    unfold k_execute. intros H. destruct (read_selector call) as [sel|]; [|discriminate]. cbn [rbind] in H.
    destruct (N.eqb_spec sel sel0) as [Es|]; [|discriminate]. rewrite Es. cbn [ensure rbind] in H.
    destruct static; [discriminate|]. cbn [ensure rbind negb] in H. destruct (N.eqb_spec value 0) as [->|]; [|discriminate]. auto.
  Qed.
  Lemma k_call_ok s addr static value call r : k_call s addr static value call = Ok r ->
    static = false /\ value = 0 /\
    ((addr = NFT_ADDR /\ read_selector call = Ok K_initNft /\ k_init_nft s call = Ok r) \/
     (addr = SFT_ADDR /\ read_selector call = Ok K_initSft /\ k_init_sft s call = Ok r)).
  Proof.
    unfold CreateModel.k_call. intros H. destruct (N.eqb_spec addr NFT_ADDR) as [->|_]; [apply k_execute_ok in H as (? & ? & ? & ?); auto 10|].
    destruct (N.eqb_spec addr SFT_ADDR) as [->|_]; [apply k_execute_ok in H as (? & ? & ? & ?); auto 10|discriminate].
  Qed.
  Lemma keys_some {A} (m n : gmap N A) c : keys m = keys n -> is_Some (m !! c) <-> is_Some (n !! c).
  Proof.
    intros E. apply (f_equal (lookup c)) in E. unfold keys in E. rewrite !lookup_fmap in E.
    destruct (m !! c), (n !! c); cbn in E; try discriminate; split; intros [? H]; try discriminate; eauto.
  Qed.
  Lemma keys_none {A} (m n : gmap N A) c : keys m = keys n -> m !! c = None <-> n !! c = None.
  Proof. intros E. rewrite !eq_None_not_Some, (keys_some m n c E). reflexivity. Qed.
  Lemma keys_size {A} (m n : gmap N A) : keys m = keys n -> size m = size n.
  Proof. intros E. apply (f_equal size) in E. unfold keys in E. rewrite !map_size_fmap in E. exact E. Qed.
  Lemma kinv_call s addr static value call r : kinv s -> k_call s addr static value call = Ok r -> kinv (fst r).
  Proof.
    intros Hi H. apply k_call_ok in H as (_ & _ & [(_ & _ & H)|(_ & _ & H)]); destruct r as [s' o].
    - apply k_init_nft_ok in H as (owner & name & max & meta & addrs & ents & r & _ & _ & _ & _ & _ & _ & C & -> & _). eapply kinv_nft in C; [exact C|exact Hi].
    - apply k_init_sft_ok in H as (owner & name & meta & addrs & ents & r & _ & _ & _ & _ & _ & C & -> & _). eapply kinv_sft in C; [exact C|exact Hi].
  Qed.
  Lemma kinv_step s o : kinv s -> kinv (kstep s o).
  Proof.
    intros Hi. destruct o as [owner name initial max to meta roy root xrpl|owner name meta roy|addr static value call|e p names nroy sroy]; cbn [CreateModel.kstep].
    - destruct (typed_args _ _ _ _); [|exact Hi]. destruct (nft_create _ _ _ _ _ _ _ _ _ _) eqn:E; [|exact Hi]. eapply kinv_nft; eassumption.
    - destruct (typed_args _ _ _ _); [|exact Hi]. destruct (sft_create _ _ _ _ _) eqn:E; [|exact Hi]. eapply kinv_sft; eassumption.
    - destruct (k_call _ _ _ _ _) eqn:E; [|exact Hi]. eapply kinv_call; eassumption.
    - destruct (bool_decide (keys (colls (e_nft e)) = keys (colls (e_nft (k_e s))))) eqn:E1; [|exact Hi].
      destruct (bool_decide (keys (scolls (p_sft p)) = keys (scolls (p_sft (k_p s))))) eqn:E2; [|exact Hi]. cbn [andb].
      apply bool_decide_eq_true in E1, E2. destruct Hi as (I1 & I2 & I3 & I4). unfold kinv. cbn [k_next k_e k_p].
      split; [exact I1|]. split; [|split].
      + intros c Hc. rewrite (keys_some _ _ c E1), (keys_some _ _ c E2) in Hc. exact (I2 c Hc).
      + intros c. rewrite (keys_none _ _ c E1), (keys_none _ _ c E2). apply I3.
      + rewrite (keys_size _ _ E1), (keys_size _ _ E2). exact I4.
  Qed.
  Lemma kinv_init : kinv kinit.
  Proof.
    split; [vm_compute; split; discriminate|]. split; [intros c [[x H]|[x H]]; cbn in H; rewrite lookup_empty in H; discriminate|].
    split; [intros c; left; apply lookup_empty|reflexivity].
  Qed.
  Lemma kinv_run ops s : kinv s -> kinv (run kstep ops s).
  Proof. revert s. induction ops as [|o ops IH]; intros s H; [exact H|]. cbn. apply IH, kinv_step, H. Qed.
  Lemma kinv_reach ops : kinv (run kstep ops kinit).
  Proof. apply kinv_run, kinv_init. Qed.
  (** Collections stay. *)
  Lemma keep_step s o c : kinv s ->
    (is_Some (colls (e_nft (k_e s)) !! c) -> is_Some (colls (e_nft (k_e (kstep s o))) !! c)) /\
    (is_Some (scolls (p_sft (k_p s)) !! c) -> is_Some (scolls (p_sft (k_p (kstep s o))) !! c)).
  Proof.
    intros Hi.
    assert (N1 : forall owner name initial max to meta roy root xrpl r, nft_create s owner name initial max to meta roy root xrpl = Ok r ->
      (is_Some (colls (e_nft (k_e s)) !! c) -> is_Some (colls (e_nft (k_e (fst r))) !! c)) /\ (is_Some (scolls (p_sft (k_p s)) !! c) -> is_Some (scolls (p_sft (k_p (fst r))) !! c))).
    { intros owner name initial max to meta roy root xrpl [s' i] E. apply nft_create_only in E as [[F1 F2] (O & _ & _ & _ & _ & _ & O2 & _)]; [|exact Hi]. cbn [fst]. rewrite O2. split; [|auto].
      intros Hc. destruct (O c) as [-> _]; [intros ->; rewrite F1 in Hc; destruct Hc; discriminate|exact Hc]. }
    assert (N2 : forall owner name meta roy r, sft_create s owner name meta roy = Ok r ->
      (is_Some (colls (e_nft (k_e s)) !! c) -> is_Some (colls (e_nft (k_e (fst r))) !! c)) /\ (is_Some (scolls (p_sft (k_p s)) !! c) -> is_Some (scolls (p_sft (k_p (fst r))) !! c))).
    { intros owner name meta roy [s' i] E. apply sft_create_only in E as [[F1 F2] (O & _ & _ & _ & _ & _ & O2 & _)]; [|exact Hi]. cbn [fst]. rewrite O2. split; [auto|].
      intros Hc. destruct (O c) as [-> _]; [intros ->; rewrite F2 in Hc; destruct Hc; discriminate|exact Hc]. }
    destruct o as [owner name initial max to meta roy root xrpl|owner name meta roy|addr static value call|e p names nroy sroy]; cbn [CreateModel.kstep].
    - destruct (typed_args _ _ _ _); [|auto]. destruct (nft_create _ _ _ _ _ _ _ _ _ _) eqn:E; [|auto]. eapply N1; eassumption.
    - destruct (typed_args _ _ _ _); [|auto]. destruct (sft_create _ _ _ _ _) eqn:E; [|auto]. eapply N2; eassumption.
    - destruct (k_call _ _ _ _ _) as [[s' o]|] eqn:E; [|auto]. apply k_call_ok in E as (_ & _ & [(_ & _ & E)|(_ & _ & E)]).
      + apply k_init_nft_ok in E as (owner & name & max & meta & addrs & ents & r & _ & _ & _ & _ & _ & _ & C & -> & _). apply N1 in C. exact C.
      + apply k_init_sft_ok in E as (owner & name & meta & addrs & ents & r & _ & _ & _ & _ & _ & C & -> & _). apply N2 in C. exact C.
    - destruct (bool_decide (keys (colls (e_nft e)) = keys (colls (e_nft (k_e s))))) eqn:E1; [|auto].
      destruct (bool_decide (keys (scolls (p_sft p)) = keys (scolls (p_sft (k_p s))))) eqn:E2; [|auto]. cbn [andb].
      apply bool_decide_eq_true in E1, E2. cbn [k_e k_p]. rewrite (keys_some _ _ c E1), (keys_some _ _ c E2). auto.
  Qed.
  Lemma keep_run ops s c : kinv s ->
    (is_Some (colls (e_nft (k_e s)) !! c) -> is_Some (colls (e_nft (k_e (run kstep ops s))) !! c)) /\
    (is_Some (scolls (p_sft (k_p s)) !! c) -> is_Some (scolls (p_sft (k_p (run kstep ops s))) !! c)).
  Proof.
    revert s. induction ops as [|o ops IH]; intros s Hi; [cbn; auto|]. pose proof (keep_step s o c Hi) as [A B].
    destruct (IH (kstep s o) (kinv_step s o Hi)) as [C D]. cbn. auto.
  Qed.
End proofs.
