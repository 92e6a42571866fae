(** C190, C191: the addresses of precompiles, and how calls to them nest. *)
From Verif Require Import PreSetProofs.

(** ** Spec *)
(** The fixed addresses: Ethereum's nine, SHA3 and public-key recovery, and the contracts for NFT, SFT, marketplace, peg, DEX
    and futurepass registrar. *)
Definition ethereum : list N := [1; 2; 3; 4; 5; 6; 7; 8; 9].
Definition fixed : list N := ethereum ++ [1024; 1026; 1721; 1731; 1939; 56797; 65535; 1741].
(** Addresses that begin with a prefix and an id. *)
Definition begins (p id a : N) : Prop := exists rest, rest < 2 ^ 96 /\ id < 2 ^ 32 /\ a = p * 2 ^ 128 + id * 2 ^ 96 + rest.
Definition token (w : world) (k : kind) (id : N) : bool :=
  match k with K721 => w_nft w id | K1155 => w_sft w id | K20 => w_asset w id | KPass => true end.

Lemma div_mod_begins a p : a / 2 ^ 128 = p -> begins p (a / 2 ^ 96 mod 2 ^ 32) a.
Proof.
  intros E. exists (a mod 2 ^ 96). split; [apply N.mod_lt; lia|]. split; [apply N.mod_lt; lia|].
  pose proof (N.div_mod a (2 ^ 96) ltac:(lia)) as X. set (q := a / 2 ^ 96) in *.
  pose proof (N.div_mod q (2 ^ 32) ltac:(lia)) as Y.
  assert (Z : q / 2 ^ 32 = p) by (unfold q; rewrite N.div_div by lia; exact E).
  rewrite Z in Y. set (r := q mod 2 ^ 32) in *. set (s := a mod 2 ^ 96) in *. clearbody q r s. clear E Z. lia.
Qed.
Lemma begins_div p id a : begins p id a -> a / 2 ^ 128 = p /\ a / 2 ^ 96 mod 2 ^ 32 = id.
Proof.
  intros (r & R & I & ->). split.
  - symmetry. apply (N.div_unique _ _ _ (id * 2 ^ 96 + r)); lia.
  - assert (E : (p * 2 ^ 128 + id * 2 ^ 96 + r) / 2 ^ 96 = p * 2 ^ 32 + id) by (symmetry; apply (N.div_unique _ _ _ r); lia).
    rewrite E. rewrite N.add_comm, N.mod_add by lia. apply N.mod_small. exact I.
Qed.
Lemma has_spec w k a : has w k a = true <-> exists id, begins (prefix k) id a /\ token w k id = true.
Proof.
  assert (G : forall P : N -> bool, (match to_id (prefix k) a with Some i => P i | None => false end = true) <-> exists id, begins (prefix k) id a /\ P id = true).
  { intros P. unfold to_id. destruct (N.eqb_spec (a / 2 ^ 128) (prefix k)) as [E|E].
    - split; [intros X; eexists; split; [apply div_mod_begins; exact E|exact X]|].
      intros (id & B & X). destruct (begins_div _ _ _ B) as [_ <-]. exact X.
    - split; [discriminate|]. intros (id & B & X). destruct (begins_div _ _ _ B) as [Q _]. contradiction. }
  destruct k; try exact (G _). cbn [has token]. rewrite N.eqb_eq. split.
  - intros E. eexists. split; [apply div_mod_begins; exact E|reflexivity].
  - intros (id & B & _). exact (proj1 (begins_div _ _ _ B)).
Qed.
Lemma table_at f b : In f table -> f_what f = At b -> f_range f = Some (1, 65535) /\ In b fixed /\ 1 <= b <= 65535.
Proof.
  intros I E. unfold table in I. cbn [In] in I.
  repeat (destruct I as [<-|I]; [first [discriminate E|injection E as <-; split; [reflexivity|split; [vm_compute; tauto|unfold NFT, SFT, PEG, DEX, REGISTRAR, MARKET; lia]]]|]).
  destruct I.
Qed.
Lemma table_pre f k : In f table -> f_what f = Pre k -> f_range f = None.
Proof.
  intros I E. unfold table in I. cbn [In] in I.
  repeat (destruct I as [<-|I]; [first [discriminate E|reflexivity]|]). destruct I.
Qed.
Lemma table_fixed b : In b fixed -> exists f, In f table /\ f_what f = At b.
Proof.
  intros I. unfold fixed, ethereum in I. cbn [In app] in I.
  repeat (destruct I as [<-|I];
    [match goal with |- exists f, _ /\ f_what f = At ?b =>
       first [exists (eth b); split; [solve [unfold table; cbn [In]; repeat (first [left; reflexivity|right])]|reflexivity]
             |exists (own b); split; [solve [unfold table; cbn [In]; repeat (first [left; reflexivity|right])]|reflexivity]] end|]).
  destruct I.
Qed.
Lemma table_set k : exists f, In f table /\ f_what f = Pre k.
Proof.
  exists (Frag None (Pre k) (Some (match k with KPass => 1 | _ => 0 end)) (match k with KPass => true | _ => false end)).
  split; [|reflexivity]. destruct k; unfold table; cbn [In]; repeat (first [left; reflexivity|right]).
Qed.
Lemma answers_table w a f : In f table ->
  (answers w a f = true <-> (f_what f = At a) \/ exists k id, f_what f = Pre k /\ begins (prefix k) id a /\ token w k id = true).
Proof.
  intros I. unfold answers. destruct (f_what f) as [b|k] eqn:W.
  - destruct (table_at f b I W) as (R & _ & B). rewrite R. cbn [andb].
    rewrite !andb_true_iff, N.eqb_eq, !N.leb_le. split.
    + intros [_ <-]. left. reflexivity.
    + intros [E|(k & id & E & _)]; [injection E as ->|discriminate]. lia.
  - rewrite (table_pre f k I W). cbn [andb]. rewrite has_spec. split.
    + intros (id & X). right. exists k, id. tauto.
    + intros [E|(k' & id & E & X)]; [discriminate|]. injection E as <-. exists id. exact X.
Qed.

(** ** C190 *)
(** Who answers, at every address and whatever tokens there are. *)
Theorem C190_answered w a :
  (forall i f, serve table w a = Some (i, f) ->
     (In a fixed /\ f_what f = At a) \/ exists k id, f_what f = Pre k /\ begins (prefix k) id a /\ token w k id = true) /\
  (serve table w a = None <-> ~ In a fixed /\ forall k id, begins (prefix k) id a -> token w k id = false).
Proof.
  split.
  - intros i f E. destruct (serve_spec _ _ _ _ _ E) as [NT A]. apply nth_error_In in NT.
    destruct (proj1 (answers_table w a f NT) A) as [W|X]; [left|right; exact X].
    split; [exact (proj1 (proj2 (table_at f a NT W)))|exact W].
  - unfold serve. rewrite find_none. split.
    + intros X. split.
      * intros I. destruct (table_fixed a I) as (f & IF & W). pose proof (X f IF) as Y.
        rewrite (proj2 (answers_table w a f IF) (or_introl W)) in Y. discriminate.
      * intros k id B. destruct (token w k id) eqn:T; [|reflexivity]. destruct (table_set k) as (f & IF & W).
        pose proof (X f IF) as Y. rewrite (proj2 (answers_table w a f IF)) in Y; [discriminate|]. right. exists k, id. tauto.
    + intros [NF NT] f IF. destruct (answers w a f) eqn:A; [|reflexivity]. exfalso.
      destruct (proj1 (answers_table w a f IF) A) as [W|(k & id & W & B & T)].
      * exact (NF (proj1 (proj2 (table_at f a IF W)))).
      * rewrite (NT k id B) in T. discriminate.
Qed.
Lemma prefix_inj k k' : prefix k = prefix k' -> k = k'.
Proof. destruct k, k'; intros E; try reflexivity; discriminate E. Qed.
Lemma same_what w a f g : In f table -> In g table -> answers w a f = true -> answers w a g = true -> f_what f = f_what g.
Proof.
  intros If Ig Af Ag.
  destruct (proj1 (answers_table w a f If) Af) as [Wf|(k & id & Wf & Bf & _)], (proj1 (answers_table w a g Ig) Ag) as [Wg|(k' & id' & Wg & Bg & _)].
  - congruence.
  - exfalso. destruct (table_at f a If Wf) as (_ & _ & L). destruct Bg as (r & R & I & ->). destruct k'; cbn [prefix] in L; lia.
  - exfalso. destruct (table_at g a Ig Wg) as (_ & _ & L). destruct Bf as (r & R & I & ->). destruct k; cbn [prefix] in L; lia.
  - destruct (begins_div _ _ _ Bf) as [E _], (begins_div _ _ _ Bg) as [E' _]. rewrite E in E'. rewrite (prefix_inj _ _ E') in Wf. congruence.
Qed.
Lemma table_distinct i j f g : nth_error table i = Some f -> nth_error table j = Some g -> f_what f = f_what g -> i = j.
Proof.
  intros Ei Ej W. assert (Li : (i < length table)%nat) by (apply nth_error_Some; congruence).
  assert (Lj : (j < length table)%nat) by (apply nth_error_Some; congruence). cbn in Li, Lj.
  do 21 (destruct i as [|i]; [injection Ei as <-; do 21 (destruct j as [|j]; [injection Ej as <-; first [reflexivity|discriminate W]|]); exfalso; lia|]).
  exfalso; lia.
Qed.
(** No two of them answer at the same address, so their order does not matter. *)
Theorem C190_one w a i j f g :
  nth_error table i = Some f -> answers w a f = true -> nth_error table j = Some g -> answers w a g = true -> i = j.
Proof.
  intros Ei Ai Ej Aj. apply (table_distinct i j f g Ei Ej).
  exact (same_what w a f g (nth_error_In _ _ Ei) (nth_error_In _ _ Ej) Ai Aj).
Qed.
(** A token's address, as the chain tells it, is answered by its precompile if there is the token, and read back as its id;
    different tokens have different addresses. *)
Theorem C190_token w k id : k <> KPass -> id < 2 ^ 32 ->
  to_id (prefix k) (of_id (prefix k) id) = Some id /\
  (token w k id = true -> exists i f, serve table w (of_id (prefix k) id) = Some (i, f) /\ f_what f = Pre k) /\
  (token w k id = false -> serve table w (of_id (prefix k) id) = None) /\
  (forall k' id', id' < 2 ^ 32 -> of_id (prefix k) id = of_id (prefix k') id' -> k = k' /\ id = id').
Proof.
  intros NK L.
  assert (B : begins (prefix k) id (of_id (prefix k) id)) by (exists 0; unfold of_id; lia).
  destruct (begins_div _ _ _ B) as [Q1 Q2].
  assert (U : forall k' id', begins (prefix k') id' (of_id (prefix k) id) -> k' = k /\ id' = id).
  { intros k' id' B'. destruct (begins_div _ _ _ B') as [P1 P2]. split; [apply prefix_inj; congruence|congruence]. }
  assert (NF : ~ In (of_id (prefix k) id) fixed).
  { intros I. destruct (table_fixed _ I) as (f & IF & W). destruct (table_at f _ IF W) as (_ & _ & R).
    unfold of_id in R. destruct k; cbn [prefix] in R; lia. }
  destruct (C190_answered w (of_id (prefix k) id)) as [X Y].
  split; [unfold to_id; rewrite Q1, N.eqb_refl, Q2; reflexivity|].
  split; [|split].
  - intros T. destruct (serve table w (of_id (prefix k) id)) as [[i f]|] eqn:E.
    + exists i, f. split; [reflexivity|]. destruct (X i f eq_refl) as [[I _]|(k' & id' & W & B' & _)]; [contradiction|].
      destruct (U _ _ B') as [-> _]. exact W.
    + destruct (proj1 Y eq_refl) as [_ Z]. rewrite (Z k id B) in T. discriminate.
  - intros T. apply Y. split; [exact NF|]. intros k' id' B'. destruct (U _ _ B') as [-> ->]. exact T.
  - intros k' id' L' E. destruct (U k' id') as [-> ->]; [|tauto]. rewrite E. exists 0. unfold of_id. lia.
Qed.
(** What the EVM is told about an address is what happens when it is called. *)
Theorem C190_agree tab w a : is_precompile tab w a = true <-> serve tab w a <> None.
Proof.
  assert (C : forall f, claims w a f = answers w a f).
  { intros f. unfold claims, answers. f_equal. destruct (f_what f) as [b|k]; [apply N.eqb_sym|].
    destruct (has w k a) eqn:H; [|apply andb_false_r]. apply has_spec in H. destruct H as (id & B & _).
    rewrite (proj1 (begins_div _ _ _ B)), N.eqb_refl. reflexivity. }
  unfold is_precompile, serve. rewrite existsb_exists. split.
  - intros (f & I & X) E. rewrite find_none in E. rewrite C, (E f I) in X. discriminate.
  - intros X. destruct (find tab 0 w a) as [[i f]|] eqn:E; [|contradiction].
    destruct (find_spec _ _ _ _ _ _ E) as (n & _ & NT & A). exists f. split; [exact (nth_error_In _ _ NT)|rewrite C; exact A].
Qed.
(** C190 as stated is false: a token answers at 2^96 addresses. *)
Theorem C190_alias_refuted : exists w a b, a <> b /\ a < 2 ^ 160 /\ b < 2 ^ 160 /\
  to_id (prefix K20) a = to_id (prefix K20) b /\
  exists i f, f_what f = Pre K20 /\ serve table w a = Some (i, f) /\ serve table w b = Some (i, f).
Proof.
  exists (World (fun _ => false) (fun _ => false) (fun x => x =? 2)), (of_id (prefix K20) 2), (of_id (prefix K20) 2 + 1).
  split; [vm_compute; discriminate|]. split; [vm_compute; reflexivity|]. split; [vm_compute; reflexivity|].
  split; [vm_compute; reflexivity|]. exists 19%nat, (Frag None (Pre K20) (Some 0) false).
  split; [reflexivity|]. split; vm_compute; reflexivity.
Qed.
Example C190_example :
  let w := World (fun x => x =? 1124) (fun _ => false) (fun x => (x =? 1) || (x =? 2)) in
  serve table w 1741 = Some (16%nat, own 1741) /\ serve table w (of_id (prefix K721) 1124) <> None /\
  serve table w (of_id (prefix K721) 1125) = None /\ serve table w 10 = None /\ serve table w (2 ^ 160 - 1) <> None.
Proof. vm_compute. repeat split; discriminate. Qed.

(** ** C191 *)
(** The outcome of every call of a transaction is decided by the name it is made in and by the calls under way: [plan].  What
    is no longer under way does not count. *)
Theorem C191_nesting c : transact table c = plan table [] c.
Proof.
  apply transact_plan. intros i f m E L. apply nth_error_In in E. unfold table in E. cbn [In] in E.
  repeat (destruct E as [<-|E]; [injection L as <-; lia|]). destruct E.
Qed.
(** A predicate of every frame. *)
Fixpoint every (P : N -> N -> out -> Prop) (d : done) : Prop :=
  let '(Done code ctx _ o subs) := d in
  P code ctx o /\ (fix all (l : list done) : Prop := match l with [] => True | x :: r => every P x /\ all r end) subs.
(** Whoever runs in another's name is one of Ethereum's or a futurepass. *)
Definition own_name (code ctx : N) (o : out) : Prop :=
  match o with Ran _ => code <> ctx -> In code ethereum \/ code / 2 ^ 128 = 0xFFFFFFFF | _ => True end.
Lemma dele_table f : In f table -> f_dele f = true -> (exists b, f_what f = At b /\ In b ethereum) \/ f_what f = Pre KPass.
Proof.
  intros I D. unfold table in I. cbn [In] in I.
  repeat (destruct I as [<-|I]; [first [discriminate D|right; reflexivity|left; eexists; split; [reflexivity|vm_compute; tauto]]|]). destruct I.
Qed.
Lemma limit_table f : In f table -> f_limit f = Some (match f_what f with Pre KPass => 1 | _ => 0 end).
Proof.
  intros I. unfold table in I. cbn [In] in I. repeat (destruct I as [<-|I]; [reflexivity|]). destruct I.
Qed.
Lemma plan_every (P : N -> N -> out -> Prop) c : (forall code ctx o, (forall i, o <> Ran i) -> P code ctx o) ->
  (forall w code ctx i f, serve table w code = Some (i, f) -> (f_dele f = true \/ code = ctx) -> P code ctx (Ran i)) ->
  forall p, every P (plan table p c).
Proof.
  intros H1 H2. induction c as [w code ctx fresh subs IH] using call_all. intros p. cbn [plan].
  assert (K : forall q, (fix all (l : list done) : Prop := match l with [] => True | x :: r => every P x /\ all r end) (map (plan table q) subs)).
  { intros q. clear H1 H2. induction subs as [|x r IHr]; [exact I|]. cbn [map]. split; [exact (Forall_inv IH q)|exact (IHr (Forall_inv_tail IH))]. }
  destruct (serve table w code) as [[i f]|] eqn:V.
  2:{ cbn [every]. split; [apply H1; discriminate|apply K]. }
  destruct (negb (f_dele f) && negb (code =? ctx)) eqn:D; [cbn [every]; split; [apply H1; discriminate|exact I]|].
  destruct (match f_limit f with Some m => m <? times (if fresh then [] else p) (i, code) | None => false end);
    [cbn [every]; split; [apply H1; discriminate|exact I]|].
  cbn [every]. split; [|apply K]. apply (H2 w code ctx i f V).
  apply andb_false_iff in D. destruct D as [D|D]; apply negb_false_iff in D; [left; exact D|right; apply N.eqb_eq; exact D].
Qed.
Theorem C191_context c : every own_name (transact table c).
Proof.
  rewrite C191_nesting. apply plan_every.
  - intros code ctx o X. destruct o; try exact I. exfalso. exact (X i eq_refl).
  - intros w code ctx i f V D N1. destruct D as [D|D]; [|contradiction].
    destruct (serve_spec _ _ _ _ _ V) as [NT A]. apply nth_error_In in NT.
    destruct (dele_table f NT D) as [(b & W & E)|W].
    + left. destruct (proj1 (answers_table w code f NT) A) as [W'|(k & id & W' & _)]; [|congruence].
      rewrite W in W'. injection W' as ->. exact E.
    + right. destruct (proj1 (answers_table w code f NT) A) as [W'|(k & id & W' & B & _)]; [congruence|].
      rewrite W in W'. injection W' as <-. exact (proj1 (begins_div _ _ _ B)).
Qed.
(** How often an address is under way in this EVM. *)
Definition open (p : list N) (a : N) : nat := length (List.filter (N.eqb a) p).
(** No precompile is entered while it is under way; a futurepass once more at most. *)
Fixpoint bounded (p : list N) (d : done) : Prop :=
  let '(Done code _ fresh o subs) := d in
  let p := if fresh then [] else p in
  match o with Ran _ => (open p code <= if (code / 2 ^ 128 =? 0xFFFFFFFF)%N then 1 else 0)%nat | _ => True end /\
  (fix all (l : list done) : Prop := match l with [] => True | x :: r => bounded (match o with Ran _ => code :: p | _ => p end) x /\ all r end) subs.
(** The position of a precompile is decided by the address. *)
Lemma index_fixed w w' a i j f g : serve table w a = Some (i, f) -> serve table w' a = Some (j, g) -> i = j.
Proof.
  intros E E'. destruct (serve_spec _ _ _ _ _ E) as [Ni A], (serve_spec _ _ _ _ _ E') as [Nj A'].
  apply (table_distinct i j f g Ni Nj). pose proof (nth_error_In _ _ Ni) as If. pose proof (nth_error_In _ _ Nj) as Ig.
  destruct (proj1 (answers_table w a f If) A) as [Wf|(k & id & Wf & Bf & _)], (proj1 (answers_table w' a g Ig) A') as [Wg|(k' & id' & Wg & Bg & _)].
  - congruence.
  - exfalso. destruct (table_at f a If Wf) as (_ & _ & L). destruct Bg as (r & R & I & ->). destruct k'; cbn [prefix] in L; lia.
  - exfalso. destruct (table_at g a Ig Wg) as (_ & _ & L). destruct Bf as (r & R & I & ->). destruct k; cbn [prefix] in L; lia.
  - destruct (begins_div _ _ _ Bf) as [Q _], (begins_div _ _ _ Bg) as [Q' _]. rewrite Q in Q'. rewrite (prefix_inj _ _ Q') in Wf. congruence.
Qed.
Definition placed (p : list (nat * N)) : Prop := Forall (fun x => exists w f, serve table w (snd x) = Some (fst x, f)) p.
Lemma times_open p w a i f : placed p -> serve table w a = Some (i, f) -> times p (i, a) = N.of_nat (open (map snd p) a).
Proof.
  intros PL V. unfold times, open. f_equal. induction p as [|[j b] p IH]; [reflexivity|].
  pose proof (Forall_inv PL) as (w' & g & V'). cbn [fst snd] in V'. specialize (IH (Forall_inv_tail PL)).
  cbn [List.filter map snd]. destruct (N.eqb_spec a b) as [<-|NE].
  - rewrite (index_fixed _ _ _ _ _ _ _ V' V). rewrite bool_decide_true by reflexivity. cbn [length]. rewrite IH. reflexivity.
  - rewrite bool_decide_false by congruence. exact IH.
Qed.
Lemma plan_bounded c : forall p, placed p -> bounded (map snd p) (plan table p c).
Proof.
  induction c as [w code ctx fresh subs IH] using call_all. intros p PL. cbn [plan].
  assert (E0 : (if fresh then [] else map snd p) = map snd (if fresh then [] else p)) by (destruct fresh; reflexivity).
  assert (PL0 : placed (if fresh then [] else p)) by (destruct fresh; [apply List.Forall_nil|exact PL]).
  set (q := if fresh then [] else p) in *.
  assert (K : forall s (r : list N), placed s -> r = map snd s ->
            (fix all (l : list done) : Prop := match l with [] => True | x :: y => bounded r x /\ all y end) (map (plan table s) subs)).
  { intros s r PS ->. clear PL E0 PL0 q. induction subs as [|x y IHr]; [exact I|]. cbn [map]. split; [exact (Forall_inv IH s PS)|exact (IHr (Forall_inv_tail IH))]. }
  destruct (serve table w code) as [[i f]|] eqn:V.
  2:{ cbn [bounded]. split; [exact I|]. apply K; [exact PL0|exact E0]. }
  destruct (negb (f_dele f) && negb (code =? ctx)); [cbn [bounded]; split; exact I|].
  destruct (serve_spec _ _ _ _ _ V) as [NT A]. pose proof (nth_error_In _ _ NT) as IF.
  rewrite (limit_table f IF).
  destruct (_ <? times q (i, code)) eqn:T; [cbn [bounded]; split; exact I|]. apply N.ltb_ge in T.
  cbn [bounded]. rewrite E0. split.
  - rewrite (times_open q w code i f PL0 V) in T.
    destruct (proj1 (answers_table w code f IF) A) as [W|(k & id & W & B & _)]; rewrite W in T.
    + destruct (_ =? _); lia.
    + rewrite (proj1 (begins_div _ _ _ B)). destruct k.
      * change (prefix K721 =? 0xFFFFFFFF) with false. cbv iota in T |- *. lia.
      * change (prefix K1155 =? 0xFFFFFFFF) with false. cbv iota in T |- *. lia.
      * change (prefix K20 =? 0xFFFFFFFF) with false. cbv iota in T |- *. lia.
      * change (prefix KPass =? 0xFFFFFFFF) with true. cbv iota in T |- *. lia.
  - apply K; [apply List.Forall_cons; [exists w, f; exact V|exact PL0]|reflexivity].
Qed.
Theorem C191_reentry c : bounded [] (transact table c).
Proof. rewrite C191_nesting. exact (plan_bounded c [] (List.Forall_nil _)). Qed.

(** C191 as stated is false: what is counted is the address, so a token's precompile can be called again at another of the
    token's addresses while it is calling a receiver. *)
Definition ex_world : world := World (fun x => x =? 1124) (fun _ => false) (fun _ => false).
Definition ex_token : N := of_id (prefix K721) 1124.
(** [safeTransferFrom] at the token's address calls a contract, which calls the same token at the next address. *)
Definition ex_call (b : N) : call :=
  Call ex_world ex_token ex_token false [Call ex_world (2 ^ 100) (2 ^ 100) false [Call ex_world b b false []]].
Theorem C191_token_refuted : exists c i id a b, id < 2 ^ 32 /\ begins (prefix K721) id a /\ begins (prefix K721) id b /\
  transact table c = Done a a false (Ran i) [Done (2 ^ 100) (2 ^ 100) false Contract [Done b b false (Ran i) []]].
Proof.
  exists (ex_call (ex_token + 1)), 17%nat, 1124, ex_token, (ex_token + 1). split; [lia|].
  split; [exists 0; split; [lia|]; split; [lia|]; vm_compute; reflexivity|].
  split; [exists 1; split; [lia|]; split; [lia|]; vm_compute; reflexivity|]. vm_compute. reflexivity.
Qed.
(** At the same address it is refused, and afterwards it is not. *)
Example C191_example :
  transact table (ex_call ex_token) = Done ex_token ex_token false (Ran 17) [Done (2 ^ 100) (2 ^ 100) false Contract [Done ex_token ex_token false TooDeep []]] /\
  transact table (Call ex_world (2 ^ 100) (2 ^ 100) false [ex_call ex_token; Call ex_world ex_token ex_token false []; Call ex_world ex_token 5 false []]) =
    Done (2 ^ 100) (2 ^ 100) false Contract
      [Done ex_token ex_token false (Ran 17) [Done (2 ^ 100) (2 ^ 100) false Contract [Done ex_token ex_token false TooDeep []]];
       Done ex_token ex_token false (Ran 17) []; Done ex_token 5 false Refused []].
Proof. split; vm_compute; reflexivity. Qed.

Definition C190_C191_assumptions := (C190_answered, C190_one, C190_token, C190_agree, C190_alias_refuted,
  C191_nesting, C191_context, C191_reentry, C191_token_refuted).
Print Assumptions C190_C191_assumptions.
