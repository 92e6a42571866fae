(** C38, C39 and the witnesses of C37. *)
From Verif Require Export XrplWithdraw.
Definition taken (xrp a : N) (e : wev) : N :=
  match e with
  | WDelayed _ _ t | WSent None _ t _ => (if w_asset t =? a then w_amt t else 0) + (if a =? xrp then w_fee t else 0)
  | _ => 0
  end.

Section amounts.
  Variables (xrp root pot : N) (maxpb blim rd wr : N).
  Variable decimals : N -> N.
  Variable codec : N -> N -> N -> N -> bool.
  Notation wex := (wexec xrp root pot maxpb blim rd wr decimals codec).
  Notation wstp := (wstep xrp root pot maxpb blim rd wr decimals codec).
  Notation rel := (release1 xrp decimals codec).

  Lemma saturate_spec amount a v : amount <= U128MAX -> saturate xrp decimals amount a = Ok v ->
    (a = xrp /\ v = amount) \/ (a <> xrp /\ exact v /\ v <= amount /\ amount < v + 10 ^ decimals a).
  Proof.
    intros Ha H. unfold saturate in H. destruct (N.eqb_spec a xrp) as [->|Hne]; [injection H as <-; auto|]. right. split; [exact Hne|].
    destruct (_ <=? 127); cbn [ensure rbind] in H; [|discriminate]. unfold mant_exp in H. cbn [N.leb] in H.
    change (0 <=? 127) with true in H. cbn [ensure rbind] in H. cbv zeta in H.
    destruct (cut_exact amount Ha) as [He Hle]. cbv zeta in He, Hle. remember (scale_down 40 amount 0) as me.
    destruct (N.ltb_spec (amount - fst me * 10 ^ snd me) (10 ^ decimals a mod 2 ^ 128)) as [Hlt|]; cbn [ensure rbind] in H; [|discriminate].
    injection H as <-. split; [exact He|]. split; [exact Hle|].
    assert (10 ^ decimals a mod 2 ^ 128 <= 10 ^ decimals a) by (apply N.mod_le; lia). lia.
  Qed.
  Lemma encode_exact t e : (w_asset t = xrp \/ exact (w_amt t)) -> encode xrp decimals codec t = Ok e ->
    match e with
    | EDrops n => w_asset t = xrp /\ (w_amt t <= U64MAX -> n = w_amt t)
    | EIssued m d dec c => w_asset t <> xrp /\ m * 10 ^ d = w_amt t /\ m <= MANTISSA_MAX /\ dec = decimals (w_asset t) /\ c = w_cur t
    end.
  Proof.
    intros Hx H. unfold encode in H. destruct (N.eqb_spec (w_asset t) xrp) as [E|Hne].
    - injection H as <-. split; [exact E|]. intros Hu. unfold sat. apply N.min_l. exact Hu.
    - destruct Hx as [?|(m & d & Es & Em & Eb)]; [contradiction|]. unfold mant_exp in H. destruct (_ <=? 127); cbn [ensure rbind] in H; [|discriminate].
      rewrite Es in H. cbn [fst snd rbind] in H. destruct (codec _ _ _ _); cbn [ensure rbind] in H; [|discriminate]. injection H as <-. auto.
  Qed.

  (** Every recorded withdrawal has a representable amount and every sent one its encoding. *)
  Definition fits (t : wtx) : Prop := w_asset t = xrp \/ exact (w_amt t).
  Definition sound (s : wst) : Prop :=
    (forall id t, dpay s !! id = Some t -> fits t) /\
    (forall o b t e, In (WSent o b t e) (wlog s) -> fits t /\ encode xrp decimals codec t = Ok e).
  Lemma release1_sound s id : sound s -> sound (rel s id).
  Proof.
    intros [A B]. unfold release1. destruct (dpay s !! id) as [t|] eqn:E; [|split; assumption].
    assert (A' : forall i u, delete id (dpay s) !! i = Some u -> fits u) by (intros i u Hi; apply lookup_delete_Some in Hi as [_ Hi]; exact (A _ _ Hi)).
    destruct (encode xrp decimals codec t) as [e|c] eqn:Ee; (split; [exact A'|]); unfold with_log; cbn [wlog]; intros o b u y [H|H]; try (exact (B _ _ _ _ H)); try discriminate.
    injection H as <- <- <- <-. split; [exact (A _ _ E)|exact Ee].
  Qed.
  Lemma rels_sound l : forall s, sound s -> sound (fold_left rel l s).
  Proof. induction l as [|x l IH]; intros s H; [exact H|]. apply IH, release1_sound, H. Qed.
  Lemma loop_sound fuel : forall s rem used nh lim, sound s -> sound (fst (delay_loop xrp rd wr decimals codec fuel s rem used nh lim)).
  Proof.
    induction fuel as [|fuel IH]; intros s rem used nh lim HS; cbn [delay_loop]; cbv zeta; [exact HS|].
    destruct (negb _ || _); [exact HS|]. destruct (dsch s !! nh) as [ids|]; [|apply IH; exact HS].
    set (k := N.to_nat _). clearbody k. pose proof (rels_sound (firstn k ids) s HS) as H1.
    destruct (k <? length ids)%nat; [exact H1|apply IH; exact H1].
  Qed.
  Lemma wexec_sound s o s' : sound s -> wex s o = Ok s' -> sound s'.
  Proof.
    intros HS H. destruct o as [who a amount dest tag|rem|valid a c|a v|fee|b|st sz|a who v]; cbn [wexec] in *.
    - apply withdraw_open in H as (amt & l & cur & tk & d' & _ & Hu & Hs & _ & _ & _ & H). cbv zeta in H.
      assert (Hf : fits (WTx who a amt dest tag tk (dfee s) cur)) by (destruct (saturate_spec _ _ _ Hu Hs) as [[-> _]|(_ & He & _)]; [left; reflexivity|right; exact He]).
      destruct HS as [A B]. destruct H as [(thr & delay & _ & _ & H)|(e & He & ->)].
      + unfold delay_payment in H. destruct (_ <=? _); cbn [ensure rbind] in H; [|discriminate]. cbv zeta in H.
        destruct (_ <? maxpb); cbn [ensure rbind] in H; [|discriminate]. injection H as <-. split; cbn [dpay wlog nextpid].
        * intros i u. destruct (decide (nextpid s = i)) as [<-|Hne]; [rewrite lookup_insert; intros [= <-]; exact Hf|rewrite lookup_insert_ne by exact Hne; apply A].
        * intros o b u y [Hx|Hx]; [discriminate|exact (B _ _ _ _ Hx)].
      + split; unfold with_log; cbn [dpay wlog]; [exact A|]. intros o b u y [Hx|Hx]; [injection Hx as <- <- <- <-; auto|exact (B _ _ _ _ Hx)].
    - injection H as <-. unfold sound. cbn [dpay wlog]. unfold process_delayed. destruct (rem <=? _); [exact HS|]. cbv zeta. destruct (negb _); [exact HS|].
      pose proof (loop_sound (N.to_nat (N.min (wblk s) (sat U32MAX (nextblk s + blim)) + 1 - nextblk s)) s rem (2 * rd + wr) (nextblk s) (N.min (wblk s) (sat U32MAX (nextblk s + blim))) HS) as HL.
      destruct (delay_loop _ _ _ _ _ _ _ _ _ _ _). exact HL.
    - unfold set_map in H. destruct c as [c|]; [destruct valid|]; cbn [ensure rbind] in H; try discriminate; [injection H as <-; exact HS|].
      destruct (toxrpl s !! a); cbn [of_opt rbind] in H; [|discriminate]. injection H as <-. exact HS.
    - injection H as <-. exact HS.
    - destruct (_ <=? _); cbn [ensure rbind] in H; [|discriminate]. injection H as <-. exact HS.
    - injection H as <-. exact HS.
    - destruct (_ && _); cbn [ensure rbind] in H; [|discriminate]. destruct (set_next _ _ _); cbn [rbind] in H; [|discriminate]. injection H as <-. exact HS.
    - destruct (mint _ _ _ _); cbn [rbind] in H; [|discriminate]. injection H as <-. exact HS.
  Qed.
  (** C38: what is signed is exactly the recorded amount; for XRP when it fits 64 bits. *)
  Theorem C38_encoded_exact_partial : forall ops o b t e, In (WSent o b t e) (wlog (run wstp ops winit)) ->
    match e with
    | EDrops n => w_asset t = xrp /\ (w_amt t <= U64MAX -> n = w_amt t)
    | EIssued m d dec c => w_asset t <> xrp /\ m * 10 ^ d = w_amt t /\ m <= MANTISSA_MAX /\ dec = decimals (w_asset t) /\ c = w_cur t
    end.
  Proof.
    intros ops o b t e H. assert (HS : sound (run wstp ops winit)).
    { apply run_inv; [|split; [intros id u Hx; cbn [winit dpay] in Hx; rewrite lookup_empty in Hx; discriminate|intros ? ? ? ? []]].
      intros s op HS. unfold wstep. destruct (wex s op) as [s'|] eqn:E; cbn [commit]; [exact (wexec_sound _ _ _ HS E)|exact HS]. }
    destruct (proj2 HS _ _ _ _ H) as [Hf He]. exact (encode_exact _ _ Hf He).
  Qed.

  (** C38, the account: a withdrawal takes the recorded amount and the door fee, nothing else; the recorded amount is the
      request cut to 16 digits, short by less than one whole unit. *)
  Lemma take_funds_spec s who a amt l cur : xrp <> root -> who <> pot -> books (wbk s) -> take_funds xrp root pot s who a amt = Ok (l, cur) ->
    (forall b y, y <> pot -> balance l b y + (if y =? who then (if b =? a then amt else 0) + (if b =? xrp then dfee s else 0) else 0) = balance (wbk s) b y) /\
    (forall b, b <> root -> issuance l b + ((if a =? b then amt else 0) + (if b =? xrp then dfee s else 0)) = issuance (wbk s) b) /\
    balance l root pot = balance (wbk s) root pot + (if a =? root then amt else 0) /\ issuance l root = issuance (wbk s) root /\
    books l /\ (a <> xrp -> toxrpl s !! a = Some cur).
  Proof.
    intros Hxr Hwp Hbk H. unfold take_funds in H.
    assert (Hdec : forall (x b : N) y v, (if decide ((x, who) = (b, y)) then v else 0) = if (y =? who) && (b =? x) then v else 0).
    { intros x b y v. destruct (N.eqb_spec y who), (N.eqb_spec b x); cbn [andb]; destruct (decide _); congruence. }
    destruct (N.eqb_spec a xrp) as [->|Hax].
    - destruct (burn (wbk s) xrp who (amt + dfee s)) as [l1|] eqn:Eb; cbn [rbind] in H; [|discriminate]. injection H as <- <-.
      pose proof (burn_books _ _ _ _ _ Eb Hbk) as Hbl. destruct (LedgerProofs.burn_spec _ _ _ _ _ Eb Hbk) as (H1 & H2 & H3 & H4). split; [|split; [|split; [|split; [|split; [exact Hbl|congruence]]]]].
      + intros b y Hy. specialize (H3 b y). rewrite Hdec in H3. destruct (N.eqb_spec y who), (N.eqb_spec b xrp); cbn [andb] in H3; lia.
      + intros b Hb. specialize (H2 b). rewrite (N.eqb_sym b xrp). destruct (xrp =? b); lia.
      + specialize (H3 root pot). rewrite Hdec in H3. destruct (N.eqb_spec pot who); [congruence|]. cbn [andb] in H3. destruct (N.eqb_spec xrp root); [contradiction|lia].
      + specialize (H2 root). destruct (N.eqb_spec xrp root); [contradiction|lia].
    - destruct (toxrpl s !! a) as [c|] eqn:Ec; cbn [of_opt rbind] in H; [|discriminate].
      destruct (burn (wbk s) xrp who (dfee s)) as [l1|] eqn:Eb; cbn [rbind] in H; [|discriminate].
      pose proof (burn_books _ _ _ _ _ Eb Hbk) as Hb1. destruct (LedgerProofs.burn_spec _ _ _ _ _ Eb Hbk) as (H1 & H2 & H3 & H4).
      destruct (if a =? root then transfer l1 root who pot amt else burn l1 a who amt) as [l2|] eqn:E2; cbn [rbind] in H; [|discriminate]. injection H as <- <-.
      destruct (N.eqb_spec a root) as [->|Har].
      + pose proof (transfer_books _ _ _ _ _ _ E2 Hb1) as Hb2. apply transfer_spec in E2 as (_ & Hi & Hb). split; [|split; [|split; [|split; [|split; [exact Hb2|reflexivity]]]]].
        * intros b y Hy. specialize (Hb b y). specialize (H3 b y). rewrite Hdec in Hb, H3. destruct (decide ((root, pot) = (b, y))); [congruence|].
          destruct (N.eqb_spec y who), (N.eqb_spec b xrp), (N.eqb_spec b root); cbn [andb] in *; lia.
        * intros b Hb'. specialize (H2 b). unfold issuance in *. rewrite Hi. rewrite (N.eqb_sym b xrp). destruct (N.eqb_spec root b); [congruence|]. destruct (xrp =? b); lia.
        * specialize (Hb root pot). specialize (H3 root pot). rewrite Hdec in Hb, H3. destruct (decide ((root, pot) = (root, pot))); [|congruence].
          destruct (N.eqb_spec pot who); [congruence|]. cbn [andb] in *. lia.
        * specialize (H2 root). unfold issuance in *. rewrite Hi. destruct (N.eqb_spec xrp root); [contradiction|lia].
      + pose proof (burn_books _ _ _ _ _ E2 Hb1) as Hb2. destruct (LedgerProofs.burn_spec _ _ _ _ _ E2 Hb1) as (G1 & G2 & G3 & G4). split; [|split; [|split; [|split; [|split; [exact Hb2|reflexivity]]]]].
        * intros b y Hy. specialize (G3 b y). specialize (H3 b y). rewrite Hdec in G3, H3. destruct (N.eqb_spec y who), (N.eqb_spec b xrp), (N.eqb_spec b a); cbn [andb] in *; lia.
        * intros b Hb'. specialize (H2 b). specialize (G2 b). rewrite (N.eqb_sym b xrp). destruct (xrp =? b), (a =? b); lia.
        * specialize (G3 root pot). specialize (H3 root pot). rewrite Hdec in G3, H3. destruct (N.eqb_spec pot who); [congruence|]. cbn [andb] in *. lia.
        * specialize (H2 root). specialize (G2 root). destruct (N.eqb_spec xrp root), (N.eqb_spec a root); try contradiction; lia.
  Qed.
  Theorem C38_account : forall s who a amount dest tag s', xrp <> root -> who <> pot -> books (wbk s) ->
    withdraw xrp root pot maxpb decimals codec s who a amount dest tag = Ok s' ->
    exists t, (wlog s' = WDelayed (nextpid s) (sat U32MAX (wblk s + snd (default (0, 0) (pdelay s !! a)))) t :: wlog s \/ exists e, wlog s' = WSent None (wblk s) t e :: wlog s) /\
      w_who t = who /\ w_asset t = a /\ w_dest t = dest /\ w_tag t = tag /\ w_fee t = dfee s /\ (a <> xrp -> toxrpl s !! a = Some (w_cur t)) /\
      (a = xrp -> w_amt t = amount) /\ (a <> xrp -> w_amt t <= amount < w_amt t + 10 ^ decimals a) /\
      (forall b y, y <> pot -> balance (wbk s') b y + (if y =? who then (if b =? a then w_amt t else 0) + (if b =? xrp then w_fee t else 0) else 0) = balance (wbk s) b y) /\
      balance (wbk s') root pot = balance (wbk s) root pot + (if a =? root then w_amt t else 0).
  Proof.
    intros s who a amount dest tag s' Hxr Hwp Hbk H. apply withdraw_open in H as (amt & l & cur & tk & d' & _ & Hu & Hs & _ & Hf & _ & H). cbv zeta in H.
    destruct (take_funds_spec _ _ _ _ _ _ Hxr Hwp Hbk Hf) as (F1 & _ & F3 & _ & _ & F6).
    exists (WTx who a amt dest tag tk (dfee s) cur). cbn [w_who w_asset w_dest w_tag w_fee w_cur w_amt].
    assert (Hw : (wlog s' = WDelayed (nextpid s) (sat U32MAX (wblk s + snd (default (0, 0) (pdelay s !! a)))) (WTx who a amt dest tag tk (dfee s) cur) :: wlog s \/ exists e, wlog s' = WSent None (wblk s) (WTx who a amt dest tag tk (dfee s) cur) e :: wlog s) /\ wbk s' = l).
    { destruct H as [(thr & delay & Hp & _ & H)|(e & _ & ->)].
      - unfold delay_payment in H. destruct (_ <=? _); cbn [ensure rbind] in H; [|discriminate]. cbv zeta in H.
        destruct (_ <? maxpb); cbn [ensure rbind] in H; [|discriminate]. injection H as <-. cbn [wlog wbk nextpid wblk]. rewrite Hp. cbn [default snd]. auto.
      - unfold with_log. cbn [wlog wbk]. split; [right; eauto|reflexivity]. }
    destruct Hw as [Hw ->]. split; [exact Hw|]. do 5 (split; [reflexivity|]). split; [exact F6|].
    destruct (saturate_spec _ _ _ Hu Hs) as [[E ->]|(Hne & _ & Hle & Hlt)].
    - split; [reflexivity|]. split; [congruence|]. split; [exact F1|exact F3].
    - split; [congruence|]. split; [auto|]. split; [exact F1|exact F3].
  Qed.

  (** C38, supply: what left the supply over a whole history is what the recorded withdrawals and their fees took. *)
  Fixpoint minted (a : N) (ops : list wop) (s : wst) : N :=
    match ops with
    | [] => 0
    | o :: r => (match o with WMint b _ v => if (b =? a) && is_ok (wex s o) then v else 0 | _ => 0 end) + minted a r (wstp s o)
    end.
  Definition all_taken (a : N) (l : list wev) : N := sumL (map (taken xrp a) l).
  Lemma all_taken_cons a e l : all_taken a (e :: l) = taken xrp a e + all_taken a l.
  Proof. reflexivity. Qed.
  Lemma rel_taken s id a : all_taken a (wlog (rel s id)) = all_taken a (wlog s).
  Proof. unfold release1. destruct (dpay s !! id); [destruct (encode _ _ _ _)|]; unfold with_log; cbn [wlog]; try rewrite all_taken_cons; cbn [taken]; lia. Qed.
  Lemma rels_taken l : forall s a, all_taken a (wlog (fold_left rel l s)) = all_taken a (wlog s).
  Proof. induction l as [|x l IH]; intros s a; [reflexivity|]. cbn [fold_left]. rewrite IH. apply rel_taken. Qed.
  Lemma loop_taken fuel : forall s rem used nh lim a, let r := fst (delay_loop xrp rd wr decimals codec fuel s rem used nh lim) in all_taken a (wlog r) = all_taken a (wlog s) /\ wbk r = wbk s.
  Proof.
    induction fuel as [|fuel IH]; intros s rem used nh lim a; cbn [delay_loop]; cbv zeta; [auto|].
    destruct (negb _ || _); [auto|]. destruct (dsch s !! nh) as [ids|]; [|apply IH].
    set (k := N.to_nat _). clearbody k. pose proof (rels_taken (firstn k ids) s a) as H1. destruct (rels_fields xrp decimals codec (firstn k ids) s) as (_ & _ & _ & _ & F5 & _). cbv zeta in F5.
    destruct (k <? length ids)%nat; [auto|]. match goal with |- context [delay_loop _ _ _ _ _ fuel ?x ?r ?u ?n lim] => destruct (IH x r u n lim a) as [P Q] end.
    rewrite P, Q. cbn [set_sch wlog wbk]. auto.
  Qed.
  Definition not_pot (o : wop) : Prop := match o with WWithdraw who _ _ _ _ => who <> pot | _ => True end.
  Lemma wexec_taken s o s' a : xrp <> root -> a <> root -> not_pot o -> books (wbk s) -> wex s o = Ok s' ->
    books (wbk s') /\ issuance (wbk s') a + all_taken a (wlog s') = issuance (wbk s) a + all_taken a (wlog s) + match o with WMint b _ v => if b =? a then v else 0 | _ => 0 end.
  Proof.
    intros Hxr Har Hnp Hbk H. destruct o as [who b amount dest tag|rem|valid b c|b v|fee|b|st sz|b who v]; cbn [wexec not_pot] in *.
    - apply withdraw_open in H as (amt & l & cur & tk & d' & _ & _ & _ & _ & Hf & _ & H). cbv zeta in H.
      destruct (take_funds_spec _ _ _ _ _ _ Hxr Hnp Hbk Hf) as (_ & F2 & _ & _ & F5 & _). specialize (F2 a Har).
      destruct H as [(thr & delay & _ & _ & H)|(e & _ & ->)].
      + unfold delay_payment in H. destruct (_ <=? _); cbn [ensure rbind] in H; [|discriminate]. cbv zeta in H.
        destruct (_ <? maxpb); cbn [ensure rbind] in H; [|discriminate]. injection H as <-. cbn [wbk wlog]. split; [exact F5|].
        rewrite all_taken_cons. cbn [taken w_asset w_amt w_fee]. lia.
      + unfold with_log. cbn [wbk wlog]. split; [exact F5|]. rewrite all_taken_cons. cbn [taken w_asset w_amt w_fee]. lia.
    - injection H as <-. cbn [wbk wlog]. unfold process_delayed. destruct (rem <=? _); [split; [exact Hbk|lia]|]. cbv zeta. destruct (negb _); [split; [exact Hbk|lia]|].
      destruct (loop_taken (N.to_nat (N.min (wblk s) (sat U32MAX (nextblk s + blim)) + 1 - nextblk s)) s rem (2 * rd + wr) (nextblk s) (N.min (wblk s) (sat U32MAX (nextblk s + blim))) a) as [P Q].
      cbv zeta in P, Q. destruct (delay_loop _ _ _ _ _ _ _ _ _ _ _) as [s1 nh]. cbn [fst wbk wlog] in *. rewrite P, Q. split; [exact Hbk|lia].
    - unfold set_map in H. destruct c as [c|]; [destruct valid|]; cbn [ensure rbind] in H; try discriminate; [injection H as <-; split; [exact Hbk|cbn [wbk wlog]; lia]|].
      destruct (toxrpl s !! b); cbn [of_opt rbind] in H; [|discriminate]. injection H as <-. split; [exact Hbk|cbn [wbk wlog]; lia].
    - injection H as <-. split; [exact Hbk|cbn [wbk wlog]; lia].
    - destruct (_ <=? _); cbn [ensure rbind] in H; [|discriminate]. injection H as <-. split; [exact Hbk|cbn [wbk wlog]; lia].
    - injection H as <-. split; [exact Hbk|cbn [wbk wlog]; lia].
    - destruct (_ && _); cbn [ensure rbind] in H; [|discriminate]. destruct (set_next _ _ _); cbn [rbind] in H; [|discriminate]. injection H as <-. split; [exact Hbk|cbn [wbk wlog set_door]; lia].
    - destruct (mint (wbk s) b who v) as [l|] eqn:Em; cbn [rbind] in H; [|discriminate]. injection H as <-. cbn [wbk wlog].
      split; [exact (mint_books _ _ _ _ _ Em Hbk)|]. apply LedgerProofs.mint_spec in Em as (_ & Hi & _). rewrite Hi. lia.
  Qed.
  Theorem C38_supply : forall ops a, xrp <> root -> a <> root -> Forall not_pot ops -> let s := run wstp ops winit in
    issuance (wbk s) a + all_taken a (wlog s) = minted a ops winit.
  Proof.
    intros ops a Hxr Har Hf s.
    assert (Hg : forall ops x, Forall not_pot ops -> books (wbk x) -> issuance (wbk (run wstp ops x)) a + all_taken a (wlog (run wstp ops x)) = issuance (wbk x) a + all_taken a (wlog x) + minted a ops x).
    { clear ops Hf s. induction ops as [|o ops IH]; intros x Hf Hb; [cbn [run fold_left minted]; lia|]. apply Forall_cons in Hf as [Ho Hf].
      cbn [run fold_left minted]. change (fold_left wstp ops (wstp x o)) with (run wstp ops (wstp x o)). assert (E' : wstp x o = commit x (wex x o)) by reflexivity. rewrite E'. clear E'.
      destruct (wex x o) as [x'|] eqn:E; cbn [commit is_ok].
      - destruct (wexec_taken x o x' a Hxr Har Ho Hb E) as [Hb' Ht]. rewrite (IH x' Hf Hb'), Ht. destruct o; try lia. rewrite andb_true_r. lia.
      - rewrite (IH x Hf Hb). destruct o; try lia. rewrite andb_false_r. lia. }
    unfold s. rewrite (Hg ops winit Hf empty_books). cbn [winit wbk wlog]. change (all_taken a []) with 0. unfold issuance, empty_ledger. cbn [iss]. rewrite getN_empty. lia.
  Qed.

  (** ** C39 *)
  (** Governance only maps assets and currencies that are not mapped. *)
  Definition mgood (s : wst) (o : wop) : Prop := match o with WMap _ a (Some c) => toxrpl s !! a = None /\ toasset s !! c = None | _ => True end.
  Definition mirror (s : wst) : Prop := forall a c, toxrpl s !! a = Some c <-> toasset s !! c = Some a.
  Lemma wexec_maps s o s' : (forall v a c, o <> WMap v a c) -> wex s o = Ok s' -> toxrpl s' = toxrpl s /\ toasset s' = toasset s.
  Proof.
    intros Hne H. destruct o as [who a amount dest tag|rem|valid a c|a v|fee|b|st sz|a who v]; cbn [wexec] in *.
    - apply withdraw_open in H as (amt & l & cur & tk & d' & _ & _ & _ & _ & _ & _ & H). cbv zeta in H.
      destruct H as [(thr & delay & _ & _ & H)|(e & _ & ->)]; [|auto].
      unfold delay_payment in H. destruct (_ <=? _); cbn [ensure rbind] in H; [|discriminate]. cbv zeta in H.
      destruct (_ <? maxpb); cbn [ensure rbind] in H; [|discriminate]. injection H as <-. auto.
    - injection H as <-. cbn [toxrpl toasset]. unfold process_delayed. destruct (rem <=? _); [auto|]. cbv zeta. destruct (negb _); [auto|].
      assert (HL : forall fuel x r u n l, toxrpl (fst (delay_loop xrp rd wr decimals codec fuel x r u n l)) = toxrpl x /\ toasset (fst (delay_loop xrp rd wr decimals codec fuel x r u n l)) = toasset x).
      { induction fuel as [|fuel IH]; intros x r u n l; cbn [delay_loop]; cbv zeta; [auto|]. destruct (negb _ || _); [auto|]. destruct (dsch x !! n) as [ids|]; [|apply IH].
        set (k := N.to_nat _). clearbody k. destruct (rels_fields xrp decimals codec (firstn k ids) x) as (_ & _ & _ & _ & _ & _ & _ & F8 & F9). cbv zeta in F8, F9.
        destruct (k <? length ids)%nat; [auto|]. match goal with |- context [delay_loop _ _ _ _ _ fuel ?x' ?r' ?u' ?n' l] => destruct (IH x' r' u' n' l) as [P Q] end. rewrite P, Q. cbn [set_sch toxrpl toasset]. auto. }
      match goal with |- context [delay_loop _ _ _ _ _ ?f ?x ?r ?u ?n ?l] => specialize (HL f x r u n l); destruct (delay_loop xrp rd wr decimals codec f x r u n l) end. exact HL.
    - destruct (Hne valid a c eq_refl).
    - injection H as <-. auto.
    - destruct (_ <=? _); cbn [ensure rbind] in H; [|discriminate]. injection H as <-. auto.
    - injection H as <-. auto.
    - destruct (_ && _); cbn [ensure rbind] in H; [|discriminate]. destruct (set_next _ _ _); cbn [rbind] in H; [|discriminate]. injection H as <-. auto.
    - destruct (mint _ _ _ _); cbn [rbind] in H; [|discriminate]. injection H as <-. auto.
  Qed.
  Lemma wstep_mirror s o : mgood s o -> mirror s -> mirror (wstp s o).
  Proof.
    intros Hg HM. unfold wstep. destruct (wex s o) as [s'|] eqn:E; cbn [commit]; [|exact HM].
    destruct o as [who a amount dest tag|rem|valid a c|a v|fee|b|st sz|a who v].
    3: { cbn [wexec mgood] in *. unfold set_map in E. destruct c as [c|].
      - destruct valid; cbn [ensure rbind] in E; [|discriminate]. injection E as <-. destruct Hg as [G1 G2]. intros x y. cbn [toxrpl toasset].
        destruct (decide (a = x)) as [<-|Hax], (decide (c = y)) as [<-|Hcy].
        + rewrite !lookup_insert. tauto.
        + rewrite lookup_insert, lookup_insert_ne by exact Hcy. split; [congruence|]. intros Hy. apply HM in Hy. congruence.
        + rewrite lookup_insert, lookup_insert_ne by exact Hax. split; [|congruence]. intros Hx. apply HM in Hx. congruence.
        + rewrite !lookup_insert_ne by assumption. apply HM.
      - destruct (toxrpl s !! a) as [c|] eqn:Ea; cbn [of_opt rbind] in E; [|discriminate]. injection E as <-. intros x y. cbn [toxrpl toasset]. rewrite !lookup_delete_Some.
        pose proof (proj1 (HM a c) Ea) as Ec. split; intros [H1 H2].
        + split; [intros <-; apply HM in H2; congruence|apply HM; exact H2].
        + split; [intros <-; apply HM in H2; congruence|apply HM; exact H2]. }
    all: apply wexec_maps in E as [E1 E2]; [|intros; discriminate]; unfold mirror; rewrite E1, E2; exact HM.
  Qed.
  (** C39: the maps between assets and XRPL currencies are inverse to each other. *)
  Theorem C39_bijective_partial : forall ops, along wstp mgood ops winit -> let s := run wstp ops winit in
    forall a c, toxrpl s !! a = Some c <-> toasset s !! c = Some a.
  Proof.
    intros ops Ha s. apply (run_along wstp mgood mirror ltac:(intros x o; apply wstep_mirror) ops winit Ha).
    intros a c. cbn [winit toxrpl toasset]. rewrite !lookup_empty. split; discriminate.
  Qed.
End amounts.

(** ** Witnesses.  XRP 2, ROOT 1, bridge account 99; at most 3 delayed payments per block, 10 blocks at a time;
    reads cost 1, writes 2.  Asset 7 has 6 decimals, asset 8 has 100.  The codec accepts exponents from -96 to 80. *)
Definition decs (a : N) : N := if a =? 8 then 100 else 6.
Definition xrpl_codec (m d dec c : N) : bool := (dec <=? d + 96) && (d <=? dec + 80).
Local Notation wt := (wstep 2 1 99 3 10 1 2 decs xrpl_codec).
Definition setup : list wop := [WDoorAddr true; WFee 5; WNext 1 100; WMint 2 4 1000; WMint 7 4 123456789012345678901; WMint 8 4 900; WMap true 7 (Some 70); WMap true 8 (Some 80); WDelay 2 (Some (100, 2)); WDelay 8 (Some (1, 1))].
Definition later : list wop := setup ++ [WWithdraw 4 2 200 33 (Some 6); WWithdraw 4 2 300 33 None; WWithdraw 4 7 123456789012345678901 33 None; WIdle 100; WIdle 100; WIdle 20; WIdle 100].
Example C37_example : along wt (wgood) later winit /\
  wlog (run wt later winit) =
   [WSent (Some 1) 3 (WTx 4 2 300 33 None 2 5 0) (EDrops 300); WSent (Some 0) 2 (WTx 4 2 200 33 (Some 6) 1 5 0) (EDrops 200);
    WSent None 0 (WTx 4 7 123456789012345600000 33 None 3 5 70) (EIssued 1234567890123456 5 6 70);
    WDelayed 1 2 (WTx 4 2 300 33 None 2 5 0); WDelayed 0 2 (WTx 4 2 200 33 (Some 6) 1 5 0)].
Proof. split; [cbn -[wstep]; repeat split|]; vm_compute; reflexivity. Qed.
Example C37_ample_example : along wt (ample 3 1 2) (firstn 14 later) winit /\ nextblk (run wt (firstn 14 later) winit) = 1.
Proof. split; [cbn -[wstep]; repeat split|]; vm_compute; reflexivity. Qed.
(** C37 refuted: the payment cannot be encoded, the account has been charged, and the payment is dropped without any record. *)
Theorem C37_dropped_refuted : exists ops, along wt wgood ops winit /\ let s := run wt ops winit in
  balance (wbk s) 8 4 = 800 /\ issuance (wbk s) 8 = 800 /\ dpay s !! 0 = None /\
  forall ops', ~ exists b e, In (WSent (Some 0) b (WTx 4 8 100 33 None 1 5 80) e) (wlog (run wt (ops ++ ops') winit)).
Proof.
  exists (setup ++ [WWithdraw 4 8 100 33 None; WIdle 100; WIdle 100]). split; [cbn -[wstep]; repeat split; vm_compute; reflexivity|].
  cbv zeta. split; [vm_compute; reflexivity|]. split; [vm_compute; reflexivity|]. split; [vm_compute; reflexivity|].
  intros ops' (b & e & H).
  assert (HS : sound 2 decs xrpl_codec (run wt ((setup ++ [WWithdraw 4 8 100 33 None; WIdle 100; WIdle 100]) ++ ops') winit)).
  { apply run_inv; [|split; [intros id u Hx; cbn [winit dpay] in Hx; rewrite lookup_empty in Hx; discriminate|intros ? ? ? ? []]].
    intros s op HS. unfold wstep. destruct (wexec _ _ _ _ _ _ _ _ _ s op) as [s'|] eqn:E; cbn [commit]; [exact (wexec_sound _ _ _ _ _ _ _ _ _ _ _ _ HS E)|exact HS]. }
  destruct (proj2 HS _ _ _ _ H) as [_ He]. vm_compute in He. discriminate.
Qed.
(** C38 refuted for XRP amounts beyond 64 bits: one drop more is burned than signed. *)
Theorem C38_drops_refuted : exists ops t n, In (WSent None 0 t (EDrops n)) (wlog (run wt ops winit)) /\ w_amt t = n + 1.
Proof.
  exists [WDoorAddr true; WFee 5; WNext 1 100; WMint 2 4 (2 ^ 64 + 5); WWithdraw 4 2 (2 ^ 64) 33 None], (WTx 4 2 (2 ^ 64) 33 None 1 5 0), (2 ^ 64 - 1).
  split; [vm_compute; left; reflexivity|vm_compute; reflexivity].
Qed.
(** C39 refuted: two assets for one currency (withdrawals of the first pay out a currency whose deposits credit the second) ... *)
Theorem C39_shared_refuted : exists ops, let s := run wt ops winit in toxrpl s !! 7 = Some 70 /\ toxrpl s !! 9 = Some 70 /\ toasset s !! 70 = Some 9.
Proof. exists [WMap true 7 (Some 70); WMap true 9 (Some 70)]. vm_compute. auto. Qed.
(** ... a remapped asset keeps its old currency's deposits, and unmapping one of two sharing assets stops the other. *)
Theorem C39_stale_refuted : exists ops ops2, (let s := run wt ops winit in toxrpl s !! 7 = Some 71 /\ toasset s !! 70 = Some 7) /\
  (let s := run wt ops2 winit in toxrpl s !! 7 = Some 70 /\ toasset s !! 70 = None).
Proof. exists [WMap true 7 (Some 70); WMap true 7 (Some 71)], [WMap true 9 (Some 70); WMap true 7 (Some 70); WMap true 9 None]. vm_compute. auto. Qed.
Example C39_example : along wt mgood [WMap true 7 (Some 70); WMap true 8 (Some 80); WMap true 7 None; WMap true 9 (Some 70)] winit /\
  toasset (run wt [WMap true 7 (Some 70); WMap true 8 (Some 80); WMap true 7 None; WMap true 9 (Some 70)] winit) !! 70 = Some 9.
Proof. split; [cbn -[wstep]; repeat split|]; vm_compute; reflexivity. Qed.
Example C38_example : let s := run wt later winit in balance (wbk s) 7 4 = 78901 /\ balance (wbk s) 2 4 = 485 /\ issuance (wbk s) 2 + all_taken 2 2 (wlog s) = 1000.
Proof. vm_compute. auto. Qed.

Print Assumptions C37_once_partial.
Print Assumptions C37_only_delayed.
Print Assumptions C37_catches_up.
Print Assumptions C37_progress.
Print Assumptions C37_on_time_partial.
Print Assumptions C37_dropped_refuted.
Print Assumptions C38_encoded_exact_partial.
Print Assumptions C38_account.
Print Assumptions C38_supply.
Print Assumptions C38_drops_refuted.
Print Assumptions C39_bijective_partial.
Print Assumptions C39_shared_refuted.
Print Assumptions C39_stale_refuted.
