(** Property C200: requested eth_calls are answered one after the other, with what the notaries agree on. *)
From Verif Require Import CallQProofs EthyModel NotaryModel.

(** ** Spec *)
(** A request is answered when the caller was told something and it is open no more. *)
Definition is_open (q : cq) (id : N) : Prop := creqs (cst q) !! id <> None.
Definition answered (q : cq) (id : N) : Prop := ~ is_open q id /\ exists r, In (id, r) (cbs (cst q)).
(** Nothing changes the notaries. *)
Definition undisturbed (h : list hist) : Prop := forall o, In o h -> match o with HDo (CKeys _) | HDo (CVals _) => False | _ => True end.
(** The worker of each of [n] notaries runs at least once. *)
Definition all_run (n : nat) (h : list hist) : Prop := forall i, (i < n)%nat -> exists t who, In (HRound t who) h /\ In i who.
(** Open requests that are older. *)
Definition older (q : cq) (id : N) (l : list N) : Prop := NoDup l /\ forall x, In x l <-> is_open q x /\ x < id.

Section spec.
  Variables (thr : N) (stored : N -> creq) (nd : N -> nat -> node).
  Local Notation step := (hstep thr stored nd).
  Definition reached (ks : list N) (h : list hist) : cq := run step h (cq0 ks).
  Definition short (h : list hist) : Prop := N.of_nat (length h) < 2 ^ 64.

  Lemma calm_of h : undisturbed h -> Forall calm h.
  Proof. intros H. apply Forall_forall. intros o Ho. apply elem_of_list_In in Ho. exact (H o Ho). Qed.
  Lemma QI0 ks : QI (cq0 ks).
  Proof.
    constructor; cbn [cq0 queue cst cinit creqs].
    - constructor.
    - intros id. rewrite lookup_empty. split; [intros []|congruence].
    - intros id [].
  Qed.
  Lemma reached_app ks a b : reached ks (a ++ b) = run step b (reached ks a).
  Proof. unfold reached, run. apply fold_left_app. Qed.

  (** C200, first part: whatever happens, also when notaries change, the queue holds the open requests, each once, oldest first. *)
  Theorem C200_queue : forall ks h, short h -> let q := reached ks h in
    StronglySorted N.lt (queue q) /\ (forall id, In id (queue q) <-> is_open q id).
  Proof.
    intros ks h Hs. destruct (run_QI thr stored nd h (cq0 ks) (QI0 ks)) as [[A B _] _]; [exact Hs|]. split; assumption.
  Qed.

  Section settled.
    Hypothesis Ht2 : thr <= 100.
    Variable ks : list N.
    Hypothesis Hks : NoDup ks.
    Hypothesis Hne : ks <> [].

    Lemma head_goes q id h : J ks (cst q) -> QI q -> undisturbed h -> nextc (cst q) + N.of_nat (length h) < 2 ^ 64 ->
      is_open q id -> (forall x, is_open q x -> id <= x) -> all_run (length ks) h -> answered (run step h q) id.
    Proof.
      intros HJ HQ Hu Hb Ho Hmin Hall. apply calm_of in Hu.
      assert (W : waiting id (fun _ => False) q).
      { split; [exact Ho|]. split; [intros x Hx; apply Hmin, (qi_open _ HQ), Hx|]. split; [apply (qi_new _ HQ), (qi_open _ HQ), Ho|intros k []]. }
      destruct (waiting_run thr stored nd Ht2 ks Hks Hne id h (fun _ => False) q Hu Hb HJ HQ (or_intror W)) as [(A & _ & C)|(A & B & B' & C)].
      - split; [intros H; apply H, A|exact C].
      - exfalso. apply (all_voted thr stored nd Ht2 ks Hks id (run step h q)); [apply J_run; assumption|].
        split; [exact A|]. split; [exact B|]. split; [exact B'|]. intros k Hk. apply C. right.
        apply In_nth_error in Hk as [i Hi]. assert (Hl : (i < length ks)%nat) by (apply nth_error_Some; congruence).
        destruct (Hall i Hl) as (t & who & H1 & H2). exists (HRound t who). split; [exact H1|]. exists i. auto.
    Qed.
    Lemma reached_inv h : undisturbed h -> short h -> J ks (cst (reached ks h)) /\ QI (reached ks h) /\ nextc (cst (reached ks h)) <= N.of_nat (length h).
    Proof.
      intros Hu Hs. destruct (run_QI thr stored nd h (cq0 ks) (QI0 ks)) as [A B]; [exact Hs|]. cbn [cq0 cst cinit nextc] in B.
      split; [|split; [exact A|unfold reached; lia]]. apply (J_run thr stored nd Ht2 ks Hks Hne); [apply calm_of, Hu|]. apply (J0 thr stored nd Ht2 ks Hks Hne).
    Qed.
    (** C200, second part: the oldest open request is answered once every notary's worker has run, whatever else is asked and
        whatever anybody votes meanwhile. *)
    Theorem C200_turn : forall before h id, undisturbed (before ++ h) -> short (before ++ h) ->
      is_open (reached ks before) id -> (forall x, is_open (reached ks before) x -> id <= x) ->
      all_run (length ks) h -> answered (reached ks (before ++ h)) id.
    Proof.
      intros a h id Hu Hs Ho Hm Hall. unfold short in Hs. rewrite app_length in Hs. destruct (reached_inv a) as (A & B & C).
      - intros o H. apply Hu, in_or_app. auto.
      - unfold short. lia.
      - rewrite reached_app. apply head_goes; auto; [|lia]. intros o H. apply Hu, in_or_app. auto.
    Qed.
    Lemma min_open q id : QI q -> is_open q id -> exists m, is_open q m /\ m <= id /\ forall x, is_open q x -> m <= x.
    Proof.
      intros [A B _] Ho. destruct (queue q) as [|m l] eqn:E; [exfalso; apply (proj2 (B id)) in Ho; exact Ho|]. exists m.
      assert (Hm : forall x, is_open q x -> m <= x).
      { intros x Hx. apply (proj2 (B x)) in Hx. inversion A as [|? ? _ A2]; subst. rewrite Forall_forall in A2.
        destruct Hx as [->|Hx]; [lia|]. specialize (A2 x ltac:(apply elem_of_list_In, Hx)). lia. }
      split; [apply B; left; reflexivity|]. split; [apply Hm, Ho|exact Hm].
    Qed.
    (** What is open later is new or was open before. *)
    Lemma open_back h : forall q x, QI q -> nextc (cst q) + N.of_nat (length h) < 2 ^ 64 -> undisturbed h ->
      is_open (run step h q) x -> x < nextc (cst q) -> is_open q x.
    Proof.
      induction h as [|o h IH]; intros q x HQ Hb Hu Hx Hlt; [exact Hx|]. cbn [length] in Hb.
      change (run step (o :: h) q) with (run step h (step q o)) in Hx.
      destruct (hstep_QI thr stored nd q o HQ) as [H1 H2]; [lia|]. apply IH in Hx; [|exact H1|lia| |lia].
      2:{ intros o' Ho'. apply Hu. right. exact Ho'. }
      assert (V : forall q' cl i y r, is_open (qdo thr q' (CVote cl i y r)) x -> is_open q' x).
      { intros q' cl i y r Ho. unfold is_open, qdo in *. cbn [cst] in Ho. destruct (N.eq_dec x y) as [->|Hn].
        - intros E. apply Ho, vote_gone, E.
        - destruct (vote_frame thr (cst q') cl i y r) as (_ & _ & _ & F). rewrite F in Ho by exact Hn. exact Ho. }
      destruct o as [t who|o]; cbn [hstep] in Hx.
      - revert Hx. apply (round_ind thr stored nd (fun q' => is_open q' x -> is_open q x)); [|auto]. intros q' i y r Hq' H. eapply Hq', V, H.
      - destruct o as [|cl i y r|?|?]; [|eapply V, Hx|exact Hx|exact Hx].
        unfold is_open, qdo, cstep in *. cbn [cst cexec commit] in Hx. unfold ccall in Hx. cbn [creqs] in Hx.
        rewrite lookup_insert_ne in Hx by lia. exact Hx.
    Qed.
    Lemma answered_stays q id h : QI q -> answered q id -> id < nextc (cst q) -> undisturbed h -> nextc (cst q) + N.of_nat (length h) < 2 ^ 64 -> answered (run step h q) id.
    Proof.
      revert q. induction h as [|o h IH]; intros q HQ Ha Hlt Hu Hb; [exact Ha|]. cbn [length] in Hb.
      change (run step (o :: h) q) with (run step h (step q o)). destruct (hstep_QI thr stored nd q o HQ) as [H1 H2]; [lia|].
      destruct Ha as [A1 A2]. assert (A3 : creqs (cst q) !! id = None) by (destruct (creqs (cst q) !! id) eqn:E; [exfalso; apply A1; unfold is_open; congruence|reflexivity]).
      assert (C : closed id (step q o)).
      { apply closed_step; [exact Ht2|apply (Hu o); left; reflexivity|lia|]. split; [exact A3|]. split; [exact Hlt|exact A2]. }
      destruct C as (C1 & C2 & C3). apply IH; [exact H1|split; [intros H; apply H, C1|exact C3]|exact C2| |lia].
      intros o' Ho'. apply Hu. right. exact Ho'.
    Qed.
    (** C200, third part: with at most [n] older requests open, a request is answered when every notary's worker has run [n + 1]
        times over. *)
    Theorem C200_all : forall before hs id l, undisturbed (before ++ concat hs) -> short (before ++ concat hs) ->
      is_open (reached ks before) id -> older (reached ks before) id l -> (length l < length hs)%nat ->
      (forall h, In h hs -> all_run (length ks) h) -> answered (reached ks (before ++ concat hs)) id.
    Proof.
      intros a hs id l Hu Hs Ho Hl Hlen Hall. unfold short in Hs. rewrite app_length in Hs.
      destruct (reached_inv a) as (A & B & C); [intros o H; apply Hu, in_or_app; auto|unfold short; lia|]. rewrite reached_app.
      assert (Hu' : undisturbed (concat hs)) by (intros o H; apply Hu, in_or_app; auto).
      assert (Hb : nextc (cst (reached ks a)) + N.of_nat (length (concat hs)) < 2 ^ 64) by lia.
      clear Hs C Hu. revert l A B Ho Hl Hlen Hb. generalize (reached ks a). revert Hu'.
      induction hs as [|h hs IH]; intros Hu q l A B Ho Hl Hlen Hb; [cbn in Hlen; lia|].
      cbn [concat] in *. rewrite app_length in Hb. unfold run. rewrite fold_left_app. fold (run step h q). fold (run step (concat hs) (run step h q)).
      assert (Hu1 : undisturbed h) by (intros o H; apply Hu, in_or_app; auto).
      assert (Hu2 : undisturbed (concat hs)) by (intros o H; apply Hu, in_or_app; auto).
      destruct (run_QI thr stored nd h q B) as [Q1 Q2]; [lia|].
      pose proof (J_run thr stored nd Ht2 ks Hks Hne h (calm_of h Hu1) q A) as J1.
      assert (Hid : id < nextc (cst q)) by (apply (qi_new _ B), (qi_open _ B), Ho).
      destruct (min_open q id B Ho) as (m & M1 & M2 & M3).
      pose proof (head_goes q m h A B Hu1 ltac:(lia) M1 M3 (Hall h (or_introl eq_refl))) as Hm.
      destruct (decide (is_open (run step h q) id)) as [Hop|Hcl].
      - assert (m <> id) by (intros ->; apply (proj1 Hm), Hop). destruct Hl as [L1 L2].
        set (l' := List.filter (fun x => match creqs (cst (run step h q)) !! x with Some _ => true | None => false end) l).
        assert (Hl' : older (run step h q) id l').
        { split; [apply NoDup_ListNoDup, List.NoDup_filter, NoDup_ListNoDup, L1|]. intros x. unfold l'. rewrite filter_In, L2. unfold is_open.
          destruct (creqs (cst (run step h q)) !! x) eqn:E.
          - split; [intros [[_ H1] _]; split; [discriminate|exact H1]|intros [_ H1]; split; [|reflexivity]; split; [|exact H1]].
            apply (open_back h q x); auto; try lia. unfold is_open. congruence.
          - split; [intros [_ H1]; discriminate|intros [H1 _]; congruence]. }
        apply (IH ltac:(intros h' H'; apply Hall; right; exact H') Hu2 (run step h q) l' J1 Q1 Hop Hl'); [|lia].
        assert (Hlt : (length l' < length l)%nat); [|cbn [length] in Hlen; lia].
        assert (Hin : In m l) by (apply L2; split; [exact M1|lia]).
        assert (Hc : creqs (cst (run step h q)) !! m = None) by (destruct (creqs (cst (run step h q)) !! m) eqn:E; [exfalso; apply (proj1 Hm); unfold is_open; congruence|reflexivity]).
        unfold l'. clear - Hin Hc. induction l as [|y l IHl]; [destruct Hin|]. cbn [List.filter].
        assert (Hle : forall l, (length (List.filter (fun x => match creqs (cst (run step h q)) !! x with Some _ => true | None => false end) l) <= length l)%nat).
        { clear. induction l as [|z l IH]; [cbn; lia|]. cbn [List.filter length]. destruct (creqs _ !! z); cbn [length]; lia. }
        destruct Hin as [->|Hin]; [rewrite Hc; specialize (Hle l); cbn [length]; lia|]. specialize (IHl Hin).
        destruct (creqs _ !! y); cbn [length]; lia.
      - apply answered_stays; [exact Q1| |lia|exact Hu2|lia].
        assert (W : answered (run step h q) id).
        { split; [exact Hcl|].
          assert (G : forall h q, QI q -> J ks (cst q) -> undisturbed h -> nextc (cst q) + N.of_nat (length h) < 2 ^ 64 -> is_open q id ->
            is_open (run step h q) id \/ exists r, In (id, r) (cbs (cst (run step h q)))).
          { clear - Ht2 Hks Hne. induction h as [|o h IH]; intros q B A Hu Hb Ho; [left; exact Ho|]. cbn [length] in Hb.
            change (run step (o :: h) q) with (run step h (step q o)). destruct (hstep_QI thr stored nd q o B) as [H1 H2]; [lia|].
            assert (Hc : calm o) by (apply (Hu o); left; reflexivity).
            assert (Hu' : undisturbed h) by (intros o' Ho'; apply Hu; right; exact Ho').
            destruct (open_step thr stored nd Ht2 ks Hks Hne id q o Hc) as [(C1 & C2 & C3)|[C1 C2]]; [lia|exact A|exact Ho|apply (qi_new _ B), (qi_open _ B), Ho| |].
            - right. apply answered_stays; [exact H1|split; [intros H; apply H, C1|exact C3]|exact C2|exact Hu'|lia].
            - apply IH; auto; [|lia]. apply J_step; assumption. }
          destruct (G h q B A Hu1 ltac:(lia) Ho) as [H|H]; [contradiction|exact H]. }
        exact W.
    Qed.
    (** C200, fourth part: if so many notaries' nodes give the same answer, whenever asked, and these vote with their workers only,
        the caller is told nothing else, whatever the others do. *)
    Theorem C200_right : forall h id r H, undisturbed h -> short h -> 50 < thr ->
      NoDup H -> (forall k, In k H -> In k ks) -> thr * N.of_nat (length ks) <= 100 * N.of_nat (length H) ->
      (forall t i k, nth_error ks i = Some k -> In k H -> told (try_call t (nd t i) (stored id)) = r) ->
      (forall cl i x v k, In (HDo (CVote cl i x v)) h -> x = id -> nth_error ks i = Some k -> ~ In k H) ->
      forall r', In (id, r') (cbs (cst (reached ks h))) -> r' = r.
    Proof.
      intros h id r H Hu Hs Hm Hd Hin Hsh Hans Hf.
      assert (HR : R id r H (cst (reached ks h))); [|apply HR].
      apply (R_run thr stored nd Ht2 ks Hks Hne Hm id r H Hd Hin Hsh Hans); [apply calm_of, Hu| |apply (J0 thr stored nd Ht2 ks Hks Hne)|].
      - apply Forall_forall. intros o Ho. apply elem_of_list_In in Ho. destruct o as [t who|o]; [exact Logic.I|].
        destruct o as [|cl i x v|?|?]; try exact Logic.I. cbn [faithful]. intros Hx k Hk Hin'. exfalso. eapply Hf; eassumption.
      - split; cbn [cq0 cst cinit cvotes cbs]; [|intros r' []]. intros k v _. rewrite lookup_empty. discriminate.
    Qed.
  End settled.
End spec.

(** ** Four notaries; the nodes of the first three answer, that of the last is out of order. *)
Definition enode (i : nat) : node :=
  Node (fun _ => None) (fun _ => if (i <? 3)%nat then Some (Some (EBlock (Some 10) 1000)) else None) (fun _ _ _ => Some (repeat 7 32)).
Definition ereq (id : N) : creq := CReq [id] 1 900 5 10 100.
Definition eans : cres := told (COk (repeat 7 32) 10 1000).
Local Notation erun := (reached 66 ereq (fun _ => enode) [11; 12; 13; 14]).
Definition e_before : list hist := [HDo CCall; HDo CCall; HDo (CVote true 3 1 (RFail 9)); HDo CCall; HRound 100 [3; 0]%nat].
Definition e_after : list hist := [HRound 101 [2; 1]%nat; HDo CCall; HRound 102 [3; 2; 1; 0]%nat].
Lemma e_undisturbed : undisturbed (e_before ++ e_after).
Proof. intros o Ho. repeat (destruct Ho as [<-|Ho]; [exact Logic.I|]). destruct Ho. Qed.
Lemma e_all : all_run 4 e_after.
Proof. intros i Hi. exists 102, [3; 2; 1; 0]%nat. split; [right; right; left; reflexivity|]. do 4 (destruct i as [|i]; [cbn; tauto|]). lia. Qed.
Example C200_example :
  queue (erun e_before) = [0; 1; 2] /\ answered (erun (e_before ++ e_after)) 0 /\
  queue (erun (e_before ++ e_after)) = [2; 3] /\ cbs (cst (erun (e_before ++ e_after))) = [(1, eans); (0, eans)] /\
  (forall r', In (0, r') (cbs (cst (erun (e_before ++ e_after)))) -> r' = eans).
Proof.
  split; [vm_compute; reflexivity|]. split.
  { apply C200_turn.
    - lia.
    - apply (bool_decide_unpack _). vm_compute. exact Logic.I.
    - discriminate.
    - apply e_undisturbed.
    - unfold short. vm_compute. reflexivity.
    - unfold is_open. vm_compute. discriminate.
    - intros x _. lia.
    - exact e_all. }
  split; [vm_compute; reflexivity|]. split; [vm_compute; reflexivity|].
  apply (C200_right 66 ereq (fun _ => enode)) with (H := [11; 12; 13]).
  - lia.
  - apply (bool_decide_unpack _). vm_compute. exact Logic.I.
  - discriminate.
  - apply e_undisturbed.
  - unfold short. vm_compute. reflexivity.
  - lia.
  - apply (bool_decide_unpack _). vm_compute. exact Logic.I.
  - intros k [<-|[<-|[<-|[]]]]; cbn; tauto.
  - vm_compute. discriminate.
  - intros t i k Hi Hk. assert (Hlt : (i < 3)%nat).
    { destruct i as [|[|[|[|i]]]]; [lia|lia|lia| |destruct i; discriminate]. cbn in Hi. injection Hi as <-. destruct Hk as [E|[E|[E|[]]]]; discriminate E. }
    apply Nat.ltb_lt in Hlt. unfold try_call, enode. cbn [get_block]. rewrite Hlt. cbn [bnum btime].
    assert (E : forall b, b && (ctry (ereq 0) <? 10) = false) by (intros []; reflexivity). rewrite E. reflexivity.
  - intros cl i x v k Ho Hx Hk Hin. cbn in Ho.
    repeat (destruct Ho as [Ho|Ho]; [try discriminate Ho; injection Ho as <- <- <- <-; discriminate Hx|]). exact Ho.
Qed.
(** What goes wrong: validators without a notary key count among those still to be heard.  With five validators and four notaries,
    of whom three agree, nothing more is to come, yet the request stays at the head, and none behind it is ever looked at. *)
Definition stuck_at : cq := erun [HDo (CVals 5); HDo CCall; HDo CCall; HRound 100 [0; 1; 2; 3]%nat].
Lemma stuck_ballot t i : ballot 66 ereq (fun _ => enode) t stuck_at i = None.
Proof. destruct i as [|[|[|[|i]]]]; try (vm_compute; reflexivity). unfold ballot. replace (nth_error (ckeys (cst stuck_at)) (S (S (S (S i))))) with (@None N); [reflexivity|]. vm_compute. destruct i; reflexivity. Qed.
Theorem C200_stuck_refuted : queue stuck_at = [0; 1] /\ cbs (cst stuck_at) = [] /\
  (forall k, In k [11; 12; 13; 14] -> cvotes (cst stuck_at) !! (0, k) <> None) /\
  forall rounds, run (hstep 66 ereq (fun _ => enode)) (map (fun x => HRound (fst x) (snd x)) rounds) stuck_at = stuck_at.
Proof.
  split; [vm_compute; reflexivity|]. split; [vm_compute; reflexivity|].
  split; [intros k [<-|[<-|[<-|[<-|[]]]]]; vm_compute; discriminate|].
  induction rounds as [|[t who] rounds IH]; [reflexivity|]. cbn [map fst snd].
  change (run (hstep 66 ereq (fun _ => enode)) (map (fun x => HRound (fst x) (snd x)) rounds) (hstep 66 ereq (fun _ => enode) stuck_at (HRound t who)) = stuck_at).
  replace (hstep 66 ereq (fun _ => enode) stuck_at (HRound t who)) with stuck_at; [exact IH|]. cbn [hstep].
  replace (ballots 66 ereq (fun _ => enode) t stuck_at who) with (@nil cop); [reflexivity|].
  unfold ballots. induction who as [|i who IHw]; [reflexivity|]. cbn [flat_map]. rewrite stuck_ballot. exact IHw.
Qed.

Definition C200_theorems := (C200_queue, C200_turn, C200_all, C200_right, C200_stuck_refuted, C200_example).
Print Assumptions C200_theorems.
