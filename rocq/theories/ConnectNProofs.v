(** Lemmas for Props_ConnectN.v. *)
From stdpp Require Import prelude strings pretty gmap.
From Coq Require Import Ascii NArith ZArith Lia ZifyBool ZifyN ZifyNat.
From Verif Require Import Core Peers Ecla Transfers StaticProofs ConfigProofs Config Props_Config ConnectN.
Open Scope N_scope.
Arguments room : simpl never.
Arguments target : simpl never.
Arguments client_no : simpl never.

(** ** Numbers *)
Lemma take_digits_chars s : Forall decimal (chars s) -> take_digits s = (map (fun c => c - 48) (chars s), "").
Proof.
  induction s as [|x s IH]; [done|]. cbn. intros [Hx Hs]%Forall_cons. rewrite (IH Hs). unfold decimal in Hx.
  by replace ((48 <=? N_of_ascii x) && (N_of_ascii x <=? 57)) with true by lia.
Qed.
Lemma numeral_parse lim s t : numeral s t -> t < lim -> parse_uint lim s = Some t.
Proof.
  intros (ds & Hs & Hne & Hd & Ht) Hlt. unfold parse_uint.
  assert (G : match take_digits ds with (d :: ds, "") => if digits_value (d :: ds) <? lim then Some (digits_value (d :: ds)) else None | _ => None end = Some t).
  { rewrite (take_digits_chars _ Hd). destruct ds as [|x ds]; [done|]. cbn [map chars].
    assert (digits_value (map (fun c => c - 48) (chars (String x ds))) = t) as Hv by (rewrite Ht; apply digits_value_chars).
    cbn [map chars] in Hv. rewrite Hv. by replace (t <? lim) with true by lia. }
  destruct Hs as [->| ->]; [|exact G]. destruct ds as [|x ds]; [done|]. cbn [given].
  destruct (N_of_ascii x =? 43) eqn:E; [|exact G]. exfalso. cbn [chars] in Hd. apply Forall_cons in Hd as [Hd _]. unfold decimal in Hd. lia.
Qed.
Lemma client_no_Some n s k : client_no n s = Some k <-> parse_uint (2^64) s = Some (N.of_nat k) /\ (k < n)%nat.
Proof.
  unfold client_no. destruct (parse_uint (2^64) s) as [v|].
  - destruct (v <? N.of_nat n) eqn:E; split.
    + intros [= <-]. split; [f_equal; lia|lia].
    + intros [[= ->] _]. f_equal. lia.
    + done.
    + intros [[= ->] H]. lia.
  - split; [done|]. by intros [? _].
Qed.
Lemma client_no_pretty n i : (i < n)%nat -> N.of_nat n <= 2^64 -> client_no n (pretty (N.of_nat i)) = Some i.
Proof. intros Hi Hn. apply client_no_Some. split; [|done]. apply parse_uint_pretty. lia. Qed.

(** ** Lists *)
Lemma hrun_app es1 es2 h : hrun (es1 ++ es2) h = (h' ← hrun es1 h; hrun es2 h').
Proof. revert h. induction es1 as [|e es1 IH]; intros h; [done|]. cbn. destruct (hstep e h); [apply IH|done]. Qed.
Lemma hrun_snoc es e h h' : hrun (es ++ [e]) h = Some h' <-> exists h1, hrun es h = Some h1 /\ hstep e h1 = Some h'.
Proof.
  rewrite hrun_app. destruct (hrun es h) as [h1|]; cbn; [|naive_solver]. split.
  - destruct (hstep e h1) eqn:E; [|done]. intros [= <-]. eauto.
  - intros (h2 & [= <-] & ->). done.
Qed.
(** what comes in with an event *)
Definition came (e : hev) : list packet := match e with HNode i p => match tagged i p with Some q => [q] | None => [] end | _ => [] end.
Definition pend (c : client) : list packet := cl_sent c ++ cl_cmd c ++ cl_conn c.

(** ** What a step means for one client *)
Definition for_client (n k : nat) (p : packet) : bool :=
  match p with
  | PForward _ dst _ _ => bool_decide (target n dst = Some k)
  | PBeacon _ addr _ => negb (bool_decide (client_no n addr = Some k))
  | _ => false
  end.
Definition unreg (p : packet) : Prop := match p with PRegister _ _ _ => False | _ => True end.
Global Instance unreg_dec p : Decision (unreg p).
Proof. destruct p; cbn; apply _. Defined.
Definition is_beacon (p : packet) : bool := match p with PBeacon _ _ _ => true | _ => false end.
Inductive view (n k : nat) (e : hev) (c : client) (rx : list packet) (c' : client) (rx' : list packet) : Prop :=
| VMove : filter unreg (pend c') = filter unreg (pend c) -> cl_phase c' <> CDown -> cl_phase c <> CDown ->
    cl_sent c `prefix_of` cl_sent c' -> rx' = rx -> came e = [] -> view n k e c rx c' rx'
| VDown : cl_phase c' = CDown -> cl_sent c' = cl_sent c -> rx' = rx -> came e = [] -> view n k e c rx c' rx'
| VIn : c' = c -> rx' = rx ++ came e -> view n k e c rx c' rx'
| VTake p : rx = p :: rx' -> c' = (if for_client n k p then (if room (cl_conn c) then push p c else c) else c) -> e = HTake ->
    (for_client n k p = true -> room (cl_conn c) = true \/ is_beacon p = true) -> view n k e c rx c' rx'.
Lemma step_length e h h' : hstep e h = Some h' -> length (h_clients h') = length (h_clients h).
Proof.
  destruct h as [cs rx]. cbn. intros H. destruct e as [i|i|i|i|i|i p|]; cbn in H.
  7: { destruct rx as [|[] rx]; [done| |injection H as <-; cbn; by rewrite imap_length| |by injection H as <-..].
       - by injection H as <-.
       - destruct (target (length cs) dst) as [k|]; [|by injection H as <-]. destruct (cs !! k) as [c|]; [|done]. destruct (room (cl_conn c)); [|done].
         injection H as <-. cbn. by rewrite insert_length. }
  all: destruct (cs !! i) as [[[|q conn] [|q' cmd] [] sent]|] eqn:Ei; try done; repeat (case_match; try done); injection H as <-; cbn; by rewrite ?insert_length.
Qed.
Lemma pend_move q conn cmd ph sent : pend (Client conn (cmd ++ [q]) ph sent) = pend (Client (q :: conn) cmd ph sent).
Proof. unfold pend. cbn. by rewrite <- (app_assoc cmd). Qed.
Lemma pend_write q conn cmd ph sent : pend (Client conn cmd ph (sent ++ [q])) = pend (Client conn (q :: cmd) ph sent).
Proof. unfold pend. cbn. by rewrite <- (app_assoc sent). Qed.
Lemma step_view e h h' k c c' : hstep e h = Some h' -> h_clients h !! k = Some c -> h_clients h' !! k = Some c' ->
  view (length (h_clients h)) k e c (h_rx h) c' (h_rx h').
Proof.
  destruct h as [cs rx]. cbn [h_clients h_rx]. intros H Hc Hc'.
  assert (Hsame : forall cs' i x, h' = Hub (<[i := x]> cs') rx -> cs' = cs -> came e = [] -> i <> k -> view (length cs) k e c rx c' (h_rx h')).
  { intros cs' i x -> -> He Hne. cbn in Hc'. rewrite list_lookup_insert_ne in Hc' by done. simplify_eq. apply VIn; [done|]. cbn. by rewrite He, app_nil_r. }
  assert (Hupd : forall i x, h' = Hub (<[i := x]> cs) rx -> i = k -> c' = x).
  { intros i x -> ->. cbn in Hc'. rewrite list_lookup_insert in Hc' by (by eapply lookup_lt_Some). by injection Hc' as <-. }
  destruct e as [i|i|i|i|i|i p|]; cbn in H.
  7: { destruct rx as [|p rx]; [done|].
    destruct p as [nm bb pt|e addr blk|src dst id data|e nid|why]; cbn in H.
    - injection H as <-. cbn in *. simplify_eq. by eapply (VTake _ _ _ _ _ _ _ _).
    - injection H as <-. cbn in *. rewrite list_lookup_imap, Hc in Hc'. cbn in Hc'. injection Hc' as <-. eapply (VTake _ _ _ _ _ _ _ (PBeacon e addr blk)); [done| |done|by right].
      cbn. unfold announce. case_bool_decide; cbn; done.
    - destruct (target (length cs) dst) as [j|] eqn:Et.
      + destruct (cs !! j) as [cj|] eqn:Ej; [|done]. destruct (room (cl_conn cj)) eqn:Er; [|done]. injection H as <-. cbn in *.
        eapply (VTake _ _ _ _ _ _ _ (PForward src dst id data)); [done| |done|].
        * cbn. rewrite Et. destruct (decide (j = k)) as [->|Hne].
          -- rewrite bool_decide_true by done. simplify_eq. rewrite Er. rewrite list_lookup_insert in Hc' by (by eapply lookup_lt_Some). by injection Hc' as <-.
          -- rewrite bool_decide_false by congruence. rewrite list_lookup_insert_ne in Hc' by done. by simplify_eq.
        * cbn. rewrite Et. intros Hb. apply bool_decide_eq_true in Hb as [= ->]. simplify_eq. by left.
      + injection H as <-. cbn in *. simplify_eq. eapply (VTake _ _ _ _ _ _ _ (PForward src dst id data)); [done| |done|]; cbn; by rewrite Et.
    - injection H as <-. cbn in *. simplify_eq. by eapply (VTake _ _ _ _ _ _ _ _).
    - injection H as <-. cbn in *. simplify_eq. by eapply (VTake _ _ _ _ _ _ _ _). }
  6: { destruct (cs !! i) as [[conn cmd [] sent]|]; try done. apply VIn.
    - destruct (tagged i p); [destruct (room rx); [|done]|]; injection H as <-; cbn in Hc'; congruence.
    - cbn. destruct (tagged i p) as [q|]; [destruct (room rx); [|done]|]; injection H as <-; cbn; by rewrite ?app_nil_r. }
  all: destruct (cs !! i) as [[conn cmd ph sent]|] eqn:Ei; [|done]; (destruct (decide (i = k)) as [->|Hne];
    [assert (c = Client conn cmd ph sent) as -> by congruence|repeat (case_match; try done); simplify_eq; by eapply Hsame]).
  - destruct ph; try done. injection H as <-. pose proof (Hupd _ _ eq_refl eq_refl) as ->. by apply VMove.
  - destruct ph; try done. destruct (room cmd) eqn:Er; [|done]. injection H as <-. pose proof (Hupd _ _ eq_refl eq_refl) as ->.
    apply VMove; try done. unfold pend. cbn. rewrite !filter_app, (filter_cons_False unreg (PRegister _ _ _)) by (by intros []). by rewrite filter_nil, app_nil_r.
  - destruct ph; try done; injection H as <-; pose proof (Hupd _ _ eq_refl eq_refl) as ->; by apply VDown.
  - destruct conn as [|q conn]; [done|]. destruct ph; (destruct (room cmd); [|done]) || idtac; injection H as <-; pose proof (Hupd _ _ eq_refl eq_refl) as ->;
      try (by apply VDown); (apply VMove; try done; by rewrite pend_move).
  - destruct cmd as [|q cmd]; [by destruct ph|]. destruct ph; try done; injection H as <-; pose proof (Hupd _ _ eq_refl eq_refl) as ->; [|by apply VDown].
    apply VMove; try done; [by rewrite pend_write|cbn; by apply prefix_app_r].
Qed.

(** ** What a daemon is due *)
(** the client a destination names: the number before the first colon *)
Definition names (dst : string) (k : nat) : Prop := parse_uint (2^64) (default "" (head (split_at ":"%char dst))) = Some (N.of_nat k).
Global Instance names_dec dst k : Decision (names dst k).
Proof. unfold names. apply _. Defined.
Lemma target_names n dst k : (k < n)%nat -> target n dst = Some k <-> names dst k.
Proof. intros Hk. unfold target, names. rewrite client_no_Some. naive_solver. Qed.
(** the bundles the daemons handed over for daemon [k], each with the number of the
    daemon it comes from, and the beacons of the others *)
Definition forwards_for (k : nat) (es : list hev) : list packet :=
  omap (fun e => match e with
                 | HNode i (PForward _ dst id data) => if decide (names dst k) then Some (PForward (pretty (N.of_nat i)) dst id data) else None
                 | _ => None end) es.
Definition beacons_for (k : nat) (es : list hev) : list packet :=
  omap (fun e => match e with
                 | HNode i (PBeacon b _ blk) => if decide (i = k) then None else Some (PBeacon b (pretty (N.of_nat i)) blk)
                 | _ => None end) es.
Definition forwards (l : list packet) : list packet := filter (fun p => match p with PForward _ _ _ _ => true | _ => false end = true) l.
Definition beacons (l : list packet) : list packet := filter (fun p => is_beacon p = true) l.
(** those among the packets that wait for the main loop *)
Definition due_f (n k : nat) (rx : list packet) : list packet := filter (fun p => for_client n k p = true) (forwards rx).
Definition due_b (n k : nat) (rx : list packet) : list packet := filter (fun p => for_client n k p = true) (beacons rx).
Lemma forwards_app l1 l2 : forwards (l1 ++ l2) = forwards l1 ++ forwards l2.
Proof. apply filter_app. Qed.
Lemma beacons_app l1 l2 : beacons (l1 ++ l2) = beacons l1 ++ beacons l2.
Proof. apply filter_app. Qed.
Lemma due_f_app n k l1 l2 : due_f n k (l1 ++ l2) = due_f n k l1 ++ due_f n k l2.
Proof. unfold due_f. by rewrite forwards_app, filter_app. Qed.
Lemma due_b_app n k l1 l2 : due_b n k (l1 ++ l2) = due_b n k l1 ++ due_b n k l2.
Proof. unfold due_b. by rewrite beacons_app, filter_app. Qed.
Lemma forwards_unreg l : forwards (filter unreg l) = forwards l.
Proof.
  unfold forwards. rewrite list_filter_filter. apply list_filter_iff. intros []; naive_solver.
Qed.
Lemma beacons_unreg l : beacons (filter unreg l) = beacons l.
Proof. unfold beacons. rewrite list_filter_filter. apply list_filter_iff. intros []; naive_solver. Qed.
Lemma forwards_one p : forwards [p] = match p with PForward _ _ _ _ => [p] | _ => [] end.
Proof. by destruct p. Qed.
Lemma beacons_one p : beacons [p] = if is_beacon p then [p] else [].
Proof. by destruct p. Qed.
Lemma due_one n k p : filter (fun p => for_client n k p = true) [p] = if for_client n k p then [p] else [].
Proof. rewrite filter_cons, filter_nil. by destruct (for_client n k p). Qed.
Lemma due_f_came n k e : (k < n)%nat -> due_f n k (came e) = forwards_for k [e].
Proof.
  intros Hk. destruct e as [| | | | |i p|]; try done. destruct p; try done. unfold came, tagged, due_f. rewrite forwards_one, due_one. cbn.
  pose proof (target_names n dst k Hk). destruct (decide (names dst k)) as [Hn|Hn].
  - by rewrite bool_decide_true by naive_solver.
  - by rewrite bool_decide_false by naive_solver.
Qed.
Lemma due_b_came n k e : (forall i p, e = HNode i p -> (i < n)%nat) -> N.of_nat n <= 2^64 -> due_b n k (came e) = beacons_for k [e].
Proof.
  intros Hi Hn. destruct e as [| | | | |i p|]; try done. destruct p; try done. unfold came, tagged, due_b. rewrite beacons_one. cbn [is_beacon]. rewrite due_one. cbn.
  rewrite client_no_pretty by (try done; by eapply Hi). destruct (decide (i = k)) as [->|Hne].
  - by rewrite bool_decide_true.
  - by rewrite bool_decide_false by congruence.
Qed.
Lemma pend_push p c : pend (push p c) = pend c ++ [p].
Proof. unfold pend. cbn. by rewrite !app_assoc. Qed.
Lemma start_clients n k c : h_clients (hub0 n) !! k = Some c -> c = Client [] [] CWait [].
Proof. cbn. intros H. apply lookup_replicate in H as [-> _]. done. Qed.
Lemma run_length es n h : hrun es (hub0 n) = Some h -> length (h_clients h) = n.
Proof.
  revert h. induction es as [|e es IH] using rev_ind; intros h H; [injection H as <-; apply replicate_length|].
  apply hrun_snoc in H as (h1 & H1 & Hs). rewrite (step_length _ _ _ Hs). by apply IH.
Qed.
Lemma forwards_for_snoc k es e : forwards_for k (es ++ [e]) = forwards_for k es ++ forwards_for k [e].
Proof. apply omap_app. Qed.
Lemma beacons_for_snoc k es e : beacons_for k (es ++ [e]) = beacons_for k es ++ beacons_for k [e].
Proof. apply omap_app. Qed.
Lemma run_forwards es n h k c : hrun es (hub0 n) = Some h -> h_clients h !! k = Some c ->
  (cl_phase c <> CDown -> forwards (pend c) ++ due_f n k (h_rx h) = forwards_for k es) /\ forwards (cl_sent c) `prefix_of` forwards_for k es.
Proof.
  revert h c. induction es as [|e es IH] using rev_ind; intros h c H Hc.
  { injection H as <-. apply start_clients in Hc as ->. done. }
  apply hrun_snoc in H as (h1 & H1 & Hs). pose proof (run_length _ _ _ H1) as Hl.
  assert (Hk : (k < n)%nat) by (rewrite <- Hl, <- (step_length _ _ _ Hs); by eapply lookup_lt_Some).
  destruct (h_clients h1 !! k) as [c1|] eqn:E1; [|apply lookup_ge_None in E1; lia].
  destruct (IH _ _ H1 E1) as [IHa IHb]. pose proof (step_view _ _ _ _ _ _ Hs E1 Hc) as Hv. rewrite Hl in Hv. clear IH.
  rewrite forwards_for_snoc, <- (due_f_came n k e Hk).
  assert (Hpre : cl_phase c <> CDown -> forwards (pend c) ++ due_f n k (h_rx h) = forwards_for k es ++ due_f n k (came e) -> forwards (cl_sent c) `prefix_of` forwards_for k es ++ due_f n k (came e)).
  { intros _ <-. unfold pend. rewrite forwards_app, <- app_assoc. by apply prefix_app_r. }
  destruct Hv as [Hp Hd Hd1 Hpr Er Ec|Hd Hsn Er Ec| -> Er|p Er -> -> Hroom].
  - assert (G : forwards (pend c) ++ due_f n k (h_rx h) = forwards_for k es ++ due_f n k (came e)).
    { rewrite Er, Ec, app_nil_r, <- (IHa Hd1). f_equal. by rewrite <- forwards_unreg, Hp, forwards_unreg. }
    split; [by intros _|by apply Hpre].
  - split; [done|]. rewrite Hsn. by apply prefix_app_r.
  - split; [|by apply prefix_app_r]. intros Hd. by rewrite Er, due_f_app, app_assoc, (IHa Hd).
  - cbn [came]. change (due_f n k []) with (@nil packet) in *. rewrite app_nil_r in *.
    assert (Hsent : cl_sent (if for_client n k p then if room (cl_conn c1) then push p c1 else c1 else c1) = cl_sent c1) by (by repeat case_match).
    assert (Hph : cl_phase (if for_client n k p then if room (cl_conn c1) then push p c1 else c1 else c1) = cl_phase c1) by (by repeat case_match).
    split; [|by rewrite Hsent]. intros Hd. rewrite Hph in Hd. rewrite <- (IHa Hd), Er. change (p :: h_rx h) with ([p] ++ h_rx h). rewrite due_f_app, app_assoc. f_equal.
    unfold due_f. rewrite forwards_one. destruct p; try (rewrite filter_nil, app_nil_r).
    2: { destruct (for_client _ _ _); [|done]. destruct (room _); [|done]. by rewrite pend_push, forwards_app, forwards_one, app_nil_r. }
    2: { rewrite due_one. destruct (for_client _ _ _); [|by rewrite app_nil_r]. destruct Hroom as [Hr|Hr]; [done| |done].
         by rewrite Hr, pend_push, forwards_app, forwards_one. }
    all: done.
Qed.
Lemma step_node_lt i p h h' : hstep (HNode i p) h = Some h' -> (i < length (h_clients h))%nat.
Proof. destruct h as [cs rx]. cbn. intros H. destruct (cs !! i) eqn:E; [|done]. by eapply lookup_lt_Some. Qed.
Lemma take_beacons n k p c1 rx : let c := if for_client n k p then if room (cl_conn c1) then push p c1 else c1 else c1 in
  beacons (pend c) ++ due_b n k rx `sublist_of` beacons (pend c1) ++ due_b n k (p :: rx) /\
  (room (cl_conn c1) = true -> beacons (pend c) ++ due_b n k rx = beacons (pend c1) ++ due_b n k (p :: rx)).
Proof.
  intros c. change (p :: rx) with ([p] ++ rx). rewrite due_b_app, app_assoc.
  assert (G : room (cl_conn c1) = true -> beacons (pend c) = beacons (pend c1) ++ due_b n k [p]).
  { intros Hr. subst c. rewrite Hr. unfold due_b. rewrite beacons_one. destruct (is_beacon p) eqn:Eb.
    - rewrite due_one. destruct (for_client n k p); [|by rewrite app_nil_r]. by rewrite pend_push, beacons_app, beacons_one, Eb.
    - rewrite filter_nil, app_nil_r. destruct (for_client n k p); [|done]. by rewrite pend_push, beacons_app, beacons_one, Eb, app_nil_r. }
  split; [|intros Hr; by rewrite (G Hr)]. apply sublist_app; [|done]. destruct (room (cl_conn c1)); [by rewrite G|]. subst c.
  destruct (for_client n k p); by apply sublist_inserts_r.
Qed.
(** always room in the channel of client [k] when the main loop takes a packet *)
Definition ample (n k : nat) (es : list hev) : Prop :=
  forall es1 es2 h c, es = es1 ++ HTake :: es2 -> hrun es1 (hub0 n) = Some h -> h_clients h !! k = Some c -> (length (cl_conn c) < 100)%nat.
Lemma run_beacons es n h k c : N.of_nat n <= 2^64 -> hrun es (hub0 n) = Some h -> h_clients h !! k = Some c ->
  (cl_phase c <> CDown -> beacons (pend c) ++ due_b n k (h_rx h) `sublist_of` beacons_for k es /\
     (ample n k es -> beacons (pend c) ++ due_b n k (h_rx h) = beacons_for k es)) /\
  beacons (cl_sent c) `sublist_of` beacons_for k es.
Proof.
  intros Hn. revert h c. induction es as [|e es IH] using rev_ind; intros h c H Hc.
  { injection H as <-. apply start_clients in Hc as ->. done. }
  apply hrun_snoc in H as (h1 & H1 & Hs). pose proof (run_length _ _ _ H1) as Hl.
  assert (Hk : (k < n)%nat) by (rewrite <- Hl, <- (step_length _ _ _ Hs); by eapply lookup_lt_Some).
  destruct (h_clients h1 !! k) as [c1|] eqn:E1; [|apply lookup_ge_None in E1; lia].
  destruct (IH _ _ H1 E1) as [IHa IHb]. pose proof (step_view _ _ _ _ _ _ Hs E1 Hc) as Hv. rewrite Hl in Hv. clear IH.
  rewrite beacons_for_snoc, <- (due_b_came n k e) by (try done; intros i p ->; rewrite <- Hl; by eapply step_node_lt).
  assert (Ham : ample n k (es ++ [e]) -> ample n k es).
  { intros Ha es1 es2 h2 c2 -> Hr Hc2. eapply (Ha es1 (es2 ++ [e])); [|done|done]. by rewrite <- app_assoc. }
  destruct Hv as [Hp Hd Hd1 Hpr Er Ec|Hd Hsn Er Ec| -> Er|p Er -> -> Hroom].
  - destruct (IHa Hd1) as [IH1 IH2].
    assert (G : beacons (pend c) ++ due_b n k (h_rx h) = beacons (pend c1) ++ due_b n k (h_rx h1)).
    { rewrite Er. f_equal. by rewrite <- beacons_unreg, Hp, beacons_unreg. }
    rewrite Ec. change (due_b n k []) with (@nil packet). rewrite app_nil_r. rewrite G. split; [intros _; split; [done|auto]|].
    etrans; [|exact IH1]. rewrite <- G. unfold pend. rewrite beacons_app, <- app_assoc. by apply sublist_inserts_r.
  - split; [done|]. rewrite Hsn. by apply sublist_inserts_r.
  - split; [|by apply sublist_inserts_r]. intros Hd. destruct (IHa Hd) as [IH1 IH2]. rewrite Er, due_b_app, app_assoc. split; [by apply sublist_app|].
    intros Ha. by rewrite IH2 by auto.
  - cbn [came]. change (due_b n k []) with (@nil packet) in *. rewrite app_nil_r in *.
    assert (Hsent : cl_sent (if for_client n k p then if room (cl_conn c1) then push p c1 else c1 else c1) = cl_sent c1) by (by repeat case_match).
    assert (Hph : cl_phase (if for_client n k p then if room (cl_conn c1) then push p c1 else c1 else c1) = cl_phase c1) by (by repeat case_match).
    split; [|by rewrite Hsent]. intros Hd. rewrite Hph in Hd. destruct (IHa Hd) as [IH1 IH2]. rewrite Er in IH1, IH2.
    destruct (take_beacons n k p c1 (h_rx h)) as [T1 T2]. split; [by etrans|]. intros Ha. rewrite T2; [by apply IH2, Ham|].
    apply Nat.ltb_lt. by eapply (Ha es []).
Qed.

(** ** Emptying the channels *)
(** the program's own steps *)
Definition own (e : hev) : Prop := match e with HUp _ | HRelay _ | HWrite _ | HTake => True | _ => False end.
Definition settled (c : client) : Prop := cl_phase c = CUp \/ cl_phase c = CDown.
Definition load (c : client) : nat := (length (cl_cmd c) + 2 * length (cl_conn c))%nat.
Arguments load : simpl never.
Lemma load_def conn cmd ph sent : load (Client conn cmd ph sent) = (length cmd + 2 * length conn)%nat.
Proof. done. Qed.
Definition weight (n : nat) (h : hub) : nat :=
  (sum_list_with load (h_clients h) + (2 * n + 1) * length (h_rx h))%nat.
Arguments weight : simpl never.
Lemma sum_insert {A} (f : A -> nat) l i x y : l !! i = Some x -> (sum_list_with f (<[i:=y]> l) + f x = sum_list_with f l + f y)%nat.
Proof.
  revert i. induction l as [|z l IH]; intros [|i]; cbn; [done..| |].
  - intros [= ->]. lia.
  - intros H. specialize (IH _ H). unfold insert in *. revert IH. generalize (sum_list_with f (list_insert i y l)). intros. lia.
Qed.
Lemma settled_step e h h' : own e -> Forall settled (h_clients h) -> hstep e h = Some h' -> Forall settled (h_clients h').
Proof.
  intros Ho Hf Hs. apply Forall_lookup. intros k c Hc. pose proof (step_length _ _ _ Hs) as Hl.
  assert (Hk : (k < length (h_clients h))%nat) by (rewrite <- Hl; by eapply lookup_lt_Some).
  destruct (h_clients h !! k) as [c1|] eqn:E1; [|apply lookup_ge_None in E1; lia].
  pose proof (proj1 (Forall_lookup _ _) Hf _ _ E1) as H1. clear Hf Hl.
  destruct h as [cs rx]. cbn in *. destruct e as [i|i|i|i|i|i p|]; cbn in *; try done.
  4: { destruct rx as [|p rx]; [done|]. destruct p as [nm bb pt|e addr blk|src dst id data|e nid|why]; cbn in Hs; try (injection Hs as <-; cbn in *; by simplify_eq).
    - injection Hs as <-. cbn in Hc. rewrite list_lookup_imap, E1 in Hc. cbn in Hc. injection Hc as <-. unfold announce, settled in *. by repeat case_match.
    - destruct (target (length cs) dst) as [j|]; [|injection Hs as <-; cbn in *; by simplify_eq]. destruct (cs !! j) as [cj|] eqn:Ej; [|done]. destruct (room (cl_conn cj)); [|done].
      injection Hs as <-. cbn in Hc. destruct (decide (j = k)) as [->|Hne].
      + rewrite list_lookup_insert in Hc by (by eapply lookup_lt_Some). injection Hc as <-. simplify_eq. done.
      + rewrite list_lookup_insert_ne in Hc by done. by simplify_eq. }
  all: destruct (cs !! i) as [[conn cmd ph sent]|] eqn:Ei; [|done]; (destruct (decide (i = k)) as [->|Hne];
    [assert (c1 = Client conn cmd ph sent) as -> by congruence|repeat (case_match; try done); simplify_eq; cbn in Hc; rewrite list_lookup_insert_ne in Hc by done; by simplify_eq]).
  all: repeat (case_match; try done); simplify_eq; cbn in Hc; rewrite list_lookup_insert in Hc by (by eapply lookup_lt_Some); injection Hc as <-; unfold settled in *; cbn in *; naive_solver.
Qed.
Lemma announce_weight (p : packet) (from : option nat) cs :
  (sum_list_with load (imap (announce p from) cs) <= sum_list_with load cs + 2 * length cs)%nat.
Proof.
  assert (G : forall (f : nat -> client -> client), (forall i c, load (f i c) <= load c + 2)%nat ->
    (sum_list_with load (imap f cs) <= sum_list_with load cs + 2 * length cs)%nat).
  { induction cs as [|c cs IH]; intros f Hf; [cbn; lia|]. rewrite imap_cons. cbn [sum_list_with length]. specialize (IH (f ∘ S)). pose proof (Hf 0%nat c).
    feed specialize IH; [intros i c'; apply (Hf (S i))|]. lia. }
  apply G. intros i c. unfold announce, load. repeat case_match; cbn; rewrite ?app_length; cbn; lia.
Qed.
Lemma can_step h : Forall settled (h_clients h) -> (0 < weight (length (h_clients h)) h)%nat ->
  exists e h', own e /\ hstep e h = Some h' /\ (weight (length (h_clients h)) h' < weight (length (h_clients h)) h)%nat.
Proof.
  intros Hf Hw. destruct h as [cs rx]. cbn [h_clients] in *.
  destruct (decide (Exists (fun c => cl_cmd c <> []) cs)) as [Hx|Hx].
  { apply Exists_exists in Hx as (c & Hc & Hne). apply elem_of_list_lookup in Hc as [i Hi]. pose proof (proj1 (Forall_lookup _ _) Hf _ _ Hi) as Hs.
    destruct c as [conn [|q cmd] ph sent]; [done|]. unfold settled in Hs. cbn in Hs. exists (HWrite i). cbn. rewrite Hi.
    destruct ph; try (exfalso; naive_solver); (eexists; split; [done|split; [done|]]); unfold weight; cbn [h_clients h_rx];
      pose proof (sum_insert load cs i _ (Client conn cmd CUp (sent ++ [q])) Hi) as S1;
      pose proof (sum_insert load cs i _ (Client conn cmd CDown sent) Hi) as S2; rewrite ?load_def in S1, S2; cbn [length] in *; lia. }
  assert (Hcmd : forall i c, cs !! i = Some c -> cl_cmd c = []).
  { intros i c Hi. destruct (cl_cmd c) eqn:E; [done|]. exfalso. apply Hx, Exists_exists. exists c. split; [by eapply elem_of_list_lookup_2|by rewrite E]. }
  destruct (decide (Exists (fun c => cl_conn c <> []) cs)) as [Hy|Hy].
  { apply Exists_exists in Hy as (c & Hc & Hne). apply elem_of_list_lookup in Hc as [i Hi]. pose proof (proj1 (Forall_lookup _ _) Hf _ _ Hi) as Hs.
    pose proof (Hcmd _ _ Hi) as Hz. destruct c as [[|q conn] cmd ph sent]; [done|]. cbn in Hz. subst cmd. unfold settled in Hs. cbn in Hs. exists (HRelay i). cbn. rewrite Hi.
    destruct ph; try (exfalso; naive_solver); (eexists; split; [done|split; [done|]]); unfold weight; cbn [h_clients h_rx app];
      pose proof (sum_insert load cs i _ (Client conn [q] CUp sent) Hi) as S1;
      pose proof (sum_insert load cs i _ (Client conn [] CDown sent) Hi) as S2; rewrite ?load_def in S1, S2; cbn [length] in *; lia. }
  assert (Hconn : forall i c, cs !! i = Some c -> cl_conn c = []).
  { intros i c Hi. destruct (cl_conn c) eqn:E; [done|]. exfalso. apply Hy, Exists_exists. exists c. split; [by eapply elem_of_list_lookup_2|by rewrite E]. }
  destruct rx as [|p rx].
  { exfalso. unfold weight in Hw. cbn in Hw. rewrite Nat.mul_0_r, Nat.add_0_r in Hw. assert (sum_list_with load cs = 0%nat); [|lia].
    clear -Hcmd Hconn. induction cs as [|c cs IH]; [done|]. cbn. rewrite IH; [|intros i c' Hi; by apply (Hcmd (S i))|intros i c' Hi; by apply (Hconn (S i))].
    unfold load. rewrite (Hcmd 0%nat c eq_refl), (Hconn 0%nat c eq_refl). done. }
  exists HTake. destruct p as [nm bb pt|e addr blk|src dst id data|e nid|why]; cbn; try (eexists; split; [done|split; [done|]]; unfold weight; cbn [h_clients h_rx length]; lia).
  - eexists. split; [done|]. split; [done|]. unfold weight. cbn [h_clients h_rx length]. pose proof (announce_weight (PBeacon e addr blk) (client_no (length cs) addr) cs). lia.
  - destruct (target (length cs) dst) as [k|] eqn:Et; [|eexists; split; [done|split; [done|]]; unfold weight; cbn [h_clients h_rx length]; lia].
    apply client_no_Some in Et as [_ Hk]. destruct (cs !! k) as [c|] eqn:Ek; [|apply lookup_ge_None in Ek; lia]. assert (room (cl_conn c) = true) as -> by (by rewrite (Hconn _ _ Ek)).
    eexists. split; [done|]. split; [done|]. unfold weight. cbn [h_clients h_rx length].
    pose proof (sum_insert load cs k _ (push (PForward src dst id data) c) Ek) as S1. 
    assert (load (push (PForward src dst id data) c) = load c + 2)%nat by (unfold load; cbn; rewrite app_length; cbn; lia). lia.
Qed.
Lemma sum_zero {A} (f : A -> nat) l x : sum_list_with f l = 0%nat -> x ∈ l -> f x = 0%nat.
Proof. induction l as [|y l IH]; cbn; intros H Hx; [by apply elem_of_nil in Hx|]. apply elem_of_cons in Hx as [->|Hx]; [lia|]. apply IH; [lia|done]. Qed.
Lemma drain h : Forall settled (h_clients h) -> exists es h', Forall own es /\ hrun es h = Some h' /\ h_rx h' = [] /\
  Forall (fun c => cl_conn c = [] /\ cl_cmd c = []) (h_clients h').
Proof.
  remember (weight (length (h_clients h)) h) as w eqn:Ew. revert h Ew. induction w as [w IH] using lt_wf_ind. intros h Ew Hf.
  destruct (decide (w = 0%nat)) as [Hz|Hz].
  - exists [], h. rewrite Hz in Ew. unfold weight in Ew. split; [done|]. split; [done|]. split; [destruct (h_rx h); [done|cbn in Ew; lia]|].
    apply Forall_forall. intros c Hc. assert (Hsum : sum_list_with load (h_clients h) = 0%nat) by lia.
    pose proof (sum_zero _ _ _ Hsum Hc) as H0. unfold load in H0. split; apply nil_length_inv; lia.
  - destruct (can_step h Hf) as (e & h1 & Ho & Hs & Hlt); [lia|]. pose proof (step_length _ _ _ Hs) as Hl.
    destruct (IH (weight (length (h_clients h1)) h1)) with (h := h1) as (es & h' & H1 & H2 & H3 & H4); [rewrite Hl; lia|done|by eapply settled_step|].
    exists (e :: es), h'. split; [by constructor|]. cbn. by rewrite Hs.
Qed.

(** ** A client that cannot register *)
(** registration waits for room in a channel that nobody reads yet *)
Definition jammed (c : client) : Prop := cl_phase c = COpen /\ length (cl_cmd c) = 100%nat.
Lemma jammed_step e h h' k c : hstep e h = Some h' -> h_clients h !! k = Some c -> jammed c ->
  exists c', h_clients h' !! k = Some c' /\ jammed c' /\ cl_sent c' = cl_sent c /\ cl_conn c `prefix_of` cl_conn c' /\ (e <> HTake -> c' = c).
Proof.
  intros Hs Hc [H1 H2]. destruct h as [cs rx]. cbn [h_clients] in Hc. destruct c as [conn cmd ph sent]. cbn in H1, H2. subst ph.
  assert (Hroom : room cmd = false) by (unfold room; rewrite H2; done).
  assert (Hkeep : forall l r, h' = Hub l r -> l !! k = Some (Client conn cmd COpen sent) ->
    exists c', h_clients h' !! k = Some c' /\ jammed c' /\ cl_sent c' = sent /\ conn `prefix_of` cl_conn c' /\ (e <> HTake -> c' = Client conn cmd COpen sent)).
  { intros l r -> Hl. exists (Client conn cmd COpen sent). cbn. split_and!; done. }
  destruct e as [i|i|i|i|i|i p|]; cbn in Hs.
  7: { destruct rx as [|p rx]; [done|]. destruct p as [nm bb pt|e addr blk|src dst id data|e nid|why]; cbn in Hs; try (injection Hs as <-; by eapply Hkeep).
    - injection Hs as <-. cbn [h_clients cl_conn cl_sent cl_cmd]. rewrite list_lookup_imap, Hc. cbn. eexists. split; [done|]. unfold announce, jammed.
      repeat case_match; cbn; split_and!; try done. by apply prefix_app_r.
    - destruct (target (length cs) dst) as [j|]; [|injection Hs as <-; by eapply Hkeep]. destruct (cs !! j) as [cj|] eqn:Ej; [|done]. destruct (room (cl_conn cj)); [|done].
      injection Hs as <-. cbn [h_clients]. destruct (decide (j = k)) as [->|Hne].
      + rewrite list_lookup_insert by (by eapply lookup_lt_Some). simplify_eq. eexists. split; [done|]. unfold jammed. cbn. split_and!; try done. by apply prefix_app_r.
      + eapply Hkeep; [done|]. by rewrite list_lookup_insert_ne. }
  6: { destruct (cs !! i) as [[? ? [] ?]|]; try done. destruct (tagged i p); [destruct (room rx); [|done]|]; injection Hs as <-; by eapply Hkeep. }
  all: destruct (decide (i = k)) as [->|Hne];
    [rewrite Hc in Hs; rewrite ?Hroom in Hs; try done; destruct conn; try done; destruct cmd; done|].
  all: destruct (cs !! i) as [[conn' cmd' ph' sent']|] eqn:Ei; [|done]; repeat (case_match; try done); injection Hs as <-; (eapply Hkeep; [done|]; by rewrite list_lookup_insert_ne).
Qed.
Lemma jammed_run es h h' k c : hrun es h = Some h' -> h_clients h !! k = Some c -> jammed c ->
  exists c', h_clients h' !! k = Some c' /\ jammed c' /\ cl_sent c' = cl_sent c /\ cl_conn c `prefix_of` cl_conn c'.
Proof.
  revert h c. induction es as [|e es IH]; intros h c Hr Hc Hj.
  { injection Hr as <-. exists c. split_and!; done. }
  cbn in Hr. destruct (hstep e h) as [h1|] eqn:Es; [|done]. cbn in Hr. destruct (jammed_step _ _ _ _ _ Es Hc Hj) as (c1 & H1 & H2 & H3 & H4 & _).
  destruct (IH _ _ Hr H1 H2) as (c' & G1 & G2 & G3 & G4). exists c'. split_and!; [done|done|congruence|by etrans].
Qed.
(** when its other channel is full as well, the main loop waits for it *)
Definition blocked (k : nat) (src dst id : string) (data : list N) (h : hub) : Prop :=
  (exists c, h_clients h !! k = Some c /\ jammed c /\ length (cl_conn c) = 100%nat) /\ head (h_rx h) = Some (PForward src dst id data) /\ names dst k.
Lemma blocked_step e h h' k src dst id data : hstep e h = Some h' -> blocked k src dst id data h ->
  blocked k src dst id data h' /\ e <> HTake.
Proof.
  intros Hs ((c & Hc & Hj & Hl) & Hh & Hn).
  assert (Hk : (k < length (h_clients h))%nat) by (by eapply lookup_lt_Some).
  assert (Hne : e <> HTake).
  { intros ->. destruct h as [cs [|p rx]]; [done|]. cbn in Hh. injection Hh as ->. cbn in Hs, Hc, Hk. rewrite (proj2 (target_names _ _ _ Hk) Hn), Hc in Hs.
    unfold room in Hs. by rewrite Hl in Hs. }
  split; [|done]. destruct (jammed_step _ _ _ _ _ Hs Hc Hj) as (c' & H1 & H2 & H3 & H4 & H5). split; [|split; [|done]].
  - exists c'. split; [done|]. split; [done|]. by rewrite (H5 Hne).
  - destruct h as [cs [|p rx]]; [done|]. cbn in Hh. injection Hh as ->. destruct e as [i|i|i|i|i|i p|]; cbn in Hs; [..|by destruct Hne];
      repeat (case_match; try done); by simplify_eq.
Qed.
Lemma blocked_run es h h' k src dst id data : hrun es h = Some h' -> blocked k src dst id data h -> blocked k src dst id data h' /\ HTake ∉ es.
Proof.
  revert h. induction es as [|e es IH]; intros h Hr Hb; [injection Hr as <-; split; [done|by apply not_elem_of_nil]|].
  cbn in Hr. destruct (hstep e h) as [h1|] eqn:Es; [|done]. cbn in Hr. destruct (blocked_step _ _ _ _ _ _ _ _ Es Hb) as [H1 H2].
  destruct (IH _ Hr H1) as [H3 H4]. split; [done|]. apply not_elem_of_cons. done.
Qed.

(** ** Registration *)
Definition reg : packet := PRegister "ConnectN" true None.
Definition is_reg (p : packet) : bool := match p with PRegister _ _ _ => true | _ => false end.
Lemma step_client e h h' k c c' : hstep e h = Some h' -> h_clients h !! k = Some c -> h_clients h' !! k = Some c' ->
  c' = c \/
  (cl_phase c = CWait /\ c' = Client (cl_conn c) (cl_cmd c) COpen (cl_sent c)) \/
  (e = HUp k /\ cl_phase c = COpen /\ c' = Client (cl_conn c) (cl_cmd c ++ [reg]) CUp (cl_sent c)) \/
  (c' = Client (cl_conn c) (cl_cmd c) CDown (cl_sent c)) \/
  (exists q conn, cl_conn c = q :: conn /\ (c' = Client conn (cl_cmd c) (cl_phase c) (cl_sent c) \/ c' = Client conn (cl_cmd c ++ [q]) (cl_phase c) (cl_sent c))) \/
  (exists q cmd, cl_cmd c = q :: cmd /\ (c' = Client (cl_conn c) cmd (cl_phase c) (cl_sent c) /\ cl_phase c = CDown \/ c' = Client (cl_conn c) cmd (cl_phase c) (cl_sent c ++ [q]) /\ cl_phase c = CUp)) \/
  (exists p, (exists rx, h_rx h = p :: rx) /\ is_reg p = false /\ c' = push p c).
Proof.
  destruct h as [cs rx]. cbn [h_clients h_rx]. intros Hs Hc Hc'. destruct e as [i|i|i|i|i|i p|]; cbn in Hs.
  7: { destruct rx as [|p rx]; [done|]. destruct p as [nm bb pt|e addr blk|src dst id data|e nid|why]; cbn in Hs; try (injection Hs as <-; cbn in Hc'; left; by simplify_eq).
    - injection Hs as <-. cbn in Hc'. rewrite list_lookup_imap, Hc in Hc'. cbn in Hc'. injection Hc' as <-. unfold announce. repeat case_match; try (by left).
      do 6 right. eexists. split; [by eexists|]. done.
    - destruct (target (length cs) dst) as [j|]; [|injection Hs as <-; cbn in Hc'; left; by simplify_eq]. destruct (cs !! j) as [cj|] eqn:Ej; [|done]. destruct (room (cl_conn cj)); [|done].
      injection Hs as <-. cbn in Hc'. destruct (decide (j = k)) as [->|Hne].
      + rewrite list_lookup_insert in Hc' by (by eapply lookup_lt_Some). simplify_eq. do 6 right. eexists. split; [by eexists|]. done.
      + rewrite list_lookup_insert_ne in Hc' by done. left. by simplify_eq. }
  6: { left. destruct (cs !! i) as [[? ? [] ?]|]; try done. destruct (tagged i p); [destruct (room rx); [|done]|]; injection Hs as <-; cbn in Hc'; by simplify_eq. }
  all: destruct (cs !! i) as [[conn cmd ph sent]|] eqn:Ei; [|done]; (destruct (decide (i = k)) as [->|Hne];
    [assert (c = Client conn cmd ph sent) as -> by congruence; clear Hc|left; repeat (case_match; try done); simplify_eq; cbn in Hc'; rewrite list_lookup_insert_ne in Hc' by done; by simplify_eq]).
  all: assert (Hupd : forall x, h' = Hub (<[k := x]> cs) rx -> c' = x)
    by (intros x ->; cbn in Hc'; rewrite list_lookup_insert in Hc' by (by eapply lookup_lt_Some); congruence).
  - destruct ph; try done. injection Hs as <-. rewrite (Hupd _ eq_refl). right; left. done.
  - destruct ph; try done. destruct (room cmd); [|done]. injection Hs as <-. rewrite (Hupd _ eq_refl). right; right; left. done.
  - destruct ph; try done; injection Hs as <-; rewrite (Hupd _ eq_refl); right; right; right; left; done.
  - destruct conn as [|q conn]; [done|]. do 4 right. left. exists q, conn. cbn. split; [done|]. destruct ph; try (destruct (room cmd); [|done]); injection Hs as <-; rewrite (Hupd _ eq_refl); eauto.
  - destruct cmd as [|q cmd]; [by destruct ph|]. do 5 right. left. exists q, cmd. cbn. split; [done|]. destruct ph; try done; injection Hs as <-; rewrite (Hupd _ eq_refl); eauto.
Qed.
Lemma step_before e h h' k c' : hstep e h = Some h' -> h_clients h' !! k = Some c' -> exists c, h_clients h !! k = Some c.
Proof.
  intros Hs Hc. pose proof (step_length _ _ _ Hs) as Hl. apply lookup_lt_Some in Hc. destruct (h_clients h !! k) eqn:E; [by eexists|]. apply lookup_ge_None in E. lia.
Qed.
(** no packet of the main loop is a registration, one is made when the websocket is
    open, and what was queued before it comes first *)
Definition regs (l : list packet) : list packet := filter (fun p => is_reg p = true) l.
Lemma regs_app l1 l2 : regs (l1 ++ l2) = regs l1 ++ regs l2.
Proof. apply filter_app. Qed.
Lemma regs_one p : regs [p] = if is_reg p then [p] else [].
Proof. by destruct p. Qed.
Lemma run_regs es n h k c : hrun es (hub0 n) = Some h -> h_clients h !! k = Some c ->
  regs (cl_conn c) = [] /\ ((cl_phase c = CWait \/ cl_phase c = COpen) -> regs (cl_cmd c) = [] /\ cl_sent c = []) /\
  regs (cl_sent c ++ cl_cmd c) `prefix_of` [reg] /\ (cl_phase c = CUp -> regs (cl_sent c ++ cl_cmd c) = [reg]).
Proof.
  revert h c. induction es as [|e es IH] using rev_ind; intros h c' H Hc'.
  { injection H as <-. apply start_clients in Hc' as ->. split_and!; try done. by eexists. }
  apply hrun_snoc in H as (h1 & H1 & Hs). destruct (step_before _ _ _ _ _ Hs Hc') as [c Hc].
  destruct (IH _ _ H1 Hc) as (I1 & I2 & I3 & I4).
  destruct (step_client _ _ _ _ _ _ Hs Hc Hc') as [->|[[Hp ->]|[(-> & Hp & ->)|[->|[(q & conn & Hq & Hx)|[(q & cmd & Hq & Hx)|(p & _ & Hp & ->)]]]]]]; cbn [cl_conn cl_cmd cl_phase cl_sent push] in *.
  - done.
  - split_and!; try done. intros _. by apply I2; left.
  - destruct (I2 (or_intror Hp)) as [Hr Hsn]. rewrite Hsn. assert (regs ([] ++ cl_cmd c ++ [reg]) = [reg]) as -> by (rewrite app_nil_l, regs_app, Hr; done). split_and!; try done. by intros [|].
  - split_and!; try done. by intros [|].
  - rewrite Hq in I1. change (q :: conn) with ([q] ++ conn) in I1. rewrite regs_app in I1. apply app_eq_nil in I1 as [Hq1 I1].
    assert (G : forall l, regs (l ++ [q]) = regs l) by (intros l; by rewrite regs_app, Hq1, app_nil_r).
    destruct Hx as [->| ->]; cbn [cl_conn cl_cmd cl_phase cl_sent]; rewrite ?app_assoc, ?G; done.
  - destruct Hx as [[-> Hd]|[-> Hd]]; cbn [cl_conn cl_cmd cl_phase cl_sent].
    + split_and!; try done; [rewrite Hd; by intros [|]| |by rewrite Hd]. rewrite Hq in I3. rewrite !regs_app in *. change (q :: cmd) with ([q] ++ cmd) in I3. rewrite regs_app in I3.
      destruct (regs (cl_sent c)) as [|r rs].
      * rewrite ?app_nil_l in *. destruct (regs [q]) as [|r' rs']; [done|]. destruct I3 as [m Hm]. cbn in Hm. injection Hm as -> Hm. symmetry in Hm. apply app_eq_nil in Hm as [Hm _]. apply app_eq_nil in Hm as [_ ->]. by eexists.
      * destruct I3 as [m Hm]. cbn in Hm. injection Hm as -> Hm. symmetry in Hm. apply app_eq_nil in Hm as [Hm _]. apply app_eq_nil in Hm as [-> Hm]. apply app_eq_nil in Hm as [_ ->]. by exists [].
    + rewrite <- app_assoc. cbn. rewrite Hq in I2, I3, I4. split_and!; try done; [rewrite Hd; by intros [|]].
  - split_and!; try done. by rewrite regs_app, I1, regs_one, Hp.
Qed.
(** from the step that queues the registration on *)
Lemma after_up es h0 h k c0 c : hrun es h0 = Some h -> h_clients h0 !! k = Some c0 -> h_clients h !! k = Some c -> cl_phase c0 = CUp ->
  (exists l, cl_sent c0 ++ cl_cmd c0 = [reg] ++ l) -> (cl_sent c = [] \/ exists l, cl_sent c = [reg] ++ l).
Proof.
  intros Hr Hc0 Hc Hp Hl. cut ((exists l, cl_sent c = [reg] ++ l) \/ cl_sent c = [] /\ (cl_phase c = CDown \/ cl_phase c = CUp /\ exists l, cl_cmd c = [reg] ++ l)); [tauto|].
  revert h c Hr Hc. induction es as [|e es IH] using rev_ind; intros h c' Hr Hc'.
  { injection Hr as <-. assert (c' = c0) as -> by congruence. destruct (cl_sent c0) as [|q s]; [right; eauto|left]. destruct Hl as [l Hl]. cbn in Hl. injection Hl as -> _. by exists s. }
  apply hrun_snoc in Hr as (h1 & H1 & Hs). destruct (step_before _ _ _ _ _ Hs Hc') as [c Hc]. specialize (IH _ _ H1 Hc).
  destruct (step_client _ _ _ _ _ _ Hs Hc Hc') as [->|[[Hq ->]|[(-> & Hq & ->)|[->|[(q & conn & Hq & Hx)|[(q & cmd & Hq & Hx)|(p & _ & Hq & ->)]]]]]]; cbn [cl_conn cl_cmd cl_phase cl_sent push] in *.
  - done.
  - destruct IH as [IH|[IH [?|[? _]]]]; [by left|congruence|congruence].
  - destruct IH as [IH|[IH [?|[? _]]]]; [by left|congruence|congruence].
  - destruct IH as [IH|[IH _]]; [by left|right; by auto].
  - destruct Hx as [->| ->]; cbn [cl_conn cl_cmd cl_phase cl_sent]; [done|]. destruct IH as [IH|[IH [?|[? [l ->]]]]]; [by left|right; by auto|]. right. split; [done|]. right. split; [done|]. by exists (l ++ [q]).
  - destruct Hx as [[-> Hd]|[-> Hd]]; cbn [cl_conn cl_cmd cl_phase cl_sent].
    + destruct IH as [IH|[IH _]]; [by left|right; by auto].
    + left. destruct IH as [[l ->]|[-> [?|[_ [l Hl']]]]]; [by exists (l ++ [q])|congruence|]. rewrite Hq in Hl'. cbn in Hl'. injection Hl' as -> _. by exists [].
  - done.
Qed.
