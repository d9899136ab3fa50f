(** C172: an external routing program knows the neighbours of the node (model:
    PeerFeed.v). *)
From stdpp Require Import prelude strings pretty gmap sorting.
From Coq Require Import NArith Lia.
From Verif Require Import Core Peers PeersProofs Routing External Erouter PeerFeed.
Open Scope N_scope.

(** ** Specification *)
(** nothing is on its way, nothing was lost, the agent runs *)
Definition settled (s : feed) : Prop :=
  f_alive s = true /\ f_lost s = false /\ f_link s = Some [] /\ f_chan s = [] /\ Forall (eq []) (f_out s).
(** the program lists the neighbours the node has *)
Definition same_nodes (s : feed) : Prop := exists r, f_prog s = Some r /\
  forall n, is_Some (er_table r !! n) <-> is_Some (f_peers s !! n).
Definition only (ok : pop -> bool) (es : list fev) : Prop :=
  (forall o, FTable o ∈ es -> ok o = true) /\ forall p kept, FModule p kept ∉ es.
Definition beacons (o : pop) : bool := match o with PBeacon _ _ _ _ => true | _ => false end.
Definition silence (o : pop) : bool := match o with PBeacon _ _ _ _ | PJanitor _ _ => true | _ => false end.
Definition failures (o : pop) : bool := match o with PBeacon _ _ _ _ | PFail _ => true | _ => false end.
Definition by_hand (o : pop) : bool := match o with PBeacon _ _ _ _ | PAdd _ => true | _ => false end.

(** Whatever happens to the neighbours (of the kinds [ok]), once nothing is on its
    way the connected program lists the neighbours of the node. *)
Definition C172_full (ok : pop -> bool) : Prop := forall st es s,
  fruns st feed0 es = Some s -> only ok es -> settled s -> same_nodes s.
(** The agent goes on. *)
Definition C172_agent_full (ok : pop -> bool) : Prop := forall st es s,
  fruns st feed0 es = Some s -> only ok es -> f_alive s = true.

(** Operations that are announced happen one at a time; the others (peers added and
    removed by hand, neighbours given up after failures) happen while no program is
    connected and nothing is on its way. *)
Definition calm (s : feed) (e : fev) : Prop :=
  match e with
  | FTable (PBeacon _ _ _ _) | FTable (PJanitor _ _) | FModule _ _ => Forall (eq []) (f_out s)
  | FTable _ => f_link s = None /\ f_chan s = [] /\ Forall (eq []) (f_out s)
  | _ => True
  end.
Fixpoint orderly (st : strategy) (s : feed) (es : list fev) : Prop :=
  match es with
  | [] => True
  | e :: es => calm s e /\ match fstep st s e with Some s' => orderly st s' es | None => True end
  end.
(** Operations happen only when the earlier ones were announced by the agent. *)
Definition slow (s : feed) (e : fev) : Prop :=
  match e with FTable _ | FModule _ _ => f_chan s = [] /\ Forall (eq []) (f_out s) | _ => True end.
Fixpoint unhurried (st : strategy) (s : feed) (es : list fev) : Prop :=
  match es with
  | [] => True
  | e :: es => slow s e /\ match fstep st s e with Some s' => unhurried st s' es | None => True end
  end.

(** ** Proofs *)
Definition note_eid (x : note) : eid := match x with NMet e | NGone e => e end.
Definition met (x : note) : bool := match x with NMet _ => true | NGone _ => false end.
Fixpoint lastop (l : list note) (n : string) : option bool :=
  match l with
  | [] => None
  | x :: l => match lastop l n with
              | Some b => Some b
              | None => if bool_decide (eid_node (note_eid x) = Some n) then Some (met x) else None
              end
  end.
Lemma lastop_app l1 l2 n : lastop (l1 ++ l2) n = match lastop l2 n with Some b => Some b | None => lastop l1 n end.
Proof. induction l1 as [|x l1 IH]; cbn; [by destruct (lastop l2 n)|]. rewrite IH. by destruct (lastop l2 n). Qed.
Lemma lastop_gone l n : lastop (map NGone l) n = if existsb (fun e => bool_decide (eid_node e = Some n)) l then Some false else None.
Proof.
  induction l as [|e l IH]; cbn; [done|]. rewrite IH. destruct (existsb _ l); cbn; [by rewrite orb_true_r|].
  rewrite orb_false_r. by case_bool_decide.
Qed.
Definition there (m : peers) (n : string) : bool := bool_decide (is_Some (m !! n)).
(** an announced operation: the neighbours it does not announce stay as they are *)
Definition tells (m m' : peers) (l : list note) : Prop := forall n,
  (lastop l n = None /\ m' !! n = m !! n) \/ lastop l n = Some (there m' n).
Lemma there_some m n p : m !! n = Some p -> there m n = true.
Proof. intros E. apply bool_decide_eq_true. rewrite E. eauto. Qed.
Lemma there_none m n : m !! n = None -> there m n = false.
Proof. intros E. apply bool_decide_eq_false. rewrite E. by intros [? ?]. Qed.
Lemma tells_met m m' e n0 : eid_node e = Some n0 -> is_Some (m' !! n0) -> (forall n, n <> n0 -> m' !! n = m !! n) -> tells m m' [NMet e].
Proof.
  intros E [p Hp] Hn n. cbn. rewrite E. case_bool_decide as Hb.
  - right. injection Hb as <-. by rewrite (there_some _ _ _ Hp).
  - left. split; [done|]. apply Hn. congruence.
Qed.
Lemma tells_beacon m self now ip b : tells m (pstep m (PBeacon self now ip b)) (announced m (PBeacon self now ip b)).
Proof.
  cbn. unfold receive_beacon. case_bool_decide; [by left|]. unfold peers_add. cbn [pe_eid beacon_peer peer_new].
  destruct (eid_node (bi_eid b)) as [n0|] eqn:E; [|by left].
  destruct (bool_decide (m !! n0 = None)); cbn [default option_map from_option id]; eapply tells_met; try done.
  - rewrite lookup_insert. eauto.
  - intros n Hn. by rewrite lookup_insert_ne.
  - unfold peers_touch. cbn. rewrite lookup_alter, lookup_insert. eauto.
  - intros n Hn. unfold peers_touch. cbn. rewrite lookup_alter_ne, lookup_insert_ne; done.
Qed.
Lemma tells_add m p m' x : peers_add p m = Some (m', x) -> tells m m' [NMet (pe_eid p)].
Proof.
  unfold peers_add. destruct (eid_node (pe_eid p)) as [n0|] eqn:E; [|done]. intros [= <- _]. eapply tells_met; [done|rewrite lookup_insert; eauto|].
  intros n Hn. by rewrite lookup_insert_ne.
Qed.
Lemma tells_janitor m cf now : keyed m -> tells m (pstep m (PJanitor cf now)) (announced m (PJanitor cf now)).
Proof.
  intros Hk n. unfold announced, process_peers. cbn [pstep fst snd process_peers]. unfold process_peers. cbn [fst snd]. rewrite lastop_gone.
  destruct (existsb _ _) eqn:E.
  - right. apply existsb_exists in E as (e & He & Hn). apply bool_decide_eq_true in Hn. apply elem_of_list_In, elem_of_list_fmap in He as ([k p] & -> & Hp).
    apply elem_of_list_filter in Hp as [Hv Hp]. apply elem_of_map_to_list in Hp. cbn in Hv, Hn. rewrite (Hk _ _ Hp) in Hn. injection Hn as <-.
    rewrite there_none; [done|]. apply map_filter_lookup_None. right. intros q Hq. assert (q = p) as -> by congruence. cbn.
    assert (Hs : pe_static p = false) by (unfold still_valid in Hv; by destruct (pe_static p)). rewrite Hs, Hv. done.
  - left. split; [done|]. destruct (m !! n) as [p|] eqn:Ep.
    + apply map_filter_lookup_Some. split; [done|]. cbn. destruct (still_valid cf now p) eqn:Hv; [apply orb_true_r|].
      exfalso. enough (true = false) by done. rewrite <- E. symmetry. apply existsb_exists. exists (pe_eid p). split.
      * apply elem_of_list_In, elem_of_list_fmap. exists (n, p). split; [done|]. apply elem_of_list_filter. split; [done|]. by apply elem_of_map_to_list.
      * apply bool_decide_eq_true. by apply Hk.
    + apply map_filter_lookup_None. by left.
Qed.

(** what a packet does to the table of the program *)
Definition tapply (t : peers) (k : packet) : peers :=
  match k with
  | PPeerState m => m
  | PEncountered e q => match eid_node e with Some n => <[n := q]> t | None => t end
  | PDropped e => match eid_node e with Some n => delete n t | None => t end
  | _ => t
  end.
Lemma step_tapply st r k r' a : er_step st r k = Some (r', a) -> er_table r' = tapply (er_table r) k.
Proof.
  destruct k; cbn; try (by intros [= <- _]); try (by destruct st; intros [= <- _]).
  - destruct (eid_node e); [|done]. by intros [= <- _].
  - destruct (eid_node e); [|done]. by intros [= <- _].
  - destruct st; [by intros [= <- _]|]. destruct (er_peers _ _ _ _ _ _) as [[[? ?] ?]|]; [|done]. by intros [= <- _].
Qed.
Definition pending (s : feed) : list note := f_chan s ++ concat (f_out s).
Definition one_busy (out : list (list note)) : Prop := forall i l, out !! i = Some l -> l <> [] -> S i = length out.
Record good (s : feed) : Prop := {
  g_keys : keyed (f_peers s);
  g_out : one_busy (f_out s);
  g_last : forall n b, lastop (pending s) n = Some b -> there (f_peers s) n = b;
  g_prog : forall q, f_link s = Some q -> exists r, f_prog s = Some r /\
    forall n, lastop (pending s) n = None -> fold_left tapply q (er_table r) !! n = f_peers s !! n
}.
Lemma all_empty (out : list (list note)) : Forall (eq []) out -> concat out = [].
Proof. induction 1 as [|l out <- _ IH]; cbn; done. Qed.
Lemma busy_snoc out l : Forall (eq []) out -> one_busy (out ++ [l]).
Proof.
  intros Hf i x Hi Hx. rewrite app_length. cbn. apply lookup_app_Some in Hi as [Hi|[Hl Hi]].
  - rewrite Forall_lookup in Hf. by destruct Hx; rewrite (Hf _ _ Hi).
  - apply list_lookup_singleton_Some in Hi as [Hi _]. lia.
Qed.
Lemma busy_last out i x l : one_busy out -> out !! i = Some (x :: l) -> exists o, out = o ++ [x :: l] /\ concat o = [] /\ i = length o /\ <[i := l]> out = o ++ [l].
Proof.
  intros Hb Hi. assert (Hl := Hb _ _ Hi ltac:(done)). exists (take i out).
  assert (E : out = take i out ++ [x :: l]).
  { rewrite <- (take_drop_middle _ _ _ Hi) at 1. rewrite drop_ge by lia. done. }
  split; [done|]. split; [|split].
  - apply all_empty, Forall_lookup. intros j y Hj. destruct y as [|z y]; [done|]. exfalso.
    assert (Hj2 := Hj). apply lookup_take_Some in Hj2 as [Hj2 Hlt]. assert (Hx := Hb _ _ Hj2 ltac:(done)). lia.
  - rewrite take_length. lia.
  - rewrite E at 1. rewrite insert_app_r_alt by (rewrite take_length; lia). rewrite take_length. replace (i - i `min` length out)%nat with 0%nat by lia. done.
Qed.
Lemma good_table s m' l : good s -> f_alive s = true -> keyed m' -> Forall (eq []) (f_out s) -> tells (f_peers s) m' l ->
  good (Feed m' (f_out s ++ [l]) (f_chan s) (f_alive s) (f_link s) (f_prog s) (f_lost s)).
Proof.
  intros [G1 G2 G3 G4] _ Hk Hf Ht.
  assert (E : pending (Feed m' (f_out s ++ [l]) (f_chan s) (f_alive s) (f_link s) (f_prog s) (f_lost s)) = f_chan s ++ l).
  { unfold pending. cbn. rewrite concat_app, all_empty by done. cbn. by rewrite app_nil_r. }
  assert (E0 : pending s = f_chan s) by (unfold pending; rewrite all_empty by done; by rewrite app_nil_r).
  split; cbn [f_peers f_out f_link f_prog]; [done|by apply busy_snoc| |].
  - intros n b. rewrite E, lastop_app. destruct (Ht n) as [[E1 E2]|E1]; rewrite E1.
    + intros Hb. unfold there. rewrite E2. apply G3. by rewrite E0.
    + by intros [= <-].
  - intros q Hq. destruct (G4 q Hq) as (r & Hr & Hn). exists r. split; [done|]. intros n. rewrite E, lastop_app.
    destruct (Ht n) as [[E1 E2]|E1]; rewrite E1; [|done]. intros Hl. rewrite E2. apply Hn. by rewrite E0.
Qed.
Lemma good_step st s e s' : good s -> f_alive s = true -> f_lost s = false -> calm s e -> fstep st s e = Some s' ->
  good s' \/ f_alive s' = false \/ f_lost s' = true.
Proof.
  intros Hg Ha Hl Hc Hs. destruct e as [o|p kept|i|kept| | |].
  - assert (E : s' = Feed (pstep (f_peers s) o) (f_out s ++ [announced (f_peers s) o]) (f_chan s) (f_alive s) (f_link s) (f_prog s) (f_lost s)).
    { destruct s. cbn in *. congruence. }
    left. assert (Hk := keyed_step _ o (g_keys _ Hg)). destruct (decide (silence o = true)) as [Ho|Ho].
    + subst s'. apply good_table; try done.
      * by destruct o.
      * destruct o; try done; [apply tells_janitor, Hg|apply tells_beacon].
    + assert (Hc' : f_link s = None /\ f_chan s = [] /\ Forall (eq []) (f_out s)) by (by destruct o). clear Hc.
      destruct Hc' as (H1 & H2 & H3). assert (Ea : announced (f_peers s) o = []) by (by destruct o).
      subst s'. rewrite Ea. split; cbn [f_peers f_out f_link f_prog]; [done|by apply busy_snoc| |].
      * intros n b. unfold pending. cbn. rewrite H2, concat_app, all_empty by done. done.
      * intros q Hq. congruence.
  - destruct s as [m out chan alive link prog lost]. cbn in Hs, Ha, Hl, Hc. subst. destruct (peers_add p m) as [[m' x]|] eqn:E; [|injection Hs as <-; by left].
    destruct kept; injection Hs as <-; [left|by right; right].
    apply (good_table (Feed m out chan true link prog false)); try done; [by eapply keyed_add; [apply Hg|]|by eapply tells_add].
  - destruct s as [m out chan alive link prog lost]. cbn in Hs, Ha, Hl. subst. destruct (out !! i) as [[|x l]|] eqn:E; [done| |done]. injection Hs as <-.
    destruct Hg as [G1 G2 G3 G4]. cbn in *. destruct (busy_last _ _ _ _ G2 E) as (o & -> & Ho & -> & ->). left.
    assert (Ep : (chan ++ [x]) ++ concat (o ++ [l]) = chan ++ concat (o ++ [x :: l])).
    { rewrite !concat_app, Ho. cbn. rewrite !app_nil_r, <- app_assoc. done. }
    split; cbn; unfold pending in *; cbn in *; rewrite ?Ep; try done.
    intros j y Hj Hy. rewrite app_length. cbn. apply lookup_app_Some in Hj as [Hj|[Hlen Hj]].
    + assert (Hj2 : (o ++ [x :: l]) !! j = Some y) by (by apply lookup_app_l_Some). assert (Hx := G2 _ _ Hj2 Hy). rewrite app_length in Hx. done.
    + apply list_lookup_singleton_Some in Hj as [Hj _]. lia.
  - destruct s as [m out chan alive link prog lost]. cbn in Hs, Ha, Hl. subst. destruct chan as [|x chan]; [done|]. cbn in Hs.
    destruct (packet_of m x) as [k|] eqn:Ek; [|injection Hs as <-; by right; left]. destruct Hg as [G1 G2 G3 G4]. cbn in *. unfold pending in *. cbn in *.
    assert (G3' : forall n b, lastop (chan ++ concat out) n = Some b -> there m n = b).
    { intros n b Hb. apply G3. by rewrite Hb. }
    destruct link as [q|]; [|injection Hs as <-; left; by split].
    destruct kept; injection Hs as <-; [left|by right; right]. split; cbn; try done. intros q' [= <-].
    destruct (G4 q eq_refl) as (r & -> & Hn). exists r. split; [done|]. intros n Hp. unfold pending in Hp. cbn in Hp. rewrite fold_left_app. cbn.
    specialize (Hn n). specialize (G3 n). rewrite Hp in Hn, G3. destruct x as [e|e]; cbn in Ek, Hn, G3.
    + destruct (eid_node e) as [n0|] eqn:E; [|done]. rewrite (get_for_node _ _ _ G1 E) in Ek. destruct (m !! n0) as [p|] eqn:Ep; [|done]. injection Ek as <-. cbn. rewrite E.
      destruct (decide (n = n0)) as [->|Hne]; [by rewrite lookup_insert|]. rewrite lookup_insert_ne by done.
      apply Hn. rewrite bool_decide_eq_false_2; [done|congruence].
    + destruct (eid_node e) as [n0|] eqn:E; [|done]. injection Ek as <-. cbn. rewrite E.
      destruct (decide (n = n0)) as [->|Hne].
      * rewrite lookup_delete. rewrite bool_decide_eq_true_2 in G3 by done. specialize (G3 _ eq_refl). apply bool_decide_eq_false in G3.
        destruct (m !! n0); [|done]. destruct G3. eauto.
      * rewrite lookup_delete_ne by done. apply Hn. rewrite bool_decide_eq_false_2; [done|congruence].
  - destruct s as [m out chan alive link prog lost]. cbn in Hs, Ha, Hl. subst. left. destruct link as [q|]; injection Hs as <-; [done|].
    destruct Hg as [G1 G2 G3 G4]. split; cbn; try done. intros q [= <-]. eexists. split; [done|]. done.
  - destruct s as [m out chan alive link prog lost]. cbn in Hs, Ha, Hl. subst. left. injection Hs as <-. destruct Hg as [G1 G2 G3 G4]. by split.
  - destruct s as [m out chan alive link prog lost]. cbn in Hs, Ha, Hl. subst. left. destruct Hg as [G1 G2 G3 G4]. cbn in *.
    destruct link as [[|k q]|]; [done| |done]. destruct prog as [r|]; [|done]. destruct (er_step st r k) as [[r' a]|] eqn:E; injection Hs as <-; split; cbn; try done.
    intros q' [= <-]. destruct (G4 _ eq_refl) as (r0 & [= <-] & Hn). exists r'. split; [done|]. intros n Hp. rewrite (step_tapply _ _ _ _ _ E). by apply Hn.
Qed.
Lemma dead_step st s e s' : fstep st s e = Some s' -> f_alive s = false \/ f_lost s = true -> f_alive s' = false \/ f_lost s' = true.
Proof.
  destruct s as [m out chan alive link prog lost]. destruct e; cbn; intros Hs Hd; repeat case_match; try done; simplify_eq; cbn in *; auto; naive_solver.
Qed.
Lemma good_run st es : forall s s', good s \/ f_alive s = false \/ f_lost s = true -> orderly st s es -> fruns st s es = Some s' ->
  good s' \/ f_alive s' = false \/ f_lost s' = true.
Proof.
  induction es as [|e es IH]; intros s s' Hg Ho Hr; cbn in *; [by injection Hr as <-|]. destruct Ho as [Hc Ho].
  destruct (fstep st s e) as [s1|] eqn:E; [|done]. apply (IH s1); try done. destruct (f_alive s) eqn:Ea, (f_lost s) eqn:El.
  - right. eapply dead_step; [done|by right].
  - destruct Hg as [Hg|[?|?]]; [|congruence..]. by eapply good_step.
  - right. eapply dead_step; [done|by left].
  - right. eapply dead_step; [done|by left].
Qed.

(** ** C172 *)
(** If announced operations happen one at a time and the others only while no
    program is connected, then once nothing is on its way the program has the table
    of the node. *)
Theorem C172_table_partial : forall st es s, fruns st feed0 es = Some s -> orderly st feed0 es -> settled s ->
  exists r, f_prog s = Some r /\ er_table r = f_peers s.
Proof.
  intros st es s Hr Ho (H1 & H2 & H3 & H4 & H5).
  assert (H0 : good feed0) by (split; cbn; try done; apply keyed_empty).
  destruct (good_run st es feed0 s (or_introl H0) Ho Hr) as [Hg|[?|?]]; [|congruence..].
  destruct (g_prog _ Hg _ H3) as (r & Hp & Hn). exists r. split; [done|]. apply map_eq. intros n. cbn in Hn. apply Hn.
  unfold pending. rewrite H4, all_empty by done. done.
Qed.
Print Assumptions C172_table_partial.

(** If each operation happens after the agent has dealt with the earlier ones, the
    agent goes on. *)
Definition fine (s : feed) : Prop := f_alive s = true /\ keyed (f_peers s) /\
  forall x, x ∈ f_chan s \/ (exists l, l ∈ f_out s /\ x ∈ l) -> is_Some (packet_of (f_peers s) x).
Lemma fine_table (m' : peers) l : keyed m' -> (forall x, x ∈ l -> exists n, eid_node (note_eid x) = Some n /\ (met x = true -> is_Some (m' !! n))) ->
  forall out alive link prog lost, alive = true -> Forall (eq []) out -> fine (Feed m' (out ++ [l]) [] alive link prog lost).
Proof.
  intros Hk Hl out alive link prog lost -> Hf. split; [done|]. split; [done|]. cbn. intros x [Hx|(y & Hy & Hx)]; [by apply elem_of_nil in Hx|].
  apply elem_of_app in Hy as [Hy|Hy].
  - rewrite Forall_forall in Hf. rewrite <- (Hf _ Hy) in Hx. by apply elem_of_nil in Hx.
  - apply elem_of_list_singleton in Hy as ->. destruct (Hl x Hx) as (n & En & Hm). destruct x as [e|e]; cbn in *; rewrite En; [|eauto].
    rewrite (get_for_node _ _ _ Hk En). destruct (Hm eq_refl) as [p ->]. eauto.
Qed.
Lemma fine_step st s e s' : fine s -> slow s e -> fstep st s e = Some s' -> fine s'.
Proof.
  destruct s as [m out chan alive link prog lost]. intros (Ha & Hk & Hx) Hc Hs. cbn in Ha, Hk, Hx. subst.
  destruct e as [o|p kept|i|kept| | |]; cbn in Hs, Hc.
  - injection Hs as <-. destruct Hc as [-> Hf]. apply fine_table; try done; [by apply keyed_step|]. intros x Hin. destruct o; cbn in Hin; try (by apply elem_of_nil in Hin).
    + apply elem_of_list_fmap in Hin as (e & -> & He). apply elem_of_list_fmap in He as ([n p] & -> & He). apply elem_of_list_filter in He as [_ He].
      apply elem_of_map_to_list in He. exists n. cbn. split; [by apply Hk|done].
    + case_bool_decide; [by apply elem_of_nil in Hin|]. destruct (receive_beacon self now ip b m) as [m'|] eqn:E; [|by apply elem_of_nil in Hin].
      apply elem_of_list_singleton in Hin as ->. cbn. rewrite E. cbn. unfold receive_beacon in E. rewrite bool_decide_eq_false_2 in E by done.
      unfold peers_add in E. cbn [pe_eid beacon_peer peer_new] in E. destruct (eid_node (bi_eid b)) as [n|] eqn:En; [|done]. exists n. split; [done|]. intros _.
      destruct (bool_decide (m !! n = None)); injection E as <-; [rewrite lookup_insert; eauto|]. unfold peers_touch. cbn. rewrite lookup_alter, lookup_insert. eauto.
  - destruct Hc as [-> Hf]. destruct (peers_add p m) as [[m' x0]|] eqn:E; [|by injection Hs as <-].
    assert (Hk' : keyed m') by (by eapply keyed_add). destruct kept; injection Hs as <-; apply fine_table; try done.
    + intros x Hin. apply elem_of_list_singleton in Hin as ->. cbn. unfold peers_add in E. destruct (eid_node (pe_eid p)) as [n|]; [|done]. injection E as <- _.
      exists n. split; [done|]. rewrite lookup_insert. eauto.
    + intros x Hin. by apply elem_of_nil in Hin.
  - destruct (out !! i) as [[|x l]|] eqn:E; [done| |done]. injection Hs as <-. split; [done|]. split; [done|]. cbn. intros y [Hy|(z & Hz & Hy)].
    + apply elem_of_app in Hy as [Hy|Hy]; [apply Hx; by left|]. apply elem_of_list_singleton in Hy as ->. apply Hx. right. exists (x :: l). split; [by eapply elem_of_list_lookup_2|by left].
    + apply Hx. right. apply elem_of_list_lookup in Hz as (j & Hj). destruct (decide (j = i)) as [->|Hne].
      * rewrite list_lookup_insert in Hj by (by eapply lookup_lt_Some). injection Hj as <-. exists (x :: l). split; [by eapply elem_of_list_lookup_2|by right].
      * rewrite list_lookup_insert_ne in Hj by done. exists z. split; [by eapply elem_of_list_lookup_2|done].
  - destruct chan as [|x chan]; [done|]. cbn in Hs. destruct (Hx x) as [k Ek]; [left; by left|]. rewrite Ek in Hs.
    assert (H : forall y, y ∈ chan \/ (exists l, l ∈ out /\ y ∈ l) -> is_Some (packet_of m y)) by (intros y [Hy|Hy]; apply Hx; [left; by right|by right]).
    destruct link as [q|]; [destruct kept|]; injection Hs as <-; by split.
  - destruct link; injection Hs as <-; by split.
  - injection Hs as <-. by split.
  - destruct link as [[|k q]|]; [done| |done]. destruct prog; [|done]. destruct (er_step _ _ _) as [[? ?]|]; injection Hs as <-; by split.
Qed.
Theorem C172_agent_partial : forall st es s, fruns st feed0 es = Some s -> unhurried st feed0 es -> f_alive s = true.
Proof.
  intros st es s Hr Hu. assert (H0 : fine feed0).
  { split; [done|]. split; [apply keyed_empty|]. cbn. intros x [Hx|(l & Hl & _)]; by apply elem_of_nil in Hx || apply elem_of_nil in Hl. }
  revert Hr Hu H0. generalize feed0. induction es as [|e es IH]; intros s0 Hr Hu H0; cbn in *; [injection Hr as <-; apply H0|].
  destruct Hu as [Hc Hu]. destruct (fstep st s0 e) as [s1|] eqn:E; [|done]. apply (IH s1); try done. by eapply fine_step.
Qed.
Print Assumptions C172_agent_partial.

(** ** Examples *)
Definition me172 := Dtn "n1" "".
Definition hello (n : string) (now : N) : fev := FTable (PBeacon me172 now "10.0.0.2" (BeaconInfo (Dtn n "") (Some 10) [("mtcp", Some 16162)] [])).
Definition after172 (es : list fev) : feed := default feed0 (fruns Epidemic feed0 es).
Lemma after172_run es : is_Some (fruns Epidemic feed0 es) -> fruns Epidemic feed0 es = Some (after172 es).
Proof. unfold after172. by intros [s ->]. Qed.
Ltac only172 := split; [intros ? Hin; repeat (apply elem_of_cons in Hin as [Hin|Hin]; [try discriminate; by injection Hin as ->|]); by apply elem_of_nil in Hin
  |intros ? ? Hin; repeat (apply elem_of_cons in Hin as [Hin|Hin]; [discriminate|]); by apply elem_of_nil in Hin].
Ltac settled172 := repeat split; try (by vm_compute); vm_compute; repeat constructor.
(** The node gives up a neighbour after four failed transfers; the program is not told. *)
Definition es172f := [FConnect; FProg; hello "b" 100; FSend 0; FAgent true; FProg;
  FTable (PFail "b"); FTable (PFail "b"); FTable (PFail "b"); FTable (PFail "b")].
Theorem C172_failed_refuted : ~ C172_full failures.
Proof.
  intros H. destruct (H Epidemic es172f (after172 es172f)) as (r & Hr & Hn).
  - apply after172_run. vm_compute. eauto.
  - only172.
  - settled172.
  - vm_compute in Hr. injection Hr as <-. specialize (Hn "b"). vm_compute in Hn. destruct Hn as [Hn _]. destruct Hn as [? ?]; [eauto|done].
Qed.
Print Assumptions C172_failed_refuted.
(** A peer is added over HTTP; the program is not told. *)
Definition es172h := [FConnect; FProg; FTable (PAdd (peer_new 100 (Dtn "c" "") (AIp "10.0.0.3") true None [("mtcp", Some 16162)] []))].
Theorem C172_by_hand_refuted : ~ C172_full by_hand.
Proof.
  intros H. destruct (H Epidemic es172h (after172 es172h)) as (r & Hr & Hn).
  - apply after172_run. vm_compute. eauto.
  - only172.
  - settled172.
  - vm_compute in Hr. injection Hr as <-. specialize (Hn "c"). vm_compute in Hn. destruct Hn as [_ Hn]. destruct Hn as [? ?]; [eauto|done].
Qed.
Print Assumptions C172_by_hand_refuted.
(** A silent neighbour is dropped; before this is announced, it is heard again, and
    that is announced first. *)
Definition es172r := [FConnect; FProg; hello "b" 100; FSend 0; FAgent true; FProg;
  FTable (PJanitor (PConf 20 false) 200); hello "b" 200; FSend 2; FSend 1; FAgent true; FAgent true; FProg; FProg].
Theorem C172_order_refuted : ~ C172_full silence.
Proof.
  intros H. destruct (H Epidemic es172r (after172 es172r)) as (r & Hr & Hn).
  - apply after172_run. vm_compute. eauto.
  - only172.
  - settled172.
  - vm_compute in Hr. injection Hr as <-. specialize (Hn "b"). vm_compute in Hn. destruct Hn as [_ Hn]. destruct Hn as [? ?]; [eauto|done].
Qed.
Print Assumptions C172_order_refuted.
(** A neighbour is dropped before the agent has dealt with the notification that it
    was met: the agent ends, and nothing can be forwarded any more. *)
Definition es172a := [hello "b" 100; FSend 0; FTable (PJanitor (PConf 20 false) 200); FAgent true].
Theorem C172_agent_refuted : ~ C172_agent_full silence.
Proof.
  intros H. specialize (H Epidemic es172a (after172 es172a)). assert (f_alive (after172 es172a) = true); [|by vm_compute in H0].
  apply H; [apply after172_run; vm_compute; eauto|only172].
Qed.
Print Assumptions C172_agent_refuted.
(** Two neighbours are met, one of them falls silent. *)
Definition es172 := [FTable (PAdd (peer_new 100 (Dtn "c" "") (AIp "10.0.0.3") true None [("mtcp", Some 16162)] [])); FConnect; FProg; hello "b" 100; FSend 1; FAgent true; hello "d" 190; FSend 2; FAgent true; FProg;
  FTable (PJanitor (PConf 20 false) 200); FSend 3; FAgent true; FProg; FProg].
Example C172_case : fruns Epidemic feed0 es172 = Some (after172 es172) /\ orderly Epidemic feed0 es172 /\ unhurried Epidemic feed0 es172 /\ settled (after172 es172) /\
  map fst (map_to_list (f_peers (after172 es172))) = ["d"; "c"].
Proof.
  split; [apply after172_run; vm_compute; eauto|]. split; [vm_compute; repeat split; repeat constructor|]. split; [vm_compute; repeat split; repeat constructor|].
  split; [settled172|]. by vm_compute.
Qed.
