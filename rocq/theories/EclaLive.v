(** What packets cannot do to external convergence layers (C82), and transfers (C83). *)
From stdpp Require Import prelude strings pretty gmap.
From Coq Require Import NArith Lia.
From Verif Require Import Bytes Cbor Core IdProofs PullProofs Peers Routing Beacon Ecla EclaProofs EclaInv.
Open Scope N_scope.

Definition is_register (p : packet) : Prop := match p with PRegister _ _ _ => True | _ => False end.
Definition no_name (e : eid) : Prop := eid_node e = None.

Section live.
Context (dec_bundle : list N -> option bundle)
  (read_block : list N -> option (list (string * option N) * list (N * string)))
  (own_block : list layer -> option (list N))
  (self : eid) (nodeid : string) (connectors : list kind).
Notation send_beacon := (send_beacon own_block self).
Notation handle_packet := (handle_packet dec_bundle read_block own_block self nodeid connectors).
Notation announce_all := (announce_all own_block self connectors).
Notation tick := (tick own_block self connectors).
Notation submit_all := (submit_all dec_bundle connectors).
Notation scheduled_submission := (scheduled_submission dec_bundle connectors).
Notation step := (step dec_bundle read_block own_block self nodeid connectors).
Notation runs := (runs dec_bundle read_block own_block self nodeid connectors).

(** Only packets were sent, and no close channel used (but that of [ka]) *)
Definition same_close (ex : option (kind * string)) (s s' : ecla) : Prop :=
  forall ka c', e_conns s' !! ka = Some c' -> cn_close c' = false -> ex = Some ka \/ exists c, e_conns s !! ka = Some c /\ cn_close c = false.
Lemma same_close_refl ex s : same_close ex s s.
Proof. intros ka c H1 H2. right. eauto. Qed.
Lemma same_close_conns ex s s' : e_conns s' = e_conns s -> same_close ex s s'.
Proof. intros E ka c H1 H2. right. rewrite E in H1. eauto. Qed.
Lemma same_close_trans ex s1 s2 s3 : same_close ex s1 s2 -> same_close ex s2 s3 -> same_close ex s1 s3.
Proof. intros H1 H2 ka c Hc Hf. destruct (H2 ka c Hc Hf) as [H|(c2 & H & Hf2)]; [by left|]. by apply (H1 ka c2). Qed.
(** [r] continues with [next], and nothing panicked *)
Definition calm (ex : option (kind * string)) (s : ecla) (next : ecla -> res) (r : res) : Prop :=
  exists s1, quiet s s1 /\ same_close ex s s1 /\ r = next s1.
Lemma locked_fine l h s k : e_bad s = [] -> locked l h s k = k s.
Proof. intros H. unfold locked. rewrite H. rewrite bool_decide_eq_false_2; [done|]. apply not_elem_of_nil. Qed.
Lemma calm_then ex s next r next0 : calm ex s next r -> (forall s1, quiet s s1 -> same_close ex s s1 -> calm ex s1 next0 (next s1)) -> calm ex s next0 r.
Proof.
  intros (s1 & Hq & Hc & ->) Hn. destruct (Hn s1 Hq Hc) as (s2 & Hq2 & Hc2 & ->). exists s2. split_and!; [by eapply quiet_trans|by eapply same_close_trans|done].
Qed.
Lemma calm_intro ex s s1 next : quiet s s1 -> same_close ex s s1 -> calm ex s next (next s1).
Proof. intros H1 H2. exists s1. done. Qed.
Lemma calm_fine ex s : calm ex s Fine (Fine s).
Proof. exists s. split_and!; [apply quiet_refl|apply same_close_refl|done]. Qed.
Lemma send_calm ex k a p held s next : e_bad s = [] -> calm ex s next (send_packet k a p held s next).
Proof.
  intros Hb. unfold send_packet. rewrite locked_fine by done.
  destruct (e_conns s !! (k, a)) as [c|] eqn:E; [destruct (_ <? _)%nat|].
  - apply calm_intro; [apply quiet_both; [done|]; apply quiet_conns; by rewrite E|].
    intros ka c' H Hf. cbn in H. apply lookup_insert_Some in H as [[<- <-]|[_ H]]; right; eauto.
  - apply calm_intro; [by apply quiet_note|by apply same_close_conns].
  - apply calm_intro; [by apply quiet_note|by apply same_close_conns].
Qed.
Lemma close_calm k a held s next : e_bad s = [] -> (forall c, e_conns s !! (k, a) = Some c -> cn_close c = true) ->
  calm (Some (k, a)) s next (close k a held s next).
Proof.
  intros Hb Hc. unfold close. rewrite locked_fine by done. destruct (e_conns s !! (k, a)) as [c|] eqn:E.
  - rewrite (Hc c eq_refl). apply calm_intro.
    + apply quiet_conns. by rewrite E.
    + intros ka c' H Hf. cbn in H. apply lookup_insert_Some in H as [[<- <-]|[_ H]]; [by left|right; eauto].
  - apply calm_intro; [apply quiet_refl|apply same_close_refl].
Qed.

Context (Hown : forall ls, is_Some (own_block ls)).
Lemma beacon_calm ex k a held s next : e_bad s = [] -> calm ex s next (send_beacon k a held s next).
Proof. intros Hb. unfold Ecla.send_beacon. destruct (Hown (e_layers s)) as [blk ->]. by apply send_calm. Qed.
Lemma announce_calm ex l : forall s, e_bad s = [] -> calm ex s Fine (announce_all l s).
Proof.
  induction l as [|[a m] l IH]; intros s Hb; cbn [Ecla.announce_all]; [apply calm_fine|].
  rewrite locked_fine by done. case_bool_decide; [|by apply IH].
  eapply calm_then; [by apply beacon_calm|]. intros s1 Hq _. apply IH. by rewrite (q_bad _ _ Hq).
Qed.
Lemma submit_all_calm ex n d r l : forall was s, e_bad s = [] -> calm ex s Fine (submit_all n d r l was s).
Proof.
  induction l as [|[a m] l IH]; intros was s Hb; cbn [Ecla.submit_all].
  - apply (calm_intro ex s (note _ s) Fine); [by apply quiet_note|by apply same_close_conns].
  - destruct (dec_bundle r); [|by apply IH]. destruct (_ && _); [|by apply IH].
    eapply calm_then; [by apply send_calm|]. intros s1 Hq _. apply IH. by rewrite (q_bad _ _ Hq).
Qed.
Lemma handle_packet_calm i now k a p s : e_bad s = [] ->
  match p with PRegister _ _ _ => forall c, e_conns s !! (k, a) = Some c -> cn_close c = true
             | PBeacon e _ blk => is_Some (read_block blk) /\ is_Some (eid_node e) | _ => True end ->
  exists s', handle_packet i now k a p s = Fine s' /\ e_bad s' = [] /\ same_close (match p with PRegister _ _ _ => Some (k, a) | _ => None end) s s'.
Proof.
  intros Hb Hp.
  assert (Hsame : forall ex, exists s', Fine s = Fine s' /\ e_bad s' = [] /\ same_close ex s s').
  { intros ex. exists s. split_and!; [done..|]. apply same_close_refl. }
  unfold Ecla.handle_packet. rewrite locked_fine by done. destruct (e_modules s !! a) as [me|]; [|apply Hsame].
  rewrite locked_fine by done. destruct (negb (bool_decide (k ∈ connectors))); [apply Hsame|].
  destruct (md_active me); cbn [negb].
  - destruct p; try apply Hsame.
    + destruct Hp as [[[clas sv] ->] [nd Hn]]. unfold peers_add. cbn [pe_eid peer_new]. rewrite Hn. eexists. split_and!; [done|done|].
      intros ka c Hc Hf. right. eauto.
    + destruct (dec_bundle data); [|apply Hsame]. eexists. split_and!; [done|done|]. intros ka c Hc Hf. right. eauto.
  - destruct p as [name b port|e ad blk|x y z dd|e x|rs]; try apply Hsame.
    assert (Hcl : forall r, calm (Some (k, a)) s Fine r -> exists s', r = Fine s' /\ e_bad s' = [] /\ same_close (Some (k, a)) s s').
    { intros r (s1 & Hq & Hc & ->). exists s1. split_and!; [done| |done]. by rewrite (q_bad _ _ Hq). }
    assert (Hrej : forall q h, exists s', send_packet k a q h s (fun s => close k a h s Fine) = Fine s' /\ e_bad s' = [] /\ same_close (Some (k, a)) s s').
    { intros q h. apply Hcl. destruct (send_calm None k a q h s (fun s => close k a h s Fine) Hb) as (s1 & Hq & Hs & ->).
      destruct (close_calm k a h s1 Fine) as (s2 & Hq2 & Hs2 & ->).
      - by rewrite (q_bad _ _ Hq).
      - intros c Hc. destruct (cn_close c) eqn:Hf; [done|]. destruct (Hs _ _ Hc Hf) as [?|(c2 & Hc2 & Hf2)]; [done|]. by rewrite (Hp _ Hc2) in Hf2.
      - exists s2. split_and!; [by eapply quiet_trans| |done]. intros ka c Hc Hf. destruct (Hs2 ka c Hc Hf) as [?|(c1 & Hc1 & Hf1)]; [by left|].
        destruct (Hs ka c1 Hc1 Hf1) as [?|?]; [done|auto]. }
    destruct (_ || _); [apply Hrej|]. destruct (negb _); [|apply Hrej]. cbn zeta.
    match goal with |- context [send_packet _ _ _ _ ?st _] => destruct (send_calm None k a (PRegistered self nodeid) [LConnectors; LModules] st (fun s => send_beacon k a [LConnectors; LModules] s Fine) Hb) as (s1 & Hq & Hs & ->) end.
    destruct (beacon_calm None k a [LConnectors; LModules] s1 Fine) as (s2 & Hq2 & Hs2 & ->); [by rewrite (q_bad _ _ Hq)|].
    exists s2. split_and!; [done|by rewrite (q_bad _ _ Hq2), (q_bad _ _ Hq)|].
    intros ka c Hc Hf. destruct (Hs2 ka c Hc Hf) as [?|(c1 & Hc1 & Hf1)]; [done|]. destruct (Hs ka c1 Hc1 Hf1) as [?|(c2 & Hc2 & Hf2)]; [done|].
    right. exists c2. done.
Qed.

Definition key (i : nat) (s : ecla) : option (kind * string) := (fun t => (t_kind t, t_addr t)) <$> e_tasks s !! i.
Definition readable (p : packet) : Prop := match p with PBeacon e _ blk => is_Some (read_block blk) /\ is_Some (eid_node e) | _ => True end.
Definition ok_event (s : ecla) (e : event) : Prop :=
  match e with
  | EJunk _ => False
  | EPacket i _ p => readable p /\ (is_register p -> forall ka c, key i s = Some ka -> e_conns s !! ka = Some c -> cn_close c = true)
  | _ => True
  end.
Lemma step_calm e s s' : step e s = Some s' -> e_bad s = [] -> ok_event s e ->
  e_bad s' = [] /\ same_close (match e with EPacket i _ (PRegister _ _ _) => key i s | _ => None end) s s'.
Proof.
  intros Hs Hb Hok. destruct e as [k ip port|i|i now p|i|i|i|i|i|i|k a n| |n d r]; cbn [Ecla.step ok_event] in Hs, Hok.
  - case_decide as Hd; [done|]. injection Hs as <-. rewrite locked_fine by (by destruct k). cbn [after]. split; [by destruct k|].
    intros ka c Hc Hf. assert (Hc' : <[(k, address k ip port s) := Conn true []]> (e_conns s) !! ka = Some c) by (by destruct k).
    apply lookup_insert_Some in Hc' as [[_ <-]|[_ Hc']]; [done|]. right. eauto.
  - destruct (e_tasks s !! i) as [[k a [] g]|] eqn:Et; try done. injection Hs as <-. unfold handle_connect. rewrite locked_fine by done.
    split; [done|]. by apply same_close_conns.
  - destruct Hok as [Hr Hcl].
    assert (Hgo : forall k a ph g, e_tasks s !! i = Some (Task k a ph g) -> exists s1, handle_packet i now k a p s = Fine s1 /\ e_bad s1 = [] /\
       same_close (match p with PRegister _ _ _ => key i s | _ => None end) s s1).
    { intros k a ph g Et. assert (Hk : key i s = Some (k, a)) by (unfold key; by rewrite Et). rewrite Hk. apply handle_packet_calm; [done|].
      destruct p; try done. intros c Hc. by apply (Hcl I (k, a)). }
    destruct (e_tasks s !! i) as [[k a ph g]|] eqn:Et; [|done]. destruct (Hgo k a ph g eq_refl) as (s1 & E & Hb1 & Hsc).
    destruct k, ph; try done; injection Hs as <-.
    + rewrite locked_fine by done. destruct (e_conns s !! (WS, a)) as [c|]; cbn [after]; [rewrite E|]; cbn [after]; rewrite upd_id; [done|].
      split; [done|]. apply same_close_refl.
    + rewrite E. cbn [after]. by rewrite upd_id.
  - done.
  - destruct (e_tasks s !! i); [|done]. injection Hs as <-. split; [done|]. by apply same_close_conns.
  - destruct (e_tasks s !! i) as [[k a ph g]|]; [|done]. destruct k, ph; try done; injection Hs as <-.
    + split; [done|]. by apply same_close_conns.
    + rewrite locked_fine by done. split; [done|]. intros ka c Hc Hf. cbn in Hc. apply lookup_delete_Some in Hc as [_ Hc]. right. eauto.
  - destruct (e_tasks s !! i) as [[k a [] g]|]; try done. injection Hs as <-. unfold disconnect1. rewrite locked_fine by done.
    destruct (e_modules s !! a) as [[[] n k']|]; (split; [done|by apply same_close_conns]).
  - destruct (e_tasks s !! i) as [[k a [] g]|]; try done. injection Hs as <-. unfold disconnect2. rewrite locked_fine by done.
    split; [done|by apply same_close_conns].
  - destruct (e_tasks s !! i) as [[k a ph g]|]; [|done]. destruct k, ph; try done; injection Hs as <-. rewrite locked_fine by done.
    split; [done|]. intros ka c Hc Hf. cbn in Hc. apply lookup_delete_Some in Hc as [_ Hc]. right. eauto.
  - destruct (e_conns s !! (k, a)) as [c0|] eqn:Ec; [|done]. injection Hs as <-. split; [done|].
    intros ka c Hc Hf. cbn in Hc. apply lookup_insert_Some in Hc as [[<- <-]|[_ Hc]]; right; eauto.
  - destruct (e_announcer s); [|done]. injection Hs as <-. unfold Ecla.tick. rewrite locked_fine by done.
    destruct (announce_calm None (map_to_list (e_modules s)) s Hb) as (s1 & Hq & Hc & ->). split; [by rewrite (q_bad _ _ Hq)|done].
  - injection Hs as <-. unfold Ecla.scheduled_submission. rewrite !locked_fine by done.
    destruct (submit_all_calm None n d r (map_to_list (e_modules s)) false s Hb) as (s1 & Hq & Hc & ->). split; [by rewrite (q_bad _ _ Hq)|done].
Qed.

(** Tasks keep their connection, and finished ones stay so *)
Lemma sfx_tasks s e s' : EclaProofs.sfx dec_bundle read_block s e s' -> forall i t', e_tasks s' !! i = Some t' ->
  (exists t, e_tasks s !! i = Some t /\ t_kind t' = t_kind t /\ t_addr t' = t_addr t /\ (t_phase t = Finished -> t_phase t' = Finished)) \/
  (exists k ip port, e = EOpen k ip port /\ t_kind t' = k /\ t_addr t' = address k ip port s /\ e_conns s' !! (k, address k ip port s) = Some (Conn true [])).
Proof.
  intros Hs i t' Ht'.
  assert (Hup : forall j f s1 t, e_tasks s1 = e_tasks s -> e_tasks s !! j = Some t -> t_phase t <> Finished ->
     (forall t, t_kind (f t) = t_kind t /\ t_addr (f t) = t_addr t) -> e_tasks (upd j f s1) !! i = Some t' ->
     exists t, e_tasks s !! i = Some t /\ t_kind t' = t_kind t /\ t_addr t' = t_addr t /\ (t_phase t = Finished -> t_phase t' = Finished)).
  { intros j f s1 t E Hj Hp Hf H. rewrite upd_lookup, E in H. destruct (decide (j = i)) as [->|].
    - rewrite Hj in H. injection H as <-. exists t. split; [done|]. split_and!; [apply Hf..|done].
    - exists t'. done. }
  assert (Hqt : forall s1, e_tasks s1 = e_tasks s -> e_tasks s1 !! i = Some t' ->
     exists t, e_tasks s !! i = Some t /\ t_kind t' = t_kind t /\ t_addr t' = t_addr t /\ (t_phase t = Finished -> t_phase t' = Finished)).
  { intros s1 E H. rewrite E in H. exists t'. done. }
  destruct Hs as [k ip port a n Ha Hn Hg|j k a g Hi|j now p k a g s1 Hi Hp|e s1 _ Hq|j t Hi|j a g Hi|j a g Hi|j k a g n k' Hi Hm|j k a g Hi Hm|j k a g Hi|j a g Hi].
  - cbn in Ht'. apply lookup_app_Some in Ht' as [Ht'|[_ Ht']]; [left; exists t'; done|]. right. apply list_lookup_singleton_Some in Ht' as [_ <-].
    exists k, ip, port. cbn. split_and!; try done. rewrite <- Ha. apply lookup_insert.
  - left. by eapply Hup in Ht'.
  - left. destruct Hp as [p s2 Hq|name x port k' n s2 Hm Hne Hnot Hq|x y z data bd n k' Hm Hd|e addr blk clas sv n k' m u Hm Hr Ha];
      (eapply Hqt; [|exact Ht']); try done; by rewrite (q_tasks _ _ Hq).
  - left. eapply Hqt; [|exact Ht']. apply Hq.
  - left. rewrite upd_lookup in Ht'. destruct (decide (j = i)) as [->|]; [|by exists t']. rewrite Hi in Ht'. injection Ht' as <-. by exists t.
  - left. by eapply Hup in Ht'.
  - left. by eapply Hup in Ht'.
  - left. by eapply Hup in Ht'.
  - left. by eapply Hup in Ht'.
  - left. by eapply Hup in Ht'.
  - left. by eapply Hup in Ht'.
Qed.

Definition sent_register (evs : list event) (i : nat) : Prop := exists now p, EPacket i now p ∈ evs /\ is_register p.
(** Modules that send one Register, only readable beacons, and only text *)
Definition behaved (evs : list event) : Prop :=
  (forall i, EJunk i ∉ evs) /\ (forall i now p, EPacket i now p ∈ evs -> readable p) /\
  forall evs1 i now p evs2, evs = evs1 ++ EPacket i now p :: evs2 -> is_register p -> ~ sent_register evs1 i.
Lemma behaved_prefix evs e : behaved (evs ++ [e]) -> behaved evs.
Proof.
  intros (H1 & H2 & H3). split_and!.
  - intros i Hi. apply (H1 i). apply elem_of_app. by left.
  - intros i now p Hi. eapply (H2 i now p). apply elem_of_app. by left.
  - intros evs1 i now p evs2 -> Hp. eapply (H3 evs1 i now p (evs2 ++ [e])); [|done]. by rewrite <- app_assoc.
Qed.
Lemma alive builtin ps evs s : Forall (fun l => ly_ext l = false) builtin -> runs (start builtin ps) evs s -> behaved evs ->
  no_reuse dec_bundle read_block own_block self nodeid connectors (start builtin ps) evs ->
  e_bad s = [] /\ forall i t c, e_tasks s !! i = Some t -> t_phase t <> Finished -> e_conns s !! (t_kind t, t_addr t) = Some c -> cn_close c = false ->
    sent_register evs i.
Proof.
  intros Hbi H. induction H as [|evs e s s' H IH Hs]; intros Hbe Hr; [done|].
  destruct IH as [Hb HF]; [by eapply behaved_prefix| |].
  { intros evs1 ip port evs2 s1 -> Hr1. eapply (Hr evs1 ip port (evs2 ++ [e])); [|done]. by rewrite <- app_assoc. }
  assert (Hinv : einv builtin s).
  { eapply einv_runs; try done. intros evs1 ip port evs2 s1 -> Hr1. eapply (Hr evs1 ip port (evs2 ++ [e])); [|done]. by rewrite <- app_assoc. }
  destruct Hbe as (Hj & Hrd & Hreg).
  assert (Hok : ok_event s e).
  { destruct e; cbn; try done; [|by eapply (Hj i), elem_of_app; right; left]. split; [eapply Hrd, elem_of_app; right; by left|].
    intros Hp ka c Hk Hc. destruct (cn_close c) eqn:Hf; [done|]. exfalso. apply (Hreg evs i now p [] eq_refl Hp).
    unfold key in Hk. destruct (e_tasks s !! i) as [t|] eqn:Et; [|done]. injection Hk as <-. eapply HF; try done.
    intros Hfin. cbn [Ecla.step] in Hs. rewrite Et in Hs. destruct t as [k a ph g]. cbn in Hfin. subst ph. by destruct k. }
  destruct (step_calm e s s' Hs Hb Hok) as [Hb' Hsc]. split; [done|].
  pose proof (step_fine _ _ _ _ _ _ _ _ _ Hs Hb') as Hf.
  intros i t' c Ht' Hp Hc Hcl. destruct (sfx_tasks _ _ _ Hf i t' Ht') as [(t & Ht & Hk & Ha & Hpp)|(k & ip & port & -> & Hk & Ha & Hx)].
  - assert (Hpt : t_phase t <> Finished) by (intros E; by apply Hp, Hpp). rewrite Hk, Ha in Hc.
    destruct (Hsc _ _ Hc Hcl) as [He|(c0 & Hc0 & Hf0)].
    + destruct e as [| |j now p| | | | | | | | |]; try done. destruct p; try done. unfold key in He.
      destruct (e_tasks s !! j) as [u|] eqn:Eu; [|done]. injection He as Hk' Ha'.
      assert (Hpu : t_phase u <> Finished).
      { intros Hfin. cbn [Ecla.step] in Hs. rewrite Eu in Hs. destruct u as [k a ph g]. cbn in Hfin. subst ph. by destruct k. }
      assert (i = j) as -> by (by eapply (v_uniq _ _ Hinv)). exists now, (PRegister name beacon port). split; [|done]. apply elem_of_app. right. by left.
    + destruct (HF i t c0 Ht Hpt Hc0 Hf0) as (now & p & Hi & Hpr). exists now, p. split; [|done]. apply elem_of_app. by left.
  - rewrite Hk, Ha, Hx in Hc. injection Hc as <-. done.
Qed.

(** A module that comes next can register *)
Lemma can_register s now name b port : e_bad s = [] -> WS ∈ connectors -> name <> "" -> (String.length name <= 64)%nat -> name ∉ map ly_name (e_layers s) ->
  exists s', exec dec_bundle read_block own_block self nodeid connectors
      [EOpen WS "" 0; EInit (length (e_tasks s)); EPacket (length (e_tasks s)) now (PRegister name b port)] s = Some s' /\
    e_tasks s' !! length (e_tasks s) = Some (Task WS (ws_addr (e_ids s)) Up false) /\
    e_log s' !! length (e_log s) = Some (OAccepted (length (e_tasks s)) name) /\
    (exists q, e_conns s' !! (WS, ws_addr (e_ids s)) = Some (Conn true (PRegistered self nodeid :: q))) /\
    Layer name (default 0 port) true ∈ e_layers s'.
Proof.
  intros Hb HW Hne Hlen Hfree. set (i := length (e_tasks s)). set (a := ws_addr (e_ids s)).
  cbn [exec Ecla.step]. rewrite decide_False by (by intros [? _]). rewrite locked_fine by done. cbn [after].
  rewrite upd_id. match goal with |- context [EPacket] => idtac | |- context [e_tasks ?st !! i] => set (s1 := st) end.
  assert (E1 : e_tasks s1 !! i = Some (Task WS a Fresh false)).
  { subst s1. cbn. apply list_lookup_middle. done. }
  rewrite E1. unfold handle_connect. rewrite locked_fine by done. cbn [after].
  match goal with |- context [e_tasks ?st !! i] => set (s2 := st) end.
  assert (E2 : e_tasks s2 !! i = Some (Task WS a Up false)).
  { exact (upd_this i (set_phase Up) (set_modules _ s1) _ E1). }
  rewrite E2. rewrite locked_fine by done.
  assert (E3 : e_conns s2 !! (WS, a) = Some (Conn true [])) by (subst s2 s1; cbn; apply lookup_insert).
  rewrite E3. unfold Ecla.handle_packet. rewrite locked_fine by done.
  assert (E4 : e_modules s2 !! a = Some (Module false "" WS)) by (subst s2; cbn; apply lookup_insert).
  rewrite E4. rewrite locked_fine by done. rewrite (bool_decide_eq_true_2 (WS ∈ connectors)) by done. cbn [negb md_active].
  rewrite bool_decide_eq_false_2 by done. cbn [orb]. rewrite (proj2 (Nat.ltb_ge _ _)) by done.
  rewrite bool_decide_eq_false_2 by done. cbn [negb]. cbn zeta.
  match goal with |- context [send_packet _ _ _ _ ?st _] => set (s3 := st) end.
  unfold send_packet at 1. rewrite locked_fine by done.
  change (e_conns s3) with (e_conns s2). rewrite E3. cbn [cn_queue length app cn_close]. change ((0 <? 100)%nat) with true. cbn iota.
  match goal with |- context [send_beacon _ _ _ ?st _] => set (s4 := st) end.
  unfold Ecla.send_beacon. destruct (Hown (e_layers s4)) as [blk ->]. unfold send_packet. rewrite locked_fine by done.
  assert (E5 : e_conns s4 !! (WS, a) = Some (Conn true [PRegistered self nodeid])) by (subst s4; cbn; apply lookup_insert).
  rewrite E5. cbn [cn_queue length app cn_close]. change ((1 <? 100)%nat) with true. cbn iota. cbn [after]. rewrite upd_id.
  eexists. split; [reflexivity|]. split_and!.
  - exact E2.
  - cbn. change (e_log s2) with (e_log s). rewrite <- !app_assoc. by apply list_lookup_middle.
  - eexists. cbn. apply lookup_insert.
  - cbn. apply elem_of_app. right. by left.
Qed.
End live.

Section transfers.
Context (dec_bundle : list N -> option bundle)
  (read_block : list N -> option (list (string * option N) * list (N * string)))
  (own_block : list layer -> option (list N))
  (self : eid) (nodeid : string) (connectors : list kind).
Notation submit_all := (submit_all dec_bundle connectors).
Notation scheduled_submission := (scheduled_submission dec_bundle connectors).
Notation step := (step dec_bundle read_block own_block self nodeid connectors).
Notation runs := (runs dec_bundle read_block own_block self nodeid connectors).

Definition serves (n : string) (m : module) : Prop := md_name m = n /\ md_kind m ∈ connectors.
Lemma submit_all_log n d r l : forall was s, e_bad s = [] -> NoDup l.*1 ->
  exists s' sent was', submit_all n d r l was s = Fine s' /\ e_log s' = e_log s ++ sent ++ [OReport n d r (Some was')] /\
    (was' = true <-> was = true \/ is_Some (dec_bundle r) /\ exists a m, (a, m) ∈ l /\ serves n m) /\
    (forall o, o ∈ sent -> exists a m b, (a, m) ∈ l /\ serves n m /\ dec_bundle r = Some b /\
       (o = OQueued (md_kind m) a (PForward "" d (bid b) r) \/ o = ODropped (md_kind m) a (PForward "" d (bid b) r))) /\
    (forall a m b c, (a, m) ∈ l -> serves n m -> dec_bundle r = Some b -> e_conns s !! (md_kind m, a) = Some c -> (length (cn_queue c) < 100)%nat ->
       OQueued (md_kind m) a (PForward "" d (bid b) r) ∈ sent).
Proof.
  induction l as [|[a m] l IH]; intros was s Hb Hnd; cbn [Ecla.submit_all].
  - exists (note (OReport n d r (Some was)) s), [], was. split_and!; [done|done| | |].
    + split; [auto|]. intros [?|(_ & ? & ? & ?%elem_of_nil & _)]; done.
    + by intros o ?%elem_of_nil.
    + by intros ? ? ? ? ?%elem_of_nil.
  - cbn in Hnd. apply NoDup_cons in Hnd as [Hna Hnd].
    destruct (dec_bundle r) as [b|] eqn:Ed.
    2:{ destruct (IH was s Hb Hnd) as (s' & sent & was' & H1 & H2 & H3 & H4 & H5). exists s', sent, was'. split_and!; [done|done| | |].
        - rewrite H3. split; [intros [?|[[? ?] _]]; [auto|done]|intros [?|[[? ?] _]]; [auto|done]].
        - intros o Ho. destruct (H4 o Ho) as (? & ? & ? & _ & _ & ? & _). done.
        - done. }
    destruct (bool_decide (md_name m = n) && bool_decide (md_kind m ∈ connectors)) eqn:Es.
    + apply andb_true_iff in Es as [Es1%bool_decide_eq_true Es2%bool_decide_eq_true].
      unfold send_packet. rewrite locked_fine by done.
      set (pk := PForward "" d (bid b) r).
      assert (Hrest : forall o s1, (o = OQueued (md_kind m) a pk \/ o = ODropped (md_kind m) a pk) -> e_bad s1 = [] -> e_log s1 = e_log s ++ [o] ->
        (forall k' a', a' <> a -> e_conns s1 !! (k', a') = e_conns s !! (k', a')) ->
        (forall c, e_conns s !! (md_kind m, a) = Some c -> (length (cn_queue c) < 100)%nat -> o = OQueued (md_kind m) a pk) ->
        exists s' sent was', submit_all n d r l true s1 = Fine s' /\ e_log s' = e_log s ++ sent ++ [OReport n d r (Some was')] /\
          (was' = true <-> was = true \/ is_Some (Some b) /\ exists a' m', (a', m') ∈ (a, m) :: l /\ serves n m') /\
          (forall o, o ∈ sent -> exists a' m' b', (a', m') ∈ (a, m) :: l /\ serves n m' /\ Some b = Some b' /\
             (o = OQueued (md_kind m') a' (PForward "" d (bid b') r) \/ o = ODropped (md_kind m') a' (PForward "" d (bid b') r))) /\
          (forall a' m' b' c, (a', m') ∈ (a, m) :: l -> serves n m' -> Some b = Some b' -> e_conns s !! (md_kind m', a') = Some c -> (length (cn_queue c) < 100)%nat ->
             OQueued (md_kind m') a' (PForward "" d (bid b') r) ∈ sent)).
      { intros o s1 Ho Hb1 Hl Hc Hq. destruct (IH true s1 Hb1 Hnd) as (s' & sent & was' & H1 & H2 & H3 & H4 & H5).
        exists s', (o :: sent), was'. split_and!; [done| | | |].
        - rewrite H2, Hl, <- app_assoc. done.
        - split; [|intros _; apply H3; by left]. intros _. right. split; [done|]. exists a, m. split; [by left|done].
        - intros o' [-> | Ho']%elem_of_cons.
          + exists a, m, b. split; [by left|done].
          + destruct (H4 o' Ho') as (a' & m' & b' & Hin & Hsv & Hd & Hx). exists a', m', b'. split; [by right|done].
        - intros a' m' b' c Hin Hsv Hb' Hcc Hlen. apply elem_of_cons. apply elem_of_cons in Hin as [Hin|Hin].
          + injection Hin as -> ->. injection Hb' as <-. left. symmetry. by eapply Hq.
          + right. eapply H5; try done. rewrite Hc; [done|]. intros ->. apply Hna. apply elem_of_list_fmap. by exists (a, m'). }
      destruct (e_conns s !! (md_kind m, a)) as [c|] eqn:Ec; [destruct (length (cn_queue c) <? 100)%nat eqn:El|].
      * eapply Hrest; [by left|done|done| |done].
        intros k' a' Hne. cbn. apply lookup_insert_ne. congruence.
      * eapply Hrest; [by right|done|done|done|]. intros c' Hc' Hlen. injection Hc' as <-. apply Nat.ltb_ge in El. lia.
      * by eapply Hrest; [by right|done|done|done|].
    + assert (Hno : ~ serves n m).
      { intros [H1 H2]. rewrite !bool_decide_eq_true_2 in Es by done. done. }
      destruct (IH was s Hb Hnd) as (s' & sent & was' & H1 & H2 & H3 & H4 & H5). exists s', sent, was'. split_and!; [done|done| | |].
      * rewrite H3. split.
        -- intros [?|[Hd (a' & m' & Hin & Hsv)]]; [auto|]. right. split; [done|]. exists a', m'. split; [by right|done].
        -- intros [?|[Hd (a' & m' & Hin & Hsv)]]; [auto|]. right. split; [done|]. exists a', m'. split; [|done].
           apply elem_of_cons in Hin as [[= -> ->]|Hin]; done.
      * intros o Ho. destruct (H4 o Ho) as (a' & m' & b' & Hin & Hsv & Hd & Hx). exists a', m', b'. split; [by right|done].
      * intros a' m' b' c Hin Hsv Hd Hc Hlen. apply elem_of_cons in Hin as [[= -> ->]|Hin]; [done|]. by eapply H5.
Qed.
Lemma submission_log n d r s s' : e_bad s = [] -> step (ESubmit n d r) s = Some s' ->
  exists sent was, e_log s' = e_log s ++ sent ++ [OReport n d r (Some was)] /\
    (was = true <-> is_Some (dec_bundle r) /\ exists a m, e_modules s !! a = Some m /\ serves n m) /\
    (forall o, o ∈ sent -> exists a m b, e_modules s !! a = Some m /\ serves n m /\ dec_bundle r = Some b /\
       (o = OQueued (md_kind m) a (PForward "" d (bid b) r) \/ o = ODropped (md_kind m) a (PForward "" d (bid b) r))) /\
    (forall a m b c, e_modules s !! a = Some m -> serves n m -> dec_bundle r = Some b -> e_conns s !! (md_kind m, a) = Some c -> (length (cn_queue c) < 100)%nat ->
       OQueued (md_kind m) a (PForward "" d (bid b) r) ∈ sent).
Proof.
  intros Hb Hs. cbn [Ecla.step] in Hs. injection Hs as <-. unfold Ecla.scheduled_submission. rewrite !locked_fine by done.
  destruct (submit_all_log n d r (map_to_list (e_modules s)) false s Hb) as (s' & sent & was & H1 & H2 & H3 & H4 & H5); [apply NoDup_fst_map_to_list|].
  rewrite H1. exists sent, was. split; [done|]. split_and!.
  - rewrite H3. split.
    + intros [?|[Hd (a & m & Hin & Hsv)]]; [done|]. split; [done|]. exists a, m. by rewrite <- elem_of_map_to_list.
    + intros [Hd (a & m & Hin & Hsv)]. right. split; [done|]. exists a, m. by rewrite elem_of_map_to_list.
  - intros o Ho. destruct (H4 o Ho) as (a & m & b & Hin & Hx). exists a, m, b. by rewrite <- elem_of_map_to_list.
  - intros a m b c Hin. apply H5. by apply elem_of_map_to_list.
Qed.
End transfers.
