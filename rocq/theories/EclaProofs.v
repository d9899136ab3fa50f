(** Proofs about external convergence layers. *)
From stdpp Require Import prelude strings pretty gmap.
From Coq Require Import NArith Lia.
From Verif Require Import Bytes Cbor Core IdProofs PullProofs Peers Routing Beacon Ecla.
Open Scope N_scope.

Definition harmless (o : obs) : Prop := match o with OAccepted _ _ | OBundle _ _ | OPeer _ _ => False | _ => True end.
(** Only packets were sent *)
Record quiet (s s' : ecla) : Prop := {
  q_modules : e_modules s' = e_modules s;
  q_layers : e_layers s' = e_layers s;
  q_peers : e_peers s' = e_peers s;
  q_bad : e_bad s' = e_bad s;
  q_tasks : e_tasks s' = e_tasks s;
  q_announcer : e_announcer s' = e_announcer s;
  q_ids : e_ids s' = e_ids s;
  q_conns : forall k a, is_Some (e_conns s' !! (k, a)) <-> is_Some (e_conns s !! (k, a));
  q_log : exists l, e_log s' = e_log s ++ l /\ Forall harmless l
}.
Lemma quiet_refl s : quiet s s.
Proof. split; try done. exists []. by rewrite app_nil_r. Qed.
Lemma quiet_trans s1 s2 s3 : quiet s1 s2 -> quiet s2 s3 -> quiet s1 s3.
Proof.
  intros [a1 a2 a3 a4 a5 a6 a7 a8 (l & a9 & a10)] [b1 b2 b3 b4 b5 b6 b7 b8 (l' & b9 & b10)]. split; try congruence.
  - intros k a. by rewrite b8.
  - exists (l ++ l'). rewrite b9, a9, app_assoc. split; [done|]. by apply Forall_app.
Qed.
Lemma quiet_note o s : harmless o -> quiet s (note o s).
Proof. intros H. split; try done. exists [o]. split; [done|]. by apply Forall_singleton. Qed.
Lemma quiet_conns k a c s : is_Some (e_conns s !! (k, a)) -> quiet s (set_conns (<[(k, a) := c]> (e_conns s)) s).
Proof.
  intros H. split; try done.
  - intros k' a'. cbn. rewrite lookup_insert_is_Some'. destruct (decide ((k, a) = (k', a'))) as [[= <- <-]|]; tauto.
  - exists []. by rewrite app_nil_r.
Qed.
Lemma quiet_both s s1 : forall o, harmless o -> quiet s s1 -> quiet s (note o s1).
Proof. intros o Ho H. eapply quiet_trans; [exact H|by apply quiet_note]. Qed.

(** [r] is what [next] does after only packets were sent, or a panic *)
Definition goes (s : ecla) (next : ecla -> res) (r : res) : Prop :=
  (exists s1, quiet s s1 /\ r = next s1) \/ (exists s1 held, quiet s s1 /\ r = boom held s1 /\ e_bad (poison held s1) <> []).
Lemma locked_goes l held s k r : locked l held s k = r -> r = k s \/ (r = boom held s /\ e_bad (poison held s) <> []).
Proof.
  unfold locked. case_bool_decide as H; [|auto]. intros <-. right. split; [done|]. cbn.
  intros E. apply app_eq_nil in E as [_ E]. rewrite E in H. by apply elem_of_nil in H.
Qed.
Lemma boom_bad held s : held <> [] -> e_bad (poison held s) <> [].
Proof. cbn. by destruct held. Qed.

Lemma goes_bad s next r held : r = boom held s /\ e_bad (poison held s) <> [] -> goes s next r.
Proof. intros [-> H]. right. exists s, held. split; [apply quiet_refl|done]. Qed.

Section ecla.
Context (dec_bundle : list N -> option bundle)
  (read_block : list N -> option (list (string * option N) * list (N * string)))
  (own_block : list layer -> option (list N))
  (self : eid) (nodeid : string) (connectors : list kind).
Notation send_beacon := (send_beacon own_block self).
Notation handle_packet := (handle_packet dec_bundle read_block own_block self nodeid connectors).
Notation announce_all := (announce_all own_block self connectors).
Notation tick := (tick own_block self connectors).
Notation submit_all := (submit_all dec_bundle connectors).
Notation scheduled_submission := (scheduled_submission dec_bundle connectors).
Notation step := (step dec_bundle read_block own_block self nodeid connectors).
Notation runs := (runs dec_bundle read_block own_block self nodeid connectors).

Lemma send_goes k a p held s next : goes s next (send_packet k a p held s next).
Proof.
  unfold send_packet. edestruct locked_goes as [-> | H]; [reflexivity| |by eapply goes_bad].
  left. destruct (e_conns s !! (k, a)) as [c|] eqn:E; [destruct (_ <? _)%nat|].
  - eexists. split; [|reflexivity]. apply quiet_both; [done|]. apply quiet_conns. by rewrite E.
  - eexists. split; [|reflexivity]. by apply quiet_note.
  - eexists. split; [|reflexivity]. by apply quiet_note.
Qed.
Lemma close_goes k a held s next : goes s next (close k a held s next).
Proof.
  unfold close. edestruct locked_goes as [-> | H]; [reflexivity| |by eapply goes_bad].
  cbn beta. destruct (e_conns s !! (k, a)) as [c|] eqn:E; [destruct (cn_close c)|].
  - left. eexists. split; [|reflexivity]. apply quiet_conns. by rewrite E.
  - eapply goes_bad. split; [reflexivity|]. by apply boom_bad.
  - left. eexists. split; [|reflexivity]. apply quiet_refl.
Qed.
Lemma beacon_goes k a held s next : held <> [] -> goes s next (send_beacon k a held s next).
Proof.
  intros Hh. unfold Ecla.send_beacon. destruct (own_block _); [apply send_goes|]. eapply goes_bad. split; [reflexivity|]. by apply boom_bad.
Qed.
Lemma goes_then s next r s0 next0 : goes s next r -> (forall s1, goes s1 next0 (next s1)) -> quiet s0 s -> goes s0 next0 r.
Proof.
  intros [(s1 & Hq & ->)|(s1 & h & Hq & -> & Hb)] Hn H0.
  - destruct (Hn s1) as [(s2 & Hq2 & ->)|(s2 & h & Hq2 & -> & Hb)].
    + left. exists s2. split; [|done]. eapply quiet_trans; [exact H0|]. by eapply quiet_trans.
    + right. exists s2, h. split; [|done]. eapply quiet_trans; [exact H0|]. by eapply quiet_trans.
  - right. exists s1, h. split; [|done]. by eapply quiet_trans.
Qed.
Lemma fine_goes s : goes s Fine (Fine s).
Proof. left. exists s. split; [apply quiet_refl|done]. Qed.
Lemma announce_goes l : forall s, goes s Fine (announce_all l s).
Proof.
  induction l as [|[a me] l IH]; intros s; cbn [Ecla.announce_all]; [apply fine_goes|].
  edestruct locked_goes as [-> | H]; [reflexivity| |by eapply goes_bad]. case_bool_decide; [|apply IH].
  eapply goes_then; [by apply beacon_goes|apply IH|apply quiet_refl].
Qed.
Lemma tick_goes s : goes s Fine (tick s).
Proof. unfold Ecla.tick. edestruct locked_goes as [-> | H]; [reflexivity|apply announce_goes|by eapply goes_bad]. Qed.
Lemma submit_all_goes n d r l : forall was s, goes s Fine (submit_all n d r l was s).
Proof.
  induction l as [|[a me] l IH]; intros was s; cbn [Ecla.submit_all].
  - left. eexists. split; [|reflexivity]. by apply quiet_note.
  - destruct (dec_bundle r); [|apply IH]. destruct (_ && _); [|apply IH].
    eapply goes_then; [apply send_goes|apply IH|apply quiet_refl].
Qed.
Lemma submission_goes n d r s : goes s Fine (scheduled_submission n d r s).
Proof.
  unfold Ecla.scheduled_submission. edestruct locked_goes as [-> | H]; [reflexivity| |by eapply goes_bad].
  edestruct locked_goes as [-> | H]; [reflexivity|apply submit_all_goes|by eapply goes_bad].
Qed.

(** What a packet does, unless it panics *)
Inductive packet_effect (i : nat) (now : N) (a : string) (s : ecla) : packet -> ecla -> Prop :=
| pe_quiet p s' : quiet s s' -> packet_effect i now a s p s'
| pe_register name b port k n s' : e_modules s !! a = Some (Module false n k) ->
    name <> "" -> name ∉ cla_names s ->
    quiet (note (OAccepted i name) (set_layers (e_layers s ++ [Layer name (default 0 port) true]) (set_modules (<[a := Module true name k]> (e_modules s)) s))) s' ->
    packet_effect i now a s (PRegister name b port) s'
| pe_bundle x y z data b n k : e_modules s !! a = Some (Module true n k) -> dec_bundle data = Some b ->
    packet_effect i now a s (PForward x y z data) (note (OBundle i b) s)
| pe_peer e addr blk clas sv n k m u : e_modules s !! a = Some (Module true n k) -> read_block blk = Some (clas, sv) ->
    peers_add (peer_new now e (AGeneric addr) false None clas sv) (e_peers s) = Some (m, u) ->
    packet_effect i now a s (PBeacon e addr blk) (note (OPeer i (peer_new now e (AGeneric addr) false None clas sv)) (set_peers m s)).
Definition effect_of (i : nat) (now : N) (a : string) (s : ecla) (p : packet) (r : res) : Prop :=
  match r with
  | Fine s' => packet_effect i now a s p s'
  | Boom s' => exists s1 held, packet_effect i now a s p s1 /\ s' = poison held s1 /\ e_bad s' <> []
  end.
Lemma handle_packet_effect i now k a p s : effect_of i now a s p (handle_packet i now k a p s).
Proof.
  assert (Hgo : forall r held, r = boom held s /\ e_bad (poison held s) <> [] -> effect_of i now a s p r).
  { intros r held [-> H]. exists s, held. split; [apply pe_quiet, quiet_refl|]. done. }
  assert (Hq : forall r, goes s Fine r -> effect_of i now a s p r).
  { intros r [(s1 & H & ->)|(s1 & held & H & -> & Hb)]; [by apply pe_quiet|]. exists s1, held. split; [by apply pe_quiet|done]. }
  unfold Ecla.handle_packet. edestruct locked_goes as [-> | H]; [reflexivity| |by eapply Hgo].
  cbn beta. destruct (e_modules s !! a) as [me|] eqn:Em; [|apply pe_quiet, quiet_refl].
  edestruct locked_goes as [-> | H]; [reflexivity| |by eapply Hgo].
  cbn beta. destruct (negb (bool_decide (k ∈ connectors))); [apply pe_quiet, quiet_refl|].
  destruct me as [act nm mk]. cbn [md_active md_name md_kind]. destruct act; cbn [negb].
  - destruct p; try (apply pe_quiet, quiet_refl).
    + destruct (read_block block) as [[clas sv]|] eqn:Er; [|by eapply Hgo].
      destruct (peers_add _ _) as [[m u]|] eqn:Ea; [|by eapply Hgo]. by eapply pe_peer.
    + destruct (dec_bundle data) eqn:Ed; [by eapply pe_bundle|apply pe_quiet, quiet_refl].
  - destruct p; try (apply pe_quiet, quiet_refl).
    destruct (bool_decide (name = "") || _) eqn:En.
    { apply Hq. eapply goes_then; [apply send_goes| |apply quiet_refl]. intros s1. apply close_goes. }
    apply orb_false_iff in En as [En _]. apply bool_decide_eq_false in En.
    destruct (negb (bool_decide (name ∈ cla_names s))) eqn:Ec.
    + apply negb_true_iff, bool_decide_eq_false in Ec. cbn zeta.
      match goal with |- effect_of _ _ _ _ _ (send_packet _ _ _ _ ?st _) => assert (Hg : goes st Fine (send_packet k a (PRegistered self nodeid) [LConnectors; LModules] st (fun s => send_beacon k a [LConnectors; LModules] s Fine))) end.
      { eapply goes_then; [apply send_goes| |apply quiet_refl]. intros s1. by apply beacon_goes. }
      destruct Hg as [(s1 & H & ->)|(s1 & held & H & -> & Hb)]; [by eapply pe_register|]. exists s1, held. split; [by eapply pe_register|done].
    + apply Hq. eapply goes_then; [apply send_goes| |apply quiet_refl]. intros s1. apply close_goes.
Qed.

(** What a step does that does not panic *)
Inductive sfx (s : ecla) : event -> ecla -> Prop :=
| fx_open k ip port a n : a = address k ip port s -> n = match k with WS => e_ids s + 1 | TCP => e_ids s end ->
    (k = TCP -> forall t, t ∈ e_tasks s -> t_kind t = TCP -> t_addr t = a -> t_gone t = true) ->
    sfx s (EOpen k ip port) (set_conns (<[(k, a) := Conn true []]> (e_conns s)) (set_ids n (set_tasks (e_tasks s ++ [Task k a Fresh false]) s)))
| fx_init i k a g : e_tasks s !! i = Some (Task k a Fresh g) ->
    sfx s (EInit i) (upd i (set_phase Up) (set_modules (<[a := Module false "" k]> (e_modules s)) s))
| fx_packet i now p k a g s1 : e_tasks s !! i = Some (Task k a Up g) -> packet_effect i now a s p s1 -> sfx s (EPacket i now p) s1
| fx_quiet e s1 : match e with EPacket _ _ _ | EJunk _ | EDrain _ _ _ | ETick | ESubmit _ _ _ => True | _ => False end ->
    quiet s s1 -> sfx s e s1
| fx_gone i t : e_tasks s !! i = Some t -> sfx s (EGone i) (upd i set_gone s)
| fx_end_ws i a g : e_tasks s !! i = Some (Task WS a Up g) -> sfx s (EEnd i) (upd i (fun t => set_gone (set_phase Left1 t)) s)
| fx_end_tcp i a g : e_tasks s !! i = Some (Task TCP a Up g) ->
    sfx s (EEnd i) (upd i (fun t => set_gone (set_phase (if bool_decide (is_Some (e_conns s !! (TCP, a))) then Left1 else Finished) t)) (set_conns (delete (TCP, a) (e_conns s)) s))
| fx_disc1_on i k a g n k' : e_tasks s !! i = Some (Task k a Left1 g) -> e_modules s !! a = Some (Module true n k') ->
    sfx s (EDisc1 i) (upd i (set_phase Left2) (cla_remove n s))
| fx_disc1_off i k a g : e_tasks s !! i = Some (Task k a Left1 g) -> (forall n k', e_modules s !! a <> Some (Module true n k')) ->
    sfx s (EDisc1 i) (upd i (set_phase Left2) s)
| fx_disc2 i k a g : e_tasks s !! i = Some (Task k a Left2 g) ->
    sfx s (EDisc2 i) (upd i (set_phase (match k with WS => Left3 | TCP => Finished end)) (set_modules (delete a (e_modules s)) s))
| fx_disc3 i a g : e_tasks s !! i = Some (Task WS a Left3 g) ->
    sfx s (EDisc3 i) (upd i (set_phase Finished) (set_conns (delete (WS, a) (e_conns s)) s)).
Lemma upd_id i s : upd i id s = s.
Proof. unfold upd. rewrite list_alter_id by done. by destruct s. Qed.
Lemma step_fine e s s' : step e s = Some s' -> e_bad s' = [] -> sfx s e s'.
Proof.
  intros Hs Hb. destruct e as [k ip port|i|i now p|i|i|i|i|i|i|k a n| |n d r]; cbn [Ecla.step] in Hs.
  - case_decide as Hd; [done|]. injection Hs as <-.
    match goal with |- context [after _ _ (locked _ _ ?st ?f)] => destruct (locked_goes (LPeers k) [] st f _ eq_refl) as [E|[E _]] end.
    + rewrite E in *. cbn [after]. rewrite upd_id in *.
      assert (Hn : k = TCP -> forall t, t ∈ e_tasks s -> t_kind t = TCP -> t_addr t = address k ip port s -> t_gone t = true).
      { intros -> t Ht H1 H2. destruct (t_gone t) eqn:E3; [done|]. exfalso. apply Hd. split; [done|]. apply Exists_exists. exists t. done. }
      destruct k; exact (fx_open s _ ip port _ _ eq_refl eq_refl Hn).
    + exfalso. unfold locked in E, Hb. case_bool_decide as Hx; [|done]. cbn in Hb. destruct k; cbn in Hx, Hb; rewrite Hb in Hx; by apply elem_of_nil in Hx.
  - destruct (e_tasks s !! i) as [[k a [] g]|] eqn:Et; try done. injection Hs as <-.
    unfold handle_connect in *. edestruct locked_goes as [E|[E Hc]]; [reflexivity| |]; rewrite E in *; cbn [after boom] in *; [|done].
    by eapply fx_init.
  - destruct (e_tasks s !! i) as [[k a ph g]|] eqn:Et; [|done].
    destruct k, ph; try done; injection Hs as <-.
    + edestruct locked_goes as [E|[E Hc]]; [reflexivity| |]; rewrite E in *; cbn [after boom] in *; [|done].
      destruct (e_conns s !! (WS, a)) as [c|]; cbn [after] in *; [|rewrite upd_id; apply fx_quiet; [done|apply quiet_refl]].
      pose proof (handle_packet_effect i now WS a p s) as Hf.
      destruct (handle_packet i now WS a p s) as [s1|s1]; cbn [after] in *; [rewrite upd_id; by eapply fx_packet|].
      destruct Hf as (? & ? & _ & _ & Hx). done.
    + pose proof (handle_packet_effect i now TCP a p s) as Hf.
      destruct (handle_packet i now TCP a p s) as [s1|s1]; cbn [after] in *; [rewrite upd_id; by eapply fx_packet|].
      destruct Hf as (? & ? & _ & _ & Hx). done.
  - destruct (e_tasks s !! i) as [[k a ph g]|] eqn:Et; [|done].
    destruct k, ph; try done; injection Hs as <-.
    edestruct locked_goes as [E|[E Hc]]; [reflexivity| |]; rewrite E in *; cbn [after boom] in *; [|done].
    destruct (e_conns s !! (WS, a)) as [c|]; cbn [after boom] in *; [done|]. rewrite upd_id. apply fx_quiet; [done|apply quiet_refl].
  - destruct (e_tasks s !! i) as [t|] eqn:Et; [|done]. injection Hs as <-. by eapply fx_gone.
  - destruct (e_tasks s !! i) as [[k a ph g]|] eqn:Et; [|done].
    destruct k, ph; try done; injection Hs as <-; [by eapply fx_end_ws|].
    edestruct locked_goes as [E|[E Hc]]; [reflexivity| |]; rewrite E in *; cbn [after boom] in *; [|done]. by eapply fx_end_tcp.
  - destruct (e_tasks s !! i) as [[k a [] g]|] eqn:Et; try done. injection Hs as <-.
    unfold disconnect1 in *. edestruct locked_goes as [E|[E Hc]]; [reflexivity| |]; rewrite E in *; cbn [after boom] in *; [|done].
    destruct (e_modules s !! a) as [[[] n k']|] eqn:Em; cbn [after md_active] in *.
    + by eapply fx_disc1_on.
    + eapply fx_disc1_off; [done|]. by rewrite Em.
    + eapply fx_disc1_off; [done|]. by rewrite Em.
  - destruct (e_tasks s !! i) as [[k a [] g]|] eqn:Et; try done. injection Hs as <-.
    unfold disconnect2 in *. edestruct locked_goes as [E|[E Hc]]; [reflexivity| |]; rewrite E in *; cbn [after boom] in *; [|done].
    by eapply fx_disc2.
  - destruct (e_tasks s !! i) as [[k a ph g]|] eqn:Et; [|done].
    destruct k, ph; try done; injection Hs as <-.
    edestruct locked_goes as [E|[E Hc]]; [reflexivity| |]; rewrite E in *; cbn [after boom] in *; [|done]. by eapply fx_disc3.
  - destruct (e_conns s !! (k, a)) as [c|] eqn:E; [|done]. injection Hs as <-. apply fx_quiet; [done|]. apply quiet_conns. by rewrite E.
  - destruct (e_announcer s); [|done]. injection Hs as <-. destruct (tick_goes s) as [(s1 & Hq & E)|(s1 & h & Hq & E & Hx)]; rewrite E in *.
    + by apply fx_quiet.
    + done.
  - injection Hs as <-. destruct (submission_goes n d r s) as [(s1 & Hq & E)|(s1 & h & Hq & E & Hx)]; rewrite E in *.
    + by apply fx_quiet.
    + done.
Qed.
Lemma sfx_bad s e s' : sfx s e s' -> e_bad s' = e_bad s.
Proof.
  intros H. destruct H as [| |i now p k a g s1 Ht Hp|e s1 _ Hq| | | | | | |]; try done; [|apply Hq].
  destruct Hp as [? ? H|? ? ? ? ? ? ? ? ? H| |]; try done; by rewrite (q_bad _ _ H).
Qed.
End ecla.
