(** Properties of the heartbeat of websocket sessions: C132, C133, and C109 with heartbeats *)
From stdpp Require Import prelude strings pretty gmap.
From Coq Require Import NArith Lia ZifyBool ZifyN ZifyNat.
From Verif Require Import Core Routing Apps AppsProofs AppsOrder Props_Apps Httpd Tools TriggerProofs Props_Trigger WsBeat WsBeatProofs.
Open Scope N_scope.

Definition events (tr : list (bev * beats)) : list bev := map fst tr.

(** ** C132 *)
(** Whenever anything happens after session [i] was opened, a message of client [i]
    came (or the session was opened) no more than 10 s before. *)
Definition heard (i : nat) (tr : list bev) : Prop :=
  forall x v y, tr = x ++ v :: y -> (i < length (opened x))%nat ->
  exists u, (opened x !! i = Some u \/ exists m, BEv u (EMsg i m) ∈ x) /\ time v <= u + 10000.
(** A client that sends a message at least every 10 s keeps its session, if the
    ticks are on time. *)
Definition C132_full : Prop := forall parse_eid host local_eid dec_bundle dec_send tr st i s,
  bruns parse_eid host local_eid dec_bundle dec_send bstart tr st -> timely 0 bstart tr ->
  heard i (events tr) -> (forall t, BEnd t i ∉ events tr) ->
  a_sessions (bs_apps st) !! i = Some s -> ws_open s = true.

(** Every ping the server sends to client [i] is followed by a pong (or ping) of the
    client within [a]: before anything that happens later than that. *)
Definition answers (a : N) (i : nat) (tr : list bev) : Prop :=
  forall x t0 t y, tr = x ++ BTick i t0 t false :: y ->
  (exists v, v ∈ y /\ t + a < time v) -> exists u m, BEv u (EMsg i m) ∈ y /\ (m = MPing \/ m = MPong) /\ u <= t + a.
(** Full for clients that answer the pings, within 25 s less the lateness of the
    ticks. Missing: other messages are no signs of life. *)
Theorem C132_answering_partial : forall parse_eid host local_eid dec_bundle dec_send tr st i s a d,
  bruns parse_eid host local_eid dec_bundle dec_send bstart tr st -> timely d bstart tr ->
  answers a i (events tr) -> a + d <= 25000 -> (forall t, BEnd t i ∉ events tr) ->
  a_sessions (bs_apps st) !! i = Some s -> ws_open s = true.
Proof.
  intros pe h le db ds tr st i s a d Hr Ht Ha Had He Hs. destruct (ws_open s) eqn:Ho; [done|exfalso].
  destruct (closed_why _ _ _ _ _ _ _ Hr _ _ Hs Ho) as (v & [[Hv [t ->]]|(t0 & t & Hv)]).
  - by apply (He t).
  - revert Hv. apply (answering _ _ _ _ _ a d i tr st Hr Ht); [unfold HEARTBEAT_INTERVAL, CLIENT_TIMEOUT; lia|].
    intros x t1 t2 y E Hl. destruct (Ha x t1 t2 y E Hl) as (u & m & Hu & Hm & Hle). exists u. split; [|done].
    unfold signs. apply elem_of_list_In, in_flat_map. exists (BEv u (EMsg i m)). split; [by apply elem_of_list_In|].
    cbn. destruct Hm as [-> | ->]; cbn; rewrite decide_True by done; by left.
Qed.
Print Assumptions C132_answering_partial.

(** ** C133 *)
(** A session is open only if it was opened or a sign of life came no longer ago than
    35 s and the lateness of the ticks: a client that fell silent is disconnected. *)
Theorem C133_silent : forall parse_eid host local_eid dec_bundle dec_send tr st i s d,
  bruns parse_eid host local_eid dec_bundle dec_send bstart tr st -> timely d bstart tr ->
  a_sessions (bs_apps st) !! i = Some s -> ws_open s = true ->
  exists u, (opened (events tr) !! i = Some u \/ exists m, BEv u (EMsg i m) ∈ events tr /\ (m = MPing \/ m = MPong)) /\
            bs_now st <= u + 35000 + d.
Proof.
  intros pe h le db ds tr st i s d Hr Ht Hs Ho. pose proof (runs_inv _ _ _ _ _ _ _ Hr) as I.
  destruct (lookup_lt_is_Some_2 (bs_beats st) i) as [b Hb]; [rewrite (i_len _ _ I); by eapply lookup_lt_Some|].
  exists (be_hb b). split; [|pose proof (silent_bound _ _ _ _ _ _ _ _ Hr Ht _ _ _ Hs Ho Hb); unfold CLIENT_TIMEOUT, HEARTBEAT_INTERVAL in *; lia].
  destruct (i_hb _ _ I i b Hb) as [-> |Hsg]; [left; by apply (i_begin _ _ I)|right].
  unfold signs in Hsg. apply elem_of_list_In, in_flat_map in Hsg as (v & Hv & Hin). apply elem_of_list_In in Hv.
  destruct v as [t e| |]; cbn in Hin; try done. destruct (decide (sign e = Some i)) as [E|]; [|done]. destruct Hin as [Et|[]].
  destruct e as [| | | | |j []| | | | |]; try done; injection E as ->; rewrite Et in Hv; eauto.
Qed.
Print Assumptions C133_silent.

(** ** C109 with heartbeats *)
(** The heartbeats between the messages do not matter to dtntrigger. *)
Lemma read_text_no_pings l : read_text (no_pings l) = match read_text l with Some (m, r) => Some (m, no_pings r) | None => None end.
Proof. induction l as [|o l IH]; [done|]. by destruct o. Qed.
Lemma loop_no_pings v l : trigger_loop v (no_pings l) = trigger_loop v l.
Proof. induction l as [|o l IH]; [done|]. destruct o; cbn; try done. destruct (bf_admin _); [done|]. destruct (payload_of b); [by f_equal|]. by destruct v. Qed.
Lemma trigger_no_pings v l : trigger v (no_pings l) = trigger v l.
Proof.
  unfold trigger. rewrite read_text_no_pings. destruct (read_text l) as [[m1 l1]|]; [|done]. rewrite read_text_no_pings.
  destruct (read_text l1) as [[m2 l2]|]; [|done]. destruct (_ && _); [|done]. apply loop_no_pings.
Qed.
(** the events of the sessions, without the pings *)
Definition of_sessions (tr : list bev) : list ev :=
  flat_map (fun v => match v with
                     | BEv _ (EMsg _ MPing) => []
                     | BEv _ e => [e]
                     | BTick i _ _ true | BEnd _ i => [EClose i]
                     | BTick _ _ _ false => [] end) tr.
Lemma asked_plain i tr : asked i (flat_map plain tr) = asked i (of_sessions tr).
Proof.
  unfold asked, of_sessions. induction tr as [|v tr IH]; [done|]. cbn [flat_map]. rewrite !flat_map_app, IH. f_equal.
  by destruct v as [t [| | | | |j []| | | | |]|i0 t0 t []|].
Qed.
Lemma given_plain i tr : given i (flat_map plain tr) = given i (of_sessions tr).
Proof.
  unfold given, of_sessions. induction tr as [|v tr IH]; [done|]. cbn [flat_map]. rewrite !flat_map_app, IH. f_equal.
  by destruct v as [t [| | | | |j []| | | | |]|i0 t0 t []|].
Qed.
Theorem C109_heartbeat_partial : forall parse_eid host local_eid dec_bundle dec_send tr st i s arg verbose,
  tidy_arg arg -> bruns parse_eid host local_eid dec_bundle dec_send bstart tr st ->
  (exists rest, asked i (of_sessions (events tr)) ++ rest = trigger_says arg) -> a_sessions (bs_apps st) !! i = Some s ->
  verbose = false \/ (forall b, b ∈ given i (of_sessions (events tr)) -> payload_of b <> None) ->
  trigger verbose (ws_out s) = due (given i (of_sessions (events tr))).
Proof.
  intros pe h le db ds tr st i s arg verbose Ht Hr Hp Hs Hv. rewrite <- trigger_no_pings.
  assert (A0 : all_held (bs_apps bstart)) by (intros ?? ?; done).
  destruct (bruns_quiet _ _ _ _ _ _ _ _ A0 Hr) as [_ Hq].
  rewrite <- given_plain in *. rewrite <- asked_plain in Hp.
  exact (C109_trigger_partial pe h le db ds (flat_map plain (map fst tr)) (quiet (bs_apps st)) i (quiet_s s) arg verbose Ht Hq Hp (quiet_lookup _ _ _ Hs) Hv).
Qed.
Print Assumptions C109_heartbeat_partial.

(** ** Cases *)
(** A client that sends text every 10 s and answers no ping: it is disconnected after 35 s. *)
Definition Sn (t : N) (n : nat) : beats :=
  Beats t (AppState [] [with_out new_session (replicate n OPing)] []) [Beat 0 0 (N.of_nat n)].
Definition hello (t : N) (n : nat) : bev * beats := (BEv t (EMsg 0 (MText "hello")), Sn t n).
Definition tick (t : N) (n : nat) : bev * beats := (BTick 0 t t false, Sn t n).
Definition gone : beats := Beats 35000 (AppState [] [Session false true [] None (MData FJson) None [] [] (replicate 7 OPing)] []) [Beat 0 0 7].
Definition chatty0 : list (bev * beats) :=
  [(BEv 0 EOpen, Sn 0 0); tick 0 1; tick 5000 2; tick 10000 3; hello 10000 3; tick 15000 4; tick 20000 5; hello 20000 5;
   tick 25000 6; tick 30000 7; hello 30000 7].
Definition chatty : list (bev * beats) := chatty0 ++ [(BTick 0 35000 35000 true, gone)].
Notation bruns0 := (bruns pe0 (Dtn "n" "") le0 db0 ds0).
Lemma sn_tick now t n : now <= t -> 5000 * N.of_nat n <= t -> t <= 30000 -> bstep pe0 (Dtn "n" "") le0 db0 ds0 (Sn now n) (BTick 0 t t false) (Sn t (S n)).
Proof.
  intros H1 H2 H3. unfold Sn at 2. eapply eq_ind; [eapply (b_tick _ _ _ _ _ now _ _ 0 t t); [done|lia|reflexivity|done|reflexivity| |]; cbn [be_begin be_ticks be_hb]; unfold HEARTBEAT_INTERVAL, CLIENT_TIMEOUT; lia|].
  assert (E : forall m : nat, replicate m OPing ++ [OPing] = replicate (S m) OPing) by (induction m as [|m IH]; [done|cbn; by f_equal]).
  assert (E2 : N.of_nat n + 1 = N.of_nat (S n)) by lia.
  unfold ping, set_session, with_out. cbn [a_sessions lookup list_lookup ws_out a_agents a_sent insert list_insert ws_open ws_rx ws_chan ws_hand ws_mode ws_subs ws_job ws_held new_session alter list_alter be_begin be_hb be_ticks]. by rewrite E, E2.
Qed.
Lemma sn_hello now t n : now <= t -> bstep pe0 (Dtn "n" "") le0 db0 ds0 (Sn now n) (BEv t (EMsg 0 (MText "hello"))) (Sn t n).
Proof.
  intros H. eapply (b_ev _ _ _ _ _ now (bs_apps (Sn now n)) (bs_beats (Sn now n)) t (EMsg 0 (MText "hello")) (bs_apps (Sn t n))); [done| |done].
  exact (s_text pe0 (Dtn "n" "") le0 db0 ds0 (bs_apps (Sn now n)) 0%nat (with_out new_session (replicate n OPing)) "hello" eq_refl eq_refl eq_refl).
Qed.
Lemma chatty0_run : bruns0 bstart chatty0 (Sn 30000 7).
Proof.
  unfold chatty0. eapply bruns_step; [apply (b_ev _ _ _ _ _ 0 (AppState [] [] []) [] 0 EOpen); [done|apply s_open|done]|].
  repeat (eapply bruns_step; [first [apply sn_tick; lia|apply sn_hello; lia]|]). apply bruns_nil.
Qed.
Lemma chatty_run : bruns0 bstart chatty gone.
Proof.
  apply bruns_app. eexists. split; [apply chatty0_run|]. eapply bruns_step; [|apply bruns_nil].
  eapply (b_drop _ _ _ _ _ 30000 _ _ 0 35000 35000); [done|done|reflexivity|done|reflexivity|done|done|].
  exact (s_close pe0 (Dtn "n" "") le0 db0 ds0 (bs_apps (Sn 30000 7)) 0%nat (with_out new_session (replicate 7 OPing)) [] eq_refl eq_refl (Permutation_refl [])).
Qed.
Ltac due1 := intros [|i] s0 b0 Hi Ho Hb; [injection Hb as <-; vm_compute; done|done].
Lemma chatty_timely : timely 0 bstart chatty.
Proof. unfold chatty, chatty0. cbn [app timely]. split; [intros i s0 b0 Hi; done|]. repeat (split; [due1|]). done. Qed.
Lemma chatty_heard : heard 0 (events chatty).
Proof.
  intros x v y E Hl. unfold events, chatty, chatty0, tick, hello in E. cbn in E.
  destruct x as [|x0 x]; [cbn in Hl; lia|]. injection E as <- E.
  do 3 (destruct x as [|? x]; [injection E as <- _; exists 0; split; [by left|done]|injection E as <- E]).
  destruct x as [|? x]; [injection E as <- _; exists 0; split; [by left|done]|injection E as <- E].
  do 3 (destruct x as [|? x]; [injection E as <- _; exists 10000; split; [right; exists (MText "hello"); apply elem_of_list_In; cbn; tauto|done]|injection E as <- E]).
  do 3 (destruct x as [|? x]; [injection E as <- _; exists 20000; split; [right; exists (MText "hello"); apply elem_of_list_In; cbn; tauto|done]|injection E as <- E]).
  destruct x as [|? x]; [injection E as <- _; exists 30000; split; [right; exists (MText "hello"); apply elem_of_list_In; cbn; tauto|done]|injection E as <- E].
  by destruct x.
Qed.
Theorem C132_full_refuted : ~ C132_full.
Proof.
  intros H. assert (E : ws_open (Session false true [] None (MData FJson) None [] [] (replicate 7 OPing)) = true); [|done].
  eapply (H pe0 (Dtn "n" "") le0 db0 ds0 chatty gone 0%nat); [apply chatty_run|apply chatty_timely|apply chatty_heard| |done].
  intros t Ht. unfold events, chatty, chatty0 in Ht. cbn in Ht. repeat (apply elem_of_cons in Ht as [?|Ht]; [done|]). by apply elem_of_nil in Ht.
Qed.
Print Assumptions C132_full_refuted.

(** A client that answers the pings after 3 s *)
Definition An (t hb : N) (n : nat) : beats :=
  Beats t (AppState [] [with_out new_session (replicate n OPing)] []) [Beat 0 hb (N.of_nat n)].
Definition polite : list (bev * beats) :=
  [(BEv 0 EOpen, An 0 0 0); (BTick 0 0 0 false, An 0 0 1); (BEv 3000 (EMsg 0 MPong), An 3000 3000 1);
   (BTick 0 5000 5001 false, An 5001 3000 2); (BEv 8001 (EMsg 0 MPong), An 8001 8001 2)].
Example C132_case : bruns0 bstart polite (An 8001 8001 2) /\ timely 1 bstart polite /\ answers 3000 0 (events polite) /\
  (forall t, BEnd t 0 ∉ events polite) /\ ws_open (with_out new_session (replicate 2 OPing)) = true.
Proof.
  split.
  { unfold polite. eapply bruns_step; [apply (b_ev _ _ _ _ _ 0 (AppState [] [] []) [] 0 EOpen); [done|apply s_open|done]|].
    eapply bruns_step; [apply (b_tick _ _ _ _ _ 0 (bs_apps (An 0 0 0)) [Beat 0 0 0] 0 0 0 (with_out new_session []) (Beat 0 0 0)); done|].
    eapply bruns_step; [apply (b_ev _ _ _ _ _ 0 (bs_apps (An 0 0 1)) [Beat 0 0 1] 3000 (EMsg 0 MPong)); [done|by apply (s_pong _ _ _ _ _ _ 0%nat (with_out new_session [OPing]))|done]|].
    eapply bruns_step; [apply (b_tick _ _ _ _ _ 3000 (bs_apps (An 3000 0 1)) [Beat 0 3000 1] 0 5000 5001 (with_out new_session [OPing]) (Beat 0 3000 1)); done|].
    eapply bruns_step; [apply (b_ev _ _ _ _ _ 5001 (bs_apps (An 5001 0 2)) [Beat 0 3000 2] 8001 (EMsg 0 MPong)); [done|by apply (s_pong _ _ _ _ _ _ 0%nat (with_out new_session [OPing; OPing]))|done]|].
    apply bruns_nil. }
  split; [unfold polite; cbn [timely]; split; [intros i s0 b0 Hi; done|]; repeat (split; [due1|]); done|].
  split; [|split; [|done]].
  - intros x t0 t y E _. unfold events, polite in E. cbn in E.
    destruct x as [|x0 x]; [done|]. injection E as <- E. destruct x as [|x1 x].
    { injection E as <- <- <-. exists 3000, MPong. split; [by left|]. split; [by right|done]. }
    injection E as <- E. destruct x as [|x2 x]; [done|]. injection E as <- E. destruct x as [|x3 x].
    { injection E as <- <- <-. exists 8001, MPong. split; [by left|]. split; [by right|done]. }
    injection E as <- E. destruct x as [|x4 x]; [done|]. injection E as <- E. by destruct x.
  - intros t Ht. unfold events, polite in Ht. cbn in Ht. repeat (apply elem_of_cons in Ht as [?|Ht]; [done|]). by apply elem_of_nil in Ht.
Qed.
(** The chatty client before the end: the session was opened 30 s ago; 5 s later it is gone. *)
Example C133_case : bruns0 bstart chatty0 (Sn 30000 7) /\ opened (events chatty0) !! 0%nat = Some 0 /\ signs 0 (events chatty0) = [] /\
  bruns0 bstart chatty gone /\ ws_open <$> (a_sessions (bs_apps gone) !! 0%nat) = Some false.
Proof. split; [apply chatty0_run|]. split; [done|]. split; [done|]. split; [apply chatty_run|done]. Qed.
(** dtntrigger with a heartbeat before the first answer and one among the bundles *)
Ltac gob n t e c := eapply bruns_step; [eapply (b_ev _ _ _ _ _ n _ _ t e); [done|eapply c; ok|done]|]; cbn.
Example C109_heartbeat_case : exists tr st s, bruns0 bstart tr st /\ a_sessions (bs_apps st) !! 0%nat = Some s /\
  ws_out s = [OPing; T1; OText OK; OBundle (B 2); OPing; OBundle (B 3)] /\ asked 0 (of_sessions (events tr)) = trigger_says "a" /\
  trigger true (ws_out s) = [("dtn://m/x", [2]); ("dtn://m/x", [3])].
Proof.
  eexists _, _, _. split; [|split; [|split; [|split]]].
  - gob 0 0 (ERegister A) s_register. gob 0 0 EOpen s_open.
    eapply bruns_step; [eapply (b_tick _ _ _ _ _ 0 _ _ 0 0 0); [done|done|reflexivity|done|reflexivity|done|done]|]; cbn.
    gob 0 0 (EMsg 0 (MText "/bundle")) s_text. gob 0 0 (EWork 0 (WReply "200 tx mode: bundle") None) s_reply.
    gob 0 0 (EMsg 0 (MText "/subscribe a")) s_text. gob 0 0 (EWork 0 (WSet A) None) s_set. gob 0 0 (EWork 0 (WIns A) None) s_ins.
    gob 0 0 (EWork 0 (WReply "200 subscribed") None) s_reply.
    gob 0 0 (EDeliver (B 2) (Passed 0)) s_pass. gob 0 0 (ETake 0 (B 2)) s_take. gob 0 0 (EHand 0 (B 2)) s_hand.
    eapply bruns_step; [eapply (b_tick _ _ _ _ _ 0 _ _ 0 5000 5000); [done|done|reflexivity|done|reflexivity|done|done]|]; cbn.
    gob 5000 5001 (EDeliver (B 3) (Passed 0)) s_pass. gob 5001 5001 (ETake 0 (B 3)) s_take. gob 5001 5001 (EHand 0 (B 3)) s_hand.
    apply bruns_nil.
  - reflexivity.
  - reflexivity.
  - reflexivity.
  - by vm_compute.
Qed.
