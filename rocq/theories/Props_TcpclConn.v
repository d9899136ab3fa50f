(** C95-C98: the sessions of the TCPCL layer and the transfers over them. *)
From stdpp Require Import prelude strings gmap.
From Coq Require Import Lia.
From Verif Require Import TcpclConn TcpclConnProofs.
Local Open Scope string_scope.

(** ** C95: one connection for an address
    At any time the node has at most one connection it opened itself to an
    address, opening ones included. *)
Definition C95_full : Prop := forall ls st s s' x x',
  crun c0 ls = Some st -> cs_sess st !! s = Some x -> cs_sess st !! s' = Some x' ->
  ss_active x = true -> ss_active x' = true -> ss_addr x = ss_addr x' ->
  ss_phase x <> Gone -> ss_phase x' <> Gone -> s = s'.
(** A connection accepted from the very address (the port included) takes the
    place of the one in use; when it ends, a further one is opened *)
Theorem C95_refuted : ~ C95_full.
Proof.
  intros H.
  pose (ls := [LSubmit "10.0.0.2:4556"; LLook 0; LConnected 0; LAccept "10.0.0.2:4556"; LBroken 1; LSubmit "10.0.0.2:4556"; LLook 1]).
  destruct (crun c0 ls) as [st|] eqn:E; [|by vm_compute in E].
  assert (H0 : exists x, cs_sess st !! 0 = Some x /\ ss_addr x = "10.0.0.2:4556" /\ ss_active x = true /\ ss_phase x = Negotiating).
  { vm_compute in E. injection E as <-. eexists. split; [reflexivity|done]. }
  assert (H2 : exists x, cs_sess st !! 2 = Some x /\ ss_addr x = "10.0.0.2:4556" /\ ss_active x = true /\ ss_phase x = Connecting).
  { vm_compute in E. injection E as <-. eexists. split; [reflexivity|done]. }
  destruct H0 as (x & Hx & Ha & Hact & Hp). destruct H2 as (x' & Hx' & Ha' & Hact' & Hp').
  specialize (H ls st 0 2 x x' E Hx Hx' Hact Hact'). rewrite Ha, Ha', Hp, Hp' in H. specialize (H eq_refl ltac:(done) ltac:(done)). done.
Qed.
(** Unless a connection was accepted from that very address, and then the
    connection is the only one of any kind.
    Missing: addresses from which connections were accepted. *)
Theorem C95_partial ls st s s' x x' :
  crun c0 ls = Some st -> LAccept (ss_addr x) ∉ ls -> cs_sess st !! s = Some x -> cs_sess st !! s' = Some x' ->
  ss_addr x = ss_addr x' -> ss_phase x <> Gone -> ss_phase x' <> Gone -> s = s'.
Proof.
  intros H Hn Hx Hx' Ha Hp Hp'.
  assert (Ho : one (ss_addr x) st). { eapply one_run; [apply cinv_0| |exact Hn|exact H]. intros k y Hy. cbn in Hy. done. }
  pose proof (Ho _ _ Hx eq_refl Hp) as H1. pose proof (Ho _ _ Hx' (eq_sym Ha) Hp') as H2. congruence.
Qed.
(** many transfers at once share a connection, and a new one is opened after its end *)
Example C95_shared : exists st, crun c0 [LSubmit "a"; LSubmit "a"; LLook 0; LLook 1; LConnected 0; LEnqueue 1; LEnqueue 0; LAgreed 0; LEnd 0; LSubmit "a"; LLook 2] = Some st /\
  map ss_phase (cs_sess st) = [Gone; Connecting].
Proof. eexists. split; [vm_compute; reflexivity|done]. Qed.

(** ** C96: a transfer is sent once, over a connection to its address *)
Theorem C96_sent_once ls st : crun c0 ls = Some st ->
  NoDup (omap taken (events c0 ls)) /\ NoDup (omap judged (events c0 ls)).
Proof. intros H. split; [by eapply taken_once; [apply cinv_0|]|by eapply judged_once; [apply cinv_0|]]. Qed.
Theorem C96_to_its_address ls st s t : crun c0 ls = Some st -> Took s t ∈ events c0 ls ->
  exists x y, cs_sess st !! s = Some x /\ cs_xfers st !! t = Some y /\ ss_addr x = x_addr y.
Proof. intros H Ht. eapply took_addr; [apply cinv_0|done..]. Qed.
(** a success is reported only if a session to the address took the bundle and
    gave this verdict *)
Theorem C96_success ls st t a : crun c0 ls = Some st -> cs_xfers st !! t = Some (Xfer a (Done (Some true))) ->
  exists s x, Took s t ∈ events c0 ls /\ Gave s t true ∈ events c0 ls /\ cs_sess st !! s = Some x /\ ss_addr x = a.
Proof.
  intros H Ht. destruct (success_from _ _ _ _ _ cinv_0 H Ht) as (s & x & H1 & H2 & H3 & H4); [done|]. exists s, x.
  destruct H4 as [H4|(y & Hy & _)]; [done|]. cbn in Hy. done.
Qed.
(** what was reported stays *)
Theorem C96_final ls ls' st st' t a v : crun c0 ls = Some st -> cs_xfers st !! t = Some (Xfer a (Done v)) -> crun st ls' = Some st' ->
  cs_xfers st' !! t = Some (Xfer a (Done v)).
Proof. intros H Ht H'. eapply run_done; [by eapply crun_inv; [apply cinv_0|]|done..]. Qed.
Example C96_run : let ls := [LSubmit "a"; LSubmit "b"; LSubmit "a"; LLook 0; LLook 1; LLook 2; LConnected 1; LConnected 0; LEnqueue 2; LEnqueue 0; LEnqueue 1; LAgreed 0; LTake 0; LVerdict 0 true; LTake 0; LEnd 0] in
  events c0 ls = [Took 0 2; Gave 0 2 true; Took 0 0] /\
  (map x_phase ∘ cs_xfers <$> crun c0 ls) = Some [Done None; Queued 1; Done (Some true)].
Proof. by vm_compute. Qed.

(** ** C97: every transfer gets an answer
    Whatever a transfer waits for, the node can come to an answer without
    anything from the peer's side of the connection: its own steps are all but
    the end of the negotiation and the verdicts of a session. *)
Definition own (l : label) : bool := match l with LAgreed _ | LBroken _ | LVerdict _ _ => false | _ => true end.
Definition C97_full : Prop := forall ls st t, crun c0 ls = Some st -> t < length (cs_xfers st) ->
  exists ls' st', Forall (fun l => own l = true) ls' /\ crun st ls' = Some st' /\ over st' t = true.
(** A neighbour that accepts the connection and then says nothing: the exchange
    of contact headers and parameters has no timeout.  Whatever else the node
    does, with any other peer, there is no answer *)
Theorem C97_silent_peer : exists ls st, crun c0 ls = Some st /\ length (cs_xfers st) = 1 /\
  forall ls' st', Forall (fun l => l <> LAgreed 0 /\ l <> LBroken 0) ls' -> crun st ls' = Some st' -> over st' 0 = false.
Proof.
  exists [LSubmit "10.0.0.2:4556"; LLook 0; LConnected 0; LEnqueue 0]. destruct (crun c0 [LSubmit "10.0.0.2:4556"; LLook 0; LConnected 0; LEnqueue 0]) as [st|] eqn:E; [|by vm_compute in E].
  exists st. split; [done|]. pose proof (crun_inv _ _ _ cinv_0 E) as Hi. vm_compute in E. injection E as E. split; [by subst|]. intros ls' st' Hl H.
  apply (held_not_over 0). eapply held_run; [exact Hi| | |exact H].
  - subst. eexists _, _. split; [done|]. split; done.
  - eapply Forall_impl; [exact Hl|]. intros l [H1 H2]. destruct l as [| | | | | |s|s| | |]; try done; cbn; apply bool_decide_eq_false; congruence.
Qed.
Theorem C97_refuted : ~ C97_full.
Proof.
  intros H. destruct C97_silent_peer as (ls & st & H1 & H2 & H3). destruct (H ls st 0 H1 ltac:(lia)) as (ls' & st' & Hl & Hr & Ho).
  rewrite (H3 ls' st') in Ho; [done| |done]. eapply Forall_impl; [exact Hl|]. intros l Hown. split; intros ->; done.
Qed.
(** Everything but new transfers and new connections comes to an end, and at the
    end every transfer has its answer.
    Missing: a bound that does not depend on the peers ending the negotiation. *)
Definition starts (l : label) : bool := match l with LSubmit _ | LAccept _ => true | _ => false end.
Theorem C97_partial ls st : crun c0 ls = Some st ->
  (exists n, forall ls' st', Forall (fun l => starts l = false) ls' -> crun st ls' = Some st' -> length ls' <= n) /\
  ((forall l, starts l = false -> cstep st l = None) -> forall t, t < length (cs_xfers st) -> over st t = true).
Proof.
  intros H. pose proof (crun_inv _ _ _ cinv_0 H) as Hi. split.
  - exists (weight st). intros ls' st' Hl Hr. assert (Hl' : Forall (fun l => inner l = true) ls') by (eapply Forall_impl; [exact Hl|]; by intros []).
    pose proof (run_weight _ _ _ Hi Hl' Hr). lia.
  - intros Hst t Ht. apply lookup_lt_is_Some in Ht as [x Hx]. eapply stuck_over; [done| |done]. intros l Hl. apply Hst. by destruct l.
Qed.
(** so a schedule that goes on as long as it can answers everything *)
Example C97_run : exists st, crun c0 [LSubmit "a"; LLook 0; LRefused 0; LSubmit "a"; LLook 1; LConnected 1; LEnqueue 1; LBroken 1] = Some st /\
  map x_phase (cs_xfers st) = [Done (Some false); Done None].
Proof. eexists. split; [vm_compute; reflexivity|done]. Qed.

(** ** C98: the janitor goes on
    From any moment the janitor can get to its next round, whatever the peers
    do or leave undone. *)
Definition jown (l : jlabel) : bool := match l with JConn l => own l | _ => true end.
Definition C98_full : Prop := forall ls j, jrun j0 ls = Some j ->
  exists ls' j', Forall (fun l => jown l = true) ls' /\ jrun j ls' = Some j' /\ j_rounds j < j_rounds j'.
Theorem C98_silent_peer : exists ls j, jrun j0 ls = Some j /\ j_rounds j = 1 /\
  forall ls' j', Forall (fun l => l <> JConn (LAgreed 0) /\ l <> JConn (LBroken 0)) ls' -> jrun j ls' = Some j' -> j_rounds j' = 1.
Proof.
  exists [JRound [["10.0.0.2:4556"]; ["10.0.0.3:4556"]]; JNext; JConn (LLook 0); JConn (LConnected 0); JConn (LEnqueue 0)].
  destruct (jrun j0 [JRound [["10.0.0.2:4556"]; ["10.0.0.3:4556"]]; JNext; JConn (LLook 0); JConn (LConnected 0); JConn (LEnqueue 0)]) as [j|] eqn:E; [|by vm_compute in E].
  exists j. split; [done|]. pose proof (jinv_run _ _ _ jinv_0 E) as Hi. vm_compute in E. injection E as E. split; [by subst|]. intros ls' j' Hl H.
  erewrite (jheld_run 0 0 ls' j j' Hi); [by subst| | |exact H].
  - subst. split; [|by left]. eexists _, _. split; [done|]. split; done.
  - eapply Forall_impl; [exact Hl|]. intros l [H1 H2]. destruct l as [| |[| | | | | |s|s| | |]]; try done; cbn; apply bool_decide_eq_false; congruence.
Qed.
Theorem C98_refuted : ~ C98_full.
Proof.
  intros H. destruct C98_silent_peer as (ls & j & H1 & H2 & H3). destruct (H ls j H1) as (ls' & j' & Hl & Hr & Ho).
  rewrite (H3 ls' j') in Ho; [lia| |done]. eapply Forall_impl; [exact Hl|]. intros l Hown. split; intros ->; done.
Qed.
(** A round takes a bounded number of steps, new connections of peers apart, and
    when none is left the next round starts.
    Missing: as in C97. *)
Definition in_round (l : jlabel) : bool := match l with JRound _ => false | JNext => true | JConn l => negb (starts l) end.
Theorem C98_partial ls j : jrun j0 ls = Some j ->
  (exists n, forall ls' j', Forall (fun l => in_round l = true) ls' -> jrun j ls' = Some j' -> length ls' <= n) /\
  ((forall l, in_round l = true -> jstep j l = None) -> forall gs, exists j', jstep j (JRound gs) = Some j' /\ j_rounds j' = S (j_rounds j)).
Proof.
  intros H. pose proof (jinv_run _ _ _ jinv_0 H) as Hi. split.
  - exists (jweight j). intros ls' j' Hl Hr. assert (Hl' : Forall (fun l => jinner l = true) ls') by (eapply Forall_impl; [exact Hl|]; intros [| |[]]; done).
    pose proof (jrun_weight _ _ _ Hi Hl' Hr). lia.
  - intros Hst. apply jstuck_round; [done|]. intros l Hl. apply Hst. by destruct l as [| |[]].
Qed.
Example C98_run : exists j, jrun j0 [JRound [["a"; "b"]; ["a"]]; JNext; JConn (LLook 0); JConn (LLook 1); JConn (LRefused 1); JConn (LConnected 0); JConn (LEnqueue 0); JConn (LAgreed 0); JConn (LTake 0); JConn (LVerdict 0 true); JNext; JConn (LLook 2); JConn (LEnqueue 2); JConn (LEnd 0); JRound []] = Some j /\ j_rounds j = 2.
Proof. eexists. split; [vm_compute; reflexivity|done]. Qed.

Print Assumptions C95_refuted.
Print Assumptions C95_partial.
Print Assumptions C96_sent_once.
Print Assumptions C96_to_its_address.
Print Assumptions C96_success.
Print Assumptions C96_final.
Print Assumptions C97_silent_peer.
Print Assumptions C97_refuted.
Print Assumptions C97_partial.
Print Assumptions C98_silent_peer.
Print Assumptions C98_refuted.
Print Assumptions C98_partial.
