(** Properties of the HTTP interface: C161 *)
From stdpp Require Import prelude strings pretty gmap sorting.
From Coq Require Import NArith Lia ZifyBool ZifyN ZifyNat.
From Verif Require Import Core StoreMem StoreSled Sneakers StoreProofs Peers Apps AppsProofs Httpd HttpdProofs Props_Httpd Props_Httpd2.
Open Scope N_scope.

(** all that requests can change, but the commands given to the routing agent,
    the bundles submitted and the peers *)
Definition apart_same (d d' : daemon) : Prop :=
  d_agents d' = d_agents d /\ d_store d' = d_store d /\ d_broken d' = d_broken d /\ d_received d' = d_received d /\ d_ws d' = d_ws d.
(** the key under which a peer is kept: the name of its node, nothing for dtn:none *)
Definition kept_as (e : eid) (k : string) : Prop :=
  match e with Dtn n _ => k = n | Ipn n _ => k = pretty n | DtnNone => k = "" end.

(** ** C161 *)
(** A command reaches the routing agent once and as it was given, if the agent
    takes commands, and the answer says whether it did. *)
Theorem C161_command : forall parse_eid local_eid params dec_bundle unhex duration parse_url is_cla parse_ip cf ev r d,
  let srv := serve parse_eid local_eid params dec_bundle unhex duration parse_url is_cla parse_ip in
  rq_path r = "/routing/cmd" -> rq_meth r = GET \/ rq_meth r = POST -> managing cf r ->
  let x := fst (srv cf ev r d) in
  let d' := snd (srv cf ev r d) in
  apart_same d d' /\ d_sent d' = d_sent d /\ d_peers d' = d_peers d /\
  (forall q c, default "" (rq_query r) = q -> params q !! "c" = Some c -> ev_open ev = true ->
     d_cmds d' = d_cmds d ++ [c] /\ exists t, x = Resp 200 t) /\
  (params (default "" (rq_query r)) !! "c" = None \/ ev_open ev = false -> d_cmds d' = d_cmds d /\ forall t, x <> Resp 200 t).
Proof.
  intros pe le pm db uh du pu ic pi cf ev r d srv Hp Hm Ha. apply allowed_iff in Ha.
  assert (E : srv cf ev r d = do_routing_cmd pm ev r d).
  { unfold srv. rewrite (serve_local _ _ _ _ _ _ _ _ _ cf ev r d "/routing/cmd" (Entry (Some HRoutingCmd) (Some HRoutingCmd) None) HRoutingCmd Hp eq_refl)
      by (try done; by destruct Hm as [-> | ->]).
    cbn [handle]. destruct (do_routing_cmd pm ev r d) as [x y]. by destruct Hm as [-> | ->]. }
  cbn zeta. rewrite E. unfold do_routing_cmd, query_map.
  destruct (pm (default "" (rq_query r)) !! "c") as [c0|] eqn:Ec.
  - destruct (ev_open ev) eqn:Eo; cbn [fst snd].
    + split; [by repeat split|]. split; [done|]. split; [done|]. split.
      * intros q c <- Hc _. rewrite Ec in Hc. injection Hc as <-. split; [done|]. eauto.
      * intros [H|H]; done.
    + split; [by repeat split|]. split; [done|]. split; [done|]. split; [done|]. intros _. split; [done|]. done.
  - cbn [fst snd]. split; [by repeat split|]. split; [done|]. split; [done|]. split.
    + intros q c <- Hc. congruence.
    + intros _. split; [done|]. done.
Qed.
Print Assumptions C161_command.

(** What the routing agent tells about itself is passed on, and asking changes
    nothing. *)
Theorem C161_data : forall parse_eid local_eid params dec_bundle unhex duration parse_url is_cla parse_ip cf ev r d,
  let srv := serve parse_eid local_eid params dec_bundle unhex duration parse_url is_cla parse_ip in
  rq_path r = "/routing/getdata" -> rq_meth r = GET -> managing cf r ->
  snd (srv cf ev r d) = d /\
  (forall s, ev_data ev = Some s -> fst (srv cf ev r d) = Resp 200 (BText s)) /\
  (ev_data ev = None -> forall t, fst (srv cf ev r d) <> Resp 200 t).
Proof.
  intros pe le pm db uh du pu ic pi cf ev r d srv Hp Hm Ha. apply allowed_iff in Ha.
  assert (E : srv cf ev r d = do_routing_data ev r d).
  { unfold srv. rewrite (serve_local _ _ _ _ _ _ _ _ _ cf ev r d "/routing/getdata" (g HRoutingData) HRoutingData Hp eq_refl) by (rewrite ?Hm; done).
    rewrite Hm. cbn [handle]. by destruct (do_routing_data ev r d). }
  rewrite E. unfold do_routing_data. destruct (ev_data ev) as [s|]; (split; [done|]); (split; [|done]); [intros s' [= ->]; done|done].
Qed.
Print Assumptions C161_data.

(** The request for a test bundle submits that bundle, once, and answers with its
    id; the request for a test peer adds that peer, under the name of its node,
    and no other. *)
Theorem C161_test_requests : forall parse_eid local_eid params dec_bundle unhex duration parse_url is_cla parse_ip cf ev r d,
  let srv := serve parse_eid local_eid params dec_bundle unhex duration parse_url is_cla parse_ip in
  rq_meth r = GET -> managing cf r ->
  let x := fst (srv cf ev r d) in
  let d' := snd (srv cf ev r d) in
  (rq_path r = "/debug/rnd_bundle" ->
     x = Resp 200 (BText (bid (ev_bundle ev))) /\ submitted d d' [ev_bundle ev]) /\
  (rq_path r = "/debug/rnd_peer" ->
     (exists t, x = Resp 200 t) /\ apart_same d d' /\ d_sent d' = d_sent d /\ d_cmds d' = d_cmds d /\
     forall k, kept_as (pe_eid (ev_peer ev)) k ->
       d_peers d' !! k = Some (ev_peer ev) /\ forall k', k' <> k -> d_peers d' !! k' = d_peers d !! k').
Proof.
  intros pe le pm db uh du pu ic pi cf ev r d srv Hm Ha. apply allowed_iff in Ha. cbn zeta. split; intros Hp.
  - assert (E : srv cf ev r d = do_rnd_bundle ev d).
    { unfold srv. rewrite (serve_local _ _ _ _ _ _ _ _ _ cf ev r d "/debug/rnd_bundle" (g HRndBundle) HRndBundle Hp eq_refl) by (rewrite ?Hm; done).
      by rewrite Hm. }
    rewrite E. cbn. split; [done|]. by repeat split.
  - assert (E : srv cf ev r d = do_rnd_peer ev d).
    { unfold srv. rewrite (serve_local _ _ _ _ _ _ _ _ _ cf ev r d "/debug/rnd_peer" (g HRndPeer) HRndPeer Hp eq_refl) by (rewrite ?Hm; done).
      by rewrite Hm. }
    rewrite E. cbn [do_rnd_peer fst snd]. split; [eauto|]. split; [by repeat split|]. split; [done|]. split; [done|].
    intros k Hk. assert (node_or_empty (pe_eid (ev_peer ev)) = k) as ->.
    { by destruct (pe_eid (ev_peer ev)). }
    cbn. split; [apply lookup_insert|]. intros k' Hne. by apply lookup_insert_ne.
Qed.
Print Assumptions C161_test_requests.

(** a command and a query at a node whose routing agent takes commands; a test
    bundle, and a test peer beside a peer of another name *)
Definition pm2 (s : string) : gmap string string := if bool_decide (s = "c=go") then {["c" := "go"]} else ∅.
Definition srv2 := serve pe1 le1 pm2 db1 (fun _ => Some None) (fun _ => None) pu1 (fun s => bool_decide (s = "mtcp")) (fun _ => None).
Definition p2 : peer := peer_new 0 (Ipn 7 3) (AIp "10.0.0.3") false None [("mtcp", None)] [].
Definition ev2 : env := Env 100 9 1 b1 p2 true (Some "routes").
Example C161_case : managing cf1 (Request POST "/routing/cmd" (Some "c=go") [] home false) /\
  d_cmds (snd (srv2 cf1 ev2 (Request POST "/routing/cmd" (Some "c=go") [] home false) d1)) = ["go"] /\
  d_cmds (snd (srv2 cf1 ev2 (Request GET "/routing/cmd" (Some "d=go") [] home false) d1)) = [] /\
  fst (srv2 cf1 ev2 (Request GET "/routing/getdata" None [] home false) d1) = Resp 200 (BText "routes") /\
  d_sent (snd (srv2 cf1 ev2 (Request GET "/debug/rnd_bundle" None [] home false) d1)) = [b1] /\
  kept_as (pe_eid (ev_peer ev2)) "7" /\
  d_peers (snd (srv2 cf1 ev2 (Request GET "/debug/rnd_peer" None [] home false) d1)) !! "7" = Some p2 /\
  d_peers (snd (srv2 cf1 ev2 (Request GET "/debug/rnd_peer" None [] home false) d1)) !! "m" = Some p1.
Proof. split; [right; apply home_is|]. by vm_compute. Qed.
