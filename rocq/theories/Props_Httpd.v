(** Properties of the HTTP interface: C50, C74-C80 *)
From stdpp Require Import prelude strings pretty gmap sorting.
From Coq Require Import NArith Lia ZifyBool ZifyN ZifyNat.
From Verif Require Import Core StoreMem StoreSled Sneakers StoreProofs Peers Apps Httpd HttpdProofs.
Open Scope N_scope.

(** ** C50 *)
(** Loopback addresses: 127.0.0.0/8, ::1, and 127.0.0.0/8 written in IPv6 form
    (::127.x.y.z and ::ffff:127.x.y.z) *)
Definition loopback_address (i : ipaddr) : Prop :=
  i = V6 1 \/
  exists x, x < 2^24 /\ (i = V4 (127 * 2^24 + x) \/ i = V6 (127 * 2^24 + x) \/ i = V6 (65535 * 2^32 + 127 * 2^24 + x)).
(** sending, inserting, registering, unregistering, polling, deleting, changing
    peers, commanding the routing agent *)
Definition management : list string :=
  ["/send"; "/insert"; "/register"; "/unregister"; "/endpoint"; "/endpoint.hex"; "/delete"; "/peers/add"; "/peers/del"; "/routing/cmd"].
(** Unless switched off, a management request from another address changes nothing
    and is answered with 403; for OPTIONS, which asks what is allowed, the
    answer is that of every path. *)
Theorem C50_localhost_only : forall parse_eid local_eid params dec_bundle unhex duration parse_url is_cla parse_ip cf ev r d,
  h_unsafe cf = false -> ~ loopback_address (rq_from r) -> rq_path r ∈ management ->
  snd (serve parse_eid local_eid params dec_bundle unhex duration parse_url is_cla parse_ip cf ev r d) = d /\
  (fst (serve parse_eid local_eid params dec_bundle unhex duration parse_url is_cla parse_ip cf ev r d) = Resp 403 BNone \/ rq_meth r = OPTIONS).
Proof.
  intros pe le pm db uh du pu ic pi cf ev r d Hu Hl Hp.
  assert (exists en, route (rq_path r) local_routes = Some en) as [en E].
  { unfold management in Hp. repeat (apply elem_of_cons in Hp as [Hp|Hp]; [rewrite Hp; eexists; reflexivity|]). by apply elem_of_nil in Hp. }
  by eapply serve_local_refused.
Qed.
Print Assumptions C50_localhost_only.
(** Local clients are served: no request from a loopback address is answered
    with 403. *)
Theorem C50_local_served : forall parse_eid local_eid params dec_bundle unhex duration parse_url is_cla parse_ip cf ev r d b,
  h_unsafe cf = true \/ loopback_address (rq_from r) ->
  fst (serve parse_eid local_eid params dec_bundle unhex duration parse_url is_cla parse_ip cf ev r d) <> Resp 403 b.
Proof.
  intros pe le pm db uh du pu ic pi cf ev r d b Hl.
  assert (Ha : allowed cf (rq_from r) = true) by (by apply allowed_iff).
  assert (Hd : forall en, fst (dispatch pe le pm db uh du pu ic pi cf ev en r d) <> Resp 403 b).
  { intros en. unfold dispatch. destruct (pick _ _) as [h|]; [|done].
    assert (Hh : forall b, fst (handle pe le pm db uh du pu ic pi cf ev h r d) <> Resp 403 b).
    { intros b'. destruct h; cbn; unfold do_peers_add, do_peers_del, do_routing_cmd, do_routing_data, do_send, do_delete, do_register,
        do_endpoint, do_insert_get, do_insert_post, do_push, do_ws; repeat case_match; cbn; try done; unfold look; repeat case_match; done. }
    destruct (handle _ _ _ _ _ _ _ _ _ _ _ _ _ _) as [x d']. cbn in Hh |- *. destruct (rq_meth r), x; cbn; try done; try apply Hh.
    intros [= ->]. by eapply Hh. }
  unfold serve. rewrite Ha. destruct (rq_meth r); repeat case_match; try done; apply Hd.
Qed.
Print Assumptions C50_local_served.
(** a concrete daemon: one endpoint with a bundle waiting, one peer, one stored
    bundle; two clients *)
Definition b1 : bundle := Bundle (BFlags false false false false false false false) (Dtn "n" "in") (Dtn "m" "") (Dtn "m" "") 7 0 5000 0 0 [Block 1 1 (KFlags false false false false) (CData [1; 2])].
Definition p1 : peer := peer_new 0 (Dtn "m" "") (AIp "10.0.0.2") false None [("mtcp", None)] [].
Definition d1 : daemon := Daemon [Agent (Dtn "n" "in") [b1] None] {["m" := p1]} (mem_push 0 b1 mem0) 0 [] [] [] [].
Definition cf1 : hconf := HConf false true true (Dtn "n" "").
Definition ev1 : env := Env 100 9 1 b1 p1 true None.
Definition pe1 (s : string) : option eid := if bool_decide (s = "dtn://n/in") then Some (Dtn "n" "in") else if bool_decide (s = "dtn://x/") then Some (Dtn "x" "") else None.
Definition le1 (s : string) : option eid := Some (Dtn "n" s).
Definition pm1 (s : string) : gmap string string :=
  if bool_decide (s = "dst=x") then {["dst" := "dtn://x/"]} else if bool_decide (s = "dst=?") then {["dst" := "?"]}
  else if bool_decide (s = "p=u") then {["p" := "mtcp://h/x"]} else ∅.
Definition db1 (l : list N) : option bundle := Some b1.
Definition pu1 (s : string) : option url := if bool_decide (s = "mtcp://h/x") then Some (Url "mtcp" (Some "h") (Some 16162) "/x") else None.
Definition srv1 := serve pe1 le1 pm1 db1 (fun _ => Some None) (fun _ => None) pu1 (fun s => bool_decide (s = "mtcp")) (fun _ => None).
Definition remote : ipaddr := V4 (10 * 2^24 + 2).
Definition home : ipaddr := V6 (65535 * 2^32 + 127 * 2^24 + 1).
Lemma remote_not : ~ loopback_address remote.
Proof. intros [E|(x & Hx & [E|[E|E]])]; try done. assert (10 * 2^24 + 2 = 127 * 2^24 + x) by (unfold remote in E; congruence). lia. Qed.
Lemma home_is : loopback_address home.
Proof. right. exists 1. split; [lia|]. right; right. done. Qed.
(** polling from the other host is refused, from the host itself it gives the bundle *)
Example C50_case :
  srv1 cf1 ev1 (Request GET "/endpoint" (Some "in") [] remote false) d1 = (Resp 403 BNone, d1) /\
  fst (srv1 cf1 ev1 (Request GET "/endpoint" (Some "in") [] home false) d1) = Resp 200 (BBundle b1) /\
  ~ loopback_address remote /\ loopback_address home.
Proof. split; [by vm_compute|]. split; [by vm_compute|]. split; [apply remote_not|apply home_is]. Qed.

Section props.
Context (parse_eid : string -> option eid) (local_eid : string -> option eid) (params : string -> gmap string string).
Context (dec_bundle : list N -> option bundle) (unhex : string -> option (option (list N))) (duration : string -> option N).
Context (parse_url : string -> option url) (is_cla : string -> bool) (parse_ip : string -> option string).
Notation srv := (serve parse_eid local_eid params dec_bundle unhex duration parse_url is_cla parse_ip).
Notation hnd := (handle parse_eid local_eid params dec_bundle unhex duration parse_url is_cla parse_ip).
Notation dsp := (dispatch parse_eid local_eid params dec_bundle unhex duration parse_url is_cla parse_ip).

(** ** C74 *)
(** everything but what was received and the websocket sessions is the same *)
Definition same_but_input (d d' : daemon) : Prop :=
  d_agents d' = d_agents d /\ d_peers d' = d_peers d /\ d_store d' = d_store d /\ d_sent d' = d_sent d /\ d_cmds d' = d_cmds d.
(** the bundle in the body of a push was received, or nothing *)
Definition at_most_pushed (r : request) (d d' : daemon) : Prop :=
  d_received d' = d_received d \/
  exists b, rq_path r = "/push" /\ dec_bundle (rq_body r) = Some b /\ d_received d' = d_received d ++ [b].
(** A remote client can read and push bundles, nothing else. *)
Definition C74_at : Prop := forall cf ev r d x d', h_unsafe cf = false -> ~ loopback_address (rq_from r) -> srv cf ev r d = (x, d') ->
  same_but_input d d' /\ at_most_pushed r d d' /\ d_ws d' = d_ws d.
Lemma remote_request cf ev r d x d' : h_unsafe cf = false -> ~ loopback_address (rq_from r) -> srv cf ev r d = (x, d') ->
  same_but_input d d' /\ at_most_pushed r d d' /\
  (d_ws d' = d_ws d \/ h_external cf = true /\ d_ws d' = d_ws d ++ [WsRouting] \/ h_ecla cf = true /\ d_ws d' = d_ws d ++ [WsEcla]).
Proof.
  intros Hu Hl H. assert (Hsame : d' = d -> same_but_input d d' /\ at_most_pushed r d d' /\
    (d_ws d' = d_ws d \/ h_external cf = true /\ d_ws d' = d_ws d ++ [WsRouting] \/ h_ecla cf = true /\ d_ws d' = d_ws d ++ [WsEcla])).
  { intros ->. by repeat split; left. }
  destruct (route (rq_path r) local_routes) as [en|] eqn:E.
  { apply Hsame. destruct (serve_local_refused parse_eid local_eid params dec_bundle unhex duration parse_url is_cla parse_ip cf ev r d en E Hu Hl) as [Hs _].
    by rewrite H in Hs. }
  unfold serve in H. rewrite E in H. destruct (route (rq_path r) (open_routes cf)) as [en|] eqn:E2;
    [|apply Hsame; destruct (rq_meth r); congruence].
  assert (Hm : rq_meth r = OPTIONS \/ dsp cf ev en r d = (x, d')) by (destruct (rq_meth r); auto).
  destruct Hm as [Hm|Hd]; [rewrite Hm in H; apply Hsame; congruence|]. clear H.
  unfold dispatch in Hd. destruct (pick (rq_meth r) en) as [h|] eqn:E3; [|apply Hsame; congruence].
  destruct (hnd cf ev h r d) as [x0 d0] eqn:Eh. injection Hd as _ <-.
  destruct (open_route cf _ _ _ _ E2 E3) as [[v ->]|[(-> & Hp & _)|[(He & -> & Hp)|(He & -> & Hp)]]].
  - cbn in Eh. apply Hsame. congruence.
  - cbn in Eh. unfold do_push in Eh. destruct (too_large r); [apply Hsame; congruence|].
    destruct (dec_bundle (rq_body r)) as [b|] eqn:Eb; injection Eh as _ <-.
    + repeat split; [|by left]. right. eauto.
    + repeat split; by left.
  - cbn in Eh. unfold do_ws in Eh. destruct (rq_meth r), (rq_upgrade r); try (apply Hsame; congruence).
    injection Eh as _ <-. repeat split; [by left|]. right; left. done.
  - cbn in Eh. unfold do_ws in Eh. destruct (rq_meth r), (rq_upgrade r); try (apply Hsame; congruence).
    injection Eh as _ <-. repeat split; [by left|]. right; right. done.
Qed.

(** ** C75 *)
(** the paths for looking *)
Definition looking : list string :=
  ["/"; "/peers"; "/bundles"; "/download"; "/download.hex"; "/status/nodeid"; "/status/eids"; "/status/bundles"; "/status/bundles/filtered";
   "/status/bundles/filtered/digest"; "/status/bundles/verbose"; "/status/bundles/digest"; "/status/store"; "/status/peers"; "/status/info";
   "/cts"; "/routing/getdata"].
(** [c] occurs in [s] *)
Definition occurs (c s : string) : Prop := exists a b, s = a +:+ c +:+ b.
(** known and not removed *)
Definition present (s : mem) (id : string) (p : pack) : Prop := mem_meta_of id s = Some p /\ has_constraint p Deleted = false.
(** what the answer to a GET shows *)
Definition shows (cf : hconf) (r : request) (d : daemon) (x : response) : Prop :=
  (rq_path r = "/status/nodeid" -> x = Resp 200 (BText (eid_string (h_host cf)))) /\
  (rq_path r = "/status/eids" -> x = Resp 200 (BList (map (fun a => eid_string (ag_eid a)) (d_agents d)))) /\
  (rq_path r = "/status/peers" -> exists l, x = Resp 200 (BPeers l) /\ NoDup l /\ forall n p, (n, p) ∈ l <-> d_peers d !! n = Some p) /\
  (rq_path r = "/status/bundles" -> exists l, x = Resp 200 (BList l) /\ NoDup l /\ forall id, id ∈ l <-> exists p, present (d_store d) id p) /\
  (rq_path r = "/status/bundles/filtered" ->
      match params (default "" (rq_query r)) !! "addr" with
      | None => x = Resp 400 (BText "missing filter criteria")
      | Some c => exists l, x = Resp 200 (BList l) /\ NoDup l /\
          forall id, id ∈ l <-> exists p, present (d_store d) id p /\ (occurs c (eid_string (p_src p)) \/ occurs c (eid_string (p_dst p)))
      end) /\
  (rq_path r = "/download" \/ rq_path r = "/download.hex" ->
      match rq_query r with
      | None => x = Resp 400 (BText "Bundle ID not specified")
      | Some id =>
          match mem_get id (d_store d) with
          | Some b => x = Resp 200 (if decide (rq_path r = "/download") then BBundle b else BHex b)
          | None => exists c, 400 <= c < 500 /\ x = Resp c (BText "Bundle not found")
          end
      end).

(** ** C76 *)
(** A bundle leaves an endpoint's queue only as the oldest of it, in the answer to
    the request, or because the endpoint is unregistered. *)
Definition C76_at : Prop := forall cf ev r d x d' e a, srv cf ev r d = (x, d') -> rq_path r <> "/unregister" ->
  find_agent e (d_agents d) = Some a ->
  exists a', find_agent e (d_agents d') = Some a' /\
    (ag_queue a' = ag_queue a \/
     exists b, ag_queue a = b :: ag_queue a' /\ (x = Resp 200 (BBundle b) \/ x = Resp 200 (BHex b))).
(** how a query names an endpoint: a service name without scheme belongs to this
    node, anything else is a full endpoint id *)
Definition names (path : string) (e : eid) : Prop :=
  if decide (Forall (fun c => c ∈ list_ascii_of_string "ABCDEFGHIJKLMNOPQRSTUVWXYZabcdefghijklmnopqrstuvwxyz0123456789/-_.~") (list_ascii_of_string path))
  then local_eid path = Some e else parse_eid path = Some e.

(** ** C77 *)
(** Every request is answered. *)
Definition C77_at : Prop := forall cf ev r d, fst (srv cf ev r d) <> Crash.
(** a name whose endpoint cannot be formed *)
Definition unformable (path : string) : Prop :=
  Forall (fun c => c ∈ list_ascii_of_string "ABCDEFGHIJKLMNOPQRSTUVWXYZabcdefghijklmnopqrstuvwxyz0123456789/-_.~") (list_ascii_of_string path) /\
  local_eid path = None.
(** the requests that are not answered *)
Definition stumbling (ev : env) (r : request) : Prop :=
  let q := params (default "" (rq_query r)) in
  (rq_path r = "/send" /\ exists s, q !! "dst" = Some s /\ parse_eid s = None) \/
  (rq_path r = "/peers/add" /\ exists u, q !! "p" = Some u /\
      ((exists t, q !! "p_t" = Some t /\ lower t <> "static" /\ lower t <> "dynamic") \/
       (exists p, peer_url parse_eid parse_url is_cla parse_ip (ev_now ev) u = inl p /\ eid_node (pe_eid p) = None))) \/
  (rq_path r = "/peers/del" /\ exists u p, q !! "p" = Some u /\
      peer_url parse_eid parse_url is_cla parse_ip (ev_now ev) u = inl p /\ eid_node (pe_eid p) = None) \/
  (rq_path r ∈ ["/register"; "/unregister"; "/endpoint"; "/endpoint.hex"] /\ exists s, rq_query r = Some s /\ unformable s) \/
  (rq_path r = "/insert" /\ exists s, rq_query r = Some s /\ unhex s = None).

(** *** proofs *)
Lemma C75_same cf ev r d : rq_path r ∈ looking -> snd (srv cf ev r d) = d.
Proof.
  intros Hp. destruct (srv cf ev r d) as [x d'] eqn:H. cbn.
  destruct (serve_cases _ _ _ _ _ _ _ _ _ _ _ _ _ _ _ H) as [(-> & _)|(en & h & x0 & Hr & Hk & Hh & _)]; [done|].
  assert (Hd : h = HRoutingData \/ exists v, h = HLook v).
  { destruct Hr as [[Hr _]|Hr].
    - pose proof (local_entry _ _ _ _ Hr Hk) as L. unfold looking in Hp.
      repeat (apply elem_of_cons in Hp as [Hp|Hp]; [rewrite Hp in *; cbn in Hr; try discriminate Hr; injection Hr as <-; destruct (rq_meth r); cbn in Hk; try discriminate Hk; injection Hk as <-; eauto|]).
      by apply elem_of_nil in Hp.
    - destruct (open_route _ _ _ _ _ Hr Hk) as [?|[(_ & E & _)|[(_ & _ & E)|(_ & _ & E)]]]; [by right|..];
        rewrite E in Hp; apply (bool_decide_pack _) in Hp; vm_compute in Hp; done. }
  destruct Hd as [->|[v ->]]; cbn in Hh; [|congruence]. unfold do_routing_data in Hh. destruct (ev_data ev); congruence.
Qed.
Lemma C75_shows_ cf ev r d : rq_meth r = GET -> mem_inv (d_store d) -> shows cf r d (fst (srv cf ev r d)).
Proof.
  intros Hm Hi. unfold shows, serve. rewrite Hm.
  assert (Ho : forall path h, route path local_routes = None -> route path (open_routes cf) = Some (g (HLook h)) -> rq_path r = path ->
    fst (match route (rq_path r) local_routes with
    | Some en => if allowed cf (rq_from r) then dsp cf ev en r d else (Resp 403 BNone, d)
    | None => match route (rq_path r) (open_routes cf) with Some en => dsp cf ev en r d | None => (NoRoute, d) end
    end) = look params cf h r d).
  { intros path h E1 E2 <-. rewrite E1, E2. unfold dispatch. rewrite Hm. cbn. done. }
  assert (Hl : forall path h, route path local_routes = None ->
    route path [("/ws/erouting", g (HWs WsRouting)); ("/ws/ecla", g (HWs WsEcla))] = None ->
    route path (open_routes (HConf true false false DtnNone)) = Some (g (HLook h)) -> route path (open_routes cf) = Some (g (HLook h))).
  { intros path h _ E1 E2. unfold open_routes in *. destruct (h_external cf), (h_ecla cf); cbn [app route h_external h_ecla] in *;
      repeat (case_bool_decide; try congruence). }
  assert (Hv : forall path h, rq_path r = path -> route path local_routes = None ->
    route path [("/ws/erouting", g (HWs WsRouting)); ("/ws/ecla", g (HWs WsEcla))] = None ->
    route path (open_routes (HConf true false false DtnNone)) = Some (g (HLook h)) ->
    fst (match route (rq_path r) local_routes with
    | Some en => if allowed cf (rq_from r) then dsp cf ev en r d else (Resp 403 BNone, d)
    | None => match route (rq_path r) (open_routes cf) with Some en => dsp cf ev en r d | None => (NoRoute, d) end
    end) = look params cf h r d) by eauto.
  clear Ho Hl.
  split; [|split; [|split; [|split; [|split]]]]; intros Hp.
  - rewrite (Hv _ VNodeId Hp) by reflexivity. done.
  - rewrite (Hv _ VEids Hp) by reflexivity. done.
  - rewrite (Hv _ VPeers Hp) by reflexivity. eexists. split; [done|]. split; [apply NoDup_map_to_list|].
    intros n p. by rewrite elem_of_map_to_list.
  - rewrite (Hv _ VBundles Hp) by reflexivity. eexists. split; [done|]. split; [apply known_bundles_nodup; done|].
    intros id. by apply known_bundles_iff.
  - rewrite (Hv _ VFiltered Hp) by reflexivity. cbn [look]. unfold query_map. destruct (_ !! "addr") as [c|]; [|done].
    eexists. split; [done|]. split; [by apply filter_addr_nodup|]. intros id. rewrite filter_addr_iff by done. unfold present, mem_meta_of, occurs.
    setoid_rewrite contains_iff. naive_solver.
  - destruct Hp as [Hp|Hp].
    + rewrite (Hv _ VDownload Hp) by reflexivity. cbn [look].
      destruct (rq_query r); [|done]. destruct (mem_get _ _); [by rewrite decide_True|]. exists 404. split; [lia|done].
    + rewrite (Hv _ VDownloadHex Hp) by reflexivity. cbn [look].
      destruct (rq_query r); [|done]. destruct (mem_get _ _); [by rewrite decide_False by congruence|]. exists 400. split; [lia|done].
Qed.

Lemma names_named path e : names path e <-> exists l, named parse_eid local_eid path = Some (Some (l, e)).
Proof.
  unfold names, named. destruct (valid_service path) eqn:E.
  - rewrite decide_True by (by apply valid_service_iff). destruct (local_eid path); split; try done; [|by intros [l [= _ <-]]|by intros [l H]].
    intros [= <-]. eauto.
  - rewrite decide_False by (rewrite <- valid_service_iff; congruence). destruct (parse_eid path); split; try done; [|by intros [l [= _ <-]]|by intros [l H]].
    intros [= <-]. eauto.
Qed.
Lemma named_none path : named parse_eid local_eid path = None -> unformable path.
Proof.
  unfold named, unformable. destruct (valid_service path) eqn:E; [|by destruct (parse_eid path)].
  apply valid_service_iff in E. destruct (local_eid path); [done|]. done.
Qed.
Lemma handler_agents cf ev h r d x d' : hnd cf ev h r d = (x, d') -> h <> HUnregister -> forall e a, find_agent e (d_agents d) = Some a ->
  exists a', find_agent e (d_agents d') = Some a' /\
    (ag_queue a' = ag_queue a \/ exists b, ag_queue a = b :: ag_queue a' /\ (x = Resp 200 (BBundle b) \/ x = Resp 200 (BHex b))).
Proof.
  intros H Hn e a Ha.
  assert (Hsame : d_agents d' = d_agents d -> exists a', find_agent e (d_agents d') = Some a' /\
    (ag_queue a' = ag_queue a \/ exists b, ag_queue a = b :: ag_queue a' /\ (x = Resp 200 (BBundle b) \/ x = Resp 200 (BHex b)))).
  { intros ->. exists a. auto. }
  assert (Hpop : forall hex, do_endpoint parse_eid local_eid hex r d = (x, d') -> exists a', find_agent e (d_agents d') = Some a' /\
    (ag_queue a' = ag_queue a \/ exists b, ag_queue a = b :: ag_queue a' /\ (x = Resp 200 (BBundle b) \/ x = Resp 200 (BHex b)))).
  { intros hex. unfold do_endpoint. destruct (rq_query r) as [path|]; [|intros E; apply Hsame; congruence].
    destruct (named _ _ path) as [[[l e']|]|]; [|intros E; apply Hsame; congruence..].
    destruct (find_agent e' (d_agents d)) as [a0|] eqn:Ea; [|intros E; apply Hsame; congruence].
    destruct (ag_queue a0) as [|b q] eqn:Eq; [intros E; apply Hsame; congruence|].
    intros E. injection E as <- <-. cbn [d_agents set_agents]. destruct (decide (e = e')) as [<-|Hne].
    - assert (a0 = a) as -> by congruence. exists (take_first a). split; [by apply find_alter_same|]. right. exists b. unfold take_first. cbn. rewrite Eq. cbn.
      split; [done|]. destruct hex; auto.
    - exists a. rewrite find_alter_other by done. auto. }
  destruct h; cbn in H; try done; eauto; try (apply Hsame; revert H; unfold do_peers_add, do_peers_del, do_routing_cmd, do_routing_data, do_send, do_delete,
        do_insert_get, do_insert_post, do_push, do_ws, do_rnd_bundle, do_rnd_peer; repeat case_match; by intros [= <- <-]).
  unfold do_register in H. destruct (rq_query r) as [path|]; [|apply Hsame; congruence].
  destruct (named _ _ path) as [[[l e']|]|]; [|apply Hsame; congruence..]. injection H as _ <-. cbn [d_agents set_agents].
  exists a. split; [by apply find_register|]. auto.
Qed.
Lemma C76_partial_ cf ev r d x d' e a : rq_meth r <> HEAD -> srv cf ev r d = (x, d') -> rq_path r <> "/unregister" ->
  find_agent e (d_agents d) = Some a ->
  exists a', find_agent e (d_agents d') = Some a' /\
    (ag_queue a' = ag_queue a \/ exists b, ag_queue a = b :: ag_queue a' /\ (x = Resp 200 (BBundle b) \/ x = Resp 200 (BHex b))).
Proof.
  intros Hm H Hp Ha. destruct (serve_cases _ _ _ _ _ _ _ _ _ _ _ _ _ _ _ H) as [(-> & _)|(en & h & x0 & Hr & Hk & Hh & Hx)]; [eauto|].
  assert (x = x0) as -> by (destruct (rq_meth r), x0; done).
  eapply handler_agents; [exact Hh| |done]. intros ->.
  destruct Hr as [[Hr _]|Hr].
  - pose proof (local_entry _ _ _ _ Hr Hk) as L. naive_solver.
  - destruct (open_route _ _ _ _ _ Hr Hk) as [[? ?]|[(? & _)|[(_ & ? & _)|(_ & ? & _)]]]; done.
Qed.
Lemma C76_poll_ cf ev r d path e : rq_meth r = GET -> h_unsafe cf = true \/ loopback_address (rq_from r) ->
  rq_path r = "/endpoint" \/ rq_path r = "/endpoint.hex" -> rq_query r = Some path -> names path e ->
  match find_agent e (d_agents d) with
  | None => srv cf ev r d = (Resp 404 (BText "No such endpoint registered!"), d)
  | Some a =>
      match ag_queue a with
      | [] => srv cf ev r d = (Resp 200 (BText "Nothing to receive"), d)
      | b :: q => fst (srv cf ev r d) = Resp 200 (if decide (rq_path r = "/endpoint") then BBundle b else BHex b) /\
          find_agent e (d_agents (snd (srv cf ev r d))) = Some (Agent e q (ag_sub a)) /\
          forall e', e' <> e -> find_agent e' (d_agents (snd (srv cf ev r d))) = find_agent e' (d_agents d)
      end
  end.
Proof.
  intros Hm Hl Hp Hq Hn. apply names_named in Hn as [l Hn]. apply allowed_iff in Hl.
  assert (E : srv cf ev r d = do_endpoint parse_eid local_eid (bool_decide (rq_path r <> "/endpoint")) r d).
  { destruct Hp as [Hp|Hp].
    - rewrite (serve_local _ _ _ _ _ _ _ _ _ cf ev r d "/endpoint" (g HEndpoint) HEndpoint Hp eq_refl) by (rewrite ?Hm; done).
      rewrite Hm, Hp. cbn. by destruct (do_endpoint _ _ _ _ _).
    - rewrite (serve_local _ _ _ _ _ _ _ _ _ cf ev r d "/endpoint.hex" (g HEndpointHex) HEndpointHex Hp eq_refl) by (rewrite ?Hm; done).
      rewrite Hm, Hp. cbn. by destruct (do_endpoint _ _ _ _ _). }
  rewrite E. unfold do_endpoint. rewrite Hq, Hn. destruct (find_agent e (d_agents d)) as [a0|] eqn:Ea; [|done].
  destruct (ag_queue a0) as [|b q] eqn:Eq; [done|]. cbn [fst snd d_agents set_agents]. split; [|split].
  - f_equal. destruct Hp as [Hp|Hp]; rewrite Hp; by vm_compute.
  - rewrite (find_alter_same e take_first _ a0) by done. f_equal. unfold take_first. rewrite Eq. cbn.
    assert (ag_eid a0 = e) as ->; [|done]. unfold find_agent in Ea. apply find_some in Ea as [_ Ea]. apply bool_decide_eq_true in Ea. done.
  - intros e' He. by apply find_alter_other.
Qed.
Lemma C77_partial_ cf ev r d : ~ stumbling ev r -> fst (srv cf ev r d) <> Crash.
Proof.
  intros Hs H. destruct (srv cf ev r d) as [x d'] eqn:E. cbn in H. subst x.
  destruct (serve_cases _ _ _ _ _ _ _ _ _ _ _ _ _ _ _ E) as [(_ & [?|[? ?]])|(en & h & x0 & Hr & Hk & Hh & Hx)]; [done..|].
  assert (x0 = Crash) as -> by (destruct (rq_meth r), x0; done). clear Hx.
  destruct Hr as [[Hr _]|Hr].
  2:{ destruct (open_route _ _ _ _ _ Hr Hk) as [[v ->]|[(-> & _)|[(_ & -> & _)|(_ & -> & _)]]]; cbn in Hh.
      - destruct v; cbn in Hh; repeat case_match; done.
      - unfold do_push in Hh. repeat case_match; done.
      - unfold do_ws in Hh. repeat case_match; done.
      - unfold do_ws in Hh. repeat case_match; done. }
  assert (Hreg : forall add, do_register parse_eid local_eid add r d = (Crash, d') -> exists s, rq_query r = Some s /\ unformable s).
  { intros add. unfold do_register. destruct (rq_query r) as [path|]; [|done]. destruct (named _ _ path) as [[[? ?]|]|] eqn:En; [done..|].
    intros _. exists path. split; [done|]. by apply named_none. }
  assert (Hend : forall hex, do_endpoint parse_eid local_eid hex r d = (Crash, d') -> exists s, rq_query r = Some s /\ unformable s).
  { intros hex. unfold do_endpoint. destruct (rq_query r) as [path|]; [|done]. destruct (named _ _ path) as [[[? ?]|]|] eqn:En; [repeat case_match; done|done|].
    intros _. exists path. split; [done|]. by apply named_none. }
  apply Hs. unfold stumbling. cbv zeta.
  destruct (local_entry _ _ _ _ Hr Hk) as [(-> & Hp)|[(-> & Hp)|[(-> & Hp)|[(-> & Hp)|[(-> & Hp)|[(-> & Hp)|[(-> & Hp)|[(-> & Hp)|[(-> & Hp)|[(-> & Hp)|[(-> & Hp)|[(-> & Hp)|[(-> & Hp)|[(-> & Hp)|[(-> & Hp)|(-> & Hp)]]]]]]]]]]]]]]];
    cbn in Hh.
  - right; left. split; [done|]. unfold do_peers_add, query_map in Hh. destruct (_ !! "p") as [u|]; [|done]. exists u. split; [done|].
    destruct (_ !! "p_t") as [t|] eqn:Et.
    + cbn in Hh. destruct (peer_type t) as [st|] eqn:Ept.
      * right. destruct (peer_url _ _ _ _ _ u) as [p|]; [|done]. exists p. split; [done|]. unfold peers_add in Hh. cbn in Hh. by destruct (eid_node (pe_eid p)); [destruct (bool_decide _)|].
      * left. exists t. split; [done|]. unfold peer_type in Ept. repeat case_bool_decide; done.
    + right. replace (peer_type (default "DYNAMIC" None)) with (Some false) in Hh by (by vm_compute).
      destruct (peer_url _ _ _ _ _ u) as [p|]; [|done]. exists p. split; [done|]. unfold peers_add in Hh. cbn in Hh. by destruct (eid_node (pe_eid p)); [destruct (bool_decide _)|].
  - right; right; left. split; [done|]. unfold do_peers_del, query_map in Hh. destruct (_ !! "p") as [u|]; [|done]. destruct (peer_url _ _ _ _ _ u) as [p|] eqn:Eu; [|done].
    exists u, p. split; [done|]. split; [done|]. by destruct (eid_node (pe_eid p)).
  - unfold do_routing_cmd in Hh. repeat case_match; done.
  - unfold do_routing_data in Hh. repeat case_match; done.
  - left. split; [done|]. unfold do_send, query_map in Hh. destruct (too_large r); [done|]. destruct (_ !! "dst") as [s|] eqn:Es.
    + exists s. split; [done|]. destruct (parse_eid s); [|done]. repeat case_match; done.
    + rewrite bool_decide_eq_true_2 in Hh by done. done.
  - unfold do_delete in Hh. destruct (rq_query r); [|done]. destruct (mem_remove _ _) as [? []]; done.
  - right; right; right; left. split; [rewrite Hp; set_solver|]. eauto.
  - right; right; right; left. split; [rewrite Hp; set_solver|]. eauto.
  - right; right; right; left. split; [rewrite Hp; set_solver|]. eauto.
  - right; right; right; left. split; [rewrite Hp; set_solver|]. eauto.
  - right; right; right; right. split; [done|]. unfold do_insert_get in Hh. destruct (rq_query r) as [s|]; [|done]. destruct (all_chars _ s); [|done].
    exists s. split; [done|]. destruct (unhex s) as [[?|]|]; [by destruct (dec_bundle _)|done|done].
  - unfold do_insert_post in Hh. repeat case_match; done.
  - done.
  - done.
  - unfold do_ws in Hh. repeat case_match; done.
  - done.
Qed.
Lemma crash_harmless cf ev r d x d' : srv cf ev r d = (x, d') -> x = Crash -> d' = d.
Proof.
  intros E ->. destruct (serve_cases _ _ _ _ _ _ _ _ _ _ _ _ _ _ _ E) as [(_ & [?|[? ?]])|(en & h & x0 & Hr & Hk & Hh & Hx)]; [done..|].
  assert (x0 = Crash) as -> by (destruct (rq_meth r), x0; done).
  destruct h; cbn in Hh; try congruence; revert Hh; unfold do_peers_add, do_peers_del, do_routing_cmd, do_routing_data, do_send, do_delete, do_register, do_endpoint,
        do_insert_get, do_insert_post, do_push, do_ws, do_rnd_bundle, do_rnd_peer; repeat case_match; congruence.
Qed.

(** ** C78 *)
(** what a request to /send asks for *)
Definition C78_asked (cf : hconf) (ev : env) (r : request) (dst : eid) (b : bundle) : Prop :=
  b_dst b = dst /\ b_src b = h_host cf /\ b_rpt b = h_host cf /\ payload_of b = Some (rq_body r) /\
  b_time b = ev_time ev /\ b_seq b = ev_seq ev /\
  b_life b = match params (default "" (rq_query r)) !! "lifetime" with
             | Some t => match duration t with Some l => l | None => 60 * 60 * 1000 end
             | None => 60 * 60 * 1000
             end /\
  bf_rep_deliv (b_flags b) = true /\ bf_admin (b_flags b) = false /\ bf_fragment (b_flags b) = false /\
  exists k, k ∈ b_blocks b /\ k_type k = 10 /\ k_data k = CHop 32 0.
(** only the list of submitted bundles differs *)
Definition submitted (d d' : daemon) (l : list bundle) : Prop :=
  d_sent d' = d_sent d ++ l /\ d_agents d' = d_agents d /\ d_peers d' = d_peers d /\ d_store d' = d_store d /\ d_broken d' = d_broken d /\
  d_received d' = d_received d /\ d_cmds d' = d_cmds d /\ d_ws d' = d_ws d.
Lemma C78_send_ cf ev r d : rq_path r = "/send" -> rq_meth r = POST -> h_unsafe cf = true \/ loopback_address (rq_from r) ->
  match (match params (default "" (rq_query r)) !! "dst" with Some s => parse_eid s | None => None end) with
  | Some dst =>
      if decide (dst <> DtnNone /\ N.of_nat (length (rq_body r)) <= 2 * 1024 * 1024)
      then (exists t, fst (srv cf ev r d) = Resp 200 (BText t)) /\ exists b, submitted d (snd (srv cf ev r d)) [b] /\ C78_asked cf ev r dst b
      else snd (srv cf ev r d) = d /\ forall t, fst (srv cf ev r d) <> Resp 200 t
  | None => snd (srv cf ev r d) = d /\ forall t, fst (srv cf ev r d) <> Resp 200 t
  end.
Proof.
  intros Hp Hm Hl. apply allowed_iff in Hl.
  rewrite (serve_local _ _ _ _ _ _ _ _ _ cf ev r d "/send" (Entry None (Some HSend) None) HSend Hp eq_refl) by (rewrite ?Hm; done).
  rewrite Hm. cbn [fst snd strip handle]. unfold do_send, query_map, too_large.
  destruct (BODY_LIMIT <? N.of_nat (length (rq_body r))) eqn:El.
  { assert (BODY_LIMIT < N.of_nat (length (rq_body r))) by lia. unfold BODY_LIMIT in *. cbn [fst snd].
    repeat case_match; try done. lia. }
  assert (N.of_nat (length (rq_body r)) <= 2 * 1024 * 1024) by (unfold BODY_LIMIT in El; lia).
  destruct (_ !! "dst") as [s|]; [|rewrite bool_decide_eq_true_2 by done; done].
  destruct (parse_eid s) as [dst|]; [|done]. case_bool_decide as Ed; cbn [fst snd].
  - rewrite decide_False by tauto. done.
  - rewrite decide_True by tauto. split; [eauto|]. eexists. split; [by repeat split|].
    repeat split; cbn; try done.
    eexists. split; [right; left|done].
Qed.

(** ** C79 *)
(** the node a peer URL stands for, its address and its convergence layer *)
Definition node_uri (path : string) : string :=
  let n := string_of_list_ascii (filter (fun c => c <> Ascii.ascii_of_N 47) (list_ascii_of_string path)) in
  if decide (Forall (fun c => c ∈ list_ascii_of_string "0123456789") (list_ascii_of_string n))
  then "ipn:" +:+ n +:+ ".0" else "dtn://" +:+ n +:+ "/".
Definition target (s : string) (e : eid) (a : paddr) (layer : string * option N) : Prop :=
  exists rest u host,
    (s = "ecla+" +:+ rest \/ s = rest /\ (forall t, s <> "ecla+" +:+ t) /\ is_cla (u_scheme u) = true) /\
    parse_url rest = Some u /\ u_host u = Some host /\ u_path u <> "" /\ u_path u <> "/" /\
    parse_eid (node_uri (u_path u)) = Some e /\
    a = match parse_ip host with Some i => AIp i | None => AGeneric host end /\ layer = (u_scheme u, u_port u).
Lemma no_slashes_filter s : no_slashes s = string_of_list_ascii (filter (fun c => c <> Ascii.ascii_of_N 47) (list_ascii_of_string s)).
Proof.
  induction s as [|c s IH]; [done|]. cbn [no_slashes list_ascii_of_string]. rewrite filter_cons. destruct (Ascii.N_of_ascii c =? 47) eqn:E.
  - rewrite decide_False; [done|]. intros Hn. apply Hn. apply N.eqb_eq in E. rewrite <- E. by rewrite Ascii.ascii_N_embedding.
  - rewrite decide_True; [cbn; by rewrite IH|]. intros ->. done.
Qed.
Lemma digits_forall s : all_chars digit s = true <-> Forall (fun c => c ∈ list_ascii_of_string "0123456789") (list_ascii_of_string s).
Proof.
  apply all_chars_forall. intros c.
  assert (E : forall c, digit (Ascii.N_of_ascii c) = bool_decide (c ∈ list_ascii_of_string "0123456789")).
  { intros [[] [] [] [] [] [] [] []]; vm_compute; reflexivity. }
  rewrite E. apply bool_decide_eq_true.
Qed.
Lemma node_uri_eq path : (if all_chars digit (no_slashes path) then "ipn:" +:+ no_slashes path +:+ ".0" else "dtn://" +:+ no_slashes path +:+ "/") = node_uri path.
Proof.
  unfold node_uri. rewrite <- no_slashes_filter. destruct (all_chars digit (no_slashes path)) eqn:E.
  - rewrite decide_True; [done|]. by apply digits_forall.
  - rewrite decide_False; [done|]. rewrite <- digits_forall. congruence.
Qed.
Lemma peer_url_target now s p : peer_url parse_eid parse_url is_cla parse_ip now s = inl p <->
  exists e a layer, target s e a layer /\ p = peer_new now e a true None [layer] [].
Proof.
  unfold peer_url. split.
  - destruct (strip_prefix "ecla+" s) as [rest|] eqn:Es.
    + apply strip_prefix_some in Es. destruct (parse_url rest) as [u|] eqn:Eu; [|done]. cbn [negb andb]. destruct (u_host u) as [h|] eqn:Eh; [|done].
      destruct (bool_decide (u_path u = "/") || bool_decide (u_path u = "")) eqn:Ep; [done|]. apply orb_false_iff in Ep as [E1%bool_decide_eq_false E2%bool_decide_eq_false].
      rewrite node_uri_eq. destruct (parse_eid (node_uri (u_path u))) as [e|] eqn:Ee; [|done]. intros [= <-].
      eexists _, _, _. split; [|done]. exists rest, u, h. split; [by left|]. done.
    + destruct (parse_url s) as [u|] eqn:Eu; [|done]. cbn [negb andb]. destruct (is_cla (u_scheme u)) eqn:Ec; [|done]. cbn [negb]. destruct (u_host u) as [h|] eqn:Eh; [|done].
      destruct (bool_decide (u_path u = "/") || bool_decide (u_path u = "")) eqn:Ep; [done|]. apply orb_false_iff in Ep as [E1%bool_decide_eq_false E2%bool_decide_eq_false].
      rewrite node_uri_eq. destruct (parse_eid (node_uri (u_path u))) as [e|] eqn:Ee; [|done]. intros [= <-].
      eexists _, _, _. split; [|done]. exists s, u, h. split; [|done]. right. split; [done|]. split; [|done].
      intros t Ht. apply strip_prefix_some in Ht. congruence.
  - intros (e & a & layer & (rest & u & h & Hs & Hu & Hh & Hp1 & Hp2 & He & -> & ->) & ->).
    destruct Hs as [Hs|(Hs & Hn & Hc)].
    + apply strip_prefix_some in Hs. rewrite Hs, Hu, Hh. cbn [negb andb]. rewrite !bool_decide_eq_false_2 by done. cbn [orb]. by rewrite node_uri_eq, He.
    + assert (strip_prefix "ecla+" s = None) as ->. { destruct (strip_prefix "ecla+" s) as [t|] eqn:E; [|done]. apply strip_prefix_some in E. by apply Hn in E. }
      subst rest. rewrite Hu, Hc, Hh. cbn [negb andb]. rewrite !bool_decide_eq_false_2 by done. cbn [orb]. by rewrite node_uri_eq, He.
Qed.
(** only the peers differ *)
Definition peers_become (d d' : daemon) (m : peers) : Prop :=
  d_peers d' = m /\ d_sent d' = d_sent d /\ d_agents d' = d_agents d /\ d_store d' = d_store d /\ d_broken d' = d_broken d /\
  d_received d' = d_received d /\ d_cmds d' = d_cmds d /\ d_ws d' = d_ws d.
Definition kind_named (t : option string) (static : bool) : Prop :=
  match t with None => static = false | Some t => lower t = (if static then "static" else "dynamic") end.
Lemma kind_named_iff t static : kind_named t static <-> peer_type (default "DYNAMIC" t) = Some static.
Proof.
  destruct t as [t|]; cbn.
  - unfold peer_type. destruct static; repeat case_bool_decide; split; try congruence; intros; congruence.
  - replace (peer_type "DYNAMIC") with (Some false) by (by vm_compute). split; congruence.
Qed.
Lemma C79_add_ cf ev r d s e a layer n static : rq_path r = "/peers/add" -> rq_meth r = GET -> h_unsafe cf = true \/ loopback_address (rq_from r) ->
  params (default "" (rq_query r)) !! "p" = Some s -> kind_named (params (default "" (rq_query r)) !! "p_t") static ->
  target s e a layer -> eid_node e = Some n ->
  fst (srv cf ev r d) = Resp 200 (BText (if decide (d_peers d !! n = None) then "Added new peer" else "Updated existing peer")) /\
  peers_become d (snd (srv cf ev r d)) (<[n := peer_new (ev_now ev) e a static None [layer] []]> (d_peers d)).
Proof.
  intros Hp Hm Hl Hs Ht Hg Hn. apply allowed_iff in Hl. apply kind_named_iff in Ht.
  rewrite (serve_local _ _ _ _ _ _ _ _ _ cf ev r d "/peers/add" (g HPeersAdd) HPeersAdd Hp eq_refl) by (rewrite ?Hm; done).
  rewrite Hm. cbn [fst snd strip handle]. unfold do_peers_add, query_map. rewrite Hs, Ht.
  assert (peer_url parse_eid parse_url is_cla parse_ip (ev_now ev) s = inl (peer_new (ev_now ev) e a true None [layer] [])) as ->.
  { apply peer_url_target. eauto. }
  unfold peers_add. cbn [pe_eid peer_new]. rewrite Hn. destruct (decide (d_peers d !! n = None)) as [H|H].
  - rewrite bool_decide_eq_true_2 by done. done.
  - rewrite bool_decide_eq_false_2 by done. done.
Qed.
Lemma C79_del_ cf ev r d s e a layer n : rq_path r = "/peers/del" -> rq_meth r = GET -> h_unsafe cf = true \/ loopback_address (rq_from r) ->
  params (default "" (rq_query r)) !! "p" = Some s -> target s e a layer -> eid_node e = Some n ->
  fst (srv cf ev r d) = Resp 200 (BText "Removed peer") /\ peers_become d (snd (srv cf ev r d)) (delete n (d_peers d)).
Proof.
  intros Hp Hm Hl Hs Hg Hn. apply allowed_iff in Hl.
  rewrite (serve_local _ _ _ _ _ _ _ _ _ cf ev r d "/peers/del" (g HPeersDel) HPeersDel Hp eq_refl) by (rewrite ?Hm; done).
  rewrite Hm. cbn [fst snd strip handle]. unfold do_peers_del, query_map. rewrite Hs.
  assert (peer_url parse_eid parse_url is_cla parse_ip (ev_now ev) s = inl (peer_new (ev_now ev) e a true None [layer] [])) as ->.
  { apply peer_url_target. eauto. }
  cbn [pe_eid peer_new]. rewrite Hn. done.
Qed.
Lemma C79_bad_ cf ev r d : rq_path r ∈ ["/peers/add"; "/peers/del"] -> rq_meth r = GET ->
  (forall s, params (default "" (rq_query r)) !! "p" = Some s -> forall e a layer, ~ target s e a layer) ->
  snd (srv cf ev r d) = d /\ forall t, fst (srv cf ev r d) <> Resp 200 t.
Proof.
  intros Hp Hm Hg. destruct (allowed cf (rq_from r)) eqn:Ha.
  - apply elem_of_cons in Hp as [Hp|Hp%elem_of_list_singleton].
    + rewrite (serve_local _ _ _ _ _ _ _ _ _ cf ev r d "/peers/add" (g HPeersAdd) HPeersAdd Hp eq_refl) by (rewrite ?Hm; done).
      rewrite Hm. cbn [fst snd strip handle]. unfold do_peers_add, query_map. destruct (_ !! "p") as [s|] eqn:Es; [|done]. destruct (peer_type _); [|done].
      destruct (peer_url _ _ _ _ _ s) as [p|] eqn:E; [|done]. apply peer_url_target in E as (e & a & l & E & _). by destruct (Hg s eq_refl e a l).
    + rewrite (serve_local _ _ _ _ _ _ _ _ _ cf ev r d "/peers/del" (g HPeersDel) HPeersDel Hp eq_refl) by (rewrite ?Hm; done).
      rewrite Hm. cbn [fst snd strip handle]. unfold do_peers_del, query_map. destruct (_ !! "p") as [s|] eqn:Es; [|done].
      destruct (peer_url _ _ _ _ _ s) as [p|] eqn:E; [|done]. apply peer_url_target in E as (e & a & l & E & _). by destruct (Hg s eq_refl e a l).
  - assert (exists en, route (rq_path r) local_routes = Some en) as [en E].
    { repeat (apply elem_of_cons in Hp as [Hp|Hp]; [rewrite Hp; eexists; reflexivity|]). by apply elem_of_nil in Hp. }
    unfold serve. rewrite Hm, E, Ha. done.
Qed.

(** ** C80 *)
(** The neighbour's side of a transfer over HTTP: the request is not made or does
    not arrive; it arrives but the answer does not; it is answered. *)
Inductive link := Lost | Reached | Answered.
Definition push_request (from : ipaddr) (ready : list N) : request := Request POST "/push" None ready from false.
Definition transfer (cf : hconf) (ev : env) (from : ipaddr) (l : link) (ready : list N) (d : daemon) : option bool * daemon :=
  match l with
  | Lost => (http_send true ready NoAnswer, d)
  | Reached => (http_send true ready NoAnswer, snd (srv cf ev (push_request from ready) d))
  | Answered => (http_send true ready (Answer (fst (srv cf ev (push_request from ready) d))), snd (srv cf ev (push_request from ready) d))
  end.
(** A transfer is reported as successful only if the neighbour received the bundle. *)
Definition C80_at : Prop := forall cf ev from l ready b d d',
  dec_bundle ready = Some b -> ready <> [] -> transfer cf ev from l ready d = (Some true, d') -> d_received d' = d_received d ++ [b].
Lemma C80_partial_ cf ev from l ready b d d' : N.of_nat (length ready) <= 2 * 1024 * 1024 ->
  dec_bundle ready = Some b -> ready <> [] -> transfer cf ev from l ready d = (Some true, d') -> d_received d' = d_received d ++ [b].
Proof.
  intros Hl Hb Hne. unfold transfer, http_send. destruct l; destruct ready as [|c rest] eqn:Er; try done. rewrite <- Er in *.
  rewrite (serve_open _ _ _ _ _ _ _ _ _ cf ev _ d "/push" (Entry None (Some HPush) None) HPush) by first [done | apply open_fixed; by vm_compute].
  cbn [fst snd strip handle rq_meth push_request]. unfold do_push, too_large. cbn [rq_body push_request]. unfold BODY_LIMIT.
  destruct (2097152 <? N.of_nat (length ready)) eqn:E; [lia|]. rewrite Hb. intros H. injection H as <-. done.
Qed.
End props.

(** ** C74 *)
Definition C74_full : Prop := forall parse_eid local_eid params dec_bundle unhex duration parse_url is_cla parse_ip,
  C74_at parse_eid local_eid params dec_bundle unhex duration parse_url is_cla parse_ip.
Theorem C74_remote_clients_refuted : ~ C74_full.
Proof.
  intros H. destruct (H pe1 le1 pm1 db1 (fun _ => Some None) (fun _ => None) pu1 (fun s => bool_decide (s = "mtcp")) (fun _ => None)
    cf1 ev1 (Request GET "/ws/erouting" None [] remote true) d1 _ _ eq_refl remote_not (surjective_pairing _)) as (_ & _ & E).
  vm_compute in E. done.
Qed.
Print Assumptions C74_remote_clients_refuted.
(** Missing: with external routing or external convergence layers enabled, a remote
    client can open their control sessions. All else holds. *)
Theorem C74_remote_clients_partial : forall parse_eid local_eid params dec_bundle unhex duration parse_url is_cla parse_ip cf ev r d x d',
  h_unsafe cf = false -> ~ loopback_address (rq_from r) ->
  serve parse_eid local_eid params dec_bundle unhex duration parse_url is_cla parse_ip cf ev r d = (x, d') ->
  same_but_input d d' /\ at_most_pushed dec_bundle r d d' /\
  (d_ws d' = d_ws d \/ h_external cf = true /\ d_ws d' = d_ws d ++ [WsRouting] \/ h_ecla cf = true /\ d_ws d' = d_ws d ++ [WsEcla]).
Proof. intros. by eapply remote_request. Qed.
Print Assumptions C74_remote_clients_partial.
Example C74_case : d_received (snd (srv1 cf1 ev1 (Request POST "/push" None [1] remote false) d1)) = [b1] /\
  d_ws (snd (srv1 cf1 ev1 (Request GET "/ws/ecla" None [] remote true) d1)) = [WsEcla].
Proof. by vm_compute. Qed.

(** ** C75 *)
Theorem C75_looking_changes_nothing : forall parse_eid local_eid params dec_bundle unhex duration parse_url is_cla parse_ip cf ev r d,
  rq_path r ∈ looking -> snd (serve parse_eid local_eid params dec_bundle unhex duration parse_url is_cla parse_ip cf ev r d) = d.
Proof. intros. by apply C75_same. Qed.
Print Assumptions C75_looking_changes_nothing.
Theorem C75_shows : forall parse_eid local_eid params dec_bundle unhex duration parse_url is_cla parse_ip cf ev r d ops,
  rq_meth r = GET -> d_store d = mem_run ops ->
  shows params cf r d (fst (serve parse_eid local_eid params dec_bundle unhex duration parse_url is_cla parse_ip cf ev r d)).
Proof. intros pe le pm db uh du pu ic pi cf ev r d ops Hm Hs. apply C75_shows_; [done|]. rewrite Hs. apply mem_inv_run. Qed.
Print Assumptions C75_shows.
Example C75_case : d_store d1 = mem_run [Push 0 b1] /\
  srv1 cf1 ev1 (Request GET "/status/bundles" None [] remote false) d1 = (Resp 200 (BList [bid b1]), d1) /\
  srv1 cf1 ev1 (Request GET "/download" (Some (bid b1)) [] remote false) d1 = (Resp 200 (BBundle b1), d1) /\
  "/download" ∈ looking.
Proof. split; [done|]. split; [by vm_compute|]. split; [by vm_compute|]. unfold looking. set_solver. Qed.

(** ** C76 *)
Definition C76_full : Prop := forall parse_eid local_eid params dec_bundle unhex duration parse_url is_cla parse_ip,
  C76_at parse_eid local_eid params dec_bundle unhex duration parse_url is_cla parse_ip.
(** HEAD takes the bundle and drops it *)
Theorem C76_polling_refuted : ~ C76_full.
Proof.
  intros H. destruct (H pe1 le1 pm1 db1 (fun _ => Some None) (fun _ => None) pu1 (fun s => bool_decide (s = "mtcp")) (fun _ => None)
    cf1 ev1 (Request HEAD "/endpoint" (Some "in") [] home false) d1 _ _ (Dtn "n" "in") (Agent (Dtn "n" "in") [b1] None) (surjective_pairing _) ltac:(done) ltac:(done)) as (a' & Ha & Hq).
  assert (a' = Agent (Dtn "n" "in") [] None) as -> by (vm_compute in Ha; congruence).
  destruct Hq as [Hq|(b & _ & [Hx|Hx])]; [done|vm_compute in Hx; done|vm_compute in Hx; done].
Qed.
Print Assumptions C76_polling_refuted.
(** Missing: HEAD requests. *)
Theorem C76_polling_partial : forall parse_eid local_eid params dec_bundle unhex duration parse_url is_cla parse_ip cf ev r d x d' e a,
  rq_meth r <> HEAD -> serve parse_eid local_eid params dec_bundle unhex duration parse_url is_cla parse_ip cf ev r d = (x, d') ->
  rq_path r <> "/unregister" -> find_agent e (d_agents d) = Some a ->
  exists a', find_agent e (d_agents d') = Some a' /\
    (ag_queue a' = ag_queue a \/
     exists b, ag_queue a = b :: ag_queue a' /\ (x = Resp 200 (BBundle b) \/ x = Resp 200 (BHex b))).
Proof. intros. by eapply C76_partial_. Qed.
Print Assumptions C76_polling_partial.
(** A poll by a local client gets the oldest bundle, which is then gone; other
    endpoints are not touched. *)
Theorem C76_poll : forall parse_eid local_eid params dec_bundle unhex duration parse_url is_cla parse_ip cf ev r d path e,
  rq_meth r = GET -> h_unsafe cf = true \/ loopback_address (rq_from r) ->
  rq_path r = "/endpoint" \/ rq_path r = "/endpoint.hex" -> rq_query r = Some path -> names parse_eid local_eid path e ->
  let after := serve parse_eid local_eid params dec_bundle unhex duration parse_url is_cla parse_ip cf ev r d in
  match find_agent e (d_agents d) with
  | None => after = (Resp 404 (BText "No such endpoint registered!"), d)
  | Some a =>
      match ag_queue a with
      | [] => after = (Resp 200 (BText "Nothing to receive"), d)
      | b :: q => fst after = Resp 200 (if decide (rq_path r = "/endpoint") then BBundle b else BHex b) /\
          find_agent e (d_agents (snd after)) = Some (Agent e q (ag_sub a)) /\
          forall e', e' <> e -> find_agent e' (d_agents (snd after)) = find_agent e' (d_agents d)
      end
  end.
Proof. intros. by eapply C76_poll_. Qed.
Print Assumptions C76_poll.
Example C76_case : names pe1 le1 "in" (Dtn "n" "in") /\
  fst (srv1 cf1 ev1 (Request GET "/endpoint" (Some "in") [] home false) d1) = Resp 200 (BBundle b1) /\
  d_agents (snd (srv1 cf1 ev1 (Request GET "/endpoint" (Some "in") [] home false) d1)) = [Agent (Dtn "n" "in") [] None].
Proof. split; [by vm_compute|]. by vm_compute. Qed.

(** ** C77 *)
Definition C77_full : Prop := forall parse_eid local_eid params dec_bundle unhex duration parse_url is_cla parse_ip,
  C77_at parse_eid local_eid params dec_bundle unhex duration parse_url is_cla parse_ip.
Theorem C77_answered_refuted : ~ C77_full.
Proof.
  intros H. apply (H pe1 le1 pm1 db1 (fun _ => Some None) (fun _ => None) pu1 (fun s => bool_decide (s = "mtcp")) (fun _ => None)
    cf1 ev1 (Request POST "/send" (Some "dst=?") [1] home false) d1). by vm_compute.
Qed.
Print Assumptions C77_answered_refuted.
(** Missing: the requests listed in [stumbling]; they have no effect. *)
Theorem C77_answered_partial : forall parse_eid local_eid params dec_bundle unhex duration parse_url is_cla parse_ip cf ev r d,
  let after := serve parse_eid local_eid params dec_bundle unhex duration parse_url is_cla parse_ip cf ev r d in
  (~ stumbling parse_eid local_eid params unhex parse_url is_cla parse_ip ev r -> fst after <> Crash) /\ (fst after = Crash -> snd after = d).
Proof.
  intros pe le pm db uh du pu ic pi cf ev r d after. split; [apply C77_partial_|].
  intros Hx. eapply crash_harmless; [apply surjective_pairing|exact Hx].
Qed.
Print Assumptions C77_answered_partial.
Example C77_case : ~ stumbling pe1 le1 pm1 (fun _ => Some None) pu1 (fun s => bool_decide (s = "mtcp")) (fun _ => None) ev1 (Request POST "/send" (Some "dst=x") [1] home false) /\
  stumbling pe1 le1 pm1 (fun _ => Some None) pu1 (fun s => bool_decide (s = "mtcp")) (fun _ => None) ev1 (Request POST "/send" (Some "dst=?") [1] home false).
Proof.
  split.
  - intros [(_ & s & Hs & Hn)|[(E & _)|[(E & _)|[(E & _)|(E & _)]]]]; try done.
    + vm_compute in Hs. injection Hs as <-. vm_compute in Hn. done.
    + cbn in E. set_solver.
  - left. split; [done|]. exists "?". by vm_compute.
Qed.

(** ** C78 *)
(** A local client's request to /send with a valid destination and at most 2 MiB
    submits exactly one bundle, as asked, and is answered with 200; any other
    changes nothing and is not answered with 200. *)
Theorem C78_send : forall parse_eid local_eid params dec_bundle unhex duration parse_url is_cla parse_ip cf ev r d,
  rq_path r = "/send" -> rq_meth r = POST -> h_unsafe cf = true \/ loopback_address (rq_from r) ->
  let after := serve parse_eid local_eid params dec_bundle unhex duration parse_url is_cla parse_ip cf ev r d in
  match (match params (default "" (rq_query r)) !! "dst" with Some s => parse_eid s | None => None end) with
  | Some dst =>
      if decide (dst <> DtnNone /\ N.of_nat (length (rq_body r)) <= 2 * 1024 * 1024)
      then (exists t, fst after = Resp 200 (BText t)) /\ exists b, submitted d (snd after) [b] /\ C78_asked params duration cf ev r dst b
      else snd after = d /\ forall t, fst after <> Resp 200 t
  | None => snd after = d /\ forall t, fst after <> Resp 200 t
  end.
Proof. intros. by apply C78_send_. Qed.
Print Assumptions C78_send.
Example C78_case : pm1 "dst=x" !! "dst" = Some "dtn://x/" /\ pe1 "dtn://x/" = Some (Dtn "x" "") /\
  map b_dst (d_sent (snd (srv1 cf1 ev1 (Request POST "/send" (Some "dst=x") [1; 2; 3] home false) d1))) = [Dtn "x" ""].
Proof. by vm_compute. Qed.

(** ** C79 *)
Theorem C79_peer_added : forall parse_eid local_eid params dec_bundle unhex duration parse_url is_cla parse_ip cf ev r d s e a layer n static,
  rq_path r = "/peers/add" -> rq_meth r = GET -> h_unsafe cf = true \/ loopback_address (rq_from r) ->
  params (default "" (rq_query r)) !! "p" = Some s -> kind_named (params (default "" (rq_query r)) !! "p_t") static ->
  target parse_eid parse_url is_cla parse_ip s e a layer -> eid_node e = Some n ->
  let after := serve parse_eid local_eid params dec_bundle unhex duration parse_url is_cla parse_ip cf ev r d in
  fst after = Resp 200 (BText (if decide (d_peers d !! n = None) then "Added new peer" else "Updated existing peer")) /\
  peers_become d (snd after) (<[n := peer_new (ev_now ev) e a static None [layer] []]> (d_peers d)).
Proof. intros. by eapply C79_add_. Qed.
Print Assumptions C79_peer_added.
Theorem C79_peer_removed : forall parse_eid local_eid params dec_bundle unhex duration parse_url is_cla parse_ip cf ev r d s e a layer n,
  rq_path r = "/peers/del" -> rq_meth r = GET -> h_unsafe cf = true \/ loopback_address (rq_from r) ->
  params (default "" (rq_query r)) !! "p" = Some s -> target parse_eid parse_url is_cla parse_ip s e a layer -> eid_node e = Some n ->
  let after := serve parse_eid local_eid params dec_bundle unhex duration parse_url is_cla parse_ip cf ev r d in
  fst after = Resp 200 (BText "Removed peer") /\ peers_become d (snd after) (delete n (d_peers d)).
Proof. intros. by eapply C79_del_. Qed.
Print Assumptions C79_peer_removed.
(** A request that names no node changes nothing and is not confirmed. *)
Theorem C79_peer_malformed : forall parse_eid local_eid params dec_bundle unhex duration parse_url is_cla parse_ip cf ev r d,
  rq_path r ∈ ["/peers/add"; "/peers/del"] -> rq_meth r = GET ->
  (forall s, params (default "" (rq_query r)) !! "p" = Some s -> forall e a layer, ~ target parse_eid parse_url is_cla parse_ip s e a layer) ->
  let after := serve parse_eid local_eid params dec_bundle unhex duration parse_url is_cla parse_ip cf ev r d in
  snd after = d /\ forall t, fst after <> Resp 200 t.
Proof. intros. by apply C79_bad_. Qed.
Print Assumptions C79_peer_malformed.
Example C79_case : target pe1 pu1 (fun s => bool_decide (s = "mtcp")) (fun _ => None) "mtcp://h/x" (Dtn "x" "") (AGeneric "h") ("mtcp", Some 16162) /\
  d_peers (snd (srv1 cf1 ev1 (Request GET "/peers/add" (Some "p=u") [] home false) d1)) !! "x" = Some (peer_new 100 (Dtn "x" "") (AGeneric "h") false None [("mtcp", Some 16162)] []).
Proof.
  split; [|by vm_compute]. exists "mtcp://h/x", (Url "mtcp" (Some "h") (Some 16162) "/x"), "h".
  split; [right; split; [done|]; split; [|done]; intros t Ht; apply strip_prefix_some in Ht; by vm_compute in Ht|].
  by vm_compute.
Qed.

(** ** C80 *)
Definition C80_full : Prop := forall parse_eid local_eid params dec_bundle unhex duration parse_url is_cla parse_ip,
  C80_at parse_eid local_eid params dec_bundle unhex duration parse_url is_cla parse_ip.
Lemma of_length n : exists l : list N, N.of_nat (length l) = n.
Proof. exists (repeat 0 (N.to_nat n)). rewrite repeat_length. apply N2Nat.id. Qed.
(** a bundle of more than 2 MiB is refused (413) and reported as sent *)
Theorem C80_http_transfer_refuted : ~ C80_full.
Proof.
  intros H. destruct (of_length 2097153) as [l Hlen].
  assert (Hne : l <> []) by (intros ->; done).
  pose proof (H pe1 le1 pm1 db1 (fun _ => Some None) (fun _ => None) pu1 (fun s => bool_decide (s = "mtcp")) (fun _ => None)
    cf1 ev1 remote Answered l b1 d1 d1 eq_refl Hne) as E. cbn [d_received d1] in E.
  assert (HT : [] = [b1] :> list bundle); [|done]. apply E. clear E.
  unfold transfer, http_send. destruct l as [|c rest] eqn:Er; [done|]. rewrite <- Er in *.
  rewrite (serve_open _ _ _ _ _ _ _ _ _ cf1 ev1 _ d1 "/push" (Entry None (Some HPush) None) HPush) by first [done | apply open_fixed; by vm_compute].
  cbn [fst snd strip handle rq_meth push_request]. unfold do_push, too_large. cbn [rq_body push_request]. rewrite Hlen. done.
Qed.
Print Assumptions C80_http_transfer_refuted.
(** Missing: bundles of more than 2 MiB. *)
Theorem C80_http_transfer_partial : forall parse_eid local_eid params dec_bundle unhex duration parse_url is_cla parse_ip cf ev from l ready b d d',
  N.of_nat (length ready) <= 2 * 1024 * 1024 -> dec_bundle ready = Some b -> ready <> [] ->
  transfer parse_eid local_eid params dec_bundle unhex duration parse_url is_cla parse_ip cf ev from l ready d = (Some true, d') ->
  d_received d' = d_received d ++ [b].
Proof. intros. by eapply C80_partial_. Qed.
Print Assumptions C80_http_transfer_partial.
Example C80_case : transfer pe1 le1 pm1 db1 (fun _ => Some None) (fun _ => None) pu1 (fun s => bool_decide (s = "mtcp")) (fun _ => None) cf1 ev1 remote Answered [1; 2] d1
  = (Some true, take_in d1 b1).
Proof. by vm_compute. Qed.
