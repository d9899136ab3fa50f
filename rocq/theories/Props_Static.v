(** C29, C30, C61: static routing, and the life of the routing agents
    (model: Routing.v). *)
From Verif Require Import Core Peers PeersProofs Routing RoutingProofs IdProofs StaticProofs Group.
From stdpp Require Import prelude strings pretty gmap.
From Coq Require Import NArith Lia.
Open Scope N_scope.

(** ** C29 *)
(** a route applies: both patterns match *)
Definition applies (glob : string -> string -> bool) (p : pack) (r : route) : Prop :=
  glob (rt_src r) (eid_string (p_src p)) = true /\ glob (rt_dst r) (eid_string (p_dst p)) = true.
(** its next hop is a known peer that can be reached: one of the peer's
    convergence layers is running here and accepts bundles *)
Definition next_hop_reachable (clas : list cla) (ps : list peer) (r : route) : Prop :=
  exists q want c, q ∈ ps /\ eid_string (pe_eid q) = rt_via r /\
    want ∈ pe_clas q /\ c ∈ clas /\ cl_name c = fst want /\ cl_accepting c = true.
(** the routing table in force after commands [cs]: what the last reload read *)
Fixpoint table (rs : list route) (cs : list rcmd) : list route :=
  match cs with
  | [] => rs
  | RCommand "reload" (Some f) :: cs => table (default [] (load_routes f)) cs
  | _ :: cs => table rs cs
  end.
Lemma usable_reach clas ps r : (exists s, usable clas ps r s) <-> next_hop_reachable clas ps r.
Proof.
  split.
  - intros (s & q & Hq & Hv & Hf). destruct (proj1 (first_cla_serves clas q)) as (w & c & H); [by eexists|]. by exists q, w, c.
  - intros (q & w & c & Hq & Hv & H). destruct (proj2 (first_cla_serves clas q)) as [s Hs]; [by exists w, c|]. by exists s, q.
Qed.
Lemma table_run glob cs : forall rs rs', astate (st_step glob) (Some rs) cs = Some rs' -> rs' = table rs cs.
Proof.
  induction cs as [|c cs IH]; intros rs rs' H; [by injection H as ->|]. cbn in H.
  destruct c as [p ps clas|n|cmd file]; cbn in H; [by apply IH in H|by apply IH in H|].
  case_bool_decide as E.
  - subst cmd. destruct file as [f|]; [|by apply IH in H]. cbn [table]. destruct (load_routes f) as [rs1|] eqn:El; cbn in H.
    + cbn. by apply IH.
    + by rewrite astate_dead in H.
  - apply IH in H. rewrite H. cbn [table].
    repeat (match goal with |- _ = match ?s with _ => _ end => destruct s as [|[[] [] [] [] [] [] [] []] ?] end; try done).
Qed.
Theorem C29_first_matching_route : forall glob rs0 cs p ps clas cs2 ss del,
  nth_error (arun (st_step glob) (Some rs0) (cs ++ RSender p ps clas :: cs2)) (length cs) = Some (RSender p ps clas, Some (ss, del)) ->
  let rs := table rs0 cs in
  let good r := applies glob p r /\ next_hop_reachable clas ps r in
  (** no route: nothing is sent, nothing deleted *)
  (ss = [] /\ del = false /\ (forall r, r ∈ rs -> ~ good r)) \/
  (** otherwise one node: the next hop of the first good route in file order *)
  (exists rs1 r rs2 s, rs = rs1 ++ r :: rs2 /\ good r /\ (forall r', r' ∈ rs1 -> ~ good r') /\
     ss = [s] /\ eid_string (sd_hop s) = rt_via r /\
     (exists q want c, q ∈ ps /\ sd_hop s = pe_eid q /\ sd_cla s = cl_name c /\ want ∈ pe_clas q /\ c ∈ clas /\
        cl_name c = fst want /\ cl_accepting c = true) /\
     (del = true <-> ~ group (p_dst p))).
Proof.
  intros glob rs0 cs p ps clas cs2 ss del Hn rs good.
  assert (Hlen : length (arun (st_step glob) (Some rs0) cs) = length cs) by (by rewrite <- (map_length fst), arun_cmds).
  rewrite arun_app, <- Hlen in Hn. rewrite nth_error_app2 in Hn by lia. rewrite Nat.sub_diag in Hn.
  destruct (astate (st_step glob) (Some rs0) cs) as [rs'|] eqn:Ea; [|by cbn in Hn].
  apply table_run in Ea. subst rs'. fold rs in Hn. cbn in Hn. injection Hn as Hn.
  assert (Hm : forall r, route_matches glob p r = true <-> applies glob p r) by (intros r; unfold route_matches, applies; apply andb_true_iff).
  assert (Hng : forall l : list route, (forall r s, r ∈ l -> route_matches glob p r = true -> ~ usable clas ps r s) -> forall r, r ∈ l -> ~ good r).
  { intros l H r Hr [H1 H2]. apply usable_reach in H2 as [s Hs]. eapply H; [exact Hr|by apply Hm|exact Hs]. }
  destruct (st_query_spec glob clas p ps rs) as [[H1 H2]|(rs1 & r & rs2 & s & H1 & H2 & H3 & H4 & H5)]; cbv zeta in *.
  - left. rewrite H1 in Hn. injection Hn as <- <-. split; [done|]. split; [done|]. by apply Hng.
  - right. rewrite H2 in Hn. injection Hn as <- <-. exists rs1, r, rs2, s. split; [done|].
    split; [split; [by apply Hm|apply usable_reach; by eexists]|]. split; [by apply Hng|]. split; [done|].
    destruct H4 as (q & Hq & Hv & Hf). pose proof (first_cla_hop _ _ _ Hf) as Hh. split; [by rewrite Hh|]. split; [|rewrite <- not_group; by destruct (eid_non_singleton _)].
    destruct (first_cla_uses _ _ _ Hf) as (w & c & Hw & Hc & He & Ha & Hs). by exists q, w, c.
Qed.
Print Assumptions C29_first_matching_route.
(** every query is answered as long as reloads find well-formed files, see C61 *)
Definition ex_glob (pat s : string) : bool := bool_decide (pat = "*") || bool_decide (pat = s).
Definition ex_n (name : string) : peer := Peer (Dtn name "") (AIp "10.0.0.1") false None [("mtcp", Some 16162)] [] 0 0.
Definition ex_m : list cla := [Cla 1 "mtcp" true 16162].
Definition ex_pack : pack := Pack (Dtn "src" "") (Dtn "z" "in") 0 0 0 "dtn://src/-0-0" false no_constraints.
Definition ex_table : list route :=
  [Route 1 "dtn://other/" "*" "dtn://a/"; Route 2 "*" "dtn://z/in" "dtn://gone/"; Route 3 "*" "*" "dtn://b/"; Route 4 "*" "*" "dtn://a/"].
Example C29_case :
  map snd (arun (st_step ex_glob) (Some ex_table) [RSender ex_pack (map ex_n ["a"; "b"]) ex_m; RSender ex_pack [ex_n "c"] ex_m]) =
    [Some ([Sender 1 "10.0.0.1:16162" "mtcp" (Dtn "b" "")], true); Some ([], false)].
Proof. vm_compute. reflexivity. Qed.

(** ** C30 *)
(** Lines of a table, without their newline. *)
Inductive item :=
| Empty (ws : string)                                      (* blanks only *)
| Comment (ws text : string)                               (* blanks, '#', text *)
| Entry (ws : string) (i : N) (ws1 src ws2 dst ws3 via tail : string).
Definition text (it : item) : string :=
  match it with
  | Empty ws => ws
  | Comment ws t => ws +:+ String hash t
  | Entry ws i ws1 src ws2 dst ws3 via tail => ws +:+ pretty i +:+ ws1 +:+ src +:+ ws2 +:+ dst +:+ ws3 +:+ via +:+ tail
  end.
(** [ws]: blanks; words: non-empty, without blanks; after the fourth word
    nothing or a blank and anything *)
Definition well_formed (it : item) : Prop :=
  free newline (text it) /\
  match it with
  | Empty ws => all_space ws
  | Comment ws t => all_space ws
  | Entry ws i ws1 src ws2 dst ws3 via tail =>
      all_space ws /\ i < 65536 /\ all_space ws1 /\ ws1 <> "" /\ no_space src /\ src <> "" /\
      all_space ws2 /\ ws2 <> "" /\ no_space dst /\ dst <> "" /\ all_space ws3 /\ ws3 <> "" /\ no_space via /\ via <> "" /\
      (tail = "" \/ exists c t, tail = String c t /\ is_blank c = true)
  end.
Definition route_of (it : item) : option route :=
  match it with Entry _ i _ src _ dst _ via _ => Some (Route i src dst via) | _ => None end.
Lemma parse_item it : well_formed it -> parse_route (text it) = Some (route_of it).
Proof.
  intros [_ H]. destruct it as [ws|ws t|ws i ws1 src ws2 dst ws3 via tail]; cbn [text route_of].
  - unfold parse_route, skip_line. rewrite <- (app_nil_r_s ws), trim_space by done. done.
  - unfold parse_route, skip_line. rewrite trim_space by done. done.
  - destruct H as (H0 & Hi & H1 & F1 & N1 & E1 & H2 & F2 & N2 & E2 & H3 & F3 & N3 & E3 & Ht).
    destruct (pretty_digits_all i) as (Hd & _ & Hne). pose proof (digits_no_space _ Hd) as Hns.
    unfold parse_route.
    assert (Hsk : skip_line (ws +:+ pretty i +:+ ws1 +:+ src +:+ ws2 +:+ dst +:+ ws3 +:+ via +:+ tail) = false).
    { unfold skip_line. rewrite trim_space by done. destruct (pretty i) as [|c s] eqn:Ei; [done|]. rewrite app_cons_s. cbn [trim_start].
      destruct Hns as [Hc _]. rewrite Hc. apply bool_decide_false. by eapply digit_no_hash. }
    rewrite Hsk. destruct (words_four ws (pretty i) ws1 src ws2 dst ws3 via tail) as [rest Hw]; try done.
    rewrite Hw. by rewrite parse_u16_pretty.
Qed.
(** The file: every line ended by a newline except the last one (which may be
    empty).  Its routes are read in order; the previous table plays no role. *)
Theorem C30_load : forall items last,
  Forall well_formed items -> well_formed last ->
  load_routes (foldr (fun l rest => text l +:+ String newline rest) (text last) items) = Some (omap route_of (items ++ [last])).
Proof.
  intros items last Hi Hl.
  assert (Hf : foldr (fun l rest => text l +:+ String newline rest) (text last) items = file_of (map text items) (text last)).
  { unfold file_of. clear. induction items as [|i items IH]; [done|]. cbn [foldr map]. by rewrite IH. }
  rewrite Hf, load_file; [|apply Forall_fmap; eapply Forall_impl; [exact Hi|by intros ? []]|by destruct Hl].
  clear Hf. induction items as [|i items IH].
  - cbn [map app parse_lines omap list_omap]. rewrite parse_item by done. destruct (route_of last); done.
  - apply Forall_cons in Hi as [H1 Hi]. cbn [map app parse_lines omap list_omap]. rewrite parse_item by done.
    rewrite IH by done. destruct (route_of i); done.
Qed.
Print Assumptions C30_load.
Theorem C30_reload : forall glob rs f rs',
  load_routes f = Some rs' ->
  astate (st_step glob) (Some rs) [RCommand "reload" (Some f)] = Some rs'.
Proof. intros glob rs f rs' H. cbn. by rewrite H. Qed.
Print Assumptions C30_reload.
(** nothing but a reload changes the table *)
Theorem C30_table_stable : forall glob rs cs rs',
  astate (st_step glob) (Some rs) cs = Some rs' -> (forall f, RCommand "reload" (Some f) ∉ cs) -> rs' = rs.
Proof.
  intros glob rs cs rs' H Hn. apply table_run in H. subst rs'. revert rs. induction cs as [|c cs IH]; intros rs; [done|].
  assert (IH' : forall rs, table rs cs = rs) by (apply IH; intros f Hf; by apply (Hn f), elem_of_list_further).
  destruct c as [p ps clas|n|cmd file]; [apply IH'|apply IH'|].
  destruct (decide (cmd = "reload")) as [->|Hne].
  - destruct file as [f|]; [|apply IH']. exfalso. by apply (Hn f), elem_of_list_here.
  - cbn [table]. repeat (match goal with |- match ?s with _ => _ end = _ => destruct s as [|[[] [] [] [] [] [] [] []] ?] end; try apply IH'). done.
Qed.
Print Assumptions C30_table_stable.
Example C30_case :
  load_routes ("# table" +:+ String newline ("1 * dtn://z/*   dtn://a/ x" +:+ String (Ascii.ascii_of_N 13) (String newline (" " +:+ String newline "65535 dtn://s/ * dtn://b/")))) =
    Some [Route 1 "*" "dtn://z/*" "dtn://a/"; Route 65535 "dtn://s/" "*" "dtn://b/"].
Proof. vm_compute. reflexivity. Qed.
Example C30_case_wf : well_formed (Entry " " 65535 " " "dtn://s/" "  " "*" " " "dtn://b/" " rest").
Proof.
  split; [repeat (split; [done|]); done|]. repeat (split; [done|]). right. by eexists _, _.
Qed.

(** ** C61 *)
(** No sequence of queries, notifications and commands stops the agent. *)
Definition never_stops {S} (step : S -> rcmd -> option (S * option answer)) (s : S) : Prop :=
  forall cs, astate step (Some s) cs <> None.
Definition C61_full : Prop :=
  never_stops e_step ∅ /\ never_stops f_step tt /\ never_stops sink_step tt /\
  (forall cf, never_stops (saw_step cf) ∅) /\ (forall glob rs, never_stops (st_step glob) rs).
(** A bundle for dtn:none (any neighbour can send one) and one reachable peer
    stop the epidemic agent; one malformed line stops the static agent at the
    next reload. *)
Definition none_pack : pack := Pack (Dtn "src" "") DtnNone 0 0 0 "dtn://src/-0-0" false no_constraints.
Theorem C61_agent_never_stops_refuted :
  ~ never_stops e_step ∅ /\ (forall cf, sc_local cf = "dtn://me/" -> ~ never_stops (saw_step cf) ∅) /\
  (forall glob rs, ~ never_stops (st_step glob) rs) /\ ~ C61_full.
Proof.
  assert (H1 : ~ never_stops e_step ∅).
  { intros H. apply (H [RSender none_pack [ex_n "a"] ex_m]). vm_compute. reflexivity. }
  split; [done|]. split; [|split].
  - intros [l loc] Hl H. cbn in Hl. subst loc. apply (H [RNotify (IncomingNoPrev "dtn://src/-0-0" "x"); RSender none_pack [ex_n "a"] ex_m]).
    vm_compute. reflexivity.
  - intros glob rs H. apply (H [RCommand "reload" (Some "1 * *")]). vm_compute. reflexivity.
  - by intros [H _].
Qed.
Print Assumptions C61_agent_never_stops_refuted.
(** Without those two causes no agent ever stops. *)
Definition harmless (c : rcmd) : Prop :=
  match c with
  | RSender p ps _ => p_dst p <> DtnNone /\ forall q, q ∈ ps -> pe_eid q <> DtnNone
  | RNotify _ => True
  | RCommand _ f => forall t, f = Some t -> exists rs, load_routes t = Some rs
  end.
Lemma alive_all {S} (step : S -> rcmd -> option (S * option answer)) :
  (forall s c, harmless c -> step s c <> None) -> forall cs s, Forall harmless cs -> astate step (Some s) cs <> None.
Proof.
  intros Hstep. induction cs as [|c cs IH]; intros s Hf; [done|]. apply Forall_cons in Hf as [Hc Hf]. cbn.
  destruct (step s c) as [[s' a]|] eqn:E; [by apply IH|by apply Hstep in E].
Qed.
Lemma saw_query_alive cf clas p : p_dst p <> DtnNone -> forall ps d acc del, (forall q, q ∈ ps -> pe_eid q <> DtnNone) ->
  saw_query cf clas p d ps acc del <> None.
Proof.
  intros Hp. induction ps as [|q ps IH]; intros d acc del Hq; [done|]. cbn [saw_query].
  assert (Hq' : forall x, x ∈ ps -> pe_eid x <> DtnNone) by (intros x Hx; by apply Hq, elem_of_list_further).
  destruct (eid_node_id (pe_eid q)) as [nid|] eqn:En; [|by specialize (Hq q (elem_of_list_here _ _)); destruct (pe_eid q)].
  destruct (_ || _); [by apply IH|]. destruct (_ <? _).
  - destruct (eid_node (p_dst p)) eqn:Ed; [|by destruct (p_dst p)]. case_bool_decide; [|by apply IH].
    destruct (first_cla clas q); by apply IH.
  - destruct (first_cla clas q); by apply IH.
Qed.
Theorem C61_agent_never_stops_partial : forall cs, Forall harmless cs ->
  astate e_step (Some ∅) cs <> None /\ (forall cf, astate (saw_step cf) (Some ∅) cs <> None) /\
  (forall glob rs, astate (st_step glob) (Some rs) cs <> None).
Proof.
  intros cs Hc. split; [|split].
  - apply alive_all; [|done]. intros s [p ps clas|n|cmd f] Hh; [|by destruct n|done]. destruct Hh as [Hp _]. cbn.
    destruct (e_query_alive clas p ps s [] Hp) as [[h a] ->]. done.
  - intros cf. apply alive_all; [|done]. intros s [p ps clas|n|cmd f] Hh; [|done|done]. destruct Hh as [Hp Hq]. cbn.
    destruct (s !! p_id p) as [d|]; [|done]. destruct (saw_query cf clas p d ps [] false) as [[d' a]|] eqn:E; [done|].
    by apply saw_query_alive in E.
  - intros glob rs. apply alive_all; [|done]. intros s [p ps clas|n|cmd f] Hh; [done|done|]. cbn. case_bool_decide; [|done].
    destruct f as [t|]; [|done]. destruct (Hh t eq_refl) as [rs' ->]. done.
Qed.
Print Assumptions C61_agent_never_stops_partial.
(** flooding and the sink survive everything *)
Theorem C61_flooding_sink_partial : never_stops f_step tt /\ never_stops sink_step tt.
Proof.
  split.
  - intros cs. assert (H : forall u, astate f_step (Some u) cs <> None); [|apply H]. induction cs as [|c cs IH]; intros u; [done|]. cbn. destruct c; cbn; apply IH.
  - intros cs. assert (H : forall u, astate sink_step (Some u) cs <> None); [|apply H]. induction cs as [|c cs IH]; intros u; [done|]. cbn. destruct c; cbn; apply IH.
Qed.
Print Assumptions C61_flooding_sink_partial.
Example C61_case : harmless (RSender ex_pack [ex_n "a"] ex_m) /\ harmless (RCommand "reload" (Some "1 * * dtn://a/")).
Proof.
  split; [split; [done|]; by intros q ->%elem_of_list_singleton|]. intros t [= <-]. eexists. vm_compute. reflexivity.
Qed.
