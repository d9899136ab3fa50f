(** Theorems about the configuration and the start of a node (C89-C94). *)
From stdpp Require Import prelude strings pretty gmap.
From Coq Require Import Ascii NArith ZArith Lia ZifyBool ZifyN ZifyNat.
From Verif Require Import Core Peers PeersProofs Apps AppsProofs Httpd Transfers IdProofs StaticProofs TransfersProofs Config ConfigProofs.
Open Scope N_scope.

(** The surroundings of a start: what is external to Config.v *)
Record env := Env {
  e_eid : string -> option eid; e_duration : string -> option N; e_layer : string -> option N; e_peer : string -> option peer;
  e_v6 : string -> option (string * N); e_stores : list string; e_cwd : string; e_rnd : string }.
(** Start with options [o] and configuration file [f]: the configuration used,
    [None] if the node does not start *)
Definition configured (x : env) (o : cli) (f : option file) : option conf :=
  configure (e_eid x) (e_duration x) (e_layer x) (e_peer x) (e_v6 x) (e_stores x) (e_cwd x) (e_rnd x) o f.
(** no option, no setting *)
Definition no_options : cli := Cli false false false false None false false false None None false None None None None None [] None [] [] [] [] [] [].
Definition empty_file : file := File None None None None None None None None [] None None None None None None [] [] [] [] None None [] [].
(** surroundings for the examples *)
Definition some_peer : peer := peer_new 0 (Dtn "node9" "") (AIp "10.0.0.9") true None [("mtcp", None)] [].
Definition x0 : env :=
  Env (fun s => if bool_decide (s = "dtn://node7/") then Some (Dtn "node7" "") else None)
      (fun s => if bool_decide (s = "5s") then Some 5000000000 else if bool_decide (s = "1h") then Some 3600000000000 else None)
      (fun s => if bool_decide (s = "mtcp") then Some 1 else if bool_decide (s = "http") then Some 2 else None)
      (fun s => if bool_decide (s = "mtcp://10.0.0.9/node9") then Some some_peer else None)
      (fun s => if bool_decide (s = "[fe80::1]:3003") then Some ("fe80::1", 3003) else None) ["mem"; "sled"] "/tmp" "kq3x".

(** What a configuration must come from: all fields of a start *)
Lemma configured_inv x o f c : configured x o f = Some c ->
  exists c0, match f with Some f => conf_of_file (e_eid x) (e_duration x) (e_layer x) (e_peer x) (e_v6 x) (e_cwd x) (e_rnd x) f | None => Some (with_flags (e_cwd x) (e_rnd x) o) end = Some c0 /\
  match o_nodeid o with Some s => node_of (e_eid x) s | None => Some (c_host c0) end = Some (c_host c) /\
  cli_time (e_duration x) (o_interval o) (c_interval c0) = Some (c_interval c) /\
  cli_time (e_duration x) (o_janitor o) (c_janitor c0) = Some (c_janitor c) /\
  cli_time (e_duration x) (o_timeout o) (c_timeout c0) = Some (c_timeout c) /\
  all_of add_routing_opt (c_routing_opts c0) (o_routing_opts o) = Some (c_routing_opts c) /\
  all_of (add_cla (e_layer x)) (c_clas c0) (o_clas o) = Some (c_clas c) /\
  all_of (add_global (e_layer x)) (c_globals c0) (o_globals o) = Some (c_globals c) /\
  all_of add_service (c_services c0) (o_services o) = Some (c_services c) /\
  (exists d, all_of (add_destination (e_v6 x) (c_v4 c0) (c_v6 c0)) (c_dests c0) (o_dests o) = Some d /\ check_destinations (c_v4 c0) (c_v6 c0) d = Some (c_dests c)) /\
  (exists l, mapM (e_peer x) (o_statics o) = Some l /\ c_statics c = c_statics c0 ++ l) /\
  (c_v4 c = c_v4 c0 /\ c_v6 c = c_v6 c0 /\ c_reports c = c_reports c0 /\ c_ecla c = c_ecla c0 /\ c_ecla_port c = c_ecla_port c0 /\ c_parallel c = c_parallel c0 /\
   c_unsafe c = c_unsafe c0 /\ c_period c = c_period c0 /\ c_custom c = c_custom c0) /\
  c_workdir c = default (c_workdir c0) (o_workdir o) /\ c_disable_nd c = o_disable_nd o /\ c_webport c = default (c_webport c0) (o_webport o) /\
  c_routing c = cli_name routing_algorithms (o_routing o) (c_routing c0) /\ c_db c = cli_name (e_stores x) (o_db o) (c_db c0) /\
  c_endpoints c = c_endpoints c0 ++ o_endpoints o.
Proof.
  unfold configured, configure. intros H.
  apply bind_Some in H as [c0 [H0 H]]. apply bind_Some in H as [host [H1 H]]. apply bind_Some in H as [t1 [H2 H]]. apply bind_Some in H as [t2 [H3 H]].
  apply bind_Some in H as [t3 [H4 H]]. apply bind_Some in H as [ro [H5 H]]. apply bind_Some in H as [cl [H6 H]]. apply bind_Some in H as [gl [H7 H]].
  apply bind_Some in H as [sv [H8 H]]. apply bind_Some in H as [d1 [H9 H]]. apply bind_Some in H as [d2 [H10 H]]. apply bind_Some in H as [st [H11 H]].
  injection H as <-. exists c0. cbn [c_host c_interval c_janitor c_timeout c_routing_opts c_clas c_globals c_services c_dests c_statics c_v4 c_v6 c_reports c_ecla c_ecla_port c_parallel
    c_unsafe c_period c_custom c_workdir c_disable_nd c_webport c_routing c_db c_endpoints].
  split; [exact H0|]. split; [exact H1|]. split; [exact H2|]. split; [exact H3|]. split; [exact H4|]. split; [exact H5|]. split; [exact H6|]. split; [exact H7|]. split; [exact H8|].
  split; [by exists d1|]. split; [by exists st|]. by split_and!.
Qed.

(** ** C89 *)
(** Every switch given on the command line is in force *)
Definition switches_in_force (o : cli) (c : conf) : Prop :=
  (o_unsafe o = true -> c_unsafe c = true) /\ (o_reports o = true -> c_reports c = true) /\ (o_parallel o = true -> c_parallel c = true) /\
  (o_period o = true -> c_period c = true) /\ (o_ecla o = true -> c_ecla c = true) /\ (o_v4 o = true -> c_v4 c = true) /\ (o_v6 o = true -> c_v6 c = true) /\
  (forall p, o_ecla_port o = Some p -> c_ecla_port c = p) /\ (o_disable_nd o = true -> c_disable_nd c = true).
Definition C89_full : Prop := forall x o f c, configured x o f = Some c -> switches_in_force o c.
(** Holds without a configuration file; then nothing is on that was not asked
    for, except IPv4 if IPv6 was not asked for. *)
Theorem C89_partial x o c : configured x o None = Some c ->
  switches_in_force o c /\
  (c_unsafe c = true -> o_unsafe o = true) /\ (c_reports c = true -> o_reports o = true) /\ (c_parallel c = true -> o_parallel o = true) /\
  (c_period c = true -> o_period o = true) /\ (c_ecla c = true -> o_ecla o = true) /\ (c_v6 c = true -> o_v6 o = true) /\
  (c_v4 c = true -> o_v4 o = true \/ o_v6 o = false) /\ (c_v4 c = true \/ c_v6 c = true).
Proof.
  intros H. apply configured_inv in H as (c0 & H0 & _ & _ & _ & _ & _ & _ & _ & _ & _ & _ & (E1 & E2 & E3 & E4 & E5 & E6 & E7 & E8 & _) & _ & E9 & _).
  injection H0 as <-. unfold switches_in_force. rewrite E1, E2, E3, E4, E5, E6, E7, E8, E9. cbn.
  destruct (o_unsafe o), (o_reports o), (o_parallel o), (o_period o), (o_ecla o), (o_v4 o), (o_v6 o), (o_disable_nd o); cbn; split_and!; try done; try tauto; try (intros p ->; done).
Qed.
(** Fails with a configuration file: all switches read before it are lost, such
    as the request for IPv6, for status reports or for the external
    convergence layers *)
Theorem C89_refuted : ~ C89_full.
Proof.
  intros H. set (o := Cli false true true true (Some 7263) true true true None None false None None None None None [] None [] [] [] [] [] []).
  assert (Hc : exists c, configured x0 o (Some empty_file) = Some c /\ (c_v6 c, c_reports c, c_ecla c, c_ecla_port c, c_unsafe c) = (false, false, false, 0, false)) by (eexists; split; reflexivity).
  destruct Hc as (c & Hc & Hv). destruct (H _ _ _ _ Hc) as (Hu & _). specialize (Hu eq_refl). injection Hv as _ _ _ _ Hv. congruence.
Qed.
(** In no case is the HTTP interface opened to other hosts without being asked for *)
Theorem C89_opened_only_if_asked x o f c : configured x o f = Some c -> c_unsafe c = true ->
  match f with Some f => f_unsafe f = Some true | None => o_unsafe o = true end.
Proof.
  intros H Hu. apply configured_inv in H as (c0 & H0 & _ & _ & _ & _ & _ & _ & _ & _ & _ & _ & (_ & _ & _ & _ & _ & _ & E7 & _ & _) & _).
  rewrite E7 in Hu. destruct f as [f|].
  - unfold conf_of_file in H0. repeat (apply bind_Some in H0 as [? [_ H0]]). injection H0 as <-. cbn in Hu. by destruct (f_unsafe f) as [[]|].
  - injection H0 as <-. cbn in Hu. by destruct (o_unsafe o).
Qed.
Example C89_case :
  let o := Cli false true true false None false true false None None false None None None None None [] None [] [] [] [] [] [] in
  (c ← configured x0 o None; Some (c_v4 c, c_v6 c, c_reports c, c_unsafe c, c_parallel c)) = Some (false, true, true, true, false).
Proof. reflexivity. Qed.
Print Assumptions C89_partial.
Print Assumptions C89_refuted.
Print Assumptions C89_opened_only_if_asked.

(** ** C90 *)
(** The node a node id option names: a number, a plain name (a letter, then
    letters, digits and _ - . , a letter or digit at the end), or an endpoint id
    of a node *)
Definition letter (c : N) : Prop := 65 <= c <= 90 \/ 97 <= c <= 122.
Definition decimal (c : N) : Prop := 48 <= c <= 57.
Fixpoint chars (s : string) : list N := match s with "" => [] | String c s => N_of_ascii c :: chars s end.
Definition plain_name (s : string) : Prop :=
  exists c r, chars s = c :: r /\ letter c /\ Forall (fun c => letter c \/ decimal c \/ c = 95 \/ c = 45 \/ c = 46) r /\
    exists l z, chars s = l ++ [z] /\ (letter z \/ decimal z).
Definition names_node (x : env) (s : string) (e : eid) : Prop :=
  (exists n, n < 2^64 /\ s = pretty n /\ e = Ipn n 0) \/ (plain_name s /\ e = Dtn s "") \/
  (~ free ":"%char s /\ e_eid x s = Some e /\ ((exists n, e = Dtn n "") \/ exists n, e = Ipn n 0)).
(** a time option: 0 or a duration *)
Definition time_in_force (x : env) (s : option string) (t : N) : Prop :=
  match s with None => True | Some s => if decide (s = "0") then t = 0 else e_duration x s = Some t end.
Definition single_values (x : env) (o : cli) (c : conf) : Prop :=
  (forall s e, o_nodeid o = Some s -> names_node x s e -> c_host c = e) /\
  time_in_force x (o_interval o) (c_interval c) /\ time_in_force x (o_janitor o) (c_janitor c) /\ time_in_force x (o_timeout o) (c_timeout c) /\
  (forall p, o_webport o = Some p -> c_webport c = p) /\ (forall d, o_workdir o = Some d -> c_workdir c = d).
(** services TAG:payload, layers name:key=value:..., layer-wide settings
    name:key=value, routing options algorithm.key=value *)
Definition services_in_force (ok : string -> Prop) (o : cli) (c : conf) : Prop :=
  forall t p, t < 256 -> ok p -> pretty t +:+ ":" +:+ p ∈ o_services o -> c_services c !! t = Some p.
Definition layers_in_force (x : env) (ok : string -> Prop) (o : cli) (c : conf) : Prop :=
  forall name kvs, name +:+ kvs_text kvs ∈ o_clas o -> Forall (fun kv => ok (fst kv) /\ ok (snd kv)) kvs -> NoDup (map fst kvs) -> free ":"%char name ->
    exists i (m : settings), e_layer x name = Some i /\ (i, m) ∈ c_clas c /\ forall k v, m !! k = Some v <-> (k, v) ∈ kvs.
Definition names_in_force (o : cli) (c : conf) : Prop :=
  (forall r, o_routing o = Some r -> c_routing c = r) /\ (forall d, o_db o = Some d -> c_db c = d).
Definition lists_in_force (x : env) (o : cli) (c : conf) : Prop :=
  (forall s, s ∈ o_endpoints o -> s ∈ c_endpoints c) /\ (forall s, s ∈ o_statics o -> exists p, e_peer x s = Some p /\ p ∈ c_statics c).
Definition C90_full : Prop := forall x o f c, configured x o f = Some c ->
  single_values x o c /\ services_in_force (fun _ => True) o c /\ layers_in_force x (fun _ => True) o c /\ names_in_force o c /\ lists_in_force x o c.
(** Holds for the names known to the node, and for payloads and settings
    without the separators *)
Definition no_sep (s : string) : Prop := free ":"%char s /\ free "="%char s.

Lemma all_chars_free f c s : all_chars f s = true -> f (N_of_ascii c) = false -> free c s.
Proof. induction s as [|y s IH]; cbn; [done|]. intros H Hc. apply andb_true_iff in H as [H1 H2]. split; [|by apply IH]. intros ->. congruence. Qed.
Lemma valid_no_colon s : valid_node s = Some true -> free ":"%char s.
Proof.
  destruct s as [|c r]; [done|]. cbn [valid_node]. intros H. injection H as H. apply orb_true_iff in H as [H|H].
  - apply andb_true_iff in H as [H _]. apply andb_true_iff in H as [Hc H]. split; [intros ->; done|]. eapply all_chars_free; [exact H|done].
  - eapply all_chars_free; [exact H|done].
Qed.
Lemma last_chars c r : forall l z, chars (String c r) = l ++ [z] -> last_char c r = z.
Proof.
  revert c; induction r as [|c' r IH]; intros c l z H; cbn in H.
  - destruct l as [|? l]; [by injection H|]. injection H as _ H. by destruct l.
  - cbn. destruct l as [|? l]; [by destruct r|]. injection H as _ H. by eapply IH.
Qed.
Lemma plain_valid s : plain_name s -> valid_node s = Some true /\ parse_uint (2^64) s = None.
Proof.
  intros (c & r & Hs & Hc & Hr & l & z & Hz & Hl). destruct s as [|a s]; [done|]. cbn in Hs. injection Hs as Ha Hr'. split.
  - cbn [valid_node]. rewrite (last_chars _ _ _ _ Hz), Ha. f_equal. apply orb_true_iff. left. apply andb_true_iff. split; [apply andb_true_iff; split|].
    + unfold alpha. unfold letter in Hc. lia.
    + rewrite <- Hr' in Hr. clear -Hr. induction s as [|y s IH]; [done|]. cbn in Hr. apply Forall_cons in Hr as [Hy Hr]. cbn [all_chars]. rewrite IH by done.
      rewrite andb_true_r. unfold digit, alpha. unfold letter, decimal in Hy. lia.
    + unfold digit, alpha. unfold letter, decimal in Hl. lia.
  - unfold parse_uint. cbn [given]. rewrite Ha. unfold letter in Hc. replace (c =? 43) with false by lia. cbn [take_digits]. rewrite Ha.
    by replace ((48 <=? c) && (c <=? 57)) with false by lia.
Qed.
Lemma pretty_valid (n : N) : valid_node (pretty n) = Some true.
Proof.
  destruct (pretty_digits_all n) as (H1 & _ & H3). destruct (pretty n) as [|c s]; [done|]. cbn [valid_node]. f_equal. apply orb_true_iff. right.
  clear H3. revert H1. generalize (String c s). clear. induction s as [|y s IH]; [done|]. intros [Hy Hs]. cbn. rewrite IH by done. rewrite andb_true_r. unfold digit. lia.
Qed.
Lemma names_node_ok x s e e' : names_node x s e -> node_of (e_eid x) s = Some e' -> e' = e.
Proof.
  intros [(n & Hn & -> & ->)|[[Hp ->]|(Hc & He & Hnode)]] H; unfold node_of in H.
  - rewrite pretty_valid, parse_uint_pretty in H by done. by injection H.
  - apply plain_valid in Hp as [Hv Hu]. rewrite Hv, Hu in H. by injection H.
  - destruct (valid_node s) as [[]|] eqn:Ev; [by apply valid_no_colon in Ev| |done]. rewrite He in H. destruct (is_node_id e); [|done]. by injection H.
Qed.
Lemma cli_time_ok x s old t : cli_time (e_duration x) s old = Some t -> time_in_force x s t.
Proof. unfold cli_time, time_in_force. destruct s as [s|]; [|done]. case_bool_decide; case_decide; try done. by intros [= <-]. Qed.
Lemma foldl_exact l : NoDup (map fst l) -> forall k v, foldl (fun (m : settings) x => <[fst x := snd x]> m) ∅ l !! k = Some v <-> (k, v) ∈ l.
Proof. intros Hd k v. split; [|by apply foldl_insert]. intros H. apply foldl_dom in H as [H|H]; [|done]. by rewrite lookup_empty in H. Qed.

Theorem C90_partial x o f c : configured x o f = Some c ->
  single_values x o c /\ services_in_force (free ":"%char) o c /\ lists_in_force x o c /\
  ((forall s name kvs, s ∈ o_clas o -> s = name +:+ kvs_text kvs -> free ":"%char name -> is_Some (e_layer x name)) -> layers_in_force x no_sep o c) /\
  ((forall r, o_routing o = Some r -> r ∈ routing_algorithms) -> (forall d, o_db o = Some d -> d ∈ e_stores x) -> names_in_force o c).
Proof.
  intros H. apply configured_inv in H as (c0 & _ & E1 & E2 & E3 & E4 & _ & E6 & _ & E8 & _ & (l & E10 & E10') & _ & E11 & _ & E12 & E13 & E14 & E15). split; [|split; [|split; [|split]]].
  - split; [intros s e Hs He; rewrite Hs in E1; by eapply names_node_ok|]. split; [by eapply cli_time_ok|]. split; [by eapply cli_time_ok|]. split; [by eapply cli_time_ok|].
    split; [intros p Hp; by rewrite E12, Hp|intros d Hd; by rewrite E11, Hd].
  - intros t p Ht Hp Hin. eapply services_spec in E8 as [_ E8]. by apply E8.
  - split; [intros s Hs; rewrite E15; apply elem_of_app; by right|]. intros s Hs. rewrite E10'. clear -E10 Hs.
    apply mapM_Some in E10. destruct (proj1 (elem_of_list_lookup _ _) Hs) as [i Hi]. destruct (Forall2_lookup_l _ _ _ _ _ E10 Hi) as (p & Hp & Hq).
    exists p. split; [done|]. apply elem_of_app. right. apply elem_of_list_lookup. by exists i.
  - intros Hk name kvs Hin Hok Hd Hn. destruct (Hk _ _ _ Hin eq_refl Hn) as [i Hi]. exists i, (foldl (fun m x => <[fst x := snd x]> m) ∅ kvs). split; [done|]. split.
    + apply clas_spec in E6 as [_ E6]. apply (E6 name); [done..| |]; (eapply Forall_impl; [exact Hok|]); intros [k v] [[? ?] [? ?]]; split; done.
    + by apply foldl_exact.
  - intros Hr Hd. split; [intros r Er; rewrite E13, Er; cbn; rewrite bool_decide_true; [done|by apply Hr]|intros d Ed; rewrite E14, Ed; cbn; rewrite bool_decide_true; [done|by apply Hd]].
Qed.
(** A tag is a number in decimal, perhaps after a plus sign *)
Definition numeral (s : string) (t : N) : Prop :=
  exists ds, (s = ds \/ s = String "+" ds) /\ ds <> "" /\ Forall decimal (chars ds) /\ t = foldl (fun v c => 10 * v + (c - 48)) 0 (chars ds).
Lemma take_digits_all s ds : take_digits s = (ds, "") -> Forall decimal (chars s) /\ ds = map (fun c => c - 48) (chars s).
Proof.
  revert ds. induction s as [|c s IH]; intros ds; cbn; [by intros [= <-]|].
  destruct ((48 <=? N_of_ascii c) && (N_of_ascii c <=? 57)) eqn:E; [|done]. destruct (take_digits s) as [ds' t]. intros [= <- ->].
  destruct (IH ds' eq_refl) as [H1 ->]. split; [|done]. constructor; [|done]. unfold decimal. lia.
Qed.
Lemma digits_value_chars l v : foldl (fun acc d => 10 * acc + d) v (map (fun c => c - 48) l) = foldl (fun v c => 10 * v + (c - 48)) v l.
Proof. revert v. induction l as [|c l IH]; intros v; [done|]. cbn. apply IH. Qed.
Lemma parse_uint_numeral lim s t : parse_uint lim s = Some t -> numeral s t /\ t < lim.
Proof.
  unfold parse_uint. intros H.
  assert (G : forall r, match take_digits r with (d :: ds, "") => if digits_value (d :: ds) <? lim then Some (digits_value (d :: ds)) else None | _ => None end = Some t ->
    r <> "" /\ Forall decimal (chars r) /\ t = foldl (fun v c => 10 * v + (c - 48)) 0 (chars r) /\ t < lim).
  { intros r Hr. destruct (take_digits r) as [[|d ds] [|c u]] eqn:E; try done. destruct (digits_value (d :: ds) <? lim) eqn:L; [|done]. injection Hr as <-.
    split; [by intros ->|]. destruct (take_digits_all _ _ E) as [H1 H2]. split; [done|]. split; [|lia]. unfold digits_value. rewrite H2. apply digits_value_chars. }
  destruct (given 43 s) as [r|] eqn:Eg.
  - apply G in H as (H1 & H2 & H3 & H4). split; [|done]. exists r. split; [right|done]. destruct s as [|x s]; [done|]. cbn in Eg.
    destruct (N_of_ascii x =? 43) eqn:Ex; [|done]. injection Eg as ->. f_equal. rewrite <- (ascii_N_embedding x). by replace (N_of_ascii x) with 43 by lia.
  - apply G in H as (H1 & H2 & H3 & H4). split; [|done]. exists s. split; [by left|done].
Qed.
Lemma split_at_parts c s : exists p ps, split_at c s = p :: ps /\ free c p /\ match ps with [] => s = p | q :: _ => exists r, s = p +:+ String c r /\ split_at c r = ps end.
Proof.
  induction s as [|x s (p & ps & E & Hf & Hs)]; cbn; [by exists "", []|]. case_bool_decide as Hx.
  - subst x. exists "", (split_at c s). split; [done|]. split; [done|]. rewrite E. exists s. by rewrite E.
  - rewrite E. exists (String x p), ps. split; [done|]. split; [done|]. destruct ps as [|q ps]; [by subst|]. destruct Hs as (r & -> & Hr). by exists r.
Qed.
(** the service a text of the command line asks for: the payload ends at the next colon *)
Definition asks (s : string) (t : N) (p : string) : Prop :=
  exists tag rest, s = tag +:+ ":" +:+ rest /\ free ":"%char tag /\ numeral tag t /\ t < 256 /\ free ":"%char p /\ (rest = p \/ exists more, rest = p +:+ ":" +:+ more).
Lemma add_service_asks m s m' : add_service m s = Some m' -> exists t p, asks s t p /\ m !! t = None /\ m' = <[t := p]> m.
Proof.
  unfold add_service. destruct (split_at_parts ":"%char s) as (tag & ps & -> & Hf & Hs). intros H. apply bind_Some in H as (t & Et & H).
  case_bool_decide as Hk; [done|]. apply bind_Some in H as (p & Ep & H). injection H as <-. destruct ps as [|q ps]; [done|]. injection Ep as ->.
  destruct Hs as (r & -> & Hr). apply parse_uint_numeral in Et as [Hn Ht]. exists t, p. split; [|split; [|done]].
  - exists tag, r. split; [done|]. split; [done|]. split; [done|]. split; [done|]. destruct (split_at_parts ":"%char r) as (p' & ps' & Er & Hf' & Hs'). rewrite Hr in Er. injection Er as <- <-.
    split; [done|]. destruct ps as [|q ps]; [by left|]. right. destruct Hs' as (more & -> & _). by exists more.
  - destruct (m !! t) eqn:E; [|done]. exfalso. apply Hk. by eexists.
Qed.
(** The services in force are those of the file and of the command line, no
    others; a text whose tag is no number below 256, or one already taken,
    keeps the node from starting. *)
Lemma all_asks l : forall m m', all_of add_service m l = Some m' ->
  (forall s, s ∈ l -> exists t p, asks s t p /\ m' !! t = Some p /\ m !! t = None) /\
  (forall t p, m !! t = Some p -> m' !! t = Some p) /\
  (forall t p, m' !! t = Some p -> m !! t = Some p \/ exists s, s ∈ l /\ asks s t p).
Proof.
  induction l as [|s l IH]; intros m m' H; cbn in H.
  - injection H as <-. split; [by intros s Hs%elem_of_nil|]. split; [done|]. by left.
  - apply bind_Some in H as (m1 & E & H). destruct (add_service_asks _ _ _ E) as (t & p & Ha & Hn & ->). destruct (IH _ _ H) as (H1 & H2 & H3). split; [|split].
    + intros s' [->|Hs]%elem_of_cons.
      * exists t, p. split; [done|]. split; [apply H2, lookup_insert|done].
      * destruct (H1 _ Hs) as (t' & p' & A1 & A2 & A3). exists t', p'. split; [done|]. split; [done|]. by apply lookup_insert_None in A3 as [? _].
    + intros t' p' Ht. apply H2. rewrite lookup_insert_ne; [done|congruence].
    + intros t' p' Ht. destruct (H3 _ _ Ht) as [Hi|(s' & Hs & A)].
      * apply lookup_insert_Some in Hi as [[<- <-]|[_ Hi]]; [|by left]. right. exists s. split; [apply elem_of_list_here|done].
      * right. exists s'. split; [by apply elem_of_list_further|done].
Qed.
Lemma all_file l : forall m m', all_of file_service m l = Some m' ->
  (forall s p, (s, p) ∈ l -> exists t, numeral s t /\ t < 256 /\ m' !! t = Some p /\ m !! t = None) /\
  (forall t p, m !! t = Some p -> m' !! t = Some p) /\
  (forall t p, m' !! t = Some p -> m !! t = Some p \/ exists s, (s, p) ∈ l /\ numeral s t).
Proof.
  induction l as [|[s p] l IH]; intros m m' H; cbn in H.
  - injection H as <-. split; [by intros s p Hs%elem_of_nil|]. split; [done|]. by left.
  - apply bind_Some in H as (m1 & E & H). unfold file_service in E. cbn [fst snd] in E. apply bind_Some in E as (t & Et & E). case_bool_decide as Hk; [done|]. injection E as <-.
    assert (Hn : m !! t = None) by (destruct (m !! t) eqn:E; [exfalso; apply Hk; by eexists|done]).
    apply parse_uint_numeral in Et as [Hnum Ht]. destruct (IH _ _ H) as (H1 & H2 & H3). split; [|split].
    + intros s' p' [[= -> ->]|Hs]%elem_of_cons.
      * exists t. split; [done|]. split; [done|]. split; [apply H2, lookup_insert|done].
      * destruct (H1 _ _ Hs) as (t' & A1 & A2 & A3 & A4). exists t'. split; [done|]. split; [done|]. split; [done|]. by apply lookup_insert_None in A4 as [? _].
    + intros t' p' Ht'. apply H2. rewrite lookup_insert_ne; [done|congruence].
    + intros t' p' Ht'. destruct (H3 _ _ Ht') as [Hi|(s' & Hs & A)].
      * apply lookup_insert_Some in Hi as [[<- <-]|[_ Hi]]; [|by left]. right. exists s. split; [apply elem_of_list_here|done].
      * right. exists s'. split; [by apply elem_of_list_further|done].
Qed.
Theorem C90_services x o f c : configured x o f = Some c ->
  (forall s, s ∈ o_services o -> exists t p, asks s t p /\ c_services c !! t = Some p) /\
  (forall fl s p, f = Some fl -> (s, p) ∈ f_services fl -> exists t, numeral s t /\ t < 256 /\ c_services c !! t = Some p) /\
  (forall t p, c_services c !! t = Some p ->
     (exists s, s ∈ o_services o /\ asks s t p) \/ exists fl s, f = Some fl /\ (s, p) ∈ f_services fl /\ numeral s t).
Proof.
  intros H. apply configured_inv in H as (c0 & H0 & _ & _ & _ & _ & _ & _ & _ & E8 & _).
  destruct (all_asks _ _ _ E8) as (H1 & H2 & H3). split; [|split].
  - intros s Hs. destruct (H1 s Hs) as (t & p & ? & ? & _). eauto.
  - intros fl s p -> Hs. unfold conf_of_file in H0. apply bind_Some in H0 as (? & _ & H0). apply bind_Some in H0 as (? & _ & H0).
    apply bind_Some in H0 as (sv & Esv & H0). apply bind_Some in H0 as (? & _ & H0). apply bind_Some in H0 as (? & _ & H0). injection H0 as <-. cbn [c_services] in *.
    destruct (all_file _ _ _ Esv) as (F1 & _). destruct (F1 _ _ Hs) as (t & ? & ? & ? & _). eauto.
  - intros t p Ht. destruct (H3 _ _ Ht) as [Hc|?]; [|by left]. right. destruct f as [fl|].
    + unfold conf_of_file in H0. apply bind_Some in H0 as (? & _ & H0). apply bind_Some in H0 as (? & _ & H0).
      apply bind_Some in H0 as (sv & Esv & H0). apply bind_Some in H0 as (? & _ & H0). apply bind_Some in H0 as (? & _ & H0). injection H0 as <-. cbn [c_services] in *.
      destruct (all_file _ _ _ Esv) as (_ & _ & F3). destruct (F3 _ _ Hc) as [Hx|(s & ? & ?)]; [by rewrite lookup_empty in Hx|]. eauto.
    + injection H0 as <-. cbn in Hc. by rewrite lookup_empty in Hc.
Qed.
Print Assumptions C90_services.
Example C90_services_case : asks "07:tele:metry" 7 "tele" /\ numeral "+31" 31 /\ ~ (exists t, numeral "7x" t).
Proof.
  split; [|split].
  - exists "07", "tele:metry". split; [done|]. split; [by repeat split|]. split; [|split; [done|split; [by repeat split|right; by exists "metry"]]].
    exists "07". split; [by left|]. split; [done|]. split; [|done]. do 2 (apply List.Forall_cons; [unfold decimal; vm_compute; split; discriminate|]). apply List.Forall_nil.
  - exists "31". split; [by right|]. split; [done|]. split; [|done]. do 2 (apply List.Forall_cons; [unfold decimal; vm_compute; split; discriminate|]). apply List.Forall_nil.
  - intros (t & ds & [<-|E] & _ & Hd & _); [|done]. apply (Forall_lookup_1 _ _ 1%nat 120) in Hd; [|reflexivity]. unfold decimal in Hd. lia.
Qed.
(** Fails in general: an unknown routing algorithm, store or layer is passed
    over without a word, and a service's text is cut at the first colon *)
Theorem C90_refuted :
  (exists x o c, configured x o None = Some c /\ o_routing o = Some "prophet" /\ c_routing c = "epidemic") /\
  (exists x o c, configured x o None = Some c /\ o_db o = Some "sneakers" /\ c_db c = "mem") /\
  (exists x o c, configured x o None = Some c /\ o_clas o = ["MTCP"] /\ c_clas c = []) /\
  (exists x o c, configured x o None = Some c /\ o_services o = ["63:see http://node7/"] /\ c_services c !! 63 = Some "see http").
Proof.
  split; [|split; [|split]].
  - exists x0, (Cli false false false false None false false false None None false None None None None (Some "prophet") [] None [] [] [] [] [] []). eexists. split; [reflexivity|]. by split.
  - exists x0, (Cli false false false false None false false false None None false None None None None None [] (Some "sneakers") [] [] [] [] [] []). eexists. split; [reflexivity|]. by split.
  - exists x0, (Cli false false false false None false false false None None false None None None None None [] None ["MTCP"] [] [] [] [] []). eexists. split; [reflexivity|]. by split.
  - exists x0, (Cli false false false false None false false false None None false None None None None None [] None [] [] ["63:see http://node7/"] [] [] []). eexists. split; [reflexivity|]. by split.
Qed.
Theorem C90_full_refuted : ~ C90_full.
Proof.
  intros H. destruct C90_refuted as ((x & o & c & Hc & Ho & Hr) & _). destruct (H _ _ _ _ Hc) as (_ & _ & _ & (Hn & _) & _). specialize (Hn _ Ho). rewrite Hr in Hn. done.
Qed.
(** The other options in detail.  Of several settings for the same key the last
    counts. *)
Theorem C90_layer_wide x o f c l1 s l2 name i k v : configured x o f = Some c ->
  o_globals o = l1 ++ s :: l2 -> s = name +:+ ":" +:+ k +:+ "=" +:+ v -> e_layer x name = Some i -> free ":"%char name -> no_sep k -> no_sep v ->
  (forall s' name' r p v' t, s' ∈ l2 -> split_at ":"%char s' = name' :: r -> e_layer x name' = Some i -> head r = Some p -> split_at "="%char p <> k :: v' :: t) ->
  (default ∅ (c_globals c !! i) : settings) !! k = Some v.
Proof.
  intros H Ho Hs Hi Hn [Hk1 Hk2] [Hv1 Hv2] Hlast. apply configured_inv in H as (c0 & _ & _ & _ & _ & _ & _ & _ & E & _). rewrite Ho, all_of_app in E.
  apply bind_Some in E as (m & _ & E). cbn in E. apply bind_Some in E as (m1 & E1 & E).
  assert (H1 : (default ∅ (m1 !! i) : settings) !! k = Some v) by (apply (proj1 (global_spec _ _ _ _ E1) name); done).
  revert E. apply (all_of_inv (add_global (e_layer x)) (fun m : gmap N settings => (default ∅ (m !! i) : settings) !! k = Some v)); [|done].
  intros m' s' m'' Hin Hm' Hadd. destruct (proj2 (global_spec _ _ _ _ Hadd) _ _ _ Hm') as [?|(name' & r & Hid & Hsp & p & v' & Hp & t & Ht)]; [done|].
  exfalso. by eapply (Hlast s' name' r p v' t).
Qed.
Theorem C90_routing_option x o f c l1 s l2 a k v : configured x o f = Some c ->
  o_routing_opts o = l1 ++ s :: l2 -> s = a +:+ "." +:+ k +:+ "=" +:+ v ->
  free "."%char a -> free "."%char k -> free "="%char a -> free "="%char k -> free "="%char v ->
  (forall s' v', s' ∈ l2 -> split_at "="%char s' <> [(a +:+ "." +:+ k); v']) ->
  (default ∅ (c_routing_opts c !! a) : settings) !! k = Some v.
Proof.
  intros H Ho Hs Ha Hk Ha' Hk' Hv' Hlast. apply configured_inv in H as (c0 & _ & _ & _ & _ & _ & E & _). rewrite Ho, all_of_app in E.
  apply bind_Some in E as (m & _ & E). cbn in E. apply bind_Some in E as (m1 & E1 & E).
  assert (H1 : (default ∅ (m1 !! a) : settings) !! k = Some v) by (apply (proj1 (routing_opt_spec _ _ _ E1)); done).
  revert E. apply (all_of_inv add_routing_opt (fun m : gmap string settings => (default ∅ (m !! a) : settings) !! k = Some v)); [|done].
  intros m' s' m'' Hin Hm' Hadd. destruct (proj2 (routing_opt_spec _ _ _ Hadd) _ _ _ Hm') as [?|(v' & Hsp)]; [done|]. exfalso. by eapply (Hlast s' v').
Qed.
Definition o90 : cli :=
  Cli false false false false None false false false (Some "/var") (Some "node7") true (Some "0") (Some 8080) (Some "5s") (Some "1h") (Some "static")
    ["static.routes=a"; "static.routes=b"] (Some "sled") ["mtcp:port=4223:bind=10.0.0.1"; "http"] ["mtcp:refuse=true"] ["63:hello"; "191:71"] [] ["mtcp://10.0.0.9/node9"] ["incoming"].
Example C90_case :
  (c ← configured x0 o90 None; Some (c_host c, c_interval c, c_webport c, c_janitor c, c_timeout c)) = Some (Dtn "node7" "", 0, 8080, 5000000000, 3600000000000) /\
  (c ← configured x0 o90 None; Some (c_routing c, c_db c, c_workdir c, c_disable_nd c)) = Some ("static", "sled", "/var", true) /\
  (c ← configured x0 o90 None; Some (c_services c !! 63, c_services c !! 191, map fst (c_clas c))) = Some (Some "hello", Some "71", [1; 2]) /\
  (c ← configured x0 o90 None; Some ((default ∅ (c_globals c !! 1) : settings) !! "refuse", (default ∅ (c_routing_opts c !! "static") : settings) !! "routes")) = Some (Some "true", Some "b") /\
  (c ← configured x0 o90 None; Some (map pe_eid (c_statics c), c_endpoints c)) = Some ([Dtn "node9" ""], ["incoming"]) /\
  node_of (e_eid x0) "23" = Some (Ipn 23 0) /\ node_of (e_eid x0) "dtn://node7/" = Some (Dtn "node7" "") /\ node_of (e_eid x0) "node-" = None.
Proof. split_and!; vm_compute; reflexivity. Qed.
Print Assumptions C90_partial.
Print Assumptions C90_refuted.
Print Assumptions C90_full_refuted.
Print Assumptions C90_layer_wide.
Print Assumptions C90_routing_option.

(** ** C91 *)
(** An option for a discovery destination means an address and port, port 3003
    if it has none *)
Definition means (x : env) (s : string) (a : sockaddr) : Prop :=
  parse_sock (e_v6 x) s = Some a \/ parse_sock (e_v6 x) s = None /\ parse_sock (e_v6 x) (s +:+ ":3003") = Some a.
Definition enabled (c : conf) (a : sockaddr) : Prop := match a with SV4 _ _ _ _ _ => c_v4 c = true | SV6 _ _ => c_v6 c = true end.
Definition ask_dest (x : env) (l : list string) (c : conf) (d : string) : Prop :=
  exists s a, s ∈ l /\ means x s a /\ enabled c a /\ d = sock_text a.
Definition default_dest (c : conf) (d : string) : Prop := d = "224.0.0.26:3003" /\ c_v4 c = true \/ d = "[FF02::1]:3003" /\ c_v6 c = true.
(** Beacons go exactly to the destinations asked for with IP version in use, and
    to the default ones only if none was asked for *)
Definition C91_full : Prop := forall x o f c, configured x o f = Some c ->
  let asked := o_dests o ++ match f with Some f => f_dests f | None => [] end in
  forall d, is_Some (c_dests c !! d) <-> ask_dest x asked c d \/ asked = [] /\ default_dest c d.
Lemma means_iff x s a : dest_addr (e_v6 x) s = Some a <-> means x s a.
Proof. unfold dest_addr, means. destruct (parse_sock (e_v6 x) s) eqn:E; naive_solver. Qed.
Lemma check_default v4 v6 m : check_destinations v4 v6 ∅ = Some m -> forall d, is_Some (m !! d) <-> d = "224.0.0.26:3003" /\ v4 = true \/ d = "[FF02::1]:3003" /\ v6 = true.
Proof.
  unfold check_destinations. rewrite bool_decide_true by done. destruct v4, v6; try done; intros [= <-] d; rewrite ?lookup_insert_is_Some; rewrite lookup_empty; split.
  all: try (intros [<-|[_ H]]; [by auto|]). all: try (destruct H as [<-|[_ H]]; [by auto|]). all: try (by destruct H as [? H]).
  all: intros [[-> ?]|[-> ?]]; try done; auto. all: destruct (decide ("[FF02::1]:3003" = "224.0.0.26:3003")); auto.
Qed.
(** What holds in general: all those asked for are used, and no others than
    these and the default ones *)
Lemma dests_general x o f c : configured x o f = Some c ->
  let asked := o_dests o ++ match f with Some f => f_dests f | None => [] end in
  (forall d, ask_dest x asked c d -> is_Some (c_dests c !! d)) /\
  (forall d, is_Some (c_dests c !! d) -> ask_dest x asked c d \/ default_dest c d) /\
  (f = None \/ match f with Some f => exists d, ask_dest x (f_dests f) c d | None => False end -> (exists d, ask_dest x asked c d) -> forall d, is_Some (c_dests c !! d) -> ask_dest x asked c d).
Proof.
  intros H. apply configured_inv in H as (c0 & H0 & _ & _ & _ & _ & _ & _ & _ & _ & (m & Hm & Hc) & _ & (E4 & E6 & _) & _).
  pose proof (dests_spec _ _ _ _ _ _ Hm) as Hs. rewrite <- E4, <- E6 in *. clear Hm.
  assert (Hask : forall l d, (exists s a, s ∈ l /\ dest_addr (e_v6 x) s = Some a /\ (match a with SV4 _ _ _ _ _ => c_v4 c | SV6 _ _ => c_v6 c end) = true /\ d = sock_text a) <-> ask_dest x l c d).
  { intros l d. unfold ask_dest, enabled. split; intros (s & a & H1 & H2 & H3 & H4); exists s, a; rewrite means_iff in *; (split; [done|]); (split; [done|]); (split; [|done]); by destruct a. }
  assert (Happ : forall l1 l2 d, ask_dest x (l1 ++ l2) c d <-> ask_dest x l1 c d \/ ask_dest x l2 c d).
  { intros l1 l2 d. unfold ask_dest. split.
    - intros (s & a & Hin & H). apply elem_of_app in Hin as [Hin|Hin]; [left|right]; exists s, a; by split.
    - intros [(s & a & Hin & H)|(s & a & Hin & H)]; exists s, a; (split; [|done]); apply elem_of_app; auto. }
  setoid_rewrite Hask in Hs.
  assert (Hfin : (m = ∅ /\ check_destinations (c_v4 c) (c_v6 c) ∅ = Some (c_dests c)) \/ (m <> ∅ /\ c_dests c = m)).
  { destruct (decide (m = ∅)) as [->|Hne]; [by left|]. right. split; [done|]. by apply (check_spec _ _ _ _ Hc). }
  destruct f as [f|].
  - unfold conf_of_file in H0. cbv zeta in H0. apply bind_Some in H0 as [h [_ H0]]. apply bind_Some in H0 as [st [_ H0]]. apply bind_Some in H0 as [sv [_ H0]].
    apply bind_Some in H0 as [m1 [Hm1 H0]]. apply bind_Some in H0 as [m2 [Hm2 H0]]. injection H0 as <-. cbn [c_v4 c_v6 c_dests] in *. rewrite <- E4, <- E6 in *.
    pose proof (dests_spec _ _ _ _ _ _ Hm1) as Hs1. setoid_rewrite Hask in Hs1. clear Hm1.
    assert (Hs1' : forall d, is_Some (m1 !! d) <-> ask_dest x (f_dests f) c d) by (intros d; rewrite Hs1, lookup_empty; split; [intros [[? ?]|?]; [done|done]|auto]). clear Hs1.
    assert (Hm2' : (m1 = ∅ /\ forall d, is_Some (m2 !! d) <-> default_dest c d) \/ (m1 <> ∅ /\ m2 = m1)).
    { destruct (decide (m1 = ∅)) as [->|Hne]; [left|right; split; [done|]; by apply (check_spec _ _ _ _ Hm2)]. split; [done|]. by apply check_default. }
    assert (m <> ∅). { intros ->. assert (Hno : forall d, ~ is_Some (m2 !! d)) by (intros d Hd; assert (Hx : is_Some ((∅ : gmap string N) !! d)) by (apply Hs; by left); rewrite lookup_empty in Hx; by destruct Hx).
      destruct Hm2' as [[-> Hd]|[Hne ->]]; [|apply Hne, map_empty; intros d; by apply eq_None_not_Some].
      unfold check_destinations in Hm2. rewrite bool_decide_true in Hm2 by done. destruct (c_v4 c) eqn:V4, (c_v6 c) eqn:V6; try done; [apply (Hno "224.0.0.26:3003"), Hd; by left|apply (Hno "224.0.0.26:3003"), Hd; by left|apply (Hno "[FF02::1]:3003"), Hd; by right]. }
    destruct Hfin as [[? _]|[_ ->]]; [done|]. setoid_rewrite Hs. setoid_rewrite Happ. split_and!.
    + intros d [Hd|Hd]; [by right|]. left. apply Hs1' in Hd. destruct Hm2' as [[-> _]|[_ ->]]; [rewrite lookup_empty in Hd; by destruct Hd|done].
    + intros d [Hd|Hd]; [|by left; left]. destruct Hm2' as [[_ Hx]|[_ ->]]; [right; by apply Hx|left; right; by apply Hs1'].
    + intros [?|[d' Hd']] _ d [Hd|Hd]; [done..| |by left]. right. apply Hs1' in Hd'. destruct Hm2' as [[-> _]|[_ ->]]; [rewrite lookup_empty in Hd'; by destruct Hd'|by apply Hs1'].
  - injection H0 as <-. cbn [c_dests with_flags conf_new] in Hs. rewrite app_nil_r.
    assert (Hs' : forall d, is_Some (m !! d) <-> ask_dest x (o_dests o) c d) by (intros d; rewrite Hs; split; [intros [Hx|?]; [|done]; cbn in Hx; rewrite lookup_empty in Hx; by destruct Hx|auto]).
    destruct Hfin as [[-> Hd]|[_ ->]].
    + pose proof (check_default _ _ _ Hd) as Hdd. split_and!.
      * intros d Hx. apply Hs' in Hx. rewrite lookup_empty in Hx. by destruct Hx.
      * intros d Hx. right. by apply Hdd.
      * intros _ [d' Hd'] d _. apply Hs' in Hd'. rewrite lookup_empty in Hd'. by destruct Hd'.
    + split_and!; intros *; rewrite ?Hs'; auto. intros _ _ d. by rewrite Hs'.
Qed.
(** Partial: all those asked for are used and nothing but these and the default
    ones.  Exactly these if one of them has an IP version in use and, when
    there is a configuration file, one in that file has. *)
Theorem C91_partial x o f c : configured x o f = Some c ->
  let asked := o_dests o ++ match f with Some f => f_dests f | None => [] end in
  (forall d, ask_dest x asked c d -> is_Some (c_dests c !! d)) /\
  (forall d, is_Some (c_dests c !! d) -> ask_dest x asked c d \/ default_dest c d) /\
  ((exists d, ask_dest x asked c d) -> f = None \/ (exists f', f = Some f' /\ exists d, ask_dest x (f_dests f') c d) ->
   forall d, is_Some (c_dests c !! d) <-> ask_dest x asked c d).
Proof.
  intros H. destruct (dests_general _ _ _ _ H) as (H1 & H2 & H3). cbv zeta. split; [done|]. split; [done|]. intros He Hf d. split; [|apply H1]. apply H3; [|done].
  destruct Hf as [->|(f' & -> & Hf)]; [by left|by right].
Qed.
(** IPv4 destinations in words *)
Theorem C91_ipv4 x o f c a b d e (p : N) : configured x o f = Some c -> c_v4 c = true -> a < 256 -> b < 256 -> d < 256 -> e < 256 -> p < 65536 ->
  let t := pretty a +:+ "." +:+ pretty b +:+ "." +:+ pretty d +:+ "." +:+ pretty e in
  (t +:+ ":" +:+ pretty p ∈ o_dests o -> is_Some (c_dests c !! (t +:+ ":" +:+ pretty p))) /\
  (t ∈ o_dests o -> is_Some (c_dests c !! (t +:+ ":3003"))).
Proof.
  intros H V4 Ha Hb Hd He Hp t. destruct (dests_general _ _ _ _ H) as (H1 & _). split; intros Hin; apply H1.
  - exists (t +:+ ":" +:+ pretty p), (SV4 a b d e p). split; [apply elem_of_app; by left|]. split; [|split; [done|cbn [sock_text]; unfold t; by rewrite !app_assoc_s]].
    left. unfold parse_sock, t. by rewrite parse_v4_text.
  - exists t, (SV4 a b d e 3003). split; [apply elem_of_app; by left|]. split; [|split; [done|cbn [sock_text]; unfold t; by rewrite !app_assoc_s]]. right. split.
    + unfold parse_sock. destruct (parse_v4 t) eqn:E.
      * apply parse_v4_colons in E. exfalso. assert (Hf : free ":"%char t) by (unfold t; rewrite !free_app; split_and!; try done; apply digits_free; try done; apply pretty_digits_all).
        assert (Hz : forall s, free ":"%char s -> colons s = 0%nat). { clear. induction s as [|c s IH]; [done|]. intros [Hc Hs]. cbn. rewrite IH by done. by destruct (ascii_dec c ":"%char). }
        rewrite Hz in E by done. done.
      * unfold t. destruct (pretty_digits_all a) as (Hx & _ & Hn). destruct (pretty a) as [|y s]; [done|]. rewrite app_cons_s. cbn [given]. destruct Hx as [Hx _]. by replace (N_of_ascii y =? 91) with false by lia.
    + unfold parse_sock, t. change ":3003" with (":" +:+ pretty 3003%N). by rewrite (parse_v4_text a b d e 3003).
Qed.
(** Fails: with a configuration file that names no destination, beacons also
    go to the default multicast group although a destination was asked for;
    and a destination of the other IP version is replaced by the default one. *)
Theorem C91_refuted :
  (exists x o c, configured x o (Some empty_file) = Some c /\ o_dests o = ["10.0.0.1"] /\ is_Some (c_dests c !! "224.0.0.26:3003")) /\
  (exists x o c, configured x o None = Some c /\ o_dests o = ["[fe80::1]:3003"] /\ is_Some (c_dests c !! "224.0.0.26:3003")).
Proof.
  split.
  - exists x0, (Cli false false false false None false false false None None false None None None None None [] None [] [] [] ["10.0.0.1"] [] []). eexists. split; [vm_compute; reflexivity|]. split; [done|]. vm_compute. by eexists.
  - exists x0, (Cli false false false false None false false false None None false None None None None None [] None [] [] [] ["[fe80::1]:3003"] [] []). eexists. split; [vm_compute; reflexivity|]. split; [done|]. vm_compute. by eexists.
Qed.
Theorem C91_full_refuted : ~ C91_full.
Proof.
  intros H. destruct C91_refuted as [(x & o & c & Hc & Ho & Hd) _]. apply (H _ _ _ _ Hc) in Hd. rewrite Ho in Hd. cbn [app f_dests empty_file] in Hd.
  destruct Hd as [(s & a & Hs & Hm & _ & Ht)|[? _]]; [|done]. apply elem_of_list_singleton in Hs as ->. apply means_iff in Hm.
  assert (E : dest_addr (e_v6 x) "10.0.0.1" = Some (SV4 10 0 0 1 3003)) by reflexivity. rewrite E in Hm. injection Hm as <-. discriminate Ht.
Qed.
Example C91_case :
  (c ← configured x0 (Cli false false false false None false false false None None false None None None None None [] None [] [] [] ["10.0.0.1"; "10.0.0.2:4000"] [] []) None;
   Some (map_to_list (c_dests c))) = Some [("10.0.0.1:3003", 0); ("10.0.0.2:4000", 0)] \/
  (c ← configured x0 (Cli false false false false None false false false None None false None None None None None [] None [] [] [] ["10.0.0.1"; "10.0.0.2:4000"] [] []) None;
   Some (map_to_list (c_dests c))) = Some [("10.0.0.2:4000", 0); ("10.0.0.1:3003", 0)].
Proof. vm_compute. auto. Qed.
Print Assumptions C91_partial.
Print Assumptions C91_ipv4.
Print Assumptions C91_refuted.
Print Assumptions C91_full_refuted.

(** ** C92 *)
(** The peer timeout given on the command line, in whole seconds, decides when
    a discovered peer that is no longer heard of is dropped (u64 clock not
    set back) *)
Definition C92_full : Prop := forall x o f c s secs, configured x o f = Some c -> o_timeout o = Some s -> s <> "0" -> e_duration x s = Some (secs * 10^9) ->
  forall now p, pe_static p = false -> pe_last p <= now -> now < 2^64 ->
    still_valid (PConf (c_timeout c / 10^9) (c_custom c)) now p = true <-> now - pe_last p < secs.
(** Holds for peers that do not announce how often they send beacons *)
Theorem C92_partial x o f c s secs : configured x o f = Some c -> o_timeout o = Some s -> s <> "0" -> e_duration x s = Some (secs * 10^9) ->
  forall now p, pe_static p = false -> pe_period p = None -> pe_last p <= now -> now < 2^64 ->
    still_valid (PConf (c_timeout c / 10^9) (c_custom c)) now p = true <-> now - pe_last p < secs.
Proof.
  intros H Ho Hs Hd now p Hst Hp Hl Hn. apply configured_inv in H as (c0 & _ & _ & _ & _ & E & _). rewrite Ho in E. cbn in E. rewrite bool_decide_false in E by done. rewrite Hd in E. injection E as <-.
  unfold still_valid. rewrite Hst, Hp. cbn [pc_timeout]. rewrite N.div_mul by done.
  replace ((now + 2 ^ 64 - pe_last p) mod 2 ^ 64) with (now - pe_last p).
  - apply N.ltb_lt.
  - replace (now + 2 ^ 64 - pe_last p) with ((now - pe_last p) + 1 * 2^64) by lia. rewrite N.mod_add by done. symmetry. apply N.mod_small. lia.
Qed.
(** Fails for peers that do: their announcement counts, the option does not *)
Theorem C92_refuted : ~ C92_full.
Proof.
  intros H. set (o := Cli false false false false None false false false None None false None None None (Some "5s") None [] None [] [] [] [] [] []).
  assert (Hc : exists c, configured x0 o None = Some c /\ c_custom c = false /\ c_timeout c = 5000000000) by (eexists; split; [vm_compute; reflexivity|done]).
  destruct Hc as (c & Hc & Hcu & Ht).
  destruct (H x0 o None c "5s" 5 Hc eq_refl ltac:(done) eq_refl 1000 (Peer (Dtn "node8" "") (AIp "10.0.0.8") false (Some 3600) [] [] 0 0) eq_refl ltac:(cbn; lia) ltac:(lia)) as [H1 _].
  rewrite Hcu, Ht in H1. specialize (H1 eq_refl). by vm_compute in H1.
Qed.
Example C92_case :
  let o := Cli false false false false None false false false None None false None None None (Some "5s") None [] None [] [] [] [] [] [] in
  (c ← configured x0 o None; Some (map (fun now => still_valid (PConf (c_timeout c / 10^9) (c_custom c)) now (Peer (Dtn "node8" "") (AIp "10.0.0.8") false None [] [] 100 0)) [104; 105])) = Some [true; false].
Proof. vm_compute. reflexivity. Qed.
Print Assumptions C92_partial.
Print Assumptions C92_refuted.

(** ** C93 *)
(** What the configuration file says is in force unless the command line says
    otherwise.  The parameters name the values for which this is claimed. *)
Definition file_in_force (times ports layers : bool) (x : env) (o : cli) (f : file) (c : conf) : Prop :=
  (forall b, f_unsafe f = Some b -> c_unsafe c = b) /\ (forall b, f_reports f = Some b -> c_reports c = b) /\ (forall b, f_parallel f = Some b -> c_parallel c = b) /\
  (forall b, f_period f = Some b -> c_period c = b) /\ (forall b, f_ecla f = Some b -> c_ecla c = b) /\ (forall b, f_v4 f = Some b -> c_v4 c = b) /\ (forall b, f_v6 f = Some b -> c_v6 c = b) /\
  (forall s e, o_nodeid o = None -> f_nodeid f = Some s -> names_node x s e -> c_host c = e) /\
  (forall s, o_interval o = None -> f_interval f = Some s -> times = true \/ is_Some (e_duration x s) -> e_duration x s = Some (c_interval c)) /\
  (forall s, o_janitor o = None -> f_janitor f = Some s -> times = true \/ is_Some (e_duration x s) -> e_duration x s = Some (c_janitor c)) /\
  (forall s, o_timeout o = None -> f_timeout f = Some s -> times = true \/ is_Some (e_duration x s) -> e_duration x s = Some (c_timeout c)) /\
  (forall z, o_webport o = None -> f_webport f = Some z -> ports = true \/ (0 <= z < 65536)%Z -> Z.of_N (c_webport c) = z) /\
  (forall z, f_ecla_port f = Some z -> ports = true \/ (0 <= z < 65536)%Z -> Z.of_N (c_ecla_port c) = z) /\
  (forall d, o_workdir o = None -> f_workdir f = Some d -> c_workdir c = d) /\
  (forall r, o_routing o = None -> f_routing f = Some r -> c_routing c = r) /\ (forall d, o_db o = None -> f_db f = Some d -> c_db c = d) /\
  (forall name m, (name, m) ∈ f_clas f -> layers = true \/ is_Some (e_layer x name) -> exists i, e_layer x name = Some i /\ (i, m) ∈ c_clas c) /\
  (forall t p, t < 256 -> (pretty t, p) ∈ f_services f -> c_services c !! t = Some p) /\
  (forall s, s ∈ f_endpoints f -> s ∈ c_endpoints c) /\ (forall s, s ∈ f_statics f -> exists p, e_peer x s = Some p /\ p ∈ c_statics c).
Definition C93_full : Prop := forall x o f c, configured x o (Some f) = Some c -> file_in_force true true true x o f c.
Lemma file_services l : forall m m', all_of file_service m l = Some m' ->
  (forall t p, m !! t = Some p -> m' !! t = Some p) /\ forall t p, t < 256 -> (pretty t, p) ∈ l -> m' !! t = Some p.
Proof.
  induction l as [|[s q] l IH]; intros m m' H; cbn in H; [simplify_eq; split; [done|]; intros ? ? _ Hx; by apply elem_of_nil in Hx|].
  apply bind_Some in H as (m1 & E & H). destruct (IH _ _ H) as [H1 H2]. unfold file_service in E. cbn [fst snd] in E. apply bind_Some in E as (t & Et & E).
  case_bool_decide as Hk; [done|]. injection E as <-. split.
  - intros t' p Hp. apply H1. rewrite lookup_insert_ne; [done|]. intros ->. apply Hk. by eexists.
  - intros t' p Ht Hin. apply elem_of_cons in Hin as [[= <- <-]|Hin]; [|by apply H2]. rewrite parse_uint_pretty in Et by done. injection Et as <-. apply H1, lookup_insert.
Qed.
Lemma mapM_elem {A B} (g : A -> option B) l l' s : mapM g l = Some l' -> s ∈ l -> exists p, g s = Some p /\ p ∈ l'.
Proof.
  intros H Hs. apply mapM_Some in H. destruct (proj1 (elem_of_list_lookup _ _) Hs) as [i Hi]. destruct (Forall2_lookup_l _ _ _ _ _ H Hi) as (p & Hp & Hq).
  exists p. split; [done|]. apply elem_of_list_lookup. by exists i.
Qed.
Lemma port_kept z : (0 <= z < 65536)%Z -> Z.of_N (as_u16 z) = z.
Proof. intros Hz. unfold as_u16. rewrite Z.mod_small by done. lia. Qed.
Theorem C93_partial x o f c : configured x o (Some f) = Some c -> file_in_force false false false x o f c.
Proof.
  intros H. apply configured_inv in H as (c0 & H0 & E1 & E2 & E3 & E4 & _ & E6 & _ & E8 & _ & (l & E10 & E10') & (V4 & V6 & V1 & V2 & V3 & V5 & V7 & V8 & _) & E11 & _ & E12 & E13 & E14 & E15).
  unfold conf_of_file in H0. cbv zeta in H0. apply bind_Some in H0 as [h [Hh H0]]. apply bind_Some in H0 as [st [Hst H0]]. apply bind_Some in H0 as [sv [Hsv H0]].
  apply bind_Some in H0 as [m1 [_ H0]]. apply bind_Some in H0 as [m2 [_ H0]]. injection H0 as <-.
  cbn [c_host c_interval c_janitor c_timeout c_clas c_services c_statics c_v4 c_v6 c_reports c_ecla c_ecla_port c_parallel c_unsafe c_period c_workdir c_webport c_routing c_db c_endpoints] in *.
  unfold file_in_force. rewrite V4, V6, V1, V2, V3, V5, V7, V8.
  repeat split.
  - by intros b ->. - by intros b ->. - by intros b ->. - by intros b ->. - by intros b ->. - by intros b ->. - by intros b ->.
  - intros s e Ho Hf Hn. rewrite Ho in E1. injection E1 as <-. rewrite Hf in Hh. by eapply names_node_ok.
  - intros s Ho Hf [?|[t Ht]]; [done|]. rewrite Ho, Hf in E2. cbn in E2. rewrite Ht in E2. injection E2 as <-. done.
  - intros s Ho Hf [?|[t Ht]]; [done|]. rewrite Ho, Hf in E3. cbn in E3. rewrite Ht in E3. injection E3 as <-. done.
  - intros s Ho Hf [?|[t Ht]]; [done|]. rewrite Ho, Hf in E4. cbn in E4. rewrite Ht in E4. injection E4 as <-. done.
  - intros z Ho Hf [?|Hz]; [done|]. rewrite E12, Ho, Hf. by apply port_kept.
  - intros z Hf [?|Hz]; [done|]. rewrite Hf. by apply port_kept.
  - intros d Ho Hf. by rewrite E11, Ho, Hf.
  - intros r Ho Hf. by rewrite E13, Ho, Hf.
  - intros d Ho Hf. by rewrite E14, Ho, Hf.
  - intros name m Hin [?|[i Hi]]; [done|]. exists i. split; [done|]. apply clas_spec in E6 as [[r ->] _]. apply elem_of_app. left.
    apply elem_of_list_omap. exists (name, m). split; [done|]. cbn. by rewrite Hi.
  - intros t p Ht Hin. apply file_services in Hsv as [_ Hsv]. apply services_spec in E8 as [E8 _]. by apply E8, Hsv.
  - intros s Hs. rewrite E15. apply elem_of_app. by left.
  - intros s Hs. destruct (mapM_elem _ _ _ _ Hst Hs) as (p & Hp & Hq). exists p. split; [done|]. rewrite E10'. apply elem_of_app. by left.
Qed.
(** Fails for times that are none (the janitor is switched off), ports that are
    none (another is used) and layers that are not known (not used) *)
Theorem C93_refuted :
  (exists x f c, configured x no_options (Some f) = Some c /\ f_janitor f = Some "10" /\ e_duration x "10" = None /\ c_janitor c = 0) /\
  (exists x f c, configured x no_options (Some f) = Some c /\ f_webport f = Some 65616%Z /\ c_webport c = 80) /\
  (exists x f c, configured x no_options (Some f) = Some c /\ f_clas f = [("Mtcp", ∅)] /\ c_clas c = []).
Proof.
  split; [|split].
  - exists x0, (File None None None None None None None None [] None None None (Some "10") None None [] [] [] [] None None [] []). eexists. split; [vm_compute; reflexivity|]. by split_and!.
  - exists x0, (File None None None None None None None None [] None None (Some 65616%Z) None None None [] [] [] [] None None [] []). eexists. split; [vm_compute; reflexivity|]. by split_and!.
  - exists x0, (File None None None None None None None None [] None None None None None None [] [] [("Mtcp", ∅)] [] None None [] []). eexists. split; [vm_compute; reflexivity|]. by split_and!.
Qed.
Theorem C93_full_refuted : ~ C93_full.
Proof.
  intros H. destruct C93_refuted as [(x & f & c & Hc & Hf & Hd & _) _]. destruct (H _ _ _ _ Hc) as (_ & _ & _ & _ & _ & _ & _ & _ & _ & Hj & _).
  specialize (Hj _ eq_refl Hf (or_introl eq_refl)). congruence.
Qed.
Example C93_case :
  let f := File (Some true) None (Some true) (Some false) (Some true) None (Some "23") (Some "sink") [] None None (Some 8080%Z) (Some "1h") None (Some "5s") [] ["incoming"] [("mtcp", {["port" := "4223"]})] [] (Some true) (Some 7263%Z) [("63", "hello: all")] [] in
  (c ← configured x0 no_options (Some f); Some (c_host c, c_routing c, c_webport c, c_janitor c, c_timeout c)) = Some (Ipn 23 0, "sink", 8080, 3600000000000, 5000000000) /\
  (c ← configured x0 no_options (Some f); Some (c_unsafe c, c_reports c, c_v4 c, c_v6 c, c_ecla c, c_ecla_port c)) = Some (true, true, false, true, true, 7263) /\
  (c ← configured x0 no_options (Some f); Some (c_services c !! 63, c_endpoints c, map fst (c_clas c))) = Some (Some "hello: all", ["incoming"], [1]).
Proof. split_and!; vm_compute; reflexivity. Qed.
Print Assumptions C93_partial.
Print Assumptions C93_refuted.
Print Assumptions C93_full_refuted.

(** ** C94 *)
(** An endpoint option means an endpoint id, or a service of the node *)
Definition means_endpoint (x : env) (new_endpoint : eid -> string -> option eid) (host : eid) (s : string) (e : eid) : Prop :=
  e_eid x s = Some e \/ e_eid x s = None /\ new_endpoint host s = Some e.
(** the last peer in [l] for node [n] *)
Definition last_for (n : string) (l : list peer) (p : peer) : Prop :=
  exists l1 l2, l = l1 ++ p :: l2 /\ eid_node (pe_eid p) = Some n /\ forall q, q ∈ l2 -> eid_node (pe_eid q) <> Some n.
Lemma registered es : forall l e, NoDup (map ag_eid l) -> (forall a, a ∈ l -> ag_queue a = [] /\ ag_sub a = None) ->
  let l' := foldl (fun l e => register e l) l es in
  (e ∈ map ag_eid l' <-> e ∈ map ag_eid l \/ e ∈ es) /\ NoDup (map ag_eid l') /\ forall a, a ∈ l' -> ag_queue a = [] /\ ag_sub a = None.
Proof.
  induction es as [|e' es IH]; intros l e Hd Hq; cbn [foldl].
  - split_and!; [|done|done]. rewrite elem_of_nil. tauto.
  - assert (Hd' : NoDup (map ag_eid (register e' l))).
    { rewrite register_eids. destruct (known e' l) eqn:E; [done|]. apply NoDup_app. split_and!; [done| |apply NoDup_singleton].
      intros y Hy Hs. apply elem_of_list_singleton in Hs as ->. apply known_elem in Hy. congruence. }
    assert (Hq' : forall a, a ∈ register e' l -> ag_queue a = [] /\ ag_sub a = None).
    { intros a. unfold register. destruct (known e' l); [apply Hq|]. rewrite elem_of_app, elem_of_list_singleton. intros [?| ->]; [by apply Hq|done]. }
    destruct (IH _ e Hd' Hq') as (H1 & H2 & H3). split_and!; [|done|done]. cbv zeta in H1. rewrite H1, register_eids, elem_of_cons. destruct (known e' l) eqn:E.
    + apply known_elem in E. split; [tauto|]. intros [?|[->|?]]; auto.
    + rewrite elem_of_app, elem_of_list_singleton. tauto.
Qed.
Lemma static_peers l : forall m m', all_of (fun m p => r ← peers_add p m; Some (fst r)) m l = Some m' ->
  forall n p, m' !! n = Some p <-> last_for n l p \/ m !! n = Some p /\ forall q, q ∈ l -> eid_node (pe_eid q) <> Some n.
Proof.
  induction l as [|q l IH]; intros m m' H n p; cbn in H.
  - injection H as <-. split; [intros H; right; split; [done|]; intros q Hq; by apply elem_of_nil in Hq|].
    intros [(l1 & l2 & Hl & _)|[? _]]; [by destruct l1|done].
  - apply bind_Some in H as (m1 & E & H). rewrite (IH _ _ H n p). clear IH H. unfold peers_add in E. destruct (eid_node (pe_eid q)) as [k|] eqn:Ek; [|done].
    injection E as <-. split.
    + intros [(l1 & l2 & -> & Hp & Hl)|[Hk Hl]].
      * left. exists (q :: l1), l2. by split_and!.
      * apply lookup_insert_Some in Hk as [[<- <-]|[Hne Hm]]; [left; exists [], l; by split_and!|]. right. split; [done|]. intros q' Hq'. apply elem_of_cons in Hq' as [->|Hq']; [congruence|by apply Hl].
    + intros [(l1 & l2 & Hl & Hp & Hl2)|[Hm Hl]].
      * destruct l1 as [|q' l1]; injection Hl as -> ->; [|left; by exists l1, l2]. rewrite Hp in Ek. injection Ek as <-. right. split; [apply lookup_insert|done].
      * right. split; [|intros q' Hq'; apply Hl; by right]. rewrite lookup_insert_ne; [done|]. intros ->. by apply (Hl q); [left|].
Qed.
(** After the start, the node has exactly its own id and the endpoints asked for
    as endpoints, each once, empty and without subscriber; exactly the static
    peers asked for as peers, the last one for each node; the layers asked for;
    the janitor and the discovery run as asked for *)
Theorem C94_started x new_endpoint c n : start (e_eid x) (e_stores x) new_endpoint c = Some n ->
  (forall e, e ∈ map ag_eid (n_agents n) <-> e = c_host c \/ exists s, s ∈ c_endpoints c /\ means_endpoint x new_endpoint (c_host c) s e) /\
  NoDup (map ag_eid (n_agents n)) /\ (forall a, a ∈ n_agents n -> ag_queue a = [] /\ ag_sub a = None) /\
  (forall k p, n_peers n !! k = Some p <-> last_for k (c_statics c) p) /\
  n_layers n = c_clas c /\ (n_janitor n = true <-> 1000 <= c_janitor c) /\
  (n_discovery n = true <-> c_disable_nd c = false /\ 1000 <= c_interval c) /\ n_ecla n = c_ecla c.
Proof.
  unfold start. destruct (_ && _); [|done]. intros H. apply bind_Some in H as (m & Hm & H). apply bind_Some in H as (es & Hes & H). injection H as <-.
  cbn [n_agents n_peers n_layers n_janitor n_discovery n_ecla].
  assert (Hreg : register (c_host c) [] = [Agent (c_host c) [] None]) by done. rewrite Hreg.
  assert (H0 : forall a, a ∈ [Agent (c_host c) [] None] -> ag_queue a = [] /\ ag_sub a = None) by (intros a Ha; by apply elem_of_list_singleton in Ha as ->).
  assert (Hd : NoDup (map ag_eid [Agent (c_host c) [] None])) by apply NoDup_singleton.
  split; [|split; [apply (registered es _ (c_host c) Hd H0)|split; [apply (registered es _ (c_host c) Hd H0)|split; [|split; [done|split; [|split; [|done]]]]]]].
  - intros e. destruct (registered es _ e Hd H0) as (He & _). cbv zeta in He. rewrite He. cbn [map ag_eid]. rewrite elem_of_list_singleton.
    enough (e ∈ es <-> exists s, s ∈ c_endpoints c /\ means_endpoint x new_endpoint (c_host c) s e) as -> by done.
    assert (Hmean : forall s e, endpoint_of (e_eid x) new_endpoint (c_host c) s = Some e <-> means_endpoint x new_endpoint (c_host c) s e).
    { intros s e1. unfold endpoint_of, means_endpoint. destruct (e_eid x s); split; try (intros [?|[? ?]]; congruence); auto. }
    split.
    + intros Hin. apply mapM_Some in Hes. apply elem_of_list_lookup in Hin as [i Hi]. destruct (Forall2_lookup_r _ _ _ _ _ Hes Hi) as (s & Hs & Hse). exists s. split; [apply elem_of_list_lookup; by exists i|by apply Hmean].
    + intros (s & Hs & Hse). destruct (mapM_elem _ _ _ _ Hes Hs) as (e1 & He1 & Hin). apply Hmean in Hse. rewrite Hse in He1. by injection He1 as ->.
  - intros k p. rewrite (static_peers _ _ _ Hm k p), lookup_empty. split; [by intros [?|[? _]]|by left].
  - rewrite negb_true_iff, N.eqb_neq. pose proof (N.div_str_pos (c_janitor c) 1000). pose proof (N.div_small (c_janitor c) 1000). lia.
  - rewrite andb_true_iff, !negb_true_iff, N.eqb_neq. pose proof (N.div_str_pos (c_interval c) 1000). pose proof (N.div_small (c_interval c) 1000). intuition lia.
Qed.
(** Together with C90: an endpoint asked for on the command line is there *)
Theorem C94_listens x new_endpoint o f c n s e : configured x o f = Some c -> start (e_eid x) (e_stores x) new_endpoint c = Some n ->
  s ∈ o_endpoints o -> means_endpoint x new_endpoint (c_host c) s e -> e ∈ map ag_eid (n_agents n).
Proof.
  intros Hc Hs Hin He. apply C94_started in Hs as [Ha _]. apply Ha. right. exists s. split; [|done]. apply C90_partial in Hc as (_ & _ & [Hl _] & _). by apply Hl.
Qed.
Example C94_case :
  let ne := fun (h : eid) s => match h with Dtn n _ => Some (Dtn n s) | _ => None end in
  (c ← configured x0 o90 None; n ← start (e_eid x0) (e_stores x0) ne c; Some (map ag_eid (n_agents n), map fst (map_to_list (n_peers n)), n_janitor n, n_discovery n)) =
  Some ([Dtn "node7" ""; Dtn "node7" "incoming"], ["node9"], true, false).
Proof. vm_compute. reflexivity. Qed.
Print Assumptions C94_started.
Print Assumptions C94_listens.
