(** Lemmas about the HTTP interface *)
From stdpp Require Import prelude strings pretty gmap sorting.
From Coq Require Import NArith Lia ZifyBool ZifyN ZifyNat.
From Verif Require Import Core StoreMem StoreSled Sneakers StoreProofs Peers Apps Httpd.
Open Scope N_scope.

(** ** The guard *)
(** 127.0.0.0/8, ::1, and 127.0.0.0/8 embedded in IPv6 *)
Definition loopback (i : ipaddr) : Prop :=
  i = V6 1 \/
  exists x, x < 2^24 /\ (i = V4 (127 * 2^24 + x) \/ i = V6 (127 * 2^24 + x) \/ i = V6 (65535 * 2^32 + 127 * 2^24 + x)).
Lemma loopback4_iff a : loopback4 a = true <-> exists x, x < 2^24 /\ a = 127 * 2^24 + x.
Proof.
  unfold loopback4. rewrite N.eqb_eq. split.
  - intros H. exists (a mod 2^24). split; [by apply N.mod_lt|]. rewrite <- H at 1. rewrite N.mul_comm. by apply N.div_mod.
  - intros (x & Hx & ->). rewrite N.add_comm, N.div_add by done. by rewrite N.div_small.
Qed.
Lemma allowed_iff cf i : allowed cf i = true <-> h_unsafe cf = true \/ loopback i.
Proof.
  unfold allowed. rewrite !orb_true_iff. split.
  - intros [[H|H]|H]; [by left|right|right].
    + destruct i as [a|a]; cbn in H.
      * apply loopback4_iff in H as (x & Hx & ->). right. eauto.
      * apply N.eqb_eq in H as ->. by left.
    + destruct i as [a|a]; [done|]. unfold to_ipv4 in H. destruct (_ || _) eqn:E; [|done].
      apply loopback4_iff in H as (x & Hx & H). right. exists x. split; [done|]. right.
      pose proof (N.div_mod a (2^32) ltac:(done)) as D. apply orb_true_iff in E as [E|E]; apply N.eqb_eq in E; rewrite E, H in D;
        [left|right]; f_equal; lia.
  - intros [H|[-> |(x & Hx & [-> |[-> | ->]])]]; [by left; left|left; right; done|left; right; apply loopback4_iff; eauto|right|right]; unfold to_ipv4.
    + rewrite N.div_small by lia. cbn [N.eqb orb]. apply loopback4_iff. exists x. split; [done|]. apply N.mod_small. lia.
    + replace ((65535 * 2^32 + 127 * 2^24 + x) / 2^32) with 65535; [cbn [N.eqb orb Pos.eqb]|].
      * apply loopback4_iff. exists x. split; [done|].
        replace (65535 * 2^32 + 127 * 2^24 + x) with ((127 * 2^24 + x) + 65535 * 2^32) by lia.
        rewrite N.mod_add by done. apply N.mod_small. lia.
      * replace (65535 * 2^32 + 127 * 2^24 + x) with ((127 * 2^24 + x) + 65535 * 2^32) by lia.
        rewrite N.div_add by done. rewrite N.div_small by lia. done.
Qed.

(** ** Names *)
Definition service_chars : list Ascii.ascii :=
  list_ascii_of_string "ABCDEFGHIJKLMNOPQRSTUVWXYZabcdefghijklmnopqrstuvwxyz0123456789/-_.~".
Lemma all_chars_forall (P : Ascii.ascii -> Prop) f s :
  (forall c, f (Ascii.N_of_ascii c) = true <-> P c) -> all_chars f s = true <-> Forall P (list_ascii_of_string s).
Proof.
  intros H. induction s as [|c s IH]; cbn; [split; [constructor|done]|].
  rewrite andb_true_iff, H, IH, Forall_cons. done.
Qed.
Lemma valid_service_iff s : valid_service s = true <-> Forall (fun c => c ∈ service_chars) (list_ascii_of_string s).
Proof.
  apply all_chars_forall. intros c.
  assert (E : forall c, (digit (Ascii.N_of_ascii c) || alpha (Ascii.N_of_ascii c) || (Ascii.N_of_ascii c =? 47) || (Ascii.N_of_ascii c =? 45)
    || (Ascii.N_of_ascii c =? 95) || (Ascii.N_of_ascii c =? 46) || (Ascii.N_of_ascii c =? 126)) = bool_decide (c ∈ service_chars)).
  { intros [[] [] [] [] [] [] [] []]; vm_compute; reflexivity. }
  rewrite E. apply bool_decide_eq_true.
Qed.

(** ** Agents *)
Lemma find_alter_same e f l a : (forall x, ag_eid (f x) = ag_eid x) -> find_agent e l = Some a -> find_agent e (alter_agent e f l) = Some (f a).
Proof.
  intros Hf. induction l as [|x l IH]; [done|]. cbn. unfold find_agent in *. cbn. destruct (bool_decide (e = ag_eid x)) eqn:E.
  - intros [= ->]. cbn. by rewrite Hf, E.
  - intros H. cbn. rewrite E. auto.
Qed.
Lemma find_alter_other e e' f l : (forall x, ag_eid (f x) = ag_eid x) -> e <> e' -> find_agent e (alter_agent e' f l) = find_agent e l.
Proof.
  intros Hf Hne. unfold find_agent. induction l as [|x l IH]; [done|]. cbn. destruct (bool_decide (e' = ag_eid x)) eqn:E; cbn.
  - apply bool_decide_eq_true in E. rewrite Hf, (bool_decide_eq_false_2 (e = ag_eid x)) by congruence. done.
  - destruct (bool_decide (e = ag_eid x)); [done|]. apply IH.
Qed.
Lemma find_register e e' l a : find_agent e l = Some a -> find_agent e (register e' l) = Some a.
Proof.
  unfold register, find_agent. destruct (known e' l); [done|]. induction l as [|x l IH]; [done|]. cbn.
  destruct (bool_decide (e = ag_eid x)); [done|]. apply IH.
Qed.

(** ** The router *)
Lemma serve_local_refused pe le pm db uh du pu ic pi cf ev r d en :
  route (rq_path r) local_routes = Some en -> h_unsafe cf = false -> ~ loopback (rq_from r) ->
  snd (serve pe le pm db uh du pu ic pi cf ev r d) = d /\
  (fst (serve pe le pm db uh du pu ic pi cf ev r d) = Resp 403 BNone \/ rq_meth r = OPTIONS).
Proof.
  intros Hr Hu Hl. assert (Ha : allowed cf (rq_from r) = false).
  { destruct (allowed cf (rq_from r)) eqn:E; [|done]. apply allowed_iff in E as [E|E]; [congruence|done]. }
  unfold serve. rewrite Hr, Ha. destruct (rq_meth r); auto.
Qed.
Lemma route_in path l en : route path l = Some en -> (path, en) ∈ l.
Proof.
  induction l as [|[p x] l IH]; [done|]. cbn. case_bool_decide as E.
  - intros [= <-]. subst p. left.
  - intros H. right. auto.
Qed.
Definition entry_kind (cf : hconf) (x : string * entry) : Prop :=
  (exists v, snd x = g (HLook v)) \/ x = ("/push", Entry None (Some HPush) None) \/
  (h_external cf = true /\ x = ("/ws/erouting", g (HWs WsRouting))) \/ (h_ecla cf = true /\ x = ("/ws/ecla", g (HWs WsEcla))).
Lemma open_entries cf : Forall (entry_kind cf) (open_routes cf).
Proof.
  unfold open_routes, entry_kind. apply Forall_app; split; [|apply Forall_app; split].
  - destruct (h_external cf); [|constructor]. constructor; [|constructor]. right; right; left. done.
  - destruct (h_ecla cf); [|constructor]. constructor; [|constructor]. right; right; right. done.
  - repeat (constructor; [first [left; eexists; reflexivity | right; left; reflexivity]|]). constructor.
Qed.
Lemma open_route cf path en m h : route path (open_routes cf) = Some en -> pick m en = Some h ->
  (exists v, h = HLook v) \/ (h = HPush /\ path = "/push" /\ m = POST) \/
  (h_external cf = true /\ h = HWs WsRouting /\ path = "/ws/erouting") \/ (h_ecla cf = true /\ h = HWs WsEcla /\ path = "/ws/ecla").
Proof.
  intros Hr Hp. apply route_in in Hr. pose proof (open_entries cf) as F. rewrite Forall_forall in F. specialize (F _ Hr).
  destruct F as [[v E]|[E|[[He E]|[He E]]]].
  - cbn in E. subst en. left. exists v. destruct m; cbn in Hp; congruence.
  - injection E as -> ->. right; left. destruct m; cbn in Hp; try done. by injection Hp as <-.
  - injection E as -> ->. right; right; left. split; [done|]. split; [|done]. destruct m; cbn in Hp; congruence.
  - injection E as -> ->. right; right; right. split; [done|]. split; [|done]. destruct m; cbn in Hp; congruence.
Qed.

Lemma local_entry path en m h : route path local_routes = Some en -> pick m en = Some h ->
  (h = HPeersAdd /\ path = "/peers/add") \/ (h = HPeersDel /\ path = "/peers/del") \/ (h = HRoutingCmd /\ path = "/routing/cmd") \/
  (h = HRoutingData /\ path = "/routing/getdata") \/ (h = HSend /\ path = "/send") \/ (h = HDelete /\ path = "/delete") \/
  (h = HRegister /\ path = "/register") \/ (h = HUnregister /\ path = "/unregister") \/ (h = HEndpoint /\ path = "/endpoint") \/
  (h = HEndpointHex /\ path = "/endpoint.hex") \/ (h = HInsertGet /\ path = "/insert") \/ (h = HInsertPost /\ path = "/insert") \/
  (h = HRndBundle /\ path = "/debug/rnd_bundle") \/ (h = HRndPeer /\ path = "/debug/rnd_peer") \/ (h = HWs WsApp /\ path = "/ws") \/
  (h = HLook VPage /\ path = "/cts").
Proof.
  intros Hr Hp. apply route_in in Hr. unfold local_routes in Hr.
  repeat (apply elem_of_cons in Hr as [Hr|Hr]; [injection Hr as -> ->; destruct m; cbn in Hp; try discriminate Hp; injection Hp as <-; tauto|]).
  by apply elem_of_nil in Hr.
Qed.
Lemma serve_cases pe le pm db uh du pu ic pi cf ev r d x d' :
  serve pe le pm db uh du pu ic pi cf ev r d = (x, d') ->
  (d' = d /\ (x = NoRoute \/ exists c, x = Resp c BNone)) \/
  exists en h x0, (route (rq_path r) local_routes = Some en /\ allowed cf (rq_from r) = true \/ route (rq_path r) (open_routes cf) = Some en) /\
    pick (rq_meth r) en = Some h /\ handle pe le pm db uh du pu ic pi cf ev h r d = (x0, d') /\ x = strip (rq_meth r) x0.
Proof.
  assert (Hd : forall en, (route (rq_path r) local_routes = Some en /\ allowed cf (rq_from r) = true \/ route (rq_path r) (open_routes cf) = Some en) ->
    dispatch pe le pm db uh du pu ic pi cf ev en r d = (x, d') ->
    (d' = d /\ (x = NoRoute \/ exists c, x = Resp c BNone)) \/
    exists en h x0, (route (rq_path r) local_routes = Some en /\ allowed cf (rq_from r) = true \/ route (rq_path r) (open_routes cf) = Some en) /\
    pick (rq_meth r) en = Some h /\ handle pe le pm db uh du pu ic pi cf ev h r d = (x0, d') /\ x = strip (rq_meth r) x0).
  { intros en Hr. unfold dispatch. destruct (pick (rq_meth r) en) as [h|] eqn:Ek.
    - destruct (handle _ _ _ _ _ _ _ _ _ cf ev h r d) as [x0 d0] eqn:Eh. intros H. injection H as <- <-. right. exists en, h, x0. auto.
    - intros H. injection H as <- <-. left. eauto. }
  intros H. unfold serve in H.
  assert (Hm : (x, d') = (Resp 200 BNone, d) \/
    match route (rq_path r) local_routes with
    | Some en => if allowed cf (rq_from r) then dispatch pe le pm db uh du pu ic pi cf ev en r d else (Resp 403 BNone, d)
    | None => match route (rq_path r) (open_routes cf) with
        | Some en => dispatch pe le pm db uh du pu ic pi cf ev en r d
        | None => (NoRoute, d) end
    end = (x, d')) by (destruct (rq_meth r); auto).
  destruct Hm as [E|E]; [injection E as -> ->; left; eauto|]. clear H.
  destruct (route (rq_path r) local_routes) as [en|] eqn:E1.
  - destruct (allowed cf (rq_from r)) eqn:E2; [apply (Hd en); auto|]. injection E as <- <-. left. eauto.
  - destruct (route (rq_path r) (open_routes cf)) as [en|] eqn:E2; [apply (Hd en); auto|]. injection E as <- <-. left. eauto.
Qed.

Lemma serve_local pe le pm db uh du pu ic pi cf ev r d path en h :
  rq_path r = path -> route path local_routes = Some en -> pick (rq_meth r) en = Some h -> allowed cf (rq_from r) = true ->
  serve pe le pm db uh du pu ic pi cf ev r d =
    (strip (rq_meth r) (fst (handle pe le pm db uh du pu ic pi cf ev h r d)), snd (handle pe le pm db uh du pu ic pi cf ev h r d)).
Proof.
  intros Hp Hr Hk Ha. unfold serve. rewrite Hp, Hr, Ha. unfold dispatch. rewrite Hk.
  destruct (handle _ _ _ _ _ _ _ _ _ cf ev h r d) as [x d']. destruct (rq_meth r); done.
Qed.
Lemma serve_open pe le pm db uh du pu ic pi cf ev r d path en h :
  rq_path r = path -> route path local_routes = None -> route path (open_routes cf) = Some en -> pick (rq_meth r) en = Some h ->
  serve pe le pm db uh du pu ic pi cf ev r d =
    (strip (rq_meth r) (fst (handle pe le pm db uh du pu ic pi cf ev h r d)), snd (handle pe le pm db uh du pu ic pi cf ev h r d)).
Proof.
  intros Hp Hr Ho Hk. unfold serve. rewrite Hp, Hr, Ho. unfold dispatch. rewrite Hk.
  destruct (handle _ _ _ _ _ _ _ _ _ cf ev h r d) as [x d']. destruct (rq_meth r); done.
Qed.
(** a route that does not depend on the settings *)
Lemma open_fixed cf path en : route path [("/ws/erouting", g (HWs WsRouting)); ("/ws/ecla", g (HWs WsEcla))] = None ->
  route path (open_routes (HConf false false false DtnNone)) = Some en -> route path (open_routes cf) = Some en.
Proof.
  intros E1 E2. unfold open_routes in *. destruct (h_external cf), (h_ecla cf); cbn [app route h_external h_ecla] in *;
    repeat (case_bool_decide; try congruence).
Qed.

(** ** Substrings *)
Lemma strip_prefix_some p s r : strip_prefix p s = Some r <-> s = p +:+ r.
Proof.
  revert s. induction p as [|a p IH]; intros s; cbn; [split; [by intros [= ->]|by intros ->]|].
  destruct s as [|b s]; [split; [done|intros E; discriminate E]|]. destruct (bool_decide_reflect (a = b)) as [->|Hne].
  - rewrite IH. split; [by intros ->|]. by intros [= ->].
  - split; [done|]. by intros [= -> _].
Qed.
Lemma contains_iff sub s : contains sub s = true <-> exists a b, s = a +:+ sub +:+ b.
Proof.
  induction s as [|c s IH]; cbn; destruct (strip_prefix sub _) as [r|] eqn:E.
  - apply strip_prefix_some in E. split; [|done]. intros _. by exists "", r.
  - split; [done|]. intros (a & b & H). destruct a; [|done]. change (("" : string) +:+ (sub +:+ b)) with (sub +:+ b) in H.
    apply strip_prefix_some in H. congruence.
  - apply strip_prefix_some in E. split; [|done]. intros _. by exists "", r.
  - rewrite IH. split; intros (a & b & H).
    + exists (String c a), b. by rewrite H.
    + destruct a as [|a' a]; [change (("" : string) +:+ (sub +:+ b)) with (sub +:+ b) in H; apply strip_prefix_some in H; congruence|].
      injection H as _ H. eauto.
Qed.

(** ** Listings *)
Lemma known_bundles_nodup s : mem_inv s -> NoDup (known_bundles s).
Proof. intros H. unfold known_bundles. apply nodup_filter_ids, packs_nodup, H. Qed.
Lemma known_bundles_iff s id : mem_inv s -> id ∈ known_bundles s <-> exists p, m_meta s !! id = Some p /\ has_constraint p Deleted = false.
Proof.
  intros H. unfold known_bundles. rewrite elem_of_list_fmap. setoid_rewrite elem_of_list_filter. split.
  - intros (p & -> & Hd & Hp). apply packs_lookup in Hp; eauto.
  - intros (p & Hp & Hd). assert (p_id p = id) as <- by (eapply H; eauto). exists p. split; [done|]. split; [done|]. by apply packs_lookup.
Qed.
Lemma filter_addr_nodup c s : mem_inv s -> NoDup (filter_addr c s).
Proof. intros H. unfold filter_addr, filter_packs. apply nodup_filter_ids, nodup_filter_ids, packs_nodup, H. Qed.
Lemma filter_addr_iff c s id : mem_inv s -> id ∈ filter_addr c s <->
  exists p, (m_meta s !! id = Some p /\ has_constraint p Deleted = false) /\ (contains c (eid_string (p_src p)) = true \/ contains c (eid_string (p_dst p)) = true).
Proof.
  intros H. unfold filter_addr, filter_packs. rewrite elem_of_list_fmap. setoid_rewrite elem_of_list_filter. setoid_rewrite elem_of_list_filter. setoid_rewrite orb_true_iff. split.
  - intros (p & -> & Hc & Hd & Hp). apply packs_lookup in Hp; eauto.
  - intros (p & (Hp & Hd) & Hc). assert (p_id p = id) as <- by (eapply H; eauto). exists p. split; [done|]. split; [done|]. split; [done|]. by apply packs_lookup.
Qed.
