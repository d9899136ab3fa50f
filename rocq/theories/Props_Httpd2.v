(** Properties of the HTTP interface: C104-C106 *)
From stdpp Require Import prelude strings pretty gmap sorting.
From Coq Require Import NArith Lia ZifyBool ZifyN ZifyNat.
From Verif Require Import Core StoreMem StoreSled Sneakers StoreProofs Peers Apps AppsProofs Httpd HttpdProofs Props_Httpd.
Open Scope N_scope.

(** everything but the store, the endpoints, the bundles received and the count
    of broken ones *)
Definition rest_same (d d' : daemon) : Prop :=
  d_peers d' = d_peers d /\ d_sent d' = d_sent d /\ d_cmds d' = d_cmds d /\ d_ws d' = d_ws d.
(** the requests of a client that is allowed to manage the node *)
Definition managing (cf : hconf) (r : request) : Prop := h_unsafe cf = true \/ loopback_address (rq_from r).

(** ** C104 *)
(** Deleting a bundle: the answer says whether the node had it. Afterwards it can
    be neither downloaded nor seen in the list of bundles, is not among the
    bundles to be forwarded, and everything else is as it was. *)
Theorem C104_delete : forall parse_eid local_eid params dec_bundle unhex duration parse_url is_cla parse_ip cf ev r d ops id,
  let srv := serve parse_eid local_eid params dec_bundle unhex duration parse_url is_cla parse_ip in
  rq_path r = "/delete" -> rq_meth r = GET \/ rq_meth r = DELETE -> managing cf r -> rq_query r = Some id -> d_store d = mem_run ops ->
  let d' := snd (srv cf ev r d) in
  fst (srv cf ev r d) = match mem_get id (d_store d) with
                        | Some _ => Resp 200 (BText ("Deleted " +:+ id))
                        | None => Resp 404 (BText "Bundle not found")
                        end /\
  (forall ev2 r2, rq_meth r2 = GET -> rq_path r2 = "/download" -> rq_query r2 = Some id ->
     fst (srv cf ev2 r2 d') = Resp 404 (BText "Bundle not found")) /\
  (forall ev2 r2, rq_meth r2 = GET -> rq_path r2 = "/status/bundles" ->
     exists l l', fst (srv cf ev2 r2 d) = Resp 200 (BList l) /\ fst (srv cf ev2 r2 d') = Resp 200 (BList l') /\
       forall i, i ∈ l' <-> i ∈ l /\ i <> id) /\
  (forall accepting p, p ∈ to_forward accepting (d_store d') <-> p ∈ to_forward accepting (d_store d) /\ p_id p <> id) /\
  (forall i, i <> id -> mem_get i (d_store d') = mem_get i (d_store d) /\ mem_meta_of i (d_store d') = mem_meta_of i (d_store d)) /\
  rest_same d d' /\ d_agents d' = d_agents d /\ d_received d' = d_received d /\ d_broken d' = d_broken d.
Proof.
  intros pe le pm db uh du pu ic pi cf ev r d ops id srv Hp Hm Ha Hq Hs.
  apply allowed_iff in Ha.
  assert (E : srv cf ev r d = do_delete r d).
  { unfold srv. rewrite (serve_local _ _ _ _ _ _ _ _ _ cf ev r d "/delete" (Entry (Some HDelete) None (Some HDelete)) HDelete Hp eq_refl)
      by (try done; by destruct Hm as [-> | ->]).
    cbn [handle]. destruct (do_delete r d) as [x y]. by destruct Hm as [-> | ->]. }
  assert (Hi : mem_inv (d_store d)) by (rewrite Hs; apply mem_inv_run).
  destruct (mem_remove_spec id (d_store d) Hi) as [H1 H2]. pose proof (mem_inv_remove id _ Hi) as Hi'.
  unfold do_delete in E. rewrite Hq in E. destruct (mem_remove id (d_store d)) as [s ok] eqn:Er. cbn [fst snd] in H1, H2, Hi'.
  cbn zeta. rewrite E. cbn [fst snd].
  split.
  { rewrite H2. unfold mem_get. destruct (m_bundles (d_store d) !! id); [by rewrite bool_decide_true by eauto|].
    rewrite bool_decide_false; [done|]. intros [? ?]; done. }
  assert (Hlook : forall ev2 r2 d2, rq_meth r2 = GET -> mem_inv (d_store d2) -> shows pm cf r2 d2 (fst (srv cf ev2 r2 d2))).
  { intros. by apply C75_shows_. }
  split; [|split; [|split; [|split; [|by repeat split]]]].
  - intros ev2 r2 Hm2 Hp2 Hq2. unfold srv.
    rewrite (serve_open _ _ _ _ _ _ _ _ _ cf ev2 r2 _ "/download" (g (HLook VDownload)) (HLook VDownload))
      by (first [done | by rewrite Hm2 | apply open_fixed; by vm_compute]).
    rewrite Hm2. cbn. rewrite Hq2. unfold mem_get. cbn [d_store set_store]. rewrite H1. cbn. by rewrite lookup_delete.
  - intros ev2 r2 Hm2 Hp2.
    destruct (Hlook ev2 r2 d Hm2 Hi) as (_ & _ & _ & Hl & _). destruct (Hlook ev2 r2 (set_store d s) Hm2 Hi') as (_ & _ & _ & Hl' & _).
    destruct (Hl Hp2) as (l & El & _ & Hl1). destruct (Hl' Hp2) as (l' & El' & _ & Hl1').
    exists l, l'. split; [done|]. split; [done|]. intros i. rewrite Hl1, Hl1'. unfold present, mem_meta_of. cbn [d_store set_store]. rewrite H1. cbn [m_meta].
    destruct (decide (i = id)) as [->|Hne].
    + rewrite lookup_alter. split; [|by intros [_ []]]. intros (p & Hp3 & Hd). apply fmap_Some in Hp3 as (q & _ & ->). by rewrite tombstone_has in Hd.
    + rewrite lookup_alter_ne by done. naive_solver.
  - intros acc p. cbn [d_store set_store]. destruct (existsb (fun b => b) acc) eqn:Eacc.
    2:{ unfold to_forward. rewrite Eacc. set_solver. }
    destruct (to_forward_spec acc _ Hi Eacc) as (_ & F & _). destruct (to_forward_spec acc _ Hi' Eacc) as (_ & F' & _).
    rewrite F, F'. unfold mem_meta_of. rewrite H1. cbn [m_meta].
    destruct (decide (p_id p = id)) as [Hx|Hne].
    + split; [|by intros [_ []]]. subst id. rewrite lookup_alter. intros (Hp3 & _ & Hd). apply fmap_Some in Hp3 as (q & _ & ->).
      by rewrite tombstone_has in Hd.
    + rewrite lookup_alter_ne by done. tauto.
  - intros i Hne. unfold mem_get, mem_meta_of. cbn [d_store set_store]. rewrite H1. cbn.
    by rewrite lookup_delete_ne, lookup_alter_ne by done.
Qed.
Print Assumptions C104_delete.
Example C104_case : d_store d1 = mem_run [Push 0 b1] /\ managing cf1 (Request DELETE "/delete" (Some (bid b1)) [] home false) /\
  fst (srv1 cf1 ev1 (Request DELETE "/delete" (Some (bid b1)) [] home false) d1) = Resp 200 (BText ("Deleted " +:+ bid b1)) /\
  fst (srv1 cf1 ev1 (Request GET "/status/bundles" None [] home false) (snd (srv1 cf1 ev1 (Request DELETE "/delete" (Some (bid b1)) [] home false) d1)))
    = Resp 200 (BList []).
Proof. split; [done|]. split; [right; apply home_is|]. by vm_compute. Qed.

(** ** C105 *)
(** Registering the endpoint a query names: an endpoint that is registered keeps
    its bundles and its subscriber, another one is added without any; other
    endpoints stay. Unregistering: the endpoint is gone with its bundles, other
    endpoints stay. A name that cannot be read changes nothing and is not
    confirmed. *)
Theorem C105_register : forall parse_eid local_eid params dec_bundle unhex duration parse_url is_cla parse_ip cf ev r d path,
  let srv := serve parse_eid local_eid params dec_bundle unhex duration parse_url is_cla parse_ip in
  rq_path r = "/register" \/ rq_path r = "/unregister" -> rq_meth r = GET -> managing cf r -> rq_query r = Some path ->
  NoDup (map ag_eid (d_agents d)) ->
  let x := fst (srv cf ev r d) in
  let d' := snd (srv cf ev r d) in
  (forall e, names parse_eid local_eid path e ->
     (exists t, x = Resp 200 (BText t)) /\
     find_agent e (d_agents d') =
       (if decide (rq_path r = "/register") then Some (default (Agent e [] None) (find_agent e (d_agents d))) else None) /\
     (forall e', e' <> e -> find_agent e' (d_agents d') = find_agent e' (d_agents d)) /\
     NoDup (map ag_eid (d_agents d'))) /\
  ((forall e, ~ names parse_eid local_eid path e) -> d' = d /\ forall t, x <> Resp 200 t) /\
  rest_same d d' /\ d_store d' = d_store d /\ d_received d' = d_received d /\ d_broken d' = d_broken d.
Proof.
  intros pe le pm db uh du pu ic pi cf ev r d path srv Hp Hm Ha Hq Hnd. apply allowed_iff in Ha.
  set (add := bool_decide (rq_path r = "/register")).
  assert (E : srv cf ev r d = do_register pe le add r d).
  { unfold srv, add. destruct Hp as [Hp|Hp].
    - rewrite (serve_local _ _ _ _ _ _ _ _ _ cf ev r d "/register" (g HRegister) HRegister Hp eq_refl) by (rewrite ?Hm; done).
      rewrite Hp. rewrite bool_decide_true by done. cbn [handle]. rewrite Hm. by destruct (do_register _ _ _ _ _).
    - rewrite (serve_local _ _ _ _ _ _ _ _ _ cf ev r d "/unregister" (g HUnregister) HUnregister Hp eq_refl) by (rewrite ?Hm; done).
      rewrite Hp. rewrite bool_decide_false by done. cbn [handle]. rewrite Hm. by destruct (do_register _ _ _ _ _). }
  cbn zeta. rewrite E. unfold do_register. rewrite Hq.
  pose proof (names_named pe le path) as Hn.
  destruct (named pe le path) as [[[l e0]|]|] eqn:En.
  - cbn [fst snd]. split; [|split; [|by repeat split]].
    + intros e He. apply Hn in He as [l' He]. injection He as <- <-. split; [eauto|]. cbn [d_agents set_agents]. unfold add.
      destruct (decide (rq_path r = "/register")) as [Hr|Hr].
      * rewrite (bool_decide_true (rq_path r = "/register")) by done. unfold register. destruct (known e0 (d_agents d)) eqn:Ek.
        -- split; [|done]. destruct (find_agent e0 (d_agents d)) as [a|] eqn:Ef; [done|].
           exfalso. apply existsb_exists in Ek as (a & Hin & Hb). pose proof (List.find_none _ _ Ef a Hin). cbn in *. congruence.
        -- assert (Hni : forall a, a ∈ d_agents d -> ag_eid a <> e0).
           { intros a Hin Hx. assert (known e0 (d_agents d) = true); [|congruence]. apply existsb_exists. exists a.
             split; [by apply elem_of_list_In|]. by rewrite bool_decide_true. }
           assert (Hf : find_agent e0 (d_agents d) = None).
           { destruct (find_agent e0 (d_agents d)) as [a|] eqn:Ef; [|done]. apply find_some in Ef as [Hin Hb].
             apply bool_decide_eq_true in Hb. exfalso. apply (Hni a); [by apply elem_of_list_In|done]. }
           rewrite Hf. cbn [default]. split; [|split].
           ++ clear -Hni. unfold find_agent. induction (d_agents d) as [|a l0 IH]; cbn; [by rewrite bool_decide_true|].
              rewrite bool_decide_false by (intros Hx; apply (Hni a); [by left|done]). apply IH. intros a' Hin. apply Hni. by right.
           ++ intros e' Hne. unfold find_agent. clear -Hne. induction (d_agents d) as [|a l0 IH]; cbn; [by rewrite bool_decide_false|].
              destruct (bool_decide (e' = ag_eid a)); done.
           ++ rewrite map_app. apply NoDup_app. split; [done|]. split; [|apply NoDup_singleton].
              intros x Hx Hy. apply elem_of_list_singleton in Hy as ->. apply elem_of_list_fmap in Hx as (a & Hx & Hin). by apply (Hni a).
      * rewrite (bool_decide_false (rq_path r = "/register")) by done. clear -Hnd.
        assert (G : forall l0, NoDup (map ag_eid l0) -> find_agent e0 (unregister e0 l0) = None /\
          (forall e', e' <> e0 -> find_agent e' (unregister e0 l0) = find_agent e' l0) /\ NoDup (map ag_eid (unregister e0 l0)) /\
          (forall x, x ∈ map ag_eid (unregister e0 l0) -> x ∈ map ag_eid l0)).
        { induction l0 as [|a l0 IH]; [done|]. cbn [map]. rewrite NoDup_cons. intros [Hni Hd]. destruct (IH Hd) as (I1 & I2 & I3 & I4). cbn [unregister].
          case_bool_decide as Hb.
          - subst e0. split; [|split; [|split; [done|]]].
            + destruct (find_agent (ag_eid a) l0) as [a'|] eqn:Ef; [|done]. apply find_some in Ef as [Hin Hb].
              apply bool_decide_eq_true in Hb. exfalso. apply Hni. rewrite Hb. apply elem_of_list_fmap. exists a'. split; [done|]. by apply elem_of_list_In.
            + intros e' Hne. unfold find_agent. cbn. by rewrite bool_decide_false.
            + intros x Hx. by right.
          - unfold find_agent in *. cbn. rewrite bool_decide_false by congruence. split; [done|]. split; [|split].
            + intros e' Hne. destruct (bool_decide (e' = ag_eid a)); [done|]. by apply I2.
            + apply NoDup_cons. split; [|done]. intros Hx. by apply Hni, I4.
            + intros x Hx. apply elem_of_cons in Hx as [-> |Hx]; [by left|]. right. by apply I4. }
        destruct (G _ Hnd) as (G1 & G2 & G3 & _). done.
    + intros Hno. exfalso. apply (Hno e0). apply Hn. eauto.
  - cbn [fst snd]. split; [|split; [|by repeat split]].
    + intros e He. apply Hn in He as [l' He]. done.
    + intros _. split; [done|]. done.
  - cbn [fst snd]. split; [|split; [|by repeat split]].
    + intros e He. apply Hn in He as [l' He]. done.
    + intros _. split; [done|]. done.
Qed.
Print Assumptions C105_register.
(** the endpoint with a waiting bundle keeps it when registered again, and loses
    it when unregistered; a name that is neither a service nor an address *)
Example C105_case : names pe1 le1 "in" (Dtn "n" "in") /\ (forall e, ~ names pe1 le1 "?" e) /\ NoDup (map ag_eid (d_agents d1)) /\
  d_agents (snd (srv1 cf1 ev1 (Request GET "/register" (Some "in") [] home false) d1)) = [Agent (Dtn "n" "in") [b1] None] /\
  d_agents (snd (srv1 cf1 ev1 (Request GET "/register" (Some "out") [] home false) d1)) = [Agent (Dtn "n" "in") [b1] None; Agent (Dtn "n" "out") [] None] /\
  d_agents (snd (srv1 cf1 ev1 (Request GET "/unregister" (Some "in") [] home false) d1)) = [].
Proof.
  split; [by vm_compute|]. split; [intros e He; vm_compute in He; done|]. split; [apply NoDup_singleton|]. by vm_compute.
Qed.

(** ** C106 *)
(** a text of letters and digits *)
Definition alphanumeric (s : string) : Prop :=
  Forall (fun c => c ∈ list_ascii_of_string "ABCDEFGHIJKLMNOPQRSTUVWXYZabcdefghijklmnopqrstuvwxyz0123456789") (list_ascii_of_string s).
(** the bundle a request to /insert or /push carries: in its body if that is not
    too long, or in hex in the query *)
Definition carries (dec_bundle : list N -> option bundle) (unhex : string -> option (option (list N))) (r : request) (b : bundle) : Prop :=
  (rq_meth r = POST /\ N.of_nat (length (rq_body r)) <= 2 * 1024 * 1024 /\ dec_bundle (rq_body r) = Some b) \/
  (rq_meth r = GET /\ rq_path r = "/insert" /\ exists s x, rq_query r = Some s /\ alphanumeric s /\ unhex s = Some (Some x) /\ dec_bundle x = Some b).
Lemma alphanumeric_iff s : all_chars (fun c => digit c || alpha c) s = true <-> alphanumeric s.
Proof.
  apply all_chars_forall. intros c.
  assert (E : forall c, (digit (Ascii.N_of_ascii c) || alpha (Ascii.N_of_ascii c)) =
    bool_decide (c ∈ list_ascii_of_string "ABCDEFGHIJKLMNOPQRSTUVWXYZabcdefghijklmnopqrstuvwxyz0123456789")).
  { intros [[] [] [] [] [] [] [] []]; vm_compute; reflexivity. }
  rewrite E. apply bool_decide_eq_true.
Qed.
(** The bundle carried is given to the node, once and as it is: by /insert as one
    to be sent, by /push as one received from a neighbour. Anything else is
    refused without effect, but a body that is no bundle is counted by /push. *)
Theorem C106_insert : forall parse_eid local_eid params dec_bundle unhex duration parse_url is_cla parse_ip cf ev r d,
  let srv := serve parse_eid local_eid params dec_bundle unhex duration parse_url is_cla parse_ip in
  rq_path r = "/insert" -> rq_meth r = GET \/ rq_meth r = POST -> managing cf r ->
  (forall b, carries dec_bundle unhex r b -> (exists t, fst (srv cf ev r d) = Resp 200 (BText t)) /\ submitted d (snd (srv cf ev r d)) [b]) /\
  ((forall b, ~ carries dec_bundle unhex r b) -> snd (srv cf ev r d) = d /\ forall t, fst (srv cf ev r d) <> Resp 200 t).
Proof.
  intros pe le pm db uh du pu ic pi cf ev r d srv Hp Hm Ha. apply allowed_iff in Ha. destruct Hm as [Hm|Hm].
  - assert (E : srv cf ev r d = do_insert_get db uh r d).
    { unfold srv. rewrite (serve_local _ _ _ _ _ _ _ _ _ cf ev r d "/insert" (Entry (Some HInsertGet) (Some HInsertPost) None) HInsertGet Hp eq_refl)
        by (rewrite ?Hm; done). rewrite Hm. cbn [handle]. by destruct (do_insert_get _ _ _ _). }
    rewrite E. unfold do_insert_get. split.
    + intros b [(Hx & _)|(_ & _ & s & x & Hq & Hs & Hu & Hb)]; [congruence|]. apply alphanumeric_iff in Hs. rewrite Hq, Hs, Hu, Hb. cbn [fst snd].
      split; [eauto|]. by repeat split.
    + intros Hno. destruct (rq_query r) as [s|] eqn:Hq; [|done]. destruct (all_chars _ s) eqn:Hs; [|done].
      destruct (uh s) as [[x|]|] eqn:Hu; [|done..]. destruct (db x) as [b|] eqn:Hb; [|done]. exfalso. apply (Hno b). right.
      split; [done|]. split; [done|]. exists s, x. split; [done|]. split; [by apply alphanumeric_iff|]. done.
  - assert (E : srv cf ev r d = do_insert_post db r d).
    { unfold srv. rewrite (serve_local _ _ _ _ _ _ _ _ _ cf ev r d "/insert" (Entry (Some HInsertGet) (Some HInsertPost) None) HInsertPost Hp eq_refl)
        by (rewrite ?Hm; done). rewrite Hm. cbn [handle]. by destruct (do_insert_post _ _ _). }
    rewrite E. unfold do_insert_post, too_large, BODY_LIMIT. split.
    + intros b [(_ & Hl & Hb)|(Hx & _)]; [|congruence]. destruct (2097152 <? N.of_nat (length (rq_body r))) eqn:El; [lia|]. rewrite Hb. cbn [fst snd].
      split; [eauto|]. by repeat split.
    + intros Hno. destruct (2097152 <? N.of_nat (length (rq_body r))) eqn:El; [done|]. destruct (db (rq_body r)) as [b|] eqn:Hb; [|done].
      exfalso. apply (Hno b). left. split; [done|]. split; [lia|done].
Qed.
Print Assumptions C106_insert.
Theorem C106_push : forall parse_eid local_eid params dec_bundle unhex duration parse_url is_cla parse_ip cf ev r d,
  let srv := serve parse_eid local_eid params dec_bundle unhex duration parse_url is_cla parse_ip in
  rq_path r = "/push" -> rq_meth r = POST ->
  let x := fst (srv cf ev r d) in
  let d' := snd (srv cf ev r d) in
  rest_same d d' /\ d_agents d' = d_agents d /\ d_store d' = d_store d /\
  (forall b, carries dec_bundle unhex r b -> (exists t, x = Resp 200 (BText t)) /\ d_received d' = d_received d ++ [b] /\ d_broken d' = d_broken d) /\
  ((forall b, ~ carries dec_bundle unhex r b) -> (forall t, x <> Resp 200 t) /\ d_received d' = d_received d /\
     d_broken d' = d_broken d + (if decide (N.of_nat (length (rq_body r)) <= 2 * 1024 * 1024) then 1 else 0)).
Proof.
  intros pe le pm db uh du pu ic pi cf ev r d srv Hp Hm.
  assert (E : srv cf ev r d = do_push db r d).
  { unfold srv. rewrite (serve_open _ _ _ _ _ _ _ _ _ cf ev r d "/push" (Entry None (Some HPush) None) HPush)
      by (first [done | by rewrite Hm | apply open_fixed; by vm_compute]).
    rewrite Hm. cbn [handle]. by destruct (do_push _ _ _). }
  cbn zeta. rewrite E. unfold do_push, too_large, BODY_LIMIT.
  destruct (2097152 <? N.of_nat (length (rq_body r))) eqn:El.
  - cbn [fst snd]. repeat (split; [done|]). split.
    + intros b [(_ & Hl & _)|(Hx & _)]; [lia|congruence].
    + intros _. rewrite decide_False by lia. split; [done|]. split; [done|lia].
  - destruct (db (rq_body r)) as [b0|] eqn:Hb; cbn [fst snd]; repeat (split; [done|]); split.
    + intros b [(_ & _ & Hx)|(Hx & _)]; [|congruence]. rewrite Hb in Hx. injection Hx as <-. split; [eauto|done].
    + intros Hno. exfalso. apply (Hno b0). left. split; [done|]. split; [lia|done].
    + intros b [(_ & _ & Hx)|(Hx & _)]; congruence.
    + intros _. rewrite decide_True by lia. done.
Qed.
Print Assumptions C106_push.
Example C106_case : carries db1 (fun _ => Some None) (Request POST "/insert" None [1; 2] home false) b1 /\
  d_sent (snd (srv1 cf1 ev1 (Request POST "/insert" None [1; 2] home false) d1)) = [b1] /\
  d_received (snd (srv1 cf1 ev1 (Request POST "/push" None [1; 2] remote false) d1)) = [b1] /\
  (forall b, ~ carries (fun _ => None) (fun _ => None) (Request POST "/push" None [1; 2] home false) b).
Proof.
  split; [left; by vm_compute|]. split; [by vm_compute|]. split; [by vm_compute|].
  intros b [(_ & _ & H)|(H & _)]; done.
Qed.
