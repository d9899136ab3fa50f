(** C167: what an application gets was made by an application (model: NodeApps.v,
    Apps.v, Network.v, Pipeline.v). *)
From stdpp Require Import prelude strings pretty gmap sorting.
From Coq Require Import NArith ZArith Lia ZifyBool ZifyN ZifyNat.
From Verif Require Import Core StoreMem Peers Routing Apps AppsProofs AppsOrder Props_Apps Pipeline PipelineBase Props_Transfer Network NetworkProofs Props_Cause Props_Network Props_Reception NodeApps.
From Verif Require Props_Echo.
Open Scope N_scope.

(** ** The application side: where what is inside comes from *)
Section apps.
Context (parse_eid : string -> option eid) (host : eid) (local_eid : string -> option eid).
Context (dec_bundle : list N -> option bundle) (dec_send : fmt -> list N -> option send_data).
Notation step := (Apps.step parse_eid host local_eid dec_bundle dec_send).
Notation arun := (Apps.run parse_eid host local_eid dec_bundle dec_send).
(** client [k] asked for the bundles of endpoint [e] *)
Definition wanted (es : list ev) (k : nat) (e : eid) : Prop :=
  exists t a, EMsg k (MText t) ∈ es /\ trim t = "/subscribe " +:+ a /\ (parse_eid a = Some e \/ local_eid a = Some e).
(** [b] was delivered *)
Definition came (es : list ev) (b : bundle) : Prop := exists f, EDeliver b f ∈ es.
Definition for_client (es : list ev) (k : nat) (b : bundle) : Prop := came es b /\ wanted es k (b_dst b).
Definition agent_ok (es : list ev) (a : agent) : Prop :=
  (forall b, b ∈ ag_queue a -> came es b /\ b_dst b = ag_eid a) /\ (forall k, ag_sub a = Some k -> wanted es k (ag_eid a)).
Definition op_ok (es : list ev) (k : nat) (o : wop) : Prop :=
  match o with WSet e | WIns e | WPop e => wanted es k e | _ => True end.
Definition shown_ok (es : list ev) (k : nat) (o : wsout) : Prop :=
  match o with
  | OBundle _ | OData _ _ => exists m b, for_client es k b /\ render m b = Some o
  | _ => True
  end.
Record session_ok (es : list ev) (k : nat) (s : session) : Prop := SessionOk {
  so_chan : forall b, b ∈ ws_chan s -> for_client es k b;
  so_hand : forall b, ws_hand s = Some b -> for_client es k b;
  so_held : forall b o, (b, o) ∈ ws_held s -> for_client es k b /\ shown_ok es k o;
  so_job : forall o, o ∈ ws_job s -> op_ok es k o;
  so_subs : forall e, e ∈ default [] (ws_subs s) -> wanted es k e;
  so_out : forall o, o ∈ ws_out s -> shown_ok es k o
}.
Record side_ok (es : list ev) (st : apps) : Prop := SideOk {
  sd_agents : forall a, a ∈ a_agents st -> agent_ok es a;
  sd_sessions : forall k s, a_sessions st !! k = Some s -> session_ok es k s;
  sd_polls : forall e b, EPoll e (Some b) ∈ es -> came es b /\ b_dst b = e
}.
Lemma wanted_mono es v k e : wanted es k e -> wanted (es ++ [v]) k e.
Proof. intros (t & a & H & ?). exists t, a. split; [|done]. apply elem_of_app. by left. Qed.
Lemma came_mono es v b : came es b -> came (es ++ [v]) b.
Proof. intros [f H]. exists f. apply elem_of_app. by left. Qed.
Lemma for_mono es v k b : for_client es k b -> for_client (es ++ [v]) k b.
Proof. intros [? ?]. split; [by apply came_mono|by apply wanted_mono]. Qed.
Lemma shown_mono es v k o : shown_ok es k o -> shown_ok (es ++ [v]) k o.
Proof. destruct o; cbn; try done; intros (m & b0 & ? & ?); exists m, b0; (split; [by apply for_mono|done]). Qed.
Lemma agent_mono es v a : agent_ok es a -> agent_ok (es ++ [v]) a.
Proof.
  intros [H1 H2]. split; [|intros; by apply wanted_mono, H2]. intros b Hb. destruct (H1 b Hb). split; [by apply came_mono|done].
Qed.
Lemma session_mono es v k s : session_ok es k s -> session_ok (es ++ [v]) k s.
Proof.
  intros []. constructor; intros.
  - by apply for_mono, so_chan0.
  - by apply for_mono, so_hand0.
  - destruct (so_held0 b o H). split; [by apply for_mono|by apply shown_mono].
  - specialize (so_job0 o H). destruct o; cbn in *; try done; by apply wanted_mono.
  - by apply wanted_mono, so_subs0.
  - by apply shown_mono, so_out0.
Qed.
Lemma alter_in e f l a : a ∈ alter_agent e f l -> a ∈ l \/ exists a0, find_agent e l = Some a0 /\ a0 ∈ l /\ a = f a0.
Proof.
  unfold find_agent. induction l as [|x l IH]; [by intros ?%elem_of_nil|]. cbn. case_bool_decide as H.
  - intros [->|?]%elem_of_cons; [right; exists x; split; [done|]; split; [left|done]|left; by right].
  - intros [->|Ha]%elem_of_cons; [left; left|]. destruct (IH Ha) as [?|(a0 & ? & ? & ?)]; [left; by right|]. right. exists a0. split; [done|]. split; [by right|done].
Qed.
Lemma render_shown es k m b o : for_client es k b -> render m b = Some o -> shown_ok es k o.
Proof. intros Hf Hr. destruct o; cbn; try done; by exists m, b. Qed.
Lemma on_text_pops l s t o e : ws_job s = [] -> o ∈ ws_job (on_text parse_eid host local_eid l s t) -> o <> WPop e.
Proof.
  intros Hj. unfold on_text. repeat case_match; cbn; rewrite ?Hj; rewrite ?elem_of_cons, ?elem_of_nil; intuition congruence.
Qed.
Lemma side_step es st v st' : side_ok es st -> step st v st' -> side_ok (es ++ [v]) st'.
Proof.
  intros [HA HS HP] H.
  assert (HA' : forall a, a ∈ a_agents st -> agent_ok (es ++ [v]) a) by (intros; by apply agent_mono, HA).
  assert (HS' : forall k s, a_sessions st !! k = Some s -> session_ok (es ++ [v]) k s) by (intros; by apply session_mono, HS).
  assert (HP' : (forall e b, v <> EPoll e (Some b)) -> forall e b, EPoll e (Some b) ∈ es ++ [v] -> came (es ++ [v]) b /\ b_dst b = e).
  { intros Hv e b [Hx|Hx%elem_of_list_singleton]%elem_of_app; [|by destruct (Hv e b)]. destruct (HP e b Hx). split; [by apply came_mono|done]. }
  assert (Hset : forall i s s', a_sessions st !! i = Some s -> session_ok (es ++ [v]) i s' -> forall k s0, <[i := s']> (a_sessions st) !! k = Some s0 -> session_ok (es ++ [v]) k s0).
  { intros i s s' _ Hs' k s0 [[-> [-> _]]|[_ Hk]]%list_lookup_insert_Some; [done|by apply HS']. }
  assert (Halt : forall e f, (forall a, find_agent e (a_agents st) = Some a -> agent_ok (es ++ [v]) a -> agent_ok (es ++ [v]) (f a)) ->
     forall a, a ∈ alter_agent e f (a_agents st) -> agent_ok (es ++ [v]) a).
  { intros e f Hf a [Ha|(a0 & Hfa & Ha & ->)]%alter_in; [by apply HA'|]. apply Hf; [done|by apply HA']. }
  assert (Hnow : v ∈ es ++ [v]) by (apply elem_of_app; right; by apply elem_of_list_singleton).
  assert (Htake : forall a, agent_ok (es ++ [v]) a -> agent_ok (es ++ [v]) (take_first a)).
  { intros a [H1 H2]. split; [|exact H2]. intros b Hb. apply H1. cbn in Hb. destruct (ag_queue a); [done|by right]. }
  destruct H; constructor; cbn [a_agents a_sessions upd set_session]; try done; try (by apply HP').
  (* register *)
  - intros a Ha. unfold register in Ha. destruct (known e _); [by apply HA'|]. apply elem_of_app in Ha as [Ha| ->%elem_of_list_singleton]; [by apply HA'|].
    split; cbn; [by intros b ?%elem_of_nil|done].
  (* unregister *)
  - assert (Hu : forall l a, a ∈ unregister e l -> a ∈ l).
    { clear. induction l as [|x l IH]; intros a; cbn; [done|]. case_bool_decide; [by right|]. intros [->|?]%elem_of_cons; [left|right; by apply IH]. }
    intros a Ha%Hu. by apply HA'.
  (* queued *)
  - apply Halt. intros a0 Hf [H1 H2]. split; [|exact H2]. cbn. intros b0 [Hb| ->%elem_of_list_singleton]%elem_of_app; [by apply H1|].
    apply find_eid in Hf as [Hf _]. split; [by exists Apps.Queued|by rewrite Hf].
  (* passed *)
  - eapply Hset; [done|]. destruct (HS' _ _ H1). apply find_eid in H as [He Hin]. destruct (HA' a Hin) as [_ Hs]. specialize (Hs _ H0). rewrite He in Hs.
    constructor; cbn; try done. intros b0 [Hb| ->%elem_of_list_singleton]%elem_of_app; [by apply so_chan0|]. split; [by exists (Passed i)|done].
  (* poll *)
  - apply Halt. intros; by apply Htake.
  - intros e0 b [Hx|Hx%elem_of_list_singleton]%elem_of_app; [destruct (HP e0 b Hx); split; [by apply came_mono|done]|]. injection Hx as -> Hr. subst r.
    destruct (find_agent e (a_agents st)) as [a|] eqn:Ef; [|done]. apply find_eid in Ef as [He Hin]. destruct (HA' a Hin) as [H1 _].
    assert (Hb : b ∈ ag_queue a) by (destruct (ag_queue a); [done|]; injection Hr as ->; left). destruct (H1 b Hb). split; [done|congruence].
  (* open *)
  - intros k s [Hk|[_ Hk]]%lookup_app_Some; [by apply HS'|]. apply list_lookup_singleton_Some in Hk as [_ <-]. constructor; cbn; try done; intros; by match goal with H : _ ∈ [] |- _ => apply elem_of_nil in H end.
  (* text *)
  - eapply Hset; [done|]. destruct (HS' _ _ H). destruct (on_text_same parse_eid host local_eid (a_agents st) s t) as (E1 & E2 & E3 & E4 & E5 & E6).
    assert (Hw : forall e, WSet e ∈ ws_job (on_text parse_eid host local_eid (a_agents st) s t) \/ WIns e ∈ ws_job (on_text parse_eid host local_eid (a_agents st) s t) -> wanted (es ++ [EMsg i (MText t)]) i e).
    { intros e He. destruct (on_text_ops parse_eid host local_eid e (a_agents st) s t H1) as (Hx & _). destruct (Hx He) as (a & Ha & Hp). exists t, a. done. }
    constructor; rewrite ?E1, ?E2, ?E3, ?E4, ?E5, ?E6; try done.
    + intros o Ho. destruct o; cbn; try done; try (apply Hw; tauto). by apply on_text_pops with (e := e) in Ho.
    + intros e He. apply so_subs0. destruct (on_text_ops parse_eid host local_eid e (a_agents st) s t H1) as (_ & _ & Hx). by apply Hx.
  (* binary *)
  - eapply Hset; [done|]. destruct (HS' _ _ H). pose proof (on_binary_same parse_eid dec_bundle dec_send cts s d) as E. rewrite H2 in E. cbn [fst] in E. destruct E as (E1 & E2 & E3 & E4 & E5 & E6 & E7).
    pose proof (on_binary_ops parse_eid dec_bundle dec_send cts s d H1) as Eo. rewrite H2 in Eo. cbn [fst] in Eo.
    constructor; rewrite ?E1, ?E2, ?E3, ?E4, ?E5, ?E6, ?E7; try done. intros o Ho. by destruct (Eo o Ho) as [? ->].
  (* ping *)
  - eapply Hset; [done|]. destruct (HS' _ _ H). constructor; cbn; try done. intros o [Ho| ->%elem_of_list_singleton]%elem_of_app; [by apply so_out0|done].
  (* set *)
  - apply Halt. intros a0 Hf [H1 H2]. split; [exact H1|]. cbn. intros k [= <-]. apply find_eid in Hf as [-> _]. apply (so_job _ _ _ (HS' _ _ H) (WSet e)). rewrite H0. left.
  - eapply Hset; [done|]. destruct (HS' _ _ H). rewrite H0 in so_job0. constructor; cbn; try done. intros o Ho. apply so_job0. by right.
  (* insert *)
  - eapply Hset; [done|]. destruct (HS' _ _ H). rewrite H0 in so_job0. constructor; cbn; try done; [intros o Ho; apply so_job0; by right|].
    intros e0. destruct (decide (e ∈ default [] (ws_subs s))); [by apply so_subs0|]. intros [->|?]%elem_of_cons; [|by apply so_subs0]. apply (so_job0 (WIns e)). left.
  (* reply *)
  - eapply Hset; [done|]. destruct (HS' _ _ H). rewrite H0 in so_job0. constructor; cbn; try done; [intros o Ho; apply so_job0; by right|].
    intros o [Ho| ->%elem_of_list_singleton]%elem_of_app; [by apply so_out0|done].
  (* fetch *)
  - eapply Hset; [done|]. destruct (HS' _ _ H). rewrite H0 in so_job0. constructor; cbn; try done.
    intros o [Ho|[->|Ho]%elem_of_cons]%elem_of_app; [|done|apply so_job0; by right]. apply elem_of_list_fmap in Ho as (e & -> & He). cbn. apply so_subs0. by rewrite <- H1.
  (* pop *)
  - apply Halt. intros; by apply Htake.
  - eapply Hset; [done|]. destruct (HS' _ _ H) as [? ? ? Hj ? ?]. rewrite H0 in Hj. constructor; cbn; try done; [|intros o Ho; apply Hj; by right].
    intros b o [Ho|Ho]%elem_of_app; [by apply so_held0|]. destruct r as [b'|]; [|by apply elem_of_nil in Ho].
    destruct (render (ws_mode s) b') as [o'|] eqn:Er; [|by apply elem_of_nil in Ho]. apply elem_of_list_singleton in Ho as [= -> ->].
    assert (Hf : for_client (es ++ [EWork i (WPop e) (Some b')]) i b').
    { destruct (find_agent e (a_agents st)) as [a|] eqn:Ef; [|done]. apply find_eid in Ef as [He Hin]. destruct (HA' a Hin) as [Hq _].
      assert (Hb : b' ∈ ag_queue a) by (destruct (ag_queue a); [done|]; match goal with H : Some _ = head _ |- _ => injection H as -> end; left).
      destruct (Hq b' Hb) as [Hc Hd]. split; [done|]. rewrite Hd, He. apply (Hj (WPop e)). left. }
    split; [done|]. by eapply render_shown.
  (* flush *)
  - eapply Hset; [done|]. destruct (HS' _ _ H). rewrite H1 in so_held0. constructor; cbn; try done; [intros b0 o0 Ho; apply so_held0; by right|].
    intros o0 [Ho| ->%elem_of_list_singleton]%elem_of_app; [by apply so_out0|]. apply (so_held0 b o). left.
  - eapply Hset; [done|]. destruct (HS' _ _ H). rewrite H0 in so_job0. constructor; cbn; try done. intros o Ho. apply so_job0. by right.
  (* clear *)
  - apply Halt. intros a0 Hf [H1 H2]. split; [exact H1|done].
  - eapply Hset; [done|]. destruct (HS' _ _ H). rewrite H0 in so_job0. constructor; cbn; try done. intros o Ho. apply so_job0. by right.
  (* take *)
  - eapply Hset; [done|]. destruct (HS' _ _ H). rewrite H2 in so_chan0. constructor; cbn; try done; [intros b0 Hb; apply so_chan0; by right|]. intros b0 [= <-]. apply so_chan0. left.
  (* hand *)
  - eapply Hset; [done|]. destruct (HS' _ _ H). constructor; cbn; try done. intros o [Ho|Ho]%elem_of_app; [by apply so_out0|].
    destruct (render (ws_mode s) b) eqn:Er; [|by apply elem_of_nil in Ho]. apply elem_of_list_singleton in Ho as ->. eapply render_shown; [by apply so_hand0|done].
  (* close *)
  - eapply Hset; [done|]. destruct (HS' _ _ H). constructor; cbn; try done; [intros b o Ho; by apply elem_of_nil in Ho|].
    intros o Ho. by apply elem_of_list_fmap in Ho as (e & -> & He).
  (* drop *)
  - eapply Hset; [done|]. destruct (HS' _ _ H). constructor; cbn; try done. intros b Hb. by apply elem_of_nil in Hb.
Qed.
Lemma side_run es st : arun start es st -> side_ok es st.
Proof.
  assert (H : forall s0 tr s1, arun s0 tr s1 -> forall es, side_ok es s0 -> side_ok (es ++ tr) s1).
  { induction 1 as [s0|s0 v s1 tr s2 Hs _ IH]; intros es0 Ho; [by rewrite app_nil_r|]. rewrite cons_middle, app_assoc. apply IH. by eapply side_step. }
  intros Hr. apply (H _ _ _ Hr []). constructor; cbn; [by intros a ?%elem_of_nil|done|by intros e b ?%elem_of_nil].
Qed.
End apps.

(** ** Specification *)
(** [b] is a copy of [b0]: what may differ are the blocks that nodes on the way
    change, and unknown blocks that ask to be dropped *)
Definition copy_of (b b0 : bundle) : Prop :=
  primary b = primary b0 /\ (no_flagged b0 -> payload b = payload b0 /\ other_blocks b = other_blocks b0).
(** what a client in data mode is shown of bundle [b] *)
Definition shows (r : recv_data) (b : bundle) : Prop :=
  rd_bid r = bid b /\ rd_src r = eid_string (b_src b) /\ rd_dst r = eid_string (b_dst b) /\
  rd_time r = b_time b /\ rd_seq r = b_seq b /\ rd_life r = b_life b /\ (no_flagged b -> payload b = Some (rd_data r)).
(** how often an application was given a bundle with this id: by a poll, or written
    to a client *)
Definition given (id : string) (es : list ev) : nat :=
  length (filter (fun b => bid b = id) (flat_map (fun v => match v with EPoll _ (Some b) | EHand _ b | EWork _ WFlush (Some b) => [b] | _ => [] end) es)).

(** ** Proofs *)
Lemma joint_delivers es tr : ajoint es tr -> forall b f, EDeliver b f ∈ es -> exists i, EStep i (LAct (Deliver (b_dst b) b) (told f)) ∈ tr.
Proof.
  induction 1 as [|es tr i b0 f0 _ IH|es tr v _ IH Hv|es tr e _ IH He]; intros b f H.
  - by apply elem_of_nil in H.
  - apply elem_of_app in H as [H|H%elem_of_list_singleton]; [destruct (IH b f H) as [k Hk]; exists k; apply elem_of_app; by left|].
    injection H as -> ->. exists i. apply elem_of_app. right. by apply elem_of_list_singleton.
  - apply elem_of_app in H as [H| <-%elem_of_list_singleton]; [by apply IH|done].
  - destruct (IH b f H) as [k Hk]. exists k. apply elem_of_app. by left.
Qed.
Lemma joint_count es tr id : ajoint es tr -> number (handed_over_id id) tr = length (filter (fun b => bid b = id) (Props_Echo.accepted es)).
Proof.
  unfold number, Props_Echo.accepted. induction 1 as [|es tr i b f _ IH|es tr v _ IH Hv|es tr e _ IH He]; [done|..].
  - rewrite flat_map_app, ?List.filter_app, filter_app, !app_length, ?IH, <- ?IH. f_equal. destruct f; cbn [flat_map app told]; rewrite ?filter_cons, !filter_nil; cbn; try done; case_bool_decide; by destruct (decide _).
  - rewrite flat_map_app, ?List.filter_app, filter_app, !app_length, ?IH, <- ?IH. destruct v; cbn; lia || done.
  - rewrite List.filter_app, app_length, IH. destruct e as [| | | | | |j [[] r| |]]; cbn; try lia; done.
Qed.
Lemma payload_same b : payload_of b = payload b.
Proof.
  unfold payload_of, payload, first_block. induction (b_blocks b) as [|k l IH]; [done|]. cbn. change PAYLOAD_BLOCK with 1 in *.
  destruct (k_type k =? 1) eqn:E.
  - destruct (decide _) as [Hd|Hd]; [|lia]. cbn. by destruct k as [? ? ? []].
  - destruct (decide _) as [Hd|Hd]; [lia|]. exact IH.
Qed.
Lemma id_of_primary b b0 : primary b = primary b0 -> bid b = bid b0.
Proof. unfold primary, bid. intros [= H1 H2 H3 H4 H5 H6 H7 H8 H9]. by rewrite ?H1, ?H2, ?H3, ?H4, ?H5, ?H6, ?H7, ?H8, ?H9. Qed.
Lemma filter_submset id (l k : list bundle) : l ⊆+ k -> (length (filter (fun b => bid b = id) l) <= length (filter (fun b => bid b = id) k))%nat.
Proof.
  induction 1 as [|x l k _ IH|x y l|x l k _ IH|l k j _ IH1 _ IH2]; rewrite ?filter_cons; [done|..].
  - destruct (decide _); cbn; lia.
  - destruct (decide (bid x = id)), (decide (bid y = id)); cbn; lia.
  - destruct (decide _); cbn; lia.
  - lia.
Qed.
Section props.
Context (node_of : nat -> settings) (parse_record : list N -> option arecord)
        (lifetime_exceeded : N -> bundle -> bool).
Notation net_run := (net_run node_of parse_record lifetime_exceeded).
Context (parse_eid : string -> option eid) (local_eid : string -> option eid).
Context (dec_bundle : list N -> option bundle) (dec_send : fmt -> list N -> option send_data).
Notation arun i := (Apps.run parse_eid (s_host (node_of i)) local_eid dec_bundle dec_send).
Notation wanted := (wanted parse_eid local_eid).

Lemma came_made tr ms i es b : net_run tr ms -> ajoint es (proj i tr) -> came es b -> exists j b0, made tr j b0 /\ copy_of b b0.
Proof.
  intros Hn Hj [f Hf]. destruct (joint_delivers _ _ Hj _ _ Hf) as [t Ht]. unfold proj in Ht.
  apply elem_of_list_In, in_flat_map in Ht as (e & He & Hi). apply elem_of_list_In in He.
  assert (He' : At i (EStep t (LAct (Deliver (b_dst b) b) (told f))) ∈ tr).
  { destruct e as [k e|j k b'|j b'|j k b']; cbn in Hi; try destruct (decide (k = i)) as [->|]; try done; destruct Hi as [E|[]]; subst; done. }
  apply elem_of_list_split in He' as (t1 & t2 & ->).
  destruct (C99_content_partial _ _ _ _ _ _ _ _ _ _ _ Hn) as [(j & b0 & Hm & Hp & Hc) _].
  exists j, b0. split; [by apply made_mono|]. done.
Qed.

(** ** C167 *)
(** What a poll of an endpoint returns is a copy of a bundle for that endpoint which
    an application (or a node, as a status report) made at some node. *)
Theorem C167_polled : forall tr ms i es st e b,
  net_run tr ms -> arun i start es st -> ajoint es (proj i tr) -> EPoll e (Some b) ∈ es ->
  exists j b0, made tr j b0 /\ copy_of b b0 /\ b_dst b0 = e.
Proof.
  intros tr ms i es st e b Hn Ha Hj He. destruct (side_run _ _ _ _ _ _ _ Ha) as [_ _ HP]. destruct (HP e b He) as [Hc Hd].
  destruct (came_made _ _ _ _ _ Hn Hj Hc) as (j & b0 & Hm & Hb). exists j, b0. split; [done|]. split; [done|].
  destruct Hb as [Hb _]. unfold primary in Hb. congruence.
Qed.
(** What a websocket client is shown is a copy of such a bundle, for an endpoint the
    client asked for. *)
Theorem C167_shown : forall tr ms i es st k s o,
  net_run tr ms -> arun i start es st -> ajoint es (proj i tr) -> a_sessions st !! k = Some s -> o ∈ ws_out s ->
  match o with
  | OBundle b => exists j b0, made tr j b0 /\ copy_of b b0 /\ wanted es k (b_dst b0)
  | OData _ r => exists j b0, made tr j b0 /\ shows r b0 /\ wanted es k (b_dst b0)
  | _ => True
  end.
Proof.
  intros tr ms i es st k s o Hn Ha Hj Hs Ho. destruct (side_run _ _ _ _ _ _ _ Ha) as [_ HS _].
  assert (H := so_out _ _ _ _ _ (HS k s Hs) o Ho). destruct o as [t|b|f r|]; try done; destruct H as (m & b' & [Hc Hw] & Hr);
    destruct (came_made _ _ _ _ _ Hn Hj Hc) as (j & b0 & Hm & Hb); exists j, b0; (split; [done|]); assert (Hb' := Hb); destruct Hb' as [Hp Hq];
    (assert (Hd : b_dst b' = b_dst b0) by (unfold primary in Hp; congruence)); rewrite Hd in Hw; (split; [|done]); unfold render in Hr.
  - destruct m as [|f]; [by injection Hr as ->|]. by destruct (payload_of b').
  - destruct m as [|f']; [done|]. destruct (payload_of b') as [d|] eqn:Ed; [|done]. injection Hr as <- <-. unfold shows. cbn.
    assert (Hid := id_of_primary _ _ Hp). unfold primary in Hp. injection Hp as _ _ Hs' _ Ht Hsq Hl _ _.
    split_and!; try congruence. intros Hf. destruct (Hq Hf) as [Hpl _]. by rewrite <- Hpl, <- payload_same.
Qed.
(** No application is given a bundle more often than the node accepted it or was
    given it. *)
Theorem C167_given : forall tr ms i es st id,
  net_run tr ms -> arun i start es st -> ajoint es (proj i tr) ->
  (given id es <= number (acceptance id) (proj i tr) + number (submission_started id) (proj i tr))%nat.
Proof.
  intros tr ms i es st id Hn Ha Hj.
  assert (Hr : exists m, run (s_host (node_of i)) (s_reports (node_of i)) (s_parallel (node_of i)) parse_record lifetime_exceeded (proj i tr) m) by (eexists; by apply net_proj).
  destruct Hr as [m Hr]. assert (H63 := Props_Reception.C63_delivered_once _ _ _ _ _ _ _ id Hr).
  assert (H119 := Props_Echo.C119_no_duplicates _ _ _ _ _ _ _ Ha). rewrite (joint_count _ _ id Hj) in H63.
  assert (H := filter_submset id _ _ H119). unfold given. change (flat_map _ es) with (Props_Echo.handed es). lia.
Qed.
End props.
Print Assumptions C167_polled.
Print Assumptions C167_shown.
Print Assumptions C167_given.

(** ** A concrete case *)
(** Node 0 sends two bundles to an application of node 1.  It polls the first; then
    a websocket client subscribes and is shown the second. *)
Definition second := Bundle (BFlags false false false false false false false) (Dtn "n1" "in") (Dtn "n0" "in") DtnNone 1001 0 500000 0 0 [text].
Definition script167 := send01 whole ++ [NStart 0 (KSubmit second); NRun 0 2; NRun 0 3; NSend 0 1; NRun 1 1].
Definition run167 := row_go script167.
Definition c1 := with_blocks whole [Block 6 3 no_kflags (CPrev (Dtn "n0" "")); Block 192 2 no_kflags (CData [9]); text].
Definition c2 := with_blocks second [Block 6 2 no_kflags (CPrev (Dtn "n0" "")); text].
Definition E1 := Dtn "n1" "in".
Definition pe167 (s : string) : option eid := if bool_decide (s = "dtn://n1/in") then Some E1 else None.
Definition es167 : list ev :=
  [Apps.ERegister E1; EDeliver c1 Apps.Queued; EPoll E1 (Some c1); EOpen; EDeliver c2 Apps.Queued; EMsg 0 (MText "/subscribe dtn://n1/in");
   EWork 0 (WSet E1) None; EWork 0 (WIns E1) None; EWork 0 (WReply "200 subscribed") None; EWork 0 WFetch None;
   EWork 0 (WPop E1) (Some c2); EWork 0 WFlush (Some c2)].
(** a check of [ajoint] for concrete runs *)
Fixpoint skip (es : list ev) : list ev :=
  match es with [] => [] | v :: es' => if is_delivery v then es else skip es' end.
Fixpoint joins (es : list ev) (tr : list event) : bool :=
  match tr with
  | [] => forallb (fun v => negb (is_delivery v)) es
  | e :: tr =>
      match e return bool with
      | EStep _ (LAct (Deliver x b) r) =>
          match skip es with
          | EDeliver b' f :: es' => bool_decide (b = b' /\ x = b_dst b /\ r = told f) && joins es' tr
          | _ => false
          end
      | _ => joins es tr
      end
  end.
Lemma ajoint_apps es tr l : ajoint es tr -> forallb (fun v => negb (is_delivery v)) l = true -> ajoint (es ++ l) tr.
Proof.
  intros H. induction l as [|v l IH] using rev_ind; intros Hl; [by rewrite app_nil_r|]. rewrite forallb_app in Hl. apply andb_true_iff in Hl as [H1 H2].
  rewrite app_assoc. apply aj_app; [by apply IH|]. cbn in H2. by destruct (is_delivery v).
Qed.
Lemma skip_split es : exists l, es = l ++ skip es /\ forallb (fun v => negb (is_delivery v)) l = true.
Proof.
  induction es as [|v es (l & E & Hl)]; [by exists []|]. cbn. destruct (is_delivery v) eqn:Ev; [by exists []|]. exists (v :: l). cbn. rewrite Ev. split; [by f_equal|done].
Qed.
Lemma joins_ok tr : forall es es0 t0, ajoint es0 t0 -> joins es tr = true -> ajoint (es0 ++ es) (t0 ++ tr).
Proof.
  induction tr as [|e tr IH]; intros es es0 t0 Hj H; [rewrite app_nil_r; by apply ajoint_apps|].
  assert (Ha : no_delivery e -> joins es tr = true -> ajoint (es0 ++ es) (t0 ++ e :: tr)).
  { intros He H'. rewrite cons_middle, app_assoc. apply IH; [by apply aj_aside|done]. }
  destruct e as [| | | | | |i [o r| |]]; try (by apply Ha). destruct o; try (by apply Ha). clear Ha. cbn [joins] in H.
  destruct (skip_split es) as (l & E & Hl). destruct (skip es) as [|[] es']; try done. apply andb_true_iff in H as [(-> & -> & ->)%bool_decide_eq_true H].
  rewrite E, cons_middle, (cons_middle (EStep _ _)), !app_assoc. apply IH; [|done]. rewrite <- app_assoc. rewrite app_assoc. apply aj_deliver. by apply ajoint_apps.
Qed.
Lemma joins_joint es tr : joins es tr = true -> ajoint es tr.
Proof. exact (joins_ok tr es [] [] aj_nil). Qed.
Lemma run167_joins : joins es167 (proj 1 (fst run167)) = true.
Proof. vm_compute. reflexivity. Qed.
Lemma run167_joint : ajoint es167 (proj 1 (fst run167)).
Proof. exact (joins_joint _ _ run167_joins). Qed.
Lemma run167_apps : exists st s, Apps.run pe167 (Dtn "n1" "") (fun _ => None) (fun _ => None) (fun _ _ => None) start es167 st /\
  a_sessions st !! 0%nat = Some s /\ ws_out s = [OText "200 subscribed"; OData FJson (RecvData (bid second) "dtn://n0/in" "dtn://n1/in" 1001 0 500000 [104; 105])].
Proof.
  eexists _, _. split.
  - unfold es167, start. go s_register. go s_queue. go s_poll. go s_open. go s_queue. go s_text. go s_set. go s_ins. go s_reply.
    eapply Apps.run_step; [eapply (s_fetch _ _ _ _ _ _ 0%nat _ [E1]); ok|]; cbn. go s_pop. go s_flush. fin.
  - split; [reflexivity|]. vm_compute. reflexivity.
Qed.
Example C167_case : net_run row (fun _ => None) (fun _ _ => false) (fst run167) (snd run167) /\
  (exists st s, Apps.run pe167 (s_host (row 1)) (fun _ => None) (fun _ => None) (fun _ _ => None) start es167 st /\
     a_sessions st !! 0%nat = Some s /\ ws_out s = [OText "200 subscribed"; OData FJson (RecvData (bid second) "dtn://n0/in" "dtn://n1/in" 1001 0 500000 [104; 105])]) /\
  ajoint es167 (proj 1 (fst run167)) /\ EPoll E1 (Some c1) ∈ es167 /\ mades (fst run167) = [(0%nat, whole); (0%nat, second)] /\
  no_flagged second /\ given (bid second) es167 = 1%nat.
Proof.
  split; [exact (row_ok script167)|]. split; [exact run167_apps|]. split; [exact run167_joint|]. split; [unfold es167; do 2 right; left|].
  split; [vm_compute; reflexivity|]. split; [|vm_compute; reflexivity].
  intros x Hx _. cbn in Hx. apply elem_of_list_singleton in Hx as ->. done.
Qed.
