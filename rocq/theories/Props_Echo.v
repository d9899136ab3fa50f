(** Properties of dtnecho2: C118, C120; C119: applications get nothing more often
    than it was delivered. *)
From stdpp Require Import prelude strings pretty gmap.
From Coq Require Import NArith Lia ZifyBool ZifyN ZifyNat.
From Verif Require Import Core Routing Apps AppsProofs AppsOrder Props_Apps Httpd HttpdProofs Tools TriggerProofs Props_Trigger EchoPing AppsCount.
Open Scope N_scope.

(** ** C118 *)
(** client [i] is dtnecho2: at every point of the history it has said nothing but
    what dtnecho2 says after the messages it got *)
Section follows.
Context (parse_eid : string -> option eid) (host : eid) (local_eid : string -> option eid).
Context (dec_bundle : list N -> option bundle) (dec_send : fmt -> list N -> option send_data).
Notation run := (run parse_eid host local_eid dec_bundle dec_send).
Definition is_echo (enc_send : send_data -> list N) (ep : string) (i : nat) (tr : list ev) (st : apps) : Prop :=
  forall tr1 tr2 st1 s, tr = tr1 ++ tr2 -> run start tr1 st1 -> run st1 tr2 st -> a_sessions st1 !! i = Some s ->
  asked i tr1 `prefix_of` echo_says enc_send ep (ws_out s).
End follows.
(** the binary messages of client [i] *)
Definition binaries (l : list wsmsg) : list (list N) := flat_map (fun m => match m with MBin d => [d] | _ => [] end) l.
(** the bundles with a payload *)
Definition bearing (l : list bundle) : list bundle := filter (fun b => is_Some (payload_of b)) l.
(** [b'] answers [b]: back to its source, from where it was sent to, with the same
    content, for a day, without reports *)
Definition answers (b b' : bundle) : Prop :=
  b_dst b' = b_src b /\ b_src b' = b_dst b /\ payload_of b' = payload_of b /\ b_life b' = 86400000 /\
  b_rpt b' = b_src b' /\ b_flags b' = BFlags false false false false false false false /\ length (b_blocks b') = 1%nat.
Definition greeted (s : session) : Prop := exists m1 m2 rest, ws_out s = OText ("200 tx mode: data" +:+ m1) :: OText ("200 subscribed" +:+ m2) :: rest.

(** *** proofs *)
Section proofs.
Context (parse_eid : string -> option eid) (host : eid) (local_eid : string -> option eid).
Context (dec_bundle : list N -> option bundle) (dec_send : fmt -> list N -> option send_data).
Context (enc_send : send_data -> list N) (ep : string) (i : nat).
Hypothesis (Hep : ep = "echo" \/ ep = "7").
Notation run := (run parse_eid host local_eid dec_bundle dec_send).
Notation step := (step parse_eid host local_eid dec_bundle dec_send).
Definition nontext (l : list wsout) : list wsout := flat_map (fun o => match o with OBundle _ | OData _ _ => [o] | _ => [] end) l.
Definition texts (l : list wsout) : list wsout := flat_map (fun o => match o with OText _ => [o] | _ => [] end) l.
Definition is_reply (o : wop) : Prop := match o with WReply _ => True | _ => False end.

Lemma run_snoc tr v st : run start (tr ++ [v]) st -> exists st0, run start tr st0 /\ step st0 v st.
Proof. intros H. apply run_app in H as (st0 & H0 & H1). inversion H1 as [|? ? st1 ? ? Hs Hr]; subst. inversion Hr; subst. eauto. Qed.
Lemma asked_snoc tr v : asked i (tr ++ [v]) = asked i tr ++ asked i [v].
Proof. unfold asked. by rewrite flat_map_app. Qed.
Lemma given_snoc tr v : given i (tr ++ [v]) = given i tr ++ given i [v].
Proof. unfold given. by rewrite flat_map_app. Qed.

(** sessions do not vanish, and appear with EOpen *)
Lemma step_session st v st' s' : step st v st' -> a_sessions st' !! i = Some s' -> (exists s, a_sessions st !! i = Some s) \/ (s' = new_session /\ v = EOpen /\ a_sessions st !! i = None).
Proof.
  intros H H'. destruct (a_sessions st !! i) as [s|] eqn:E; [left; eauto|]. right.
  assert (G : forall j s0, <[j := s0]> (a_sessions st) !! i = Some s' -> False).
  { intros j s0 Hj. destruct (decide (i = j)) as [->|Hn].
    - apply lookup_lt_Some in Hj. rewrite insert_length in Hj. apply lookup_lt_is_Some_2 in Hj as [? Hj]. congruence.
    - rewrite list_lookup_insert_ne in Hj by congruence. congruence. }
  destruct H; cbn [a_sessions upd set_session] in H'; try congruence; try (by destruct (G _ _ H')).
  apply lookup_app_Some in H' as [H'|[Hl H']]; [congruence|]. apply list_lookup_singleton_Some in H' as [_ <-]. done.
Qed.
Lemma start_faithful : all_faithful start.
Proof. by intros ? ?. Qed.
Lemma run_wrote tr st v st' s : run start tr st -> step st v st' -> a_sessions st !! i = Some s ->
  exists s', a_sessions st' !! i = Some s' /\ ws_out s' = ws_out s ++ wrote1 i (ws_mode s) v.
Proof.
  intros Hr Hs Hi. assert (F : all_faithful st) by (eapply run_faithful; [exact Hr|apply start_faithful]).
  destruct (step_wrote _ _ _ _ _ _ _ _ Hs F) as [_ H]. by apply H.
Qed.
(** a client that has asked nothing gets no text *)
Lemma silent_job st v st' s s' : step st v st' -> a_sessions st !! i = Some s -> a_sessions st' !! i = Some s' -> asked i [v] = [] ->
  Forall (fun o => ~ is_reply o) (ws_job s) -> Forall (fun o => ~ is_reply o) (ws_job s').
Proof.
  intros Hst Hs0 Hs Hv Hj.
  assert (G : forall j s1 s2, a_sessions st !! j = Some s2 -> <[j := s1]> (a_sessions st) !! i = Some s' -> (j <> i /\ s' = s) \/ (j = i /\ s' = s1 /\ s2 = s)).
  { intros j s1 s2 H2 H. destruct (decide (j = i)) as [->|Hn].
    - rewrite list_lookup_insert in H by (by eapply lookup_lt_Some). injection H as ->. right. split; [done|]. split; [done|congruence].
    - rewrite list_lookup_insert_ne in H by done. left. split; [done|congruence]. }
  assert (K : forall ord : list eid, Forall (fun o => ~ is_reply o) (map WClear ord)) by (intros ord; apply Forall_forall; intros x Hx; apply elem_of_list_fmap in Hx as (y & -> & _); auto).
  assert (K2 : forall ord : list eid, Forall (fun o => ~ is_reply o) (map WPop ord)) by (intros ord; apply Forall_forall; intros x Hx; apply elem_of_list_fmap in Hx as (y & -> & _); auto).
  cbn in Hv. rewrite app_nil_r in Hv.
  destruct Hst; cbn [a_sessions upd set_session] in Hs;
    try (assert (s' = s) as -> by congruence; done);
    try (match goal with H : a_sessions st !! ?j = Some ?x |- _ => apply (G j _ x H) in Hs end; destruct Hs as [[Hn ->]|(-> & -> & ->)]; [done|]);
    try (rewrite decide_True in Hv by done; discriminate Hv);
    cbn [with_job with_out with_mode with_subs with_held with_chan ws_out ws_job];
    try match goal with H : ws_job _ = _ |- _ => rewrite H in Hj end;
    try done; try (apply Forall_cons in Hj as [Hj1 Hj]; done); try (apply K).
  - apply lookup_app_Some in Hs as [Hs|[Hl Hs]]; [assert (s' = s) as -> by congruence; done|]. apply list_lookup_singleton_Some in Hs as [_ <-]. constructor.
  - apply Forall_cons in Hj as [_ Hj]. apply Forall_app. split; [apply K2|]. constructor; [intros []|exact Hj].
  - by match goal with H : ws_job s = _ |- _ => rewrite H end.
  - by match goal with H : ws_job s = _ |- _ => rewrite H end.
Qed.
Lemma silent tr st s : run start tr st -> a_sessions st !! i = Some s -> asked i tr = [] -> texts (ws_out s) = [] /\ Forall (fun o => ~ is_reply o) (ws_job s).
Proof.
  revert st s. induction tr as [|v tr IH] using rev_ind; intros st s Hr Hs Ha.
  - inversion Hr; subst. done.
  - rewrite asked_snoc in Ha. apply app_eq_nil in Ha as [Ha Hv]. apply run_snoc in Hr as (st0 & Hr & Hst).
    destruct (step_session _ _ _ _ Hst Hs) as [[s0 Hs0]|(-> & -> & Hn0)]; [|split; [done|constructor]].
    destruct (IH _ _ Hr Hs0 Ha) as [Ht Hj]. split; [|by eapply silent_job].
    destruct (run_wrote _ _ _ _ _ Hr Hst Hs0) as (s1 & Hs1 & E). assert (s1 = s) as -> by congruence. rewrite E. unfold texts in *. rewrite flat_map_app, Ht. cbn.
    destruct v as [| | | | |j m|j o r|j b|j b| |]; cbn [wrote1]; try done.
    + destruct m; try done. by destruct (decide (j = i)).
    + destruct o as [| |t| | | |]; try done.
      * destruct (decide (j = i)) as [->|]; [|done]. exfalso. inversion Hst; subst. rewrite Hs0 in *.
        match goal with H1 : Some _ = Some _, H2 : ws_job _ = _ |- _ => injection H1 as ->; rewrite H2 in Hj end. apply Forall_cons in Hj as [Hj _]. by apply Hj.
      * destruct r as [b|]; [|done]. destruct (decide (j = i)); [|done]. destruct (ws_mode s0); cbn; [done|]. by destruct (payload_of b).
    + destruct (decide (j = i)); [|done]. destruct (ws_mode s0); cbn; [done|]. by destruct (payload_of b).
Qed.
(** what the client says *)
Lemma asked_form tr st s : run start tr st -> is_echo parse_eid host local_eid dec_bundle dec_send enc_send ep i tr st -> a_sessions st !! i = Some s ->
  asked i tr `prefix_of` echo_says enc_send ep (ws_out s).
Proof. intros Hr He Hs. eapply (He tr [] st s); [by rewrite app_nil_r|done|constructor|done]. Qed.
Lemma is_echo_prefix tr v st st' : is_echo parse_eid host local_eid dec_bundle dec_send enc_send ep i (tr ++ [v]) st' -> step st v st' ->
  is_echo parse_eid host local_eid dec_bundle dec_send enc_send ep i tr st.
Proof.
  intros He Hs tr1 tr2 st1 s -> H1 H2. eapply He; [by rewrite <- app_assoc|done|]. apply run_app. exists st. split; [done|]. econstructor; [done|constructor].
Qed.
Lemma loop_binary l m : m ∈ echo_loop enc_send l -> exists d, m = MBin d.
Proof.
  induction l as [|o l IH]; cbn; [by intros H%elem_of_nil|]. destruct o as [|b|[] r|]; try done; try (by intros H%elem_of_nil).
  intros [->|H]%elem_of_cons; [eauto|by apply IH].
Qed.
Definition quiet_text (m : wsmsg) : Prop := match m with MText t => chose t = None | _ => True end.
Lemma says_texts l : exists r, echo_says enc_send ep l = MText "/data" :: r /\ Forall quiet_text r.
Proof.
  unfold echo_says. eexists. split; [done|]. destruct l as [|[m1| | |] l]; try done. destruct (starts _ m1); [|done]. constructor.
  - unfold quiet_text. by destruct Hep as [-> | ->].
  - destruct l as [|[m2| | |] l]; try done. destruct (starts _ m2); [|done]. apply Forall_forall. intros m [d ->]%loop_binary. exact I.
Qed.
(** the mode *)
Lemma chosen_asked tr : chosen i tr = fold_left (fun m w => match w with MText t => default m (chose t) | _ => m end) (asked i tr) (MData FJson).
Proof.
  induction tr as [|v tr IH] using rev_ind; [done|]. unfold chosen in *. rewrite fold_left_app, IH, asked_snoc, fold_left_app. cbn [fold_left].
  destruct v as [| | | | |j m| | | | |]; try done. destruct m; cbn; rewrite ?app_nil_r; destruct (decide (j = i)); done.
Qed.
Lemma quiet_texts l m : Forall quiet_text l -> fold_left (fun m w => match w with MText t => default m (chose t) | _ => m end) l m = m.
Proof. revert m. induction 1 as [|w l Hw _ IH]; [done|]. cbn. destruct w; cbn in Hw; rewrite ?Hw; cbn; done. Qed.
Lemma echo_mode tr st s : run start tr st -> is_echo parse_eid host local_eid dec_bundle dec_send enc_send ep i tr st -> a_sessions st !! i = Some s ->
  ws_mode s = match asked i tr with [] => MData FJson | _ => MData FCbor end.
Proof.
  intros Hr He Hs. rewrite (C72_mode_chosen _ _ _ _ _ _ _ _ _ Hr Hs), chosen_asked.
  pose proof (asked_form _ _ _ Hr He Hs) as [k Hk]. destruct (says_texts (ws_out s)) as (r & Er & Q). rewrite Er in Hk.
  destruct (asked i tr) as [|w l]; [done|]. injection Hk as <- ->. cbn [fold_left].
  apply Forall_app in Q as [Q _]. rewrite quiet_texts by done. done.
Qed.
(** the messages with bundles are those for the bundles given *)
Definition fit (x : mode * bundle) : Prop := fst x = MData FCbor \/ (fst x = MData FJson /\ payload_of (snd x) = None).
Lemma texts_nontext_app a b : texts (a ++ b) = texts a ++ texts b /\ nontext (a ++ b) = nontext a ++ nontext b.
Proof. unfold texts, nontext. by rewrite !flat_map_app. Qed.
Lemma given_none tr st : run start tr st -> a_sessions st !! i = None -> given i tr = [].
Proof.
  revert st. induction tr as [|v tr IH] using rev_ind; intros st Hr Hn; [done|]. apply run_snoc in Hr as (st0 & Hr & Hst). rewrite given_snoc.
  destruct (a_sessions st0 !! i) as [s0|] eqn:E.
  { destruct (run_wrote _ _ _ _ _ Hr Hst E) as (s1 & H1 & _). congruence. }
  rewrite (IH _ Hr E). cbn. destruct v as [| | | | | |j o r|j b|j b| |]; try done.
  - destruct o; try done. destruct r as [b|]; [|done]. destruct (decide (j = i)) as [->|]; [|done]. inversion Hst; congruence.
  - destruct (decide (j = i)) as [->|]; [|done]. inversion Hst; congruence.
Qed.
Lemma shown_given tr st s : run start tr st -> is_echo parse_eid host local_eid dec_bundle dec_send enc_send ep i tr st -> a_sessions st !! i = Some s ->
  exists l, map snd l = given i tr /\ nontext (ws_out s) = omap (fun x => render (fst x) (snd x)) l /\
    ((ws_out s = [] \/ exists t r, ws_out s = OText t :: r) -> Forall fit l).
Proof.
  revert st s. induction tr as [|v tr IH] using rev_ind; intros st s Hr He Hs.
  - inversion Hr; subst. done.
  - apply run_snoc in Hr as (st0 & Hr & Hst). rewrite given_snoc.
    destruct (step_session _ _ _ _ Hst Hs) as [[s0 Hs0]|(-> & -> & Hn0)].
    2:{ exists []. rewrite (given_none _ _ Hr Hn0). split; [done|]. split; [done|constructor]. }
    pose proof (is_echo_prefix _ _ _ _ He Hst) as He0.
    destruct (IH _ _ Hr He0 Hs0) as (l & El & Eo & Ef). clear IH.
    destruct (run_wrote _ _ _ _ _ Hr Hst Hs0) as (s1 & Hs1 & E). assert (s1 = s) as -> by congruence.
    pose proof (echo_mode _ _ _ Hr He0 Hs0) as Em.
    assert (Hother : given i [v] = [] -> nontext (wrote1 i (ws_mode s0) v) = [] ->
      exists l, map snd l = given i tr ++ given i [v] /\ nontext (ws_out s) = omap (fun x => render (fst x) (snd x)) l /\
      ((ws_out s = [] \/ exists t r, ws_out s = OText t :: r) -> Forall fit l)).
    { intros G1 G2. exists l. rewrite G1, app_nil_r, E. rewrite (proj2 (texts_nontext_app _ _)), G2, app_nil_r. split; [done|]. split; [done|].
      intros H. apply Ef. destruct (ws_out s0) as [|o r]; [by left|]. right. destruct H as [H|(t & r' & H)]; [done|]. injection H as -> _. eauto. }
    assert (Hgiv : forall b, given i [v] = [b] -> wrote1 i (ws_mode s0) v = option_list (render (ws_mode s0) b) ->
      exists l, map snd l = given i tr ++ given i [v] /\ nontext (ws_out s) = omap (fun x => render (fst x) (snd x)) l /\
      ((ws_out s = [] \/ exists t r, ws_out s = OText t :: r) -> Forall fit l)).
    { intros b G1 G2. exists (l ++ [(ws_mode s0, b)]). rewrite map_app, El, G1. split; [done|].
      rewrite E, G2. rewrite (proj2 (texts_nontext_app _ _)), Eo. split.
      - rewrite omap_app. f_equal. cbn. rewrite Em. destruct (asked i tr); cbn; destruct (payload_of b); done.
      - intros H. apply Forall_app. split.
        + apply Ef. destruct (ws_out s0) as [|o r]; [by left|]. right. destruct H as [H|(t & r' & H)]; [done|]. injection H as -> _. eauto.
        + constructor; [|constructor]. unfold fit. cbn [fst snd]. rewrite Em. destruct (asked i tr) as [|w a] eqn:Ea; [|by left]. right. split; [done|].
          destruct (silent _ _ _ Hr Hs0 Ea) as [Ht _]. rewrite Em in H. cbn [render] in H. destruct (payload_of b) as [data|]; [|done]. exfalso.
          destruct (ws_out s0) as [|o r]; cbn in H; [destruct H as [H|(t & r' & H)]; discriminate H|].
          destruct H as [H|(t & r' & H)]; [done|]. injection H as -> _. discriminate Ht. }
    destruct v as [| | | | |j m|j o r|j b|j b| |]; try (by apply Hother).
    + apply Hother; [done|]. destruct m; try done. cbn. by destruct (decide (j = i)).
    + destruct o; try (by apply Hother).
      * apply Hother; [done|]. cbn. by destruct (decide (j = i)).
      * destruct r as [b|]; [|by apply Hother]. destruct (decide (j = i)) as [Hj|Hj].
        -- apply (Hgiv b); cbn; by rewrite decide_True.
        -- apply Hother; cbn; by rewrite decide_False.
    + destruct (decide (j = i)) as [Hj|Hj].
      * apply (Hgiv b); cbn; by rewrite decide_True.
      * apply Hother; cbn; by rewrite decide_False.
Qed.
(** the answer to a bundle, as a message *)
Definition shown_data (b : bundle) (data : list N) : recv_data := RecvData (bid b) (eid_string (b_src b)) (eid_string (b_dst b)) (b_time b) (b_seq b) (b_life b) data.
Definition answer_msg (b : bundle) : list N := enc_send (echo_response (shown_data b (default [] (payload_of b)))).
Lemma fit_render l : Forall fit l -> omap (fun x => render (fst x) (snd x)) l = map (fun b => OData FCbor (shown_data b (default [] (payload_of b)))) (bearing (map snd l)).
Proof.
  induction 1 as [|[m b] l H _ IH]; [done|]. cbn [omap list_omap fst snd map]. unfold bearing in *. cbn [fst snd] in H. destruct H as [H|[H Hp]]; cbn in H; subst m; cbn [render fst snd].
  - rewrite filter_cons. cbn [snd]. destruct (payload_of b) as [data|] eqn:Ep.
    + rewrite decide_True by (try rewrite Ep; eauto). cbn [map]. rewrite Ep. cbn [default]. by rewrite IH.
    + rewrite decide_False by (try rewrite Ep; by intros [? ?]). done.
  - cbn in Hp. rewrite filter_cons, Hp, decide_False; [done|]. by intros [? ?].
Qed.
Lemma loop_says l bs : nontext l = map (fun b => OData FCbor (shown_data b (default [] (payload_of b)))) bs -> echo_loop enc_send l = map (fun b => MBin (answer_msg b)) bs.
Proof.
  revert bs. induction l as [|o l IH]; intros bs H; cbn in H.
  - by destruct bs.
  - destruct o as [t|b|f r|]; cbn [echo_loop]; [by apply IH| | |by apply IH].
    + destruct bs; discriminate H.
    + destruct bs as [|b bs]; [discriminate H|]. injection H as -> -> H. cbn [map]. by rewrite (IH bs H).
Qed.
Lemma binaries_map bs : binaries (map (fun b => MBin (answer_msg b)) bs) = map answer_msg bs.
Proof. induction bs as [|b bs IH]; [done|]. cbn. by rewrite <- IH. Qed.
Lemma binaries_prefix a b : a `prefix_of` b -> binaries a `prefix_of` binaries b.
Proof. intros [k ->]. unfold binaries. rewrite flat_map_app. by eexists. Qed.
Lemma starts_app p x : starts p (p +:+ x) = true.
Proof. unfold starts. rewrite (proj2 (strip_prefix_some p (p +:+ x) x)); done. Qed.
Lemma starts_inv p s : starts p s = true -> exists x, s = p +:+ x.
Proof. unfold starts. destruct (strip_prefix p s) as [x|] eqn:E; [|done]. intros _. apply strip_prefix_some in E. eauto. Qed.
Lemma says_binaries tr st s : run start tr st -> is_echo parse_eid host local_eid dec_bundle dec_send enc_send ep i tr st -> a_sessions st !! i = Some s ->
  binaries (echo_says enc_send ep (ws_out s)) = map answer_msg (bearing (given i tr)) \/ (~ greeted s /\ binaries (echo_says enc_send ep (ws_out s)) = []).
Proof.
  intros Hr He Hs. destruct (shown_given _ _ _ Hr He Hs) as (l & El & Eo & Ef). unfold echo_says.
  assert (N : forall t m, starts t m = false -> ~ exists x, m = t +:+ x). { intros t m E [x ->]. by rewrite starts_app in E. }
  destruct (ws_out s) as [|[m1|b|f r|] out] eqn:E.
  - right. split; [|done]. intros (?&?&?&H). rewrite E in H. discriminate H.
  - destruct (starts "200 tx mode: data" m1) eqn:E1.
    2:{ right. split; [|done]. intros (x&?&?&H). rewrite E in H. injection H as -> _. apply (N _ _ E1). eauto. }
    destruct out as [|[m2|b|f r|] out].
    + right. split; [|done]. intros (?&?&?&H). rewrite E in H. discriminate H.
    + destruct (starts "200 subscribed" m2) eqn:E2.
      2:{ right. split; [|done]. intros (?&x&?&H). rewrite E in H. injection H as _ -> _. apply (N _ _ E2). eauto. }
      left. cbn [binaries flat_map app]. fold (binaries (echo_loop enc_send out)). rewrite (loop_says _ (bearing (given i tr))).
      * apply binaries_map.
      * rewrite <- El. rewrite <- fit_render by (apply Ef; right; eauto). exact Eo.
    + right. split; [|done]. intros (?&?&?&H). rewrite E in H. discriminate H.
    + right. split; [|done]. intros (?&?&?&H). rewrite E in H. discriminate H.
    + right. split; [|done]. intros (?&?&?&H). rewrite E in H. discriminate H.
  - right. split; [|done]. intros (?&?&?&H). rewrite E in H. discriminate H.
  - right. split; [|done]. intros (?&?&?&H). rewrite E in H. discriminate H.
  - right. split; [|done]. intros (?&?&?&H). rewrite E in H. discriminate H.
Qed.
End proofs.

(** The service answers at dtn://node/echo, or at ipn:node.7. *)
Theorem C118_endpoint : forall host,
  (String.prefix "dtn:" (eid_string host) = true -> echo_endpoint host = "echo") /\
  (String.prefix "ipn:" (eid_string host) = true -> echo_endpoint host = "7").
Proof. intros [|n s|n s]; split; done. Qed.
Print Assumptions C118_endpoint.
Example C118_endpoint_case : eid_string (Dtn "n1" "") = "dtn://n1/" /\ eid_string (Ipn 5 0) = "ipn:5.0".
Proof. by vm_compute. Qed.

(** The messages dtnecho2 sends to the node after its greeting: one for each bundle
    with a payload written to it, in order and none twice; when it has dealt with
    all it received, one for every such bundle. *)
Theorem C118_one_for_each : forall parse_eid host local_eid dec_bundle dec_send enc_send ep i tr st s,
  ep = "echo" \/ ep = "7" ->
  run parse_eid host local_eid dec_bundle dec_send start tr st ->
  is_echo parse_eid host local_eid dec_bundle dec_send enc_send ep i tr st -> a_sessions st !! i = Some s ->
  exists n, (n <= length (bearing (given i tr)))%nat /\ length (binaries (asked i tr)) = n /\
    (greeted s -> asked i tr = echo_says enc_send ep (ws_out s) -> n = length (bearing (given i tr))).
Proof.
  intros pe h le db ds enc ep i tr st s Hep Hr He Hs. exists (length (binaries (asked i tr))).
  pose proof (binaries_prefix _ _ (asked_form pe h le db ds enc ep i _ _ _ Hr He Hs)) as Hp.
  destruct (says_binaries pe h le db ds enc ep i Hep _ _ _ Hr He Hs) as [E|[Hg E]]; rewrite E in Hp.
  - apply prefix_length in Hp. rewrite map_length in Hp. split; [done|]. split; [done|]. intros _ ->. rewrite E. by rewrite map_length.
  - apply prefix_length in Hp. cbn in Hp. split; [lia|]. split; [done|]. done.
Qed.
Print Assumptions C118_one_for_each.
(** the node reads what dtnecho2 sends for the bundle, and reads the addresses of the
    bundle as they are written *)
Definition readable (parse_eid : string -> option eid) (dec_send : fmt -> list N -> option send_data) (enc_send : send_data -> list N) (b : bundle) : Prop :=
  (forall data, payload_of b = Some data ->
     let r := SendData (eid_string (b_dst b)) (eid_string (b_src b)) false 86400000 data in dec_send FCbor (enc_send r) = Some r) /\
  parse_eid (eid_string (b_src b)) = Some (b_src b) /\ parse_eid (eid_string (b_dst b)) = Some (b_dst b).
(** With each of them the node is given one bundle, the answer to the next bundle
    not answered yet: for the n-th message this is the n-th bundle. *)
Theorem C118_answer : forall parse_eid host local_eid dec_bundle dec_send enc_send ep i tr st d st',
  ep = "echo" \/ ep = "7" -> (forall b, b ∈ bearing (given i tr) -> readable parse_eid dec_send enc_send b) ->
  run parse_eid host local_eid dec_bundle dec_send start tr st ->
  step parse_eid host local_eid dec_bundle dec_send st (EMsg i (MBin d)) st' ->
  is_echo parse_eid host local_eid dec_bundle dec_send enc_send ep i (tr ++ [EMsg i (MBin d)]) st' ->
  exists b b', bearing (given i tr) !! length (binaries (asked i tr)) = Some b /\ a_sent st' = a_sent st ++ [b'] /\ answers b b'.
Proof.
  intros pe h le db ds enc ep i tr st d st' Hep Hread Hr Hst He.
  assert (Hr' : run pe h le db ds start (tr ++ [EMsg i (MBin d)]) st') by (apply run_app; exists st; split; [done|]; econstructor; [done|constructor]).
  pose proof (C71_websocket_send _ _ _ _ _ _ _ _ Hst) as (s & Hs & Hsent).
  destruct (run_wrote pe h le db ds i _ _ _ _ _ Hr Hst Hs) as (s' & Hs' & Eo).
  pose proof (binaries_prefix _ _ (asked_form pe h le db ds enc ep i _ _ _ Hr' He Hs')) as Hp.
  assert (Eb : binaries (asked i (tr ++ [EMsg i (MBin d)])) = binaries (asked i tr) ++ [d]).
  { rewrite asked_snoc. unfold binaries. rewrite flat_map_app. f_equal. cbn. rewrite decide_True by done. done. }
  assert (Eg : given i (tr ++ [EMsg i (MBin d)]) = given i tr) by (rewrite given_snoc; cbn; by rewrite app_nil_r).
  rewrite Eb in Hp. destruct (says_binaries pe h le db ds enc ep i Hep _ _ _ Hr' He Hs') as [E|[_ E]]; rewrite E in Hp; [|destruct Hp as [k Hk]; by destruct (binaries (asked i tr))].
  rewrite Eg in Hp. destruct Hp as [k Hk].
  assert (Hl : map (answer_msg enc) (bearing (given i tr)) !! length (binaries (asked i tr)) = Some d).
  { rewrite Hk, <- app_assoc. rewrite lookup_app_r by lia. by rewrite Nat.sub_diag. }
  rewrite list_lookup_fmap in Hl. destruct (bearing (given i tr) !! _) as [b|] eqn:Hb; [|done]. injection Hl as Hd.
  pose proof (is_echo_prefix pe h le db ds enc ep i _ _ _ _ He Hst) as He0.
  assert (Hm : ws_mode s = MData FCbor).
  { rewrite (echo_mode pe h le db ds enc ep i Hep _ _ _ Hr He0 Hs).
    destruct (asked i tr) as [|w a] eqn:Ea; [|done]. exfalso.
    pose proof (asked_form pe h le db ds enc ep i _ _ _ Hr' He Hs') as [k' Hk']. rewrite asked_snoc, Ea in Hk'. cbn in Hk'. rewrite decide_True in Hk' by done. discriminate Hk'. }
  assert (Hpay : is_Some (payload_of b)).
  { apply elem_of_list_lookup_2 in Hb. unfold bearing in Hb. by apply elem_of_list_filter in Hb as [Hb _]. }
  destruct Hpay as [data Hpay]. destruct (Hread b) as (Henc & Es & Ed); [by eapply elem_of_list_lookup_2|].
  rewrite Hm in Hsent. rewrite <- Hd in Hsent. unfold answer_msg in Hsent. rewrite Hpay in Hsent. unfold echo_response, shown_data in Hsent. cbn [from_option id default rd_src rd_dst rd_data] in Hsent. rewrite (Henc data Hpay : _ = _) in Hsent. cbn [echo_response shown_data sd_src sd_dst rd_src rd_dst] in Hsent.
  rewrite Es, Ed in Hsent. rewrite decide_True in Hsent by eauto. destruct Hsent as (b' & Hb' & Ha). exists b, b'. split; [done|]. split; [done|].
  destruct Ha as (A1 & A2 & A3 & A4 & A5 & A6 & A7). cbn in A1, A2, A4, A5, A7. rewrite Ed in A1. rewrite Es in A2. injection A1 as A1. injection A2 as A2.
  split_and!; try done. by rewrite Hpay.
Qed.
Print Assumptions C118_answer.

(** *** A daemon with an echo service for the cases *)
Definition so_far1 (i : nat) (x : mode * list wsout) (v : ev) : mode * list wsout :=
  (match v with EMsg j (MText t) => if decide (j = i) then default (fst x) (chose t) else fst x | _ => fst x end, snd x ++ wrote1 i (fst x) v).
Definition said_so_far (i : nat) (tr : list ev) : mode * list wsout := fold_left (so_far1 i) tr (MData FJson, []).
Section checks.
Context (parse_eid : string -> option eid) (host : eid) (local_eid : string -> option eid).
Context (dec_bundle : list N -> option bundle) (dec_send : fmt -> list N -> option send_data).
Notation run := (run parse_eid host local_eid dec_bundle dec_send).
Lemma so_far_mode i tr : fst (said_so_far i tr) = chosen i tr.
Proof. induction tr as [|v tr IH] using rev_ind; [done|]. unfold said_so_far, chosen in *. rewrite !fold_left_app. cbn [fold_left so_far1 fst]. rewrite IH. done. Qed.
Lemma so_far_out i tr st : run start tr st -> match a_sessions st !! i with Some s => ws_out s = snd (said_so_far i tr) | None => snd (said_so_far i tr) = [] end.
Proof.
  revert st. induction tr as [|v tr IH] using rev_ind; intros st Hr; [by inversion Hr; subst|].
  apply run_snoc in Hr as (st0 & Hr & Hst). specialize (IH _ Hr).
  assert (snd (said_so_far i (tr ++ [v])) = snd (said_so_far i tr) ++ wrote1 i (chosen i tr) v) as ->.
  { unfold said_so_far at 1. rewrite fold_left_app. cbn [fold_left so_far1 snd]. fold (said_so_far i tr). by rewrite so_far_mode. } destruct (a_sessions st0 !! i) as [s0|] eqn:E0.
  - destruct (run_wrote _ _ _ _ _ _ _ _ _ _ _ Hr Hst E0) as (s1 & -> & E). rewrite E, IH. by rewrite <- (C72_mode_chosen _ _ _ _ _ _ _ _ _ Hr E0).
  - rewrite IH. assert (wrote1 i (chosen i tr) v = []) as ->.
    { destruct v as [| | | | |j m|j o r|j b|j b| |]; try done.
      - destruct m; try done. cbn. destruct (decide (j = i)) as [->|]; [|done]. inversion Hst; congruence.
      - cbn. destruct o; try done; [|destruct r; [|done]]; (destruct (decide (j = i)) as [->|]; [|done]); inversion Hst; congruence.
      - cbn. destruct (decide (j = i)) as [->|]; [|done]. inversion Hst; congruence. }
    destruct (a_sessions st !! i) as [s1|] eqn:E1; [|done]. destruct (step_session _ _ _ _ _ _ _ _ _ _ Hst E1) as [[s H]|(-> & _ & _)]; [congruence|done].
Qed.
Lemma is_echo_check enc_send ep i tr st :
  Forall (fun n => asked i (take n tr) `prefix_of` echo_says enc_send ep (snd (said_so_far i (take n tr)))) (seq 0 (S (length tr))) ->
  is_echo parse_eid host local_eid dec_bundle dec_send enc_send ep i tr st.
Proof.
  intros H tr1 tr2 st1 s -> H1 H2 Hs. pose proof (so_far_out i _ _ H1) as E. rewrite Hs in E. rewrite E.
  rewrite Forall_forall in H. specialize (H (length tr1)). rewrite take_app in H. apply H. apply elem_of_list_In, in_seq. rewrite app_length. lia.
Qed.
End checks.
Definition E7 : eid := Dtn "n" "echo".
Definition pe8 (s : string) : option eid :=
  if bool_decide (s = "dtn://n/echo") then Some E7 else if bool_decide (s = "dtn://m/x") then Some (Dtn "m" "x") else None.
Definition le8 (s : string) : option eid := if bool_decide (s = "echo") then Some E7 else None.
Definition enc8 (r : send_data) : list N := (if bool_decide (sd_dst r = "dtn://n/echo") then 1 else 0) :: sd_data r.
Definition ds8 (f : fmt) (d : list N) : option send_data :=
  match d with
  | 1 :: d => Some (SendData "dtn://n/echo" "dtn://n/echo" false 86400000 d)
  | 0 :: d => Some (SendData "dtn://n/echo" "dtn://m/x" false 86400000 d)
  | _ => None
  end.
Notation run8 := (run pe8 (Dtn "n" "") le8 db0 ds8).
(** a bundle for the echo service from [src] with content [k] *)
Definition P8 (src : eid) (t k : N) : bundle :=
  Bundle (BFlags false false false false false false false) E7 src src t 0 86400000 0 0 [Block PAYLOAD_BLOCK 1 (KFlags false false false false) (CData [k])].
Definition greet8 : list ev :=
  [ERegister E7; EOpen; EMsg 0 (MText "/data"); EWork 0 (WReply "200 tx mode: data") None; EMsg 0 (MText "/subscribe echo");
   EWork 0 (WSet E7) None; EWork 0 (WIns E7) None; EWork 0 (WReply "200 subscribed") None].
Lemma greet8_run : run8 start greet8 (AppState [Agent E7 [] (Some 0%nat)]
  [Session true true [] None (MData FCbor) (Some [E7]) [] [] [OText "200 tx mode: data"; OText "200 subscribed"]] []).
Proof. unfold greet8, start. go s_register. go s_open. go s_text. go s_reply. go s_text. go s_set. go s_ins. go s_reply. fin. Qed.

Definition ans8 (t k : N) : bundle :=
  Bundle (BFlags false false false false false false false) (Dtn "m" "x") E7 E7 t 0 86400000 0 0 [Block PAYLOAD_BLOCK 1 (KFlags false false false false) (CData [k])].
Definition two8 : list ev :=
  greet8 ++ [EDeliver (P8 (Dtn "m" "x") 1 7) (Passed 0); EDeliver (P8 (Dtn "m" "x") 2 8) (Passed 0); ETake 0 (P8 (Dtn "m" "x") 1 7);
             EHand 0 (P8 (Dtn "m" "x") 1 7); EMsg 0 (MBin [0; 7])].
Ltac check_echo := apply is_echo_check; cbn [app seq length greet8 take];
  repeat (apply Forall_cons; split; [vm_compute; first [apply prefix_nil | eexists; reflexivity]|]); apply Forall_nil; done.
Lemma run8_app tr1 tr2 st1 st2 : run8 start tr1 st1 -> run8 st1 tr2 st2 -> run8 start (tr1 ++ tr2) st2.
Proof. intros H1 H2. apply run_app. eauto. Qed.
(** one of two bundles from dtn://m/x is answered, to dtn://m/x with content 7 *)
Example C118_case : exists st s, run8 start two8 st /\ a_sessions st !! 0%nat = Some s /\ is_echo pe8 (Dtn "n" "") le8 db0 ds8 enc8 "echo" 0 two8 st /\ greeted s /\
  bearing (given 0 two8) = [P8 (Dtn "m" "x") 1 7] /\ readable pe8 ds8 enc8 (P8 (Dtn "m" "x") 1 7) /\ binaries (asked 0 two8) = [[0; 7]] /\
  asked 0 two8 = echo_says enc8 "echo" (ws_out s) /\ a_sent st = [ans8 9 7] /\ answers (P8 (Dtn "m" "x") 1 7) (ans8 9 7).
Proof.
  eexists _, _. split.
  { unfold two8. eapply run8_app; [exact greet8_run|]. go s_pass. go s_pass. go s_take. go s_hand.
    eapply run_step; [eapply (s_bin _ _ _ _ _ _ _ _ _ (9, 0)); reflexivity|]; cbn. fin. }
  split; [reflexivity|]. split; [unfold two8; check_echo|]. split; [eexists "", "", _; reflexivity|]. split; [reflexivity|].
  split; [|split; [reflexivity|]; split; [reflexivity|]; split; [reflexivity|by repeat split]].
  split; [|by split]. intros data Hd. vm_compute in Hd. injection Hd as <-. reflexivity.
Qed.

(** ** C119 *)
(** accepted for an application: queued or passed to a client *)
Definition accepted (tr : list ev) : list bundle :=
  flat_map (fun v => match v with EDeliver b Queued | EDeliver b (Passed _) => [b] | _ => [] end) tr.
(** given to an application: by a poll or written to any client *)
Definition handed (tr : list ev) : list bundle :=
  flat_map (fun v => match v with EPoll _ (Some b) | EHand _ b | EWork _ WFlush (Some b) => [b] | _ => [] end) tr.
(** However applications register, subscribe, poll, connect and leave, and in
    whatever order the node works: no bundle is given to them more often than it was
    accepted for them. *)
Theorem C119_no_duplicates : forall parse_eid host local_eid dec_bundle dec_send tr st,
  run parse_eid host local_eid dec_bundle dec_send start tr st -> handed tr ⊆+ accepted tr.
Proof.
  intros pe h le db ds tr st Hr. apply cnt_submseteq. intros x. pose proof (run_count pe h le db ds x _ _ _ Hr) as H.
  unfold handed, accepted. change (inside x start) with 0%nat in H. unfold out1, accepted1 in H. lia.
Qed.
Print Assumptions C119_no_duplicates.
(** in the run of C45_case two bundles are accepted and both are given out *)
Example C119_case : handed (fill1 ++ EMsg 0 (MText "/subscribe dtn://n/a") :: sub1) = [B 1; B 2] /\ accepted (fill1 ++ EMsg 0 (MText "/subscribe dtn://n/a") :: sub1) = [B 1; B 2] /\
  accepted fill2 = [B 1; B 2] /\ handed sub2 = [B 1].
Proof. split; [reflexivity|]. split; [reflexivity|]. by split. Qed.

(** ** C120 *)
(** The echo service does not multiply traffic: when what is delivered at the node
    are bundles from elsewhere and those submitted here, each at most once, dtnecho2
    sends at most one message for each bundle from elsewhere. *)
Definition C120_full : Prop := forall parse_eid host local_eid dec_bundle dec_send enc_send ep i tr st ext,
  ep = "echo" \/ ep = "7" ->
  run parse_eid host local_eid dec_bundle dec_send start tr st ->
  is_echo parse_eid host local_eid dec_bundle dec_send enc_send ep i tr st ->
  accepted tr ⊆+ ext ++ a_sent st -> (length (binaries (asked i tr)) <= length ext)%nat.
(** It does when no bundle written to it was submitted at this node. *)
Lemma given_handed i tr : given i tr ⊆+ handed tr.
Proof.
  induction tr as [|v tr IH]; [done|]. unfold given, handed in *. cbn [flat_map]. apply submseteq_app; [|done].
  destruct v as [| | | | | |j o r|j b|j b| |]; try apply submseteq_nil_l.
  - destruct o; try apply submseteq_nil_l. destruct r as [b|]; [|apply submseteq_nil_l]. destruct (decide (j = i)); [done|apply submseteq_nil_l].
  - destruct (decide (j = i)); [done|apply submseteq_nil_l].
Qed.
Lemma asked_none parse_eid host local_eid dec_bundle dec_send i tr st : run parse_eid host local_eid dec_bundle dec_send start tr st -> a_sessions st !! i = None -> asked i tr = [].
Proof.
  revert st. induction tr as [|v tr IH] using rev_ind; intros st Hr Hn; [done|]. apply run_snoc in Hr as (st0 & Hr & Hst). rewrite asked_snoc.
  destruct (a_sessions st0 !! i) as [s0|] eqn:E.
  { destruct (run_wrote _ _ _ _ _ _ _ _ _ _ _ Hr Hst E) as (s1 & H1 & _). congruence. }
  rewrite (IH _ Hr E). cbn. destruct v as [| | | | |j m|j o r|j b|j b| |]; try done.
  destruct m; try done; cbn; (destruct (decide (j = i)) as [->|]; [|done]); inversion Hst; congruence.
Qed.
Theorem C120_echo_partial : forall parse_eid host local_eid dec_bundle dec_send enc_send ep i tr st ext,
  ep = "echo" \/ ep = "7" ->
  run parse_eid host local_eid dec_bundle dec_send start tr st ->
  is_echo parse_eid host local_eid dec_bundle dec_send enc_send ep i tr st ->
  accepted tr ⊆+ ext ++ a_sent st -> (forall b, b ∈ given i tr -> b ∉ a_sent st) ->
  (length (binaries (asked i tr)) <= length ext)%nat.
Proof.
  intros pe h le db ds enc ep i tr st ext Hep Hr He Ha Hn.
  destruct (a_sessions st !! i) as [s|] eqn:Hs; [|rewrite (asked_none _ _ _ _ _ _ _ _ Hr Hs); cbn; lia].
  destruct (C118_one_for_each _ _ _ _ _ _ _ _ _ _ _ Hep Hr He Hs) as (n & Hle & <- & _).
  assert (G : given i tr ⊆+ ext).
  { apply cnt_submseteq. intros x. destruct (decide (x ∈ given i tr)) as [Hx|Hx]; [|rewrite (cnt_not_in x (given i tr)) by done; lia].
    pose proof (submseteq_cnt _ _ x (given_handed i tr)). pose proof (submseteq_cnt _ _ x (C119_no_duplicates _ _ _ _ _ _ _ Hr)).
    pose proof (submseteq_cnt _ _ x Ha) as H1. rewrite cnt_app, (cnt_not_in x (a_sent st)) in H1 by (by apply Hn). lia. }
  apply submseteq_length in G. unfold bearing in Hle. pose proof (filter_length (fun b => is_Some (payload_of b)) (given i tr)). lia.
Qed.
Print Assumptions C120_echo_partial.
(** A bundle that claims to come from the echo endpoint itself is answered to the
    echo endpoint, and that answer too: with one bundle from elsewhere, two messages
    (and so on). *)
Definition rep8 (t : N) : string := "200 Sent bundle " +:+ bid (P8 E7 t 7) +:+ " with " +:+ pretty (N.of_nat (length [7])) +:+ " bytes".
Arguments rep8 : simpl never.
Lemma bin8 s t : ws_mode s = MData FCbor -> on_binary pe8 db0 ds8 (t, 0) s [1; 7] = (with_job s [WReply (rep8 t)], Some (P8 E7 t 7)).
Proof. intros H. unfold on_binary. rewrite H. reflexivity. Qed.
Definition storm8 : list ev :=
  greet8 ++ [EDeliver (P8 E7 1 7) (Passed 0); ETake 0 (P8 E7 1 7); EHand 0 (P8 E7 1 7); EMsg 0 (MBin [1; 7]);
             EWork 0 (WReply (rep8 2)) None;
             EDeliver (P8 E7 2 7) (Passed 0); ETake 0 (P8 E7 2 7); EHand 0 (P8 E7 2 7); EMsg 0 (MBin [1; 7])].
Lemma storm8_run : exists st, run8 start storm8 st /\ a_sent st = [P8 E7 2 7; P8 E7 3 7].
Proof.
  eexists. split.
  { unfold storm8. eapply run8_app; [exact greet8_run|]. go s_pass. go s_take. go s_hand.
    eapply run_step; [eapply (s_bin _ _ _ _ _ _ _ _ _ (2, 0)); [reflexivity|reflexivity|reflexivity|apply bin8; reflexivity]|]; cbn.
    eapply run_step; [eapply s_reply; reflexivity|]; cbn. go s_pass. go s_take. go s_hand.
    eapply run_step; [eapply (s_bin _ _ _ _ _ _ _ _ _ (3, 0)); [reflexivity|reflexivity|reflexivity|apply bin8; reflexivity]|]; cbn. fin. }
  reflexivity.
Qed.
Theorem C120_full_refuted : ~ C120_full.
Proof.
  intros H. destruct storm8_run as (st & Hr & Hs).
  assert (L : (length (binaries (asked 0 storm8)) <= length [P8 E7 1 7])%nat).
  { apply (H pe8 (Dtn "n" "") le8 db0 ds8 enc8 "echo" 0%nat storm8 st [P8 E7 1 7]); [by left|exact Hr| |].
    - unfold storm8. check_echo.
    - rewrite Hs. change (accepted storm8) with [P8 E7 1 7; P8 E7 2 7]. cbn [app]. apply submseteq_skip, submseteq_skip, submseteq_nil_l. }
  vm_compute in L. lia.
Qed.
Print Assumptions C120_full_refuted.
Example C120_case : exists st, run8 start two8 st /\ is_echo pe8 (Dtn "n" "") le8 db0 ds8 enc8 "echo" 0 two8 st /\
  accepted two8 ⊆+ [P8 (Dtn "m" "x") 1 7; P8 (Dtn "m" "x") 2 8] ++ a_sent st /\ (forall b, b ∈ given 0 two8 -> b ∉ a_sent st).
Proof.
  destruct C118_case as (st & s & Hr & _ & He & _ & _ & _ & _ & _ & Ha & _). exists st. split; [done|]. split; [done|]. rewrite Ha. split.
  - change (accepted two8) with [P8 (Dtn "m" "x") 1 7; P8 (Dtn "m" "x") 2 8]. cbn [app]. apply submseteq_skip, submseteq_skip, submseteq_nil_l.
  - change (given 0 two8) with [P8 (Dtn "m" "x") 1 7]. intros b ->%elem_of_list_singleton H%elem_of_list_singleton. discriminate H.
Qed.
