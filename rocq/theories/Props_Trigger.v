(** Properties of dtntrigger: C109, C110 *)
From stdpp Require Import prelude strings pretty gmap.
From Coq Require Import NArith Lia ZifyBool ZifyN ZifyNat.
From Verif Require Import Core Routing Apps AppsProofs AppsOrder Props_Apps Httpd Tools TriggerProofs.
Open Scope N_scope.

(** what client [i] asks for, in order *)
Definition asked (i : nat) (tr : list ev) : list wsmsg :=
  flat_map (fun v => match v with
                     | EMsg _ MPong => []
                     | EMsg j m => if decide (j = i) then [m] else []
                     | _ => [] end) tr.
(** the bundles written to client [i], in order *)
Definition given (i : nat) (tr : list ev) : list bundle :=
  flat_map (fun v => match v with
                     | EHand j b | EWork j WFlush (Some b) => if decide (j = i) then [b] else []
                     | _ => [] end) tr.
(** the commands due: one for each bundle that is no administrative record, with its
    source and its content *)
Definition due (l : list bundle) : list (string * list N) :=
  flat_map (fun b => if bf_admin (b_flags b) then [] else match payload_of b with Some data => [(eid_string (b_src b), data)] | None => [] end) l.
(** the argument is a name or an address without blanks around it *)
Definition tidy_arg (arg : string) : Prop := trim ("/subscribe " +:+ arg) = "/subscribe " +:+ arg.

Lemma asked_said i tr : asked i tr = flat_map (said1 i) tr.
Proof.
  unfold asked. apply flat_map_ext. intros v. unfold said1. destruct v as [| | | | |j []| | | | |]; try done. by case_decide.
Qed.
Lemma given_wrote i tr : given i tr = flat_map (wrote_b i) tr.
Proof. done. Qed.
Lemma loop_due verbose l : verbose = false \/ (forall b, b ∈ l -> payload_of b <> None) -> trigger_loop verbose (map OBundle l) = due l.
Proof.
  intros H. induction l as [|b l IH]; [done|]. cbn [map trigger_loop due flat_map]. fold (due l). rewrite <- IH by (destruct H as [H|H]; [by left|right; set_solver]).
  destruct (bf_admin (b_flags b)); [done|]. destruct (payload_of b) as [data|] eqn:E; [done|].
  destruct H as [-> |H]; [done|]. destruct (H b); [by left|done].
Qed.
(** the messages to a client that says what dtntrigger says *)
Lemma trigger_out pe h le db ds tr st i s arg verbose : tidy_arg arg -> run pe h le db ds start tr st ->
  (exists rest, asked i tr ++ rest = trigger_says arg) -> a_sessions st !! i = Some s ->
  (exists l, trigger verbose (ws_out s) = trigger_loop verbose (map OBundle l) /\ given i tr = l).
Proof.
  intros Ht Hr [rest Hp] Hs. rewrite asked_said in Hp.
  pose proof (run_phase pe h le db ds arg i tr st Ht Hr (ex_intro _ rest Hp)) as P. rewrite Hs in P. rewrite given_wrote.
  remember (flat_map (said1 i) tr) as m eqn:Em. remember (flat_map (wrote_b i) tr) as w eqn:Ew. exists w. split; [|done]. clear Em Ew.
  destruct P as [Q Hj Ho|Q Hm Hjo|r Q Hr1 Hr2 Hjo|e j tl M He Hh Ho Hj Hsf Htl|e w M He Ho Hjob Hw|e M He Hh Hop Ho Hjob].
  - by rewrite Ho.
  - destruct Hjo as [[_ ->]|[_ [-> |[-> _]]]]; done.
  - destruct Hjo as [[_ ->]|[_ [-> | ->]]]; try done. unfold trigger. cbn [read_text T1]. assert (E : starts "200 subscribed" r = false); [|by rewrite E, andb_false_r].
    destruct (starts "200 subscribed" r) eqn:E; [|done]. exfalso. unfold starts in E.
    destruct (strip_prefix "200 subscribed" r) as [x|] eqn:Ex; [|done].
    assert (G : forall p s y, strip_prefix p s = Some y -> s = p +:+ y).
    { clear. induction p as [|c p IH]; intros s y; cbn; [by intros [= ->]|]. destruct s as [|c' s]; [done|]. case_bool_decide; [|done].
      subst. intros H. change (String c' s = String c' (p +:+ y)). by rewrite (IH _ _ H). }
    apply G in Ex. by apply (Hr2 x).
  - by rewrite Ho.
  - by rewrite Ho.
  - by rewrite Ho.
Qed.

(** ** C109 *)
(** The command is run for each bundle that was written to dtntrigger, once and in
    order, with its source and its content. *)
Definition C109_full : Prop := forall parse_eid host local_eid dec_bundle dec_send tr st i s arg verbose,
  tidy_arg arg -> run parse_eid host local_eid dec_bundle dec_send start tr st ->
  (exists rest, asked i tr ++ rest = trigger_says arg) -> a_sessions st !! i = Some s ->
  trigger verbose (ws_out s) = due (given i tr).
(** Full without the option for verbose output, or if all bundles have a payload.
    Missing: with the option, a bundle without payload ends the tool. *)
Theorem C109_trigger_partial : forall parse_eid host local_eid dec_bundle dec_send tr st i s arg verbose,
  tidy_arg arg -> run parse_eid host local_eid dec_bundle dec_send start tr st ->
  (exists rest, asked i tr ++ rest = trigger_says arg) -> a_sessions st !! i = Some s ->
  verbose = false \/ (forall b, b ∈ given i tr -> payload_of b <> None) ->
  trigger verbose (ws_out s) = due (given i tr).
Proof.
  intros pe h le db ds tr st i s arg verbose Ht Hr Hp Hs Hv.
  destruct (trigger_out pe h le db ds tr st i s arg verbose Ht Hr Hp Hs) as (l & -> & Hg). rewrite Hg in *. by apply loop_due.
Qed.
Print Assumptions C109_trigger_partial.

(** a bundle without payload, then another; dtntrigger subscribes by name *)
Definition E1 : bundle := Bundle (BFlags false false false false false false false) A (Dtn "m" "x") (Dtn "m" "x") 9 0 1000 0 0 [].
Definition lead : list ev := [ERegister A; EOpen; EMsg 0 (MText "/bundle"); EWork 0 (WReply "200 tx mode: bundle") None].
Definition follow : list ev :=
  [EMsg 0 (MText "/subscribe a"); EWork 0 (WSet A) None; EWork 0 (WIns A) None; EWork 0 (WReply "200 subscribed") None;
   EDeliver E1 (Passed 0); ETake 0 E1; EHand 0 E1; EDeliver (B 2) (Passed 0); ETake 0 (B 2); EHand 0 (B 2)].
Definition sesE : session := Session true true [] None MBundle (Some [A]) [] [] [T1; OText OK; OBundle E1; OBundle (B 2)].
Lemma follow_run : run0 start (lead ++ follow) (AppState [Agent A [] (Some 0%nat)] [sesE] []).
Proof.
  unfold lead, follow, start. cbn [app]. go s_register. go s_open. go s_text. go s_reply. go s_text. go s_set. go s_ins. go s_reply.
  go s_pass. go s_take. go s_hand. go s_pass. go s_take. go s_hand. fin.
Qed.
Theorem C109_trigger_refuted : ~ C109_full.
Proof.
  intros H. pose proof (H pe0 (Dtn "n" "") le0 db0 ds0 (lead ++ follow) _ 0%nat sesE "a" true eq_refl follow_run (ex_intro _ [] eq_refl) eq_refl) as E.
  vm_compute in E. discriminate E.
Qed.
Print Assumptions C109_trigger_refuted.
Example C109_case : tidy_arg "a" /\ run0 start (lead ++ follow) (AppState [Agent A [] (Some 0%nat)] [sesE] []) /\
  asked 0 (lead ++ follow) = trigger_says "a" /\ due (given 0 (lead ++ follow)) = [("dtn://m/x", [2])] /\
  trigger false (ws_out sesE) = [("dtn://m/x", [2])].
Proof. split; [done|]. split; [apply follow_run|]. by vm_compute. Qed.

(** ** C110 *)
(** dtntrigger is about to subscribe to the endpoint its argument names, and then
    comes to rest with nobody else using the endpoint: the command has been run for
    all bundles that were waiting and all delivered since. *)
Definition C110_full : Prop := forall parse_eid host local_eid dec_bundle dec_send tr0 st i s e a arg verbose tr st' s',
  let run := run parse_eid host local_eid dec_bundle dec_send in
  tidy_arg arg -> parse_eid arg = Some e \/ parse_eid arg = None /\ local_eid arg = Some e ->
  run start tr0 st -> asked i tr0 = [MText "/bundle"] -> a_sessions st !! i = Some s -> at_rest s -> find_agent e (a_agents st) = Some a ->
  run st tr st' -> asked i tr = [MText ("/subscribe " +:+ arg)] -> head tr = Some (EMsg i (MText ("/subscribe " +:+ arg))) ->
  Forall (alone e i) tr -> (forall b, b ∈ ag_queue a ++ delivered e tr -> payload_of b <> None) ->
  a_sessions st' !! i = Some s' -> at_rest s' ->
  trigger verbose (ws_out s') = due (ag_queue a ++ delivered e tr).
(** Full for endpoints named by an address with at most one bundle waiting, when
    each later delivery finds room in the session's channel. Missing as in C45:
    other bundles waiting, which stay in the queue; endpoints given by their name,
    for which no waiting bundle is fetched. *)
Theorem C110_waiting_partial : forall parse_eid host local_eid dec_bundle dec_send tr0 st i s e a arg verbose tr st' s',
  let run := run parse_eid host local_eid dec_bundle dec_send in
  tidy_arg arg -> parse_eid arg = Some e -> (length (ag_queue a) <= 1)%nat ->
  run start tr0 st -> asked i tr0 = [MText "/bundle"] -> a_sessions st !! i = Some s -> at_rest s -> find_agent e (a_agents st) = Some a ->
  run st tr st' -> asked i tr = [MText ("/subscribe " +:+ arg)] -> head tr = Some (EMsg i (MText ("/subscribe " +:+ arg))) ->
  Forall (alone e i) tr -> (forall b, b ∈ ag_queue a ++ delivered e tr -> payload_of b <> None) ->
  (forall b f, EDeliver b f ∈ tr -> b_dst b = e -> f = Passed i) ->
  a_sessions st' !! i = Some s' -> at_rest s' ->
  trigger verbose (ws_out s') = due (ag_queue a ++ delivered e tr).
Proof.
  intros pe h le db ds tr0 st i s e a arg verbose tr st' s' run1 Ht Ha Hl Hr0 Hq0 Hs Hrest Hf Hr Hq Hhd Hal Hpay Hpass Hs' Hrest'.
  destruct tr as [|v tr]; [done|]. injection Hhd as ->.
  assert (Hrr : run1 start (tr0 ++ EMsg i (MText ("/subscribe " +:+ arg)) :: tr) st'). { apply run_app. eauto. }
  assert (Hqq : asked i (tr0 ++ EMsg i (MText ("/subscribe " +:+ arg)) :: tr) = trigger_says arg).
  { unfold asked in *. rewrite flat_map_app, Hq0, Hq. done. }
  assert (Hw : written e i tr = ag_queue a ++ delivered e tr).
  { eapply (C45_subscriber_order_partial pe h le db ds tr0 st i s e a ("/subscribe " +:+ arg) tr st' s'); try done.
    - by exists arg.
    - by apply Forall_cons in Hal as [_ Hal].
    - intros b f Hb. apply Hpass. by right. }
  assert (Hgiven : given i (tr0 ++ EMsg i (MText ("/subscribe " +:+ arg)) :: tr) = written e i tr).
  { assert (G0 : given i tr0 = []).
    { pose proof (run_phase pe h le db ds arg i tr0 st Ht Hr0) as P. rewrite <- asked_said, Hq0, Hs in P.
      specialize (P (ex_intro _ [MText ("/subscribe " +:+ arg)] eq_refl)). rewrite given_wrote. by inversion P. }
    pose proof (run_phase pe h le db ds arg i _ _ Ht Hrr) as P. rewrite <- asked_said, Hqq, Hs' in P. specialize (P (ex_intro _ [] eq_refl)).
    rewrite <- given_wrote in P. unfold given in *. rewrite flat_map_app in *. rewrite G0 in *. cbn [app flat_map] in *.
    assert (D : forall b, b ∈ given i tr -> b_dst b = e).
    { change (flat_map _ tr) with (given i tr) in P. remember (given i tr) as w eqn:Ew. clear Ew.
      destruct P as [Q Hj Ho|Q Hm Hjo|r Q Hr1 Hr2 Hjo|e' j tl M He Hh Ho Hj Hsf Htl|e' w M He Ho Hjob Hd|e' M He Hh Hop Ho Hjob];
        try (intros b Hb; by apply elem_of_nil in Hb).
      destruct He as [He|[He _]]; [|congruence]. rewrite Ha in He. injection He as <-. exact Hd. }
    revert D. clear. unfold given, written. induction tr as [|v tr IH]; [done|]. cbn [flat_map]. intros D. rewrite IH by (intros b Hb; apply D, elem_of_app; by right).
    f_equal. destruct v as [| | | | | |j [] [b|]|j b|j b| |]; try done;
      (destruct (decide (j = i)); [|done]; rewrite decide_True; [done|]; apply D, elem_of_app; left; by left). }
  erewrite C109_trigger_partial; [|exact Ht|exact Hrr|exists []; by rewrite Hqq|exact Hs'|].
  - rewrite Hgiven, Hw. cbn [delivered flat_map app]. done.
  - right. intros b Hb. apply Hpay. rewrite Hgiven, Hw in Hb. exact Hb.
Qed.
Print Assumptions C110_waiting_partial.
(** A bundle waits when dtntrigger subscribes by name: no command is run for it. *)
Definition lead1 : list ev := [ERegister A; EDeliver (B 1) Queued; EOpen; EMsg 0 (MText "/bundle"); EWork 0 (WReply "200 tx mode: bundle") None].
Definition sesN : session := Session true true [] None MBundle (Some [A]) [] [] [T1; OText OK].
Definition sub_name : list ev := [EMsg 0 (MText "/subscribe a"); EWork 0 (WSet A) None; EWork 0 (WIns A) None; EWork 0 (WReply "200 subscribed") None].
Definition stL : apps := AppState [Agent A [B 1] None] [Session true true [] None MBundle None [] [] [T1]] [].
Lemma lead1_run : run0 start lead1 stL.
Proof. unfold lead1, stL, start. go s_register. go s_queue. go s_open. go s_text. go s_reply. fin. Qed.
Lemma sub_name_run : run0 stL sub_name (AppState [Agent A [B 1] (Some 0%nat)] [sesN] []).
Proof. unfold sub_name, stL. go s_text. go s_set. go s_ins. go s_reply. fin. Qed.
Theorem C110_waiting_refuted : ~ C110_full.
Proof.
  intros H.
  assert (E : trigger false (ws_out sesN) = due ([B 1] ++ delivered A sub_name)); [|vm_compute in E; discriminate E].
  eapply (H pe0 (Dtn "n" "") le0 db0 ds0 lead1 stL 0%nat _ A (Agent A [B 1] None) "a" false sub_name _ sesN eq_refl); [by right|exact lead1_run|done|reflexivity|by repeat split|done|exact sub_name_run|done|done| | |done|by repeat split].
  - repeat constructor; by left.
  - cbn. intros b Hb. apply elem_of_list_singleton in Hb as ->. done.
Qed.
Print Assumptions C110_waiting_refuted.
(** By its address: the command is run for it. *)
Definition sub_addr : list ev :=
  [EMsg 0 (MText "/subscribe dtn://n/a"); EWork 0 (WSet A) None; EWork 0 (WIns A) None; EWork 0 (WReply "200 subscribed") None;
   EWork 0 WFetch None; EWork 0 (WPop A) (Some (B 1)); EWork 0 WFlush (Some (B 1)); EWork 0 WFlush None].
Definition sesA : session := Session true true [] None MBundle (Some [A]) [] [] [T1; OText OK; OBundle (B 1)].
Example C110_case : tidy_arg "dtn://n/a" /\ pe0 "dtn://n/a" = Some A /\ run0 start lead1 stL /\ run0 stL sub_addr (AppState [Agent A [] (Some 0%nat)] [sesA] []) /\
  asked 0 lead1 = [MText "/bundle"] /\ asked 0 sub_addr = [MText "/subscribe dtn://n/a"] /\ Forall (alone A 0) sub_addr /\ at_rest sesA /\
  trigger true (ws_out sesA) = due [B 1] /\ due [B 1] = [("dtn://m/x", [1])].
Proof.
  split; [done|]. split; [done|]. split; [apply lead1_run|]. split.
  { unfold sub_addr, stL. go s_text. go s_set. go s_ins. go s_reply.
    eapply run_step; [eapply (s_fetch _ _ _ _ _ _ 0%nat _ [A]); ok|]; cbn. go s_pop. go s_flush. go s_flushed. fin. }
  split; [done|]. split; [done|]. split; [repeat constructor; by left|]. split; [by repeat split|]. by vm_compute.
Qed.
