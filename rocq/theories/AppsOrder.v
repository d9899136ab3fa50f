(** The order in which a websocket client gets bundles, and who ends its
    subscription. *)
From stdpp Require Import prelude strings pretty gmap.
From Coq Require Import NArith Lia ZifyBool ZifyN ZifyNat.
From Verif Require Import Core Routing Apps AppsProofs.
Open Scope N_scope.

Section ws.
Context (parse_eid : string -> option eid) (host : eid) (local_eid : string -> option eid).
Context (dec_bundle : list N -> option bundle) (dec_send : fmt -> list N -> option send_data).
Notation step := (Apps.step parse_eid host local_eid dec_bundle dec_send).
Notation run := (Apps.run parse_eid host local_eid dec_bundle dec_send).
Ltac inv_step H := inversion H; subst; clear H; cbn [a_agents a_sessions a_sent upd set_session] in *.

(** ** Jobs *)
Definition simple (o : wop) : Prop := match o with WPop _ | WFlush | WFetch => False | _ => True end.
Definition tail_of (f : bool) : list wop := if f then [WFetch] else [].
Lemma on_text_job l s t : ws_job s = [] ->
  exists j f, ws_job (on_text parse_eid host local_eid l s t) = j ++ tail_of f /\ Forall simple j.
Proof.
  intros Hs. unfold on_text. destruct (is_command (trim t)); [|exists [], false; split; [done|constructor]].
  destruct (split_space (trim t) "") as [c arg].
  repeat case_match; try (eexists [_], false; split; [reflexivity|repeat constructor]);
    try (eexists [_; _], false; split; [reflexivity|repeat constructor]);
    try (eexists [_; _; _], false; split; [reflexivity|repeat constructor]);
    try (eexists [_; _; _], true; split; [reflexivity|repeat constructor]).
  exists [], false. by split; [|constructor].
Qed.
Lemma on_binary_job cts s d : ws_job s = [] ->
  exists j, ws_job (fst (on_binary parse_eid dec_bundle dec_send cts s d)) = j /\ Forall simple j.
Proof.
  intros Hs. unfold on_binary. repeat case_match; cbn; eexists; (split; [reflexivity|]); try (repeat constructor); by rewrite Hs.
Qed.

Section order.
Context (e : eid) (i : nat).
Notation isE := (fun b => b_dst b = e).
Definition delivered1 (v : ev) : list bundle := match v with EDeliver b _ => if bool_decide (b_dst b = e) then [b] else [] | _ => [] end.
Definition sent1 (v : ev) : list bundle := filter isE (handed1 i v ++ flushed1 i v).
(** nobody else works on [e], nothing sent to [e] is refused by the client, and
    the client stays *)
Definition calm (v : ev) : Prop :=
  match v with
  | EUnregister e' | EPoll e' _ => e' <> e
  | EWork j (WPop e') _ | EWork j (WSet e') _ | EWork j (WClear e') _ => j = i \/ e' <> e
  | EClose j => j <> i
  | EDeliver b f => b_dst b = e -> f = Passed i
  | _ => True
  end.
Definition pending (s : session) : Prop :=
  (exists t, ws_job s = [WSet e; WIns e; WReply t; WFetch]) \/ (exists t, ws_job s = [WIns e; WReply t; WFetch]) \/
  (e ∈ default [] (ws_subs s) /\ exists j, ws_job s = j ++ [WFetch] /\ Forall simple j) \/
  (exists ord, e ∈ ord /\ ws_job s = map WPop ord ++ [WFlush]).
Definition shape (s : session) : Prop :=
  (exists j f, ws_job s = j ++ tail_of f /\ Forall simple j /\ ws_held s = []) \/
  (exists ord, ws_job s = map WPop ord ++ [WFlush]).
Lemma tail_head j f o l : j ++ tail_of f = o :: l -> Forall simple j ->
  (exists j', l = j' ++ tail_of f /\ Forall simple j' /\ simple o) \/ (o = WFetch /\ l = [] /\ j = [] /\ f = true).
Proof.
  intros H Hj. destruct j as [|o' j].
  - destruct f; [|done]. injection H as <- <-. by right.
  - cbn in H. injection H as -> <-. apply Forall_cons in Hj as [? ?]. left. eauto.
Qed.
Lemma pop_head ord o l : map WPop ord ++ [WFlush] = o :: l ->
  (exists e' ord', ord = e' :: ord' /\ o = WPop e' /\ l = map WPop ord' ++ [WFlush]) \/ (o = WFlush /\ l = [] /\ ord = []).
Proof.
  destruct ord as [|e' ord]; cbn; intros H; injection H as <- <-; [by right|]. left. eauto.
Qed.
Lemma pops_inj a b : map WPop a = map WPop b -> a = b.
Proof.
  revert b. induction a as [|x a IH]; intros [|y b] Hab; try done. cbn in Hab. injection Hab as -> Hab. f_equal. by apply IH.
Qed.
Record order (q : list bundle) (S D : list bundle) (st : apps) (s : session) (qq : list bundle) : Prop := Order {
  o_ses : a_sessions st !! i = Some s;
  o_open : ws_open s = true;
  o_queue : queue_of e st = Some qq;
  o_len : (length qq <= 1)%nat;
  o_eq : S ++ filter isE (ws_held s).*1 ++ qq ++ filter isE (inbox s) = q ++ D;
  o_pay : forall b, b ∈ q ++ D -> payload_of b <> None;
  o_shape : shape s;
  o_pend : qq <> [] -> pending s;
  o_tidy : tidy st;
  o_dup : NoDup (map ag_eid (a_agents st))
}.
(** steps of others that leave session and queue alone *)
Lemma order_same q S D st s qq st' : order q S D st s qq -> a_sessions st' !! i = Some s -> queue_of e st' = Some qq ->
  tidy st' -> NoDup (map ag_eid (a_agents st')) -> order q S D st' s qq.
Proof. intros [] ? ? ? ?. by split. Qed.
Lemma filter_dst b : filter isE [b] = if bool_decide (b_dst b = e) then [b] else [].
Proof. rewrite filter_cons, filter_nil. case_decide; case_bool_decide; done. Qed.
(** own steps that leave inbox, held and queue alone *)
Lemma order_job q S D st s qq st' s' : order q S D st s qq -> a_sessions st' !! i = Some s' -> queue_of e st' = Some qq ->
  tidy st' -> NoDup (map ag_eid (a_agents st')) -> ws_open s' = true -> inbox s' = inbox s -> ws_held s' = ws_held s ->
  shape s' -> (qq <> [] -> pending s') -> order q S D st' s' qq.
Proof. intros [] ? ? ? ? ? E1 E2 ? ?. split; try done. by rewrite E1, E2. Qed.

Lemma pending_busy s : pending s -> ws_job s <> [].
Proof.
  intros [[t ->]|[[t ->]|[(_ & j & -> & _)|(ord & _ & ->)]]]; [done|done|by destruct j|by destruct ord].
Qed.
Lemma shape_idle s : shape s -> ws_job s = [] -> ws_held s = [].
Proof. intros [(j & f & _ & _ & H)|(ord & H)] E; [done|]. rewrite E in H. by destruct ord. Qed.
Lemma order_step q S D st s qq v st' : step st v st' -> calm v -> (forall b, b ∈ delivered1 v -> payload_of b <> None) ->
  order q S D st s qq -> exists s' qq', order q (S ++ sent1 v) (D ++ delivered1 v) st' s' qq'.
Proof.
  intros Hs Hc Hpay HO. pose proof HO as [Hses Hopen Hq Hlen Heq Hpy Hsh Hpe Ht Hd].
  assert (Hd' : NoDup (map ag_eid (a_agents st'))) by (by eapply step_nodup).
  assert (Ht' : tidy st') by (by eapply step_tidy_find).
  destruct (step_queue _ _ _ _ _ _ _ _ e qq Hs Hq) as (qq' & Hq' & Eq). { intros ->. by apply Hc. }
  assert (HqD : queued1 e v = []).
  { destruct v as [| |b [| |]| | | | | | | |]; try done. cbn. case_bool_decide; [|done]. by specialize (Hc H). }
  rewrite HqD in Eq. pose proof Eq as Eq0. rewrite app_nil_r in Eq.
  (* not our session *)
  assert (Hother : forall j sj, v <> EPoll e None -> sent1 v = [] -> delivered1 v = [] -> popped1 e v = [] ->
     a_sessions st' = <[j := sj]> (a_sessions st) -> j <> i -> exists s' qq', order q (S ++ sent1 v) (D ++ delivered1 v) st' s' qq').
  { intros j sj _ -> -> Hp E Hj. rewrite Hp in Eq. cbn in Eq. subst qq'. exists s, qq. rewrite !app_nil_r. eapply order_same; try done.
    rewrite E. by rewrite list_lookup_insert_ne. }
  assert (Hquiet : sent1 v = [] -> delivered1 v = [] -> popped1 e v = [] ->
     a_sessions st' = a_sessions st -> exists s' qq', order q (S ++ sent1 v) (D ++ delivered1 v) st' s' qq').
  { intros -> -> Hp E. rewrite Hp in Eq. cbn in Eq. subst qq'. exists s, qq. rewrite !app_nil_r. eapply order_same; try done. by rewrite E. }
  assert (Hmine : forall sj, a_sessions st' = <[i := sj]> (a_sessions st) -> a_sessions st' !! i = Some sj).
  { intros sj ->. by rewrite list_lookup_insert by (by eapply lookup_lt_Some). }
  assert (Hown : forall sj, a_sessions st' = <[i := sj]> (a_sessions st) -> sent1 v = [] -> delivered1 v = [] -> popped1 e v = [] ->
     ws_open sj = true -> inbox sj = inbox s -> ws_held sj = ws_held s -> shape sj -> (qq <> [] -> pending sj) ->
     exists s' qq', order q (S ++ sent1 v) (D ++ delivered1 v) st' s' qq').
  { intros sj E -> -> Hp ? ? ? ? ?. rewrite Hp in Eq. cbn in Eq. subst qq'. exists sj, qq. rewrite !app_nil_r.
    eapply order_job; try done. by apply Hmine. }
  assert (Hidle : ws_job s = [] -> ws_held s = [] /\ qq = []).
  { intros E. split; [by apply shape_idle|]. destruct qq; [done|]. exfalso. by apply (pending_busy s); [apply Hpe|]. }
  (* our session goes on with its simple job *)
  assert (Hgo : forall o l, ws_job s = o :: l -> simple o ->
    exists j f, l = j ++ tail_of f /\ Forall simple j /\ ws_held s = []).
  { intros o l E Ho. destruct Hsh as [(j & f & E1 & Hj & Hh)|(ord & E1)]; rewrite E in E1; symmetry in E1.
    - destruct (tail_head _ _ _ _ E1 Hj) as [(j' & -> & Hj' & _)|(-> & _)]; [|done]. eauto.
    - destruct (pop_head _ _ _ E1) as [(e' & ord' & _ & -> & _)|(-> & _)]; done. }
  assert (Hpgo : forall o l subs', simple o -> ws_job s = o :: l ->
     (forall x, x ∈ default [] (ws_subs s) -> x ∈ default [] subs') -> (o = WIns e -> e ∈ default [] subs') ->
     pending s -> forall s', ws_job s' = l -> ws_subs s' = subs' -> pending s').
  { intros o l subs' Ho E Hsub Hin Hp s' El Es. destruct Hp as [[t Hp]|[[t Hp]|[(He & j & Hp & Hj)|(ord & He & Hp)]]]; rewrite E in Hp.
    - injection Hp as -> ->. right. left. eauto.
    - injection Hp as -> ->. right. right. left. rewrite Es. split; [by apply Hin|]. rewrite El. exists [WReply t]. split; [done|repeat constructor].
    - right. right. left. rewrite Es, El. split; [by apply Hsub|]. symmetry in Hp. apply (tail_head j true) in Hp as [(j' & -> & Hj' & _)|(-> & _)]; [|done|done]. eauto.
    - symmetry in Hp. destruct (pop_head _ _ _ Hp) as [(e' & ord' & _ & -> & _)|(-> & _)]; done. }
  clear Eq. inversion Hs; subst; cbn [a_agents a_sessions a_sent upd set_session] in *; rename Eq0 into Eq; rewrite app_nil_r in Eq.
  - by apply Hquiet.
  - by apply Hquiet.
  - apply Hquiet; try done. cbn. case_bool_decide; [|done]. by specialize (Hc H0).
  - by apply Hquiet.
  - (* passed *)
    cbn in Eq. subst qq'. destruct (decide (i0 = i)) as [->|Hne].
    + rewrite Hses in H1. injection H1 as <-.
      exists (with_chan s (ws_chan s ++ [b]) (ws_hand s)), qq. split; try done.
      * by apply Hmine.
      * unfold sent1, inbox. cbn. rewrite ?filter_nil, ?app_nil_r. rewrite filter_app, filter_app, filter_dst.
        unfold inbox in Heq. rewrite filter_app in Heq. rewrite (app_assoc q), <- Heq, <- !app_assoc. done.
      * intros b' Hb'. rewrite app_assoc in Hb'. apply elem_of_app in Hb' as [?|?]; [by apply Hpy|by apply Hpay].
    + exists s, qq. assert (delivered1 (EDeliver b (Passed i0)) = []) as ->.
      { cbn. case_bool_decide; [|done]. specialize (Hc H3). congruence. }
      unfold sent1. cbn. rewrite ?filter_nil, !app_nil_r. eapply order_same; try done. cbn; by rewrite list_lookup_insert_ne.
  - apply Hquiet; try done. cbn. destruct (find_agent e0 (a_agents st)) as [a|]; [|done]. destruct (head (ag_queue a)); [|done]. rewrite bool_decide_false; [done|]. by apply Hc.
  - cbn in Eq. subst qq'. exists s, qq. unfold sent1. cbn. rewrite ?filter_nil, !app_nil_r. eapply order_same; try done.
    cbn; rewrite lookup_app_l by (by eapply lookup_lt_Some). done.
  - (* text *)
    destruct (decide (i0 = i)) as [->|Hne]; [|by eapply Hother].
    rewrite Hses in H. injection H as <-. destruct (Hidle H1) as [Hh ->].
    destruct (on_text_same parse_eid host local_eid (a_agents st) s t) as (E1 & E2 & E3 & E4 & E5 & E6).
    eapply Hown; [done|done|done|done|by rewrite E4|unfold inbox; by rewrite E1, E2|done| |done].
    destruct (on_text_job (a_agents st) s t H1) as (j & f & Ej & Hj). left. exists j, f. by rewrite E5.
  - destruct (decide (i0 = i)) as [->|Hne]; [|by eapply Hother].
    rewrite Hses in H. injection H as <-. destruct (Hidle H1) as [Hh ->].
    pose proof (on_binary_same parse_eid dec_bundle dec_send cts s d) as (E1 & E2 & E3 & E4 & E5 & E6 & E7).
    destruct (on_binary_job cts s d H1) as (j & Ej & Hj). rewrite H2 in *. cbn in *.
    eapply Hown; [done|done|done|done|by rewrite E4|unfold inbox; by rewrite E1, E2|done| |done].
    left. exists j, false. cbn. by rewrite app_nil_r, E5.
  - destruct (decide (i0 = i)) as [->|Hne]; [|by eapply Hother].
    rewrite Hses in H. injection H as <-. by eapply Hown.
  - by apply Hquiet.
  - (* set *)
    destruct (decide (i0 = i)) as [->|Hne]; [|by eapply Hother].
    rewrite Hses in H. injection H as <-. destruct (Hgo _ _ H0 I) as (j & f & -> & Hj & Hh).
    eapply Hown; try done; [left; by exists j, f|]. intros Hne. eapply Hpgo; [|exact H0| | |by apply Hpe|reflexivity|reflexivity]; done.
  - (* ins *)
    destruct (decide (i0 = i)) as [->|Hne]; [|by eapply Hother].
    rewrite Hses in H. injection H as <-. destruct (Hgo _ _ H0 I) as (j & f & -> & Hj & Hh).
    eapply Hown; try done; [left; by exists j, f|]. intros Hne.
    eapply Hpgo; [|exact H0| | |by apply Hpe|reflexivity|reflexivity]; [done| |].
    + intros x Hx. cbn. case_decide; [done|]. by right.
    + intros [= ->]. cbn. case_decide; [done|]. by left.
  - (* reply *)
    destruct (decide (i0 = i)) as [->|Hne]; [|by eapply Hother].
    rewrite Hses in H. injection H as <-. destruct (Hgo _ _ H0 I) as (j & f & -> & Hj & Hh).
    eapply Hown; try done; [left; by exists j, f|]. intros Hne. eapply Hpgo; [|exact H0| | |by apply Hpe|reflexivity|reflexivity]; done.
  - (* fetch *)
    destruct (decide (i0 = i)) as [->|Hne]; [|by eapply Hother].
    rewrite Hses in H. injection H as <-.
    assert (l = [] /\ ws_held s = []) as [-> Hh].
    { destruct Hsh as [(j & f & E1 & Hj & Hh)|(ord' & E1)]; rewrite H0 in E1; symmetry in E1.
      - destruct (tail_head _ _ _ _ E1 Hj) as [(j' & -> & Hj' & [])|(_ & -> & _)]. done.
      - destruct (pop_head _ _ _ E1) as [(e' & ord'' & _ & ? & _)|(? & _)]; done. }
    eapply Hown; try done; [right; by exists ord|]. intros Hne. apply Hpe in Hne.
    right. right. right. exists ord. split; [|done]. rewrite H1.
    destruct Hne as [[t Hp]|[[t Hp]|[(He & _)|(ord' & He & Hp)]]]; [congruence|congruence|done|].
    rewrite H0 in Hp. symmetry in Hp. destruct (pop_head _ _ _ Hp) as [(e' & ord'' & _ & ? & _)|(? & _)]; done.
  - (* pop *)
    remember (match find_agent e0 (a_agents st) with Some a => head (ag_queue a) | None => None end) as r eqn:Hr.
    destruct (decide (i0 = i)) as [->|Hne].
    2:{ destruct Hc as [?|Hc]; [done|]. eapply Hother; try done. cbn. destruct r; [|done]. by rewrite bool_decide_false. }
    rewrite Hses in H. injection H as <-.
    assert (exists ord, l = map WPop ord ++ [WFlush] /\ (e <> e0 -> forall ord0, e ∈ ord0 -> ws_job s = map WPop ord0 ++ [WFlush] -> e ∈ ord)) as (ord & -> & Hord).
    { destruct Hsh as [(j & f & E1 & Hj & Hh)|(ord' & E1)].
      - rewrite H0 in E1; symmetry in E1. destruct (tail_head _ _ _ _ E1 Hj) as [(j' & -> & Hj' & [])|(? & _)]. done.
      - rewrite H0 in E1; symmetry in E1. destruct (pop_head _ _ _ E1) as [(e' & ord'' & -> & [= <-] & ->)|(? & _)]; [|done]. exists ord''. split; [done|].
        intros Hne ord0 Hin E0. rewrite H0 in E0. symmetry in E0. destruct (pop_head _ _ _ E0) as [(e' & ord3 & -> & [= <-] & E3)|(? & _)]; [|done].
        apply elem_of_cons in Hin as [?|Hin]; [done|]. apply app_inv_tail in E3. apply pops_inj in E3. by subst. }
    set (s2 := with_job (with_held s (ws_held s ++ match r with Some b => match render (ws_mode s) b with Some o => [(b, o)] | None => [] end | None => [] end)) (map WPop ord ++ [WFlush])) in *.
    destruct (decide (e0 = e)) as [->|He].
    + (* our endpoint *)
      unfold queue_of in Hq. destruct (find_agent e (a_agents st)) as [a|] eqn:Ea; [|done]. cbn in Hq. injection Hq as Hq.
      assert (Er : r = head qq) by (by rewrite <- Hq). clear Hr. cbn [popped1] in Eq.
      destruct qq as [|b [|]]; [| |cbn in Hlen; lia].
      * subst r. cbn in Eq. subst qq'. exists s2, []. unfold sent1. cbn [handed1 flushed1 app delivered1]. rewrite ?filter_nil, !app_nil_r.
        split; try done; [by apply Hmine|..].
        -- unfold s2, inbox. cbn. rewrite ?app_nil_r. exact Heq.
        -- right. by exists ord.
      * subst r. cbn in Eq. rewrite bool_decide_true in Eq by done. injection Eq as <-.
        assert (b_dst b = e) as Hb. { eapply Ht; [done|]. rewrite Hq. by left. }
        destruct (render_payload (ws_mode s) b) as [o Ho]. { apply Hpy. rewrite <- Heq, !elem_of_app. right. right. left. by left. }
        exists s2, []. unfold sent1. cbn [handed1 flushed1 app delivered1]. rewrite ?filter_nil, !app_nil_r.
        split; try done; [by apply Hmine|cbn; lia|..].
        -- unfold s2. cbn. rewrite Ho, fmap_app, filter_app. cbn. rewrite decide_True by done.
           rewrite <- Heq. rewrite <- !app_assoc. done.
        -- right. by exists ord.
    + (* another one *)
      assert (Hpop : popped1 e (EWork i (WPop e0) r) = []). { cbn. destruct r; [|done]. by rewrite bool_decide_false. }
      rewrite Hpop in Eq. cbn in Eq. subst qq'. exists s2, qq. unfold sent1. cbn [handed1 flushed1 app delivered1]. rewrite ?filter_nil, !app_nil_r.
      split; try done; [by apply Hmine|..].
      * unfold s2. cbn. rewrite fmap_app, filter_app.
        assert (filter isE (match r with Some b => match render (ws_mode s) b with Some o => [(b, o)] | None => [] end | None => [] end).*1 = []) as ->.
        { destruct r as [b|] eqn:Er; [|done]. destruct (render (ws_mode s) b); [|done]. cbn. rewrite decide_False; [done|].
          destruct (find_agent e0 (a_agents st)) as [a|] eqn:Ea; [|done]. intros Hb. apply He. rewrite <- Hb. symmetry. eapply Ht; [done|].
          symmetry in Hr. by apply head_Some_elem_of in Hr. }
        rewrite app_nil_r. exact Heq.
      * right. by exists ord.
      * intros Hn. apply Hpe in Hn. right. right. right. exists ord. split; [|done].
        destruct Hn as [[t Hp]|[[t Hp]|[(_ & j & Hp & Hj)|(ord' & Hin & Hp)]]]; [congruence|congruence| |].
        -- rewrite H0 in Hp. symmetry in Hp. apply (tail_head j true) in Hp as [(j' & _ & _ & [])|(? & _)]; done.
        -- by eapply Hord.
  - (* flush *)
    destruct (decide (i0 = i)) as [->|Hne]; [|eapply Hother; try done; unfold sent1; cbn; by rewrite bool_decide_false].
    rewrite Hses in H. injection H as <-. cbn in Eq. subst qq'.
    assert (l = [] /\ qq = []) as [-> ->].
    { split.
      - destruct Hsh as [(j & f & E1 & Hj & Hh)|(ord' & E1)]; [congruence|]. rewrite H0 in E1; symmetry in E1. destruct (pop_head _ _ _ E1) as [(e' & ord'' & _ & ? & _)|(_ & ? & _)]; done.
      - destruct qq; [done|]. exfalso. destruct Hpe as [[t Hp]|[[t Hp]|[(_ & j & Hp & Hj)|(ord' & Hin & Hp)]]]; [done|congruence|congruence| |].
        + rewrite H0 in Hp. symmetry in Hp. apply (tail_head j true) in Hp as [(j' & _ & _ & [])|(? & _)]; done.
        + rewrite H0 in Hp. symmetry in Hp. destruct (pop_head _ _ _ Hp) as [(e' & ord'' & _ & ? & _)|(_ & _ & ->)]; [done|]. by apply elem_of_nil in Hin. }
    exists (with_out (with_held s h) (ws_out s ++ [o])), []. cbn [delivered1]. rewrite app_nil_r. split; try done; [by apply Hmine|..].
    + unfold sent1. cbn. rewrite bool_decide_true by done. rewrite filter_dst. rewrite <- Heq, H1. cbn.
      unfold inbox. cbn. case_decide; case_bool_decide; try done; cbn; by rewrite <- ?app_assoc, ?app_nil_r.
    + right. exists []. done.
  - destruct (decide (i0 = i)) as [->|Hne]; [|by eapply Hother].
    rewrite Hses in H. injection H as <-.
    assert (l = [] /\ qq = []) as [-> ->].
    { split.
      - destruct Hsh as [(j & f & E1 & Hj & Hh)|(ord' & E1)]; rewrite H0 in E1; symmetry in E1.
        + destruct (tail_head _ _ _ _ E1 Hj) as [(j' & -> & Hj' & [])|(? & _)]. done.
        + destruct (pop_head _ _ _ E1) as [(e' & ord'' & _ & ? & _)|(_ & ? & _)]; done.
      - destruct qq; [done|]. exfalso. destruct Hpe as [[t Hp]|[[t Hp]|[(_ & j & Hp & Hj)|(ord' & Hin & Hp)]]]; [done|congruence|congruence| |].
        + rewrite H0 in Hp. symmetry in Hp. apply (tail_head j true) in Hp as [(j' & _ & _ & [])|(? & _)]; done.
        + rewrite H0 in Hp. symmetry in Hp. destruct (pop_head _ _ _ Hp) as [(e' & ord'' & _ & ? & _)|(_ & _ & ->)]; [done|]. by apply elem_of_nil in Hin. }
    eapply Hown; try done. left. by exists [], false.
  - (* clear *)
    destruct (decide (i0 = i)) as [->|Hne]; [|by eapply Hother].
    rewrite Hses in H. injection H as <-. destruct (Hgo _ _ H0 I) as (j & f & -> & Hj & Hh).
    eapply Hown; try done; [left; by exists j, f|]. intros Hne. eapply Hpgo; [|exact H0| | |by apply Hpe|reflexivity|reflexivity]; done.
  - (* take *)
    destruct (decide (i0 = i)) as [->|Hne]; [|by eapply Hother].
    rewrite Hses in H. injection H as <-. eapply Hown; try done. unfold inbox. cbn. by rewrite H1, H2.
  - (* hand *)
    destruct (decide (i0 = i)) as [->|Hne]; [|eapply Hother; try done; unfold sent1; cbn; by rewrite bool_decide_false].
    rewrite Hses in H. injection H as <-. destruct (Hidle H1) as [Hh ->]. cbn in Eq. subst qq'.
    exists (with_out (with_chan s (ws_chan s) None) (ws_out s ++ option_list (render (ws_mode s) b))), []. cbn [delivered1]. rewrite app_nil_r. split; try done; [by apply Hmine|].
    unfold sent1. cbn. rewrite bool_decide_true by done. cbn [app]. rewrite ?app_nil_r,  filter_dst, <- Heq, Hh. cbn. unfold inbox. cbn. rewrite H2. cbn.
    case_decide; case_bool_decide; try done; cbn; by rewrite <- ?app_assoc, ?app_nil_r.
  - by eapply Hother.
  - destruct (decide (i0 = i)) as [->|Hne]; [congruence|]. by eapply Hother.
Qed.
Lemma order_run st tr st' : run st tr st' -> forall q S D s qq, Forall calm tr -> (forall b, b ∈ flat_map delivered1 tr -> payload_of b <> None) ->
  order q S D st s qq -> exists s' qq', order q (S ++ flat_map sent1 tr) (D ++ flat_map delivered1 tr) st' s' qq'.
Proof.
  induction 1 as [st|st v st1 tr st' Hs Hr IH]; intros q S D s qq Hc Hp HO.
  - cbn. rewrite !app_nil_r. eauto.
  - apply Forall_cons in Hc as [Hc1 Hc2]. cbn in Hp.
    destruct (order_step q S D _ s qq _ _ Hs Hc1) with (2 := HO) as (s1 & qq1 & HO1). { intros b Hb. apply Hp, elem_of_app. by left. }
    cbn. rewrite !app_assoc. apply (IH _ _ _ s1 qq1); [done| |done]. intros b Hb. apply Hp, elem_of_app. by right.
Qed.
End order.

(** ** Commands *)
Lemma append_assoc (a b c : string) : (a +:+ b) +:+ c = a +:+ (b +:+ c).
Proof. induction a as [|x a IH]; [done|]. change (String x ((a +:+ b) +:+ c) = String x (a +:+ (b +:+ c))). by rewrite IH. Qed.
Lemma rev_string_acc s acc : rev_string s acc = rev_string s "" +:+ acc.
Proof.
  revert acc. induction s as [|c s IH]; intros acc; [done|]. cbn. rewrite IH, (IH (String c "")), append_assoc. done.
Qed.
Lemma split_space_arg s acc c a : split_space s acc = (c, Some a) -> rev_string acc "" +:+ s = c +:+ " " +:+ a.
Proof.
  revert acc. induction s as [|x s IH]; intros acc H; [done|]. cbn in H. destruct (Ascii.N_of_ascii x =? 32) eqn:E.
  - injection H as <- <-. apply N.eqb_eq in E. assert (x = Ascii.ascii_of_N 32) as ->. { rewrite <- E. by rewrite Ascii.ascii_N_embedding. } done.
  - apply IH in H. rewrite <- H. cbn. rewrite (rev_string_acc acc (String x "")), append_assoc. done.
Qed.
Lemma split_space_none s acc c : split_space s acc = (c, None) -> rev_string acc "" +:+ s = c.
Proof.
  revert acc. induction s as [|x s IH]; intros acc H; cbn in H.
  - injection H as <-. induction (rev_string acc "") as [|y r IHr]; [done|]. change (String y (r +:+ "") = String y r). by rewrite IHr.
  - destruct (Ascii.N_of_ascii x =? 32); [done|]. apply IH in H. rewrite <- H. cbn. rewrite (rev_string_acc acc (String x "")), append_assoc. done.
Qed.
Definition asks (cmd t : string) (e : eid) : Prop :=
  exists a, trim t = cmd +:+ " " +:+ a /\ (parse_eid a = Some e \/ local_eid a = Some e).
Lemma on_text_ops e l s t : let s' := on_text parse_eid host local_eid l s t in ws_job s = [] ->
  (WSet e ∈ ws_job s' \/ WIns e ∈ ws_job s' -> asks "/subscribe" t e) /\
  (WClear e ∈ ws_job s' -> asks "/unsubscribe" t e) /\
  (e ∈ default [] (ws_subs s') -> e ∈ default [] (ws_subs s)).
Proof.
  intros s' Hj. unfold s', on_text. destruct (is_command (trim t)); [|by rewrite Hj, !elem_of_nil; tauto].
  destruct (split_space (trim t) "") as [c [a|]] eqn:Es.
  2:{ repeat case_match; rewrite ?Hj; cbn; rewrite ?elem_of_list_singleton, ?elem_of_nil; (split; [by intros [?|?]|by split]). }
  apply split_space_arg in Es. cbn in Es.
  repeat case_match; rewrite ?Hj; cbn [with_job with_subs with_mode ws_job ws_subs];
    rewrite ?elem_of_cons, ?elem_of_nil;
    try (split; [by intuition congruence|split; [by intuition congruence|intros Hx; first [done|match goal with H : ws_subs s = _ |- _ => rewrite H in Hx end; by apply elem_of_nil in Hx]]]).
  - split; [by intuition congruence|]. split.
    + intros [[= <-]|[?|[]]]; [|done]. exists a. apply bool_decide_eq_true in H3. subst c. auto.
    + cbn. rewrite elem_of_list_filter. by intros [_ ?].
  - split; [|split; [by intuition congruence|by intros ?]].
    intros Hin. assert (e = e0) as -> by (destruct Hin as [Hin|Hin]; repeat destruct Hin as [Hin|Hin]; congruence || done). exists a. apply bool_decide_eq_true in H4. subst c. auto.
  - split; [|split; [by intuition congruence|by intros ?]].
    intros Hin. assert (e = e0) as -> by (destruct Hin as [Hin|Hin]; repeat destruct Hin as [Hin|Hin]; congruence || done). exists a. apply bool_decide_eq_true in H4. subst c. auto.
Qed.
Lemma on_binary_ops cts s d : let s' := fst (on_binary parse_eid dec_bundle dec_send cts s d) in ws_job s = [] ->
  (forall o, o ∈ ws_job s' -> exists t, o = WReply t).
Proof.
  intros s' Hj o. unfold s', on_binary. repeat case_match; cbn; rewrite ?Hj; rewrite ?elem_of_list_singleton, ?elem_of_nil; try done; eauto.
Qed.

Section subscription.
Context (e : eid) (i : nat).
(** nobody else is after [e], and [i] does not give it up *)
Definition loyal (v : ev) : Prop :=
  match v with
  | EUnregister e' => e' <> e
  | EMsg j (MText t) => if decide (j = i) then ~ asks "/unsubscribe" t e else ~ asks "/subscribe" t e /\ ~ asks "/unsubscribe" t e
  | EClose j => j <> i
  | _ => True
  end.
Record subscribed (st : apps) : Prop := Subscribed {
  u_sub : exists a, find_agent e (a_agents st) = Some a /\ ag_sub a = Some i;
  u_mine : exists s, a_sessions st !! i = Some s /\ ws_open s = true /\ ws_rx s = true /\ WClear e ∉ ws_job s;
  u_other : forall j s, j <> i -> a_sessions st !! j = Some s ->
    e ∉ default [] (ws_subs s) /\ WSet e ∉ ws_job s /\ WIns e ∉ ws_job s /\ WClear e ∉ ws_job s
}.
Lemma step_subscribed st v st' : step st v st' -> loyal v -> subscribed st -> subscribed st'.
Proof.
  intros Hs Hl [(a & Ha & Hsub) (s & Hi & Ho & Hx & Hc) Hot].
  assert (Hag : (forall j, v = EWork j (WSet e) None -> j = i) -> (forall j, v <> EWork j (WClear e) None) ->
    exists a, find_agent e (a_agents st') = Some a /\ ag_sub a = Some i).
  { intros H1 H2. rewrite (step_agents _ _ _ _ _ _ _ _ Hs).
    assert (Hal : forall e' f, (forall a, ag_eid (f a) = ag_eid a) -> (e' = e -> forall a, ag_sub a = Some i -> ag_sub (f a) = Some i) ->
      exists a, find_agent e (alter_agent e' f (a_agents st)) = Some a /\ ag_sub a = Some i).
    { intros e' f Hf Hg. destruct (decide (e' = e)) as [->|Hne].
      - rewrite find_alter by done. rewrite Ha. cbn. eexists. split; [done|]. by apply Hg.
      - rewrite find_alter_ne by done. eauto. }
    inversion Hs; subst; cbn [agent_op]; eauto; try (by apply Hal).
    - rewrite register_find, Ha. eauto.
    - rewrite unregister_find_ne by (by apply Hl). eauto.
    - apply Hal; [done|]. intros ->. cbn. intros _ _. f_equal. by apply H1.
    - apply Hal; [done|]. intros ->. by destruct (H2 i0). }
  assert (Hsame : a_sessions st' = a_sessions st -> (forall j, v = EWork j (WSet e) None -> j = i) -> (forall j, v <> EWork j (WClear e) None) -> subscribed st').
  { intros E H1 H2. split; [by apply Hag|rewrite E; eauto|by rewrite E]. }
  assert (Hupd : forall j s1 s2, a_sessions st !! j = Some s1 -> a_sessions st' = <[j := s2]> (a_sessions st) ->
     (forall k, v = EWork k (WSet e) None -> j = k) -> (forall k, v = EWork k (WClear e) None -> j = k) ->
     (v = EWork j (WSet e) None -> WSet e ∈ ws_job s1) -> (v = EWork j (WClear e) None -> WClear e ∈ ws_job s1) ->
     (j = i -> ws_open s1 = true -> ws_open s2 = true) -> (j = i -> ws_open s1 = true -> ws_rx s1 = true -> ws_rx s2 = true) ->
     (j = i -> WClear e ∉ ws_job s1 -> WClear e ∉ ws_job s2) ->
     (j <> i -> e ∉ default [] (ws_subs s1) -> WSet e ∉ ws_job s1 -> WIns e ∉ ws_job s1 -> WClear e ∉ ws_job s1 ->
        e ∉ default [] (ws_subs s2) /\ WSet e ∉ ws_job s2 /\ WIns e ∉ ws_job s2 /\ WClear e ∉ ws_job s2) -> subscribed st').
  { intros j s1 s2 Hj E V1 V2 W1 W2 P1 P2 P3 P4.
    assert (Hno : j <> i -> v <> EWork j (WSet e) None /\ v <> EWork j (WClear e) None).
    { intros Hne. destruct (Hot j s1 Hne Hj) as (_ & H1 & _ & H3). split; intros Hv; [by apply H1, W1|by apply H3, W2]. }
    split.
    - apply Hag.
      + intros k Hk. specialize (V1 k Hk) as <-. destruct (decide (j = i)) as [|Hne]; [done|]. by destruct (Hno Hne).
      + intros k Hk. specialize (V2 k Hk) as <-. destruct (decide (j = i)) as [->|Hne]; [|by destruct (Hno Hne)].
        rewrite Hi in Hj. injection Hj as <-. by apply Hc, W2.
    - rewrite E. destruct (decide (j = i)) as [->|Hne].
      + rewrite list_lookup_insert by (by eapply lookup_lt_Some). rewrite Hi in Hj. injection Hj as <-. exists s2. auto.
      + rewrite list_lookup_insert_ne by done. eauto.
    - intros k sk Hk. rewrite E. destruct (decide (j = k)) as [->|Hne].
      + rewrite list_lookup_insert by (by eapply lookup_lt_Some). intros [= <-]. destruct (Hot k s1 Hk Hj) as (? & ? & ? & ?). by apply P4.
      + rewrite list_lookup_insert_ne by done. by apply Hot. }
  inversion Hs; subst; cbn [a_agents a_sessions a_sent upd set_session] in *; try (by apply Hsame).
  - (* pass *) by eapply Hupd.
  - (* open *) split; [by apply Hag| |].
    + exists s. split; [|done]. cbn. rewrite lookup_app_l by (by eapply lookup_lt_Some). done.
    + intros j sj Hj Hsj. cbn in Hsj. apply lookup_app_Some in Hsj as [Hsj|[_ Hsj]]; [by eapply Hot|].
      apply list_lookup_singleton_Some in Hsj as [_ <-]. cbn. by repeat split; apply not_elem_of_nil.
  - (* text *)
    destruct (on_text_same parse_eid host local_eid (a_agents st) s0 t) as (_ & _ & E3 & E4 & _).
    destruct (on_text_ops e (a_agents st) s0 t) as (O1 & O2 & O3); [done|]. cbn in Hl.
    eapply Hupd; try done; rewrite ?E3, ?E4; try done.
    + intros -> _ Hin. rewrite decide_True in Hl by done. by apply Hl, O2.
    + intros Hne Hn1 Hn2 Hn3 Hn4. rewrite decide_False in Hl by done. destruct Hl as [L1 L2].
      split; [by intros ?%O3|]. split; [intros ?; apply L1, O1; by left|]. split; [intros ?; apply L1, O1; by right|]. intros ?. by apply L2, O2.
  - (* binary *)
    pose proof (on_binary_same parse_eid dec_bundle dec_send cts s0 d) as (_ & _ & E3 & E4 & _ & _ & E7).
    pose proof (on_binary_ops cts s0 d H1) as O. rewrite H2 in *. cbn in *.
    eapply Hupd; try done; rewrite ?E3, ?E4; try done.
    + intros _ _ [t ?]%O. done.
    + intros _ Hn1 _ _ _. rewrite E7. split; [done|]. split; [by intros [t ?]%O|]. split; by intros [t ?]%O.
  - by eapply Hupd.
  - (* set *) eapply Hupd; try done.
    + by intros k [= <- _].
    + intros [= ->]. rewrite H0. by left.
    + intros _. rewrite H0. by rewrite not_elem_of_cons; intros [_ ?].
    + intros _. cbn. rewrite H0. rewrite !not_elem_of_cons. tauto.
  - (* ins *) eapply Hupd; try done.
    + intros _. rewrite H0. by rewrite not_elem_of_cons; intros [_ ?].
    + intros _. cbn. rewrite H0. rewrite !not_elem_of_cons. intros Hn [_ ?] [Hni ?] [_ ?]. split; [|done].
      case_decide; [done|]. rewrite not_elem_of_cons. split; [|done]. intros ->. by apply Hni.
  - (* reply *) eapply Hupd; try done.
    + intros _. rewrite H0. by rewrite not_elem_of_cons; intros [_ ?].
    + intros _. cbn. rewrite H0. rewrite !not_elem_of_cons. tauto.
  - (* fetch *) assert (Hp : forall o, (forall e', o <> WPop e') -> o <> WFlush -> o ∉ l -> o ∉ map WPop ord ++ WFlush :: l).
    { intros o H2 H3 H4 Hin. apply elem_of_app in Hin as [Hin|Hin%elem_of_cons]; [|by destruct Hin].
      apply elem_of_list_fmap in Hin as (x & -> & _). by apply (H2 x). }
    eapply Hupd; try done.
    + intros _. rewrite H0. rewrite not_elem_of_cons; intros [_ ?]. by apply Hp.
    + intros _. cbn. rewrite H0. rewrite !not_elem_of_cons. intros Hn [_ ?] [_ ?] [_ ?]. split; [done|]. split; [by apply Hp|]. split; by apply Hp.
  - (* pop *) eapply Hupd; try done.
    + intros _. rewrite H0. by rewrite not_elem_of_cons; intros [_ ?].
    + intros _. cbn. rewrite H0. rewrite !not_elem_of_cons. tauto.
  - by eapply Hupd.
  - (* flushed *) eapply Hupd; try done.
    + intros _. rewrite H0. by rewrite not_elem_of_cons; intros [_ ?].
    + intros _. cbn. rewrite H0. rewrite !not_elem_of_cons. tauto.
  - (* clear *) eapply Hupd; try done.
    + by intros k [= <- _].
    + intros [= ->]. rewrite H0. by left.
    + intros _. rewrite H0. by rewrite not_elem_of_cons; intros [_ ?].
    + intros _. cbn. rewrite H0. rewrite !not_elem_of_cons. tauto.
  - by eapply Hupd.
  - by eapply Hupd.
  - (* close *) eapply Hupd; try done. intros Hne Hn _ _ _. cbn. split; [done|].
    assert (forall o, o ∈ map WClear ord -> exists x, o = WClear x /\ x ∈ default [] (ws_subs s0)) as Hm.
    { intros o (x & -> & Hx')%elem_of_list_fmap. exists x. split; [done|]. by rewrite <- H1. }
    split; [by intros (x & ? & _)%Hm|]. split; [by intros (x & ? & _)%Hm|]. intros (x & [= <-] & ?)%Hm. done.
  - (* drop *) eapply Hupd; try done; intros -> Hop; congruence.
Qed.
Lemma run_subscribed st tr st' : run st tr st' -> Forall loyal tr -> subscribed st -> subscribed st'.
Proof. induction 1; [done|]. intros [? ?]%Forall_cons ?. apply IHrun; [done|]. by eapply step_subscribed. Qed.
End subscription.

(** ** Clients that leave an endpoint alone *)
Section uninvolved.
Context (e : eid) (i : nat).
Definition discreet (v : ev) : Prop :=
  match v with EMsg j (MText t) => j <> i -> ~ asks "/subscribe" t e /\ ~ asks "/unsubscribe" t e | _ => True end.
Definition uninvolved (s : session) : Prop :=
  e ∉ default [] (ws_subs s) /\ WSet e ∉ ws_job s /\ WIns e ∉ ws_job s /\ WClear e ∉ ws_job s.
Definition others (st : apps) : Prop :=
  (forall j s, j <> i -> a_sessions st !! j = Some s -> uninvolved s) /\
  (forall j s, a_sessions st !! j = Some s -> ws_open s = true -> ws_rx s = true).
Lemma step_others st v st' : step st v st' -> discreet v -> others st -> others st'.
Proof.
  intros H Hd [Hot Hrx].
  assert (Hsame : a_sessions st' = a_sessions st -> others st').
  { intros E. split; intros j s; rewrite E; [by apply Hot|by apply Hrx]. }
  assert (Hupd : forall j s1 s2, a_sessions st !! j = Some s1 -> a_sessions st' = <[j := s2]> (a_sessions st) ->
    (j <> i -> uninvolved s1 -> uninvolved s2) -> ((ws_open s1 = true -> ws_rx s1 = true) -> ws_open s2 = true -> ws_rx s2 = true) -> others st').
  { intros j s1 s2 Hj E P1 P2. split; intros k s Hk.
    - intros Hs. rewrite E in Hs. destruct (decide (j = k)) as [->|Hne].
      + rewrite list_lookup_insert in Hs by (by eapply lookup_lt_Some). injection Hs as <-. eapply P1; [done|by eapply Hot].
      + rewrite list_lookup_insert_ne in Hs by done. by eapply Hot.
    - rewrite E in Hk. destruct (decide (j = k)) as [->|Hne].
      + rewrite list_lookup_insert in Hk by (by eapply lookup_lt_Some). injection Hk as <-. apply P2. by apply Hrx with k.
      + rewrite list_lookup_insert_ne in Hk by done. by eapply Hrx. }
  inversion H; subst; cbn [a_agents a_sessions a_sent upd set_session] in *; try (by apply Hsame).
  - by eapply Hupd.
  - split; intros j s.
    + intros Hj [Hs|[_ Hs]]%lookup_app_Some; [by eapply Hot|]. apply list_lookup_singleton_Some in Hs as [_ <-].
      cbn. by repeat split; apply not_elem_of_nil.
    + intros [Hs|[_ Hs]]%lookup_app_Some; [by eapply Hrx|]. by apply list_lookup_singleton_Some in Hs as [_ <-].
  - destruct (on_text_same parse_eid host local_eid (a_agents st) s t) as (_ & _ & E3 & E4 & _).
    destruct (on_text_ops e (a_agents st) s t) as (O1 & O2 & O3); [done|].
    eapply Hupd; try done; [|by rewrite E3, E4]. intros Hne (Hn1 & _). destruct (Hd Hne) as [L1 L2].
    split; [by intros ?%O3|]. split; [intros ?; apply L1, O1; by left|]. split; [intros ?; apply L1, O1; by right|]. intros ?. by apply L2, O2.
  - pose proof (on_binary_same parse_eid dec_bundle dec_send cts s d) as (_ & _ & E3 & E4 & _ & _ & E7).
    pose proof (on_binary_ops cts s d H2) as O. rewrite H3 in *. cbn in *.
    eapply Hupd; try done; [|by rewrite E3, E4].
    intros _ (Hn1 & _). unfold uninvolved. rewrite E7. split; [done|]. split; [by intros [t ?]%O|]. split; by intros [t ?]%O.
  - by eapply Hupd.
  - eapply Hupd; try done. intros _. unfold uninvolved. cbn. rewrite H1. rewrite !not_elem_of_cons. tauto.
  - eapply Hupd; try done. intros _. unfold uninvolved. cbn. rewrite H1. rewrite !not_elem_of_cons. intros (Hn & [_ ?] & [Hni ?] & [_ ?]). split; [|done].
    case_decide; [done|]. rewrite not_elem_of_cons. split; [|done]. intros ->. by apply Hni.
  - eapply Hupd; try done. intros _. unfold uninvolved. cbn. rewrite H1. rewrite !not_elem_of_cons. tauto.
  - assert (Hp : forall o, (forall e', o <> WPop e') -> o <> WFlush -> o ∉ l -> o ∉ map WPop ord ++ WFlush :: l).
    { intros o H3 H4 H5 Hin. apply elem_of_app in Hin as [Hin|Hin%elem_of_cons]; [|by destruct Hin].
      apply elem_of_list_fmap in Hin as (x & -> & _). by apply (H3 x). }
    eapply Hupd; try done. intros _. unfold uninvolved. cbn. rewrite H1. rewrite !not_elem_of_cons. intros (Hn & [_ ?] & [_ ?] & [_ ?]).
    split; [done|]. split; [by apply Hp|]. split; by apply Hp.
  - eapply Hupd; try done. intros _. unfold uninvolved. cbn. rewrite H1. rewrite !not_elem_of_cons. tauto.
  - by eapply Hupd.
  - eapply Hupd; try done. intros _. unfold uninvolved. cbn. rewrite H1. rewrite !not_elem_of_cons. tauto.
  - eapply Hupd; try done. intros _. unfold uninvolved. cbn. rewrite H1. rewrite !not_elem_of_cons. tauto.
  - by eapply Hupd.
  - by eapply Hupd.
  - eapply Hupd; try done. intros Hne (Hn & _). unfold uninvolved. cbn. split; [done|].
    assert (forall o, o ∈ map WClear ord -> exists x, o = WClear x /\ x ∈ default [] (ws_subs s)) as Hm.
    { intros o (x & -> & Hx')%elem_of_list_fmap. exists x. split; [done|]. by rewrite <- H2. }
    split; [by intros (x & ? & _)%Hm|]. split; [by intros (x & ? & _)%Hm|]. intros (x & [= <-] & ?)%Hm. done.
  - by eapply Hupd.
Qed.
Lemma run_others st tr st' : run st tr st' -> Forall discreet tr -> others st -> others st'.
Proof. induction 1; [done|]. intros [? ?]%Forall_cons ?. apply IHrun; [done|]. by eapply step_others. Qed.
End uninvolved.

(** ** What is written *)
Definition faithful (s : session) : Prop :=
  (forall b o, (b, o) ∈ ws_held s -> render (ws_mode s) b = Some o) /\
  shape s.
Definition all_faithful (st : apps) : Prop := forall i s, a_sessions st !! i = Some s -> faithful s.
Definition wrote1 (i : nat) (m : mode) (v : ev) : list wsout :=
  match v with
  | EHand j b | EWork j WFlush (Some b) => if decide (j = i) then option_list (render m b) else []
  | EWork j (WReply t) _ => if decide (j = i) then [OText t] else []
  | EMsg j MPing => if decide (j = i) then [OPing] else []
  | _ => []
  end.
Lemma step_wrote st v st' : step st v st' -> all_faithful st -> all_faithful st' /\
  forall i s, a_sessions st !! i = Some s -> exists s', a_sessions st' !! i = Some s' /\ ws_out s' = ws_out s ++ wrote1 i (ws_mode s) v.
Proof.
  intros H Hf.
  assert (Hsame : (forall i m, wrote1 i m v = []) -> a_sessions st' = a_sessions st -> all_faithful st' /\
    forall i s, a_sessions st !! i = Some s -> exists s', a_sessions st' !! i = Some s' /\ ws_out s' = ws_out s ++ wrote1 i (ws_mode s) v).
  { intros Hw E. split; [intros i s; rewrite E; by apply Hf|]. intros i s Hi. rewrite E, Hw. exists s. by rewrite app_nil_r. }
  assert (Hupd : forall j s1 s2, a_sessions st !! j = Some s1 -> a_sessions st' = <[j := s2]> (a_sessions st) ->
    (forall i m, j <> i -> wrote1 i m v = []) -> ws_out s2 = ws_out s1 ++ wrote1 j (ws_mode s1) v -> (faithful s1 -> faithful s2) ->
    all_faithful st' /\ forall i s, a_sessions st !! i = Some s -> exists s', a_sessions st' !! i = Some s' /\ ws_out s' = ws_out s ++ wrote1 i (ws_mode s) v).
  { intros j s1 s2 Hj E Hw Ho Hs. split.
    - intros i s Hi. rewrite E in Hi. destruct (decide (j = i)) as [->|Hne].
      + rewrite list_lookup_insert in Hi by (by eapply lookup_lt_Some). injection Hi as <-. by eapply Hs, Hf.
      + rewrite list_lookup_insert_ne in Hi by done. by eapply Hf.
    - intros i s Hi. rewrite E. destruct (decide (j = i)) as [->|Hne].
      + rewrite list_lookup_insert by (by eapply lookup_lt_Some). exists s2. split; [done|]. rewrite Hi in Hj. by injection Hj as <-.
      + rewrite list_lookup_insert_ne by done. exists s. rewrite Hw by done. by rewrite app_nil_r. }
  assert (Hgo : forall s o l, ws_job s = o :: l -> simple o -> faithful s -> faithful (with_job s l)).
  { intros s o l E Ho [F1 F2]. split; [done|]. destruct F2 as [(j & f & E1 & Hj & Hh)|(ord & E1)]; rewrite E in E1; symmetry in E1.
    - destruct (tail_head _ _ _ _ E1 Hj) as [(j' & -> & Hj' & _)|(-> & _)]; [|done]. left. by exists j', f.
    - by destruct (pop_head _ _ _ E1) as [(e' & ord' & _ & -> & _)|(-> & _)]. }
  assert (Hidle : forall s s' j f, ws_job s = [] -> ws_held s' = ws_held s -> ws_job s' = j ++ tail_of f -> Forall simple j -> faithful s -> faithful s').
  { intros s s' j f Hj E Ej Hjs [_ F2]. assert (Hh : ws_held s' = []) by (rewrite E; by apply shape_idle). split.
    - rewrite Hh. by intros ? ? ?%elem_of_nil.
    - left. by exists j, f. }
  inversion H; subst; cbn [a_agents a_sessions a_sent upd set_session] in *; try (by apply Hsame).
  - eapply Hupd; try done. cbn. by rewrite app_nil_r.
  - split.
    + intros i s Hi. cbn in Hi. apply lookup_app_Some in Hi as [Hi|[_ Hi]]; [by eapply Hf|]. apply list_lookup_singleton_Some in Hi as [_ <-].
      split; [by intros ? ? ?%elem_of_nil|]. left. by exists [], false.
    + intros i s Hi. exists s. cbn. rewrite lookup_app_l by (by eapply lookup_lt_Some). split; [done|]. by rewrite app_nil_r.
  - destruct (on_text_same parse_eid host local_eid (a_agents st) s t) as (_ & _ & _ & _ & E5 & E6).
    destruct (on_text_job (a_agents st) s t H2) as (j & f & Ej & Hj).
    eapply Hupd; try done; [cbn; by rewrite app_nil_r|]. by eapply Hidle.
  - pose proof (on_binary_same parse_eid dec_bundle dec_send cts s d) as (_ & _ & _ & _ & E5 & E6 & _). rewrite H3 in E5, E6. cbn in E5, E6.
    destruct (on_binary_job cts s d H2) as (j & Ej & Hj). rewrite H3 in Ej. cbn in Ej.
    eapply Hupd; try done; [cbn; by rewrite app_nil_r|]. eapply (Hidle _ _ j false); [done|done| |done]. cbn. by rewrite app_nil_r.
  - eapply Hupd; try done; cbn; [intros; by rewrite decide_False|by rewrite decide_True].
  - eapply Hupd; try done; [cbn; by rewrite app_nil_r|]. by eapply Hgo.
  - eapply Hupd; try done; [cbn; by rewrite app_nil_r|]. intros F. by apply (Hgo _ _ _ H1) in F.
  - eapply Hupd; try done; cbn; [intros; by rewrite decide_False|by rewrite decide_True|]. intros F. by apply (Hgo _ _ _ H1) in F.
  - eapply Hupd; try done; [cbn; by rewrite app_nil_r|]. intros [F1 F2]. split; [done|].
    destruct F2 as [(j & f & E1 & Hj & Hh)|(ord' & E1)]; rewrite H1 in E1; symmetry in E1.
    + destruct (tail_head _ _ _ _ E1 Hj) as [(j' & -> & Hj' & [])|(_ & -> & _)]. right. by exists ord.
    + by destruct (pop_head _ _ _ E1) as [(e' & ord'' & _ & ? & _)|(? & _)].
  - eapply Hupd; try done; [cbn; by rewrite app_nil_r|]. intros [F1 F2].
    split.
    + cbn. intros b o. rewrite elem_of_app. intros [Hin|Hin]; [by apply F1|].
      destruct (match find_agent e (a_agents st) with Some a => head (ag_queue a) | None => None end) as [b'|]; [|by apply elem_of_nil in Hin].
      destruct (render (ws_mode s) b') eqn:E; [|by apply elem_of_nil in Hin]. apply elem_of_list_singleton in Hin. congruence.
    + destruct F2 as [(j & f & E1 & Hj & Hh)|(ord' & E1)]; rewrite H1 in E1; symmetry in E1.
      * by destruct (tail_head _ _ _ _ E1 Hj) as [(j' & -> & Hj' & [])|(? & _)].
      * destruct (pop_head _ _ _ E1) as [(e' & ord'' & _ & _ & ->)|(? & _)]; [|done]. right. by exists ord''.
  - eapply Hupd; try done; cbn; [intros; by rewrite decide_False| |].
    + rewrite decide_True by done. destruct (Hf _ _ H0) as [F _]. rewrite (F b o); [done|]. rewrite H2. by left.
    + intros [F1 F2]. split.
      * intros b' o' Hin. apply F1. rewrite H2. by right.
      * destruct F2 as [(j & f & E1 & Hj & Hh)|(ord' & E1)]; [congruence|]. right. by exists ord'.
  - eapply Hupd; try done; [cbn; by rewrite app_nil_r|]. intros [F1 F2]. split; [done|].
    destruct F2 as [(j & f & E1 & Hj & Hh)|(ord' & E1)]; rewrite H1 in E1; symmetry in E1.
    + by destruct (tail_head _ _ _ _ E1 Hj) as [(j' & -> & Hj' & [])|(? & _)].
    + destruct (pop_head _ _ _ E1) as [(e' & ord'' & _ & ? & _)|(_ & -> & _)]; [done|]. left. by exists [], false.
  - eapply Hupd; try done; [cbn; by rewrite app_nil_r|]. by eapply Hgo.
  - eapply Hupd; try done. cbn. by rewrite app_nil_r.
  - eapply Hupd; try done; cbn; [intros; by rewrite decide_False|by rewrite decide_True].
  - eapply Hupd; try done; [cbn; by rewrite app_nil_r|]. intros _. split; [by intros ? ? ?%elem_of_nil|]. left. exists (map WClear ord), false.
    cbn. rewrite app_nil_r. split; [done|]. split; [|done]. apply Forall_forall. by intros o (x & -> & _)%elem_of_list_fmap.
  - eapply Hupd; try done. cbn. by rewrite app_nil_r.
Qed.
Lemma run_faithful st tr st' : run st tr st' -> all_faithful st -> all_faithful st'.
Proof. induction 1; [done|]. intros F. apply IHrun. by eapply step_wrote. Qed.
Lemma run_tidy st tr st' : run st tr st' -> NoDup (map ag_eid (a_agents st)) -> tidy st -> tidy st'.
Proof.
  induction 1; [done|]. intros Hd Ht. apply IHrun; [by eapply step_nodup|by eapply step_tidy_find].
Qed.
End ws.
