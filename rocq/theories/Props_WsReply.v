(** C168: what a websocket client is told is true (model: Apps.v). *)
From stdpp Require Import prelude strings pretty gmap.
From Coq Require Import NArith ZArith Lia ZifyBool ZifyN ZifyNat.
From Verif Require Import Core Apps AppsProofs AppsOrder Props_Apps.
Open Scope N_scope.

Section replies.
Context (parse_eid : string -> option eid) (host : eid) (local_eid : string -> option eid).
Context (dec_bundle : list N -> option bundle) (dec_send : fmt -> list N -> option send_data).
Notation step := (Apps.step parse_eid host local_eid dec_bundle dec_send).
Notation run := (Apps.run parse_eid host local_eid dec_bundle dec_send).
Notation on_text := (on_text parse_eid host local_eid).
Notation on_binary := (on_binary parse_eid dec_bundle dec_send).

(** [m] is the last message of client [i] in the history [es] that leads to [st]:
    it was read in [st1], which made it [st2]; [es2] happened since. *)
Definition latest (es : list ev) (st : apps) (i : nat) (m : wsmsg) (st1 st2 : apps) (es2 : list ev) : Prop :=
  exists es1, es = es1 ++ EMsg i m :: es2 /\ run start es1 st1 /\ step st1 (EMsg i m) st2 /\ run st2 es2 st /\
    (forall m', EMsg i m' ∉ es2).
Definition begins (p s : string) : Prop := exists x, s = p +:+ x.
(** the command [c], with or without an argument *)
Definition word (c t : string) : Prop := trim t = c \/ exists a, trim t = c +:+ " " +:+ a.
(** the endpoint an argument of /subscribe means: an address, or a name at this node *)
Definition names (a : string) (e : eid) : Prop := parse_eid a = Some e \/ parse_eid a = None /\ local_eid a = Some e.
Definition registered (e : eid) (st : apps) : Prop := exists a, a ∈ a_agents st /\ ag_eid a = e.

(** ** Where a reply comes from *)
Definition op1 (i : nat) (v : ev) : list wop := match v with EWork j o _ => if decide (j = i) then [o] else [] | _ => [] end.
Definition ops (i : nat) (es : list ev) : list wop := flat_map (op1 i) es.
Definition ins1 (l : option (list eid)) (o : wop) : option (list eid) :=
  match o with WIns e => Some (let subs := default [] l in if decide (e ∈ subs) then subs else e :: subs) | _ => l end.
Lemma ops_snoc i es v : ops i (es ++ [v]) = ops i es ++ op1 i v.
Proof. unfold ops. rewrite flat_map_app. cbn. by rewrite app_nil_r. Qed.
Lemma ops_in i es o : o ∈ ops i es -> exists r, EWork i o r ∈ es.
Proof.
  unfold ops. intros H. apply elem_of_list_In, in_flat_map in H as (v & Hv & Ho). apply elem_of_list_In in Hv. destruct v; try done. cbn in Ho.
  destruct (decide (i0 = i)) as [->|]; [|done]. destruct Ho as [->|[]]. eauto.
Qed.
Lemma in_ops i es o r : EWork i o r ∈ es -> o ∈ ops i es.
Proof.
  intros H. unfold ops. apply elem_of_list_In, in_flat_map. eexists. split; [by apply elem_of_list_In|]. cbn. rewrite decide_True by done. by left.
Qed.

Definition explained (es : list ev) (st : apps) (i : nat) (s : session) : Prop :=
  exists m st1 st2 es2 s1 s2, latest es st i m st1 st2 es2 /\ a_sessions st1 !! i = Some s1 /\ ws_job s1 = [] /\ a_sessions st2 !! i = Some s2 /\
    ws_job s2 = ops i es2 ++ ws_job s /\ ws_mode s = ws_mode s2 /\ ws_subs s = fold_left ins1 (ops i es2) (ws_subs s2).
Definition Inv (es : list ev) (st : apps) : Prop :=
  forall i s, a_sessions st !! i = Some s -> (exists r, WReply r ∈ ws_job s) -> explained es st i s.

Lemma run_snoc st es st1 v st2 : run st es st1 -> step st1 v st2 -> run st (es ++ [v]) st2.
Proof. intros H1 H2. apply run_app. exists st1. split; [done|]. eapply run_step; [done|constructor]. Qed.
Lemma latest_snoc es st i m st1 st2 es2 v st' : latest es st i m st1 st2 es2 -> step st v st' -> (forall m', v <> EMsg i m') ->
  latest (es ++ [v]) st' i m st1 st2 (es2 ++ [v]).
Proof.
  intros (es1 & -> & H1 & H2 & H3 & H4) Hs Hv. exists es1. split; [by rewrite <- app_assoc|]. split; [done|]. split; [done|].
  split; [by eapply run_snoc|]. intros m' [Hx|Hx%elem_of_list_singleton]%elem_of_app; [by apply (H4 m')|by apply (Hv m')].
Qed.
(** nothing of client [i] happened *)
Lemma explained_other es st i s v st' s' : explained es st i s -> step st v st' -> (forall m', v <> EMsg i m') -> op1 i v = [] ->
  ws_job s' = ws_job s -> ws_mode s' = ws_mode s -> ws_subs s' = ws_subs s -> explained (es ++ [v]) st' i s'.
Proof.
  intros (m & st1 & st2 & es2 & s1 & s2 & H1 & H2 & H3 & H4 & H5 & H6 & H7) Hs Hv Ho E1 E2 E3.
  exists m, st1, st2, (es2 ++ [v]), s1, s2. rewrite ops_snoc, Ho, app_nil_r, E1, E2, E3. split; [by eapply latest_snoc|done].
Qed.
Lemma explained_work es st i s o r st' s' l : explained es st i s -> step st (EWork i o r) st' -> ws_job s = o :: l -> ws_job s' = l ->
  ws_mode s' = ws_mode s -> ws_subs s' = ins1 (ws_subs s) o -> explained (es ++ [EWork i o r]) st' i s'.
Proof.
  intros (m & st1 & st2 & es2 & s1 & s2 & H1 & H2 & H3 & H4 & H5 & H6 & H7) Hs Ej E1 E2 E3.
  exists m, st1, st2, (es2 ++ [EWork i o r]), s1, s2. rewrite ops_snoc. cbn [op1]. rewrite decide_True by done.
  rewrite fold_left_app, E1, E2, E3, <- H7, H5, Ej, <- app_assoc. split; [by eapply latest_snoc|done].
Qed.
(** a reply comes before what is fetched *)
Definition early (o : wop) : Prop := match o with WFetch | WPop _ | WFlush => True | _ => False end.
Lemma text_jobs l s t o j : ws_job s = [] -> ws_job (on_text l s t) = j -> forall p q, j = p ++ o :: q -> early o -> forall r, WReply r ∉ q.
Proof.
  intros Hj <-. unfold Apps.on_text. repeat case_match; cbn; rewrite ?Hj; intros p q E He r Hr;
    repeat (destruct p as [|? p]; cbn in E; [first [discriminate E | injection E as <- <-; try done; rewrite ?elem_of_cons, ?elem_of_nil in Hr; intuition congruence]|
      first [discriminate E | injection E as _ E]]).
Qed.
Lemma bin_jobs cts s d o j : ws_job s = [] -> ws_job (fst (on_binary cts s d)) = j -> forall p q, j = p ++ o :: q -> early o -> False.
Proof.
  intros Hj <-. unfold Apps.on_binary. repeat case_match; cbn; rewrite ?Hj; intros p q E He;
    (destruct p as [|? p]; [first [discriminate E | injection E as <- _; done]|first [discriminate E|injection E as _ E; by destruct p]]).
Qed.
Lemma no_early es st i s o l : explained es st i s -> ws_job s = o :: l -> early o -> forall r, WReply r ∉ ws_job s.
Proof.
  intros (m & st1 & st2 & es2 & s1 & s2 & (es1 & _ & _ & Hs & _) & H2 & H3 & H4 & H5 & _) Ej He r. rewrite Ej.
  intros [E|Hr]%elem_of_cons; [by rewrite <- E in He|].
  inversion Hs as [| | | | | | |? ? s0 t Hs0 Ho Hj|? ? s0 d cts s' ob Hs0 Ho Hj Hb|? ? s0 Hs0 Ho Hj|? ? s0 Hs0 Ho Hj| | | | | | | | | | | |]; subst;
    rewrite Hs0 in H2; injection H2 as ->; cbn [a_sessions set_session] in H4.
  - rewrite list_lookup_insert in H4 by (by eapply lookup_lt_Some). injection H4 as <-.
    by eapply (text_jobs (a_agents st1) s1 t o _ H3 eq_refl); [rewrite H5, Ej|..].
  - rewrite list_lookup_insert in H4 by (by eapply lookup_lt_Some). injection H4 as <-. rewrite Ej in H5.
    eapply (bin_jobs cts s1 d o (ws_job s') H3); [by rewrite Hb|exact H5|done].
  - rewrite list_lookup_insert in H4 by (by eapply lookup_lt_Some). injection H4 as <-. cbn in H5. rewrite Hj, Ej in H5. by destruct (ops i es2).
  - rewrite Hs0 in H4. injection H4 as <-. rewrite Hj, Ej in H5. by destruct (ops i es2).
Qed.

Lemma Inv_step es st v st' : run start es st -> Inv es st -> step st v st' -> Inv (es ++ [v]) st'.
Proof.
  intros Hrun HI H k s' Hk [r Hr].
  assert (Hoth : forall s, a_sessions st !! k = Some s -> (forall m', v <> EMsg k m') -> op1 k v = [] ->
    ws_job s' = ws_job s -> ws_mode s' = ws_mode s -> ws_subs s' = ws_subs s -> explained (es ++ [v]) st' k s').
  { intros s Hs Hv Ho E1 E2 E3. eapply explained_other; [apply (HI k s Hs); rewrite <- E1; eauto|done..]. }
  assert (Hop : forall j o x, v = EWork j o x -> j <> k -> op1 k v = []) by (intros j o x -> Hn; cbn; by rewrite decide_False).
  assert (Hset : forall i s0 s1, <[i := s1]> (a_sessions st) !! k = Some s0 -> a_sessions st !! i = Some s0 \/ True) by tauto. clear Hset.
  pose proof H as Hstep.
  destruct H; cbn [a_sessions upd set_session] in Hk; try (by eapply Hoth).
  - (* passed *) apply list_lookup_insert_Some in Hk as [[<- [<- _]]|[_ Hk]]; by eapply Hoth.
  - (* open *) apply lookup_app_Some in Hk as [Hk|[_ Hk]]; [by eapply Hoth|]. apply list_lookup_singleton_Some in Hk as [_ <-]. by apply elem_of_nil in Hr.
  - (* text *) apply list_lookup_insert_Some in Hk as [[<- [<- Hl]]|[Hn Hk]]; [|eapply Hoth; try done; intros; congruence].
    exists (MText t), st, (set_session st i (on_text (a_agents st) s t)), [], s, (on_text (a_agents st) s t).
    split; [exists es; split; [done|]; split; [done|]; split; [done|]; split; [constructor|by intros ? ?%elem_of_nil]|].
    split; [done|]. split; [done|]. split; [cbn; by rewrite list_lookup_insert|done].
  - (* binary *) apply list_lookup_insert_Some in Hk as [[<- [<- Hl]]|[Hn Hk]]; [|eapply Hoth; try done; intros; congruence].
    exists (MBin d), st, (AppState (a_agents st) (<[i := s'0]> (a_sessions st)) (a_sent st ++ option_list ob)), [], s, s'0.
    split; [exists es; split; [done|]; split; [done|]; split; [done|]; split; [constructor|by intros ? ?%elem_of_nil]|].
    split; [done|]. split; [done|]. split; [cbn; by rewrite list_lookup_insert|done].
  - (* ping *) apply list_lookup_insert_Some in Hk as [[<- [<- Hl]]|[Hn Hk]]; [|eapply Hoth; try done; intros; congruence].
    cbn in Hr. rewrite H1 in Hr. by apply elem_of_nil in Hr.
  - (* pong *) destruct (decide (i = k)) as [->|Hn]; [|eapply Hoth; try done; intros; congruence]. rewrite H in Hk. injection Hk as <-. rewrite H1 in Hr. by apply elem_of_nil in Hr.
  - (* set *) apply list_lookup_insert_Some in Hk as [[<- [<- Hl]]|[Hn Hk]]; [|eapply Hoth; try done; by eapply Hop].
    eapply explained_work; [apply (HI i s H); exists r; rewrite H0; right; exact Hr|done..].
  - (* ins *) apply list_lookup_insert_Some in Hk as [[<- [<- Hl]]|[Hn Hk]]; [|eapply Hoth; try done; by eapply Hop].
    eapply explained_work; [apply (HI i s H); exists r; rewrite H0; right; exact Hr|done..].
  - (* reply *) apply list_lookup_insert_Some in Hk as [[<- [<- Hl]]|[Hn Hk]]; [|eapply Hoth; try done; by eapply Hop].
    eapply explained_work; [apply (HI i s H); exists r; rewrite H0; right; exact Hr|done..].
  - (* fetch *) apply list_lookup_insert_Some in Hk as [[<- [<- Hl]]|[Hn Hk]]; [|eapply Hoth; try done; by eapply Hop].
    exfalso. cbn in Hr. apply elem_of_app in Hr as [(? & ? & _)%elem_of_list_fmap|[?|Hr]%elem_of_cons]; try done.
    assert (Hx : WReply r ∈ ws_job s) by (rewrite H0; by right). by apply (no_early es st i s _ _ (HI i s H (ex_intro _ r Hx)) H0 I r).
  - (* pop *) apply list_lookup_insert_Some in Hk as [[<- [<- Hl]]|[Hn Hk]]; [|eapply Hoth; try done; by eapply Hop].
    exfalso. assert (Hx : WReply r ∈ ws_job s) by (rewrite H0; by right). by apply (no_early es st i s _ _ (HI i s H (ex_intro _ r Hx)) H0 I r).
  - (* flush *) apply list_lookup_insert_Some in Hk as [[<- [<- Hl]]|[Hn Hk]]; [|eapply Hoth; try done; by eapply Hop].
    exfalso. assert (Hx : WReply r ∈ ws_job s) by done. by apply (no_early es st i s _ _ (HI i s H (ex_intro _ r Hx)) H0 I r).
  - (* flushed *) apply list_lookup_insert_Some in Hk as [[<- [<- Hl]]|[Hn Hk]]; [|eapply Hoth; try done; by eapply Hop].
    exfalso. assert (Hx : WReply r ∈ ws_job s) by (rewrite H0; by right). by apply (no_early es st i s _ _ (HI i s H (ex_intro _ r Hx)) H0 I r).
  - (* clear *) apply list_lookup_insert_Some in Hk as [[<- [<- Hl]]|[Hn Hk]]; [|eapply Hoth; try done; by eapply Hop].
    eapply explained_work; [apply (HI i s H); exists r; rewrite H0; right; exact Hr|done..].
  - (* take *) apply list_lookup_insert_Some in Hk as [[<- [<- _]]|[_ Hk]]; by eapply Hoth.
  - (* hand *) apply list_lookup_insert_Some in Hk as [[<- [<- _]]|[_ Hk]]; by eapply Hoth.
  - (* close *) apply list_lookup_insert_Some in Hk as [[<- [<- _]]|[_ Hk]]; [|by eapply Hoth]. cbn in Hr. by apply elem_of_list_fmap in Hr as (? & ? & _).
  - (* drop *) apply list_lookup_insert_Some in Hk as [[<- [<- _]]|[_ Hk]]; by eapply Hoth.
Qed.
Lemma Inv_run es st : run start es st -> Inv es st.
Proof.
  revert st. induction es as [|v es IH] using rev_ind; intros st H.
  - inversion H; subst. intros i s Hs. by destruct i.
  - apply run_app in H as (st1 & H1 & H2). inversion H2 as [|? ? st1' ? ? H3 H4]; subst. inversion H4; subst. by eapply Inv_step; [|apply IH|].
Qed.
Lemma known_registered e st : known e (a_agents st) = true <-> registered e st.
Proof.
  unfold known, registered. rewrite existsb_exists. split; intros (a & Ha & He); exists a; rewrite elem_of_list_In in *; split; try done; by apply bool_decide_eq_true in He || apply bool_decide_eq_true.
Qed.

Lemma word_of t c a : split_space (trim t) "" = (c, a) -> word c t /\ (forall x, a = Some x -> trim t = c +:+ " " +:+ x) /\ (a = None -> trim t = c).
Proof.
  destruct a as [x|]; intros E.
  - apply split_space_arg in E. change (trim t = c +:+ " " +:+ x) in E. split; [right; eauto|]. split; [by intros ? [= <-]|done].
  - apply split_space_none in E. change (trim t = c) in E. split; [by left|]. split; [done|by intros].
Qed.

Lemma work_none st es st' i o : run st es st' -> match o with WSet _ | WClear _ => True | _ => False end -> o ∈ ops i es -> EWork i o None ∈ es.
Proof.
  intros Hr Ho [r Hx]%ops_in. apply elem_of_list_split in Hx as (t1 & t2 & ->). apply run_app in Hr as (st1 & _ & H2).
  inversion H2 as [|? ? ? ? ? H3]; subst. apply elem_of_app. right. destruct o; try done; inversion H3; subst; left.
Qed.
(** the reply in a list of accesses, and those before it *)
Ltac reply_in H5 :=
  match type of H5 with _ = ?os ++ WReply _ :: _ =>
    let E := fresh "Eo" in remember os as os' eqn:E;
    repeat (destruct os' as [|? os']; cbn in H5; [first [discriminate H5 | injection H5 as <- <-]|first [discriminate H5 | injection H5 as <- H5]])
  end.
Ltac no_begin := match goal with H : begins _ _ |- _ => by destruct H as [? H] end.
Lemma reply_start es st i r st' s : run start es st -> step st (EWork i (WReply r) None) st' -> a_sessions st !! i = Some s ->
  explained es st i s /\ exists l, ws_job s = WReply r :: l.
Proof.
  intros Hr Hs Hi. inversion Hs as [| | | | | | | | | | | | |? ? s0 ? l Hs0 Hj| | | | | | | | |]; subst. rewrite Hi in Hs0. injection Hs0 as <-. split; [|eauto].
  apply (Inv_run es st Hr i s Hi). exists r. rewrite Hj. left.
Qed.

(** What a client is told with "200" has been done: the name of the node, the
    mode is the one asked for, the client was put down for an endpoint that was
    registered, or no longer is, or the bundle was submitted. *)
Theorem C168_confirmed_partial : forall es st i r st' s, run start es st -> step st (EWork i (WReply r) None) st' -> begins "200 " r ->
  a_sessions st !! i = Some s ->
  exists m st1 st2 es2, latest es st i m st1 st2 es2 /\
    match m with
    | MText t =>
        (word "/node" t /\ r = "200 node: " +:+ eid_string host) \/
        (word "/bundle" t /\ ws_mode s = MBundle) \/ (word "/data" t /\ ws_mode s = MData FCbor) \/ (word "/json" t /\ ws_mode s = MData FJson) \/
        (exists a e, trim t = "/subscribe " +:+ a /\ names a e /\ registered e st1 /\
           EWork i (WSet e) None ∈ es2 /\ e ∈ default [] (ws_subs s)) \/
        (exists a e, trim t = "/unsubscribe " +:+ a /\ parse_eid a = Some e /\
           EWork i (WClear e) None ∈ es2 /\ e ∉ default [] (ws_subs s))
    | MBin d => exists b, a_sent st2 = a_sent st1 ++ [b]
    | _ => False
    end.
Proof.
  intros es st i r st' s Hrun Hs Hb Hi. destruct (reply_start _ _ _ _ _ _ Hrun Hs Hi) as ((m & st1 & st2 & es2 & s1 & s2 & HL & H2 & H3 & H4 & H5 & H6 & H7) & l & Ej).
  exists m, st1, st2, es2. split; [done|]. destruct HL as (es1 & _ & _ & Hm & Hr2 & _). rewrite Ej in H5. clear Hs Hrun.
  inversion Hm as [| | | | | | |? ? s0 t Hs0 Ho Hj|? ? s0 d cts s' ob Hs0 Ho Hj Hx|? ? s0 Hs0 Ho Hj|? ? s0 Hs0 Ho Hj| | | | | | | | | | | |]; subst;
    rewrite Hs0 in H2; injection H2 as ->; cbn [a_sessions set_session] in H4.
  - rewrite list_lookup_insert in H4 by (by eapply lookup_lt_Some). injection H4 as <-. rewrite H6, H7. clear H6 H7. unfold Apps.on_text in *.
    destruct (is_command (trim t)); [|rewrite H3 in H5; by destruct (ops i es2)].
    destruct (split_space (trim t) "") as [c a] eqn:Es. apply word_of in Es as (Hw & Ha & Hn).
    repeat case_bool_decide; try subst c; cbn [ws_job with_job with_mode with_subs ws_mode ws_subs] in *.
    + reply_in H5. by left.
    + reply_in H5. right. left. done.
    + reply_in H5. do 2 right. left. done.
    + reply_in H5. do 3 right. left. done.
    + destruct a as [a|]; [|rewrite H3 in H5; by destruct (ops i es2)]. specialize (Ha a eq_refl). destruct (parse_eid a) as [e|] eqn:Ep; [|cbn in *; reply_in H5; no_begin].
      destruct (ws_subs s1) as [subs|] eqn:Esub; [|cbn in *; reply_in H5; no_begin]. cbn in *. reply_in H5. do 5 right. exists a, e. split; [done|]. split; [done|].
      split; [eapply work_none; [done..|rewrite <- Eo; left]|cbn; rewrite elem_of_list_filter; tauto].
    + destruct a as [a|]; [|cbn in *; reply_in H5; no_begin]. specialize (Ha a eq_refl). do 4 right. left. exists a.
      destruct (parse_eid a) as [e|] eqn:Ep.
      * destruct (known e (a_agents st1)) eqn:Ek; [|cbn in *; reply_in H5; no_begin]. cbn in *. reply_in H5. exists e. split; [done|]. split; [by left|]. split; [by apply known_registered|].
        split; [eapply work_none; [done..|rewrite <- Eo; left]|]. cbn. case_decide; [done|left].
      * destruct (local_eid a) as [e|] eqn:El; [|cbn in *; reply_in H5; no_begin].
        destruct (known e (a_agents st1)) eqn:Ek; [|cbn in *; reply_in H5; no_begin]. cbn in *. reply_in H5. exists e. split; [done|]. split; [by right|]. split; [by apply known_registered|].
        split; [eapply work_none; [done..|rewrite <- Eo; left]|]. cbn. case_decide; [done|left].
    + reply_in H5. no_begin.
  - rewrite list_lookup_insert in H4 by (by eapply lookup_lt_Some). injection H4 as <-. cbn [a_sent]. unfold Apps.on_binary in Hx.
    repeat case_match; injection Hx as <- <-; cbn in H5; try rewrite H3 in H5; try (by destruct (ops i es2)); reply_in H5; first [no_begin | by eexists].
  - rewrite list_lookup_insert in H4 by (by eapply lookup_lt_Some). injection H4 as <-. cbn in H5. rewrite Hj in H5. by destruct (ops i es2).
  - rewrite Hs0 in H4. injection H4 as <-. rewrite Hj in H5. by destruct (ops i es2).
Qed.
(** What a client is told with anything else has not been done, nor anything
    else: neither the session nor the endpoints changed and nothing was
    submitted. "400" is for what cannot be read, "404" for an endpoint that is not
    registered or a client that never subscribed, "501" for other commands. *)
Theorem C168_refused_untouched : forall es st i r st' s, run start es st -> step st (EWork i (WReply r) None) st' -> ~ begins "200 " r ->
  a_sessions st !! i = Some s ->
  exists m st1 st2 es2 s1, latest es st i m st1 st2 es2 /\ a_sessions st1 !! i = Some s1 /\
    (forall o x, EWork i o x ∉ es2) /\ ws_mode s = ws_mode s1 /\ ws_subs s = ws_subs s1 /\
    a_agents st2 = a_agents st1 /\ a_sent st2 = a_sent st1 /\
    match m with
    | MText t =>
        (exists a, trim t = "/subscribe " +:+ a /\
           (begins "404 " r /\ (exists e, names a e /\ ~ registered e st1) \/ begins "400 " r /\ forall e, ~ names a e)) \/
        (trim t = "/subscribe" /\ begins "400 " r) \/
        (exists a, trim t = "/unsubscribe " +:+ a /\
           (begins "404 " r /\ ws_subs s1 = None \/ begins "400 " r /\ parse_eid a = None)) \/
        (begins "501 " r /\ Forall (fun c => ~ word c t) ["/node"; "/bundle"; "/data"; "/json"; "/subscribe"; "/unsubscribe"])
    | MBin d => begins "400 " r /\ match ws_mode s1 with MBundle => dec_bundle d = None | MData f => dec_send f d = None end
    | _ => False
    end.
Proof.
  intros es st i r st' s Hrun Hs Hb Hi. destruct (reply_start _ _ _ _ _ _ Hrun Hs Hi) as ((m & st1 & st2 & es2 & s1 & s2 & HL & H2 & H3 & H4 & H5 & H6 & H7) & l & Ej).
  exists m, st1, st2, es2, s1. split; [done|]. split; [done|]. destruct HL as (es1 & _ & _ & Hm & _). rewrite Ej in H5. clear Hs Hrun.
  assert (Hno : ops i es2 = [] -> forall o x, EWork i o x ∉ es2) by (intros E o x Hx%in_ops; rewrite E in Hx; by apply elem_of_nil in Hx).
  inversion Hm as [| | | | | | |? ? s0 t Hs0 Ho Hj|? ? s0 d cts s' ob Hs0 Ho Hj Hx|? ? s0 Hs0 Ho Hj|? ? s0 Hs0 Ho Hj| | | | | | | | | | | |]; subst;
    rewrite Hs0 in H2; injection H2 as ->; cbn [a_sessions set_session] in H4.
  - rewrite list_lookup_insert in H4 by (by eapply lookup_lt_Some). injection H4 as <-. rewrite H6, H7. clear H6 H7. unfold Apps.on_text in *.
    destruct (is_command (trim t)); [|rewrite H3 in H5; by destruct (ops i es2)].
    destruct (split_space (trim t) "") as [c a] eqn:Es. pose proof Es as Es'. apply word_of in Es as (Hw & Ha & Hn).
    Ltac yes Hb := exfalso; apply Hb; eexists; reflexivity.
    Ltac same Eo Hno := split; [by apply Hno|]; do 4 (split; [done|]).
    repeat case_bool_decide; try subst c; cbn [ws_job with_job with_mode with_subs ws_mode ws_subs a_sent a_agents set_session] in *.
    + reply_in H5. yes Hb.
    + reply_in H5. yes Hb.
    + reply_in H5. yes Hb.
    + reply_in H5. yes Hb.
    + destruct a as [a|]; [|rewrite H3 in H5; by destruct (ops i es2)]. specialize (Ha a eq_refl). destruct (parse_eid a) as [e|] eqn:Ep.
      * destruct (ws_subs s1) as [subs|] eqn:Esub; cbn in *; reply_in H5; [yes Hb|]. same Eo Hno. do 2 right. left. exists a. split; [done|]. left. split; [by eexists|done].
      * cbn in *. reply_in H5. same Eo Hno. do 2 right. left. exists a. split; [done|]. right. split; [by eexists|done].
    + destruct a as [a|]; [|cbn in *; reply_in H5; same Eo Hno; right; left; split; [by apply Hn|by eexists]]. specialize (Ha a eq_refl).
      destruct (parse_eid a) as [e|] eqn:Ep.
      * destruct (known e (a_agents st1)) eqn:Ek; cbn in *; reply_in H5; [yes Hb|]. same Eo Hno. left. exists a. split; [done|]. left. split; [by eexists|]. exists e. split; [by left|].
        intros He%known_registered. congruence.
      * destruct (local_eid a) as [e|] eqn:El.
        -- destruct (known e (a_agents st1)) eqn:Ek; cbn in *; reply_in H5; [yes Hb|]. same Eo Hno. left. exists a. split; [done|]. left. split; [by eexists|]. exists e. split; [by right|].
           intros He%known_registered. congruence.
        -- cbn in *. reply_in H5. same Eo Hno. left. exists a. split; [done|]. right. split; [by eexists|]. intros e [He|[_ He]]; congruence.
    + reply_in H5. same Eo Hno. do 3 right. split; [by eexists|].
      assert (Hword : forall w, word w t -> split_space w "" = (w, None) -> (forall x, split_space (w +:+ " " +:+ x) "" = (w, Some x)) -> c = w).
      { intros w [E|[x E]] E1 E2; rewrite E in Es'; [rewrite E1 in Es'|rewrite E2 in Es']; by injection Es' as <- _. }
      repeat constructor; intros Hww; (apply Hword in Hww; [congruence|reflexivity|intros; reflexivity]).
  - rewrite list_lookup_insert in H4 by (by eapply lookup_lt_Some). injection H4 as <-. rewrite H6, H7. cbn [a_sent a_agents]. unfold Apps.on_binary in Hx.
    destruct (ws_mode s1) as [|f] eqn:Em; repeat case_match; injection Hx as <- <-; cbn in *; try rewrite H3 in H5; try (by destruct (ops i es2)); reply_in H5; first [yes Hb | idtac];
      (split; [by apply Hno|]); (split; [done|]); (split; [done|]); (split; [done|]); (split; [by rewrite app_nil_r|]); (split; [by eexists|done]).
  - rewrite list_lookup_insert in H4 by (by eapply lookup_lt_Some). injection H4 as <-. cbn in H5. rewrite Hj in H5. by destruct (ops i es2).
  - rewrite Hs0 in H4. injection H4 as <-. rewrite Hj in H5. by destruct (ops i es2).
Qed.
End replies.
Print Assumptions C168_confirmed_partial.
Print Assumptions C168_refused_untouched.

(** The full claim for "/subscribe": a client that is told it is subscribed gets
    the bundles of an endpoint. *)
Definition C168_full : Prop := forall parse_eid host local_eid dec_bundle dec_send es st i st' s,
  Apps.run parse_eid host local_eid dec_bundle dec_send start es st ->
  Apps.step parse_eid host local_eid dec_bundle dec_send st (EWork i (WReply "200 subscribed") None) st' -> a_sessions st !! i = Some s ->
  exists e a, e ∈ default [] (ws_subs s) /\ a ∈ a_agents st /\ ag_eid a = e /\ ag_sub a = Some i.
(** The endpoint is unregistered after it was looked up: the client is told it is
    subscribed. *)
Definition es168 : list ev :=
  [ERegister A; EOpen; EMsg 0 (MText "/subscribe dtn://n/a"); EUnregister A; EWork 0 (WSet A) None; EWork 0 (WIns A) None].
Definition s168 : session := Session true true [] None (MData FJson) (Some [A]) [WReply "200 subscribed"; WFetch] [] [].
Lemma es168_run : run0 start es168 (AppState [] [s168] []).
Proof. unfold es168, start. go s_register. go s_open. go s_text. go s_unregister. go s_set. go s_ins. fin. Qed.
Theorem C168_subscribed_refuted : ~ C168_full.
Proof.
  intros H. destruct (H pe0 (Dtn "n" "") le0 db0 ds0 es168 (AppState [] [s168] []) 0%nat
    (set_session (AppState [] [s168] []) 0 (with_job (with_out s168 [OText "200 subscribed"]) [WFetch])) s168 es168_run) as (e & a & _ & Ha & _); [|done|].
  - exact (s_reply pe0 (Dtn "n" "") le0 db0 ds0 (AppState [] [s168] []) 0%nat s168 "200 subscribed" [WFetch] eq_refl eq_refl).
  - by apply elem_of_nil in Ha.
Qed.
Print Assumptions C168_subscribed_refuted.

(** A client is refused: it names an endpoint that is not registered; then it
    subscribes to one that is. *)
Definition es169 : list ev :=
  [ERegister A; EOpen; EMsg 0 (MText "/subscribe dtn://n/b"); EWork 0 (WReply "404 unknown endpoint") None;
   EMsg 0 (MText "/subscribe dtn://n/a"); EWork 0 (WSet A) None; EWork 0 (WIns A) None; EWork 0 (WReply "200 subscribed") None].
Definition pe168 (s : string) : option eid := if bool_decide (s = "dtn://n/b") then Some (Dtn "n" "b") else pe0 s.
Example C168_case : exists st, run pe168 (Dtn "n" "") le0 db0 ds0 start es169 st /\
  (exists s, a_sessions st !! 0%nat = Some s /\ ws_out s = [OText "404 unknown endpoint"; OText "200 subscribed"]) /\
  (exists a, a ∈ a_agents st /\ ag_eid a = A /\ ag_sub a = Some 0%nat).
Proof.
  eexists. split; [|split].
  - unfold es169, start. go s_register. go s_open. go s_text. go s_reply. go s_text. go s_set. go s_ins. go s_reply. fin.
  - eexists. split; reflexivity.
  - eexists. split; [left|done].
Qed.
