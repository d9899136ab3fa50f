(** Proofs on the heartbeat of websocket sessions. *)
From stdpp Require Import prelude strings gmap.
From Coq Require Import NArith Lia ZifyBool ZifyN ZifyNat.
From Verif Require Import Core Routing Apps WsBeat.
Open Scope N_scope.

(** ** Heartbeats change nothing but what is written *)
Definition quiet_s (s : session) : session :=
  Session (ws_open s) (ws_rx s) (ws_chan s) (ws_hand s) (ws_mode s) (ws_subs s) (ws_job s)
    (ws_held s) (no_pings (ws_out s)).
Definition quiet (st : apps) : apps := AppState (a_agents st) (quiet_s <$> a_sessions st) (a_sent st).
Definition hush (e : ev) : ev := match e with EMsg i MPing => EMsg i MPong | _ => e end.

Lemma no_pings_app a b : no_pings (a ++ b) = no_pings a ++ no_pings b.
Proof. apply flat_map_app. Qed.
Lemma no_pings_render m b : no_pings (option_list (render m b)) = option_list (render m b).
Proof. destruct m as [|f]; cbn; [done|]. by destruct (payload_of b). Qed.
Lemma quiet_insert st i s ag sent : quiet (AppState ag (<[i := s]> (a_sessions st)) sent) = AppState ag (<[i := quiet_s s]> (a_sessions (quiet st))) sent.
Proof. unfold quiet. cbn. by rewrite list_fmap_insert. Qed.

Section run.
Context (parse_eid : string -> option eid) (host : eid) (local_eid : string -> option eid).
Context (dec_bundle : list N -> option bundle) (dec_send : fmt -> list N -> option send_data).
Notation step := (step parse_eid host local_eid dec_bundle dec_send).
Notation run := (run parse_eid host local_eid dec_bundle dec_send).
Notation bstep := (bstep parse_eid host local_eid dec_bundle dec_send).
Notation bruns := (bruns parse_eid host local_eid dec_bundle dec_send).
Notation on_text := (on_text parse_eid host local_eid).
Notation on_binary := (on_binary parse_eid dec_bundle dec_send).

Lemma on_text_quiet l s t : quiet_s (on_text l s t) = on_text l (quiet_s s) t.
Proof.
  unfold on_text. destruct (is_command _); [|done]. destruct (split_space _ _) as [c arg].
  repeat (destruct (bool_decide _); [try done|]); try done; destruct arg as [a|]; try done; destruct (parse_eid a); try done.
  - cbn [ws_subs quiet_s]. by destruct (ws_subs s).
  - by destruct (known _ l).
  - destruct (local_eid a); [|done]. by destruct (known _ l).
Qed.
Lemma on_binary_quiet cts s d s' ob : on_binary cts s d = (s', ob) -> on_binary cts (quiet_s s) d = (quiet_s s', ob).
Proof.
  unfold on_binary. cbn [ws_mode quiet_s]. destruct (ws_mode s).
  - destruct (dec_bundle d); by intros [= <- <-].
  - destruct (dec_send _ d) as [r|]; [|by intros [= <- <-]]. destruct (bundle_of _ cts r); by intros [= <- <-].
Qed.
Lemma insert_same (l : list session) i s : l !! i = Some s -> <[i := s]> l = l.
Proof. apply list_insert_id. Qed.
Lemma held_ok st e st' : step st e st' -> (forall i s, a_sessions st !! i = Some s -> Forall (fun x => snd x <> OPing) (ws_held s)) ->
  forall i s, a_sessions st' !! i = Some s -> Forall (fun x => snd x <> OPing) (ws_held s).
Proof.
  intros Hs H i s0. destruct Hs; cbn [a_sessions upd set_session]; try (by apply H);
    try (intros Hl; destruct (decide (i0 = i)) as [-> |Hn]; [|rewrite list_lookup_insert_ne in Hl by done; by apply (H i)];
         match goal with H1 : a_sessions st !! i = Some ?s1 |- _ => pose proof (H i s1 H1); rewrite list_lookup_insert in Hl by (by eapply lookup_lt_Some) end;
         injection Hl as <-; try done).
  - intros Hl. apply lookup_app_Some in Hl as [Hl|[_ Hl]]; [by apply (H i)|]. destruct (i - _)%nat; [|done]. injection Hl as <-. constructor.
  - unfold Apps.on_text. repeat (case_match; cbn; try done).
  - match goal with E : on_binary _ _ _ = _ |- _ => revert E end. unfold Apps.on_binary. repeat case_match; intros [= <- <-]; done.
  - cbn. apply Forall_app. split; [done|]. destruct r as [b|]; [|constructor]. destruct (render (ws_mode s) b) eqn:E; constructor; [|constructor].
    cbn. revert E. unfold render. destruct (ws_mode s); [by intros [= <-]|]. destruct (payload_of b); by intros [= <-].
  - cbn. match goal with E : ws_held s = _ |- _ => rewrite E in * end.
    match goal with F : Forall _ (_ :: _) |- _ => by apply Forall_cons in F as [_ ?] end.
  - constructor.
Qed.
Definition all_held (st : apps) : Prop := forall i s, a_sessions st !! i = Some s -> Forall (fun x => snd x <> OPing) (ws_held s).
Lemma quiet_lookup st i s : a_sessions st !! i = Some s -> a_sessions (quiet st) !! i = Some (quiet_s s).
Proof. intros H. cbn. by rewrite list_lookup_fmap, H. Qed.
Lemma step_quiet st e st' : all_held st -> step st e st' -> step (quiet st) (hush e) (quiet st').
Proof.
  intros Hh Hs. destruct Hs; cbn [hush]; unfold set_session, upd; try rewrite quiet_insert;
    try match goal with H1 : a_sessions st !! ?i = Some ?s1 |- _ => pose proof (quiet_lookup _ _ _ H1) as Hq end.
  - apply s_register.
  - apply s_unregister.
  - by apply s_none.
  - eapply s_queue; [done|]. intros i s Hi Hl. cbn in Hl. rewrite list_lookup_fmap in Hl.
    destruct (a_sessions st !! i) as [s1|] eqn:E; [|done]. injection Hl as <-. by apply (H0 i s1).
  - by apply (s_pass _ _ _ _ _ (quiet st) b a i (quiet_s s)).
  - by apply s_poll.
  - unfold quiet. cbn. rewrite fmap_app. apply s_open.
  - rewrite on_text_quiet. by apply (s_text _ _ _ _ _ (quiet st) i (quiet_s s) t).
  - apply (s_bin _ _ _ _ _ (quiet st) i (quiet_s s) d cts (quiet_s s') ob); try done. by apply on_binary_quiet.
  - replace (quiet_s (with_out s (ws_out s ++ [OPing]))) with (quiet_s s) by (unfold quiet_s; cbn; by rewrite no_pings_app, app_nil_r).
    rewrite list_insert_id by done. by apply (s_pong _ _ _ _ _ (quiet st) i (quiet_s s)).
  - by apply (s_pong _ _ _ _ _ (quiet st) i (quiet_s s)).
  - by apply (s_set _ _ _ _ _ (quiet st) i (quiet_s s) e l).
  - by apply (s_ins _ _ _ _ _ (quiet st) i (quiet_s s) e l).
  - unfold quiet_s, with_job, with_out. cbn. rewrite no_pings_app. by apply (s_reply _ _ _ _ _ (quiet st) i (quiet_s s) t l).
  - by apply (s_fetch _ _ _ _ _ (quiet st) i (quiet_s s) ord l).
  - by apply (s_pop _ _ _ _ _ (quiet st) i (quiet_s s) e l r).
  - unfold quiet_s, with_held, with_out. cbn. rewrite no_pings_app.
    replace (no_pings [o]) with [o] by (pose proof (Hh i s H) as F; rewrite H1 in F; apply Forall_cons in F as [F _]; cbn in F; by destruct o).
    by apply (s_flush _ _ _ _ _ (quiet st) i (quiet_s s) b o h l).
  - by apply (s_flushed _ _ _ _ _ (quiet st) i (quiet_s s) l).
  - by apply (s_clear _ _ _ _ _ (quiet st) i (quiet_s s) e l).
  - by apply (s_take _ _ _ _ _ (quiet st) i (quiet_s s) b l).
  - unfold quiet_s, with_chan, with_out. cbn. rewrite no_pings_app, no_pings_render.
    by apply (s_hand _ _ _ _ _ (quiet st) i (quiet_s s) b).
  - by apply (s_close _ _ _ _ _ (quiet st) i (quiet_s s) ord).
  - by apply (s_drop _ _ _ _ _ (quiet st) i (quiet_s s)).
Qed.
Lemma ping_quiet st i : quiet (ping st i) = quiet st.
Proof.
  unfold ping. destruct (a_sessions st !! i) as [s|] eqn:E; [|done]. unfold set_session. rewrite quiet_insert. cbn.
  unfold quiet. f_equal. apply list_insert_id. rewrite list_lookup_fmap, E. cbn. f_equal. unfold quiet_s. cbn. by rewrite no_pings_app, app_nil_r.
Qed.
Lemma ping_held st i : all_held st -> all_held (ping st i).
Proof.
  intros H j s. unfold ping. destruct (a_sessions st !! i) as [s1|] eqn:E; [|apply H]. cbn.
  destruct (decide (i = j)) as [-> |Hn]; [|rewrite list_lookup_insert_ne by done; apply H].
  rewrite list_lookup_insert by (by eapply lookup_lt_Some). intros [= <-]. by apply (H j s1).
Qed.
(** the events of the sessions behind an event *)
Definition plain (v : bev) : list ev :=
  match v with
  | BEv _ e => [hush e]
  | BTick i _ _ true | BEnd _ i => [EClose i]
  | BTick _ _ _ false => []
  end.
Lemma bruns_quiet st tr st' : all_held (bs_apps st) -> bruns st tr st' -> all_held (bs_apps st') /\ run (quiet (bs_apps st)) (flat_map plain (map fst tr)) (quiet (bs_apps st')).
Proof.
  intros Hh Hr. induction Hr as [|st v st1 tr st2 Hs Hr IH]; [split; [done|constructor]|].
  assert (A : all_held (bs_apps st1)).
  { destruct Hs; cbn in *; first [by apply ping_held|intros i0 s0; by eapply (held_ok st _ st')]. }
  destruct (IH A) as [A2 R]. split; [done|]. cbn [map fst flat_map].
  destruct Hs; cbn [plain app bs_apps] in *.
  - eapply run_step; [|exact R]. by apply step_quiet.
  - by rewrite ping_quiet in R.
  - eapply run_step; [|exact R]. by apply (step_quiet _ (EClose i)).
  - eapply run_step; [|exact R]. by apply (step_quiet _ (EClose i)).
Qed.

(** ** Time *)
Lemma bruns_app st x y st' : bruns st (x ++ y) st' <-> exists st1, bruns st x st1 /\ bruns st1 y st'.
Proof.
  revert st. induction x as [|[v s1] x IH]; intros st; cbn.
  - split; [intros H; exists st; split; [constructor|done]|intros (s & H & H'); by inversion H; subst].
  - split.
    + intros H. inversion H as [|a1 b1 c1 d1 e1 Hw Hx]; subst. apply IH in Hx as (s & Ha & Hb). exists s. split; [|done]. by econstructor.
    + intros (s & Ha & Hb). inversion Ha; subst. econstructor; [done|]. apply IH. eauto.
Qed.
Lemma bruns_one st v s1 st' : bruns st [(v, s1)] st' -> s1 = st' /\ bstep st v st'.
Proof. intros H. inversion H as [|a b c d e Hs Hr]; subst. by inversion Hr; subst. Qed.
Lemma bstep_time st v st' : bstep st v st' -> bs_now st' = time v /\ bs_now st <= time v.
Proof. by destruct 1. Qed.
Lemma bruns_times st tr st' : bruns st tr st' -> bs_now st <= bs_now st' /\ (forall v, v ∈ map fst tr -> bs_now st <= time v <= bs_now st').
Proof.
  induction 1 as [|st v st1 tr st2 Hs Hr [I1 I2]]; [split; [lia|intros v Hv; by apply elem_of_nil in Hv]|].
  destruct (bstep_time _ _ _ Hs). split; [lia|]. intros w Hw. cbn in Hw. apply elem_of_cons in Hw as [-> |Hw]; [lia|].
  specialize (I2 w Hw). lia.
Qed.
Lemma timely_app d st x st1 y st' : bruns st x st1 -> bruns st1 y st' -> timely d st (x ++ y) -> timely d st x /\ timely d st1 y.
Proof.
  intros Hx Hy. induction Hx as [|st v st1 x st2 Hs Hx IH]; [done|]. cbn. intros [H1 H2]. by destruct (IH Hy H2).
Qed.

(** what is known of each session's heartbeat *)
Record inv (tr : list bev) (st : beats) : Prop := Inv {
  i_len : length (bs_beats st) = length (a_sessions (bs_apps st));
  i_begin : forall i b, bs_beats st !! i = Some b -> opened tr !! i = Some (be_begin b);
  i_nbegin : length (opened tr) = length (bs_beats st);
  i_hb : forall i b, bs_beats st !! i = Some b -> be_hb b = be_begin b \/ be_hb b ∈ signs i tr;
  i_le : forall i b, bs_beats st !! i = Some b -> be_begin b <= be_hb b <= bs_now st;
  i_signs : forall i b u, bs_beats st !! i = Some b -> u ∈ signs i tr -> u <= be_hb b;
  i_past : forall i u, u ∈ signs i tr -> u <= bs_now st;
  i_tick : forall i b, bs_beats st !! i = Some b -> be_ticks b = 0 \/ be_begin b + HEARTBEAT_INTERVAL * (be_ticks b - 1) <= be_hb b + CLIENT_TIMEOUT
}.
Lemma step_len st e st' : step st e st' -> length (a_sessions st') = (length (a_sessions st) + match e with EOpen => 1 | _ => 0 end)%nat.
Proof. destruct 1; cbn; rewrite ?insert_length, ?app_length; cbn; lia. Qed.
Lemma opened_app a b : opened (a ++ b) = opened a ++ opened b.
Proof. apply flat_map_app. Qed.
Lemma signs_app i a b : signs i (a ++ b) = signs i a ++ signs i b.
Proof. apply flat_map_app. Qed.
Lemma beat_ev_spec t e l : (e = EOpen /\ beat_ev t e l = l ++ [Beat t t 0]) \/
  (e <> EOpen /\ exists i, sign e = Some i /\ beat_ev t e l = alter (fun x => Beat (be_begin x) t (be_ticks x)) i l) \/
  (e <> EOpen /\ sign e = None /\ beat_ev t e l = l).
Proof. destruct e as [| | | | |i []| | | | |]; cbn; eauto 10. Qed.
Lemma step_inv tr st v st' : inv tr st -> bstep st v st' -> inv (tr ++ [v]) st'.
Proof.
  intros I Hs. destruct I as [L B NB HB LE SG PA TK]. destruct Hs as [now st l t e st' Hn Hs He|now st l i t0 t s b Hn Ht Hl Ho Hb Hd Hok|now st l i t0 t s b st' Hn Ht Hl Ho Hb Hd Hbad Hs|now st l t i st' Hn Hs]; cbn [bs_now bs_apps bs_beats] in *.
  - pose proof (step_len _ _ _ Hs) as HL. destruct (beat_ev_spec t e l) as [[-> ->]|[(Ne & i & Hi & ->)|(Ne & Hi & ->)]].
    + assert (S0 : forall i, signs i (tr ++ [BEv t EOpen]) = signs i tr) by (intros i; by rewrite signs_app, app_nil_r).
      assert (O0 : opened (tr ++ [BEv t EOpen]) = opened tr ++ [t]) by (by rewrite opened_app).
      assert (X : forall i b, (l ++ [Beat t t 0]) !! i = Some b -> l !! i = Some b \/ i = length l /\ b = Beat t t 0).
      { intros i b H. apply lookup_app_Some in H as [H|[H1 H2]]; [by left|right]. destruct (i - length l)%nat eqn:E; [|done]. injection H2 as <-. split; [lia|done]. }
      split; cbn [bs_now bs_apps bs_beats]; rewrite ?O0.
      * rewrite app_length. cbn. lia.
      * intros i b H. destruct (X _ _ H) as [H'|[-> ->]]; [rewrite lookup_app_l by (rewrite NB; by eapply lookup_lt_Some); by apply B|].
        rewrite lookup_app_r by lia. by replace (length l - length (opened tr))%nat with 0%nat by lia.
      * rewrite !app_length. cbn. lia.
      * intros i b H. rewrite S0. destruct (X _ _ H) as [H'|[-> ->]]; [by apply HB|by left].
      * intros i b H. destruct (X _ _ H) as [H'|[-> ->]]; [pose proof (LE _ _ H'); lia|cbn; lia].
      * intros i b u H. rewrite S0. destruct (X _ _ H) as [H'|[-> ->]]; [by apply SG|]. cbn. intros Hu. pose proof (PA _ _ Hu). lia.
      * intros i u. rewrite S0. intros Hu. pose proof (PA _ _ Hu). lia.
      * intros i b H. destruct (X _ _ H) as [H'|[-> ->]]; [by apply (TK i)|by left].
    + assert (S0 : forall j, signs j (tr ++ [BEv t e]) = signs j tr ++ (if decide (j = i) then [t] else [])).
      { intros j. rewrite signs_app. cbn. rewrite app_nil_r, Hi. f_equal. destruct (decide (j = i)) as [-> |]; [by rewrite decide_True|rewrite decide_False by congruence; done]. }
      assert (O0 : opened (tr ++ [BEv t e]) = opened tr) by (rewrite opened_app; destruct e; try done; by rewrite app_nil_r).
      assert (X : forall j b, alter (fun x => Beat (be_begin x) t (be_ticks x)) i l !! j = Some b ->
        exists b0, l !! j = Some b0 /\ be_begin b = be_begin b0 /\ be_ticks b = be_ticks b0 /\ ((j = i /\ be_hb b = t) \/ (j <> i /\ be_hb b = be_hb b0))).
      { intros j b H. destruct (decide (i = j)) as [<- |N].
        - rewrite list_lookup_alter in H. destruct (l !! i) as [b0|] eqn:E; [|done]. injection H as <-. exists b0. cbn. eauto 10.
        - rewrite list_lookup_alter_ne in H by done. exists b. eauto 10. }
      split; cbn [bs_now bs_apps bs_beats]; rewrite ?O0, ?alter_length; try done.
      * destruct e; try done; cbn in HL; lia.
      * intros j b H. destruct (X _ _ H) as (b0 & H0 & -> & _). by apply B.
      * intros j b H. rewrite S0. destruct (X _ _ H) as (b0 & H0 & -> & _ & [[-> ->]|[Nj ->]]).
        -- right. apply elem_of_app. right. rewrite decide_True by done. by left.
        -- destruct (HB _ _ H0) as [?|?]; [by left|right]. apply elem_of_app. by left.
      * intros j b H. destruct (X _ _ H) as (b0 & H0 & -> & _ & [[-> ->]|[Nj ->]]); pose proof (LE _ _ H0); lia.
      * intros j b u H. rewrite S0. intros [Hu|Hu]%elem_of_app.
        -- destruct (X _ _ H) as (b0 & H0 & _ & _ & [[-> ->]|[Nj ->]]); [pose proof (PA _ _ Hu); lia|by eapply SG].
        -- destruct (decide (j = i)) as [-> |]; [|by apply elem_of_nil in Hu]. apply elem_of_list_singleton in Hu as ->.
           destruct (X _ _ H) as (b0 & H0 & _ & _ & [[_ ->]|[Nj _]]); [lia|done].
      * intros j u. rewrite S0. intros [Hu|Hu]%elem_of_app; [pose proof (PA _ _ Hu); lia|].
        destruct (decide (j = i)) as [-> |]; [|by apply elem_of_nil in Hu]. apply elem_of_list_singleton in Hu as ->. lia.
      * intros j b H. destruct (X _ _ H) as (b0 & H0 & -> & -> & [[-> ->]|[Nj ->]]); [|by apply (TK j)].
        pose proof (LE _ _ H0). destruct (TK i b0 H0) as [?|?]; [by left|right; lia].
    + assert (S0 : forall j, signs j (tr ++ [BEv t e]) = signs j tr) by (intros j; rewrite signs_app; cbn; rewrite Hi, decide_False by done; by rewrite app_nil_r).
      assert (O0 : opened (tr ++ [BEv t e]) = opened tr) by (rewrite opened_app; destruct e; try done; by rewrite app_nil_r).
      split; cbn [bs_now bs_apps bs_beats]; rewrite ?O0; try done.
      * destruct e; try done; cbn in HL; lia.
      * intros j b H. rewrite S0. by apply HB.
      * intros j b H. pose proof (LE _ _ H). lia.
      * intros j b u. rewrite S0. apply SG.
      * intros j u. rewrite S0. intros Hu. pose proof (PA _ _ Hu). lia.
  - assert (S0 : forall j, signs j (tr ++ [BTick i t0 t false]) = signs j tr) by (intros j; rewrite signs_app; by rewrite app_nil_r).
    assert (O0 : opened (tr ++ [BTick i t0 t false]) = opened tr) by (rewrite opened_app; by rewrite app_nil_r).
    assert (X : forall j b', alter (fun x => Beat (be_begin x) (be_hb x) (be_ticks x + 1)) i l !! j = Some b' ->
      exists b0, l !! j = Some b0 /\ be_begin b' = be_begin b0 /\ be_hb b' = be_hb b0 /\ ((j = i /\ be_ticks b' = be_ticks b0 + 1) \/ (j <> i /\ be_ticks b' = be_ticks b0))).
    { intros j b' H. destruct (decide (i = j)) as [<- |N].
      - rewrite list_lookup_alter in H. rewrite Hb in H. injection H as <-. exists b. cbn. eauto 10.
      - rewrite list_lookup_alter_ne in H by done. exists b'. eauto 10. }
    split; cbn [bs_now bs_apps bs_beats]; rewrite ?O0, ?alter_length; try done.
    + unfold ping. rewrite Hl. cbn. by rewrite insert_length.
    + intros j b' H. destruct (X _ _ H) as (b0 & H0 & -> & _). by apply B.
    + intros j b' H. rewrite S0. destruct (X _ _ H) as (b0 & H0 & -> & -> & _). by apply HB.
    + intros j b' H. destruct (X _ _ H) as (b0 & H0 & -> & -> & _). pose proof (LE _ _ H0). lia.
    + intros j b' u H. rewrite S0. destruct (X _ _ H) as (b0 & H0 & _ & -> & _). by apply SG.
    + intros j u. rewrite S0. intros Hu. pose proof (PA _ _ Hu). lia.
    + intros j b' H. destruct (X _ _ H) as (b0 & H0 & -> & -> & [[-> ->]|[Nj ->]]); [|by apply (TK j)].
      rewrite Hb in H0. injection H0 as <-. right. rewrite N.add_sub. lia.
  - pose proof (step_len _ _ _ Hs) as HL.
    assert (S0 : forall j, signs j (tr ++ [BTick i t0 t true]) = signs j tr) by (intros j; rewrite signs_app; by rewrite app_nil_r).
    assert (O0 : opened (tr ++ [BTick i t0 t true]) = opened tr) by (rewrite opened_app; by rewrite app_nil_r).
    split; cbn [bs_now bs_apps bs_beats]; rewrite ?O0; try done.
    + cbn in HL; lia.
    + intros j b' H. rewrite S0. by apply HB.
    + intros j b' H. pose proof (LE _ _ H). lia.
    + intros j b' u. rewrite S0. apply SG.
    + intros j u. rewrite S0. intros Hu. pose proof (PA _ _ Hu). lia.
  - pose proof (step_len _ _ _ Hs) as HL.
    assert (S0 : forall j, signs j (tr ++ [BEnd t i]) = signs j tr) by (intros j; rewrite signs_app; by rewrite app_nil_r).
    assert (O0 : opened (tr ++ [BEnd t i]) = opened tr) by (rewrite opened_app; by rewrite app_nil_r).
    split; cbn [bs_now bs_apps bs_beats]; rewrite ?O0; try done.
    + cbn in HL; lia.
    + intros j b' H. rewrite S0. by apply HB.
    + intros j b' H. pose proof (LE _ _ H). lia.
    + intros j b' u. rewrite S0. apply SG.
    + intros j u. rewrite S0. intros Hu. pose proof (PA _ _ Hu). lia.
Qed.
Lemma start_inv : inv [] bstart.
Proof. split; try done; intros i b; try by inversion 1. Qed.
Lemma runs_inv tr : forall st, bruns bstart tr st -> inv (map fst tr) st.
Proof.
  induction tr as [|[v s1] tr IH] using rev_ind; intros st H.
  - inversion H; subst. apply start_inv.
  - apply bruns_app in H as (st1 & H1 & H2). apply bruns_one in H2 as [-> H2]. rewrite map_app. cbn. eapply step_inv; eauto.
Qed.
(** an open session was open before, or is new *)
Lemma open_before st v st' i s : bstep st v st' -> a_sessions (bs_apps st') !! i = Some s -> ws_open s = true ->
  (exists s0, a_sessions (bs_apps st) !! i = Some s0 /\ ws_open s0 = true) \/ (i = length (a_sessions (bs_apps st)) /\ exists t, v = BEv t EOpen).
Proof.
  intros Hb. assert (K : forall st e st', step st e st' -> a_sessions st' !! i = Some s -> ws_open s = true ->
    (exists s0, a_sessions st !! i = Some s0 /\ ws_open s0 = true) \/ (i = length (a_sessions st) /\ e = EOpen)).
  { clear. intros st e st' Hs Hl Ho. destruct Hs; cbn [a_sessions upd set_session] in Hl; try (left; by exists s);
      try (destruct (decide (i0 = i)) as [-> |Hn]; [|rewrite list_lookup_insert_ne in Hl by done; left; by exists s];
           match goal with H1 : a_sessions st !! i = Some ?s1 |- _ => left; exists s1; rewrite list_lookup_insert in Hl by (by eapply lookup_lt_Some) end;
           injection Hl as <-; by split).
    apply lookup_app_Some in Hl as [Hl|[Hn Hl]]; [left; by exists s|right]. destruct (i - _)%nat eqn:E; [|done]. split; [lia|done]. }
  destruct Hb as [now st l t e st' Hn Hs He|now st l j t0 t s1 b Hn Ht Hl Ho Hb Hd Hok|now st l j t0 t s1 b st' Hn Ht Hl Ho Hb Hd Hbad Hs|now st l t j st' Hn Hs]; cbn [bs_apps]; intros Hi Hop.
  - destruct (K _ _ _ Hs Hi Hop) as [?|[? ->]]; [by left|right; eauto].
  - left. unfold ping in Hi. rewrite Hl in Hi. cbn in Hi. destruct (decide (j = i)) as [-> |Hne]; [by exists s1|].
    rewrite list_lookup_insert_ne in Hi by done. by exists s.
  - destruct (K _ _ _ Hs Hi Hop) as [?|[? ?]]; [by left|done].
  - destruct (K _ _ _ Hs Hi Hop) as [?|[? ?]]; [by left|done].
Qed.
(** a session's heartbeat does not go back *)
Lemma beat_mono st v st' i b : bstep st v st' -> (forall b0, bs_beats st !! i = Some b0 -> be_hb b0 <= bs_now st) -> bs_beats st' !! i = Some b -> (i < length (bs_beats st))%nat ->
  exists b0, bs_beats st !! i = Some b0 /\ be_begin b = be_begin b0 /\ be_hb b0 <= be_hb b.
Proof.
  intros Hs Hle Hi Hlt. apply lookup_lt_is_Some in Hlt as [b0 H0]. exists b0. split; [done|]. pose proof (Hle b0 H0) as Hb0.
  destruct Hs as [now st l t e st' Hn Hs He|now st l j t0 t s1 b1 Hn Ht Hl Ho Hb Hd Hok|now st l j t0 t s1 b1 st' Hn Ht Hl Ho Hb Hd Hbad Hs|now st l t j st' Hn Hs]; cbn [bs_beats bs_now] in *.
  - destruct (beat_ev_spec t e l) as [[-> E]|[(Ne & j & Hj & E)|(Ne & Hj & E)]]; rewrite E in Hi.
    + rewrite lookup_app_l in Hi by (by eapply lookup_lt_Some). assert (b = b0) as -> by congruence. split; [done|lia].
    + destruct (decide (j = i)) as [-> |Hne].
      * rewrite list_lookup_alter, H0 in Hi. injection Hi as <-. cbn. split; [done|lia].
      * rewrite list_lookup_alter_ne in Hi by done. assert (b = b0) as -> by congruence. split; [done|lia].
    + assert (b = b0) as -> by congruence. split; [done|lia].
  - destruct (decide (j = i)) as [-> |Hne].
    + rewrite list_lookup_alter, H0 in Hi. injection Hi as <-. cbn. split; [done|lia].
    + rewrite list_lookup_alter_ne in Hi by done. assert (b = b0) as -> by congruence. split; [done|lia].
  - assert (b = b0) as -> by congruence. split; [done|lia].
  - assert (b = b0) as -> by congruence. split; [done|lia].
Qed.
Lemma silent_bound d tr : forall st, bruns bstart tr st -> timely d bstart tr ->
  forall i s b, a_sessions (bs_apps st) !! i = Some s -> ws_open s = true -> bs_beats st !! i = Some b ->
  bs_now st <= be_hb b + CLIENT_TIMEOUT + HEARTBEAT_INTERVAL + d.
Proof.
  induction tr as [|[v s1] tr IH] using rev_ind; intros st H Ht i s b Hs Ho Hb.
  - inversion H; subst. done.
  - pose proof (runs_inv _ _ H) as I'. apply bruns_app in H as (st1 & H1 & H2). destruct (timely_app d _ _ _ _ _ H1 H2 Ht) as [T1 [T2 _]].
    apply bruns_one in H2 as [-> H6]. pose proof (runs_inv _ _ H1) as I.
    destruct (bstep_time _ _ _ H6) as [E1 E2]. destruct (open_before _ _ _ _ _ H6 Hs Ho) as [(s0 & Hs0 & Ho0)|[Hi [t ->]]].
    + destruct (beat_mono _ _ _ i b H6) as (b0 & Hb0 & Eb & Hm); [intros b0 Hb0; by apply (i_le _ _ I i)|done|rewrite (i_len _ _ I); by eapply lookup_lt_Some|].
      pose proof (T2 i s0 b0 Hs0 Ho0 Hb0). pose proof (i_le _ _ I i b0 Hb0).
      destruct (i_tick _ _ I i b0 Hb0) as [Hz|Hz]; [rewrite Hz in *; lia|].
      destruct (N.eq_dec (be_ticks b0) 0) as [Hz0|Hz0]; [rewrite Hz0 in *; lia|].
      assert (HEARTBEAT_INTERVAL * be_ticks b0 = HEARTBEAT_INTERVAL * (be_ticks b0 - 1) + HEARTBEAT_INTERVAL) by nia. lia.
    + inversion H6; subst. cbn [bs_now bs_beats beat_ev] in *. pose proof (i_len _ _ I) as L. cbn in L.
      rewrite lookup_app_r in Hb by (cbn in *; lia). replace (_ - _)%nat with 0%nat in Hb by (cbn in *; lia). injection Hb as <-. cbn. lia.
Qed.

(** ** Clients that answer *)
Lemma ticks_before d tr : forall st, bruns bstart tr st -> timely d bstart tr -> forall i b m, bs_beats st !! i = Some b -> m < be_ticks b ->
  exists x t0 t y, map fst tr = x ++ BTick i t0 t false :: y /\ be_begin b + HEARTBEAT_INTERVAL * m <= t <= be_begin b + HEARTBEAT_INTERVAL * m + d.
Proof.
  induction tr as [|[v s1] tr IH] using rev_ind; intros st H Ht i b m Hb Hm.
  - inversion H; subst. done.
  - apply bruns_app in H as (st1 & H1 & H2). destruct (timely_app d _ _ _ _ _ H1 H2 Ht) as [T1 [T2 _]].
    apply bruns_one in H2 as [-> H6]. rewrite map_app. cbn [map fst].
    assert (K : forall b0, bs_beats st1 !! i = Some b0 -> be_begin b0 = be_begin b -> m < be_ticks b0 -> exists x t0 t y,
      map fst tr ++ [v] = x ++ BTick i t0 t false :: y /\ be_begin b + HEARTBEAT_INTERVAL * m <= t <= be_begin b + HEARTBEAT_INTERVAL * m + d).
    { intros b0 Hb0 Eb Hm0. destruct (IH _ H1 T1 i b0 m Hb0 Hm0) as (x & t0 & t & y & E & Hx). exists x, t0, t, (y ++ [v]). rewrite E, <- app_assoc. rewrite Eb in Hx. split; [done|exact Hx]. }
    destruct H6 as [now st l t e st' Hn Hs He|now st l j t0 t s2 b1 Hn Htt Hl Ho Hb1 Hd Hok|now st l j t0 t s2 b1 st' Hn Htt Hl Ho Hb1 Hd Hbad Hs|now st l t j st' Hn Hs]; cbn [bs_beats bs_now bs_apps time] in *.
    + destruct (beat_ev_spec t e l) as [[-> E]|[(Ne & j & Hj & E)|(Ne & Hj & E)]]; rewrite E in Hb.
      * apply lookup_app_Some in Hb as [Hb|[_ Hb]]; [by apply (K b)|]. destruct (i - _)%nat; [|done]. injection Hb as <-. cbn in Hm. lia.
      * destruct (decide (j = i)) as [-> |Hne]; [|rewrite list_lookup_alter_ne in Hb by done; by apply (K b)].
        rewrite list_lookup_alter in Hb. destruct (l !! i) as [b0|] eqn:E0; [|done]. injection Hb as <-. by apply (K b0).
      * by apply (K b).
    + destruct (decide (j = i)) as [-> |Hne]; [|rewrite list_lookup_alter_ne in Hb by done; by apply (K b)].
      rewrite list_lookup_alter, Hb1 in Hb. injection Hb as <-. cbn [be_ticks be_begin] in *.
      destruct (decide (m < be_ticks b1)) as [Hlt|Hge]; [by apply (K b1)|]. assert (m = be_ticks b1) as -> by lia.
      pose proof (T2 i s2 b1 Hl Ho Hb1). exists (map fst tr), t0, t, []. split; [done|]. lia.
    + by apply (K b).
    + by apply (K b).
Qed.
Lemma answering a d i tr st : bruns bstart tr st -> timely d bstart tr -> a + d + HEARTBEAT_INTERVAL <= CLIENT_TIMEOUT ->
  (forall x t0 t y, map fst tr = x ++ BTick i t0 t false :: y -> (exists v, v ∈ y /\ t + a < time v) -> exists u, u ∈ signs i y /\ u <= t + a) ->
  forall t0 t, BTick i t0 t true ∉ map fst tr.
Proof.
  intros Hr Ht Had Ha t0 t Hin. apply elem_of_list_fmap in Hin as ([v s1] & Ev & Hin). cbn in Ev. subst v.
  apply elem_of_list_split in Hin as (x & y & ->). pose proof Hr as Hr0. apply bruns_app in Hr as (st1 & R1 & R2).
  destruct (timely_app d _ _ _ _ _ R1 R2 Ht) as [T1 [T2 _]]. inversion R2 as [|a1 b1 c1 d1 e1 H4 H6]; subst.
  pose proof (runs_inv _ _ R1) as I.
  inversion H4 as [| |now st0 l i0 t00 t1 s b st' Hn Htt H9 H10 H13 Hd Hbad Hs|]; subst. clear H4. cbn [time] in *.
  pose proof (T2 i s b H9 H10 H13) as D. cbn in I. pose proof (i_le _ _ I i b H13) as LE. cbn in LE.
  assert (Bad : be_hb b + a + d + HEARTBEAT_INTERVAL < t) by (unfold HEARTBEAT_INTERVAL, CLIENT_TIMEOUT in *; lia).
  assert (SG : forall x1 t1 t2 y1, map fst x = x1 ++ BTick i t1 t2 false :: y1 -> t2 + a < t -> t2 <= be_hb b).
  { intros x1 t1 t2 y1 E Hlt. rewrite map_app, E in Ha. cbn [map fst] in Ha. destruct (Ha x1 t1 t2 (y1 ++ BTick i t0 t true :: map fst y)) as (u & Hu & Hu2).
    - by rewrite <- app_assoc.
    - exists (BTick i t0 t true). split; [apply elem_of_app; right; by left|done].
    - rewrite signs_app in Hu. apply elem_of_app in Hu as [Hu|Hu].
      + assert (Hux : u ∈ signs i (map fst x)) by (rewrite E, signs_app; apply elem_of_app; right; exact Hu).
        pose proof (i_signs _ _ I i b u H13 Hux). assert (t2 <= u); [|lia].
        assert (R3 : exists sa sb, bruns sa sb {| bs_now := now; bs_apps := st0; bs_beats := l |} /\ map fst sb = y1 /\ bs_now sa = t2).
        { clear - R1 E. revert E R1. generalize bstart as s0. revert x1. induction x as [|[w sw] x IH]; intros x1 s0 E R1; [by destruct x1|].
          inversion R1 as [|a1 b1 c1 d1 e1 Hw Hx]; subst. destruct x1 as [|w1 x1]; cbn in E.
          - injection E as -> E. exists sw, x. split; [done|]. split; [done|]. by destruct (bstep_time _ _ _ Hw).
          - injection E as -> E. by apply (IH x1 sw). }
        destruct R3 as (sa & sb & R3 & Esb & <-). destruct (bruns_times _ _ _ R3) as [_ Ti]. rewrite Esb in Ti.
        clear - Ti Hu. unfold signs in Hu. apply elem_of_list_In, in_flat_map in Hu as (w & Hw & Hu). apply elem_of_list_In in Hw. specialize (Ti w Hw).
        destruct w as [tw e| |]; cbn in Hu; try done. destruct (decide (sign e = Some i)); [|done]. destruct Hu as [<-|[]]. cbn in Ti. lia.
      + cbn in Hu. destruct (bruns_times _ _ _ H6) as [_ Ti]. cbn in Ti.
        assert (t <= u); [|lia]. clear - Ti Hu. unfold signs in Hu. apply elem_of_list_In, in_flat_map in Hu as (w & Hw & Hu). apply elem_of_list_In in Hw. specialize (Ti w Hw).
        destruct w as [tw e| |]; cbn in Hu; try done. destruct (decide (sign e = Some i)); [|done]. destruct Hu as [<-|[]]. cbn in Ti. lia. }
  assert (Q : forall m, m <= be_ticks b -> m = 0 \/ be_begin b + HEARTBEAT_INTERVAL * (m - 1) <= be_hb b).
  { intros m. induction m as [|m IH] using N.peano_ind; [by left|]. intros Hm. right.
    replace (N.succ m - 1) with m by lia.
    destruct (ticks_before d x _ R1 T1 i b m H13) as (x1 & t1 & t2 & y1 & E & E1 & E2); [lia|].
    destruct (decide (t2 + a < t)) as [Hlt|Hge]; [pose proof (SG _ _ _ _ E Hlt); lia|]. exfalso.
    destruct IH as [-> |IH]; [lia|lia|].
    assert (HEARTBEAT_INTERVAL * m = HEARTBEAT_INTERVAL * (m - 1) + HEARTBEAT_INTERVAL \/ m = 0) as [?| ->] by (unfold HEARTBEAT_INTERVAL; lia); lia. }
  destruct (Q (be_ticks b)) as [Z|Z]; [lia|rewrite Z in *; lia|].
  assert (HEARTBEAT_INTERVAL * be_ticks b = HEARTBEAT_INTERVAL * (be_ticks b - 1) + HEARTBEAT_INTERVAL \/ be_ticks b = 0) as [?|Z0] by (unfold HEARTBEAT_INTERVAL; lia); [lia|rewrite Z0 in *; lia].
Qed.
End run.
(** ** What ends a session *)
Lemma closed_why pe h le db ds tr : forall st, bruns pe h le db ds bstart tr st -> forall i s, a_sessions (bs_apps st) !! i = Some s -> ws_open s = false ->
  exists v, v ∈ map fst tr /\ (exists t, v = BEnd t i) \/ (exists t0 t, BTick i t0 t true ∈ map fst tr).
Proof.
  induction tr as [|[v s1] tr IH] using rev_ind; intros st H i s Hs Ho.
  - inversion H; subst. done.
  - apply bruns_app in H as (st1 & H1 & H2). apply bruns_one in H2 as [-> H2]. rewrite map_app. cbn [map fst].
    assert (K : (exists s0, a_sessions (bs_apps st1) !! i = Some s0 /\ ws_open s0 = false) ->
      exists w, w ∈ map fst tr ++ [v] /\ (exists t, w = BEnd t i) \/ (exists t0 t, BTick i t0 t true ∈ map fst tr ++ [v])).
    { intros (s0 & Hs0 & Ho0). destruct (IH _ H1 _ _ Hs0 Ho0) as (w & [[Hw Hw']|(t0 & t & Hw)]).
      - exists w. left. split; [apply elem_of_app; by left|done].
      - exists w. right. exists t0, t. apply elem_of_app. by left. }
    assert (Q : forall st e st', step pe h le db ds st e st' -> a_sessions st' !! i = Some s -> (exists s0, a_sessions st !! i = Some s0 /\ ws_open s0 = false) \/ e = EClose i).
    { clear - Ho. intros st e st' Hs Hl. destruct Hs; cbn [a_sessions upd set_session] in Hl; try (left; by exists s);
        try (destruct (decide (i0 = i)) as [-> |Hn]; [|rewrite list_lookup_insert_ne in Hl by done; left; by exists s];
             match goal with H1 : a_sessions st !! i = Some ?s1 |- _ => rewrite list_lookup_insert in Hl by (by eapply lookup_lt_Some) end;
             injection Hl as <-; first [by right|left; eexists; split; [eassumption|]; try done]).
      - apply lookup_app_Some in Hl as [Hl|[Hn Hl]]; [left; by exists s|]. destruct (i - _)%nat; [|done]. injection Hl as <-. done.
      - unfold on_text in Ho. repeat (case_match; try done).
      - match goal with E : on_binary _ _ _ _ _ _ = _ |- _ => revert E end. unfold on_binary. repeat case_match; intros [= <- <-]; done. }
    destruct H2 as [now st l t e st' Hn Hst He|now st l j t0 t s2 b1 Hn Htt Hl Hop Hb1 Hd Hok|now st l j t0 t s2 b1 st' Hn Htt Hl Hop Hb1 Hd Hbad Hst|now st l t j st' Hn Hst]; cbn [bs_apps] in *.
    + destruct (Q _ _ _ Hst Hs) as [?| ->]; [by apply K|]. by destruct (He i).
    + apply K. unfold ping in Hs. rewrite Hl in Hs. cbn in Hs. destruct (decide (j = i)) as [-> |Hne].
      * rewrite list_lookup_insert in Hs by (by eapply lookup_lt_Some). injection Hs as <-. by exists s2.
      * rewrite list_lookup_insert_ne in Hs by done. by exists s.
    + destruct (Q _ _ _ Hst Hs) as [?|[= ->]]; [by apply K|]. exists (BEnd 0 0). right. exists t0, t. apply elem_of_app. right. by left.
    + destruct (Q _ _ _ Hst Hs) as [?|[= ->]]; [by apply K|]. exists (BEnd t i). left. split; [apply elem_of_app; right; by left|by exists t].
Qed.
