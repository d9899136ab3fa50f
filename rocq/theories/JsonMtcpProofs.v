(** Proofs about the external convergence layer program that sends JSON. *)
From stdpp Require Import prelude strings pretty gmap.
From Coq Require Import NArith Lia ZifyBool ZifyN ZifyNat.
From Verif Require Import Bytes Core Ecla EclaWire EclaWireProofs EclaMtcp JsonMtcp.
Open Scope N_scope.

(** ** Cutting the stream *)
(** the frames of a stream, the bytes left over, whether a length was too large *)
Inductive cuts : bytes -> list bytes -> bytes -> bool -> Prop :=
  | cuts_more b : next_frame b = FMore -> cuts b [] b false
  | cuts_bad b : next_frame b = FBad -> cuts b [] b true
  | cuts_ok b f rest fs l o : next_frame b = FFrame f rest -> cuts rest fs l o -> cuts b (f :: fs) l o.
Lemma cuts_det b fs l o : cuts b fs l o -> forall fs' l' o', cuts b fs' l' o' -> fs = fs' /\ l = l' /\ o = o'.
Proof.
  induction 1 as [b N|b N|b f rest fs l o N H IH]; intros fs' l' o' H'; inversion H' as [? N'|? N'|? f' rest' ? ? ? N' H'']; subst; try congruence; try done.
  rewrite N in N'. injection N' as <- <-. by destruct (IH _ _ _ H'') as (-> & -> & ->).
Qed.
Lemma cut_cuts fuel : forall b acc, (length b < fuel)%nat -> exists fs l o, cuts b fs l o /\ cut fuel b acc = (l, acc ++ fs, o).
Proof.
  induction fuel as [|fuel IH]; intros b acc L; [lia|]. cbn. destruct (next_frame b) as [f rest| |] eqn:E.
  - pose proof (next_shape _ _ _ E) as (h & Eb & Lh & _). subst b. rewrite !app_length in L.
    destruct (IH rest (acc ++ [f])) as (fs & l & o & R & Ed); [lia|]. exists (f :: fs), l, o. split; [by econstructor|]. by rewrite Ed, <- app_assoc.
  - exists [], b, false. split; [by constructor|]. by rewrite app_nil_r.
  - exists [], b, true. split; [by constructor|]. by rewrite app_nil_r.
Qed.
Lemma cuts_left b fs l o : cuts b fs l o -> next_frame l = (if o then FBad else FMore).
Proof. by induction 1. Qed.
Lemma cuts_bad_ext b fs l c : cuts b fs l true -> cuts (b ++ c) fs (l ++ c) true.
Proof.
  remember true as o eqn:Eo. induction 1 as [b N|b N|b f rest fs l o N H IH]; [done| |].
  - constructor. by apply next_bad_ext.
  - econstructor; [by apply next_ext|by apply IH].
Qed.
Lemma cuts_ext b fs l c fs' l' o : cuts b fs l false -> cuts (l ++ c) fs' l' o -> cuts (b ++ c) (fs ++ fs') l' o.
Proof.
  remember false as o1 eqn:Eo. induction 1 as [b N|b N|b f rest fs l o1 N H IH]; intros H'; [done|done|].
  cbn. econstructor; [by apply next_ext|by apply IH].
Qed.
Definition framed (hf : bytes * bytes) : Prop := length (fst hf) = 4%nat /\ unbe (fst hf) = blen (snd hf) /\ blen (snd hf) <= FRAME_MAX.
Lemma cuts_shape b fs l o : cuts b fs l o -> exists hs, length hs = length fs /\ Forall framed (zip hs fs) /\ b = concat (zip_with app hs fs) ++ l.
Proof.
  induction 1 as [b N|b N|b f rest fs l o N H (hs & L & F & ->)]; [exists []; split_and!; [done|constructor|done]..|].
  destruct (next_shape _ _ _ N) as (h & -> & Lh & U & M). exists (h :: hs). cbn. split_and!; [by rewrite L| |by rewrite <- !app_assoc].
  constructor; [|done]. unfold framed. cbn. split_and!; [done|done|by rewrite <- U].
Qed.
(** the frames of a prefix of a stream of frames *)
Lemma frame_next d rest : blen d <= FRAME_MAX -> next_frame (frame d ++ rest) = FFrame d rest.
Proof.
  intros M. destruct (frame_shape d) as (h & -> & Lh & U); [unfold FRAME_MAX in M; lia|]. rewrite <- app_assoc. apply next_frame_of; [done|done|by rewrite U].
Qed.
Lemma frame_next_bad d rest : FRAME_MAX < blen d -> blen d < 2^32 -> next_frame (frame d ++ rest) = FBad.
Proof.
  intros M Z. destruct (frame_shape d) as (h & -> & Lh & U); [done|]. rewrite <- app_assoc. apply next_bad_of; [done|by rewrite U].
Qed.
Lemma next_cut b c f rest : next_frame (b ++ c) = FFrame f rest -> next_frame b = FMore \/ exists rest', next_frame b = FFrame f rest'.
Proof.
  intros E. destruct (next_frame b) as [f' rest'| |] eqn:Eb; [|by left|].
  - rewrite (next_ext _ _ _ _ Eb) in E. injection E as -> _. right. eauto.
  - by rewrite (next_bad_ext _ _ Eb) in E.
Qed.
Lemma next_cut_bad b c : next_frame (b ++ c) = FBad -> next_frame b = FMore \/ next_frame b = FBad.
Proof.
  intros E. destruct (next_frame b) as [f' rest'| |] eqn:Eb; [|by left|by right]. by rewrite (next_ext _ _ _ _ Eb) in E.
Qed.
Lemma cuts_prefix ds : Forall (fun d => blen d < 2^32) ds -> forall b fs l o, b `prefix_of` concat (map frame ds) -> cuts b fs l o -> fs `prefix_of` ds.
Proof.
  induction ds as [|d ds IH]; intros Z b fs l o [c Hb] H.
  - cbn in Hb. symmetry in Hb. apply app_eq_nil in Hb as [-> ->]. inversion H as [? N|? N|? f rest ? ? ? N]; subst; [done|done|by vm_compute in N].
  - inversion Z as [|? ? Z1 Z2]; subst. cbn in Hb. inversion H as [? N|? N|? f rest fs0 ? ? N H0]; subst; [apply prefix_nil|apply prefix_nil|].
    pose proof (next_ext _ c _ _ N) as N1. rewrite <- Hb in N1.
    destruct (decide (blen d <= FRAME_MAX)) as [M|M].
    + rewrite frame_next in N1 by done. injection N1 as <- N1. apply prefix_cons. eapply (IH Z2); [|exact H0]. by exists c.
    + rewrite frame_next_bad in N1 by (done || lia). done.
Qed.
Lemma cuts_whole ds : Forall (fun d => blen d <= FRAME_MAX) ds -> cuts (concat (map frame ds)) ds [] false.
Proof. induction 1 as [|d ds M F IH]; [by constructor|]. cbn. econstructor; [by apply frame_next|done]. Qed.

(** ** Runs *)
Section prog.
Context (to_json : packet -> bytes) (of_json : bytes -> option packet).
Notation jstep := (jstep to_json of_json).
Notation jrun := (jrun to_json of_json).

Lemma jrun_app es1 es2 s : jrun (es1 ++ es2) s = (s' ← jrun es1 s; jrun es2 s').
Proof. revert s. induction es1 as [|e es1 IH]; intros s; [done|]. cbn. destruct (jstep e s); [apply IH|done]. Qed.
Lemma jrun_snoc es e s s' : jrun (es ++ [e]) s = Some s' -> exists s1, jrun es s = Some s1 /\ jstep e s1 = Some s'.
Proof. rewrite jrun_app. destruct (jrun es s) as [s1|]; [|done]. cbn. intros H. exists s1. split; [done|]. by destruct (jstep e s1). Qed.
Lemma jstep_inv e s s' : jstep e s = Some s' -> exists a o, in_step of_json e (jp_in s) = Some (jp_in s', a) /\
  out_step to_json e (ji_up (jp_in s)) (jp_out s) = Some o /\ jp_out s' = forget a o.
Proof.
  unfold JsonMtcp.jstep. destruct (in_step of_json e (jp_in s)) as [[i a]|]; [|done]. cbn.
  destruct (out_step to_json e (ji_up (jp_in s)) (jp_out s)) as [o|]; [|done]. cbn. intros [= <-]. by exists a, o.
Qed.

(** ** What comes in *)
Definition of_conn {A} (c : nat) (log : list (nat * A)) : list A := omap (fun x => if bool_decide (x.1 = c) then Some x.2 else None) log.
Lemma of_conn_app {A} c (l1 l2 : list (nat * A)) : of_conn c (l1 ++ l2) = of_conn c l1 ++ of_conn c l2.
Proof. apply omap_app. Qed.
Lemma of_conn_this {A} c (p : A) : of_conn c [(c, p)] = [p].
Proof. unfold of_conn. cbn. by rewrite bool_decide_true. Qed.
Lemma of_conn_other {A} c c' (p : A) : c' <> c -> of_conn c [(c', p)] = [].
Proof. intros H. unfold of_conn. cbn. by rewrite bool_decide_false. Qed.
Definition jchunks (es : list jev) (c : nat) : list bytes :=
  omap (fun e => match e with JChunk c' chunk => if bool_decide (c' = c) then Some chunk else None | _ => None end) es.
Lemma jchunks_snoc es e c : jchunks (es ++ [e]) c = jchunks es c ++ jchunks [e] c.
Proof. apply omap_app. Qed.
(** no frame of the connection was looked at while the channel was full *)
Definition roomy (es : list jev) (c : nat) : Prop := forall es1 es2 s1, es = es1 ++ JHandle c :: es2 -> jrun es1 jprog0 = Some s1 -> (length (ji_ctx (jp_in s1)) < 100)%nat.
Lemma roomy_snoc es e c : roomy (es ++ [e]) c -> roomy es c.
Proof. intros H es1 es2 s1 -> R. eapply (H es1 (es2 ++ [e])); [by rewrite <- app_assoc|done]. Qed.
(** one connection after the events [es] *)
Record jgood (es : list jev) (c : nat) (log : list (nat * packet)) (j : jconn) : Prop := {
  g_cut : exists l, cuts (concat (jchunks es c)) (jc_frames j) l (jc_bad j) /\ (jc_bad j = false -> jc_buf j = l);
  g_done : (jc_done j <= length (jc_frames j))%nat;
  g_over : jc_over j = true -> jc_done j = length (jc_frames j);
  g_log : sublist (of_conn c log) (omap of_json (take (jc_done j) (jc_frames j)));
  g_room : roomy es c -> of_conn c log = omap of_json (take (jc_done j) (jc_frames j))
}.
Record jinv (es : list jev) (s : jin) : Prop := {
  n_conn : forall c j, ji_conns s !! c = Some j -> jgood es c (ji_log s) j;
  n_none : forall c, ji_conns s !! c = None -> jchunks es c = [] /\ of_conn c (ji_log s) = []
}.
Lemma jgood_other es e c log log' j : jchunks [e] c = [] -> of_conn c log' = of_conn c log -> jgood es c log j -> jgood (es ++ [e]) c log' j.
Proof.
  intros He Hl [G1 G2 G3 G4 G5]. split; try done.
  - by rewrite jchunks_snoc, He, app_nil_r.
  - by rewrite Hl.
  - intros H%roomy_snoc. rewrite Hl. by apply G5.
Qed.
Lemma jinv_same es e s s' : (forall c, jchunks [e] c = []) -> ji_conns s' = ji_conns s -> ji_log s' = ji_log s -> jinv es s -> jinv (es ++ [e]) s'.
Proof.
  intros He H1 H2 [I1 I2]. split.
  - intros c j. rewrite H1, H2. intros H. apply jgood_other with (log := ji_log s); [apply He|done|by apply I1].
  - intros c. rewrite H1, H2, jchunks_snoc, He, app_nil_r. apply I2.
Qed.
(** a step of connection [c0] *)
Lemma jinv_at es e s s' c0 j0 f : ji_conns s !! c0 = Some j0 -> ji_conns s' = alter f c0 (ji_conns s) ->
  (forall c, c <> c0 -> jchunks [e] c = [] /\ of_conn c (ji_log s') = of_conn c (ji_log s)) ->
  jgood (es ++ [e]) c0 (ji_log s') (f j0) -> jinv es s -> jinv (es ++ [e]) s'.
Proof.
  intros H0 Hc Ho Hg [I1 I2]. split.
  - intros c j H. rewrite Hc in H. destruct (decide (c = c0)) as [->|Hne].
    + rewrite list_lookup_alter, H0 in H. by injection H as <-.
    + rewrite list_lookup_alter_ne in H by done. destruct (Ho c Hne) as [A1 A2]. apply jgood_other with (log := ji_log s); [done|done|by apply I1].
  - intros c H. assert (H' : ji_conns s !! c = None). { apply lookup_ge_None. apply lookup_ge_None in H. by rewrite Hc, alter_length in H. }
    assert (Hne : c <> c0) by congruence. destruct (Ho c Hne) as [A1 A2]. rewrite jchunks_snoc, A1, A2, app_nil_r. by apply I2.
Qed.
Lemma jgood_next es c log log' j f : jc_over j = false -> jc_frames j !! jc_done j = Some f ->
  of_conn c log' = of_conn c log ++ (match of_json f with Some p => [p] | None => [] end) \/ of_conn c log' = of_conn c log /\ ~ roomy (es ++ [JHandle c]) c ->
  jgood es c log j -> jgood (es ++ [JHandle c]) c log' (jc_next j).
Proof.
  intros Ho Hf Hl [G1 G2 G3 G4 G5]. pose proof (lookup_lt_Some _ _ _ Hf) as Hlt.
  assert (Ht : omap of_json (take (S (jc_done j)) (jc_frames j)) = omap of_json (take (jc_done j) (jc_frames j)) ++ (match of_json f with Some p => [p] | None => [] end)).
  { rewrite (take_S_r _ _ _ Hf), omap_app. cbn. by destruct (of_json f). }
  split; cbn.
  - rewrite jchunks_snoc. cbn. by rewrite app_nil_r.
  - lia.
  - congruence.
  - rewrite Ht. destruct Hl as [->|[-> _]]; [by apply sublist_app|by apply sublist_inserts_r].
  - intros Hr. rewrite Ht. destruct Hl as [->|[_ Hn]]; [|done]. f_equal. apply G5. by eapply roomy_snoc.
Qed.
Lemma jinv_step es e s s' a : (forall c, e = JHandle c -> exists s1, jrun es jprog0 = Some s1 /\ jp_in s1 = s) ->
  jinv es s -> in_step of_json e s = Some (s', a) -> jinv (es ++ [e]) s'.
Proof.
  intros Hrun Hi E. pose proof Hi as [I1 I2]. destruct s as [cs ctx cmd up sent log]. cbn [ji_conns ji_log] in *. destruct e as [addr|c chunk|c|c| | | |p|cn err|sid]; cbn -[Nat.ltb] in E.
  - injection E as <- _. split; cbn [ji_conns ji_log].
    + intros c j H. apply lookup_app_Some in H as [H|[H1 H2]]; [apply jgood_other with (log := log); [done|done|by apply I1]|].
      apply list_lookup_singleton_Some in H2 as [_ <-]. destruct (I2 c) as [A1 A2]; [by apply lookup_ge_None|]. split; cbn.
      * rewrite jchunks_snoc, A1. cbn. exists []. split; [by constructor|done].
      * lia.
      * done.
      * by rewrite A2.
      * by rewrite A2.
    + intros c H. rewrite jchunks_snoc. cbn. rewrite app_nil_r. apply I2. apply lookup_ge_None. apply lookup_ge_None in H. rewrite app_length in H. lia.
  - destruct (cs !! c) as [j|] eqn:Ec; [|done]. destruct (jc_over j) eqn:Eo; [done|]. injection E as <- _.
    eapply (jinv_at _ _ (JIn cs ctx cmd up sent log)); [exact Ec|done| | |done].
    + intros d Hd. split; [|done]. unfold jchunks. cbn. by rewrite bool_decide_false.
    + cbn [ji_log]. destruct (I1 c j Ec) as [(l & G1 & G1') G2 G3 G4 G5]. unfold jc_feed. destruct (jc_bad j) eqn:Eb.
      * split; try done; [|by intros H%roomy_snoc; apply G5]. exists (l ++ chunk). rewrite Eb. split; [|done]. rewrite jchunks_snoc. unfold jchunks at 2. cbn. rewrite bool_decide_true by done. rewrite concat_app. cbn. rewrite app_nil_r. by apply cuts_bad_ext.
      * rewrite (G1' eq_refl). destruct (cut_cuts (S (length (l ++ chunk))) (l ++ chunk) (jc_frames j)) as (fs & l' & o & Hc & ->); [lia|].
        split; cbn.
        -- exists l'. split; [|done]. rewrite jchunks_snoc. unfold jchunks at 2. cbn. rewrite bool_decide_true by done. rewrite concat_app. cbn. rewrite app_nil_r. by eapply cuts_ext.
        -- rewrite app_length. lia.
        -- congruence.
        -- by rewrite take_app_le.
        -- intros H%roomy_snoc. rewrite take_app_le by done. by apply G5.
  - destruct (cs !! c) as [j|] eqn:Ec; [|done]. destruct (jc_over j) eqn:Eo; [done|]. destruct (jc_frames j !! jc_done j) as [f|] eqn:Ef.
    + assert (Hside : forall log', (forall d, d <> c -> of_conn d log' = of_conn d log) ->
        (of_conn c log' = of_conn c log ++ (match of_json f with Some p => [p] | None => [] end) \/ of_conn c log' = of_conn c log /\ ~ roomy (es ++ [JHandle c]) c) ->
        forall ctx', jinv (es ++ [JHandle c]) (JIn (alter jc_next c cs) ctx' cmd up sent log')).
      { intros log' Hd Hc ctx'. eapply (jinv_at _ _ (JIn cs ctx cmd up sent log)); [exact Ec|done| | |done].
        - intros d Hne. split; [done|]. by apply Hd.
        - cbn [ji_log]. eapply jgood_next; [done|exact Ef|exact Hc|by apply I1]. }
      destruct (of_json f) as [p|] eqn:Ep.
      * destruct (length ctx <? 100)%nat eqn:El; injection E as <- _; apply Hside.
        -- intros d Hne. rewrite of_conn_app, of_conn_other by done. apply app_nil_r.
        -- left. by rewrite of_conn_app, of_conn_this.
        -- done.
        -- right. split; [done|]. intros Hr. destruct (Hrun c eq_refl) as (s1 & R1 & E1). specialize (Hr es [] s1 eq_refl R1). rewrite E1 in Hr. cbn in Hr. lia.
      * injection E as <- _. apply Hside; [done|]. left. by rewrite app_nil_r.
    + destruct (jc_bad j) eqn:Eb; [|done]. injection E as <- _. eapply (jinv_at _ _ (JIn cs ctx cmd up sent log)); [exact Ec|done|done| |done].
      destruct (I1 c j Ec) as [G1 G2 G3 G4 G5]. apply lookup_ge_None in Ef. split; cbn; try done.
      * rewrite jchunks_snoc. cbn. by rewrite app_nil_r.
      * intros _. lia.
      * intros H%roomy_snoc. by apply G5.
  - destruct (cs !! c) as [j|] eqn:Ec; [|done]. destruct (negb (jc_over j) && bool_decide (jc_done j = length (jc_frames j))) eqn:Eb; [|done]. injection E as <- _.
    apply andb_true_iff in Eb as [_ Eb%bool_decide_eq_true].
    eapply (jinv_at _ _ (JIn cs ctx cmd up sent log)); [exact Ec|done|done| |done].
    destruct (I1 c j Ec) as [G1 G2 G3 G4 G5]. split; cbn; try done.
    * rewrite jchunks_snoc. cbn. by rewrite app_nil_r.
    * intros H%roomy_snoc. by apply G5.
  - destruct ctx as [|p ctx]; [done|]. destruct (length cmd <? 100)%nat; [|done]. injection E as <- _. by eapply jinv_same.
  - destruct (negb up && (length cmd <? 100)%nat); [|done]. injection E as <- _. by eapply jinv_same.
  - destruct cmd as [|p cmd]; [done|]. destruct up; [|done]. injection E as <- _. by eapply jinv_same.
  - injection E as <- _. by eapply jinv_same.
  - injection E as <- _. by eapply jinv_same.
  - injection E as <- _. by eapply jinv_same.
Qed.
Lemma jinv_run es s : jrun es jprog0 = Some s -> jinv es (jp_in s).
Proof.
  revert s. induction es as [|e es IH] using rev_ind; intros s E.
  - injection E as <-. split; [done|]. intros c _. done.
  - apply jrun_snoc in E as (s1 & R & S1). destruct (jstep_inv _ _ _ S1) as (a & o & Ei & _ & _).
    eapply jinv_step; [|by apply IH|exact Ei]. intros c _. eauto.
Qed.

(** ** The channels *)
Definition reg : packet := PRegister "jsonmtcp" false None.
Definition regs (up : bool) : list packet := if up then [reg] else [].
Lemma queue_run es s : jrun es jprog0 = Some s -> exists l1 l2,
  ji_sent (jp_in s) ++ ji_cmd (jp_in s) ++ ji_ctx (jp_in s) = l1 ++ regs (ji_up (jp_in s)) ++ l2 /\
  l1 ++ l2 = map snd (ji_log (jp_in s)) /\
  (ji_up (jp_in s) = false -> ji_sent (jp_in s) = []) /\
  (ji_up (jp_in s) = true -> (forall es1 es2, es = es1 ++ JUp :: es2 -> JRelay ∉ es1) -> l1 = []) /\
  (ji_up (jp_in s) = false -> JRelay ∉ es -> ji_cmd (jp_in s) = []).
Proof.
  revert s. induction es as [|e es IH] using rev_ind; intros s E.
  - injection E as <-. by exists [], [].
  - apply jrun_snoc in E as (s1 & R & S1). destruct (jstep_inv _ _ _ S1) as (a & o & Ei & _ & _). clear S1.
    destruct (IH s1 R) as (l1 & l2 & A1 & A2 & A3 & A4 & A5). clear IH R.
    assert (Hpre : (forall es1 es2, es ++ [e] = es1 ++ JUp :: es2 -> JRelay ∉ es1) -> forall es1 es2, es = es1 ++ JUp :: es2 -> JRelay ∉ es1).
    { intros H es1 es2 ->. apply (H es1 (es2 ++ [e])). by rewrite <- app_assoc. }
    assert (Hnot : JRelay ∉ es ++ [e] -> JRelay ∉ es) by (rewrite elem_of_app; tauto).
    destruct s1 as [[cs ctx cmd up sent log] o1]. destruct s as [i' o']. cbn [jp_in ji_sent ji_cmd ji_ctx ji_up ji_log] in *. clear o1 o o'.
    destruct e as [addr|c chunk|c|c| | | |p|cn err|sid]; cbn -[Nat.ltb] in Ei; repeat (case_match; try done); simplify_eq; cbn [ji_sent ji_cmd ji_ctx ji_up ji_log] in *;
      try (exists l1, l2; by eauto 10).
    + exists l1, (l2 ++ [p]). split_and!; [|by rewrite map_app, <- A2, <- app_assoc|done|by eauto|by eauto].
      replace (sent ++ cmd ++ ctx ++ [p]) with ((sent ++ cmd ++ ctx) ++ [p]) by by rewrite <- !app_assoc. by rewrite A1, <- !app_assoc.
    + exists l1, l2. split_and!; [by rewrite <- (app_assoc cmd)|done|done|by eauto|]. intros _ H. exfalso. apply H, elem_of_app. right. by apply elem_of_list_singleton.
    + match goal with H : negb up && _ = true |- _ => apply andb_true_iff in H as [->%negb_true_iff _] end. specialize (A3 eq_refl). subst sent. cbn in *. exists cmd, ctx.
      split_and!; [by rewrite <- app_assoc|by rewrite A1|done| |done]. intros _ H. apply A5; [done|]. by eapply (H es []).
    + exists l1, l2. split_and!; [by rewrite <- (app_assoc sent)|done|done|by eauto|done].
Qed.

(** ** What goes out *)
Definition for_dst (d : string) (p : packet) : option packet := match p with PForward _ dst _ _ => if bool_decide (dst = d) then Some p else None | _ => None end.
Definition jnode (es : list jev) : list packet := omap (fun e => match e with JNode p => passed_on p | _ => None end) es.
Definition jgiven (d : string) (es : list jev) : list packet := omap (for_dst d) (jnode es).
Lemma jgiven_snoc d es e : jgiven d (es ++ [e]) = jgiven d es ++ jgiven d [e].
Proof. unfold jgiven, jnode. by rewrite !omap_app. Qed.
(** the packets of the log on connections to [d] *)
Definition sent_to (cs : list outconn) (d : string) (log : list (nat * packet)) : list packet :=
  omap (fun x => if bool_decide (o_addr <$> cs !! x.1 = Some d) then Some x.2 else None) log.
Definition smooth (e : jev) : Prop := match e with JBreak _ => False | JTake cn err => cn = true /\ err = None | _ => True end.
Definition stream (ps : list packet) : bytes := concat (map frame (map to_json ps)).
Lemma stream_snoc ps p : stream (ps ++ [p]) = stream ps ++ frame (to_json p).
Proof. unfold stream. rewrite !map_app, concat_app. cbn. by rewrite app_nil_r. Qed.
Record oinv (es : list jev) (s : jout) : Prop := {
  v_table : forall d sid, jo_table s !! d = Some sid -> o_addr <$> jo_conns s !! sid = Some d;
  v_bytes : forall sid o, jo_conns s !! sid = Some o -> o_bytes o `prefix_of` stream (of_conn sid (jo_log s)) /\ (o_failed o = false -> o_bytes o = stream (of_conn sid (jo_log s)));
  v_log : forall x, x ∈ jo_log s -> is_Some (jo_conns s !! x.1);
  v_given : forall d, exists took, jgiven d es = took ++ omap (for_dst d) (jo_rx s) /\ sublist (sent_to (jo_conns s) d (jo_log s)) took /\ (Forall smooth es -> took = sent_to (jo_conns s) d (jo_log s));
  v_smooth : Forall smooth es -> forall sid o, jo_conns s !! sid = Some o -> o_failed o = false
}.
Lemma smooth_snoc es e : Forall smooth (es ++ [e]) -> Forall smooth es /\ smooth e.
Proof. intros [H1 H2]%Forall_app. split; [done|]. by inversion H2. Qed.
Lemma oinv_quiet es e s : (forall d, jgiven d [e] = []) -> oinv es s -> oinv (es ++ [e]) s.
Proof.
  intros He [V1 V2 V3 V4 V5]. split; try done.
  - intros d. destruct (V4 d) as (took & A1 & A2 & A3). exists took. rewrite jgiven_snoc, He, app_nil_r. split_and!; [done|done|]. intros [H _]%smooth_snoc. by apply A3.
  - intros [H _]%smooth_snoc. by apply V5.
Qed.
Lemma oinv_forget es a s : oinv es s -> oinv es (forget a s).
Proof.
  destruct a as [a|]; [|done]. intros [V1 V2 V3 V4 V5]. split; try done. cbn. intros d sid H. apply lookup_delete_Some in H as [_ H]. by apply V1.
Qed.
Lemma addr_alter f sid (cs : list outconn) : (forall o, o_addr (f o) = o_addr o) -> forall k, o_addr <$> alter f sid cs !! k = o_addr <$> cs !! k.
Proof.
  intros Hf k. destruct (decide (k = sid)) as [->|Hne]; [|by rewrite list_lookup_alter_ne].
  rewrite list_lookup_alter. destruct (cs !! sid); cbn; by rewrite ?Hf.
Qed.
Lemma sent_to_ext cs cs' d log : (forall x, x ∈ log -> o_addr <$> cs' !! x.1 = o_addr <$> cs !! x.1) -> sent_to cs' d log = sent_to cs d log.
Proof.
  unfold sent_to. induction log as [|x log IH]; intros H; [done|]. cbn. rewrite (H x) by apply elem_of_list_here.
  rewrite IH; [done|]. intros y Hy. apply H. by apply elem_of_list_further.
Qed.
Lemma oinv_reach es s dst cn sid s' : reach s dst cn = Some (sid, s') -> oinv es s ->
  oinv es s' /\ o_addr <$> jo_conns s' !! sid = Some dst /\ jo_rx s' = jo_rx s.
Proof.
  unfold reach. intros E Hi. destruct (jo_table s !! dst) as [sid0|] eqn:Et.
  { injection E as <- <-. split_and!; [done|by apply (v_table _ _ Hi)|done]. }
  destruct cn; [|done]. injection E as <- <-. cbn [jo_conns jo_rx]. destruct Hi as [V1 V2 V3 V4 V5].
  assert (Hnew : (jo_conns s ++ [Out dst [] false]) !! length (jo_conns s) = Some (Out dst [] false)) by (by rewrite lookup_app_r, Nat.sub_diag).
  assert (Hold : forall k o, jo_conns s !! k = Some o -> (jo_conns s ++ [Out dst [] false]) !! k = Some o) by (intros k o H; by apply lookup_app_l_Some).
  split; [|split_and!; [by rewrite Hnew|done]]. split; cbn [jo_table jo_conns jo_log jo_rx].
  - intros d sid H. destruct (decide (d = dst)) as [->|Hne].
    + rewrite lookup_insert in H. injection H as <-. by rewrite Hnew.
    + rewrite lookup_insert_ne in H by done. specialize (V1 d sid H). destruct (jo_conns s !! sid) as [o|] eqn:Eo; [|done]. by rewrite (Hold _ _ Eo).
  - intros sid o H. apply lookup_app_Some in H as [H|[H1 H2]]; [by apply V2|]. apply list_lookup_singleton_Some in H2 as [H2 <-]. cbn.
    assert (Hb : of_conn sid (jo_log s) = []); [|rewrite Hb; split; [apply prefix_nil|done]].
    assert (Hno : forall x, x ∈ jo_log s -> x.1 <> sid). { intros x Hx Hs. destruct (V3 x Hx) as [o Ho]. apply lookup_lt_Some in Ho. lia. }
    revert Hno. clear. unfold of_conn. induction (jo_log s) as [|x l IH]; intros H; [done|]. cbn. rewrite bool_decide_false by (apply H, elem_of_list_here).
    apply IH. intros y Hy. by apply H, elem_of_list_further.
  - intros x Hx. destruct (V3 x Hx) as [o Ho]. exists o. by apply Hold.
  - intros d. destruct (V4 d) as (took & A1 & A2 & A3). exists took. rewrite (sent_to_ext (jo_conns s)); [done|]. intros x Hx. destruct (V3 x Hx) as [o Ho].
    by rewrite (Hold _ _ Ho), Ho.
  - intros H sid o Ho. apply lookup_app_Some in Ho as [Ho|[_ Ho]]; [by eapply V5|]. by apply list_lookup_singleton_Some in Ho as [_ <-].
Qed.
Lemma prefix_snoc_frame (a b c : bytes) : a `prefix_of` b -> a `prefix_of` b ++ c.
Proof. intros H. by apply prefix_app_r. Qed.
(** a packet of which [o_write] takes all or a part *)
Lemma oinv_write es cn err x dst y data rx tbl tbl' cs log sid f :
  let p := PForward x dst y data in
  (forall d k, tbl' !! d = Some k -> tbl !! d = Some k) ->
  (forall o, o_addr (f o) = o_addr o) ->
  (forall o, exists n, o_bytes (f o) = if o_failed o then o_bytes o else o_bytes o ++ take n (frame (to_json p))) ->
  (forall o, o_failed (f o) = false -> o_failed o = false /\ o_bytes (f o) = o_bytes o ++ frame (to_json p)) ->
  (smooth (JTake cn err) -> forall o, o_failed (f o) = o_failed o) ->
  o_addr <$> cs !! sid = Some dst ->
  oinv es (JOut (p :: rx) tbl cs log) -> oinv (es ++ [JTake cn err]) (JOut rx tbl' (alter f sid cs) (log ++ [(sid, p)])).
Proof.
  intros p Ht Ha Hb Hf Hs Hsid [V1 V2 V3 V4 V5]. cbn [jo_table jo_conns jo_log jo_rx] in *. split; cbn [jo_table jo_conns jo_log jo_rx].
  - intros d k H. rewrite addr_alter by done. by apply V1, Ht.
  - intros k o H. rewrite of_conn_app. destruct (decide (k = sid)) as [->|Hne].
    + rewrite list_lookup_alter in H. destruct (cs !! sid) as [o0|] eqn:E0; [|done]. injection H as <-. rewrite of_conn_this, stream_snoc. destruct (V2 _ _ E0) as [A1 A2]. split.
      * destruct (Hb o0) as [n ->]. destruct (o_failed o0) eqn:Ef; [by apply prefix_app_r|]. rewrite (A2 eq_refl). apply prefix_app. exists (drop n (frame (to_json p))). by rewrite take_drop.
      * intros Hff. destruct (Hf o0 Hff) as [Hf0 ->]. by rewrite (A2 Hf0).
    + rewrite list_lookup_alter_ne in H by done. rewrite of_conn_other, app_nil_r by done. by apply V2.
  - intros z Hz. rewrite <- fmap_is_Some with (f := o_addr). rewrite addr_alter by done. apply fmap_is_Some. apply elem_of_app in Hz as [Hz|Hz%elem_of_list_singleton]; [by apply V3|]. subst z. cbn.
    apply fmap_is_Some with (f := o_addr). by rewrite Hsid.
  - intros d. destruct (V4 d) as (took & A1 & A2 & A3).
    assert (Hext : sent_to (alter f sid cs) d (log ++ [(sid, p)]) = sent_to cs d log ++ omap (for_dst d) [p]).
    { unfold sent_to at 1. rewrite omap_app. f_equal; [apply (sent_to_ext cs); intros z _; by rewrite addr_alter|]. cbn. rewrite addr_alter by done. rewrite Hsid.
      destruct (decide (dst = d)) as [->|Hd]; [by rewrite !bool_decide_true|]. rewrite !bool_decide_false by congruence. done. }
    exists (took ++ omap (for_dst d) [p]). rewrite Hext. rewrite jgiven_snoc. cbn [jgiven jnode omap list_omap app]. rewrite app_nil_r, A1.
    split_and!; [|by apply sublist_app|].
    + rewrite <- app_assoc. f_equal. change (p :: rx) with ([p] ++ rx). by rewrite omap_app.
    + intros [H _]%smooth_snoc. f_equal. by apply A3.
  - intros [H1 H2]%smooth_snoc k o H. destruct (decide (k = sid)) as [->|Hne].
    + rewrite list_lookup_alter in H. destruct (cs !! sid) as [o0|] eqn:E0; [|done]. injection H as <-. rewrite (Hs H2). by eapply V5.
    + rewrite list_lookup_alter_ne in H by done. by eapply V5.
Qed.
(** main takes a packet and nothing is written *)
Lemma oinv_drop es cn err p rx tbl cs log : (forall d, for_dst d p = None) \/ ~ smooth (JTake cn err) ->
  oinv es (JOut (p :: rx) tbl cs log) -> oinv (es ++ [JTake cn err]) (JOut rx tbl cs log).
Proof.
  intros Hp [V1 V2 V3 V4 V5]. split; try done.
  - cbn [jo_conns jo_log jo_rx] in *. intros d. destruct (V4 d) as (took & A1 & A2 & A3). exists (took ++ omap (for_dst d) [p]). rewrite jgiven_snoc. cbn [jgiven jnode omap list_omap app]. rewrite app_nil_r, A1. split_and!.
    + rewrite <- app_assoc. f_equal. change (p :: rx) with ([p] ++ rx). by rewrite omap_app.
    + by apply sublist_inserts_r.
    + intros [H1 H2]%smooth_snoc. destruct Hp as [Hp|Hp]; [|done]. cbn. rewrite Hp, app_nil_r. by apply A3.
  - intros [H1 H2]%smooth_snoc. by apply V5.
Qed.
Lemma oinv_step es e up s s' : oinv es s -> out_step to_json e up s = Some s' -> oinv (es ++ [e]) s'.
Proof.
  intros Hi E. destruct s as [rx tbl cs log]. destruct e as [addr|c chunk|c|c| | | |p|cn err|sid]; cbn -[Nat.ltb] in E; try (injection E as <-; by apply oinv_quiet).
  - destruct up; [|done]. destruct (passed_on p) as [q|] eqn:Eq; [|injection E as <-; apply oinv_quiet; [|done]; intros d; unfold jgiven, jnode; cbn; by rewrite Eq].
    destruct (length rx <? 100)%nat; [|done]. injection E as <-. destruct Hi as [V1 V2 V3 V4 V5]. split; try done; cbn [jo_conns jo_log jo_rx] in *.
    + intros d. destruct (V4 d) as (took & A1 & A2 & A3). exists took. rewrite jgiven_snoc, A1, omap_app, <- app_assoc. unfold jgiven, jnode. cbn. rewrite Eq.
      split_and!; [done|done|]. intros [H _]%smooth_snoc. by apply A3.
    + intros [H _]%smooth_snoc. by apply V5.
  - destruct rx as [|p rx]; [done|]. destruct p as [| |x dst y data| |]; try (injection E as <-; apply oinv_drop with (2 := Hi); by left).
    injection E as <-. unfold send_bundles. destruct (reach (JOut rx tbl cs log) dst cn) as [[sid s1]|] eqn:Er.
    + assert (Er' : reach (JOut (PForward x dst y data :: rx) tbl cs log) dst cn = Some (sid, JOut (PForward x dst y data :: rx) (jo_table s1) (jo_conns s1) (jo_log s1)) /\ jo_rx s1 = rx).
      { unfold reach in *. cbn [jo_table jo_conns jo_rx jo_log] in *. destruct (tbl !! dst); [by injection Er as <- <-|]. destruct cn; [|done]. by injection Er as <- <-. }
      destruct Er' as [Er' Erx]. destruct (oinv_reach _ _ _ _ _ _ Er' Hi) as (Hi1 & Hsid & _). destruct s1 as [rx1 tbl1 cs1 log1]. cbn [jo_table jo_conns jo_rx jo_log] in *. subst rx1.
      destruct err as [n|].
      * eapply oinv_write; [| | | | |exact Hsid|exact Hi1].
        -- intros d k H. by apply lookup_delete_Some in H as [_ H].
        -- done.
        -- intros o. exists n. done.
        -- done.
        -- by intros [_ ?].
      * eapply oinv_write; [| | | | |exact Hsid|exact Hi1].
        -- done.
        -- done.
        -- intros o. exists (length (frame (to_json (PForward x dst y data)))). by rewrite firstn_all.
        -- intros o. cbn. intros Ho. by rewrite Ho.
        -- done.
    + apply oinv_drop with (2 := Hi). right. intros [-> _]. unfold reach in Er. cbn in Er. by destruct (tbl !! dst).
  - injection E as <-. destruct Hi as [V1 V2 V3 V4 V5]. split; cbn [jo_table jo_conns jo_log jo_rx] in *.
    + intros d k H. rewrite addr_alter by done. by apply V1.
    + intros k o H. destruct (decide (k = sid)) as [->|Hne]; [|rewrite list_lookup_alter_ne in H by done; by apply V2].
      rewrite list_lookup_alter in H. destruct (cs !! sid) as [o0|] eqn:E0; [|done]. injection H as <-. cbn. split; [by apply V2|done].
    + intros z Hz. apply fmap_is_Some with (f := o_addr). rewrite addr_alter by done. apply fmap_is_Some. by apply V3.
    + intros d. destruct (V4 d) as (took & A1 & A2 & A3). exists took. rewrite jgiven_snoc. cbn [jgiven jnode omap list_omap app]. rewrite app_nil_r. rewrite (sent_to_ext cs); [|intros z _; by rewrite addr_alter].
      split_and!; [done|done|]. intros [H _]%smooth_snoc. by apply A3.
    + by intros [_ []]%smooth_snoc.
Qed.
Lemma oinv_run es s : jrun es jprog0 = Some s -> oinv es (jp_out s).
Proof.
  revert s. induction es as [|e es IH] using rev_ind; intros s E.
  - injection E as <-. split; [done|done|by intros x Hx%elem_of_nil| |done]. intros d. exists []. split_and!; [done|done|done].
  - apply jrun_snoc in E as (s1 & R & S1). destruct (jstep_inv _ _ _ S1) as (a & o & _ & Eo & ->). apply oinv_forget. eapply oinv_step; [by apply IH|exact Eo].
Qed.
End prog.
