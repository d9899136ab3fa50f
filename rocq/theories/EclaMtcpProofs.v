(** Proofs about the external convergence layer program. *)
From stdpp Require Import prelude strings pretty gmap.
From Coq Require Import NArith Lia.
From Verif Require Import Bytes Core Ecla Mtcp MtcpProofs EclaMtcp.
Open Scope N_scope.

(** the bundles of connection [c], in order *)
Definition bundles_of (c : nat) (log : list (nat * bundle)) : list bundle :=
  omap (fun x => if bool_decide (x.1 = c) then Some x.2 else None) log.
Lemma bundles_of_app c l1 l2 : bundles_of c (l1 ++ l2) = bundles_of c l1 ++ bundles_of c l2.
Proof. apply omap_app. Qed.
Lemma bundles_of_this c b : bundles_of c [(c, b)] = [b].
Proof. unfold bundles_of. cbn. by rewrite bool_decide_true. Qed.
Lemma bundles_of_other c c' b : c' <> c -> bundles_of c [(c', b)] = [].
Proof. intros H. unfold bundles_of. cbn. by rewrite bool_decide_false. Qed.
Definition chunks_of (es : list pev) (c : nat) : list bytes :=
  omap (fun e => match e with GChunk c' chunk => if bool_decide (c' = c) then Some chunk else None | _ => None end) es.
(** the bundles up to the first frame that is none *)
Fixpoint leading (dec : list N -> option bundle) (frames : list (list N)) : list bundle :=
  match frames with
  | [] => []
  | f :: fs => match dec f with Some b => b :: leading dec fs | None => [] end
  end.
Lemma feed_grows c chunk : exists more, c_frames (feed c chunk) = c_frames c ++ more.
Proof.
  unfold feed. destruct (c_status c); try (exists []; by rewrite app_nil_r). cbn zeta.
  rewrite drain_acc. cbn [c_frames]. eauto.
Qed.
Definition fwd_data (p : packet) : option (list N) := match p with PForward _ _ _ data => Some data | _ => None end.
Definition is_fwd (p : packet) : Prop := is_Some (fwd_data p).

Section prog.
Context (dec : list N -> option bundle) (enc : bundle -> list N) (port : N).
Notation gstep := (gstep dec enc port).
Notation grun := (grun dec enc port).

Lemma grun_app es1 es2 st : grun (es1 ++ es2) st = (st' ← grun es1 st; grun es2 st').
Proof. revert st. induction es1 as [|e es1 IH]; intros st; [done|]. cbn. destruct (gstep e st); [apply IH|done]. Qed.
Lemma grun_snoc es e st st' : grun (es ++ [e]) st = Some st' -> exists s1, grun es st = Some s1 /\ gstep e s1 = Some st'.
Proof.
  rewrite grun_app. destruct (grun es st) as [s1|]; [|done]. cbn. intros H. exists s1. split; [done|]. by destruct (gstep e s1).
Qed.
Lemma send_bundle_fields st dst b cn err : let st' := send_bundle enc st dst b cn err in
  g_in st' = g_in st /\ g_ctx st' = g_ctx st /\ g_cmd st' = g_cmd st /\ g_up st' = g_up st /\ g_sent st' = g_sent st /\ g_rx st' = g_rx st /\ g_in_log st' = g_in_log st.
Proof. unfold send_bundle, connect. repeat case_match; naive_solver. Qed.
Lemma take_fields st cn err st' : gstep (GTake cn err) st = Some st' ->
  g_in st' = g_in st /\ g_ctx st' = g_ctx st /\ g_cmd st' = g_cmd st /\ g_up st' = g_up st /\ g_sent st' = g_sent st /\ g_in_log st' = g_in_log st.
Proof.
  destruct st as [ins ctx cmd up sent rx tbl outs il ol]. cbn. destruct rx as [|p rx]; [done|].
  destruct p; try (by intros [= <-]). destruct (dec data) as [b|]; [|by intros [= <-]].
  intros [= <-]. match goal with |- context [send_bundle enc ?s ?d ?bb cn err] => destruct (send_bundle_fields s d bb cn err) as (H1 & H2 & H3 & H4 & H5 & H6 & H7) end.
  cbn in *. by rewrite H1, H2, H3, H4, H5, H7.
Qed.

(** ** What comes in *)
Record iinv (es : list pev) (st : prog) : Prop := {
  i_dec : forall c i, g_in st !! c = Some i -> ic_dec i = receive_stream (chunks_of es c);
  i_bs : forall c i, g_in st !! c = Some i -> (ic_done i <= length (c_frames (ic_dec i)))%nat /\
     mapM dec (take (ic_done i) (c_frames (ic_dec i))) = Some (bundles_of c (g_in_log st));
  i_over : forall c i, g_in st !! c = Some i -> ic_over i = true -> bundles_of c (g_in_log st) = leading dec (c_frames (ic_dec i));
  i_none : forall c, g_in st !! c = None -> chunks_of es c = [] /\ bundles_of c (g_in_log st) = []
}.
Lemma leading_mapM fs bs rest : mapM dec fs = Some bs -> leading dec (fs ++ rest) = bs ++ leading dec rest.
Proof.
  revert bs. induction fs as [|f fs IH]; intros bs E; cbn in *; [by injection E as <-|].
  destruct (dec f) as [b|]; [|done]. cbn in E. destruct (mapM dec fs) as [bs'|]; [|done]. cbn in E. injection E as <-. cbn. by rewrite (IH bs').
Qed.
Lemma mapM_snoc fs f bs b : mapM dec fs = Some bs -> dec f = Some b -> mapM dec (fs ++ [f]) = Some (bs ++ [b]).
Proof.
  revert bs. induction fs as [|g fs IH]; intros bs E Hf; cbn in *; [injection E as <-; by rewrite Hf|].
  destruct (dec g) as [b'|]; [|done]. cbn in *. destruct (mapM dec fs) as [bs'|]; [|done]. cbn in E. injection E as <-. by rewrite (IH bs').
Qed.
Lemma chunks_of_snoc es e c : chunks_of (es ++ [e]) c = chunks_of es c ++ chunks_of [e] c.
Proof. apply omap_app. Qed.
Lemma receive_snoc chunks c : receive_stream (chunks ++ [c]) = feed (receive_stream chunks) c.
Proof. unfold receive_stream. by rewrite fold_left_app. Qed.
Lemma iinv_same es e st st' : (forall c, chunks_of [e] c = []) -> g_in st' = g_in st -> g_in_log st' = g_in_log st -> iinv es st -> iinv (es ++ [e]) st'.
Proof.
  intros Hc H1 H2 [I1 I2 I3 I4]. split; intros c; rewrite ?H1, ?H2, ?chunks_of_snoc, ?Hc, ?app_nil_r; [apply I1|apply I2|apply I3|apply I4].
Qed.
Lemma iinv_over es e st st' c0 i0 : (forall c, chunks_of [e] c = []) -> g_in st !! c0 = Some i0 -> g_in st' = alter set_over c0 (g_in st) -> g_in_log st' = g_in_log st ->
  bundles_of c0 (g_in_log st) = leading dec (c_frames (ic_dec i0)) -> iinv es st -> iinv (es ++ [e]) st'.
Proof.
  intros Hc H0 H1 H2 Hl [I1 I2 I3 I4].
  assert (Hlk : forall c i, g_in st' !! c = Some i -> exists j, g_in st !! c = Some j /\ ic_dec i = ic_dec j /\ ic_done i = ic_done j /\ (ic_over i = true -> ic_over j = true \/ c = c0 /\ j = i0)).
  { intros c i E. rewrite H1 in E. destruct (decide (c = c0)) as [->|Hne].
    - rewrite list_lookup_alter, H0 in E. injection E as <-. exists i0. cbn. naive_solver.
    - rewrite list_lookup_alter_ne in E by done. exists i. naive_solver. }
  split.
  - intros c i E. destruct (Hlk c i E) as (j & Hj & -> & _ & _). rewrite chunks_of_snoc, Hc, app_nil_r. by apply I1.
  - intros c i E. destruct (Hlk c i E) as (j & Hj & -> & -> & _). rewrite H2. by apply I2.
  - intros c i E Ho. destruct (Hlk c i E) as (j & Hj & -> & _ & Hov). rewrite H2. destruct (Hov Ho) as [H|[-> ->]]; [by eapply I3|done].
  - intros c E. rewrite H2, chunks_of_snoc, Hc, app_nil_r. apply I4. rewrite H1 in E. apply lookup_ge_None. apply lookup_ge_None in E. by rewrite alter_length in E.
Qed.
Lemma iinv_step es e st st' : iinv es st -> gstep e st = Some st' -> iinv (es ++ [e]) st'.
Proof.
  intros Hi. destruct e as [addr|c chunk|c|c| | | |p|cn err|sid].
  - intros E. destruct st as [ins ctx cmd up sent rx tbl outs il ol]. injection E as <-. destruct Hi as [I1 I2 I3 I4]. cbn [g_in g_in_log] in *.
    assert (Hlk : forall c i, (ins ++ [In addr conn0 0 false]) !! c = Some i -> ins !! c = Some i \/ ins !! c = None /\ i = In addr conn0 0 false).
    { intros c i H. apply lookup_app_Some in H as [H|[H1 H2]]; [by left|]. right. split; [by apply lookup_ge_None|]. apply list_lookup_singleton_Some in H2 as [_ <-]. done. }
    split; cbn [g_in g_in_log].
    + intros c i H. rewrite chunks_of_snoc. cbn. rewrite app_nil_r. destruct (Hlk c i H) as [H'|[H' ->]]; [by apply I1|]. by rewrite (proj1 (I4 c H')).
    + intros c i H. destruct (Hlk c i H) as [H'|[H' ->]]; [by apply I2|]. cbn. by rewrite (proj2 (I4 c H')).
    + intros c i H Ho. destruct (Hlk c i H) as [H'|[H' ->]]; [by eapply I3|done].
    + intros c H. rewrite chunks_of_snoc. cbn. rewrite app_nil_r. apply I4. apply lookup_ge_None. apply lookup_ge_None in H. rewrite app_length in H. lia.
  - destruct st as [ins ctx cmd up sent rx tbl outs il ol]. cbn. destruct (ins !! c) as [i0|] eqn:Ec; [|done]. destruct (ic_over i0) eqn:Eo; [done|]. intros [= <-].
    destruct Hi as [I1 I2 I3 I4]. cbn [g_in g_in_log] in *.
    assert (Hlk : forall d i, alter (add_chunk chunk) c ins !! d = Some i -> d = c /\ i = add_chunk chunk i0 \/ d <> c /\ ins !! d = Some i).
    { intros d i H. destruct (decide (d = c)) as [->|Hne].
      - rewrite list_lookup_alter, Ec in H. injection H as <-. by left.
      - rewrite list_lookup_alter_ne in H by done. by right. }
    split; cbn [g_in g_in_log].
    + intros d i H. rewrite chunks_of_snoc. destruct (Hlk d i H) as [[-> ->]|[Hne H']].
      * unfold chunks_of at 2. cbn. rewrite bool_decide_true by done. rewrite receive_snoc, <- (I1 _ _ Ec). done.
      * unfold chunks_of at 2. cbn. rewrite bool_decide_false by done. rewrite app_nil_r. by apply I1.
    + intros d i H. destruct (Hlk d i H) as [[-> ->]|[Hne H']]; [|by apply I2]. cbn [ic_done ic_dec add_chunk].
      destruct (feed_grows (ic_dec i0) chunk) as [more ->]. destruct (I2 _ _ Ec) as [Hle Hm]. rewrite app_length. split; [lia|]. by rewrite take_app_le by done.
    + intros d i H Ho. destruct (Hlk d i H) as [[-> ->]|[Hne H']]; [cbn in Ho; congruence|by eapply I3].
    + intros d H. assert (H' : ins !! d = None). { apply lookup_ge_None. apply lookup_ge_None in H. by rewrite alter_length in H. }
      destruct (I4 d H') as [A1 A2]. split; [|done]. rewrite chunks_of_snoc, A1. unfold chunks_of. cbn. rewrite bool_decide_false; [done|]. intros ->. congruence.
  - destruct st as [ins ctx cmd up sent rx tbl outs il ol]. cbn. destruct (ins !! c) as [i0|] eqn:Ec; [|done]. destruct (ic_over i0) eqn:Eo; [done|].
    destruct (i_bs _ _ Hi c i0 Ec) as [Hle Hm]. cbn [g_in_log] in Hm.
    destruct (c_frames (ic_dec i0) !! ic_done i0) as [f|] eqn:Ef.
    + destruct (dec f) as [b|] eqn:Ed.
      * case_match; [|done]. intros [= <-]. destruct Hi as [I1 I2 I3 I4]. cbn [g_in g_in_log] in *.
        assert (Hlk : forall d i, alter set_done c ins !! d = Some i -> d = c /\ i = set_done i0 \/ d <> c /\ ins !! d = Some i).
        { intros d i H1. destruct (decide (d = c)) as [->|Hne].
          - rewrite list_lookup_alter, Ec in H1. injection H1 as <-. by left.
          - rewrite list_lookup_alter_ne in H1 by done. by right. }
        split; cbn [g_in g_in_log].
        -- intros d i H1. rewrite chunks_of_snoc. cbn. rewrite app_nil_r. destruct (Hlk d i H1) as [[-> ->]|[Hne H']]; [exact (I1 _ _ Ec)|by apply I1].
        -- intros d i H1. rewrite bundles_of_app. destruct (Hlk d i H1) as [[-> ->]|[Hne H']].
           ++ rewrite bundles_of_this. cbn [ic_done ic_dec set_done]. apply lookup_lt_Some in Ef as Hlt. split; [lia|].
              rewrite (take_S_r _ _ f Ef). by apply mapM_snoc.
           ++ rewrite bundles_of_other by done. rewrite app_nil_r. by apply I2.
        -- intros d i H1 Ho. rewrite bundles_of_app. destruct (Hlk d i H1) as [[-> ->]|[Hne H']]; [cbn in Ho; congruence|].
           rewrite bundles_of_other by done. rewrite app_nil_r. by eapply I3.
        -- intros d H1. assert (H' : ins !! d = None). { apply lookup_ge_None. apply lookup_ge_None in H1. by rewrite alter_length in H1. }
           destruct (I4 d H') as [A1 A2]. rewrite chunks_of_snoc, bundles_of_app, A1, A2. split; [done|]. rewrite bundles_of_other; [done|]. intros ->. congruence.
      * intros [= <-]. eapply (iinv_over es _ _ _ c i0); [..|exact Hi]; [done|exact Ec|done|done|]. cbn [g_in_log].
        rewrite <- (take_drop (ic_done i0) (c_frames (ic_dec i0))), (leading_mapM _ _ _ Hm). rewrite (drop_S _ f) by done. cbn. rewrite Ed. by rewrite app_nil_r.
    + apply lookup_ge_None in Ef. rewrite take_ge in Hm by done.
      case_match; [done| |]; intros [= <-]; (eapply (iinv_over es _ _ _ c i0); [..|exact Hi]; [done|exact Ec|done|done|]); cbn [g_in_log];
        rewrite <- (app_nil_r (c_frames _)), (leading_mapM _ _ _ Hm); cbn; by rewrite app_nil_r.
  - destruct st as [ins ctx cmd up sent rx tbl outs il ol]. cbn. destruct (ins !! c) as [i0|] eqn:Ec; [|done]. case_bool_decide as Hd; [|done]. intros [= <-].
    destruct (i_bs _ _ Hi c i0 Ec) as [Hle Hm]. cbn [g_in_log] in Hm. rewrite take_ge in Hm by lia.
    eapply (iinv_over es _ _ _ c i0); [..|exact Hi]; [done|exact Ec|done|done|]. cbn [g_in_log]. rewrite <- (app_nil_r (c_frames _)), (leading_mapM _ _ _ Hm); cbn; by rewrite app_nil_r.
  - destruct st as [ins ctx cmd up sent rx tbl outs il ol]. cbn. destruct ctx as [|p ctx]; [done|]. case_match; [|done]. intros [= <-]. by (eapply iinv_same; [..|exact Hi]).
  - destruct st as [ins ctx cmd up sent rx tbl outs il ol]. cbn. case_match; [|done]. intros [= <-]. by (eapply iinv_same; [..|exact Hi]).
  - destruct st as [ins ctx cmd up sent rx tbl outs il ol]. cbn. destruct cmd as [|p cmd]; [done|]. destruct up; [|done]. intros [= <-]. by (eapply iinv_same; [..|exact Hi]).
  - destruct st as [ins ctx cmd up sent rx tbl outs il ol]. cbn. destruct up; [|done]. destruct (passed_on p); [|intros [= <-]; by (eapply iinv_same; [..|exact Hi])].
    case_match; [|done]. intros [= <-]. by (eapply iinv_same; [..|exact Hi]).
  - intros E. destruct (take_fields _ _ _ _ E) as (H1 & _ & _ & _ & _ & H2). by (eapply iinv_same; [..|exact Hi]).
  - destruct st as [ins ctx cmd up sent rx tbl outs il ol]. cbn. intros [= <-]. by (eapply iinv_same; [..|exact Hi]).
Qed.
Lemma iinv_run es st : grun es prog0 = Some st -> iinv es st.
Proof.
  revert st. induction es as [|e es IH] using rev_ind; intros st E.
  - injection E as <-. by split.
  - apply grun_snoc in E as (s1 & E1 & E2). eapply iinv_step; [by apply IH|done].
Qed.

(** ** What the daemon gets *)
Definition queues (st : prog) : list packet := g_sent st ++ g_cmd st ++ g_ctx st.
Definition rfirst (es : list pev) : Prop := forall es1 es2, es = es1 ++ GUp :: es2 -> GRelay ∉ es1.
Lemma sent_data es st : grun es prog0 = Some st -> omap fwd_data (queues st) = map enc (map snd (g_in_log st)).
Proof.
  revert st. induction es as [|e es IH] using rev_ind; intros st E; [by injection E as <-|].
  apply grun_snoc in E as (s1 & E1 & E2). specialize (IH _ E1). destruct s1 as [ins ctx cmd up sent rx tbl outs il ol]. unfold queues in *. cbn [g_sent g_cmd g_ctx g_in_log] in IH.
  destruct e as [addr|c chunk|c|c| | | |p|cn err|sid].
  9: { destruct (take_fields _ _ _ _ E2) as (_ & -> & -> & _ & -> & ->). done. }
  all: cbn in E2.
  - by injection E2 as <-.
  - repeat case_match; by simplify_eq.
  - repeat case_match; simplify_eq; try done. cbn [g_sent g_cmd g_ctx g_in_log]. rewrite !omap_app, !map_app, <- IH, !omap_app, <- !app_assoc. done.
  - repeat case_match; by simplify_eq.
  - repeat case_match; simplify_eq; try done. cbn [g_sent g_cmd g_ctx g_in_log]. rewrite <- IH. by rewrite <- !app_assoc.
  - repeat case_match; simplify_eq; try done. cbn [g_sent g_cmd g_ctx g_in_log]. rewrite <- IH. rewrite !omap_app, <- !app_assoc. done.
  - repeat case_match; simplify_eq; try done. cbn [g_sent g_cmd g_ctx g_in_log]. rewrite <- IH. by rewrite <- !app_assoc.
  - repeat case_match; by simplify_eq.
  - by injection E2 as <-.
Qed.
(** packets that moved to the client's channel *)
Definition relays (es : list pev) : nat := length (omap (fun e => match e with GRelay => Some tt | _ => None end) es).
Lemma relays_snoc es e : relays (es ++ [e]) = (relays es + relays [e])%nat.
Proof. unfold relays. by rewrite omap_app, app_length. Qed.
Lemma relays_none es : GRelay ∉ es -> relays es = 0%nat.
Proof.
  unfold relays. induction es as [|e es IH]; [done|]. intros [H1 H2]%not_elem_of_cons. cbn. destruct e; try (by apply IH). done.
Qed.
Lemma rfirst_prefix es e : rfirst (es ++ [e]) -> rfirst es.
Proof. intros H es1 es2 ->. eapply (H es1 (es2 ++ [e])). by rewrite <- app_assoc. Qed.
Ltac cases E := repeat match type of E with context [match ?x with _ => _ end] => destruct x eqn:?; try done end.
(** a step leaves [up] and the queues as they are, up to moving packets *)
Lemma shape_step es st : grun es prog0 = Some st ->
  (if g_up st then exists l1 l2, queues st = l1 ++ PRegister "mtcp" false (Some port) :: l2 /\ Forall is_fwd l1 /\ Forall is_fwd l2 /\ (rfirst es -> l1 = [])
   else g_sent st = [] /\ Forall is_fwd (g_cmd st ++ g_ctx st) /\ length (g_cmd st) = relays es).
Proof.
  revert st. induction es as [|e es IH] using rev_ind; intros st E; [injection E as <-; cbn; split_and!; [done|constructor|done]|].
  apply grun_snoc in E as (s1 & E1 & E2). specialize (IH _ E1).
  assert (Hsame : g_up st = g_up s1 -> queues st = queues s1 -> g_sent st = g_sent s1 -> g_cmd st = g_cmd s1 -> relays [e] = 0%nat ->
    if g_up st then exists l1 l2, queues st = l1 ++ PRegister "mtcp" false (Some port) :: l2 /\ Forall is_fwd l1 /\ Forall is_fwd l2 /\ (rfirst (es ++ [e]) -> l1 = [])
    else g_sent st = [] /\ Forall is_fwd (g_cmd st ++ g_ctx st) /\ length (g_cmd st) = relays (es ++ [e])).
  { intros Hu Hq H2 H3 H5. rewrite Hu, Hq. destruct (g_up s1).
    - destruct IH as (l1 & l2 & A1 & A2 & A3 & A4). exists l1, l2. split_and!; try done. intros H. by eapply A4, rfirst_prefix.
    - destruct IH as (A1 & A2 & A3). unfold queues in Hq. rewrite H2, A1 in Hq. cbn in Hq. rewrite Hq, H2, H3, relays_snoc, H5. split_and!; [done|done|lia]. }
  destruct s1 as [ins ctx cmd up sent rx tbl outs il ol]. unfold queues in *. cbn [g_up g_sent g_cmd g_ctx g_in_log] in *.
  destruct e as [addr|c chunk|c|c| | | |p|cn err|sid].
  9: { destruct (take_fields _ _ _ _ E2) as (_ & H1 & H2 & H3 & H4 & _). cbn in H1, H2, H3, H4. apply Hsame; [done|by rewrite H1, H2, H4|done|done|done]. }
  all: cbn in E2.
  - injection E2 as <-. by apply Hsame.
  - cases E2; injection E2 as <-; by apply Hsame.
  - cases E2; injection E2 as <-; try (by apply Hsame). cbn [g_up g_sent g_cmd g_ctx g_in_log]. destruct up.
    + destruct IH as (l1 & l2 & A1 & A2 & A3 & A4). eexists l1, (l2 ++ [_]). rewrite !app_assoc, <- (app_assoc sent), A1, <- app_assoc. split_and!; [done|done| |].
      * apply Forall_app. split; [done|]. constructor; [by eexists|constructor].
      * intros H9. by eapply A4, rfirst_prefix.
    + destruct IH as (A1 & A2 & A3). split_and!; [done| |by rewrite relays_snoc; cbn; lia]. rewrite app_assoc. apply Forall_app. split; [done|]. constructor; [by eexists|constructor].
  - cases E2; injection E2 as <-; by apply Hsame.
  - cases E2; injection E2 as <-. cbn [g_up g_sent g_cmd g_ctx g_in_log]. destruct up.
    + destruct IH as (l1 & l2 & A1 & A2 & A3 & A4). exists l1, l2. rewrite <- !app_assoc. split_and!; [exact A1|done|done|]. intros H9. by eapply A4, rfirst_prefix.
    + destruct IH as (A1 & A2 & A3). split_and!; [done|by rewrite <- app_assoc|]. rewrite app_length, relays_snoc, A3. done.
  - destruct up; [done|]. cbn [negb andb] in E2. cases E2. injection E2 as <-. cbn [g_up g_sent g_cmd g_ctx g_in_log] in *.
    destruct IH as (A1 & A2 & A3). subst sent. apply Forall_app in A2 as [A2 A2']. exists cmd, ctx. split_and!; [by rewrite <- app_assoc|done|done|].
    intros H9. assert (Hn : GRelay ∉ es) by (by eapply (H9 es [])). apply relays_none in Hn. rewrite Hn in A3. by apply nil_length_inv.
  - cases E2; injection E2 as <-. cbn [g_up g_sent g_cmd g_ctx g_in_log] in *.
    destruct IH as (l1 & l2 & A1 & A2 & A3 & A4). exists l1, l2. rewrite <- !app_assoc. split_and!; [exact A1|done|done|]. intros H9. by eapply A4, rfirst_prefix.
  - cases E2; injection E2 as <-; by apply Hsame.
  - injection E2 as <-. by apply Hsame.
Qed.

(** ** What goes out *)
Definition for_addr (d : string) (p : packet) : option bundle :=
  match p with PForward _ dst _ data => if bool_decide (dst = d) then dec data else None | _ => None end.
Definition node_packets (es : list pev) : list packet := omap (fun e => match e with GNode p => Some p | _ => None end) es.
Definition given (d : string) (es : list pev) : list bundle := omap (for_addr d) (node_packets es).
(** the bundles of the log on connections to [d] *)
Definition sent_to (st : prog) (d : string) (log : list (nat * bundle)) : list bundle :=
  omap (fun x => if bool_decide (o_addr <$> g_out st !! x.1 = Some d) then Some x.2 else None) log.
Definition smooth (e : pev) : Prop := match e with GBreak _ => False | GTake cn err => cn = true /\ err = None | _ => True end.
Lemma given_snoc d es e : given d (es ++ [e]) = given d es ++ given d [e].
Proof. unfold given, node_packets. by rewrite !omap_app. Qed.
Record oinv (es : list pev) (st : prog) : Prop := {
  v_table : forall d sid, g_table st !! d = Some sid -> o_addr <$> g_out st !! sid = Some d;
  v_bytes : forall sid o, g_out st !! sid = Some o -> exists tail, o_bytes o = mtcp_stream (map enc (bundles_of sid (g_out_log st))) ++ tail /\ (o_failed o = false -> tail = []);
  v_log : forall x, x ∈ g_out_log st -> is_Some (g_out st !! x.1) /\ exists data, dec data = Some x.2;
  v_given : forall d, exists took, given d es = took ++ omap (for_addr d) (g_rx st) /\ sublist (sent_to st d (g_out_log st)) took /\ (Forall smooth es -> took = sent_to st d (g_out_log st));
  v_smooth : Forall smooth es -> forall sid o, g_out st !! sid = Some o -> o_failed o = false
}.
Lemma smooth_prefix es e : Forall smooth (es ++ [e]) -> Forall smooth es /\ smooth e.
Proof. intros [H1 H2]%Forall_app. split; [done|]. by inversion H2. Qed.
(** steps that leave the outgoing side alone *)
Lemma oinv_same es e st st' : (forall d, given d [e] = []) -> g_out st' = g_out st -> g_out_log st' = g_out_log st -> g_rx st' = g_rx st ->
  (forall d sid, g_table st' !! d = Some sid -> g_table st !! d = Some sid) -> oinv es st -> oinv (es ++ [e]) st'.
Proof.
  intros He H1 H2 H3 H4 [V1 V2 V3 V4 V5]. split.
  - intros d sid H. rewrite H1. by apply V1, H4.
  - intros sid o. rewrite H1, H2. apply V2.
  - intros x. rewrite H1, H2. apply V3.
  - intros d. destruct (V4 d) as (took & A1 & A2 & A3). exists took. rewrite given_snoc, He, app_nil_r, H3. unfold sent_to in *. rewrite H1, H2.
    split_and!; [done|done|]. intros [H _]%smooth_prefix. by apply A3.
  - intros H sid o. rewrite H1. apply V5. by apply smooth_prefix in H as [H _].
Qed.
Lemma sent_to_ext st st' d log : (forall x, x ∈ log -> o_addr <$> g_out st' !! x.1 = o_addr <$> g_out st !! x.1) -> sent_to st' d log = sent_to st d log.
Proof.
  unfold sent_to. induction log as [|x log IH]; intros H; [done|]. cbn. rewrite (H x) by apply elem_of_list_here.
  rewrite IH; [done|]. intros y Hy. apply H. by apply elem_of_list_further.
Qed.
Lemma o_addr_alter f sid (outs : list outconn) : (forall o, o_addr (f o) = o_addr o) -> forall k, o_addr <$> alter f sid outs !! k = o_addr <$> outs !! k.
Proof.
  intros Hf k. destruct (decide (k = sid)) as [->|Hne]; [|by rewrite list_lookup_alter_ne].
  rewrite list_lookup_alter. destruct (outs !! sid); cbn; by rewrite ?Hf.
Qed.
Lemma mtcp_stream_snoc ps p : mtcp_stream (ps ++ [p]) = mtcp_stream ps ++ mtcp_encode p.
Proof. unfold mtcp_stream. rewrite map_app, concat_app. cbn. by rewrite app_nil_r. Qed.
(** main takes a packet and there is nothing to send *)
Lemma oinv_skip es cn err ins ctx cmd up sent p rx tbl outs il ol : (forall d, for_addr d p = None) ->
  oinv es (Prog ins ctx cmd up sent (p :: rx) tbl outs il ol) -> oinv (es ++ [GTake cn err]) (Prog ins ctx cmd up sent rx tbl outs il ol).
Proof.
  intros Hp [V1 V2 V3 V4 V5]. split; try done.
  - intros d. destruct (V4 d) as (took & A1 & A2 & A3). exists took. rewrite given_snoc. cbn in A1 |- *. rewrite Hp in A1. rewrite app_nil_r.
    split_and!; [done|done|]. intros [H _]%smooth_prefix. by apply A3.
  - intros H. apply V5. by apply smooth_prefix in H as [H _].
Qed.
(** opening a connection *)
Lemma oinv_connect es st dst sid st' : connect st dst true = Some (sid, st') -> oinv es st ->
  oinv es st' /\ o_addr <$> g_out st' !! sid = Some dst /\ g_rx st' = g_rx st /\ g_table st' !! dst = Some sid.
Proof.
  unfold connect. intros E Hi. destruct (g_table st !! dst) as [sid0|] eqn:Et.
  { injection E as <- <-. split_and!; [done|by apply (v_table _ _ Hi)|done|done]. }
  injection E as <- <-. cbn [g_out g_rx g_table]. destruct Hi as [V1 V2 V3 V4 V5].
  assert (Hnew : (g_out st ++ [Out dst [] false]) !! length (g_out st) = Some (Out dst [] false)) by (by rewrite lookup_app_r, Nat.sub_diag).
  assert (Hold : forall k o, g_out st !! k = Some o -> (g_out st ++ [Out dst [] false]) !! k = Some o) by (intros k o H; by apply lookup_app_l_Some).
  split; [|split_and!; [by rewrite Hnew|done|by rewrite lookup_insert]]. split; cbn [g_table g_out g_out_log g_rx].
  - intros d sid H. destruct (decide (d = dst)) as [->|Hne].
    + rewrite lookup_insert in H. injection H as <-. by rewrite Hnew.
    + rewrite lookup_insert_ne in H by done. specialize (V1 d sid H). destruct (g_out st !! sid) as [o|] eqn:Eo; [|done]. by rewrite (Hold _ _ Eo).
  - intros sid o H. apply lookup_app_Some in H as [H|[H1 H2]]; [by apply V2|]. apply list_lookup_singleton_Some in H2 as [H2 <-]. exists []. cbn.
    assert (Hb : bundles_of sid (g_out_log st) = []); [|by rewrite Hb].
    assert (Hno : forall x, x ∈ g_out_log st -> x.1 <> sid). { intros x Hx Hs. destruct (proj1 (V3 x Hx)) as [o Ho]. apply lookup_lt_Some in Ho. lia. }
    revert Hno. clear. unfold bundles_of. induction (g_out_log st) as [|x l IH]; intros H; [done|]. cbn. rewrite bool_decide_false by (apply H, elem_of_list_here).
    apply IH. intros y Hy. by apply H, elem_of_list_further.
  - intros x Hx. destruct (V3 x Hx) as [[o Ho] Hd]. split; [|done]. exists o. by apply Hold.
  - intros d. destruct (V4 d) as (took & A1 & A2 & A3). exists took. rewrite (sent_to_ext st); [done|]. intros x Hx. cbn. destruct (proj1 (V3 x Hx)) as [o Ho].
    by rewrite (Hold _ _ Ho), Ho.
  - intros H sid o Ho. apply lookup_app_Some in Ho as [Ho|[_ Ho]]; [by eapply V5|]. by apply list_lookup_singleton_Some in Ho as [_ <-].
Qed.
Definition set_rx (r : list packet) (st : prog) : prog :=
  Prog (g_in st) (g_ctx st) (g_cmd st) (g_up st) (g_sent st) r (g_table st) (g_out st) (g_in_log st) (g_out_log st).
Lemma connect_rx r st dst cn sid st' : connect st dst cn = Some (sid, st') -> connect (set_rx r st) dst cn = Some (sid, set_rx r st').
Proof. unfold connect. cbn. destruct (g_table st !! dst); [by intros [= <- <-]|]. destruct cn; [by intros [= <- <-]|done]. Qed.
Lemma for_addr_this x dst y data b : dec data = Some b -> for_addr dst (PForward x dst y data) = Some b.
Proof. intros H. cbn. by rewrite bool_decide_true. Qed.
Lemma for_addr_other x dst y data d : d <> dst -> for_addr d (PForward x dst y data) = None.
Proof. intros H. cbn. by rewrite bool_decide_false. Qed.
(** the invariant while a packet is being dealt with *)
Lemma given_took es st p rx cn err d st' : (forall x, x ∈ g_out_log st -> o_addr <$> g_out st' !! x.1 = o_addr <$> g_out st !! x.1) ->
  g_rx st' = rx -> ~ smooth (GTake cn err) -> g_out_log st' = g_out_log st -> oinv es (set_rx (p :: rx) st) ->
  exists took, given d (es ++ [GTake cn err]) = took ++ omap (for_addr d) (g_rx st') /\ sublist (sent_to st' d (g_out_log st')) took /\
    (Forall smooth (es ++ [GTake cn err]) -> took = sent_to st' d (g_out_log st')).
Proof.
  intros Hext Hrx Hns Hlog Hi. destruct (v_given _ _ Hi d) as (took & A1 & A2 & A3). cbn [g_rx g_out_log set_rx] in *.
  change (sent_to (set_rx (p :: rx) st) d) with (sent_to st d) in *.
  exists (took ++ option_list (for_addr d p)). rewrite given_snoc. cbn [given node_packets omap list_omap]. rewrite app_nil_r, Hlog, Hrx, (sent_to_ext st st') by done.
  split_and!; [|by apply sublist_inserts_r|].
  - rewrite A1. cbn. destruct (for_addr d p); cbn; [by rewrite <- app_assoc|by rewrite app_nil_r].
  - intros [_ H]%smooth_prefix. done.
Qed.
Lemma oinv_take es x dst y data st cn err b : dec data = Some b ->
  oinv es (set_rx (PForward x dst y data :: g_rx st) st) -> oinv (es ++ [GTake cn err]) (send_bundle enc st dst b cn err).
Proof.
  intros Hd Hi. unfold send_bundle. destruct (connect st dst cn) as [[sid st1]|] eqn:Ec.
  2: { assert (cn = false) as ->. { unfold connect in Ec. destruct (g_table st !! dst), cn; done. }
    split; [apply (v_table _ _ Hi)|apply (v_bytes _ _ Hi)|apply (v_log _ _ Hi)| |].
    - intros d. eapply given_took; [..|exact Hi]; try done. intros [? _]. done.
    - intros [_ [? _]]%smooth_prefix. done. }
  assert (Hc : connect (set_rx (PForward x dst y data :: g_rx st) st) dst true = Some (sid, set_rx (PForward x dst y data :: g_rx st) st1)).
  { apply connect_rx. unfold connect in *. destruct (g_table st !! dst); [done|]. by destruct cn. }
  destruct (oinv_connect _ _ _ _ _ Hc Hi) as (Hi1 & Ho & _ & Ht). cbn [g_out g_table set_rx] in Ho, Ht.
  assert (Hrx : g_rx st1 = g_rx st). { unfold connect in Ec. destruct (g_table st !! dst); [by injection Ec as <- <-|]. destruct cn; [by injection Ec as <- <-|done]. }
  rewrite <- Hrx in Hi1. clear Hc Hi Ec Hrx.
  destruct (g_out st1 !! sid) as [o|] eqn:Eo; [|done]. cbn in Ho. injection Ho as Ho. destruct err as [n|].
  - assert (Hadr : forall k, o_addr <$> alter (fun o => o_fail (o_write (take n (mtcp_encode (enc b))) o)) sid (g_out st1) !! k = o_addr <$> g_out st1 !! k) by (by apply o_addr_alter).
    split; cbn [g_table g_out g_out_log].
    + intros d k H. rewrite Hadr. apply (v_table _ _ Hi1). cbn. by apply lookup_delete_Some in H as [_ H].
    + intros k ok H. destruct (decide (k = sid)) as [->|Hne].
      * rewrite list_lookup_alter, Eo in H. injection H as <-. destruct (v_bytes _ _ Hi1 sid o Eo) as (tail & A1 & A2). cbn in *.
        destruct (o_failed o); [by exists tail|]. exists (tail ++ take n (mtcp_encode (enc b))). by rewrite A1, app_assoc.
      * rewrite list_lookup_alter_ne in H by done. by apply (v_bytes _ _ Hi1).
    + intros z Hz. destruct (v_log _ _ Hi1 z Hz) as [[oz Hoz] Hdz]. split; [|done]. cbn in Hoz. specialize (Hadr z.1). rewrite Hoz in Hadr. by apply fmap_Some in Hadr as (? & ? & _).
    + intros d. match goal with |- context [sent_to ?s2 d _] => apply (given_took es st1 (PForward x dst y data) (g_rx st1) cn (Some n) d s2); [|done| |done|exact Hi1] end.
      * intros z _. apply Hadr.
      * intros [_ ?]. done.
    + intros [_ [_ ?]]%smooth_prefix. done.
  - assert (Hadr : forall k, o_addr <$> alter (o_write (mtcp_encode (enc b))) sid (g_out st1) !! k = o_addr <$> g_out st1 !! k) by (by apply o_addr_alter).
    cbv beta iota zeta.
    assert (Hso : forall z, z ∈ g_out_log st1 -> is_Some (alter (o_write (mtcp_encode (enc b))) sid (g_out st1) !! z.1) /\ exists data, dec data = Some z.2).
    { intros z Hz. destruct (v_log _ _ Hi1 z Hz) as [[oz Hoz] Hdz]. split; [|done]. cbn in Hoz. specialize (Hadr z.1). rewrite Hoz in Hadr. by apply fmap_Some in Hadr as (? & ? & _). }
    assert (Hfl : Forall smooth es -> forall k ok, alter (o_write (mtcp_encode (enc b))) sid (g_out st1) !! k = Some ok -> o_failed ok = false).
    { intros H k ok Hk. pose proof (v_smooth _ _ Hi1 H) as Hs. cbn in Hs. destruct (decide (k = sid)) as [->|Hne].
      - rewrite list_lookup_alter, Eo in Hk. injection Hk as <-. cbn. by eapply Hs.
      - rewrite list_lookup_alter_ne in Hk by done. by eapply Hs. }
    split; cbn [g_table g_out g_out_log g_rx].
    + intros d k H. rewrite Hadr. by apply (v_table _ _ Hi1).
    + intros k ok H. destruct (decide (k = sid)) as [->|Hne].
      * rewrite list_lookup_alter, Eo in H. injection H as <-. destruct (v_bytes _ _ Hi1 sid o Eo) as (tail & A1 & A2). cbn [o_write o_bytes o_failed g_out_log set_rx] in *.
        destruct (o_failed o); cbn [negb]; [by exists tail|]. exists []. rewrite A1, (A2 eq_refl), !app_nil_r. split; [|done].
        rewrite bundles_of_app, bundles_of_this, map_app. cbn [map]. by rewrite mtcp_stream_snoc.
      * rewrite list_lookup_alter_ne in H by done. destruct (v_bytes _ _ Hi1 k ok H) as (tail & A1 & A2). exists tail. cbn [g_out_log set_rx] in A1. rewrite A1. split; [|done].
        destruct (o_failed o); cbn [negb]; [done|]. rewrite bundles_of_app, bundles_of_other by done. by rewrite app_nil_r.
    + intros z. destruct (o_failed o); cbn; [apply Hso|]. intros [Hz|Hz%elem_of_list_singleton]%elem_of_app; [by apply Hso|]. subst z. cbn. split; [|eauto].
      rewrite list_lookup_alter, Eo. by eexists.
    + intros d. destruct (v_given _ _ Hi1 d) as (took & A1 & A2 & A3). cbn [g_rx g_out_log set_rx] in *.
      set (st2 := Prog _ _ _ _ _ _ _ _ _ _) in *.
      assert (Hsame : sent_to st2 d (g_out_log st1) = sent_to (set_rx (PForward x dst y data :: g_rx st1) st1) d (g_out_log st1)) by (apply sent_to_ext; intros z _; apply Hadr).
      exists (took ++ option_list (for_addr d (PForward x dst y data))). rewrite given_snoc. cbn [given node_packets omap list_omap]. rewrite app_nil_r.
      split_and!.
      * rewrite A1. cbn [omap list_omap]. destruct (for_addr d (PForward x dst y data)); cbn; [by rewrite <- app_assoc|by rewrite app_nil_r].
      * destruct (o_failed o); cbn [negb]; [rewrite Hsame; by apply sublist_inserts_r|].
        unfold sent_to. rewrite omap_app. change (omap _ (g_out_log st1)) with (sent_to st2 d (g_out_log st1)). rewrite Hsame. apply sublist_app; [done|].
        cbn. rewrite Hadr, Eo. cbn. rewrite Ho. destruct (decide (dst = d)) as [->|Hne].
        -- by rewrite !bool_decide_true, Hd by done.
        -- rewrite !bool_decide_false by naive_solver. done.
      * intros [Hs _]%smooth_prefix. pose proof (v_smooth _ _ Hi1 Hs sid o Eo) as ->. cbn [negb]. rewrite (A3 Hs).
        unfold sent_to at 2. rewrite omap_app. change (omap _ (g_out_log st1)) with (sent_to st2 d (g_out_log st1)). rewrite Hsame. f_equal.
        cbn. rewrite Hadr, Eo. cbn. rewrite Ho. destruct (decide (dst = d)) as [->|Hne].
        -- by rewrite !bool_decide_true, Hd by done.
        -- rewrite !bool_decide_false by naive_solver. done.
    + intros [H _]%smooth_prefix. by apply Hfl.
Qed.
Lemma oinv_run es st : grun es prog0 = Some st -> oinv es st.
Proof.
  revert st. induction es as [|e es IH] using rev_ind; intros st E.
  { injection E as <-. split; try done.
    - intros x Hx. by apply elem_of_nil in Hx.
    - intros d. exists []. done. }
  apply grun_snoc in E as (s1 & E1 & E2). specialize (IH _ E1). destruct s1 as [ins ctx cmd up sent rx tbl outs il ol].
  destruct e as [addr|c chunk|c|c| | | |p|cn err|sid]; cbn in E2.
  - injection E2 as <-. by (eapply oinv_same; [..|exact IH]).
  - cases E2; injection E2 as <-; by (eapply oinv_same; [..|exact IH]).
  - cases E2; injection E2 as <-; (eapply oinv_same; [..|exact IH]; try done); cbn; by intros d sid [_ H]%lookup_delete_Some.
  - cases E2; injection E2 as <-; (eapply oinv_same; [..|exact IH]; try done); cbn; by intros d sid [_ H]%lookup_delete_Some.
  - cases E2; injection E2 as <-; by (eapply oinv_same; [..|exact IH]).
  - cases E2; injection E2 as <-; by (eapply oinv_same; [..|exact IH]).
  - cases E2; injection E2 as <-; by (eapply oinv_same; [..|exact IH]).
  - destruct up; [|done]. destruct (passed_on p) as [q|] eqn:Ep.
    + cases E2. injection E2 as <-. destruct IH as [V1 V2 V3 V4 V5]. split; try done.
      * intros d. destruct (V4 d) as (took & A1 & A2 & A3). exists took. rewrite given_snoc, A1, <- app_assoc. cbn [g_rx g_out_log] in *. rewrite omap_app.
        assert (Hq : given d [GNode p] = omap (for_addr d) [q]). { unfold given. cbn. destruct p; cbn in Ep; by simplify_eq. }
        rewrite Hq. split_and!; [done|done|]. intros [H _]%smooth_prefix. by apply A3.
      * intros H. apply V5. by apply smooth_prefix in H as [H _].
    + injection E2 as <-. eapply oinv_same; [..|exact IH]; try done. intros d. unfold given. cbn. by destruct p.
  - destruct rx as [|p rx]; [done|]. destruct p; try (injection E2 as <-; by eapply oinv_skip, IH).
    destruct (dec data) as [b|] eqn:Ed.
    + injection E2 as <-. by eapply oinv_take; [exact Ed|exact IH].
    + injection E2 as <-. eapply oinv_skip, IH. intros d. cbn. by destruct (bool_decide _).
  - injection E2 as <-. destruct IH as [V1 V2 V3 V4 V5].
    assert (Hadr : forall k, o_addr <$> alter o_fail sid outs !! k = o_addr <$> outs !! k) by (by apply o_addr_alter).
    split; cbn [g_table g_out g_out_log g_rx] in *.
    + intros d k H. rewrite Hadr. by apply V1.
    + intros k ok H. destruct (decide (k = sid)) as [->|Hne].
      * rewrite list_lookup_alter in H. apply fmap_Some in H as (o & Eo & ->). destruct (V2 sid o Eo) as (tail & A1 & _). by exists tail.
      * rewrite list_lookup_alter_ne in H by done. by apply V2.
    + intros z Hz. destruct (V3 z Hz) as [[oz Hoz] Hdz]. split; [|done]. specialize (Hadr z.1). rewrite Hoz in Hadr. by apply fmap_Some in Hadr as (? & ? & _).
    + intros d. destruct (V4 d) as (took & A1 & A2 & A3). exists took. rewrite given_snoc, A1. cbn. rewrite app_nil_r.
      erewrite (sent_to_ext (Prog ins ctx cmd up sent rx tbl outs il ol)); [|intros z _; apply Hadr]. split_and!; [done|done|]. by intros [_ ?]%smooth_prefix.
    + by intros [_ ?]%smooth_prefix.
Qed.

(** ** Registration *)
Lemma ctx_fwd es st : grun es prog0 = Some st -> Forall is_fwd (g_ctx st).
Proof.
  revert st. induction es as [|e es IH] using rev_ind; intros st E; [injection E as <-; constructor|].
  apply grun_snoc in E as (s1 & E1 & E2). specialize (IH _ E1). destruct s1 as [ins ctx cmd up sent rx tbl outs il ol]. cbn in IH.
  destruct e as [addr|c chunk|c|c| | | |p|cn err|sid].
  9: { by destruct (take_fields _ _ _ _ E2) as (_ & -> & _). }
  all: cbn in E2; cases E2; injection E2 as <-; try done; cbn.
  - apply Forall_app. split; [done|]. constructor; [by eexists|constructor].
  - by inversion IH.
Qed.
Lemma write_all st : g_up st = true -> exists st', grun (replicate (length (g_cmd st)) GWrite) st = Some st' /\ g_sent st' = g_sent st ++ g_cmd st.
Proof.
  destruct st as [ins ctx cmd up sent rx tbl outs il ol]. cbn. intros ->. revert sent. induction cmd as [|p cmd IH]; intros sent; cbn.
  - eexists. split; [done|]. cbn. by rewrite app_nil_r.
  - destruct (IH (sent ++ [p])) as (st' & E & H). exists st'. split; [done|]. by rewrite H, <- app_assoc.
Qed.
Lemma up_registers es st : grun es prog0 = Some st -> g_up st = true -> exists more st', grun more st = Some st' /\ PRegister "mtcp" false (Some port) ∈ g_sent st'.
Proof.
  intros E Hu. destruct (write_all st Hu) as (st' & E' & H). eexists _, st'. split; [exact E'|]. rewrite H.
  pose proof (shape_step es st E) as Hs. rewrite Hu in Hs. destruct Hs as (l1 & l2 & Hq & _). unfold queues in Hq.
  assert (Hin : PRegister "mtcp" false (Some port) ∈ (g_sent st ++ g_cmd st) ++ g_ctx st). { rewrite <- app_assoc, Hq. apply elem_of_app. right. by left. }
  apply elem_of_app in Hin as [Hin|Hin]; [done|]. pose proof (ctx_fwd es st E) as Hc. rewrite Forall_forall in Hc. by destruct (Hc _ Hin).
Qed.
Lemma registers es st : grun es prog0 = Some st -> g_up st = true \/ (relays es < 100)%nat ->
  exists more st', grun more st = Some st' /\ PRegister "mtcp" false (Some port) ∈ g_sent st'.
Proof.
  intros E Hor. destruct (g_up st) eqn:Hu; [by eapply up_registers|]. destruct Hor as [|Hlt]; [done|].
  pose proof (shape_step es st E) as Hs. rewrite Hu in Hs. destruct Hs as (_ & _ & Hl).
  assert (Hstep : exists st1, gstep GUp st = Some st1 /\ g_up st1 = true).
  { destruct st as [ins ctx cmd up sent rx tbl outs il ol]. cbn [g_up g_cmd] in *. subst up. unfold EclaMtcp.gstep.
    assert ((length cmd <? 100)%nat = true) as -> by (apply Nat.ltb_lt; lia). cbn [negb andb]. eauto. }
  destruct Hstep as (st1 & Es & Hu1).
  assert (E1 : grun (es ++ [GUp]) prog0 = Some st1) by (rewrite grun_app, E; cbn [mbind option_bind EclaMtcp.grun]; by rewrite Es).
  destruct (up_registers _ _ E1 Hu1) as (more & st' & E2 & H). exists (GUp :: more), st'. cbn [EclaMtcp.grun]. rewrite Es. done.
Qed.
(** with a full channel the websocket client never gets further *)
Lemma stuck st more st' : g_up st = false -> length (g_cmd st) = 100%nat -> grun more st = Some st' -> g_sent st' = g_sent st.
Proof.
  revert st. induction more as [|e more IH]; intros st Hu Hl E; [by injection E as <-|]. cbn in E.
  destruct (gstep e st) as [s1|] eqn:E2; [|done]. cbn in E.
  assert (H : g_up s1 = false /\ length (g_cmd s1) = 100%nat /\ g_sent s1 = g_sent st).
  { destruct st as [ins ctx cmd up sent rx tbl outs il ol]. cbn [g_up g_cmd g_sent] in *. subst up.
    destruct e as [addr|c chunk|c|c| | | |p|cn err|sid].
    9: { by destruct (take_fields _ _ _ _ E2) as (_ & _ & -> & -> & -> & _). }
    all: unfold EclaMtcp.gstep in E2; rewrite ?Hl in E2; cbn in E2; try done; cases E2; injection E2 as <-; done. }
  destruct H as (H1 & H2 & H3). rewrite <- H3. by apply (IH s1).
Qed.
End prog.
