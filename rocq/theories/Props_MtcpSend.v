(** C87, C88, C164: concurrent transfers over MTCP (model: MtcpSend.v). *)
From Verif Require Import Bytes Mtcp MtcpProofs MtcpSend MtcpSendProofs Props_Mtcp.
From stdpp Require Import prelude gmap.
From Coq Require Import NArith Lia.
Open Scope N_scope.

(** ** C87 *)
(** A transfer reported as successful was written on a connection to its
    address, and unless that connection fails, the peer at the other end gets
    the bundle, however TCP cuts the stream. *)
Definition C87_full : Prop :=
  forall ls st, sends_bundles bundle_encoding ls -> mrun m0 ls = Some st ->
  forall i j sid, m_jobs st !! i = Some j -> j_phase j = Sent sid ->
  exists s, m_streams st !! sid = Some s /\ s_addr s = j_addr j /\
    (s_failed s = false -> forall chunks, concat chunks = s_bytes s -> j_data j ∈ c_frames (receive_stream chunks)).
(** Holds if no two transfers write on one connection at the same time.  Then
    the peer gets exactly the bundles reported as sent on the connection, each
    once, and is ready for more.  Missing: transfers that write at the same time. *)
Theorem C87_arrives_partial ls st : sends_bundles bundle_encoding ls -> exclusive m0 ls -> mrun m0 ls = Some st ->
  (forall i j sid, m_jobs st !! i = Some j -> j_phase j = Sent sid ->
    exists s, m_streams st !! sid = Some s /\ s_addr s = j_addr j) /\
  (forall sid s chunks, m_streams st !! sid = Some s -> s_failed s = false -> concat chunks = s_bytes s ->
    c_status (receive_stream chunks) = Open /\ c_frames (receive_stream chunks) ≡ₚ sent_on sid (m_jobs st)).
Proof.
  intros Hd He Hr. pose proof (inv_run _ _ _ inv0 Hr) as Hi. split.
  - intros i j sid Hj Hp. eapply (inv_uses _ Hi); [exact Hj|]. by rewrite Hp.
  - intros sid s chunks Hs Hf Hc.
    assert (Hg : good st) by (eapply good_run; [apply inv0| |exact He|exact Hr]; intros ? ? ?; done).
    assert (Hdat : forall i j, m_jobs st !! i = Some j -> sendable (j_data j)).
    { intros i j Hj. apply bundle_encoding_sendable. eapply (data_run bundle_encoding ls m0 st); [intros ? ? ?; done|done|done|exact Hj]. }
    destruct (Hg sid s Hs Hf) as (ds & w & Hb & Hds & Hw).
    assert (Hsend : Forall sendable ds).
    { rewrite Hds. apply Forall_forall. intros d Hin. apply elem_of_list_omap in Hin as (j & Hin & Hx). apply elem_of_list_lookup in Hin as [i Hj].
      unfold sent1 in Hx. destruct (j_phase j); try done. case_decide; [|done]. injection Hx as <-. by eapply Hdat. }
    assert (D w = Conn w [] Open) as HD.
    { destruct Hw as [[-> _]|(i & j & rest & Hj & Hp & Henc & _ & Hne & _)]; [done|]. eapply partial_frame; [by eapply Hdat|exact Henc|done]. }
    destruct (receive_stream_D chunks) as (H1 & H2 & _). rewrite H1, H2, Hc, Hb, (D_carried ds w) by done. done.
Qed.
(** In general false: two transfers to one peer at the same time, the first of
    which gets only a part of its bytes written at first. *)
Definition two_at_once : list label :=
  [New 9 ex_p1; Step 0; Connect 0 true; Step 0; Step 0; New 9 ex_p2; Step 1; Step 1; Write 0 5; Write 1 303; Write 0 8].
Theorem C87_refuted : ~ C87_full.
Proof.
  intros H. destruct (mrun m0 two_at_once) as [st|] eqn:E; [|by vm_compute in E].
  assert (Hd : sends_bundles bundle_encoding two_at_once) by (repeat constructor; vm_compute; congruence).
  assert (Hj : (j_phase <$> m_jobs st !! 0%nat) = Some (Sent 0) /\ (j_data <$> m_jobs st !! 0%nat) = Some ex_p1 /\
    (s_failed <$> m_streams st !! 0%nat) = Some false /\
    (match m_streams st !! 0%nat with Some s => forallb (fun f => negb (bool_decide (f = ex_p1))) (c_frames (receive_stream [s_bytes s])) | None => false end) = true).
  { assert (Hst : st = default m0 (mrun m0 two_at_once)) by (by rewrite E). rewrite Hst. split_and!; vm_compute; reflexivity. }
  destruct Hj as (H1 & H2 & H3 & H4). destruct (m_jobs st !! 0%nat) as [j|] eqn:Ej; [|done]. cbn in H1, H2. injection H1 as H1. injection H2 as H2.
  destruct (H _ _ Hd E _ _ _ Ej H1) as (s & Hs & _ & Hc). rewrite Hs in H3, H4. cbn in H3. injection H3 as H3.
  specialize (Hc H3 [s_bytes s]). cbn [concat] in Hc. rewrite app_nil_r in Hc. specialize (Hc eq_refl). rewrite H2 in Hc.
  rewrite forallb_forall in H4. specialize (H4 ex_p1). rewrite bool_decide_true in H4 by done. by discriminate H4; apply elem_of_list_In.
Qed.
(** A case: two transfers to one peer and one to another, one after the other
    on each connection. *)
Definition in_turn : list label :=
  [New 9 ex_p1; New 8 ex_p2; Step 0; Step 1; Connect 1 true; Connect 0 true; Step 0; Step 1; Step 1; Step 0; New 9 ex_p2; Step 2; Step 2;
   Write 0 5; Write 1 100; Write 0 8; Write 2 303].
(** computing [exclusive] *)
Definition midb (sid : nat) (j : job) : bool :=
  match j_phase j with Writing s rest => bool_decide (s = sid) && negb (bool_decide (rest = mtcp_encode (j_data j))) | _ => false end.
Definition aloneb (st : mstate) (l : label) : bool :=
  match l with
  | Write i _ =>
      match j_phase <$> m_jobs st !! i with
      | Some (Writing sid _) => forallb (fun k => (k =? i)%nat || negb (default false (midb sid <$> m_jobs st !! k))) (seq 0 (length (m_jobs st)))
      | _ => true
      end
  | _ => true
  end.
Fixpoint exclusiveb (st : mstate) (ls : list label) : bool :=
  match ls with [] => true | l :: ls => aloneb st l && match mstep st l with Some st' => exclusiveb st' ls | None => true end end.
Lemma exclusiveb_ok ls : forall st, exclusiveb st ls = true -> exclusive st ls.
Proof.
  induction ls as [|l ls IH]; intros st H; [done|]. cbn [exclusiveb exclusive] in *. apply andb_true_iff in H as [H1 H2]. split.
  - destruct l as [| | |i n| |]; try done. intros j sid rest Hj Hp i' j' Hj' Hne (r & Hr & Hx). unfold aloneb in H1. rewrite Hj in H1. cbn in H1. rewrite Hp in H1.
    rewrite forallb_forall in H1. specialize (H1 i'). rewrite Hj' in H1. cbn in H1. unfold midb in H1. rewrite Hr in H1.
    rewrite bool_decide_true in H1 by done. rewrite bool_decide_false in H1 by done. cbn in H1.
    apply lookup_lt_Some in Hj'. rewrite orb_false_r in H1. apply Hne, Nat.eqb_eq, H1. apply elem_of_list_In, elem_of_seq. lia.
  - destruct (mstep st l); [by apply IH|done].
Qed.
Example C87_case : sends_bundles bundle_encoding in_turn /\ exclusive m0 in_turn /\
  exists st, mrun m0 in_turn = Some st /\ sent_on 1 (m_jobs st) = [ex_p1; ex_p2] /\ sent_on 0 (m_jobs st) = [].
Proof.
  split; [repeat constructor; vm_compute; congruence|]. split; [apply exclusiveb_ok; vm_compute; reflexivity|].
  eexists. split_and!; vm_compute; reflexivity.
Qed.
Print Assumptions C87_arrives_partial.
Print Assumptions C87_refuted.

(** ** C88 *)
(** Once a transfer was reported as failed on a connection, no transfer that has
    not yet taken a connection, or starts later, uses that connection. *)
Theorem C88_failed_not_reused ls st i j sid more st' i' j' :
  mrun m0 ls = Some st -> m_jobs st !! i = Some j -> j_phase j = NotSent sid ->
  mrun st more = Some st' -> m_jobs st' !! i' = Some j' ->
  (forall j0, m_jobs st !! i' = Some j0 -> not_yet (j_phase j0)) ->
  j_phase j' <> Sent sid /\ (forall rest, j_phase j' <> Writing sid rest).
Proof.
  intros Hr Hj Hp Hm Hj' Hn. pose proof (notsent_out st i j sid (inv_run _ _ _ inv0 Hr) Hj Hp) as Ho.
  assert (~ uses (j_phase j') sid).
  { intros Hu. destruct (out_of_use_run sid more st st' Ho Hm i' j' Hj' Hu) as (j0 & Hj0 & Hu0). specialize (Hn j0 Hj0). by destruct (j_phase j0). }
  split; [intros E|intros rest E]; rewrite E in *; by cbn in *.
Qed.
Definition fails_once : list label := [New 9 ex_p1; Step 0; Connect 0 true; Step 0; Step 0; Write 0 5; Error 0; New 9 ex_p2; Step 0].
Example C88_case :
  (st ← mrun m0 fails_once; j_phase <$> m_jobs st !! 0%nat) = Some (NotSent 0) /\
  (st ← mrun m0 fails_once; j_phase <$> m_jobs st !! 1%nat) = Some Look /\
  (st ← mrun m0 (fails_once ++ [Step 1; Connect 1 true; Step 1; Step 1; Write 1 303]); j_phase <$> m_jobs st !! 1%nat) = Some (Sent 1).
Proof. split_and!; vm_compute; reflexivity. Qed.
Print Assumptions C88_failed_not_reused.

(** ** C164 *)
(** A transfer never ends without an answer. *)
Definition C164_full : Prop := forall ls st i j, mrun m0 ls = Some st -> m_jobs st !! i = Some j -> j_phase j <> Gone.
(** The connection a transfer has found is removed by one that fails before the
    first has taken it. *)
Definition removed_between : list label :=
  [New 9 ex_p1; Step 0; Connect 0 true; Step 0; Step 0; New 9 ex_p2; Step 1; Error 0; Step 0; Step 1].
Theorem C164_refuted : ~ C164_full.
Proof.
  intros H. destruct (mrun m0 removed_between) as [st|] eqn:E; [|by vm_compute in E].
  assert (Hg : j_phase <$> m_jobs st !! 1%nat = Some Gone).
  { assert (Hst : st = default m0 (mrun m0 removed_between)) by (by rewrite E). rewrite Hst. vm_compute. reflexivity. }
  destruct (m_jobs st !! 1%nat) as [j|] eqn:Ej; [|done]. cbn in Hg. injection Hg as Hg. by eapply H.
Qed.
(** That is the only way: a transfer without an answer shares its address with one
    that was reported as failed on a connection.  Reported failures have a cause:
    the connection could not be made, or it has failed. *)
Definition cut_off (a : N) (js : list job) : Prop := exists i j sid, js !! i = Some j /\ j_addr j = a /\ j_phase j = NotSent sid.
Definition found (st : mstate) : Prop := forall i j, m_jobs st !! i = Some j -> ~ cut_off (j_addr j) (m_jobs st) ->
  (j_phase j = Fetch -> is_Some (m_table st !! j_addr j)) /\ j_phase j <> Gone.
Definition ended_phase (p : phase) : bool := match p with Sent _ | NotConnected | NotSent _ | Gone => true | _ => false end.
Definition broken (st : mstate) : Prop := forall i j sid, m_jobs st !! i = Some j -> (j_phase j = Drop sid \/ j_phase j = NotSent sid) ->
  s_failed <$> m_streams st !! sid = Some true.
Lemma cut_off_set st i j p st0 a : m_jobs st !! i = Some j -> ended_phase (j_phase j) = false -> m_jobs st0 = m_jobs st ->
  cut_off a (m_jobs st) -> cut_off a (m_jobs (set_phase st0 i j p)).
Proof.
  intros Hj He E (i' & j' & sid & H & Ha & Hp). exists i', j', sid. split; [|done]. cbn. rewrite E. rewrite list_lookup_insert_ne; [done|].
  intros ->. rewrite Hj in H. injection H as ->. by rewrite Hp in He.
Qed.
Lemma found_set st st0 i j p : m_jobs st !! i = Some j -> ended_phase (j_phase j) = false -> m_jobs st0 = m_jobs st -> found st ->
  (forall a, ~ cut_off a (m_jobs (set_phase st0 i j p)) -> is_Some (m_table st !! a) -> is_Some (m_table st0 !! a)) ->
  (~ cut_off (j_addr j) (m_jobs (set_phase st0 i j p)) -> (p = Fetch -> is_Some (m_table st0 !! j_addr j)) /\ p <> Gone) -> found (set_phase st0 i j p).
Proof.
  intros Hj He E Hf Ht Hp i' j' Hj' Hc. cbn in Hj'. rewrite E in Hj'. apply list_lookup_insert_Some in Hj' as [(-> & <- & _)|[Hne Hj']]; cbn in *; [by apply Hp|].
  destruct (Hf i' j' Hj') as [H1 H2]. { intros H. apply Hc. change (<[i:=Job (j_addr j) (j_data j) p]> (m_jobs st0)) with (m_jobs (set_phase st0 i j p)). by eapply cut_off_set. }
  split; [|done]. intros Hph. apply Ht; [exact Hc|by apply H1].
Qed.
Lemma found_step st l st' : found st -> mstep st l = Some st' -> found st'.
Proof.
  intros Hf H. destruct l as [a d|i|i ok|i n|i|sid0]; cbn in H.
  - injection H as <-. intros i j Hj Hc. cbn in *. apply lookup_app_Some in Hj as [Hj|[_ Hj]].
    + apply Hf with (i := i); [done|]. intros (i' & j' & sid & H & ?). apply Hc. exists i', j', sid. split; [|done]. by apply lookup_app_l_Some.
    + apply list_lookup_singleton_Some in Hj as [_ <-]. done.
  - destruct (m_jobs st !! i) as [j|] eqn:Ej; [|done]. cbn in H. destruct (j_phase j) eqn:Ep; try done; injection H as <-.
    + eapply (found_set st); try done; [by rewrite Ep|]. intros _. case_bool_decide; [|done]. split; [done|done].
    + eapply (found_set st); try done; [by rewrite Ep| |].
      * intros a _ Ha. cbn. apply lookup_insert_is_Some'. by right.
      * intros _. split; [|done]. intros _. cbn. rewrite lookup_insert. by eexists.
    + eapply (found_set st); try done; [by rewrite Ep|]. intros Hc. destruct (Hf _ _ Ej) as [H1 _].
      { intros H. apply Hc. eapply cut_off_set; try done. by rewrite Ep. }
      destruct (H1 Ep) as [s ->]. done.
    + eapply (found_set st); try done; [by rewrite Ep|]. intros a Hc Ha. cbn. rewrite lookup_delete_ne; [done|]. intros <-. apply Hc.
      exists i, (Job (j_addr j) (j_data j) (NotSent sid)), sid. split; [|done]. cbn. apply list_lookup_insert. by eapply lookup_lt_Some.
  - destruct (m_jobs st !! i) as [j|] eqn:Ej; [|done]. cbn in H. destruct (j_phase j) eqn:Ep; try done; destruct ok; try done; injection H as <-;
      (eapply (found_set st); try done; by rewrite Ep).
  - destruct (m_jobs st !! i) as [j|] eqn:Ej; [|done]. cbn in H. destruct (j_phase j) eqn:Ep; try done. destruct (_ || _); [done|]. injection H as <-.
    eapply (found_set st); try done; [by rewrite Ep|]. intros _. by case_match.
  - destruct (m_jobs st !! i) as [j|] eqn:Ej; [|done]. cbn in H. destruct (j_phase j) eqn:Ep; try done. injection H as <-.
    eapply (found_set st); try done. by rewrite Ep.
  - by injection H as <-.
Qed.
Lemma broken_step st l st' : inv st -> broken st -> mstep st l = Some st' -> broken st'.
Proof.
  intros Hi Hb H. assert (Halt : forall f (sid sid' : nat), (forall s, s_failed s = true -> s_failed (f s) = true) ->
    s_failed <$> m_streams st !! sid = Some true -> s_failed <$> alter f sid' (m_streams st) !! sid = Some true).
  { intros f sid sid' Hf Hs. destruct (decide (sid = sid')) as [->|Hne]; [|by rewrite list_lookup_alter_ne].
    rewrite list_lookup_alter. destruct (m_streams st !! sid') as [s|]; [|done]. cbn in *. injection Hs as Hs. by rewrite (Hf _ Hs). }
  assert (Hset : forall st0 i j p, m_jobs st0 = m_jobs st -> (forall sid, s_failed <$> m_streams st !! sid = Some true -> s_failed <$> m_streams st0 !! sid = Some true) ->
    (forall sid, p = Drop sid \/ p = NotSent sid -> s_failed <$> m_streams st0 !! sid = Some true) -> broken (set_phase st0 i j p)).
  { intros st0 i j p E Hs Hp i' j' sid Hj' Hph. cbn in *. rewrite E in Hj'. apply list_lookup_insert_Some in Hj' as [(-> & <- & _)|[Hne Hj']]; [by apply Hp|].
    apply Hs. by eapply Hb. }
  destruct l as [a d|i|i ok|i n|i|sid0]; cbn in H.
  - injection H as <-. intros i j sid Hj Hp. cbn in *. apply lookup_app_Some in Hj as [Hj|[_ Hj]]; [by eapply Hb|].
    apply list_lookup_singleton_Some in Hj as [_ <-]. by destruct Hp.
  - destruct (m_jobs st !! i) as [j|] eqn:Ej; [|done]. cbn in H. destruct (j_phase j) eqn:Ep; try done; injection H as <-; apply Hset; try done.
    + intros sid'. case_bool_decide; by intros [?|?].
    + intros sid'. by intros [?|?].
    + intros sid'. case_match; by intros [?|?].
    + intros sid' [?|[= <-]]; [done|]. cbn. eapply Hb; [exact Ej|]. rewrite Ep. by left.
  - destruct (m_jobs st !! i) as [j|] eqn:Ej; [|done]. cbn in H. destruct (j_phase j) eqn:Ep; try done; destruct ok; try done; injection H as <-; apply Hset; try done.
    + intros sid Hs. cbn. destruct (m_streams st !! sid) as [s|] eqn:Es; [|done]. by rewrite (lookup_app_l_Some _ _ _ _ Es).
    + intros sid'. by intros [?|?].
    + intros sid'. by intros [?|?].
  - destruct (m_jobs st !! i) as [j|] eqn:Ej; [|done]. cbn in H. destruct (j_phase j) eqn:Ep; try done. destruct (_ || _); [done|]. injection H as <-.
    apply Hset; try done.
    + intros sid' Hs. cbn. by apply Halt.
    + intros sid'. case_match; by intros [?|?].
  - destruct (m_jobs st !! i) as [j|] eqn:Ej; [|done]. cbn in H. destruct (j_phase j) eqn:Ep; try done. injection H as <-.
    apply Hset; try done.
    + intros sid' Hs. cbn. by apply Halt.
    + intros sid' [[= <-]|?]; [|done]. cbn. rewrite list_lookup_alter.
      destruct (inv_uses _ Hi i j sid Ej) as (s & Hs & _); [by rewrite Ep|]. by rewrite Hs.
  - injection H as <-. intros i j sid Hj Hp. cbn in *. apply Halt; [done|]. by eapply Hb.
Qed.
Lemma refused_step st l st' i j : mstep st l = Some st' -> m_jobs st' !! i = Some j -> j_phase j = NotConnected ->
  l = Connect i false \/ exists j0, m_jobs st !! i = Some j0 /\ j_phase j0 = NotConnected.
Proof.
  intros H Hj Hp. destruct l as [a d|k|k ok|k n|k|sid0]; cbn in H.
  - injection H as <-. cbn in Hj. apply lookup_app_Some in Hj as [Hj|[_ Hj]]; [by right; exists j|].
    apply list_lookup_singleton_Some in Hj as [_ <-]. done.
  - destruct (m_jobs st !! k) as [j1|] eqn:Ej; [|done]. cbn in H. destruct (j_phase j1) eqn:Ep; try done; injection H as <-; cbn in Hj;
      apply list_lookup_insert_Some in Hj as [(-> & <- & _)|[Hne Hj]]; cbn in Hp; try done; try (by right; exists j); by case_match.
  - destruct (m_jobs st !! k) as [j1|] eqn:Ej; [|done]. cbn in H. destruct (j_phase j1) eqn:Ep; try done; destruct ok; try done; injection H as <-; cbn in Hj;
      apply list_lookup_insert_Some in Hj as [(-> & <- & _)|[Hne Hj]]; cbn in Hp; try done; try (by right; exists j); by left.
  - destruct (m_jobs st !! k) as [j1|] eqn:Ej; [|done]. cbn in H. destruct (j_phase j1) eqn:Ep; try done. destruct (_ || _); [done|]. injection H as <-. cbn in Hj.
    apply list_lookup_insert_Some in Hj as [(-> & <- & _)|[Hne Hj]]; cbn in Hp; [by case_match|by right; exists j].
  - destruct (m_jobs st !! k) as [j1|] eqn:Ej; [|done]. cbn in H. destruct (j_phase j1) eqn:Ep; try done. injection H as <-. cbn in Hj.
    apply list_lookup_insert_Some in Hj as [(-> & <- & _)|[Hne Hj]]; cbn in Hp; [done|by right; exists j].
  - injection H as <-. right. by exists j.
Qed.
Theorem C164_no_answer_partial : forall ls st i j, mrun m0 ls = Some st -> m_jobs st !! i = Some j ->
  (j_phase j = Gone -> exists i' j' sid, m_jobs st !! i' = Some j' /\ j_addr j' = j_addr j /\ j_phase j' = NotSent sid) /\
  (j_phase j = NotConnected -> Connect i false ∈ ls) /\
  (forall sid, j_phase j = NotSent sid -> exists s, m_streams st !! sid = Some s /\ s_addr s = j_addr j /\ s_failed s = true).
Proof.
  intros ls st i j Hr Hj.
  assert (Hall : forall ls st0 st, inv st0 -> found st0 -> broken st0 -> mrun st0 ls = Some st ->
    found st /\ broken st /\ (forall i j, m_jobs st !! i = Some j -> j_phase j = NotConnected -> Connect i false ∈ ls \/ exists j0, m_jobs st0 !! i = Some j0 /\ j_phase j0 = NotConnected)).
  { clear. induction ls as [|l ls IH]; intros st0 st Hi Hf Hb H; cbn in H.
    { injection H as <-. split; [done|]. split; [done|]. intros i j Hj Hp. right. by exists j. }
    destruct (mstep st0 l) as [st1|] eqn:E; [|done]. cbn in H.
    destruct (IH st1 st) as (H1 & H2 & H3); [by eapply inv_step|by eapply found_step|by eapply broken_step|done|].
    split; [done|]. split; [done|]. intros i j Hj Hp. destruct (H3 _ _ Hj Hp) as [?|(j0 & Hj0 & Hp0)]; [left; by right|].
    destruct (refused_step _ _ _ _ _ E Hj0 Hp0) as [->|?]; [left; left|by right]. }
  assert (Hf0 : found m0) by (by intros ? ? ?). assert (Hb0 : broken m0) by (by intros ? ? ? ?).
  destruct (Hall _ _ _ inv0 Hf0 Hb0 Hr) as (Hf & Hb & Hc).
  split; [|split].
  - intros Hg. set (f := fun jj : job => (j_addr jj =? j_addr j) && match j_phase jj with NotSent _ => true | _ => false end).
    destruct (existsb f (m_jobs st)) eqn:E.
    + apply existsb_exists in E as (jj & Hin & [Ha%N.eqb_eq Hp]%andb_true_iff). apply elem_of_list_In, elem_of_list_lookup in Hin as [i' Hi'].
      destruct (j_phase jj) eqn:Ep; try done. by eexists i', jj, _.
    + exfalso. eapply (Hf i j Hj); [|done]. intros (i' & j' & sid & Hj' & Ha & Hp). assert (existsb f (m_jobs st) = true); [|congruence].
      apply existsb_exists. exists j'. split; [apply elem_of_list_In, elem_of_list_lookup; by exists i'|]. unfold f. rewrite Ha, Hp, N.eqb_refl. done.
  - intros Hp. destruct (Hc _ _ Hj Hp) as [?|(j0 & Hj0 & _)]; [done|]. by destruct i.
  - intros sid Hp. destruct (inv_uses _ (inv_run _ _ _ inv0 Hr) i j sid Hj) as (s & Hs & Ha); [by rewrite Hp|].
    exists s. split; [done|]. split; [done|]. specialize (Hb i j sid Hj (or_intror Hp)). rewrite Hs in Hb. cbn in Hb. congruence.
Qed.
Example C164_case : exists st, mrun m0 (removed_between ++ [New 8 ex_p1; Step 2; Connect 2 false]) = Some st /\
  map j_phase (m_jobs st) = [NotSent 0; Gone; NotConnected].
Proof. eexists. split; vm_compute; reflexivity. Qed.
Print Assumptions C164_refuted.
Print Assumptions C164_no_answer_partial.
