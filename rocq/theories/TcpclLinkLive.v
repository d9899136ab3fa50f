(** Progress of two nodes joined by byte pipes (TcpclLink.v). *)
From stdpp Require Import prelude strings.
From Coq Require Import NArith Lia ZifyNat ZifyN ZifyBool.
From Verif Require Import Core Bytes TcpclWire TcpclWireProofs TcpclSession TcpclSessionProofs TcpclPair TcpclPairProofs TcpclCancel TcpclExtraProofs TcpclLink TcpclLinkProofs TcpclLinkSim.
Open Scope N_scope.

(** ** Reading uses up what is under way *)
Section Measure.
  Variable parse_id : bytes -> option bytes.
  Variable rf : bool.
  Notation step := (step parse_id rf 64000).
  Definition weight (p : packet) : nat := match p with PXferSeg _ => 6 | _ => 2 end.
  Definition weights (q : list packet) : nat := foldr (fun p n => (weight p + n)%nat) 0%nat q.
  Lemma weights_cons p q : weights (p :: q) = (weight p + weights q)%nat.
  Proof. done. Qed.
  Lemma weights_app a b : weights (a ++ b) = (weights a + weights b)%nat.
  Proof. induction a as [|p a IH]; [done|]. cbn [app]. rewrite !weights_cons, IH. lia. Qed.
  Lemma weights_segs l : weights (map PXferSeg l) = (6 * length l)%nat.
  Proof. induction l as [|p l IH]; [done|]. cbn [map length]. rewrite weights_cons, IH. cbn [weight]. lia. Qed.
  Definition sweight (s : session) : nat :=
    ((if s_ka_sent s then 0 else 1) + match s_send s with TransferRequest d _ => 6 * length (chunks 64000 d) | _ => 0 end)%nat.
  Lemma receive_weight s p has resp : is_terminated s = false ->
    is_terminated (fst (step s (EvPacket p has resp))) = true \/
    (weights (msgs (snd (step s (EvPacket p has resp)))) + sweight (fst (step s (EvPacket p has resp))) < weight p + sweight s)%nat.
  Proof.
    intros Ht. unfold TcpclSession.step. rewrite Ht.
    assert (Hk : forall s', ((if s_ka_sent s' then 0 else 1) <= 1)%nat) by (intros s'; destruct (s_ka_sent s'); lia).
    assert (Pb : forall buf tid, (weights (msgs (process_bundle parse_id buf tid)) <= 2)%nat) by (intros buf tid; unfold process_bundle; destruct (parse_id buf); cbn; lia).
    assert (Ac : forall a b c buf tid, (weights (msgs (EMsg (PXferAck a b c) :: process_bundle parse_id buf tid)) <= 4)%nat).
    { intros a b c buf tid. change (msgs (EMsg (PXferAck a b c) :: process_bundle parse_id buf tid)) with ([PXferAck a b c] ++ msgs (process_bundle parse_id buf tid)).
      rewrite weights_app. specialize (Pb buf tid). cbn [weights foldr weight]. lia. }
    assert (Sw : forall s' a b, sweight (set_ka s' a b) = ((if a then 0 else 1) + match s_send s' with TransferRequest d _ => 6 * length (chunks 64000 d) | _ => 0 end)%nat) by done.
    destruct p as [t|d|reply r|d|f tid len|r tid| |r h]; cbn [TcpclSession.receive fst snd]; try (by left).
    - destruct (s_recv s) as [|buf tid|] eqn:Er; [| |unfold is_terminated in Ht; by rewrite Er in Ht].
      + destruct (negb (f_start (xs_flags d))); [by left|]. right. destruct (refused rf has (xs_ext d)); cbn [fst snd].
        { rewrite Sw. unfold sweight. cbn [msgs omap list_omap weights foldr weight]. lia. }
        destruct (f_end (xs_flags d)); cbn [fst snd]; rewrite Sw; unfold sweight; cbn [s_send set_states weight].
        * specialize (Ac no_flags (xs_tid d) (xs_len d) (xs_buf d) (xs_tid d)). lia.
        * cbn [msgs omap list_omap weights foldr weight]. lia.
      + destruct (f_start (xs_flags d)); [by left|]. destruct (negb (tid =? xs_tid d)); [by left|]. right.
        destruct (f_end (xs_flags d)); cbn [fst snd]; rewrite Sw; unfold sweight; cbn [s_send set_states weight].
        * specialize (Ac no_flags (xs_tid d) (blen (buf ++ xs_buf d)) (buf ++ xs_buf d) (xs_tid d)). lia.
        * cbn [msgs omap list_omap weights foldr weight]. lia.
    - destruct (s_send s) as [|total h|data h|] eqn:Es; try (by left); (destruct (negb (tid =? s_last_tid s)); [by left|]).
      + destruct (len <? total); cbn [fst snd]; [right; rewrite Sw, Es; unfold sweight; rewrite Es; cbn; lia|].
        destruct resp; cbn [fst snd]; [right|by left]. rewrite Sw. unfold sweight. rewrite Es. cbn. lia.
      + unfold send_bundle. change (64000 =? 0) with false. cbn [andb]. destruct (bool_decide _) eqn:Eb.
        { destruct resp; cbn [fst snd]; [right|by left]. rewrite Sw. unfold sweight. rewrite Es. cbn. lia. }
        right. cbn [fst snd]. rewrite msgs_segs, weights_segs, segments_length, Sw. unfold sweight. rewrite Es. cbn [s_send set_states weight]. lia.
    - destruct (s_send s) as [|total h|data h|] eqn:Es; try (by left); (destruct (negb (tid =? s_last_tid s)); [by left|]);
        (destruct resp; cbn [fst snd]; [right|by left]); rewrite Sw; unfold sweight; rewrite Es; cbn; lia.
    - right. destruct (s_ka_sent s) eqn:Ek; cbn [fst snd]; rewrite Sw; unfold sweight; rewrite Ek; cbn [msgs omap list_omap weights foldr weight]; lia.
  Qed.
End Measure.

Section Live.
  Variable utf8_lossy : bytes -> bytes.
  Variable parse_id : bytes -> option bytes.
  Variable parse_node : bytes -> option eid.
  Variable refuse : side -> bool.
  Variable own : side -> bytes.
  Variable data_of : nat -> bytes.
  Variable cap : side -> N.
  Notation lstep := (lstep utf8_lossy parse_id parse_node refuse own data_of cap).
  Notation lrun := (lrun utf8_lossy parse_id parse_node refuse own data_of cap).
  Notation poll x := (poll utf8_lossy parse_id parse_node (opened x) (refuse x) (own x)).
  Notation opening := (opening own).
  Notation same := (same own).
  Notation sys_run := (sys_run parse_id data_of refuse mru).
  Hypothesis Hown : ids_ok utf8_lossy own.

  (** what the pending read holds is not a whole message *)
  Definition waiting (c : conn) : Prop :=
    match c_phase c with
    | Hello => receive_contact_header (c_held c) = RWait
    | Offer | Live _ _ => read utf8_lossy (c_held c) = RWait
    | Dead => True
    end.
  Lemma waiting_poll x c v s : waiting c -> waiting (fst (poll x c v s)).
  Proof.
    intros H. unfold TcpclLink.poll. destruct (c_phase c) as [| |d z|] eqn:E; [| | |done].
    - destruct (receive_contact_header (c_held c ++ s)) eqn:R; done.
    - destruct (read utf8_lossy (c_held c ++ s)) as [[]| |] eqn:R; try done. cbn. by destruct (greet _ _ _ _).
    - destruct (is_terminated z); [done|]. destruct (read utf8_lossy (c_held c ++ s)) as [? ?| |] eqn:R; done.
  Qed.
  Lemma waiting_react x c d s e snap : waiting (react1 parse_id (refuse x) c d s e snap).
  Proof. done. Qed.
  Lemma lrun_waiting es x : waiting (at_ (lrun es) x).
  Proof.
    revert x. induction es as [|e es IH] using rev_ind; [by intros []|]. rewrite lrun_snoc. set (l := lrun es) in *. clearbody l.
    assert (G : forall y c', waiting c' -> forall x, waiting (at_ (with_ l y c') x)).
    { intros y c' H x. destruct (side_cases y x) as [-> | ->]; [by rewrite at_with_same|rewrite at_with_other; apply IH]. }
    assert (B : forall y ev, waiting (other_branch parse_id (refuse y) (at_ l y) ev)).
    { intros y ev. unfold other_branch. pose proof (IH y) as Hy. destruct (c_phase (at_ l y)) as [| |d s|] eqn:E; try done. destruct (is_terminated s); [done|]. destruct ev; try done; destruct (s_send s); done. }
    destruct e as [y n v|y h resp|y|y|y]; cbn [TcpclLink.lstep]; try (destruct (busy cap l y); [done|]).
    - intros x. destruct (side_cases y x) as [-> | ->].
      + rewrite at_with_same. apply waiting_poll, IH.
      + rewrite at_with_other, at_with_same. exact (IH (other y)).
    - apply G, B.
    - apply G, B.
    - apply G, B.
    - apply G. unfold fail. destruct (c_phase (at_ l y)) as [| |d s|] eqn:E; try done. destruct (is_terminated s); [apply IH|done].
  Qed.

  (** the id of a node is an endpoint of a node *)
  Definition nodes_ok : Prop := forall x, exists e, parse_node (own x) = Some e /\ eid_node e <> None.
  Lemma greet_own x v : nodes_ok -> greet parse_node (opened x) v (local_params (own (other x))) <> None.
  Proof. intros H. destruct (H (other x)) as (e & He & Hn). unfold greet. cbn. rewrite He. destruct (opened x); [done|]. by destruct (eid_node e). Qed.
  Lemma never_dead es x : nodes_ok -> (forall y, LFail y ∉ es) -> c_phase (at_ (lrun es) x) <> Dead.
  Proof.
    intros Hn. revert x. induction es as [|e es IH] using rev_ind; [by intros []|]. intros x Hf.
    assert (Hf1 : forall y, LFail y ∉ es) by (intros y Hy; apply (Hf y), elem_of_app; by left).
    pose proof (lrun_opening utf8_lossy parse_id parse_node refuse own data_of cap Hown es) as Ho.
    assert (IH' : forall y, c_phase (at_ (lrun es) y) <> Dead) by (intros y; by apply IH). clear IH.
    rewrite lrun_snoc. set (l := lrun es) in *. clearbody l.
    assert (G : forall y c', c_phase c' <> Dead -> c_phase (at_ (with_ l y c') x) <> Dead).
    { intros y c' H. destruct (side_cases y x) as [-> | ->]; [by rewrite at_with_same|rewrite at_with_other; apply IH']. }
    assert (B : forall y ev, c_phase (other_branch parse_id (refuse y) (at_ l y) ev) <> Dead).
    { intros y ev. unfold other_branch. pose proof (IH' y) as Hy. destruct (c_phase (at_ l y)) as [| |d s|] eqn:E; try congruence. destruct (is_terminated s); [congruence|]. destruct ev; try done; destruct (s_send s); try done; congruence. }
    destruct e as [y n v|y h resp|y|y|y]; cbn [TcpclLink.lstep]; try (destruct (busy cap l y); [done|]).
    - destruct (side_cases y x) as [-> | ->].
      2:{ rewrite at_with_other, at_with_same. exact (IH' (other y)). }
      rewrite at_with_same. specialize (Ho y). unfold TcpclLinkSim.opening in Ho. cbv zeta in Ho. specialize (IH' y). set (o := c_out (at_ l (other y))) in *.
      assert (Hs : (c_held (at_ l y) ++ take n o) ++ drop n o = c_held (at_ l y) ++ o) by (by rewrite <- app_assoc, take_drop).
      unfold TcpclLink.poll. destruct (c_phase (at_ l y)) as [| |d s|] eqn:E; [| | |done].
      + destruct Ho as (bs & Hb & _). rewrite Hb in Hs. apply hello_read in Hs. by destruct (receive_contact_header _).
      + destruct Ho as [[Hb _]|[_ [m Hb]]]; rewrite Hb in Hs.
        * apply (nil_read utf8_lossy) in Hs. by rewrite Hs.
        * assert (Hwi : wf_packet utf8_lossy (PSessInit (local_params (own (other y))))) by (destruct (Hown (other y)); cbn; repeat split; try lia; done).
          apply (wf_read _ _ _ _ _ Hwi) in Hs. destruct (read utf8_lossy _) as [q r| |]; [|done|done]. destruct Hs as [-> _].
          pose proof (greet_own y v Hn) as Hg. by destruct (greet _ _ _ _).
      + destruct (is_terminated s); cbn; [congruence|]. by destruct (read utf8_lossy _).
    - apply G, B.
    - apply G, B.
    - apply G, B.
    - exfalso. apply (Hf y), elem_of_app. right. by left.
  Qed.
  (** when all that was sent has been taken, both are in the session *)
  Lemma all_taken_live es x : nodes_ok -> (forall y, LFail y ∉ es) -> (forall y, c_out (at_ (lrun es) y) = []) ->
    is_live (at_ (lrun es) x) = true.
  Proof.
    intros Hn Hf Hq.
    assert (Nh : forall y, c_phase (at_ (lrun es) y) <> Hello).
    { intros y E. pose proof (lrun_opening utf8_lossy parse_id parse_node refuse own data_of cap Hown es y) as Ho. unfold TcpclLinkSim.opening in Ho. cbv zeta in Ho.
      pose proof (lrun_waiting es y) as Hw. unfold waiting in Hw. rewrite E in *. destruct Ho as (bs & Hb & _). rewrite Hq, app_nil_r in Hb.
      rewrite Hb, hdr_ok in Hw. done. }
    pose proof (lrun_opening utf8_lossy parse_id parse_node refuse own data_of cap Hown es x) as Ho. unfold TcpclLinkSim.opening in Ho. cbv zeta in Ho.
    pose proof (lrun_waiting es x) as Hw. unfold waiting in Hw. unfold is_live.
    destruct (c_phase (at_ (lrun es) x)) as [| |d s|] eqn:E; [by destruct (Nh x)| |done|by apply never_dead in E].
    rewrite Hq, app_nil_r in Ho. destruct Ho as [[_ [Hb|Hb]]|[_ [m Hb]]].
    - by destruct (Nh (other x)).
    - by apply never_dead in Hb.
    - rewrite Hb in Hw. assert (Hwi : wf_packet utf8_lossy (PSessInit (local_params (own (other x))))) by (destruct (Hown (other x)); cbn; repeat split; try lia; done).
      unfold initmsg in Hw. rewrite read_write in Hw by done. done.
  Qed.

  (** ** Transfers taken and verdicts given *)
  Definition alive (c : conn) : Prop := exists d s, c_phase c = Live d s /\ is_terminated s = false.
  Definition ready (l : link) (x : side) : bool :=
    negb (busy cap l x) && match c_phase (at_ l x) with Live _ s => negb (is_terminated s) && match s_send s with SIdle => true | _ => false end | _ => false end.
  Fixpoint taken (l : link) (x : side) (es : list lev) : list nat :=
    match es with
    | [] => []
    | e :: es => match e with LSubmit y h _ => if decide (y = x) then if ready l x then [h] else [] else [] | _ => [] end ++ taken (lstep l e) x es
    end.
  Definition verdicts (c : conn) : list nat := omap verdict_of (c_log c).
  Lemma taken_snoc es l x e : taken l x (es ++ [e]) = taken l x es ++ taken (fold_left lstep es l) x [e].
  Proof. revert l. induction es as [|e0 es IH]; intros l; [done|]. cbn [app taken fold_left]. by rewrite IH, app_assoc. Qed.
  Definition counts (t : list nat) (x : side) (c : conn) : Prop :=
    match c_phase c with
    | Live _ s => req_ok (refuse x) s /\ exists dropped, t = verdicts c ++ inflight s ++ dropped /\ (is_terminated s = false -> dropped = [])
    | _ => t = [] /\ c_log c = []
    end.
  Lemma counts_react t x c d s e snap : counts t x c -> c_phase c = Live d s -> is_terminated s = false ->
    counts (t ++ takes s e) x (react1 parse_id (refuse x) c d s e snap).
  Proof.
    unfold counts. intros H E Et. rewrite E in H. destruct H as (Hr & dr & Ht & Hd). rewrite (Hd Et), app_nil_r in Ht.
    cbn. split; [by apply step_req_ok|]. destruct (step_send_step parse_id (refuse x) (si_segment_mru d) s e Hr) as [(dr2 & Hp & Hd2) _ _ _].
    exists dr2. unfold verdicts. cbn [c_log]. rewrite omap_app. split; [|done]. by rewrite Ht, <- !app_assoc, Hp.
  Qed.
  Lemma counts_poll t x c v s : counts t x c -> counts t x (fst (poll x c v s)).
  Proof.
    intros H. unfold TcpclLink.poll. destruct (c_phase c) as [| |d z|] eqn:E; [| | |done].
    - unfold counts in *. rewrite E in H. by destruct (receive_contact_header (c_held c ++ s)).
    - unfold counts in *. rewrite E in H. destruct (read utf8_lossy (c_held c ++ s)) as [[]| |]; try done.
      destruct (greet _ _ _ _); [|done]. cbn. destruct H as [-> Hl]. split; [by intros ? ? [=]|]. exists []. unfold verdicts. cbn. by rewrite Hl.
    - destruct (is_terminated z) eqn:Et; [done|]. destruct (read utf8_lossy (c_held c ++ s)) as [p ?| |]; cbn [fst].
      + rewrite <- (app_nil_r t). by apply (counts_react t x c d z (EvPacket p (v_has v) (v_resp v))).
      + unfold counts in *. rewrite E in H. cbn. done.
      + rewrite <- (app_nil_r t). by apply (counts_react t x c d z EvReadErr).
  Qed.
  Lemma counts_branch t x c e : counts t x c ->
    counts (t ++ match c_phase c with Live _ s => takes s e | _ => [] end) x (other_branch parse_id (refuse x) c e).
  Proof.
    intros H. unfold other_branch. destruct (c_phase c) as [| |d s|] eqn:E; rewrite ?app_nil_r; try done.
    unfold takes. destruct (is_terminated s) eqn:Et; [by destruct e; rewrite app_nil_r|].
    assert (R := counts_react t x c d s e [] H E Et). unfold takes in R. rewrite Et in R.
    destruct e; try exact R; destruct (s_send s); rewrite ?app_nil_r in *; done.
  Qed.
  Lemma counts_fail t x c : counts t x c -> counts t x (fail parse_id (refuse x) c).
  Proof.
    intros H. unfold fail. destruct (c_phase c) as [| |d s|] eqn:E; try (unfold counts in *; rewrite E in H; done).
    destruct (is_terminated s) eqn:Et; [done|]. rewrite <- (app_nil_r t). by apply (counts_react t x c d s EvReadErr).
  Qed.
  Lemma lrun_counts es x : counts (taken link0 x es) x (at_ (lrun es) x).
  Proof.
    revert x. induction es as [|e es IH] using rev_ind; [by intros []|]. intros x. rewrite lrun_snoc, taken_snoc.
    change (fold_left lstep es link0) with (lrun es). specialize (IH x). set (l := lrun es) in *. set (t := taken link0 x es) in *. clearbody l t.
    cbn [taken]. rewrite app_nil_r. unfold ready.
    assert (Ot : forall y c', counts (t ++ []) x (at_ (with_ l (other x) c') x)) by (intros y c'; by rewrite at_with_other', app_nil_r).
    assert (Ox : forall y c', y <> x -> counts (t ++ []) x (at_ (with_ l y c') x)).
    { intros y c' Hn. destruct (side_cases x y) as [-> | ->]; [done|]. by apply Ot. }
    destruct e as [y n v|y h resp|y|y|y]; cbn [TcpclLink.lstep].
    - rewrite app_nil_r. destruct (busy cap l y); [done|]. destruct (side_cases y x) as [-> | ->].
      + rewrite at_with_same. by apply counts_poll.
      + rewrite at_with_other, at_with_same. exact IH.
    - destruct (decide (y = x)) as [->|Hn]; [|destruct (busy cap l y); [by rewrite app_nil_r|by apply Ox]].
      destruct (busy cap l x); cbn [negb andb]; [by rewrite app_nil_r|]. rewrite at_with_same.
      pose proof (counts_branch t x (at_ l x) (EvSubmit (data_of h) h resp) IH) as B. cbn [takes] in B.
      destruct (c_phase (at_ l x)) as [| |d s|]; try exact B. destruct (is_terminated s); [exact B|]. destruct (s_send s); exact B.
    - destruct (busy cap l y); [by rewrite app_nil_r|]. destruct (decide (y = x)) as [->|Hn]; [|by apply Ox]. rewrite at_with_same.
      pose proof (counts_branch t x (at_ l x) EvTimeout IH) as B. cbn [takes] in B. by destruct (c_phase (at_ l x)).
    - destruct (busy cap l y); [by rewrite app_nil_r|]. destruct (decide (y = x)) as [->|Hn]; [|by apply Ox]. rewrite at_with_same.
      pose proof (counts_branch t x (at_ l x) EvQueueClosed IH) as B. cbn [takes] in B. by destruct (c_phase (at_ l x)).
    - destruct (decide (y = x)) as [->|Hn]; [|by apply Ox]. rewrite at_with_same, app_nil_r. by apply counts_fail.
  Qed.

  Notation same_bytes := (same_bytes own).
  (** nothing under way: nothing is being sent *)
  Theorem link_quiescent es x :
    lmoderate parse_id data_of es -> nothing_abandoned utf8_lossy parse_id parse_node refuse own data_of cap es ->
    (forall y, alive (at_ (lrun es) y)) -> (forall y, c_out (at_ (lrun es) y) = []) ->
    verdicts (at_ (lrun es) x) = taken link0 x es /\ c_held (at_ (lrun es) x) = [].
  Proof.
    intros Hm Hn Ha Hq. destruct (sim utf8_lossy parse_id parse_node refuse own data_of cap Hown es Hm Hn) as (es' & Hs & Hex).
    assert (Hw : winv utf8_lossy data_of es' (sys_run es')) by (eapply sys_winv, explains_moderate; done).
    assert (Hne : forall y, n_out (get (sys_run es') (other y)) = [] /\ c_held (at_ (lrun es) y) = []).
    { intros y. pose proof (sa_bytes _ _ _ Hs y) as Hb. unfold TcpclLinkSim.same_bytes in Hb. cbv zeta in Hb. destruct (Ha y) as (d & s & E & Et).
      pose proof (lrun_waiting es y) as Hwt. unfold waiting in Hwt. rewrite E in *. specialize (Hb Et). rewrite Hq, app_nil_r in Hb.
      pose proof (wi_out _ _ _ _ Hw (other y)) as Hwf. destruct (n_out (get (sys_run es') (other y))) as [|p q]; [done|].
      apply Forall_cons in Hwf as [Hwf _]. rewrite Hb in Hwt. unfold enc in Hwt. cbn [map concat] in Hwt. rewrite read_write in Hwt by done. done. }
    assert (Hid : s_send (n_sess (get (sys_run es') x)) = SIdle).
    { apply quiescent_idle.
      - intros y. destruct (Ha y) as (d & s & E & Et). pose proof (sa_side _ _ _ Hs y) as Hy. unfold same_side in Hy. rewrite E in Hy. destruct Hy as [-> _]. done.
      - intros y. rewrite <- (other_other y). apply Hne. }
    split; [|apply Hne]. pose proof (lrun_counts es x) as Hc. unfold counts in Hc. destruct (Ha x) as (d & s & E & Et).
    pose proof (sa_side _ _ _ Hs x) as Hy. unfold same_side in Hy. rewrite E in *. destruct Hy as [Hy _]. rewrite Hy in Hid.
    destruct Hc as (_ & dr & -> & Hd). rewrite (Hd Et). unfold inflight. rewrite Hid. cbn. by rewrite app_nil_r.
  Qed.

  (** ** Reading goes on until everything has been read *)
  Notation sys_step := (sys_step parse_id data_of refuse mru).
  Notation explains := (explains data_of).
  Notation lmoderate := (lmoderate parse_id data_of).
  Definition nweight (n : node) : nat := (weights (n_out n) + sweight (n_sess n))%nat.
  Definition pweight (p : pair) : nat := (nweight (pa p) + nweight (pb p))%nat.
  Definition phweight (c : conn) : nat := match c_phase c with Hello => 2 | Offer => 1 | _ => 0 end%nat.
  Definition total (l : link) (p : pair) : nat := (pweight p + phweight (la l) + phweight (lb l))%nat.
  Lemma pweight_get p x : pweight p = (nweight (get p x) + nweight (get p (other x)))%nat.
  Proof. unfold pweight. destruct x; cbn; lia. Qed.
  Lemma total_at l p x : total l p = (pweight p + phweight (at_ l x) + phweight (at_ l (other x)))%nat.
  Proof. unfold total. destruct x; cbn; lia. Qed.
  Definition ended (c : conn) : Prop := exists d s, c_phase c = Live d s /\ is_terminated s = true.
  Lemma ended_dec c : ended c \/ ~ ended c.
  Proof. unfold ended. destruct (c_phase c) as [| |d s|]; try (right; by intros (? & ? & [=] & _)). destruct (is_terminated s) eqn:E; [left; by exists d, s|right]. intros (? & ? & [= <- <-] & H). congruence. Qed.
  Lemma poll_phweight x c v s : (phweight (fst (poll x c v s)) <= phweight c)%nat.
  Proof.
    unfold TcpclLink.poll, phweight. destruct (c_phase c) as [| |d z|] eqn:E.
    - destruct (receive_contact_header (c_held c ++ s)); cbn; lia.
    - destruct (read utf8_lossy (c_held c ++ s)) as [[]| |]; cbn; try lia. destruct (greet _ _ _ _); cbn; lia.
    - destruct (is_terminated z); [cbn [fst]; rewrite E; lia|]. destruct (read utf8_lossy (c_held c ++ s)); cbn; lia.
    - cbn [fst]. rewrite E. lia.
  Qed.
  Lemma deliver_weight p x has resp : is_terminated (n_sess (get p x)) = false -> n_out (get p (other x)) <> [] ->
    is_terminated (n_sess (get (sys_step p (Deliver x has resp)) x)) = true \/ (pweight (sys_step p (Deliver x has resp)) < pweight p)%nat.
  Proof.
    intros Ht Hn. cbn [TcpclPair.sys_step]. destruct (n_out (get p (other x))) as [|m q] eqn:Eq; [done|].
    destruct (receive_weight parse_id (refuse x) (n_sess (get p x)) m has resp Ht) as [H|H].
    - left. rewrite get_put_same. exact H.
    - right. rewrite (pweight_get p x), (pweight_get _ x), get_put_same, get_put_other, get_put_same. unfold nweight. rewrite Eq. unfold react, pop, mru. cbn [n_out n_sess].
      rewrite Eq. cbn [tail]. rewrite weights_app, (weights_cons m q). lia.
  Qed.
  (** the pipe to [x] after a poll of [x] *)
  Lemma lstep_poll l x n v : busy cap l x = false ->
    lstep l (LPoll x n v) =
    let r := poll x (at_ l x) v (take n (c_out (at_ l (other x)))) in
    with_ (with_ l (other x) (set_out (at_ l (other x)) (snd r ++ drop n (c_out (at_ l (other x)))))) x (fst r).
  Proof. intros H. cbn [TcpclLink.lstep]. by rewrite H. Qed.

  Lemma poll_weight es es' x n v : nodes_ok -> (forall y, LFail y ∉ es) ->
    same (lrun es) (sys_run es') -> explains es es' -> lmoderate es -> busy cap (lrun es) x = false ->
    (forall y, ~ ended (at_ (lrun es) y)) ->
    let e := LPoll x n v in
    exists es2, same (lrun (es ++ [e])) (sys_run es2) /\ explains (es ++ [e]) es2 /\
      (ended (at_ (lrun (es ++ [e])) x) \/
       ((total (lrun (es ++ [e])) (sys_run es2) <= total (lrun es) (sys_run es'))%nat /\
        (length (c_out (at_ (lrun es) (other x))) <= n -> c_out (at_ (lrun es) (other x)) <> [] ->
           total (lrun (es ++ [e])) (sys_run es2) < total (lrun es) (sys_run es'))%nat)).
  Proof.
    intros Hn Hf Hs Hex Hm Hb Hne e.
    assert (Hm' : lmoderate (es ++ [e])).
    { destruct Hm as [M1 M2 M3]. split.
      - intros y. rewrite lamount_snoc. cbn. specialize (M1 y). lia.
      - intros y. rewrite lnumber_snoc. cbn. specialize (M2 y). lia.
      - intros y h r id [Hi|Hi]%elem_of_app; [by apply (M3 y h r)|]. apply elem_of_list_singleton in Hi. done. }
    destruct (sim_step utf8_lossy parse_id parse_node refuse own data_of cap Hown es es' e Hs Hex Hm' I) as (es2 & Hs2 & Hex2 & Hd).
    exists es2. split; [done|]. split; [done|].
    assert (Hw : winv utf8_lossy data_of es' (sys_run es')) by (apply sys_winv, (explains_moderate parse_id refuse data_of cap es); done).
    pose proof (never_dead es x Hn Hf) as Hnd.
    rewrite lrun_snoc in *. set (l := lrun es) in *. set (l2 := lstep l e) in *. set (p := sys_run es') in *.
    assert (El2 : l2 = lstep l (LPoll x n v)) by done. rewrite lstep_poll in El2 by done. cbv zeta in El2.
    set (o := c_out (at_ l (other x))) in *. set (r := poll x (at_ l x) v (take n o)) in *.
    assert (A2 : at_ l2 x = fst r) by (by rewrite El2, at_with_same).
    assert (B2 : at_ l2 (other x) = set_out (at_ l (other x)) (snd r ++ drop n o)) by (by rewrite El2, at_with_other, at_with_same).
    assert (Hph : (phweight (at_ l2 x) <= phweight (at_ l x))%nat) by (rewrite A2; apply poll_phweight).
    assert (Hpo : phweight (at_ l2 (other x)) = phweight (at_ l (other x))) by (by rewrite B2).
    assert (Heq : sys_run es2 = p -> ended (at_ l2 x) \/
       ((total l2 (sys_run es2) <= total l p)%nat /\ (length o <= n -> o <> [] -> total l2 (sys_run es2) < total l p)%nat)).
    { intros Ep. rewrite Ep, !(total_at _ _ x). destruct (ended_dec (at_ l2 x)) as [|Hen]; [by left|].
      right. split; [lia|]. intros Hlen Ho. cut (phweight (at_ l2 x) < phweight (at_ l x))%nat; [lia|].
      pose proof (sa_bytes _ _ _ Hs x) as Hby. pose proof (sa_bytes _ _ _ Hs2 x) as Hby2. rewrite Ep in Hby2.
      pose proof (wi_out _ _ _ _ Hw (other x)) as Hwf. fold p in Hwf.
      unfold TcpclLinkSim.same_bytes in Hby, Hby2. cbv zeta in Hby, Hby2. fold o in Hby.
      rewrite A2, B2 in Hby2. cbn [c_out set_out c_phase] in Hby2.
      rewrite A2 in *. unfold r, TcpclLink.poll in *. rewrite take_ge in * by done. rewrite drop_ge in * by done. unfold phweight. clear Hpo Hph.
      destruct (c_phase (at_ l x)) as [| |d s|] eqn:E.
      - destruct Hby as (bs & Hb1 & _). rewrite Hb1, hdr_ok. cbn. lia.
      - destruct Hby as [[Hb1 _]|[_ Hb1]]; [apply app_eq_nil in Hb1 as [_ Hb1]; done|]. unfold TcpclLinkSim.initmsg in Hb1. rewrite Hb1.
        assert (Hwi : wf_packet utf8_lossy (PSessInit (local_params (own (other x))))) by (destruct (Hown (other x)); cbn; repeat split; try lia; done).
        rewrite read_write by done. pose proof (greet_own x v Hn) as Hg. destruct (greet _ _ _ _); [cbn; lia|done].
      - exfalso. destruct (is_terminated s) eqn:Et; [apply (Hne x); by exists d, s|]. specialize (Hby eq_refl).
        destruct (n_out (get p (other x))) as [|m q] eqn:Eq; [unfold enc in Hby; cbn in Hby; apply app_eq_nil in Hby as [_ Hby]; done|].
        apply Forall_cons in Hwf as [Hwf _]. unfold enc in Hby. cbn [map concat] in Hby. rewrite Hby, read_write in * by done. cbn [fst snd] in *.
        cbn [react1 c_phase c_held] in Hby2. destruct (is_terminated (fst (step parse_id (refuse x) (si_segment_mru d) s (EvPacket m (v_has v) (v_resp v))))) eqn:Et2.
        + apply Hen. eexists _, _. split; [reflexivity|exact Et2].
        + specialize (Hby2 eq_refl). rewrite app_nil_r in Hby2. apply (f_equal length) in Hby2. unfold enc in Hby2. cbn in Hby2. rewrite app_length in Hby2.
          assert (0 < length (write m))%nat; [|lia]. destruct m; cbn; try lia; rewrite app_length; cbn; lia.
      - done. }
    destruct Hd as [-> |(se & -> & Hse)]; [by apply Heq|].
    assert (se = Deliver x (v_has v) (v_resp v)) as ->.
    { destruct se; cbn in Hse; try discriminate Hse. by destruct Hse as (n0 & v0 & [= <- <- <-] & -> & ->). } rewrite sys_run_snoc in *. fold p in Hs2, Heq |- *.
    destruct (n_out (get p (other x))) as [|m q] eqn:Eq; [apply Heq; cbn [TcpclPair.sys_step]; by rewrite Eq|].
    assert (Ht : is_terminated (n_sess (get p x)) = false).
    { pose proof (sa_side _ _ _ Hs x) as Hx. unfold same_side in Hx. destruct (c_phase (at_ l x)) as [| |d s|] eqn:E; destruct Hx as [Hx _]; rewrite Hx; try done.
      destruct (is_terminated s) eqn:Et; [|done]. destruct (Hne x). by exists d, s. }
    destruct (deliver_weight p x (v_has v) (v_resp v) Ht) as [Hd|Hd]; [by rewrite Eq| |].
    - left. pose proof (sa_side _ _ _ Hs2 x) as Hx. unfold same_side in Hx. destruct (c_phase (at_ l2 x)) as [| |d s|] eqn:E; destruct Hx as [Hx _]; rewrite Hx in Hd; try done. by exists d, s.
    - right. rewrite !(total_at _ _ x). lia.
  Qed.

  (** after a poll that does not use up the weight, the pipe to [x] is not empty if it was not *)
  Lemma pipe_stays es x y n v : busy cap (lrun es) y = false -> c_out (at_ (lrun es) (other x)) <> [] ->
    (y = x -> (n < length (c_out (at_ (lrun es) (other x))))%nat) ->
    c_out (at_ (lrun (es ++ [LPoll y n v])) (other x)) <> [].
  Proof.
    intros Hb Ho Hn. rewrite lrun_snoc, lstep_poll by done. cbv zeta. set (l := lrun es) in *.
    destruct (side_cases x y) as [-> | ->].
    - rewrite at_with_other, at_with_same. cbn. intros [_ Hd]%app_eq_nil. apply (f_equal length) in Hd. rewrite drop_length in Hd. cbn in Hd. specialize (Hn eq_refl). lia.
    - rewrite at_with_same. destruct (poll_advances utf8_lossy parse_id parse_node refuse own (other x) (at_ l (other x)) v (take n (c_out (at_ l (other (other x)))))) as (m & Hm & _).
      rewrite Hm. intros [Hx _]%app_eq_nil. done.
  Qed.
  Section Fair.
    Variable es : list lev.
    Variable f : nat -> side * nat * env.
    Definition reads (k : nat) : list lev := map (fun i => let '(x, n, v) := f i in LPoll x n v) (seq 0 k).
    Notation upto k := (lrun (es ++ reads k)).
    Hypothesis Hn : nodes_ok.
    Hypothesis Hf : forall y, LFail y ∉ es.
    Hypothesis Hm : lmoderate es.
    Hypothesis Hna : nothing_abandoned utf8_lossy parse_id parse_node refuse own data_of cap es.
    Hypothesis Hbusy : forall k y, busy cap (upto k) y = false.
    Hypothesis Hfair : forall i x, exists j n v, (i <= j)%nat /\ f j = (x, n, v) /\ (length (c_out (at_ (upto j) (other x))) <= n)%nat.
    Lemma reads_S k : reads (S k) = reads k ++ [let '(x, n, v) := f k in LPoll x n v].
    Proof. unfold reads. by rewrite seq_S, map_app. Qed.
    Lemma reads_moderate k : lmoderate (es ++ reads k).
    Proof.
      destruct Hm as [M1 M2 M3].
      assert (A : forall y, lamount data_of y (es ++ reads k) = lamount data_of y es /\ lnumber y (es ++ reads k) = lnumber y es).
      { intros y. induction k as [|k [IH1 IH2]]; [by rewrite app_nil_r|]. rewrite reads_S, app_assoc, lamount_snoc, lnumber_snoc, IH1, IH2. destruct (f k) as [[a b] c]. lia. }
      split.
      - intros y. by rewrite (proj1 (A y)).
      - intros y. by rewrite (proj2 (A y)).
      - intros y h r id [Hi|Hi]%elem_of_app; [by apply (M3 y h r)|]. unfold reads in Hi. apply elem_of_list_fmap in Hi as (i & Hi & _). by destruct (f i) as [[? ?] ?].
    Qed.
    Lemma reads_nofail k y : LFail y ∉ es ++ reads k.
    Proof. intros [Hi|Hi]%elem_of_app; [by apply (Hf y)|]. unfold reads in Hi. apply elem_of_list_fmap in Hi as (i & Hi & _). by destruct (f i) as [[? ?] ?]. Qed.
    Definition settled (k : nat) : Prop := (exists y, ended (at_ (upto k) y)) \/ (forall y, c_out (at_ (upto k) y) = []).
    Lemma one_read k es' : same (upto k) (sys_run es') -> explains (es ++ reads k) es' -> (forall y, ~ ended (at_ (upto k) y)) ->
      let '(x, n, v) := f k in
      exists es2, same (upto (S k)) (sys_run es2) /\ explains (es ++ reads (S k)) es2 /\
      (ended (at_ (upto (S k)) x) \/
       ((total (upto (S k)) (sys_run es2) <= total (upto k) (sys_run es'))%nat /\
        (length (c_out (at_ (upto k) (other x))) <= n -> c_out (at_ (upto k) (other x)) <> [] ->
           total (upto (S k)) (sys_run es2) < total (upto k) (sys_run es'))%nat)).
    Proof.
      intros Hs Hex Hne. rewrite reads_S, app_assoc. destruct (f k) as [[x n] v].
      apply poll_weight; try done; [apply reads_nofail|apply reads_moderate].
    Qed.
    Lemma settles m : forall k es', (total (upto k) (sys_run es') < m)%nat -> same (upto k) (sys_run es') -> explains (es ++ reads k) es' ->
      exists k', (k <= k')%nat /\ settled k'.
    Proof.
      induction m as [|m IH]; [lia|]. intros k es' Ht Hs Hex.
      assert (Gone : forall k es', (total (upto k) (sys_run es') <= m)%nat -> same (upto k) (sys_run es') -> explains (es ++ reads k) es' ->
        forall x, c_out (at_ (upto k) (other x)) <> [] -> exists k', (k <= k')%nat /\ settled k').
      { clear k es' Ht Hs Hex. intros k es' Ht Hs Hex x Ho. destruct (Hfair k x) as (j & n & v & Hj & Hfj & Hlen).
        remember (j - k)%nat as g eqn:Hg. revert k es' Ht Hs Hex Ho Hj Hg. induction g as [|g IHg]; intros k es' Ht Hs Hex Ho Hj Hg.
        - assert (j = k) as -> by lia. destruct (ended_dec (at_ (upto k) A)) as [Ha|Ha]; [exists k; split; [lia|]; left; eauto|].
          destruct (ended_dec (at_ (upto k) B)) as [Hb|Hb]; [exists k; split; [lia|]; left; eauto|].
          pose proof (one_read k es' Hs Hex) as Ho1. rewrite Hfj in Ho1. destruct Ho1 as (es2 & Hs2 & Hex2 & [He|[_ Hlt]]); [by intros []| |].
          + exists (S k). split; [lia|]. left. eauto.
          + destruct (IH (S k) es2) as (k' & Hk & Hse); [|done|done|exists k'; split; [lia|done]]. specialize (Hlt Hlen Ho). lia.
        - destruct (ended_dec (at_ (upto k) A)) as [Ha|Ha]; [exists k; split; [lia|]; left; eauto|].
          destruct (ended_dec (at_ (upto k) B)) as [Hb|Hb]; [exists k; split; [lia|]; left; eauto|].
          pose proof (one_read k es' Hs Hex) as Ho1. destruct (f k) as [[y n'] v'] eqn:Ef. destruct Ho1 as (es2 & Hs2 & Hex2 & [He|[Hle Hlt]]); [by intros []| |].
          + exists (S k). split; [lia|]. left. eauto.
          + destruct (decide (y = x /\ (length (c_out (at_ (upto k) (other x))) <= n')%nat)) as [[-> Hl]|Hno].
            * specialize (Hlt Hl Ho). destruct (IH (S k) es2) as (k' & Hk & Hse); [lia|done|done|exists k'; split; [lia|done]].
            * destruct (IHg (S k) es2) as (k' & Hk & Hse); try done; try lia.
              -- rewrite reads_S, app_assoc, Ef. apply pipe_stays; [apply Hbusy|done|]. intros ->. destruct (decide (length (c_out (at_ (upto k) (other x))) <= n')%nat); [|lia]. exfalso. by apply Hno.
              -- exists k'. split; [lia|done]. }
      destruct (decide (c_out (at_ (upto k) A) = [])) as [Ha|Ha].
      - destruct (decide (c_out (at_ (upto k) B) = [])) as [Hb|Hb].
        + exists k. split; [lia|]. right. by intros [].
        + apply (Gone k es' ltac:(lia) Hs Hex A). done.
      - apply (Gone k es' ltac:(lia) Hs Hex B). done.
    Qed.
    Lemma reads_keep k : nothing_abandoned utf8_lossy parse_id parse_node refuse own data_of cap (es ++ reads k).
    Proof.
      intros es1 e es2 He. destruct (decide (length es <= length es1)%nat) as [Hl|Hl].
      - assert (e ∈ reads k) as Hi.
        { apply (f_equal (drop (length es))) in He. rewrite drop_app in He. rewrite drop_app_le in He by done. rewrite He. apply elem_of_app. right. by left. }
        unfold reads in Hi. apply elem_of_list_fmap in Hi as (i & -> & _). by destruct (f i) as [[? ?] ?].
      - apply (Hna es1 e (take (length es - S (length es1)) es2)). apply (f_equal (take (length es))) in He.
        rewrite take_app in He. rewrite He at 1. rewrite take_app_ge by lia. f_equal. destruct (length es - length es1)%nat as [|g] eqn:Eg; [lia|]. cbn. f_equal. f_equal. lia.
    Qed.
    (** everything is read in the end: a session has ended, or every transfer has its verdict *)
    Theorem drains : exists k, (exists y, ended (at_ (upto k) y)) \/
      (forall x, alive (at_ (upto k) x) /\ c_out (at_ (upto k) x) = [] /\ verdicts (at_ (upto k) x) = taken link0 x (es ++ reads k)).
    Proof.
      destruct (sim utf8_lossy parse_id parse_node refuse own data_of cap Hown es Hm Hna) as (es' & Hs & Hex).
      destruct (settles (S (total (upto 0) (sys_run es'))) 0 es') as (k & _ & Hk); [lia| | |].
      { unfold reads. cbn [seq map]. by rewrite app_nil_r. }
      { unfold reads. cbn [seq map]. by rewrite app_nil_r. }
      exists k. destruct (ended_dec (at_ (upto k) A)) as [Ha|Ha]; [left; eauto|]. destruct (ended_dec (at_ (upto k) B)) as [Hb|Hb]; [left; eauto|].
      destruct Hk as [Hk|Hk]; [by left|]. right.
      assert (Hal : forall y, alive (at_ (upto k) y)).
      { intros y. pose proof (all_taken_live (es ++ reads k) y Hn (reads_nofail k) Hk) as Hl. unfold is_live in Hl. unfold alive.
        destruct (c_phase (at_ (upto k) y)) as [| |d s|] eqn:E; try done. exists d, s. split; [done|]. destruct (is_terminated s) eqn:Et; [|done].
        exfalso. destruct y; [apply Ha|apply Hb]; by exists d, s. }
      intros x. split; [apply Hal|]. split; [apply Hk|].
      apply link_quiescent; try done; [apply reads_moderate|apply reads_keep].
    Qed.
  End Fair.
End Live.
