(** Proofs about single TCPCL sessions (C04, C06, C07, C08). *)
From Verif Require Import Bytes TcpclWire TcpclSession.
From stdpp Require Import prelude.
From Coq Require Import NArith Lia ZifyNat ZifyN ZifyBool Sorting.Sorted.
Open Scope N_scope.

(** ** Segmentation *)
Lemma chunks_fuel_spec n : (0 < n)%nat -> forall fuel l, (length l <= fuel)%nat ->
  concat (chunks_fuel fuel n l) = l /\
  Forall (fun c => 0 < length c <= n)%nat (chunks_fuel fuel n l).
Proof.
  intros Hn. induction fuel as [|fuel IH]; intros l Hl; cbn.
  - destruct l; [done|cbn in Hl; lia].
  - destruct l as [|b l]; [done|]. set (m := b :: l) in *.
    destruct (IH (drop n m)) as [H1 H2].
    { rewrite drop_length. assert (length m <> 0)%nat by (subst m; cbn; lia). lia. }
    split.
    + cbn [concat]. rewrite H1. apply take_drop.
    + constructor; [|done]. rewrite take_length.
      assert (length m <> 0)%nat by (subst m; cbn; lia). lia.
Qed.
Lemma chunks_spec n l : 0 < n ->
  concat (chunks n l) = l /\ Forall (fun c => c <> [] /\ blen c <= n) (chunks n l).
Proof.
  intros Hn. unfold chunks. destruct (chunks_fuel_spec (N.to_nat n) ltac:(lia) (length l) l ltac:(lia)) as [H1 H2].
  split; [done|]. eapply Forall_impl; [exact H2|]. cbn. unfold blen. intros c Hc. split; [|lia].
  destruct c; [cbn in Hc; lia|done].
Qed.

Lemma on_last_length {A} (f : A -> A) l : length (on_last f l) = length l.
Proof. induction l as [|x [|y l] IH]; [done|done|]. cbn in *. lia. Qed.
Lemma on_last_lookup {A} (f : A -> A) l i :
  on_last f l !! i = (if S i =? length l then f else id)%nat <$> l !! i.
Proof.
  revert i. induction l as [|x [|y l] IH]; intros i; [by destruct i|destruct i as [|[|i]]; done|].
  destruct i as [|i]; [done|]. change (on_last f (x :: y :: l)) with (x :: on_last f (y :: l)).
  change ((x :: on_last f (y :: l)) !! S i) with (on_last f (y :: l) !! i). rewrite IH. done.
Qed.
Lemma on_last_snoc {A} (f : A -> A) l x : on_last f (l ++ [x]) = l ++ [f x].
Proof. induction l as [|y l IH]; [done|]. cbn in *. rewrite IH. by destruct l. Qed.
Lemma on_head_length {A} (f : A -> A) l : length (on_head f l) = length l.
Proof. by destruct l. Qed.
Lemma on_head_lookup {A} (f : A -> A) l i :
  on_head f l !! i = (if i =? 0 then f else id)%nat <$> l !! i.
Proof. destruct l, i; try done. cbn. by destruct (l !! i). Qed.

Lemma segments_length refuse mru tid data :
  length (segments refuse mru tid data) = length (chunks mru data).
Proof.
  unfold segments. rewrite on_last_length. destruct refuse; [|rewrite on_head_length];
  by rewrite map_length.
Qed.
Lemma segments_lookup refuse mru tid data i s :
  segments refuse mru tid data !! i = Some s ->
  exists c, chunks mru data !! i = Some c /\ s =
    XferSeg (SegFlags (bool_decide (S i = length (chunks mru data)))
                      (negb refuse && bool_decide (i = 0%nat)))
            tid (blen c) c [].
Proof.
  unfold segments. rewrite on_last_lookup.
  replace (length (if refuse then map (plain_seg tid) (chunks mru data)
                   else on_head set_start (map (plain_seg tid) (chunks mru data))))
    with (length (chunks mru data)) by (destruct refuse; by rewrite ?on_head_length, map_length).
  destruct (Nat.eqb_spec (S i) (length (chunks mru data))) as [He|He];
    [rewrite (bool_decide_eq_true_2 (S i = _)) by done|rewrite (bool_decide_eq_false_2 (S i = _)) by done];
  clear He;
  (destruct refuse; [|rewrite on_head_lookup]);
    rewrite list_lookup_fmap; destruct (chunks mru data !! i) as [c|] eqn:E; cbn; try done;
    intros [= <-]; exists c; (split; [done|]); destruct i; done.
Qed.
Lemma segments_bufs refuse mru tid data :
  map xs_buf (segments refuse mru tid data) = chunks mru data.
Proof.
  apply list_eq. intros i. rewrite list_lookup_fmap.
  destruct (segments refuse mru tid data !! i) as [s|] eqn:E; cbn.
  - apply segments_lookup in E as (c & -> & ->). done.
  - apply lookup_ge_None in E. rewrite segments_length in E. symmetry. by apply lookup_ge_None.
Qed.

(** Specification of a segment list carrying [data] as transfer [tid]. *)
Record carries (segs : list xfer_seg) (start : bool) (mru tid : N) (data : bytes) : Prop := {
  ca_data : concat (map xs_buf segs) = data;
  ca_size : Forall (fun s => 0 < blen (xs_buf s) <= mru /\ xs_len s = blen (xs_buf s) /\
                             xs_tid s = tid /\ xs_ext s = []) segs;
  ca_start : forall i s, segs !! i = Some s -> f_start (xs_flags s) = start && bool_decide (i = 0%nat);
  ca_end : forall i s, segs !! i = Some s -> f_end (xs_flags s) = bool_decide (S i = length segs)
}.
Lemma segments_carries refuse mru tid data : 0 < mru ->
  carries (segments refuse mru tid data) (negb refuse) mru tid data.
Proof.
  intros Hm. destruct (chunks_spec mru data Hm) as [Hc Hs]. split.
  - by rewrite segments_bufs.
  - apply Forall_lookup. intros i s Hi. apply segments_lookup in Hi as (c & Hi & ->). cbn.
    rewrite Forall_lookup in Hs. destruct (Hs _ _ Hi) as [H1 H2]. unfold blen in *.
    destruct c; [done|]. cbn [length] in *. split; [lia|done].
  - intros i s Hi. apply segments_lookup in Hi as (c & Hi & ->). done.
  - intros i s Hi. apply segments_lookup in Hi as (c & Hi & ->). rewrite segments_length. done.
Qed.
Lemma segments_nil refuse mru tid data : 0 < mru -> segments refuse mru tid data = [] <-> data = [].
Proof.
  intros Hm. destruct (chunks_spec mru data Hm) as [Hc Hs]. split; intros H.
  - rewrite <- Hc, <- (segments_bufs refuse mru tid), H. done.
  - subst. apply nil_length_inv. rewrite segments_length. done.
Qed.

Section Session.
  Variable parse_id : bytes -> option bytes.
  Variable refuse : bool.
  Variable mru : N.
  Notation receive := (receive parse_id refuse mru).
  Notation step := (step parse_id refuse mru).
  Notation run := (run parse_id refuse mru).
  Notation process_bundle := (process_bundle parse_id).

  Lemma run_app s es1 es2 :
    run s (es1 ++ es2) =
    (fst (run (fst (run s es1)) es2), snd (run s es1) ++ snd (run (fst (run s es1)) es2)).
  Proof.
    revert s. induction es1 as [|e es1 IH]; intros s; cbn [app TcpclSession.run fst snd].
    - by destruct (run s es2).
    - rewrite IH. cbn. by rewrite app_assoc.
  Qed.

  (** ** C04: reassembly *)
  Definition alive (s : session) : Prop := s_recv s <> RTerminated /\ s_send s <> STerminated.
  Lemma alive_not_terminated s : alive s -> is_terminated s = false.
  Proof. unfold alive, is_terminated. destruct (s_recv s), (s_send s); intros [? ?]; done. Qed.

  Lemma run_step s e es s1 o1 s2 o2 : step s e = (s1, o1) -> run s1 es = (s2, o2) -> run s (e :: es) = (s2, o1 ++ o2).
  Proof. intros H1 H2. cbn [TcpclSession.run]. rewrite H1. cbn [fst snd]. by rewrite H2. Qed.
  Lemma step_seg s d has resp : alive s ->
    step s (EvPacket (PXferSeg d) has resp) =
    (set_ka (fst (receive s has resp (PXferSeg d))) false false, snd (receive s has resp (PXferSeg d))).
  Proof. intros Ha. unfold TcpclSession.step. by rewrite alive_not_terminated. Qed.

  Definition deliver_segs (segs : list xfer_seg) : list event :=
    map (fun d => EvPacket (PXferSeg d) (fun _ => false) true) segs.
  (** cumulative acknowledgements *)
  Fixpoint acks (tid : N) (sofar : N) (bufs : list bytes) : list eff :=
    match bufs with
    | [] => []
    | b :: bufs => EMsg (PXferAck no_flags tid (sofar + blen b)) :: acks tid (sofar + blen b) bufs
    end.

  Definition plain_rest (tid : N) (segs : list xfer_seg) : Prop :=
    (forall s, s ∈ segs -> f_start (xs_flags s) = false /\ xs_tid s = tid) /\
    (forall i s, segs !! i = Some s -> f_end (xs_flags s) = bool_decide (S i = length segs)).
  Lemma plain_rest_cons tid s segs : plain_rest tid (s :: segs) ->
    f_start (xs_flags s) = false /\ xs_tid s = tid /\
    f_end (xs_flags s) = bool_decide (segs = []) /\ plain_rest tid segs.
  Proof.
    intros [H1 H2]. destruct (H1 s ltac:(left)) as [H3 H4]. split; [done|]. split; [done|]. split; [|split].
    - rewrite (H2 0%nat s eq_refl). destruct segs; [done|]. rewrite !bool_decide_eq_false_2; done.
    - intros s' Hs'. apply H1. by right.
    - intros i s' Hi. rewrite (H2 (S i) s' Hi). apply bool_decide_ext. cbn. lia.
  Qed.

  Lemma receive_rest segs : forall s buf tid,
    s_recv s = Receiving buf tid -> alive s -> segs <> [] -> plain_rest tid segs ->
    exists s', run s (deliver_segs segs) =
      (s', acks tid (blen buf) (map xs_buf segs) ++ process_bundle (buf ++ concat (map xs_buf segs)) tid) /\
      s_recv s' = RIdle /\ s_send s' = s_send s /\ s_last_tid s' = s_last_tid s.
  Proof.
    induction segs as [|sg segs IH]; intros s buf tid Hr Ha Hne Hp; [done|].
    apply plain_rest_cons in Hp as (Hst & Htid & Hend & Hp).
    pose proof (step_seg s sg (fun _ => false) true Ha) as Hstep.
    unfold TcpclSession.receive in Hstep. rewrite Hr, Hst, Htid, N.eqb_refl in Hstep. cbn [negb] in Hstep.
    rewrite Hend in Hstep.
    destruct segs as [|sg2 segs].
    - rewrite bool_decide_eq_true_2 in Hstep by done. cbn [fst snd] in Hstep.
      eexists. split.
      { etransitivity; [eapply (run_step _ _ []); [exact Hstep|reflexivity]|].
        cbn [map acks concat app]. rewrite blen_app, !app_nil_r. reflexivity. }
      done.
    - rewrite bool_decide_eq_false_2 in Hstep by done. cbn [fst snd] in Hstep.
      edestruct (IH (set_ka (set_states s (Receiving (buf ++ xs_buf sg) tid) (s_send s)) false false)
                  (buf ++ xs_buf sg) tid) as (s' & Hrun & H1 & H2 & H3); [done|by destruct Ha|done|done|].
      exists s'. split; [|done].
      etransitivity; [eapply run_step; [exact Hstep|exact Hrun]|].
      cbn [map acks app concat]. rewrite !blen_app, <- !app_assoc. done.
  Qed.

  Lemma receive_segments segs s tid data m :
    s_recv s = RIdle -> alive s -> carries segs true m tid data -> data <> [] ->
    exists s', run s (deliver_segs segs) =
      (s', acks tid 0 (map xs_buf segs) ++ process_bundle data tid) /\
      s_recv s' = RIdle /\ s_send s' = s_send s /\ s_last_tid s' = s_last_tid s.
  Proof.
    intros Hr Ha [Hd Hs Hst He] Hne.
    destruct segs as [|sg segs]; [by rewrite <- Hd in Hne|].
    pose proof (Hst 0%nat sg eq_refl) as Hst0. cbn in Hst0. rewrite bool_decide_eq_true_2 in Hst0 by done.
    pose proof (He 0%nat sg eq_refl) as He0. cbn in He0.
    apply Forall_cons in Hs as [(Hs1 & Hs2 & Hs3 & Hs4) Hs].
    pose proof (step_seg s sg (fun _ => false) true Ha) as Hstep.
    unfold TcpclSession.receive in Hstep. rewrite Hr, Hst0 in Hstep. cbn [negb] in Hstep.
    replace (refused refuse (λ _, false) (xs_ext sg)) with false in Hstep
      by (rewrite Hs4; unfold refused; cbn; by rewrite andb_false_r).
    rewrite He0, Hs2, Hs3 in Hstep.
    destruct segs as [|sg2 segs].
    - cbn in Hd. rewrite app_nil_r in Hd. subst data. cbn [length] in Hstep.
      rewrite bool_decide_eq_true_2 in Hstep by done. cbn [fst snd] in Hstep.
      eexists. split.
      { etransitivity; [eapply (run_step _ _ []); [exact Hstep|reflexivity]|].
        cbn [map acks concat app]. rewrite app_nil_r. reflexivity. }
      done.
    - rewrite bool_decide_eq_false_2 in Hstep by (cbn; lia). cbn [fst snd] in Hstep.
      edestruct (receive_rest (sg2 :: segs) (set_ka (set_states s (Receiving (xs_buf sg) tid) (s_send s)) false false)
                  (xs_buf sg) tid) as (s' & Hrun & H1 & H2 & H3); [done|by destruct Ha|done| |].
      { split.
        - intros s' Hin. rewrite Forall_forall in Hs. destruct (Hs s' Hin) as (_ & _ & ? & _).
          apply elem_of_list_lookup in Hin as [i Hi]. split; [|done].
          rewrite (Hst (S i) s' Hi). done.
        - intros i s' Hi. rewrite (He (S i) s' Hi). apply bool_decide_ext. cbn. lia. }
      exists s'. split; [|done].
      etransitivity; [eapply run_step; [exact Hstep|exact Hrun]|].
      cbn [map acks app concat] in *. rewrite Hd. done.
  Qed.

  (** ** C07: no splicing *)
  (** segments received in an execution *)
  Definition seg_of (e : event) : option xfer_seg :=
    match e with EvPacket (PXferSeg d) _ _ => Some d | _ => None end.
  (** bytes considered a completely received bundle *)
  Definition done_of (e : eff) : option bytes :=
    match e with EProcess b | EBroken b => Some b | _ => None end.

  (** [transfer run buf]: the segments [run] are one complete transfer with content [buf] *)
  Record open_transfer (run : list xfer_seg) (tid : N) (buf : bytes) : Prop := {
    ot_data : concat (map xs_buf run) = buf;
    ot_tid : Forall (fun s => xs_tid s = tid) run;
    ot_start : forall i s, run !! i = Some s -> f_start (xs_flags s) = bool_decide (i = 0%nat);
    ot_ne : run <> []
  }.
  Record transfer (run : list xfer_seg) (buf : bytes) : Prop := {
    tr_open : exists tid, open_transfer run tid buf;
    tr_end : forall i s, run !! i = Some s -> f_end (xs_flags s) = bool_decide (S i = length run)
  }.
  Inductive spliced : list xfer_seg -> list bytes -> Prop :=
  | sp_nil h : spliced h []
  | sp_cons gap run rest buf bufs :
      transfer run buf -> spliced rest bufs -> spliced (gap ++ run ++ rest) (buf :: bufs).

  Lemma spliced_app h x bufs : spliced h bufs -> spliced (h ++ x) bufs.
  Proof. induction 1; [constructor|]. rewrite <- !app_assoc. by constructor. Qed.
  Lemma spliced_snoc h gap run buf bufs :
    spliced h bufs -> transfer run buf -> spliced (h ++ gap ++ run) (bufs ++ [buf]).
  Proof.
    intros Hs Ht. induction Hs as [h|gap' run' rest buf' bufs Ht' Hs IH].
    - rewrite app_assoc. rewrite <- (app_nil_r run). apply sp_cons; [done|constructor].
    - cbn [app]. replace ((gap' ++ run' ++ rest) ++ gap ++ run) with (gap' ++ run' ++ (rest ++ gap ++ run))
        by (by rewrite <- !app_assoc). apply sp_cons; done.
  Qed.

  (** invariant over histories *)
  Definition recv_inv (hist : list xfer_seg) (bufs : list bytes) (s : session) : Prop :=
    spliced hist bufs /\
    forall buf tid, s_recv s = Receiving buf tid -> is_terminated s = false ->
      exists h0 run, hist = h0 ++ run /\ spliced h0 bufs /\ open_transfer run tid buf /\
          (forall sg, sg ∈ run -> f_end (xs_flags sg) = false).

  Lemma open_snoc run tid buf sg : open_transfer run tid buf ->
    f_start (xs_flags sg) = false -> xs_tid sg = tid ->
    open_transfer (run ++ [sg]) tid (buf ++ xs_buf sg).
  Proof.
    intros [H1 H2 H3 H4] Hs Ht. split.
    - rewrite map_app, concat_app, H1. cbn. by rewrite app_nil_r.
    - apply Forall_app. split; [done|]. by constructor.
    - intros i s Hi. apply lookup_app_Some in Hi as [Hi|[Hl Hi]]; [by apply H3|].
      destruct (i - length run)%nat as [|k] eqn:E; [|done]. cbn in Hi. injection Hi as <-.
      rewrite Hs. symmetry. apply bool_decide_eq_false. destruct run; [done|cbn in *; lia].
    - by destruct run.
  Qed.
  Lemma end_snoc run sg :
    (forall sg, sg ∈ run -> f_end (xs_flags sg) = false) -> f_end (xs_flags sg) = true ->
    forall i s, (run ++ [sg]) !! i = Some s -> f_end (xs_flags s) = bool_decide (S i = length (run ++ [sg])).
  Proof.
    intros H1 H2 i s Hi. rewrite app_length. cbn. apply lookup_app_Some in Hi as [Hi|[Hl Hi]].
    - rewrite (H1 s) by (by eapply elem_of_list_lookup_2). symmetry. apply bool_decide_eq_false.
      apply lookup_lt_Some in Hi. lia.
    - destruct (i - length run)%nat as [|k] eqn:E; [|done]. cbn in Hi. injection Hi as <-.
      rewrite H2. symmetry. apply bool_decide_eq_true. lia.
  Qed.

  Lemma process_bundle_done buf tid : omap done_of (process_bundle buf tid) = [buf].
  Proof. unfold TcpclSession.process_bundle. by destruct (parse_id buf). Qed.

  Lemma done_msgs (l : list xfer_seg) : omap done_of (map (fun x => EMsg (PXferSeg x)) l) = [].
  Proof. induction l; done. Qed.

  Lemma send_bundle_done s data h resp :
    match send_bundle refuse mru s data h resp with
    | (Some (x, es), _) => omap done_of es = [] | (None, es) => omap done_of es = [] end.
  Proof.
    unfold send_bundle. destruct (mru =? 0); [done|]. destruct (bool_decide _); [destruct resp; done|]. apply done_msgs.
  Qed.

  (** a step without received segment *)
  Lemma recv_inv_frame hist bufs s s' :
    recv_inv hist bufs s -> (is_terminated s' = true \/ s_recv s' = s_recv s) -> is_terminated s = false ->
    recv_inv hist bufs s'.
  Proof.
    intros [H1 H2] Hs Ht. split; [done|]. intros buf tid Hr Ht'. destruct Hs as [Hs|Hs]; [congruence|].
    apply H2; congruence.
  Qed.
  Lemma recv_inv_term hist x bufs s s' : recv_inv hist bufs s -> is_terminated s' = true ->
    recv_inv (hist ++ x) bufs s'.
  Proof. intros [H1 H2] Ht. split; [by apply spliced_app|]. intros; congruence. Qed.

  Lemma receive_other s has resp p : (forall d, p <> PXferSeg d) ->
    omap done_of (snd (receive s has resp p)) = [] /\
    (is_terminated (fst (receive s has resp p)) = true \/ s_recv (fst (receive s has resp p)) = s_recv s).
  Proof.
    intros Hp. destruct p as [t|d|reply r|d|f tid len|r tid| |r h]; cbn; try (split; [done|by left]).
    - split; [by destruct reply|by left].
    - by destruct (Hp d).
    - destruct (s_send s) as [|total h|data h|]; cbn; try (split; [done|by left]);
        (destruct (negb (tid =? s_last_tid s)); [split; [done|by left]|]).
      + destruct (len <? total); [split; [done|by right]|]. destruct resp; cbn; (split; [done|auto]).
      + pose proof (send_bundle_done s data h resp) as Hd.
        destruct (send_bundle refuse mru s data h resp) as [[[x es]|] es']; cbn; (split; [done|auto]).
    - destruct (s_send s) as [|total h|data h|]; cbn; try (split; [done|by left]);
        (destruct (negb (tid =? s_last_tid s)); [split; [done|by left]|]);
        destruct resp; cbn; (split; [done|auto]).
  Qed.
  Lemma is_terminated_ka s a b : is_terminated (set_ka s a b) = is_terminated s.
  Proof. done. Qed.

  Lemma step_recv_inv hist bufs s e :
    recv_inv hist bufs s ->
    recv_inv (hist ++ option_list (seg_of e)) (bufs ++ omap done_of (snd (step s e))) (fst (step s e)).
  Proof.
    intros Hinv.
    unfold TcpclSession.step. destruct (is_terminated s) eqn:Et.
    { cbn [fst snd omap]. rewrite app_nil_r. by eapply recv_inv_term. }
    assert (Hk : forall s', (is_terminated s' = true \/ s_recv s' = s_recv s) ->
              recv_inv (hist ++ []) (bufs ++ []) s').
    { intros s' Hs. rewrite !app_nil_r. by eapply recv_inv_frame. }
    destruct e as [p has resp| |data h resp| |]; cbn [seg_of option_list].
    - assert (Hother : (forall d, p <> PXferSeg d) -> p <> PKeepAlive ->
        recv_inv (hist ++ []) (bufs ++ omap done_of (snd (receive s has resp p)))
          (set_ka (fst (receive s has resp p)) false false)).
      { intros H1 H2. destruct (receive_other s has resp p H1) as [-> H4]. by apply Hk. }
      destruct p as [t|d|reply r|d|f tid len|r tid| |r h];
        try (cbn [fst snd seg_of option_list]; apply Hother; done).
      + (* segment *)
        cbn [fst snd option_list]. destruct Hinv as [Hs Ho]. unfold TcpclSession.receive.
        destruct (s_recv s) as [|buf tid|] eqn:Er.
        * destruct (f_start (xs_flags d)) eqn:Est; cbn [negb].
          2:{ rewrite app_nil_r. split; [by apply spliced_app|]. intros ?? [=]. }
          destruct (refused refuse has (xs_ext d)).
          { cbn. rewrite app_nil_r. split; [by apply spliced_app|]. cbn. rewrite Er. intros ?? [=]. }
          assert (Hot : open_transfer [d] (xs_tid d) (xs_buf d)).
          { split; [cbn; by rewrite app_nil_r|by constructor| |done].
            intros [|i] s' Hi; [injection Hi as <-; by rewrite Est|done]. }
          destruct (f_end (xs_flags d)) eqn:Een; cbn [fst snd].
          -- change (omap done_of (EMsg ?a :: ?l)) with (omap done_of l). cbn [omap list_omap done_of].
             rewrite process_bundle_done. split; [|intros ?? [=]].
             change (option_list (Some d)) with ([] ++ [d]). apply spliced_snoc; [done|]. split; [by exists (xs_tid d)|].
             intros [|i] s' Hi; [injection Hi as <-; by rewrite Een|done].
          -- cbn. rewrite app_nil_r. split; [by apply spliced_app|]. intros buf tid [= <- <-] _.
             exists hist, [d]. split; [done|]. split; [done|]. split; [done|].
             intros sg Hsg. apply elem_of_list_singleton in Hsg. by subst.
        * destruct (f_start (xs_flags d)) eqn:Est; cbn [negb].
          { rewrite app_nil_r. split; [by apply spliced_app|]. intros ?? [=]. }
          destruct (N.eqb_spec tid (xs_tid d)) as [->|]; cbn [negb].
          2:{ rewrite app_nil_r. split; [by apply spliced_app|]. intros ?? [=]. }
          destruct (Ho _ _ eq_refl Et) as (h0 & run & -> & H1 & H2 & H3).
          destruct (f_end (xs_flags d)) eqn:Een; cbn [fst snd].
          -- cbn [omap list_omap done_of]. rewrite process_bundle_done. split; [|intros ?? [=]].
             rewrite <- app_assoc. change (run ++ option_list (Some d)) with ([] ++ (run ++ [d])). apply spliced_snoc; [done|].
             split; [exists (xs_tid d); by apply open_snoc|]. by apply end_snoc.
          -- cbn [omap list_omap done_of]. rewrite app_nil_r. split; [by apply spliced_app|].
             cbn. intros buf' tid [= <- <-] _. exists h0, (run ++ [d]).
             rewrite <- app_assoc. split; [done|]. split; [done|]. split; [by apply open_snoc|].
             intros sg Hsg. apply elem_of_app in Hsg as [Hsg|Hsg%elem_of_list_singleton]; [by apply H3|by subst].
        * rewrite app_nil_r. split; [by apply spliced_app|]. intros ?? [=].
      + (* keepalive *) cbn [seg_of option_list]. destruct (s_ka_sent s); cbn; apply Hk; by right.
    - apply Hk. by left.
    - destruct (s_send s) eqn:Es; cbn [fst snd]; try (apply Hk; by right).
      unfold send. destruct refuse eqn:Hrf.
      + destruct (parse_id data); cbn; apply Hk; [by right|by left].
      + pose proof (send_bundle_done (Session (s_recv s) (s_send s) (s_last_tid s + 1) (s_ka_sent s) (s_ka_recv s)) data h resp) as Hd.
        rewrite Hrf in Hd.
        destruct (send_bundle _ _ _ _ _ _) as [[[x es]|] es']; cbn [fst snd]; rewrite Hd; apply Hk; [by right|by left].
    - destruct (s_send s) eqn:Es; cbn [fst snd]; apply Hk; first [by left|by right].
    - destruct (s_ka_recv s), (s_ka_sent s); cbn; apply Hk; first [by left|by right].
  Qed.

  Theorem no_splicing es :
    spliced (omap seg_of es) (omap done_of (snd (run session0 es))).
  Proof.
    cut (recv_inv (omap seg_of es) (omap done_of (snd (run session0 es))) (fst (run session0 es))); [by intros []|].
    induction es as [|e es IH] using rev_ind.
    - split; [constructor|]. cbn. intros ?? [=].
    - rewrite run_app. cbn [fst snd TcpclSession.run]. rewrite !omap_app.
      rewrite app_nil_r. 
      replace (omap seg_of [e]) with (option_list (seg_of e)) by (cbn; by destruct (seg_of e)).
      by apply step_recv_inv.
  Qed.

  (** ** C06: one transfer in flight, one verdict, fresh ids *)
  (** handles of the submissions the session took from its queue *)
  Definition takes (s : session) (e : event) : list nat :=
    match e with
    | EvSubmit _ h _ => if is_terminated s then [] else match s_send s with SIdle => [h] | _ => [] end
    | _ => []
    end.
  Fixpoint accepted (s : session) (es : list event) : list nat :=
    match es with [] => [] | e :: es => takes s e ++ accepted (fst (step s e)) es end.
  Lemma accepted_app s es1 es2 :
    accepted s (es1 ++ es2) = accepted s es1 ++ accepted (fst (run s es1)) es2.
  Proof.
    revert s. induction es1 as [|e es1 IH]; intros s; cbn; [done|]. rewrite IH. by rewrite app_assoc.
  Qed.
  Definition verdict_of (e : eff) : option nat := match e with EVerdict h _ => Some h | _ => None end.
  Definition sent_of (e : eff) : option xfer_seg := match e with EMsg (PXferSeg d) => Some d | _ => None end.
  Definition inflight (s : session) : list nat :=
    match s_send s with Sending _ h => [h] | TransferRequest _ h => [h] | _ => [] end.

  Lemma verdict_msgs (l : list xfer_seg) : omap verdict_of (map (fun x => EMsg (PXferSeg x)) l) = [].
  Proof. induction l; done. Qed.
  Lemma sent_msgs (l : list xfer_seg) : omap sent_of (map (fun x => EMsg (PXferSeg x)) l) = l.
  Proof. induction l as [|x l IH]; [done|]. cbn. f_equal. done. Qed.
  Lemma process_bundle_verdict buf tid : omap verdict_of (process_bundle buf tid) = [].
  Proof. unfold TcpclSession.process_bundle. by destruct (parse_id buf). Qed.
  Lemma process_bundle_sent buf tid : omap sent_of (process_bundle buf tid) = [].
  Proof. unfold TcpclSession.process_bundle. by destruct (parse_id buf). Qed.

  (** what a step may do to the sending side *)
  Definition starts (l : list xfer_seg) : list xfer_seg := filter (fun d => f_start (xs_flags d) = true) l.
  Record send_step (s s' : session) (taken verdicts : list nat) (segs : list xfer_seg) : Prop := {
    ss_pending : (exists dropped, inflight s ++ taken = verdicts ++ inflight s' ++ dropped /\
        (is_terminated s' = false -> dropped = [])) ;
    ss_tid : s_last_tid s' = s_last_tid s + N.of_nat (length taken);
    ss_segs : Forall (fun d => xs_tid d = s_last_tid s') segs;
    ss_start : starts segs = [] \/ (exists d, starts segs = [d]) /\ length taken = 1%nat
  }.

  Lemma starts_segments tid data : 0 < mru ->
    (refuse = true -> starts (segments refuse mru tid data) = []) /\
    (starts (segments refuse mru tid data) = [] \/ exists d, starts (segments refuse mru tid data) = [d]).
  Proof.
    intros Hm. pose proof (segments_carries refuse mru tid data Hm) as [_ _ Hst _].
    set (l := segments refuse mru tid data) in *. clearbody l.
    assert (Hno : forall l', (forall s, s ∈ l' -> f_start (xs_flags s) = false) -> starts l' = []).
    { intros l' Hl. induction l' as [|x l' IH]; [done|]. unfold starts. rewrite filter_cons_False.
      - apply IH. intros s Hs. apply Hl. by right.
      - rewrite Hl by left. done. }
    split.
    - intros Hr. apply Hno. intros s [i Hi]%elem_of_list_lookup. rewrite (Hst i s Hi), Hr. done.
    - destruct l as [|x l]; [by left|].
      assert (Hl : starts l = []).
      { apply Hno. intros s [i Hi]%elem_of_list_lookup. rewrite (Hst (S i) s Hi).
        rewrite bool_decide_eq_false_2 by done. apply andb_false_r. }
      unfold starts in *. destruct (f_start (xs_flags x)) eqn:E.
      + right. exists x. rewrite filter_cons_True by done. by rewrite Hl.
      + left. rewrite filter_cons_False by congruence. done.
  Qed.

  Lemma send_bundle_spec s data h resp :
    match send_bundle refuse mru s data h resp with
    | (Some (x, es), _) =>
        ((x = SIdle /\ omap verdict_of es = [h] /\ omap sent_of es = []) \/
         (x = Sending (blen data) h /\ omap verdict_of es = [] /\ 0 < mru /\
          omap sent_of es = segments refuse mru (s_last_tid s) data))
    | (None, es) => omap verdict_of es = [] /\ omap sent_of es = []
    end.
  Proof.
    unfold send_bundle. destruct (mru =? 0) eqn:E; [done|]. destruct (bool_decide _).
    - destruct resp; [left; done|done].
    - right. rewrite verdict_msgs, sent_msgs. split; [done|]. split; [done|]. split; [lia|done].
  Qed.

  Lemma segs_tid tid data : 0 < mru -> Forall (fun d => xs_tid d = tid) (segments refuse mru tid data).
  Proof.
    intros Hm. pose proof (segments_carries refuse mru tid data Hm) as [_ Hs _ _].
    eapply Forall_impl; [exact Hs|]. intros d (_ & _ & ? & _). done.
  Qed.

  Lemma send_step_refl s s' : inflight s' = inflight s -> s_last_tid s' = s_last_tid s ->
    send_step s s' [] [] [].
  Proof.
    intros H1 H2. split; [exists []; rewrite H1, !app_nil_r; done|cbn; lia|constructor|by left].
  Qed.
  Lemma send_step_term s s' : is_terminated s' = true -> inflight s' = [] -> s_last_tid s' = s_last_tid s ->
    send_step s s' [] [] [].
  Proof.
    intros H1 H2 H3. split; [exists (inflight s); rewrite H2, app_nil_r; cbn; split; [done|congruence]|cbn; lia|constructor|by left].
  Qed.

  (** a transfer request is outstanding only if the option is on *)
  Definition req_ok (s : session) : Prop := forall data h, s_send s = TransferRequest data h -> refuse = true.

  Lemma receive_send_step s has resp p : req_ok s ->
    send_step s (set_ka (fst (receive s has resp p)) false false) []
      (omap verdict_of (snd (receive s has resp p))) (omap sent_of (snd (receive s has resp p))).
  Proof.
    intros Hreq. destruct p as [t|d|reply r|d|f tid len|r tid| |r h]; cbn [TcpclSession.receive];
      try (apply send_step_term; done).
    - destruct reply; apply send_step_term; done.
    - destruct (s_recv s) as [|buf tid|].
      + destruct (negb (f_start _)); [by apply send_step_term|].
        destruct (refused _ _ _); [by apply send_step_refl|].
        destruct (f_end _); cbn; rewrite ?process_bundle_verdict, ?process_bundle_sent; by apply send_step_refl.
      + destruct (f_start _); [by apply send_step_term|].
        destruct (negb _); [by apply send_step_term|].
        destruct (f_end _); cbn; rewrite ?process_bundle_verdict, ?process_bundle_sent; by apply send_step_refl.
      + by apply send_step_term.
    - destruct (s_send s) as [|total h|data h|] eqn:Es; try (by apply send_step_term);
        (destruct (negb (tid =? s_last_tid s)); [by apply send_step_term|]).
      + destruct (len <? total); [by apply send_step_refl|]. destruct resp; [|by apply send_step_term].
        cbn. split; [exists []; unfold inflight; rewrite Es; done|cbn; lia|constructor|by left].
      + pose proof (send_bundle_spec s data h resp) as Hd.
        destruct (send_bundle refuse mru s data h resp) as [[[x es]|] es']; cbn [fst snd].
        * destruct Hd as [(-> & -> & ->)|(-> & -> & Hm & ->)].
          -- split; [exists []; unfold inflight; rewrite Es; done|cbn; lia|constructor|by left].
          -- split; [exists []; unfold inflight; rewrite Es; done|cbn; lia|by apply segs_tid|].
             left. apply starts_segments; [done|]. by eapply Hreq.
        * destruct Hd as [-> ->]. by apply send_step_term.
    - destruct (s_send s) as [|total h|data h|] eqn:Es; try (by apply send_step_term);
        (destruct (negb (tid =? s_last_tid s)); [by apply send_step_term|]);
        (destruct resp; [|by apply send_step_term]); cbn;
        (split; [exists []; unfold inflight; rewrite Es; done|cbn; lia|constructor|by left]).
  Qed.

  Lemma step_send_step s e : req_ok s ->
    send_step s (fst (step s e)) (takes s e)
      (omap verdict_of (snd (step s e))) (omap sent_of (snd (step s e))).
  Proof.
    intros Hreq. unfold TcpclSession.step, takes. destruct (is_terminated s) eqn:Et.
    { destruct e; by apply send_step_refl. }
    destruct e as [p has resp| |data h resp| |].
    - pose proof (receive_send_step s has resp p Hreq) as Hr.
      destruct p; try exact Hr. destruct (s_ka_sent s); by apply send_step_refl.
    - by apply send_step_term.
    - destruct (s_send s) eqn:Es; try (by apply send_step_refl). cbn [fst snd]. unfold send.
      assert (Hin : inflight s = []) by (unfold inflight; by rewrite Es).
      destruct refuse eqn:Hrf.
      + destruct (parse_id data) as [bid|]; cbn.
        * split; [exists []; rewrite Hin; done|cbn; lia|by repeat constructor|].
          right. split; [|done]. by eexists.
        * split; [exists [h]; rewrite Hin; done|cbn; lia|constructor|by left].
      + set (s1 := Session _ _ _ _ _). pose proof (send_bundle_spec s1 data h resp) as Hd.
        rewrite Hrf in Hd.
        destruct (send_bundle _ _ _ _ _ _) as [[[x es]|] es']; cbn [fst snd].
        * destruct Hd as [(-> & -> & ->)|(-> & -> & Hm & ->)].
          -- split; [exists []; rewrite Hin; done|cbn; lia|constructor|by left].
          -- pose proof (segs_tid (s_last_tid s1) data Hm) as Ht. rewrite Hrf in Ht.
             destruct (starts_segments (s_last_tid s1) data Hm) as [_ Hst]. rewrite Hrf in Hst.
             split; [exists []; rewrite Hin; done|cbn; lia|exact Ht|].
             destruct Hst as [Hst|Hst]; [by left|by right].
        * destruct Hd as [-> ->].
          split; [exists [h]; rewrite Hin; done|cbn; lia|constructor|by left].
    - destruct (s_send s) eqn:Es; try (by apply send_step_refl). by apply send_step_term.
    - destruct (s_ka_recv s), (s_ka_sent s); cbn; first [by apply send_step_refl|by apply send_step_term].
  Qed.

  Lemma step_req_ok s e : req_ok s -> req_ok (fst (step s e)).
  Proof.
    intros Hreq. unfold TcpclSession.step. destruct (is_terminated s) eqn:Et; [done|].
    destruct e as [p has resp| |data h resp| |].
    - assert (Hr : req_ok (set_ka (fst (receive s has resp p)) false false)).
      { intros data h. destruct p as [t|d|reply r|d|f tid len|r tid| |r h']; cbn; try done.
        - destruct (s_recv s) as [|buf tid|]; 
            repeat match goal with |- context [if ?b then _ else _] => destruct b; cbn [fst s_send terminated set_states] end;
            first [done|apply Hreq].
        - destruct (s_send s) as [|total h'|data' h'|] eqn:Es; try done;
            (destruct (negb (tid =? s_last_tid s)); [done|]).
          + destruct (len <? total); [cbn; rewrite Es; done|]. by destruct resp.
          + pose proof (send_bundle_spec s data' h' resp) as Hd.
            destruct (send_bundle _ _ _ _ _ _) as [[[x es]|] es']; cbn [fst snd]; [|done].
            destruct Hd as [(-> & _)|(-> & _)]; done.
        - destruct (s_send s) as [|total h'|data' h'|] eqn:Es; try done;
            (destruct (negb (tid =? s_last_tid s)); [done|]); by destruct resp. }
      destruct p; try exact Hr. destruct (s_ka_sent s); exact Hreq.
    - done.
    - destruct (s_send s) eqn:Es; try done. cbn [fst snd]. unfold send.
      destruct refuse eqn:Hrf; [intros ???; done|].
      set (s1 := Session _ _ _ _ _). pose proof (send_bundle_spec s1 data h resp) as Hd.
      rewrite Hrf in Hd.
      destruct (send_bundle _ _ _ _ _ _) as [[[x es]|] es']; cbn [fst snd]; [|done].
      intros data' h' E. cbn in E. subst x. destruct Hd as [(? & _)|(? & _)]; done.
    - destruct (s_send s) eqn:Es; done.
    - destruct (s_ka_recv s), (s_ka_sent s); done.
  Qed.

  (** The specification of C06 over a whole history. *)
  Record orderly (taken verdicts : list nat) (segs : list xfer_seg) : Prop := {
    or_verdicts : exists pending, taken = verdicts ++ pending /\ (length pending <= 1)%nat;
    or_tids : StronglySorted N.le (map xs_tid segs);
    or_starts : StronglySorted N.lt (map xs_tid (starts segs));
    or_bound : Forall (fun d => xs_tid d <= N.of_nat (length taken)) segs
  }.

  Lemma inflight_length s : (length (inflight s) <= 1)%nat.
  Proof. unfold inflight. destruct (s_send s); cbn; lia. Qed.

  Lemma StronglySorted_snoc_all {A} (R : A -> A -> Prop) l1 l2 :
    StronglySorted R l1 -> StronglySorted R l2 -> (forall x y, x ∈ l1 -> y ∈ l2 -> R x y) ->
    StronglySorted R (l1 ++ l2).
  Proof.
    intros H1 H2 H. induction H1 as [|x l1 H1 IH Hx]; [done|]. cbn. constructor.
    - apply IH. intros a b Ha Hb. apply H; [by right|done].
    - apply Forall_app. split; [done|]. apply Forall_forall. intros b Hb. apply H; [left|done].
  Qed.
  Lemma sorted_const (l : list xfer_seg) t : Forall (fun d => xs_tid d = t) l -> StronglySorted N.le (map xs_tid l).
  Proof.
    induction 1 as [|d l Hd Hl IH]; cbn; constructor; [done|].
    apply Forall_forall. intros x (d' & -> & Hin)%elem_of_list_fmap.
    rewrite Forall_forall in Hl. rewrite (Hl d' Hin), Hd. done.
  Qed.

  Theorem session_orderly es :
    orderly (accepted session0 es) (omap verdict_of (snd (run session0 es)))
      (omap sent_of (snd (run session0 es))) /\
    (is_terminated (fst (run session0 es)) = false ->
     accepted session0 es = omap verdict_of (snd (run session0 es)) ++ inflight (fst (run session0 es))).
  Proof.
    cut (let s := fst (run session0 es) in
         let segs := omap sent_of (snd (run session0 es)) in
         let vs := omap verdict_of (snd (run session0 es)) in
         req_ok s /\
         (exists dropped, accepted session0 es = vs ++ inflight s ++ dropped /\
            (is_terminated s = false -> dropped = []) /\
            (length (inflight s ++ dropped) <= 1)%nat) /\
         s_last_tid s = N.of_nat (length (accepted session0 es)) /\
         Forall (fun d => xs_tid d <= s_last_tid s) segs /\
         StronglySorted N.le (map xs_tid segs) /\ StronglySorted N.lt (map xs_tid (starts segs))).
    { cbv zeta. intros (_ & (dropped & H1 & H2 & H2') & H3 & H4 & H5 & H6). split.
      - split; [exists (inflight (fst (run session0 es)) ++ dropped); done|done|done|].
        by rewrite <- H3.
      - intros Ht. rewrite H1, (H2 Ht), app_nil_r. done. }
    cbv zeta. induction es as [|e es IH] using rev_ind.
    { cbn. split; [intros ?? [=]|]. split; [exists []; cbn; split; [done|split; [done|lia]]|].
      split; [done|]. repeat split; constructor. }
    destruct IH as (Hreq & (dropped & H1 & H2 & H2') & H3 & H4 & H5 & H6).
    rewrite run_app, accepted_app. cbn [fst snd TcpclSession.run accepted]. rewrite !omap_app, !app_nil_r.
    set (s := fst (run session0 es)) in *.
    pose proof (step_req_ok s e Hreq) as Hreq'.
    destruct (step_send_step s e Hreq) as [(dr & Hp & Hp2) Htid Hsegs Hst].
    set (s' := fst (step s e)) in *. set (o := snd (step s e)) in *.
    set (taken := takes s e) in *.
    assert (Hterm : is_terminated s = true -> taken = [] /\ s' = s /\ o = []).
    { intros Ht. subst s' o taken. unfold TcpclSession.step, takes. rewrite Ht. by destruct e. }
    split; [done|]. split; [|split; [|split; [|split]]].
    - destruct (is_terminated s) eqn:Et.
      + destruct (Hterm eq_refl) as (-> & -> & ->). exists dropped. cbn. rewrite !app_nil_r. split; [done|]. split; [congruence|done].
      + rewrite (H2 eq_refl), app_nil_r in H1. exists dr. rewrite H1, <- app_assoc, Hp, <- app_assoc.
        split; [done|]. split; [done|].
        apply (f_equal length) in Hp. rewrite !app_length in *.
        (* at most one: a submission is only taken when nothing is in flight *)
        assert (length (inflight s) + length taken <= 1)%nat; [|lia].
        subst taken. unfold takes, inflight. rewrite Et. destruct e, (s_send s); cbn; lia.
    - rewrite app_length, Htid, H3. lia.
    - rewrite Forall_app. split.
      + eapply Forall_impl; [exact H4|]. cbn. intros d Hd. lia.
      + eapply Forall_impl; [exact Hsegs|]. cbn. intros d Hd. lia.
    - rewrite map_app. apply StronglySorted_snoc_all; [done|by eapply sorted_const|].
      intros x y (d & -> & Hd)%elem_of_list_fmap (d' & -> & Hd')%elem_of_list_fmap.
      rewrite Forall_forall in H4, Hsegs. specialize (H4 d Hd). specialize (Hsegs d' Hd'). lia.
    - unfold starts in *. rewrite filter_app, map_app. destruct Hst as [Hst|[[d Hst] Hlen]].
      + rewrite Hst. by rewrite app_nil_r.
      + rewrite Hst. apply StronglySorted_snoc_all; [done|by repeat constructor|].
        intros x y (d1 & -> & Hd1)%elem_of_list_fmap Hy%elem_of_list_singleton. subst y.
        apply elem_of_list_filter in Hd1 as [_ Hd1].
        assert (Hd : d ∈ omap sent_of o).
        { assert (Hd : d ∈ [d]) by left. unfold o in *. rewrite <- Hst in Hd. by apply elem_of_list_filter in Hd as [_ ?]. }
        rewrite Forall_forall in H4, Hsegs. specialize (H4 d1 Hd1). specialize (Hsegs d Hd). lia.
  Qed.
End Session.
