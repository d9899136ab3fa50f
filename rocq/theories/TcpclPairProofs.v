(** Proof of C05. *)
From Verif Require Import Bytes TcpclWire TcpclSession TcpclSessionProofs TcpclPair.
From stdpp Require Import prelude.
From Coq Require Import NArith Lia ZifyNat ZifyN ZifyBool.
Open Scope N_scope.

Definition segt (t : N) (q : list packet) : list xfer_seg :=
  omap (fun p => match p with PXferSeg d => if xs_tid d =? t then Some d else None | _ => None end) q.
Definition ackt (t : N) (q : list packet) : list N :=
  omap (fun p => match p with PXferAck _ tid len => if tid =? t then Some len else None | _ => None end) q.
Definition reft (t : N) (q : list packet) : Prop := exists r, PXferRefuse r t ∈ q.
Lemma segt_app t a b : segt t (a ++ b) = segt t a ++ segt t b.
Proof. apply omap_app. Qed.
Lemma ackt_app t a b : ackt t (a ++ b) = ackt t a ++ ackt t b.
Proof. apply omap_app. Qed.
Lemma reft_app t a b : reft t (a ++ b) <-> reft t a \/ reft t b.
Proof.
  unfold reft. split.
  - intros [r [H|H]%elem_of_app]; eauto.
  - intros [[r H]|[r H]]; exists r; apply elem_of_app; auto.
Qed.

(** no segments / no acks and refusals in a message list *)
Definition no_segs (q : list packet) : Prop := forall d, PXferSeg d ∉ q.
Definition no_acks (q : list packet) : Prop := (forall f t l, PXferAck f t l ∉ q) /\ (forall r t, PXferRefuse r t ∉ q).
Lemma no_segs_segt q t : no_segs q -> segt t q = [].
Proof.
  intros H. induction q as [|p q IH]; [done|]. cbn.
  assert (Hq : no_segs q) by (intros d Hd; apply (H d); by right).
  destruct p; try by apply IH. exfalso. apply (H d). left.
Qed.
Lemma no_acks_ackt q t : no_acks q -> ackt t q = [].
Proof.
  intros [H H']. induction q as [|p q IH]; [done|]. cbn.
  assert (ackt t q = []) by (apply IH; [intros f0 t0 l0 Hd; apply (H f0 t0 l0); by right|intros r t0 Hd; apply (H' r t0); by right]).
  destruct p; try done. exfalso. apply (H f tid len). left.
Qed.
Lemma no_acks_reft q t : no_acks q -> ~ reft t q.
Proof. intros [_ H] [r Hr]. by apply (H r t). Qed.

(** ** What a step does, as seen by the two roles *)
Section Roles.
  Variable parse_id : bytes -> option bytes.
  Variable rf : bool.
  Variable mr : N.
  Notation step := (step parse_id rf mr).
  Notation receive := (receive parse_id rf mr).

  Definition is_ack (p : packet) : bool := match p with PXferAck _ _ _ | PXferRefuse _ _ => true | _ => false end.
  Definition is_seg (p : packet) : bool := match p with PXferSeg _ => true | _ => false end.

  Lemma msgs_segs (l : list xfer_seg) : msgs (map (fun x => EMsg (PXferSeg x)) l) = map PXferSeg l.
  Proof. unfold msgs. induction l as [|x l IH]; [done|]. cbn. f_equal. exact IH. Qed.
  Lemma msgs_process buf tid : no_segs (msgs (process_bundle parse_id buf tid)).
  Proof.
    unfold process_bundle. destruct (parse_id buf); cbn; intros d Hd; [by apply elem_of_nil in Hd|].
    apply elem_of_list_singleton in Hd. done.
  Qed.

  (** Steps that leave the sending role alone: no segments written, no
      verdict, sending state kept or session terminated. *)
  Definition quiet_send (s s' : session) (es : list eff) : Prop :=
    no_segs (msgs es) /\ (forall h r, EVerdict h r ∉ es) /\ s_last_tid s' = s_last_tid s /\
    (s_send s' = s_send s \/ s_send s' = STerminated).
  (** Steps that leave the receiving role alone. *)
  Definition quiet_recv (s s' : session) (es : list eff) : Prop :=
    no_acks (msgs es) /\ (s_recv s' = s_recv s \/ s_recv s' = RTerminated).

  Ltac inlist := repeat match goal with
    | H : _ ∈ [] |- _ => by apply elem_of_nil in H
    | H : _ ∈ _ :: _ |- _ => apply elem_of_cons in H as [H|H]; try done
    | H : _ ∈ _ ++ _ |- _ => apply elem_of_app in H as [H|H]
    end.

  Lemma quiet_send_nil s s' : s_last_tid s' = s_last_tid s -> (s_send s' = s_send s \/ s_send s' = STerminated) ->
    quiet_send s s' [].
  Proof. intros H1 H2. split; [intros d Hd; by apply elem_of_nil in Hd|]. split; [intros h r Hd; by apply elem_of_nil in Hd|]. done. Qed.
  Lemma quiet_recv_nil s s' : (s_recv s' = s_recv s \/ s_recv s' = RTerminated) -> quiet_recv s s' [].
  Proof. intros H. split; [|done]. split; intros; intros Hd; by apply elem_of_nil in Hd. Qed.

  Lemma quiet_send_one s s' p : is_seg p = false -> s_last_tid s' = s_last_tid s ->
    (s_send s' = s_send s \/ s_send s' = STerminated) -> quiet_send s s' [EMsg p].
  Proof.
    intros Hp H1 H2. split; [intros d Hd; apply elem_of_list_singleton in Hd; by subst|].
    split; [intros h r Hd; by apply elem_of_list_singleton in Hd|]. done.
  Qed.
  Lemma quiet_recv_one s s' p : is_ack p = false -> (s_recv s' = s_recv s \/ s_recv s' = RTerminated) ->
    quiet_recv s s' [EMsg p].
  Proof.
    intros Hp H. split; [|done]. split; intros; intros Hd; apply elem_of_list_singleton in Hd; by subst.
  Qed.

  Lemma process_no_verdict buf tid h r : EVerdict h r ∉ process_bundle parse_id buf tid.
  Proof. unfold process_bundle. destruct (parse_id buf); intros Hd; inlist. Qed.

  (** events other than acknowledgements, refusals and submissions *)
  Lemma step_quiet_send s e :
    match e with EvPacket p _ _ => is_ack p = false | EvSubmit _ _ _ => False | _ => True end ->
    quiet_send s (fst (step s e)) (snd (step s e)).
  Proof.
    intros He. unfold TcpclSession.step. destruct (is_terminated s); [by apply quiet_send_nil; auto|].
    destruct e as [p has resp| |data h resp| |].
    - assert (Hr : quiet_send s (set_ka (fst (receive s has resp p)) false false) (snd (receive s has resp p))).
      { destruct p as [t|d|reply r|d|f tid len|r tid| |r h]; cbn [TcpclSession.receive] in *; try done;
          try (apply quiet_send_nil; cbn; auto; fail).
        - destruct reply; [apply quiet_send_nil; cbn; auto|apply quiet_send_one; cbn; auto].
        - destruct (s_recv s) as [|buf tid|]; [| |apply quiet_send_nil; cbn; auto].
          + destruct (negb _); [apply quiet_send_nil; cbn; auto|].
            destruct (refused _ _ _); [apply quiet_send_one; cbn; auto|].
            destruct (f_end _); cbn [fst snd]; [|apply quiet_send_one; cbn; auto].
            split; [|split; [|cbn; auto]].
            * intros d' Hd'. cbn in Hd'. apply elem_of_cons in Hd' as [|Hd']; [done|]. by eapply msgs_process.
            * intros h r Hd'. apply elem_of_cons in Hd' as [|Hd']; [done|]. by eapply process_no_verdict.
          + destruct (f_start _); [apply quiet_send_nil; cbn; auto|].
            destruct (negb _); [apply quiet_send_nil; cbn; auto|].
            destruct (f_end _); cbn [fst snd]; [|apply quiet_send_one; cbn; auto].
            split; [|split; [|cbn; auto]].
            * intros d' Hd'. cbn in Hd'. apply elem_of_cons in Hd' as [|Hd']; [done|]. by eapply msgs_process.
            * intros h r Hd'. apply elem_of_cons in Hd' as [|Hd']; [done|]. by eapply process_no_verdict. }
      destruct p; try exact Hr. destruct (s_ka_sent s); [apply quiet_send_nil|apply quiet_send_one]; cbn; auto.
    - apply quiet_send_nil; cbn; auto.
    - done.
    - destruct (s_send s) eqn:Es; cbn [fst snd]; first [apply quiet_send_nil; cbn; auto; fail|apply quiet_send_one; cbn; auto].
    - destruct (s_ka_recv s), (s_ka_sent s); cbn [fst snd app];
        try (apply quiet_send_nil; cbn; auto; fail); try (apply quiet_send_one; cbn; auto; fail).
      split; [intros d Hd; cbn in Hd; inlist|]. split; [intros h r Hd; inlist|]. cbn; auto.
  Qed.

  Lemma send_bundle_msgs s data h resp :
    match send_bundle rf mr s data h resp with
    | (Some (x, es), _) => no_acks (msgs es) | (None, es) => no_acks (msgs es) end.
  Proof.
    unfold send_bundle. destruct (mr =? 0).
    { split; intros; intros Hd; cbn in Hd; inlist. }
    destruct (bool_decide _).
    { destruct resp; split; intros; intros Hd; cbn in Hd; inlist. }
    rewrite msgs_segs. split; intros; intros (? & ? & ?)%elem_of_list_fmap; done.
  Qed.

  Lemma step_quiet_recv s e :
    match e with EvPacket p _ _ => is_seg p = false | _ => True end ->
    quiet_recv s (fst (step s e)) (snd (step s e)).
  Proof.
    intros He. unfold TcpclSession.step. destruct (is_terminated s); [by apply quiet_recv_nil; auto|].
    destruct e as [p has resp| |data h resp| |].
    - assert (Hr : quiet_recv s (set_ka (fst (receive s has resp p)) false false) (snd (receive s has resp p))).
      { destruct p as [t|d|reply r|d|f tid len|r tid| |r h]; cbn [TcpclSession.receive] in *; try done;
          try (apply quiet_recv_nil; cbn; auto; fail).
        - destruct reply; [apply quiet_recv_nil; cbn; auto|apply quiet_recv_one; cbn; auto].
        - destruct (s_send s) as [|total h|data h|]; try (apply quiet_recv_nil; cbn; auto; fail);
            (destruct (negb _); [apply quiet_recv_nil; cbn; auto|]).
          + destruct (len <? total); [apply quiet_recv_nil; cbn; auto|].
            destruct resp; [|apply quiet_recv_nil; cbn; auto].
            split; [split; intros; intros Hd; cbn in Hd; inlist|cbn; auto].
          + pose proof (send_bundle_msgs s data h resp) as Hm.
            destruct (send_bundle _ _ _ _ _ _) as [[[x es]|] es']; (split; [exact Hm|cbn; auto]).
        - destruct (s_send s) as [|total h|data h|]; try (apply quiet_recv_nil; cbn; auto; fail);
            (destruct (negb _); [apply quiet_recv_nil; cbn; auto|]);
            (destruct resp; [|apply quiet_recv_nil; cbn; auto]);
            (split; [split; intros; intros Hd; cbn in Hd; inlist|cbn; auto]). }
      destruct p; try exact Hr. destruct (s_ka_sent s); [apply quiet_recv_nil|apply quiet_recv_one]; cbn; auto.
    - apply quiet_recv_nil; cbn; auto.
    - destruct (s_send s) eqn:Es; try (apply quiet_recv_nil; cbn; auto; fail). cbn [fst snd]. unfold send.
      destruct rf eqn:Hrf.
      + destruct (parse_id data) as [bid|]; cbn [fst snd]; [apply quiet_recv_one|apply quiet_recv_nil]; cbn; auto.
      + set (s1 := Session _ _ _ _ _). pose proof (send_bundle_msgs s1 data h resp) as Hm. rewrite Hrf in Hm.
        destruct (send_bundle _ _ _ _ _ _) as [[[x es]|] es']; (split; [exact Hm|cbn; auto]).
    - destruct (s_send s) eqn:Es; cbn [fst snd]; first [apply quiet_recv_nil; cbn; auto; fail|apply quiet_recv_one; cbn; auto].
    - destruct (s_ka_recv s), (s_ka_sent s); cbn [fst snd app];
        try (apply quiet_recv_nil; cbn; auto; fail); try (apply quiet_recv_one; cbn; auto; fail).
      split; [|cbn; auto]. split; intros; intros Hd; cbn in Hd; inlist.
  Qed.
End Roles.

(** ** One direction: S sends to R *)
Section Dir.
  Variable parse_id : bytes -> option bytes.
  Variable data_of : nat -> bytes.
  Variable rfS rfR : bool.
  Variable mrS mrR : N.

  (** [d] has been received completely (and was handed on if it parses) *)
  Definition received (log : list eff) (d : bytes) : Prop :=
    EProcess d ∈ log \/ (parse_id d = None /\ EBroken d ∈ log).
  (** the receiver refused because it already held this bundle *)
  Definition held (stores : list (bytes -> bool)) (d : bytes) : Prop :=
    rfS = true /\ rfR = true /\
    exists id has, parse_id d = Some id /\ has ∈ stores /\ has id = true.

  Lemma received_app log x d : received log d -> received (log ++ x) d.
  Proof. intros [H|[H1 H2]]; [left|right; split; [done|]]; apply elem_of_app; by left. Qed.
  Lemma held_app st x d : held st d -> held (st ++ x) d.
  Proof.
    intros (H1 & H2 & id & has & H3 & H4 & H5). split; [done|]. split; [done|]. exists id, has.
    split; [done|]. split; [apply elem_of_app; by left|done].
  Qed.

  Definition not_recv (R : session) (t : N) : Prop := forall buf tid, s_recv R = Receiving buf tid -> tid <> t.
  Definition rest_ok (t : N) (segs : list xfer_seg) : Prop :=
    plain_rest t segs /\ Forall (fun s => xs_buf s <> []) segs.
  Definition pipeline (R : session) (segs : list xfer_seg) (t : N) (d : bytes) : Prop :=
    (exists m, carries segs true m t d /\ d <> [] /\ not_recv R t) \/
    (exists buf, s_recv R = Receiving buf t /\ rest_ok t segs /\ segs <> [] /\
                 buf ++ concat (map xs_buf segs) = d).
  Definition start_seg (t : N) (id : bytes) : xfer_seg :=
    XferSeg (SegFlags false true) t 0 [] [ExtItem false id].
  Definition request (R : session) (segs : list xfer_seg) (acks : list N) (refd : Prop) (t : N) (id : bytes) : Prop :=
    (segs = [start_seg t id] /\ not_recv R t /\ acks = []) \/
    (segs = [] /\ s_recv R = Receiving [] t /\ acks <> []) \/
    (segs = [] /\ not_recv R t /\ acks = [] /\ refd).

  Definition state_inv (S R : session) (qSR qRS : list packet) (logR : list eff) (stR : list (bytes -> bool)) : Prop :=
    let t := s_last_tid S in
    is_terminated S = false ->
    match s_send S with
    | Sending len h =>
        len = blen (data_of h) /\
        ((received logR (data_of h) /\ (is_terminated R = false -> Exists (fun l => len <= l) (ackt t qRS))) \/
         (Forall (fun l => l < len) (ackt t qRS) /\
          (is_terminated R = false -> pipeline R (segt t qSR) t (data_of h))))
    | TransferRequest d h =>
        d = data_of h /\ rfS = true /\
        exists id, parse_id d = Some id /\ (reft t qRS -> held stR d) /\
          Forall (fun l => l = 0) (ackt t qRS) /\
          (is_terminated R = false -> request R (segt t qSR) (ackt t qRS) (reft t qRS) t id)
    | _ => True
    end.

  Record dir_inv (S R : session) (qSR qRS : list packet) (logS logR : list eff) (stR : list (bytes -> bool)) : Prop := {
    di_seg : forall d, PXferSeg d ∈ qSR -> xs_tid d <= s_last_tid S;
    di_recv : forall buf tid, s_recv R = Receiving buf tid -> tid <= s_last_tid S;
    di_ack : forall f tid l, PXferAck f tid l ∈ qRS -> tid <= s_last_tid S;
    di_ref : forall r tid, PXferRefuse r tid ∈ qRS -> tid <= s_last_tid S;
    di_verdict : forall h, EVerdict h Successful ∈ logS -> received logR (data_of h) \/ held stR (data_of h);
    di_state : state_inv S R qSR qRS logR stR
  }.

  Lemma segt_fresh q t : (forall d, PXferSeg d ∈ q -> xs_tid d < t) -> segt t q = [].
  Proof.
    intros H. induction q as [|p q IH]; [done|]. cbn.
    assert (Hq : segt t q = []) by (apply IH; intros d Hd; apply H; by right).
    destruct p; try done. specialize (H d ltac:(left)). destruct (N.eqb_spec (xs_tid d) t); [lia|done].
  Qed.
  Lemma ackt_fresh q t : (forall f tid l, PXferAck f tid l ∈ q -> tid < t) -> ackt t q = [].
  Proof.
    intros H. induction q as [|p q IH]; [done|]. cbn.
    assert (Hq : ackt t q = []) by (apply IH; intros f tid l Hd; apply (H f tid l); by right).
    destruct p; try done. specialize (H f tid len ltac:(left)). destruct (N.eqb_spec tid t); [lia|done].
  Qed.

  (** *** Steps of the sender *)
  Notation stepS := (step parse_id rfS mrS).
  Notation stepR := (step parse_id rfR mrR).

  Lemma segt_map t (l : list xfer_seg) : Forall (fun d => xs_tid d = t) l -> segt t (map PXferSeg l) = l.
  Proof. induction 1 as [|d l Hd Hl IH]; [done|]. cbn. rewrite Hd, N.eqb_refl. f_equal. exact IH. Qed.

  Lemma carries_rest segs m t d : carries segs false m t d -> rest_ok t segs.
  Proof.
    intros [_ Hs Hst He]. split; [split|].
    - intros s Hin. rewrite Forall_forall in Hs. destruct (Hs s Hin) as (_ & _ & ? & _).
      apply elem_of_list_lookup in Hin as [i Hi]. rewrite (Hst i s Hi). done.
    - done.
    - eapply Forall_impl; [exact Hs|]. cbn. intros s (H & _) Hn. rewrite Hn in H. unfold blen in H. cbn in H. lia.
  Qed.

  (** popping a message from the reverse queue *)
  Definition popped (q q' : list packet) (e : event) : Prop :=
    match e with EvPacket p _ _ => q = p :: q' | _ => q = q' end.

  Lemma sender_step S R qSR qRS qRS' logS logR stR e :
    dir_inv S R qSR qRS logS logR stR ->
    popped qRS qRS' e ->
    match e with EvSubmit d h _ => d = data_of h | _ => True end ->
    dir_inv (fst (stepS S e)) R (qSR ++ msgs (snd (stepS S e))) qRS' (logS ++ snd (stepS S e)) logR stR.
  Proof.
    intros [Hseg Hrecv Hack Href Hv Hst] Hpop Hsub.
    assert (Hsubset : forall p, p ∈ qRS' -> p ∈ qRS).
    { intros p Hp. destruct e; cbn in Hpop; subst; [by right|done..]. }
    (* quiet steps *)
    assert (Hquiet : quiet_send S (fst (stepS S e)) (snd (stepS S e)) ->
       (forall t, ackt t qRS' = ackt t qRS) ->
       (forall r t, PXferRefuse r t ∈ qRS -> PXferRefuse r t ∈ qRS') ->
       dir_inv (fst (stepS S e)) R (qSR ++ msgs (snd (stepS S e))) qRS' (logS ++ snd (stepS S e)) logR stR).
    { intros (Hns & Hnv & Htid & Hs) Hacks Hrefs. split.
      - intros d [Hd|Hd]%elem_of_app; [rewrite Htid; by apply Hseg|by destruct (Hns d)].
      - rewrite Htid. done.
      - intros f tid l Hd. rewrite Htid. eapply Hack, Hsubset, Hd.
      - intros r tid Hd. rewrite Htid. eapply Href, Hsubset, Hd.
      - intros h [Hd|Hd]%elem_of_app; [by apply Hv|by destruct (Hnv h Successful)].
      - unfold state_inv in *. cbv zeta in *. intros Hal.
        assert (HaS : is_terminated S = false).
        { destruct (is_terminated S) eqn:Ht; [|done]. unfold TcpclSession.step in Hal. rewrite Ht in Hal. cbn in Hal. congruence. }
        specialize (Hst HaS). destruct Hs as [Hs|Hs]; rewrite Hs; [|done].
        rewrite Htid. destruct (s_send S) as [|len h|d h|]; try done.
        + rewrite Hacks, segt_app, (no_segs_segt _ _ Hns), app_nil_r. done.
        + rewrite Hacks, segt_app, (no_segs_segt _ _ Hns), app_nil_r.
          destruct Hst as (H1 & H2 & id & H3 & H4 & H5 & H6). split; [done|]. split; [done|].
          exists id. split; [done|]. split; [intros [r Hr]; apply H4; exists r; by apply Hsubset|].
          split; [done|]. intros Ha. destruct (H6 Ha) as [H7|[H7|(H7 & H8 & H9 & [r Hr])]]; [by left|by right; left|].
          right; right. split; [done|]. split; [done|]. split; [done|]. exists r. by eapply Hrefs. }
    destruct e as [p has resp| |data h resp| |]; cbn in Hpop;
      try (apply Hquiet; [by apply step_quiet_send|by subst|by subst]).
    - (* a message from R *)
      destruct (is_ack p) eqn:Hp.
      2:{ apply Hquiet; [by apply step_quiet_send|..]. { intros t. subst qRS. destruct p; done. }
          intros r t Hr. subst qRS. apply elem_of_cons in Hr as [Hr|Hr]; [by subst p|done]. }
      clear Hquiet. subst qRS.
      unfold TcpclSession.step. destruct (is_terminated S) eqn:Et.
      { (* S is gone *)
        cbn [fst snd]. rewrite !app_nil_r. split; try done.
        - intros f tid l Hd. eapply Hack, Hsubset, Hd.
        - intros r tid Hd. eapply Href, Hsubset, Hd.
        - unfold state_inv. cbv zeta. congruence. }
      assert (Hterm : dir_inv (set_ka (terminated S) false false) R (qSR ++ msgs []) qRS' (logS ++ []) logR stR).
      { cbn. rewrite !app_nil_r. split; try done.
        - intros f tid l Hd. eapply Hack, Hsubset, Hd.
        - intros r tid Hd. eapply Href, Hsubset, Hd. }
      destruct p as [| | | |f tid len|r tid| |]; try discriminate Hp; cbn [TcpclSession.receive fst snd].
      + (* acknowledgement *)
        unfold state_inv in Hst. cbv zeta in Hst. specialize (Hst Et).
        destruct (s_send S) as [|total h|d h|] eqn:Es; try exact Hterm.
        * destruct (N.eqb_spec tid (s_last_tid S)) as [->|]; cbn [negb]; [|exact Hterm].
          destruct Hst as [-> Hst]. cbn in Hst. rewrite N.eqb_refl in Hst.
          destruct (N.ltb_spec len (blen (data_of h))) as [Hlt|Hge].
          -- (* partial *)
             cbn. rewrite !app_nil_r. split; try done.
             ++ intros f' tid l Hd. eapply Hack, Hsubset, Hd.
             ++ intros r tid Hd. eapply Href, Hsubset, Hd.
             ++ unfold state_inv. cbv zeta. cbn. rewrite Es. intros _. split; [done|].
                destruct Hst as [[Hst Hex]|[H1 H2]]; [left; split; [done|]|right; apply Forall_cons in H1 as [_ H1]; done].
                intros Ha. specialize (Hex Ha). apply Exists_cons in Hex as [Hex|Hex]; [lia|done].
          -- (* complete *)
             assert (Hrec : received logR (data_of h)).
             { destruct Hst as [[Hst _]|[H1 H2]]; [done|]. apply Forall_cons in H1 as [H1 _]. lia. }
             destruct resp; [|exact Hterm]. cbn. rewrite app_nil_r. split; try done.
             ++ intros f' tid l Hd. eapply Hack, Hsubset, Hd.
             ++ intros r tid Hd. eapply Href, Hsubset, Hd.
             ++ intros h' [Hd|Hd]%elem_of_app; [by apply Hv|]. apply elem_of_list_singleton in Hd.
                injection Hd as ->. by left.
        * destruct (N.eqb_spec tid (s_last_tid S)) as [->|]; cbn [negb]; [|exact Hterm].
          destruct Hst as (-> & Hrf & id & Hid & Hrefu & Hz & Hreq).
          cbn in Hz, Hreq. rewrite N.eqb_refl in Hz, Hreq. apply Forall_cons in Hz as [-> Hz].
          unfold send_bundle. destruct (mrS =? 0) eqn:Em; [|destruct (bool_decide _) eqn:Eb].
          -- (* panic *) cbn. rewrite app_nil_r. split; try done.
             ++ intros f' tid l Hd. eapply Hack, Hsubset, Hd.
             ++ intros r tid Hd. eapply Href, Hsubset, Hd.
             ++ intros h' [Hd|Hd]%elem_of_app; [by apply Hv|]. by apply elem_of_list_singleton in Hd.
          -- (* empty *) destruct resp; [|exact Hterm]. cbn. rewrite app_nil_r. split; try done.
             ++ intros f' tid l Hd. eapply Hack, Hsubset, Hd.
             ++ intros r tid Hd. eapply Href, Hsubset, Hd.
             ++ intros h' [Hd|Hd]%elem_of_app; [by apply Hv|]. by apply elem_of_list_singleton in Hd.
          -- (* the segments *)
             cbn [fst snd]. rewrite msgs_segs. rewrite Hrf in *.
             assert (Hm : 0 < mrS) by lia.
             pose proof (segments_carries true mrS (s_last_tid S) (data_of h) Hm) as Hc. cbn [negb] in Hc.
             set (sg := segments true mrS (s_last_tid S) (data_of h)) in *.
             assert (Htids : Forall (fun d => xs_tid d = s_last_tid S) sg).
             { destruct Hc as [_ Hc _ _]. eapply Forall_impl; [exact Hc|]. cbn. tauto. }
             assert (Hne : sg <> []) by (intros E; apply bool_decide_eq_false in Eb; done).
             clearbody sg. split; cbn [s_last_tid set_ka set_states s_send].
             ++ intros d' [Hd|Hd]%elem_of_app; [by apply Hseg|].
                apply elem_of_list_fmap in Hd as (d'' & [= ->] & Hd). rewrite Forall_forall in Htids.
                rewrite Htids by done. lia.
             ++ done.
             ++ intros f' tid l Hd. eapply Hack, Hsubset, Hd.
             ++ intros r tid Hd. eapply Href, Hsubset, Hd.
             ++ intros h' [Hd|Hd]%elem_of_app; [by apply Hv|].
                by apply elem_of_list_fmap in Hd as (? & ? & _).
             ++ unfold state_inv. cbv zeta. cbn. intros _. split; [done|right]. split.
                ** eapply Forall_impl; [exact Hz|]. cbn. intros l ->.
                   assert (0 < blen (data_of h)); [|done].
                   destruct Hc as [Hc1 Hc2 _ _]. rewrite <- Hc1. destruct sg as [|s0 sg]; [done|]. cbn.
                   rewrite blen_app. apply Forall_cons in Hc2 as [(Hc2 & _) _]. lia.
                ** intros Ha. destruct (Hreq Ha) as [(_ & _ & [=])|[(Hs & Hr & _)|(_ & _ & [=] & _)]].
                   right. exists []. rewrite segt_app, Hs, segt_map by done. cbn [app].
                   split; [done|]. split; [by eapply carries_rest|]. split; [done|]. apply Hc.
      + (* refusal *)
        unfold state_inv in Hst. cbv zeta in Hst. specialize (Hst Et).
        destruct (s_send S) as [|total h|d h|] eqn:Es; try exact Hterm;
          (destruct (N.eqb_spec tid (s_last_tid S)) as [->|]; cbn [negb]; [|exact Hterm]);
          (destruct resp; [|exact Hterm]); cbn; rewrite app_nil_r; split; try done.
        * intros f' tid l Hd. eapply Hack, Hsubset, Hd.
        * intros r' tid Hd. eapply Href, Hsubset, Hd.
        * intros h' [Hd|Hd]%elem_of_app; [by apply Hv|]. by apply elem_of_list_singleton in Hd.
        * intros f' tid l Hd. eapply Hack, Hsubset, Hd.
        * intros r' tid Hd. eapply Href, Hsubset, Hd.
        * intros h' [Hd|Hd]%elem_of_app; [by apply Hv|]. apply elem_of_list_singleton in Hd.
          injection Hd as ->. destruct Hst as (-> & Hrf & id & Hid & Hrefu & _).
          right. apply Hrefu. exists r. left.
    - (* submission *)
      subst data qRS'. clear Hquiet. unfold TcpclSession.step. destruct (is_terminated S) eqn:Et.
      { cbn [fst snd]. rewrite !app_nil_r. done. }
      destruct (s_send S) as [|total h'|d h'|] eqn:Es; try (cbn [fst snd]; rewrite !app_nil_r; done).
      cbn [fst snd]. unfold send.
      assert (Hle : forall q (P : Prop), q <= s_last_tid S -> q <= s_last_tid S + 1) by (intros; lia).
      assert (Hsf : segt (s_last_tid S + 1) qSR = []).
      { apply segt_fresh. intros d Hd. specialize (Hseg d Hd). lia. }
      assert (Haf : ackt (s_last_tid S + 1) qRS = []).
      { apply ackt_fresh. intros f tid l Hd. specialize (Hack f tid l Hd). lia. }
      assert (Hnr : not_recv R (s_last_tid S + 1)).
      { intros buf tid Hd. specialize (Hrecv buf tid Hd). lia. }
      destruct rfS eqn:Hrf.
      + destruct (parse_id (data_of h)) as [id|] eqn:Hid; cbn [fst snd].
        * split; cbn [s_last_tid set_ka set_states s_send msgs omap list_omap].
          -- intros d [Hd|Hd]%elem_of_app; [specialize (Hseg d Hd); lia|].
             cbn in Hd. apply elem_of_list_singleton in Hd. injection Hd as ->. cbn. lia.
          -- intros buf tid Hd. specialize (Hrecv _ _ Hd). lia.
          -- intros f tid l Hd. specialize (Hack _ _ _ Hd). lia.
          -- intros r tid Hd. specialize (Href _ _ Hd). lia.
          -- intros h' [Hd|Hd]%elem_of_app; [by apply Hv|]. by apply elem_of_list_singleton in Hd.
          -- unfold state_inv. cbv zeta. cbn. intros _. split; [done|]. split; [done|]. exists id. split; [done|].
             split; [intros [r Hr]; specialize (Href _ _ Hr); lia|]. rewrite Haf. split; [constructor|].
             intros _. left. rewrite segt_app, Hsf. cbn. rewrite N.eqb_refl. done.
        * cbn. rewrite !app_nil_r. split; cbn; try done.
          -- intros d Hd. specialize (Hseg d Hd); lia.
          -- intros buf tid Hd. specialize (Hrecv _ _ Hd). lia.
          -- intros f tid l Hd. specialize (Hack _ _ _ Hd). lia.
          -- intros r tid Hd. specialize (Href _ _ Hd). lia.
      + unfold send_bundle. destruct (mrS =? 0) eqn:Em; [|destruct (bool_decide _) eqn:Eb].
        * cbn. rewrite app_nil_r. split; cbn; try done.
          -- intros d Hd. specialize (Hseg d Hd); lia.
          -- intros buf tid Hd. specialize (Hrecv _ _ Hd). lia.
          -- intros f tid l Hd. specialize (Hack _ _ _ Hd). lia.
          -- intros r tid Hd. specialize (Href _ _ Hd). lia.
          -- intros h' [Hd|Hd]%elem_of_app; [by apply Hv|]. by apply elem_of_list_singleton in Hd.
        * assert (Hx : forall S' es, s_last_tid S' = s_last_tid S + 1 ->
             (s_send S' = SIdle \/ s_send S' = STerminated) -> (forall h', EVerdict h' Successful ∉ es) -> msgs es = [] ->
             dir_inv S' R (qSR ++ msgs es) qRS (logS ++ es) logR stR).
          { intros S' es H1 H2 H3 ->. rewrite app_nil_r. split; rewrite ?H1.
            - intros d Hd. specialize (Hseg d Hd); lia.
            - intros buf tid Hd. specialize (Hrecv _ _ Hd). lia.
            - intros f tid l Hd. specialize (Hack _ _ _ Hd). lia.
            - intros r tid Hd. specialize (Href _ _ Hd). lia.
            - intros h' [Hd|Hd]%elem_of_app; [by apply Hv|]. by destruct (H3 h').
            - unfold state_inv. cbv zeta. destruct H2 as [-> | ->]; done. }
          destruct resp; apply Hx; try done; cbn; auto.
          -- intros h' Hd. by apply elem_of_list_singleton in Hd.
          -- intros h' Hd. by apply elem_of_nil in Hd.
        * cbn [fst snd]. rewrite msgs_segs. assert (Hm : 0 < mrS) by lia.
          cbn [s_last_tid] in *.
          pose proof (segments_carries false mrS (s_last_tid S + 1) (data_of h) Hm) as Hc. cbn [negb] in Hc.
          assert (Hdne : data_of h <> []).
          { intros E. apply bool_decide_eq_false in Eb. apply Eb. by apply segments_nil. }
          set (sg := segments false mrS (s_last_tid S + 1) (data_of h)) in *.
          assert (Htids : Forall (fun d => xs_tid d = s_last_tid S + 1) sg).
          { destruct Hc as [_ Hc _ _]. eapply Forall_impl; [exact Hc|]. cbn. tauto. }
          clearbody sg. split; cbn [s_last_tid set_ka set_states s_send].
          -- intros d' [Hd|Hd]%elem_of_app; [specialize (Hseg _ Hd); lia|].
             apply elem_of_list_fmap in Hd as (d'' & [= ->] & Hd). rewrite Forall_forall in Htids.
             rewrite Htids by done. lia.
          -- intros buf tid Hd. specialize (Hrecv _ _ Hd). lia.
          -- intros f tid l Hd. specialize (Hack _ _ _ Hd). lia.
          -- intros r tid Hd. specialize (Href _ _ Hd). lia.
          -- intros h' [Hd|Hd]%elem_of_app; [by apply Hv|]. by apply elem_of_list_fmap in Hd as (? & ? & _).
          -- unfold state_inv. cbv zeta. cbn. intros _. split; [done|right]. rewrite Haf. split; [constructor|].
             intros _. left. exists mrS. rewrite segt_app, Hsf, segt_map by done. done.
  Qed.

  (** *** Steps of the receiver *)
  Local Arguments process_bundle : simpl never.
  Definition snaps (e : event) : list (bytes -> bool) := match e with EvPacket _ has _ => [has] | _ => [] end.

  Lemma not_recv_states R r x a b t : (forall buf tid, r = Receiving buf tid -> tid <> t) ->
    not_recv (set_ka (set_states R r x) a b) t.
  Proof. intros H buf tid Hr. cbn in Hr. by eapply H. Qed.

  Lemma process_received buf tid log :
    received (log ++ process_bundle parse_id buf tid) buf.
  Proof.
    unfold process_bundle. destruct (parse_id buf) eqn:E.
    - left. apply elem_of_app. right. left.
    - right. split; [done|]. apply elem_of_app. right. left.
  Qed.

  (** the messages R writes in response to a segment *)
  Lemma seg_replies R has resp d :
    (forall f tid l, PXferAck f tid l ∈ msgs (snd (receive parse_id rfR mrR R has resp (PXferSeg d))) -> tid = xs_tid d) /\
    (forall r tid, PXferRefuse r tid ∈ msgs (snd (receive parse_id rfR mrR R has resp (PXferSeg d))) -> tid = xs_tid d).
  Proof.
    assert (Hm : forall p es, p ∈ msgs es -> EMsg p ∈ es).
    { intros p es (e & He & Hx)%elem_of_list_omap. destruct e; naive_solver. }
    assert (Hp : forall buf tid p, EMsg p ∈ process_bundle parse_id buf tid -> p = PXferRefuse RNotAcceptable tid).
    { intros buf tid p. unfold process_bundle. destruct (parse_id buf); intros Hin.
      - apply elem_of_list_singleton in Hin. done.
      - apply elem_of_cons in Hin as [Hin|Hin]; [done|]. apply elem_of_list_singleton in Hin. congruence. }
    assert (Hall : forall p, p ∈ msgs (snd (receive parse_id rfR mrR R has resp (PXferSeg d))) ->
       (exists f l, p = PXferAck f (xs_tid d) l) \/ (exists r, p = PXferRefuse r (xs_tid d))).
    { intros p Hin. apply Hm in Hin. revert Hin. cbn [receive].
      destruct (s_recv R); repeat match goal with |- context [if ?b then _ else _] => destruct b end; cbn [snd];
        intros Hin; repeat match goal with
        | H : _ ∈ [] |- _ => by apply elem_of_nil in H
        | H : _ ∈ _ :: _ |- _ => apply elem_of_cons in H as [H|H];
            [injection H as ->; solve [left; eauto|right; eauto]|]
        | H : _ ∈ process_bundle _ _ _ |- _ => apply Hp in H; right; eauto end. }
    split; intros; match goal with H : _ ∈ _ |- _ => apply Hall in H; naive_solver end.
  Qed.
  Lemma ackt_other t q : (forall f tid l, PXferAck f tid l ∈ q -> tid <> t) -> ackt t q = [].
  Proof.
    intros H. induction q as [|p q IH]; [done|]. cbn.
    assert (Hq : ackt t q = []) by (apply IH; intros f tid l Hd; apply (H f tid l); by right).
    destruct p; try done. specialize (H f tid len ltac:(left)). by destruct (N.eqb_spec tid t).
  Qed.

  Lemma receiver_step S R qSR qSR' qRS logS logR stR e :
    dir_inv S R qSR qRS logS logR stR ->
    popped qSR qSR' e ->
    dir_inv S (fst (stepR R e)) qSR' (qRS ++ msgs (snd (stepR R e))) logS (logR ++ snd (stepR R e)) (stR ++ snaps e).
  Proof.
    intros [Hseg Hrecv Hack Href Hv Hst] Hpop.
    assert (Hsubset : forall p, p ∈ qSR' -> p ∈ qSR).
    { intros p Hp. destruct e; cbn in Hpop; subst; [by right|done..]. }
    assert (Hv' : forall es h, EVerdict h Successful ∈ logS ->
       received (logR ++ es) (data_of h) \/ held (stR ++ snaps e) (data_of h)).
    { intros es h Hh. destruct (Hv h Hh) as [H|H]; [left; by apply received_app|right; by apply held_app]. }
    set (t := s_last_tid S) in *.
    (* quiet steps *)
    assert (Hquiet : quiet_recv R (fst (stepR R e)) (snd (stepR R e)) -> segt t qSR' = segt t qSR ->
       dir_inv S (fst (stepR R e)) qSR' (qRS ++ msgs (snd (stepR R e))) logS (logR ++ snd (stepR R e)) (stR ++ snaps e)).
    { intros (Hna & Hr) Hs.
      set (R' := fst (stepR R e)) in *. set (es := snd (stepR R e)) in *.
      assert (HaR : is_terminated R = true -> is_terminated R' = true).
      { intros Ht. subst R'. unfold TcpclSession.step. rewrite Ht. done. }
      split.
      - intros d Hd. by apply Hseg, Hsubset.
      - intros buf tid Hd. destruct Hr as [Hr|Hr]; rewrite Hr in Hd; [by eapply Hrecv|done].
      - intros f tid l [Hd|Hd]%elem_of_app; [by eapply Hack|]. destruct Hna as [Hna _]. by destruct (Hna f tid l).
      - intros r tid [Hd|Hd]%elem_of_app; [by eapply Href|]. destruct Hna as [_ Hna]. by destruct (Hna r tid).
      - apply Hv'.
      - unfold state_inv in *. cbv zeta in *. fold t. fold t in Hst. intros HaS. specialize (Hst HaS).
        assert (Hal : is_terminated R' = false -> is_terminated R = false /\ s_recv R' = s_recv R).
        { intros Ha. split; [destruct (is_terminated R); [by rewrite HaR in Ha|done]|].
          destruct Hr as [Hr|Hr]; [done|]. unfold is_terminated in Ha. by rewrite Hr in Ha. }
        destruct (s_send S) as [|len h|d h|]; try done.
        + destruct Hst as [-> Hst]. split; [done|]. rewrite ackt_app, (no_acks_ackt _ _ Hna), app_nil_r, Hs.
          destruct Hst as [[Hst Hex]|[H1 H2]]; [left; split; [by apply received_app|intros Ha; apply Hex; by apply Hal]|right]. split; [done|].
          intros Ha. destruct (Hal Ha) as [Ha' Hr']. specialize (H2 Ha').
          unfold pipeline, not_recv in *. rewrite Hr'. done.
        + destruct Hst as (H1 & H2 & id & H3 & H4 & H5 & H6). split; [done|]. split; [done|]. exists id.
          split; [done|]. rewrite ackt_app, (no_acks_ackt _ _ Hna), app_nil_r, Hs.
          split; [|split; [done|]].
          * intros [Hd|Hd]%reft_app; [by apply held_app, H4|]. by apply no_acks_reft in Hd.
          * intros Ha. destruct (Hal Ha) as [Ha' Hr']. specialize (H6 Ha').
            unfold request, not_recv in *. rewrite Hr'.
            destruct H6 as [H7|[H7|(H7 & H8 & H9 & H10)]]; [by left|by right; left|]. right; right.
            split; [done|]. split; [done|]. split; [done|]. apply reft_app. by left. }
    destruct e as [p has resp| |data h resp| |]; cbn in Hpop;
      try (apply Hquiet; [by apply step_quiet_recv|by subst]).
    destruct (is_seg p) eqn:Hp.
    2:{ apply Hquiet; [by apply step_quiet_recv|]. subst qSR. destruct p; done. }
    destruct p as [| | |d| | | |]; try discriminate Hp. clear Hquiet Hp. subst qSR.
    assert (Hdt : xs_tid d <= t) by (apply Hseg; left).
    unfold TcpclSession.step. destruct (is_terminated R) eqn:Et.
    { cbn [fst snd]. cbn [msgs omap list_omap]. rewrite !app_nil_r. split; try done.
      - intros d' Hd. by apply Hseg, Hsubset.
      - intros h Hh. specialize (Hv' [] h Hh). rewrite app_nil_r in Hv'. done.
      - unfold state_inv in *. cbv zeta in *. intros HaS. specialize (Hst HaS). destruct (s_send S) as [|len h|d' h|]; try done.
        + destruct Hst as [-> Hst]. split; [done|]. destruct Hst as [Hst|[H1 H2]]; [by left|right].
          split; [done|]. intros Ha. congruence.
        + destruct Hst as (H1 & H2 & id & H3 & H4 & H5 & H6). split; [done|]. split; [done|]. exists id.
          split; [done|]. split; [intros Hr; by apply held_app, H4|]. split; [done|]. intros Ha. congruence. }
    cbn [snaps fst snd].
    pose proof (seg_replies R has resp d) as [Hra Hrr].
    (* the receiver's new state *)
    set (o := receive parse_id rfR mrR R has resp (PXferSeg d)) in *.
    assert (Hnewrecv : forall buf tid, s_recv (fst o) = Receiving buf tid ->
        tid = xs_tid d \/ s_recv R = Receiving buf tid).
    { intros buf tid. subst o. cbn [receive]. destruct (s_recv R) eqn:Er;
        repeat match goal with |- context [if ?b then _ else _] => destruct b end; cbn; try done; rewrite ?Er; try done;
        intros [= <- <-]; by left. }
    assert (Hbase : state_inv S (set_ka (fst o) false false) qSR' (qRS ++ msgs (snd o)) (logR ++ snd o) (stR ++ [has]) ->
      dir_inv S (set_ka (fst o) false false) qSR' (qRS ++ msgs (snd o)) logS (logR ++ snd o) (stR ++ [has])).
    { intros Hs. split; [| | | |apply Hv'|done].
      - intros d' Hd. by apply Hseg, Hsubset.
      - intros buf tid Hr. cbn in Hr. destruct (Hnewrecv _ _ Hr) as [-> |Hr']; [done|]. by eapply Hrecv.
      - intros f tid l [Hd|Hd]%elem_of_app; [by eapply Hack|]. by rewrite (Hra _ _ _ Hd).
      - intros r tid [Hd|Hd]%elem_of_app; [by eapply Href|]. by rewrite (Hrr _ _ Hd). }
    apply Hbase. clear Hbase. unfold state_inv in *. cbv zeta in *. fold t. fold t in Hst. intros HaS. specialize (Hst HaS).
    destruct (s_send S) as [|len h|data h|]; try done.
    - (* Sending *)
      destruct Hst as [-> Hst]. split; [done|].
      destruct Hst as [[Hst Hex]|[H1 H2]].
      { left. split; [by apply received_app|]. intros _. rewrite ackt_app. apply Exists_app. left. by apply Hex. }
      specialize (H2 Et).
      destruct (N.eq_dec (xs_tid d) t) as [Hd|Hd].
      + (* the awaited segment *)
        unfold segt in H2. cbn in H2. rewrite (proj2 (N.eqb_eq _ _) Hd) in H2. fold (segt t qSR') in H2.
        destruct H2 as [(m & Hc & Hne & Hnr)|(buf & Hr & [Hpr Hnn] & _ & Hcat)].
        * destruct Hc as [Hc1 Hc2 Hc3 Hc4].
          pose proof (Hc3 0%nat d eq_refl) as Hs0. rewrite bool_decide_eq_true_2 in Hs0 by done. cbn in Hs0.
          pose proof (Hc4 0%nat d eq_refl) as He0.
          pose proof Hc2 as Hc2'. apply Forall_cons in Hc2 as [(Hz & Hlen & _ & Hext) Hc2].
          subst o. cbn [receive] in *. destruct (s_recv R) as [|buf' tid'|] eqn:Er.
          -- rewrite Hs0 in *. cbn [negb] in *.
             replace (refused rfR has (xs_ext d)) with false in * by (rewrite Hext; unfold refused; cbn; by rewrite andb_false_r).
             rewrite He0 in *. destruct (segt t qSR') as [|d2 rest] eqn:Erest.
             ++ (* single segment *)
                rewrite bool_decide_eq_true_2 in * by done. cbn [fst snd] in *. left.
                cbn in Hc1. rewrite app_nil_r in Hc1. rewrite <- Hc1. split.
                2:{ intros _. rewrite ackt_app. apply Exists_app. right. cbn. rewrite (proj2 (N.eqb_eq _ _) Hd). left. lia. }
                change (?a :: process_bundle parse_id ?b ?c) with ([a] ++ process_bundle parse_id b c).
                rewrite app_assoc. apply process_received.
             ++ rewrite bool_decide_eq_false_2 in * by (intros [=]). cbn [fst snd] in *. right. split.
                ** rewrite ackt_app. apply Forall_app. split; [done|]. cbn.
                   rewrite (proj2 (N.eqb_eq _ _) Hd). constructor; [|constructor].
                   rewrite Hlen, <- Hc1. cbn. rewrite !blen_app.
                   apply Forall_cons in Hc2 as [(Hz2 & _) _]. lia.
                ** intros _. right. exists (xs_buf d). cbn. rewrite Hd. split; [done|]. split; [split|].
                   --- split.
                       +++ intros s Hin. pose proof Hin as Hin'. rewrite Forall_forall in Hc2. destruct (Hc2 s Hin) as (_ & _ & ? & _).
                           apply elem_of_list_lookup in Hin as [i Hi]. split; [|done]. rewrite (Hc3 (Datatypes.S i) s Hi). done.
                       +++ intros i s Hi. rewrite (Hc4 (Datatypes.S i) s Hi). apply bool_decide_ext. cbn. lia.
                   --- eapply Forall_impl; [exact Hc2|]. cbn. intros s (Hzs & _) Hn. rewrite Hn in Hzs. unfold blen in Hzs. cbn in Hzs. lia.
                   --- split; [done|]. exact Hc1.
          -- rewrite Hs0 in *. cbn [fst snd] in *. right. cbn. rewrite app_nil_r. split; [done|]. done.
          -- cbn in *. right. rewrite app_nil_r. done.
        * apply plain_rest_cons in Hpr as (Hs0 & _ & He0 & Hpr). apply Forall_cons in Hnn as [Hn0 Hnn].
          subst o. cbn [receive] in *. rewrite Hr, Hs0, Hd, N.eqb_refl in *. cbn [negb] in *. rewrite He0 in *.
          destruct (segt t qSR') as [|d2 rest] eqn:Erest.
          -- rewrite bool_decide_eq_true_2 in * by done. cbn [fst snd] in *. left.
             cbn in Hcat. rewrite app_nil_r in Hcat. rewrite <- Hcat. split.
             2:{ intros _. rewrite ackt_app. apply Exists_app. right. cbn. rewrite N.eqb_refl. left. lia. }
             change (?a :: process_bundle parse_id ?b ?c) with ([a] ++ process_bundle parse_id b c).
             rewrite app_assoc. apply process_received.
          -- rewrite bool_decide_eq_false_2 in * by done. cbn [fst snd] in *. right. split.
             ++ rewrite ackt_app. apply Forall_app. split; [done|]. cbn. rewrite N.eqb_refl.
                constructor; [|constructor]. rewrite <- Hcat. cbn. rewrite !blen_app.
                apply Forall_cons in Hnn as [Hn2 _]. destruct (xs_buf d2); [done|]. unfold blen. cbn [length]. lia.
             ++ intros _. right. exists (buf ++ xs_buf d). cbn. split; [done|]. split; [done|]. split; [done|].
                rewrite <- Hcat. cbn. by rewrite <- !app_assoc.
      + (* a stale segment *)
        right. rewrite ackt_app, (ackt_other t (msgs (snd o))), app_nil_r by (intros f tid l Hx; rewrite (Hra _ _ _ Hx); done).
        split; [done|]. intros Ha. unfold segt in H2. cbn in H2.
        rewrite (proj2 (N.eqb_neq _ _) Hd) in H2. fold (segt t qSR') in H2.
        destruct H2 as [(m & Hc & Hne & Hnr)|(buf & Hr & _)].
        * left. exists m. split; [done|]. split; [done|]. intros buf tid Hr. cbn in Hr.
          destruct (Hnewrecv _ _ Hr) as [-> |Hr']; [done|]. by eapply Hnr.
        * exfalso. subst o. cbn [receive] in Ha. rewrite Hr in Ha. destruct (f_start _); [done|].
          rewrite (proj2 (N.eqb_neq t (xs_tid d))) in Ha by congruence. done.
    - (* TransferRequest *)
      destruct Hst as (-> & Hrf & id & Hid & Hrefu & Hz & Hreq). split; [done|]. split; [done|]. exists id.
      split; [done|]. specialize (Hreq Et).
      destruct (N.eq_dec (xs_tid d) t) as [Hd|Hd].
      + unfold segt in Hreq. cbn in Hreq. rewrite (proj2 (N.eqb_eq _ _) Hd) in Hreq. fold (segt t qSR') in Hreq.
        destruct Hreq as [(Hsg & Hnr & Hna)|[([=] & _)|([=] & _)]].
        injection Hsg as -> Hrest. rewrite Hrest. rewrite Hna in *.
        subst o. cbn [receive start_seg xs_flags f_start f_end xs_ext xs_tid xs_len xs_buf] in *.
        destruct (s_recv R) as [|buf' tid'|] eqn:Er; cbn [negb] in *.
        * unfold refused in *. cbn [existsb x_data orb] in *. rewrite orb_false_r in *.
          destruct (rfR && has id) eqn:Erf; cbn [fst snd] in *.
          -- apply andb_true_iff in Erf as [Erf Hhas]. split; [|split].
             ++ intros _. split; [done|]. split; [done|]. exists id, has. split; [done|]. split; [|done].
                apply elem_of_app. right. left.
             ++ rewrite ackt_app, Hna. cbn. constructor.
             ++ intros _. right. right. split; [done|]. split; [|split; [by rewrite ackt_app, Hna|]].
                ** intros buf tid Hr. cbn in Hr. rewrite Er in Hr. done.
                ** eexists. apply elem_of_app. right. by left.
          -- split; [|split].
             ++ intros [Hx|[r Hx]]%reft_app; [by apply held_app, Hrefu|]. cbn in Hx. by apply elem_of_list_singleton in Hx.
             ++ rewrite ackt_app, Hna. cbn. rewrite N.eqb_refl. by repeat constructor.
             ++ intros _. right. left. split; [done|]. split; [done|]. rewrite ackt_app, Hna. cbn. by rewrite N.eqb_refl.
        * cbn [fst snd msgs omap list_omap] in *. rewrite !app_nil_r. split; [intros Hx; by apply held_app, Hrefu|].
          rewrite Hna. split; [done|]. done.
        * cbn [fst snd msgs omap list_omap] in *. rewrite !app_nil_r. split; [intros Hx; by apply held_app, Hrefu|].
          rewrite Hna. split; [done|]. done.
      + rewrite ackt_app, (ackt_other t (msgs (snd o))), app_nil_r by (intros f tid l Hx; rewrite (Hra _ _ _ Hx); done).
        split; [|split; [done|]].
        * intros [Hx|[r Hx]]%reft_app; [by apply held_app, Hrefu|]. apply Hrr in Hx. congruence.
        * intros Ha. unfold segt in Hreq. cbn in Hreq.
          rewrite (proj2 (N.eqb_neq _ _) Hd) in Hreq. fold (segt t qSR') in Hreq.
          assert (Hnr' : not_recv R t -> not_recv (set_ka (fst o) false false) t).
          { intros Hnr buf tid Hr. cbn in Hr. destruct (Hnewrecv _ _ Hr) as [-> |Hr']; [done|]. by eapply Hnr. }
          destruct Hreq as [(H1 & H2 & H3)|[(H1 & H2 & _)|(H1 & H2 & H3 & H4)]].
          -- left. auto.
          -- exfalso. subst o. cbn [receive] in Ha. rewrite H2 in Ha. destruct (f_start _); [done|].
             rewrite (proj2 (N.eqb_neq t (xs_tid d))) in Ha by congruence. done.
          -- right. right. split; [done|]. split; [auto|]. split; [done|]. apply reft_app. by left.
  Qed.
End Dir.

(** ** The system *)
Section System.
  Variable parse_id : bytes -> option bytes.
  Variable data_of : nat -> bytes.
  Variable refuse : side -> bool.
  Variable mru : side -> N.

  Definition dir (p : pair) (x : side) : Prop :=
    let S := get p x in let R := get p (other x) in
    dir_inv parse_id data_of (refuse x) (refuse (other x)) (n_sess S) (n_sess R) (n_out S) (n_out R)
      (n_log S) (n_log R) (n_stores R).

  Lemma dir_init x : dir pair0 x.
  Proof.
    destruct x; (split; cbn; [intros ? Hd|intros ?? [=]|intros ??? Hd|intros ?? Hd|intros ? Hd|done]);
      by apply elem_of_nil in Hd.
  Qed.

  (** a step of side [x] with event [e], messages taken from the other side's
      output *)
  Lemma dir_step p x e q' :
    (forall y, dir p y) -> popped (n_out (get p (other x))) q' e ->
    match e with EvSubmit d h _ => d = data_of h | _ => True end ->
    let o := get p (other x) in
    forall y, dir (put (put p (other x) (Node (n_sess o) q' (n_log o) (n_stores o))) x
         (react parse_id refuse mru x (get p x) e (snaps e))) y.
  Proof.
    intros Hp Hpop Hsub o y. assert (Hyx : y = x \/ y = other x) by (destruct x, y; auto). destruct Hyx as [->|Hyx].
    - pose proof (sender_step parse_id data_of (refuse x) (refuse (other x)) (mru x) (mru (other x))) as H.
      specialize (H _ _ _ _ _ _ _ _ e (Hp x) Hpop Hsub).
      destruct x; exact H.
    - subst y.
      pose proof (receiver_step parse_id data_of (refuse (other x)) (refuse x) (mru x)) as H.
      specialize (Hp (other x)). unfold dir in Hp. cbv zeta in Hp.
      replace (other (other x)) with x in Hp by (by destruct x).
      specialize (H _ _ _ _ _ _ _ _ e Hp Hpop). destruct x; exact H.
  Qed.

  Lemma put_same p x : put p (other x) (Node (n_sess (get p (other x))) (n_out (get p (other x))) (n_log (get p (other x))) (n_stores (get p (other x)))) = p.
  Proof. destruct p as [[] []], x; done. Qed.

  Lemma sys_step_dir p e : (forall y, dir p y) -> forall y, dir (sys_step parse_id data_of refuse mru p e) y.
  Proof.
    intros Hp. destruct e as [x has resp|x h resp|x|x|x]; cbn [sys_step].
    - destruct (n_out (get p (other x))) as [|m q] eqn:E; [done|].
      pose proof (dir_step p x (EvPacket m has resp) q Hp E I) as H. cbv zeta in H.
      unfold pop. rewrite E. exact H.
    - pose proof (dir_step p x (EvSubmit (data_of h) h resp) _ Hp eq_refl eq_refl) as H. cbv zeta in H.
      rewrite put_same in H. exact H.
    - pose proof (dir_step p x EvTimeout _ Hp eq_refl I) as H. cbv zeta in H. rewrite put_same in H. exact H.
    - pose proof (dir_step p x EvQueueClosed _ Hp eq_refl I) as H. cbv zeta in H. rewrite put_same in H. exact H.
    - pose proof (dir_step p x EvReadErr _ Hp eq_refl I) as H. cbv zeta in H. rewrite put_same in H. exact H.
  Qed.

  Theorem success_means_received es x h :
    EVerdict h Successful ∈ n_log (get (sys_run parse_id data_of refuse mru es) x) ->
    let peer := get (sys_run parse_id data_of refuse mru es) (other x) in
    received parse_id (n_log peer) (data_of h) \/
    held parse_id (refuse x) (refuse (other x)) (n_stores peer) (data_of h).
  Proof.
    assert (Hd : forall y, dir (sys_run parse_id data_of refuse mru es) y).
    { unfold sys_run. induction es as [|e es IH] using rev_ind; [apply dir_init|].
      rewrite fold_left_app. by apply sys_step_dir. }
    intros H. exact (di_verdict _ _ _ _ _ _ _ _ _ _ _ (Hd x) h H).
  Qed.
End System.

(** ** When nothing is under way, nothing is being sent *)
Section Quiescent.
  Variable parse_id : bytes -> option bytes.
  Variable data_of : nat -> bytes.
  Variable refuse : side -> bool.
  Variable mru : side -> N.
  Lemma sys_dir es y : dir parse_id data_of refuse (sys_run parse_id data_of refuse mru es) y.
  Proof.
    revert y. unfold sys_run. induction es as [|e es IH] using rev_ind; [apply dir_init|].
    rewrite fold_left_app. by apply sys_step_dir.
  Qed.
  Theorem quiescent_idle es x :
    let p := sys_run parse_id data_of refuse mru es in
    (forall y, is_terminated (n_sess (get p y)) = false) -> (forall y, n_out (get p y) = []) ->
    s_send (n_sess (get p x)) = SIdle.
  Proof.
    intros p Ht Hq. pose proof (di_state _ _ _ _ _ _ _ _ _ _ _ (sys_dir es x)) as H. fold p in H. unfold state_inv in H. cbv zeta in H.
    specialize (H (Ht x)). rewrite !Hq in H. pose proof (Ht x) as Hx. unfold is_terminated in Hx.
    destruct (s_send (n_sess (get p x))) as [|len h|d h|]; [done| | |by destruct (s_recv _)]; exfalso.
    - destruct H as [_ [[_ H]|[_ H]]]; specialize (H (Ht _)).
      + by apply Exists_nil in H.
      + destruct H as [(m & Hc & Hn & _)|(buf & _ & _ & Hs & _)]; [|done]. apply Hn. by destruct Hc as [<- _ _ _].
    - destruct H as (_ & _ & id & _ & _ & _ & H). destruct (H (Ht _)) as [([=] & _)|[(_ & _ & Hn)|(_ & _ & _ & [r Hr])]]; [done|].
      by apply elem_of_nil in Hr.
  Qed.
End Quiescent.
