(** Two sessions without faults: valid bundles, waiting submitters, no timeouts,
    closings or failures. *)
From stdpp Require Import prelude.
From Coq Require Import NArith Lia ZifyNat ZifyN ZifyBool.
From Verif Require Import Bytes TcpclWire TcpclSession TcpclSessionProofs TcpclPair TcpclPairProofs.
Open Scope N_scope.

Definition segs_of (q : list packet) : list xfer_seg := omap (fun p => match p with PXferSeg d => Some d | _ => None end) q.
Definition acks_of (q : list packet) : list packet := filter (fun p => is_ack p = true) q.
Lemma segs_app a b : segs_of (a ++ b) = segs_of a ++ segs_of b.
Proof. apply omap_app. Qed.
Lemma acks_app a b : acks_of (a ++ b) = acks_of a ++ acks_of b.
Proof. apply filter_app. Qed.
Lemma segs_none q : no_segs q -> segs_of q = [].
Proof.
  intros H. induction q as [|p q IH]; [done|]. cbn. assert (Hq : segs_of q = []) by (apply IH; intros d Hd; apply (H d); by right).
  destruct p; try done. exfalso. apply (H d). left.
Qed.
Lemma acks_none q : no_acks q -> acks_of q = [].
Proof.
  intros [H1 H2]. induction q as [|p q IH]; [done|].
  assert (Hq : acks_of q = []) by (apply IH; [intros f t l Hd; apply (H1 f t l); by right|intros r t Hd; apply (H2 r t); by right]).
  unfold acks_of in *. rewrite filter_cons, Hq. destruct (decide (is_ack p = true)) as [Hp|]; [|done]. exfalso. destruct p; try done; [eapply H1|eapply H2]; by left.
Qed.
Lemma segs_map l : segs_of (map PXferSeg l) = l.
Proof. induction l as [|d l IH]; [done|]. cbn. f_equal. exact IH. Qed.

Section Clean.
  Variable parse_id : bytes -> option bytes.
  Variable data_of : nat -> bytes.
  Variable rfS rfR : bool.
  Notation stepS := (step parse_id rfS 64000).
  Notation stepR := (step parse_id rfR 64000).

  Definition part_ack (t len : N) (p : packet) : Prop := exists f l, p = PXferAck f t l /\ l < len.
  Definition transfer_on (S R : session) (segs : list xfer_seg) (acks : list packet) : Prop :=
    let t := s_last_tid S in
    match s_send S with
    | SIdle => segs = [] /\ acks = [] /\ s_recv R = RIdle
    | Sending len h =>
        let d := data_of h in
        parse_id d <> None /\ d <> [] /\ len = blen d /\
        ((s_recv R = RIdle /\ (exists m, carries segs true m t d) /\ acks = []) \/
         (exists buf, s_recv R = Receiving buf t /\ rest_ok t segs /\ segs <> [] /\ buf ++ concat (map xs_buf segs) = d /\ Forall (part_ack t len) acks) \/
         (s_recv R = RIdle /\ segs = [] /\ exists l f, acks = l ++ [PXferAck f t len] /\ Forall (part_ack t len) l))
    | TransferRequest d h =>
        d = data_of h /\ parse_id d <> None /\ d <> [] /\ rfS = true /\
        ((exists id, segs = [start_seg t id] /\ s_recv R = RIdle /\ acks = []) \/
         (segs = [] /\ s_recv R = Receiving [] t /\ exists f, acks = [PXferAck f t 0]) \/
         (segs = [] /\ s_recv R = RIdle /\ exists r, acks = [PXferRefuse r t]))
    | STerminated => False
    end.
  (** the receiver reads a segment *)
  Lemma recv_clean S R d segs acks has resp : transfer_on S R (d :: segs) acks -> is_terminated R = false ->
    let r := stepR R (EvPacket (PXferSeg d) has resp) in
    transfer_on S (fst r) segs (acks ++ acks_of (msgs (snd r))) /\ is_terminated (fst r) = false /\ Forall (fun p => is_ack p = true) (msgs (snd r)).
  Proof.
    intros H Ht. unfold TcpclSession.step. rewrite Ht. unfold transfer_on in *. cbv zeta in *.
    assert (Hts : s_send R <> STerminated) by (intros E; unfold is_terminated in Ht; rewrite E in Ht; by destruct (s_recv R)).
    destruct (s_send S) as [|len h|data h|]; [by destruct H as [[=] _]| | |done].
    - destruct H as (Hp & Hd & -> & [(Hr & (m & Hc) & ->)|[(buf & Hr & [Hpr Hnn] & _ & Hcat & Hacks)|(_ & [=] & _)]]).
      + destruct Hc as [Hc1 Hc2 Hc3 Hc4].
        pose proof (Hc3 0%nat d eq_refl) as Hs0. rewrite bool_decide_eq_true_2 in Hs0 by done. cbn in Hs0.
        pose proof (Hc4 0%nat d eq_refl) as He0.
        pose proof Hc2 as Hc2'. apply Forall_cons in Hc2 as [(Hz & Hlen & Htid & Hext) Hc2].
        cbn [TcpclSession.receive]. rewrite Hr, Hs0. cbn [negb].
        replace (refused rfR has (xs_ext d)) with false by (rewrite Hext; unfold refused; cbn; by rewrite andb_false_r).
        rewrite He0. destruct segs as [|d2 rest].
        * rewrite bool_decide_eq_true_2 by done. cbn [fst snd]. cbn in Hc1. rewrite app_nil_r in Hc1. rewrite Hc1. unfold process_bundle.
          destruct (parse_id (data_of h)) as [id|]; [|done]. cbn. rewrite Htid, Hlen, Hc1.
          split; [|split; [unfold is_terminated; cbn; by destruct (s_send R)|repeat constructor]].
          split; [done|]. split; [done|]. split; [done|]. right; right. split; [done|]. split; [done|]. by eexists [], _.
        * rewrite bool_decide_eq_false_2 by (intros [=]). cbn [fst snd msgs omap list_omap].
          split; [|split; [unfold is_terminated; cbn; by destruct (s_send R)|repeat constructor]].
          split; [done|]. split; [done|]. split; [done|]. right; left. exists (xs_buf d). cbn. rewrite Htid. split; [done|]. split; [split; [split|]|].
          -- intros s Hin. pose proof Hin as Hin'. rewrite Forall_forall in Hc2. destruct (Hc2 s Hin) as (_ & _ & ? & _).
             apply elem_of_list_lookup in Hin as [i Hi]. split; [|done]. rewrite (Hc3 (Datatypes.S i) s Hi). done.
          -- intros i s Hi. rewrite (Hc4 (Datatypes.S i) s Hi). apply bool_decide_ext. cbn. lia.
          -- eapply Forall_impl; [exact Hc2|]. cbn. intros s (Hzs & _) Hn. rewrite Hn in Hzs. unfold blen in Hzs. cbn in Hzs. lia.
          -- split; [done|]. split; [exact Hc1|]. repeat constructor. eexists _, _. split; [done|].
             rewrite Hlen, <- Hc1. cbn. rewrite !blen_app. apply Forall_cons in Hc2 as [(Hz2 & _) _]. lia.
      + apply plain_rest_cons in Hpr as (Hs0 & Htid & He0 & Hpr). apply Forall_cons in Hnn as [Hn0 Hnn].
        cbn [TcpclSession.receive]. rewrite Hr, Hs0, Htid, N.eqb_refl. cbn [negb]. rewrite He0. destruct segs as [|d2 rest].
        * rewrite bool_decide_eq_true_2 by done. cbn [fst snd]. cbn in Hcat. rewrite app_nil_r in Hcat. rewrite Hcat. unfold process_bundle.
          destruct (parse_id (data_of h)) as [id|]; [|done]. cbn.
          split; [|split; [unfold is_terminated; cbn; by destruct (s_send R)|repeat constructor]].
          split; [done|]. split; [done|]. split; [done|]. right; right. split; [done|]. split; [done|]. by eexists acks, _.
        * rewrite bool_decide_eq_false_2 by done. cbn [fst snd msgs omap list_omap].
          split; [|split; [unfold is_terminated; cbn; by destruct (s_send R)|repeat constructor]].
          split; [done|]. split; [done|]. split; [done|]. right; left. exists (buf ++ xs_buf d). split; [done|]. split; [done|]. split; [done|].
          split; [rewrite <- Hcat; cbn; by rewrite <- !app_assoc|]. apply Forall_app. split; [done|]. cbn. repeat constructor. eexists _, _. split; [done|].
          rewrite <- Hcat. cbn. rewrite !blen_app. apply Forall_cons in Hnn as [Hn2 _]. destruct (xs_buf d2); [done|]. unfold blen. cbn [length]. lia.
    - destruct H as (-> & Hp & Hd & Hrf & [(id & Hsg & Hr & ->)|[([=] & _)|([=] & _)]]). injection Hsg as -> ->.
      cbn [TcpclSession.receive start_seg xs_flags f_start f_end xs_ext xs_tid xs_len xs_buf]. rewrite Hr. cbn [negb].
      destruct (refused rfR has _); cbn [fst snd msgs omap list_omap].
      + split; [|split; [unfold is_terminated; cbn; rewrite Hr; by destruct (s_send R)|repeat constructor]].
        split; [done|]. split; [done|]. split; [done|]. split; [done|]. right; right. split; [done|]. split; [done|]. by eexists.
      + split; [|split; [unfold is_terminated; cbn; by destruct (s_send R)|repeat constructor]].
        split; [done|]. split; [done|]. split; [done|]. split; [done|]. right; left. split; [done|]. split; [done|]. by eexists.
  Qed.

  Lemma segments_ne rf t d : d <> [] -> segments rf 64000 t d <> [].
  Proof. intros Hd E. apply segments_nil in E; [done|lia]. Qed.
  Lemma plain_segs l : Forall (fun p => is_seg p = true) (map PXferSeg l).
  Proof. apply Forall_forall. by intros p (d & -> & _)%elem_of_list_fmap. Qed.
  Lemma noacks_segs l : no_acks (map PXferSeg l).
  Proof. split; intros; intros (d & [=] & _)%elem_of_list_fmap. Qed.
  (** the sender reads an acknowledgement or a refusal *)
  Lemma send_clean S R p segs acks has : transfer_on S R segs (p :: acks) -> is_terminated S = false ->
    let r := stepS S (EvPacket p has true) in
    transfer_on (fst r) R (segs ++ segs_of (msgs (snd r))) acks /\ is_terminated (fst r) = false /\ Forall (fun p => is_seg p = true) (msgs (snd r)) /\
    (forall h v, EVerdict h v ∈ snd r -> v = Successful).
  Proof.
    intros H Ht. assert (Hr : s_recv S <> RTerminated) by (intros E; unfold is_terminated in Ht; by rewrite E in Ht).
    unfold transfer_on in H. cbv zeta in H.
    destruct (s_send S) as [|len h|data h|] eqn:Es; [by destruct H as (_ & [=] & _)| | |done].
    - destruct H as (Hp & Hd & -> & [(_ & _ & [=])|[(buf & HR & Hro & Hne & Hcat & Hacks)|(HR & -> & l & f & Hl & Hacks)]]).
      + apply Forall_cons in Hacks as [(f & n & -> & Hn) Hacks]. unfold TcpclSession.step. rewrite Ht. cbn [TcpclSession.receive]. rewrite Es, N.eqb_refl. cbn [negb].
        destruct (N.ltb_spec n (blen (data_of h))); [|lia]. cbn. rewrite app_nil_r. split; [|split; [unfold is_terminated; cbn; rewrite Es; by destruct (s_recv S)|split; [constructor|intros ? ? []%elem_of_nil]]].
        unfold transfer_on. cbn. rewrite Es. split; [done|]. split; [done|]. split; [done|]. right; left. by exists buf.
      + destruct l as [|p' l].
        * injection Hl as -> ->. unfold TcpclSession.step. rewrite Ht. cbn [TcpclSession.receive]. rewrite Es, N.eqb_refl. cbn [negb].
          destruct (N.ltb_spec (blen (data_of h)) (blen (data_of h))); [lia|]. cbn. split; [done|]. split; [unfold is_terminated; cbn; by destruct (s_recv S)|]. split; [constructor|].
          intros h' v Hv. apply elem_of_list_singleton in Hv. congruence.
        * injection Hl as <- ->. apply Forall_cons in Hacks as [(f' & n & -> & Hn) Hacks]. unfold TcpclSession.step. rewrite Ht. cbn [TcpclSession.receive]. rewrite Es, N.eqb_refl. cbn [negb].
          destruct (N.ltb_spec n (blen (data_of h))); [|lia]. cbn. split; [|split; [unfold is_terminated; cbn; rewrite Es; by destruct (s_recv S)|split; [constructor|intros ? ? []%elem_of_nil]]].
          unfold transfer_on. cbn. rewrite Es. split; [done|]. split; [done|]. split; [done|]. right; right. split; [done|]. split; [done|]. by exists l, f.
    - destruct H as (-> & Hp & Hd & Hrf & [(id & _ & _ & [=])|[(-> & HR & f & [= -> ->])|(-> & HR & r & [= -> ->])]]).
      + unfold TcpclSession.step. rewrite Ht. cbn [TcpclSession.receive]. rewrite Es, N.eqb_refl. cbn [negb]. unfold send_bundle. change (64000 =? 0) with false. cbv iota.
        rewrite bool_decide_eq_false_2 by (by apply segments_ne). cbn [fst snd]. rewrite msgs_segs, segs_map. rewrite Hrf.
        assert (Hm : 0 < 64000) by lia. pose proof (segments_carries true 64000 (s_last_tid S) (data_of h) Hm) as Hc. cbn [negb] in Hc.
        split; [|split; [unfold is_terminated; cbn; by destruct (s_recv S)|split; [apply plain_segs|intros ? ? (? & [=] & _)%elem_of_list_fmap]]].
        unfold transfer_on. cbn [set_ka set_states s_send s_last_tid]. split; [done|]. split; [done|]. split; [done|]. right; left. exists []. cbn [app].
        split; [done|]. split; [by eapply carries_rest|]. split; [by apply segments_ne|]. split; [apply Hc|constructor].
      + unfold TcpclSession.step. rewrite Ht. cbn [TcpclSession.receive]. rewrite Es, N.eqb_refl. cbn.
        split; [done|]. split; [unfold is_terminated; cbn; by destruct (s_recv S)|]. split; [constructor|]. intros h' v Hv. apply elem_of_list_singleton in Hv. congruence.
  Qed.
  (** a valid bundle is handed over *)
  Lemma submit_clean S R h segs acks resp : transfer_on S R segs acks -> is_terminated S = false -> parse_id (data_of h) <> None -> data_of h <> [] ->
    let r := stepS S (EvSubmit (data_of h) h resp) in
    transfer_on (fst r) R (segs ++ segs_of (msgs (snd r))) acks /\ is_terminated (fst r) = false /\ Forall (fun p => is_seg p = true) (msgs (snd r)) /\
    (forall h v, EVerdict h v ∈ snd r -> v = Successful).
  Proof.
    intros H Ht Hp Hd. assert (Hr : s_recv S <> RTerminated) by (intros E; unfold is_terminated in Ht; by rewrite E in Ht).
    unfold TcpclSession.step. rewrite Ht. destruct (s_send S) as [|len h'|data h'|] eqn:Es; cbn [fst snd].
    2,3,4: cbn; rewrite app_nil_r; split; [done|]; split; [done|]; split; [constructor|intros ? ? []%elem_of_nil].
    unfold transfer_on in H. cbv zeta in H. rewrite Es in H. destruct H as (-> & -> & HR). unfold send. destruct rfS eqn:Hrf.
    - destruct (parse_id (data_of h)) as [id|] eqn:Hid; [|done]. cbn. split; [|split; [unfold is_terminated; cbn; by destruct (s_recv S)|split; [repeat constructor|]]].
      + unfold transfer_on. cbn. split; [done|]. split; [by rewrite Hid|]. split; [done|]. split; [done|]. left. by exists id.
      + intros h' v Hv. by apply elem_of_list_singleton in Hv.
    - unfold send_bundle. change (64000 =? 0) with false. cbv iota. rewrite bool_decide_eq_false_2 by (by apply segments_ne). cbn [fst snd s_last_tid]. rewrite msgs_segs, segs_map.
      assert (Hm : 0 < 64000) by lia. pose proof (segments_carries false 64000 (s_last_tid S + 1) (data_of h) Hm) as Hc. cbn [negb] in Hc.
      split; [|split; [unfold is_terminated; cbn; by destruct (s_recv S)|split; [apply plain_segs|intros ? ? (? & [=] & _)%elem_of_list_fmap]]].
      unfold transfer_on. cbn [set_ka set_states s_send s_last_tid app]. split; [done|]. split; [done|]. split; [done|]. left. split; [done|]. split; [|done]. by exists 64000.
  Qed.
  Lemma transfer_on_ext S S' R R' segs acks : s_send S' = s_send S -> s_last_tid S' = s_last_tid S -> s_recv R' = s_recv R ->
    transfer_on S R segs acks -> transfer_on S' R' segs acks.
  Proof. unfold transfer_on. by intros -> -> ->. Qed.
End Clean.

Lemma segs_kind q : Forall (fun p => is_seg p = true) q -> acks_of q = [].
Proof. intros H. apply acks_none. rewrite Forall_forall in H. split; intros; intros Hi; by apply H in Hi. Qed.
Lemma acks_kind q : Forall (fun p => is_ack p = true) q -> segs_of q = [].
Proof. intros H. apply segs_none. rewrite Forall_forall in H. intros d Hi. by apply H in Hi. Qed.

Section CleanSys.
  Variable parse_id : bytes -> option bytes.
  Variable data_of : nat -> bytes.
  Variable refuse : side -> bool.
  Notation mru := (fun _ : side => 64000).
  Notation sys_run := (sys_run parse_id data_of refuse mru).
  Notation sys_step := (sys_step parse_id data_of refuse mru).

  (** only valid bundles, submitters wait for results, nothing else happens *)
  Definition faultless (e : sys_event) : Prop :=
    match e with
    | Deliver _ _ resp => resp = true
    | Submit _ h resp => parse_id (data_of h) <> None /\ data_of h <> []
    | _ => False
    end.
  Record clean (p : pair) : Prop := {
    cl_alive : forall x, is_terminated (n_sess (get p x)) = false;
    cl_kinds : forall x, Forall (fun m => is_seg m = true \/ is_ack m = true) (n_out (get p x));
    cl_on : forall x, transfer_on parse_id data_of (refuse x) (n_sess (get p x)) (n_sess (get p (other x)))
                                  (segs_of (n_out (get p x))) (acks_of (n_out (get p (other x))));
    cl_verdict : forall x h v, EVerdict h v ∈ n_log (get p x) -> v = Successful
  }.
  Lemma alive_recv s : is_terminated s = false -> s_recv s <> RTerminated.
  Proof. unfold is_terminated. intros H E. by rewrite E in H. Qed.
  Lemma alive_send s : is_terminated s = false -> s_send s <> STerminated.
  Proof. unfold is_terminated. intros H E. rewrite E in H. by destruct (s_recv s). Qed.
  Lemma gps p x n : get (put p x n) x = n.
  Proof. by destruct p, x. Qed.
  Lemma gpo p x n : get (put p x n) (other x) = get p (other x).
  Proof. by destruct p, x. Qed.
  Lemma gpo' p x n : get (put p (other x) n) x = get p x.
  Proof. by destruct p, x. Qed.
  Lemma oo x : other (other x) = x.
  Proof. by destruct x. Qed.
  Lemma sides x y : y = x \/ y = other x.
  Proof. destruct x, y; auto. Qed.

  Lemma clean_step p e : clean p -> faultless e -> clean (sys_step p e).
  Proof.
    intros [Ca Ck Co Cv] Hf. destruct e as [x has resp|x h resp|x|x|x]; [| |done|done|done].
    - cbn in Hf. subst resp. cbn [TcpclPair.sys_step]. destruct (n_out (get p (other x))) as [|m q] eqn:Eq; [by split|].
      pose proof (Ck (other x)) as Hk. rewrite Eq in Hk. apply Forall_cons in Hk as [Hm Hk].
      set (N2 := pop (get p (other x))). set (N1 := react _ _ _ x _ _ _).
      set (p' := put (put p (other x) N2) x N1).
      assert (G1 : get p' x = N1) by apply gps.
      assert (G2 : get p' (other x) = N2) by (unfold p'; by rewrite gpo, gps).
      set (r := step parse_id (refuse x) 64000 (n_sess (get p x)) (EvPacket m has true)).
      assert (E1 : n_sess N1 = fst r) by done. assert (E2 : n_out N1 = n_out (get p x) ++ msgs (snd r)) by done.
      assert (E3 : n_log N1 = n_log (get p x) ++ snd r) by done.
      assert (E4 : n_sess N2 = n_sess (get p (other x))) by done.
      assert (E5 : n_out N2 = q) by (unfold N2; cbn; by rewrite Eq).
      pose proof (Co x) as Cx. pose proof (Co (other x)) as Cy. rewrite oo in Cy. rewrite Eq in Cx, Cy.
      destruct Hm as [Hm|Hm].
      + (* a segment *)
        destruct m as [| | |d| | | |]; try discriminate Hm. change (segs_of (PXferSeg d :: q)) with (d :: segs_of q) in Cy.
        destruct (recv_clean parse_id data_of (refuse (other x)) (refuse x) _ _ d _ _ has true Cy (Ca x)) as (H1 & H2 & H3).
        fold r in H1, H2, H3.
        destruct (step_quiet_send parse_id (refuse x) 64000 (n_sess (get p x)) (EvPacket (PXferSeg d) has true) eq_refl) as (Q1 & Q2 & Q3 & Q4). fold r in Q1, Q2, Q3, Q4.
        destruct Q4 as [Q4|Q4]; [|by apply alive_send in H2].
        split.
        * intros y. destruct (sides x y) as [->| ->]; [by rewrite G1, E1|rewrite G2, E4; apply Ca].
        * intros y. destruct (sides x y) as [->| ->]; [|by rewrite G2, E5]. rewrite G1, E2. apply Forall_app. split; [apply Ck|].
          eapply Forall_impl; [exact H3|]. auto.
        * intros y. destruct (sides x y) as [->| ->].
          -- rewrite G1, G2, E1, E2, E4, E5, segs_app, (acks_kind _ H3), app_nil_r. eapply transfer_on_ext; [exact Q4|exact Q3|reflexivity|]. exact Cx.
          -- rewrite oo, G1, G2, E1, E2, E4, E5, acks_app. exact H1.
        * intros y h v. destruct (sides x y) as [->| ->]; [|rewrite G2; apply Cv]. rewrite G1, E3. intros [Hi|Hi]%elem_of_app; [by eapply Cv|]. by apply Q2 in Hi.
      + (* an acknowledgement or a refusal *)
        assert (Ea : acks_of (m :: q) = m :: acks_of q) by (unfold acks_of; rewrite filter_cons; by rewrite decide_True).
        assert (Es : segs_of (m :: q) = segs_of q) by (by destruct m).
        rewrite Ea in Cx. rewrite Es in Cy.
        destruct (send_clean parse_id data_of (refuse x) _ _ m _ _ has Cx (Ca x)) as (H1 & H2 & H3 & H4). fold r in H1, H2, H3, H4.
        assert (Q : quiet_recv (n_sess (get p x)) (fst r) (snd r)) by (apply step_quiet_recv; by destruct m).
        destruct Q as (_ & [Q|Q]); [|by apply alive_recv in H2].
        split.
        * intros y. destruct (sides x y) as [->| ->]; [by rewrite G1, E1|rewrite G2, E4; apply Ca].
        * intros y. destruct (sides x y) as [->| ->]; [|by rewrite G2, E5]. rewrite G1, E2. apply Forall_app. split; [apply Ck|].
          eapply Forall_impl; [exact H3|]. auto.
        * intros y. destruct (sides x y) as [->| ->].
          -- rewrite G1, G2, E1, E2, E4, E5, segs_app. exact H1.
          -- rewrite oo, G1, G2, E1, E2, E4, E5, acks_app, (segs_kind _ H3), app_nil_r. eapply transfer_on_ext; [reflexivity|reflexivity|exact Q|]. exact Cy.
        * intros y h v. destruct (sides x y) as [->| ->]; [|rewrite G2; apply Cv]. rewrite G1, E3. intros [Hi|Hi]%elem_of_app; [by eapply Cv|]. by eapply H4.
    - destruct Hf as (Hp & Hd). cbn [TcpclPair.sys_step]. set (N1 := react _ _ _ x _ _ _). set (p' := put p x N1).
      assert (G1 : get p' x = N1) by apply gps.
      assert (G2 : get p' (other x) = get p (other x)) by apply gpo.
      set (r := step parse_id (refuse x) 64000 (n_sess (get p x)) (EvSubmit (data_of h) h resp)).
      assert (E1 : n_sess N1 = fst r) by done. assert (E2 : n_out N1 = n_out (get p x) ++ msgs (snd r)) by done.
      assert (E3 : n_log N1 = n_log (get p x) ++ snd r) by done.
      destruct (submit_clean parse_id data_of (refuse x) _ _ h _ _ resp (Co x) (Ca x) Hp Hd) as (H1 & H2 & H3 & H4). fold r in H1, H2, H3, H4.
      assert (Q : quiet_recv (n_sess (get p x)) (fst r) (snd r)) by (by apply step_quiet_recv).
      destruct Q as (_ & [Q|Q]); [|by apply alive_recv in H2].
      split.
      + intros y. destruct (sides x y) as [->| ->]; [by rewrite G1, E1|rewrite G2; apply Ca].
      + intros y. destruct (sides x y) as [->| ->]; [|by rewrite G2]. rewrite G1, E2. apply Forall_app. split; [apply Ck|].
        eapply Forall_impl; [exact H3|]. auto.
      + intros y. destruct (sides x y) as [->| ->].
        * rewrite G1, G2, E1, E2, segs_app. exact H1.
        * rewrite oo, G1, G2, E1, E2, acks_app, (segs_kind _ H3), app_nil_r. eapply transfer_on_ext; [reflexivity|reflexivity|exact Q|].
          pose proof (Co (other x)) as Cy. by rewrite oo in Cy.
      + intros y h' v. destruct (sides x y) as [->| ->]; [|rewrite G2; apply Cv]. rewrite G1, E3. intros [Hi|Hi]%elem_of_app; [by eapply Cv|]. by eapply H4.
  Qed.
  Lemma clean_run es : Forall faultless es -> clean (sys_run es).
  Proof.
    unfold TcpclPair.sys_run. induction es as [|e es IH] using rev_ind; intros H.
    - split; try (by intros []); try (intros []; constructor). all: intros [] h v Hi; by apply elem_of_nil in Hi.
    - apply Forall_app in H as [H He]. apply Forall_cons in He as [He _]. rewrite fold_left_app. apply clean_step; [by apply IH|done].
  Qed.
End CleanSys.
