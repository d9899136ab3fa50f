(** Proofs for C08, C54, C55, C56. *)
From Verif Require Import Bytes TcpclWire TcpclWireProofs TcpclSession TcpclSessionProofs TcpclCancel.
From stdpp Require Import prelude.
From Coq Require Import NArith Lia ZifyNat ZifyN ZifyBool.
Open Scope N_scope.

(** ** C08: no segment larger than announced *)
Section Bound.
  Variable parse_id : bytes -> option bytes.
  Variable refuse : bool.
  Variable mru : N.
  Definition small (es : list eff) : Prop := Forall (fun d => blen (xs_buf d) <= mru) (omap sent_of es).

  Lemma small_segments tid data : 0 < mru -> Forall (fun d => blen (xs_buf d) <= mru) (segments refuse mru tid data).
  Proof.
    intros Hm. destruct (segments_carries refuse mru tid data Hm) as [_ Hs _ _].
    eapply Forall_impl; [exact Hs|]. cbn. tauto.
  Qed.
  Lemma small_process buf tid : small (process_bundle parse_id buf tid).
  Proof. unfold small. rewrite process_bundle_sent. constructor. Qed.
  Lemma small_send_bundle s data h resp :
    match send_bundle refuse mru s data h resp with (Some (_, es), _) => small es | (None, es) => small es end.
  Proof.
    pose proof (send_bundle_spec parse_id refuse mru s data h resp) as H.
    destruct (send_bundle _ _ _ _ _ _) as [[[x es]|] es']; unfold small.
    - destruct H as [(_ & _ & ->)|(_ & _ & Hm & ->)]; [constructor|by apply small_segments].
    - destruct H as [_ ->]. constructor.
  Qed.
  Lemma small_step s e : small (snd (step parse_id refuse mru s e)).
  Proof.
    unfold step. destruct (is_terminated s); [constructor|]. destruct e as [p has resp| |data h resp| |].
    - assert (Hr : small (snd (receive parse_id refuse mru s has resp p))).
      { destruct p as [t|d|reply r|d|f tid len|r tid| |r h]; cbn [receive]; try constructor.
        - destruct reply; constructor.
        - destruct (s_recv s); repeat match goal with |- context [if ?b then _ else _] => destruct b end;
            try constructor; try apply small_process.
        - pose proof (fun data h => small_send_bundle s data h resp) as Hsb.
          destruct (s_send s); repeat match goal with |- context [if ?b then _ else _] => destruct b end;
            try constructor; specialize (Hsb data h);
            destruct (send_bundle _ _ _ _ _ _) as [[[x es]|] es']; exact Hsb.
        - destruct (s_send s); repeat match goal with |- context [if ?b then _ else _] => destruct b end; constructor. }
      destruct p; try exact Hr. destruct (s_ka_sent s); constructor.
    - constructor.
    - destruct (s_send s); try constructor. cbn [fst snd]. unfold send. destruct refuse eqn:E.
      + destruct (parse_id data); cbn; [|constructor]. unfold small. cbn. constructor; [cbn; unfold blen; cbn; lia|constructor].
      + set (s1 := Session _ _ _ _ _). pose proof (small_send_bundle s1 data h resp) as Hsb. rewrite E in Hsb.
        destruct (send_bundle _ _ _ _ _ _) as [[[x es]|] es']; exact Hsb.
    - destruct (s_send s); constructor.
    - destruct (s_ka_recv s), (s_ka_sent s); constructor.
  Qed.
  Theorem segments_bounded s es : small (snd (run parse_id refuse mru s es)).
  Proof.
    revert s. induction es as [|e es IH]; intros s; cbn [run]; [constructor|]. cbn [snd].
    unfold small. rewrite omap_app. apply Forall_app. split; [apply small_step|apply IH].
  Qed.
End Bound.

(** ** C54: the extension list *)
(** one extension item of any type *)
Definition raw_item : Type := N * N * bytes.
Definition raw_ok (x : raw_item) : Prop := x.1.1 < 256 /\ x.1.2 < 2^16 /\ blen x.2 < 2^16.
Definition enc_item (x : raw_item) : bytes := [x.1.1] ++ be 2 x.1.2 ++ be 2 (blen x.2) ++ x.2.
(** the items the receiver understands *)
Definition known (l : list raw_item) : list ext_item :=
  omap (fun x => if x.1.2 =? 1 then Some (ExtItem (N.testbit x.1.1 0) x.2) else None) l.

Lemma enc_item_len x : blen (enc_item x) = 5 + blen x.2.
Proof. unfold enc_item. rewrite !blen_app, !blen_be. unfold blen. cbn. lia. Qed.

Lemma read_exts_items items : forall fuel tail acc rest,
  Forall raw_ok items -> blen tail < 5 -> blen (concat (map enc_item items) ++ tail) < 2^32 ->
  (length (concat (map enc_item items) ++ tail ++ rest) < fuel)%nat ->
  read_exts fuel (blen (concat (map enc_item items) ++ tail)) acc (concat (map enc_item items) ++ tail ++ rest) =
    ROk (acc ++ known items, blen tail) (tail ++ rest).
Proof.
  induction items as [|x items IH]; intros fuel tail acc rest Hok Ht Hlen Hfuel.
  - destruct fuel as [|fuel]; [lia|]. rewrite read_exts_unfold. cbn [map concat app].
    destruct (blen tail <? 5) eqn:E; [|lia]. cbn. by rewrite app_nil_r.
  - destruct fuel as [|fuel]; [lia|]. rewrite read_exts_unfold.
    apply Forall_cons in Hok as [(H1 & H2 & H3) Hok].
    set (body := concat (map enc_item items)) in *.
    cbn [map concat] in *. fold body in Hlen, Hfuel |- *. rewrite <- !app_assoc in *.
    assert (Hl : blen (enc_item x ++ body ++ tail) = 5 + blen x.2 + blen (body ++ tail))
      by (rewrite blen_app, enc_item_len; lia).
    rewrite Hl in *. destruct (_ <? 5) eqn:E; [lia|]. clear E.
    unfold enc_item at 1. rewrite <- !app_assoc. cbn [app]. rewrite read_u8. cbn [rbind].
    rewrite read_uint_be by (exact H2). cbn [rbind]. rewrite read_uint_be by (exact H3). cbn [rbind].
    rewrite read_exact_app. cbn [rbind].
    replace ((5 + blen x.2 + blen (body ++ tail) + 2 ^ 32 - 5 - blen x.2) mod 2 ^ 32) with (blen (body ++ tail)).
    2:{ replace (5 + blen x.2 + blen (body ++ tail) + 2 ^ 32 - 5 - blen x.2) with (blen (body ++ tail) + 1 * 2 ^ 32) by lia.
        rewrite N.mod_add by lia. rewrite N.mod_small by lia. done. }
    rewrite IH; [|done|done|lia|].
    + unfold known at 2. cbn. destruct (x.1.2 =? 1); [|done]. by rewrite <- app_assoc.
    + rewrite app_length in Hfuel. pose proof (enc_item_len x) as He. unfold blen in He. lia.
Qed.

Lemma ext_block_items f items tail rest :
  f_start f = true -> Forall raw_ok items -> blen tail < 5 ->
  blen (concat (map enc_item items) ++ tail) < 2^32 ->
  let body := concat (map enc_item items) ++ tail in
  read_ext_block f (be 4 (blen body) ++ body ++ rest) = ROk (known items) rest.
Proof.
  intros Hf Hok Ht Hlen. cbv zeta. unfold read_ext_block. rewrite Hf.
  rewrite read_uint_be by exact Hlen. cbn [rbind]. rewrite <- app_assoc.
  rewrite read_exts_items; [|done|done|done|lia]. cbn [rbind fst snd app].
  rewrite read_exact_app. done.
Qed.

(** ** C55: reading with abandoned futures *)
Section Cancel.
  Variable utf8_lossy : bytes -> bytes.
  Notation read := (read utf8_lossy).
  Notation drain := (drain utf8_lossy).
  Notation io_step := (io_step utf8_lossy).
  Notation io_run := (io_run utf8_lossy).

  Lemma read_nil : read [] = RWait.
  Proof. done. Qed.
  Lemma write_nonempty p : write p <> [].
  Proof. destruct p; done. Qed.
  Definition stream (ps : list packet) : bytes := concat (map write ps).
  Lemma stream_app a b : stream (a ++ b) = stream a ++ stream b.
  Proof. unfold stream. by rewrite map_app, concat_app. Qed.
  Lemma stream_length ps : (length ps <= length (stream ps))%nat.
  Proof.
    induction ps as [|p ps IH]; [done|]. unfold stream in *. cbn [map concat]. rewrite app_length.
    pose proof (write_nonempty p). destruct (write p); [done|]. cbn. lia.
  Qed.

  Lemma drain_stream ps pre : forall fuel, Forall (wf_packet utf8_lossy) ps -> (length ps < fuel)%nat -> read pre = RWait ->
    drain fuel (stream ps ++ pre) = (ps, pre, false).
  Proof.
    induction ps as [|p ps IH]; intros fuel Hwf Hf Hw.
    - destruct fuel; [cbn in Hf; lia|]. cbn. by rewrite Hw.
    - apply Forall_cons in Hwf as [Hp Hps]. destruct fuel as [|fuel]; [cbn in Hf; lia|].
      unfold stream. cbn [map concat TcpclCancel.drain]. rewrite <- app_assoc, read_write by done.
      fold (stream ps). rewrite IH by (done || (cbn in Hf; lia)). done.
  Qed.

  (** a prefix of a stream is some whole messages and an undecided rest *)
  Lemma stream_prefix ps : forall t suf, Forall (wf_packet utf8_lossy) ps -> t ++ suf = stream ps ->
    exists p1 p2 pre, ps = p1 ++ p2 /\ t = stream p1 ++ pre /\ read pre = RWait /\ pre ++ suf = stream p2.
  Proof.
    induction ps as [|p ps IH]; intros t suf Hwf Ht.
    - exists [], [], t. apply app_eq_nil in Ht as [-> ->]. done.
    - pose proof Hwf as Hwf'. apply Forall_cons in Hwf as [Hp Hps]. change (stream (p :: ps)) with (write p ++ stream ps) in Ht.
      apply app_eq_inv in Ht as [(k & -> & Hk)|(k & Hk & ->)].
      + destruct (IH k suf Hps ltac:(congruence)) as (p1 & p2 & pre & -> & -> & Hr & Hs).
        exists (p :: p1), p2, pre. split; [done|]. split; [|done].
        unfold stream. cbn [map concat]. by rewrite app_assoc.
      + destruct k as [|b k].
        * rewrite app_nil_r in Hk. subst t. destruct (IH [] (stream ps) Hps eq_refl) as (p1 & p2 & pre & -> & H0 & Hr & Hs).
          exists [p], (p1 ++ p2), []. split; [done|]. split; [|done]. unfold stream. cbn [map concat]. by rewrite !app_nil_r.
        * exists [], (p :: ps), t. split; [done|]. split; [done|]. split; [by eapply read_prefix|].
          change (stream (p :: ps)) with (write p ++ stream ps). by rewrite Hk, app_assoc.
  Qed.
  Lemma wait_nil qs rest : Forall (wf_packet utf8_lossy) qs -> read (stream qs ++ rest) = RWait -> qs = [].
  Proof.
    intros Hwf Hr. destruct qs as [|q qs]; [done|]. apply Forall_cons in Hwf as [Hq _].
    unfold stream in Hr. cbn [map concat] in Hr. rewrite <- app_assoc, read_write in Hr by done. done.
  Qed.

  Lemma run_stream es : forall done qs pre,
    Forall (wf_packet utf8_lossy) qs -> read pre = RWait -> pre ++ arrived es = stream qs ->
    (forall es1 es2, es = es1 ++ OtherBranch :: es2 -> exists k, pre ++ arrived es1 = stream (take k qs)) ->
    fold_left io_step es (Reader pre done false) = Reader [] (done ++ qs) false.
  Proof.
    induction es as [|e es IH]; intros done qs pre Hwf Hr Ha Hc.
    - cbn in Ha. rewrite app_nil_r in Ha. subst pre.
      rewrite <- (app_nil_r (stream qs)) in Hr. apply wait_nil in Hr; [|done]. subst. cbn. by rewrite app_nil_r.
    - destruct e as [b|].
      + change (arrived (Arrive b :: es)) with (b ++ arrived es) in Ha. rewrite app_assoc in Ha.
        destruct (stream_prefix qs _ _ Hwf Ha) as (p1 & p2 & pre' & -> & Hp & Hr' & Ha').
        apply Forall_app in Hwf as [Hw1 Hw2].
        cbn [fold_left]. unfold TcpclCancel.io_step at 2. cbn [r_broken r_held r_out].
        rewrite Hp, drain_stream; [|done| |done].
        2:{ rewrite app_length. pose proof (stream_length p1). lia. }
        rewrite (IH (done ++ p1) p2 pre'); [by rewrite app_assoc|done|done|done|].
        intros es1 es2 ->. destruct (Hc (Arrive b :: es1) es2 eq_refl) as [k Hk].
        change (arrived (Arrive b :: es1)) with (b ++ arrived es1) in Hk. rewrite app_assoc, Hp, <- app_assoc in Hk.
        destruct (decide (length p1 <= k)%nat) as [Hle|Hgt].
        * exists (k - length p1)%nat. rewrite take_app_ge, stream_app in Hk by done. by apply app_inv_head in Hk.
        * exfalso. apply (f_equal length) in Hk. rewrite take_app_le in Hk by lia.
          rewrite <- (take_drop k p1) in Hk at 1. rewrite stream_app, !app_length in Hk.
          pose proof (stream_length (drop k p1)). rewrite drop_length in *. lia.
      + destruct (Hc [] es eq_refl) as [k Hk]. cbn in Hk. rewrite app_nil_r in Hk.
        assert (Hn : take k qs = []).
        { apply (wait_nil _ []); [by apply Forall_take|]. by rewrite app_nil_r, <- Hk. }
        rewrite Hn in Hk. cbn in Hk. subst pre. cbn. apply IH; [done|done|exact Ha|].
        intros es1 es2 ->. exact (Hc (OtherBranch :: es1) es2 eq_refl).
  Qed.

  Theorem read_uninterrupted ps es :
    Forall (wf_packet utf8_lossy) ps -> arrived es = stream ps ->
    (forall es1 es2, es = es1 ++ OtherBranch :: es2 -> exists k, arrived es1 = stream (take k ps)) ->
    io_run es = Reader [] ps false.
  Proof. intros Hwf Ha Hc. exact (run_stream es [] ps [] Hwf eq_refl Ha Hc). Qed.
End Cancel.

(** ** C56: keepalives *)
Section Idle.
  Variable parse_id : bytes -> option bytes.
  Variable refuse : bool.
  Variable mru : N.
  Notation step := (step parse_id refuse mru).
  Notation run := (run parse_id refuse mru).

  (** once a keepalive has been received, the timer alone never ends a session *)
  Lemma timeouts_after_keepalive s has resp n :
    is_terminated s = false ->
    is_terminated (fst (run s (EvPacket PKeepAlive has resp :: replicate n EvTimeout))) = false.
  Proof.
    intros Ha. cbn [TcpclSession.run fst].
    assert (H : forall n s, is_terminated s = false -> s_ka_recv s = true ->
       is_terminated (fst (run s (replicate n EvTimeout))) = false).
    { clear. induction n as [|n IH]; intros s Ha Hk; [done|].
      cbn [replicate TcpclSession.run fst]. apply IH; unfold TcpclSession.step; rewrite Ha, Hk; done. }
    apply H; unfold TcpclSession.step; rewrite Ha; destruct (s_ka_sent s); done.
  Qed.

  Definition no_packet (e : event) : Prop := match e with EvPacket _ _ _ => False | _ => True end.
  Lemma run_snoc s es e : run s (es ++ [e]) =
    (fst (step (fst (run s es)) e), snd (run s es) ++ snd (step (fst (run s es)) e)).
  Proof.
    revert s. induction es as [|x es IH]; intros s; cbn; [by rewrite app_nil_r|].
    rewrite IH. cbn. by rewrite app_assoc.
  Qed.
  (** the flag "keepalive sent" is set only if one was sent since (or in answer
      to) the last message received *)
  Lemma ka_sent_since es : is_terminated (fst (run session0 es)) = false ->
    s_ka_sent (fst (run session0 es)) = true ->
    exists es1 x es2, es = es1 ++ x :: es2 /\ Forall no_packet es2 /\
      EMsg PKeepAlive ∈ snd (run (fst (run session0 es1)) (x :: es2)).
  Proof.
    induction es as [|e es IH] using rev_ind; [done|].
    rewrite run_snoc. cbn [fst]. set (s := fst (run session0 es)) in *. intros Ha Hs.
    assert (Hs0 : is_terminated s = false).
    { destruct (is_terminated s) eqn:E; [|done]. unfold TcpclSession.step in Ha. rewrite E in Ha. cbn [fst] in Ha. congruence. }
    specialize (IH Hs0).
    assert (Hext : s_ka_sent s = true -> no_packet e ->
      exists es1 x es2, es ++ [e] = es1 ++ x :: es2 /\ Forall no_packet es2 /\
        EMsg PKeepAlive ∈ snd (run (fst (run session0 es1)) (x :: es2))).
    { intros H He. destruct (IH H) as (es1 & x & es2 & -> & Hn & Hk).
      exists es1, x, (es2 ++ [e]). split; [by rewrite <- app_assoc|]. split; [apply Forall_app; auto|].
      rewrite (app_comm_cons es2), run_snoc. cbn [snd]. apply elem_of_app. by left. }
    assert (Hnow : EMsg PKeepAlive ∈ snd (step s e) ->
      exists es1 x es2, es ++ [e] = es1 ++ x :: es2 /\ Forall no_packet es2 /\
        EMsg PKeepAlive ∈ snd (run (fst (run session0 es1)) (x :: es2))).
    { intros H. exists es, e, []. split; [done|]. split; [constructor|]. cbn. rewrite app_nil_r. done. }
    unfold TcpclSession.step in Hs, Ha, Hnow. rewrite Hs0 in Hs, Ha, Hnow.
    destruct e as [p has resp| |data h resp| |].
    - destruct p; try (cbn in Hs; discriminate).
      destruct (s_ka_sent s) eqn:E; [done|]. apply Hnow. cbn. left.
    - done.
    - destruct (s_send s); try (cbn in Hs; discriminate); apply Hext; done.
    - destruct (s_send s); try (cbn in Hs; discriminate); apply Hext; done.
    - destruct (s_ka_sent s) eqn:E; [by apply Hext|]. apply Hnow.
      destruct (s_ka_recv s); cbn; left.
  Qed.
  Lemma keepalive_answered es has resp : is_terminated (fst (run session0 es)) = false ->
    EMsg PKeepAlive ∈ snd (step (fst (run session0 es)) (EvPacket PKeepAlive has resp)) \/
    exists es1 x es2, es = es1 ++ x :: es2 /\ Forall no_packet es2 /\
      EMsg PKeepAlive ∈ snd (run (fst (run session0 es1)) (x :: es2)).
  Proof.
    intros Ha. destruct (s_ka_sent (fst (run session0 es))) eqn:E.
    - right. by apply ka_sent_since.
    - left. unfold TcpclSession.step. rewrite Ha, E. cbn. left.
  Qed.
End Idle.

