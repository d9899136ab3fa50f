(** Two nodes joined by byte pipes (TcpclLink.v) behave like the sessions joined
    by message queues (TcpclPair.v) as long as no read is abandoned. *)
From stdpp Require Import prelude strings.
From Coq Require Import NArith Lia ZifyNat ZifyN ZifyBool.
From Verif Require Import Core Bytes TcpclWire TcpclWireProofs TcpclSession TcpclSessionProofs TcpclPair TcpclPairProofs TcpclCancel TcpclExtraProofs TcpclLink TcpclLinkProofs.
Open Scope N_scope.

(** ** Messages fit the format *)
Definition segbytes (q : list packet) : N := foldr (fun p n => match p with PXferSeg d => blen (xs_buf d) + n | _ => n end) 0 q.
Definition rbytes (s : session) : N := match s_recv s with Receiving buf _ => blen buf | _ => 0 end.
Definition tbytes (s : session) : N := match s_send s with TransferRequest d _ => blen d | _ => 0 end.
Lemma segbytes_cons p q : segbytes (p :: q) = match p with PXferSeg d => blen (xs_buf d) | _ => 0 end + segbytes q.
Proof. by destruct p. Qed.
Lemma segbytes_app a b : segbytes (a ++ b) = segbytes a + segbytes b.
Proof. induction a as [|p a IH]; [done|]. cbn [app]. rewrite !segbytes_cons, IH. lia. Qed.
Lemma segbytes_segs l : segbytes (map PXferSeg l) = blen (concat (map xs_buf l)).
Proof. induction l as [|d l IH]; cbn; [done|]. rewrite blen_app. unfold segbytes in IH. rewrite IH. done. Qed.

Section Fit.
  Variable utf8_lossy : bytes -> bytes.
  Variable parse_id : bytes -> option bytes.
  Variable refuse : bool.
  Variable mru : N.
  Notation step := (step parse_id refuse mru).
  Notation wf := (wf_packet utf8_lossy).

  Definition ebytes (e : event) : N := match e with EvPacket (PXferSeg d) _ _ => blen (xs_buf d) | _ => 0 end.
  Definition sbytes (e : event) : N := match e with EvSubmit d _ _ => blen d | _ => 0 end.
  Definition scount (e : event) : N := match e with EvSubmit _ _ _ => 1 | _ => 0 end.
  Definition fits (e : event) : Prop :=
    match e with
    | EvPacket p _ _ => wf p
    | EvSubmit d _ _ => forall id, parse_id d = Some id -> blen id < 2^16
    | _ => True
    end.
  Definition okstep (s : session) (e : event) (r : session * list eff) : Prop :=
    Forall wf (msgs (snd r)) /\ segbytes (msgs (snd r)) + tbytes (fst r) <= tbytes s + sbytes e /\
    rbytes (fst r) <= rbytes s + ebytes e /\ s_last_tid (fst r) <= s_last_tid s + scount e /\
    (forall buf tid, s_recv (fst r) = Receiving buf tid -> tid < 2^64).

  Lemma segments_fit (rf : bool) tid data : 0 < mru -> tid < 2^64 -> blen data < 2^64 -> Forall wf (map PXferSeg (segments rf mru tid data)) /\
    segbytes (map PXferSeg (segments rf mru tid data)) = blen data.
  Proof.
    intros Hm Ht Hd. destruct (segments_carries rf mru tid data Hm) as [H1 H2 H3 H4]. split.
    - apply Forall_fmap. rewrite Forall_forall in *. intros d Hin. destruct (H2 d Hin) as (Hb & Hl & Hi & He). cbn. rewrite Hi, Hl, He.
      split; [done|]. split; [done|]. split; [|done]. eapply N.le_lt_trans; [|exact Hd]. rewrite <- H1. apply elem_of_list_split in Hin as (l1 & l2 & ->).
      rewrite map_app, concat_app. cbn. rewrite !blen_app. lia.
    - by rewrite segbytes_segs, H1.
  Qed.
  Lemma msgs_app a b : msgs (a ++ b) = msgs a ++ msgs b.
  Proof. apply omap_app. Qed.
  Lemma send_bundle_fit s data h resp : s_last_tid s < 2^64 -> blen data < 2^64 ->
    match send_bundle refuse mru s data h resp with
    | (Some (x, es), _) => Forall wf (msgs es) /\ segbytes (msgs es) <= blen data /\ (forall d h', x <> TransferRequest d h')
    | (None, es) => msgs es = []
    end.
  Proof.
    intros Ht Hd. unfold send_bundle. destruct (N.eqb_spec mru 0) as [->|Hm]; [done|]. destruct (bool_decide _).
    - destruct resp; [|done]. cbn. split; [constructor|]. split; [lia|done].
    - rewrite msgs_segs. destruct (segments_fit refuse (s_last_tid s) data) as [H1 H2]; [lia|done..|]. rewrite H2. done.
  Qed.
  Lemma process_fit buf tid : tid < 2^64 -> Forall wf (msgs (process_bundle parse_id buf tid)) /\ segbytes (msgs (process_bundle parse_id buf tid)) = 0.
  Proof. intros H. unfold process_bundle. destruct (parse_id buf); cbn; [done|]. by repeat constructor. Qed.

  Lemma step_fits s e : fits e -> s_last_tid s + 1 < 2^64 -> rbytes s + ebytes e < 2^64 -> tbytes s + sbytes e < 2^64 ->
    (forall buf tid, s_recv s = Receiving buf tid -> tid < 2^64) -> okstep s e (step s e).
  Proof.
    intros Hf Ht Hr Hd Hrt. unfold TcpclSession.step.
    assert (Hsame : forall a b, okstep s e (set_ka s a b, [])).
    { intros a b. split; [constructor|]. unfold tbytes, rbytes. cbn. split; [lia|]. split; [lia|]. split; [lia|done]. }
    assert (Hka : forall a b, okstep s e (set_ka s a b, [EMsg PKeepAlive])).
    { intros a b. split; [by repeat constructor|]. unfold tbytes, rbytes. cbn. split; [lia|]. split; [lia|]. split; [lia|done]. }
    assert (Hterm : forall a b k l, Forall wf (msgs l) -> segbytes (msgs l) = 0 -> k <= s_last_tid s + scount e ->
       okstep s e (Session RTerminated STerminated k a b, l)).
    { intros a b k l H1 H2 H3. split; [done|]. cbn [fst snd]. rewrite H2. unfold tbytes, rbytes. cbn. split; [lia|]. split; [lia|]. split; [done|done]. }
    destruct (is_terminated s) eqn:Et.
    { split; [constructor|]. cbn. split; [lia|]. split; [lia|]. split; [lia|done]. }
    destruct e as [p has resp| |data h resp| |].
    - assert (G : okstep s (EvPacket p has resp) (set_ka (fst (receive parse_id refuse mru s has resp p)) false false, snd (receive parse_id refuse mru s has resp p))).
      { destruct p as [t|d|reply r|d|f tid len|r tid| |r h]; cbn [receive fst snd]; try (by apply Hterm; [constructor|done|cbn; lia]).
        - destruct reply; apply Hterm; try done; try (cbn; lia); by repeat constructor.
        - cbn in Hf. destruct Hf as (Htid & Hlen & Hblen & Hex & Het & Hes). unfold ebytes in Hr. destruct (s_recv s) as [|buf tid|] eqn:Er.
          + destruct (negb _); [by apply Hterm; [constructor|done|cbn; lia]|].
            destruct (refused _ _ _).
            { cbn [fst snd]. split; [by repeat constructor|]. unfold tbytes, rbytes. cbn. rewrite Er. split; [lia|]. split; [lia|]. split; [lia|done]. }
            destruct (f_end _); cbn [fst snd].
            * destruct (process_fit (xs_buf d) (xs_tid d) Htid) as [P1 P2].
              change (EMsg (PXferAck no_flags (xs_tid d) (xs_len d)) :: process_bundle parse_id (xs_buf d) (xs_tid d))
                with ([EMsg (PXferAck no_flags (xs_tid d) (xs_len d))] ++ process_bundle parse_id (xs_buf d) (xs_tid d)).
              split; [cbn [snd]; rewrite msgs_app; apply Forall_app; split; [repeat constructor; cbn; [done|lia]|done]|].
              cbn [snd]. rewrite msgs_app, segbytes_app, P2. unfold tbytes, rbytes. cbn. split; [lia|]. split; [lia|]. split; [lia|done].
            * split; [repeat constructor; cbn; [done|lia]|]. unfold tbytes, rbytes. cbn. split; [lia|]. split; [lia|]. split; [lia|]. by intros ? ? [= <- <-].
          + unfold rbytes in Hr. rewrite Er in Hr. destruct (f_start _); [by apply Hterm; [constructor|done|cbn; lia]|].
            destruct (negb _); [by apply Hterm; [constructor|done|cbn; lia]|].
            destruct (f_end _); cbn [fst snd].
            * destruct (process_fit (buf ++ xs_buf d) (xs_tid d) Htid) as [P1 P2].
              change (EMsg (PXferAck no_flags (xs_tid d) (blen (buf ++ xs_buf d))) :: process_bundle parse_id (buf ++ xs_buf d) (xs_tid d))
                with ([EMsg (PXferAck no_flags (xs_tid d) (blen (buf ++ xs_buf d)))] ++ process_bundle parse_id (buf ++ xs_buf d) (xs_tid d)).
              split; [cbn [snd]; rewrite msgs_app; apply Forall_app; split; [repeat constructor; [done|rewrite blen_app; lia]|done]|].
              cbn [snd]. rewrite msgs_app, segbytes_app, P2. unfold tbytes, rbytes. cbn. split; [lia|]. split; [lia|]. split; [lia|done].
            * split; [repeat constructor; [done|rewrite blen_app; lia]|]. unfold tbytes, rbytes. cbn. rewrite blen_app, Er. split; [lia|]. split; [lia|]. split; [lia|]. by intros ? ? [= <- <-].
          + by apply Hterm; [constructor|done|cbn; lia].
        - destruct (s_send s) as [|total h|data h|] eqn:Es; try (by apply Hterm; [constructor|done|cbn; lia]).
          + destruct (negb _); [by apply Hterm; [constructor|done|cbn; lia]|]. destruct (len <? total); [by apply Hsame|].
            destruct resp; [|by apply Hterm; [constructor|done|cbn; lia]].
            split; [constructor|]. unfold tbytes, rbytes. cbn. split; [lia|]. split; [lia|]. split; [lia|done].
          + destruct (negb _); [by apply Hterm; [constructor|done|cbn; lia]|].
            unfold tbytes in Hd. rewrite Es in Hd.
            pose proof (send_bundle_fit s data h resp) as P. destruct (send_bundle _ _ _ _ _ _) as [[[x es]|] es'].
            * destruct P as (P1 & P2 & P3); [lia|cbn in Hd; lia|]. split; [done|]. unfold tbytes, rbytes. cbn [fst snd set_ka set_states s_recv s_send s_last_tid]. rewrite Es.
              destruct x as [| |dd hh|]; try (split; [lia|]; split; [lia|]; split; [lia|done]). by destruct (P3 dd hh).
            * assert (P' : msgs es' = []) by (apply P; [lia|cbn in Hd; lia]). cbn [fst snd]. apply Hterm; [by rewrite P'|by rewrite P'|cbn; lia].
        - destruct (s_send s) as [|total h|data h|] eqn:Es; try (by apply Hterm; [constructor|done|cbn; lia]).
          + destruct (negb _); [by apply Hterm; [constructor|done|cbn; lia]|].
            destruct resp; [|by apply Hterm; [constructor|done|cbn; lia]].
            split; [constructor|]. unfold tbytes, rbytes. cbn. split; [lia|]. split; [lia|]. split; [lia|done].
          + destruct (negb _); [by apply Hterm; [constructor|done|cbn; lia]|].
            destruct resp; [|by apply Hterm; [constructor|done|cbn; lia]].
            split; [constructor|]. unfold tbytes, rbytes. cbn. split; [lia|]. split; [lia|]. split; [lia|done]. }
      destruct p; try exact G. destruct (s_ka_sent s); [apply Hsame|apply Hka].
    - apply Hterm; [constructor|done|cbn; lia].
    - assert (Hid : forall s' : session * list eff, s' = (s, []) -> okstep s (EvSubmit data h resp) s').
      { intros ? ->. split; [constructor|]. cbn. split; [lia|]. split; [lia|]. split; [lia|done]. }
      destruct (s_send s) eqn:Es; try by apply Hid. cbn in Hf, Hd. cbn [fst snd]. unfold send. destruct refuse eqn:Erf.
      + destruct (parse_id data) as [id|] eqn:Ei; cbn [fst snd]; [|by apply Hterm; [constructor|done|cbn; lia]].
        specialize (Hf id eq_refl). split.
        * constructor; [|constructor]. cbn. split; [lia|]. split; [done|]. split; [done|]. unfold wf_ext. cbn.
          split; [by constructor|]. split; [lia|done].
        * unfold tbytes, rbytes. cbn [fst snd set_ka set_states s_recv s_send s_last_tid sbytes ebytes scount msgs omap list_omap]. rewrite segbytes_cons. cbn [xs_buf]. rewrite Es. change (blen []) with 0. change (segbytes []) with 0. split; [lia|]. split; [lia|]. split; [lia|done].
      + set (s1 := Session _ _ _ _ _). pose proof (send_bundle_fit s1 data h resp) as P. rewrite Erf in P.
        destruct (send_bundle _ _ _ _ _ _) as [[[x es]|] es'].
        * destruct P as (P1 & P2 & P3); [cbn; lia|unfold tbytes in Hd; lia|]. split; [done|]. unfold tbytes, rbytes. cbn [fst snd set_ka set_states s_recv s_send s_last_tid sbytes ebytes scount]. subst s1. cbn [s_recv s_last_tid]. rewrite Es.
          destruct x as [| |dd hh|]; try (split; [lia|]; split; [lia|]; split; [lia|done]). by destruct (P3 dd hh).
        * assert (P' : msgs es' = []) by (apply P; [cbn; lia|unfold tbytes in Hd; lia]). cbn [fst snd]. apply Hterm; [by rewrite P'|by rewrite P'|cbn; lia].
    - destruct (s_send s) eqn:Es; try (split; [constructor|]; cbn; split; [lia|]; split; [lia|]; split; [lia|done]).
      apply Hterm; [by repeat constructor|done|cbn; lia].
    - destruct (s_ka_recv s), (s_ka_sent s); cbn [fst snd app]; try apply Hsame; try apply Hka; apply Hterm; try (cbn; lia); try done; by repeat constructor.
  Qed.
End Fit.

Lemma other_other x : other (other x) = x.
Proof. by destruct x. Qed.
Lemma get_put_same p x n : get (put p x n) x = n.
Proof. by destruct x. Qed.
Lemma get_put_other p x n : get (put p x n) (other x) = get p (other x).
Proof. by destruct x. Qed.
Lemma get_put_other' p x n : get (put p (other x) n) x = get p x.
Proof. by destruct x. Qed.
Lemma side_cases x y : y = x \/ y = other x.
Proof. destruct x, y; auto. Qed.

Global Instance side_eq_dec : EqDecision side.
Proof. solve_decision. Defined.

Section Sys.
  Variable utf8_lossy : bytes -> bytes.
  Variable parse_id : bytes -> option bytes.
  Variable data_of : nat -> bytes.
  Variable refuse : side -> bool.
  Variable mru : side -> N.
  Notation sys_run := (sys_run parse_id data_of refuse mru).
  Notation sys_step := (sys_step parse_id data_of refuse mru).
  Notation wf := (wf_packet utf8_lossy).

  (** bytes and number of bundles submitted at a side *)
  Definition amount (x : side) (es : list sys_event) : N :=
    foldr (fun e n => match e with Submit y h _ => if decide (y = x) then blen (data_of h) + n else n | _ => n end) 0 es.
  Definition number (x : side) (es : list sys_event) : N :=
    foldr (fun e n => match e with Submit y h _ => if decide (y = x) then 1 + n else n | _ => n end) 0 es.
  Lemma amount_snoc x es e : amount x (es ++ [e]) = amount x es + match e with Submit y h _ => if decide (y = x) then blen (data_of h) else 0 | _ => 0 end.
  Proof using data_of. clear utf8_lossy parse_id refuse mru. induction es as [|e0 es IH]; cbn [app foldr amount]. { cbn. destruct e; try case_decide; lia. } unfold amount in *. cbn. rewrite IH. destruct e0; try case_decide; lia. Qed.
  Lemma number_snoc x es e : number x (es ++ [e]) = number x es + match e with Submit y h _ => if decide (y = x) then 1 else 0 | _ => 0 end.
  Proof using. clear utf8_lossy parse_id refuse mru data_of. induction es as [|e0 es IH]; cbn [app foldr number]. { cbn. destruct e; try case_decide; lia. } unfold number in *. cbn. rewrite IH. destruct e0; try case_decide; lia. Qed.
  Record moderate (es : list sys_event) : Prop := {
    mo_amount : forall x, amount x es < 2^64;
    mo_number : forall x, number x es + 1 < 2^64;
    mo_ids : forall x h r id, Submit x h r ∈ es -> parse_id (data_of h) = Some id -> blen id < 2^16
  }.
  Lemma moderate_prefix es e : moderate (es ++ [e]) -> moderate es.
  Proof.
    intros [H1 H2 H3]. split.
    - intros x. specialize (H1 x). rewrite amount_snoc in H1. lia.
    - intros x. specialize (H2 x). rewrite number_snoc in H2. lia.
    - intros x h r id Hin. apply (H3 x h r). apply elem_of_app. by left.
  Qed.
  Record winv (es : list sys_event) (p : pair) : Prop := {
    wi_tid : forall x, s_last_tid (n_sess (get p x)) <= number x es;
    wi_out : forall x, Forall wf (n_out (get p x));
    wi_bytes : forall x, segbytes (n_out (get p x)) + rbytes (n_sess (get p (other x))) + tbytes (n_sess (get p x)) <= amount x es;
    wi_recv : forall x buf tid, s_recv (n_sess (get p x)) = Receiving buf tid -> tid < 2^64
  }.
  (** one side reacts; [q] is what is left of the messages to it *)
  Lemma winv_react es e p x ev snap q :
    winv es p -> moderate (es ++ [e]) -> fits utf8_lossy parse_id ev ->
    amount x (es ++ [e]) = amount x es + sbytes ev -> number x (es ++ [e]) = number x es + scount ev ->
    segbytes q + ebytes ev = segbytes (n_out (get p (other x))) -> Forall wf q ->
    winv (es ++ [e]) (put (put p (other x) (Node (n_sess (get p (other x))) q (n_log (get p (other x))) (n_stores (get p (other x))))) x
      (react parse_id refuse mru x (get p x) ev snap)).
  Proof.
    intros [W1 W2 W3 W4] Hmo Hf Ha Hn Hq Hqw. pose proof (W3 x) as Hx. pose proof (W3 (other x)) as Hox. rewrite other_other in Hox.
    assert (Hma : amount x (es ++ [e]) < 2^64) by apply Hmo. assert (Hmo' : amount (other x) es < 2^64) by apply (moderate_prefix _ _ Hmo).
    assert (Hmn : number x (es ++ [e]) + 1 < 2^64) by apply Hmo. pose proof (W1 x) as Hw1.
    destruct (step_fits utf8_lossy parse_id (refuse x) (mru x) (n_sess (get p x)) ev) as (S1 & S2 & S3 & S4 & S5); try done; try lia.
    { intros buf tid. apply W4. }
    assert (Mono : forall y, amount y es <= amount y (es ++ [e]) /\ number y es <= number y (es ++ [e])).
    { intros y. rewrite amount_snoc, number_snoc. lia. }
    unfold react. set (r := step parse_id (refuse x) (mru x) (n_sess (get p x)) ev) in *. clearbody r. split.
    - intros y. destruct (side_cases x y) as [-> | ->].
      + rewrite get_put_same. cbn. lia.
      + rewrite get_put_other, get_put_same. cbn. specialize (W1 (other x)). destruct (Mono (other x)). lia.
    - intros y. destruct (side_cases x y) as [-> | ->].
      + rewrite get_put_same. cbn. apply Forall_app. split; [apply W2|done].
      + rewrite get_put_other, get_put_same. cbn. done.
    - intros y. destruct (side_cases x y) as [-> | ->].
      + rewrite get_put_same, get_put_other, get_put_same. cbn [n_out n_sess]. rewrite segbytes_app. lia.
      + rewrite other_other, get_put_same, get_put_other, get_put_same. cbn [n_out n_sess]. destruct (Mono (other x)). lia.
    - intros y. destruct (side_cases x y) as [-> | ->].
      + rewrite get_put_same. cbn. apply S5.
      + rewrite get_put_other, get_put_same. cbn. apply W4.
  Qed.
  Lemma put_id p x : put p x (Node (n_sess (get p x)) (n_out (get p x)) (n_log (get p x)) (n_stores (get p x))) = p.
  Proof. destruct p as [[] []], x; done. Qed.
  Lemma sys_winv es : moderate es -> winv es (sys_run es).
  Proof.
    induction es as [|e es IH] using rev_ind; intros Hmo.
    { split; intros []; cbn; try lia; try done; constructor. }
    specialize (IH (moderate_prefix _ _ Hmo)). unfold TcpclPair.sys_run. rewrite fold_left_app. cbn [fold_left]. fold (sys_run es). set (p := sys_run es) in *. clearbody p.
    assert (Simple : forall x ev snap, fits utf8_lossy parse_id ev -> ebytes ev = 0 ->
      (match e with Submit y h _ => if decide (y = x) then blen (data_of h) else 0 | _ => 0 end = sbytes ev) ->
      (match e with Submit y h _ => if decide (y = x) then 1 else 0 | _ => 0 end = scount ev) ->
      winv (es ++ [e]) (put p x (react parse_id refuse mru x (get p x) ev snap))).
    { intros x ev snap Hf He Hs Hc. rewrite <- (put_id p (other x)) at 1. apply winv_react; try done.
      - by rewrite amount_snoc, Hs.
      - by rewrite number_snoc, Hc.
      - rewrite He. lia.
      - apply IH. }
    destruct e as [x has resp|x h resp|x|x|x]; cbn [TcpclPair.sys_step].
    - destruct (n_out (get p (other x))) as [|m q] eqn:Eq.
      { destruct IH as [W1 W2 W3 W4]. split; [intros y; rewrite number_snoc; specialize (W1 y); lia|done|intros y; rewrite amount_snoc; specialize (W3 y); lia|done]. }
      unfold pop.
      pose proof (wi_out _ _ IH (other x)) as Hw. rewrite Eq in Hw. apply Forall_cons in Hw as [Hw1 Hw2].
      rewrite Eq. cbn [tail].
      apply winv_react; try done.
      + by rewrite amount_snoc.
      + by rewrite number_snoc.
      + rewrite Eq, segbytes_cons. cbn. destruct m; lia.
    - apply Simple; try done; cbn.
      + intros id Hid. apply (mo_ids _ Hmo x h resp); [|done]. apply elem_of_app. right. by left.
      + by rewrite decide_True.
      + by rewrite decide_True.
    - by apply Simple.
    - by apply Simple.
    - by apply Simple.
  Qed.
End Sys.

(** ** Opening a session, for every schedule *)
Lemma at_with_same l x c : at_ (with_ l x c) x = c.
Proof. by destruct x. Qed.
Lemma at_with_other l x c : at_ (with_ l x c) (other x) = at_ l (other x).
Proof. by destruct x. Qed.
Lemma at_with_other' l x c : at_ (with_ l (other x) c) x = at_ l x.
Proof. by destruct x. Qed.
Definition is_live (c : conn) : bool := match c_phase c with Live _ _ => true | _ => false end.
Definition half_read (c : conn) : Prop := is_live c = true /\ c_held c <> [].

Section Open.
  Variable utf8_lossy : bytes -> bytes.
  Variable parse_id : bytes -> option bytes.
  Variable parse_node : bytes -> option eid.
  Variable refuse : side -> bool.
  Variable own : side -> bytes.
  Variable data_of : nat -> bytes.
  Variable cap : side -> N.
  Notation lstep := (lstep utf8_lossy parse_id parse_node refuse own data_of cap).
  Notation lrun := (lrun utf8_lossy parse_id parse_node refuse own data_of cap).
  Notation poll x := (poll utf8_lossy parse_id parse_node (opened x) (refuse x) (own x)).
  (** what [y] announces, and what the other side makes of it *)
  Definition initmsg (y : side) : bytes := write (PSessInit (local_params (own y))).
  Definition ids_ok : Prop := forall x, utf8_lossy (own x) = own x /\ blen (own x) < 2^16.
  Hypothesis Hown : ids_ok.
  Lemma lrun_snoc es e : lrun (es ++ [e]) = lstep (lrun es) e.
  Proof. unfold TcpclLink.lrun. by rewrite fold_left_app. Qed.
  Lemma hello_read s x bs : s ++ x = hdr 0 ++ bs -> match receive_contact_header s with ROk _ rest => rest ++ x = bs | RWait => True | RErr => False end.
  Proof. intros H. apply hello_prefix in H. rewrite hdr_ok in H. destruct (receive_contact_header s); [congruence|done|done]. Qed.
  Lemma wf_read s x p bs : wf_packet utf8_lossy p -> s ++ x = write p ++ bs -> match read utf8_lossy s with ROk q rest => q = p /\ rest ++ x = bs | RWait => True | RErr => False end.
  Proof. intros Hw H. apply (read_more utf8_lossy) in H. rewrite read_write in H by done. destruct (read utf8_lossy s); [|done|done]. by injection H as <- <-. Qed.
  Lemma nil_read s x : s ++ x = [] -> read utf8_lossy s = RWait.
  Proof. intros [-> ->]%app_eq_nil. done. Qed.
  Lemma wf_init y : wf_packet utf8_lossy (PSessInit (local_params (own y))).
  Proof. destruct (Hown y). cbn. repeat split; try lia; done. Qed.
  Definition agreed (x : side) : sess_init := SessInit 30 64000 64000 (own (other x)).
  Lemma negotiate_own x : snd (negotiate (local_params (own x)) (local_params (own (other x)))) = agreed x.
  Proof. done. Qed.

  Definition before_init (c : conn) : Prop := c_phase c = Hello \/ c_phase c = Dead.
  Definition coming (y : side) (cy : conn) (bs : bytes) : Prop :=
    (bs = [] /\ before_init cy) \/ (c_phase cy <> Hello /\ exists m, bs = initmsg y ++ m).
  Definition opening (l : link) (x : side) : Prop :=
    let c := at_ l x in let cy := at_ l (other x) in
    match c_phase c with
    | Hello => exists bs, c_held c ++ c_out cy = hdr 0 ++ bs /\ coming (other x) cy bs
    | Offer => coming (other x) cy (c_held c ++ c_out cy)
    | Live d _ => d = agreed x /\ c_phase cy <> Hello
    | Dead => True
    end.
  (** a step of one side keeps what it has written and comes to no earlier phase *)
  Definition advances (y : side) (c c' : conn) : Prop :=
    (exists m, c_out c' = c_out c ++ m /\ (c_phase c' = Hello -> c_phase c = Hello /\ m = []) /\
       (c_phase c = Hello -> (m = [] /\ before_init c') \/ (c_phase c' <> Hello /\ exists m', m = initmsg y ++ m')) /\
       (c_phase c = Dead -> c_phase c' = Dead /\ m = [])).
  Lemma advances_refl y c : advances y c c.
  Proof. exists []. rewrite app_nil_r. split; [done|]. split; [done|]. split; [intros H; left; split; [done|by left]|done]. Qed.
  Lemma coming_advances y c c' bs m : c_out c' = c_out c ++ m -> (c_phase c' = Hello -> c_phase c = Hello /\ m = []) ->
    (c_phase c = Hello -> (m = [] /\ before_init c') \/ (c_phase c' <> Hello /\ exists m', m = initmsg y ++ m')) ->
    (c_phase c = Dead -> c_phase c' = Dead /\ m = []) -> coming y c bs -> coming y c' (bs ++ m).
  Proof.
    intros Ho H1 H2 H3 [[-> Hb]|[Hn [m0 ->]]].
    - destruct Hb as [Hb|Hb].
      + destruct (H2 Hb) as [[-> Hb']|[Hn [m' ->]]]; [by left|]. right. split; [done|]. by exists m'.
      + destruct (H3 Hb) as [Hb' ->]. left. split; [done|]. by right.
    - right. split; [intros Hh; by destruct (H1 Hh)|]. exists (m0 ++ m). by rewrite app_assoc.
  Qed.
  Lemma advances_opening l x y c' : y = other x -> advances y (at_ l y) c' -> opening l x -> opening (with_ l y c') x.
  Proof.
    intros -> (m & Ho & H1 & H2 & H3) H. unfold opening in *. cbv zeta in *. rewrite at_with_other', at_with_same.
    destruct (c_phase (at_ l x)) as [| |d s|].
    - destruct H as (bs & Hb & Hc). exists (bs ++ m). rewrite Ho, !app_assoc, <- app_assoc. split; [by rewrite app_assoc, Hb, <- app_assoc|].
      by eapply coming_advances.
    - rewrite Ho, app_assoc. by eapply coming_advances.
    - destruct H as [-> H]. split; [done|]. intros Hh. by destruct (H1 Hh).
    - done.
  Qed.
  Lemma react_advances y c d s e snap rf : c_phase c = Live d s -> advances y c (react1 parse_id rf c d s e snap).
  Proof. intros E. eexists. cbn. rewrite E. split; [reflexivity|]. done. Qed.
  Lemma dead_advances y c : advances y c (dead c).
  Proof. exists []. cbn. rewrite app_nil_r. split; [done|]. split; [done|]. split; [|done]. intros _. left. split; [done|]. by right. Qed.
  Lemma branch_advances y c e : advances y c (other_branch parse_id (refuse y) c e).
  Proof.
    unfold other_branch. destruct (c_phase c) as [| |d s|] eqn:E; try apply advances_refl. destruct (is_terminated s); [apply advances_refl|].
    destruct e; try by apply react_advances. all: destruct (s_send s); (apply advances_refl || by apply react_advances).
  Qed.
  Lemma fail_advances y c : advances y c (fail parse_id (refuse y) c).
  Proof.
    unfold fail. destruct (c_phase c) as [| |d s|] eqn:E; try apply dead_advances. destruct (is_terminated s); [apply advances_refl|by apply react_advances].
  Qed.
  Lemma poll_advances y c v s : advances y c (fst (poll y c v s)).
  Proof.
    unfold TcpclLink.poll. destruct (c_phase c) as [| |d x|] eqn:E.
    - destruct (receive_contact_header _); cbn; [|..|apply dead_advances].
      + eexists. cbn. rewrite E. split; [reflexivity|]. split; [done|]. split; [|done]. intros _. right. split; [done|]. exists []. by rewrite app_nil_r.
      + exists []. cbn. rewrite app_nil_r, E. split; [done|]. split; [done|]. split; [|done]. intros _. left. split; [done|]. by left.
    - assert (G : forall p d' h n, p <> Hello -> p <> Dead -> advances y c (Conn p h (c_out c) d' (c_stores c) n)).
      { intros p d' h n Hp Hq. exists []. cbn. rewrite app_nil_r, E. done. }
      destruct (read _ _) as [[]| |]; cbn; try apply dead_advances; [|by apply G].
      destruct (greet _ _ _ _); cbn; [by apply G|apply dead_advances].
    - destruct (is_terminated x); cbn; [apply advances_refl|]. destruct (read _ _); cbn; try by apply react_advances.
      exists []. cbn. rewrite app_nil_r, E. done.
    - apply advances_refl.
  Qed.
  Lemma set_out_same l y : with_ l y (set_out (at_ l y) (c_out (at_ l y))) = l.
  Proof. destruct l as [[] []], y; done. Qed.
  (** the reader *)
  Lemma poll_opening l x n v : opening l x ->
    let r := poll x (at_ l x) v (take n (c_out (at_ l (other x)))) in
    opening (with_ (with_ l (other x) (set_out (at_ l (other x)) (snd r ++ drop n (c_out (at_ l (other x)))))) x (fst r)) x.
  Proof.
    intros H. cbv zeta. unfold opening in *. cbv zeta in *. rewrite at_with_same, at_with_other, at_with_same.
    set (c := at_ l x) in *. set (cy := at_ l (other x)) in *. cbn [c_phase set_out c_out].
    assert (Cm : forall bs o, coming (other x) cy bs -> coming (other x) (set_out cy o) bs) by done.
    unfold TcpclLink.poll. destruct (c_phase c) as [| |d s|] eqn:E.
    - destruct H as (bs & Hb & Hc).
      assert (Hs : (c_held c ++ take n (c_out cy)) ++ drop n (c_out cy) = hdr 0 ++ bs) by (by rewrite <- app_assoc, take_drop).
      pose proof (hello_read _ _ _ Hs) as P. destruct (receive_contact_header _) as [t r| |]; cbn [fst snd c_phase c_held c_out dead]; [| |done].
      + cbn [app]. rewrite P. by apply Cm.
      + exists bs. split; [exact Hs|by apply Cm].
    - assert (Hs : (c_held c ++ take n (c_out cy)) ++ drop n (c_out cy) = c_held c ++ c_out cy) by (by rewrite <- app_assoc, take_drop).
      destruct H as [[H0 Hb]|[Hn [m Hm]]].
      + rewrite H0 in Hs. rewrite (nil_read _ _ Hs). cbn. left. done.
      + rewrite Hm in Hs. pose proof (wf_read _ _ _ _ (wf_init _) Hs) as P. destruct (read _ _) as [q r| |]; cbn [fst snd c_phase c_held c_out dead]; [| |done].
        * destruct P as [-> P]. destruct (greet _ _ _ _); cbn [fst snd c_phase dead]; [|done]. split; [apply negotiate_own|done].
        * right. split; [done|]. by exists m.
    - destruct (is_terminated s); cbn [fst snd]; [by rewrite E|]. destruct (read _ _); cbn [fst snd react1 c_phase]; done.
    - cbn. by rewrite E.
  Qed.
  Lemma step_opening l e : (forall x, opening l x) -> forall x, opening (lstep l e) x.
  Proof.
    intros H.
    assert (Gen : forall y c', advances y (at_ l y) c' -> (opening (with_ l y c') y) -> forall x, opening (with_ l y c') x).
    { intros y c' Ha Ho x. destruct (side_cases y x) as [-> | ->]; [done|]. apply advances_opening; [by rewrite other_other| done|apply H]. }
    assert (Keep : forall y c', (c_phase c' = c_phase (at_ l y) /\ c_held c' = c_held (at_ l y)) \/ is_live (at_ l y) = true /\ (exists d s s', c_phase (at_ l y) = Live d s /\ c_phase c' = Live d s') \/ c_phase c' = Dead -> opening (with_ l y c') y).
    { intros y c' Hk. specialize (H y). unfold opening in *. cbv zeta in *. rewrite at_with_same, at_with_other.
      destruct Hk as [[Hk1 Hk2]|[(_ & d & s & s' & E1 & E2)|Hk]].
      - by rewrite Hk1, Hk2.
      - rewrite E2. by rewrite E1 in H.
      - by rewrite Hk. }
    assert (Br : forall y ev x, opening (with_ l y (other_branch parse_id (refuse y) (at_ l y) ev)) x).
    { intros y ev x. apply Gen; [apply branch_advances|]. apply Keep. unfold other_branch, is_live. destruct (c_phase (at_ l y)) as [| |d s|] eqn:E; try by left.
      destruct (is_terminated s); [by left|]. destruct ev; try (right; left; split; [done|]; by eexists _, _, _).
      all: destruct (s_send s); try (by left); right; left; split; [done|]; by eexists _, _, _. }
    destruct e as [y n v|y h resp|y|y|y]; cbn [TcpclLink.lstep].
    - destruct (busy cap l y); [done|]. intros x. pose proof (poll_opening l y n v (H y)) as P. cbv zeta in P.
      destruct (side_cases y x) as [-> | ->]; [exact P|].
      set (r := poll y (at_ l y) v _) in *. assert (A0 : advances y (at_ l y) (fst r)) by apply poll_advances.
      set (l1 := with_ l (other y) _) in *.
      apply advances_opening; [by rewrite other_other| |]. { unfold l1. by rewrite at_with_other'. }
      specialize (H (other y)). unfold opening, l1 in *. cbv zeta in *. rewrite at_with_same, other_other, at_with_other'. rewrite other_other in H. exact H.
    - destruct (busy cap l y); [done|apply Br].
    - destruct (busy cap l y); [done|apply Br].
    - destruct (busy cap l y); [done|apply Br].
    - apply Gen; [apply fail_advances|]. apply Keep. unfold fail, is_live. destruct (c_phase (at_ l y)) as [| |d s|] eqn:E; try (by right; right).
      destruct (is_terminated s); [by left|]. right; left; split; [done|]; by eexists _, _, _.
  Qed.
  Lemma lrun_opening es x : opening (lrun es) x.
  Proof.
    revert x. induction es as [|e es IH] using rev_ind.
    - intros x. unfold opening. destruct x; cbn; exists []; (split; [done|]); left; (split; [done|]); by left.
    - rewrite lrun_snoc. by apply step_opening.
  Qed.
End Open.

(** ** Sessions over bytes and sessions over messages *)
Section Sim.
  Variable utf8_lossy : bytes -> bytes.
  Variable parse_id : bytes -> option bytes.
  Variable parse_node : bytes -> option eid.
  Variable refuse : side -> bool.
  Variable own : side -> bytes.
  Variable data_of : nat -> bytes.
  Variable cap : side -> N.
  Notation lstep := (lstep utf8_lossy parse_id parse_node refuse own data_of cap).
  Notation lrun := (lrun utf8_lossy parse_id parse_node refuse own data_of cap).
  Notation poll x := (poll utf8_lossy parse_id parse_node (opened x) (refuse x) (own x)).
  Notation initmsg := (initmsg own).
  Notation agreed := (agreed own).
  Notation opening := (opening own).
  Hypothesis Hown : ids_ok utf8_lossy own.
  Definition mru : side -> N := fun _ => 64000.
  Notation sys_run := (sys_run parse_id data_of refuse mru).
  Notation sys_step := (sys_step parse_id data_of refuse mru).
  Definition enc (q : list packet) : bytes := concat (map write q).
  Lemma enc_app a b : enc (a ++ b) = enc a ++ enc b.
  Proof. unfold enc. by rewrite map_app, concat_app. Qed.

  (** bytes and number of bundles handed to a side *)
  Definition lamount (x : side) (es : list lev) : N :=
    foldr (fun e n => match e with LSubmit y h _ => if decide (y = x) then blen (data_of h) + n else n | _ => n end) 0 es.
  Definition lnumber (x : side) (es : list lev) : N :=
    foldr (fun e n => match e with LSubmit y h _ => if decide (y = x) then 1 + n else n | _ => n end) 0 es.
  Lemma lamount_snoc x es e : lamount x (es ++ [e]) = lamount x es + match e with LSubmit y h _ => if decide (y = x) then blen (data_of h) else 0 | _ => 0 end.
  Proof using data_of. clear Hown utf8_lossy parse_id parse_node refuse own cap. induction es as [|e0 es IH]; cbn [app foldr lamount]. { cbn. destruct e; try case_decide; lia. } unfold lamount in *. cbn. rewrite IH. destruct e0; try case_decide; lia. Qed.
  Lemma lnumber_snoc x es e : lnumber x (es ++ [e]) = lnumber x es + match e with LSubmit y h _ => if decide (y = x) then 1 else 0 | _ => 0 end.
  Proof using. clear Hown utf8_lossy parse_id parse_node refuse own data_of cap. induction es as [|e0 es IH]; cbn [app foldr lnumber]. { cbn. destruct e; try case_decide; lia. } unfold lnumber in *. cbn. rewrite IH. destruct e0; try case_decide; lia. Qed.
  Record lmoderate (es : list lev) : Prop := {
    lm_amount : forall x, lamount x es < 2^64;
    lm_number : forall x, lnumber x es + 1 < 2^64;
    lm_ids : forall x h r id, LSubmit x h r ∈ es -> parse_id (data_of h) = Some id -> blen id < 2^16
  }.
  Lemma lmoderate_prefix es e : lmoderate (es ++ [e]) -> lmoderate es.
  Proof.
    intros [H1 H2 H3]. split.
    - intros x. specialize (H1 x). rewrite lamount_snoc in H1. lia.
    - intros x. specialize (H2 x). rewrite lnumber_snoc in H2. lia.
    - intros x h r id Hin. apply (H3 x h r). apply elem_of_app. by left.
  Qed.
  (** the event of the link an event of the sessions belongs to *)
  Definition origin (e : lev) (se : sys_event) : Prop :=
    match se with
    | Deliver x has resp => exists n v, e = LPoll x n v /\ has = v_has v /\ resp = v_resp v
    | Submit x h r => e = LSubmit x h r
    | Timeout x => e = LTimeout x
    | Close x => e = LClose x
    | Break x => e = LFail x
    end.
  (** the messages of the sessions explain the run of the link *)
  Record explains (es : list lev) (es' : list sys_event) : Prop := {
    ex_amount : forall x, amount data_of x es' <= lamount x es;
    ex_number : forall x, number x es' <= lnumber x es;
    ex_from : forall se, se ∈ es' -> exists e, e ∈ es /\ origin e se
  }.
  Lemma explains_moderate es es' : lmoderate es -> explains es es' -> moderate parse_id data_of es'.
  Proof.
    intros [H1 H2 H3] [E1 E2 E3]. split.
    - intros x. specialize (H1 x). specialize (E1 x). lia.
    - intros x. specialize (H2 x). specialize (E2 x). lia.
    - intros x h r id Hi. destruct (E3 _ Hi) as (e & He & Ho). cbn in Ho. subst e. by eapply H3.
  Qed.
  Lemma explains_skip es es' e : explains es es' -> explains (es ++ [e]) es'.
  Proof.
    intros [E1 E2 E3]. split.
    - intros x. rewrite lamount_snoc. specialize (E1 x). lia.
    - intros x. rewrite lnumber_snoc. specialize (E2 x). lia.
    - intros se Hi. destruct (E3 _ Hi) as (e0 & He & Ho). exists e0. split; [|done]. apply elem_of_app. by left.
  Qed.
  Lemma explains_both es es' e e' : origin e e' -> explains es es' -> explains (es ++ [e]) (es' ++ [e']).
  Proof.
    intros He [E1 E2 E3]. split.
    - intros x. rewrite lamount_snoc, amount_snoc. specialize (E1 x). destruct e'; try lia. cbn in He. subst e. lia.
    - intros x. rewrite lnumber_snoc, number_snoc. specialize (E2 x). destruct e'; try lia. cbn in He. subst e. lia.
    - intros se [Hi|Hi]%elem_of_app.
      + destruct (E3 _ Hi) as (e0 & He0 & Ho). exists e0. split; [|done]. apply elem_of_app. by left.
      + apply elem_of_list_singleton in Hi. subst e'. exists e. split; [|done]. apply elem_of_app. right. by left.
  Qed.

  Definition same_side (c : conn) (n : node) : Prop :=
    match c_phase c with
    | Live _ s => n_sess n = s /\ n_log n = c_log c /\ n_stores n = c_stores c
    | _ => n = node0 /\ c_log c = [] /\ c_stores c = []
    end.
  Definition arriving (y : side) (cy : conn) (q : list packet) (bs : bytes) : Prop :=
    (bs = [] /\ before_init cy) \/ (c_phase cy <> Hello /\ bs = initmsg y ++ enc q).
  Definition same_bytes (l : link) (p : pair) (x : side) : Prop :=
    let c := at_ l x in let cy := at_ l (other x) in let q := n_out (get p (other x)) in
    match c_phase c with
    | Hello => exists bs, c_held c ++ c_out cy = hdr 0 ++ bs /\ arriving (other x) cy q bs
    | Offer => arriving (other x) cy q (c_held c ++ c_out cy)
    | Live _ s => is_terminated s = false -> c_held c ++ c_out cy = enc q
    | Dead => True
    end.
  Record same (l : link) (p : pair) : Prop := {
    sa_side : forall x, same_side (at_ l x) (get p x);
    sa_bytes : forall x, same_bytes l p x;
    sa_open : forall x, opening l x
  }.
  Lemma same_init : same link0 pair0.
  Proof.
    split.
    - by intros [].
    - intros x. unfold same_bytes. destruct x; cbn; exists []; (split; [done|]); left; (split; [done|]); by left.
    - intros x. apply (lrun_opening utf8_lossy parse_id parse_node refuse own data_of cap Hown []).
  Qed.

  (** one side takes a step that writes [m] (messages [q]); the other is the reader *)
  Lemma same_bytes_write l p x c' n' q m :
    same l p -> c_out c' = c_out (at_ l x) ++ m -> n_out n' = n_out (get p x) ++ q ->
    ((c_phase c' = c_phase (at_ l x) /\ is_live c' = false /\ m = [] /\ q = []) \/
     (c_phase (at_ l x) = Hello /\ c_phase c' = Offer /\ m = initmsg x /\ q = [] /\ n_out (get p x) = []) \/
     (c_phase (at_ l x) = Offer /\ is_live c' = true /\ m = [] /\ q = []) \/
     (is_live (at_ l x) = true /\ is_live c' = true /\ m = enc q) \/
     (is_live (at_ l x) = false /\ c_phase c' = Dead /\ m = [] /\ q = [])) ->
    same_bytes (with_ l x c') (put p x n') (other x).
  Proof.
    intros [Hs Hb Ho] Hm Hq Hc. specialize (Hb (other x)). specialize (Ho (other x)). unfold same_bytes, TcpclLinkSim.opening in *. cbv zeta in *.
    rewrite other_other in *. rewrite at_with_same, get_put_same, at_with_other, Hm, Hq.
    assert (Ar : forall bs, arriving x (at_ l x) (n_out (get p x)) bs -> arriving x c' (n_out (get p x) ++ q) (bs ++ m)).
    { intros bs Hbs. destruct Hc as [(E1 & _ & -> & ->)|[(E1 & E2 & -> & -> & E3)|[(E1 & E2 & -> & ->)|[(E1 & E2 & ->)|(E1 & E2 & -> & ->)]]]].
      - rewrite !app_nil_r. unfold arriving, before_init in *. by rewrite E1.
      - rewrite E3. cbn [app]. destruct Hbs as [[-> _]|[Hn _]]; [|done]. right. rewrite E2. split; [done|]. cbn. by rewrite app_nil_r.
      - rewrite !app_nil_r. destruct Hbs as [[_ [Hx|Hx]]|[_ ->]]; [congruence..|]. right. split; [|done]. unfold is_live in E2. by destruct (c_phase c').
      - destruct Hbs as [[_ [Hx|Hx]]|[_ ->]]; [unfold is_live in E1; by rewrite Hx in E1..|]. right. split; [unfold is_live in E2; by destruct (c_phase c')|]. by rewrite enc_app, app_assoc.
      - rewrite !app_nil_r. destruct Hbs as [[-> _]|[_ ->]].
        + left. split; [done|]. by right.
        + right. split; [by rewrite E2|done]. }
    destruct (c_phase (at_ l (other x))) as [| |d s|].
    - destruct Hb as (bs & Hb & Hc'). exists (bs ++ m). rewrite app_assoc, Hb, <- app_assoc. split; [done|]. by apply Ar.
    - rewrite app_assoc. by apply Ar.
    - intros Ht. rewrite app_assoc, (Hb Ht). destruct Ho as [_ Ho].
      destruct Hc as [(E1 & _ & -> & ->)|[(E1 & E2 & -> & -> & E3)|[(E1 & E2 & -> & ->)|[(E1 & E2 & ->)|(E1 & E2 & -> & ->)]]]]; rewrite ?app_nil_r; try done.
      by rewrite enc_app.
    - done.
  Qed.

  Definition no_loss (l : link) (e : lev) : Prop :=
    match e with LPoll _ _ _ | LFail _ => True | LSubmit x _ _ | LTimeout x | LClose x => c_held (at_ (lstep l e) x) = c_held (at_ l x) end.
  Lemma react_same l p d s x e snap : same l p -> c_phase (at_ l x) = Live d s ->
    same_side (react1 parse_id (refuse x) (at_ l x) d s e snap) (react parse_id refuse mru x (get p x) e snap) /\
    c_out (react1 parse_id (refuse x) (at_ l x) d s e snap) = c_out (at_ l x) ++ enc (msgs (snd (step parse_id (refuse x) 64000 s e))) /\
    n_out (react parse_id refuse mru x (get p x) e snap) = n_out (get p x) ++ msgs (snd (step parse_id (refuse x) 64000 s e)).
  Proof.
    intros [Hs Hb Ho] E. specialize (Hs x). specialize (Ho x). unfold same_side in *. unfold TcpclLinkSim.opening in Ho. cbv zeta in Ho. rewrite E in *.
    destruct Ho as [-> _]. destruct Hs as (E1 & E2 & E3). unfold react1, react, mru. cbn. rewrite E1, E2, E3. done.
  Qed.

  Lemma same_bytes_ext l l' p p' x :
    c_phase (at_ l' x) = c_phase (at_ l x) -> c_held (at_ l' x) = c_held (at_ l x) ->
    c_phase (at_ l' (other x)) = c_phase (at_ l (other x)) -> c_out (at_ l' (other x)) = c_out (at_ l (other x)) ->
    n_out (get p' (other x)) = n_out (get p (other x)) -> same_bytes l p x -> same_bytes l' p' x.
  Proof. unfold same_bytes, arriving, before_init. cbv zeta. intros -> -> -> -> ->. done. Qed.
  Definition with_out (l : link) (x : side) (o : bytes) : link := with_ l x (set_out (at_ l x) o).
  Definition with_queue (p : pair) (x : side) (q : list packet) : pair :=
    put p x (Node (n_sess (get p x)) q (n_log (get p x)) (n_stores (get p x))).
  Lemma finish l p x c' n' o qy q m :
    same l p -> c_out c' = c_out (at_ l x) ++ m -> n_out n' = n_out (get p x) ++ q ->
    ((c_phase c' = c_phase (at_ l x) /\ is_live c' = false /\ m = [] /\ q = []) \/
     (c_phase (at_ l x) = Hello /\ c_phase c' = Offer /\ m = initmsg x /\ q = [] /\ n_out (get p x) = []) \/
     (c_phase (at_ l x) = Offer /\ is_live c' = true /\ m = [] /\ q = []) \/
     (is_live (at_ l x) = true /\ is_live c' = true /\ m = enc q) \/
     (is_live (at_ l x) = false /\ c_phase c' = Dead /\ m = [] /\ q = [])) ->
    same_side c' n' -> (n_out (get p (other x)) = [] -> qy = []) ->
    same_bytes (with_ (with_out l (other x) o) x c') (put (with_queue p (other x) qy) x n') x ->
    (forall y, opening (with_ (with_out l (other x) o) x c') y) ->
    same (with_ (with_out l (other x) o) x c') (put (with_queue p (other x) qy) x n').
  Proof.
    intros H Hm Hq Hc Hs Hqy Hx Ho. split; [|intros y..].
    - intros y. destruct (side_cases x y) as [-> | ->].
      + by rewrite at_with_same, get_put_same.
      + rewrite at_with_other, get_put_other. unfold with_out, with_queue. rewrite at_with_same, get_put_same.
        pose proof (sa_side _ _ H (other x)) as Hy. unfold same_side in *. cbn. destruct (c_phase (at_ l (other x))) eqn:E; try done.
        all: destruct Hy as (Hn & ? & ?); rewrite Hn in *; cbn in *; rewrite Hqy by done; done.
    - destruct (side_cases x y) as [-> | ->]; [exact Hx|].
      eapply same_bytes_ext; [..|by eapply (same_bytes_write l p x c' n')].
      + rewrite !at_with_other. unfold with_out. by rewrite at_with_same.
      + rewrite !at_with_other. unfold with_out. by rewrite at_with_same.
      + by rewrite other_other, !at_with_same.
      + by rewrite other_other, !at_with_same.
      + by rewrite other_other, !get_put_same.
    - apply Ho.
  Qed.

  Lemma out_same l x : with_out l x (c_out (at_ l x)) = l.
  Proof. unfold with_out. apply set_out_same. Qed.
  Lemma queue_same p x : with_queue p x (n_out (get p x)) = p.
  Proof. unfold with_queue. apply put_id. Qed.
  Lemma put_get p x : put p x (get p x) = p.
  Proof. by destruct p, x. Qed.
  Lemma sys_run_snoc es e : sys_run (es ++ [e]) = sys_step (sys_run es) e.
  Proof. unfold TcpclPair.sys_run. by rewrite fold_left_app. Qed.

  (** the session at [x] reacts and nothing is read *)
  Lemma same_react l p d s x e : same l p -> c_phase (at_ l x) = Live d s -> is_terminated s = false ->
    (c_held (at_ l x) = [] \/ is_terminated (fst (step parse_id (refuse x) 64000 s e)) = true) ->
    (forall y, opening (with_ l x (react1 parse_id (refuse x) (at_ l x) d s e [])) y) ->
    same (with_ l x (react1 parse_id (refuse x) (at_ l x) d s e [])) (put p x (react parse_id refuse mru x (get p x) e [])).
  Proof.
    intros H E Ht Hh Ho. destruct (react_same l p d s x e [] H E) as (R1 & R2 & R3).
    pose proof (finish l p x (react1 parse_id (refuse x) (at_ l x) d s e []) (react parse_id refuse mru x (get p x) e []) (c_out (at_ l (other x))) (n_out (get p (other x)))) as F.
    rewrite out_same, queue_same in F. eapply F; try done.
    - right; right; right; left. unfold is_live. rewrite E. done.
    - pose proof (sa_open _ _ H x) as Hox. pose proof (sa_bytes _ _ H x) as Hb. unfold same_bytes, TcpclLinkSim.opening in *. cbv zeta in *.
      rewrite at_with_same, at_with_other, get_put_other. rewrite E in *. destruct Hox as [-> _]. cbn [react1 c_phase c_held agreed si_segment_mru].
      intros Ht'. destruct Hh as [Hh|Hh]; [|cbn in Ht'; congruence]. rewrite Hh in Hb. by apply Hb.
  Qed.
  Lemma same_dead l p x : same l p -> is_live (at_ l x) = false -> (forall y, opening (with_ l x (dead (at_ l x))) y) -> same (with_ l x (dead (at_ l x))) p.
  Proof.
    intros H E Ho. pose proof (finish l p x (dead (at_ l x)) (get p x) (c_out (at_ l (other x))) (n_out (get p (other x))) [] []) as F.
    rewrite out_same, queue_same, put_get, !app_nil_r in F. apply F; try done.
    - right; right; right; right. done.
    - pose proof (sa_side _ _ H x) as Hs. unfold same_side, is_live in *. cbn. destruct (c_phase (at_ l x)); try done.
    - unfold same_bytes. cbv zeta. by rewrite at_with_same.
  Qed.

  (** the messages of one more event of the link *)
  Definition ext (e : lev) (es : list lev) (es' es2 : list sys_event) : Prop :=
    explains (es ++ [e]) es2 /\ (es2 = es' \/ exists se, es2 = es' ++ [se] /\ origin e se).
  Lemma ext_skip es es' e : explains es es' -> ext e es es' es'.
  Proof. intros H. split; [by apply explains_skip|by left]. Qed.
  Lemma ext_both es es' e se : origin e se -> explains es es' -> ext e es es' (es' ++ [se]).
  Proof. intros H1 H2. split; [by apply explains_both|]. right. by exists se. Qed.

  Lemma sim_step es es' e : same (lrun es) (sys_run es') -> explains es es' -> lmoderate (es ++ [e]) -> no_loss (lrun es) e ->
    exists es2, same (lrun (es ++ [e])) (sys_run es2) /\ ext e es es' es2.
  Proof.
    intros H Hex Hmo Hnl. assert (Hw : winv utf8_lossy data_of es' (sys_run es')).
    { apply sys_winv. eapply explains_moderate; [by eapply lmoderate_prefix|done]. }
    rewrite lrun_snoc. set (l := lrun es) in *.
    assert (Ho : forall y, opening (lstep l e) y) by (apply step_opening; [done|apply H]).
    assert (Skip : lstep l e = l -> exists es2, same (lstep l e) (sys_run es2) /\ ext e es es' es2).
    { intros ->. exists es'. split; [done|by apply ext_skip]. }
    assert (Other : forall x ev se, lstep l e = (if busy cap l x then l else with_ l x (other_branch parse_id (refuse x) (at_ l x) ev)) ->
      sys_step (sys_run es') se = put (sys_run es') x (react parse_id refuse mru x (get (sys_run es') x) ev []) ->
      origin e se -> c_held (at_ (lstep l e) x) = c_held (at_ l x) ->
      exists es2, same (lstep l e) (sys_run es2) /\ ext e es es' es2).
    { intros x ev se El Es He Hh. destruct (busy cap l x); [by apply Skip|].
      unfold other_branch in El. destruct (c_phase (at_ l x)) as [| |d s|] eqn:E;
        try (apply Skip; rewrite El; by destruct l, x).
      destruct (is_terminated s) eqn:Et; [apply Skip; rewrite El; by destruct l, x|].
      assert (Do : lstep l e = with_ l x (react1 parse_id (refuse x) (at_ l x) d s ev []) ->
        exists es2, same (lstep l e) (sys_run es2) /\ ext e es es' es2).
      { intros El2. exists (es' ++ [se]). split; [|by apply ext_both]. rewrite sys_run_snoc, Es. rewrite El2 in *.
        rewrite at_with_same in Hh. cbn in Hh. apply same_react; try done. by left. }
      destruct ev; try (by apply Do).
      all: destruct (s_send s); try (by apply Do); apply Skip; rewrite El; by destruct l, x. }
    destruct e as [x n v|x h resp|x|x|x].
    - (* reading *)
      clear Other Hnl. cbn [TcpclLink.lstep] in *. destruct (busy cap l x); [by apply Skip|].
      clear Skip. set (p := sys_run es') in *.
      set (o := c_out (at_ l (other x))) in *. unfold TcpclLink.poll in *.
      pose proof (sa_bytes _ _ H x) as Hb. pose proof (sa_open _ _ H x) as Hox. pose proof (sa_side _ _ H x) as Hsx.
      unfold same_bytes in Hb. unfold TcpclLinkSim.opening in Hox. cbv zeta in Hb, Hox. unfold same_side in Hsx.
      assert (Hs : (c_held (at_ l x) ++ take n o) ++ drop n o = c_held (at_ l x) ++ o) by (by rewrite <- app_assoc, take_drop).
      assert (Hp : put (with_queue p (other x) (n_out (get p (other x)))) x (get p x) = p) by (by rewrite queue_same, put_get).
      set (q := n_out (get p (other x))) in *.
      destruct (c_phase (at_ l x)) as [| |d s|] eqn:E.
      + (* contact header *)
        destruct Hb as (bs & Hb & Har). change (c_held (at_ l x) ++ o = hdr 0 ++ bs) in Hb. rewrite Hb in Hs. pose proof (hello_read _ _ _ Hs) as P.
        destruct Hsx as (Hn & Hl1 & Hl2).
        destruct (receive_contact_header _) as [t r| |]; cbn [fst snd] in *; [| |done]; exists es'; (split; [|by apply ext_skip]); fold p; rewrite <- Hp.
        * change (with_ l (other x) (set_out (at_ l (other x)) (r ++ drop n o))) with (with_out l (other x) (r ++ drop n o)) in *.
          eapply (finish l p x _ _ _ _ [] (initmsg x)); try done; rewrite ?app_nil_r; try done.
          -- right; left. rewrite E, Hn. done.
          -- unfold same_bytes. cbv zeta. rewrite at_with_same, at_with_other. unfold with_out. rewrite at_with_same, get_put_other. unfold with_queue. rewrite get_put_same. cbn.
             rewrite P. exact Har.
        * cbn [app] in *. change (with_ l (other x) (set_out (at_ l (other x)) (drop n o))) with (with_out l (other x) (drop n o)) in *.
          eapply (finish l p x _ _ _ _ [] []); try done; rewrite ?app_nil_r; try done.
          -- left. by rewrite E.
          -- unfold same_bytes. cbv zeta. rewrite at_with_same, at_with_other. unfold with_out. rewrite at_with_same, get_put_other. unfold with_queue. rewrite get_put_same. cbn.
             exists bs. split; [exact Hs|exact Har].
      + (* session parameters *)
        destruct Hsx as (Hn & Hl1 & Hl2). change (arriving (other x) (at_ l (other x)) q (c_held (at_ l x) ++ o)) in Hb.
        destruct Hb as [[H0 Hbi]|[Hne Hb]].
        * rewrite H0 in Hs. rewrite (nil_read _ _ _ Hs) in *. cbn [fst snd app] in *. exists es'. split; [|by apply ext_skip]. fold p. rewrite <- Hp.
          change (with_ l (other x) (set_out (at_ l (other x)) (drop n o))) with (with_out l (other x) (drop n o)) in *.
          eapply (finish l p x _ _ _ _ [] []); try done; rewrite ?app_nil_r; try done.
          -- left. by rewrite E.
          -- unfold same_bytes. cbv zeta. rewrite at_with_same, at_with_other. unfold with_out. rewrite at_with_same, get_put_other. unfold with_queue. rewrite get_put_same. cbn.
             left. split; [exact Hs|exact Hbi].
        * rewrite Hb in Hs. assert (Hwi : wf_packet utf8_lossy (PSessInit (local_params (own (other x))))) by (destruct (Hown (other x)); cbn; repeat split; try lia; done).
          pose proof (wf_read _ _ _ _ _ Hwi Hs) as P.
          destruct (read utf8_lossy _) as [pk r| |]; cbn [fst snd] in *; [|..|done].
          -- destruct P as [-> P]. destruct (greet _ _ _ _) as [nl|]; cbn [fst snd] in *.
             ++ exists es'. split; [|by apply ext_skip]. fold p. rewrite <- Hp.
                change (with_ l (other x) (set_out (at_ l (other x)) (r ++ drop n o))) with (with_out l (other x) (r ++ drop n o)) in *.
                eapply (finish l p x _ _ _ _ [] []); try done; rewrite ?app_nil_r; try done.
                ** right; right; left. done.
                ** unfold same_side. cbn. rewrite Hn, Hl1, Hl2. done.
                ** unfold same_bytes. cbv zeta. rewrite at_with_same, at_with_other. unfold with_out. rewrite at_with_same, get_put_other. unfold with_queue. rewrite get_put_same. cbn.
                   intros _. rewrite P. done.
             ++ exists es'. split; [|by apply ext_skip]. fold p. rewrite <- Hp.
                change (with_ l (other x) (set_out (at_ l (other x)) (r ++ drop n o))) with (with_out l (other x) (r ++ drop n o)) in *.
                eapply (finish l p x _ _ _ _ [] []); try done; rewrite ?app_nil_r; try done.
                ** right; right; right; right. unfold is_live. rewrite E. done.
                ** unfold same_bytes. cbv zeta. by rewrite at_with_same.
          -- exists es'. split; [|by apply ext_skip]. fold p. rewrite <- Hp. cbn [app] in *.
             change (with_ l (other x) (set_out (at_ l (other x)) (drop n o))) with (with_out l (other x) (drop n o)) in *.
             eapply (finish l p x _ _ _ _ [] []); try done; rewrite ?app_nil_r; try done.
             ++ left. by rewrite E.
             ++ unfold same_bytes. cbv zeta. rewrite at_with_same, at_with_other. unfold with_out. rewrite at_with_same, get_put_other. unfold with_queue. rewrite get_put_same. cbn.
                right. split; [exact Hne|exact Hs].
      + (* session *)
        destruct Hox as [-> Hne]. destruct (is_terminated s) eqn:Et.
        { cbn [fst snd] in *. rewrite take_drop in *. unfold o in *. rewrite set_out_same in *. exists es'. split; [|by apply ext_skip].
          replace (with_ l x (at_ l x)) with l by (by destruct l, x). exact H. }
        specialize (Hb eq_refl). change (c_held (at_ l x) ++ o = enc q) in Hb. rewrite Hb in Hs.
        assert (Wait : same (with_ (with_out l (other x) ([] ++ drop n o)) x (Conn (Live (agreed x) s) (c_held (at_ l x) ++ take n o) (c_out (at_ l x)) (c_log (at_ l x)) (c_stores (at_ l x)) (c_new (at_ l x)))) p \/ read utf8_lossy (c_held (at_ l x) ++ take n o) <> RWait).
        { destruct (read utf8_lossy _) as [? ?| |] eqn:Er; [by right| |by right]. left. cbn [fst snd] in Ho. rewrite <- Hp. eapply (finish l p x _ _ _ _ [] []); try done; rewrite ?app_nil_r; try done.
          - right; right; right; left. unfold is_live. rewrite E. done.
          - unfold same_bytes. cbv zeta. rewrite at_with_same, at_with_other. unfold with_out. rewrite at_with_same, get_put_other. unfold with_queue. rewrite get_put_same. cbn. intros _. exact Hs. }
        destruct q as [|pk q'] eqn:Eq.
        * rewrite (nil_read _ _ _ Hs) in *. destruct Wait as [Wait|]; [|done]. exists es'. split; [exact Wait|by apply ext_skip].
        * pose proof (wi_out _ _ _ _ Hw (other x)) as Hwf. fold p in Hwf. unfold q in Eq. rewrite Eq in Hwf. apply Forall_cons in Hwf as [Hwf _].
          pose proof (wf_read _ _ _ _ _ Hwf Hs) as P. destruct (read utf8_lossy _) as [pk2 r| |]; [|destruct Wait as [Wait|]; [|done]; exists es'; split; [exact Wait|by apply ext_skip]|done].
          destruct P as [-> P]. cbn [fst snd] in *. exists (es' ++ [Deliver x (v_has v) (v_resp v)]). split; [|apply ext_both; [by exists n, v|done]].
          rewrite sys_run_snoc. fold p. cbn [TcpclPair.sys_step]. rewrite Eq. unfold pop. rewrite Eq. cbn [tail].
          change (put p (other x) (Node (n_sess (get p (other x))) q' (n_log (get p (other x))) (n_stores (get p (other x))))) with (with_queue p (other x) q').
          destruct (react_same l p (agreed x) s x (EvPacket pk (v_has v) (v_resp v)) [v_has v] H E) as (R1 & R2 & R3).
          change (with_ l (other x) (set_out (at_ l (other x)) (r ++ drop n o))) with (with_out l (other x) (r ++ drop n o)) in *.
          eapply finish; try done.
          -- right; right; right; left. unfold is_live. rewrite E. done.
          -- rewrite Eq. done.
          -- unfold same_bytes. cbv zeta. rewrite at_with_same, at_with_other. unfold with_out. rewrite at_with_same, get_put_other. unfold with_queue. rewrite get_put_same. cbn.
             intros _. exact P.
      + cbn [fst snd] in *. rewrite take_drop in *. unfold o in *. rewrite set_out_same in *. exists es'. split; [|by apply ext_skip].
        replace (with_ l x (at_ l x)) with l by (by destruct l, x). exact H.
    - by apply (Other x (EvSubmit (data_of h) h resp) (Submit x h resp)).
    - by apply (Other x EvTimeout (Timeout x)).
    - by apply (Other x EvQueueClosed (Close x)).
    - (* failure *)
      cbn [TcpclLink.lstep] in *. unfold fail in *. destruct (c_phase (at_ l x)) as [| |d s|] eqn:E.
      1,2,4: exists es'; split; [|by apply ext_skip]; apply same_dead; try done; unfold is_live; by rewrite E.
      destruct (is_terminated s) eqn:Et; [apply Skip; by destruct l, x|].
      exists (es' ++ [Break x]). split; [|by apply ext_both]. rewrite sys_run_snoc. cbn [TcpclPair.sys_step]. apply same_react; try done. right. unfold step. rewrite Et. done.
  Qed.
  (** no event other than reading and failing changes what has been read of a message *)
  Definition nothing_abandoned (es : list lev) : Prop := forall es1 e es2, es = es1 ++ e :: es2 -> no_loss (lrun es1) e.
  Theorem sim es : lmoderate es -> nothing_abandoned es -> exists es', same (lrun es) (sys_run es') /\ explains es es'.
  Proof.
    induction es as [|e es IH] using rev_ind; intros Hm Hn.
    - exists []. split; [apply same_init|]. split; try done; intros; exfalso; by eapply elem_of_nil.
    - destruct IH as (es' & H1 & H2).
      + by eapply lmoderate_prefix.
      + intros es1 e1 es2 ->. apply (Hn es1 e1 (es2 ++ [e])). by rewrite <- app_assoc.
      + destruct (sim_step es es' e H1 H2 Hm) as (es2 & H3 & H4 & _); [by apply (Hn es e [])|]. by exists es2.
  Qed.
End Sim.
