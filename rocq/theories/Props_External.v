(** C31, C62: external routing (model: External.v). *)
From Verif Require Import Core Peers PeersProofs Routing External IdProofs ExternalProofs.
From stdpp Require Import prelude strings pretty gmap.
From Coq Require Import NArith Lia.
Open Scope N_scope.

(** ** Vocabulary *)
(** the queries made so far, in order *)
Definition queries (es : list xev) : list pack := omap (fun e => match e with XAsk p _ => Some p | _ => None end) es.
(** what query number [n] returned (if it did) *)
Definition returned (es : list xev) (n : nat) (a : answer) : Prop :=
  exists q, x_req (xrun es) !! n = Some q /\ rq_st q = Done a.
(** whether a router is connected after [es] *)
Definition connected (es : list xev) : bool :=
  foldl (fun b e => match e with XConnect => true | XDisconnect => false | _ => b end) false es.
(** the texts under which a set of constraints may be printed *)
Definition valid (e : xev) : Prop :=
  match e with
  | XAsk p ord => enumerates ord (p_cons p)
  | XRespond r ord => enumerates ord (p_cons (rs_pack r))
  | _ => True
  end.
(** [s] is what instruction [i] says, on layer [c] *)
Definition carries_out (clas : list cla) (i : instr) (s : sender) : Prop :=
  sd_cla s = in_agent i /\ sd_hop s = in_hop i /\
  exists c, c ∈ clas /\ cl_name c = in_agent i /\ sd_chan s = cl_chan c /\
    sd_dest s = addr_string (in_remote i) +:+ ":" +:+ pretty (match in_port i with Some p => p | None => cl_port c end).
Definition known_agent (clas : list cla) (i : instr) : Prop := in_agent i ∈ map cl_name clas.
Global Instance known_agent_dec clas i : Decision (known_agent clas i).
Proof. unfold known_agent. apply _. Defined.

(** ** C31 *)
Lemma unpack_spec clas r : Forall2 (carries_out clas) (filter (known_agent clas) (rs_clas r)) (fst (unpack clas r)) /\ snd (unpack clas r) = rs_delete r.
Proof.
  split; [|done]. unfold unpack. cbn [fst]. induction (rs_clas r) as [|i l IH]; [constructor|]. rewrite filter_cons. cbn [omap list_omap].
  destruct (unpack_one clas i) as [s|] eqn:E.
  - apply first_some_Some in E as (j & c & Hj & Hf & _). case_bool_decide as Ea; [|done]. injection Hf as <-.
    rewrite decide_True by (unfold known_agent; rewrite Ea; apply elem_of_list_fmap; exists c; split; [done|by eapply elem_of_list_lookup_2]).
    constructor; [|exact IH]. split; [done|]. split; [done|]. exists c. split; [by eapply elem_of_list_lookup_2|]. split; [done|]. split; [done|].
    cbn. unfold dest_string. by destruct (in_port i).
  - rewrite decide_False; [exact IH|]. intros (c & Hc & Hin)%elem_of_list_fmap. unfold unpack_one in E. rewrite first_some_None in E.
    specialize (E c Hin). by rewrite bool_decide_true in E.
Qed.
Lemma queries_asks es : queries es = map fst (asks es).
Proof. unfold queries, asks. induction es as [|e es IH]; [done|]. destruct e; cbn; by rewrite ?IH. Qed.
Lemma conn_run es : x_conn (xrun es) = connected es.
Proof.
  unfold connected. induction es as [|e es IH] using rev_ind; [done|]. rewrite xrun_snoc, foldl_app. cbn [foldl]. rewrite <- IH.
  set (st := xrun es). destruct e as [| |p ord|r ord|n clas|n]; cbn [xstep]; try done.
  - destruct (x_conn st) eqn:E; cbn; [by rewrite conn_drop|done].
  - destruct (x_conn st) eqn:E; [|done]. destruct (x_resp st !! _); done.
  - destruct (x_req st !! n) as [q|]; [|done]. destruct (rq_st q); cbn; by rewrite ?conn_drop.
  - destruct (x_req st !! n) as [q|]; [|done]. destruct (rq_st q); cbn; by rewrite ?conn_drop.
Qed.
(** A query that returned anything but "nothing" was answered: a response with
    the same bundle id and the same constraints arrived after the query was
    made; the bundle goes where this response says, in its order, leaving out
    exactly the convergence layers this node does not run, and it is deleted
    as the response says. *)
Theorem C31_only_matching_answers : forall es n a p,
  Forall valid es -> returned es n a -> queries es !! n = Some p -> a <> ([], false) ->
  exists es1 r ord es2 clas es3,
    es = es1 ++ XRespond r ord :: es2 ++ XWake n clas :: es3 /\
    (n < length (queries es1))%nat /\
    p_id (rs_pack r) = p_id p /\ (forall c, has_c (p_cons (rs_pack r)) c = has_c (p_cons p) c) /\
    Forall2 (carries_out clas) (filter (known_agent clas) (rs_clas r)) (fst a) /\ snd a = rs_delete r.
Proof.
  intros es n a p Hv (q & Hq & Hst) Hp Ha. destruct (xinv_run es) as (H1 & _ & H3). pose proof (H3 _ _ Hq) as Hok. unfold ok_call in Hok. rewrite Hst in Hok.
  destruct Hok as [->|(es1 & r & o & es2 & clas & es3 & Hes & Hn & Hd & Hu)]; [done|].
  exists es1, r, o, es2, clas, es3. split; [done|]. split; [by rewrite queries_asks, map_length|].
  unfold rq_key in Hd. apply describe_inj in Hd as [Hid Ho].
  assert (Hcall : asks es !! n = Some (rq_pack q, rq_ord q)) by (rewrite <- H1; unfold calls; rewrite (list_lookup_fmap (fun q => (rq_pack q, rq_ord q))), Hq; done).
  assert (Hpq : p = rq_pack q) by (rewrite queries_asks in Hp; rewrite (list_lookup_fmap fst), Hcall in Hp; by injection Hp as <-).
  subst p. split; [done|]. split.
  - assert (Hr : enumerates o (p_cons (rs_pack r))).
    { rewrite Hes in Hv. apply Forall_app in Hv as [_ Hv]. apply Forall_cons in Hv as [Hv _]. exact Hv. }
    assert (Hqo : enumerates (rq_ord q) (p_cons (rq_pack q))).
    { apply elem_of_list_lookup_2 in Hcall. unfold asks in Hcall. apply elem_of_list_omap in Hcall as (e & He & Hee).
      rewrite Forall_forall in Hv. specialize (Hv e He). destruct e; try done. injection Hee as -> ->. exact Hv. }
    intros c. destruct Hr as [_ Hr], Hqo as [_ Hqo]. specialize (Hr c). specialize (Hqo c). subst o.
    destruct (has_c (p_cons (rs_pack r)) c) eqn:E1, (has_c (p_cons (rq_pack q)) c) eqn:E2; try done.
    + symmetry. apply Hqo, Hr. done.
    + apply Hr, Hqo. done.
  - subst a. apply unpack_spec.
Qed.
Print Assumptions C31_only_matching_answers.
(** One response serves one query. *)
Theorem C31_response_used_once : forall es,
  (length (List.filter (fun q => match rq_st q with Done ([], false) => false | Done _ => true | _ => false end) (x_req (xrun es)))
     <= length (List.filter (fun e => match e with XRespond _ _ => true | _ => false end) es))%nat.
Proof.
  intros es. pose proof (credits_run es) as H.
  assert (H1 : (length (List.filter (fun q => match rq_st q with Done ([], false) => false | Done _ => true | _ => false end) (x_req (xrun es))) <= credits (x_req (xrun es)))%nat).
  { clear H. unfold credits. induction (x_req (xrun es)) as [|q l IH]; [done|]. 
    destruct q as [qp qo [| | |[[|] []]]]; cbn [List.filter sum_list_with credit rq_st length]; lia. }
  assert (H2 : responds es = length (List.filter (fun e => match e with XRespond _ _ => true | _ => false end) es)).
  { unfold responds. clear. induction es as [|e es IH]; [done|]. cbn [List.filter sum_list_with]. destruct e; cbn [length]; lia. }
  lia.
Qed.
Print Assumptions C31_response_used_once.
(** Without a connected router a query returns at once, with nothing. *)
Theorem C31_no_router : forall es p ord es2,
  connected es = false -> returned (es ++ XAsk p ord :: es2) (length (queries es)) ([], false).
Proof.
  intros es p ord es2 Hc. set (n := length (queries es)).
  assert (Hkeep : forall es' st, (exists q, x_req st !! n = Some q /\ rq_st q = Done ([], false)) ->
     exists q, x_req (foldl xstep st es') !! n = Some q /\ rq_st q = Done ([], false)).
  { clear. intros es'. induction es' as [|e es' IH]; intros st (q & Hq & Hst); [by exists q|]. cbn [foldl]. apply IH.
    assert (Hd : forall k, exists q', x_req (drop_key k st) !! n = Some q' /\ rq_st q' = Done ([], false)).
    { intros k. destruct (req_drop_ex k st n q Hq) as [q' Hq']. exists q'. split; [done|].
      destruct (req_drop _ _ _ _ Hq') as (q0 & Hq0 & _ & Hcc). rewrite Hq in Hq0. injection Hq0 as <-. destruct Hcc as [->|(_ & Hw & _)]; [done|congruence]. }
    assert (Hu : forall m s st', (exists q', x_req st' !! n = Some q' /\ rq_st q' = Done ([], false)) -> m <> n ->
       exists q', upd m s (x_req st') !! n = Some q' /\ rq_st q' = Done ([], false)).
    { intros m s st' (q' & Hq' & Hs') Hne. exists q'. unfold upd. rewrite list_lookup_alter_ne by done. done. }
    destruct e as [| |p ord|r ord|m clas|m]; cbn [xstep].
    - by exists q.
    - by exists q.
    - destruct (x_conn st); cbn [x_req].
      + destruct (Hd (describe (p_id p) ord)) as (q' & Hq' & Hs'). exists q'. split; [|done]. rewrite lookup_app_l; [done|by eapply lookup_lt_Some].
      + exists q. split; [|done]. rewrite lookup_app_l; [done|by eapply lookup_lt_Some].
    - destruct (x_conn st); [|by exists q]. destruct (x_resp st !! _) as [m|]; [|by exists q]. cbn [x_req].
      destruct (decide (m = n)) as [->|Hne]; [rewrite list_lookup_alter, Hq; cbn; rewrite Hst; by eexists|rewrite list_lookup_alter_ne by done; by exists q].
    - destruct (x_req st !! m) as [q1|] eqn:Em; [|by exists q].
      assert (Hmn : rq_st q1 <> Done ([], false) -> m <> n) by (intros Hx ->; rewrite Hq in Em; injection Em as <-; done).
      destruct (rq_st q1) eqn:E1; [by exists q| | |by exists q]; cbn [x_req]; apply Hu; [apply Hd|by apply Hmn|apply Hd|by apply Hmn].
    - destruct (x_req st !! m) as [q1|] eqn:Em; [|by exists q].
      assert (Hmn : rq_st q1 <> Done ([], false) -> m <> n) by (intros Hx ->; rewrite Hq in Em; injection Em as <-; done).
      destruct (rq_st q1) eqn:E1; try (by exists q). cbn [x_req]. apply Hu; [apply Hd|by apply Hmn]. }
  unfold returned, xrun. rewrite foldl_app. cbn [foldl]. apply Hkeep. fold (xrun es). cbn [xstep]. rewrite conn_run, Hc. cbn [x_req].
  destruct (xinv_run es) as (H1 & _). apply calls_len in H1. exists (Request p ord (Done ([], false))). split; [|done].
  apply list_lookup_middle. subst n. by rewrite queries_asks, map_length.
Qed.
Print Assumptions C31_no_router.

Definition ex_pack (cs : cset) : pack := Pack (Dtn "src" "") (Dtn "z" "in") 0 0 0 "dtn://src/-0-0" false cs.
Definition ex_fwd : cset := set_c no_constraints ForwardPending true.
Definition ex_both : cset := set_c ex_fwd LocalEndpoint true.
Definition ex_resp (cs : cset) : response :=
  Response (ex_pack cs) [Instr (AIp "10.0.0.1") None "mtcp" (Dtn "a" ""); Instr (AIp "10.0.0.2") (Some 99) "udp" (Dtn "b" "")] true.
Definition ex_clas : list cla := [Cla 0 "tcp" true 4556; Cla 1 "mtcp" false 16162].
Example C31_case :
  map rq_st (x_req (xrun [XConnect; XAsk (ex_pack ex_fwd) [ForwardPending]; XRespond (ex_resp ex_both) [ForwardPending; LocalEndpoint];
     XRespond (ex_resp ex_fwd) [ForwardPending]; XWake 0 ex_clas; XDisconnect; XAsk (ex_pack ex_fwd) [ForwardPending]])) =
  [Done ([Sender 1 "10.0.0.1:16162" "mtcp" (Dtn "a" "")], true); Done ([], false)].
Proof. vm_compute. reflexivity. Qed.

(** ** C62 *)
(** A matching answer that arrives while the query is running is used. *)
Definition C62_full : Prop := forall es p ord mid r ord' clas,
  let n := length (queries es) in
  let h := es ++ XAsk p ord :: mid in
  Forall valid (h ++ [XRespond r ord']) -> connected es = true -> connected h = true ->
  (** the query has not run into its timeout, nobody answered it yet *)
  XExpire n ∉ mid -> (forall r' o', XRespond r' o' ∈ mid -> p_id (rs_pack r') <> p_id p) ->
  (** same bundle, same constraints *)
  p_id (rs_pack r) = p_id p -> (forall c, has_c (p_cons (rs_pack r)) c = has_c (p_cons p) c) ->
  exists es2, Forall (fun e => exists m, e = XWake m clas) es2 /\ returned (h ++ XRespond r ord' :: es2) n (unpack clas r).
(** Counterexample 1: a second query for the same bundle closes the channel of
    the first one. *)
Lemma enum_fwd : enumerates [ForwardPending] ex_fwd.
Proof. split; [apply NoDup_singleton|]. intros c. rewrite elem_of_list_singleton. by destruct c. Qed.
Lemma enum_both o : o = [ForwardPending; LocalEndpoint] \/ o = [LocalEndpoint; ForwardPending] -> enumerates o ex_both.
Proof.
  intros [->| ->]; (split; [repeat constructor; rewrite ?elem_of_list_singleton; try done; by intros ?%elem_of_nil|]);
  intros c; rewrite !elem_of_cons, elem_of_nil; destruct c; cbn; split; intros H; try done; try (by destruct H as [?|[?|?]]); auto.
Qed.
Lemma never_done n es2 clas : forall st, Forall (fun e => exists m, e = XWake m clas) es2 ->
  (exists q, x_req st !! n = Some q /\ (rq_st q = Dropped \/ rq_st q = Waiting \/ rq_st q = Done ([], false))) ->
  exists q, x_req (foldl xstep st es2) !! n = Some q /\ (rq_st q = Dropped \/ rq_st q = Waiting \/ rq_st q = Done ([], false)).
Proof.
  induction es2 as [|e es2 IH]; intros st Hf Hq; [done|]. apply Forall_cons in Hf as [[m ->] Hf]. cbn [foldl]. apply IH; [done|]. cbn [xstep].
  destruct Hq as (q & Hq & Hs). destruct (x_req st !! m) as [q1|] eqn:Em; [|by exists q].
  assert (Hd : exists q', x_req (drop_key (rq_key q1) st) !! n = Some q' /\ (rq_st q' = Dropped \/ rq_st q' = Waiting \/ rq_st q' = Done ([], false))).
  { destruct (req_drop_ex (rq_key q1) st n q Hq) as [q' Hq']. exists q'. split; [done|].
    destruct (req_drop _ _ _ _ Hq') as (q0 & Hq0 & _ & Hc). rewrite Hq in Hq0. injection Hq0 as <-. destruct Hc as [->|(_ & _ & Hx)]; auto. }
  destruct (rq_st q1) as [|r o| |a] eqn:E1; [by exists q| | |by exists q]; cbn [x_req]; unfold upd.
  - destruct (decide (m = n)) as [->|Hne]; [|by rewrite list_lookup_alter_ne by done]. rewrite Hq in Em. injection Em as <-. rewrite E1 in Hs. by destruct Hs as [?|[?|?]].
  - destruct (decide (m = n)) as [->|Hne]; [|by rewrite list_lookup_alter_ne by done]. destruct Hd as (q' & Hq' & _). rewrite list_lookup_alter, Hq'. cbn. eexists. split; [done|]. auto.
Qed.
Lemma not_returned es n es2 clas r : Forall (fun e => exists m, e = XWake m clas) es2 ->
  (exists q, x_req (xrun es) !! n = Some q /\ (rq_st q = Dropped \/ rq_st q = Waiting \/ rq_st q = Done ([], false))) ->
  rs_delete r = true -> ~ returned (es ++ es2) n (unpack clas r).
Proof.
  intros Hf Hq Hr (q & Hq' & Hs). unfold xrun in Hq'. rewrite foldl_app in Hq'. fold (xrun es) in Hq'.
  destruct (never_done n es2 clas (xrun es) Hf Hq) as (q0 & Hq0 & Hs0). rewrite Hq' in Hq0. injection Hq0 as <-. rewrite Hs in Hs0.
  unfold unpack in Hs0. rewrite Hr in Hs0. by destruct Hs0 as [?|[?|?]].
Qed.
Theorem C62_overlapping_queries_refuted : ~ C62_full.
Proof.
  intros H.
  destruct (H [XConnect] (ex_pack ex_fwd) [ForwardPending] [XAsk (ex_pack ex_fwd) [ForwardPending]] (ex_resp ex_fwd) [ForwardPending] ex_clas) as (es2 & Hf & Hr).
  - repeat (apply Forall_cons; split; [first [exact I|apply enum_fwd]|]). constructor.
  - done.
  - done.
  - intros [?|?%elem_of_nil]%elem_of_cons; done.
  - intros r' o' [?|?%elem_of_nil]%elem_of_cons; done.
  - done.
  - done.
  - revert Hr. change (?h ++ XRespond ?r ?o :: es2) with (h ++ [XRespond r o] ++ es2). rewrite app_assoc. apply not_returned; [done| |done].
    eexists. split; [vm_compute; reflexivity|]. auto.
Qed.
Print Assumptions C62_overlapping_queries_refuted.
(** Counterexample 2: a single query; the router prints the same two
    constraints in the other order. *)
Theorem C62_constraint_order_refuted :
  let es := [XConnect; XAsk (ex_pack ex_both) [ForwardPending; LocalEndpoint]; XRespond (ex_resp ex_both) [LocalEndpoint; ForwardPending]] in
  Forall valid es /\ forall clas es2, Forall (fun e => exists m, e = XWake m clas) es2 -> ~ returned (es ++ es2) 0 (unpack clas (ex_resp ex_both)).
Proof.
  cbv zeta. split.
  - apply Forall_cons; split; [exact I|]. apply Forall_cons; split; [by apply enum_both; left|]. apply Forall_cons; split; [by apply enum_both; right|]. constructor.
  - intros clas es2 Hf. apply not_returned; [done| |done]. eexists. split; [vm_compute; reflexivity|]. auto.
Qed.
Print Assumptions C62_constraint_order_refuted.
(** Without other queries for that bundle in the meantime, and if the
    constraints print alike (always so for one constraint), it is used. *)
Theorem C62_timely_answer_partial : forall es p ord mid r clas,
  let n := length (queries es) in
  let h := es ++ XAsk p ord :: mid in
  connected es = true -> connected h = true ->
  (forall m q, x_req (xrun es) !! m = Some q -> p_id (rq_pack q) = p_id p -> exists a, rq_st q = Done a) ->
  (forall e, e ∈ mid -> match e with
     | XAsk p' _ => p_id p' <> p_id p | XRespond r' _ => p_id (rs_pack r') <> p_id p | XExpire m => m <> n | _ => True end) ->
  p_id (rs_pack r) = p_id p ->
  returned (h ++ [XRespond r ord; XWake n clas]) n (unpack clas r).
Proof.
  intros es p ord mid r clas n h Hc1 Hc2 Hother Hmid Hid.
  set (k := describe (p_id p) ord).
  assert (Hs0 : sole n k (xrun (es ++ [XAsk p ord]))).
  { rewrite xrun_snoc. cbn [xstep]. rewrite conn_run, Hc1. cbv zeta. fold k.
    assert (Hlen : length (x_req (drop_key k (xrun es))) = n).
    { rewrite len_drop. destruct (xinv_run es) as (H1 & _). apply calls_len in H1. subst n. by rewrite queries_asks, map_length. }
    rewrite Hlen. split; cbn [x_resp x_req]; [apply lookup_insert|].
    intros m q Hm Hkey Hmn. apply lookup_app_Some in Hm as [Hm|[Hl Hm]].
    - destruct (req_drop _ _ _ _ Hm) as (q0 & Hq0 & Hsame & Hcc). destruct (Hother m q0 Hq0) as [a Ha].
      { rewrite (same_key _ _ Hsame) in Hkey. unfold rq_key in Hkey. subst k. apply describe_inj in Hkey. tauto. }
      destruct Hcc as [->|(_ & Hw & _)]; [by exists a|congruence].
    - apply lookup_lt_Some in Hm. cbn in Hm. rewrite Hlen in *. lia. }
  assert (Hs1 : sole n k (xrun h)).
  { subst h. replace (es ++ XAsk p ord :: mid) with ((es ++ [XAsk p ord]) ++ mid) by (by rewrite <- app_assoc). apply sole_run; [done|].
    apply Forall_forall. intros e He. specialize (Hmid e He). destruct e; cbn; try done; by intros [? _]. }
  destruct (xinv_run h) as (_ & I2 & _). destruct Hs1 as [S1 S2]. destruct (I2 _ _ S1) as (q & Hq & Hw & Hk).
  unfold returned. replace (h ++ [XRespond r ord; XWake n clas]) with ((h ++ [XRespond r ord]) ++ [XWake n clas]) by (by rewrite <- app_assoc).
  rewrite !xrun_snoc. set (st1 := xstep (xrun h) (XRespond r ord)).
  assert (Hq' : x_req st1 !! n = Some (set_st q (Got r ord))).
  { subst st1. cbn [xstep]. rewrite conn_run, Hc2, Hid. fold k. rewrite S1. cbn [x_req].
    rewrite list_lookup_alter, Hq. cbn [fmap option_fmap option_map]. by rewrite Hw. }
  cbn [xstep]. rewrite Hq'. cbn [rq_st set_st]. change (rq_key (Request (rq_pack q) (rq_ord q) (Got r ord))) with (rq_key q).
  rewrite bool_decide_true by (rewrite Hid; symmetry; exact Hk). cbv zeta. cbn [x_req].
  match goal with |- context [drop_key ?kk st1] => destruct (req_drop_ex kk st1 n _ Hq') as [q2 Hq2] end. unfold upd. rewrite list_lookup_alter, Hq2. eexists. split; [reflexivity|done].
Qed.
Print Assumptions C62_timely_answer_partial.
Example C62_case :
  map rq_st (x_req (xrun [XConnect; XAsk (ex_pack ex_fwd) [ForwardPending]; XWake 0 []; XRespond (ex_resp ex_fwd) [ForwardPending]; XWake 0 ex_clas])) =
  [Done (unpack ex_clas (ex_resp ex_fwd))].
Proof. vm_compute. reflexivity. Qed.
