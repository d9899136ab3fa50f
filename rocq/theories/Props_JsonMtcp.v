(** C154-C157: the external convergence layer program that carries packets as JSON
    (model: JsonMtcp.v).  From JsonMtcpProofs.v: [of_conn c] the packets of a log
    that belong to connection [c], [jchunks es c] the pieces of bytes that arrived
    over it, [roomy es c] no frame of it was looked at while a hundred packets
    waited for the node, [smooth] nothing fails on the way out. *)
From stdpp Require Import prelude strings pretty gmap.
From Coq Require Import NArith Lia ZifyBool ZifyN ZifyNat.
From Verif Require Import Bytes Core Peers Ecla EclaProofs EclaInv EclaLive EclaWire EclaWireProofs Props_Ecla Props_EclaIn EclaMtcp EclaMtcpProofs Props_EclaMtcp JsonMtcp JsonMtcpProofs.
Open Scope N_scope.
Notation smooth := JsonMtcpProofs.smooth.
Notation sent_to := JsonMtcpProofs.sent_to.

(** ** C157: what goes out *)
(** the bundles the node hands over for address [d]; the client empties the source *)
Definition handed (d : string) (es : list jev) : list packet :=
  omap (fun e => match e with JNode (PForward _ dst id data) => if bool_decide (dst = d) then Some (PForward "" d id data) else None | _ => None end) es.
(** what a peer that reads frames gets of a stream, see Props_EclaWire.v: a length
    of four bytes and the JSON of a packet *)
Definition on_wire (to_json : packet -> bytes) (ps : list packet) : bytes :=
  concat (map (fun p => be 4 (blen (to_json p)) ++ to_json p) ps).
Lemma handed_given d es : handed d es = jgiven d es.
Proof.
  unfold handed, jgiven, jnode. induction es as [|e es IH]; [done|]. cbn. destruct e as [| | | | | | |p| |]; try done.
  destruct p as [| |x dst y data| |]; cbn; rewrite ?IH; try done. destruct (decide (dst = d)) as [->|Hd]; [by rewrite !bool_decide_true|by rewrite !bool_decide_false].
Qed.
Lemma on_wire_stream to_json ps : Forall (fun p => blen (to_json p) < 2^32) ps -> on_wire to_json ps = stream to_json ps.
Proof.
  unfold on_wire, stream, frame. induction 1 as [|p ps H F IH]; [done|]. cbn. rewrite IH, N.mod_small by done. done.
Qed.
Lemma of_conn_elem {A} c (log : list (nat * A)) p : p ∈ of_conn c log -> (c, p) ∈ log.
Proof. intros H. apply elem_of_list_omap in H as ([c' q] & Hx & E). cbn in E. case_bool_decide; [|done]. by injection E as ->; subst. Qed.
Lemma log_given to_json of_json es st x : jrun to_json of_json es jprog0 = Some st -> x ∈ jo_log (jp_out st) -> exists d, x.2 ∈ handed d es.
Proof.
  intros E Hx. pose proof (oinv_run _ _ _ _ E) as [V1 V2 V3 V4 V5]. destruct (V3 x Hx) as [o Ho]. exists (o_addr o). destruct (V4 (o_addr o)) as (took & A1 & A2 & _).
  rewrite handed_given, A1. apply elem_of_app. left. eapply elem_of_submseteq; [|by apply sublist_submseteq]. apply elem_of_list_omap. exists x. split; [done|]. by rewrite Ho, bool_decide_true.
Qed.
Definition jsmall (to_json : packet -> bytes) (lim : N) (es : list jev) : Prop := forall d p, p ∈ handed d es -> blen (to_json p) < lim.
(** A bundle that the node hands over is written at most once, on one connection
    to its address, in the order of the node.  What a connection carries is the
    beginning of the frames of the packets written there; all of them while it has
    not failed.  If nothing fails, every bundle is written except those still
    queued. *)
Theorem C157_out : forall to_json of_json es st, jrun to_json of_json es jprog0 = Some st -> jsmall to_json (2^32) es ->
  exists log : list (nat * packet),
    (forall sid o, jo_conns (jp_out st) !! sid = Some o ->
       o_bytes o `prefix_of` on_wire to_json (of_conn sid log) /\ (o_failed o = false -> o_bytes o = on_wire to_json (of_conn sid log))) /\
    (forall d, sublist (sent_to (jo_conns (jp_out st)) d log) (handed d es)) /\
    (Forall smooth es -> forall d, handed d es = sent_to (jo_conns (jp_out st)) d log ++ omap (for_dst d) (jo_rx (jp_out st))) /\
    (Forall smooth es -> forall sid o, jo_conns (jp_out st) !! sid = Some o -> o_failed o = false).
Proof.
  intros to_json of_json es st E Hs. pose proof (oinv_run _ _ _ _ E) as Hi. exists (jo_log (jp_out st)). split_and!.
  - intros sid o Ho. rewrite on_wire_stream; [by apply (v_bytes _ _ _ Hi)|]. apply Forall_forall. intros p Hp%of_conn_elem. destruct (log_given _ _ _ _ _ E Hp) as [d Hd]. by eapply Hs.
  - intros d. rewrite handed_given. destruct (v_given _ _ _ Hi d) as (took & -> & H & _). by apply sublist_inserts_r.
  - intros H d. rewrite handed_given. destruct (v_given _ _ _ Hi d) as (took & -> & _ & Ht). by rewrite (Ht H).
  - apply (v_smooth _ _ _ Hi).
Qed.
Print Assumptions C157_out.

(** Two peers; a connection breaks, the next write on it fails after two bytes,
    the packet after that goes over a new connection. *)
Definition jfwd_to (d : string) (k : N) : jev := JNode (PForward "n" d "x" [k]).
Definition jbroken : list jev := [JUp; jfwd_to "a" 1; jfwd_to "b" 2; jfwd_to "a" 3; jfwd_to "a" 4; jfwd_to "a" 5; JTake true None; JTake true None; JTake true (Some 2%nat); JTake true None].
Definition enc1 (p : packet) : bytes := match p with PForward _ _ _ d => d | _ => [] end.
Example C157_case : exists st, jrun enc1 (fun _ => None) jbroken jprog0 = Some st /\ jsmall enc1 (2^32) jbroken /\
  map (fun o => (o_addr o, o_bytes o, o_failed o)) (jo_conns (jp_out st)) = [("a", [0;0;0;1;1;0;0], true); ("b", [0;0;0;1;2], false); ("a", [0;0;0;1;4], false)] /\
  length (handed "a" jbroken) = 4%nat.
Proof.
  eexists. split; [vm_compute; reflexivity|]. split_and!; [|by vm_compute|by vm_compute].
  intros d p Hp. apply elem_of_list_omap in Hp as (e & He & E). destruct e as [| | | | | | |q| |]; try done. destruct q as [| |x dst y data| |]; try done. case_bool_decide; [|done]. injection E as <-. cbn.
  assert (Hall : Forall (fun e => match e with JNode (PForward _ _ _ d) => length d = 1%nat | _ => True end) jbroken) by (unfold jbroken; repeat constructor).
  rewrite Forall_forall in Hall. specialize (Hall _ He). cbn in Hall. unfold blen. rewrite Hall. lia.
Qed.

(** ** C154: two programs *)
(** Program [A] has a connection [sid] to program [B], where it is [c]; what has
    arrived there is the beginning of what was written. *)
Record linked (to_json : packet -> bytes) (of_json : bytes -> option packet) (esA : list jev) (A : jprog) (sid : nat) (o : outconn) (esB : list jev) (B : jprog) (c : nat) : Prop := Linked {
  l_a : jrun to_json of_json esA jprog0 = Some A;
  l_b : jrun to_json of_json esB jprog0 = Some B;
  l_o : jo_conns (jp_out A) !! sid = Some o;
  l_bytes : concat (jchunks esB c) `prefix_of` o_bytes o;
  l_json : forall d p, p ∈ handed d esA -> of_json (to_json p) = Some p
}.
(** the packets [A] wrote on the connection, those [B] took from it *)
Definition wrote (A : jprog) (sid : nat) : list packet := of_conn sid (jo_log (jp_out A)).
Definition took (B : jprog) (c : nat) : list packet := of_conn c (ji_log (jp_in B)).
(** everything has arrived and been looked at *)
Definition settled (to_json : packet -> bytes) (of_json : bytes -> option packet) (o : outconn) (esB : list jev) (B : jprog) (c : nat) : Prop :=
  o_failed o = false /\ concat (jchunks esB c) = o_bytes o /\ jstep to_json of_json (JHandle c) B = None.
Definition C154_full : Prop := forall to_json of_json esA A sid o esB B c,
  linked to_json of_json esA A sid o esB B c -> settled to_json of_json o esB B c -> took B c = wrote A sid.
Lemma omap_all to_json (of_json : bytes -> option packet) ps : (forall p, p ∈ ps -> of_json (to_json p) = Some p) -> omap of_json (map to_json ps) = ps.
Proof.
  induction ps as [|p ps IH]; intros H; [done|]. cbn. rewrite (H p) by (by left). f_equal. apply IH. intros q Hq. apply H. by right.
Qed.
Lemma wrote_json to_json of_json esA A sid o esB B c : linked to_json of_json esA A sid o esB B c -> forall p, p ∈ wrote A sid -> of_json (to_json p) = Some p.
Proof. intros L p Hp%of_conn_elem. destruct (log_given _ _ _ _ _ (l_a _ _ _ _ _ _ _ _ _ L) Hp) as [d Hd]. by eapply (l_json _ _ _ _ _ _ _ _ _ L). Qed.
Lemma wrote_small to_json of_json esA A sid o esB B c lim : linked to_json of_json esA A sid o esB B c -> jsmall to_json lim esA -> Forall (fun d => blen d < lim) (map to_json (wrote A sid)).
Proof.
  intros L Hs. apply Forall_forall. intros x Hx. apply elem_of_list_fmap in Hx as (p & -> & Hp%of_conn_elem). destruct (log_given _ _ _ _ _ (l_a _ _ _ _ _ _ _ _ _ L) Hp) as [d Hd]. by eapply Hs.
Qed.
(** Whatever fails or is full: what [B] takes from the connection are packets that
    [A] wrote there, each once and in order. *)
Theorem C154_once_in_order_partial : forall to_json of_json esA A sid o esB B c,
  linked to_json of_json esA A sid o esB B c -> jsmall to_json (2^32) esA -> sublist (took B c) (wrote A sid).
Proof.
  intros to_json of_json esA A sid o esB B c L Hs. pose proof L as [Ea Eb Eo Hb Hj]. pose proof (jinv_run _ _ _ _ Eb) as [I1 I2]. unfold took.
  destruct (ji_conns (jp_in B) !! c) as [j|] eqn:Ej; [|rewrite (proj2 (I2 c Ej)); apply sublist_nil_l].
  destruct (I1 c j Ej) as [(l & G1 & _) G2 G3 G4 G5]. pose proof (v_bytes _ _ _ (oinv_run _ _ _ _ Ea) _ _ Eo) as [Hp _].
  assert (Hpre : jc_frames j `prefix_of` map to_json (wrote A sid)).
  { eapply cuts_prefix; [by eapply wrote_small| |exact G1]. etransitivity; [exact Hb|exact Hp]. }
  etransitivity; [exact G4|]. rewrite <- (omap_all to_json of_json (wrote A sid)); [|by eapply wrote_json].
  destruct Hpre as [more ->]. rewrite omap_app. apply sublist_inserts_r. rewrite <- (take_drop (jc_done j) (jc_frames j)) at 2. rewrite omap_app. by apply sublist_inserts_r.
Qed.
Print Assumptions C154_once_in_order_partial.
(** All of them arrive if none is longer than 8 MiB as JSON and there is always
    room in the channel. *)
Theorem C154_all_arrive_partial : forall to_json of_json esA A sid o esB B c,
  linked to_json of_json esA A sid o esB B c -> settled to_json of_json o esB B c ->
  jsmall to_json (8388608 + 1) esA -> roomy to_json of_json esB c -> is_Some (ji_conns (jp_in B) !! c) -> took B c = wrote A sid.
Proof.
  intros to_json of_json esA A sid o esB B c L (Hf & Hall & Hn) Hs Hr [j Ej]. pose proof L as [Ea Eb Eo Hb Hj]. pose proof (jinv_run _ _ _ _ Eb) as [I1 I2]. unfold took.
  destruct (I1 c j Ej) as [(l & G1 & _) G2 G3 G4 G5]. pose proof (v_bytes _ _ _ (oinv_run _ _ _ _ Ea) _ _ Eo) as [_ Hp]. specialize (Hp Hf).
  assert (Hw : cuts (concat (jchunks esB c)) (map to_json (wrote A sid)) [] false).
  { rewrite Hall, Hp. apply cuts_whole. eapply Forall_impl; [by eapply wrote_small|]. intros d Hd. cbn in Hd. unfold FRAME_MAX. lia. }
  destruct (cuts_det _ _ _ _ G1 _ _ _ Hw) as (Hfr & _ & Hbad).
  assert (Hd : jc_done j = length (jc_frames j)).
  { destruct (jc_over j) eqn:Eov; [by apply G3|]. unfold jstep in Hn. destruct (jp_in B) as [cs ctx cmd up sent log] eqn:EB. cbn -[Nat.ltb] in Hn, Ej. rewrite Ej, Eov in Hn.
    destruct (jc_frames j !! jc_done j) as [f|] eqn:Ef.
    - exfalso. destruct (jp_out B). destruct (of_json f); [destruct (length ctx <? 100)%nat|]; done.
    - apply lookup_ge_None in Ef. lia. }
  rewrite (G5 Hr), Hd, firstn_all, Hfr. apply omap_all. by eapply wrote_json.
Qed.
Print Assumptions C154_all_arrive_partial.
(** A hundred and one packets arrive while none is passed to the node: one is
    lost. *)
Definition jenc (p : packet) : bytes := match p with PForward _ _ _ [k] => [k] | PBeacon _ _ _ => [200] | _ => [] end.
Definition jdec (b : bytes) : option packet := match b with [200] => Some (PBeacon (Dtn "n2" "") "x" []) | [k] => Some (PForward "" "b" "x" [k]) | _ => None end.
Notation jrunX := (jrun jenc jdec).
Definition jfwd (k : N) : jev := JNode (PForward "n" "b" "x" [k]).
Definition many (n : nat) : list jev := JUp :: concat (map (fun k => [jfwd (N.of_nat k); JTake true None]) (seq 0 n)).
Definition arrive (n : nat) : list jev := JAccept "10.0.0.1:40000" :: JChunk 0 (concat (map (fun k => [0;0;0;1;N.of_nat k]) (seq 0 n))) :: replicate n (JHandle 0).
Lemma many_json n : (n <= 200)%nat -> forall d p, p ∈ handed d (many n) -> jdec (jenc p) = Some p /\ blen (jenc p) = 1.
Proof.
  intros Hn d p Hp. apply elem_of_list_omap in Hp as (e & He & E). unfold many in He. apply elem_of_cons in He as [->|He]; [done|]. apply elem_of_list_In, in_concat in He as (l & Hl%elem_of_list_In & He%elem_of_list_In).
  apply elem_of_list_fmap in Hl as (k & -> & Hk%elem_of_seq). apply elem_of_cons in He as [->|He%elem_of_list_singleton]; [|by subst e]. cbn in E. case_bool_decide as Hd; [|done]. subst d. injection E as <-. cbn.
  split; [|done]. assert (Hk' : N.of_nat k < 200) by lia. revert Hk'. generalize (N.of_nat k). intros x Hx. unfold jdec. repeat (case_match; try done; try lia).
Qed.
(** [n] packets are written, arrive and are looked at; [k] of them are taken *)
Definition outcome (n k : nat) : bool :=
  match jrunX (many n) jprog0, jrunX (arrive n) jprog0 with
  | Some A, Some B =>
      match jo_conns (jp_out A) !! 0%nat with
      | Some o => (length (took B 0) =? k)%nat && (length (wrote A 0) =? n)%nat && negb (o_failed o) && bool_decide (concat (jchunks (arrive n) 0) = o_bytes o) &&
                  match jstep jenc jdec (JHandle 0) B with None => true | Some _ => false end && bool_decide (is_Some (ji_conns (jp_in B) !! 0%nat))
      | None => false
      end
  | _, _ => false
  end.
Lemma outcome_link n k : (n <= 200)%nat -> outcome n k = true -> exists A B o, linked jenc jdec (many n) A 0 o (arrive n) B 0 /\ settled jenc jdec o (arrive n) B 0 /\ jsmall jenc (8388608 + 1) (many n) /\
  length (wrote A 0) = n /\ length (took B 0) = k /\ is_Some (ji_conns (jp_in B) !! 0%nat).
Proof.
  intros Hn. unfold outcome. destruct (jrunX (many n) jprog0) as [A|] eqn:EA; [|done]. destruct (jrunX (arrive n) jprog0) as [B|] eqn:EB; [|done].
  destruct (jo_conns (jp_out A) !! 0%nat) as [o|] eqn:Eo; [|done]. rewrite !andb_true_iff.
  intros (((((H1%Nat.eqb_eq & H2%Nat.eqb_eq) & H3%negb_true_iff) & H4%bool_decide_eq_true) & H5) & H6%bool_decide_eq_true).
  assert (Hj : forall d p, p ∈ handed d (many n) -> jdec (jenc p) = Some p /\ blen (jenc p) = 1) by (intros d p Hp; by eapply many_json).
  exists A, B, o. split_and!; [|split_and!; [done|done|by destruct (jstep jenc jdec (JHandle 0) B)]| |done|done|done].
  - split; [done|done|done|exists []; by rewrite app_nil_r|]. intros d p Hp. by apply (Hj d).
  - intros d p Hp. rewrite (proj2 (Hj d p Hp)). lia.
Qed.
Theorem C154_full_refuted : ~ C154_full.
Proof.
  intros H. destruct (outcome_link 101 100) as (A & B & o & L & S & _ & HA & HB & _); [lia|by vm_compute|]. specialize (H _ _ _ _ _ _ _ _ _ L S).
  rewrite H in HB. rewrite HA in HB. done.
Qed.
Print Assumptions C154_full_refuted.
(** Sixty packets that all arrive. *)
Definition looks (e : jev) : option nat := match e with JHandle c => Some c | _ => None end.
Lemma ctx_le es st : jrunX es jprog0 = Some st -> (length (ji_ctx (jp_in st)) <= length (omap looks es))%nat.
Proof.
  revert st. induction es as [|e es IH] using rev_ind; intros st E; [by injection E as <-|].
  apply jrun_snoc in E as (s1 & R & S1). destruct (jstep_inv _ _ _ _ _ S1) as (a & o & Ei & _ & _). specialize (IH _ R). rewrite omap_app, app_length.
  destruct s1 as [[cs ctx cmd up sent log] o1]. destruct st as [i' o']. cbn [jp_in ji_ctx] in *.
  destruct e; cbn -[Nat.ltb] in Ei; repeat (case_match; try done); simplify_eq; clear S1; unfold looks in *; cbn [jp_in ji_ctx omap list_omap length] in *; rewrite ?app_length in *; cbn [length] in *; lia.
Qed.
Lemma arrive_roomy n : (n <= 100)%nat -> roomy jenc jdec (arrive n) 0.
Proof.
  intros Hn es1 es2 s1 Heq R. apply ctx_le in R. 
  assert (Hc : (length (omap looks (arrive n)) = n)%nat).
  { clear. unfold arrive. cbn. induction n as [|n IH]; [done|]. cbn. by f_equal. }
  rewrite Heq, omap_app, app_length in Hc. cbn in Hc. lia.
Qed.
Example C154_case : exists A B o, linked jenc jdec (many 60) A 0 o (arrive 60) B 0 /\ settled jenc jdec o (arrive 60) B 0 /\ jsmall jenc (8388608 + 1) (many 60) /\
  length (wrote A 0) = 60%nat /\ length (took B 0) = 60%nat /\ is_Some (ji_conns (jp_in B) !! 0%nat) /\ roomy jenc jdec (arrive 60) 0.
Proof.
  destruct (outcome_link 60 60) as (A & B & o & L & S & Hs & HA & HB & Hc); [lia|by vm_compute|]. exists A, B, o. split_and!; try done. apply arrive_roomy. lia.
Qed.

(** ** C155: what a connection brings *)
(** Whatever arrives over a connection, in whatever pieces: what the program takes
    are the packets in the frames of not more than 8 MiB at the start of the
    stream, in order; frames that hold no packet are passed over.  All of them
    once the task of the connection has nothing to do, if there was room. *)
Theorem C155_any_bytes : forall to_json of_json es st c, jrun to_json of_json es jprog0 = Some st ->
  exists fs rest, concat (jchunks es c) = concat (map (fun hf => fst hf ++ snd hf) fs) ++ rest /\
    Forall (fun hf : bytes * bytes => length (fst hf) = 4%nat /\ unbe (fst hf) = blen (snd hf) /\ blen (snd hf) <= 8388608) fs /\
    ((length rest < 4)%nat \/ exists h s, rest = h ++ s /\ length h = 4%nat /\ (blen s < unbe h \/ 8388608 < unbe h)) /\
    sublist (took st c) (omap of_json (map snd fs)) /\
    (is_Some (ji_conns (jp_in st) !! c) -> jstep to_json of_json (JHandle c) st = None -> roomy to_json of_json es c -> took st c = omap of_json (map snd fs)).
Proof.
  intros to_json of_json es st c E. pose proof (jinv_run _ _ _ _ E) as [I1 I2]. unfold took. destruct (ji_conns (jp_in st) !! c) as [j|] eqn:Ej.
  2:{ destruct (I2 c Ej) as [-> ->]. exists [], []. split_and!; [done|constructor|left; cbn; lia|done|by intros [? ?]]. }
  destruct (I1 c j Ej) as [(l & G1 & _) G2 G3 G4 G5]. destruct (cuts_shape _ _ _ _ G1) as (hs & Lh & F & Hb).
  assert (Hsnd : map snd (zip hs (jc_frames j)) = jc_frames j) by (apply snd_zip; lia).
  exists (zip hs (jc_frames j)), l. rewrite Hsnd. split_and!.
  - rewrite Hb. do 2 f_equal. clear. generalize (jc_frames j). induction hs as [|h hs IH]; intros [|f fs]; cbn; try done. by rewrite IH.
  - exact F.
  - pose proof (cuts_left _ _ _ _ G1) as N. unfold next_frame in N. destruct (blen l <? 4) eqn:E1; [left; unfold blen in E1; lia|]. right.
    exists (take 4 l), (drop 4 l). rewrite take_drop, take_length. split_and!; [done|unfold blen in E1; lia|]. unfold FRAME_MAX in N.
    destruct (8388608 <? unbe (take 4 l)) eqn:E2; [right; lia|]. left. destruct (blen (drop 4 l) <? unbe (take 4 l)) eqn:E3; [lia|]. by destruct (jc_bad j).
  - etransitivity; [exact G4|]. rewrite <- (take_drop (jc_done j) (jc_frames j)) at 2. rewrite omap_app. by apply sublist_inserts_r.
  - intros _ Hn Hr. rewrite (G5 Hr). f_equal. apply take_ge. destruct (jc_over j) eqn:Eov; [by rewrite (G3 eq_refl)|].
    unfold jstep in Hn. destruct (jp_in st) as [cs ctx cmd up sent log]. cbn -[Nat.ltb] in Hn, Ej. rewrite Ej, Eov in Hn.
    destruct (jc_frames j !! jc_done j) as [f|] eqn:Ef; [|by apply lookup_ge_None in Ef].
    exfalso. destruct (jp_out st). destruct (of_json f); [destruct (length ctx <? 100)%nat|]; done.
Qed.
Print Assumptions C155_any_bytes.
(** What is written to the node are the packets taken, in the order they were
    taken, and one registration; the registration is first unless a packet got
    ahead before the websocket was open. *)
Theorem C155_to_node : forall to_json of_json es st, jrun to_json of_json es jprog0 = Some st ->
  exists early late, ji_sent (jp_in st) ++ ji_cmd (jp_in st) ++ ji_ctx (jp_in st) = early ++ (if ji_up (jp_in st) then [PRegister "jsonmtcp" false None] else []) ++ late /\
    early ++ late = map snd (ji_log (jp_in st)) /\
    (ji_up (jp_in st) = false -> ji_sent (jp_in st) = []) /\
    (ji_up (jp_in st) = true -> (forall es1 es2, es = es1 ++ JUp :: es2 -> JRelay ∉ es1) -> early = []).
Proof. intros to_json of_json es st E. destruct (queue_run _ _ _ _ E) as (l1 & l2 & A1 & A2 & A3 & A4 & _). by exists l1, l2. Qed.
Print Assumptions C155_to_node.
(** Two packets with a frame between them that is none, cut in a length; then a
    frame that is too long and a packet behind it that is lost. *)
Definition mixed : list jev := [JUp; JAccept "10.0.0.1:40000"; JChunk 0 [0;0;0;1;5;0;0]; JChunk 0 [0;2;8;8;0;0;0;1;6;0;128;0;1;0;0;0;1;7]; JHandle 0; JHandle 0; JRelay; JHandle 0; JHandle 0; JWrite; JWrite].
Example C155_case : exists st, jrunX mixed jprog0 = Some st /\ took st 0 = [PForward "" "b" "x" [5]; PForward "" "b" "x" [6]] /\
  ji_sent (jp_in st) = [PRegister "jsonmtcp" false None; PForward "" "b" "x" [5]] /\ ji_ctx (jp_in st) = [PForward "" "b" "x" [6]] /\ jc_over <$> ji_conns (jp_in st) !! 0%nat = Some true.
Proof. eexists. split; [vm_compute; reflexivity|]. by vm_compute. Qed.

(** ** C156: what others can do to the node *)
(** the modules other than [i] behave *)
Definition others_polite (read_block : list N -> option (list (string * option N) * list (N * string))) (i : nat) (evs : list event) : Prop :=
  (forall j, EJunk j ∉ evs) /\
  (forall j now e addr blk, j <> i -> EPacket j now (PBeacon e addr blk) ∈ evs -> is_Some (read_block blk) /\ is_Some (eid_node e)) /\
  (forall j evs1 e1 evs2 e2 evs3, j <> i -> evs = evs1 ++ e1 :: evs2 ++ e2 :: evs3 -> Props_Ecla.registers j e1 -> Props_Ecla.registers j e2 -> False).
(** the program is module [i] of a node *)
Definition module_of to_json of_json dec_bundle read_block own_block self nodeid connectors builtin ps (es : list jev) (st : jprog) (evs : list event) (s : ecla) (i : nat) : Prop :=
  jrun to_json of_json es jprog0 = Some st /\ WS ∈ connectors /\ configured builtin /\ (forall ls, is_Some (own_block ls)) /\
  runs dec_bundle read_block own_block self nodeid connectors (start builtin ps) evs s /\
  fresh_addresses dec_bundle read_block own_block self nodeid connectors (start builtin ps) evs /\
  packets_of evs i = ji_sent (jp_in st) /\ others_polite read_block i evs.
Definition C156_full : Prop := forall to_json of_json dec_bundle read_block own_block self nodeid connectors builtin ps es st evs s i,
  module_of to_json of_json dec_bundle read_block own_block self nodeid connectors builtin ps es st evs s i ->
  open_for dec_bundle read_block own_block self nodeid connectors s.
Definition is_reg (p : packet) : bool := match p with PRegister _ _ _ => true | _ => false end.
Lemma packets_elem evs i now p : EPacket i now p ∈ evs -> p ∈ packets_of evs i.
Proof. intros H. apply elem_of_list_omap. eexists. split; [exact H|]. cbn. by rewrite bool_decide_true. Qed.
(** If only bundles arrive, the node stays open. *)
Theorem C156_open_partial : forall to_json of_json dec_bundle read_block own_block self nodeid connectors builtin ps es st evs s i,
  module_of to_json of_json dec_bundle read_block own_block self nodeid connectors builtin ps es st evs s i ->
  (forall c p, p ∈ took st c -> exists src dst id data, p = PForward src dst id data) ->
  no_panic s /\ open_for dec_bundle read_block own_block self nodeid connectors s.
Proof.
  intros to_json of_json dec_bundle read_block own_block self nodeid connectors builtin ps es st evs s i (E & HW & Hb & Hown & Hr & Hf & Hpk & Hj & Hbe & Hre) Hfwd.
  assert (Hlog : forall p, p ∈ map snd (ji_log (jp_in st)) -> exists src dst id data, p = PForward src dst id data).
  { intros p Hp. apply elem_of_list_fmap in Hp as ([c q] & -> & Hq). apply (Hfwd c). apply elem_of_list_omap. exists (c, q). split; [done|]. cbn. by rewrite bool_decide_true. }
  destruct (C155_to_node _ _ _ _ E) as (l1 & l2 & A1 & A2 & _).
  assert (Hnr : filter (fun p => is_reg p = true) (l1 ++ l2) = []).
  { rewrite A2. clear -Hlog. induction (map snd (ji_log (jp_in st))) as [|p l IH]; [done|]. rewrite filter_cons_False; [apply IH; intros q Hq; apply Hlog; by right|]. by destruct (Hlog p) as (? & ? & ? & ? & ->); [by left|]. }
  apply (C82_open_partial dec_bundle read_block own_block self nodeid connectors builtin ps evs s); try done. split_and!; [done| |].
  - intros j now e addr blk Hin. destruct (decide (j = i)) as [->|Hne]; [|by eapply Hbe]. exfalso. apply packets_elem in Hin. rewrite Hpk in Hin.
    assert (Hin' : PBeacon e addr blk ∈ ji_sent (jp_in st) ++ ji_cmd (jp_in st) ++ ji_ctx (jp_in st)) by (apply elem_of_app; by left). rewrite A1 in Hin'.
    rewrite !elem_of_app in Hin'. assert (Hno : PBeacon e addr blk ∉ l1 ++ l2) by (rewrite A2; intros Hx; by destruct (Hlog _ Hx) as (? & ? & ? & ? & ?)).
    rewrite elem_of_app in Hno. destruct Hin' as [Hin'|[Hin'|Hin']]; [tauto| |tauto]. destruct (ji_up (jp_in st)); [by apply elem_of_list_singleton in Hin'|by apply elem_of_nil in Hin'].
  - intros j evs1 e1 evs2 e2 evs3 Heq (n1 & m1 & b1 & p1 & ->) (n2 & m2 & b2 & p2 & ->). destruct (decide (j = i)) as [->|Hne]; [|eapply (Hre j); [done|exact Heq|by eexists _, _, _, _|by eexists _, _, _, _]].
    assert (Hlen : (length (filter (fun p => is_reg p = true) (ji_sent (jp_in st))) <= 1)%nat).
    { apply (f_equal (filter (fun p => is_reg p = true))) in A1. rewrite !filter_app in A1. rewrite filter_app in Hnr. apply app_eq_nil in Hnr as [Hn1 Hn2]. rewrite Hn1, Hn2 in A1.
      apply (f_equal length) in A1. rewrite !app_length in A1. cbn [length] in A1.
      assert (Hu : (length (filter (fun p => is_reg p = true) (if ji_up (jp_in st) then [PRegister "jsonmtcp" false None] else [])) <= 1)%nat) by (destruct (ji_up (jp_in st)); vm_compute; lia). lia. }
    rewrite <- Hpk, Heq in Hlen. change (EPacket i n1 (PRegister m1 b1 p1) :: evs2 ++ EPacket i n2 (PRegister m2 b2 p2) :: evs3) with ([EPacket i n1 (PRegister m1 b1 p1)] ++ evs2 ++ [EPacket i n2 (PRegister m2 b2 p2)] ++ evs3) in Hlen.
    rewrite !packets_of_app, !filter_app, !app_length in Hlen.
    assert (H1 : forall n m b p, length (filter (fun q => is_reg q = true) (packets_of [EPacket i n (PRegister m b p)] i)) = 1%nat) by (intros; unfold packets_of; cbn; by rewrite bool_decide_true).
    rewrite !H1 in Hlen. lia.
Qed.
Print Assumptions C156_open_partial.
Lemma module_node2 es st s : jrunX es jprog0 = Some st -> exec' (node2 (ji_sent (jp_in st))) (start tcp0 ∅) = Some s ->
  module_of jenc jdec no_bundle rb ob me "dtn://node1/" [WS; TCP] tcp0 ∅ es st (node2 (ji_sent (jp_in st))) s 0.
Proof.
  intros E Es. split_and!; [exact E|by left|by repeat constructor|apply ob_total|by eapply exec_runs| |by rewrite packets_node2|].
  - intros evs1 ip port evs2 s3 Heq _. exfalso. assert (Hin : EOpen TCP ip port ∈ node2 (ji_sent (jp_in st))) by (rewrite Heq; apply elem_of_app; right; left).
    unfold node2 in Hin. cbn in Hin. apply elem_of_cons in Hin as [Hin|Hin]; [done|]. apply elem_of_cons in Hin as [Hin|Hin]; [done|]. by apply elem_of_list_fmap in Hin as (? & ? & _).
  - assert (Hfrom : forall j now p, EPacket j now p ∈ node2 (ji_sent (jp_in st)) -> j = 0%nat).
    { intros j now p Hin. unfold node2 in Hin. cbn in Hin. apply elem_of_cons in Hin as [Hin|Hin]; [done|]. apply elem_of_cons in Hin as [Hin|Hin]; [done|]. apply elem_of_list_fmap in Hin as (? & Hx & _). by injection Hx. }
    split_and!.
    + intros j Hin. unfold node2 in Hin. cbn in Hin. apply elem_of_cons in Hin as [Hin|Hin]; [done|]. apply elem_of_cons in Hin as [Hin|Hin]; [done|]. by apply elem_of_list_fmap in Hin as (? & ? & _).
    + intros j now e addr blk Hne Hin. by apply Hfrom in Hin.
    + intros j evs1 e1 evs2 e2 evs3 Hne Heq (n1 & m1 & b1 & p1 & ->) _. apply Hne, (Hfrom j n1 (PRegister m1 b1 p1)). rewrite Heq. apply elem_of_app. right. by left.
Qed.
(** A host that connects to the program's port and sends a beacon whose service
    block cannot be read: the node takes no module any more. *)
Definition stranger : list jev := [JUp; JAccept "203.0.113.7:40000"; JChunk 0 [0;0;0;1;200]; JHandle 0; JRelay; JWrite; JWrite].
Theorem C156_full_refuted : ~ C156_full.
Proof.
  intros H. destruct (jrunX stranger jprog0) as [st|] eqn:E; [|by vm_compute in E].
  destruct (exec' (node2 (ji_sent (jp_in st))) (start tcp0 ∅)) as [s|] eqn:Es; [|by vm_compute in E; injection E as <-; vm_compute in Es].
  pose proof (module_node2 _ _ _ E Es) as Hm.
  specialize (H _ _ _ _ _ _ _ _ _ _ _ _ _ _ _ Hm).
  destruct (H 9 "lora" true None) as (s' & i & a & q & E' & _); [done|vm_compute; lia| |].
  - vm_compute in E. injection E as <-. vm_compute in Es. injection Es as <-. apply (bool_decide_unpack _). by vm_compute.
  - vm_compute in E. injection E as <-. vm_compute in Es. injection Es as <-. destruct i as [|[|i]]; by vm_compute in E'.
Qed.
Print Assumptions C156_full_refuted.
Example C156_case : exists st s, module_of jenc jdec no_bundle rb ob me "dtn://node1/" [WS; TCP] tcp0 ∅ mixed st (node2 (ji_sent (jp_in st))) s 0 /\
  (forall c p, p ∈ took st c -> exists src dst id data, p = PForward src dst id data) /\ length (ji_sent (jp_in st)) = 2%nat.
Proof.
  destruct (jrunX mixed jprog0) as [st|] eqn:E; [|by vm_compute in E].
  destruct (exec' (node2 (ji_sent (jp_in st))) (start tcp0 ∅)) as [s|] eqn:Es; [|by vm_compute in E; injection E as <-; vm_compute in Es].
  exists st, s. split; [by apply module_node2|]. vm_compute in E. injection E as <-. split; [|done].
  intros c p Hp%of_conn_elem. cbn in Hp. apply elem_of_cons in Hp as [Hp|Hp]; [injection Hp as _ ->; eauto|]. apply elem_of_cons in Hp as [Hp|Hp]; [injection Hp as _ ->; eauto|]. by apply elem_of_nil in Hp.
Qed.
