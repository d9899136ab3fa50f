(** Properties of the command line tools: C107, C108 *)
From stdpp Require Import prelude strings pretty gmap.
From Coq Require Import NArith Lia ZifyBool ZifyN ZifyNat.
From Verif Require Import Core StoreMem StoreSled Sneakers StoreProofs Peers Apps AppsProofs Httpd HttpdProofs Props_Httpd Props_Httpd2 Tools.
Open Scope N_scope.

(** ** C107 *)
(** [data] is what the run wrote: to the file asked for, or else to standard
    output, and nothing else; the run was successful *)
Definition wrote_data (a : recv_args) (data : list N) (r : ran) : Prop :=
  r_exit r = 0 /\
  match ra_outfile a with
  | Some f => r_file r = Some (f, data) /\ r_out r = []
  | None => r_file r = None /\ r_out r = [PBytes data]
  end.
(** the bundle in the form asked for *)
Definition wrote_bundle (a : recv_args) (coded data : list N) (r : ran) : Prop :=
  match ra_form a with
  | FPayload => wrote_data a data r
  | FRaw => wrote_data a coded r
  | FHex => r_exit r = 0 /\ r_file r = None /\ r_out r = [PHex coded]
  end.
Definition wrote_nothing (r : ran) : Prop := r_file r = None /\ r_out r = [].

(** Fetching from an endpoint gives its oldest bundle, which is then taken; with
    nothing waiting, nothing is written. *)
Definition C107_full : Prop := forall parse_eid local_eid params dec_bundle unhex duration parse_url is_cla parse_ip enc_bundle cf ev a d arg e ag b q data,
  ra_cmd a = RFetch arg -> names parse_eid local_eid arg e -> find_agent e (d_agents d) = Some ag -> ag_queue ag = b :: q ->
  payload_of b = Some data -> dec_bundle (enc_bundle b) = Some b ->
  let after := dtnrecv parse_eid local_eid params dec_bundle unhex duration parse_url is_cla parse_ip enc_bundle cf ev a d in
  wrote_bundle a (enc_bundle b) data (fst after) /\
  find_agent e (d_agents (snd after)) = Some (Agent e q (ag_sub ag)).

Lemma localhost_loopback v6 : loopback_address (localhost v6).
Proof. destruct v6; [by left|]. right. exists 1. split; [done|]. left. done. Qed.
Lemma recv_served pe le pm db uh du pu ic pi enc cf ev a d arg e : ra_cmd a = RFetch arg -> names pe le arg e ->
  let after := dtnrecv pe le pm db uh du pu ic pi enc cf ev a d in
  match find_agent e (d_agents d) with
  | None => after = (Ran 23 [] None, d)
  | Some ag =>
      match ag_queue ag with
      | [] => after = (recv_bytes db a (body_bytes enc (BText "Nothing to receive")), d)
      | b :: q => fst after = recv_bytes db a (enc b) /\ find_agent e (d_agents (snd after)) = Some (Agent e q (ag_sub ag)) /\
          forall e', e' <> e -> find_agent e' (d_agents (snd after)) = find_agent e' (d_agents d)
      end
  end.
Proof.
  intros Hc Hn after.
  assert (Hr : recv_request a = Request GET "/endpoint" (Some arg) [] (localhost (ra_ipv6 a)) false) by (unfold recv_request; by rewrite Hc).
  pose proof (C76_poll_ pe le pm db uh du pu ic pi cf ev (recv_request a) d arg e) as H. rewrite Hr in H.
  specialize (H eq_refl (or_intror (localhost_loopback _)) (or_introl eq_refl) eq_refl Hn).
  unfold after, dtnrecv. rewrite Hr. destruct (serve _ _ _ _ _ _ _ _ _ _ _ _ _) as [x d'].
  destruct (find_agent e (d_agents d)) as [ag|]; [|by injection H as -> ->].
  destruct (ag_queue ag) as [|b q]; [injection H as -> ->; by rewrite Hc|].
  cbn [fst snd rq_path] in H. destruct H as (-> & H1 & H2). rewrite decide_True by done. rewrite Hc. cbn [fst snd body_bytes]. done.
Qed.
Lemma recv_bytes_long db a buf b data : 50 < N.of_nat (length buf) -> db buf = Some b -> payload_of b = Some data -> wrote_bundle a buf data (recv_bytes db a buf).
Proof.
  intros Hl Hd Hp. unfold recv_bytes, wrote_bundle, wrote_data, write_bytes. destruct (50 <? N.of_nat (length buf)) eqn:E; [|lia].
  rewrite Hd, Hp. destruct (ra_form a), (ra_outfile a); done.
Qed.
Lemma recv_bytes_short db a buf : N.of_nat (length buf) <= 50 -> recv_bytes db a buf = Ran (if ra_verbose a then 23 else 0) [] None.
Proof. intros Hl. unfold recv_bytes. destruct (50 <? N.of_nat (length buf)) eqn:E; [lia|done]. Qed.

(** A bundle of 34 bytes, from ipn:3.0 to ipn:1.2 with one byte of payload *)
Definition tiny : bundle := Bundle (BFlags false false false false false false false) (Ipn 1 2) (Ipn 3 0) (Ipn 3 0) 0 0 1000 0 0
  [Block 1 1 (KFlags false false false false) (CData [7])].
Definition tiny_bytes : list N :=
  [159; 136; 7; 0; 0; 130; 2; 130; 1; 2; 130; 2; 130; 3; 0; 130; 2; 130; 3; 0; 130; 0; 0; 25; 3; 232; 133; 1; 1; 0; 0; 65; 7; 255].
Definition enc2 (b : bundle) : list N := if decide (b = tiny) then tiny_bytes else tiny_bytes ++ tiny_bytes.
Definition dec2 (l : list N) : option bundle := if decide (l = tiny_bytes) then Some tiny else Some b1.
Definition pe2 (s : string) : option eid := if bool_decide (s = "ipn:1.2") then Some (Ipn 1 2) else pe1 s.
Definition d2 : daemon := Daemon [Agent (Ipn 1 2) [tiny] None; Agent (Dtn "n" "in") [b1] None] {["m" := p1]} mem0 0 [] [] [] [].
Notation dtnrecv2 := (dtnrecv pe2 le1 pm1 dec2 (fun _ => Some None) (fun _ => None) pu1 (fun s => bool_decide (s = "mtcp")) (fun _ => None) enc2 cf1 ev1).
(** Such a short bundle is taken from the daemon and nothing is written. *)
Theorem C107_fetch_refuted : ~ C107_full.
Proof.
  intros H.
  destruct (H pe2 le1 pm1 dec2 (fun _ => Some None) (fun _ => None) pu1 (fun s => bool_decide (s = "mtcp")) (fun _ => None) enc2 cf1 ev1
    (RecvArgs (RFetch "ipn:1.2") FPayload None false false) d2 "ipn:1.2" (Ipn 1 2) (Agent (Ipn 1 2) [tiny] None) tiny [] [7]
    eq_refl ltac:(by vm_compute) eq_refl eq_refl eq_refl ltac:(by vm_compute)) as [E _].
  vm_compute in E. by destruct E as (_ & _ & E).
Qed.
Print Assumptions C107_fetch_refuted.
(** Full for bundles of more than 50 bytes. Missing: shorter bundles, which are
    lost. *)
Theorem C107_fetch_partial : forall parse_eid local_eid params dec_bundle unhex duration parse_url is_cla parse_ip enc_bundle cf ev a d arg e,
  ra_cmd a = RFetch arg -> names parse_eid local_eid arg e ->
  let after := dtnrecv parse_eid local_eid params dec_bundle unhex duration parse_url is_cla parse_ip enc_bundle cf ev a d in
  match find_agent e (d_agents d) with
  | None => wrote_nothing (fst after) /\ r_exit (fst after) = 23 /\ snd after = d
  | Some ag =>
      match ag_queue ag with
      | [] => wrote_nothing (fst after) /\ r_exit (fst after) = (if ra_verbose a then 23 else 0) /\ snd after = d
      | b :: q =>
          find_agent e (d_agents (snd after)) = Some (Agent e q (ag_sub ag)) /\
          (forall e', e' <> e -> find_agent e' (d_agents (snd after)) = find_agent e' (d_agents d)) /\
          forall data, payload_of b = Some data -> dec_bundle (enc_bundle b) = Some b ->
            if decide (50 < N.of_nat (length (enc_bundle b))) then wrote_bundle a (enc_bundle b) data (fst after) else wrote_nothing (fst after)
      end
  end.
Proof.
  intros pe le pm db uh du pu ic pi enc cf ev a d arg e Hc Hn after.
  pose proof (recv_served pe le pm db uh du pu ic pi enc cf ev a d arg e Hc Hn) as H. cbn zeta in H. fold after in H.
  destruct (find_agent e (d_agents d)) as [ag|]; [|by rewrite H].
  destruct (ag_queue ag) as [|b q].
  - rewrite H. cbn [fst snd]. rewrite recv_bytes_short by (by vm_compute). done.
  - destruct H as (-> & H1 & H2). split; [done|]. split; [done|]. intros data Hp Hd.
    case_decide; [by eapply recv_bytes_long|]. rewrite recv_bytes_short by lia. done.
Qed.
Print Assumptions C107_fetch_partial.
(** the longer bundle is written; both cases can be reached *)
Example C107_case : names pe2 le1 "in" (Dtn "n" "in") /\ payload_of b1 = Some [1; 2] /\ dec2 (enc2 b1) = Some b1 /\ 50 < N.of_nat (length (enc2 b1)) /\
  fst (dtnrecv2 (RecvArgs (RFetch "in") FPayload (Some "f") false false) d2) = Ran 0 [] (Some ("f", [1; 2])) /\
  fst (dtnrecv2 (RecvArgs (RFetch "in") FRaw None false false) d2) = Ran 0 [PBytes (tiny_bytes ++ tiny_bytes)] None /\
  r_exit (fst (dtnrecv2 (RecvArgs (RFetch "out") FRaw None false false) d2)) = 23.
Proof. repeat split; by vm_compute. Qed.

(** Downloading writes the bundle with the id, if the node has it, and changes
    nothing. Missing as above: bundles of at most 50 bytes. *)
Theorem C107_download_partial : forall parse_eid local_eid params dec_bundle unhex duration parse_url is_cla parse_ip enc_bundle cf ev a d id,
  ra_cmd a = RDownload id ->
  let after := dtnrecv parse_eid local_eid params dec_bundle unhex duration parse_url is_cla parse_ip enc_bundle cf ev a d in
  snd after = d /\
  match mem_get id (d_store d) with
  | None => wrote_nothing (fst after) /\ r_exit (fst after) = 23
  | Some b => forall data, payload_of b = Some data -> dec_bundle (enc_bundle b) = Some b -> 50 < N.of_nat (length (enc_bundle b)) ->
      wrote_bundle a (enc_bundle b) data (fst after)
  end.
Proof.
  intros pe le pm db uh du pu ic pi enc cf ev a d id Hc after.
  assert (Hr : recv_request a = Request GET "/download" (Some id) [] (localhost (ra_ipv6 a)) false) by (unfold recv_request; by rewrite Hc).
  assert (E : after = (match mem_get id (d_store d) with Some b => recv_bytes db a (enc b) | None => Ran 23 [] None end, d)).
  { unfold after, dtnrecv. rewrite Hr.
    rewrite (serve_open _ _ _ _ _ _ _ _ _ cf ev _ d "/download" (g (HLook VDownload)) (HLook VDownload))
      by (first [done | apply open_fixed; by vm_compute]).
    cbn [fst snd strip handle rq_meth look rq_query]. destruct (mem_get id (d_store d)); [|done]. by rewrite Hc. }
  rewrite E. cbn [fst snd]. split; [done|]. destruct (mem_get id (d_store d)) as [b|]; [|done].
  intros data Hp Hd Hl. by eapply recv_bytes_long.
Qed.
Print Assumptions C107_download_partial.
(** Deleting, registering and unregistering: reported as done exactly if the daemon
    confirmed it. *)
Theorem C107_manage : forall parse_eid local_eid params dec_bundle unhex duration parse_url is_cla parse_ip enc_bundle cf ev a d path arg done,
  (path, arg, done) ∈ [("/delete", RDelete, "Deleted bundle "); ("/register", RRegister, "Registered endpoint "); ("/unregister", RUnregister, "Unregistered endpoint ")] ->
  forall x, ra_cmd a = arg x ->
  let after := dtnrecv parse_eid local_eid params dec_bundle unhex duration parse_url is_cla parse_ip enc_bundle cf ev a d in
  let answer := serve parse_eid local_eid params dec_bundle unhex duration parse_url is_cla parse_ip cf ev
    (Request GET path (Some x) [] (localhost (ra_ipv6 a)) false) d in
  snd after = snd answer /\
  ((exists t, fst answer = Resp 200 t) -> fst after = Ran 0 [PText (done +:+ x)] None) /\
  ((forall t, fst answer <> Resp 200 t) -> wrote_nothing (fst after) /\ r_exit (fst after) <> 0).
Proof.
  intros pe le pm db uh du pu ic pi enc cf ev a d path arg dn Hin x Hc after answer.
  assert (Hr : recv_request a = Request GET path (Some x) [] (localhost (ra_ipv6 a)) false).
  { unfold recv_request. rewrite Hc. set_unfold. naive_solver. }
  unfold after, dtnrecv. rewrite Hr. fold answer. destruct answer as [r d']. cbn [fst snd]. split; [by destruct r|]. split.
  - intros [t ->]. rewrite Hc. set_unfold. naive_solver.
  - intros Hno. destruct r as [c t| |]; [|done..].
    assert (Hne : c <> 200) by (intros ->; by apply (Hno t)).
    assert (E : forall y : ran, match c with 200 => y | _ => Ran 23 [] None end = Ran 23 [] None).
    { intros y. destruct c as [|p]; [done|]. repeat (destruct p as [p|p|]; try done). }
    rewrite E. done.
Qed.
Print Assumptions C107_manage.
Example C107_manage_case :
  fst (dtnrecv2 (RecvArgs (RRegister "x") FPayload None false true) d2) = Ran 0 [PText "Registered endpoint x"] None /\
  r_exit (fst (dtnrecv2 (RecvArgs (RDelete "none") FPayload None false true) d2)) = 23.
Proof. by vm_compute. Qed.

(** ** C108 *)
(** the bundle asked for: from, to, content, lifetime in seconds, with the time the
    daemon gives, a request for a delivery report, and a hop limit of 32 *)
Definition wanted (ev : env) (src dst : eid) (life : N) (data : list N) : bundle :=
  {| b_flags := {| bf_fragment := false; bf_admin := false; bf_rep_recv := false; bf_rep_fwd := false; bf_rep_deliv := true;
                   bf_rep_del := false; bf_rep_time := false |};
     b_dst := dst; b_src := src; b_rpt := src; b_time := ev_time ev; b_seq := ev_seq ev; b_life := life * 1000; b_off := 0; b_total := 0;
     b_blocks := [Block 1 1 (KFlags false false false false) (CData data); Block 10 2 (KFlags false false false false) (CHop 32 0)] |}.
(** who sends: as given, otherwise the node *)
Definition sender_text (cf : hconf) (a : send_args) : string := match sa_sender a with Some s => s | None => eid_string (h_host cf) end.
(** An address that can be read can be written and read again. *)
Definition reads_back (parse_eid : string -> option eid) : Prop := forall s e, parse_eid s = Some e -> parse_eid (eid_string e) = Some e.
(** A run that ends with success has submitted the bundle asked for, once, and
    printed its id; one that does not has no effect. *)
Definition C108_full : Prop := forall parse_eid local_eid params dec_bundle unhex duration parse_url is_cla parse_ip enc_bundle cf ev a d,
  reads_back parse_eid -> sa_life a * 1000 < 2^64 -> sa_dryrun a = false ->
  (forall src dst, parse_eid (sender_text cf a) = Some src -> parse_eid (sa_receiver a) = Some dst ->
     dec_bundle (enc_bundle (wanted ev src dst (sa_life a) (sa_data a))) = Some (wanted ev src dst (sa_life a) (sa_data a))) ->
  let after := dtnsend parse_eid local_eid params dec_bundle unhex duration parse_url is_cla parse_ip enc_bundle cf ev a d in
  (r_exit (fst after) = 0 -> exists src dst, parse_eid (sender_text cf a) = Some src /\ parse_eid (sa_receiver a) = Some dst /\
     submitted d (snd after) [wanted ev src dst (sa_life a) (sa_data a)] /\
     PText ("Bundle-Id: " +:+ bid (wanted ev src dst (sa_life a) (sa_data a))) ∈ r_out (fst after)) /\
  (r_exit (fst after) <> 0 -> snd after = d).

Lemma sender_of_text pe le pm db uh du pu ic pi cf ev a d : reads_back pe ->
  sender_of pe le pm db uh du pu ic pi cf ev a d = pe (sender_text cf a).
Proof.
  intros Hrb. unfold sender_of, sender_text. destruct (sa_sender a) as [s|]; [done|]. unfold node_id.
  rewrite (serve_open _ _ _ _ _ _ _ _ _ cf ev _ d "/status/nodeid" (g (HLook VNodeId)) (HLook VNodeId))
    by (first [done | apply open_fixed; by vm_compute]).
  cbn [fst snd strip handle rq_meth look]. destruct (pe (eid_string (h_host cf))) as [e|] eqn:E; [|done]. by eapply Hrb.
Qed.
Lemma wanted_is ev src dst life data : life * 1000 < 2^64 -> send_bundle ev src dst life data = wanted ev src dst life data.
Proof. intros H. unfold send_bundle, wanted. by rewrite N.mod_small. Qed.
Lemma insert_served pe le pm db uh du pu ic pi cf ev x v6 d :
  serve pe le pm db uh du pu ic pi cf ev (Request POST "/insert" None x (localhost v6) false) d =
  do_insert_post db (Request POST "/insert" None x (localhost v6) false) d.
Proof.
  rewrite (serve_local _ _ _ _ _ _ _ _ _ cf ev _ d "/insert" (Entry (Some HInsertGet) (Some HInsertPost) None) HInsertPost)
    by (first [done | apply allowed_iff; right; apply localhost_loopback]).
  cbn [handle rq_meth]. by destruct (do_insert_post _ _ _).
Qed.
(** Full for encoded bundles of at most 2 MiB. Missing: longer ones, which are
    refused by the daemon; the run ends with success nevertheless. *)
Theorem C108_send_partial : forall parse_eid local_eid params dec_bundle unhex duration parse_url is_cla parse_ip enc_bundle cf ev a d,
  reads_back parse_eid -> sa_life a * 1000 < 2^64 -> sa_dryrun a = false ->
  (forall src dst, parse_eid (sender_text cf a) = Some src -> parse_eid (sa_receiver a) = Some dst ->
     dec_bundle (enc_bundle (wanted ev src dst (sa_life a) (sa_data a))) = Some (wanted ev src dst (sa_life a) (sa_data a))) ->
  let after := dtnsend parse_eid local_eid params dec_bundle unhex duration parse_url is_cla parse_ip enc_bundle cf ev a d in
  match parse_eid (sender_text cf a), parse_eid (sa_receiver a) with
  | Some src, Some dst =>
      let b := wanted ev src dst (sa_life a) (sa_data a) in
      r_exit (fst after) = 0 /\ PText ("Bundle-Id: " +:+ bid b) ∈ r_out (fst after) /\
      if decide (N.of_nat (length (enc_bundle b)) <= 2 * 1024 * 1024) then submitted d (snd after) [b] else snd after = d
  | _, _ => r_exit (fst after) <> 0 /\ snd after = d
  end.
Proof.
  intros pe le pm db uh du pu ic pi enc cf ev a d Hrb Hl Hdry Hd after. unfold after, dtnsend.
  rewrite sender_of_text by done. destruct (pe (sender_text cf a)) as [src|] eqn:Es; [|done].
  destruct (pe (sa_receiver a)) as [dst|] eqn:Er; [|done]. specialize (Hd src dst eq_refl eq_refl).
  rewrite wanted_is by done. rewrite Hdry. rewrite insert_served. unfold do_insert_post, too_large, BODY_LIMIT. cbn [rq_body].
  destruct (2097152 <? N.of_nat (length (enc (wanted ev src dst (sa_life a) (sa_data a))))) eqn:El; cbn [fst snd r_exit r_out].
  - split; [done|]. split; [by left|]. rewrite decide_False by lia. done.
  - rewrite Hd. cbn [fst snd r_exit r_out]. split; [done|]. split; [by left|]. rewrite decide_True by lia. by repeat split.
Qed.
Print Assumptions C108_send_partial.
(** A dry run has no effect. *)
Theorem C108_dryrun : forall parse_eid local_eid params dec_bundle unhex duration parse_url is_cla parse_ip enc_bundle cf ev a d,
  sa_dryrun a = true -> snd (dtnsend parse_eid local_eid params dec_bundle unhex duration parse_url is_cla parse_ip enc_bundle cf ev a d) = d.
Proof.
  intros pe le pm db uh du pu ic pi enc cf ev a d Hdry. unfold dtnsend. rewrite Hdry. by repeat case_match.
Qed.
Print Assumptions C108_dryrun.
(** the content alone as the encoding *)
Definition pe3 (s : string) : option eid := if bool_decide (s = "dtn://n/") then Some (Dtn "n" "") else if bool_decide (s = "dtn://x/y") then Some (Dtn "x" "y") else None.
Lemma pe3_back : reads_back pe3.
Proof. intros s e. unfold pe3. repeat case_bool_decide; intros [= <-]; by vm_compute. Qed.
Definition enc3 (b : bundle) : list N := default [] (payload_of b).
Definition dec3 (x : list N) : option bundle := Some (wanted ev1 (Dtn "n" "") (Dtn "x" "y") 3600 x).
Notation dtnsend3 := (dtnsend pe3 le1 pm1 dec3 (fun _ => Some None) (fun _ => None) pu1 (fun s => bool_decide (s = "mtcp")) (fun _ => None) enc3 cf1 ev1).
Theorem C108_send_refuted : ~ C108_full.
Proof.
  intros H. destruct (of_length 2097153) as [l Hlen].
  set (a := SendArgs None "dtn://x/y" l 3600 false false).
  destruct (H pe3 le1 pm1 dec3 (fun _ => Some None) (fun _ => None) pu1 (fun s => bool_decide (s = "mtcp")) (fun _ => None) enc3 cf1 ev1 a d1
    pe3_back eq_refl eq_refl) as [E _].
  { intros src dst. intros [= <-] [= <-]. done. }
  pose proof (C108_send_partial pe3 le1 pm1 dec3 (fun _ => Some None) (fun _ => None) pu1 (fun s => bool_decide (s = "mtcp")) (fun _ => None) enc3 cf1 ev1 a d1
    pe3_back eq_refl eq_refl) as P.
  assert (Hd : forall src dst, pe3 (sender_text cf1 a) = Some src -> pe3 (sa_receiver a) = Some dst ->
    dec3 (enc3 (wanted ev1 src dst (sa_life a) (sa_data a))) = Some (wanted ev1 src dst (sa_life a) (sa_data a))).
  { intros src dst. intros [= <-] [= <-]. done. }
  specialize (P Hd). cbn zeta in P. change (pe3 (sender_text cf1 a)) with (Some (Dtn "n" "")) in P. change (pe3 (sa_receiver a)) with (Some (Dtn "x" "y")) in P.
  cbv iota in P. destruct P as (P1 & _ & P2). cbn zeta in E. destruct (E P1) as (src & dst & _ & _ & (S1 & _) & _).
  rewrite decide_False in P2.
  - rewrite P2 in S1. by apply (f_equal length) in S1.
  - change (enc3 (wanted ev1 (Dtn "n" "") (Dtn "x" "y") (sa_life a) (sa_data a))) with l. rewrite Hlen. lia.
Qed.
Print Assumptions C108_send_refuted.
Example C108_case : pe3 (sender_text cf1 (SendArgs None "dtn://x/y" [1; 2] 3600 false false)) = Some (Dtn "n" "") /\
  dec3 (enc3 (wanted ev1 (Dtn "n" "") (Dtn "x" "y") 3600 [1; 2])) = Some (wanted ev1 (Dtn "n" "") (Dtn "x" "y") 3600 [1; 2]) /\
  d_sent (snd (dtnsend3 (SendArgs None "dtn://x/y" [1; 2] 3600 false false) d1)) = [wanted ev1 (Dtn "n" "") (Dtn "x" "y") 3600 [1; 2]].
Proof. by vm_compute. Qed.
