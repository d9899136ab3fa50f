(** C145-C148: the program that connects several daemons (model: ConnectN.v).
    From ConnectNProofs.v: [names], the client a destination names; [forwards_for],
    [beacons_for], what is due to a daemon given all that happened; [forwards],
    [beacons], the bundles and the beacons of a list of packets; [due_f], [due_b],
    those for a daemon that still wait for the main loop; [pend], what was written
    to a daemon, followed by what is on its way there; [ample], there always is
    room in the channel of a client; [own], the steps the program takes by itself. *)
From stdpp Require Import prelude strings pretty gmap.
From Coq Require Import Ascii NArith ZArith Lia ZifyBool ZifyN ZifyNat.
From Verif Require Import Core Peers Ecla Transfers IdProofs StaticProofs ConfigProofs Config Props_Config ConnectN ConnectNProofs.
Open Scope N_scope.

(** ** C145 *)
(** A destination names a daemon with its number in decimal, alone or before a colon. *)
Theorem C145_names : forall dst k, N.of_nat k < 2^64 ->
  names dst k <-> exists p, free ":"%char p /\ numeral p (N.of_nat k) /\ (dst = p \/ exists rest, dst = p +:+ ":" +:+ rest).
Proof.
  intros dst k Hk. unfold names. split.
  - destruct (split_at_parts ":"%char dst) as (p & ps & -> & Hf & Hs). cbn. intros H. apply parse_uint_numeral in H as [Hn _]. exists p. split; [done|]. split; [done|].
    destruct ps; [by left|]. destruct Hs as (r & -> & _). right. by exists r.
  - intros (p & Hf & Hn & Hd). assert (head (split_at ":"%char dst) = Some p) as ->; [|cbn; by apply numeral_parse].
    destruct Hd as [->|[rest ->]]; [by rewrite split_free|]. rewrite (app_cons_s ":"%char "" rest), app_nil_s. by rewrite split_first_part.
Qed.
Print Assumptions C145_names.
(** What the program writes to a daemon are the bundles the daemons handed over for
    it, unaltered, in order, each once, and none while another one goes missing;
    while the connection to it stands or is being made, what is not written yet is
    on its way. *)
Theorem C145_forwards : forall n es h k c, hrun es (hub0 n) = Some h -> h_clients h !! k = Some c ->
  forwards (cl_sent c) `prefix_of` forwards_for k es /\
  (cl_phase c <> CDown -> forwards (cl_sent c) ++ forwards (cl_cmd c ++ cl_conn c) ++ due_f n k (h_rx h) = forwards_for k es).
Proof.
  intros n es h k c H Hc. destruct (run_forwards _ _ _ _ _ H Hc) as [H1 H2]. split; [done|]. intros Hd. rewrite <- (H1 Hd). unfold pend.
  by rewrite !forwards_app, !app_assoc.
Qed.
Print Assumptions C145_forwards.
Definition c145_es : list hev :=
  [HOpen 0; HUp 0; HNode 0 (PForward "x" "1" "id1" [1]); HNode 0 (PForward "" "2:4556" "id2" [2]); HTake; HOpen 1; HTake; HUp 1;
   HNode 1 (PForward "" "02" "id3" [3]); HRelay 1; HWrite 1; HWrite 1; HTake; HNode 0 (PForward "" "peer" "id4" [4]); HTake;
   HOpen 2; HUp 2; HRelay 2; HWrite 2; HWrite 2].
Example c145_case : exists h c1 c2, hrun c145_es (hub0 3) = Some h /\ h_clients h !! 1%nat = Some c1 /\ h_clients h !! 2%nat = Some c2 /\
  cl_sent c1 = [PRegister "ConnectN" true None; PForward "0" "1" "id1" [1]] /\
  cl_sent c2 = [PRegister "ConnectN" true None; PForward "0" "2:4556" "id2" [2]] /\
  forwards_for 2 c145_es = [PForward "0" "2:4556" "id2" [2]; PForward "1" "02" "id3" [3]] /\
  forwards (cl_cmd c2 ++ cl_conn c2) ++ due_f 3 2 (h_rx h) = [PForward "1" "02" "id3" [3]].
Proof. do 3 eexists. split; [vm_compute; reflexivity|]. split; [reflexivity|]. split; [reflexivity|]. vm_compute. split_and!; reflexivity. Qed.

(** ** C146 *)
(** A daemon is given beacons of the other daemons only, in the order they came in,
    each with the number of the daemon it comes from as its address; all of them
    when its channel is never full. *)
Theorem C146_beacons : forall n es h k c, N.of_nat n <= 2^64 -> hrun es (hub0 n) = Some h -> h_clients h !! k = Some c ->
  beacons (cl_sent c) `sublist_of` beacons_for k es /\
  (cl_phase c <> CDown -> ample n k es -> beacons (cl_sent c) ++ beacons (cl_cmd c ++ cl_conn c) ++ due_b n k (h_rx h) = beacons_for k es).
Proof.
  intros n es h k c Hn H Hc. destruct (run_beacons _ _ _ _ _ Hn H Hc) as [H1 H2]. split; [done|]. intros Hd Ha. destruct (H1 Hd) as [_ H3]. rewrite <- (H3 Ha).
  unfold pend. by rewrite !beacons_app, !app_assoc.
Qed.
Print Assumptions C146_beacons.
(** A bundle that a daemon sends to a peer with such an address, over whatever port,
    goes to the daemon the beacon came from. *)
Theorem C146_way_back : forall i port, N.of_nat i < 2^64 -> names (dest_string (AGeneric (pretty (N.of_nat i))) port) i.
Proof.
  intros i port Hi. unfold names, dest_string, addr_string. rewrite (app_cons_s ":"%char "" _), app_nil_s.
  rewrite split_first_part by (apply digits_free; [apply pretty_digits_all|done]). cbn. by apply parse_uint_pretty.
Qed.
Print Assumptions C146_way_back.
Definition c146_es : list hev :=
  [HOpen 0; HUp 0; HOpen 1; HUp 1; HWrite 1; HNode 0 (PBeacon (Dtn "a" "") "" [7]); HNode 1 (PBeacon (Dtn "b" "") "" [8]); HTake; HTake;
   HRelay 1; HWrite 1; HNode 1 (PForward "" (dest_string (AGeneric "0") 0) "id" [9]); HTake; HRelay 0; HRelay 0; HWrite 0; HWrite 0; HWrite 0].
Example c146_case : exists h c0 c1, hrun c146_es (hub0 2) = Some h /\ h_clients h !! 0%nat = Some c0 /\ h_clients h !! 1%nat = Some c1 /\
  cl_sent c1 = [PRegister "ConnectN" true None; PBeacon (Dtn "a" "") "0" [7]] /\
  cl_sent c0 = [PRegister "ConnectN" true None; PBeacon (Dtn "b" "") "1" [8]; PForward "1" "0:0" "id" [9]].
Proof. do 3 eexists. split; [vm_compute; reflexivity|]. split; [reflexivity|]. split; [reflexivity|]. vm_compute. split_and!; reflexivity. Qed.
Example c146_ample : ample 2 1 c146_es.
Proof.
  assert (G : forallb (fun j => match hrun (take j c146_es) (hub0 2) with
    | Some h => match h_clients h !! 1%nat with Some c => (length (cl_conn c) <? 100)%nat | None => true end | None => true end) (seq 0 (length c146_es)) = true) by (vm_compute; reflexivity).
  intros es1 es2 h c E Hr Hc. rewrite forallb_forall in G. specialize (G (length es1)). rewrite E, take_app, Hr, Hc in G. apply Nat.ltb_lt, G. apply in_seq. rewrite app_length. cbn. lia.
Qed.

(** ** C147 *)
(** While the connection to a daemon stands, what was handed over for it can be
    written to it, whatever the other daemons do. *)
Definition C147_full : Prop := forall n es h k c, hrun es (hub0 n) = Some h -> h_clients h !! k = Some c -> cl_phase c = CUp ->
  exists es' h' c', Forall own es' /\ hrun es' h = Some h' /\ h_clients h' !! k = Some c' /\ forwards (cl_sent c') = forwards_for k es.
Lemma forwards_for_own k es : Forall own es -> forwards_for k es = [].
Proof. induction 1 as [|e es He _ IH]; [done|]. unfold forwards_for in *. cbn. destruct e; try done. Qed.
Lemma phase_own es h h' k c c' : Forall own es -> hrun es h = Some h' -> h_clients h !! k = Some c -> h_clients h' !! k = Some c' -> cl_phase c = CUp -> cl_phase c' = CUp.
Proof.
  intros Ho. revert h c. induction Ho as [|e es He _ IH]; intros h c Hr Hc Hc' Hp; [injection Hr as <-; congruence|].
  cbn in Hr. destruct (hstep e h) as [h1|] eqn:Es; [|done]. cbn in Hr. pose proof (step_length _ _ _ Es) as Hl.
  destruct (h_clients h1 !! k) as [c1|] eqn:E1; [|apply lookup_ge_None in E1; apply lookup_lt_Some in Hc; lia].
  eapply (IH h1 c1); [done..|]. destruct h as [cs rx]. destruct e as [i|i|i|i|i|i p|]; try done; cbn in Es, Hc.
  4: { destruct rx as [|p rx]; [done|]. destruct p as [nm bb pt|e addr blk|src dst id data|e nid|why]; cbn in Es; try (injection Es as <-; cbn in *; by simplify_eq).
    - injection Es as <-. cbn in E1. rewrite list_lookup_imap, Hc in E1. cbn in E1. injection E1 as <-. unfold announce. by repeat case_match.
    - destruct (target (length cs) dst) as [j|]; [|injection Es as <-; cbn in *; by simplify_eq]. destruct (cs !! j) as [cj|] eqn:Ej; [|done]. destruct (room (cl_conn cj)); [|done].
      injection Es as <-. cbn in E1. destruct (decide (j = k)) as [->|Hne].
      + rewrite list_lookup_insert in E1 by (by eapply lookup_lt_Some). injection E1 as <-. by simplify_eq.
      + rewrite list_lookup_insert_ne in E1 by done. by simplify_eq. }
  all: destruct (cs !! i) as [[conn cmd ph sent]|] eqn:Ei; [|done]; (destruct (decide (i = k)) as [->|Hne];
    [assert (c = Client conn cmd ph sent) as -> by congruence|repeat (case_match; try done); simplify_eq; cbn in E1; rewrite list_lookup_insert_ne in E1 by done; by simplify_eq]).
  all: cbn in Hp; subst ph; repeat (case_match; try done); simplify_eq; cbn in E1; rewrite list_lookup_insert in E1 by (by eapply lookup_lt_Some); by injection E1 as <-.
Qed.
(** It can when no other connection is being made. *)
Theorem C147_written_partial : forall n es h k c, hrun es (hub0 n) = Some h -> h_clients h !! k = Some c -> cl_phase c = CUp ->
  (forall i c', h_clients h !! i = Some c' -> cl_phase c' = CUp \/ cl_phase c' = CDown) ->
  exists es' h' c', Forall own es' /\ hrun es' h = Some h' /\ h_clients h' !! k = Some c' /\ forwards (cl_sent c') = forwards_for k es.
Proof.
  intros n es h k c H Hc Hp Hall. destruct (drain h) as (es' & h' & Ho & Hr & Hrx & Hf).
  { apply Forall_lookup. intros i c' Hi. by eapply Hall. }
  assert (Hrun : hrun (es ++ es') (hub0 n) = Some h') by (rewrite hrun_app, H; done).
  destruct (h_clients h' !! k) as [c'|] eqn:E'.
  2: { exfalso. apply lookup_ge_None in E'. rewrite (run_length _ _ _ Hrun), <- (run_length _ _ _ H) in E'. apply lookup_lt_Some in Hc. lia. }
  exists es', h', c'. split_and!; try done. pose proof (phase_own _ _ _ _ _ _ Ho Hr Hc E' Hp) as Hp'.
  destruct (run_forwards _ _ _ _ _ Hrun E') as [H1 _]. rewrite Hp' in H1. specialize (H1 ltac:(done)).
  destruct (proj1 (Forall_lookup _ _) Hf _ _ E') as [H2 H3]. unfold pend in H1. rewrite H2, H3, Hrx in H1. change (due_f n k []) with (@nil packet) in H1. rewrite !app_nil_r in H1.
  rewrite H1. unfold forwards_for. rewrite omap_app. fold (forwards_for k es'). by rewrite (forwards_for_own _ _ Ho), app_nil_r.
Qed.
Print Assumptions C147_written_partial.
(** A daemon whose websocket opens only after a hundred packets for it came in, and
    a hundred more: its registration waits for room in a channel that is not read
    yet, and the main loop for room in the other one. *)
Definition c147_es : list hev :=
  [HOpen 0; HUp 0; HWrite 0] ++ concat (replicate 100 [HNode 0 (PForward "" "1" "id" [1]); HTake; HRelay 1]) ++
  HOpen 1 :: concat (replicate 100 [HNode 0 (PForward "" "1" "id" [1]); HTake]) ++
  [HNode 0 (PForward "" "1" "id" [1]); HNode 0 (PForward "" "0" "id" [2])].
Definition c147_h : hub := default (hub0 0) (hrun c147_es (hub0 2)).
Lemma c147_runs : hrun c147_es (hub0 2) = Some c147_h.
Proof. vm_compute. reflexivity. Qed.
Lemma c147_blocked : blocked 1 "0" "1" "id" [1] c147_h.
Proof.
  split; [|split].
  - exists (default (Client [] [] CWait []) (h_clients c147_h !! 1%nat)). split; [vm_compute; reflexivity|]. split; [split; vm_compute; reflexivity|vm_compute; reflexivity].
  - vm_compute. reflexivity.
  - vm_compute. reflexivity.
Qed.
Lemma c147_first : exists c, h_clients c147_h !! 0%nat = Some c /\ cl_phase c = CUp.
Proof. exists (default (Client [] [] CWait []) (h_clients c147_h !! 0%nat)). split; vm_compute; reflexivity. Qed.
(** From then on the main loop takes no packet any more and nothing is written to
    that daemon, whatever happens. *)
Theorem C147_blocked_for_good : forall n es h k c src dst id data rx, hrun es (hub0 n) = Some h -> h_clients h !! k = Some c ->
  cl_phase c = COpen -> length (cl_cmd c) = 100%nat -> length (cl_conn c) = 100%nat -> h_rx h = PForward src dst id data :: rx -> names dst k ->
  forall es' h', hrun es' h = Some h' -> HTake ∉ es' /\ exists c', h_clients h' !! k = Some c' /\ cl_phase c' = COpen /\ cl_sent c' = cl_sent c.
Proof.
  intros n es h k c src dst id data rx H Hc H1 H2 H3 Hrx Hn es' h' Hr. split.
  - eapply (blocked_run _ _ _ k src dst id data); [done|]. split; [by exists c|]. by rewrite Hrx.
  - destruct (jammed_run _ _ _ _ _ Hr Hc (conj H1 H2)) as (c' & G1 & [G2 _] & G3 & _). by exists c'.
Qed.
Print Assumptions C147_blocked_for_good.
Theorem C147_full_refuted : ~ C147_full.
Proof.
  intros H. destruct c147_first as (c & Hc0 & Hp0). destruct (H 2%nat c147_es c147_h 0%nat c c147_runs Hc0 Hp0) as (es' & h' & c' & Ho & Hr & Hc' & Hf).
  destruct (blocked_run _ _ _ _ _ _ _ _ Hr c147_blocked) as [_ Hno].
  assert (Hrun : hrun (c147_es ++ es') (hub0 2) = Some h') by (rewrite hrun_app, c147_runs; done).
  destruct (run_forwards _ _ _ _ _ Hrun Hc') as [H1 _].
  pose proof (phase_own _ _ _ _ _ _ Ho Hr Hc0 Hc' Hp0) as Hp.
  rewrite Hp in H1. specialize (H1 ltac:(done)). unfold forwards_for in H1. rewrite omap_app in H1. fold (forwards_for 0 c147_es) (forwards_for 0 es') in H1.
  rewrite (forwards_for_own _ _ Ho), app_nil_r, <- Hf in H1. unfold pend in H1. rewrite forwards_app, <- app_assoc in H1.
  assert (Hnil : due_f 2 0 (h_rx h') = []).
  { rewrite <- (app_nil_r (forwards (cl_sent c'))) in H1 at 2. apply app_inv_head in H1. by apply app_eq_nil in H1 as [_ H1]. }
  (* the packet still waits *)
  assert (Hrx : h_rx c147_h `prefix_of` h_rx h').
  { clear -Hr Hno. revert Hr. generalize c147_h. induction es' as [|e es' IH]; intros h Hr; [by injection Hr as <-|]. apply not_elem_of_cons in Hno as [Hne Hno].
    cbn in Hr. destruct (hstep e h) as [h1|] eqn:Es; [|done]. cbn in Hr. etrans; [|by apply (IH Hno h1)].
    destruct h as [cs rx]. destruct e as [i|i|i|i|i|i p|]; cbn in Es; [..|by destruct Hne]; repeat (case_match; try done); simplify_eq; cbn; try done. by apply prefix_app_r. }
  destruct Hrx as [m Hm]. rewrite Hm, due_f_app in Hnil. apply app_eq_nil in Hnil as [Hnil _]. revert Hnil. vm_compute. done.
Qed.
Print Assumptions C147_full_refuted.

(** ** C148 *)
(** Each bundle is written to a daemon after the registration: a daemon ignores what
    comes before. *)
Definition C148_full : Prop := forall n es h k c l1 src dst id data l2, hrun es (hub0 n) = Some h -> h_clients h !! k = Some c ->
  cl_sent c = l1 ++ PForward src dst id data :: l2 -> PRegister "ConnectN" true None ∈ l1.
Definition c148_es : list hev :=
  [HOpen 0; HUp 0; HNode 0 (PForward "" "1" "id" [1]); HTake; HRelay 1; HOpen 1; HUp 1; HWrite 1; HWrite 1].
Theorem C148_full_refuted : ~ C148_full.
Proof.
  intros H. assert (exists h c, hrun c148_es (hub0 2) = Some h /\ h_clients h !! 1%nat = Some c /\ cl_sent c = [PForward "0" "1" "id" [1]; PRegister "ConnectN" true None]) as (h & c & H1 & H2 & H3).
  { do 2 eexists. split; [vm_compute; reflexivity|]. split; reflexivity. }
  specialize (H _ _ _ _ _ [] _ _ _ _ _ H1 H2 H3). by apply elem_of_nil in H.
Qed.
Print Assumptions C148_full_refuted.
(** A daemon is sent one registration, never two.  It is the first packet when none
    was on its way to the daemon at the time it was queued. *)
Theorem C148_registers_partial : forall n es h k c, hrun es (hub0 n) = Some h -> h_clients h !! k = Some c ->
  filter (fun p => is_reg p = true) (cl_sent c) `prefix_of` [PRegister "ConnectN" true None] /\
  (forall es1 es2 h1 c1, es = es1 ++ HUp k :: es2 -> hrun es1 (hub0 n) = Some h1 -> h_clients h1 !! k = Some c1 -> cl_cmd c1 = [] ->
     cl_sent c = [] \/ head (cl_sent c) = Some (PRegister "ConnectN" true None)).
Proof.
  intros n es h k c H Hc. destruct (run_regs _ _ _ _ _ H Hc) as (_ & _ & Hp & _). split.
  - rewrite regs_app in Hp. etrans; [|exact Hp]. by apply prefix_app_r.
  - intros es1 es2 h1 c1 -> H1 Hc1 Hcmd. rewrite hrun_app, H1 in H. cbn in H. destruct (hstep (HUp k) h1) as [h2|] eqn:Es; [|done]. cbn in H.
    assert (exists c2, h_clients h2 !! k = Some c2 /\ cl_phase c2 = CUp /\ cl_cmd c2 = [reg] /\ cl_sent c2 = cl_sent c1 /\ cl_phase c1 = COpen) as (c2 & Hc2 & Hp2 & Hm2 & Hs2 & Ho).
    { destruct h1 as [cs rx]. cbn in Hc1. cbn in Es. rewrite Hc1 in Es. destruct c1 as [conn cmd ph sent]. cbn in Hcmd. subst cmd. destruct ph; try done. cbn in Es. injection Es as <-.
      eexists. cbn. rewrite list_lookup_insert by (by eapply lookup_lt_Some). split; done. }
    destruct (run_regs _ _ _ _ _ H1 Hc1) as (_ & Hr & _). destruct (Hr (or_intror Ho)) as [_ Hr']. rewrite Hr' in Hs2.
    destruct (after_up _ _ _ _ _ _ H Hc2 Hc Hp2) as [->|[l ->]]; [by exists []; rewrite Hs2, Hm2|by left|by right].
Qed.
Print Assumptions C148_registers_partial.
Example c148_case : exists h c, hrun (c148_es ++ [HWrite 0]) (hub0 2) = Some h /\ h_clients h !! 0%nat = Some c /\ head (cl_sent c) = Some (PRegister "ConnectN" true None).
Proof. do 2 eexists. split; [vm_compute; reflexivity|]. split; reflexivity. Qed.
Example c147_case : exists h, hrun c145_es (hub0 3) = Some h /\ Forall (fun c => cl_phase c = CUp) (h_clients h) /\ h_rx h = [] /\ exists c, c ∈ h_clients h /\ cl_conn c <> [].
Proof. eexists. split; [vm_compute; reflexivity|]. split; [repeat constructor|]. split; [reflexivity|]. eexists. split; [right; right; left|]. done. Qed.
