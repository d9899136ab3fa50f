(** C131: peers that have gone silent, at the level of bytes (model: TcpclLink.v). *)
From stdpp Require Import prelude strings pretty.
From Coq Require Import NArith Lia.
From Verif Require Import Core Bytes TcpclWire TcpclSession TcpclLink TcpclLinkProofs Props_TcpclLink.
Open Scope N_scope.

(** the session is on / was ended *)
Definition session_on (c : conn) : Prop := exists d s, c_phase c = Live d s /\ is_terminated s = false.
Definition session_over (c : conn) : Prop := exists d s, c_phase c = Live d s /\ is_terminated s = true.
(** nothing arrives during [n] intervals *)
Definition silence (n : nat) : list hev := replicate n (HOther EvTimeout).

(** A peer that stays silent is noticed: the session is ended. *)
Definition C131_full : Prop := forall utf8_lossy parse_id parse_node active refuse own es,
  let hrun := hrun utf8_lossy parse_id parse_node active refuse own in
  session_on (fst (hrun es)) -> exists n, session_over (fst (hrun (es ++ silence n))).

Section c131.
  Variable utf8_lossy : bytes -> bytes.
  Variable parse_id : bytes -> option bytes.
  Variable parse_node : bytes -> option eid.
  Variable active refuse : bool.
  Variable own : bytes.
  Notation hrun := (hrun utf8_lossy parse_id parse_node active refuse own).
  Notation hstep := (hstep utf8_lossy parse_id parse_node active refuse own).
  (** the message that is read in a step, once there is a session *)
  Definition heard1 (cs : conn * bytes) (e : hev) : list packet :=
    match e, c_phase (fst cs) with
    | HPoll _, Live _ s =>
        if is_terminated s then []
        else match read utf8_lossy (c_held (fst cs) ++ snd cs) with ROk p _ => [p] | _ => [] end
    | _, _ => []
    end.
  Fixpoint heard_from (cs : conn * bytes) (es : list hev) : list packet :=
    match es with [] => [] | e :: es => heard1 cs e ++ heard_from (hstep cs e) es end.
  (** the messages of the session, as far as they were read *)
  Definition heard (es : list hev) : list packet := heard_from (conn0, []) es.
  Lemma heard_snoc es e : heard (es ++ [e]) = heard es ++ heard1 (hrun es) e.
  Proof.
    unfold heard, TcpclLink.hrun. generalize (conn0, [] : bytes). induction es as [|x es IH]; intros cs; cbn; [by rewrite app_nil_r|].
    by rewrite IH, app_assoc.
  Qed.
  Lemma terminated_ka s : is_terminated (terminated s) = true.
  Proof. done. Qed.
  Lemma step_ka s e mru : is_terminated s = false -> s_ka_recv (fst (step parse_id refuse mru s e)) = true ->
    match e with EvPacket p _ _ => p = PKeepAlive | EvSubmit _ _ _ | EvQueueClosed => s_ka_recv s = true | _ => s_ka_recv s = true end.
  Proof.
    unfold step. intros ->. destruct e as [p has resp| |data h resp| |].
    - destruct p; try done.
    - cbn. done.
    - destruct (s_send s) eqn:E; cbn; try done.
    - destruct (s_send s) eqn:E; cbn; try done.
    - destruct (s_ka_recv s) eqn:E; cbn; congruence.
  Qed.
  Lemma ka_heard es d s : c_phase (fst (hrun es)) = Live d s -> s_ka_recv s = true -> last (heard es) = Some PKeepAlive.
  Proof.
    revert d s. induction es as [|e es IH] using rev_ind; intros d s; [done|]. rewrite hrun_snoc, heard_snoc.
    destruct (hrun es) as [c buf] eqn:Ec. cbn [fst] in IH.
    assert (Hsame : heard1 (c, buf) e = [] -> c_phase c = Live d s -> s_ka_recv s = true -> last (heard es ++ heard1 (c, buf) e) = Some PKeepAlive).
    { intros -> H1 H2. rewrite app_nil_r. by eapply IH. }
    assert (Hother : forall d0 s0 e0 snap, heard1 (c, buf) e = [] -> c_phase c = Live d0 s0 -> is_terminated s0 = false ->
       match e0 with EvPacket _ _ _ => False | _ => True end ->
       c_phase (react1 parse_id refuse c d0 s0 e0 snap) = Live d s -> s_ka_recv s = true -> last (heard es ++ heard1 (c, buf) e) = Some PKeepAlive).
    { intros d0 s0 e0 snap Hh Hp Ht He H1 H2. cbn in H1. injection H1 as <- <-. apply step_ka in H2; [|done]. rewrite Hh, app_nil_r.
      destruct e0; try done; by eapply IH. }
    destruct e as [b|v|ev|]; cbn [TcpclLink.hstep fst snd].
    - intros H1. by apply Hsame.
    - unfold heard1 in *. cbn [fst snd] in *. unfold poll. destruct (c_phase c) as [| |d0 s0|] eqn:Ep; cbn [fst].
      + destruct (receive_contact_header _); done.
      + destruct (read utf8_lossy _) as [p rest| |]; try done. destruct p; try done. destruct (greet _ _ _ _); [|done]. cbn. intros [= <- <-]. done.
      + destruct (is_terminated s0) eqn:Et; cbn [fst]; [rewrite Ep; intros H1; by apply Hsame|].
        destruct (read utf8_lossy (c_held c ++ buf)) as [p rest| |]; cbn [fst].
        * cbn. intros [= <- <-] H2. apply step_ka in H2; [|done]. subst p. by rewrite last_snoc.
        * cbn. intros [= <- <-] H2. by apply Hsame.
        * intros H1. by eapply (Hother d0 s0 EvReadErr []).
      + by rewrite Ep.
    - assert (Hb : c_phase (other_branch parse_id refuse c ev) = Live d s -> s_ka_recv s = true ->
        match ev with EvPacket _ _ _ => False | _ => True end -> last (heard es ++ heard1 (c, buf) (HOther ev)) = Some PKeepAlive).
      { unfold other_branch. intros H1 H2 Hev. destruct (c_phase c) as [| |d0 s0|] eqn:Ep; try (rewrite Ep in H1; by apply Hsame).
        destruct (is_terminated s0) eqn:Et; [rewrite Ep in H1; by apply Hsame|].
        destruct ev; try done; try (by eapply (Hother d0 s0 _ []); eauto).
        - destruct (s_send s0); try (rewrite Ep in H1; by apply Hsame). by eapply (Hother d0 s0 _ []); eauto.
        - destruct (s_send s0); try (rewrite Ep in H1; by apply Hsame). by eapply (Hother d0 s0 _ []); eauto. }
      destruct ev; intros H1 H2; try (by apply Hb); by apply Hsame.
    - unfold fail. destruct (c_phase c) as [| |d0 s0|] eqn:Ep; try done.
      destruct (is_terminated s0) eqn:Et; [rewrite Ep; intros H1; by apply Hsame|]. intros H1. by eapply (Hother d0 s0 EvReadErr []).
  Qed.
  (** Ended within one interval unless the last message heard was a keepalive;
      the peer is told so.  Missing: peers whose last message was a keepalive. *)
  Theorem C131_noticed_partial : forall es,
    session_on (fst (hrun es)) -> last (heard es) <> Some PKeepAlive ->
    session_over (fst (hrun (es ++ silence 1))) /\
    exists ka, c_out (fst (hrun (es ++ silence 1))) = c_out (fst (hrun es)) ++ ka ++ write (PSessTerm false TIdleTimeout) /\ (ka = [] \/ ka = write PKeepAlive).
  Proof.
    intros es (d & s & Hp & Ht) Hl. assert (Hk : s_ka_recv s = false). { destruct (s_ka_recv s) eqn:E; [|done]. by destruct Hl; eapply ka_heard. }
    unfold silence. cbn [replicate]. rewrite hrun_snoc. destruct (hrun es) as [c buf]. cbn [fst TcpclLink.hstep] in *. unfold other_branch. rewrite Hp, Ht.
    unfold session_over, react1. cbn [c_phase c_out]. unfold step. rewrite Ht, Hk. split; [by eexists _, _|].
    destruct (s_ka_sent s); cbn.
    - exists []. split; [done|by left].
    - exists (write PKeepAlive). split; [done|by right].
  Qed.
  Lemma kept es d s n : c_phase (fst (hrun es)) = Live d s -> is_terminated s = false -> s_ka_recv s = true ->
    session_on (fst (hrun (es ++ silence n))).
  Proof.
    intros Hp Ht Hk.
    assert (H : exists s', c_phase (fst (hrun (es ++ silence n))) = Live d s' /\ is_terminated s' = false /\ s_ka_recv s' = true).
    { induction n as [|n (s' & H1 & H2 & H3)]; [exists s; by rewrite app_nil_r|].
      unfold silence in *. rewrite replicate_S_end, app_assoc, hrun_snoc. destruct (hrun (es ++ _)) as [c buf]. cbn [fst TcpclLink.hstep] in *.
      unfold other_branch. rewrite H1, H2. cbn. unfold step. rewrite H2, H3. by eexists. }
    destruct H as (s' & H1 & H2 & _). by exists d, s'.
  Qed.
  (** When a keepalive is the last thing heard, never. *)
  Theorem C131_kept : forall es v n, heard (es ++ [HPoll v]) = heard es ++ [PKeepAlive] ->
    session_on (fst (hrun (es ++ HPoll v :: silence n))).
  Proof.
    intros es v n H. change (HPoll v :: silence n) with ([HPoll v] ++ silence n). rewrite app_assoc.
    rewrite heard_snoc in H. apply app_inv_head in H.
    assert (Hs : exists d s, c_phase (fst (hrun (es ++ [HPoll v]))) = Live d s /\ is_terminated s = false /\ s_ka_recv s = true).
    { rewrite hrun_snoc. destruct (hrun es) as [c buf]. cbn [TcpclLink.hstep fst snd]. unfold heard1 in H. cbn [fst snd] in H. unfold poll.
      destruct (c_phase c) as [| |d s|]; try done. destruct (is_terminated s) eqn:Et; [done|].
      destruct (read utf8_lossy (c_held c ++ buf)) as [p rest| |]; try done. injection H as ->. cbn. unfold step. rewrite Et.
      destruct (s_ka_sent s); by eexists _, _. }
    destruct Hs as (d & s & H1 & H2 & H3). by eapply kept.
  Qed.
End c131.
Print Assumptions C131_noticed_partial.
(** One keepalive, and the session is kept for ever. *)
Definition one_keepalive : list hev := c111_es ++ [HArrive (write PKeepAlive); HPoll (Env (fun _ => false) (fun _ => false) true)].
Theorem C131_full_refuted : ~ C131_full.
Proof.
  intros H. specialize (H id Some c111_node false false [1] one_keepalive). cbn zeta in H.
  assert (E : c_phase (fst (hrun id Some c111_node false false [1] one_keepalive)) = Live (SessInit 10 500 600 [9]) (Session RIdle SIdle 0 true true)) by (vm_compute; reflexivity).
  destruct H as (n & d & s & H1 & H2); [by eexists _, _|].
  destruct (kept id Some c111_node false false [1] _ _ _ n E eq_refl eq_refl) as (d' & s' & H1' & H2'). congruence.
Qed.
Print Assumptions C131_full_refuted.
Print Assumptions C131_kept.
(** A peer that falls silent right after the greeting. *)
Example C131_case : session_on (fst (hrun id Some c111_node false false [1] c111_es)) /\ heard id Some c111_node false false [1] c111_es = [].
Proof. split; [eexists _, _; split; vm_compute; reflexivity|vm_compute; reflexivity]. Qed.
Example C131_kept_case : let h := heard id Some c111_node false false [1] in
  h one_keepalive = [PKeepAlive] /\ h (c111_es ++ [HArrive (write PKeepAlive)]) = [].
Proof. split; vm_compute; reflexivity. Qed.
