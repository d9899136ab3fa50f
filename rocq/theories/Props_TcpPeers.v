(** C175: neighbours with a TCPCL session. *)
From stdpp Require Import prelude strings pretty gmap.
From Coq Require Import NArith Lia ZifyBool ZifyN ZifyNat.
From Verif Require Import Core Peers PeersProofs TcpPeers.
Open Scope N_scope.

(** ** Specification *)
(** nobody removes neighbours by hand, and no transfer fails *)
Definition undisturbed (x : tev) : Prop :=
  match x with
  | TOp (PRemove _) | TOp PClear | TOp (PFail _) | TOp (PAdd _) => False
  | _ => True
  end.
(** In full: as long as a session with a node is open, the node is listed. *)
Definition C175_full : Prop := forall h ip port e n, Forall undisturbed h ->
  (ip, port, e) ∈ t_open (trun h tstart) -> eid_node e = Some n -> is_Some (t_peers (trun h tstart) !! n).
(** False: a node that sends no beacons is dropped after the timeout, whatever it sends on the session. *)
Theorem C175_stays_refuted : ~ C175_full.
Proof.
  intros H. destruct (H [TStart 100 (Dtn "n2" "") "10.0.0.2" 50312; TOp (PJanitor (PConf 20 false) 120)] "10.0.0.2" 50312 (Dtn "n2" "") "n2") as [p Hp].
  - by repeat constructor.
  - by left.
  - done.
  - by vm_compute in Hp.
Qed.
Print Assumptions C175_stays_refuted.

(** Things that happen to others: not to the node [n].  The clean-up concerns all;
    time does not run backwards. *)
Definition to_others (n : string) (t0 : N) (x : tev) : Prop :=
  match x with
  | TStart _ e _ _ => eid_node e <> Some n
  | TEnd _ _ => True
  | TOp (PAdd p) => eid_node (pe_eid p) <> Some n
  | TOp (PRemove i) | TOp (PFail i) | TOp (PTouch _ i) => i <> n
  | TOp PClear => False
  | TOp (PBeacon _ _ _ b) => eid_node (bi_eid b) <> Some n
  | TOp (PJanitor _ now) => t0 <= now < 2^64
  end.

Lemma keyed_tstep s x : keyed (t_peers s) -> keyed (t_peers (tstep s x)).
Proof.
  intros Hk. destruct x as [now e ip port|ip port|o]; cbn [tstep t_peers]; [|done|by apply keyed_step].
  unfold session_start. destruct (eid_node e) as [n|] eqn:E; [|done]. cbn [t_peers]. destruct (peers_known n _); [done|].
  intros n' p H. apply lookup_insert_Some in H as [[<- <-]|[_ H]]; [done|by apply Hk].
Qed.
Lemma keyed_trun h : forall s, keyed (t_peers s) -> keyed (t_peers (trun h s)).
Proof. unfold trun. induction h as [|x h IH]; intros s Hk; [done|]. apply IH. by apply keyed_tstep. Qed.
Lemma filter_at (P : string * peer -> Prop) {dec : forall x, Decision (P x)} (m : peers) n :
  (filter P m : peers) !! n = match m !! n with Some p => if decide (P (n, p)) then Some p else None | None => None end.
Proof.
  destruct (m !! n) as [p|] eqn:E.
  - destruct (decide (P (n, p))) as [Hd|Hd]; [by apply map_filter_lookup_Some|].
    apply map_filter_lookup_None. right. intros q Hq. congruence.
  - apply map_filter_lookup_None. by left.
Qed.
Lemma others_step s x n t0 : keyed (t_peers s) -> to_others n t0 x ->
  t_peers (tstep s x) !! n = match x with
    | TOp (PJanitor cf now) => match t_peers s !! n with Some p => if decide (pe_static p || still_valid cf now p = true) then Some p else None | None => None end
    | _ => t_peers s !! n
    end.
Proof.
  intros Hk Ho. destruct x as [now e ip port|ip port|o]; cbn [tstep t_peers].
  - unfold session_start. destruct (eid_node e) as [i|] eqn:E; [|done]. cbn [t_peers]. destruct (peers_known i _); [done|].
    apply lookup_insert_ne. cbn in Ho. congruence.
  - done.
  - destruct o as [a|i|now i| |i|cf now|self now ip b]; cbn in Ho; try done;
      try (apply neutral_other; [done|intros j [= <-]|intros t j [= <- <-]|done]; done); try (by apply neutral_other).
    cbn. rewrite filter_at. done.
Qed.

(** Proved: a node that was not a neighbour and connects is listed at the address
    and port it connects from.  It stays until the first clean-up that runs the
    timeout or later after the start of the session, and no longer, whether the
    session is open or not.  Missing: an open session does not keep the neighbour. *)
Theorem C175_listed_partial : forall h1 h2 t0 e ip port n,
  eid_node e = Some n -> t_peers (trun h1 tstart) !! n = None -> Forall (to_others n t0) h2 ->
  let s := trun (h1 ++ TStart t0 e ip port :: h2) tstart in
  ((forall cf now, TOp (PJanitor cf now) ∈ h2 -> now - t0 < pc_timeout cf) ->
     t_peers s !! n = Some (Peer e (AIp ip) false None [("tcp", Some port)] [] t0 0)) /\
  ((exists cf now, TOp (PJanitor cf now) ∈ h2 /\ pc_timeout cf <= now - t0) -> t_peers s !! n = None).
Proof.
  intros h1 h2 t0 e ip port n He Hn Ho. cbn zeta. unfold trun. rewrite fold_left_app. cbn [fold_left]. fold (trun h1 tstart).
  assert (Hk : keyed (t_peers (trun h1 tstart))) by (apply keyed_trun, keyed_empty).
  set (s0 := tstep (trun h1 tstart) (TStart t0 e ip port)).
  assert (Hk0 : keyed (t_peers s0)) by by apply keyed_tstep.
  assert (H0 : t_peers s0 !! n = Some (session_peer t0 e ip port)).
  { unfold s0. cbn [tstep]. unfold session_start. rewrite He. cbn [t_peers]. unfold peers_known. rewrite bool_decide_eq_false_2 by (rewrite Hn; by intros []).
    by rewrite lookup_insert. }
  assert (Hgone : forall h s, keyed (t_peers s) -> Forall (to_others n t0) h -> t_peers s !! n = None -> t_peers (fold_left tstep h s) !! n = None).
  { clear. induction h as [|x h IH]; intros s Hk Hf Hs; [done|]. apply Forall_cons in Hf as [Hx Hf]. cbn.
    apply IH; [by apply keyed_tstep|done|]. rewrite (others_step s x n t0 Hk Hx), Hs. destruct x as [| |[]]; done. }
  clearbody s0. clear Hn Hk. revert s0 Hk0 H0. induction h2 as [|x h2 IH]; intros s0 Hk0 H0.
  { split; [done|]. intros (cf & now & H & _). by apply elem_of_nil in H. }
  apply Forall_cons in Ho as [Hx Ho]. specialize (IH Ho). cbn [fold_left].
  assert (Hs := others_step s0 x n t0 Hk0 Hx). rewrite H0 in Hs.
  assert (Hcase : (exists cf now, x = TOp (PJanitor cf now)) \/ (forall cf now, x <> TOp (PJanitor cf now)) )
    by (destruct x as [| |[]]; try (by right); left; by eexists _, _).
  destruct Hcase as [(cf & now & ->)|Hx'].
  - assert (Hv := still_valid_spec cf now (session_peer t0 e ip port) eq_refl Hx ltac:(done)).
    assert (Hlim : limit cf (session_peer t0 e ip port) = pc_timeout cf) by (unfold limit; cbn; by destruct (_ && _)).
    rewrite Hlim in Hv. cbn [session_peer peer_new pe_last] in Hv.
    destruct (N.lt_ge_cases (now - t0) (pc_timeout cf)) as [Hlt|Hge].
    + rewrite decide_True in Hs by (change (still_valid cf now (session_peer t0 e ip port) = true); by apply Hv).
      destruct (IH _ (keyed_tstep _ _ Hk0) Hs) as [IH1 IH2]. split.
      * intros H. apply IH1. intros cf' now' Hin. apply H. by right.
      * intros (cf' & now' & Hin & Hle). apply IH2. exists cf', now'. split; [|done].
        apply elem_of_cons in Hin as [[= -> ->]|Hin]; [lia|done].
    + assert (Hnv : ~ (pe_static (session_peer t0 e ip port) || still_valid cf now (session_peer t0 e ip port) = true)).
      { change (~ still_valid cf now (session_peer t0 e ip port) = true). intros H. apply Hv in H. lia. }
      rewrite decide_False in Hs by done. split.
      * intros H. specialize (H cf now ltac:(by left)). lia.
      * intros _. apply Hgone; [by apply keyed_tstep|done|done].
  - assert (Hs' : t_peers (tstep s0 x) !! n = Some (session_peer t0 e ip port)) by (rewrite Hs; destruct x as [| |[]]; try done; by destruct (Hx' cf now)).
    destruct (IH _ (keyed_tstep _ _ Hk0) Hs') as [IH1 IH2]. split.
    + intros H. apply IH1. intros cf' now' Hin. apply H. by right.
    + intros (cf' & now' & Hin & Hle). apply IH2. exists cf', now'. split; [|done].
      apply elem_of_cons in Hin as [<-|Hin]; [by destruct (Hx' cf' now')|done].
Qed.
Print Assumptions C175_listed_partial.

(** A session changes no neighbour the node already has, and adds at most the
    node that connects. *)
Theorem C175_nobody_displaced : forall s now e ip port n,
  (forall p, t_peers s !! n = Some p -> t_peers (tstep s (TStart now e ip port)) !! n = Some p) /\
  (t_peers s !! n = None -> eid_node e <> Some n -> t_peers (tstep s (TStart now e ip port)) !! n = None).
Proof.
  intros s now e ip port n. cbn [tstep]. unfold session_start. destruct (eid_node e) as [i|] eqn:E; [|done]. cbn [t_peers].
  unfold peers_known. case_bool_decide as Hk; [done|]. split.
  - intros p Hp. rewrite lookup_insert_ne; [done|]. intros ->. apply Hk. eauto.
  - intros Hn Hi. rewrite lookup_insert_ne; [done|]. congruence.
Qed.
Print Assumptions C175_nobody_displaced.
(** Two nodes connect, one of them is known; a clean-up spares the new one and a
    later one drops it. *)
Definition h175 : list tev := [TOp (PAdd (Peer (Dtn "n3" "") (AIp "10.0.0.3") true None [] [] 0 0)); TStart 100 (Dtn "n3" "") "10.9.9.9" 4000;
  TStart 100 (Dtn "n2" "") "10.0.0.2" 50312; TOp (PJanitor (PConf 20 false) 119)].
Example C175_case : (map fst (map_to_list (t_peers (trun h175 tstart))), length (t_open (trun h175 tstart))) = (["n2"; "n3"], 2%nat) \/
  (map fst (map_to_list (t_peers (trun h175 tstart))), length (t_open (trun h175 tstart))) = (["n3"; "n2"], 2%nat).
Proof. vm_compute. auto. Qed.
Example C175_case_hyps : Forall (to_others "n2" 100) [TOp (PJanitor (PConf 20 false) 119)] /\ t_peers (trun (take 2 h175) tstart) !! "n2" = None /\
  pe_addr <$> t_peers (trun h175 tstart) !! "n3" = Some (AIp "10.0.0.3").
Proof. split; [by repeat constructor|]. by vm_compute. Qed.
