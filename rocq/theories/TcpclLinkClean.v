(** Two nodes joined by byte pipes (TcpclLink.v) without faults. *)
From stdpp Require Import prelude strings.
From Coq Require Import NArith Lia ZifyNat ZifyN ZifyBool.
From Verif Require Import Core Bytes TcpclWire TcpclWireProofs TcpclSession TcpclSessionProofs TcpclPair TcpclPairProofs TcpclCancel TcpclExtraProofs TcpclLink TcpclLinkProofs TcpclLinkSim TcpclLinkLive TcpclClean.
Open Scope N_scope.

Section LinkClean.
  Variable utf8_lossy : bytes -> bytes.
  Variable parse_id : bytes -> option bytes.
  Variable parse_node : bytes -> option eid.
  Variable refuse : side -> bool.
  Variable own : side -> bytes.
  Variable data_of : nat -> bytes.
  Variable cap : side -> N.
  Notation lstep := (lstep utf8_lossy parse_id parse_node refuse own data_of cap).
  Notation lrun := (lrun utf8_lossy parse_id parse_node refuse own data_of cap).
  Notation lmoderate := (lmoderate parse_id data_of).
  Notation nothing_abandoned := (nothing_abandoned utf8_lossy parse_id parse_node refuse own data_of cap).
  Hypothesis Hown : ids_ok utf8_lossy own.
  (** reading and handing over valid bundles is all that happens *)
  Definition undisturbed (e : lev) : Prop :=
    match e with
    | LPoll _ _ v => v_resp v = true
    | LSubmit _ h _ => parse_id (data_of h) <> None /\ data_of h <> []
    | _ => False
    end.
  Lemma link_clean es : lmoderate es -> nothing_abandoned es -> Forall undisturbed es ->
    forall x, ~ ended (at_ (lrun es) x) /\ forall h v, EVerdict h v ∈ c_log (at_ (lrun es) x) -> v = Successful.
  Proof.
    intros Hm Hn Hu. destruct (sim utf8_lossy parse_id parse_node refuse own data_of cap Hown es Hm Hn) as (es' & Hs & Hex).
    assert (Hc : clean parse_id data_of refuse (sys_run parse_id data_of refuse mru es')).
    { apply (clean_run parse_id data_of refuse). apply Forall_forall. intros se Hi. destruct (ex_from _ _ _ Hex se Hi) as (e & He & Ho).
      rewrite Forall_forall in Hu. specialize (Hu e He). destruct se; cbn in Ho; try (subst e; exact Hu). destruct Ho as (n & v & -> & _ & ->). exact Hu. }
    intros x. pose proof (sa_side _ _ _ Hs x) as Hx. unfold same_side in Hx. split.
    - intros (d & s & E & Et). rewrite E in Hx. destruct Hx as [Hx _]. pose proof (cl_alive _ _ _ _ Hc x) as Ha. rewrite Hx in Ha. congruence.
    - intros h v Hi. apply (cl_verdict _ _ _ _ Hc x h v). destruct (c_phase (at_ (lrun es) x)); [| |by destruct Hx as (_ & -> & _)|]; destruct Hx as (_ & Hl & _); rewrite Hl in Hi; by apply elem_of_nil in Hi.
  Qed.
  Lemma link_received es x h : lmoderate es -> nothing_abandoned es -> EVerdict h Successful ∈ c_log (at_ (lrun es) x) ->
    let peer := at_ (lrun es) (other x) in
    received parse_id (c_log peer) (data_of h) \/ held parse_id (refuse x) (refuse (other x)) (c_stores peer) (data_of h).
  Proof.
    intros Hm Hn Hi. destruct (sim utf8_lossy parse_id parse_node refuse own data_of cap Hown es Hm Hn) as (es' & Hs & Hex).
    assert (L : forall y, n_log (get (sys_run parse_id data_of refuse mru es') y) = c_log (at_ (lrun es) y) /\
                          n_stores (get (sys_run parse_id data_of refuse mru es') y) = c_stores (at_ (lrun es) y)).
    { intros y. pose proof (sa_side _ _ _ Hs y) as Hy. unfold same_side in Hy. destruct (c_phase (at_ (lrun es) y)); [| |by destruct Hy as (_ & -> & ->)|]; destruct Hy as (-> & -> & ->); done. }
    rewrite <- (proj1 (L x)) in Hi. cbv zeta. rewrite <- (proj1 (L (other x))), <- (proj2 (L (other x))). by apply success_means_received.
  Qed.
  (** a verdict for each handle *)
  Lemma verdicts_in c h : h ∈ verdicts c -> exists v, EVerdict h v ∈ c_log c.
  Proof.
    unfold verdicts. intros Hi. apply elem_of_list_omap in Hi as (e & He & Hv). destruct e; cbn in Hv; try done. injection Hv as <-. by eexists.
  Qed.
End LinkClean.
