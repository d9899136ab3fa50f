(** C174: the services of the node and the modules of external convergence layers. *)
From stdpp Require Import prelude strings pretty gmap.
From Coq Require Import NArith ZArith Lia ZifyBool ZifyN ZifyNat.
From Verif Require Import Bytes Cbor Core Peers Beacon Ecla EclaProofs EclaInv EclaLive Props_Discovery Props_Ecla.
Open Scope N_scope.

(** In full: whatever services the node has, a module can connect and register
    after every history of modules that keep to the rules of C82.  The services
    are those of C173; simplified: they do not change during the history. *)
Definition C174_full : Prop := forall parse_f32 services ord dec_bundle read_block self nodeid connectors builtin ps evs s,
  WS ∈ connectors -> configured builtin ->
  runs dec_bundle read_block (own_services parse_f32 services ord) self nodeid connectors (start builtin ps) evs s ->
  polite read_block evs -> fresh_addresses dec_bundle read_block (own_services parse_f32 services ord) self nodeid connectors (start builtin ps) evs ->
  open_for dec_bundle read_block (own_services parse_f32 services ord) self nodeid connectors s.

(** the block of services can be written exactly if each keeps the limits of its kind *)
Lemma block_iff pf l : forall sb, is_Some (block_services pf l sb) <-> forall tag text, (tag, text) ∈ l -> announced pf tag text.
Proof.
  induction l as [|[t x] l IH]; intros sb; cbn [block_services].
  - split; [|eauto]. intros _ t x H. by apply elem_of_nil in H.
  - destruct (build_service pf t x) as [p| |] eqn:E.
    + rewrite IH. split.
      * intros H t' x' Hin. apply elem_of_cons in Hin as [[= -> ->]|Hin]; [|by apply H]. apply built_iff. eauto.
      * intros H t' x' Hin. apply H. by right.
    + split; [by intros []|]. intros H. destruct (proj2 (built_iff pf t x)) as [p Hp]; [apply H; left|congruence].
    + split; [by intros []|]. intros H. destruct (proj2 (built_iff pf t x)) as [p Hp]; [apply H; left|congruence].
Qed.
Lemma own_iff pf l ord ls : is_Some (own_services pf l ord ls) <-> forall tag text, (tag, text) ∈ l -> announced pf tag text.
Proof.
  rewrite <- (block_iff pf l (foldl (fun sb l => sb_add_cla (ly_name l) (Some (ly_port l)) sb) sb_new ls)). unfold own_services.
  destruct (block_services _ _ _); split; [eauto|eauto|by intros []|by intros []].
Qed.

(** Proved: for services that keep the limits of their kinds.  Missing: others. *)
Theorem C174_open_partial : forall parse_f32 services ord dec_bundle read_block self nodeid connectors builtin ps evs s,
  WS ∈ connectors -> configured builtin ->
  (forall tag text, (tag, text) ∈ services -> announced parse_f32 tag text) ->
  runs dec_bundle read_block (own_services parse_f32 services ord) self nodeid connectors (start builtin ps) evs s ->
  polite read_block evs -> fresh_addresses dec_bundle read_block (own_services parse_f32 services ord) self nodeid connectors (start builtin ps) evs ->
  no_panic s /\ open_for dec_bundle read_block (own_services parse_f32 services ord) self nodeid connectors s.
Proof.
  intros pf sv ord db rb self nid cs bi ps evs s H1 H2 H3 H4 H5 H6.
  apply (C82_open_partial db rb (own_services pf sv ord) self nid cs bi ps evs s); try done.
  intros ls. by apply own_iff.
Qed.
Print Assumptions C174_open_partial.

(** False: a battery level that is no number, and the first module that registers shuts the door for all. *)
Definition bad_ob : list layer -> option (list N) := own_services (fun _ => None) [(191, "full")] (fun _ => []).
Definition one_module : list event := [EOpen WS "" 0; EInit 0; EPacket 0 5 (PRegister "lora" true None)].
Notation exec_bad := (exec no_bundle rb bad_ob me "dtn://node1/" [WS; TCP]).
Theorem C174_open_refuted : ~ C174_full.
Proof.
  intros H. destruct (exec_bad one_module (start tcp0 ∅)) as [s|] eqn:E; [|by vm_compute in E].
  specialize (H (fun _ => None) [(191, "full")] (fun _ => []) no_bundle rb me "dtn://node1/" [WS; TCP] tcp0 ∅ one_module s
    ltac:(by left) ltac:(by repeat constructor) (exec_runs _ _ _ _ _ _ _ _ _ E)).
  destruct H with (now := 6) (name := "ble") (b := true) (port := @None N) as (s' & i & a & q & E' & _); [| |done|vm_compute; lia| |].
  - split_and!.
    + intros i Hi. unfold one_module in Hi. repeat (apply elem_of_cons in Hi as [Hi|Hi]; [done|]). by apply elem_of_nil in Hi.
    + intros i now e addr blk Hi. unfold one_module in Hi. repeat (apply elem_of_cons in Hi as [Hi|Hi]; [done|]). by apply elem_of_nil in Hi.
    + intros i evs1 e1 evs2 e2 evs3 Heq (? & ? & ? & ? & ->) (? & ? & ? & ? & ->). unfold one_module in Heq.
      destruct evs1 as [|? [|? [|? evs1]]]; cbn in Heq; try done; [|by destruct evs1].
      injection Heq as _ _ _ _ _ Heq. by destruct evs2.
  - intros evs1 ip port evs2 s1 Heq Hr. exfalso. unfold one_module in Heq. destruct evs1 as [|? [|? [|? evs1]]]; cbn in Heq; try done. by destruct evs1.
  - assert (HL : (fun s => map ly_name (e_layers s)) <$> exec_bad one_module (start tcp0 ∅) = Some ["tcp"; "lora"]) by by vm_compute.
    rewrite E in HL. injection HL as ->. apply (bool_decide_unpack _). by vm_compute.
  - vm_compute in E. injection E as <-. destruct i as [|[|i]]; by vm_compute in E'.
Qed.
Print Assumptions C174_open_refuted.
(** The hypotheses of the partial theorem can be met, with a service. *)
Example C174_case : exists s, runs no_bundle rb (own_services (fun _ => None) [(63, "hello")] (fun _ => [])) me "dtn://node1/" [WS; TCP] (start tcp0 ∅) one_module s /\
  (forall tag text, (tag, text) ∈ [(63, "hello")] -> announced (fun _ => None) tag text) /\ no_panic s.
Proof.
  destruct (exec no_bundle rb (own_services (fun _ => None) [(63, "hello")] (fun _ => [])) me "dtn://node1/" [WS; TCP] one_module (start tcp0 ∅)) as [s|] eqn:E; [|by vm_compute in E].
  exists s. split; [by apply exec_runs|]. split.
  - intros t x H. apply elem_of_list_singleton in H as [= -> ->]. by apply an_text.
  - vm_compute in E. by injection E as <-.
Qed.
