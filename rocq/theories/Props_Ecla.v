(** External convergence layers: C53, C82, C83. *)
From stdpp Require Import prelude strings pretty gmap.
From Coq Require Import NArith Lia.
From Verif Require Import Bytes Cbor Core Peers Routing Beacon Ecla EclaProofs EclaInv EclaLive.
Open Scope N_scope.

(** ** Specification *)
(** Connection [i] is there and its packets are handled. *)
Definition connected (s : ecla) (i : nat) : Prop := exists k a, e_tasks s !! i = Some (Task k a Up false).
(** Connection [i] was told that it has the name [n]. *)
Definition registered (s : ecla) (i : nat) (n : string) : Prop := OAccepted i n ∈ e_log s.
(** The node has not yet dealt with the end of connection [i]. *)
Definition not_left (s : ecla) (i : nat) : Prop := exists t, e_tasks s !! i = Some t /\ (t_phase t = Up \/ t_phase t = Left1).
Definition configured (ls : list layer) : Prop := Forall (fun l => ly_ext l = false) ls.
Record modules_separate (builtin : list layer) (s : ecla) : Prop := {
  (** no two connected modules own the same name *)
  ms_names : forall i j n, connected s i -> connected s j -> registered s i n -> registered s j n -> i = j;
  (** bundles and peers come from modules that had registered before *)
  ms_bundles : forall l1 l2 i b, e_log s = l1 ++ OBundle i b :: l2 -> exists n, OAccepted i n ∈ l1;
  ms_peers : forall l1 l2 i p, e_log s = l1 ++ OPeer i p :: l2 -> exists n, OAccepted i n ∈ l1;
  (** a connected module has one layer, under the name it registered *)
  ms_layer : forall i n, connected s i -> registered s i n -> exists l, filter (fun l => ly_name l = n) (e_layers s) = [l] /\ ly_ext l = true;
  (** every external layer is that of a module *)
  ms_owner : forall l, l ∈ e_layers s -> ly_ext l = true -> exists i, registered s i (ly_name l) /\ not_left s i;
  (** the configured layers are not affected *)
  ms_builtin : filter (fun l => ly_ext l = false) (e_layers s) = builtin
}.

Section c53.
Context (dec_bundle : list N -> option bundle)
  (read_block : list N -> option (list (string * option N) * list (N * string)))
  (own_block : list layer -> option (list N))
  (self : eid) (nodeid : string) (connectors : list kind).
Notation runs := (runs dec_bundle read_block own_block self nodeid connectors).
(** No panic while a lock was held: see C82. *)
Definition no_panic (s : ecla) : Prop := e_bad s = [].
(** A TCP client does not connect again from the same address and port before
    the node is done with its old connection. *)
Definition fresh_addresses (s0 : ecla) (evs : list event) : Prop :=
  forall evs1 ip port evs2 s1, evs = evs1 ++ EOpen TCP ip port :: evs2 -> runs s0 evs1 s1 ->
  forall t, t ∈ e_tasks s1 -> t_kind t = TCP -> t_addr t = tcp_addr ip port -> t_phase t = Finished.

(** Missing: histories with a panic, and reused addresses. *)
Theorem C53_modules_partial : forall builtin ps evs s, configured builtin -> runs (start builtin ps) evs s ->
  no_panic s -> fresh_addresses (start builtin ps) evs -> modules_separate builtin s.
Proof.
  intros builtin ps evs s Hb Hr Hp Hf. pose proof (einv_runs _ _ _ _ _ _ _ _ _ _ Hb Hr Hp Hf) as Hi. split.
  - intros i j n (k & a & Ei) (k' & a' & Ej) Ri Rj. by eapply (v_dist _ _ Hi i j _ _ n Ei Ej).
  - intros l1 l2 i b E. by eapply (v_log _ _ Hi _ _ _ i E).
  - intros l1 l2 i b E. by eapply (v_log _ _ Hi _ _ _ i E).
  - intros i n (k & a & Ei) Ri. by eapply (v_lay _ _ Hi i _ n Ei).
  - intros l Hl He. destruct (v_ext _ _ Hi l Hl He) as (i & t & Et & Ho & Ha). exists i. split; [done|]. exists t. split; [done|].
    destruct (t_phase t); try done; auto.
  - apply (v_builtin _ _ Hi).
Qed.
(** In every history the layers of the configuration stay as they are. *)
Theorem C53_configured_layers : forall builtin ps evs s, configured builtin -> runs (start builtin ps) evs s ->
  filter (fun l => ly_ext l = false) (e_layers s) = builtin.
Proof. intros builtin ps evs s Hb Hr. apply (core_runs _ _ _ _ _ _ _ _ _ _ Hb Hr). Qed.
End c53.
Print Assumptions C53_modules_partial.
Print Assumptions C53_configured_layers.

Definition C53_full : Prop := forall dec_bundle read_block own_block self nodeid connectors builtin ps evs s,
  configured builtin -> runs dec_bundle read_block own_block self nodeid connectors (start builtin ps) evs s -> modules_separate builtin s.
(** A node of this software without services *)
Definition no_bundle (d : list N) : option bundle := None.
Definition rb : list N -> option (list (string * option N) * list (N * string)) := read_services (fun _ => "").
Definition ob : list layer -> option (list N) := own_services (fun _ => None) [] (fun _ => []).
Definition me : eid := Dtn "node1" "".
Notation exec' := (exec no_bundle rb ob me "dtn://node1/" [WS; TCP]).
Definition tcp0 : list layer := [Layer "tcp" 4556 false].
(** Module 0 registers; module 1 registers and sends a beacon whose service block
    cannot be read; then module 0 disconnects and its layer stays. *)
Definition bad_beacon : list event :=
  [EOpen WS "" 0; EInit 0; EPacket 0 5 (PRegister "lora" true None);
   EOpen WS "" 0; EInit 1; EPacket 1 6 (PRegister "ble" true None); EPacket 1 7 (PBeacon (Dtn "n2" "") "x" []);
   EEnd 0; EDisc1 0].
Definition has_layer (n : string) (s : ecla) : bool := bool_decide (n ∈ map ly_name (e_layers s)).
Theorem C53_modules_refuted : ~ C53_full.
Proof.
  intros H. destruct (exec' bad_beacon (start tcp0 ∅)) as [s|] eqn:E; [|by vm_compute in E].
  specialize (H no_bundle rb ob me "dtn://node1/" [WS; TCP] tcp0 ∅ bad_beacon s ltac:(by repeat constructor) (exec_runs _ _ _ _ _ _ _ _ _ E)).
  destruct (ms_owner _ _ H (Layer "lora" 0 true)) as (i & Hi & (t & Ht & Hp)).
  { assert (HL : e_layers <$> exec' bad_beacon (start tcp0 ∅) = Some [Layer "tcp" 4556 false; Layer "lora" 0 true; Layer "ble" 0 true]) by by vm_compute.
    rewrite E in HL. injection HL as ->. apply elem_of_cons. right. by left. }
  { done. }
  vm_compute in E. injection E as <-. cbn in Hi, Ht. destruct i as [|[|i]]; cbn in Ht; try (injection Ht as <-; cbn in Hp; naive_solver).
  done.
Qed.
Print Assumptions C53_modules_refuted.
(** A client that is back on the same port too early: its layer stays for ever. *)
Definition C53_no_panic : Prop := forall dec_bundle read_block own_block self nodeid connectors builtin ps evs s,
  configured builtin -> runs dec_bundle read_block own_block self nodeid connectors (start builtin ps) evs s -> no_panic s -> modules_separate builtin s.
Definition back_early : list event :=
  [EOpen TCP "10.0.0.2" 5000; EInit 0; EPacket 0 5 (PRegister "lora" true None); EGone 0;
   EOpen TCP "10.0.0.2" 5000; EInit 1; EEnd 0; EDisc1 0; EDisc2 0].
Theorem C53_reused_address_refuted : ~ C53_no_panic.
Proof.
  intros H. destruct (exec' back_early (start tcp0 ∅)) as [s|] eqn:E; [|by vm_compute in E].
  specialize (H no_bundle rb ob me "dtn://node1/" [WS; TCP] tcp0 ∅ back_early s ltac:(by repeat constructor) (exec_runs _ _ _ _ _ _ _ _ _ E)).
  assert (HL : (fun s => (e_bad s, e_layers s)) <$> exec' back_early (start tcp0 ∅) = Some ([], [Layer "tcp" 4556 false; Layer "lora" 0 true])) by by vm_compute.
  rewrite E in HL. injection HL as HB HL. specialize (H HB).
  destruct (ms_owner _ _ H (Layer "lora" 0 true)) as (i & Hi & (t & Ht & Hp)).
  { rewrite HL. apply elem_of_cons. right. by left. }
  { done. }
  vm_compute in E. injection E as <-. cbn in Hi, Ht. destruct i as [|[|i]]; cbn in Ht; [injection Ht as <-; cbn in Hp; naive_solver| |done].
  unfold registered in Hi. cbn in Hi. apply elem_of_cons in Hi as [Hi|Hi]; [done|].
  apply elem_of_cons in Hi as [Hi|Hi]; [done|]. apply elem_of_cons in Hi as [Hi|Hi]; [done|]. by apply elem_of_nil in Hi.
Qed.
Print Assumptions C53_reused_address_refuted.

(** The hypotheses are met by a module that registers, hands in a peer, is
    disconnected, and whose name is taken by another. *)
Definition two_modules : list event :=
  [EOpen TCP "10.0.0.2" 5000; EInit 0; EPacket 0 5 (PRegister "lora" true None); EPacket 0 6 (PBeacon (Dtn "n2" "") "x" (default [] (ob [])));
   EOpen WS "" 0; EInit 1; EPacket 1 7 (PRegister "ble" true (Some 7)); ETick; EGone 0; EEnd 0; EDisc1 0; EDisc2 0;
   EOpen WS "" 0; EInit 2; EPacket 2 9 (PRegister "lora" true None)].
Example two_modules_run : exists s, runs no_bundle rb ob me "dtn://node1/" [WS; TCP] (start tcp0 ∅) two_modules s /\ no_panic s /\
  fresh_addresses no_bundle rb ob me "dtn://node1/" [WS; TCP] (start tcp0 ∅) two_modules /\
  registered s 0 "lora" /\ connected s 1 /\ registered s 1 "ble" /\ connected s 2 /\ registered s 2 "lora" /\
  e_layers s = [Layer "tcp" 4556 false; Layer "ble" 7 true; Layer "lora" 0 true] /\ is_Some (e_peers s !! "n2").
Proof.
  destruct (exec' two_modules (start tcp0 ∅)) as [s|] eqn:E; [|by vm_compute in E].
  assert (HL : (fun s => (e_bad s, e_layers s, (e_log s !! 0%nat, e_log s !! 4%nat, e_log s !! 9%nat), (e_tasks s !! 1%nat, e_tasks s !! 2%nat), bool_decide (is_Some (e_peers s !! "n2"))))
      <$> exec' two_modules (start tcp0 ∅) =
    Some ([], [Layer "tcp" 4556 false; Layer "ble" 7 true; Layer "lora" 0 true],
      (Some (OAccepted 0 "lora"), Some (OAccepted 1 "ble"), Some (OAccepted 2 "lora")),
      (Some (Task WS "0" Up false), Some (Task WS "1" Up false)), true)) by by vm_compute.
  rewrite E in HL. injection HL as H1 H2 H3 H4 H5 H6 H7 H8. apply exec_runs in E.
  exists s. split; [done|]. split; [done|]. split; [|split_and!; try (by eapply elem_of_list_lookup_2); try done; try (by eexists _, _)].
  - intros evs1 ip port evs2 s1 Heq Hr. destruct evs1 as [|e1 evs1].
    + inversion Hr as [|evs e s2 s3 ? ? Hx]; subst; [|by destruct evs]. cbn. by intros t ?%elem_of_nil.
    + exfalso. unfold two_modules in Heq. do 14 (injection Heq as ? Heq; destruct evs1 as [|? evs1]; cbn [app] in Heq; [done|]). by destruct evs1.
  - by apply bool_decide_eq_true in H8.
Qed.

(** ** C82 *)
(** After the state [s], a new module can connect and gets the name it asks for. *)
Definition open_for dec_bundle read_block own_block self nodeid connectors (s : ecla) : Prop :=
  forall now name b port, name <> "" -> (String.length name <= 64)%nat -> name ∉ map ly_name (e_layers s) ->
  exists s' i a q, exec dec_bundle read_block own_block self nodeid connectors [EOpen WS "" 0; EInit i; EPacket i now (PRegister name b port)] s = Some s' /\
    e_tasks s' !! i = Some (Task WS a Up false) /\ registered s' i name /\
    e_conns s' !! (WS, a) = Some (Conn true (PRegistered self nodeid :: q)) /\ Layer name (default 0 port) true ∈ e_layers s'.
Definition C82_full : Prop := forall dec_bundle read_block own_block self nodeid connectors builtin ps evs s,
  WS ∈ connectors -> configured builtin -> (forall ls, is_Some (own_block ls)) ->
  runs dec_bundle read_block own_block self nodeid connectors (start builtin ps) evs s ->
  open_for dec_bundle read_block own_block self nodeid connectors s.

Section c82.
Context (dec_bundle : list N -> option bundle)
  (read_block : list N -> option (list (string * option N) * list (N * string)))
  (own_block : list layer -> option (list N))
  (self : eid) (nodeid : string) (connectors : list kind).
Notation runs := (runs dec_bundle read_block own_block self nodeid connectors).
Notation fresh_addresses := (fresh_addresses dec_bundle read_block own_block self nodeid connectors).
Definition registers (i : nat) (e : event) : Prop := exists now name b port, e = EPacket i now (PRegister name b port).
(** Modules send text only (over websockets), beacons that can be read and name a
    node, and ask for a name once. *)
Definition polite (evs : list event) : Prop :=
  (forall i, EJunk i ∉ evs) /\
  (forall i now e addr blk, EPacket i now (PBeacon e addr blk) ∈ evs -> is_Some (read_block blk) /\ is_Some (eid_node e)) /\
  (forall i evs1 e1 evs2 e2 evs3, evs = evs1 ++ e1 :: evs2 ++ e2 :: evs3 -> registers i e1 -> registers i e2 -> False).
(** Missing: the packets that [polite] leaves out, and reused addresses. *)
Theorem C82_open_partial : forall builtin ps evs s, WS ∈ connectors -> configured builtin -> (forall ls, is_Some (own_block ls)) ->
  runs (start builtin ps) evs s -> polite evs -> fresh_addresses (start builtin ps) evs ->
  no_panic s /\ open_for dec_bundle read_block own_block self nodeid connectors s.
Proof.
  intros builtin ps evs s HW Hb Hown Hr (Hj & Hrd & Hreg) Hf.
  destruct (alive dec_bundle read_block own_block self nodeid connectors Hown builtin ps evs s Hb Hr) as [Hbad _]; [|done|].
  - split_and!; [done| |].
    + intros i now p Hi. destruct p; try done. by eapply Hrd.
    + intros evs1 i now p evs2 -> Hp (now' & p' & Hin & Hp'). apply elem_of_list_split in Hin as (l1 & l2 & ->).
      eapply (Hreg i l1 _ l2 _ evs2); [by rewrite <- app_assoc| |]; [destruct p'; try done|destruct p; try done]; by eexists _, _, _, _.
  - split; [done|]. intros now name b port H1 H2 H3.
    destruct (can_register dec_bundle read_block own_block self nodeid connectors Hown s now name b port Hbad HW H1 H2 H3) as (s' & E & Ht & Hl & (q & Hq) & Hlay).
    eexists s', _, _, q. split; [exact E|]. split_and!; [exact Ht| |exact Hq|done]. by eapply elem_of_list_lookup_2.
Qed.
End c82.
Print Assumptions C82_open_partial.

(** One binary message of a client that has not even registered. *)
Definition junk : list event := [EOpen WS "" 0; EInit 0; EJunk 0].
Lemma ob_total : forall ls, is_Some (ob ls).
Proof. intros ls. unfold ob, own_services. cbn. eauto. Qed.
Theorem C82_open_refuted : ~ C82_full.
Proof.
  intros H. destruct (exec' junk (start tcp0 ∅)) as [s|] eqn:E; [|by vm_compute in E].
  specialize (H no_bundle rb ob me "dtn://node1/" [WS; TCP] tcp0 ∅ junk s ltac:(by left) ltac:(by repeat constructor) ob_total (exec_runs _ _ _ _ _ _ _ _ _ E)).
  destruct (H 5 "lora" true None) as (s' & i & a & q & E' & _); [done|vm_compute; lia| |].
  - assert (HL : e_layers <$> exec' junk (start tcp0 ∅) = Some tcp0) by by vm_compute. rewrite E in HL. injection HL as ->. apply (bool_decide_unpack _). by vm_compute.
  - vm_compute in E. injection E as <-. destruct i as [|[|i]]; by vm_compute in E'.
Qed.
Print Assumptions C82_open_refuted.
(** So do a beacon that cannot be read, a beacon of dtn:none, and a second
    request for a name after the first was refused; [shut]: everything that
    follows panics. *)
Definition shut (evs : list event) : bool :=
  match exec' evs (start tcp0 ∅) with
  | Some s => match exec' [EOpen WS "" 0; EInit (length (e_tasks s)); EPacket (length (e_tasks s)) 5 (PRegister "new" true None)] s with
              | Some s => negb (has_layer "new" s) | None => true end
  | None => false
  end.
Example shut_beacon : shut (take 7 bad_beacon) = true. Proof. by vm_compute. Qed.
Example shut_none : shut [EOpen WS "" 0; EInit 0; EPacket 0 5 (PRegister "lora" true None); EPacket 0 6 (PBeacon DtnNone "x" (default [] (ob [])))] = true.
Proof. by vm_compute. Qed.
Example shut_refused : shut [EOpen TCP "10.0.0.2" 5000; EInit 0; EPacket 0 5 (PRegister "tcp" true None); EPacket 0 6 (PRegister "tcp" true None)] = true.
Proof. by vm_compute. Qed.
Example not_shut : shut two_modules = false. Proof. by vm_compute. Qed.
(** The hypotheses of the partial theorem are met by [two_modules]. *)
Definition asking (e : event) : option nat := match e with EPacket i _ (PRegister _ _ _) => Some i | _ => None end.
Example two_modules_polite : polite rb two_modules.
Proof.
  assert (Hall : Forall (fun e => match e with EJunk _ => False | EPacket i now (PBeacon e addr blk) => is_Some (rb blk) /\ is_Some (eid_node e) | _ => True end) two_modules).
  { repeat constructor; vm_compute; eauto. }
  rewrite Forall_forall in Hall. split_and!.
  - intros i H. exact (Hall _ H).
  - intros i now e addr blk H. exact (Hall _ H).
  - intros i evs1 e1 evs2 e2 evs3 H (? & ? & ? & ? & ->) (? & ? & ? & ? & ->).
    assert (Hnd : NoDup (omap asking two_modules)) by (apply (bool_decide_unpack _); by vm_compute).
    rewrite H, !omap_app in Hnd. cbn in Hnd. apply NoDup_app in Hnd as (_ & _ & Hnd). apply NoDup_cons in Hnd as [Hnd _]. apply Hnd.
    rewrite omap_app. apply elem_of_app. right. cbn. by left.
Qed.

(** ** C83 *)
Section c83.
Context (dec_bundle : list N -> option bundle)
  (read_block : list N -> option (list (string * option N) * list (N * string)))
  (own_block : list layer -> option (list N))
  (self : eid) (nodeid : string) (connectors : list kind).
Notation runs := (runs dec_bundle read_block own_block self nodeid connectors).
Notation step := (step dec_bundle read_block own_block self nodeid connectors).
Notation fresh_addresses := (fresh_addresses dec_bundle read_block own_block self nodeid connectors).
(** The packet for the bundle [b] with these bytes to the peer [dest] *)
Definition forward_packet (dest : string) (b : bundle) (data : list N) : packet := PForward "" dest (bid b) data.
(** Missing: a reported success does not mean that the packet was put into the
    channel (see the refutation), histories with a panic, reused addresses. *)
Theorem C83_transfer_partial : forall builtin ps evs s name dest data s', configured builtin -> runs (start builtin ps) evs s ->
  no_panic s -> fresh_addresses (start builtin ps) evs -> name <> "" -> step (ESubmit name dest data) s = Some s' ->
  exists sent ok, e_log s' = e_log s ++ sent ++ [OReport name dest data (Some ok)] /\
    (* whatever is sent is this bundle, to this destination, and to the module of that name *)
    (forall o, o ∈ sent -> exists b i t, dec_bundle data = Some b /\ e_tasks s !! i = Some t /\ registered s i name /\
       (o = OQueued (t_kind t) (t_addr t) (forward_packet dest b data) \/ o = ODropped (t_kind t) (t_addr t) (forward_packet dest b data))) /\
    (* success: there is such a module *)
    (ok = true -> is_Some (dec_bundle data) /\ exists i, registered s i name) /\
    (* a connected module of that name gets the packet if its channel has room *)
    (forall i k a b c, e_tasks s !! i = Some (Task k a Up false) -> registered s i name -> k ∈ connectors -> dec_bundle data = Some b ->
       ok = true /\ (e_conns s !! (k, a) = Some c -> (length (cn_queue c) < 100)%nat -> OQueued k a (forward_packet dest b data) ∈ sent)).
Proof.
  intros builtin ps evs s name dest data s' Hb Hr Hp Hf Hne Hs.
  pose proof (einv_runs _ _ _ _ _ _ _ _ _ _ Hb Hr Hp Hf) as Hi.
  destruct (submission_log _ _ _ _ _ _ _ _ _ _ _ Hp Hs) as (sent & ok & H1 & H2 & H3 & H4).
  assert (Hmod : forall a m, e_modules s !! a = Some m -> md_name m = name -> exists i t, e_tasks s !! i = Some t /\ t_kind t = md_kind m /\ t_addr t = a /\ registered s i name).
  { intros a m Hm Hn. destruct (v_own _ _ Hi a m Hm) as (i & t & Ht & Ha & Hph). destruct (v_mod _ _ Hi i t Ht Hph) as (act & n & Hx & Hacc & Hz).
    rewrite Ha, Hm in Hx. injection Hx as ->. cbn in Hn. subst n. exists i, t. split_and!; try done. apply Hacc. split; [|done].
    destruct act; [done|]. by rewrite Hz in Hne. }
  exists sent, ok. split; [done|]. split_and!.
  - intros o Ho. destruct (H3 o Ho) as (a & m & b & Hm & [Hn _] & Hd & Hx). destruct (Hmod a m Hm Hn) as (i & t & Ht & Hk & Ha & Hreg).
    exists b, i, t. rewrite Hk, Ha. done.
  - intros Hok. apply H2 in Hok as [Hd (a & m & Hm & [Hn _])]. split; [done|]. destruct (Hmod a m Hm Hn) as (i & t & _ & _ & _ & Hreg). by exists i.
  - intros i k a b c Ht Hreg Hk Hd. destruct (v_mod _ _ Hi i _ Ht eq_refl) as (act & n & Hx & Hacc & _). cbn in Hx.
    apply Hacc in Hreg as [-> ->]. split.
    + apply H2. split; [by rewrite Hd|]. by exists a, (Module true n k).
    + intros Hc Hl. by eapply (H4 a (Module true n k) b c).
Qed.
End c83.
Print Assumptions C83_transfer_partial.

(** The full claim: success means that the packet is on its way to a module that
    registered the name and has a connection. *)
Definition C83_full : Prop := forall dec_bundle read_block own_block self nodeid connectors builtin ps evs s name dest data s' new,
  configured builtin -> runs dec_bundle read_block own_block self nodeid connectors (start builtin ps) evs s -> name <> "" ->
  step dec_bundle read_block own_block self nodeid connectors (ESubmit name dest data) s = Some s' -> e_log s' = e_log s ++ new ->
  OReport name dest data (Some true) ∈ new ->
  exists b i k a, dec_bundle data = Some b /\ e_tasks s !! i = Some (Task k a Up false) /\ registered s i name /\
    OQueued k a (forward_packet dest b data) ∈ new.
Definition some_bundle (d : list N) : option bundle :=
  if bool_decide (d = [1]) then Some (Bundle (BFlags false false false false false false false) (Dtn "c" "in") (Dtn "a" "") DtnNone 5 0 3600000 0 0 []) else None.
Notation exec1 := (exec some_bundle rb ob me "dtn://node1/" [WS; TCP]).
(** A module that does not read: after a hundred packets the next one is dropped,
    and reported as sent. *)
Definition slow_module : list event :=
  [EOpen WS "" 0; EInit 0; EPacket 0 5 (PRegister "lora" true None)] ++ repeat ETick 98.
Definition last_two {A} (l : list A) : list A := drop (length l - 2) l.
Definition slow_log : list obs := match exec1 slow_module (start tcp0 ∅) with Some s => e_log s | None => [] end.
Lemma slow_logs : (fun s => e_log s) <$> exec1 slow_module (start tcp0 ∅) = Some slow_log /\
  (fun s => e_log s) <$> exec1 (slow_module ++ [ESubmit "lora" "x" [1]]) (start tcp0 ∅) =
    Some (slow_log ++ [ODropped WS "0" (PForward "" "x" "dtn://a/-5-0" [1]); OReport "lora" "x" [1] (Some true)]).
Proof. split; by vm_compute. Qed.
Theorem C83_transfer_refuted : ~ C83_full.
Proof.
  intros H. destruct slow_logs as [L1 L2]. apply fmap_Some in L1 as (s & E & L1). apply fmap_Some in L2 as (s' & Es & L2).
  rewrite exec_snoc, E in Es. rewrite L1 in L2.
  destruct (H some_bundle rb ob me "dtn://node1/" [WS; TCP] tcp0 ∅ slow_module s "lora" "x" [1] s' _ ltac:(by repeat constructor)
    (exec_runs _ _ _ _ _ _ _ _ _ E) ltac:(done) Es (eq_sym L2)) as (b & i & k & a & _ & _ & _ & Hq).
  - apply elem_of_cons. right. by left.
  - apply elem_of_cons in Hq as [Hq|Hq]; [done|]. apply elem_of_list_singleton in Hq. done.
Qed.
Print Assumptions C83_transfer_refuted.
(** A transfer that arrives *)
Example transfer_arrives : (fun s => last_two (e_log s)) <$> exec1 (take 3 slow_module ++ [ESubmit "lora" "x" [1]]) (start tcp0 ∅) =
  Some [OQueued WS "0" (PForward "" "x" "dtn://a/-5-0" [1]); OReport "lora" "x" [1] (Some true)].
Proof. by vm_compute. Qed.
