(** C85, C86: transfers reach the peer's address; UDP (model: Transfers.v). *)
From Verif Require Import Bytes Core Peers PeersProofs Transfers IdProofs TransfersProofs.
From stdpp Require Import prelude strings pretty.
From Coq Require Import Ascii NArith Lia ZifyBool ZifyN ZifyNat.
Open Scope N_scope.

(** ** C85 *)
(** IP addresses: an IPv4 address by its four numbers; an IPv6 address by its
    text, which always has two colons or more and no brackets *)
Inductive ip := I4 (a b c d : N) | I6 (text : string).
Definition good_ip (i : ip) : Prop :=
  match i with
  | I4 a b c d => a < 256 /\ b < 256 /\ c < 256 /\ d < 256
  | I6 t => (2 <= colons t)%nat /\ match t with String c _ => c <> "["%char | "" => False end
  end.
Definition ip_text (i : ip) : string :=
  match i with
  | I4 a b c d => pretty a +:+ "." +:+ pretty b +:+ "." +:+ pretty c +:+ "." +:+ pretty d
  | I6 t => t
  end.
Definition socket (i : ip) (port : N) : sockaddr :=
  match i with I4 a b c d => SV4 a b c d port | I6 t => SV6 t port end.
(** the port of peer [q] for a layer of this node it is reached with *)
Definition port_for (clas : list cla) (q : peer) (port : N) : Prop :=
  exists want c, want ∈ pe_clas q /\ c ∈ clas /\ cl_name c = fst want /\ cl_accepting c = true /\
    port = default (cl_port c) (snd want).
Definition ports_ok (clas : list cla) (q : peer) : Prop :=
  (forall c, c ∈ clas -> cl_port c < 65536) /\ (forall n port, (n, Some port) ∈ pe_clas q -> port < 65536).
Definition over_ip (k : kind) : Prop := k = Mtcp \/ k = Udp \/ k = Http \/ k = Tcp.
(** A transfer to a discovered peer with address [i], after any earlier
    transfers, is tried at that address and the peer's port *)
Definition C85_full (parse_v6 : string -> option (string * N)) : Prop :=
  forall k hist clas q i s data, over_ip k -> good_ip i -> pe_addr q = AIp (ip_text i) -> ports_ok clas q ->
    first_cla clas q = Some s -> data <> [] ->
    exists port, port_for clas q port /\
      snd (on_transfer parse_v6 k (transfers parse_v6 k true hist) (sd_dest s) data) = Tried (socket i port) data.
Lemma first_cla_dest clas q s : ports_ok clas q -> first_cla clas q = Some s ->
  exists port, port_for clas q port /\ port < 65536 /\ sd_dest s = addr_string (pe_addr q) +:+ ":" +:+ pretty port.
Proof.
  intros [Hc Hw]. unfold first_cla. intros H. apply first_some_Some in H as (i & w & Hi & H & _). apply first_some_Some in H as (j & c & Hj & H & _).
  unfold try_cla in H. case_bool_decide as E; [|done]. cbn in H. destruct (cl_accepting c) eqn:Ea; [|done]. injection H as <-.
  exists (default (cl_port c) (snd w)). split.
  - exists w, c. split; [by eapply elem_of_list_lookup_2|]. split; [by eapply elem_of_list_lookup_2|]. by rewrite E.
  - split; [|done]. destruct w as [n [port|]]; cbn [snd default].
    + apply (Hw n). by eapply elem_of_list_lookup_2.
    + apply Hc. by eapply elem_of_list_lookup_2.
Qed.
(** an earlier transfer to an IPv4 peer *)
Definition to_ipv4 (x : string * bytes) : Prop :=
  exists a b c d port, good_ip (I4 a b c d) /\ port < 65536 /\ fst x = ip_text (I4 a b c d) +:+ ":" +:+ pretty port.
(** Holds for IPv4 peers: over HTTP and TCPCL always, over MTCP and UDP as
    long as all earlier transfers of the layer were to such peers. *)
Theorem C85_ipv4_partial parse_v6 k hist clas q a b c d s data :
  over_ip k -> good_ip (I4 a b c d) -> pe_addr q = AIp (ip_text (I4 a b c d)) -> ports_ok clas q ->
  first_cla clas q = Some s -> data <> [] ->
  k = Http \/ k = Tcp \/ Forall to_ipv4 hist ->
  exists port, port_for clas q port /\
    on_transfer parse_v6 k (transfers parse_v6 k true hist) (sd_dest s) data = (true, Tried (SV4 a b c d port) data).
Proof.
  intros Hk Hi Ha Hp Hs Hd Hh. destruct (first_cla_dest _ _ _ Hp Hs) as (port & Hport & Hlt & ->). exists port. split; [done|].
  rewrite transfers_alive.
  - destruct Hi as (? & ? & ? & ?). rewrite Ha. cbn [addr_string ip_text]. unfold on_transfer, parse_sock. rewrite parse_v4_text by done.
    cbn [negb]. destruct Hk as [->|[->|[->| ->]]]; by destruct data.
  - destruct Hh as [?|[?|Hh]]; [auto..|]. right. right. eapply Forall_impl; [exact Hh|]. intros x (a' & b' & c' & d' & p' & Hg & Hp' & Hx).
    destruct Hg as (? & ? & ? & ?). rewrite Hx. cbn [ip_text]. unfold parse_sock. by rewrite parse_v4_text by done.
Qed.
Lemma v6_no_sock parse_v6 t (port : N) : good_ip (I6 t) -> parse_sock parse_v6 (t +:+ ":" +:+ pretty port) = None.
Proof.
  intros [Hc Hf]. apply no_sock; [done|]. destruct t as [|x t]; [done|]. rewrite app_cons_s. cbn [given].
  destruct (N_of_ascii x =? 91) eqn:E; [|done]. apply N.eqb_eq in E. exfalso. apply Hf. rewrite <- (ascii_N_embedding x), E. done.
Qed.
(** For every peer with an IPv6 address and each of these layers the transfer is not
    tried; over MTCP and UDP one such attempt ends the layer: no later
    transfer, to whomever, is tried either. *)
Theorem C85_ipv6_refuted parse_v6 k hist clas q t s data :
  over_ip k -> good_ip (I6 t) -> pe_addr q = AIp t -> ports_ok clas q -> first_cla clas q = Some s -> data <> [] ->
  snd (on_transfer parse_v6 k (transfers parse_v6 k true hist) (sd_dest s) data) = NoAnswer /\
  (k = Mtcp \/ k = Udp ->
   forall more dest later, snd (on_transfer parse_v6 k (transfers parse_v6 k true (hist ++ (sd_dest s, data) :: more)) dest later) = NoAnswer).
Proof.
  intros Hk Hi Ha Hp Hs Hd. destruct (first_cla_dest _ _ _ Hp Hs) as (port & Hport & Hlt & ->). rewrite Ha. cbn [addr_string].
  pose proof (v6_no_sock parse_v6 t port Hi) as Hn. split.
  - unfold on_transfer. destruct (negb _); [done|]. rewrite Hn. destruct Hk as [->|[->|[->| ->]]]; by destruct data.
  - intros Hmu more dest later. rewrite transfers_app. cbn [transfers].
    assert (fst (on_transfer parse_v6 k (transfers parse_v6 k true hist) (t +:+ ":" +:+ pretty port) data) = false) as ->.
    { unfold on_transfer. destruct (negb _); [done|]. rewrite Hn. destruct Hmu as [->| ->]; by destruct data. }
    rewrite transfers_dead. done.
Qed.
Definition v6_peer : peer := peer_new 0 (Dtn "two" "") (AIp "fe80::1") false None [("mtcp", Some 16162)] [].
Definition v4_peer : peer := peer_new 0 (Dtn "one" "") (AIp "192.168.0.7") false None [("mtcp", None)] [].
Definition mtcp_layer : cla := Cla 0 "mtcp" true 16163.
Theorem C85_full_refuted parse_v6 : ~ C85_full parse_v6.
Proof.
  intros H. assert (good_ip (I6 "fe80::1")) as Hg by (split; [vm_compute; lia|done]).
  assert (ports_ok [mtcp_layer] v6_peer) as Hp.
  { split; [intros c Hc; apply elem_of_list_singleton in Hc as ->; reflexivity|].
    intros n port Hn. apply elem_of_list_singleton in Hn. injection Hn as -> ->. reflexivity. }
  destruct (H Mtcp [] [mtcp_layer] v6_peer (I6 "fe80::1") (Sender 0 "fe80::1:16162" "mtcp" (Dtn "two" "")) [1] (or_introl eq_refl) Hg eq_refl Hp eq_refl ltac:(done)) as (port & _ & Hx).
  destruct (C85_ipv6_refuted parse_v6 Mtcp [] [mtcp_layer] v6_peer "fe80::1" (Sender 0 "fe80::1:16162" "mtcp" (Dtn "two" "")) [1] (or_introl eq_refl) Hg eq_refl Hp eq_refl ltac:(done)) as [Hn _].
  rewrite Hn in Hx. discriminate Hx.
Qed.
(** No layer but the dummy one reports success for a bundle it has not tried to send;
    httppull refuses every transfer, UDP one to an IPv6 address. *)
Theorem C85_no_false_success parse_v6 k alive dest data : k <> Dummy -> data <> [] ->
  snd (on_transfer parse_v6 k alive dest data) <> Nothing /\
  (forall a sent, snd (on_transfer parse_v6 k alive dest data) = Tried a sent -> k <> Pull /\ alive = true /\ sent = data /\ parse_sock parse_v6 dest = Some a /\
     (k = Udp -> exists a1 a2 a3 a4 port, a = SV4 a1 a2 a3 a4 port)).
Proof.
  intros Hk Hd. unfold on_transfer. destruct alive; cbn [negb]; [|split; [done|intros ? ?; discriminate]]. destruct data as [|x data]; [done|].
  destruct k; try done; destruct (parse_sock parse_v6 dest) as [[a1 a2 a3 a4 port|t port]|] eqn:E; cbn; (split; [done|]); intros a sent; try discriminate;
    injection 1 as <- <-; split_and!; try done; by eauto 10.
Qed.
Print Assumptions C85_no_false_success.
(** A case: an IPv4 peer after a transfer to another; and lost after one to an
    IPv6 peer. *)
Example C85_case parse_v6 :
  first_cla [mtcp_layer] v4_peer = Some (Sender 0 "192.168.0.7:16163" "mtcp" (Dtn "one" "")) /\
  on_transfer parse_v6 Mtcp (transfers parse_v6 Mtcp true [("10.0.0.255:80", [7])]) "192.168.0.7:16163" [1; 2] = (true, Tried (SV4 192 168 0 7 16163) [1; 2]) /\
  on_transfer parse_v6 Mtcp (transfers parse_v6 Mtcp true [("fe80::1:80", [7])]) "192.168.0.7:16163" [1; 2] = (false, NoAnswer) /\
  parse_v4 "192.168.0.256:1" = None /\ parse_v4 "192.168.0.07:1" = None /\ parse_v4 "192.168.0.7:65536" = None /\ parse_v4 "192.168.0.7:0080" = Some (SV4 192 168 0 7 80).
Proof. split_and!; reflexivity. Qed.
Print Assumptions C85_ipv4_partial.
Print Assumptions C85_ipv6_refuted.
Print Assumptions C85_full_refuted.

(** ** C86 *)
(** A transfer over UDP is reported as successful exactly if one datagram with
    the whole bundle was sent; otherwise nothing was sent. *)
Theorem C86_sent_whole bound connected sent data :
  match udp_send bound connected sent data with
  | (out, true) => out = [data] /\ blen data <= 65535
  | (out, false) => out = []
  end.
Proof. unfold udp_send. repeat case_match; simplify_eq; try done. split; [done|lia]. Qed.
(** Whatever datagrams arrive, a node takes in exactly those that are bundles,
    each once and in order, and counts the others as broken. *)
Theorem C86_received (dec_bundle : bytes -> option bundle) (datagrams : list bytes) :
  Forall (fun x => blen x <= 65535) datagrams ->
  let end_state := foldl (udp_receive dec_bundle) ([], 0) datagrams in
  fst end_state = omap dec_bundle datagrams /\
  snd end_state = N.of_nat (length (filter (fun x => dec_bundle x = None) datagrams)).
Proof.
  intros H. cbv zeta.
  assert (G : forall st, Forall (fun x => blen x <= 65535) datagrams ->
    fst (foldl (udp_receive dec_bundle) st datagrams) = fst st ++ omap dec_bundle datagrams /\
    snd (foldl (udp_receive dec_bundle) st datagrams) = snd st + N.of_nat (length (filter (fun x => dec_bundle x = None) datagrams))).
  { clear H. induction datagrams as [|x l IH]; intros st H; [cbn; rewrite app_nil_r; split; [done|lia]|].
    apply Forall_cons in H as [Hx H]. cbn [foldl]. destruct (IH (udp_receive dec_bundle st x) H) as [-> ->].
    unfold udp_receive. rewrite take_ge by (unfold blen in Hx; lia). rewrite filter_cons.
    destruct (dec_bundle x) eqn:E; cbn [fst snd omap list_omap].
    - rewrite E. rewrite decide_False by done. rewrite <- (assoc_L (++)). done.
    - rewrite E. rewrite decide_True by done. cbn [length]. split; [done|lia]. }
  destruct (G ([], 0) H) as [-> ->]. cbn [fst snd]. split; [done|lia].
Qed.
(** A bundle reported as sent, whose datagram arrives, is taken in, whatever
    arrives before and after it. *)
Theorem C86_arrives (dec_bundle : bytes -> option bundle) b data bound connected sent out before after :
  udp_send bound connected sent data = (out, true) -> dec_bundle data = Some b ->
  Forall (fun x => blen x <= 65535) (before ++ after) ->
  b ∈ fst (foldl (udp_receive dec_bundle) ([], 0) (before ++ out ++ after)).
Proof.
  intros Hs Hb Hl. pose proof (C86_sent_whole bound connected sent data) as H. rewrite Hs in H. destruct H as [-> Hd].
  apply Forall_app in Hl as [H1 H2]. destruct (C86_received dec_bundle (before ++ [data] ++ after)) as [-> _].
  - rewrite !Forall_app. split; [done|]. split; [by constructor|done].
  - apply elem_of_list_omap. exists data. split; [|done]. rewrite !elem_of_app. right. left. by left.
Qed.
Definition one_bundle : bundle := Bundle (BFlags false false false false false false false) (Dtn "n" "in") (Dtn "m" "") (Dtn "m" "") 7 0 5000 0 0 [].
Definition reads (x : bytes) : option bundle := if bool_decide (x = [1; 2]) then Some one_bundle else None.
Example C86_case :
  udp_send true true true [1; 2] = ([[1; 2]], true) /\ foldl (udp_receive reads) ([], 0) [[9]; [1; 2]; []] = ([one_bundle], 2).
Proof.
  split; [reflexivity|]. destruct (C86_received reads [[9]; [1; 2]; []]) as [H1 H2].
  - repeat constructor; by vm_compute.
  - destruct (foldl _ _ _) as [x y]. cbn [fst snd] in *. subst. reflexivity.
Qed.
Print Assumptions C86_sent_whole.
Print Assumptions C86_received.
Print Assumptions C86_arrives.
