(** C169: the addresses in the metadata of the sneakers store (model:
    SneakersEid.v, Routing.v for what the routing agent makes of them). *)
From stdpp Require Import prelude strings pretty gmap.
From Coq Require Import NArith ZArith Lia ZifyBool ZifyN ZifyNat.
From Verif Require Import Core Config ConfigProofs Peers Routing SneakersEid.
Open Scope N_scope.

(** The data base has the node and the service of an address in two columns. *)
Definition columns (col : eid -> option string * option string) : Prop :=
  (forall n s, default "" (fst (col (Dtn n s))) = n /\ default "" (snd (col (Dtn n s))) = s) /\
  (forall n s, col (Ipn n s) = (Some (pretty n), Some (pretty s))).
Definition begins (p s : string) : Prop := exists x, s = p +:+ x.

(** The claim: an address that has a text that can be read comes back. *)
Definition C169_full : Prop := forall pe col e, columns col -> pe (eid_string e) = Some e -> address pe (col e) = e.

(** Whatever reads the texts, one of two addresses does not come back: their texts
    are the same. *)
Theorem C169_some_address_refuted : forall pe col, columns col ->
  pe "dtn://a.b/c" = Some (Dtn "a.b" "c") -> pe "dtn://a/b.c" = Some (Dtn "a" "b.c") ->
  exists e, pe (eid_string e) = Some e /\ address pe (col e) <> e.
Proof.
  intros pe col [Hc _] H1 H2.
  assert (E : forall n s, n = "a.b" /\ s = "c" \/ n = "a" /\ s = "b.c" -> address pe (col (Dtn n s)) = default DtnNone (pe "dtn:a.b.c")).
  { intros n s Hns. destruct (Hc n s) as [En Es]. unfold address, eid_from_strings. rewrite En, Es.
    destruct Hns as [[-> ->]|[-> ->]].
    - replace (bool_decide (is_Some (parse_uint (2 ^ 64) "a.b"))) with false by (by vm_compute). done.
    - replace (bool_decide (is_Some (parse_uint (2 ^ 64) "a"))) with false by (by vm_compute). done. }
  destruct (decide (default DtnNone (pe "dtn:a.b.c") = Dtn "a.b" "c")) as [Ed|Ed].
  - exists (Dtn "a" "b.c"). split; [exact H2|]. rewrite E by (by right). by rewrite Ed.
  - exists (Dtn "a.b" "c"). split; [exact H1|]. by rewrite E by (by left).
Qed.
Print Assumptions C169_some_address_refuted.

(** where texts of dtn addresses begin with dtn:// and texts of ipn addresses with ipn: *)
Definition uri_reader (pe : string -> option eid) : Prop :=
  (forall t n s, pe t = Some (Dtn n s) -> begins "dtn://" t) /\ (forall t n s, pe t = Some (Ipn n s) -> begins "ipn:" t).
(** No dtn address comes back as one, unless the node's name begins with "//". *)
Theorem C169_no_dtn_address_refuted : forall pe col n s, columns col -> uri_reader pe -> ~ begins "//" n ->
  forall n' s', address pe (col (Dtn n s)) <> Dtn n' s'.
Proof.
  intros pe col n s [Hc _] [Hd _] Hn n' s'. destruct (Hc n s) as [En Es]. unfold address, eid_from_strings. rewrite En, Es.
  destruct (_ && _).
  - destruct (pe _) as [e|] eqn:E; [|done]. cbn. intros ->. apply Hd in E as [x E]. done.
  - destruct (pe _) as [e|] eqn:E; [|done]. cbn. intros ->. apply Hd in E as [x E]. cbn in E. apply Hn.
    injection E as E. destruct n as [|a [|b n]]; cbn in E.
    + done.
    + injection E as -> E. done.
    + injection E as -> -> E. by exists n.
Qed.
Print Assumptions C169_no_dtn_address_refuted.
(** Then a bundle for a dtn node is tried again as one for nobody, and the agent
    for epidemic routing stops at the first neighbour that has not had it. *)
Theorem C169_retry_refuted : forall pe col n s, columns col -> uri_reader pe -> ~ begins "//" n ->
  parse_uint (2^64) n = None ->
  address pe (col (Dtn n s)) = DtnNone /\
  forall clas p h ps q, p_dst p = address pe (col (Dtn n s)) -> q ∈ ps -> (forall had, h !! p_id p = Some had -> node_name q ∉ had) ->
    is_Some (first_cla clas q) -> e_step h (RSender p ps clas) = None.
Proof.
  intros pe col n s Hc Hu Hn Hnum.
  assert (E : address pe (col (Dtn n s)) = DtnNone).
  { pose proof (C169_no_dtn_address_refuted pe col n s Hc Hu Hn) as Hx. destruct (address pe (col (Dtn n s))) as [|n' s'|n' s'] eqn:E; [done|by destruct (Hx n' s')|].
    exfalso. destruct Hc as [Hc _]. destruct (Hc n s) as [En Es]. unfold address, eid_from_strings in E. rewrite En, Es in E. rewrite Hnum in E. cbn in E.
    destruct (pe _) as [e|] eqn:Ee; [|done]. cbn in E. subst e. destruct Hu as [_ Hi]. apply Hi in Ee as [x Ex]. done. }
  split; [done|]. rewrite E. clear. intros clas p h ps q Hp Hq Hh Hcla. unfold e_step.
  assert (Hs : forall l acc, q ∈ l -> e_query clas p h l acc = None).
  { induction l as [|q' l IH]; intros acc; [by intros ?%elem_of_nil|]. intros Hin. cbn.
    apply elem_of_cons in Hin as [<-|Hin].
    - assert (e_contains h (p_id p) (node_name q) = false) as ->.
      { unfold e_contains. destruct (h !! p_id p) as [had|]; [|done]. apply bool_decide_eq_false_2. by apply Hh. }
      destruct Hcla as [c ->]. by rewrite Hp.
    - destruct (e_contains h (p_id p) (node_name q')); [by apply IH|]. destruct (first_cla clas q'); [by rewrite Hp|]. by apply IH. }
  by rewrite Hs.
Qed.
Print Assumptions C169_retry_refuted.
(** Addresses of the ipn scheme do come back. *)
Theorem C169_ipn_partial : forall pe col n s, columns col -> n < 2^64 -> s < 2^64 ->
  pe (eid_string (Ipn n s)) = Some (Ipn n s) -> address pe (col (Ipn n s)) = Ipn n s.
Proof.
  intros pe col n s [_ Hc] Hn Hs Hp. unfold address, eid_from_strings. rewrite Hc. cbn [fst snd default].
  unfold id. rewrite !parse_uint_pretty by done. rewrite !bool_decide_eq_true_2 by (by eexists). cbn [andb].
  change (default DtnNone (pe (eid_string (Ipn n s))) = Ipn n s). by rewrite Hp.
Qed.
Print Assumptions C169_ipn_partial.

(** a reader, columns, and a bundle for a node *)
Definition col0 (e : eid) : option string * option string :=
  match e with DtnNone => (None, None) | Dtn n s => (Some n, Some s) | Ipn n s => (Some (pretty n), Some (pretty s)) end.
Definition pe0 (t : string) : option eid :=
  if bool_decide (t = "dtn://n1/in") then Some (Dtn "n1" "in") else if bool_decide (t = "ipn:7.1") then Some (Ipn 7 1) else None.
Lemma col0_ok : columns col0.
Proof. by split. Qed.
Lemma pe0_ok : uri_reader pe0.
Proof.
  unfold pe0. split; intros t n s H; repeat case_bool_decide; subst; try done; eexists; reflexivity.
Qed.
Example C169_case : address pe0 (col0 (Dtn "n1" "in")) = DtnNone /\ address pe0 (col0 (Ipn 7 1)) = Ipn 7 1.
Proof.
  split.
  - apply (C169_retry_refuted pe0 col0 "n1" "in" col0_ok pe0_ok); [|by vm_compute]. intros [x Hx]. done.
  - by apply C169_ipn_partial; [apply col0_ok|..].
Qed.
Theorem C169_refuted : ~ C169_full.
Proof. intros H. specialize (H pe0 col0 (Dtn "n1" "in") col0_ok eq_refl). rewrite (proj1 C169_case) in H. done. Qed.
Print Assumptions C169_refuted.
