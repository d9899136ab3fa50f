(** C176: the routing programs in Python. *)
From stdpp Require Import prelude strings pretty gmap sorting.
From Coq Require Import NArith Lia.
From Verif Require Import Core Peers Routing External Erouter PyRouters.
Open Scope N_scope.
Notation log := (list (packet * option response)).

(** ** Specification *)
(** the daemon takes bundle [id] back: a transfer failed or the answer came too late *)
Definition takes_back (id : string) (k : packet) : Prop :=
  match k with PFailed i _ => i = id | PTimeout p => p_id p = id | _ => False end.
Global Instance takes_back_dec id k : Decision (takes_back id k).
Proof. destruct k; cbn; apply _. Defined.
(** the program named somebody for bundle [id], and it was not taken back since *)
Definition placed (l : log) (id : string) : Prop :=
  exists l1 k r l2, l = l1 ++ (k, Some r) :: l2 /\ p_id (rs_pack r) = id /\ rs_clas r <> [] /\ forall x, x ∈ l2 -> ~ takes_back id (fst x).
(** the neighbours as the daemon reported them when the program connected *)
Definition told (l : log) (m : peers) : Prop :=
  (exists l1 r l2, l = l1 ++ (PPeerState m, r) :: l2 /\ forall m' r', (PPeerState m', r') ∉ l2) \/
  (m = ∅ /\ forall m' r', (PPeerState m', r') ∉ l).
(** [q] is the first neighbour by name *)
Definition first_of (m : peers) (q : peer) : Prop :=
  exists n, m !! n = Some q /\ forall n' q', m !! n' = Some q' -> String.leb n n' = true.
(** the neighbours after the daemon's later messages *)
Definition meets (m : peers) (k : packet) : peers :=
  match k with
  | PPeerState m' => m'
  | PEncountered e q => match eid_node e with Some n => <[n := q]> m | None => m end
  | PDropped e => match eid_node e with Some n => delete n m | None => m end
  | _ => m
  end.
Definition neighbours (l : log) : peers := fold_left meets (map fst l) ∅.
(** [r] names exactly the peer [q], on all its layers *)
Definition names_peer (p : pack) (q : peer) (r : response) : Prop :=
  rs_pack r = p /\ rs_clas r = map (fun c => Instr (pe_addr q) (snd c) (fst c) (pe_eid q)) (pe_clas q).

(** ** Invariants *)
Lemma snoc_split {A} (l l1 l2 : list A) x y : l ++ [x] = l1 ++ y :: l2 ->
  (l2 = [] /\ l = l1 /\ x = y) \/ (exists l2', l2 = l2' ++ [x] /\ l = l1 ++ y :: l2').
Proof.
  intros E. destruct l2 as [|z l2 _] using rev_ind.
  - apply app_inj_tail in E as [-> ->]. by left.
  - rewrite app_comm_cons, app_assoc in E. apply app_inj_tail in E as [-> ->]. right. by exists l2.
Qed.
Lemma placed_snoc l k r id : placed (l ++ [(k, r)]) id <->
  (exists r', r = Some r' /\ p_id (rs_pack r') = id /\ rs_clas r' <> []) \/ (placed l id /\ ~ takes_back id k).
Proof.
  split.
  - intros (l1 & k1 & r1 & l2 & E & Hid & Hne & Hno). apply snoc_split in E as [(-> & -> & [= -> ->])|(l2' & -> & ->)].
    + left. by exists r1.
    + right. split.
      * exists l1, k1, r1, l2'. split; [done|]. split; [done|]. split; [done|]. intros x Hx. apply Hno, elem_of_app. by left.
      * apply (Hno (k, r)). apply elem_of_app. right. by apply elem_of_list_singleton.
  - intros [(r' & -> & Hid & Hne)|[(l1 & k1 & r1 & l2 & -> & Hid & Hne & Hno) Hk]].
    + exists l, k, r', []. split; [done|]. split; [done|]. split; [done|]. intros x Hx. by apply elem_of_nil in Hx.
    + exists l1, k1, r1, (l2 ++ [(k, r)]). rewrite <- app_assoc. split; [done|]. split; [done|]. split; [done|].
      intros x Hx. apply elem_of_app in Hx as [Hx|Hx]; [by apply Hno|]. apply elem_of_list_singleton in Hx as ->. done.
Qed.
Lemma peers_spec g l s : py_ran g l s -> told l (py_peers s).
Proof.
  induction 1 as [|l s k s' r Hr IH Hs].
  { right. split; [done|]. intros m r H. by apply elem_of_nil in H. }
  assert (Hk : (exists m, k = PPeerState m /\ py_peers s' = m) \/ ((forall m, k <> PPeerState m) /\ py_peers s' = py_peers s)).
  { destruct k as [m| | | |p0| | |clas p|]; cbn in Hs; try (injection Hs as <- <-; by right); [injection Hs as <- <-; left; by exists m|].
    right. split; [done|]. destruct g.
    - unfold py_first in Hs. case_bool_decide; [by injection Hs as <- <-|]. destruct (in_order _); [by injection Hs as <- <-|].
      destruct (py_clas _ _); [|by injection Hs as <- <-]. injection Hs as <- <-. by case_bool_decide.
    - unfold py_direct in Hs. case_bool_decide; [by injection Hs as <- <-|]. destruct (p_dst p); try (by injection Hs as <- <-).
      destruct (_ !! _); by injection Hs as <- <-. }
  destruct Hk as [(m & -> & <-)|[Hk ->]].
  - left. exists l, r, []. split; [done|]. intros m' r' H. by apply elem_of_nil in H.
  - destruct IH as [(l1 & r1 & l2 & -> & Hno)|[E Hno]].
    + left. exists l1, r1, (l2 ++ [(k, r)]). rewrite <- app_assoc. split; [done|]. intros m' r' H.
      apply elem_of_app in H as [H|H]; [by apply (Hno m' r')|]. apply elem_of_list_singleton in H as [= <- _]. by apply (Hk m').
    + right. split; [done|]. intros m' r' H. apply elem_of_app in H as [H|H]; [by apply (Hno m' r')|].
      apply elem_of_list_singleton in H as [= <- _]. by apply (Hk m').
Qed.
Lemma placed_spec l s : py_ran FirstContact l s -> forall id, id ∈ py_placed s <-> placed l id.
Proof.
  induction 1 as [|l s k s' r Hr IH Hs]; intros id.
  { split; [set_solver|]. intros (l1 & k & r & l2 & E & _). by destruct l1. }
  rewrite placed_snoc, <- IH. destruct k as [m|e q|e|i n|p0|b|i n|clas p|]; cbn in Hs; try (injection Hs as <- <-; cbn; set_solver).
  unfold py_first in Hs. cbn [takes_back]. case_bool_decide as Hp; [injection Hs as <- <-; set_solver|].
  destruct (in_order (py_peers s)) as [|q qs]; [injection Hs as <- <-; set_solver|].
  destruct (py_clas clas q) as [il|]; [|injection Hs as <- <-; set_solver]. injection Hs as <- <-.
  case_bool_decide as Hl; cbn.
  - split; [auto|]. intros [(r' & [= <-] & _ & Hne)|[H _]]; [by destruct Hne|done].
  - rewrite elem_of_union, elem_of_singleton. split.
    + intros [->|H]; [left; by exists (Response p il false)|right; split; [done|by intros []]].
    + intros [(r' & [= <-] & <- & _)|[H _]]; [by left|by right].
Qed.
Global Instance key_le_trans : Transitive key_le.
Proof.
  intros x y z. unfold key_le. intros H1 H2. revert H1 H2. generalize (fst x) (fst y) (fst z). clear.
  intros a b c. unfold String.leb.
  assert (Hc : forall a b c, String.compare a b <> Gt -> String.compare b c <> Gt -> String.compare a c <> Gt).
  { clear. induction a as [|x a IH]; intros [|y b] [|z c]; cbn; try done.
    unfold Ascii.compare. intros H1 H2.
    destruct (N.compare_spec (Ascii.N_of_ascii x) (Ascii.N_of_ascii y)) as [E1|E1|E1];
      destruct (N.compare_spec (Ascii.N_of_ascii y) (Ascii.N_of_ascii z)) as [E2|E2|E2]; try done;
      destruct (N.compare_spec (Ascii.N_of_ascii x) (Ascii.N_of_ascii z)) as [E3|E3|E3]; try done; try lia. by eapply IH. }
  intros H1 H2. specialize (Hc a b c). destruct (String.compare a b), (String.compare b c), (String.compare a c); try done; exfalso; by apply Hc.
Qed.
Global Instance key_le_total : Total key_le.
Proof.
  intros x y. unfold key_le. generalize (fst x) (fst y). clear. intros a b. destruct (String.leb_total a b); auto.
Qed.
Lemma first_spec m q qs : in_order m = q :: qs -> first_of m q.
Proof.
  unfold in_order. intros E. assert (Hp := merge_sort_Permutation key_le (map_to_list m)).
  assert (Hs := StronglySorted_merge_sort key_le (map_to_list m)).
  destruct (merge_sort key_le (map_to_list m)) as [|[n q0] rest]; [done|]. injection E as -> _.
  exists n. split.
  - apply elem_of_map_to_list. rewrite <- Hp. left.
  - intros n' q' H'. apply elem_of_map_to_list in H'. rewrite <- Hp in H'. apply elem_of_cons in H' as [[= -> ->]|H'].
    + by destruct (String.leb_total n n).
    + inversion Hs as [|? ? _ Hf]; subst. rewrite Forall_forall in Hf. exact (Hf _ H').
Qed.
Lemma none_spec m : in_order m = [] -> m = ∅.
Proof.
  unfold in_order. intros E. assert (Hp := merge_sort_Permutation key_le (map_to_list m)). apply map_eq_nil in E. rewrite E in Hp.
  apply Permutation_nil in Hp. by apply map_to_list_empty_iff.
Qed.
Lemma first_unique m q q' : first_of m q -> first_of m q' -> q = q'.
Proof.
  intros (n & H & Hmin) (n' & H' & Hmin'). assert (n = n') as ->; [|congruence].
  apply String.leb_antisym; [by eapply Hmin|by eapply Hmin'].
Qed.

Lemma ran_snoc g l k r s : py_ran g (l ++ [(k, r)]) s -> exists s0, py_ran g l s0 /\ py_step g s0 k = (s, r).
Proof.
  intros H. inversion H as [E|l0 s0 k0 s1 r0 Hr Hs E]; [by destruct l|]. apply app_inj_tail in E as [-> [= -> ->]]. eauto.
Qed.

(** ** The first contact program *)
(** A request is answered exactly if the bundle is not placed, there was a
    neighbour when the program connected, and the daemon has all layers of the first
    of them; the answer names this neighbour on all its layers. *)
Theorem C176_first_partial : forall l clas p r, (exists s, py_ran FirstContact (l ++ [(PRequest clas p, r)]) s) ->
  match r with
  | Some r => ~ placed l (p_id p) /\ rs_delete r = false /\
      exists m q, told l m /\ first_of m q /\ names_peer p q r /\ forall c, c ∈ pe_clas q -> fst c ∈ clas
  | None => placed l (p_id p) \/ exists m, told l m /\ (m = ∅ \/ exists q c, first_of m q /\ c ∈ pe_clas q /\ fst c ∉ clas)
  end.
Proof.
  intros l clas p r [s' H]. inversion H as [E|l0 s k s2 r0 Hr Hs E]; [by destruct l|]. apply app_inj_tail in E as [-> [= -> ->]]. subst.
  assert (Ht := peers_spec _ _ _ Hr). assert (Hp := placed_spec _ _ Hr (p_id p)). cbn in Hs. unfold py_first in Hs.
  case_bool_decide as Hd; [injection Hs as <- <-; left; by apply Hp|].
  destruct (in_order (py_peers s)) as [|q qs] eqn:Eo.
  { injection Hs as <- <-. right. exists (py_peers s). split; [done|]. left. by apply none_spec. }
  apply first_spec in Eo. unfold py_clas in Hs. destruct (forallb (has_layer clas) (pe_clas q)) eqn:Ef.
  - injection Hs as <- <-. split; [by rewrite <- Hp|]. split; [done|]. exists (py_peers s), q. split; [done|]. split; [done|]. split; [done|].
    intros c Hc. rewrite forallb_forall in Ef. apply elem_of_list_In in Hc. apply Ef in Hc. by apply bool_decide_eq_true in Hc.
  - injection Hs as <- <-. right. exists (py_peers s). split; [done|]. right. exists q.
    assert (Hex : exists c, c ∈ pe_clas q /\ has_layer clas c = false).
    { clear -Ef. induction (pe_clas q) as [|c cs IH]; [done|]. cbn in Ef. apply andb_false_iff in Ef as [Ef|Ef].
      - exists c. split; [left|done].
      - destruct (IH Ef) as (c' & ? & ?). exists c'. split; [by right|done]. }
    destruct Hex as (c & Hc & Hn). exists c. split; [done|]. split; [done|]. by apply bool_decide_eq_false in Hn.
Qed.
Print Assumptions C176_first_partial.
(** Nobody is named for a bundle that is placed. *)
Theorem C176_once : forall l1 k1 r1 l2 k2 r2 l3 s, py_ran FirstContact (l1 ++ (k1, Some r1) :: l2 ++ (k2, Some r2) :: l3) s ->
  rs_clas r1 <> [] -> p_id (rs_pack r1) = p_id (rs_pack r2) -> exists x, x ∈ l2 /\ takes_back (p_id (rs_pack r1)) (fst x).
Proof.
  intros l1 k1 r1 l2 k2 r2 l3 s H Hne Hid.
  assert (Hpre : forall l3 s, py_ran FirstContact ((l1 ++ (k1, Some r1) :: l2) ++ (k2, Some r2) :: l3) s -> exists s, py_ran FirstContact ((l1 ++ (k1, Some r1) :: l2) ++ [(k2, Some r2)]) s).
  { clear. induction l3 as [|x l3 IH] using rev_ind; intros s H; [by exists s|].
    rewrite app_comm_cons, app_assoc in H. destruct x as [k r]. apply ran_snoc in H as (s0 & Hr & _). by eapply IH. }
  destruct (Hpre l3 s) as [s2 H2]; [by rewrite <- app_assoc|].
  assert (Hk : exists clas, k2 = PRequest clas (rs_pack r2)).
  { apply ran_snoc in H2 as (s0 & _ & Hs).
    destruct k2 as [m|e q|e|i n|p0|b|i n|clas p|]; cbn in Hs; try done. exists clas. unfold py_first in Hs. case_bool_decide; [done|].
    destruct (in_order _); [done|]. destruct (py_clas _ _); [|done]. by injection Hs as _ <-. }
  destruct Hk as [clas ->]. destruct (C176_first_partial _ _ _ _ (ex_intro _ s2 H2)) as [Hn _].
  destruct (decide (Exists (fun x => takes_back (p_id (rs_pack r1)) (fst x)) l2)) as [He|He].
  - by apply Exists_exists in He.
  - exfalso. apply Hn. exists l1, k1, r1, l2. split; [done|]. split; [done|]. split; [done|]. intros x Hx Hb. apply He, Exists_exists. exists x. split; [done|]. by rewrite Hid.
Qed.
Print Assumptions C176_once.

(** ** In full: who can be reached is named *)
(** A request for a bundle that is not placed is answered with a neighbour, if there
    is one that shares a layer with the daemon. *)
Definition C176_first_full : Prop := forall l clas p r s, py_ran FirstContact (l ++ [(PRequest clas p, r)]) s ->
  ~ placed l (p_id p) -> (exists n q c, neighbours l !! n = Some q /\ c ∈ pe_clas q /\ fst c ∈ clas) ->
  exists r' n q, r = Some r' /\ neighbours l !! n = Some q /\ exists i, i ∈ rs_clas r' /\ in_hop i = pe_eid q.
Definition p176 : pack := Pack (Dtn "node1" "") (Dtn "n2" "in") 0 0 0 "b1" false no_constraints.
Definition n2 : peer := Peer (Dtn "n2" "") (AIp "10.0.0.2") false None [("mtcp", None)] [] 0 0.
Definition n3 : peer := Peer (Dtn "n3" "") (AIp "10.0.0.3") false None [("mtcp", None); ("lora", None)] [] 0 0.
Definition met : log := [(PPeerState ∅, None); (PEncountered (Dtn "n2" "") n2, None)].
Lemma py_cons g l k s s' r : py_ran g l s -> py_step g s k = (s', r) -> py_ran g (l ++ [(k, r)]) s'.
Proof. apply py_more. Qed.
Lemma met_run g : py_ran g met (Py ∅ ∅).
Proof.
  apply (py_cons g [(PPeerState ∅, None)] (PEncountered (Dtn "n2" "") n2) (Py ∅ ∅)); [|done].
  apply (py_cons g [] (PPeerState ∅) py_start); [apply py_nothing|done].
Qed.
(** False: a neighbour met after the program connected is never considered. *)
Theorem C176_first_refuted : ~ C176_first_full.
Proof.
  intros H. destruct (H met ["mtcp"] p176 None (Py ∅ ∅)) as (r' & _ & _ & E & _); [| | |done].
  - eapply py_cons; [apply met_run|]. by vm_compute.
  - intros (l1 & k & r & l2 & E & _). destruct l1 as [|? [|? l1]]; [done|done|]. by destruct l1.
  - exists "n2", n2, ("mtcp", None). split; [by vm_compute|]. split; left.
Qed.
Print Assumptions C176_first_refuted.
(** Nor is anything sent if the first neighbour has a layer the daemon lacks. *)
Lemma lacking : py_ran FirstContact [(PPeerState {["n3" := n3]}, None); (PRequest ["mtcp"] p176, None)] (Py {["n3" := n3]} ∅).
Proof.
  apply (py_cons _ [(PPeerState {["n3" := n3]}, None)] (PRequest ["mtcp"] p176) (Py {["n3" := n3]} ∅)); [|by vm_compute].
  apply (py_cons _ [] (PPeerState {["n3" := n3]}) py_start); [apply py_nothing|done].
Qed.
Theorem C176_lacking_refuted : ~ (forall l clas p r s m q c, py_ran FirstContact (l ++ [(PRequest clas p, r)]) s ->
  ~ placed l (p_id p) -> told l m -> first_of m q -> c ∈ pe_clas q -> fst c ∈ clas -> is_Some r).
Proof.
  intros H. destruct (H [(PPeerState {["n3" := n3]}, None)] ["mtcp"] p176 None _ {["n3" := n3]} n3 ("mtcp", None) lacking) as [r E]; [| | | | |done].
  - intros (l1 & k & r & l2 & E & _). destruct l1 as [|? l1]; [done|]. by destruct l1.
  - left. exists [], None, []. split; [done|]. intros m r Hin. by apply elem_of_nil in Hin.
  - exists "n3". split; [by vm_compute|]. intros n' q' Hq. apply lookup_singleton_Some in Hq as [<- _]. by vm_compute.
  - left.
  - left.
Qed.
Print Assumptions C176_lacking_refuted.

(** ** The direct program *)
(** In full: a bundle for a neighbour is given to this neighbour. *)
Definition C176_direct_full : Prop := forall l clas p r s m n q, py_ran Direct (l ++ [(PRequest clas p, r)]) s ->
  ~ placed l (p_id p) -> told l m -> eid_node (p_dst p) = Some n -> m !! n = Some q ->
  (forall c, c ∈ pe_clas q -> fst c ∈ clas) -> exists r', r = Some r' /\ names_peer p q r'.
(** It never sends anything. *)
Theorem C176_direct_silent : forall l s k r, py_ran Direct l s -> (k, r) ∈ l -> r = None.
Proof.
  intros l s k r H. revert k r. induction H as [|l s k0 s' r0 Hr IH Hs]; intros k r Hin; [by apply elem_of_nil in Hin|].
  apply elem_of_app in Hin as [Hin|Hin]; [by eapply IH|]. apply elem_of_list_singleton in Hin as [= -> ->].
  destruct k0 as [m|e q|e|i n|p0|b|i n|clas p|]; cbn in Hs; try (by injection Hs as _ <-).
  unfold py_direct in Hs. case_bool_decide; [by injection Hs as _ <-|]. destruct (p_dst p); try (by injection Hs as _ <-).
  destruct (_ !! _); by injection Hs as _ <-.
Qed.
Print Assumptions C176_direct_silent.
Lemma direct_run : py_ran Direct [(PPeerState {["n2" := n2]}, None); (PRequest ["mtcp"] p176, None)] (Py {["n2" := n2]} ∅).
Proof.
  apply (py_cons _ [(PPeerState {["n2" := n2]}, None)] (PRequest ["mtcp"] p176) (Py {["n2" := n2]} ∅)); [|by vm_compute].
  apply (py_cons _ [] (PPeerState {["n2" := n2]}) py_start); [apply py_nothing|done].
Qed.
Theorem C176_direct_refuted : ~ C176_direct_full.
Proof.
  intros H. destruct (H [(PPeerState {["n2" := n2]}, None)] ["mtcp"] p176 None _ {["n2" := n2]} "n2" n2 direct_run) as (r & E & _); [| | | | |done].
  - intros (l1 & k & r & l2 & E & _). destruct l1 as [|? l1]; [done|]. by destruct l1.
  - left. exists [], None, []. split; [done|]. intros m r Hin. by apply elem_of_nil in Hin.
  - done.
  - by vm_compute.
  - intros c Hc. apply elem_of_list_singleton in Hc as ->. left.
Qed.
Print Assumptions C176_direct_refuted.
(** A bundle is placed once, and again after a failed transfer. *)
Definition r176 : response := Response p176 [Instr (AIp "10.0.0.2") None "mtcp" (Dtn "n2" "")] false.
Definition k0 := (PPeerState {["n2" := n2]}, @None response).
Definition k1 := (PRequest ["mtcp"] p176, Some r176).
Definition k2 := (PRequest ["mtcp"] p176, @None response).
Definition k3 := (PFailed "b1" "n2", @None response).
Definition at0 : pyst := Py {["n2" := n2]} ∅.
Definition at1 : pyst := Py {["n2" := n2]} {["b1"]}.
Lemma step1 : py_step FirstContact at0 (fst k1) = (at1, snd k1).
Proof.
  assert (E : in_order {["n2" := n2]} = [n2]) by by vm_compute.
  cbn [fst snd k1 py_step]. unfold py_first, at0. cbn [py_peers py_placed]. rewrite E, bool_decide_eq_false_2 by set_solver.
  assert (py_clas ["mtcp"] n2 = Some (rs_clas r176)) as -> by by vm_compute. rewrite bool_decide_eq_false_2 by done. unfold at1.
  by rewrite (right_id_L ∅ (∪)).
Qed.
Lemma step2 : py_step FirstContact at1 (fst k2) = (at1, snd k2).
Proof. cbn [fst snd k2 py_step]. unfold py_first. by rewrite bool_decide_eq_true_2 by (cbn; set_solver). Qed.
Lemma step3 : py_step FirstContact at1 (fst k3) = (at0, snd k3).
Proof. cbn. unfold at0, at1. cbn [py_peers py_placed]. assert (({["b1"]} : gset string) ∖ {["b1"]} = ∅) as -> by set_solver. done. Qed.
Example C176_case : py_ran FirstContact [k0; k1; k2; k3; k1] at1.
Proof.
  apply (py_more _ [k0; k1; k2; k3] at0 (fst k1) _ (snd k1)); [|exact step1].
  apply (py_more _ [k0; k1; k2] at1 (fst k3) _ (snd k3)); [|exact step3].
  apply (py_more _ [k0; k1] at1 (fst k2) _ (snd k2)); [|exact step2].
  apply (py_more _ [k0] at0 (fst k1) _ (snd k1)); [|exact step1].
  apply (py_more _ [] py_start (fst k0) _ (snd k0)); [apply py_nothing|done].
Qed.
