(** The sneakers store (core/store/sneakers.rs): representation of the
    constraint set as a bit field in an SQL database, and of the metadata. *)
From Verif Require Import Core.
From stdpp Require Import prelude strings gmap.
From Coq Require Import NArith Lia.
Open Scope N_scope.

(** d7sneakers::Constraints is a bitflags type; [bit c] is the position of the
    flag of constraint [c].  The positions themselves are in the d7sneakers
    crate (not available); only their distinctness is used. *)
Section bits.
Context (bit : constraint -> N).

(** bitflags: set (x, true), contains *)
Definition flag (c : constraint) : N := N.shiftl 1 (bit c).
Definition bits_set (x f : N) : N := N.lor x f.
Definition bits_contains (x f : N) : bool := N.land x f =? f.

(** sneakers.rs:193-214 convert_hashset_to_constraints *)
Definition to_bits (s : cset) : N :=
  let x := 0 in
  let x := if has_c s DispatchPending then bits_set x (flag DispatchPending) else x in
  let x := if has_c s ForwardPending then bits_set x (flag ForwardPending) else x in
  let x := if has_c s ReassemblyPending then bits_set x (flag ReassemblyPending) else x in
  let x := if has_c s Contraindicated then bits_set x (flag Contraindicated) else x in
  let x := if has_c s LocalEndpoint then bits_set x (flag LocalEndpoint) else x in
  let x := if has_c s Deleted then bits_set x (flag Deleted) else x in x.
(** sneakers.rs:170-191 convert_constraints_to_hashset *)
Definition of_bits (x : N) : cset :=
  let s := no_constraints in
  let s := if bits_contains x (flag DispatchPending) then set_c s DispatchPending true else s in
  let s := if bits_contains x (flag ForwardPending) then set_c s ForwardPending true else s in
  let s := if bits_contains x (flag ReassemblyPending) then set_c s ReassemblyPending true else s in
  let s := if bits_contains x (flag Contraindicated) then set_c s Contraindicated true else s in
  let s := if bits_contains x (flag LocalEndpoint) then set_c s LocalEndpoint true else s in
  let s := if bits_contains x (flag Deleted) then set_c s Deleted true else s in s.

(** The database row (d7sneakers BundleEntry) with the constraint bits;
    addresses are kept as opaque text columns. *)
Record row := Row { r_src : string * string; r_dst : string * string;
                    r_added : N; r_life : N; r_created : N; r_bits : N }.
Notation db := (gmap string row).
(** sneakers.rs:77-80 filter: the rows that contain all requested bits (the
    SQL in d7sneakers selects "constraints & c = c") *)
Definition sn_filter (crit : cset) (d : db) : list string :=
  map fst (filter (fun x => bits_contains (r_bits (snd x)) (to_bits crit) = true) (map_to_list d)).
(** sneakers.rs:50-58 update_metadata: only the constraints are written *)
Definition sn_update (p : pack) (d : db) : db * bool :=
  match d !! p_id p with
  | None => (d, false)
  | Some r => (<[p_id p := Row (r_src r) (r_dst r) (r_added r) (r_life r) (r_created r) (to_bits (p_cons p))]> d, true)
  end.
(** sneakers.rs:109-151 get_metadata; [parse]: eid_from_strings (17-40) with
    its fallback to dtn:none *)
Definition sn_meta (parse : string * string -> eid) (id : string) (d : db) : option pack :=
  match d !! id with
  | None => None
  | Some r => Some (Pack (parse (r_src r)) (parse (r_dst r)) (r_added r) (r_created r) (r_life r) id false (of_bits (r_bits r)))
  end.
(** sneakers.rs:81-85 pending *)
Definition sn_pending (d : db) : list string :=
  map fst (filter (fun x => bits_contains (r_bits (snd x)) (flag DispatchPending) = true) (map_to_list d)).

Context (Hbit : forall c c', bit c = bit c' -> c = c').

Lemma flag_spec c n : N.testbit (flag c) n = bool_decide (n = bit c).
Proof.
  unfold flag. rewrite N.shiftl_1_l, N.pow2_bits_eqb. case_bool_decide; subst; [apply N.eqb_refl|by apply N.eqb_neq].
Qed.
Lemma contains_spec x f : bits_contains x f = true <-> forall n, N.testbit f n = true -> N.testbit x n = true.
Proof.
  unfold bits_contains. rewrite N.eqb_eq. split.
  - intros H n Hn. rewrite <- H in Hn. rewrite N.land_spec in Hn. by apply andb_true_iff in Hn as [? _].
  - intros H. apply N.bits_inj. intros n. rewrite N.land_spec. destruct (N.testbit f n) eqn:E; [|by rewrite andb_false_r].
    by rewrite (H n E).
Qed.
Lemma contains_flag x c : bits_contains x (flag c) = N.testbit x (bit c).
Proof.
  destruct (N.testbit x (bit c)) eqn:E.
  - apply contains_spec. intros n. rewrite flag_spec. intros ->%bool_decide_eq_true. done.
  - apply not_true_is_false. intros H. rewrite contains_spec in H. specialize (H (bit c)).
    rewrite flag_spec, bool_decide_true in H by done. rewrite H in E; done.
Qed.
Lemma of_bits_has x c : has_c (of_bits x) c = N.testbit x (bit c).
Proof.
  unfold of_bits. rewrite !contains_flag.
  destruct (N.testbit x (bit DispatchPending)) eqn:E1, (N.testbit x (bit ForwardPending)) eqn:E2,
    (N.testbit x (bit ReassemblyPending)) eqn:E3, (N.testbit x (bit Contraindicated)) eqn:E4,
    (N.testbit x (bit LocalEndpoint)) eqn:E5, (N.testbit x (bit Deleted)) eqn:E6; destruct c; cbn; congruence.
Qed.
Lemma to_bits_spec s n : N.testbit (to_bits s) n = true <-> exists c, n = bit c /\ has_c s c = true.
Proof.
  unfold to_bits, bits_set.
  assert (Hif : forall (b : bool) x f, N.testbit (if b then N.lor x f else x) n = N.testbit x n || (b && N.testbit f n)).
  { intros [] x f; [by rewrite N.lor_spec|cbn; by rewrite orb_false_r]. }
  cbv zeta. rewrite !Hif, !flag_spec, N.bits_0. rewrite !orb_true_iff, !andb_true_iff, !bool_decide_eq_true. split.
  - intros H. destruct_or!; try done; destruct H as [H1 H2]; eauto.
  - intros ([] & -> & H); rewrite H; tauto.
Qed.
Lemma to_bits_has s c : N.testbit (to_bits s) (bit c) = has_c s c.
Proof.
  destruct (has_c s c) eqn:E; [apply to_bits_spec; eauto|]. apply not_true_is_false. intros H.
  apply to_bits_spec in H as (c' & ->%Hbit & H). congruence.
Qed.
Lemma cset_ext s t : (forall c, has_c s c = has_c t c) -> s = t.
Proof.
  intros H. destruct s, t. pose proof (H DispatchPending). pose proof (H ForwardPending). pose proof (H ReassemblyPending).
  pose proof (H Contraindicated). pose proof (H LocalEndpoint). pose proof (H Deleted). cbn in *. congruence.
Qed.
Lemma of_to_bits s : of_bits (to_bits s) = s.
Proof. apply cset_ext. intros c. rewrite of_bits_has. apply to_bits_has. Qed.
Lemma sn_filter_spec crit d id :
  id ∈ sn_filter crit d <->
  exists r, d !! id = Some r /\ forall c, has_c crit c = true -> has_c (of_bits (r_bits r)) c = true.
Proof.
  unfold sn_filter. rewrite elem_of_list_fmap. setoid_rewrite elem_of_list_filter.
  assert (Hr : forall r, bits_contains (r_bits r) (to_bits crit) = true <->
                forall c, has_c crit c = true -> has_c (of_bits (r_bits r)) c = true).
  { intros r. rewrite contains_spec. setoid_rewrite to_bits_spec. setoid_rewrite of_bits_has. split.
    - intros H c Hc. apply H. eauto.
    - intros H n (c & -> & Hc). by apply H. }
  split.
  - intros ([i r] & -> & H & Hin%elem_of_map_to_list). cbn in *. exists r. split; [done|]. by apply Hr.
  - intros (r & Hl & H). exists (id, r). cbn. rewrite Hr. rewrite elem_of_map_to_list. done.
Qed.
Lemma sn_pending_spec d id : id ∈ sn_pending d <-> exists r, d !! id = Some r /\ has_c (of_bits (r_bits r)) DispatchPending = true.
Proof.
  unfold sn_pending. rewrite elem_of_list_fmap. setoid_rewrite elem_of_list_filter. setoid_rewrite of_bits_has. split.
  - intros ([i r] & -> & H & Hin%elem_of_map_to_list). cbn [fst snd] in *. rewrite contains_flag in H. eauto.
  - intros (r & Hl & H). exists (id, r). cbn [fst snd]. by rewrite elem_of_map_to_list, contains_flag.
Qed.
Lemma sn_readback parse p d d' : sn_update p d = (d', true) ->
  exists q, sn_meta parse (p_id p) d' = Some q /\ p_cons q = p_cons p.
Proof.
  unfold sn_update, sn_meta. destruct (d !! p_id p) as [r|] eqn:E; [|done]. intros [= <-].
  rewrite lookup_insert. eexists. split; [done|]. cbn. apply of_to_bits.
Qed.
Lemma sn_meta_other parse p d id : id <> p_id p -> sn_meta parse id (fst (sn_update p d)) = sn_meta parse id d.
Proof. intros Hne. unfold sn_update, sn_meta. destruct (d !! p_id p); [|done]. cbn. by rewrite lookup_insert_ne. Qed.
Lemma sn_update_fields parse p d d' q q' : sn_update p d = (d', true) ->
  sn_meta parse (p_id p) d = Some q -> sn_meta parse (p_id p) d' = Some q' ->
  p_recv q' = p_recv q /\ p_life q' = p_life q /\ p_time q' = p_time q /\ p_id q' = p_id p /\ p_src q' = p_src q /\ p_dst q' = p_dst q.
Proof.
  unfold sn_update, sn_meta. destruct (d !! p_id p) as [r|] eqn:E; [|done]. intros [= <-] [= <-].
  rewrite lookup_insert. intros [= <-]. done.
Qed.
Lemma sn_admin_lost parse id d q : sn_meta parse id d = Some q -> p_admin q = false.
Proof. unfold sn_meta. destruct (d !! id); [|done]. by intros [= <-]. Qed.
End bits.
