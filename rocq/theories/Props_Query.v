(** Properties of dtnquery: C117 *)
From stdpp Require Import prelude strings pretty gmap sorting.
From Coq Require Import NArith Lia ZifyBool ZifyN ZifyNat.
From Verif Require Import Core StoreMem StoreSled Sneakers StoreProofs Peers Apps AppsProofs Httpd HttpdProofs Props_Httpd Props_Httpd2 Tools.
Open Scope N_scope.

(** ** C117 *)
(** the bundles asked for: in the store, and the address given occurs in the
    source or the destination *)
Definition meant (addr : option string) (p : pack) : Prop :=
  match addr with None => True | Some a => occurs a (eid_string (p_src p)) \/ occurs a (eid_string (p_dst p)) end.
Definition line (p : pack) : string * string * N := (eid_string (p_src p), eid_string (p_dst p), p_time p).
(** what is printed is about the bundles for which [about] holds *)
Definition prints_ids (about : string -> pack -> Prop) (s : mem) (x : option body) : Prop :=
  exists l, x = Some (BList l) /\ NoDup l /\ forall id, id ∈ l <-> exists p, mem_meta_of id s = Some p /\ about id p.
Definition prints_digest (about : string -> pack -> Prop) (s : mem) (x : option body) : Prop :=
  exists l, x = Some (BDigest l) /\ NoDup l /\ forall id, id ∈ l <-> exists p, mem_meta_of id s = Some p /\ about id p.
Definition prints_lines (about : string -> pack -> Prop) (s : mem) (x : option body) : Prop :=
  exists ps, x = Some (BMeta (map line ps)) /\ NoDup ps /\ forall p, p ∈ ps <-> exists id, mem_meta_of id s = Some p /\ about id p.
(** the address reaches the daemon as it was given *)
Definition arrives (params : string -> gmap string string) (addr : option string) : Prop :=
  match addr with None => True | Some a => params ("addr=" +:+ a) !! "addr" = Some a end.

(** The full claim: the command is successful, changes nothing, and its listing of
    bundles is about those in the store with the address given, in the form
    chosen. *)
Definition C117_full : Prop := forall parse_eid local_eid params dec_bundle unhex duration parse_url is_cla parse_ip cf ev ipv6 verbose digest addr ops d x d',
  d_store d = mem_run ops -> arrives params addr ->
  dtnquery parse_eid local_eid params dec_bundle unhex duration parse_url is_cla parse_ip cf ev ipv6 (QBundles verbose digest addr) d = (0, x, d') ->
  let about := fun (id : string) p => has_constraint p Deleted = false /\ meant addr p in
  if verbose then prints_lines about (d_store d) x
  else if digest then prints_digest about (d_store d) x
  else prints_ids about (d_store d) x.

(** Nothing is changed by dtnquery, and it ends with success. *)
Theorem C117_only_looks parse_eid local_eid params dec_bundle unhex duration parse_url is_cla parse_ip cf ev ipv6 c d :
  exists x, dtnquery parse_eid local_eid params dec_bundle unhex duration parse_url is_cla parse_ip cf ev ipv6 c d = (0, Some x, d).
Proof.
  unfold dtnquery. set (r := Request GET _ _ _ _ _).
  assert (Hp : rq_path r ∈ looking).
  { subst r. cbn [rq_path]. apply (bool_decide_unpack _). destruct c as [| |[] [] [a|]| | |]; vm_compute; done. }
  pose proof (C75_same parse_eid local_eid params dec_bundle unhex duration parse_url is_cla parse_ip cf ev r d Hp) as Hd.
  destruct (serve parse_eid local_eid params dec_bundle unhex duration parse_url is_cla parse_ip cf ev r d) as [x d'] eqn:E. cbn in Hd. subst d'.
  destruct x as [code b| |]; [by eexists|by eexists|]. exfalso.
  destruct (serve_cases _ _ _ _ _ _ _ _ _ _ _ _ _ _ _ E) as [(_ & H)|(en & h & x0 & Hr & Hk & Hh & Hx)].
  - naive_solver.
  - assert (Hl : exists v, h = HLook v /\ v <> VDownload).
    { destruct Hr as [[Hr _]|Hr].
      - exfalso. subst r. cbn [rq_path] in Hr. destruct c as [| |[] [] [a|]| | |]; cbn in Hr; discriminate Hr.
      - destruct (open_route _ _ _ _ _ Hr Hk) as [[v ->]|[(_ & E' & _)|[(_ & _ & E')|(_ & _ & E')]]].
        + exists v. split; [done|]. intros ->. subst r. cbn [rq_path rq_meth] in *. unfold open_routes in Hr.
          destruct (h_external cf), (h_ecla cf), c as [| |[] [] [a|]| | |]; cbn in Hr; injection Hr as <-; discriminate Hk.
        + rewrite E' in Hp. apply (bool_decide_pack _) in Hp. vm_compute in Hp. done.
        + rewrite E' in Hp. apply (bool_decide_pack _) in Hp. vm_compute in Hp. done.
        + rewrite E' in Hp. apply (bool_decide_pack _) in Hp. vm_compute in Hp. done. }
    destruct Hl as (v & -> & _). cbn in Hh. injection Hh as <-. destruct v; cbn in Hx; repeat (destruct (_ !! _) in Hx || case_match); discriminate Hx.
Qed.
Print Assumptions C117_only_looks.

(** The listings: [verbose] is about all bundles ever known, also those removed,
    whatever the address; the digest of all bundles likewise, in the order of the
    ids; the others are about the bundles in the store with the address given. *)
Definition view_of (c : query_cmd) : view :=
  match c with
  | QEids => VEids | QPeers => VPeers | QStore => VStore | QInfo => VPage | QNodeid => VNodeId
  | QBundles true _ _ => VVerbose
  | QBundles false true (Some _) => VFilteredDigest
  | QBundles false false (Some _) => VFiltered
  | QBundles false true None => VDigest
  | QBundles false false None => VBundles
  end.
Lemma query_look parse_eid local_eid params dec_bundle unhex duration parse_url is_cla parse_ip cf ev ipv6 c d :
  dtnquery parse_eid local_eid params dec_bundle unhex duration parse_url is_cla parse_ip cf ev ipv6 c d =
  match look params cf (view_of c) (Request GET (fst (query_url c)) (snd (query_url c)) [] (localhost ipv6) false) d with
  | Resp _ b => (0, Some b, d)
  | NoRoute => (0, Some BPage, d)
  | Crash => (101, None, d)
  end.
Proof.
  unfold dtnquery. set (r := Request GET _ _ _ _ _).
  assert (E : forall en, en = g (HLook (view_of c)) -> route (rq_path r) (open_routes cf) = Some en).
  { intros en ->. subst r. cbn [rq_path]. unfold open_routes. destruct (h_external cf), (h_ecla cf), c as [| |[] [] [a|]| | |]; reflexivity. }
  rewrite (serve_open _ _ _ _ _ _ _ _ _ _ _ _ _ (rq_path r) (g (HLook (view_of c))) (HLook (view_of c)) eq_refl); [|subst r; cbn [rq_path]; destruct c as [| |[] [] [a|]| | |]; reflexivity|by apply E|reflexivity].
  cbn [handle fst snd strip rq_meth]. by destruct (look params cf (view_of c) r d).
Qed.
Theorem C117_listing_partial parse_eid local_eid params dec_bundle unhex duration parse_url is_cla parse_ip cf ev ipv6 verbose digest addr ops d x d' :
  d_store d = mem_run ops -> arrives params addr ->
  dtnquery parse_eid local_eid params dec_bundle unhex duration parse_url is_cla parse_ip cf ev ipv6 (QBundles verbose digest addr) d = (0, x, d') ->
  let there := fun (id : string) p => has_constraint p Deleted = false /\ meant addr p in
  let known := fun (id : string) (p : pack) => True in
  if verbose then prints_lines known (d_store d) x
  else if digest then match addr with Some _ => prints_digest there (d_store d) x | None => prints_digest known (d_store d) x end
  else prints_ids there (d_store d) x.
Proof.
  intros Hs Ha H there known. rewrite query_look in H.
  assert (Hi : mem_inv (d_store d)) by (rewrite Hs; apply mem_inv_run).
  destruct verbose; [|destruct digest; destruct addr as [a|]]; cbn [view_of look query_url fst snd rq_query] in H; unfold query_map in H; cbn [rq_query from_option id] in H; cbn [arrives] in Ha.
  - injection H as <- _. exists (mem_packs (d_store d)). split; [done|]. split.
    + apply (NoDup_fmap_1 p_id). apply packs_nodup, Hi.
    + intros p. rewrite packs_lookup by done. unfold mem_meta_of. split; [intros E; exists (p_id p); done|].
      intros (id & E & _). destruct Hi as [Hk _ _]. pose proof (Hk _ _ E) as Ek. cbn in Ek. by rewrite Ek.
  - rewrite Ha in H. injection H as <- _. exists (filter_addr a (d_store d)). split; [done|]. split; [by apply filter_addr_nodup|].
    intros id. rewrite filter_addr_iff by done. unfold mem_meta_of, there, meant, occurs. setoid_rewrite contains_iff. naive_solver.
  - injection H as <- _. exists (digest_ids (d_store d)). split; [done|]. unfold digest_ids. split.
    + rewrite merge_sort_Permutation. apply packs_nodup, Hi.
    + intros id. rewrite merge_sort_Permutation, elem_of_list_fmap. setoid_rewrite (packs_lookup _ _ Hi). unfold mem_meta_of, known. split.
      * intros (p & -> & E). eauto.
      * intros (p & E & _). destruct Hi as [Hk _ _]. pose proof (Hk _ _ E) as Ek. cbn in Ek. exists p. by rewrite Ek.
  - rewrite Ha in H. injection H as <- _. exists (filter_addr a (d_store d)). split; [done|]. split; [by apply filter_addr_nodup|].
    intros id. rewrite filter_addr_iff by done. unfold mem_meta_of, there, meant, occurs. setoid_rewrite contains_iff. naive_solver.
  - injection H as <- _. exists (known_bundles (d_store d)). split; [done|]. split; [by apply known_bundles_nodup|].
    intros id. rewrite known_bundles_iff by done. unfold mem_meta_of, there, meant. naive_solver.
Qed.
Print Assumptions C117_listing_partial.

(** The other questions. *)
Theorem C117_rest parse_eid local_eid params dec_bundle unhex duration parse_url is_cla parse_ip cf ev ipv6 d :
  let q c := fst (dtnquery parse_eid local_eid params dec_bundle unhex duration parse_url is_cla parse_ip cf ev ipv6 c d) in
  q QNodeid = (0, Some (BText (eid_string (h_host cf)))) /\
  q QEids = (0, Some (BList (map (fun a => eid_string (ag_eid a)) (d_agents d)))) /\
  (exists l, q QPeers = (0, Some (BPeers l)) /\ NoDup l /\ forall n p, (n, p) ∈ l <-> d_peers d !! n = Some p) /\
  (exists l, q QStore = (0, Some (BStatus l)) /\ forall id cs, (id, cs) ∈ l <-> exists n p, mem_meta_of n (d_store d) = Some p /\ p_id p = id /\ p_cons p = cs).
Proof.
  cbv beta zeta. rewrite !query_look. cbn [view_of look fst]. split; [done|]. split; [done|]. split.
  - eexists. split; [done|]. split; [apply NoDup_map_to_list|]. intros n p. by rewrite elem_of_map_to_list.
  - eexists. split; [done|]. intros id cs. unfold bundles_status, mem_packs. rewrite map_map, elem_of_list_fmap. unfold mem_meta_of. split.
    + intros ([n p] & E & Hp). injection E as -> ->. apply elem_of_map_to_list in Hp. eauto.
    + intros (n & p & E & <- & <-). exists (n, p). split; [done|]. by apply elem_of_map_to_list.
Qed.
Print Assumptions C117_rest.

(** A bundle that was removed is still listed with --verbose, also when another
    address was asked for. *)
Definition gone_store : list op := [Push 5 b1; Remove (bid b1)].
Definition d_gone : daemon := Daemon [] ∅ (mem_run gone_store) 0 [] [] [] [].
Notation query1 := (dtnquery pe1 le1 pm1 (fun _ => None) (fun _ => Some None) (fun _ => None) pu1 (fun s => bool_decide (s = "mtcp")) (fun _ => None) cf1 ev1 false).
Theorem C117_full_refuted : ~ C117_full.
Proof.
  intros H. specialize (H pe1 le1 pm1 (fun _ => None) (fun _ => Some None) (fun _ => None) pu1 (fun s => bool_decide (s = "mtcp")) (fun _ => None) cf1 ev1 false true false None gone_store d_gone _ _ eq_refl I (query_look _ _ _ _ _ _ _ _ _ _ _ _ _ _)).
  cbn [view_of] in H. destruct H as (ps & E & _ & H). destruct ps as [|p ps]; [by vm_compute in E|].
  destruct (proj1 (H p) ltac:(by left)) as (id & Hid & Hd & _).
  assert (Hall : map_Forall (fun _ p => has_constraint p Deleted = true) (m_meta (mem_run gone_store))) by (apply (bool_decide_unpack _); by vm_compute).
  assert (Q : has_constraint p Deleted = true) by exact (Hall _ _ Hid). congruence.
Qed.
Print Assumptions C117_full_refuted.
Example query_case : query1 (QBundles false false None) d_gone = (0, Some (BList []), d_gone) /\
  query1 (QBundles true false (Some "dtn://nowhere")) d_gone = (0, Some (BMeta [(eid_string (b_src b1), eid_string (b_dst b1), b_time b1)]), d_gone) /\
  query1 (QBundles false false None) (Daemon [] ∅ (mem_run [Push 5 b1]) 0 [] [] [] []) = (0, Some (BList [bid b1]), Daemon [] ∅ (mem_run [Push 5 b1]) 0 [] [] [] []).
Proof. by vm_compute. Qed.

(** The store gives its bundles in no particular order, which differs between
    nodes and between runs.  The digest of the bundles with an address depends on
    it: two nodes with the same bundles can show different digests. *)
Definition C117_same_filtered_digest : Prop := forall c ops order1 order2,
  order1 ≡ₚ mem_packs (mem_run ops) -> order2 ≡ₚ mem_packs (mem_run ops) ->
  String.concat "" (filter_packs c order1) = String.concat "" (filter_packs c order2).
Definition b_other : bundle := Bundle (BFlags false false false false false false false) (Dtn "x" "in") (Dtn "a" "") DtnNone 9 0 3600000 0 0 [].
Theorem C117_filtered_digest_refuted : ~ C117_same_filtered_digest.
Proof.
  intros H. set (s := mem_run [Push 5 b1; Push 5 b_other]).
  assert (E : String.concat "" (filter_packs "" (reverse (mem_packs s))) <> String.concat "" (filter_packs "" (mem_packs s))) by (vm_compute; discriminate).
  apply E, (H "" [Push 5 b1; Push 5 b_other]); [apply reverse_Permutation|done].
Qed.
Print Assumptions C117_filtered_digest_refuted.
(** As a set it does not. *)
Theorem C117_same_filtered_ids_partial : forall c ops order1 order2,
  order1 ≡ₚ mem_packs (mem_run ops) -> order2 ≡ₚ mem_packs (mem_run ops) -> filter_packs c order1 ≡ₚ filter_packs c order2.
Proof. intros c ops o1 o2 H1 H2. unfold filter_packs. rewrite H1, H2. done. Qed.
Print Assumptions C117_same_filtered_ids_partial.
