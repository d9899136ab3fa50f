(** Digests and pulling: C51, C52, C81. *)
From stdpp Require Import prelude strings pretty gmap sorting.
From Coq Require Import NArith Lia Ascii.
From Verif Require Import Core StoreMem StoreProofs IdProofs Peers Apps Httpd HttpdProofs Pull PullProofs.
Open Scope N_scope.

(** ** Specification *)
(** A bundle with this id was once given to a store with this history. *)
Definition learnt (ops : list op) (id : string) : Prop := exists now b, Push now b ∈ ops /\ bid b = id.
Definition know_the_same (ops1 ops2 : list op) : Prop := forall id, learnt ops1 id <-> learnt ops2 id.
(** The text that a digest is the hash of. *)
Definition hashed (s : mem) : string := complete_digest (fun x => x) s.

(** ** C51 *)
Theorem C51_same_set_same_digest : forall sha1 ops1 ops2, know_the_same ops1 ops2 ->
  complete_digest sha1 (mem_run ops1) = complete_digest sha1 (mem_run ops2).
Proof. intros sha1 ops1 ops2 H. unfold complete_digest. by rewrite (digest_ids_same ops1 ops2 H). Qed.
Print Assumptions C51_same_set_same_digest.

(** Different sets have different digests, unless SHA-1 maps the two different
    texts to the same value. *)
Definition C51_full : Prop := forall sha1 ops1 ops2,
  complete_digest sha1 (mem_run ops1) = complete_digest sha1 (mem_run ops2) ->
  know_the_same ops1 ops2 \/
  hashed (mem_run ops1) <> hashed (mem_run ops2) /\ sha1 (hashed (mem_run ops1)) = sha1 (hashed (mem_run ops2)).
Definition pf : bflags := BFlags false false false false false false false.
Definition mk (src : eid) (t : N) : bundle := Bundle pf (Dtn "c" "in") src DtnNone t 0 3600000 0 0 [].
(** Ids are hashed one after the other: the bundles dtn://a/-1-0 and
    dtn://b/-2-0 have the digest of the one bundle dtn://a/-1-0dtn://b/-2-0. *)
Definition two : list op := [Push 5 (mk (Dtn "b" "") 2); Push 5 (mk (Dtn "a" "") 1)].
Definition one : list op := [Push 5 (mk (Dtn "a" "-1-0dtn://b/") 2)].
Theorem C51_digest_refuted : ~ C51_full.
Proof.
  intros H. destruct (H (fun x => x) two one) as [Hs|[Hn _]].
  - by vm_compute.
  - destruct (Hs (bid (mk (Dtn "a" "") 1))) as [Ha _].
    destruct Ha as (now & b & Hb & Hid).
    + exists 5, (mk (Dtn "a" "") 1). split; [|done]. apply elem_of_cons. right. by apply elem_of_list_singleton.
    + apply elem_of_list_singleton in Hb. assert (b = mk (Dtn "a" "-1-0dtn://b/") 2) as -> by congruence.
      apply (bool_decide_pack _) in Hid. by vm_compute in Hid.
  - apply Hn. by vm_compute.
Qed.
Print Assumptions C51_digest_refuted.

Fixpoint has_no (c : ascii) (s : string) : Prop := match s with EmptyString => True | String d s => d <> c /\ has_no c s end.
(** no name or path of a source has a colon *)
Definition sources_plain (ops : list op) : Prop :=
  forall now b n p, Push now b ∈ ops -> b_src b = Dtn n p -> has_no ":"%char n /\ has_no ":"%char p.
(** Missing: bundles whose source has a colon in its name or path. *)
Theorem C51_digest_partial : forall sha1 ops1 ops2, sources_plain ops1 -> sources_plain ops2 ->
  complete_digest sha1 (mem_run ops1) = complete_digest sha1 (mem_run ops2) ->
  know_the_same ops1 ops2 \/
  hashed (mem_run ops1) <> hashed (mem_run ops2) /\ sha1 (hashed (mem_run ops1)) = sha1 (hashed (mem_run ops2)).
Proof.
  assert (Hp : forall ops, sources_plain ops -> Forall plain_id (digest_ids (mem_run ops))).
  { intros ops H. apply Forall_forall. intros id Hid%digest_ids_spec. destruct Hid as (now & b & Hb & <-).
    apply bid_plain. destruct (b_src b) as [|n p|] eqn:E; cbn; try done. exact (H now b n p Hb E). }
  intros sha1 ops1 ops2 H1 H2 H.
  destruct (decide (hashed (mem_run ops1) = hashed (mem_run ops2))) as [E|E]; [left|right; done].
  apply (concat_inj _ _ "" "") in E as [_ E]; [|by apply Hp..|done|done].
  intros id. change (pushed ops1 id <-> pushed ops2 id). by rewrite <- !digest_ids_spec, E.
Qed.
Print Assumptions C51_digest_partial.
Example C51_case : sources_plain two /\ ~ know_the_same two (tail two) /\ know_the_same two (reverse two) /\
  hashed (mem_run two) = "dtn://a/-1-0dtn://b/-2-0" /\ hashed (mem_run (reverse two)) = hashed (mem_run two).
Proof.
  split; [|split; [|split; [|split; by vm_compute]]].
  - intros now b n p Hb Hs. unfold two in Hb. rewrite !elem_of_cons, elem_of_nil in Hb.
    destruct Hb as [Hb|[Hb|[]]]; assert (He : b_src b = b_src b) by done; injection Hb as -> ->; cbn in Hs; injection Hs as <- <-; cbn; split_and!; done.
  - intros H. destruct (H (bid (mk (Dtn "b" "") 2))) as [Ha _]. destruct Ha as (now & b & Hb & Hid).
    + exists 5, (mk (Dtn "b" "") 2). split; [|done]. apply elem_of_cons. by left.
    + apply elem_of_list_singleton in Hb. assert (b = mk (Dtn "a" "") 1) as -> by congruence.
      apply (bool_decide_pack _) in Hid. by vm_compute in Hid.
  - intros id. unfold learnt. by setoid_rewrite elem_of_reverse.
Qed.

(** ** C52 *)
(** The bundles that the neighbour lists. *)
Definition lists (nb : neighbour) (l : list string) : Prop := nb_list nb = Some (Some l).
(** The neighbour answers the request for a bundle with something else. *)
Definition unreadable (dec : list N -> option bundle) (nb : neighbour) (id : string) : bool :=
  match nb_get nb id with Some x => match dec x with None => true | Some _ => false end | None => false end.
Theorem C52_pull : forall dec has local nb,
  let r := pull dec has local nb in
  (* digests agree: nothing is requested *)
  (nb_digest nb = Some local -> pl_asked r = []) /\
  (* only what is listed and not held is requested, in the order of the list *)
  (forall id, id ∈ pl_asked r -> has id = false /\ exists l, lists nb l /\ id ∈ l) /\
  (forall l, lists nb l -> NoDup l -> NoDup (pl_asked r)) /\
  (* all of it, if the round did not fail *)
  (forall l dg id, lists nb l -> nb_digest nb = Some dg -> dg <> local -> String.length dg = 40%nat ->
    pl_verdict r = PSuccess -> id ∈ l -> has id = false -> id ∈ pl_asked r) /\
  (* a round fails only on a request that is not answered, and panics only on an unreadable list *)
  (pl_verdict r = PFailure -> nb_digest nb = None \/ nb_list nb = None \/ exists id, id ∈ pl_asked r /\ nb_get nb id = None) /\
  (pl_verdict r = PPanic -> nb_list nb = Some None) /\
  (* what the downloads decode to is received *)
  (forall b, b ∈ pl_got r <-> exists id x, id ∈ pl_asked r /\ nb_get nb id = Some x /\ dec x = Some b) /\
  (* the others are reported as broken *)
  pl_broken r = N.of_nat (length (filter (fun id => unreadable dec nb id = true) (pl_asked r))).
Proof.
  intros dec has local nb r.
  assert (Hbr : forall l, pl_broken (fetch dec (nb_get nb) l) = N.of_nat (length (filter (fun id => unreadable dec nb id = true) (pl_asked (fetch dec (nb_get nb) l))))).
  { induction l as [|id l IH]; [done|]. cbn [fetch]. unfold unreadable in *. destruct (nb_get nb id) as [x|] eqn:E.
    - destruct (dec x) as [b|] eqn:E'; cbn [pl_broken pl_asked]; rewrite filter_cons, E, E', IH; [by rewrite decide_False|rewrite decide_True by done; cbn [length]; lia].
    - cbn [pl_broken pl_asked]. rewrite filter_cons, E. by rewrite decide_False. }
  assert (Hnil : forall b : bundle, False <-> exists id x, id ∈ (@nil string) /\ nb_get nb id = Some x /\ dec x = Some b).
  { intros b. split; [done|]. by intros (? & ? & ?%elem_of_nil & _). }
  subst r. unfold pull, lists. destruct (nb_digest nb) as [dg|] eqn:D.
  2:{ split_and!; try done; cbn; intros *; rewrite ?elem_of_nil; try done; try (by constructor); try (by left); try (by apply Hnil). }
  destruct (bool_decide (dg = local) || negb (Nat.eqb (String.length dg) 40)) eqn:G.
  { split_and!; try done; cbn; intros *; rewrite ?elem_of_nil; try done; try (by constructor); try (by apply Hnil).
    intros _ [= <-] Hne Hlen. exfalso. rewrite Hlen in G. rewrite bool_decide_eq_false_2 in G by done. done. }
  apply orb_false_iff in G as [G1 G2]. apply bool_decide_eq_false in G1.
  destruct (nb_list nb) as [[l|]|] eqn:L.
  - set (m := filter (fun id => has id = false) l).
    assert (Hm : forall id, id ∈ m <-> has id = false /\ id ∈ l) by (intros; unfold m; by rewrite elem_of_list_filter).
    pose proof (fetch_asked dec (nb_get nb) m) as Ha. pose proof (fetch_got dec (nb_get nb) m) as Hg.
    assert (Hsub : forall id, id ∈ pl_asked (fetch dec (nb_get nb) m) -> id ∈ m).
    { intros id Hid. destruct (pl_verdict _); [by destruct Ha as [<- _]| |done].
      destruct Ha as (n & i & rest & -> & E & _). rewrite E in Hid. apply elem_of_app in Hid. apply elem_of_app.
      destruct Hid as [?|?%elem_of_list_singleton]; [by left|right]. subst. apply elem_of_cons. by left. }
    split_and!.
    + intros [= ->]. done.
    + intros id Hid%Hsub%Hm. destruct Hid. eauto.
    + intros l' [= <-] Hl. assert (Hnd : NoDup m) by by apply NoDup_filter.
      destruct (pl_verdict _); [by destruct Ha as [-> _]| |done]. destruct Ha as (n & i & rest & E & -> & _). rewrite E in Hnd.
      replace (n ++ i :: rest) with ((n ++ [i]) ++ rest) in Hnd by (by rewrite <- app_assoc). by apply NoDup_app in Hnd as (? & _).
    + intros l' dg' id [= <-] [= <-] _ _ Hv Hin Hh. rewrite Hv in Ha. destruct Ha as [-> _]. by apply Hm.
    + intros Hv. right. right. rewrite Hv in Ha. destruct Ha as (n & i & rest & _ & -> & Hi & _). exists i. split; [|done].
      apply elem_of_app. right. by apply elem_of_list_singleton.
    + intros Hv. by rewrite Hv in Ha.
    + apply Hg.
    + apply Hbr.
  - split_and!; try done; cbn; intros *; rewrite ?elem_of_nil; try done; try (by constructor); try (by apply Hnil).
  - split_and!; try done; cbn; intros *; rewrite ?elem_of_nil; try done; try (by constructor); try (by right; left); try (by apply Hnil).
Qed.
Print Assumptions C52_pull.

(** Against a node that runs this software: nothing fails, each bundle is asked
    for once, and exactly the bundles that the neighbour has a record of that is
    not marked deleted, and that this node does not hold, are asked for; what is
    received is what the neighbour holds of them. *)
Theorem C52_pull_dtnd : forall sha1 enc dec not_found ops1 ops2,
  (forall x, String.length (sha1 x) = 40%nat) -> (forall id b, mem_get id (mem_run ops2) = Some b -> dec (enc b) = Some b) ->
  dec not_found = None ->
  let here := mem_run ops1 in let there := mem_run ops2 in
  let r := pull dec (fun id => mem_has id here) (complete_digest sha1 here) (dtnd_neighbour sha1 enc not_found there) in
  pl_verdict r = PSuccess /\ NoDup (pl_asked r) /\
  (complete_digest sha1 here = complete_digest sha1 there -> pl_asked r = []) /\
  (complete_digest sha1 here <> complete_digest sha1 there -> forall id, id ∈ pl_asked r <->
    (exists p, mem_meta_of id there = Some p /\ has_constraint p Deleted = false) /\ mem_get id here = None) /\
  (forall b, b ∈ pl_got r <-> bid b ∈ pl_asked r /\ mem_get (bid b) there = Some b).
Proof.
  intros sha1 enc dec not_found ops1 ops2 Hlen Henc Hnf here there r.
  set (nb := dtnd_neighbour sha1 enc not_found there).
  destruct (C52_pull dec (fun id => mem_has id here) (complete_digest sha1 here) nb) as (H1 & H2 & H3 & H4 & H5 & H6 & H7 & _).
  change (pull dec (fun id => mem_has id here) (complete_digest sha1 here) nb) with r in H1, H2, H3, H4, H5, H6, H7.
  assert (Hl : lists nb (known_bundles there)) by done.
  assert (Hv : pl_verdict r = PSuccess).
  { destruct (pl_verdict r) eqn:E; [done| |].
    - destruct (H5 eq_refl) as [|[|(id & _ & Hid)]]; done.
    - by specialize (H6 eq_refl). }
  assert (Hhas : forall id, mem_has id here = false <-> mem_get id here = None).
  { intros id. unfold mem_has, mem_get. rewrite bool_decide_eq_false. by rewrite eq_None_not_Some. }
  split; [done|]. split; [apply (H3 _ Hl), known_bundles_nodup, mem_inv_run|]. split; [|split].
  - intros E. apply H1. cbn. by rewrite E.
  - intros E id. rewrite <- Hhas. unfold mem_meta_of. rewrite <- (known_bundles_iff there id (mem_inv_run ops2)). split.
    + intros Hid%H2. destruct Hid as (Hh & l & Hl' & Hin). split; [|done]. unfold lists in *. by assert (l = known_bundles there) as <- by congruence.
    + intros [Hin Hh]. apply (H4 _ (complete_digest sha1 there) id Hl eq_refl); try done; try congruence; apply Hlen.
  - intros b. rewrite H7. cbn. split.
    + intros (id & x & Hid & [= <-] & Hd). destruct (mem_get id there) as [b'|] eqn:E; [|congruence].
      rewrite (Henc _ _ E) in Hd. injection Hd as ->. assert (bid b = id) as -> by (eapply (mi_bundle _ (mem_inv_run ops2)); exact E). done.
    + intros [Hid Hb]. exists (bid b), (enc b). rewrite Hb. eauto.
Qed.
Print Assumptions C52_pull_dtnd.

(** ** C81 *)
(** A bundle that was once known here is not fetched again. *)
Definition C81_full : Prop := forall sha1 enc dec not_found ops1 ops2,
  (forall x, String.length (sha1 x) = 40%nat) -> (forall id b, mem_get id (mem_run ops2) = Some b -> dec (enc b) = Some b) ->
  dec not_found = None ->
  let here := mem_run ops1 in
  let r := pull dec (fun id => mem_has id here) (complete_digest sha1 here) (dtnd_neighbour sha1 enc not_found (mem_run ops2)) in
  forall id, id ∈ pl_asked r -> ~ learnt ops1 id.
Definition y : bundle := mk (Dtn "a" "") 1.
Definition x : bundle := mk (Dtn "b" "") 2.
Definition zeros : string := "0000000000000000000000000000000000000000".
Definition ones : string := "1111111111111111111111111111111111111111".
(** a hash that tells the two stores below apart, and an encoding for x and y *)
Definition sha (s : string) : string := if bool_decide (s = bid y) then zeros else ones.
Definition enc1 (b : bundle) : list N := if bool_decide (b = y) then [1] else [2].
Definition dec1 (l : list N) : option bundle := if bool_decide (l = [1]) then Some y else if bool_decide (l = [2]) then Some x else None.
Definition here_ops : list op := [Push 5 y; Remove (bid y)].
Definition there_ops : list op := [Push 5 y; Push 6 x].
Lemma sha_length s : String.length (sha s) = 40%nat.
Proof. unfold sha. by case_bool_decide. Qed.
Lemma codec1 id b : mem_get id (mem_run there_ops) = Some b -> dec1 (enc1 b) = Some b.
Proof.
  intros H. unfold mem_get in H. apply elem_of_map_to_list in H.
  assert (E : map_to_list (m_bundles (mem_run there_ops)) ≡ₚ [(bid x, x); (bid y, y)]) by by vm_compute.
  rewrite E in H. rewrite !elem_of_cons, elem_of_nil in H.
  destruct H as [H|[H|[]]]; injection H as _ ->; by vm_compute.
Qed.
Example pull1 : pull dec1 (fun id => mem_has id (mem_run here_ops)) (complete_digest sha (mem_run here_ops)) (dtnd_neighbour sha enc1 [] (mem_run there_ops))
  = Pulled PSuccess [bid x; bid y] [x; y] 0.
Proof. by vm_compute. Qed.
(** y was received, delivered and removed here; when x appears at the neighbour, y is fetched again with it. *)
Theorem C81_no_second_fetch_refuted : ~ C81_full.
Proof.
  intros H. apply (H sha enc1 dec1 [] here_ops there_ops sha_length codec1 eq_refl (bid y)).
  - rewrite pull1. cbn [pl_asked]. rewrite !elem_of_cons. auto.
  - exists 5, y. split; [|done]. apply elem_of_cons. by left.
Qed.
Print Assumptions C81_no_second_fetch_refuted.
(** Missing: bundles that were removed here, when the neighbour knows bundles
    never known here or the reverse.  A bundle that is still held is not fetched,
    and nothing is fetched from a neighbour that knows the same bundles. *)
Theorem C81_no_second_fetch_partial : forall sha1 enc dec not_found ops1 ops2,
  let here := mem_run ops1 in
  let r := pull dec (fun id => mem_has id here) (complete_digest sha1 here) (dtnd_neighbour sha1 enc not_found (mem_run ops2)) in
  (forall id, id ∈ pl_asked r -> mem_get id here = None) /\
  (know_the_same ops1 ops2 -> pl_asked r = [] /\ pl_got r = []).
Proof.
  intros sha1 enc dec not_found ops1 ops2 here r.
  destruct (C52_pull dec (fun id => mem_has id here) (complete_digest sha1 here) (dtnd_neighbour sha1 enc not_found (mem_run ops2))) as (H1 & H2 & _ & _ & _ & _ & H7 & _).
  fold r in H1, H2, H7. split.
  - intros id Hid%H2. destruct Hid as [Hh _]. unfold mem_has in Hh. rewrite bool_decide_eq_false in Hh. by rewrite <- eq_None_not_Some in Hh.
  - intros Hk. assert (Ha : pl_asked r = []) by (apply H1; cbn; f_equal; symmetry; by apply C51_same_set_same_digest).
    split; [done|]. destruct (pl_got r) as [|b l] eqn:E; [done|]. destruct (H7 b) as [Hg _].
    destruct Hg as (id & z & Hid & _); [apply elem_of_cons; by left|]. rewrite Ha in Hid. by apply elem_of_nil in Hid.
Qed.
Print Assumptions C81_no_second_fetch_partial.
Example C52_case : (forall s, String.length (sha s) = 40%nat) /\ (forall id b, mem_get id (mem_run there_ops) = Some b -> dec1 (enc1 b) = Some b) /\
  complete_digest sha (mem_run here_ops) <> complete_digest sha (mem_run there_ops) /\
  pull dec1 (fun id => mem_has id (mem_run [Push 5 y])) (complete_digest sha (mem_run [Push 5 y])) (dtnd_neighbour sha enc1 [] (mem_run there_ops))
  = Pulled PSuccess [bid x] [x] 0.
Proof. split; [apply sha_length|]. split; [apply codec1|]. split; [by vm_compute|]. by vm_compute. Qed.
Example C81_case : know_the_same here_ops [Push 5 y] /\
  pull dec1 (fun id => mem_has id (mem_run here_ops)) (complete_digest sha (mem_run here_ops)) (dtnd_neighbour sha enc1 [] (mem_run [Push 5 y]))
  = Pulled PSuccess [] [] 0.
Proof.
  split; [|by vm_compute]. intros id. unfold learnt, here_ops. split; intros (now & b & H & <-); exists now, b; (split; [|done]);
    rewrite !elem_of_cons, elem_of_nil in *; destruct H as [H|H]; auto; by destruct H.
Qed.
