(** C33, C34, C35: what the node hands to its convergence layers. *)
From stdpp Require Import prelude strings pretty gmap sorting.
From Coq Require Import NArith Lia ZifyBool ZifyN ZifyNat.
From Verif Require Import Core StoreMem Peers Routing Pipeline PipelineBase PipelineProofs PipelineInv PipelineRun TransferProofs.
Open Scope N_scope.

(** ** Specification *)
(** the first block of a type, and what it says *)
Definition first_block (t : N) (b : bundle) : option block :=
  head (filter (fun k => k_type k = t) (b_blocks b)).
Definition hop_count (b : bundle) : option (N * N) :=    (* limit, count *)
  first_block 10 b ≫= fun k => match k_data k with CHop limit count => Some (limit, count) | _ => None end.
Definition age (b : bundle) : option N :=
  first_block 7 b ≫= fun k => match k_data k with CAge a => Some a | _ => None end.
Definition previous_node (b : bundle) : option eid :=
  first_block 6 b ≫= fun k => match k_data k with CPrev e => Some e | _ => None end.
(** everything outside the canonical blocks *)
Definition primary (b : bundle) := (b_flags b, b_dst b, b_src b, b_rpt b, (b_time b, b_seq b, b_life b, b_off b, b_total b)).
(** the blocks that are none of previous node, bundle age and hop count *)
Definition other_blocks (b : bundle) : list block :=
  filter (fun k => k_type k <> 6 /\ k_type k <> 7 /\ k_type k <> 10) (b_blocks b).

Lemma first_block_find t b : first_block t b = block_by_type t b.
Proof.
  unfold first_block, block_by_type. induction (b_blocks b) as [|k l IH]; [done|].
  rewrite filter_cons. cbn [List.find]. destruct (decide (k_type k = t)) as [E|E].
  - rewrite (proj2 (N.eqb_eq _ _) E). done.
  - rewrite (proj2 (N.eqb_neq _ _) E). done.
Qed.
Lemma hop_count_of b : hop_count b = hop_of b.
Proof. unfold hop_count, hop_of. rewrite first_block_find. change 10 with HOP_COUNT_BLOCK. by destruct (block_by_type _ b) as [[? ? ? []]|]. Qed.
Lemma age_age_of b : age b = age_of b.
Proof. unfold age, age_of. rewrite first_block_find. change 7 with BUNDLE_AGE_BLOCK. by destruct (block_by_type _ b) as [[? ? ? []]|]. Qed.
Lemma previous_node_of b : previous_node b = prev_of b.
Proof. unfold previous_node, prev_of. rewrite first_block_find. change 6 with PREVIOUS_NODE_BLOCK. by destruct (block_by_type _ b) as [[? ? ? []]|]. Qed.
Lemma other_ext b : other_blocks b = filter (fun k => ~ ext k) (b_blocks b).
Proof.
  unfold other_blocks. apply list_filter_iff. intros k. unfold ext, PREVIOUS_NODE_BLOCK, BUNDLE_AGE_BLOCK, HOP_COUNT_BLOCK. tauto.
Qed.

Section statements.
Context (host : eid) (gen_reports parallel : bool) (parse_record : list N -> option arecord)
        (lifetime_exceeded : N -> bundle -> bool).
Notation run := (run host gen_reports parallel parse_record lifetime_exceeded).
Notation passes := (passes host gen_reports parallel parse_record lifetime_exceeded).
(** [transmits before i b stored]: task [i] hands [b] to a convergence layer
    after the events [before]; the copy it took from the store was [stored], and
    the store held it at that time.  It reads no other copy in between. *)
Definition took (before : list event) (i : nat) (b stored : bundle) (m0 : machine) (since : list event) : Prop :=
  exists ta, before = ta ++ EStep i (LAct (SGet (bid b)) (Some stored)) :: since /\
    run ta m0 /\ m_bundles (n_store (m_node m0)) !! bid b = Some stored /\
    forall id r, LAct (SGet id) r ∉ did i since.

Lemma took_intro t1 i s b r t2 m :
  run (t1 ++ EStep i (LAct (Transfer s b) r) :: t2) m ->
  exists stored m0 tb b1 b2 la hs nodes, took t1 i b stored m0 tb /\
    did i tb = LAct (LifetimeOver stored) false :: la ++ hs /\
    hop_stage stored = Some b1 /\ prev_stage host b1 = Some b2 /\ age_stage b2 la b /\
    same_primary b stored /\ Forall (sub (bid b) b nodes) hs.
Proof.
  intros H. destruct (transfer_reads _ _ _ _ _ _ _ _ _ _ _ _ H)
    as (ta & tb & m0 & stored & b1 & b2 & la & hs & nodes & -> & H1 & H2 & H3 & H4 & H5 & H6 & H7 & H8).
  exists stored, m0, tb, b1, b2, la, hs, nodes. split; [|done].
  exists ta. split; [done|]. split; [done|]. split; [done|].
  intros id x Hin. rewrite H3 in Hin. apply elem_of_cons in Hin as [?|Hin]; [done|].
  apply elem_of_app in Hin as [Hin|Hin].
  - by eapply age_no_get.
  - by apply (Forall_forall (sub (bid b) b nodes) hs) in Hin.
Qed.

(** ** C33 *)
Theorem C33_hop_limit t1 i s b r t2 m :
  run (t1 ++ EStep i (LAct (Transfer s b) r) :: t2) m ->
  exists stored m0 since, took t1 i b stored m0 since /\
    match hop_count stored with
    | Some (limit, count) => count < 255 -> hop_count b = Some (limit, count + 1) /\ count + 1 <= limit
    | None => hop_count b = None
    end.
Proof.
  intros H. destruct (took_intro _ _ _ _ _ _ _ H) as (stored & m0 & tb & b1 & b2 & la & hs & nodes & Ht & _ & H1 & H2 & H3 & _ & _).
  exists stored, m0, tb. split; [done|]. rewrite !hop_count_of.
  assert (E : hop_of b = hop_of b1).
  { unfold hop_of. rewrite (age_other HOP_COUNT_BLOCK _ _ _ H3), (prev_other host HOP_COUNT_BLOCK _ _ H2) by done. done. }
  rewrite E. apply hop_result in H1. destruct (hop_of stored) as [[l c]|]; [|done].
  intros Hc. rewrite N.mod_small in H1 by lia. done.
Qed.

(** ** C34 *)
Theorem C34_previous_node_and_rest t1 i s b r t2 m :
  run (t1 ++ EStep i (LAct (Transfer s b) r) :: t2) m ->
  exists stored m0 since, took t1 i b stored m0 since /\
    previous_node b = Some host /\
    primary b = primary stored /\
    other_blocks b = other_blocks stored /\
    (* types, numbers and flags of all blocks are kept; at most one block is new *)
    (map (fun k => (k_type k, k_num k, k_flags k)) (b_blocks b) =
       map (fun k => (k_type k, k_num k, k_flags k)) (b_blocks stored) \/
     first_block 6 stored = None /\
     exists n, n ∉ map k_num (b_blocks stored) /\
       map (fun k => (k_type k, k_num k, k_flags k)) (b_blocks b) =
       (6, n, KFlags false false false false) :: map (fun k => (k_type k, k_num k, k_flags k)) (b_blocks stored)).
Proof.
  intros H. destruct (took_intro _ _ _ _ _ _ _ H) as (stored & m0 & tb & b1 & b2 & la & hs & nodes & Ht & _ & H1 & H2 & H3 & Hp & _).
  exists stored, m0, tb. split; [done|].
  split.
  { rewrite previous_node_of. unfold prev_of. rewrite (age_other PREVIOUS_NODE_BLOCK _ _ _ H3) by done. by eapply prev_result. }
  split. { unfold same_primary in Hp. unfold primary. injection Hp as -> -> -> -> -> -> -> -> ->. done. }
  destruct (hop_blocks _ _ H1) as [F1 G1]. destruct (prev_blocks _ _ _ H2) as [F2 G2]. destruct (age_blocks _ _ _ H3) as [F3 G3].
  split. { rewrite !other_ext. congruence. }
  fold header. change (fun k => (k_type k, k_num k, k_flags k)) with header. rewrite G3.
  destruct G2 as [G2|(Gn & n & G2 & G4)]; [left; congruence|]. right.
  split. { rewrite first_block_find. change 6 with PREVIOUS_NODE_BLOCK. by rewrite <- (hop_other PREVIOUS_NODE_BLOCK _ _ H1). }
  exists n. split; [|rewrite G2, G1; done]. rewrite header_num in *. congruence.
Qed.

(** ** C35 *)
(** The lifetime check is made on the copy that was taken, and it said the
    lifetime is not exceeded. *)
Theorem C35_lifetime_checked t1 i s b r t2 m :
  run (t1 ++ EStep i (LAct (Transfer s b) r) :: t2) m ->
  exists stored m0 since ta tb, took t1 i b stored m0 since /\
    primary b = primary stored /\
    since = ta ++ EStep i (LAct (LifetimeOver stored) false) :: tb /\
    exists t0, t1 = t0 ++ EStep i (LAct (LifetimeOver stored) false) :: tb /\
      forall mc, passes (t1 ++ EStep i (LAct (Transfer s b) r) :: t2) m t0 mc -> lifetime_exceeded (n_dtn (m_node mc)) stored = false.
Proof.
  intros H. destruct (took_intro _ _ _ _ _ _ _ H) as (stored & m0 & since & b1 & b2 & la & hs & nodes & Ht & Hd & H1 & H2 & H3 & Hp & _).
  destruct (did_split i since [] _ _ Hd) as (ta & tb & Hs & _ & _).
  exists stored, m0, since, ta, tb. split; [done|].
  split. { unfold same_primary in Hp. unfold primary. injection Hp as -> -> -> -> -> -> -> -> ->. done. }
  split; [done|].
  destruct Ht as (t0 & E & _).
  assert (Et : t1 = (t0 ++ EStep i (LAct (SGet (bid b)) (Some stored)) :: ta) ++ EStep i (LAct (LifetimeOver stored) false) :: tb).
  { subst. by rewrite <- app_assoc. }
  clear E. subst t1. rewrite <- (app_assoc (t0 ++ _)) in H. cbn in H.
  eexists. split; [done|]. intros mc Hc. rewrite <- (app_assoc (t0 ++ _)) in Hc. cbn in Hc.
  apply passes_access in Hc as (_ & m2 & Ha & _). by symmetry.
Qed.
(** The age of a transmitted bundle: that of the copy plus the time between the
    recorded reception and a clock reading of this attempt (in milliseconds, no
    overflow of 64 bits). *)
Theorem C35_age_grows t1 i s b r t2 m :
  run (t1 ++ EStep i (LAct (Transfer s b) r) :: t2) m ->
  exists stored m0 since, took t1 i b stored m0 since /\
    match age stored with
    | None => age b = None
    | Some a =>
        exists meta now,
          (exists ta tb, since = ta ++ tb /\ LAct Clock now ∈ did i tb /\
             exists t0, t1 = t0 ++ tb /\
             forall mc, passes (t1 ++ EStep i (LAct (Transfer s b) r) :: t2) m t0 mc ->
               m_meta (n_store (m_node mc)) !! bid b = Some meta) /\
          p_recv meta <= now /\
          (now < 2^64 -> a + (now - p_recv meta) < 2^64 ->
           age b = Some (a + (now - p_recv meta)) /\
           (0 < a + (now - p_recv meta) -> a + (now - p_recv meta) < 1000 * b_life b))
    end.
Proof.
  intros H. destruct (took_intro _ _ _ _ _ _ _ H) as (stored & m0 & since & b1 & b2 & la & hs & nodes & Ht & Hd & H1 & H2 & H3 & Hp & _).
  exists stored, m0, since. split; [done|]. rewrite !age_age_of.
  assert (E : age_of b2 = age_of stored).
  { unfold age_of. rewrite (prev_other host BUNDLE_AGE_BLOCK _ _ H2), (hop_other BUNDLE_AGE_BLOCK _ _ H1) by done. done. }
  assert (Hl : b_life b2 = b_life b).
  { apply age_primary in H3. unfold same_primary in H3. by injection H3. }
  assert (Hid : bid b2 = bid b).
  { symmetry. apply same_primary_bid. by eapply age_primary. }
  apply age_result in H3. rewrite E in H3. rewrite Hid, Hl in H3. destruct (age_of stored) as [a|]; [|done].
  assert (Hmeta : forall om rest, did i since = LAct (LifetimeOver stored) false :: LAct (SMeta (bid b)) om :: rest ->
    exists ta tb t0, since = ta ++ EStep i (LAct (SMeta (bid b)) om) :: tb /\ did i tb = rest /\
      t1 = t0 ++ EStep i (LAct (SMeta (bid b)) om) :: tb /\ is_Some om /\
      forall mc, passes (t1 ++ EStep i (LAct (Transfer s b) r) :: t2) m t0 mc -> om = m_meta (n_store (m_node mc)) !! bid b).
  { intros om rest Hdi. destruct (did_split i since [_] _ _ Hdi) as (ta & tb & Hs & _ & Htb).
    destruct Ht as (t0 & E0 & _).
    assert (Et : t1 = (t0 ++ EStep i (LAct (SGet (bid b)) (Some stored)) :: ta) ++ EStep i (LAct (SMeta (bid b)) om) :: tb).
    { subst. by rewrite <- app_assoc. }
    clear E0. assert (H0 := H). rewrite Et in H. rewrite <- (app_assoc (t0 ++ _)) in H. cbn in H.
    assert (Hsome : is_Some om).
    { assert (H' := H). rewrite <- app_assoc in H'. cbn in H'. by eapply get_then_meta. }
    eexists ta, tb, _. split; [done|]. split; [done|]. split; [exact Et|]. split; [done|]. intros mc Hc.
    rewrite Et in Hc. rewrite <- (app_assoc (t0 ++ _)) in Hc. cbn in Hc. apply passes_access in Hc as (_ & m2 & Ha & _). exact Ha. }
  destruct H3 as [->|(meta & now & -> & H3)].
  { destruct (Hmeta None _ Hd) as (? & ? & ? & _ & _ & _ & [? Hs] & _). done. }
  destruct (Hmeta (Some meta) _ Hd) as (ta & tb & t0 & Hs & Htb & Ht1 & _ & Hlook).
  assert (Hle : p_recv meta <= now).
  { clear Hlook. subst t1. rewrite <- app_assoc in H. cbn in H.
    destruct (did_split i tb [] _ _ Htb) as (tc & td & -> & _ & _).
    rewrite <- app_assoc in H. cbn in H.
    rewrite app_comm_cons, app_assoc in H.
    destruct (run_access _ _ _ _ _ _ _ _ _ _ _ H) as (mx & _ & Hx & [-> _] & _).
    assert (Hi := run_inv _ _ _ _ _ _ _ Hx). eapply (iv_read _ _ Hi i (bid b)). apply elem_of_app. right. left. }
  exists meta, now. split; [|split; [done|]].
  - exists ta, (EStep i (LAct (SMeta (bid b)) (Some meta)) :: tb). split; [done|]. split.
    + change (_ :: tb) with ([EStep i (LAct (SMeta (bid b)) (Some meta))] ++ tb). rewrite did_app, Htb.
      apply elem_of_app. right. left.
    + exists t0. split; [done|]. intros mc Hmc. symmetry. by apply Hlook.
  - intros Hn Ho. destruct (H3 Hle Hn Ho) as [H4 H5]. split; [done|]. intros. destruct H5; lia.
Qed.
End statements.

(** The last part of C35 in full: a bundle whose age has reached its lifetime is
    not transmitted. *)
Definition C35_full : Prop :=
  forall host gen_reports parallel parse_record lifetime_exceeded t1 i s b r t2 m a,
    run host gen_reports parallel parse_record lifetime_exceeded (t1 ++ EStep i (LAct (Transfer s b) r) :: t2) m ->
    age b = Some a -> a < b_life b.

(** *** Cases *)
Definition me := Dtn "n1" "".
Definition far := Dtn "n9" "in".
Definition peer2 := Sender 0 "10.0.0.2:16162" "mtcp" (Dtn "n2" "").
Definition oracle1 : oracle := Oracle (fun _ => Some ([peer2], false)) (fun _ => true) true 1 [].
Definition flags0 := BFlags false false false false false false false.
Definition over (now : N) (b : bundle) : bool := b_time b + b_life b <=? now.
(** 5 s old (age block), lifetime 1 s, hop count 3 of 10 *)
Definition old_bundle :=
  Bundle flags0 far (Dtn "n5" "out") DtnNone 1000000 0 1000 0 0
    [Block 10 4 no_kflags (CHop 10 3); Block 7 3 no_kflags (CAge 5000); Block 1 1 no_kflags (CData [104; 105])].
Definition run1 := script me false false (fun _ => None) over oracle1
  [DoStart (KReceive old_bundle); DoRun 0; DoEnv (ETime 2000200 1000200); DoRun 1]
  (start_node [] 2000000 1000000).
Definition sent_bundle :=
  Bundle flags0 far (Dtn "n5" "out") DtnNone 1000000 0 1000 0 0
    [Block 6 5 no_kflags (CPrev me); Block 10 4 no_kflags (CHop 10 4);
     Block 7 3 no_kflags (CAge 5200); Block 1 1 no_kflags (CData [104; 105])].
Lemma run1_ok : run me false false (fun _ => None) over (fst run1) (snd run1).
Proof. apply script_run, start_initial. Qed.
Lemma run1_split : exists t1 t2, fst run1 = t1 ++ EStep 1 (LAct (Transfer peer2 sent_bundle) true) :: t2.
Proof. apply (find_ev_split is_transfer). vm_compute. reflexivity. Qed.
Example C33_case : hop_count old_bundle = Some (10, 3) /\ hop_count sent_bundle = Some (10, 4) /\
  previous_node sent_bundle = Some me /\ age sent_bundle = Some (5000 + 200).
Proof. vm_compute. done. Qed.

Theorem C35_full_refuted : ~ C35_full.
Proof.
  intros H. destruct run1_split as (t1 & t2 & E). pose proof run1_ok as Hr. rewrite E in Hr.
  specialize (H _ _ _ _ _ _ _ _ _ _ _ _ 5200 Hr eq_refl). vm_compute in H. discriminate.
Qed.
(** What holds: the age in milliseconds is compared with a thousand times the
    lifetime in milliseconds. *)
Theorem C35_age_limit_partial host gen_reports parallel parse_record lifetime_exceeded t1 i s b r t2 m :
  run host gen_reports parallel parse_record lifetime_exceeded (t1 ++ EStep i (LAct (Transfer s b) r) :: t2) m ->
  exists stored m0 since, took host gen_reports parallel parse_record lifetime_exceeded t1 i b stored m0 since /\
    forall a, age stored = Some a -> exists meta now,
      (exists ta tb, since = ta ++ tb /\ LAct Clock now ∈ did i tb /\
         exists t0, t1 = t0 ++ tb /\
         forall mc, passes host gen_reports parallel parse_record lifetime_exceeded (t1 ++ EStep i (LAct (Transfer s b) r) :: t2) m t0 mc ->
           m_meta (n_store (m_node mc)) !! bid b = Some meta) /\
      p_recv meta <= now /\
      (now < 2^64 -> a + (now - p_recv meta) < 2^64 -> 0 < a + (now - p_recv meta) ->
       a + (now - p_recv meta) < 1000 * b_life b).
Proof.
  intros H. destruct (C35_age_grows _ _ _ _ _ _ _ _ _ _ _ _ H) as (stored & m0 & since & Ht & Ha).
  exists stored, m0, since. split; [done|]. intros a E. rewrite E in Ha.
  destruct Ha as (meta & now & Hm & Hle & Hx). exists meta, now. split; [done|]. split; [done|].
  intros H1 H2 H3. by apply (Hx H1 H2).
Qed.

Print Assumptions C33_hop_limit.
Print Assumptions C34_previous_node_and_rest.
Print Assumptions C35_lifetime_checked.
Print Assumptions C35_age_grows.
Print Assumptions C35_full_refuted.
Print Assumptions C35_age_limit_partial.
