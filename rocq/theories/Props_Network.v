(** C99-C101: what happens to bundles on their way through a network of nodes. *)
From stdpp Require Import prelude strings pretty gmap sorting.
From Coq Require Import NArith Lia ZifyBool ZifyN ZifyNat.
From Verif Require Import Core StoreMem Peers Routing Pipeline PipelineBase PipelineProofs PipelineInv PipelineRun TransferProofs Props_Transfer ReceptionProofs Props_Reception CauseProofs LocalProofs Props_Cause Network NetworkProofs.
Open Scope N_scope.

(** ** Specification *)
(** [made tr j b]: [b] came into being at node [j] in the course of [tr]:
    submitted there, or a status report made there.
    [travelled tr p j n f i]: according to [tr], copies with primary block [p]
    got from node [j] to node [i] by [n] transmissions and [f] downloads. *)
(** no block of an unknown type has the flag "remove if not processed" *)
Definition no_flagged (b : bundle) : Prop :=
  forall x, x ∈ b_blocks b -> 11 <= k_type x -> kf_remove (k_flags x) = false.
(** [n] steps of a relation *)
Inductive way (link : nat -> nat -> Prop) (j : nat) : nat -> nat -> Prop :=
| way_here : way link j 0 j
| way_next n k i : way link j n k -> link k i -> way link j (S n) i.

Lemma no_flagged_clean b : no_flagged b -> clean b.
Proof. intros H. apply Forall_forall. intros x Hx [Ht Hr]. rewrite (H x Hx Ht) in Hr. done. Qed.
Lemma payload_other b b0 : other_blocks b = other_blocks b0 -> payload b = payload b0.
Proof.
  assert (H : forall b, first_block 1 b = head (filter (fun k => k_type k = 1) (other_blocks b))).
  { intros c. unfold first_block, other_blocks. rewrite list_filter_filter. f_equal. apply list_filter_iff. intros x. lia. }
  intros E. unfold payload. by rewrite !H, E.
Qed.

Section props.
Context (node_of : nat -> settings) (parse_record : list N -> option arecord)
        (lifetime_exceeded : N -> bundle -> bool).
Notation net_run := (net_run node_of parse_record lifetime_exceeded).

(** ** C99 *)
(** Whatever is handed to an application anywhere comes from a bundle that was
    made in the network before: the same primary block; if that bundle had no
    block that receivers must drop, the same payload and the same blocks, except
    for previous node, age and hop count.  If bundles that were made differ in
    their ids, the application is the one it is addressed to. *)
Theorem C99_content_partial : forall t1 i t e b r t2 ms,
  net_run (t1 ++ At i (EStep t (LAct (Deliver e b) r)) :: t2) ms ->
  (exists j b0, made t1 j b0 /\ primary b = primary b0 /\
     (no_flagged b0 -> payload b = payload b0 /\ other_blocks b = other_blocks b0)) /\
  ((forall j' b', made t1 j' b' -> bid b' = bid b -> primary b' = primary b) -> e = b_dst b).
Proof.
  intros t1 i t e b r t2 ms H. destruct (delivered_copy _ _ _ _ _ _ _ _ _ _ _ H) as (j & b0 & n & f & [H1 H2 H3 H4] & j' & b' & Hm & Hb & He).
  split.
  - exists j, b0. split; [done|]. split; [done|]. intros Hn. apply no_flagged_clean in Hn. destruct (H4 Hn) as [E _].
    split; [by apply payload_other|done].
  - intros Hu. specialize (Hu _ _ Hm Hb). rewrite He. unfold primary in Hu. congruence.
Qed.

(** ** C100 *)
(** A bundle that arrives by transmission: where it comes from, how it got
    here, and what its hop count says. *)
Theorem C100_hops_partial : forall t1 k i b t2 ms,
  net_run (t1 ++ Arrives k i b :: t2) ms ->
  exists j b0 n f, made t1 j b0 /\ primary b = primary b0 /\
    travelled (t1 ++ [Arrives k i b]) (primary b) j n f i /\ (1 <= n)%nat /\
    (no_flagged b0 -> forall limit count, hop_count b0 = Some (limit, count) -> limit < 255 -> count < 255 ->
       hop_count b = Some (limit, count + N.of_nat n) /\ count + N.of_nat n <= limit).
Proof.
  intros t1 k i b t2 ms H.
  replace (t1 ++ Arrives k i b :: t2) with ((t1 ++ [Arrives k i b]) ++ t2) in H by (by rewrite <- app_assoc).
  destruct (net_app _ _ _ _ _ _ H) as [ms1 H1].
  inversion H1 as [ms0 Hi E|tr ms0 i0 e0 m' Hr _ _ E|tr ms0 j0 i0 b0 m' Hr Hg _ E|tr ms0 j0 b0 Hr _ E|tr ms0 j0 i0 b0 m' Hr _ _ E];
    [by destruct t1|apply app_inj_tail in E as [-> E]; try done..].
  injection E as -> -> ->.
  destruct (arrives_copies _ _ _ _ _ i _ _ Hr (net_copies _ _ _ _ _ Hr) Hg) as (j & b1 & n & f & [K1 K2 K3 K4] & _).
  exists j, b1, (S n), f. split.
  { destruct K1 as (e & Hin & Ho). exists e. split; [|done]. apply elem_of_app in Hin as [Hin|Hin]; [done|].
    by apply elem_of_list_singleton in Hin. }
  split; [done|]. split; [by rewrite K2|]. split; [lia|]. intros Hn l c Eh Hl Hc.
  destruct (K4 (no_flagged_clean _ Hn)) as (_ & _ & K5). destruct (K5 _ _ Eh Hl Hc) as [K6 K7]. split; [done|]. destruct K7 as [?|K7]; [done|]. exact K7.
Qed.
(** Without downloads: if nodes transmit only along [link] (say, radio range),
    a bundle made at the nodes [S] with hop count [(limit, count)] arrives only
    at nodes that are [limit - count] or fewer links away from one of them. *)
Theorem C100_reach_partial : forall tr ms (link : nat -> nat -> Prop) (S : nat -> Prop) p limit count,
  net_run tr ms -> limit < 255 -> count < 255 ->
  (forall k i b, Fetched k i b ∉ tr) ->
  (forall k i b, Arrives k i b ∈ tr -> link k i) ->
  (forall j b0, made tr j b0 -> primary b0 = p -> S j /\ no_flagged b0 /\ hop_count b0 = Some (limit, count)) ->
  forall k i b, Arrives k i b ∈ tr -> primary b = p ->
    exists j n, S j /\ way link j n i /\ count + N.of_nat n <= limit.
Proof.
  intros tr ms link S p limit count H Hl Hc Hf Hlink Hm k i b Hin Hp.
  assert (Hin' := Hin). apply elem_of_list_split in Hin' as (t1 & t2 & E). rewrite E in H.
  destruct (C100_hops_partial _ _ _ _ _ _ H) as (j & b0 & n & f & K1 & K2 & K3 & _ & K4).
  destruct (Hm j b0) as (HS & Hn & Hh); [|congruence|].
  { rewrite E. by apply made_mono. }
  exists j, n. split; [done|]. split; [|by apply (K4 Hn _ _ Hh)].
  replace (t1 ++ Arrives k i b :: t2) with ((t1 ++ [Arrives k i b]) ++ t2) in E by (by rewrite <- app_assoc).
  apply travelled_mono with (t2 := t2) in K3. rewrite <- E in K3. clear - K3 Hf Hlink.
  induction K3 as [|n f k i b' _ IH Hin Hp|n f k i b' _ IH Hin Hp]; [constructor| |by apply Hf in Hin].
  econstructor; [done|]. by eapply Hlink.
Qed.

(** ** C101 *)
(** The previous node block of a bundle that arrives names the node that
    transmitted it. *)
Theorem C101_previous_node_partial : forall tr ms k i b,
  net_run tr ms -> Arrives k i b ∈ tr -> previous_node b = Some (s_host (node_of k)).
Proof.
  intros tr ms k i b H Hin. apply elem_of_list_split in Hin as (t1 & t2 & ->).
  replace (t1 ++ Arrives k i b :: t2) with ((t1 ++ [Arrives k i b]) ++ t2) in H by (by rewrite <- app_assoc).
  destruct (net_app _ _ _ _ _ _ H) as [ms1 H1].
  inversion H1 as [ms0 Hi E|tr ms0 i0 e0 m' Hr _ _ E|tr ms0 j0 i0 b0 m' Hr Hg _ E|tr ms0 j0 b0 Hr _ E|tr ms0 j0 i0 b0 m' Hr _ _ E];
    [by destruct t1|apply app_inj_tail in E as [-> E]; try done..].
  injection E as -> -> ->.
  by destruct (arrives_copies _ _ _ _ _ i _ _ Hr (net_copies _ _ _ _ _ Hr) Hg) as (j & b1 & n & f & _ & Hp).
Qed.
End props.
Print Assumptions C99_content_partial.
Print Assumptions C100_hops_partial.
Print Assumptions C100_reach_partial.
Print Assumptions C101_previous_node_partial.

(** ** Full statements that fail *)
Definition C99_full : Prop :=
  forall node_of parse_record lifetime_exceeded t1 i t e b r t2 ms,
    net_run node_of parse_record lifetime_exceeded (t1 ++ At i (EStep t (LAct (Deliver e b) r)) :: t2) ms ->
    exists j b0, made t1 j b0 /\ primary b = primary b0 /\ payload b = payload b0.
(** every node a bundle gets to is not further away from where it was made than
    its hop limit says *)
Definition C100_full : Prop :=
  forall node_of parse_record lifetime_exceeded tr ms k i b,
    net_run node_of parse_record lifetime_exceeded tr ms -> Arrives k i b ∈ tr \/ Fetched k i b ∈ tr ->
    exists j b0 n f, made tr j b0 /\ primary b = primary b0 /\ travelled tr (primary b) j n f i /\
      (forall limit count, hop_count b0 = Some (limit, count) -> count + N.of_nat n + N.of_nat f <= limit).
(** the same for networks without downloads *)
Definition C100_sent_full : Prop :=
  forall node_of parse_record lifetime_exceeded tr ms k i b,
    net_run node_of parse_record lifetime_exceeded tr ms -> (forall k i b, Fetched k i b ∉ tr) -> Arrives k i b ∈ tr ->
    exists j b0 n f, made tr j b0 /\ primary b = primary b0 /\ travelled tr (primary b) j n f i /\
      (forall limit count, hop_count b0 = Some (limit, count) -> count + N.of_nat n <= limit).
(** ... and without blocks to drop *)
Definition C100_clean_full : Prop :=
  forall node_of parse_record lifetime_exceeded tr ms k i b,
    net_run node_of parse_record lifetime_exceeded tr ms -> (forall k i b, Fetched k i b ∉ tr) ->
    (forall j b0, made tr j b0 -> no_flagged b0) -> Arrives k i b ∈ tr ->
    exists j b0 n f, made tr j b0 /\ primary b = primary b0 /\ travelled tr (primary b) j n f i /\
      (forall limit count, hop_count b0 = Some (limit, count) -> count + N.of_nat n <= limit).
Definition C101_full : Prop :=
  forall node_of parse_record lifetime_exceeded tr ms k i b,
    net_run node_of parse_record lifetime_exceeded tr ms -> Arrives k i b ∈ tr \/ Fetched k i b ∈ tr ->
    previous_node b = Some (s_host (node_of k)).

(** Three nodes in a row; node 0 and 1 pass everything on to their neighbour. *)
Definition name (i : nat) : string := match i with 0%nat => "n0" | 1%nat => "n1" | _ => "n2" end.
Definition row (i : nat) : settings := Settings (Dtn (name i) "") false false.
Definition toward (i : nat) : sender := Sender 0 "10.0.0.9:16162" "mtcp" (Dtn (name (S i)) "").
Definition row_oracle (i : nat) : oracle := Oracle (fun _ => Some ([toward i], false)) (fun _ => true) true 7 [1].
Definition row_start (i : nat) : machine := start_node [Dtn (name i) "in"] 2000000 1000000.
Definition row_go (l : list ninstr) := nscript row (fun _ => None) (fun _ _ => false) row_oracle l [] row_start.
Lemma row_ok l : net_run row (fun _ => None) (fun _ _ => false) (fst (row_go l)) (snd (row_go l)).
Proof. apply nscript_run, net_init. intros i. apply start_initial. Qed.

Definition find_net (f : netev -> bool) (tr : list netev) : option netev := List.find f tr.
Lemma find_net_split f tr e : find_net f tr = Some e -> exists t1 t2, tr = t1 ++ e :: t2.
Proof.
  intros H. unfold find_net in H. apply find_some in H as [H _]. apply elem_of_list_In, elem_of_list_split in H. done.
Qed.
(** the bundles made, the arrivals and the downloads of a run *)
Definition mades (tr : list netev) : list (nat * bundle) :=
  omap (fun e => match e with
                 | At j (EStart (KSubmit b)) => Some (j, b)
                 | At j (EStep _ (LAct (NewReport _ _ _) (Some b))) => Some (j, b)
                 | _ => None
                 end) tr.
Definition moves (tr : list netev) : list (bool * nat * nat * bundle) :=
  omap (fun e => match e with
                 | Arrives k i b => Some (true, k, i, b)
                 | Fetched k i b => Some (false, k, i, b)
                 | _ => None
                 end) tr.
Lemma mades_spec tr j b : made tr j b <-> (j, b) ∈ mades tr.
Proof.
  unfold made, mades. split.
  - intros (e & Hin & He). apply elem_of_list_omap. exists (At j e). split; [done|].
    destruct He as [->|(t & b1 & st & rs & ->)]; done.
  - intros Hin. apply elem_of_list_omap in Hin as (e & Hin & He).
    destruct e as [k e| | |]; try done. exists e. destruct e as [[]| | | | | |t [[]| |]]; try done.
    + injection He as -> ->. split; [done|by left].
    + destruct r; [|done]. injection He as -> ->. split; [done|right; eauto].
Qed.
Lemma arrives_moves tr k i b : Arrives k i b ∈ tr <-> (true, k, i, b) ∈ moves tr.
Proof.
  unfold moves. rewrite elem_of_list_omap. split; [intros H; by exists (Arrives k i b)|].
  intros (e & Hin & He). destruct e; try done. injection He as -> -> ->. done.
Qed.
Lemma fetched_moves tr k i b : Fetched k i b ∈ tr <-> (false, k, i, b) ∈ moves tr.
Proof.
  unfold moves. rewrite elem_of_list_omap. split; [intros H; by exists (Fetched k i b)|].
  intros (e & Hin & He). destruct e; try done. injection He as -> -> ->. done.
Qed.

(** C99: the bundle has three unknown blocks to be dropped; node 1 drops the
    previous node block, the second of them and the payload *)
Definition letter (dst : string) (blocks : list block) := Bundle (BFlags false false false false false false false) (Dtn dst "in") (Dtn "n0" "in") DtnNone 1000 0 500000 0 0 blocks.
Definition unknown (t n : N) := Block t n drop_me (CData [9]).
Definition text := Block 1 1 no_kflags (CData [104; 105]).
Definition hand_over (l : list netev) : option netev :=
  find_net (fun e => match e with At 1 (EStep _ (LAct (Deliver _ _) _)) => true | _ => false end) l.
Definition send01 (b : bundle) : list ninstr := [NStart 0 (KSubmit b); NRun 0 0; NRun 0 1; NSend 0 1; NRun 1 0].
Definition torn := letter "n1" [unknown 192 4; unknown 193 3; unknown 194 2; text].
Definition run99 := row_go (send01 torn).
Theorem C99_full_refuted : ~ C99_full.
Proof.
  intros H.
  destruct (find_net_split (fun e => match e with At 1 (EStep _ (LAct (Deliver _ _) _)) => true | _ => false end) (fst run99)
    (At 1 (EStep 0 (LAct (Deliver (Dtn "n1" "in") (with_blocks torn [unknown 192 4; unknown 194 2])) Queued)))) as (t1 & t2 & E); [by vm_compute|].
  assert (Hr := row_ok (send01 torn)). change (fst (row_go _)) with (fst run99) in Hr. rewrite E in Hr.
  destruct (H _ _ _ _ _ _ _ _ _ _ _ Hr) as (j & b0 & Hm & _ & Hp).
  assert (Hm' : made (fst run99) j b0) by (rewrite E; by apply made_mono).
  apply mades_spec in Hm'. replace (mades (fst run99)) with [(0%nat, torn)] in Hm' by (by vm_compute).
  apply elem_of_list_singleton in Hm'. injection Hm' as -> ->. vm_compute in Hp. done.
Qed.
(** one block to be dropped: node 1 drops the previous node block instead; with
    none, everything is kept and C99_content_partial says all *)
Definition whole := letter "n1" [Block 192 2 no_kflags (CData [9]); text].
Definition run99w := row_go (send01 whole).
Example C99_case : no_flagged whole /\ mades (fst run99w) = [(0%nat, whole)] /\
  hand_over (fst run99w) = Some (At 1 (EStep 0 (LAct (Deliver (Dtn "n1" "in")
    (with_blocks whole [Block 6 3 no_kflags (CPrev (Dtn "n0" "")); Block 192 2 no_kflags (CData [9]); text])) Queued))).
Proof.
  split; [|by vm_compute]. intros x Hx _. cbn in Hx. repeat (apply elem_of_cons in Hx as [->|Hx]; [done|]). by apply elem_of_nil in Hx.
Qed.

(** C100 *)
Definition hops (limit count : N) := Block 10 2 no_kflags (CHop limit count).
(** limit 1: transmitted from 0 to 1, downloaded by 2 from there *)
Definition near := letter "n9" [hops 1 0; text].
Definition run100 := row_go (send01 near ++ [NPull 1 2 (bid near)]).
(** the ways to the last node *)
Lemma way_last tr p j n f i : travelled tr p j n f i ->
  i = j /\ n = 0%nat /\ f = 0%nat \/
  (exists n' k b, n = S n' /\ Arrives k i b ∈ tr /\ travelled tr p j n' f k) \/
  (exists f' k b, f = S f' /\ Fetched k i b ∈ tr /\ travelled tr p j n f' k).
Proof. intros H. inversion H; subst; eauto 12. Qed.
Theorem C100_full_refuted : ~ C100_full.
Proof.
  intros H. assert (Hr := row_ok (send01 near ++ [NPull 1 2 (bid near)])). change (fst (row_go _)) with (fst run100) in Hr.
  assert (Em : moves (fst run100) = [(true, 0%nat, 1%nat, with_blocks near [Block 6 3 no_kflags (CPrev (Dtn "n0" "")); hops 1 1; text]);
    (false, 1%nat, 2%nat, with_blocks near [Block 6 3 no_kflags (CPrev (Dtn "n0" "")); hops 1 1; text])]) by (by vm_compute).
  destruct (H _ _ _ _ _ 1%nat 2%nat (with_blocks near [Block 6 3 no_kflags (CPrev (Dtn "n0" "")); hops 1 1; text]) Hr) as (j & b0 & n & f & Hm & _ & Hw & Hh).
  { right. apply fetched_moves. rewrite Em. right. left. }
  apply mades_spec in Hm. replace (mades (fst run100)) with [(0%nat, near)] in Hm by (by vm_compute).
  apply elem_of_list_singleton in Hm. injection Hm as -> ->. specialize (Hh 1 0 eq_refl).
  assert (Hin : forall k b fl, (fl, k, 2%nat, b) ∈ moves (fst run100) -> fl = false /\ k = 1%nat).
  { rewrite Em. intros k b fl Hx. apply elem_of_cons in Hx as [Hx|Hx]; [discriminate|]. apply elem_of_list_singleton in Hx. injection Hx as -> -> _. split; reflexivity. }
  assert (Hin1 : forall k b fl, (fl, k, 1%nat, b) ∈ moves (fst run100) -> fl = true /\ k = 0%nat).
  { rewrite Em. intros k b fl Hx. apply elem_of_cons in Hx as [Hx|Hx]; [injection Hx as -> -> _; split; reflexivity|]. apply elem_of_list_singleton in Hx. discriminate. }
  clear Em Hr H.
  apply way_last in Hw as [(?&_)|[(n'&k&b&->&Hx&Hw)|(f'&k&b&->&Hx&Hw)]]; [done|apply arrives_moves, Hin in Hx; by destruct Hx|].
  apply fetched_moves, Hin in Hx as [_ ->].
  apply way_last in Hw as [(?&_)|[(n'&k&b'&->&Hx&Hw)|(f''&k&b'&->&Hx&Hw)]]; [done| |apply fetched_moves, Hin1 in Hx; by destruct Hx].
  lia.
Qed.
(** node 1 drops the hop count block *)
Definition loose := letter "n9" [unknown 192 4; hops 1 0; unknown 193 3; text].
Definition run100s := row_go (send01 loose ++ [NRun 1 1; NSend 1 2]).
Lemma moves100s : moves (fst run100s) =
  [(true, 0%nat, 1%nat, with_blocks loose [Block 6 5 no_kflags (CPrev (Dtn "n0" "")); unknown 192 4; hops 1 1; unknown 193 3; text]);
   (true, 1%nat, 2%nat, with_blocks loose [Block 6 5 no_kflags (CPrev (Dtn "n1" "")); unknown 192 4; unknown 193 3; text])].
Proof. by vm_compute. Qed.
Theorem C100_sent_full_refuted : ~ C100_sent_full.
Proof.
  intros H. assert (Hr := row_ok (send01 loose ++ [NRun 1 1; NSend 1 2])). change (fst (row_go _)) with (fst run100s) in Hr.
  destruct (H _ _ _ _ _ 1%nat 2%nat (with_blocks loose [Block 6 5 no_kflags (CPrev (Dtn "n1" "")); unknown 192 4; unknown 193 3; text]) Hr) as (j & b0 & n & f & Hm & _ & Hw & Hh).
  { intros k i b Hx. apply fetched_moves in Hx. rewrite moves100s in Hx. apply elem_of_cons in Hx as [Hx|Hx]; [discriminate|].
    apply elem_of_list_singleton in Hx. discriminate. }
  { apply arrives_moves. rewrite moves100s. right. left. }
  clear Hr H.
  apply mades_spec in Hm. replace (mades (fst run100s)) with [(0%nat, loose)] in Hm by (by vm_compute).
  apply elem_of_list_singleton in Hm. injection Hm as -> ->. specialize (Hh 1 0 eq_refl).
  assert (Hin : forall k b fl, (fl, k, 2%nat, b) ∈ moves (fst run100s) -> fl = true /\ k = 1%nat).
  { rewrite moves100s. intros k b fl Hx. apply elem_of_cons in Hx as [Hx|Hx]; [discriminate|]. apply elem_of_list_singleton in Hx. injection Hx as -> -> _. split; reflexivity. }
  assert (Hin1 : forall k b fl, (fl, k, 1%nat, b) ∈ moves (fst run100s) -> fl = true /\ k = 0%nat).
  { rewrite moves100s. intros k b fl Hx. apply elem_of_cons in Hx as [Hx|Hx]; [injection Hx as -> -> _; split; reflexivity|]. apply elem_of_list_singleton in Hx. discriminate. }
  apply way_last in Hw as [(?&_)|[(n'&k&b&->&Hx&Hw)|(f'&k&b&->&Hx&Hw)]]; [discriminate| |apply fetched_moves, Hin in Hx; destruct Hx; discriminate].
  apply arrives_moves, Hin in Hx as [_ ->].
  apply way_last in Hw as [(?&_)|[(n''&k&b'&->&Hx&Hw)|(f''&k&b'&->&Hx&Hw)]]; [discriminate| |apply fetched_moves, Hin1 in Hx; destruct Hx; discriminate].
  lia.
Qed.
(** the hop count of a bundle with limit 255 starts again at 0 *)
Definition round := letter "n9" [hops 255 255; text].
Definition run100c := row_go (send01 round).
Definition round1 := with_blocks round [Block 6 3 no_kflags (CPrev (Dtn "n0" "")); hops 255 0; text].
Lemma moves100c : moves (fst run100c) = [(true, 0%nat, 1%nat, round1)].
Proof. by vm_compute. Qed.
Theorem C100_clean_full_refuted : ~ C100_clean_full.
Proof.
  intros H. assert (Hr := row_ok (send01 round)). change (fst (row_go _)) with (fst run100c) in Hr.
  assert (Hms : forall j b, made (fst run100c) j b -> j = 0%nat /\ b = round).
  { intros j b Hm. apply mades_spec in Hm. replace (mades (fst run100c)) with [(0%nat, round)] in Hm by (by vm_compute).
    apply elem_of_list_singleton in Hm. injection Hm as -> ->. split; reflexivity. }
  destruct (H _ _ _ _ _ 0%nat 1%nat round1 Hr) as (j & b0 & n & f & Hm & _ & Hw & Hh).
  { intros k i b Hx. apply fetched_moves in Hx. rewrite moves100c in Hx. apply elem_of_list_singleton in Hx. discriminate. }
  { intros j b Hm. apply Hms in Hm as [_ ->]. intros x Hx _. cbn in Hx. repeat (apply elem_of_cons in Hx as [->|Hx]; [reflexivity|]). by apply elem_of_nil in Hx. }
  { apply arrives_moves. rewrite moves100c. left. }
  clear Hr H. apply Hms in Hm as [-> ->]. specialize (Hh 255 255 eq_refl).
  apply way_last in Hw as [(?&_)|[(n'&k&b&->&Hx&Hw)|(f'&k&b&->&Hx&Hw)]]; [discriminate|lia|].
  apply fetched_moves in Hx. rewrite moves100c in Hx. apply elem_of_list_singleton in Hx. discriminate.
Qed.
(** limit 2: two transmissions, with the count in the bundle; limit 1: node 1
    does not transmit it *)
Definition far := letter "n9" [hops 2 0; text].
Definition run100f := row_go (send01 far ++ [NRun 1 1; NSend 1 2]).
Example C100_case : no_flagged far /\ hop_count far = Some (2, 0) /\ mades (fst run100f) = [(0%nat, far)] /\
  map (fun x => match x with (fl, k, i, b) => (fl, k, i, hop_count b, primary b) end) (moves (fst run100f)) =
    [(true, 0%nat, 1%nat, Some (2, 1), primary far); (true, 1%nat, 2%nat, Some (2, 2), primary far)].
Proof.
  split; [|by vm_compute]. intros x Hx _. cbn in Hx. repeat (apply elem_of_cons in Hx as [->|Hx]; [reflexivity|]). by apply elem_of_nil in Hx.
Qed.
Example C100_case_stop : length (moves (fst (row_go (send01 near ++ [NRun 1 1; NSend 1 2])))) = 1%nat.
Proof. by vm_compute. Qed.

(** C101: a downloaded copy names the node before the one it comes from *)
Theorem C101_full_refuted : ~ C101_full.
Proof.
  intros H. assert (Hr := row_ok (send01 near ++ [NPull 1 2 (bid near)])). change (fst (row_go _)) with (fst run100) in Hr.
  specialize (H _ _ _ _ _ 1%nat 2%nat (with_blocks near [Block 6 3 no_kflags (CPrev (Dtn "n0" "")); hops 1 1; text]) Hr).
  discriminate H. right. apply fetched_moves.
  replace (moves (fst run100)) with [(true, 0%nat, 1%nat, with_blocks near [Block 6 3 no_kflags (CPrev (Dtn "n0" "")); hops 1 1; text]);
    (false, 1%nat, 2%nat, with_blocks near [Block 6 3 no_kflags (CPrev (Dtn "n0" "")); hops 1 1; text])] by (by vm_compute).
  right. left.
Qed.
Example C101_case : map (fun x => match x with (fl, k, i, b) => (k, previous_node b) end) (moves (fst run100f)) =
  [(0%nat, Some (s_host (row 0))); (1%nat, Some (s_host (row 1)))].
Proof. by vm_compute. Qed.
Print Assumptions C99_full_refuted.
Print Assumptions C100_full_refuted.
Print Assumptions C100_sent_full_refuted.
Print Assumptions C100_clean_full_refuted.
Print Assumptions C101_full_refuted.
