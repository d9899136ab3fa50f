(** Properties of dtnping: C121 *)
From stdpp Require Import prelude strings pretty gmap.
From Coq Require Import NArith ZArith Lia ZifyBool ZifyN ZifyNat.
From Verif Require Import Core Apps Httpd Tools EchoPing.
Open Scope N_scope.

(** ** C121 *)
(** dtnping has read exactly the messages of [l] when it ends, [p] being its counts *)
Definition ended (count : Z) (src dst : string) (l : list (list N * ping_in)) (p : ping) (code : N) : Prop :=
  ping_loop count src dst l ping0 = PDone p code /\
  forall l', l' `prefix_of` l -> l' <> l -> exists p', ping_loop count src dst l' ping0 = PGo p'.
(** the bundles it was shown *)
Definition shown_to (l : list (list N * ping_in)) : list recv_data :=
  flat_map (fun x => match snd x with PMsg (OData _ r) => [r] | _ => [] end) l.
Global Instance ping_in_dec : forall x : ping_in, Decision (x = PTimeout).
Proof. intros [o|]; [right; discriminate|by left]. Defined.
(** the times it waited in vain *)
Definition waits (l : list (list N * ping_in)) : nat := length (filter (fun x => snd x = PTimeout) l).

(** *** proofs *)
Definition turn (count : Z) (src dst : string) (x : list N * ping_in) (p : ping) : option ping :=
  match ping_send count src dst (fst x) p with Some p1 => ping_read (snd x) p1 | None => None end.
Fixpoint turns (count : Z) (src dst : string) (l : list (list N * ping_in)) (p : ping) : option ping :=
  match l with [] => Some p | x :: l => match turn count src dst x p with Some p1 => turns count src dst l p1 | None => None end end.
Section proofs.
Context (count : Z) (src dst : string).
Lemma loop_turns l p q code : ping_loop count src dst l p = PDone q code ->
  (forall l', l' `prefix_of` l -> l' <> l -> exists p', ping_loop count src dst l' p = PGo p') ->
  turns count src dst l p = Some q /\ ping_send count src dst [] q = None /\ code = ping_exit count q.
Proof.
  revert p. induction l as [|[pl i] l IH]; intros p H Hp; cbn [ping_loop] in H.
  - destruct (ping_send count src dst [] p) eqn:E; [discriminate|]. injection H as <- <-. by split.
  - cbn [turns turn fst snd]. assert (N : exists p0, ping_send count src dst [] p = Some p0).
    { destruct (Hp [] (prefix_nil _) ltac:(discriminate)) as [p' Hp']. cbn in Hp'. destruct (ping_send count src dst [] p); [eauto|discriminate]. }
    unfold turn. cbn [fst snd]. destruct (ping_send count src dst pl p) as [p1|] eqn:E.
    + destruct (ping_read i p1) as [p2|] eqn:Er; [|discriminate]. apply IH; [done|]. intros l' Hl Hne.
      destruct (Hp ((pl, i) :: l')) as [p' Hp']; [by apply prefix_cons|congruence|]. cbn [ping_loop] in Hp'. rewrite E, Er in Hp'. eauto.
    + exfalso. destruct N as [p0 N]. unfold ping_send in *. destruct (pg_ready p); [|discriminate]. destruct ((0 <? count)%Z && (pg_seq p =? Z.to_N count)); discriminate.
Qed.
Definition busy (p : ping) : nat := if pg_ready p then 0 else 1.
Definition inv (p : ping) : Prop := N.of_nat (length (pg_sent p)) = pg_seq p /\ Forall (fun s => sd_src s = src /\ sd_dst s = dst) (pg_sent p).
Lemma turn_counts x p q : turn count src dst x p = Some q -> inv p ->
  inv q /\ pg_ok q = pg_ok p + N.of_nat (length (shown_to [x])) /\
  (length (shown_to [x]) + waits [x] + busy q + length (pg_sent p) = busy p + length (pg_sent q))%nat.
Proof.
  intros H [I1 I2]. unfold turn in H. destruct (ping_send count src dst (fst x) p) as [p1|] eqn:E; [|discriminate].
  assert (P : inv p1 /\ pg_ok p1 = pg_ok p /\ busy p1 = 1%nat /\ (length (pg_sent p1) + busy p = S (length (pg_sent p)))%nat).
  { unfold ping_send in E. unfold inv, busy. destruct (pg_ready p) eqn:R.
    - destruct (_ && _); [discriminate|]. injection E as <-. cbn. rewrite app_length. cbn. split; [split; [lia|]|split; [done|split; [done|lia]]].
      apply Forall_app. split; [done|]. constructor; [done|constructor].
    - injection E as <-. rewrite R. split; [done|]. split; [done|]. split; [done|lia]. }
  destruct P as ((J1 & J2) & P1 & P2 & P3). destruct x as [pl i]. unfold waits, shown_to. cbn [flat_map snd fst] in *. rewrite filter_cons, filter_nil. cbn [snd].
  destruct i as [[t|b|[] r|]|]; cbn [ping_read] in H; try discriminate; injection H as <-; unfold inv; cbn;
    (destruct (decide _) as [D|D]; try discriminate D; try (by destruct D)); cbn; split_and!; try done; try lia.
Qed.
Lemma turns_counts l p q : turns count src dst l p = Some q -> inv p ->
  inv q /\ pg_ok q = pg_ok p + N.of_nat (length (shown_to l)) /\
  (length (shown_to l) + waits l + busy q + length (pg_sent p) = busy p + length (pg_sent q))%nat.
Proof.
  revert p. induction l as [|x l IH]; intros p H I; cbn [turns] in H.
  - injection H as <-. unfold waits, shown_to. cbn. split; [done|]. lia.
  - destruct (turn count src dst x p) as [p1|] eqn:E; [|discriminate]. destruct (turn_counts x p p1 E I) as (I1 & E1 & E2).
    destruct (IH p1 H I1) as (I2 & E3 & E4). split; [done|].
    assert (S1 : length (shown_to (x :: l)) = (length (shown_to [x]) + length (shown_to l))%nat) by (unfold shown_to; cbn [flat_map]; rewrite !app_length; cbn; lia).
    assert (S2 : waits (x :: l) = (waits [x] + waits l)%nat) by (unfold waits; change (x :: l) with ([x] ++ l); by rewrite filter_app, app_length).
    rewrite S1, S2. lia.
Qed.
End proofs.
Lemma waits_none l : waits l = 0%nat <-> forall x, x ∈ l -> snd x <> PTimeout.
Proof.
  unfold waits. induction l as [|x l IH]; [split; [by intros _ y Hy%elem_of_nil|done]|]. rewrite filter_cons. destruct (decide (snd x = PTimeout)) as [D|D]; cbn.
  - split; [discriminate|]. intros H. by destruct (H x (elem_of_list_here _ _)).
  - rewrite IH. split; intros H y.
    + intros [->|Hy]%elem_of_cons; [done|by apply H].
    + intros Hy. apply H. by apply elem_of_list_further.
Qed.

(** dtnping told to send a number of pings ends only after it has sent this many,
    all to the destination; its exit code is 0 exactly if it never waited in vain, and
    1 otherwise; without a number (or with one that is not positive) it never ends. *)
Theorem C121_exit : forall count src dst,
  (forall l p code, ended count src dst l p code ->
     Z.of_nat (length (pg_sent p)) = count /\ Forall (fun s => sd_dst s = dst) (pg_sent p) /\
     length (pg_sent p) = (length (shown_to l) + waits l)%nat /\
     (code = 0 \/ code = 1) /\ (code = 0 <-> forall x, x ∈ l -> snd x <> PTimeout)) /\
  ((count <= 0)%Z -> forall l p code, ping_loop count src dst l ping0 <> PDone p code).
Proof.
  intros count src dst. split.
  - intros l p code [H Hp]. destruct (loop_turns count src dst l ping0 p code H Hp) as (Ht & Hs & ->).
    destruct (turns_counts count src dst l ping0 p Ht) as ((I1 & I2) & E1 & E2); [split; [done|constructor]|]. cbn in E1, E2.
    unfold ping_send in Hs. destruct (pg_ready p) eqn:R; [|discriminate]. destruct ((0 <? count)%Z && (pg_seq p =? Z.to_N count)) eqn:C; [|discriminate].
    unfold busy in E2. rewrite R in E2. split; [lia|]. split; [eapply Forall_impl; [exact I2|]; by intros s [_ ?]|]. split; [lia|].
    rewrite <- waits_none. unfold ping_exit. destruct (Z.of_N (pg_ok p) <? count)%Z eqn:L; lia.
  - intros Hc l p code. assert (S : forall pl q, exists q', ping_send count src dst pl q = Some q').
    { intros pl q. unfold ping_send. destruct (pg_ready q); [|eauto]. replace (0 <? count)%Z with false by lia. cbn. eauto. }
    generalize ping0. induction l as [|[pl i] l IH]; intros q; cbn.
    + by destruct (S [] q) as [q' ->].
    + destruct (S pl q) as [q' ->]. destruct (ping_read i q') as [q2|]; [apply IH|done].
Qed.
Print Assumptions C121_exit.

(** Exit code 0 tells that every ping was answered: from the destination came a
    bundle with the content of the ping. *)
Definition C121_full : Prop := forall count src dst l p, ended count src dst l p 0 ->
  forall s, s ∈ pg_sent p -> exists r, r ∈ shown_to l /\ rd_src r = dst /\ rd_data r = sd_data s.
(** It does when all bundles that come are answers, each to another ping. *)
Theorem C121_answered_partial : forall count src dst l p, ended count src dst l p 0 ->
  (forall r, r ∈ shown_to l -> rd_src r = dst) -> map rd_data (shown_to l) ⊆+ map sd_data (pg_sent p) ->
  forall s, s ∈ pg_sent p -> exists r, r ∈ shown_to l /\ rd_src r = dst /\ rd_data r = sd_data s.
Proof.
  intros count src dst l p H Hd Hs s Hin. destruct (proj1 (C121_exit count src dst) _ _ _ H) as (_ & _ & E & _ & C).
  assert (D : waits l = 0%nat) by (apply waits_none; by apply C).
  apply submseteq_Permutation_length_eq in Hs; [|rewrite !map_length; lia].
  assert (M : sd_data s ∈ map rd_data (shown_to l)) by (rewrite Hs; by apply elem_of_list_fmap_1).
  apply elem_of_list_fmap in M as (r & E' & Hr). exists r. split; [done|]. split; [by apply Hd|done].
Qed.
Print Assumptions C121_answered_partial.
(** dtnping takes any bundle that reaches its endpoint for the answer to the ping
    last sent: one ping to dtn://m/echo, a bundle of somebody else comes, exit code 0. *)
Definition foreign : recv_data := RecvData "dtn://k/a-1-0" "dtn://k/a" "dtn://n/ping" 1 0 1000 [9].
Theorem C121_full_refuted : ~ C121_full.
Proof.
  intros H. destruct (H 1%Z "dtn://n/ping" "dtn://m/echo" [([7], PMsg (OData FCbor foreign))] (Ping true 1 1 [SendData "dtn://n/ping" "dtn://m/echo" false 86400000 [7]])) with (s := SendData "dtn://n/ping" "dtn://m/echo" false 86400000 [7]) as (r & Hr & Hs & _).
  - split; [reflexivity|]. intros l' Hp Hne. destruct l' as [|x l']; [eexists; reflexivity|]. destruct Hp as [k Hk]. injection Hk as Hx Hk. symmetry in Hk. apply app_eq_nil in Hk as [-> _]. by subst x.
  - apply elem_of_list_here.
  - cbn in Hr. apply elem_of_list_singleton in Hr as ->. discriminate Hs.
Qed.
Print Assumptions C121_full_refuted.
(** two pings, the first answered, the second not: exit code 1; both answered: 0 *)
Definition answer (k : N) : recv_data := RecvData "dtn://m/echo-1-0" "dtn://m/echo" "dtn://n/ping" 1 0 1000 [k].
Definition ping_of (k : N) : send_data := SendData "dtn://n/ping" "dtn://m/echo" false 86400000 [k].
Lemma ended_app count src dst l x p code : ping_loop count src dst (l ++ [x]) ping0 = PDone p code ->
  (forall n, (n <= length l)%nat -> exists p', ping_loop count src dst (take n l) ping0 = PGo p') -> ended count src dst (l ++ [x]) p code.
Proof.
  intros H Hp. split; [done|]. intros l' [k Hk] Hne. destruct (decide (length l' <= length l)%nat) as [L|L].
  - destruct (Hp _ L) as [p' E]. exists p'. rewrite <- E. f_equal. rewrite <- (take_app l [x]) in E. 
    assert (take (length l') (l ++ [x]) = l') as <- by (rewrite Hk; by rewrite take_app). rewrite take_length. rewrite app_length in *. cbn.
    rewrite take_app_le by lia. f_equal. lia.
  - exfalso. apply Hne. assert (k = []) as ->; [|by rewrite app_nil_r in Hk]. apply (f_equal length) in Hk. rewrite !app_length in Hk. cbn in Hk. destruct k; [done|]. cbn in Hk. lia.
Qed.
Example C121_case :
  ended 2 "dtn://n/ping" "dtn://m/echo" [([7], PMsg (OText "200 Sent bundle")); ([], PMsg (OData FCbor (answer 7))); ([8], PTimeout)] (Ping true 2 1 [ping_of 7; ping_of 8]) 1 /\
  ended 2 "dtn://n/ping" "dtn://m/echo" [([7], PMsg (OData FCbor (answer 7))); ([8], PMsg (OData FCbor (answer 8)))] (Ping true 2 2 [ping_of 7; ping_of 8]) 0.
Proof.
  split.
  - apply (ended_app _ _ _ [([7], PMsg (OText "200 Sent bundle")); ([], PMsg (OData FCbor (answer 7)))]); [reflexivity|].
    intros [|[|[|n]]] L; [eexists; reflexivity..|cbn in L; lia].
  - apply (ended_app _ _ _ [([7], PMsg (OData FCbor (answer 7)))]); [reflexivity|]. intros [|[|n]] L; [eexists; reflexivity..|cbn in L; lia].
Qed.
