(** Proofs about the external routing program (model: Erouter.v). *)
From stdpp Require Import prelude strings pretty gmap sorting.
From Coq Require Import NArith Lia.
From Verif Require Import Core Peers Routing RoutingProofs External Erouter.
Open Scope N_scope.

Lemma in_order_elem m q : q ∈ in_order m <-> exists n, m !! n = Some q.
Proof.
  unfold in_order. rewrite elem_of_list_fmap. split.
  - intros ([n q'] & -> & Hin). rewrite (merge_sort_Permutation key_le) in Hin. apply elem_of_map_to_list in Hin. by exists n.
  - intros [n Hn]. exists (n, q). split; [done|]. rewrite (merge_sort_Permutation key_le). by apply elem_of_map_to_list.
Qed.
Definition ihop (i : instr) : string := node_or_empty (in_hop i).
Lemma ihop_sender q c : ihop (er_sender q c) = node_name q.
Proof. done. Qed.

(** ** One peer *)
Definition usable (clas : list string) (q : peer) : Prop := exists c, c ∈ pe_clas q /\ fst c ∈ clas.
Definition first_layer (clas : list string) (q : peer) : option (string * option N) :=
  head (filter (fun c => has_layer clas c = true) (pe_clas q)).
Lemma first_layer_usable clas q : is_Some (first_layer clas q) <-> usable clas q.
Proof.
  unfold first_layer, usable. split.
  - intros [c Hc]. assert (Hin : c ∈ filter (fun c => has_layer clas c = true) (pe_clas q)).
    { destruct (filter _ _); [done|]. injection Hc as ->. apply elem_of_list_here. }
    apply elem_of_list_filter in Hin as [Hl Hin]. apply bool_decide_eq_true in Hl. eauto.
  - intros (c & Hin & Hl). assert (Hf : c ∈ filter (fun c => has_layer clas c = true) (pe_clas q)).
    { apply elem_of_list_filter. split; [by apply bool_decide_eq_true|done]. }
    destruct (filter _ _); [by apply elem_of_nil in Hf|]. by eexists.
Qed.
Lemma first_layer_in clas q c : first_layer clas q = Some c -> c ∈ pe_clas q /\ fst c ∈ clas.
Proof.
  intros Hc. unfold first_layer in Hc. assert (Hin : c ∈ filter (fun c => has_layer clas c = true) (pe_clas q)).
  { destruct (filter _ _); [done|]. injection Hc as ->. apply elem_of_list_here. }
  apply elem_of_list_filter in Hin as [Hl Hin]. apply bool_decide_eq_true in Hl. done.
Qed.
Lemma er_layers_marked clas p q cs : forall h acc del, e_contains h (p_id p) (node_name q) = true ->
  er_layers clas p q cs h acc del = Some (h, acc, del).
Proof.
  induction cs as [|c cs IH]; intros h acc del Hc; cbn [er_layers]; [done|].
  rewrite Hc, andb_false_r. by apply IH.
Qed.
Lemma er_layers_fresh clas p q h acc del : e_contains h (p_id p) (node_name q) = false ->
  er_layers clas p q (pe_clas q) h acc del =
    match first_layer clas q with
    | None => Some (h, acc, del)
    | Some c => match eid_node (p_dst p) with
                | None => None
                | Some d => if bool_decide (d = node_name q) then Some (e_add h (p_id p) (node_name q), [er_sender q c], true)
                            else Some (e_add h (p_id p) (node_name q), acc ++ [er_sender q c], del)
                end
    end.
Proof.
  intros Hc. unfold first_layer. induction (pe_clas q) as [|c cs IH]; cbn [er_layers]; [done|].
  rewrite Hc, andb_true_r. rewrite filter_cons. destruct (has_layer clas c) eqn:El; cbn [decide_rel].
  - destruct (decide (true = true)) as [_|Hn]; [|done]. cbn [head].
    destruct (eid_node (p_dst p)) as [d|]; [|done]. case_bool_decide; [done|].
    rewrite er_layers_marked; [done|]. apply e_contains_add. by left.
  - destruct (decide (false = true)) as [Hn|_]; [done|]. apply IH.
Qed.

(** ** All peers *)
Section query.
Context (clas : list string) (p : pack).
Local Notation marked h q := (e_contains h (p_id p) (node_name q)).
Lemma er_peers_cons q ps h acc del :
  er_peers clas p (q :: ps) h acc del =
    if marked h q then er_peers clas p ps h acc del
    else match first_layer clas q with
         | None => er_peers clas p ps h acc del
         | Some c => match eid_node (p_dst p) with
                     | None => None
                     | Some d => if bool_decide (d = node_name q)
                                 then er_peers clas p ps (e_add h (p_id p) (node_name q)) [er_sender q c] true
                                 else er_peers clas p ps (e_add h (p_id p) (node_name q)) (acc ++ [er_sender q c]) del
                     end
         end.
Proof.
  cbn [er_peers]. destruct (marked h q) eqn:Hm; [by rewrite er_layers_marked|]. rewrite er_layers_fresh by done.
  destruct (first_layer clas q); [|done]. destruct (eid_node (p_dst p)); [|done]. by case_bool_decide.
Qed.
(** who is marked afterwards *)
Lemma er_peers_marks ps : forall h acc del h' ss del', er_peers clas p ps h acc del = Some (h', ss, del') ->
  forall id n, e_contains h' id n = true <->
    e_contains h id n = true \/ (id = p_id p /\ exists q, q ∈ ps /\ node_name q = n /\ usable clas q).
Proof.
  induction ps as [|q ps IH]; intros h acc del h' ss del' Hq id n.
  { injection Hq as <- <- <-. split; [by left|]. intros [?|(_ & q & ?%elem_of_nil & _)]; done. }
  rewrite er_peers_cons in Hq.
  assert (Hadd : forall h0 acc0 del0, er_peers clas p ps h0 acc0 del0 = Some (h', ss, del') ->
    h0 = e_add h (p_id p) (node_name q) -> usable clas q ->
    e_contains h' id n = true <->
    e_contains h id n = true \/ (id = p_id p /\ exists q0, q0 ∈ q :: ps /\ node_name q0 = n /\ usable clas q0)).
  { intros h0 acc0 del0 H0 -> Hu. rewrite (IH _ _ _ _ _ _ H0 id n), e_contains_add. split.
    - intros [[[-> ->]|Hc]|(-> & q0 & Hin & Hn)].
      + right. split; [done|]. exists q. split; [apply elem_of_list_here|done].
      + by left.
      + right. split; [done|]. exists q0. split; [by apply elem_of_list_further|done].
    - intros [Hc|(-> & q0 & [->|Hin]%elem_of_cons & <- & Hu0)]; [by left; right|by left; left|].
      right. split; [done|]. by exists q0. }
  destruct (marked h q) eqn:Hm.
  { rewrite (IH _ _ _ _ _ _ Hq id n). split.
    - intros [Hc|(-> & q0 & Hin & Hn)]; [by left|]. right. split; [done|]. exists q0. split; [by apply elem_of_list_further|done].
    - intros [Hc|(-> & q0 & [->|Hin]%elem_of_cons & <- & Hu)]; [by left|by left|]. right. split; [done|]. by exists q0. }
  destruct (first_layer clas q) as [c|] eqn:Hf.
  - assert (Hu : usable clas q) by (apply first_layer_usable; by eexists).
    destruct (eid_node (p_dst p)) as [d|]; [|done].
    case_bool_decide; eapply Hadd; eauto.
  - assert (Hu : ~ usable clas q). { rewrite <- first_layer_usable, Hf. by intros []. }
    rewrite (IH _ _ _ _ _ _ Hq id n). split.
    + intros [Hc|(-> & q0 & Hin & Hn)]; [by left|]. right. split; [done|]. exists q0. split; [by apply elem_of_list_further|done].
    + intros [Hc|(-> & q0 & [->|Hin]%elem_of_cons & <- & Hu0)]; [by left|done|]. right. split; [done|]. by exists q0.
Qed.
(** who is named *)
Lemma er_peers_named ps : forall h acc del h' ss del', er_peers clas p ps h acc del = Some (h', ss, del') ->
  (forall i, i ∈ acc -> e_contains h (p_id p) (ihop i) = true) -> NoDup (map ihop acc) ->
  NoDup (map ihop ss) /\
  forall i, i ∈ ss -> e_contains h' (p_id p) (ihop i) = true /\
    (i ∈ acc \/ (e_contains h (p_id p) (ihop i) = false /\ exists q c, q ∈ ps /\ c ∈ pe_clas q /\ fst c ∈ clas /\ i = er_sender q c)).
Proof.
  induction ps as [|q ps IH]; intros h acc del h' ss del' Hq Hacc Hnd.
  { injection Hq as <- <- <-. split; [done|]. intros i Hi. split; [by apply Hacc|by left]. }
  assert (Hsame : er_peers clas p ps h acc del = Some (h', ss, del') ->
    NoDup (map ihop ss) /\
    forall i, i ∈ ss -> e_contains h' (p_id p) (ihop i) = true /\
      (i ∈ acc \/ (e_contains h (p_id p) (ihop i) = false /\ exists q0 c, q0 ∈ q :: ps /\ c ∈ pe_clas q0 /\ fst c ∈ clas /\ i = er_sender q0 c))).
  { intros H0. destruct (IH _ _ _ _ _ _ H0 Hacc Hnd) as [H1 H2]. split; [done|]. intros i Hi.
    destruct (H2 i Hi) as [Hm [Ha|(Hn & q0 & c & Hin & Hrest)]]; (split; [done|]); [by left|]. right. split; [done|].
    exists q0, c. split; [by apply elem_of_list_further|done]. }
  rewrite er_peers_cons in Hq. destruct (marked h q) eqn:Hm; [by apply Hsame|].
  destruct (first_layer clas q) as [c|] eqn:Hf; [|by apply Hsame]. clear Hsame.
  apply first_layer_in in Hf as [Hc Hl].
  assert (Hadd : forall acc0 del0, er_peers clas p ps (e_add h (p_id p) (node_name q)) acc0 del0 = Some (h', ss, del') ->
    acc0 = [er_sender q c] \/ acc0 = acc ++ [er_sender q c] ->
    NoDup (map ihop ss) /\
    forall i, i ∈ ss -> e_contains h' (p_id p) (ihop i) = true /\
      (i ∈ acc \/ (e_contains h (p_id p) (ihop i) = false /\ exists q0 c0, q0 ∈ q :: ps /\ c0 ∈ pe_clas q0 /\ fst c0 ∈ clas /\ i = er_sender q0 c0))).
  { intros acc0 del0 H0 Hor.
    assert (Hin0 : forall i, i ∈ acc0 -> i ∈ acc \/ i = er_sender q c).
    { intros i. destruct Hor as [->| ->]; rewrite ?elem_of_app, elem_of_list_singleton; tauto. }
    destruct (IH _ _ _ _ _ _ H0) as [H1 H2].
    - intros i Hi. apply e_contains_add. destruct (Hin0 i Hi) as [Ha| ->]; [right; by apply Hacc|by left].
    - destruct Hor as [->| ->]; [cbn; apply NoDup_singleton|]. rewrite map_app. apply NoDup_app. split; [done|]. split; [|apply NoDup_singleton].
      intros x (i & -> & Hi)%elem_of_list_fmap Hx. cbn [map] in Hx. apply elem_of_list_singleton in Hx.
      specialize (Hacc i Hi). rewrite Hx, ihop_sender in Hacc. congruence.
    - split; [done|]. intros i Hi. destruct (H2 i Hi) as [Hmk Hwhy]. split; [done|]. destruct Hwhy as [Ha|(Hn & q0 & c0 & Hin & Hrest)].
      + destruct (Hin0 i Ha) as [?| ->]; [by left|]. right. rewrite ihop_sender. split; [done|]. exists q, c. split; [apply elem_of_list_here|done].
      + right. split.
        * apply not_true_is_false. intros Ht. apply not_true_iff_false in Hn. apply Hn, e_contains_add. by right.
        * exists q0, c0. split; [by apply elem_of_list_further|done]. }
  destruct (eid_node (p_dst p)) as [d|]; [|done]. case_bool_decide; eapply Hadd; eauto.
Qed.
(** no delivery to the destination is possible: what was selected stays, and
    everybody unmarked is added *)
Definition direct (h : hist) (q : peer) : Prop :=
  usable clas q /\ marked h q = false /\ eid_node (p_dst p) = Some (node_name q).
Lemma er_peers_indirect ps : forall h acc del h' ss del', er_peers clas p ps h acc del = Some (h', ss, del') ->
  (forall q, q ∈ ps -> ~ direct h q) ->
  del' = del /\ exists rest, ss = acc ++ rest /\
    (forall i, i ∈ rest -> exists q c, q ∈ ps /\ c ∈ pe_clas q /\ fst c ∈ clas /\ marked h q = false /\ i = er_sender q c) /\
    (forall q, q ∈ ps -> usable clas q -> marked h q = false -> exists i, i ∈ rest /\ ihop i = node_name q).
Proof.
  induction ps as [|q ps IH]; intros h acc del h' ss del' Hq Hno.
  { injection Hq as <- <- <-. split; [done|]. exists []. split; [by rewrite app_nil_r|]. split; by intros ? ?%elem_of_nil. }
  rewrite er_peers_cons in Hq. destruct (marked h q) eqn:Hm.
  { destruct (IH _ _ _ _ _ _ Hq) as (-> & rest & -> & H1 & H2).
    { intros q0 Hin. apply Hno. by apply elem_of_list_further. }
    split; [done|]. exists rest. split; [done|]. split.
    - intros i Hi. destruct (H1 i Hi) as (q0 & c & Hin & Hr). exists q0, c. split; [by apply elem_of_list_further|done].
    - intros q0 [->|Hin]%elem_of_cons Hu Hf; [congruence|]. by apply H2. }
  destruct (first_layer clas q) as [c|] eqn:Hf.
  - assert (Hu : usable clas q) by (apply first_layer_usable; by eexists). apply first_layer_in in Hf as [Hc Hl].
    destruct (eid_node (p_dst p)) as [d|] eqn:Ed; [|done]. case_bool_decide as Hd.
    { exfalso. subst d. apply (Hno q); [apply elem_of_list_here|]. unfold direct. by rewrite Ed. }
    assert (Hmk : forall q0, e_contains (e_add h (p_id p) (node_name q)) (p_id p) (node_name q0) = false -> marked h q0 = false).
    { intros q0 Hn. apply not_true_is_false. intros Ht. apply not_true_iff_false in Hn. apply Hn, e_contains_add. by right. }
    destruct (IH _ _ _ _ _ _ Hq) as (-> & rest & -> & H1 & H2).
    { intros q0 Hin (Hu0 & Hm0 & Hd0). apply (Hno q0); [by apply elem_of_list_further|]. unfold direct.
      split; [done|]. split; [by apply Hmk|done]. }
    split; [done|]. exists (er_sender q c :: rest). split; [by rewrite <- app_assoc|]. split.
    + intros i [->|Hi]%elem_of_cons.
      * exists q, c. split; [apply elem_of_list_here|done].
      * destruct (H1 i Hi) as (q0 & c0 & Hin & Hc0 & Hl0 & Hm0 & ->). exists q0, c0. split; [by apply elem_of_list_further|].
        repeat (split; [done|]). split; [by apply Hmk|done].
    + intros q0 [->|Hin]%elem_of_cons Hu0 Hm0; [exists (er_sender q c); split; [apply elem_of_list_here|done]|].
      destruct (decide (node_name q0 = node_name q)) as [He|Hne].
      { exists (er_sender q c). split; [apply elem_of_list_here|done]. }
      destruct (H2 q0 Hin Hu0) as (i & Hi & Hn).
      { apply not_true_is_false. intros Ht. apply e_contains_add in Ht as [[_ Ht]|Ht]; [done|congruence]. }
      exists i. split; [by apply elem_of_list_further|done].
  - assert (Hu : ~ usable clas q). { rewrite <- first_layer_usable, Hf. by intros []. }
    destruct (IH _ _ _ _ _ _ Hq) as (-> & rest & -> & H1 & H2).
    { intros q0 Hin. apply Hno. by apply elem_of_list_further. }
    split; [done|]. exists rest. split; [done|]. split.
    + intros i Hi. destruct (H1 i Hi) as (q0 & c & Hin & Hr). exists q0, c. split; [by apply elem_of_list_further|done].
    + intros q0 [->|Hin]%elem_of_cons Hu0 Hm0; [done|]. by apply H2.
Qed.
(** a delivery to the destination is possible: it comes first, and the peers
    after it are still added *)
Lemma er_peers_direct ps : forall h acc del h' ss del', er_peers clas p ps h acc del = Some (h', ss, del') ->
  (exists q, q ∈ ps /\ direct h q) ->
  del' = true /\ exists ps1 q ps2 c rest, ps = ps1 ++ q :: ps2 /\ direct h q /\ c ∈ pe_clas q /\ fst c ∈ clas /\
    (forall q0, q0 ∈ ps1 -> ~ direct h q0) /\ ss = er_sender q c :: rest /\
    (forall i, i ∈ rest -> exists q0 c0, q0 ∈ ps2 /\ c0 ∈ pe_clas q0 /\ fst c0 ∈ clas /\ marked h q0 = false /\
        node_name q0 <> node_name q /\ i = er_sender q0 c0) /\
    (forall q0, q0 ∈ ps2 -> usable clas q0 -> marked h q0 = false -> (forall q1, q1 ∈ ps1 -> usable clas q1 -> node_name q1 <> node_name q0) ->
        exists i, i ∈ ss /\ ihop i = node_name q0).
Proof.
  induction ps as [|q ps IH]; intros h acc del h' ss del' Hq Hex; [by destruct Hex as (? & ?%elem_of_nil & _)|].
  rewrite er_peers_cons in Hq.
  assert (Hskip : forall h0 acc0, er_peers clas p ps h0 acc0 del = Some (h', ss, del') -> ~ direct h q ->
    (forall q0, marked h0 q0 = true <-> marked h q0 = true \/ (usable clas q /\ marked h q = false /\ node_name q0 = node_name q)) ->
    del' = true /\ exists ps1 q1 ps2 c rest, q :: ps = ps1 ++ q1 :: ps2 /\ direct h q1 /\ c ∈ pe_clas q1 /\ fst c ∈ clas /\
      (forall q0, q0 ∈ ps1 -> ~ direct h q0) /\ ss = er_sender q1 c :: rest /\
      (forall i, i ∈ rest -> exists q0 c0, q0 ∈ ps2 /\ c0 ∈ pe_clas q0 /\ fst c0 ∈ clas /\ marked h q0 = false /\
          node_name q0 <> node_name q1 /\ i = er_sender q0 c0) /\
      (forall q0, q0 ∈ ps2 -> usable clas q0 -> marked h q0 = false -> (forall q2, q2 ∈ ps1 -> usable clas q2 -> node_name q2 <> node_name q0) ->
          exists i, i ∈ ss /\ ihop i = node_name q0)).
  { intros h0 acc0 H0 Hnd Hmk.
    assert (Hdir : forall q0, direct h0 q0 <-> direct h q0).
    { intros q0. unfold direct. split; intros (Hu & Hm & Hd); (split; [done|]); (split; [|done]).
      - apply not_true_is_false. intros Ht. apply not_true_iff_false in Hm. apply Hm, Hmk. by left.
      - apply not_true_is_false. intros Ht. apply Hmk in Ht as [Ht|(Huq & Hmq & Hn)]; [congruence|]. apply Hnd. unfold direct. split; [done|]. split; [done|]. congruence. }
    destruct (IH _ _ _ _ _ _ H0) as (-> & ps1 & q1 & ps2 & c & rest & -> & Hd & Hc & Hl & Hpre & -> & H1 & H2).
    { destruct Hex as (q0 & [->|Hin]%elem_of_cons & Hd); [done|]. exists q0. split; [done|by apply Hdir]. }
    split; [done|]. exists (q :: ps1), q1, ps2, c, rest. split; [done|]. split; [by apply Hdir|]. split; [done|]. split; [done|].
    split; [|split; [done|split]].
    - intros q0 [->|Hin]%elem_of_cons; [done|]. rewrite <- Hdir. by apply Hpre.
    - intros i Hi. destruct (H1 i Hi) as (q0 & c0 & Hin & Hc0 & Hl0 & Hm0 & Hrest). exists q0, c0. repeat (split; [done|]). split; [|done].
      apply not_true_is_false. intros Ht. apply not_true_iff_false in Hm0. apply Hm0, Hmk. by left.
    - intros q0 Hin Hu Hm Hpre0. apply H2; [done|done| |].
      + apply not_true_is_false. intros Ht. apply Hmk in Ht as [Ht|(Huq & Hmq & Hn)]; [congruence|].
        by apply (Hpre0 q (elem_of_list_here _ _)).
      + intros q2 Hin2. apply Hpre0. by apply elem_of_list_further. }
  destruct (marked h q) eqn:Hm.
  { eapply Hskip; [exact Hq| |].
    - intros (_ & Hf & _). congruence.
    - intros q0. split; [by left|]. intros [?|(_ & ? & _)]; congruence. }
  destruct (first_layer clas q) as [c|] eqn:Hf.
  - assert (Hu : usable clas q) by (apply first_layer_usable; by eexists). apply first_layer_in in Hf as [Hc Hl].
    destruct (eid_node (p_dst p)) as [d|] eqn:Ed; [|done]. case_bool_decide as Hd.
    + subst d. clear Hskip.
      assert (Hmk : forall q0, e_contains (e_add h (p_id p) (node_name q)) (p_id p) (node_name q0) = false ->
        marked h q0 = false /\ node_name q0 <> node_name q).
      { intros q0 Hn. apply not_true_iff_false in Hn. rewrite e_contains_add in Hn. split; [apply not_true_is_false|]; tauto. }
      destruct (er_peers_indirect ps _ _ _ _ _ _ Hq) as (-> & rest & -> & H1 & H2).
      { intros q0 Hin (_ & Hm0 & Hd0). apply Hmk in Hm0 as [_ Hne]. congruence. }
      split; [done|]. exists [], q, ps, c, rest. split; [done|]. split; [unfold direct; by rewrite Ed|]. split; [done|]. split; [done|].
      split; [by intros ? ?%elem_of_nil|]. split; [done|]. split.
      * intros i Hi. destruct (H1 i Hi) as (q0 & c0 & Hin & Hc0 & Hl0 & Hm0 & ->). apply Hmk in Hm0 as [Hm0 Hne].
        exists q0, c0. done.
      * intros q0 Hin Hu0 Hm0 _. destruct (decide (node_name q0 = node_name q)) as [He|Hne].
        { exists (er_sender q c). split; [apply elem_of_list_here|]. by rewrite ihop_sender. }
        destruct (H2 q0 Hin Hu0) as (i & Hi & Hn).
        { apply not_true_is_false. rewrite e_contains_add. intros [[_ ?]|?]; congruence. }
        exists i. split; [by apply elem_of_list_further|done].
    + eapply Hskip; [exact Hq| |].
      * intros (_ & _ & Hd'). congruence.
      * intros q0. rewrite e_contains_add. naive_solver.
  - eapply Hskip; [exact Hq| |].
    + intros (Hu & _). apply first_layer_usable in Hu. rewrite Hf in Hu. by destruct Hu.
    + assert (Hu : ~ usable clas q). { rewrite <- first_layer_usable, Hf. by intros []. } naive_solver.
Qed.
Lemma er_peers_alive ps : forall h acc del, is_Some (eid_node (p_dst p)) -> is_Some (er_peers clas p ps h acc del).
Proof.
  intros h acc del [d Hd]. revert h acc del. induction ps as [|q ps IH]; intros h acc del; [by eexists|]. rewrite er_peers_cons.
  destruct (marked h q); [apply IH|]. destruct (first_layer clas q); [|apply IH]. rewrite Hd. case_bool_decide; apply IH.
Qed.
End query.

(** ** Runs *)
Lemma er_state_dead st ks : er_state st None ks = None.
Proof. induction ks as [|k ks IH]; cbn; done. Qed.
Lemma er_run_dead st ks : er_run st None ks = map (fun k => (k, None)) ks.
Proof. induction ks as [|k ks IH]; cbn; [done|]. by rewrite IH. Qed.
Lemma er_state_app st k1 : forall s k2, er_state st s (k1 ++ k2) = er_state st (er_state st s k1) k2.
Proof. induction k1 as [|k k1 IH]; intros s k2; cbn; [done|]. apply IH. Qed.
Lemma er_run_app st k1 : forall s k2, er_run st s (k1 ++ k2) = er_run st s k1 ++ er_run st (er_state st s k1) k2.
Proof.
  induction k1 as [|k k1 IH]; intros s k2; cbn; [done|]. destruct (s ≫= _) as [[s' r]|]; cbn; by rewrite IH.
Qed.
Lemma er_run_packets st ks : forall s, map fst (er_run st s ks) = ks.
Proof. induction ks as [|k ks IH]; intros s; cbn; [done|]. destruct (s ≫= _) as [[s' r]|]; cbn; by rewrite IH. Qed.
Lemma er_run_split st ks : forall s l1 e l2, er_run st s ks = l1 ++ e :: l2 ->
  exists k1 k2, ks = k1 ++ fst e :: k2 /\ er_run st s k1 = l1 /\ er_run st (er_state st s k1) [fst e] = [e] /\
    er_run st (er_state st s (k1 ++ [fst e])) k2 = l2.
Proof.
  induction ks as [|k ks IH]; intros s l1 e l2 Hrun; [by destruct l1|]. cbn in Hrun.
  destruct l1 as [|x l1].
  - exists [], ks. destruct (s ≫= _) as [[s' r]|] eqn:E; cbn in Hrun; injection Hrun as <- <-; cbn; by rewrite E.
  - destruct (s ≫= _) as [[s' r]|] eqn:E; cbn in Hrun; injection Hrun as <- Hrun; destruct (IH _ _ _ _ Hrun) as (k1 & k2 & -> & H1 & H2 & H3);
      exists (k :: k1), k2; cbn; rewrite E; cbn; rewrite H1; done.
Qed.
Lemma er_answered st s k r : er_run st s [k] = [(k, Some r)] -> exists s0 s', s = Some s0 /\ er_step st s0 k = Some (s', Some r).
Proof.
  cbn. destruct s as [s0|]; cbn; [|done]. destruct (er_step st s0 k) as [[s' r']|] eqn:E; [|done]. intros [= ->]. eauto.
Qed.

Notation event := (packet * option response)%type.
Definition er_names (e : event) (id n : string) : Prop :=
  exists clas p r i, e = (PRequest clas p, Some r) /\ p_id p = id /\ i ∈ rs_clas r /\ ihop i = n.
Definition er_frees (e : event) (id n : string) : Prop :=
  fst e = PFailed id n \/ exists p, fst e = PTimeout p /\ p_id p = id.
Definition er_came (e : event) (id n : string) : Prop :=
  n <> "" /\ (fst e = PIncomingNoPrev id n \/
    exists b p, fst e = PIncoming b /\ bid b = id /\ previous_node b = Some p /\ eid_node p = Some n).

Lemma e_contains_timeout h id id' n' : e_contains (er_timeout h id) id' n' = true <-> e_contains h id' n' = true /\ id' <> id.
Proof.
  unfold er_timeout, e_contains. destruct (h !! id) as [x|] eqn:E.
  - destruct (decide (id' = id)) as [->|Hne]; [rewrite lookup_insert|rewrite lookup_insert_ne by done].
    + rewrite bool_decide_eq_true, elem_of_empty. naive_solver.
    + naive_solver.
  - destruct (decide (id' = id)) as [->|Hne]; [|naive_solver]. rewrite E. naive_solver.
Qed.
Lemma er_frees_dec e id n : er_frees e id n \/ ~ er_frees e id n.
Proof.
  unfold er_frees. destruct (fst e) as [| | |i m|p| | | |] eqn:E; try (right; by intros [?|(? & ? & _)]).
  - destruct (decide (i = id)) as [->|], (decide (m = n)) as [->|]; try (left; by left); right; intros [?|(? & ? & _)]; congruence.
  - destruct (decide (p_id p = id)); [left; right; eauto|]. right. intros [?|(? & ? & ?)]; congruence.
Qed.
(** the marks of the epidemic strategy, step by step *)
Lemma er_step_marks s k s' r id n : er_step Epidemic s k = Some (s', r) ->
  e_contains (er_hist s') id n = true <->
    (e_contains (er_hist s) id n = true /\ ~ er_frees (k, r) id n) \/ er_came (k, r) id n \/
    exists clas p q, k = PRequest clas p /\ p_id p = id /\ q ∈ in_order (er_table s) /\ node_name q = n /\ usable clas q.
Proof.
  intros Hs. unfold er_frees, er_came. cbn [fst].
  destruct k as [m|e q|e|i m|p|b|i m|clas p|]; cbn in Hs.
  - injection Hs as <- <-. cbn. naive_solver.
  - destruct (eid_node e); [|done]. injection Hs as <- <-. cbn. naive_solver.
  - destruct (eid_node e); [|done]. injection Hs as <- <-. cbn. naive_solver.
  - injection Hs as <- <-. cbn. rewrite e_contains_failed. naive_solver.
  - injection Hs as <- <-. cbn. rewrite e_contains_timeout. naive_solver.
  - injection Hs as <- <-. cbn. destruct (previous_node b) as [e|] eqn:Ep; [|naive_solver]. destruct (eid_node e) as [m|] eqn:Em.
    + rewrite e_contains_incoming. split.
      * intros [H|(Hm & -> & ->)]; [left; naive_solver|]. right. left. split; [done|]. right. exists b, e. done.
      * intros [[H _]|[(Hn & [?|(b' & e' & [= <-] & <- & He & Hne)])|(clas & p & q & ? & _)]]; [by left|done| |done].
        rewrite Ep in He. injection He as <-. rewrite Em in Hne. injection Hne as ->. by right.
    + split; [naive_solver|]. intros [[H _]|[(Hn & [?|(b' & e' & [= <-] & <- & He & Hne)])|(clas & p & q & ? & _)]]; congruence.
  - injection Hs as <- <-. cbn. rewrite e_contains_incoming. naive_solver.
  - destruct (er_peers _ _ _ _ _ _) as [[[h' ss] del]|] eqn:E; [|done]. injection Hs as <- <-. cbn.
    rewrite (er_peers_marks _ _ _ _ _ _ _ _ _ E id n). split.
    + intros [H|(-> & q & Hq & Hn & Hu)]; [left; naive_solver|]. right. right. exists clas, p, q. done.
    + intros [[H _]|[(_ & [?|(b & e & ? & _)])|(clas' & p' & q & [= <- <-] & <- & Hq)]]; [by left|done|done|].
      right. split; [done|]. by exists q.
  - injection Hs as <- <-. cbn. naive_solver.
Qed.
Lemma er_step_names s k s' r id n : er_step Epidemic s k = Some (s', r) -> er_names (k, r) id n ->
  e_contains (er_hist s) id n = false /\ e_contains (er_hist s') id n = true.
Proof.
  intros Hs (clas & p & r0 & i & [= -> ->] & <- & Hi & <-). cbn in Hs.
  destruct (er_peers _ _ _ _ _ _) as [[[h' ss] del]|] eqn:E; [|done]. injection Hs as <- <-. cbn in Hi |- *.
  destruct (er_peers_named _ _ _ _ _ _ _ _ _ E) as [_ H]; [by intros ? ?%elem_of_nil|apply NoDup_nil_2|].
  destruct (H i Hi) as [? [?%elem_of_nil|[? _]]]; done.
Qed.
Lemma er_marked_not_named ks : forall s id n l1 e l2, e_contains (er_hist s) id n = true ->
  er_run Epidemic (Some s) ks = l1 ++ e :: l2 -> er_names e id n -> exists x, x ∈ l1 /\ er_frees x id n.
Proof.
  induction ks as [|k ks IH]; intros s id n l1 e l2 Hc Hrun He; [by destruct l1|]. cbn in Hrun.
  destruct (er_step Epidemic s k) as [[s' r]|] eqn:Es; cbn in Hrun.
  - destruct l1 as [|x l1]; cbn in Hrun; injection Hrun as Hx Hrun.
    + subst e. destruct (er_step_names _ _ _ _ _ _ Es He). congruence.
    + destruct (er_frees_dec (k, r) id n) as [Hf|Hf]; [exists x; split; [apply elem_of_list_here|by subst x]|].
      destruct (IH s' id n l1 e l2) as (y & Hy & Hfy); [|done|done|].
      { rewrite (er_step_marks _ _ _ _ _ _ Es). by left. }
      exists y. split; [by apply elem_of_list_further|done].
  - exfalso. rewrite er_run_dead in Hrun. assert (Hin : e ∈ (k, None) :: map (fun k => (k, None)) ks).
    { rewrite Hrun. apply elem_of_app. right. apply elem_of_list_here. }
    destruct He as (clas & p & r & i & -> & _). apply elem_of_cons in Hin as [?|(k' & ? & _)%elem_of_list_fmap]; done.
Qed.

(** what the peer table holds *)
Definition er_tells (e : event) (n : string) (q : peer) : Prop :=
  (exists a, fst e = PEncountered a q /\ eid_node a = Some n) \/ exists m, fst e = PPeerState m /\ m !! n = Some q.
Definition er_changes (e : event) (n : string) : Prop :=
  (exists m, fst e = PPeerState m) \/ (exists a q, fst e = PEncountered a q /\ eid_node a = Some n) \/ exists a, fst e = PDropped a /\ eid_node a = Some n.
Definition er_knows (l : list event) (n : string) (q : peer) : Prop :=
  exists l1 e l2, l = l1 ++ e :: l2 /\ er_tells e n q /\ forall x, x ∈ l2 -> ~ er_changes x n.
Lemma last_split {A} (l : list A) x l1 y l2 : l ++ [x] = l1 ++ y :: l2 ->
  (l2 = [] /\ l1 = l /\ y = x) \/ exists l2', l2 = l2' ++ [x] /\ l = l1 ++ y :: l2'.
Proof.
  destruct l2 as [|z l2 _] using rev_ind.
  - intros H. apply app_inj_tail in H as [-> ->]. by left.
  - intros H. right. exists l2. split; [|]; rewrite app_comm_cons, app_assoc in H; apply app_inj_tail in H as [-> ->]; done.
Qed.
Lemma er_knows_snoc l e n q : er_knows (l ++ [e]) n q <-> er_tells e n q \/ (er_knows l n q /\ ~ er_changes e n).
Proof.
  split.
  - intros (l1 & x & l2 & Hl & Ht & Hc). apply last_split in Hl as [(-> & -> & ->)|(l2' & -> & ->)]; [by left|].
    right. split; [|apply Hc, elem_of_app; right; apply elem_of_list_here].
    exists l1, x, l2'. split; [done|]. split; [done|]. intros y Hy. apply Hc, elem_of_app. by left.
  - intros [Ht|[(l1 & x & l2 & -> & Ht & Hc) Hn]].
    + exists l, e, []. split; [done|]. split; [done|]. by intros ? ?%elem_of_nil.
    + exists l1, x, (l2 ++ [e]). split; [by rewrite <- app_assoc|]. split; [done|].
      intros y [Hy| ->%elem_of_list_singleton]%elem_of_app; [by apply Hc|done].
Qed.
Lemma er_step_table st s k s' r n q : er_step st s k = Some (s', r) ->
  er_table s' !! n = Some q <-> er_tells (k, r) n q \/ (er_table s !! n = Some q /\ ~ er_changes (k, r) n).
Proof.
  intros Hs. unfold er_tells, er_changes. cbn [fst].
  assert (Hupd : forall f, er_table (upd_hist f st s) = er_table s) by (by destruct st).
  destruct k as [m|e q0|e|i m|p|b|i m|clas p|]; cbn in Hs.
  - injection Hs as <- <-. cbn. naive_solver.
  - destruct (eid_node e) as [m|] eqn:E; [|done]. injection Hs as <- <-. cbn. destruct (decide (n = m)) as [->|Hne].
    + rewrite lookup_insert. naive_solver.
    + rewrite lookup_insert_ne by done. naive_solver.
  - destruct (eid_node e) as [m|] eqn:E; [|done]. injection Hs as <- <-. cbn. destruct (decide (n = m)) as [->|Hne].
    + rewrite lookup_delete. naive_solver.
    + rewrite lookup_delete_ne by done. naive_solver.
  - injection Hs as <- <-. rewrite Hupd. naive_solver.
  - injection Hs as <- <-. rewrite Hupd. naive_solver.
  - injection Hs as <- <-. rewrite Hupd. naive_solver.
  - injection Hs as <- <-. rewrite Hupd. naive_solver.
  - destruct st; [injection Hs as <- <-; naive_solver|].
    destruct (er_peers _ _ _ _ _ _) as [[[h' ss] del]|] eqn:E; [|done]. injection Hs as <- <-. cbn. naive_solver.
  - injection Hs as <- <-. naive_solver.
Qed.
Lemma er_state_prefix st s k1 k2 s' : er_state st s (k1 ++ k2) = Some s' -> exists s1, er_state st s k1 = Some s1.
Proof. rewrite er_state_app. destruct (er_state st s k1); [eauto|by rewrite er_state_dead]. Qed.
Lemma er_table_knows st ks : forall s n q, er_state st (Some er_start) ks = Some s ->
  er_table s !! n = Some q <-> er_knows (er_run st (Some er_start) ks) n q.
Proof.
  induction ks as [|k ks IH] using rev_ind; intros s n q Hs.
  { cbn in Hs. injection Hs as <-. cbn. rewrite lookup_empty. split; [done|]. by intros ([|??] & e & l2 & ? & _). }
  destruct (er_state_prefix _ _ _ _ _ Hs) as [s0 Hs0]. rewrite er_state_app, Hs0 in Hs. cbn in Hs.
  destruct (er_step st s0 k) as [[s1 r]|] eqn:Es; [|done]. cbn in Hs. injection Hs as <-.
  rewrite er_run_app, Hs0. cbn. rewrite Es. rewrite (er_step_table _ _ _ _ _ n q Es), er_knows_snoc. by rewrite (IH s0 n q Hs0).
Qed.
(** why a node is marked, as long as no answer for this bundle asked for its removal *)
Lemma er_marked_why ks : forall s id n, er_state Epidemic (Some er_start) ks = Some s -> e_contains (er_hist s) id n = true ->
  (forall clas p r, (PRequest clas p, Some r) ∈ er_run Epidemic (Some er_start) ks -> p_id p = id -> rs_delete r = false) ->
  exists l1 e l2, er_run Epidemic (Some er_start) ks = l1 ++ e :: l2 /\ (er_names e id n \/ er_came e id n) /\ forall x, x ∈ l2 -> ~ er_frees x id n.
Proof.
  induction ks as [|k ks IH] using rev_ind; intros s id n Hs Hc Hnd.
  { cbn in Hs. injection Hs as <-. unfold e_contains in Hc. cbn in Hc. by rewrite lookup_empty in Hc. }
  destruct (er_state_prefix _ _ _ _ _ Hs) as [s0 Hs0]. rewrite er_state_app, Hs0 in Hs. cbn in Hs.
  destruct (er_step Epidemic s0 k) as [[s1 r]|] eqn:Es; [|done]. cbn in Hs. injection Hs as <-.
  rewrite er_run_app, Hs0 in Hnd |- *. cbn in Hnd |- *. rewrite Es in Hnd |- *.
  assert (Hnew : (er_names (k, r) id n \/ er_came (k, r) id n) ->
    exists l1 e l2, er_run Epidemic (Some er_start) ks ++ [(k, r)] = l1 ++ e :: l2 /\ (er_names e id n \/ er_came e id n) /\ forall x, x ∈ l2 -> ~ er_frees x id n).
  { intros H. exists (er_run Epidemic (Some er_start) ks), (k, r), []. split; [done|]. split; [done|]. by intros x ?%elem_of_nil. }
  apply (er_step_marks _ _ _ _ _ _ Es) in Hc as [[Hc Hf]|[Hcame|(clas & p & q & -> & <- & Hq & <- & Hu)]].
  - destruct (IH s0 id n Hs0 Hc) as (l1 & e & l2 & -> & He & Hl2).
    { intros clas p r0 Hin. eapply Hnd, elem_of_app. left. exact Hin. }
    exists l1, e, (l2 ++ [(k, r)]). split; [by rewrite <- app_assoc|]. split; [done|].
    intros x [Hx| ->%elem_of_list_singleton]%elem_of_app; [by apply Hl2|done].
  - apply Hnew. by right.
  - cbn in Es. destruct (er_peers _ _ _ _ _ _) as [[[h' ss] del]|] eqn:E; [|done]. injection Es as <- <-.
    destruct (e_contains (er_hist s0) (p_id p) (node_name q)) eqn:Eo.
    { destruct (IH s0 (p_id p) (node_name q) Hs0 Eo) as (l1 & e & l2 & -> & He & Hl2).
      { intros clas' p' r0 Hin. eapply Hnd, elem_of_app. left. exact Hin. }
      exists l1, e, (l2 ++ [(PRequest clas p, Some (Response p ss del))]). split; [by rewrite <- app_assoc|]. split; [done|].
      intros x [Hx| ->%elem_of_list_singleton]%elem_of_app; [by apply Hl2|]. by intros [?|(? & ? & _)]. }
    assert (Hdel : del = false). { apply (Hnd clas p (Response p ss del)); [|done]. apply elem_of_app. right. apply elem_of_list_here. }
    subst del. destruct (er_peers_indirect _ _ _ _ _ _ _ _ _ E) as (_ & rest & -> & _ & H2).
    { intros q0 Hin Hd. destruct (er_peers_direct _ _ _ _ _ _ _ _ _ E) as [? _]; [eauto|done]. }
    destruct (H2 q Hq Hu Eo) as (i & Hi & Hn). apply Hnew. left. exists clas, p, (Response p ([] ++ rest) false), i. done.
Qed.
