(** Lemmas about the routing agents. *)
From Verif Require Import Core Peers PeersProofs Routing.
From stdpp Require Import prelude strings pretty gmap.
From Coq Require Import NArith Lia.
Open Scope N_scope.

(** ** runs *)
Section agent.
Context {S : Type} (step : S -> rcmd -> option (S * option answer)).
Lemma arun_app s c1 c2 : arun step s (c1 ++ c2) = arun step s c1 ++ arun step (astate step s c1) c2.
Proof.
  revert s. induction c1 as [|c c1 IH]; intros s; [done|]. cbn. destruct (s ≫= _) as [[s' a]|]; cbn; by rewrite IH.
Qed.
Lemma astate_app s c1 c2 : astate step s (c1 ++ c2) = astate step (astate step s c1) c2.
Proof. revert s. induction c1 as [|c c1 IH]; intros s; [done|]. cbn. apply IH. Qed.
Lemma arun_cmds s cs : map fst (arun step s cs) = cs.
Proof.
  revert s. induction cs as [|c cs IH]; intros s; [done|]. cbn. destruct (s ≫= _) as [[s' a]|]; cbn; by rewrite IH.
Qed.
Lemma arun_dead cs : arun step None cs = map (fun c => (c, None)) cs.
Proof. induction cs as [|c cs IH]; [done|]. cbn. by rewrite IH. Qed.
Lemma astate_dead cs : astate step None cs = None.
Proof. induction cs as [|c cs IH]; [done|]. cbn. apply IH. Qed.
Lemma arun_split s cs l1 e l2 : arun step s cs = l1 ++ e :: l2 ->
  exists c1 c2, cs = c1 ++ fst e :: c2 /\ arun step s c1 = l1 /\
    arun step (astate step s c1) [fst e] = [e] /\ arun step (astate step s (c1 ++ [fst e])) c2 = l2.
Proof.
  intros H. pose proof (arun_cmds s cs) as Hc. rewrite H in Hc. rewrite map_app in Hc. cbn in Hc.
  exists (map fst l1), (map fst l2). split; [done|]. subst cs. rewrite arun_app in H.
  change (fst e :: map fst l2) with ([fst e] ++ map fst l2) in H. rewrite arun_app in H.
  assert (Hl : length (arun step s (map fst l1)) = length l1).
  { rewrite <- (map_length fst), arun_cmds. apply map_length. }
  apply app_inj_1 in H as [H1 H2]; [|done]. split; [done|].
  rewrite astate_app. cbn [astate]. cbn in H2 |- *. destruct (astate step s (map fst l1) ≫= _) as [[s' a]|]; cbn in *; by injection H2 as -> ->.
Qed.
(** an answer means the agent was alive and took a step *)
Lemma answered s c a : arun step s [c] = [(c, Some a)] -> exists s0 s', s = Some s0 /\ step s0 c = Some (s', Some a).
Proof.
  cbn. destruct s as [s0|]; cbn; [|done]. destruct (step s0 c) as [[s' a']|] eqn:E; cbn; [|done]. intros [= ->]. exists s0, s'. done.
Qed.
End agent.

Lemma first_cla_hop clas q s : first_cla clas q = Some s -> sd_hop s = pe_eid q.
Proof.
  unfold first_cla. intros H. apply first_some_Some in H as (i & w & _ & H & _). apply first_some_Some in H as (j & c & _ & H & _).
  unfold try_cla in H. destruct (_ && _); [|done]. by injection H as <-.
Qed.
Definition hop_name (s : sender) : string := node_or_empty (sd_hop s).
Lemma first_cla_name clas q s : first_cla clas q = Some s -> hop_name s = node_name q.
Proof. intros H. unfold hop_name. by rewrite (first_cla_hop _ _ _ H). Qed.
Lemma first_cla_serves clas q : is_Some (first_cla clas q) <->
  exists want c, want ∈ pe_clas q /\ c ∈ clas /\ cl_name c = fst want /\ cl_accepting c = true.
Proof.
  split.
  - intros [s H]. unfold first_cla in H. apply first_some_Some in H as (i & w & Hi & H & _). apply first_some_Some in H as (j & c & Hj & H & _).
    unfold try_cla in H. case_bool_decide as E; [|done]. cbn in H. destruct (cl_accepting c) eqn:Ea; [|done].
    exists w, c. split; [by eapply elem_of_list_lookup_2|]. split; [by eapply elem_of_list_lookup_2|]. done.
  - intros (w & c & Hw & Hc & Hn & Ha). destruct (first_cla clas q) eqn:E; [by eexists|]. unfold first_cla in E.
    rewrite first_some_None in E. specialize (E w Hw). rewrite first_some_None in E. specialize (E c Hc).
    unfold try_cla in E. rewrite bool_decide_true, Ha in E by done. done.
Qed.

(** ** Epidemic *)
Lemma e_contains_add h id n id' n' : e_contains (e_add h id n) id' n' = true <-> (id' = id /\ n' = n) \/ e_contains h id' n' = true.
Proof.
  unfold e_contains, e_add. destruct (decide (id' = id)) as [->|Hne].
  - rewrite lookup_insert. rewrite bool_decide_eq_true, elem_of_union, elem_of_singleton. destruct (h !! id) as [s|]; cbn.
    + rewrite bool_decide_eq_true. naive_solver.
    + rewrite elem_of_empty. naive_solver.
  - rewrite lookup_insert_ne by done. naive_solver.
Qed.
Lemma e_contains_failed h id n id' n' :
  e_contains (e_failed h id n) id' n' = true <-> e_contains h id' n' = true /\ ~ (id' = id /\ n' = n).
Proof.
  unfold e_failed, e_contains. destruct (h !! id) as [s|] eqn:E.
  - destruct (decide (id' = id)) as [->|Hne].
    + rewrite lookup_insert, E, !bool_decide_eq_true, elem_of_difference, elem_of_singleton. naive_solver.
    + rewrite lookup_insert_ne by done. naive_solver.
  - split; [|by intros [? _]]. intros H. split; [done|]. intros [-> ->]. by rewrite E in H.
Qed.
Lemma e_contains_incoming h id n id' n' :
  e_contains (e_incoming h id n) id' n' = true <-> e_contains h id' n' = true \/ (n <> "" /\ id' = id /\ n' = n).
Proof.
  unfold e_incoming. case_bool_decide as E; cbn; [naive_solver|]. destruct (e_contains h id n) eqn:Ec; cbn.
  - split; [by left|]. intros [?|(_ & -> & ->)]; done.
  - rewrite e_contains_add. naive_solver.
Qed.

Lemma e_query_mono clas p : forall ps h acc h' a, e_query clas p h ps acc = Some (h', a) ->
  forall id n, e_contains h id n = true -> e_contains h' id n = true.
Proof.
  induction ps as [|q ps IH]; intros h acc h' a; cbn [e_query]; [by intros [= <- _]|].
  destruct (e_contains h (p_id p) (node_name q)); [by apply IH|]. destruct (first_cla clas q) as [s|]; [|by apply IH].
  destruct (eid_node (p_dst p)) as [d|]; [|done]. case_bool_decide.
  - intros [= <- _] id n Hc. apply e_contains_add. by right.
  - intros Hq id n Hc. eapply IH; [exact Hq|]. apply e_contains_add. by right.
Qed.
Lemma e_query_marks clas p : forall ps h acc h' a, e_query clas p h ps acc = Some (h', a) ->
  forall id n, e_contains h' id n = true ->
    e_contains h id n = true \/ (id = p_id p /\ exists q s, q ∈ ps /\ node_name q = n /\ first_cla clas q = Some s).
Proof.
  induction ps as [|q ps IH]; intros h acc h' a; cbn [e_query]; [intros [= <- _]; by left|].
  assert (Hstep : forall h0 acc0, e_query clas p h0 ps acc0 = Some (h', a) -> forall id n, e_contains h' id n = true ->
     e_contains h0 id n = true \/ (id = p_id p /\ exists q' s, q' ∈ q :: ps /\ node_name q' = n /\ first_cla clas q' = Some s)).
  { intros h0 acc0 H0 id n Hc. destruct (IH _ _ _ _ H0 id n Hc) as [?|(-> & q' & s & Hq' & Hn & Hs)]; [by left|].
    right. split; [done|]. exists q', s. split; [by apply elem_of_list_further|done]. }
  destruct (e_contains h (p_id p) (node_name q)); [apply Hstep|]. destruct (first_cla clas q) as [s|] eqn:Es; [|apply Hstep].
  assert (Hadd : forall id n, e_contains (e_add h (p_id p) (node_name q)) id n = true ->
     e_contains h id n = true \/ (id = p_id p /\ exists q' s, q' ∈ q :: ps /\ node_name q' = n /\ first_cla clas q' = Some s)).
  { intros id n [[-> ->]|?]%e_contains_add; [|by left]. right. split; [done|]. exists q, s. split; [by apply elem_of_list_here|done]. }
  destruct (eid_node (p_dst p)) as [d|]; [|done]. case_bool_decide.
  - intros [= <- _]. apply Hadd.
  - intros Hq id n Hc. destruct (Hstep _ _ Hq id n Hc) as [H1|?]; [by apply Hadd|by right].
Qed.
(** who is in the answer *)
Lemma e_query_answer clas p : forall ps h acc h' ss del, e_query clas p h ps acc = Some (h', (ss, del)) ->
  (forall s, s ∈ acc -> e_contains h (p_id p) (hop_name s) = true) -> NoDup (map hop_name acc) ->
  (forall s, s ∈ ss -> e_contains h' (p_id p) (hop_name s) = true /\
     (s ∈ acc \/ (e_contains h (p_id p) (hop_name s) = false /\ exists q, q ∈ ps /\ first_cla clas q = Some s))) /\
  NoDup (map hop_name ss).
Proof.
  induction ps as [|q ps IH]; intros h acc h' ss del; cbn [e_query].
  - intros [= <- <- <-] Hacc Hnd. split; [|done]. intros s Hs. split; [by apply Hacc|by left].
  - assert (Hskip : forall acc, e_query clas p h ps acc = Some (h', (ss, del)) ->
       (forall s, s ∈ acc -> e_contains h (p_id p) (hop_name s) = true) -> NoDup (map hop_name acc) ->
       (forall s, s ∈ ss -> e_contains h' (p_id p) (hop_name s) = true /\
          (s ∈ acc \/ (e_contains h (p_id p) (hop_name s) = false /\ exists q', q' ∈ q :: ps /\ first_cla clas q' = Some s))) /\
       NoDup (map hop_name ss)).
    { intros acc0 H0 Ha Hn. destruct (IH _ _ _ _ _ H0 Ha Hn) as [H1 H2]. split; [|done]. intros s Hs.
      destruct (H1 s Hs) as [Hc [?|(Hf & q' & Hq' & ?)]]; (split; [done|]); [by left|]. right. split; [done|]. exists q'. split; [by apply elem_of_list_further|done]. }
    destruct (e_contains h (p_id p) (node_name q)) eqn:Ec; [apply Hskip|]. destruct (first_cla clas q) as [s0|] eqn:Es; [|apply Hskip].
    pose proof (first_cla_name _ _ _ Es) as Hn0.
    destruct (eid_node (p_dst p)) as [d|]; [|done]. case_bool_decide.
    + intros [= <- <- <-] Hacc Hnd. split; [|apply NoDup_singleton]. intros s ->%elem_of_list_singleton. split.
      * apply e_contains_add. left. by rewrite Hn0.
      * right. rewrite Hn0. split; [done|]. exists q. split; [by apply elem_of_list_here|done].
    + intros Hq Hacc Hnd. destruct (IH _ _ _ _ _ Hq) as [H1 H2].
      { intros s [Hs| ->%elem_of_list_singleton]%elem_of_app; apply e_contains_add; [right; by apply Hacc|left; by rewrite Hn0]. }
      { rewrite map_app. apply NoDup_app. split; [done|]. split; [|apply NoDup_singleton].
        intros x (s & -> & Hs)%elem_of_list_fmap Hx. cbn in Hx. apply elem_of_list_singleton in Hx.
        specialize (Hacc s Hs). rewrite Hx, Hn0 in Hacc. congruence. }
      split; [|done]. intros s Hs. destruct (H1 s Hs) as [Hc Hor]. split; [done|]. destruct Hor as [[Ha| ->%elem_of_list_singleton]%elem_of_app|(Hf & q' & Hq' & Hs')].
      * by left.
      * right. rewrite Hn0. split; [done|]. exists q. split; [by apply elem_of_list_here|done].
      * right. split; [|exists q'; split; [by apply elem_of_list_further|done]].
        apply not_true_is_false. intros Ht. apply not_true_iff_false in Hf. apply Hf, e_contains_add. by right.
Qed.
(** everybody not yet marked is in the answer, or it is a direct delivery *)
Lemma e_query_covers clas p : forall ps h acc h' ss del, e_query clas p h ps acc = Some (h', (ss, del)) ->
  if del then exists q s, q ∈ ps /\ first_cla clas q = Some s /\ eid_node (p_dst p) = Some (node_name q) /\
                e_contains h (p_id p) (node_name q) = false /\ ss = [s]
  else (forall s, s ∈ acc -> s ∈ ss) /\
       forall q, q ∈ ps -> is_Some (first_cla clas q) -> e_contains h (p_id p) (node_name q) = false ->
         exists s, s ∈ ss /\ hop_name s = node_name q.
Proof.
  induction ps as [|q ps IH]; intros h acc h' ss del; cbn [e_query].
  - intros [= <- <- <-]. split; [done|]. by intros q ?%elem_of_nil.
  - destruct (e_contains h (p_id p) (node_name q)) eqn:Ec; [|destruct (first_cla clas q) as [s0|] eqn:Es].
    + intros Hq. specialize (IH _ _ _ _ _ Hq). destruct del.
      * destruct IH as (q' & s & Hq' & ?). exists q', s. split; [by apply elem_of_list_further|done].
      * destruct IH as [H1 H2]. split; [done|]. intros q' [->|Hq']%elem_of_cons; [congruence|by apply H2].
    + pose proof (first_cla_name _ _ _ Es) as Hn0. destruct (eid_node (p_dst p)) as [d|] eqn:Ed; [|done]. case_bool_decide as Hd.
      * intros [= <- <- <-]. exists q, s0. split; [by apply elem_of_list_here|]. subst d. done.
      * intros Hq. specialize (IH _ _ _ _ _ Hq). destruct del.
        -- destruct IH as (q' & s & Hq' & H1 & H2 & H3 & H4). exists q', s. split; [by apply elem_of_list_further|]. repeat (split; [done|]).
           split; [|done]. apply not_true_is_false. intros Ht. apply not_true_iff_false in H3. apply H3, e_contains_add. by right.
        -- destruct IH as [H1 H2]. split; [intros s Hs; apply H1, elem_of_app; by left|].
           intros q' [->|Hq']%elem_of_cons Hr Hc.
           { exists s0. split; [apply H1, elem_of_app; right; by apply elem_of_list_singleton|done]. }
           destruct (decide (node_name q' = node_name q)) as [E|E].
           { exists s0. split; [apply H1, elem_of_app; right; by apply elem_of_list_singleton|congruence]. }
           apply H2; [done|done|]. apply not_true_is_false. intros [[_ ?]|?]%e_contains_add; congruence.
    + intros Hq. specialize (IH _ _ _ _ _ Hq). destruct del.
      * destruct IH as (q' & s & Hq' & ?). exists q', s. split; [by apply elem_of_list_further|done].
      * destruct IH as [H1 H2]. split; [done|]. intros q' [->|Hq']%elem_of_cons Hr; [by rewrite Es in Hr; destruct Hr|by apply H2].
Qed.
Lemma e_query_direct clas p : forall ps h acc h' ss del q s, e_query clas p h ps acc = Some (h', (ss, del)) ->
  NoDup (map node_name ps) -> q ∈ ps -> first_cla clas q = Some s -> eid_node (p_dst p) = Some (node_name q) ->
  e_contains h (p_id p) (node_name q) = false -> ss = [s] /\ del = true.
Proof.
  induction ps as [|q0 ps IH]; intros h acc h' ss del q s; [by intros _ _ ?%elem_of_nil|]. cbn [e_query map].
  intros Hq [Hn0 Hnd]%NoDup_cons [->|Hin]%elem_of_cons Hs Hd Hc.
  - rewrite Hc, Hs, Hd, bool_decide_true in Hq by done. by injection Hq as _ <- <-.
  - assert (Hne : node_name q0 <> node_name q). { intros E. apply Hn0. rewrite E. apply elem_of_list_fmap. eauto. }
    destruct (e_contains h (p_id p) (node_name q0)); [by eapply IH|]. destruct (first_cla clas q0) as [s0|]; [|by eapply IH].
    rewrite Hd, bool_decide_false in Hq by congruence. eapply IH; try done.
    apply not_true_is_false. intros [[_ ?]|?]%e_contains_add; congruence.
Qed.
Lemma e_query_alive clas p : forall ps h acc, p_dst p <> DtnNone -> is_Some (e_query clas p h ps acc).
Proof.
  intros ps h acc Hd. revert h acc. induction ps as [|q ps IH]; intros h acc; cbn; [by eexists|].
  destruct (e_contains _ _ _); [apply IH|]. destruct (first_cla clas q); [|apply IH].
  destruct (eid_node (p_dst p)) eqn:E; [|by destruct (p_dst p)]. case_bool_decide; [by eexists|apply IH].
Qed.

(** events of a history *)
Notation event := (rcmd * option answer)%type.
Definition hands (e : event) (id n : string) : Prop :=
  exists p ps clas ss del s, e = (RSender p ps clas, Some (ss, del)) /\ p_id p = id /\ s ∈ ss /\ hop_name s = n.
Definition fails (e : event) (id n : string) : Prop := fst e = RNotify (SendingFailed id n).
Definition came_from (e : event) (id n : string) : Prop :=
  n <> "" /\ (fst e = RNotify (IncomingNoPrev id n) \/
    exists b p, fst e = RNotify (IncomingBundle b) /\ bid b = id /\ previous_node b = Some p /\ eid_node p = Some n).
(** asked for while the node was reachable *)
Definition asked (e : event) (id n : string) : Prop :=
  exists p ps clas a q, e = (RSender p ps clas, Some a) /\ p_id p = id /\ q ∈ ps /\ node_name q = n /\ is_Some (first_cla clas q).

Lemma e_step_keeps h c h' a id n : e_step h c = Some (h', a) -> e_contains h id n = true ->
  c <> RNotify (SendingFailed id n) -> e_contains h' id n = true.
Proof.
  intros Hs Hc Hf. destruct c as [p ps clas|nf|]; cbn in Hs.
  - destruct (e_query clas p h ps []) as [[h1 a1]|] eqn:E; [|done]. injection Hs as <- <-. by eapply e_query_mono.
  - destruct nf as [i m| |b|i m| |]; injection Hs as <- <-; try done.
    + apply e_contains_failed. split; [done|]. intros [-> ->]. done.
    + destruct (previous_node b) as [e|]; [|done]. destruct (eid_node e); [|done]. apply e_contains_incoming. by left.
    + apply e_contains_incoming. by left.
  - by injection Hs as <- <-.
Qed.
Lemma e_step_hands h c h' a id n : e_step h c = Some (h', a) -> hands (c, a) id n ->
  e_contains h id n = false /\ e_contains h' id n = true.
Proof.
  intros Hs (p & ps & clas & ss & del & s & [= -> ->] & <- & Hin & <-). cbn in Hs.
  destruct (e_query clas p h ps []) as [[h1 a1]|] eqn:E; [|done]. injection Hs as <- ->.
  destruct (e_query_answer _ _ _ _ _ _ _ _ E) as [H1 _]; [by intros ? ?%elem_of_nil|apply NoDup_nil_2|].
  destruct (H1 s Hin) as [? [?%elem_of_nil|[? _]]]; done.
Qed.
Lemma e_step_came h c h' a id n : e_step h c = Some (h', a) -> came_from (c, a) id n -> e_contains h' id n = true.
Proof.
  intros Hs (Hn & [H|(b & p & H & <- & Hp & Hnode)]); cbn in H; subst c; cbn in Hs; injection Hs as <- <-.
  - apply e_contains_incoming. right. done.
  - rewrite Hp, Hnode. apply e_contains_incoming. by right.
Qed.
Lemma e_marked_not_handed cs : forall h id n l1 e l2, e_contains h id n = true ->
  arun e_step (Some h) cs = l1 ++ e :: l2 -> hands e id n -> exists x, x ∈ l1 /\ fails x id n.
Proof.
  induction cs as [|c cs IH]; intros h id n l1 e l2 Hc Hrun He; [by destruct l1|]. cbn in Hrun.
  destruct (e_step h c) as [[h' a]|] eqn:Es; cbn in Hrun.
  - destruct l1 as [|x l1]; cbn in Hrun; injection Hrun as Hx Hrun.
    + subst e. destruct (e_step_hands _ _ _ _ _ _ Es He). congruence.
    + subst x. assert (Hdec : c = RNotify (SendingFailed id n) \/ c <> RNotify (SendingFailed id n)).
      { destruct c as [|[i m| | | | |]|]; try by right. destruct (decide (i = id)) as [->|], (decide (m = n)) as [->|]; try (by left); right; congruence. }
      destruct Hdec as [->|Hf]; [exists (RNotify (SendingFailed id n), a); split; [apply elem_of_list_here|done]|].
      destruct (IH h' id n l1 e l2) as (x & Hx & Hfx); [by eapply e_step_keeps|done|done|]. exists x. split; [by apply elem_of_list_further|done].
  - exfalso. rewrite arun_dead in Hrun. assert (Hin : e ∈ (c, None) :: map (fun c => (c, None)) cs).
    { rewrite Hrun. apply elem_of_app. right. apply elem_of_list_here. }
    destruct He as (p & ps & clas & ss & del & s & -> & _).
    apply elem_of_cons in Hin as [?|(c' & ? & _)%elem_of_list_fmap]; done.
Qed.
Lemma astate_alive_prefix {S} (step : S -> rcmd -> option (S * option answer)) s c1 c2 s' :
  astate step s (c1 ++ c2) = Some s' -> exists s1, astate step s c1 = Some s1.
Proof. rewrite astate_app. destruct (astate step s c1); [eauto|by rewrite astate_dead]. Qed.
(** what the history says when an entry exists *)
Lemma e_marked_why cs : forall h id n, astate e_step (Some ∅) cs = Some h -> e_contains h id n = true ->
  exists l1 e l2, arun e_step (Some ∅) cs = l1 ++ e :: l2 /\ (asked e id n \/ came_from e id n) /\ forall x, x ∈ l2 -> ~ fails x id n.
Proof.
  induction cs as [|c cs IH] using rev_ind; intros h id n Hs Hc.
  { cbn in Hs. injection Hs as <-. unfold e_contains in Hc. by rewrite lookup_empty in Hc. }
  destruct (astate_alive_prefix _ _ _ _ _ Hs) as [h0 Hh0]. rewrite astate_app, Hh0 in Hs. cbn in Hs.
  destruct (e_step h0 c) as [[h1 a]|] eqn:Es; [|done]. cbn in Hs. injection Hs as <-.
  rewrite arun_app, Hh0. cbn. rewrite Es.
  assert (Hold : e_contains h0 id n = true -> ~ fails (c, a) id n ->
    exists l1 e l2, arun e_step (Some ∅) cs ++ [(c, a)] = l1 ++ e :: l2 /\ (asked e id n \/ came_from e id n) /\ forall x, x ∈ l2 -> ~ fails x id n).
  { intros H0 Hf. destruct (IH h0 id n Hh0 H0) as (l1 & e & l2 & -> & He & Hl2). exists l1, e, (l2 ++ [(c, a)]). split; [by rewrite <- app_assoc|].
    split; [done|]. intros x [Hx| ->%elem_of_list_singleton]%elem_of_app; [by apply Hl2|done]. }
  assert (Hnew : (asked (c, a) id n \/ came_from (c, a) id n) ->
    exists l1 e l2, arun e_step (Some ∅) cs ++ [(c, a)] = l1 ++ e :: l2 /\ (asked e id n \/ came_from e id n) /\ forall x, x ∈ l2 -> ~ fails x id n).
  { intros H. exists (arun e_step (Some ∅) cs), (c, a), []. split; [done|]. split; [done|]. by intros x ?%elem_of_nil. }
  destruct c as [p ps clas|nf|]; cbn in Es.
  - destruct (e_query clas p h0 ps []) as [[h2 a1]|] eqn:E; [|done]. injection Es as <- <-.
    destruct (e_query_marks _ _ _ _ _ _ _ E id n Hc) as [H|(-> & q & s & Hq & Hn & Hf)]; [by apply Hold|].
    apply Hnew. left. exists p, ps, clas, a1, q. repeat (split; [done|]). by eexists.
  - destruct nf as [i m| |b|i m| |]; injection Es as <- <-; try by apply Hold.
    + apply e_contains_failed in Hc as [Hc Hne]. apply Hold; [done|]. intros [= -> ->]. by apply Hne.
    + destruct (previous_node b) as [e|] eqn:Ep; [|by apply Hold]. destruct (eid_node e) as [m|] eqn:Em; [|by apply Hold].
      apply e_contains_incoming in Hc as [Hc|(Hm & -> & ->)]; [by apply Hold|]. apply Hnew. right. split; [done|]. right. exists b, e. done.
    + apply e_contains_incoming in Hc as [Hc|(Hm & -> & ->)]; [by apply Hold|]. apply Hnew. right. split; [done|]. by left.
  - injection Es as <- <-. by apply Hold.
Qed.
(** without direct deliveries of that bundle, an entry means handed out or
    received from there *)
Lemma e_marked_handed cs : forall h id n, astate e_step (Some ∅) cs = Some h -> e_contains h id n = true ->
  (forall p ps clas ss, (RSender p ps clas, Some (ss, true)) ∈ arun e_step (Some ∅) cs -> p_id p <> id) ->
  exists l1 e l2, arun e_step (Some ∅) cs = l1 ++ e :: l2 /\ (hands e id n \/ came_from e id n) /\ forall x, x ∈ l2 -> ~ fails x id n.
Proof.
  induction cs as [|c cs IH] using rev_ind; intros h id n Hs Hc Hnd.
  { cbn in Hs. injection Hs as <-. unfold e_contains in Hc. by rewrite lookup_empty in Hc. }
  destruct (astate_alive_prefix _ _ _ _ _ Hs) as [h0 Hh0]. rewrite astate_app, Hh0 in Hs. cbn in Hs.
  destruct (e_step h0 c) as [[h1 a]|] eqn:Es; [|done]. cbn in Hs. injection Hs as <-.
  rewrite arun_app, Hh0 in Hnd |- *. cbn in Hnd |- *. rewrite Es in Hnd |- *.
  assert (Hold : e_contains h0 id n = true -> ~ fails (c, a) id n ->
    exists l1 e l2, arun e_step (Some ∅) cs ++ [(c, a)] = l1 ++ e :: l2 /\ (hands e id n \/ came_from e id n) /\ forall x, x ∈ l2 -> ~ fails x id n).
  { intros H0 Hf. destruct (IH h0 id n Hh0 H0) as (l1 & e & l2 & -> & He & Hl2).
    { intros p ps clas ss Hin. eapply Hnd, elem_of_app. left. exact Hin. }
    exists l1, e, (l2 ++ [(c, a)]). split; [by rewrite <- app_assoc|].
    split; [done|]. intros x [Hx| ->%elem_of_list_singleton]%elem_of_app; [by apply Hl2|done]. }
  assert (Hnew : (hands (c, a) id n \/ came_from (c, a) id n) ->
    exists l1 e l2, arun e_step (Some ∅) cs ++ [(c, a)] = l1 ++ e :: l2 /\ (hands e id n \/ came_from e id n) /\ forall x, x ∈ l2 -> ~ fails x id n).
  { intros H. exists (arun e_step (Some ∅) cs), (c, a), []. split; [done|]. split; [done|]. by intros x ?%elem_of_nil. }
  destruct c as [p ps clas|nf|]; cbn in Es.
  - destruct (e_query clas p h0 ps []) as [[h2 [ss del]]|] eqn:E; [|done]. injection Es as <- <-.
    destruct (e_query_marks _ _ _ _ _ _ _ E id n Hc) as [H|(-> & q & s & Hq & Hn & Hf)]; [by apply Hold|].
    destruct (e_contains h0 (p_id p) n) eqn:Eo; [by apply Hold|].
    destruct del.
    { exfalso. eapply Hnd; [|done]. apply elem_of_app. right. apply elem_of_list_here. }
    pose proof (e_query_covers _ _ _ _ _ _ _ _ E) as [_ Hcov].
    destruct (Hcov q Hq) as (s' & Hs' & Hn'); [by eexists|by rewrite Hn|].
    apply Hnew. left. exists p, ps, clas, ss, false, s'. repeat (split; [done|]). congruence.
  - destruct nf as [i m| |b|i m| |]; injection Es as <- <-; try by apply Hold.
    + apply e_contains_failed in Hc as [Hc Hne]. apply Hold; [done|]. intros [= -> ->]. by apply Hne.
    + destruct (previous_node b) as [e|] eqn:Ep; [|by apply Hold]. destruct (eid_node e) as [m|] eqn:Em; [|by apply Hold].
      apply e_contains_incoming in Hc as [Hc|(Hm & -> & ->)]; [by apply Hold|]. apply Hnew. right. split; [done|]. right. exists b, e. done.
    + apply e_contains_incoming in Hc as [Hc|(Hm & -> & ->)]; [by apply Hold|]. apply Hnew. right. split; [done|]. by left.
  - injection Es as <- <-. by apply Hold.
Qed.
