(** Counting bundles in the application agents and websocket sessions. *)
From stdpp Require Import prelude strings pretty gmap.
From Coq Require Import NArith Lia ZifyBool ZifyN ZifyNat.
From Verif Require Import Core Routing Apps AppsProofs.
Open Scope nat_scope.

Section cnt.
Context {A : Type} `{EqDecision A}.
Fixpoint cnt (x : A) (l : list A) : nat := match l with [] => 0 | y :: l => (if decide (x = y) then 1 else 0) + cnt x l end.
Lemma cnt_app x l1 l2 : cnt x (l1 ++ l2) = cnt x l1 + cnt x l2.
Proof. induction l1 as [|y l IH]; cbn; [done|]. rewrite IH. lia. Qed.
Lemma cnt_in x l : x ∈ l -> 1 <= cnt x l.
Proof. induction 1 as [x l|x y l _ IH]; cbn; [rewrite decide_True by done; lia|lia]. Qed.
Lemma cnt_not_in x l : x ∉ l -> cnt x l = 0.
Proof. induction l as [|y l IH]; [done|]. intros [H1 H2]%not_elem_of_cons. cbn. rewrite decide_False by done. by apply IH. Qed.
Lemma cnt_perm x l1 l2 : l1 ≡ₚ l2 -> cnt x l1 = cnt x l2.
Proof. induction 1; cbn; lia. Qed.
Lemma cnt_submseteq l1 : forall l2, (forall x, cnt x l1 <= cnt x l2) -> l1 ⊆+ l2.
Proof.
  induction l1 as [|a l1 IH]; intros l2 H; [apply submseteq_nil_l|].
  assert (Ha : a ∈ l2). { destruct (decide (a ∈ l2)) as [|Hn]; [done|]. specialize (H a). cbn in H. rewrite decide_True in H by done. rewrite (cnt_not_in a l2) in H by done. lia. }
  apply elem_of_Permutation in Ha as [l2' E]. rewrite E. apply submseteq_skip. apply IH. intros x. specialize (H x). rewrite (cnt_perm x _ _ E) in H. cbn in H. lia.
Qed.
Lemma submseteq_cnt l1 l2 x : l1 ⊆+ l2 -> cnt x l1 <= cnt x l2.
Proof. intros H. apply submseteq_Permutation in H as [k E]. rewrite (cnt_perm x _ _ E), cnt_app. lia. Qed.
End cnt.

Fixpoint sum (l : list nat) : nat := match l with [] => 0 | a :: l => a + sum l end.
Lemma sum_app l1 l2 : sum (l1 ++ l2) = sum l1 + sum l2.
Proof. induction l1 as [|a l IH]; cbn; lia. Qed.
(** the bundles in the hands of the node *)
Definition ses_bundles (s : session) : list bundle := ws_chan s ++ option_list (ws_hand s) ++ map fst (ws_held s).
Definition in_agents (x : bundle) (l : list agent) : nat := sum (map (fun a => cnt x (ag_queue a)) l).
Definition in_sessions (x : bundle) (l : list session) : nat := sum (map (fun s => cnt x (ses_bundles s)) l).
Definition inside (x : bundle) (st : apps) : nat := in_agents x (a_agents st) + in_sessions x (a_sessions st).

Lemma in_agents_alter x e f l : (forall a, ag_eid (f a) = ag_eid a) ->
  in_agents x (alter_agent e f l) + match find_agent e l with Some a => cnt x (ag_queue a) | None => 0 end =
  in_agents x l + match find_agent e l with Some a => cnt x (ag_queue (f a)) | None => 0 end.
Proof.
  intros Hf. unfold in_agents, find_agent in *. induction l as [|a l IH]; cbn; [done|].
  destruct (bool_decide (e = ag_eid a)); cbn; lia.
Qed.
Lemma in_agents_same x e f l : (forall a, ag_eid (f a) = ag_eid a) -> (forall a, ag_queue (f a) = ag_queue a) -> in_agents x (alter_agent e f l) = in_agents x l.
Proof. intros H1 H2. pose proof (in_agents_alter x e f l H1) as H. destruct (find_agent e l) as [a|]; [rewrite H2 in H|]; lia. Qed.
Lemma in_agents_register x e l : in_agents x (register e l) = in_agents x l.
Proof. unfold register, in_agents. destruct (known e l); [done|]. rewrite map_app, sum_app. cbn. lia. Qed.
Lemma in_agents_unregister x e l : in_agents x (unregister e l) <= in_agents x l.
Proof. unfold in_agents. induction l as [|a l IH]; cbn; [done|]. case_bool_decide; cbn; lia. Qed.
Lemma in_sessions_insert x i s s' l : l !! i = Some s -> in_sessions x (<[i := s']> l) + cnt x (ses_bundles s) = in_sessions x l + cnt x (ses_bundles s').
Proof.
  unfold in_sessions. revert i. induction l as [|a l IH]; intros [|i]; try done.
  - intros [= ->]. cbn. lia.
  - intros H. specialize (IH i H). change (<[S i := s']> (a :: l)) with (a :: <[i := s']> l). cbn [map sum]. lia.
Qed.

Section ws.
Context (parse_eid : string -> option eid) (host : eid) (local_eid : string -> option eid).
Context (dec_bundle : list N -> option bundle) (dec_send : fmt -> list N -> option send_data).
Notation step := (step parse_eid host local_eid dec_bundle dec_send).
Notation run := (run parse_eid host local_eid dec_bundle dec_send).
Definition accepted1 (v : ev) : list bundle := match v with EDeliver b Queued | EDeliver b (Passed _) => [b] | _ => [] end.
Definition out1 (v : ev) : list bundle :=
  match v with EPoll _ (Some b) | EHand _ b | EWork _ WFlush (Some b) => [b] | _ => [] end.
Lemma step_count x st v st' : step st v st' -> cnt x (out1 v) + inside x st' <= cnt x (accepted1 v) + inside x st.
Proof.
  intros H. unfold inside.
  assert (I : forall i s s', a_sessions st !! i = Some s -> in_sessions x (<[i := s']> (a_sessions st)) + cnt x (ses_bundles s) = in_sessions x (a_sessions st) + cnt x (ses_bundles s')) by (intros; by apply in_sessions_insert).
  assert (I2 : forall i s s', a_sessions st !! i = Some s -> ses_bundles s' = ses_bundles s -> in_sessions x (<[i := s']> (a_sessions st)) = in_sessions x (a_sessions st)).
  { intros i s s' H1 H2. specialize (I i s s' H1). rewrite H2 in I. lia. }
  destruct H as [st e|st e|st b Hn|st b a Ha Hno|st b a i s Ha Hi Hs Hac|st e r Hr|st|st i s t Hs Ho Hj|st i s d cts s' ob Hs Ho Hj Hb|st i s Hs Ho Hj|st i s Hs Ho Hj
    |st i s e l Hs Hj|st i s e l Hs Hj|st i s t l Hs Hj|st i s ord l Hs Hj Hord|st i s e l r Hs Hj Hr|st i s b o h l Hs Hj Hh|st i s l Hs Hj Hh|st i s e l Hs Hj|st i s b l Hs Ho Hh Hc|st i s b Hs Ho Hj Hh|st i s ord Hs Ho Hord|st i s Hs Ho];
    cbn [a_agents a_sessions upd set_session out1 accepted1 cnt].
  - rewrite in_agents_register. lia.
  - pose proof (in_agents_unregister x e (a_agents st)). lia.
  - lia.
  - pose proof (in_agents_alter x (b_dst b) (put b) (a_agents st) ltac:(done)) as E. rewrite Ha in E. cbn [put ag_queue] in E. rewrite cnt_app in E. cbn in E. lia.
  - specialize (I i s (with_chan s (ws_chan s ++ [b]) (ws_hand s)) Hs). unfold ses_bundles in I. cbn in I. rewrite !cnt_app in I. cbn in I. lia.
  - pose proof (in_agents_alter x e take_first (a_agents st) ltac:(done)) as E. subst r. destruct (find_agent e (a_agents st)) as [a|]; cbn [cnt]; [|lia].
    cbn [take_first ag_queue] in E. destruct (ag_queue a) as [|b q]; cbn in *; lia.
  - unfold in_sessions. rewrite map_app, sum_app. cbn. lia.
  - rewrite (I2 i s _ Hs); [lia|]. unfold ses_bundles. destruct (on_text_same parse_eid host local_eid (a_agents st) s t) as (-> & -> & _ & _ & -> & _). done.
  - rewrite (I2 i s _ Hs); [lia|]. unfold ses_bundles. pose proof (on_binary_same parse_eid dec_bundle dec_send cts s d) as E. rewrite Hb in E. cbn [fst] in E. destruct E as (-> & -> & _ & _ & -> & _). done.
  - rewrite (I2 i s _ Hs) by done. lia.
  - lia.
  - rewrite in_agents_same by done. rewrite (I2 i s _ Hs) by done. lia.
  - rewrite (I2 i s _ Hs) by done. lia.
  - rewrite (I2 i s _ Hs) by done. lia.
  - rewrite (I2 i s _ Hs) by done. lia.
  - pose proof (in_agents_alter x e take_first (a_agents st) ltac:(done)) as E.
    match goal with |- context [<[i := ?s']> (a_sessions st)] => specialize (I i s s' Hs) end. unfold ses_bundles in I. cbn in I. subst r.
    destruct (find_agent e (a_agents st)) as [a|]; cbn [cnt].
    + cbn [take_first ag_queue] in E. destruct (ag_queue a) as [|b q]; cbn in *.
      * rewrite app_nil_r in I |- *. lia.
      * rewrite map_app, !cnt_app in I. destruct (render (ws_mode s) b); cbn in I; lia.
    + cbn in *. rewrite app_nil_r in I |- *. lia.
  - specialize (I i s (with_out (with_held s h) (ws_out s ++ [o])) Hs). unfold ses_bundles in I. cbn in I. rewrite Hh in I. rewrite !cnt_app in I. cbn in I. lia.
  - rewrite (I2 i s _ Hs) by done. lia.
  - rewrite in_agents_same by done. rewrite (I2 i s _ Hs) by done. lia.
  - specialize (I i s (with_chan s l (Some b)) Hs). unfold ses_bundles in I. cbn in I. rewrite Hc, Hh in I. rewrite !cnt_app in I. cbn in I. lia.
  - match goal with |- context [<[i := ?s']> (a_sessions st)] => specialize (I i s s' Hs) end. unfold ses_bundles in I. cbn in I. rewrite Hh in I. rewrite !cnt_app in I. cbn in I. lia.
  - match goal with |- context [<[i := ?s']> (a_sessions st)] => specialize (I i s s' Hs) end. unfold ses_bundles in I. cbn in I. rewrite !cnt_app in I. cbn in I. lia.
  - match goal with |- context [<[i := ?s']> (a_sessions st)] => specialize (I i s s' Hs) end. unfold ses_bundles in I. cbn in I. rewrite !cnt_app in I. cbn in I. lia.
Qed.
Lemma run_count x st tr st' : run st tr st' -> cnt x (flat_map out1 tr) + inside x st' <= cnt x (flat_map accepted1 tr) + inside x st.
Proof.
  induction 1 as [|st v st1 tr st' Hs _ IH]; [cbn; lia|]. cbn [flat_map]. rewrite !cnt_app. pose proof (step_count x _ _ _ Hs). lia.
Qed.
End ws.
