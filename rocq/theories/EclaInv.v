(** Invariants of external convergence layers (C53). *)
From stdpp Require Import prelude strings pretty gmap.
From Coq Require Import NArith Lia.
From Verif Require Import Bytes Cbor Core IdProofs PullProofs Peers Routing Beacon Ecla EclaProofs.
Open Scope N_scope.

Definition acc (s : ecla) (i : nat) (n : string) : Prop := OAccepted i n ∈ e_log s.
Definition owning (p : phase) : bool := match p with Up | Left1 => true | _ => false end.
Definition mapped (p : phase) : bool := match p with Up | Left1 | Left2 => true | _ => false end.
Definition entered (p : phase) : bool := match p with Fresh | Up => true | _ => false end.
Definition injects (o : obs) : option nat := match o with OBundle i _ | OPeer i _ => Some i | _ => None end.

Record einv (builtin : list layer) (s : ecla) : Prop := {
  v_addr : forall i t, e_tasks s !! i = Some t ->
    match t_kind t with WS => exists n, n < e_ids s /\ t_addr t = ws_addr n | TCP => exists ip port, t_addr t = tcp_addr ip port end;
  v_uniq : forall i j t u, e_tasks s !! i = Some t -> e_tasks s !! j = Some u -> t_addr t = t_addr u ->
    t_phase t <> Finished -> t_phase u <> Finished -> i = j;
  v_conn : forall i t, e_tasks s !! i = Some t -> entered (t_phase t) = true -> is_Some (e_conns s !! (t_kind t, t_addr t));
  v_mod : forall i t, e_tasks s !! i = Some t -> mapped (t_phase t) = true ->
    exists act n, e_modules s !! t_addr t = Some (Module act n (t_kind t)) /\
      (forall m, acc s i m <-> act = true /\ m = n) /\ (act = false -> n = "");
  v_own : forall a m, e_modules s !! a = Some m -> exists i t, e_tasks s !! i = Some t /\ t_addr t = a /\ mapped (t_phase t) = true;
  v_acc : forall i n, acc s i n -> n <> "" /\ exists t, e_tasks s !! i = Some t /\ t_phase t <> Fresh;
  v_ext : forall l, l ∈ e_layers s -> ly_ext l = true ->
    exists i t, e_tasks s !! i = Some t /\ owning (t_phase t) = true /\ acc s i (ly_name l);
  v_lay : forall i t n, e_tasks s !! i = Some t -> owning (t_phase t) = true -> acc s i n ->
    exists l, filter (fun l => ly_name l = n) (e_layers s) = [l] /\ ly_ext l = true;
  v_dist : forall i j t u n, e_tasks s !! i = Some t -> e_tasks s !! j = Some u -> owning (t_phase t) = true -> owning (t_phase u) = true ->
    acc s i n -> acc s j n -> i = j;
  v_builtin : filter (fun l => ly_ext l = false) (e_layers s) = builtin;
  v_log : forall l1 o l2 i, e_log s = l1 ++ o :: l2 -> injects o = Some i -> exists n, OAccepted i n ∈ l1
}.

Lemma quiet_acc s s' i n : quiet s s' -> acc s' i n <-> acc s i n.
Proof.
  intros Hq. destruct (q_log _ _ Hq) as (l & E & Hl). unfold acc. rewrite E, elem_of_app. split; [|auto].
  intros [H|H]; [done|]. rewrite Forall_forall in Hl. by apply Hl in H.
Qed.
Lemma log_snoc (log l : list obs) : Forall harmless l ->
  (forall l1 o l2 i, log = l1 ++ o :: l2 -> injects o = Some i -> exists n, OAccepted i n ∈ l1) ->
  (forall l1 o l2 i, log ++ l = l1 ++ o :: l2 -> injects o = Some i -> exists n, OAccepted i n ∈ l1).
Proof.
  intros Hl H l1 o l2 i E Ho. apply app_eq_inv in E as [(k & E1 & E2)|(k & E1 & E2)].
  - destruct k as [|o' k]; cbn in E2.
    + exfalso. subst l. apply Forall_cons in Hl as [Hh _]. by destruct o.
    + injection E2 as <- ->. eapply H; [|exact Ho]. rewrite E1. done.
  - exfalso. rewrite E2 in Hl. apply Forall_app in Hl as [_ Hl]. apply Forall_cons in Hl as [Hh _]. by destruct o.
Qed.
Lemma log_one (log : list obs) o0 : (forall i, injects o0 = Some i -> exists n, OAccepted i n ∈ log) ->
  (forall l1 o l2 i, log = l1 ++ o :: l2 -> injects o = Some i -> exists n, OAccepted i n ∈ l1) ->
  (forall l1 o l2 i, log ++ [o0] = l1 ++ o :: l2 -> injects o = Some i -> exists n, OAccepted i n ∈ l1).
Proof.
  intros H0 H l1 o l2 i E Ho. destruct l2 as [|o' l2 _] using rev_ind.
  - apply app_inj_tail in E as [<- <-]. by apply H0.
  - rewrite app_comm_cons, app_assoc in E. apply app_inj_tail in E as [E _]. by eapply H.
Qed.
Lemma einv_quiet b s s' : quiet s s' -> einv b s -> einv b s'.
Proof.
  intros Hq [h1 h2 h3 h4 h5 h6 h7 h8 h9 h10 h11].
  assert (Ha : forall i n, acc s' i n <-> acc s i n) by (intros; by apply quiet_acc).
  destruct Hq as [q1 q2 q3 q4 q5 q6 q7 q8 (l & q9 & q10)].
  split; rewrite ?q1, ?q2, ?q5, ?q7; try done.
  - intros i t. rewrite q8. apply h3.
  - intros i t Ht Hm. destruct (h4 i t Ht Hm) as (x & n & H1 & H2 & H3). exists x, n. split; [done|]. split; [|done]. intros m. by rewrite Ha.
  - intros i n. rewrite Ha. apply h6.
  - intros x Hx He. destruct (h7 x Hx He) as (i & t & H1 & H2 & H3). exists i, t. by rewrite Ha.
  - intros i t n. rewrite Ha. apply h8.
  - intros i j t u n. rewrite !Ha. apply h9.
  - rewrite q9. by apply log_snoc.
Qed.
Lemma upd_lookup i j f s : e_tasks (upd i f s) !! j = if decide (i = j) then f <$> e_tasks s !! j else e_tasks s !! j.
Proof. unfold upd. cbn. case_decide as H; [subst; apply list_lookup_alter|by apply list_lookup_alter_ne]. Qed.
(** no change of phase, kind and address *)
Lemma einv_gone b i s : einv b s -> einv b (upd i set_gone s).
Proof.
  intros [h1 h2 h3 h4 h5 h6 h7 h8 h9 h10 h11].
  assert (Hl : forall j t, e_tasks (upd i set_gone s) !! j = Some t ->
    exists u, e_tasks s !! j = Some u /\ t_kind t = t_kind u /\ t_addr t = t_addr u /\ t_phase t = t_phase u).
  { intros j t. rewrite upd_lookup. case_decide; [|eauto]. destruct (e_tasks s !! j) as [u|]; [|done]. cbn. intros [= <-]. eauto. }
  assert (Hr : forall j u, e_tasks s !! j = Some u -> exists t, e_tasks (upd i set_gone s) !! j = Some t /\ t_addr t = t_addr u /\ t_phase t = t_phase u).
  { intros j t H. rewrite upd_lookup. case_decide; [|eauto]. rewrite H. cbn. eauto. }
  split; try done.
  - intros j t (u & Hu & -> & -> & _)%Hl. by apply (h1 j u).
  - intros j k t u (t' & Ht & _ & -> & ->)%Hl (u' & Hu & _ & -> & ->)%Hl. by apply h2.
  - intros j t (u & Hu & -> & -> & ->)%Hl. by apply (h3 j).
  - intros j t (u & Hu & -> & -> & ->)%Hl. by apply (h4 j).
  - intros a m Hm. destruct (h5 a m Hm) as (j & u & Hu & <- & Hp). destruct (Hr j u Hu) as (t & Ht & Ha & Hp'). exists j, t. by rewrite Ha, Hp'.
  - intros j n Hn. destruct (h6 j n Hn) as (Hne & u & Hu & Hp). split; [done|]. destruct (Hr j u Hu) as (t & Ht & Ha & Hp'). exists t. by rewrite Hp'.
  - intros l Hin He. destruct (h7 l Hin He) as (j & u & Hu & Hp & Hac). destruct (Hr j u Hu) as (t & Ht & Ha & Hp'). exists j, t. by rewrite Hp'.
  - intros j t n (u & Hu & _ & _ & ->)%Hl. by apply (h8 j u).
  - intros j k t u n (t' & Ht & _ & _ & ->)%Hl (u' & Hu & _ & _ & ->)%Hl. by apply h9.
Qed.

(** the tasks after the phase of one has changed *)
Lemma upd_cases i f s t0 : e_tasks s !! i = Some t0 -> forall j t, e_tasks (upd i f s) !! j = Some t ->
  (j = i /\ t = f t0) \/ (j <> i /\ e_tasks s !! j = Some t).
Proof. intros H j t. rewrite upd_lookup. case_decide; [subst; rewrite H; cbn; intros [= <-]; auto|auto]. Qed.
Lemma upd_this i f s t0 : e_tasks s !! i = Some t0 -> e_tasks (upd i f s) !! i = Some (f t0).
Proof. intros H. rewrite upd_lookup, decide_True by done. by rewrite H. Qed.
Lemma upd_other i j f s : j <> i -> e_tasks (upd i f s) !! j = e_tasks s !! j.
Proof. intros H. by rewrite upd_lookup, decide_False. Qed.

Lemma addr_differ n ip port : ws_addr n <> tcp_addr ip port.
Proof.
  intros H. pose proof (pretty_free_colon n) as Hf. unfold ws_addr in H. rewrite H in Hf. unfold tcp_addr in Hf.
  rewrite !free_app in Hf. destruct Hf as (_ & [Hf _] & _). done.
Qed.
Lemma einv_open b k ip port s a n : a = address k ip port s -> n = match k with WS => e_ids s + 1 | TCP => e_ids s end ->
  (k = TCP -> forall t, t ∈ e_tasks s -> t_kind t = TCP -> t_addr t = a -> t_phase t = Finished) ->
  einv b s -> einv b (set_conns (<[(k, a) := Conn true []]> (e_conns s)) (set_ids n (set_tasks (e_tasks s ++ [Task k a Fresh false]) s))).
Proof.
  intros Ha Hn Hr [h1 h2 h3 h4 h5 h6 h7 h8 h9 h10 h11].
  assert (Hnew : forall i t, e_tasks s !! i = Some t -> t_phase t <> Finished -> t_addr t <> a).
  { intros i t Ht Hp E. specialize (h1 i t Ht). destruct (t_kind t) eqn:Ek.
    - destruct h1 as (m & Hm & Hw). destruct k; cbn in Ha; rewrite <- E, Hw in Ha.
      + apply (inj pretty) in Ha. lia.
      + by apply addr_differ in Ha.
    - destruct h1 as (ip' & port' & Hw). destruct k; cbn in Ha.
      + rewrite <- E, Hw in Ha. symmetry in Ha. by apply addr_differ in Ha.
      + apply Hp. apply Hr; try done. by eapply elem_of_list_lookup_2. }
  assert (Hl : forall j t, (e_tasks s ++ [Task k a Fresh false]) !! j = Some t ->
    e_tasks s !! j = Some t \/ (j = length (e_tasks s) /\ t = Task k a Fresh false)).
  { intros j t H. apply lookup_app_Some in H as [H|[H1 H]]; [auto|]. right. apply list_lookup_singleton_Some in H as [H <-].
    split; [lia|done]. }
  assert (Ho : forall j t, e_tasks s !! j = Some t -> (e_tasks s ++ [Task k a Fresh false]) !! j = Some t).
  { intros j t H. by apply lookup_app_l_Some. }
  split; cbn; try done.
  - intros i t [Ht|[_ ->]]%Hl.
    + specialize (h1 i t Ht). destruct (t_kind t); [|done]. destruct h1 as (m & Hm & E). exists m. split; [|done]. destruct k; lia.
    + cbn. destruct k; cbn in Ha; [exists (e_ids s); split; [lia|done]|eauto].
  - intros i j t u [Ht|[-> ->]]%Hl [Hu|[-> ->]]%Hl E Hp Hq; cbn in *.
    + by eapply h2.
    + by destruct (Hnew i t Ht Hp).
    + symmetry in E. by destruct (Hnew j u Hu Hq).
    + done.
  - intros i t [Ht|[-> ->]]%Hl He.
    + apply lookup_insert_is_Some'. right. by eapply h3.
    + cbn. by rewrite lookup_insert.
  - intros i t [Ht|[-> ->]]%Hl He; [|done]. by apply h4.
  - intros x m Hm. destruct (h5 x m Hm) as (i & t & Ht & E & Hp). eauto 6.
  - intros i m Hm. destruct (h6 i m Hm) as (? & t & Ht & Hp). split; [done|]. eauto.
  - intros l Hin He. destruct (h7 l Hin He) as (i & t & Ht & Hp & Hac). eauto 6.
  - intros i t m [Ht|[-> ->]]%Hl He Hac; [|done]. by eapply h8.
  - intros i j t u m [Ht|[-> ->]]%Hl [Hu|[-> ->]]%Hl He Hf; try done. by eapply h9.
Qed.
Lemma einv_init b i k a g s : e_tasks s !! i = Some (Task k a Fresh g) -> einv b s ->
  einv b (upd i (set_phase Up) (set_modules (<[a := Module false "" k]> (e_modules s)) s)).
Proof.
  intros Hi [h1 h2 h3 h4 h5 h6 h7 h8 h9 h10 h11].
  assert (Hno : forall n, ~ acc s i n).
  { intros n Hn. destruct (h6 i n Hn) as (_ & t & Ht & Hp). assert (t = Task k a Fresh g) as -> by congruence. done. }
  set (s' := set_modules _ s). assert (Hi' : e_tasks s' !! i = Some (Task k a Fresh g)) by done.
  assert (Hoth : forall j t, j <> i -> e_tasks s !! j = Some t -> t_phase t <> Finished -> t_addr t <> a).
  { intros j t Hj Ht Hp E. apply Hj. eapply (h2 j i t _ Ht Hi); done. }
  split; try done.
  - intros j t [[-> ->]|[_ Ht]]%(upd_cases _ _ _ _ Hi'); [apply (h1 i _ Hi)|by apply (h1 j)].
  - intros j l t u Ht Hu E Hp Hq. destruct (upd_cases _ _ _ _ Hi' _ _ Ht) as [[-> ->]|[Hj Ht']], (upd_cases _ _ _ _ Hi' _ _ Hu) as [[-> ->]|[Hl Hu']]; cbn in *.
    + done.
    + symmetry in E. by destruct (Hoth l u Hl Hu' Hq).
    + by destruct (Hoth j t Hj Ht' Hp).
    + by eapply h2.
  - intros j t [[-> ->]|[_ Ht]]%(upd_cases _ _ _ _ Hi') He; [by apply (h3 i _ Hi)|by apply (h3 j)].
  - intros j t [[-> ->]|[Hj Ht]]%(upd_cases _ _ _ _ Hi') He; cbn.
    + exists false, "". rewrite lookup_insert. split; [done|]. split; [|done]. intros m. split; [intros H; by destruct (Hno m)|by intros [? _]].
    + destruct (h4 j t Ht He) as (x & n & Hx & Hr). exists x, n. rewrite lookup_insert_ne; [done|].
      intros E. apply (Hoth j t Hj Ht); [by destruct (t_phase t)|done].
  - intros x m Hm. cbn in Hm. apply lookup_insert_Some in Hm as [[<- <-]|[Hne Hm]].
    + exists i, (Task k a Up g). split; [exact (upd_this _ _ _ _ Hi')|done].
    + destruct (h5 x m Hm) as (j & t & Ht & E & Hp). exists j, t. rewrite upd_other; [done|]. intros ->. rewrite Hi in Ht. by injection Ht as <-.
  - intros j n Hn. destruct (h6 j n Hn) as (? & t & Ht & Hp). split; [done|]. exists t. rewrite upd_other; [done|]. intros ->. by destruct (Hno n).
  - intros l Hin He. destruct (h7 l Hin He) as (j & t & Ht & Hp & Hac). exists j, t. rewrite upd_other; [done|]. intros ->. by destruct (Hno (ly_name l)).
  - intros j t n [[-> ->]|[Hj Ht]]%(upd_cases _ _ _ _ Hi') He Hac; [by destruct (Hno n)|by eapply h8].
  - intros j l t u n Ht Hu Hp Hq Ha Hb. destruct (upd_cases _ _ _ _ Hi' _ _ Ht) as [[-> ->]|[Hj Ht']]; [by destruct (Hno n)|].
    destruct (upd_cases _ _ _ _ Hi' _ _ Hu) as [[-> ->]|[Hl Hu']]; [by destruct (Hno n)|]. by eapply h9.
Qed.
Lemma filter_none {A} (P : A -> Prop) `{forall x, Decision (P x)} (l : list A) : (forall x, x ∈ l -> ~ P x) -> filter P l = [].
Proof.
  induction l as [|x l IH]; intros H0; [done|]. rewrite filter_cons_False; [|apply H0; by left]. apply IH. intros y Hy. apply H0. by right.
Qed.
Lemma filter_two {A} (P Q : A -> Prop) `{forall x, Decision (P x)} `{forall x, Decision (Q x)} (l : list A) :
  (forall x, x ∈ l -> P x -> Q x) -> filter P (filter Q l) = filter P l.
Proof.
  induction l as [|x l IH]; intros HPQ; [done|]. specialize (IH ltac:(intros y Hy; apply HPQ; by right)).
  destruct (decide (P x)) as [HP|HP].
  - rewrite (filter_cons_True Q) by (apply HPQ; [by left|done]). rewrite !(filter_cons_True P) by done. by rewrite IH.
  - rewrite (filter_cons_False P) by done. rewrite <- IH. destruct (decide (Q x)).
    + rewrite (filter_cons_True Q) by done. by rewrite (filter_cons_False P).
    + by rewrite (filter_cons_False Q).
Qed.
Lemma einv_register b i k a g n0 name port s k' : e_tasks s !! i = Some (Task k a Up g) -> e_modules s !! a = Some (Module false n0 k') ->
  name <> "" -> name ∉ cla_names s -> einv b s ->
  einv b (note (OAccepted i name) (set_layers (e_layers s ++ [Layer name port true]) (set_modules (<[a := Module true name k']> (e_modules s)) s))).
Proof.
  intros Hi Hm Hne Hnot [h1 h2 h3 h4 h5 h6 h7 h8 h9 h10 h11].
  destruct (h4 i _ Hi eq_refl) as (act & n1 & Hx & Hacc & _). cbn in Hx. rewrite Hm in Hx. injection Hx as <- <- ->.
  assert (Hno : forall m, ~ acc s i m) by (intros m [? _]%Hacc; done).
  set (s' := note _ _).
  assert (Ha : forall j m, acc s' j m <-> acc s j m \/ (j = i /\ m = name)).
  { intros j m. unfold acc, s'. cbn. rewrite elem_of_app, elem_of_list_singleton. split; [intros [H|H]; [auto|injection H as -> ->; auto]|intros [H|[-> ->]]; auto]. }
  assert (Hoth : forall j t, j <> i -> e_tasks s !! j = Some t -> t_phase t <> Finished -> t_addr t <> a).
  { intros j t Hj Ht Hp E. apply Hj. eapply (h2 j i t _ Ht Hi); done. }
  assert (Hname : forall l, l ∈ e_layers s -> ly_name l <> name).
  { intros l Hl E. apply Hnot. unfold cla_names. apply elem_of_list_fmap. eauto. }
  split; try done.
  - intros j t Ht Hp. destruct (decide (j = i)) as [->|Hj].
    + assert (t = Task k a Up g) as -> by (cbn in Ht; congruence). exists true, name. cbn. rewrite lookup_insert. split; [done|].
      split; [|done]. intros m. rewrite Ha. split; [intros [H|[_ ->]]; [by destruct (Hno m)|done]|]. intros [_ ->]. auto.
    + cbn in Ht. destruct (h4 j t Ht Hp) as (x & n & Hx & Hr & Hz). exists x, n. cbn. rewrite lookup_insert_ne.
      * split; [done|]. split; [|done]. intros m. rewrite Ha, <- Hr. split; [intros [?|[? _]]; [done|congruence]|auto].
      * intros E. apply (Hoth j t Hj Ht); [by destruct (t_phase t)|done].
  - intros x m Hxm. cbn in Hxm. apply lookup_insert_Some in Hxm as [[<- <-]|[_ H]]; [exists i; eauto|by eapply h5].
  - intros j m [H|[-> ->]]%Ha; [by apply h6|]. split; [done|]. eauto.
  - intros l Hin He. cbn in Hin. apply elem_of_app in Hin as [Hin| ->%elem_of_list_singleton].
    + destruct (h7 l Hin He) as (j & t & Ht & Hp & Hac). exists j, t. rewrite Ha. auto.
    + exists i, (Task k a Up g). rewrite Ha. auto.
  - intros j t m Ht Hp [H|[-> ->]]%Ha.
    + destruct (h8 j t m Ht Hp H) as (l & Hl & He). exists l. split; [|done]. cbn. rewrite filter_app, Hl, (filter_none _ [_]); [done|].
      intros x ->%elem_of_list_singleton. cbn. intros <-.
      assert (Hin : l ∈ filter (fun l => ly_name l = name) (e_layers s)) by (rewrite Hl; by left).
      apply elem_of_list_filter in Hin as [E Hin]. by apply (Hname l).
    + exists (Layer name port true). split; [|done]. cbn. rewrite filter_app, filter_none by (intros x Hx; by apply Hname).
      rewrite filter_cons_True by done. done.
  - intros j l t u m Ht Hu Hp Hq H1 H2. cbn in Ht, Hu.
    assert (Hclash : forall x v, e_tasks s !! x = Some v -> owning (t_phase v) = true -> ~ acc s x name).
    { intros x v Hv Hpv Hac. destruct (h8 x v name Hv Hpv Hac) as (y & Hy & _).
      assert (Hin : y ∈ filter (fun l => ly_name l = name) (e_layers s)) by (rewrite Hy; by left).
      apply elem_of_list_filter in Hin as [E Hin]. by apply (Hname y). }
    apply Ha in H1, H2. destruct H1 as [H1|[-> ->]], H2 as [H2|[-> E]].
    + by eapply h9.
    + subst m. by destruct (Hclash j t Ht Hp).
    + by destruct (Hclash l u Hu Hq).
    + done.
  - cbn. rewrite filter_app, h10. rewrite (filter_none _ [_]); [by rewrite app_nil_r|]. by intros x ->%elem_of_list_singleton.
  - cbn. apply log_one; [done|exact h11].
Qed.
Lemma einv_note b o i s : injects o = Some i -> (exists n, acc s i n) -> einv b s -> einv b (note o s).
Proof.
  intros Ho Hn [h1 h2 h3 h4 h5 h6 h7 h8 h9 h10 h11].
  assert (Ha : forall j m, acc (note o s) j m <-> acc s j m).
  { intros j m. unfold acc. cbn. rewrite elem_of_app, elem_of_list_singleton. split; [intros [?|<-]; [done|by cbn in Ho]|auto]. }
  split; try done.
  - intros j t Ht Hp. destruct (h4 j t Ht Hp) as (x & n & Hx & Hr & Hz). exists x, n. split; [done|]. split; [|done]. intros m. by rewrite Ha.
  - intros j m. rewrite Ha. apply h6.
  - intros l Hl He. destruct (h7 l Hl He) as (j & t & H1 & H2 & H3). exists j, t. by rewrite Ha.
  - intros j t m. rewrite Ha. apply h8.
  - intros j l t u m. rewrite !Ha. apply h9.
  - cbn. apply log_one; [|exact h11]. intros j Hj. assert (j = i) as -> by congruence. exact Hn.
Qed.
Lemma einv_peers b m s : einv b s -> einv b (set_peers m s).
Proof. intros [h1 h2 h3 h4 h5 h6 h7 h8 h9 h10 h11]. by split. Qed.
(** the phase goes on; who owns and who is in the map does not change *)
Lemma einv_phase b i f s t0 : e_tasks s !! i = Some t0 -> t_kind (f t0) = t_kind t0 -> t_addr (f t0) = t_addr t0 ->
  mapped (t_phase (f t0)) = mapped (t_phase t0) -> owning (t_phase (f t0)) = owning (t_phase t0) -> entered (t_phase (f t0)) = false ->
  t_phase t0 <> Finished ->
  einv b s -> einv b (upd i f s).
Proof.
  intros Hi Ek Ea Em Eo Ee Hp0 [h1 h2 h3 h4 h5 h6 h7 h8 h9 h10 h11].
  split; try done.
  - intros j t [[-> ->]|[_ Ht]]%(upd_cases _ _ _ _ Hi); [rewrite Ek, Ea; apply (h1 i _ Hi)|by apply (h1 j)].
  - intros j l t u Ht Hu E Hp Hq. destruct (upd_cases _ _ _ _ Hi _ _ Ht) as [[-> ->]|[Hj Ht']], (upd_cases _ _ _ _ Hi _ _ Hu) as [[-> ->]|[Hl Hu']]; rewrite ?Ea in *.
    + done.
    + by eapply h2.
    + by eapply h2.
    + by eapply h2.
  - intros j t [[-> ->]|[_ Ht]]%(upd_cases _ _ _ _ Hi) He; [congruence|by apply (h3 j)].
  - intros j t [[-> ->]|[_ Ht]]%(upd_cases _ _ _ _ Hi) He; [|by apply (h4 j)]. rewrite Em in He. rewrite Ek, Ea. by apply (h4 i).
  - intros x m Hm. destruct (h5 x m Hm) as (j & t & Ht & E & Hp). destruct (decide (j = i)) as [->|Hj].
    + assert (t = t0) as -> by congruence. exists i, (f t0). rewrite (upd_this _ _ _ _ Hi), Ea, Em. done.
    + exists j, t. by rewrite upd_other.
  - intros j n Hn. destruct (h6 j n Hn) as (? & t & Ht & Hp). split; [done|]. destruct (decide (j = i)) as [->|Hj].
    + exists (f t0). rewrite (upd_this _ _ _ _ Hi). split; [done|]. intros E. by rewrite E in Ee.
    + exists t. by rewrite upd_other.
  - intros l Hin He. destruct (h7 l Hin He) as (j & t & Ht & Hp & Hac). destruct (decide (j = i)) as [->|Hj].
    + assert (t = t0) as -> by congruence. exists i, (f t0). rewrite (upd_this _ _ _ _ Hi), Eo. done.
    + exists j, t. by rewrite upd_other.
  - intros j t n [[-> ->]|[Hj Ht]]%(upd_cases _ _ _ _ Hi) He Hac; [rewrite Eo in He; by eapply h8|by eapply h8].
  - intros j l t u n Ht Hu Hp Hq Ha Hb. destruct (upd_cases _ _ _ _ Hi _ _ Ht) as [[-> ->]|[Hj Ht']], (upd_cases _ _ _ _ Hi _ _ Hu) as [[-> ->]|[Hl Hu']]; rewrite ?Eo in *; by eapply h9.
Qed.
Lemma einv_drop b i k a s t : e_tasks s !! i = Some t -> t_addr t = a -> t_phase t <> Finished -> entered (t_phase t) = false -> einv b s ->
  einv b (set_conns (delete (k, a) (e_conns s)) s).
Proof.
  intros Hi Ea Hp He [h1 h2 h3 h4 h5 h6 h7 h8 h9 h10 h11]. split; try done.
  intros j u Hu Hu'. cbn in *. rewrite lookup_delete_ne; [by eapply h3|]. intros [= _ E].
  assert (j = i) as -> by (eapply (h2 j i u t); try done; [congruence|by destruct (t_phase u)]). congruence.
Qed.
Lemma einv_disc1 b i k a g n k' s : e_tasks s !! i = Some (Task k a Left1 g) -> e_modules s !! a = Some (Module true n k') -> einv b s ->
  einv b (upd i (set_phase Left2) (cla_remove n s)).
Proof.
  intros Hi Hm [h1 h2 h3 h4 h5 h6 h7 h8 h9 h10 h11].
  destruct (h4 i _ Hi eq_refl) as (act & n1 & Hx & Hacc & _). cbn in Hx. rewrite Hm in Hx. injection Hx as <- <- ->.
  assert (Hin : acc s i n) by (by apply Hacc).
  destruct (h8 i _ n Hi eq_refl Hin) as (l0 & Hl0 & He0).
  set (s' := cla_remove n s). assert (Hi' : e_tasks s' !! i = Some (Task k a Left1 g)) by done.
  split; try done.
  - intros j t [[-> ->]|[_ Ht]]%(upd_cases _ _ _ _ Hi'); [apply (h1 i _ Hi)|by apply (h1 j)].
  - intros j l t u Ht Hu E Hp Hq. destruct (upd_cases _ _ _ _ Hi' _ _ Ht) as [[-> ->]|[Hj Ht']], (upd_cases _ _ _ _ Hi' _ _ Hu) as [[-> ->]|[Hl Hu']]; cbn in *; try done; by eapply h2.
  - intros j t [[-> ->]|[_ Ht]]%(upd_cases _ _ _ _ Hi') He; [done|by apply (h3 j)].
  - intros j t [[-> ->]|[_ Ht]]%(upd_cases _ _ _ _ Hi') He; [|by apply (h4 j)]. by apply (h4 i _ Hi).
  - intros x m Hxm. destruct (h5 x m Hxm) as (j & t & Ht & E & Hp). destruct (decide (j = i)) as [->|Hj].
    + exists i, (Task k a Left2 g). rewrite (upd_this _ _ _ _ Hi'). assert (t = Task k a Left1 g) as -> by congruence. done.
    + exists j, t. by rewrite upd_other.
  - intros j m Hn. destruct (h6 j m Hn) as (? & t & Ht & Hp). split; [done|]. destruct (decide (j = i)) as [->|Hj].
    + exists (Task k a Left2 g). rewrite (upd_this _ _ _ _ Hi'). done.
    + exists t. by rewrite upd_other.
  - intros l Hl He. cbn in Hl. apply elem_of_list_filter in Hl as [Hne Hl]. destruct (h7 l Hl He) as (j & t & Ht & Hp & Hac).
    exists j, t. rewrite upd_other; [done|]. intros ->. apply Hacc in Hac as [_ E]. done.
  - intros j t m [[-> ->]|[Hj Ht]]%(upd_cases _ _ _ _ Hi') He Hac; [done|]. destruct (h8 j t m Ht He Hac) as (l & Hl & Hle). exists l. split; [|done].
    cbn. rewrite filter_two; [done|]. intros x _ Hx1 Hx2. assert (m = n) as -> by congruence. apply Hj. by eapply (h9 j i _ _ n Ht Hi).
  - intros j l t u m Ht Hu Hp Hq Ha Hb. destruct (upd_cases _ _ _ _ Hi' _ _ Ht) as [[-> ->]|[Hj Ht']]; [done|].
    destruct (upd_cases _ _ _ _ Hi' _ _ Hu) as [[-> ->]|[Hl Hu']]; [done|]. by eapply h9.
  - cbn. rewrite filter_two; [done|]. intros x Hx He Hxn.
    assert (Hx' : x ∈ filter (fun l => ly_name l = n) (e_layers s)) by by apply elem_of_list_filter.
    rewrite Hl0 in Hx'. apply elem_of_list_singleton in Hx' as ->. congruence.
Qed.
Lemma einv_disc1_off b i k a g s : e_tasks s !! i = Some (Task k a Left1 g) -> (forall n k', e_modules s !! a <> Some (Module true n k')) -> einv b s ->
  einv b (upd i (set_phase Left2) s).
Proof.
  intros Hi Hm [h1 h2 h3 h4 h5 h6 h7 h8 h9 h10 h11].
  destruct (h4 i _ Hi eq_refl) as (act & n1 & Hx & Hacc & _). cbn in Hx. destruct act; [by destruct (Hm _ _ Hx)|].
  assert (Hno : forall m, ~ acc s i m) by (intros m [? _]%Hacc; done).
  split; try done.
  - intros j t [[-> ->]|[_ Ht]]%(upd_cases _ _ _ _ Hi); [apply (h1 i _ Hi)|by apply (h1 j)].
  - intros j l t u Ht Hu E Hp Hq. destruct (upd_cases _ _ _ _ Hi _ _ Ht) as [[-> ->]|[Hj Ht']], (upd_cases _ _ _ _ Hi _ _ Hu) as [[-> ->]|[Hl Hu']]; cbn in *; try done; by eapply h2.
  - intros j t [[-> ->]|[_ Ht]]%(upd_cases _ _ _ _ Hi) He; [done|by apply (h3 j)].
  - intros j t [[-> ->]|[_ Ht]]%(upd_cases _ _ _ _ Hi) He; [|by apply (h4 j)]. by apply (h4 i _ Hi).
  - intros x m Hxm. destruct (h5 x m Hxm) as (j & t & Ht & E & Hp). destruct (decide (j = i)) as [->|Hj].
    + exists i, (Task k a Left2 g). rewrite (upd_this _ _ _ _ Hi). assert (t = Task k a Left1 g) as -> by congruence. done.
    + exists j, t. by rewrite upd_other.
  - intros j m Hn. destruct (h6 j m Hn) as (? & t & Ht & Hp). split; [done|]. destruct (decide (j = i)) as [->|Hj].
    + by destruct (Hno m).
    + exists t. by rewrite upd_other.
  - intros l Hl He. destruct (h7 l Hl He) as (j & t & Ht & Hp & Hac). exists j, t. rewrite upd_other; [done|]. intros ->. by destruct (Hno (ly_name l)).
  - intros j t m [[-> ->]|[Hj Ht]]%(upd_cases _ _ _ _ Hi) He Hac; [done|]. by eapply h8.
  - intros j l t u m Ht Hu Hp Hq Ha Hb. destruct (upd_cases _ _ _ _ Hi _ _ Ht) as [[-> ->]|[Hj Ht']]; [done|].
    destruct (upd_cases _ _ _ _ Hi _ _ Hu) as [[-> ->]|[Hl Hu']]; [done|]. by eapply h9.
Qed.
Lemma einv_disc2 b i k a g ph s : e_tasks s !! i = Some (Task k a Left2 g) -> mapped ph = false -> entered ph = false -> einv b s ->
  einv b (upd i (set_phase ph) (set_modules (delete a (e_modules s)) s)).
Proof.
  intros Hi Hph Hen [h1 h2 h3 h4 h5 h6 h7 h8 h9 h10 h11].
  assert (Hown : owning ph = false) by by destruct ph.
  set (s' := set_modules _ s). assert (Hi' : e_tasks s' !! i = Some (Task k a Left2 g)) by done.
  assert (Hoth : forall j t, j <> i -> e_tasks s !! j = Some t -> t_phase t <> Finished -> t_addr t <> a).
  { intros j t Hj Ht Hp E. apply Hj. eapply (h2 j i t _ Ht Hi); done. }
  split; try done.
  - intros j t [[-> ->]|[_ Ht]]%(upd_cases _ _ _ _ Hi'); [apply (h1 i _ Hi)|by apply (h1 j)].
  - intros j l t u Ht Hu E Hp Hq. destruct (upd_cases _ _ _ _ Hi' _ _ Ht) as [[-> ->]|[Hj Ht']], (upd_cases _ _ _ _ Hi' _ _ Hu) as [[-> ->]|[Hl Hu']]; cbn in *; try done; by eapply h2.
  - intros j t [[-> ->]|[_ Ht]]%(upd_cases _ _ _ _ Hi') He; [cbn in He; congruence|by apply (h3 j)].
  - intros j t [[-> ->]|[Hj Ht]]%(upd_cases _ _ _ _ Hi') He; [cbn in He; congruence|].
    destruct (h4 j t Ht He) as (x & n & Hx & Hr). exists x, n. cbn. rewrite lookup_delete_ne; [done|].
    intros E. apply (Hoth j t Hj Ht); [by destruct (t_phase t)|done].
  - intros x m Hxm. cbn in Hxm. apply lookup_delete_Some in Hxm as [Hne Hxm]. destruct (h5 x m Hxm) as (j & t & Ht & E & Hp). exists j, t.
    rewrite upd_other; [done|]. intros ->. assert (t = Task k a Left2 g) as -> by congruence. done.
  - intros j m Hn. destruct (h6 j m Hn) as (? & t & Ht & Hp). split; [done|]. destruct (decide (j = i)) as [->|Hj].
    + exists (Task k a ph g). rewrite (upd_this _ _ _ _ Hi'). split; [done|]. cbn. intros ->. done.
    + exists t. by rewrite upd_other.
  - intros l Hl He. destruct (h7 l Hl He) as (j & t & Ht & Hp & Hac). exists j, t. rewrite upd_other; [done|]. intros ->.
    assert (t = Task k a Left2 g) as -> by congruence. done.
  - intros j t m [[-> ->]|[Hj Ht]]%(upd_cases _ _ _ _ Hi') He Hac; [cbn in He; congruence|]. by eapply h8.
  - intros j l t u m Ht Hu Hp Hq Ha Hb. destruct (upd_cases _ _ _ _ Hi' _ _ Ht) as [[-> ->]|[Hj Ht']]; [cbn in Hp; congruence|].
    destruct (upd_cases _ _ _ _ Hi' _ _ Hu) as [[-> ->]|[Hl Hu']]; [cbn in Hq; congruence|]. by eapply h9.
Qed.

Section runs.
Context (dec_bundle : list N -> option bundle)
  (read_block : list N -> option (list (string * option N) * list (N * string)))
  (own_block : list layer -> option (list N))
  (self : eid) (nodeid : string) (connectors : list kind).
Notation handle_packet := (handle_packet dec_bundle read_block own_block self nodeid connectors).
Notation step := (step dec_bundle read_block own_block self nodeid connectors).
Notation runs := (runs dec_bundle read_block own_block self nodeid connectors).
Notation packet_effect := (packet_effect dec_bundle read_block).
Notation sfx := (sfx dec_bundle read_block).

Lemma einv_start builtin ps : Forall (fun l => ly_ext l = false) builtin -> einv builtin (start builtin ps).
Proof.
  intros H. rewrite Forall_forall in H. split; cbn; try done.
  - intros i n Hx. by apply elem_of_nil in Hx.
  - intros l Hl He. by rewrite H in He.
  - 
    induction builtin as [|l b IH]; [done|]. rewrite filter_cons_True by (apply H; by left). f_equal. apply IH. intros x Hx. apply H. by right.
  - intros l1 o l2 i Hx. by destruct l1.
Qed.
Lemma einv_packet b i now p k a g s s' : e_tasks s !! i = Some (Task k a Up g) -> packet_effect i now a s p s' -> einv b s -> einv b s'.
Proof.
  intros Hi Hp Hinv. destruct Hp as [p s1 Hq|name x port k' n s1 Hm Hne Hnot Hq|x y z data bd n k' Hm Hd|e addr blk clas sv n k' m u Hm Hr Ha].
  - by eapply einv_quiet.
  - eapply einv_quiet; [exact Hq|]. by eapply einv_register.
  - eapply einv_note; [done| |done]. destruct (v_mod _ _ Hinv i _ Hi eq_refl) as (act & n' & Hx & Hacc & _). cbn in Hx. rewrite Hm in Hx.
    injection Hx as <- <- _. exists n. by apply Hacc.
  - eapply einv_note; [done| |by apply einv_peers]. destruct (v_mod _ _ Hinv i _ Hi eq_refl) as (act & n' & Hx & Hacc & _). cbn in Hx. rewrite Hm in Hx.
    injection Hx as <- <- _. exists n. by apply Hacc.
Qed.
Lemma einv_step b e s s' : sfx s e s' ->
  (forall ip port, e = EOpen TCP ip port -> forall t, t ∈ e_tasks s -> t_kind t = TCP -> t_addr t = tcp_addr ip port -> t_phase t = Finished) ->
  einv b s -> einv b s'.
Proof.
  intros Hs Hr Hinv. destruct Hs as [k ip port a n Ha Hn Hg|i k a g Hi|i now p k a g s1 Hi Hp|e s1 _ Hq|i t Hi|i a g Hi|i a g Hi|i k a g n k' Hi Hm|i k a g Hi Hm|i k a g Hi|i a g Hi].
  - eapply (einv_open b k ip port); try done. intros -> t Ht Hk E. eapply Hr; try done. by rewrite E, Ha.
  - by eapply einv_init.
  - by eapply einv_packet.
  - by eapply einv_quiet.
  - by apply einv_gone.
  - eapply (einv_phase b i _ s _ Hi); done.
  - pose proof (v_conn _ _ Hinv i _ Hi eq_refl) as Hc. cbn in Hc. rewrite bool_decide_eq_true_2 by done.
    change (einv b (set_conns (delete (TCP, a) (e_conns (upd i (fun t => set_gone (set_phase Left1 t)) s))) (upd i (fun t => set_gone (set_phase Left1 t)) s))).
    eapply einv_drop; [exact (upd_this _ _ _ _ Hi)|done|done|done|]. eapply (einv_phase b i _ s _ Hi); done.
  - by eapply einv_disc1.
  - by eapply einv_disc1_off.
  - eapply einv_disc2; try done; by destruct k.
  - pose proof (einv_drop b i WS a s _ Hi eq_refl) as Hx. cbn in Hx. specialize (Hx ltac:(done) eq_refl Hinv).
    eapply (einv_phase b i _ (set_conns (delete (WS, a) (e_conns s)) s) _ Hi); done.
Qed.
Definition no_reuse (s0 : ecla) (evs : list event) : Prop :=
  forall evs1 ip port evs2 s1, evs = evs1 ++ EOpen TCP ip port :: evs2 -> runs s0 evs1 s1 ->
  forall t, t ∈ e_tasks s1 -> t_kind t = TCP -> t_addr t = tcp_addr ip port -> t_phase t = Finished.
Lemma einv_runs builtin ps evs s : Forall (fun l => ly_ext l = false) builtin -> runs (start builtin ps) evs s ->
  e_bad s = [] -> no_reuse (start builtin ps) evs -> einv builtin s.
Proof.
  intros Hb H. induction H as [|evs e s s' H IH Hs]; intros Hbad Hr; [by apply einv_start|].
  pose proof (step_fine _ _ _ _ _ _ _ _ _ Hs Hbad) as Hf. eapply einv_step; [exact Hf| |].
  - intros ip port -> t. by eapply (Hr evs ip port []).
  - apply IH; [by rewrite <- (sfx_bad _ _ _ _ _ Hf)|]. intros evs1 ip port evs2 s1 -> Hr1. eapply (Hr evs1 ip port (evs2 ++ [e])); [|done].
    by rewrite <- app_assoc.
Qed.

(** ** Configured layers, whatever happens *)
Definition core (b : list layer) (s : ecla) : Prop :=
  filter (fun l => ly_ext l = false) (e_layers s) = b /\
  forall a n k, e_modules s !! a = Some (Module true n k) -> n ∉ map ly_name b.
Lemma core_same b s s' : e_layers s' = e_layers s -> e_modules s' = e_modules s -> core b s -> core b s'.
Proof. intros H1 H2 [H3 H4]. split; [by rewrite H1|by rewrite H2]. Qed.
Lemma core_packet b i now p a s s' : packet_effect i now a s p s' -> core b s -> core b s'.
Proof.
  intros Hp Hc. destruct Hp as [p s1 Hq|name x port k' n s1 Hm Hne Hnot Hq|x y z data bd n k' Hm Hd|e addr blk clas sv n k' m u Hm Hr Ha].
  - eapply core_same; [by apply Hq..|done].
  - eapply core_same; [by apply Hq..|]. destruct Hc as [H1 H2]. split; cbn.
    + rewrite filter_app, H1, (filter_none _ [_]); [by rewrite app_nil_r|]. by intros y ->%elem_of_list_singleton.
    + intros a' n' k2 H. apply lookup_insert_Some in H as [[_ H]|[_ H]]; [|by eapply H2]. injection H as <- _.
      intros Hin. apply Hnot. apply elem_of_list_fmap in Hin as (y & -> & Hy). rewrite <- H1 in Hy. apply elem_of_list_filter in Hy as [_ Hy].
      apply elem_of_list_fmap. eauto.
  - done.
  - done.
Qed.
Lemma core_step b e s s' : step e s = Some s' -> core b s -> core b s'.
Proof.
  assert (Hgo : forall r s, goes s Fine r -> core b s -> match r with Fine s' | Boom s' => core b s' end).
  { intros r x [(s1 & Hq & ->)|(s1 & h & Hq & -> & _)] Hc; (eapply core_same; [by apply Hq..|done]). }
  assert (Haf : forall i f r, match r with Fine s' | Boom s' => core b s' end -> core b (after i f r)) by (by intros i f []).
  assert (Hlk : forall l h x k, core b x -> (core b x -> match k x with Fine s' | Boom s' => core b s' end) -> match locked l h x k with Fine s' | Boom s' => core b s' end).
  { intros l h x k Hc Hk. unfold locked. case_bool_decide; [exact Hc|by apply Hk]. }
  assert (Hpk : forall i now k a p x, core b x -> match handle_packet i now k a p x with Fine s' | Boom s' => core b s' end).
  { intros i now k a p x Hc. pose proof (handle_packet_effect dec_bundle read_block own_block self nodeid connectors i now k a p x) as Hf.
    destruct (handle_packet _ _ _ _ _ _); [by eapply core_packet|]. destruct Hf as (s1 & h & Hf & -> & _). change (core b s1). by eapply core_packet. }
  intros Hs Hc. destruct e as [k ip port|i|i now p|i|i|i|i|i|i|k a n| |n d r]; cbn [Ecla.step] in Hs.
  - case_decide; [done|]. injection Hs as <-. apply Haf, Hlk; [by destruct k|done].
  - destruct (e_tasks s !! i) as [[k a [] g]|]; try done. injection Hs as <-. apply Haf, Hlk; [done|]. intros [H1 H2]. split; [done|].
    intros a' n k' H. cbn in H. apply lookup_insert_Some in H as [[_ H]|[_ H]]; [done|by eapply H2].
  - destruct (e_tasks s !! i) as [[k a ph g]|]; [|done]. destruct k, ph; try done; injection Hs as <-; apply Haf; [|by apply Hpk].
    apply Hlk; [done|]. intros _. destruct (e_conns s !! _); [by apply Hpk|done].
  - destruct (e_tasks s !! i) as [[k a ph g]|]; [|done]. destruct k, ph; try done; injection Hs as <-; apply Haf.
    apply Hlk; [done|]. intros _. by destruct (e_conns s !! _).
  - destruct (e_tasks s !! i); [|done]. by injection Hs as <-.
  - destruct (e_tasks s !! i) as [[k a ph g]|]; [|done]. destruct k, ph; try done; injection Hs as <-; [done|]. by apply Haf, Hlk.
  - destruct (e_tasks s !! i) as [[k a [] g]|]; try done. injection Hs as <-. apply Haf, Hlk; [done|]. intros _.
    destruct (e_modules s !! a) as [[[] n k']|] eqn:Em; try done. cbn [md_active md_name]. destruct Hc as [H1 H2]. split; [|exact H2]. cbn.
    rewrite filter_two; [done|]. intros x Hx He E. apply (H2 a n k' Em). rewrite <- E. apply elem_of_list_fmap. exists x. split; [done|].
    rewrite <- H1. by apply elem_of_list_filter.
  - destruct (e_tasks s !! i) as [[k a [] g]|]; try done. injection Hs as <-. apply Haf, Hlk; [done|]. intros [H1 H2]. split; [done|].
    intros a' n k' H. cbn in H. apply lookup_delete_Some in H as [_ H]. by eapply H2.
  - destruct (e_tasks s !! i) as [[k a ph g]|]; [|done]. destruct k, ph; try done; injection Hs as <-. by apply Haf, Hlk.
  - destruct (e_conns s !! _); [|done]. by injection Hs as <-.
  - destruct (e_announcer s); [|done]. injection Hs as <-. pose proof (Hgo _ _ (tick_goes own_block self connectors s) Hc) as H. by destruct (tick _ _ _ s).
  - injection Hs as <-. pose proof (Hgo _ _ (submission_goes dec_bundle connectors n d r s) Hc) as H. by destruct (scheduled_submission _ _ _ _ _ s).
Qed.
Lemma core_runs builtin ps evs s : Forall (fun l => ly_ext l = false) builtin -> runs (start builtin ps) evs s -> core builtin s.
Proof.
  intros Hb H. induction H as [|evs e s s' H IH Hs]; [|by eapply core_step].
  split; [apply (v_builtin _ _ (einv_start builtin ps Hb))|done].
Qed.
End runs.

(** Executing a list of events *)
Section exec.
Context (dec_bundle : list N -> option bundle)
  (read_block : list N -> option (list (string * option N) * list (N * string)))
  (own_block : list layer -> option (list N))
  (self : eid) (nodeid : string) (connectors : list kind).
Notation step := (step dec_bundle read_block own_block self nodeid connectors).
Notation runs := (runs dec_bundle read_block own_block self nodeid connectors).
Fixpoint exec (evs : list event) (s : ecla) : option ecla :=
  match evs with [] => Some s | e :: evs => match step e s with Some s1 => exec evs s1 | None => None end end.
Lemma exec_runs_from s0 evs0 evs s s' : runs s0 evs0 s -> exec evs s = Some s' -> runs s0 (evs0 ++ evs) s'.
Proof.
  revert evs0 s. induction evs as [|e evs IH]; intros evs0 s Hr H; cbn in H.
  - injection H as <-. by rewrite app_nil_r.
  - destruct (step e s) as [s1|] eqn:E; [|done]. rewrite cons_middle, app_assoc. eapply IH; [|exact H]. by eapply runs_snoc.
Qed.
Lemma exec_runs s0 evs s : exec evs s0 = Some s -> runs s0 evs s.
Proof. apply (exec_runs_from s0 [] evs). apply runs_nil. Qed.
Lemma exec_snoc evs e s : exec (evs ++ [e]) s = match exec evs s with Some s1 => step e s1 | None => None end.
Proof. revert s. induction evs as [|e' evs IH]; intros s; cbn; [by destruct (step e s)|]. by destruct (step e' s). Qed.
Lemma runs_exec s0 evs s : runs s0 evs s -> exec evs s0 = Some s.
Proof. induction 1 as [|evs e s s' H IH Hs]; [done|]. by rewrite exec_snoc, IH. Qed.
End exec.
