(** Proofs about receptions and about the counters (C32, C42). *)
From stdpp Require Import prelude strings pretty gmap sorting.
From Coq Require Import NArith Lia ZifyBool ZifyN ZifyNat.
From Verif Require Import Core StoreMem Peers Routing Pipeline PipelineBase PipelineProofs PipelineInv.
Open Scope N_scope.

(** ** Counting *)
Definition ntimes (f : label -> bool) (h : list label) : nat := length (filter (fun l => f l = true) h).
Definition happened (f : label -> bool) (tr : list event) : nat :=
  length (filter (fun e => match e with EStep _ l => f l | _ => false end = true) tr).
Lemma ntimes_app f h1 h2 : ntimes f (h1 ++ h2) = (ntimes f h1 + ntimes f h2)%nat.
Proof. unfold ntimes. by rewrite filter_app, app_length. Qed.
Lemma ntimes_cons f l h : ntimes f (l :: h) = ((if f l then 1 else 0) + ntimes f h)%nat.
Proof. unfold ntimes. rewrite filter_cons. destruct (f l) eqn:E; [by rewrite decide_True|by rewrite decide_False]. Qed.
Lemma happened_app f t1 t2 : happened f (t1 ++ t2) = (happened f t1 + happened f t2)%nat.
Proof. unfold happened. by rewrite filter_app, app_length. Qed.
Lemma happened_one f e : happened f [e] = match e with EStep _ l => if f l then 1%nat else 0%nat | _ => 0%nat end.
Proof.
  unfold happened. rewrite filter_cons, filter_nil. destruct e as [| | | | | |i l]; try done. by destruct (f l).
Qed.
Lemma ntimes_none f h : Forall (fun l => f l = false) h -> ntimes f h = 0%nat.
Proof. induction 1 as [|l h Hl _ IH]; [done|]. by rewrite ntimes_cons, Hl, IH. Qed.
(** f 0 + ... + f (n-1) *)
Fixpoint total (f : nat -> nat) (n : nat) : nat := match n with O => O | S n => (total f n + f n)%nat end.
Lemma total_add f g n : total (fun i => f i + g i)%nat n = (total f n + total g n)%nat.
Proof. induction n as [|n IH]; cbn; [done|]. rewrite IH. lia. Qed.
Lemma total_single (j c : nat) n : total (fun i => if decide (i = j) then c else 0)%nat n = (if decide (j < n)%nat then c else 0)%nat.
Proof.
  induction n as [|n IH]; cbn; [by rewrite decide_False by lia|]. rewrite IH. repeat case_decide; lia.
Qed.
Lemma total_ext f g n : (forall i, i < n -> f i = g i)%nat -> total f n = total g n.
Proof. induction n as [|n IH]; intros H; cbn; [done|]. rewrite IH, H; [done|lia|intros; apply H; lia]. Qed.
Lemma total_le f g n : (forall i, i < n -> f i <= g i)%nat -> (total f n <= total g n)%nat.
Proof.
  induction n as [|n IH]; intros H; cbn; [done|]. assert (f n <= g n)%nat by (apply H; lia).
  assert (total f n <= total g n)%nat by (apply IH; intros; apply H; lia). lia.
Qed.
Lemma total_zero n : total (fun _ => 0%nat) n = 0%nat.
Proof. induction n as [|n IH]; cbn; [done|]. by rewrite IH. Qed.
Lemma total_map {A} (f : A -> nat) (d : nat) (l : list A) :
  total (fun i => match l !! i with Some x => f x | None => d end) (length l) = sum_list_with f l.
Proof.
  induction l as [|x l IH] using rev_ind; [done|]. rewrite app_length, Nat.add_1_r. cbn [total].
  rewrite sum_list_with_app. cbn [sum_list_with]. rewrite lookup_app_r, Nat.sub_diag by lia. cbn. rewrite <- IH, Nat.add_0_r. f_equal.
  apply total_ext. intros i Hi. by rewrite lookup_app_l by done.
Qed.
Lemma happened_sum f tr n : (forall i l, EStep i l ∈ tr -> i < n)%nat ->
  happened f tr = total (fun i => ntimes f (did i tr)) n.
Proof.
  induction tr as [|e tr IH] using rev_ind; intros Hn.
  { rewrite (total_ext _ (fun _ => 0%nat)) by done. by rewrite total_zero. }
  rewrite happened_app, IH by (intros i l H; eapply (Hn i l), elem_of_app; by left).
  rewrite happened_one.
  rewrite (total_ext (fun i => ntimes f (did i (tr ++ [e])))
    (fun i => ntimes f (did i tr) + (if decide (i = match e with EStep j _ => j | _ => n end)
       then match e with EStep _ l => if f l then 1 else 0 | _ => 0 end else 0))%nat).
  - rewrite total_add. f_equal. rewrite total_single. destruct e as [| | | | | |j l]; try (by case_decide).
    rewrite decide_True; [done|]. apply (Hn j l), elem_of_app. right. left.
  - intros i Hi. rewrite did_app, ntimes_app. f_equal.
    destruct e as [| | | | | |j l]; try (by case_decide).
    assert (E : did i [EStep j l] = if decide (i = j) then [l] else []) by (cbn; by rewrite app_nil_r).
    rewrite E. destruct (decide (i = j)) as [->|]; [|done]. rewrite ntimes_cons. by rewrite Nat.add_0_r.
Qed.
(** occurrences only at one place *)
Lemma ntimes_once f h : (forall h1 l h2, h = h1 ++ l :: h2 -> f l = true -> ntimes f h1 = 0%nat) -> (ntimes f h <= 1)%nat.
Proof.
  induction h as [|x h IH] using rev_ind; intros H; [unfold ntimes; cbn; lia|].
  rewrite ntimes_app, ntimes_cons. destruct (f x) eqn:E.
  - rewrite (H h x [] eq_refl E). unfold ntimes. cbn. lia.
  - assert (ntimes f h <= 1)%nat; [|unfold ntimes at 2; cbn; lia].
    apply IH. intros h1 l h2 -> Hl. apply (H h1 l (h2 ++ [x])); [|done]. by rewrite <- app_assoc.
Qed.

Section reception.
Context (host : eid) (gen_reports parallel : bool) (parse_record : list N -> option arecord)
        (lifetime_exceeded : N -> bundle -> bool).
Notation task_of := (task_of host gen_reports parallel parse_record).
Notation mstep := (mstep host gen_reports parallel parse_record lifetime_exceeded).
Notation run := (run host gen_reports parallel parse_record lifetime_exceeded).
Notation access := (access host lifetime_exceeded).
Notation receive := (receive host gen_reports parse_record).
Notation submit := (submit host gen_reports parse_record).
Notation dispatch := (dispatch host gen_reports parse_record).
Notation forward := (forward host gen_reports parse_record).
Notation local_delivery := (local_delivery host gen_reports parse_record).
Notation process_bundles := (process_bundles host gen_reports parallel parse_record).

Lemma step_index tr m i l : run tr m -> EStep i l ∈ tr -> (i < length (tasks tr))%nat.
Proof.
  intros Hr Hi. apply elem_of_list_split in Hi as (t1 & t2 & ->).
  destruct (run_task_step _ _ _ _ _ _ _ _ _ _ Hr) as (k & q & Hk & _ & _). by eapply lookup_lt_Some.
Qed.

(** ** Presence in the store *)
Definition present (m : machine) (id : string) : Prop := is_Some (m_bundles (n_store (m_node m)) !! id).
Global Instance present_dec m id : Decision (present m id).
Proof. unfold present. apply _. Defined.
(** what an event does to the presence of [id] *)
Definition store_effect (id : string) (s : bool) (e : event) : bool :=
  match e with
  | EStep _ (LAct (SAdd b) (Some true)) => if decide (bid b = id) then true else s
  | EStep _ (LAct (SPush b) true) => if decide (bid b = id) then true else s
  | EStep _ (LAct (SRemove i) true) => if decide (i = id) then false else s
  | _ => s
  end.
Definition stored (id : string) (tr : list event) : bool := fold_left (store_effect id) tr false.
Lemma present_step tr m e m' id : run tr m -> mstep m e m' ->
  (present m' id <-> store_effect id (bool_decide (present m id)) e = true) /\
  match e with
  | EStep _ (LAct (SAdd b) (Some r)) => bid b = id -> r = negb (bool_decide (present m id))
  | EStep _ (LAct (SHas i) r) => i = id -> r = bool_decide (present m id)
  | EStep _ (LAct (SGet i) r) => i = id -> bool_decide (is_Some r) = bool_decide (present m id)
  | _ => True
  end.
Proof.
  intros Hr Hs. assert (Hi := run_inv _ _ _ _ _ _ _ Hr).
  destruct Hs as [m k _|m ep|m ep|m ep on|m ps|m u d _ _|m i k p o r p' n' Hj Hp Ha|m i k p q p' Hj _|m i k p p' Hj _]; try done.
  all: try (split; [|exact Logic.I]; unfold store_effect; rewrite bool_decide_eq_true; done).
  { split; [|exact Logic.I]. unfold store_effect. rewrite bool_decide_eq_true. by destruct (has_endpoint ep (m_node m)). }
  unfold present. cbn [m_node].
  assert (Hrem : forall i, exists r, r = snd (mem_remove i (n_store (m_node m))) /\
    if r then (if decide (i = id) then is_Some (m_bundles (n_store (m_node m)) !! id) /\
                   ~ is_Some (m_bundles (fst (mem_remove i (n_store (m_node m)))) !! id)
               else m_bundles (fst (mem_remove i (n_store (m_node m)))) !! id = m_bundles (n_store (m_node m)) !! id)
    else m_bundles (fst (mem_remove i (n_store (m_node m)))) !! id = m_bundles (n_store (m_node m)) !! id).
  { intros j. eexists. split; [done|]. unfold mem_remove, mem_update.
    destruct (m_meta (n_store (m_node m)) !! j) as [p0|] eqn:E1; [|done].
    rewrite tombstone_id, (proj1 (iv_meta _ _ Hi _ _ E1)), E1. cbn.
    destruct (m_bundles (n_store (m_node m)) !! j) as [b0|] eqn:E2; cbn; [|done].
    destruct (decide (j = id)) as [->|Hne].
    - rewrite lookup_delete, E2. split; [eauto|]. by intros [? ?].
    - by rewrite lookup_delete_ne. }
  assert (Hdec : (exists j, o = SRemove j) \/ ~ (exists j, o = SRemove j)) by (destruct o; first [by left; eexists|right; by intros [? ?]]).
  destruct Hdec as [[j ->]|Hnr].
  { specialize (Hrem j) as (r0 & Hr0 & Hrem). cbn in Ha. destruct Ha as [[-> ->]|[[-> ->]|(-> & Hm & ->)]].
    - rewrite <- Hr0. cbn [n_store set_store store_effect]. destruct r0.
      + destruct (decide (j = id)) as [->|Hne]; [|rewrite Hrem, bool_decide_eq_true; done]. split; [naive_solver|exact Logic.I].
      + split; [|exact Logic.I]. by rewrite Hrem, bool_decide_eq_true.
    - cbn [store_effect]. by rewrite bool_decide_eq_true.
    - cbn [n_store set_store store_effect]. split; [|exact Logic.I]. destruct r0.
      + destruct (decide (j = id)) as [->|Hne]; [naive_solver|by rewrite Hrem, bool_decide_eq_true].
      + rewrite Hrem. destruct (decide (j = id)) as [->|Hne]; [|by rewrite bool_decide_eq_true].
        split; [|done]. intros Hb. exfalso. revert Hr0. unfold mem_remove, mem_update.
        destruct Hm as [p0 E1]. rewrite E1, tombstone_id, (proj1 (iv_meta _ _ Hi _ _ E1)), E1. cbn.
        destruct Hb as [b0 ->]. done. }
  assert (Hst := access_store _ _ _ _ _ _ Ha). destruct Hst as [->|(id' & -> & E)]; [|naive_solver].
  destruct o; cbn [store_after store_effect]; try (by rewrite bool_decide_eq_true).
  - destruct r; [|by rewrite bool_decide_eq_true]. split; [|exact Logic.I]. cbn. rewrite lookup_insert_is_Some.
    destruct (decide (bid b = id)) as [->|]; [naive_solver|]. rewrite bool_decide_eq_true. naive_solver.
  - cbn in Ha. unfold mem_add_if_unknown, mem_has in Ha.
    destruct (bool_decide (is_Some (m_bundles (n_store (m_node m)) !! bid b))) eqn:E.
    + assert (r = Some false) as ->. { destruct Ha as [[H1 _]|(? & ? & _)]; done. }
      cbn [store_effect]. rewrite bool_decide_eq_true. split; [done|]. intros <-.
      apply bool_decide_eq_true in E. symmetry. by apply negb_false_iff, bool_decide_eq_true.
    + apply bool_decide_eq_false in E. destruct r as [[]|].
      * split; [|intros <-; symmetry; by apply negb_true_iff, bool_decide_eq_false]. cbn. rewrite lookup_insert_is_Some.
        destruct (decide (bid b = id)) as [->|]; [naive_solver|]. rewrite bool_decide_eq_true. naive_solver.
      * destruct Ha as [[? _]|[? _]]; done.
      * cbn [store_effect]. by rewrite bool_decide_eq_true.
  - naive_solver.
  - split; [|exact Logic.I]. rewrite bool_decide_eq_true. destruct r; [|done]. unfold mem_update. by destruct (m_meta (n_store (m_node m)) !! p_id p0).
  - rewrite bool_decide_eq_true. split; [done|]. intros <-. cbn in Ha. destruct Ha as [-> _]. apply bool_decide_ext. done.
  - rewrite bool_decide_eq_true. split; [done|]. intros <-. cbn in Ha. destruct Ha as [-> _]. apply bool_decide_ext. done.
Qed.
Lemma stored_app id t1 t2 : stored id (t1 ++ t2) = fold_left (store_effect id) t2 (stored id t1).
Proof. apply fold_left_app. Qed.
Lemma run_stored tr m id : run tr m -> (present m id <-> stored id tr = true).
Proof.
  induction 1 as [m (H & _)|tr m e m' Hr IH Hs].
  - unfold present. rewrite H. cbn. rewrite lookup_empty. split; [by intros [? ?]|done].
  - rewrite (proj1 (present_step _ _ _ _ id Hr Hs)), stored_app. cbn [fold_left].
    by assert (bool_decide (present m id) = stored id tr) as -> by (destruct (stored id tr); [apply bool_decide_eq_true|apply bool_decide_eq_false]; rewrite IH; congruence).
Qed.
(** the answers of the store, by what happened before *)
Lemma run_answers t1 i l t2 m : run (t1 ++ EStep i l :: t2) m ->
  match l with
  | LAct (SAdd b) (Some r) => r = negb (stored (bid b) t1)
  | LAct (SHas id) r => r = stored id t1
  | LAct (SGet id) r => bool_decide (is_Some r) = stored id t1
  | _ => True
  end.
Proof.
  intros H. destruct (run_split _ _ _ _ _ _ _ _ _ H) as (m1 & m2 & H1 & Hs & _).
  assert (Hb : forall id, bool_decide (present m1 id) = stored id t1).
  { intros id. destruct (stored id t1) eqn:E; [apply bool_decide_eq_true|apply bool_decide_eq_false]; rewrite (run_stored _ _ _ H1); congruence. }
  destruct l as [o r| |]; try done. destruct o; try done.
  - destruct r; [|done]. rewrite <- Hb. by apply (proj2 (present_step _ _ _ _ (bid b) H1 Hs)).
  - rewrite <- Hb. by apply (proj2 (present_step _ _ _ _ id H1 Hs)).
  - rewrite <- Hb. by apply (proj2 (present_step _ _ _ _ id H1 Hs)).
Qed.
Lemma stored_kept id t : forall s, s = true -> fold_left (store_effect id) t s = false ->
  exists k, EStep k (LAct (SRemove id) true) ∈ t.
Proof.
  induction t as [|e t IH]; cbn [fold_left]; intros s -> H; [done|].
  destruct (store_effect id true e) eqn:E.
  - destruct (IH _ eq_refl H) as [k Hk]. exists k. by right.
  - clear H IH. destruct e as [| | | | | |i [[] r| |]]; try done; cbn in E.
    + destruct r; [|done]. by destruct (decide _).
    + destruct r as [[]|]; try done. by destruct (decide _).
    + destruct r; [|done]. destruct (decide (id0 = id)) as [->|]; [|done]. exists i. left.
Qed.

(** *** receptions *)
Definition is_count (c : counter) (l : label) : bool :=
  match l with LAct (Count c') _ => bool_decide (c' = c) | _ => false end.
Definition I_recv (k : kind) (h : list label) (l : label) : Prop :=
  match l with
  | LAct (SAdd b) _ => k = KReceive b /\ h = []
  | LAct (Count Incoming) _ => exists b, k = KReceive b /\ h = [LAct (SAdd b) (Some true)]
  | LAct (Count Dups) _ => exists b, k = KReceive b /\ h = [LAct (SAdd b) (Some false)]
  | _ => forall b, k = KReceive b -> exists rest, h = LAct (SAdd b) (Some true) :: LAct (Count Incoming) tt :: rest
  end.
Definition Q_recv (k : kind) (h : list label) : Prop :=
  match k with
  | KReceive b => h = [LAct (SAdd b) None] \/ h = [LAct (SAdd b) (Some false); LAct (Count Dups) tt] \/
      exists rest, h = LAct (SAdd b) (Some true) :: LAct (Count Incoming) tt :: rest
  | _ => True
  end.

(** no reception bookkeeping *)
Definition plain (l : label) : Prop :=
  match l with LAct (SAdd _) _ | LAct (Count Incoming) _ | LAct (Count Dups) _ => False | _ => True end.
Lemma plain_recv k h l b rest : k = KReceive b -> h = LAct (SAdd b) (Some true) :: LAct (Count Incoming) tt :: rest -> plain l -> I_recv k h l.
Proof. intros -> ->. destruct l as [[] r| |]; try done; cbn; try (intros _ ? [= <-]; eauto). destruct c; try done; intros _ ? [= <-]; eauto. Qed.
Lemma plain_other k h l : (forall b, k <> KReceive b) -> plain l -> I_recv k h l.
Proof. intros Hk. destruct l as [[] r| |]; try done; cbn; try naive_solver. destruct c; try done; cbn; naive_solver. Qed.
Lemma lookups_plain l : lookups l -> plain l.
Proof. by destruct l as [[]| |]. Qed.
Lemma house_plain l : house l -> plain l.
Proof. by destruct l as [[]| |]. Qed.
Lemma local_plain p : emits plain (local_delivery p).
Proof.
  unfold Pipeline.local_delivery, remove_if_singleton.
  emit; try (eapply emits_mono; [apply lookups_plain|]); first [apply record_lookups|apply delete_lookups|apply sync_lookups|apply report_lookups].
Qed.
Lemma dispatch_plain p : emits plain (dispatch p).
Proof. unfold Pipeline.dispatch. emit; apply local_plain. Qed.
Lemma submit_plain b : emits plain (submit b).
Proof.
  unfold Pipeline.submit, Pipeline.transmit.
  emit; try apply dispatch_plain; (eapply emits_mono; [apply lookups_plain|]); first [apply delete_lookups|apply sync_lookups].
Qed.
Lemma sub_plain id b nodes l : sub id b nodes l -> plain l.
Proof. destruct l as [[] r| |]; try done. by destruct c. Qed.
Lemma cemits_mono (C C' : label -> Prop) c : (forall l, C l -> C' l) -> cemits C c -> cemits C' c.
Proof. intros HC. induction c as [|o k IH]; cbn; [done|]. intros H r. destruct (H r). split; [by apply HC|by apply IH]. Qed.
Lemma forward_plain p : emits plain (forward p).
Proof.
  unfold Pipeline.forward, forward_copy, handle_lifetime, handle_hop_count, handle_previous_node, handle_age.
  rewrite sync_forwarding. emit; try (eapply emits_mono; [apply house_plain|apply delete_fresh_house]).
  all: split; [eapply Forall_impl; [apply send_all_sub|]; intros; eapply cemits_mono; [apply sub_plain|done]|];
    split; [done|]; intros; eapply emits_mono; [apply house_plain|apply after_house].
Qed.
Lemma forward_all_plain ps : emits plain (forward_all host gen_reports parallel parse_record ps).
Proof. induction ps as [|p ps IH]; cbn [forward_all]; emit; first [apply IH|apply forward_plain]. Qed.
Lemma janitor_plain : emits plain process_bundles.
Proof.
  unfold Pipeline.process_bundles. emit; try apply forward_all_plain; (eapply emits_mono; [apply house_plain|]);
    first [apply expired_house|apply load_house].
Qed.
Lemma task_plain k : (forall b, k <> KReceive b) -> emits plain (task_of k).
Proof.
  intros Hk. destruct k; cbn [Pipeline.task_of].
  - naive_solver.
  - emit. apply submit_plain.
  - emit. apply forward_plain.
  - apply janitor_plain.
  - unfold app_pop, remove_if_singleton. emit.
  - unfold user_delete. emit.
Qed.
Lemma receive_rest_plain b : emits plain
  (let* now := call Clock in
      let p := add_constraint (pack_of now b) DispatchPending in
      sync p ?;;
      (if bf_rep_recv (b_flags b) && negb (bf_admin (b_flags b)) && gen_reports
       then send_status_report p RECEIVED_BUNDLE NO_INFORMATION else Ret tt) ;;;
      let* rm := scan_blocks gen_reports p (b_blocks b) 0 [] in
      match rm with
      | None => Ret true
      | Some rm =>
          match remove_indices (b_blocks b) rm with
          | None => Panic
          | Some l =>
              call (SPush (with_blocks b l)) ?;;
              dispatch p ;;; Ret true
          end
      end).
Proof.
  emit; try apply dispatch_plain; (eapply emits_mono; [apply lookups_plain|]); first [apply scan_lookups|apply sync_lookups|apply report_lookups].
Qed.
Lemma all_recv k : gsafe (I_recv k) (fun h _ => Q_recv k h) (Q_recv k) [] (task_of k).
Proof.
  assert (Hdec : (exists b, k = KReceive b) \/ ~ (exists b, k = KReceive b)) by (destruct k; first [by left; eexists|right; by intros [? ?]]).
  destruct Hdec as [[b ->]|Hk].
  - cbn [Pipeline.task_of]. unfold Pipeline.receive.
    apply safe_bind, safe_bind, safe_call. intros r. split; [done|]. destruct r as [[]|].
    + apply safe_bind, safe_call. intros []. split; [cbn; eauto|].
      eapply (gsafe_emits plain); [apply receive_rest_plain|..].
      * intros hs l _ Hl. rewrite <- !app_assoc. eapply plain_recv; done.
      * intros hs a _. cbn [gsafe]. right. right. rewrite <- !app_assoc. cbn. eauto.
      * intros hs _. right. right. rewrite <- !app_assoc. cbn. eauto.
    + apply safe_bind, safe_call. intros []. split; [cbn; eauto|]. cbn [gsafe]. right. left. done.
    + cbn [gsafe]. by left.
  - assert (Hk' : forall b, k <> KReceive b) by naive_solver.
    assert (HQ : forall h, Q_recv k h) by (intros h; destruct k; try done; naive_solver).
    eapply (gsafe_emits plain); [by apply task_plain|..]; try done. intros. by apply plain_other.
Qed.

(** *** deliveries *)
(** [Deliver] reached an application: queued or handed to its subscriber *)
Definition is_hit (l : label) : bool :=
  match l with LAct (Deliver _ _) NoEndpoint => false | LAct (Deliver _ _) _ => true | _ => false end.
Definition even (h : list label) : Prop := ntimes is_hit h = ntimes (is_count Delivered) h.
Definition fresh_h (h : list label) : Prop := ntimes is_hit h = 0%nat /\ ntimes (is_count Delivered) h = 0%nat.
Definition accepted (k : kind) (h : list label) (b : bundle) : Prop :=
  (k = KReceive b /\ LAct (SAdd b) (Some true) ∈ h) \/ k = KSubmit b.
Definition I_deliv (k : kind) (h : list label) (l : label) : Prop :=
  match l with
  | LAct (Deliver e b) _ => fresh_h h /\
      exists b0, accepted k h b0 /\ e = b_dst b0 /\ LAct (SGet (bid b0)) (Some b) ∈ h /\
        LAct (HasEndpoint e) true ∈ h
  | LAct (Count Delivered) _ => ntimes is_hit h = 1%nat /\ ntimes (is_count Delivered) h = 0%nat
  | _ => True
  end.
(** accesses that have nothing to do with deliveries *)
Definition quiet (l : label) : Prop :=
  match l with LAct (Deliver _ _) _ | LAct (Count Delivered) _ => False | _ => True end.
Lemma quiet_I k h l : quiet l -> I_deliv k h l.
Proof. destruct l as [[]| |]; try done. by destruct c. Qed.
Lemma quiet_counts l : quiet l -> is_hit l = false /\ is_count Delivered l = false.
Proof. destruct l as [[]| |]; try done. by destruct c. Qed.
Lemma quiet_app h hs : Forall quiet hs -> ntimes is_hit (h ++ hs) = ntimes is_hit h /\
  ntimes (is_count Delivered) (h ++ hs) = ntimes (is_count Delivered) h.
Proof.
  intros H. rewrite !ntimes_app, !(ntimes_none _ hs); [by rewrite !Nat.add_0_r|..];
    (eapply Forall_impl; [done|]); intros l Hl; by apply quiet_counts.
Qed.
Lemma quiet_snoc h l : quiet l -> ntimes is_hit (h ++ [l]) = ntimes is_hit h /\
  ntimes (is_count Delivered) (h ++ [l]) = ntimes (is_count Delivered) h.
Proof. intros H. apply quiet_app. by repeat constructor. Qed.
Lemma lookups_quiet l : lookups l -> quiet l.
Proof. by destruct l as [[]| |]. Qed.
Lemma house_quiet l : house l -> quiet l.
Proof. by destruct l as [[]| |]. Qed.
Lemma sub_quiet id b nodes l : sub id b nodes l -> quiet l.
Proof. destruct l as [[] r| |]; try done. by destruct c. Qed.
Lemma fresh_even h : fresh_h h -> even h.
Proof. intros [H1 H2]. unfold even. congruence. Qed.
Lemma fresh_quiet h hs : Forall quiet hs -> fresh_h h -> fresh_h (h ++ hs).
Proof. intros H. unfold fresh_h. by destruct (quiet_app h hs H) as [-> ->]. Qed.
(** a part that does not deliver *)
Lemma deliv_emits {A} k (Q : list label -> A -> Prop) h (m : prog A) :
  emits quiet m -> fresh_h h -> (forall hs a, Forall quiet hs -> fresh_h (h ++ hs) -> Q (h ++ hs) a) ->
  gsafe (I_deliv k) Q even h m.
Proof.
  intros He Hf HQ. eapply (gsafe_emits quiet); [done|..].
  - intros. by apply quiet_I.
  - intros hs a Hs. apply HQ; [done|]. by apply fresh_quiet.
  - intros hs Hs. by apply fresh_even, fresh_quiet.
Qed.
Lemma emits_quiet_lookups {A} (m : prog A) : emits lookups m -> emits quiet m.
Proof. apply emits_mono, lookups_quiet. Qed.
Lemma in_app_l {A} (x : A) l1 l2 : x ∈ l1 -> x ∈ l1 ++ l2.
Proof. intros. apply elem_of_app. by left. Qed.
Lemma accepted_app k h hs b : accepted k h b -> accepted k (h ++ hs) b.
Proof. intros [[-> H]| ->]; [left|by right]. split; [done|]. by apply in_app_l. Qed.
Lemma local_deliv k h p b0 :
  fresh_h h -> accepted k h b0 -> p_id p = bid b0 -> p_dst p = b_dst b0 ->
  LAct (HasEndpoint (p_dst p)) true ∈ h ->
  gsafe (I_deliv k) (fun h _ => even h) even h (local_delivery p).
Proof.
  intros Hf Ha Hid Hdst He. unfold Pipeline.local_delivery.
  apply safe_bind, safe_call. intros ob. split; [done|].
  assert (Hf1 : fresh_h (h ++ [LAct (SGet (p_id p)) ob])) by (apply fresh_quiet; [by repeat constructor|done]).
  destruct ob as [b|]; [|cbn [gsafe]; by apply fresh_even].
  apply safe_bind. apply deliv_emits; [|done|].
  { apply emits_quiet_lookups. emit. apply record_lookups. }
  intros hs valid _ Hf2. destruct (negb valid).
  { apply safe_bind, deliv_emits; [apply emits_quiet_lookups, delete_lookups|done|].
    intros hs2 _ _ Hf3. cbn [gsafe]. by apply fresh_even. }
  cbv zeta. apply safe_bind, deliv_emits; [apply emits_quiet_lookups, sync_lookups|done|].
  intros hs2 ok _ Hf3. destruct ok; [|cbn [gsafe]; by apply fresh_even].
  apply safe_bind.
  set (p1 := add_constraint p LocalEndpoint).
  assert (Hd1 : p_dst p1 = b_dst b0) by done. 
  apply (gsafe_mono (I_deliv k) (I_deliv k) 
    (fun h' p2 => p_dst p2 = b_dst b0 /\ fresh_h h' /\ exists hs, h' = ((h ++ [LAct (SGet (p_id p)) (Some b)]) ++ hs)) _ even even); [done| |done|].
  2: { destruct (is_local_node_id host (p_dst p1)).
    - apply safe_bind, deliv_emits; [|done|].
      + apply emits_quiet_lookups. emit. apply report_lookups.
      + intros hs3 _ _ Hf4. cbn [gsafe]. split; [done|]. split; [done|]. exists (hs ++ hs2 ++ hs3). by rewrite !app_assoc.
    - cbn [gsafe]. split; [done|]. split; [done|]. exists (hs ++ hs2). by rewrite !app_assoc. }
  intros h3 p2 (Hd2 & Hf4 & hs3 & ->).
  apply safe_bind, deliv_emits; [apply emits_quiet_lookups, sync_lookups|done|].
  intros hs4 ok _ Hf5. destruct ok; [|cbn [gsafe]; by apply fresh_even].
  rewrite Hd2. apply safe_bind, safe_call. intros r. split.
  { cbn. split; [done|]. exists b0. rewrite <- !app_assoc. split; [by apply accepted_app|]. split; [done|]. split.
    - rewrite <- Hid. apply elem_of_app. right. left.
    - rewrite <- Hdst. by apply in_app_l. }
  set (h4 := _ ++ hs4) in *. clearbody h4. destruct Hf5 as [F1 F2].
  assert (Hrem : forall rs, ntimes is_hit (h4 ++ [LAct (Deliver (b_dst b0) b) Handed] ++ [LAct (SRemove (bid b)) rs]) = 1%nat /\
     ntimes (is_count Delivered) (h4 ++ [LAct (Deliver (b_dst b0) b) Handed] ++ [LAct (SRemove (bid b)) rs]) = 0%nat).
  { intros rs. rewrite !ntimes_app, F1, F2. done. }
  destruct r; cbn match.
  - cbn [gsafe]. unfold even. rewrite !ntimes_app, F1, F2. done.
  - apply safe_bind, safe_call. intros r. split.
    + cbn. rewrite !ntimes_app, F1, F2. done.
    + cbn [gsafe]. unfold even. rewrite !ntimes_app, F1, F2. done.
  - unfold remove_if_singleton. destruct (eid_non_singleton (b_dst b)).
    + apply safe_bind. cbn [gsafe]. apply safe_bind, safe_call. intros r. split.
      * cbn. rewrite !ntimes_app, F1, F2. done.
      * cbn [gsafe]. unfold even. rewrite !ntimes_app, F1, F2. done.
    + apply safe_bind, safe_bind, safe_call. intros rs. split; [done|]. cbn [gsafe].
      apply safe_bind, safe_call. intros r. rewrite <- !(app_assoc h4). split.
      * apply Hrem.
      * cbn [gsafe]. unfold even. rewrite !ntimes_app, F1, F2. done.
Qed.
Lemma even_spawn h p : even h -> even (h ++ [LSpawn p]).
Proof. unfold even. by destruct (quiet_snoc h (LSpawn p)) as [-> ->]. Qed.
Lemma dispatch_deliv k h p b0 :
  fresh_h h -> accepted k h b0 -> p_id p = bid b0 -> p_dst p = b_dst b0 ->
  gsafe (I_deliv k) (fun h _ => even h) even h (dispatch p).
Proof.
  intros Hf Ha Hid Hdst. unfold Pipeline.dispatch.
  apply safe_bind, safe_call. intros ob. split; [done|].
  assert (Hf1 : fresh_h (h ++ [LAct (SGet (p_id p)) ob])) by (apply fresh_quiet; [by repeat constructor|done]).
  destruct ob as [b|]; [|cbn [gsafe]; by apply fresh_even].
  apply safe_bind, safe_call. intros []. split; [done|].
  apply safe_bind, safe_call. intros e. split; [done|].
  apply safe_bind.
  assert (Hf2 : fresh_h (((h ++ [LAct (SGet (p_id p)) (Some b)]) ++ [LAct (Notify (IncomingBundle b)) tt]) ++ [LAct (HasEndpoint (p_dst p)) e])).
  { rewrite <- !app_assoc. apply fresh_quiet; [by repeat constructor|done]. }
  eapply (gsafe_mono (I_deliv k) (I_deliv k) (fun h _ => even h)); [done| |done|].
  2: { destruct e; [|cbn [gsafe]; by apply fresh_even].
    eapply local_deliv; try done.
    - rewrite <- !app_assoc. by apply accepted_app.
    - apply elem_of_app. right. left. }
  intros h' ok He. destruct ok; [|done]. destruct (is_local_node_id host (p_dst p)); [done|].
  cbn [gsafe]. split; [done|]. by apply even_spawn.
Qed.
Lemma fresh_nil : fresh_h [].
Proof. done. Qed.
Lemma forward_quiet p : emits quiet (forward p).
Proof.
  unfold Pipeline.forward, forward_copy, handle_lifetime, handle_hop_count, handle_previous_node, handle_age.
  rewrite sync_forwarding. emit; try (eapply emits_mono; [apply house_quiet|apply delete_fresh_house]).
  all: split; [eapply Forall_impl; [apply send_all_sub|]; intros; eapply cemits_mono; [apply sub_quiet|done]|];
    split; [done|]; intros; eapply emits_mono; [apply house_quiet|apply after_house].
Qed.
Lemma forward_all_quiet ps : emits quiet (forward_all host gen_reports parallel parse_record ps).
Proof. induction ps as [|p ps IH]; cbn [forward_all]; emit; first [apply IH|apply forward_quiet]. Qed.
Lemma janitor_quiet : emits quiet process_bundles.
Proof.
  unfold Pipeline.process_bundles. emit; try apply forward_all_quiet; (eapply emits_mono; [apply house_quiet|]);
    first [apply expired_house|apply load_house].
Qed.
Lemma all_deliv k : gsafe (I_deliv k) (fun h _ => even h) even [] (task_of k).
Proof.
  destruct k as [b|b|p| |e|id]; cbn [Pipeline.task_of].
  - apply safe_bind. eapply (gsafe_mono _ _ (fun h _ => even h)); [done|by intros|done|].
    unfold Pipeline.receive. apply safe_bind, safe_call. intros r. split; [done|]. destruct r as [[]|]; [|..].
    + apply safe_bind, safe_call. intros []. split; [done|].
      apply safe_bind, safe_call. intros now. split; [done|]. cbv zeta.
      set (h1 := (([] ++ [LAct (SAdd b) (Some true)]) ++ [LAct (Count Incoming) ()]) ++ [LAct Clock now]).
      assert (Hf1 : fresh_h h1) by done.
      assert (Ha1 : accepted (KReceive b) h1 b) by (left; split; [done|left]). clearbody h1.
      apply safe_bind, deliv_emits; [apply emits_quiet_lookups, sync_lookups|done|]. intros hs ok _ Hf2.
      destruct ok; [|cbn [gsafe]; by apply fresh_even].
      apply safe_bind, deliv_emits; [apply emits_quiet_lookups; emit; apply report_lookups|done|]. intros hs2 _ _ Hf3.
      apply safe_bind, deliv_emits; [apply emits_quiet_lookups, scan_lookups|done|]. intros hs3 rm _ Hf4.
      destruct rm as [rm|]; [|cbn [gsafe]; by apply fresh_even].
      destruct (remove_indices (b_blocks b) rm) as [l|]; [|cbn [gsafe]; by apply fresh_even].
      apply safe_bind, safe_call. intros ok. split; [done|].
      assert (Hf5 : fresh_h ((((h1 ++ hs) ++ hs2) ++ hs3) ++ [LAct (SPush (with_blocks b l)) ok])) by (apply fresh_quiet; [by repeat constructor|done]).
      destruct ok; [|cbn [gsafe]; by apply fresh_even].
      apply safe_bind. eapply (gsafe_mono _ _ (fun h _ => even h)); [done|by intros|done|].
      eapply (dispatch_deliv _ _ _ b); try done. rewrite <- !app_assoc. by apply accepted_app.
    + apply safe_bind, safe_call. intros []. split; [done|]. by cbn [gsafe].
    + by cbn [gsafe].
  - apply safe_bind. eapply (gsafe_mono _ _ (fun h _ => even h)); [done|by intros|done|].
    unfold Pipeline.submit, Pipeline.transmit. apply safe_bind, safe_call. intros ok. split; [done|]. destruct ok; [|by cbn [gsafe]].
    apply safe_bind, safe_call. intros now. split; [done|]. cbv zeta.
    set (h1 := ([] ++ [LAct (SPush b) true]) ++ [LAct Clock now]).
    assert (Hf1 : fresh_h h1) by done. clearbody h1.
    apply safe_bind, deliv_emits; [apply emits_quiet_lookups, sync_lookups|done|]. intros hs ok _ Hf2.
    destruct ok; [|cbn [gsafe]; by apply fresh_even].
    apply safe_bind, deliv_emits; [apply emits_quiet_lookups; emit|done|]. intros hs2 ok _ Hf3. destruct ok.
    + eapply (dispatch_deliv _ _ _ b); try done. by right.
    + apply deliv_emits; [apply emits_quiet_lookups, delete_lookups|done|]. intros hs3 a _ Hf4. by apply fresh_even.
  - apply deliv_emits; [emit; apply forward_quiet|done|]. intros hs a _ Hf4. by apply fresh_even.
  - apply deliv_emits; [apply janitor_quiet|done|]. intros hs a _ Hf4. by apply fresh_even.
  - apply deliv_emits; [unfold app_pop, remove_if_singleton; emit|done|]. intros hs a _ Hf4. by apply fresh_even.
  - apply deliv_emits; [unfold user_delete; emit|done|]. intros hs a _ Hf4. by apply fresh_even.
Qed.

(** ** The counters *)
Lemma run_stats tr m c : run tr m -> n_stats (m_node m) c = N.of_nat (happened (is_count c) tr).
Proof.
  induction 1 as [m (_ & _ & H & _)|tr m e m' Hr IH Hs]; [by rewrite H|].
  rewrite happened_app, Nat2N.inj_add, <- IH, happened_one.
  destruct Hs as [m k _|m ep|m ep|m ep on|m ps|m u d _ _|m i k p o r p' n' Hj Hp Ha|m i k p q p' Hj _|m i k p p' Hj _]; cbn [m_node with_node n_stats set_eps set_peers]; try lia.
  - destruct (has_endpoint ep (m_node m)); cbn; lia.
  - assert (E : n_stats n' c = n_stats (m_node m) c + N.of_nat (if is_count c (LAct o r) then 1 else 0)%nat); [|exact E].
    destruct o; cbn in Ha; cbn [is_count]; try (destruct (find_ep e (m_node m))); try (destruct (n_peers (m_node m) !! n)); destruct_or?; destruct_and?; subst; cbn; try lia.
    match goal with |- context [bool_decide ?P] => destruct (bool_decide P) end; cbn; lia.
  - cbn. lia.
  - cbn. lia.
Qed.
Definition one_reception (k : kind) : nat := match k with KReceive _ => 1%nat | _ => 0%nat end.
Lemma prefix_in {A} (h1 : list A) l h2 : l ∈ h1 ++ l :: h2.
Proof. apply elem_of_app. right. left. Qed.
Lemma run_task_kind tr m i l t : run tr m -> did i tr = l :: t -> exists k, tasks tr !! i = Some k.
Proof.
  intros Hr Hd. destruct (did_split i tr [] l t Hd) as (t1 & t2 & -> & _ & _).
  destruct (run_task_step _ _ _ _ _ _ _ _ _ _ Hr) as (k & q & Hk & _ & _). eauto.
Qed.
(** every access of every task satisfies [I] *)
Lemma run_I (I : kind -> list label -> label -> Prop) tr m i h1 l h2 :
  (forall k, safe (I k) (fun _ _ => True) [] (task_of k)) ->
  run tr m -> did i tr = h1 ++ l :: h2 -> exists k, tasks tr !! i = Some k /\ I k h1 l.
Proof.
  intros HI Hr Hd. destruct (did_split i tr h1 l h2 Hd) as (t1 & t2 & -> & <- & _).
  destruct (run_task_step _ _ _ _ _ _ _ _ _ _ Hr) as (k & q & Hk & Hk1 & _).
  destruct (run_safe _ _ _ _ _ _ _ _ _ _ _ HI Hr) as (k' & Hk' & H).
  exists k. split; [done|]. congruence.
Qed.
Lemma weaken_recv k : safe (I_recv k) (fun _ _ => True) [] (task_of k).
Proof. eapply gsafe_mono; [done| | |apply all_recv]; done. Qed.
Lemma weaken_deliv k : safe (I_deliv k) (fun _ _ => True) [] (task_of k).
Proof. eapply gsafe_mono; [done| | |apply all_deliv]; done. Qed.
Definition is_recv_count (l : label) : bool := is_count Incoming l || is_count Dups l.
Lemma recv_counts h : ntimes is_recv_count h = (ntimes (is_count Incoming) h + ntimes (is_count Dups) h)%nat.
Proof.
  induction h as [|l h IH]; [done|]. rewrite !ntimes_cons, IH.
  assert ((if is_recv_count l then 1 else 0) = (if is_count Incoming l then 1 else 0) + (if is_count Dups l then 1 else 0))%nat.
  { destruct l as [[]| |]; try done. by destruct c. }
  lia.
Qed.
Lemma task_recv_count tr m i k : run tr m -> tasks tr !! i = Some k ->
  (ntimes (is_count Incoming) (did i tr) + ntimes (is_count Dups) (did i tr) <= one_reception k)%nat.
Proof.
  intros Hr Hk. rewrite <- recv_counts.
  assert (HI : forall h1 l h2, did i tr = h1 ++ l :: h2 -> is_recv_count l = true -> exists b r, k = KReceive b /\ h1 = [LAct (SAdd b) r]).
  { intros h1 l h2 Hd Hl. destruct (run_I _ _ _ _ _ _ _ weaken_recv Hr Hd) as (k' & Hk' & HI).
    rewrite Hk in Hk'. injection Hk' as <-. destruct l as [[]| |]; try done. destruct c; try done; cbn in HI; destruct HI as (b & -> & ->); eauto. }
  destruct (decide (ntimes is_recv_count (did i tr) = 0%nat)) as [->|Hne]; [lia|].
  assert (exists l, l ∈ did i tr /\ is_recv_count l = true) as (l & Hl & Hc).
  { unfold ntimes in Hne. destruct (filter _ (did i tr)) as [|l ls] eqn:E; [done|]. exists l.
    assert (H : l ∈ filter (fun l => is_recv_count l = true) (did i tr)) by (rewrite E; left). apply elem_of_list_filter in H. naive_solver. }
  apply elem_of_list_split in Hl as (h1 & h2 & Hd). destruct (HI _ _ _ Hd Hc) as (b & r & -> & _). cbn.
  apply ntimes_once. intros ha l' hb Hd' Hl'. destruct (HI _ _ _ Hd' Hl') as (? & ? & _ & ->). done.
Qed.
Lemma recv_count_total tr m : run tr m ->
  (happened (is_count Incoming) tr + happened (is_count Dups) tr <= sum_list_with one_reception (tasks tr))%nat.
Proof.
  intros Hr. rewrite !(happened_sum _ tr (length (tasks tr))) by (intros; by eapply step_index).
  rewrite <- (total_map one_reception 0), <- total_add. apply total_le. intros i Hi.
  destruct (lookup_lt_is_Some_2 _ _ Hi) as [k Hk]. rewrite Hk. by eapply task_recv_count.
Qed.
Lemma recv_count_all tr m : run tr m ->
  (forall i b, EStep i (LAct (SAdd b) None) ∉ tr) ->
  (forall i b p, m_tasks m !! i = Some (KReceive b, p) -> ended p) ->
  (happened (is_count Incoming) tr + happened (is_count Dups) tr = sum_list_with one_reception (tasks tr))%nat.
Proof.
  intros Hr Hn He. apply Nat.le_antisymm; [by eapply recv_count_total|].
  rewrite !(happened_sum _ tr (length (tasks tr))) by (intros; by eapply step_index).
  rewrite <- (total_map one_reception 0), <- total_add. apply total_le. intros i Hi.
  destruct (lookup_lt_is_Some_2 _ _ Hi) as [k Hk]. rewrite Hk. destruct k as [b| | | | |]; cbn; try lia.
  assert (Hm := Hk). rewrite <- (run_tasks _ _ _ _ _ _ _ Hr), list_lookup_fmap in Hm.
  destruct (m_tasks m !! i) as [[k p]|] eqn:E; [|done]. cbn in Hm. injection Hm as ->.
  destruct (run_ended _ _ _ _ _ I_recv Q_recv _ _ _ _ _ all_recv Hr E (He _ _ _ E)) as [H|[->|[rest ->]]].
  - exfalso. apply (Hn i b), did_elem. rewrite H. left.
  - done.
  - rewrite !ntimes_cons. change (is_count Incoming (LAct (Count Incoming) ())) with true. cbn [is_count]. lia.
Qed.
Lemma deliv_le h : (forall h1 l h2, h = h1 ++ l :: h2 -> exists k, I_deliv k h1 l) ->
  (ntimes (is_count Delivered) h <= ntimes is_hit h <= 1)%nat.
Proof.
  intros H. split.
  - assert (Hc : forall h1 l h2, h = h1 ++ l :: h2 -> is_count Delivered l = true -> ntimes is_hit h1 = 1%nat /\ ntimes (is_count Delivered) h1 = 0%nat).
    { intros h1 l h2 Hd Hl. destruct (H _ _ _ Hd) as [k HI]. destruct l as [[]| |]; try done. by destruct c. }
    destruct (decide (ntimes (is_count Delivered) h = 0%nat)) as [->|Hne]; [lia|].
    assert (exists l, l ∈ h /\ is_count Delivered l = true) as (l & Hl & Hcl).
    { unfold ntimes in Hne. destruct (filter _ h) as [|l ls] eqn:E; [done|]. exists l.
      assert (Hx : l ∈ filter (fun l => is_count Delivered l = true) h) by (rewrite E; left). apply elem_of_list_filter in Hx. naive_solver. }
    assert (ntimes (is_count Delivered) h <= 1)%nat by (apply ntimes_once; intros ha l' hb Hd Hl'; by eapply Hc).
    apply elem_of_list_split in Hl as (h1 & h2 & Hd). destruct (Hc _ _ _ Hd Hcl) as [H1 _].
    assert (1 <= ntimes is_hit h)%nat by (rewrite Hd, ntimes_app, H1; lia). lia.
  - apply ntimes_once. intros h1 l h2 Hd Hl. destruct (H _ _ _ Hd) as [k HI].
    destruct l as [[]| |]; try done. cbn in HI. by destruct HI as [[? _] _].
Qed.
Lemma task_deliv tr m i : run tr m ->
  (ntimes (is_count Delivered) (did i tr) <= ntimes is_hit (did i tr) <= 1)%nat.
Proof.
  intros Hr. apply deliv_le. intros h1 l h2 Hd. destruct (run_I _ _ _ _ _ _ _ weaken_deliv Hr Hd) as (k & _ & H). eauto.
Qed.
Lemma deliv_total tr m : run tr m -> (happened (is_count Delivered) tr <= happened is_hit tr)%nat.
Proof.
  intros Hr. rewrite !(happened_sum _ tr (length (tasks tr))) by (intros; by eapply step_index).
  apply total_le. intros i Hi. by apply (task_deliv tr m i).
Qed.
Lemma deliv_all tr m : run tr m -> (forall i k p, m_tasks m !! i = Some (k, p) -> ended p) ->
  happened (is_count Delivered) tr = happened is_hit tr.
Proof.
  intros Hr He. rewrite !(happened_sum _ tr (length (tasks tr))) by (intros; by eapply step_index).
  apply total_ext. intros i Hi. rewrite <- (run_tasks _ _ _ _ _ _ _ Hr), map_length in Hi.
  destruct (lookup_lt_is_Some_2 _ _ Hi) as [[k p] Hk].
  symmetry. exact (run_ended _ _ _ _ _ I_deliv (fun _ => even) _ _ _ _ _ all_deliv Hr Hk (He _ _ _ Hk)).
Qed.

(** ** Acceptances (C32) *)
Lemma count_incoming tr m i : run tr m -> LAct (Count Incoming) tt ∈ did i tr ->
  exists b rest, tasks tr !! i = Some (KReceive b) /\ did i tr = LAct (SAdd b) (Some true) :: LAct (Count Incoming) tt :: rest.
Proof.
  intros Hr Hin. apply elem_of_list_split in Hin as (h1 & h2 & Hd).
  destruct (run_I _ _ _ _ _ _ _ weaken_recv Hr Hd) as (k & Hk & HI).
  cbn in HI. destruct HI as (b & -> & ->). exists b, h2. done.
Qed.
(** the whole story of a reception *)
Lemma reception_shape tr m i b : run tr m -> tasks tr !! i = Some (KReceive b) ->
  did i tr = [] \/
  exists r rest, did i tr = LAct (SAdd b) r :: rest /\
    match r with
    | None => rest = []
    | Some false => rest = [] \/ rest = [LAct (Count Dups) tt]
    | Some true => rest = [] \/ exists rest', rest = LAct (Count Incoming) tt :: rest'
    end.
Proof.
  intros Hr Hk. assert (HI : forall h1 l h2, did i tr = h1 ++ l :: h2 -> I_recv (KReceive b) h1 l).
  { intros h1 l h2 Hd. destruct (run_I _ _ _ _ _ _ _ weaken_recv Hr Hd) as (k & Hk' & HI). rewrite Hk in Hk'. by injection Hk' as <-. }
  assert (Hgen : forall h1 l h2, did i tr = h1 ++ l :: h2 ->
     (exists r, l = LAct (SAdd b) r /\ h1 = []) \/
     (l = LAct (Count Incoming) tt /\ h1 = [LAct (SAdd b) (Some true)]) \/
     (l = LAct (Count Dups) tt /\ h1 = [LAct (SAdd b) (Some false)]) \/
     exists rest, h1 = LAct (SAdd b) (Some true) :: LAct (Count Incoming) tt :: rest).
  { intros h1 l h2 Hd. specialize (HI _ _ _ Hd). destruct l as [o r| |].
    - destruct o; try (right; right; right; by apply HI).
      + cbn in HI. destruct HI as [[= <-] ->]. left. eauto.
      + destruct r, c; cbn in HI.
        * destruct HI as (? & [= <-] & ->). naive_solver.
        * destruct HI as (? & [= <-] & ->). naive_solver.
        * right; right; right; by apply HI.
        * right; right; right; by apply HI.
        * right; right; right; by apply HI.
        * right; right; right; by apply HI.
    - right; right; right; by apply HI.
    - right; right; right; by apply HI. }
  clear HI. destruct (did i tr) as [|l0 h]; [by left|]. right.
  destruct (Hgen [] l0 h eq_refl) as [(r & -> & _)|[[_ ?]|[[_ ?]|[? ?]]]]; try done.
  exists r, h. split; [done|]. destruct h as [|l1 h]; [by destruct r as [[]|]; auto|].
  destruct (Hgen [LAct (SAdd b) r] l1 h eq_refl) as [(? & _ & ?)|[[-> E]|[[-> E]|[? ?]]]]; try done.
  - injection E as E. apply (Eqdep_dec.inj_pair2_eq_dec _ (fun x y => decide (x = y))) in E. subst r. right. eauto.
  - injection E as E. apply (Eqdep_dec.inj_pair2_eq_dec _ (fun x y => decide (x = y))) in E. subst r. right.
    destruct h as [|l2 h]; [done|]. exfalso.
    destruct (Hgen [LAct (SAdd b) (Some false); LAct (Count Dups) ()] l2 h eq_refl) as [(? & _ & E)|[[_ E]|[[_ E]|[rest E]]]]; try (by apply (f_equal length) in E).
    apply (f_equal (fun h => match h with _ :: LAct (Count c) _ :: _ => Some c | _ => None end)) in E. done.
Qed.
(** between two acceptances the bundle was removed *)
Lemma accepted_twice t1 i b t2 j b' t3 m :
  run (t1 ++ EStep i (LAct (SAdd b) (Some true)) :: t2 ++ EStep j (LAct (SAdd b') (Some true)) :: t3) m ->
  bid b = bid b' -> exists k, EStep k (LAct (SRemove (bid b)) true) ∈ t2.
Proof.
  intros H E. rewrite app_comm_cons, app_assoc in H. apply run_answers in H.
  symmetry in H. apply negb_true_iff in H. rewrite stored_app in H. cbn [fold_left store_effect] in H. rewrite E in *.
  rewrite decide_True in H by done. by eapply stored_kept.
Qed.
(** acceptances and removals, by number *)
Definition is_accept (id : string) (l : label) : bool :=
  match l with LAct (SAdd b) (Some true) => bool_decide (bid b = id) | _ => false end.
Definition is_removal (id : string) (l : label) : bool :=
  match l with LAct (SRemove i) true => bool_decide (i = id) | _ => false end.
Lemma accept_count tr m id : run tr m ->
  (happened (is_accept id) tr <= happened (is_removal id) tr + (if stored id tr then 1 else 0))%nat.
Proof.
  induction 1 as [m _|tr m e m' Hr IH Hs]; [cbn; lia|].
  rewrite !happened_app, !happened_one, stored_app. cbn [fold_left].
  assert (Hr' := run_step _ _ _ _ _ _ _ _ _ Hr Hs).
  destruct e as [| | | | | |i l]; cbn [store_effect]; try lia.
  assert (Ha := run_answers tr i l [] m' Hr').
  destruct l as [[] r| |]; cbn [is_accept is_removal]; try (destruct (stored id tr); lia).
  - destruct r; [|lia]. destruct (decide (bid b = id)); [|lia]. destruct (stored id tr); lia.
  - destruct r as [[]|]; try lia. destruct (decide (bid b = id)) as [<-|Hne].
    + rewrite bool_decide_eq_true_2 by done. destruct (stored (bid b) tr); [done|lia].
    + rewrite bool_decide_eq_false_2 by done. lia.
  - destruct r; [|lia]. destruct (decide (id0 = id)) as [->|Hne].
    + rewrite bool_decide_eq_true_2 by done. destruct (stored id tr); lia.
    + rewrite bool_decide_eq_false_2 by done. lia.
Qed.

(** ** Hand-overs of one bundle (C63) *)
Definition is_hit_of (id : string) (l : label) : bool :=
  match l with
  | LAct (Deliver _ _) NoEndpoint => false
  | LAct (Deliver _ b) _ => bool_decide (bid b = id)
  | _ => false
  end.
Definition one_submission (id : string) (k : kind) : nat :=
  match k with KSubmit b => if bool_decide (bid b = id) then 1%nat else 0%nat | _ => 0%nat end.
Lemma hit_of_hit id l : is_hit_of id l = true -> is_hit l = true.
Proof. destruct l as [[]| |]; try done. by destruct r. Qed.
Lemma ntimes_imp f g h : (forall l, f l = true -> g l = true) -> (ntimes f h <= ntimes g h)%nat.
Proof.
  intros H. induction h as [|l h IH]; [done|]. rewrite !ntimes_cons. destruct (f l) eqn:E; [rewrite (H _ E); lia|]. lia.
Qed.
Lemma ntimes_pos f h l : l ∈ h -> f l = true -> (1 <= ntimes f h)%nat.
Proof.
  intros (h1 & h2 & ->)%elem_of_list_split E. rewrite ntimes_app, ntimes_cons, E. lia.
Qed.
Lemma ntimes_ex f h : ntimes f h <> 0%nat -> exists h1 l h2, h = h1 ++ l :: h2 /\ f l = true.
Proof.
  intros Hne. unfold ntimes in Hne. destruct (filter _ h) as [|l ls] eqn:E; [done|].
  assert (Hx : l ∈ filter (fun l => f l = true) h) by (rewrite E; left). apply elem_of_list_filter in Hx as [Hf Hx].
  apply elem_of_list_split in Hx as (h1 & h2 & ->). eauto.
Qed.
Lemma handover tr m t1 i e b r t2 : run tr m -> tr = t1 ++ EStep i (LAct (Deliver e b) r) :: t2 -> 
  exists k b0, tasks t1 !! i = Some k /\ accepted k (did i t1) b0 /\ e = b_dst b0 /\ bid b = bid b0 /\
    LAct (SGet (bid b0)) (Some b) ∈ did i t1.
Proof.
  intros Hr ->. destruct (run_safe _ _ _ _ _ _ _ _ _ _ _ weaken_deliv Hr) as (k & Hk & _ & b0 & Ha & He & Hg & _).
  exists k, b0. split; [done|]. split; [done|]. split; [done|]. split; [|done].
  destruct (run_split _ _ _ _ _ _ _ _ _ Hr) as (m1 & _ & H1 & _ & _).
  apply did_elem in Hg. apply (iv_get _ _ (run_inv _ _ _ _ _ _ _ H1) _ _ _ Hg).
Qed.
Lemma handovers_total tr m id : run tr m ->
  (happened (is_hit_of id) tr <= happened (is_accept id) tr + sum_list_with (one_submission id) (tasks tr))%nat.
Proof.
  intros Hr. rewrite !(happened_sum _ tr (length (tasks tr))) by (intros; by eapply step_index).
  rewrite <- (total_map (one_submission id) 0), <- total_add. apply total_le. intros i Hi.
  destruct (lookup_lt_is_Some_2 _ _ Hi) as [k Hk]. rewrite Hk.
  destruct (decide (ntimes (is_hit_of id) (did i tr) = 0%nat)) as [->|Hne]; [lia|].
  assert (H1 := ntimes_imp _ _ (did i tr) (hit_of_hit id)). assert (H2 := task_deliv tr m i Hr).
  apply ntimes_ex in Hne as (h1 & l & h2 & Hd & Hl).
  destruct (did_split _ _ _ _ _ Hd) as (t1 & t2 & Htr & Hd1 & Hd2).
  destruct l as [[]| |]; try done.
  destruct (handover _ _ _ _ _ _ _ _ Hr Htr) as (k' & b0 & Hk' & Ha & _ & Hb & _).
  assert (k' = k) as ->.
  { rewrite Htr, tasks_app in Hk. rewrite (lookup_app_l_Some _ _ _ _ Hk') in Hk. by injection Hk. }
  assert (bid b = id). { destruct r; try done; by apply bool_decide_eq_true in Hl. }
  destruct Ha as [[-> Ha]| ->]; cbn [one_submission].
  - assert (1 <= ntimes (is_accept id) (did i tr))%nat; [|lia].
    apply (ntimes_pos _ _ (LAct (SAdd b0) (Some true))); [rewrite Hd, <- Hd1; by apply in_app_l|].
    cbn. apply bool_decide_eq_true. congruence.
  - rewrite bool_decide_eq_true_2 by congruence. lia.
Qed.
End reception.
