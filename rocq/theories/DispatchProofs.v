(** Receptions and submissions of bundles for other nodes end with the start of an
    attempt to pass them on, or there is a reason (for C144). *)
From stdpp Require Import prelude strings pretty gmap sorting.
From Coq Require Import NArith Lia ZifyBool ZifyN ZifyNat.
From Verif Require Import Core StoreMem Peers Routing Pipeline PipelineBase PipelineProofs PipelineInv CauseProofs DeliverProofs.
Open Scope N_scope.

Section dispatch.
Context (host : eid) (gen_reports parallel : bool) (parse_record : list N -> option arecord)
        (lifetime_exceeded : N -> bundle -> bool).
Notation dispatch := (dispatch host gen_reports parse_record).
Notation local_delivery := (local_delivery host gen_reports parse_record).
Notation receive := (receive host gen_reports parse_record).
Notation submit := (submit host gen_reports parse_record).
Notation task_of := (task_of host gen_reports parallel parse_record).
Notation any := (fun (_ : list label) (_ : label) => True).

(** what keeps the bundle [id] for [e] from being passed on; [admin]: it is an
    administrative record *)
Definition hindered (id : string) (e : eid) (admin : bool) (h : list label) : Prop :=
  (exists p, LAct (SUpdate p) false ∈ h) \/ (exists b, LAct (SPush b) false ∈ h) \/ LAct (SGet id) None ∈ h \/
  (admin = true /\ LAct (HasEndpoint e) true ∈ h) \/ stuck h.
Definition sets_out (id : string) (h : list label) : Prop := exists p, p_id p = id /\ LSpawn p ∈ h.
Definition onward (id : string) (e : eid) (admin : bool) (h : list label) : Prop := hindered id e admin h \/ sets_out id h.
Lemma hind_update id e ad h p : onward id e ad (h ++ [LAct (SUpdate p) false]).
Proof. left. left. exists p. inh. Qed.
Lemma hind_push id e ad h b : onward id e ad (h ++ [LAct (SPush b) false]).
Proof. left. right. left. exists b. inh. Qed.
Lemma hind_gone id e ad h : onward id e ad (h ++ [LAct (SGet id) None]).
Proof. left. right. right. left. inh. Qed.
Lemma hind_stuck id e ad h : stuck h -> onward id e ad h.
Proof. left. by do 4 right. Qed.

Ltac asm := rewrite <- ?app_assoc.
(** a delivery to an application that does not fail, or there is a reason *)
Lemma local_onward h p (Q : list label -> bool -> Prop) (P : list label -> Prop) : p_admin p = false ->
  (forall hs, Q (h ++ hs) true) -> (forall hs, onward (p_id p) (p_dst p) false (h ++ hs) -> Q (h ++ hs) false) ->
  (forall hs, onward (p_id p) (p_dst p) false (h ++ hs) -> P (h ++ hs)) ->
  gsafe any Q P h (local_delivery p).
Proof.
  intros Ha HQ HF HP. unfold Pipeline.local_delivery. apply safe_bind, safe_call. intros ob. split; [done|].
  destruct ob as [b|]; [|apply HF, hind_gone]. rewrite Ha. cbn [bind gsafe negb].
  set (p1 := add_constraint p LocalEndpoint).
  assert (Hc1 : has_constraints (p_cons p1) = true).
  { unfold has_constraints. rewrite bool_decide_eq_false_2; [done|]. by destruct p as [???????[]]. }
  apply safe_bind. rewrite (sync_some _ Hc1). apply safe_call. intros r. split; [done|]. asm.
  destruct r; [|apply HF; rewrite (app_assoc h); apply hind_update].
  apply safe_bind.
  assert (Hrest : forall hs q, has_constraints (p_cons q) = true ->
    gsafe any Q P (h ++ hs) (sync q ?;; (let* h := call (Deliver (p_dst q) b) in
        match h with
        | NoEndpoint => Ret true
        | Queued => call (Count Delivered) ;;; Ret true
        | Handed => remove_if_singleton b ;;; call (Count Delivered) ;;; Ret true
        end))).
  { intros hs q Hc. apply safe_bind. rewrite (sync_some _ Hc). apply safe_call. intros r. split; [done|]. asm.
    destruct r; [|apply HF; rewrite (app_assoc h); apply hind_update].
    apply safe_bind, safe_call. intros r. split; [done|]. asm. destruct r.
    - apply HQ.
    - apply safe_bind, safe_call. intros []. split; [done|]. asm. apply HQ.
    - apply safe_bind. unfold remove_if_singleton. destruct (eid_non_singleton _).
      + cbn [gsafe]. apply safe_bind, safe_call. intros []. split; [done|]. asm. apply HQ.
      + apply safe_bind, safe_call. intros r. split; [done|]. cbn [gsafe]. apply safe_bind, safe_call. intros []. split; [done|]. asm. apply HQ. }
  assert (Hk : has_constraints (p_cons (with_cons p1 (clear_c (p_cons p1)))) = true).
  { by destruct p as [???????[]]. }
  destruct (is_local_node_id host (p_dst p1)).
  - apply safe_bind. destruct (_ && _).
    + apply report_post; intros hs.
      * cbn [gsafe]. asm. apply Hrest; done.
      * asm. intros Hs. apply HP, hind_stuck, Hs.
    + cbn [gsafe]. apply Hrest; done.
  - cbn [gsafe]. apply Hrest. unfold has_constraints. rewrite bool_decide_eq_false_2; [done|]. by destruct p as [???????[]].
Qed.
Lemma dispatch_onward h p (Q : list label -> bool -> Prop) (P : list label -> Prop) :
  is_local_node_id host (p_dst p) = false ->
  (forall hs r, onward (p_id p) (p_dst p) (p_admin p) (h ++ hs) -> Q (h ++ hs) r) ->
  (forall hs, onward (p_id p) (p_dst p) (p_admin p) (h ++ hs) -> P (h ++ hs)) ->
  gsafe any Q P h (dispatch p).
Proof.
  intros Hl HQ HP. unfold Pipeline.dispatch. apply safe_bind, safe_call. intros ob. split; [done|].
  destruct ob as [b|]; [|apply HP, hind_gone]. apply safe_bind, safe_call. intros []. split; [done|]. asm.
  apply safe_bind, safe_call. intros e. split; [done|]. asm. apply safe_bind. rewrite Hl.
  assert (Hend : forall hs, gsafe any Q P (h ++ hs) (Spawn p (Ret true))).
  { intros hs. split; [done|]. cbn [gsafe]. asm. apply HQ. right. exists p. split; [done|]. inh. }
  destruct e; [|cbn [gsafe]; apply Hend].
  destruct (p_admin p) eqn:Ea.
  - eapply (gsafe_emits (fun _ => True)); [apply emits_all|done|..].
    + intros hs a _. destruct a; asm; [apply Hend|]. apply HQ. left. right. right. right. left. split; [done|]. inh.
    + intros hs _. asm. apply HP. left. right. right. right. left. split; [done|]. inh.
  - apply local_onward; [done|intros hs; asm; apply Hend|intros hs Ho|intros hs Ho]; rewrite <- app_assoc in *; [by apply HQ|by apply HP].
Qed.
Lemma receive_onward b : ~ fatal b -> marks (b_blocks b) 0 [] = [] -> is_local_node_id host (b_dst b) = false ->
  gsafe any (fun h _ => LAct (SAdd b) (Some true) ∈ h -> onward (bid b) (b_dst b) (bf_admin (b_flags b)) h)
            (fun h => LAct (SAdd b) (Some true) ∈ h -> onward (bid b) (b_dst b) (bf_admin (b_flags b)) h) [] (receive b).
Proof.
  intros Hf Hm Hl. unfold Pipeline.receive. apply safe_bind, safe_call. intros r. split; [done|].
  destruct r as [[]|].
  2: { apply safe_bind, safe_call. intros []. split; [done|]. intros Hin. cbn in Hin.
       apply elem_of_cons in Hin as [E|Hin]; [by apply lact_inj in E|]. by apply elem_of_list_singleton in Hin. }
  2: { cbn. intros Hin. apply elem_of_list_singleton in Hin. by apply lact_inj in Hin. }
  apply safe_bind, safe_call. intros []. split; [done|].
  apply safe_bind, safe_call. intros now. split; [done|]. cbv zeta.
  set (p := add_constraint _ _).
  apply safe_bind. unfold sync. rewrite (eq_refl : has_constraints (p_cons p) = true).
  apply safe_call. intros r. split; [done|]. destruct r; [|intros _; apply hind_update].
  apply safe_bind.
  match goal with |- gsafe ?I ?Q ?P ?h ?m => assert (Hrest : forall hs, Q (h ++ hs) tt) end.
  { intros hs. apply safe_bind.
    apply scan_outcome.
    - intros x Hx Ht. destruct (kf_delete (k_flags x)) eqn:Ek; [|done]. destruct Hf. by exists x.
    - intros hs'. rewrite Hm. cbn [remove_indices].
      apply safe_bind, safe_call. intros r. split; [done|]. destruct r; [|intros _; apply hind_push].
      apply safe_bind. apply dispatch_onward; [done|..]; intros; cbn [gsafe]; intros; done.
    - intros hs' Hs _. by apply hind_stuck. }
  destruct (_ && _) eqn:E.
  - apply report_post; [exact Hrest|intros hs0 H _; by apply hind_stuck].
  - cbn [gsafe]. specialize (Hrest []). by rewrite app_nil_r in Hrest.
Qed.
Lemma submit_onward b (Q := fun h => onward (bid b) (b_dst b) (bf_admin (b_flags b)) h \/ b_src b <> DtnNone /\ LAct (HasEndpoint (b_src b)) false ∈ h) :
  is_local_node_id host (b_dst b) = false -> gsafe any (fun h _ => Q h) Q [] (submit b).
Proof.
  intros Hl. unfold Pipeline.submit, transmit. apply safe_bind, safe_call. intros r. split; [done|].
  destruct r; [|left; apply hind_push].
  apply safe_bind, safe_call. intros now. split; [done|]. cbv zeta. set (p := add_constraint _ _).
  apply safe_bind. unfold sync. rewrite (eq_refl : has_constraints (p_cons p) = true).
  apply safe_call. intros r. split; [done|]. destruct r; [|left; apply hind_update].
  apply safe_bind. change (p_src p) with (b_src b).
  destruct (bool_decide (b_src b = DtnNone)) eqn:Es.
  { cbn [gsafe]. apply dispatch_onward; [done|..]; intros; by left. }
  apply bool_decide_eq_false in Es.
  apply safe_call. intros ok. split; [done|]. destruct ok.
  - apply dispatch_onward; [done|..]; intros; by left.
  - eapply (gsafe_emits (fun _ => True)); [apply emits_all|done|..]; intros; right; (split; [done|]); inh.
Qed.
Definition Q_onward (k : kind) (h : list label) : Prop :=
  match k with
  | KSubmit b => is_local_node_id host (b_dst b) = false ->
      onward (bid b) (b_dst b) (bf_admin (b_flags b)) h \/ b_src b <> DtnNone /\ LAct (HasEndpoint (b_src b)) false ∈ h
  | KReceive b => is_local_node_id host (b_dst b) = false -> ~ fatal b -> marks (b_blocks b) 0 [] = [] ->
      LAct (SAdd b) (Some true) ∈ h -> onward (bid b) (b_dst b) (bf_admin (b_flags b)) h
  | _ => True
  end.
Lemma all_onward k : gsafe any (fun h _ => Q_onward k h) (Q_onward k) [] (task_of k).
Proof.
  destruct k; cbn [Pipeline.task_of].
  3-6: (eapply (gsafe_emits (fun _ => True)); [apply emits_all|done..]).
  - destruct (is_local_node_id host (b_dst b)) eqn:Hl.
    { apply gsafe_any; intros; unfold Q_onward; by rewrite Hl. }
    destruct (decide (Exists (fun x => 11 <= k_type x /\ kf_delete (k_flags x) = true) (b_blocks b))) as [Hf|Hf].
    { apply Exists_exists in Hf as (x & Hx & Hp). apply gsafe_any; intros; intros _ Hn; destruct Hn; by exists x. }
    destruct (decide (marks (b_blocks b) 0 [] = [])) as [Hm|Hm].
    2: { apply gsafe_any; intros; by intros _ _ ?. }
    apply safe_bind. eapply gsafe_mono; [done| | |apply receive_onward]; cbn; try tauto.
    intros (x & Hx & Hp). destruct Hf. apply Exists_exists. eauto.
  - destruct (is_local_node_id host (b_dst b)) eqn:Hl.
    { apply gsafe_any; intros; unfold Q_onward; by rewrite Hl. }
    apply safe_bind. eapply gsafe_mono; [done| | |by apply submit_onward]; cbn; tauto.
Qed.
End dispatch.
