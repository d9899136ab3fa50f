(** Receptions and submissions end with a hand-over, or there is a reason. *)
From stdpp Require Import prelude strings pretty gmap sorting.
From Coq Require Import NArith Lia ZifyBool ZifyN ZifyNat.
From Verif Require Import Core StoreMem Peers Routing Pipeline PipelineBase PipelineProofs PipelineInv CauseProofs.
Open Scope N_scope.

Section deliver.
Context (host : eid) (gen_reports parallel : bool) (parse_record : list N -> option arecord)
        (lifetime_exceeded : N -> bundle -> bool).
Notation dispatch := (dispatch host gen_reports parse_record).
Notation local_delivery := (local_delivery host gen_reports parse_record).
Notation receive := (receive host gen_reports parse_record).
Notation submit := (submit host gen_reports parse_record).
Notation task_of := (task_of host gen_reports parallel parse_record).
Notation any := (fun (_ : list label) (_ : label) => True).

(** something went wrong for the bundle [id] addressed to [e] *)
Definition trouble (id : string) (e : eid) (h : list label) : Prop :=
  (exists p, LAct (SUpdate p) false ∈ h) \/ (exists b, LAct (SPush b) false ∈ h) \/ LAct (SGet id) None ∈ h \/
  LAct (HasEndpoint e) false ∈ h \/ stuck h.
Definition handed (e : eid) (h : list label) : Prop := exists b r, LAct (Deliver e b) r ∈ h.
Definition outcome (id : string) (e : eid) (h : list label) : Prop := trouble id e h \/ handed e h.
Lemma outcome_mono id e h hs : outcome id e h -> outcome id e (h ++ hs).
Proof.
  unfold outcome, trouble, handed, stuck. intros [[[x H]|[[x H]|[H|[H|(x & y & z & H)]]]]|(x & y & H)].
  - left. left. exists x. inh.
  - left. right. left. exists x. inh.
  - left. right. right. left. inh.
  - left. do 3 right. left. inh.
  - left. do 4 right. exists x, y, z. inh.
  - right. exists x, y. inh.
Qed.
Lemma o_update id e h p : outcome id e (h ++ [LAct (SUpdate p) false]).
Proof. left. left. exists p. inh. Qed.
Lemma o_push id e h b : outcome id e (h ++ [LAct (SPush b) false]).
Proof. left. right. left. exists b. inh. Qed.
Lemma o_gone id e h : outcome id e (h ++ [LAct (SGet id) None]).
Proof. left. right. right. left. inh. Qed.
Lemma o_noep id e h : outcome id e (h ++ [LAct (HasEndpoint e) false]).
Proof. left. do 3 right. left. inh. Qed.
Lemma o_stuck id e h : stuck h -> outcome id e h.
Proof. left. by do 4 right. Qed.

Ltac asm := rewrite <- ?app_assoc.
Lemma local_outcome h p (Q : list label -> bool -> Prop) (P : list label -> Prop) :
  p_admin p = false -> (forall hs r, outcome (p_id p) (p_dst p) (h ++ hs) -> Q (h ++ hs) r) ->
  (forall hs, outcome (p_id p) (p_dst p) (h ++ hs) -> P (h ++ hs)) ->
  gsafe any Q P h (local_delivery p).
Proof.
  intros Ha HQ HP. unfold Pipeline.local_delivery. apply safe_bind, safe_call. intros ob. split; [done|].
  destruct ob as [b|]; [|apply HQ, o_gone]. rewrite Ha. cbn [bind gsafe negb].
  set (p1 := add_constraint p LocalEndpoint).
  assert (Hc1 : has_constraints (p_cons p1) = true).
  { unfold has_constraints. rewrite bool_decide_eq_false_2; [done|]. by destruct p as [???????[]]. }
  apply safe_bind. rewrite (sync_some _ Hc1). apply safe_call. intros r. split; [done|]. asm.
  destruct r; [|apply HQ; rewrite (app_assoc h); apply o_update].
  apply safe_bind.
  assert (Hrest : forall hs q, has_constraints (p_cons q) = true -> p_dst q = p_dst p ->
    gsafe any Q P (h ++ hs) (sync q ?;; (let* h := call (Deliver (p_dst q) b) in
        match h with
        | NoEndpoint => Ret true
        | Queued => call (Count Delivered) ;;; Ret true
        | Handed => remove_if_singleton b ;;; call (Count Delivered) ;;; Ret true
        end))).
  { intros hs q Hc Hd. apply safe_bind. rewrite (sync_some _ Hc). apply safe_call. intros r. split; [done|]. asm.
    destruct r; [|apply HQ; rewrite (app_assoc h); apply o_update]. rewrite Hd.
    apply safe_bind, safe_call. intros r. split; [done|]. asm.
    assert (Ho : forall hs', outcome (p_id p) (p_dst p) (h ++ (hs ++ [LAct (SUpdate q) true] ++ [LAct (Deliver (p_dst p) b) r]) ++ hs')).
    { intros hs'. right. exists b, r. inh. }
    destruct r.
    - apply HQ. specialize (Ho []). by rewrite app_nil_r in Ho.
    - apply safe_bind, safe_call. intros []. split; [done|]. asm. apply HQ. specialize (Ho [LAct (Count Delivered) tt]). rewrite <- ?app_assoc in Ho. exact Ho.
    - apply safe_bind. unfold remove_if_singleton. destruct (eid_non_singleton _).
      + cbn [gsafe]. apply safe_bind, safe_call. intros []. split; [done|]. asm. apply HQ. specialize (Ho [LAct (Count Delivered) tt]). rewrite <- ?app_assoc in Ho. exact Ho.
      + apply safe_bind, safe_call. intros r. split; [done|]. cbn [gsafe]. apply safe_bind, safe_call. intros []. split; [done|]. asm. apply HQ.
        specialize (Ho [LAct (SRemove (bid b)) r; LAct (Count Delivered) tt]). rewrite <- ?app_assoc in Ho. exact Ho. }
  assert (Hk : has_constraints (p_cons (with_cons p1 (clear_c (p_cons p1)))) = true).
  { by destruct p as [???????[]]. }
  destruct (is_local_node_id host (p_dst p1)).
  - apply safe_bind. destruct (_ && _).
    + apply report_post; intros hs.
      * cbn [gsafe]. asm. apply Hrest; done.
      * asm. intros Hs. apply HP, o_stuck, Hs.
    + cbn [gsafe]. apply Hrest; done.
  - cbn [gsafe]. apply Hrest; [|done]. unfold has_constraints. rewrite bool_decide_eq_false_2; [done|]. by destruct p as [???????[]].
Qed.
Lemma dispatch_outcome h p (Q : list label -> bool -> Prop) (P : list label -> Prop) :
  p_admin p = false -> (forall hs r, outcome (p_id p) (p_dst p) (h ++ hs) -> Q (h ++ hs) r) ->
  (forall hs, outcome (p_id p) (p_dst p) (h ++ hs) -> P (h ++ hs)) ->
  gsafe any Q P h (dispatch p).
Proof.
  intros Ha HQ HP. unfold Pipeline.dispatch. apply safe_bind, safe_call. intros ob. split; [done|].
  destruct ob as [b|]; [|apply HP, o_gone]. apply safe_bind, safe_call. intros []. split; [done|]. asm.
  apply safe_bind, safe_call. intros e. split; [done|]. asm. apply safe_bind.
  assert (Hend : forall hs, outcome (p_id p) (p_dst p) (h ++ hs) -> 
    gsafe any Q P (h ++ hs) (if is_local_node_id host (p_dst p) then Ret true else Spawn p (Ret true))).
  { intros hs Ho. destruct (is_local_node_id _ _); [by apply HQ|]. split; [done|]. cbn [gsafe]. asm. apply HQ. rewrite app_assoc. by apply outcome_mono. }
  destruct e.
  - apply local_outcome; [done|intros hs r Ho|intros hs Ho]; rewrite <- app_assoc in *; [|by apply HP].
    destruct r; [by apply Hend|by apply HQ].
  - cbn [gsafe]. apply Hend. rewrite !app_assoc. apply o_noep.
Qed.
Notation scan_blocks := (scan_blocks gen_reports).
Lemma scan_outcome (Q : list label -> option (list nat) -> Prop) (P : list label -> Prop) h p l i rm :
  (forall x, x ∈ l -> 11 <= k_type x -> kf_delete (k_flags x) = false) ->
  (forall hs, Q (h ++ hs) (Some (marks l i rm))) -> (forall hs, stuck (h ++ hs) -> P (h ++ hs)) ->
  gsafe any Q P h (scan_blocks p l i rm).
Proof.
  revert h i rm. induction l as [|x l IH]; intros h i rm Hf HQ HP; cbn [Pipeline.scan_blocks marks] in *.
  { specialize (HQ []). by rewrite app_nil_r in HQ. }
  assert (Hf' : forall x, x ∈ l -> 11 <= k_type x -> kf_delete (k_flags x) = false) by (intros y Hy; apply Hf; by right).
  destruct (k_type x <? 11) eqn:Ex; [by apply IH|].
  apply safe_bind. rewrite (Hf x) by (try left; lia).
  assert (Hrest : forall hs, gsafe any Q P (h ++ hs) (scan_blocks p l (S i) (if kf_remove (k_flags x) then rm ++ [i] else rm))).
  { intros hs. apply IH; [done|intros hs'; asm; apply HQ|intros hs'; asm; apply HP]. }
  destruct (_ && _) eqn:E.
  - apply report_post; [apply Hrest|apply HP].
  - cbn [gsafe]. specialize (Hrest []). by rewrite app_nil_r in Hrest.
Qed.
Definition benign (b : bundle) : Prop :=
  bf_admin (b_flags b) = false /\ ~ fatal b /\ marks (b_blocks b) 0 [] = [].
Lemma receive_outcome b : benign b ->
  gsafe any (fun h _ => LAct (SAdd b) (Some true) ∈ h -> outcome (bid b) (b_dst b) h)
            (fun h => LAct (SAdd b) (Some true) ∈ h -> outcome (bid b) (b_dst b) h) [] (receive b).
Proof.
  intros (Ha & Hf & Hm). unfold Pipeline.receive. apply safe_bind, safe_call. intros r. split; [done|].
  destruct r as [[]|].
  2: { apply safe_bind, safe_call. intros []. split; [done|]. intros Hin. cbn in Hin.
       apply elem_of_cons in Hin as [E|Hin]; [by apply lact_inj in E|]. by apply elem_of_list_singleton in Hin. }
  2: { cbn. intros Hin. apply elem_of_list_singleton in Hin. by apply lact_inj in Hin. }
  apply safe_bind, safe_call. intros []. split; [done|].
  apply safe_bind, safe_call. intros now. split; [done|]. cbv zeta.
  set (p := add_constraint _ _).
  apply safe_bind. unfold sync. rewrite (eq_refl : has_constraints (p_cons p) = true).
  apply safe_call. intros r. split; [done|]. destruct r; [|intros _; apply o_update].
  apply safe_bind.
  match goal with |- gsafe ?I ?Q ?P ?h ?m => assert (Hrest : forall hs, Q (h ++ hs) tt) end.
  { intros hs. apply safe_bind.
    apply scan_outcome.
    - intros x Hx Ht. destruct (kf_delete (k_flags x)) eqn:Ek; [|done]. destruct Hf. by exists x.
    - intros hs'. rewrite Hm. cbn [remove_indices].
      apply safe_bind, safe_call. intros r. split; [done|]. destruct r; [|intros _; apply o_push].
      apply safe_bind. apply dispatch_outcome; [done|..]; intros; cbn [gsafe]; intros; done.
    - intros hs' Hs _. by apply o_stuck. }
  destruct (_ && _) eqn:E.
  - apply report_post; [exact Hrest|intros hs0 H _; by apply o_stuck].
  - cbn [gsafe]. specialize (Hrest []). by rewrite app_nil_r in Hrest.
Qed.
Lemma submit_outcome b : bf_admin (b_flags b) = false ->
  gsafe any (fun h _ => outcome (bid b) (b_dst b) h \/ b_src b <> DtnNone /\ LAct (HasEndpoint (b_src b)) false ∈ h)
            (fun h => outcome (bid b) (b_dst b) h \/ b_src b <> DtnNone /\ LAct (HasEndpoint (b_src b)) false ∈ h) [] (submit b).
Proof.
  intros Ha. unfold Pipeline.submit, transmit. apply safe_bind, safe_call. intros r. split; [done|].
  destruct r; [|left; apply o_push].
  apply safe_bind, safe_call. intros now. split; [done|]. cbv zeta. set (p := add_constraint _ _).
  apply safe_bind. unfold sync. rewrite (eq_refl : has_constraints (p_cons p) = true).
  apply safe_call. intros r. split; [done|]. destruct r; [|left; apply o_update].
  apply safe_bind. change (p_src p) with (b_src b).
  destruct (bool_decide (b_src b = DtnNone)) eqn:Es.
  { cbn [gsafe]. apply dispatch_outcome; [done|..]; intros; by left. }
  apply bool_decide_eq_false in Es.
  apply safe_call. intros ok. split; [done|]. destruct ok.
  - apply dispatch_outcome; [done|..]; intros; by left.
  - eapply (gsafe_emits (fun _ => True)); [apply emits_all|done|..]; intros; right; (split; [done|]); inh.
Qed.
Definition Q_outcome (k : kind) (h : list label) : Prop :=
  match k with
  | KSubmit b => bf_admin (b_flags b) = false ->
      outcome (bid b) (b_dst b) h \/ b_src b <> DtnNone /\ LAct (HasEndpoint (b_src b)) false ∈ h
  | KReceive b => benign b -> LAct (SAdd b) (Some true) ∈ h -> outcome (bid b) (b_dst b) h
  | _ => True
  end.
Lemma gsafe_any {A} (Q : list label -> A -> Prop) (P : list label -> Prop) p :
  (forall h a, Q h a) -> (forall h, P h) -> gsafe any Q P [] p.
Proof. intros. eapply (gsafe_emits (fun _ => True)); [apply emits_all|done..]. Qed.
Lemma all_outcome k : gsafe any (fun h _ => Q_outcome k h) (Q_outcome k) [] (task_of k).
Proof.
  destruct k; cbn [Pipeline.task_of].
  3-6: (eapply (gsafe_emits (fun _ => True)); [apply emits_all|done..]).
  - destruct (decide (bf_admin (b_flags b) = false)) as [Ha|Ha].
    2: { apply gsafe_any; intros; by intros []. }
    destruct (decide (Exists (fun x => 11 <= k_type x /\ kf_delete (k_flags x) = true) (b_blocks b))) as [Hf|Hf].
    { apply Exists_exists in Hf as (x & Hx & Hp). apply gsafe_any; intros; intros (_ & Hn & _); destruct Hn; by exists x. }
    destruct (decide (marks (b_blocks b) 0 [] = [])) as [Hm|Hm].
    2: { apply gsafe_any; intros; by intros (_ & _ & ?). }
    apply safe_bind. eapply gsafe_mono; [done| | |apply receive_outcome]; cbn; try tauto.
    split; [done|]. split; [|done]. intros (x & Hx & Hp). destruct Hf. apply Exists_exists. eauto.
  - destruct (decide (bf_admin (b_flags b) = false)) as [Ha|Ha].
    2: { apply gsafe_any; intros; by intros ?. }
    apply safe_bind. eapply gsafe_mono; [done| | |by apply submit_outcome]; cbn; tauto.
Qed.

(** a task begins with putting its bundle into the store *)
Definition first_act (k : kind) (h : list label) (l : label) : Prop :=
  match k with
  | KReceive b => match l with LAct (SGet _) _ => LAct (SAdd b) (Some true) ∈ h | _ => True end
  | KSubmit b => match l with LAct (SGet _) _ => LAct (SPush b) true ∈ h | _ => True end
  | _ => True
  end.
Lemma all_first k : gsafe (first_act k) (fun _ _ => True) (fun _ => True) [] (task_of k).
Proof.
  assert (Hrest : forall A (p : prog A) h (Q : list label -> A -> Prop) (P : list label -> Prop),
    (forall hs l, first_act k (h ++ hs) l) -> (forall hs a, Q (h ++ hs) a) -> (forall hs, P (h ++ hs)) -> gsafe (first_act k) Q P h p).
  { intros A p h Q P Hf HQ HP. eapply (gsafe_emits (fun _ => True)); [apply emits_all|..]; auto. }
  destruct k as [b|b| | | |]; cbn [Pipeline.task_of].
  3-6: (eapply (gsafe_emits (fun _ => True)); [apply emits_all|done..]).
  - unfold Pipeline.receive. apply safe_bind, safe_bind, safe_call. intros r. split; [done|].
    destruct r as [[]|].
    + apply Hrest; try done. intros hs l. destruct l as [[]| |]; try done. cbn. inh.
    + sx; done.
    + sx; done.
  - unfold Pipeline.submit. apply safe_bind, safe_bind, safe_call. intros r. split; [done|].
    destruct r; [|sx; done].
    apply Hrest; try done. intros hs l. destruct l as [[]| |]; try done. cbn. inh.
Qed.
Notation run := (run host gen_reports parallel parse_record lifetime_exceeded).
Notation mstep := (mstep host gen_reports parallel parse_record lifetime_exceeded).
(** what is in the store stays until it is removed *)
Definition rm_in (id : string) (tr : list event) : Prop := exists j r, EStep j (LAct (SRemove id) r) ∈ tr.
Lemma remove_other id id' s : id' <> id -> is_Some (m_bundles s !! id') -> is_Some (m_bundles (fst (mem_remove id s)) !! id').
Proof.
  intros Hn H. unfold mem_remove, mem_update. destruct (m_meta s !! id) as [p|]; [|done].
  destruct (m_meta s !! p_id (tombstone p)); cbn; [|done].
  destruct (m_bundles s !! id) eqn:E; cbn; [|done]. by rewrite lookup_delete_ne.
Qed.
Lemma stays_step m e m' id : mstep m e m' -> is_Some (m_bundles (n_store (m_node m)) !! id) ->
  is_Some (m_bundles (n_store (m_node m')) !! id) \/ exists j r, e = EStep j (LAct (SRemove id) r).
Proof.
  intros Hs Hid. inversion Hs as [| | | | | |m0 i k p o r p' n' _ _ Ha E1 E2 E3| |]; subst;
    try (left; exact Hid). { left. by destruct (has_endpoint _ _). }
  cbn [m_node]. destruct (access_store _ _ _ _ _ _ Ha) as [->|(id' & -> & ->)]; [|by left].
  destruct o; cbn [store_after]; try (by left).
  - destruct r; [|by left]. left. cbn. destruct (decide (id = bid b)) as [->|Hn]; [rewrite lookup_insert; eauto|by rewrite lookup_insert_ne].
  - destruct r as [[]|]; try (by left). left. cbn. destruct (decide (id = bid b)) as [->|Hn]; [rewrite lookup_insert; eauto|by rewrite lookup_insert_ne].
  - destruct (decide (id = id0)) as [->|Hn]; [right; eauto|]. left. by apply remove_other.
  - destruct r; [|by left]. left. unfold mem_update. by destruct (m_meta _ !! p_id p0).
Qed.
Lemma stays t1 t2 m : run (t1 ++ t2) m -> forall id, (forall m1, run t1 m1 -> is_Some (m_bundles (n_store (m_node m1)) !! id)) ->
  is_Some (m_bundles (n_store (m_node m)) !! id) \/ rm_in id t2.
Proof.
  revert m. induction t2 as [|e t2 IH] using rev_ind; intros m H id H1.
  { rewrite app_nil_r in H. left. by apply H1. }
  rewrite app_assoc in H. inversion H as [|tr m0 e' m' Hr Hs E]; subst; [by destruct (t1 ++ t2)|].
  apply app_inj_tail in E as [-> ->]. destruct (IH _ Hr _ H1) as [Hi|(j & r & Hi)].
  - destruct (stays_step _ _ _ _ Hs Hi) as [?|(j & r & ->)]; [by left|]. right. exists j, r. apply elem_of_app. right. left.
  - right. exists j, r. apply elem_of_app. by left.
Qed.
(** a task that does not find its bundle *)
Lemma gone_removed t1 i b t2 m : run (t1 ++ EStep i (LAct (SGet (bid b)) None) :: t2) m ->
  tasks t1 !! i = Some (KReceive b) \/ tasks t1 !! i = Some (KSubmit b) -> rm_in (bid b) t1.
Proof.
  intros H Hk. destruct (run_safe _ _ _ _ _ _ _ _ _ _ _ all_first H) as (k & Hk' & Hf).
  destruct (run_access _ _ _ _ _ _ _ _ _ _ _ H) as (m1 & m2 & H1 & [Ha _] & _). symmetry in Ha. unfold mem_get in Ha.
  assert (Hgen : forall o r, EStep i (LAct o r) ∈ t1 -> (forall n n', access host lifetime_exceeded n o r n' -> is_Some (m_bundles (n_store n') !! bid b)) -> rm_in (bid b) t1).
  { intros o r Hin Hacc. apply elem_of_list_split in Hin as (ta & tb & ->).
    replace (ta ++ EStep i (LAct o r) :: tb) with ((ta ++ [EStep i (LAct o r)]) ++ tb) in H1 by (by rewrite <- app_assoc).
    destruct (stays _ _ _ H1 (bid b)) as [[x Hx]|(j & q & Hq)].
    - intros m3 H3. destruct (run_access _ _ _ _ _ _ _ _ _ [] _ H3) as (m4 & m5 & _ & Ha5 & H5).
      inversion H3 as [|tr0 m0 e' m' Hr Hs E]; subst; [by destruct ta|].
      apply app_inj_tail in E as [-> ->]. inversion Hs as [| | | | | |mm ii kk pp oo rr pp' nn' _ _ Haa E1 E2 E3| |]; subst.
      repeat match goal with H : existT _ _ = existT _ _ |- _ => apply (Eqdep_dec.inj_pair2_eq_dec _ (fun x y => decide (x = y))) in H end.
      subst. by eapply Hacc.
    - rewrite Ha in Hx. done.
    - exists j, q. apply elem_of_app. right. by right. }
  destruct Hk as [Hk|Hk]; rewrite Hk in Hk'; injection Hk' as <-; cbn in Hf; apply did_elem in Hf; apply (Hgen _ _ Hf).
  - intros n n' [[Hr0 ->]|[? _]]; [|done]. unfold mem_add_if_unknown in *. destruct (mem_has (bid b) (n_store n)); cbn in *; [done|].
    rewrite lookup_insert. eauto.
  - intros n n' [[_ ->]|[? _]]; [|done]. cbn. rewrite lookup_insert. eauto.
Qed.
End deliver.
