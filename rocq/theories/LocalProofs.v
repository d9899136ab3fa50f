(** Which bundles get marked for forwarding and are transmitted (C65). *)
From stdpp Require Import prelude strings pretty gmap sorting.
From Coq Require Import NArith Lia ZifyBool ZifyN ZifyNat.
From Verif Require Import Core StoreMem Peers Routing Pipeline PipelineBase PipelineProofs PipelineInv TransferProofs ReceptionProofs.
Open Scope N_scope.

Section mark.
Context (host : eid) (gen_reports parallel : bool) (parse_record : list N -> option arecord)
        (lifetime_exceeded : N -> bundle -> bool).
Notation delete_bundle := (delete_bundle gen_reports).
Notation record_valid := (record_valid parse_record).
Notation local_delivery := (local_delivery host gen_reports parse_record).
Notation forward := (forward host gen_reports parse_record).
Notation dispatch := (dispatch host gen_reports parse_record).
Notation submit := (submit host gen_reports parse_record).
Notation receive := (receive host gen_reports parse_record).
Notation scan_blocks := (scan_blocks gen_reports).
Notation process_bundles := (process_bundles host gen_reports parallel parse_record).
Notation task_of := (task_of host gen_reports parallel parse_record).
Notation mstep := (mstep host gen_reports parallel parse_record lifetime_exceeded).
Notation run := (run host gen_reports parallel parse_record lifetime_exceeded).
Notation access := (access host lifetime_exceeded).

(** the task has a ground for transmitting the bundle [id]; a new bundle has
    been announced to the routing agent by then *)
Definition fresh (k : kind) (id : string) : Prop :=
  exists b, kbundle k = Some b /\ bid b = id /\ is_local_node_id host (b_dst b) = false.
Definition shown (h : list label) (id : string) : Prop :=
  exists x r, LAct (SGet id) (Some x) ∈ h /\ LAct (Notify (IncomingBundle x)) r ∈ h.
Definition marked (k : kind) (h : list label) (id : string) : Prop :=
  (fresh k id /\ shown h id) \/
  (exists b0 st rs out, LAct (NewReport b0 st rs) (Some out) ∈ h /\ bid out = id) \/
  (exists q, k = KForward q /\ p_id q = id) \/
  (exists ids id0 q, LAct SForwarding ids ∈ h /\ id0 ∈ ids /\ LAct (SMeta id0) (Some q) ∈ h /\ p_id q = id).
Lemma marked_mono k h hs id : marked k h id -> marked k (h ++ hs) id.
Proof.
  assert (Hm : forall l, l ∈ h -> l ∈ h ++ hs) by (intros; apply elem_of_app; by left).
  intros [H|[(b0 & st & rs & out & H & ?)|[?|(ids & id0 & q & H1 & H2 & H3 & H4)]]].
  - left. destruct H as (Hf & x & r & H1 & H2). split; [done|]. exists x, r. auto.
  - right. left. exists b0, st, rs, out. auto.
  - right. right. by left.
  - right. right. right. exists ids, id0, q. auto.
Qed.
Definition I_mark (k : kind) (h : list label) (l : label) : Prop :=
  match l with
  | LAct (SUpdate p) _ => has_constraint p ForwardPending = true -> marked k h (p_id p)
  | LSpawn p | LAct (Route p) _ => marked k h (p_id p)
  | LAct (Notify (IncomingBundle b)) _ => exists i, LAct (SGet i) (Some b) ∈ h
  | LAct (Notify (IncomingNoPrev _ _)) _ => False
  | LAct (Transfer s b) _ => exists id stored, marked k h id /\ LAct (SGet id) (Some stored) ∈ h /\ same_primary b stored
  | _ => True
  end.
Ltac asm := rewrite <- ?app_assoc.
Lemma sync_mark k (Q : list label -> bool -> Prop) h p :
  (has_constraint p ForwardPending = true -> marked k h (p_id p)) -> (forall r l, Q (h ++ [l]) r) -> safe (I_mark k) Q h (sync p).
Proof. intros Ho HQ. unfold sync. sx; cbn; auto. Qed.
Lemma report_mark k (Q : list label -> unit -> Prop) h p st rs :
  (forall hs, Q (h ++ hs) tt) -> safe (I_mark k) Q h (send_status_report p st rs).
Proof.
  intros HQ. assert (HQ0 : Q h tt) by (specialize (HQ []); by rewrite app_nil_r in HQ).
  unfold send_status_report. sx; cbn [I_mark]; try done; rewrite <- ?app_assoc; try apply HQ.
  subst. apply sync_mark.
  - intros _. right. left. exists b, st, rs, b0. split; [|done]. inh.
  - intros r1 l. cbn [gsafe]. rewrite <- !app_assoc. apply HQ.
Qed.
Lemma delete_mark k (Q : list label -> bool -> Prop) h p rs :
  (forall r hs, Q (h ++ hs) r) -> safe (I_mark k) Q h (delete_bundle p rs).
Proof.
  intros HQ. unfold Pipeline.delete_bundle.
  assert (Hsync : forall hs, safe (I_mark k) Q (h ++ hs) (sync (with_cons p (clear_c (p_cons p))))).
  { intros hs. apply sync_mark; [|intros; asm; apply HQ].
    unfold has_constraint. cbn [p_cons with_cons]. unfold clear_c. by destruct (has_c _ LocalEndpoint). }
  sx; cbn [I_mark]; try done; rewrite <- ?app_assoc; try apply HQ.
  apply report_mark. intros hs. rewrite <- app_assoc. apply Hsync.
Qed.
Lemma record_mark k (Q : list label -> bool -> Prop) h b :
  (forall r hs, Q (h ++ hs) r) -> safe (I_mark k) Q h (record_valid b).
Proof.
  intros HQ. apply (safe_emits (fun l => match l with LAct (SHas _) _ | LAct (SRemove _) _ => True | _ => False end)).
  - assert (forall l i ref, emits (fun l => match l with LAct (SHas _) _ | LAct (SRemove _) _ => True | _ => False end) (inspect_items l i ref)).
    { induction l as [|x l IH]; intros i ref; cbn [inspect_items]; emit; apply IH. }
    unfold Pipeline.record_valid, inspect_status_report. emit; auto.
  - by intros hs [[]| |].
  - intros hs r _. apply HQ.
Qed.
Lemma local_mark k (Q : list label -> bool -> Prop) h p :
  has_constraint p ForwardPending = false ->
  (is_local_node_id host (p_dst p) = false -> marked k h (p_id p)) ->
  (forall r hs, Q (h ++ hs) r) -> safe (I_mark k) Q h (local_delivery p).
Proof.
  intros Hp Ho HQ. unfold Pipeline.local_delivery. apply safe_bind, safe_call. intros ob. split; [done|].
  destruct ob as [b|]; [|apply HQ].
  apply safe_bind.
  assert (Hrec : safe (I_mark k) (fun h' valid => exists hs, h' = h ++ hs) (h ++ [LAct (SGet (p_id p)) (Some b)])
                   (if p_admin p then record_valid b else Ret true)).
  { destruct (p_admin p); [apply record_mark; intros; asm; eauto|]. cbn. eauto. }
  eapply safe_mono; [done| |exact Hrec]. clear Hrec. intros h' valid [hs ->]. cbv zeta.
  destruct (negb valid).
  { apply safe_bind, delete_mark. intros. asm. apply HQ. }
  apply safe_bind, sync_mark.
  { intros E. exfalso. revert E. unfold has_constraint in *. destruct p as [? ? ? ? ? ? ? []]. cbn in *. congruence. }
  intros r l. destruct r; [|asm; apply HQ].
  apply safe_bind.
  assert (Hmid : safe (I_mark k) (fun h' q => exists hs s, h' = h ++ hs /\ q = with_cons p s /\ (has_constraint q ForwardPending = true -> is_local_node_id host (p_dst p) = false)) ((h ++ hs) ++ [l])
     (if is_local_node_id host (p_dst (add_constraint p LocalEndpoint))
      then (if bf_rep_deliv (b_flags b) && negb (bf_admin (b_flags b)) && gen_reports
            then send_status_report (add_constraint p LocalEndpoint) DELIVERED_BUNDLE NO_INFORMATION else Ret tt) ;;;
           Ret (with_cons (add_constraint p LocalEndpoint) (clear_c (p_cons (add_constraint p LocalEndpoint))))
      else Ret (add_constraint (add_constraint p LocalEndpoint) ForwardPending))%prog).
  { asm. change (p_dst (add_constraint p LocalEndpoint)) with (p_dst p).
    destruct (is_local_node_id _ _) eqn:El; [|cbn [gsafe]; eexists _, _; split; [done|]; split; [reflexivity|done]].
    assert (Hc : has_constraint (with_cons (add_constraint p LocalEndpoint) (clear_c (p_cons (add_constraint p LocalEndpoint)))) ForwardPending = false).
    { unfold has_constraint. cbn [p_cons with_cons]. unfold clear_c. by destruct (has_c _ LocalEndpoint). }
    apply safe_bind. destruct (_ && _).
    - apply report_mark. intros hs'. asm. cbn [gsafe]. eexists _, _. split; [done|]. split; [reflexivity|]. rewrite Hc. done.
    - cbn [gsafe]. eexists _, _. split; [done|]. split; [reflexivity|]. rewrite Hc. done. }
  eapply safe_mono; [done| |exact Hmid]. clear Hmid. intros h' q (hs' & s & -> & -> & Hs).
  apply safe_bind, sync_mark; [intros; by apply marked_mono, Ho, Hs|]. intros r l'. destruct r; [|asm; apply HQ].
  apply safe_bind, safe_call. intros hd. split; [done|]. asm.
  destruct hd; [apply HQ|..]; unfold remove_if_singleton; sx; try done; asm; apply HQ.
Qed.
Lemma dispatch_mark k (Q : list label -> bool -> Prop) h p :
  has_constraint p ForwardPending = false ->
  (is_local_node_id host (p_dst p) = false -> fresh k (p_id p)) ->
  (forall r hs, Q (h ++ hs) r) -> safe (I_mark k) Q h (dispatch p).
Proof.
  intros Hp Ho HQ. unfold Pipeline.dispatch. apply safe_bind, safe_call. intros ob. split; [done|].
  destruct ob as [b|]; [|done]. apply safe_bind, safe_call. intros []. split; [exists (p_id p); apply elem_last|].
  assert (Ho' : is_local_node_id host (p_dst p) = false -> marked k ((h ++ [LAct (SGet (p_id p)) (Some b)]) ++ [LAct (Notify (IncomingBundle b)) tt]) (p_id p)).
  { intros Hl. left. split; [by apply Ho|]. exists b, tt. rewrite <- app_assoc. split; apply elem_of_app; right; [left|right; left]. }
  assert (HQ' : forall r hs, Q (((h ++ [LAct (SGet (p_id p)) (Some b)]) ++ [LAct (Notify (IncomingBundle b)) tt]) ++ hs) r) by (intros; asm; apply HQ).
  clear Ho HQ. rename Ho' into Ho, HQ' into HQ. revert Ho HQ. generalize ((h ++ [LAct (SGet (p_id p)) (Some b)]) ++ [LAct (Notify (IncomingBundle b)) tt]).
  clear h. intros h Ho HQ.
  apply safe_bind, safe_call. intros e. split; [done|]. asm. apply safe_bind.
  assert (Hrest : forall r hs, safe (I_mark k) Q (h ++ hs)
     (if (r : bool) then if is_local_node_id host (p_dst p) then Ret true else Spawn p (Ret true) else Ret false)).
  { intros r hs. destruct r; [|apply HQ]. destruct (is_local_node_id _ _); [apply HQ|].
    split; [by apply marked_mono, Ho|]. cbn. asm. apply HQ. }
  destruct e.
  - apply local_mark; [done|intros; by apply marked_mono, Ho|]. intros r hs. asm. apply Hrest.
  - cbn [gsafe]. apply (Hrest true).
Qed.
Lemma scan_mark k (Q : list label -> option (list nat) -> Prop) h p l i rm :
  (forall r hs, Q (h ++ hs) r) -> safe (I_mark k) Q h (scan_blocks p l i rm).
Proof.
  revert h i rm. induction l as [|x l IH]; intros h i rm HQ; cbn [Pipeline.scan_blocks].
  { specialize (HQ (Some rm) []). by rewrite app_nil_r in HQ. }
  destruct (k_type x <? 11); [by apply IH|].
  apply safe_bind.
  assert (Hrest : forall hs, safe (I_mark k) Q (h ++ hs)
    (if kf_delete (k_flags x) then delete_bundle p BLOCK_UNINTELLIGIBLE ;;; Ret None
        else scan_blocks p l (S i) (if kf_remove (k_flags x) then rm ++ [i] else rm))).
  { intros hs. destruct (kf_delete _).
    - apply safe_bind, delete_mark. intros. asm. apply HQ.
    - apply IH. intros. asm. apply HQ. }
  destruct (_ && _).
  - apply report_mark. apply Hrest.
  - cbn [gsafe]. specialize (Hrest []). by rewrite app_nil_r in Hrest.
Qed.
Lemma receive_mark b (Q : list label -> bool -> Prop) :
  (forall r hs, Q hs r) -> safe (I_mark (KReceive b)) Q [] (receive b).
Proof.
  intros HQ. unfold Pipeline.receive. apply safe_bind, safe_call. intros r. split; [done|].
  destruct r as [[]|]; [| |by cbn]. 2: { sx; cbn; try done. }
  apply safe_bind, safe_call. intros []. split; [done|].
  apply safe_bind, safe_call. intros now. split; [done|]. cbv zeta.
  set (p := add_constraint _ _).
  assert (Ho : is_local_node_id host (p_dst p) = false -> fresh (KReceive b) (p_id p)).
  { intros Hl. exists b. done. }
  apply safe_bind, sync_mark; [done|]. intros [] l; [|apply HQ].
  apply safe_bind.
  assert (Hrest : forall hs, safe (I_mark (KReceive b)) Q ([LAct (SAdd b) (Some true); LAct (Count Incoming) tt; LAct Clock now] ++ hs)
    (let* rm := scan_blocks p (b_blocks b) 0 [] in
      match rm with
      | None => Ret true
      | Some rm =>
          match remove_indices (b_blocks b) rm with
          | None => Panic
          | Some l =>
              call (SPush (with_blocks b l)) ?;;
              dispatch p ;;; Ret true
          end
      end)).
  { intros hs. apply safe_bind, scan_mark. intros rm hs'. destruct rm as [rm|]; [|apply HQ].
    destruct (remove_indices _ rm); [|done].
    apply safe_bind, safe_call. intros r. split; [done|].
    destruct r; [|apply HQ]. apply safe_bind. asm. apply dispatch_mark; [done|apply Ho|]. intros. apply HQ. }
  destruct (_ && _).
  - apply report_mark. intros hs. asm. apply Hrest.
  - cbn [gsafe]. apply Hrest.
Qed.
Lemma submit_mark b (Q : list label -> bool -> Prop) :
  (forall r hs, Q hs r) -> safe (I_mark (KSubmit b)) Q [] (submit b).
Proof.
  intros HQ. unfold Pipeline.submit, transmit. apply safe_bind, safe_call. intros r.
  split; [done|]. destruct r; [|apply HQ].
  apply safe_bind, safe_call. intros now. split; [done|]. cbv zeta. set (p := add_constraint _ _).
  assert (Ho : is_local_node_id host (p_dst p) = false -> fresh (KSubmit b) (p_id p)).
  { intros Hl. exists b. done. }
  apply safe_bind, sync_mark; [done|]. intros [] l; [|apply HQ].
  apply safe_bind.
  assert (Hrest : forall hs (ok : bool), safe (I_mark (KSubmit b)) Q ([LAct (SPush b) true; LAct Clock now] ++ hs)
    (if ok then dispatch p else delete_bundle p NO_INFORMATION)).
  { intros hs ok. destruct ok; [apply dispatch_mark|apply delete_mark]; auto. }
  destruct (bool_decide _); [cbn [gsafe]; apply (Hrest [l] true)|].
  apply safe_call. intros ok. split; [done|]. asm. apply Hrest.
Qed.
Lemma forward_mark k (Q : list label -> bool -> Prop) h p :
  marked k h (p_id p) -> (forall r hs, Q (h ++ hs) r) -> safe (I_mark k) Q h (forward p).
Proof.
  intros Ho HQ. unfold Pipeline.forward. rewrite sync_forwarding.
  apply safe_bind, safe_call. intros r. split; [by intros _|]. destruct r; [|apply HQ].
  apply safe_bind, safe_call. intros ans. split; [by apply (marked_mono _ _ _ (p_id p))|]. asm.
  destruct ans as [[nodes del]|]; [|apply HQ]. destruct nodes as [|n nodes].
  { destruct del; [|apply HQ]. intros r. split; [done|]. cbn. asm. apply HQ. }
  apply safe_bind, safe_call. intros ob. split; [done|]. destruct ob as [b|]; [|asm; apply HQ]. asm.
  set (h' := _ ++ _). assert (Hh : exists hs, h' = h ++ hs /\ LAct (SGet (p_id p)) (Some b) ∈ h').
  { eexists. split; [done|]. subst h'. apply elem_of_app. right. do 2 right. left. }
  clearbody h'.
  assert (Hfresh : forall h' rs b (Q : list label -> bool -> Prop), (forall r hs, Q (h' ++ hs) r) -> safe (I_mark k) Q h' (delete_fresh gen_reports b rs)).
  { intros h'' rs b' Q' HQ'. unfold delete_fresh. apply safe_bind, safe_call. intros now. split; [done|].
    apply delete_mark. intros. asm. apply HQ'. }
  destruct Hh as (hs0 & -> & Hget).
  unfold forward_copy, handle_lifetime. apply safe_bind, safe_bind, safe_call. intros over. split; [done|].
  destruct over.
  { apply safe_bind. apply Hfresh. intros. asm. cbn [gsafe]. apply HQ. }
  cbn [gsafe]. asm.
  apply safe_bind.
  assert (Hhop : safe (I_mark k) (fun h' o => exists hs, h' = h ++ hs0 ++ hs /\ forall b', o = Some b' -> same_primary b' b) (h ++ hs0 ++ [LAct (LifetimeOver b) false]) (handle_hop_count gen_reports b)).
  { unfold handle_hop_count. destruct (block_by_type _ _) as [[? ? ? []]|]; sx; try (eexists; split; [done|]; by intros ? [= <-]).
    apply Hfresh. intros. asm. cbn. eexists. split; [done|]. done. }
  eapply safe_mono; [done| |exact Hhop]. clear Hhop. intros h' ob' (hs1 & -> & Hsp). destruct ob' as [b1|]; [|apply HQ].
  specialize (Hsp _ eq_refl).
  apply safe_bind, prev_safe. intros b2 Hb2.
  apply safe_bind.
  assert (Hage : safe (I_mark k) (fun h' o => exists hs, h' = h ++ hs0 ++ hs /\ forall b', o = Some b' -> same_primary b' b2) (h ++ hs0 ++ hs1) (handle_age gen_reports b2)).
  { unfold handle_age. destruct (block_by_type _ _) as [[? ? ? []]|]; sx; cbn [I_mark]; try done; asm;
      try (eexists; split; [done|]; by intros ? [= <-]).
    apply Hfresh. intros. asm. cbn. eexists. split; [done|]. done. }
  eapply safe_mono; [done| |exact Hage]. clear Hage. intros h' ob' (hs2 & -> & Hsp2). destruct ob' as [b3|]; [|apply HQ].
  specialize (Hsp2 _ eq_refl).
  assert (Hb3 : same_primary b3 b).
  { unfold same_primary in *. rewrite Hsp2, <- Hsp. clear -Hb2. unfold prev_stage in Hb2.
    destruct (block_by_type _ b1) as [[? ? ? []]|]; try done; injection Hb2 as <-; done. }
  intros hs cs' Hcs. destruct (csteps_emits _ _ _ _ Hcs (send_all_sub (p_id (forwarding p)) b3 (n :: nodes))) as [H1 _]. split.
  { intros ha l hb ->. apply Forall_app in H1 as [_ H1]. apply Forall_cons in H1 as [Hl _]. destruct l as [[]| |]; try done.
    all: try (match goal with x : notif |- _ => by destruct x end).
    cbn in Hl. destruct Hl as [-> _]. exists (p_id p), b.
    split; [asm; by apply marked_mono|]. split; [|done].
    rewrite app_assoc, <- (app_assoc (h ++ hs0)). apply elem_of_app. by left. }
  intros bs _. split; [done|]. asm. unfold after_transfers. destruct (existsb id bs); [|apply HQ].
  apply safe_bind.
  assert (Hrest : forall hs, safe (I_mark k) Q (h ++ hs)
    (if del then call (SRemove (p_id (forwarding p)))
     else if bf_admin (b_flags b3) then record_valid b3 ;;; contraindicated (forwarding p) else Ret true)).
  { intros hs'. destruct del; [intros r; split; [done|]; cbn; asm; apply HQ|].
    destruct (bf_admin _); [|apply HQ]. apply safe_bind, record_mark. intros. unfold contraindicated.
    apply sync_mark; [intros _; asm; by apply marked_mono|]. intros. asm. apply HQ. }
  destruct (_ && _); [apply report_mark; intros; asm; apply Hrest|]. cbn [gsafe]. apply Hrest.
Qed.
Lemma all_mark k : safe (I_mark k) (fun _ _ => True) [] (task_of k).
Proof.
  destruct k; cbn [Pipeline.task_of].
  - apply safe_bind, receive_mark. done.
  - apply safe_bind, submit_mark. done.
  - apply safe_bind, forward_mark; [|done]. right. right. left. eauto.
  - unfold Pipeline.process_bundles. apply safe_bind, safe_call. intros r. split; [done|].
    apply safe_bind. apply (safe_emits (fun l => match l with LAct DtnClock _ | LAct (SRemove _) _ => True | _ => False end)).
    { generalize (filter (λ p : pack, has_constraint p Deleted = false) r). intros l.
      induction l as [|p l IH]; cbn [remove_expired]; emit; apply IH. }
    { by intros hs [[]| |]. }
    intros hs _ _. sx; try done.
    assert (Hload : forall ids h, (forall x, x ∈ ids -> x ∈ r1) -> LAct SForwarding r1 ∈ h ->
       safe (I_mark KJanitor) (fun h' ps => exists hs, h' = h ++ hs /\ Forall (fun p => marked KJanitor h' (p_id p)) ps) h (load_packs ids)).
    { induction ids as [|id ids IH]; intros h Hx Hin; cbn [load_packs].
      - exists []. by rewrite app_nil_r.
      - apply safe_bind, safe_call. intros om. split; [done|]. apply safe_bind.
        eapply safe_mono; [done| |apply IH]; [|intros; apply Hx; by right|apply elem_of_app; by left].
        intros h' ps (hs' & -> & HF). cbn [gsafe]. rewrite <- app_assoc in *.
        eexists. split; [done|]. destruct om as [q|]; [|done]. destruct (has_constraint q Deleted); [done|].
        constructor; [|done]. right. right. right. exists r1, id, q. split; [apply elem_of_app; by left|].
        split; [apply Hx; left|]. split; [|done]. apply elem_of_app. right. by left. }
    eapply safe_mono; [done| |apply Hload; [done|apply elem_of_app; right; left]]. intros h' ps (hs' & -> & HF).
    match goal with |- gsafe _ _ _ ?h0 _ => assert (HF' : Forall (fun p => marked KJanitor h0 (p_id p)) (merge_sort by_time ps)) by (by rewrite merge_sort_Permutation); revert HF'; generalize h0 end.
    generalize (merge_sort by_time ps). clear.
    induction l as [|q l IH]; intros h0 HF; cbn [forward_all]; [done|].
    apply Forall_cons in HF as [Hq HF]. destruct parallel.
    + split; [done|]. apply IH. eapply Forall_impl; [done|]. intros. by apply marked_mono.
    + apply safe_bind, forward_mark; [done|]. intros _ hs1. apply IH. eapply Forall_impl; [done|]. intros. by apply marked_mono.
  - unfold app_pop, remove_if_singleton. sx; done.
  - unfold user_delete. sx; done.
Qed.

(** ** Bundles that are only for this node *)
Definition local_only (tr : list event) (X : string) : Prop :=
  (forall b, EStart (KReceive b) ∈ tr \/ EStart (KSubmit b) ∈ tr -> bid b = X -> is_local_node_id host (b_dst b) = true) /\
  (forall i b0 st rs out, EStep i (LAct (NewReport b0 st rs) (Some out)) ∈ tr -> bid out <> X).
(** no task has a ground *)
Definition unmarkable (tr : list event) (X : string) : Prop :=
  (forall i k, tasks tr !! i = Some k -> fresh k X -> shown (did i tr) X -> False) /\
  (forall i b0 st rs out, EStep i (LAct (NewReport b0 st rs) (Some out)) ∈ tr -> bid out <> X).
Lemma unmarkable_app t1 t2 X : unmarkable (t1 ++ t2) X -> unmarkable t1 X.
Proof.
  intros [H1 H2]. split.
  - intros i k Hk Hf (x & r & Ha & Hb). apply (H1 i k); [rewrite tasks_app; by apply lookup_app_l_Some|done|].
    exists x, r. rewrite did_app, !elem_of_app. auto.
  - intros i b0 st rs out H. apply (H2 i b0 st rs). apply elem_of_app. by left.
Qed.
Lemma local_only_app t1 t2 X : local_only (t1 ++ t2) X -> local_only t1 X.
Proof.
  intros [H1 H2]. split.
  - intros b H. apply H1. rewrite !elem_of_app. tauto.
  - intros i b0 st rs out H. apply (H2 i b0 st rs). apply elem_of_app. by left.
Qed.
Record mark_inv (tr : list event) (m : machine) (X : string) : Prop := {
  mi_meta : forall p, m_meta (n_store (m_node m)) !! X = Some p -> has_constraint p ForwardPending = false;
  mi_task : forall q, KForward q ∈ tasks tr -> p_id q <> X;
  mi_read : forall i ids, EStep i (LAct SForwarding ids) ∈ tr -> X ∉ ids
}.
Lemma run_meta_id tr m i id q : run tr m -> EStep i (LAct (SMeta id) (Some q)) ∈ tr -> p_id q = id.
Proof.
  intros Hr Hi. apply elem_of_list_split in Hi as (t1 & t2 & ->).
  destruct (run_access _ _ _ _ _ _ _ _ _ _ _ Hr) as (m1 & m2 & H1 & Ha & _). destruct Ha as [Ha _].
  symmetry in Ha. by destruct (iv_meta _ _ (run_inv _ _ _ _ _ _ _ H1) _ _ Ha).
Qed.
Lemma tasks_start tr k : k ∈ tasks tr -> EStart k ∈ tr \/ exists q, k = KForward q.
Proof.
  unfold tasks. rewrite elem_of_list_In, in_flat_map. intros (e & He & Hk). apply elem_of_list_In in He.
  destruct e as [k'| | | | | |j l]; try done.
  - destruct Hk as [->|[]]. by left.
  - destruct l; try done. destruct Hk as [<-|[]]. eauto.
Qed.
Lemma local_unmarkable tr X : local_only tr X -> unmarkable tr X.
Proof.
  intros [HL HR]. split; [|done]. intros i k Hk (b & Hb & Hid & Hl) _. assert (Hin := elem_of_list_lookup_2 _ _ _ Hk).
  rewrite (HL b) in Hl; [done| |done]. apply tasks_start in Hin as [Hin|(q & ->)]; [|done].
  destruct k; try done; injection Hb as ->; auto.
Qed.
Lemma mark_not tr m X i k : run tr m -> unmarkable tr X -> mark_inv tr m X -> tasks tr !! i = Some k -> marked k (did i tr) X -> False.
Proof.
  intros Hr [HL HR] [_ Ht Hrd] Hk. assert (Hin := elem_of_list_lookup_2 _ _ _ Hk).
  intros [[Hf Hsh]|[(b0 & st & rs & out & H & E)|[(q & -> & E)|(ids & id0 & q & H1 & H2 & H3 & E)]]].
  - by eapply HL.
  - apply did_elem in H. by destruct (HR _ _ _ _ _ H).
  - by destruct (Ht q).
  - apply did_elem in H1, H3. rewrite (run_meta_id _ _ _ _ _ Hr H3) in E. subst. by destruct (Hrd _ _ H1).
Qed.
Lemma run_mark tr m X : run tr m -> unmarkable tr X -> mark_inv tr m X.
Proof.
  induction 1 as [m (Hs & Ht & _)|tr m e m' Hr IH Hs]; intros HL.
  { split; [rewrite Hs; done|intros ? H; by apply elem_of_nil in H|intros ? ? H; by apply elem_of_nil in H]. }
  specialize (IH (unmarkable_app _ _ _ HL)). assert (HL' := unmarkable_app _ _ _ HL).
  assert (Hr' : run (tr ++ [e]) m') by (by eapply run_step).
  destruct IH as [IHm IHt IHr]. assert (IH : mark_inv tr m X) by done.
  assert (Hno : forall i l, e = EStep i l -> exists k, tasks tr !! i = Some k /\ I_mark k (did i tr) l).
  { intros i l ->. eapply run_safe; [|exact Hr']. intros k. apply all_mark. }
  split.
  - intros p. destruct (has_constraint p ForwardPending) eqn:Ep; [|done]. intros Hp. exfalso.
    destruct e as [| | | | | |i [o r|q|]].
    1-6, 8-9: inversion Hs; subst; try destruct (has_endpoint _ _); cbn in Hp; apply IHm in Hp; congruence.
    assert (Ha : access (m_node m) o r (m_node m')).
    { inversion Hs; subst.
      repeat match goal with H : existT _ _ = existT _ _ |- _ => apply (Eqdep_dec.inj_pair2_eq_dec _ (fun x y => decide (x = y))) in H end.
      by subst. }
    destruct (access_store _ _ _ _ _ _ Ha) as [E|(id' & -> & E)]; rewrite E in Hp; [|apply IHm in Hp; congruence].
    destruct o; cbn [store_after] in Hp; try (apply IHm in Hp; congruence).
    + destruct r; [|apply IHm in Hp; congruence]. unfold mem_push in Hp. cbn in Hp.
      destruct (m_bundles _ !! bid b); [apply IHm in Hp; congruence|].
      destruct (decide (bid b = X)) as [<-|Hne]; [rewrite lookup_insert in Hp; injection Hp as <-; done|].
      rewrite lookup_insert_ne in Hp by done. apply IHm in Hp. congruence.
    + destruct r as [[]|]; try (apply IHm in Hp; congruence). unfold mem_push in Hp. cbn in Hp.
      destruct (m_bundles _ !! bid b); [apply IHm in Hp; congruence|].
      destruct (decide (bid b = X)) as [<-|Hne]; [rewrite lookup_insert in Hp; injection Hp as <-; done|].
      rewrite lookup_insert_ne in Hp by done. apply IHm in Hp. congruence.
    + unfold mem_remove, mem_update in Hp. destruct (m_meta _ !! id) as [q|] eqn:Eq; [|apply IHm in Hp; congruence].
      rewrite tombstone_id, (proj1 (iv_meta _ _ (run_inv _ _ _ _ _ _ _ Hr) _ _ Eq)), Eq in Hp. cbn in Hp.
      assert (Hp' : <[id:=tombstone q]> (m_meta (n_store (m_node m))) !! X = Some p) by (by destruct (m_bundles _ !! id)).
      destruct (decide (id = X)) as [->|Hne].
      * rewrite lookup_insert in Hp'. injection Hp' as <-. by rewrite tombstone_has in Ep.
      * rewrite lookup_insert_ne in Hp' by done. apply IHm in Hp'. congruence.
    + destruct r; [|apply IHm in Hp; congruence]. unfold mem_update in Hp. destruct (m_meta _ !! p_id p0) eqn:Eq; [|apply IHm in Hp; congruence].
      cbn in Hp. destruct (decide (p_id p0 = X)) as [<-|Hne].
      * rewrite lookup_insert in Hp. injection Hp as <-. destruct (Hno _ _ eq_refl) as (k & Hk & Hi).
        cbn [I_mark] in Hi. eapply mark_not; [exact Hr|exact HL'|exact IH|exact Hk|by apply Hi].
      * rewrite lookup_insert_ne in Hp by done. apply IHm in Hp. congruence.
  - intros q Hq. rewrite tasks_app in Hq. apply elem_of_app in Hq as [Hq|Hq]; [by apply IHt|].
    destruct e as [k| | | | | |i [| |]]; cbn in Hq; try (by apply elem_of_nil in Hq); apply elem_of_list_singleton in Hq.
    + subst k. inversion Hs; subst. done.
    + injection Hq as ->. destruct (Hno _ _ eq_refl) as (k & Hk & Hi). cbn [I_mark] in Hi. intros E. rewrite E in Hi.
      eapply mark_not; [exact Hr|exact HL'|exact IH|exact Hk|exact Hi].
  - intros i ids Hin. apply elem_snoc in Hin as [Hin|<-]; [by eapply IHr|].
    assert (Hr2 : run (tr ++ EStep i (LAct SForwarding ids) :: []) m') by done.
    assert (Ha : access (m_node m) SForwarding ids (m_node m')).
    { inversion Hs; subst.
      repeat match goal with H : existT _ _ = existT _ _ |- _ => apply (Eqdep_dec.inj_pair2_eq_dec _ (fun x y => decide (x = y))) in H end.
      by subst. }
    destruct Ha as [-> _]. unfold mem_forwarding, mem_filter. intros HX.
    apply elem_of_list_fmap in HX as (p & -> & Hp). apply elem_of_list_filter in Hp as [Hf Hp].
    unfold mem_packs in Hp. apply elem_of_list_fmap in Hp as ([id q] & -> & Hq). apply elem_of_map_to_list in Hq.
    cbn in *. rewrite (proj1 (iv_meta _ _ (run_inv _ _ _ _ _ _ _ Hr) _ _ Hq)) in *.
    rewrite (IHm q Hq) in Hf. done.
Qed.
Lemma local_never_sent t1 i s b r t2 m : run (t1 ++ EStep i (LAct (Transfer s b) r) :: t2) m -> local_only t1 (bid b) -> False.
Proof.
  intros H HL%local_unmarkable. destruct (run_split _ _ _ _ _ _ _ _ _ H) as (m1 & m2 & H1 & _ & _).
  assert (Hi := run_mark _ _ _ H1 HL).
  eapply run_safe in H; [|intros k; apply all_mark]. destruct H as (k & Hk & id & stored & Hm & Hg & Hsp).
  apply did_elem in Hg. destruct (iv_get _ _ (run_inv _ _ _ _ _ _ _ H1) _ _ _ Hg) as [E _].
  rewrite (same_primary_bid _ _ Hsp), E in *.
  eapply mark_not; [exact H1|exact HL|exact Hi|exact Hk|exact Hm].
Qed.
End mark.
