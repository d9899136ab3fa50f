(** Where the bundles and bundle packs in the store come from: an invariant of
    all runs. *)
From stdpp Require Import prelude strings pretty gmap sorting.
From Coq Require Import NArith Lia.
From Verif Require Import Core StoreMem Peers Routing Pipeline PipelineBase PipelineProofs.
Open Scope N_scope.

(** the bundles that came into being at this node: received, submitted, or
    generated as a status report *)
Definition born (tr : list event) : list bundle :=
  flat_map (fun e => match e with
                     | EStart (KReceive b) | EStart (KSubmit b) => [b]
                     | EStep _ (LAct (NewReport _ _ _) (Some out)) => [out]
                     | _ => []
                     end) tr.
Lemma born_app t1 t2 : born (t1 ++ t2) = born t1 ++ born t2.
Proof. apply flat_map_app. Qed.
(** the same primary block *)
Definition same_primary (b b' : bundle) : Prop := with_blocks b [] = with_blocks b' [].
Lemma same_primary_bid b b' : same_primary b b' -> bid b = bid b'.
Proof. unfold same_primary. intros [= H1 H2 H3 H4 H5 H6 H7 H8 H9]. unfold bid. by rewrite H1, H3, H5, H6, H8. Qed.
Lemma same_primary_refl b : same_primary b b.
Proof. done. Qed.
Lemma same_primary_with b l : same_primary (with_blocks b l) b.
Proof. done. Qed.
Lemma bid_with b l : bid (with_blocks b l) = bid b.
Proof. done. Qed.
(** the pack describes the bundle *)
Definition describes (p : pack) (b : bundle) : Prop :=
  p_src p = b_src b /\ p_dst p = b_dst b /\ p_time p = b_time b /\ p_life p = b_life b /\
  p_id p = bid b /\ p_admin p = bf_admin (b_flags b).
Lemma describes_pack_of now b : describes (pack_of now b) b.
Proof. done. Qed.
Lemma describes_cons p s b : describes (with_cons p s) b <-> describes p b.
Proof. done. Qed.
Definition bare (p : pack) : pack := with_cons p no_constraints.

Definition kbundle (k : kind) : option bundle :=
  match k with KReceive b | KSubmit b => Some b | _ => None end.
Definition local_born (k : kind) (h : list label) (b : bundle) : Prop :=
  kbundle k = Some b \/ exists b0 st rs, LAct (NewReport b0 st rs) (Some b) ∈ h.
Definition origin (k : kind) (h : list label) (p : pack) : Prop :=
  (exists b, LAct Clock (p_recv p) ∈ h /\ describes p b /\ local_born k h b) \/
  (exists q, bare p = bare q /\ (k = KForward q \/ exists id, LAct (SMeta id) (Some q) ∈ h)).
Definition I_prov (k : kind) (h : list label) (l : label) : Prop :=
  match l with
  | LAct (SUpdate p) _ | LAct (Route p) _ | LSpawn p => origin k h p
  | LAct (SPush b) _ => exists b0, same_primary b b0 /\ local_born k h b0
  | LAct (SAdd b) _ => k = KReceive b
  | _ => True
  end.
Lemma local_born_mono k h hs b : local_born k h b -> local_born k (h ++ hs) b.
Proof. intros [?|(?&?&?&?)]; [by left|]. right. do 3 eexists. apply elem_of_app. by left. Qed.
Lemma origin_mono k h hs p : origin k h p -> origin k (h ++ hs) p.
Proof.
  intros [(b & H1 & H2 & H3)|(q & H1 & [H2|(id & H2)])].
  - left. exists b. split; [apply elem_of_app; by left|]. split; [done|by apply local_born_mono].
  - right. eauto.
  - right. exists q. split; [done|]. right. exists id. apply elem_of_app. by left.
Qed.
Lemma origin_cons k h p s : origin k h p -> origin k h (with_cons p s).
Proof. intros [(b & H1 & H2 & H3)|(q & H1 & H2)]; [left; eauto|right; eauto]. Qed.
Lemma elem_last {A} (l : list A) x : x ∈ l ++ [x].
Proof. apply elem_of_app. right. by apply elem_of_list_singleton. Qed.

Ltac inh := rewrite ?elem_of_app, ?elem_of_cons, ?elem_of_list_singleton; eauto 12.
Section inv.
Context (host : eid) (gen_reports parallel : bool) (parse_record : list N -> option arecord)
        (lifetime_exceeded : N -> bundle -> bool).
Notation delete_bundle := (delete_bundle gen_reports).
Notation record_valid := (record_valid parse_record).
Notation local_delivery := (local_delivery host gen_reports parse_record).
Notation forward := (forward host gen_reports parse_record).
Notation dispatch := (dispatch host gen_reports parse_record).
Notation submit := (submit host gen_reports parse_record).
Notation receive := (receive host gen_reports parse_record).
Notation scan_blocks := (scan_blocks gen_reports).
Notation process_bundles := (process_bundles host gen_reports parallel parse_record).
Notation task_of := (task_of host gen_reports parallel parse_record).
Notation mstep := (mstep host gen_reports parallel parse_record lifetime_exceeded).
Notation run := (run host gen_reports parallel parse_record lifetime_exceeded).
Notation access := (access host lifetime_exceeded).

(** the history only grows *)
Definition grows {A} (P : list label -> Prop) : list label -> A -> Prop := fun h _ => P h.

Lemma sync_prov k (Q : list label -> bool -> Prop) h p :
  origin k h p -> (forall r l, Q (h ++ [l]) r) -> safe (I_prov k) Q h (sync p).
Proof. intros Ho HQ. unfold sync. sx; cbn; auto. Qed.
Lemma report_prov k (Q : list label -> unit -> Prop) h p st rs :
  (forall hs, Q (h ++ hs) tt) -> safe (I_prov k) Q h (send_status_report p st rs).
Proof.
  intros HQ. assert (HQ0 : Q h tt) by (specialize (HQ []); by rewrite app_nil_r in HQ).
  unfold send_status_report. sx; cbn [I_prov]; try done; rewrite <- ?app_assoc; try apply HQ.
  - subst. exists b0. split; [done|]. right. exists b, st, rs. inh.
  - subst. apply sync_prov.
    + apply origin_cons. left. exists b0. split.
      * cbn. inh.
      * split; [apply describes_pack_of|]. right. exists b, st, rs. inh.
    + intros r1 l. cbn [gsafe]. rewrite <- !app_assoc. apply HQ.
Qed.
Lemma delete_prov k (Q : list label -> bool -> Prop) h p rs :
  origin k h p \/ has_constraint p LocalEndpoint = false -> (forall r hs, Q (h ++ hs) r) -> safe (I_prov k) Q h (delete_bundle p rs).
Proof.
  intros Ho HQ. unfold Pipeline.delete_bundle.
  assert (Hsync : forall hs, safe (I_prov k) Q (h ++ hs) (sync (with_cons p (clear_c (p_cons p))))).
  { intros hs. destruct Ho as [Ho|Ho].
    - apply sync_prov; [by apply origin_cons, origin_mono|]. intros. rewrite <- app_assoc. apply HQ.
    - unfold sync. cbn [p_cons with_cons]. unfold clear_c. unfold has_constraint in Ho. rewrite Ho. cbn.
      intros r. split; [done|]. rewrite <- app_assoc. apply HQ. }
  sx; cbn [I_prov]; try done; rewrite <- ?app_assoc; try apply HQ.
  apply report_prov. intros hs. rewrite <- app_assoc. apply Hsync.
Qed.
Lemma lookups_prov k h l : lookups l -> (match l with LAct (SUpdate _) _ | LAct (SPush _) _ => False | _ => True end) -> I_prov k h l.
Proof. by destruct l as [[]| |]. Qed.
Lemma record_prov k (Q : list label -> bool -> Prop) h b :
  (forall r hs, Q (h ++ hs) r) -> safe (I_prov k) Q h (record_valid b).
Proof.
  intros HQ. apply (safe_emits (fun l => match l with LAct (SHas _) _ | LAct (SRemove _) _ => True | _ => False end)).
  - assert (forall l i ref, emits (fun l => match l with LAct (SHas _) _ | LAct (SRemove _) _ => True | _ => False end) (inspect_items l i ref)).
    { induction l as [|x l IH]; intros i ref; cbn [inspect_items]; emit; apply IH. }
    unfold Pipeline.record_valid, inspect_status_report. emit; auto.
  - by intros hs [[]| |].
  - intros hs r _. apply HQ.
Qed.
Ltac asm := rewrite <- ?app_assoc.
Lemma local_prov k (Q : list label -> bool -> Prop) h p :
  origin k h p -> (forall r hs, Q (h ++ hs) r) -> safe (I_prov k) Q h (local_delivery p).
Proof.
  intros Ho HQ. unfold Pipeline.local_delivery. apply safe_bind, safe_call. intros ob. split; [done|].
  destruct ob as [b|]; [|apply HQ].
  apply safe_bind.
  assert (Hrec : safe (I_prov k) (fun h' valid => exists hs, h' = h ++ hs) (h ++ [LAct (SGet (p_id p)) (Some b)])
                   (if p_admin p then record_valid b else Ret true)).
  { destruct (p_admin p); [apply record_prov; intros; asm; eauto|]. cbn. eauto. }
  eapply safe_mono; [done| |exact Hrec]. clear Hrec. intros h' valid [hs ->]. cbv zeta.
  destruct (negb valid).
  { apply safe_bind, delete_prov; [left; by apply origin_mono|]. intros. asm. apply HQ. }
  apply safe_bind, sync_prov; [by apply origin_cons, origin_mono|]. intros r l. destruct r; [|asm; apply HQ].
  apply safe_bind.
  assert (Hmid : safe (I_prov k) (fun h' q => exists hs s, h' = h ++ hs /\ q = with_cons p s) ((h ++ hs) ++ [l])
     (if is_local_node_id host (p_dst (add_constraint p LocalEndpoint))
      then (if bf_rep_deliv (b_flags b) && negb (bf_admin (b_flags b)) && gen_reports
            then send_status_report (add_constraint p LocalEndpoint) DELIVERED_BUNDLE NO_INFORMATION else Ret tt) ;;;
           Ret (with_cons (add_constraint p LocalEndpoint) (clear_c (p_cons (add_constraint p LocalEndpoint))))
      else Ret (add_constraint (add_constraint p LocalEndpoint) ForwardPending))%prog).
  { asm. destruct (is_local_node_id _ _); [|cbn; eexists _, _; split; [done|reflexivity]].
    apply safe_bind. destruct (_ && _).
    - apply report_prov. intros hs'. asm. cbn [gsafe]. eexists _, _. split; [done|reflexivity].
    - cbn [gsafe]. eexists _, _. split; [done|reflexivity]. }
  eapply safe_mono; [done| |exact Hmid]. clear Hmid. intros h' q (hs' & s & -> & ->).
  apply safe_bind, sync_prov; [by apply origin_cons, origin_mono|]. intros r l'. destruct r; [|asm; apply HQ].
  apply safe_bind, safe_call. intros hd. split; [done|]. asm.
  destruct hd; [apply HQ|..]; unfold remove_if_singleton; sx; try done; asm; apply HQ.
Qed.
Lemma dispatch_prov k (Q : list label -> bool -> Prop) h p :
  origin k h p -> (forall r hs, Q (h ++ hs) r) -> safe (I_prov k) Q h (dispatch p).
Proof.
  intros Ho HQ. unfold Pipeline.dispatch. apply safe_bind, safe_call. intros ob. split; [done|].
  destruct ob as [b|]; [|done]. apply safe_bind, safe_call. intros []. split; [done|].
  apply safe_bind, safe_call. intros e. split; [done|]. asm. apply safe_bind.
  assert (Hrest : forall r hs, safe (I_prov k) Q (h ++ hs)
     (if (r : bool) then if is_local_node_id host (p_dst p) then Ret true else Spawn p (Ret true) else Ret false)).
  { intros r hs. destruct r; [|apply HQ]. destruct (is_local_node_id _ _); [apply HQ|].
    split; [by apply origin_mono|]. cbn. asm. apply HQ. }
  destruct e.
  - apply local_prov; [by apply origin_mono|]. intros r hs. asm. apply Hrest.
  - cbn [gsafe]. apply (Hrest true).
Qed.
Lemma scan_prov k (Q : list label -> option (list nat) -> Prop) h p l i rm :
  has_constraint p LocalEndpoint = false ->
  (forall r hs, Q (h ++ hs) r) -> safe (I_prov k) Q h (scan_blocks p l i rm).
Proof.
  intros Hp. revert h i rm. induction l as [|x l IH]; intros h i rm HQ; cbn [Pipeline.scan_blocks].
  { specialize (HQ (Some rm) []). by rewrite app_nil_r in HQ. }
  destruct (k_type x <? 11); [by apply IH|].
  apply safe_bind.
  assert (Hrest : forall hs, safe (I_prov k) Q (h ++ hs)
    (if kf_delete (k_flags x) then delete_bundle p BLOCK_UNINTELLIGIBLE ;;; Ret None
        else scan_blocks p l (S i) (if kf_remove (k_flags x) then rm ++ [i] else rm))).
  { intros hs. destruct (kf_delete _).
    - apply safe_bind, delete_prov; [by right|]. intros. asm. apply HQ.
    - apply IH. intros. asm. apply HQ. }
  destruct (_ && _).
  - apply report_prov. apply Hrest.
  - cbn [gsafe]. specialize (Hrest []). by rewrite app_nil_r in Hrest.
Qed.
Lemma receive_prov b (Q : list label -> bool -> Prop) :
  (forall r hs, Q hs r) -> safe (I_prov (KReceive b)) Q [] (receive b).
Proof.
  intros HQ. unfold Pipeline.receive. apply safe_bind, safe_call. intros r. split; [done|].
  destruct r as [[]|]; [| |by cbn]. 2: { sx; cbn; try done. }
  apply safe_bind, safe_call. intros []. split; [done|].
  apply safe_bind, safe_call. intros now. split; [done|]. cbv zeta.
  set (p := add_constraint _ _).
  assert (Ho : origin (KReceive b) [LAct (SAdd b) (Some true); LAct (Count Incoming) tt; LAct Clock now] p).
  { apply origin_cons. left. exists b. split; [|split; [done|by left]]. cbn. do 2 right. left. }
  apply safe_bind, sync_prov; [done|]. intros [] l; [|apply HQ].
  apply safe_bind.
  assert (Hrest : forall hs, safe (I_prov (KReceive b)) Q ([LAct (SAdd b) (Some true); LAct (Count Incoming) tt; LAct Clock now] ++ hs)
    (let* rm := scan_blocks p (b_blocks b) 0 [] in
      match rm with
      | None => Ret true
      | Some rm =>
          match remove_indices (b_blocks b) rm with
          | None => Panic
          | Some l =>
              call (SPush (with_blocks b l)) ?;;
              dispatch p ;;; Ret true
          end
      end)).
  { intros hs. apply safe_bind, scan_prov; [done|]. intros rm hs'. destruct rm as [rm|]; [|apply HQ].
    destruct (remove_indices _ rm); [|done].
    apply safe_bind, safe_call. intros r. split; [exists b; split; [done|by left]|].
    destruct r; [|apply HQ]. apply safe_bind. asm. apply dispatch_prov; [by apply origin_mono|]. intros. apply HQ. }
  destruct (_ && _).
  - apply report_prov. intros hs. asm. apply Hrest.
  - cbn [gsafe]. apply Hrest.
Qed.
Lemma submit_prov b (Q : list label -> bool -> Prop) :
  (forall r hs, Q hs r) -> safe (I_prov (KSubmit b)) Q [] (submit b).
Proof.
  intros HQ. unfold Pipeline.submit, transmit. apply safe_bind, safe_call. intros r.
  split; [exists b; split; [done|by left]|]. destruct r; [|apply HQ].
  apply safe_bind, safe_call. intros now. split; [done|]. cbv zeta. set (p := add_constraint _ _).
  assert (Ho : origin (KSubmit b) [LAct (SPush b) true; LAct Clock now] p).
  { apply origin_cons. left. exists b. split; [|split; [done|by left]]. cbn. right. left. }
  apply safe_bind, sync_prov; [done|]. intros [] l; [|apply HQ].
  apply safe_bind.
  assert (Hrest : forall hs (ok : bool), safe (I_prov (KSubmit b)) Q ([LAct (SPush b) true; LAct Clock now] ++ hs)
    (if ok then dispatch p else delete_bundle p NO_INFORMATION)).
  { intros hs ok. destruct ok; [apply dispatch_prov|apply delete_prov]; auto using origin_mono. }
  destruct (bool_decide _); [cbn [gsafe]; apply (Hrest [l] true)|].
  apply safe_call. intros ok. split; [done|]. asm. apply Hrest.
Qed.
Lemma forward_prov k (Q : list label -> bool -> Prop) h p :
  origin k h p -> (forall r hs, Q (h ++ hs) r) -> safe (I_prov k) Q h (forward p).
Proof.
  intros Ho HQ. unfold Pipeline.forward. rewrite sync_forwarding.
  apply safe_bind, safe_call. intros r. split; [by apply origin_cons, origin_cons|]. destruct r; [|apply HQ].
  apply safe_bind, safe_call. intros ans. split; [by apply origin_mono, origin_cons, origin_cons|]. asm.
  destruct ans as [[nodes del]|]; [|apply HQ]. destruct nodes as [|n nodes].
  { destruct del; [|apply HQ]. intros r. split; [done|]. cbn. asm. apply HQ. }
  apply safe_bind, safe_call. intros ob. split; [done|]. destruct ob as [b|]; [|asm; apply HQ]. asm.
  set (h' := _ ++ _). assert (Hh : exists hs, h' = h ++ hs) by (by eexists). clearbody h'.
  assert (Hfresh : forall h' rs b (Q : list label -> bool -> Prop), (forall r hs, Q (h' ++ hs) r) -> safe (I_prov k) Q h' (delete_fresh gen_reports b rs)).
  { intros h'' rs b' Q' HQ'. unfold delete_fresh. apply safe_bind, safe_call. intros now. split; [done|].
    apply delete_prov; [by right|]. intros. asm. apply HQ'. }
  destruct Hh as [hs0 ->].
  unfold forward_copy, handle_lifetime. apply safe_bind, safe_bind, safe_call. intros over. split; [done|].
  destruct over.
  { apply safe_bind. apply Hfresh. intros. asm. cbn [gsafe]. apply HQ. }
  cbn [gsafe]. asm.
  apply safe_bind. unfold handle_hop_count. set (hs1 := hs0 ++ _). clearbody hs1.
  assert (Hhop : safe (I_prov k) (fun h' _ => exists hs, h' = h ++ hs) (h ++ hs1) (handle_hop_count gen_reports b)).
  { unfold handle_hop_count. destruct (block_by_type _ _) as [[? ? ? []]|]; sx; eauto.
    apply Hfresh. intros. asm. cbn. eauto. }
  eapply safe_mono; [done| |exact Hhop]. clear Hhop hs1. intros h' ob' [hs1 ->]. destruct ob' as [b1|]; [|apply HQ].
  apply safe_bind, prev_safe. intros b2 _.
  apply safe_bind.
  assert (Hage : safe (I_prov k) (fun h' _ => exists hs, h' = h ++ hs) (h ++ hs1) (handle_age gen_reports b2)).
  { unfold handle_age. destruct (block_by_type _ _) as [[? ? ? []]|]; sx; cbn; try done; asm; eauto.
    apply Hfresh. intros. asm. cbn. eauto. }
  eapply safe_mono; [done| |exact Hage]. clear Hage. intros h' ob' [hs2 ->]. destruct ob' as [b3|]; [|apply HQ].
  intros hs cs' Hcs. destruct (csteps_emits _ _ _ _ Hcs (send_all_sub (p_id (forwarding p)) b3 (n :: nodes))) as [H1 _]. split.
  { intros ha l hb ->. apply Forall_app in H1 as [_ H1]. apply Forall_cons in H1 as [Hl _]. by destruct l as [[]| |]. }
  intros bs _. split; [done|]. asm. unfold after_transfers. destruct (existsb id bs); [|apply HQ].
  apply safe_bind.
  assert (Hrest : forall hs, safe (I_prov k) Q (h ++ hs)
    (if del then call (SRemove (p_id (forwarding p)))
     else if bf_admin (b_flags b3) then record_valid b3 ;;; contraindicated (forwarding p) else Ret true)).
  { intros hs'. destruct del; [intros r; split; [done|]; cbn; asm; apply HQ|].
    destruct (bf_admin _); [|apply HQ]. apply safe_bind, record_prov. intros. unfold contraindicated.
    apply sync_prov; [asm; by apply origin_mono, origin_cons, origin_cons, origin_cons|]. intros. asm. apply HQ. }
  destruct (_ && _); [apply report_prov; intros; asm; apply Hrest|]. cbn [gsafe]. apply Hrest.
Qed.
Lemma prov k : safe (I_prov k) (fun _ _ => True) [] (task_of k).
Proof.
  destruct k; cbn [Pipeline.task_of].
  - apply safe_bind, receive_prov. done.
  - apply safe_bind, submit_prov. done.
  - apply safe_bind, forward_prov; [|done]. right. eauto.
  - unfold Pipeline.process_bundles. apply safe_bind, safe_call. intros r. split; [done|].
    apply safe_bind. apply (safe_emits (fun l => match l with LAct DtnClock _ | LAct (SRemove _) _ => True | _ => False end)).
    { generalize (filter (λ p : pack, has_constraint p Deleted = false) r). intros l.
      induction l as [|p l IH]; cbn [remove_expired]; emit; apply IH. }
    { by intros hs [[]| |]. }
    intros hs _ _. sx; try done.
    assert (Hload : forall ids h, safe (I_prov KJanitor) (fun h' ps => exists hs, h' = h ++ hs /\ Forall (origin KJanitor h') ps) h (load_packs ids)).
    { induction ids as [|id ids IH]; intros h; cbn [load_packs].
      - exists []. by rewrite app_nil_r.
      - apply safe_bind, safe_call. intros om. split; [done|]. apply safe_bind.
        eapply safe_mono; [done| |apply IH]. intros h' ps (hs' & -> & HF). cbn [gsafe]. rewrite <- app_assoc in *.
        eexists. split; [done|]. destruct om as [q|]; [|done]. destruct (has_constraint q Deleted); [done|].
        constructor; [|done]. right. exists q. split; [done|]. right. exists id.
        apply elem_of_app. right. by left. }
    eapply safe_mono; [done| |apply Hload]. intros h' ps (hs' & -> & HF).
    assert (HF' : Forall (origin KJanitor ((([] ++ [LAct SPacks r]) ++ hs) ++ [LAct Accepting true] ++ [LAct SForwarding r1] ++ hs')) (merge_sort by_time ps)).
    { rewrite <- !app_assoc in *. rewrite merge_sort_Permutation. done. }
    rewrite <- !app_assoc in *. revert HF'. generalize (merge_sort by_time ps). clear HF.
    match goal with |- forall l, Forall (origin _ ?h) l -> gsafe _ _ _ ?h' _ => change h' with h; generalize h end.
    intros h0 l. revert h0. induction l as [|q l IH]; intros h0 HF; cbn [forward_all]; [done|].
    apply Forall_cons in HF as [Hq HF]. destruct parallel.
    + split; [done|]. apply IH. eapply Forall_impl; [done|]. intros. by apply origin_mono.
    + apply safe_bind, forward_prov; [done|]. intros _ hs1. apply IH. eapply Forall_impl; [done|]. intros. by apply origin_mono.
  - unfold app_pop, remove_if_singleton. sx; done.
  - unfold user_delete. sx; done.
Qed.

(** ** The invariant *)
Definition pack_ok (tr : list event) (now : N) (p : pack) : Prop :=
  p_recv p <= now /\ exists b, b ∈ born tr /\ describes p b.
Definition bundle_ok (tr : list event) (b : bundle) : Prop := exists b0, b0 ∈ born tr /\ same_primary b b0.
Record inv (tr : list event) (m : machine) : Prop := {
  iv_bundle : forall id b, m_bundles (n_store (m_node m)) !! id = Some b -> bid b = id /\ bundle_ok tr b;
  iv_meta : forall id p, m_meta (n_store (m_node m)) !! id = Some p -> p_id p = id /\ pack_ok tr (n_time (m_node m)) p;
  iv_both : forall id, is_Some (m_bundles (n_store (m_node m)) !! id) -> is_Some (m_meta (n_store (m_node m)) !! id);
  iv_clock : forall i t, EStep i (LAct Clock t) ∈ tr -> t <= n_time (m_node m);
  iv_read : forall i id p, EStep i (LAct (SMeta id) (Some p)) ∈ tr -> pack_ok tr (n_time (m_node m)) p;
  iv_get : forall i id b, EStep i (LAct (SGet id) (Some b)) ∈ tr -> bid b = id /\ bundle_ok tr b;
  iv_fwd : forall q, KForward q ∈ tasks tr -> pack_ok tr (n_time (m_node m)) q
}.
Lemma pack_ok_mono tr tr' now now' p : now <= now' -> pack_ok tr now p -> pack_ok (tr ++ tr') now' p.
Proof.
  intros Hn (H1 & b & Hb & Hd). split; [lia|]. exists b. split; [|done]. rewrite born_app. apply elem_of_app. by left.
Qed.
Lemma bundle_ok_mono tr tr' b : bundle_ok tr b -> bundle_ok (tr ++ tr') b.
Proof. intros (b0 & Hb & Hs). exists b0. split; [|done]. rewrite born_app. apply elem_of_app. by left. Qed.
Lemma bare_ok tr now p q : bare p = bare q -> pack_ok tr now q -> pack_ok tr now p.
Proof.
  intros E. unfold pack_ok, describes. destruct p, q. cbn in *. injection E as -> -> -> -> -> -> ->. done.
Qed.
Lemma did_elem i tr l : l ∈ did i tr -> EStep i l ∈ tr.
Proof. intros H. apply did_In in H as (t1 & t2 & ->). apply elem_of_app. right. left. Qed.
Lemma tasks_born tr i k b : tasks tr !! i = Some k -> kbundle k = Some b -> b ∈ born tr.
Proof.
  intros H Hk. apply elem_of_list_lookup_2 in H. unfold tasks in H.
  rewrite elem_of_list_In, in_flat_map in H. destruct H as (e & He & Hin).
  unfold born. rewrite elem_of_list_In, in_flat_map. exists e. split; [done|].
  destruct e as [k'| | | | | |j l]; cbn in Hin; try done.
  - destruct Hin as [->|[]]. destruct k; cbn in *; try done; injection Hk as ->; by left.
  - destruct l; try done. destruct Hin as [<-|[]]. done.
Qed.
Lemma local_born_ok tr i k b : tasks tr !! i = Some k -> local_born k (did i tr) b -> b ∈ born tr.
Proof.
  intros Ht [Hk|(b0 & st & rs & H)]; [by eapply tasks_born|].
  apply did_elem in H. unfold born. rewrite elem_of_list_In, in_flat_map.
  eexists. split; [by apply elem_of_list_In|]. by left.
Qed.
Lemma origin_ok tr m i k p : inv tr m -> tasks tr !! i = Some k -> origin k (did i tr) p ->
  pack_ok tr (n_time (m_node m)) p.
Proof.
  intros HI Ht [(b & Hc & Hd & Hb)|(q & E & Hq)].
  - split; [eapply (iv_clock _ _ HI i), did_elem; done|]. exists b. split; [by eapply local_born_ok|done].
  - eapply bare_ok; [done|]. destruct Hq as [->|(id & Hq)].
    + apply (iv_fwd _ _ HI). by eapply elem_of_list_lookup_2.
    + by eapply (iv_read _ _ HI i), did_elem.
Qed.
Lemma access_time n o r n' : access n o r n' -> n_time n' = n_time n.
Proof.
  destruct o; cbn; try (by intros [? ->]); try (by intros ->);
    try (intros [[_ ->]|[_ ->]]; done); try (intros [[_ ->]|(_ & _ & ->)]; done).
  - intros [[_ ->]|[[_ ->]|(_ & _ & ->)]]; done.
  - destruct (find_ep e n); [intros [[_ ->]|(_ & _ & ->)]; done|intros [_ ->]; done].
  - destruct (find_ep e n); intros [_ ->]; done.
  - destruct (n_peers n !! n0); intros [_ ->]; done.
  - intros [-> _]. done.
Qed.
(** only these accesses change the store *)
Definition store_after (o : act) (r : resp o) (now : N) (s : mem) : mem :=
  match o return resp o -> mem with
  | SPush b => fun r => if r : bool then mem_push now b s else s
  | SAdd b => fun r => match r with Some true => mem_push now b s | _ => s end
  | SRemove id => fun _ => fst (mem_remove id s)
  | SUpdate p => fun r => if r : bool then fst (mem_update p s) else s
  | _ => fun _ => s
  end r.
Lemma access_store n o r n' : access n o r n' ->
  n_store n' = store_after o r (n_time n) (n_store n) \/
  (exists id, o = SRemove id /\ n_store n' = n_store n).
Proof.
  destruct o; cbn; try (intros [_ ->]; by left); try (intros ->; by left).
  - intros [[-> ->]|[-> ->]]; by left.
  - unfold mem_add_if_unknown. destruct (mem_has _ _) eqn:E; cbn.
    + intros [[-> ->]|(_ & ? & _)]; [by left|done].
    + intros [[-> ->]|(-> & _ & ->)]; by left.
  - intros [[-> ->]|[[-> ->]|(-> & _ & ->)]]; [by left|right; eauto|by left].
  - intros [[-> ->]|[-> ->]]; [|by left]. left.
    unfold mem_update. destruct (m_meta (n_store n) !! p_id p); done.
  - destruct (find_ep e n); [intros [[_ ->]|(_ & _ & ->)]; by left|intros [_ ->]; by left].
  - destruct (find_ep e n); intros [_ ->]; by left.
  - destruct (n_peers n !! n0); intros [_ ->]; by left.
  - intros [-> _]. by left.
Qed.

(** store operations and the invariant *)
Definition store_ok (tr : list event) (now : N) (s : mem) : Prop :=
  (forall id b, m_bundles s !! id = Some b -> bid b = id /\ bundle_ok tr b) /\
  (forall id p, m_meta s !! id = Some p -> p_id p = id /\ pack_ok tr now p) /\
  (forall id, is_Some (m_bundles s !! id) -> is_Some (m_meta s !! id)).
Lemma push_ok tr now b s : store_ok tr now s -> bundle_ok tr b -> store_ok tr now (mem_push now b s).
Proof.
  intros (H1 & H2 & H3) Hb. split; [|split]; cbn.
  - intros id b' Hl. destruct (decide (id = bid b)) as [->|Hne].
    + rewrite lookup_insert in Hl. by injection Hl as <-.
    + rewrite lookup_insert_ne in Hl by done. by apply H1.
  - intros id p Hl. destruct (m_bundles s !! bid b) as [b'|] eqn:E; [by apply H2|].
    destruct (decide (id = bid b)) as [->|Hne].
    + rewrite lookup_insert in Hl. injection Hl as <-. split; [done|]. split; [cbn; lia|].
      destruct Hb as (b0 & Hb & Hs). exists b0. split; [done|].
      assert (Hbid := same_primary_bid _ _ Hs). injection Hs as ?????????.
      repeat split; cbn; congruence.
    + rewrite lookup_insert_ne in Hl by done. by apply H2.
  - intros id [x Hx]. destruct (decide (id = bid b)) as [->|Hne].
    + destruct (m_bundles s !! bid b) as [b'|] eqn:E; [by apply H3|]. rewrite lookup_insert. eauto.
    + rewrite lookup_insert_ne in Hx by done.
      destruct (m_bundles s !! bid b) as [b'|] eqn:E; [by apply H3; eauto|].
      rewrite lookup_insert_ne by done. by apply H3; eauto.
Qed.
Lemma update_ok tr now p s : store_ok tr now s -> pack_ok tr now p -> store_ok tr now (fst (mem_update p s)).
Proof.
  intros (H1 & H2 & H3) Hp. unfold mem_update. destruct (m_meta s !! p_id p) as [q|] eqn:E; [|done].
  cbn. split; [done|]. split; cbn.
  - intros id p' Hl. destruct (decide (id = p_id p)) as [->|Hne].
    + rewrite lookup_insert in Hl. by injection Hl as <-.
    + rewrite lookup_insert_ne in Hl by done. by apply H2.
  - intros id Hid. destruct (decide (id = p_id p)) as [->|Hne].
    + rewrite lookup_insert. eauto.
    + rewrite lookup_insert_ne by done. by apply H3.
Qed.
Lemma remove_ok tr now id s : store_ok tr now s -> store_ok tr now (fst (mem_remove id s)).
Proof.
  intros Hs. assert (Hs' := Hs). destruct Hs as (H1 & H2 & H3). unfold mem_remove.
  destruct (m_meta s !! id) as [p|] eqn:E; [|done].
  destruct (H2 _ _ E) as [Hid Hp].
  assert (Hu : store_ok tr now (fst (mem_update (tombstone p) s))) by (by apply update_ok).
  destruct (mem_update (tombstone p) s) as [s' ok] eqn:Eu. cbn in Hu. destruct ok; [|done].
  destruct (m_bundles s' !! id) eqn:Eb; [|done]. cbn. destruct Hu as (U1 & U2 & U3).
  split; [|split]; cbn.
  - intros id' b' Hl. apply lookup_delete_Some in Hl as [_ Hl]. by apply U1.
  - done.
  - intros id' [x Hl]. apply lookup_delete_Some in Hl as [_ Hl]. apply U3. eauto.
Qed.
Lemma store_ok_mono tr tr' now now' s : now <= now' -> store_ok tr now s -> store_ok (tr ++ tr') now' s.
Proof.
  intros Hn (H1 & H2 & H3). split; [|split; [|done]].
  - intros id b Hl. destruct (H1 _ _ Hl). split; [done|by apply bundle_ok_mono].
  - intros id p Hl. destruct (H2 _ _ Hl). split; [done|by eapply pack_ok_mono].
Qed.

Lemma elem_snoc {A} (l : list A) x y : x ∈ l ++ [y] -> x ∈ l \/ x = y.
Proof. rewrite elem_of_app, elem_of_list_singleton. done. Qed.
(** steps of the environment do not concern the invariant *)
Lemma inv_env tr m e m' :
  inv tr m -> mstep m e m' -> (forall i l, e <> EStep i l) -> inv (tr ++ [e]) m'.
Proof.
  intros HI Hs He.
  assert (Hst : n_store (m_node m') = n_store (m_node m) /\ n_time (m_node m) <= n_time (m_node m')).
  { destruct Hs; cbn; try done; try (exfalso; by eapply He). by destruct (has_endpoint e (m_node m)). }
  destruct Hst as [Hst Htm].
  assert (Htk : forall q, KForward q ∈ tasks (tr ++ [e]) -> KForward q ∈ tasks tr).
  { intros q. rewrite tasks_app, elem_of_app. intros [?|H]; [done|]. destruct Hs; cbn in H; try (by apply elem_of_nil in H).
    - apply elem_of_list_singleton in H. subst. done.
    - exfalso; by eapply He. }
  split; rewrite ?Hst.
  - intros id b Hl. destruct (iv_bundle _ _ HI _ _ Hl). split; [done|by apply bundle_ok_mono].
  - intros id p Hl. destruct (iv_meta _ _ HI _ _ Hl). split; [done|by eapply pack_ok_mono].
  - apply (iv_both _ _ HI).
  - intros i t [H| <-]%elem_snoc; [|by edestruct He]. assert (H' := iv_clock _ _ HI _ _ H). lia.
  - intros i id p [H| <-]%elem_snoc; [|by edestruct He]. eapply pack_ok_mono; [done|]. by eapply iv_read.
  - intros i id b [H| <-]%elem_snoc; [|by edestruct He]. destruct (iv_get _ _ HI _ _ _ H). split; [done|by apply bundle_ok_mono].
  - intros q Hq. eapply pack_ok_mono; [done|]. by eapply iv_fwd, Htk.
Qed.
Theorem run_inv tr m : run tr m -> inv tr m.
Proof.
  induction 1 as [m (Hs & Ht & _)|tr m e m' Hr IH Hs].
  { split; rewrite ?Hs; cbn; try (by intros ? ? H%elem_of_nil); try (by intros ? ? ? H%elem_of_nil).
    - intros id b Hl. by rewrite lookup_empty in Hl.
    - intros id b Hl. by rewrite lookup_empty in Hl.
    - intros id [b Hl]. by rewrite lookup_empty in Hl.
    - by intros q H%elem_of_nil. }
  destruct e as [k|ep|ep|ep on|ps|u d|i l]; try (by eapply inv_env).
  assert (Hr' : run (tr ++ [EStep i l]) m') by (by eapply run_step).
  destruct (run_safe _ _ _ _ _ I_prov tr i l [] m' prov Hr') as (k & Hk & HI).
  assert (Htm : n_time (m_node m') = n_time (m_node m)).
  { inversion Hs; subst; try done. by eapply access_time. }
  assert (Hclock : forall j t, EStep j (LAct Clock t) ∈ tr ++ [EStep i l] -> t <= n_time (m_node m')).
  { rewrite Htm. intros j t [H| H]%elem_snoc; [by eapply iv_clock|]. injection H as -> <-.
    inversion Hs as [| | | | | |m0 i0 k0 p0 o r p' n' _ _ Ha| |]; subst.
    repeat match goal with H : existT _ _ = existT _ _ |- _ => apply (Eqdep_dec.inj_pair2_eq_dec _ (fun x y => decide (x = y))) in H end.
    subst. cbn in Ha. destruct Ha as [-> _]. done. }
  assert (Hread : forall j id p, EStep j (LAct (SMeta id) (Some p)) ∈ tr ++ [EStep i l] -> pack_ok (tr ++ [EStep i l]) (n_time (m_node m')) p).
  { rewrite Htm. intros j id p [H| H]%elem_snoc; (eapply pack_ok_mono; [done|]); [by eapply iv_read|].
    injection H as -> <-.
    inversion Hs as [| | | | | |m0 i0 k0 p0 o r p' n' _ _ Ha| |]; subst.
    repeat match goal with H : existT _ _ = existT _ _ |- _ => apply (Eqdep_dec.inj_pair2_eq_dec _ (fun x y => decide (x = y))) in H end.
    subst. cbn in Ha. destruct Ha as [Ha _]. symmetry in Ha. by apply (iv_meta _ _ IH) in Ha as [_ Ha]. }
  assert (Hget : forall j id b, EStep j (LAct (SGet id) (Some b)) ∈ tr ++ [EStep i l] -> bid b = id /\ bundle_ok (tr ++ [EStep i l]) b).
  { intros j id b [H| H]%elem_snoc.
    { destruct (iv_get _ _ IH _ _ _ H). split; [done|by apply bundle_ok_mono]. }
    injection H as -> <-.
    inversion Hs as [| | | | | |m0 i0 k0 p0 o r p' n' _ _ Ha| |]; subst.
    repeat match goal with H : existT _ _ = existT _ _ |- _ => apply (Eqdep_dec.inj_pair2_eq_dec _ (fun x y => decide (x = y))) in H end.
    subst. cbn in Ha. destruct Ha as [Ha _]. symmetry in Ha. apply (iv_bundle _ _ IH) in Ha as [? Ha].
    split; [done|by apply bundle_ok_mono]. }
  assert (Hfwd : forall q, KForward q ∈ tasks (tr ++ [EStep i l]) -> pack_ok (tr ++ [EStep i l]) (n_time (m_node m')) q).
  { rewrite Htm. intros q. rewrite tasks_app, elem_of_app. intros [H|H]; (eapply pack_ok_mono; [done|]).
    - by eapply iv_fwd.
    - destruct l; cbn in H; try (by apply elem_of_nil in H). apply elem_of_list_singleton in H. injection H as ->.
      cbn in HI. by eapply origin_ok. }
  assert (Hst : store_ok (tr ++ [EStep i l]) (n_time (m_node m')) (n_store (m_node m'))).
  { assert (H0 : store_ok (tr ++ [EStep i l]) (n_time (m_node m')) (n_store (m_node m))).
    { eapply store_ok_mono; [by rewrite Htm|]. split; [apply (iv_bundle _ _ IH)|]. split; [apply (iv_meta _ _ IH)|apply (iv_both _ _ IH)]. }
    destruct l as [o r|q|]; [|inversion Hs; subst; done..].
    assert (Ha : access (m_node m) o r (m_node m')).
    { inversion Hs; subst.
      repeat match goal with H : existT _ _ = existT _ _ |- _ => apply (Eqdep_dec.inj_pair2_eq_dec _ (fun x y => decide (x = y))) in H end.
      subst. done. }
    destruct (access_store _ _ _ _ Ha) as [->|(id & -> & ->)]; [|done].
    rewrite <- Htm. destruct o; cbn [store_after]; try done.
    - destruct r; [|done]. apply push_ok; [done|]. cbn in HI. destruct HI as (b0 & Hs0 & Hb0).
      apply bundle_ok_mono. exists b0. split; [by eapply local_born_ok|done].
    - destruct r as [[]|]; try done. apply push_ok; [done|]. cbn in HI. subst k.
      apply bundle_ok_mono. exists b. split; [by eapply tasks_born|done].
    - by apply remove_ok.
    - destruct r; [|done]. apply update_ok; [done|]. cbn in HI. rewrite Htm.
      eapply pack_ok_mono; [done|]. by eapply origin_ok. }
  destruct Hst as (S1 & S2 & S3). by split.
Qed.
End inv.
