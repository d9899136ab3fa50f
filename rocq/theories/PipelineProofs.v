(** Proofs about the pipeline, task by task. *)
From stdpp Require Import prelude strings pretty gmap sorting.
From Coq Require Import NArith Lia.
From Verif Require Import Core StoreMem Peers Routing Pipeline PipelineBase.
Open Scope N_scope.

Ltac emit_step :=
  match goal with
  | |- emits _ (bind _ _) => apply emits_bind; [|intros ?]
  | |- emits _ (call _) => intros ?; split; [|exact Logic.I]
  | |- emits _ (Ret _) => exact Logic.I
  | |- emits _ Panic => exact Logic.I
  | |- emits _ (Act _ _) => intros ?; split
  | |- emits _ (Spawn _ _) => split
  | |- emits _ (if ?b then _ else _) => destruct b
  | |- emits _ (match ?x with _ => _ end) => destruct x
  | |- emits _ (let _ := _ in _) => cbv zeta
  end.
Ltac emit := repeat emit_step; try exact Logic.I.

(** symbolic execution of a program under [safe] *)
Ltac sx_step :=
  match goal with
  | |- gsafe _ _ _ _ (bind _ _) => apply safe_bind
  | |- gsafe _ _ _ _ (call _) => apply safe_call; intros ?; split
  | |- gsafe _ _ _ _ (Ret _) => cbn [gsafe]
  | |- gsafe _ _ _ _ Panic => exact Logic.I
  | |- gsafe _ _ _ _ (if ?b then _ else _) => let E := fresh "E" in destruct b eqn:E
  | |- gsafe _ _ _ _ (match ?x with _ => _ end) => let E := fresh "E" in destruct x eqn:E
  | |- gsafe _ _ _ _ (let _ := _ in _) => cbv zeta
  end.
Ltac sx := repeat sx_step.

(** store, clock and endpoint look-ups, and making status reports *)
Definition house (l : label) : Prop :=
  match l with
  | LAct o _ =>
      match o with
      | SPush _ | SRemove _ | SUpdate _ | SHas _ | SGet _ | SMeta _ | SPacks | SForwarding
      | Clock | DtnClock | HasEndpoint _ | NewReport _ _ _ => True
      | _ => False
      end
  | _ => False
  end.
Section proofs.
Context (host : eid) (gen_reports parallel : bool) (parse_record : list N -> option arecord).
Notation send_status_report := (send_status_report).
Notation delete_bundle := (delete_bundle gen_reports).
Notation delete_fresh := (delete_fresh gen_reports).
Notation record_valid := (record_valid parse_record).
Notation local_delivery := (local_delivery host gen_reports parse_record).
Notation forward := (forward host gen_reports parse_record).
Notation dispatch := (dispatch host gen_reports parse_record).
Notation transmit := (transmit host gen_reports parse_record).
Notation submit := (submit host gen_reports parse_record).
Notation receive := (receive host gen_reports parse_record).
Notation scan_blocks := (scan_blocks gen_reports).
Notation process_bundles := (process_bundles host gen_reports parallel parse_record).
Notation task_of := (task_of host gen_reports parallel parse_record).

Lemma sync_house p : emits house (sync p).
Proof. unfold sync. emit. Qed.
Lemma report_house p st rs : emits house (send_status_report p st rs).
Proof. unfold Pipeline.send_status_report. emit; apply sync_house. Qed.
Lemma delete_house p rs : emits house (delete_bundle p rs).
Proof. unfold Pipeline.delete_bundle. emit; first [apply report_house|apply sync_house]. Qed.
Lemma delete_fresh_house b rs : emits house (delete_fresh b rs).
Proof. unfold Pipeline.delete_fresh. emit; apply delete_house. Qed.
Lemma inspect_house l i ref : emits house (inspect_items l i ref).
Proof. revert i. induction l as [|x l IH]; intros i; cbn [inspect_items]; emit; apply IH. Qed.
Lemma record_house b : emits house (record_valid b).
Proof. unfold Pipeline.record_valid, inspect_status_report. emit; apply inspect_house. Qed.
Lemma scan_house p l i rm : emits house (scan_blocks p l i rm).
Proof.
  revert i rm. induction l as [|k l IH]; intros i rm; cbn [Pipeline.scan_blocks]; emit; try apply IH; try apply report_house; apply delete_house.
Qed.

(** ** Transfers (C33, C34, C35) *)
(** the bundle after the hop count, previous node and age handlers *)
Definition hop_stage (b : bundle) : option bundle :=
  match block_by_type HOP_COUNT_BLOCK b with
  | Some (Block _ _ _ (CHop limit count)) =>
      if limit <? (count + 1) mod 256 then None
      else Some (with_blocks b (update_first HOP_COUNT_BLOCK (CHop limit ((count + 1) mod 256)) (b_blocks b)))
  | _ => Some b
  end.
Definition prev_stage (b : bundle) : option bundle :=
  match block_by_type PREVIOUS_NODE_BLOCK b with
  | Some (Block _ _ _ (CPrev _)) =>
      Some (with_blocks b (update_first PREVIOUS_NODE_BLOCK (CPrev host) (b_blocks b)))
  | Some _ => None
  | None => Some (add_block PREVIOUS_NODE_BLOCK (CPrev host) b)
  end.
(** [l]: the accesses the age handler makes *)
Definition age_stage (b : bundle) (l : list label) (b' : bundle) : Prop :=
  match block_by_type BUNDLE_AGE_BLOCK b with
  | Some (Block _ _ _ (CAge age)) =>
      (l = [LAct (SMeta (bid b)) None] /\ b' = b) \/
      exists m now, l = [LAct (SMeta (bid b)) (Some m); LAct Clock now] /\
        let a := new_age age now (p_recv m) in
        (a = 0 /\ b' = b \/
         a <> 0 /\ a < b_life b * 1000 /\
         b' = with_blocks b (update_first BUNDLE_AGE_BLOCK (CAge a) (b_blocks b)))
  | Some _ => exists om, l = [LAct (SMeta (bid b)) om] /\ b' = b
  | None => l = [] /\ b' = b
  end.
(** what an attempt for [id] looks at before it transmits [b] *)
Definition before_transfer (id : string) (h : list label) (b : bundle) : Prop :=
  exists h0 stored b1 b2 la,
    h = h0 ++ [LAct (SGet id) (Some stored); LAct (LifetimeOver stored) false] ++ la /\
    hop_stage stored = Some b1 /\ prev_stage b1 = Some b2 /\ age_stage b2 la b.
(** accesses of the transfer sub-tasks *)
Definition sub (id : string) (b : bundle) (nodes : list sender) (l : label) : Prop :=
  match l with
  | LAct o _ =>
      match o with
      | Transfer s b' => b' = b /\ s ∈ nodes
      | Count Outgoing | Count Failed => True
      | Notify (SendingSucceeded i n) | Notify (SendingFailed i n) =>
          i = id /\ exists s, s ∈ nodes /\ eid_node (sd_hop s) = Some n
      | PeerFail n => exists s, s ∈ nodes /\ eid_node (sd_hop s) = Some n
      | PeerRemove _ => True
      | _ => False
      end
  | _ => False
  end.
Lemma send_one_sub id b nodes s : s ∈ nodes -> cemits (sub id b nodes) (send_one id b s).
Proof.
  intros Hs. cbn. intros [|]; (split; [done|]); intros []; (split; [done|]);
    destruct (eid_node (sd_hop s)) as [n|] eqn:E; cbn; try done.
  - intros _. naive_solver.
  - intros _. split; [naive_solver|]. intros r. split; [naive_solver|]. destruct r; [|done]. done.
Qed.
Lemma send_all_sub id b nodes : Forall (cemits (sub id b nodes)) (map (send_one id b) nodes).
Proof.
  apply Forall_fmap, Forall_forall. intros s Hs. by apply send_one_sub.
Qed.

Definition I_transfer (h : list label) (l : label) : Prop :=
  match l with
  | LAct (Transfer s b) _ => exists h0 hs id nodes, h = h0 ++ hs /\ before_transfer id h0 b /\
      Forall (sub id b nodes) hs
  | _ => True
  end.
Lemma house_I hs l : house l -> I_transfer hs l.
Proof. by destruct l as [[]| |]. Qed.

(** the handlers: either they only tidy up and stop, or they hand on the bundle *)
Lemma forwarding_has p : has_constraints (p_cons (forwarding p)) = true.
Proof. unfold has_constraints. rewrite bool_decide_eq_false_2; [done|]. by destruct p as [???????[]]. Qed.
Lemma sync_forwarding p : sync (forwarding p) = call (SUpdate (forwarding p)).
Proof. unfold sync. by rewrite forwarding_has. Qed.

Lemma hop_safe (I : list label -> label -> Prop) (Q : list label -> option bundle -> Prop) h b :
  (forall hs l, Forall house hs -> house l -> I (h ++ hs) l) ->
  (hop_stage b = None -> forall hs, Forall house hs -> Q (h ++ hs) None) ->
  (forall b', hop_stage b = Some b' -> Q h (Some b')) ->
  safe I Q h (handle_hop_count gen_reports b).
Proof.
  intros HI HN HS. unfold handle_hop_count, hop_stage in *.
  destruct (block_by_type HOP_COUNT_BLOCK b) as [[? ? ? []]|]; try (by apply HS).
  cbv zeta in *. destruct (limit <? (count + 1) mod 256) eqn:E; [|by apply HS].
  apply safe_bind. eapply (safe_emits house); [apply delete_fresh_house|done|]. intros. by apply HN.
Qed.
Lemma prev_safe (I : list label -> label -> Prop) (Q : list label -> bundle -> Prop) h b :
  (forall b', prev_stage b = Some b' -> Q h b') ->
  safe I Q h (handle_previous_node host b).
Proof.
  intros HS. unfold handle_previous_node, prev_stage in *.
  destruct (block_by_type PREVIOUS_NODE_BLOCK b) as [[? ? ? []]|]; try done; by apply HS.
Qed.
Lemma age_safe (I : list label -> label -> Prop) (Q : list label -> option bundle -> Prop) h b :
  (forall hs l, Forall house hs -> house l -> I (h ++ hs) l) ->
  (forall m now age hs, block_by_type BUNDLE_AGE_BLOCK b ≫= (fun k => match k_data k with CAge a => Some a | _ => None end) = Some age ->
     b_life b * 1000 <= new_age age now (p_recv m) ->
     Forall house hs -> Q ((h ++ [LAct (SMeta (bid b)) (Some m); LAct Clock now]) ++ hs) None) ->
  (forall l b', age_stage b l b' -> Q (h ++ l) (Some b')) ->
  safe I Q h (handle_age gen_reports b).
Proof.
  intros HI HN HS. unfold handle_age, age_stage in *.
  destruct (block_by_type BUNDLE_AGE_BLOCK b) as [[? ? ? d]|] eqn:Eb.
  2: { cbn. specialize (HS [] b (conj eq_refl eq_refl)). by rewrite app_nil_r in HS. }
  assert (H0 : forall o r, house (LAct o r) -> I h (LAct o r)).
  { intros o r Ho. specialize (HI [] (LAct o r)). rewrite app_nil_r in HI. by apply HI. }
  destruct d; try (apply safe_bind, safe_call; intros r; split; [by apply H0|]; cbn; by eauto).
  apply safe_bind, safe_call. intros om. split; [by apply H0|].
  destruct om as [m|]; [|cbn; apply HS; by left].
  apply safe_bind, safe_call. intros now. split; [apply HI; by repeat constructor|]. cbv zeta.
  destruct (new_age age now (p_recv m) =? 0) eqn:Ea.
  { cbn. rewrite <- app_assoc. apply HS. right. exists m, now. split; [done|]. left. apply N.eqb_eq in Ea. done. }
  apply N.eqb_neq in Ea. cbn [b_life with_blocks].
  destruct (b_life b * 1000 <=? new_age age now (p_recv m)) eqn:El.
  - apply N.leb_le in El. apply safe_bind. eapply (safe_emits house); [apply delete_fresh_house|..].
    + intros hs l Hhs Hl. rewrite <- !app_assoc. apply HI; [|done]. repeat (apply Forall_app; split); by repeat constructor.
    + intros hs _ Hhs. cbn [gsafe]. rewrite <- (app_assoc h). cbn [app]. eapply HN; eauto.
  - apply N.leb_gt in El. cbn [gsafe]. rewrite <- app_assoc. apply HS. right. exists m, now. split; [done|]. by right.
Qed.

(** the part of a forwarding attempt that transmits *)
Lemma after_house p b del sent : emits house (after_transfers gen_reports parse_record p b del sent).
Proof.
  unfold after_transfers, contraindicated. emit; first [apply report_house|apply record_house|apply sync_house].
Qed.
Lemma copy_transfer h0 p nodes del b :
  safe I_transfer (fun _ _ => True) (h0 ++ [LAct (SGet (p_id p)) (Some b)])
    (forward_copy host gen_reports parse_record p nodes del b).
Proof.
  unfold forward_copy, handle_lifetime. apply safe_bind, safe_bind, safe_call. intros over. split; [done|].
  destruct over.
  { apply safe_bind. eapply (safe_emits house); [apply delete_fresh_house|intros; by apply house_I|done]. }
  cbn [gsafe]. apply safe_bind, hop_safe; [intros; by apply house_I|done|]. intros b1 Hb1.
  apply safe_bind, prev_safe. intros b2 Hb2.
  apply safe_bind, age_safe; [intros; by apply house_I|done|]. intros la b3 Hb3.
  intros hs cs' Hcs. destruct (csteps_emits _ _ _ _ Hcs (send_all_sub (p_id p) b3 nodes)) as [H1 _]. split.
  - intros ha l hb ->. apply Forall_app in H1 as [Ha H1]. apply Forall_cons in H1 as [Hl _].
    destruct l as [[]| |]; try done. cbn in Hl. destruct Hl as [-> Hs].
    eexists _, ha, (p_id p), nodes. split; [done|]. split; [|done].
    exists h0, b, b1, b2, la. rewrite <- !app_assoc. done.
  - intros bs _. split; [done|]. eapply (safe_emits house); [apply after_house|intros; by apply house_I|done].
Qed.
Lemma forward_transfer (h : list label) p : safe I_transfer (fun _ _ => True) h (forward p).
Proof.
  unfold Pipeline.forward. rewrite sync_forwarding. sx; try done. subst. apply (copy_transfer _ (forwarding p)).
Qed.

(** receptions and submissions transmit nothing themselves *)
Definition front (l : label) : Prop :=
  match l with
  | LAct o _ =>
      match o with
      | Transfer _ _ | Route _ | Pop _ | Accepting | SPacks | SForwarding | DtnClock | LifetimeOver _
      | PeerFail _ | PeerRemove _ => False
      | Count Outgoing | Count Failed | Count Broken => False
      | Notify n => match n with IncomingBundle _ => True | _ => False end
      | _ => True
      end
  | LSpawn _ => True
  | LJoin => False
  end.
Definition lookups (l : label) : Prop :=
  match l with
  | LAct o _ =>
      match o with
      | SPush _ | SRemove _ | SUpdate _ | SHas _ | SGet _ | SMeta _
      | Clock | HasEndpoint _ | NewReport _ _ _ => True
      | _ => False
      end
  | _ => False
  end.
Lemma lookups_front l : lookups l -> front l.
Proof. by destruct l as [[]| |]. Qed.
Lemma lookups_house l : lookups l -> house l.
Proof. by destruct l as [[]| |]. Qed.
Lemma sync_lookups p : emits lookups (sync p).
Proof. unfold sync. emit. Qed.
Lemma report_lookups p st rs : emits lookups (send_status_report p st rs).
Proof. unfold Pipeline.send_status_report. emit; apply sync_lookups. Qed.
Lemma delete_lookups p rs : emits lookups (delete_bundle p rs).
Proof. unfold Pipeline.delete_bundle. emit; first [apply report_lookups|apply sync_lookups]. Qed.
Lemma inspect_lookups l i ref : emits lookups (inspect_items l i ref).
Proof. revert i. induction l as [|x l IH]; intros i; cbn [inspect_items]; emit; apply IH. Qed.
Lemma record_lookups b : emits lookups (record_valid b).
Proof. unfold Pipeline.record_valid, inspect_status_report. emit; apply inspect_lookups. Qed.
Lemma scan_lookups p l i rm : emits lookups (scan_blocks p l i rm).
Proof.
  revert i rm. induction l as [|k l IH]; intros i rm; cbn [Pipeline.scan_blocks]; emit; try apply IH; try apply report_lookups; apply delete_lookups.
Qed.
Lemma local_front p : emits front (local_delivery p).
Proof.
  unfold Pipeline.local_delivery, remove_if_singleton.
  emit; try (eapply emits_mono; [apply lookups_front|]); first [apply record_lookups|apply delete_lookups|apply sync_lookups|apply report_lookups].
Qed.
Lemma dispatch_front p : emits front (dispatch p).
Proof. unfold Pipeline.dispatch. emit; apply local_front. Qed.
Lemma receive_front b : emits front (receive b).
Proof.
  unfold Pipeline.receive.
  emit; try apply dispatch_front; (eapply emits_mono; [apply lookups_front|]); first [apply scan_lookups|apply sync_lookups|apply report_lookups].
Qed.
Lemma submit_front b : emits front (submit b).
Proof.
  unfold Pipeline.submit, Pipeline.transmit.
  emit; try apply dispatch_front; (eapply emits_mono; [apply lookups_front|]); first [apply delete_lookups|apply sync_lookups].
Qed.
Lemma expired_house l : emits house (remove_expired l).
Proof. induction l as [|p l IH]; cbn [remove_expired]; emit; apply IH. Qed.
Lemma load_house l : emits house (load_packs l).
Proof. induction l as [|p l IH]; cbn [load_packs]; emit; apply IH. Qed.

(** a fact about all attempts holds in the janitor's task *)
Lemma forward_all_safe (I : list label -> label -> Prop) (Q : list label -> unit -> Prop) ps h :
  (forall h p, p ∈ ps -> safe I (fun _ _ => True) h (forward p)) ->
  (forall h p, p ∈ ps -> I h (LSpawn p)) ->
  (forall h, Q h tt) ->
  safe I Q h (forward_all host gen_reports parallel parse_record ps).
Proof.
  revert h. induction ps as [|p ps IH]; intros h Hf Hs HQ; cbn [forward_all]; [apply HQ|].
  assert (forall h, safe I Q h (forward_all host gen_reports parallel parse_record ps)).
  { intros h'. apply IH; [intros; apply Hf; by right|intros; apply Hs; by right|done]. }
  destruct parallel.
  - split; [apply Hs; left|]. done.
  - apply safe_bind. eapply safe_mono; [done| |apply Hf; left]. cbn. done.
Qed.
Lemma janitor_safe (I : list label -> label -> Prop) (Q : list label -> unit -> Prop) :
  (forall h l, house l -> I h l) -> (forall h r, I h (LAct Accepting r)) ->
  (forall h p, safe I (fun _ _ => True) h (forward p)) ->
  (forall h p, I h (LSpawn p)) ->
  (forall h, Q h tt) ->
  safe I Q [] process_bundles.
Proof.
  intros HI HA Hf Hs HQ. unfold Pipeline.process_bundles.
  apply safe_bind, safe_call. intros r. split; [by apply HI|].
  apply safe_bind. eapply (safe_emits house); [apply expired_house|auto|]. intros hs _ _.
  apply safe_bind, safe_call. intros acc. split; [apply HA|]. destruct acc; [|apply HQ].
  apply safe_bind, safe_call. intros ids. split; [by apply HI|].
  apply safe_bind. eapply (safe_emits house); [apply load_house|auto|]. intros hs' ps _.
  by apply forward_all_safe.
Qed.
Lemma all_transfer k : safe I_transfer (fun _ _ => True) [] (task_of k).
Proof.
  assert (Hfront : forall h l, front l -> I_transfer h l) by (by intros h [[]| |]).
  destruct k; cbn [Pipeline.task_of].
  - apply safe_bind. eapply (safe_emits front); [apply receive_front|auto|done].
  - apply safe_bind. eapply (safe_emits front); [apply submit_front|auto|done].
  - apply safe_bind. eapply safe_mono; [done| |apply forward_transfer]. done.
  - apply janitor_safe; try done; [intros; by apply house_I|]. intros. apply forward_transfer.
  - unfold app_pop, remove_if_singleton. sx; done.
  - unfold user_delete. sx; done.
Qed.
End proofs.
