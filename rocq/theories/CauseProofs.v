(** Why a task removes a bundle, makes a status report, delivers or forwards. *)
From stdpp Require Import prelude strings pretty gmap sorting.
From Coq Require Import NArith Lia ZifyBool ZifyN ZifyNat.
From Verif Require Import Core StoreMem Peers Routing Pipeline PipelineBase PipelineProofs PipelineInv ReceptionProofs.
Open Scope N_scope.

(** ** The transfers of one attempt *)
(** all ends of the sub-task have the flag [x] *)
Fixpoint leads (x : bool) (c : cprog) : Prop :=
  match c with CDone y => y = x | CAct o k => forall r, leads x (k r) end.
Lemma cstep_inv o k l c : cstep (CAct o k) l c -> exists r, l = LAct o r /\ c = k r.
Proof.
  intros H. inversion H; subst.
  repeat match goal with H : existT _ _ = existT _ _ |- _ => apply (Eqdep_dec.inj_pair2_eq_dec _ (fun x y => decide (x = y))) in H end.
  subst. eauto.
Qed.
Definition no_transfer (l : label) : Prop := match l with LAct (Transfer _ _) _ => False | _ => True end.
Lemma send_leads id b s c l : cstep (send_one id b s) l c ->
  exists x, l = LAct (Transfer s b) x /\ leads x c /\ cemits no_transfer c.
Proof.
  intros (x & -> & ->)%cstep_inv. exists x. split; [done|].
  split; destruct x; cbn; intros []; try split; try done; destruct (eid_node (sd_hop s)); cbn; try done.
  - intros _ []; done.
  - intros _. split; [done|]. by intros [].
Qed.
Lemma leads_step x c l c' : leads x c -> cstep c l c' -> leads x c'.
Proof. intros H Hs. destruct Hs. apply H. Qed.
(** every sub-task has not begun, or its transfer is in the history with the
    flag it will end with; and every successful transfer is of such a sub-task *)
Definition par_inv (id : string) (b : bundle) (nodes : list sender) (hs : list label) (cs : list cprog) : Prop :=
  length cs = length nodes /\
  (forall i s c, nodes !! i = Some s -> cs !! i = Some c ->
     c = send_one id b s \/ exists x, leads x c /\ LAct (Transfer s b) x ∈ hs) /\
  (forall s b' x, LAct (Transfer s b') x ∈ hs -> exists i c, cs !! i = Some c /\ leads x c).
Lemma par_inv_steps id b nodes hs0 cs hs cs' : csteps cs hs cs' ->
  (forall i c, cs !! i = Some c -> (exists s, nodes !! i = Some s /\ c = send_one id b s) \/ cemits no_transfer c) ->
  par_inv id b nodes hs0 cs -> par_inv id b nodes (hs0 ++ hs) cs'.
Proof.
  intros Hcs. revert hs0. induction Hcs as [cs|cs i c l c' ls cs' Hi Hc Hcs IH]; intros hs0 Hq (Hlen & H1 & H2).
  { by rewrite app_nil_r. }
  rewrite (app_assoc hs0 [l] ls : hs0 ++ l :: ls = _). apply IH.
  - intros j d Hj. destruct (decide (i = j)) as [->|Hne].
    + rewrite list_lookup_insert in Hj by (by eapply lookup_lt_Some). injection Hj as <-. right.
      destruct (Hq _ _ Hi) as [(s & Hs & ->)|He].
      * by apply send_leads in Hc as (x & _ & _ & ?).
      * destruct Hc as [o k r]. apply He.
    + rewrite list_lookup_insert_ne in Hj by done. by apply Hq.
  - split; [by rewrite insert_length|]. split.
    + intros j s d Hs Hj. destruct (decide (i = j)) as [->|Hne].
      * rewrite list_lookup_insert in Hj by (by eapply lookup_lt_Some). injection Hj as <-. right.
        destruct (H1 _ _ _ Hs Hi) as [->|(x & Hx & Hin)].
        -- apply send_leads in Hc as (x & -> & Hl & _).
           exists x. split; [done|]. apply elem_last.
        -- exists x. split; [by eapply leads_step|]. apply elem_of_app. by left.
      * rewrite list_lookup_insert_ne in Hj by done. destruct (H1 _ _ _ Hs Hj) as [?|(x & Hx & Hin)]; [by left|].
        right. exists x. split; [done|]. apply elem_of_app. by left.
    + intros s b' x Hin. apply elem_of_app in Hin as [Hin|Hin].
      * destruct (H2 _ _ _ Hin) as (j & d & Hj & Hl). destruct (decide (i = j)) as [->|Hne].
        -- exists j, c'. split; [by rewrite list_lookup_insert by (by eapply lookup_lt_Some)|].
           rewrite Hi in Hj. injection Hj as <-. by eapply leads_step.
        -- exists j, d. by rewrite list_lookup_insert_ne.
      * apply elem_of_list_singleton in Hin. subst l.
        exists i, c'. split; [by rewrite list_lookup_insert by (by eapply lookup_lt_Some)|].
        destruct (Hq _ _ Hi) as [(s0 & Hs & ->)|He].
        -- apply send_leads in Hc as (y & E & Hl & _).
           assert (E' := lact_op _ _ _ _ E). injection E' as -> ->. apply lact_inj in E. by subst.
        -- exfalso. destruct c as [|o k]; [by inversion Hc|]. apply cstep_inv in Hc as (r & E & _).
           assert (E' := lact_op _ _ _ _ E). subst o. by destruct (He r).
Qed.
Lemma par_flags id b nodes hs cs bs :
  csteps (map (send_one id b) nodes) hs cs -> done_flags cs = Some bs ->
  (existsb (fun x => x) bs = true <-> exists s, LAct (Transfer s b) true ∈ hs) /\
  (forall s, s ∈ nodes -> exists x, LAct (Transfer s b) x ∈ hs).
Proof.
  intros Hcs Hd.
  assert (Hinv : par_inv id b nodes ([] ++ hs) cs).
  { eapply par_inv_steps; [done|..].
    - intros i c Hi. left. rewrite list_lookup_fmap in Hi. destruct (nodes !! i); [|done]. injection Hi as <-. eauto.
    - split; [by rewrite map_length|]. split; [|by intros ??? ?%elem_of_nil].
      intros i s c Hs Hi. rewrite list_lookup_fmap, Hs in Hi. injection Hi as <-. by left. }
  destruct Hinv as (Hlen & H1 & H2). cbn in H1, H2.
  unfold done_flags in Hd. apply mapM_Some in Hd.
  assert (Hfl : forall i c, cs !! i = Some c -> exists x, c = CDone x /\ bs !! i = Some x).
  { intros i c Hi. destruct (Forall2_lookup_l _ _ _ _ _ Hd Hi) as (x & Hx & E). destruct c; [|done]. injection E as ->. eauto. }
  split; [split|].
  - intros [x [Hx ->]]%existsb_exists. apply elem_of_list_In, elem_of_list_lookup in Hx as [i Hi].
    destruct (Forall2_lookup_r _ _ _ _ _ Hd Hi) as (c & Hc & E).
    destruct (lookup_lt_is_Some_2 nodes i) as [s Hs]; [rewrite <- Hlen; by eapply lookup_lt_Some|].
    destruct c as [y|]; [|done]. injection E as ->.
    destruct (H1 _ _ _ Hs Hc) as [?|(x & Hl & Hin)]; [done|]. cbn in Hl. subst. eauto.
  - intros (s & Hin). destruct (H2 _ _ _ Hin) as (i & c & Hi & Hl). destruct (Hfl _ _ Hi) as (x & -> & Hx). cbn in Hl. subst.
    apply existsb_exists. exists true. split; [|done]. by eapply elem_of_list_In, elem_of_list_lookup_2.
  - intros s [i Hi]%elem_of_list_lookup.
    destruct (lookup_lt_is_Some_2 cs i) as [c Hc]; [rewrite Hlen; by eapply lookup_lt_Some|].
    destruct (H1 _ _ _ Hi Hc) as [->|(x & Hl & Hin)]; [|eauto].
    destruct (Hfl _ _ Hc) as (x & E & _). done.
Qed.

(** ** Causes *)
Definition known (k : kind) (h : list label) (p : pack) : Prop :=
  origin k h p \/ exists id b, LAct (SGet id) (Some b) ∈ h /\ describes p b.
(** an unknown block that asks for the bundle's deletion *)
Definition fatal (b : bundle) : Prop :=
  exists x, x ∈ b_blocks b /\ 11 <= k_type x /\ kf_delete (k_flags x) = true.
(** the positions processing.rs:127-170 collects *)
Fixpoint marks (l : list block) (i : nat) (rm : list nat) : list nat :=
  match l with
  | [] => rm
  | x :: l => if k_type x <? 11 then marks l i rm
              else marks l (S i) (if kf_remove (k_flags x) then rm ++ [i] else rm)
  end.
Definition fwd_kind (k : kind) : Prop := match k with KForward _ | KJanitor => True | _ => False end.
Section cause.
Context (host : eid) (gen_reports parallel : bool) (parse_record : list N -> option arecord)
        (lifetime_exceeded : N -> bundle -> bool).
Notation delete_bundle := (delete_bundle gen_reports).
Notation delete_fresh := (delete_fresh gen_reports).
Notation record_valid := (record_valid parse_record).
Notation local_delivery := (local_delivery host gen_reports parse_record).
Notation forward := (forward host gen_reports parse_record).
Notation dispatch := (dispatch host gen_reports parse_record).
Notation submit := (submit host gen_reports parse_record).
Notation receive := (receive host gen_reports parse_record).
Notation scan_blocks := (scan_blocks gen_reports).
Notation process_bundles := (process_bundles host gen_reports parallel parse_record).
Notation task_of := (task_of host gen_reports parallel parse_record).
Notation run := (run host gen_reports parallel parse_record lifetime_exceeded).

Definition record_of (b : bundle) : option arecord :=
  match block_by_type PAYLOAD_BLOCK b with
  | Some (Block _ _ _ (CData d)) => parse_record d
  | _ => None
  end.
Definition sound_record (b : bundle) : bool :=
  bf_admin (b_flags b) && bool_decide (is_Some (record_of b)).
Inductive cause (k : kind) (h : list label) (id : string) : Prop :=
| c_user : k = KDelete id -> cause k h id
| c_popped e b : k = KPop e -> LAct (Pop e) (Some b) ∈ h -> bid b = id -> eid_non_singleton (b_dst b) = false -> cause k h id
| c_handed e b : is_Some (kbundle k) -> LAct (Deliver e b) Handed ∈ h -> bid b = id -> eid_non_singleton (b_dst b) = false -> cause k h id
| c_expired ps p now : k = KJanitor -> LAct SPacks ps ∈ h -> p ∈ ps -> LAct DtnClock now ∈ h ->
    has_expired now p = true -> p_id p = id -> cause k h id
| c_lifetime i b : fwd_kind k -> LAct (SGet i) (Some b) ∈ h -> LAct (LifetimeOver b) true ∈ h -> bid b = id -> cause k h id
| c_hops i b : fwd_kind k -> LAct (SGet i) (Some b) ∈ h -> hop_stage b = None -> bid b = id -> cause k h id
| c_age i b a m now : fwd_kind k -> LAct (SGet i) (Some b) ∈ h ->
    block_by_type BUNDLE_AGE_BLOCK b ≫= (fun k => match k_data k with CAge a => Some a | _ => None end) = Some a ->
    LAct (SMeta id) (Some m) ∈ h -> LAct Clock now ∈ h -> b_life b * 1000 <= new_age a now (p_recv m) ->
    bid b = id -> cause k h id
| c_block b : k = KReceive b -> LAct (SAdd b) (Some true) ∈ h -> fatal b -> bid b = id -> cause k h id
| c_source b : k = KSubmit b -> b_src b <> DtnNone -> LAct (HasEndpoint (b_src b)) false ∈ h -> bid b = id -> cause k h id
| c_record b0 b : kbundle k = Some b0 -> bf_admin (b_flags b0) = true -> LAct (SGet id) (Some b) ∈ h ->
    sound_record b = false -> bid b0 = id -> cause k h id
| c_report b l : ((exists b0, kbundle k = Some b0 /\ LAct (SGet (bid b0)) (Some b) ∈ h) \/ exists s, LAct (Transfer s b) true ∈ h) ->
    bf_admin (b_flags b) = true -> record_of b = Some (StatusReport l id) -> length l = 4%nat ->
    LAct (SHas id) true ∈ h -> cause k h id
| c_routed p nodes s b b0 : fwd_kind k -> LAct (Route p) (Some (nodes, true)) ∈ h -> p_id p = id -> s ∈ nodes ->
    LAct (SGet id) (Some b0) ∈ h -> same_primary b b0 -> LAct (Transfer s b) true ∈ h -> cause k h id
| c_dropped p : fwd_kind k -> LAct (Route p) (Some ([], true)) ∈ h -> p_id p = id -> cause k h id.
Lemma cause_mono k h hs id : cause k h id -> cause k (h ++ hs) id.
Proof.
  assert (Hm : forall l, l ∈ h -> l ∈ h ++ hs) by (intros; apply elem_of_app; by left).
  intros [].
  - by apply c_user.
  - eapply c_popped; [eassumption|apply Hm|..]; eassumption.
  - eapply c_handed; [eassumption|apply Hm|..]; eassumption.
  - eapply c_expired; [eassumption|apply Hm; eassumption|eassumption|apply Hm; eassumption|eassumption|eassumption].
  - eapply c_lifetime; [eassumption|apply Hm; eassumption|apply Hm; eassumption|eassumption].
  - eapply c_hops; [eassumption|apply Hm; eassumption|eassumption|eassumption].
  - eapply c_age; [eassumption|apply Hm; eassumption|eassumption|apply Hm; eassumption|apply Hm; eassumption|eassumption|eassumption].
  - eapply c_block; [eassumption|apply Hm; eassumption|eassumption|eassumption].
  - eapply c_source; [eassumption|eassumption|apply Hm; eassumption|eassumption].
  - eapply c_record; [eassumption|eassumption|apply Hm; eassumption|eassumption|eassumption].
  - eapply c_report; [|eassumption|eassumption|eassumption|apply Hm; eassumption].
    destruct H as [(b0 & H & ?)|[s ?]]; [left; exists b0|right; exists s]; auto.
  - eapply c_routed; [eassumption|apply Hm; eassumption|eassumption|eassumption|apply Hm; eassumption|eassumption|apply Hm; eassumption].
  - eapply c_dropped; [eassumption|apply Hm; eassumption|eassumption].
Qed.
Lemma known_mono k h hs p : known k h p -> known k (h ++ hs) p.
Proof. intros [?|(id & b & H & ?)]; [left; by apply origin_mono|]. right. exists id, b. inh. Qed.
Lemma known_cons k h p s : known k h p -> known k h (with_cons p s).
Proof. intros [?|(id & b & H & ?)]; [left; by apply origin_cons|]. right. exists id, b. done. Qed.

Definition cause_report (k : kind) (h : list label) (b : bundle) : Prop :=
  gen_reports = true /\ exists h0 p,
    h = h0 ++ [LAct (SGet (p_id p)) (Some b); LAct (HasEndpoint (b_rpt b)) false] /\
    p_admin p = false /\ p_src p <> DtnNone /\ known k h0 p.
(** a reception goes on only without fatal blocks, a submission only for a
    registered or anonymous source *)
Definition allowed (k : kind) (h : list label) : Prop :=
  match k with
  | KReceive b => ~ fatal b /\ LAct (SAdd b) (Some true) ∈ h
  | KSubmit b => b_src b = DtnNone \/ LAct (HasEndpoint (b_src b)) true ∈ h
  | _ => False
  end.
Lemma allowed_mono k h hs : allowed k h -> allowed k (h ++ hs).
Proof. destruct k; cbn; try done; rewrite elem_of_app; tauto. Qed.
Definition elsewhere (k : kind) : Prop :=
  match kbundle k with Some b => is_local_node_id host (b_dst b) = false | None => True end.
Definition own_report (h : list label) (b : bundle) : Prop := exists b0 st rs, LAct (NewReport b0 st rs) (Some b) ∈ h.
Definition I_cause (k : kind) (h : list label) (l : label) : Prop :=
  match l with
  | LAct (SRemove id) _ => cause k h id
  | LAct (NewReport b _ _) _ => cause_report k h b
  | LAct (Deliver e _) _ => allowed k h /\ exists b, kbundle k = Some b /\ e = b_dst b
  | LAct (Notify (IncomingBundle _)) _ => allowed k h
  | LSpawn p => match k with
                | KReceive b | KSubmit b => allowed k h /\ elsewhere k /\ describes p b
                | KJanitor => True
                | _ => False
                end
  | LAct (SUpdate p) _ => match k with KForward _ | KJanitor => has_constraint p ForwardPending = true | _ => True end
  | LAct (SPush b) _ => own_report h b \/ match k with
                | KReceive b0 => ~ fatal b0 /\ LAct (SAdd b0) (Some true) ∈ h /\
                    exists l, b = with_blocks b0 l /\ remove_indices (b_blocks b0) (marks (b_blocks b0) 0 []) = Some l
                | KSubmit b0 => b = b0 /\ h = []
                | _ => False
                end
  | _ => True
  end.
Ltac asm := rewrite <- ?app_assoc.
Lemma sync_some p : has_constraints (p_cons p) = true -> sync p = call (SUpdate p).
Proof. unfold sync. by intros ->. Qed.

Lemma report_cause k (Q : list label -> unit -> Prop) h p st rs :
  gen_reports = true -> known k h p ->
  (forall hs, Q (h ++ hs) tt) -> safe (I_cause k) Q h (send_status_report p st rs).
Proof.
  intros Hg Hk HQ. assert (HQ0 : Q h tt) by (specialize (HQ []); by rewrite app_nil_r in HQ).
  unfold send_status_report. destruct (p_admin p) eqn:Ea; [done|]. cbn [orb].
  destruct (bool_decide (p_src p = DtnNone)) eqn:Es; [done|]. apply bool_decide_eq_false in Es.
  apply safe_bind, safe_call. intros ob. split; [done|]. destruct ob as [b|]; [|apply HQ].
  apply safe_bind, safe_call. intros e. split; [done|]. asm. destruct e; [apply HQ|].
  apply safe_bind, safe_call. intros out. split.
  { split; [done|]. exists h, p. done. }
  destruct out as [out|]; [|exact Logic.I]. apply safe_bind, safe_call. intros ok. split.
  { left. exists b, st, rs. inh. }
  asm. destruct ok; [|apply HQ]. apply safe_bind, safe_call. intros now. split; [done|]. asm.
  apply safe_bind. unfold sync. cbn [has_constraints]. sx; cbn [I_cause].
  - by destruct k.
  - asm. apply HQ.
  - done.
  - asm. apply HQ.
Qed.
Lemma delete_cause k (Q : list label -> bool -> Prop) h p rs :
  has_constraint p LocalEndpoint = false -> known k h p -> (forall hs, cause k (h ++ hs) (p_id p)) ->
  (forall r hs, Q (h ++ hs) r) -> safe (I_cause k) Q h (delete_bundle p rs).
Proof.
  intros Hl Hk Hc HQ. unfold Pipeline.delete_bundle.
  assert (Hsync : forall hs, safe (I_cause k) Q (h ++ hs) (sync (with_cons p (clear_c (p_cons p))))).
  { intros hs. unfold sync. cbn [p_cons with_cons]. unfold clear_c. unfold has_constraint in Hl. rewrite Hl. cbn.
    intros r. split; [apply Hc|]. asm. apply HQ. }
  apply safe_bind, safe_call. intros ob. split; [done|]. destruct ob as [b|]; [|apply HQ].
  apply safe_bind. destruct (_ && _) eqn:E; [|apply Hsync].
  apply andb_true_iff in E as [_ E]. apply report_cause; [done|by apply known_mono|]. intros. asm. apply Hsync.
Qed.
Lemma fresh_cause k (Q : list label -> bool -> Prop) h b b0 i rs :
  LAct (SGet i) (Some b0) ∈ h -> same_primary b b0 -> (forall hs, cause k (h ++ hs) (bid b)) ->
  (forall r hs, Q (h ++ hs) r) -> safe (I_cause k) Q h (delete_fresh b rs).
Proof.
  intros Hb Hs Hc HQ. unfold Pipeline.delete_fresh. apply safe_bind, safe_call. intros now. split; [done|].
  apply delete_cause; [done|..].
  - right. exists i, b0. split; [inh|]. assert (Hi := same_primary_bid _ _ Hs). injection Hs as ?????????. repeat split; cbn; congruence.
  - intros. asm. apply Hc.
  - intros. asm. apply HQ.
Qed.
Lemma record_cause k (Q : list label -> bool -> Prop) h b :
  ((exists b0, kbundle k = Some b0 /\ LAct (SGet (bid b0)) (Some b) ∈ h) \/ exists s, LAct (Transfer s b) true ∈ h) ->
  (forall hs, Q (h ++ hs) (sound_record b)) -> safe (I_cause k) Q h (record_valid b).
Proof.
  intros Hb HQ. assert (HQ0 : Q h (sound_record b)) by (specialize (HQ []); by rewrite app_nil_r in HQ).
  unfold Pipeline.record_valid. unfold sound_record, record_of in *. destruct (bf_admin (b_flags b)) eqn:Ea; [|done]. cbn [andb] in *.
  destruct (block_by_type PAYLOAD_BLOCK b) as [[? ? ? [d| | | |]]|] eqn:Ep; try done.
  destruct (parse_record d) as [ar|] eqn:Er; [|done].
  rewrite bool_decide_eq_true_2 in HQ, HQ0 by eauto. apply safe_bind. unfold inspect_status_report.
  destruct ar as [l ref|]; [|done]. destruct l as [|x l]; [done|].
  apply safe_bind, safe_call. intros kn. split; [done|]. destruct kn; [|apply HQ].
  destruct (length (x :: l) =? MAX_STATUS_INFORMATION_POS)%nat eqn:El; [|apply HQ].
  apply Nat.eqb_eq in El.
  assert (Hc : forall hs, cause k ((h ++ [LAct (SHas ref) true]) ++ hs) ref).
  { intros hs. apply cause_mono. eapply (c_report _ _ _ b (x :: l)); [|done| |done|inh].
    - destruct Hb as [(b0 & ? & ?)|[s ?]]; [left; exists b0; split; [done|]|right; exists s]; inh.
    - unfold record_of. by rewrite Ep. }
  assert (HQ' : forall hs, safe (I_cause k) Q ((h ++ [LAct (SHas ref) true]) ++ hs) (Ret true)) by (intros hs; asm; apply HQ).
  clear El Er HQ. revert HQ' Hc. generalize (h ++ [LAct (SHas ref) true]). clear. generalize (x :: l) 0%nat. clear x l.
  induction l as [|x l IH]; intros n h HQ Hc; cbn [inspect_items].
  - specialize (HQ []). by rewrite app_nil_r in HQ.
  - destruct (n =? DELIVERED_BUNDLE)%nat; [|by apply IH].
    apply safe_bind, safe_call. intros r. split; [specialize (Hc []); by rewrite app_nil_r in Hc|].
    apply IH; intros; asm; [apply HQ|apply Hc].
Qed.
Lemma local_cause k (Q : list label -> bool -> Prop) h p b0 :
  kbundle k = Some b0 -> describes p b0 -> has_constraint p LocalEndpoint = false -> origin k h p -> allowed k h ->
  (forall r hs, Q (h ++ hs) r) -> safe (I_cause k) Q h (local_delivery p).
Proof.
  intros Hk Hd Hl Ho Ha HQ. destruct Hd as (Hsrc & Hdst & _ & _ & Hid & Hadm).
  assert (Hkk : exists b, k = KReceive b \/ k = KSubmit b) by (destruct k; try done; eauto).
  assert (Hup : forall h p r, I_cause k h (LAct (SUpdate p) r)) by (destruct Hkk as (? & [-> | ->]); done).
  unfold Pipeline.local_delivery. apply safe_bind, safe_call. intros ob. split; [done|].
  destruct ob as [b|]; [|apply HQ].
  apply safe_bind.
  assert (Hrec : safe (I_cause k) (fun h' valid => exists hs, h' = (h ++ [LAct (SGet (p_id p)) (Some b)]) ++ hs /\ (valid = false -> p_admin p = true /\ sound_record b = false)) (h ++ [LAct (SGet (p_id p)) (Some b)])
                   (if p_admin p then record_valid b else Ret true)).
  { destruct (p_admin p); [apply record_cause|].
    - left. exists b0. split; [done|]. rewrite <- Hid. inh.
    - intros hs. exists hs. done.
    - exists []. by rewrite app_nil_r. }
  eapply safe_mono; [done| |exact Hrec]. clear Hrec. intros h' valid (hs & -> & Hv). cbv zeta.
  destruct valid; cbn [negb].
  2: { destruct (Hv eq_refl) as [Hpa Hs]. apply safe_bind, delete_cause; [done|left; by apply origin_mono, origin_mono|..].
    - intros hs'. apply cause_mono, cause_mono. apply (c_record _ _ _ b0 b); [done|congruence|inh|done|done].
    - intros. asm. apply HQ. }
  asm. apply safe_bind.
  assert (Hc1 : has_constraints (p_cons (add_constraint p LocalEndpoint)) = true).
  { unfold has_constraints. rewrite bool_decide_eq_false_2; [done|]. by destruct p as [???????[]]. }
  rewrite (sync_some _ Hc1). apply safe_call. intros r. split; [apply Hup|]. destruct r; [|asm; apply HQ]. asm.
  apply safe_bind.
  assert (Hmid : safe (I_cause k) (fun h' q => exists hs, h' = h ++ hs /\ has_constraints (p_cons q) = true /\ p_dst q = p_dst p) (h ++ [LAct (SGet (p_id p)) (Some b)] ++ hs ++ [LAct (SUpdate (add_constraint p LocalEndpoint)) true])
     (if is_local_node_id host (p_dst (add_constraint p LocalEndpoint))
      then (if bf_rep_deliv (b_flags b) && negb (bf_admin (b_flags b)) && gen_reports
            then send_status_report (add_constraint p LocalEndpoint) DELIVERED_BUNDLE NO_INFORMATION else Ret tt) ;;;
           Ret (with_cons (add_constraint p LocalEndpoint) (clear_c (p_cons (add_constraint p LocalEndpoint))))
      else Ret (add_constraint (add_constraint p LocalEndpoint) ForwardPending))%prog).
  { assert (Hc2 : has_constraints (p_cons (with_cons (add_constraint p LocalEndpoint) (clear_c (p_cons (add_constraint p LocalEndpoint))))) = true).
    { unfold has_constraints. rewrite bool_decide_eq_false_2; [done|]. by destruct p as [???????[]]. }
    destruct (is_local_node_id _ _).
    - apply safe_bind. destruct (_ && _) eqn:E.
      + apply andb_true_iff in E as [_ E]. apply report_cause; [done|left; by apply origin_mono, origin_cons|].
        intros hs'. asm. cbn [gsafe]. eexists. done.
      + cbn [gsafe]. eexists. done.
    - cbn [gsafe]. eexists. split; [done|]. split; [|done]. unfold has_constraints. rewrite bool_decide_eq_false_2; [done|]. by destruct p as [???????[]]. }
  eapply safe_mono; [done| |exact Hmid]. clear Hmid. intros h' q (hs' & -> & Hq & Hqd).
  apply safe_bind. rewrite (sync_some _ Hq). apply safe_call. intros r. split; [apply Hup|]. destruct r; [|asm; apply HQ]. asm.
  apply safe_bind, safe_call. intros hd. split.
  { cbn [I_cause]. split; [by apply allowed_mono|]. exists b0. split; [done|]. congruence. }
  asm. destruct hd; [apply HQ|..].
  - apply safe_bind, safe_call. intros []. split; [done|]. asm. apply HQ.
  - apply safe_bind. unfold remove_if_singleton. destruct (eid_non_singleton (b_dst b)) eqn:En.
    + cbn [gsafe]. apply safe_bind, safe_call. intros []. split; [done|]. asm. apply HQ.
    + apply safe_bind, safe_call. intros r. split.
      { cbn [I_cause]. eapply (c_handed _ _ _ (p_dst q) b); [eauto|inh|done|done]. }
      cbn [gsafe]. apply safe_bind, safe_call. intros []. split; [done|]. asm. apply HQ.
Qed.
Lemma dispatch_cause k (Q : list label -> bool -> Prop) h p b0 :
  kbundle k = Some b0 -> describes p b0 -> has_constraint p LocalEndpoint = false -> origin k h p -> allowed k h ->
  (forall r hs, Q (h ++ hs) r) -> safe (I_cause k) Q h (dispatch p).
Proof.
  intros Hk Hd Hl Ho Ha HQ. unfold Pipeline.dispatch. apply safe_bind, safe_call. intros ob. split; [done|].
  destruct ob as [b|]; [|done]. apply safe_bind, safe_call. intros []. split; [by apply allowed_mono|].
  apply safe_bind, safe_call. intros e. split; [done|]. asm. apply safe_bind.
  assert (Hrest : forall r hs, safe (I_cause k) Q (h ++ hs)
     (if (r : bool) then if is_local_node_id host (p_dst p) then Ret true else Spawn p (Ret true) else Ret false)).
  { intros r hs. destruct r; [|apply HQ]. destruct (is_local_node_id _ _) eqn:El; [apply HQ|].
    split; [|cbn; asm; apply HQ]. cbn [I_cause].
    assert (elsewhere k) by (unfold elsewhere; rewrite Hk; destruct Hd as (_ & <- & _); done).
    assert (Ha' := allowed_mono _ _ hs Ha).
    destruct k; try done; injection Hk as ->; done. }
  destruct e.
  - eapply local_cause; [done|done|done|by apply origin_mono|by apply allowed_mono|]. intros r hs. asm. apply Hrest.
  - cbn [gsafe]. apply (Hrest true).
Qed.
Lemma scan_cause b (Q : list label -> option (list nat) -> Prop) h p l i rm :
  has_constraint p LocalEndpoint = false -> origin (KReceive b) h p -> LAct (SAdd b) (Some true) ∈ h -> p_id p = bid b ->
  (forall x, x ∈ l -> x ∈ b_blocks b) ->
  (fatal b -> forall hs, Q (h ++ hs) None) ->
  ((forall x, x ∈ l -> 11 <= k_type x -> kf_delete (k_flags x) = false) -> forall hs, Q (h ++ hs) (Some (marks l i rm))) ->
  safe (I_cause (KReceive b)) Q h (scan_blocks p l i rm).
Proof.
  intros Hp. revert h i rm. induction l as [|x l IH]; intros h i rm Ho Ha Hid Hsub HN HQ; cbn [Pipeline.scan_blocks marks] in *.
  { specialize (HQ ltac:(by intros ? ?%elem_of_nil) []). by rewrite app_nil_r in HQ. }
  destruct (k_type x <? 11) eqn:Ex.
  { apply IH; try done; [intros; apply Hsub; by right|]. intros Hf. apply HQ. intros y Hy. apply elem_of_cons in Hy as [->|Hy]; [lia|by apply Hf]. }
  apply safe_bind.
  assert (Hrest : forall hs, safe (I_cause (KReceive b)) Q (h ++ hs)
    (if kf_delete (k_flags x) then delete_bundle p BLOCK_UNINTELLIGIBLE ;;; Ret None
        else scan_blocks p l (S i) (if kf_remove (k_flags x) then rm ++ [i] else rm))).
  { intros hs. destruct (kf_delete _) eqn:Ek.
    - assert (fatal b) by (exists x; split; [apply Hsub; left|]; split; [lia|done]).
      apply safe_bind, delete_cause; [done|left; by apply origin_mono|..].
      + intros hs'. rewrite Hid. apply cause_mono. apply (c_block _ _ _ b); [done|inh|done|done].
      + intros. asm. by apply HN.
    - apply IH; [by apply origin_mono|inh|done|intros; apply Hsub; by right|intros; asm; by apply HN|].
      intros Hf hs'. asm. apply HQ. intros y Hy. apply elem_of_cons in Hy as [->|Hy]; [done|by apply Hf]. }
  destruct (_ && _) eqn:E.
  - apply andb_true_iff in E as [_ E]. apply report_cause; [done|by left|]. apply Hrest.
  - cbn [gsafe]. specialize (Hrest []). by rewrite app_nil_r in Hrest.
Qed.
Lemma receive_cause b (Q : list label -> bool -> Prop) :
  (forall r hs, Q hs r) -> safe (I_cause (KReceive b)) Q [] (receive b).
Proof.
  intros HQ. unfold Pipeline.receive. apply safe_bind, safe_call. intros r. split; [done|].
  destruct r as [[]|]; [| |by cbn]. 2: { sx; cbn; try done. }
  apply safe_bind, safe_call. intros []. split; [done|].
  apply safe_bind, safe_call. intros now. split; [done|]. cbv zeta.
  set (p := add_constraint _ _).
  assert (Ho : origin (KReceive b) [LAct (SAdd b) (Some true); LAct (Count Incoming) tt; LAct Clock now] p).
  { apply origin_cons. left. exists b. split; [|split; [done|by left]]. cbn. do 2 right. left. }
  assert (Hd : describes p b) by done.
  apply safe_bind. unfold sync. rewrite (eq_refl : has_constraints (p_cons p) = true).
  apply safe_call. intros r. split; [done|]. destruct r; [|apply HQ].
  apply safe_bind.
  assert (Hrest : forall hs, safe (I_cause (KReceive b)) Q ([LAct (SAdd b) (Some true); LAct (Count Incoming) tt; LAct Clock now] ++ hs)
    (let* rm := scan_blocks p (b_blocks b) 0 [] in
      match rm with
      | None => Ret true
      | Some rm =>
          match remove_indices (b_blocks b) rm with
          | None => Panic
          | Some l =>
              call (SPush (with_blocks b l)) ?;;
              dispatch p ;;; Ret true
          end
      end)).
  { intros hs. apply safe_bind, scan_cause; [done|by apply origin_mono|left|done|done|intros; apply HQ|].
    intros Hf hs'. assert (~ fatal b) as Hnf. { intros (x & Hx & Ht & Hk). rewrite (Hf x Hx Ht) in Hk. done. }
    destruct (remove_indices _ _) as [l|] eqn:Erm; [|done].
    apply safe_bind, safe_call. intros r. split. { right. split; [done|]. split; [left|]. exists l. done. }
    destruct r; [|apply HQ]. apply safe_bind. asm. eapply dispatch_cause; [done|done|done|by apply origin_mono|split; [done|left]|]. intros. apply HQ. }
  destruct (_ && _) eqn:E.
  - apply andb_true_iff in E as [_ E]. apply report_cause; [done|left; exact (origin_mono _ _ [_] _ Ho)|]. intros hs. asm. apply Hrest.
  - cbn [gsafe]. apply Hrest.
Qed.
Lemma submit_cause b (Q : list label -> bool -> Prop) :
  (forall r hs, Q hs r) -> safe (I_cause (KSubmit b)) Q [] (submit b).
Proof.
  intros HQ. unfold Pipeline.submit, transmit. apply safe_bind, safe_call. intros r.
  split; [by right|]. destruct r; [|apply HQ].
  apply safe_bind, safe_call. intros now. split; [done|]. cbv zeta. set (p := add_constraint _ _).
  assert (Ho : origin (KSubmit b) [LAct (SPush b) true; LAct Clock now] p).
  { apply origin_cons. left. exists b. split; [|split; [done|by left]]. cbn. right. left. }
  apply safe_bind. unfold sync. rewrite (eq_refl : has_constraints (p_cons p) = true).
  apply safe_call. intros r. split; [done|]. destruct r; [|apply HQ].
  apply safe_bind. change (p_src p) with (b_src b).
  destruct (bool_decide (b_src b = DtnNone)) eqn:Es.
  { apply bool_decide_eq_true in Es. cbn [gsafe]. eapply dispatch_cause; [done|done|done|exact (origin_mono _ _ [_] _ Ho)|by left|by intros]. }
  apply bool_decide_eq_false in Es.
  apply safe_call. intros ok. split; [done|]. asm. destruct ok.
  - eapply dispatch_cause; [done|done|done|exact (origin_mono _ _ [_;_] _ Ho)|right; cbn; inh|by intros].
  - apply delete_cause; [done|left; exact (origin_mono _ _ [_;_] _ Ho)| |by intros].
    intros hs. apply cause_mono. apply (c_source _ _ _ b); try done. cbn. inh.
Qed.
Lemma hop_stage_some b b1 : hop_stage b = Some b1 -> same_primary b1 b /\
  block_by_type BUNDLE_AGE_BLOCK b1 = block_by_type BUNDLE_AGE_BLOCK b.
Proof.
  unfold hop_stage. destruct (block_by_type HOP_COUNT_BLOCK b) as [[? ? ? []]|]; try (intros [= <-]; done).
  destruct (_ <? _); [done|]. intros [= <-]. split; [done|]. unfold block_by_type. cbn [b_blocks with_blocks].
  clear. induction (b_blocks b) as [|x l IH]; [done|]. cbn [update_first]. destruct (k_type x =? HOP_COUNT_BLOCK) eqn:E; cbn [List.find]; [|by rewrite IH].
  cbn [k_type set_data]. apply N.eqb_eq in E. rewrite E. cbn. done.
Qed.
Lemma prev_stage_some b b1 : prev_stage host b = Some b1 -> same_primary b1 b /\
  block_by_type BUNDLE_AGE_BLOCK b1 = block_by_type BUNDLE_AGE_BLOCK b.
Proof.
  unfold prev_stage. destruct (block_by_type PREVIOUS_NODE_BLOCK b) as [[? ? ? []]|]; try (intros [= <-]; done).
  intros [= <-]. split; [done|]. unfold block_by_type. cbn [b_blocks with_blocks].
  clear. induction (b_blocks b) as [|x l IH]; [done|]. cbn [update_first]. destruct (k_type x =? PREVIOUS_NODE_BLOCK) eqn:E; cbn [List.find]; [|by rewrite IH].
  cbn [k_type set_data]. apply N.eqb_eq in E. rewrite E. cbn. done.
Qed.
Lemma age_stage_primary b la b1 : age_stage b la b1 -> same_primary b1 b.
Proof.
  unfold age_stage. destruct (block_by_type _ _) as [[? ? ? []]|]; try (intros (? & _ & ->); done); [|by intros [_ ->]].
  intros [[_ ->]|(? & ? & _ & [[_ ->]|(_ & _ & ->)])]; done.
Qed.
Lemma hop_cause k (Q : list label -> option bundle -> Prop) h b i :
  fwd_kind k ->
  LAct (SGet i) (Some b) ∈ h ->
  (forall hs, Q (h ++ hs) None) -> (forall b', hop_stage b = Some b' -> Q h (Some b')) ->
  safe (I_cause k) Q h (handle_hop_count gen_reports b).
Proof.
  intros Hkk Hb HN HS. unfold handle_hop_count, hop_stage in *.
  destruct (block_by_type HOP_COUNT_BLOCK b) as [[? ? ? []]|] eqn:Eb; try (by apply HS).
  cbv zeta in *. destruct (limit <? (count + 1) mod 256) eqn:E; [|by apply HS].
  apply safe_bind. eapply (fresh_cause _ _ _ _ b); [done|done|..].
  - intros hs. apply cause_mono. apply (c_hops _ _ _ i b); [done|done| |done]. unfold hop_stage. by rewrite Eb, E.
  - intros _ hs. apply HN.
Qed.
Lemma age_cause k (Q : list label -> option bundle -> Prop) h b b0 i :
  fwd_kind k ->
  LAct (SGet i) (Some b0) ∈ h -> same_primary b b0 -> block_by_type BUNDLE_AGE_BLOCK b = block_by_type BUNDLE_AGE_BLOCK b0 ->
  (forall hs, Q (h ++ hs) None) -> (forall l b', age_stage b l b' -> Q (h ++ l) (Some b')) ->
  safe (I_cause k) Q h (handle_age gen_reports b).
Proof.
  intros Hkk Hb Hs Hab HN HS. unfold handle_age, age_stage in *.
  destruct (block_by_type BUNDLE_AGE_BLOCK b) as [[? ? ? d]|] eqn:Eb.
  2: { cbn. specialize (HS [] b (conj eq_refl eq_refl)). by rewrite app_nil_r in HS. }
  destruct d; try (apply safe_bind, safe_call; intros r; split; [done|]; cbn; by eauto).
  apply safe_bind, safe_call. intros om. split; [done|].
  destruct om as [m|]; [|cbn; apply HS; by left].
  apply safe_bind, safe_call. intros now. split; [done|]. cbv zeta. asm.
  destruct (new_age age now (p_recv m) =? 0) eqn:Ea.
  { cbn. apply HS. right. exists m, now. split; [done|]. left. apply N.eqb_eq in Ea. done. }
  apply N.eqb_neq in Ea. cbn [b_life with_blocks].
  destruct (b_life b * 1000 <=? new_age age now (p_recv m)) eqn:El.
  - apply N.leb_le in El. apply safe_bind. eapply (fresh_cause _ _ _ _ b0); [inh|done|..].
    + intros hs. apply cause_mono. rewrite bid_with. assert (Hi := same_primary_bid _ _ Hs). rewrite Hi.
      assert (Hlife : b_life b = b_life b0) by (by injection Hs). rewrite Hlife in El.
      apply (c_age _ _ _ i b0 age m now); [done|inh| |rewrite <- Hi; inh|inh|done|done].
      by rewrite <- Hab.
    + intros _ hs. cbn [gsafe]. asm. apply HN.
  - apply N.leb_gt in El. cbn [gsafe]. apply HS. right. exists m, now. split; [done|]. by right.
Qed.
Lemma forward_cause k (Q : list label -> bool -> Prop) h p :
  fwd_kind k ->
  origin k h p -> (forall r hs, Q (h ++ hs) r) -> safe (I_cause k) Q h (forward p).
Proof.
  intros Hkk Ho HQ. unfold Pipeline.forward. rewrite sync_forwarding.
  assert (Hfp : has_constraint (forwarding p) ForwardPending = true) by (by destruct p as [???????[]]).
  apply safe_bind, safe_call. intros r. split; [by destruct k|]. destruct r; [|apply HQ].
  apply safe_bind, safe_call. intros ans. split; [done|]. asm.
  destruct ans as [[nodes del]|]; [|apply HQ]. destruct nodes as [|n nodes].
  { destruct del; [|apply HQ]. intros r. split; [|cbn; asm; apply HQ]. cbn [I_cause].
    apply (c_dropped _ _ _ (forwarding p)); [done|inh|done]. }
  apply safe_bind, safe_call. intros ob. split; [done|]. destruct ob as [b|]; [|asm; apply HQ]. asm.
  set (h' := _ ++ _). assert (Hh : exists hs, h' = h ++ hs) by (by eexists).
  assert (Hg : LAct (SGet (p_id p)) (Some b) ∈ h') by (unfold h'; inh).
  assert (Hrt : LAct (Route (forwarding p)) (Some (n :: nodes, del)) ∈ h') by (unfold h'; inh).
  clearbody h'. destruct Hh as [hs0 ->].
  unfold forward_copy, handle_lifetime. apply safe_bind, safe_bind, safe_call. intros over. split; [done|].
  destruct over.
  { apply safe_bind. eapply (fresh_cause _ _ _ _ b (p_id p)); [apply elem_of_app; by left|done|..].
    - intros hs. apply cause_mono. apply (c_lifetime _ _ _ (p_id p) b); [done|apply elem_of_app; by left|apply elem_last|done].
    - intros. asm. cbn [gsafe]. apply HQ. }
  cbn [gsafe]. asm. set (hs1 := hs0 ++ _). assert (Hg1 : LAct (SGet (p_id p)) (Some b) ∈ h ++ hs1) by (unfold hs1; rewrite app_assoc; apply elem_of_app; by left).
  assert (Hrt1 : LAct (Route (forwarding p)) (Some (n :: nodes, del)) ∈ h ++ hs1) by (unfold hs1; rewrite app_assoc; apply elem_of_app; by left).
  clearbody hs1. clear Hg Hrt.
  apply safe_bind. eapply hop_cause; [done|done|intros; asm; apply HQ|]. intros b1 Hb1. apply hop_stage_some in Hb1 as [Hs1 Ha1].
  apply safe_bind, prev_safe. intros b2 Hb2. apply prev_stage_some in Hb2 as [Hs2 Ha2].
  assert (Hs12 : same_primary b2 b) by (unfold same_primary in *; congruence).
  apply safe_bind. eapply age_cause; [done|done|done|congruence|intros; asm; apply HQ|]. intros la b3 Hb3. apply age_stage_primary in Hb3.
  assert (Hs3 : same_primary b3 b) by (unfold same_primary in *; congruence). asm.
  intros hs cs' Hcs. destruct (csteps_emits _ _ _ _ Hcs (send_all_sub (p_id (forwarding p)) b3 (n :: nodes))) as [H1 _]. split.
  { intros ha l hb ->. apply Forall_app in H1 as [_ H1]. apply Forall_cons in H1 as [Hl _]. destruct l as [[]| |]; try done.
    by destruct n0. }
  intros bs Hbs. split; [done|]. asm. unfold after_transfers. destruct (existsb id bs) eqn:Eex; [|apply HQ].
  destruct (par_flags _ _ _ _ _ _ Hcs Hbs) as [[Hfl _] _].
  destruct (Hfl Eex) as (s & Hs).
  assert (Hsn : s ∈ n :: nodes).
  { rewrite Forall_forall in H1. specialize (H1 _ Hs). by apply H1. }
  assert (Hs' : forall hs', LAct (Transfer s b3) true ∈ h ++ hs1 ++ la ++ hs ++ [LJoin] ++ hs') by (intros; rewrite !elem_of_app; auto).
  apply safe_bind.
  assert (Hrest : forall hs', safe (I_cause k) Q (h ++ hs1 ++ la ++ hs ++ [LJoin] ++ hs')
    (if del then call (SRemove (p_id (forwarding p)))
     else if bf_admin (b_flags b3) then record_valid b3 ;;; contraindicated (forwarding p) else Ret true)).
  { intros hs'. destruct del; [|destruct (bf_admin _); [|apply HQ]].
    - intros r. split; [|cbn; asm; apply HQ]. cbn [I_cause].
      eapply (c_routed _ _ _ (forwarding p) (n :: nodes) s b3 b); [done| |done|done| |done|apply Hs'].
      + rewrite app_assoc. apply elem_of_app. by left.
      + rewrite app_assoc. apply elem_of_app. by left.
    - apply safe_bind, record_cause; [right; exists s; apply Hs'|]. intros hs''. unfold contraindicated, sync.
      assert (Hcc : has_constraints (p_cons (add_constraint (forwarding p) Contraindicated)) = true).
      { unfold has_constraints. rewrite bool_decide_eq_false_2; [done|]. by destruct p as [???????[]]. }
      rewrite Hcc. apply safe_call. intros r. split; [destruct k; try done; by destruct p as [???????[]]|]. asm. apply HQ. }
  destruct (_ && _) eqn:E.
  - apply andb_true_iff in E as [_ E].
    apply report_cause; [done|left; apply origin_mono; by apply origin_cons, origin_cons|]. intros hs'. asm. apply Hrest.
  - cbn [gsafe]. specialize (Hrest []). by rewrite app_nil_r in Hrest.
Qed.
Lemma all_cause k : safe (I_cause k) (fun _ _ => True) [] (task_of k).
Proof.
  destruct k; cbn [Pipeline.task_of].
  - apply safe_bind, receive_cause. done.
  - apply safe_bind, submit_cause. done.
  - apply safe_bind, forward_cause; [done| |done]. right. eauto.
  - unfold Pipeline.process_bundles. apply safe_bind, safe_call. intros r. split; [done|].
    apply safe_bind.
    assert (Hexp : forall l h, (forall p, p ∈ l -> p ∈ r) -> LAct SPacks r ∈ h -> 
      safe (I_cause KJanitor) (fun h' _ => exists hs, h' = h ++ hs) h (remove_expired l)).
    { induction l as [|p l IH]; intros h Hl Hin; cbn [remove_expired]; [exists []; by rewrite app_nil_r|].
      apply safe_bind, safe_call. intros now. split; [done|].
      assert (Hrest : forall hs, safe (I_cause KJanitor) (fun h' _ => exists hs, h' = h ++ hs) (h ++ hs) (remove_expired l)).
      { intros hs. eapply safe_mono; [done| |apply IH; [intros; apply Hl; by right|inh]].
        intros h' _ (hs' & ->). asm. eauto. }
      apply safe_bind. destruct (has_expired now p) eqn:E; [|apply Hrest].
      apply safe_bind, safe_call. intros rr. split; [|asm; apply Hrest].
      cbn [I_cause]. apply (c_expired _ _ _ r p now); [done|inh|apply Hl; left|inh|done|done]. }
    eapply safe_mono; [done| |apply Hexp; [by intros ? [_ ?]%elem_of_list_filter|left]].
    intros h' _ (hs & ->). sx; try done.
    assert (Hload : forall ids h, safe (I_cause KJanitor) (fun h' ps => exists hs, h' = h ++ hs /\ Forall (origin KJanitor h') ps) h (load_packs ids)).
    { induction ids as [|id ids IH]; intros h; cbn [load_packs].
      - exists []. by rewrite app_nil_r.
      - apply safe_bind, safe_call. intros om. split; [done|]. apply safe_bind.
        eapply safe_mono; [done| |apply IH]. intros h' ps (hs' & -> & HF). cbn [gsafe]. rewrite <- app_assoc in *.
        eexists. split; [done|]. destruct om as [q|]; [|done]. destruct (has_constraint q Deleted); [done|].
        constructor; [|done]. right. exists q. split; [done|]. right. exists id.
        apply elem_of_app. right. by left. }
    eapply safe_mono; [done| |apply Hload]. intros h' ps (hs' & -> & HF).
    match goal with |- gsafe _ _ _ ?h0 _ => assert (HF' : Forall (origin KJanitor h0) (merge_sort by_time ps)) by (by rewrite merge_sort_Permutation); revert HF'; generalize h0 end.
    generalize (merge_sort by_time ps). clear.
    induction l as [|q l IH]; intros h0 HF; cbn [forward_all]; [done|].
    apply Forall_cons in HF as [Hq HF]. destruct parallel.
    + split; [done|]. apply IH. eapply Forall_impl; [done|]. intros. by apply origin_mono.
    + apply safe_bind, forward_cause; [done|done|]. intros _ hs1. apply IH. eapply Forall_impl; [done|]. intros. by apply origin_mono.
  - unfold app_pop, remove_if_singleton. sx; try done. cbn [I_cause]. subst. eapply (c_popped _ _ _ e b); [done|left|done|done].
  - unfold user_delete. sx; try done. by apply c_user.
Qed.

(** ** Tasks that must remove their bundle, once they have ended *)
Definition stuck (h : list label) : Prop := exists b st rs, LAct (NewReport b st rs) None ∈ h.
Definition settled (id : string) (h : list label) : Prop :=
  (exists r, LAct (SRemove id) r ∈ h) \/ LAct (SGet id) None ∈ h \/
  (exists p, LAct (SUpdate p) false ∈ h) \/ (exists b, LAct (SPush b) false ∈ h).
Lemma stuck_mono h hs : stuck h -> stuck (h ++ hs).
Proof. intros (b & st & rs & ?). exists b, st, rs. inh. Qed.
Lemma settled_mono id h hs : settled id h -> settled id (h ++ hs).
Proof.
  unfold settled. intros [[x H]|[H|[[x H]|[x H]]]]; [left; exists x|right; left|right; right; left; exists x|right; right; right; exists x];
    apply elem_of_app; by left.
Qed.
Notation any := (fun (_ : list label) (_ : label) => True).
Lemma report_post (Q : list label -> unit -> Prop) (P : list label -> Prop) h p st rs :
  (forall hs, Q (h ++ hs) tt) -> (forall hs, stuck (h ++ hs) -> P (h ++ hs)) -> gsafe any Q P h (send_status_report p st rs).
Proof.
  intros HQ HP. assert (HQ0 : Q h tt) by (specialize (HQ []); by rewrite app_nil_r in HQ).
  unfold send_status_report. destruct (_ || _); [done|].
  apply safe_bind, safe_call. intros ob. split; [done|]. destruct ob as [b|]; [|apply HQ].
  apply safe_bind, safe_call. intros e. split; [done|]. asm. destruct e; [apply HQ|].
  apply safe_bind, safe_call. intros out. split; [done|]. asm.
  destruct out as [out|]; [|apply HP; exists b, st, rs; inh]. apply safe_bind, safe_call. intros ok. split; [done|].
  asm. destruct ok; [|apply HQ]. apply safe_bind, safe_call. intros now. split; [done|]. asm.
  apply safe_bind. unfold sync. destruct (has_constraints _); apply safe_call; intros; (split; [done|]); asm; apply HQ.
Qed.
Lemma delete_post (Q : list label -> bool -> Prop) (P : list label -> Prop) h p rs :
  has_constraint p LocalEndpoint = false -> (forall r hs, settled (p_id p) (h ++ hs) -> Q (h ++ hs) r) ->
  (forall hs, stuck (h ++ hs) -> P (h ++ hs)) ->
  gsafe any Q P h (delete_bundle p rs).
Proof.
  intros Hl HQ HP. unfold Pipeline.delete_bundle.
  assert (Hsync : forall hs, gsafe any Q P (h ++ hs) (sync (with_cons p (clear_c (p_cons p))))).
  { intros hs. unfold sync. cbn [p_cons with_cons]. unfold clear_c. unfold has_constraint in Hl. rewrite Hl. cbn.
    intros r. split; [done|]. asm. apply HQ. left. exists r. inh. }
  apply safe_bind, safe_call. intros ob. split; [done|]. destruct ob as [b|]; [|apply HQ; right; left; inh].
  apply safe_bind. destruct (_ && _); [|apply Hsync]. apply report_post; intros hs; asm; [apply Hsync|apply HP].
Qed.
Lemma submit_post b :
  gsafe any (fun h _ => b_src b <> DtnNone -> LAct (HasEndpoint (b_src b)) true ∈ h \/ settled (bid b) h)
            (fun h => b_src b <> DtnNone -> LAct (HasEndpoint (b_src b)) true ∈ h \/ stuck h) [] (submit b).
Proof.
  unfold Pipeline.submit, transmit. apply safe_bind, safe_call. intros r. split; [done|].
  destruct r; [|intros _; right; right; right; right; exists b; left].
  apply safe_bind, safe_call. intros now. split; [done|]. cbv zeta. set (p := add_constraint _ _).
  apply safe_bind. unfold sync. rewrite (eq_refl : has_constraints (p_cons p) = true).
  apply safe_call. intros r. split; [done|]. destruct r; [|intros _; right; right; right; left; exists p; inh].
  apply safe_bind. change (p_src p) with (b_src b).
  destruct (bool_decide (b_src b = DtnNone)) eqn:Es.
  { apply bool_decide_eq_true in Es. cbn [gsafe]. eapply (gsafe_emits front); [apply dispatch_front|done|by intros|by intros]. }
  apply bool_decide_eq_false in Es.
  apply safe_call. intros ok. split; [done|]. destruct ok.
  - eapply (gsafe_emits front); [apply dispatch_front|done|..]; intros; left; inh.
  - apply delete_post; [done|..]; intros; by right.
Qed.
Lemma scan_post (Q : list label -> option (list nat) -> Prop) (P : list label -> Prop) h p l i rm :
  has_constraint p LocalEndpoint = false ->
  (forall hs, settled (p_id p) (h ++ hs) -> Q (h ++ hs) None) ->
  ((forall x, x ∈ l -> 11 <= k_type x -> kf_delete (k_flags x) = false) -> forall hs, Q (h ++ hs) (Some (marks l i rm))) ->
  (forall hs, stuck (h ++ hs) -> P (h ++ hs)) ->
  gsafe any Q P h (scan_blocks p l i rm).
Proof.
  intros Hp. revert h i rm. induction l as [|x l IH]; intros h i rm HN HQ HP; cbn [Pipeline.scan_blocks marks] in *.
  { specialize (HQ ltac:(by intros ? ?%elem_of_nil) []). by rewrite app_nil_r in HQ. }
  destruct (k_type x <? 11) eqn:Ex.
  { apply IH; try done. intros Hf. apply HQ. intros y Hy. apply elem_of_cons in Hy as [->|Hy]; [lia|by apply Hf]. }
  apply safe_bind.
  assert (Hrest : forall hs, gsafe any Q P (h ++ hs)
    (if kf_delete (k_flags x) then delete_bundle p BLOCK_UNINTELLIGIBLE ;;; Ret None
        else scan_blocks p l (S i) (if kf_remove (k_flags x) then rm ++ [i] else rm))).
  { intros hs. destruct (kf_delete _) eqn:Ek.
    - apply safe_bind, delete_post; [done|..]; [intros r hs'|intros hs']; asm; [apply HN|apply HP].
    - apply IH; [intros hs'; asm; apply HN| |intros hs'; asm; apply HP].
      intros Hf hs'. asm. apply HQ. intros y Hy. apply elem_of_cons in Hy as [->|Hy]; [done|by apply Hf]. }
  destruct (_ && _) eqn:E.
  - apply report_post; [apply Hrest|apply HP].
  - cbn [gsafe]. specialize (Hrest []). by rewrite app_nil_r in Hrest.
Qed.
Lemma receive_post b :
  gsafe any (fun h _ => fatal b -> LAct (SAdd b) (Some true) ∈ h -> settled (bid b) h)
            (fun h => fatal b -> stuck h) [] (receive b).
Proof.
  unfold Pipeline.receive. apply safe_bind, safe_call. intros r. split; [done|].
  destruct r as [[]|].
  2: { apply safe_bind, safe_call. intros []. split; [done|]. intros _ Hin. cbn in Hin.
       apply elem_of_cons in Hin as [E|Hin]; [by apply lact_inj in E|]. by apply elem_of_list_singleton in Hin. }
  2: { cbn. intros _ Hin. apply elem_of_list_singleton in Hin. by apply lact_inj in Hin. }
  apply safe_bind, safe_call. intros []. split; [done|].
  apply safe_bind, safe_call. intros now. split; [done|]. cbv zeta.
  set (p := add_constraint _ _).
  apply safe_bind. unfold sync. rewrite (eq_refl : has_constraints (p_cons p) = true).
  apply safe_call. intros r. split; [done|]. destruct r; [|intros _ _; right; right; left; exists p; inh].
  apply safe_bind.
  match goal with |- gsafe ?I ?Q ?P ?h ?m => assert (Hrest : forall hs, Q (h ++ hs) tt) end.
  { intros hs. apply safe_bind, scan_post; [done|intros hs0 H; cbn [gsafe]; intros _ _; exact H| |intros hs0 H _; exact H].
    intros Hf hs'. assert (~ fatal b) as Hnf. { intros (x & Hx & Ht & Hk). rewrite (Hf x Hx Ht) in Hk. done. }
    destruct (remove_indices _ _) as [l|] eqn:Erm; [|intros ?; by destruct Hnf].
    apply safe_bind, safe_call. intros r. split; [done|]. destruct r; [|intros ?; by destruct Hnf].
    apply safe_bind. eapply (gsafe_emits front); [apply dispatch_front|done|..]; intros; try intros ?; by destruct Hnf. }
  destruct (_ && _) eqn:E.
  - apply report_post; [exact Hrest|intros hs0 H _; exact H].
  - cbn [gsafe]. specialize (Hrest []). by rewrite app_nil_r in Hrest.
Qed.
(** which task can do what after its end *)
Definition Q_post (k : kind) (h : list label) : Prop :=
  match k with
  | KSubmit b => b_src b <> DtnNone -> LAct (HasEndpoint (b_src b)) true ∈ h \/ settled (bid b) h \/ stuck h
  | KReceive b => fatal b -> LAct (SAdd b) (Some true) ∈ h -> settled (bid b) h \/ stuck h
  | _ => True
  end.
Lemma emits_all {A} (p : prog A) : emits (fun _ => True) p.
Proof.
  assert (Hc : forall c, cemits (fun _ => True) c) by (induction c; cbn; auto).
  induction p; cbn; auto. split; [|done]. by apply Forall_forall.
Qed.
Lemma all_post k : gsafe any (fun h _ => Q_post k h) (Q_post k) [] (task_of k).
Proof.
  destruct k; cbn [Pipeline.task_of].
  3-6: (eapply (gsafe_emits (fun _ => True)); [apply emits_all|done..]).
  - apply safe_bind. eapply gsafe_mono; [done| | |apply receive_post]; cbn; tauto.
  - apply safe_bind. eapply gsafe_mono; [done| | |apply submit_post]; cbn; tauto.
Qed.
End cause.
