(** What a round of the janitor does to the bundles of a node (for C141-C143).
    The node may have been started with bundles in its store. *)
From stdpp Require Import prelude strings pretty gmap sorting.
From Coq Require Import NArith Lia Eqdep_dec.
From Verif Require Import Core StoreMem Peers Routing Pipeline PipelineBase PipelineProofs PipelineInv.
Open Scope N_scope.

(** the attempts a task begins, by the query of the agent or as a new task *)
Definition attempts (h : list label) : list pack :=
  omap (fun l => match l with LSpawn p => Some p | LAct (Route p) _ => Some p | _ => None end) h.
Definition calm (l : label) : Prop := match l with LSpawn _ => False | LAct (Route _) _ => False | _ => True end.
Lemma house_calm l : house l -> calm l.
Proof. by destruct l as [[]| |]. Qed.
Lemma attempts_app h1 h2 : attempts (h1 ++ h2) = attempts h1 ++ attempts h2.
Proof. apply omap_app. Qed.
Lemma attempts_calm h : Forall calm h -> attempts h = [].
Proof.
  induction 1 as [|l h Hl _ IH]; [done|]. unfold attempts in *. cbn.
  destruct l as [[]| |]; try done.
Qed.

Section janitor.
Context (host : eid) (gen_reports parallel : bool) (parse_record : list N -> option arecord)
        (lifetime_exceeded : N -> bundle -> bool).
Notation forward := (forward host gen_reports parse_record).
Notation forward_copy := (forward_copy host gen_reports parse_record).
Notation forward_all := (forward_all host gen_reports parallel parse_record).
Notation process_bundles := (process_bundles host gen_reports parallel parse_record).
Notation task_of := (task_of host gen_reports parallel parse_record).
Notation mstep := (mstep host gen_reports parallel parse_record lifetime_exceeded).
Notation path := (path host gen_reports parallel parse_record lifetime_exceeded).
Notation access := (access host lifetime_exceeded).
Notation any := (fun (_ : list label) (_ : label) => True).

(** an attempt for [p] was begun *)
Definition begun (h : list label) (p : pack) : Prop :=
  if parallel then LSpawn p ∈ h
  else LAct (SUpdate (forwarding p)) false ∈ h \/ exists a, LAct (Route (forwarding p)) a ∈ h.
Lemma begun_l h h' p : begun h p -> begun (h ++ h') p.
Proof.
  unfold begun. destruct parallel.
  - intros H. apply elem_of_app. by left.
  - intros [H|[a H]]; [left|right; exists a]; apply elem_of_app; by left.
Qed.
Lemma begun_r h h' p : begun h' p -> begun (h ++ h') p.
Proof.
  unfold begun. destruct parallel.
  - intros H. apply elem_of_app. by right.
  - intros [H|[a H]]; [left|right; exists a]; apply elem_of_app; by right.
Qed.

Lemma send_one_calm id b s : cemits calm (send_one id b s).
Proof.
  unfold send_one. cbn. intros ok. split; [done|]. destruct ok; cbn; intros []; (split; [done|]); destruct (eid_node (sd_hop s)); cbn; try done.
  intros []. split; [done|]. intros [x|]; (split; [done|]); cbn; done.
Qed.
Lemma copy_calm p nodes del b : emits calm (forward_copy p nodes del b).
Proof.
  assert (Hh : forall A (q : prog A), emits house q -> emits calm q) by (intros A q; apply emits_mono, house_calm).
  unfold Pipeline.forward_copy, handle_lifetime, handle_hop_count, handle_previous_node, handle_age.
  emit; try done; try (apply Hh, delete_fresh_house).
  cbn [emits]. split; [|split; [done|intros bs; apply Hh, after_house]].
  apply Forall_forall. intros c Hc. apply elem_of_list_fmap in Hc as (s & -> & _). apply send_one_calm.
Qed.
(** one attempt made by the task itself *)
Lemma forward_begins h p (Q : list label -> bool -> Prop) :
  (forall hs a, (LAct (SUpdate (forwarding p)) false ∈ hs \/ exists a, LAct (Route (forwarding p)) a ∈ hs) -> attempts hs = [] \/ attempts hs = [forwarding p] -> Q (h ++ hs) a) ->
  safe any Q h (forward p).
Proof.
  intros HQ. unfold Pipeline.forward. rewrite sync_forwarding.
  apply safe_bind, safe_call. intros r. split; [done|]. set (u := LAct (SUpdate (forwarding p)) r).
  destruct r; [|apply HQ; [left; left|by left]].
  apply safe_bind, safe_call. intros ans. split; [done|]. rewrite <- app_assoc. cbn [app].
  set (q := LAct (Route (forwarding p)) ans).
  assert (Hu : forall hs, LAct (SUpdate (forwarding p)) false ∈ u :: q :: hs \/ exists a, LAct (Route (forwarding p)) a ∈ u :: q :: hs) by (intros; right; exists ans; right; left).
  assert (Hrest : forall A (m : prog A) (f : A -> bool), emits calm m ->
    gsafe any (fun h' a => Q h' (f a)) (fun _ => True) (h ++ [u; q]) m).
  { intros A m f Hm. eapply (safe_emits calm); [exact Hm|done|]. intros hs a Hhs. rewrite <- app_assoc. apply HQ; [apply Hu|].
    right. change (attempts ([u; q] ++ hs) = [forwarding p]). rewrite attempts_app, (attempts_calm hs) by done. done. }
  assert (Hd : forall a, Q (h ++ [u; q]) a) by (intros; apply HQ; [apply Hu|by right]).
  destruct ans as [[[|n nodes] del]|]; [| |apply Hd].
  - destruct del; [|apply Hd]. apply (Hrest _ _ id). intros r. done.
  - eapply safe_mono; [done| |apply (Hrest _ _ id)]; [done|].
    emit; try done; apply copy_calm.
Qed.
Lemma all_begins ps h (Q : list label -> unit -> Prop) : StronglySorted by_time ps ->
  (forall hs, (forall p, p ∈ ps -> begun hs p) -> StronglySorted by_time (attempts hs) ->
     (forall q, q ∈ attempts hs -> exists p, p ∈ ps /\ p_id q = p_id p /\ p_time q = p_time p) -> Q (h ++ hs) tt) ->
  safe any Q h (forward_all ps).
Proof.
  revert h Q. induction ps as [|p ps IH]; intros h Q Hs HQ; cbn [Pipeline.forward_all].
  { cbn [gsafe]. specialize (HQ []). rewrite app_nil_r in HQ. apply HQ; [by intros p ?%elem_of_nil|constructor|by intros q ?%elem_of_nil]. }
  apply StronglySorted_inv in Hs as [Hs Hp].
  assert (Hcons : forall h1 hs, (forall q, q ∈ attempts h1 -> p_id q = p_id p /\ p_time q = p_time p) -> (length (attempts h1) <= 1)%nat -> begun h1 p ->
     (forall p, p ∈ ps -> begun hs p) -> StronglySorted by_time (attempts hs) ->
     (forall q, q ∈ attempts hs -> exists p, p ∈ ps /\ p_id q = p_id p /\ p_time q = p_time p) -> Q (h ++ h1 ++ hs) tt).
  { intros h1 hs H1 Hl Hb Hbs Hss Hq. apply HQ.
    - intros p' [-> |Hin]%elem_of_cons; [by apply begun_l|by apply begun_r, Hbs].
    - rewrite attempts_app. destruct (attempts h1) as [|x [|y l]] eqn:E; cbn in Hl; [done| |lia].
      cbn. constructor; [done|]. apply Forall_forall. intros q Hin. destruct (Hq q Hin) as (p' & Hp' & _ & Ht).
      unfold by_time. rewrite Ht. destruct (H1 x) as [_ ->]; [left|]. rewrite Forall_forall in Hp. by apply Hp.
    - intros q. rewrite attempts_app. intros [Hin|Hin]%elem_of_app.
      + exists p. split; [left|by apply H1].
      + destruct (Hq q Hin) as (p' & Hp' & Hx). exists p'. split; [by right|done]. }
  destruct parallel eqn:Epar.
  - split; [done|]. apply IH; [done|]. intros hs Hb Hss Hq. rewrite <- app_assoc. apply Hcons; try done.
    + intros q Hin. by apply elem_of_list_singleton in Hin as ->.
    + unfold begun. rewrite Epar. left.
  - apply safe_bind. apply forward_begins. intros h1 a Hu Ha. apply IH; [done|]. intros hs Hb Hss Hq.
    rewrite <- app_assoc. apply Hcons; try done.
    + intros q. destruct Ha as [-> | ->]; [by intros ?%elem_of_nil|]. by intros ->%elem_of_list_singleton.
    + destruct Ha as [-> | ->]; cbn; lia.
    + unfold begun. by rewrite Epar.
Qed.
Lemma load_begins ids h (Q : list label -> list pack -> Prop) :
  (forall hs ps, Forall calm hs ->
     (forall id, id ∈ ids -> exists om, LAct (SMeta id) om ∈ hs /\ forall p, om = Some p -> has_constraint p Deleted = false -> p ∈ ps) ->
     (forall p, p ∈ ps -> exists id, id ∈ ids /\ LAct (SMeta id) (Some p) ∈ hs) -> Q (h ++ hs) ps) ->
  safe any Q h (load_packs ids).
Proof.
  revert h Q. induction ids as [|id ids IH]; intros h Q HQ; cbn [load_packs].
  { cbn [gsafe]. specialize (HQ [] []). rewrite app_nil_r in HQ. apply HQ; [constructor|by intros ? ?%elem_of_nil..]. }
  apply safe_bind, safe_call. intros om. split; [done|]. apply safe_bind. apply IH. intros hs ps Hc H1 H2. cbn [gsafe].
  rewrite <- app_assoc. apply HQ.
  - by constructor.
  - intros id' [-> |Hin]%elem_of_cons.
    + exists om. split; [left|]. intros p -> Hd. rewrite Hd. left.
    + destruct (H1 id' Hin) as (om' & Ho & Hp). exists om'. split; [by right|]. intros p E Hd.
      specialize (Hp p E Hd). destruct om as [p0|]; [|done]. destruct (has_constraint p0 Deleted); [done|by right].
  - assert (Hps : forall p, p ∈ ps -> exists id', id' ∈ id :: ids /\ LAct (SMeta id') (Some p) ∈ LAct (SMeta id) om :: hs).
    { intros p Hin. destruct (H2 p Hin) as (id' & Ha & Hb). exists id'. split; by right. }
    intros p Hin. destruct om as [p0|]; [|by apply Hps]. destruct (has_constraint p0 Deleted); [by apply Hps|].
    apply elem_of_cons in Hin as [-> |Hin]; [|by apply Hps]. exists id. split; left.
Qed.
Lemma expired_removes ps h (Q : list label -> unit -> Prop) :
  (forall hs, Forall calm hs -> (forall p, p ∈ ps -> exists h1 now h2, hs = h1 ++ LAct DtnClock now :: h2 /\
     (has_expired now p = true -> exists r, LAct (SRemove (p_id p)) r ∈ h2)) -> Q (h ++ hs) tt) ->
  safe any Q h (remove_expired ps).
Proof.
  revert h Q. induction ps as [|p ps IH]; intros h Q HQ; cbn [remove_expired].
  { cbn [gsafe]. specialize (HQ []). rewrite app_nil_r in HQ. apply HQ; [constructor|by intros ? ?%elem_of_nil]. }
  apply safe_bind, safe_call. intros now. split; [done|]. apply safe_bind.
  assert (Hgo : forall h1, Forall calm h1 -> (has_expired now p = true -> exists r, LAct (SRemove (p_id p)) r ∈ h1) ->
    safe any Q ((h ++ [LAct DtnClock now]) ++ h1) (remove_expired ps)).
  { intros h1 Hc Hr. apply IH. intros hs Hcs H. rewrite <- !app_assoc. apply HQ.
    - constructor; [done|]. by apply Forall_app.
    - intros p' [-> |Hin]%elem_of_cons.
      + exists [], now, (h1 ++ hs). split; [done|]. intros He. destruct (Hr He) as [r Hx]. exists r. apply elem_of_app. by left.
      + destruct (H p' Hin) as (ha & now' & hb & -> & Hx). exists ([LAct DtnClock now] ++ h1 ++ ha), now', hb.
        split; [by rewrite <- !app_assoc|done]. }
  destruct (has_expired now p) eqn:Ee.
  - apply safe_bind, safe_call. intros r. split; [done|]. cbn [gsafe]. apply Hgo; [by repeat constructor|].
    intros _. exists r. left.
  - cbn [gsafe]. specialize (Hgo []). rewrite app_nil_r in Hgo. by apply Hgo.
Qed.

(** ** The history of a round that was completed *)
Definition tidied (h : list label) : Prop :=
  exists h0 ps h1, h = h0 ++ LAct SPacks ps :: h1 /\ forall p, p ∈ ps -> has_constraint p Deleted = false ->
    exists ha now hb, h1 = ha ++ LAct DtnClock now :: hb /\ (has_expired now p = true -> exists r, LAct (SRemove (p_id p)) r ∈ hb).
Definition looked (h : list label) : Prop :=
  exists h0 ids h1, h = h0 ++ LAct SForwarding ids :: h1 /\
    forall id, id ∈ ids -> exists om, LAct (SMeta id) om ∈ h1 /\ forall p, om = Some p -> has_constraint p Deleted = false -> begun h1 p.
Definition round (h : list label) : Prop :=
  tidied h /\ (LAct Accepting false ∈ h \/ looked h) /\ StronglySorted by_time (attempts h).
Lemma tidied_app h h' : tidied h -> tidied (h ++ h').
Proof.
  intros (h0 & ps & h1 & -> & H). exists h0, ps, (h1 ++ h'). split; [by rewrite <- app_assoc|].
  intros p Hp Hd. destruct (H p Hp Hd) as (ha & now & hb & -> & Hx). exists ha, now, (hb ++ h'). split; [by rewrite <- app_assoc|].
  intros He. destruct (Hx He) as [r Hr]. exists r. apply elem_of_app. by left.
Qed.
Lemma janitor_round : safe any (fun h _ => round h) [] process_bundles.
Proof.
  unfold Pipeline.process_bundles. apply safe_bind, safe_call. intros ps. split; [done|].
  apply safe_bind. apply expired_removes. intros hs Hc Hr. cbn [app].
  assert (Ht : tidied (LAct SPacks ps :: hs)).
  { exists [], ps, hs. split; [done|]. intros p Hp Hd. apply Hr. by apply elem_of_list_filter. }
  assert (Ha0 : attempts (LAct SPacks ps :: hs) = []) by (apply attempts_calm; by constructor).
  apply safe_bind, safe_call. intros acc. split; [done|]. destruct acc.
  2: { cbn [gsafe]. split; [by apply (tidied_app (_ :: _))|]. split; [left; apply elem_of_app; right; left|].
       rewrite attempts_app, Ha0. constructor. }
  apply safe_bind, safe_call. intros ids. split; [done|]. apply safe_bind. apply load_begins. intros h2 ps2 Hc2 H1 H2.
  apply all_begins.
  { apply StronglySorted_merge_sort.
    - intros a b c. unfold by_time. lia.
    - intros a b. unfold by_time. lia. }
  intros h3 Hb Hs Hq. rewrite <- !app_assoc. split; [by apply (tidied_app (_ :: _))|]. split.
  - right. exists ((LAct SPacks ps :: hs) ++ [LAct Accepting true]), ids, (h2 ++ h3). split; [by rewrite <- !app_assoc|].
    intros id Hid. destruct (H1 id Hid) as (om & Ho & Hp). exists om. split; [apply elem_of_app; by left|].
    intros p E Hd. apply begun_r, Hb. rewrite merge_sort_Permutation. by apply Hp.
  - rewrite !attempts_app, Ha0, (attempts_calm h2) by done. done.
Qed.

(** ** Executions of a node that was started with a filled store *)
Lemma path_split m0 t1 t2 m : path m0 (t1 ++ t2) m -> exists m1, path m0 t1 m1 /\ path m1 t2 m.
Proof.
  revert m0. induction t1 as [|e t1 IH]; intros m0 H; cbn in H.
  - exists m0. split; [constructor|done].
  - inversion H as [|? ? m1 ? ? Hs Hp]; subst. destruct (IH _ Hp) as (m2 & H1 & H2). exists m2. split; [by econstructor|done].
Qed.
Lemma path_did m0 tr m i k p : m_tasks m0 = [] -> path m0 tr m -> m_tasks m !! i = Some (k, p) -> ptrace (task_of k) (did i tr) p.
Proof.
  intros H0.
  assert (Hall : forall tr m, path m0 tr m -> (forall j, (length (m_tasks m) <= j)%nat -> did j tr = []) /\
    (forall j k p, m_tasks m !! j = Some (k, p) -> ptrace (task_of k) (did j tr) p)); [|intros Hp; by apply Hall].
  clear tr m i k p. intros tr. induction tr as [|e tr IH] using rev_ind; intros m Hp.
  { inversion Hp; subst. rewrite H0. split; [done|]. by intros j k p ?. }
  apply path_split in Hp as (m1 & Hp & He). inversion He as [|? ? m2 ? ? Hs Hn]; subst. inversion Hn; subst.
  destruct (IH _ Hp) as [IHn IHd]. clear IH He Hn Hp.
  assert (Hother : forall j, did j (tr ++ [e]) = did j tr ++ did j [e]) by (intros; apply did_app).
  destruct Hs as [m1 k0 _|m1 ep|m1 ep|m1 ep on|m1 ps|m1 u d _ _|m1 i k0 p0 o r p' n' Hj Hp _|m1 i k0 p0 q p' Hj Hp|m1 i k0 p0 p' Hj Hp]; cbn [m_tasks with_node].
  2: { assert (E : m_tasks (if has_endpoint ep (m_node m1) then m1 else with_node m1 (set_eps (m_node m1) (n_eps (m_node m1) ++ [Endpoint ep [] false]))) = m_tasks m1) by (by case_match).
       rewrite E. split; [intros j Hj|intros j k p Hj]; rewrite Hother; cbn; rewrite app_nil_r; [by apply IHn|by apply IHd]. }
  2-5: split; [intros j Hj|intros j k p Hj]; rewrite Hother; cbn; rewrite app_nil_r; [by apply IHn|by apply IHd].
  - split.
    + intros j Hj. rewrite Hother. cbn. rewrite app_nil_r. apply IHn. rewrite app_length in Hj. lia.
    + intros j k p Hj. rewrite Hother. cbn. rewrite app_nil_r. apply lookup_app_Some in Hj as [Hj|[Hlen Hj]]; [by apply IHd|].
      rewrite IHn by done. apply list_lookup_singleton_Some in Hj as [_ Hj]. injection Hj as <- <-. constructor.
  - split.
    + intros j Hl. rewrite insert_length in Hl. rewrite Hother, IHn by done. cbn.
      rewrite decide_False; [done|]. intros ->. apply lookup_lt_Some in Hj. lia.
    + intros j k p Hl. rewrite Hother. cbn. destruct (decide (j = i)) as [->|Hne].
      * rewrite list_lookup_insert in Hl by (by eapply lookup_lt_Some). injection Hl as <- <-. eapply ptrace_snoc; [by apply IHd|done].
      * rewrite list_lookup_insert_ne in Hl by done. rewrite app_nil_r. by apply IHd.
  - split.
    + intros j Hl. rewrite app_length, insert_length in Hl. rewrite Hother, IHn by lia. cbn.
      rewrite decide_False; [done|]. intros ->. apply lookup_lt_Some in Hj. lia.
    + intros j k p Hl. rewrite Hother. cbn. apply lookup_app_Some in Hl as [Hl|[Hlen Hl]].
      * destruct (decide (j = i)) as [->|Hne].
        -- rewrite list_lookup_insert in Hl by (by eapply lookup_lt_Some). injection Hl as <- <-. eapply ptrace_snoc; [by apply IHd|done].
        -- rewrite list_lookup_insert_ne in Hl by done. rewrite app_nil_r. by apply IHd.
      * rewrite insert_length in Hlen. rewrite IHn by done. apply list_lookup_singleton_Some in Hl as [_ Hl]. injection Hl as <- <-.
        rewrite decide_False; [constructor|]. intros ->. apply lookup_lt_Some in Hj. lia.
  - split.
    + intros j Hl. rewrite insert_length in Hl. rewrite Hother, IHn by done. cbn.
      rewrite decide_False; [done|]. intros ->. apply lookup_lt_Some in Hj. lia.
    + intros j k p Hl. rewrite Hother. cbn. destruct (decide (j = i)) as [->|Hne].
      * rewrite list_lookup_insert in Hl by (by eapply lookup_lt_Some). injection Hl as <- <-. eapply ptrace_snoc; [by apply IHd|done].
      * rewrite list_lookup_insert_ne in Hl by done. rewrite app_nil_r. by apply IHd.
Qed.
Lemma path_access m0 t1 i o r t2 m : path m0 (t1 ++ EStep i (LAct o r) :: t2) m ->
  exists m1 m2, path m0 t1 m1 /\ access (m_node m1) o r (m_node m2) /\ path m2 t2 m /\ path m1 (EStep i (LAct o r) :: t2) m.
Proof.
  intros H. apply path_split in H as (m1 & H1 & H2). inversion H2 as [|? ? m2 ? ? Hs Hp]; subst. exists m1, m2.
  split_and!; [done| |done|done]. clear H2. inversion Hs; subst.
  repeat match goal with H : existT _ _ = existT _ _ |- _ => apply (inj_pair2_eq_dec _ (fun x y => decide (x = y))) in H end.
  subst. done.
Qed.
Lemma path_dtn m0 tr m : path m0 tr m -> n_dtn (m_node m0) <= n_dtn (m_node m).
Proof.
  induction 1 as [m|m e m1 es m' Hs Hp IH]; [lia|]. etrans; [|exact IH]. clear -Hs.
  destruct Hs as [m k0 _|m ep|m ep|m ep on|m ps|m u d _ Hd|m i k0 p0 o r p' n' Hj Hp Ha|m i k0 p0 q p' Hj Hp|m i k0 p0 p' Hj Hp]; cbn; try lia.
  - case_match; cbn; lia.
  - destruct o; cbn in Ha; repeat (case_match || destruct_or? Ha || destruct_and? Ha); subst; cbn; lia.
Qed.
Lemma janitor_did m0 tr m i : m_tasks m0 = [] -> path m0 tr m -> m_tasks m !! i = Some (KJanitor, Ret tt) -> round (did i tr).
Proof.
  intros H0 Hp Hi. assert (Ht := path_did _ _ _ _ _ _ H0 Hp Hi).
  apply (safe_ret any (fun h _ => round h) (fun _ => True) _ _ tt [] Ht). apply janitor_round.
Qed.
End janitor.
