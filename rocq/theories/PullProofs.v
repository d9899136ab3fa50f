(** Proofs about digests and pulling (C51, C52, C81). *)
From stdpp Require Import prelude strings pretty gmap sorting.
From Coq Require Import NArith Lia Ascii.
From Verif Require Import Core StoreMem StoreProofs IdProofs Peers Apps Httpd HttpdProofs Pull.
Open Scope N_scope.

(** ** Order on texts *)
Lemma str_le_cons a s b t : str_le (String a s) (String b t) <->
  N_of_ascii a < N_of_ascii b \/ (a = b /\ str_le s t).
Proof.
  unfold str_le, String.leb. cbn [String.compare]. unfold Ascii.compare.
  destruct (N.compare_spec (N_of_ascii a) (N_of_ascii b)) as [He|He|He].
  - apply (f_equal ascii_of_N) in He. rewrite !ascii_N_embedding in He. subst b.
    split; [intros H; right; done|]. intros [?|[_ H]]; [lia|done].
  - split; [intros _; by left|done].
  - split; [done|]. intros [?|[-> _]]; lia.
Qed.
Lemma str_le_nil s : str_le "" s.
Proof. destruct s; done. Qed.
Lemma str_le_not_nil c s : ~ str_le (String c s) "".
Proof. done. Qed.
Global Instance str_le_trans : Transitive str_le.
Proof.
  intros s. induction s as [|a s IH]; intros [|b t] [|c u]; intros H1 H2; try done; try (by apply str_le_not_nil in H1).
  apply str_le_cons in H1, H2. apply str_le_cons.
  destruct H1 as [H1|[-> H1]], H2 as [H2|[-> H2]]; [left; lia|by left|by left|]. right. split; [done|]. by eapply IH.
Qed.
Global Instance str_le_total : Total str_le.
Proof. intros s t. unfold str_le. destruct (String.leb_total s t); auto. Qed.
Global Instance str_le_antisym : AntiSymm eq str_le.
Proof. intros s t. unfold str_le. apply String.leb_antisym. Qed.
Lemma sort_unique l1 l2 : l1 ≡ₚ l2 -> merge_sort str_le l1 = merge_sort str_le l2.
Proof.
  intros H. apply (StronglySorted_unique str_le); [apply (StronglySorted_merge_sort str_le)..|].
  by rewrite !merge_sort_Permutation.
Qed.

(** ** Which ids a store knows *)
Lemma mem_meta_pushed ops id : is_Some (m_meta (mem_run ops) !! id) -> pushed ops id.
Proof.
  induction ops as [|o ops IH] using rev_ind.
  - intros [? H]. cbn in H. by rewrite lookup_empty in H.
  - rewrite mem_run_snoc. pose proof (mem_inv_run ops) as Hi.
    assert (Hup : pushed ops id -> pushed (ops ++ [o]) id).
    { intros (now & b & Hin & Hb). exists now, b. split; [|done]. apply elem_of_app. by left. }
    destruct o as [now b|p|i]; cbn.
    + destruct (m_bundles _ !! _); [auto|]. cbn. rewrite lookup_insert_is_Some. intros [<-|[_ H]]; [|auto].
      exists now, b. split; [|done]. apply elem_of_app. right. by apply elem_of_list_singleton.
    + rewrite mem_update_spec by done. cbn. case_decide; [|auto]. rewrite lookup_insert_is_Some.
      intros [<-|[_ Hx]]; auto.
    + destruct (mem_remove_spec i _ Hi) as [-> _]. cbn. destruct (decide (id = i)) as [->|Hne].
      * rewrite lookup_alter, fmap_is_Some. auto.
      * rewrite lookup_alter_ne by done. auto.
Qed.
Lemma packs_ids ops id : id ∈ map p_id (mem_packs (mem_run ops)) <-> pushed ops id.
Proof.
  pose proof (mem_inv_run ops) as Hi. rewrite elem_of_list_fmap. split.
  - intros (p & -> & Hp). apply packs_lookup in Hp; [|done]. apply mem_meta_pushed. eauto.
  - intros H. destruct (mem_meta_forever _ _ H) as [p Hp]. unfold mem_meta_of in Hp.
    assert (p_id p = id) as <- by (eapply Hi; eauto). exists p. split; [done|]. by apply packs_lookup.
Qed.
Lemma digest_ids_spec ops id : id ∈ digest_ids (mem_run ops) <-> pushed ops id.
Proof. unfold digest_ids. rewrite merge_sort_Permutation. apply packs_ids. Qed.
Lemma digest_ids_same ops1 ops2 : (forall id, pushed ops1 id <-> pushed ops2 id) ->
  digest_ids (mem_run ops1) = digest_ids (mem_run ops2).
Proof.
  intros H. apply sort_unique, NoDup_Permutation; [apply packs_nodup, mem_inv_run..|].
  intros id. rewrite !packs_ids. apply H.
Qed.

(** ** Telling concatenations apart *)
Definition colon : ascii := ":"%char.
Lemma pretty_free_colon (x : N) : free colon (pretty x).
Proof. unfold pretty, pretty_N. case_decide; [cbn; done|]. apply pretty_digits; [|done]. intros y. by apply char_digit. Qed.
Definition plain_id (id : string) : Prop :=
  exists x r, id = x +:+ String colon r /\ String.length x = 3%nat /\ free colon x /\ free colon r.
Lemma app_eq_len s : forall t x y, String.length x = String.length y -> s +:+ x = t +:+ y -> s = t /\ x = y.
Proof.
  assert (Hlen : forall s t, String.length (s +:+ t) = (String.length s + String.length t)%nat).
  { intros s' t. induction s' as [|c s' IH]; [done|]. rewrite app_cons_s. cbn. by rewrite IH. }
  induction s as [|c s IH]; intros [|d t] x y Hl H; rewrite ?app_nil_s, ?app_cons_s in H.
  - done.
  - apply (f_equal String.length) in H. cbn in H. rewrite Hlen in H. lia.
  - apply (f_equal String.length) in H. cbn in H. rewrite Hlen in H. lia.
  - injection H as -> H. by destruct (IH t x y Hl H) as [-> ->].
Qed.
Lemma concat_inj l1 : forall l2 s1 s2, Forall plain_id l1 -> Forall plain_id l2 -> free colon s1 -> free colon s2 ->
  s1 +:+ str_concat l1 = s2 +:+ str_concat l2 -> s1 = s2 /\ l1 = l2.
Proof.
  assert (Hno : forall l s r t, l = s +:+ String colon r +:+ t -> free colon l -> False).
  { intros l s r t -> H. apply free_app in H as [_ H]. rewrite app_cons_s in H. by destruct H. }
  induction l1 as [|i1 l1 IH]; intros [|i2 l2] s1 s2 F1 F2 H1 H2 H; cbn [str_concat] in H.
  - rewrite !app_nil_r_s in H. done.
  - exfalso. apply Forall_cons in F2 as [(x & r & -> & _) _]. rewrite app_nil_r_s, app_assoc_s, <- app_assoc_s in H.
    by eapply Hno.
  - exfalso. apply Forall_cons in F1 as [(x & r & -> & _) _]. rewrite app_nil_r_s, app_assoc_s, <- app_assoc_s in H.
    symmetry in H. by eapply Hno.
  - apply Forall_cons in F1 as [(x & r & -> & Hx & Fx & Fr) F1]. apply Forall_cons in F2 as [(y & q & -> & Hy & Fy & Fq) F2].
    rewrite !app_assoc_s, <- !(app_assoc_s s1), <- !(app_assoc_s s2), !app_cons_s in H.
    apply split_first in H as [Ha H]; [|by apply free_app..]. apply app_eq_len in Ha as [-> ->]; [|congruence].
    apply IH in H as [-> ->]; done.
Qed.

Definition plain_source (e : eid) : Prop := match e with Dtn n s => free colon n /\ free colon s | _ => True end.
Lemma bid_plain b : plain_source (b_src b) -> plain_id (bid b).
Proof.
  intros H. unfold bid.
  assert (Hs : exists x r, eid_string (b_src b) = x +:+ String colon r /\ String.length x = 3%nat /\ free colon x /\ free colon r).
  { destruct (b_src b) as [|n s|n s]; cbn [eid_string plain_source] in *.
    - exists "dtn", "none". split; [done|]. split; [done|]. cbn. split_and!; done.
    - exists "dtn", ("//" +:+ n +:+ "/" +:+ s). split; [reflexivity|]. split; [done|]. destruct H.
      split; [cbn; split_and!; done|]. rewrite !free_app. cbn. split_and!; done.
    - exists "ipn", (pretty n +:+ "." +:+ pretty s). split; [reflexivity|]. split; [done|].
      split; [cbn; split_and!; done|]. rewrite !free_app. split_and!; try apply pretty_free_colon; cbn; done. }
  destruct Hs as (x & r & -> & Hl & Fx & Fr).
  exists x, (r +:+ "-" +:+ pretty (b_time b) +:+ "-" +:+ pretty (b_seq b) +:+ (if bf_fragment (b_flags b) then "-" +:+ pretty (b_off b) else "")).
  split; [by rewrite app_assoc_s, app_cons_s|]. split; [done|]. split; [done|].
  rewrite !free_app. split_and!; try apply pretty_free_colon; try done.
  destruct (bf_fragment _); [|done]. rewrite free_app. split; [cbn; done|apply pretty_free_colon].
Qed.

(** ** Pulling *)
Lemma fetch_asked dec get ids : match pl_verdict (fetch dec get ids) with
  | PSuccess => pl_asked (fetch dec get ids) = ids /\ Forall (fun id => is_Some (get id)) ids
  | PFailure => exists n id rest, ids = n ++ id :: rest /\ pl_asked (fetch dec get ids) = n ++ [id] /\ get id = None /\ Forall (fun id => is_Some (get id)) n
  | PPanic => False end.
Proof.
  induction ids as [|id ids IH]; cbn; [done|]. destruct (get id) as [x|] eqn:E; cbn.
  - assert (H : forall r, match pl_verdict r with
      | PSuccess => pl_asked r = ids /\ Forall (fun id => is_Some (get id)) ids
      | PFailure => exists n id rest, ids = n ++ id :: rest /\ pl_asked r = n ++ [id] /\ get id = None /\ Forall (fun id => is_Some (get id)) n
      | PPanic => False end ->
      match pl_verdict r with
      | PSuccess => id :: pl_asked r = id :: ids /\ Forall (fun id => is_Some (get id)) (id :: ids)
      | PFailure => exists n i rest, id :: ids = n ++ i :: rest /\ id :: pl_asked r = n ++ [i] /\ get i = None /\ Forall (fun id => is_Some (get id)) n
      | PPanic => False end).
    { intros r. destruct (pl_verdict r).
      - intros [-> H]. split; [done|]. constructor; [rewrite E; eauto|done].
      - intros (n & i & rest & -> & -> & Hi & H). exists (id :: n), i, rest. split_and!; [done..|]. constructor; [rewrite E; eauto|done].
      - done. }
    apply H in IH. destruct (dec x); exact IH.
  - exists [], id, ids. by split_and!.
Qed.
Lemma fetch_got dec get ids b : b ∈ pl_got (fetch dec get ids) <->
  exists id x, id ∈ pl_asked (fetch dec get ids) /\ get id = Some x /\ dec x = Some b.
Proof.
  induction ids as [|id ids IH]; cbn.
  - split; [by intros ?%elem_of_nil|]. by intros (? & ? & ?%elem_of_nil & _).
  - destruct (get id) as [x|] eqn:E; cbn.
    + destruct (dec x) as [b'|] eqn:D; cbn; rewrite ?elem_of_cons, IH.
      * split.
        -- intros [->|(i & y & ? & ?)]; [exists id, x; rewrite elem_of_cons; auto|exists i, y; rewrite elem_of_cons; auto].
        -- intros (i & y & Hin & Hg & Hd). apply elem_of_cons in Hin as [->|Hin]; [left; congruence|right; eauto].
      * split.
        -- intros (i & y & ? & ?). exists i, y. rewrite elem_of_cons; auto.
        -- intros (i & y & Hin & Hg & Hd). apply elem_of_cons in Hin as [->|Hin]; [congruence|eauto].
    + split; [by intros ?%elem_of_nil|]. intros (i & y & ->%elem_of_list_singleton & ? & ?). congruence.
Qed.
