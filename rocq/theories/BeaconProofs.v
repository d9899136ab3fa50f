(** Proofs about discovery. *)
From stdpp Require Import prelude strings pretty gmap.
From Coq Require Import NArith ZArith Lia ZifyBool ZifyN ZifyNat.
From Verif Require Import Bytes Cbor CborProofs Core Peers Routing Beacon.
Open Scope N_scope.

(** ** Beacons on the wire *)
Fixpoint has_slash (s : string) : bool :=
  match s with "" => false | String c s => bool_decide (c = slash) || has_slash s end.
Lemma str_app_assoc s t u : (s +:+ t) +:+ u = s +:+ (t +:+ u).
Proof. induction s as [|c s IH]; [done|]. change ((String c s +:+ t) +:+ u) with (String c ((s +:+ t) +:+ u)). by rewrite IH. Qed.
Lemma str_app_nil s : s +:+ "" = s.
Proof. induction s as [|c s IH]; [done|]. change (String c s +:+ "") with (String c (s +:+ "")). by rewrite IH. Qed.
Lemma split_slash_app n s acc : has_slash n = false -> split_slash (n +:+ String slash s) acc = Some (acc +:+ n, s).
Proof.
  revert acc. induction n as [|c n IH]; intros acc H.
  - change ("" +:+ String slash s) with (String slash s). cbn [split_slash]. rewrite bool_decide_true by done.
    f_equal. f_equal. by rewrite str_app_nil.
  - change (String c n +:+ String slash s) with (String c (n +:+ String slash s)). cbn [split_slash].
    cbn [has_slash] in H. apply orb_false_iff in H as [H1 H2]. rewrite H1. rewrite IH by done.
    by rewrite str_app_assoc.
Qed.
Definition eid_fits (e : eid) : Prop :=
  match e with
  | DtnNone => True
  | Dtn n s => has_slash n = false /\ utf8 (bytes_of (dtn_text n s)) = true /\ N.of_nat (String.length (dtn_text n s)) < 2^64
  | Ipn n s => n < 2^64 /\ s < 2^64
  end.
Lemma eid_of_dtn n s : has_slash n = false -> eid_of_text (dtn_text n s) = Some (Dtn n s).
Proof.
  intros H. unfold dtn_text. change ("//" +:+ n +:+ "/" +:+ s) with (String slash (String slash (n +:+ String slash s))).
  cbn [eid_of_text]. rewrite !bool_decide_true by done. cbn [andb]. rewrite split_slash_app by done. done.
Qed.
Lemma de_uint_text lim s r : N.of_nat (String.length s) < 2^64 -> de_uint lim (enc_text s ++ r) = DErr.
Proof. intros H. unfold de_uint, enc_text, dbind. rewrite <- app_assoc, value_enc by done. done. Qed.
Lemma de_eid_enc e r : eid_fits e -> de_eid (enc_eid e ++ r) = DOk e r.
Proof.
  intros H. unfold de_eid, enc_eid, dbind. destruct e as [|n s|n s]; rewrite <- !app_assoc, value_enc by done; cbn [N.eqb Pos.eqb].
  - rewrite de_uint_enc by done. change (1 =? 1) with true. cbv beta iota. by rewrite de_uint_enc.
  - destruct H as (H1 & H2 & H3). rewrite de_uint_enc by done. change (1 =? 1) with true. cbv beta iota.
    rewrite de_uint_text by done. rewrite de_text_enc by done. by rewrite eid_of_dtn.
  - destruct H as [H1 H2]. rewrite de_uint_enc by done. change (2 =? 1) with false. change (2 =? 2) with true. cbv beta iota.
    rewrite (de_tuple_enc _ _ (fun n => n < 2^64) _ _ (fun n => n < 2^64)); try done; intros; by apply de_uint_enc.
Qed.

Definition cla_fits (c : string * option N) : Prop :=
  utf8 (bytes_of (fst c)) = true /\ N.of_nat (String.length (fst c)) < 2^64 /\ forall p, snd c = Some p -> p < 2^16.
Definition service_fits (x : N * bytes) : Prop :=
  fst x < 2^8 /\ bytes_ok (snd x) /\ N.of_nat (length (snd x)) < 2^64.
Definition block_fits (sb : sblock) : Prop :=
  N.of_nat (length (sb_clas sb)) < 2^64 /\ Forall cla_fits (sb_clas sb) /\
  forall t p, sb_services sb !! t = Some p -> service_fits (t, p).
Lemma services_few (m : gmap N bytes) : (forall t p, m !! t = Some p -> t < 2^8) -> N.of_nat (size m) < 2^64.
Proof.
  intros H. rewrite <- size_dom. assert (Hs : dom m ⊆@{gset N} list_to_set (map N.of_nat (seq 0 256))).
  { intros t Ht. apply elem_of_dom in Ht as [p Hp]. apply H in Hp. apply elem_of_list_to_set, elem_of_list_fmap.
    exists (N.to_nat t). split; [lia|]. apply elem_of_seq. cbn in Hp. lia. }
  apply subseteq_size in Hs. apply (N.le_lt_trans _ 256); [|done].
  assert (size (list_to_set (map N.of_nat (seq 0 256)) : gset N) = 256%nat) as E by (vm_compute; done).
  rewrite E in Hs. lia.
Qed.
Lemma cla_enc c r : cla_fits c -> de_tuple de_text (de_opt (de_uint (2^16))) (enc_cla c ++ r) = DOk c r.
Proof.
  intros (H1 & H2 & H3). destruct c as [s o]. unfold enc_cla. rewrite <- !app_assoc.
  apply (de_tuple_enc de_text enc_text (fun s => utf8 (bytes_of s) = true /\ N.of_nat (String.length s) < 2^64)
          (de_opt (de_uint (2^16))) enc_opt (fun o => forall p, o = Some p -> p < 2^16)).
  - intros x r' [? ?]. by apply de_text_enc.
  - intros x r' Hx. by apply de_opt_enc.
  - done.
  - done.
Qed.
Lemma payload_enc p r : bytes_ok p -> N.of_nat (length p) < 2^64 -> de_seq (de_uint (2^8)) (enc_seq enc_uint p ++ r) = DOk p r.
Proof.
  intros H1 H2. apply (de_seq_enc _ _ (fun b => b < 256)); [|intros; apply enc_head_nonempty|done|done].
  intros a r' Ha. by apply de_uint_enc.
Qed.
Lemma list_to_map_perm (m : gmap N bytes) ord : ord ≡ₚ map_to_list m -> list_to_map (reverse ord) = m.
Proof.
  intros H. rewrite <- (list_to_map_to_list m). apply list_to_map_proper; [|by rewrite reverse_Permutation].
  rewrite reverse_Permutation, H. apply NoDup_fst_map_to_list.
Qed.
Lemma de_block_enc ord sb r : block_fits sb -> ord ≡ₚ map_to_list (sb_services sb) ->
  de_block (enc_block ord sb ++ r) = DOk sb r.
Proof.
  intros (H1 & H2 & H3) Ho. unfold de_block, enc_block, dbind. destruct (sb_empty sb) eqn:E.
  - rewrite value_enc by done. unfold sb_empty in E. apply Nat.eqb_eq in E.
    destruct sb as [clas sv]. cbn in E. assert (length clas = 0%nat /\ size sv = 0%nat) as [E1 E2] by lia.
    apply nil_length_inv in E1. apply map_size_empty_iff in E2. by subst.
  - rewrite <- !app_assoc, value_enc by done.
    rewrite (de_seq_enc _ enc_cla cla_fits) by (done || apply cla_enc || (intros; by destruct (enc_head_cons 4 2) as (? & ? & -> & _))).
    rewrite (de_map_enc _ enc_uint (fun t => t < 2^8) _ (enc_seq enc_uint) (fun p => bytes_ok p /\ N.of_nat (length p) < 2^64)).
    + unfold dret. rewrite (list_to_map_perm (sb_services sb)) by done. by destruct sb.
    + intros a r' Ha. by apply de_uint_enc.
    + intros p r' [Hp Hl]. by apply payload_enc.
    + intros a. apply enc_head_nonempty.
    + rewrite Ho. apply Forall_forall. intros [t p] Ht. apply elem_of_map_to_list in Ht. apply H3 in Ht as (? & ? & ?). done.
    + rewrite (Permutation_length Ho). change (length (map_to_list (sb_services sb))) with (size (sb_services sb)). apply services_few.
      intros t p Ht. by apply H3 in Ht as [? _].
Qed.

(** beacons made with the functions of the API *)
Inductive made (parse_f32 : string -> option N) : beacon -> Prop :=
| made_new e : made parse_f32 (beacon_new e)
| made_config e sb p : made parse_f32 (with_config e sb p)
| made_seq n b : made parse_f32 b -> made parse_f32 (set_seq n b)
| made_cla n p b : made parse_f32 b -> made parse_f32 (add_cla n p b)
| made_service t x b b' : made parse_f32 b -> add_service parse_f32 t x b = Good b' -> made parse_f32 b'.
Definition flags_of (b : beacon) : N :=
  1 + (if sb_empty (bc_block b) then 0 else 2) + (match bc_period b with Some _ => 4 | None => 0 end).
Lemma empty_cla n p sb : sb_empty (sb_add_cla n p sb) = false.
Proof. unfold sb_empty, sb_add_cla. cbn. rewrite app_length. cbn. apply Nat.eqb_neq. lia. Qed.
Lemma empty_service t p sb : sb_empty (sb_add_service t p sb) = false.
Proof.
  unfold sb_empty, sb_add_service. cbn. apply Nat.eqb_neq. intros H.
  assert (size (<[t:=p]> (sb_services sb)) = 0%nat) as E by lia.
  apply map_size_empty_iff in E. by apply insert_non_empty in E.
Qed.
Lemma made_flags pf b : made pf b -> bc_version b = 7 /\ bc_flags b = flags_of b.
Proof.
  assert (Hf : forall sb sb' p (e1 : sb_empty sb' = false), N.lor (1 + (if sb_empty sb then 0 else 2) + (match p with Some _ => 4 | None => 0 end : N)) 2 =
     1 + (if sb_empty sb' then 0 else 2) + (match p : option N with Some _ => 4 | None => 0 end)).
  { intros sb sb' p ->. destruct (sb_empty sb), p; done. }
  induction 1 as [e|e sb p|n b _ [IH1 IH2]|n p b _ [IH1 IH2]|t x b b' _ [IH1 IH2] Hb].
  - done.
  - unfold with_config, flags_of. destruct p; destruct (sb_empty sb) eqn:E; cbn; rewrite ?E; done.
  - done.
  - split; [done|]. unfold flags_of in *. cbn [add_cla add_flags with_block bc_flags bc_block bc_period].
    rewrite IH2. apply Hf, empty_cla.
  - unfold add_service in Hb. destruct (build_service pf t x); try done. injection Hb as <-.
    split; [done|]. unfold flags_of in *. cbn [add_flags with_block bc_flags bc_block bc_period].
    rewrite IH2. apply Hf, empty_service.
Qed.
Definition beacon_fits (b : beacon) : Prop :=
  eid_fits (bc_eid b) /\ bc_seq b < 2^32 /\ block_fits (bc_block b) /\
  (forall ms, bc_period b = Some ms -> ms / 1000 < 2^64).
(** the period is truncated to seconds *)
Definition in_seconds (b : beacon) : beacon :=
  Beacon (bc_version b) (bc_flags b) (bc_eid b) (bc_seq b) (bc_block b) ((fun ms => ms / 1000 * 1000) <$> bc_period b).
Lemma de_beacon_enc pf b ord r : made pf b -> beacon_fits b -> ord ≡ₚ map_to_list (sb_services (bc_block b)) ->
  de_beacon (enc_beacon ord b ++ r) = DOk (in_seconds b) r.
Proof.
  intros Hm (He & Hs & Hb & Hp) Ho. destruct (made_flags _ _ Hm) as [Hv Hf]. clear Hm.
  destruct b as [v f e q sb p]. cbn [bc_version bc_flags bc_eid bc_seq bc_block bc_period] in *. subst v.
  unfold flags_of in Hf. cbn in Hf.
  unfold enc_beacon. cbn [bc_version bc_flags bc_eid bc_seq bc_block bc_period].
  unfold de_beacon, dbind, in_seconds. cbn [bc_version bc_flags bc_eid bc_seq bc_block bc_period].
  assert (Hfl : f < 2^8) by (subst f; destruct (sb_empty sb), p; done).
  rewrite <- !app_assoc.
  assert (Hn : forall n, n < 2^64 -> value (enc_head 4 n ++ enc_uint 7 ++ enc_uint f ++ enc_eid e ++ enc_uint q ++
     (if negb (sb_empty sb) then enc_block ord sb else []) ++ match p with Some ms => enc_uint (ms / 1000) | None => [] end ++ r) =
     DOk (4, Some n) (enc_uint 7 ++ enc_uint f ++ enc_eid e ++ enc_uint q ++
     (if negb (sb_empty sb) then enc_block ord sb else []) ++ match p with Some ms => enc_uint (ms / 1000) | None => [] end ++ r))
    by (intros; by apply value_enc).
  assert (Hsb : sb_empty sb = true -> sb = sb_new).
  { intros E. unfold sb_empty in E. apply Nat.eqb_eq in E. destruct sb as [clas sv]. cbn in E.
    assert (length clas = 0%nat /\ size sv = 0%nat) as [E1 E2] by lia.
    apply nil_length_inv in E1. apply map_size_empty_iff in E2. by subst. }
  destruct (sb_empty sb) eqn:E; destruct p as [ms|]; cbn [negb andb] in *.
  - rewrite bool_decide_true by done. cbn [negb andb]. rewrite Hn by done. change (5 <? 4) with false. cbv beta iota.
    rewrite !de_uint_enc by done. rewrite de_eid_enc by done. rewrite !de_uint_enc by done.
    subst f. cbv beta iota. change (N.land _ _ =? _) with false. cbv beta iota. cbn [app]. rewrite de_uint_enc by (auto || done).
    unfold dret. by rewrite (Hsb eq_refl).
  - rewrite bool_decide_false by (intros H; by apply H). cbn [negb andb]. rewrite Hn by done. change (4 <? 4) with false. cbv beta iota.
    rewrite !de_uint_enc by done. rewrite de_eid_enc by done. rewrite !de_uint_enc by done.
    unfold dret. by rewrite (Hsb eq_refl).
  - rewrite bool_decide_true by done. cbn [negb andb]. rewrite Hn by done. change (6 <? 4) with false. cbv beta iota.
    rewrite !de_uint_enc by done. rewrite de_eid_enc by done. rewrite !de_uint_enc by done.
    cbv beta iota. rewrite de_block_enc by done. rewrite de_uint_enc by (auto || done). done.
  - rewrite bool_decide_false by (intros H; by apply H). cbn [negb andb]. rewrite Hn by done. change (5 <? 4) with false. cbv beta iota.
    rewrite !de_uint_enc by done. rewrite de_eid_enc by done. rewrite !de_uint_enc by done.
    subst f. cbv beta iota. change (N.land _ _ =? _) with true. cbv beta iota. rewrite de_block_enc by done. done.
Qed.
Lemma beacon_round_trip pf b ord : made pf b -> beacon_fits b -> ord ≡ₚ map_to_list (sb_services (bc_block b)) ->
  from_slice de_beacon (enc_beacon ord b) = Good (in_seconds b).
Proof.
  intros H1 H2 H3. unfold from_slice. rewrite <- (app_nil_r (enc_beacon ord b)). by rewrite (de_beacon_enc pf b ord []).
Qed.
Lemma beacon_trailing pf b ord x r : made pf b -> beacon_fits b -> ord ≡ₚ map_to_list (sb_services (bc_block b)) ->
  from_slice de_beacon (enc_beacon ord b ++ x :: r) = Bad.
Proof. intros H1 H2 H3. unfold from_slice. by rewrite (de_beacon_enc pf b ord). Qed.

(** ** Panics while reading *)
Lemma np_eid : no_panic de_eid.
Proof.
  unfold de_eid. apply np_bind; [apply np_value|]. intros [m o].
  repeat first [apply np_fail|case_match|apply np_bind; [apply np_uint|intros]].
  - intros s. pose proof (np_uint (2^64) s). destruct (de_uint (2^64) s); [done| |done].
    revert s H. intros s _. apply np_bind; [apply np_text|]. intros; case_match; [apply np_ret|apply np_fail].
  - apply np_bind; [apply np_tuple; apply np_uint|]. intros; apply np_ret.
Qed.
Lemma eats_eid : eats de_eid.
Proof.
  unfold de_eid. apply eats_bind; [apply eats_value|]. intros [m o].
  repeat first [apply eats_fail|case_match|apply eats_bind; [apply eats_uint|intros]].
  - intros s a' r. destruct (de_uint (2^64) s) as [x r'| |] eqn:E.
    + intros [= <- <-]. by eapply eats_uint.
    + apply eats_bind; [apply eats_text|]. intros; case_match; [apply eats_ret|apply eats_fail].
    + apply eats_bind; [apply eats_text|]. intros; case_match; [apply eats_ret|apply eats_fail].
  - apply eats_bind; [apply eats_tuple; apply eats_uint|]. intros; apply eats_ret.
Qed.
(** [panics_at d]: a panic needs an indefinite array *)
Definition pan {A} (d : dec A) : Prop := forall s, d s = DPanic -> 159 ∈ s.
Lemma pan_np {A} (d : dec A) : no_panic d -> pan d.
Proof. intros H s E. by apply H in E. Qed.
Lemma pan_bind {A B} (d : dec A) (f : A -> dec B) : pan d -> eats d -> (forall a, pan (f a)) -> pan (dbind d f).
Proof.
  intros H1 H2 H3 s. unfold dbind. destruct (d s) as [a r| |] eqn:E; [|done|by auto].
  intros H. apply H3 in H. eapply suffix_in; [by eapply H2|done].
Qed.
Lemma pan_block : pan de_block.
Proof.
  intros s. unfold de_block. unfold dbind at 1. destruct (value s) as [[m o] r| |] eqn:E; [|done|by apply np_value in E].
  destruct (decide (m = 4 /\ o = None)) as [[-> ->]|Hmo]; [intros _; by eapply value_indef|].
  intros H. exfalso. destruct m as [|m]; [done|]. do 3 (destruct m as [m|m|]; try done).
  destruct o as [n|]; [|by apply Hmo]. destruct n as [|n]; [done|]. do 2 (destruct n as [n|n|]; try done).
  revert H. apply np_bind; [apply np_seq, np_tuple; [apply np_text|apply np_opt, np_uint]|]. intros.
  apply np_bind; [apply np_map; [apply np_uint|apply np_seq, np_uint]|]. intros. apply np_ret.
Qed.
Lemma eats_block : eats de_block.
Proof.
  unfold de_block. apply eats_bind; [apply eats_value|]. intros [m o].
  repeat first [apply eats_fail|apply eats_ret|case_match|intros ????; done].
  apply eats_bind; [apply eats_seq, eats_tuple; [apply eats_text|apply eats_opt, eats_uint]|]. intros.
  apply eats_bind; [apply eats_map; [apply eats_uint|apply eats_seq, eats_uint]|]. intros. apply eats_ret.
Qed.
Lemma pan_beacon : pan de_beacon.
Proof.
  intros s. unfold de_beacon. unfold dbind at 1. destruct (value s) as [[m o] r| |] eqn:E; [|done|by apply np_value in E].
  destruct (decide (m = 4 /\ o = None)) as [[-> ->]|Hmo]; [intros _; by eapply value_indef|].
  intros H. eapply suffix_in; [by eapply eats_value|]. revert r H E.
  destruct m as [|m]; [done|]. do 3 (destruct m as [m|m|]; try done). intros r H _. revert H.
  destruct o as [n|]; [|by destruct Hmo]. case_match; [done|]. revert r.
  match goal with |- forall r, ?d r = DPanic -> _ => change (pan d) end.
  apply pan_bind; [apply pan_np, np_uint|apply eats_uint|]. intros v.
  apply pan_bind; [apply pan_np, np_uint|apply eats_uint|]. intros f.
  apply pan_bind; [apply pan_np, np_eid|apply eats_eid|]. intros e.
  apply pan_bind; [apply pan_np, np_uint|apply eats_uint|]. intros q.
  assert (Hlast : forall n, pan (do sb ← de_block; do p ← de_uint (2^64);
            if n =? 6 then dret (Beacon v f e q sb (Some (p * 1000))) else dfail)).
  { intros n'. apply pan_bind; [apply pan_block|apply eats_block|]. intros sb.
    apply pan_np, np_bind; [apply np_uint|]. intros. case_match; [apply np_ret|apply np_fail]. }
  destruct n as [|n]; [apply Hlast|]. do 3 (destruct n as [n|n|]; try apply Hlast).
  - case_match.
    + apply pan_bind; [apply pan_block|apply eats_block|]. intros. apply pan_np, np_ret.
    + apply pan_np, np_bind; [apply np_uint|]. intros. apply np_ret.
  - apply pan_np, np_ret.
Qed.
