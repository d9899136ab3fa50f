(** Services, receiver and announcer. *)
From stdpp Require Import prelude strings pretty gmap relations.
From Coq Require Import NArith ZArith Lia ZifyBool ZifyN ZifyNat.
From Verif Require Import Bytes Cbor CborProofs Core Peers Routing Beacon BeaconProofs.
Open Scope N_scope.

(** ** Services *)
Section services.
Context (parse_f32 : string -> option N) (show_f32 : N -> string).
Hypothesis parse_bits : forall x v, parse_f32 x = Some v -> v < 2^32.
(** what the receiver shows for an announced text *)
Definition shown (t : N) (x s : string) : Prop :=
  (t = 63 /\ s = x) \/ (t = 255 /\ s = x) \/
  (t = 191 /\ exists v, parse_i8 x = Some v /\ (0 <= v <= 100)%Z /\ s = pretty v) \/
  (t = 127 /\ exists a b l u v, split_blank x = a :: b :: l /\ parse_f32 a = Some u /\ parse_f32 b = Some v /\
     s = show_f32 u +:+ " " +:+ show_f32 v).
Lemma i8_trip v : (0 <= v <= 100)%Z -> byte_i8 (i8_byte v) = v.
Proof.
  intros H. unfold byte_i8, i8_byte. rewrite Z.mod_small by lia.
  rewrite (proj2 (N.ltb_lt _ _)) by lia. lia.
Qed.
Lemma geo_split x y : x < 2^32 -> y < 2^32 ->
  exists a b c d e f g h, be 4 x ++ be 4 y = [a; b; c; d; e; f; g; h] /\ unbe [a; b; c; d] = x /\ unbe [e; f; g; h] = y.
Proof.
  intros Hx Hy. pose proof (unbe_be 4 x Hx) as H1. pose proof (unbe_be 4 y Hy) as H2.
  pose proof (be_length 4 x) as L1. pose proof (be_length 4 y) as L2.
  destruct (be 4 x) as [|a [|b [|c [|d [|]]]]]; try done.
  destruct (be 4 y) as [|e [|f [|g [|h [|]]]]]; try done.
  exists a, b, c, d, e, f, g, h. done.
Qed.
Lemma build_convert t x p : utf8 (bytes_of x) = true -> build_service parse_f32 t x = Good p ->
  exists s, convert_service show_f32 t p = Good s /\ shown t x s.
Proof.
  intros Hu. unfold build_service, convert_service, shown, CUSTOM_STRING, GEO_LOCATION, BATTERY, ADDRESS.
  destruct (N.eqb_spec t 63) as [->|].
  { case_match; [done|]. intros [= <-]. rewrite Hu, text_bytes. cbn. eauto. }
  destruct (N.eqb_spec t 127) as [->|].
  { destruct (split_blank x) as [|a [|b l]] eqn:Es; try done.
    destruct (parse_f32 a) as [u|] eqn:E1; [|done]. destruct (parse_f32 b) as [v|] eqn:E2; [|done]. intros Hp.
    assert (p = be 4 u ++ be 4 v) as -> by congruence.
    destruct (geo_split u v) as (b1 & b2 & b3 & b4 & b5 & b6 & b7 & b8 & -> & H1 & H2); eauto.
    cbn -[unbe]. rewrite H1, H2. eexists. split; [done|]. right. right. right. split; [done|]. eauto 10. }
  destruct (N.eqb_spec t 191) as [->|].
  { destruct (parse_i8 x) as [v|] eqn:E; [|done]. case_match; [|done]. intros [= <-]. cbn.
    apply andb_prop in H as [H1 H2]. apply Z.leb_le in H1, H2. rewrite i8_trip by lia. unfold show_int.
    eexists. split; [done|]. right. right. left. split; [done|]. exists v. split; [done|]. split; [lia|done]. }
  destruct (N.eqb_spec t 255) as [->|]; [|done].
  case_match; [|done]. intros [= <-]. rewrite Hu, text_bytes. cbn. eexists. split; [done|]. right. left. done.
Qed.
Lemma build_fits t x p : build_service parse_f32 t x = Good p -> N.of_nat (String.length x) < 2^64 -> service_fits (t, p).
Proof.
  unfold build_service, service_fits, CUSTOM_STRING, GEO_LOCATION, BATTERY, ADDRESS. cbn [fst snd]. intros H Hl.
  destruct (N.eqb_spec t 63) as [->|].
  { case_match; [done|]. injection H as <-. rewrite bytes_of_length. split; [done|]. split; [apply bytes_of_ok|done]. }
  destruct (N.eqb_spec t 127) as [->|].
  { destruct (split_blank x) as [|a [|b l]]; try done. destruct (parse_f32 a) as [u|]; [|done].
    destruct (parse_f32 b) as [v|]; [|done]. assert (p = be 4 u ++ be 4 v) as -> by congruence. split; [done|].
    split; [apply Forall_app; split; apply be_ok|]. rewrite app_length, !be_length. done. }
  destruct (N.eqb_spec t 191) as [->|].
  { destruct (parse_i8 x) as [v|]; [|done]. case_match; [|done]. injection H as <-. split; [done|].
    split; [|done]. constructor; [|constructor]. unfold i8_byte. pose proof (Z.mod_pos_bound v 256). lia. }
  destruct (N.eqb_spec t 255) as [->|]; [|done].
  case_match; [|done]. injection H as <-. rewrite bytes_of_length. split; [done|]. split; [apply bytes_of_ok|done].
Qed.
Lemma convert_list_good l : (forall t p, (t, p) ∈ l -> exists s, convert_service show_f32 t p = Good s) ->
  exists r, convert_list show_f32 l = Good r /\
    forall t s, (t, s) ∈ r <-> exists p, (t, p) ∈ l /\ convert_service show_f32 t p = Good s.
Proof.
  induction l as [|[t p] l IH]; intros H.
  - exists []. split; [done|]. intros t s. split; [by intros ?%elem_of_nil|]. intros (p & ?%elem_of_nil & _). done.
  - destruct (H t p) as [s Hs]; [by left|]. destruct IH as (r & Hr & Hin).
    { intros t' p' Hp. apply H. by right. }
    exists ((t, s) :: r). split; [cbn; by rewrite Hs, Hr|].
    intros t' s'. rewrite elem_of_cons, Hin. setoid_rewrite elem_of_cons. split.
    + intros [[= -> ->]|(p' & Hp & Hc)]; eauto.
    + intros (p' & [[= -> ->]|Hp] & Hc); [|eauto]. left. congruence.
Qed.
Lemma add_services_block l : forall b b', add_services parse_f32 l b = Good b' ->
  NoDup l.*1 -> (forall t, t ∈ l.*1 -> sb_services (bc_block b) !! t = None) ->
  sb_clas (bc_block b') = sb_clas (bc_block b) /\ bc_eid b' = bc_eid b /\ bc_period b' = bc_period b /\ bc_seq b' = bc_seq b /\
  (made parse_f32 b -> made parse_f32 b') /\
  forall t p, sb_services (bc_block b') !! t = Some p <->
    sb_services (bc_block b) !! t = Some p \/ exists x, (t, x) ∈ l /\ build_service parse_f32 t x = Good p.
Proof.
  induction l as [|[t x] l IH]; intros b b' H Hd Hn.
  - cbn in H. injection H as <-. repeat (split; [done|]). intros t p. split; [by left|]. intros [?|(x & ?%elem_of_nil & _)]; done.
  - cbn [add_services] in H. destruct (add_service parse_f32 t x b) as [b1| |] eqn:Ea; try done.
    pose proof Ea as Ha. unfold add_service in Ha. destruct (build_service parse_f32 t x) as [p| |] eqn:Eb; try done.
    injection Ha as Ha. cbn in Hd. apply NoDup_cons in Hd as [Hd1 Hd2].
    destruct (IH b1 b' H Hd2) as (H1 & H2 & H3 & H3' & Hmade & H4).
    { intros t' Ht. subst b1. cbn. rewrite lookup_insert_ne by (intros ->; done). apply Hn. by right. }
    subst b1. cbn in H1, H2, H3, H3', H4. repeat (split; [done|]). split.
    { intros Hm. apply Hmade. by eapply made_service. }
    intros t' p'. rewrite H4. destruct (decide (t = t')) as [->|Hne].
    + rewrite lookup_insert, (Hn t') by (cbn; left). split.
      * intros [[= ->]|(x' & Hx & _)]; [right; exists x; split; [left|done]|]. exfalso. apply Hd1.
        apply elem_of_list_fmap. by exists (t', x').
      * intros [?|(x' & Hx & Hb)]; [done|]. apply elem_of_cons in Hx as [[= ->]|Hx]; [left; congruence|].
        exfalso. apply Hd1. apply elem_of_list_fmap. by exists (t', x').
    + rewrite lookup_insert_ne by done. split; (intros [?|(x' & Hx & Hb)]; [by left|right; exists x'; split; [|done]]).
      * by right.
      * apply elem_of_cons in Hx as [[= ->]|Hx]; [done|]. done.
Qed.
Lemma add_clas_block l : forall b, let b' := foldl (fun b c => add_cla (fst c) (Some (snd c)) b) b l in
  sb_clas (bc_block b') = sb_clas (bc_block b) ++ map (fun c => (fst c, Some (snd c))) l /\
  sb_services (bc_block b') = sb_services (bc_block b) /\ bc_eid b' = bc_eid b /\ bc_period b' = bc_period b /\
  (made parse_f32 b -> made parse_f32 b').
Proof.
  induction l as [|c l IH]; intros b; cbn.
  - by rewrite app_nil_r.
  - destruct (IH (add_cla c.1 (Some c.2) b)) as (H1 & H2 & H3 & H4 & H5). cbn in *. rewrite H1, H2, H3, H4.
    rewrite <- app_assoc. repeat (split; [done|]). intros Hm. apply H5. by constructor.
Qed.
End services.

(** ** Sequence numbers *)
Section announcer.
Context {addr : Type} `{EqDecision addr} (parse : string -> option addr) (show : addr -> string).
(** the numbers of the beacons for [a], in order *)
Definition numbers (a : addr) (log : list (nat * addr * N * bool)) : list N :=
  omap (fun x => match x with (_, a', n, _) => if bool_decide (a' = a) then Some n else None end) log.
Definition canonical (d : string) : Prop := exists a, parse d = Some a /\ show a = d.
Lemma numbers_app a l1 l2 : numbers a (l1 ++ l2) = numbers a l1 ++ numbers a l2.
Proof. apply omap_app. Qed.
Definition dinv (st : dstate (addr := addr)) : Prop :=
  (forall d n, ds_conf st !! d = Some n -> canonical d) /\
  (forall d n a, ds_conf st !! d = Some n -> parse d = Some a -> n = N.of_nat (length (numbers a (ds_log st))) mod 2^32) /\
  (exists l, ds_todo st = [l] /\ NoDup l.*1 /\
     forall a n, (a, n) ∈ l -> ds_conf st !! show a = Some n /\ parse (show a) = Some a) /\
  (forall a k n, numbers a (ds_log st) !! k = Some n -> n = N.of_nat k mod 2^32).
Lemma dinv_start ds : Forall canonical ds -> dinv (dstart ds 1).
Proof.
  intros Hc. assert (Hl : forall d n, (list_to_map (map (fun d => (d, 0)) ds) : gmap string N) !! d = Some n -> d ∈ ds /\ n = 0).
  { intros d n H. apply elem_of_list_to_map_2 in H. apply elem_of_list_fmap in H as (x & [= -> ->] & Hx). done. }
  split; [|split; [|split]].
  - intros d n H. cbn in H. apply Hl in H as [H _]. rewrite Forall_forall in Hc. by apply Hc.
  - intros d n a H _. cbn in H. apply Hl in H as [_ ->]. done.
  - exists []. split; [done|]. split; [constructor|]. by intros a n ?%elem_of_nil.
  - intros a k n H. cbn in H. done.
Qed.
Lemma dinv_step st st' : dinv st -> dstep parse show st st' -> dinv st'.
Proof.
  intros (H1 & H2 & (l & Ht & Hd & H3) & H4) Hs.
  destruct Hs as [conf todo log i l' Hi [Hn [Hp Hq]]|conf todo log i a n l' ok Hi]; cbn [ds_conf ds_todo ds_log] in *; subst todo.
  - destruct i as [|i]; [|done]. split; [done|]. split; [done|]. split; [|done].
    exists l'. split; [done|]. split; [done|]. intros a n Ha. apply Hp in Ha as (d & Hm & Hpa).
    destruct (H1 _ _ Hm) as (a' & Hpa' & Hs). rewrite Hpa in Hpa'. injection Hpa' as <-. by rewrite Hs.
  - destruct i as [|i]; [|done]. injection Hi as ->.
    destruct (H3 a n) as [Hc Hpa]; [left|].
    cbn in Hd. apply NoDup_cons in Hd as [Hd1 Hd2].
    assert (Hnum : n = N.of_nat (length (numbers a log)) mod 2^32) by eauto.
    assert (Hna : numbers a (log ++ [(0%nat, a, n, ok)]) = numbers a log ++ [n]).
    { rewrite numbers_app. cbn. by rewrite bool_decide_true. }
    assert (Hnb : forall a', a' <> a -> numbers a' (log ++ [(0%nat, a, n, ok)]) = numbers a' log).
    { intros a' Hne. rewrite numbers_app. cbn. rewrite bool_decide_false by congruence. apply app_nil_r. }
    unfold dinv, update_seq. rewrite Hc. cbn [ds_conf ds_todo ds_log]. split; [|split; [|split]].
    + intros d n' Hl. destruct (decide (d = show a)) as [->|Hne]; [exists a; done|].
      rewrite lookup_insert_ne in Hl by done. eauto.
    + intros d n' a' Hl Hpa'. destruct (decide (d = show a)) as [->|Hne].
      * rewrite Hpa in Hpa'. injection Hpa' as <-. rewrite lookup_insert in Hl. injection Hl as <-.
        rewrite Hna, app_length. cbn [length]. rewrite Nat2N.inj_add. change (N.of_nat 1) with 1.
        rewrite Hnum. set (k := N.of_nat (length (numbers a log))).
        rewrite <- (N.add_mod_idemp_l k 1 (2^32)) by done. pose proof (N.mod_lt k (2^32) ltac:(done)) as Hlt.
        destruct (N.eqb_spec (k mod 2^32) 4294967295) as [E|Hk].
        -- rewrite E. done.
        -- symmetry. apply N.mod_small. change (2^32) with 4294967296 in *. lia.
      * rewrite lookup_insert_ne in Hl by done. rewrite Hnb; [eauto|].
        intros ->. destruct (H1 _ _ Hl) as (a0 & E0 & E1). rewrite Hpa' in E0. injection E0 as <-. by apply Hne.
    + exists l'. split; [done|]. split; [done|]. intros a' n' Hin. destruct (H3 a' n') as [Hc' Hpa']; [by right|].
      split; [|done]. rewrite lookup_insert_ne; [done|]. intros E. rewrite E, Hpa' in Hpa. injection Hpa as ->.
      apply Hd1. apply elem_of_list_fmap. by exists (a, n').
    + intros a' k n' Hk. destruct (decide (a' = a)) as [->|Hne]; [|rewrite Hnb in Hk by done; eauto].
      rewrite Hna in Hk. apply lookup_app_Some in Hk as [Hk|[Hl Hk]]; [eauto|].
      destruct (k - length (numbers a log))%nat as [|x] eqn:Ex; [|done]. injection Hk as <-.
      rewrite Hnum. f_equal. lia.
Qed.
Lemma dinv_run ds st : Forall canonical ds -> rtc (dstep parse show) (dstart ds 1) st -> dinv st.
Proof.
  intros Hc Hr. pose proof (dinv_start ds Hc) as Hi. revert Hi. revert Hr. generalize (dstart (addr := addr) ds 1) as x.
  induction 1 as [|x y z Hxy Hyz IH]; [done|]. intros Hi. apply IH. by eapply dinv_step.
Qed.
End announcer.
