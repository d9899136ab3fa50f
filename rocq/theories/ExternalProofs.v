(** Proofs about external routing (External.v). *)
From Verif Require Import Core Peers PeersProofs Routing External IdProofs.
From stdpp Require Import prelude strings pretty gmap.
From Coq Require Import NArith Lia Ascii.
Open Scope N_scope.

(** ** descriptions *)
Definition lbrace : Ascii.ascii := "{"%char.
Definition comma : Ascii.ascii := ","%char.
Lemma con_name_free c : free lbrace (con_name c) /\ free comma (con_name c) /\ con_name c <> "".
Proof. destruct c; cbn; repeat split; done. Qed.
Lemma con_name_inj c d : con_name c = con_name d -> c = d.
Proof. by destruct c, d. Qed.
Lemma join_free l : free lbrace (sep_by ", " (map con_name l)).
Proof.
  induction l as [|c l IH]; [done|]. cbn [map sep_by]. destruct (map con_name l) as [|n l'] eqn:E; [apply con_name_free|].
  apply free_app. split; [apply con_name_free|]. apply free_app. split; [cbn; repeat split; done|done].
Qed.
Lemma join_two a b l : sep_by ", " (a :: b :: l) = a +:+ String comma (" " +:+ sep_by ", " (b :: l)).
Proof. reflexivity. Qed.
Lemma join_inj l1 : forall l2, sep_by ", " (map con_name l1) = sep_by ", " (map con_name l2) -> l1 = l2.
Proof.
  assert (Hne : forall c l, sep_by ", " (map con_name (c :: l)) <> "").
  { intros c l H. destruct l as [|d l]; [cbn in H; by destruct c|]. cbn [map] in H. rewrite join_two in H. by destruct c. }
  assert (Hsing : forall c d e l, con_name c = sep_by ", " (map con_name (d :: e :: l)) -> False).
  { intros c d e l H. cbn [map] in H. rewrite join_two in H. destruct (con_name_free c) as (_ & Hf & _). rewrite H in Hf.
    apply free_app in Hf as [_ [Hf _]]. done. }
  induction l1 as [|c l1 IH]; intros [|d l2] H.
  - done.
  - symmetry in H. by apply Hne in H.
  - by apply Hne in H.
  - destruct l1 as [|c1 l1], l2 as [|d1 l2].
    + cbn in H. f_equal. by apply con_name_inj.
    + exfalso. exact (Hsing c d d1 l2 H).
    + exfalso. symmetry in H. exact (Hsing d c c1 l1 H).
    + cbn [map] in H. rewrite !join_two in H. apply split_first in H as [H1 H2]; [|apply con_name_free|apply con_name_free].
      apply con_name_inj in H1 as ->. f_equal. apply IH. change (String " " (sep_by ", " (con_name c1 :: map con_name l1)) = String " " (sep_by ", " (con_name d1 :: map con_name l2))) in H2.
      by injection H2 as H2.
Qed.
Lemma describe_inj i1 o1 i2 o2 : describe i1 o1 = describe i2 o2 -> i1 = i2 /\ o1 = o2.
Proof.
  unfold describe. intros H.
  assert (Hs : forall i r, i +:+ " {" +:+ r = (i +:+ " ") +:+ String lbrace r) by (intros; by rewrite app_assoc_s).
  rewrite !Hs in H. apply split_last in H as [H1 H2].
  - change (i1 +:+ String " " "" = i2 +:+ String " " "") in H1. apply split_last in H1 as [-> _]; [|done|done]. split; [done|].
    change (sep_by ", " (map con_name o1) +:+ String "}" "" = sep_by ", " (map con_name o2) +:+ String "}" "") in H2.
    apply join_inj. assert (Hsp : forall a b, a +:+ String "}" "" = b +:+ String "}" "" -> a = b).
    { intros a. induction a as [|x a IH]; intros [|y b] E; rewrite ?app_nil_s, ?app_cons_s in E.
      - done.
      - injection E as _ E. destruct b; rewrite ?app_nil_s, ?app_cons_s in E; done.
      - injection E as _ E. destruct a; rewrite ?app_nil_s, ?app_cons_s in E; done.
      - injection E as -> E. f_equal. by apply IH. }
    by apply Hsp.
  - apply free_app. split; [apply join_free|cbn; done].
  - apply free_app. split; [apply join_free|cbn; done].
Qed.

(** ** bookkeeping *)
Definition same_call (q q' : request) : Prop := rq_pack q' = rq_pack q /\ rq_ord q' = rq_ord q.
Lemma same_key q q' : same_call q q' -> rq_key q' = rq_key q.
Proof. intros [H1 H2]. unfold rq_key. by rewrite H1, H2. Qed.
Definition calls (l : list request) : list (pack * list constraint) := map (fun q => (rq_pack q, rq_ord q)) l.
Lemma calls_alter f n l : (forall q, same_call q (f q)) -> calls (alter f n l) = calls l.
Proof.
  intros Hf. revert n. induction l as [|q l IH]; intros [|n]; try done; cbn.
  - f_equal. destruct (Hf q) as [-> ->]. done.
  - f_equal. apply IH.
Qed.
Lemma calls_close n l : calls (close n l) = calls l.
Proof. apply calls_alter. intros q. unfold same_call. by destruct (rq_st q). Qed.
Lemma calls_upd n s l : calls (upd n s l) = calls l.
Proof. by apply calls_alter. Qed.
Lemma calls_drop k st : calls (x_req (drop_key k st)) = calls (x_req st).
Proof. unfold drop_key. destruct (x_resp st !! k); [apply calls_close|done]. Qed.
Lemma conn_drop k st : x_conn (drop_key k st) = x_conn st.
Proof. unfold drop_key. by destruct (x_resp st !! k). Qed.
Lemma resp_drop k st : x_resp (drop_key k st) = delete k (x_resp st).
Proof. unfold drop_key. destruct (x_resp st !! k) eqn:E; [done|]. by rewrite delete_notin. Qed.
Lemma len_drop k st : length (x_req (drop_key k st)) = length (x_req st).
Proof. unfold drop_key. destruct (x_resp st !! k); [|done]. cbn. unfold close. by rewrite alter_length. Qed.
(** dropping a channel: a call keeps its place, or was waiting and is woken *)
Lemma req_drop k st n q' : x_req (drop_key k st) !! n = Some q' ->
  exists q, x_req st !! n = Some q /\ same_call q q' /\
    (q' = q \/ (x_resp st !! k = Some n /\ rq_st q = Waiting /\ rq_st q' = Dropped)).
Proof.
  unfold drop_key. destruct (x_resp st !! k) as [m|] eqn:E; [|eauto 10 using conj]; cbn; [|intros H; exists q'; unfold same_call; auto].
  unfold close. intros H. destruct (decide (m = n)) as [->|Hne].
  - rewrite list_lookup_alter in H. destruct (x_req st !! n) as [q|]; [|done]. cbn in H. injection H as <-. exists q. split; [done|].
    unfold same_call. destruct (rq_st q) eqn:Es; cbn; auto 10.
  - rewrite list_lookup_alter_ne in H by done. exists q'. unfold same_call. auto.
Qed.
Lemma req_drop_ex k st n q : x_req st !! n = Some q -> exists q', x_req (drop_key k st) !! n = Some q'.
Proof.
  intros H. destruct (x_req (drop_key k st) !! n) eqn:E; [by eexists|]. apply lookup_ge_None in E. rewrite len_drop in E.
  apply lookup_lt_Some in H. lia.
Qed.
Lemma upd_lookup n s l m q' : upd n s l !! m = Some q' ->
  exists q, l !! m = Some q /\ same_call q q' /\ (if decide (m = n) then rq_st q' = s else q' = q).
Proof.
  unfold upd. intros H. destruct (decide (m = n)) as [->|Hne].
  - rewrite list_lookup_alter in H. destruct (l !! n) as [q|]; [|done]. cbn in H. injection H as <-. exists q. done.
  - rewrite list_lookup_alter_ne in H by done. exists q'. done.
Qed.

(** ** history *)
Definition asks (es : list xev) : list (pack * list constraint) :=
  omap (fun e => match e with XAsk p o => Some (p, o) | _ => None end) es.
Lemma asks_app e1 e2 : asks (e1 ++ e2) = asks e1 ++ asks e2.
Proof. unfold asks. apply omap_app. Qed.
Definition got (es : list xev) (n : nat) (r : response) (o : list constraint) : Prop :=
  exists es1 es2, es = es1 ++ XRespond r o :: es2 /\ (n < length (asks es1))%nat.
Definition used (es : list xev) (n : nat) (k : string) (a : answer) : Prop :=
  exists es1 r o es2 clas es3, es = es1 ++ XRespond r o :: es2 ++ XWake n clas :: es3 /\ (n < length (asks es1))%nat /\
    describe (p_id (rs_pack r)) o = k /\ a = unpack clas r.
Lemma got_snoc es n r o e : got es n r o -> got (es ++ [e]) n r o.
Proof. intros (e1 & e2 & -> & H). exists e1, (e2 ++ [e]). by rewrite <- app_assoc. Qed.
Lemma used_snoc es n k a e : used es n k a -> used (es ++ [e]) n k a.
Proof.
  intros (e1 & r & o & e2 & clas & e3 & -> & H). exists e1, r, o, e2, clas, (e3 ++ [e]). split; [|done].
  rewrite <- app_assoc. cbn. f_equal. f_equal. rewrite <- app_assoc. done.
Qed.
Definition ok_call (es : list xev) (n : nat) (q : request) : Prop :=
  match rq_st q with
  | Got r o => got es n r o /\ describe (p_id (rs_pack r)) o = rq_key q
  | Done a => a = ([], false) \/ used es n (rq_key q) a
  | _ => True
  end.
Definition xinv (es : list xev) (st : xstate) : Prop :=
  calls (x_req st) = asks es /\
  (forall k n, x_resp st !! k = Some n -> exists q, x_req st !! n = Some q /\ rq_st q = Waiting /\ rq_key q = k) /\
  (forall n q, x_req st !! n = Some q -> ok_call es n q).
Lemma ok_call_snoc es n q e : ok_call es n q -> ok_call (es ++ [e]) n q.
Proof.
  unfold ok_call. destruct (rq_st q); [done| |done|].
  - intros [H1 H2]. split; [by apply got_snoc|done].
  - intros [H|H]; [by left|right; by apply used_snoc].
Qed.
Lemma xrun_snoc es e : xrun (es ++ [e]) = xstep (xrun es) e.
Proof. unfold xrun. by rewrite foldl_app. Qed.

Lemma xinv_drop es st k : xinv es st -> xinv es (drop_key k st).
Proof.
  intros (H1 & H2 & H3). split; [by rewrite calls_drop|]. split.
  - intros k' n Hk. rewrite resp_drop in Hk. apply lookup_delete_Some in Hk as [Hne Hk]. destruct (H2 _ _ Hk) as (q & Hq & Hs & Hkey).
    destruct (req_drop_ex k st n q Hq) as [q' Hq']. exists q'. split; [done|].
    destruct (req_drop _ _ _ _ Hq') as (q0 & Hq0 & Hsame & Hc). rewrite Hq in Hq0. injection Hq0 as <-.
    destruct Hc as [->|(Hm & _ & _)]; [done|]. destruct (H2 _ _ Hm) as (q1 & Hq1 & _ & Hkey1). rewrite Hq in Hq1. injection Hq1 as <-. congruence.
  - intros n q' Hq'. destruct (req_drop _ _ _ _ Hq') as (q & Hq & Hsame & Hc). destruct Hc as [->|(_ & _ & Hd)]; [by apply H3|].
    unfold ok_call. by rewrite Hd.
Qed.
Lemma calls_len st es : calls (x_req st) = asks es -> length (x_req st) = length (asks es).
Proof. intros <-. unfold calls. by rewrite map_length. Qed.
Lemma drop_no_key es st n q : xinv es st -> x_req st !! n = Some q ->
  forall k m, x_resp (drop_key (rq_key q) st) !! k = Some m -> m <> n.
Proof.
  intros (H1 & H2 & H3) Hq k m Hk ->. rewrite resp_drop in Hk. apply lookup_delete_Some in Hk as [Hne Hk].
  destruct (H2 _ _ Hk) as (q1 & Hq1 & _ & Hkey). congruence.
Qed.
(** a call returning: the rest of the state as after dropping the key *)
Lemma xinv_finish es e st n q a :
  xinv es st -> x_req st !! n = Some q -> asks (es ++ [e]) = asks es -> ok_call (es ++ [e]) n (set_st q (Done a)) ->
  xinv (es ++ [e]) (XState (x_conn (drop_key (rq_key q) st)) (x_resp (drop_key (rq_key q) st)) (upd n (Done a) (x_req (drop_key (rq_key q) st)))).
Proof.
  intros Hi Hq Ha Hok. pose proof (xinv_drop _ _ (rq_key q) Hi) as (D1 & D2 & D3). split; [|split]; cbn.
  - rewrite calls_upd, Ha. done.
  - intros k m Hk. pose proof (drop_no_key es st n q Hi Hq k m Hk) as Hne. destruct (D2 _ _ Hk) as (q1 & Hq1 & Hs). exists q1. split; [|done].
    unfold upd. by rewrite list_lookup_alter_ne.
  - intros m q' Hm. destruct (upd_lookup _ _ _ _ _ Hm) as (q1 & Hq1 & Hsame & Hc). destruct (decide (m = n)) as [->|Hne].
    + destruct (req_drop _ _ _ _ Hq1) as (q0 & Hq0 & Hsame0 & _). rewrite Hq in Hq0. injection Hq0 as <-.
      unfold ok_call in *. rewrite Hc. cbn in Hok. assert (Hk : rq_key q' = rq_key q) by (rewrite (same_key _ _ Hsame); by apply same_key).
      by rewrite Hk.
    + subst q'. by apply ok_call_snoc, D3.
Qed.
Lemma xinv_same es e st : xinv es st -> asks (es ++ [e]) = asks es -> xinv (es ++ [e]) st.
Proof. intros (H1 & H2 & H3) Ha. split; [by rewrite Ha|]. split; [done|]. intros n q Hq. by apply ok_call_snoc, H3. Qed.
Lemma asks_other es e : (forall p o, e <> XAsk p o) -> asks (es ++ [e]) = asks es.
Proof. intros H. rewrite asks_app. destruct e; cbn; try (by rewrite app_nil_r). by destruct (H p ord). Qed.
Lemma xinv_step es st e : xinv es st -> xinv (es ++ [e]) (xstep st e).
Proof.
  intros Hi. destruct e as [| |p ord|r ord|n clas|n]; cbn [xstep].
  - destruct (xinv_same es XConnect st Hi) as (H1 & H2 & H3); [by apply asks_other|]. done.
  - destruct (xinv_same es XDisconnect st Hi) as (H1 & H2 & H3); [by apply asks_other|]. done.
  - destruct (x_conn st).
    + set (k := describe (p_id p) ord). pose proof (xinv_drop _ _ k Hi) as (D1 & D2 & D3). split; [|split]; cbn.
      * unfold calls. rewrite map_app. fold (calls (x_req (drop_key k st))). rewrite D1, asks_app. done.
      * intros k' m Hk. destruct (decide (k' = k)) as [->|Hne].
        -- rewrite lookup_insert in Hk. injection Hk as <-. exists (Request p ord Waiting). split; [by apply list_lookup_middle|done].
        -- rewrite lookup_insert_ne in Hk by done. destruct (D2 _ _ Hk) as (q & Hq & Hs). exists q. split; [|done].
           rewrite lookup_app_l; [done|]. by eapply lookup_lt_Some.
      * intros m q Hm. apply lookup_app_Some in Hm as [Hm|[Hl Hm]]; [by apply ok_call_snoc, D3|].
        destruct (m - _)%nat; [|done]. cbn in Hm. injection Hm as <-. done.
    + destruct Hi as (H1 & H2 & H3). split; [|split]; cbn.
      * unfold calls. rewrite map_app. fold (calls (x_req st)). rewrite H1, asks_app. done.
      * intros k' m Hk. destruct (H2 _ _ Hk) as (q & Hq & Hs). exists q. split; [|done]. rewrite lookup_app_l; [done|]. by eapply lookup_lt_Some.
      * intros m q Hm. apply lookup_app_Some in Hm as [Hm|[Hl Hm]]; [by apply ok_call_snoc, H3|].
        destruct (m - _)%nat; [|done]. cbn in Hm. injection Hm as <-. by left.
  - destruct (x_conn st); [|by apply xinv_same; [|apply asks_other]].
    destruct (x_resp st !! _) as [n|] eqn:Ek; [|by apply xinv_same; [|apply asks_other]].
    destruct Hi as (H1 & H2 & H3). destruct (H2 _ _ Ek) as (q0 & Hq0 & Hs0 & Hk0). split; [|split]; cbn.
    + rewrite calls_alter; [by rewrite asks_other|]. intros q. unfold same_call. by destruct (rq_st q).
    + intros k' m Hk. apply lookup_delete_Some in Hk as [Hne Hk]. destruct (H2 _ _ Hk) as (q & Hq & Hs & Hkey). exists q. split; [|done].
      rewrite list_lookup_alter_ne; [done|]. intros ->. rewrite Hq0 in Hq. injection Hq as <-. congruence.
    + intros m q' Hm. destruct (decide (m = n)) as [->|Hne].
      * rewrite list_lookup_alter, Hq0 in Hm. cbn in Hm. injection Hm as <-. rewrite Hs0. unfold ok_call. cbn. split; [|done].
        exists es, []. split; [done|]. rewrite <- (calls_len _ _ H1). by eapply lookup_lt_Some.
      * rewrite list_lookup_alter_ne in Hm by done. by apply ok_call_snoc, H3.
  - destruct (x_req st !! n) as [q|] eqn:Eq; [|by apply xinv_same; [|apply asks_other]].
    destruct (rq_st q) as [|r ord| |] eqn:Es; [by apply xinv_same; [|apply asks_other]| | |by apply xinv_same; [|apply asks_other]].
    + apply xinv_finish; [done|done|by apply asks_other|]. destruct Hi as (H1 & H2 & H3). pose proof (H3 _ _ Eq) as Hok. unfold ok_call in Hok. rewrite Es in Hok.
      destruct Hok as [(e1 & e2 & -> & Hn) Hd]. unfold ok_call. cbn. rewrite bool_decide_true by done. right.
      exists e1, r, ord, e2, clas, []. split; [by rewrite <- app_assoc|done].
    + apply xinv_finish; [done|done|by apply asks_other|]. by left.
  - destruct (x_req st !! n) as [q|] eqn:Eq; [|by apply xinv_same; [|apply asks_other]].
    destruct (rq_st q) eqn:Es; try (by apply xinv_same; [|apply asks_other]).
    apply xinv_finish; [done|done|by apply asks_other|]. by left.
Qed.
Lemma xinv_run es : xinv es (xrun es).
Proof.
  induction es as [|e es IH] using rev_ind; [|rewrite xrun_snoc; by apply xinv_step].
  split; [done|]. split; [intros k n H|by intros n q H; destruct n]. change ((∅ : gmap string nat) !! k = Some n) in H. by rewrite lookup_empty in H.
Qed.

(** ** each response is used at most once *)
Definition credit (q : request) : nat := match rq_st q with Got _ _ => 1 | Done ([], false) => 0 | Done _ => 1 | _ => 0 end.
Definition credits (l : list request) : nat := sum_list_with credit l.
Definition responds (es : list xev) : nat := sum_list_with (fun e => match e with XRespond _ _ => 1%nat | _ => 0%nat end) es.
Lemma credits_alter f n l c : (forall q, l !! n = Some q -> (credit (f q) <= credit q + c)%nat) -> (credits (alter f n l) <= credits l + c)%nat.
Proof.
  unfold credits. revert n. induction l as [|q l IH]; intros [|n] H; cbn; try lia.
  - specialize (H q eq_refl). lia.
  - specialize (IH n H). change (credit q + sum_list_with credit (alter f n l) <= credit q + sum_list_with credit l + c)%nat. lia.
Qed.
Lemma credits_drop k st : (credits (x_req (drop_key k st)) <= credits (x_req st))%nat.
Proof.
  unfold drop_key. destruct (x_resp st !! k) as [m|]; [|done]. cbn. unfold close. rewrite <- (Nat.add_0_r (credits (x_req st))). apply credits_alter.
  intros q _. unfold credit. destruct (rq_st q) eqn:E; cbn; rewrite ?E; lia.
Qed.
Lemma credits_step st e : (credits (x_req (xstep st e)) <= credits (x_req st) + match e with XRespond _ _ => 1 | _ => 0 end)%nat.
Proof.
  destruct e as [| |p ord|r ord|n clas|n]; cbn [xstep].
  - cbn [x_req]. lia.
  - cbn [x_req]. lia.
  - unfold credits. destruct (x_conn st); cbv zeta; cbn [x_req]; rewrite sum_list_with_app; cbn [sum_list_with credit rq_st]; [|lia].
    pose proof (credits_drop (describe (p_id p) ord) st). unfold credits in *. lia.
  - destruct (x_conn st); [|cbn; lia]. destruct (x_resp st !! _); [|cbn; lia]. cbn [x_req]. apply credits_alter. intros q _. unfold credit at 1.
    destruct (rq_st q) eqn:E; cbn; rewrite ?E; try lia. unfold credit. rewrite E. lia.
  - destruct (x_req st !! n) as [q|] eqn:Eq; [|lia]. destruct (rq_st q) as [|r ord| |] eqn:Es; try lia; cbn [x_req].
    + etransitivity; [apply (credits_alter _ _ _ 0)|pose proof (credits_drop (rq_key q) st); lia].
      intros q1 Hq1. destruct (req_drop _ _ _ _ Hq1) as (q0 & Hq0 & _ & Hc). rewrite Eq in Hq0. injection Hq0 as <-.
      destruct Hc as [->|(_ & Hw & _)]; [|congruence]. unfold credit. rewrite Es. cbn. destruct (bool_decide _); [|lia]. destruct (unpack clas r) as [[|] []]; lia.
    + etransitivity; [apply (credits_alter _ _ _ 0)|pose proof (credits_drop (rq_key q) st); lia]. intros q1 _. cbn. lia.
  - destruct (x_req st !! n) as [q|] eqn:Eq; [|lia]. destruct (rq_st q) eqn:Es; try lia; cbn [x_req].
    etransitivity; [apply (credits_alter _ _ _ 0)|pose proof (credits_drop (rq_key q) st); lia]. intros q1 _. cbn. lia.
Qed.
Lemma credits_run es : (credits (x_req (xrun es)) <= responds es)%nat.
Proof.
  induction es as [|e es IH] using rev_ind; [done|]. rewrite xrun_snoc. pose proof (credits_step (xrun es) e) as H. unfold responds in *.
  rewrite sum_list_with_app. cbn [sum_list_with]. lia.
Qed.

(** ** a timely answer *)
Definition sole (n : nat) (k : string) (st : xstate) : Prop :=
  x_resp st !! k = Some n /\
  forall m q, x_req st !! m = Some q -> rq_key q = k -> m <> n -> exists a, rq_st q = Done a.
Lemma sole_drop n k k' st : k' <> k -> sole n k st -> sole n k (drop_key k' st).
Proof.
  intros Hk [H1 H2]. split; [by rewrite resp_drop, lookup_delete_ne|]. intros m q' Hq' Hkey Hne.
  destruct (req_drop _ _ _ _ Hq') as (q & Hq & Hs & Hc). rewrite (same_key _ _ Hs) in Hkey. destruct (H2 _ _ Hq Hkey Hne) as [a Ha].
  destruct Hc as [->|(_ & Hw & _)]; [by eexists|congruence].
Qed.
Definition no_interference (n : nat) (p : pack) (ord : list constraint) (e : xev) : Prop :=
  match e with
  | XAsk p' ord' => ~ (p_id p' = p_id p /\ ord' = ord)
  | XRespond r ord' => ~ (p_id (rs_pack r) = p_id p /\ ord' = ord)
  | XExpire m => m <> n
  | _ => True
  end.
Lemma sole_step es n p ord st e : xinv es st -> no_interference n p ord e -> sole n (describe (p_id p) ord) st ->
  sole n (describe (p_id p) ord) (xstep st e).
Proof.
  intros Hi Hni Hs. assert (Hi' := Hi). destruct Hi' as (I1 & I2 & I3). set (k := describe (p_id p) ord) in *. pose proof Hs as [S1 S2].
  destruct (I2 _ _ S1) as (q0 & Hq0 & Hw0 & Hk0).
  destruct e as [| |p' ord'|r ord'|m clas|m]; cbn [xstep].
  - done.
  - done.
  - assert (Hne : describe (p_id p') ord' <> k) by (intros E; by apply describe_inj in E).
    destruct (x_conn st).
    + destruct (sole_drop n k _ st Hne Hs) as [T1 T2]. split; cbn; [by rewrite lookup_insert_ne|].
      intros m q Hm Hkey Hmn. apply lookup_app_Some in Hm as [Hm|[_ Hm]]; [by eapply T2|]. destruct (m - _)%nat; [|done]. cbn in Hm. injection Hm as <-. done.
    + split; cbn; [done|]. intros m q Hm Hkey Hmn. apply lookup_app_Some in Hm as [Hm|[_ Hm]]; [by eapply S2|].
      destruct (m - _)%nat; [|done]. cbn in Hm. injection Hm as <-. done.
  - destruct (x_conn st); [|done]. assert (Hne : describe (p_id (rs_pack r)) ord' <> k) by (intros E; by apply describe_inj in E).
    destruct (x_resp st !! describe (p_id (rs_pack r)) ord') as [j|] eqn:Ej; [|done]. split; cbn; [by rewrite lookup_delete_ne|].
    intros m q Hm Hkey Hmn. destruct (decide (m = j)) as [->|Hj].
    + rewrite list_lookup_alter in Hm. destruct (I2 _ _ Ej) as (q1 & Hq1 & Hw1 & Hk1). rewrite Hq1 in Hm. cbn in Hm. rewrite Hw1 in Hm. injection Hm as <-.
      exfalso. apply Hne. rewrite <- Hk1, <- Hkey. done.
    + rewrite list_lookup_alter_ne in Hm by done. by eapply S2.
  - destruct (x_req st !! m) as [q|] eqn:Em; [|done].
    assert (Hfin : forall a, (rq_st q <> Waiting) -> (forall a, rq_st q <> Done a) ->
      sole n k (XState (x_conn (drop_key (rq_key q) st)) (x_resp (drop_key (rq_key q) st)) (upd m (Done a) (x_req (drop_key (rq_key q) st))))).
    { intros a Hnw Hnd. assert (Hkne : rq_key q <> k).
      { intros E. destruct (decide (m = n)) as [->|Hmn]; [rewrite Hq0 in Em; injection Em as <-; done|]. destruct (S2 _ _ Em E Hmn) as [a' Ha']. by apply Hnd in Ha'. }
      destruct (sole_drop n k _ st Hkne Hs) as [T1 T2]. split; cbn; [done|]. intros j q' Hj Hkey Hjn.
      destruct (upd_lookup _ _ _ _ _ Hj) as (q1 & Hq1 & Hsame & Hc). destruct (decide (j = m)); [by eexists|]. subst q'. by eapply T2. }
    destruct (rq_st q) as [|r ord'| |a] eqn:Es; [done|by apply Hfin|by apply Hfin|done].
  - cbn in Hni. destruct (x_req st !! m) as [q|] eqn:Em; [|done]. destruct (rq_st q) eqn:Es; try done.
    assert (Hkne : rq_key q <> k).
    { intros E. destruct (S2 _ _ Em E Hni) as [a' Ha']. congruence. }
    destruct (sole_drop n k _ st Hkne Hs) as [T1 T2]. split; cbn; [done|]. intros j q' Hj Hkey Hjn.
    destruct (upd_lookup _ _ _ _ _ Hj) as (q1 & Hq1 & Hsame & Hc). destruct (decide (j = m)); [by eexists|]. subst q'. by eapply T2.
Qed.
Lemma sole_run es n p ord mid : sole n (describe (p_id p) ord) (xrun es) -> Forall (no_interference n p ord) mid ->
  sole n (describe (p_id p) ord) (xrun (es ++ mid)).
Proof.
  induction mid as [|e mid IH] using rev_ind; intros Hs Hm; [by rewrite app_nil_r|]. apply Forall_app in Hm as [Hm He]. apply Forall_cons in He as [He _].
  rewrite app_assoc, xrun_snoc. apply (sole_step (es ++ mid) n p ord); [apply xinv_run|exact He|by apply IH].
Qed.
