From Verif Require Import Core Peers.
From stdpp Require Import prelude strings pretty gmap.
From Coq Require Import NArith Lia.
Open Scope N_scope.

(** every entry sits at the node name of its endpoint id *)
Definition keyed (m : peers) : Prop := forall n p, m !! n = Some p -> eid_node (pe_eid p) = Some n.
Lemma keyed_empty : keyed ∅.
Proof. intros n p. by rewrite lookup_empty. Qed.
Lemma keyed_add p m m' b : keyed m -> peers_add p m = Some (m', b) -> keyed m'.
Proof.
  unfold peers_add. destruct (eid_node (pe_eid p)) as [n|] eqn:E; [|done]. intros Hk [= <- _] i q.
  rewrite lookup_insert_Some. intros [[<- <-]|[_ H]]; [done|by apply Hk].
Qed.
Lemma keyed_alter f n m : (forall p, pe_eid (f p) = pe_eid p) -> keyed m -> keyed (alter f n m).
Proof.
  intros Hf Hk i q. rewrite lookup_alter_Some. intros [[-> (r & Hr & ->)]|[_ H]]; [rewrite Hf|]; by apply Hk.
Qed.
Lemma keyed_sub m m' : keyed m -> m' ⊆ m -> keyed m'.
Proof. intros Hk Hs n p H. apply Hk. by eapply lookup_weaken. Qed.

Lemma transfer_failed_spec n m : keyed m ->
  transfer_failed n m =
  match m !! n with
  | None => m
  | Some p => if failed_too_much (report_fail p) && negb (pe_static p) then delete n m else <[n := report_fail p]> m
  end.
Proof.
  intros Hk. unfold transfer_failed. destruct (m !! n) as [p|] eqn:E; [|done].
  assert (node_name (report_fail p) = n) as ->.
  { unfold node_name, node_or_empty. cbn. rewrite (Hk _ _ E). done. }
  cbn [report_fail pe_static]. destruct (failed_too_much _ && _); [|done]. by rewrite delete_insert_delete.
Qed.

Lemma keyed_step m o : keyed m -> keyed (pstep m o).
Proof.
  intros Hk. destruct o as [p|n|now n| |n|cf now|self now ip b]; cbn.
  - destruct (peers_add p m) as [[m' ?]|] eqn:E; [by eapply keyed_add|done].
  - eapply keyed_sub; [done|]. apply delete_subseteq.
  - by apply keyed_alter.
  - apply keyed_empty.
  - rewrite transfer_failed_spec by done. destruct (m !! n) as [p|] eqn:E; [|done].
    destruct (_ && _); [eapply keyed_sub; [done|]; apply delete_subseteq|].
    intros i q. rewrite lookup_insert_Some. intros [[<- <-]|[_ H]]; cbn; by apply Hk.
  - eapply keyed_sub; [done|]. apply map_filter_subseteq.
  - unfold receive_beacon. case_bool_decide; [done|].
    destruct (peers_add (beacon_peer now ip b) m) as [[m' []]|] eqn:E; cbn; [by eapply keyed_add| |done].
    apply keyed_alter; [done|]. by eapply keyed_add.
Qed.
Lemma keyed_run ops m : keyed m -> keyed (prun ops m).
Proof. revert m. unfold prun. induction ops as [|o ops IH]; intros m Hk; [done|]. cbn. by apply IH, keyed_step. Qed.

Lemma first_some_Some {A B} (f : A -> option B) l b :
  first_some f l = Some b <-> exists i a, l !! i = Some a /\ f a = Some b /\ forall j a', (j < i)%nat -> l !! j = Some a' -> f a' = None.
Proof.
  induction l as [|a l IH]; cbn; [split; [done|]; by intros (? & ? & ? & _)|]. destruct (f a) as [b'|] eqn:E.
  - split.
    + intros [= ->]. exists 0%nat, a. repeat split; [done|]. intros j a' Hj; lia.
    + intros (i & a' & Hi & Hf & Hj). destruct i as [|i]; [cbn in Hi; congruence|]. specialize (Hj 0%nat a ltac:(lia) eq_refl). congruence.
  - rewrite IH. split.
    + intros (i & a' & Hi & Hf & Hj). exists (S i), a'. repeat split; [done|done|]. intros [|j] a'' Hlt Hl; cbn in Hl; [congruence|]. eapply Hj; [|done]. lia.
    + intros (i & a' & Hi & Hf & Hj). destruct i as [|i]; [cbn in Hi; congruence|]. exists i, a'. repeat split; [done|done|].
      intros j a'' Hlt Hl. apply (Hj (S j)); [lia|done].
Qed.
Lemma first_some_None {A B} (f : A -> option B) l : first_some f l = None <-> forall a, a ∈ l -> f a = None.
Proof.
  induction l as [|a l IH]; cbn; [split; [|done]; intros _ a Ha; by apply elem_of_nil in Ha|]. destruct (f a) eqn:E.
  - split; [done|]. intros H. rewrite H in E; [done|apply elem_of_list_here].
  - rewrite IH. split.
    + intros H x [->|Hx]%elem_of_cons; [done|by apply H].
    + intros H x Hx. apply H. by apply elem_of_list_further.
Qed.

Lemma peer_list_spec m p : p ∈ peer_list m <-> exists n, m !! n = Some p.
Proof.
  unfold peer_list. rewrite elem_of_list_fmap. split.
  - intros ([n q] & -> & H%elem_of_map_to_list). eauto.
  - intros [n Hn]. exists (n, p). split; [done|]. by apply elem_of_map_to_list.
Qed.
Lemma peer_names m : keyed m -> map node_name (peer_list m) = map fst (map_to_list m).
Proof.
  intros Hk. unfold peer_list. rewrite map_map. apply map_ext_in. intros [n p] Hin. cbn.
  apply elem_of_list_In, elem_of_map_to_list, Hk in Hin. unfold node_name, node_or_empty. by rewrite Hin.
Qed.
Lemma peer_names_nodup m : keyed m -> NoDup (map node_name (peer_list m)).
Proof. intros Hk. rewrite peer_names by done. apply NoDup_fst_map_to_list. Qed.
Lemma get_for_node e n m : keyed m -> eid_node e = Some n -> peers_get_for_node e m = m !! n.
Proof.
  intros Hk He. unfold peers_get_for_node. unfold node_or_empty. rewrite He. cbn [default].
  destruct (first_some _ _) as [p|] eqn:E.
  - apply first_some_Some in E as (i & q & Hq & Hf & _). case_bool_decide as Hn; [|done]. injection Hf as ->.
    apply elem_of_list_lookup_2 in Hq. apply peer_list_spec in Hq as [n' Hn'].
    unfold node_name, node_or_empty in Hn. rewrite (Hk _ _ Hn') in Hn. cbn in Hn. by subst.
  - destruct (m !! n) as [p|] eqn:Em; [|done]. apply first_some_None with (a := p) in E; [|apply peer_list_spec; eauto].
    rewrite bool_decide_true in E; [done|]. unfold node_name, node_or_empty. by rewrite (Hk _ _ Em).
Qed.

(** ** additions *)
(** the configuration part of an entry *)
Definition same_data (p q : peer) : Prop :=
  pe_eid p = pe_eid q /\ pe_addr p = pe_addr q /\ pe_static p = pe_static q /\ pe_period p = pe_period q /\
  pe_clas p = pe_clas q /\ pe_services p = pe_services q.
(** operation [o] (re)creates the entry of node [n] with the data of [q] *)
Definition creates (o : pop) (n : string) (q : peer) : Prop :=
  eid_node (pe_eid q) = Some n /\
  match o with
  | PAdd p => q = p
  | PBeacon self now ip b => bi_eid b <> self /\ q = beacon_peer now ip b
  | _ => False
  end.
Lemma same_data_refl p : same_data p p.
Proof. done. Qed.
Lemma same_data_trans p q r : same_data p q -> same_data q r -> same_data p r.
Proof. intros (?&?&?&?&?&?) (?&?&?&?&?&?). repeat split; congruence. Qed.

Lemma step_entry m o n p : keyed m -> pstep m o !! n = Some p ->
  (exists q, creates o n q /\ same_data p q) \/
  ((forall q, ~ creates o n q) /\ exists p0, m !! n = Some p0 /\ same_data p p0).
Proof.
  intros Hk. destruct o as [a|i|now i| |i|cf now|self now ip b]; cbn [pstep].
  - unfold peers_add. destruct (eid_node (pe_eid a)) as [i|] eqn:E.
    + rewrite lookup_insert_Some. intros [[<- <-]|[Hne H]].
      * left. exists a. done.
      * right. split; [|exists p; done]. intros q [Hq Hc]. cbn in Hc. subst. congruence.
    + intros H. right. split; [|exists p; done]. intros q [Hq Hc]. cbn in Hc. subst. congruence.
  - unfold peers_remove. intros [_ H]%lookup_delete_Some. right. split; [by intros q [_ []]|eauto using same_data_refl].
  - unfold peers_touch. rewrite lookup_alter_Some. intros [[-> (r & Hr & ->)]|[_ H]];
      right; (split; [by intros q [_ []]|]); [exists r|exists p]; done.
  - by rewrite lookup_empty.
  - rewrite transfer_failed_spec by done. intros H. right. split; [by intros q [_ []]|].
    destruct (m !! i) as [r|] eqn:E; [|exists p; done]. destruct (_ && _).
    + apply lookup_delete_Some in H as [_ H]. exists p. done.
    + apply lookup_insert_Some in H as [[<- <-]|[_ H]]; [exists r|exists p]; done.
  - unfold process_peers. cbn [fst]. intros [H _]%map_filter_lookup_Some. right. split; [by intros q [_ []]|]. exists p. done.
  - unfold receive_beacon. case_bool_decide as Hb; cbn [default].
    { intros H. right. split; [|exists p; done]. intros q [_ [Hc _]]. done. }
    unfold peers_add, beacon_peer. cbn [pe_eid peer_new]. destruct (eid_node (bi_eid b)) as [i|] eqn:E; cbn [default].
    + case_bool_decide; cbn.
      * rewrite lookup_insert_Some. intros [[<- <-]|[Hne H']].
        { left. eexists. split; [split; [|split; [done|reflexivity]]; done|done]. }
        { right. split; [|exists p; done]. intros q [Hq [_ Hc]]. subst. cbn in Hq. congruence. }
      * unfold peers_touch. rewrite lookup_alter_Some. intros [[-> (r & Hr & ->)]|[Hne H']].
        { apply lookup_insert_Some in Hr as [[_ <-]|[? _]]; [|done]. left. eexists. split; [split; [|split; [done|reflexivity]]; done|done]. }
        { apply lookup_insert_Some in H' as [[? _]|[_ H']]; [done|]. right. split; [|exists p; done]. intros q [Hq [_ Hc]]. subst. cbn in Hq. congruence. }
    + intros H. right. split; [|exists p; done]. intros q [Hq [_ Hc]]. subst. cbn in Hq. congruence.
Qed.
Lemma run_entry ops : forall m n p, keyed m -> prun ops m !! n = Some p ->
  (exists before o after q, ops = before ++ o :: after /\ creates o n q /\ same_data p q /\
     (forall o' q', o' ∈ after -> ~ creates o' n q')) \/
  ((forall o' q', o' ∈ ops -> ~ creates o' n q') /\ exists p0, m !! n = Some p0 /\ same_data p p0).
Proof.
  unfold prun. induction ops as [|o ops IH]; intros m n p Hk H.
  - right. split; [intros o' q' Ho'; by apply elem_of_nil in Ho'|]. exists p. done.
  - cbn in H. destruct (IH _ _ _ (keyed_step m o Hk) H) as [(be & o' & af & q & -> & Hc & Hs & Ha)|(Ha & p0 & Hp0 & Hs)].
    + left. exists (o :: be), o', af, q. done.
    + destruct (step_entry m o n p0 Hk Hp0) as [(q & Hc & Hs')|(Hc & p1 & Hp1 & Hs')].
      * left. exists [], o, ops, q. split; [done|]. split; [done|]. split; [by eapply same_data_trans|done].
      * right. split.
        { intros o' q' [->|Ho']%elem_of_cons; [apply Hc|by apply Ha]. }
        exists p1. split; [done|]. by eapply same_data_trans.
Qed.

(** ** janitor *)
Definition limit (cf : pconf) (p : peer) : N :=
  if pc_custom cf && (0 <? pc_timeout cf) then pc_timeout cf
  else match pe_period p with Some secs => 2 * secs | None => pc_timeout cf end.
Lemma still_valid_spec cf now p : pe_static p = false -> pe_last p <= now < 2^64 ->
  (forall secs, pe_period p = Some secs -> 2 * secs < 2^64) ->
  still_valid cf now p = true <-> now - pe_last p < limit cf p.
Proof.
  intros Hs Hl Hp. unfold still_valid, limit. rewrite Hs.
  assert (Hm : (now + 2^64 - pe_last p) mod 2^64 = now - pe_last p).
  { replace (now + 2^64 - pe_last p) with (now - pe_last p + 1 * 2^64) by lia. rewrite N.mod_add by done. apply N.mod_small. lia. }
  rewrite Hm. destruct (pe_period p) as [secs|].
  - destruct (_ && _); [apply N.ltb_lt|]. rewrite N.ltb_lt. rewrite N.mul_comm. by rewrite N.mod_small by (by apply Hp).
  - destruct (_ && _); apply N.ltb_lt.
Qed.

(** ** failures *)
(** number of failures of [n] in [ops] *)
Fixpoint count_fails (ops : list pop) (n : string) : N :=
  match ops with
  | [] => 0
  | PFail i :: r => if decide (i = n) then 1 + count_fails r n else count_fails r n
  | _ :: r => count_fails r n
  end.
(** operations that do not replace or drop the entry for other reasons *)
Definition neutral (n : string) (o : pop) : Prop :=
  match o with
  | PAdd p => eid_node (pe_eid p) <> Some n
  | PRemove i => i <> n
  | PTouch _ _ | PFail _ => True
  | PClear | PJanitor _ _ => False
  | PBeacon _ _ _ b => eid_node (bi_eid b) <> Some n
  end.
Lemma neutral_other o n m : neutral n o -> (forall i, o = PFail i -> i <> n) -> (forall t i, o = PTouch t i -> i <> n) ->
  keyed m -> pstep m o !! n = m !! n.
Proof.
  intros Hn Hf Ht Hk. destruct o as [a|i|now i| |i|cf now|self now ip b]; cbn in *; try done.
  - unfold peers_add. destruct (eid_node (pe_eid a)); [|done]. rewrite lookup_insert_ne; congruence.
  - by apply lookup_delete_ne.
  - apply lookup_alter_ne. by eapply Ht.
  - rewrite transfer_failed_spec by done. specialize (Hf i eq_refl). destruct (m !! i) eqn:E; [|done].
    destruct (_ && _); [by apply lookup_delete_ne|by apply lookup_insert_ne].
  - unfold receive_beacon, peers_add, beacon_peer. cbn. case_bool_decide; [done|]. destruct (eid_node (bi_eid b)) as [i|]; cbn; [|done].
    assert (i <> n) by congruence. case_bool_decide; cbn; [by apply lookup_insert_ne|].
    unfold peers_touch. rewrite lookup_alter_ne by done. by apply lookup_insert_ne.
Qed.
Lemma gone_stays ops : forall m n, keyed m -> Forall (neutral n) ops -> m !! n = None -> prun ops m !! n = None.
Proof.
  unfold prun. induction ops as [|o ops IH]; intros m n Hk Hf Hm; [done|]. apply Forall_cons in Hf as [Ho Hf]. cbn.
  apply IH; [by apply keyed_step|done|]. destruct (pstep m o !! n) as [p|] eqn:E; [|done].
  destruct (step_entry m o n p Hk E) as [(q & [Hq Hc] & _)|(_ & p0 & Hp0 & _)]; [|congruence].
  destruct o; cbn in *; try done; [congruence|]. destruct Hc as [_ ->]. done.
Qed.
Lemma fails_count ops : forall m n p, keyed m -> Forall (neutral n) ops -> m !! n = Some p -> pe_static p = false ->
  pe_fails p <= 3 ->
  (pe_fails p + count_fails ops n <= 3 -> exists q, prun ops m !! n = Some q /\ same_data q p) /\
  (3 < pe_fails p + count_fails ops n -> prun ops m !! n = None).
Proof.
  unfold prun. induction ops as [|o ops IH]; intros m n p Hk Hf Hm Hs Hle.
  - cbn. split; [intros _; exists p; done|lia].
  - apply Forall_cons in Hf as [Ho Hf]. cbn [fold_left].
    assert (Hother : (forall i, o = PFail i -> i <> n) ->
       exists q, pstep m o !! n = Some q /\ same_data q p /\ pe_fails q = pe_fails p).
    { intros Hfail. assert (Hc : (exists t, o = PTouch t n) \/ (forall t i, o = PTouch t i -> i <> n)).
      { destruct o as [| |t i| | | |]; [by right|by right| |by right|by right|by right|by right].
        destruct (decide (i = n)) as [->|]; [left; eauto|right]. by intros ? ? [= <- <-]. }
      destruct Hc as [[t ->]|Hnt].
      - exists (touch t p). cbn. unfold peers_touch. rewrite lookup_alter, Hm. done.
      - exists p. rewrite neutral_other; done. }
    destruct o as [a|i|now i| |i|cf now|self now ip b]; cbn [count_fails]; try (
      destruct (Hother ltac:(done)) as (q & Hq & Hd & Hfq);
      destruct (IH _ n q (keyed_step _ _ Hk) Hf Hq) as [H1 H2]; [destruct Hd as (?&?&Hd&?&?&?); congruence|lia|];
      rewrite Hfq in *; split; [|done]; intros Hc; destruct (H1 Hc) as (q' & Hq' & Hd'); exists q'; split; [done|];
      by eapply same_data_trans); try done.
    case_decide as Hi.
    + subst i. cbn [pstep]. rewrite transfer_failed_spec, Hm by done.
      assert (Hrf : pe_fails (report_fail p) = pe_fails p + 1). { cbn [report_fail pe_fails]. apply N.mod_small. lia. }
      unfold failed_too_much. rewrite Hrf, Hs. cbn [negb]. rewrite andb_true_r. destruct (3 <? pe_fails p + 1) eqn:Elt.
      * apply N.ltb_lt in Elt. split; [lia|]. intros _. apply gone_stays; [eapply keyed_sub; [done|apply delete_subseteq]|done|apply lookup_delete].
      * apply N.ltb_ge in Elt. destruct (IH (<[n:=report_fail p]> m) n (report_fail p)) as [H1 H2].
        { pose proof (keyed_step m (PFail n) Hk) as Hk'. cbn in Hk'. rewrite transfer_failed_spec, Hm in Hk' by done.
          unfold failed_too_much in Hk'. rewrite Hrf, Hs in Hk'. cbn [negb] in Hk'. rewrite andb_true_r in Hk'.
          destruct (3 <? pe_fails p + 1) eqn:E2; [apply N.ltb_lt in E2; lia|done]. }
        { done. } { apply lookup_insert. } { done. } { lia. }
        rewrite Hrf in H1, H2. split; [|intros; apply H2; lia]. intros Hc. destruct H1 as (q' & Hq' & Hd'); [lia|]. exists q'. split; [done|].
        exact Hd'.
    + destruct (Hother ltac:(intros j [= <-]; done)) as (q & Hq & Hd & Hfq).
      destruct (IH _ n q (keyed_step _ _ Hk) Hf Hq) as [H1 H2]; [destruct Hd as (?&?&Hd&?&?&?); congruence|lia|].
      rewrite Hfq in *. split; [|done]. intros Hc. destruct (H1 Hc) as (q' & Hq' & Hd'). exists q'. split; [done|].
      by eapply same_data_trans.
Qed.
(** a static entry survives everything but explicit removal and replacement *)
Definition spares (n : string) (o : pop) : Prop :=
  match o with
  | PAdd p => eid_node (pe_eid p) <> Some n
  | PRemove i => i <> n
  | PClear => False
  | PBeacon self _ _ b => eid_node (bi_eid b) <> Some n
  | _ => True
  end.
Lemma static_stays ops : forall m n p, keyed m -> Forall (spares n) ops -> m !! n = Some p -> pe_static p = true ->
  exists q, prun ops m !! n = Some q /\ same_data q p.
Proof.
  unfold prun. induction ops as [|o ops IH]; intros m n p Hk Hf Hm Hs; [exists p; done|].
  apply Forall_cons in Hf as [Ho Hf]. cbn [fold_left].
  assert (Hstep : exists q, pstep m o !! n = Some q /\ same_data q p).
  { destruct o as [a|i|now i| |i|cf now|self now ip b]; try done.
    - exists p. rewrite neutral_other; done.
    - exists p. rewrite neutral_other; done.
    - cbn. unfold peers_touch. destruct (decide (i = n)) as [->|Hne].
      + exists (touch now p). rewrite lookup_alter, Hm. done.
      + exists p. rewrite lookup_alter_ne; done.
    - cbn [pstep]. rewrite transfer_failed_spec by done. destruct (decide (i = n)) as [->|Hne].
      + rewrite Hm, Hs. cbn [negb]. rewrite andb_false_r. exists (report_fail p). rewrite lookup_insert. done.
      + exists p. destruct (m !! i); [|done]. destruct (_ && _); [rewrite lookup_delete_ne|rewrite lookup_insert_ne]; done.
    - cbn. exists p. split; [|done]. apply map_filter_lookup_Some. split; [done|]. cbn. by rewrite Hs.
    - exists p. rewrite neutral_other; done. }
  destruct Hstep as (q & Hq & Hd). destruct (IH _ n q (keyed_step _ _ Hk) Hf Hq) as (q' & Hq' & Hd').
  { destruct Hd as (?&?&Hd&?&?&?). congruence. }
  exists q'. split; [done|]. by eapply same_data_trans.
Qed.
Lemma nodup_filter_fst {A B} (P : A * B -> Prop) `{!forall x, Decision (P x)} (l : list (A * B)) :
  NoDup (map fst l) -> NoDup (map fst (filter P l)).
Proof.
  induction l as [|x l IH]; [done|]. cbn [map]. intros [Hx Hl]%NoDup_cons. rewrite filter_cons. case_decide; [|by apply IH].
  cbn [map]. apply NoDup_cons. split; [|by apply IH]. intros (y & He & [_ Hy]%elem_of_list_filter)%elem_of_list_fmap.
  apply Hx. rewrite He. apply elem_of_list_fmap. eauto.
Qed.
