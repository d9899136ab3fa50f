(** C127: what external convergence layers hand to the node (model: Ecla.v). *)
From stdpp Require Import prelude strings pretty gmap.
From Coq Require Import NArith Lia.
From Verif Require Import Bytes Cbor Core Peers Routing Beacon Ecla EclaProofs EclaInv EclaLive Props_Ecla.
Open Scope N_scope.

(** ** Vocabulary *)
(** the bundles the node took in from connection [i], in order *)
Definition taken (s : ecla) (i : nat) : list bundle :=
  omap (fun o => match o with OBundle j b => if bool_decide (j = i) then Some b else None | _ => None end) (e_log s).
(** the data of the forward packets that came over connection [i], in order *)
Definition forwarded (evs : list event) (i : nat) : list (list N) :=
  omap (fun e => match e with EPacket j _ (PForward _ _ _ data) => if bool_decide (j = i) then Some data else None | _ => None end) evs.

Section c127.
Context (dec_bundle : list N -> option bundle)
  (read_block : list N -> option (list (string * option N) * list (N * string)))
  (own_block : list layer -> option (list N))
  (self : eid) (nodeid : string) (connectors : list kind).
Notation runs := (runs dec_bundle read_block own_block self nodeid connectors).
Notation step := (step dec_bundle read_block own_block self nodeid connectors).

Lemma taken_log s s' l i : e_log s' = e_log s ++ l -> taken s' i = taken s i ++
  omap (fun o => match o with OBundle j b => if bool_decide (j = i) then Some b else None | _ => None end) l.
Proof. intros E. unfold taken. by rewrite E, omap_app. Qed.
Lemma taken_harmless s s' l i : e_log s' = e_log s ++ l -> Forall harmless l -> taken s' i = taken s i.
Proof.
  intros E Hl. rewrite (taken_log _ _ _ i E). assert (H : omap (fun o => match o with OBundle j b => if bool_decide (j = i) then Some b else None | _ => None end) l = []).
  { clear E. induction Hl as [|o l Ho Hl IH]; [done|]. cbn. rewrite IH. by destruct o. }
  by rewrite H, app_nil_r.
Qed.
Lemma taken_quiet s s' i : quiet s s' -> taken s' i = taken s i.
Proof. intros Hq. destruct (q_log _ _ Hq) as (l & E & Hl). by eapply taken_harmless. Qed.
Lemma kind_kept s e s' i t t' : sfx dec_bundle read_block s e s' -> e_tasks s !! i = Some t -> e_tasks s' !! i = Some t' -> t_kind t' = t_kind t.
Proof.
  intros Hf Ht Ht'. destruct (sfx_tasks _ _ _ _ _ Hf i t' Ht') as [(t0 & Ht0 & Hk & _)|(k & ip & port & -> & Hk & _)]; [congruence|].
  inversion Hf as [k0 ip0 port0 a n Ha Hn Hg| | |e s1 Hx Hq| | | | | | |]; subst; [|done].
  cbn in Ht'. rewrite (lookup_app_l_Some _ _ _ _ Ht) in Ht'. by injection Ht' as <-.
Qed.
(** one step, once connection [i] is registered *)
Lemma taken_step b e s s' i n : einv b s -> e_bad s' = [] -> step e s = Some s' -> acc s i n ->
  (forall t, e_tasks s !! i = Some t -> t_kind t ∈ connectors) ->
  taken s' i = taken s i ++ omap dec_bundle (forwarded [e] i) /\ acc s' i n /\ (forall t', e_tasks s' !! i = Some t' -> t_kind t' ∈ connectors).
Proof.
  intros Hi Hb Hs Ha Hk. pose proof (step_fine _ _ _ _ _ _ _ _ _ Hs Hb) as Hf.
  assert (Hbs : e_bad s = []) by (by rewrite <- (sfx_bad _ _ _ _ _ Hf)).
  destruct (v_acc _ _ Hi i n Ha) as (Hne & ti & Hti & _).
  assert (Hkind : forall t', e_tasks s' !! i = Some t' -> t_kind t' ∈ connectors).
  { intros t' Ht'. rewrite (kind_kept _ _ _ _ _ _ Hf Hti Ht'). by apply Hk. }
  assert (Hlog : forall l, e_log s' = e_log s ++ l -> acc s' i n).
  { intros l E. unfold acc. rewrite E, elem_of_app. by left. }
  assert (Hnone : forwarded [e] i = [] -> e_log s' = e_log s -> taken s' i = taken s i ++ omap dec_bundle (forwarded [e] i) /\ acc s' i n /\ (forall t', e_tasks s' !! i = Some t' -> t_kind t' ∈ connectors)).
  { intros -> E. split; [|split; [|done]]; [|by eapply (Hlog []); rewrite app_nil_r]. cbn. rewrite app_nil_r. unfold taken. by rewrite E. }
  assert (Hquiet : forwarded [e] i = [] -> quiet s s' -> taken s' i = taken s i ++ omap dec_bundle (forwarded [e] i) /\ acc s' i n /\ (forall t', e_tasks s' !! i = Some t' -> t_kind t' ∈ connectors)).
  { intros -> Hq. split; [|split; [|done]]; [|by apply (quiet_acc _ _ i n Hq)]. cbn. by rewrite app_nil_r, (taken_quiet _ _ i Hq). }
  (* a forward packet of this connection *)
  assert (Hfwd : forall now x y z data, e = EPacket i now (PForward x y z data) ->
    taken s' i = taken s i ++ omap dec_bundle (forwarded [e] i) /\ acc s' i n /\ (forall t', e_tasks s' !! i = Some t' -> t_kind t' ∈ connectors)).
  { intros now x y z data ->. destruct ti as [k a ph g]. cbn [Ecla.step] in Hs. rewrite Hti in Hs.
    assert (Hph : ph = Up) by (destruct k, ph; done). subst ph.
    destruct (v_mod _ _ Hi i _ Hti eq_refl) as (act & m & Hm & Hact & _). destruct (proj1 (Hact n) Ha) as [-> <-]. cbn [t_addr t_kind] in Hm.
    specialize (Hk _ Hti). cbn in Hk.
    assert (Hh : handle_packet dec_bundle read_block own_block self nodeid connectors i now k a (PForward x y z data) s =
      match dec_bundle data with Some bn => Fine (note (OBundle i bn) s) | None => Fine s end).
    { unfold handle_packet. rewrite locked_fine by done. cbn beta. rewrite Hm, locked_fine by done. rewrite bool_decide_true by done. done. }
    assert (Hs' : s' = match dec_bundle data with Some bn => note (OBundle i bn) s | None => s end).
    { pose proof (v_conn _ _ Hi i _ Hti eq_refl) as [c Hc]. cbn in Hc.
      destruct k; injection Hs as <-; rewrite ?locked_fine by done; cbn beta; rewrite ?Hc; rewrite Hh; destruct (dec_bundle data); cbn; by rewrite upd_id. }
    assert (Hfw : forwarded [EPacket i now (PForward x y z data)] i = [data]) by (unfold forwarded; cbn; by rewrite bool_decide_true).
    rewrite Hfw. cbn [omap list_omap].
    destruct (dec_bundle data) as [bn|]; subst s'.
    - rewrite (taken_log s (note (OBundle i bn) s) [OBundle i bn] i eq_refl). cbn. rewrite bool_decide_true by done. split; [done|]. split; [by eapply (Hlog [OBundle i bn])|done].
    - rewrite app_nil_r. done. }
  destruct Hf as [k ip port a m Hadr Hn Hg|j k a g Hj|j now p k a g s1 Hj Hp|e s1 Hx Hq|j t Hj|j a g Hj|j a g Hj|j k a g m k' Hj Hm|j k a g Hj Hm|j k a g Hj|j a g Hj];
    try (by apply Hnone).
  - destruct (decide (j = i)) as [->|Hji].
    + destruct p; try (by eapply Hfwd); inversion Hp; subst; try (by apply Hquiet).
      * exfalso. destruct (v_mod _ _ Hi i _ Hj eq_refl) as (act & m & Hm & Hact & _). destruct (proj1 (Hact n) Ha) as [-> <-]. cbn in Hm. congruence.
      * split; [|split; [|done]]; [|by eapply (Hlog [_])]. unfold taken; cbn [e_log note set_peers]; rewrite omap_app; cbn; by rewrite app_nil_r.
    + assert (Hfo : forwarded [EPacket j now p] i = []). { unfold forwarded. destruct p; try done. cbn. by rewrite bool_decide_false. }
      inversion Hp as [p0 s2 Hq|name bb port kk nn s2 Hm Hnm Hnot Hq|x y z data bn nn kk Hm Hd|ee addr blk clas sv nn kk m u Hm Hr Hadd]; subst.
      * by apply Hquiet.
      * rewrite Hfo. cbn. rewrite app_nil_r. split; [|split; [|done]].
        -- rewrite (taken_quiet _ _ i Hq). unfold taken; cbn [e_log note set_layers set_modules]; rewrite omap_app; cbn; by rewrite app_nil_r.
        -- apply (quiet_acc _ _ i n Hq). unfold acc. cbn. apply elem_of_app. by left.
      * rewrite Hfo. cbn. rewrite app_nil_r. split; [|split; [|done]]; [|by eapply (Hlog [_])].
        unfold taken; cbn [e_log note]; rewrite omap_app; cbn; rewrite bool_decide_false by done. by rewrite app_nil_r.
      * rewrite Hfo. cbn. rewrite app_nil_r. split; [|split; [|done]]; [|by eapply (Hlog [_])].
        unfold taken; cbn [e_log note set_peers]; rewrite omap_app; cbn; by rewrite app_nil_r.
  - destruct e as [| |j now p| | | | | | | | |]; try done; try (by apply Hquiet).
    destruct (decide (j = i)) as [->|Hji]; [|apply Hquiet; [|done]; unfold forwarded; destruct p; try done; cbn; by rewrite bool_decide_false].
    destruct p; try (by apply Hquiet). by eapply Hfwd.
Qed.
(** the step that registers connection [i] *)
Lemma acc_new e s s' i n : e_bad s' = [] -> step e s = Some s' -> ~ acc s i n -> acc s' i n ->
  taken s' i = taken s i /\ forall t', e_tasks s' !! i = Some t' -> t_kind t' ∈ connectors.
Proof.
  intros Hb Hs Hno Ha. pose proof (step_fine _ _ _ _ _ _ _ _ _ Hs Hb) as Hf.
  assert (Hbs : e_bad s = []) by (by rewrite <- (sfx_bad _ _ _ _ _ Hf)).
  assert (Hsame : e_log s' = e_log s -> taken s' i = taken s i /\ forall t', e_tasks s' !! i = Some t' -> t_kind t' ∈ connectors).
  { intros E. exfalso. apply Hno. unfold acc in *. by rewrite <- E. }
  assert (Hquiet : quiet s s' -> taken s' i = taken s i /\ forall t', e_tasks s' !! i = Some t' -> t_kind t' ∈ connectors).
  { intros Hq. exfalso. apply Hno. by apply (quiet_acc _ _ i n Hq). }
  destruct Hf as [k ip port a m Hadr Hn Hg|j k a g Hj|j now p k a g s1 Hj Hp|e s1 Hx Hq|j t Hj|j a g Hj|j a g Hj|j k a g m k' Hj Hm|j k a g Hj Hm|j k a g Hj|j a g Hj];
    try (by apply Hsame); [|by apply Hquiet].
  inversion Hp as [p0 s2 Hq|name bb port kk nn s2 Hm Hnm Hnot Hq|x y z data bn nn kk Hm Hd|ee addr blk clas sv nn kk m u Hm Hr Hadd]; subst.
  - by apply Hquiet.
  - apply (quiet_acc _ _ i n Hq) in Ha. unfold acc in Ha. cbn in Ha. apply elem_of_app in Ha as [Ha|Ha%elem_of_list_singleton]; [done|].
    injection Ha as <- <-. split.
    + rewrite (taken_quiet _ _ i Hq). unfold taken; cbn [e_log note set_layers set_modules]; rewrite omap_app; cbn. by rewrite app_nil_r.
    + intros t' Ht'. rewrite (q_tasks _ _ Hq) in Ht'. cbn in Ht'. rewrite Hj in Ht'. injection Ht' as <-. cbn.
      destruct (decide (k ∈ connectors)) as [|Hc]; [done|]. exfalso.
      assert (Hh : handle_packet dec_bundle read_block own_block self nodeid connectors i now k a (PRegister n bb port) s = Fine s).
      { unfold handle_packet. rewrite locked_fine by done. cbn beta. rewrite Hm, locked_fine by done. by rewrite bool_decide_false. }
      assert (Hs' : s1 = s). { cbn [Ecla.step] in Hs. rewrite Hj in Hs. destruct k.
        - injection Hs as <-. rewrite locked_fine by done. cbn beta. destruct (e_conns s !! (WS, a)); rewrite ?Hh; cbn; by rewrite upd_id.
        - injection Hs as <-. rewrite Hh. cbn. by rewrite upd_id. }
      subst s1. destruct (q_log _ _ Hq) as (l & E & _). cbn in E. apply (f_equal length) in E. rewrite !app_length in E. cbn in E. lia.
  - exfalso. apply Hno. unfold acc in *. cbn in Ha. by apply elem_of_app in Ha as [Ha|Ha%elem_of_list_singleton].
  - exfalso. apply Hno. unfold acc in *. cbn in Ha. by apply elem_of_app in Ha as [Ha|Ha%elem_of_list_singleton].
Qed.
Lemma fresh_prefix s0 evs1 evs2 : fresh_addresses dec_bundle read_block own_block self nodeid connectors s0 (evs1 ++ evs2) ->
  fresh_addresses dec_bundle read_block own_block self nodeid connectors s0 evs1.
Proof. intros H l1 ip port l2 s1 -> Hr. eapply (H l1 ip port (l2 ++ evs2)); [by rewrite <- app_assoc|done]. Qed.
(** C127: the node takes in exactly the bundles a module forwards once it is
    registered (those that can be read), in order; before that, none. *)
Theorem C127_taken_in : forall builtin ps evs1 e evs2 s1 s2 s i n,
  configured builtin -> runs (start builtin ps) (evs1 ++ e :: evs2) s ->
  no_panic s -> fresh_addresses dec_bundle read_block own_block self nodeid connectors (start builtin ps) (evs1 ++ e :: evs2) ->
  (* [e] is the step that registers connection [i] *)
  runs (start builtin ps) evs1 s1 -> step e s1 = Some s2 -> (forall m, ~ registered s1 i m) -> registered s2 i n ->
  taken s1 i = [] /\ taken s i = omap dec_bundle (forwarded evs2 i).
Proof.
  intros builtin ps evs1 e evs2 s1 s2 s i n Hb Hr Hp Hf Hr1 Hs Hnot Hreg.
  assert (Hr2 : runs (start builtin ps) (evs1 ++ [e]) s2) by (by eapply runs_snoc).
  assert (Hgen : forall evs2 s, runs (start builtin ps) ((evs1 ++ [e]) ++ evs2) s -> no_panic s ->
     fresh_addresses dec_bundle read_block own_block self nodeid connectors (start builtin ps) ((evs1 ++ [e]) ++ evs2) ->
     e_bad s2 = [] /\ (forall t, e_tasks s !! i = Some t -> t_kind t ∈ connectors) /\ acc s i n /\ taken s i = taken s1 i ++ omap dec_bundle (forwarded evs2 i)).
  { clear Hr Hp Hf evs2 s. induction evs2 as [|e2 evs2 IH] using rev_ind; intros s H Hp Hf.
    - rewrite app_nil_r in H. pose proof (runs_exec _ _ _ _ _ _ _ _ _ H) as E1. rewrite (runs_exec _ _ _ _ _ _ _ _ _ Hr2) in E1. injection E1 as <-.
      destruct (acc_new _ _ _ _ _ Hp Hs (Hnot n) Hreg) as [H1 H2]. split; [done|]. split; [done|]. split; [exact Hreg|]. cbn. by rewrite app_nil_r.
    - rewrite app_assoc in H. inversion H as [E|evs' e' s3 s' H3 Hs3 E1]; [by destruct (app_cons_not_nil _ _ _ E)|].
      apply app_inj_tail in E1 as [-> ->]. subst s'.
      pose proof (step_fine _ _ _ _ _ _ _ _ _ Hs3 Hp) as Hf3.
      assert (Hp3 : e_bad s3 = []) by (by rewrite <- (sfx_bad _ _ _ _ _ Hf3)).
      rewrite app_assoc in Hf. pose proof (fresh_prefix _ _ _ Hf) as Hf'.
      pose proof (einv_runs _ _ _ _ _ _ _ _ _ _ Hb H3 Hp3 Hf') as Hi3.
      destruct (IH s3 H3 Hp3 Hf') as (G1 & G2 & G3 & G4).
      destruct (taken_step _ _ _ _ i n Hi3 Hp Hs3 G3 G2) as (T1 & T2 & T3). split; [done|]. split; [done|]. split; [done|].
      rewrite T1, G4, <- app_assoc. unfold forwarded. by rewrite !omap_app. }
  destruct (Hgen evs2 s) as (Hb2 & _ & _ & ->); [by rewrite <- app_assoc|done|by rewrite <- app_assoc|].
  assert (H0 : taken s1 i = []).
  { pose proof (step_fine _ _ _ _ _ _ _ _ _ Hs Hb2) as Hf1.
    pose proof (einv_runs _ _ _ _ _ _ _ _ _ _ Hb Hr1 ltac:(by rewrite <- (sfx_bad _ _ _ _ _ Hf1)) (fresh_prefix _ _ _ Hf)) as Hi.
    destruct (taken s1 i) as [|bn l] eqn:E; [done|]. exfalso.
    assert (Hin : bn ∈ taken s1 i) by (rewrite E; apply elem_of_list_here). unfold taken in Hin.
    apply elem_of_list_omap in Hin as (o & Ho & Hb'). destruct o as [|j bn'| | | |]; try done. case_bool_decide; [|done]. subst j.
    apply elem_of_list_split in Ho as (l1 & l2 & El). destruct (v_log _ _ Hi _ _ _ i El eq_refl) as (m & Hm). apply (Hnot m). unfold registered. rewrite El. apply elem_of_app. by left. }
  by rewrite H0.
Qed.
End c127.
Print Assumptions C127_taken_in.

(** A module that forwards a bundle too early, registers, and forwards another
    one, something that is no bundle, and the first one again. *)
Definition bundle_no (k : N) : bundle := Bundle (BFlags false false false false false false false) (Dtn "n" "in") (Dtn "m" "") (Dtn "m" "") 7 k 5000 0 0 [].
Definition dec1 (d : list N) : option bundle := match d with [k] => Some (bundle_no k) | _ => None end.
Definition fwd1 (d : list N) : event := EPacket 0 6 (PForward "" "10.0.0.9:5" "x" d).
Definition early1 : list event := [EOpen WS "" 0; EInit 0; fwd1 [1]].
Definition reg1 : event := EPacket 0 5 (PRegister "mtcp" false (Some 16162)).
Definition late1 : list event := [fwd1 [2]; fwd1 [1; 1]; ETick; fwd1 [1]].
Notation exec127 := (exec dec1 rb ob me "dtn://node1/" [WS; TCP]).
Notation runs127 := (runs dec1 rb ob me "dtn://node1/" [WS; TCP]).
Example C127_case : exists s1 s2 s, runs127 (start tcp0 ∅) (early1 ++ reg1 :: late1) s /\ no_panic s /\
  fresh_addresses dec1 rb ob me "dtn://node1/" [WS; TCP] (start tcp0 ∅) (early1 ++ reg1 :: late1) /\
  runs127 (start tcp0 ∅) early1 s1 /\ step dec1 rb ob me "dtn://node1/" [WS; TCP] reg1 s1 = Some s2 /\
  (forall m, ~ registered s1 0 m) /\ registered s2 0 "mtcp" /\ taken s 0 = [bundle_no 2; bundle_no 1].
Proof.
  destruct (exec127 early1 (start tcp0 ∅)) as [s1|] eqn:E1; [|by vm_compute in E1].
  destruct (exec127 (early1 ++ reg1 :: late1) (start tcp0 ∅)) as [s|] eqn:E; [|by vm_compute in E].
  destruct (step dec1 rb ob me "dtn://node1/" [WS; TCP] reg1 s1) as [s2|] eqn:E2; [|by vm_compute in E1; injection E1 as <-; vm_compute in E2].
  exists s1, s2, s. split; [by apply exec_runs|]. split; [|split; [|split; [by apply exec_runs|split; [done|split; [|split]]]]].
  - assert (H : e_bad <$> exec127 (early1 ++ reg1 :: late1) (start tcp0 ∅) = Some []) by by vm_compute. rewrite E in H. by injection H as H.
  - intros evs1 ip port evs2 s3 Heq _. exfalso. unfold early1, late1, reg1, fwd1 in Heq. cbn [app] in Heq.
    do 8 (destruct evs1 as [|? evs1]; cbn [app] in Heq; [done|injection Heq as ? Heq]). by destruct evs1.
  - assert (H : e_log <$> exec127 early1 (start tcp0 ∅) = Some []) by by vm_compute. rewrite E1 in H. injection H as H.
    intros m Hm. unfold registered in Hm. rewrite H in Hm. by apply elem_of_nil in Hm.
  - assert (H : (fun s => e_log s !! 0%nat) <$> (exec127 early1 (start tcp0 ∅) ≫= step dec1 rb ob me "dtn://node1/" [WS; TCP] reg1) = Some (Some (OAccepted 0 "mtcp"))) by by vm_compute.
    rewrite E1 in H. cbn [mbind option_bind] in H. rewrite E2 in H. cbn in H. injection H as H. by eapply elem_of_list_lookup_2.
  - assert (H : (fun s => taken s 0) <$> exec127 (early1 ++ reg1 :: late1) (start tcp0 ∅) = Some [bundle_no 2; bundle_no 1]) by by vm_compute.
    rewrite E in H. by injection H as H.
Qed.
