(** Bundle ids (C57). *)
From Verif Require Import Core.
From stdpp Require Import prelude strings pretty.
From Coq Require Import NArith Lia Ascii.
Open Scope N_scope.

Fixpoint free (c : ascii) (s : string) : Prop :=
  match s with EmptyString => True | String d s => d <> c /\ free c s end.
Lemma free_app c s t : free c (s +:+ t) <-> free c s /\ free c t.
Proof.
  induction s as [|d s IH]; [cbn; tauto|].
  change (String d s +:+ t) with (String d (s +:+ t)). cbn [free]. rewrite IH. tauto.
Qed.
Lemma app_nil_s (t : string) : "" +:+ t = t.
Proof. reflexivity. Qed.
Lemma app_cons_s c (s t : string) : String c s +:+ t = String c (s +:+ t).
Proof. reflexivity. Qed.
Lemma split_last c s1 : forall s2 d1 d2, free c d1 -> free c d2 ->
  s1 +:+ String c d1 = s2 +:+ String c d2 -> s1 = s2 /\ d1 = d2.
Proof.
  induction s1 as [|a s1 IH]; intros [|b s2] d1 d2 H1 H2 H; rewrite ?app_nil_s, ?app_cons_s in H.
  - by injection H as ->.
  - injection H as -> ->. apply free_app in H1 as [_ [? _]]. done.
  - injection H as -> <-. apply free_app in H2 as [_ [? _]]. done.
  - injection H as -> H. destruct (IH s2 d1 d2 H1 H2 H) as [-> ->]. done.
Qed.
Lemma split_first c s1 : forall s2 d1 d2, free c s1 -> free c s2 ->
  s1 +:+ String c d1 = s2 +:+ String c d2 -> s1 = s2 /\ d1 = d2.
Proof.
  induction s1 as [|a s1 IH]; intros [|b s2] d1 d2 H1 H2 H; rewrite ?app_nil_s, ?app_cons_s in H; cbn [free] in *.
  - by injection H as ->.
  - destruct H2 as [Hb _]. injection H as Hc _. by subst.
  - destruct H1 as [Hb _]. injection H as Hc _. by subst.
  - injection H as -> H. destruct (IH s2 d1 d2 ltac:(tauto) ltac:(tauto) H) as [-> ->]. done.
Qed.

Lemma app_assoc_s (s t u : string) : (s +:+ t) +:+ u = s +:+ (t +:+ u).
Proof. induction s as [|c s IH]; [done|]. rewrite !app_cons_s. by rewrite IH. Qed.
Lemma app_nil_r_s (s : string) : s +:+ "" = s.
Proof. induction s as [|c s IH]; [done|]. rewrite app_cons_s. by rewrite IH. Qed.

Definition dash : ascii := "-"%char.
Definition dot : ascii := "."%char.
Lemma pretty_digits (c : ascii) : (forall x, pretty_N_char x <> c) ->
  forall x acc, free c acc -> free c (pretty_N_go x acc).
Proof.
  intros Hc x. induction (N.lt_wf_0 x) as [x _ IH]. intros acc Ha. destruct (decide (0 < x)) as [Hx|Hx].
  - rewrite pretty_N_go_step by done. apply IH; [apply N.div_lt; lia|]. cbn. split; [apply Hc|done].
  - replace x with 0 by lia. by rewrite pretty_N_go_0.
Qed.
Lemma char_digit (c : ascii) x : bool_decide (c = "0"%char) = false -> bool_decide (c = "1"%char) = false ->
  bool_decide (c = "2"%char) = false -> bool_decide (c = "3"%char) = false -> bool_decide (c = "4"%char) = false ->
  bool_decide (c = "5"%char) = false -> bool_decide (c = "6"%char) = false -> bool_decide (c = "7"%char) = false ->
  bool_decide (c = "8"%char) = false -> bool_decide (c = "9"%char) = false -> pretty_N_char x <> c.
Proof.
  intros H0 H1 H2 H3 H4 H5 H6 H7 H8 H9 H. apply bool_decide_eq_false in H0, H1, H2, H3, H4, H5, H6, H7, H8, H9.
  unfold pretty_N_char in H. repeat case_match; congruence.
Qed.
Lemma pretty_free_dash (x : N) : free dash (pretty x).
Proof.
  unfold pretty, pretty_N. case_decide; [cbn; done|]. apply pretty_digits; [|done]. intros y. by apply char_digit.
Qed.
Lemma pretty_free_dot (x : N) : free dot (pretty x).
Proof.
  unfold pretty, pretty_N. case_decide; [cbn; done|]. apply pretty_digits; [|done]. intros y. by apply char_digit.
Qed.

(** a dtn node name has no slash *)
Definition wf_eid (e : eid) : Prop := match e with Dtn n _ => free "/"%char n | _ => True end.
Lemma eid_string_inj a b : wf_eid a -> wf_eid b -> eid_string a = eid_string b -> a = b.
Proof.
  destruct a as [|n s|n s], b as [|n' s'|n' s']; cbn; intros Ha Hb H; try discriminate H; [done| |].
  - injection H as H. apply split_first in H as [-> ->]; done.
  - injection H as H. apply split_first in H as [H1 H2]; [|apply pretty_free_dot|apply pretty_free_dot].
    apply (inj pretty) in H1, H2. by subst.
Qed.

Lemma bid_inj b1 b2 : wf_eid (b_src b1) -> wf_eid (b_src b2) ->
  bf_fragment (b_flags b1) = bf_fragment (b_flags b2) -> bid b1 = bid b2 ->
  b_src b1 = b_src b2 /\ b_time b1 = b_time b2 /\ b_seq b1 = b_seq b2 /\
  (bf_fragment (b_flags b1) = true -> b_off b1 = b_off b2).
Proof.
  intros H1 H2 Hf H. unfold bid in H. rewrite <- Hf in H.
  assert (Hgo : forall s1 s2 (t1 t2 q1 q2 : N),
    s1 +:+ "-" +:+ pretty t1 +:+ "-" +:+ pretty q1 = s2 +:+ "-" +:+ pretty t2 +:+ "-" +:+ pretty q2 ->
    s1 = s2 /\ t1 = t2 /\ q1 = q2).
  { intros s1 s2 t1 t2 q1 q2 Hx.
    replace (s1 +:+ "-" +:+ pretty t1 +:+ "-" +:+ pretty q1) with ((s1 +:+ "-" +:+ pretty t1) +:+ String dash (pretty q1)) in Hx
      by (rewrite !app_assoc_s; reflexivity).
    replace (s2 +:+ "-" +:+ pretty t2 +:+ "-" +:+ pretty q2) with ((s2 +:+ "-" +:+ pretty t2) +:+ String dash (pretty q2)) in Hx
      by (rewrite !app_assoc_s; reflexivity).
    apply split_last in Hx as [Hx Hq]; [|apply pretty_free_dash|apply pretty_free_dash].
    apply (inj pretty) in Hq. apply (split_last dash) in Hx as [-> Ht]; [|apply pretty_free_dash|apply pretty_free_dash].
    apply (inj pretty) in Ht. done. }
  destruct (bf_fragment (b_flags b1)).
  - set (e1 := eid_string (b_src b1)) in *. set (e2 := eid_string (b_src b2)) in *.
    replace (e1 +:+ "-" +:+ pretty (b_time b1) +:+ "-" +:+ pretty (b_seq b1) +:+ "-" +:+ pretty (b_off b1))
      with ((e1 +:+ "-" +:+ pretty (b_time b1)) +:+ "-" +:+ pretty (b_seq b1) +:+ "-" +:+ pretty (b_off b1)) in H
      by (rewrite !app_assoc_s; reflexivity).
    replace (e2 +:+ "-" +:+ pretty (b_time b2) +:+ "-" +:+ pretty (b_seq b2) +:+ "-" +:+ pretty (b_off b2))
      with ((e2 +:+ "-" +:+ pretty (b_time b2)) +:+ "-" +:+ pretty (b_seq b2) +:+ "-" +:+ pretty (b_off b2)) in H
      by (rewrite !app_assoc_s; reflexivity).
    apply Hgo in H as (H & Hs & Ho). apply (split_last dash) in H as [H Ht]; [|apply pretty_free_dash|apply pretty_free_dash].
    apply (inj pretty) in Ht. subst e1 e2. apply eid_string_inj in H; done.
  - rewrite !app_nil_r_s in H. apply Hgo in H as (H & Ht & Hs). apply eid_string_inj in H; done.
Qed.
