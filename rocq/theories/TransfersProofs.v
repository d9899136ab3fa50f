(** Proofs for Transfers.v. *)
From stdpp Require Import prelude strings pretty.
From Coq Require Import Ascii NArith Lia ZifyBool ZifyN ZifyNat.
From Verif Require Import Bytes Core Peers Transfers IdProofs StaticProofs.
Open Scope N_scope.

Definition is_digit (c : Ascii.ascii) : bool := (48 <=? Ascii.N_of_ascii c) && (Ascii.N_of_ascii c <=? 57).
Definition no_digit_first (s : string) : Prop := match s with "" => True | String c _ => is_digit c = false end.
Lemma take_digits_app t : all_digits t -> forall s, no_digit_first s -> take_digits (t +:+ s) = (fst (take_digits t), s).
Proof.
  induction t as [|c t IH]; intros Ht s Hs.
  - rewrite app_nil_s. destruct s as [|c s]; [done|]. cbn [take_digits]. unfold no_digit_first, is_digit in Hs. by rewrite Hs.
  - destruct Ht as [Hc Ht]. rewrite app_cons_s. cbn [take_digits]. rewrite Hc, IH by done. by destruct (take_digits t).
Qed.
Lemma digits_foldl t : all_digits t -> forall acc, foldl (fun acc d => 10 * acc + d) acc (fst (take_digits t)) = dval t acc.
Proof.
  induction t as [|c t IH]; intros Ht acc; [done|]. destruct Ht as [Hc Ht]. cbn [take_digits]. rewrite Hc.
  specialize (IH Ht (10 * acc + (Ascii.N_of_ascii c - 48))). destruct (take_digits t). cbn [fst foldl dval] in *. done.
Qed.
Lemma digits_nonempty t : all_digits t -> t <> "" -> length (fst (take_digits t)) <> 0%nat.
Proof. destruct t as [|c t]; [done|]. intros [Hc _] _. cbn [take_digits]. rewrite Hc. by destruct (take_digits t). Qed.

Lemma octet_shape i : i < 256 -> (3 <? length (fst (take_digits (pretty i))))%nat = false /\
  (1 <? length (fst (take_digits (pretty i))))%nat && (default 1 (head (fst (take_digits (pretty i)))) =? 0) = false.
Proof.
  intros Hi.
  assert (H : Forall (fun n => (3 <? length (fst (take_digits (pretty (N.of_nat n)))))%nat = false /\
    (1 <? length (fst (take_digits (pretty (N.of_nat n)))))%nat && (default 1 (head (fst (take_digits (pretty (N.of_nat n))))) =? 0) = false) (seq 0 256)).
  { apply Forall_forall. intros n Hn.
    assert (Ha : forallb (fun n => negb (3 <? length (fst (take_digits (pretty (N.of_nat n)))))%nat && negb ((1 <? length (fst (take_digits (pretty (N.of_nat n)))))%nat && (default 1 (head (fst (take_digits (pretty (N.of_nat n))))) =? 0))) (seq 0 256) = true) by (vm_compute; reflexivity).
    rewrite forallb_forall in Ha. specialize (Ha n). apply andb_true_iff in Ha as [H1 H2]; [|by apply elem_of_list_In].
    by rewrite !negb_true_iff in *. }
  rewrite Forall_forall in H. specialize (H (N.to_nat i)). rewrite N2Nat.id in H. apply H. apply elem_of_seq. lia.
Qed.
Lemma octet_pretty i s : i < 256 -> no_digit_first s -> octet (pretty i +:+ s) = Some (i, s).
Proof.
  intros Hi Hs. destruct (pretty_digits_all i) as (H1 & H2 & H3). unfold octet, number. rewrite take_digits_app by done.
  pose proof (digits_nonempty _ H1 H3) as Hn. destruct (octet_shape i Hi) as [Ha Hb].
  replace (length _ =? 0)%nat with false by (symmetry; by apply Nat.eqb_neq). rewrite Ha. cbn [negb andb]. rewrite Hb.
  unfold digits_value. rewrite digits_foldl by done. rewrite H2. by replace (i <? 256) with true by (symmetry; by apply N.ltb_lt).
Qed.
Lemma port_pretty i : i < 65536 -> port_of (pretty i) = Some (i, "").
Proof.
  intros Hi. destruct (pretty_digits_all i) as (H1 & H2 & H3). unfold port_of, number. rewrite <- (app_nil_r_s (pretty i)), take_digits_app by done.
  pose proof (digits_nonempty _ H1 H3) as Hn.
  replace (length _ =? 0)%nat with false by (symmetry; by apply Nat.eqb_neq). cbn [negb andb].
  unfold digits_value. rewrite digits_foldl by done. rewrite H2. by replace (i <? 65536) with true by (symmetry; by apply N.ltb_lt).
Qed.
Lemma parse_v4_text a b c d port : a < 256 -> b < 256 -> c < 256 -> d < 256 -> port < 65536 ->
  parse_v4 ((pretty a +:+ "." +:+ pretty b +:+ "." +:+ pretty c +:+ "." +:+ pretty d) +:+ ":" +:+ pretty port) = Some (SV4 a b c d port).
Proof.
  intros. rewrite !app_assoc_s. unfold parse_v4.
  rewrite octet_pretty by done. cbn [mbind option_bind]. rewrite app_cons_s. cbn [given]. change (Ascii.N_of_ascii "."%char =? 46) with true. cbn [mbind option_bind]. rewrite app_nil_s.
  rewrite octet_pretty by done. cbn [mbind option_bind]. rewrite app_cons_s. cbn [given]. change (Ascii.N_of_ascii "."%char =? 46) with true. cbn [mbind option_bind]. rewrite app_nil_s.
  rewrite octet_pretty by done. cbn [mbind option_bind]. rewrite app_cons_s. cbn [given]. change (Ascii.N_of_ascii "."%char =? 46) with true. cbn [mbind option_bind]. rewrite app_nil_s.
  rewrite octet_pretty by done. cbn [mbind option_bind]. rewrite app_cons_s. cbn [given]. change (Ascii.N_of_ascii ":"%char =? 58) with true. cbn [mbind option_bind]. rewrite app_nil_s.
  rewrite port_pretty by done. cbn [mbind option_bind]. by rewrite bool_decide_true.
Qed.

(** ** Texts with two colons *)
Fixpoint colons (s : string) : nat :=
  match s with "" => 0 | String c s => (if Ascii.ascii_dec c ":"%char then 1 else 0) + colons s end.
Lemma colons_app s t : colons (s +:+ t) = (colons s + colons t)%nat.
Proof. induction s as [|c s IH]; [done|]. rewrite app_cons_s. cbn [colons]. lia. Qed.
Lemma take_digits_colons s : colons s = colons (snd (take_digits s)).
Proof.
  induction s as [|c s IH]; [done|]. cbn [take_digits colons].
  destruct ((48 <=? Ascii.N_of_ascii c) && (Ascii.N_of_ascii c <=? 57)) eqn:E; [|done].
  destruct (take_digits s) as [ds t]. cbn [snd] in *. destruct (Ascii.ascii_dec c ":"%char) as [->|]; [by vm_compute in E|]. done.
Qed.
Lemma number_colons m z l s n r : number m z l s = Some (n, r) -> colons s = colons r.
Proof.
  unfold number. rewrite (take_digits_colons s). destruct (take_digits s) as [ds t]. cbn [snd].
  repeat case_match; intros; simplify_eq; done.
Qed.
Lemma given_colons c s r : given c s = Some r -> colons s = ((if (c =? 58)%N then 1 else 0) + colons r)%nat.
Proof.
  destruct s as [|x s]; [done|]. cbn [given colons]. destruct (Ascii.N_of_ascii x =? c) eqn:E; [|done]. intros; simplify_eq.
  apply N.eqb_eq in E. subst c. destruct (Ascii.ascii_dec x ":"%char) as [->|Hx]; [done|].
  destruct (Ascii.N_of_ascii x =? 58) eqn:E; [|done]. apply N.eqb_eq in E. exfalso. apply Hx.
  rewrite <- (Ascii.ascii_N_embedding x), E. done.
Qed.
Lemma parse_v4_colons s a : parse_v4 s = Some a -> colons s = 1%nat.
Proof.
  unfold parse_v4. intros H. repeat (apply bind_Some in H as [[? ?] [? H]] || apply bind_Some in H as [? [? H]]).
  case_bool_decide; [|done]. subst.
  repeat match goal with
    | H : octet _ = Some _ |- _ => apply number_colons in H
    | H : port_of _ = Some _ |- _ => apply number_colons in H
    | H : given _ _ = Some _ |- _ => apply given_colons in H; cbn [N.eqb Pos.eqb] in H
  end. cbn [colons] in *. lia.
Qed.
Section t.
Context (parse_v6 : string -> option (string * N)).
Lemma no_sock t p : (2 <= colons t)%nat -> given 91 (t +:+ p) = None -> parse_sock parse_v6 (t +:+ p) = None.
Proof.
  intros Hc Hg. unfold parse_sock. rewrite Hg. destruct (parse_v4 (t +:+ p)) eqn:E; [|done].
  apply parse_v4_colons in E. rewrite colons_app in E. lia.
Qed.
Lemma transfers_dead k l : transfers parse_v6 k false l = false.
Proof. induction l as [|[d x] l IH]; [done|]. cbn. done. Qed.
Lemma transfers_app k l1 : forall al l2, transfers parse_v6 k al (l1 ++ l2) = transfers parse_v6 k (transfers parse_v6 k al l1) l2.
Proof. induction l1 as [|[d x] l IH]; intros; [done|]. cbn. done. Qed.
Lemma transfers_alive k l : k = Http \/ k = Tcp \/ Forall (fun x => parse_sock parse_v6 (fst x) <> None) l ->
  transfers parse_v6 k true l = true.
Proof.
  induction l as [|[d x] l IH]; intros H; [done|]. cbn [transfers].
  assert (fst (on_transfer parse_v6 k true d x) = true) as ->.
  - unfold on_transfer. cbn [negb]. destruct H as [->|[->|H]]; [repeat case_match; done..|].
    apply Forall_cons in H as [H _]. cbn [fst] in H. destruct k, x; try done; destruct (parse_sock parse_v6 d) as [[]|] eqn:E; try done.
  - apply IH. destruct H as [?|[?|H]]; [auto..|]. apply Forall_cons in H as [_ H]. auto.
Qed.
End t.
