(** Proofs for Config.v. *)
From stdpp Require Import prelude strings pretty gmap.
From Coq Require Import Ascii NArith ZArith Lia ZifyBool ZifyN ZifyNat.
From Verif Require Import Core Peers Apps AppsProofs Httpd Transfers IdProofs StaticProofs TransfersProofs Config.
Open Scope N_scope.

Lemma split_free c a : free c a -> split_at c a = [a].
Proof.
  induction a as [|x a IH]; [done|]. intros [Hx Ha]. cbn. rewrite bool_decide_false by done. by rewrite IH.
Qed.
Lemma split_first_part c a b : free c a -> split_at c (a +:+ String c b) = a :: split_at c b.
Proof.
  induction a as [|x a IH]; intros Ha.
  - rewrite app_nil_s. cbn. by rewrite bool_decide_true.
  - destruct Ha as [Hx Ha]. rewrite app_cons_s. cbn. rewrite bool_decide_false by done. by rewrite IH.
Qed.
Lemma split_head c s : exists p, head (split_at c s) = Some p.
Proof. induction s as [|x s [p IH]]; [by exists ""|]. cbn. case_bool_decide; [by eexists|]. destruct (split_at c s); by eexists. Qed.
Lemma digits_free c s : all_digits s -> is_digit c = false -> free c s.
Proof.
  intros Hs Hc. induction s as [|x s IH]; [done|]. destruct Hs as [Hx Hs]. split; [|by apply IH]. intros ->. unfold is_digit in Hc. congruence.
Qed.
Lemma parse_uint_pretty lim i : i < lim -> parse_uint lim (pretty i) = Some i.
Proof.
  intros Hi. destruct (pretty_digits_all i) as (H1 & H2 & H3). unfold parse_uint.
  assert (given 43 (pretty i) = None) as ->.
  { destruct (pretty i) as [|c s]; [done|]. destruct H1 as [Hc _]. cbn. replace (N_of_ascii c =? 43) with false; [done|]. lia. }
  pose proof (take_digits_app (pretty i) H1 "" I) as Ht. rewrite app_nil_r_s in Ht. rewrite Ht.
  pose proof (digits_nonempty _ H1 H3) as Hn. pose proof (digits_foldl _ H1 0) as Hf. rewrite H2 in Hf.
  destruct (fst (take_digits (pretty i))) as [|d ds]; [done|]. unfold digits_value. rewrite Hf. by replace (i <? lim) with true by lia.
Qed.

(** ** Loops *)
Lemma all_of_app {A B} (f : B -> A -> option B) l1 : forall m l2, all_of f m (l1 ++ l2) = (m' ← all_of f m l1; all_of f m' l2).
Proof. induction l1 as [|x l IH]; intros m l2; [done|]. cbn. destruct (f m x); [apply IH|done]. Qed.
Lemma all_of_inv {A B} (f : B -> A -> option B) (P : B -> Prop) l : (forall m x m', x ∈ l -> P m -> f m x = Some m' -> P m') ->
  forall m m', P m -> all_of f m l = Some m' -> P m'.
Proof.
  induction l as [|x l IH]; intros Hf m m' Hm H; cbn in H; [by simplify_eq|]. destruct (f m x) as [m1|] eqn:E; [|done]. cbn in H.
  eapply (IH (fun m x m' Hx => Hf m x m' (elem_of_list_further _ _ _ Hx))); [|exact H]. eapply Hf; [left|exact Hm|exact E].
Qed.
(** services *)
Lemma add_service_spec m s m' : add_service m s = Some m' ->
  (forall t p, m !! t = Some p -> m' !! t = Some p) /\
  forall t p, t < 256 -> free ":"%char p -> s = pretty t +:+ ":" +:+ p -> m' !! t = Some p.
Proof.
  unfold add_service. intros H. destruct (split_at ":"%char s) as [|tag rest] eqn:Es; [done|]. destruct (parse_uint 256 tag) as [t|] eqn:Et; [|done]. cbn in H.
  case_bool_decide as Hk; [done|]. destruct (head rest) as [p|] eqn:Ep; [|done]. cbn in H. injection H as <-. split.
  - intros t' p' H'. rewrite lookup_insert_ne; [done|]. intros <-. rewrite H' in Hk. by destruct Hk.
  - intros t' p' Ht Hp ->. rewrite (app_cons_s ":"%char "" p'), app_nil_s in Es.
    assert (free ":"%char (pretty t')) by (apply digits_free; [apply pretty_digits_all|done]).
    rewrite split_first_part, split_free in Es by done. injection Es as <- <-. rewrite parse_uint_pretty in Et by done. injection Et as <-. cbn in Ep. injection Ep as <-. apply lookup_insert.
Qed.
Lemma services_spec l : forall m m', all_of add_service m l = Some m' ->
  (forall t p, m !! t = Some p -> m' !! t = Some p) /\
  forall t p, t < 256 -> free ":"%char p -> (pretty t +:+ ":" +:+ p) ∈ l -> m' !! t = Some p.
Proof.
  induction l as [|s l IH]; intros m m' H; cbn in H; [simplify_eq; split; [done|]; intros ? ? _ _ Hx; by apply elem_of_nil in Hx|].
  destruct (add_service m s) as [m1|] eqn:E; [|done]. cbn in H. destruct (IH _ _ H) as [H1 H2]. destruct (add_service_spec _ _ _ E) as [H3 H4].
  split; [by auto|]. intros t p Ht Hp Hin. apply elem_of_cons in Hin as [Hs|Hin]; [|by apply H2]. apply H1. by apply H4.
Qed.
(** destinations *)
Lemma dests_spec parse_v6 v4 v6 l : forall m m', all_of (add_destination parse_v6 v4 v6) m l = Some m' ->
  forall d, is_Some (m' !! d) <-> is_Some (m !! d) \/ exists s a, s ∈ l /\ dest_addr parse_v6 s = Some a /\ (match a with SV4 _ _ _ _ _ => v4 | SV6 _ _ => v6 end) = true /\ d = sock_text a.
Proof.
  induction l as [|s l IH]; intros m m' H d; cbn in H; [simplify_eq; split; [by left|intros [?|(? & ? & Hx & _)]; [done|by apply elem_of_nil in Hx]]|].
  destruct (add_destination parse_v6 v4 v6 m s) as [m1|] eqn:E; [|done]. cbn in H. rewrite (IH _ _ H d). clear IH H.
  unfold add_destination in E. destruct (dest_addr parse_v6 s) as [a|] eqn:Ea; [|done]. injection E as <-.
  assert (is_Some ((if (match a with SV4 _ _ _ _ _ => v4 | SV6 _ _ => v6 end) then <[sock_text a := 0]> m else m) !! d) <->
    is_Some (m !! d) \/ (match a with SV4 _ _ _ _ _ => v4 | SV6 _ _ => v6 end) = true /\ d = sock_text a) as ->.
  { destruct (match a with SV4 _ _ _ _ _ => v4 | SV6 _ _ => v6 end); [|naive_solver]. destruct (decide (sock_text a = d)) as [<-|Hn].
    - rewrite lookup_insert. split; [by right|by eexists].
    - rewrite lookup_insert_ne by done. naive_solver. }
  split.
  - intros [[H|H]|(s' & a' & H)]; [by left| |].
    + right. exists s, a. split; [left|naive_solver].
    + right. exists s', a'. split; [right|]; naive_solver.
  - intros [H|(s' & a' & H1 & H2 & H3)]; [by left; left|]. apply elem_of_cons in H1 as [->|H1].
    + rewrite Ea in H2. injection H2 as <-. left. by right.
    + right. naive_solver.
Qed.
Lemma check_spec v4 v6 m m' : check_destinations v4 v6 m = Some m' -> m <> ∅ -> m' = m.
Proof. unfold check_destinations. case_bool_decide; [done|]. by intros [= <-]. Qed.
Lemma check_mono v4 v6 m m' d : check_destinations v4 v6 m = Some m' -> is_Some (m !! d) -> is_Some (m' !! d).
Proof.
  intros H Hd. rewrite (check_spec _ _ _ _ H); [done|]. intros ->. rewrite lookup_empty in Hd. by destruct Hd.
Qed.
(** layers *)
Definition kv (x : string * string) : string := ":" +:+ fst x +:+ "=" +:+ snd x.
Definition kvs_text (l : list (string * string)) : string := foldr (fun x s => kv x +:+ s) "" l.
Definition plain (c : ascii) (x : string * string) : Prop := free c (fst x) /\ free c (snd x).
Lemma split_kvs name l : free ":"%char name -> Forall (plain ":"%char) l ->
  split_at ":"%char (name +:+ kvs_text l) = name :: map (fun x => fst x +:+ "=" +:+ snd x) l.
Proof.
  revert name; induction l as [|[k v] l IH]; intros name Hn Hl; cbn [kvs_text foldr map].
  - rewrite app_nil_r_s. by apply split_free.
  - apply Forall_cons in Hl as [[Hk Hv] Hl]. fold (kvs_text l). unfold kv. cbn [fst snd] in *.
    rewrite (app_cons_s ":"%char "" _), app_nil_s. rewrite app_cons_s. rewrite split_first_part by done. f_equal.
    apply IH; [|done]. rewrite !free_app. split_and!; try done.
Qed.
Lemma settings_spec l : Forall (plain "="%char) l -> forall m, all_of cla_setting m (map (fun x => fst x +:+ "=" +:+ snd x) l) = Some (foldl (fun m x => <[fst x := snd x]> m) m l).
Proof.
  induction 1 as [|[k v] l [Hk Hv] _ IH]; intros m; [done|]. cbn [map all_of foldl fst snd] in *.
  assert (cla_setting m (k +:+ "=" +:+ v) = Some (<[k := v]> m)) as ->.
  { unfold cla_setting. rewrite (app_cons_s "="%char "" v), app_nil_s. by rewrite split_first_part, split_free. }
  cbn. apply IH.
Qed.
Lemma foldl_insert l : NoDup (map fst l) -> forall (m : settings) k v, (k, v) ∈ l -> foldl (fun m x => <[fst x := snd x]> m) m l !! k = Some v.
Proof.
  assert (Hout : forall l (m : settings) k, k ∉ map fst l -> foldl (fun m x => <[fst x := snd x]> m) m l !! k = m !! k).
  { clear l. induction l as [|[k' v'] l IH]; intros m k Hk; [done|]. cbn [foldl map fst snd] in *. rewrite not_elem_of_cons in Hk. destruct Hk as [Hk1 Hk2].
    rewrite IH by done. by rewrite lookup_insert_ne. }
  induction l as [|[k' v'] l IH]; intros Hd m k v Hin; [by apply elem_of_nil in Hin|]. cbn [map fst] in Hd. apply NoDup_cons in Hd as [Hn Hd]. cbn [foldl fst snd].
  apply elem_of_cons in Hin as [[= -> ->]|Hin]; [rewrite Hout by done; apply lookup_insert|by apply IH].
Qed.
Lemma foldl_dom l : forall (m : settings) k v, foldl (fun m x => <[fst x := snd x]> m) m l !! k = Some v -> m !! k = Some v \/ (k, v) ∈ l.
Proof.
  induction l as [|[k' v'] l IH]; intros m k v H; [by left|]. cbn [foldl fst snd] in H. apply IH in H as [H|H]; [|by right; right].
  apply lookup_insert_Some in H as [[<- <-]|[_ H]]; [right; left|by left].
Qed.
Lemma clas_spec cla_id l : forall c c', all_of (add_cla cla_id) c l = Some c' ->
  (exists r, c' = c ++ r) /\
  forall name i kvs, name +:+ kvs_text kvs ∈ l -> cla_id name = Some i -> free ":"%char name -> Forall (plain ":"%char) kvs -> Forall (plain "="%char) kvs ->
    (i, foldl (fun m x => <[fst x := snd x]> m) ∅ kvs) ∈ c'.
Proof.
  induction l as [|s l IH]; intros c c' H; cbn in H; [simplify_eq; split; [by exists []; rewrite app_nil_r|]; intros ? ? ? Hx; by apply elem_of_nil in Hx|].
  destruct (add_cla cla_id c s) as [c1|] eqn:E; [|done]. cbn in H. destruct (IH _ _ H) as [[r ->] H2]. split.
  - unfold add_cla in E. destruct (split_at _ s) as [|n parts]; [done|]. destruct (cla_id n); [|simplify_eq; by exists r].
    destruct (all_of _ _ _); [|done]. cbn in E. injection E as <-. eexists. by rewrite <- (assoc_L (++)).
  - intros name i kvs Hin Hid Hn Hk1 Hk2. apply elem_of_cons in Hin as [<-|Hin]; [|by eapply H2].
    unfold add_cla in E. rewrite split_kvs in E by done. rewrite Hid, settings_spec in E by done. cbn in E. injection E as <-.
    rewrite !elem_of_app. left. right. by left.
Qed.
(** global settings of the layers *)
Lemma global_spec cla_id m s m' : add_global cla_id m s = Some m' ->
  (forall name i k v, s = name +:+ ":" +:+ k +:+ "=" +:+ v -> cla_id name = Some i -> free ":"%char name -> plain ":"%char (k, v) -> plain "="%char (k, v) ->
     (default ∅ (m' !! i) : settings) !! k = Some v) /\
  (forall i k v, (default ∅ (m !! i) : settings) !! k = Some v -> (default ∅ (m' !! i) : settings) !! k = Some v \/
     exists name rest, cla_id name = Some i /\ split_at ":"%char s = name :: (rest : list string) /\ exists p v', head rest = Some p /\ exists t, split_at "="%char p = k :: v' :: t).
Proof.
  unfold add_global. intros H. destruct (split_at ":"%char s) as [|n parts] eqn:Es; [done|]. split.
  - intros name i k v -> Hid Hn [Hk Hv] [Hk' Hv']. cbn [fst snd] in *. rewrite (app_cons_s ":"%char "" _), app_nil_s in Es.
    rewrite split_first_part, split_free in Es by (try done; rewrite !free_app; split_and!; try done; cbn; split_and!; done).
    injection Es as <- <-. rewrite Hid in H. cbn in H. unfold cla_setting in H.
    rewrite (app_cons_s "="%char "" v), app_nil_s, split_first_part, split_free in H by done. cbn in H. injection H as <-.
    rewrite lookup_insert. cbn. apply lookup_insert.
  - intros i k v Hv. destruct (cla_id n) as [i'|] eqn:Ei; [|simplify_eq; by left].
    destruct (head parts) as [p|] eqn:Ep; [|done]. cbn in H. unfold cla_setting in H. destruct (split_at "="%char p) as [|k' [|v' t]] eqn:Eq; try done. cbn in H. injection H as <-.
    destruct (decide (i' = i)) as [->|Hne]; [|left; by rewrite lookup_insert_ne].
    rewrite lookup_insert. cbn. destruct (decide (k' = k)) as [->|Hnk]; [|left; by rewrite lookup_insert_ne].
    right. exists n, parts. split; [done|]. split; [done|]. exists p, v'. split; [done|]. by exists t.
Qed.
(** routing options *)
Lemma routing_opt_spec m s m' : add_routing_opt m s = Some m' ->
  (forall a k v, s = a +:+ "." +:+ k +:+ "=" +:+ v -> free "."%char a -> free "."%char k -> free "="%char a -> free "="%char k -> free "="%char v ->
     (default ∅ (m' !! a) : settings) !! k = Some v) /\
  (forall a k v, (default ∅ (m !! a) : settings) !! k = Some v -> (default ∅ (m' !! a) : settings) !! k = Some v \/ exists v', split_at "="%char s = [(a +:+ "." +:+ k); v']).
Proof.
  unfold add_routing_opt. intros H. destruct (split_at "="%char s) as [|key [|value [|]]] eqn:Es; try done. 
  destruct (split_at "."%char key) as [|algo [|opt [|]]] eqn:Ek; try done. injection H as <-. split.
  - intros a k v -> Ha Hk Ha' Hk' Hv'.
    assert (Hx : a +:+ "." +:+ k +:+ "=" +:+ v = (a +:+ "." +:+ k) +:+ String "="%char v) by (by rewrite !app_assoc_s).
    rewrite Hx, split_first_part, split_free in Es by (try done; rewrite !free_app; split_and!; try done; cbn; split_and!; done).
    injection Es as <- <-. rewrite (app_cons_s "."%char "" k), app_nil_s, split_first_part, split_free in Ek by done. injection Ek as <- <-.
    rewrite lookup_insert. cbn. apply lookup_insert.
  - intros a k v Hv. assert (Hkey : key = algo +:+ "." +:+ opt).
    { clear -Ek. revert algo opt Ek. induction key as [|c key IH]; intros algo opt Ek; [done|]. cbn in Ek. case_bool_decide as Ec.
      - subst c. injection Ek as <- Ek. rewrite app_nil_s. cbn.
        assert (Hs : forall s o, split_at "."%char s = [o] -> s = o).
        { clear. induction s as [|c s IH]; intros o H; cbn in H; [by injection H|]. case_bool_decide; [injection H as _ H; by destruct (split_head "."%char s) as [? Hh]; rewrite H in Hh|].
          destruct (split_at "."%char s) as [|p ps] eqn:E; [by destruct (split_head "."%char s) as [? Hh]; rewrite E in Hh|]. injection H as <- ->. f_equal. by apply IH. }
        by rewrite (Hs _ _ Ek).
      - destruct (split_at "."%char key) as [|p ps] eqn:E; [by destruct (split_head "."%char key) as [? Hh]; rewrite E in Hh|]. injection Ek as <- ->.
        rewrite app_cons_s. f_equal. by apply IH. }
    destruct (decide (algo = a)) as [->|Hne]; [|left; by rewrite lookup_insert_ne].
    rewrite lookup_insert. cbn. destruct (decide (opt = k)) as [->|Hnk]; [|left; by rewrite lookup_insert_ne]. right. exists value. by rewrite Hkey.
Qed.
