(** Proofs about static routing (Routing.v). *)
From Verif Require Import Core Peers PeersProofs Routing RoutingProofs IdProofs.
From stdpp Require Import prelude strings pretty gmap.
From Coq Require Import NArith Lia ZifyBool ZifyN ZifyNat.
Open Scope N_scope.

(** ** queries *)
Section static.
Context (glob : string -> string -> bool).
Definition usable (clas : list cla) (ps : list peer) (r : route) (s : sender) : Prop :=
  exists q, q ∈ ps /\ eid_string (pe_eid q) = rt_via r /\ first_cla clas q = Some s.
Lemma st_query_spec clas p ps : forall rs,
  let a := st_query glob clas p ps rs in
  (a = ([], false) /\ forall r s, r ∈ rs -> route_matches glob p r = true -> ~ usable clas ps r s) \/
  exists rs1 r rs2 s, rs = rs1 ++ r :: rs2 /\ a = ([s], negb (eid_non_singleton (p_dst p))) /\
    route_matches glob p r = true /\ usable clas ps r s /\
    forall r' s', r' ∈ rs1 -> route_matches glob p r' = true -> ~ usable clas ps r' s'.
Proof.
  induction rs as [|r rs IH]; cbn zeta; [left; split; [done|by intros ? ? ?%elem_of_nil]|]. cbn [st_query]. cbn zeta in IH.
  set (f := fun q => if bool_decide (eid_string (pe_eid q) = rt_via r) then first_cla clas q else None).
  assert (Hnone : route_matches glob p r = false \/ first_some f ps = None ->
     forall s', route_matches glob p r = true -> ~ usable clas ps r s').
  { intros [E|E] s' Hm; [congruence|]. intros (q & Hq & Hv & Hf). rewrite first_some_None in E. specialize (E q Hq). subst f. cbn in E.
    rewrite bool_decide_true in E by done. congruence. }
  assert (Hrec : (forall s', route_matches glob p r = true -> ~ usable clas ps r s') ->
     (st_query glob clas p ps rs = ([], false) /\ (forall r' s', r' ∈ r :: rs -> route_matches glob p r' = true -> ~ usable clas ps r' s')) \/
     exists rs1 r0 rs2 s, r :: rs = rs1 ++ r0 :: rs2 /\ st_query glob clas p ps rs = ([s], negb (eid_non_singleton (p_dst p))) /\
       route_matches glob p r0 = true /\ usable clas ps r0 s /\
       forall r' s', r' ∈ rs1 -> route_matches glob p r' = true -> ~ usable clas ps r' s').
  { intros Hr. destruct IH as [[H1 H2]|(rs1 & r0 & rs2 & s & -> & H2 & H3 & H4 & H5)].
    - left. split; [done|]. intros r' s' [->|Hr']%elem_of_cons; [apply Hr|by apply H2].
    - right. exists (r :: rs1), r0, rs2, s. split; [done|]. split; [done|]. split; [done|]. split; [done|].
      intros r' s' [->|Hr']%elem_of_cons; [apply Hr|by apply H5]. }
  destruct (route_matches glob p r) eqn:Em; [|by apply Hrec, Hnone; left].
  destruct (first_some f ps) as [s|] eqn:Ef; [|by apply Hrec, Hnone; right].
  right. exists [], r, rs, s. split; [done|]. split; [done|]. split; [done|]. split; [|by intros ? ? ?%elem_of_nil].
  apply first_some_Some in Ef as (i & q & Hi & Hq & _). subst f. cbn in Hq. case_bool_decide as E; [|done]. exists q.
  split; [by eapply elem_of_list_lookup_2|done].
Qed.
End static.

(** ** table syntax *)
Fixpoint all_space (s : string) : Prop := match s with "" => True | String c s => is_blank c = true /\ all_space s end.
Fixpoint no_space (s : string) : Prop := match s with "" => True | String c s => is_blank c = false /\ no_space s end.
Definition newline : Ascii.ascii := Ascii.ascii_of_N 10.

Lemma words_space ws : all_space ws -> forall s, split_aux (ws +:+ s) "" = split_aux s "".
Proof.
  induction ws as [|c ws IH]; intros H s; [by rewrite app_nil_s|]. rewrite app_cons_s. destruct H as [Hc H].
  cbn [split_aux]. rewrite Hc, bool_decide_true by done. by apply IH.
Qed.
Lemma words_word w : no_space w -> forall s cur, split_aux (w +:+ s) cur = split_aux s (cur +:+ w).
Proof.
  induction w as [|c w IH]; intros H s cur; [by rewrite app_nil_s, app_nil_r_s|]. rewrite app_cons_s. destruct H as [Hc H].
  cbn [split_aux]. rewrite Hc, (IH H). f_equal. rewrite app_assoc_s. f_equal. 
Qed.
Lemma words_end c s cur : is_blank c = true -> cur <> "" -> split_aux (String c s) cur = cur :: split_aux s "".
Proof. intros Hc Hn. cbn [split_aux]. by rewrite Hc, bool_decide_false. Qed.
Lemma words_trail c : is_blank c = true -> forall s cur, split_aux (s +:+ String c "") cur = split_aux s cur.
Proof.
  intros Hc. induction s as [|d s IH]; intros cur.
  - rewrite app_nil_s. cbn [split_aux]. rewrite Hc. by case_bool_decide.
  - rewrite app_cons_s. cbn [split_aux]. rewrite !IH. done.
Qed.
Lemma trim_space ws : all_space ws -> forall s, trim_start (ws +:+ s) = trim_start s.
Proof.
  induction ws as [|c ws IH]; intros H s; [by rewrite app_nil_s|]. rewrite app_cons_s. destruct H as [Hc H].
  cbn [trim_start]. rewrite Hc. by apply IH.
Qed.
Lemma skip_trail c : is_blank c = true -> forall s, skip_line (s +:+ String c "") = skip_line s.
Proof.
  intros Hc. unfold skip_line. induction s as [|d s IH].
  - rewrite app_nil_s. cbn [trim_start]. by rewrite Hc.
  - rewrite app_cons_s. cbn [trim_start]. by destruct (is_blank d).
Qed.
Lemma parse_trail c s : is_blank c = true -> parse_route (s +:+ String c "") = parse_route s.
Proof. intros Hc. unfold parse_route, split_blank. by rewrite skip_trail, words_trail. Qed.
Lemma strip_cr_case s : strip_cr s = s \/ exists c, is_blank c = true /\ s = strip_cr s +:+ String c "".
Proof.
  induction s as [|c s IH]; [by left|]. cbn [strip_cr]. destruct (Ascii.N_of_ascii c =? 13) eqn:Ec; cbn [andb].
  - case_bool_decide as Es.
    + right. exists c. subst s. rewrite app_nil_s. split; [|done]. unfold is_blank. apply N.eqb_eq in Ec. rewrite Ec. done.
    + destruct IH as [IH|(d & Hd & IH)]; [left; by rewrite IH|right]. exists d. split; [done|]. rewrite app_cons_s. by rewrite <- IH.
  - destruct IH as [IH|(d & Hd & IH)]; [left; by rewrite IH|right]. exists d. split; [done|]. rewrite app_cons_s. by rewrite <- IH.
Qed.
Lemma parse_strip s : parse_route (strip_cr s) = parse_route s.
Proof. destruct (strip_cr_case s) as [->|(c & Hc & E)]; [done|]. rewrite E at 2. by rewrite parse_trail. Qed.

Lemma newline_eq c : (Ascii.N_of_ascii c =? 10) = true <-> c = newline.
Proof.
  rewrite N.eqb_eq. split; [|by intros ->]. intros H. rewrite <- (Ascii.ascii_N_embedding c), H. done.
Qed.
Lemma lines_line l : free newline l -> forall s cur, lines_aux (l +:+ String newline s) cur = strip_cr (cur +:+ l) :: lines_aux s "".
Proof.
  induction l as [|c l IH]; intros Hf s cur.
  - rewrite app_nil_s, app_nil_r_s. done.
  - rewrite app_cons_s. destruct Hf as [Hc Hf]. cbn [lines_aux]. destruct (Ascii.N_of_ascii c =? 10) eqn:E.
    + apply newline_eq in E. by subst.
    + rewrite IH by done. rewrite app_assoc_s. done.
Qed.
Lemma lines_last l : free newline l -> forall cur, lines_aux l cur = if bool_decide (cur +:+ l = "") then [] else [cur +:+ l].
Proof.
  induction l as [|c l IH]; intros Hf cur.
  - rewrite app_nil_r_s. done.
  - destruct Hf as [Hc Hf]. cbn [lines_aux]. destruct (Ascii.N_of_ascii c =? 10) eqn:E.
    + apply newline_eq in E. by subst.
    + rewrite IH by done. by rewrite app_assoc_s.
Qed.

Definition file_of (ls : list string) (last : string) : string :=
  foldr (fun l rest => l +:+ String newline rest) last ls.
Lemma load_file ls last : Forall (free newline) ls -> free newline last ->
  load_routes (file_of ls last) = parse_lines (ls ++ [last]).
Proof.
  unfold load_routes, lines. induction ls as [|l ls IH]; intros Hls Hlast.
  - cbn [file_of foldr app]. rewrite lines_last by done. rewrite app_nil_s. case_bool_decide as E; [|done]. subst last. done.
  - apply Forall_cons in Hls as [Hl Hls]. cbn [file_of foldr app]. rewrite lines_line by done. rewrite app_nil_s. cbn [parse_lines].
    rewrite parse_strip. fold (file_of ls last). by rewrite IH.
Qed.

Fixpoint dval (s : string) (acc : N) : N :=
  match s with "" => acc | String c s => dval s (10 * acc + (Ascii.N_of_ascii c - 48)) end.
Fixpoint all_digits (s : string) : Prop :=
  match s with "" => True | String c s => ((48 <=? Ascii.N_of_ascii c) && (Ascii.N_of_ascii c <=? 57) = true) /\ all_digits s end.
Lemma dval_mono s : forall acc, acc <= dval s acc.
Proof. induction s as [|c s IH]; intros acc; [cbn; lia|]. cbn [dval]. specialize (IH (10 * acc + (Ascii.N_of_ascii c - 48))). lia. Qed.
Lemma digits_dval s : all_digits s -> forall acc, dval s acc < 2^16 -> digits_val s acc = Some (dval s acc).
Proof.
  induction s as [|c s IH]; intros Hd acc Hv; [done|]. destruct Hd as [Hc Hd]. cbn [dval digits_val] in *. rewrite Hc.
  pose proof (dval_mono s (10 * acc + (Ascii.N_of_ascii c - 48))).
  replace (_ <? 2^16) with true by (symmetry; apply N.ltb_lt; lia). by apply IH.
Qed.
Lemma digit_char x : x < 10 -> Ascii.N_of_ascii (pretty_N_char x) = 48 + x.
Proof.
  intros H. assert (x = 0 \/ x = 1 \/ x = 2 \/ x = 3 \/ x = 4 \/ x = 5 \/ x = 6 \/ x = 7 \/ x = 8 \/ x = 9) as E by lia.
  repeat (destruct E as [->|E]; [reflexivity|]). subst. reflexivity.
Qed.
Lemma pretty_go_digits x : forall s, all_digits s -> all_digits (pretty_N_go x s) /\ dval (pretty_N_go x s) 0 = dval s x.
Proof.
  induction (N.lt_wf_0 x) as [x _ IH]; intros s Hs. destruct (decide (0 < x)) as [Hx|Hx].
  - rewrite pretty_N_go_step by done.
    assert (Hd : Ascii.N_of_ascii (pretty_N_char (x `mod` 10)) = 48 + x `mod` 10) by (apply digit_char, N.mod_lt; lia).
    pose proof (N.mod_lt x 10 ltac:(lia)) as Hm. pose proof (N.div_mod x 10 ltac:(lia)) as Hdm.
    destruct (IH (x `div` 10)) with (s := String (pretty_N_char (x `mod` 10)) s) as [H1 H2]; [apply N.div_lt; lia| |].
    + cbn [all_digits]. rewrite Hd. split; [|done]. apply andb_true_intro. clear - Hm; revert Hm; generalize (x `mod` 10); intros; split; apply N.leb_le; lia.
    + split; [done|]. rewrite H2. cbn [dval]. rewrite Hd. f_equal. clear - Hm Hdm. revert Hm Hdm. generalize (x `mod` 10), (x `div` 10). intros m d Hm Hdm. rewrite Hdm. lia.
  - replace x with 0 by lia. rewrite pretty_N_go_0. done.
Qed.
Lemma pretty_digits_all (i : N) : all_digits (pretty i) /\ dval (pretty i) 0 = i /\ pretty i <> "".
Proof.
  unfold pretty, pretty_N. case_decide as E; [by subst|]. destruct (pretty_go_digits i "" I) as [H1 H2]. split; [done|].
  split; [done|]. intros E'. rewrite E' in H2. cbn in H2. congruence.
Qed.
Lemma parse_u16_pretty i : i < 2^16 -> parse_u16 (pretty i) = Some i.
Proof.
  intros Hi. destruct (pretty_digits_all i) as (H1 & H2 & H3). unfold parse_u16.
  assert (Hv : digits_val (pretty i) 0 = Some i) by (rewrite digits_dval by (try done; by rewrite H2); by rewrite H2).
  destruct (pretty i) as [|c s]; [done|]. destruct H1 as [Hc H1].
  replace (Ascii.N_of_ascii c =? 43) with false; [exact Hv|]. symmetry. apply N.eqb_neq. lia.
Qed.
Lemma digits_no_space s : all_digits s -> no_space s.
Proof.
  induction s as [|c s IH]; [done|]. intros [Hc H]. split; [|by apply IH]. unfold is_blank. lia.
Qed.
Lemma digit_no_hash s c s' : all_digits s -> s = String c s' -> c <> hash.
Proof. intros H -> ->. destruct H as [H _]. vm_compute in H. done. Qed.

Lemma words_four ws1 w1 ws2 w2 ws3 w3 ws4 w4 tail :
  all_space ws1 -> no_space w1 -> w1 <> "" -> all_space ws2 -> ws2 <> "" -> no_space w2 -> w2 <> "" ->
  all_space ws3 -> ws3 <> "" -> no_space w3 -> w3 <> "" -> all_space ws4 -> ws4 <> "" -> no_space w4 -> w4 <> "" ->
  (tail = "" \/ exists c t, tail = String c t /\ is_blank c = true) ->
  exists rest, split_blank (ws1 +:+ w1 +:+ ws2 +:+ w2 +:+ ws3 +:+ w3 +:+ ws4 +:+ w4 +:+ tail) = w1 :: w2 :: w3 :: w4 :: rest.
Proof.
  intros S1 N1 E1 S2 F2 N2 E2 S3 F3 N3 E3 S4 F4 N4 E4 Ht. unfold split_blank.
  assert (Hws : forall ws w s, all_space ws -> ws <> "" -> w <> "" -> split_aux (ws +:+ s) w = w :: split_aux s "").
  { intros ws w s Ha Hn Hw. destruct ws as [|c ws]; [done|]. destruct Ha as [Hc Ha]. rewrite app_cons_s, words_end by done. by rewrite words_space. }
  rewrite words_space, words_word, app_nil_s by done. rewrite Hws by done.
  rewrite words_word, app_nil_s by done. rewrite Hws by done.
  rewrite words_word, app_nil_s by done. rewrite Hws by done.
  rewrite words_word, app_nil_s by done.
  destruct Ht as [->|(c & t & -> & Hc)].
  - exists []. cbn [split_aux]. by rewrite bool_decide_false.
  - rewrite words_end by done. by eexists.
Qed.

Lemma first_cla_uses clas q s : first_cla clas q = Some s ->
  exists want c, want ∈ pe_clas q /\ c ∈ clas /\ cl_name c = fst want /\ cl_accepting c = true /\ sd_cla s = cl_name c.
Proof.
  unfold first_cla. intros H. apply first_some_Some in H as (i & w & Hi & H & _). apply first_some_Some in H as (j & c & Hj & H & _).
  unfold try_cla in H. case_bool_decide as E; [|done]. cbn in H. destruct (cl_accepting c) eqn:Ea; [|done]. injection H as <-.
  exists w, c. split; [by eapply elem_of_list_lookup_2|]. split; [by eapply elem_of_list_lookup_2|]. by rewrite E.
Qed.
