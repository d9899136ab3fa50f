(** Proofs about the framing of external convergence layers over TCP. *)
From Verif Require Import Bytes Ecla EclaWire.
From stdpp Require Import prelude.
From Coq Require Import NArith Lia ZifyBool ZifyN ZifyNat.
Open Scope N_scope.

Lemma next_ext b c f rest : next_frame b = FFrame f rest -> next_frame (b ++ c) = FFrame f (rest ++ c).
Proof.
  unfold next_frame. destruct (blen b <? 4) eqn:E; [discriminate|].
  assert (4 <= length b)%nat by (unfold blen in E; lia).
  replace (blen (b ++ c) <? 4) with false by (unfold blen in *; rewrite app_length; lia).
  rewrite take_app_le by lia. rewrite drop_app_le by lia.
  destruct (FRAME_MAX <? unbe (take 4 b)); [discriminate|].
  destruct (blen (drop 4 b) <? unbe (take 4 b)) eqn:E2; [discriminate|]. intros [= <- <-].
  replace (blen (drop 4 b ++ c) <? unbe (take 4 b)) with false by (unfold blen in *; rewrite app_length; lia).
  rewrite take_app_le by (unfold blen in E2; lia). rewrite drop_app_le by (unfold blen in E2; lia). done.
Qed.
Lemma next_bad_ext b c : next_frame b = FBad -> next_frame (b ++ c) = FBad.
Proof.
  unfold next_frame. destruct (blen b <? 4) eqn:E; [discriminate|].
  assert (4 <= length b)%nat by (unfold blen in E; lia).
  replace (blen (b ++ c) <? 4) with false by (unfold blen in *; rewrite app_length; lia).
  rewrite take_app_le by lia.
  destruct (FRAME_MAX <? unbe (take 4 b)); [done|].
  destruct (blen (drop 4 b) <? unbe (take 4 b)); discriminate.
Qed.
Lemma next_shape b f rest : next_frame b = FFrame f rest -> exists h, b = h ++ f ++ rest /\ length h = 4%nat /\ unbe h = blen f /\ unbe h <= FRAME_MAX.
Proof.
  unfold next_frame. destruct (blen b <? 4) eqn:E; [discriminate|].
  destruct (FRAME_MAX <? unbe (take 4 b)) eqn:E1; [discriminate|].
  destruct (blen (drop 4 b) <? unbe (take 4 b)) eqn:E2; [discriminate|]. intros [= <- <-].
  exists (take 4 b). rewrite !take_drop. unfold blen in *. rewrite !take_length. split_and!; [done|lia..].
Qed.
Lemma next_frame_of h f rest : length h = 4%nat -> unbe h = blen f -> unbe h <= FRAME_MAX -> next_frame (h ++ f ++ rest) = FFrame f rest.
Proof.
  intros L U M. unfold next_frame.
  replace (blen (h ++ f ++ rest) <? 4) with false by (unfold blen; rewrite app_length; lia).
  rewrite take_app_alt, drop_app_alt by lia.
  replace (FRAME_MAX <? unbe h) with false by lia.
  replace (blen (f ++ rest) <? unbe h) with false by (unfold blen in *; rewrite app_length; lia).
  rewrite take_app_alt, drop_app_alt by (unfold blen in U; lia). done.
Qed.
Lemma next_bad_of h rest : length h = 4%nat -> FRAME_MAX < unbe h -> next_frame (h ++ rest) = FBad.
Proof.
  intros L M. unfold next_frame.
  replace (blen (h ++ rest) <? 4) with false by (unfold blen; rewrite app_length; lia).
  rewrite take_app_alt by lia. by replace (FRAME_MAX <? unbe h) with true by lia.
Qed.

Section reading.
Context (of_json : bytes -> option packet).
(** what is to be made of a stream of bytes: the packets, the bytes left over, whether the connection stays open *)
Inductive rd : bytes -> list packet -> bytes -> bool -> Prop :=
  | rd_more b : next_frame b = FMore -> rd b [] b true
  | rd_bad b : next_frame b = FBad -> rd b [] b false
  | rd_json b f rest : next_frame b = FFrame f rest -> of_json f = None -> rd b [] b false
  | rd_ok b f rest p ps l o : next_frame b = FFrame f rest -> of_json f = Some p -> rd rest ps l o -> rd b (p :: ps) l o.

Lemma rd_det b ps l o : rd b ps l o -> forall ps' l' o', rd b ps' l' o' -> ps = ps' /\ l = l' /\ o = o'.
Proof.
  induction 1 as [b N|b N|b f rest N J|b f rest p ps l o N J H IH]; intros ps' l' o' H'; inversion H'; subst; try congruence; try done.
  match goal with A : next_frame b = FFrame _ _ , B : rd ?r _ _ _ |- _ => rewrite N in A; injection A as <- <- end.
  rewrite J in H1. injection H1 as <-. edestruct IH as (->&->&->); eauto.
Qed.
Lemma drain_rd fuel : forall b acc, (length b < fuel)%nat -> exists ps l o, rd b ps l o /\ drain of_json fuel b acc = Reader l (acc ++ ps) o.
Proof.
  induction fuel as [|fuel IH]; intros b acc L; [lia|]. cbn. destruct (next_frame b) as [f rest| |] eqn:E.
  - destruct (of_json f) as [p|] eqn:J.
    + pose proof (next_shape _ _ _ E) as (h&Eb&Lh&_). subst b. rewrite !app_length in L.
      destruct (IH rest (acc ++ [p])) as (ps&l&o&R&D); [lia|]. exists (p :: ps), l, o. split; [by econstructor|].
      rewrite D. by rewrite <- app_assoc.
    + exists [], b, false. split; [by econstructor|]. by rewrite app_nil_r.
  - exists [], b, true. split; [by constructor|]. by rewrite app_nil_r.
  - exists [], b, false. split; [by constructor|]. by rewrite app_nil_r.
Qed.
Lemma rd_open b ps l : rd b ps l true -> forall c qs l' o, rd (l ++ c) qs l' o -> rd (b ++ c) (ps ++ qs) l' o.
Proof.
  intros H. remember true as o eqn:Eo. revert Eo. induction H as [b N|b N|b f rest N J|b f rest p ps l o N J H IH]; intros Eo c qs l' o' R; try done.
  cbn. econstructor; [by apply next_ext|done|]. by apply IH.
Qed.
Lemma rd_closed b ps l : rd b ps l false -> forall c, rd (b ++ c) ps (l ++ c) false.
Proof.
  intros H. remember false as o eqn:Eo. revert Eo. induction H as [b N|b N|b f rest N J|b f rest p ps l o N J H IH]; intros Eo c; try done.
  - apply rd_bad. by apply next_bad_ext.
  - eapply rd_json; [by apply next_ext|done].
  - eapply rd_ok; [by apply next_ext|done|]. by apply IH.
Qed.
Lemma from_module_rd chunks : exists l, rd (concat chunks) (r_handled (from_module of_json chunks)) l (r_open (from_module of_json chunks)) /\
  (r_open (from_module of_json chunks) = true -> l = r_buf (from_module of_json chunks)).
Proof.
  induction chunks as [|c chunks IH] using rev_ind.
  - exists []. split; [by constructor|done].
  - destruct IH as (l&R&B). unfold from_module in *. rewrite fold_left_app. cbn [fold_left].
    set (r := fold_left (feed of_json) chunks reader0) in *. rewrite concat_app. cbn. rewrite app_nil_r. unfold feed.
    destruct (r_open r) eqn:O.
    + specialize (B eq_refl) as ->. set (b := r_buf r ++ c).
      destruct (drain_rd (S (length b)) b (r_handled r)) as (ps&l'&o&R'&D); [lia|].
      change (drain of_json (S (length b)) b (r_handled r)) with (drain of_json (S (length b)) b (r_handled r)) in D.
      cbn zeta. rewrite D. cbn. exists l'. split; [|done]. eapply rd_open; done.
    + rewrite O. exists (l ++ c). split; [by apply rd_closed|done].
Qed.
Lemma rd_prefix fs : forall ps rest, Forall2 (fun hf p => length (fst hf) = 4%nat /\ unbe (fst hf) = blen (snd hf) /\ unbe (fst hf) <= FRAME_MAX /\ of_json (snd hf) = Some p) fs ps ->
  forall qs l o, rd rest qs l o -> rd (concat (map (fun hf => fst hf ++ snd hf) fs) ++ rest) (ps ++ qs) l o.
Proof.
  induction fs as [|[h f] fs IH]; intros ps rest F qs l o R; inversion F as [|x p ? ps' (Lh&U&M&J) F']; subst; [done|]. cbn in *.
  econstructor; [|exact J|by apply IH]. rewrite <- !app_assoc. by apply next_frame_of.
Qed.
Lemma rd_shape b ps l o : rd b ps l o -> exists fs,
  b = concat (map (fun hf => fst hf ++ snd hf) fs) ++ l /\
  Forall2 (fun hf p => length (fst hf) = 4%nat /\ unbe (fst hf) = blen (snd hf) /\ unbe (fst hf) <= FRAME_MAX /\ of_json (snd hf) = Some p) fs ps /\
  (if o then next_frame l = FMore else next_frame l = FBad \/ exists f rest, next_frame l = FFrame f rest /\ of_json f = None).
Proof.
  induction 1 as [b N|b N|b f rest N J|b f rest p ps l o N J H IH].
  - exists []. split_and!; [done|constructor|done].
  - exists []. split_and!; [done|constructor|by left].
  - exists []. split_and!; [done|constructor|right; eauto].
  - destruct IH as (fs&Eb&F&E). destruct (next_shape _ _ _ N) as (h&->&Lh&U&M). exists ((h, f) :: fs). split_and!; [|by constructor|done].
    cbn. rewrite Eb, <- !app_assoc. done.
Qed.
End reading.

(** ** What the node writes *)
Section writing.
Context (to_json : packet -> bytes).
Lemma frame_shape d : blen d < 2^32 -> exists h, frame d = h ++ d /\ length h = 4%nat /\ unbe h = blen d.
Proof.
  intros H. exists (be 4 (blen d mod 2^32)). split; [done|]. split; [apply be_length|].
  rewrite N.mod_small by done. rewrite unbe_be; [done|]. exact H.
Qed.
Lemma written_all x : snd x = length (frame (to_json (fst x))) -> written to_json x = frame (to_json (fst x)).
Proof. intros E. unfold written. rewrite E. apply take_ge. lia. Qed.
Lemma written_none x : snd x = 0%nat -> written to_json x = [].
Proof. intros E. unfold written. by rewrite E. Qed.
End writing.
