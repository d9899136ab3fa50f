(** Properties of the framing between the node and external convergence layers
    over TCP (cla/ecla/tcp.rs). *)
From Verif Require Import Bytes Ecla EclaWire EclaWireProofs.
From stdpp Require Import prelude strings.
From Coq Require Import NArith Lia ZifyBool ZifyN ZifyNat.
Open Scope N_scope.

(** * C115  Packets reach a module whole and in order *)
(** What a module makes of the bytes it receives: a frame is a length of four
    bytes, big-endian, and that many bytes.  It goes on until a frame is not
    complete. *)
Inductive reads : bytes -> list bytes -> Prop :=
  | reads_end s : (length s < 4)%nat -> reads s []
  | reads_part h s : length h = 4%nat -> blen s < unbe h -> reads (h ++ s) []
  | reads_frame h f s l : length h = 4%nat -> unbe h = blen f -> reads s l -> reads (h ++ f ++ s) (f :: l).
Lemma app_same {A} (a b c d : list A) : length a = length c -> a ++ b = c ++ d -> a = c /\ b = d.
Proof. intros L E. split; [by apply (app_inj_1 a c b d)|by apply (app_inj_1 a c b d)]. Qed.
Lemma reads_one s l : reads s l -> forall l', reads s l' -> l = l'.
Proof.
  induction 1 as [s Ls|h s Lh Lt|h f s l Lh U R IH]; intros l' R'; inversion R' as [s' Ls' Es|h' s' Lh' Lt' Es|h' f' s' l'' Lh' U' R'' Es]; try done.
  - exfalso. rewrite <- Es, !app_length in Ls. lia.
  - exfalso. apply app_same in Es as [-> <-]; [|lia]. unfold blen in *. rewrite app_length in Lt. lia.
  - exfalso. subst s'. rewrite !app_length in Ls'. lia.
  - exfalso. apply app_same in Es as [-> ->]; [|lia]. unfold blen in *. rewrite app_length in Lt'. lia.
  - apply app_same in Es as [-> Es]; [|lia]. apply app_same in Es as [-> ->]; [|unfold blen in *; lia]. f_equal. by apply IH.
Qed.
Lemma reads_some s : exists l, reads s l.
Proof.
  remember (length s) as n eqn:En. revert s En. induction (lt_wf n) as [n _ IH]. intros s ->.
  destruct (decide (length s < 4)%nat) as [L|L]; [exists []; by constructor|].
  destruct (decide (blen (drop 4 s) < unbe (take 4 s))) as [P|P].
  - exists []. rewrite <- (take_drop 4 s). apply reads_part; [rewrite take_length; lia|done].
  - set (n := N.to_nat (unbe (take 4 s))). destruct (IH (length (drop n (drop 4 s)))) with (s := drop n (drop 4 s)) as (l&Rl); [rewrite !drop_length; lia|done|].
    exists (take n (drop 4 s) :: l). rewrite <- (take_drop 4 s) at 1. rewrite <- (take_drop n (drop 4 s)) at 1.
    apply reads_frame; [rewrite take_length; lia| |done]. unfold blen in *. rewrite take_length. lia.
Qed.
(** The packets that were taken by the connection, in the order they were taken
    from the queue; all of a frame is taken or, if the connection has no room,
    nothing. *)
Definition whole (to_json : packet -> bytes) (x : packet * nat) : Prop := snd x = (4 + length (to_json (fst x)))%nat.
Definition nothing (x : packet * nat) : Prop := snd x = 0%nat.
Inductive taken (to_json : packet -> bytes) : list (packet * nat) -> list packet -> Prop :=
  | taken_nil : taken to_json [] []
  | taken_whole x out ps : whole to_json x -> taken to_json out ps -> taken to_json (x :: out) (fst x :: ps)
  | taken_nothing x out ps : nothing x -> taken to_json out ps -> taken to_json (x :: out) ps.
Definition sizes_ok (to_json : packet -> bytes) (out : list (packet * nat)) : Prop :=
  Forall (fun x => (snd x <= 4 + length (to_json (fst x)))%nat /\ blen (to_json (fst x)) < 2^32) out.

(** The full claim: what a module reads are the packets meant for it, in order
    and from the first on. *)
Definition C115_full : Prop := forall to_json out l, sizes_ok to_json out ->
  reads (to_module to_json out) l -> exists later, map (fun x => to_json (fst x)) out = l ++ later.

Lemma frame_length d : length (frame d) = (4 + length d)%nat.
Proof. unfold frame. by rewrite app_length, be_length. Qed.
Lemma reads_taken to_json good ps : sizes_ok to_json good -> taken to_json good ps ->
  forall s l, reads s l -> reads (to_module to_json good ++ s) (map to_json ps ++ l).
Proof.
  intros Z T s l R. unfold to_module. induction T as [|x good ps W T IH|x good ps N T IH]; cbn; [done| |].
  - apply Forall_cons in Z as [[_ Z1] Z]. rewrite written_all by (rewrite frame_length; exact W).
    destruct (frame_shape _ Z1) as (h&->&Lh&U). rewrite <- !app_assoc. apply reads_frame; [done|done|]. by apply IH.
  - apply Forall_cons in Z as [_ Z]. rewrite written_none by exact N. by apply IH.
Qed.
(** Up to the first packet of which only a part is taken the module reads the
    packets that were taken, whole and in order; if there is none, it reads
    nothing else. *)
Theorem C115_whole_in_order_partial to_json out rest ps l : sizes_ok to_json out -> taken to_json out ps ->
  reads (to_module to_json (out ++ rest)) l ->
  (exists more, l = map to_json ps ++ more) /\ (rest = [] -> l = map to_json ps).
Proof.
  intros Z T R. unfold to_module in R. rewrite map_app, concat_app in R. destruct (reads_some (concat (map (written to_json) rest))) as (l2&R2).
  pose proof (reads_taken _ _ _ Z T _ _ R2) as R3. rewrite (reads_one _ _ R _ R3). split; [by eexists|]. intros ->.
  cbn in R2. rewrite (reads_one _ _ R2 []); [by rewrite app_nil_r|]. apply reads_end. cbn. lia.
Qed.
Print Assumptions C115_whole_in_order_partial.

(** One byte of a packet that does not fit: the module takes the start of the
    next packet for the end of the first. *)
Definition json3 (p : packet) : bytes := match p with PError "" => [1;2;3] | _ => [4;5;6] end.
Theorem C115_full_refuted : ~ C115_full.
Proof.
  intros H. destruct (H json3 [(PError "", 5%nat); (PError "x", 7%nat)] [[1;0;0]]) as (later&E).
  - repeat constructor; cbn; lia.
  - change (to_module json3 [(PError "", 5%nat); (PError "x", 7%nat)]) with ([0;0;0;3] ++ [1;0;0] ++ ([0;3;4;5] ++ [6])).
    apply reads_frame; [done|done|]. by apply reads_part.
  - discriminate E.
Qed.
Print Assumptions C115_full_refuted.
(** A packet dropped because there is no room, between two that arrive *)
Example dropped_between : taken json3 [(PError "", 7%nat); (PError "x", 0%nat); (PError "", 7%nat)] [PError ""; PError ""] /\
  to_module json3 [(PError "", 7%nat); (PError "x", 0%nat); (PError "", 7%nat)] = [0;0;0;3;1;2;3;0;0;0;3;1;2;3].
Proof. split; [|done]. apply taken_whole; [done|]. apply taken_nothing; [done|]. apply taken_whole; [done|]. constructor. Qed.

(** * C116  What the node makes of the bytes of a module *)
(** The full claim: the packets a module sends are handled one after the other
    and the connection stays open. *)
Definition sends (to_json : packet -> bytes) (ps : list packet) (chunks : list bytes) : Prop :=
  Forall (fun p => blen (to_json p) < 2^32) ps /\
  exists heads, Forall2 (fun h p => length h = 4%nat /\ unbe h = blen (to_json p)) heads ps /\
    concat chunks = concat (zip_with (fun h p => h ++ to_json p) heads ps).
Definition C116_full : Prop := forall to_json of_json ps chunks, (forall p, p ∈ ps -> of_json (to_json p) = Some p) ->
  sends to_json ps chunks -> r_handled (from_module of_json chunks) = ps /\ r_open (from_module of_json chunks) = true.

(** Whatever a module sends, in whatever pieces: the packets handled are the
    frames at the start of what it sent, each not longer than 8 MiB, in order.
    While the connection is open, only the beginning of a frame has not been
    handled; when it has been closed, the next frame announced is longer than
    8 MiB or does not hold a packet. *)
Theorem C116_any_bytes_partial of_json chunks : exists fs rest,
  concat chunks = concat (map (fun hf => fst hf ++ snd hf) fs) ++ rest /\
  Forall2 (fun (hf : bytes * bytes) p => length (fst hf) = 4%nat /\ unbe (fst hf) = blen (snd hf) /\ blen (snd hf) <= 8388608 /\ of_json (snd hf) = Some p)
    fs (r_handled (from_module of_json chunks)) /\
  (r_open (from_module of_json chunks) = true ->
     (length rest < 4)%nat \/ exists h s, rest = h ++ s /\ length h = 4%nat /\ blen s < unbe h /\ unbe h <= 8388608) /\
  (r_open (from_module of_json chunks) = false ->
     exists h s, rest = h ++ s /\ length h = 4%nat /\
       (8388608 < unbe h \/ exists f s', s = f ++ s' /\ unbe h = blen f /\ of_json f = None)).
Proof.
  destruct (from_module_rd of_json chunks) as (l&R&_). destruct (rd_shape _ _ _ _ _ R) as (fs&E&F&O). exists fs, l. split; [done|]. split; [|split].
  - eapply Forall2_impl; [exact F|]. intros hf p (A&B&C&D). unfold FRAME_MAX in C. split_and!; [done|done|lia|done].
  - intros Eo. rewrite Eo in O. unfold next_frame in O. destruct (blen l <? 4) eqn:E1; [left; unfold blen in E1; lia|]. right.
    destruct (FRAME_MAX <? unbe (take 4 l)) eqn:E2; [done|]. destruct (blen (drop 4 l) <? unbe (take 4 l)) eqn:E3; [|done].
    exists (take 4 l), (drop 4 l). rewrite take_drop, take_length. unfold blen, FRAME_MAX in *. split_and!; [done|lia..].
  - intros Eo. rewrite Eo in O. destruct O as [O|(f&r&O&J)].
    + unfold next_frame in O. destruct (blen l <? 4) eqn:E1; [done|]. destruct (FRAME_MAX <? unbe (take 4 l)) eqn:E2; [|by destruct (blen (drop 4 l) <? unbe (take 4 l))].
      exists (take 4 l), (drop 4 l). rewrite take_drop, take_length. unfold blen, FRAME_MAX in *. split_and!; [done|lia|left; lia].
    + destruct (next_shape _ _ _ O) as (h&->&Lh&U&M). exists h, (f ++ r). split_and!; [done..|]. right. by exists f, r.
Qed.
Print Assumptions C116_any_bytes_partial.
(** In what pieces the bytes arrive does not matter. *)
Theorem C116_pieces of_json chunks1 chunks2 : concat chunks1 = concat chunks2 ->
  r_handled (from_module of_json chunks1) = r_handled (from_module of_json chunks2) /\
  r_open (from_module of_json chunks1) = r_open (from_module of_json chunks2).
Proof.
  intros E. destruct (from_module_rd of_json chunks1) as (l1&R1&_). destruct (from_module_rd of_json chunks2) as (l2&R2&_).
  rewrite E in R1. destruct (rd_det _ _ _ _ _ R1 _ _ _ R2) as (->&_&->). done.
Qed.
Print Assumptions C116_pieces.
Lemma sends_rd to_json of_json ps : (forall p, p ∈ ps -> of_json (to_json p) = Some p) -> Forall (fun p => blen (to_json p) <= 8388608) ps ->
  forall heads, Forall2 (fun h p => length h = 4%nat /\ unbe h = blen (to_json p)) heads ps ->
  forall rest qs l o, rd of_json rest qs l o -> rd of_json (concat (zip_with (fun h p => h ++ to_json p) heads ps) ++ rest) (ps ++ qs) l o.
Proof.
  induction ps as [|p ps IH]; intros J Z heads F rest qs l o R; inversion F as [|h q heads' ? [Lh U] F']; subst; [done|]. cbn.
  apply Forall_cons in Z as [Z1 Z]. econstructor; [|apply J; by left|].
  - rewrite <- !app_assoc. apply next_frame_of; [done|done|]. unfold FRAME_MAX. lia.
  - apply IH; [|done|done|done]. intros q Hq. apply J. by right.
Qed.
(** All packets are handled as long as none is longer than 8 MiB as JSON. *)
Theorem C116_all_handled_partial to_json of_json ps chunks : (forall p, p ∈ ps -> of_json (to_json p) = Some p) ->
  Forall (fun p => blen (to_json p) <= 8388608) ps -> sends to_json ps chunks ->
  r_handled (from_module of_json chunks) = ps /\ r_open (from_module of_json chunks) = true.
Proof.
  intros J Z (_&heads&F&E). destruct (from_module_rd of_json chunks) as (l&R&_). rewrite E in R.
  assert (R0 : rd of_json [] [] [] true) by by constructor.
  pose proof (sends_rd _ _ _ J Z _ F _ _ _ _ R0) as R1. rewrite !app_nil_r in R1.
  destruct (rd_det _ _ _ _ _ R _ _ _ R1) as (->&_&->). done.
Qed.
Print Assumptions C116_all_handled_partial.
(** A packet that is one byte longer: the connection is closed, and with it the
    packets after it are lost. *)
Lemma bytes_of_length n : exists d : bytes, blen d = n.
Proof. exists (repeat 32 (N.to_nat n)). unfold blen. rewrite repeat_length. apply N2Nat.id. Qed.
Theorem C116_full_refuted : ~ C116_full.
Proof.
  intros H. destruct (bytes_of_length 8388609) as (d&L).
  destruct (H (fun _ => d) (fun _ => Some (PError "")) [PError ""] [be 4 8388609 ++ d]) as [_ O].
  - intros p Hp. by apply elem_of_list_singleton in Hp as ->.
  - split; [constructor; [rewrite L; lia|constructor]|]. exists [be 4 8388609]. split.
    + constructor; [|constructor]. split; [by rewrite be_length|]. rewrite L. by vm_compute.
    + cbn [concat zip_with]. by rewrite !app_nil_r.
  - destruct (from_module_rd (fun _ => Some (PError "")) [be 4 8388609 ++ d]) as (l&R&_). rewrite O in R.
    cbn [concat] in R. rewrite app_nil_r in R.
    assert (N : next_frame (be 4 8388609 ++ d) = FBad) by (apply next_bad_of; [by rewrite be_length|by vm_compute]).
    set (r := r_handled _) in R. clearbody r. inversion R; congruence.
Qed.
Print Assumptions C116_full_refuted.
(** Two packets, cut in the middle of the second length *)
Example two_packets : let oj := fun d : bytes => match d with [7;8] => Some (PError "a") | [9] => Some (PError "b") | _ => None end in
  from_module oj [[0;0;0;2;7;8;0;0]; [0;1;9;0;0]] = Reader [0;0] [PError "a"; PError "b"] true /\
  from_module oj [[0;0;0;2;7;8;0;0]; [0;1;7;0;0;0;1;9]; [0;0;0;1;9]] = Reader [0;0;0;1;7;0;0;0;1;9] [PError "a"] false.
Proof. by vm_compute. Qed.
