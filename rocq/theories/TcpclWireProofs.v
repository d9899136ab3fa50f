(** Proofs about the TCPCL wire format. *)
From Verif Require Import Bytes TcpclWire.
From stdpp Require Import prelude.
From Coq Require Import NArith Lia ZifyNat ZifyN ZifyBool.
Open Scope N_scope.

(** ** Basic readers *)
Lemma read_exact_app a rest : read_exact (blen a) (a ++ rest) = ROk a rest.
Proof.
  unfold read_exact, blen. rewrite app_length.
  replace (N.of_nat (length a) <=? N.of_nat (length a + length rest)) with true by (symmetry; apply N.leb_le; lia).
  rewrite Nat2N.id, take_app, drop_app. done.
Qed.
Lemma read_exact_app' n a rest : n = blen a -> read_exact n (a ++ rest) = ROk a rest.
Proof. intros ->. apply read_exact_app. Qed.
Lemma read_uint_be k n rest : n < 256 ^ N.of_nat k -> read_uint k (be k n ++ rest) = ROk n rest.
Proof.
  intros H. unfold read_uint. rewrite read_exact_app' by (by rewrite blen_be). cbn [rbind]. by rewrite unbe_be.
Qed.
Lemma read_u8 b rest : read_uint 1 (b :: rest) = ROk b rest.
Proof. unfold read_uint. change (b :: rest) with ([b] ++ rest). rewrite read_exact_app' by done. done. Qed.

Lemma rbind_ok {A B} (a : A) s (k : A -> bytes -> rres B) : rbind (ROk a s) k = k a s.
Proof. done. Qed.

(** ** Extending the input *)
(** a reader is monotone if a decision is never revised by later bytes *)
Definition mono {A} (r : bytes -> rres A) : Prop :=
  forall s x,
    (forall a rest, r s = ROk a rest -> r (s ++ x) = ROk a (rest ++ x)) /\
    (r s = RErr -> r (s ++ x) = RErr).

Lemma mono_ret {A} (a : A) : mono (fun s => ROk a s).
Proof. intros s x. split; [intros ?? [= -> ->]; done|done]. Qed.
Lemma mono_err {A} : mono (fun s => @RErr A).
Proof. intros s x. split; [intros ?? [=]|done]. Qed.
Lemma mono_bind {A B} (r : bytes -> rres A) (k : A -> bytes -> rres B) :
  mono r -> (forall a, mono (k a)) -> mono (fun s => rbind (r s) k).
Proof.
  intros Hr Hk s x. destruct (Hr s x) as [H1 H2]. destruct (r s) as [a rest| |] eqn:E; cbn.
  - rewrite (H1 a rest eq_refl). cbn. apply Hk.
  - split; [intros ?? [=]|intros [=]].
  - rewrite (H2 eq_refl). cbn. split; [intros ?? [=]|done].
Qed.
Lemma mono_exact n : mono (read_exact n).
Proof.
  intros s x. unfold read_exact, blen. rewrite app_length.
  destruct (n <=? N.of_nat (length s)) eqn:E; [|split; [intros ?? [=]|intros [=]]].
  replace (n <=? N.of_nat (length s + length x)) with true by lia.
  split; [|intros [=]]. intros a rest [= <- <-].
  rewrite take_app_le by lia. rewrite drop_app_le by lia. done.
Qed.
Lemma mono_uint k : mono (read_uint k).
Proof. unfold read_uint. apply mono_bind; [apply mono_exact|]. intros a. apply mono_ret. Qed.

Lemma read_exact_shorter n s a rest : read_exact n s = ROk a rest ->
  s = a ++ rest /\ blen a = n.
Proof.
  unfold read_exact. case_match eqn:E; [|done]. intros [= <- <-]. split; [by rewrite take_drop|].
  unfold blen in *. rewrite take_length. lia.
Qed.
Lemma read_uint_shorter k s a rest : read_uint k s = ROk a rest ->
  exists b, s = b ++ rest /\ blen b = N.of_nat k /\ a = unbe b.
Proof.
  unfold read_uint. destruct (read_exact _ s) as [b r| |] eqn:E; cbn; [|done|done].
  intros [= <- <-]. apply read_exact_shorter in E as [-> E]. eauto.
Qed.

Lemma read_exts_unfold fuel e acc s :
  read_exts (S fuel) e acc s =
  if e <? 5 then ROk (acc, e) s
  else
      let! (flag, s) := read_uint 1 s in
      let! (ty, s) := read_uint 2 s in
      let! (il, s) := read_uint 2 s in
      let! (data, s) := read_exact il s in
      read_exts fuel ((e + 2^32 - 5 - il) mod 2^32)
        (if ty =? 1 then acc ++ [ExtItem (N.testbit flag 0) data] else acc) s.
Proof. reflexivity. Qed.

(** enough fuel: the result does not depend on it *)
Lemma read_exts_fuel n : forall m e acc s,
  (length s < n)%nat -> (length s < m)%nat -> read_exts n e acc s = read_exts m e acc s.
Proof.
  induction n as [|n IH]; intros m e acc s Hn Hm; [lia|].
  destruct m as [|m]; [lia|]. rewrite !read_exts_unfold.
  destruct (e <? 5); [done|].
  destruct (read_uint 1 s) as [fl s1| |] eqn:E1; cbn [rbind]; [|done|done].
  destruct (read_uint 2 s1) as [ty s2| |] eqn:E2; cbn [rbind]; [|done|done].
  destruct (read_uint 2 s2) as [il s3| |] eqn:E3; cbn [rbind]; [|done|done].
  destruct (read_exact il s3) as [d s4| |] eqn:E4; cbn [rbind]; [|done|done].
  apply read_uint_shorter in E1 as (b1 & -> & L1 & _).
  apply read_uint_shorter in E2 as (b2 & -> & L2 & _).
  apply read_uint_shorter in E3 as (b3 & -> & L3 & _).
  apply read_exact_shorter in E4 as (-> & L4).
  unfold blen in *. rewrite !app_length in *.
  apply IH; lia.
Qed.
Lemma mono_exts n : forall e acc, mono (read_exts n e acc).
Proof.
  induction n as [|n IH]; intros e acc.
  - intros s x. cbn. case_match; split; try (intros ?? [=]); try intros [=]; subst; done.
  - intros s x. rewrite !read_exts_unfold. destruct (e <? 5); [apply mono_ret|].
    revert s x. do 4 (apply mono_bind; [first [apply mono_uint|apply mono_exact]|intros ?]).
    apply IH.
Qed.
Lemma mono_ext_block f : mono (read_ext_block f).
Proof.
  unfold read_ext_block. destruct (f_start f); [|apply mono_ret].
  apply mono_bind; [apply mono_uint|]. intros e.
  apply mono_bind; [|intros r; apply mono_bind; [apply mono_exact|intros; apply mono_ret]].
  intros s x. destruct (mono_exts (S (length s)) e [] s x) as [H1 H2].
  rewrite (read_exts_fuel (S (length (s ++ x))) (S (length s + length x)) ) by (rewrite app_length; lia).
  assert (Hf : forall r, read_exts (S (length s)) e [] (s ++ x) = r -> r <> RWait ->
             read_exts (S (length s + length x)) e [] (s ++ x) = r); [|].
  2:{ split; [intros a rest Ha; apply Hf; [apply H1; exact Ha|done]
             |intros He; apply Hf; [apply H2; exact He|done]]. }
  intros r Hr Hw. revert Hr Hw. generalize (s ++ x) as y, (length x) as k, (length s) as j, (@nil ext_item) as acc.
  clear. intros y k j. revert e y. 
  (* more fuel never changes a decision *)
  induction j as [|j IH]; intros e y acc Hr Hw.
  - change (S (0 + k)) with (S k). rewrite read_exts_unfold in *. destruct (e <? 5); [done|].
    destruct (read_uint 1 y) as [fl s1| |] eqn:E1; cbn [rbind] in *; [|congruence|congruence].
    destruct (read_uint 2 s1) as [ty s2| |] eqn:E2; cbn [rbind] in *; [|congruence|congruence].
    destruct (read_uint 2 s2) as [il s3| |] eqn:E3; cbn [rbind] in *; [|congruence|congruence].
    destruct (read_exact il s3) as [d s4| |] eqn:E4; cbn [rbind] in *; [|congruence|congruence].
    set (e' := (e + 2 ^ 32 - 5 - il) mod 2 ^ 32) in *. clearbody e'.
    cbn [read_exts] in Hr. destruct k; cbn [read_exts]; destruct (e' <? 5) eqn:E5; congruence.
  - change (S (S j + k)) with (S (S (j + k))). rewrite (read_exts_unfold (S (j + k))).
    rewrite (read_exts_unfold (S j)) in Hr. destruct (e <? 5); [done|].
    destruct (read_uint 1 y) as [fl s1| |] eqn:E1; cbn [rbind] in *; [|congruence|congruence].
    destruct (read_uint 2 s1) as [ty s2| |] eqn:E2; cbn [rbind] in *; [|congruence|congruence].
    destruct (read_uint 2 s2) as [il s3| |] eqn:E3; cbn [rbind] in *; [|congruence|congruence].
    destruct (read_exact il s3) as [d s4| |] eqn:E4; cbn [rbind] in *; [|congruence|congruence].
    apply IH; done.
Qed.

Section Read.
  Variable utf8_lossy : bytes -> bytes.
  Notation read := (read utf8_lossy).

  Lemma mono_read : mono read.
  Proof.
    unfold TcpclWire.read. apply mono_bind; [apply mono_uint|]. intros ty.
    repeat first
      [ apply mono_ret | apply mono_err
      | apply mono_uint | apply mono_exact | apply mono_ext_block
      | apply mono_bind; [|intros ?]
      | match goal with |- mono (fun s => if ?b then _ else _) => destruct b end
      | match goal with |- mono (fun s => match ?b with _ => _ end) => destruct b end ].
  Qed.

  (** ** Well-formed messages *)
  Definition wf_ext (x : ext_item) : Prop := blen (x_data x) < 2^16.
  Definition wf_packet (p : packet) : Prop :=
    match p with
    | PContactHeader _ => False
    | PSessInit d =>
        si_keepalive d < 2^16 /\ si_segment_mru d < 2^64 /\ si_transfer_mru d < 2^64 /\
        blen (si_node_id d) < 2^16 /\ utf8_lossy (si_node_id d) = si_node_id d
    | PSessTerm _ _ => True
    | PXferSeg d =>
        xs_tid d < 2^64 /\ xs_len d = blen (xs_buf d) /\ blen (xs_buf d) < 2^64 /\
        Forall wf_ext (xs_ext d) /\ ext_total (xs_ext d) < 2^32 /\
        (f_start (xs_flags d) = false -> xs_ext d = [])
    | PXferAck _ tid len => tid < 2^64 /\ len < 2^64
    | PXferRefuse _ tid => tid < 2^64
    | PKeepAlive => True
    | PMsgReject _ h => h < 256
    end.

  Lemma seg_bits_roundtrip f : seg_of_bits (seg_bits f) = f.
  Proof. destruct f as [[] []]; reflexivity. Qed.

  Lemma ext_total_cons x l : ext_total (x :: l) = 5 + blen (x_data x) + ext_total l.
  Proof. done. Qed.

  Lemma read_exts_write l : forall fuel acc rest,
    Forall wf_ext l -> ext_total l < 2^32 -> (length l < fuel)%nat ->
    read_exts fuel (ext_total l) acc (concat (map write_ext l) ++ rest) = ROk (acc ++ l, 0) rest.
  Proof.
    induction l as [|x l IH]; intros fuel acc rest Hwf Ht Hf.
    - destruct fuel; [cbn in Hf; lia|]. rewrite read_exts_unfold. cbn. by rewrite app_nil_r.
    - apply Forall_cons in Hwf as [Hx Hl]. destruct fuel as [|fuel]; [cbn in Hf; lia|].
      rewrite ext_total_cons in *. rewrite read_exts_unfold.
      replace (5 + blen (x_data x) + ext_total l <? 5) with false by lia.
      cbn [map concat]. unfold write_ext at 1. unfold wf_ext in Hx.
      rewrite <- !app_assoc. cbn [app]. rewrite read_u8. cbn [rbind].
      rewrite read_uint_be by done. cbn [rbind].
      rewrite read_uint_be by (change (256 ^ N.of_nat 2) with (2^16); lia). cbn [rbind].
      rewrite read_exact_app. cbn [rbind].
      replace ((5 + blen (x_data x) + ext_total l + 2 ^ 32 - 5 - blen (x_data x)) mod 2 ^ 32) with (ext_total l).
      2:{ replace (5 + blen (x_data x) + ext_total l + 2 ^ 32 - 5 - blen (x_data x))
            with (ext_total l + 1 * 2^32) by lia. rewrite N.mod_add by done. rewrite N.mod_small; [done|lia]. }
      cbn [N.eqb Pos.eqb]. rewrite IH; [|done|lia|cbn in Hf; lia].
      rewrite <- app_assoc. cbn. destruct x as [[] d]; reflexivity.
  Qed.

  Lemma read_ext_block_write f l rest :
    Forall wf_ext l -> ext_total l < 2^32 -> (f_start f = false -> l = []) ->
    read_ext_block f
      ((if f_start f then be 4 (ext_total l) ++ (if 0 <? ext_total l then concat (map write_ext l) else []) else [])
       ++ rest) = ROk l rest.
  Proof.
    intros Hwf Ht Hs. unfold read_ext_block. destruct (f_start f).
    - rewrite <- app_assoc, read_uint_be by (change (256 ^ N.of_nat 4) with (2^32); lia). cbn [rbind].
      replace (if 0 <? ext_total l then concat (map write_ext l) else []) with (concat (map write_ext l)).
      2:{ destruct l as [|x l]; [done|]. rewrite ext_total_cons.
          destruct (0 <? _) eqn:E; [done|lia]. }
      rewrite read_exts_write; [|done|done|].
      + cbn [rbind fst snd app]. change rest with ([] ++ rest) at 1. rewrite read_exact_app' by done. done.
      + rewrite app_length. clear. induction l as [|x l IH]; cbn [concat map length]; [lia|].
        rewrite app_length. unfold write_ext at 1. rewrite !app_length. cbn [length]. lia.
    - rewrite Hs by done. done.
  Qed.

  Theorem read_write p rest : wf_packet p -> read (write p ++ rest) = ROk p rest.
  Proof.
    destruct p as [t|d|reply r|d|f tid len|r tid| |r h]; cbn [wf_packet write]; intros Hwf.
    - done.
    - destruct d as [ka sm tm nid]. cbn [si_keepalive si_segment_mru si_transfer_mru si_node_id] in *.
      destruct Hwf as (H1 & H2 & H3 & H4 & H5).
      unfold TcpclWire.read. rewrite <- !app_assoc. cbn [app]. rewrite read_u8. cbn [rbind N.eqb Pos.eqb].
      rewrite read_uint_be by done. cbn [rbind]. rewrite read_uint_be by done. cbn [rbind].
      rewrite read_uint_be by done. cbn [rbind]. rewrite read_uint_be by done. cbn [rbind].
      rewrite read_exact_app. cbn [rbind]. rewrite read_uint_be by done. cbn. rewrite H5. done.
    - unfold TcpclWire.read. cbn [app]. rewrite read_u8. cbn [rbind N.eqb Pos.eqb].
      rewrite read_u8. cbn [rbind]. rewrite read_u8. cbn [rbind]. destruct r, reply; reflexivity.
    - destruct d as [f tid len buf ext]. cbn [xs_flags xs_tid xs_len xs_buf xs_ext] in *.
      destruct Hwf as (H1 & -> & H2 & H3 & H4 & H5).
      unfold TcpclWire.read. rewrite <- !app_assoc. cbn [app]. rewrite read_u8. cbn [rbind N.eqb Pos.eqb].
      rewrite read_u8. cbn [rbind]. rewrite seg_bits_roundtrip.
      rewrite read_uint_be by done. cbn [rbind].
      rewrite read_ext_block_write by done. cbn [rbind].
      rewrite read_uint_be by done. cbn [rbind].
      replace (if 0 <? blen buf then buf else []) with buf by (destruct buf; reflexivity).
      rewrite read_exact_app. done.
    - destruct Hwf as (H1 & H2).
      unfold TcpclWire.read. rewrite <- !app_assoc. cbn [app]. rewrite read_u8. cbn [rbind N.eqb Pos.eqb].
      rewrite read_u8. cbn [rbind]. rewrite seg_bits_roundtrip.
      rewrite read_uint_be by done. cbn [rbind]. rewrite read_uint_be by done. done.
    - unfold TcpclWire.read. rewrite <- !app_assoc. cbn [app]. rewrite read_u8. cbn [rbind N.eqb Pos.eqb].
      rewrite read_u8. cbn [rbind].
      destruct r; cbn; rewrite read_uint_be by done; done.
    - unfold TcpclWire.read. cbn [app]. rewrite read_u8. done.
    - unfold TcpclWire.read. cbn [app]. rewrite read_u8. cbn [rbind N.eqb Pos.eqb].
      rewrite read_u8. cbn [rbind]. rewrite read_u8. cbn [rbind]. destruct r; reflexivity.
  Qed.

  (** A strict prefix of a message is never taken for a message nor rejected. *)
  Theorem read_prefix p pre suf :
    wf_packet p -> write p = pre ++ suf -> suf <> [] -> read pre = RWait.
  Proof.
    intros Hwf Hs Hne. pose proof (read_write p [] Hwf) as Hr. rewrite app_nil_r, Hs in Hr.
    destruct (mono_read pre suf) as [H1 H2]. destruct (read pre) as [q r| |] eqn:E; [|done|].
    - rewrite (H1 _ _ eq_refl) in Hr. injection Hr as _ Hr. apply app_eq_nil in Hr as [_ ?]. done.
    - rewrite (H2 eq_refl) in Hr. done.
  Qed.

  (** Contact header: written by [write], read by [receive_contact_header]. *)
  Theorem contact_header_roundtrip t rest :
    receive_contact_header (write (PContactHeader t) ++ rest) = ROk t rest.
  Proof.
    unfold receive_contact_header.
    rewrite read_exact_app' by done. destruct t; reflexivity.
  Qed.
  Theorem contact_header_only s t rest :
    receive_contact_header s = ROk t rest ->
    exists fl, s = [100; 116; 110; 33; 4; fl] ++ rest /\ t = N.testbit fl 0.
  Proof.
    unfold receive_contact_header. intros H.
    destruct (read_exact 6 s) as [b s'| |] eqn:E; cbn [rbind] in H; [|done|done].
    apply read_exact_shorter in E as [-> Hb].
    assert (Hb6 : length b = 6%nat) by (unfold blen in Hb; lia). clear Hb.
    destruct b as [|n b]; [done|]. destruct b as [|n0 b]; [done|]. destruct b as [|n1 b]; [done|].
    destruct b as [|n2 b]; [done|]. destruct b as [|n3 b]; [done|]. destruct b as [|n4 b]; [done|]. destruct b; [|done].
    cbn [take lookup list_lookup magic] in H.
    destruct (bool_decide _) eqn:Em in H; cbn [negb] in H; [|done].
    apply bool_decide_eq_true_1 in Em. injection Em as -> -> -> ->.
    destruct (N.eqb_spec n3 4) as [->|]; cbn [negb] in H; [|done].
    injection H as <- <-. by exists n4.
  Qed.
  (** [read] itself does not accept what [write] produces for it. *)
  Theorem contact_header_read t rest q r : 7 <= blen (write (PContactHeader t) ++ rest) ->
    read (write (PContactHeader t) ++ rest) <> ROk q r.
  Proof.
    intros Hl. unfold TcpclWire.read. cbn [write magic app] in *. rewrite read_u8. cbn [rbind N.eqb Pos.eqb].
    destruct (read_exact _ _) as [b s| |] eqn:E; cbn [rbind]; [|done|done].
    apply read_exact_shorter in E as [E Hb].
    destruct b as [|b0 b]; [done|]. injection E as <- E.
    rewrite bool_decide_eq_false_2; [done|]. cbn. intros [=].
  Qed.

  (** Whole conversations: reading message after message. *)
  Fixpoint read_all (fuel : nat) (s : bytes) : list packet * bytes :=
    match fuel with
    | O => ([], s)
    | S fuel =>
      match read s with
      | ROk p rest => let r := read_all fuel rest in (p :: fst r, snd r)
      | _ => ([], s)
      end
    end.
  Theorem read_all_stream ps pre fuel :
    Forall wf_packet ps -> (length ps < fuel)%nat -> read pre = RWait ->
    read_all fuel (concat (map write ps) ++ pre) = (ps, pre).
  Proof.
    intros Hps. revert fuel. induction Hps as [|p ps Hp _ IH]; intros fuel Hf Hw.
    - destruct fuel; [cbn in Hf; lia|]. cbn. by rewrite Hw.
    - destruct fuel as [|fuel]; [cbn in Hf; lia|]. cbn [map concat read_all].
      rewrite <- app_assoc, read_write by done. rewrite IH by (cbn in Hf; lia || done). done.
  Qed.
End Read.
