(** Proofs about the MTCP codec model. *)
From Verif Require Import Bytes Mtcp.
From stdpp Require Import prelude.
From Coq Require Import NArith Lia ZifyN ZifyNat ZifyBool.
Open Scope N_scope.

(** Specification side (RFC 8949 section 3): [announces hdr n] says that [hdr] is the
    head of a definite-length CBOR byte string of [n] bytes. *)
Definition announces (hdr : bytes) (n : N) : Prop :=
  (n < 24 /\ hdr = [64 + n]) \/
  (n < 256 /\ hdr = 88 :: be 1 n) \/
  (n < 256^2 /\ hdr = 89 :: be 2 n) \/
  (n < 256^4 /\ hdr = 90 :: be 4 n) \/
  (n < 256^8 /\ hdr = 91 :: be 8 n).

Lemma parse_first_cases b :
  b < 256 ->
  match parse_first b with
  | CLen n => n < 24 /\ b = 64 + n
  | CU8 => b = 88 | CU16 => b = 89 | CU32 => b = 90 | CU64 => b = 91
  | CNot => True
  end.
Proof.
  intros Hb. unfold parse_first.
  destruct (b / 32 =? 2) eqn:E; cbn [negb]; [|done].
  apply N.eqb_eq in E. pose proof (N.div_mod b 32 ltac:(lia)) as Hd. rewrite E in Hd.
  cbn zeta. set (m := b mod 32) in *. clearbody m.
  destruct (m <? 24) eqn:?; [lia|]. destruct (m =? 24) eqn:?; [lia|].
  destruct (m =? 25) eqn:?; [lia|]. destruct (m =? 26) eqn:?; [lia|].
  destruct (m =? 27) eqn:?; [lia|]. done.
Qed.

Lemma hdr_len_cases b : hdr_len b = 0 \/ hdr_len b = 1 \/ hdr_len b = 2 \/ hdr_len b = 3 \/ hdr_len b = 5 \/ hdr_len b = 9.
Proof. unfold hdr_len. destruct (parse_first b); tauto. Qed.

Lemma parse_len_take10 buf : 10 <= blen buf -> parse_len (take 10 buf) = parse_len buf.
Proof.
  unfold blen. intros H.
  do 10 (destruct buf as [|? buf]; [cbn in H; lia|]).
  reflexivity.
Qed.

Lemma parse_len_some buf : 10 <= blen buf -> is_Some (parse_len buf).
Proof.
  unfold blen. intros H.
  do 10 (destruct buf as [|? buf]; [cbn in H; lia|]).
  unfold parse_len. cbn. destruct (parse_first n); eauto.
Qed.

Lemma parse_len_app buf x : 10 <= blen buf -> parse_len (buf ++ x) = parse_len buf.
Proof.
  unfold blen. intros H.
  do 10 (destruct buf as [|? buf]; [cbn in H; lia|]).
  reflexivity.
Qed.

Ltac be_unfold :=
  change (be 1) with (fun n => @nil N ++ [n mod 256]);
  change (be 2) with (fun n => (@nil N ++ [(n / 256) mod 256]) ++ [n mod 256]).

Lemma parse_len_announces s i0 n :
  bytes_ok s -> s !! 0%nat = Some i0 -> hdr_len i0 <> 0 -> parse_len s = Some n ->
  announces (take (N.to_nat (hdr_len i0)) s) n.
Proof.
  intros Hok H0 Hh Hp.
  destruct s as [|b s]; [done|]. cbn in H0. injection H0 as ->.
  pose proof Hok as Hok'. apply Forall_cons in Hok' as [Hb Hoks].
  pose proof (parse_first_cases i0 Hb) as Hc.
  unfold parse_len in Hp. cbn in Hp. unfold hdr_len in *.
  destruct (parse_first i0) eqn:E; try done.
  - injection Hp as ->. left. destruct Hc as [? ->]. split; [lia|]. done.
  - subst i0. destruct s as [|b1 s]; [done|]. cbn in Hp. injection Hp as ->.
    apply Forall_cons in Hoks as [H1 _].
    right; left. split; [lia|]. change (N.to_nat 2) with 2%nat. cbn [take]. f_equal. symmetry.
    apply (be_unbe [n]). by repeat constructor.
  - subst i0. destruct s as [|b1 [|b2 s]]; try done. cbn in Hp. injection Hp as <-.
    apply Forall_cons in Hoks as [H1 Hoks]. apply Forall_cons in Hoks as [H2 _].
    right; right; left.
    assert (Hk : bytes_ok [b1;b2]) by (by repeat constructor).
    replace (b1 * 256 + b2) with (unbe [b1;b2]) by (unfold unbe; cbn [fold_left]; lia).
    split; [apply (unbe_bound _ Hk)|]. change (N.to_nat 3) with 3%nat.
    pose proof (be_unbe _ Hk) as Hbu. cbn [length] in Hbu. rewrite Hbu. reflexivity.
  - subst i0. destruct s as [|b1 [|b2 [|b3 [|b4 s]]]]; try done.
    cbn in Hp. injection Hp as <-.
    repeat match goal with H : bytes_ok (_ :: _) |- _ => apply Forall_cons in H as [? H] | H : Forall _ (_ :: _) |- _ => apply Forall_cons in H as [? H] end.
    right; right; right; left.
    assert (Hk : bytes_ok [b1;b2;b3;b4]) by (by repeat constructor).
    replace (b1 * 16777216 + b2 * 65536 + b3 * 256 + b4) with (unbe [b1;b2;b3;b4])
      by (unfold unbe; cbn [fold_left]; lia).
    split; [apply (unbe_bound _ Hk)|]. change (N.to_nat 5) with 5%nat.
    pose proof (be_unbe _ Hk) as Hbu. cbn [length] in Hbu. rewrite Hbu. reflexivity.
  - subst i0. destruct s as [|b1 [|b2 [|b3 [|b4 [|b5 [|b6 [|b7 [|b8 s]]]]]]]]; try done.
    cbn in Hp. injection Hp as <-.
    repeat match goal with H : bytes_ok (_ :: _) |- _ => apply Forall_cons in H as [? H] | H : Forall _ (_ :: _) |- _ => apply Forall_cons in H as [? H] end.
    do 4 right.
    assert (Hk : bytes_ok [b1;b2;b3;b4;b5;b6;b7;b8]) by (by repeat constructor).
    replace (b1 * 72057594037927936 + b2 * 281474976710656 + b3 * 1099511627776 + b4 * 4294967296 + b5 * 16777216 + b6 * 65536 + b7 * 256 + b8)
      with (unbe [b1;b2;b3;b4;b5;b6;b7;b8])
      by (unfold unbe; cbn [fold_left]; lia).
    split; [apply (unbe_bound _ Hk)|]. change (N.to_nat 9) with 9%nat.
    pose proof (be_unbe _ Hk) as Hbu. cbn [length] in Hbu. rewrite Hbu. reflexivity.
Qed.

(** ** No panics *)
Lemma decode_no_panic buf : decode buf <> DPanic.
Proof.
  unfold decode. case_match eqn:E1; [done|].
  assert (H10 : 10 <= blen buf) by lia. unfold blen in H10.
  destruct (buf !! 0%nat) eqn:E0.
  2:{ apply lookup_ge_None in E0. lia. }
  case_match; [done|].
  rewrite parse_len_take10 by (unfold blen; lia).
  destruct (parse_len_some buf) as [m Hm]; [unfold blen; lia|]. rewrite Hm.
  repeat case_match; try done.
  match goal with H : buf !! _ = None |- _ => apply lookup_ge_None in H; unfold blen in *; lia end.
Qed.

(** ** Shape of a frame *)
Lemma decode_frame_inv buf f rest :
  decode buf = DFrame f rest ->
  exists i0 n,
    buf !! 0%nat = Some i0 /\ hdr_len i0 <> 0 /\ parse_len buf = Some n /\ 10 <= blen buf /\
    hdr_len i0 + n < usize_max1 /\ hdr_len i0 + n <= blen buf /\
    buf = take (N.to_nat (hdr_len i0)) buf ++ f ++ rest /\
    f = take (N.to_nat n) (drop (N.to_nat (hdr_len i0)) buf) /\
    blen f = n /\ buf !! N.to_nat (hdr_len i0 + n - 1) = Some 255.
Proof.
  unfold decode. case_match eqn:E1; [done|].
  assert (H10 : 10 <= blen buf) by lia.
  destruct (buf !! 0%nat) eqn:E0; [|done].
  case_match eqn:E2; [done|].
  rewrite parse_len_take10 by done.
  destruct (parse_len buf) as [m|] eqn:Hm; [|done].
  case_match eqn:E3; [done|]. case_match eqn:E4; [done|].
  case_match eqn:E5; [|done].
  destruct (buf !! N.to_nat _) as [t|] eqn:Et; [|done].
  case_match eqn:E6; [done|].
  case_match eqn:E7; [|done].
  intros [= <- <-].
  pose proof (hdr_len_cases n) as Hh.
  exists n, m. 
  assert (Hh0 : hdr_len n <> 0) by lia.
  assert (Hsum : (N.to_nat (hdr_len n + m - 1) + 1)%nat = (N.to_nat (hdr_len n) + N.to_nat m)%nat) by lia.
  assert (Hle : (N.to_nat (hdr_len n) + N.to_nat m <= length buf)%nat) by (unfold blen in *; lia).
  rewrite Hsum in E7 |- *.
  unfold mpdu_from_slice in E7.
  assert (E0' : take (N.to_nat (hdr_len n) + N.to_nat m) buf !! 0%nat = Some n) by (rewrite lookup_take by lia; done).
  rewrite E0' in E7. cbn [mbind option_bind] in E7.
  destruct (parse_len (take _ buf)) as [m'|] eqn:Hm'; [|done]. cbn [mbind option_bind] in E7.
  case_match; [done|]. case_match eqn:E8; [|done].
  injection E7 as <-.
  assert (Hb : drop (N.to_nat (hdr_len n)) (take (N.to_nat (hdr_len n) + N.to_nat m) buf)
               = take (N.to_nat m) (drop (N.to_nat (hdr_len n)) buf)).
  { rewrite take_drop_commute. done. }
  rewrite Hb in *.
  split; [done|]. split; [done|]. split; [done|]. split; [done|]. split; [lia|].
  split; [lia|].
  split.
  { rewrite <- drop_drop, take_drop, take_drop. done. }
  split; [done|].
  split.
  { unfold blen. rewrite take_length, drop_length. lia. }
  rewrite Et. f_equal. lia.
Qed.

Lemma decode_frame_shorter buf f rest :
  decode buf = DFrame f rest -> (length rest < length buf)%nat.
Proof.
  intros H. apply decode_frame_inv in H as (i0 & n & H0 & Hh & _ & H10 & _ & _ & Heq & _).
  apply (f_equal length) in Heq. rewrite !app_length, take_length in Heq.
  unfold blen in *. lia.
Qed.

Lemma decode_frame_app buf f rest x :
  decode buf = DFrame f rest -> decode (buf ++ x) = DFrame f (rest ++ x).
Proof.
  unfold decode. intros H.
  case_match eqn:E1; [done|].
  rewrite blen_app.
  replace (blen buf + blen x <? 10) with false by lia.
  destruct (buf !! 0%nat) eqn:E0; [|done].
  rewrite lookup_app_l by (apply lookup_lt_Some in E0; lia). rewrite E0.
  case_match; [done|].
  rewrite parse_len_take10 in * by lia.
  rewrite parse_len_take10 in * by (rewrite blen_app; lia).
  rewrite parse_len_app by lia.
  destruct (parse_len buf); [|done].
  case_match; [done|]. case_match; [done|].
  case_match eqn:E5; [|done].
  replace (hdr_len n + n0 - 1 <? blen buf + blen x) with true by lia.
  assert ((N.to_nat (hdr_len n + n0 - 1) < length buf)%nat) by (unfold blen in *; lia).
  rewrite lookup_app_l by lia.
  case_match; [|done]. case_match; [done|].
  rewrite take_app_le by lia.
  case_match; [|done].
  injection H as <- <-. rewrite drop_app_le by lia. done.
Qed.

Lemma decode_err_app buf x : decode buf = DErr -> decode (buf ++ x) = DErr.
Proof.
  unfold decode. intros H.
  case_match eqn:E1; [done|].
  rewrite blen_app.
  replace (blen buf + blen x <? 10) with false by lia.
  destruct (buf !! 0%nat) eqn:E0; [|done].
  rewrite lookup_app_l by (apply lookup_lt_Some in E0; lia). rewrite E0.
  case_match; [done|].
  rewrite parse_len_take10 in * by lia.
  rewrite parse_len_take10 in * by (rewrite blen_app; lia).
  rewrite parse_len_app by lia.
  destruct (parse_len buf); [|done].
  case_match; [done|]. case_match; [done|].
  case_match eqn:E5; [|done].
  replace (hdr_len n + n0 - 1 <? blen buf + blen x) with true by lia.
  assert ((N.to_nat (hdr_len n + n0 - 1) < length buf)%nat) by (unfold blen in *; lia).
  rewrite lookup_app_l by lia.
  case_match; [|done]. case_match; [done|].
  rewrite take_app_le by lia.
  case_match; done.
Qed.

(** ** The receive loop *)
Lemma drain_acc fuel buf acc :
  drain fuel buf acc =
  Conn (c_buf (drain fuel buf [])) (acc ++ c_frames (drain fuel buf [])) (c_status (drain fuel buf [])).
Proof.
  revert buf acc; induction fuel as [|fuel IH]; intros buf acc; cbn [drain].
  - cbn. by rewrite app_nil_r.
  - destruct (decode buf); cbn; rewrite ?app_nil_r; try done.
    rewrite IH. rewrite (IH _ [frame]). cbn. by rewrite <- app_assoc.
Qed.

Lemma drain_fuel n m buf acc :
  (length buf < n)%nat -> (length buf < m)%nat -> drain n buf acc = drain m buf acc.
Proof.
  revert m buf acc; induction n as [|n IH]; intros m buf acc Hn Hm; [lia|].
  destruct m as [|m]; [lia|]. cbn [drain].
  destruct (decode buf) eqn:E; try done.
  apply decode_frame_shorter in E. apply IH; lia.
Qed.

Definition D (buf : bytes) : conn := drain (S (length buf)) buf [].
Global Arguments D : simpl never.

Lemma D_unfold buf :
  D buf = match decode buf with
          | DWait => Conn buf [] Open
          | DErr => Conn buf [] Failed
          | DPanic => Conn buf [] Panicked
          | DFrame f rest => Conn (c_buf (D rest)) (f :: c_frames (D rest)) (c_status (D rest))
          end.
Proof.
  unfold D at 1. cbn [drain]. destruct (decode buf) eqn:E; try done.
  apply decode_frame_shorter in E.
  rewrite drain_acc. cbn [app].
  rewrite (drain_fuel (length buf) (S (length rest))) by lia. done.
Qed.

Lemma D_ind (P : bytes -> Prop) :
  (forall buf, (forall f rest, decode buf = DFrame f rest -> P rest) -> P buf) ->
  forall buf, P buf.
Proof.
  intros Hstep buf. remember (length buf) as n eqn:Hn. revert buf Hn.
  induction (lt_wf n) as [n _ IH]. intros buf ->.
  apply Hstep. intros f rest H. apply decode_frame_shorter in H. by eapply IH.
Qed.

Lemma D_no_panic buf : c_status (D buf) <> Panicked.
Proof.
  induction buf as [buf IH] using D_ind. rewrite D_unfold.
  pose proof (decode_no_panic buf). destruct (decode buf) eqn:E; cbn; try done.
  by eapply IH.
Qed.

(** [drain] never runs out of fuel: fuel exhaustion is the only other source
    of [Panicked]. *)
Lemma drain_fuel_enough buf acc : c_status (drain (S (length buf)) buf acc) <> Panicked.
Proof. rewrite drain_acc. cbn. apply D_no_panic. Qed.

Lemma D_app_open buf x :
  c_status (D buf) = Open ->
  D (buf ++ x) = Conn (c_buf (D (c_buf (D buf) ++ x)))
                      (c_frames (D buf) ++ c_frames (D (c_buf (D buf) ++ x)))
                      (c_status (D (c_buf (D buf) ++ x))).
Proof.
  induction buf as [buf IH] using D_ind. intros Hopen.
  rewrite (D_unfold buf) in *. destruct (decode buf) eqn:E; cbn in Hopen |- *; try done.
  - by destruct (D (buf ++ x)).
  - rewrite D_unfold. rewrite (decode_frame_app _ _ _ _ E).
    rewrite (IH _ _ eq_refl Hopen). done.
Qed.

Lemma D_app_failed buf x :
  c_status (D buf) = Failed ->
  c_status (D (buf ++ x)) = Failed /\ c_frames (D (buf ++ x)) = c_frames (D buf).
Proof.
  induction buf as [buf IH] using D_ind. intros Hf.
  rewrite (D_unfold buf) in *. destruct (decode buf) eqn:E; cbn in Hf |- *; try done.
  - rewrite D_unfold. rewrite (decode_frame_app _ _ _ _ E). cbn.
    destruct (IH _ _ eq_refl Hf) as [-> ->]. done.
  - rewrite D_unfold, (decode_err_app _ _ E). done.
Qed.

Lemma receive_stream_D chunks :
  c_frames (receive_stream chunks) = c_frames (D (concat chunks)) /\
  c_status (receive_stream chunks) = c_status (D (concat chunks)) /\
  (c_status (receive_stream chunks) = Open ->
   c_buf (receive_stream chunks) = c_buf (D (concat chunks))).
Proof.
  unfold receive_stream. induction chunks as [|ch chunks IH] using rev_ind.
  - cbn. done.
  - rewrite fold_left_app, concat_app. cbn [fold_left concat].
    rewrite app_nil_r.
    set (c := fold_left feed chunks conn0) in *.
    destruct IH as (IH1 & IH2 & IH3).
    unfold feed. destruct (c_status c) eqn:Ec.
    + rewrite drain_acc. cbn [c_frames c_status c_buf].
      rewrite (IH3 eq_refl), IH1.
      rewrite D_app_open by congruence.
      unfold D at 2 4 6. cbn. done.
    + symmetry in IH2. destruct (D_app_failed _ ch IH2) as [-> ->].
      rewrite Ec. done.
    + exfalso. eapply D_no_panic. by symmetry.
Qed.

(** ** Encoding *)
Lemma header_announces n : n < 256^8 -> announces (cbor_bytes_header n) n.
Proof.
  intros H. unfold cbor_bytes_header, announces.
  repeat case_match; [left|right;left|do 2 right;left|do 3 right;left|do 4 right];
    split; try done; lia.
Qed.

(** The reader recognises every announced length. *)
Lemma announced_parse hdr n body :
  announces hdr n ->
  exists i0, (hdr ++ body) !! 0%nat = Some i0 /\ hdr_len i0 = blen hdr /\ hdr_len i0 <> 0 /\
             parse_len (hdr ++ body) = Some n.
Proof.
  intros [[Hn ->]|[[Hn ->]|[[Hn ->]|[[Hn ->]|[Hn ->]]]]].
  - exists (64+n). 
    assert (E : parse_first (64 + n) = CLen n).
    { unfold parse_first.
      replace ((64+n)/32) with 2. 2:{ apply N.div_unique with n; lia. }
      replace ((64+n) mod 32) with n. 2:{ apply N.mod_unique with 2; lia. }
      cbn [negb N.eqb Pos.eqb]. replace (n <? 24) with true by lia. done. }
    cbn. unfold parse_len, hdr_len. cbn. rewrite E. done.
  - eexists. split; [reflexivity|]. split; [done|]. split; [done|].
    pose proof (be_length 1 n) as Hl. pose proof (unbe_be 1 n Hn) as Hu.
    destruct (be 1 n) as [|a [|]]; try done. unfold unbe in Hu; cbn in Hu |- *.
    f_equal. lia.
  - eexists. split; [reflexivity|]. split; [done|]. split; [done|].
    pose proof (be_length 2 n) as Hl. pose proof (unbe_be 2 n Hn) as Hu.
    destruct (be 2 n) as [|a [|b [|]]]; try done. unfold unbe in Hu.
    cbn [fold_left] in Hu. unfold parse_len. cbn. f_equal. lia.
  - eexists. split; [reflexivity|]. split; [done|]. split; [done|].
    pose proof (be_length 4 n) as Hl. pose proof (unbe_be 4 n Hn) as Hu.
    destruct (be 4 n) as [|a [|b [|c [|d [|]]]]]; try done. unfold unbe in Hu.
    cbn [fold_left] in Hu. unfold parse_len. cbn. f_equal. lia.
  - eexists. split; [reflexivity|]. split; [done|]. split; [done|].
    pose proof (be_length 8 n) as Hl. pose proof (unbe_be 8 n Hn) as Hu.
    destruct (be 8 n) as [|a [|b [|c [|d [|e [|f [|g [|h [|]]]]]]]]]; try done. unfold unbe in Hu.
    cbn [fold_left] in Hu. unfold parse_len. cbn. f_equal. lia.
Qed.

Definition sendable (p : bytes) : Prop :=
  last p = Some 255 /\ 10 <= blen (mtcp_encode p) /\ blen p + 9 < usize_max1.

Lemma decode_encode p rest : sendable p -> decode (mtcp_encode p ++ rest) = DFrame p rest.
Proof.
  intros (Hlast & H10 & Hmax). unfold usize_max1 in Hmax.
  unfold mtcp_encode in *. set (hdr := cbor_bytes_header (blen p)) in *.
  assert (Ha : announces hdr (blen p)) by (apply header_announces; lia).
  clearbody hdr.
  rewrite <- app_assoc.
  destruct (announced_parse hdr _ (p ++ rest) Ha) as (i0 & H0 & Hh & Hh0 & Hp).
  pose proof (hdr_len_cases i0) as Hhc.
  assert (Hlen : blen (hdr ++ p ++ rest) = hdr_len i0 + blen p + blen rest).
  { rewrite !blen_app. lia. }
  assert (Hpne : blen p <> 0). { destruct p; [done|]. unfold blen; cbn; lia. }
  rewrite blen_app in H10.
  unfold decode. rewrite Hlen.
  replace (hdr_len i0 + blen p + blen rest <? 10) with false by lia.
  rewrite H0. replace (hdr_len i0 =? 0) with false by lia.
  rewrite parse_len_take10 by lia. rewrite Hp.
  replace (usize_max1 <=? hdr_len i0 + blen p) with false by (unfold usize_max1; lia).
  replace (hdr_len i0 + blen p =? 0) with false by lia.
  replace (hdr_len i0 + blen p - 1 <? hdr_len i0 + blen p + blen rest) with true by lia.
  assert (Hn1 : N.to_nat (hdr_len i0 + blen p - 1) = (length hdr + (length p - 1))%nat).
  { unfold blen in *. lia. }
  rewrite Hn1.
  rewrite lookup_app_r by lia. 
  replace (length hdr + (length p - 1) - length hdr)%nat with (length p - 1)%nat by lia.
  rewrite lookup_app_l by (unfold blen in *; lia).
  assert (Hl : p !! (length p - 1)%nat = Some 255).
  { rewrite last_lookup in Hlast. by replace (length p - 1)%nat with (Nat.pred (length p)) by lia. }
  rewrite Hl. cbn [negb N.eqb Pos.eqb].
  assert (Htk : take (length hdr + (length p - 1) + 1) (hdr ++ p ++ rest) = hdr ++ p).
  { rewrite app_assoc. apply take_app_alt. rewrite app_length. unfold blen in *; lia. }
  assert (Hdr : drop (length hdr + (length p - 1) + 1) (hdr ++ p ++ rest) = rest).
  { rewrite app_assoc. apply drop_app_alt. rewrite app_length. unfold blen in *; lia. }
  rewrite Htk, Hdr.
  unfold mpdu_from_slice.
  destruct (announced_parse hdr _ p Ha) as (i0' & H0' & Hh' & _ & Hp').
  assert (i0' = i0) as ->.
  { destruct hdr; [unfold blen in *; cbn in *; lia|]. cbn in *. congruence. }
  rewrite H0'. cbn [mbind option_bind]. rewrite Hp'. cbn [mbind option_bind].
  replace (hdr_len i0 =? 0) with false by lia.
  replace (drop (N.to_nat (hdr_len i0)) (hdr ++ p)) with p.
  2:{ symmetry. apply drop_app_alt. unfold blen in *. lia. }
  rewrite N.eqb_refl. done.
Qed.

Lemma D_stream ps : Forall sendable ps -> D (mtcp_stream ps) = Conn [] ps Open.
Proof.
  induction 1 as [|p ps Hp _ IH]; [done|].
  unfold mtcp_stream. cbn. rewrite D_unfold.
  rewrite decode_encode by done. unfold mtcp_stream in IH. rewrite IH. done.
Qed.

Lemma mtcp_roundtrip ps chunks :
  Forall sendable ps -> concat chunks = mtcp_stream ps ->
  receive_stream chunks = Conn [] ps Open.
Proof.
  intros Hps Hc. destruct (receive_stream_D chunks) as (H1 & H2 & H3).
  rewrite Hc, (D_stream _ Hps) in *. cbn in *.
  specialize (H3 H2). destruct (receive_stream chunks). cbn in *. by subst.
Qed.

Lemma mtcp_chunking chunks1 chunks2 :
  concat chunks1 = concat chunks2 ->
  c_frames (receive_stream chunks1) = c_frames (receive_stream chunks2) /\
  c_status (receive_stream chunks1) = c_status (receive_stream chunks2).
Proof.
  intros H. destruct (receive_stream_D chunks1) as (-> & -> & _).
  destruct (receive_stream_D chunks2) as (-> & -> & _). by rewrite H.
Qed.

(** Specification: a stream read as a sequence of announced frames. *)
Inductive framed : bytes -> list bytes -> bytes -> Prop :=
| framed_nil rest : framed rest [] rest
| framed_cons hdr f s fs rest :
    announces hdr (blen f) -> last f = Some 255 -> framed s fs rest ->
    framed (hdr ++ f ++ s) (f :: fs) rest.

Lemma last_take_drop_255 (buf : bytes) h n :
  n <> 0 -> buf !! N.to_nat (h + n - 1) = Some 255 ->
  (N.to_nat (h + n) <= length buf)%nat ->
  last (take (N.to_nat n) (drop (N.to_nat h) buf)) = Some 255.
Proof.
  intros Hn Hl Hle. rewrite last_lookup, take_length, drop_length.
  rewrite lookup_take by lia. rewrite lookup_drop.
  rewrite <- Hl. f_equal. lia.
Qed.

Lemma announces_nonzero hdr n : announces hdr n -> last hdr = Some 255 -> n <> 0.
Proof.
  intros [[Hn ->]|[[Hn ->]|[[Hn ->]|[[Hn ->]|[Hn ->]]]]] Hl ->; by vm_compute in Hl.
Qed.

Lemma D_framed buf : bytes_ok buf ->
  exists rest, framed buf (c_frames (D buf)) rest /\ (c_status (D buf) = Open -> rest = c_buf (D buf)).
Proof.
  induction buf as [buf IH] using D_ind. intros Hok.
  rewrite D_unfold. destruct (decode buf) eqn:E; cbn.
  - exists buf. split; [constructor|done].
  - pose proof (decode_frame_inv _ _ _ E) as (i0 & n & H0 & Hh & Hp & H10 & Hmax & Hle & Heq & Hf & Hbl & H255).
    assert (Hr : bytes_ok rest).
    { unfold bytes_ok in *. rewrite Heq in Hok. apply Forall_app in Hok as [_ Hok]. by apply Forall_app in Hok as [_ ?]. }
    destruct (IH _ _ eq_refl Hr) as (rest' & Hfr & Hst).
    assert (Ha : announces (take (N.to_nat (hdr_len i0)) buf) n) by (by eapply parse_len_announces).
    assert (Hn0 : n <> 0).
    { intros ->. eapply announces_nonzero; [exact Ha| |done].
      pose proof (hdr_len_cases i0). unfold blen in *.
      rewrite last_lookup, take_length, lookup_take by lia.
      rewrite <- H255. f_equal. lia. }
    exists rest'. split; [|done]. rewrite Heq.
    constructor; [by rewrite Hbl| |done].
    rewrite Hf. apply last_take_drop_255; [done|done|]. unfold blen in *. lia.
  - exists buf. split; [constructor|done].
  - exists buf. split; [constructor|done].
Qed.

Lemma mtcp_hostile chunks :
  bytes_ok (concat chunks) ->
  c_status (receive_stream chunks) <> Panicked /\
  exists rest, framed (concat chunks) (c_frames (receive_stream chunks)) rest.
Proof.
  intros Hok. destruct (receive_stream_D chunks) as (-> & -> & _).
  split; [apply D_no_panic|]. destruct (D_framed _ Hok) as (rest & H & _). eauto.
Qed.
