(** Byte strings and big-endian integers.

    Bytes are natural numbers of type [N]; well-formed byte strings are those
    whose elements are below 256.  Models the [u8]/[u16]/[u32]/[u64] to
    big-endian conversions used through [AsyncWriteExt::write_u*],
    [AsyncReadExt::read_u*] (cla/tcp/net.rs) and by serde_cbor. *)
From stdpp Require Import prelude.
From Coq Require Import NArith Lia ZifyN ZifyNat ZifyBool.
Open Scope N_scope.

Notation bytes := (list N).
Definition bytes_ok (l : bytes) : Prop := Forall (fun b => b < 256) l.

(** number of bytes of a byte string as an [N] (Rust: [buf.len()]) *)
Definition blen (l : bytes) : N := N.of_nat (length l).

(** [be k n]: the [k]-byte big-endian encoding of [n] (truncating, as [as u16] does). *)
Fixpoint be (k : nat) (n : N) : bytes :=
  match k with
  | O => []
  | S k' => be k' (n / 256) ++ [n mod 256]
  end.

(** [unbe l]: the value of a big-endian byte string. *)
Definition unbe (l : bytes) : N := fold_left (fun a b => a * 256 + b) l 0.

Lemma be_length k n : length (be k n) = k.
Proof. revert n; induction k; intros n; cbn; [done|]. rewrite app_length, IHk. cbn. lia. Qed.

Lemma unbe_app l1 l2 : unbe (l1 ++ l2) = fold_left (fun a b => a * 256 + b) l2 (unbe l1).
Proof. unfold unbe. by rewrite fold_left_app. Qed.

Lemma unbe_snoc l b : unbe (l ++ [b]) = unbe l * 256 + b.
Proof. rewrite unbe_app. done. Qed.

Lemma unbe_be k n : n < 256 ^ N.of_nat k -> unbe (be k n) = n.
Proof.
  revert n; induction k; intros n Hn.
  - cbn in *. lia.
  - cbn [be]. rewrite unbe_snoc, IHk.
    + rewrite N.mul_comm. symmetry. apply N.div_mod. lia.
    + rewrite Nat2N.inj_succ, N.pow_succ_r' in Hn.
      apply N.div_lt_upper_bound; lia.
Qed.

Lemma be_ok k n : bytes_ok (be k n).
Proof.
  revert n; induction k; intros n; cbn; [constructor|].
  apply Forall_app; split; [apply IHk|]. constructor; [|constructor].
  apply N.mod_lt. lia.
Qed.

Lemma unbe_bound l : bytes_ok l -> unbe l < 256 ^ N.of_nat (length l).
Proof.
  induction l as [|b l IH] using rev_ind; intros Hok.
  - cbn. lia.
  - apply Forall_app in Hok as [H1 H2]. apply Forall_cons in H2 as [Hb _].
    rewrite unbe_snoc, app_length. cbn [length].
    replace (N.of_nat (length l + 1)) with (N.succ (N.of_nat (length l))) by lia.
    rewrite N.pow_succ_r'. specialize (IH H1). cbn beta in Hb.
    assert (unbe l + 1 <= 256 ^ N.of_nat (length l)) by lia. nia.
Qed.

Lemma be_unbe l : bytes_ok l -> be (length l) (unbe l) = l.
Proof.
  induction l as [|b l IH] using rev_ind; intros Hok; [done|].
  apply Forall_app in Hok as [H1 H2]. apply Forall_cons in H2 as [Hb _]. cbn beta in Hb.
  rewrite app_length. cbn [length]. rewrite Nat.add_1_r. cbn [be].
  rewrite unbe_snoc. f_equal.
  - replace ((unbe l * 256 + b) / 256) with (unbe l); [by apply IH|].
    rewrite N.div_add_l by lia. rewrite (N.div_small b) by lia. lia.
  - f_equal. rewrite N.add_comm, N.mod_add by lia. apply N.mod_small. lia.
Qed.

Lemma blen_app l1 l2 : blen (l1 ++ l2) = blen l1 + blen l2.
Proof. unfold blen. rewrite app_length. lia. Qed.
Lemma blen_be k n : blen (be k n) = N.of_nat k.
Proof. unfold blen. by rewrite be_length. Qed.

Global Arguments be : simpl never.
Global Arguments unbe : simpl never.
Global Arguments blen : simpl never.
