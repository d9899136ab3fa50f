(** UTF-8 (RFC 3629) and the reader of texts in Cbor.v. *)
From stdpp Require Import prelude.
From Coq Require Import NArith ZArith Lia ZifyBool ZifyN ZifyNat.
From Verif Require Import Bytes Cbor.
Open Scope N_scope.

(** RFC 3629: a character is a number below 1114112 other than the surrogates;
    it is written with one to four bytes *)
Definition scalar (c : N) : Prop := c < 55296 \/ 57344 <= c < 1114112.
Definition utf8_char (c : N) : bytes :=
  if c <? 128 then [c]
  else if c <? 2048 then [192 + c / 64; 128 + c mod 64]
  else if c <? 65536 then [224 + c / 4096; 128 + (c / 64) mod 64; 128 + c mod 64]
  else [240 + c / 262144; 128 + (c / 4096) mod 64; 128 + (c / 64) mod 64; 128 + c mod 64].
Lemma sixbits n : exists q r, n = 64 * q + r /\ r < 64 /\ n / 64 = q /\ n mod 64 = r.
Proof. exists (n / 64), (n mod 64). split; [apply N.div_mod; lia|]. split; [apply N.mod_lt; lia|]. done. Qed.
Lemma utf8_char_read c l : scalar c -> utf8 (utf8_char c ++ l) = utf8 l.
Proof.
  intros Hc. unfold utf8_char.
  destruct (sixbits c) as (q1 & r1 & E1 & R1 & -> & ->).
  assert (D2 : c / 4096 = q1 / 64) by (rewrite E1; change 4096 with (64 * 64); rewrite <- N.div_div by lia; f_equal; symmetry; apply (N.div_unique _ _ _ r1); lia).
  assert (D3 : c / 262144 = (q1 / 64) / 64) by (rewrite <- D2; change 262144 with (4096 * 64); rewrite N.div_div; lia).
  rewrite D3, D2. clear D2 D3.
  destruct (sixbits q1) as (q2 & r2 & E2 & R2 & -> & ->). destruct (sixbits q2) as (q3 & r3 & E3 & R3 & -> & ->).
  destruct (N.ltb_spec c 128).
  { cbn [app utf8]. destruct (N.ltb_spec c 128); [done|lia]. }
  assert (B : forall r, r < 64 -> between 128 191 (128 + r) = true) by (intros r Hr; unfold between; lia).
  destruct (N.ltb_spec c 2048).
  { cbn [app utf8]. destruct (N.ltb_spec (192 + q1) 128); [lia|]. replace (between 194 223 (192 + q1)) with true by (unfold between; lia). by rewrite B. }
  destruct (N.ltb_spec c 65536).
  { cbn [app utf8]. destruct (N.ltb_spec (224 + q2) 128); [lia|]. replace (between 194 223 (224 + q2)) with false by (unfold between; lia).
    replace (between 224 239 (224 + q2)) with true by (unfold between; lia). rewrite (B r1) by done.
    replace (between _ _ (128 + r2)) with true; [done|]. unfold scalar in Hc. unfold between.
    destruct (N.eqb_spec (224 + q2) 224); destruct (N.eqb_spec (224 + q2) 237); lia. }
  cbn [app utf8]. unfold scalar in Hc. destruct (N.ltb_spec (240 + q3) 128); [lia|]. replace (between 194 223 (240 + q3)) with false by (unfold between; lia).
  replace (between 224 239 (240 + q3)) with false by (unfold between; lia). replace (between 240 244 (240 + q3)) with true by (unfold between; lia).
  rewrite (B r1), (B r2) by done. replace (between _ _ (128 + r3)) with true; [done|]. unfold between.
  destruct (N.eqb_spec (240 + q3) 240); destruct (N.eqb_spec (240 + q3) 244); lia.
Qed.
Lemma div64 q r : r < 64 -> (64 * q + r) / 64 = q /\ (64 * q + r) mod 64 = r.
Proof. intros H. split; symmetry; [apply (N.div_unique _ _ _ r)|apply (N.mod_unique _ _ q)]; lia. Qed.
Lemma utf8_chars n l : (length l <= n)%nat -> utf8 l = true -> exists cs, Forall scalar cs /\ l = concat (map utf8_char cs).
Proof.
  revert l. induction n as [|n IH]; intros [|a l] Hl H; cbn [length] in *; try lia; try (by exists []).
  assert (K : forall c pre l', a :: l = pre ++ l' -> pre = utf8_char c -> scalar c -> (length l' <= n)%nat -> utf8 l' = true -> exists cs, Forall scalar cs /\ a :: l = concat (map utf8_char cs)).
  { intros c pre l' E Ep Hc Hn Hu. destruct (IH l' Hn Hu) as (cs & H1 & H2). exists (c :: cs). split; [by constructor|]. rewrite E, H2, Ep. done. }
  cbn [utf8] in H. destruct (N.ltb_spec a 128).
  { apply (K a [a] l); try done; [|unfold scalar; lia|lia]. unfold utf8_char. destruct (N.ltb_spec a 128); [done|lia]. }
  destruct (between 194 223 a) eqn:E1.
  { destruct l as [|b l]; [done|]. apply andb_true_iff in H as [Hb H]. unfold between in *.
    apply (K (64 * (a - 192) + (b - 128)) [a; b] l); try done; [|unfold scalar; lia|cbn in *; lia].
    unfold utf8_char. destruct (div64 (a - 192) (b - 128)) as [-> ->]; [lia|]. destruct (N.ltb_spec (64 * (a - 192) + (b - 128)) 128); [lia|].
    destruct (N.ltb_spec (64 * (a - 192) + (b - 128)) 2048); [|lia]. repeat f_equal; lia. }
  destruct (between 224 239 a) eqn:E2.
  { destruct l as [|b [|c l]]; [done..|]. apply andb_true_iff in H as [Hb H]. apply andb_true_iff in Hb as [Hb Hc]. unfold between in *.
    assert (Hbb : 128 <= b <= 191 /\ (a = 224 -> 160 <= b) /\ (a = 237 -> b <= 159)) by (destruct (N.eqb_spec a 224); destruct (N.eqb_spec a 237); lia). clear Hb.
    set (q1 := 64 * (a - 224) + (b - 128)). set (x := 64 * q1 + (c - 128)).
    destruct (div64 (a - 224) (b - 128)) as [D1 D2]; [lia|]. fold q1 in D1, D2. destruct (div64 q1 (c - 128)) as [D3 D4]; [lia|]. fold x in D3, D4.
    assert (D5 : x / 4096 = a - 224) by (change 4096 with (64 * 64); rewrite <- N.div_div by lia; by rewrite D3).
    assert (Hx : 2048 <= x < 65536 /\ scalar x) by (unfold scalar; subst x q1; lia). destruct Hx as [Hx Hs].
    apply (K x [a; b; c] l); try done; [|cbn in *; lia]. unfold utf8_char. rewrite D5, D3, D2, D4.
    destruct (N.ltb_spec x 128); [lia|]. destruct (N.ltb_spec x 2048); [lia|]. destruct (N.ltb_spec x 65536); [|lia]. clear -Hbb Hc E1 E2 H0. repeat f_equal; lia. }
  destruct (between 240 244 a) eqn:E3; [|done].
  destruct l as [|b [|c [|d l]]]; [done..|]. apply andb_true_iff in H as [Hb H]. apply andb_true_iff in Hb as [Hb Hd]. apply andb_true_iff in Hb as [Hb Hc]. unfold between in *.
  assert (Hbb : 128 <= b <= 191 /\ (a = 240 -> 144 <= b) /\ (a = 244 -> b <= 143)) by (destruct (N.eqb_spec a 240); destruct (N.eqb_spec a 244); lia). clear Hb.
  set (q2 := 64 * (a - 240) + (b - 128)). set (q1 := 64 * q2 + (c - 128)). set (x := 64 * q1 + (d - 128)).
  destruct (div64 (a - 240) (b - 128)) as [D1 D2]; [lia|]. fold q2 in D1, D2. destruct (div64 q2 (c - 128)) as [D3 D4]; [lia|]. fold q1 in D3, D4. destruct (div64 q1 (d - 128)) as [D5 D6]; [lia|]. fold x in D5, D6.
  assert (D7 : x / 4096 = q2) by (change 4096 with (64 * 64); rewrite <- N.div_div by lia; by rewrite D5).
  assert (D8 : x / 262144 = a - 240) by (change 262144 with (4096 * 64); rewrite <- N.div_div by lia; by rewrite D7).
  assert (Hx : 65536 <= x < 1114112) by (subst x q1 q2; lia).
  apply (K x [a; b; c; d] l); try done; [|unfold scalar; lia|cbn in *; lia]. unfold utf8_char. rewrite D8, D7, D2, D5, D4, D6.
  destruct (N.ltb_spec x 128); [lia|]. destruct (N.ltb_spec x 2048); [lia|]. destruct (N.ltb_spec x 65536); [lia|]. clear -Hbb Hc Hd E3 H0. repeat f_equal; lia.
Qed.
Lemma utf8_char_bytes c : scalar c -> bytes_ok (utf8_char c).
Proof.
  intros Hc. unfold scalar in Hc. unfold utf8_char. pose proof (N.mod_lt c 64) as M1. pose proof (N.mod_lt (c / 64) 64) as M2. pose proof (N.mod_lt (c / 4096) 64) as M3.
  assert (c / 64 < 32 \/ 2048 <= c) as D1 by (destruct (N.lt_ge_cases c 2048); [left; apply N.div_lt_upper_bound; lia|by right]).
  assert (c / 4096 < 16 \/ 65536 <= c) as D2 by (destruct (N.lt_ge_cases c 65536); [left; apply N.div_lt_upper_bound; lia|by right]).
  assert (c / 262144 < 5) as D3 by (apply N.div_lt_upper_bound; lia).
  destruct (N.ltb_spec c 128); [repeat constructor; lia|]. destruct (N.ltb_spec c 2048); [repeat constructor; lia|].
  destruct (N.ltb_spec c 65536); repeat constructor; lia.
Qed.
Theorem utf8_spec l : utf8 l = true <-> exists cs, Forall scalar cs /\ l = concat (map utf8_char cs).
Proof.
  split; [by apply (utf8_chars (length l))|]. intros (cs & Hc & ->). induction Hc as [|c cs H _ IH]; [done|]. cbn [map concat]. by rewrite utf8_char_read.
Qed.
Lemma utf8_bytes l : utf8 l = true -> bytes_ok l.
Proof.
  intros H. apply utf8_spec in H as (cs & Hc & ->). induction Hc as [|c cs H _ IH]; [constructor|]. cbn [map concat]. apply Forall_app. split; [by apply utf8_char_bytes|done].
Qed.
Lemma bytes_text l : bytes_ok l -> bytes_of (text_of l) = l.
Proof. induction 1 as [|b l Hb _ IH]; [done|]. cbn. rewrite IH, Ascii.N_ascii_embedding by done. done. Qed.
Lemma de_text_utf8 d s rest : de_text d = DOk s rest -> utf8 (bytes_of s) = true.
Proof.
  unfold de_text, dbind. destruct (value d) as [h d1| |]; [|done..].
  match goal with |- context [match ?X with DOk _ _ => _ | _ => _ end] => destruct X as [l d2| |]; [|done..] end.
  destruct (utf8 l) eqn:E; [|done]. intros [= <- _]. by rewrite bytes_text by (by apply utf8_bytes).
Qed.
