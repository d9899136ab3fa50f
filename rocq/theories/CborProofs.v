(** CBOR: reading what was written. *)
From stdpp Require Import prelude strings gmap.
From Coq Require Import NArith Lia ZifyBool ZifyN ZifyNat.
From Verif Require Import Bytes Cbor.
Open Scope N_scope.

Lemma text_bytes s : text_of (bytes_of s) = s.
Proof. induction s as [|c s IH]; cbn; [done|]. by rewrite Ascii.ascii_N_embedding, IH. Qed.
Lemma bytes_of_length s : length (bytes_of s) = String.length s.
Proof. induction s; cbn; auto. Qed.
Lemma bytes_of_ok s : bytes_ok (bytes_of s).
Proof. induction s as [|c s IH]; cbn; constructor; [apply Ascii.N_ascii_bounded|done]. Qed.
Lemma bytes_of_app s t : bytes_of (s +:+ t) = bytes_of s ++ bytes_of t.
Proof. induction s as [|c s IH]; [done|]. change (String c s +:+ t) with (String c (s +:+ t)). cbn. by rewrite IH. Qed.

Lemma raw_app n l r : blen l = n -> raw n (l ++ r) = DOk l r.
Proof.
  intros <-. unfold raw, blen. rewrite app_length. rewrite (proj2 (N.leb_le _ _)) by lia.
  rewrite Nat2N.id, take_app, drop_app. done.
Qed.
(** what starts with a head *)
Lemma head_enc m n r : m < 8 -> n < 2^64 -> head (enc_head m n ++ r) = DOk (m, Some n) r.
Proof.
  intros Hm Hn. unfold enc_head.
  assert (Hd : forall i, i < 32 -> (m * 32 + i) / 32 = m).
  { intros i Hi. rewrite N.div_add_l by lia. rewrite N.div_small by lia. lia. }
  assert (Hi : forall i, i < 32 -> (m * 32 + i) mod 32 = i).
  { intros i Hi. rewrite N.add_comm, N.mod_add by lia. by apply N.mod_small. }
  destruct (N.ltb_spec n 24).
  { cbn -[N.mul N.div N.modulo]. unfold head, dbind, byte. rewrite Hd, Hi by lia.
    by rewrite (proj2 (N.ltb_lt _ _)) by lia. }
  destruct (N.ltb_spec n (2^8)).
  { cbn [app]. unfold head, dbind, byte. rewrite Hd, Hi by lia. change (24 <? 24) with false. change (24 =? 24) with true. cbv beta iota.
    change (n :: r) with ([n] ++ r). rewrite (raw_app 1 [n]) by done. unfold unbe. cbn. done. }
  destruct (N.ltb_spec n (2^16)).
  { cbn [app]. unfold head, dbind, byte. rewrite Hd, Hi by lia.
    change (25 <? 24) with false. change (25 =? 24) with false. change (25 =? 25) with true. cbv beta iota.
    rewrite (raw_app 2) by apply blen_be. rewrite unbe_be; [done|]. exact H1. }
  destruct (N.ltb_spec n (2^32)).
  { cbn [app]. unfold head, dbind, byte. rewrite Hd, Hi by lia.
    change (26 <? 24) with false. change (26 =? 24) with false. change (26 =? 25) with false. change (26 =? 26) with true. cbv beta iota.
    rewrite (raw_app 4) by apply blen_be. rewrite unbe_be; [done|]. exact H2. }
  cbn [app]. unfold head, dbind, byte. rewrite Hd, Hi by lia.
  change (27 <? 24) with false. change (27 =? 24) with false. change (27 =? 25) with false. change (27 =? 26) with false. change (27 =? 27) with true. cbv beta iota.
  rewrite (raw_app 8) by apply blen_be. rewrite unbe_be; [done|]. exact Hn.
Qed.
Lemma enc_head_cons m n : exists b l, enc_head m n = b :: l /\ b <= m * 32 + 27.
Proof. unfold enc_head. repeat case_match; eexists _, _; (split; [done|lia]). Qed.
Lemma value_enc m n r : m < 8 -> m <> 6 -> n < 2^64 -> value (enc_head m n ++ r) = DOk (m, Some n) r.
Proof.
  intros Hm H6 Hn. unfold value. destruct (enc_head_cons m n) as (b & l & E & _).
  assert (exists f, length (enc_head m n ++ r) = S f) as [f ->] by (rewrite E; cbn; eauto).
  unfold untag, dbind. fold untag. rewrite head_enc by done. 
  assert (m = 0 \/ m = 1 \/ m = 2 \/ m = 3 \/ m = 4 \/ m = 5 \/ m = 7) as [->|[->|[->|[->|[->|[->| ->]]]]]] by lia; done.
Qed.
Global Opaque head.
Lemma de_uint_enc lim n r : n < lim -> lim <= 2^64 -> de_uint lim (enc_uint n ++ r) = DOk n r.
Proof.
  intros H1 H2. unfold de_uint, enc_uint, dbind. rewrite value_enc by lia.
  by rewrite (proj2 (N.ltb_lt _ _) H1).
Qed.
Lemma de_text_enc s r : utf8 (bytes_of s) = true -> N.of_nat (String.length s) < 2^64 -> de_text (enc_text s ++ r) = DOk s r.
Proof.
  intros H1 H2. unfold de_text, enc_text, dbind. rewrite <- app_assoc, value_enc by done.
  rewrite raw_app by (unfold blen; by rewrite bytes_of_length).
  rewrite H1. unfold dret. by rewrite text_bytes.
Qed.
Lemma de_opt_enc lim o r : lim <= 2^64 -> (forall n, o = Some n -> n < lim) ->
  de_opt (de_uint lim) (enc_opt o ++ r) = DOk o r.
Proof.
  intros H1 H2. destruct o as [n|]; [|done]. specialize (H2 n eq_refl).
  cbn [enc_opt]. unfold de_opt. destruct (enc_head_cons 0 n) as (b & l & E & Hb). unfold enc_uint.
  rewrite E. cbn [app]. destruct (N.eqb_spec b null) as [->|_]; [cbv in Hb; done|].
  change (b :: l ++ r) with ((b :: l) ++ r). rewrite <- E. unfold dbind. change (enc_head 0 n) with (enc_uint n).
  by rewrite de_uint_enc.
Qed.
Section seqs.
Context {A} (d : dec A) (enc : A -> bytes) (P : A -> Prop).
Context (Hd : forall a r, P a -> d (enc a ++ r) = DOk a r) (Hne : forall a, enc a <> []).
Lemma items_enc l : forall fuel acc r, Forall P l -> (length l <= fuel)%nat ->
  items d fuel (N.of_nat (length l)) acc (flat_map enc l ++ r) = DOk (acc ++ l) r.
Proof.
  induction l as [|a l IH]; intros fuel acc r Hp Hf.
  { destruct fuel; cbn; unfold dret; by rewrite app_nil_r. }
  destruct fuel as [|fuel]; [cbn in Hf; lia|]. inversion Hp; subst.
  cbn [items flat_map]. rewrite (proj2 (N.eqb_neq _ _)) by (cbn [length]; lia).
  unfold dbind. rewrite <- app_assoc, Hd by done.
  replace (N.of_nat (length (a :: l)) - 1) with (N.of_nat (length l)) by (cbn [length]; lia).
  cbn in Hf. rewrite IH; [by rewrite <- app_assoc|done|lia].
Qed.
Lemma flat_map_length l : (length l <= length (flat_map enc l))%nat.
Proof.
  induction l as [|a l IH]; cbn; [lia|]. rewrite app_length. specialize (Hne a). destruct (enc a); [done|]. cbn. lia.
Qed.
Lemma many_enc m l r : Forall P l ->
  many m d (m, Some (N.of_nat (length l))) (flat_map enc l ++ r) = DOk l r.
Proof.
  intros Hp. unfold many. rewrite N.eqb_refl. rewrite items_enc; [done|done|].
  rewrite app_length. pose proof (flat_map_length l). lia.
Qed.
Lemma de_seq_enc l r : Forall P l -> N.of_nat (length l) < 2^64 -> de_seq d (enc_seq enc l ++ r) = DOk l r.
Proof.
  intros Hp Hl. unfold de_seq, enc_seq, dbind. rewrite <- app_assoc, value_enc by done. by apply many_enc.
Qed.
End seqs.
Section pairs.
Context {A B} (d1 : dec A) (e1 : A -> bytes) (P1 : A -> Prop) (d2 : dec B) (e2 : B -> bytes) (P2 : B -> Prop).
Context (H1 : forall a r, P1 a -> d1 (e1 a ++ r) = DOk a r) (H2 : forall a r, P2 a -> d2 (e2 a ++ r) = DOk a r).
Lemma de_pair_enc a b r : P1 a -> P2 b -> de_pair d1 d2 (e1 a ++ e2 b ++ r) = DOk (a, b) r.
Proof. intros Ha Hb. unfold de_pair, dbind. by rewrite H1, H2. Qed.
Lemma de_tuple_enc a b r : P1 a -> P2 b -> de_tuple d1 d2 (enc_head 4 2 ++ e1 a ++ e2 b ++ r) = DOk (a, b) r.
Proof. intros Ha Hb. unfold de_tuple, dbind. rewrite value_enc by done. by apply de_pair_enc. Qed.
Lemma de_map_enc l r : (forall a, e1 a <> []) -> Forall (fun x => P1 (fst x) /\ P2 (snd x)) l ->
  N.of_nat (length l) < 2^64 -> de_map d1 d2 (enc_map e1 e2 l ++ r) = DOk l r.
Proof.
  intros Hne Hp Hl. unfold de_map, enc_map, dbind. rewrite <- app_assoc, value_enc by done.
  apply (many_enc (de_pair d1 d2) (fun x => e1 (fst x) ++ e2 (snd x)) (fun x => P1 (fst x) /\ P2 (snd x))); [| |done].
  - intros [a b] r' [Ha Hb]. rewrite <- app_assoc. by apply de_pair_enc.
  - intros [a b]. cbn. specialize (Hne a). by destruct (e1 a).
Qed.
End pairs.
Lemma enc_head_nonempty m n : enc_head m n <> [].
Proof. destruct (enc_head_cons m n) as (b & l & -> & _). done. Qed.

(** ** Panics come from indefinite arrays only *)
Definition no_panic {A} (d : dec A) : Prop := forall s, d s <> DPanic.
Lemma np_bind {A B} (d : dec A) (f : A -> dec B) : no_panic d -> (forall a, no_panic (f a)) -> no_panic (dbind d f).
Proof. intros H1 H2 s. unfold dbind. specialize (H1 s). destruct (d s); try done. apply H2. Qed.
Lemma np_ret {A} (a : A) : no_panic (dret a). Proof. done. Qed.
Lemma np_fail {A} : no_panic (@dfail A). Proof. done. Qed.
Lemma np_raw n : no_panic (raw n). Proof. intros s. unfold raw. by case_match. Qed.
Lemma np_byte : no_panic byte. Proof. intros []; done. Qed.
Create HintDb np.
Ltac np := repeat first
  [ apply np_ret | apply np_fail | apply np_raw | apply np_byte
  | apply np_bind; [|intros] | case_match | solve [eauto with np] ].
Transparent head.
Lemma np_head : no_panic head. Proof. unfold head. np. Qed.
Global Opaque head.
Global Hint Resolve np_head : np.
Lemma np_untag f : no_panic (untag f). Proof. induction f; cbn [untag]; np. Qed.
Global Hint Resolve np_untag : np.
Lemma np_value : no_panic value. Proof. intros s. apply np_untag. Qed.
Global Hint Resolve np_value : np.
Lemma np_uint n : no_panic (de_uint n). Proof. unfold de_uint. np. Qed.
Lemma np_pieces f : forall m acc, no_panic (pieces f m acc).
Proof.
  induction f; intros m acc [|b s]; cbn [pieces]; try done. case_match; [done|].
  revert s. intros s. match goal with |- ?d ?x <> _ => change (d x <> DPanic) end.
  apply np_bind; [apply np_head|]. intros. np.
Qed.
Lemma np_text : no_panic de_text.
Proof. unfold de_text. np; try (intros s; apply np_pieces). Qed.
Lemma np_opt {A} (d : dec A) : no_panic d -> no_panic (de_opt d).
Proof. intros H [|b s]; cbn; [done|]. case_match; [done|]. apply np_bind; [done|]. intros; apply np_ret. Qed.
Lemma np_items {A} (d : dec A) f : no_panic d -> forall n acc, no_panic (items d f n acc).
Proof. intros H. induction f; intros n acc; cbn [items]; np. Qed.
Lemma np_items_indef {A} (d : dec A) f : no_panic d -> forall acc, no_panic (items_indef d f acc).
Proof.
  intros H. induction f; intros acc [|b s]; cbn [items_indef]; try done. case_match; [done|].
  apply np_bind; [done|]. intros; apply IHf.
Qed.
Lemma np_many {A} m (d : dec A) h : no_panic d -> no_panic (many m d h).
Proof. intros H s. unfold many. repeat case_match; try done; [by apply np_items|by apply np_items_indef]. Qed.
Lemma np_seq {A} (d : dec A) : no_panic d -> no_panic (de_seq d).
Proof. intros H. apply np_bind; [apply np_value|]. intros. by apply np_many. Qed.
Lemma np_pair {A B} (d1 : dec A) (d2 : dec B) : no_panic d1 -> no_panic d2 -> no_panic (de_pair d1 d2).
Proof. intros. unfold de_pair. np. Qed.
Lemma np_tuple {A B} (d1 : dec A) (d2 : dec B) : no_panic d1 -> no_panic d2 -> no_panic (de_tuple d1 d2).
Proof. intros. unfold de_tuple. np; by apply np_pair. Qed.
Lemma np_map {A B} (d1 : dec A) (d2 : dec B) : no_panic d1 -> no_panic d2 -> no_panic (de_map d1 d2).
Proof. intros. apply np_bind; [apply np_value|]. intros. by apply np_many, np_pair. Qed.

(** ** What is left is the end of the input *)
Definition eats {A} (d : dec A) : Prop := forall s a r, d s = DOk a r -> r `suffix_of` s.
Lemma eats_bind {A B} (d : dec A) (f : A -> dec B) : eats d -> (forall a, eats (f a)) -> eats (dbind d f).
Proof.
  intros H1 H2 s b r. unfold dbind. destruct (d s) as [a s'| |] eqn:E; try done. intros H.
  apply H1 in E. apply H2 in H. by trans s'.
Qed.
Lemma eats_ret {A} (a : A) : eats (dret a). Proof. intros s a' r [= -> ->]. done. Qed.
Lemma eats_fail {A} : eats (@dfail A). Proof. done. Qed.
Lemma eats_raw n : eats (raw n).
Proof. intros s a r. unfold raw. case_match; [|done]. intros [= <- <-]. eexists. symmetry. apply take_drop. Qed.
Lemma eats_byte : eats byte.
Proof. intros [|b s] a r; [done|]. intros [= -> ->]. by apply suffix_cons_r. Qed.
Create HintDb eats.
Ltac eats := repeat first
  [ apply eats_ret | apply eats_fail | apply eats_raw | apply eats_byte
  | apply eats_bind; [|intros] | case_match | solve [eauto with eats] ].
Transparent head.
Lemma eats_head : eats head. Proof. unfold head. eats. Qed.
Lemma head_indef s r : head s = DOk (4, None) r -> 159 ∈ s.
Proof.
  destruct s as [|b s]; [done|]. unfold head. unfold dbind at 1. cbn [byte].
  pose proof (N.div_mod b 32 ltac:(done)) as Hb.
  destruct (b mod 32 <? 24); [by intros [=]|].
  destruct (b mod 32 =? 24); [by unfold dbind; destruct (raw 1 s)|].
  destruct (b mod 32 =? 25); [by unfold dbind; destruct (raw 2 s)|].
  destruct (b mod 32 =? 26); [by unfold dbind; destruct (raw 4 s)|].
  destruct (b mod 32 =? 27); [by unfold dbind; destruct (raw 8 s)|].
  destruct (N.eqb_spec (b mod 32) 31) as [E|]; [|done].
  intros [= E4 _]. rewrite E, E4 in Hb. rewrite Hb. left.
Qed.
Global Opaque head.
Global Hint Resolve eats_head : eats.
Lemma eats_untag f : eats (untag f). Proof. induction f; cbn [untag]; eats. Qed.
Global Hint Resolve eats_untag : eats.
Lemma eats_value : eats value. Proof. intros s. apply eats_untag. Qed.
Global Hint Resolve eats_value : eats.
Lemma suffix_in {A} (x : A) l k : l `suffix_of` k -> x ∈ l -> x ∈ k.
Proof. intros [p ->] H. apply elem_of_app. by right. Qed.
Lemma value_indef s r : value s = DOk (4, None) r -> 159 ∈ s.
Proof.
  unfold value. generalize (length s) as f. intros f. revert s. induction f as [|f IH]; intros s; cbn [untag]; unfold dbind;
  destruct (head s) as [[m o] s'| |] eqn:E; try done.
  - intros H. assert (m = 4 /\ o = None) as [-> ->]; [|by eapply head_indef].
    destruct m as [|p]; [by injection H|].
    do 3 (destruct p as [p|p|]; try (by injection H)). all: by destruct o.
  - intros H. destruct (decide (m = 6)) as [->|Hm].
    + destruct o; [|done]. apply IH in H. eapply suffix_in; [|done]. by eapply eats_head.
    + assert (m = 4 /\ o = None) as [-> ->]; [|by eapply head_indef].
      destruct m as [|p]; [by injection H|].
      do 3 (destruct p as [p|p|]; try (by injection H); try done).
Qed.
Lemma eats_uint n : eats (de_uint n). Proof. unfold de_uint. eats. Qed.
Lemma eats_pieces f : forall m acc, eats (pieces f m acc).
Proof.
  induction f; intros m acc [|b s] a r; cbn [pieces]; try done. case_match.
  - intros [= -> ->]. by apply suffix_cons_r.
  - apply eats_bind; [apply eats_head|]. intros. eats.
Qed.
Lemma eats_text : eats de_text.
Proof. unfold de_text. eats; try (intros s; apply eats_pieces). Qed.
Lemma eats_opt {A} (d : dec A) : eats d -> eats (de_opt d).
Proof.
  intros H [|b s] a r; cbn; [done|]. case_match; [intros [= <- <-]; by apply suffix_cons_r|].
  apply eats_bind; [done|]. intros; apply eats_ret.
Qed.
Lemma eats_items {A} (d : dec A) f : eats d -> forall n acc, eats (items d f n acc).
Proof. intros H. induction f; intros n acc; cbn [items]; eats. Qed.
Lemma eats_items_indef {A} (d : dec A) f : eats d -> forall acc, eats (items_indef d f acc).
Proof.
  intros H. induction f; intros acc [|b s] a r; cbn [items_indef]; try done. case_match.
  - intros [= -> ->]. by apply suffix_cons_r.
  - apply eats_bind; [done|]. intros; apply IHf.
Qed.
Lemma eats_many {A} m (d : dec A) h : eats d -> eats (many m d h).
Proof. intros H s a r. unfold many. repeat case_match; try done; [by apply eats_items|by apply eats_items_indef]. Qed.
Lemma eats_seq {A} (d : dec A) : eats d -> eats (de_seq d).
Proof. intros H. apply eats_bind; [apply eats_value|]. intros. by apply eats_many. Qed.
Lemma eats_pair {A B} (d1 : dec A) (d2 : dec B) : eats d1 -> eats d2 -> eats (de_pair d1 d2).
Proof. intros. unfold de_pair. eats. Qed.
Lemma eats_tuple {A B} (d1 : dec A) (d2 : dec B) : eats d1 -> eats d2 -> eats (de_tuple d1 d2).
Proof. intros. unfold de_tuple. eats; by apply eats_pair. Qed.
Lemma eats_map {A B} (d1 : dec A) (d2 : dec B) : eats d1 -> eats d2 -> eats (de_map d1 d2).
Proof. intros. apply eats_bind; [apply eats_value|]. intros. by apply eats_many, eats_pair. Qed.
