(** C46-C49, C66-C68: discovery beacons, services, sequence numbers, and what a
    node learns from the datagrams it receives. *)
From stdpp Require Import prelude strings pretty gmap relations.
From Coq Require Import NArith ZArith Ascii Lia ZifyBool ZifyN ZifyNat.
From Verif Require Import Bytes Cbor CborProofs Utf8 Core Peers Routing IdProofs StaticProofs Beacon BeaconProofs DiscoveryProofs.
Open Scope N_scope.

(** ** Specification *)
(** the beacons a program can build through the API of beacon.rs: [made] (see
    BeaconProofs); a Rust string holds valid UTF-8 of less than 2^64 bytes *)
Definition rust_string (s : string) : Prop := utf8 (bytes_of s) = true /\ N.of_nat (String.length s) < 2^64.
(** every field fits its Rust type, and the period is a number of seconds *)
Definition well_typed (b : beacon) : Prop :=
  (match bc_eid b with
   | DtnNone => True
   | Dtn n s => ~ (exists x y, n = x +:+ "/" +:+ y) /\ rust_string ("//" +:+ n +:+ "/" +:+ s)
   | Ipn n s => n < 2^64 /\ s < 2^64
   end) /\
  bc_seq b < 2^32 /\
  N.of_nat (length (sb_clas (bc_block b))) < 2^64 /\
  (forall name port, (name, port) ∈ sb_clas (bc_block b) -> rust_string name /\ forall p, port = Some p -> p < 2^16) /\
  (forall tag data, sb_services (bc_block b) !! tag = Some data ->
     tag < 2^8 /\ (forall x, x ∈ data -> x < 2^8) /\ N.of_nat (length data) < 2^64) /\
  (forall ms, bc_period b = Some ms -> exists s, ms = s * 1000 /\ s < 2^64).

Lemma has_slash_iff n : has_slash n = true -> exists x y, n = x +:+ "/" +:+ y.
Proof.
  induction n as [|c n IH]; [done|]. cbn [has_slash]. case_bool_decide as Hc.
  - intros _. exists "", n. by subst c.
  - intros (x & y & ->)%IH. by exists (String c x), y.
Qed.
Lemma well_typed_fits b : well_typed b -> beacon_fits b /\ in_seconds b = b.
Proof.
  intros (He & Hq & Hl & Hc & Hs & Hp). split.
  - split; [|split; [done|split; [split; [done|split]|]]].
    + destruct (bc_eid b) as [|n s|n s]; [done| |done]. destruct He as [He [Hu Hn]]. split; [|split; done].
      destruct (has_slash n) eqn:E; [|done]. exfalso. by apply He, has_slash_iff.
    + apply Forall_forall. intros [name port] Hin. destruct (Hc _ _ Hin) as [[H1 H2] H3]. done.
    + intros t p Ht. destruct (Hs _ _ Ht) as (H1 & H2 & H3). split; [done|]. split; [|done]. by apply Forall_forall.
    + intros ms Hms. destruct (Hp _ Hms) as (s & -> & H). by rewrite N.div_mul.
  - destruct b as [v f e q sb p]. unfold in_seconds. cbn in *. f_equal. destruct p as [ms|]; [|done]. cbn.
    destruct (Hp _ eq_refl) as (s & -> & H). by rewrite N.div_mul.
Qed.

(** ** C46 *)
(** Whatever order the map of services is written in, the bytes of a beacon read
    back as that beacon; with anything behind it they are refused. *)
Theorem C46_beacon_wire : forall (parse_f32 : string -> option N) b order,
  made parse_f32 b -> well_typed b -> order ≡ₚ map_to_list (sb_services (bc_block b)) ->
  from_slice de_beacon (enc_beacon order b) = Good b /\
  forall more, more <> [] -> from_slice de_beacon (enc_beacon order b ++ more) = Bad.
Proof.
  intros pf b ord Hm Hw Ho. destruct (well_typed_fits _ Hw) as [Hf Hs]. split.
  - rewrite <- Hs at 2. by eapply beacon_round_trip.
  - intros [|x r] Hne; [done|]. by eapply beacon_trailing.
Qed.
Print Assumptions C46_beacon_wire.
(** Texts: [utf8], used above for the strings of a program, accepts exactly the
    encodings of sequences of characters (RFC 3629, see [scalar] and [utf8_char]
    in Utf8.v), and every text read from a datagram is one. *)
Theorem C46_texts : (forall l, utf8 l = true <-> exists cs, Forall scalar cs /\ l = concat (map utf8_char cs)) /\
  forall d s rest, de_text d = DOk s rest -> exists cs, Forall scalar cs /\ bytes_of s = concat (map utf8_char cs).
Proof. split; [exact utf8_spec|]. intros d s rest H. by eapply utf8_spec, de_text_utf8. Qed.
Print Assumptions C46_texts.
Example C46_texts_case : utf8_char 8364 = [226; 130; 172] /\ utf8 [226; 130; 172; 65] = true /\ utf8 [237; 160; 128] = false /\
  de_text [99; 226; 130; 172; 7] = DOk (text_of [226; 130; 172]) [7].
Proof. repeat split; vm_compute; reflexivity. Qed.

Definition case_base : beacon :=
  add_cla "mtcp" (Some 16162) (set_seq 70000 (with_config (Dtn "node1" "") sb_new (Some 10000))).
Definition case_beacon : beacon :=
  match add_service (fun _ => None) 191 "75" case_base with
  | Good b => b | _ => beacon_new DtnNone end.
Example C46_case : made (fun _ => None) case_beacon /\ well_typed case_beacon /\
  enc_beacon (map_to_list (sb_services (bc_block case_beacon))) case_beacon =
    [134; 7; 7; 130; 1; 104; 47; 47; 110; 111; 100; 101; 49; 47; 26; 0; 1; 17; 112;
     130; 129; 130; 100; 109; 116; 99; 112; 25; 63; 34; 161; 24; 191; 129; 24; 75; 10].
Proof.
  split; [|split].
  - apply (made_service _ 191 "75" case_base); [apply made_cla, made_seq, made_config|reflexivity].
  - split; [|split; [done|split; [done|split; [|split]]]].
    + cbn. split; [|done]. intros (x & y & H). assert (has_slash "node1" = true) as E; [|done]. rewrite H.
      clear. induction x as [|c x IH]; [done|]. change (String c x +:+ "/" +:+ y) with (String c (x +:+ "/" +:+ y)).
      cbn [has_slash]. rewrite IH. by case_bool_decide.
    + intros n p H. change (sb_clas (bc_block case_beacon)) with [("mtcp", Some 16162)] in H.
      apply elem_of_list_singleton in H as [= -> ->]. split; [done|]. by intros p [= <-].
    + intros t d H. assert ((t, d) ∈ map_to_list (sb_services (bc_block case_beacon))) as E by by apply elem_of_map_to_list.
      change (map_to_list (sb_services (bc_block case_beacon))) with [(191, [75])] in E.
      apply elem_of_list_singleton in E as [= -> ->]. split; [done|]. split; [|done].
      intros x Hx. apply elem_of_list_singleton in Hx as ->. done.
    + intros ms H. cbn in H. injection H as <-. by exists 10.
  - vm_compute. reflexivity.
Qed.

(** ** C47 *)
(** decimal digits and their value; a level may have a sign *)
Definition digit (d : N) : string := String (Ascii.ascii_of_N (48 + d)) "".
Inductive decimal : string -> Z -> Prop :=
| dec_one d : d < 10 -> decimal (digit d) (Z.of_N d)
| dec_more s v d : decimal s v -> d < 10 -> decimal (s +:+ digit d) (10 * v + Z.of_N d).
Definition written (x : string) (v : Z) : Prop :=
  decimal x v \/ (exists y, x = "+" +:+ y /\ decimal y v) \/ (exists y, x = "-" +:+ y /\ decimal y (- v)).
(** the words of a text, separated by white space *)
Fixpoint every (P : Ascii.ascii -> Prop) (s : string) : Prop := match s with "" => True | String c s => P c /\ every P s end.
Definition white (c : Ascii.ascii) : Prop := let n := Ascii.N_of_ascii c in n = 32 \/ 9 <= n <= 13.
Inductive words : string -> list string -> Prop :=
| words_none s : every white s -> words s []
| words_more s w rest l : every white s -> every (fun c => ~ white c) w -> w <> "" ->
    match rest with "" => True | String c _ => white c end -> words rest l -> words (s +:+ w +:+ rest) (w :: l).
(** The documented limits: a text of at most 64 bytes, two numbers, a battery
    level in percent, the five parts of an address. *)
Inductive announced (parse_f32 : string -> option N) : N -> string -> Prop :=
| an_text x : N.of_nat (String.length x) <= 64 -> announced parse_f32 63 x
| an_geo x lat lon more u v : words x (lat :: lon :: more) ->
    parse_f32 lat = Some u -> parse_f32 lon = Some v -> announced parse_f32 127 x
| an_battery x level : written x level -> (0 <= level <= 100)%Z -> announced parse_f32 191 x
| an_address x a b c d e : words x [a; b; c; d; e] -> announced parse_f32 255 x.
(** what the neighbour shows: texts and addresses as they are, numbers printed
    again *)
Inductive displayed (parse_f32 : string -> option N) (show_f32 : N -> string) : N -> string -> string -> Prop :=
| dp_text x : displayed parse_f32 show_f32 63 x x
| dp_address x : displayed parse_f32 show_f32 255 x x
| dp_battery x level : written x level -> displayed parse_f32 show_f32 191 x (pretty level)
| dp_geo x lat lon more u v : words x (lat :: lon :: more) ->
    parse_f32 lat = Some u -> parse_f32 lon = Some v ->
    displayed parse_f32 show_f32 127 x (show_f32 u +:+ " " +:+ show_f32 v).
Lemma white_blank c : white c <-> is_blank c = true.
Proof. unfold white, is_blank. lia. Qed.
Lemma every_space s : every white s <-> all_space s.
Proof. induction s as [|c s IH]; [done|]. cbn. by rewrite white_blank, IH. Qed.
Lemma every_word s : every (fun c => ~ white c) s <-> no_space s.
Proof. induction s as [|c s IH]; [done|]. cbn. rewrite white_blank, IH, not_true_iff_false. done. Qed.
Lemma words_blank c s l : white c -> words s l -> words (String c s) l.
Proof. intros Hc [s' H|s' w r l' H1 H2 H3 H4 H5]; [by constructor|]. change (String c (s' +:+ w +:+ r)) with (String c s' +:+ w +:+ r). by constructor. Qed.
Lemma every_app P s t : every P (s +:+ t) <-> every P s /\ every P t.
Proof. induction s as [|c s IH]; [cbn; tauto|]. rewrite app_cons_s. cbn. rewrite IH. tauto. Qed.
Lemma split_words s : forall cur, every (fun c => ~ white c) cur -> words (cur +:+ s) (split_aux s cur).
Proof.
  induction s as [|c s IH]; intros cur Hc; cbn [split_aux].
  - rewrite app_nil_r_s. case_bool_decide as E; [subst; by constructor|]. 
    rewrite <- (app_nil_s cur), <- (app_nil_r_s cur) at 1. by repeat constructor.
  - destruct (is_blank c) eqn:Eb.
    + apply white_blank in Eb. case_bool_decide as E.
      * subst cur. rewrite app_nil_s. apply words_blank; [done|]. specialize (IH "" I). by rewrite app_nil_s in IH.
      * rewrite <- (app_nil_s (cur +:+ _)). constructor; [done|done|done|done|]. apply words_blank; [done|]. specialize (IH "" I). by rewrite app_nil_s in IH.
    + assert (E : cur +:+ String c s = (cur +:+ String c "") +:+ s) by (by rewrite app_assoc_s). rewrite E. apply IH, every_app. split; [done|].
      split; [|done]. rewrite white_blank. by rewrite Eb.
Qed.
Lemma words_split x l : words x l <-> split_blank x = l.
Proof.
  split; [|intros <-; unfold split_blank; specialize (split_words x "" I); by rewrite app_nil_s].
  unfold split_blank. induction 1 as [s H|s w r l H1 H2 H3 H4 H5 IH].
  - apply every_space in H. rewrite <- (app_nil_r_s s). by rewrite words_space.
  - apply every_space in H1. apply every_word in H2. rewrite words_space, words_word, app_nil_s by done. destruct r as [|c r].
    + cbn in IH. subst l. cbn. by rewrite bool_decide_false.
    + apply white_blank in H4. rewrite words_end by done. f_equal. cbn in IH. rewrite H4 in IH. exact IH.
Qed.
Lemma digit_N d : d < 10 -> Ascii.N_of_ascii (Ascii.ascii_of_N (48 + d)) = 48 + d.
Proof. intros H. apply Ascii.N_ascii_embedding. lia. Qed.
Lemma dec_digits_app s t : forall acc, dec_digits (s +:+ t) acc = dec_digits s acc ≫= dec_digits t.
Proof. induction s as [|c s IH]; intros acc; [done|]. rewrite app_cons_s. cbn [dec_digits]. case_match; [apply IH|done]. Qed.
Lemma dec_digits_one d acc : d < 10 -> dec_digits (digit d) acc = Some (10 * acc + Z.of_N d)%Z.
Proof. intros H. unfold digit. cbn [dec_digits]. rewrite digit_N by done. replace (_ && _) with true by lia. do 2 f_equal. lia. Qed.
Lemma decimal_digits s v : decimal s v -> dec_digits s 0 = Some v.
Proof.
  induction 1 as [d H|s v d H IH Hd]; [by apply dec_digits_one|]. rewrite dec_digits_app, IH. cbn [mbind option_bind]. by apply dec_digits_one.
Qed.
Lemma digit_char c : (48 <=? Ascii.N_of_ascii c) && (Ascii.N_of_ascii c <=? 57) = true -> String c "" = digit (Ascii.N_of_ascii c - 48) /\ Ascii.N_of_ascii c - 48 < 10.
Proof. intros H. split; [|lia]. unfold digit. replace (48 + _) with (Ascii.N_of_ascii c) by lia. by rewrite Ascii.ascii_N_embedding. Qed.
Lemma digits_more s : forall p acc v, decimal p acc -> dec_digits s acc = Some v -> decimal (p +:+ s) v.
Proof.
  induction s as [|c s IH]; intros p acc v Hp; cbn [dec_digits]; [intros [= <-]; by rewrite app_nil_r_s|].
  destruct (_ && _) eqn:E; [|done]. intros H. destruct (digit_char c E) as [E1 E2].
  replace (p +:+ String c s) with ((p +:+ String c "") +:+ s) by (by rewrite app_assoc_s). eapply IH; [|exact H]. rewrite E1. by constructor.
Qed.
Lemma digits_decimal s v : s <> "" -> dec_digits s 0 = Some v -> decimal s v.
Proof.
  intros Hs. destruct s as [|c s]; [done|]. cbn [dec_digits]. destruct (_ && _) eqn:E; [|done]. intros H. destruct (digit_char c E) as [E1 E2].
  change (String c s) with (String c "" +:+ s). eapply digits_more; [|exact H]. rewrite E1. by constructor.
Qed.
Lemma decimal_first s v : decimal s v -> exists c r, s = String c r /\ 48 <= Ascii.N_of_ascii c <= 57.
Proof.
  induction 1 as [d H|s v d H (c & r & -> & Hc) Hd].
  - exists (Ascii.ascii_of_N (48 + d)), "". split; [done|]. rewrite digit_N by done. lia.
  - rewrite app_cons_s. eauto.
Qed.
Lemma i8_written x v : (-128 <= v <= 127)%Z -> parse_i8 x = Some v <-> written x v.
Proof.
  intros Hv. destruct x as [|c r].
  { split; [done|]. intros [H|[(y & H & _)|(y & H & _)]]; [|done..]. by apply decimal_first in H as (? & ? & ? & _). }
  unfold parse_i8. assert (Hp : forall y, y <> "" -> dec_digits y 0 = Some v <-> decimal y v).
  { intros y Hy. split; [by apply digits_decimal|apply decimal_digits]. }
  assert (Hp' : forall y, y <> "" -> dec_digits y 0 = Some (- v)%Z <-> decimal y (- v)).
  { intros y Hy. split; [by apply digits_decimal|apply decimal_digits]. }
  assert (Hfirst : decimal (String c r) v -> 48 <= Ascii.N_of_ascii c <= 57).
  { intros (c' & r' & [= <- <-] & H)%decimal_first. done. }
  assert (Hne : forall y w, decimal y w -> y <> "") by (intros y w (c' & r' & -> & _)%decimal_first; done).
  assert (Hc43 : Ascii.N_of_ascii c = 43 -> c = "+"%char) by (intros E; rewrite <- (Ascii.ascii_N_embedding c), E; done).
  assert (Hc45 : Ascii.N_of_ascii c = 45 -> c = "-"%char) by (intros E; rewrite <- (Ascii.ascii_N_embedding c), E; done).
  unfold written. destruct (N.eqb_spec (Ascii.N_of_ascii c) 43) as [E|E43]; cbn [orb].
  - rewrite E. change (43 =? 45) with false. cbn iota. apply Hc43 in E as Ec. subst c. split.
    + intros H. right. left. exists r. split; [done|]. destruct r as [|c' r]; [done|]. destruct (dec_digits _ 0) as [w|] eqn:Ed; [|done].
      case_match; [|done]. injection H as ->. by apply Hp.
    + intros [H|[(y & [= <-] & H)|(y & [=] & _)]]; [apply Hfirst in H; lia|]. apply Hne in H as Hn. destruct r as [|c' r]; [done|].
      apply Hp in H; [|done]. rewrite H. replace (_ && _) with true by lia. done.
  - destruct (N.eqb_spec (Ascii.N_of_ascii c) 45) as [E|E45].
    + apply Hc45 in E as Ec. subst c. split.
      * intros H. right. right. exists r. split; [done|]. destruct r as [|c' r]; [done|]. destruct (dec_digits _ 0) as [w|] eqn:Ed; [|done].
        case_match; [|done]. injection H as <-. apply Hp'; [done|]. rewrite Ed. f_equal. lia.
      * intros [H|[(y & [=] & _)|(y & [= <-] & H)]]; [apply Hfirst in H; lia|]. apply Hne in H as Hn. destruct r as [|c' r]; [done|].
        apply Hp' in H; [|done]. rewrite H. rewrite Z.opp_involutive. replace (_ && _) with true by lia. done.
    + split.
      * intros H. left. destruct (dec_digits _ 0) as [w|] eqn:Ed; [|done]. case_match; [|done]. injection H as ->. by apply Hp.
      * intros [H|[(y & [= -> _] & _)|(y & [= -> _] & _)]]; [|done..]. apply Hp in H; [|done]. rewrite H. replace (_ && _) with true by lia. done.
Qed.
Lemma written_unique x v w : written x v -> written x w -> v = w.
Proof.
  assert (Hd : forall y a b, decimal y a -> decimal y b -> a = b) by (intros y a b H1%decimal_digits H2%decimal_digits; congruence).
  assert (Hf : forall c y a, decimal (String c y) a -> c <> "+"%char /\ c <> "-"%char).
  { intros c y a (c' & r & [= <- <-] & H)%decimal_first. split; intros ->; [change (48 <= 43 <= 57) in H|change (48 <= 45 <= 57) in H]; lia. }
  intros [H|[(y & E & H)|(y & E & H)]] [H0|[(y0 & E0 & H0)|(y0 & E0 & H0)]].
  - by eapply Hd.
  - subst x. by destruct (Hf _ _ _ H).
  - subst x. by destruct (Hf _ _ _ H).
  - subst x. by destruct (Hf _ _ _ H0).
  - subst x. injection E0 as <-. by eapply Hd.
  - subst x. done.
  - subst x. by destruct (Hf _ _ _ H0).
  - subst x. done.
  - subst x. injection E0 as <-. enough (- v = - w)%Z by lia. by eapply Hd.
Qed.
Lemma shown_displayed pf sf t x s : shown pf sf t x s -> displayed pf sf t x s.
Proof.
  intros [[-> ->]|[[-> ->]|[[-> (v & H & Hv & ->)]|[-> (a & b & l & u & v & H1 & H2 & H3 & ->)]]]].
  - constructor.
  - constructor.
  - constructor. apply i8_written; [lia|done].
  - apply words_split in H1. by econstructor.
Qed.
Lemma built_iff pf t x : (exists p, build_service pf t x = Good p) <-> announced pf t x.
Proof.
  unfold build_service, CUSTOM_STRING, GEO_LOCATION, BATTERY, ADDRESS. split.
  - intros [p H].
    destruct (N.eqb_spec t 63) as [->|].
    { case_match eqn:E; [done|]. apply Nat.ltb_ge in E. constructor. lia. }
    destruct (N.eqb_spec t 127) as [->|].
    { destruct (split_blank x) as [|a [|b l]] eqn:Es; try done. destruct (pf a) eqn:E1; [|done]. destruct (pf b) eqn:E2; [|done].
      apply words_split in Es. by econstructor. }
    destruct (N.eqb_spec t 191) as [->|].
    { destruct (parse_i8 x) as [v|] eqn:E; [|done]. case_match eqn:Ev; [|done]. apply andb_prop in Ev as [E1 E2]. apply Z.leb_le in E1, E2.
      apply (an_battery _ _ v); [apply i8_written; [lia|done]|done]. }
    destruct (N.eqb_spec t 255) as [->|]; [|done].
    case_match eqn:E; [|done]. apply Nat.eqb_eq in E.
    destruct (split_blank x) as [|a [|b [|c [|d [|e [|]]]]]] eqn:Es; try done. apply words_split in Es. by eapply an_address.
  - intros [y H|y a b l u v H1 H2 H3|y v H Hv|y a b c d e H].
    + change (63 =? 63) with true. cbv iota. rewrite (proj2 (Nat.ltb_ge _ _)) by lia. eauto.
    + apply words_split in H1. change (127 =? 63) with false. change (127 =? 127) with true. cbv iota. rewrite H1, H2, H3. eauto.
    + apply i8_written in H; [|lia]. change (191 =? 63) with false. change (191 =? 127) with false. change (191 =? 191) with true. cbv iota.
      rewrite H. rewrite (proj2 (Z.leb_le _ _)), (proj2 (Z.leb_le _ _)) by lia. cbn. eauto.
    + apply words_split in H. change (255 =? 63) with false. change (255 =? 127) with false. change (255 =? 191) with false.
      change (255 =? 255) with true. cbv iota. rewrite H. cbn. eauto.
Qed.
(** A service is accepted exactly if it keeps the limits of its kind (and no
    other tag is); an accepted one is shown by the neighbour as announced. *)
Theorem C47_services : forall (parse_f32 : string -> option N) (show_f32 : N -> string),
  (forall x v, parse_f32 x = Some v -> v < 2^32) ->
  forall tag text, rust_string text ->
  ((exists data, build_service parse_f32 tag text = Good data) <-> announced parse_f32 tag text) /\
  forall data, build_service parse_f32 tag text = Good data ->
    exists s, convert_service show_f32 tag data = Good s /\ displayed parse_f32 show_f32 tag text s.
Proof.
  intros pf sf Hb t x [Hu _]. split; [apply built_iff|]. intros p Hp.
  destruct (build_convert pf sf Hb t x p Hu Hp) as (s & H1 & H2). exists s. split; [done|]. by apply shown_displayed.
Qed.
Print Assumptions C47_services.
(** "displayed" determines the text *)
Lemma C47_unique : forall pf sf t x s s', displayed pf sf t x s -> displayed pf sf t x s' -> s = s'.
Proof.
  intros pf sf t x s s' H H'. destruct H as [| |x level H|x lat lon more u v H]; inversion H'; subst; try congruence.
  - f_equal. by eapply written_unique.
  - repeat match goal with Hw : words _ _ |- _ => apply words_split in Hw end. congruence.
Qed.
(** What is shown of any service that is received, from this program or another:
    texts as they are, a level as the number in two's complement, two numbers of
    four bytes. *)
Inductive shows (show_f32 : N -> string) : N -> bytes -> string -> Prop :=
| sh_text s cs : Forall scalar cs -> bytes_of s = concat (map utf8_char cs) -> shows show_f32 63 (bytes_of s) s
| sh_address s cs : Forall scalar cs -> bytes_of s = concat (map utf8_char cs) -> shows show_f32 255 (bytes_of s) s
| sh_level b more v : (-128 <= v < 128)%Z -> (v mod 256)%Z = Z.of_N b -> shows show_f32 191 (b :: more) (pretty v)
| sh_geo u v more : u < 2^32 -> v < 2^32 -> shows show_f32 127 (be 4 u ++ be 4 v ++ more) (show_f32 u +:+ " " +:+ show_f32 v).
Theorem C47_any_received : forall (show_f32 : N -> string) tag payload s, Forall (fun b => b < 256) payload ->
  convert_service show_f32 tag payload = Good s <-> shows show_f32 tag payload s.
Proof.
  intros sf tag l s Hb.
  assert (Htxt : (if utf8 l then Good (text_of l) else Panics) = Good s <-> exists cs, Forall scalar cs /\ bytes_of s = concat (map utf8_char cs) /\ l = bytes_of s).
  { destruct (utf8 l) eqn:E.
    - split.
      + intros [= <-]. apply utf8_spec in E as (cs & Hcs & ->). exists cs. rewrite bytes_text by done. done.
      + intros (cs & Hcs & Hs & ->). by rewrite text_bytes.
    - split; [done|]. intros (cs & Hcs & Hs & ->). assert (utf8 (bytes_of s) = true); [|congruence]. apply utf8_spec. eauto. }
  unfold convert_service, CUSTOM_STRING, GEO_LOCATION, BATTERY, ADDRESS.
  destruct (N.eqb_spec tag 63) as [->|H63]; cbn [orb].
  { rewrite Htxt. split; [intros (cs & ? & ? & ->); by econstructor|]. inversion 1; subst. eauto. }
  destruct (N.eqb_spec tag 255) as [->|H255]; cbn [orb].
  { rewrite Htxt. split; [intros (cs & ? & ? & ->); by econstructor|]. inversion 1; subst. eauto. }
  destruct (N.eqb_spec tag 127) as [->|H127].
  { split.
    - destruct l as [|a [|b [|c [|d [|e [|f [|g [|h more]]]]]]]]; try done. intros [= <-].
      assert (H1 : bytes_ok [a; b; c; d] /\ bytes_ok [e; f; g; h]) by (unfold bytes_ok; rewrite !Forall_cons in *; naive_solver).
      destruct H1 as [H1 H2]. pose proof (unbe_bound _ H1) as B1. pose proof (unbe_bound _ H2) as B2.
      pose proof (be_unbe _ H1) as E1. pose proof (be_unbe _ H2) as E2.
      assert (H := sh_geo sf _ _ more B1 B2). change (length [a; b; c; d]) with 4%nat in E1. change (length [e; f; g; h]) with 4%nat in E2.
      rewrite E1, E2 in H. exact H.
    - inversion 1 as [| | |u v more Hu Hv]; subst. destruct (geo_split u v Hu Hv) as (a & b & c & d & e & f & g & h & E & <- & <-).
      rewrite app_assoc, E. reflexivity. }
  destruct (N.eqb_spec tag 191) as [->|H191].
  { split.
    - destruct l as [|b more]; [done|]. intros [= <-]. apply Forall_cons in Hb as [Hb _]. constructor; unfold byte_i8.
      + destruct (N.ltb_spec b 128); lia.
      + destruct (N.ltb_spec b 128); [apply Z.mod_small; lia|]. symmetry. apply (Z.mod_unique _ _ (-1)); lia.
    - inversion 1 as [| |b more v Hv Hm|]; subst. f_equal. unfold show_int, byte_i8. f_equal. apply Forall_cons in Hb as [Hb _].
      destruct (N.ltb_spec b 128).
      + rewrite <- Hm in *. assert (0 <= v)%Z; [|by rewrite Z.mod_small by lia].
        destruct (Z.lt_ge_cases v 0); [|done]. exfalso. assert (v mod 256 = v + 256)%Z by (symmetry; apply (Z.mod_unique _ _ (-1)); lia). lia.
      + destruct (Z.lt_ge_cases v 0).
        * assert (v mod 256 = v + 256)%Z by (symmetry; apply (Z.mod_unique _ _ (-1)); lia). lia.
        * rewrite Z.mod_small in Hm by lia. lia. }
  split; [done|]. inversion 1; subst; done.
Qed.
Print Assumptions C47_any_received.
Example C47_received_case : shows (fun _ => "") 191 [206; 7] "-50".
Proof. apply (sh_level _ 206 [7] (-50)); [lia|reflexivity]. Qed.
Example C47_case :
  build_service (fun _ => None) 191 "+75" = Good [75] /\ convert_service (fun _ => "") 191 [75] = Good "75" /\
  build_service (fun _ => None) 191 "101" = Bad /\ build_service (fun _ => None) 191 "-1" = Bad /\
  build_service (fun _ => None) 255 "Am Markt 1 35037 Marburg" = Good (bytes_of "Am Markt 1 35037 Marburg") /\
  build_service (fun _ => None) 255 "Marburg" = Bad /\ build_service (fun _ => None) 64 "x" = Bad.
Proof. vm_compute. done. Qed.

(** ** C48 *)
(** In every run of the announcers (one per address family), the k-th beacon for
    an address is number k - 1.  [parse] and [show] read and print socket
    addresses. *)
Definition C48_counts {addr : Type} `{EqDecision addr} (st : dstate (addr := addr)) : Prop :=
  forall a k n, numbers a (ds_log st) !! k = Some n -> n = N.of_nat k mod 2^32.
Definition C48_full : Prop := forall (addr : Type) (D : EqDecision addr) (parse : string -> option addr) (show : addr -> string),
  (forall a, parse (show a) = Some a) ->
  forall dests announcers st, Forall (fun d => is_Some (parse d)) dests ->
  rtc (dstep parse show) (dstart dests announcers) st -> C48_counts st.
(** and even when the destinations are written as they are printed *)
Definition C48_full_canonical : Prop := forall (addr : Type) (D : EqDecision addr) (parse : string -> option addr) (show : addr -> string),
  (forall a, parse (show a) = Some a) ->
  forall dests announcers st, Forall (fun d => exists a, d = show a) dests ->
  rtc (dstep parse show) (dstart dests announcers) st -> C48_counts st.

(** two addresses: the multicast groups dtnd uses unless told otherwise *)
Definition ex_show (a : bool) : string := if a then "[ff02::1]:3003" else "224.0.0.26:3003".
Definition ex_parse (d : string) : option bool :=
  if bool_decide (d = "[ff02::1]:3003") || bool_decide (d = "[FF02::1]:3003") then Some true
  else if bool_decide (d = "224.0.0.26:3003") then Some false else None.
Lemma ex_law a : ex_parse (ex_show a) = Some a.
Proof. by destruct a. Qed.
Lemma snapshot_one {addr} (parse : string -> option addr) (m : gmap string N) d a n :
  m = {[ d := n ]} -> parse d = Some a -> snapshot parse m [(a, n)].
Proof.
  intros -> Hp. split; [|split].
  - cbn. apply NoDup_singleton.
  - intros a' n' H. apply elem_of_list_singleton in H as [= -> ->]. exists d. by rewrite lookup_singleton.
  - intros d' n' H. apply lookup_singleton_Some in H as [-> ->]. exists a, n'. split; [done|]. by apply elem_of_list_singleton.
Qed.
(** False: the destination configured for IPv6 by default is not written the
    way it is printed, and its counter is never found again. *)
Theorem C48_full_refuted : ~ C48_full.
Proof.
  intros H. specialize (H bool _ ex_parse ex_show ex_law ["[FF02::1]:3003"] 1%nat).
  set (m := {[ "[FF02::1]:3003" := 0 ]} : gmap string N).
  specialize (H (DState m [[]] [(0%nat, true, 0, true); (0%nat, true, 0, true)])).
  assert (C48_counts (DState (addr := bool) m [[]] [(0%nat, true, 0, true); (0%nat, true, 0, true)])) as Hc.
  - apply H.
    + constructor; [|constructor]. by exists true.
    + eapply rtc_l; [apply (a_tick ex_parse ex_show _ _ _ 0 [(true, 0)]); [done|by apply snapshot_one with "[FF02::1]:3003"]|].
      eapply rtc_l; [apply (a_send ex_parse ex_show _ _ _ 0 true 0 [] true); done|].
      eapply rtc_l; [apply (a_tick ex_parse ex_show _ _ _ 0 [(true, 0)]); [done|by apply snapshot_one with "[FF02::1]:3003"]|].
      eapply rtc_l; [apply (a_send ex_parse ex_show _ _ _ 0 true 0 [] true); done|].
      apply rtc_refl.
  - specialize (Hc true 1%nat 0 eq_refl). done.
Qed.
Print Assumptions C48_full_refuted.
(** False also then: with IPv4 and IPv6 both on, two announcers share one
    counter per destination and read it before either counts. *)
Theorem C48_full_canonical_refuted : ~ C48_full_canonical.
Proof.
  intros H. specialize (H bool _ ex_parse ex_show ex_law ["224.0.0.26:3003"] 2%nat).
  set (m := update_seq "224.0.0.26:3003" (update_seq "224.0.0.26:3003" (list_to_map [("224.0.0.26:3003", 0)]))).
  specialize (H (DState m [[]; []] [(0%nat, false, 0, true); (1%nat, false, 0, false)])).
  assert (C48_counts (DState (addr := bool) m [[]; []] [(0%nat, false, 0, true); (1%nat, false, 0, false)])) as Hc.
  - apply H.
    + constructor; [|constructor]. by exists false.
    + eapply rtc_l; [apply (a_tick ex_parse ex_show _ _ _ 0 [(false, 0)]); [done|by apply snapshot_one with "224.0.0.26:3003"]|].
      eapply rtc_l; [apply (a_tick ex_parse ex_show _ _ _ 1 [(false, 0)]); [done|by apply snapshot_one with "224.0.0.26:3003"]|].
      eapply rtc_l; [apply (a_send ex_parse ex_show _ _ _ 0 false 0 [] true); done|].
      eapply rtc_l; [apply (a_send ex_parse ex_show _ _ _ 1 false 0 [] false); done|].
      apply rtc_refl.
  - specialize (Hc false 1%nat 0 eq_refl). done.
Qed.
Print Assumptions C48_full_canonical_refuted.
(** True with a single announcer and destinations as they are printed; missing:
    other spellings and both address families at once. *)
Theorem C48_sequence_numbers_partial : forall (addr : Type) (D : EqDecision addr) (parse : string -> option addr) (show : addr -> string),
  (forall a, parse (show a) = Some a) ->
  forall dests st, Forall (fun d => exists a, d = show a) dests ->
  rtc (dstep parse show) (dstart dests 1) st -> C48_counts st.
Proof.
  intros addr D parse show Hl ds st Hd Hr. apply (dinv_run parse show ds st) in Hr; [exact (proj2 (proj2 (proj2 Hr)))|].
  eapply Forall_impl; [exact Hd|]. intros d [a ->]. exists a. done.
Qed.
Print Assumptions C48_sequence_numbers_partial.
Example C48_case :
  rtc (dstep ex_parse ex_show) (dstart ["224.0.0.26:3003"] 1)
    (DState (update_seq "224.0.0.26:3003" (update_seq "224.0.0.26:3003" (list_to_map [("224.0.0.26:3003", 0)]))) [[]]
       [(0%nat, false, 0, true); (0%nat, false, 1, true)]).
Proof.
  eapply rtc_l; [apply (a_tick ex_parse ex_show _ _ _ 0 [(false, 0)]); [done|by apply snapshot_one with "224.0.0.26:3003"]|].
  eapply rtc_l; [apply (a_send ex_parse ex_show _ _ _ 0 false 0 [] true); done|].
  eapply rtc_l; [apply (a_tick ex_parse ex_show _ _ _ 0 [(false, 1)]); [done|apply snapshot_one with "224.0.0.26:3003"; [by apply map_eq; intros; vm_compute|done]]|].
  eapply rtc_l; [apply (a_send ex_parse ex_show _ _ _ 0 false 1 [] true); done|].
  apply rtc_refl.
Qed.

(** ** C49 *)
(** a table of peers without this node's own endpoint id *)
Definition not_listed (self : eid) (m : peers) : Prop := forall n p, m !! n = Some p -> pe_eid p <> self.
(** the receiver over a history of datagrams (time, sender, bytes), as long as
    it runs *)
Fixpoint hear (show_f32 : N -> string) (self : eid) (l : list (N * string * bytes)) (m : peers) : outcome peers :=
  match l with
  | [] => Good m
  | (now, ip, d) :: l => match on_datagram show_f32 self now ip d m with Good m' => hear show_f32 self l m' | o => o end
  end.
Lemma receive_spec self now ip b m m' : receive_beacon self now ip b m = Some m' -> bi_eid b <> self ->
  exists node, eid_node (bi_eid b) = Some node /\ m' = <[node := beacon_peer now ip b]> m.
Proof.
  unfold receive_beacon, peers_add. intros H Hne. rewrite bool_decide_false in H by done. cbn [beacon_peer peer_new pe_eid] in H.
  destruct (eid_node (bi_eid b)) as [n|] eqn:E; [|done]. exists n. split; [done|].
  case_bool_decide; injection H as <-; [done|]. cbn. unfold peers_touch.
  apply map_eq. intros k. destruct (decide (n = k)) as [->|Hk].
  - rewrite lookup_alter, !lookup_insert. done.
  - by rewrite lookup_alter_ne, !lookup_insert_ne.
Qed.
(** One datagram: its own beacon and garbage change nothing; any other beacon
    leaves a fresh dynamic entry for its sender and touches no other entry.  A
    history of datagrams never lists the node itself. *)
Theorem C49_never_self : forall (show_f32 : N -> string) self,
  (forall now ip d m m', on_datagram show_f32 self now ip d m = Good m' ->
     match from_slice de_beacon d with
     | Good b =>
         if bool_decide (bc_eid b = self) then m' = m
         else exists node p, eid_node (bc_eid b) = Some node /\ m' !! node = Some p /\
              pe_eid p = bc_eid b /\ pe_addr p = AIp ip /\ pe_static p = false /\ pe_last p = now /\ pe_fails p = 0 /\
              pe_clas p = sb_clas (bc_block b) /\ pe_period p = (fun ms => ms / 1000) <$> bc_period b /\
              forall other, other <> node -> m' !! other = m !! other
     | _ => m' = m
     end) /\
  forall l m m', not_listed self m -> hear show_f32 self l m = Good m' -> not_listed self m'.
Proof.
  intros sf self.
  assert (Hstep : forall now ip d m m', on_datagram sf self now ip d m = Good m' ->
     match from_slice de_beacon d with
     | Good b =>
         if bool_decide (bc_eid b = self) then m' = m
         else exists node p, eid_node (bc_eid b) = Some node /\ m' !! node = Some p /\
              pe_eid p = bc_eid b /\ pe_addr p = AIp ip /\ pe_static p = false /\ pe_last p = now /\ pe_fails p = 0 /\
              pe_clas p = sb_clas (bc_block b) /\ pe_period p = (fun ms => ms / 1000) <$> bc_period b /\
              forall other, other <> node -> m' !! other = m !! other
     | _ => m' = m
     end).
  { intros now ip d m m'. unfold on_datagram. destruct (from_slice de_beacon d) as [b| |]; [|by intros [= ->]|done].
    destruct (convert_services sf (bc_block b)) as [sv| |]; [|done|done].
    destruct (receive_beacon _ _ _ _ _) as [m1|] eqn:E; [|done]. intros [= <-].
    case_bool_decide as Hb.
    - unfold receive_beacon in E. cbn in E. rewrite bool_decide_true in E by done. congruence.
    - destruct (receive_spec _ _ _ _ _ _ E Hb) as (node & Hn & ->). cbn in Hn. exists node. eexists.
      split; [done|]. split; [by rewrite lookup_insert|]. repeat (split; [done|]). intros o Ho. by rewrite lookup_insert_ne. }
  split; [done|].
  induction l as [|[[now ip] d] l IH]; intros m m' Hm; cbn [hear]; [by intros [= <-]|].
  destruct (on_datagram sf self now ip d m) as [m1| |] eqn:E; [|done|done]. apply IH.
  apply Hstep in E. destruct (from_slice de_beacon d) as [b| |]; [|by subst|by subst].
  case_bool_decide; [by subst|]. destruct E as (node & p & _ & Hp & Hpe & _ & _ & _ & _ & _ & _ & Ho).
  intros n q Hq. destruct (decide (n = node)) as [->|Hne]; [|rewrite Ho in Hq by done; by eapply Hm].
  rewrite Hp in Hq. injection Hq as <-. by rewrite Hpe.
Qed.
Print Assumptions C49_never_self.
Example C49_case : exists m, hear (fun _ => "") (Dtn "node2" "")
    [(5, "10.0.0.1", enc_beacon [] (beacon_new (Dtn "node1" ""))); (6, "10.0.0.2", enc_beacon [] (beacon_new (Dtn "node2" "")));
     (7, "10.0.0.9", [1; 2; 3])] ∅ = Good m /\ map_to_list m = [("node1", Peer (Dtn "node1" "") (AIp "10.0.0.1") false None [] [] 5 0)].
Proof. eexists. split; vm_compute; reflexivity. Qed.

(** ** C66: what a node announces is what its neighbours list *)
Definition announces_well (parse_f32 : string -> option N) (a : announce) : Prop :=
  (match an_eid a with
   | DtnNone => False
   | Dtn n s => ~ (exists x y, n = x +:+ "/" +:+ y) /\ rust_string ("//" +:+ n +:+ "/" +:+ s)
   | Ipn n s => n < 2^64 /\ s < 2^64
   end) /\
  N.of_nat (length (an_clas a)) < 2^64 /\
  (forall name port, (name, port) ∈ an_clas a -> rust_string name /\ port < 2^16) /\
  NoDup (an_services a).*1 /\
  (forall tag text, (tag, text) ∈ an_services a -> rust_string text /\ announced parse_f32 tag text) /\
  an_interval a / 1000 < 2^64.
Lemma add_services_good pf l : (forall t x, (t, x) ∈ l -> announced pf t x) -> forall b, exists b', add_services pf l b = Good b'.
Proof.
  induction l as [|[t x] l IH]; intros H b; cbn [add_services]; [eauto|].
  destruct (proj2 (built_iff pf t x)) as [p Hp]; [apply H; left|]. unfold add_service. rewrite Hp.
  apply IH. intros; apply H; by right.
Qed.
Theorem C66_listed_as_announced : forall (parse_f32 : string -> option N) (show_f32 : N -> string),
  (forall x v, parse_f32 x = Some v -> v < 2^32) ->
  forall a, announces_well parse_f32 a ->
  exists b, round_beacon parse_f32 a = Good b /\
  forall seq order self now ip m, seq < 2^32 -> order ≡ₚ map_to_list (sb_services (bc_block b)) -> self <> an_eid a ->
  exists m' node p, on_datagram show_f32 self now ip (enc_beacon order (set_seq seq b)) m = Good m' /\
    eid_node (an_eid a) = Some node /\ m' !! node = Some p /\
    pe_eid p = an_eid a /\ pe_addr p = AIp ip /\ pe_last p = now /\
    pe_period p = (if an_period a then Some (an_interval a / 1000) else None) /\
    pe_clas p = map (fun c => (fst c, Some (snd c))) (an_clas a) /\
    forall tag s, (tag, s) ∈ pe_services p <-> exists text, (tag, text) ∈ an_services a /\ displayed parse_f32 show_f32 tag text s.
Proof.
  intros pf sf Hbits a (He & Hl & Hc & Hnd & Hs & Hi).
  set (b0 := foldl (fun b c => add_cla (fst c) (Some (snd c)) b)
       (with_config (an_eid a) sb_new (if an_period a then Some (an_interval a) else None)) (an_clas a)).
  destruct (add_services_good pf (an_services a)) with (b := b0) as [b Hb]; [intros t x H; by apply Hs|].
  exists b. split; [done|]. intros seq order self now ip m Hseq Ho Hself.
  destruct (add_clas_block pf (an_clas a) (with_config (an_eid a) sb_new (if an_period a then Some (an_interval a) else None)))
    as (A1 & A2 & A3 & A4 & A5). fold b0 in A1, A2, A3, A4, A5.
  assert (Hb0 : forall p, sb_clas (bc_block (with_config (an_eid a) sb_new p)) = [] /\ sb_services (bc_block (with_config (an_eid a) sb_new p)) = ∅ /\
    bc_eid (with_config (an_eid a) sb_new p) = an_eid a /\ bc_period (with_config (an_eid a) sb_new p) = p).
  { intros [p|]; done. }
  destruct (Hb0 (if an_period a then Some (an_interval a) else None)) as (B1 & B2 & B3 & B4).
  rewrite B1 in A1. rewrite B2 in A2. rewrite B3 in A3. rewrite B4 in A4. cbn [app] in A1. clear Hb0 B1 B2 B3 B4.
  destruct (add_services_block pf (an_services a) b0 b Hb Hnd) as (D1 & D2 & D3 & _ & D4 & D5).
  { intros t _. rewrite A2. apply lookup_empty. }
  rewrite A1 in D1. rewrite A3 in D2. rewrite A4 in D3.
  assert (Hm : made pf (set_seq seq b)) by (apply made_seq, D4, A5, made_config).
  assert (Hsv : forall t p, sb_services (bc_block b) !! t = Some p <-> exists x, (t, x) ∈ an_services a /\ build_service pf t x = Good p).
  { intros t p. rewrite D5, A2, lookup_empty. split; [by intros [?|?]|by right]. }
  assert (Hfit : beacon_fits (set_seq seq b)).
  { split; [|split; [done|split; [split; [|split]|]]]; cbn [set_seq bc_eid bc_seq bc_block bc_period].
    - rewrite D2. destruct (an_eid a) as [|n s|n s]; [done| |done]. destruct He as [He [Hu Hn]]. split; [|split; done].
      destruct (has_slash n) eqn:E; [|done]. exfalso. by apply He, has_slash_iff.
    - rewrite D1, map_length. done.
    - rewrite D1. apply Forall_forall. intros c Hin. apply elem_of_list_fmap in Hin as ([name port] & -> & Hin).
      destruct (Hc _ _ Hin) as [[H1 H2] H3]. split; [done|]. split; [done|]. by intros p [= <-].
    - intros t p Hp. apply Hsv in Hp as (x & Hx & Hp). apply (build_fits pf Hbits t x); [done|]. by apply Hs in Hx as [[_ ?] _].
    - rewrite D3. intros ms. destruct (an_period a); [|done]. by intros [= <-]. }
  pose proof (beacon_round_trip pf _ order Hm Hfit Ho) as Hread.
  destruct (convert_list_good sf (map_to_list (sb_services (bc_block b)))) as (sv & Hcv & Hin).
  { intros t p Hp. apply elem_of_map_to_list, Hsv in Hp as (x & Hx & Hp).
    destruct (build_convert pf sf Hbits t x p) as (s & ? & _); [by apply Hs in Hx as [[? _] _]|done|]. eauto. }
  unfold on_datagram. rewrite Hread. unfold in_seconds. cbn [bc_block bc_eid bc_period set_seq].
  unfold convert_services. rewrite Hcv.
  assert (exists node, eid_node (an_eid a) = Some node) as [node Hnode] by (destruct (an_eid a); cbn; eauto; done).
  destruct (receive_beacon _ _ _ _ _) as [m'|] eqn:Er.
  2:{ exfalso. unfold receive_beacon, peers_add in Er. cbn in Er. rewrite D2, Hnode in Er. repeat case_bool_decide; done. }
  destruct (receive_spec _ _ _ _ _ _ Er) as (node' & Hn' & ->); [cbn; rewrite D2; congruence|]. cbn in Hn'. rewrite D2, Hnode in Hn'.
  injection Hn' as <-.
  eexists _, node, _. split; [done|]. split; [done|]. split; [by rewrite lookup_insert|]. cbn.
  split; [done|]. split; [done|]. split; [done|]. split.
  { rewrite D3. destruct (an_period a); [|done]. cbn. by rewrite N.div_mul. }
  split; [done|]. intros t s. rewrite Hin. split.
  - intros (p & Hp & Hcs). apply elem_of_map_to_list, Hsv in Hp as (x & Hx & Hp). exists x. split; [done|].
    destruct (build_convert pf sf Hbits t x p) as (s' & Hs' & Hd); [by apply Hs in Hx as [[? _] _]|done|].
    rewrite Hs' in Hcs. injection Hcs as <-. by apply shown_displayed.
  - intros (x & Hx & Hd). destruct (Hs _ _ Hx) as [[Hu _] Han]. destruct (proj2 (built_iff pf t x) Han) as [p Hp].
    exists p. split; [apply elem_of_map_to_list, Hsv; eauto|].
    destruct (build_convert pf sf Hbits t x p Hu Hp) as (s' & Hs' & Hd'). rewrite Hs'. f_equal.
    eapply C47_unique; [apply shown_displayed, Hd'|done].
Qed.
Print Assumptions C66_listed_as_announced.
Definition case_announce : announce :=
  Announce (Dtn "node1" "") 10500 true [("mtcp", 16162); ("http", 3000)] [(191, "+75"); (63, "hello there")].
Example C66_case : announces_well (fun _ => None) case_announce.
Proof.
  split; [|split; [done|split; [|split; [|split; [|done]]]]].
  - cbn. split; [|done]. intros (x & y & H). assert (has_slash "node1" = true) as E; [|done]. rewrite H.
    clear. induction x as [|c x IH]; [done|]. change (String c x +:+ "/" +:+ y) with (String c (x +:+ "/" +:+ y)).
    cbn [has_slash]. rewrite IH. by case_bool_decide.
  - intros n p H. apply elem_of_cons in H as [[= -> ->]|H]; [done|]. apply elem_of_list_singleton in H as [= -> ->]. done.
  - cbn. apply NoDup_cons. split; [|apply NoDup_singleton]. by intros ?%elem_of_list_singleton.
  - intros t x H. apply elem_of_cons in H as [[= -> ->]|H].
    + split; [done|]. apply (an_battery _ _ 75); [by apply i8_written|lia].
    + apply elem_of_list_singleton in H as [= -> ->]. split; [done|]. apply an_text. done.
Qed.

(** ** C67: announcing never stops *)
Definition C67_full : Prop := forall (parse_f32 : string -> option N) a, exists b, round_beacon parse_f32 a = Good b.
(** False: a service that breaks a limit ends the announcer.  Such a service
    can only come from a routing program, see C173. *)
Theorem C67_full_refuted : ~ C67_full.
Proof.
  intros H. destruct (H (fun _ => None) (Announce (Dtn "node1" "") 10000 true [] [(191, "full")])) as [b Hb]. done.
Qed.
Print Assumptions C67_full_refuted.
(** True exactly if all services keep the limits of their kinds. *)
Theorem C67_announcing_partial : forall (parse_f32 : string -> option N) a,
  (exists b, round_beacon parse_f32 a = Good b) <->
  forall tag text, (tag, text) ∈ an_services a -> announced parse_f32 tag text.
Proof.
  intros pf a. split.
  - intros [b Hb]. unfold round_beacon in Hb. revert Hb.
    generalize (foldl (fun b c => add_cla (fst c) (Some (snd c)) b) (with_config (an_eid a) sb_new (if an_period a then Some (an_interval a) else None)) (an_clas a)).
    induction (an_services a) as [|[t x] l IH]; intros b0 Hb t' x' Hin; [by apply elem_of_nil in Hin|].
    cbn [add_services] in Hb. destruct (add_service pf t x b0) as [b1| |] eqn:E; [|done|done].
    apply elem_of_cons in Hin as [[= -> ->]|Hin]; [|by eapply IH].
    apply built_iff. unfold add_service in E. destruct (build_service pf t x) as [p| |]; [eauto|done|done].
  - intros H. by apply add_services_good.
Qed.
Print Assumptions C67_announcing_partial.
Example C67_case : exists b, round_beacon (fun _ => None) case_announce = Good b.
Proof. apply C67_announcing_partial. intros t x H. by apply C66_case in H as [_ ?]. Qed.

(** ** C68: no datagram stops the receiver *)
Definition C68_full : Prop := forall (show_f32 : N -> string) self now ip d m, on_datagram show_f32 self now ip d m <> Panics.
(** False: eight bytes are enough. *)
Theorem C68_full_refuted : ~ C68_full.
Proof. intros H. by apply (H (fun _ => "") (Dtn "node1" "") 0 "10.0.0.9" [159; 7; 1; 130; 1; 0; 0; 255] ∅). Qed.
Print Assumptions C68_full_refuted.
(** a service entry the receiver cannot show *)
Definition malformed (tag : N) (data : bytes) : Prop :=
  ((tag = 63 \/ tag = 255) /\ utf8 data = false) \/ (tag = 127 /\ (length data < 8)%nat) \/ (tag = 191 /\ data = []).
Lemma convert_panics sf t p : convert_service sf t p = Panics -> malformed t p.
Proof.
  unfold convert_service, malformed, CUSTOM_STRING, GEO_LOCATION, BATTERY, ADDRESS.
  destruct (N.eqb_spec t 63) as [->|]; [cbn; destruct (utf8 p); [done|]; intros _; left; by split; [left|]|].
  destruct (N.eqb_spec t 255) as [->|]; [cbn; destruct (utf8 p); [done|]; intros _; left; by split; [right|]|].
  cbn [orb]. destruct (N.eqb_spec t 127) as [->|].
  { do 8 (destruct p as [|? p]; [intros _; right; left; cbn; lia|]). done. }
  destruct (N.eqb_spec t 191) as [->|]; [|done]. destruct p; [|done]. intros _. right. by right.
Qed.
Lemma convert_list_panics sf l : convert_list sf l = Panics -> exists t p, (t, p) ∈ l /\ malformed t p.
Proof.
  induction l as [|[t p] l IH]; [done|]. cbn. intros H. destruct (convert_service sf t p) as [s| |] eqn:E.
  - destruct (convert_list sf l) as [r| |]; [done|done|]. destruct IH as (t' & p' & ? & ?); [done|]. exists t', p'. split; [by right|done].
  - destruct (convert_list sf l) as [r| |]; [done|done|]. destruct IH as (t' & p' & ? & ?); [done|]. exists t', p'. split; [by right|done].
  - exists t, p. split; [left|]. by eapply convert_panics.
Qed.
Lemma convert_list_bad sf l : convert_list sf l <> Bad.
Proof.
  induction l as [|[t p] l IH]; [done|]. cbn.
  destruct (convert_service sf t p), (convert_list sf l) as [r| |]; done.
Qed.
(** True of every datagram without the byte 0x9f (no array of unknown length)
    that is not a beacon with the null endpoint or with an ill-formed service. *)
Theorem C68_receiver_partial : forall (show_f32 : N -> string) self now ip d m,
  on_datagram show_f32 self now ip d m = Panics ->
  159 ∈ d \/ exists b, from_slice de_beacon d = Good b /\
    ((bc_eid b = DtnNone /\ self <> DtnNone) \/ exists tag data, sb_services (bc_block b) !! tag = Some data /\ malformed tag data).
Proof.
  intros sf self now ip d m. unfold on_datagram. destruct (from_slice de_beacon d) as [b| |] eqn:E; [|done|].
  - intros H. right. exists b. split; [done|].
    destruct (convert_services sf (bc_block b)) as [sv| |] eqn:Ec.
    + left. destruct (receive_beacon _ _ _ _ _) as [m1|] eqn:Er; [done|]. unfold receive_beacon, peers_add in Er. cbn in Er.
      destruct (decide (bc_eid b = self)) as [Hs|Hs]; [by rewrite bool_decide_true in Er|].
      rewrite bool_decide_false in Er by done. destruct (bc_eid b) as [|n s|n s]; cbn in Er; [done| |]; case_bool_decide; done.
    + by apply convert_list_bad in Ec.
    + right. apply convert_list_panics in Ec as (t & p & Hin & Hm). apply elem_of_map_to_list in Hin. eauto.
  - intros _. left. apply pan_beacon. unfold from_slice in E. destruct (de_beacon d) as [a [|]| |]; done.
Qed.
Print Assumptions C68_receiver_partial.
(** the other two causes occur *)
Example C68_case :
  on_datagram (fun _ => "") (Dtn "node1" "") 0 "10.0.0.9" (enc_beacon [] (beacon_new DtnNone)) ∅ = Panics /\
  on_datagram (fun _ => "") (Dtn "node1" "") 0 "10.0.0.9" [133; 7; 3; 130; 1; 100; 47; 47; 97; 47; 0; 130; 128; 161; 24; 191; 128] ∅ = Panics.
Proof. vm_compute. done. Qed.
