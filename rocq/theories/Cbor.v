(** CBOR as serde_cbor 0.11 writes and reads it, for the types that occur in
    discovery beacons, and UTF-8.

    serde_cbor's sources are not in the repository; this file is written from
    its documentation.  Not modelled: the limit of 128 nested items and tags. *)
From stdpp Require Import prelude strings gmap.
From Coq Require Import NArith Lia.
From Verif Require Import Bytes.
Open Scope N_scope.

(** ** Texts *)
Fixpoint bytes_of (s : string) : bytes :=
  match s with "" => [] | String c s => Ascii.N_of_ascii c :: bytes_of s end.
Fixpoint text_of (l : bytes) : string :=
  match l with [] => "" | b :: l => String (Ascii.ascii_of_N b) (text_of l) end.
(** core::str::from_utf8: well-formed byte sequences, Unicode table 3-7.
    [cont lo hi k l]: one byte between lo and hi, then k *)
Definition between (lo hi b : N) : bool := (lo <=? b) && (b <=? hi).
Fixpoint utf8 (l : bytes) : bool :=
  match l with
  | [] => true
  | a :: l =>
      if a <? 128 then utf8 l
      else if between 194 223 a then
        match l with b :: l => between 128 191 b && utf8 l | _ => false end
      else if between 224 239 a then
        match l with
        | b :: c :: l =>
            between (if a =? 224 then 160 else 128) (if a =? 237 then 159 else 191) b && between 128 191 c && utf8 l
        | _ => false
        end
      else if between 240 244 a then
        match l with
        | b :: c :: d :: l =>
            between (if a =? 240 then 144 else 128) (if a =? 244 then 143 else 191) b
            && between 128 191 c && between 128 191 d && utf8 l
        | _ => false
        end
      else false
  end.

(** ** Writing *)
(** the shortest head for major type [m] and argument [n] *)
Definition enc_head (m n : N) : bytes :=
  if n <? 24 then [m * 32 + n]
  else if n <? 2^8 then [m * 32 + 24; n]
  else if n <? 2^16 then (m * 32 + 25) :: be 2 n
  else if n <? 2^32 then (m * 32 + 26) :: be 4 n
  else (m * 32 + 27) :: be 8 n.
Definition enc_uint (n : N) : bytes := enc_head 0 n.
Definition enc_text (s : string) : bytes := enc_head 3 (N.of_nat (String.length s)) ++ bytes_of s.
Definition null : N := 246.
Definition enc_opt (o : option N) : bytes := match o with None => [null] | Some n => enc_uint n end.
(** a sequence of known length: Vec<T>, tuples, serialize_seq(Some(n)) *)
Definition enc_seq {A} (enc : A -> bytes) (l : list A) : bytes :=
  enc_head 4 (N.of_nat (length l)) ++ flat_map enc l.
Definition enc_map {A B} (enc1 : A -> bytes) (enc2 : B -> bytes) (l : list (A * B)) : bytes :=
  enc_head 5 (N.of_nat (length l)) ++ flat_map (fun x => enc1 (fst x) ++ enc2 (snd x)) l.

(** ** Reading *)
(** value and what is left of the input; an error; a panic of the visitor *)
Inductive dres (A : Type) := DOk (a : A) (rest : bytes) | DErr | DPanic.
Arguments DOk {A} _ _. Arguments DErr {A}. Arguments DPanic {A}.
Definition dec (A : Type) : Type := bytes -> dres A.
Definition dret {A} (a : A) : dec A := fun s => DOk a s.
Definition dfail {A} : dec A := fun _ => DErr.
Definition dbind {A B} (d : dec A) (f : A -> dec B) : dec B :=
  fun s => match d s with DOk a s => f a s | DErr => DErr | DPanic => DPanic end.
Declare Scope dec_scope.
Delimit Scope dec_scope with dec.
Notation "'do' x ← d ; f" := (dbind d (fun x => f)) (at level 200, x pattern, right associativity) : dec_scope.
Open Scope dec_scope.

Definition byte : dec N := fun s => match s with [] => DErr | b :: s => DOk b s end.
(** [n] bytes *)
Definition raw (n : N) : dec bytes :=
  fun s => if n <=? blen s then DOk (take (N.to_nat n) s) (drop (N.to_nat n) s) else DErr.
(** major type and argument; [None]: indefinite length *)
Definition head : dec (N * option N) :=
  do b ← byte;
  let m := b / 32 in
  let i := b mod 32 in
  if i <? 24 then dret (m, Some i)
  else if i =? 24 then do l ← raw 1; dret (m, Some (unbe l))
  else if i =? 25 then do l ← raw 2; dret (m, Some (unbe l))
  else if i =? 26 then do l ← raw 4; dret (m, Some (unbe l))
  else if i =? 27 then do l ← raw 8; dret (m, Some (unbe l))
  else if i =? 31 then dret (m, None)
  else dfail.
(** parse_value: tags (major type 6) are skipped; a tag takes at least one
    byte *)
Fixpoint untag (fuel : nat) : dec (N * option N) :=
  do h ← head;
  match h with
  | (6, Some _) => match fuel with S fuel => untag fuel | O => dfail end
  | (6, None) => dfail
  | h => dret h
  end.
Definition value : dec (N * option N) := fun s => untag (length s) s.
(** an unsigned integer type with values below [lim] *)
Definition de_uint (lim : N) : dec N :=
  do h ← value;
  match h with
  | (0, Some n) => if n <? lim then dret n else dfail
  | _ => dfail
  end.
Definition break : N := 255.
(** pieces of an indefinite text or byte string *)
Fixpoint pieces (fuel : nat) (m : N) (acc : bytes) : dec bytes :=
  fun s =>
  match fuel, s with
  | S fuel, b :: s' =>
      if b =? break then DOk acc s'
      else (do h ← head;
            match h with
            | (m', Some n) => if m' =? m then do l ← raw n; pieces fuel m (acc ++ l) else dfail
            | _ => dfail
            end) s
  | _, _ => DErr
  end.
(** String: texts, and byte strings that are valid UTF-8 *)
Definition de_text : dec string :=
  do h ← value;
  do l ← match h with
         | (3, Some n) | (2, Some n) => raw n
         | (3, None) => fun s => pieces (length s) 3 [] s
         | (2, None) => fun s => pieces (length s) 2 [] s
         | _ => dfail
         end;
  if utf8 l then dret (text_of l) else dfail.
(** Option<u16>: null or the value *)
Definition de_opt {A} (d : dec A) : dec (option A) :=
  fun s => match s with
           | b :: s' => if b =? null then DOk None s' else (do a ← d; dret (Some a)) s
           | [] => DErr
           end.
(** [n] elements; every element takes at least one byte *)
Fixpoint items {A} (d : dec A) (fuel : nat) (n : N) (acc : list A) : dec (list A) :=
  if n =? 0 then dret acc
  else match fuel with
       | O => dfail
       | S fuel => do a ← d; items d fuel (n - 1) (acc ++ [a])
       end.
(** elements up to the break *)
Fixpoint items_indef {A} (d : dec A) (fuel : nat) (acc : list A) : dec (list A) :=
  fun s =>
  match fuel, s with
  | S fuel, b :: s' =>
      if b =? break then DOk acc s' else (do a ← d; items_indef d fuel (acc ++ [a])) s
  | _, _ => DErr
  end.
Definition many {A} (m : N) (d : dec A) (h : N * option N) : dec (list A) :=
  fun s =>
  match h with
  | (m', Some n) => if m' =? m then items d (length s) n [] s else DErr
  | (m', None) => if m' =? m then items_indef d (length s) [] s else DErr
  end.
(** Vec<T> *)
Definition de_seq {A} (d : dec A) : dec (list A) := do h ← value; many 4 d h.
Definition de_pair {A B} (d1 : dec A) (d2 : dec B) : dec (A * B) := do a ← d1; do b ← d2; dret (a, b).
(** a 2-tuple *)
Definition de_tuple {A B} (d1 : dec A) (d2 : dec B) : dec (A * B) :=
  do h ← value;
  match h with
  | (4, Some 2) => de_pair d1 d2
  | (4, None) => do p ← de_pair d1 d2; do b ← byte; if b =? break then dret p else dfail
  | _ => dfail
  end.
(** HashMap: the entries in the order of the input *)
Definition de_map {A B} (d1 : dec A) (d2 : dec B) : dec (list (A * B)) := do h ← value; many 5 (de_pair d1 d2) h.
