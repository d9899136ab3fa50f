(** Discovery: ipnd/beacon.rs, ipnd/services.rs, ipnd/neighbour_discovery.rs and
    the part of dtnconfig.rs that counts beacons. *)
From stdpp Require Import prelude strings pretty gmap.
From Coq Require Import NArith ZArith Lia.
From Verif Require Import Bytes Cbor Core Peers Routing.
Open Scope N_scope.

(** ** Services (ipnd/services.rs) *)
(** 18-21 ServiceBlock.  The HashMap is a finite map; its iteration order shows
    in [enc_services] only. *)
Record sblock := SBlock { sb_clas : list (string * option N); sb_services : gmap N bytes }.
(** 29-34 *)
Definition sb_new : sblock := SBlock [] ∅.
(** 82-90 *)
Definition sb_add_cla (name : string) (port : option N) (sb : sblock) : sblock :=
  SBlock (sb_clas sb ++ [(name, port)]) (sb_services sb).
Definition sb_add_service (tag : N) (payload : bytes) (sb : sblock) : sblock :=
  SBlock (sb_clas sb) (<[tag := payload]> (sb_services sb)).
(** 166-168 *)
Definition sb_empty (sb : sblock) : bool := (length (sb_clas sb) + size (sb_services sb) =? 0)%nat.
(** 295-300 *)
Definition CUSTOM_STRING : N := 63.
Definition GEO_LOCATION : N := 127.
Definition BATTERY : N := 191.
Definition ADDRESS : N := 255.

(** str::parse::<i8>: an optional sign, at least one digit, only digits, in
    range; "-" and "+" alone are errors *)
Fixpoint dec_digits (s : string) (acc : Z) : option Z :=
  match s with
  | "" => Some acc
  | String c s =>
      let n := Ascii.N_of_ascii c in
      if (48 <=? n) && (n <=? 57) then dec_digits s (10 * acc + Z.of_N (n - 48))%Z else None
  end.
Definition parse_i8 (s : string) : option Z :=
  match s with
  | "" => None
  | String c r =>
      let n := Ascii.N_of_ascii c in
      let body := if (n =? 43) || (n =? 45) then r else s in
      match body with
      | "" => None
      | _ =>
          match dec_digits body 0 with
          | Some v =>
              let v := if n =? 45 then (- v)%Z else v in
              if ((-128 <=? v) && (v <=? 127))%Z then Some v else None
          | None => None
          end
      end
  end.
(** i8 to_be_bytes / from_be_bytes and Display *)
Definition i8_byte (v : Z) : N := Z.to_N (v mod 256).
Definition byte_i8 (b : N) : Z := if b <? 128 then Z.of_N b else (Z.of_N b - 256)%Z.
Definition show_int (v : Z) : string := pretty v.

(** the result of a function that may also panic *)
Inductive outcome (A : Type) := Good (a : A) | Bad | Panics.
Arguments Good {A} _. Arguments Bad {A}. Arguments Panics {A}.

Section float.
(** std: f32 parsing (its bit pattern) and Display *)
Context (parse_f32 : string -> option N) (show_f32 : N -> string).
(** 105-163 build_custom_service *)
Definition build_service (tag : N) (text : string) : outcome bytes :=
  if tag =? CUSTOM_STRING then
    if (64 <? String.length text)%nat then Bad else Good (bytes_of text)
  else if tag =? GEO_LOCATION then
    match split_blank text with
    | a :: b :: _ =>
        match parse_f32 a, parse_f32 b with
        | Some x, Some y => Good (be 4 x ++ be 4 y)
        | _, _ => Panics
        end
    | _ => Bad
    end
  else if tag =? BATTERY then
    match parse_i8 text with
    | Some v => if ((0 <=? v) && (v <=? 100))%Z then Good [i8_byte v] else Bad
    | None => Bad
    end
  else if tag =? ADDRESS then
    if (length (split_blank text) =? 5)%nat then Good (bytes_of text) else Bad
  else Bad.
(** 42-75 convert_services, one entry; [Bad]: left out (unknown tag) *)
Definition convert_service (tag : N) (payload : bytes) : outcome string :=
  if (tag =? CUSTOM_STRING) || (tag =? ADDRESS) then
    if utf8 payload then Good (text_of payload) else Panics
  else if tag =? GEO_LOCATION then
    match payload with
    | a :: b :: c :: d :: e :: f :: g :: h :: _ =>
        Good (show_f32 (unbe [a; b; c; d]) +:+ " " +:+ show_f32 (unbe [e; f; g; h]))
    | _ => Panics
    end
  else if tag =? BATTERY then
    match payload with b :: _ => Good (show_int (byte_i8 b)) | [] => Panics end
  else Bad.
(** 42-75: all entries; the result is a HashMap again, kept as its list of
    entries *)
Fixpoint convert_list (l : list (N * bytes)) : outcome (list (N * string)) :=
  match l with
  | [] => Good []
  | (t, p) :: l =>
      match convert_service t p, convert_list l with
      | Panics, _ | _, Panics => Panics
      | Good s, Good r => Good ((t, s) :: r)
      | _, r => r
      end
  end.
Definition convert_services (sb : sblock) : outcome (list (N * string)) := convert_list (map_to_list (sb_services sb)).
End float.

(** ** Beacons (ipnd/beacon.rs) *)
(** 33-53; the period in milliseconds *)
Record beacon := Beacon {
  bc_version : N; bc_flags : N; bc_eid : eid; bc_seq : N; bc_block : sblock; bc_period : option N
}.
Definition IPND_VERSION : N := 7.
Definition SOURCE_EID_PRESENT : N := 1.
Definition SERVICE_BLOCK_PRESENT : N := 2.
Definition BEACON_PERIOD_PRESENT : N := 4.
(** 132-134 *)
Definition add_flags (f : N) (b : beacon) : beacon :=
  Beacon (bc_version b) (N.lor (bc_flags b) f) (bc_eid b) (bc_seq b) (bc_block b) (bc_period b).
(** 59-68 *)
Definition beacon_new (e : eid) : beacon := Beacon IPND_VERSION SOURCE_EID_PRESENT e 0 sb_new None.
(** 71-94 *)
Definition with_config (e : eid) (sb : sblock) (period : option N) : beacon :=
  let b := Beacon IPND_VERSION SOURCE_EID_PRESENT e 0 sb period in
  let b := if sb_empty sb then b else add_flags SERVICE_BLOCK_PRESENT b in
  match period with Some _ => add_flags BEACON_PERIOD_PRESENT b | None => b end.
(** 137-139 *)
Definition set_seq (n : N) (b : beacon) : beacon :=
  Beacon (bc_version b) (bc_flags b) (bc_eid b) n (bc_block b) (bc_period b).
(** 142-153 *)
Definition with_block (sb : sblock) (b : beacon) : beacon :=
  Beacon (bc_version b) (bc_flags b) (bc_eid b) (bc_seq b) sb (bc_period b).
Definition add_cla (name : string) (port : option N) (b : beacon) : beacon :=
  add_flags SERVICE_BLOCK_PRESENT (with_block (sb_add_cla name port (bc_block b)) b).
Definition add_service (parse_f32 : string -> option N) (tag : N) (text : string) (b : beacon) : outcome beacon :=
  match build_service parse_f32 tag text with
  | Good p => Good (add_flags SERVICE_BLOCK_PRESENT (with_block (sb_add_service tag p (bc_block b)) b))
  | _ => Panics                                                       (* expect *)
  end.

(** *** On the wire *)
(** bp7 EndpointID: [1, "//node/service"], [1, 0] for dtn:none, [2, [n, s]].
    Reading: other forms are errors here; bp7 is more lenient with malformed
    names. *)
Definition slash : Ascii.ascii := Ascii.ascii_of_N 47.
Definition dtn_text (n s : string) : string := "//" +:+ n +:+ "/" +:+ s.
Fixpoint split_slash (s : string) (acc : string) : option (string * string) :=
  match s with
  | "" => None
  | String c s => if bool_decide (c = slash) then Some (acc, s) else split_slash s (acc +:+ String c "")
  end.
Definition eid_of_text (s : string) : option eid :=
  match s with
  | "" => Some DtnNone
  | String a (String b r) =>
      if bool_decide (a = slash) && bool_decide (b = slash) then
        match split_slash r "" with Some (n, s) => Some (Dtn n s) | None => None end
      else None
  | _ => None
  end.
Definition enc_eid (e : eid) : bytes :=
  match e with
  | DtnNone => enc_head 4 2 ++ enc_uint 1 ++ enc_uint 0
  | Dtn n s => enc_head 4 2 ++ enc_uint 1 ++ enc_text (dtn_text n s)
  | Ipn n s => enc_head 4 2 ++ enc_uint 2 ++ enc_head 4 2 ++ enc_uint n ++ enc_uint s
  end.
Definition de_eid : dec eid :=
  do h ← value;
  match h with
  | (4, Some 2) =>
      do t ← de_uint (2^8);
      if t =? 1 then
        fun s => match de_uint (2^64) s with
                 | DOk _ r => DOk DtnNone r
                 | _ => (do x ← de_text; match eid_of_text x with Some e => dret e | None => dfail end) s
                 end
      else if t =? 2 then do p ← de_tuple (de_uint (2^64)) (de_uint (2^64)); dret (Ipn (fst p) (snd p))
      else dfail
  | _ => dfail
  end.

(** services.rs:237-252; [ord] is the iteration order of the HashMap *)
Definition enc_cla (c : string * option N) : bytes := enc_head 4 2 ++ enc_text (fst c) ++ enc_opt (snd c).
Definition enc_block (ord : list (N * bytes)) (sb : sblock) : bytes :=
  if sb_empty sb then enc_head 4 0
  else enc_head 4 2 ++ enc_seq enc_cla (sb_clas sb) ++ enc_map enc_uint (enc_seq enc_uint) ord.
(** services.rs:254-291; size_hint().unwrap() panics on an indefinite array *)
Definition de_block : dec sblock :=
  do h ← value;
  match h with
  | (4, None) => fun _ => DPanic
  | (4, Some 0) => dret sb_new
  | (4, Some 2) =>
      do clas ← de_seq (de_tuple de_text (de_opt (de_uint (2^16))));
      do sv ← de_map (de_uint (2^8)) (de_seq (de_uint (2^8)));
      dret (SBlock clas (list_to_map (reverse sv)))           (* the last entry of a tag counts *)
  | _ => dfail
  end.
(** beacon.rs:174-211; as_secs *)
Definition enc_beacon (ord : list (N * bytes)) (b : beacon) : bytes :=
  let blk := negb (sb_empty (bc_block b)) in
  let per := bool_decide (bc_period b ≠ None) in
  let n := if per && blk then 6 else if negb per && negb blk then 4 else 5 in
  enc_head 4 n ++ enc_uint (bc_version b) ++ enc_uint (bc_flags b) ++ enc_eid (bc_eid b) ++ enc_uint (bc_seq b)
  ++ (if blk then enc_block ord (bc_block b) else [])
  ++ match bc_period b with Some ms => enc_uint (ms / 1000) | None => [] end.
(** beacon.rs:213-296; Duration::from_secs.  What is left after visit_seq is an
    error (serde_cbor). *)
Definition de_beacon : dec beacon :=
  do h ← value;
  match h with
  | (4, len) =>
      if match len with Some n => n <? 4 | None => false end then dfail
      else
        do v ← de_uint (2^8);
        do f ← de_uint (2^8);
        do e ← de_eid;
        do q ← de_uint (2^32);
        match len with
        | None => fun _ => DPanic
        | Some 4 => dret (Beacon v f e q sb_new None)
        | Some 5 =>
            if N.land f SERVICE_BLOCK_PRESENT =? SERVICE_BLOCK_PRESENT
            then do sb ← de_block; dret (Beacon v f e q sb None)
            else do p ← de_uint (2^64); dret (Beacon v f e q sb_new (Some (p * 1000)))
        | Some n =>
            do sb ← de_block; do p ← de_uint (2^64);
            if n =? 6 then dret (Beacon v f e q sb (Some (p * 1000))) else dfail
        end
  | _ => dfail
  end.
(** serde_cbor::from_slice: nothing may be left *)
Definition from_slice {A} (d : dec A) (s : bytes) : outcome A :=
  match d s with DOk a [] => Good a | DOk _ _ | DErr => Bad | DPanic => Panics end.

(** ** The receiver (neighbour_discovery.rs:16-71) *)
(** One datagram from [ip] at time [now]; [Panics]: the receiver task is gone.
    The notification of the routing agent is left out. *)
Definition on_datagram (show_f32 : N -> string) (self : eid) (now : N) (ip : string) (d : bytes) (m : peers) : outcome peers :=
  match from_slice de_beacon d with
  | Bad => Good m
  | Panics => Panics
  | Good b =>
      match convert_services show_f32 (bc_block b) with
      | Good sv =>
          match receive_beacon self now ip (BeaconInfo (bc_eid b) ((fun ms => ms / 1000) <$> bc_period b) (sb_clas (bc_block b)) sv) m with
          | Some m' => Good m'
          | None => Panics
          end
      | _ => Panics
      end
  end.

(** ** The announcer (neighbour_discovery.rs:73-146) *)
(** 84-96: the beacon of a round, without its sequence number.  The period is
    announced only if configured. *)
Record announce := Announce { an_eid : eid; an_interval : N; an_period : bool; an_clas : list (string * N); an_services : list (N * string) }.
Fixpoint add_services (parse_f32 : string -> option N) (l : list (N * string)) (b : beacon) : outcome beacon :=
  match l with
  | [] => Good b
  | (t, x) :: l => match add_service parse_f32 t x b with Good b => add_services parse_f32 l b | o => o end
  end.
Definition round_beacon (parse_f32 : string -> option N) (a : announce) : outcome beacon :=
  add_services parse_f32 (an_services a)
    (foldl (fun b c => add_cla (fst c) (Some (snd c)) b)
       (with_config (an_eid a) sb_new (if an_period a then Some (an_interval a) else None)) (an_clas a)).

(** Sequence numbers.  [addr]: SocketAddr with its FromStr and Display. *)
Section announcer.
Context {addr : Type} (parse : string -> option addr) (show : addr -> string).
(** dtnconfig.rs:29 discovery_destinations: BTreeMap<String, u32> *)
Notation dests := (gmap string N).
(** dtnconfig.rs:386-394 update_beacon_sequence_number *)
Definition update_seq (d : string) (m : dests) : dests :=
  match m !! d with
  | Some n => <[d := if n =? 2^32 - 1 then 0 else n + 1]> m
  | None => m
  end.
(** 101-109: a round starts with a copy of the table, keyed by the parsed
    address, in the iteration order [l] of that HashMap *)
Definition snapshot (m : dests) (l : list (addr * N)) : Prop :=
  NoDup l.*1 /\
  (forall a n, (a, n) ∈ l -> exists d, m !! d = Some n /\ parse d = Some a) /\
  (forall d n, m !! d = Some n -> exists a n', parse d = Some a /\ (a, n') ∈ l).
(** The tasks (one per address family) and what is left of their current round;
    the log of attempts to send: task, destination, number, success. *)
Record dstate := DState { ds_conf : dests; ds_todo : list (list (addr * N)); ds_log : list (nat * addr * N * bool) }.
Inductive dstep : dstate -> dstate -> Prop :=
| a_tick conf todo log i l :
    todo !! i = Some [] -> snapshot conf l -> dstep (DState conf todo log) (DState conf (<[i := l]> todo) log)
(** 110-143: one iteration of the loop; updating the table takes the lock, the
    socket may refuse *)
| a_send conf todo log i a n l ok :
    todo !! i = Some ((a, n) :: l) ->
    dstep (DState conf todo log) (DState (update_seq (show a) conf) (<[i := l]> todo) (log ++ [(i, a, n, ok)])).
(** neighbour_discovery.rs:148-: all counters start at 0 (dtnconfig.rs:343-372);
    [k] announcers *)
Definition dstart (ds : list string) (k : nat) : dstate :=
  DState (list_to_map (map (fun d => (d, 0)) ds)) (replicate k []) [].
End announcer.
