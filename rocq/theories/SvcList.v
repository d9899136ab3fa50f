(** The services a node announces: where they come from and when announcing
    ends. *)
From stdpp Require Import prelude strings pretty gmap.
From Coq Require Import NArith Lia.
From Verif Require Import Core Beacon Config.
Open Scope N_scope.

(** The messages of an external routing program as far as services go
    (routing/erouting/mod.rs:47-50, 157-162); texts that are no packet and all other
    packets leave the services alone ([MOther]). *)
Inductive er_msg := MServiceAdd (tag : N) (text : string) | MOther.
(** erouting/processing.rs:107-116 with lib.rs:93-95 service_add *)
Definition on_message (m : er_msg) (l : gmap N string) : gmap N string :=
  match m with
  | MServiceAdd tag text => <[tag := text]> l
  | MOther => l
  end.

(** core/mod.rs:56 service_list; whether the announcer still runs (one of
    the tasks of neighbour_discovery.rs:148-; a panic ends the task, the lock of
    parking_lot is released); the beacons it built. *)
Record svc := Svc { s_list : gmap N string; s_alive : bool; s_sent : list beacon }.
(** core/mod.rs:67-75 new: the list is empty, and dtnd/daemon.rs:66-166
    start_dtnd puts nothing into it: dtnconfig.rs:312 stores the configured
    services in CONFIG, where nobody reads them. *)
Definition svc_start (c : conf) : svc := Svc ∅ true [].

(** neighbour_discovery.rs:79-98: what goes into a beacon; [clas] are the
    layers that run, [ord] is the order in which the HashMap is gone through.
    c_interval is in nanoseconds, an_interval in milliseconds. *)
Definition announce_of (c : conf) (clas : list (string * N)) (ord : list (N * string)) : announce :=
  Announce (c_host c) (c_interval c / 1000000) (c_period c) clas ord.

Inductive sev := EMsg (m : er_msg) | ETick (clas : list (string * N)).
(** A message handled, or a round of the announcer (neighbour_discovery.rs:74-143).
    Simplified: sending is Beacon.dstep, here the beacon built is recorded. *)
Inductive sstep (parse_f32 : string -> option N) (c : conf) : svc -> sev -> svc -> Prop :=
| s_message m l alive sent : sstep parse_f32 c (Svc l alive sent) (EMsg m) (Svc (on_message m l) alive sent)
| s_round clas ord b l sent :
    ord ≡ₚ map_to_list l -> round_beacon parse_f32 (announce_of c clas ord) = Good b ->
    sstep parse_f32 c (Svc l true sent) (ETick clas) (Svc l true (sent ++ [b]))
| s_panic clas ord l sent :
    ord ≡ₚ map_to_list l -> (forall b, round_beacon parse_f32 (announce_of c clas ord) <> Good b) ->
    sstep parse_f32 c (Svc l true sent) (ETick clas) (Svc l false sent)
| s_over clas l sent : sstep parse_f32 c (Svc l false sent) (ETick clas) (Svc l false sent).
(** a history, oldest event first *)
Inductive srun (parse_f32 : string -> option N) (c : conf) : list sev -> svc -> Prop :=
| r_start : srun parse_f32 c [] (svc_start c)
| r_step h s e s' : srun parse_f32 c h s -> sstep parse_f32 c s e s' -> srun parse_f32 c (h ++ [e]) s'.
