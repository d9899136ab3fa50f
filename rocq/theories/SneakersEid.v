(** The sneakers store: the addresses in the metadata (core/store/sneakers.rs). *)
From Verif Require Import Core Config.
From stdpp Require Import prelude strings pretty gmap.
From Coq Require Import NArith Lia.
Open Scope N_scope.

(** sneakers.rs:18-39 eid_from_strings; [pe]: EndpointID::try_from a text *)
Definition eid_from_strings (pe : string -> option eid) (name service : option string) : option eid :=
  let number := fun s => bool_decide (is_Some (parse_uint (2^64) s)) in
  let scheme :=
    if number (default "" name) && match service with None => true | Some s => number s end then "ipn:" else "dtn:" in
  pe (scheme +:+ default "" name +:+ "." +:+ default "" service).
(** sneakers.rs:120-126, the same for source and destination: the address in the
    metadata for the two columns of the data base, dtn:none if it cannot be read *)
Definition address (pe : string -> option eid) (cols : option string * option string) : eid :=
  default DtnNone (eid_from_strings pe (fst cols) (snd cols)).
