(** Digests (core/helpers.rs:178-195) and the pulling convergence layer
    (cla/httppull.rs). *)
From stdpp Require Import prelude strings pretty gmap sorting.
From Coq Require Import NArith Lia.
From Verif Require Import Core StoreMem Peers Apps Httpd.
Open Scope N_scope.

Fixpoint str_concat (l : list string) : string := match l with [] => "" | s :: l => s +:+ str_concat l end.
Section pull.
(** SHA-1 of a text, in hex; Bundle::try_from *)
Context (sha1 : string -> string) (dec_bundle : list N -> option bundle).
(** helpers.rs:189-195; update after update is the hash of the concatenation *)
Definition digest (ids : list string) : string := sha1 (str_concat ids).
(** helpers.rs:178-187 *)
Definition complete_digest (s : mem) : string := digest (digest_ids s).

(** What the neighbour answers: its digest, its list of bundle ids ([Some None]:
    not JSON, the unwrap panics), the bytes of a download.  [None]: no answer. *)
Record neighbour := Neighbour { nb_digest : option string; nb_list : option (option (list string)); nb_get : string -> option (list N) }.
Inductive verdict := PSuccess | PFailure | PPanic.
(** The requests for downloads made, in order, the bundles given to receive, and
    the bundles counted as broken *)
Record pulled := Pulled { pl_verdict : verdict; pl_asked : list string; pl_got : list bundle; pl_broken : N }.
(** httppull.rs:75-105 *)
Fixpoint fetch (get : string -> option (list N)) (ids : list string) : pulled :=
  match ids with
  | [] => Pulled PSuccess [] [] 0
  | id :: ids =>
      match get id with
      | None => Pulled PFailure [id] [] 0
      | Some x =>
          let r := fetch get ids in
          match dec_bundle x with
          | Some b => Pulled (pl_verdict r) (id :: pl_asked r) (b :: pl_got r) (pl_broken r)
          | None => Pulled (pl_verdict r) (id :: pl_asked r) (pl_got r) (pl_broken r + 1)
          end
      end
  end.
(** httppull.rs:24-116.  [has]: store_has_item at the time the list arrives (all
    ids are checked before the first download).  The text of an answer is
    assumed to be readable; each bundle is received in a task of its own. *)
Definition pull (has : string -> bool) (local : string) (nb : neighbour) : pulled :=
  match nb_digest nb with
  | None => Pulled PFailure [] [] 0
  | Some dg =>
      if bool_decide (dg = local) || negb (Nat.eqb (String.length dg) 40) then Pulled PSuccess [] [] 0
      else
        match nb_list nb with
        | None => Pulled PFailure [] [] 0
        | Some None => Pulled PPanic [] [] 0
        | Some (Some ids) => fetch (nb_get nb) (filter (fun id => has id = false) ids)
        end
  end.
(** A neighbour that runs the HTTP interface of Httpd.v with store [s]: what the
    three requests return ([enc]: to_cbor; a bundle that is not found is
    answered with a text). *)
Definition dtnd_neighbour (enc : bundle -> list N) (not_found : list N) (s : mem) : neighbour :=
  Neighbour (Some (complete_digest s)) (Some (Some (known_bundles s)))
    (fun id => Some (match mem_get id s with Some b => enc b | None => not_found end)).
End pull.
