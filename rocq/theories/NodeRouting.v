(** A node together with its routing agent.  In Pipeline.v the agent answers
    arbitrarily; here its answers are those of an agent of Routing.v. *)
From stdpp Require Import prelude strings pretty gmap sorting.
From Coq Require Import NArith Lia.
From Verif Require Import Core StoreMem Peers Routing Pipeline.
Open Scope N_scope.

(** What the agent is told by other parts of the node: a neighbour was found
    (ipnd/neighbour_discovery.rs:63) or dropped (core/mod.rs:137), the user sent
    a command (lib.rs:233-239).  Queries, arrivals and the outcome of transfers
    come from the tasks of the pipeline only (processing.rs:188, 372, 413 and
    lib.rs:262-279). *)
Definition elsewhere (c : rcmd) : Prop :=
  match c with
  | RNotify (Encountered _) | RNotify (Dropped _) | RCommand _ _ => True
  | _ => False
  end.
(** the event does not concern the agent *)
Definition aside (e : event) : Prop :=
  match e with EStep _ (LAct (Notify _) _) | EStep _ (LAct (Route _) _) => False | _ => True end.
(** [joint l tr]: in the run [tr] the agent went through [l].  The tasks put
    their commands into one channel and the agent takes them out in that order
    (lib.rs:254-279); an access happens when its command is put there.  The
    peer table and the convergence layers a query works with are read by the
    agent itself later, so they are left open, as are the commands from
    elsewhere. *)
Inductive joint : list (rcmd * option answer) -> list event -> Prop :=
| j_nil : joint [] []
| j_notify l tr i n a r : joint l tr ->
    joint (l ++ [(RNotify n, a)]) (tr ++ [EStep i (LAct (Notify n) r)])
| j_route l tr i p ps clas a : joint l tr ->
    joint (l ++ [(RSender p ps clas, a)]) (tr ++ [EStep i (LAct (Route p) a)])
| j_else l tr c a : joint l tr -> elsewhere c -> joint (l ++ [(c, a)]) tr
| j_aside l tr e : joint l tr -> aside e -> joint l (tr ++ [e]).
