(** A node with external routing: the pipeline of Pipeline.v, whose queries are
    the calls of External.v. *)
From stdpp Require Import prelude strings pretty gmap sorting.
From Coq Require Import NArith.
From Verif Require Import Core StoreMem Peers Routing External Pipeline.
Open Scope N_scope.

(** the queries made so far, in order *)
Definition asked (es : list xev) : list pack := omap (fun e => match e with XAsk p _ => Some p | _ => None end) es.
(** the event is not the answer to a query *)
Definition no_answer (e : event) : Prop := match e with EStep _ (LAct (Route _) _) => False | _ => True end.
(** [xjoint es tr ns]: in the run [tr] the router's side went through [es], and
    the queries of the tasks are the calls [ns].  A task that forwards a bundle
    sends a query to the agent and waits for the answer (core/processing.rs:313,
    lib.rs:262-279); the agent makes a call of sender_for_bundle for each query,
    in a task of its own, and passes on what it returns (routing/external.rs:
    23-29).  The access [Route] happens when the answer is there, so other
    queries may be made and answered in between.  The agent does not end while
    the node runs, so there is always an answer.  Notifications are only passed
    to the router (external.rs:37-39), which may do anything. *)
Inductive xjoint : list xev -> list event -> list nat -> Prop :=
| xj_nil : xjoint [] [] []
| xj_router es tr ns e : xjoint es tr ns -> xjoint (es ++ [e]) tr ns
| xj_answer es tr ns i n p q a : xjoint es tr ns -> n ∉ ns -> asked es !! n = Some p ->
    x_req (xrun es) !! n = Some q -> rq_st q = Done a ->
    xjoint es (tr ++ [EStep i (LAct (Route p) (Some a))]) (ns ++ [n])
| xj_aside es tr ns e : xjoint es tr ns -> no_answer e -> xjoint es (tr ++ [e]) ns.
