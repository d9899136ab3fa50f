(** A node with its applications: the pipeline of Pipeline.v, whose deliveries are
    those of Apps.v. *)
From stdpp Require Import prelude strings pretty gmap sorting.
From Coq Require Import NArith.
From Verif Require Import Core StoreMem Peers Routing Apps Pipeline.
Open Scope N_scope.

(** what the task learns of a delivery (application_agent.rs:39-56,
    core/processing.rs:502-506) *)
Definition told (f : fate) : handed :=
  match f with Apps.NoEndpoint => NoEndpoint | Apps.Queued => Queued | Passed _ => Handed end.
Definition is_delivery (v : ev) : bool := match v with EDeliver _ _ => true | _ => false end.
Definition no_delivery (e : event) : Prop := match e with EStep _ (LAct (Deliver _ _) _) => False | _ => True end.
(** [ajoint es tr]: in the run [tr] of the pipeline the application side went
    through [es].  A delivery of a task is one of the application side
    (core/processing.rs:502-506); everything else goes on independently.  As in
    Apps.v the endpoint is that of the bundle.  That the other answers about
    endpoints agree too is not required here: what is proved holds without it. *)
Inductive ajoint : list ev -> list event -> Prop :=
| aj_nil : ajoint [] []
| aj_deliver es tr i b f : ajoint es tr ->
    ajoint (es ++ [EDeliver b f]) (tr ++ [EStep i (LAct (Deliver (b_dst b) b) (told f))])
| aj_app es tr v : ajoint es tr -> is_delivery v = false -> ajoint (es ++ [v]) tr
| aj_aside es tr e : ajoint es tr -> no_delivery e -> ajoint es (tr ++ [e]).
