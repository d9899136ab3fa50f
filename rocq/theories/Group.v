(** Group endpoints, as the properties speak of them. *)
From stdpp Require Import prelude strings.
From Verif Require Import Core.

(** an endpoint of several nodes: its service begins with a tilde (RFC 9171, 4.2.5.1.1) *)
Definition group (e : eid) : Prop := exists node service, e = Dtn node ("~" +:+ service).
Lemma group_spec e : eid_non_singleton e = true <-> group e.
Proof.
  split.
  - destruct e as [|n [|c s]|]; try done. cbn. intros H%bool_decide_eq_true. subst c. by exists n, s.
  - intros (n & s & ->). done.
Qed.
Lemma not_group e : eid_non_singleton e = false <-> ~ group e.
Proof. rewrite <- group_spec. by destruct (eid_non_singleton e). Qed.
