(** C150: what the store says about a bundle when it is passed on. *)
From stdpp Require Import prelude strings pretty gmap sorting.
From Coq Require Import NArith Lia.
From Verif Require Import Core StoreMem Peers Routing RoutingProofs Pipeline PipelineBase PipelineProofs PipelineInv PipelineRun TransferProofs Props_Transfer CauseProofs Props_Cause NodeRouting NodeRoutingProofs NodeHops.
Open Scope N_scope.

(** ** Specification *)
(** the store says of the bundle that it waits to be passed on, and no longer that
    it has to be dispatched *)
Definition says_waiting (m : machine) (id : string) : Prop :=
  exists p, mem_meta_of id (n_store (m_node m)) = Some p /\
    has_constraint p ForwardPending = true /\ has_constraint p DispatchPending = false.

(** ** Proofs *)
Definition I_saved (h : list label) (l : label) : Prop :=
  match l with
  | LAct (Route p) _ => exists h0, h = h0 ++ [LAct (SUpdate p) true] /\
      has_constraint p ForwardPending = true /\ has_constraint p DispatchPending = false
  | _ => True
  end.
Lemma house_saved h l : house l -> I_saved h l.
Proof. by destruct l as [[]| |]. Qed.
Lemma sub_saved id b nodes h l : sub id b nodes l -> I_saved h l.
Proof. by destruct l as [[]| |]. Qed.

Section props.
Context (host : eid) (gen_reports parallel : bool) (parse_record : list N -> option arecord)
        (lifetime_exceeded : N -> bundle -> bool).
Notation forward := (forward host gen_reports parse_record).
Notation forward_copy := (forward_copy host gen_reports parse_record).
Notation task_of := (task_of host gen_reports parallel parse_record).
Notation run := (run host gen_reports parallel parse_record lifetime_exceeded).
Notation mstep := (mstep host gen_reports parallel parse_record lifetime_exceeded).

Lemma copy_saved h p nodes del b : safe I_saved (fun _ _ => True) h (forward_copy p nodes del b).
Proof.
  unfold Pipeline.forward_copy, handle_lifetime. apply safe_bind, safe_bind, safe_call. intros over. split; [done|].
  destruct over.
  { apply safe_bind. eapply (safe_emits house); [apply delete_fresh_house|intros; by apply house_saved|done]. }
  cbn [gsafe]. apply safe_bind, hop_safe; [intros; by apply house_saved|done|]. intros b1 Hb1.
  apply safe_bind, prev_safe. intros b2 Hb2.
  apply safe_bind, age_safe; [intros; by apply house_saved|done|]. intros la b3 Hb3.
  intros hs cs' Hcs. destruct (csteps_emits _ _ _ _ Hcs (send_all_sub (p_id p) b3 nodes)) as [H1 _]. split.
  - intros ha l hb ->. apply Forall_app in H1 as [Ha H1]. apply Forall_cons in H1 as [Hl _]. by eapply sub_saved.
  - intros bs _. split; [done|]. eapply (safe_emits house); [apply after_house|intros; by apply house_saved|done].
Qed.
Lemma forward_saved (h : list label) p : safe I_saved (fun _ _ => True) h (forward p).
Proof.
  unfold Pipeline.forward. rewrite sync_forwarding. sx; try done.
  - subst. eexists. split; [reflexivity|]. destruct p as [? ? ? ? ? ? ? []]; done.
  - apply copy_saved.
Qed.
Lemma all_saved k : safe I_saved (fun _ _ => True) [] (task_of k).
Proof.
  assert (Hfront : forall h l, front l -> I_saved h l) by (by intros h [[]| |]).
  destruct k; cbn [Pipeline.task_of].
  - apply safe_bind. eapply (safe_emits front); [apply receive_front|auto|done].
  - apply safe_bind. eapply (safe_emits front); [apply submit_front|auto|done].
  - apply safe_bind. eapply safe_mono; [done| |apply forward_saved]. done.
  - apply janitor_safe; try done; [intros; by apply house_saved|]. intros. apply forward_saved.
  - unfold app_pop, remove_if_singleton. sx; done.
  - unfold user_delete. sx; done.
Qed.

(** ** C150 *)
(** The last thing a task does before it asks the routing agent about a bundle is
    to record in the store that the bundle waits to be passed on. *)
Theorem C150_recorded_before_asking : forall t1 i p a t2 m,
  run (t1 ++ EStep i (LAct (Route p) a) :: t2) m ->
  exists ta tb m1, t1 = ta ++ EStep i (LAct (SUpdate p) true) :: tb /\ did i tb = [] /\
    run (ta ++ [EStep i (LAct (SUpdate p) true)]) m1 /\ says_waiting m1 (p_id p).
Proof.
  intros t1 i p a t2 m Hr. destruct (run_safe _ _ _ _ _ (fun _ => I_saved) _ _ _ _ _ all_saved Hr) as (k & Hk & h0 & Hd & Hf & Hn).
  destruct (did_split _ _ _ _ _ Hd) as (ta & tb & -> & _ & Htb).
  assert (Hr' : run ((ta ++ [EStep i (LAct (SUpdate p) true)]) ++ tb ++ EStep i (LAct (Route p) a) :: t2) m).
  { rewrite <- !app_assoc in Hr |- *. exact Hr. }
  destruct (run_app_inv _ _ _ _ _ _ _ _ Hr') as [m1 Hr1].
  exists ta, tb, m1. split; [done|]. split; [done|]. split; [done|].
  inversion Hr1 as [m0 Hi E|tr' m0 e0 m2 Hr0 Hs E]; subst; [by destruct ta|]. apply app_inj_tail in E as [-> ->].
  inversion Hs as [| | | | | |mz i' k' q o r p' n' Hi Hp Hx| |]; subst.
  repeat match goal with H : existT _ _ = existT _ _ |- _ => apply (Eqdep_dec.inj_pair2_eq_dec _ (fun x y => decide (x = y))) in H end. subst.
  cbn in Hx. destruct Hx as [[E ->]|[? _]]; [|done]. unfold says_waiting, mem_meta_of, mem_update in *. cbn.
  destruct (m_meta (n_store (m_node m0)) !! p_id p) eqn:Em; [|done]. cbn. exists p. split; [by rewrite lookup_insert|done].
Qed.
(** No copy of a bundle leaves the node before that. *)
Theorem C150_recorded_before_sending : forall t1 i s b r t2 m,
  run (t1 ++ EStep i (LAct (Transfer s b) r) :: t2) m ->
  exists ta p tb m1, t1 = ta ++ EStep i (LAct (SUpdate p) true) :: tb /\ p_id p = bid b /\
    run (ta ++ [EStep i (LAct (SUpdate p) true)]) m1 /\ says_waiting m1 (bid b).
Proof.
  intros t1 i s b r t2 m Hr. destruct (tried_named _ _ _ _ _ _ _ _ _ _ _ _ Hr) as (ta & p & nodes & del & tb & -> & _ & _ & Hp).
  rewrite <- app_assoc in Hr. destruct (C150_recorded_before_asking _ _ _ _ _ _ Hr) as (tc & td & m1 & -> & _ & H1 & H2).
  exists tc, p, (td ++ EStep i (LAct (Route p) (Some (nodes, del))) :: tb), m1. rewrite <- Hp. split; [by rewrite <- app_assoc|]. done.
Qed.
End props.
Print Assumptions C150_recorded_before_asking.
Print Assumptions C150_recorded_before_sending.

(** a received bundle for another node is passed on and stays; the store says it waits *)
Definition run150 := go false (fun _ => None) (fate (Some ([hop2], false)) true) [DoStart (KReceive transit); DoRun 0; DoRun 1] (start_node [] 2000000 1000000).
Definition sends (e : event) : bool := match e with EStep 1 (LAct (Transfer _ _) true) => true | _ => false end.
Definition asks_agent (e : event) : bool := match e with EStep 1 (LAct (Route _) _) => true | _ => false end.
Example C150_case : run node1 false false (fun _ => None) (fun _ _ => false) (fst run150) (snd run150) /\
  existsb sends (fst run150) = true /\ existsb asks_agent (fst run150) = true /\ says_waiting (snd run150) (bid transit).
Proof.
  split; [apply go_ok|]. split; [by vm_compute|]. split; [by vm_compute|]. eexists. split; [vm_compute; reflexivity|]. done.
Qed.
