(** Several nodes.  Each node is the pipeline of Pipeline.v.  What a node gave
    to a convergence layer (core/processing.rs:345-359) may arrive at any node
    as a reception (cla/mtcp.rs:322-328, cla/tcp/mod.rs:225-232,
    cla/udp.rs:25-35, cla/ecla/processing.rs:191-199, dtnd/httpd.rs:510-545: the
    decoded bundle is passed to [receive]); a node that uses the httppull
    convergence layer receives copies out of the store of another node
    (cla/httppull.rs:66-104, dtnd/httpd.rs:709-722).

    The connections are those of the world: a bundle that was sent may arrive
    once, several times, late, out of order, at another node than the intended
    one, or never; an attempt reported as failed may still have arrived.
    Nothing arrives that no node of the network sent, and what arrives is what
    was sent (encoding and decoding by the bp7 crate are trusted). *)
From stdpp Require Import prelude strings pretty gmap sorting.
From Coq Require Import NArith Lia.
From Verif Require Import Core StoreMem Peers Routing Pipeline PipelineBase PipelineRun.
Open Scope N_scope.

(** dtnconfig.rs:28-44, the settings of one daemon the pipeline depends on: its
    node id, whether it makes status reports, whether it processes pending
    bundles in parallel *)
Record settings := Settings { s_host : eid; s_reports : bool; s_parallel : bool }.

(** [At i e]: something happens at node [i], anything but the start of a
    reception; [Arrives j i b]: node [i] starts the reception of a bundle that
    node [j] transmitted; [Serves j b]: node [j] answers a download request;
    [Fetched j i b]: node [i] starts the reception of such an answer *)
Inductive netev :=
| At (i : nat) (e : event) | Arrives (j i : nat) (b : bundle)
| Serves (j : nat) (b : bundle) | Fetched (j i : nat) (b : bundle).

(** node [j] gave [b] to a convergence layer *)
Definition gave (tr : list netev) (j : nat) (b : bundle) : Prop :=
  exists t s r, At j (EStep t (LAct (Transfer s b) r)) ∈ tr.
Definition is_receive (e : event) : bool := match e with EStart (KReceive _) => true | _ => false end.
Definition upd (ms : nat -> machine) (i : nat) (m : machine) : nat -> machine :=
  fun k => if decide (k = i) then m else ms k.
(** the events of node [i] *)
Definition at_node (i : nat) (e : netev) : list event :=
  match e with
  | At k e => if decide (k = i) then [e] else []
  | Arrives _ k b | Fetched _ k b => if decide (k = i) then [EStart (KReceive b)] else []
  | Serves _ _ => []
  end.
Definition proj (i : nat) (tr : list netev) : list event := flat_map (at_node i) tr.

Section network.
Context (node_of : nat -> settings) (parse_record : list N -> option arecord)
        (lifetime_exceeded : N -> bundle -> bool).
Notation mstep_at i := (mstep (s_host (node_of i)) (s_reports (node_of i)) (s_parallel (node_of i)) parse_record lifetime_exceeded).

Inductive net_run : list netev -> (nat -> machine) -> Prop :=
| net_init ms : (forall i, initial (ms i)) -> net_run [] ms
| net_at tr ms i e m' : net_run tr ms -> is_receive e = false -> mstep_at i (ms i) e m' ->
    net_run (tr ++ [At i e]) (upd ms i m')
| net_arrives tr ms j i b m' : net_run tr ms -> gave tr j b -> mstep_at i (ms i) (EStart (KReceive b)) m' ->
    net_run (tr ++ [Arrives j i b]) (upd ms i m')
| net_serves tr ms j b : net_run tr ms -> mem_get (bid b) (n_store (m_node (ms j))) = Some b ->
    net_run (tr ++ [Serves j b]) ms
| net_fetched tr ms j i b m' : net_run tr ms -> Serves j b ∈ tr -> mstep_at i (ms i) (EStart (KReceive b)) m' ->
    net_run (tr ++ [Fetched j i b]) (upd ms i m').

(** *** Scripts for concrete runs *)
Context (orc : nat -> oracle).
Inductive ninstr :=
| NStart (i : nat) (k : kind) | NEnv (i : nat) (e : event) (* at node i *)
| NRun (i t : nat)               (* run task t of node i to its end *)
| NSend (j i : nat)              (* what node j transmitted last arrives at i *)
| NPull (j i : nat) (id : string). (* node i downloads bundle id from j *)
Fixpoint last_sent (tr : list netev) (j : nat) : option bundle :=
  match tr with
  | [] => None
  | e :: tr => match last_sent tr j with
               | Some b => Some b
               | None => match e with
                         | At k (EStep _ (LAct (Transfer _ b) _)) => if decide (k = j) then Some b else None
                         | _ => None
                         end
               end
  end.
Lemma last_sent_gave tr j b : last_sent tr j = Some b -> gave tr j b.
Proof.
  unfold gave. induction tr as [|e tr IH]; cbn [last_sent]; [done|].
  destruct (last_sent tr j) as [b'|].
  - intros H. destruct (IH H) as (t & s & r & Hin). exists t, s, r. by right.
  - intros H. destruct e as [k [| | | | | |t [[]| |]]| | |]; try done. destruct (decide (k = j)) as [->|]; [|done].
    injection H as ->. exists t, s, r. by left.
Qed.
Definition launch (i : nat) (k : kind) (m : machine) : machine :=
  Machine (m_node m) (m_tasks m ++ [(k, task_of (s_host (node_of i)) (s_reports (node_of i)) (s_parallel (node_of i)) parse_record k)]).
Fixpoint nsteps (fuel : nat) (i t : nat) (tr : list netev) (ms : nat -> machine) : list netev * (nat -> machine) :=
  match fuel with
  | O => (tr, ms)
  | S fuel =>
      match step_task (s_host (node_of i)) (s_reports (node_of i)) (s_parallel (node_of i)) parse_record lifetime_exceeded (orc i) t (ms i) with
      | Some (e, m') => if is_receive e then (tr, ms) else nsteps fuel i t (tr ++ [At i e]) (upd ms i m')
      | None => (tr, ms)
      end
  end.
Definition nexec (x : ninstr) (tr : list netev) (ms : nat -> machine) : list netev * (nat -> machine) :=
  match x with
  | NStart i k =>
      if started k && negb (is_receive (EStart k)) then (tr ++ [At i (EStart k)], upd ms i (launch i k (ms i))) else (tr, ms)
  | NEnv i e =>
      match env e (ms i) with
      | Some m' => if is_receive e then (tr, ms) else (tr ++ [At i e], upd ms i m')
      | None => (tr, ms)
      end
  | NRun i t => nsteps 200 i t tr ms
  | NSend j i =>
      match last_sent tr j with
      | Some b => (tr ++ [Arrives j i b], upd ms i (launch i (KReceive b) (ms i)))
      | None => (tr, ms)
      end
  | NPull j i id =>
      match mem_get id (n_store (m_node (ms j))) with
      | Some b => if decide (bid b = id) then ((tr ++ [Serves j b]) ++ [Fetched j i b], upd ms i (launch i (KReceive b) (ms i))) else (tr, ms)
      | None => (tr, ms)
      end
  end.
Fixpoint nscript (l : list ninstr) (tr : list netev) (ms : nat -> machine) : list netev * (nat -> machine) :=
  match l with
  | [] => (tr, ms)
  | x :: l => let y := nexec x tr ms in nscript l (fst y) (snd y)
  end.
Lemma nsteps_sound fuel i t tr ms : net_run tr ms -> net_run (fst (nsteps fuel i t tr ms)) (snd (nsteps fuel i t tr ms)).
Proof.
  revert tr ms. induction fuel as [|fuel IH]; intros tr ms H; cbn [nsteps]; [done|].
  destruct (step_task _ _ _ _ _ _ _ _) as [[e m']|] eqn:E; [|done]. destruct (is_receive e) eqn:Er; [done|].
  apply IH. eapply net_at; [done|done|]. by eapply step_task_sound.
Qed.
Lemma nexec_sound x tr ms : net_run tr ms -> net_run (fst (nexec x tr ms)) (snd (nexec x tr ms)).
Proof.
  intros H. destruct x as [i k|i e|i t|j i|j i id]; cbn [nexec].
  - destruct (started k) eqn:E; [|done]. destruct (is_receive _) eqn:Er; [done|]. cbn [andb negb fst snd].
    eapply net_at; [done|done|]. by constructor.
  - destruct (env e (ms i)) as [m'|] eqn:E; [|done]. destruct (is_receive e) eqn:Er; [done|]. eapply net_at; [done|done|]. by apply env_sound.
  - by apply nsteps_sound.
  - destruct (last_sent tr j) as [b|] eqn:E; [|done]. eapply net_arrives; [done|by apply last_sent_gave|by constructor].
  - destruct (mem_get id _) as [b|] eqn:E; [|done]. destruct (decide (bid b = id)) as [<-|]; [|done].
    eapply net_fetched; [by apply net_serves|by apply elem_of_app; right; left|by constructor].
Qed.
Lemma nscript_run l tr ms : net_run tr ms -> net_run (fst (nscript l tr ms)) (snd (nscript l tr ms)).
Proof. revert tr ms. induction l as [|x l IH]; intros tr ms H; cbn [nscript]; [done|]. by apply IH, nexec_sound. Qed.
End network.
