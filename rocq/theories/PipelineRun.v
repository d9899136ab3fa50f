(** An interpreter that produces runs of the pipeline from a script; used to
    exhibit concrete runs. *)
From stdpp Require Import prelude strings pretty gmap sorting.
From Coq Require Import NArith Lia.
From Verif Require Import Core StoreMem Peers Routing Pipeline PipelineBase.
Open Scope N_scope.

(** the answers of the parts that are left open *)
Record oracle := Oracle {
  or_route : pack -> option answer;
  or_ok : sender -> bool;
  or_accept : bool;
  or_seq : N;
  or_record : list N
}.
Inductive instr :=
| DoStart (k : kind)
| DoEnv (e : event)
| DoRun (i : nat)              (* run task i to its end *)
| DoSteps (i : nat) (n : nat). (* n accesses of task i *)

Section interp.
Context (host : eid) (gen_reports parallel : bool) (parse_record : list N -> option arecord)
        (lifetime_exceeded : N -> bundle -> bool) (orc : oracle).
Notation task_of := (task_of host gen_reports parallel parse_record).
Notation mstep := (mstep host gen_reports parallel parse_record lifetime_exceeded).
Notation run := (run host gen_reports parallel parse_record lifetime_exceeded).
Notation access := (access host lifetime_exceeded).

Definition reply (n : node) (o : act) : resp o * node :=
  match o return resp o * node with
  | SPush b => (true, set_store n (mem_push (n_time n) b (n_store n)))
  | SAdd b => let x := mem_add_if_unknown (n_time n) b (n_store n) in (snd x, set_store n (fst x))
  | SRemove id => let x := mem_remove id (n_store n) in (snd x, set_store n (fst x))
  | SUpdate p => let x := mem_update p (n_store n) in (snd x, set_store n (fst x))
  | SHas id => (mem_has id (n_store n), n)
  | SGet id => (mem_get id (n_store n), n)
  | SMeta id => (mem_meta_of id (n_store n), n)
  | SPacks => (mem_packs (n_store n), n)
  | SForwarding => (mem_forwarding (n_store n), n)
  | Clock => (n_time n, n)
  | DtnClock => (n_dtn n, n)
  | LifetimeOver b => (lifetime_exceeded (n_dtn n) b, n)
  | HasEndpoint e => (has_endpoint e n, n)
  | Deliver e b =>
      match find_ep e n with
      | None => (NoEndpoint, n)
      | Some x => if ep_sub x then (Handed, n) else (Queued, set_eps n (alter_ep e (enqueue b) (n_eps n)))
      end
  | Pop e =>
      match find_ep e n with
      | None => (None, n)
      | Some x => (head (ep_queue x), set_eps n (alter_ep e dequeue (n_eps n)))
      end
  | Accepting => (or_accept orc, n)
  | Notify _ => (tt, n)
  | Route p => (or_route orc p, n)
  | Transfer s _ => (or_ok orc s, n)
  | Count c => (tt, count c n)
  | PeerFail nm =>
      match n_peers n !! nm with
      | None => (None, n)
      | Some pe =>
          (if failed_too_much (report_fail pe) && negb (pe_static pe) then Some (node_name pe) else None,
           set_peers n (<[nm := report_fail pe]> (n_peers n)))
      end
  | PeerRemove nm => (tt, set_peers n (peers_remove nm (n_peers n)))
  | NewReport b st rs =>
      (if bool_decide (b_rpt b = DtnNone) then None
       else Some (Bundle report_flags (b_rpt b) host host (n_dtn n) (or_seq orc) 3600000 0 0
                         [Block PAYLOAD_BLOCK 1 no_kflags (CData (or_record orc))]), n)
  end.
Lemma reply_access n o : access n o (fst (reply n o)) (snd (reply n o)).
Proof.
  destruct o; cbn; try done; try (by left).
  - destruct (find_ep e n) as [x|] eqn:E; [|done]. destruct (ep_sub x) eqn:Es; [by right|by left].
  - by destruct (find_ep e n).
  - by destruct (n_peers n !! n0).
  - split; [done|]. destruct (bool_decide _) eqn:E; [by apply bool_decide_eq_true in E|].
    repeat split. eauto.
Qed.
(** the first sub-task that is not done *)
Fixpoint first_open (cs : list cprog) (i : nat) : option (nat * {o : act & resp o -> cprog}) :=
  match cs with
  | [] => None
  | CDone _ :: cs => first_open cs (S i)
  | CAct o k :: _ => Some (i, existT o k)
  end.
Lemma first_open_spec cs i :
  match first_open cs i with
  | Some (j, existT o k) => exists j', j = (i + j')%nat /\ cs !! j' = Some (CAct o k)
  | None => is_Some (done_flags cs)
  end.
Proof.
  revert i. induction cs as [|c cs IH]; intros i; cbn; [by eexists|].
  destruct c as [b|o k].
  - specialize (IH (S i)). destruct (first_open cs (S i)) as [[j [o k]]|].
    + destruct IH as (j' & -> & H). exists (S j'). split; [lia|done].
    + unfold done_flags. cbn. destruct IH as [x Hx]. unfold done_flags in Hx. rewrite Hx. by eexists.
  - exists 0%nat. split; [lia|done].
Qed.
(** one access of task [i] *)
Definition step_task (i : nat) (m : machine) : option (event * machine) :=
  match m_tasks m !! i with
  | None => None
  | Some (k, p) =>
      match p with
      | Ret _ | Panic => None
      | Act o c =>
          let x := reply (m_node m) o in
          Some (EStep i (LAct o (fst x)), Machine (snd x) (<[i := (k, c (fst x))]> (m_tasks m)))
      | Spawn q c =>
          Some (EStep i (LSpawn q), Machine (m_node m) (<[i := (k, c)]> (m_tasks m) ++ [(KForward q, task_of (KForward q))]))
      | Par cs c =>
          match first_open cs 0 with
          | Some (j, existT o f) =>
              let x := reply (m_node m) o in
              Some (EStep i (LAct o (fst x)), Machine (snd x) (<[i := (k, Par (<[j := f (fst x)]> cs) c)]> (m_tasks m)))
          | None =>
              match done_flags cs with
              | Some bs => Some (EStep i LJoin, Machine (m_node m) (<[i := (k, c bs)]> (m_tasks m)))
              | None => None
              end
          end
      end
  end.
Lemma step_task_sound i m e m' : step_task i m = Some (e, m') -> mstep m e m'.
Proof.
  unfold step_task. destruct (m_tasks m !! i) as [[k p]|] eqn:E; [|done].
  destruct p as [a| |o c|q c|cs c]; try done.
  - intros [= <- <-]. eapply ms_act; [done|constructor|apply reply_access].
  - intros [= <- <-]. eapply ms_spawn; [done|constructor].
  - pose proof (first_open_spec cs 0) as Hf. destruct (first_open cs 0) as [[j [o f]]|].
    + destruct Hf as (j' & -> & Hj). intros [= <- <-]. eapply ms_act; [done| |apply reply_access].
      eapply pstep_child; [done|constructor].
    + destruct (done_flags cs) as [bs|] eqn:Ed; [|done]. intros [= <- <-]. eapply ms_join; [done|by constructor].
Qed.
Fixpoint steps (fuel : nat) (i : nat) (m : machine) : list event * machine :=
  match fuel with
  | O => ([], m)
  | S fuel =>
      match step_task i m with
      | None => ([], m)
      | Some (e, m') => let x := steps fuel i m' in (e :: fst x, snd x)
      end
  end.
Lemma steps_sound fuel i m tr : run tr m -> run (tr ++ fst (steps fuel i m)) (snd (steps fuel i m)).
Proof.
  revert m tr. induction fuel as [|fuel IH]; intros m tr Hr; cbn; [by rewrite app_nil_r|].
  destruct (step_task i m) as [[e m']|] eqn:E; cbn; [|by rewrite app_nil_r].
  rewrite cons_middle, app_assoc. apply IH. econstructor; [done|by eapply step_task_sound].
Qed.
(** the environment *)
Definition env (e : event) (m : machine) : option machine :=
  match e with
  | ERegister ep => Some (if has_endpoint ep (m_node m) then m
       else with_node m (set_eps (m_node m) (n_eps (m_node m) ++ [Endpoint ep [] false])))
  | EUnregister ep => Some (with_node m (set_eps (m_node m) (remove_ep ep (n_eps (m_node m)))))
  | ESubscribe ep on => Some (with_node m (set_eps (m_node m)
        (alter_ep ep (fun x => Endpoint (ep_eid x) (ep_queue x) on) (n_eps (m_node m)))))
  | EPeers ps => Some (with_node m (set_peers (m_node m) ps))
  | ETime u d => if (n_time (m_node m) <=? u) && (n_dtn (m_node m) <=? d) then
       Some (with_node m (Node (n_store (m_node m)) (n_eps (m_node m)) (n_peers (m_node m))
                         (n_stats (m_node m)) u d)) else None
  | _ => None
  end.
Lemma env_sound e m m' : env e m = Some m' -> mstep m e m'.
Proof.
  destruct e; cbn; try done; try (intros [= <-]; by constructor).
  destruct (_ && _) eqn:E; [|done]. intros [= <-]. apply andb_prop in E as [?%N.leb_le ?%N.leb_le]. by constructor.
Qed.
Definition exec1 (x : instr) (m : machine) : list event * machine :=
  match x with
  | DoStart k => if started k then ([EStart k], Machine (m_node m) (m_tasks m ++ [(k, task_of k)])) else ([], m)
  | DoEnv e => match env e m with Some m' => ([e], m') | None => ([], m) end
  | DoRun i => steps 200 i m
  | DoSteps i n => steps n i m
  end.
Fixpoint script (l : list instr) (m : machine) : list event * machine :=
  match l with
  | [] => ([], m)
  | x :: l => let y := exec1 x m in let z := script l (snd y) in (fst y ++ fst z, snd z)
  end.
Lemma exec1_sound x m tr : run tr m -> run (tr ++ fst (exec1 x m)) (snd (exec1 x m)).
Proof.
  intros Hr. destruct x as [k|e|i|i n]; cbn [exec1].
  - destruct (started k) eqn:E; cbn; [|by rewrite app_nil_r]. econstructor; [done|by constructor].
  - destruct (env e m) eqn:E; cbn; [|by rewrite app_nil_r]. econstructor; [done|by apply env_sound].
  - by apply steps_sound.
  - by apply steps_sound.
Qed.
Lemma script_sound l m tr : run tr m -> run (tr ++ fst (script l m)) (snd (script l m)).
Proof.
  revert m tr. induction l as [|x l IH]; intros m tr Hr; cbn; [by rewrite app_nil_r|].
  rewrite app_assoc. apply IH. by apply exec1_sound.
Qed.
Lemma script_run l m : initial m -> run (fst (script l m)) (snd (script l m)).
Proof. intros Hi. apply (script_sound l m []). by constructor. Qed.
End interp.

(** a node to start from *)
Definition start_node (eps : list eid) (unix dtn : N) : machine :=
  Machine (Node mem0 (map (fun e => Endpoint e [] false) eps) ∅ (fun _ => 0) unix dtn) [].
Lemma start_initial eps u d : initial (start_node eps u d).
Proof.
  split; [done|]. split; [done|]. split; [done|]. cbn. intros x Hx.
  apply elem_of_list_fmap in Hx as (e & -> & _). done.
Qed.
(** looking for an event *)
Fixpoint find_ev (f : event -> bool) (tr : list event) : option event :=
  match tr with
  | [] => None
  | e :: tr => if f e then Some e else find_ev f tr
  end.
Lemma find_ev_split f tr e : find_ev f tr = Some e -> exists t1 t2, tr = t1 ++ e :: t2.
Proof.
  induction tr as [|x tr IH]; cbn; [done|]. destruct (f x); [intros [= ->]; by exists [], tr|].
  intros H. destruct (IH H) as (t1 & t2 & ->). by exists (x :: t1), t2.
Qed.
Definition is_transfer (e : event) : bool := match e with EStep _ (LAct (Transfer _ _) _) => true | _ => false end.
