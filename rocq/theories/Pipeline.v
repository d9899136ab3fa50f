(** The bundle processing pipeline (core/processing.rs, core/mod.rs,
    core/application_agent.rs, the store helpers of lib.rs) as tasks that run
    concurrently on a shared node state.

    A task is a program tree.  Its nodes are the accesses to shared state, one
    per lock acquisition or message exchange in the code; everything between
    two accesses is a pure computation.  Tasks are interleaved arbitrarily at
    these accesses. *)
From stdpp Require Import prelude strings pretty gmap sorting.
From Coq Require Import NArith Lia.
From Verif Require Import Core StoreMem Peers Routing.
Open Scope N_scope.

(** ** Accesses to shared state *)
(** bp7 administrative_record.rs: StatusInformationPos and StatusReportReason codes *)
Definition RECEIVED_BUNDLE : nat := 0.
Definition FORWARDED_BUNDLE : nat := 1.
Definition DELIVERED_BUNDLE : nat := 2.
Definition DELETED_BUNDLE : nat := 3.
Definition MAX_STATUS_INFORMATION_POS : nat := 4.
Definition NO_INFORMATION : N := 0.
Definition LIFETIME_EXPIRED : N := 1.
Definition BLOCK_UNINTELLIGIBLE : N := 8.
Definition HOP_LIMIT_EXCEEDED : N := 9.

(** core/mod.rs:36-43 DtnStatistics *)
Inductive counter := Incoming | Dups | Outgoing | Delivered | Failed | Broken.
Global Instance counter_eq_dec : EqDecision counter.
Proof. solve_decision. Defined.

(** application_agent.rs:39-56: outcome of looking the endpoint up and pushing *)
Inductive handed := NoEndpoint | Queued | Handed.
Global Instance handed_eq_dec : EqDecision handed.
Proof. solve_decision. Defined.

Inductive act :=
| SPush (b : bundle)              (* store_push_bundle, lib.rs:170-173 *)
| SAdd (b : bundle)               (* store_add_bundle_if_unknown, lib.rs:174-182 *)
| SRemove (id : string)           (* store_remove, lib.rs:184-191 *)
| SUpdate (p : pack)              (* store_update_metadata, lib.rs:203-205 *)
| SHas (id : string)              (* store_has_item, lib.rs:207-209 *)
| SGet (id : string)              (* store_get_bundle, lib.rs:211-213 *)
| SMeta (id : string)             (* store_get_metadata, lib.rs:214-216 *)
| SPacks                          (* STORE.lock().bundles(), lib.rs:220 *)
| SForwarding                     (* STORE.lock().forwarding(), core/mod.rs:156 *)
| Clock                           (* SystemTime::now() in ms *)
| DtnClock                        (* bp7::dtn_time_now(), bundlepack.rs:134 *)
| LifetimeOver (b : bundle)       (* primary.is_lifetime_exceeded(), processing.rs:231 *)
| HasEndpoint (e : eid)           (* DTNCORE is_in_endpoints / get_endpoint_mut, core/mod.rs:103-113 *)
| Deliver (e : eid) (b : bundle)  (* DTNCORE get_endpoint_mut, aa.push, processing.rs:502-505 *)
| Pop (e : eid)                   (* DTNCORE get_endpoint_mut, aa.pop *)
| Accepting                       (* any CLA accepting, core/mod.rs:149 *)
| Notify (n : notif)              (* routing_notify, lib.rs:254-260 *)
| Route (p : pack)                (* routing_sender_for_bundle, lib.rs:262-279 *)
| Transfer (s : sender) (b : bundle) (* ClaSenderTask::transfer, cla/mod.rs:58-71 *)
| Count (c : counter)             (* STATS.lock().c += 1 *)
| PeerFail (n : string)           (* processing.rs:399-410 *)
| PeerRemove (n : string)         (* processing.rs:411-416 *)
| NewReport (b : bundle) (st : nat) (rs : N). (* new_status_report_bundle, processing.rs:672-678 *)

Global Instance notif_eq_dec : EqDecision notif.
Proof. solve_decision. Defined.
Global Instance sender_eq_dec : EqDecision sender.
Proof. solve_decision. Defined.
Global Instance act_eq_dec : EqDecision act.
Proof. solve_decision. Defined.

(** Answers; a Result is [bool] (true = Ok) or an option. *)
Definition resp (o : act) : Type :=
  match o with
  | SPush _ | SRemove _ | SUpdate _ | SHas _ => bool
  | SAdd _ => option bool
  | SGet _ => option bundle
  | SMeta _ => option pack
  | SPacks => list pack
  | SForwarding => list string
  | Clock | DtnClock => N
  | LifetimeOver _ | HasEndpoint _ | Accepting | Transfer _ _ => bool
  | PeerFail _ => option string
  | Deliver _ _ => handed
  | Pop _ => option bundle
  | Notify _ | Count _ | PeerRemove _ => unit
  | Route _ => option answer
  | NewReport _ _ _ => option bundle
  end.

(** ** Programs *)
(** The sub-tasks [forward] starts, one per next hop (processing.rs:352-433).
    [CDone sent]: finished; [sent]: the shared flag was set. *)
Inductive cprog := CDone (sent : bool) | CAct (o : act) (k : resp o -> cprog).
(** [Spawn p k]: tokio::spawn(forward(p)), go on with k.  [Par cs k]: start the
    sub-tasks, join_all, go on with k applied to their flags.  [Panic]: the task
    dies. *)
Inductive prog (A : Type) :=
| Ret (a : A)
| Panic
| Act (o : act) (k : resp o -> prog A)
| Spawn (p : pack) (k : prog A)
| Par (cs : list cprog) (k : list bool -> prog A).
Arguments Ret {A} _. Arguments Panic {A}. Arguments Act {A} _ _. Arguments Spawn {A} _ _. Arguments Par {A} _ _.

Fixpoint bind {A B} (m : prog A) (f : A -> prog B) : prog B :=
  match m with
  | Ret a => f a
  | Panic => Panic
  | Act o k => Act o (fun r => bind (k r) f)
  | Spawn p k => Spawn p (bind k f)
  | Par cs k => Par cs (fun bs => bind (k bs) f)
  end.
Definition call (o : act) : prog (resp o) := Act o Ret.
Declare Scope prog_scope.
Delimit Scope prog_scope with prog.
Notation "'let*' x ':=' m 'in' f" := (bind m (fun x => f)) (at level 200, x pattern, right associativity) : prog_scope.
Notation "m ';;;' f" := (bind m (fun _ => f)) (at level 199, right associativity) : prog_scope.
(** the ? operator on Result<()> *)
Notation "m '?;;' f" := (bind m (fun ok => if ok : bool then f else Ret false)) (at level 199, right associativity) : prog_scope.
Open Scope prog_scope.

(** ** Blocks of a bundle (bp7 canonical.rs, bundle.rs) *)
(** extension_block_by_type(_mut): the first block of that type *)
Definition block_by_type (t : N) (b : bundle) : option block :=
  List.find (fun k => k_type k =? t) (b_blocks b).
Definition set_data (k : block) (d : cdata) : block := Block (k_type k) (k_num k) (k_flags k) d.
Fixpoint update_first (t : N) (d : cdata) (l : list block) : list block :=
  match l with
  | [] => []
  | k :: l => if k_type k =? t then set_data k d :: l else k :: update_first t d l
  end.
Definition with_blocks (b : bundle) (l : list block) : bundle :=
  Bundle (b_flags b) (b_dst b) (b_src b) (b_rpt b) (b_time b) (b_seq b) (b_life b) (b_off b) (b_total b) l.
(** add_canonical_block: the next free block number; the list is kept sorted by
    descending block number, so the new block comes first *)
Definition max_num (l : list block) : N := fold_right (fun k m => N.max (k_num k) m) 0 l.
Definition no_kflags := KFlags false false false false.
Definition add_block (t : N) (d : cdata) (b : bundle) : bundle :=
  with_blocks b (Block t (max_num (b_blocks b) + 1) no_kflags d :: b_blocks b).

(** Administrative records as far as they are inspected (bp7
    administrative_record.rs): a status report with its list of asserted flags
    and the id of the bundle it refers to. *)
Inductive arecord := StatusReport (asserted : list bool) (ref : string) | OtherRecord.

Section pipeline.
(** Configuration and bp7 functions the model does not look into.
    [host]: CONFIG.host_eid; [gen_reports]: CONFIG.generate_status_reports;
    [parallel]: CONFIG.parallel_bundle_processing;
    [parse_record]: serde_cbor::from_slice::<AdministrativeRecord>. *)
Context (host : eid) (gen_reports parallel : bool).
Context (parse_record : list N -> option arecord).

(** lib.rs:152-154 *)
Definition is_local_node_id (e : eid) : bool := bool_decide (eid_node_id e = eid_node_id host).

(** bundlepack.rs:119-128 sync *)
Definition sync (p : pack) : prog bool :=
  if has_constraints (p_cons p) then call (SUpdate p) else call (SRemove (p_id p)).

(** processing.rs:645-696 send_status_report *)
Definition send_status_report (p : pack) (st : nat) (rs : N) : prog unit :=
  if p_admin p || bool_decide (p_src p = DtnNone) then Ret tt
  else
    let* ob := call (SGet (p_id p)) in
    match ob with
    | None => Ret tt
    | Some b =>
        let* e := call (HasEndpoint (b_rpt b)) in
        if e then Ret tt
        else
          let* out := call (NewReport b st rs) in
          match out with
          | None => Panic
          | Some out =>
              let* ok := call (SPush out) in
              if ok then
                let* now := call Clock in
                sync (add_constraint (pack_of now out) ForwardPending) ;;; Ret tt
              else Ret tt
          end
    end.

(** processing.rs:516-535 delete *)
Definition delete_bundle (p : pack) (rs : N) : prog bool :=
  let* ob := call (SGet (p_id p)) in
  match ob with
  | None => Ret false
  | Some b =>
      (if bf_rep_del (b_flags b) && negb (bf_admin (b_flags b)) && gen_reports
       then send_status_report p DELETED_BUNDLE rs else Ret tt) ;;;
      sync (with_cons p (clear_c (p_cons p)))
  end.
(** delete(bundle.into(), rs): the pack is made from the bundle *)
Definition delete_fresh (b : bundle) (rs : N) : prog bool :=
  let* now := call Clock in delete_bundle (pack_of now b) rs.

(** processing.rs:609-637: the loop over the status information *)
Fixpoint inspect_items (l : list bool) (i : nat) (ref : string) : prog unit :=
  match l with
  | [] => Ret tt
  | _ :: l =>
      if (i =? DELIVERED_BUNDLE)%nat then call (SRemove ref) ;;; inspect_items l (S i) ref
      else inspect_items l (S i) ref
  end.
(** processing.rs:588-641 inspect_status_report *)
Definition inspect_status_report (ar : arecord) : prog unit :=
  match ar with
  | OtherRecord => Ret tt
  | StatusReport l ref =>
      match l with
      | [] => Ret tt
      | _ =>
          let* known := call (SHas ref) in
          if known : bool then
            if (length l =? MAX_STATUS_INFORMATION_POS)%nat then inspect_items l 0 ref else Ret tt
          else Ret tt
      end
  end.
(** processing.rs:537-586 is_administrative_record_valid *)
Definition record_valid (b : bundle) : prog bool :=
  if bf_admin (b_flags b) then
    match block_by_type PAYLOAD_BLOCK b with
    | Some (Block _ _ _ (CData d)) =>
        match parse_record d with
        | Some ar => inspect_status_report ar ;;; Ret true
        | None => Ret false
        end
    | _ => Ret false
    end
  else Ret false.

(** processing.rs:509-514 contraindicated *)
Definition contraindicated (p : pack) : prog bool := sync (add_constraint p Contraindicated).

(** lib.rs:194-201 store_remove_if_singleton_bundle *)
Definition remove_if_singleton (b : bundle) : prog unit :=
  if eid_non_singleton (b_dst b) then Ret tt else call (SRemove (bid b)) ;;; Ret tt.

(** processing.rs:467-508 local_delivery.  The endpoint look-up and the push
    happen under one lock (Deliver); a bundle handed to a subscriber is then
    removed from the store if it has a single destination
    (application_agent.rs:39-56; the code still holds the DTNCORE lock then, the
    model lets other tasks run in between). *)
Definition local_delivery (p : pack) : prog bool :=
  let* ob := call (SGet (p_id p)) in
  match ob with
  | None => Ret false
  | Some b =>
      let* valid := (if p_admin p then record_valid b else Ret true) in
      if negb valid then delete_bundle p NO_INFORMATION ;;; Ret false
      else
        let p := add_constraint p LocalEndpoint in
        sync p ?;;
        let* p :=
          (if is_local_node_id (p_dst p) then
             (if bf_rep_deliv (b_flags b) && negb (bf_admin (b_flags b)) && gen_reports
              then send_status_report p DELIVERED_BUNDLE NO_INFORMATION else Ret tt) ;;;
             Ret (with_cons p (clear_c (p_cons p)))
           else Ret (add_constraint p ForwardPending)) in
        sync p ?;;
        let* h := call (Deliver (p_dst p) b) in
        match h with
        | NoEndpoint => Ret true
        | Queued => call (Count Delivered) ;;; Ret true
        | Handed => remove_if_singleton b ;;; call (Count Delivered) ;;; Ret true
        end
  end.

(** processing.rs:230-241 handle_primary_lifetime *)
Definition handle_lifetime (b : bundle) : prog bool :=
  let* over := call (LifetimeOver b) in
  if over : bool then delete_fresh b LIFETIME_EXPIRED ;;; Ret false else Ret true.

(** processing.rs:207-229 handle_hop_count_block; the count is a u8 (wrapping in
    release builds).  [None]: error *)
Definition handle_hop_count (b : bundle) : prog (option bundle) :=
  match block_by_type HOP_COUNT_BLOCK b with
  | Some (Block _ _ _ (CHop limit count)) =>
      let count := (count + 1) mod 256 in
      let b := with_blocks b (update_first HOP_COUNT_BLOCK (CHop limit count) (b_blocks b)) in
      if limit <? count then delete_fresh b HOP_LIMIT_EXCEEDED ;;; Ret None
      else Ret (Some b)
  | _ => Ret (Some b)
  end.

(** processing.rs:276-297 handle_previous_node_block *)
Definition handle_previous_node (b : bundle) : prog bundle :=
  match block_by_type PREVIOUS_NODE_BLOCK b with
  | Some (Block _ _ _ (CPrev _)) =>
      Ret (with_blocks b (update_first PREVIOUS_NODE_BLOCK (CPrev host) (b_blocks b)))
  | Some _ => Panic
  | None => Ret (add_block PREVIOUS_NODE_BLOCK (CPrev host) b)
  end.

(** processing.rs:244-274 update_bundle_age and handle_bundle_age_block; the
    arithmetic is on u64 (wrapping in release builds); the age is compared as
    microseconds, the lifetime is in milliseconds. *)
Definition new_age (age now recv : N) : N := (age + (now + 2^64 - recv mod 2^64) mod 2^64) mod 2^64.
Definition handle_age (b : bundle) : prog (option bundle) :=
  match block_by_type BUNDLE_AGE_BLOCK b with
  | Some (Block _ _ _ (CAge age)) =>
      let* om := call (SMeta (bid b)) in
      match om with
      | None => Ret (Some b)
      | Some m =>
          let* now := call Clock in
          let a := new_age age now (p_recv m) in
          if a =? 0 then Ret (Some b)
          else
            let b := with_blocks b (update_first BUNDLE_AGE_BLOCK (CAge a) (b_blocks b)) in
            if b_life b * 1000 <=? a then delete_fresh b LIFETIME_EXPIRED ;;; Ret None
            else Ret (Some b)
      end
  | Some _ => call (SMeta (bid b)) ;;; Ret (Some b)
  | None => Ret (Some b)
  end.

(** processing.rs:352-433: one sub-task per next hop.  After a success the
    notification may panic on a next hop without node name; the flag is set by
    then. *)
Definition send_one (id : string) (b : bundle) (s : sender) : cprog :=
  CAct (Transfer s b) (fun ok : bool =>
    if ok then
      CAct (Count Outgoing) (fun _ =>
        match eid_node (sd_hop s) with
        | None => CDone true
        | Some n => CAct (Notify (SendingSucceeded id n)) (fun _ => CDone true)
        end)
    else
      CAct (Count Failed) (fun _ =>
        match eid_node (sd_hop s) with
        | None => CDone false
        | Some n =>
            CAct (Notify (SendingFailed id n)) (fun _ =>
            CAct (PeerFail n) (fun failed : option string =>
              match failed with
              | Some peer => CAct (PeerRemove peer) (fun _ => CDone false)
              | None => CDone false
              end))
        end)).

(** processing.rs:441-462: after all transfers have ended *)
Definition after_transfers (p : pack) (b : bundle) (delete_afterwards : bool) (sent : list bool) : prog bool :=
  if existsb id sent then
    (if bf_rep_fwd (b_flags b) && negb (bf_admin (b_flags b)) && gen_reports
     then send_status_report p FORWARDED_BUNDLE NO_INFORMATION else Ret tt) ;;;
    if delete_afterwards then call (SRemove (p_id p))
    else if bf_admin (b_flags b) then record_valid b ;;; contraindicated p
    else Ret true
  else Ret true.
(** processing.rs:326-462: the part of forward once the stored copy was read *)
Definition forward_copy (p : pack) (nodes : list sender) (delete_afterwards : bool) (b : bundle) : prog bool :=
  handle_lifetime b ?;;
  let* ob := handle_hop_count b in
  match ob with
  | None => Ret false
  | Some b =>
      let* b := handle_previous_node b in
      let* ob := handle_age b in
      match ob with
      | None => Ret false
      | Some b => Par (map (send_one (p_id p) b) nodes) (after_transfers p b delete_afterwards)
      end
  end.
(** processing.rs:299-465 forward; the pack's constraints are changed first *)
Definition forwarding (p : pack) : pack := remove_constraint (add_constraint p ForwardPending) DispatchPending.
Definition forward (p : pack) : prog bool :=
  sync (forwarding p) ?;;
  let* ans := call (Route (forwarding p)) in
  match ans with
  | None => Ret false
  | Some ([], delete_afterwards) => if delete_afterwards then call (SRemove (p_id p)) else Ret true
  | Some (nodes, delete_afterwards) =>
      let* ob := call (SGet (p_id p)) in
      match ob with
      | None => Ret false
      | Some b => forward_copy (forwarding p) nodes delete_afterwards b
      end
  end.

(** processing.rs:185-205 dispatch *)
Definition dispatch (p : pack) : prog bool :=
  let* ob := call (SGet (p_id p)) in
  match ob with
  | None => Panic
  | Some b =>
      call (Notify (IncomingBundle b)) ;;;
      let* e := call (HasEndpoint (p_dst p)) in
      (if e : bool then local_delivery p else Ret true) ?;;
      if is_local_node_id (p_dst p) then Ret true else Spawn p (Ret true)
  end.

(** processing.rs:75-94 transmit *)
Definition transmit (p : pack) : prog bool :=
  let p := add_constraint p DispatchPending in
  sync p ?;;
  let* ok := (if bool_decide (p_src p = DtnNone) then Ret true else call (HasEndpoint (p_src p))) in
  if ok : bool then dispatch p else delete_bundle p NO_INFORMATION.

(** processing.rs:27-37 send_bundle *)
Definition submit (b : bundle) : prog bool :=
  call (SPush b) ?;;
  let* now := call Clock in
  transmit (pack_of now b).

(** processing.rs:127-170: the loop over the blocks; [index] counts the unknown
    blocks; [None]: the bundle was deleted, or deleting it failed *)
Fixpoint scan_blocks (p : pack) (l : list block) (index : nat) (rm : list nat) : prog (option (list nat)) :=
  match l with
  | [] => Ret (Some rm)
  | k :: l =>
      if k_type k <? 11 then scan_blocks p l index rm
      else
        (if kf_report (k_flags k) && gen_reports
         then send_status_report p RECEIVED_BUNDLE BLOCK_UNINTELLIGIBLE else Ret tt) ;;;
        if kf_delete (k_flags k) then delete_bundle p BLOCK_UNINTELLIGIBLE ;;; Ret None
        else scan_blocks p l (S index) (if kf_remove (k_flags k) then rm ++ [index] else rm)
  end.
(** processing.rs:171-174; Vec::remove panics beyond the end ([None]) *)
Fixpoint remove_indices (l : list block) (rm : list nat) : option (list block) :=
  match rm with
  | [] => Some l
  | i :: rm => if (i <? length l)%nat then remove_indices (delete i l) rm else None
  end.

(** processing.rs:97-182 receive *)
Definition receive (b : bundle) : prog bool :=
  let* known := call (SAdd b) in
  match known with
  | None => Ret false
  | Some false => call (Count Dups) ;;; Ret true
  | Some true =>
      call (Count Incoming) ;;;
      let* now := call Clock in
      let p := add_constraint (pack_of now b) DispatchPending in
      sync p ?;;
      (if bf_rep_recv (b_flags b) && negb (bf_admin (b_flags b)) && gen_reports
       then send_status_report p RECEIVED_BUNDLE NO_INFORMATION else Ret tt) ;;;
      let* rm := scan_blocks p (b_blocks b) 0 [] in
      match rm with
      | None => Ret true
      | Some rm =>
          match remove_indices (b_blocks b) rm with
          | None => Panic
          | Some l =>
              call (SPush (with_blocks b l)) ?;;
              dispatch p ;;; Ret true
          end
      end
  end.

(** lib.rs:216-232 store_delete_expired *)
Fixpoint remove_expired (l : list pack) : prog unit :=
  match l with
  | [] => Ret tt
  | p :: l =>
      let* now := call DtnClock in
      (if has_expired now p then call (SRemove (p_id p)) ;;; Ret tt else Ret tt) ;;;
      remove_expired l
  end.
(** core/mod.rs:158-162: metadata of the pending bundles *)
Fixpoint load_packs (ids : list string) : prog (list pack) :=
  match ids with
  | [] => Ret []
  | id :: ids =>
      let* om := call (SMeta id) in
      let* ps := load_packs ids in
      Ret (match om with
           | Some p => if has_constraint p Deleted then ps else p :: ps
           | None => ps
           end)
  end.
(** core/mod.rs:170-200 *)
Fixpoint forward_all (ps : list pack) : prog unit :=
  match ps with
  | [] => Ret tt
  | p :: ps => if parallel then Spawn p (forward_all ps) else forward p ;;; forward_all ps
  end.
(** core/mod.rs:144-203 process_bundles.  lib.rs:220-231 first selects the
    expired ones, then removes them one by one; the model may look at the clock
    again in between. *)
Definition process_bundles : prog unit :=
  let* ps := call SPacks in
  remove_expired (filter (fun p => has_constraint p Deleted = false) ps) ;;;
  let* acc := call Accepting in
  if acc : bool then
    let* ids := call SForwarding in
    let* ps := load_packs ids in
    forward_all (merge_sort by_time ps)
  else Ret tt.

(** application_agent.rs:57-63 pop, called for an application *)
Definition app_pop (e : eid) : prog unit :=
  let* ob := call (Pop e) in
  match ob with None => Ret tt | Some b => remove_if_singleton b end.
(** httpd.rs:686-706: the user deletes a bundle *)
Definition user_delete (id : string) : prog unit := call (SRemove id) ;;; Ret tt.

(** ** The node *)
Inductive kind := KReceive (b : bundle) | KSubmit (b : bundle) | KForward (p : pack)
  | KJanitor | KPop (e : eid) | KDelete (id : string).
Definition task_of (k : kind) : prog unit :=
  match k with
  | KReceive b => receive b ;;; Ret tt
  | KSubmit b => submit b ;;; Ret tt
  | KForward p => forward p ;;; Ret tt
  | KJanitor => process_bundles
  | KPop e => app_pop e
  | KDelete id => user_delete id
  end.

(** one access together with its answer *)
Inductive label := LAct (o : act) (r : resp o) | LSpawn (p : pack) | LJoin.

Inductive cstep : cprog -> label -> cprog -> Prop :=
| cstep_act o k r : cstep (CAct o k) (LAct o r) (k r).
Definition done_flags (cs : list cprog) : option (list bool) :=
  mapM (fun c => match c with CDone b => Some b | _ => None end) cs.
Inductive pstep {A} : prog A -> label -> prog A -> Prop :=
| pstep_act o k r : pstep (Act o k) (LAct o r) (k r)
| pstep_spawn p k : pstep (Spawn p k) (LSpawn p) k
| pstep_child cs k i c l c' :
    cs !! i = Some c -> cstep c l c' -> pstep (Par cs k) l (Par (<[i := c']> cs) k)
| pstep_join cs k bs : done_flags cs = Some bs -> pstep (Par cs k) LJoin (k bs).

(** application_agent.rs:17-22 and core/mod.rs:46-50; [ep_sub]: a delivery
    address is set *)
Record endpoint := Endpoint { ep_eid : eid; ep_queue : list bundle; ep_sub : bool }.
Record node := Node {
  n_store : mem;
  n_eps : list endpoint;
  n_peers : peers;
  n_stats : counter -> N;
  n_time : N;        (* Unix time in ms *)
  n_dtn : N          (* DTN time in ms *)
}.
Definition has_endpoint (e : eid) (n : node) : bool :=
  existsb (fun x => bool_decide (e = ep_eid x)) (n_eps n).
(** find the first endpoint registered for [e] and change it *)
Fixpoint alter_ep (e : eid) (f : endpoint -> endpoint) (l : list endpoint) : list endpoint :=
  match l with
  | [] => []
  | x :: l => if bool_decide (e = ep_eid x) then f x :: l else x :: alter_ep e f l
  end.
Definition find_ep (e : eid) (n : node) : option endpoint :=
  List.find (fun x => bool_decide (e = ep_eid x)) (n_eps n).
Definition set_store (n : node) (s : mem) : node :=
  Node s (n_eps n) (n_peers n) (n_stats n) (n_time n) (n_dtn n).
Definition set_eps (n : node) (l : list endpoint) : node :=
  Node (n_store n) l (n_peers n) (n_stats n) (n_time n) (n_dtn n).
Definition set_peers (n : node) (ps : peers) : node :=
  Node (n_store n) (n_eps n) ps (n_stats n) (n_time n) (n_dtn n).
Definition count (c : counter) (n : node) : node :=
  Node (n_store n) (n_eps n) (n_peers n)
       (fun c' => if bool_decide (c = c') then n_stats n c' + 1 else n_stats n c') (n_time n) (n_dtn n).
Definition enqueue (b : bundle) (x : endpoint) : endpoint :=
  Endpoint (ep_eid x) (ep_queue x ++ [b]) (ep_sub x).
Definition dequeue (x : endpoint) : endpoint := Endpoint (ep_eid x) (tail (ep_queue x)) (ep_sub x).

(** bp7 administrative_record.rs new_status_report_bundle: an administrative
    bundle from [host] to the report-to endpoint; time stamp, lifetime and the
    encoded record are left open. *)
Definition report_flags := BFlags true false false false false false false.
Definition is_report_for (b out : bundle) : Prop :=
  b_flags out = report_flags /\ b_dst out = b_rpt b /\ b_src out = host /\ b_rpt out = host /\
  exists d, b_blocks out = [Block PAYLOAD_BLOCK 1 no_kflags (CData d)].

Context (lifetime_exceeded : N -> bundle -> bool).
(** The effect of an access and the answers it can give.  The store operations
    may also fail without effect (an I/O error in the on-disk stores, or the
    store on disk refusing what the one in memory accepts, sled.rs:26); removing
    what was removed already is an error in memory (mem.rs:45-49) and none on
    disk (sled.rs:46-58); the routing agent, the transfers and the CLA states answer arbitrarily. *)
Definition access (n : node) (o : act) : resp o -> node -> Prop :=
  match o return resp o -> node -> Prop with
  | SPush b => fun r n' =>
      (r = true /\ n' = set_store n (mem_push (n_time n) b (n_store n))) \/ (r = false /\ n' = n)
  | SAdd b => fun r n' =>
      (r = snd (mem_add_if_unknown (n_time n) b (n_store n)) /\
       n' = set_store n (fst (mem_add_if_unknown (n_time n) b (n_store n)))) \/
      (r = None /\ mem_has (bid b) (n_store n) = false /\ n' = n)
  | SRemove id => fun r n' =>
      (r = snd (mem_remove id (n_store n)) /\ n' = set_store n (fst (mem_remove id (n_store n)))) \/
      (r = false /\ n' = n) \/
      (r = true /\ is_Some (m_meta (n_store n) !! id) /\ n' = set_store n (fst (mem_remove id (n_store n))))
  | SUpdate p => fun r n' =>
      (r = snd (mem_update p (n_store n)) /\ n' = set_store n (fst (mem_update p (n_store n)))) \/
      (r = false /\ n' = n)
  | SHas id => fun r n' => r = mem_has id (n_store n) /\ n' = n
  | SGet id => fun r n' => r = mem_get id (n_store n) /\ n' = n
  | SMeta id => fun r n' => r = mem_meta_of id (n_store n) /\ n' = n
  | SPacks => fun r n' => r = mem_packs (n_store n) /\ n' = n
  | SForwarding => fun r n' => r = mem_forwarding (n_store n) /\ n' = n
  | Clock => fun r n' => r = n_time n /\ n' = n
  | DtnClock => fun r n' => r = n_dtn n /\ n' = n
  | LifetimeOver b => fun r n' => r = lifetime_exceeded (n_dtn n) b /\ n' = n
  | HasEndpoint e => fun r n' => r = has_endpoint e n /\ n' = n
  | Deliver e b => fun r n' =>
      match find_ep e n with
      | None => r = NoEndpoint /\ n' = n
      | Some x =>
          (r = Queued /\ n' = set_eps n (alter_ep e (enqueue b) (n_eps n))) \/
          (r = Handed /\ ep_sub x = true /\ n' = n)
      end
  | Pop e => fun r n' =>
      match find_ep e n with
      | None => r = None /\ n' = n
      | Some x => r = head (ep_queue x) /\ n' = set_eps n (alter_ep e dequeue (n_eps n))
      end
  | Accepting => fun _ n' => n' = n
  | Notify _ => fun _ n' => n' = n
  | Route _ => fun _ n' => n' = n
  | Transfer _ _ => fun _ n' => n' = n
  | Count c => fun _ n' => n' = count c n
  | PeerFail nm => fun r n' =>
      match n_peers n !! nm with
      | None => r = None /\ n' = n
      | Some pe =>
          r = (if failed_too_much (report_fail pe) && negb (pe_static pe)
               then Some (node_name pe) else None) /\
          n' = set_peers n (<[nm := report_fail pe]> (n_peers n))
      end
  | PeerRemove nm => fun _ n' => n' = set_peers n (peers_remove nm (n_peers n))
  | NewReport b st rs => fun r n' =>
      n' = n /\
      match r with
      | None => b_rpt b = DtnNone
      | Some out => is_report_for b out
      end
  end.

(** What happens to the node from outside: tasks are started (a bundle comes in
    over a convergence layer, an application submits one, the janitor runs, an
    application fetches a bundle, the user deletes one), applications register
    and unregister and set or clear their delivery address, neighbours change,
    time passes. *)
Inductive event :=
| EStart (k : kind)
| ERegister (e : eid) | EUnregister (e : eid) | ESubscribe (e : eid) (on : bool)
| EPeers (ps : peers) | ETime (unix dtn : N)
| EStep (i : nat) (l : label).
Record machine := Machine { m_node : node; m_tasks : list (kind * prog unit) }.
Definition started (k : kind) : bool := match k with KForward _ => false | _ => true end.
(** core/mod.rs:84-90 *)
Fixpoint remove_ep (e : eid) (l : list endpoint) : list endpoint :=
  match l with
  | [] => []
  | x :: l => if bool_decide (e = ep_eid x) then l else x :: remove_ep e l
  end.
Definition with_node (m : machine) (n : node) : machine := Machine n (m_tasks m).
Inductive mstep : machine -> event -> machine -> Prop :=
| ms_start m k : started k = true ->
    mstep m (EStart k) (Machine (m_node m) (m_tasks m ++ [(k, task_of k)]))
| ms_register m e :
    mstep m (ERegister e)
      (if has_endpoint e (m_node m) then m
       else with_node m (set_eps (m_node m) (n_eps (m_node m) ++ [Endpoint e [] false])))
| ms_unregister m e :
    mstep m (EUnregister e) (with_node m (set_eps (m_node m) (remove_ep e (n_eps (m_node m)))))
| ms_subscribe m e on :
    mstep m (ESubscribe e on)
      (with_node m (set_eps (m_node m)
        (alter_ep e (fun x => Endpoint (ep_eid x) (ep_queue x) on) (n_eps (m_node m)))))
| ms_peers m ps : mstep m (EPeers ps) (with_node m (set_peers (m_node m) ps))
| ms_time m u d : n_time (m_node m) <= u -> n_dtn (m_node m) <= d ->
    mstep m (ETime u d)
      (with_node m (Node (n_store (m_node m)) (n_eps (m_node m)) (n_peers (m_node m))
                         (n_stats (m_node m)) u d))
| ms_act m i k p o r p' n' :
    m_tasks m !! i = Some (k, p) -> pstep p (LAct o r) p' -> access (m_node m) o r n' ->
    mstep m (EStep i (LAct o r)) (Machine n' (<[i := (k, p')]> (m_tasks m)))
| ms_spawn m i k p q p' :
    m_tasks m !! i = Some (k, p) -> pstep p (LSpawn q) p' ->
    mstep m (EStep i (LSpawn q))
      (Machine (m_node m) (<[i := (k, p')]> (m_tasks m) ++ [(KForward q, task_of (KForward q))]))
| ms_join m i k p p' :
    m_tasks m !! i = Some (k, p) -> pstep p LJoin p' ->
    mstep m (EStep i LJoin) (Machine (m_node m) (<[i := (k, p')]> (m_tasks m))).

(** A node starts with an empty store, some endpoints and no tasks. *)
Definition initial (m : machine) : Prop :=
  n_store (m_node m) = mem0 /\ m_tasks m = [] /\
  (forall c, n_stats (m_node m) c = 0) /\ (forall x, x ∈ n_eps (m_node m) -> ep_queue x = []).
(** [run tr m]: the node got to [m] by the events [tr] (latest last). *)
Inductive run : list event -> machine -> Prop :=
| run_init m : initial m -> run [] m
| run_step tr m e m' : run tr m -> mstep m e m' -> run (tr ++ [e]) m'.
End pipeline.
