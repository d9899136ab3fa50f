(** The in-memory bundle store (core/store/mem.rs) and the store helpers of
    lib.rs. *)
From Verif Require Import Core.
From stdpp Require Import prelude strings gmap sorting.
From Coq Require Import NArith Lia.
Open Scope N_scope.

(** mem.rs:9-13 *)
Record mem := Mem { m_bundles : gmap string bundle; m_meta : gmap string pack }.
Definition mem0 : mem := Mem ∅ ∅.

(** mem.rs:16-30 push (always Ok); [now]: Unix time *)
Definition mem_push (now : N) (b : bundle) (s : mem) : mem :=
  Mem (<[bid b := b]> (m_bundles s))
      (match m_bundles s !! bid b with
       | Some _ => m_meta s
       | None => <[bid b := pack_of now b]> (m_meta s)
       end).
(** mem.rs:31-38 update_metadata; [false] = error *)
Definition mem_update (p : pack) (s : mem) : mem * bool :=
  match m_meta s !! p_id p with
  | Some _ => (Mem (m_bundles s) (<[p_id p := p]> (m_meta s)), true)
  | None => (s, false)
  end.
(** mem.rs:39-51 remove *)
Definition mem_remove (id : string) (s : mem) : mem * bool :=
  match m_meta s !! id with
  | Some p =>
      let (s', ok) := mem_update (tombstone p) s in
      if ok then
        match m_bundles s' !! id with
        | Some _ => (Mem (delete id (m_bundles s')) (m_meta s'), true)
        | None => (s', false)
        end
      else (s', false)
  | None => (s, false)
  end.
(** mem.rs:53-61, 93-100 *)
Definition mem_count (s : mem) : nat := size (m_bundles s).
Definition mem_all_ids (s : mem) : list string := map fst (map_to_list (m_bundles s)).
Definition mem_has (id : string) (s : mem) : bool := bool_decide (is_Some (m_bundles s !! id)).
Definition mem_get (id : string) (s : mem) : option bundle := m_bundles s !! id.
Definition mem_meta_of (id : string) (s : mem) : option pack := m_meta s !! id.
(** mem.rs:90-92.  HashMap iteration order is some order; here that of
    [map_to_list], and no theorem depends on it. *)
Definition mem_packs (s : mem) : list pack := map snd (map_to_list (m_meta s)).
(** mem.rs:62-75 *)
Definition mem_filter (criteria : list constraint) (s : mem) : list string :=
  map p_id (filter (fun p => forallb (has_constraint p) criteria = true) (mem_packs s)).
(** mem.rs:76-89 *)
Definition is_pending (p : pack) : bool :=
  negb (has_constraint p ReassemblyPending) &&
  (has_constraint p ForwardPending || has_constraint p Contraindicated).
Definition mem_pending (s : mem) : list string :=
  map p_id (filter (fun p => is_pending p = true) (mem_packs s)).
(** store/mod.rs:43-46 *)
Definition mem_forwarding (s : mem) : list string := mem_filter [ForwardPending] s.

(** lib.rs:174-182 store_add_bundle_if_unknown *)
Definition mem_add_if_unknown (now : N) (b : bundle) (s : mem) : mem * option bool :=
  if mem_has (bid b) s then (s, Some false) else (mem_push now b s, Some true).

(** lib.rs:216-232 store_delete_expired.  (The metadata is listed under one
    lock and each removal takes the lock again; interleavings with other tasks
    are considered in the pipeline model.) *)
Definition expired_ids (now : N) (s : mem) : list string :=
  map p_id (filter (fun p => has_expired now p = true)
    (filter (fun p => has_constraint p Deleted = false) (mem_packs s))).
Definition delete_expired (now : N) (s : mem) : mem :=
  fold_left (fun s id => fst (mem_remove id s)) (expired_ids now s) s.

(** sort_unstable_by creation_time (core/mod.rs:166); ties in any order *)
Definition by_time (a b : pack) : Prop := (p_time a <= p_time b)%N.
Global Instance by_time_dec : RelDecision by_time.
Proof. intros a b. unfold by_time. apply _. Defined.
(** core/mod.rs:144-203 process_bundles: which bundles are given to [forward],
    in which order.  [accepting]: one flag per convergence layer. *)
Definition to_forward (accepting : list bool) (s : mem) : list pack :=
  if existsb (fun b => b) accepting then
    merge_sort by_time
      (filter (fun p => has_constraint p Deleted = false)
         (omap (fun id => mem_meta_of id s) (mem_forwarding s)))
  else [].

(** Histories of store operations *)
Inductive op := Push (now : N) (b : bundle) | Update (p : pack) | Remove (id : string).
Definition mem_step (s : mem) (o : op) : mem :=
  match o with
  | Push now b => mem_push now b s
  | Update p => fst (mem_update p s)
  | Remove id => fst (mem_remove id s)
  end.
Definition mem_run (ops : list op) : mem := fold_left mem_step ops mem0.
