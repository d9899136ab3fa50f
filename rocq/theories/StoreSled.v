(** The sled-backed bundle store (core/store/sled.rs) at the level of its
    durable writes. *)
From Verif Require Import Core StoreMem.
From stdpp Require Import prelude strings gmap.
From Coq Require Import NArith Lia.
Open Scope N_scope.

(** The two trees of the database, sled.rs:12-16.  Values are stored as CBOR
    and decoded on every access; encoding is taken to be invertible. *)
Record disk := Disk { d_bundles : gmap string bundle; d_meta : gmap string pack }.
Definition disk0 : disk := Disk ∅ ∅.

(** One durable write.  Every [insert]/[remove] is followed by [flush] before
    the next one, so the writes of an operation reach the disk in order; a
    crash leaves a prefix of them. *)
Inductive write := WMeta (id : string) (p : pack) | WBundle (id : string) (b : bundle) | WDel (id : string).
Definition do_write (d : disk) (w : write) : disk :=
  match w with
  | WMeta id p => Disk (d_bundles d) (<[id := p]> (d_meta d))
  | WBundle id b => Disk (<[id := b]> (d_bundles d)) (d_meta d)
  | WDel id => Disk (delete id (d_bundles d)) (d_meta d)
  end.
Definition apply_all (d : disk) (ws : list write) : disk := fold_left do_write ws d.

(** outcome of an operation that did not crash; [SPanic]: [unwrap] on a
    missing key in get_bundle/get_metadata (sled.rs:127-139) *)
Inductive sres := SOk | SErr | SPanic.

(** The writes an operation issues and its outcome. *)
(** sled.rs:19-36 push *)
Definition sled_push (now : N) (b : bundle) (d : disk) : list write * sres :=
  match d_bundles d !! bid b with
  | Some _ => ([WBundle (bid b) b], SOk)
  | None =>
      match d_meta d !! bid b with
      | Some _ => ([], SErr)
      | None => ([WMeta (bid b) (pack_of now b); WBundle (bid b) b], SOk)
      end
  end.
(** sled.rs:37-45 update_metadata *)
Definition sled_update (p : pack) (d : disk) : list write * sres :=
  match d_meta d !! p_id p with
  | Some _ => ([WMeta (p_id p) p], SOk)
  | None => ([], SErr)
  end.
(** sled.rs:46-58 remove *)
Definition sled_remove (id : string) (d : disk) : list write * sres :=
  match d_meta d !! id with
  | None => ([], SPanic)
  | Some p =>
      match d_meta d !! p_id (tombstone p) with
      | Some _ => ([WMeta (p_id (tombstone p)) (tombstone p); WDel id], SOk)
      | None => ([], SErr)
      end
  end.
(** queries: sled.rs:65-139 *)
Definition sled_has (id : string) (d : disk) : bool := bool_decide (is_Some (d_bundles d !! id)).
Definition sled_all_ids (d : disk) : list string := map fst (map_to_list (d_bundles d)).
Definition sled_packs (d : disk) : list pack := map snd (map_to_list (d_meta d)).
Definition sled_filter (criteria : list constraint) (d : disk) : list string :=
  map p_id (filter (fun p => forallb (has_constraint p) criteria = true) (sled_packs d)).
Definition sled_forwarding (d : disk) : list string := sled_filter [ForwardPending] d.
Definition sled_pending (d : disk) : list string :=
  map p_id (filter (fun p => is_pending p = true) (sled_packs d)).
(** get_bundle / get_metadata: [None] stands for the panic *)
Definition sled_get (id : string) (d : disk) : option bundle := d_bundles d !! id.
Definition sled_meta_of (id : string) (d : disk) : option pack := d_meta d !! id.

Definition sled_op (o : op) (d : disk) : list write * sres :=
  match o with
  | Push now b => sled_push now b d
  | Update p => sled_update p d
  | Remove id => sled_remove id d
  end.
(** lib.rs:174-182 on this store: [None] = error *)
Definition sled_add_if_unknown (now : N) (b : bundle) (d : disk) : list write * option bool :=
  if sled_has (bid b) d then ([], Some false)
  else match sled_push now b d with (ws, SOk) => (ws, Some true) | (ws, _) => (ws, None) end.

(** complete operations *)
Definition sled_step (d : disk) (o : op) : disk := apply_all d (fst (sled_op o d)).
(** A lifetime of the database: complete operations and operations cut short
    by a crash after [k] of their writes (the process then restarts and opens
    the same database). *)
Inductive life := Done (o : op) | Crash (o : op) (k : nat).
Definition sled_live (d : disk) (l : life) : disk :=
  match l with
  | Done o => sled_step d o
  | Crash o k => apply_all d (take k (fst (sled_op o d)))
  end.
Definition sled_run (ls : list life) : disk := fold_left sled_live ls disk0.
