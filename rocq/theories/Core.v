(** Endpoint ids, bundles, retention constraints and bundle packs. *)
From stdpp Require Import prelude strings pretty gmap.
From Coq Require Import NArith Lia.
Open Scope N_scope.

(** ** bp7 EndpointID (crate bp7 0.10.6, eid.rs) *)
(** [Dtn node service]: "dtn://node/service"; [Ipn n s]: "ipn:n.s". *)
Inductive eid := DtnNone | Dtn (node service : string) | Ipn (node service : N).
Global Instance eid_eq_dec : EqDecision eid.
Proof. solve_decision. Defined.

(** Display *)
Definition eid_string (e : eid) : string :=
  match e with
  | DtnNone => "dtn:none"
  | Dtn n s => "dtn://" +:+ n +:+ "/" +:+ s
  | Ipn n s => "ipn:" +:+ pretty n +:+ "." +:+ pretty s
  end.
(** EndpointID::node *)
Definition eid_node (e : eid) : option string :=
  match e with DtnNone => None | Dtn n _ => Some n | Ipn n _ => Some (pretty n) end.
(** EndpointID::node_id *)
Definition eid_node_id (e : eid) : option string :=
  match e with
  | DtnNone => None
  | Dtn n _ => Some ("dtn://" +:+ n +:+ "/")
  | Ipn n _ => Some ("ipn:" +:+ pretty n +:+ ".0")
  end.
(** EndpointID::is_non_singleton: a dtn service that starts with '~' *)
Definition eid_non_singleton (e : eid) : bool :=
  match e with
  | Dtn _ (String c _) => bool_decide (c = Ascii.Ascii false true true true true true true false)
  | _ => false
  end.
(** node().unwrap_or_default() (lib.rs:146, core/peer.rs:154) *)
Definition node_or_empty (e : eid) : string := default "" (eid_node e).

(** ** bp7 Bundle (primary.rs, canonical.rs, bundle.rs) *)
Record bflags := BFlags {
  bf_admin : bool;          (* payload is an administrative record *)
  bf_fragment : bool;
  bf_rep_recv : bool; bf_rep_fwd : bool; bf_rep_deliv : bool; bf_rep_del : bool;
  bf_rep_time : bool
}.
Record kflags := KFlags { kf_replicate : bool; kf_report : bool; kf_delete : bool; kf_remove : bool }.
Inductive cdata :=
| CData (b : list N)            (* payload and other opaque blocks *)
| CPrev (e : eid)               (* type 6 *)
| CAge (age : N)                (* type 7, milliseconds *)
| CHop (limit count : N)        (* type 10 *)
| CUnknown (b : list N).
Record block := Block { k_type : N; k_num : N; k_flags : kflags; k_data : cdata }.
Record bundle := Bundle {
  b_flags : bflags; b_dst : eid; b_src : eid; b_rpt : eid;
  b_time : N; b_seq : N; b_life : N;
  b_off : N; b_total : N;
  b_blocks : list block
}.
Global Instance bflags_eq_dec : EqDecision bflags.
Proof. solve_decision. Defined.
Global Instance kflags_eq_dec : EqDecision kflags.
Proof. solve_decision. Defined.
Global Instance cdata_eq_dec : EqDecision cdata.
Proof. solve_decision. Defined.
Global Instance block_eq_dec : EqDecision block.
Proof. solve_decision. Defined.
Global Instance bundle_eq_dec : EqDecision bundle.
Proof. solve_decision. Defined.

(** Bundle::id: source, creation time and sequence number, and the offset of
    a fragment, joined by '-'. *)
Definition bid (b : bundle) : string :=
  eid_string (b_src b) +:+ "-" +:+ pretty (b_time b) +:+ "-" +:+ pretty (b_seq b)
  +:+ (if bf_fragment (b_flags b) then "-" +:+ pretty (b_off b) else "").

(** block type numbers *)
Definition PAYLOAD_BLOCK : N := 1.
Definition PREVIOUS_NODE_BLOCK : N := 6.
Definition BUNDLE_AGE_BLOCK : N := 7.
Definition HOP_COUNT_BLOCK : N := 10.

(** ** Retention constraints (core/bundlepack.rs:14-34) *)
Inductive constraint := DispatchPending | ForwardPending | ReassemblyPending
  | Contraindicated | LocalEndpoint | Deleted.
Global Instance constraint_eq_dec : EqDecision constraint.
Proof. solve_decision. Defined.

(** HashSet<Constraint> as its characteristic vector *)
Record cset := CSet { c_disp : bool; c_fwd : bool; c_reasm : bool; c_contra : bool; c_local : bool; c_del : bool }.
Global Instance cset_eq_dec : EqDecision cset.
Proof. solve_decision. Defined.
Definition no_constraints := CSet false false false false false false.
Definition has_c (s : cset) (c : constraint) : bool :=
  match c with
  | DispatchPending => c_disp s | ForwardPending => c_fwd s | ReassemblyPending => c_reasm s
  | Contraindicated => c_contra s | LocalEndpoint => c_local s | Deleted => c_del s
  end.
Definition set_c (s : cset) (c : constraint) (v : bool) : cset :=
  match s, c with
  | CSet _ b c d e f, DispatchPending => CSet v b c d e f
  | CSet a _ c d e f, ForwardPending => CSet a v c d e f
  | CSet a b _ d e f, ReassemblyPending => CSet a b v d e f
  | CSet a b c _ e f, Contraindicated => CSet a b c v e f
  | CSet a b c d _ f, LocalEndpoint => CSet a b c d v f
  | CSet a b c d e _, Deleted => CSet a b c d e v
  end.
(** bundlepack.rs:144-146 *)
Definition has_constraints (s : cset) : bool := negb (bool_decide (s = no_constraints)).
(** bundlepack.rs:153-161 clear_constraints: LocalEndpoint survives *)
Definition clear_c (s : cset) : cset := set_c no_constraints LocalEndpoint (has_c s LocalEndpoint).

Lemma has_set s c c' v : has_c (set_c s c v) c' = if decide (c = c') then v else has_c s c'.
Proof. destruct s, c, c'; reflexivity. Qed.

(** ** BundlePack (core/bundlepack.rs:44-57).  [size] is informational only and
    not modelled. *)
Record pack := Pack {
  p_src : eid; p_dst : eid; p_recv : N; p_time : N; p_life : N; p_id : string;
  p_admin : bool; p_cons : cset
}.
Global Instance pack_eq_dec : EqDecision pack.
Proof. solve_decision. Defined.
(** bundlepack.rs:66-113 From<Bundle>, From<&Bundle>; [now] is the Unix time in
    milliseconds. *)
Definition pack_of (now : N) (b : bundle) : pack :=
  Pack (b_src b) (b_dst b) now (b_time b) (b_life b) (bid b) (bf_admin (b_flags b)) no_constraints.
Definition with_cons (p : pack) (s : cset) : pack :=
  Pack (p_src p) (p_dst p) (p_recv p) (p_time p) (p_life p) (p_id p) (p_admin p) s.
(** bundlepack.rs:147-152 *)
Definition add_constraint (p : pack) (c : constraint) : pack := with_cons p (set_c (p_cons p) c true).
Definition remove_constraint (p : pack) (c : constraint) : pack := with_cons p (set_c (p_cons p) c false).
Definition has_constraint (p : pack) (c : constraint) : bool := has_c (p_cons p) c.
(** bundlepack.rs:131-137 has_expired; [now] is the current DTN time in
    milliseconds; the sum is a u64 (wrapping in release builds). *)
Definition has_expired (now : N) (p : pack) : bool :=
  if p_life p =? 0 then false else ((p_time p + p_life p) mod 2^64 <? now).

(** marks a bundle as deleted (core/store/mem.rs:40-42, sled.rs:47-49,
    sneakers.rs:64-66) *)
Definition tombstone (p : pack) : pack := add_constraint (with_cons p (clear_c (p_cons p))) Deleted.
Lemma tombstone_id p : p_id (tombstone p) = p_id p.
Proof. done. Qed.
Lemma tombstone_has p c : has_constraint (tombstone p) c =
  match c with Deleted => true | LocalEndpoint => has_constraint p LocalEndpoint | _ => false end.
Proof. destruct c; reflexivity. Qed.
