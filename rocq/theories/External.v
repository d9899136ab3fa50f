(** External routing: routing/external.rs and routing/erouting/processing.rs. *)
From Verif Require Import Core Peers Routing.
From stdpp Require Import prelude strings pretty gmap.
From Coq Require Import NArith.
Open Scope N_scope.

(** derive(Debug) of Constraint, bundlepack.rs:13-34 *)
Definition con_name (c : constraint) : string :=
  match c with
  | DispatchPending => "DispatchPending" | ForwardPending => "ForwardPending" | ReassemblyPending => "ReassemblyPending"
  | Contraindicated => "Contraindicated" | LocalEndpoint => "LocalEndpoint" | Deleted => "Deleted"
  end.
Fixpoint sep_by (sep : string) (l : list string) : string :=
  match l with [] => "" | [s] => s | s :: l => s +:+ sep +:+ sep_by sep l end.
(** Display of BundlePack, bundlepack.rs:59-63: id and the debug text of the
    HashSet.  A HashSet is printed in its iteration order, which differs from
    instance to instance: [ord] is that order, see [enumerates]. *)
Definition describe (id : string) (ord : list constraint) : string :=
  id +:+ " {" +:+ sep_by ", " (map con_name ord) +:+ "}".
Definition enumerates (ord : list constraint) (s : cset) : Prop :=
  NoDup ord /\ forall c, c ∈ ord <-> has_c s c = true.

(** erouting/mod.rs:84-92 Sender and 105-110 ResponseSenderForBundle *)
Record instr := Instr { in_remote : paddr; in_port : option N; in_agent : string; in_hop : eid }.
Record response := Response { rs_pack : pack; rs_clas : list instr; rs_delete : bool }.

(** A call of sender_for_bundle: the pack, the order in which its constraints
    print, and where it is: waiting on its channel, channel filled, channel
    closed, returned. *)
Inductive rstatus := Waiting | Got (r : response) (ord : list constraint) | Dropped | Done (a : answer).
Record request := Request { rq_pack : pack; rq_ord : list constraint; rq_st : rstatus }.
Definition rq_key (q : request) : string := describe (p_id (rq_pack q)) (rq_ord q).
(** CONNECTION, RESPONSES (processing.rs:29-34) and the calls made so far;
    channels are named by the number of the call that waits on them.  What is
    sent to the router is not modelled: the router may do anything. *)
Record xstate := XState { x_conn : bool; x_resp : gmap string nat; x_req : list request }.
Definition x_init : xstate := XState false ∅ [].

Inductive xev :=
| XConnect | XDisconnect
| XAsk (p : pack) (ord : list constraint)          (* sender_for_bundle called *)
| XRespond (r : response) (ord : list constraint)  (* packet from the router *)
| XWake (n : nat) (clas : list cla)                (* call n continues after its channel was filled or closed *)
| XExpire (n : nat).                               (* 250 ms are over for call n *)

Definition set_st (q : request) (s : rstatus) : request := Request (rq_pack q) (rq_ord q) s.
Definition upd (n : nat) (s : rstatus) (l : list request) : list request := alter (fun q => set_st q s) n l.
(** the sender half of call [n]'s channel is dropped *)
Definition close (n : nat) (l : list request) : list request :=
  alter (fun q => match rq_st q with Waiting => set_st q Dropped | _ => q end) n l.
(** processing.rs:161-163 remove_response_channel *)
Definition drop_key (k : string) (st : xstate) : xstate :=
  match x_resp st !! k with
  | Some m => XState (x_conn st) (delete k (x_resp st)) (close m (x_req st))
  | None => st
  end.
(** processing.rs:175-194 *)
Definition unpack_one (clas : list cla) (i : instr) : option sender :=
  first_some (fun c => if bool_decide (in_agent i = cl_name c)
                       then Some (Sender (cl_chan c) (dest_string (in_remote i) (default (cl_port c) (in_port i))) (cl_name c) (in_hop i))
                       else None) clas.
(** processing.rs:170-198 *)
Definition unpack (clas : list cla) (r : response) : answer := (omap (unpack_one clas) (rs_clas r), rs_delete r).

(** processing.rs:50-138 (connection and answers; that two routers connecting
    at the same moment may both be let in is not modelled) and 202-245 *)
Definition xstep (st : xstate) (e : xev) : xstate :=
  match e with
  | XConnect => XState true (x_resp st) (x_req st)
  | XDisconnect => XState false (x_resp st) (x_req st)
  | XAsk p ord =>
      if x_conn st then                                                        (* 205 *)
        let k := describe (p_id p) ord in
        let st := drop_key k st in                                             (* 166: an older sender is replaced *)
        XState (x_conn st) (<[k := length (x_req st)]> (x_resp st)) (x_req st ++ [Request p ord Waiting])
      else XState (x_conn st) (x_resp st) (x_req st ++ [Request p ord (Done ([], false))])
  | XRespond r ord =>                                                          (* 89-106 *)
      if x_conn st then
        let k := describe (p_id (rs_pack r)) ord in
        match x_resp st !! k with
        | Some n =>
            XState (x_conn st) (delete k (x_resp st))
                   (alter (fun q => match rq_st q with Waiting => set_st q (Got r ord) | _ => q end) n (x_req st))
        | None => st
        end
      else st
  | XWake n clas =>
      match x_req st !! n with
      | Some q =>
          match rq_st q with
          | Got r ord =>                                                       (* 225-234 *)
              let st := drop_key (rq_key q) st in
              let a := if bool_decide (describe (p_id (rs_pack r)) ord = rq_key q) then unpack clas r else ([], false) in
              XState (x_conn st) (x_resp st) (upd n (Done a) (x_req st))
          | Dropped =>                                                         (* 236-244 *)
              let st := drop_key (rq_key q) st in
              XState (x_conn st) (x_resp st) (upd n (Done ([], false)) (x_req st))
          | _ => st
          end
      | None => st
      end
  | XExpire n =>
      match x_req st !! n with
      | Some q =>
          match rq_st q with
          | Waiting =>                                                         (* 236-244 *)
              let st := drop_key (rq_key q) st in
              XState (x_conn st) (x_resp st) (upd n (Done ([], false)) (x_req st))
          | _ => st
          end
      | None => st
      end
  end.
Definition xrun (es : list xev) : xstate := foldl xstep x_init es.
