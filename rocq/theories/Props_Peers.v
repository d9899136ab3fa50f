(** C17-C21, C59: the peer table (model: Peers.v). *)
From Verif Require Import Core Peers PeersProofs.
From stdpp Require Import prelude strings pretty gmap.
From Coq Require Import NArith Lia.
Open Scope N_scope.

Definition ex_peer (name : string) (static : bool) (period : option N) (last : N) : peer :=
  Peer (Dtn name "") (AIp "10.0.0.1") static period [("mtcp", Some 16162); ("tcp", None)] [] last 0.
Definition ex_clas : list cla := [Cla 1 "http" true 3000; Cla 2 "tcp" true 4556; Cla 3 "mtcp" false 16162].

(** ** C17 *)
(** Operation [o] puts data [q] into the table under node [n]: an addition, or
    a beacon from another node. *)
Definition adds (o : pop) (n : string) (q : peer) : Prop :=
  eid_node (pe_eid q) = Some n /\
  (o = PAdd q \/ exists self now ip b, o = PBeacon self now ip b /\ bi_eid b <> self /\
     q = Peer (bi_eid b) (AIp ip) false (bi_period b) (bi_clas b) (bi_services b) now 0).
Lemma adds_creates o n q : adds o n q <-> creates o n q.
Proof.
  split.
  - intros [He [->|(self & now & ip & b & -> & Hs & ->)]]; done.
  - intros [He Hc]. split; [done|]. destruct o; cbn in Hc; try done; [left; by subst|]. right. destruct Hc as [Hc ->]. eauto 10.
Qed.

Theorem C17_peer_table : forall ops,
  let m := prun ops ∅ in
  (** one entry per node name *)
  NoDup (map node_name (peer_list m)) /\
  (forall e n, eid_node e = Some n -> peers_get_for_node e m = m !! n) /\
  (** an entry carries the data of the latest addition for that node *)
  (forall n p, m !! n = Some p ->
     eid_node (pe_eid p) = Some n /\
     exists before o after q, ops = before ++ o :: after /\ adds o n q /\
       pe_eid p = pe_eid q /\ pe_addr p = pe_addr q /\ pe_static p = pe_static q /\ pe_period p = pe_period q /\
       pe_clas p = pe_clas q /\ pe_services p = pe_services q /\
       (forall o' q', o' ∈ after -> ~ adds o' n q')) /\
  (** adding reports news correctly and changes nothing else *)
  (forall p m' new, peers_add p m = Some (m', new) ->
     exists n, eid_node (pe_eid p) = Some n /\ m' !! n = Some p /\
       (new = true <-> m !! n = None) /\ (forall n', n' <> n -> m' !! n' = m !! n')).
Proof.
  intros ops m. assert (Hk : keyed m) by apply keyed_run, keyed_empty. split; [by apply peer_names_nodup|]. split; [|split].
  - intros e n He. by apply get_for_node.
  - intros n p Hp. split; [by apply Hk|].
    destruct (run_entry ops ∅ n p keyed_empty Hp) as [(be & o & af & q & -> & Hc & Hd & Ha)|(_ & p0 & Hp0 & _)].
    + exists be, o, af, q. split; [done|]. split; [by apply adds_creates|]. destruct Hd as (?&?&?&?&?&?). repeat (split; [done|]).
      intros o' q' Ho'. rewrite adds_creates. by apply Ha.
    + by rewrite lookup_empty in Hp0.
  - intros p m' new. unfold peers_add. destruct (eid_node (pe_eid p)) as [n|] eqn:E; [|done]. intros [= <- <-].
    exists n. split; [done|]. rewrite lookup_insert. split; [done|]. rewrite bool_decide_eq_true. split; [done|].
    intros n' Hn'. by apply lookup_insert_ne.
Qed.
Print Assumptions C17_peer_table.

(** Removals remove exactly that entry. *)
Theorem C17_peer_removal : forall ops n,
  let m := prun ops ∅ in
  prun (ops ++ [PRemove n]) ∅ !! n = None /\ (forall n', n' <> n -> prun (ops ++ [PRemove n]) ∅ !! n' = m !! n').
Proof.
  intros ops n m. unfold prun. rewrite fold_left_app. cbn. unfold peers_remove. split; [apply lookup_delete|].
  intros n' Hn. by apply lookup_delete_ne.
Qed.
Print Assumptions C17_peer_removal.

Example C17_case :
  let p := ex_peer "a" true None 5 in let q := ex_peer "a" false (Some 3) 9 in
  prun [PAdd p; PAdd (ex_peer "b" false None 6); PAdd q; PFail "a"] ∅ !! "a" = Some (report_fail q) /\
  length (peer_list (prun [PAdd p; PAdd (ex_peer "b" false None 6); PAdd q] ∅)) = 2%nat.
Proof. vm_compute. done. Qed.

(** ** C18 *)
(** How long a dynamic peer may be silent, in seconds. *)
Definition patience (cf : pconf) (p : peer) : N :=
  match pc_custom cf && bool_decide (0 < pc_timeout cf), pe_period p with
  | false, Some secs => 2 * secs
  | _, _ => pc_timeout cf
  end.
Lemma patience_limit cf p : patience cf p = limit cf p.
Proof.
  unfold patience, limit. replace (bool_decide (0 < pc_timeout cf)) with (0 <? pc_timeout cf); [by destruct (_ && _), (pe_period p)|].
  case_bool_decide; [by apply N.ltb_lt|apply N.ltb_ge; lia].
Qed.
(** clock sanity of an entry: not contacted in the future, period in range *)
Definition sane (now : N) (p : peer) : Prop :=
  pe_last p <= now < 2^64 /\ forall secs, pe_period p = Some secs -> 2 * secs < 2^64.

Theorem C18_janitor_drops_silent : forall cf now m,
  (forall n p, m !! n = Some p -> sane now p) ->
  let (m', told) := process_peers cf now m in
  (forall n p, m !! n = Some p -> pe_static p = true -> m' !! n = Some p) /\
  (forall n p, m !! n = Some p -> pe_static p = false ->
     m' !! n = (if decide (patience cf p <= now - pe_last p) then None else Some p)) /\
  (forall n, m !! n = None -> m' !! n = None) /\
  (** routing is told exactly about the dropped ones *)
  (forall e, e ∈ told <-> exists n p, m !! n = Some p /\ m' !! n = None /\ pe_eid p = e) /\
  length told = (size m - size m')%nat.
Proof.
  intros cf now m Hs. unfold process_peers.
  set (m' := filter _ m).
  assert (Hin : forall n p, m !! n = Some p -> m' !! n = if pe_static p || still_valid cf now p then Some p else None).
  { intros n p Hp. subst m'. destruct (pe_static p || still_valid cf now p) eqn:E.
    - apply map_filter_lookup_Some. done.
    - apply map_filter_lookup_None. right. intros q Hq. rewrite Hp in Hq. injection Hq as <-. cbn. by rewrite E. }
  assert (Hst : forall p, pe_static p = true -> still_valid cf now p = true) by (intros p Hp; unfold still_valid; by rewrite Hp).
  split; [|split; [|split; [|split]]].
  - intros n p Hp Hstat. rewrite (Hin n p Hp). by rewrite Hstat.
  - intros n p Hp Hstat. rewrite (Hin n p Hp). rewrite Hstat. cbn. destruct (Hs n p Hp) as [Hl Hper].
    pose proof (still_valid_spec cf now p Hstat Hl Hper) as Hv. rewrite patience_limit. case_decide.
    + destruct (still_valid cf now p); [|done]. apply proj1 in Hv. specialize (Hv eq_refl). lia.
    + destruct (still_valid cf now p); [done|]. apply proj2 in Hv. assert (false = true) by (apply Hv; lia). done.
  - intros n Hn. subst m'. apply map_filter_lookup_None. by left.
  - intros e. rewrite elem_of_list_fmap. split.
    + intros ([n p] & -> & [Hv Hp%elem_of_map_to_list]%elem_of_list_filter). cbn in *. exists n, p. split; [done|]. split; [|done].
      rewrite (Hin n p Hp), Hv. destruct (pe_static p) eqn:E; [by rewrite Hst in Hv|done].
    + intros (n & p & Hp & Hm & <-). exists (n, p). split; [done|]. apply elem_of_list_filter. cbn. rewrite elem_of_map_to_list. split; [|done].
      rewrite (Hin n p Hp) in Hm. destruct (still_valid cf now p); [|done]. by rewrite orb_true_r in Hm.
  - subst m'. clear -Hst. rewrite map_length.
    assert (Hgen : forall l : list (string * peer),
       (length (filter (fun x => still_valid cf now (snd x) = false) l) + length (filter (fun x => pe_static (snd x) || still_valid cf now (snd x) = true) l) = length l)%nat).
    { induction l as [|[n p] l IH]; [done|]. rewrite !filter_cons. cbn [snd]. destruct (still_valid cf now p) eqn:E.
      - rewrite decide_False by done. rewrite decide_True by (by rewrite orb_true_r). cbn. lia.
      - rewrite decide_True by done. destruct (pe_static p) eqn:Es; [by rewrite (Hst p Es) in E|]. rewrite decide_False by done. cbn. lia. }
    specialize (Hgen (map_to_list m)). unfold size, map_size.
    assert (Hp : map_to_list (filter (fun x => pe_static (snd x) || still_valid cf now (snd x) = true) m) ≡ₚ
                 filter (fun x => pe_static (snd x) || still_valid cf now (snd x) = true) (map_to_list m)).
    { rewrite map_filter_alt. apply map_to_list_to_map. apply nodup_filter_fst, NoDup_fst_map_to_list. }
    rewrite (Permutation_length Hp). lia.
Qed.
Print Assumptions C18_janitor_drops_silent.
Example C18_case :
  let m := prun [PAdd (ex_peer "s" true None 0); PAdd (ex_peer "d" false (Some 3) 10); PAdd (ex_peer "e" false None 10)] ∅ in
  let left t := map (fun n => bool_decide (is_Some (fst (process_peers (PConf 20 false) t m) !! n))) ["s"; "d"; "e"] in
  left 15 = [true; true; true] /\ left 16 = [true; false; true] /\ left 30 = [true; false; false] /\
  snd (process_peers (PConf 20 false) 16 m) = [Dtn "d" ""] /\
  sane 16 (ex_peer "s" true None 0) /\ sane 16 (ex_peer "d" false (Some 3) 10) /\ sane 16 (ex_peer "e" false None 10).
Proof.
  cbv zeta. do 4 (split; [vm_compute; reflexivity|]). unfold sane, ex_peer. cbn [pe_last pe_period].
  split; [|split]; (split; [lia|]); intros ? [=]; lia.
Qed.

(** ** C19 *)
(** The entry of node [n] is not replaced, expired or removed explicitly by [o]. *)
Definition leaves_alone (n : string) (o : pop) : Prop :=
  match o with
  | PAdd p => eid_node (pe_eid p) <> Some n
  | PBeacon _ _ _ b => eid_node (bi_eid b) <> Some n
  | PRemove i => i <> n
  | PClear | PJanitor _ _ => False
  | PTouch _ _ | PFail _ => True
  end.
Theorem C19_dynamic_fourth_failure : forall before o n p ops,
  adds o n p -> pe_fails p = 0 -> pe_static p = false ->
  (forall x, x ∈ ops -> leaves_alone n x) ->
  let fails := length (filter (fun x => x = n) (omap (fun x => match x with PFail i => Some i | _ => None end) ops)) in
  ((fails <= 3)%nat -> is_Some (prun (before ++ o :: ops) ∅ !! n)) /\
  ((4 <= fails)%nat -> prun (before ++ o :: ops) ∅ !! n = None).
Proof.
  intros before o n p ops Ha H0 Hs Hops fails. unfold prun. rewrite fold_left_app. cbn [fold_left].
  set (m := fold_left pstep before ∅). assert (Hk : keyed m) by (apply (keyed_run before), keyed_empty).
  assert (Hp : exists q, pstep m o !! n = Some q /\ pe_fails q = 0 /\ pe_static q = false).
  { destruct Ha as [He [->|(self & now & ip & b & -> & Hb & ->)]]; cbn in *.
    - unfold peers_add. rewrite He. exists p. by rewrite lookup_insert.
    - unfold receive_beacon, peers_add, beacon_peer, peer_new. cbn. rewrite bool_decide_false by done. rewrite He. cbn.
      case_bool_decide; cbn.
      + eexists. rewrite lookup_insert. done.
      + unfold peers_touch. eexists. rewrite lookup_alter, lookup_insert. done. }
  destruct Hp as (q & Hq & Hq0 & Hqs).
  assert (Hc : count_fails ops n = N.of_nat fails).
  { subst fails. clear. induction ops as [|x ops IH]; [done|]. destruct x; cbn; try done.
    case_decide; [|done]. cbn [length]. rewrite IH, Nat2N.inj_succ, N.add_1_l. reflexivity. }
  destruct (fails_count ops (pstep m o) n q) as [H1 H2]; [by apply keyed_step| |done|done|lia|].
  { apply Forall_forall. intros x Hx. specialize (Hops x Hx). by destruct x. }
  rewrite Hq0, Hc in *. split; intros Hle.
  - destruct H1 as (r & Hr & _); [lia|]. unfold prun in Hr. rewrite Hr. eauto.
  - apply H2. lia.
Qed.
Print Assumptions C19_dynamic_fourth_failure.

(** A static peer survives any number of failures (and janitor runs). *)
Theorem C19_static_never : forall before p n ops,
  eid_node (pe_eid p) = Some n -> pe_static p = true ->
  (forall x, x ∈ ops -> (exists i, x = PFail i) \/ (exists cf now, x = PJanitor cf now) \/ (exists now i, x = PTouch now i)) ->
  exists q, prun (before ++ PAdd p :: ops) ∅ !! n = Some q /\ pe_static q = true.
Proof.
  intros before p n ops He Hs Hops. unfold prun. rewrite fold_left_app. cbn [fold_left].
  destruct (static_stays ops (pstep (fold_left pstep before ∅) (PAdd p)) n p) as (q & Hq & Hd).
  - apply keyed_step, (keyed_run before), keyed_empty.
  - apply Forall_forall. intros x Hx. destruct (Hops x Hx) as [(i & ->)|[(cf & now & ->)|(now & i & ->)]]; done.
  - cbn. unfold peers_add. rewrite He. by rewrite lookup_insert.
  - done.
  - exists q. split; [exact Hq|]. destruct Hd as (?&?&Hd&?&?&?). congruence.
Qed.
Print Assumptions C19_static_never.
(** Failures concern only the peer they happened with. *)
Theorem C19_others_unaffected : forall ops n n',
  n' <> n -> prun (ops ++ [PFail n]) ∅ !! n' = prun ops ∅ !! n'.
Proof.
  intros ops n n' Hn. unfold prun. rewrite fold_left_app. cbn.
  rewrite transfer_failed_spec by (apply (keyed_run ops), keyed_empty). destruct (_ !! n); [|done].
  destruct (_ && _); [by apply lookup_delete_ne|by apply lookup_insert_ne].
Qed.
Print Assumptions C19_others_unaffected.
Example C19_case :
  let p := ex_peer "d" false None 0 in
  bool_decide (is_Some (prun [PAdd p; PFail "d"; PFail "x"; PFail "d"; PFail "d"] ∅ !! "d")) = true /\
  bool_decide (is_Some (prun [PAdd p; PFail "d"; PFail "x"; PFail "d"; PFail "d"; PFail "d"] ∅ !! "d")) = false.
Proof. vm_compute. done. Qed.

(** ** C20 *)
Definition C20_full : Prop := forall ops n p self now ip b,
  prun ops ∅ !! n = Some p -> pe_static p = true ->
  exists q, prun (ops ++ [PBeacon self now ip b]) ∅ !! n = Some q /\ pe_static q = true.
(** a beacon of the peer turns its static entry into a dynamic one *)
Theorem C20_static_stays_static_refuted : ~ C20_full.
Proof.
  intros H. destruct (H [PAdd (ex_peer "s" true None 0)] "s" (ex_peer "s" true None 0) (Dtn "me" "") 5 "10.0.0.1"
    (BeaconInfo (Dtn "s" "") None [] []) ltac:(vm_compute; reflexivity) eq_refl) as (q & Hq & Hs).
  vm_compute in Hq. injection Hq as <-. discriminate.
Qed.
Print Assumptions C20_static_stays_static_refuted.
(** Without a beacon from that node (or another registration) it stays. *)
Theorem C20_static_stays_static_partial : forall before p n ops,
  eid_node (pe_eid p) = Some n -> pe_static p = true ->
  (forall o, o ∈ ops -> o <> PClear /\ o <> PRemove n /\ forall q, ~ adds o n q) ->
  exists q, prun (before ++ PAdd p :: ops) ∅ !! n = Some q /\ pe_static q = true.
Proof.
  intros before p n ops He Hs Hops. unfold prun. rewrite fold_left_app. cbn [fold_left].
  set (m := pstep (fold_left pstep before ∅) (PAdd p)).
  assert (Hk : keyed m) by (apply keyed_step, (keyed_run before), keyed_empty).
  assert (Hm : m !! n = Some p) by (unfold m; cbn; unfold peers_add; rewrite He; apply lookup_insert).
  clearbody m. revert m p Hk Hm He Hs. induction ops as [|o ops IH]; intros m p Hk Hm He Hs; [exists p; done|]. cbn [fold_left].
  destruct (Hops o (elem_of_list_here _ _)) as (Hc & Hr & Ha).
  assert (Hstep : exists q, pstep m o !! n = Some q /\ same_data q p).
  { assert (Hdec : spares n o \/ ~ spares n o) by (destruct o as [a|i|t i| |i|cf t|self t ip b]; cbn; try tauto;
      [destruct (decide (eid_node (pe_eid a) = Some n))|destruct (decide (i = n))|destruct (decide (eid_node (bi_eid b) = Some n))]; tauto).
    destruct Hdec as [Hsp|Hsp].
    - destruct (static_stays [o] m n p Hk) as (q & Hq & Hd); [by apply Forall_singleton|done|done|]. eauto.
    - exists p. split; [|done]. destruct o as [a|i|t i| |i|cf t|self t ip b]; cbn in Hsp; try tauto.
      + exfalso. apply (Ha a). split; [|by left]. destruct (decide (eid_node (pe_eid a) = Some n)); tauto.
      + exfalso. apply Hr. f_equal. destruct (decide (i = n)); tauto.
      + assert (Hb : eid_node (bi_eid b) = Some n) by (destruct (decide (eid_node (bi_eid b) = Some n)); tauto).
        destruct (decide (bi_eid b = self)) as [E|E].
        * cbn. unfold receive_beacon. rewrite bool_decide_true by done. done.
        * exfalso. eapply Ha. split; [|right; exists self, t, ip, b; split; [done|]; split; [done|reflexivity]]. done. }
  destruct Hstep as (q & Hq & Hd). apply (IH ltac:(intros; apply Hops; by apply elem_of_list_further) _ q).
  - by apply keyed_step.
  - done.
  - destruct Hd as (->&?&?&?&?&?). done.
  - destruct Hd as (?&?&->&?&?&?). done.
Qed.
Print Assumptions C20_static_stays_static_partial.

(** ** C21 *)
(** Layer [c] can serve entry [want] of a peer's list. *)
Definition serves (c : cla) (want : string * option N) : Prop := cl_name c = fst want /\ cl_accepting c = true.
Theorem C21_cla_selection : forall clas p,
  match first_cla clas p with
  | Some s =>
      exists i want j c,
        pe_clas p !! i = Some want /\ clas !! j = Some c /\ serves c want /\
        (** first in the peer's own list, first such layer here *)
        (forall i' want' c', (i' < i)%nat -> pe_clas p !! i' = Some want' -> c' ∈ clas -> ~ serves c' want') /\
        (forall j' c', (j' < j)%nat -> clas !! j' = Some c' -> ~ serves c' want) /\
        sd_hop s = pe_eid p /\ sd_chan s = cl_chan c /\ sd_cla s = fst want /\
        sd_dest s = addr_string (pe_addr p) +:+ ":" +:+ pretty (match snd want with Some port => port | None => cl_port c end)
  | None => forall want c, want ∈ pe_clas p -> c ∈ clas -> ~ serves c want
  end.
Proof.
  intros clas p.
  assert (Ht : forall want c, try_cla p want c = None <-> ~ serves c want).
  { intros want c. unfold try_cla, serves. case_bool_decide as E; cbn; [destruct (cl_accepting c)|]; split; try done.
    - intros H. exfalso. apply H. done.
    - intros _ [_ ?]. done.
    - intros _ [? _]. by rewrite H in E. }
  unfold first_cla. destruct (first_some _ _) as [s|] eqn:E.
  - apply first_some_Some in E as (i & want & Hi & Hf & Hmin). apply first_some_Some in Hf as (j & c & Hj & Hc & Hmin2).
    exists i, want, j, c. split; [done|]. split; [done|].
    assert (Hsv : serves c want).
    { unfold try_cla in Hc. case_bool_decide as E; [|done]. cbn in Hc. destruct (cl_accepting c) eqn:Ea; [|done]. by split. }
    split; [done|]. split; [|split].
    + intros i' want' c' Hlt Hi' Hc'. apply Ht. specialize (Hmin i' want' Hlt Hi'). rewrite first_some_None in Hmin. by apply Hmin.
    + intros j' c' Hlt Hj'. apply Ht. by eapply Hmin2.
    + destruct Hsv as [Hn Ha]. unfold try_cla in Hc. rewrite Hn, bool_decide_true, Ha in Hc by done. injection Hc as <-. cbn.
      destruct (snd want); done.
  - rewrite first_some_None in E. intros want c Hw Hc. apply Ht. specialize (E want Hw). rewrite first_some_None in E. by apply E.
Qed.
Print Assumptions C21_cla_selection.
Theorem C21_cla_for_node : forall ops clas e n,
  eid_node e = Some n ->
  peers_cla_for_node clas e (prun ops ∅) = match prun ops ∅ !! n with Some p => first_cla clas p | None => None end.
Proof. intros ops clas e n He. unfold peers_cla_for_node. rewrite (get_for_node e n); [done|apply keyed_run, keyed_empty|done]. Qed.
Print Assumptions C21_cla_for_node.
Example C21_case :
  first_cla ex_clas (ex_peer "d" false None 0) = Some (Sender 2 "10.0.0.1:4556" "tcp" (Dtn "d" "")).
Proof. vm_compute. reflexivity. Qed.

(** ** C59 *)
(** A neighbour with announcement interval [i] (milliseconds) was heard at
    time [t]; until its next beacon is due it is considered alive. *)
Definition C59_at (i : N) : Prop := forall cf e a clas services t t',
  pc_custom cf = false -> t <= t' <= t + i -> t' < 2^64 ->
  still_valid cf (t' / 1000) (peer_new (t / 1000) e a false (Some (announced_period i)) clas services) = true.
Definition C59_full : Prop := forall i, 0 < i < 2^64 -> C59_at i.
Theorem C59_on_time_peer_kept_refuted : ~ C59_full.
Proof.
  intros H. specialize (H 1500 ltac:(lia) (PConf 20 false) (Dtn "d" "") (AIp "") [] [] 999 2400 eq_refl ltac:(lia) ltac:(lia)).
  vm_compute in H. discriminate.
Qed.
Print Assumptions C59_on_time_peer_kept_refuted.
Theorem C59_on_time_peer_kept_partial : forall i, i = 1000 \/ 2000 <= i < 2^64 -> C59_at i.
Proof.
  intros i Hi cf e a clas services t t' Hc Ht Hb.
  assert (H1 : t / 1000 <= t' / 1000) by (apply N.div_le_mono; lia).
  apply still_valid_spec; cbn [peer_new pe_static pe_last pe_period].
  - done.
  - split; [done|]. eapply N.le_lt_trans; [apply N.div_le_upper_bound with (q := t'); lia|done].
  - intros secs [= <-]. unfold announced_period. pose proof (N.mul_div_le i 1000 ltac:(lia)). lia.
  - unfold limit. rewrite Hc. cbn [andb peer_new pe_period]. unfold announced_period.
    pose proof (N.div_mod t 1000 ltac:(lia)). pose proof (N.mod_lt t 1000 ltac:(lia)).
    pose proof (N.div_mod t' 1000 ltac:(lia)). pose proof (N.mod_lt t' 1000 ltac:(lia)).
    pose proof (N.div_mod i 1000 ltac:(lia)). pose proof (N.mod_lt i 1000 ltac:(lia)).
    revert H H0 H2 H3 H4 H5 H1. generalize (t / 1000) (t' / 1000) (i / 1000) (t mod 1000) (t' mod 1000) (i mod 1000).
    intros q q' qi r r' ri ? ? ? ? ? ? ?. assert (q' - q <= qi + 1) by lia.
    destruct Hi as [Hi|Hi]; [|assert (2 <= qi) by lia; lia]. assert (qi = 1) by lia. assert (ri = 0) by lia. lia.
Qed.
Print Assumptions C59_on_time_peer_kept_partial.
