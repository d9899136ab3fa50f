(** Threads that lock in the order of a rank never block each other for ever. *)
From stdpp Require Import prelude.
From Coq Require Import Lia.
From Verif Require Import Locks.

Section rank.
Context (rank : lk -> nat).
(** [todo] locks upwards from the stack [held] and ends with nothing held *)
Inductive up : list lk -> list act -> Prop :=
| up_done : up [] []
| up_acq l held todo : Forall (fun h => rank h < rank l) held -> up (l :: held) todo -> up held (Acq l :: todo)
| up_rel l held todo : up held todo -> l ∉ held -> up (l :: held) (Rel l :: todo).
Inductive ranked : lk -> sect -> Prop :=
| ranked_sect o l body : rank o < rank l -> Forall (ranked l) body -> ranked o (Sect l body).
Definition top (s : sect) : Prop := match s with Sect l body => Forall (ranked l) body end.

Definition fine (p : pool) : Prop := Forall (fun t => up (th_held t) (th_todo t)) p.
Lemma up_cons held s todo : Forall (fun h => rank h < match s with Sect l _ => rank l end) held -> top s -> up held todo -> up held (flat s ++ todo).
Proof.
  revert held s todo. fix IH 2. intros held [l body] todo Hh Ht Hu. cbn [flat app]. apply up_acq; [done|].
  rewrite <- app_assoc. cbn in Ht.
  assert (Hl : l ∉ held) by (intros Hin; rewrite Forall_forall in Hh; specialize (Hh l Hin); lia).
  assert (Hu' : up (l :: held) ([Rel l] ++ todo)) by (by apply up_rel).
  revert Ht Hu'. generalize ([Rel l] ++ todo). induction body as [|s body IHb]; intros rest Ht Hu'; [done|].
  cbn [map concat]. rewrite <- app_assoc. apply Forall_cons in Ht as [Hs Ht]. apply IH.
  - inversion Hs as [o l' body' Hlt Hbody]; subst. apply Forall_cons. split; [done|]. eapply Forall_impl; [exact Hh|]. cbn. intros h Hx. lia.
  - by inversion Hs.
  - by apply IHb.
Qed.
Lemma up_program ss : Forall top ss -> up [] (concat (map flat ss)).
Proof. induction 1 as [|s ss Hs _ IH]; [constructor|]. cbn. by apply up_cons. Qed.

Lemma fine_go i p p' : fine p -> go i p = Some p' -> fine p'.
Proof.
  intros Hf Hg. unfold go in Hg. destruct (p !! i) as [[held todo]|] eqn:Ei; [|done].
  pose proof (Forall_lookup_1 _ _ _ _ Hf Ei) as Hu. cbn in Hu.
  destruct todo as [|[l|l] todo]; [done| |].
  - destruct (free l p); [|done]. injection Hg as <-. apply Forall_insert; [done|]. cbn. by inversion Hu.
  - injection Hg as <-. apply Forall_insert; [done|]. cbn. inversion Hu as [| |? held' ? Hu' Hn]; subst.
    cbn. destruct (lk_eq_dec l l) as [_|]; [|done]. rewrite notin_remove; [done|]. by rewrite <- elem_of_list_In.
Qed.
Definition total (p : pool) : nat := sum_list_with (fun t => length (th_todo t)) p.
Lemma total_insert i t t' p : p !! i = Some t -> total (<[i := t']> p) + length (th_todo t) = total p + length (th_todo t').
Proof.
  revert i. induction p as [|u p IH]; intros [|i] H; cbn in *; [done|done| |].
  - injection H as ->. cbn. unfold total in *. lia.
  - specialize (IH i H). unfold total in *. cbn in *. unfold insert in *. lia.
Qed.
Lemma go_total i p p' : go i p = Some p' -> total p = S (total p').
Proof.
  unfold go. destruct (p !! i) as [[held todo]|] eqn:Ei; [|done]. destruct todo as [|[l|l] todo]; [done| |]; intros H.
  - destruct (free l p); [|done]. injection H as <-. pose proof (total_insert i _ (Thread (l :: held) todo) p Ei). cbn in *. lia.
  - injection H as <-. pose proof (total_insert i _ (Thread (remove lk_eq_dec l held) todo) p Ei). cbn in *. lia.
Qed.
(** Among the waiting threads, one that wants the highest lock can go on *)
Definition wants (t : thread) : option lk := match th_todo t with Acq l :: _ => Some l | _ => None end.
Lemma highest (p : pool) : (exists t, t ∈ p /\ wants t <> None) ->
  exists t l, t ∈ p /\ wants t = Some l /\ forall t' l', t' ∈ p -> wants t' = Some l' -> rank l' <= rank l.
Proof.
  induction p as [|u p IH]; intros (t & Ht & Hw); [by apply elem_of_nil in Ht|].
  assert (Hdec : (exists t, t ∈ p /\ wants t <> None) \/ ~ exists t, t ∈ p /\ wants t <> None).
  { destruct (decide (Exists (fun t => wants t <> None) p)) as [He|He]; rewrite Exists_exists in He; [by left|by right]. }
  destruct Hdec as [Hex|Hno].
  - destruct (IH Hex) as (t1 & l1 & H1 & H2 & H3). destruct (wants u) as [lu|] eqn:Eu.
    + destruct (decide (rank lu <= rank l1)) as [Hle|Hgt].
      * exists t1, l1. split_and!; [by right|done|]. intros t' l' [-> | Hin]%elem_of_cons Hw'; [congruence|by eapply H3].
      * exists u, lu. split_and!; [by left|done|]. intros t' l' [-> | Hin]%elem_of_cons Hw'; [replace l' with lu by congruence; lia|]. specialize (H3 t' l' Hin Hw'). lia.
    + exists t1, l1. split_and!; [by right|done|]. intros t' l' [-> | Hin]%elem_of_cons Hw'; [congruence|by eapply H3].
  - apply elem_of_cons in Ht as [-> | Ht]; [|by exfalso; apply Hno; exists t]. destruct (wants u) as [lu|] eqn:Eu; [|done].
    exists u, lu. split_and!; [by left|done|]. intros t' l' [-> | Hin]%elem_of_cons Hw'; [by replace l' with lu by congruence|].
    exfalso. apply Hno. exists t'. split; [done|]. congruence.
Qed.
Definition releases (t : thread) : bool := match th_todo t with Rel _ :: _ => true | _ => false end.
Lemma progress p : fine p -> Forall (fun t => th_todo t = []) p \/ exists i p', go i p = Some p'.
Proof.
  intros Hf. destruct (decide (Forall (fun t => th_todo t = []) p)) as [Hd|Hnd]; [by left|right].
  destruct (decide (Exists (fun t => releases t) p)) as [He|Hno]; rewrite Exists_exists in *.
  - destruct He as (t & Ht & E). unfold releases in E. destruct (th_todo t) as [|[|l] todo] eqn:Et; [done|done|]. clear E. rename Et into E.
    apply elem_of_list_lookup in Ht as [i Hi]. exists i. unfold go. rewrite Hi. destruct t as [held td]. cbn in E. subst td. eauto.
  - assert (Hw : exists t, t ∈ p /\ wants t <> None).
    { apply not_Forall_Exists in Hnd; [|apply _]. apply Exists_exists in Hnd as (t & Ht & Hn). exists t. split; [done|].
      unfold wants. cbn in Hn. destruct (th_todo t) as [|[l|l] todo] eqn:E; [done|done|]. exfalso. apply Hno. exists t. split; [done|]. unfold releases. by rewrite E. }
    destruct (highest p Hw) as (t & l & Ht & Hl & Hmax).
    apply elem_of_list_lookup in Ht as [i Hi]. exists i. unfold go. rewrite Hi. destruct t as [held td]. unfold wants in Hl. cbn in Hl.
    destruct td as [|[l0|l0] td]; try done. injection Hl as ->.
    destruct (free l p) eqn:Efree; [eauto|]. exfalso.
    apply not_true_iff_false in Efree. apply Efree. unfold free. apply forallb_forall. intros t' Ht'%elem_of_list_In. apply bool_decide_eq_true.
    intros Hheld. unfold fine in Hf. rewrite Forall_forall in Hf. pose proof (Hf t' Ht') as Hu. destruct t' as [held' td']. cbn in *.
    inversion Hu as [E1 E2|l' h' todo' Hlt Hu' E1 E2|l' h' todo' Hu' Hn E1 E2]; subst.
    + by apply elem_of_nil in Hheld.
    + rewrite Forall_forall in Hlt. specialize (Hlt l Hheld). specialize (Hmax _ l' Ht' eq_refl). lia.
    + apply Hno. eexists. split; [exact Ht'|]. done.
Qed.
Lemma steps_trans p1 p2 p3 : steps p1 p2 -> steps p2 p3 -> steps p1 p3.
Proof. intros H1. induction 1 as [|p3 i p4 _ IH Hg]; [done|]. by eapply steps_go. Qed.
Lemma finishes p : fine p -> exists p', steps p p' /\ Forall (fun t => th_todo t = []) p'.
Proof.
  remember (total p) as n eqn:Hn. revert p Hn. induction n as [n IH] using lt_wf_ind. intros p -> Hf.
  destruct (progress p Hf) as [Hd|(i & p' & Hg)]; [exists p; split; [constructor|done]|].
  destruct (IH (total p')) with (p := p') as (p2 & Hs & Hd); [apply go_total in Hg; lia|done|by eapply fine_go|].
  exists p2. split; [|done]. eapply steps_trans; [|exact Hs]. eapply steps_go; [constructor|exact Hg].
Qed.
Lemma steps_fine p p' : fine p -> steps p p' -> fine p'.
Proof. intros Hf. induction 1; [done|]. by eapply fine_go. Qed.
End rank.

(** ** An order for all operations but the conflicting ones *)
Definition rank (config_first modules_first : bool) (l : lk) : nat :=
  match l with
  | LSession _ => 0
  | LModuleMap => if modules_first then 1 else 2
  | LConnectorMap => if modules_first then 2 else 1
  | LWsPeers | LTcpPeers => 3
  | LConfig => if config_first then 5 else 6
  | LPeersT => if config_first then 6 else 5
  | LCore => 7
  | LStore | LClas => 8
  | LStats => 9
  | LSender | LMtcp | LTcp | LRouter | LResponses => 10
  end.
Definition suits (cf mf : bool) (o : operation) : Prop :=
  match o with
  | Index => cf = true
  | Janitor _ => cf = false
  | EclaRefused _ _ | EclaRegistered _ | EclaBeacon _ | EclaBundle _ | EclaAnnounce _ => mf = true
  | EclaTransfer _ => mf = false
  | _ => True
  end.
Lemma ranked_one r o l : r o < r l -> ranked r o (one l).
Proof. intros H. by constructor. Qed.
Lemma Forall_concat_map {A} (f : A -> list sect) (P : sect -> Prop) xs : (forall x, Forall P (f x)) -> Forall P (concat (map f xs)).
Proof. intros H. induction xs; cbn; [constructor|]. by apply Forall_app. Qed.
Lemma Forall_each {A} (f : A -> sect) (P : sect -> Prop) xs : (forall x, P (f x)) -> Forall P (map f xs).
Proof. intros H. induction xs; cbn; by constructor. Qed.
Lemma suits_top cf mf o : suits cf mf o -> Forall (top (rank cf mf)) (sections o).
Proof.
  destruct o; cbn; intros Hs; try subst cf; try subst mf;
    repeat first [ apply Forall_nil; exact I | apply Forall_cons; split | progress cbn | apply Forall_app; split
                 | destruct tcp | destruct subscribed | destruct taken | destruct active
                 | match goal with |- ranked _ _ (one _) => apply ranked_one | |- ranked _ _ (Sect _ _) => constructor end ];
    try (destruct cf, mf; cbn; lia); try (destruct cf; cbn; lia); try (destruct mf; cbn; lia).
  all: try (apply Forall_replicate, ranked_one; destruct mf; cbn; lia).
  - apply Forall_concat_map. intros n. apply Forall_replicate, ranked_one. destruct cf; cbn; lia.
  - apply Forall_each. intros []; cbn; repeat first [apply Forall_nil; exact I|apply Forall_cons; split|constructor]; destruct cf; cbn; lia.
  - apply Forall_each. intros tcp. repeat first [ apply Forall_nil; exact I | apply Forall_cons; split | constructor | destruct tcp ]; destruct cf; cbn; lia.
  - apply Forall_each. intros tcp. apply ranked_one. destruct tcp; cbn; lia.
Qed.
Lemma suits_fine cf mf oss : Forall (Forall (suits cf mf)) oss -> fine (rank cf mf) (init oss).
Proof.
  intros H. unfold fine, init. apply Forall_fmap. eapply Forall_impl; [exact H|]. intros os Ho. cbn. apply up_program.
  induction Ho as [|o os Ho _ IH]; cbn; [constructor|]. apply Forall_app. split; [by apply suits_top|done].
Qed.
