(** Counting along runs of the pipeline: every access has a weight, a task has
    a budget it never overdraws. *)
From stdpp Require Import prelude strings pretty gmap sorting.
From Coq Require Import NArith ZArith Lia.
From Verif Require Import Core StoreMem Peers Routing Pipeline PipelineBase PipelineProofs PipelineInv.
Open Scope Z_scope.

Definition zsum (l : list Z) : Z := fold_right Z.add 0 l.
Lemma zsum_app a b : zsum (a ++ b) = zsum a + zsum b.
Proof. unfold zsum. induction a as [|x a IH]; cbn [app fold_right]; lia. Qed.
Lemma zsum_insert l i x y : l !! i = Some x -> zsum (<[i := y]> l) = zsum l - x + y.
Proof.
  revert i. induction l as [|z l IH]; intros [|i] H; try done.
  - injection H as ->. cbn. lia.
  - change (z + zsum (<[i := y]> l) = z + zsum l - x + y). rewrite (IH i H). lia.
Qed.
Lemma zsum_nonneg l : Forall (fun x => 0 <= x) l -> 0 <= zsum l.
Proof. unfold zsum. induction 1; cbn; lia. Qed.
Lemma zsum_zero {T} (l : list T) : zsum (map (fun _ => 0) l) = 0.
Proof. induction l as [|x l IH]; [done|]. change (0 + zsum (map (fun _ => 0) l) = 0). lia. Qed.

(** [w]: the weight of an access; [A]: what is known about its answer *)
Section budgets.
Context (w : label -> Z) (A : label -> Prop).
Fixpoint cb (B : Z) (c : cprog) : Prop :=
  0 <= B /\ match c with
            | CDone _ => True
            | CAct o k => forall r, A (LAct o r) -> cb (B - w (LAct o r)) (k r)
            end.
Fixpoint pb {X} (Q : Z -> X -> Prop) (B : Z) (p : prog X) : Prop :=
  0 <= B /\ match p with
            | Ret a => Q B a
            | Panic => True
            | Act o k => forall r, A (LAct o r) -> pb Q (B - w (LAct o r)) (k r)
            | Spawn q k => pb Q (B - w (LSpawn q)) k
            | Par cs k => exists Bs B0, Forall2 cb Bs cs /\ 0 <= B0 /\ zsum Bs + B0 = B /\ w LJoin = 0 /\
                forall bs B', B0 <= B' -> pb Q B' (k bs)
            end.
Lemma cb_nonneg B c : cb B c -> 0 <= B.
Proof. destruct c; cbn; by intros []. Qed.
Lemma pb_nonneg {X} Q B (p : prog X) : pb Q B p -> 0 <= B.
Proof. destruct p; cbn; by intros []. Qed.
Lemma pb_step {X} Q B (p : prog X) l p' : pb Q B p -> pstep p l p' -> A l -> pb Q (B - w l) p'.
Proof.
  intros Hp Hs Ha. destruct Hs as [o k r|q k|cs k i c l c' Hi Hc|cs k bs Hd]; cbn in Hp.
  - by apply Hp.
  - by apply Hp.
  - destruct Hp as (H0 & Bs & B0 & HF & HB0 & HB & HJ & Hk).
    destruct (Forall2_lookup_r _ _ _ _ _ HF Hi) as (b & Hb & Hcb).
    destruct Hc as [o kc r]. cbn in Hcb. destruct Hcb as [_ Hcb]. specialize (Hcb r Ha).
    assert (HF' : Forall2 cb (<[i := b - w (LAct o r)]> Bs) (<[i := kc r]> cs)) by (by apply Forall2_insert).
    assert (Hsum : zsum (<[i := b - w (LAct o r)]> Bs) + B0 = B - w (LAct o r)) by (rewrite (zsum_insert _ _ _ _ Hb); lia).
    cbn. split.
    + rewrite <- Hsum. assert (0 <= zsum (<[i := b - w (LAct o r)]> Bs)); [|lia]. apply zsum_nonneg.
      clear -HF'. induction HF' as [|x y l k H _ IH]; constructor; [by eapply cb_nonneg|done].
    + eauto 10.
  - destruct Hp as (H0 & Bs & B0 & HF & HB0 & HB & HJ & Hk). rewrite HJ, Z.sub_0_r. apply Hk.
    assert (0 <= zsum Bs); [|lia]. apply zsum_nonneg.
    clear -HF. induction HF as [|x y l k H _ IH]; constructor; [by eapply cb_nonneg|done].
Qed.
Lemma pb_bind {X Y} Q B (m : prog X) (f : X -> prog Y) :
  pb (fun B a => pb Q B (f a)) B m -> pb Q B (bind m f).
Proof.
  revert B. induction m as [a| |o k IH|q k IH|cs k IH]; intros B; cbn.
  - by intros [_ H].
  - done.
  - intros [H0 H]. split; [done|]. intros r Hr. by apply IH, H.
  - intros [H0 H]. split; [done|]. by apply IH.
  - intros (H0 & Bs & B0 & HF & HB0 & HB & HJ & Hk). split; [done|]. exists Bs, B0. do 4 (split; [done|]).
    intros bs B' HB'. apply IH. by apply Hk.
Qed.
Lemma pb_conseq {X} (Q Q' : Z -> X -> Prop) B (p : prog X) :
  pb Q B p -> (forall B' a, 0 <= B' -> Q B' a -> Q' B' a) -> pb Q' B p.
Proof.
  intros Hp HQ. revert B Hp. induction p as [a| |o k IH|q k IH|cs k IH]; intros B; cbn.
  - intros [H1 H2]. split; [done|by apply HQ].
  - done.
  - intros [H1 H2]. split; [done|]. intros r Hr. by apply IH, H2.
  - intros [H1 H2]. split; [done|]. by apply IH.
  - intros (H1 & Bs & B0 & HF & HB0 & HB & HJ & Hk). split; [done|]. exists Bs, B0. do 4 (split; [done|]). intros. by apply IH, Hk.
Qed.
Lemma pb_call {o} Q B : 0 <= B -> (forall r, A (LAct o r) -> 0 <= B - w (LAct o r) /\ Q (B - w (LAct o r)) r) -> pb Q B (call o).
Proof. intros H0 H. cbn. split; [done|]. intros r Hr. by apply H. Qed.
(** accesses without weight *)
Lemma cb_free B c : cemits (fun l => w l = 0) c -> 0 <= B -> cb B c.
Proof.
  induction c as [|o k IH]; cbn; [by split|]. intros H HB. split; [done|]. intros r _. destruct (H r) as [-> H2].
  rewrite Z.sub_0_r. by apply IH.
Qed.
Lemma pb_free {X} (C : label -> Prop) (Q : Z -> X -> Prop) B (p : prog X) :
  emits C p -> (forall l, C l -> w l = 0) -> 0 <= B -> (forall a B', B <= B' -> Q B' a) -> pb Q B p.
Proof.
  intros He HC. assert (He' : emits (fun l => w l = 0) p) by (by eapply emits_mono). clear He.
  revert B He'. induction p as [a| |o k IH|q k IH|cs k IH]; intros B He HB HQ; cbn in He |- *; (split; [done|]).
  - by apply HQ.
  - done.
  - intros r _. destruct (He r) as [-> H2]. rewrite Z.sub_0_r. by apply IH.
  - destruct He as [-> H2]. rewrite Z.sub_0_r. by apply IH.
  - destruct He as (HF & HJ & Hk). exists (map (fun _ => 0) cs), B. split; [|split; [done|split; [|split; [done|]]]].
    + clear -HF. induction HF as [|c cs H _ IH]; cbn; constructor; [by apply cb_free|done].
    + rewrite zsum_zero. lia.
    + intros bs B' HB'. apply IH; [apply Hk|lia|]. intros a B2 H2. apply HQ. lia.
Qed.
End budgets.

(** ** Along a run *)
Definition wsum (w : label -> Z) (tr : list event) : Z :=
  zsum (map (fun e => match e with EStep _ l => w l | _ => 0 end) tr).
Lemma wsum_snoc w tr e : wsum w (tr ++ [e]) = wsum w tr + match e with EStep _ l => w l | _ => 0 end.
Proof. unfold wsum. rewrite map_app, zsum_app. cbn. lia. Qed.

(** the answer of a look-up has the id that was asked for *)
Definition right_id (l : label) : Prop :=
  match l with
  | LAct o r => match o return resp o -> Prop with SGet id => fun r => match r with Some b => bid b = id | None => True end | _ => fun _ => True end r
  | _ => True
  end.
Section along.
Context (host : eid) (gen_reports parallel : bool) (parse_record : list N -> option arecord)
        (lifetime_exceeded : N -> bundle -> bool).
Notation task_of := (task_of host gen_reports parallel parse_record).
Notation run := (run host gen_reports parallel parse_record lifetime_exceeded).

Lemma run_right_id tr m i l : run tr m -> EStep i l ∈ tr -> right_id l.
Proof.
  intros Hr Hl. apply run_inv in Hr. destruct l as [o r| |]; try done. destruct o; try done. cbn in *.
  destruct r as [b|]; [|done]. by apply (iv_get _ _ Hr) in Hl as [? _].
Qed.
Lemma run_budget (w : label -> Z) (beta : kind -> Z) tr m :
  (forall k, pb w right_id (fun _ _ => True) (beta k) (task_of k)) ->
  run tr m -> wsum w tr <= zsum (map beta (tasks tr)).
Proof.
  intros Hk Hr.
  assert (HI : exists Bs, Forall2 (fun B t => pb w right_id (fun _ _ => True) B (snd t)) Bs (m_tasks m) /\
     wsum w tr + zsum Bs = zsum (map beta (tasks tr))).
  { induction Hr as [m (_ & Ht & _)|tr m e m' Hr IH Hs].
    { exists []. rewrite Ht. by split; [constructor|]. }
    destruct IH as (Bs & HF & Hsum).
    assert (Hr' : run (tr ++ [e]) m') by (by eapply run_step).
    rewrite wsum_snoc, tasks_app, map_app, zsum_app.
    destruct Hs as [m k Hst|m e|m e|m e on|m ps|m u d Hu Hd|m i k p o r p' n' Hi Hp Ha|m i k p q p' Hi Hp|m i k p p' Hi Hp]; cbn.
    - exists (Bs ++ [beta k]). split; [apply Forall2_app; [done|constructor; [apply Hk|constructor]]|]. rewrite zsum_app. cbn. lia.
    - exists Bs. split; [by destruct (has_endpoint e (m_node m))|lia].
    - exists Bs. split; [done|lia].
    - exists Bs. split; [done|lia].
    - exists Bs. split; [done|lia].
    - exists Bs. split; [done|lia].
    - destruct (Forall2_lookup_r _ _ _ _ _ HF Hi) as (B & HB & Hpb). cbn in Hpb.
      assert (Hid : right_id (LAct o r)) by (eapply (run_right_id _ _ i); [exact Hr'|apply elem_of_app; right; by left]).
      exists (<[i := B - w (LAct o r)]> Bs). split; [|rewrite (zsum_insert _ _ _ _ HB); lia].
      apply Forall2_insert; [done|]. cbn. by eapply pb_step.
    - destruct (Forall2_lookup_r _ _ _ _ _ HF Hi) as (B & HB & Hpb). cbn in Hpb.
      exists (<[i := B - w (LSpawn q)]> Bs ++ [beta (KForward q)]). split.
      + apply Forall2_app; [apply Forall2_insert; [done|]; cbn; by eapply pb_step|]. constructor; [apply Hk|constructor].
      + rewrite zsum_app, (zsum_insert _ _ _ _ HB). cbn. lia.
    - destruct (Forall2_lookup_r _ _ _ _ _ HF Hi) as (B & HB & Hpb). cbn in Hpb.
      exists (<[i := B - w LJoin]> Bs). split; [|rewrite (zsum_insert _ _ _ _ HB); lia].
      apply Forall2_insert; [done|]. cbn. by eapply pb_step. }
  destruct HI as (Bs & HF & <-). assert (0 <= zsum Bs); [|lia]. apply zsum_nonneg.
  clear -HF. induction HF as [|x y l k H _ IH]; constructor; [by eapply pb_nonneg|done].
Qed.

(** ** Transfers, failure reports and the agent's answers *)
(** [PN], [PF]: the bundles and nodes counted.  A transfer spends one unit when
    it succeeds, or one when its failure is reported; the agent's answer grants
    the unit.  For [PF], reporting a failure spends what the failure granted. *)
Context (PN PF : string -> string -> bool).
Definition ind (b : bool) : Z := if b then 1 else 0.
Definition hits (id : string) (ss : list sender) : Z := zsum (map (fun s => ind (PN id (node_or_empty (sd_hop s)))) ss).
Definition spend (l : label) : Z :=
  match l with
  | LAct o r =>
      match o return resp o -> Z with
      | Transfer s b => fun ok : bool => if ok then ind (PN (bid b) (node_or_empty (sd_hop s))) else - ind (PF (bid b) (node_or_empty (sd_hop s)))
      | Notify n => fun _ => match n with SendingFailed id x => ind (PN id x) + ind (PF id x) | _ => 0 end
      | Route p => fun a => match a with Some (ss, _) => - hits (p_id p) ss | None => 0 end
      | _ => fun _ => 0
      end r
  | _ => 0
  end.
Lemma ind_nonneg b : 0 <= ind b.
Proof. by destruct b. Qed.
Lemma hits_nonneg id ss : 0 <= hits id ss.
Proof. apply zsum_nonneg. apply Forall_fmap, Forall_forall. intros s _. apply ind_nonneg. Qed.
Lemma house_spend l : house l -> spend l = 0.
Proof. by destruct l as [[]| |]. Qed.
Lemma front_spend l : front l -> spend l = 0.
Proof. destruct l as [[]| |]; try done. cbn. by destruct n. Qed.
Lemma send_one_cb id b s : bid b = id -> cb spend right_id (ind (PN id (node_or_empty (sd_hop s)))) (send_one id b s).
Proof.
  intros <-. assert (H0 := ind_nonneg (PN (bid b) (node_or_empty (sd_hop s)))). assert (H1 := ind_nonneg (PF (bid b) (node_or_empty (sd_hop s)))).
  cbn. split; [done|]. intros [|] _; cbn; rewrite ?Z.sub_diag, ?Z.sub_0_r; (split; [lia|]); intros _ _.
  - destruct (eid_node (sd_hop s)); cbn; [|done]. split; [done|]. intros _ _. done.
  - destruct (eid_node (sd_hop s)) as [n|] eqn:E; cbn; [|lia]. split; [lia|]. intros _ _.
    unfold node_or_empty in *. rewrite E in *. cbn in *. split; [lia|]. intros r _. destruct r; cbn; [|lia]. split; [lia|]. intros _ _. lia.
Qed.
Lemma hits_cb id b ss : bid b = id ->
  Forall2 (cb spend right_id) (map (fun s => ind (PN id (node_or_empty (sd_hop s)))) ss) (map (send_one id b) ss).
Proof. intros Hb. induction ss as [|s ss IH]; cbn; constructor; [by apply send_one_cb|done]. Qed.

Lemma pb_weak {X} (Q : Z -> X -> Prop) B0 (p : prog X) : emits house p -> 0 <= B0 ->
  (forall a B', B0 <= B' -> Q B' a) -> pb spend right_id Q B0 p.
Proof. intros. eapply pb_free; [done|apply house_spend|done..]. Qed.
Lemma copy_pb p nodes del b B : bid b = p_id p -> hits (p_id p) nodes <= B ->
  pb spend right_id (fun _ _ => True) B (forward_copy host gen_reports parse_record p nodes del b).
Proof.
  intros Hb HB. assert (H0 := hits_nonneg (p_id p) nodes). unfold forward_copy, handle_lifetime.
  apply pb_bind, pb_bind, pb_call; [lia|]. intros over _. cbn [spend]. rewrite Z.sub_0_r. split; [lia|]. destruct over.
  { apply pb_bind. apply pb_weak; [apply delete_fresh_house|lia|]. intros. cbn. lia. }
  cbn [pb]. split; [lia|].
  assert (Hend : forall b3, bid b3 = p_id p -> forall B', B <= B' -> pb spend right_id (fun _ _ => True) B' (Par (map (send_one (p_id p) b3) nodes) (after_transfers gen_reports parse_record p b3 del))).
  { intros b3 Hb3 B' HB'. cbn. split; [lia|]. exists (map (fun s => ind (PN (p_id p) (node_or_empty (sd_hop s)))) nodes), (B' - hits (p_id p) nodes).
    split; [by apply hits_cb|]. split; [lia|]. split; [unfold hits; lia|]. split; [done|].
    intros bs B2 HB2. apply pb_weak; [apply after_house|lia|done]. }
  assert (Hage : forall b2, bid b2 = p_id p -> forall B', B <= B' -> pb spend right_id (fun _ _ => True) B'
     (let* ob := handle_age gen_reports b2 in match ob with None => Ret false | Some b => Par (map (send_one (p_id p) b) nodes) (after_transfers gen_reports parse_record p b del) end)).
  { intros b2 Hb2 B' HB'. apply pb_bind. unfold handle_age.
    assert (Hfail : forall b0 r B2, B <= B2 -> pb spend right_id (fun B0 a => pb spend right_id (fun _ _ => True) B0 match a with None => Ret false | Some b => Par (map (send_one (p_id p) b) nodes) (after_transfers gen_reports parse_record p b del) end) B2 (delete_fresh gen_reports b0 r ;;; Ret None)).
    { intros b0 r B2 H2. apply pb_bind. apply pb_weak; [apply delete_fresh_house|lia|]. intros _ B3 H3. cbn. lia. }
    assert (Hgo : forall b0 B2, bid b0 = p_id p -> B <= B2 -> pb spend right_id (fun B0 a => pb spend right_id (fun _ _ => True) B0 match a with None => Ret false | Some b => Par (map (send_one (p_id p) b) nodes) (after_transfers gen_reports parse_record p b del) end) B2 (Ret (Some b0))).
    { intros b0 B2 Hb0 H2. split; [lia|]. by apply Hend. }
    destruct (block_by_type BUNDLE_AGE_BLOCK b2) as [[ty nu fl d]|]; [|by apply Hgo].
    destruct d; try (apply pb_bind, pb_call; [lia|]; intros om _; cbn [spend]; rewrite Z.sub_0_r; split; [lia|]; by apply Hgo).
    apply pb_bind, pb_call; [lia|]. intros om _. cbn [spend]. rewrite Z.sub_0_r. split; [lia|]. destruct om as [mm|]; [|by apply Hgo].
    apply pb_bind, pb_call; [lia|]. intros now _. cbn [spend]. rewrite Z.sub_0_r. split; [lia|]. cbv zeta.
    destruct (_ =? 0)%N; [by apply Hgo|]. destruct (_ <=? _)%N; [by apply Hfail|]. apply Hgo; [by rewrite bid_with|done]. }
  assert (Hprev : forall b1, bid b1 = p_id p -> forall B', B <= B' -> pb spend right_id (fun _ _ => True) B'
     (let* b := handle_previous_node host b1 in let* ob := handle_age gen_reports b in match ob with None => Ret false | Some b => Par (map (send_one (p_id p) b) nodes) (after_transfers gen_reports parse_record p b del) end)).
  { intros b1 Hb1 B' HB'. apply pb_bind. unfold handle_previous_node.
    assert (Hgo : forall b0, bid b0 = p_id p -> pb spend right_id (fun B0 a => pb spend right_id (fun _ _ => True) B0 (let* ob := handle_age gen_reports a in match ob with None => Ret false | Some b => Par (map (send_one (p_id p) b) nodes) (after_transfers gen_reports parse_record p b del) end)) B' (Ret b0)).
    { intros b0 Hb0. split; [lia|]. by apply Hage. }
    destruct (block_by_type PREVIOUS_NODE_BLOCK b1) as [[ty nu fl d]|]; [|apply Hgo; unfold add_block; by rewrite ?bid_with].
    destruct d; try (cbn; lia). apply Hgo. by rewrite bid_with. }
  apply pb_bind. unfold handle_hop_count.
  destruct (block_by_type HOP_COUNT_BLOCK b) as [[ty nu fl d]|]; [|split; [lia|]; by apply Hprev].
  destruct d; try (split; [lia|]; by apply Hprev). cbv zeta. destruct (_ <? _)%N.
  - apply pb_bind. apply pb_weak; [apply delete_fresh_house|lia|]. intros _ B3 H3. cbn. lia.
  - split; [lia|]. apply Hprev; [by rewrite bid_with|lia].
Qed.
Lemma forward_pb p B : 0 <= B -> pb spend right_id (fun _ _ => True) B (forward host gen_reports parse_record p).
Proof.
  intros HB. unfold forward. apply pb_bind. apply pb_weak; [apply sync_house|done|]. intros ok B1 HB1.
  destruct ok; [|cbn; lia].
  apply pb_bind, pb_call; [lia|]. intros a _. destruct a as [[nodes del]|]; cbn [spend].
  2:{ cbn. lia. }
  assert (H0 := hits_nonneg (p_id (forwarding p)) nodes). split; [lia|].
  destruct nodes as [|s nodes].
  { change (hits _ []) with 0. destruct del; [|cbn; lia]. apply pb_weak; [by intros r|lia|done]. }
  apply pb_bind, pb_call; [lia|]. intros ob Hob. cbn [spend]. rewrite Z.sub_0_r. split; [lia|].
  destruct ob as [b|]; [|cbn [pb]; split; [lia|done]]. apply copy_pb; [exact Hob|lia].
Qed.
Lemma task_pb k : pb spend right_id (fun _ _ => True) 0 (task_of k).
Proof.
  destruct k; cbn [Pipeline.task_of].
  - apply pb_bind. eapply pb_free; [apply receive_front|apply front_spend|done|]. intros. cbn. lia.
  - apply pb_bind. eapply pb_free; [apply submit_front|apply front_spend|done|]. intros. cbn. lia.
  - apply pb_bind. eapply pb_conseq; [by apply forward_pb|]. intros. cbn. lia.
  - unfold process_bundles. apply pb_bind, pb_call; [done|]. intros ps _. cbn [spend]. rewrite Z.sub_0_r. split; [done|].
    apply pb_bind. apply pb_weak; [apply expired_house|done|]. intros _ B1 H1.
    apply pb_bind, pb_call; [lia|]. intros acc _. cbn [spend]. rewrite Z.sub_0_r. split; [lia|].
    destruct acc; [|cbn; lia]. apply pb_bind, pb_call; [lia|]. intros ids _. cbn [spend]. rewrite Z.sub_0_r. split; [lia|].
    apply pb_bind. apply pb_weak; [apply load_house|lia|]. intros l B2 H2.
    generalize (merge_sort by_time l). assert (HB2 : 0 <= B2) by lia. revert HB2. clear. revert B2.
    intros B2 HB2 l. revert B2 HB2. induction l as [|q l IH]; intros B2 HB2; cbn [forward_all]; [cbn; lia|].
    destruct parallel.
    + cbn. split; [lia|]. apply IH. lia.
    + apply pb_bind. eapply pb_conseq; [by apply forward_pb|]. intros B3 _ HB3 _. by apply IH.
  - unfold app_pop, remove_if_singleton. eapply (pb_free _ _ (fun l => spend l = 0)); [|done..]. emit; done.
  - unfold user_delete. eapply (pb_free _ _ (fun l => spend l = 0)); [|done..]. emit; done.
Qed.
Theorem spent tr m : run tr m -> wsum spend tr <= 0.
Proof.
  intros Hr. assert (H := run_budget spend (fun _ => 0) tr m task_pb Hr).
  rewrite zsum_zero in H. done.
Qed.

(** ** Announcements: only receptions and submissions of the bundle *)
Context (id : string).
Definition tells (l : label) : Z :=
  match l with
  | LAct (Notify (IncomingBundle b)) _ => ind (bool_decide (bid b = id))
  | LAct (Notify (IncomingNoPrev i _)) _ => ind (bool_decide (i = id))
  | _ => 0
  end.
Definition bearer (k : kind) : Z :=
  match k with KReceive b | KSubmit b => ind (bool_decide (bid b = id)) | _ => 0 end.
Lemma lookups_tells l : lookups l -> tells l = 0.
Proof. by destruct l as [[]| |]. Qed.
Lemma pb_look {X} (Q : Z -> X -> Prop) B0 (p : prog X) : emits lookups p -> 0 <= B0 ->
  (forall a B', B0 <= B' -> Q B' a) -> pb tells right_id Q B0 p.
Proof. intros. eapply pb_free; [done|apply lookups_tells|done..]. Qed.
Definition mute (l : label) : Prop := match l with LAct (Notify (IncomingBundle _)) _ | LAct (Notify (IncomingNoPrev _ _)) _ => False | _ => True end.
Lemma mute_tells l : mute l -> tells l = 0.
Proof. destruct l as [o r| |]; try done. destruct o; try done. by destruct n. Qed.
Lemma lookups_mute l : lookups l -> mute l.
Proof. by destruct l as [[]| |]. Qed.
Lemma house_mute l : house l -> mute l.
Proof. by destruct l as [[]| |]. Qed.
Lemma local_mute p : emits mute (local_delivery host gen_reports parse_record p).
Proof.
  unfold local_delivery, remove_if_singleton.
  emit; try (eapply emits_mono; [apply lookups_mute|]); first [apply record_lookups|apply delete_lookups|apply sync_lookups|apply report_lookups].
Qed.
Lemma dispatch_tells p B : ind (bool_decide (p_id p = id)) <= B ->
  pb tells right_id (fun B' _ => 0 <= B') B (dispatch host gen_reports parse_record p).
Proof.
  intros HB. assert (H0 := ind_nonneg (bool_decide (p_id p = id))). unfold dispatch.
  apply pb_bind, pb_call; [lia|]. intros ob Hob. cbn [tells]. rewrite Z.sub_0_r. split; [lia|]. destruct ob as [b|]; [|by split; [lia|]].
  cbn in Hob. apply pb_bind, pb_call; [lia|]. intros rr _. cbn [tells]. rewrite Hob. split; [lia|].
  eapply (pb_free _ _ mute); [|apply mute_tells|lia|intros; lia]. emit. apply local_mute.
Qed.
Lemma receive_tells b : pb tells right_id (fun B' _ => 0 <= B') (ind (bool_decide (bid b = id))) (receive host gen_reports parse_record b).
Proof.
  assert (H0 := ind_nonneg (bool_decide (bid b = id))). unfold receive.
  apply pb_bind, pb_call; [done|]. intros known _. cbn [tells]. rewrite Z.sub_0_r. split; [done|]. destruct known as [[|]|].
  2:{ apply (pb_free _ _ mute); [emit|apply mute_tells|done|intros; lia]. }
  2:{ by split. }
  apply pb_bind, pb_call; [done|]. intros rr _. cbn [tells]. rewrite Z.sub_0_r. split; [done|].
  apply pb_bind, pb_call; [done|]. intros now _. cbn [tells]. rewrite Z.sub_0_r. split; [done|]. cbv zeta.
  apply pb_bind, pb_look; [apply sync_lookups|done|]. intros ok B1 H1. destruct ok; [|split; lia].
  apply pb_bind, pb_look; [destruct (_ && _); [apply report_lookups|done]|lia|]. intros _ B2 H2.
  apply pb_bind, pb_look; [apply scan_lookups|lia|]. intros rm B3 H3. destruct rm as [rm|]; [|split; lia].
  destruct (remove_indices _ _) as [l|]; [|split; [lia|done]].
  apply pb_bind, pb_call; [lia|]. intros ok _. cbn [tells]. rewrite Z.sub_0_r. split; [lia|]. destruct ok; [|split; lia].
  apply pb_bind. eapply pb_conseq; [apply dispatch_tells; cbn; lia|]. intros. split; lia.
Qed.
Lemma submit_tells b : pb tells right_id (fun B' _ => 0 <= B') (ind (bool_decide (bid b = id))) (submit host gen_reports parse_record b).
Proof.
  assert (H0 := ind_nonneg (bool_decide (bid b = id))). unfold submit, transmit.
  apply pb_bind, pb_call; [done|]. intros ok _. cbn [tells]. rewrite Z.sub_0_r. split; [done|]. destruct ok; [|by split].
  apply pb_bind, pb_call; [done|]. intros now _. cbn [tells]. rewrite Z.sub_0_r. split; [done|]. cbv zeta.
  apply pb_bind, pb_look; [apply sync_lookups|done|]. intros ok B1 H1. destruct ok; [|split; lia].
  apply pb_bind, pb_look; [emit|lia|]. intros ok B2 H2. destruct ok.
  - apply dispatch_tells. cbn. lia.
  - apply pb_look; [apply delete_lookups|lia|intros; lia].
Qed.
Lemma send_one_mute i b s : cemits mute (send_one i b s).
Proof.
  cbn. intros [|]; (split; [done|]); intros []; (split; [done|]); destruct (eid_node (sd_hop s)) as [n|]; cbn; try done.
  intros _. split; [done|]. intros r. split; [done|]. by destruct r.
Qed.
Lemma forward_mute p : emits mute (forward host gen_reports parse_record p).
Proof.
  unfold forward, forward_copy, handle_lifetime, handle_hop_count, handle_previous_node, handle_age. emit; try done;
    try (eapply emits_mono; [apply house_mute|]; first [apply sync_house|apply delete_fresh_house]).
  all: split; [apply Forall_fmap, Forall_forall; intros; apply send_one_mute|]; (split; [done|]); intros bs;
    (eapply emits_mono; [apply house_mute|]; apply after_house).
Qed.
Lemma task_tells k : pb tells right_id (fun _ _ => True) (bearer k) (task_of k).
Proof.
  destruct k; cbn [Pipeline.task_of bearer].
  - apply pb_bind. eapply pb_conseq; [apply receive_tells|]. intros. by split.
  - apply pb_bind. eapply pb_conseq; [apply submit_tells|]. intros. by split.
  - eapply (pb_free _ _ mute); [|apply mute_tells|done..]. emit. apply forward_mute.
  - eapply (pb_free _ _ mute); [|apply mute_tells|done..]. unfold process_bundles.
    emit; try done; try (eapply emits_mono; [apply house_mute|]; first [apply expired_house|apply load_house]).
    generalize (merge_sort by_time a2). intros l. induction l as [|q l IH]; cbn [forward_all]; [done|]. destruct parallel; emit; try done; apply forward_mute.
  - eapply (pb_free _ _ mute); [|apply mute_tells|done..]. unfold app_pop, remove_if_singleton. emit.
  - eapply (pb_free _ _ mute); [|apply mute_tells|done..]. unfold user_delete. emit.
Qed.
Theorem told tr m : run tr m -> wsum tells tr <= zsum (map bearer (tasks tr)).
Proof. apply run_budget, task_tells. Qed.
End along.
