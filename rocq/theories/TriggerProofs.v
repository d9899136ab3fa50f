(** The websocket session of a dtntrigger (Tools.v): what it is sent. *)
From stdpp Require Import prelude strings pretty gmap.
From Coq Require Import NArith Lia ZifyBool ZifyN ZifyNat.
From Verif Require Import Core Routing Apps AppsProofs AppsOrder.
Open Scope N_scope.

Lemma elem_alter e f l a : a ∈ alter_agent e f l -> a ∈ l \/ exists x, x ∈ l /\ ag_eid x = e /\ a = f x.
Proof.
  induction l as [|x l IH]; cbn; [by left|]. case_bool_decide as H.
  - intros [-> |Hin]%elem_of_cons; [|left; by right]. right. exists x. split; [by left|done].
  - intros [-> |Hin]%elem_of_cons; [left; by left|]. apply IH in Hin as [Hin|(y & Hy & He & ->)]; [left; by right|].
    right. exists y. split; [by right|done].
Qed.
Lemma elem_unregister e l a : a ∈ unregister e l -> a ∈ l.
Proof.
  induction l as [|x l IH]; cbn; [done|]. case_bool_decide; [by right|]. intros [-> |Hin]%elem_of_cons; [by left|]. right. by apply IH.
Qed.

Section ws.
Context (parse_eid : string -> option eid) (host : eid) (local_eid : string -> option eid).
Context (dec_bundle : list N -> option bundle) (dec_send : fmt -> list N -> option send_data).
Notation step := (Apps.step parse_eid host local_eid dec_bundle dec_send).
Notation run := (Apps.run parse_eid host local_eid dec_bundle dec_send).
Ltac inv_step H := inversion H; subst; clear H; cbn [a_agents a_sessions a_sent upd set_session] in *.

(** who subscribes *)
Lemma step_subs st v st' i a : step st v st' -> a ∈ a_agents st' -> ag_sub a = Some i ->
  (exists x, x ∈ a_agents st /\ ag_eid x = ag_eid a /\ ag_sub x = Some i) \/ v = EWork i (WSet (ag_eid a)) None.
Proof.
  intros H Hin Hs.
  assert (Hold : a ∈ a_agents st -> (exists x, x ∈ a_agents st /\ ag_eid x = ag_eid a /\ ag_sub x = Some i) \/ v = EWork i (WSet (ag_eid a)) None) by eauto.
  assert (Halt : forall e f, a ∈ alter_agent e f (a_agents st) -> (forall x, ag_eid (f x) = ag_eid x) -> (forall x, ag_sub (f x) = Some i -> ag_sub x = Some i) ->
     (exists x, x ∈ a_agents st /\ ag_eid x = ag_eid a /\ ag_sub x = Some i) \/ v = EWork i (WSet (ag_eid a)) None).
  { intros e f Ha He Hf. apply elem_alter in Ha as [Ha|(x & Hx & _ & ->)]; [by apply Hold|]. left. exists x. split; [done|]. rewrite He. split; [done|]. by apply Hf. }
  inv_step H; try (by apply Hold); try (eapply Halt; [exact Hin|done..]).
  - unfold register in Hin. destruct (known e (a_agents st)); [by apply Hold|]. apply elem_of_app in Hin as [Hin| ->%elem_of_list_singleton]; [by apply Hold|done].
  - apply elem_unregister in Hin. by apply Hold.
  - apply elem_alter in Hin as [Hin|(x & Hx & He & ->)]; [by apply Hold|]. cbn in Hs. injection Hs as ->. right. cbn. by rewrite He.
Qed.
(** events of other sessions *)
Definition about (i : nat) (v : ev) : Prop :=
  match v with
  | EMsg j _ | EWork j _ _ | ETake j _ | EHand j _ | EClose j | EDrop j | EDeliver _ (Passed j) => j = i
  | _ => False
  end.
Lemma step_other st v st' i s : step st v st' -> a_sessions st !! i = Some s -> ~ about i v -> a_sessions st' !! i = Some s.
Proof.
  intros H Hi Ha. inv_step H; cbn [about] in Ha; try done;
    try (rewrite list_lookup_insert_ne by done; done).
  rewrite lookup_app_l by (by eapply lookup_lt_Some). done.
Qed.

Definition said1 (i : nat) (v : ev) : list wsmsg :=
  match v with EMsg j m => if decide (j = i) then match m with MPong => [] | m => [m] end else [] | _ => [] end.
Definition wrote_b (i : nat) (v : ev) : list bundle :=
  match v with EHand j b | EWork j WFlush (Some b) => if decide (j = i) then [b] else [] | _ => [] end.

Definition T1 : wsout := OText "200 tx mode: bundle".
Definition OK : string := "200 subscribed".
Record quiet (i : nat) (st : apps) (s : session) : Prop := {
  q_sub : forall a, a ∈ a_agents st -> ag_sub a <> Some i;
  q_chan : ws_chan s = []; q_hand : ws_hand s = None; q_held : ws_held s = []; q_subs : ws_subs s = None }.
Record mine (e : eid) (i : nat) (st : apps) (s : session) : Prop := {
  m_sub : forall a, a ∈ a_agents st -> ag_sub a = Some i -> ag_eid a = e;
  m_chan : forall b, b ∈ ws_chan s -> b_dst b = e;
  m_hand : forall b, ws_hand s = Some b -> b_dst b = e;
  m_held : forall b o, (b, o) ∈ ws_held s -> b_dst b = e;
  m_subs : forall x, x ∈ default [] (ws_subs s) -> x = e;
  m_mode : ws_mode s = MBundle }.
Definition serving (e : eid) (o : wop) : Prop := match o with WFetch | WFlush | WClear _ => True | WPop x => x = e | _ => False end.
(** where the exchange with the client [i] for [arg] stands *)
Inductive phase (arg : string) (i : nat) (st : apps) (s : session) : list wsmsg -> list bundle -> Prop :=
| ph0 : quiet i st s -> ws_job s = [] -> ws_out s = [] -> phase arg i st s [] []
| ph1 : quiet i st s -> ws_mode s = MBundle ->
    (ws_job s = [WReply "200 tx mode: bundle"] /\ ws_out s = [] \/ ws_job s = [] /\ (ws_out s = [T1] \/ ws_out s = [] /\ ws_open s = false)) ->
    phase arg i st s [MText "/bundle"] []
| ph2r r : quiet i st s -> r <> OK -> (forall x, r <> OK +:+ x) ->
    (ws_job s = [WReply r] /\ ws_out s = [T1] \/ ws_job s = [] /\ (ws_out s = [T1; OText r] \/ ws_out s = [T1])) ->
    phase arg i st s [MText "/bundle"; MText ("/subscribe " +:+ arg)] []
| ph2s e j tl : mine e i st s -> parse_eid arg = Some e \/ parse_eid arg = None /\ local_eid arg = Some e ->
    ws_held s = [] -> ws_out s = [T1] -> ws_job s = j ++ WReply OK :: tl -> suffix j [WSet e; WIns e] -> Forall (serving e) tl ->
    phase arg i st s [MText "/bundle"; MText ("/subscribe " +:+ arg)] []
| ph2d e w : mine e i st s -> parse_eid arg = Some e \/ parse_eid arg = None /\ local_eid arg = Some e ->
    ws_out s = T1 :: OText OK :: map OBundle w -> Forall (serving e) (ws_job s) -> (forall b, b ∈ w -> b_dst b = e) ->
    phase arg i st s [MText "/bundle"; MText ("/subscribe " +:+ arg)] w
| ph2c e : mine e i st s -> parse_eid arg = Some e \/ parse_eid arg = None /\ local_eid arg = Some e ->
    ws_held s = [] -> ws_open s = false -> ws_out s = [T1] -> Forall (fun o => exists x, o = WClear x) (ws_job s) ->
    phase arg i st s [MText "/bundle"; MText ("/subscribe " +:+ arg)] [].

Lemma quiet_other i st v st' s : step st v st' -> ~ about i v -> quiet i st s -> quiet i st' s.
Proof.
  intros H Ha [Q1 Q2 Q3 Q4 Q5]. split; try done. intros a Hin Hs. destruct (step_subs _ _ _ _ _ H Hin Hs) as [(x & Hx & _ & E)| ->]; [by apply (Q1 x)|].
  by apply Ha.
Qed.
Lemma mine_other e i st v st' s : step st v st' -> ~ about i v -> mine e i st s -> mine e i st' s.
Proof.
  intros H Ha [M1 M2 M3 M4 M5 M6]. split; try done. intros a Hin Hs. destruct (step_subs _ _ _ _ _ H Hin Hs) as [(x & Hx & <- & E)| ->]; [by apply M1|].
  by destruct Ha.
Qed.
Lemma phase_other arg i st v st' s m w : step st v st' -> ~ about i v -> phase arg i st s m w -> phase arg i st' s m w.
Proof.
  intros H Ha P. destruct P.
  - apply ph0; try done. by eapply quiet_other.
  - apply ph1; try done. by eapply quiet_other.
  - eapply ph2r; try done. by eapply quiet_other.
  - eapply ph2s; try done. by eapply mine_other.
  - eapply ph2d; try done. by eapply mine_other.
  - eapply ph2c; try done. by eapply mine_other.
Qed.
(** a subscription cannot be passed a bundle while quiet *)
Lemma quiet_passed i st s b st' : quiet i st s -> ~ step st (EDeliver b (Passed i)) st'.
Proof.
  intros [Q _ _ _ _] H. inversion H as [| | | |? ? a ? ? Hf Hs| | | | | | | | | | | | | | | | | |]; subst.
  apply find_eid in Hf as [_ Hf]. by apply (Q a).
Qed.

Definition says (arg : string) : list wsmsg := [MText "/bundle"; MText ("/subscribe " +:+ arg)].
Lemma text_bundle l s : on_text parse_eid host local_eid l s "/bundle" = with_job (with_mode s MBundle) [WReply "200 tx mode: bundle"].
Proof. reflexivity. Qed.
Lemma text_subscribe l s arg : trim ("/subscribe " +:+ arg) = "/subscribe " +:+ arg -> ws_subs s = None ->
  let s' := on_text parse_eid host local_eid l s ("/subscribe " +:+ arg) in
  (exists r, r <> OK /\ (forall x, r <> OK +:+ x) /\ s' = with_job s [WReply r]) \/
  (exists e tl subs, (parse_eid arg = Some e \/ parse_eid arg = None /\ local_eid arg = Some e) /\ default [] subs = [] /\ Forall (serving e) tl /\
     s' = with_job (with_subs s subs) (WSet e :: WIns e :: WReply OK :: tl)).
Proof.
  intros Ht Hsub. cbn zeta. unfold on_text. rewrite Ht. change (split_space ("/subscribe " +:+ arg) "") with ("/subscribe", Some arg).
  change (is_command ("/subscribe " +:+ arg)) with true. cbv iota. rewrite !bool_decide_false by done. rewrite bool_decide_true by done.
  assert (Hself : with_subs s None = s) by (destruct s; cbn in *; by subst).
  destruct (parse_eid arg) as [e|] eqn:Ep.
  - destruct (known e l).
    + right. exists e, [WFetch], (Some []). split; [by left|]. split; [done|]. split; [by repeat constructor|]. by rewrite Hsub.
    + left. eexists. split; [|split; [|reflexivity]]; done.
  - destruct (local_eid arg) as [e|] eqn:El.
    + destruct (known e l).
      * right. exists e, [], None. split; [by right|]. split; [done|]. split; [constructor|]. by rewrite Hself.
      * left. eexists. split; [|split; [|reflexivity]]; done.
    + left. eexists. split; [|split; [|reflexivity]]; done.
Qed.
Lemma prefix_says arg m x rest : m ++ x ++ rest = says arg -> 
  (m = [] /\ (x = [] \/ x = [MText "/bundle"] \/ x = says arg)) \/ (m = [MText "/bundle"] /\ (x = [] \/ x = [MText ("/subscribe " +:+ arg)])) \/
  (m = says arg /\ x = []).
Proof.
  unfold says. intros H. destruct m as [|a m]; cbn in H.
  - left. split; [done|]. destruct x as [|a x]; [by left|]. cbn in H. injection H as -> H. destruct x as [|b x]; [by right; left|].
    cbn in H. injection H as -> H. apply app_eq_nil in H as [-> _]. by right; right.
  - injection H as -> H. destruct m as [|b m]; cbn in H.
    + right; left. split; [done|]. destruct x as [|b x]; [by left|]. injection H as -> H. apply app_eq_nil in H as [-> _]. by right.
    + injection H as -> H. right; right. apply app_eq_nil in H as [-> H]. by apply app_eq_nil in H as [-> _].
Qed.

Lemma about_dec i v : about i v \/ ~ about i v.
Proof.
  destruct v as [| |b [| |j]| | |j m|j o r|j b|j b|j|j]; cbn; try (right; by intros []); match goal with |- ?j = ?k \/ _ => destruct (decide (j = k)); auto end.
Qed.
Lemma other_said i v : ~ about i v -> said1 i v = [] /\ wrote_b i v = [].
Proof.
  destruct v as [| |b [| |j]| | |j m|j [] [?|]|j b|j b|j|j]; cbn; try done; intros; by rewrite ?decide_False.
Qed.
Lemma perm_nil (l : list eid) : l ≡ₚ [] -> l = [].
Proof. intros H. by apply Permutation_nil_r in H. Qed.
Ltac here := eexists; split; [cbn [a_sessions set_session]; rewrite list_lookup_insert by (by eapply lookup_lt_Some); reflexivity|].
Ltac same_s Hi := match goal with H : a_sessions _ !! _ = Some _ |- _ => lazymatch H with Hi => fail | _ => rewrite Hi in H; injection H as <- end end.
Ltac mineok := split; cbn; first [done | set_solver | naive_solver].

Lemma mine_passed e i st s b st' : mine e i st s -> step st (EDeliver b (Passed i)) st' -> b_dst b = e.
Proof.
  intros M H. inversion H as [| | | |? ? a ? ? Hf Hs| | | | | | | | | | | | | | | | | |]; subst. apply find_eid in Hf as [E Hf].
  rewrite <- E. eapply m_sub; [exact M|done|done].
Qed.
Lemma mine_clear e e' i st s ss : mine e i st s -> mine e i (AppState (alter_agent e' (set_sub None) (a_agents st)) ss (a_sent st)) s.
Proof.
  intros [M1 M2 M3 M4 M5 M6]. split; try done. cbn. intros a [Ha|(x & Hx & _ & ->)]%elem_alter Hs; [by apply M1|done].
Qed.
(** the session changes, the endpoints do not *)
Lemma mine_session e i st s st' s' : mine e i st s -> a_agents st' = a_agents st ->
  (forall b, b ∈ ws_chan s' \/ ws_hand s' = Some b -> b ∈ ws_chan s \/ ws_hand s = Some b \/ b_dst b = e) ->
  (forall b o, (b, o) ∈ ws_held s' -> (b, o) ∈ ws_held s) -> (forall x, x ∈ default [] (ws_subs s') -> x ∈ default [] (ws_subs s) \/ x = e) ->
  ws_mode s' = ws_mode s -> mine e i st' s'.
Proof.
  intros [M1 M2 M3 M4 M5 M6] Ea Hc Hh Hs Hm. split.
  - intros a. rewrite Ea. apply M1.
  - intros b Hb. destruct (Hc b (or_introl Hb)) as [?|[?|?]]; auto.
  - intros b Hb. destruct (Hc b (or_intror Hb)) as [?|[?|?]]; auto.
  - intros b o Hb. eapply M4. by apply Hh.
  - intros x Hx. destruct (Hs x Hx) as [?|?]; auto.
  - congruence.
Qed.
Lemma phase_step arg i st v st' s m w rest : trim ("/subscribe " +:+ arg) = "/subscribe " +:+ arg ->
  step st v st' -> a_sessions st !! i = Some s -> faithful s -> tidy st -> phase arg i st s m w -> m ++ said1 i v ++ rest = says arg ->
  exists s', a_sessions st' !! i = Some s' /\ phase arg i st' s' (m ++ said1 i v) (w ++ wrote_b i v).
Proof.
  intros Ht H Hi Hf Hty P Hp. destruct (about_dec i v) as [Ha|Ha].
  2:{ exists s. split; [by eapply step_other|]. destruct (other_said i v Ha) as [-> ->]. rewrite !app_nil_r. by eapply phase_other. }
  destruct P as [Q Hj Ho|Q Hm Hjo|r Q Hr1 Hr2 Hjo|e j tl M He Hh Ho Hj Hsf Htl|e w M He Ho Hjob Hw|e M He Hh Hop Ho Hjob].
  - destruct v as [| |b [| |?]| | |? msg|? o r|? b|? b|?|?]; cbn in Ha; try done; subst.
    + by destruct (quiet_passed _ _ _ _ _ Q H).
    + cbn [said1] in *. rewrite decide_True in * by done. destruct Q as [Q1 Q2 Q3 Q4 Q5].
      inv_step H; same_s Hi; cbn [wrote_b app] in *.
      * apply (prefix_says arg [] [MText t] rest) in Hp as [(_ & [?|[[= ->]|?]])|[(? & _)|(? & _)]]; [done| |done..].
        here. rewrite text_bundle. apply ph1; cbn; [by split|done|]. left. by rewrite Ho.
      * done.
      * done.
      * exists s. split; [done|]. by apply ph0.
    + inv_step H; same_s Hi; rewrite Hj in *; done.
    + inv_step H; same_s Hi; destruct Q as [Q1 Q2 Q3 Q4 Q5]; rewrite Q2 in *; done.
    + inv_step H; same_s Hi; destruct Q as [Q1 Q2 Q3 Q4 Q5]; rewrite Q3 in *; done.
    + inv_step H; same_s Hi. destruct Q as [Q1 Q2 Q3 Q4 Q5].
      match goal with Hx : ?o ≡ₚ default [] (ws_subs s) |- _ => rewrite Q5 in Hx; apply perm_nil in Hx as -> end.
      here. cbn. apply ph0; cbn; [by split|done|done].
    + inv_step H; same_s Hi. destruct Q as [Q1 Q2 Q3 Q4 Q5]. here. cbn. apply ph0; cbn; [by split|done|done].
  - destruct v as [| |b [| |?]| | |? msg|? o r|? b|? b|?|?]; cbn in Ha; try done; subst.
    + by destruct (quiet_passed _ _ _ _ _ Q H).
    + cbn [said1] in *. rewrite decide_True in * by done. destruct Q as [Q1 Q2 Q3 Q4 Q5].
      inv_step H; same_s Hi; cbn [wrote_b app] in *.
      * injection Hp as -> _. destruct Hjo as [[Hx _]|(Hj & [Ho|[_ Hx]])]; [congruence| |congruence].
        destruct (text_subscribe (a_agents st) s arg Ht Q5) as [(r & R1 & R2 & ->)|(e & tl & subs & E1 & E2 & E3 & ->)].
        -- here. eapply ph2r; cbn; [by split|exact R1|exact R2|]. left. by rewrite Ho.
        -- here. apply (ph2s _ _ _ _ e [WSet e; WIns e] tl); cbn; try done.
           split; cbn; try done; [|rewrite Q2; set_solver|rewrite Q3; done|rewrite Q4; set_solver|rewrite E2; set_solver].
           intros a Hin Hs. by destruct (Q1 a Hin).
      * done.
      * done.
      * exists s. split; [done|]. by apply ph1.
    + destruct Hjo as [[Hj Ho]|[Hj _]]; inv_step H; same_s Hi; try congruence.
      match goal with Hx : ws_job s = _ :: _ |- _ => rewrite Hj in Hx; injection Hx as <- <- end.
      destruct Q as [Q1 Q2 Q3 Q4 Q5]. here. cbn. apply ph1; cbn; [by split|done|]. right. split; [done|]. left. by rewrite Ho.
    + inv_step H; same_s Hi; destruct Q as [Q1 Q2 Q3 Q4 Q5]; rewrite Q2 in *; done.
    + inv_step H; same_s Hi; destruct Q as [Q1 Q2 Q3 Q4 Q5]; rewrite Q3 in *; done.
    + inv_step H; same_s Hi. destruct Q as [Q1 Q2 Q3 Q4 Q5].
      match goal with Hx : ?o ≡ₚ default [] (ws_subs s) |- _ => rewrite Q5 in Hx; apply perm_nil in Hx as -> end.
      here. cbn. apply ph1; cbn; [by split|done|]. right. split; [done|]. destruct Hjo as [[_ Ho]|[_ [Ho|[Ho _]]]]; rewrite Ho; auto.
    + inv_step H; same_s Hi. destruct Q as [Q1 Q2 Q3 Q4 Q5]. here. cbn. apply ph1; cbn; [by split|done|].
      destruct Hjo as [[Hj Ho]|(Hj & [Ho|[Ho Hx]])]; rewrite ?Hj, ?Ho; auto 6.
  - destruct v as [| |b [| |?]| | |? msg|? o r0|? b|? b|?|?]; cbn in Ha; try done; subst.
    + by destruct (quiet_passed _ _ _ _ _ Q H).
    + cbn [said1] in *. rewrite decide_True in * by done.
      inv_step H; same_s Hi; cbn [wrote_b app] in *; try done. exists s. split; [done|]. by eapply ph2r.
    + destruct Hjo as [[Hj Ho]|[Hj _]]; inv_step H; same_s Hi; try congruence.
      match goal with Hx : ws_job s = _ :: _ |- _ => rewrite Hj in Hx; injection Hx as <- <- end.
      destruct Q as [Q1 Q2 Q3 Q4 Q5]. here. cbn. eapply (ph2r _ _ _ _ r); cbn; [by split|done|done|]. right. split; [done|]. left. by rewrite Ho.
    + inv_step H; same_s Hi; destruct Q as [Q1 Q2 Q3 Q4 Q5]; rewrite Q2 in *; done.
    + inv_step H; same_s Hi; destruct Q as [Q1 Q2 Q3 Q4 Q5]; rewrite Q3 in *; done.
    + inv_step H; same_s Hi. destruct Q as [Q1 Q2 Q3 Q4 Q5].
      match goal with Hx : ?o ≡ₚ default [] (ws_subs s) |- _ => rewrite Q5 in Hx; apply perm_nil in Hx as -> end.
      here. cbn. eapply (ph2r _ _ _ _ r); cbn; [by split|done|done|]. right. split; [done|]. destruct Hjo as [[_ Ho]|[_ [Ho|Ho]]]; rewrite Ho; auto.
    + inv_step H; same_s Hi. destruct Q as [Q1 Q2 Q3 Q4 Q5]. here. cbn. eapply (ph2r _ _ _ _ r); cbn; [by split|done|done|].
      destruct Hjo as [[Hj Ho]|(Hj & [Ho|Ho])]; rewrite ?Hj, ?Ho; auto 6.
  - assert (Hne : ws_job s <> []) by (rewrite Hj; apply not_eq_sym, app_cons_not_nil).
    destruct v as [| |b [| |?]| | |? msg|? o r0|? b|? b|?|?]; cbn in Ha; try done; subst.
    + pose proof (mine_passed _ _ _ _ _ _ M H) as Hb. apply (conj I) in Hb. inv_step H; destruct Hb as [_ Hb]; same_s Hi. cbn [said1 wrote_b app]. here.
      apply (ph2s _ _ _ _ e j tl); try done. eapply mine_session; [exact M|done|..]; cbn; try naive_solver. intros b0. rewrite elem_of_app, elem_of_list_singleton. naive_solver.
    + inv_step H; same_s Hi; done.
    + cbn [said1 app]. destruct Hsf as [k Hk].
      assert (Hjs : j = [WSet e; WIns e] \/ j = [WIns e] \/ j = []).
      { destruct k as [|k1 [|k2 [|k3 k]]]; cbn in Hk; [by left|injection Hk as _ <-; auto|injection Hk as _ _ <-; auto|]. destruct k; done. }
      destruct Hjs as [-> |[-> | ->]]; cbn [app] in Hj.
      * inv_step H; same_s Hi; rewrite Hj in *; try done.
        match goal with Hx : WSet e :: _ = _ :: _ |- _ => injection Hx as <- <- end. cbn [wrote_b]. here.
        apply (ph2s _ _ _ _ e [WIns e] tl); try done; [|by exists [WSet e]].
        destruct M as [M1 M2 M3 M4 M5 M6]. split; try done. cbn. intros a [Hin|(x & Hx & Ex & ->)]%elem_alter Hs; [by apply M1|done].
      * inv_step H; same_s Hi; rewrite Hj in *; try done.
        match goal with Hx : WIns e :: _ = _ :: _ |- _ => injection Hx as <- <- end. cbn [wrote_b]. here.
        apply (ph2s _ _ _ _ e [] tl); try done; [|by exists [WSet e; WIns e]].
        eapply mine_session; [exact M|done|..]; cbn; try naive_solver. intros x. case_decide; [by left|]. rewrite elem_of_cons. naive_solver.
      * inv_step H; same_s Hi; rewrite Hj in *; try done.
        match goal with Hx : WReply OK :: _ = _ :: _ |- _ => injection Hx as <- <- end. cbn [wrote_b]. here.
        apply (ph2d _ _ _ _ e []); try done; [|cbn; by rewrite Ho|intros b Hb; by apply elem_of_nil in Hb].
        eapply mine_session; [exact M|done|..]; cbn; naive_solver.
    + inv_step H; same_s Hi. cbn [said1 wrote_b app]. here. apply (ph2s _ _ _ _ e j tl); try done.
      eapply mine_session; [exact M|done|..]; cbn; try naive_solver.
      match goal with Hx : ws_chan s = _ |- _ => rewrite Hx end. intros b0. rewrite elem_of_cons. naive_solver.
    + inv_step H; same_s Hi; done.
    + inv_step H; same_s Hi. cbn [said1 wrote_b app]. here. apply (ph2c _ _ _ _ e); try done.
      * eapply mine_session; [exact M|done|..]; cbn; try naive_solver. intros b0 o. by intros ?%elem_of_nil.
      * cbn. apply Forall_fmap, Forall_true. intros x. by exists x.
    + inv_step H; same_s Hi. cbn [said1 wrote_b app]. here. apply (ph2s _ _ _ _ e j tl); try done.
      eapply mine_session; [exact M|done|..]; cbn; try naive_solver. intros b0. by intros [?%elem_of_nil|?].
  - destruct v as [| |b [| |?]| | |? msg|? o r0|? b|? b|?|?]; cbn in Ha; try done; subst.
    + pose proof (mine_passed _ _ _ _ _ _ M H) as Hb. apply (conj I) in Hb. inv_step H; destruct Hb as [_ Hb]; same_s Hi. cbn [said1 wrote_b app]. rewrite app_nil_r. here.
      apply (ph2d _ _ _ _ e w); try done. eapply mine_session; [exact M|done|..]; cbn; try naive_solver. intros b0. rewrite elem_of_app, elem_of_list_singleton. naive_solver.
    + cbn [said1] in *. rewrite decide_True in * by done. inv_step H; same_s Hi; cbn [wrote_b app] in *; try done.
      rewrite app_nil_r. exists s. split; [done|]. by apply (ph2d _ _ _ _ e w).
    + cbn [said1 app]. inv_step H; same_s Hi;
        match goal with Hx : ws_job s = _ |- _ => rewrite Hx in Hjob; apply Forall_cons in Hjob as [Hx0 Hjob]; cbn [serving] in Hx0; try done end;
        cbn [wrote_b]; rewrite ?app_nil_r.
      * here. apply (ph2d _ _ _ _ e w); try done.
        -- eapply mine_session; [exact M|done|..]; cbn; naive_solver.
        -- cbn. apply Forall_app. split; [|by constructor]. apply Forall_fmap, Forall_forall. intros x Hx. cbn.
           match goal with Hp : _ ≡ₚ _ |- _ => rewrite Hp in Hx end. by eapply m_subs.
      * subst. here. apply (ph2d _ _ _ _ e w); try done. destruct M as [M1 M2 M3 M4 M5 M6]. split; cbn; try done.
        -- intros a [Hin|(x & Hx & Ex & ->)]%elem_alter Hs; [by apply M1|done].
        -- intros b o [Hb|Hb]%elem_of_app; [by eapply M4|]. destruct (find_agent e (a_agents st)) as [a|] eqn:Ea; [|by apply elem_of_nil in Hb].
           destruct (ag_queue a) as [|b1 q] eqn:Eq; cbn in Hb; [by apply elem_of_nil in Hb|]. rewrite M6 in Hb. cbn in Hb. apply elem_of_list_singleton in Hb.
           injection Hb as -> _. eapply Hty; [exact Ea|]. rewrite Eq. by left.
      * rewrite decide_True by done. here. destruct Hf as [Hf _].
        match goal with Hh : ws_held s = (?b, ?o) :: _ |- _ => assert (Hr : render (ws_mode s) b = Some o) by (apply Hf; rewrite Hh; by left);
          assert (Hd : b_dst b = e) by (eapply m_held; [exact M|rewrite Hh; by left]); pose proof Hh as Hheld end.
        rewrite (m_mode _ _ _ _ M) in Hr. cbn in Hr. injection Hr as <-.
        apply (ph2d _ _ _ _ e); try done.
        -- eapply mine_session; [exact M|done|..]; cbn; try naive_solver. intros b0 o Hb. rewrite Hheld. by right.
        -- cbn. rewrite Ho, map_app. done.
        -- cbn. match goal with Hx : ws_job s = _ |- _ => rewrite Hx end. by constructor.
        -- intros b0 [Hb| ->%elem_of_list_singleton]%elem_of_app; [by apply Hw|done].
      * here. apply (ph2d _ _ _ _ e w); try done. eapply mine_session; [exact M|done|..]; cbn; naive_solver.
      * here. apply (ph2d _ _ _ _ e w); try done. destruct M as [M1 M2 M3 M4 M5 M6]. split; cbn; try done.
        intros a [Hin|(x & Hx & Ex & ->)]%elem_alter Hs; [by apply M1|done].
    + inv_step H; same_s Hi. cbn [said1 wrote_b app]. rewrite app_nil_r. here. apply (ph2d _ _ _ _ e w); try done.
      eapply mine_session; [exact M|done|..]; cbn; try naive_solver.
      match goal with Hx : ws_chan s = _ |- _ => rewrite Hx end. intros b0. rewrite elem_of_cons. naive_solver.
    + inv_step H; same_s Hi. cbn [said1 wrote_b app]. rewrite decide_True by done. here. apply (ph2d _ _ _ _ e); try done.
      * eapply mine_session; [exact M|done|..]; cbn; naive_solver.
      * cbn. rewrite (m_mode _ _ _ _ M). cbn. rewrite Ho, map_app. done.
      * intros b0 [Hb| ->%elem_of_list_singleton]%elem_of_app; [by apply Hw|]. by eapply m_hand.
    + inv_step H; same_s Hi. cbn [said1 wrote_b app]. rewrite app_nil_r. here. apply (ph2d _ _ _ _ e w); try done.
      * eapply mine_session; [exact M|done|..]; cbn; try naive_solver. intros b0 o. by intros ?%elem_of_nil.
      * cbn. apply Forall_fmap, Forall_true. done.
    + inv_step H; same_s Hi. cbn [said1 wrote_b app]. rewrite app_nil_r. here. apply (ph2d _ _ _ _ e w); try done.
      eapply mine_session; [exact M|done|..]; cbn; try naive_solver. intros b0. by intros [?%elem_of_nil|?].
  - destruct v as [| |b [| |?]| | |? msg|? o r0|? b|? b|?|?]; cbn in Ha; try done; subst.
    + pose proof (mine_passed _ _ _ _ _ _ M H) as Hb. apply (conj I) in Hb. inv_step H; destruct Hb as [_ Hb]; same_s Hi. cbn [said1 wrote_b app]. here.
      apply (ph2c _ _ _ _ e); try done. eapply mine_session; [exact M|done|..]; cbn; try naive_solver. intros b0. rewrite elem_of_app, elem_of_list_singleton. naive_solver.
    + inv_step H; same_s Hi; congruence.
    + cbn [said1 app]. inv_step H; same_s Hi;
        match goal with Hx : ws_job s = _ |- _ => rewrite Hx in Hjob; apply Forall_cons in Hjob as [[? Hx0] Hjob]; try done end.
      cbn [wrote_b]. here. apply (ph2c _ _ _ _ e); try done. destruct M as [M1 M2 M3 M4 M5 M6]. split; cbn; try done.
      intros a [Hin|(x0 & Hx & Ex & ->)]%elem_alter Hs; [by apply M1|done].
    + inv_step H; same_s Hi; congruence.
    + inv_step H; same_s Hi; congruence.
    + inv_step H; same_s Hi; congruence.
    + inv_step H; same_s Hi. cbn [said1 wrote_b app]. here. apply (ph2c _ _ _ _ e); try done.
      eapply mine_session; [exact M|done|..]; cbn; try naive_solver. intros b0. by intros [?%elem_of_nil|?].
Qed.
(** before the session exists *)
Lemma fresh_step i st v st' : step st v st' -> a_sessions st !! i = None -> (forall a, a ∈ a_agents st -> ag_sub a <> Some i) ->
  (forall a, a ∈ a_agents st' -> ag_sub a <> Some i) /\ said1 i v = [] /\ wrote_b i v = [] /\
  (a_sessions st' !! i = None \/ a_sessions st' !! i = Some new_session).
Proof.
  intros H Hi Hq. 
  assert (Ha : ~ about i v).
  { intros Ha. destruct v as [| |b [| |?]| | |? msg|? o r0|? b|? b|?|?]; cbn in Ha; try done; subst; inv_step H; congruence. }
  split; [|split; [|split]].
  - intros a Hin Hs. destruct (step_subs _ _ _ _ _ H Hin Hs) as [(x & Hx & _ & E)| ->]; [by apply (Hq x)|]. by apply Ha.
  - by apply other_said.
  - by apply other_said.
  - inv_step H; cbn [about] in Ha; auto; try (left; rewrite list_lookup_insert_ne by done; done).
    destruct (decide (length (a_sessions st) <= i)%nat) as [Hl|Hl].
    + rewrite lookup_app_r by done. destruct (i - length (a_sessions st))%nat; cbn; auto.
    + left. apply lookup_ge_None in Hi. lia.
Qed.
Lemma run_phase arg i tr st' : trim ("/subscribe " +:+ arg) = "/subscribe " +:+ arg ->
  run (AppState [] [] []) tr st' -> (exists rest, flat_map (said1 i) tr ++ rest = says arg) ->
  match a_sessions st' !! i with
  | Some s => phase arg i st' s (flat_map (said1 i) tr) (flat_map (wrote_b i) tr)
  | None => forall a, a ∈ a_agents st' -> ag_sub a <> Some i
  end.
Proof.
  intros Ht H [rest Hp].
  assert (G : forall tr1 tr2 st1, tr = tr1 ++ tr2 -> run (AppState [] [] []) tr1 st1 ->
    match a_sessions st1 !! i with
    | Some s => phase arg i st1 s (flat_map (said1 i) tr1) (flat_map (wrote_b i) tr1)
    | None => (forall a, a ∈ a_agents st1 -> ag_sub a <> Some i) /\ flat_map (said1 i) tr1 = [] /\ flat_map (wrote_b i) tr1 = []
    end).
  { intros tr1. induction tr1 as [|v tr1 IH] using rev_ind; intros tr2 st1 E Hr.
    - inversion Hr; subst. cbn. split; [|done]. intros a Ha. by apply elem_of_nil in Ha.
    - apply run_app in Hr as (st0 & Hr0 & Hr1). inversion Hr1 as [|? ? ? ? ? Hs Hr2]; subst. inversion Hr2; subst.
      specialize (IH (v :: tr2) st0). rewrite <- app_assoc in *. specialize (IH eq_refl Hr0).
      rewrite !flat_map_app. cbn [flat_map]. rewrite !app_nil_r.
      destruct (a_sessions st0 !! i) as [s|] eqn:Es.
      + destruct (phase_step arg i st0 v st1 s (flat_map (said1 i) tr1) (flat_map (wrote_b i) tr1) (flat_map (said1 i) tr2 ++ rest) Ht Hs Es) as (s' & Hs' & P'); [| |exact IH| |by rewrite Hs'].
        * eapply run_faithful; [exact Hr0| |exact Es]. by intros ? ?.
        * eapply run_tidy; [exact Hr0|constructor|]. by intros ? ? ?.
        * rewrite flat_map_app in Hp. cbn in Hp. rewrite <- !app_assoc in Hp. exact Hp.
      + destruct IH as (I1 & -> & ->). destruct (fresh_step _ _ _ _ Hs Es I1) as (F1 & -> & -> & [F4|F4]); rewrite F4; [done|].
        cbn. apply ph0; try done. }
  specialize (G tr [] st' (eq_sym (app_nil_r _)) H). destruct (a_sessions st' !! i); [done|]. by destruct G.
Qed.
End ws.
