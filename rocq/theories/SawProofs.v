(** Lemmas about spray and wait. *)
From Verif Require Import Core Peers PeersProofs Routing RoutingProofs IdProofs.
From stdpp Require Import prelude strings pretty gmap.
From Coq Require Import NArith Lia Ascii.
Open Scope N_scope.

(** one query: [new] are the copies it takes from the budget *)
Lemma saw_query_spec cf clas p : forall ps d acc del d' ss del',
  saw_query cf clas p d ps acc del = Some (d', (ss, del')) ->
  exists new : list (peer * string * sender),
    sw_left d' + N.of_nat (length new) = sw_left d /\ (new <> [] -> 1 <= sw_left d') /\
    sw_nodes d' = sw_nodes d ++ map (fun x => snd (fst x)) new /\
    NoDup (map (fun x => snd (fst x)) new) /\
    (forall q nid s, (q, nid, s) ∈ new -> q ∈ ps /\ first_cla clas q = Some s /\ eid_node_id (pe_eid q) = Some nid /\
       nid <> sc_local cf /\ nid ∉ sw_nodes d) /\
    (del' = false -> del = false /\ ss = acc ++ map snd new) /\
    (del' = true -> (del = true /\ ss = acc ++ map snd new) \/
       exists q nid s, q ∈ ps /\ first_cla clas q = Some s /\ eid_node (p_dst p) = Some (node_name q) /\ ss = [s] /\
         eid_node_id (pe_eid q) = Some nid /\ nid <> sc_local cf).
Proof.
  induction ps as [|q ps IH]; intros d acc del d' ss del'; cbn [saw_query].
  - intros [= <- <- <-]. exists []. cbn. rewrite !app_nil_r. split; [lia|]. split; [done|]. split; [done|]. split; [apply NoDup_nil_2|].
    split; [by intros ? ? ? ?%elem_of_nil|]. split; [done|]. intros ->. by left.
  - destruct (eid_node_id (pe_eid q)) as [nid|] eqn:En; [|done].
    assert (Hweak : forall acc0 del0, saw_query cf clas p d ps acc0 del0 = Some (d', (ss, del')) ->
      exists new : list (peer * string * sender),
        sw_left d' + N.of_nat (length new) = sw_left d /\ (new <> [] -> 1 <= sw_left d') /\
        sw_nodes d' = sw_nodes d ++ map (fun x => snd (fst x)) new /\
        NoDup (map (fun x => snd (fst x)) new) /\
        (forall q0 nid s, (q0, nid, s) ∈ new -> q0 ∈ q :: ps /\ first_cla clas q0 = Some s /\ eid_node_id (pe_eid q0) = Some nid /\
           nid <> sc_local cf /\ nid ∉ sw_nodes d) /\
        (del' = false -> del0 = false /\ ss = acc0 ++ map snd new) /\
        (del' = true -> (del0 = true /\ ss = acc0 ++ map snd new) \/
           exists q0 nid s, q0 ∈ q :: ps /\ first_cla clas q0 = Some s /\ eid_node (p_dst p) = Some (node_name q0) /\ ss = [s] /\
             eid_node_id (pe_eid q0) = Some nid /\ nid <> sc_local cf)).
    { intros acc0 del0 H0. destruct (IH _ _ _ _ _ _ H0) as (new & H1 & H2 & H3 & H4 & H5 & H6 & H7). exists new.
      do 4 (split; [done|]). split.
      { intros q0 nid0 s0 Hin. destruct (H5 _ _ _ Hin) as (? & ?). split; [by apply elem_of_list_further|done]. }
      split; [done|]. intros Ht. destruct (H7 Ht) as [?|(q0 & nid0 & s0 & ? & ?)]; [by left|]. right. exists q0, nid0, s0. split; [by apply elem_of_list_further|done]. }
    destruct (bool_decide (nid = sc_local cf) || bool_decide (nid ∈ sw_nodes d)) eqn:Eskip; [by apply Hweak|].
    apply orb_false_iff in Eskip as [Eloc%bool_decide_eq_false Enod%bool_decide_eq_false].
    destruct (sw_left d <? 2) eqn:El.
    + apply N.ltb_lt in El. destruct (eid_node (p_dst p)) as [n|] eqn:Ed; [|done]. case_bool_decide as Hn; [|by apply Hweak].
      destruct (first_cla clas q) as [s|] eqn:Es; [|by apply Hweak]. intros H0.
      destruct (Hweak _ _ H0) as (new & H1 & H2 & H3 & H4 & H5 & H6 & H7). exists new. do 5 (split; [done|]). split.
      * intros Hf. by destruct (H6 Hf).
      * intros Ht. destruct (H7 Ht) as [[_ Hss]|?]; [|by right]. right. exists q, nid, s. split; [by apply elem_of_list_here|].
        subst n. do 2 (split; [done|]). split; [|done].
        destruct new as [|x new]; [by rewrite app_nil_r in Hss|]. specialize (H2 ltac:(done)). cbn [length] in H1. lia.
    + apply N.ltb_ge in El. destruct (first_cla clas q) as [s|] eqn:Es; [|by apply Hweak]. intros H0.
      destruct (IH _ _ _ _ _ _ H0) as (new & H1 & H2 & H3 & H4 & H5 & H6 & H7). cbn [sw_left sw_nodes] in *.
      exists ((q, nid, s) :: new). cbn [map fst snd length].
      split; [lia|]. split; [intros _; destruct new; [cbn in H1; lia|by apply H2]|].
      split; [by rewrite H3, <- app_assoc|]. split.
      { apply NoDup_cons. split; [|done]. intros ([[q0 nid0] s0] & -> & Hin)%elem_of_list_fmap. cbn in *.
        destruct (H5 _ _ _ Hin) as (_ & _ & _ & _ & Hni). apply Hni, elem_of_app. right. by apply elem_of_list_singleton. }
      split.
      { intros q0 nid0 s0 [[= -> -> ->]|Hin]%elem_of_cons; [split; [by apply elem_of_list_here|done]|].
        destruct (H5 _ _ _ Hin) as (? & ? & ? & ? & Hni). split; [by apply elem_of_list_further|]. do 3 (split; [done|]).
        intros Hx. apply Hni, elem_of_app. by left. }
      split.
      { intros Hf. destruct (H6 Hf) as [-> ->]. by rewrite <- app_assoc. }
      intros Ht. destruct (H7 Ht) as [[-> ->]|(q0 & nid0 & s0 & ? & ?)].
      * left. by rewrite <- app_assoc.
      * right. exists q0, nid0, s0. split; [by apply elem_of_list_further|done].
Qed.

(** relays of bundle [id] in a history: senders of answers that do not ask for
    deletion *)
Definition relays_of (id : string) (e : rcmd * option answer) : list sender :=
  match e with (RSender p _ _, Some (ss, false)) => if decide (p_id p = id) then ss else [] | _ => [] end.
Definition relays (id : string) (l : list (rcmd * option answer)) : list sender := concat (map (relays_of id) l).
Lemma relays_app id l1 l2 : relays id (l1 ++ l2) = relays id l1 ++ relays id l2.
Proof. unfold relays. by rewrite map_app, concat_app. Qed.
Definition announces (c : rcmd) (id : string) : Prop :=
  match c with
  | RNotify (IncomingBundle b) => bid b = id
  | RNotify (IncomingNoPrev i _) => i = id
  | _ => False
  end.
Fixpoint count_failures (id : string) (cs : list rcmd) : N :=
  match cs with
  | [] => 0
  | RNotify (SendingFailed i _) :: cs => (if decide (i = id) then 1 else 0) + count_failures id cs
  | _ :: cs => count_failures id cs
  end.
Definition nid_of (s : sender) : option string := eid_node_id (sd_hop s).

(** invariant after an announcement: budget, and (without failures) the list
    of served nodes *)
Record saw_inv (n0 fl : N) (R : list sender) (d : saw_data) : Prop := {
  si_budget : N.of_nat (length R) + sw_left d <= n0 + fl;
  si_pos : R <> [] -> 1 <= sw_left d;
  si_nodup : fl = 0 -> NoDup (map nid_of R) /\ forall s, s ∈ R -> exists nid, nid_of s = Some nid /\ nid ∈ sw_nodes d
}.
Lemma saw_run_inv cf id : forall cs h d n0 fl R,
  h !! id = Some d -> saw_inv n0 fl R d -> (forall c, c ∈ cs -> ~ announces c id) ->
  match astate (saw_step cf) (Some h) cs with
  | Some h' => exists d', h' !! id = Some d' /\ saw_inv n0 (fl + count_failures id cs) (R ++ relays id (arun (saw_step cf) (Some h) cs)) d'
  | None => exists fl' d', fl <= fl' <= fl + count_failures id cs /\
              saw_inv n0 fl' (R ++ relays id (arun (saw_step cf) (Some h) cs)) d'
  end.
Proof.
  induction cs as [|c cs IH]; intros h d n0 fl R Hd Hi Hna.
  { cbn. exists d. split; [done|]. unfold relays. cbn. by rewrite app_nil_r, N.add_0_r. }
  assert (Hna' : forall c, c ∈ cs -> ~ announces c id) by (intros ? ?; apply Hna; by apply elem_of_list_further).
  assert (Hc : ~ announces c id) by (apply Hna, elem_of_list_here).
  (* a step that leaves the entry alone and relays nothing *)
  assert (Hsame : forall h' a, saw_step cf h c = Some (h', a) -> h' !! id = Some d -> relays_of id (c, a) = [] ->
     count_failures id (c :: cs) = count_failures id cs ->
     match astate (saw_step cf) (Some h) (c :: cs) with
     | Some h' => exists d', h' !! id = Some d' /\ saw_inv n0 (fl + count_failures id (c :: cs)) (R ++ relays id (arun (saw_step cf) (Some h) (c :: cs))) d'
     | None => exists fl' d', fl <= fl' <= fl + count_failures id (c :: cs) /\
                 saw_inv n0 fl' (R ++ relays id (arun (saw_step cf) (Some h) (c :: cs))) d'
     end).
  { intros h' a Hs Hd' Hr Hcf. rewrite Hcf. cbn [astate arun]. cbn [mbind option_bind]. rewrite Hs. cbn [fmap option_fmap option_map fst].
    replace (relays id ((c, a) :: arun (saw_step cf) (Some h') cs)) with (relays id (arun (saw_step cf) (Some h') cs))
      by (unfold relays; cbn [map concat]; by rewrite Hr).
    by apply (IH h' d n0 fl R). }
  destruct c as [p ps clas|nf|cmd file].
  - cbn [saw_step] in Hsame. destruct (decide (p_id p = id)) as [Hid|Hid].
    + cbn [astate arun mbind option_bind]. cbn [saw_step]. rewrite Hid, Hd.
      destruct (saw_query cf clas p d ps [] false) as [[d' [ss del]]|] eqn:Eq.
      * cbn [fmap option_fmap option_map fst].
        destruct (saw_query_spec _ _ _ _ _ _ _ _ _ _ Eq) as (new & H1 & H2 & H3 & H4 & H5 & H6 & H7).
        replace (relays id ((RSender p ps clas, Some (ss, del)) :: arun (saw_step cf) (Some (<[id:=d']> h)) cs))
          with ((if del then [] else ss) ++ relays id (arun (saw_step cf) (Some (<[id:=d']> h)) cs)).
        2:{ unfold relays. cbn [map concat]. cbn [relays_of]. destruct del; [done|]. by rewrite decide_True. }
        rewrite app_assoc. cbn [count_failures]. apply (IH (<[id:=d']> h) d' n0 fl); [by rewrite lookup_insert| |done].
        destruct Hi as [Hb Hp Hn]. destruct del.
        -- rewrite app_nil_r. constructor.
           ++ lia.
           ++ intros HR. specialize (Hp HR). destruct new; [cbn in H1; lia|by apply H2].
           ++ intros Hf. destruct (Hn Hf) as [Hn1 Hn2]. split; [done|]. intros s Hs. destruct (Hn2 s Hs) as (nid & ? & ?).
              exists nid. split; [done|]. rewrite H3. apply elem_of_app. by left.
        -- destruct (H6 eq_refl) as [_ Hss]. cbn in Hss. subst ss. constructor.
           ++ rewrite app_length, map_length. lia.
           ++ intros HR. destruct new as [|x new]; [|by apply H2]. cbn in HR. rewrite app_nil_r in HR. specialize (Hp HR). cbn in H1. lia.
           ++ intros Hf. destruct (Hn Hf) as [Hn1 Hn2].
              assert (Hnid : map nid_of (map snd new) = map Some (map (fun x => snd (fst x)) new)).
              { rewrite !map_map. apply map_ext_in. intros [[q nid] s] Hin%elem_of_list_In. cbn. destruct (H5 _ _ _ Hin) as (_ & Hfc & Hq & _).
                unfold nid_of. by rewrite (first_cla_hop _ _ _ Hfc). }
              split.
              ** rewrite map_app, Hnid. apply NoDup_app. split; [done|]. split; [|apply (NoDup_fmap_2 Some); exact H4].
                 intros x (s & -> & Hs)%elem_of_list_fmap Hx. destruct (Hn2 s Hs) as (nid & Hsn & Hin). rewrite Hsn in Hx.
                 apply elem_of_list_fmap in Hx as (y & [= <-] & Hy). apply elem_of_list_fmap in Hy as ([[q nid'] s'] & -> & Hy). cbn in *.
                 destruct (H5 _ _ _ Hy) as (_ & _ & _ & _ & Hni). done.
              ** intros s [Hs|Hs]%elem_of_app.
                 --- destruct (Hn2 s Hs) as (nid & ? & ?). exists nid. split; [done|]. rewrite H3. apply elem_of_app. by left.
                 --- apply elem_of_list_fmap in Hs as ([[q nid] s'] & -> & Hs). cbn. exists nid. destruct (H5 _ _ _ Hs) as (_ & Hfc & Hq & _).
                     split; [unfold nid_of; by rewrite (first_cla_hop _ _ _ Hfc)|]. rewrite H3. apply elem_of_app. right.
                     apply elem_of_list_fmap. by exists (q, nid, s').
      * cbn [fmap option_fmap option_map]. rewrite astate_dead, arun_dead. exists fl, d. split; [lia|].
        replace (relays id ((RSender p ps clas, None) :: map (fun c => (c, None)) cs)) with (@nil sender); [by rewrite app_nil_r|].
        unfold relays. cbn. clear. induction cs as [|c cs IH]; [done|]. cbn. destruct c; done.
    + destruct (h !! p_id p) as [d0|] eqn:Ed0.
      * destruct (saw_query cf clas p d0 ps [] false) as [[d' a]|] eqn:Eq.
        -- eapply Hsame; [reflexivity|by rewrite lookup_insert_ne| |reflexivity]. cbn. destruct a as [ss [|]]; [done|]. by rewrite decide_False.
        -- cbn [astate arun mbind option_bind]. cbn [saw_step]. rewrite Ed0, Eq. cbn [fmap option_fmap option_map].
           rewrite astate_dead, arun_dead. exists fl, d. split; [lia|].
           replace (relays id ((RSender p ps clas, None) :: map (fun c => (c, None)) cs)) with (@nil sender); [by rewrite app_nil_r|].
           unfold relays. cbn. clear. induction cs as [|c cs IH]; [done|]. cbn. destruct c; done.
      * eapply Hsame; [reflexivity|done| |reflexivity]. cbn. by rewrite decide_False.
  - destruct nf as [i n|i n|b|i n|e|e]; cbn [announces] in Hc;
      try (eapply Hsame; [reflexivity| |reflexivity|reflexivity]; cbn; unfold saw_new; first [done|by rewrite lookup_insert_ne]).
    destruct (decide (i = id)) as [->|Hne].
    + cbn [astate arun mbind option_bind saw_step fmap option_fmap option_map fst saw_notify]. rewrite Hd.
      set (d' := SawData _ _).
      replace (relays id ((RNotify (SendingFailed id n), None) :: arun (saw_step cf) (Some (<[id:=d']> h)) cs))
        with (relays id (arun (saw_step cf) (Some (<[id:=d']> h)) cs)) by done.
      pose proof (IH (<[id:=d']> h) d' n0 (fl + 1) R (lookup_insert _ _ _)) as IH'. cbn [count_failures]. rewrite decide_True by done.
      destruct Hi as [Hb Hp Hn]. rewrite N.add_assoc. destruct (astate (saw_step cf) (Some (<[id:=d']> h)) cs) as [h'|].
      * apply IH'; [|done]. constructor; [cbn; lia|intros; cbn; specialize (Hp H); lia|lia].
      * destruct IH' as (fl' & d2 & ? & ?); [|done|exists fl', d2; split; [lia|done]].
        constructor; [cbn; lia|intros; cbn; specialize (Hp H); lia|lia].
    + eapply Hsame; [reflexivity| |reflexivity|cbn; by rewrite decide_False]. cbn. destruct (h !! i); [by rewrite lookup_insert_ne|done].
  - eapply Hsame; [reflexivity|done|reflexivity|reflexivity].
Qed.

(** ** own bundles *)
Lemma prefix_spec a : forall s, String.prefix a s = true <-> exists t, s = a +:+ t.
Proof.
  induction a as [|c a IH]; intros s; [split; [intros _; exists s; done|intros _; by destruct s]|]. destruct s as [|c' s]; cbn.
  - split; [done|]. intros [t H]. discriminate.
  - destruct (ascii_dec c c') as [->|Hne].
    + rewrite IH. split; intros [t H]; exists t; [rewrite app_cons_s; by rewrite H|]. rewrite app_cons_s in H. by injection H.
    + split; [done|]. intros [t H]. rewrite app_cons_s in H. injection H as <- _. done.
Qed.
Lemma own_prefix host b local : wf_eid host -> wf_eid (b_src b) -> eid_node_id host = Some local ->
  String.prefix local (bid b) = true -> eid_node_id (b_src b) = Some local.
Proof.
  intros Hh Hs Hl Hp. apply prefix_spec in Hp as [t Hp]. unfold bid in Hp.
  set (rest := "-" +:+ _) in Hp. clearbody rest.
  destruct host as [|n sv|n sv]; [done| |]; cbn in Hl; injection Hl as <-; destruct (b_src b) as [|m svc|m svc]; cbn in Hp; try discriminate Hp.
  - rewrite !app_cons_s in Hp. injection Hp as Hp. rewrite !app_nil_s in Hp. rewrite !app_assoc_s in Hp. 
    change ("/" +:+ (svc +:+ rest)) with (String "/" (svc +:+ rest)) in Hp. change ("/" +:+ t) with (String "/" t) in Hp.
    apply split_first in Hp as [-> _]; done.
  - rewrite !app_cons_s in Hp. injection Hp as Hp. rewrite !app_nil_s in Hp. rewrite !app_assoc_s in Hp.
    change ("." +:+ (pretty svc +:+ rest)) with (String dot (pretty svc +:+ rest)) in Hp. change (".0" +:+ t) with (String dot ("0" +:+ t)) in Hp.
    apply split_first in Hp as [Hp _]; [|apply pretty_free_dot|apply pretty_free_dot]. cbn. by rewrite Hp.
Qed.
Lemma own_prefix_dtn n sv svc local b : eid_node_id (Dtn n sv) = Some local -> b_src b = Dtn n svc ->
  String.prefix local (bid b) = true.
Proof.
  cbn. intros [= <-] Hb. apply prefix_spec. unfold bid. rewrite Hb. cbn. eexists. rewrite !app_assoc_s. reflexivity.
Qed.

(** ** answers *)
Lemma saw_answer cf cs p ps clas ss del : (RSender p ps clas, Some (ss, del)) ∈ arun (saw_step cf) (Some ∅) cs ->
  (forall s, s ∈ ss -> exists q, q ∈ ps /\ first_cla clas q = Some s /\ nid_of s <> Some (sc_local cf)) /\
  (del = true -> exists s, ss = [s] /\ eid_node (p_dst p) = Some (hop_name s)).
Proof.
  intros (l1 & l2 & Hrun)%elem_of_list_split. destruct (arun_split _ _ _ _ _ _ Hrun) as (c1 & c2 & -> & Hl1 & He1 & Hrest). cbn [fst] in *.
  destruct (answered _ _ _ _ He1) as (h & h' & Hh & Hstep). cbn in Hstep. destruct (h !! p_id p) as [d|]; [|by injection Hstep as <- <- <-; split; [intros s ?%elem_of_nil|]].
  destruct (saw_query cf clas p d ps [] false) as [[d' [ss' del']]|] eqn:E; [|done]. injection Hstep as <- -> ->.
  destruct (saw_query_spec _ _ _ _ _ _ _ _ _ _ E) as (new & H1 & H2 & H3 & H4 & H5 & H6 & H7). split.
  - intros s Hs. destruct del.
    + destruct (H7 eq_refl) as [[? _]|(q & nid & s0 & Hq & Hf & Hd & -> & Hn & Hl)]; [done|]. apply elem_of_list_singleton in Hs as ->.
      exists q. split; [done|]. split; [done|]. unfold nid_of. rewrite (first_cla_hop _ _ _ Hf). congruence.
    + destruct (H6 eq_refl) as [_ ->]. cbn in Hs. apply elem_of_list_fmap in Hs as ([[q nid] s0] & -> & Hin). cbn.
      destruct (H5 _ _ _ Hin) as (Hq & Hf & Hn & Hl & _). exists q. split; [done|]. split; [done|]. unfold nid_of. rewrite (first_cla_hop _ _ _ Hf). congruence.
  - intros ->. destruct (H7 eq_refl) as [[? _]|(q & nid & s0 & Hq & Hf & Hd & -> & Hn & Hl)]; [done|]. exists s0. split; [done|].
    by rewrite (first_cla_name _ _ _ Hf).
Qed.
(** before the announcement nothing is known about the bundle *)
Lemma saw_unknown cf id cs : (forall c, c ∈ cs -> ~ announces c id) ->
  forall h, h !! id = None -> relays id (arun (saw_step cf) (Some h) cs) = [] /\
    forall h', astate (saw_step cf) (Some h) cs = Some h' -> h' !! id = None.
Proof.
  induction cs as [|c cs IH]; intros Hna h Hh; [cbn; split; [done|]; by intros h' [= <-]|].
  assert (Hna' : forall c, c ∈ cs -> ~ announces c id) by (intros ? ?; apply Hna; by apply elem_of_list_further).
  assert (Hc : ~ announces c id) by (apply Hna, elem_of_list_here).
  cbn [arun astate mbind option_bind]. destruct (saw_step cf h c) as [[h1 a]|] eqn:Es; cbn [fmap option_fmap option_map fst].
  - assert (Hstep : h1 !! id = None /\ relays_of id (c, a) = []).
    { destruct c as [p ps clas|nf|cmd file]; cbn in Es.
      - destruct (decide (p_id p = id)) as [Hid|Hid].
        + rewrite Hid, Hh in Es. injection Es as <- <-. split; [done|]. cbn. by destruct (decide (p_id p = id)).
        + destruct (h !! p_id p) as [d|].
          * destruct (saw_query cf clas p d ps [] false) as [[d' [ss del]]|]; [|done]. injection Es as <- <-.
            split; [by rewrite lookup_insert_ne|]. cbn. destruct del; [done|]. by rewrite decide_False.
          * injection Es as <- <-. split; [done|]. cbn. by rewrite decide_False.
      - injection Es as <- <-. split; [|done]. cbn in Hc. destruct nf as [i n|i n|b|i n|e|e]; cbn; unfold saw_new; try done.
        + destruct (decide (i = id)) as [->|]; [by rewrite Hh|]. destruct (h !! i); [by rewrite lookup_insert_ne|done].
        + by rewrite lookup_insert_ne.
        + by rewrite lookup_insert_ne.
      - injection Es as <- <-. done. }
    destruct Hstep as [Hh1 Hr]. destruct (IH Hna' h1 Hh1) as [IH1 IH2]. split; [|exact IH2].
    unfold relays in *. cbn [map concat]. by rewrite Hr.
  - rewrite arun_dead, astate_dead. split; [|done]. unfold relays. cbn [map concat]. rewrite map_map.
    replace (map (λ x : rcmd, relays_of id (x, None)) cs) with (map (fun _ : rcmd => @nil sender) cs).
    + destruct c; cbn; clear; induction cs; done.
    + apply map_ext. by intros [].
Qed.
(** the whole history of a bundle announced once *)
Lemma saw_once cf id cs1 c cs2 : announces c id -> (forall x, x ∈ cs1 ++ cs2 -> ~ announces x id) ->
  let n0 := if String.prefix (sc_local cf) id then sc_l cf else 1 in
  let R := relays id (arun (saw_step cf) (Some ∅) (cs1 ++ c :: cs2)) in
  N.of_nat (length R) <= (n0 - 1) + count_failures id cs2 /\ (count_failures id cs2 = 0 -> NoDup (map nid_of R)).
Proof.
  intros Hc Hna n0 R. destruct (saw_unknown cf id cs1 ltac:(intros ? ?; apply Hna, elem_of_app; by left) ∅ (lookup_empty _)) as [Hr1 Hs1].
  assert (HR : R = relays id (arun (saw_step cf) (astate (saw_step cf) (Some ∅) cs1) (c :: cs2))).
  { subst R. by rewrite arun_app, relays_app, Hr1. }
  destruct (astate (saw_step cf) (Some ∅) cs1) as [h|] eqn:Eh.
  2:{ rewrite HR, arun_dead. replace (relays id _) with (@nil sender); [split; [cbn; lia|intros; apply NoDup_nil_2]|].
      unfold relays. rewrite map_map. clear. induction (c :: cs2) as [|x l IH]; [done|]. cbn [map concat]. rewrite <- IH. by destruct x. }
  assert (Hstep : exists h1, saw_step cf h c = Some (h1, None) /\ h1 !! id = Some (SawData n0 [])).
  { destruct c as [|[| |b|i n| |]|]; cbn in Hc; try done; subst; eexists; (split; [reflexivity|]); cbn; unfold saw_new; by rewrite lookup_insert. }
  destruct Hstep as (h1 & Hst & Hh1). cbn [arun mbind option_bind] in HR. rewrite Hst in HR.
  assert (HR' : R = relays id (arun (saw_step cf) (Some h1) cs2)).
  { rewrite HR. unfold relays. cbn [map concat]. by destruct c. }
  pose proof (saw_run_inv cf id cs2 h1 (SawData n0 []) n0 0 [] Hh1) as Hinv.
  assert (H0 : saw_inv n0 0 [] (SawData n0 [])).
  { constructor; [cbn; lia|done|]. intros _. split; [apply NoDup_nil_2|]. by intros s ?%elem_of_nil. }
  specialize (Hinv H0 ltac:(intros ? ?; apply Hna, elem_of_app; by right)). cbn [app] in Hinv. rewrite <- HR' in Hinv.
  assert (Hcnt : R <> [] \/ R = []) by (destruct R; [by right|by left]).
  destruct (astate (saw_step cf) (Some h1) cs2) as [h'|].
  - destruct Hinv as (d' & _ & [Hb Hp Hn]). split.
    + destruct Hcnt as [Hne| ->]; [specialize (Hp Hne)|cbn]; lia.
    + intros Hf. destruct (Hn ltac:(lia)) as [? _]. done.
  - destruct Hinv as (fl & d' & Hfl & [Hb Hp Hn]). split.
    + destruct Hcnt as [Hne| ->]; [specialize (Hp Hne)|cbn]; lia.
    + intros Hf. destruct (Hn ltac:(lia)) as [? _]. done.
Qed.
(** a budget that suffices reaches every reachable peer *)
Lemma saw_query_all cf clas p : forall ps d acc,
  (forall q, q ∈ ps -> exists nid, eid_node_id (pe_eid q) = Some nid /\ nid <> sc_local cf /\ nid ∉ sw_nodes d) ->
  NoDup (map (fun q => eid_node_id (pe_eid q)) ps) ->
  N.of_nat (length ps) < sw_left d ->
  exists d', saw_query cf clas p d ps acc false = Some (d', (acc ++ omap (first_cla clas) ps, false)).
Proof.
  induction ps as [|q ps IH]; intros d acc Hq Hnd Hl; [exists d; cbn; by rewrite app_nil_r|]. cbn [saw_query].
  destruct (Hq q (elem_of_list_here _ _)) as (nid & Hnid & Hloc & Hn). rewrite Hnid, !bool_decide_false by done. cbn [orb].
  cbn [length] in Hl. replace (sw_left d <? 2) with false by (symmetry; apply N.ltb_ge; lia).
  cbn [map] in Hnd. apply NoDup_cons in Hnd as [Hnq Hnd].
  assert (Hq' : forall q', q' ∈ ps -> exists nid', eid_node_id (pe_eid q') = Some nid' /\ nid' <> sc_local cf /\ nid' ∉ sw_nodes d).
  { intros q' Hin. apply Hq. by apply elem_of_list_further. }
  destruct (first_cla clas q) as [s|] eqn:Es.
  - destruct (IH (SawData (sw_left d - 1) (sw_nodes d ++ [nid])) (acc ++ [s])) as [d' Hd'].
    + intros q' Hin. destruct (Hq' q' Hin) as (x & Hx & Hxl & Hxn). exists x. split; [done|]. split; [done|]. cbn.
      intros [?| ->%elem_of_list_singleton]%elem_of_app; [done|]. apply Hnq, elem_of_list_fmap. exists q'. split; [|done].
      congruence.
    + done.
    + cbn. lia.
    + exists d'. rewrite Hd'. cbn. rewrite Es. by rewrite <- app_assoc.
  - destruct (IH d acc Hq' Hnd ltac:(lia)) as [d' Hd']. exists d'. rewrite Hd'. cbn. by rewrite Es.
Qed.
