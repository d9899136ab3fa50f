(** C173: which services are announced. *)
From stdpp Require Import prelude strings pretty gmap.
From Coq Require Import NArith ZArith Lia ZifyBool ZifyN ZifyNat.
From Verif Require Import Bytes Cbor CborProofs Utf8 Core Peers Routing IdProofs StaticProofs Beacon BeaconProofs DiscoveryProofs Config Props_Config Props_Discovery SvcList.
Open Scope N_scope.

(** ** Specification *)
(** the routing program added the service, and has not added another under the same tag since *)
Definition added (h : list sev) (tag : N) (text : string) : Prop :=
  exists h1 h2, h = h1 ++ EMsg (MServiceAdd tag text) :: h2 /\ forall text', EMsg (MServiceAdd tag text') ∉ h2.
(** the services the node has: those added, and the configured ones whose tags were not taken over *)
Definition wanted (c : conf) (h : list sev) (tag : N) (text : string) : Prop :=
  added h tag text \/ ((forall text', EMsg (MServiceAdd tag text') ∉ h) /\ c_services c !! tag = Some text).
(** the node id, the layers and the interval fit their types *)
Definition speaks (c : conf) (clas : list (string * N)) : Prop :=
  (match c_host c with
   | DtnNone => False
   | Dtn n s => ~ (exists x y, n = x +:+ "/" +:+ y) /\ rust_string ("//" +:+ n +:+ "/" +:+ s)
   | Ipn n s => n < 2^64 /\ s < 2^64
   end) /\
  N.of_nat (length clas) < 2^64 /\
  (forall name port, (name, port) ∈ clas -> rust_string name /\ port < 2^16) /\
  c_interval c / 1000000 / 1000 < 2^64.
(** whoever hears the beacon lists exactly these services for the node *)
Definition hearers_list (parse_f32 : string -> option N) (show_f32 : N -> string) (host : eid) (b : beacon) (want : N -> string -> Prop) : Prop :=
  forall seq order self now ip m, seq < 2^32 -> order ≡ₚ map_to_list (sb_services (bc_block b)) -> self <> host ->
  exists m' node p, on_datagram show_f32 self now ip (enc_beacon order (set_seq seq b)) m = Good m' /\
    eid_node host = Some node /\ m' !! node = Some p /\
    forall tag s, (tag, s) ∈ pe_services p <-> exists text, want tag text /\ displayed parse_f32 show_f32 tag text s.

(** ** Proofs *)
Lemma added_snoc h e tag text : added (h ++ [e]) tag text <->
  e = EMsg (MServiceAdd tag text) \/ (added h tag text /\ forall text', e <> EMsg (MServiceAdd tag text')).
Proof.
  split.
  - intros (h1 & h2 & E & Hn). destruct h2 as [|x h2 _] using rev_ind.
    + apply app_inj_tail in E as [-> ->]. by left.
    + rewrite app_comm_cons, app_assoc in E. apply app_inj_tail in E as [-> ->]. right. split.
      * exists h1, h2. split; [done|]. intros t' H. apply (Hn t'). apply elem_of_app. by left.
      * intros t' ->. apply (Hn t'). apply elem_of_app. right. by apply elem_of_list_singleton.
  - intros [->|[(h1 & h2 & -> & Hn) He]].
    + exists h, []. split; [done|]. intros t' H. by apply elem_of_nil in H.
    + exists h1, (h2 ++ [e]). rewrite <- app_assoc. split; [done|].
      intros t' H. apply elem_of_app in H as [H|H]; [by apply (Hn t')|]. apply elem_of_list_singleton in H. by apply (He t').
Qed.
Lemma list_spec pf c h s : srun pf c h s -> forall tag text, s_list s !! tag = Some text <-> added h tag text.
Proof.
  induction 1 as [|h s e s' Hr IH Hs]; intros tag text.
  - cbn. rewrite lookup_empty. split; [done|]. intros (h1 & h2 & E & _). by destruct h1.
  - rewrite added_snoc, <- IH. destruct Hs as [m l al se|cl o b l se|cl o l se|cl l se]; cbn [s_list].
    + destruct m as [t x|]; cbn [on_message].
      * rewrite lookup_insert_Some. split.
        -- intros [[-> ->]|[Hn H]]; [by left|]. right. split; [done|]. intros t' [= -> _]. done.
        -- intros [[= -> ->]|[H Hn]]; [by left|]. right. split; [|done]. intros ->. by apply (Hn x).
      * split; [by right|]. by intros [?|[? _]].
    + split; [by right|]. by intros [?|[? _]].
    + split; [by right|]. by intros [?|[? _]].
    + split; [by right|]. by intros [?|[? _]].
Qed.
Lemma ord_spec l (ord : list (N * string)) : ord ≡ₚ map_to_list l -> forall t x, (t, x) ∈ ord <-> l !! t = Some x.
Proof. intros H t x. rewrite H. apply elem_of_map_to_list. Qed.

(** ** What the neighbours list *)
(** Proved: as long as the services added keep the limits of their kinds, every
    round sends a beacon, and all that hear it list exactly the services last
    added, whatever was configured.  Missing: the configured services, and
    services that break a limit. *)
Theorem C173_listed_partial : forall (parse_f32 : string -> option N) (show_f32 : N -> string),
  (forall x v, parse_f32 x = Some v -> v < 2^32) ->
  forall c h s clas s',
  speaks c clas ->
  (forall tag text, EMsg (MServiceAdd tag text) ∈ h -> rust_string text /\ announced parse_f32 tag text) ->
  srun parse_f32 c h s -> sstep parse_f32 c s (ETick clas) s' ->
  exists b, s_sent s' = s_sent s ++ [b] /\ hearers_list parse_f32 show_f32 (c_host c) b (added h).
Proof.
  intros pf sf Hbits c h s clas s' (Hh & Hl & Hc & Hi) Hgood Hr Hs.
  assert (Hall : forall h s, srun pf c h s -> (forall tag text, EMsg (MServiceAdd tag text) ∈ h -> rust_string text /\ announced pf tag text) ->
    forall tag text, s_list s !! tag = Some text -> rust_string text /\ announced pf tag text).
  { clear. intros h s Hr Hg t x H. apply (list_spec _ _ _ _ Hr) in H as (h1 & h2 & -> & _). apply Hg, elem_of_app. right. left. }
  assert (Halive : forall h s, srun pf c h s -> (forall tag text, EMsg (MServiceAdd tag text) ∈ h -> rust_string text /\ announced pf tag text) -> s_alive s = true).
  { clear -Hall. induction 1 as [|h s e s' Hr IH Hs]; intros Hg; [done|].
    assert (Hg' : forall tag text, EMsg (MServiceAdd tag text) ∈ h -> rust_string text /\ announced pf tag text).
    { intros t x H. apply Hg, elem_of_app. by left. }
    specialize (IH Hg'). assert (Ha := Hall _ _ Hr Hg'). destruct Hs as [m l al se|cl o b l se|cl o l se Ho Hn|cl l se]; cbn in *; try done.
    destruct (proj2 (C67_announcing_partial pf (announce_of c cl o))) as [b Hb]; [|exfalso; exact (Hn b Hb)].
    intros t x H. cbn in H. apply (ord_spec _ _ Ho) in H. apply Ha in H as [_ H]. exact H. }
  assert (Hw : forall ord, ord ≡ₚ map_to_list (s_list s) -> announces_well pf (announce_of c clas ord)).
  { intros ord Ho. split; [done|]. split; [done|]. split; [done|]. split; [|split; [|done]].
    - cbn [announce_of an_services]. rewrite Ho. apply NoDup_fst_map_to_list.
    - cbn. intros t x H. apply (ord_spec _ _ Ho) in H. by apply (Hall h s). }
  assert (Hlist := list_spec _ _ _ _ Hr). assert (Hal := Halive _ _ Hr Hgood).
  inversion Hs as [|cl o b l se Ho Hb|cl o l se Ho Hn|cl l se]; subst; cbn [s_list s_sent s_alive] in *; [| |done].
  - exists b. split; [done|]. destruct (C66_listed_as_announced pf sf Hbits _ (Hw _ Ho)) as (b' & Hb' & HL).
    assert (b' = b) as -> by congruence. intros seq order self now ip m H1 H2 H3.
    destruct (HL seq order self now ip m H1 H2 H3) as (m' & node & p & E1 & E2 & E3 & _ & _ & _ & _ & _ & E4).
    exists m', node, p. split; [done|]. split; [done|]. split; [done|]. intros t x. rewrite E4. cbn.
    split; intros (text & H & Hd); exists text; (split; [|done]).
    + apply Hlist. by apply (ord_spec _ _ Ho) in H.
    + apply (ord_spec _ _ Ho). by apply Hlist.
  - destruct (C66_listed_as_announced pf sf Hbits _ (Hw _ Ho)) as (b' & Hb' & _). exfalso; exact (Hn b' Hb').
Qed.
Print Assumptions C173_listed_partial.

(** ** The configured services *)
(** In full: neighbours list the configured services as well. *)
Definition C173_configured_full : Prop := forall (parse_f32 : string -> option N) (show_f32 : N -> string),
  (forall x v, parse_f32 x = Some v -> v < 2^32) ->
  forall x o f c h s clas s',
  configured x o f = Some c -> speaks c clas ->
  (forall tag text, c_services c !! tag = Some text -> rust_string text /\ announced parse_f32 tag text) ->
  (forall tag text, EMsg (MServiceAdd tag text) ∈ h -> rust_string text /\ announced parse_f32 tag text) ->
  srun parse_f32 c h s -> sstep parse_f32 c s (ETick clas) s' ->
  exists b, s_sent s' = s_sent s ++ [b] /\ hearers_list parse_f32 show_f32 (c_host c) b (wanted c h).
(** dtnd -n node7 --service 63:hello *)
Definition o173 : cli := Cli false false false false None false false false None (Some "node7") false None None None None None [] None [] [] ["63:hello"] [] [] [].
Definition f32_none (_ : string) : option N := None.
Lemma host173 c : configured x0 o173 None = Some c -> c_host c = Dtn "node7" "" /\ c_services c = {[63 := "hello"]} /\ c_interval c = 2000000000.
Proof.
  assert (E : (c ← configured x0 o173 None; Some (c_host c, map_to_list (c_services c), c_interval c)) = Some (Dtn "node7" "", [(63, "hello")], 2000000000))
    by (vm_compute; reflexivity).
  intros H. rewrite H in E. cbn in E. injection E as E1 E2 E3. split; [done|]. split; [|done].
  apply map_to_list_inj. rewrite E2, map_to_list_singleton. done.
Qed.
Lemma speaks173 c : c_host c = Dtn "node7" "" -> c_interval c = 2000000000 -> speaks c [].
Proof.
  intros E1 E2. split; [|split; [done|split]].
  - rewrite E1. split; [|done]. intros (x & y & H). assert (has_slash "node7" = true) as E; [|done]. rewrite H.
    clear. induction x as [|a x IH]; [done|]. change (String a x +:+ "/" +:+ y) with (String a (x +:+ "/" +:+ y)).
    cbn [has_slash]. rewrite IH. by case_bool_decide.
  - intros n p H. by apply elem_of_nil in H.
  - by rewrite E2.
Qed.
Lemma unlike_self : Dtn "node1" "" <> Dtn "node7" "".
Proof. done. Qed.
Theorem C173_configured_refuted : ~ C173_configured_full.
Proof.
  intros H. assert (Hb : forall x v, f32_none x = Some v -> v < 2^32) by done.
  destruct (configured x0 o173 None) as [c|] eqn:Ec; [|by vm_compute in Ec].
  destruct (host173 c Ec) as (E1 & E2 & E3). assert (Hsp := speaks173 c E1 E3).
  assert (Hnone : forall tag text, EMsg (MServiceAdd tag text) ∈ (@nil sev) -> rust_string text /\ announced f32_none tag text)
    by (intros t x Hin; by apply elem_of_nil in Hin).
  destruct (proj2 (C67_announcing_partial f32_none (announce_of c [] []))) as [b Hbk].
  { intros t x Hin. by apply elem_of_nil in Hin. }
  assert (Hst : sstep f32_none c (svc_start c) (ETick []) (Svc ∅ true ([] ++ [b]))).
  { apply s_round with (ord := []); [|done]. by rewrite map_to_list_empty. }
  assert (Hcs : forall tag text, c_services c !! tag = Some text -> rust_string text /\ announced f32_none tag text).
  { intros t x Hs. rewrite E2 in Hs. apply lookup_singleton_Some in Hs as [<- <-]. split; [done|]. by apply an_text. }
  destruct (H f32_none (fun _ => "") Hb x0 o173 None c [] (svc_start c) [] _ Ec Hsp Hcs Hnone (r_start _ _) Hst) as (b1 & Es1 & L1).
  destruct (C173_listed_partial f32_none (fun _ => "") Hb c [] (svc_start c) [] _ Hsp Hnone (r_start _ _) Hst) as (b2 & Es2 & L2).
  cbn in Es1, Es2. injection Es1 as <-. injection Es2 as <-.
  assert (Hne : Dtn "node1" "" <> c_host c) by (rewrite E1; apply unlike_self).
  destruct (L1 0 _ (Dtn "node1" "") 0 "10.0.0.9" ∅ ltac:(done) (reflexivity _) Hne) as (m1 & n1 & p1 & A1 & A2 & A3 & A4).
  destruct (L2 0 _ (Dtn "node1" "") 0 "10.0.0.9" ∅ ltac:(done) (reflexivity _) Hne) as (m2 & n2 & p2 & B1 & B2 & B3 & B4).
  assert (m2 = m1) as -> by congruence. assert (n2 = n1) as -> by congruence. assert (p2 = p1) as -> by congruence.
  assert (Hin : (63, "hello") ∈ pe_services p1).
  { apply A4. exists "hello". split; [|apply dp_text]. right. split; [|by rewrite E2, lookup_singleton]. intros t Hin. by apply elem_of_nil in Hin. }
  apply B4 in Hin as (text & (h1 & h2 & E & _) & _). by destruct h1.
Qed.
Print Assumptions C173_configured_refuted.

(** ** Announcing goes on *)
Definition C173_goes_on_full : Prop := forall (parse_f32 : string -> option N) c h s,
  srun parse_f32 c h s -> s_alive s = true.
(** Exactly if at every round so far the services last added kept their limits;
    one that was replaced before the next round does no harm.  Missing: the others. *)
Theorem C173_goes_on_partial : forall (parse_f32 : string -> option N) c h s, srun parse_f32 c h s ->
  (s_alive s = true <-> forall h1 clas h2, h = h1 ++ ETick clas :: h2 -> forall tag text, added h1 tag text -> announced parse_f32 tag text).
Proof.
  intros pf c. induction 1 as [|h s e s' Hr IH Hs].
  { split; [|done]. intros _ h1 clas h2 E. by destruct h1. }
  assert (Hsplit : (forall h1 clas h2, h ++ [e] = h1 ++ ETick clas :: h2 -> forall tag text, added h1 tag text -> announced pf tag text) <->
    (s_alive s = true /\ forall clas, e = ETick clas -> forall tag text, added h tag text -> announced pf tag text)).
  { rewrite IH. split.
    - intros H. split.
      + intros h1 cl h2 -> t x. apply (H h1 cl (h2 ++ [e])). by rewrite <- app_assoc.
      + intros cl -> t x. by apply (H h cl []).
    - intros [H1 H2] h1 cl h2 E. destruct h2 as [|y h2 _] using rev_ind.
      + apply app_inj_tail in E as [-> ->]. by apply (H2 cl).
      + rewrite app_comm_cons, app_assoc in E. apply app_inj_tail in E as [-> ->]. by apply (H1 h1 cl h2). }
  rewrite Hsplit. assert (Hl := list_spec _ _ _ _ Hr). clear Hsplit IH Hr.
  destruct Hs as [m l al se|cl o b l se Ho Hb|cl o l se Ho Hn|cl l se]; cbn [s_alive s_list] in *.
  - split; [by intros ->|]. by intros [? _].
  - split; [|done]. intros _. split; [done|]. intros cl' _ t x Ha.
    apply (proj1 (C67_announcing_partial pf (announce_of c cl o)) (ex_intro _ b Hb)). cbn. apply (ord_spec _ _ Ho). by apply Hl.
  - split; [done|]. intros [_ H]. exfalso.
    destruct (proj2 (C67_announcing_partial pf (announce_of c cl o))) as [b Hb]; [|exfalso; exact (Hn b Hb)].
    intros t x Hin. cbn in Hin. apply (ord_spec _ _ Ho) in Hin. apply (H cl); [done|]. by apply Hl.
  - split; [done|]. by intros [? _].
Qed.
Print Assumptions C173_goes_on_partial.

(** False: the program adds a battery level that is no number, and the node
    falls silent with the next round. *)
Lemma silent173 c : srun f32_none c [EMsg (MServiceAdd 191 "full"); ETick []] (Svc {[191 := "full"]} false []).
Proof.
  apply (r_step _ _ [EMsg (MServiceAdd 191 "full")] (Svc {[191 := "full"]} true [])).
  - apply (r_step _ _ [] (svc_start c)); [apply r_start|]. apply (s_message _ _ (MServiceAdd 191 "full")).
  - apply s_panic with (ord := [(191, "full")]); [by rewrite map_to_list_singleton|]. intros b Hb.
    assert (Ha := proj1 (C67_announcing_partial f32_none (announce_of c [] [(191, "full")])) (ex_intro _ b Hb) 191 "full").
    specialize (Ha ltac:(cbn; by apply elem_of_list_singleton)).
    apply built_iff in Ha as [p Hp]. by vm_compute in Hp.
Qed.
Theorem C173_goes_on_refuted : ~ C173_goes_on_full.
Proof. intros H. by assert (E := H f32_none _ _ _ (silent173 (conf_new "" ""))). Qed.
Print Assumptions C173_goes_on_refuted.
(** The hypotheses can be met: a service is added, replaced and announced. *)
Example C173_case c : c_host c = Dtn "node7" "" -> c_interval c = 2000000000 ->
  exists s', srun f32_none c [EMsg (MServiceAdd 191 "full"); EMsg (MServiceAdd 191 "75"); EMsg (MServiceAdd 63 "hello"); ETick []] s' /\
  speaks c [] /\ s_alive s' = true /\ length (s_sent s') = 1%nat.
Proof.
  intros E1 E2. set (l := <[63 := "hello"]> (<[191 := "75"]> (<[191 := "full"]> ∅)) : gmap N string).
  destruct (proj2 (C67_announcing_partial f32_none (announce_of c [] (map_to_list l)))) as [b Hb].
  { intros t x Hin. cbn in Hin. apply elem_of_map_to_list in Hin. unfold l in Hin.
    apply lookup_insert_Some in Hin as [[<- <-]|[_ Hin]]; [by apply an_text|].
    apply lookup_insert_Some in Hin as [[<- <-]|[Hne Hin]]; [apply built_iff; eexists; vm_compute; reflexivity|].
    by apply lookup_insert_Some in Hin as [[Hq _]|[_ ?]]. }
  exists (Svc l true ([] ++ [b])). split; [|by split; [apply speaks173|]].
  apply (r_step _ _ [EMsg (MServiceAdd 191 "full"); EMsg (MServiceAdd 191 "75"); EMsg (MServiceAdd 63 "hello")] (Svc l true [])).
  2: { apply s_round with (ord := map_to_list l); done. }
  apply (r_step _ _ [EMsg (MServiceAdd 191 "full"); EMsg (MServiceAdd 191 "75")] (Svc (<[191 := "75"]> (<[191 := "full"]> ∅)) true [])).
  2: { apply (s_message _ _ (MServiceAdd 63 "hello")). }
  apply (r_step _ _ [EMsg (MServiceAdd 191 "full")] (Svc (<[191 := "full"]> ∅) true [])).
  2: { apply (s_message _ _ (MServiceAdd 191 "75")). }
  apply (r_step _ _ [] (svc_start c)); [apply r_start|]. apply (s_message _ _ (MServiceAdd 191 "full")).
Qed.
