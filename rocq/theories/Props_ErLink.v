(** C158-C159: the websocket clients for external programs, and the routing
    program behind one of them (model: ErLink.v; what the program does with a
    packet: Erouter.v). *)
From stdpp Require Import prelude strings pretty gmap.
From Coq Require Import NArith Lia Ascii.
From Verif Require Import Core Peers Routing External IdProofs StaticProofs Erouter ErouterProofs Props_Erouter Config ConfigProofs Props_Config ConnectNProofs ErLink.
Open Scope N_scope.

(** ** C159: the address of the daemon *)
(** a well-formed address: host, colon, port *)
Definition host_port (addr ip : string) (port : N) : Prop :=
  exists p, addr = ip +:+ ":" +:+ p /\ free ":"%char ip /\ free ":"%char p /\ numeral p port /\ port < 65536.
(** Full statement: either client takes exactly the well-formed addresses and
    refuses all others with an error. *)
Definition takes_addresses (new : string -> created) : Prop :=
  forall addr, (forall ip port, host_port addr ip port <-> new addr = Client ip port) /\ new addr <> Panicked.
Definition C159_full : Prop := takes_addresses ecla_new /\ takes_addresses erouting_new.
Lemma split_two addr ip p : split_at ":"%char addr = [ip; p] <-> addr = ip +:+ ":" +:+ p /\ free ":"%char ip /\ free ":"%char p.
Proof.
  split.
  - intros E. destruct (split_at_parts ":"%char addr) as (a & ps & E1 & Hf & Hs). rewrite E in E1. injection E1 as <- <-. destruct Hs as (r & -> & Hr).
    destruct (split_at_parts ":"%char r) as (b & qs & E2 & Hf2 & Hs2). rewrite Hr in E2. injection E2 as <- <-. subst r. done.
  - intros (-> & H1 & H2). change (ip +:+ ":" +:+ p) with (ip +:+ String ":"%char p). rewrite split_first_part by done. by rewrite split_free.
Qed.
Lemma uint_numeral p n : parse_uint 65536 p = Some n <-> numeral p n /\ n < 65536.
Proof. split; [apply parse_uint_numeral|]. intros [H1 H2]. by apply numeral_parse. Qed.
Lemma address_split (new : string -> created) (bad : created) : (forall i p, bad <> Client i p) ->
  (forall addr, new addr = match split_at ":"%char addr with [ip; p] => match parse_uint 65536 p with Some n => Client ip n | None => bad end | _ => Refused end) ->
  forall addr ip port, host_port addr ip port <-> new addr = Client ip port.
Proof.
  intros Hb Hn addr ip port. rewrite Hn. split.
  - intros (p & He & H1 & H2 & H3 & H4). assert (E : split_at ":"%char addr = [ip; p]) by (by apply split_two). rewrite E.
    by rewrite (proj2 (uint_numeral p port)).
  - destruct (split_at ":"%char addr) as [|i [|p [|x l]]] eqn:E; try done. destruct (parse_uint 65536 p) as [n|] eqn:Ep; [|intros Hx; by destruct (Hb ip port)].
    intros [= <- <-]. apply split_two in E as (-> & H1 & H2). apply uint_numeral in Ep as [H3 H4]. by exists p.
Qed.
Theorem C159_ecla_partial : takes_addresses ecla_new.
Proof.
  intros addr. split; [apply (address_split _ Refused); [done|by intros]|]. unfold ecla_new. repeat (case_match; try done).
Qed.
Print Assumptions C159_ecla_partial.
(** The client for routing programs takes the same addresses, but panics if what
    follows the only colon is no port. *)
Theorem C159_erouting_partial : forall addr,
  (forall ip port, host_port addr ip port <-> erouting_new addr = Client ip port) /\
  (erouting_new addr = Panicked <-> (exists ip p, addr = ip +:+ ":" +:+ p /\ free ":"%char ip /\ free ":"%char p) /\ forall ip port, ~ host_port addr ip port).
Proof.
  intros addr. pose proof (address_split erouting_new Panicked ltac:(done) ltac:(done) addr) as H. split; [done|]. split.
  - intros E. split.
    + unfold erouting_new in E. destruct (split_at ":"%char addr) as [|i [|p [|x l]]] eqn:Es; try done. exists i, p. by apply split_two.
    + intros ip port Hh%H. congruence.
  - intros [(ip & p & Hs) Hno]. apply split_two in Hs. unfold erouting_new. rewrite Hs. destruct (parse_uint 65536 p) as [n|] eqn:Ep; [|done].
    exfalso. apply (Hno ip n). apply H. unfold erouting_new. by rewrite Hs, Ep.
Qed.
Print Assumptions C159_erouting_partial.
Theorem C159_full_refuted : ~ C159_full.
Proof. intros [_ H]. by destruct (H "127.0.0.1:http") as [_ H2]. Qed.
Print Assumptions C159_full_refuted.
Example C159_case : host_port "127.0.0.1:3002" "127.0.0.1" 3002 /\ ecla_new "127.0.0.1:70000" = Refused /\ ecla_new "::1:3002" = Refused /\ erouting_new "h:" = Panicked.
Proof. split; [|done]. apply C159_ecla_partial. done. Qed.

(** ** C158: the routing program answers *)
(** the packets that come from the daemon *)
Definition came (es : list lev) : list packet := omap (fun e => match e with LMessage (MPacket k) => Some k | _ => None end) es.
(** what the program has to send for packets [ks], see C122-C126 *)
Definition answers (st : strategy) (ks : list packet) : list response := omap snd (history st ks).
(** the requests among [ks] *)
Definition requests (ks : list packet) : list pack := omap (fun k => match k with PRequest _ p => Some p | _ => None end) ks.
(** steps the program can take by itself *)
Definition own (e : lev) : Prop := e = LHandle \/ e = LRelay \/ e = LWrite true.

Lemma lrun_app st es1 es2 s : lrun st (es1 ++ es2) s = s' ← lrun st es1 s; lrun st es2 s'.
Proof. revert s. induction es1 as [|e es1 IH]; intros s; [done|]. cbn. destruct (lstep st e s) as [s1|]; [apply IH|done]. Qed.
Lemma lrun_snoc st es e s s' : lrun st (es ++ [e]) s = Some s' -> exists s1, lrun st es s = Some s1 /\ lstep st e s1 = Some s'.
Proof. rewrite lrun_app. destruct (lrun st es s) as [s1|]; [|done]. cbn. destruct (lstep st e s1) as [s2|] eqn:E; [|done]. intros [= <-]. by exists s1. Qed.
Lemma came_app es1 es2 : came (es1 ++ es2) = came es1 ++ came es2.
Proof. apply omap_app. Qed.
Lemma answers_snoc st done k s : er_state st (Some er_start) done = Some s ->
  answers st (done ++ [k]) = answers st done ++ (match er_step st s k with Some (_, Some a) => [a] | _ => [] end).
Proof.
  intros Hs. unfold answers, history. rewrite er_run_app, omap_app, Hs. f_equal. cbn. by destruct (er_step st s k) as [[s' [a|]]|].
Qed.
Lemma answers_prefix st k1 k2 : answers st k1 `prefix_of` answers st (k1 ++ k2).
Proof. unfold answers, history. rewrite er_run_app, omap_app. apply prefix_app_r. done. Qed.

(** what is left of the answers to the packets that were looked at *)
Record linv (st : strategy) (es : list lev) (s : link) (seen : list packet) : Prop := Linv {
  li_in : came es = seen ++ rl_rx s;
  li_state : rl_over s = false -> er_state st (Some er_start) seen = Some (rl_router s);
  li_some : sublist (rl_sent s ++ rl_q2 s ++ rl_q1 s) (answers st seen);
  li_all : LWrite false ∉ es -> rl_sent s ++ rl_q2 s ++ rl_q1 s = answers st seen;
  li_room : (length (rl_q1 s) <= 100 /\ length (rl_q2 s) <= 100)%nat
}.
Lemma stopped_linv st es e s seen : came [e] = [] -> linv st es s seen -> linv st (es ++ [e]) (stopped s) seen.
Proof.
  intros Hc [H1 H2 H3 H4 H5]. split; cbn; try done.
  - by rewrite came_app, Hc, app_nil_r.
  - intros Hn. apply H4. intros Hx. apply Hn. apply elem_of_app. by left.
Qed.
Lemma linv_run st es s : lrun st es link0 = Some s -> exists seen, linv st es s seen.
Proof.
  revert s. induction es as [|e es IH] using rev_ind; intros s E.
  { injection E as <-. exists []. split; cbn; try done. lia. }
  apply lrun_snoc in E as (s1 & R & S1). destruct (IH _ R) as (seen & L). pose proof L as [H1 H2 H3 H4 H5].
  assert (Hmono : forall e', LWrite false ∉ es ++ [e'] -> LWrite false ∉ es) by (intros e' Hn Hx; apply Hn, elem_of_app; by left).
  unfold lstep in S1. destruct (rl_over s1) eqn:Eo; [done|]. destruct s1 as [rx r q1 q2 up sent ov log]. cbn -[Nat.ltb] in *. subst ov. specialize (H2 eq_refl).
  destruct e as [|m| | |ok|]; cbn -[Nat.ltb] in S1.
  - destruct up; [done|]. injection S1 as <-. exists seen. split; cbn; try done. { by rewrite came_app, app_nil_r. } intros Hn%Hmono. by apply H4.
  - destruct up; [|done]. destruct m as [k| | |].
    + destruct (length rx <? 100)%nat; [|done]. injection S1 as <-. exists seen. split; cbn; try done. { rewrite came_app, H1. cbn. by rewrite app_assoc. } intros Hn%Hmono. by apply H4.
    + injection S1 as <-. exists seen. split; cbn; try done. { by rewrite came_app, app_nil_r. } intros Hn%Hmono. by apply H4.
    + injection S1 as <-. exists seen. by apply stopped_linv.
    + injection S1 as <-. exists seen. split; cbn; try done. { by rewrite came_app, app_nil_r. } intros Hn%Hmono. by apply H4.
  - destruct rx as [|k rx]; [done|]. pose proof (answers_snoc st seen k r H2) as Ha.
    assert (Hin : came (es ++ [LHandle]) = (seen ++ [k]) ++ rx) by (rewrite came_app, H1; cbn; by rewrite app_nil_r, <- app_assoc).
    destruct (er_step st r k) as [[r' [a|]]|] eqn:Ek.
    + destruct (length q1 <? 100)%nat eqn:El; [|done]. injection S1 as <-. exists (seen ++ [k]). split; cbn; try done.
      * intros _. rewrite er_state_app, H2. cbn. by rewrite Ek.
      * rewrite Ha, !app_assoc. apply sublist_app; [|done]. by rewrite <- app_assoc.
      * intros Hn%Hmono. rewrite Ha, <- (H4 Hn). by rewrite !app_assoc.
      * rewrite app_length. cbn. apply Nat.ltb_lt in El. lia.
    + injection S1 as <-. rewrite app_nil_r in Ha. exists (seen ++ [k]). split; cbn; try done.
      * intros _. rewrite er_state_app, H2. cbn. by rewrite Ek.
      * by rewrite Ha.
      * intros Hn%Hmono. rewrite Ha. by apply H4.
    + injection S1 as <-. rewrite app_nil_r in Ha. exists (seen ++ [k]). split; cbn; try done.
      * by rewrite Ha.
      * intros Hn%Hmono. rewrite Ha. by apply H4.
  - destruct q1 as [|a q1]; [done|]. destruct (length q2 <? 100)%nat eqn:El; [|done]. injection S1 as <-. exists seen. split; cbn; try done.
    + by rewrite came_app, app_nil_r.
    + by rewrite <- app_assoc.
    + intros Hn%Hmono. rewrite <- app_assoc. by apply H4.
    + rewrite app_length. apply Nat.ltb_lt in El. cbn in *. lia.
  - destruct q2 as [|a q2]; [done|]. destruct up; [|done]. injection S1 as <-. exists seen. split; cbn; try done.
    + by rewrite came_app, app_nil_r.
    + destruct ok; [by rewrite <- app_assoc|]. etransitivity; [|exact H3]. apply sublist_app; [done|]. cbn. by apply sublist_cons.
    + intros Hn. destruct ok; [|exfalso; apply Hn, elem_of_app; right; left]. rewrite <- app_assoc. by apply H4, (Hmono _ Hn).
    + cbn in *. lia.
  - destruct up; [|done]. injection S1 as <-. exists seen. by apply stopped_linv.
Qed.
(** with the websocket open everything that waits can be answered *)
Definition load (s : link) : nat := 3 * length (rl_rx s) + 2 * length (rl_q1 s) + length (rl_q2 s).
Lemma own_step st s : rl_over s = false -> rl_up s = true -> (length (rl_q1 s) <= 100 /\ length (rl_q2 s) <= 100)%nat -> load s <> 0%nat ->
  exists e s', own e /\ lstep st e s = Some s' /\ rl_up s' = true /\ (load s' < load s)%nat.
Proof.
  destruct s as [rx r q1 q2 up sent ov log]. unfold load. cbn. intros -> -> [L1 L2] Hl.
  destruct q2 as [|a q2].
  2:{ exists (LWrite true). eexists. split; [by do 2 right|]. split; [reflexivity|]. cbn. split; [done|lia]. }
  destruct q1 as [|a q1].
  2:{ exists LRelay. eexists. split; [by right; left|]. split; [reflexivity|]. cbn. split; [done|lia]. }
  destruct rx as [|k rx]; [done|].
  exists LHandle. unfold own. cbn. destruct (er_step st r k) as [[r' [a|]]|]; (eexists; split; [by left|]; split; [reflexivity|]; cbn; split; [done|lia]).
Qed.
Lemma own_calm es e : own e -> LWrite false ∉ es -> LWrite false ∉ es ++ [e].
Proof. intros [->|[->| ->]] Hn [Hx|Hx%elem_of_list_singleton]%elem_of_app; done. Qed.
Lemma own_finish st es s : lrun st es link0 = Some s -> rl_up s = true -> rl_over s = false ->
  exists es' s', Forall own es' /\ lrun st es' s = Some s' /\ (rl_over s' = true \/ rl_rx s' = [] /\ rl_q1 s' = [] /\ rl_q2 s' = []).
Proof.
  remember (load s) as n eqn:En. revert es s En. induction (lt_wf n) as [n _ IH]. intros es s -> R Hu Ho.
  destruct (decide (load s = 0%nat)) as [Hz|Hnz].
  { exists [], s. split; [constructor|]. split; [done|]. right. unfold load in Hz. destruct (rl_rx s), (rl_q1 s), (rl_q2 s); cbn in Hz; try lia. done. }
  destruct (linv_run _ _ _ R) as (seen & [_ _ _ _ Hroom]). destruct (own_step st s Ho Hu Hroom Hnz) as (e & s1 & He & S1 & Hu1 & Hl).
  destruct (rl_over s1) eqn:Eo1.
  { exists [e], s1. split; [by constructor|]. cbn. rewrite S1. split; [done|by left]. }
  destruct (IH (load s1) Hl (es ++ [e]) s1) as (es' & s' & Hf & R' & Hd); [done|by rewrite lrun_app, R; cbn; rewrite S1|done|done|].
  exists (e :: es'), s'. split; [by constructor|]. cbn. rewrite S1. done.
Qed.
Lemma own_came es : Forall own es -> came es = [].
Proof. induction 1 as [|e es H F IH]; [done|]. destruct H as [->|[->| ->]]; cbn; exact IH. Qed.
Lemma own_calms es : Forall own es -> LWrite false ∉ es.
Proof. intros F Hx. rewrite Forall_forall in F. by destruct (F _ Hx) as [?|[?|?]]. Qed.

(** What is sent to the daemon are the answers of the routing strategy to the
    packets that came, each once and in their order; without gaps if no write
    fails.  While the websocket is open the program can go on until every packet
    that came is answered, unless it panics. *)
Theorem C158_answers : forall st es s, lrun st es link0 = Some s ->
  sublist (rl_sent s) (answers st (came es)) /\
  (LWrite false ∉ es -> rl_sent s `prefix_of` answers st (came es)) /\
  (rl_up s = true -> rl_over s = false -> LWrite false ∉ es ->
     exists es' s', Forall own es' /\ lrun st es' s = Some s' /\ (rl_over s' = true \/ rl_sent s' = answers st (came es))).
Proof.
  intros st es s R. destruct (linv_run _ _ _ R) as (seen & [H1 H2 H3 H4 H5]). pose proof (answers_prefix st seen (rl_rx s)) as Hp. rewrite <- H1 in Hp. split_and!.
  - etransitivity; [|by apply sublist_prefix || (destruct Hp as [l ->]; apply sublist_inserts_r; exact H3)]. by apply sublist_inserts_r.
  - intros Hn. etransitivity; [|exact Hp]. rewrite <- (H4 Hn). by eexists.
  - intros Hu Ho Hn. destruct (own_finish _ _ _ R Hu Ho) as (es' & s' & Hf & R' & Hd). exists es', s'. split; [done|]. split; [done|].
    destruct Hd as [Hd|(E1 & E2 & E3)]; [by left|right].
    destruct (linv_run st (es ++ es') s') as (seen' & [G1 G2 G3 G4 G5]); [by rewrite lrun_app, R|].
    rewrite came_app, (own_came _ Hf), app_nil_r, E1, app_nil_r in G1. rewrite E2, E3, !app_nil_r in G4. rewrite G1. apply G4.
    intros [Hx|Hx]%elem_of_app; [done|]. by apply (own_calms _ Hf).
Qed.
Print Assumptions C158_answers.
(** If the endpoints in the packets are nodes, see C125, nothing the daemon sends
    ends the program, and every request gets one answer, in the order of the
    requests, about the bundle asked for. *)
Lemma answers_requests st ks : (forall k, k ∈ ks -> proper st k) -> map rs_pack (answers st ks) = requests ks.
Proof.
  induction ks as [|k ks IH] using rev_ind; intros Hp; [done|].
  assert (Hks : forall x, x ∈ ks -> proper st x) by (intros x Hx; apply Hp, elem_of_app; by left).
  destruct (er_alive st ks Hks) as [r Hr]. rewrite (answers_snoc _ _ _ _ Hr), map_app, (IH Hks). unfold requests. rewrite omap_app. f_equal.
  destruct (er_alive st (ks ++ [k]) Hp) as [r' Hr']. rewrite er_state_app, Hr in Hr'. cbn in Hr'.
  destruct (er_step st r k) as [[r1 a]|] eqn:Ek; [|done].
  destruct k as [m|e q|e|i m|p|b|i m|clas p|]; cbn in Ek |- *; try (by injection Ek as _ <-).
  - destruct (eid_node e); [by injection Ek as _ <-|done].
  - destruct (eid_node e); [by injection Ek as _ <-|done].
  - destruct st; [by injection Ek as _ <-|]. destruct (er_peers _ _ _ _ _ _) as [[[h' ss] del]|]; [|done]. by injection Ek as _ <-.
Qed.
Lemma own_alive st es s e s' : (forall k, k ∈ came es -> proper st k) -> lrun st es link0 = Some s -> own e -> lstep st e s = Some s' -> rl_over s' = false.
Proof.
  intros Hp R He S1. destruct (linv_run _ _ _ R) as (seen & [H1 H2 _ _ _]). unfold lstep in S1. destruct (rl_over s) eqn:Eo; [done|]. specialize (H2 eq_refl).
  destruct s as [rx r q1 q2 up sent ov log]. cbn -[Nat.ltb] in *. subst ov. destruct He as [->|[->| ->]].
  - destruct rx as [|k rx]; [done|]. destruct (er_alive st (seen ++ [k])) as [r' Hr'].
    { intros x Hx. apply Hp. rewrite H1. apply elem_of_app in Hx as [Hx|Hx%elem_of_list_singleton]; apply elem_of_app; [by left|right; subst x; left]. }
    rewrite er_state_app, H2 in Hr'. cbn in Hr'. destruct (er_step st r k) as [[r1 [a|]]|]; [|by injection S1 as <-|done].
    destruct (length q1 <? 100)%nat; [|done]. by injection S1 as <-.
  - destruct q1 as [|a q1]; [done|]. destruct (length q2 <? 100)%nat; [|done]. by injection S1 as <-.
  - destruct q2 as [|a q2]; [done|]. destruct up; [|done]. by injection S1 as <-.
Qed.
Lemma own_alives st es' : forall es s s', (forall k, k ∈ came es -> proper st k) -> lrun st es link0 = Some s -> Forall own es' -> lrun st es' s = Some s' -> rl_over s = false -> rl_over s' = false.
Proof.
  induction es' as [|e es' IH]; intros es s s' Hp R F R' Ho; [by injection R' as <-|]. cbn in R'. destruct (lstep st e s) as [s1|] eqn:S1; [|done]. cbn in R'.
  inversion F as [|x l He Hf]; subst. eapply (IH (es ++ [e]) s1 s'); try done.
  - rewrite came_app, (own_came [e]) by (by constructor). by rewrite app_nil_r.
  - by rewrite lrun_app, R; cbn; rewrite S1.
  - by eapply (own_alive st es s e).
Qed.
Theorem C158_every_request : forall st es s, lrun st es link0 = Some s -> (forall k, k ∈ came es -> proper st k) ->
  rl_up s = true -> LWrite false ∉ es -> LMessage MBinary ∉ es -> LEnd ∉ es ->
  exists es' s', Forall own es' /\ lrun st es' s = Some s' /\ rl_over s' = false /\ map rs_pack (rl_sent s') = requests (came es).
Proof.
  intros st es s R Hp Hu Hn Hb He.
  assert (Ho : rl_over s = false).
  { clear Hu Hn. revert s R Hp Hb He. induction es as [|e es IH] using rev_ind; intros s R Hp Hb He; [by injection R as <-|]. pose proof R as R0. apply lrun_snoc in R as (s1 & R & S1).
    assert (Ho1 : rl_over s1 = false).
    { apply IH; [done| | |]; [intros k Hk; apply Hp; rewrite came_app; apply elem_of_app; by left|intros Hx; apply Hb, elem_of_app; by left|intros Hx; apply He, elem_of_app; by left]. }
    destruct e as [|m| | |ok|].
    - unfold lstep in S1. rewrite Ho1 in S1. destruct s1 as [rx r q1 q2 up sent ov log]. destruct up; [done|]. by injection S1 as <-.
    - unfold lstep in S1. rewrite Ho1 in S1. destruct s1 as [rx r q1 q2 up sent ov log]. destruct up; [|done]. destruct m as [k| | |]; [|by injection S1 as <-| |by injection S1 as <-].
      + destruct (length rx <? 100)%nat; [|done]. by injection S1 as <-.
      + exfalso. apply Hb, elem_of_app. right. left.
    - eapply (own_alive st es s1 LHandle); [|done|by left|done]. intros k Hk. apply Hp. rewrite came_app. apply elem_of_app. by left.
    - eapply (own_alive st es s1 LRelay); [|done|by right; left|done]. intros k Hk. apply Hp. rewrite came_app. apply elem_of_app. by left.
    - unfold lstep in S1. rewrite Ho1 in S1. destruct s1 as [rx r q1 q2 up sent ov log]. destruct q2 as [|a q2]; [done|]. destruct up; [|done]. by injection S1 as <-.
    - exfalso. apply He, elem_of_app. right. left. }
  destruct (C158_answers st es s R) as (_ & _ & H). destruct (H Hu Ho Hn) as (es' & s' & Hf & R' & Hd). exists es', s'.
  pose proof (own_alives st es' es s s' Hp R Hf R' Ho) as Ho'. split; [done|]. split; [done|]. split; [done|].
  destruct Hd as [Hd|Hd]; [congruence|]. rewrite Hd. by apply answers_requests.
Qed.
Print Assumptions C158_every_request.
(** A peer, two requests and a text that is no packet; one answer is written, one
    is on the way. *)
Definition xlink : list lev := [LUp; LMessage (MPacket (PEncountered (Dtn "a" "") (xp "a"))); LMessage (MPacket (xask (Dtn "far" "in"))); LMessage MText; LHandle;
  LMessage (MPacket (xask (Dtn "far" "in"))); LHandle; LHandle; LRelay; LWrite true].
Example C158_case : exists s, lrun Epidemic xlink link0 = Some s /\ (forall k, k ∈ came xlink -> proper Epidemic k) /\ rl_up s = true /\
  length (rl_sent s) = 1%nat /\ length (rl_q1 s) = 1%nat /\ length (answers Epidemic (came xlink)) = 2%nat /\
  LWrite false ∉ xlink /\ LMessage MBinary ∉ xlink /\ LEnd ∉ xlink.
Proof.
  eexists. split; [vm_compute; reflexivity|]. split_and!; try by vm_compute.
  - intros k Hk. apply elem_of_list_In in Hk. repeat (destruct Hk as [<-|Hk]; [by (right || idtac)|]). done.
  - intros H%elem_of_list_In. by repeat (destruct H as [?|H]; [done|]).
  - intros H%elem_of_list_In. by repeat (destruct H as [?|H]; [done|]).
  - intros H%elem_of_list_In. by repeat (destruct H as [?|H]; [done|]).
Qed.
