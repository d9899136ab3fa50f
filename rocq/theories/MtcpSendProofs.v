(** Proofs for MtcpSend.v. *)
From stdpp Require Import prelude gmap.
From Coq Require Import NArith Lia ZifyBool ZifyN ZifyNat.
From Verif Require Import Bytes Mtcp MtcpProofs MtcpSend.
Open Scope N_scope.

(** what was sent on connection [sid] *)
Definition sent1 (sid : nat) (j : job) : option bytes :=
  match j_phase j with Sent s => if decide (s = sid) then Some (j_data j) else None | _ => None end.
Definition sent_on (sid : nat) (jobs : list job) : list bytes := omap (sent1 sid) jobs.
(** transfer [j] has written a part on [sid] *)
Definition midway (sid : nat) (j : job) : Prop :=
  exists rest, j_phase j = Writing sid rest /\ rest <> mtcp_encode (j_data j).

Lemma omap_cons' {A B} (f : A -> option B) x (l : list A) : omap f (x :: l) = match f x with Some b => b :: omap f l | None => omap f l end.
Proof. reflexivity. Qed.
Lemma omap_insert {A B} (f : A -> option B) (l : list A) i x y : l !! i = Some x -> f x = None ->
  omap f (<[i := y]> l) ≡ₚ match f y with Some b => b :: omap f l | None => omap f l end.
Proof.
  revert i; induction l as [|a l IH]; intros [|i] Hl Hx; cbn in Hl; try done.
  - injection Hl as ->. cbn. rewrite Hx. by destruct (f y).
  - specialize (IH i Hl Hx). change (<[S i := y]> (a :: l)) with (a :: <[i := y]> l). rewrite !omap_cons'. destruct (f a) as [b|] eqn:E.
    + rewrite IH. destruct (f y); [constructor|done].
    + rewrite IH. by destruct (f y).
Qed.

(** the connection of a phase *)
Definition uses (p : phase) (sid : nat) : Prop :=
  match p with Writing s _ | Drop s | Sent s | NotSent s => s = sid | _ => False end.
Record inv (st : mstate) : Prop := Inv {
  inv_table : forall a sid, m_table st !! a = Some sid -> exists s, m_streams st !! sid = Some s /\ s_addr s = a;
  inv_store : forall i j sid, m_jobs st !! i = Some j -> j_phase j = Store sid ->
     (exists s, m_streams st !! sid = Some s /\ s_addr s = j_addr j) /\
     (forall a, m_table st !! a <> Some sid) /\
     (forall i' j', m_jobs st !! i' = Some j' -> ~ uses (j_phase j') sid) /\
     (forall i' j', m_jobs st !! i' = Some j' -> j_phase j' = Store sid -> i' = i);
  inv_uses : forall i j sid, m_jobs st !! i = Some j -> uses (j_phase j) sid -> exists s, m_streams st !! sid = Some s /\ s_addr s = j_addr j;
  inv_notsent : forall i j sid, m_jobs st !! i = Some j -> j_phase j = NotSent sid -> forall a, m_table st !! a <> Some sid;
  inv_rest : forall i j sid rest, m_jobs st !! i = Some j -> j_phase j = Writing sid rest -> rest <> [] /\ exists w, mtcp_encode (j_data j) = w ++ rest
}.
Lemma encode_nonempty p : mtcp_encode p <> [].
Proof. unfold mtcp_encode, cbor_bytes_header. repeat case_match; done. Qed.
Lemma alter_stream (f : stream -> stream) (l : list stream) sid sid' s : (forall x, s_addr (f x) = s_addr x) -> l !! sid' = Some s ->
  exists s', alter f sid l !! sid' = Some s' /\ s_addr s' = s_addr s.
Proof.
  intros Hf Hs. destruct (decide (sid = sid')) as [->|Hn].
  - rewrite list_lookup_alter, Hs. cbn. eexists. split; [done|apply Hf].
  - rewrite list_lookup_alter_ne by done. by exists s.
Qed.
Ltac jobs_case H :=
  match type of H with <[?i := ?x]> ?l !! ?k = Some ?j =>
    destruct (decide (i = k)) as [<-|?];
    [rewrite list_lookup_insert in H by (eapply lookup_lt_Some; eassumption); injection H as <-
    |rewrite list_lookup_insert_ne in H by done]
  end.
Lemma inv_step st l st' : inv st -> mstep st l = Some st' -> inv st'.
Proof.
  intros [Ht Hst Hu Hn Hr] H. destruct l as [a d|i|i ok|i n|i|sid0]; cbn in H.
  - (* New *) injection H as <-. constructor; cbn; try done.
    + intros i j sid Hj Hp. apply lookup_app_Some in Hj as [Hj|[_ Hj]]; [|apply list_lookup_singleton_Some in Hj as [_ <-]; done].
      destruct (Hst _ _ _ Hj Hp) as (H1 & H2 & H3 & H4). split_and!; try done.
      * intros i' j' Hj'. apply lookup_app_Some in Hj' as [Hj'|[_ Hj']]; [by eapply H3|apply list_lookup_singleton_Some in Hj' as [_ <-]; tauto].
      * intros i' j' Hj'. apply lookup_app_Some in Hj' as [Hj'|[_ Hj']]; [by eapply H4|apply list_lookup_singleton_Some in Hj' as [_ <-]; done].
    + intros i j sid Hj Hp. apply lookup_app_Some in Hj as [Hj|[_ Hj]]; [by eapply Hu|apply list_lookup_singleton_Some in Hj as [_ <-]; done].
    + intros i j sid Hj Hp. apply lookup_app_Some in Hj as [Hj|[_ Hj]]; [by eapply Hn|apply list_lookup_singleton_Some in Hj as [_ <-]; done].
    + intros i j sid r Hj Hp. apply lookup_app_Some in Hj as [Hj|[_ Hj]]; [by eapply Hr|apply list_lookup_singleton_Some in Hj as [_ <-]; done].
  - (* Step *) destruct (m_jobs st !! i) as [j|] eqn:Ej; [|done]. cbn in H. destruct (j_phase j) eqn:Ep; try done; injection H as <-.
    + (* Look *)
      constructor; cbn; try done.
      * intros i1 j1 sid Hj Hp. jobs_case Hj; [cbn in Hp; case_bool_decide; done|].
        destruct (Hst _ _ _ Hj Hp) as (H1 & H2 & H3 & H4). split_and!; try done.
        -- intros i' j' Hj'. jobs_case Hj'; [cbn; case_bool_decide; cbn; tauto|by eapply H3].
        -- intros i' j' Hj' Hp'. jobs_case Hj'; [cbn in Hp'; case_bool_decide; done|by eapply H4].
      * intros i1 j1 sid Hj Hp. jobs_case Hj; [cbn in Hp; case_bool_decide; done|by eapply Hu].
      * intros i1 j1 sid Hj Hp. jobs_case Hj; [cbn in Hp; case_bool_decide; done|by eapply Hn].
      * intros i1 j1 sid r Hj Hp. jobs_case Hj; [cbn in Hp; case_bool_decide; done|by eapply Hr].
    + (* Store *)
      destruct (Hst _ _ _ Ej Ep) as ((s & Hs & Hsa) & Hnt & Hnu & Hun). constructor; cbn.
      * intros a sid' Ha. apply lookup_insert_Some in Ha as [[<- <-]|[_ Ha]]; [by exists s|by apply Ht].
      * intros i1 j1 sid1 Hj Hp. jobs_case Hj; [done|].
        assert (sid1 <> sid). { intros ->. by pose proof (Hun _ _ Hj Hp). }
        destruct (Hst _ _ _ Hj Hp) as (H1 & H2 & H3 & H4). split_and!; try done.
        -- intros a Ha. apply lookup_insert_Some in Ha as [[_ Ha]|[_ Ha]]; [by subst|by eapply H2].
        -- intros i' j' Hj'. jobs_case Hj'; [cbn; tauto|by eapply H3].
        -- intros i' j' Hj' Hp'. jobs_case Hj'; [done|by eapply H4].
      * intros i1 j1 sid1 Hj Hp. jobs_case Hj; [done|by eapply Hu].
      * intros i1 j1 sid1 Hj Hp a Ha. jobs_case Hj; [done|].
        apply lookup_insert_Some in Ha as [[_ Ha]|[_ Ha]]; [|by eapply Hn]. subst sid1. eapply Hnu; [exact Hj|]. by rewrite Hp.
      * intros i1 j1 sid1 r Hj Hp. jobs_case Hj; [done|by eapply Hr].
    + (* Fetch *)
      destruct (m_table st !! j_addr j) as [sid|] eqn:Et.
      * destruct (Ht _ _ Et) as (s & Hs & Hsa). constructor; cbn; try done.
        -- intros i1 j1 sid1 Hj Hp. jobs_case Hj; [done|].
           destruct (Hst _ _ _ Hj Hp) as (H1 & H2 & H3 & H4). split_and!; try done.
           ++ intros i' j' Hj'. jobs_case Hj'; [|by eapply H3]. cbn. intros ->. by eapply H2.
           ++ intros i' j' Hj' Hp'. jobs_case Hj'; [done|by eapply H4].
        -- intros i1 j1 sid1 Hj Hp. jobs_case Hj; [|by eapply Hu]. cbn in *. subst. by exists s.
        -- intros i1 j1 sid1 Hj Hp. jobs_case Hj; [done|by eapply Hn].
        -- intros i1 j1 sid1 r Hj Hp. jobs_case Hj; [|by eapply Hr]. cbn in *. injection Hp as <- <-. split; [apply encode_nonempty|by exists []].
      * constructor; cbn; try done.
        -- intros i1 j1 sid1 Hj Hp. jobs_case Hj; [done|].
           destruct (Hst _ _ _ Hj Hp) as (H1 & H2 & H3 & H4). split_and!; try done.
           ++ intros i' j' Hj'. jobs_case Hj'; [cbn; tauto|by eapply H3].
           ++ intros i' j' Hj' Hp'. jobs_case Hj'; [done|by eapply H4].
        -- intros i1 j1 sid1 Hj Hp. jobs_case Hj; [done|by eapply Hu].
        -- intros i1 j1 sid1 Hj Hp. jobs_case Hj; [done|by eapply Hn].
        -- intros i1 j1 sid1 r Hj Hp. jobs_case Hj; [done|by eapply Hr].
    + (* Drop *)
      destruct (Hu i j sid Ej) as (s & Hs & Hsa); [by rewrite Ep|]. constructor; cbn.
      * intros a sid' Ha. apply lookup_delete_Some in Ha as [_ Ha]. by apply Ht.
      * intros i1 j1 sid1 Hj Hp. jobs_case Hj; [done|].
        destruct (Hst _ _ _ Hj Hp) as (H1 & H2 & H3 & H4). split_and!; try done.
        -- intros a Ha. apply lookup_delete_Some in Ha as [_ Ha]. by eapply H2.
        -- intros i' j' Hj'. jobs_case Hj'; [|by eapply H3]. cbn. intros ->. eapply H3; [exact Ej|]. by rewrite Ep.
        -- intros i' j' Hj' Hp'. jobs_case Hj'; [done|by eapply H4].
      * intros i1 j1 sid1 Hj Hp. jobs_case Hj; [|by eapply Hu]. cbn in *. subst. by exists s.
      * intros i1 j1 sid1 Hj Hp a Ha. apply lookup_delete_Some in Ha as [Hne Ha]. jobs_case Hj; [|by eapply Hn].
        cbn in Hp. injection Hp as <-. destruct (Ht _ _ Ha) as (s' & Hs' & Hsa'). simplify_eq.
      * intros i1 j1 sid1 r Hj Hp. jobs_case Hj; [done|by eapply Hr].
  - (* Connect *) destruct (m_jobs st !! i) as [j|] eqn:Ej; [|done]. cbn in H. destruct (j_phase j) eqn:Ep; try done. destruct ok; injection H as <-.
    + assert (Hlook : forall sid s, m_streams st !! sid = Some s -> (m_streams st ++ [Stream (j_addr j) [] false]) !! sid = Some s) by (intros; by apply lookup_app_l_Some).
      assert (Hlt : forall sid s, m_streams st !! sid = Some s -> sid <> length (m_streams st)).
      { intros sid s Hs ->. apply lookup_lt_Some in Hs. lia. }
      constructor; cbn.
      * intros a sid Ha. destruct (Ht _ _ Ha) as (s & Hs & Hsa). exists s. split; [by apply Hlook|done].
      * intros i1 j1 sid1 Hj Hp. jobs_case Hj.
        -- cbn in Hp. injection Hp as <-. split_and!.
           ++ eexists. split; [by rewrite list_lookup_middle|done].
           ++ intros a Ha. destruct (Ht _ _ Ha) as (s & Hs & _). by apply Hlt in Hs.
           ++ intros i' j' Hj' Hu'. jobs_case Hj'; [done|]. destruct (Hu _ _ _ Hj' Hu') as (s & Hs & _). by apply Hlt in Hs.
           ++ intros i' j' Hj' Hp'. jobs_case Hj'; [done|]. destruct (Hst _ _ _ Hj' Hp') as ((s & Hs & _) & _). by apply Hlt in Hs.
        -- destruct (Hst _ _ _ Hj Hp) as ((s & Hs & Hsa) & H2 & H3 & H4). split_and!; try done.
           ++ exists s. split; [by apply Hlook|done].
           ++ intros i' j' Hj'. jobs_case Hj'; [cbn; tauto|by eapply H3].
           ++ intros i' j' Hj' Hp'. jobs_case Hj'; [|by eapply H4]. cbn in Hp'. injection Hp' as <-. by apply Hlt in Hs.
      * intros i1 j1 sid1 Hj Hp. jobs_case Hj; [done|]. destruct (Hu _ _ _ Hj Hp) as (s & Hs & Hsa). exists s. split; [by apply Hlook|done].
      * intros i1 j1 sid1 Hj Hp. jobs_case Hj; [done|by eapply Hn].
      * intros i1 j1 sid1 r Hj Hp. jobs_case Hj; [done|by eapply Hr].
    + constructor; cbn; try done.
      * intros i1 j1 sid1 Hj Hp. jobs_case Hj; [done|].
        destruct (Hst _ _ _ Hj Hp) as (H1 & H2 & H3 & H4). split_and!; try done.
        -- intros i' j' Hj'. jobs_case Hj'; [cbn; tauto|by eapply H3].
        -- intros i' j' Hj' Hp'. jobs_case Hj'; [done|by eapply H4].
      * intros i1 j1 sid1 Hj Hp. jobs_case Hj; [done|by eapply Hu].
      * intros i1 j1 sid1 Hj Hp. jobs_case Hj; [done|by eapply Hn].
      * intros i1 j1 sid1 r Hj Hp. jobs_case Hj; [done|by eapply Hr].
  - (* Write *) destruct (m_jobs st !! i) as [j|] eqn:Ej; [|done]. cbn in H. destruct (j_phase j) as [| | | |sid rest| | | | |] eqn:Ep; try done.
    destruct (_ || _) eqn:En; [done|]. injection H as <-.
    destruct (Hu i j sid Ej) as (s & Hs & Hsa); [by rewrite Ep|]. destruct (Hr _ _ _ _ Ej Ep) as [Hne [w Hw]].
    assert (Hp1 : match drop n rest with [] => Sent sid | _ :: _ => Writing sid (drop n rest) end = match drop n rest with [] => Sent sid | rest' => Writing sid rest' end) by by destruct (drop n rest).
    assert (Huse : forall sid', uses (match drop n rest with [] => Sent sid | rest' => Writing sid rest' end) sid' <-> sid' = sid) by (intros; destruct (drop n rest); cbn; naive_solver).
    constructor; cbn.
    * intros a sid' Ha. destruct (Ht _ _ Ha) as (s' & Hs' & Hsa'). destruct (alter_stream (put (take n rest)) (m_streams st) sid sid' s' ltac:(done) Hs') as (s2 & H1 & H2). exists s2. by rewrite H2.
    * intros i1 j1 sid1 Hj Hp. jobs_case Hj; [cbn in Hp; by destruct (drop n rest)|].
      destruct (Hst _ _ _ Hj Hp) as ((s' & Hs' & Hsa') & H2 & H3 & H4). split_and!; try done.
      -- destruct (alter_stream (put (take n rest)) (m_streams st) sid sid1 s' ltac:(done) Hs') as (s2 & Ha & Hb). exists s2. by rewrite Hb.
      -- intros i' j' Hj'. jobs_case Hj'; [|by eapply H3]. cbn. rewrite Huse. intros ->. eapply H3; [exact Ej|]. by rewrite Ep.
      -- intros i' j' Hj' Hp'. jobs_case Hj'; [cbn in Hp'; by destruct (drop n rest)|by eapply H4].
    * intros i1 j1 sid1 Hj Hp.
      assert (exists s', m_streams st !! sid1 = Some s' /\ s_addr s' = j_addr j1) as (s' & Hs' & Hsa').
      { jobs_case Hj; [|by eapply Hu]. cbn in *. apply Huse in Hp as ->. by exists s. }
      destruct (alter_stream (put (take n rest)) (m_streams st) sid sid1 s' ltac:(done) Hs') as (s2 & H1 & H2). exists s2. by rewrite H2.
    * intros i1 j1 sid1 Hj Hp. jobs_case Hj; [cbn in Hp; by destruct (drop n rest)|by eapply Hn].
    * intros i1 j1 sid1 r Hj Hp. jobs_case Hj; [|by eapply Hr]. cbn in *. destruct (drop n rest) as [|x y] eqn:Ed; [done|]. injection Hp as <- <-. split; [done|].
      exists (w ++ take n rest). rewrite Hw, <- (assoc_L (++)), <- Ed, take_drop. done.
  - (* Error *) destruct (m_jobs st !! i) as [j|] eqn:Ej; [|done]. cbn in H. destruct (j_phase j) as [| | | |sid rest| | | | |] eqn:Ep; try done. injection H as <-.
    destruct (Hu i j sid Ej) as (s & Hs & Hsa); [by rewrite Ep|].
    constructor; cbn.
    * intros a sid' Ha. destruct (Ht _ _ Ha) as (s' & Hs' & Hsa'). destruct (alter_stream fail (m_streams st) sid sid' s' ltac:(done) Hs') as (s2 & H1 & H2). exists s2. by rewrite H2.
    * intros i1 j1 sid1 Hj Hp. jobs_case Hj; [done|].
      destruct (Hst _ _ _ Hj Hp) as ((s' & Hs' & Hsa') & H2 & H3 & H4). split_and!; try done.
      -- destruct (alter_stream fail (m_streams st) sid sid1 s' ltac:(done) Hs') as (s2 & Ha & Hb). exists s2. by rewrite Hb.
      -- intros i' j' Hj'. jobs_case Hj'; [|by eapply H3]. cbn. intros ->. eapply H3; [exact Ej|]. by rewrite Ep.
      -- intros i' j' Hj' Hp'. jobs_case Hj'; [done|by eapply H4].
    * intros i1 j1 sid1 Hj Hp.
      assert (exists s', m_streams st !! sid1 = Some s' /\ s_addr s' = j_addr j1) as (s' & Hs' & Hsa').
      { jobs_case Hj; [|by eapply Hu]. cbn in *. subst sid1. by exists s. }
      destruct (alter_stream fail (m_streams st) sid sid1 s' ltac:(done) Hs') as (s2 & H1 & H2). exists s2. by rewrite H2.
    * intros i1 j1 sid1 Hj Hp. jobs_case Hj; [done|by eapply Hn].
    * intros i1 j1 sid1 r Hj Hp. jobs_case Hj; [done|by eapply Hr].
  - (* Fail *) injection H as <-. constructor; cbn; try done.
    * intros a sid' Ha. destruct (Ht _ _ Ha) as (s' & Hs' & Hsa'). destruct (alter_stream fail (m_streams st) sid0 sid' s' ltac:(done) Hs') as (s2 & H1 & H2). exists s2. by rewrite H2.
    * intros i1 j1 sid1 Hj Hp. destruct (Hst _ _ _ Hj Hp) as ((s' & Hs' & Hsa') & H2 & H3 & H4). split_and!; try done.
      destruct (alter_stream fail (m_streams st) sid0 sid1 s' ltac:(done) Hs') as (s2 & Ha & Hb). exists s2. by rewrite Hb.
    * intros i1 j1 sid1 Hj Hp. destruct (Hu _ _ _ Hj Hp) as (s' & Hs' & Hsa'). destruct (alter_stream fail (m_streams st) sid0 sid1 s' ltac:(done) Hs') as (s2 & Ha & Hb). exists s2. by rewrite Hb.
Qed.
Lemma inv0 : inv m0.
Proof. constructor; cbn; intros; try done. Qed.
Lemma inv_run ls : forall st st', inv st -> mrun st ls = Some st' -> inv st'.
Proof.
  induction ls as [|l ls IH]; intros st st' Hi H; cbn in H; [by simplify_eq|].
  destruct (mstep st l) as [st1|] eqn:E; [|done]. cbn in H. eapply IH; [|done]. by eapply inv_step.
Qed.

(** ** A failed connection is not used again *)
Definition out_of_use (sid : nat) (st : mstate) : Prop :=
  (sid < length (m_streams st))%nat /\ (forall a, m_table st !! a <> Some sid) /\
  (forall i j, m_jobs st !! i = Some j -> j_phase j <> Store sid).
Definition not_yet (p : phase) : Prop := match p with Look | Dial | Store _ | Fetch => True | _ => False end.
Lemma out_of_use_step sid st l st' : out_of_use sid st -> mstep st l = Some st' ->
  out_of_use sid st' /\ forall i j', m_jobs st' !! i = Some j' ->
    uses (j_phase j') sid -> exists j, m_jobs st !! i = Some j /\ uses (j_phase j) sid.
Proof.
  intros (Hl & Ht & Hs) H. destruct l as [a d|i|i ok|i n|i|sid0]; cbn in H.
  - injection H as <-. split; [split_and!; [done..|]|]; cbn.
    + intros i j Hj. apply lookup_app_Some in Hj as [Hj|[_ Hj]]; [by eapply Hs|apply list_lookup_singleton_Some in Hj as [_ <-]; done].
    + intros i j Hj Hu. apply lookup_app_Some in Hj as [Hj|[_ Hj]]; [by exists j|apply list_lookup_singleton_Some in Hj as [_ <-]; done].
  - destruct (m_jobs st !! i) as [j|] eqn:Ej; [|done]. cbn in H. destruct (j_phase j) eqn:Ep; try done; injection H as <-; cbn.
    + split; [split_and!; [done..|]|]; cbn.
      * intros i' j' Hj'. jobs_case Hj'; [cbn; by case_bool_decide|by eapply Hs].
      * intros i' j' Hj' Hu. jobs_case Hj'; [cbn in Hu; by case_bool_decide|by exists j'].
    + split; [split_and!; [done|..]|]; cbn.
      * intros a Ha. apply lookup_insert_Some in Ha as [[_ ->]|[_ Ha]]; [by eapply Hs|by eapply Ht].
      * intros i' j' Hj'. jobs_case Hj'; [done|by eapply Hs].
      * intros i' j' Hj' Hu. jobs_case Hj'; [done|by exists j'].
    + split; [split_and!; [done..|]|]; cbn.
      * intros i' j' Hj'. jobs_case Hj'; [cbn; by repeat case_match|by eapply Hs].
      * intros i' j' Hj' Hu. jobs_case Hj'; [|by exists j']. cbn in Hu. destruct (m_table st !! j_addr j) eqn:E; [|done]. cbn in Hu. subst. by apply Ht in E.
    + split; [split_and!; [done|..]|]; cbn.
      * intros a Ha. apply lookup_delete_Some in Ha as [_ Ha]. by eapply Ht.
      * intros i' j' Hj'. jobs_case Hj'; [done|by eapply Hs].
      * intros i' j' Hj' Hu. jobs_case Hj'; [|by exists j']. cbn in Hu. subst. exists j. by rewrite Ep.
  - destruct (m_jobs st !! i) as [j|] eqn:Ej; [|done]. cbn in H. destruct (j_phase j) eqn:Ep; try done. destruct ok; injection H as <-.
    + split; [split_and!; [|done|]|]; cbn.
      * rewrite app_length. lia.
      * intros i' j' Hj'. jobs_case Hj'; [|by eapply Hs]. cbn. intros E. injection E as E. lia.
      * intros i' j' Hj' Hu. jobs_case Hj'; [done|by exists j'].
    + split; [split_and!; [done..|]|]; cbn.
      * intros i' j' Hj'. jobs_case Hj'; [done|by eapply Hs].
      * intros i' j' Hj' Hu. jobs_case Hj'; [done|by exists j'].
  - destruct (m_jobs st !! i) as [j|] eqn:Ej; [|done]. cbn in H. destruct (j_phase j) as [| | | |s rest| | | | |] eqn:Ep; try done.
    destruct (_ || _) eqn:En; [done|]. injection H as <-. split; [split_and!; [|done|]|]; cbn.
    + by rewrite alter_length.
    + intros i' j' Hj'. jobs_case Hj'; [cbn; by repeat case_match|by eapply Hs].
    + intros i' j' Hj' Hu. jobs_case Hj'; [|by exists j']. exists j. rewrite Ep. cbn in *. split; [done|]. by case_match.
  - destruct (m_jobs st !! i) as [j|] eqn:Ej; [|done]. cbn in H. destruct (j_phase j) as [| | | |s rest| | | | |] eqn:Ep; try done.
    injection H as <-. split; [split_and!; [|done|]|]; cbn.
    + by rewrite alter_length.
    + intros i' j' Hj'. jobs_case Hj'; [done|by eapply Hs].
    + intros i' j' Hj' Hu. jobs_case Hj'; [|by exists j']. exists j. rewrite Ep. done.
  - injection H as <-. split; [split_and!; [|done|done]|]; cbn; [by rewrite alter_length|].
    intros i j Hj Hu. by exists j.
Qed.
Lemma out_of_use_run sid ls : forall st st', out_of_use sid st -> mrun st ls = Some st' ->
  forall i j', m_jobs st' !! i = Some j' -> uses (j_phase j') sid -> exists j, m_jobs st !! i = Some j /\ uses (j_phase j) sid.
Proof.
  induction ls as [|l ls IH]; intros st st' Ho H i j' Hj Hu; cbn in H; [simplify_eq; by exists j'|].
  destruct (mstep st l) as [st1|] eqn:E; [|done]. cbn in H. destruct (out_of_use_step _ _ _ _ Ho E) as [Ho1 Hb].
  destruct (IH _ _ Ho1 H _ _ Hj Hu) as (j1 & Hj1 & Hu1). by eapply Hb.
Qed.
Lemma notsent_out st i j sid : inv st -> m_jobs st !! i = Some j -> j_phase j = NotSent sid -> out_of_use sid st.
Proof.
  intros [Ht Hst Hu Hn Hr] Hj Hp. split_and!.
  - destruct (Hu i j sid Hj) as (s & Hs & _); [by rewrite Hp|]. by eapply lookup_lt_Some.
  - by eapply Hn.
  - intros i' j' Hj' Hp'. destruct (Hst _ _ _ Hj' Hp') as (_ & _ & H & _). eapply H; [exact Hj|]. by rewrite Hp.
Qed.

(** ** What reaches the peer *)
Definition no_mid (sid : nat) (st : mstate) : Prop := forall i j, m_jobs st !! i = Some j -> ~ midway sid j.
Definition carried (sid : nat) (st : mstate) (b : bytes) : Prop :=
  exists ds w, b = mtcp_stream ds ++ w /\ ds ≡ₚ sent_on sid (m_jobs st) /\
    ((w = [] /\ no_mid sid st) \/
     exists i j rest, m_jobs st !! i = Some j /\ j_phase j = Writing sid rest /\ mtcp_encode (j_data j) = w ++ rest /\ w <> [] /\ rest <> [] /\
       forall i' j', m_jobs st !! i' = Some j' -> i' <> i -> ~ midway sid j').
Definition good (st : mstate) : Prop :=
  forall sid s, m_streams st !! sid = Some s -> s_failed s = false -> carried sid st (s_bytes s).
(** no transfer writes on a connection on which another has written a part *)
Definition alone (st : mstate) (l : label) : Prop :=
  match l with
  | Write i _ => forall j sid rest, m_jobs st !! i = Some j -> j_phase j = Writing sid rest ->
      forall i' j', m_jobs st !! i' = Some j' -> i' <> i -> ~ midway sid j'
  | _ => True
  end.
Fixpoint exclusive (st : mstate) (ls : list label) : Prop :=
  match ls with
  | [] => True
  | l :: ls => alone st l /\ match mstep st l with Some st' => exclusive st' ls | None => True end
  end.
Lemma mtcp_stream_snoc ds d : mtcp_stream (ds ++ [d]) = mtcp_stream ds ++ mtcp_encode d.
Proof. unfold mtcp_stream. rewrite map_app, concat_app. cbn. by rewrite app_nil_r. Qed.
(** a step of a transfer that is not writing on [sid] before nor after *)
Lemma carried_other sid st i j p b tbl strs :
  m_jobs st !! i = Some j -> (forall r, j_phase j <> Writing sid r) -> j_phase j <> Sent sid ->
  (forall r, p = Writing sid r -> r = mtcp_encode (j_data j)) -> p <> Sent sid ->
  carried sid st b -> carried sid (MState tbl strs (<[i := Job (j_addr j) (j_data j) p]> (m_jobs st))) b.
Proof.
  intros Hj Hw Hs Hp Hps (ds & w & Hb & Hds & H). exists ds, w. split; [done|]. split.
  - cbn [m_jobs]. unfold sent_on. rewrite (omap_insert (sent1 sid) (m_jobs st) i j).
    + assert (sent1 sid (Job (j_addr j) (j_data j) p) = None) as ->; [|done]. unfold sent1. cbn. repeat case_match; try done. by subst.
    + done.
    + unfold sent1. repeat case_match; try done. by subst.
  - assert (Hm : ~ midway sid (Job (j_addr j) (j_data j) p)) by (intros (r & Hr & Hne); cbn in *; by apply Hp in Hr).
    destruct H as [[Hw0 Hno]|(i1 & j1 & r & Hj1 & Hp1 & He & H1 & H2 & Hoth)].
    + left. split; [done|]. intros i' j' Hj'. cbn in Hj'. jobs_case Hj'; [done|by eapply Hno].
    + right. exists i1, j1, r. assert (i <> i1) by (intros ->; simplify_eq; by eapply Hw). split_and!; try done.
      * cbn. by rewrite list_lookup_insert_ne.
      * intros i' j' Hj' Hne. cbn in Hj'. jobs_case Hj'; [done|by eapply Hoth].
Qed.
Lemma carried_same sid st b tbl strs : carried sid st b -> carried sid (MState tbl strs (m_jobs st)) b.
Proof. intros (ds & w & H). exists ds, w. exact H. Qed.
Lemma good_step st l st' : inv st -> good st -> alone st l -> mstep st l = Some st' -> good st'.
Proof.
  intros Hi Hg Ha H. pose proof Hi as [Ht Hst Hu Hn Hr]. destruct l as [a d|i|i ok|i n|i|sid0]; cbn in H.
  - injection H as <-. intros sid s Hs Hf. cbn in Hs. destruct (Hg sid s Hs Hf) as (ds & w & Hb & Hds & Hc). exists ds, w. split; [done|]. cbn. split.
    + unfold sent_on. rewrite omap_app. cbn. by rewrite app_nil_r.
    + destruct Hc as [[Hw0 Hno]|(i1 & j1 & r & Hj1 & Hp1 & He & H1 & H2 & Hoth)].
      * left. split; [done|]. intros i j Hj. cbn in Hj. apply lookup_app_Some in Hj as [Hj|[_ Hj]]; [by eapply Hno|apply list_lookup_singleton_Some in Hj as [_ <-]]. by intros (r & ? & _).
      * right. exists i1, j1, r. split_and!; try done; [by apply lookup_app_l_Some|].
        intros i j Hj Hne. cbn in Hj. apply lookup_app_Some in Hj as [Hj|[_ Hj]]; [by eapply Hoth|apply list_lookup_singleton_Some in Hj as [_ <-]]. by intros (? & ? & _).
  - destruct (m_jobs st !! i) as [j|] eqn:Ej; [|done]. cbn in H. destruct (j_phase j) eqn:Ep; try done; injection H as <-; intros sid1 s Hs Hf; cbn in Hs;
      (apply carried_other; [done|by rewrite Ep|by rewrite Ep| | |by apply Hg]).
    + intros r. by case_bool_decide.
    + by case_bool_decide.
    + done.
    + done.
    + intros r. case_match; [|done]. intros Hx. by injection Hx as <- <-.
    + by case_match.
    + done.
    + done.
  - destruct (m_jobs st !! i) as [j|] eqn:Ej; [|done]. cbn in H. destruct (j_phase j) eqn:Ep; try done. destruct ok; injection H as <-; intros sid1 s Hs Hf; cbn in Hs.
    + apply lookup_app_Some in Hs as [Hs|[Hge Hs]].
      * apply carried_other; [done|by rewrite Ep|by rewrite Ep|done|done|by apply Hg].
      * apply list_lookup_singleton_Some in Hs as [Hz <-]. assert (Hlen : sid1 = length (m_streams st)) by lia. cbn [s_bytes].
        apply carried_other; [done|by rewrite Ep|by rewrite Ep|done|done|].
        assert (Hfresh : forall i' j', m_jobs st !! i' = Some j' -> ~ uses (j_phase j') sid1).
        { intros i' j' Hj' Hx. destruct (Hu _ _ _ Hj' Hx) as (s & Hs & _). apply lookup_lt_Some in Hs. lia. }
        exists [], []. split; [done|]. split.
        -- cbn [m_jobs]. enough (sent_on sid1 (m_jobs st) = []) as Hx by (by rewrite Hx). unfold sent_on. clear -Hfresh. induction (m_jobs st) as [|x l IH]; [done|].
           rewrite omap_cons'. assert (sent1 sid1 x = None) as ->.
           { unfold sent1. destruct (j_phase x) eqn:E; try done. rewrite decide_False; [done|]. intros ->. apply (Hfresh 0%nat x eq_refl). by rewrite E. }
           apply IH. intros i' j' Hj'. by apply (Hfresh (S i')).
        -- left. split; [done|]. intros i' j' Hj' (r & Hx & _). apply (Hfresh i' j' Hj'). by rewrite Hx.
    + apply carried_other; [done|by rewrite Ep|by rewrite Ep|done|done|by apply Hg].
  - destruct (m_jobs st !! i) as [j|] eqn:Ej; [|done]. cbn in H. destruct (j_phase j) as [| | | |sid rest| | | | |] eqn:Ep; try done.
    destruct (_ || _) eqn:En; [done|]. apply orb_false_iff in En as [En1 En2]. injection H as <-. intros sid1 s1 Hs1 Hf. cbn in Hs1.
    destruct (decide (sid = sid1)) as [<-|Hne].
    + rewrite list_lookup_alter in Hs1. destruct (m_streams st !! sid) as [s|] eqn:Es; [|done]. cbn in Hs1. injection Hs1 as <-. cbn in Hf. cbn [s_bytes put]. rewrite Hf.
      destruct (Hg sid s Es Hf) as (ds & w & Hb & Hds & Hc). destruct (Hr _ _ _ _ Ej Ep) as [Hrn [w0 Hw0]].
      assert (Hal : forall i' j', m_jobs st !! i' = Some j' -> i' <> i -> ~ midway sid j') by (intros; by eapply (Ha j sid rest)).
      assert (Hww : w = w0).
      { destruct Hc as [[-> Hno]|(i1 & j1 & r & Hj1 & Hp1 & He & H1 & H2 & Hoth)].
        - destruct (decide (rest = mtcp_encode (j_data j))) as [E|E]; [|exfalso; eapply Hno; [exact Ej|by exists rest]].
          rewrite <- E in Hw0. by apply (app_inv_tail rest [] w0).
        - assert (i1 = i) as ->.
          { destruct (decide (i1 = i)); [done|]. exfalso. eapply (Hal i1 j1); [done|done|]. exists r. split; [done|]. rewrite He. intros Hx. apply H1.
            apply (f_equal length) in Hx. rewrite app_length in Hx. destruct w; [done|cbn in Hx; lia]. }
          simplify_eq. rewrite Ep in Hp1. injection Hp1 as <-. rewrite Hw0 in He. by apply app_inv_tail in He. }
      subst w0.
      destruct (drop n rest) as [|x y] eqn:Ed.
      * assert (take n rest = rest) as Htk by (rewrite <- (take_drop n rest) at 2; by rewrite Ed, app_nil_r).
        exists (ds ++ [j_data j]), []. split; [rewrite Hb, Htk, mtcp_stream_snoc, Hw0, app_nil_r; by rewrite (assoc_L (++))|]. cbn. split.
        -- unfold sent_on. rewrite (omap_insert (sent1 sid) _ i j) by (try done; unfold sent1; by rewrite Ep). unfold sent1 at 1. cbn. rewrite decide_True by done.
           fold (sent_on sid (m_jobs st)). rewrite Hds. symmetry. apply Permutation_cons_append.
        -- left. split; [done|]. intros i' j' Hj'. cbn in Hj'. jobs_case Hj'; [by intros (? & ? & _)|by eapply Hal].
      * exists ds, (w ++ take n rest). split; [by rewrite Hb, (assoc_L (++))|]. cbn. split.
        -- unfold sent_on. rewrite (omap_insert (sent1 sid) _ i j) by (try done; unfold sent1; by rewrite Ep). unfold sent1 at 1. done.
        -- right. eexists i, _, _. split; [apply list_lookup_insert; by eapply lookup_lt_Some|]. cbn. split; [done|]. split.
           { rewrite Hw0, <- (assoc_L (++)), <- Ed, take_drop. done. }
           split. { intros Hx. apply app_eq_nil in Hx as [_ Hx]. apply (f_equal length) in Hx. rewrite take_length in Hx. change (length (@nil N)) with 0%nat in Hx. apply Nat.eqb_neq in En1. apply Nat.ltb_ge in En2. lia. }
           split; [done|]. intros i' j' Hj' Hn'. jobs_case Hj'; [done|by eapply Hal].
    + rewrite list_lookup_alter_ne in Hs1 by done. apply carried_other; [done|rewrite Ep; congruence|by rewrite Ep| | |by apply Hg].
      * intros r Hx. exfalso. destruct (drop n rest); [done|]. by injection Hx.
      * by destruct (drop n rest); [injection|].
  - destruct (m_jobs st !! i) as [j|] eqn:Ej; [|done]. cbn in H. destruct (j_phase j) as [| | | |sid rest| | | | |] eqn:Ep; try done.
    injection H as <-. intros sid1 s1 Hs1 Hf. cbn in Hs1. destruct (decide (sid = sid1)) as [<-|Hne].
    + rewrite list_lookup_alter in Hs1. destruct (m_streams st !! sid) as [s|] eqn:Es; [|done]. cbn in Hs1. by injection Hs1 as <-.
    + rewrite list_lookup_alter_ne in Hs1 by done. apply carried_other; [done|rewrite Ep; congruence|by rewrite Ep|done|done|by apply Hg].
  - injection H as <-. intros sid1 s1 Hs1 Hf. cbn in Hs1. destruct (decide (sid0 = sid1)) as [<-|Hne].
    + rewrite list_lookup_alter in Hs1. destruct (m_streams st !! sid0) as [s|] eqn:Es; [|done]. cbn in Hs1. by injection Hs1 as <-.
    + rewrite list_lookup_alter_ne in Hs1 by done. apply carried_same. by apply Hg.
Qed.
Lemma good_run ls : forall st st', inv st -> good st -> exclusive st ls -> mrun st ls = Some st' -> good st'.
Proof.
  induction ls as [|l ls IH]; intros st st' Hi Hg He H; cbn in H; [by simplify_eq|]. destruct He as [Ha He].
  destruct (mstep st l) as [st1|] eqn:E; [|done]. cbn in H. eapply (IH st1); [by eapply inv_step|by eapply good_step|done|done].
Qed.
Lemma partial_frame p w rest : sendable p -> mtcp_encode p = w ++ rest -> rest <> [] -> D w = Conn w [] Open.
Proof.
  intros Hs He Hr. pose proof (decode_encode p [] Hs) as Hd. rewrite app_nil_r, He in Hd. rewrite D_unfold.
  destruct (decode w) eqn:E; [done|..].
  - apply (decode_frame_app _ _ _ rest) in E. rewrite E in Hd. injection Hd as _ Hd. by apply app_eq_nil in Hd as [_ ?].
  - apply (decode_err_app _ rest) in E. by rewrite E in Hd.
  - by apply decode_no_panic in E.
Qed.
Lemma D_carried ds w : Forall sendable ds -> D w = Conn w [] Open -> D (mtcp_stream ds ++ w) = Conn w ds Open.
Proof.
  intros Hs Hw. rewrite D_app_open by (by rewrite D_stream). rewrite D_stream by done. cbn [c_buf c_frames c_status app]. rewrite Hw. cbn. by rewrite app_nil_r.
Qed.
Definition sends_bundles (P : bytes -> Prop) (ls : list label) : Prop :=
  Forall (fun l => match l with New _ d => P d | _ => True end) ls.
Lemma data_step (P : bytes -> Prop) st l st' : (forall i j, m_jobs st !! i = Some j -> P (j_data j)) ->
  match l with New _ d => P d | _ => True end -> mstep st l = Some st' -> forall i j, m_jobs st' !! i = Some j -> P (j_data j).
Proof.
  intros Hd Hl H i1 j1 Hj1. destruct l as [a d|i|i ok|i n|i|sid0]; cbn in H.
  - injection H as <-. cbn in Hj1. apply lookup_app_Some in Hj1 as [Hj1|[_ Hj1]]; [by eapply Hd|apply list_lookup_singleton_Some in Hj1 as [_ <-]; done].
  - destruct (m_jobs st !! i) as [j|] eqn:Ej; [|done]. cbn in H. destruct (j_phase j) eqn:Ep; try done; injection H as <-; cbn in Hj1; (jobs_case Hj1; [exact (Hd _ _ Ej)|exact (Hd _ _ Hj1)]).
  - destruct (m_jobs st !! i) as [j|] eqn:Ej; [|done]. cbn in H. destruct (j_phase j) eqn:Ep; try done. destruct ok; injection H as <-; cbn in Hj1; (jobs_case Hj1; [exact (Hd _ _ Ej)|exact (Hd _ _ Hj1)]).
  - destruct (m_jobs st !! i) as [j|] eqn:Ej; [|done]. cbn in H. destruct (j_phase j) eqn:Ep; try done. destruct (_ || _); [done|]. injection H as <-; cbn in Hj1; (jobs_case Hj1; [exact (Hd _ _ Ej)|exact (Hd _ _ Hj1)]).
  - destruct (m_jobs st !! i) as [j|] eqn:Ej; [|done]. cbn in H. destruct (j_phase j) eqn:Ep; try done. injection H as <-; cbn in Hj1; (jobs_case Hj1; [exact (Hd _ _ Ej)|exact (Hd _ _ Hj1)]).
  - injection H as <-. by eapply Hd.
Qed.
Lemma data_run (P : bytes -> Prop) ls : forall st st', (forall i j, m_jobs st !! i = Some j -> P (j_data j)) ->
  sends_bundles P ls -> mrun st ls = Some st' -> forall i j, m_jobs st' !! i = Some j -> P (j_data j).
Proof.
  induction ls as [|l ls IH]; intros st st' Hd Hl H; cbn in H; [by simplify_eq|]. apply Forall_cons in Hl as [Hl Hls].
  destruct (mstep st l) as [st1|] eqn:E; [|done]. cbn in H. eapply (IH st1); [|done|done]. by eapply data_step.
Qed.
