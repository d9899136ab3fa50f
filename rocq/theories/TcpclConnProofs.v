(** Proofs for TcpclConn.v. *)
From stdpp Require Import prelude strings gmap.
From Coq Require Import Lia.
From Verif Require Import TcpclConn.

(** What holds of every session [s] and transfer [t] *)
Definition sess_ok (st : cstate) (s : nat) (x : sess) : Prop :=
  NoDup (ss_queue x) /\ (forall t, t ∈ ss_queue x -> exists a, cs_xfers st !! t = Some (Xfer a (Queued s))) /\
  match ss_phase x with
  | Connecting => ss_active x = true /\ exists t, cs_xfers st !! t = Some (Xfer (ss_addr x) (Opening s))
  | Negotiating | Running None => True
  | Running (Some t) => (exists a, cs_xfers st !! t = Some (Xfer a (Queued s))) /\ t ∉ ss_queue x
  | Gone => ss_queue x = []
  end.
Definition xfer_ok (st : cstate) (t : nat) (x : xfer) : Prop :=
  match x_phase x with
  | Fresh | Done _ => True
  | Opening s => (exists y, cs_sess st !! s = Some y /\ ss_addr y = x_addr x /\ ss_phase y = Connecting) /\
      forall t' x', cs_xfers st !! t' = Some x' -> x_phase x' = Opening s -> t' = t
  | Ready s => exists y, cs_sess st !! s = Some y /\ ss_addr y = x_addr x
  | Queued s => exists y, cs_sess st !! s = Some y /\ ss_addr y = x_addr x /\ ss_phase y <> Gone /\ (t ∈ ss_queue y \/ ss_phase y = Running (Some t))
  end.
Definition cinv (st : cstate) : Prop :=
  (forall s x, cs_sess st !! s = Some x -> sess_ok st s x) /\ (forall t x, cs_xfers st !! t = Some x -> xfer_ok st t x) /\
  (forall a s, cs_table st !! a = Some s -> exists y, cs_sess st !! s = Some y /\ ss_addr y = a).
Lemma cinv_0 : cinv c0.
Proof. split_and!; intros ? ? H; cbn in H; done. Qed.

Lemma abandon_lookup s l t : abandon s l !! t = (x ← l !! t; Some (if bool_decide (x_phase x = Queued s) then set_phase (Done None) x else x)).
Proof. unfold abandon. rewrite list_lookup_fmap. by destruct (l !! t). Qed.
Lemma alter_lookup {A} (f : A -> A) (l : list A) i k : alter f i l !! k = if decide (i = k) then f <$> l !! k else l !! k.
Proof. case_decide as E; [subst; apply list_lookup_alter|by apply list_lookup_alter_ne]. Qed.
Lemma insert_lookup {A} (y x : A) (l : list A) i k : l !! i = Some x -> <[i:=y]> l !! k = if decide (i = k) then Some y else l !! k.
Proof. intros H. case_decide as E; [subst; apply list_lookup_insert; by eapply lookup_lt_Some|by apply list_lookup_insert_ne]. Qed.
Lemma snoc_lookup {A} (l : list A) x k : (l ++ [x]) !! k = if decide (k = length l) then Some x else l !! k.
Proof.
  case_decide as E; [subst; by rewrite lookup_app_r, Nat.sub_diag by done|]. destruct (decide (k < length l)) as [H|H]; [by apply lookup_app_l|].
  rewrite lookup_app_r by lia. rewrite (lookup_ge_None_2 l) by lia. apply lookup_ge_None_2. cbn. lia.
Qed.
Lemma lookup_len {A} (l : list A) : l !! length l = None.
Proof. by apply lookup_ge_None_2. Qed.

(** the end of a session whose opener, if any, is no longer opening *)
Lemma end_inv s st : (forall t x, cs_xfers st !! t = Some x -> x_phase x <> Opening s) ->
  (forall k x, cs_sess st !! k = Some x -> k <> s -> sess_ok st k x) -> (forall x t, cs_sess st !! s = Some x -> t ∈ ss_queue x -> exists a, cs_xfers st !! t = Some (Xfer a (Queued s))) ->
  (forall t x, cs_xfers st !! t = Some x -> xfer_ok st t x) ->
  (forall a s, cs_table st !! a = Some s -> exists y, cs_sess st !! s = Some y /\ ss_addr y = a) -> cinv (end_session s st).
Proof.
  intros Hop Hs Hq Hx Ht. unfold end_session. split_and!; cbn [cs_sess cs_xfers cs_table].
  - intros k y. rewrite alter_lookup. case_decide as E.
    + subst k. destruct (cs_sess st !! s) as [x|] eqn:Ex; [|done]. intros [= <-]. unfold sess_ok. cbn. split_and!; [constructor| |done]. intros t Hin. by apply elem_of_nil in Hin.
    + intros Hk. destruct (Hs _ _ Hk ltac:(done)) as (H1 & H2 & H3). unfold sess_ok. cbn [cs_xfers].
      assert (Hkeep : forall t a p, p <> Queued s -> cs_xfers st !! t = Some (Xfer a p) -> abandon s (cs_xfers st) !! t = Some (Xfer a p)).
      { intros t a p Hp Hl. rewrite abandon_lookup, Hl. cbn. by rewrite bool_decide_false. }
      split_and!; [done| |].
      * intros t Hin. destruct (H2 _ Hin) as [a Ha]. exists a. apply Hkeep; [congruence|done].
      * destruct (ss_phase y) as [| |[t|]|]; try done.
        -- destruct H3 as [H3 [t H4]]. split; [done|]. exists t. by apply Hkeep.
        -- destruct H3 as [[a Ha] Hn]. split; [|done]. exists a. apply Hkeep; [congruence|done].
  - intros t y. rewrite abandon_lookup. destruct (cs_xfers st !! t) as [x|] eqn:Ex; [|done]. cbn. intros [= <-]. case_bool_decide as Eq; [done|]. pose proof (Hx _ _ Ex) as H.
    unfold xfer_ok in *. cbn [cs_sess cs_xfers]. destruct (x_phase x) as [|k|k|k|] eqn:Ep; try done.
    + destruct H as [(y & Hy & Ha & Hp) Hu]. assert (k <> s) by (intros ->; by eapply Hop). split.
      * exists y. rewrite alter_lookup, decide_False by done. done.
      * intros t' x'. rewrite abandon_lookup. destruct (cs_xfers st !! t') as [z|] eqn:Ez; [|done]. cbn. intros [= <-]. case_bool_decide; [done|]. by apply Hu.
    + destruct H as (y & Hy & Ha). rewrite alter_lookup. case_decide as E; [subst; rewrite Hy; by exists (gone y)|by exists y].
    + destruct H as (y & Hy & H). exists y. rewrite alter_lookup, decide_False by congruence. done.
  - intros a k Hk. destruct (Ht _ _ Hk) as (y & Hy & Ha). rewrite alter_lookup. case_decide; [subst; rewrite Hy; by exists (gone y)|by exists y].
Qed.

(** a new session, with table entry, and a change of transfer [t] to opening it *)
Lemma cinv_step st l st' : cinv st -> cstep st l = Some st' -> cinv st'.
Proof.
  intros (Hs & Hx & Ht) H.
  assert (Hready : forall t a s, cs_xfers st !! t = Some (Xfer a (Ready s)) -> exists y, cs_sess st !! s = Some y /\ ss_addr y = a) by (intros t a s Hl; exact (Hx _ _ Hl)).
  destruct l as [a|a|t|t|t|t|s|s|s|s b|s]; cbn [cstep] in H.
  - (* submit *) injection H as <-. split_and!; cbn [cs_sess cs_xfers cs_table].
    + intros s x Hl. destruct (Hs _ _ Hl) as (H1 & H2 & H3). unfold sess_ok. cbn [cs_xfers]. split_and!; [done| |].
      * intros t Hin. destruct (H2 _ Hin) as [b Hb]. exists b. by apply lookup_app_l_Some.
      * destruct (ss_phase x) as [| |[t|]|]; try done.
        -- destruct H3 as [? [t Ho]]. split; [done|]. exists t. by apply lookup_app_l_Some.
        -- destruct H3 as [[b Hb] ?]. split; [|done]. exists b. by apply lookup_app_l_Some.
    + intros t x. rewrite snoc_lookup. case_decide as E; [by intros [= <-]|]. intros Hl. pose proof (Hx _ _ Hl) as H. unfold xfer_ok in *. cbn [cs_sess cs_xfers].
      destruct (x_phase x); try done. destruct H as [H1 H2]. split; [done|]. intros t' x'. rewrite snoc_lookup. case_decide; [by intros [= <-]|]. apply H2.
    + done.
  - (* accept *) injection H as <-. split_and!; cbn [cs_sess cs_xfers cs_table].
    + intros s x. rewrite snoc_lookup. case_decide as E; [|apply Hs]. intros [= <-]. unfold sess_ok. cbn. split_and!; [constructor| |done]. intros t Hin. by apply elem_of_nil in Hin.
    + intros t x Hl. pose proof (Hx _ _ Hl) as H. unfold xfer_ok in *. cbn [cs_sess cs_xfers]. destruct (x_phase x); try done.
      * destruct H as [(y & Hy & H1) H2]. split; [|done]. exists y. split; [by apply lookup_app_l_Some|done].
      * destruct H as (y & Hy & H1). exists y. split; [by apply lookup_app_l_Some|done].
      * destruct H as (y & Hy & H1). exists y. split; [by apply lookup_app_l_Some|done].
    + intros b s. rewrite lookup_insert_Some. intros [[<- <-]|[Hne Hk]]; [eexists; split; [by rewrite snoc_lookup, decide_True|done]|].
      destruct (Ht _ _ Hk) as (y & Hy & Ha). exists y. split; [by apply lookup_app_l_Some|done].
  - (* look *) destruct (cs_xfers st !! t) as [[a []]|] eqn:Et; try done.
    assert (Hnew : cinv (CState (<[a := length (cs_sess st)]> (cs_table st)) (cs_sess st ++ [Sess a true Connecting []]) (<[t := Xfer a (Opening (length (cs_sess st)))]> (cs_xfers st)))).
    { assert (Hkeep : forall t' b p, p <> Fresh -> cs_xfers st !! t' = Some (Xfer b p) -> <[t := Xfer a (Opening (length (cs_sess st)))]> (cs_xfers st) !! t' = Some (Xfer b p)).
      { intros t' b p Hp Hl. rewrite (insert_lookup _ _ _ _ _ Et). case_decide; [|done]. subst. congruence. }
      split_and!; cbn [cs_sess cs_xfers cs_table].
      - intros s x. rewrite snoc_lookup. case_decide as E.
        + intros [= <-]. subst s. unfold sess_ok. cbn [ss_queue ss_phase ss_active ss_addr cs_xfers]. split_and!; [constructor|intros ? Hin; by apply elem_of_nil in Hin|done|].
          exists t. by rewrite (insert_lookup _ _ _ _ _ Et), decide_True.
        + intros Hl. destruct (Hs _ _ Hl) as (H1 & H2 & H3). unfold sess_ok. cbn [cs_xfers]. split_and!; [done| |].
          * intros t' Hin. destruct (H2 _ Hin) as [b Hb]. exists b. by apply Hkeep.
          * destruct (ss_phase x) as [| |[t'|]|]; try done.
            -- destruct H3 as [? [t' Ho]]. split; [done|]. exists t'. by apply Hkeep.
            -- destruct H3 as [[b Hb] ?]. split; [|done]. exists b. by apply Hkeep.
      - intros t' x. rewrite (insert_lookup _ _ _ _ _ Et). case_decide as E.
        + intros [= <-]. subst t'. unfold xfer_ok. cbn [x_phase x_addr cs_sess cs_xfers]. split.
          * eexists. split; [by rewrite snoc_lookup, decide_True|done].
          * intros t' x'. rewrite (insert_lookup _ _ _ _ _ Et). case_decide; [done|]. intros Hl Hp. pose proof (Hx _ _ Hl) as H'. unfold xfer_ok in H'. rewrite Hp in H'.
            destruct H' as [(y & Hy & _) _]. by rewrite lookup_len in Hy.
        + intros Hl. pose proof (Hx _ _ Hl) as H'. unfold xfer_ok in *. cbn [cs_sess cs_xfers]. destruct (x_phase x) as [|k|k|k|]; try done.
          * destruct H' as [(y & Hy & H1) H2]. split; [exists y; split; [by apply lookup_app_l_Some|done]|]. intros t'' x''. rewrite (insert_lookup _ _ _ _ _ Et). case_decide; [|by apply H2].
            intros [= <-]. cbn. intros [= <-]. by rewrite lookup_len in Hy.
          * destruct H' as (y & Hy & H1). exists y. split; [by apply lookup_app_l_Some|done].
          * destruct H' as (y & Hy & H1). exists y. split; [by apply lookup_app_l_Some|done].
      - intros b s. rewrite lookup_insert_Some. intros [[<- <-]|[Hne Hk]]; [eexists; split; [by rewrite snoc_lookup, decide_True|done]|].
        destruct (Ht _ _ Hk) as (y & Hy & Ha). exists y. split; [by apply lookup_app_l_Some|done]. }
    destruct (cs_table st !! a) as [s|] eqn:Ea; [|by injection H as <-]. destruct (is_gone s st) eqn:Eg; [by injection H as <-|]. injection H as <-.
    split_and!; cbn [cs_sess cs_xfers cs_table]; [| |done].
    + intros k x Hl. destruct (Hs _ _ Hl) as (H1 & H2 & H3). unfold sess_ok. cbn [cs_xfers].
      assert (Hkeep : forall t' b p, p <> Fresh -> cs_xfers st !! t' = Some (Xfer b p) -> <[t := Xfer a (Ready s)]> (cs_xfers st) !! t' = Some (Xfer b p)).
      { intros t' b p Hp Hl'. rewrite (insert_lookup _ _ _ _ _ Et). case_decide; [|done]. subst. congruence. }
      split_and!; [done| |].
      * intros t' Hin. destruct (H2 _ Hin) as [b Hb]. exists b. by apply Hkeep.
      * destruct (ss_phase x) as [| |[t'|]|]; try done.
        -- destruct H3 as [? [t' Ho]]. split; [done|]. exists t'. by apply Hkeep.
        -- destruct H3 as [[b Hb] ?]. split; [|done]. exists b. by apply Hkeep.
    + intros t' x. rewrite (insert_lookup _ _ _ _ _ Et). case_decide as E.
      * intros [= <-]. unfold xfer_ok. cbn. by apply Ht.
      * intros Hl. pose proof (Hx _ _ Hl) as H'. unfold xfer_ok in *. cbn [cs_sess cs_xfers]. destruct (x_phase x) as [|k|k|k|]; try done.
        destruct H' as [H1 H2]. split; [done|]. intros t'' x''. rewrite (insert_lookup _ _ _ _ _ Et). case_decide; [by intros [= <-]|by apply H2].
  - (* connected *) destruct (cs_xfers st !! t) as [[a [|s|s|s|]]|] eqn:Et; try done. injection H as <-.
    destruct (Hx _ _ Et) as [(y & Hy & Hya & Hyp) Hu]. cbn in Hya, Hu.
    assert (Hkeep : forall t' b p, p <> Opening s -> cs_xfers st !! t' = Some (Xfer b p) -> <[t := Xfer a (Ready s)]> (cs_xfers st) !! t' = Some (Xfer b p)).
    { intros t' b p Hp Hl'. rewrite (insert_lookup _ _ _ _ _ Et). case_decide; [|done]. subst. congruence. }
    split_and!; cbn [cs_sess cs_xfers cs_table].
    + intros k x. rewrite alter_lookup. case_decide as E.
      * subst k. rewrite Hy. intros [= <-]. destruct (Hs _ _ Hy) as (H1 & H2 & _). unfold sess_ok. cbn [cs_xfers in_session ss_queue ss_phase]. split_and!; [done| |done].
        intros t' Hin. destruct (H2 _ Hin) as [b Hb]. exists b. by apply Hkeep.
      * intros Hl. destruct (Hs _ _ Hl) as (H1 & H2 & H3). unfold sess_ok. cbn [cs_xfers]. split_and!; [done| |].
        -- intros t' Hin. destruct (H2 _ Hin) as [b Hb]. exists b. by apply Hkeep.
        -- destruct (ss_phase x) as [| |[t'|]|]; try done.
           ++ destruct H3 as [? [t' Ho]]. split; [done|]. exists t'. apply Hkeep; [congruence|done].
           ++ destruct H3 as [[b Hb] ?]. split; [|done]. exists b. by apply Hkeep.
    + intros t' x. rewrite (insert_lookup _ _ _ _ _ Et). case_decide as E.
      * intros [= <-]. unfold xfer_ok. cbn [x_phase x_addr cs_sess]. exists (in_session Negotiating y). rewrite alter_lookup, decide_True by done. by rewrite Hy.
      * intros Hl. pose proof (Hx _ _ Hl) as H'. unfold xfer_ok in *. cbn [cs_sess cs_xfers]. destruct (x_phase x) as [|k|k|k|] eqn:Ep; try done.
        -- destruct H' as [(z & Hz & Hza & Hzp) Hu']. assert (k <> s) by (intros ->; apply E; symmetry; by eapply Hu). split.
           ++ exists z. rewrite alter_lookup, decide_False by done. done.
           ++ intros t'' x''. rewrite (insert_lookup _ _ _ _ _ Et). case_decide; [by intros [= <-]|by apply Hu'].
        -- destruct H' as (z & Hz & Hza). rewrite alter_lookup. case_decide; [subst; rewrite Hz; by eexists|by exists z].
        -- destruct H' as (z & Hz & Hza & Hzp & Hzq). rewrite alter_lookup. case_decide; [|by exists z]. subst k. rewrite Hz. exists (in_session Negotiating z). cbn. split_and!; try done.
           rewrite Hy in Hz. injection Hz as <-. left. destruct Hzq as [?|Hzq]; [done|]. congruence.
    + intros b k Hk. destruct (Ht _ _ Hk) as (z & Hz & Ha). rewrite alter_lookup. case_decide; [subst; rewrite Hz; by eexists|by exists z].
  - (* refused *) destruct (cs_xfers st !! t) as [[a [|s|s|s|]]|] eqn:Et; try done. injection H as <-.
    destruct (Hx _ _ Et) as [(y & Hy & Hya & Hyp) Hu]. cbn in Hya, Hu.
    assert (Hkeep : forall t' b p, p <> Opening s -> cs_xfers st !! t' = Some (Xfer b p) -> <[t := Xfer a (Done (Some false))]> (cs_xfers st) !! t' = Some (Xfer b p)).
    { intros t' b p Hp Hl'. rewrite (insert_lookup _ _ _ _ _ Et). case_decide; [|done]. subst. congruence. }
    apply end_inv; cbn [cs_sess cs_xfers cs_table].
    + intros t' x. rewrite (insert_lookup _ _ _ _ _ Et). case_decide as E; [by intros [= <-]|]. intros Hl Hp. apply E. symmetry. by eapply Hu.
    + intros k x Hl Hne. destruct (Hs _ _ Hl) as (H1 & H2 & H3). unfold sess_ok. cbn [cs_xfers]. split_and!; [done| |].
      * intros t' Hin. destruct (H2 _ Hin) as [b Hb]. exists b. by apply Hkeep.
      * destruct (ss_phase x) as [| |[t'|]|]; try done.
        -- destruct H3 as [? [t' Ho]]. split; [done|]. exists t'. apply Hkeep; [congruence|done].
        -- destruct H3 as [[b Hb] ?]. split; [|done]. exists b. by apply Hkeep.
    + intros x t' Hl Hin. destruct (Hs _ _ Hl) as (_ & H2 & _). destruct (H2 _ Hin) as [b Hb]. exists b. by apply Hkeep.
    + intros t' x. rewrite (insert_lookup _ _ _ _ _ Et). case_decide as E; [by intros [= <-]|]. intros Hl. pose proof (Hx _ _ Hl) as H'. unfold xfer_ok in *. cbn [cs_sess cs_xfers].
      destruct (x_phase x) as [|k|k|k|] eqn:Ep; try done. destruct H' as [H1 H2]. split; [done|]. intros t'' x''. rewrite (insert_lookup _ _ _ _ _ Et). case_decide; [by intros [= <-]|by apply H2].
    + done.
  - (* enqueue *) destruct (cs_xfers st !! t) as [[a [|s|s|s|]]|] eqn:Et; try done. destruct (Hready _ _ _ Et) as (y & Hy & Hya). rewrite Hy in H.
    assert (Hcase : (ss_phase y = Gone /\ st' = CState (cs_table st) (cs_sess st) (<[t := Xfer a (Done None)]> (cs_xfers st))) \/
      (ss_phase y <> Gone /\ st' = CState (cs_table st) (<[s := with_queue (ss_queue y ++ [t]) y]> (cs_sess st)) (<[t := Xfer a (Queued s)]> (cs_xfers st)))).
    { destruct y as [ya yact [| |cur|] yq]; cbn in *; try (right; split; [done|]; case_bool_decide; [by injection H|done]). left. split; [done|]. by injection H. }
    clear H. assert (Hkeep : forall v t' b p, p <> Ready s -> cs_xfers st !! t' = Some (Xfer b p) -> <[t := v]> (cs_xfers st) !! t' = Some (Xfer b p)).
    { intros v t' b p Hp Hl'. rewrite (insert_lookup _ _ _ _ _ Et). case_decide; [|done]. subst. congruence. }
    destruct Hcase as [[Hg ->]|[Hg ->]]; split_and!; cbn [cs_sess cs_xfers cs_table].
    + intros k x Hl. destruct (Hs _ _ Hl) as (H1 & H2 & H3). unfold sess_ok. cbn [cs_xfers]. split_and!; [done| |].
      * intros t' Hin. destruct (H2 _ Hin) as [b Hb]. exists b. by apply Hkeep.
      * destruct (ss_phase x) as [| |[t'|]|]; try done.
        -- destruct H3 as [? [t' Ho]]. split; [done|]. exists t'. by apply Hkeep.
        -- destruct H3 as [[b Hb] ?]. split; [|done]. exists b. by apply Hkeep.
    + intros t' x. rewrite (insert_lookup _ _ _ _ _ Et). case_decide as E; [by intros [= <-]|]. intros Hl. pose proof (Hx _ _ Hl) as H'. unfold xfer_ok in *. cbn [cs_sess cs_xfers].
      destruct (x_phase x) as [|k|k|k|] eqn:Ep; try done. destruct H' as [H1 H2]. split; [done|]. intros t'' x''. rewrite (insert_lookup _ _ _ _ _ Et). case_decide; [by intros [= <-]|by apply H2].
    + done.
    + assert (Hnt : forall k x, cs_sess st !! k = Some x -> t ∉ ss_queue x).
      { intros k x Hl Hin. destruct (Hs _ _ Hl) as (_ & H2 & _). destruct (H2 _ Hin) as [b Hb]. congruence. }
      intros k x. rewrite (insert_lookup _ _ _ _ _ Hy). case_decide as E.
      * subst k. intros [= <-]. destruct (Hs _ _ Hy) as (H1 & H2 & H3). unfold sess_ok. cbn [cs_xfers with_queue ss_queue ss_phase ss_active ss_addr]. split_and!.
        -- apply NoDup_app. split_and!; [done| |apply NoDup_singleton]. intros z Hz Hz'. apply elem_of_list_singleton in Hz' as ->. by eapply Hnt.
        -- intros t' Hin. apply elem_of_app in Hin as [Hin|Hin]; [destruct (H2 _ Hin) as [b Hb]; exists b; by apply Hkeep|]. apply elem_of_list_singleton in Hin as ->. exists a.
           by rewrite (insert_lookup _ _ _ _ _ Et), decide_True.
        -- destruct (ss_phase y) as [| |[t'|]|]; try done.
           ++ destruct H3 as [? [t' Ho]]. split; [done|]. exists t'. by apply Hkeep.
           ++ destruct H3 as [[b Hb] Hn]. split; [exists b; by apply Hkeep|]. rewrite elem_of_app, elem_of_list_singleton. intros [?|Heq]; [done|]. subst t'. congruence.
      * intros Hl. destruct (Hs _ _ Hl) as (H1 & H2 & H3). unfold sess_ok. cbn [cs_xfers]. split_and!; [done| |].
        -- intros t' Hin. destruct (H2 _ Hin) as [b Hb]. exists b. by apply Hkeep.
        -- destruct (ss_phase x) as [| |[t'|]|]; try done.
           ++ destruct H3 as [? [t' Ho]]. split; [done|]. exists t'. by apply Hkeep.
           ++ destruct H3 as [[b Hb] ?]. split; [|done]. exists b. by apply Hkeep.
    + intros t' x. rewrite (insert_lookup _ _ _ _ _ Et). case_decide as E.
      * intros [= <-]. unfold xfer_ok. cbn [x_phase x_addr cs_sess]. subst t'. exists (with_queue (ss_queue y ++ [t]) y). rewrite (insert_lookup _ _ _ _ _ Hy), decide_True by done.
        cbn. split_and!; try done. left. apply elem_of_app. right. by left.
      * intros Hl. pose proof (Hx _ _ Hl) as H'. unfold xfer_ok in *. cbn [cs_sess cs_xfers]. destruct (x_phase x) as [|k|k|k|] eqn:Ep; try done.
        -- destruct H' as [(z & Hz & Hza & Hzp) Hu']. split.
           ++ rewrite (insert_lookup _ _ _ _ _ Hy). case_decide; [|by exists z]. subst k. rewrite Hy in Hz. injection Hz as <-. by eexists.
           ++ intros t'' x''. rewrite (insert_lookup _ _ _ _ _ Et). case_decide; [by intros [= <-]|by apply Hu'].
        -- destruct H' as (z & Hz & Hza). rewrite (insert_lookup _ _ _ _ _ Hy). case_decide; [|by exists z]. subst k. rewrite Hy in Hz. injection Hz as <-. by eexists.
        -- destruct H' as (z & Hz & Hza & Hzp & Hzq). rewrite (insert_lookup _ _ _ _ _ Hy). case_decide; [|by exists z]. subst k. rewrite Hy in Hz. injection Hz as <-. eexists. split; [done|]. cbn.
           split_and!; try done. destruct Hzq as [Hzq|?]; [left; apply elem_of_app; by left|by right].
    + intros b k Hk. destruct (Ht _ _ Hk) as (z & Hz & Ha). rewrite (insert_lookup _ _ _ _ _ Hy). case_decide; [|by exists z]. subst k. rewrite Hy in Hz. injection Hz as <-. by eexists.
  - (* agreed *) destruct (cs_sess st !! s) as [y|] eqn:Hy; [|done]. destruct (ss_phase y) eqn:Hp; try done. injection H as <-. split_and!; cbn [cs_sess cs_xfers cs_table].
    + intros k x. rewrite (insert_lookup _ _ _ _ _ Hy). case_decide as E; [|apply Hs]. intros [= <-]. destruct (Hs _ _ Hy) as (H1 & H2 & H3). subst k. by split_and!.
    + intros t x Hl. pose proof (Hx _ _ Hl) as H'. unfold xfer_ok in *. cbn [cs_sess cs_xfers]. destruct (x_phase x) as [|k|k|k|] eqn:Ep; try done.
      * destruct H' as [(z & Hz & Hza & Hzp) Hu']. split; [|done]. exists z. rewrite (insert_lookup _ _ _ _ _ Hy), decide_False; [done|]. congruence.
      * destruct H' as (z & Hz & Hza). rewrite (insert_lookup _ _ _ _ _ Hy). case_decide; [|by exists z]. subst k. rewrite Hy in Hz. injection Hz as <-. by eexists.
      * destruct H' as (z & Hz & Hza & Hzp & Hzq). rewrite (insert_lookup _ _ _ _ _ Hy). case_decide; [|by exists z]. subst k. rewrite Hy in Hz. injection Hz as <-. eexists. split; [done|]. cbn.
        split_and!; try done. destruct Hzq as [Hzq|Hzq]; [by left|congruence].
    + intros b k Hk. destruct (Ht _ _ Hk) as (z & Hz & Ha). rewrite (insert_lookup _ _ _ _ _ Hy). case_decide; [|by exists z]. subst k. rewrite Hy in Hz. injection Hz as <-. by eexists.
  - (* broken *) destruct (cs_sess st !! s) as [y|] eqn:Hy; [|done]. destruct (ss_phase y) eqn:Hp; try done. injection H as <-. apply end_inv; [|by intros; apply Hs| |done|done].
    + intros t x Hl Ho. pose proof (Hx _ _ Hl) as H'. unfold xfer_ok in H'. rewrite Ho in H'. destruct H' as [(z & Hz & _ & Hzp) _]. congruence.
    + intros x t Hl Hin. destruct (Hs _ _ Hl) as (_ & H2 & _). by apply H2.
  - (* take *) destruct (cs_sess st !! s) as [y|] eqn:Hy; [|done]. destruct (ss_phase y) as [| |[]|] eqn:Hp; try done. destruct (ss_queue y) as [|t q] eqn:Hq; [done|]. injection H as <-.
    destruct (Hs _ _ Hy) as (H1 & H2 & H3). rewrite Hq in H1, H2. apply NoDup_cons in H1 as [H1a H1b].
    split_and!; cbn [cs_sess cs_xfers cs_table].
    + intros k x. rewrite (insert_lookup _ _ _ _ _ Hy). case_decide as E; [|apply Hs]. intros [= <-]. subst k. unfold sess_ok. cbn [ss_queue ss_phase cs_xfers]. split_and!; [done| | |done].
      * intros t' Hin. apply H2. by right. * apply H2. by left.
    + intros t' x Hl. pose proof (Hx _ _ Hl) as H'. unfold xfer_ok in *. cbn [cs_sess cs_xfers]. destruct (x_phase x) as [|k|k|k|] eqn:Ep; try done.
      * destruct H' as [(z & Hz & Hza & Hzp) Hu']. split; [|done]. exists z. rewrite (insert_lookup _ _ _ _ _ Hy), decide_False; [done|]. congruence.
      * destruct H' as (z & Hz & Hza). rewrite (insert_lookup _ _ _ _ _ Hy). case_decide; [|by exists z]. subst k. rewrite Hy in Hz. injection Hz as <-. by eexists.
      * destruct H' as (z & Hz & Hza & Hzp & Hzq). rewrite (insert_lookup _ _ _ _ _ Hy). case_decide; [|by exists z]. subst k. rewrite Hy in Hz. injection Hz as <-. eexists. split; [done|]. cbn.
        split_and!; try done. destruct Hzq as [Hzq|Hzq]; [|congruence]. rewrite Hq in Hzq. apply elem_of_cons in Hzq as [->|?]; [by right|by left].
    + intros b k Hk. destruct (Ht _ _ Hk) as (z & Hz & Ha). rewrite (insert_lookup _ _ _ _ _ Hy). case_decide; [|by exists z]. subst k. rewrite Hy in Hz. injection Hz as <-. by eexists.
  - (* verdict *) destruct (cs_sess st !! s) as [y|] eqn:Hy; [|done]. destruct (ss_phase y) as [| |[t|]|] eqn:Hp; try done. injection H as <-.
    destruct (Hs _ _ Hy) as (H1 & H2 & H3). rewrite Hp in H3. destruct H3 as [[a Ha] Hn].
    assert (Hkeep : forall t' c p, t' <> t -> cs_xfers st !! t' = Some (Xfer c p) -> alter (set_phase (Done (Some b))) t (cs_xfers st) !! t' = Some (Xfer c p)).
    { intros t' c p Hne Hl. by rewrite alter_lookup, decide_False. }
    assert (Hsk : forall k x, k <> s -> cs_sess st !! k = Some x -> sess_ok (CState (cs_table st) (<[s := in_session (Running None) y]> (cs_sess st)) (alter (set_phase (Done (Some b))) t (cs_xfers st))) k x).
    { intros k x Hne Hl. destruct (Hs _ _ Hl) as (G1 & G2 & G3). unfold sess_ok. cbn [cs_xfers]. split_and!; [done| |].
      - intros t' Hin. destruct (G2 _ Hin) as [c Hc]. exists c. apply Hkeep; [|done]. intros ->. congruence.
      - destruct (ss_phase x) as [| |[t'|]|]; try done.
        + destruct G3 as [? [t' Ho]]. split; [done|]. exists t'. apply Hkeep; [|done]. intros ->. congruence.
        + destruct G3 as [[c Hc] ?]. split; [|done]. exists c. apply Hkeep; [|done]. intros ->. congruence. }
    split_and!; cbn [cs_sess cs_xfers cs_table].
    + intros k x. rewrite (insert_lookup _ _ _ _ _ Hy). case_decide as E; [|intros Hl; by apply Hsk]. intros [= <-]. subst k. unfold sess_ok. cbn [in_session ss_queue ss_phase cs_xfers]. split_and!; [done| |done].
      intros t' Hin. destruct (H2 _ Hin) as [c Hc]. exists c. apply Hkeep; [|done]. intros ->. done.
    + intros t' x. rewrite alter_lookup. case_decide as E; [subst t'; rewrite Ha; by intros [= <-]|]. intros Hl.
      pose proof (Hx _ _ Hl) as H'. unfold xfer_ok in *. cbn [cs_sess cs_xfers]. destruct (x_phase x) as [|k|k|k|] eqn:Ep; try done.
      * destruct H' as [(z & Hz & Hza & Hzp) Hu']. split; [exists z; rewrite (insert_lookup _ _ _ _ _ Hy), decide_False; [done|]; congruence|].
        intros t'' x''. rewrite alter_lookup. case_decide; [subst t''; rewrite Ha; by intros [= <-]|by apply Hu'].
      * destruct H' as (z & Hz & Hza). rewrite (insert_lookup _ _ _ _ _ Hy). case_decide; [|by exists z]. subst k. rewrite Hy in Hz. injection Hz as <-. by eexists.
      * destruct H' as (z & Hz & Hza & Hzp & Hzq). rewrite (insert_lookup _ _ _ _ _ Hy). case_decide; [|by exists z]. subst k. rewrite Hy in Hz. injection Hz as <-. eexists. split; [done|]. cbn.
        split_and!; try done. destruct Hzq as [Hzq|Hzq]; [by left|congruence].
    + intros c k Hk. destruct (Ht _ _ Hk) as (z & Hz & Hza). rewrite (insert_lookup _ _ _ _ _ Hy). case_decide; [|by exists z]. subst k. rewrite Hy in Hz. injection Hz as <-. by eexists.
  - (* end *) destruct (cs_sess st !! s) as [y|] eqn:Hy; [|done]. destruct (ss_phase y) eqn:Hp; try done. injection H as <-. apply end_inv; [|by intros; apply Hs| |done|done].
    + intros t x Hl Ho. pose proof (Hx _ _ Hl) as H'. unfold xfer_ok in H'. rewrite Ho in H'. destruct H' as [(z & Hz & _ & Hzp) _]. congruence.
    + intros x t Hl Hin. destruct (Hs _ _ Hl) as (_ & H2 & _). by apply H2.
Qed.
Lemma crun_app ls1 : forall st ls2, crun st (ls1 ++ ls2) = (st' ← crun st ls1; crun st' ls2).
Proof. induction ls1 as [|l ls IH]; intros st ls2; [done|]. cbn. destruct (cstep st l); [apply IH|done]. Qed.
Lemma crun_inv ls : forall st st', cinv st -> crun st ls = Some st' -> cinv st'.
Proof. induction ls as [|l ls IH]; intros st st' Hi H; cbn in H; [by simplify_eq|]. apply bind_Some in H as (st1 & E & H). eapply IH; [by eapply cinv_step|done]. Qed.

Local Ltac give := eexists; split; [reflexivity|]; repeat split; done.
(** ** Addresses of sessions and transfers stay; what is over stays over *)
Lemma step_sess st l st' s x : cstep st l = Some st' -> cs_sess st !! s = Some x -> exists x', cs_sess st' !! s = Some x' /\ ss_addr x' = ss_addr x /\ ss_active x' = ss_active x.
Proof.
  intros H Hx. destruct l as [a|a|t|t|t|t|k|k|k|k b|k]; cbn [cstep] in H.
  - injection H as <-. by exists x.
  - injection H as <-. exists x. split; [by apply lookup_app_l_Some|done].
  - destruct (cs_xfers st !! t) as [[a []]|]; try done. repeat case_match; injection H as <-; cbn [cs_sess]; exists x; (split; [|done]); try done; by apply lookup_app_l_Some.
  - destruct (cs_xfers st !! t) as [[a []]|]; try done. injection H as <-. cbn [cs_sess]. rewrite alter_lookup. case_decide; [|by exists x]. rewrite Hx. by exists (in_session Negotiating x).
  - destruct (cs_xfers st !! t) as [[a []]|]; try done. injection H as <-. cbn [cs_sess end_session]. rewrite alter_lookup. case_decide; [|by exists x]. rewrite Hx. by exists (gone x).
  - destruct (cs_xfers st !! t) as [[a [|k|k|k|]]|]; try done. destruct (cs_sess st !! k) as [y|] eqn:Ey; [|by injection H as <-; exists x].
    assert (Hc : cs_sess st' = cs_sess st \/ cs_sess st' = <[k := with_queue (ss_queue y ++ [t]) y]> (cs_sess st)).
    { destruct y as [ya yact [| |cur|] yq]; cbn in *; try (right; case_bool_decide; [by injection H as <-|done]). left. by injection H as <-. }
    clear H; destruct Hc as [->| ->]; [by exists x|]. rewrite (insert_lookup _ _ _ _ _ Ey). case_decide; [|by exists x]. subst k. rewrite Hx in Ey. injection Ey as <-. give.
  - destruct (cs_sess st !! k) as [y|] eqn:Ey; [|done]. destruct (ss_phase y); try done. injection H as <-. cbn [cs_sess]. rewrite (insert_lookup _ _ _ _ _ Ey). case_decide; [|by exists x]. subst k. rewrite Hx in Ey. injection Ey as <-. give.
  - destruct (cs_sess st !! k) as [y|] eqn:Ey; [|done]. destruct (ss_phase y); try done. injection H as <-. cbn [cs_sess end_session]. rewrite alter_lookup. case_decide; [|by exists x]. rewrite Hx. by exists (gone x).
  - destruct (cs_sess st !! k) as [y|] eqn:Ey; [|done]. destruct (ss_phase y) as [| |[]|]; try done. destruct (ss_queue y); [done|]. injection H as <-. cbn [cs_sess]. rewrite (insert_lookup _ _ _ _ _ Ey). case_decide; [|by exists x]. subst k. rewrite Hx in Ey. injection Ey as <-. give.
  - destruct (cs_sess st !! k) as [y|] eqn:Ey; [|done]. destruct (ss_phase y) as [| |[]|]; try done. injection H as <-. cbn [cs_sess]. rewrite (insert_lookup _ _ _ _ _ Ey). case_decide; [|by exists x]. subst k. rewrite Hx in Ey. injection Ey as <-. give.
  - destruct (cs_sess st !! k) as [y|] eqn:Ey; [|done]. destruct (ss_phase y); try done. injection H as <-. cbn [cs_sess end_session]. rewrite alter_lookup. case_decide; [|by exists x]. rewrite Hx. by exists (gone x).
Qed.
(** what a step does to the transfers *)
Lemma step_xfer st l st' t x : cinv st -> cstep st l = Some st' -> cs_xfers st !! t = Some x ->
  exists x', cs_xfers st' !! t = Some x' /\ x_addr x' = x_addr x /\
    (x' = x \/ (forall v, x_phase x <> Done v) /\
      match x_phase x' with
      | Fresh => False
      | Queued s => x_phase x = Ready s
      | Done (Some true) => exists s y, l = LVerdict s true /\ cs_sess st !! s = Some y /\ ss_phase y = Running (Some t)
      | _ => True
      end).
Proof.
  intros (Hs & _ & _) H Hx.
  assert (Hab : forall s, exists x', abandon s (cs_xfers st) !! t = Some x' /\ x_addr x' = x_addr x /\ (x' = x \/ (forall v, x_phase x <> Done v) /\ x_phase x' = Done None)).
  { intros s. rewrite abandon_lookup, Hx. cbn. case_bool_decide as E; [|eexists; split; [done|]; auto]. eexists. split; [done|]. split; [done|]. right. split; [congruence|done]. }
  destruct l as [a|a|u|u|u|u|k|k|k|k b|k]; cbn [cstep] in H.
  - injection H as <-. exists x. split; [by apply lookup_app_l_Some|auto].
  - injection H as <-. exists x. auto.
  - destruct (cs_xfers st !! u) as [[a []]|] eqn:Eu; try done.
    assert (Hc : exists p, cs_xfers st' = <[u := Xfer a p]> (cs_xfers st) /\ match p with Opening _ | Ready _ => True | _ => False end).
    { repeat case_match; injection H as <-; cbn [cs_xfers]; eexists; (split; [done|]); done. }
    destruct Hc as (p & -> & Hp). rewrite (insert_lookup _ _ _ _ _ Eu). case_decide; [|exists x; auto]. subst u. rewrite Hx in Eu. injection Eu as ->. eexists. split; [done|]. split; [done|]. right. cbn. split; [done|]. by destruct p.
  - destruct (cs_xfers st !! u) as [[a []]|] eqn:Eu; try done. injection H as <-. cbn [cs_xfers]. rewrite (insert_lookup _ _ _ _ _ Eu). case_decide; [|exists x; auto]. subst u. rewrite Hx in Eu. injection Eu as ->. eexists. split; [done|]. split; [done|]. by right.
  - destruct (cs_xfers st !! u) as [[a [|k|k|k|]]|] eqn:Eu; try done. injection H as <-. cbn [cs_xfers end_session]. rewrite abandon_lookup, (insert_lookup _ _ _ _ _ Eu). case_decide.
    + subst u. rewrite Hx in Eu. injection Eu as ->. cbn. eexists. split; [done|]. split; [done|]. right. split; [done|]. done.
    + rewrite <- abandon_lookup. destruct (Hab k) as (x' & H1 & H2 & H3). exists x'. split; [done|]. split; [done|]. destruct H3 as [?|[H3 H4]]; [by left|]. right. split; [done|]. by rewrite H4.
  - destruct (cs_xfers st !! u) as [[a [|k|k|k|]]|] eqn:Eu; try done.
    assert (Hc : cs_xfers st' = <[u := Xfer a (Done None)]> (cs_xfers st) \/ cs_xfers st' = <[u := Xfer a (Queued k)]> (cs_xfers st)).
    { destruct (cs_sess st !! k) as [[ya yact [| |cur|] yq]|]; cbn in *; try (right; case_bool_decide; [by injection H as <-|done]); left; by injection H as <-. }
    destruct Hc as [->| ->]; rewrite (insert_lookup _ _ _ _ _ Eu); (case_decide; [|exists x; auto]); subst u; rewrite Hx in Eu; injection Eu as ->; eexists; (split; [done|]); (split; [done|]); by right.
  - destruct (cs_sess st !! k) as [y|] eqn:Ey; [|done]. destruct (ss_phase y); try done. injection H as <-. exists x. auto.
  - destruct (cs_sess st !! k) as [y|] eqn:Ey; [|done]. destruct (ss_phase y); try done. injection H as <-. cbn [cs_xfers end_session].
    destruct (Hab k) as (x' & H1 & H2 & H3). exists x'. split; [done|]. split; [done|]. destruct H3 as [?|[H3 H4]]; [by left|]. right. split; [done|]. by rewrite H4.
  - destruct (cs_sess st !! k) as [y|] eqn:Ey; [|done]. destruct (ss_phase y) as [| |[]|]; try done. destruct (ss_queue y); [done|]. injection H as <-. exists x. auto.
  - destruct (cs_sess st !! k) as [y|] eqn:Ey; [|done]. destruct (ss_phase y) as [| |[u|]|] eqn:Ep; try done. injection H as <-. cbn [cs_xfers]. rewrite alter_lookup. case_decide; [|exists x; auto]. subst u.
    rewrite Hx. eexists. split; [done|]. split; [done|]. right. destruct (Hs _ _ Ey) as (_ & _ & H3). rewrite Ep in H3. destruct H3 as [[a Ha] _]. rewrite Hx in Ha. injection Ha as ->. split; [done|]. cbn.
    destruct b; [|done]. by exists k, y.
  - destruct (cs_sess st !! k) as [y|] eqn:Ey; [|done]. destruct (ss_phase y); try done. injection H as <-. cbn [cs_xfers end_session].
    destruct (Hab k) as (x' & H1 & H2 & H3). exists x'. split; [done|]. split; [done|]. destruct H3 as [?|[H3 H4]]; [by left|]. right. split; [done|]. by rewrite H4.
Qed.

(** ** One session for each address *)
Definition live (x : sess) : Prop := ss_phase x <> Gone.
Definition one (a : string) (st : cstate) : Prop := forall s x, cs_sess st !! s = Some x -> ss_addr x = a -> live x -> cs_table st !! a = Some s.
Lemma one_step a st l st' : cinv st -> one a st -> l <> LAccept a -> cstep st l = Some st' -> one a st'.
Proof.
  intros (Hs & Hx & Ht) Ho Hl H s x Hk Ha Hv. destruct l as [b|b|t|t|t|t|k|k|k|k b|k]; cbn [cstep] in H.
  - injection H as <-. by eapply Ho.
  - injection H as <-. cbn [cs_sess cs_table] in *. rewrite snoc_lookup in Hk. case_decide as E.
    + injection Hk as <-. cbn in Ha. subst. done.
    + rewrite lookup_insert_ne by congruence. by eapply Ho.
  - destruct (cs_xfers st !! t) as [[b []]|] eqn:Et; try done.
    assert (Hnew : is_gone (default 0 (cs_table st !! b)) st = true \/ cs_table st !! b = None ->
      (cs_sess st ++ [Sess b true Connecting []]) !! s = Some x -> <[b := length (cs_sess st)]> (cs_table st) !! a = Some s).
    { intros Hg. rewrite snoc_lookup. case_decide as E; [intros [= <-]; cbn in Ha; subst; apply lookup_insert|]. intros Hk'. pose proof (Ho _ _ Hk' Ha Hv) as Ho'.
      destruct (decide (a = b)) as [->|Hne]; [|by rewrite lookup_insert_ne]. rewrite Ho' in Hg. cbn in Hg. destruct Hg as [Hg|Hg]; [|done]. unfold is_gone in Hg. rewrite Hk' in Hg. destruct (ss_phase x) eqn:Ep; done. }
    destruct (cs_table st !! b) as [k|] eqn:Eb; [destruct (is_gone k st) eqn:Eg|]; injection H as <-; cbn [cs_sess cs_table] in *.
    + apply Hnew; [left; cbn; done|done].
    + by eapply Ho.
    + apply Hnew; [by right|done].
  - destruct (cs_xfers st !! t) as [[b [|k|k|k|]]|] eqn:Et; try done. injection H as <-. cbn [cs_sess cs_table] in *. rewrite alter_lookup in Hk. case_decide; [|by eapply Ho]. subst k.
    destruct (Hx _ _ Et) as [(y & Hy & _ & Hp) _]. rewrite Hy in Hk. injection Hk as <-. cbn in Ha. eapply Ho; [done..|]. unfold live. by rewrite Hp.
  - destruct (cs_xfers st !! t) as [[b [|k|k|k|]]|] eqn:Et; try done. injection H as <-. cbn [cs_sess cs_table end_session] in *. rewrite alter_lookup in Hk. case_decide; [|by eapply Ho].
    destruct (cs_sess st !! s); [|done]. injection Hk as <-. by destruct Hv.
  - destruct (cs_xfers st !! t) as [[b [|k|k|k|]]|]; try done. destruct (cs_sess st !! k) as [y|] eqn:Ey; [|injection H as <-; by eapply Ho].
    assert (Hc : (cs_table st' = cs_table st) /\ (cs_sess st' = cs_sess st \/ cs_sess st' = <[k := with_queue (ss_queue y ++ [t]) y]> (cs_sess st))).
    { destruct y as [ya yact [| |cur|] yq]; cbn in *; try (case_bool_decide; [injection H as <-|done]; split; [done|by right]). injection H as <-. split; [done|by left]. }
    destruct Hc as [-> [E|E]]; rewrite E in Hk; [by eapply Ho|]. rewrite (insert_lookup _ _ _ _ _ Ey) in Hk. case_decide; [|by eapply Ho]. subst k. injection Hk as <-. by eapply Ho.
  - destruct (cs_sess st !! k) as [y|] eqn:Ey; [|done]. destruct (ss_phase y) eqn:Ep; try done. injection H as <-. cbn [cs_sess cs_table] in *. rewrite (insert_lookup _ _ _ _ _ Ey) in Hk. case_decide; [|by eapply Ho]. subst k. injection Hk as <-. eapply Ho; [done..|]. unfold live. by rewrite Ep.
  - destruct (cs_sess st !! k) as [y|] eqn:Ey; [|done]. destruct (ss_phase y) eqn:Ep; try done. injection H as <-. cbn [cs_sess cs_table end_session] in *. rewrite alter_lookup in Hk. case_decide; [|by eapply Ho].
    destruct (cs_sess st !! s); [|done]. injection Hk as <-. by destruct Hv.
  - destruct (cs_sess st !! k) as [y|] eqn:Ey; [|done]. destruct (ss_phase y) as [| |[]|] eqn:Ep; try done. destruct (ss_queue y); [done|]. injection H as <-. cbn [cs_sess cs_table] in *. rewrite (insert_lookup _ _ _ _ _ Ey) in Hk. case_decide; [|by eapply Ho]. subst k. injection Hk as <-. eapply Ho; [done..|]. unfold live. by rewrite Ep.
  - destruct (cs_sess st !! k) as [y|] eqn:Ey; [|done]. destruct (ss_phase y) as [| |[]|] eqn:Ep; try done. injection H as <-. cbn [cs_sess cs_table] in *. rewrite (insert_lookup _ _ _ _ _ Ey) in Hk. case_decide; [|by eapply Ho]. subst k. injection Hk as <-. eapply Ho; [done..|]. unfold live. by rewrite Ep.
  - destruct (cs_sess st !! k) as [y|] eqn:Ey; [|done]. destruct (ss_phase y) eqn:Ep; try done. injection H as <-. cbn [cs_sess cs_table end_session] in *. rewrite alter_lookup in Hk. case_decide; [|by eapply Ho].
    destruct (cs_sess st !! s); [|done]. injection Hk as <-. by destruct Hv.
Qed.
Lemma one_run a ls : forall st st', cinv st -> one a st -> LAccept a ∉ ls -> crun st ls = Some st' -> one a st'.
Proof.
  induction ls as [|l ls IH]; intros st st' Hi Ho Hn H; cbn in H; [by simplify_eq|]. rewrite not_elem_of_cons in Hn. destruct Hn as [Hn1 Hn2]. apply bind_Some in H as (st1 & E & H).
  eapply IH; [by eapply cinv_step| |done|done]. eapply one_step; [done..| |done]. congruence.
Qed.

(** ** Termination *)
Definition tweight (x : xfer) : nat := match x_phase x with Fresh => 10 | Opening _ => 5 | Ready _ => 4 | Queued _ => 2 | Done _ => 0 end.
Definition sweight (x : sess) : nat := match ss_phase x with Connecting => 3 | Negotiating => 2 | Running _ => 1 | Gone => 0 end + length (ss_queue x).
Definition weight (st : cstate) : nat := sum_list_with tweight (cs_xfers st) + sum_list_with sweight (cs_sess st).
Lemma sum_insert {A} (f : A -> nat) (l : list A) i x y : l !! i = Some x -> sum_list_with f (<[i:=y]> l) + f x = sum_list_with f l + f y.
Proof.
  revert i; induction l as [|z l IH]; intros i H; [done|]. destruct i as [|i]; cbn in *; [injection H as ->; lia|]. specialize (IH _ H). unfold insert in *. lia.
Qed.
Lemma sum_app {A} (f : A -> nat) (l l' : list A) : sum_list_with f (l ++ l') = sum_list_with f l + sum_list_with f l'.
Proof. induction l; cbn; lia. Qed.
Lemma sum_alter {A} (f : A -> nat) (g : A -> A) (l : list A) i x : l !! i = Some x -> sum_list_with f (alter g i l) + f x = sum_list_with f l + f (g x).
Proof. revert i; induction l as [|z l IH]; intros i H; [done|]. destruct i as [|i]; cbn in *; [injection H as ->; lia|]. specialize (IH _ H). unfold alter in *. lia. Qed.
Lemma abandon_weight s l : sum_list_with tweight (abandon s l) <= sum_list_with tweight l.
Proof.
  unfold abandon. induction l as [|x l IH]; cbn [map sum_list_with]; [done|]. assert (tweight (set_phase (Done None) x) = 0) by done. case_bool_decide; lia.
Qed.
(** a step that starts nothing new *)
Definition inner (l : label) : bool := match l with LSubmit _ | LAccept _ => false | _ => true end.
Lemma tw a p : tweight (Xfer a p) = match p with Fresh => 10 | Opening _ => 5 | Ready _ => 4 | Queued _ => 2 | Done _ => 0 end.
Proof. done. Qed.
Lemma sw a b p q : sweight (Sess a b p q) = match p with Connecting => 3 | Negotiating => 2 | Running _ => 1 | Gone => 0 end + length q.
Proof. done. Qed.
Lemma step_weight st l st' : cinv st -> inner l = true -> cstep st l = Some st' -> weight st' < weight st.
Proof.
  intros (Hs & Hx & Ht) Hi H. unfold weight. destruct l as [b|b|t|t|t|t|k|k|k|k b|k]; cbn [cstep] in H; try done.
  - destruct (cs_xfers st !! t) as [[b []]|] eqn:Et; try done.
    pose proof (fun p => sum_insert tweight _ _ _ (Xfer b p) Et) as Hw.
    assert (Hsw : sweight (Sess b true Connecting []) = 3) by done.
    destruct (cs_table st !! b) as [n|]; [destruct (is_gone n st)|]; injection H as <-; cbn [cs_sess cs_xfers]; rewrite ?sum_app; cbn [sum_list_with].
    + specialize (Hw (Opening (length (cs_sess st)))). rewrite !tw in Hw. lia.
    + specialize (Hw (Ready n)). rewrite !tw in Hw. lia.
    + specialize (Hw (Opening (length (cs_sess st)))). rewrite !tw in Hw. lia.
  - destruct (cs_xfers st !! t) as [[b [|k|k|k|]]|] eqn:Et; try done. injection H as <-. destruct (Hx _ _ Et) as [([ya yb yp yq] & Hy & _ & Hp) _]. cbn in Hp. subst yp.
    pose proof (sum_insert tweight _ _ _ (Xfer b (Ready k)) Et) as Hw. pose proof (sum_alter sweight (in_session Negotiating) _ _ _ Hy) as Hw2.
    unfold in_session at 2 in Hw2. cbn [ss_addr ss_active ss_phase ss_queue] in Hw2. rewrite !tw in Hw. rewrite !sw in Hw2. cbn [cs_xfers cs_sess]. lia.
  - destruct (cs_xfers st !! t) as [[b [|k|k|k|]]|] eqn:Et; try done. injection H as <-. destruct (Hx _ _ Et) as [([ya yb yp yq] & Hy & _ & Hp) _]. cbn in Hp. subst yp.
    pose proof (sum_insert tweight _ _ _ (Xfer b (Done (Some false))) Et) as Hw. pose proof (sum_alter sweight gone _ _ _ Hy) as Hw2.
    pose proof (abandon_weight k (<[t := Xfer b (Done (Some false))]> (cs_xfers st))) as Hw3.
    unfold gone at 2 in Hw2. rewrite !tw in Hw. rewrite !sw in Hw2. cbn [cs_sess cs_xfers end_session length] in *. lia.
  - destruct (cs_xfers st !! t) as [[b [|k|k|k|]]|] eqn:Et; try done. destruct (Hx _ _ Et) as (y & Hy & _). rewrite Hy in H.
    pose proof (fun p => sum_insert tweight _ _ _ (Xfer b p) Et) as Hw.
    pose proof (sum_insert sweight _ _ _ (with_queue (ss_queue y ++ [t]) y) Hy) as Hw2.
    assert (Hw3 : sweight (with_queue (ss_queue y ++ [t]) y) = S (sweight y)) by (destruct y as [ya yb yp yq]; unfold with_queue; cbn [ss_addr ss_active ss_phase ss_queue]; rewrite !sw, app_length; cbn; lia).
    assert (Hcase : st' = CState (cs_table st) (cs_sess st) (<[t := Xfer b (Done None)]> (cs_xfers st)) \/
      st' = CState (cs_table st) (<[k := with_queue (ss_queue y ++ [t]) y]> (cs_sess st)) (<[t := Xfer b (Queued k)]> (cs_xfers st))).
    { destruct y as [ya yact [| |cur|] yq]; cbn in *; try (right; case_bool_decide; [by injection H as <-|done]). left. by injection H as <-. }
    clear H. destruct Hcase as [->| ->]; cbn [cs_sess cs_xfers]; [specialize (Hw (Done None))|specialize (Hw (Queued k))]; rewrite !tw in Hw; lia.
  - destruct (cs_sess st !! k) as [[ya yb yp yq]|] eqn:Ey; [|done]. cbn in H. destruct yp; try done. injection H as <-. cbn [cs_sess cs_xfers].
    pose proof (sum_insert sweight _ _ _ (in_session (Running None) (Sess ya yb Negotiating yq)) Ey) as Hw. unfold in_session in *. cbn [ss_addr ss_active ss_phase ss_queue] in *. rewrite !sw in Hw. lia.
  - destruct (cs_sess st !! k) as [[ya yb yp yq]|] eqn:Ey; [|done]. cbn in H. destruct yp; try done. injection H as <-. cbn [cs_sess cs_xfers end_session].
    pose proof (sum_alter sweight gone _ _ _ Ey) as Hw. unfold gone at 2 in Hw. rewrite !sw in Hw. cbn [length] in Hw. pose proof (abandon_weight k (cs_xfers st)). lia.
  - destruct (cs_sess st !! k) as [[ya yb yp yq]|] eqn:Ey; [|done]. cbn in H. destruct yp as [| |[]|]; try done. destruct yq as [|t q]; [done|]. injection H as <-. cbn [cs_sess cs_xfers].
    pose proof (sum_insert sweight _ _ _ (Sess ya yb (Running (Some t)) q) Ey) as Hw. rewrite !sw in Hw. cbn [length] in Hw. lia.
  - destruct (cs_sess st !! k) as [[ya yb yp yq]|] eqn:Ey; [|done]. cbn in H. destruct yp as [| |[t|]|]; try done. injection H as <-. cbn [cs_sess cs_xfers].
    destruct (Hs _ _ Ey) as (_ & _ & H3). cbn in H3. destruct H3 as [[a Ha] _].
    pose proof (sum_insert sweight _ _ _ (in_session (Running None) (Sess ya yb (Running (Some t)) yq)) Ey) as Hw. unfold in_session in *. cbn [ss_addr ss_active ss_phase ss_queue] in *. rewrite !sw in Hw.
    pose proof (sum_alter tweight (set_phase (Done (Some b))) _ _ _ Ha) as Hw2. unfold set_phase at 2 in Hw2. cbn [x_addr] in Hw2. rewrite !tw in Hw2. lia.
  - destruct (cs_sess st !! k) as [[ya yb yp yq]|] eqn:Ey; [|done]. cbn in H. destruct yp; try done. injection H as <-. cbn [cs_sess cs_xfers end_session].
    pose proof (sum_alter sweight gone _ _ _ Ey) as Hw. unfold gone at 2 in Hw. rewrite !sw in Hw. cbn [length] in Hw. pose proof (abandon_weight k (cs_xfers st)). lia.
Qed.
Lemma run_weight ls : forall st st', cinv st -> Forall (fun l => inner l = true) ls -> crun st ls = Some st' -> weight st' + length ls <= weight st.
Proof.
  induction ls as [|l ls IH]; intros st st' Hi Hl H; cbn in H; [simplify_eq; cbn; lia|]. apply Forall_cons in Hl as [Hl Hls]. apply bind_Some in H as (st1 & E & H).
  pose proof (step_weight _ _ _ Hi Hl E). specialize (IH _ _ (cinv_step _ _ _ Hi E) Hls H). cbn. lia.
Qed.
(** When no step is left, every transfer is over *)
Definition stuck (st : cstate) : Prop := forall l, inner l = true -> cstep st l = None.
Lemma stuck_over st : cinv st -> stuck st -> forall t x, cs_xfers st !! t = Some x -> over st t = true.
Proof.
  intros (Hs & Hx & Ht) Hst.
  assert (Hgone : forall s y, cs_sess st !! s = Some y -> ss_phase y = Gone).
  { intros s y Hy. destruct (ss_phase y) eqn:Ep; [| | |done].
    - destruct (Hs _ _ Hy) as (_ & _ & H3). rewrite Ep in H3. destruct H3 as [_ [t Ho]]. pose proof (Hst (LRefused t) eq_refl) as H. cbn in H. by rewrite Ho in H.
    - pose proof (Hst (LBroken s) eq_refl) as H. cbn in H. by rewrite Hy, Ep in H.
    - pose proof (Hst (LEnd s) eq_refl) as H. cbn in H. by rewrite Hy, Ep in H. }
  intros t x Hl. unfold over. rewrite Hl. destruct x as [a [|s|s|s|v]]; [| | | |done]; exfalso; pose proof (Hx _ _ Hl) as Hok; unfold xfer_ok in Hok; cbn in Hok.
  - pose proof (Hst (LLook t) eq_refl) as H. cbn in H. rewrite Hl in H. by repeat case_match.
  - pose proof (Hst (LRefused t) eq_refl) as H. cbn in H. by rewrite Hl in H.
  - destruct Hok as (y & Hy & _). pose proof (Hgone _ _ Hy) as Hg. pose proof (Hst (LEnqueue t) eq_refl) as H. cbn in H. rewrite Hl, Hy in H. destruct y. cbn in Hg. by subst.
  - destruct Hok as (y & Hy & _ & Hn & _). by apply Hn, (Hgone s).
Qed.

(** ** What was taken from queues, and the verdicts *)
Inductive event := Took (s t : nat) | Gave (s t : nat) (b : bool).
Definition event_of (st : cstate) (l : label) : list event :=
  match l with
  | LTake s => match cs_sess st !! s with Some y => match ss_queue y with t :: _ => [Took s t] | [] => [] end | None => [] end
  | LVerdict s b => match cs_sess st !! s with Some y => match ss_phase y with Running (Some t) => [Gave s t b] | _ => [] end | None => [] end
  | _ => []
  end.
Fixpoint events (st : cstate) (ls : list label) : list event :=
  match ls with [] => [] | l :: ls => event_of st l ++ match cstep st l with Some st' => events st' ls | None => [] end end.
Definition taken (e : event) : option nat := match e with Took _ t => Some t | _ => None end.
Definition judged (e : event) : option nat := match e with Gave _ t _ => Some t | _ => None end.
(** [t] may still be taken *)
Definition pending (st : cstate) (t : nat) : Prop :=
  match cs_xfers st !! t with
  | None => True
  | Some x => (forall v, x_phase x <> Done v) /\ forall s y, cs_sess st !! s = Some y -> ss_phase y <> Running (Some t)
  end.
Lemma running_step st l st' s y t : cinv st -> cstep st l = Some st' -> cs_sess st !! s = Some y -> ss_phase y = Running (Some t) ->
  (exists y', cs_sess st' !! s = Some y' /\ ss_phase y' = Running (Some t)) \/ (exists x v, cs_xfers st' !! t = Some x /\ x_phase x = Done v).
Proof.
  intros (Hs & Hx & Ht) H Hy Hp. destruct (Hs _ _ Hy) as (_ & _ & H3). rewrite Hp in H3. destruct H3 as [[a Ha] _].
  assert (Hend : forall k, (exists y', alter gone k (cs_sess st) !! s = Some y' /\ ss_phase y' = Running (Some t)) \/
     exists x v, abandon k (cs_xfers st) !! t = Some x /\ x_phase x = Done v).
  { intros k. rewrite alter_lookup. case_decide; [|left; by exists y]. subst k. right. rewrite abandon_lookup, Ha. cbn. rewrite bool_decide_true by done. eexists _, None; split; done. }
  destruct l as [b|b|u|u|u|u|k|k|k|k b|k]; cbn [cstep] in H.
  - injection H as <-. left. by exists y.
  - injection H as <-. left. exists y. split; [by apply lookup_app_l_Some|done].
  - destruct (cs_xfers st !! u) as [[c []]|]; try done. left. exists y. split; [|done]. repeat case_match; injection H as <-; cbn [cs_sess]; try done; by apply lookup_app_l_Some.
  - destruct (cs_xfers st !! u) as [[c [|k|k|k|]]|] eqn:Eu; try done. injection H as <-. cbn [cs_sess]. left. destruct (Hx _ _ Eu) as [(z & Hz & _ & Hzp) _]. exists y. rewrite alter_lookup, decide_False; [done|]. congruence.
  - destruct (cs_xfers st !! u) as [[c [|k|k|k|]]|] eqn:Eu; try done. injection H as <-. cbn [cs_sess cs_xfers end_session]. left. destruct (Hx _ _ Eu) as [(z & Hz & _ & Hzp) _]. exists y. rewrite alter_lookup, decide_False; [done|]. congruence.
  - destruct (cs_xfers st !! u) as [[c [|k|k|k|]]|]; try done. destruct (cs_sess st !! k) as [z|] eqn:Ez; [|injection H as <-; left; by exists y].
    assert (Hc : cs_sess st' = cs_sess st \/ cs_sess st' = <[k := with_queue (ss_queue z ++ [u]) z]> (cs_sess st)).
    { destruct z as [ya yact [| |cur|] yq]; cbn in *; try (right; case_bool_decide; [by injection H as <-|done]). left. by injection H as <-. }
    clear H; left. destruct Hc as [->| ->]; [by exists y|]. rewrite (insert_lookup _ _ _ _ _ Ez). case_decide; [|by exists y]. subst k. rewrite Hy in Ez. injection Ez as <-. give.
  - destruct (cs_sess st !! k) as [z|] eqn:Ez; [|done]. destruct (ss_phase z) eqn:Ep; try done. injection H as <-. left. exists y. cbn [cs_sess]. rewrite (insert_lookup _ _ _ _ _ Ez), decide_False; [done|]. congruence.
  - destruct (cs_sess st !! k) as [z|] eqn:Ez; [|done]. destruct (ss_phase z) eqn:Ep; try done. injection H as <-. cbn [cs_sess cs_xfers end_session]. left. exists y. rewrite alter_lookup, decide_False; [done|]. congruence.
  - destruct (cs_sess st !! k) as [z|] eqn:Ez; [|done]. destruct (ss_phase z) as [| |[]|] eqn:Ep; try done. destruct (ss_queue z); [done|]. injection H as <-. left. exists y. cbn [cs_sess]. rewrite (insert_lookup _ _ _ _ _ Ez), decide_False; [done|]. congruence.
  - destruct (cs_sess st !! k) as [z|] eqn:Ez; [|done]. destruct (ss_phase z) as [| |[u|]|] eqn:Ep; try done. injection H as <-. cbn [cs_sess cs_xfers]. destruct (decide (k = s)) as [->|Hne].
    + right. rewrite Hy in Ez. injection Ez as <-. rewrite Hp in Ep. injection Ep as <-. rewrite alter_lookup, decide_True by done. rewrite Ha. eexists _, _; split; done.
    + left. exists y. by rewrite (insert_lookup _ _ _ _ _ Ez), decide_False.
  - destruct (cs_sess st !! k) as [z|] eqn:Ez; [|done]. destruct (ss_phase z) eqn:Ep; try done. injection H as <-. cbn [cs_sess cs_xfers end_session].
    apply Hend.
Qed.
Lemma pending_step st l st' t : cinv st -> cstep st l = Some st' -> pending st' t -> pending st t.
Proof.
  intros Hi H Hp. unfold pending in *. destruct (cs_xfers st !! t) as [x|] eqn:Ex; [|done].
  destruct (step_xfer _ _ _ _ _ Hi H Ex) as (x' & Ex' & _ & Hc). rewrite Ex' in Hp. destruct Hp as [Hp1 Hp2]. split.
  - intros v Hv. destruct Hc as [->|[Hc _]]; [by eapply Hp1|by eapply Hc].
  - intros s y Hy Hr. destruct (running_step _ _ _ _ _ _ Hi H Hy Hr) as [(y' & Hy' & Hr')|(z & v & Hz & Hv)]; [by eapply Hp2|]. rewrite Ex' in Hz. injection Hz as <-. by eapply Hp1.
Qed.
Lemma taken_once ls : forall st st', cinv st -> crun st ls = Some st' ->
  NoDup (omap taken (events st ls)) /\ forall t, t ∈ omap taken (events st ls) -> pending st t.
Proof.
  induction ls as [|l ls IH]; intros st st' Hi H; cbn in H; [split; [constructor|]; intros t Ht; by apply elem_of_nil in Ht|]. apply bind_Some in H as (st1 & E & H).
  destruct (IH _ _ (cinv_step _ _ _ Hi E) H) as [Hd Hp]. cbn [events]. rewrite E.
  assert (Hcase : omap taken (event_of st l) = [] \/ exists t, omap taken (event_of st l) = [t] /\ pending st t /\ ~ pending st1 t).
  { destruct l as [b|b|u|u|u|u|k|k|k|k b|k]; try (by left); cbn [event_of cstep] in *.
    - destruct (cs_sess st !! k) as [y|] eqn:Ey; [|done]. destruct (ss_phase y) as [| |[]|] eqn:Ep; try done. destruct (ss_queue y) as [|t q] eqn:Eq; [done|]. injection E as <-. right. exists t. split; [done|].
      destruct Hi as (Hs & Hx & Ht). destruct (Hs _ _ Ey) as (_ & H2 & _). destruct (H2 t ltac:(rewrite Eq; by left)) as [a Ha]. unfold pending. cbn [cs_xfers cs_sess]. rewrite Ha. split; [split; [done|]|].
      + intros s z Hz Hr. destruct (Hs _ _ Hz) as (_ & _ & H3). rewrite Hr in H3. destruct H3 as [[c Hc] Hn]. rewrite Ha in Hc. injection Hc as <- <-. rewrite Ey in Hz. injection Hz as <-. apply Hn. rewrite Eq. by left.
      + intros [_ Hn]. eapply (Hn k). { by rewrite (insert_lookup _ _ _ _ _ Ey), decide_True. } done.
    - left. by repeat case_match. }
  rewrite omap_app. destruct Hcase as [->|(t & -> & Hp1 & Hp2)]; cbn [app].
  - split; [done|]. intros t Ht. eapply pending_step; [done..|]. by apply Hp.
  - split; [constructor; [|done]; intros Hin; by apply Hp2, Hp|]. intros t' Ht'. apply elem_of_cons in Ht' as [->|Ht']; [done|]. eapply pending_step; [done..|]. by apply Hp.
Qed.
Definition unjudged (st : cstate) (t : nat) : Prop := match cs_xfers st !! t with None => True | Some x => forall v, x_phase x <> Done v end.
Lemma judged_once ls : forall st st', cinv st -> crun st ls = Some st' ->
  NoDup (omap judged (events st ls)) /\ forall t, t ∈ omap judged (events st ls) -> unjudged st t.
Proof.
  induction ls as [|l ls IH]; intros st st' Hi H; cbn in H; [split; [constructor|]; intros t Ht; by apply elem_of_nil in Ht|]. apply bind_Some in H as (st1 & E & H).
  destruct (IH _ _ (cinv_step _ _ _ Hi E) H) as [Hd Hp]. cbn [events]. rewrite E.
  assert (Hmono : forall t, unjudged st1 t -> unjudged st t).
  { intros t Ht. unfold unjudged in *. destruct (cs_xfers st !! t) as [x|] eqn:Ex; [|done]. destruct (step_xfer _ _ _ _ _ Hi E Ex) as (x' & Ex' & _ & Hc). rewrite Ex' in Ht.
    destruct Hc as [->|[Hc _]]; [done|done]. }
  assert (Hcase : omap judged (event_of st l) = [] \/ exists t, omap judged (event_of st l) = [t] /\ unjudged st t /\ ~ unjudged st1 t).
  { destruct l as [b|b|u|u|u|u|k|k|k|k b|k]; try (by left); cbn [event_of cstep] in *.
    - left. by repeat case_match.
    - destruct (cs_sess st !! k) as [y|] eqn:Ey; [|done]. destruct (ss_phase y) as [| |[t|]|] eqn:Ep; try done. injection E as <-. right. exists t. split; [done|].
      destruct Hi as (Hs & Hx & Ht). destruct (Hs _ _ Ey) as (_ & _ & H3). rewrite Ep in H3. destruct H3 as [[a Ha] _]. unfold unjudged. cbn [cs_xfers]. rewrite alter_lookup, decide_True, Ha by done. cbn.
      split; [done|]. intros Hn. by eapply Hn. }
  rewrite omap_app. destruct Hcase as [->|(t & -> & Hp1 & Hp2)]; cbn [app].
  - split; [done|]. intros t Ht. by apply Hmono, Hp.
  - split; [constructor; [|done]; intros Hin; by apply Hp2, Hp|]. intros t' Ht'. apply elem_of_cons in Ht' as [->|Ht']; [done|]. by apply Hmono, Hp.
Qed.
Lemma run_sess ls : forall st st' s x, crun st ls = Some st' -> cs_sess st !! s = Some x -> exists x', cs_sess st' !! s = Some x' /\ ss_addr x' = ss_addr x.
Proof.
  induction ls as [|l ls IH]; intros st st' s x H Hx; cbn in H; [simplify_eq; by exists x|]. apply bind_Some in H as (st1 & E & H).
  destruct (step_sess _ _ _ _ _ E Hx) as (x1 & Hx1 & Ha & _). destruct (IH _ _ _ _ H Hx1) as (x' & Hx' & Ha'). exists x'. split; [done|]. congruence.
Qed.
(** a success comes from a session to the address that took the bundle *)
Lemma running_from st l st' s y' t : cstep st l = Some st' -> cs_sess st' !! s = Some y' -> ss_phase y' = Running (Some t) ->
  (exists y, cs_sess st !! s = Some y /\ ss_phase y = Running (Some t)) \/ Took s t ∈ event_of st l.
Proof.
  intros H Hy Hp.
  assert (Hgone : forall k, alter gone k (cs_sess st) !! s = Some y' -> exists y, cs_sess st !! s = Some y /\ ss_phase y = Running (Some t)).
  { intros k. rewrite alter_lookup. case_decide; [|intros; by exists y']. destruct (cs_sess st !! s); [|done]. cbn. intros [= <-]. done. }
  destruct l as [b|b|u|u|u|u|k|k|k|k b|k]; cbn [cstep event_of] in *.
  - injection H as <-. left. by exists y'.
  - injection H as <-. cbn [cs_sess] in Hy. rewrite snoc_lookup in Hy. case_decide; [by simplify_eq|]. left. by exists y'.
  - destruct (cs_xfers st !! u) as [[c []]|]; try done. left.
    assert (Hc : cs_sess st' = cs_sess st \/ cs_sess st' = cs_sess st ++ [Sess c true Connecting []]) by (repeat case_match; injection H as <-; cbn [cs_sess]; auto).
    destruct Hc as [E|E]; rewrite E in Hy; [by exists y'|]. rewrite snoc_lookup in Hy. case_decide; [by simplify_eq|]. by exists y'.
  - destruct (cs_xfers st !! u) as [[c [|k|k|k|]]|] eqn:Eu; try done. injection H as <-. cbn [cs_sess] in Hy. rewrite alter_lookup in Hy. left. case_decide; [|by exists y']. destruct (cs_sess st !! s); [|done]. by simplify_eq/=.
  - destruct (cs_xfers st !! u) as [[c [|k|k|k|]]|] eqn:Eu; try done. injection H as <-. left. apply (Hgone k). exact Hy.
  - destruct (cs_xfers st !! u) as [[c [|k|k|k|]]|]; try done. destruct (cs_sess st !! k) as [z|] eqn:Ez; [|injection H as <-; left; by exists y'].
    assert (Hc : cs_sess st' = cs_sess st \/ cs_sess st' = <[k := with_queue (ss_queue z ++ [u]) z]> (cs_sess st)).
    { destruct z as [ya yact [| |cur|] yq]; cbn in *; try (right; case_bool_decide; [by injection H as <-|done]). left. by injection H as <-. }
    left. destruct Hc as [E|E]; rewrite E in Hy; [by exists y'|]. rewrite (insert_lookup _ _ _ _ _ Ez) in Hy. case_decide; [|by exists y']. subst k. injection Hy as <-. by exists z.
  - destruct (cs_sess st !! k) as [z|] eqn:Ez; [|done]. destruct (ss_phase z) eqn:Ep; try done. injection H as <-. cbn [cs_sess] in Hy. left. rewrite (insert_lookup _ _ _ _ _ Ez) in Hy. case_decide; [|by exists y']. by simplify_eq/=.
  - destruct (cs_sess st !! k) as [z|] eqn:Ez; [|done]. destruct (ss_phase z) eqn:Ep; try done. injection H as <-. left. apply (Hgone k). exact Hy.
  - destruct (cs_sess st !! k) as [z|] eqn:Ez; [|done]. destruct (ss_phase z) as [| |[]|] eqn:Ep; try done. destruct (ss_queue z) as [|u q] eqn:Eq; [done|]. injection H as <-. cbn [cs_sess] in Hy. rewrite (insert_lookup _ _ _ _ _ Ez) in Hy.
    case_decide; [|left; by exists y']. right. subst k. injection Hy as <-. cbn in Hp. injection Hp as <-. by left.
  - destruct (cs_sess st !! k) as [z|] eqn:Ez; [|done]. destruct (ss_phase z) as [| |[u|]|] eqn:Ep; try done. injection H as <-. cbn [cs_sess] in Hy. rewrite (insert_lookup _ _ _ _ _ Ez) in Hy. case_decide; [|left; by exists y']. by simplify_eq/=.
  - destruct (cs_sess st !! k) as [z|] eqn:Ez; [|done]. destruct (ss_phase z) eqn:Ep; try done. injection H as <-. left. apply (Hgone k). exact Hy.
Qed.
Lemma step_new st l st' t x : cstep st l = Some st' -> cs_xfers st !! t = None -> cs_xfers st' !! t = Some x -> x_phase x = Fresh.
Proof.
  intros H Hn Hx. apply lookup_ge_None in Hn.
  destruct l as [b|b|u|u|u|u|k|k|k|k b|k]; cbn [cstep] in H.
  - injection H as <-. cbn [cs_xfers] in Hx. rewrite snoc_lookup in Hx. case_decide; [by injection Hx as <-|]. rewrite lookup_ge_None_2 in Hx by done. done.
  - injection H as <-. cbn in Hx. by rewrite lookup_ge_None_2 in Hx.
  - exfalso. apply lookup_lt_Some in Hx. repeat case_match; simplify_eq/=; rewrite ?insert_length in Hx; lia.
  - exfalso. apply lookup_lt_Some in Hx. repeat case_match; simplify_eq/=; rewrite ?insert_length in Hx; lia.
  - exfalso. apply lookup_lt_Some in Hx. repeat case_match; simplify_eq/=. unfold abandon in Hx. rewrite map_length, insert_length in Hx. lia.
  - exfalso. apply lookup_lt_Some in Hx. repeat case_match; simplify_eq/=; rewrite ?insert_length in Hx; lia.
  - exfalso. apply lookup_lt_Some in Hx. repeat case_match; simplify_eq/=; lia.
  - exfalso. apply lookup_lt_Some in Hx. repeat case_match; simplify_eq/=. unfold abandon in Hx. rewrite map_length in Hx. lia.
  - exfalso. apply lookup_lt_Some in Hx. repeat case_match; simplify_eq/=; lia.
  - exfalso. apply lookup_lt_Some in Hx. repeat case_match; simplify_eq/=. rewrite alter_length in Hx. lia.
  - exfalso. apply lookup_lt_Some in Hx. repeat case_match; simplify_eq/=. unfold abandon in Hx. rewrite map_length in Hx. lia.
Qed.
Lemma run_done ls : forall st st' t a v, cinv st -> crun st ls = Some st' -> cs_xfers st !! t = Some (Xfer a (Done v)) -> cs_xfers st' !! t = Some (Xfer a (Done v)).
Proof.
  induction ls as [|l ls IH]; intros st st' t a v Hi H Hx; cbn in H; [by simplify_eq|]. apply bind_Some in H as (st1 & E & H).
  destruct (step_xfer _ _ _ _ _ Hi E Hx) as (x' & Hx' & _ & [->|[Hc _]]); [|by destruct (Hc v)]. eapply IH; [by eapply cinv_step|done..].
Qed.
Lemma success_from ls : forall st st' t a, cinv st -> crun st ls = Some st' -> cs_xfers st' !! t = Some (Xfer a (Done (Some true))) -> unjudged st t ->
  exists s x, Gave s t true ∈ events st ls /\ cs_sess st' !! s = Some x /\ ss_addr x = a /\
    (Took s t ∈ events st ls \/ exists y, cs_sess st !! s = Some y /\ ss_phase y = Running (Some t)).
Proof.
  induction ls as [|l ls IH]; intros st st' t a Hi H Hd Hu; cbn in H.
  - simplify_eq. unfold unjudged in Hu. rewrite Hd in Hu. by destruct (Hu (Some true)).
  - apply bind_Some in H as (st1 & E & H). cbn [events]. rewrite E. pose proof (cinv_step _ _ _ Hi E) as Hi1.
    assert (Hc : unjudged st1 t \/ exists c v, cs_xfers st1 !! t = Some (Xfer c (Done v))).
    { unfold unjudged. destruct (cs_xfers st1 !! t) as [[c []]|]; try (by left); right; eauto. }
    destruct Hc as [Hc|(c & v & Hc)].
    + destruct (IH _ _ _ _ Hi1 H Hd Hc) as (s & x & H1 & H2 & H3 & H4). exists s, x. split; [apply elem_of_app; by right|]. split; [done|]. split; [done|].
      destruct H4 as [H4|(y & Hy & Hp)]; [left; apply elem_of_app; by right|]. destruct (running_from _ _ _ _ _ _ E Hy Hp) as [H5|H5]; [by right|]. left. apply elem_of_app. by left.
    + pose proof (run_done _ _ _ _ _ _ Hi1 H Hc) as Hd'. rewrite Hd in Hd'. injection Hd' as <- <-. unfold unjudged in Hu.
      destruct (cs_xfers st !! t) as [x|] eqn:Ex; [|by pose proof (step_new _ _ _ _ _ E Ex Hc)].
      destruct (step_xfer _ _ _ _ _ Hi E Ex) as (x' & Ex' & Ha & Hs). rewrite Hc in Ex'. injection Ex' as <-. destruct Hs as [<-|[_ Hs]]; [by destruct (Hu (Some true))|]. cbn in Hs, Ha.
      destruct Hs as (s & y & -> & Hy & Hp). destruct Hi as (Hi_s & Hi_x & _). destruct (Hi_s _ _ Hy) as (_ & _ & H3). rewrite Hp in H3. destruct H3 as [[b Hb] _]. pose proof (Hi_x _ _ Hb) as (z & Hz & Hza & _). rewrite Hy in Hz. injection Hz as <-. cbn in Hza.
      rewrite Ex in Hb. injection Hb as ->. cbn in Ha. subst b.
      destruct (step_sess _ _ _ _ _ E Hy) as (y1 & Hy1 & Hya1 & _). destruct (run_sess _ _ _ _ _ H Hy1) as (y2 & Hy2 & Hya2). exists s, y2. split; [|split; [done|split; [congruence|]]].
      * apply elem_of_app. left. cbn. rewrite Hy, Hp. by left.
      * right. by exists y.
Qed.
(** the transfer taken by a session is one to its address *)
Lemma took_addr ls : forall st st' s t, cinv st -> crun st ls = Some st' -> Took s t ∈ events st ls ->
  exists x y, cs_sess st' !! s = Some x /\ cs_xfers st' !! t = Some y /\ ss_addr x = x_addr y.
Proof.
  induction ls as [|l ls IH]; intros st st' s t Hi H Ht; cbn in H; [by apply elem_of_nil in Ht|]. apply bind_Some in H as (st1 & E & H). pose proof (cinv_step _ _ _ Hi E) as Hi1.
  cbn [events] in Ht. rewrite E in Ht. apply elem_of_app in Ht as [Ht|Ht]; [|by eapply IH].
  destruct l as [b|b|u|u|u|u|k|k|k|k b|k]; cbn [event_of] in Ht; try (by apply elem_of_nil in Ht).
  - destruct (cs_sess st !! k) as [y|] eqn:Ey; [|by apply elem_of_nil in Ht]. destruct (ss_queue y) as [|u q] eqn:Eq; [by apply elem_of_nil in Ht|]. apply elem_of_list_singleton in Ht. injection Ht as <- <-.
    destruct Hi as (Hs & Hx & Htb). destruct (Hs _ _ Ey) as (_ & H2 & _). destruct (H2 t ltac:(rewrite Eq; by left)) as [a Ha]. pose proof (Hx _ _ Ha) as (z & Hz & Hza & _). rewrite Ey in Hz. injection Hz as <-. cbn in Hza.
    destruct (run_sess (LTake s :: ls) st st' s y) as (x' & Hx' & Hxa); [cbn [crun]; by rewrite E|done|].
    assert (Hrun : forall ls st st' t x, cinv st -> crun st ls = Some st' -> cs_xfers st !! t = Some x -> exists x', cs_xfers st' !! t = Some x' /\ x_addr x' = x_addr x).
    { clear. induction ls as [|l ls IH]; intros st st' t x Hi H Hx; cbn in H; [simplify_eq; by exists x|]. apply bind_Some in H as (st1 & E & H). destruct (step_xfer _ _ _ _ _ Hi E Hx) as (x1 & Hx1 & Ha1 & _).
      destruct (IH _ _ _ _ (cinv_step _ _ _ Hi E) H Hx1) as (x2 & Hx2 & Ha2). exists x2. split; [done|]. congruence. }
    destruct (Hrun (LTake s :: ls) st st' t _ ltac:(by split) ltac:(cbn [crun]; by rewrite E) Ha) as (t' & Ht' & Hta). exists x', t'. split; [done|]. split; [done|]. cbn in Hta. congruence.
  - repeat case_match; try (by apply elem_of_nil in Ht). by apply elem_of_list_singleton in Ht.
Qed.

(** ** A session whose peer stays silent *)
Definition news (s : nat) (l : label) : bool := match l with LAgreed k | LBroken k => bool_decide (k = s) | _ => false end.
Definition held (s t : nat) (st : cstate) : Prop :=
  exists a y, cs_xfers st !! t = Some (Xfer a (Queued s)) /\ cs_sess st !! s = Some y /\ ss_phase y = Negotiating.
Lemma held_step s t st l st' : cinv st -> held s t st -> news s l = false -> cstep st l = Some st' -> held s t st'.
Proof.
  intros Hi (a & y & Ht & Hy & Hp) Hn H. destruct (Hi) as (Hs & Hx & Htb).
  assert (Hab : forall k, k <> s -> abandon k (cs_xfers st) !! t = Some (Xfer a (Queued s))).
  { intros k Hk. rewrite abandon_lookup, Ht. cbn. rewrite bool_decide_false; [done|congruence]. }
  destruct l as [b|b|u|u|u|u|k|k|k|k b|k]; cbn [cstep] in H.
  - injection H as <-. exists a, y. split; [by apply lookup_app_l_Some|done].
  - injection H as <-. exists a, y. split; [done|]. split; [by apply lookup_app_l_Some|done].
  - destruct (cs_xfers st !! u) as [[c []]|] eqn:Eu; try done. exists a, y. assert (u <> t) by congruence.
    repeat case_match; injection H as <-; cbn [cs_sess cs_xfers]; rewrite (insert_lookup _ _ _ _ _ Eu), decide_False by done; (split; [done|]); (split; [|done]); try done; by apply lookup_app_l_Some.
  - destruct (cs_xfers st !! u) as [[c [|k|k|k|]]|] eqn:Eu; try done. injection H as <-. cbn. destruct (Hx _ _ Eu) as [(z & Hz & _ & Hzp) _]. exists a, y. cbn. rewrite (insert_lookup _ _ _ _ _ Eu), decide_False, alter_lookup, decide_False by congruence. done.
  - destruct (cs_xfers st !! u) as [[c [|k|k|k|]]|] eqn:Eu; try done. injection H as <-. destruct (Hx _ _ Eu) as [(z & Hz & _ & Hzp) _]. assert (k <> s) by congruence. exists a, y. cbn [cs_sess cs_xfers end_session].
    rewrite alter_lookup, decide_False by done. split; [|done]. rewrite abandon_lookup, (insert_lookup _ _ _ _ _ Eu), decide_False by congruence. rewrite <- abandon_lookup. by apply Hab.
  - destruct (cs_xfers st !! u) as [[c [|k|k|k|]]|] eqn:Eu; try done. assert (u <> t) by congruence.
    destruct (cs_sess st !! k) as [z|] eqn:Ez; [|injection H as <-; exists a, y; cbn; by rewrite (insert_lookup _ _ _ _ _ Eu), decide_False].
    assert (Hc : (exists q, cs_xfers st' = <[u := Xfer c q]> (cs_xfers st)) /\ (cs_sess st' = cs_sess st \/ cs_sess st' = <[k := with_queue (ss_queue z ++ [u]) z]> (cs_sess st))).
    { destruct z as [ya yact [| |cur|] yq]; cbn in *; try (case_bool_decide; [injection H as <-|done]; split; [by eexists|by right]). injection H as <-. split; [by eexists|by left]. }
    clear H. destruct Hc as [[q Hq] Hc]. unfold held. rewrite Hq, (insert_lookup _ _ _ _ _ Eu), decide_False by done. destruct Hc as [->| ->]; [by exists a, y|]. rewrite (insert_lookup _ _ _ _ _ Ez). case_decide; [|by exists a, y].
    subst k. rewrite Hy in Ez. injection Ez as <-. exists a, (with_queue (ss_queue y ++ [u]) y). done.
  - destruct (cs_sess st !! k) as [z|] eqn:Ez; [|done]. destruct (ss_phase z) eqn:Ep; try done. injection H as <-. cbn in Hn. apply bool_decide_eq_false in Hn. exists a, y. cbn. by rewrite (insert_lookup _ _ _ _ _ Ez), decide_False.
  - destruct (cs_sess st !! k) as [z|] eqn:Ez; [|done]. destruct (ss_phase z) eqn:Ep; try done. injection H as <-. cbn in Hn. apply bool_decide_eq_false in Hn. exists a, y. cbn [cs_sess cs_xfers end_session]. rewrite alter_lookup, decide_False by done. split; [by apply Hab|done].
  - destruct (cs_sess st !! k) as [z|] eqn:Ez; [|done]. destruct (ss_phase z) as [| |[]|] eqn:Ep; try done. destruct (ss_queue z); [done|]. injection H as <-. exists a, y. cbn. rewrite (insert_lookup _ _ _ _ _ Ez), decide_False by congruence. done.
  - destruct (cs_sess st !! k) as [z|] eqn:Ez; [|done]. destruct (ss_phase z) as [| |[u|]|] eqn:Ep; try done. injection H as <-. assert (k <> s) by congruence. exists a, y. cbn. rewrite (insert_lookup _ _ _ _ _ Ez), decide_False by done. split; [|done].
    rewrite alter_lookup, decide_False; [done|]. intros ->. destruct (Hs _ _ Ez) as (_ & _ & H3). rewrite Ep in H3. destruct H3 as [[c Hc] _]. congruence.
  - destruct (cs_sess st !! k) as [z|] eqn:Ez; [|done]. destruct (ss_phase z) eqn:Ep; try done. injection H as <-. assert (k <> s) by congruence. exists a, y. cbn [cs_sess cs_xfers end_session]. rewrite alter_lookup, decide_False by done. split; [by apply Hab|done].
Qed.
Lemma held_not_over s t st : held s t st -> over st t = false.
Proof. intros (a & y & Ht & _). unfold over. by rewrite Ht. Qed.
Lemma held_run s t ls : forall st st', cinv st -> held s t st -> Forall (fun l => news s l = false) ls -> crun st ls = Some st' -> held s t st'.
Proof.
  induction ls as [|l ls IH]; intros st st' Hi Hh Hn H; cbn in H; [by simplify_eq|]. apply Forall_cons in Hn as [Hn Hns]. apply bind_Some in H as (st1 & E & H).
  eapply IH; [by eapply cinv_step|by eapply held_step|done|done].
Qed.

(** ** The janitor *)
Lemma submit_run g : forall st, crun st (map LSubmit g) = Some (submit_all g st).
Proof.
  induction g as [|a g IH]; intros st; cbn [map crun]; unfold submit_all; cbn [map]; [rewrite app_nil_r; by destruct st|].
  cbn [cstep mbind option_bind]. rewrite IH. unfold submit_all. cbn. by rewrite <- app_assoc.
Qed.
Definition jinv (j : jstate) : Prop := cinv (j_conn j) /\ Forall (fun t => t < length (cs_xfers (j_conn j))) (j_wait j).
Lemma step_length st l st' : cinv st -> cstep st l = Some st' -> length (cs_xfers st) <= length (cs_xfers st').
Proof.
  intros Hi H. destruct (decide (length (cs_xfers st) = 0)) as [->|Hne]; [lia|].
  destruct (lookup_lt_is_Some_2 (cs_xfers st) (length (cs_xfers st) - 1) ltac:(lia)) as [x Hx]. destruct (step_xfer _ _ _ _ _ Hi H Hx) as (x' & Hx' & _). apply lookup_lt_Some in Hx'. lia.
Qed.
Lemma jinv_step j l j' : jinv j -> jstep j l = Some j' -> jinv j'.
Proof.
  intros [Hc Hw] H. destruct l as [gs| |l]; cbn in H.
  - destruct (j_todo j); [|done]. case_match; [|done]. injection H as <-. split; [done|constructor].
  - destruct (j_todo j) as [|g gs]; [done|]. case_match; [|done]. injection H as <-. split; cbn [j_conn j_wait].
    + eapply crun_inv; [exact Hc|apply submit_run].
    + apply Forall_forall. intros t Ht. apply elem_of_seq in Ht. cbn. rewrite app_length, map_length. lia.
  - apply bind_Some in H as (c & E & H). injection H as <-. split; cbn [j_conn j_wait]; [by eapply cinv_step|]. eapply Forall_impl; [exact Hw|]. intros t Ht. pose proof (step_length _ _ _ Hc E). cbn in *. lia.
Qed.
Lemma jinv_run ls : forall j j', jinv j -> jrun j ls = Some j' -> jinv j'.
Proof. induction ls as [|l ls IH]; intros j j' Hi H; cbn in H; [by simplify_eq|]. apply bind_Some in H as (j1 & E & H). eapply IH; [|done]. by eapply jinv_step. Qed.
Lemma jinv_0 : jinv j0.
Proof. split; [apply cinv_0|constructor]. Qed.
(** steps within a round *)
Definition jinner (l : jlabel) : bool := match l with JRound _ => false | JNext => true | JConn l => inner l end.
Definition jstuck (j : jstate) : Prop := forall l, jinner l = true -> jstep j l = None.
Lemma jstuck_round j : jinv j -> jstuck j -> forall gs, exists j', jstep j (JRound gs) = Some j' /\ j_rounds j' = S (j_rounds j).
Proof.
  intros [Hc Hw] Hst gs.
  assert (Hstuck : stuck (j_conn j)).
  { intros l Hl. pose proof (Hst (JConn l) Hl) as H. cbn in H. destruct (cstep (j_conn j) l); [done|done]. }
  assert (Hover : forallb (over (j_conn j)) (j_wait j) = true).
  { apply forallb_forall. intros t Ht. rewrite Forall_forall in Hw. apply elem_of_list_In, Hw in Ht. apply lookup_lt_is_Some in Ht as [x Hx]. by eapply stuck_over. }
  cbn. destruct (j_todo j) as [|g gs'] eqn:Et; [rewrite Hover; by eexists|]. pose proof (Hst JNext eq_refl) as H. cbn in H. by rewrite Et, Hover in H.
Qed.
Definition jweight (j : jstate) : nat := weight (j_conn j) + sum_list_with (fun g => S (10 * length g)) (j_todo j).
Lemma jstep_weight j l j' : jinv j -> jinner l = true -> jstep j l = Some j' -> jweight j' < jweight j.
Proof.
  intros [Hc Hw] Hl H. unfold jweight. destruct l as [gs| |l]; cbn in H; [done| |].
  - destruct (j_todo j) as [|g gs]; [done|]. case_match; [|done]. injection H as <-. cbn [j_conn j_todo sum_list_with]. unfold weight, submit_all. cbn [cs_xfers cs_sess]. rewrite sum_app.
    assert (Hg : sum_list_with tweight (map (fun a => Xfer a Fresh) g) = 10 * length g) by (clear; induction g as [|a g IH]; cbn [map sum_list_with length]; [done|]; rewrite IH; unfold tweight; cbn; lia). rewrite Hg. lia.
  - apply bind_Some in H as (c & E & H). injection H as <-. cbn [j_conn j_todo]. pose proof (step_weight _ _ _ Hc Hl E). lia.
Qed.
Lemma jrun_weight ls : forall j j', jinv j -> Forall (fun l => jinner l = true) ls -> jrun j ls = Some j' -> jweight j' + length ls <= jweight j.
Proof.
  induction ls as [|l ls IH]; intros j j' Hi Hl H; cbn in H; [simplify_eq; cbn; lia|]. apply Forall_cons in Hl as [Hl Hls]. apply bind_Some in H as (j1 & E & H).
  pose proof (jstep_weight _ _ _ Hi Hl E). specialize (IH _ _ (jinv_step _ _ _ Hi E) Hls H). cbn. lia.
Qed.
(** a round with a transfer held by a silent session never ends *)
Definition jnews (s : nat) (l : jlabel) : bool := match l with JConn l => news s l | _ => false end.
Definition jheld (s t : nat) (j : jstate) : Prop := held s t (j_conn j) /\ t ∈ j_wait j.
Lemma jheld_step s t j l j' : jinv j -> jheld s t j -> jnews s l = false -> jstep j l = Some j' -> jheld s t j' /\ j_rounds j' = j_rounds j.
Proof.
  intros [Hc Hw] [Hh Ht] Hn H.
  assert (Hno : forallb (over (j_conn j)) (j_wait j) = false).
  { apply not_true_is_false. intros E. rewrite forallb_forall in E. apply elem_of_list_In, E in Ht. by rewrite (held_not_over _ _ _ Hh) in Ht. }
  destruct l as [gs| |l]; cbn in H.
  - rewrite Hno in H. by case_match.
  - rewrite Hno in H. by case_match.
  - apply bind_Some in H as (c & E & H). injection H as <-. split; [|done]. split; [|done]. cbn [j_conn]. by eapply held_step.
Qed.
Lemma jheld_run s t ls : forall j j', jinv j -> jheld s t j -> Forall (fun l => jnews s l = false) ls -> jrun j ls = Some j' -> j_rounds j' = j_rounds j.
Proof.
  induction ls as [|l ls IH]; intros j j' Hi Hh Hn H; cbn in H; [by simplify_eq|]. apply Forall_cons in Hn as [Hn Hns]. apply bind_Some in H as (j1 & E & H).
  destruct (jheld_step _ _ _ _ _ Hi Hh Hn E) as [Hh1 Hr]. rewrite <- Hr. eapply IH; [by eapply jinv_step|done|done|done].
Qed.
