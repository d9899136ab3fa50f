(** Proofs for TcpclLink.v. *)
From Verif Require Import Bytes TcpclWire TcpclWireProofs TcpclSession TcpclSessionProofs TcpclPair TcpclPairProofs TcpclCancel TcpclExtraProofs TcpclLink Core.
From stdpp Require Import prelude strings.
From Coq Require Import NArith Lia ZifyNat ZifyN ZifyBool.
Open Scope N_scope.

(** ** Reading session parameters *)
Lemma uint_bytes k s a rest : bytes_ok s -> read_uint k s = ROk a rest -> s = be k a ++ rest /\ bytes_ok rest.
Proof.
  intros Hok H. apply read_uint_shorter in H as (b & -> & Hb & ->). apply Forall_app in Hok as [H1 H2]. split; [|done].
  assert (E : length b = k) by (unfold blen in Hb; lia). rewrite <- E. by rewrite be_unbe.
Qed.
Lemma exact_bytes n s a rest : bytes_ok s -> read_exact n s = ROk a rest -> s = a ++ rest /\ blen a = n /\ bytes_ok rest.
Proof. intros Hok H. apply read_exact_shorter in H as [-> H]. apply Forall_app in Hok as [_ Hok]. done. Qed.
Lemma read_init u s d rest : bytes_ok s -> read u s = ROk (PSessInit d) rest ->
  exists raw, s = write (PSessInit (SessInit (si_keepalive d) (si_segment_mru d) (si_transfer_mru d) raw)) ++ rest /\
    blen raw < 2^16 /\ si_node_id d = u raw /\ bytes_ok rest.
Proof.
  intros Hok. unfold read. destruct (read_uint 1 s) as [ty s0| |] eqn:E0; cbn [rbind]; [|done..].
  destruct (uint_bytes _ _ _ _ Hok E0) as [-> Hok0]. clear E0 Hok.
  destruct (N.eqb_spec ty 1) as [->|].
  { repeat match goal with |- context [rbind ?m _] => destruct m as [? ?| |]; cbn [rbind]; [|done..] end. done. }
  destruct (N.eqb_spec ty 2) as [->|].
  { repeat match goal with |- context [rbind ?m _] => destruct m as [? ?| |]; cbn [rbind]; [|done..] end. done. }
  destruct (N.eqb_spec ty 3) as [->|].
  { destruct (read_uint 1 s0); cbn [rbind]; [|done..]. destruct (refuse_of_code _); [|done]. destruct (read_uint 8 _); done. }
  destruct (N.eqb_spec ty 4) as [->|]; [done|].
  destruct (N.eqb_spec ty 5) as [->|].
  { destruct (read_uint 1 s0); cbn [rbind]; [|done..]. destruct (read_uint 1 _); cbn [rbind]; [|done..]. by destruct (term_of_code _). }
  destruct (N.eqb_spec ty 7) as [->|].
  - destruct (read_uint 2 s0) as [ka s1| |] eqn:E1; cbn [rbind]; [|done..]. destruct (uint_bytes _ _ _ _ Hok0 E1) as [-> Hok1].
    destruct (read_uint 8 s1) as [sm s2| |] eqn:E2; cbn [rbind]; [|done..]. destruct (uint_bytes _ _ _ _ Hok1 E2) as [-> Hok2].
    destruct (read_uint 8 s2) as [tm s3| |] eqn:E3; cbn [rbind]; [|done..]. destruct (uint_bytes _ _ _ _ Hok2 E3) as [-> Hok3].
    destruct (read_uint 2 s3) as [nl s4| |] eqn:E4; cbn [rbind]; [|done..]. pose proof E4 as E4'. destruct (uint_bytes _ _ _ _ Hok3 E4) as [-> Hok4].
    destruct (read_exact nl s4) as [raw s5| |] eqn:E5; cbn [rbind]; [|done..]. destruct (exact_bytes _ _ _ _ Hok4 E5) as (-> & Hl & Hok5).
    destruct (read_uint 4 s5) as [ei s6| |] eqn:E6; cbn [rbind]; [|done..]. destruct (uint_bytes _ _ _ _ Hok5 E6) as [-> Hok6].
    destruct (N.eqb_spec ei 0) as [->|]; cbn [negb]; [|done]. intros [= <- <-]. exists raw. cbn [si_keepalive si_segment_mru si_transfer_mru si_node_id write].
    rewrite Hl. split; [by rewrite <- ?app_assoc|]. split; [|done].
    apply read_uint_shorter in E4' as (b & Hb & Hb2 & ->). apply Forall_app in Hok3 as [Hok3 _].
    assert (Hbb : b = be 2 (unbe b)). { rewrite Hb in *. apply app_inj_1 in Hb as [-> _]; [done|]. rewrite be_length. unfold blen in Hb2. lia. }
    rewrite Hbb. pose proof (unbe_bound (be 2 (unbe b)) (be_ok _ _)) as Hx. rewrite be_length in Hx. exact Hx.
  - destruct (N.eqb_spec ty 6) as [->|].
    { destruct (read_uint 1 s0); cbn [rbind]; [|done..]. destruct (read_uint 1 _); cbn [rbind]; [|done..]. by destruct (reject_of_code _). }
    destruct (N.eqb_spec ty 100) as [->|]; [|done].
    destruct (read_exact 6 s0) as [b s1| |]; cbn [rbind]; [|done..]. destruct (negb _); [done|].
    destruct (b !! 4%nat); [|done]. destruct (b !! 5%nat); [|done]. by destruct (negb _).
Qed.

(** ** One connection *)
Definition harrived (es : list hev) : bytes := concat (map (fun e => match e with HArrive b => b | _ => [] end) es).
Lemma harrived_snoc es e : harrived (es ++ [e]) = harrived es ++ match e with HArrive b => b | _ => [] end.
Proof. unfold harrived. rewrite map_app, concat_app. cbn. by rewrite app_nil_r. Qed.

Section One.
  Variable utf8_lossy : bytes -> bytes.
  Variable parse_id : bytes -> option bytes.
  Variable parse_node : bytes -> option eid.
  Variable active refuse : bool.
  Variable own : bytes.
  Notation hrun := (hrun utf8_lossy parse_id parse_node active refuse own).
  Notation poll := (poll utf8_lossy parse_id parse_node active refuse own).
  Notation hstep := (hstep utf8_lossy parse_id parse_node active refuse own).
  Definition hdr (fl : N) : bytes := [100; 116; 110; 33; 4; fl].

  Record started (es : list hev) (d : sess_init) (new : list eid) : Prop := {
    sd_stream : exists fl ka raw rest, harrived es = hdr fl ++ write (PSessInit (SessInit ka (si_segment_mru d) (si_transfer_mru d) raw)) ++ rest /\
      blen raw < 2^16 /\ si_node_id d = utf8_lossy raw /\ si_keepalive d = N.min 30 ka;
    sd_node : exists e, parse_node (si_node_id d) = Some e /\
      (active = true -> new = []) /\
      (active = false -> exists n v, eid_node e = Some n /\ HPoll v ∈ es /\ new = if v_known v n then [] else [e])
  }.
  Definition hinv (es : list hev) (c : conn) (buf : bytes) : Prop :=
    match c_phase c with
    | Hello => harrived es = c_held c ++ buf /\ c_log c = [] /\ c_new c = []
    | Offer => (exists fl, harrived es = hdr fl ++ c_held c ++ buf) /\ c_log c = [] /\ c_new c = []
    | Live d s => started es d (c_new c)
    | Dead => c_log c = [] /\ c_new c = []
    end.
  Lemma started_more es e d new : started es d new -> started (es ++ [e]) d new.
  Proof.
    intros [(fl & ka & raw & rest & H1 & H2 & H3 & H4) (ee & H5 & H6 & H7)]. split.
    - exists fl, ka, raw, (rest ++ match e with HArrive b => b | _ => [] end). rewrite harrived_snoc, H1. split; [by rewrite <- !app_assoc|done].
    - exists ee. split; [done|]. split; [done|]. intros Ha. destruct (H7 Ha) as (n & v & ? & Hv & ?). exists n, v. split; [done|]. split; [|done].
      apply elem_of_app. by left.
  Qed.
  Lemma hrun_snoc es e : hrun (es ++ [e]) = hstep (hrun es) e.
  Proof. unfold TcpclLink.hrun. by rewrite fold_left_app. Qed.

  Lemma hrun_inv es : bytes_ok (harrived es) -> hinv es (fst (hrun es)) (snd (hrun es)).
  Proof.
    induction es as [|e es IH] using rev_ind; intros Hok; [done|].
    rewrite harrived_snoc in Hok. assert (Hok' := Hok). apply Forall_app in Hok' as [Hok1 _]. specialize (IH Hok1). rewrite hrun_snoc.
    destruct (hrun es) as [c buf]. cbn [fst snd] in *. destruct e as [b|v|e|]; cbn [TcpclLink.hstep fst snd].
    - unfold hinv in *. destruct (c_phase c).
      + destruct IH as (IH & ? & ?). rewrite harrived_snoc, IH. split; [by rewrite <- app_assoc|done].
      + destruct IH as ([fl IH] & ? & ?). rewrite harrived_snoc, IH. split; [exists fl; by rewrite <- !app_assoc|done].
      + by apply started_more.
      + done.
    - unfold TcpclLink.poll. unfold hinv in IH. destruct (c_phase c) as [| |d s|] eqn:Ep; cbn [fst snd].
      + destruct IH as (IH & Hl & Hn). destruct (receive_contact_header (c_held c ++ buf)) as [t rest| |] eqn:E; cbn [fst snd]; unfold hinv; cbn.
        * apply (contact_header_only utf8_lossy) in E as (fl & E & _). rewrite harrived_snoc, app_nil_r, IH, E. split; [by exists fl|done].
        * rewrite harrived_snoc, !app_nil_r. done.
        * done.
      + destruct IH as ([fl IH] & Hl & Hn). destruct (read utf8_lossy (c_held c ++ buf)) as [p rest| |] eqn:E; cbn [fst snd].
        * destruct p; try done. assert (Hb : bytes_ok (c_held c ++ buf)). { rewrite IH in Hok1. by apply Forall_app in Hok1 as [_ Hok1]. }
          destruct (read_init _ _ _ _ Hb E) as (raw & Er & Hr & Hid & _). unfold greet.
          destruct (parse_node (si_node_id d)) as [ee|] eqn:Ee; [|done].
          assert (Hs : exists fl ka raw0 rest0, harrived (es ++ [HPoll v]) = hdr fl ++ write (PSessInit (SessInit ka (si_segment_mru d) (si_transfer_mru d) raw0)) ++ rest0 /\
             blen raw0 < 2 ^ 16 /\ si_node_id d = utf8_lossy raw0 /\ N.min 30 (si_keepalive d) = N.min 30 ka).
          { exists fl, (si_keepalive d), raw, rest. rewrite harrived_snoc, app_nil_r, IH, Er. done. }
          destruct active eqn:Ea.
          { unfold hinv. cbn. rewrite Hn. split; [exact Hs|]. exists ee. cbn. split; [done|]. split; [done|]. by rewrite Ea. }
          destruct (eid_node ee) as [n|] eqn:En; [|done]. cbn [fst snd]. unfold hinv. cbn. rewrite Hn. split; [exact Hs|].
          exists ee. cbn. split; [done|]. split; [by rewrite Ea|]. intros _. exists n, v. split; [done|]. split; [|done]. apply elem_of_app. right. by left.
        * unfold hinv. cbn. split; [|done]. exists fl. by rewrite harrived_snoc, !app_nil_r.
        * done.
      + assert (IH2 := started_more es (HPoll v) _ _ IH). destruct (is_terminated s); [unfold hinv; cbn; by rewrite Ep|].
        destruct (read utf8_lossy _); done.
      + unfold hinv. cbn. by rewrite Ep.
    - assert (G : forall ev, hinv es (other_branch parse_id refuse c ev) buf).
      { intros ev. unfold other_branch. destruct (c_phase c) eqn:Ep; try exact IH. destruct (is_terminated s) eqn:Et; [exact IH|].
        unfold hinv in IH. rewrite Ep in IH. assert (HR : forall e0, hinv es (react1 parse_id refuse c remote s e0 []) buf) by done.
        destruct ev; try apply HR; destruct (s_send s); try apply HR; unfold hinv; by rewrite Ep. }
      assert (G2 : hinv es (match e with EvSubmit _ _ _ | EvQueueClosed | EvTimeout => other_branch parse_id refuse c e | _ => c end) buf).
      { destruct e; try exact IH; apply G. }
      revert G2. generalize (match e with EvSubmit _ _ _ | EvQueueClosed | EvTimeout => other_branch parse_id refuse c e | _ => c end).
      intros c0. unfold hinv. rewrite harrived_snoc, app_nil_r. destruct (c_phase c0); try done. apply started_more.
    - unfold fail. destruct (c_phase c) eqn:Ep; try done.
      + unfold hinv in IH. rewrite Ep in IH. by destruct IH as (_ & ? & ?).
      + unfold hinv in IH. rewrite Ep in IH. by destruct IH as (_ & ? & ?).
      + destruct (is_terminated s).
        * unfold hinv in *. rewrite Ep in *. by apply started_more.
        * unfold hinv in *. rewrite Ep in *. cbn. by apply started_more.
      + unfold hinv in IH. rewrite Ep in IH. done.
  Qed.

  (** an acceptable beginning is accepted *)
  Lemma hello_prefix s x y : s ++ x = y -> match receive_contact_header s with ROk t rest => receive_contact_header y = ROk t (rest ++ x) | RErr => receive_contact_header y = RErr | RWait => True end.
  Proof.
    intros <-. assert (M : mono receive_contact_header).
    { unfold receive_contact_header. apply mono_bind; [apply mono_exact|]. intros b. destruct (negb _); [apply mono_err|].
      destruct (b !! 4%nat); [|apply mono_err]. destruct (b !! 5%nat); [|apply mono_err]. destruct (negb _); [apply mono_err|apply mono_ret]. }
    destruct (M s x) as [H1 H2]. destruct (receive_contact_header s); [by apply H1|done|by apply H2].
  Qed.
  Lemma read_more s x y : s ++ x = y -> match read utf8_lossy s with ROk p rest => read utf8_lossy y = ROk p (rest ++ x) | RErr => read utf8_lossy y = RErr | RWait => True end.
  Proof. intros <-. destruct (mono_read utf8_lossy s x) as [H1 H2]. destruct (read utf8_lossy s); [by apply H1|done|by apply H2]. Qed.
  Lemma hdr_ok fl rest : receive_contact_header (hdr fl ++ rest) = ROk (N.testbit fl 0) rest.
  Proof. unfold receive_contact_header. rewrite read_exact_app' by done. done. Qed.
  Definition welcome (i : sess_init) : Prop :=
    exists e, parse_node (si_node_id i) = Some e /\ (active = false -> eid_node e <> None).
  Definition hopen (i : sess_init) (T2 : bytes) (fl : N) (x : bytes) (c : conn) (buf : bytes) : Prop :=
    match c_phase c with
    | Hello => c_held c ++ buf ++ x = hdr fl ++ T2
    | Offer => c_held c ++ buf ++ x = T2
    | Live d _ => d = snd (negotiate (local_params own) i)
    | Dead => False
    end.
  Lemma greet_welcome v i : welcome i -> is_Some (greet parse_node active v i).
  Proof. intros (e & He & Hn). unfold greet. rewrite He. destruct active; [by eexists|]. destruct (eid_node e); [by eexists|]. by destruct Hn. Qed.
  Lemma hopen_poll fl i T2 rest x c buf v : read utf8_lossy T2 = ROk (PSessInit i) rest -> welcome i -> hopen i T2 fl x c buf ->
    hopen i T2 fl x (fst (poll c v buf)) (snd (poll c v buf)).
  Proof.
    intros Hi Hw H. unfold hopen in H. unfold TcpclLink.poll. destruct (c_phase c) as [| |d s|] eqn:Ep; try done.
    - rewrite app_assoc in H. pose proof (hello_prefix _ _ _ H) as P. rewrite hdr_ok in P.
      destruct (receive_contact_header (c_held c ++ buf)) as [t r| |] eqn:E; cbn [fst snd]; unfold hopen; cbn.
      + injection P as _ P. done.
      + done.
      + done.
    - rewrite app_assoc in H. pose proof (read_more _ _ _ H) as P. rewrite Hi in P.
      destruct (read utf8_lossy (c_held c ++ buf)) as [p r| |] eqn:E; cbn [fst snd].
      + injection P as <- P. destruct (greet_welcome v i Hw) as [l ->]. done.
      + unfold hopen. cbn. done.
      + done.
    - unfold hopen. destruct (is_terminated s); cbn [fst snd]; [by rewrite Ep|]. destruct (read utf8_lossy (c_held c ++ buf)); exact H.
  Qed.
  Lemma hopen_run fl i T2 rest es x : HFail ∉ es -> read utf8_lossy T2 = ROk (PSessInit i) rest -> welcome i ->
    harrived es ++ x = hdr fl ++ T2 -> hopen i T2 fl x (fst (hrun es)) (snd (hrun es)).
  Proof.
    intros Hf Hi Hw. revert x. induction es as [|e es IH] using rev_ind; intros x Hx; [exact Hx|].
    rewrite harrived_snoc, <- app_assoc in Hx. assert (Hf1 : HFail ∉ es) by (intros ?; apply Hf, elem_of_app; by left).
    specialize (IH Hf1 _ Hx). rewrite hrun_snoc. destruct (hrun es) as [c buf]. cbn [fst snd] in *.
    destruct e as [b|v|e|]; cbn [TcpclLink.hstep fst snd].
    - unfold hopen in *. destruct (c_phase c); rewrite <- ?app_assoc; done.
    - by eapply hopen_poll.
    - assert (G : forall ev, hopen i T2 fl x (other_branch parse_id refuse c ev) buf).
      { intros ev. unfold other_branch. destruct (c_phase c) eqn:Ep; try exact IH. destruct (is_terminated s); [exact IH|].
        assert (HR : forall e0, hopen i T2 fl x (react1 parse_id refuse c remote s e0 []) buf) by (intros e0; unfold hopen in *; rewrite Ep in IH; exact IH).
        destruct ev; try apply HR; destruct (s_send s); try apply HR; exact IH. }
      destruct e; try exact IH; apply G.
    - destruct Hf. apply elem_of_app. right. by left.
  Qed.
  Lemma hopen_live fl i T2 rest es v1 v2 : HFail ∉ es -> read utf8_lossy T2 = ROk (PSessInit i) rest -> welcome i -> harrived es = hdr fl ++ T2 ->
    exists s, c_phase (fst (hrun (es ++ [HPoll v1; HPoll v2]))) = Live (snd (negotiate (local_params own) i)) s.
  Proof.
    intros Hf Hi Hw Ha. pose proof (hopen_run fl i T2 rest es [] Hf Hi Hw) as H. rewrite app_nil_r in H. specialize (H Ha).
    replace (es ++ [HPoll v1; HPoll v2]) with ((es ++ [HPoll v1]) ++ [HPoll v2]) by (by rewrite <- app_assoc).
    rewrite !hrun_snoc. destruct (hrun es) as [c buf]. cbn [fst snd] in H. cbn [TcpclLink.hstep fst snd].
    assert (Step : forall c buf v, (exists s, c_phase c = Live (snd (negotiate (local_params own) i)) s) -> exists s, c_phase (fst (poll c v buf)) = Live (snd (negotiate (local_params own) i)) s).
    { intros c0 buf0 v (s & E). unfold TcpclLink.poll. rewrite E. destruct (is_terminated s); [by exists s|]. destruct (read utf8_lossy (c_held c0 ++ buf0)); cbn; eauto. }
    assert (Off : forall c buf v, c_phase c = Offer -> c_held c ++ buf = T2 -> exists s, c_phase (fst (poll c v buf)) = Live (snd (negotiate (local_params own) i)) s).
    { intros c0 buf0 v E Et. unfold TcpclLink.poll. rewrite E, Et, Hi. destruct (greet_welcome v i Hw) as [l ->]. cbn. eauto. }
    unfold hopen in H. destruct (c_phase c) as [| |d s|] eqn:Ep; try done.
    - rewrite app_nil_r in H. assert (E : poll c v1 buf = (Conn Offer [] (c_out c ++ write (PSessInit (local_params own))) (c_log c) (c_stores c) (c_new c), T2)) by (unfold TcpclLink.poll; by rewrite Ep, H, hdr_ok). rewrite E. by apply Off.
    - rewrite app_nil_r in H. apply Step. by apply Off.
    - subst d. apply Step, Step. eauto.
  Qed.
End One.
