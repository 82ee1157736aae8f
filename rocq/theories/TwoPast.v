(** What the proposals of the DAO whose submissions are approved come from. *)
From stdpp Require Import gmap strings sorting.
From Verif Require Import Base BaseProofs Exec ExecProofs VotingModel VotingSpec HooksModel SingleModel
  SingleSpec SingleProofs SingleLife SingleTally SingleFinal DaoProofs PreModel PreSpec PreProofs PreSingle PreJoint
  PreClaims ApproverModel TwoModel TwoSpec TwoProofs TwoInv.

Definition kept (A : addr) (s s' : state) : Prop :=
  s_policy s' = Module A -> s_policy s = Module A /\
  forall id p', s_props s' !! id = Some p' -> exists p, s_props s !! id = Some p /\ terms p' = terms p.

Lemma handle_new O b s a m s' ss A :
  winv b s -> handle O s b a m = Ok (s', ss) -> a <> A -> kept A s s'.
Proof.
  intros HW H Ha Hp. pose proof (handle_s2 _ _ _ _ _ _ _ A HW H) as HS.
  destruct (st_policy _ _ _ _ _ HS Hp) as [Hp0 _]. split; [done|].
  pose proof (handle_prims _ _ _ _ _ _ _ H) as Hr.
  pose proof (prims_same_terms O b s s' HW Hr) as [_ HT].
  pose proof (prims_winv _ _ _ _ Hr HW) as HW'.
  assert (s_count s' = s_count s) as Ec.
  { assert ((exists pm, m = Propose pm) \/ forall pm, m <> Propose pm) as [[pm ->]|Hn].
    { destruct m; try (by right); eauto. }
    - exfalso. cbn in H. apply execute_propose_shape in H as (pr & st & s1 & ss2 & Hper & _).
      rewrite Hp0 in Hper. cbn in Hper. apply N.eqb_eq in Hper. congruence.
    - destruct m; try (apply (admin_shape O s b a) in H; [|exact I]; by destruct H as (_ & _ & _ & _ & ? & _)).
      + by destruct (Hn pm).
      + cbn in H. by apply execute_vote_shape in H as (p & votes1 & st2 & Hp1 & _ & _ & _ & _ & -> & _).
      + cbn in H. unfold execute_update_rationale in H.
        destruct (s_ballots s !! (id, a)) as [cur|]; [|done]. by injection H as <- <-.
      + cbn in H. by apply execute_execute_shape in H as (p & st & _ & _ & _ & -> & _).
      + cbn in H. by apply execute_veto_shape in H as (p & st & vc & _ & _ & _ & _ & _ & -> & _).
      + cbn in H. by apply execute_close_shape in H as (p & _ & _ & -> & _). }
  intros id p' Hp'. assert (is_Some (s_props s !! id)) as [p Hp1].
  { apply (wi_ids _ _ HW). rewrite <- Ec. apply (wi_ids _ _ HW'). by exists p'. }
  destruct (HT id p Hp1) as (p2 & Hp2 & E). exists p. split; [done|congruence].
Qed.
Lemma fail_new b s x s' A : on_fail s b x = Ok s' -> kept A s s'.
Proof.
  intros H Hp. destruct (on_fail_shape _ _ _ _ H) as [(d & i & ms & p & -> & Hp1 & ->)|(_ & E1 & _ & _ & _)].
  - split; [done|]. cbn. intros id p' Hp'. apply lookup_insert_Some in Hp' as [[<- <-]|[_ Hp']]; [|by exists p'].
    by exists p.
  - split.
    + destruct x; cbn in H; try done.
      all: destruct (s_policy s) eqn:E; try done; res_inv H; cbn in *; congruence.
    + rewrite E1. intros id p' Hp'. by exists p'.
Qed.
Lemma ok_new b s x d s' A : d <> A -> on_ok s b x d = Ok s' -> kept A s s'.
Proof.
  intros Hd H Hp. destruct (ok_s2 b s x d s' A Hd H) as [_ _ _ _ _ _ _ Hpol]. split; [by apply Hpol|].
  destruct x; cbn in H; injection H as <-; intros k p' Hp'; by exists p'.
Qed.

Lemma japprove_inv O b j a e i j' subs :
  q_kind (j_q j) = Approval -> jhandle O j b a (JPre e (PApprove i)) = Ok (j', subs) ->
  exists p ss, q_pending (j_q j) !! i = Some p /\
    handle O (j_s j) b (j_self j) (Propose (a_msg p)) = Ok (j_s j', ss) /\
    q_completed (j_q j') !! i = Some (resolved p (AApproved (s_count (j_s j) + 1))).
Proof.
  intros Hk H. cbn [jhandle pre_handle] in H. destruct (a =? _)%N; [done|]. cbn [negb] in H.
  rewrite Hk in H. unfold appr_approve in H.
  destruct (q_approver (j_q j) =? a)%N; [|done].
  destruct (q_pending (j_q j) !! i) as [p|] eqn:E; [|done].
  destruct (handle O (j_s j) b (j_self j) (Propose (a_msg p))) as [[s' ss]|] eqn:Es; [|done].
  injection H as <- <-. exists p, ss. split; [done|]. split; [done|].
  cbn. by rewrite lookup_insert.
Qed.
Lemma jother_inv O b j a e m j' subs :
  q_kind (j_q j) = Approval -> jhandle O j b a (JPre e m) = Ok (j', subs) ->
  (forall i, m <> PApprove i) -> j_s j' = j_s j.
Proof.
  intros Hk H Hm. cbn [jhandle] in H.
  destruct (a =? q_module _)%N eqn:Em; [done|]. cbn [negb] in H.
  set (e1 := PEnv _ _ _ _) in H.
  destruct (pre_handle (j_q j) e1 a m) as [[q' xs]|] eqn:Ep; [|done].
  assert (forall pm rest, xs <> XPropose pm :: rest) as Hn.
  { intros pm rest ->. assert (quiet_msg m \/ ~ quiet_msg m) as [Hq|Hq] by (destruct m; cbn; tauto).
    - destruct (quiet_shape _ _ _ _ _ _ Hq Ep) as (_ & _ & _ & Hs).
      destruct (Hs (XPropose pm)) as [(dn & n & ?)|[-> _]]; [left|done|].
      by rewrite N.eqb_refl in Em.
    - destruct m; try (by destruct Hq); cbn [pre_handle] in Ep; rewrite Hk in Ep.
      + destruct (appr_propose_shape _ _ _ _ _ _ Ep) as (takes & _ & Hd & _ & E).
        destruct takes as [|x takes].
        * destruct (q_hooks (j_q j)); done.
        * injection E as <- _. destruct (takes_only _ _ _ _ _ (XPropose pm) Hd) as (t & n & ?); [left|done].
      + by destruct (Hm id).
      + unfold appr_reject in Ep. destruct (q_approver (j_q j) =? a)%N; [|done].
        destruct (q_pending (j_q j) !! id) as [p|]; [|done]. injection Ep as _ E.
        destruct (a_deposit p) as [d|]; [|done].
        assert (XPropose pm ∈ return_messages (RRejected id) d
            (if decide (d_refund d = Always) then a_proposer p else q_dao (j_q j))) as Hx
          by (rewrite E; left).
        apply returns_only in Hx. done. }
  destruct xs as [|[pm| | |] rest]; try (by injection H as <- <-). by destruct (Hn pm rest).
Qed.

(** ** The invariant *)
Definition pinv (A : addr) (n1 : Z) (j : jstate) : Prop :=
  s_policy (j_s j) = Module A -> forall id p, n1 < id -> s_props (j_s j) !! id = Some p ->
  exists i r, q_completed (j_q j) !! i = Some r /\ a_status r = AApproved id /\
    p_msgs p = pm_msgs (a_msg r) /\ p_proposer p = a_proposer r.
Lemma terms_msgs p p' : terms p' = terms p -> p_msgs p' = p_msgs p /\ p_proposer p' = p_proposer p.
Proof. unfold terms. by intros [= -> _ _ _ _ _ -> _ _]. Qed.
Lemma pinv_kept A n1 j j' :
  pinv A n1 j -> jle j j' -> kept A (j_s j) (j_s j') -> pinv A n1 j'.
Proof.
  intros HI HL HK Hp id p' Hid Hp'. destruct (HK Hp) as [Hp0 Hold].
  destruct (Hold id p' Hp') as (p & Hp1 & E). apply terms_msgs in E as [E1 E2].
  destruct (HI Hp0 id p Hid Hp1) as (i & r & Hr & Hst & E3 & E4). exists i, r.
  split; [by apply (ql_completed _ _ (jl_q _ _ HL))|]. split; [done|]. split; congruence.
Qed.
Lemma pinv_jhandle O b A n1 j a m j' subs :
  q_kind (j_q j) = Approval -> j_self j = A -> a <> A -> jinv b j -> pinv A n1 j ->
  jhandle O j b a m = Ok (j', subs) -> pinv A n1 j'.
Proof.
  intros Hk Hs Ha HJ HI H. pose proof (js_le _ _ _ _ (jhandle_step _ _ _ _ _ _ _ HJ H)) as HL.
  destruct m as [m|e m].
  { eapply pinv_kept; [done..|]. cbn [jhandle] in H.
    destruct (handle O (j_s j) b a m) as [[s' ss]|] eqn:E; [|done]. injection H as <- <-. cbn.
    eapply handle_new; [|done..]. by destruct HJ. }
  assert ((exists i, m = PApprove i) \/ forall i, m <> PApprove i) as [[i ->]|Hn].
  { destruct m; try (by right); eauto. }
  2:{ eapply pinv_kept; [done..|]. rewrite (jother_inv _ _ _ _ _ _ _ _ Hk H Hn).
      intros Hp. split; [done|]. intros id p' Hp'. by exists p'. }
  destruct (japprove_inv _ _ _ _ _ _ _ _ Hk H) as (p & ss & Hp & Hc & Hcm).
  rewrite Hs in Hc. pose proof (ji_w _ _ HJ) as HW.
  pose proof (handle_prims _ _ _ _ _ _ _ Hc) as Hr.
  pose proof (prims_same_terms O b _ _ HW Hr) as [_ HT].
  pose proof (prims_winv _ _ _ _ Hr HW) as HW'.
  pose proof (propose_counts _ _ _ _ _ _ _ Hc) as Ec.
  intros Hpol id p' Hid Hp'.
  destruct (st_policy _ _ _ _ _ (handle_s2 _ _ _ _ _ _ _ A HW Hc) Hpol) as [Hpol0 _].
  destruct (decide (id = s_count (j_s j) + 1)) as [->|Hne].
  - exists i, (resolved p (AApproved (s_count (j_s j) + 1))). split; [done|]. split; [done|]. cbn.
    destruct (propose_created _ _ _ _ _ _ _ Hc) as (p2 & pr & Hp2 & E1 & E2 & E3).
    rewrite Hp2 in Hp'. injection Hp' as <-. split; [done|].
    destruct (qi_pending _ (ji_q _ _ HJ) i p Hp) as (_ & _ & _ & _ & Epr & _).
    rewrite Hpol0, Epr in E3. cbn in E3. congruence.
  - assert (is_Some (s_props (j_s j) !! id)) as [p1 Hp1].
    { apply (wi_ids _ _ HW). pose proof (proj1 (wi_ids _ _ HW' id) (mk_is_Some _ _ Hp')). lia. }
    destruct (HT id p1 Hp1) as (p2 & Hp2 & E). rewrite Hp2 in Hp'. injection Hp' as ->.
    apply terms_msgs in E as [E1 E2].
    destruct (HI Hpol0 id p1 Hid Hp1) as (k & r & Hr1 & Hst & E3 & E4). exists k, r.
    split; [by apply (ql_completed _ _ (jl_q _ _ HL))|]. split; [done|]. split; congruence.
Qed.
Lemma pinv_step O1 O2 d A P n0 n1 b e j v todo j' v' todo' :
  A <> P -> tinv O2 d A P n0 b j v todo -> pinv A n1 j ->
  tstep O1 O2 A P b e j v todo j' v' todo' -> pinv A n1 j'.
Proof.
  intros HAP HI HP H. pose proof HI as [].
  destruct H as [a m j' l todo -> Ha1 Ha2 Hc|y pm j' l rest Hy Hc|a m v' l todo -> Ha1 Ha2 Hc|
    i act fits v' l rest Hc|id st i y rest Hi Hst|x rest Hx|x rest Hx Hx2|x j' rest Hc|
    x dd j' rest Hd1 Hd2 Hc|x s' rest Hc|x dd s' rest Hd1 Hd2 Hc|y rest]; try done.
  - by eapply pinv_jhandle.
  - refine (pinv_jhandle _ _ _ _ _ P _ _ _ ti_kind ti_A _ ti_j HP Hc). by apply not_eq_sym.
  - destruct (jfail_step _ _ _ _ ti_j (ti_pend x ltac:(left; left)) Hc) as (B1 & B2 & (z & ->) & _).
    eapply pinv_kept; [done..|]. cbn [jon_fail] in Hc.
    destruct (on_fail (j_s j) b z) as [s'|] eqn:E; [|done]. injection Hc as <-. by eapply fail_new.
  - destruct (jok_step O1 _ _ _ _ _ ti_j (ti_pend x ltac:(right; left)) Hc) as (B1 & B2 & _).
    eapply pinv_kept; [done..|].
    destruct x as [z|z]; cbn [jon_ok] in Hc.
    + destruct (on_ok (j_s j) b z dd) as [s'|] eqn:E; [|done].
      assert (j_s j' = s') as ->; [|by eapply ok_new].
      destruct z; try (by injection Hc as <-). destruct (_ =? j_self j)%N; [|by injection Hc as <-].
      destruct (pre_handle _ _ _ _) as [[q' xs]|]; [|done]. by injection Hc as <-.
    + assert (j_s j' = j_s j) as ->; [|intros Hp; split; [done|]; intros id p' Hp'; by exists p'].
      destruct z; by injection Hc as <-.
Qed.
