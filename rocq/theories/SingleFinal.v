(** dao-proposal-single: finality of outcomes, totality of the calls, hooks. *)
From Verif Require Import Base BaseProofs Exec ExecProofs VotingModel VotingSpec
  VotingProofs HooksModel SingleModel SingleSpec SingleProofs SingleLife SingleTally.

(** ** A generic preservation principle on top of the strong invariant *)
Lemma single_preserve O d (J : block -> state -> Prop) b0 s h s' l :
  sane O d ->
  (forall b s s', sinv O d b s -> J b s -> prim O b s s' -> sinv O d b s' -> J b s') ->
  (forall b s x s', sinv O d b s -> pend b s x -> J b s -> on_fail s b x = Ok s' -> J b s') ->
  (forall b b' s, block_le b b' -> J b s -> J b' s) ->
  sinv O d b0 s -> J b0 s -> hist_ok b0 h -> hist_all (keeps_dao d) h ->
  srun O s h = (s', l) -> J (hist_end b0 h) s'.
Proof.
  intros HS Hp Hf Ht HI HJ Hh Ha Hr.
  assert (forall b s s', rtc (aprim O d b) s s' -> sinv O d b s -> J b s ->
            sinv O d b s' /\ J b s') as Hrtc.
  { intros b s1 s2 H. induction H as [|s1 s2 s3 [H1 H2] Hrt IH]; [done|].
    intros HI1 HJ1. assert (sinv O d b s2) as HI2.
    { apply (aprims_sinv O d b s1 s2 HS HI1). apply rtc_once. by split. }
    apply IH; [done|]. exact (Hp b s1 s2 HI1 HJ1 H1 HI2). }
  edestruct (run_hist_trace (handle O) on_fail on_ok (keeps_dao d)
     (fun b s => sinv O d b s /\ J b s) pend) as [[_ Hfin] _];
    [..|exact Hh|exact Ha|exact Hr|exact Hfin]; try done.
  - intros b s1 a m s2 subs [HI1 HT1] Hm H. split.
    + apply (Hrtc b s1 s2); [|done..]. by eapply handle_aprims.
    + intros x Hx. by eapply handle_pend.
  - intros b s1 x s2 [HI1 HT1] HP H. split; [by eapply on_fail_sinv|by eapply Hf].
  - intros b s1 x r s2 [HI1 HT1] HP H. apply (Hrtc b s1 s2); [|done..].
    apply rtc_once. by eapply on_ok_aprim.
  - intros b s1 a m s2 subs x [[HI1 _] _] _ H HP d' id ms c ->.
    eapply done_at_prims; [done|by eapply handle_prims|]. by eapply HP.
  - intros b s1 x s2 y HI1 _ H HP d' id ms c ->. eapply on_fail_done; [done|]. by eapply HP.
  - intros b s1 x r s2 y [[HI1 _] _] _ H HP d' id ms c ->.
    eapply (done_at_prims O b s1); [done|apply rtc_once; by eapply on_ok_prims|]. by eapply HP.
  - intros b b' s1 Hb [[HW HT] HJ1].
    split; [split; [by eapply winv_time|by eapply tinv_time]|by eapply Ht].
Qed.

Lemma sinv_time O d b b' s : block_le b b' -> sinv O d b s -> sinv O d b' s.
Proof. intros Hb [HW HT]. split; [by eapply winv_time|by eapply tinv_time]. Qed.
Lemma reached_winv O b s l : reached O b s l -> winv b s.
Proof.
  intros (b0 & s0 & h & Hf & Hh & Hr & Hb). eapply winv_time; [done|].
  eapply single_trace; eauto using fresh_winv.
Qed.
Lemma reached_for_sinv O d b s l : sane O d -> reached_for O d b s l -> sinv O d b s.
Proof.
  intros HS (b0 & s0 & h & Hf & Hat & Hh & Ha & Hr & Hb). eapply sinv_time; [done|].
  eapply single_strong; eauto using fresh_sinv.
Qed.
Lemma later_for_sinv O d b s b' s' l :
  sane O d -> sinv O d b s -> later_for O d b s b' s' l -> sinv O d b' s'.
Proof.
  intros HS HI (h & Hh & Ha & Hr & Hb). eapply sinv_time; [done|]. by eapply single_strong.
Qed.

(** ** Passing is final *)
Definition pass_locked (id : Z) (b : block) (s : state) : Prop :=
  exists p, s_props s !! id = Some p /\ min_ok p b /\ at_least_billionth (p_thr p) /\
    (p_status p = Open \/ passed_like (p_status p) \/ p_status p = Vetoed) /\
    ((p_revote p = false /\ early_near (p_thr p) (p_total p) (p_votes p)) \/
     (is_expired (p_exp p) b = true /\ outcome_near (p_thr p) (p_total p) (p_votes p))).

Lemma pass_locked_status O d id b s st :
  sane O d -> sinv O d b s -> pass_locked id b s -> query_status s b id = Ok st ->
  passed_like st \/ st = Vetoed.
Proof.
  intros HS [HW HT] (p & Hp & Hmin & Hbil & Hst & Hlock) Hq.
  unfold query_status in Hq. rewrite Hp in Hq.
  pose proof (tprop_tally _ _ _ _ _ _ HS HT Hp) as (Hok & HT' & Hthr).
  apply current_status_cases in Hq.
  assert (p_status p = Open -> is_passed p b = Ok true) as Hpass.
  { intros Eo. destruct (is_passed_spec p b Hok HT') as (r & Er & Hiff). rewrite Er.
    f_equal. apply Hiff. split; [|split; [done|]].
    - intros Er'. destruct Hlock as [[? _]|[? _]]; congruence.
    - destruct (is_expired (p_exp p) b) eqn:Ex; [|destruct Hlock as [[_ ?]|[? _]]; done].
      destruct Hlock as [[_ He]|[_ ?]]; [|done].
      by eapply early_mono; eauto using votes_le_refl. }
  destruct (p_status p) eqn:Es; subst; try (naive_solver).
  specialize (Hpass eq_refl).
  destruct Hq as [(-> & _)|[(vc & e & -> & _)|[(-> & Hp' & _)|(-> & Hp' & _)]]];
    try (left; done); congruence.
Qed.

Lemma pass_locked_votes p v b :
  thr_range (p_thr p) -> at_least_billionth (p_thr p) ->
  is_expired (p_exp p) b = false ->
  (p_revote p = false -> votes_le (p_votes p) v) -> tally_ok (p_total p) v ->
  ((p_revote p = false /\ early_near (p_thr p) (p_total p) (p_votes p)) \/
   (is_expired (p_exp p) b = true /\ outcome_near (p_thr p) (p_total p) (p_votes p))) ->
  p_revote p = false /\ early_near (p_thr p) (p_total p) v.
Proof.
  intros Hr Hb Hx Hle Hok [[Hv He]|[? _]]; [|congruence]. split; [done|].
  by eapply early_mono; eauto.
Qed.

Lemma pass_locked_prim O d id b s s' :
  sane O d -> sinv O d b s -> pass_locked id b s -> prim O b s s' -> sinv O d b s' ->
  pass_locked id b s'.
Proof.
  intros HS HI HL Hprim HI'. pose proof HL as (p & Hp & Hmin & Hbil & Hst & Hlock).
  pose proof HI as [HW HT].
  destruct Hprim as [s proposer ms st Hcs|s id0 a p0 v r votes1 st Hp0 Hx Hpw Hvr Hcs|s id0 p0 st fin Hp0 Hcs Hal|s id0 a cur r Hb|s s' E1 E2 E3 E4].
  - exists p. simpl. rewrite lookup_insert_ne; [done|]. intros <-.
    assert (1 <= s_count s + 1 <= s_count s); [|lia]. apply (wi_ids _ _ HW). eauto.
  - destruct (decide (id = id0)) as [->|Hne].
    + rewrite Hp in Hp0. injection Hp0 as <-.
      assert (tally_ok (p_total p) votes1) as Hok1.
      { destruct HI' as [_ HT']. apply (tprop_tally O d b _ id0 (set_status (set_votes p votes1) st) HS) in HT' as [Hok' _];
          [exact Hok'|]. simpl. apply lookup_insert. }
      pose proof (tprop_tally _ _ _ _ _ _ HS HT Hp) as (Hok & HTm & Hthr).
      assert (p_revote p = false -> votes_le (p_votes p) votes1) as Hle.
      { intros Hr. eapply vote_result_le; [|done..].
        destruct (ti_att _ _ _ _ HT) as [-> _]. apply HS. }
      pose proof (pass_locked_votes p votes1 b Hthr Hbil Hx Hle Hok1 Hlock) as [Hr He].
      exists (set_status (set_votes p votes1) st). simpl. rewrite lookup_insert.
      split; [done|]. split; [done|]. split; [done|]. split; [|left; done].
      apply current_status_cases in Hcs. simpl in Hcs.
      destruct (p_status p) eqn:Es; subst; try naive_solver.
      destruct Hcs as [(-> & _)|[(vc & e & -> & _)|[(-> & Hp' & _)|(-> & Hp' & _)]]];
        try (by (right; left)); exfalso;
        destruct (is_passed_spec (set_votes p votes1) b Hok1 HTm) as (r' & Er & Hiff);
        rewrite Er in Hp'; injection Hp' as ->;
        (assert (false = true); [|done]); apply Hiff; unfold pass_cond, min_ok; simpl;
        rewrite Hx, Hr; split; [done|split; done|done|split; done].
    + exists p. simpl. by rewrite lookup_insert_ne.
  - destruct (decide (id = id0)) as [->|Hne].
    + rewrite Hp in Hp0. injection Hp0 as <-.
      assert (passed_like st \/ st = Vetoed) as Hst'.
      { apply (pass_locked_status O d id0 b s st HS HI HL). unfold query_status. by rewrite Hp. }
      exists (set_status p fin). simpl. rewrite lookup_insert. repeat (split; [done|]).
      split; [|done].
      destruct Hal as [[-> Hal]|[[-> Hal]|[-> ->]]]; [by right; left|by right; right|].
      destruct Hst'; done.
    + exists p. simpl. by rewrite lookup_insert_ne.
  - by exists p.
  - exists p. by rewrite E1.
Qed.
Lemma pass_locked_fail id b s x s' :
  pend b s x -> pass_locked id b s -> on_fail s b x = Ok s' -> pass_locked id b s'.
Proof.
  intros HP (p & Hp & Hmin & Hbil & Hst & Hlock) H.
  destruct (on_fail_shape s b x s' H) as [(d0 & id0 & ms & p0 & -> & Hp0 & ->)|(Hx & E1 & E2 & E3 & E4)].
  - destruct (decide (id = id0)) as [->|Hne].
    + rewrite Hp in Hp0. injection Hp0 as <-.
      exists (set_status p ExecutionFailed). simpl. rewrite lookup_insert.
      repeat (split; [done|]). split; [by right; left|done].
    + exists p. simpl. by rewrite lookup_insert_ne.
  - exists p. by rewrite E1.
Qed.
Lemma pass_locked_time id b b' s : block_le b b' -> pass_locked id b s -> pass_locked id b' s.
Proof.
  intros Hb (p & Hp & Hmin & Hbil & Hst & Hlock). exists p.
  split; [done|]. split; [by eapply min_ok_mono|]. split; [done|]. split; [done|].
  destruct Hlock as [?|[? ?]]; [by left|right]. eauto using is_expired_mono.
Qed.
Lemma pass_locked_intro O d b s id p st :
  sane O d -> sinv O d b s -> s_props s !! id = Some p -> at_least_billionth (p_thr p) ->
  query_status s b id = Ok st -> passed_like st -> pass_locked id b s.
Proof.
  intros HS [HW HT] Hp Hbil Hq Hst. unfold query_status in Hq. rewrite Hp in Hq.
  pose proof (tprop_tally _ _ _ _ _ _ HS HT Hp) as (Hok & HT' & Hthr).
  pose proof (wprop_current b p st (wi_props _ _ HW _ _ Hp) Hq) as Hw.
  exists p. split; [done|]. split; [by apply (w_passed_min _ _ Hw)|]. split; [done|].
  pose proof (tprop_current O d b p st (wi_props _ _ HW _ _ Hp) (ti_props _ _ _ _ HT _ _ Hp) Hok HT' Hq) as Ht.
  split; [|by apply (t_pass _ _ _ _ Ht)].
  apply current_status_cases in Hq. destruct (p_status p) eqn:Es; subst; naive_solver.
Qed.

Lemma pass_final O d b s id p st b' s' l st' :
  sane O d -> sinv O d b s -> s_props s !! id = Some p -> at_least_billionth (p_thr p) ->
  query_status s b id = Ok st -> passed_like st ->
  later_for O d b s b' s' l -> query_status s' b' id = Ok st' ->
  passed_like st' \/ st' = Vetoed.
Proof.
  intros HS HI Hp Hbil Hq Hst Hlat Hq'.
  pose proof (later_for_sinv _ _ _ _ _ _ _ HS HI Hlat) as HI'.
  pose proof (pass_locked_intro _ _ _ _ _ _ _ HS HI Hp Hbil Hq Hst) as HL.
  destruct Hlat as (h & Hh & Ha & Hr & Hb).
  eapply pass_locked_status; [done|exact HI'| |done].
  eapply pass_locked_time; [done|].
  eapply (single_preserve O d (pass_locked id)); try done.
  - intros b1 s1 s2 HI1 HJ1 Hp1 HI2. exact (pass_locked_prim O d id b1 s1 s2 HS HI1 HJ1 Hp1 HI2).
  - intros b1 s1 x s2 _ HP HJ1 H1. exact (pass_locked_fail id b1 s1 x s2 HP HJ1 H1).
  - intros b1 b2 s1 Hb1 HJ1. exact (pass_locked_time id b1 b2 s1 Hb1 HJ1).
Qed.

(** ** Rejection is final *)
Definition rej_locked (id : Z) (b : block) (s : state) : Prop :=
  exists p, s_props s !! id = Some p /\
    (rejected_like (p_status p) \/
     (p_status p = Open /\ is_expired (p_exp p) b = true /\
      ~ outcome_near (p_thr p) (p_total p) (p_votes p))).

Lemma rej_locked_status O d id b s st :
  sane O d -> sinv O d b s -> rej_locked id b s -> query_status s b id = Ok st ->
  rejected_like st.
Proof.
  intros HS [HW HT] (p & Hp & Hst) Hq.
  unfold query_status in Hq. rewrite Hp in Hq.
  pose proof (tprop_tally _ _ _ _ _ _ HS HT Hp) as (Hok & HT' & Hthr).
  apply current_status_cases in Hq.
  destruct Hst as [Hst|(Es & Hx & Hno)]; [destruct (p_status p); subst; done|].
  rewrite Es in Hq.
  assert (is_passed p b <> Ok true) as Hnp.
  { intros Hps. destruct (is_passed_spec p b Hok HT') as (r & Er & Hiff).
    rewrite Hps in Er. injection Er as <-. destruct Hiff as [Hiff _].
    destruct (Hiff eq_refl) as (_ & _ & Hc). rewrite Hx in Hc. done. }
  destruct Hq as [(-> & ? & _)|[(vc & e & -> & ? & _)|[(-> & Hp' & _)|(-> & Hp' & ? & _)]]];
    try done; congruence.
Qed.
Lemma rej_locked_intro O d b s id st :
  sane O d -> sinv O d b s ->
  query_status s b id = Ok st -> rejected_like st -> rej_locked id b s.
Proof.
  intros HS [HW HT] Hq Hst. unfold query_status in Hq.
  destruct (s_props s !! id) as [p|] eqn:Hp; [|discriminate].
  pose proof (tprop_tally _ _ _ _ _ _ HS HT Hp) as (Hok & HT' & Hthr).
  pose proof (wi_props _ _ HW _ _ Hp) as Hw. pose proof (ti_props _ _ _ _ HT _ _ Hp) as Ht.
  exists p. split; [done|]. pose proof Hq as Hq0. apply current_status_cases in Hq.
  destruct (p_status p) eqn:Es; subst; try (by left); try done; try naive_solver.
  right. split; [done|].
  destruct Hq as [(-> & ? & _)|[(vc & e & -> & ? & _)|[(-> & Hp' & Hr)|(-> & Hp' & ? & _)]]]; try done.
  assert (is_expired (p_exp p) b = true) as Hx.
  { destruct Hr as [?|Hr]; [done|]. destruct (is_expired (p_exp p) b) eqn:Ex; [done|].
    rewrite (t_open _ _ _ _ Ht Es b Ex) in Hr. done. }
  split; [done|]. intros Hout.
  destruct (is_passed_spec p b Hok HT') as (r & Er & Hiff). rewrite Hp' in Er. injection Er as <-.
  assert (false = true); [|done]. apply Hiff. split; [done|]. split; [by apply (w_min _ _ Hw)|].
  by rewrite Hx.
Qed.
Lemma rej_locked_time id b b' s : block_le b b' -> rej_locked id b s -> rej_locked id b' s.
Proof.
  intros Hb (p & Hp & Hst). exists p. split; [done|].
  destruct Hst as [?|(? & ? & ?)]; [by left|right]. eauto using is_expired_mono.
Qed.
Lemma rej_locked_prim O d id b s s' :
  sane O d -> sinv O d b s -> rej_locked id b s -> prim O b s s' -> rej_locked id b s'.
Proof.
  intros HS HI HL Hprim. pose proof HL as (p & Hp & Hst).
  pose proof HI as [HW HT].
  destruct Hprim as [s proposer ms st Hcs|s id0 a p0 v r votes1 st Hp0 Hx Hpw Hvr Hcs|s id0 p0 st fin Hp0 Hcs Hal|s id0 a cur r Hb|s s' E1 E2 E3 E4].
  - exists p. simpl. rewrite lookup_insert_ne; [done|]. intros <-.
    assert (1 <= s_count s + 1 <= s_count s); [|lia]. apply (wi_ids _ _ HW). eauto.
  - destruct (decide (id = id0)) as [->|Hne].
    + rewrite Hp in Hp0. injection Hp0 as <-.
      destruct Hst as [Hst|(_ & ? & _)]; [|congruence].
      eexists. simpl. rewrite lookup_insert. split; [done|]. left.
      apply current_status_cases in Hcs. simpl in *. destruct (p_status p); subst; done.
    + exists p. simpl. by rewrite lookup_insert_ne.
  - destruct (decide (id = id0)) as [->|Hne].
    + rewrite Hp in Hp0. injection Hp0 as <-.
      assert (rejected_like st) as Hst'.
      { apply (rej_locked_status O d id0 b s st HS HI HL). unfold query_status. by rewrite Hp. }
      eexists. simpl. rewrite lookup_insert. split; [done|]. left. simpl.
      destruct Hal as [[-> [->|[? ->]]]|[[-> [->|[? ->]]]|[-> ->]]]; done.
    + exists p. simpl. by rewrite lookup_insert_ne.
  - by exists p.
  - exists p. by rewrite E1.
Qed.
Lemma rej_locked_fail id b s x s' :
  pend b s x -> rej_locked id b s -> on_fail s b x = Ok s' -> rej_locked id b s'.
Proof.
  intros HP (p & Hp & Hst) H.
  destruct (on_fail_shape s b x s' H) as [(d0 & id0 & ms & p0 & -> & Hp0 & ->)|(Hx & E1 & E2 & E3 & E4)].
  - destruct (decide (id = id0)) as [->|Hne].
    + destruct (HP _ _ _ _ eq_refl) as (p' & Hp' & Hd). rewrite Hp in Hp'. injection Hp' as <-.
      exfalso. destruct Hd as [Hd|Hd]; rewrite Hd in Hst; destruct Hst as [?|(? & _)]; done.
    + exists p. simpl. by rewrite lookup_insert_ne.
  - exists p. by rewrite E1.
Qed.
Lemma reject_final O d b s id st b' s' l st' :
  sane O d -> sinv O d b s -> query_status s b id = Ok st -> rejected_like st ->
  later_for O d b s b' s' l -> query_status s' b' id = Ok st' ->
  rejected_like st'.
Proof.
  intros HS HI Hq Hst Hlat Hq'.
  pose proof (later_for_sinv _ _ _ _ _ _ _ HS HI Hlat) as HI'.
  pose proof (rej_locked_intro _ _ _ _ _ _ HS HI Hq Hst) as HL.
  destruct Hlat as (h & Hh & Ha & Hr & Hb).
  eapply rej_locked_status; [done|exact HI'| |done].
  eapply rej_locked_time; [done|].
  eapply (single_preserve O d (rej_locked id)); try done.
  - intros b1 s1 s2 HI1 HJ1 Hp1 HI2. exact (rej_locked_prim O d id b1 s1 s2 HS HI1 HJ1 Hp1).
  - intros b1 s1 x s2 _ HP HJ1 H1. exact (rej_locked_fail id b1 s1 x s2 HP HJ1 H1).
  - intros b1 b2 s1 Hb1 HJ1. exact (rej_locked_time id b1 b2 s1 Hb1 HJ1).
Qed.

(** ** What a reported outcome says about the tally *)
Lemma reported_tprop O d b s id p st :
  sane O d -> sinv O d b s -> s_props s !! id = Some p -> query_status s b id = Ok st ->
  tprop O d b (set_status p st) /\ wprop b (set_status p st) /\
  tally_ok (p_total p) (p_votes p) /\ p_total p <= U128_MAX.
Proof.
  intros HS [HW HT] Hp Hq. unfold query_status in Hq. rewrite Hp in Hq.
  pose proof (tprop_tally _ _ _ _ _ _ HS HT Hp) as (Hok & HT' & Hthr).
  split; [|split; [|done]].
  - by apply tprop_current; [apply (wi_props _ _ HW id)|apply (ti_props _ _ _ _ HT id)|..].
  - by apply wprop_current; [apply (wi_props _ _ HW id)|].
Qed.

Lemma passed_continuations O d b s id p st :
  sane O d -> sinv O d b s -> s_props s !! id = Some p -> at_least_billionth (p_thr p) ->
  query_status s b id = Ok st -> passed_like st ->
  is_expired (p_exp p) b = false ->
  p_revote p = false /\
  forall v', votes_le (p_votes p) v' -> tally_ok (p_total p) v' ->
             outcome_near (p_thr p) (p_total p) v'.
Proof.
  intros HS HI Hp Hbil Hq Hst Hx.
  destruct (reported_tprop _ _ _ _ _ _ _ HS HI Hp Hq) as (Ht & _ & Hok & _).
  destruct (t_pass _ _ _ _ Ht Hbil Hst) as [[Hr He]|[? _]]; simpl in *; [|congruence].
  split; [done|]. intros v' Hle Hok'. eapply early_mono; try done. apply (t_thr _ _ _ _ Ht).
Qed.
Lemma rejected_continuations O d b s id p st :
  sane O d -> sinv O d b s -> s_props s !! id = Some p ->
  query_status s b id = Ok st -> rejected_like st ->
  is_expired (p_exp p) b = false ->
  p_revote p = false /\
  forall v', votes_le (p_votes p) v' -> tally_ok (p_total p) v' ->
             ~ outcome_met (p_thr p) (p_total p) v'.
Proof.
  intros HS HI Hp Hq Hst Hx.
  destruct (reported_tprop _ _ _ _ _ _ _ HS HI Hp Hq) as (Ht & _ & Hok & _).
  destruct (t_rej _ _ _ _ Ht Hst) as [[Hr He]|[? _]]; simpl in *; [|congruence]. done.
Qed.
Lemma outcome_at_expiry O d b s id p st :
  sane O d -> sinv O d b s -> s_props s !! id = Some p -> query_status s b id = Ok st ->
  is_expired (p_exp p) b = true ->
  (passed_like st \/ rejected_like st \/ st = Vetoed) /\
  (passed_like st -> at_least_billionth (p_thr p) -> outcome_near (p_thr p) (p_total p) (p_votes p)) /\
  (rejected_like st -> ~ outcome_met (p_thr p) (p_total p) (p_votes p)) /\
  (p_status p = Open -> (passed_like st <-> outcome_near (p_thr p) (p_total p) (p_votes p))).
Proof.
  intros HS HI Hp Hq Hx.
  destruct (reported_tprop _ _ _ _ _ _ _ HS HI Hp Hq) as (Ht & Hw & Hok & HT').
  split; [|split; [|split]].
  - unfold query_status in Hq. rewrite Hp in Hq. apply current_status_cases in Hq.
    destruct (p_status p); subst; simpl; try tauto; try naive_solver.
    destruct Hq as [(-> & ? & _)|[(vc & e & -> & ? & _)|[(-> & Hp' & Hr)|(-> & Hp' & ? & _)]]];
      simpl; try tauto. congruence.
  - intros Hst Hbil. destruct (t_pass _ _ _ _ Ht Hbil Hst) as [[Hr He]|[_ ?]]; [|done].
    apply (early_mono (p_thr p) (p_total p) (p_votes p) (p_votes p)); try done.
    apply (t_thr _ _ _ _ Ht).
  - intros Hst. destruct (t_rej _ _ _ _ Ht Hst) as [[Hr He]|[_ Hn]].
    + apply He; [apply votes_le_refl|done].
    + intros Hm. apply Hn. by apply outcome_met_near.
  - intros Es. unfold query_status in Hq. rewrite Hp in Hq.
    apply current_status_cases in Hq. rewrite Es in Hq.
    destruct (is_passed_spec p b Hok HT') as (r & Er & Hiff).
    assert (pass_cond p b <-> outcome_near (p_thr p) (p_total p) (p_votes p)) as Hpc.
    { unfold pass_cond. rewrite Hx. split; [tauto|]. intros Ho. split; [done|].
      split; [|done]. by apply (w_min _ _ Hw b). }
    destruct Hq as [(-> & Hp' & _)|[(vc & e & -> & Hp' & _)|[(-> & Hp' & Hr)|(-> & Hp' & ? & _)]]];
      rewrite Hp' in Er; injection Er as <-; simpl; try (split; [by intros _; apply Hpc, Hiff|done]).
    + split; [done|]. intros Ho. apply Hpc, Hiff in Ho. done.
    + split; [done|]. intros Ho. apply Hpc, Hiff in Ho. done.
Qed.

(** ** Votes are accepted exactly when they should be *)
Lemma cast_voters O d s id p :
  tally_inv s ->
  (forall id a bl p, s_ballots s !! (id, a) = Some bl -> s_props s !! id = Some p ->
    bl_power bl = vp O d a (p_start p) /\ 0 < bl_power bl) ->
  s_props s !! id = Some p ->
  exists l, NoDup l /\ cast (p_votes p) = lsum (fun a => vp O d a (p_start p)) l /\
    forall a, a ∈ l <-> is_Some (s_ballots s !! (id, a)).
Proof.
  intros HT HP Hp.
  destruct (voters_sum (fun a => vp O d a (p_start p)) id (s_ballots s)) as (l & Hnd & Hs & Hl).
  exists l. split; [done|]. split; [|done]. rewrite <- Hs. unfold cast.
  pose proof (HT id p Yes Hp) as HY. pose proof (HT id p No Hp) as HN.
  pose proof (HT id p Abstain Hp) as HA. simpl in HY, HN, HA. rewrite HY, HN, HA.
  unfold ballot_total. rewrite <- !msum_add.
  apply msum_ext. intros [i a] bl Hbl. simpl.
  destruct (decide (i = id)) as [->|Hne].
  - destruct (HP _ _ _ _ Hbl Hp) as [<- ?].
    destruct (bl_vote bl); repeat (destruct (decide _) as [[? ?]|?]); try congruence; try tauto; lia.
  - repeat (destruct (decide _) as [[? ?]|?]); try congruence; lia.
Qed.

Lemma vote_arith O d b s id p a v :
  sane O d -> sinv O d b s -> s_props s !! id = Some p ->
  (forall cur, s_ballots s !! (id, a) = Some cur -> p_revote p = true /\ bl_vote cur <> v) ->
  exists votes0 votes1,
    match s_ballots s !! (id, a) with
    | Some cur =>
        if p_revote p then
          if decide (bl_vote cur = v) then Err "AlreadyCast"
          else remove_vote (p_votes p) (bl_vote cur) (bl_power cur)
        else Err "AlreadyVoted"
    | None => Ok (p_votes p)
    end = Ok votes0 /\
    add_vote votes0 v (vp O d a (p_start p)) = Ok votes1 /\ tally_ok (p_total p) votes1.
Proof.
  intros HS [HW HT] Hp Hprev. pose proof HS as (S1 & S2 & S3).
  pose proof (tprop_tally _ _ _ _ _ _ HS HT Hp) as (Hok & HTm & _).
  pose proof (t_total _ _ _ _ (ti_props _ _ _ _ HT _ _ Hp)) as Htot.
  destruct (s_ballots s !! (id, a)) as [cur|] eqn:Eb.
  - destruct (Hprev cur eq_refl) as [-> Hne]. destruct (decide (bl_vote cur = v)); [done|].
    destruct (ti_power _ _ _ _ HT _ _ _ _ Eb Hp) as [Hpw Hpos].
    assert (bl_power cur <= tally_of p (bl_vote cur)) as Hle.
    { rewrite (ti_tally _ _ _ _ HT id p (bl_vote cur) Hp). unfold ballot_total.
      etransitivity; [|eapply msum_ge_one; [|exact Eb]].
      - simpl. rewrite decide_True by done. lia.
      - intros [i a'] bl Hbl. destruct (decide _) as [[Ei _]|]; [|lia]. simpl in Ei. subst i.
        destruct (ti_power _ _ _ _ HT _ _ _ _ Hbl Hp). lia. }
    rewrite <- Hpw. destruct Hok as (Y & N' & A & C). unfold cast in C.
    destruct (bl_vote cur), v; try done; simpl in *;
      rewrite sub128_eq by done; eexists; eexists; (split; [done|]); simpl;
      rewrite add128_eq by lia; (split; [done|]); unfold tally_ok, cast; simpl; lia.
  - destruct (cast_voters O d s id p (ti_tally _ _ _ _ HT) (ti_power _ _ _ _ HT) Hp)
      as (l & Hnd & Hs & Hl).
    assert (cast (p_votes p) + vp O d a (p_start p) <= p_total p) as Hle.
    { rewrite Htot, Hs. specialize (S3 (p_start p) (a :: l)). simpl in S3.
      rewrite Z.add_comm. apply S3. constructor; [|done]. rewrite Hl, Eb. by intros [? ?]. }
    specialize (S1 a (p_start p)).
    destruct Hok as (Y & N' & A & C). unfold cast in *.
    exists (p_votes p). destruct v; simpl; rewrite add128_eq by lia; eexists;
      (split; [done|]); (split; [done|]); unfold tally_ok, cast; simpl; lia.
Qed.

Lemma vote_iff O d b s a id v r :
  sane O d -> sinv O d b s ->
  (is_ok (handle O s b a (CastVote id v r)) = true <->
   exists p, s_props s !! id = Some p /\ is_expired (p_exp p) b = false /\
     0 < vp O d a (p_start p) /\
     (forall cur, s_ballots s !! (id, a) = Some cur -> p_revote p = true /\ bl_vote cur <> v)).
Proof.
  intros HS HI. pose proof HI as [HW HT]. pose proof (ti_att _ _ _ _ HT) as [Ed _]. split.
  - simpl. destruct (execute_vote O s b a id v r) as [[s' subs]|] eqn:E; [|done]. intros _.
    apply execute_vote_shape in E as (p & votes1 & st2 & H1 & H2 & H3 & H4 & H5 & _).
    exists p. split; [done|]. split; [done|]. rewrite Ed in *. split.
    + destruct HS as (S1 & _). specialize (S1 a (p_start p)). lia.
    + intros cur Hc. unfold vote_result in H4. rewrite Hc in H4. naive_solver.
  - intros (p & Hp & Hx & Hpos & Hprev). simpl. unfold execute_vote. rewrite Hp, Hx. simpl.
    rewrite Ed. destruct (_ =? 0) eqn:E0; [lia|]. simpl.
    destruct (vote_arith O d b s id p a v HS HI Hp Hprev) as (votes0 & votes1 & E1 & E2 & Hok).
    rewrite E1, E2. unfold update_status.
    pose proof (tprop_tally _ _ _ _ _ _ HS HT Hp) as (_ & HTm & Hthr).
    destruct (current_status_total b (set_votes p votes1) b) as [st ->]; try done.
    apply wprop_votes. by apply (wi_props _ _ HW id).
Qed.

Lemma status_total O d b s id p b' :
  sane O d -> sinv O d b s -> s_props s !! id = Some p ->
  exists st, query_status s b' id = Ok st.
Proof.
  intros HS [HW HT] Hp. unfold query_status. rewrite Hp.
  pose proof (tprop_tally _ _ _ _ _ _ HS HT Hp) as (Hok & HTm & Hthr).
  eapply current_status_total; try done. by apply (wi_props _ _ HW id).
Qed.

Lemma execute_iff O s b a id :
  is_ok (handle O s b a (Execute id)) = true <->
  exists p st, s_props s !! id = Some p /\ query_status s b id = Ok st /\
    ((st = Passed /\ (c_only_members (s_cfg s) = true ->
                      vp O (c_dao (s_cfg s)) a (p_start p) <> 0)) \/
     (exists e vc, st = VetoTimelock e /\ p_veto p = Some vc /\ vc_vetoer vc = a /\
                   vc_early_execute vc = true)).
Proof.
  simpl. split.
  - destruct (execute_execute O s b a id) as [[s' subs]|] eqn:E; [|done]. intros _.
    apply execute_execute_shape in E as (p & st & Hp & Hst & Hal & _).
    exists p, st. split; [done|]. unfold query_status. rewrite Hp. split; [done|].
    destruct Hal as [[-> Hc]|?]; [left|by right]. split; [done|]. intros Hm.
    unfold sender_can_execute in Hc. rewrite Hm in Hc. lia.
  - intros (p & st & Hp & Hst & Hal). unfold query_status in Hst. rewrite Hp in Hst.
    unfold execute_execute, update_status. rewrite Hp, Hst. simpl.
    destruct Hal as [[-> Hc]|(e & vc & -> & Hv & Ha & He)].
    + unfold sender_can_execute. destruct (c_only_members (s_cfg s)); [|done].
      specialize (Hc eq_refl). destruct (_ =? 0) eqn:E; [lia|done].
    + rewrite Hv, Ha, N.eqb_refl. unfold check_early_execute_enabled. by rewrite He.
Qed.
Lemma close_iff O s b a id :
  is_ok (handle O s b a (Close id)) = true <-> query_status s b id = Ok Rejected.
Proof.
  simpl. split.
  - destruct (execute_close s b id) as [[s' subs]|] eqn:E; [|done]. intros _.
    apply execute_close_shape in E as (p & Hp & Hst & _).
    unfold query_status. by rewrite Hp.
  - unfold query_status, execute_close, update_status.
    destruct (s_props s !! id); [|discriminate]. by intros ->.
Qed.
Lemma veto_iff O s b a id :
  is_ok (handle O s b a (Veto id)) = true <->
  exists p vc st, s_props s !! id = Some p /\ p_veto p = Some vc /\ vc_vetoer vc = a /\
    query_status s b id = Ok st /\
    ((st = Open /\ vc_veto_before_passed vc = true) \/
     (exists e, st = VetoTimelock e)).
Proof.
  simpl. split.
  - destruct (execute_veto s b a id) as [[s' subs]|] eqn:E; [|done]. intros _.
    apply execute_veto_shape in E as (p & st & vc & Hp & Hst & Hv & Ha & Hal & _).
    exists p, vc, st. unfold query_status. rewrite Hp. naive_solver.
  - intros (p & vc & st & Hp & Hv & Ha & Hst & Hal). unfold query_status in Hst. rewrite Hp in Hst.
    unfold execute_veto, update_status. rewrite Hp, Hst. simpl. rewrite Hv.
    unfold check_is_vetoer. rewrite Ha, N.eqb_refl.
    destruct Hal as [[-> Hb]|[e ->]].
    + unfold check_veto_before_passed_enabled. by rewrite Hb.
    + apply current_status_cases in Hst. destruct (p_status p); try done; try naive_solver.
      * assert (is_expired e b = false) as ->; [|done]. naive_solver.
      * assert (is_expired e b = false) as ->; [|done]. naive_solver.
Qed.

Lemma propose_ok O d b s a pm proposer :
  sane O d -> sinv O d b s ->
  is_permitted (s_policy s) a = true ->
  decide_proposer (s_policy s) a (pm_proposer pm) = Ok proposer ->
  pm_active pm = true -> pm_fits pm = true ->
  (pm_vote pm = None \/
   (0 < vp O d proposer (height b) /\ is_expired (after (c_max (s_cfg s)) b) b = false)) ->
  is_ok (handle O s b a (Propose pm)) = true.
Proof.
  intros HS HI Hper Hdec Hact Hfit Hv. pose proof HI as [HW HT].
  pose proof (ti_att _ _ _ _ HT) as [Ed Hty].
  simpl. unfold execute_propose. rewrite Hper, Hdec, Hact, Hfit.
  set (p0 := Proposal proposer _ _ _ _ _ _ _ _ _ _).
  assert (p0 = new_prop O s b proposer (pm_msgs pm) Open) as Ep0 by reflexivity.
  pose proof (wi_cfg _ _ HW) as Hcfg. apply validate_config_ok in Hcfg as (Ht & Hm & Hvt).
  assert (exists st, current_status p0 b = Ok st) as [st Hst].
  { assert (wprop b p0) as Hw0.
    { constructor; simpl; try done.
      - intros b' He. unfold min_ok. simpl. destruct (c_min (s_cfg s)) as [dd|]; [|done]. simpl.
        specialize (Hm dd eq_refl).
        destruct dd, (c_max (s_cfg s)); try done; cbn [is_expired after] in *;
          apply Z.leb_le; apply Z.leb_le in He; unfold NANOS in *; lia.
      - intros vc Hvc. specialize (Hvt vc Hvc). apply exp_add_unit.
        destruct (vc_timelock vc), (c_max (s_cfg s)); done. }
    eapply current_status_total; [exact Hw0|..]; simpl; rewrite ?Ed.
    - pose proof HS as (_ & _ & S3). specialize (S3 (height b) [] NoDup_nil_2). simpl in S3.
      unfold tally_ok, cast. simpl. lia.
    - apply HS.
    - by apply thr_typed_range. }
  unfold update_status. rewrite Hst.
  destruct (pm_vote pm) as [[v r]|]; [|done]. destruct Hv as [?|[Hpw Hexp]]; [done|].
  set (s1 := State _ _ _ _ _ _ _).
  assert (prim O b s s1) as Hprim.
  { subst s1. rewrite Ep0. apply prim_new. by rewrite <- Ep0. }
  assert (sinv O d b s1) as HI1.
  { split; [by eapply prim_winv|]. eapply prim_tinv; try done. }
  assert (is_ok (handle O s1 b proposer (CastVote (s_count s + 1) v r)) = true) as Hok.
  { apply (vote_iff O d b s1); [done|done|]. exists (set_status p0 st).
    split; [subst s1; simpl; apply lookup_insert|]. split; [done|]. split; [done|].
    intros cur Hc. subst s1. simpl in Hc. apply (wi_ballots _ _ HW) in Hc.
    apply (wi_ids _ _ HW) in Hc. lia. }
  simpl in Hok. destruct (execute_vote O s1 b proposer (s_count s + 1) v r) as [[s2 x]|]; done.
Qed.

(** ** Ballots *)
Definition keeps_ballots (s s' : state) : Prop :=
  same_terms s s' /\
  forall id a bl p, s_ballots s !! (id, a) = Some bl -> s_props s !! id = Some p ->
    p_revote p = false ->
    exists bl', s_ballots s' !! (id, a) = Some bl' /\
      bl_vote bl' = bl_vote bl /\ bl_power bl' = bl_power bl.
Lemma keeps_ballots_refl s : keeps_ballots s s.
Proof. split; [apply same_terms_refl|eauto]. Qed.
Lemma keeps_ballots_trans a b c : keeps_ballots a b -> keeps_ballots b c -> keeps_ballots a c.
Proof.
  intros [T1 A] [T2 B]. split; [by eapply same_terms_trans|].
  intros id x bl p Hb Hp Hr. destruct (A id x bl p Hb Hp Hr) as (bl1 & Hb1 & E1 & E1').
  destruct T1 as [_ T1]. destruct (T1 id p Hp) as (p1 & Hp1 & Et).
  assert (p_revote p1 = false) as Hr1 by (unfold terms in Et; congruence).
  destruct (B id x bl1 p1 Hb1 Hp1 Hr1) as (bl2 & Hb2 & E2 & E2'). exists bl2. split; [done|]. split; congruence.
Qed.
Lemma prim_keeps_ballots O b s s' : winv b s -> prim O b s s' -> keeps_ballots s s'.
Proof.
  intros HI Hp. split; [by eapply prim_terms|]. destruct Hp; simpl; eauto.
  - intros id' a' bl p' Hb Hp' Hr.
    destruct (decide ((id, a) = (id', a'))) as [[= <- <-]|Hne].
    + rewrite H in Hp'. injection Hp' as <-. unfold vote_result in H2. rewrite Hb in H2.
      destruct H2 as [? _]. congruence.
    + rewrite lookup_insert_ne by done. eauto.
  - intros id' a' bl p' Hb Hp' Hr.
    destruct (decide ((id, a) = (id', a'))) as [[= <- <-]|Hne].
    + rewrite lookup_insert. rewrite Hb in H. injection H as <-. eauto.
    + rewrite lookup_insert_ne by done. eauto.
  - rewrite H0. eauto.
Qed.
Lemma legit_keeps_ballots O e :
  legit (handle O) on_fail on_ok any_msg winv pend e -> keeps_ballots (ev_pre e) (ev_post e).
Proof.
  intros Hl. pose proof (legit_terms O e Hl) as Ht. destruct Hl as (HI & _ & H).
  destruct e as [pre b a m post subs|pre b x ok post]; simpl in *.
  - destruct H as [_ H]. apply handle_prims in H. clear Ht.
    induction H as [|s1 s2 s3 Hp Hr IH]; [apply keeps_ballots_refl|].
    eapply keeps_ballots_trans; [by eapply prim_keeps_ballots|]. apply IH. by eapply prim_winv.
  - destruct ok.
    + destruct H as [_ [d H]]. eapply prim_keeps_ballots; [done|by eapply (on_ok_prims O)].
    + destruct H as [_ H]. split; [done|].
      destruct (on_fail_shape _ _ _ _ H) as [(d & id & ms & p & -> & Hp & ->)|(Hx & E1 & E2 & E3 & E4)].
      * simpl. eauto.
      * rewrite E2. eauto.
Qed.
Lemma trace_keeps_ballots O b0 s l b1 s' : strace O b0 s l b1 s' -> keeps_ballots s s'.
Proof.
  apply trace_rel; [apply keeps_ballots_refl|apply keeps_ballots_trans|apply legit_keeps_ballots].
Qed.

(** What one vote does to the tally and the ballots. *)
Definition tally_power (o : option ballot) (v : vote) : Z :=
  match o with Some bl => if decide (bl_vote bl = v) then bl_power bl else 0 | None => 0 end.
Lemma vote_effect O s b a id v r s' subs :
  handle O s b a (CastVote id v r) = Ok (s', subs) ->
  exists p p', s_props s !! id = Some p /\ s_props s' !! id = Some p' /\
    s_ballots s' = <[(id, a) := Ballot (vp O (c_dao (s_cfg s)) a (p_start p)) v r]> (s_ballots s) /\
    (forall v0, tally_of p' v0 =
       tally_of p v0 - tally_power (s_ballots s !! (id, a)) v0
       + tally_power (s_ballots s' !! (id, a)) v0) /\
    (forall i, i <> id -> s_props s' !! i = s_props s !! i).
Proof.
  simpl. intros H. apply execute_vote_shape in H as (p & votes1 & st & H1 & H2 & H3 & H4 & H5 & -> & _).
  exists p, (set_status (set_votes p votes1) st). simpl. rewrite !lookup_insert.
  split; [done|]. split; [done|]. split; [done|]. split.
  - intros v0. simpl. unfold vote_result in H4. destruct (s_ballots s !! (id, a)) as [cur|]; simpl.
    + destruct H4 as (_ & Hne & votes0 & Hr & Ha).
      apply remove_vote_ok in Hr. apply add_vote_ok in Ha. subst.
      destruct (bl_vote cur) eqn:Ec, v, v0; simpl; repeat destruct (decide _); try congruence; lia.
    + apply add_vote_ok in H4. subst. destruct v, v0; simpl; repeat destruct (decide _); try congruence; lia.
  - intros i Hi. by rewrite lookup_insert_ne.
Qed.

(** ** Hook failures *)
Lemma run_quiet_no_inst b s (subs : list sub) :
  (forall i, SInstantiate i ∉ subs) ->
  exists l : slog, run_quiet on_ok b s subs = Ok (s, l).
Proof.
  induction subs as [|x subs IH]; intros Hne; simpl; [by eexists|].
  assert (on_ok s b x 0%N = Ok s) as ->.
  { destruct x; try done. exfalso. eapply Hne. left. }
  destruct IH as [l ->]; [|by eexists]. intros i Hi. eapply Hne. by right.
Qed.
Lemma run_subs_one_fail O b s subs k x s' :
  (forall i, SInstantiate i ∉ subs) -> subs !! k = Some x -> on_fail s b x = Ok s' ->
  exists l, run_subs (handle O) on_fail on_ok b s subs
              (replicate k (Some (0%N, [])) ++ [None]) = Ok (s', l).
Proof.
  revert k. induction subs as [|y subs IH]; intros k Hne Hk Hf; [done|].
  assert (forall i, SInstantiate i ∉ subs) as Hne'. { intros i Hi. eapply Hne. by right. }
  destruct k as [|k].
  - injection Hk as ->. cbn [replicate app].
    change (exists l : slog, (do! s'0 <- on_fail s b x;
       do! ' (s'', l) <- run_quiet on_ok b s'0 subs;
       Ok (s'', ESub s b x false s'0 :: l)) = Ok (s', l)).
    rewrite Hf. destruct (run_quiet_no_inst b s' subs Hne') as [l ->]. by eexists.
  - cbn [replicate app].
    change (exists l : slog, (do! s'0 <- on_ok s b y 0%N;
       do! ' (s'', l) <- run_subs (handle O) on_fail on_ok b s'0 subs (replicate k (Some (0%N, [])) ++ [None]);
       Ok (s'', [] ++ ESub s b y true s'0 :: l)) = Ok (s', l)).
    assert (on_ok s b y 0%N = Ok s) as ->.
    { destruct y; try done. exfalso. eapply Hne. left. }
    destruct (IH k Hne' Hk Hf) as [l ->]. by eexists.
Qed.

(** Hook sub-messages carry the position and address of a registered hook. *)
Definition hook_sub_ok (ph vh : list addr) (x : sub) : Prop :=
  match x with
  | SPropHook i r _ => ph !! i = Some r
  | SVoteHook i r _ _ _ => vh !! i = Some r
  | SInstantiate _ => False
  | _ => True
  end.
Lemma handle_hook_subs O s b a m s' subs :
  handle O s b a m = Ok (s', subs) -> (forall i, m <> UpdatePreProposeInfo i) ->
  (forall x, x ∈ subs -> hook_sub_ok (s_phooks s) (s_vhooks s) x) /\
  ((exists x, x ∈ subs) -> s_phooks s' = s_phooks s /\ s_vhooks s' = s_vhooks s).
Proof.
  intros H Hne.
  assert (forall id o n x, x ∈ proposal_status_changed_hooks (V:=vote) (s_phooks s) id o n ->
            hook_sub_ok (s_phooks s) (s_vhooks s) x) as Hch.
  { intros id o n x. unfold proposal_status_changed_hooks. destruct (decide _).
    - by intros ?%elem_of_nil.
    - intros (i & r & -> & Hi)%elem_imap. done. }
  assert (forall id v x, x ∈ new_vote_hooks (s_vhooks s) id a v ->
            hook_sub_ok (s_phooks s) (s_vhooks s) x) as Hvh0.
  { intros id v x (i & r & -> & Hi)%elem_imap. done. }
  assert (forall id v c x, x ∈ new_vote_hooks (s_vhooks s) id c v ->
            hook_sub_ok (s_phooks s) (s_vhooks s) x) as Hvh.
  { intros id v c x (i & r & -> & Hi)%elem_imap. done. }
  assert (forall id c x, x ∈ new_proposal_hooks (V:=vote) (s_phooks s) id c ->
            hook_sub_ok (s_phooks s) (s_vhooks s) x) as Hnp.
  { intros id c x (i & r & -> & Hi)%elem_imap. done. }
  assert (forall id st x, x ∈ proposal_completed_hooks (V:=vote) (s_policy s) id st ->
            hook_sub_ok (s_phooks s) (s_vhooks s) x) as Hco.
  { intros id st x. destruct (s_policy s); simpl; [by intros ?%elem_of_nil|].
    by intros ->%elem_of_list_singleton. }
  destruct m; simpl in H.
  - apply execute_propose_shape in H
      as (proposer & st & s1 & subs2 & _ & _ & _ & _ & Hst & -> & -> & Hv).
    destruct (pm_vote pm) as [[v r]|].
    + apply execute_vote_shape in Hv as (p & votes1 & st2 & H1 & H2 & H3 & H4 & H5 & -> & ->).
      split; [|done]. intros x. rewrite !elem_of_app. naive_solver.
    + destruct Hv as [-> ->]. split; [|done]. intros x. rewrite app_nil_r. eauto.
  - apply execute_vote_shape in H as (p & votes1 & st2 & H1 & H2 & H3 & H4 & H5 & -> & ->).
    split; [|done]. intros x. rewrite !elem_of_app. naive_solver.
  - unfold execute_update_rationale in H. destruct (s_ballots s !! _); [|discriminate].
    injection H as <- <-. split; [by intros x ?%elem_of_nil|done].
  - apply execute_execute_shape in H as (p & st & Hp & Hst & Hal & -> & ->).
    split; [|done]. intros x. rewrite !elem_of_app. intros [Hin|[Hin|Hin]]; [|eauto..].
    destruct (p_msgs p); [by apply elem_of_nil in Hin|].
    apply elem_of_list_singleton in Hin. by subst.
  - apply execute_veto_shape in H as (p & st & vc & Hp & Hst & _ & _ & Hal & -> & ->).
    split; [|done]. intros x. rewrite !elem_of_app. naive_solver.
  - apply execute_close_shape in H as (p & Hp & Hst & -> & ->).
    split; [|done]. intros x. rewrite !elem_of_app. naive_solver.
  - unfold execute_update_config in H. destruct (_ =? _)%N; [|discriminate].
    destruct (validate_config c); [|discriminate]. injection H as <- <-.
    split; [by intros x ?%elem_of_nil|done].
  - by destruct (Hne i).
  - unfold execute_add_proposal_hook in H. destruct (_ =? _)%N; [|discriminate].
    destruct (add_hook _ _); [|discriminate]. injection H as <- <-.
    split; [by intros x ?%elem_of_nil|by intros [x ?%elem_of_nil]].
  - unfold execute_remove_proposal_hook in H. destruct (_ =? _)%N; [|discriminate].
    destruct (remove_hook _ _); [|discriminate]. injection H as <- <-.
    split; [by intros x ?%elem_of_nil|by intros [x ?%elem_of_nil]].
  - unfold execute_add_vote_hook in H. destruct (_ =? _)%N; [|discriminate].
    destruct (add_hook _ _); [|discriminate]. injection H as <- <-.
    split; [by intros x ?%elem_of_nil|by intros [x ?%elem_of_nil]].
  - unfold execute_remove_vote_hook in H. destruct (_ =? _)%N; [|discriminate].
    destruct (remove_hook _ _); [|discriminate]. injection H as <- <-.
    split; [by intros x ?%elem_of_nil|by intros [x ?%elem_of_nil]].
Qed.

Lemma remove_index_filter (h : list addr) i r :
  NoDup h -> h !! i = Some r ->
  remove_hook_by_index h i = Ok (filter (fun a => a <> r) h).
Proof.
  intros Hnd Hi. unfold remove_hook_by_index.
  pose proof (lookup_lt_Some _ _ _ Hi) as Hlt.
  assert ((i <? length h)%nat = true) as -> by (apply Nat.ltb_lt; lia). f_equal.
  revert i Hi Hlt. induction h as [|x h IH]; intros i Hi Hlt; [done|].
  apply NoDup_cons in Hnd as [Hx Hnd]. destruct i as [|i]; simpl in *.
  - injection Hi as ->. rewrite filter_cons_False by (intros ?; done).
    unfold drop. clear -Hx. induction h as [|y h IH]; [done|].
    rewrite not_elem_of_cons in Hx. destruct Hx as [Hy Hx].
    rewrite filter_cons_True by congruence. f_equal. by apply IH.
  - rewrite filter_cons_True.
    + f_equal. apply IH; [done|done|lia].
    + intros ->. apply Hx. apply elem_of_list_lookup. eauto.
Qed.

(** Hook lists never contain duplicates. *)
Definition hooks_nodup (s : state) : Prop := NoDup (s_phooks s) /\ NoDup (s_vhooks s).
Lemma add_hook_nodup h a h' : NoDup h -> add_hook h a = Ok h' -> NoDup h'.
Proof.
  unfold add_hook. destruct (existsb _ _) eqn:E; [discriminate|]. intros Hn [= <-].
  apply NoDup_app. split; [done|]. split; [|apply NoDup_singleton].
  intros x Hx ->%elem_of_list_singleton.
  assert (existsb (N.eqb a) h = true); [|congruence].
  apply existsb_exists. exists a. split; [by apply elem_of_list_In|apply N.eqb_refl].
Qed.
Lemma remove_first_sublist a h : sublist (remove_first a h) h.
Proof.
  induction h as [|x h IH]; simpl; [done|]. destruct (_ =? _)%N.
  - by apply sublist_cons.
  - by apply sublist_skip.
Qed.
Lemma sublist_nodup (l k : list addr) : NoDup k -> sublist l k -> NoDup l.
Proof.
  intros Hk Hs. induction Hs as [|x l k Hs IH|x l k Hs IH]; [done|..];
    apply NoDup_cons in Hk as [Hx Hk]; [|by apply IH].
  constructor; [|by apply IH]. intros Hin. apply Hx. eapply elem_of_submseteq; [exact Hin|].
  by apply sublist_submseteq.
Qed.
Lemma remove_hook_nodup h a h' : NoDup h -> remove_hook h a = Ok h' -> NoDup h'.
Proof.
  unfold remove_hook. destruct (existsb _ _); [|discriminate]. intros Hn [= <-].
  eapply sublist_nodup; [done|apply remove_first_sublist].
Qed.
Lemma remove_index_nodup h i h' : NoDup h -> remove_hook_by_index h i = Ok h' -> NoDup h'.
Proof.
  unfold remove_hook_by_index. destruct (_ <? _)%nat; [|discriminate]. intros Hn [= <-].
  eapply sublist_nodup; [exact Hn|]. 
  assert (h = take i h ++ drop i h) as E by (by rewrite take_drop). rewrite E at 3. clear E.
  apply sublist_app; [done|]. replace (drop (S i) h) with (drop 1 (drop i h)).
  - apply sublist_drop.
  - rewrite drop_drop. f_equal. lia.
Qed.
Lemma handle_hooks_nodup O s b a m s' subs :
  handle O s b a m = Ok (s', subs) -> hooks_nodup s -> hooks_nodup s'.
Proof.
  intros H [Hp Hv]. unfold hooks_nodup. destruct m; simpl in H.
  - apply execute_propose_shape in H
      as (proposer & st & s1 & subs2 & _ & _ & _ & _ & Hst & -> & -> & Hvv).
    destruct (pm_vote pm) as [[v r]|].
    + by apply execute_vote_shape in Hvv as (p & votes1 & st2 & H1 & H2 & H3 & H4 & H5 & -> & ->).
    + by destruct Hvv as [-> ->].
  - by apply execute_vote_shape in H as (p & votes1 & st2 & H1 & H2 & H3 & H4 & H5 & -> & ->).
  - unfold execute_update_rationale in H. destruct (s_ballots s !! _); [|discriminate].
    by injection H as <- <-.
  - by apply execute_execute_shape in H as (p & st & ? & Hst & Hal & -> & ->).
  - by apply execute_veto_shape in H as (p & st & vc & ? & Hst & _ & _ & Hal & -> & ->).
  - by apply execute_close_shape in H as (p & ? & Hst & -> & ->).
  - unfold execute_update_config in H. destruct (_ =? _)%N; [|discriminate].
    destruct (validate_config c); [|discriminate]. by injection H as <- <-.
  - unfold execute_update_policy in H. destruct (_ =? _)%N; [|discriminate].
    destruct (into_initial_policy_and_messages i). by injection H as <- <-.
  - unfold execute_add_proposal_hook in H. destruct (_ =? _)%N; [|discriminate].
    destruct (add_hook _ _) eqn:E; [|discriminate]. injection H as <- <-. simpl.
    eauto using add_hook_nodup.
  - unfold execute_remove_proposal_hook in H. destruct (_ =? _)%N; [|discriminate].
    destruct (remove_hook _ _) eqn:E; [|discriminate]. injection H as <- <-. simpl.
    eauto using remove_hook_nodup.
  - unfold execute_add_vote_hook in H. destruct (_ =? _)%N; [|discriminate].
    destruct (add_hook _ _) eqn:E; [|discriminate]. injection H as <- <-. simpl.
    eauto using add_hook_nodup.
  - unfold execute_remove_vote_hook in H. destruct (_ =? _)%N; [|discriminate].
    destruct (remove_hook _ _) eqn:E; [|discriminate]. injection H as <- <-. simpl.
    eauto using remove_hook_nodup.
Qed.
Lemma trace_hooks_nodup O b0 s l b1 s' :
  strace O b0 s l b1 s' -> hooks_nodup s -> hooks_nodup s'.
Proof.
  apply (trace_rel (handle O) on_fail on_ok any_msg winv pend
    (fun s s' => hooks_nodup s -> hooks_nodup s')); [done|eauto|].
  intros e (HI & _ & H) [Hp Hv]. destruct e as [pre b a m post subs|pre b x ok post]; simpl in *.
  - destruct H as [_ H]. by eapply handle_hooks_nodup.
  - destruct ok; destruct H as [_ H].
    + destruct H as [d H]. destruct x; simpl in H; by injection H as <-.
    + destruct x; simpl in H; try discriminate.
      * destruct caught; [|discriminate]. destruct (s_props pre !! id); [|discriminate].
        by injection H as <-.
      * destruct (remove_hook_by_index _ _) eqn:E; [|discriminate]. injection H as <-.
        split; simpl; eauto using remove_index_nodup.
      * destruct (remove_hook_by_index _ _) eqn:E; [|discriminate]. injection H as <-.
        split; simpl; eauto using remove_index_nodup.
      * destruct (s_policy pre); [discriminate|]. by injection H as <-.
Qed.

Lemma one_hook_fails O s b a m s1 subs k i r pm :
  hooks_nodup s -> (forall i, m <> UpdatePreProposeInfo i) ->
  handle O s b a m = Ok (s1, subs) -> subs !! k = Some (SPropHook i r pm) ->
  exists l, scall O b s (Call a m (replicate k (Some (0%N, [])) ++ [None]))
    = Ok (with_phooks s1 (filter (fun h => h <> r) (s_phooks s)), l).
Proof.
  intros [Hn _] Hm H Hk. destruct (handle_hook_subs _ _ _ _ _ _ _ H Hm) as [A B].
  assert (SPropHook i r pm ∈ subs) as Hin by (apply elem_of_list_lookup; eauto).
  destruct B as [B _]; [eauto|]. pose proof (A _ Hin) as Hi. simpl in Hi.
  rewrite run_call_unfold, H.
  destruct (run_subs_one_fail O b s1 subs k (SPropHook i r pm)
     (with_phooks s1 (filter (fun h => h <> r) (s_phooks s)))) as [l ->].
  - intros j Hj. by apply A in Hj.
  - done.
  - simpl. rewrite Nat2Z.id, B. by rewrite (remove_index_filter _ i r Hn Hi).
  - by eexists.
Qed.
Lemma one_vote_hook_fails O s b a m s1 subs k i r id voter v :
  hooks_nodup s -> (forall i, m <> UpdatePreProposeInfo i) ->
  handle O s b a m = Ok (s1, subs) -> subs !! k = Some (SVoteHook i r id voter v) ->
  exists l, scall O b s (Call a m (replicate k (Some (0%N, [])) ++ [None]))
    = Ok (with_vhooks s1 (filter (fun h => h <> r) (s_vhooks s)), l).
Proof.
  intros [_ Hn] Hm H Hk. destruct (handle_hook_subs _ _ _ _ _ _ _ H Hm) as [A B].
  assert (SVoteHook i r id voter v ∈ subs) as Hin by (apply elem_of_list_lookup; eauto).
  destruct B as [_ B]; [eauto|]. pose proof (A _ Hin) as Hi. simpl in Hi.
  rewrite run_call_unfold, H.
  destruct (run_subs_one_fail O b s1 subs k (SVoteHook i r id voter v)
     (with_vhooks s1 (filter (fun h => h <> r) (s_vhooks s)))) as [l ->].
  - intros j Hj. by apply A in Hj.
  - done.
  - simpl. rewrite Nat2Z.id, B. by rewrite (remove_index_filter _ i r Hn Hi).
  - by eexists.
Qed.
