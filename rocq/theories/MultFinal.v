(** dao-proposal-multiple: finality of outcomes, totality of the calls, hooks. *)
From Verif Require Import Base BaseProofs Exec ExecProofs VotingModel VotingSpec
  VotingProofs HooksModel MultModel MultSpec MultProofs MultRules MultLife MultTally.

(** ** A generic preservation principle on top of the strong invariant *)
Lemma mult_preserve O d (J : block -> state -> Prop) b0 s h s' l :
  sane O d ->
  (forall b s s', sinv O d b s -> J b s -> prim O b s s' -> sinv O d b s' -> J b s') ->
  (forall b s x s', sinv O d b s -> pend b s x -> J b s -> on_fail s b x = Ok s' -> J b s') ->
  (forall b b' s, block_le b b' -> J b s -> J b' s) ->
  sinv O d b0 s -> J b0 s -> hist_ok b0 h -> hist_all (keeps_dao d) h ->
  srun O s h = (s', l) -> J (hist_end b0 h) s'.
Proof.
  intros HS Hp Hf Ht HI HJ Hh Ha Hr.
  assert (forall b s s', rtc (aprim O d b) s s' -> sinv O d b s -> J b s ->
            sinv O d b s' /\ J b s') as Hrtc.
  { intros b s1 s2 H. induction H as [|s1 s2 s3 [H1 H2] Hrt IH]; [done|].
    intros HI1 HJ1. assert (sinv O d b s2) as HI2.
    { apply (aprims_sinv O d b s1 s2 HS HI1). apply rtc_once. by split. }
    apply IH; [done|]. exact (Hp b s1 s2 HI1 HJ1 H1 HI2). }
  edestruct (run_hist_trace (handle O) on_fail on_ok (keeps_dao d)
     (fun b s => sinv O d b s /\ J b s) pend) as [[_ Hfin] _];
    [..|exact Hh|exact Ha|exact Hr|exact Hfin]; try done.
  - intros b s1 a m s2 subs [HI1 HT1] Hm H. split.
    + apply (Hrtc b s1 s2); [|done..]. by eapply handle_aprims.
    + intros x Hx. by eapply handle_pend.
  - intros b s1 x s2 [HI1 HT1] HP H. split; [by eapply on_fail_sinv|by eapply Hf].
  - intros b s1 x r s2 [HI1 HT1] HP H. apply (Hrtc b s1 s2); [|done..].
    apply rtc_once. by eapply on_ok_aprim.
  - intros b s1 a m s2 subs x [[HI1 _] _] _ H HP d' id ms c ->.
    eapply done_at_prims; [done|by eapply handle_prims|]. by eapply HP.
  - intros b s1 x s2 y HI1 _ H HP d' id ms c ->. eapply on_fail_done; [done|]. by eapply HP.
  - intros b s1 x r s2 y [[HI1 _] _] _ H HP d' id ms c ->.
    eapply (done_at_prims O b s1); [done|apply rtc_once; by eapply on_ok_prims|]. by eapply HP.
  - intros b b' s1 Hb [[HW HT] HJ1].
    split; [split; [by eapply winv_time|by eapply tinv_time]|by eapply Ht].
Qed.

Lemma sinv_time O d b b' s : block_le b b' -> sinv O d b s -> sinv O d b' s.
Proof. intros Hb [HW HT]. split; [by eapply winv_time|by eapply tinv_time]. Qed.
Lemma reached_winv O b s l : reached O b s l -> winv b s.
Proof.
  intros (b0 & s0 & h & Hf & Hh & Hr & Hb). eapply winv_time; [done|].
  eapply mult_trace; eauto using fresh_winv.
Qed.
Lemma reached_for_sinv O d b s l : sane O d -> reached_for O d b s l -> sinv O d b s.
Proof.
  intros HS (b0 & s0 & h & Hf & Hat & Hh & Ha & Hr & Hb). eapply sinv_time; [done|].
  eapply mult_strong; eauto using fresh_sinv.
Qed.
Lemma later_for_sinv O d b s b' s' l :
  sane O d -> sinv O d b s -> later_for O d b s b' s' l -> sinv O d b' s'.
Proof.
  intros HS HI (h & Hh & Ha & Hr & Hb). eapply sinv_time; [done|]. by eapply mult_strong.
Qed.

(** ** Passing is final *)
Definition pass_locked (id : Z) (w : nat) (b : block) (s : state) : Prop :=
  exists p, s_props s !! id = Some p /\ min_ok p b /\
    (p_status p = Open \/ passed_like (p_status p) \/ p_status p = Vetoed) /\
    ((p_revote p = false /\ decided_for (p_quorum p) (p_total p) (p_votes p) w) \/
     (is_expired (p_exp p) b = true /\ chosen (p_quorum p) (p_total p) (p_votes p) w)).

Lemma pass_locked_status O d id w b s st :
  sane O d -> sinv O d b s -> pass_locked id w b s -> query_status s b id = Ok st ->
  passed_like st \/ st = Vetoed.
Proof.
  intros HS [HW HT] (p & Hp & Hmin & Hst & Hlock) Hq.
  unfold query_status in Hq. rewrite Hp in Hq.
  pose proof (tprop_tally _ _ _ _ _ _ HW HT Hp) as (Hok & HT').
  apply current_status_cases in Hq.
  assert (p_status p = Open -> is_passed p b = Ok true) as Hpass.
  { intros Eo. destruct (is_passed_spec p b (wprop_shaped _ _ (wi_props _ _ HW _ _ Hp)) Hok HT') as (r & Er & Hiff). rewrite Er.
    f_equal. apply Hiff. split; [|split; [done|]].
    - intros Er'. destruct Hlock as [[? _]|[? _]]; congruence.
    - destruct (is_expired (p_exp p) b) eqn:Ex; [|destruct Hlock as [[_ ?]|[? _]]; [by eexists|done]].
      exists w. destruct Hlock as [[_ He]|[_ ?]]; [|done].
      by eapply decided_mono; eauto using weights_le_refl. }
  destruct (p_status p) eqn:Es; subst; try (naive_solver).
  specialize (Hpass eq_refl).
  destruct Hq as [(-> & _)|[(vc & e & -> & _)|[(-> & Hp' & _)|(-> & Hp' & _)]]];
    try (left; done); congruence.
Qed.

Lemma pass_locked_votes p v w b :
  is_expired (p_exp p) b = false ->
  (p_revote p = false -> weights_le (p_votes p) v) -> tally_ok (p_total p) v ->
  ((p_revote p = false /\ decided_for (p_quorum p) (p_total p) (p_votes p) w) \/
   (is_expired (p_exp p) b = true /\ chosen (p_quorum p) (p_total p) (p_votes p) w)) ->
  p_revote p = false /\ decided_for (p_quorum p) (p_total p) v w.
Proof.
  intros Hx Hle Hok [[Hv He]|[? _]]; [|congruence]. split; [done|].
  by eapply decided_mono; eauto.
Qed.

Lemma pass_locked_prim O d id w b s s' :
  sane O d -> sinv O d b s -> pass_locked id w b s -> prim O b s s' -> sinv O d b s' ->
  pass_locked id w b s'.
Proof.
  intros HS HI HL Hprim HI'. pose proof HL as (p & Hp & Hmin & Hst & Hlock).
  pose proof HI as [HW HT].
  destruct Hprim as [s proposer opts ms st Hio Hcs|s id0 a p0 v r votes1 st Hp0 Hlt Hx Hpw Hvr Hcs|s id0 p0 st fin Hp0 Hcs Hal|s id0 a cur r Hb|s s' E1 E2 E3 E4].
  - exists p. simpl. rewrite lookup_insert_ne; [done|]. intros <-.
    assert (1 <= s_count s + 1 <= s_count s); [|lia]. apply (wi_ids _ _ HW). eauto.
  - destruct (decide (id = id0)) as [->|Hne].
    + rewrite Hp in Hp0. injection Hp0 as <-.
      assert (tally_ok (p_total p) votes1) as Hok1.
      { destruct HI' as [HW' HT']. apply (tprop_tally O d b _ id0 (set_status (set_votes p votes1) st) HW') in HT' as [Hok' _];
          [exact Hok'|]. simpl. apply lookup_insert. }
      pose proof (tprop_tally _ _ _ _ _ _ HW HT Hp) as (Hok & HTm).
      assert (p_revote p = false -> weights_le (p_votes p) votes1) as Hle.
      { intros Hr. eapply vote_result_le; [|done..].
        destruct (ti_att _ _ _ _ HT) as [-> _]. apply HS. }
      pose proof (pass_locked_votes p votes1 w b Hx Hle Hok1 Hlock) as [Hr He].
      exists (set_status (set_votes p votes1) st). simpl. rewrite lookup_insert.
      split; [done|]. split; [done|]. split; [|left; done].
      assert (well_shaped (set_votes p votes1)) as Hsh1.
      { apply (wprop_shaped b). apply wprop_votes; [by apply (wi_props _ _ HW id0)|].
        by eapply vote_result_length. }
      apply current_status_cases in Hcs. simpl in Hcs.
      destruct (p_status p) eqn:Es; subst; try naive_solver.
      destruct Hcs as [(-> & _)|[(vc & e & -> & _)|[(-> & Hp' & _)|(-> & Hp' & _)]]];
        try (by (right; left)); exfalso;
        destruct (is_passed_spec (set_votes p votes1) b Hsh1 Hok1 HTm) as (r' & Er & Hiff);
        rewrite Er in Hp'; injection Hp' as ->;
        (assert (false = true); [|done]); apply Hiff; unfold pass_cond, min_ok; simpl;
        rewrite Hx, Hr; (split; [done|]); (split; [exact Hmin|by exists w]).
    + exists p. simpl. by rewrite lookup_insert_ne.
  - destruct (decide (id = id0)) as [->|Hne].
    + rewrite Hp in Hp0. injection Hp0 as <-.
      assert (passed_like st \/ st = Vetoed) as Hst'.
      { apply (pass_locked_status O d id0 w b s st HS HI HL). unfold query_status. by rewrite Hp. }
      exists (set_status p fin). simpl. rewrite lookup_insert. repeat (split; [done|]).
      split; [|done].
      destruct Hal as [[-> Hal]|[[-> Hal]|[-> ->]]]; [by right; left|by right; right|].
      destruct Hst'; done.
    + exists p. simpl. by rewrite lookup_insert_ne.
  - by exists p.
  - exists p. by rewrite E1.
Qed.
Lemma pass_locked_fail id w b s x s' :
  pend b s x -> pass_locked id w b s -> on_fail s b x = Ok s' -> pass_locked id w b s'.
Proof.
  intros HP (p & Hp & Hmin & Hst & Hlock) H.
  destruct (on_fail_shape s b x s' H) as [(d0 & id0 & ms & p0 & -> & Hp0 & ->)|(Hx & E1 & E2 & E3 & E4)].
  - destruct (decide (id = id0)) as [->|Hne].
    + rewrite Hp in Hp0. injection Hp0 as <-.
      exists (set_status p ExecutionFailed). simpl. rewrite lookup_insert.
      repeat (split; [done|]). split; [by right; left|done].
    + exists p. simpl. by rewrite lookup_insert_ne.
  - exists p. by rewrite E1.
Qed.
Lemma pass_locked_time id w b b' s : block_le b b' -> pass_locked id w b s -> pass_locked id w b' s.
Proof.
  intros Hb (p & Hp & Hmin & Hst & Hlock). exists p.
  split; [done|]. split; [by eapply min_ok_mono|]. split; [done|].
  destruct Hlock as [?|[? ?]]; [by left|right]. eauto using is_expired_mono.
Qed.
Lemma pass_locked_intro O d b s id p st :
  sane O d -> sinv O d b s -> s_props s !! id = Some p ->
  query_status s b id = Ok st -> passed_like st -> exists w, pass_locked id w b s.
Proof.
  intros HS [HW HT] Hp Hq Hst. unfold query_status in Hq. rewrite Hp in Hq.
  pose proof (tprop_tally _ _ _ _ _ _ HW HT Hp) as (Hok & HT').
  pose proof (wprop_current b p st (wi_props _ _ HW _ _ Hp) Hq) as Hw.
  pose proof (tprop_current O d b p st (wi_props _ _ HW _ _ Hp) (ti_props _ _ _ _ HT _ _ Hp) Hok Hq) as Ht.
  assert (exists w, (p_revote p = false /\ decided_for (p_quorum p) (p_total p) (p_votes p) w) \/
     (is_expired (p_exp p) b = true /\ chosen (p_quorum p) (p_total p) (p_votes p) w)) as [w Hlock].
  { destruct (t_pass _ _ _ _ Ht Hst) as [[? [w ?]]|[? [w ?]]]; exists w; [left|right]; done. }
  exists w, p. split; [done|]. split; [by apply (w_passed_min _ _ Hw)|].
  split; [|done].
  apply current_status_cases in Hq. destruct (p_status p) eqn:Es; subst; naive_solver.
Qed.
Lemma pass_locked_chosen O d id w b s p :
  sinv O d b s -> pass_locked id w b s -> s_props s !! id = Some p ->
  chosen (p_quorum p) (p_total p) (p_votes p) w.
Proof.
  intros [HW HT] (p' & Hp' & _ & _ & Hlock) Hp. rewrite Hp in Hp'. injection Hp' as <-.
  pose proof (tprop_tally _ _ _ _ _ _ HW HT Hp) as (Hok & _).
  destruct Hlock as [[_ He]|[_ ?]]; [|done].
  by apply (decided_mono _ _ _ (p_votes p) _ He (weights_le_refl _)).
Qed.

Lemma pass_locked_later O d id w b s b' s' l :
  sane O d -> sinv O d b s -> pass_locked id w b s -> later_for O d b s b' s' l ->
  pass_locked id w b' s'.
Proof.
  intros HS HI HL (h & Hh & Ha & Hr & Hb).
  eapply pass_locked_time; [done|].
  eapply (mult_preserve O d (pass_locked id w)); try done.
  - intros b1 s1 s2 HI1 HJ1 Hp1 HI2. exact (pass_locked_prim O d id w b1 s1 s2 HS HI1 HJ1 Hp1 HI2).
  - intros b1 s1 x s2 _ HP HJ1 H1. exact (pass_locked_fail id w b1 s1 x s2 HP HJ1 H1).
  - intros b1 b2 s1 Hb1 HJ1. exact (pass_locked_time id w b1 b2 s1 Hb1 HJ1).
Qed.
Lemma pass_final O d b s id st b' s' l st' p' :
  sane O d -> sinv O d b s -> query_status s b id = Ok st -> passed_like st ->
  later_for O d b s b' s' l -> query_status s' b' id = Ok st' -> s_props s' !! id = Some p' ->
  (passed_like st' \/ st' = Vetoed) /\
  exists p w, s_props s !! id = Some p /\ chosen (p_quorum p) (p_total p) (p_votes p) w /\
    chosen (p_quorum p') (p_total p') (p_votes p') w.
Proof.
  intros HS HI Hq Hst Hlat Hq' Hp'.
  assert (exists p, s_props s !! id = Some p) as [p Hp].
  { unfold query_status in Hq. destruct (s_props s !! id); [eauto|discriminate]. }
  pose proof (later_for_sinv _ _ _ _ _ _ _ HS HI Hlat) as HI'.
  destruct (pass_locked_intro _ _ _ _ _ _ _ HS HI Hp Hq Hst) as [w HL].
  pose proof (pass_locked_later _ _ _ _ _ _ _ _ _ HS HI HL Hlat) as HL'.
  split; [exact (pass_locked_status O d id w b' s' st' HS HI' HL' Hq')|].
  exists p, w. split; [done|]. split.
  - exact (pass_locked_chosen O d id w b s p HI HL Hp).
  - exact (pass_locked_chosen O d id w b' s' p' HI' HL' Hp').
Qed.

(** ** Rejection is final *)
Definition rej_locked (id : Z) (b : block) (s : state) : Prop :=
  exists p, s_props s !! id = Some p /\
    (rejected_like (p_status p) \/
     (p_status p = Open /\ is_expired (p_exp p) b = true /\
      forall w, ~ chosen (p_quorum p) (p_total p) (p_votes p) w)).

Lemma rej_locked_status O d id b s st :
  sane O d -> sinv O d b s -> rej_locked id b s -> query_status s b id = Ok st ->
  rejected_like st.
Proof.
  intros HS [HW HT] (p & Hp & Hst) Hq.
  unfold query_status in Hq. rewrite Hp in Hq.
  pose proof (tprop_tally _ _ _ _ _ _ HW HT Hp) as (Hok & HT').
  apply current_status_cases in Hq.
  destruct Hst as [Hst|(Es & Hx & Hno)]; [destruct (p_status p); subst; done|].
  rewrite Es in Hq.
  assert (is_passed p b <> Ok true) as Hnp.
  { intros Hps. destruct (is_passed_spec p b (wprop_shaped _ _ (wi_props _ _ HW _ _ Hp)) Hok HT') as (r & Er & Hiff).
    rewrite Hps in Er. injection Er as <-. destruct Hiff as [Hiff _].
    destruct (Hiff eq_refl) as (_ & _ & Hc). rewrite Hx in Hc. destruct Hc as [w Hc]. by eapply Hno. }
  destruct Hq as [(-> & ? & _)|[(vc & e & -> & ? & _)|[(-> & Hp' & _)|(-> & Hp' & ? & _)]]];
    try done; congruence.
Qed.
Lemma rej_locked_intro O d b s id st :
  sane O d -> sinv O d b s ->
  query_status s b id = Ok st -> rejected_like st -> rej_locked id b s.
Proof.
  intros HS [HW HT] Hq Hst. unfold query_status in Hq.
  destruct (s_props s !! id) as [p|] eqn:Hp; [|discriminate].
  pose proof (tprop_tally _ _ _ _ _ _ HW HT Hp) as (Hok & HT').
  pose proof (wi_props _ _ HW _ _ Hp) as Hw. pose proof (ti_props _ _ _ _ HT _ _ Hp) as Ht.
  exists p. split; [done|]. pose proof Hq as Hq0. apply current_status_cases in Hq.
  destruct (p_status p) eqn:Es; subst; try (by left); try done; try naive_solver.
  right. split; [done|].
  destruct Hq as [(-> & ? & _)|[(vc & e & -> & ? & _)|[(-> & Hp' & Hr)|(-> & Hp' & ? & _)]]]; try done.
  assert (is_expired (p_exp p) b = true) as Hx.
  { destruct Hr as [?|Hr]; [done|]. destruct (is_expired (p_exp p) b) eqn:Ex; [done|].
    rewrite (t_open _ _ _ _ Ht Es b Ex) in Hr. done. }
  split; [done|]. intros w Hout.
  destruct (is_passed_spec p b (wprop_shaped _ _ (wi_props _ _ HW _ _ Hp)) Hok HT') as (r & Er & Hiff). rewrite Hp' in Er. injection Er as <-.
  assert (false = true); [|done]. apply Hiff. split; [done|]. split; [by apply (w_min _ _ Hw)|].
  rewrite Hx. by exists w.
Qed.
Lemma rej_locked_time id b b' s : block_le b b' -> rej_locked id b s -> rej_locked id b' s.
Proof.
  intros Hb (p & Hp & Hst). exists p. split; [done|].
  destruct Hst as [?|(? & ? & ?)]; [by left|right]. eauto using is_expired_mono.
Qed.
Lemma rej_locked_prim O d id b s s' :
  sane O d -> sinv O d b s -> rej_locked id b s -> prim O b s s' -> rej_locked id b s'.
Proof.
  intros HS HI HL Hprim. pose proof HL as (p & Hp & Hst).
  pose proof HI as [HW HT].
  destruct Hprim as [s proposer opts ms st Hio Hcs|s id0 a p0 v r votes1 st Hp0 Hlt Hx Hpw Hvr Hcs|s id0 p0 st fin Hp0 Hcs Hal|s id0 a cur r Hb|s s' E1 E2 E3 E4].
  - exists p. simpl. rewrite lookup_insert_ne; [done|]. intros <-.
    assert (1 <= s_count s + 1 <= s_count s); [|lia]. apply (wi_ids _ _ HW). eauto.
  - destruct (decide (id = id0)) as [->|Hne].
    + rewrite Hp in Hp0. injection Hp0 as <-.
      destruct Hst as [Hst|(_ & ? & _)]; [|congruence].
      eexists. simpl. rewrite lookup_insert. split; [done|]. left.
      apply current_status_cases in Hcs. simpl in *. destruct (p_status p); subst; done.
    + exists p. simpl. by rewrite lookup_insert_ne.
  - destruct (decide (id = id0)) as [->|Hne].
    + rewrite Hp in Hp0. injection Hp0 as <-.
      assert (rejected_like st) as Hst'.
      { apply (rej_locked_status O d id0 b s st HS HI HL). unfold query_status. by rewrite Hp. }
      eexists. simpl. rewrite lookup_insert. split; [done|]. left. simpl.
      destruct Hal as [[-> [->|[? ->]]]|[[-> [->|[? ->]]]|[-> ->]]]; done.
    + exists p. simpl. by rewrite lookup_insert_ne.
  - by exists p.
  - exists p. by rewrite E1.
Qed.
Lemma rej_locked_fail id b s x s' :
  pend b s x -> rej_locked id b s -> on_fail s b x = Ok s' -> rej_locked id b s'.
Proof.
  intros HP (p & Hp & Hst) H.
  destruct (on_fail_shape s b x s' H) as [(d0 & id0 & ms & p0 & -> & Hp0 & ->)|(Hx & E1 & E2 & E3 & E4)].
  - destruct (decide (id = id0)) as [->|Hne].
    + destruct (HP _ _ _ _ eq_refl) as (p' & Hp' & Hd). rewrite Hp in Hp'. injection Hp' as <-.
      exfalso. destruct Hd as [Hd|Hd]; rewrite Hd in Hst; destruct Hst as [?|(? & _)]; done.
    + exists p. simpl. by rewrite lookup_insert_ne.
  - exists p. by rewrite E1.
Qed.
Lemma reject_final O d b s id st b' s' l st' :
  sane O d -> sinv O d b s -> query_status s b id = Ok st -> rejected_like st ->
  later_for O d b s b' s' l -> query_status s' b' id = Ok st' ->
  rejected_like st'.
Proof.
  intros HS HI Hq Hst Hlat Hq'.
  pose proof (later_for_sinv _ _ _ _ _ _ _ HS HI Hlat) as HI'.
  pose proof (rej_locked_intro _ _ _ _ _ _ HS HI Hq Hst) as HL.
  destruct Hlat as (h & Hh & Ha & Hr & Hb).
  eapply rej_locked_status; [done|exact HI'| |done].
  eapply rej_locked_time; [done|].
  eapply (mult_preserve O d (rej_locked id)); try done.
  - intros b1 s1 s2 HI1 HJ1 Hp1 HI2. exact (rej_locked_prim O d id b1 s1 s2 HS HI1 HJ1 Hp1).
  - intros b1 s1 x s2 _ HP HJ1 H1. exact (rej_locked_fail id b1 s1 x s2 HP HJ1 H1).
  - intros b1 b2 s1 Hb1 HJ1. exact (rej_locked_time id b1 b2 s1 Hb1 HJ1).
Qed.

(** ** What a reported outcome says about the tally *)
Lemma reported_tprop O d b s id p st :
  sane O d -> sinv O d b s -> s_props s !! id = Some p -> query_status s b id = Ok st ->
  tprop O d b (set_status p st) /\ wprop b (set_status p st) /\
  tally_ok (p_total p) (p_votes p) /\ p_total p <= U128_MAX.
Proof.
  intros HS [HW HT] Hp Hq. unfold query_status in Hq. rewrite Hp in Hq.
  pose proof (tprop_tally _ _ _ _ _ _ HW HT Hp) as (Hok & HT').
  split; [|split; [|done]].
  - by apply tprop_current; [apply (wi_props _ _ HW id)|apply (ti_props _ _ _ _ HT id)|..].
  - by apply wprop_current; [apply (wi_props _ _ HW id)|].
Qed.

Lemma passed_continuations O d b s id p st :
  sane O d -> sinv O d b s -> s_props s !! id = Some p ->
  query_status s b id = Ok st -> passed_like st ->
  is_expired (p_exp p) b = false ->
  p_revote p = false /\ exists i,
  forall w', weights_le (p_votes p) w' -> tally_ok (p_total p) w' ->
             chosen (p_quorum p) (p_total p) w' i.
Proof.
  intros HS HI Hp Hq Hst Hx.
  destruct (reported_tprop _ _ _ _ _ _ _ HS HI Hp Hq) as (Ht & _ & Hok & _).
  destruct (t_pass _ _ _ _ Ht Hst) as [[Hr [i He]]|[? _]]; simpl in *; [|congruence].
  split; [done|]. exists i. intros v' Hle Hok'.
  exact (proj2 (decided_mono _ _ _ _ _ He Hle Hok')).
Qed.
Lemma rejected_continuations O d b s id p st :
  sane O d -> sinv O d b s -> s_props s !! id = Some p ->
  query_status s b id = Ok st -> rejected_like st ->
  is_expired (p_exp p) b = false ->
  p_revote p = false /\
  forall w' i, weights_le (p_votes p) w' -> tally_ok (p_total p) w' ->
             ~ chosen (p_quorum p) (p_total p) w' i.
Proof.
  intros HS HI Hp Hq Hst Hx.
  destruct (reported_tprop _ _ _ _ _ _ _ HS HI Hp Hq) as (Ht & _ & Hok & _).
  destruct (t_rej _ _ _ _ Ht Hst) as [[Hr He]|[? _]]; simpl in *; [|congruence]. done.
Qed.
(** After expiration the reported outcome is the rule applied to the tally. *)
Lemma outcome_at_expiry O d b s id p st :
  sane O d -> sinv O d b s -> s_props s !! id = Some p -> query_status s b id = Ok st ->
  is_expired (p_exp p) b = true ->
  (passed_like st \/ rejected_like st \/ st = Vetoed) /\
  (passed_like st -> exists i, chosen (p_quorum p) (p_total p) (p_votes p) i) /\
  (rejected_like st -> forall i, ~ chosen (p_quorum p) (p_total p) (p_votes p) i).
Proof.
  intros HS HI Hp Hq Hx.
  destruct (reported_tprop _ _ _ _ _ _ _ HS HI Hp Hq) as (Ht & Hw & Hok & HT').
  split; [|split].
  - unfold query_status in Hq. rewrite Hp in Hq. apply current_status_cases in Hq.
    destruct (p_status p); subst; simpl; try tauto; try naive_solver.
    destruct Hq as [(-> & ? & _)|[(vc & e & -> & ? & _)|[(-> & Hp' & Hr)|(-> & Hp' & ? & _)]]];
      simpl; try tauto. congruence.
  - intros Hst. destruct (t_pass _ _ _ _ Ht Hst) as [[Hr [i He]]|[_ ?]]; [|done].
    exists i. exact (proj2 (decided_mono _ _ _ _ _ He (weights_le_refl _) Hok)).
  - intros Hst i. destruct (t_rej _ _ _ _ Ht Hst) as [[Hr He]|[_ Hn]].
    + apply He; [apply weights_le_refl|done].
    + apply Hn.
Qed.

