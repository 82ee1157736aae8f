(** What two DAOs of which one approves the proposals of the other are proved to keep. *)
From stdpp Require Import gmap strings sorting.
From Verif Require Import Base BaseProofs Exec ExecProofs VotingModel VotingSpec VotingProofs HooksModel SingleModel
  SingleSpec SingleProofs SingleLife SingleTally SingleFinal DaoProofs PreModel PreSpec PreProofs PreSingle PreJoint
  PreClaims ApproverModel TwoModel TwoSpec TwoProofs TwoInv TwoPast.

Lemma step_jle O1 O2 d A P n0 b e j v todo j' v' todo' :
  tinv O2 d A P n0 b j v todo -> tstep O1 O2 A P b e j v todo j' v' todo' -> jle j j'.
Proof.
  intros HI H. pose proof HI as [].
  destruct H as [a m j' l todo -> Ha1 Ha2 Hc|y pm j' l rest Hy Hc|a m v' l todo -> Ha1 Ha2 Hc|
    i act fits v' l rest Hc|id st i y rest Hi Hst|x rest Hx|x rest Hx Hx2|x j' rest Hc|
    x dd j' rest Hd1 Hd2 Hc|x s' rest Hc|x dd s' rest Hd1 Hd2 Hc|y rest]; try apply jle_refl.
  - by destruct (jhandle_step _ _ _ _ _ _ _ ti_j Hc).
  - by destruct (jhandle_step _ _ _ _ _ _ _ ti_j Hc).
  - by destruct (jfail_step _ _ _ _ ti_j (ti_pend x ltac:(left; left)) Hc) as (B1 & B2 & _).
  - by destruct (jok_step O1 _ _ _ _ _ ti_j (ti_pend x ltac:(right; left)) Hc) as (B1 & B2 & _).
Qed.

Section Leads.
Context (O1 O2 : oracle) (d : addr) (b0 : block) (s0 : two).
Context (HS : sane O2 d) (H0 : tstart O1 O2 d b0 s0).
Local Notation A := (t_appr s0).
Local Notation P := (t_boss s0).
Local Notation n0 := (q_current (j_q (t_j s0))).
Local Notation q0 := (q_completed (j_q (t_j s0))).
Local Notation n1 := (s_count (j_s (t_j s0))).

Lemma start_new : v_by_prop (aj_v (t_v s0)) = ∅ /\ v_by_pre (aj_v (t_v s0)) = ∅ /\ v_approval (aj_v (t_v s0)) = A.
Proof using H0.
  destruct H0 as [_ _ _ _ _ _ _ [pm Hn] _ _ _]. unfold v_instantiate in Hn.
  destruct (pre_instantiate _ _ _ _ _ _) as [q|]; [|done]. by injection Hn as <-.
Qed.
Lemma start_jinv : jinv b0 (t_j s0).
Proof using H0. destruct (ts_first _ _ _ _ _ H0) as [l Hl]. by destruct (jreached_inv _ _ _ _ Hl). Qed.
Lemma start_tinv : tinv O2 d A P n0 b0 (t_j s0) (t_v s0) (t_todo s0).
Proof using H0 HS.
  destruct start_new as (E1 & E2 & E3). pose proof H0 as [Hf ? ? ? ? ? [l2 Hl2] ? ? ? Ht].
  rewrite Ht. split; rewrite ?E1, ?E2, ?E3; try done.
  - apply start_jinv.
  - by eapply reached_for_sinv.
  - intros sid. rewrite lookup_empty. by intros [? ?].
  - intros x [H|H]; by apply elem_of_nil in H.
  - intros dd id ms c H; by apply elem_of_nil in H.
  - intros dd id ms H; by apply elem_of_nil in H.
  - intros i. unfold owned. rewrite E2, lookup_empty. cbn. lia.
  - intros i. unfold owned. rewrite E2, lookup_empty. cbn. lia.
Qed.
Lemma start_q0 i : is_Some (q0 !! i) -> i <= n0.
Proof using H0. intros [r Hr]. apply (qi_completed _ (ji_q _ _ start_jinv)) in Hr. lia. Qed.
Lemma start_uinv : uinv P q0 (t_j s0) (t_v s0) (t_todo s0).
Proof using H0.
  destruct start_new as (E1 & _ & _). rewrite (ts_idle _ _ _ _ _ H0). split.
  - by destruct H0.
  - intros y H. by apply elem_of_nil in H.
  - congruence.
  - intros _ sid i. by rewrite E1, lookup_empty.
Qed.

Lemma leads_inv b s l : tleads O1 O2 d b0 s0 b s l ->
  tinv O2 d A P n0 b (t_j s) (t_v s) (t_todo s) /\
  jle (t_j s0) (t_j s) /\ pinv A n1 (t_j s) /\
  (unreset l -> uinv P q0 (t_j s) (t_v s) (t_todo s)) /\
  (unreset l -> unremoved l -> hinv P n0 (t_j s) (t_v s) (t_todo s)).
Proof using H0 HS.
  induction 1 as [|b s l b' e s' Hl (IT & IL & IP & IU & IH) Hb Hor Hk He].
  - split; [apply start_tinv|]. split; [apply jle_refl|]. split.
    { intros _ id p Hid Hp.
      pose proof (proj1 (wi_ids _ _ (ji_w _ _ start_jinv) id) (mk_is_Some _ _ Hp)). lia. }
    split; [intros _; apply start_uinv|]. intros _ _. split; [by destruct H0|]. intros i Hi. lia.
  - pose proof He as Hstep. apply t_event_step in Hstep.
    assert (t_appr s = A) as EA by apply IT. assert (t_boss s = P) as EP by apply IT.
    rewrite EA, EP in Hstep.
    assert (tinv O2 d A P n0 b' (t_j s) (t_v s) (t_todo s)) as IT'.
    { destruct Hor as [E| ->]; [|done]. rewrite E in *. destruct IT. split; try done.
      - destruct ti_j. constructor; eauto using winv_time.
      - by eapply sinv_time. }
    pose proof (tinv_step _ _ _ _ _ _ _ _ _ _ _ _ _ _ HS IT' Hstep Hk) as IT2.
    split; [done|].
    assert (forall l1 : list tentry, unreset (l1 ++ [TEntry s b' e s']) ->
      unreset l1 /\ forall a env, e <> TAppr a (AJAppr env VReset)) as Hun.
    { intros l1 H. split.
      - intros x a env Hx. apply H, elem_of_app. by left.
      - intros a env. apply (H (TEntry s b' e s')), elem_of_app. right. left. }
    split.
    { exact (jle_trans _ _ _ IL (step_jle _ _ _ _ _ _ _ _ _ _ _ _ _ _ IT' Hstep)). }
    split.
    { exact (pinv_step _ _ _ _ _ _ _ _ _ _ _ _ _ _ _ (ts_two _ _ _ _ _ H0) IT' IP Hstep). }
    split.
    + intros [H1 H2]%Hun. exact (uinv_step _ _ _ _ _ _ _ _ _ _ _ _ _ _ _ HS start_q0 IT' (IU H1) Hstep H2).
    + intros [H1 H2]%Hun H3. refine (hinv_step _ _ _ _ _ _ _ _ _ _ _ _ _ _ _ IT' (IU H1) _ Hstep _).
      * apply IH; [done|]. intros x a env Hx. apply H3, elem_of_app. by left.
      * intros a env. rewrite <- EP. apply (H3 (TEntry s b' e s')), elem_of_app. right. left.
Qed.
End Leads.

Lemma owned_paired O2 d A P n0 b j v todo : tinv O2 d A P n0 b j v todo ->
  forall s i sid, v = t_v s -> v_by_prop (aj_v v) !! sid = Some i -> paired s i sid.
Proof.
  intros HI s i sid -> H. pose proof (ti_inv _ _ _ _ _ _ _ _ _ HI) as Hi. split; [by apply Hi|].
  intros sid'. split; [|by intros ->]. intros H'. apply Hi in H, H'. congruence.
Qed.
Lemma sinv_decided O d b s id p : sane O d -> sinv O d b s ->
  s_props s !! id = Some p -> p_msgs p = [] -> p_status p = Executed -> decided_by O d s id.
Proof.
  intros HS [HW HT] Hp Em Est. exists p. split; [done|]. split; [done|]. split; [done|].
  pose proof (SingleTally.ti_props _ _ _ _ HT _ _ Hp) as [E1 E2 T3 _ _].
  split; [done|]. split; [intros v; by apply (SingleTally.ti_tally _ _ _ _ HT)|].
  split; [intros a bl Hb; by eapply (SingleTally.ti_power _ _ _ _ HT)|].
  intros Hbil. destruct (T3 Hbil) as [[_ He]|[_ He]]; [by rewrite Est| |done].
  eapply early_mono; [done..|apply votes_le_refl|]. by eapply tprop_tally.
Qed.
Lemma sinv_refused O d b s id p : sane O d -> sinv O d b s ->
  s_props s !! id = Some p -> p_msgs p = [] -> p_status p = Closed -> refused_by O d s id.
Proof.
  intros HS [HW HT] Hp Em Est. exists p. split; [done|]. split; [done|]. split; [done|].
  pose proof (SingleTally.ti_props _ _ _ _ HT _ _ Hp) as [E1 E2 _ T4 _].
  split; [done|]. split; [intros v; by apply (SingleTally.ti_tally _ _ _ _ HT)|].
  split; [intros a bl Hb; by eapply (SingleTally.ti_power _ _ _ _ HT)|].
  intros Hn. destruct T4 as [[_ He]|[_ He]]; [by rewrite Est| |done].
  intros Ho. apply (He (p_votes p)); [apply votes_le_refl|by eapply tprop_tally|].
  by apply outcome_near_met.
Qed.

(** C133: what is approved or rejected was decided by the votes of the other DAO. *)
Lemma c133_decided O1 O2 d b0 s0 b s l : sane O2 d -> tstart O1 O2 d b0 s0 ->
  tleads O1 O2 d b0 s0 b s l -> unreset l ->
  (forall i pid, approved s0 s i pid ->
     exists sid, paired s i sid /\ decided_by O2 d (aj_s (t_v s)) sid) /\
  (forall i, rejected s0 s i ->
     exists sid, paired s i sid /\ refused_by O2 d (aj_s (t_v s)) sid).
Proof.
  intros HS H0 Hl Hu. destruct (leads_inv _ _ _ _ _ HS H0 _ _ _ Hl) as (IT & _ & _ & IU & _).
  specialize (IU Hu). split.
  - intros i pid (Hn & r & Hr & Est). destruct (u_done _ _ _ _ _ IU i r Hr Hn) as (sid & Hs & Hd).
    rewrite Est in Hd. exists sid. split; [by eapply owned_paired|].
    destruct (TwoInv.ti_props _ _ _ _ _ _ _ _ _ IT sid i Hs) as (p & Hp & Em & Ef).
    destruct Hd as (p' & Hp' & Hc). assert (p' = p) as -> by congruence.
    eapply sinv_decided; [done|by apply IT|done..|].
    by destruct Hc as [[_ [?|?]]|[[? _]|[? _]]].
  - intros i (Hn & r & Hr & Est). destruct (u_done _ _ _ _ _ IU i r Hr Hn) as (sid & Hs & Hd).
    rewrite Est in Hd. exists sid. split; [by eapply owned_paired|].
    destruct (TwoInv.ti_props _ _ _ _ _ _ _ _ _ IT sid i Hs) as (p & Hp & Em & Ef).
    destruct Hd as (p' & Hp' & Hc). assert (p' = p) as -> by congruence.
    eapply sinv_refused; [done|by apply IT|done..|].
    by destruct Hc as [[? _]|[[_ ?]|[? _]]].
Qed.
(** Every submission is put before the other DAO, once, and nothing else in its name. *)
Lemma c133_each O1 O2 d b0 s0 b s l : sane O2 d -> tstart O1 O2 d b0 s0 ->
  tleads O1 O2 d b0 s0 b s l -> unreset l -> unremoved l -> t_todo s = [] ->
  forall i, q_current (j_q (t_j s0)) < i <= q_current (j_q (t_j s)) ->
    exists sid p, paired s i sid /\ s_props (aj_s (t_v s)) !! sid = Some p /\ p_msgs p = [].
Proof.
  intros HS H0 Hl Hu Hr Ht i Hi.
  destruct (leads_inv _ _ _ _ _ HS H0 _ _ _ Hl) as (IT & _ & _ & _ & IH).
  destruct (IH Hu Hr) as [_ Hall]. specialize (Hall i Hi). rewrite Ht in Hall. cbn in Hall.
  unfold owned in Hall. destruct (v_by_pre _ !! i) as [sid|] eqn:E; [|lia].
  apply (ti_inv _ _ _ _ _ _ _ _ _ IT) in E.
  destruct (TwoInv.ti_props _ _ _ _ _ _ _ _ _ IT sid i E) as (p & Hp & Em & _).
  exists sid, p. split; [by eapply owned_paired|done].
Qed.
Lemma c133_only O1 O2 d b0 s0 b s l : sane O2 d -> tstart O1 O2 d b0 s0 ->
  tleads O1 O2 d b0 s0 b s l ->
  forall sid i, v_by_prop (aj_v (t_v s)) !! sid = Some i ->
    paired s i sid /\ q_current (j_q (t_j s0)) < i <= q_current (j_q (t_j s)) /\
    exists p, s_props (aj_s (t_v s)) !! sid = Some p /\ p_msgs p = [] /\ p_status p <> ExecutionFailed.
Proof.
  intros HS H0 Hl sid i Hs. destruct (leads_inv _ _ _ _ _ HS H0 _ _ _ Hl) as (IT & _).
  split; [by eapply owned_paired|]. split; [|by eapply (TwoInv.ti_props _ _ _ _ _ _ _ _ _ IT)].
  apply (ti_range _ _ _ _ _ _ _ _ _ IT). unfold owned.
  apply (ti_inv _ _ _ _ _ _ _ _ _ IT) in Hs. rewrite Hs.
  pose proof (it_hook_nonneg (t_boss s0) i (t_todo s)). lia.
Qed.
(** As long as the approver is the module of the approving DAO, they are in step. *)
Lemma c133_in_step O1 O2 d b0 s0 b s l : sane O2 d -> tstart O1 O2 d b0 s0 ->
  tleads O1 O2 d b0 s0 b s l -> unreset l -> t_todo s = [] ->
  s_policy (aj_s (t_v s)) = Module (t_boss s) ->
  forall i sid, paired s i sid ->
    (status_is (aj_s (t_v s)) sid Executed <-> exists pid, approved s0 s i pid) /\
    (status_is (aj_s (t_v s)) sid Closed <-> rejected s0 s i) /\
    (unfinished (aj_s (t_v s)) sid <-> is_Some (q_pending (j_q (t_j s)) !! i)) /\
    ~ status_is (aj_s (t_v s)) sid Vetoed.
Proof.
  intros HS H0 Hl Hu Ht Hpol i sid [Hi _].
  destruct (leads_inv _ _ _ _ _ HS H0 _ _ _ Hl) as (IT & IL & _ & IU & _).
  specialize (IU Hu). assert (t_boss s = t_boss s0) as EP by apply IT. rewrite EP in Hpol.
  apply (ti_inv _ _ _ _ _ _ _ _ _ IT) in Hi.
  destruct (c133_only _ _ _ _ _ _ _ _ HS H0 Hl sid i Hi) as (_ & Hrange & p & Hp & Em & Hef).
  pose proof (u_count _ _ _ _ _ IU Hpol sid i Hi) as Hc. rewrite Ht in Hc. cbn [lsum] in Hc.
  assert (q_completed (j_q (t_j s0)) !! i = None) as Hn.
  { destruct (q_completed (j_q (t_j s0)) !! i) as [r|] eqn:E; [|done].
    pose proof (start_q0 _ _ _ _ _ H0 i (mk_is_Some _ _ E)). lia. }
  unfold finished, decided in Hc. rewrite Hp in Hc.
  assert (forall st, status_is (aj_s (t_v s)) sid st <-> p_status p = st) as Hst.
  { intros st. split; [intros (p' & Hp' & E); congruence|by exists p]. }
  assert (unfinished (aj_s (t_v s)) sid <-> ~ terminal (p_status p)) as Hunf.
  { split; [intros (p' & Hp' & E); congruence|by exists p]. }
  rewrite !Hst, Hunf.
  pose proof (qi_all _ (ji_q _ _ (ti_j _ _ _ _ _ _ _ _ _ IT)) i) as Hsub.
  unfold submission_of in Hsub.
  pose proof (qi_current _ (ji_q _ _ (start_jinv _ _ _ _ _ H0))) as Hn0.
  destruct (q_completed (j_q (t_j s)) !! i) as [r|] eqn:Er.
  - assert (terminalb (p_status p) = true) as Hterm by (destruct (terminalb _); lia).
    destruct (u_done _ _ _ _ _ IU i r Er Hn) as (sid' & Hs' & Hd).
    assert (sid' = sid) as -> by (apply (ti_inv _ _ _ _ _ _ _ _ _ IT) in Hi, Hs'; congruence).
    assert (q_pending (j_q (t_j s)) !! i = None) as Hpn.
    { destruct (q_pending (j_q (t_j s)) !! i) as [x|] eqn:Ex; [|done].
      apply (qi_pending _ (ji_q _ _ (ti_j _ _ _ _ _ _ _ _ _ IT))) in Ex. by destruct Ex as (_ & _ & _ & _ & _ & ?); congruence. }
    rewrite Hpn.
    destruct (a_status r) eqn:Ea; [done|..]; destruct Hd as (p' & Hp' & Hcp);
      assert (p' = p) as -> by congruence.
    + assert (p_status p = Executed) as Ep by (by destruct Hcp as [[_ [?|?]]|[[? _]|[? _]]]).
      rewrite Ep. split; [split; [|done]; intros _; eexists; split; eauto|].
      split; [split; [done|]; intros (_ & r' & Hr' & E); congruence|].
      split; [|done]. split; [intros H; destruct H; by left|by intros [? ?]].
    + assert (p_status p = Closed) as Ep by (by destruct Hcp as [[? _]|[[_ ?]|[? _]]]).
      rewrite Ep. split; [split; [done|]; intros (pid & _ & r' & Hr' & E); congruence|].
      split; [split; [|done]; intros _; split; eauto|].
      split; [|done]. split; [intros H; destruct H; right; by left|by intros [? ?]].
  - assert (terminalb (p_status p) = false) as Hterm by (destruct (terminalb _); lia).
    assert (is_Some (q_pending (j_q (t_j s)) !! i)) as Hpe.
    { destruct (q_pending (j_q (t_j s)) !! i); [eauto|]. apply Hsub. lia. }
    assert (~ terminal (p_status p)) as Hnt.
    { intros H. apply terminalb_spec in H. congruence. }
    split; [split; [by intros E; rewrite E in Hterm|intros (pid & _ & r' & Hr' & _); congruence]|].
    split; [split; [by intros E; rewrite E in Hterm|intros (_ & r' & Hr' & _); congruence]|].
    split; [done|]. by intros E; rewrite E in Hterm.
Qed.
(** What the proposals of the first DAO come from. *)
Lemma c133_source O1 O2 d b0 s0 b s l : sane O2 d -> tstart O1 O2 d b0 s0 ->
  tleads O1 O2 d b0 s0 b s l -> s_policy (j_s (t_j s)) = Module (t_appr s) ->
  forall id p, s_count (j_s (t_j s0)) < id -> s_props (j_s (t_j s)) !! id = Some p ->
  exists i r, approved s0 s i id /\ submission_of (j_q (t_j s)) i = Some r /\
    p_msgs p = pm_msgs (a_msg r) /\ p_proposer p = a_proposer r /\
    (unreset l -> exists sid, paired s i sid /\ decided_by O2 d (aj_s (t_v s)) sid).
Proof.
  intros HS H0 Hl Hpol id p Hid Hp.
  destruct (leads_inv _ _ _ _ _ HS H0 _ _ _ Hl) as (IT & IL & IP & _).
  assert (t_appr s = t_appr s0) as EA by apply IT. rewrite EA in Hpol.
  destruct (IP Hpol id p Hid Hp) as (i & r & Hr & Est & E1 & E2).
  assert (approved s0 s i id) as Ha.
  { split; [|by exists r].
    destruct (q_completed (j_q (t_j s0)) !! i) as [r0|] eqn:E; [|done]. exfalso.
    pose proof (ql_completed _ _ (jl_q _ _ IL) _ _ E) as E'. assert (r0 = r) as -> by congruence.
    pose proof (start_jinv _ _ _ _ _ H0) as HJ.
    pose proof (qi_approved _ (ji_q _ _ HJ) _ _ _ E Est) as Hcr.
    destruct (qi_created _ (ji_q _ _ HJ) _ _ Hcr) as (r1 & _ & _ & Hd).
    pose proof (ji_ids _ _ HJ id (mk_is_Some _ _ Hd)). lia. }
  exists i, r. split; [done|]. split.
  { unfold submission_of. destruct (q_pending (j_q (t_j s)) !! i) as [x|] eqn:Ex; [|done].
    apply (qi_pending _ (ji_q _ _ (ti_j _ _ _ _ _ _ _ _ _ IT))) in Ex.
    destruct Ex as (_ & _ & _ & _ & _ & ?); congruence. }
  split; [done|]. split; [done|]. intros Hu.
  by eapply (proj1 (c133_decided _ _ _ _ _ _ _ _ HS H0 Hl Hu)).
Qed.
