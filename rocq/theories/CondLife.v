(** Life cycle of Condorcet proposals. *)
From Verif Require Import Base BaseProofs Exec ExecProofs VotingModel VotingSpec
  VotingProofs CondModel CondSpec CondMatrix CondWinner CondProofs.

Section keeps.
  Context (O : oracle) (d : addr).
  Lemma trace_keeps (P : block -> state -> Prop) b s l b' s' :
    (forall b b' s, block_le b b' -> P b s -> P b' s) ->
    (forall b s s', inv O d b s -> inv O d b s' -> prim O b s s' -> P b s -> P b s') ->
    ctrace O d b s l b' s' -> P b s -> P b' s'.
  Proof.
    intros Ht Hp. induction 1 as [|b0 s e l b1 s' Hle Hpre Hleg Htr IH]; intros HP; [by eapply Ht|].
    apply IH. subst. apply legit_prim in Hleg as (H1 & H2 & [H3|H3]).
    - eapply Hp; [exact H1|done|done|]. by eapply Ht.
    - rewrite H3. by eapply Ht.
  Qed.
End keeps.

(** Lookups after a primitive step. *)
Lemma prim_get O d b s s' id t p :
  inv O d b s -> prim O b s s' -> s_tallies s !! id = Some t -> s_props s !! id = Some p ->
  exists t' p', s_tallies s' !! id = Some t' /\ s_props s' !! id = Some p' /\
   terms p' = terms p /\ tally_terms t' = tally_terms t /\
   ((t' = t /\ p' = p) \/
    (p' = p /\ is_expired (t_exp t) b = false /\ exists a vote,
       s_votes s !! (id, a) = None /\
       vp O (s_dao s) a (t_start t) <> 0 /\
       vote_new vote (m_n (t_m t)) = Ok vote /\
       tally_add_vote t vote (vp O (s_dao s) a (t_start t)) = Ok t') \/
    (t' = t /\ exists st st', status_at b p t = Ok st /\ p' = set_status p st' /\
       (((exists w ms, st = CPassed w /\ p_choices p !! Z.to_nat w = Some ms) /\ st' = CExecuted) \/
        (st = CRejected /\ st' = CClosed) \/ (st = CExecuted /\ st' = CExecutionFailed)))).
Proof.
  intros HI HP Ht Hp.
  destruct HP as [s a id' choices t0 st Hid Hch Ht0 Hst
                 |s a id' t0 vote t' Ht0 Hvp Hnone Hexp Hvote Hadd
                 |s id' t0 p0 st st' Ht0 Hp0 Hst Hcase
                 |s c c' Hc]; simpl.
  - destruct (i_ids _ _ _ _ HI) as (k & Hk & Hids).
    unfold next_proposal_id in Hid. apply u32_ok in Hid as [-> _].
    rewrite (max_key_spec _ k Hk Hids).
    assert (id <> k + 1) by (assert (is_Some (s_props s !! id)) as Hs by eauto; apply Hids in Hs; lia).
    exists t, p. rewrite lookup_insert_ne by done. rewrite lookup_insert_ne by done. eauto 10.
  - destruct (decide (id' = id)) as [->|].
    + rewrite Ht in Ht0. injection Ht0 as <-. exists t', p. rewrite lookup_insert.
      assert (tally_terms t' = tally_terms t) as Htt.
      { pose proof (i_props _ _ _ _ HI id t p Ht Hp) as HPO. unfold tally_add_vote in Hadd.
        pose proof (mo_n _ (po_mat _ _ _ _ _ _ HPO)) as Hn. apply vote_new_ok in Hvote as [_ Hr]; [|lia].
        destruct (record_vote _ _ _ _) as [m|] eqn:E; [|discriminate].
        destruct (sub128 _ _); [|discriminate]. destruct (compute_winner _ _); [|discriminate].
        injection Hadd as <-. unfold tally_terms. simpl. f_equal.
        assert (forall l m m' pr B, defeats m pr B l = Ok m' -> m_n m' = m_n m) as Hd.
        { intros l m0 m0' pr B. revert m0. induction B as [|z B IH]; intros m0 H; simpl in H; [by injection H as <-|].
          destruct (decrement m0 pr z l) as [m1|] eqn:E1; [|discriminate]. rewrite (IH m1 H).
          unfold decrement, upd in E1. destruct (pr <? z); res_inv E1; done. }
        assert (forall v B m m' l, record_vote m B v l = Ok m' -> m_n m' = m_n m) as Hrv.
        { induction v as [|z v IH]; intros B m0 m0' l H; simpl in H; [by injection H as <-|].
          destruct (defeats m0 z B l) as [m1|] eqn:E1; [|discriminate].
          rewrite (IH _ _ _ _ H). by eapply Hd. }
        by eapply Hrv. }
      repeat (split; [done|]). right; left. eauto 10.
    + exists t, p. rewrite lookup_insert_ne by done. eauto 10.
  - destruct (decide (id' = id)) as [->|].
    + rewrite Ht in Ht0. injection Ht0 as <-. rewrite Hp in Hp0. injection Hp0 as <-.
      exists t, (set_status p st'). rewrite lookup_insert. repeat (split; [done|]). right; right.
      split; [done|]. eauto 10.
    + exists t, p. rewrite lookup_insert_ne by done. eauto 10.
  - exists t, p. eauto 10.
Qed.

(** ** Terms *)
Lemma terms_kept O d b s l b' s' id t p :
  ctrace O d b s l b' s' -> s_tallies s !! id = Some t -> s_props s !! id = Some p ->
  exists t' p', s_tallies s' !! id = Some t' /\ s_props s' !! id = Some p' /\
    terms p' = terms p /\ tally_terms t' = tally_terms t.
Proof.
  intros HT Ht Hp.
  apply (trace_keeps O d (fun _ s => exists t' p', s_tallies s !! id = Some t' /\ s_props s !! id = Some p' /\
    terms p' = terms p /\ tally_terms t' = tally_terms t) b s l b' s'); [done| |done|eauto 10].
  intros b1 s1 s2 HI _ HP (t1 & p1 & A & B & C & D).
  destruct (prim_get _ _ _ _ _ _ _ _ HI HP A B) as (t2 & p2 & A2 & B2 & C2 & D2 & _).
  exists t2, p2. split; [done|]. split; [done|]. split; congruence.
Qed.

(** ** Votes *)
Lemma votes_kept O d b s l b' s' k v :
  ctrace O d b s l b' s' -> s_votes s !! k = Some v -> s_votes s' !! k = Some v.
Proof.
  intros HT Hv.
  apply (trace_keeps O d (fun _ s => s_votes s !! k = Some v) b s l b' s'); [done| |done|done].
  intros b1 s1 s2 _ _ HP H. destruct HP; simpl; try done.
  rewrite lookup_insert_ne; [done|]. intros <-. congruence.
Qed.

(** ** Final statuses *)
Lemma terminal_kept O d b s l b' s' id st :
  ctrace O d b s l b' s' -> terminal st -> status_of s id = Some st ->
  status_of s' id = Some st \/ (st = CExecuted /\ status_of s' id = Some CExecutionFailed).
Proof.
  intros HT Hterm Hs.
  apply (trace_keeps O d (fun _ s => status_of s id = Some st \/
     (st = CExecuted /\ status_of s id = Some CExecutionFailed)) b s l b' s'); [done| |done|by left].
  intros b1 s1 s2 HI _ HP H. unfold status_of in *.
  destruct (s_props s1 !! id) as [p|] eqn:Hp; [|destruct H as [?|[_ ?]]; done].
  destruct (i_dom _ _ _ _ HI id) as [Hd _]. destruct (Hd ltac:(eauto)) as [t Ht].
  destruct (prim_get _ _ _ _ _ _ _ _ HI HP Ht Hp) as (t2 & p2 & A2 & B2 & _ & _ & Hc).
  rewrite B2. simpl in *.
  destruct Hc as [[-> ->]|[(-> & _)|(-> & s0 & s1' & Hst & -> & Hc)]]; [done|done|]. simpl.
  unfold status_at in Hst.
  destruct H as [[= H]|[-> [= H]]].
  - destruct Hterm as [->|[->| ->]]; rewrite H in Hst; injection Hst as <-;
      destruct Hc as [[(w & ms & ? & _) ->]|[[? ->]|[? ->]]]; try done; eauto.
  - rewrite H in Hst; injection Hst as <-;
      destruct Hc as [[(w & ms & ? & _) ->]|[[? ->]|[? ->]]]; done.
Qed.

(** ** Outcomes once decided *)
Definition passing (w : Z) (id : Z) (b : block) (s : state) : Prop :=
  exists t p, s_tallies s !! id = Some t /\ s_props s !! id = Some p /\
    min_over b p /\ pass_just b p t w /\
    (p_status p = COpen \/ p_status p = CPassed w \/ p_status p = CExecuted \/ p_status p = CExecutionFailed).
Definition failing (id : Z) (b : block) (s : state) : Prop :=
  exists t p, s_tallies s !! id = Some t /\ s_props s !! id = Some p /\
    min_over b p /\ rej_just b p t /\
    (p_status p = COpen \/ p_status p = CRejected \/ p_status p = CClosed).

Lemma status_at_passing O d b s id t p w :
  inv O d b s -> typed O -> s_tallies s !! id = Some t -> s_props s !! id = Some p ->
  min_over b p -> pass_just b p t w -> p_status p = COpen -> status_at b p t = Ok (CPassed w).
Proof.
  intros HI HT Ht Hp HM [Hq HW] Hs.
  destruct (i_props _ _ _ _ HI id t p Ht Hp) as [_ _ _ _ Ho Ho0 _ _ _ _ _].
  pose proof (voted_nonneg O s id HT). unfold status_at. rewrite Hs.
  assert (match p_min p with Some m => negb (is_expired m b) | None => false end = false) as ->.
  { destruct (p_min p) as [e|] eqn:E; [|done]. apply negb_false_iff. by apply HM. }
  rewrite sub128_eq by lia. fold (quorum_met p t). rewrite Hq. rewrite andb_false_r.
  destruct HW as [->|[-> ->]]; done.
Qed.
Lemma status_at_failing O d b s id t p :
  inv O d b s -> typed O -> s_tallies s !! id = Some t -> s_props s !! id = Some p ->
  min_over b p -> rej_just b p t -> p_status p = COpen -> status_at b p t = Ok CRejected.
Proof.
  intros HI HT Ht Hp HM HR Hs.
  destruct (i_props _ _ _ _ HI id t p Ht Hp) as [_ _ _ _ Ho Ho0 _ _ _ _ _].
  pose proof (voted_nonneg O s id HT). unfold status_at. rewrite Hs.
  assert (match p_min p with Some m => negb (is_expired m b) | None => false end = false) as ->.
  { destruct (p_min p) as [e|] eqn:E; [|done]. apply negb_false_iff. by apply HM. }
  rewrite sub128_eq by lia. fold (quorum_met p t).
  destruct HR as [->|[-> [->| ->]]]; simpl; [|done|];
    destruct (quorum_met p t), (is_expired (t_exp t) b); done.
Qed.
Lemma status_at_total O d b s id t p :
  inv O d b s -> typed O -> s_tallies s !! id = Some t -> s_props s !! id = Some p ->
  exists st, status_at b p t = Ok st.
Proof.
  intros HI HT Ht Hp.
  destruct (i_props _ _ _ _ HI id t p Ht Hp) as [_ _ _ _ Ho Ho0 _ _ _ _ _].
  pose proof (voted_nonneg O s id HT). unfold status_at.
  destruct (p_status p); [|eauto..].
  set (early := match p_min p with Some m => _ | None => _ end). destruct early; [eauto|].
  rewrite sub128_eq by lia. destruct (_ && _); [eauto|]. destruct (t_winner t); eauto.
Qed.

Lemma just_time b b' p t w :
  block_le b b' -> (pass_just b p t w -> pass_just b' p t w) /\ (rej_just b p t -> rej_just b' p t) /\
  (min_over b p -> min_over b' p).
Proof.
  intros Hb. assert (forall e, is_expired e b = true -> is_expired e b' = true) by (intros; by eapply is_expired_le).
  unfold pass_just, rej_just, min_over. naive_solver.
Qed.
Lemma pass_not_rej b p t w : pass_just b p t w -> rej_just b p t -> False.
Proof.
  unfold pass_just, rej_just. intros [Hq Hw] [Hr|[_ [Hr|Hr]]]; try congruence;
    destruct Hw as [Hw|[_ Hw]]; congruence.
Qed.
Lemma status_at_inv O d b s id t p st :
  inv O d b s -> s_tallies s !! id = Some t -> s_props s !! id = Some p ->
  status_at b p t = Ok st -> status_just b (set_status p st) t.
Proof.
  intros HI Ht Hp H. eapply status_at_ok; [done|].
  by apply (i_props _ _ _ _ HI id t p Ht Hp).
Qed.

Lemma vote_keeps O d b s id t p a vote t' :
  inv O d b s -> typed O -> s_tallies s !! id = Some t -> s_props s !! id = Some p ->
  is_expired (t_exp t) b = false ->
  vp O (s_dao s) a (t_start t) <> 0 -> vote_new vote (m_n (t_m t)) = Ok vote ->
  tally_add_vote t vote (vp O (s_dao s) a (t_start t)) = Ok t' ->
  (forall w, pass_just b p t w -> pass_just b p t' w) /\ (rej_just b p t -> rej_just b p t') /\
  (forall c, t_winner t = WUndisputed c -> t_winner t' = WUndisputed c) /\
  (t_winner t = WNever -> t_winner t' = WNever).
Proof.
  intros HI HT Ht Hp Hexp Hv Hvote Hadd.
  pose proof (i_props _ _ _ _ HI id t p Ht Hp) as HPO.
  pose proof (mo_n _ (po_mat _ _ _ _ _ _ HPO)) as Hn.
  apply vote_new_ok in Hvote as [_ Hrank]; [|lia].
  assert (0 < vp O (s_dao s) a (t_start t)) as Hpos.
  { destruct HT as [HT _]. specialize (HT (s_dao s) a (t_start t)). lia. }
  pose proof (tally_add_vote_ok _ _ _ _ _ _ _ _ _ HT HPO Hpos Hrank Hadd)
    as (Hle & He & Hs & Hn' & HM' & Ho & HV & HW).
  rewrite Ho in HW.
  edestruct (winner_moved (m_n (t_m t)) (mval (t_m t)) (mval (t_m t')) (t_outstanding t)
    (vp O (s_dao s) a (t_start t)) (t_winner t) (t_winner t')) as [HU HN]; [done| | |lia| |done|].
  - rewrite <- Hn'. by apply mval_is_anti.
  - intros x y Hx Hy Hxy. rewrite HV by done. pose proof (sg_bounds vote x y). nia.
  - apply HPO.
  - split; [|split; [|done]].
    + intros w [Hq [Hw|[Hx _]]]; [|congruence]. split; [|left; by apply HU].
      eapply quorum_mono; [apply HPO| |done]. lia.
    + intros [Hw|[Hx _]]; [|congruence]. left. by apply HN.
Qed.

Lemma passing_kept O d b s l b' s' w id :
  typed O -> ctrace O d b s l b' s' -> passing w id b s -> passing w id b' s'.
Proof.
  intros HT. apply trace_keeps.
  - intros b0 b1 s0 Hb (t & p & A & B & C & D & E). exists t, p.
    destruct (just_time b0 b1 p t w Hb) as (X & Y & Z). eauto 10.
  - intros b0 s0 s1 HI _ HP (t & p & A & B & C & D & E).
    destruct (prim_get _ _ _ _ _ _ _ _ HI HP A B) as (t2 & p2 & A2 & B2 & Te & _ & Hc).
    exists t2, p2. split; [done|]. split; [done|].
    destruct Hc as [[-> ->]|[(-> & Hexp & a & vote & Hnv & Hvp & Hvote & Hadd)|(-> & st & st' & Hst & -> & Hc)]]; [done| |].
    + destruct (vote_keeps _ _ _ _ _ _ _ _ _ _ HI HT A B Hexp Hvp Hvote Hadd) as (X & _). eauto.
    + split; [done|]. split; [done|]. simpl.
      pose proof (status_at_inv _ _ _ _ _ _ _ _ HI A B Hst) as HJ. unfold status_just in HJ. simpl in HJ.
      destruct Hc as [[(w' & ms & -> & _) ->]|[[-> ->]|[-> ->]]]; [tauto| |tauto].
      exfalso. eapply pass_not_rej; [exact D|]. by apply HJ.
Qed.
Lemma failing_kept O d b s l b' s' id :
  typed O -> ctrace O d b s l b' s' -> failing id b s -> failing id b' s'.
Proof.
  intros HT. apply trace_keeps.
  - intros b0 b1 s0 Hb (t & p & A & B & C & D & E). exists t, p.
    destruct (just_time b0 b1 p t 0 Hb) as (X & Y & Z). eauto 10.
  - intros b0 s0 s1 HI _ HP (t & p & A & B & C & D & E).
    destruct (prim_get _ _ _ _ _ _ _ _ HI HP A B) as (t2 & p2 & A2 & B2 & Te & _ & Hc).
    exists t2, p2. split; [done|]. split; [done|].
    destruct Hc as [[-> ->]|[(-> & Hexp & a & vote & Hnv & Hvp & Hvote & Hadd)|(-> & st & st' & Hst & -> & Hc)]]; [done| |].
    + destruct (vote_keeps _ _ _ _ _ _ _ _ _ _ HI HT A B Hexp Hvp Hvote Hadd) as (_ & X & _). eauto.
    + split; [done|]. split; [done|]. simpl.
      pose proof (status_at_inv _ _ _ _ _ _ _ _ HI A B Hst) as HJ. unfold status_just in HJ. simpl in HJ.
      destruct Hc as [[(w' & ms & -> & _) ->]|[[-> ->]|[-> ->]]]; [|tauto|].
      * exfalso. eapply pass_not_rej; [|exact D]. by apply HJ.
      * exfalso. destruct HJ as (_ & w & HJ). by eapply pass_not_rej.
Qed.

(** ** Dispatches *)
Lemma ev_dispatch_nonneg id e : 0 <= ev_dispatch id e.
Proof.
  destruct e; simpl; [|lia]. apply lsum_nonneg. intros [dd i ms c] _. simpl. destruct (_ =? _); lia.
Qed.
Definition done_at (s : state) (id : Z) : Prop :=
  status_of s id = Some CExecuted \/ status_of s id = Some CExecutionFailed.
Lemma ev_dispatch_legit O d e id :
  legit (handle O) on_fail on_ok any_msg (inv O d) pend e ->
  (ev_dispatch id e = 0 \/ (ev_dispatch id e = 1 /\ ~ done_at (ev_pre e) id /\ done_at (ev_post e) id)) /\
  (done_at (ev_pre e) id -> done_at (ev_post e) id).
Proof.
  intros HL. pose proof (legit_prim _ _ _ HL) as (HI & _ & HP). split.
  - destruct HL as (_ & _ & H). destruct e as [pre b a m post subs|pre b x ok post]; simpl in *; [|by left].
    destruct H as [_ H].
    destruct m as [choices|i vote|i|i|c]; simpl in H.
    + apply propose_shape in H as (? & ? & ? & _ & _ & _ & _ & _ & _ & ->). by left.
    + apply vote_shape in H as (? & ? & ? & _ & _ & _ & _ & _ & _ & _ & ->). by left.
    + apply execute_shape in H as (t & p & w & ms & Ht & _ & Hp & Hst & _ & -> & ->). simpl.
      destruct (i_props _ _ _ _ HI i t p Ht Hp) as [-> _].
      destruct (Z.eqb_spec i id) as [->|]; [right|by left]. split; [done|].
      unfold done_at, status_of. simpl. rewrite lookup_insert, Hp. simpl. split; [|by left].
      unfold status_at in Hst. intros [[= E]|[= E]]; rewrite E in Hst; done.
    + apply close_shape in H as (? & ? & _ & _ & _ & _ & ->). by left.
    + apply set_config_shape in H as (? & _ & _ & _ & ->). by left.
  - intros Hd. destruct HP as [HP| ->]; [|done]. by eapply status_prim.
Qed.
Lemma dispatches_done O d b s l b' s' id :
  ctrace O d b s l b' s' ->
  (done_at s id -> dispatches id l = 0 /\ done_at s' id) /\
  dispatches id l <= 1.
Proof.
  induction 1 as [|b0 s e l b1 s' Hle Hpre Hleg Htr IH]; simpl.
  { split; [done|]. unfold dispatches. simpl. lia. }
  unfold dispatches in *. simpl. subst.
  destruct (ev_dispatch_legit _ _ _ id Hleg) as [[H0|(H1 & Hn & Hd)] Hk].
  - rewrite H0. split; [|lia]. intros Hs. apply IH. by apply Hk.
  - rewrite H1. split; [tauto|]. destruct IH as [IH _]. specialize (IH Hd). lia.
Qed.
