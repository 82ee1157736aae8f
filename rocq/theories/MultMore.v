(** dao-proposal-multiple: totality of the calls, ballots, hooks. *)
From Verif Require Import Base BaseProofs Exec ExecProofs VotingModel VotingSpec
  VotingProofs HooksModel MultModel MultSpec MultProofs MultRules MultLife MultTally MultFinal.

(** ** Votes are accepted exactly when they should be *)
Lemma cast_voters O d s id p :
  tally_inv s ->
  (forall id a bl p, s_ballots s !! (id, a) = Some bl -> s_props s !! id = Some p ->
    bl_power bl = vp O d a (p_start p) /\ 0 < bl_power bl) ->
  s_props s !! id = Some p -> length (p_votes p) = length (p_choices p) ->
  exists l, NoDup l /\ wsum (p_votes p) = lsum (fun a : addr => vp O d a (p_start p)) l /\
    forall a, a ∈ l <-> is_Some (s_ballots s !! (id, a)).
Proof.
  intros [HT HB] HP Hp Hlen.
  destruct (voters_sum (fun a => vp O d a (p_start p)) id (s_ballots s)) as (l & Hnd & Hs & Hl).
  exists l. split; [done|]. split; [|done]. rewrite <- Hs. rewrite wsum_seq.
  rewrite (lsum_ext _ (fun v : nat => ballot_total s id v)) by (intros v _; apply (HT id p v Hp)).
  unfold ballot_total. rewrite options_sum.
  apply msum_ext. intros [i a] bl Hbl. simpl.
  destruct (decide (i = id)) as [->|Hne].
  - destruct (HP _ _ _ _ Hbl Hp) as [<- ?]. specialize (HB _ _ _ _ Hbl Hp).
    destruct (decide _) as [|Hn]; [done|]. exfalso. apply Hn. split; [done|lia].
  - destruct (decide _) as [[? ?]|?]; [congruence|done].
Qed.

Lemma wsum_insert w v x c : w !! v = Some c -> wsum (<[v := x]> w) = wsum w - c + x.
Proof.
  unfold wsum. revert v. induction w as [|y w IH]; intros v Hv; [done|].
  destruct v; simpl in *; [injection Hv as ->; lia|]. rewrite (IH _ Hv). lia.
Qed.
Lemma tally_ok_insert T w v x c :
  tally_ok T w -> w !! v = Some c -> 0 <= x -> wsum w - c + x <= T -> tally_ok T (<[v := x]> w).
Proof.
  intros [Hn Hs] Hv Hx Hle. split; [by apply Forall_insert|]. by rewrite (wsum_insert _ _ _ _ Hv).
Qed.
Lemma wsum_ge w v c : Forall (fun x : Z => 0 <= x) w -> w !! v = Some c -> 0 <= c <= wsum w.
Proof.
  unfold wsum. intros Hn. revert v. induction Hn as [|x w Hx Hw IH]; intros v Hv; [done|].
  pose proof (wsum_nonneg w Hw) as Hs. unfold wsum in Hs. destruct v; simpl in *.
  - injection Hv as ->. lia.
  - specialize (IH _ Hv). lia.
Qed.

Lemma vote_arith O d b s id p a v :
  sane O d -> sinv O d b s -> s_props s !! id = Some p -> (v < length (p_choices p))%nat ->
  (forall cur, s_ballots s !! (id, a) = Some cur -> p_revote p = true /\ bl_vote cur <> v) ->
  exists votes0 votes1,
    match s_ballots s !! (id, a) with
    | Some cur =>
        if p_revote p then
          if decide (bl_vote cur = v) then Err "AlreadyCast"
          else remove_weight (p_votes p) (bl_vote cur) (bl_power cur)
        else Err "AlreadyVoted"
    | None => Ok (p_votes p)
    end = Ok votes0 /\
    add_weight votes0 v (vp O d a (p_start p)) = Ok votes1 /\ tally_ok (p_total p) votes1 /\
    length votes1 = length (p_votes p).
Proof.
  intros HS [HW HT] Hp Hlt Hprev. pose proof HS as (S1 & S2 & S3).
  pose proof (tprop_tally _ _ _ _ _ _ HW HT Hp) as (Hok & HTm).
  pose proof (t_total _ _ _ _ (ti_props _ _ _ _ HT _ _ Hp)) as Htot.
  pose proof (w_len _ _ (wi_props _ _ HW _ _ Hp)) as Hlen.
  destruct (lookup_lt_is_Some_2 (p_votes p) v) as [cv Hcv]; [lia|].
  pose proof Hok as [Hnn Hsum]. pose proof (wsum_ge _ _ _ Hnn Hcv) as Hcv'.
  destruct (s_ballots s !! (id, a)) as [cur|] eqn:Eb.
  - destruct (Hprev cur eq_refl) as [-> Hne]. destruct (decide (bl_vote cur = v)); [done|].
    destruct (ti_power _ _ _ _ HT _ _ _ _ Eb Hp) as [Hpw Hpos].
    pose proof (ti_tally _ _ _ _ HT) as [HT1 HT2].
    destruct (lookup_lt_is_Some_2 (p_votes p) (bl_vote cur)) as [cc Hcc].
    { specialize (HT2 _ _ _ _ Eb Hp). lia. }
    assert (bl_power cur <= cc) as Hle.
    { specialize (HT1 id p (bl_vote cur) Hp). unfold tally_of in HT1. rewrite Hcc in HT1. simpl in HT1.
      rewrite HT1. unfold ballot_total.
      etransitivity; [|eapply msum_ge_one; [|exact Eb]].
      - simpl. rewrite decide_True by done. lia.
      - intros [i a'] bl Hbl. destruct (decide _) as [[Ei _]|]; [|lia]. simpl in Ei. subst i.
        destruct (ti_power _ _ _ _ HT _ _ _ _ Hbl Hp). lia. }
    rewrite <- Hpw.
    assert (remove_weight (p_votes p) (bl_vote cur) (bl_power cur) =
              Ok (<[bl_vote cur := cc - bl_power cur]> (p_votes p))) as ->.
    { unfold remove_weight. rewrite Hcc. by rewrite sub128_eq. }
    eexists. eexists. split; [done|].
    pose proof (tally_ok_insert _ _ _ (cc - bl_power cur) _ Hok Hcc) as Hok1.
    pose proof (wsum_insert _ _ (cc - bl_power cur) _ Hcc) as Hs1.
    assert (<[bl_vote cur := cc - bl_power cur]> (p_votes p) !! v = Some cv) as Hcv1.
    { by rewrite list_lookup_insert_ne. }
    assert (tally_ok (p_total p) (<[bl_vote cur := cc - bl_power cur]> (p_votes p))) as Hok2.
    { apply Hok1; lia. }
    pose proof (wsum_ge _ _ _ (proj1 Hok2) Hcv1) as Hcv2.
    split; [|split].
    + unfold add_weight. rewrite Hcv1. rewrite add128_eq by lia. done.
    + eapply tally_ok_insert; try done; lia.
    + by rewrite !insert_length.
  - destruct (cast_voters O d s id p (ti_tally _ _ _ _ HT) (ti_power _ _ _ _ HT) Hp Hlen)
      as (l & Hnd & Hs & Hl).
    assert (wsum (p_votes p) + vp O d a (p_start p) <= p_total p) as Hle.
    { rewrite Hs. specialize (Htot (a :: l)). simpl in Htot.
      rewrite Z.add_comm. apply Htot. constructor; [|done]. rewrite Hl, Eb. by intros [? ?]. }
    specialize (S1 a (p_start p)).
    exists (p_votes p). unfold add_weight. rewrite Hcv. rewrite add128_eq by lia.
    eexists. split; [done|]. split; [done|]. split; [|apply insert_length].
    eapply tally_ok_insert; try done; lia.
Qed.

Lemma vote_iff O d b s a id v r :
  sane O d -> sinv O d b s ->
  (is_ok (handle O s b a (CastVote id v r)) = true <->
   exists p, s_props s !! id = Some p /\ (v < length (p_choices p))%nat /\
     is_expired (p_exp p) b = false /\ 0 < vp O d a (p_start p) /\
     (forall cur, s_ballots s !! (id, a) = Some cur -> p_revote p = true /\ bl_vote cur <> v)).
Proof.
  intros HS HI. pose proof HI as [HW HT]. pose proof (ti_att _ _ _ _ HT) as [Ed _]. split.
  - simpl. destruct (execute_vote O s b a id v r) as [[s' subs]|] eqn:E; [|done]. intros _.
    apply execute_vote_shape in E as (p & votes1 & st2 & H1 & Hlt & H2 & H3 & H4 & H5 & _).
    exists p. split; [done|]. split; [done|]. split; [done|]. rewrite Ed in *. split.
    + destruct HS as (S1 & _). specialize (S1 a (p_start p)). lia.
    + intros cur Hc. unfold vote_result in H4. rewrite Hc in H4. naive_solver.
  - intros (p & Hp & Hlt & Hx & Hpos & Hprev). simpl. unfold execute_vote. rewrite Hp, Hx.
    pose proof Hlt as Hlt'. apply Nat.ltb_lt in Hlt'. rewrite Hlt'. simpl.
    rewrite Ed. destruct (_ =? 0) eqn:E0; [lia|]. simpl.
    destruct (vote_arith O d b s id p a v HS HI Hp Hlt Hprev) as (votes0 & votes1 & E1 & E2 & Hok & Hlen).
    rewrite E1, E2. unfold update_status.
    pose proof (tprop_tally _ _ _ _ _ _ HW HT Hp) as (_ & HTm).
    destruct (current_status_total b (set_votes p votes1) b) as [st ->]; try done.
    apply wprop_votes; [by apply (wi_props _ _ HW id)|done].
Qed.

Lemma status_total O d b s id p b' :
  sane O d -> sinv O d b s -> s_props s !! id = Some p ->
  exists st, query_status s b' id = Ok st.
Proof.
  intros HS [HW HT] Hp. unfold query_status. rewrite Hp.
  pose proof (tprop_tally _ _ _ _ _ _ HW HT Hp) as (Hok & HTm).
  eapply current_status_total; try done. by apply (wi_props _ _ HW id).
Qed.

(** A proposal reported as passed has a winner to execute. *)
Lemma passed_winner O d b s id p st :
  sane O d -> sinv O d b s -> s_props s !! id = Some p -> query_status s b id = Ok st ->
  passed_like st ->
  exists i c, calculate_vote_result p = Ok (SingleWinner c) /\ p_choices p !! i = Some c /\
    ch_none c = false /\ chosen (p_quorum p) (p_total p) (p_votes p) i.
Proof.
  intros HS HI Hp Hq Hst.
  destruct (pass_locked_intro O d b s id p st HS HI Hp Hq Hst) as [w HL].
  pose proof (pass_locked_chosen O d id w b s p HI HL Hp) as Hch.
  pose proof Hch as (_ & Hw & Hn).
  destruct (calculate_spec p) as [(i & c & Hc & Hwi & Hci & _ & Hnone)|[_ Hno]].
  - apply (wprop_shaped b). apply (wi_props _ _ (proj1 HI) id p Hp).
  - exists i, c. rewrite (strict_winner_inj _ _ _ Hwi Hw) in *.
    split; [done|]. split; [done|]. split; [|done].
    destruct (ch_none c); [|done]. exfalso. by apply Hn, Hnone.
  - exfalso. by eapply Hno.
Qed.

Lemma execute_iff O d s b a id :
  sane O d -> sinv O d b s ->
  is_ok (handle O s b a (Execute id)) = true <->
  exists p st, s_props s !! id = Some p /\ query_status s b id = Ok st /\
    ((st = Passed /\ (c_only_members (s_cfg s) = true ->
                      vp O (c_dao (s_cfg s)) a (p_start p) <> 0)) \/
     (exists e vc, st = VetoTimelock e /\ p_veto p = Some vc /\ vc_vetoer vc = a /\
                   vc_early_execute vc = true)).
Proof.
  intros HS HI. simpl. split.
  - destruct (execute_execute O s b a id) as [[s' subs]|] eqn:E; [|done]. intros _.
    apply execute_execute_shape in E as (p & st & c0 & Hp & Hst & Hc0 & Hal & _).
    exists p, st. split; [done|]. unfold query_status. rewrite Hp. split; [done|].
    destruct Hal as [[-> Hc]|?]; [left|by right]. split; [done|]. intros Hm.
    unfold sender_can_execute in Hc. rewrite Hm in Hc. lia.
  - intros (p & st & Hp & Hst & Hal). unfold query_status in Hst. rewrite Hp in Hst.
    assert (exists c, calculate_vote_result (set_status p st) = Ok (SingleWinner c)) as [c Hc0].
    { destruct (passed_winner O d b s id p st HS HI Hp) as (i & c & Hc & _); [..|by exists c].
      - unfold query_status. by rewrite Hp.
      - destruct Hal as [[-> _]|(e & vc & -> & _)]; done. }
    unfold execute_execute, update_status. rewrite Hp, Hst. cbn [p_status set_status].
    destruct Hal as [[-> Hc]|(e & vc & -> & Hv & Ha & He)].
    + unfold sender_can_execute. destruct (c_only_members (s_cfg s)); [|by rewrite Hc0].
      specialize (Hc eq_refl). destruct (_ =? 0) eqn:E; [lia|]. by rewrite Hc0.
    + simpl. rewrite Hv, Ha, N.eqb_refl. unfold check_early_execute_enabled. rewrite He.
      by rewrite Hc0.
Qed.
Lemma close_iff O s b a id :
  is_ok (handle O s b a (Close id)) = true <-> query_status s b id = Ok Rejected.
Proof.
  simpl. split.
  - destruct (execute_close s b id) as [[s' subs]|] eqn:E; [|done]. intros _.
    apply execute_close_shape in E as (p & Hp & Hst & _).
    unfold query_status. by rewrite Hp.
  - unfold query_status, execute_close, update_status.
    destruct (s_props s !! id); [|discriminate]. by intros ->.
Qed.
Lemma veto_iff O s b a id :
  is_ok (handle O s b a (Veto id)) = true <->
  exists p vc st, s_props s !! id = Some p /\ p_veto p = Some vc /\ vc_vetoer vc = a /\
    query_status s b id = Ok st /\
    ((st = Open /\ vc_veto_before_passed vc = true) \/
     (exists e, st = VetoTimelock e)).
Proof.
  simpl. split.
  - destruct (execute_veto s b a id) as [[s' subs]|] eqn:E; [|done]. intros _.
    apply execute_veto_shape in E as (p & st & vc & Hp & Hst & Hv & Ha & Hal & _).
    exists p, vc, st. unfold query_status. rewrite Hp. naive_solver.
  - intros (p & vc & st & Hp & Hv & Ha & Hst & Hal). unfold query_status in Hst. rewrite Hp in Hst.
    unfold execute_veto, update_status. rewrite Hp, Hst. simpl. rewrite Hv.
    unfold check_is_vetoer. rewrite Ha, N.eqb_refl.
    destruct Hal as [[-> Hb]|[e ->]].
    + unfold check_veto_before_passed_enabled. by rewrite Hb.
    + apply current_status_cases in Hst. destruct (p_status p); try done; try naive_solver.
      * assert (is_expired e b = false) as ->; [|done]. naive_solver.
      * assert (is_expired e b = false) as ->; [|done]. naive_solver.
Qed.

Lemma propose_ok O d b s a pm proposer cs :
  sane O d -> sinv O d b s ->
  is_permitted (s_policy s) a = true ->
  decide_proposer (s_policy s) a (pm_proposer pm) = Ok proposer ->
  pm_active pm = true -> pm_fits pm = true -> into_checked (pm_options pm) = Ok cs ->
  (pm_vote pm = None \/
   (0 < vp O d proposer (height b) /\ is_expired (after (c_max (s_cfg s)) b) b = false /\
    exists v r, pm_vote pm = Some (v, r) /\ (v < length cs)%nat)) ->
  is_ok (handle O s b a (Propose pm)) = true.
Proof.
  intros HS HI Hper Hdec Hact Hfit Hcs Hv. pose proof HI as [HW HT].
  pose proof (ti_att _ _ _ _ HT) as [Ed Hty].
  simpl. unfold execute_propose. rewrite Hper, Hdec, Hact, Hcs, Hfit. 
  set (p0 := Proposal proposer _ _ _ _ _ _ _ _ _ _).
  assert (p0 = new_prop O s b proposer cs Open) as Ep0 by reflexivity.
  pose proof (wi_cfg _ _ HW) as Hcfg. apply validate_config_ok in Hcfg as (Ht & Hm & Hvt).
  assert (exists st, current_status p0 b = Ok st) as [st Hst].
  { assert (wprop b p0) as Hw0.
    { constructor; simpl; try done.
      - intros b' He. unfold min_ok. simpl. destruct (c_min (s_cfg s)) as [dd|]; [|done]. simpl.
        specialize (Hm dd eq_refl).
        destruct dd, (c_max (s_cfg s)); try done; cbn [is_expired after] in *;
          apply Z.leb_le; apply Z.leb_le in He; unfold NANOS in *; lia.
      - intros vc Hvc. specialize (Hvt vc Hvc). apply exp_add_unit.
        destruct (vc_timelock vc), (c_max (s_cfg s)); done.
      - eauto.
      - apply replicate_length. }
    eapply current_status_total; [exact Hw0|..]; simpl; rewrite ?Ed.
    - pose proof HS as (_ & _ & S3). specialize (S3 b (s_count s + 1) [] NoDup_nil_2). simpl in S3.
      split.
      + apply Forall_lookup. intros i x Hx. apply lookup_replicate in Hx as [-> _]. lia.
      + assert (forall n, wsum (weights_zero n) = 0) as Hz.
        { intros n. unfold wsum, weights_zero. induction n; simpl; [done|lia]. }
        rewrite Hz. lia.
    - apply HS. }
  unfold update_status. rewrite Hst.
  destruct (pm_vote pm) as [[v r]|]; [|done]. destruct Hv as [?|(Hpw & Hexp & v0 & r0 & [= <- <-] & Hlt)]; [done|].
  set (s1 := State _ _ _ _ _ _ _).
  assert (prim O b s s1) as Hprim.
  { subst s1. rewrite Ep0. eapply prim_new; [done|]. by rewrite <- Ep0. }
  assert (sinv O d b s1) as HI1.
  { split; [by eapply prim_winv|]. eapply prim_tinv; try done. }
  assert (is_ok (handle O s1 b proposer (CastVote (s_count s + 1) v r)) = true) as Hok.
  { apply (vote_iff O d b s1); [done|done|]. exists (set_status p0 st).
    split; [subst s1; simpl; apply lookup_insert|]. split; [done|]. split; [done|]. split; [done|].
    intros cur Hc. subst s1. simpl in Hc. apply (wi_ballots _ _ HW) in Hc.
    apply (wi_ids _ _ HW) in Hc. lia. }
  simpl in Hok. destruct (execute_vote O s1 b proposer (s_count s + 1) v r) as [[s2 x]|]; done.
Qed.

(** ** Ballots *)
Definition keeps_ballots (s s' : state) : Prop :=
  same_terms s s' /\
  forall id a bl p, s_ballots s !! (id, a) = Some bl -> s_props s !! id = Some p ->
    p_revote p = false ->
    exists bl', s_ballots s' !! (id, a) = Some bl' /\
      bl_vote bl' = bl_vote bl /\ bl_power bl' = bl_power bl.
Lemma keeps_ballots_refl s : keeps_ballots s s.
Proof. split; [apply same_terms_refl|eauto]. Qed.
Lemma keeps_ballots_trans a b c : keeps_ballots a b -> keeps_ballots b c -> keeps_ballots a c.
Proof.
  intros [T1 A] [T2 B]. split; [by eapply same_terms_trans|].
  intros id x bl p Hb Hp Hr. destruct (A id x bl p Hb Hp Hr) as (bl1 & Hb1 & E1 & E1').
  destruct T1 as [_ T1]. destruct (T1 id p Hp) as (p1 & Hp1 & Et).
  assert (p_revote p1 = false) as Hr1 by (unfold terms in Et; congruence).
  destruct (B id x bl1 p1 Hb1 Hp1 Hr1) as (bl2 & Hb2 & E2 & E2'). exists bl2. split; [done|]. split; congruence.
Qed.
Lemma prim_keeps_ballots O b s s' : winv b s -> prim O b s s' -> keeps_ballots s s'.
Proof.
  intros HI Hp. split; [by eapply prim_terms|]. destruct Hp; simpl; eauto.
  - intros id' a' bl p' Hb Hp' Hr.
    destruct (decide ((id, a) = (id', a'))) as [[= <- <-]|Hne].
    + rewrite H in Hp'. injection Hp' as <-. unfold vote_result in H3. rewrite Hb in H3.
      destruct H3 as [? _]. congruence.
    + rewrite lookup_insert_ne by done. eauto.
  - intros id' a' bl p' Hb Hp' Hr.
    destruct (decide ((id, a) = (id', a'))) as [[= <- <-]|Hne].
    + rewrite lookup_insert. rewrite Hb in H. injection H as <-. eauto.
    + rewrite lookup_insert_ne by done. eauto.
  - rewrite H0. eauto.
Qed.
Lemma legit_keeps_ballots O e :
  legit (handle O) on_fail on_ok any_msg winv pend e -> keeps_ballots (ev_pre e) (ev_post e).
Proof.
  intros Hl. pose proof (legit_terms O e Hl) as Ht. destruct Hl as (HI & _ & H).
  destruct e as [pre b a m post subs|pre b x ok post]; simpl in *.
  - destruct H as [_ H]. apply handle_prims in H. clear Ht.
    induction H as [|s1 s2 s3 Hp Hr IH]; [apply keeps_ballots_refl|].
    eapply keeps_ballots_trans; [by eapply prim_keeps_ballots|]. apply IH. by eapply prim_winv.
  - destruct ok.
    + destruct H as [_ [d H]]. eapply prim_keeps_ballots; [done|by eapply (on_ok_prims O)].
    + destruct H as [_ H]. split; [done|].
      destruct (on_fail_shape _ _ _ _ H) as [(d & id & ms & p & -> & Hp & ->)|(Hx & E1 & E2 & E3 & E4)].
      * simpl. eauto.
      * rewrite E2. eauto.
Qed.
Lemma trace_keeps_ballots O b0 s l b1 s' : strace O b0 s l b1 s' -> keeps_ballots s s'.
Proof.
  apply trace_rel; [apply keeps_ballots_refl|apply keeps_ballots_trans|apply legit_keeps_ballots].
Qed.

(** What one vote does to the tally and the ballots. *)
Definition tally_power (o : option ballot) (v : nat) : Z :=
  match o with Some bl => if decide (bl_vote bl = v) then bl_power bl else 0 | None => 0 end.
Lemma vote_effect O s b a id v r s' subs :
  handle O s b a (CastVote id v r) = Ok (s', subs) ->
  exists p p', s_props s !! id = Some p /\ s_props s' !! id = Some p' /\
    s_ballots s' = <[(id, a) := Ballot (vp O (c_dao (s_cfg s)) a (p_start p)) v r]> (s_ballots s) /\
    (forall v0, tally_of p' v0 =
       tally_of p v0 - tally_power (s_ballots s !! (id, a)) v0
       + tally_power (s_ballots s' !! (id, a)) v0) /\
    (forall i, i <> id -> s_props s' !! i = s_props s !! i).
Proof.
  simpl. intros H. apply execute_vote_shape in H as (p & votes1 & st & H1 & Hlt & H2 & H3 & H4 & H5 & -> & _).
  exists p, (set_status (set_votes p votes1) st). simpl. rewrite !lookup_insert.
  split; [done|]. split; [done|]. split; [done|]. split.
  - intros v0. simpl. unfold vote_result in H4. destruct (s_ballots s !! (id, a)) as [cur|]; simpl.
    + destruct H4 as (_ & Hne & votes0 & Hr & Ha).
      apply remove_weight_ok in Hr as (x & Hx & ->). apply add_weight_ok in Ha as (y & Hy & ->).
      rewrite list_lookup_insert_ne in Hy by done. unfold tally_of. simpl.
      destruct (decide (bl_vote cur = v0)) as [<-|H0].
      * rewrite decide_False by done. rewrite list_lookup_insert_ne by done.
        rewrite list_lookup_insert by (by eapply lookup_lt_Some). rewrite Hx. simpl. lia.
      * destruct (decide (v = v0)) as [<-|H0'].
        -- rewrite list_lookup_insert by (rewrite insert_length; by eapply lookup_lt_Some).
           rewrite Hy. simpl. lia.
        -- rewrite !list_lookup_insert_ne by done. lia.
    + apply add_weight_ok in H4 as (y & Hy & ->). unfold tally_of. simpl.
      destruct (decide (v = v0)) as [<-|H0'].
      * rewrite list_lookup_insert by (by eapply lookup_lt_Some). rewrite Hy. simpl. lia.
      * rewrite list_lookup_insert_ne by done. lia.
  - intros i Hi. by rewrite lookup_insert_ne.
Qed.

(** ** Hook failures *)
Lemma run_quiet_no_inst b s (subs : list sub) :
  (forall i, SInstantiate i ∉ subs) ->
  exists l : slog, run_quiet on_ok b s subs = Ok (s, l).
Proof.
  induction subs as [|x subs IH]; intros Hne; simpl; [by eexists|].
  assert (on_ok s b x 0%N = Ok s) as ->.
  { destruct x; try done. exfalso. eapply Hne. left. }
  destruct IH as [l ->]; [|by eexists]. intros i Hi. eapply Hne. by right.
Qed.
Lemma run_subs_one_fail O b s subs k x s' :
  (forall i, SInstantiate i ∉ subs) -> subs !! k = Some x -> on_fail s b x = Ok s' ->
  exists l, run_subs (handle O) on_fail on_ok b s subs
              (replicate k (Some (0%N, [])) ++ [None]) = Ok (s', l).
Proof.
  revert k. induction subs as [|y subs IH]; intros k Hne Hk Hf; [done|].
  assert (forall i, SInstantiate i ∉ subs) as Hne'. { intros i Hi. eapply Hne. by right. }
  destruct k as [|k].
  - injection Hk as ->. cbn [replicate app].
    change (exists l : slog, (do! s'0 <- on_fail s b x;
       do! ' (s'', l) <- run_quiet on_ok b s'0 subs;
       Ok (s'', ESub s b x false s'0 :: l)) = Ok (s', l)).
    rewrite Hf. destruct (run_quiet_no_inst b s' subs Hne') as [l ->]. by eexists.
  - cbn [replicate app].
    change (exists l : slog, (do! s'0 <- on_ok s b y 0%N;
       do! ' (s'', l) <- run_subs (handle O) on_fail on_ok b s'0 subs (replicate k (Some (0%N, [])) ++ [None]);
       Ok (s'', [] ++ ESub s b y true s'0 :: l)) = Ok (s', l)).
    assert (on_ok s b y 0%N = Ok s) as ->.
    { destruct y; try done. exfalso. eapply Hne. left. }
    destruct (IH k Hne' Hk Hf) as [l ->]. by eexists.
Qed.

(** Hook sub-messages carry the position and address of a registered hook. *)
Definition hook_sub_ok (ph vh : list addr) (x : sub) : Prop :=
  match x with
  | SPropHook i r _ => ph !! i = Some r
  | SVoteHook i r _ _ _ => vh !! i = Some r
  | SInstantiate _ => False
  | _ => True
  end.
Lemma handle_hook_subs O s b a m s' subs :
  handle O s b a m = Ok (s', subs) -> (forall i, m <> UpdatePreProposeInfo i) ->
  (forall x, x ∈ subs -> hook_sub_ok (s_phooks s) (s_vhooks s) x) /\
  ((exists x, x ∈ subs) -> s_phooks s' = s_phooks s /\ s_vhooks s' = s_vhooks s).
Proof.
  intros H Hne.
  assert (forall id o n x, x ∈ proposal_status_changed_hooks (V:=nat) (s_phooks s) id o n ->
            hook_sub_ok (s_phooks s) (s_vhooks s) x) as Hch.
  { intros id o n x. unfold proposal_status_changed_hooks. destruct (decide _).
    - by intros ?%elem_of_nil.
    - intros (i & r & -> & Hi)%elem_imap. done. }
  assert (forall id v x, x ∈ new_vote_hooks (s_vhooks s) id a v ->
            hook_sub_ok (s_phooks s) (s_vhooks s) x) as Hvh0.
  { intros id v x (i & r & -> & Hi)%elem_imap. done. }
  assert (forall id v c x, x ∈ new_vote_hooks (s_vhooks s) id c v ->
            hook_sub_ok (s_phooks s) (s_vhooks s) x) as Hvh.
  { intros id v c x (i & r & -> & Hi)%elem_imap. done. }
  assert (forall id c x, x ∈ new_proposal_hooks (V:=nat) (s_phooks s) id c ->
            hook_sub_ok (s_phooks s) (s_vhooks s) x) as Hnp.
  { intros id c x (i & r & -> & Hi)%elem_imap. done. }
  assert (forall id st x, x ∈ proposal_completed_hooks (V:=nat) (s_policy s) id st ->
            hook_sub_ok (s_phooks s) (s_vhooks s) x) as Hco.
  { intros id st x. destruct (s_policy s); simpl; [by intros ?%elem_of_nil|].
    by intros ->%elem_of_list_singleton. }
  destruct m; simpl in H.
  - apply execute_propose_shape in H
      as (proposer & st & s1 & subs2 & cs & _ & _ & _ & _ & _ & Hst & -> & -> & Hv).
    destruct (pm_vote pm) as [[v r]|].
    + apply execute_vote_shape in Hv as (p & votes1 & st2 & H1 & Hlt & H2 & H3 & H4 & H5 & -> & ->).
      split; [|done]. intros x. rewrite !elem_of_app. naive_solver.
    + destruct Hv as [-> ->]. split; [|done]. intros x. rewrite app_nil_r. eauto.
  - apply execute_vote_shape in H as (p & votes1 & st2 & H1 & Hlt & H2 & H3 & H4 & H5 & -> & ->).
    split; [|done]. intros x. rewrite !elem_of_app. naive_solver.
  - unfold execute_update_rationale in H. destruct (s_ballots s !! _); [|discriminate].
    injection H as <- <-. split; [by intros x ?%elem_of_nil|done].
  - apply execute_execute_shape in H as (p & st & c0 & Hp & Hst & Hc0 & Hal & -> & ->).
    split; [|done]. intros x. rewrite !elem_of_app. intros [Hin|[Hin|Hin]]; [|eauto..].
    destruct (ch_msgs c0); [by apply elem_of_nil in Hin|].
    apply elem_of_list_singleton in Hin. by subst.
  - apply execute_veto_shape in H as (p & st & vc & Hp & Hst & _ & _ & Hal & -> & ->).
    split; [|done]. intros x. rewrite !elem_of_app. naive_solver.
  - apply execute_close_shape in H as (p & Hp & Hst & -> & ->).
    split; [|done]. intros x. rewrite !elem_of_app. naive_solver.
  - unfold execute_update_config in H. destruct (_ =? _)%N; [|discriminate].
    destruct (validate_config c); [|discriminate]. injection H as <- <-.
    split; [by intros x ?%elem_of_nil|done].
  - by destruct (Hne i).
  - unfold execute_add_proposal_hook in H. destruct (_ =? _)%N; [|discriminate].
    destruct (add_hook _ _); [|discriminate]. injection H as <- <-.
    split; [by intros x ?%elem_of_nil|by intros [x ?%elem_of_nil]].
  - unfold execute_remove_proposal_hook in H. destruct (_ =? _)%N; [|discriminate].
    destruct (remove_hook _ _); [|discriminate]. injection H as <- <-.
    split; [by intros x ?%elem_of_nil|by intros [x ?%elem_of_nil]].
  - unfold execute_add_vote_hook in H. destruct (_ =? _)%N; [|discriminate].
    destruct (add_hook _ _); [|discriminate]. injection H as <- <-.
    split; [by intros x ?%elem_of_nil|by intros [x ?%elem_of_nil]].
  - unfold execute_remove_vote_hook in H. destruct (_ =? _)%N; [|discriminate].
    destruct (remove_hook _ _); [|discriminate]. injection H as <- <-.
    split; [by intros x ?%elem_of_nil|by intros [x ?%elem_of_nil]].
Qed.

Lemma remove_index_filter (h : list addr) i r :
  NoDup h -> h !! i = Some r ->
  remove_hook_by_index h i = Ok (filter (fun a => a <> r) h).
Proof.
  intros Hnd Hi. unfold remove_hook_by_index.
  pose proof (lookup_lt_Some _ _ _ Hi) as Hlt.
  assert ((i <? length h)%nat = true) as -> by (apply Nat.ltb_lt; lia). f_equal.
  revert i Hi Hlt. induction h as [|x h IH]; intros i Hi Hlt; [done|].
  apply NoDup_cons in Hnd as [Hx Hnd]. destruct i as [|i]; simpl in *.
  - injection Hi as ->. rewrite filter_cons_False by (intros ?; done).
    unfold drop. clear -Hx. induction h as [|y h IH]; [done|].
    rewrite not_elem_of_cons in Hx. destruct Hx as [Hy Hx].
    rewrite filter_cons_True by congruence. f_equal. by apply IH.
  - rewrite filter_cons_True.
    + f_equal. apply IH; [done|done|lia].
    + intros ->. apply Hx. apply elem_of_list_lookup. eauto.
Qed.

(** Hook lists never contain duplicates. *)
Definition hooks_nodup (s : state) : Prop := NoDup (s_phooks s) /\ NoDup (s_vhooks s).
Lemma add_hook_nodup h a h' : NoDup h -> add_hook h a = Ok h' -> NoDup h'.
Proof.
  unfold add_hook. destruct (existsb _ _) eqn:E; [discriminate|]. intros Hn [= <-].
  apply NoDup_app. split; [done|]. split; [|apply NoDup_singleton].
  intros x Hx ->%elem_of_list_singleton.
  assert (existsb (N.eqb a) h = true); [|congruence].
  apply existsb_exists. exists a. split; [by apply elem_of_list_In|apply N.eqb_refl].
Qed.
Lemma remove_first_sublist a h : sublist (remove_first a h) h.
Proof.
  induction h as [|x h IH]; simpl; [done|]. destruct (_ =? _)%N.
  - by apply sublist_cons.
  - by apply sublist_skip.
Qed.
Lemma sublist_nodup (l k : list addr) : NoDup k -> sublist l k -> NoDup l.
Proof.
  intros Hk Hs. induction Hs as [|x l k Hs IH|x l k Hs IH]; [done|..];
    apply NoDup_cons in Hk as [Hx Hk]; [|by apply IH].
  constructor; [|by apply IH]. intros Hin. apply Hx. eapply elem_of_submseteq; [exact Hin|].
  by apply sublist_submseteq.
Qed.
Lemma remove_hook_nodup h a h' : NoDup h -> remove_hook h a = Ok h' -> NoDup h'.
Proof.
  unfold remove_hook. destruct (existsb _ _); [|discriminate]. intros Hn [= <-].
  eapply sublist_nodup; [done|apply remove_first_sublist].
Qed.
Lemma remove_index_nodup h i h' : NoDup h -> remove_hook_by_index h i = Ok h' -> NoDup h'.
Proof.
  unfold remove_hook_by_index. destruct (_ <? _)%nat; [|discriminate]. intros Hn [= <-].
  eapply sublist_nodup; [exact Hn|]. 
  assert (h = take i h ++ drop i h) as E by (by rewrite take_drop). rewrite E at 3. clear E.
  apply sublist_app; [done|]. replace (drop (S i) h) with (drop 1 (drop i h)).
  - apply sublist_drop.
  - rewrite drop_drop. f_equal. lia.
Qed.
Lemma handle_hooks_nodup O s b a m s' subs :
  handle O s b a m = Ok (s', subs) -> hooks_nodup s -> hooks_nodup s'.
Proof.
  intros H [Hp Hv]. unfold hooks_nodup. destruct m; simpl in H.
  - apply execute_propose_shape in H
      as (proposer & st & s1 & subs2 & cs & _ & _ & _ & _ & _ & Hst & -> & -> & Hvv).
    destruct (pm_vote pm) as [[v r]|].
    + by apply execute_vote_shape in Hvv as (p & votes1 & st2 & H1 & Hlt & H2 & H3 & H4 & H5 & -> & ->).
    + by destruct Hvv as [-> ->].
  - by apply execute_vote_shape in H as (p & votes1 & st2 & H1 & Hlt & H2 & H3 & H4 & H5 & -> & ->).
  - unfold execute_update_rationale in H. destruct (s_ballots s !! _); [|discriminate].
    by injection H as <- <-.
  - by apply execute_execute_shape in H as (p & st & c0 & ? & Hst & Hc0 & Hal & -> & ->).
  - by apply execute_veto_shape in H as (p & st & vc & ? & Hst & _ & _ & Hal & -> & ->).
  - by apply execute_close_shape in H as (p & ? & Hst & -> & ->).
  - unfold execute_update_config in H. destruct (_ =? _)%N; [|discriminate].
    destruct (validate_config c); [|discriminate]. by injection H as <- <-.
  - unfold execute_update_policy in H. destruct (_ =? _)%N; [|discriminate].
    destruct (into_initial_policy_and_messages i). by injection H as <- <-.
  - unfold execute_add_proposal_hook in H. destruct (_ =? _)%N; [|discriminate].
    destruct (add_hook _ _) eqn:E; [|discriminate]. injection H as <- <-. simpl.
    eauto using add_hook_nodup.
  - unfold execute_remove_proposal_hook in H. destruct (_ =? _)%N; [|discriminate].
    destruct (remove_hook _ _) eqn:E; [|discriminate]. injection H as <- <-. simpl.
    eauto using remove_hook_nodup.
  - unfold execute_add_vote_hook in H. destruct (_ =? _)%N; [|discriminate].
    destruct (add_hook _ _) eqn:E; [|discriminate]. injection H as <- <-. simpl.
    eauto using add_hook_nodup.
  - unfold execute_remove_vote_hook in H. destruct (_ =? _)%N; [|discriminate].
    destruct (remove_hook _ _) eqn:E; [|discriminate]. injection H as <- <-. simpl.
    eauto using remove_hook_nodup.
Qed.
Lemma trace_hooks_nodup O b0 s l b1 s' :
  strace O b0 s l b1 s' -> hooks_nodup s -> hooks_nodup s'.
Proof.
  apply (trace_rel (handle O) on_fail on_ok any_msg winv pend
    (fun s s' => hooks_nodup s -> hooks_nodup s')); [done|eauto|].
  intros e (HI & _ & H) [Hp Hv]. destruct e as [pre b a m post subs|pre b x ok post]; simpl in *.
  - destruct H as [_ H]. by eapply handle_hooks_nodup.
  - destruct ok; destruct H as [_ H].
    + destruct H as [d H]. destruct x; simpl in H; by injection H as <-.
    + destruct x; simpl in H; try discriminate.
      * destruct caught; [|discriminate]. destruct (s_props pre !! id); [|discriminate].
        by injection H as <-.
      * destruct (remove_hook_by_index _ _) eqn:E; [|discriminate]. injection H as <-.
        split; simpl; eauto using remove_index_nodup.
      * destruct (remove_hook_by_index _ _) eqn:E; [|discriminate]. injection H as <-.
        split; simpl; eauto using remove_index_nodup.
      * destruct (s_policy pre); [discriminate|]. by injection H as <-.
Qed.

Lemma one_hook_fails O s b a m s1 subs k i r pm :
  hooks_nodup s -> (forall i, m <> UpdatePreProposeInfo i) ->
  handle O s b a m = Ok (s1, subs) -> subs !! k = Some (SPropHook i r pm) ->
  exists l, scall O b s (Call a m (replicate k (Some (0%N, [])) ++ [None]))
    = Ok (with_phooks s1 (filter (fun h => h <> r) (s_phooks s)), l).
Proof.
  intros [Hn _] Hm H Hk. destruct (handle_hook_subs _ _ _ _ _ _ _ H Hm) as [A B].
  assert (SPropHook i r pm ∈ subs) as Hin by (apply elem_of_list_lookup; eauto).
  destruct B as [B _]; [eauto|]. pose proof (A _ Hin) as Hi. simpl in Hi.
  rewrite run_call_unfold, H.
  destruct (run_subs_one_fail O b s1 subs k (SPropHook i r pm)
     (with_phooks s1 (filter (fun h => h <> r) (s_phooks s)))) as [l ->].
  - intros j Hj. by apply A in Hj.
  - done.
  - simpl. rewrite Nat2Z.id, B. by rewrite (remove_index_filter _ i r Hn Hi).
  - by eexists.
Qed.
Lemma one_vote_hook_fails O s b a m s1 subs k i r id voter v :
  hooks_nodup s -> (forall i, m <> UpdatePreProposeInfo i) ->
  handle O s b a m = Ok (s1, subs) -> subs !! k = Some (SVoteHook i r id voter v) ->
  exists l, scall O b s (Call a m (replicate k (Some (0%N, [])) ++ [None]))
    = Ok (with_vhooks s1 (filter (fun h => h <> r) (s_vhooks s)), l).
Proof.
  intros [_ Hn] Hm H Hk. destruct (handle_hook_subs _ _ _ _ _ _ _ H Hm) as [A B].
  assert (SVoteHook i r id voter v ∈ subs) as Hin by (apply elem_of_list_lookup; eauto).
  destruct B as [_ B]; [eauto|]. pose proof (A _ Hin) as Hi. simpl in Hi.
  rewrite run_call_unfold, H.
  destruct (run_subs_one_fail O b s1 subs k (SVoteHook i r id voter v)
     (with_vhooks s1 (filter (fun h => h <> r) (s_vhooks s)))) as [l ->].
  - intros j Hj. by apply A in Hj.
  - done.
  - simpl. rewrite Nat2Z.id, B. by rewrite (remove_index_filter _ i r Hn Hi).
  - by eexists.
Qed.
