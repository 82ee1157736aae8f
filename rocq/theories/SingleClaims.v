(** dao-proposal-single: the lemmas behind the theorems of SingleProps.v. *)
From Verif Require Import Base BaseProofs Exec ExecProofs VotingModel VotingSpec
  VotingProofs HooksModel SingleModel SingleSpec SingleProofs SingleLife SingleTally
  SingleFinal SingleExamples.

Lemma trace_extend O b0 s l b1 s' b2 :
  strace O b0 s l b1 s' -> block_le b1 b2 -> strace O b0 s l b2 s'.
Proof.
  intros H Hb. rewrite <- (app_nil_r l). eapply trace_app; [done|]. by constructor.
Qed.
Lemma reached_trace O b s l :
  reached O b s l -> exists b0 s0, fresh s0 /\ strace O b0 s0 l b s.
Proof.
  intros (b0 & s0 & h & Hf & Hh & Hr & Hb). exists b0, s0. split; [done|].
  eapply trace_extend; [|done]. eapply single_trace; eauto using fresh_winv.
Qed.
Lemma later_trace O b s b' s' l : winv b s -> later O b s b' s' l -> strace O b s l b' s'.
Proof.
  intros HI (h & Hh & Hr & Hb). eapply trace_extend; [|done]. by eapply single_trace.
Qed.
Lemma later_winv O b s b' s' l : winv b s -> later O b s b' s' l -> winv b' s'.
Proof.
  intros HI (h & Hh & Hr & Hb). eapply winv_time; [done|]. by eapply single_trace.
Qed.
Lemma reached_legit O b s l e :
  reached O b s l -> e ∈ l -> legit (handle O) on_fail on_ok any_msg winv pend e.
Proof.
  intros (b0 & s0 & Hf & Ht)%reached_trace He.
  apply trace_forall in Ht. rewrite Forall_forall in Ht. by apply Ht.
Qed.
Lemma reached_for_reached O d b s l : reached_for O d b s l -> reached O b s l.
Proof. intros (b0 & s0 & h & A & _ & B & _ & C & D). by exists b0, s0, h. Qed.

(** C01 *)
Lemma c01_tally O b s l id p v :
  reached O b s l -> s_props s !! id = Some p -> tally_of p v = ballot_total s id v.
Proof.
  intros (b0 & s0 & h & Hf & Hh & Hr & Hb) Hp.
  exact (single_tally O b0 s0 h s l (fresh_winv b0 s0 Hf) (fresh_tally s0 Hf) Hh Hr id p v Hp).
Qed.
Lemma c01_powers O d b s l id p :
  sane O d -> reached_for O d b s l -> s_props s !! id = Some p ->
  (forall a bl, s_ballots s !! (id, a) = Some bl ->
     bl_power bl = vp O d a (p_start p) /\ 0 < bl_power bl) /\
  p_total p = tp O d (p_start p) /\
  v_yes (p_votes p) + v_no (p_votes p) + v_abstain (p_votes p) <= p_total p.
Proof.
  intros HS HR Hp. pose proof (reached_for_sinv _ _ _ _ _ HS HR) as [HW HT].
  split; [|split].
  - intros a bl Hbl. by eapply (ti_power _ _ _ _ HT).
  - apply (t_total _ _ _ _ (ti_props _ _ _ _ HT _ _ Hp)).
  - apply (tprop_tally _ _ _ _ _ _ HS HT Hp).
Qed.

(** C02 *)
Lemma c02_vote_requires O s b a id v r s' subs :
  handle O s b a (CastVote id v r) = Ok (s', subs) ->
  exists p, s_props s !! id = Some p /\ is_expired (p_exp p) b = false /\
    vp O (c_dao (s_cfg s)) a (p_start p) <> 0 /\
    s_ballots s' = <[(id, a) := Ballot (vp O (c_dao (s_cfg s)) a (p_start p)) v r]> (s_ballots s).
Proof.
  intros H. simpl in H. apply execute_vote_shape in H as (p & votes1 & st & H1 & H2 & H3 & H4 & H5 & -> & _).
  exists p. done.
Qed.
Lemma c02_late_power_irrelevant O O' s b a id v r :
  (forall p, s_props s !! id = Some p ->
     vp O (c_dao (s_cfg s)) a (p_start p) = vp O' (c_dao (s_cfg s)) a (p_start p)) ->
  handle O s b a (CastVote id v r) = handle O' s b a (CastVote id v r).
Proof.
  intros H. simpl. unfold execute_vote. destruct (s_props s !! id) as [p|]; [|done].
  by rewrite (H p eq_refl).
Qed.
Lemma c02_ballot_origin O b s l e id a :
  reached O b s l -> e ∈ l ->
  s_ballots (ev_post e) !! (id, a) <> s_ballots (ev_pre e) !! (id, a) ->
  exists pre b' sender m post subs,
    e = ECall pre b' sender m post subs /\
    match m with
    | CastVote i _ _ | UpdateRationale i _ => i = id /\ sender = a
    | Propose pm => id = s_count pre + 1 /\ pm_vote pm <> None /\
        match s_policy pre with
        | Anyone => sender = a
        | Module mo => sender = mo /\ pm_proposer pm = Some a
        end
    | _ => False
    end.
Proof.
  intros HR He Hne. pose proof (reached_legit _ _ _ _ _ HR He) as (HI & _ & H).
  destruct e as [pre b' sender m post subs|pre b' x ok post]; simpl in *.
  - destruct H as [_ H]. exists pre, b', sender, m, post, subs. split; [done|].
    destruct m; try (apply (admin_shape O pre b' sender) in H; [|exact I];
      destruct H as (_ & _ & _ & Hb & _); by rewrite Hb in Hne); simpl in H.
    + apply execute_propose_shape in H
        as (proposer & st & s1 & subs2 & H1 & H2 & _ & _ & Hst & -> & -> & Hv).
      destruct (pm_vote pm) as [[v r]|].
      * apply execute_vote_shape in Hv as (p & votes1 & st2 & _ & _ & _ & _ & _ & -> & _).
        simpl in Hne.
        destruct (decide ((s_count pre + 1, proposer) = (id, a))) as [[= <- <-]|Hn];
          [|by rewrite lookup_insert_ne in Hne].
        split; [done|]. split; [done|]. unfold decide_proposer, is_permitted in *.
        destruct (s_policy pre), (pm_proposer pm); simpl in H1, H2; try discriminate;
          injection H2 as ->; [done|]. by apply N.eqb_eq in H1.
      * by destruct Hv as [-> _].
    + apply execute_vote_shape in H as (p & votes1 & st & _ & _ & _ & _ & _ & -> & _).
      simpl in Hne. destruct (decide ((id0, sender) = (id, a))) as [[= <- <-]|Hn]; [done|].
      by rewrite lookup_insert_ne in Hne.
    + unfold execute_update_rationale in H. destruct (s_ballots pre !! (id0, sender)); [|discriminate].
      injection H as <- <-. simpl in Hne.
      destruct (decide ((id0, sender) = (id, a))) as [[= <- <-]|Hn]; [done|].
      by rewrite lookup_insert_ne in Hne.
    + by apply execute_execute_shape in H as (p & st & _ & _ & _ & -> & _).
    + by apply execute_veto_shape in H as (p & st & vc & _ & _ & _ & _ & _ & -> & _).
    + by apply execute_close_shape in H as (p & _ & _ & -> & _).
  - exfalso. apply Hne. destruct ok; destruct H as [_ H].
    + destruct H as [d H]. destruct x; simpl in H; by injection H as <-.
    + destruct (on_fail_shape _ _ _ _ H) as [(d & i & ms & p & -> & Hp & ->)|(Hx & E1 & E2 & _)];
        [done|by rewrite E2].
Qed.

(** C03 *)
Lemma c03_immutable O b s l b' s' l' id a bl p :
  reached O b s l -> later O b s b' s' l' ->
  s_props s !! id = Some p -> p_revote p = false -> s_ballots s !! (id, a) = Some bl ->
  exists bl', s_ballots s' !! (id, a) = Some bl' /\
    bl_vote bl' = bl_vote bl /\ bl_power bl' = bl_power bl.
Proof.
  intros HR HL Hp Hr Hb.
  pose proof (later_trace _ _ _ _ _ _ (reached_winv _ _ _ _ HR) HL) as Ht.
  destruct (trace_keeps_ballots _ _ _ _ _ _ Ht) as [_ Hk]. by eapply Hk.
Qed.
Lemma c03_revote_moves O d b s l a id v r s' subs cur p :
  sane O d -> reached_for O d b s l ->
  s_props s !! id = Some p -> s_ballots s !! (id, a) = Some cur ->
  handle O s b a (CastVote id v r) = Ok (s', subs) ->
  p_revote p = true /\ v <> bl_vote cur /\
  s_ballots s' = <[(id, a) := Ballot (bl_power cur) v r]> (s_ballots s) /\
  exists p', s_props s' !! id = Some p' /\
    forall v0, tally_of p' v0 =
      tally_of p v0 - (if decide (v0 = bl_vote cur) then bl_power cur else 0)
                    + (if decide (v0 = v) then bl_power cur else 0).
Proof.
  intros HS HR Hp Hb H. pose proof (reached_for_sinv _ _ _ _ _ HS HR) as [HW HT].
  destruct (ti_power _ _ _ _ HT _ _ _ _ Hb Hp) as [Hpow _].
  pose proof (ti_att _ _ _ _ HT) as [Ed _].
  pose proof (vote_effect _ _ _ _ _ _ _ _ _ H) as (p0 & p' & Hp0 & Hp' & Hbs & Ht & _).
  rewrite Hp in Hp0. injection Hp0 as <-.
  simpl in H. apply execute_vote_shape in H as (p1 & votes1 & st & H1 & _ & _ & H4 & _).
  rewrite Hp in H1. injection H1 as <-. unfold vote_result in H4. rewrite Hb in H4.
  destruct H4 as (Hr & Hne & _). rewrite Ed, <- Hpow in Hbs.
  split; [done|]. split; [done|]. split; [done|].
  exists p'. split; [done|]. intros v0. rewrite Ht, Hbs, lookup_insert, Hb. simpl.
  repeat destruct (decide _); try congruence; lia.
Qed.

(** C04 *)
Lemma c04_final O d b s l id p st b' s' l' :
  sane O d -> reached_for O d b s l ->
  s_props s !! id = Some p -> at_least_billionth (p_thr p) ->
  query_status s b id = Ok st -> passed_like st ->
  later_for O d b s b' s' l' ->
  exists st', query_status s' b' id = Ok st' /\ (passed_like st' \/ st' = Vetoed).
Proof.
  intros HS HR Hp Hbil Hq Hst HL.
  pose proof (reached_for_sinv _ _ _ _ _ HS HR) as HI.
  pose proof (later_for_sinv _ _ _ _ _ _ _ HS HI HL) as HI'.
  assert (exists p', s_props s' !! id = Some p') as [p' Hp'].
  { assert (later O b s b' s' l') as HL2.
    { destruct HL as (h & A & _ & B & C). by exists h. }
    pose proof (later_trace _ _ _ _ _ _ (proj1 HI) HL2) as Ht.
    apply trace_terms in Ht as [_ Ht]. destruct (Ht id p Hp) as (p' & Hp' & _). eauto. }
  destruct (status_total O d b' s' id p' b' HS HI' Hp') as [st' Hst'].
  exists st'. split; [done|].
  exact (pass_final O d b s id p st b' s' l' st' HS HI Hp Hbil Hq Hst HL Hst').
Qed.
Lemma c04_continuations O d b s l id p st :
  sane O d -> reached_for O d b s l ->
  s_props s !! id = Some p -> at_least_billionth (p_thr p) ->
  query_status s b id = Ok st -> passed_like st -> is_expired (p_exp p) b = false ->
  p_revote p = false /\
  forall v', votes_le (p_votes p) v' -> tally_ok (p_total p) v' ->
             outcome_near (p_thr p) (p_total p) v'.
Proof.
  intros HS HR Hp Hbil Hq Hst Hx.
  pose proof (reached_for_sinv _ _ _ _ _ HS HR) as HI.
  exact (passed_continuations O d b s id p st HS HI Hp Hbil Hq Hst Hx).
Qed.

(** A passing percentage of 10^-18 and no quorum: reported passed after the
    minimum period, with no votes at all, and rejected at expiration. *)
Definition c04_cfg : config :=
  Config (ThresholdQuorum (Percent 1) (Percent 0)) (DHeight 100) (Some (DHeight 10))
    false false 9 true None.
Lemma c04_refuted :
  exists O d b s l id p st b' s' l' st',
    sane O d /\ reached_for O d b s l /\ s_props s !! id = Some p /\ p_revote p = false /\
    is_expired (p_exp p) b = false /\
    query_status s b id = Ok st /\ passed_like st /\ later_for O d b s b' s' l' /\
    query_status s' b' id = Ok st' /\ ~ (passed_like st' \/ st' = Vetoed).
Proof.
  exists ex_O, 9%N, (at_ 30), (ex_s c04_cfg [(at_ 10, quiet 1 (Propose (ex_pm [7] None)))]),
    (ex_l c04_cfg [(at_ 10, quiet 1 (Propose (ex_pm [7] None)))]), 1.
  do 2 eexists. exists (at_ 200). do 3 eexists.
  split; [apply ex_sane|]. split; [ex_reach|]. split; [vm_compute; reflexivity|].
  split; [reflexivity|]. split; [reflexivity|]. split; [vm_compute; reflexivity|].
  split; [exact I|]. split; [eapply (ex_later_for _ _ []); ex_side|].
  split; [vm_compute; reflexivity|]. intros [[]|?]. discriminate.
Qed.

(** C05 *)
Lemma c05_final O d b s l id st b' s' l' :
  sane O d -> reached_for O d b s l ->
  query_status s b id = Ok st -> rejected_like st ->
  later_for O d b s b' s' l' ->
  exists st', query_status s' b' id = Ok st' /\ rejected_like st'.
Proof.
  intros HS HR Hq Hst HL.
  pose proof (reached_for_sinv _ _ _ _ _ HS HR) as HI.
  pose proof (later_for_sinv _ _ _ _ _ _ _ HS HI HL) as HI'.
  assert (exists p', s_props s' !! id = Some p') as [p' Hp'].
  { assert (later O b s b' s' l') as HL2.
    { destruct HL as (h & A & _ & B & C). by exists h. }
    unfold query_status in Hq. destruct (s_props s !! id) as [p|] eqn:Hp; [|discriminate].
    pose proof (later_trace _ _ _ _ _ _ (proj1 HI) HL2) as Ht.
    apply trace_terms in Ht as [_ Ht]. destruct (Ht id p Hp) as (p' & Hp' & _). eauto. }
  destruct (status_total O d b' s' id p' b' HS HI' Hp') as [st' Hst'].
  exists st'. split; [done|].
  exact (reject_final O d b s id st b' s' l' st' HS HI Hq Hst HL Hst').
Qed.
Lemma c05_hopeless O d b s l id p st :
  sane O d -> reached_for O d b s l ->
  s_props s !! id = Some p -> query_status s b id = Ok st -> rejected_like st ->
  is_expired (p_exp p) b = false ->
  p_revote p = false /\
  forall v', votes_le (p_votes p) v' -> tally_ok (p_total p) v' ->
    ~ outcome_met (p_thr p) (p_total p) v' /\
    (nine_decimals (p_thr p) -> ~ outcome_near (p_thr p) (p_total p) v').
Proof.
  intros HS HR Hp Hq Hst Hx.
  pose proof (reached_for_sinv _ _ _ _ _ HS HR) as HI.
  destruct (rejected_continuations _ _ _ _ _ _ _ HS HI Hp Hq Hst Hx) as [Hr Hc].
  split; [done|]. intros v' Hle Hok. split; [by apply Hc|].
  intros Hn Ho. apply (Hc v' Hle Hok). by apply outcome_near_met.
Qed.

(** C06 *)
Lemma c06_at_expiry O d b s l id p :
  sane O d -> reached_for O d b s l ->
  s_props s !! id = Some p -> is_expired (p_exp p) b = true ->
  exists st, query_status s b id = Ok st /\
    (passed_like st \/ rejected_like st \/ st = Vetoed) /\
    (p_status p = Open ->
       (passed_like st <-> outcome_near (p_thr p) (p_total p) (p_votes p)) /\
       (nine_decimals (p_thr p) ->
          (passed_like st <-> outcome_met (p_thr p) (p_total p) (p_votes p)))) /\
    (passed_like st -> at_least_billionth (p_thr p) ->
       outcome_near (p_thr p) (p_total p) (p_votes p)) /\
    (rejected_like st -> ~ outcome_met (p_thr p) (p_total p) (p_votes p)).
Proof.
  intros HS HR Hp Hx. pose proof (reached_for_sinv _ _ _ _ _ HS HR) as HI.
  destruct (status_total O d b s id p b HS HI Hp) as [st Hst]. exists st. split; [done|].
  destruct (outcome_at_expiry _ _ _ _ _ _ _ HS HI Hp Hst Hx) as (A & B & C & D).
  split; [done|]. split; [|done]. intros Ho. specialize (D Ho). split; [done|].
  intros Hn. rewrite D. split; [by apply outcome_near_met|by apply outcome_met_near].
Qed.
Lemma c06_all_abstain t T v :
  v_yes v = 0 -> v_no v = 0 -> v_abstain v <= T ->
  thr_range t -> validate_threshold t = Ok tt ->
  at_least_billionth t \/ v_abstain v = T \/ (exists p q, t = ThresholdQuorum p q) ->
  ~ outcome_near t T v.
Proof.
  intros Hy Hn Ha Hr Hv Ht. unfold outcome_near. destruct t as [p|p q|n]; simpl in *.
  - unfold share_near. rewrite Hy. intros [H1 H2]. destruct Ht as [Ht|[Hab|(? & ? & ?)]]; [|lia|done].
    destruct p as [|a]; simpl in *; nia.
  - unfold share_near. intros [_ [? _]]. lia.
  - destruct (n =? 0) eqn:E; [discriminate|]. lia.
Qed.

(** C07 *)
Lemma c07_nine_decimals yes no options pc :
  pct_range pc -> nine_decimals_p pc -> 0 <= yes -> 0 <= no -> yes + no <= options ->
  ~ (does_vote_count_pass yes options pc = true /\ does_vote_count_fail no options pc = true).
Proof.
  intros Hr Hn Hy Hno Hs [Hp Hf]. apply pass_iff in Hp; [|lia].
  apply near_met in Hp; [|done].
  exact (fail_excludes_met no options no options yes pc Hr Hy ltac:(lia) Hf ltac:(lia) ltac:(lia) ltac:(lia) Hp).
Qed.

(** One yes vote short of two thirds, by less than a billionth of a vote. *)
Lemma c07_refuted :
  exists yes no options pc,
    validate_percentage pc = Ok tt /\ 0 <= yes /\ 0 <= no /\ yes + no <= options /\
    does_vote_count_pass yes options pc = true /\ does_vote_count_fail no options pc = true.
Proof.
  exists 2, 1, 3, (Percent 666666666666666667). vm_compute. repeat split; discriminate.
Qed.
(** Powers 2 and 1; the same two votes in different orders. *)
Definition c07_O : oracle :=
  Oracle (fun _ a _ => if (a =? 1)%N then 2 else if (a =? 2)%N then 1 else 0) (fun _ _ => 3).
Definition c07_cfg : config :=
  Config (AbsolutePercentage (Percent 666666666666666667)) (DHeight 100) None false false 9 true None.
Definition c07_hist (first second : addr * vote) : list (block * call msg) :=
  [ (at_ 10, quiet 5 (Propose (ex_pm [7] None)));
    (at_ 11, quiet first.1 (CastVote 1 first.2 None));
    (at_ 12, quiet second.1 (CastVote 1 second.2 None)) ].
Lemma c07_order_refuted :
  exists O d s0 h1 h2 s1 l1 s2 l2 id p1 p2,
    sane O d /\ fresh s0 /\ attached d s0 /\ hist_ok (at_ 0) h1 /\ hist_ok (at_ 0) h2 /\
    h1 ≡ₚ [ (at_ 10, quiet 5 (Propose (ex_pm [7] None)));
           (at_ 11, quiet 1 (CastVote id Yes None)); (at_ 12, quiet 2 (CastVote id No None)) ] /\
    map snd h2 ≡ₚ map snd h1 /\
    run_hist (handle O) on_fail on_ok s0 h1 = (s1, l1) /\
    run_hist (handle O) on_fail on_ok s0 h2 = (s2, l2) /\
    s_props s1 !! id = Some p1 /\ s_props s2 !! id = Some p2 /\ p_votes p1 = p_votes p2 /\
    query_status s1 (at_ 200) id = Ok Passed /\ query_status s2 (at_ 200) id = Ok Rejected.
Proof.
  exists c07_O, 9%N, (ex_state c07_cfg), (c07_hist (1%N, Yes) (2%N, No)),
    (c07_hist (2%N, No) (1%N, Yes)).
  do 4 eexists. exists 1. do 2 eexists.
  split.
  { split; [|split].
    - intros a h. simpl. repeat case_match; lia.
    - intros h. done.
    - intros h l Hl. simpl.
      pose proof (lsum_single 1%N 2 l ltac:(lia) Hl). pose proof (lsum_single 2%N 1 l ltac:(lia) Hl).
      assert (lsum (fun a : addr => if (a =? 1)%N then 2 else if (a =? 2)%N then 1 else 0) l =
        lsum (fun a => if (a =? 1)%N then 2 else 0) l + lsum (fun a => if (a =? 2)%N then 1 else 0) l) as ->; [|lia].
      clear. induction l as [|x l IH]; simpl; [done|]. rewrite IH.
      destruct (x =? 1)%N eqn:E1; [apply N.eqb_eq in E1 as ->; simpl; lia|]. lia. }
  split; [done|]. split; [ex_side|]. split; [ex_side|]. split; [ex_side|]. split; [done|].
  split; [simpl; apply perm_skip, perm_swap|].
  split; [apply surjective_pairing|]. split; [apply surjective_pairing|].
  split; [vm_compute; reflexivity|]. split; [vm_compute; reflexivity|].
  split; [vm_compute; reflexivity|]. split; vm_compute; reflexivity.
Qed.

(** C08 *)
Lemma c08_reported O b s l id p st m :
  reached O b s l -> s_props s !! id = Some p -> p_min p = Some m ->
  query_status s b id = Ok st -> passed_like st -> is_expired m b = true.
Proof.
  intros HR Hp Hm Hq Hst. pose proof (reached_winv _ _ _ _ HR) as HW.
  unfold query_status in Hq. rewrite Hp in Hq.
  pose proof (wprop_current b p st (wi_props _ _ HW _ _ Hp) Hq) as Hw.
  pose proof (w_passed_min _ _ Hw Hst) as H. unfold min_ok in H. simpl in H. by rewrite Hm in H.
Qed.
Lemma c08_executed O b s l pre b' a id post subs p m :
  reached O b s l -> ECall pre b' a (Execute id) post subs ∈ l ->
  s_props pre !! id = Some p -> p_min p = Some m -> is_expired m b' = true.
Proof.
  intros HR He Hp Hm. pose proof (reached_legit _ _ _ _ _ HR He) as (HW & _ & _ & H).
  simpl in *. apply execute_execute_shape in H as (p' & st & Hp' & Hst & Hal & _).
  rewrite Hp in Hp'. injection Hp' as <-.
  pose proof (wprop_current b' p st (wi_props _ _ HW _ _ Hp) Hst) as Hw.
  assert (passed_like st) as Hpl by (destruct Hal as [[-> _]|(e & vc & -> & _)]; done).
  pose proof (w_passed_min _ _ Hw Hpl) as H. unfold min_ok in H. simpl in H. by rewrite Hm in H.
Qed.

(** C09 *)
Lemma c09_revote_open O b s l id p st :
  reached O b s l -> s_props s !! id = Some p -> p_revote p = true ->
  is_expired (p_exp p) b = false -> query_status s b id = Ok st ->
  st = Open \/ st = Vetoed.
Proof.
  intros HR Hp Hr Hx Hq. pose proof (reached_winv _ _ _ _ HR) as HW.
  unfold query_status in Hq. rewrite Hp in Hq.
  pose proof (wprop_current b p st (wi_props _ _ HW _ _ Hp) Hq) as Hw.
  destruct st; try (by left); try (by right); exfalso;
    pose proof (w_revote _ _ Hw Hr I) as H; simpl in H; congruence.
Qed.

(** C10 *)
Lemma c10_at_most_once O b s l id : reached O b s l -> 0 <= dispatches id l <= 1.
Proof.
  intros (b0 & s0 & Hf & Ht)%reached_trace. by apply (trace_dispatches _ _ _ _ _ _ id) in Ht as [? _].
Qed.
Lemma c10_conditions O b s l pre b' a m post subs d id ms c :
  reached O b s l -> ECall pre b' a m post subs ∈ l -> SExec d id ms c ∈ subs ->
  m = Execute id /\ d = c_dao (s_cfg pre) /\
  exists p st, s_props pre !! id = Some p /\ query_status pre b' id = Ok st /\
    ((st = Passed /\
      (c_only_members (s_cfg pre) = true -> vp O (c_dao (s_cfg pre)) a (p_start p) <> 0)) \/
     (exists e vc, st = VetoTimelock e /\ p_veto p = Some vc /\ a = vc_vetoer vc /\
                   vc_early_execute vc = true)) /\
    exists pre1 b1 a1 pm post1 subs1,
      ECall pre1 b1 a1 (Propose pm) post1 subs1 ∈ l /\ s_count pre1 + 1 = id /\
      ms = pm_msgs pm.
Proof.
  intros HR He Hin. pose proof (reached_legit _ _ _ _ _ HR He) as Hleg.
  destruct (legit_dispatch _ _ _ _ _ _ _ _ _ _ _ Hleg Hin) as (-> & p & st & Hp & -> & -> & -> & Hst & Hal & _).
  split; [done|]. split; [done|]. exists p, st. split; [done|].
  split; [unfold query_status; by rewrite Hp|]. split.
  { destruct Hal as [(-> & ? & _)|(e & vc & -> & Hv & Ha & Hx)]; [left; done|right; eauto 10]. }
  apply reached_trace in HR as (b0 & s0 & Hf & Ht).
  apply elem_of_list_split in He as (l1 & l2 & ->).
  apply trace_split in Ht as (bm & sm & Ht1 & Ht2).
  assert (sm = pre) as ->. { by inversion Ht2; subst. }
  destruct (trace_created _ _ _ _ _ _ id Ht1) as (pre1 & b1 & a1 & pm & post1 & subs1 & Hin1 & Hh1 & Hid & Hst1).
  - by apply fresh_winv.
  - destruct Hf as (_ & -> & _). apply lookup_empty.
  - eauto.
  - exists pre1, b1, a1, pm, post1, subs1. split; [by apply elem_of_app; left|]. split; [done|].
    apply handle_propose_terms in Hh1 as (_ & p1 & Hp1 & _ & _ & _ & _ & _ & Hms & _).
    rewrite Hid in Hp1. destruct Hst1 as [_ Hst1]. destruct (Hst1 id p1 Hp1) as (p2 & Hp2 & Et).
    rewrite Hp in Hp2. injection Hp2 as <-. unfold terms in Et. congruence.
Qed.

(** C11 *)
Lemma c11_terminal O b s l id st b' s' l' :
  reached O b s l -> query_status s b id = Ok st -> terminal st ->
  later O b s b' s' l' -> query_status s' b' id = Ok st.
Proof.
  intros HR Hq Ht HL. pose proof (reached_winv _ _ _ _ HR) as HW.
  assert (status_of s id = Some st) as Hs.
  { unfold query_status in Hq. unfold status_of.
    destruct (s_props s !! id) as [p|]; [|discriminate]. simpl. f_equal.
    apply current_status_cases in Hq. destruct (p_status p); subst; try done.
    - destruct Hq as [(-> & _)|[(vc & e & -> & _)|[(-> & _)|(-> & _)]]];
        destruct Ht as [?|[?|[?|?]]]; discriminate.
    - destruct Hq as [[_ ->]|[_ ->]]; destruct Ht as [?|[?|[?|?]]]; discriminate. }
  destruct HL as (h & Hh & Hr & Hb).
  pose proof (terminal_forever O b s h s' l' id st HW Hh Hr Hs Ht) as Hs'.
  unfold status_of in Hs'. unfold query_status.
  destruct (s_props s' !! id) as [p|]; [|done]. simpl in Hs'. injection Hs' as Hs'.
  rewrite <- Hs' in Ht |- *. by apply terminal_current_ok.
Qed.

(** C12 *)
Lemma c12_veto O b s l e id :
  reached O b s l -> e ∈ l ->
  status_of (ev_pre e) id <> Some Vetoed -> status_of (ev_post e) id = Some Vetoed ->
  exists pre b' post subs p vc st,
    e = ECall pre b' (vc_vetoer vc) (Veto id) post subs /\
    s_props pre !! id = Some p /\ p_veto p = Some vc /\
    query_status pre b' id = Ok st /\
    ((st = Open /\ vc_veto_before_passed vc = true) \/
     (exists x, st = VetoTimelock x /\ is_expired x b' = false)).
Proof.
  intros HR He Hn Hv.
  destruct (legit_vetoed O e id (reached_legit _ _ _ _ _ HR He) Hv Hn)
    as (pre & b' & a & post & subs & p & vc & st & -> & Hp & Hvc & -> & Hst & Hal).
  exists pre, b', post, subs, p, vc, st. unfold query_status. by rewrite Hp.
Qed.
Lemma c12_vetoed_never_dispatched O b s l id :
  reached O b s l -> status_of s id = Some Vetoed -> dispatches id l = 0.
Proof.
  intros (b0 & s0 & Hf & Ht)%reached_trace Hv.
  apply (trace_dispatches _ _ _ _ _ _ id) in Ht as (Hr & Hd & _).
  destruct (decide (dispatches id l = 1)) as [E|]; [|lia].
  destruct (Hd E) as (p & Hp & Hst). unfold status_of in Hv. rewrite Hp in Hv. simpl in Hv.
  injection Hv as Hv. destruct Hst as [?|?]; congruence.
Qed.

(** C13 *)
Lemma c13_timelock O b s l pre b' a m post subs d id ms c p vc e :
  reached O b s l -> ECall pre b' a m post subs ∈ l -> SExec d id ms c ∈ subs ->
  s_props pre !! id = Some p -> p_veto p = Some vc ->
  exp_add (p_exp p) (vc_timelock vc) = Ok e -> is_expired e b' = false ->
  a = vc_vetoer vc /\ vc_early_execute vc = true.
Proof.
  intros HR He Hin Hp Hv Hx Hn. pose proof (reached_legit _ _ _ _ _ HR He) as Hleg.
  destruct (legit_dispatch _ _ _ _ _ _ _ _ _ _ _ Hleg Hin) as (-> & p' & st & Hp' & _ & _ & _ & _ & Hal & _).
  rewrite Hp in Hp'. injection Hp' as <-.
  destruct Hal as [(-> & _ & H)|(e' & vc' & -> & Hv' & Ha & He')].
  - rewrite (H vc e Hv Hx) in Hn. discriminate.
  - rewrite Hv in Hv'. injection Hv' as <-. done.
Qed.
(** The sum always exists: timelock and voting period have the same unit. *)
Lemma c13_defined O b s l id p vc :
  reached O b s l -> s_props s !! id = Some p -> p_veto p = Some vc ->
  exists e, exp_add (p_exp p) (vc_timelock vc) = Ok e.
Proof.
  intros HR Hp Hv. exact (w_veto _ _ (wi_props _ _ (reached_winv _ _ _ _ HR) _ _ Hp) vc Hv).
Qed.

(** C14 *)
Lemma c14_terms O b s l b' s' l' id p :
  reached O b s l -> later O b s b' s' l' -> s_props s !! id = Some p ->
  exists p', s_props s' !! id = Some p' /\
    p_proposer p' = p_proposer p /\ p_msgs p' = p_msgs p /\ p_thr p' = p_thr p /\
    p_total p' = p_total p /\ p_start p' = p_start p /\ p_exp p' = p_exp p /\
    p_min p' = p_min p /\ p_revote p' = p_revote p /\ p_veto p' = p_veto p.
Proof.
  intros HR HL Hp.
  pose proof (later_trace _ _ _ _ _ _ (reached_winv _ _ _ _ HR) HL) as Ht.
  apply trace_terms in Ht as [_ Ht]. destruct (Ht id p Hp) as (p' & Hp' & E).
  exists p'. split; [done|]. unfold terms in E. injection E. intros. done.
Qed.
Lemma c14_ids O b s l id :
  reached O b s l -> is_Some (s_props s !! id) <-> 1 <= id <= s_count s.
Proof. intros HR. exact (wi_ids _ _ (reached_winv _ _ _ _ HR) id). Qed.
Lemma c14_created O s b a pm s' subs :
  handle O s b a (Propose pm) = Ok (s', subs) ->
  s_count s' = s_count s + 1 /\
  exists p, s_props s' !! (s_count s + 1) = Some p /\
    p_msgs p = pm_msgs pm /\ p_thr p = c_thr (s_cfg s) /\
    p_total p = tp O (c_dao (s_cfg s)) (height b) /\ p_start p = height b /\
    p_exp p = after (c_max (s_cfg s)) b /\
    p_min p = option_map (fun d => after d b) (c_min (s_cfg s)) /\
    p_revote p = c_revote (s_cfg s) /\ p_veto p = c_veto (s_cfg s).
Proof.
  intros H. apply handle_propose_terms in H as (A & p & B & C & D & E & F & G & H & I & J & _).
  split; [done|]. exists p. done.
Qed.

(** C15 *)
Lemma c15_admin O b s l e :
  reached O b s l -> e ∈ l ->
  match e with
  | ECall pre _ a _ post _ =>
      a = c_dao (s_cfg pre) \/
      (s_cfg post = s_cfg pre /\ s_policy post = s_policy pre /\
       s_phooks post = s_phooks pre /\ s_vhooks post = s_vhooks pre)
  | ESub pre _ x true post =>
      s_cfg post = s_cfg pre /\ s_phooks post = s_phooks pre /\ s_vhooks post = s_vhooks pre /\
      (s_policy post = s_policy pre \/ exists info d, x = SInstantiate info /\ s_policy post = Module d)
  | ESub pre _ x false post =>
      s_cfg post = s_cfg pre /\
      (s_policy post = s_policy pre \/ exists r id st, x = SCompleted r id st /\ s_policy post = Anyone) /\
      (s_phooks post = s_phooks pre \/
       exists i r m, x = SPropHook i r m /\ remove_hook_by_index (s_phooks pre) i = Ok (s_phooks post)) /\
      (s_vhooks post = s_vhooks pre \/
       exists i r id a v, x = SVoteHook i r id a v /\
         remove_hook_by_index (s_vhooks pre) i = Ok (s_vhooks post))
  end.
Proof. intros HR He. exact (legit_admin O e (reached_legit _ _ _ _ _ HR He)). Qed.
Lemma c15_instantiate_by_dao O b s l pre b' a m post subs info :
  reached O b s l -> ECall pre b' a m post subs ∈ l -> SInstantiate info ∈ subs ->
  a = c_dao (s_cfg pre) /\ m = UpdatePreProposeInfo (ModuleMayPropose info).
Proof.
  intros HR He Hin. pose proof (reached_legit _ _ _ _ _ HR He) as (_ & _ & _ & H).
  assert ((exists i, m = UpdatePreProposeInfo i) \/ (forall i, m <> UpdatePreProposeInfo i)) as [[i ->]|Hne].
  { destruct m; try (by right); eauto. }
  - pose proof (admin_shape O pre b' a (UpdatePreProposeInfo i) post subs I H) as (-> & _).
    split; [done|]. simpl in H. unfold execute_update_policy in H. rewrite N.eqb_refl in H.
    destruct i as [|info']; simpl in H; injection H as <- <-; [by apply elem_of_nil in Hin|].
    apply elem_of_list_singleton in Hin. congruence.
  - destruct (handle_hook_subs _ _ _ _ _ _ _ H Hne) as [A _]. by apply A in Hin.
Qed.
Lemma c15_propose O s b a pm s' subs :
  handle O s b a (Propose pm) = Ok (s', subs) ->
  exists p, s_props s' !! (s_count s + 1) = Some p /\
  match s_policy s with
  | Anyone => p_proposer p = a
  | Module mo => a = mo /\ pm_proposer pm = Some (p_proposer p)
  end.
Proof.
  intros H. apply handle_propose_terms in H as (_ & p & Hp & _ & _ & _ & _ & _ & _ & _ & _ & H).
  exists p. split; [done|]. destruct (s_policy s); tauto.
Qed.
Lemma c15_only_propose_creates O b s l e :
  reached O b s l -> e ∈ l -> s_count (ev_post e) <> s_count (ev_pre e) ->
  exists pre b' a pm post subs, e = ECall pre b' a (Propose pm) post subs.
Proof.
  intros HR He Hne. pose proof (reached_legit _ _ _ _ _ HR He) as (_ & _ & H).
  destruct e as [pre b' a m post subs|pre b' x ok post]; simpl in *.
  - destruct H as [_ H]. apply handle_count in H as [?|(pm & -> & _)]; [done|eauto 10].
  - exfalso. apply Hne. destruct ok; destruct H as [_ H].
    + destruct H as [d H]. destruct x; simpl in H; by injection H as <-.
    + destruct (on_fail_shape _ _ _ _ H) as [(d & i & ms & p & -> & Hp & ->)|(Hx & E1 & E2 & E3 & _)]; done.
Qed.

(** C16 *)
Lemma call_quiet O b s a m s1 subs :
  handle O s b a m = Ok (s1, subs) -> (forall i, SInstantiate i ∉ subs) ->
  exists l, scall O b s (Call a m []) = Ok (s1, l).
Proof.
  intros H Hn. rewrite run_call_unfold, H. destruct (run_quiet_no_inst b s1 subs Hn) as [l Hl].
  change (exists l0, (do! ' (s2, l) <- run_quiet on_ok b s1 subs;
     Ok (s2, ECall s b a m s1 subs :: l)) = Ok (s1, l0)).
  rewrite Hl. by eexists.
Qed.
Lemma c16_not_stuck O d b s l id p :
  sane O d -> reached_for O d b s l -> s_props s !! id = Some p ->
  is_expired (p_exp p) b = true ->
  (forall vc e, p_veto p = Some vc -> exp_add (p_exp p) (vc_timelock vc) = Ok e ->
                is_expired e b = true) ->
  (exists st, query_status s b id = Ok st /\ terminal st) \/
  (query_status s b id = Ok Passed /\
   forall a, (c_only_members (s_cfg s) = true -> 0 < vp O d a (p_start p)) ->
     exists s' l', scall O b s (Call a (Execute id) []) = Ok (s', l') /\
       query_status s' b id = Ok Executed) \/
  (query_status s b id = Ok Rejected /\
   forall a, exists s' l', scall O b s (Call a (Close id) []) = Ok (s', l') /\
       query_status s' b id = Ok Closed).
Proof.
  intros HS HR Hp Hx Hlock. pose proof (reached_for_sinv _ _ _ _ _ HS HR) as HI.
  destruct (status_total O d b s id p b HS HI Hp) as [st Hst].
  pose proof HI as [HW HT]. pose proof (ti_att _ _ _ _ HT) as [Ed _].
  assert (st = Passed \/ st = Rejected \/ terminal st) as [->|[->|Ht]]; [..|left; eauto].
  { pose proof (outcome_at_expiry _ _ _ _ _ _ _ HS HI Hp Hst Hx) as (Ho & _).
    unfold query_status in Hst. rewrite Hp in Hst.
    pose proof (wprop_current b p st (wi_props _ _ HW _ _ Hp) Hst) as Hw.
    destruct st; simpl in Ho; unfold terminal; try tauto; try naive_solver. exfalso.
    pose proof (w_lock _ _ Hw e eq_refl) as (vc & Hv & He). simpl in Hv, He.
    specialize (Hlock vc e Hv He).
    apply current_status_cases in Hst. destruct (p_status p); try discriminate.
    - destruct Hst as [(? & _)|[(vc' & e' & E & _ & _ & _ & Hn)|[(? & _)|(? & _)]]]; try discriminate.
      injection E as <-. congruence.
    - destruct Hst as [[_ ?]|[Hn E]]; [discriminate|]. injection E as <-. congruence. }
  - right; left. split; [done|]. intros a Ha.
    assert (is_ok (handle O s b a (Execute id)) = true) as Hok.
    { apply execute_iff. exists p, Passed. split; [done|]. split; [done|]. left. split; [done|].
      rewrite Ed. intros Hm. specialize (Ha Hm). lia. }
    destruct (handle O s b a (Execute id)) as [[s1 subs]|] eqn:Eh; [|done].
    destruct (call_quiet O b s a (Execute id) s1 subs Eh) as [l' Hl].
    { intros i Hi. apply handle_hook_subs in Eh as [A _]; [|done]. by apply A in Hi. }
    exists s1, l'. split; [done|]. simpl in Eh.
    apply execute_execute_shape in Eh as (p' & st & Hp' & _ & _ & -> & _).
    unfold query_status. simpl. by rewrite lookup_insert.
  - right; right. split; [done|]. intros a.
    assert (is_ok (handle O s b a (Close id)) = true) as Hok by (by apply close_iff).
    destruct (handle O s b a (Close id)) as [[s1 subs]|] eqn:Eh; [|done].
    destruct (call_quiet O b s a (Close id) s1 subs Eh) as [l' Hl].
    { intros i Hi. apply handle_hook_subs in Eh as [A _]; [|done]. by apply A in Hi. }
    exists s1, l'. split; [done|]. simpl in Eh.
    apply execute_close_shape in Eh as (p' & Hp' & _ & -> & _).
    unfold query_status. simpl. by rewrite lookup_insert.
Qed.
Lemma c16_status_total O d b s l id p b' :
  sane O d -> reached_for O d b s l -> s_props s !! id = Some p ->
  exists st, query_status s b' id = Ok st.
Proof.
  intros HS HR Hp. by eapply status_total; [|by eapply reached_for_sinv|].
Qed.

(** C17 *)
Definition moves (st st' : status) : Prop :=
  st' = st \/
  match st, st' with
  | Open, (Rejected | Passed | VetoTimelock _) => True
  | VetoTimelock _, Passed => True
  | _, _ => False
  end.
Lemma c17_time O d b s l id p st b' st' :
  sane O d -> reached_for O d b s l -> s_props s !! id = Some p ->
  at_least_billionth (p_thr p) ->
  query_status s b id = Ok st -> block_le b b' -> query_status s b' id = Ok st' ->
  st' = st \/
  match st, st' with
  | Open, (Rejected | Passed | VetoTimelock _) => True
  | VetoTimelock _, Passed => True
  | _, _ => False
  end.
Proof.
  intros HS HR Hp Hbil Hq Hb Hq'. pose proof (reached_for_sinv _ _ _ _ _ HS HR) as HI.
  assert (later_for O d b s b' s []) as HL.
  { exists []. split; [done|]. split; [constructor|]. split; [done|]. done. }
  pose proof HI as [HW HT].
  assert (forall x b1 b2, passed_like x -> query_status s b1 id = Ok x -> block_le b1 b2 -> True) as _ by done.
  destruct (p_status p) eqn:Es.
  - (* stored Open *)
    assert (passed_like st -> passed_like st' \/ st' = Vetoed) as HP.
    { intros Hst. exact (pass_final O d b s id p st b' s [] st' HS HI Hp Hbil Hq Hst HL Hq'). }
    assert (rejected_like st -> rejected_like st') as HRj.
    { intros Hst. exact (reject_final O d b s id st b' s [] st' HS HI Hq Hst HL Hq'). }
    unfold query_status in Hq, Hq'. rewrite Hp in Hq, Hq'.
    apply current_status_cases in Hq, Hq'. rewrite Es in Hq, Hq'.
    destruct Hq as [(-> & Ha1 & Hl1)|[(vc & e & -> & Ha1 & Hv & He & Hl1)|[(-> & Ha1 & _)|(-> & Ha1 & _)]]];
      destruct Hq' as [(-> & Ha2 & Hl2)|[(vc' & e' & -> & Ha2 & Hv' & He' & Hl2)|[(-> & Ha2 & _)|(-> & Ha2 & _)]]];
      simpl; eauto; try (exfalso; naive_solver).
    + exfalso. specialize (Hl1 vc' e' Hv' He'). by rewrite (is_expired_mono _ _ _ Hb Hl1) in Hl2.
    + left. congruence.
  - unfold query_status in Hq, Hq'. rewrite Hp in Hq, Hq'.
    apply current_status_cases in Hq, Hq'. rewrite Es in Hq, Hq'. left. congruence.
  - unfold query_status in Hq, Hq'. rewrite Hp in Hq, Hq'.
    apply current_status_cases in Hq, Hq'. rewrite Es in Hq, Hq'. left. congruence.
  - unfold query_status in Hq, Hq'. rewrite Hp in Hq, Hq'.
    apply current_status_cases in Hq, Hq'. rewrite Es in Hq, Hq'. left. congruence.
  - unfold query_status in Hq, Hq'. rewrite Hp in Hq, Hq'.
    apply current_status_cases in Hq, Hq'. rewrite Es in Hq, Hq'. left. congruence.
  - unfold query_status in Hq, Hq'. rewrite Hp in Hq, Hq'.
    apply current_status_cases in Hq, Hq'. rewrite Es in Hq, Hq'. left. congruence.
  - unfold query_status in Hq, Hq'. rewrite Hp in Hq, Hq'.
    apply current_status_cases in Hq, Hq'. rewrite Es in Hq, Hq'.
    destruct Hq as [[Hx ->]|[Hx ->]], Hq' as [[Hx' ->]|[Hx' ->]]; eauto.
    rewrite (is_expired_mono _ _ _ Hb Hx) in Hx'. discriminate.
  - unfold query_status in Hq, Hq'. rewrite Hp in Hq, Hq'.
    apply current_status_cases in Hq, Hq'. rewrite Es in Hq, Hq'. left. congruence.
Qed.

Lemma c17_refuted :
  exists O d b s l id b', sane O d /\ reached_for O d b s l /\ block_le b b' /\
    query_status s b id = Ok Passed /\ query_status s b' id = Ok Rejected.
Proof.
  exists ex_O, 9%N, (at_ 30), (ex_s c04_cfg [(at_ 10, quiet 1 (Propose (ex_pm [7] None)))]),
    (ex_l c04_cfg [(at_ 10, quiet 1 (Propose (ex_pm [7] None)))]), 1, (at_ 200).
  split; [apply ex_sane|]. split; [ex_reach|]. split; [ex_side|].
  split; vm_compute; reflexivity.
Qed.

(** C18 *)
Lemma c18_caught O b s l a id outs p s' l' :
  reached O b s l -> s_props s !! id = Some p -> p_msgs p <> [] ->
  scall O b s (Call a (Execute id) (None :: outs)) = Ok (s', l') ->
  c_close_on_fail (s_cfg s) = true /\ query_status s' b id = Ok ExecutionFailed /\
  forall b2 s2 l2, later O b s' b2 s2 l2 ->
    dispatches id l2 = 0 /\ query_status s2 b2 id = Ok ExecutionFailed.
Proof.
  intros HR Hp Hms Hc. pose proof (reached_winv _ _ _ _ HR) as HW.
  pose proof (execution_failure O b s a id outs p HW Hp Hms) as H. rewrite Hc in H.
  destruct H as [Hcl Hs]. split; [done|].
  assert (winv b s') as HW'.
  { assert (srun O s [(b, Call a (Execute id) (None :: outs))] = (s', l' ++ [])) as Hrun.
    { simpl in Hc |- *. by rewrite Hc. }
    eapply (single_trace O b s [(b, _)] s'); [done| |exact Hrun]. simpl. split; [|done].
    apply block_le_refl. }
  assert (forall s2 b2, status_of s2 id = Some ExecutionFailed -> query_status s2 b2 id = Ok ExecutionFailed) as Hq.
  { intros s2 b2 H. unfold status_of in H. unfold query_status.
    destruct (s_props s2 !! id) as [p2|]; [|done]. simpl in H. injection H as H.
    unfold current_status. by rewrite H. }
  split; [by apply Hq|]. intros b2 s2 l2 HL.
  pose proof (later_trace _ _ _ _ _ _ HW' HL) as Ht.
  apply (trace_dispatches _ _ _ _ _ _ id) in Ht as (_ & _ & Hd). split.
  - apply Hd. unfold status_of in Hs. unfold done_at, done_st.
    destruct (s_props s' !! id) as [p'|]; [|done]. simpl in Hs. injection Hs as Hs. eauto.
  - apply Hq. destruct HL as (h & Hh & Hr & Hb).
    eapply terminal_forever; [exact HW'|done..|]. unfold terminal. tauto.
Qed.
Lemma c18_not_caught O b s l a id outs p :
  reached O b s l -> s_props s !! id = Some p -> p_msgs p <> [] ->
  c_close_on_fail (s_cfg s) = false ->
  srun O s [(b, Call a (Execute id) (None :: outs))] = (s, []).
Proof.
  intros HR Hp Hms Hcl.
  destruct (scall O b s (Call a (Execute id) (None :: outs))) as [[s' l']|] eqn:E.
  - destruct (c18_caught _ _ _ _ _ _ _ _ _ _ HR Hp Hms E) as [? _]. congruence.
  - unfold run_hist. by rewrite E.
Qed.
(** With the option set, the call goes through whenever it would have without
    the failure. *)
Lemma c18_completes O b s a id p :
  s_props s !! id = Some p -> p_msgs p <> [] -> c_close_on_fail (s_cfg s) = true ->
  is_ok (handle O s b a (Execute id)) = true ->
  exists s' l', scall O b s (Call a (Execute id) [None]) = Ok (s', l').
Proof.
  intros Hp Hms Hcl Hok. destruct (handle O s b a (Execute id)) as [[s1 subs]|] eqn:Eh; [|done].
  rewrite run_call_unfold, Eh.
  assert (forall i, SInstantiate i ∉ subs) as Hn.
  { intros i Hi. apply handle_hook_subs in Eh as [A _]; [|done]. by apply A in Hi. }
  simpl in Eh. apply execute_execute_shape in Eh as (p' & st & Hp' & _ & _ & -> & ->).
  rewrite Hp in Hp'. injection Hp' as <-.
  destruct (p_msgs p) as [|m0 ms] eqn:Em; [done|]. rewrite Hcl in *.
  destruct (run_subs_one_fail O b (save_prop s id (set_status p Executed)) _ 0
     (SExec (c_dao (s_cfg s)) id (m0 :: ms) true)
     (save_prop (save_prop s id (set_status p Executed)) id
        (set_status (set_status p Executed) ExecutionFailed)) Hn) as [l Hl].
  - done.
  - simpl. by rewrite lookup_insert.
  - simpl in Hl |- *. rewrite Hl. by do 2 eexists.
Qed.

(** C19 *)
Lemma c19_hooks_nodup O b s l :
  reached O b s l -> NoDup (s_phooks s) /\ NoDup (s_vhooks s).
Proof.
  intros (b0 & s0 & Hf & Ht)%reached_trace.
  apply (trace_hooks_nodup _ _ _ _ _ _ Ht). destruct Hf as (_ & _ & _ & _ & E1 & E2).
  unfold hooks_nodup. rewrite E1, E2. split; constructor.
Qed.
Lemma c19_proposal_hook O b s l a m s1 subs k i r pm :
  reached O b s l -> (forall i, m <> UpdatePreProposeInfo i) ->
  handle O s b a m = Ok (s1, subs) -> subs !! k = Some (SPropHook i r pm) ->
  exists l', scall O b s (Call a m (replicate k (Some (0%N, [])) ++ [None]))
    = Ok (with_phooks s1 (filter (fun h => h <> r) (s_phooks s)), l').
Proof.
  intros HR. exact (one_hook_fails O s b a m s1 subs k i r pm (c19_hooks_nodup _ _ _ _ HR)).
Qed.
Lemma c19_vote_hook O b s l a m s1 subs k i r id voter v :
  reached O b s l -> (forall i, m <> UpdatePreProposeInfo i) ->
  handle O s b a m = Ok (s1, subs) -> subs !! k = Some (SVoteHook i r id voter v) ->
  exists l', scall O b s (Call a m (replicate k (Some (0%N, [])) ++ [None]))
    = Ok (with_vhooks s1 (filter (fun h => h <> r) (s_vhooks s)), l').
Proof.
  intros HR. exact (one_vote_hook_fails O s b a m s1 subs k i r id voter v (c19_hooks_nodup _ _ _ _ HR)).
Qed.

(** Two failures in one transaction: the list is [10; 20; 30], receivers 10 and
    20 fail, and afterwards 20 is still registered but 30 is not. *)
Definition c19_hist (hooks : list addr) : list (block * call msg) :=
  map (fun a => (at_ 5, quiet 9 (AddProposalHook a))) hooks.
Lemma c19_two_failures_refuted :
  exists O b s l a m s' l',
    reached O b s l /\ s_phooks s = [10; 20; 30]%N /\
    scall O b s (Call a m [None; None]) = Ok (s', l') /\
    (exists pre subs, ECall s b a m pre subs ∈ l' /\
       subs = [SPropHook 0 10 (NewProposal 1 1); SPropHook 1 20 (NewProposal 1 1);
               SPropHook 2 30 (NewProposal 1 1)]) /\
    s_phooks s' = [20]%N.
Proof.
  exists ex_O, (at_ 10), (ex_s ex_cfg (c19_hist [10; 20; 30]%N)),
    (ex_l ex_cfg (c19_hist [10; 20; 30]%N)), 1%N, (Propose (ex_pm [7] None)).
  do 2 eexists. split; [ex_reach|]. split; [vm_compute; reflexivity|].
  split; [vm_compute; reflexivity|]. split; [|vm_compute; reflexivity].
  do 2 eexists. split; [by left|vm_compute; reflexivity].
Qed.
(** When the last two of the list both fail the index is out of range and the
    whole call reverts: nobody can propose while two such hooks are present. *)
Lemma c19_call_fails_refuted :
  exists O b s l a m s1 subs,
    reached O b s l /\ s_phooks s = [10; 20]%N /\
    handle O s b a m = Ok (s1, subs) /\
    is_ok (scall O b s (Call a m [])) = true /\
    is_ok (scall O b s (Call a m [None; None])) = false.
Proof.
  exists ex_O, (at_ 10), (ex_s ex_cfg (c19_hist [10; 20]%N)),
    (ex_l ex_cfg (c19_hist [10; 20]%N)), 1%N, (Propose (ex_pm [7] None)).
  do 2 eexists. split; [ex_reach|]. split; [vm_compute; reflexivity|].
  split; [vm_compute; reflexivity|]. split; vm_compute; reflexivity.
Qed.

(** C21 *)
Lemma c21_vote O d b s l a id v r :
  sane O d -> reached_for O d b s l ->
  is_ok (handle O s b a (CastVote id v r)) = true <->
  exists p, s_props s !! id = Some p /\ is_expired (p_exp p) b = false /\
    0 < vp O d a (p_start p) /\
    forall cur, s_ballots s !! (id, a) = Some cur -> p_revote p = true /\ bl_vote cur <> v.
Proof.
  intros HS HR. apply vote_iff; [done|]. by eapply reached_for_sinv.
Qed.
Lemma c21_propose O d b s l a pm proposer :
  sane O d -> reached_for O d b s l ->
  is_permitted (s_policy s) a = true ->
  decide_proposer (s_policy s) a (pm_proposer pm) = Ok proposer ->
  pm_active pm = true -> pm_fits pm = true ->
  (pm_vote pm = None \/
   (0 < vp O d proposer (height b) /\ is_expired (after (c_max (s_cfg s)) b) b = false)) ->
  is_ok (handle O s b a (Propose pm)) = true.
Proof.
  intros HS HR. apply (propose_ok O d); [done|]. by eapply reached_for_sinv.
Qed.
