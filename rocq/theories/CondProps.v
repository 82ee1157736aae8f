(** dao-proposal-condorcet: theorems.  Each is followed by what it rests on and by
    a concrete case meeting its hypotheses. *)
From Verif Require Import Base BaseProofs Exec ExecProofs VotingModel VotingSpec
  CondModel CondSpec CondClaims CondExamples.

(** * C27 *)
(** The stored margin of every pair, in every reachable state. *)
Theorem C27_margins O b s l id t x y :
  typed O -> reached O b s l -> s_tallies s !! id = Some t ->
  0 <= x < m_n (t_m t) -> 0 <= y < m_n (t_m t) -> x <> y ->
  exists c, get (t_m t) x y = Ok c /\ val c = margin O s id x y.
Proof. exact (c27_margins O b s l id t x y). Qed.
Print Assumptions C27_margins.
(** Recorded votes are complete rankings of the proposal's choices. *)
Theorem C27_votes_are_rankings O b s l id a v :
  typed O -> reached O b s l -> s_votes s !! (id, a) = Some v ->
  exists p t, s_props s !! id = Some p /\ s_tallies s !! id = Some t /\
    m_n (t_m t) = Z.of_nat (length (p_choices p)) /\ ranking (Z.of_nat (length (p_choices p))) v.
Proof. exact (c27_rankings O b s l id a v). Qed.
Print Assumptions C27_votes_are_rankings.
(** The packed triangular storage: every pair has a cell, no two pairs share one. *)
Theorem C27_packing n m x y x' y' :
  2 <= n -> matrix_new n = Ok m -> 0 <= y < x -> x < n -> 0 <= y' < x' -> x' < n ->
  exists i i', index m x y = Ok i /\ index m x' y' = Ok i' /\
    is_Some (m_cells m !! Z.to_nat i) /\ is_Some (m_cells m !! Z.to_nat i') /\
    ((x, y) <> (x', y') -> Z.to_nat i <> Z.to_nat i').
Proof. exact (c27_layout n m x y x' y'). Qed.
Print Assumptions C27_packing.
(** A vote moves each margin of its own proposal by the voter's power, towards the
    candidate preferred. *)
Theorem C27_vote_effect O b s l b' a id v s' subs x y id' :
  typed O -> reached O b s l -> block_le b b' ->
  handle O s b' a (CastVote id v) = Ok (s', subs) ->
  exists p t, s_props s !! id = Some p /\ s_tallies s !! id = Some t /\
   let n := Z.of_nat (length (p_choices p)) in
   ranking n v /\ s_votes s' !! (id, a) = Some v /\
   (0 <= x < n -> 0 <= y < n -> x <> y ->
    margin O s' id' x y = margin O s id' x y +
     (if id' =? id then
        if prefers v x y then vp O (s_dao s) a (t_start t) else - vp O (s_dao s) a (t_start t)
      else 0)).
Proof. exact (c27_vote_effect O b s l b' a id v s' subs x y id'). Qed.
Print Assumptions C27_vote_effect.
Example C27_case :
  typed ex_O /\ reached ex_O (at_ 20) (st ex_O ex_cfg h_cycle) (lg ex_O ex_cfg h_cycle) /\
  (exists t, s_tallies (st ex_O ex_cfg h_cycle) !! 1 = Some t /\
    m_n (t_m t) = 3 /\ get (t_m t) 1 0 = Ok (Positive 30) /\ get (t_m t) 0 1 = Ok (Negative 30)) /\
  margin ex_O (st ex_O ex_cfg h_cycle) 1 1 0 = 30 /\
  is_ok (matrix_new 7) = true /\
  is_ok (handle ex_O (st ex_O ex_cfg h_split) (at_ 15) 3 (CastVote 1 [2; 1; 0])) = true.
Proof.
  split; [apply ex_typed|]. split; [ex_reach|]. split.
  { eexists. split; [vm_compute; reflexivity|]. split; [reflexivity|]. split; reflexivity. }
  split; [vm_compute; reflexivity|]. split; vm_compute; reflexivity.
Qed.

(** * C28 *)
Theorem C28_reported_winner O b s l id t c :
  typed O -> reached O b s l -> s_tallies s !! id = Some t ->
  reported (t_winner t) = Some c <-> beats_all (m_n (t_m t)) (margin O s id) c.
Proof. exact (c28_winner O b s l id t c). Qed.
Print Assumptions C28_reported_winner.
Theorem C28_winner_unique O s id n c c' :
  beats_all n (margin O s id) c -> beats_all n (margin O s id) c' -> c = c'.
Proof. exact (c28_unique O s id n c c'). Qed.
Print Assumptions C28_winner_unique.
Example C28_case :
  reached ex_O (at_ 20) (st ex_O ex_cfg h_split) (lg ex_O ex_cfg h_split) /\
  (t_winner <$> s_tallies (st ex_O ex_cfg h_split) !! 1) = Some (WSome 1) /\
  beats_all 3 (margin ex_O (st ex_O ex_cfg h_split) 1) 1 /\
  (t_winner <$> s_tallies (st ex_O ex_cfg h_cycle) !! 1) = Some WNever.
Proof.
  split; [ex_reach|]. split; [vm_compute; reflexivity|]. split; [|vm_compute; reflexivity].
  split; [lia|]. intros y Hy Hne. assert (y = 0 \/ y = 2) as [->| ->] by lia; vm_compute; reflexivity.
Qed.

(** * C29 *)
(** In every later state of the contract. *)
Theorem C29_verdicts_final O b s l b' s' l' id t :
  typed O -> reached O b s l -> later O b s b' s' l' -> s_tallies s !! id = Some t ->
  exists t', s_tallies s' !! id = Some t' /\
   (forall c, t_winner t = WUndisputed c -> t_winner t' = WUndisputed c) /\
   (t_winner t = WNever -> t_winner t' = WNever).
Proof. exact (c29_later O b s l b' s' l' id t). Qed.
Print Assumptions C29_verdicts_final.
(** For every set of ballots the outstanding power might still cast. *)
Theorem C29_undisputed_continuations O b s l id t c l' :
  typed O -> reached O b s l -> s_tallies s !! id = Some t -> t_winner t = WUndisputed c ->
  profile_ok (m_n (t_m t)) l' -> profile_power l' <= t_outstanding t ->
  beats_all (m_n (t_m t)) (after_profile (margin O s id) l') c.
Proof. exact (c29_undisputed_continuations O b s l id t c l'). Qed.
Print Assumptions C29_undisputed_continuations.
Theorem C29_never_continuations O b s l id t c l' :
  typed O -> reached O b s l -> s_tallies s !! id = Some t -> t_winner t = WNever ->
  profile_ok (m_n (t_m t)) l' -> profile_power l' <= t_outstanding t ->
  ~ beats_all (m_n (t_m t)) (after_profile (margin O s id) l') c.
Proof. exact (c29_never_continuations O b s l id t c l'). Qed.
Print Assumptions C29_never_continuations.
(** The verdicts are as early as possible. *)
Theorem C29_no_winner_yet_is_open O b s l id t :
  typed O -> reached O b s l -> s_tallies s !! id = Some t -> t_winner t = WNone ->
  exists c l', profile_ok (m_n (t_m t)) l' /\ profile_power l' <= t_outstanding t /\
    beats_all (m_n (t_m t)) (after_profile (margin O s id) l') c.
Proof. exact (c29_none_open O b s l id t). Qed.
Print Assumptions C29_no_winner_yet_is_open.
Theorem C29_disputed_winner_is_open O b s l id t c :
  typed O -> reached O b s l -> s_tallies s !! id = Some t -> t_winner t = WSome c ->
  exists l', profile_ok (m_n (t_m t)) l' /\ profile_power l' <= t_outstanding t /\
    ~ beats_all (m_n (t_m t)) (after_profile (margin O s id) l') c.
Proof. exact (c29_some_open O b s l id t c). Qed.
Print Assumptions C29_disputed_winner_is_open.
Example C29_case :
  reached ex_O (at_ 14) (st ex_O ex_cfg h_agree) (lg ex_O ex_cfg h_agree) /\
  (exists t, s_tallies (st ex_O ex_cfg h_agree) !! 1 = Some t /\
     t_winner t = WUndisputed 1 /\ t_outstanding t = 25 /\
     profile_ok (m_n (t_m t)) [([2; 0; 1], 25)] /\ profile_power [([2; 0; 1], 25)] <= 25) /\
  later ex_O (at_ 14) (st ex_O ex_cfg h_agree) (at_ 15)
    (fst (run_hist (handle ex_O) on_fail on_ok (st ex_O ex_cfg h_agree) [(at_ 15, quiet 3 (CastVote 1 [2; 0; 1]))]))
    (snd (run_hist (handle ex_O) on_fail on_ok (st ex_O ex_cfg h_agree) [(at_ 15, quiet 3 (CastVote 1 [2; 0; 1]))])) /\
  (t_winner <$> s_tallies (st ex_O ex_cfg h_split) !! 1) = Some (WSome 1) /\
  (t_winner <$> s_tallies (st ex_O ex_cfg h_done) !! 2) = Some WNone.
Proof.
  split; [ex_reach|]. split.
  { eexists. split; [vm_compute; reflexivity|]. split; [reflexivity|]. split; [reflexivity|]. split; [|done].
    constructor; [|done]. split; [|simpl; lia]. split.
    - repeat constructor; rewrite ?elem_of_cons, elem_of_nil; lia.
    - intros x. simpl. rewrite !elem_of_cons, elem_of_nil. lia. }
  split; [ex_reach|]. split; vm_compute; reflexivity.
Qed.

(** * C30 *)
Theorem C30_dispatched_at_most_once O b s l id :
  typed O -> reached O b s l -> dispatches id l <= 1.
Proof. exact (c30_at_most_once O b s l id). Qed.
Print Assumptions C30_dispatched_at_most_once.
(** Every dispatch: an execute call by a member, the messages of the winner, while
    passed. *)
Theorem C30_dispatch_is_winner O b s l pre b1 a m post subs d id ms c :
  typed O -> reached O b s l -> ECall pre b1 a m post subs ∈ l -> SExec d id ms c ∈ subs ->
  m = Execute id /\ d = s_dao s /\
  exists p t w, s_props pre !! id = Some p /\ s_tallies pre !! id = Some t /\
    query_status pre b1 id = Ok (CPassed w) /\ p_choices p !! Z.to_nat w = Some ms /\
    c = p_close_on_fail p /\ vp O (s_dao s) a (t_start t) <> 0 /\
    carried O pre b1 id p t w /\ status_of post id = Some CExecuted.
Proof. exact (c30_dispatch O b s l pre b1 a m post subs d id ms c). Qed.
Print Assumptions C30_dispatch_is_winner.
Theorem C30_vote_requirements O s b a id v s' subs :
  handle O s b a (CastVote id v) = Ok (s', subs) ->
  exists t, s_tallies s !! id = Some t /\ is_expired (t_exp t) b = false /\
    vp O (s_dao s) a (t_start t) <> 0 /\ s_votes s !! (id, a) = None /\
    s_votes s' = <[(id, a) := v]> (s_votes s) /\ s_props s' = s_props s /\ subs = [].
Proof. exact (c30_vote_requires O s b a id v s' subs). Qed.
Print Assumptions C30_vote_requirements.
(** Only the voter's own vote call records a vote, once. *)
Theorem C30_vote_origin O b s l e k :
  typed O -> reached O b s l -> e ∈ l -> s_votes (ev_post e) !! k <> s_votes (ev_pre e) !! k ->
  exists v, ECall (ev_pre e) (ev_block e) k.2 (CastVote k.1 v) (ev_post e) [] = e /\
    s_votes (ev_pre e) !! k = None /\ s_votes (ev_post e) !! k = Some v.
Proof. exact (c30_vote_origin O b s l e k). Qed.
Print Assumptions C30_vote_origin.
Theorem C30_votes_immutable O b s l b' s' l' k v :
  typed O -> reached O b s l -> later O b s b' s' l' ->
  s_votes s !! k = Some v -> s_votes s' !! k = Some v.
Proof. exact (c30_votes_immutable O b s l b' s' l' k v). Qed.
Print Assumptions C30_votes_immutable.
Theorem C30_terminal_forever O b s l b' s' l' id st :
  typed O -> reached O b s l -> later O b s b' s' l' ->
  query_status s b id = Ok st -> terminal st ->
  query_status s' b' id = Ok st \/ (st = CExecuted /\ query_status s' b' id = Ok CExecutionFailed).
Proof. exact (c30_terminal O b s l b' s' l' id st). Qed.
Print Assumptions C30_terminal_forever.
Theorem C30_failure_contained O b s l pre b1 d id ms c post :
  typed O -> reached O b s l -> ESub pre b1 (SExec d id ms c) false post ∈ l ->
  c = true /\ exists p, s_props pre !! id = Some p /\
  (p_status p = CExecuted \/ p_status p = CExecutionFailed) /\
  post = State (s_dao pre) (s_cfg pre) (s_tallies pre) (<[id := set_status p CExecutionFailed]> (s_props pre)) (s_votes pre).
Proof. exact (c30_failure_contained O b s l pre b1 d id ms c post). Qed.
Print Assumptions C30_failure_contained.
Theorem C30_terms_never_change O b s l b' s' l' id t p :
  typed O -> reached O b s l -> later O b s b' s' l' ->
  s_tallies s !! id = Some t -> s_props s !! id = Some p ->
  exists t' p', s_tallies s' !! id = Some t' /\ s_props s' !! id = Some p' /\
    terms p' = terms p /\ tally_terms t' = tally_terms t.
Proof. exact (c30_terms_fixed O b s l b' s' l' id t p). Qed.
Print Assumptions C30_terms_never_change.
Theorem C30_ids_consecutive O b s l :
  typed O -> reached O b s l ->
  exists k, 0 <= k /\ (forall id, is_Some (s_props s !! id) <-> 1 <= id <= k) /\
    (forall id, is_Some (s_tallies s !! id) <-> 1 <= id <= k) /\
    (forall id p, s_props s !! id = Some p -> p_id p = id).
Proof. exact (c30_ids O b s l). Qed.
Print Assumptions C30_ids_consecutive.
Theorem C30_only_dao_configures O b s l e :
  typed O -> reached O b s l -> e ∈ l -> s_cfg (ev_post e) <> s_cfg (ev_pre e) ->
  exists c c' subs, e = ECall (ev_pre e) (ev_block e) (s_dao s) (SetConfig c) (ev_post e) subs /\
    validate_config c = Ok c' /\ s_cfg (ev_post e) = c'.
Proof. exact (c30_set_config O b s l e). Qed.
Print Assumptions C30_only_dao_configures.
Example C30_case :
  reached ex_O (at_ 20) (st ex_O ex_cfg h_done) (lg ex_O ex_cfg h_done) /\
  dispatches 1 (lg ex_O ex_cfg h_done) = 1 /\
  (exists pre b a post, ECall pre b a (Execute 1) post [SExec 9 1 [8; 9] true] ∈ lg ex_O ex_cfg h_done) /\
  (exists pre b post, ESub pre b (SExec 9 1 [8; 9] true) false post ∈ lg ex_O ex_cfg h_failed) /\
  (exists pre b post, ECall pre b 9 (SetConfig ex_cfg_min) post [] ∈ lg ex_O ex_cfg h_done) /\
  s_cfg (st ex_O ex_cfg h_done) = ex_cfg_min /\
  query_status (st ex_O ex_cfg h_done) (at_ 20) 1 = Ok CExecuted /\
  later ex_O (at_ 20) (st ex_O ex_cfg h_done) (at_ 30)
    (fst (run_hist (handle ex_O) on_fail on_ok (st ex_O ex_cfg h_done) [(at_ 25, quiet 1 (CastVote 1 [0; 1; 2]))]))
    (snd (run_hist (handle ex_O) on_fail on_ok (st ex_O ex_cfg h_done) [(at_ 25, quiet 1 (CastVote 1 [0; 1; 2]))])).
Proof.
  split; [ex_reach|]. split; [vm_compute; reflexivity|].
  split. { do 4 eexists. apply elem_of_list_lookup. exists 5%nat. vm_compute. reflexivity. }
  split. { do 3 eexists. apply elem_of_list_lookup. exists 4%nat. vm_compute. reflexivity. }
  split. { do 3 eexists. apply elem_of_list_lookup. exists 4%nat. vm_compute. reflexivity. }
  split; [vm_compute; reflexivity|]. split; [vm_compute; reflexivity|]. ex_reach.
Qed.

(** * C69 *)
Theorem C69_status_always_defined O b s l id :
  typed O -> reached O b s l -> is_Some (s_props s !! id) <-> exists st, query_status s b id = Ok st.
Proof. exact (c69_query_total O b s l id). Qed.
Print Assumptions C69_status_always_defined.
Theorem C69_at_expiration O b s l id p t :
  typed O -> reached O b s l -> s_props s !! id = Some p -> s_tallies s !! id = Some t ->
  p_status p = COpen -> is_expired (t_exp t) b = true ->
  (forall e, p_min p = Some e -> is_expired e b = true) ->
  (forall w, query_status s b id = Ok (CPassed w) <->
     share_near (voted_power O s id) (p_total p) (p_quorum p) /\
     beats_all (Z.of_nat (length (p_choices p))) (margin O s id) w) /\
  (query_status s b id = Ok CRejected <->
     ~ (share_near (voted_power O s id) (p_total p) (p_quorum p) /\
       exists w, beats_all (Z.of_nat (length (p_choices p))) (margin O s id) w)).
Proof. exact (c69_at_expiration O b s l id p t). Qed.
Print Assumptions C69_at_expiration.
Theorem C69_before_expiration O b s l id p t :
  typed O -> reached O b s l -> s_props s !! id = Some p -> s_tallies s !! id = Some t ->
  p_status p = COpen -> is_expired (t_exp t) b = false ->
  (forall e, p_min p = Some e -> is_expired e b = true) ->
  let n := Z.of_nat (length (p_choices p)) in
  let left := p_total p - voted_power O s id in
  (forall w, query_status s b id = Ok (CPassed w) <->
     share_near (voted_power O s id) (p_total p) (p_quorum p) /\
     forall l', profile_ok n l' -> profile_power l' <= left ->
       beats_all n (after_profile (margin O s id) l') w) /\
  (query_status s b id = Ok CRejected <->
     forall l', profile_ok n l' -> profile_power l' <= left ->
       forall w, ~ beats_all n (after_profile (margin O s id) l') w).
Proof. exact (c69_before_expiration O b s l id p t). Qed.
Print Assumptions C69_before_expiration.
Theorem C69_minimum_period O b s l id p t e :
  typed O -> reached O b s l -> s_props s !! id = Some p -> s_tallies s !! id = Some t ->
  p_status p = COpen -> p_min p = Some e -> is_expired e b = false ->
  query_status s b id = Ok COpen.
Proof. exact (c69_min_period O b s l id p t e). Qed.
Print Assumptions C69_minimum_period.
Theorem C69_passed_final O b s l b' s' l' id w :
  typed O -> reached O b s l -> later O b s b' s' l' ->
  query_status s b id = Ok (CPassed w) ->
  query_status s' b' id = Ok (CPassed w) \/ query_status s' b' id = Ok CExecuted \/
  query_status s' b' id = Ok CExecutionFailed.
Proof. exact (c69_passed_final O b s l b' s' l' id w). Qed.
Print Assumptions C69_passed_final.
Theorem C69_rejected_final O b s l b' s' l' id :
  typed O -> reached O b s l -> later O b s b' s' l' ->
  query_status s b id = Ok CRejected ->
  query_status s' b' id = Ok CRejected \/ query_status s' b' id = Ok CClosed.
Proof. exact (c69_rejected_final O b s l b' s' l' id). Qed.
Print Assumptions C69_rejected_final.
Theorem C69_execute_accepted_iff O b s l a id :
  typed O -> reached O b s l ->
  (exists r, handle O s b a (Execute id) = Ok r) <->
  exists t p w, s_tallies s !! id = Some t /\ s_props s !! id = Some p /\
    query_status s b id = Ok (CPassed w) /\ vp O (s_dao s) a (t_start t) <> 0.
Proof. exact (c69_execute_iff O b s l a id). Qed.
Print Assumptions C69_execute_accepted_iff.
Theorem C69_close_accepted_iff O b s l a id :
  typed O -> reached O b s l ->
  (exists r, handle O s b a (Close id) = Ok r) <-> query_status s b id = Ok CRejected.
Proof. exact (c69_close_iff O b s l a id). Qed.
Print Assumptions C69_close_accepted_iff.
(** Missing for the full claim: voting modules whose total, asked for without a
    height, is less than the powers at the start of the block; then it is false. *)
Theorem C69_vote_accepted_iff_partial O b s l a id v :
  typed O -> covers O -> reached O b s l ->
  (exists r, handle O s b a (CastVote id v) = Ok r) <->
  exists p t, s_props s !! id = Some p /\ s_tallies s !! id = Some t /\
    ranking (Z.of_nat (length (p_choices p))) v /\ is_expired (t_exp t) b = false /\
    s_votes s !! (id, a) = None /\ vp O (s_dao s) a (t_start t) <> 0.
Proof. exact (c69_vote_iff_partial O b s l a id v). Qed.
Print Assumptions C69_vote_accepted_iff_partial.
Theorem C69_vote_accepted_iff_refuted :
  exists O b s l a id v p t, typed O /\ reached O b s l /\
    s_props s !! id = Some p /\ s_tallies s !! id = Some t /\
    ranking (Z.of_nat (length (p_choices p))) v /\ is_expired (t_exp t) b = false /\
    s_votes s !! (id, a) = None /\ vp O (s_dao s) a (t_start t) <> 0 /\
    ~ exists r, handle O s b a (CastVote id v) = Ok r.
Proof. exact c69_vote_iff_refuted. Qed.
Print Assumptions C69_vote_accepted_iff_refuted.
Example C69_case :
  typed ex_O /\ covers ex_O /\
  reached ex_O (at_ 110) (st ex_O ex_cfg h_split) (lg ex_O ex_cfg h_split) /\
  (p_status <$> s_props (st ex_O ex_cfg h_split) !! 1) = Some COpen /\
  query_status (st ex_O ex_cfg h_split) (at_ 109) 1 = Ok COpen /\
  query_status (st ex_O ex_cfg h_split) (at_ 110) 1 = Ok (CPassed 1) /\
  query_status (st ex_O ex_cfg h_one) (at_ 110) 1 = Ok CRejected /\
  query_status (st ex_O ex_cfg h_agree) (at_ 14) 1 = Ok (CPassed 1) /\
  query_status (st ex_O ex_cfg h_cycle) (at_ 15) 1 = Ok CRejected /\
  query_status (st ex_O ex_cfg_min h_agree) (at_ 29) 1 = Ok COpen /\
  query_status (st ex_O ex_cfg_min h_agree) (at_ 30) 1 = Ok (CPassed 1) /\
  later ex_O (at_ 110) (st ex_O ex_cfg h_split) (at_ 120)
    (fst (run_hist (handle ex_O) on_fail on_ok (st ex_O ex_cfg h_split) [(at_ 115, quiet 9 (SetConfig ex_cfg_min))]))
    (snd (run_hist (handle ex_O) on_fail on_ok (st ex_O ex_cfg h_split) [(at_ 115, quiet 9 (SetConfig ex_cfg_min))])).
Proof.
  split; [apply ex_typed|]. split; [apply ex_covers|]. split; [ex_reach|].
  do 8 (split; [vm_compute; reflexivity|]). ex_reach.
Qed.
