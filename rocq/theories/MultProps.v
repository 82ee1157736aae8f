(** dao-proposal-multiple: theorems.  Each is followed by what it rests on and by
    a concrete case meeting its hypotheses. *)
From Verif Require Import Base BaseProofs Exec ExecProofs VotingModel VotingSpec
  HooksModel MultModel MultSpec MultMore MultExamples MultClaims MultChoices.
Notation scall O := (run_call (handle O) on_fail on_ok).
Notation srun O := (run_hist (handle O) on_fail on_ok).

(** * C22 *)
(** One weight per option, equal to the sum of the ballots for it; ballots name
    existing options. *)
Theorem C22_weights_are_ballot_sums O b s l id p :
  reached O b s l -> s_props s !! id = Some p ->
  length (p_votes p) = length (p_choices p) /\
  (forall v, tally_of p v = ballot_total s id v) /\
  (forall a bl, s_ballots s !! (id, a) = Some bl -> (bl_vote bl < length (p_choices p))%nat).
Proof. exact (c22_tally O b s l id p). Qed.
Print Assumptions C22_weights_are_ballot_sums.
(** Ballot powers are the voters' powers at the start height and together stay
    within the total power.  Missing for the full claim: voting modules whose
    total, asked for without a height, is less than the powers at the start of
    the block; then the claim is false (next three theorems). *)
Theorem C22_weights_within_total_partial O d b s l id p :
  sane O d -> reached_for O d b s l -> s_props s !! id = Some p ->
  (forall a bl, s_ballots s !! (id, a) = Some bl ->
     bl_power bl = vp O d a (p_start p) /\ 0 < bl_power bl) /\
  wsum (p_votes p) <= p_total p.
Proof. exact (c22_powers O d b s l id p). Qed.
Print Assumptions C22_weights_within_total_partial.
Theorem C22_weights_within_total_refuted :
  exists O d b s l id p,
    (forall a h, 0 <= vp O d a h) /\ (forall b id, 0 <= tnow O d b id <= U128_MAX) /\
    reached_for O d b s l /\ s_props s !! id = Some p /\ p_total p < wsum (p_votes p).
Proof. exact c22_refuted. Qed.
Print Assumptions C22_weights_within_total_refuted.
(** The status computation then aborts until expiration: no one can execute or
    close. *)
Theorem C22_status_aborts_refuted :
  exists O d b s l id p,
    (forall a h, 0 <= vp O d a h) /\ (forall b id, 0 <= tnow O d b id <= U128_MAX) /\
    reached_for O d b s l /\ s_props s !! id = Some p /\ is_expired (p_exp p) b = false /\
    is_ok (query_status s b id) = false /\
    forall a, is_ok (handle O s b a (Execute id)) = false /\ is_ok (handle O s b a (Close id)) = false.
Proof. exact c22_status_aborts_refuted. Qed.
Print Assumptions C22_status_aborts_refuted.
(** Or the remaining voter is refused. *)
Theorem C22_vote_aborts_refuted :
  exists O d b s l id p a,
    (forall a h, 0 <= vp O d a h) /\ (forall b id, 0 <= tnow O d b id <= U128_MAX) /\
    reached_for O d b s l /\ s_props s !! id = Some p /\
    is_expired (p_exp p) b = false /\ 0 < vp O d a (p_start p) /\
    s_ballots s !! (id, a) = None /\
    forall v, is_ok (handle O s b a (CastVote id v None)) = false.
Proof. exact c22_vote_aborts_refuted. Qed.
Print Assumptions C22_vote_aborts_refuted.
Example C22_case :
  sane ex_O 9 /\ reached_for ex_O 9 (at_ 30) (ex_s ex_cfg h_exec) (ex_l ex_cfg h_exec) /\
  exists p, s_props (ex_s ex_cfg h_exec) !! 1 = Some p /\
    p_votes p = [65; 35; 0; 0] /\ p_total p = 100 /\
    s_ballots (ex_s ex_cfg h_exec) !! (1, 2%N) = Some (Ballot 35 1 (Some "too dear"%string)) /\
    s_count (ex_s ex_cfg h_exec) = 2.
Proof.
  split; [apply ex_sane|]. split; [ex_reach|]. eexists. vm_compute. repeat split; reflexivity.
Qed.

(** * C23 *)
(** Once reported passed (or in the timelock), a proposal is reported passed,
    executed, failed or vetoed in every later state, and the same option is the
    strict winner, with quorum. *)
Theorem C23_early_pass_final O d b s l id p st b' s' l' :
  sane O d -> reached_for O d b s l ->
  s_props s !! id = Some p -> query_status s b id = Ok st -> passed_like st ->
  later_for O d b s b' s' l' ->
  exists st' p' i, query_status s' b' id = Ok st' /\ (passed_like st' \/ st' = Vetoed) /\
    s_props s' !! id = Some p' /\
    chosen (p_quorum p) (p_total p) (p_votes p) i /\
    chosen (p_quorum p) (p_total p) (p_votes p') i.
Proof. exact (c23_final O d b s l id p st b' s' l'). Qed.
Print Assumptions C23_early_pass_final.
(** Whatever votes are added within the total power, the same option wins. *)
Theorem C23_continuations_pass O d b s l id p st :
  sane O d -> reached_for O d b s l ->
  s_props s !! id = Some p -> query_status s b id = Ok st -> passed_like st ->
  is_expired (p_exp p) b = false ->
  p_revote p = false /\ exists i,
  forall w', weights_le (p_votes p) w' -> tally_ok (p_total p) w' ->
             chosen (p_quorum p) (p_total p) w' i.
Proof. exact (c23_continuations O d b s l id p st). Qed.
Print Assumptions C23_continuations_pass.
Example C23_case :
  let s := ex_s ex_cfg h_decided in
  reached_for ex_O 9 (at_ 30) s (ex_l ex_cfg h_decided) /\
  exists p, s_props s !! 1 = Some p /\
    query_status s (at_ 30) 1 = Ok Passed /\ is_expired (p_exp p) (at_ 30) = false /\
    later_for ex_O 9 (at_ 30) s (at_ 500)
      (fst (srun ex_O s [(at_ 40, quiet 9 (UpdateConfig ex_cfg))]))
      (snd (srun ex_O s [(at_ 40, quiet 9 (UpdateConfig ex_cfg))])).
Proof.
  split; [ex_reach|]. eexists. split; [vm_compute; reflexivity|].
  split; [vm_compute; reflexivity|]. split; [reflexivity|]. apply ex_later_for; ex_side.
Qed.

(** * C24 *)
(** Once reported rejected, a proposal is reported rejected or closed forever. *)
Theorem C24_rejection_final O d b s l id st b' s' l' :
  sane O d -> reached_for O d b s l ->
  query_status s b id = Ok st -> rejected_like st ->
  later_for O d b s b' s' l' ->
  exists st', query_status s' b' id = Ok st' /\ rejected_like st'.
Proof. exact (c24_final O d b s l id st b' s' l'). Qed.
Print Assumptions C24_rejection_final.
(** No continuation of the votes makes any option win. *)
Theorem C24_no_continuation_passes O d b s l id p st :
  sane O d -> reached_for O d b s l ->
  s_props s !! id = Some p -> query_status s b id = Ok st -> rejected_like st ->
  is_expired (p_exp p) b = false ->
  p_revote p = false /\
  forall w' i, weights_le (p_votes p) w' -> tally_ok (p_total p) w' ->
             ~ chosen (p_quorum p) (p_total p) w' i.
Proof. exact (c24_hopeless O d b s l id p st). Qed.
Print Assumptions C24_no_continuation_passes.
Example C24_case :
  let s := ex_s ex_cfg h_rejected in
  reached_for ex_O 9 (at_ 20) s (ex_l ex_cfg h_rejected) /\
  exists p, s_props s !! 1 = Some p /\ query_status s (at_ 20) 1 = Ok Rejected /\
    is_expired (p_exp p) (at_ 20) = false /\ p_votes p = [35; 0; 65] /\
    later_for ex_O 9 (at_ 20) s (at_ 30)
      (fst (srun ex_O s [(at_ 25, quiet 5 (Close 1))]))
      (snd (srun ex_O s [(at_ 25, quiet 5 (Close 1))])).
Proof.
  split; [ex_reach|]. eexists. split; [vm_compute; reflexivity|].
  split; [vm_compute; reflexivity|]. split; [reflexivity|]. split; [reflexivity|].
  apply ex_later_for; ex_side.
Qed.

(** * C25 *)
Theorem C25_dispatched_at_most_once O b s l id : reached O b s l -> 0 <= dispatches id l <= 1.
Proof. exact (c10_at_most_once O b s l id). Qed.
Print Assumptions C25_dispatched_at_most_once.
(** Every dispatch is an execute call at a permitted moment and carries the
    messages, as proposed, of the strictly largest option, which is not "none of
    the above". *)
Theorem C25_dispatch_is_winner O b s l pre b' a m post subs d id ms c :
  reached O b s l -> ECall pre b' a m post subs ∈ l -> SExec d id ms c ∈ subs ->
  m = Execute id /\ d = c_dao (s_cfg pre) /\
  exists p st i, s_props pre !! id = Some p /\ query_status pre b' id = Ok st /\
    ((st = Passed /\
      (c_only_members (s_cfg pre) = true -> vp O (c_dao (s_cfg pre)) a (p_start p) <> 0)) \/
     (exists e vc, st = VetoTimelock e /\ p_veto p = Some vc /\ a = vc_vetoer vc /\
                   vc_early_execute vc = true)) /\
    strict_winner (p_votes p) i /\ ~ none_option (length (p_votes p)) i /\
    exists pre1 b1 a1 pm post1 subs1,
      ECall pre1 b1 a1 (Propose pm) post1 subs1 ∈ l /\ s_count pre1 + 1 = id /\
      pm_options pm !! i = Some ms /\ length (p_votes p) = S (length (pm_options pm)).
Proof. exact (c25_conditions O b s l pre b' a m post subs d id ms c). Qed.
Print Assumptions C25_dispatch_is_winner.
(** Every accepted execution has such an option, even if it has no messages. *)
Theorem C25_execution_has_winner O d b s l a id s' subs :
  sane O d -> reached_for O d b s l ->
  handle O s b a (Execute id) = Ok (s', subs) ->
  exists p i, s_props s !! id = Some p /\
    chosen (p_quorum p) (p_total p) (p_votes p) i.
Proof. exact (c25_execute_winner O d b s l a id s' subs). Qed.
Print Assumptions C25_execution_has_winner.
Example C25_case :
  (* one dispatch although the messages themselves try to execute again *)
  reached ex_O (at_ 30) (ex_s ex_cfg h_exec) (ex_l ex_cfg h_exec) /\
  dispatches 1 (ex_l ex_cfg h_exec) = 1 /\
  (exists pre b a m post subs, ECall pre b a m post subs ∈ ex_l ex_cfg h_exec /\
    SExec 9 1 [7; 8] true ∈ subs) /\
  reached_for ex_O 9 (at_ 30) (ex_s ex_cfg h_decided) (ex_l ex_cfg h_decided) /\
  is_ok (handle ex_O (ex_s ex_cfg h_decided) (at_ 30) 1 (Execute 1)) = true /\
  (* nobody votes: a tie of zeros is not executed *)
  (forall a, is_ok (handle ex_O (ex_s ex_cfg h_tie) (at_ 200) a (Execute 1)) = false).
Proof.
  split; [ex_reach|]. split; [vm_compute; reflexivity|]. split.
  { do 6 eexists. split; [apply elem_of_list_lookup; exists 12%nat; vm_compute; reflexivity|]. left. }
  split; [ex_reach|]. split; [vm_compute; reflexivity|]. intros a. vm_compute. reflexivity.
Qed.

(** * C26 *)
Theorem C26_terms_never_change O b s l b' s' l' id p :
  reached O b s l -> later O b s b' s' l' -> s_props s !! id = Some p ->
  exists p', s_props s' !! id = Some p' /\
    p_proposer p' = p_proposer p /\ p_choices p' = p_choices p /\ p_quorum p' = p_quorum p /\
    p_total p' = p_total p /\ p_start p' = p_start p /\ p_exp p' = p_exp p /\
    p_min p' = p_min p /\ p_revote p' = p_revote p /\ p_veto p' = p_veto p.
Proof. exact (c14_terms O b s l b' s' l' id p). Qed.
Print Assumptions C26_terms_never_change.
Theorem C26_ids_consecutive O b s l id :
  reached O b s l -> is_Some (s_props s !! id) <-> 1 <= id <= s_count s.
Proof. exact (c14_ids O b s l id). Qed.
Print Assumptions C26_ids_consecutive.
(** What a new proposal's terms are. *)
Theorem C26_terms_at_creation O s b a pm s' subs :
  handle O s b a (Propose pm) = Ok (s', subs) ->
  s_count s' = s_count s + 1 /\
  exists p, s_props s' !! (s_count s + 1) = Some p /\
    into_checked (pm_options pm) = Ok (p_choices p) /\ p_quorum p = c_quorum (s_cfg s) /\
    p_total p = tnow O (c_dao (s_cfg s)) b (s_count s + 1) /\ p_start p = height b /\
    p_exp p = after (c_max (s_cfg s)) b /\
    p_min p = option_map (fun d => after d b) (c_min (s_cfg s)) /\
    p_revote p = c_revote (s_cfg s) /\ p_veto p = c_veto (s_cfg s).
Proof. exact (c14_created O s b a pm s' subs). Qed.
Print Assumptions C26_terms_at_creation.
(** What the options are: between 2 and 20, with their messages, and "none of the above". *)
Theorem C26_choices opts cs :
  into_checked opts = Ok cs <->
  (2 <= length opts <= 20)%nat /\ map ch_msgs cs = opts ++ [[]] /\
  map ch_none cs = replicate (length opts) false ++ [true] /\
  map ch_index cs = seq 0 (S (length opts)).
Proof. exact (choices_exact opts cs). Qed.
Print Assumptions C26_choices.
Theorem C26_terminal_forever O b s l id st b' s' l' :
  reached O b s l -> query_status s b id = Ok st -> terminal st ->
  later O b s b' s' l' -> query_status s' b' id = Ok st.
Proof. exact (c11_terminal O b s l id st b' s' l'). Qed.
Print Assumptions C26_terminal_forever.
Theorem C26_veto_by_vetoer_in_window O b s l e id :
  reached O b s l -> e ∈ l ->
  status_of (ev_pre e) id <> Some Vetoed -> status_of (ev_post e) id = Some Vetoed ->
  exists pre b' post subs p vc st,
    e = ECall pre b' (vc_vetoer vc) (Veto id) post subs /\
    s_props pre !! id = Some p /\ p_veto p = Some vc /\
    query_status pre b' id = Ok st /\
    ((st = Open /\ vc_veto_before_passed vc = true) \/
     (exists x, st = VetoTimelock x /\ is_expired x b' = false)).
Proof. exact (c12_veto O b s l e id). Qed.
Print Assumptions C26_veto_by_vetoer_in_window.
Theorem C26_vetoed_never_dispatched O b s l id :
  reached O b s l -> status_of s id = Some Vetoed -> dispatches id l = 0.
Proof. exact (c12_vetoed_never_dispatched O b s l id). Qed.
Print Assumptions C26_vetoed_never_dispatched.
Theorem C26_timelock O b s l pre b' a m post subs d id ms c p vc e :
  reached O b s l -> ECall pre b' a m post subs ∈ l -> SExec d id ms c ∈ subs ->
  s_props pre !! id = Some p -> p_veto p = Some vc ->
  exp_add (p_exp p) (vc_timelock vc) = Ok e -> is_expired e b' = false ->
  a = vc_vetoer vc /\ vc_early_execute vc = true.
Proof. exact (c13_timelock O b s l pre b' a m post subs d id ms c p vc e). Qed.
Print Assumptions C26_timelock.
Theorem C26_timelock_defined O b s l id p vc :
  reached O b s l -> s_props s !! id = Some p -> p_veto p = Some vc ->
  exists e, exp_add (p_exp p) (vc_timelock vc) = Ok e.
Proof. exact (c13_defined O b s l id p vc). Qed.
Print Assumptions C26_timelock_defined.
(** Every committed step: configuration, policy and hook lists change only in
    calls by the DAO, by dropping a failing hook or pre-propose module, or when
    the instantiation of a new pre-propose module reports its address, *)
Theorem C26_only_dao_administers O b s l e :
  reached O b s l -> e ∈ l ->
  match e with
  | ECall pre _ a _ post _ =>
      a = c_dao (s_cfg pre) \/
      (s_cfg post = s_cfg pre /\ s_policy post = s_policy pre /\
       s_phooks post = s_phooks pre /\ s_vhooks post = s_vhooks pre)
  | ESub pre _ x true post =>
      s_cfg post = s_cfg pre /\ s_phooks post = s_phooks pre /\ s_vhooks post = s_vhooks pre /\
      (s_policy post = s_policy pre \/ exists info d, x = SInstantiate info /\ s_policy post = Module d)
  | ESub pre _ x false post =>
      s_cfg post = s_cfg pre /\
      (s_policy post = s_policy pre \/ exists r id st, x = SCompleted r id st /\ s_policy post = Anyone) /\
      (s_phooks post = s_phooks pre \/
       exists i r m, x = SPropHook i r m /\ remove_hook_by_index (s_phooks pre) i = Ok (s_phooks post)) /\
      (s_vhooks post = s_vhooks pre \/
       exists i r id a v, x = SVoteHook i r id a v /\
         remove_hook_by_index (s_vhooks pre) i = Ok (s_vhooks post))
  end.
Proof. exact (c15_admin O b s l e). Qed.
Print Assumptions C26_only_dao_administers.
(** which only the DAO can request. *)
Theorem C26_module_chosen_by_dao O b s l pre b' a m post subs info :
  reached O b s l -> ECall pre b' a m post subs ∈ l -> SInstantiate info ∈ subs ->
  a = c_dao (s_cfg pre) /\ m = UpdatePreProposeInfo (ModuleMayPropose info).
Proof. exact (c15_instantiate_by_dao O b s l pre b' a m post subs info). Qed.
Print Assumptions C26_module_chosen_by_dao.
Theorem C26_proposer_recorded O s b a pm s' subs :
  handle O s b a (Propose pm) = Ok (s', subs) ->
  exists p, s_props s' !! (s_count s + 1) = Some p /\
  match s_policy s with
  | Anyone => p_proposer p = a
  | Module mo => a = mo /\ pm_proposer pm = Some (p_proposer p)
  end.
Proof. exact (c15_propose O s b a pm s' subs). Qed.
Print Assumptions C26_proposer_recorded.
Theorem C26_only_propose_creates O b s l e :
  reached O b s l -> e ∈ l -> s_count (ev_post e) <> s_count (ev_pre e) ->
  exists pre b' a pm post subs, e = ECall pre b' a (Propose pm) post subs.
Proof. exact (c15_only_propose_creates O b s l e). Qed.
Print Assumptions C26_only_propose_creates.
Example C26_case_choices :
  into_checked [[7]; [8; 9]; []] =
    Ok [Choice 0 false [7]; Choice 1 false [8; 9]; Choice 2 false []; Choice 3 true []] /\
  is_ok (into_checked [[7]]) = false /\ is_ok (into_checked (replicate 20 [7])) = true /\
  is_ok (into_checked (replicate 21 [7])) = false.
Proof. by vm_compute. Qed.
Example C26_case_terms :
  exists p1 p2, s_props (ex_s ex_cfg h_exec) !! 1 = Some p1 /\
    s_props (ex_s ex_cfg h_exec) !! 2 = Some p2 /\ p_revote p1 = false /\ p_revote p2 = true /\
    p_start p1 = 10 /\ p_start p2 = 30 /\ p_min p1 = Some (AtHeight 20) /\ p_min p2 = None /\
    reached ex_O (at_ 12) (ex_s ex_cfg h_open) (ex_l ex_cfg h_open) /\
    later ex_O (at_ 12) (ex_s ex_cfg h_open) (at_ 16)
      (fst (srun ex_O (ex_s ex_cfg h_open) [(at_ 16, quiet 9 (UpdateConfig ex_cfg_revote))]))
      (snd (srun ex_O (ex_s ex_cfg h_open) [(at_ 16, quiet 9 (UpdateConfig ex_cfg_revote))])).
Proof.
  do 2 eexists. split; [vm_compute; reflexivity|]. split; [vm_compute; reflexivity|].
  do 6 (split; [vm_compute; reflexivity|]). split; [ex_reach|]. apply ex_later; ex_side.
Qed.
Example C26_case_final :
  let s := ex_s ex_cfg h_failed in
  reached ex_O (at_ 30) s (ex_l ex_cfg h_failed) /\
  query_status s (at_ 30) 1 = Ok ExecutionFailed /\ terminal ExecutionFailed /\
  later ex_O (at_ 30) s (at_ 50)
    (fst (srun ex_O s [(at_ 40, quiet 1 (Execute 1)); (at_ 45, quiet 3 (CastVote 1 1 None))]))
    (snd (srun ex_O s [(at_ 40, quiet 1 (Execute 1)); (at_ 45, quiet 3 (CastVote 1 1 None))])).
Proof.
  split; [ex_reach|]. split; [vm_compute; reflexivity|]. split; [unfold terminal; tauto|].
  apply ex_later; ex_side.
Qed.
Example C26_case_veto :
  let s := ex_s ex_cfg_veto h_veto in let l := ex_l ex_cfg_veto h_veto in
  reached ex_O (at_ 22) s l /\
  query_status (ex_s ex_cfg_veto h_lock) (at_ 19) 1 = Ok (VetoTimelock (AtHeight 140)) /\
  query_status (ex_s ex_cfg_veto h_lock) (at_ 19) 2 = Ok Open /\
  status_of s 1 = Some Vetoed /\ status_of s 2 = Some Vetoed /\ status_of s 3 = Some Executed /\
  dispatches 1 l = 0 /\ dispatches 2 l = 0 /\ dispatches 3 l = 1 /\
  exists e, e ∈ l /\ status_of (ev_pre e) 1 <> Some Vetoed /\ status_of (ev_post e) 1 = Some Vetoed.
Proof.
  split; [ex_reach|]. do 8 (split; [vm_compute; reflexivity|]).
  eexists. split; [apply elem_of_list_lookup; exists 5%nat; vm_compute; reflexivity|].
  split; [vm_compute; discriminate|vm_compute; reflexivity].
Qed.
Example C26_case_timelock :
  let s := ex_s ex_cfg_veto h_veto in let l := ex_l ex_cfg_veto h_veto in
  reached ex_O (at_ 22) s l /\
  (exists pre b a m post subs p vc, ECall pre b a m post subs ∈ l /\ SExec 9 3 [9] false ∈ subs /\
     s_props pre !! 3 = Some p /\ p_veto p = Some vc /\
     exp_add (p_exp p) (vc_timelock vc) = Ok (AtHeight 141) /\
     is_expired (AtHeight 141) b = false) /\
  is_ok (handle ex_O (ex_s ex_cfg_veto h_lock) (at_ 139) 1 (Execute 1)) = false /\
  is_ok (handle ex_O (ex_s ex_cfg_veto h_lock) (at_ 140) 1 (Execute 1)) = true.
Proof.
  split; [ex_reach|]. split; [|split; vm_compute; reflexivity].
  do 8 eexists. split; [apply elem_of_list_lookup; exists 7%nat; vm_compute; reflexivity|].
  split; [left|]. split; [vm_compute; reflexivity|]. repeat split; reflexivity.
Qed.
Example C26_case_admin :
  let h := [(at_ 5, Call 9%N (UpdatePreProposeInfo (ModuleMayPropose 1)) [Some (60%N, [])])] in
  let s := ex_s ex_cfg h in
  reached ex_O (at_ 10) s (ex_l ex_cfg h) /\ s_policy s = Module 60 /\
  (exists pre b a m post subs, ECall pre b a m post subs ∈ ex_l ex_cfg h /\ SInstantiate 1 ∈ subs) /\
  is_ok (handle ex_O s (at_ 10) 1 (Propose (ex_pm [[7]; [8]] None))) = false /\
  is_ok (handle ex_O s (at_ 10) 60 (Propose (ex_pm [[7]; [8]] None))) = false /\
  (exists s' subs p, handle ex_O s (at_ 10) 60 (Propose (ProposeMsg [[7]; [8]] (Some 2%N) None true true)) = Ok (s', subs) /\
     s_props s' !! 1 = Some p /\ p_proposer p = 2%N) /\
  is_ok (handle ex_O s (at_ 10) 1 (AddProposalHook 70)) = false.
Proof.
  split; [ex_reach|]. split; [vm_compute; reflexivity|].
  split. { do 6 eexists. split; [left|left]. }
  split; [vm_compute; reflexivity|]. split; [vm_compute; reflexivity|].
  split; [|vm_compute; reflexivity]. do 3 eexists. split; [vm_compute; reflexivity|].
  split; vm_compute; reflexivity.
Qed.

(** * C65 *)
Theorem C65_vote_requires O s b a id v r s' subs :
  handle O s b a (CastVote id v r) = Ok (s', subs) ->
  exists p, s_props s !! id = Some p /\ (v < length (p_choices p))%nat /\
    is_expired (p_exp p) b = false /\ vp O (c_dao (s_cfg s)) a (p_start p) <> 0 /\
    s_ballots s' = <[(id, a) := Ballot (vp O (c_dao (s_cfg s)) a (p_start p)) v r]> (s_ballots s).
Proof. exact (c02_vote_requires O s b a id v r s' subs). Qed.
Print Assumptions C65_vote_requires.
Theorem C65_late_power_irrelevant O O' s b a id v r :
  (forall p, s_props s !! id = Some p ->
     vp O (c_dao (s_cfg s)) a (p_start p) = vp O' (c_dao (s_cfg s)) a (p_start p)) ->
  handle O s b a (CastVote id v r) = handle O' s b a (CastVote id v r).
Proof. exact (c02_late_power_irrelevant O O' s b a id v r). Qed.
Print Assumptions C65_late_power_irrelevant.
Theorem C65_ballot_origin O b s l e id a :
  reached O b s l -> e ∈ l ->
  s_ballots (ev_post e) !! (id, a) <> s_ballots (ev_pre e) !! (id, a) ->
  exists pre b' sender m post subs,
    e = ECall pre b' sender m post subs /\
    match m with
    | CastVote i _ _ | UpdateRationale i _ => i = id /\ sender = a
    | Propose pm => id = s_count pre + 1 /\ pm_vote pm <> None /\
        match s_policy pre with
        | Anyone => sender = a
        | Module mo => sender = mo /\ pm_proposer pm = Some a
        end
    | _ => False
    end.
Proof. exact (c02_ballot_origin O b s l e id a). Qed.
Print Assumptions C65_ballot_origin.
Theorem C65_ballots_immutable O b s l b' s' l' id a bl p :
  reached O b s l -> later O b s b' s' l' ->
  s_props s !! id = Some p -> p_revote p = false -> s_ballots s !! (id, a) = Some bl ->
  exists bl', s_ballots s' !! (id, a) = Some bl' /\
    bl_vote bl' = bl_vote bl /\ bl_power bl' = bl_power bl.
Proof. exact (c03_immutable O b s l b' s' l' id a bl p). Qed.
Print Assumptions C65_ballots_immutable.
Theorem C65_revote_moves_power O d b s l a id v r s' subs cur p :
  sane O d -> reached_for O d b s l ->
  s_props s !! id = Some p -> s_ballots s !! (id, a) = Some cur ->
  handle O s b a (CastVote id v r) = Ok (s', subs) ->
  p_revote p = true /\ v <> bl_vote cur /\
  s_ballots s' = <[(id, a) := Ballot (bl_power cur) v r]> (s_ballots s) /\
  exists p', s_props s' !! id = Some p' /\
    forall v0, tally_of p' v0 =
      tally_of p v0 - (if decide (v0 = bl_vote cur) then bl_power cur else 0)
                    + (if decide (v0 = v) then bl_power cur else 0).
Proof. exact (c03_revote_moves O d b s l a id v r s' subs cur p). Qed.
Print Assumptions C65_revote_moves_power.
Example C65_case :
  is_ok (handle ex_O (ex_s ex_cfg h_open) (at_ 50) 3 (CastVote 1 3 None)) = true /\
  is_ok (handle ex_O (ex_s ex_cfg h_open) (at_ 50) 3 (CastVote 1 4 None)) = false /\
  is_ok (handle ex_O (ex_s ex_cfg h_open) (at_ 50) 4 (CastVote 1 1 None)) = false /\
  vp ex_O 9 4 50 = 50 /\
  is_ok (handle ex_O (ex_s ex_cfg h_open) (at_ 109) 3 (CastVote 1 1 None)) = true /\
  is_ok (handle ex_O (ex_s ex_cfg h_open) (at_ 110) 3 (CastVote 1 1 None)) = false /\
  reached ex_O (at_ 12) (ex_s ex_cfg h_open) (ex_l ex_cfg h_open) /\
  (exists e, e ∈ ex_l ex_cfg h_open /\
    s_ballots (ev_post e) !! (1, 2%N) <> s_ballots (ev_pre e) !! (1, 2%N)) /\
  (exists s' l', later ex_O (at_ 12) (ex_s ex_cfg h_open) (at_ 40) s' l' /\
     status_of s' 1 = Some Executed /\
     exists bl, s_ballots s' !! (1, 2%N) = Some bl /\ bl_vote bl = 1%nat /\ bl_power bl = 35) /\
  reached_for ex_O 9 (at_ 20) (ex_s ex_cfg_revote h_revote) (ex_l ex_cfg_revote h_revote) /\
  exists s' subs p', handle ex_O (ex_s ex_cfg_revote h_revote) (at_ 20) 1 (CastVote 1 1 None) = Ok (s', subs) /\
    (p_votes <$> s_props (ex_s ex_cfg_revote h_revote) !! 1) = Some [75; 0; 25] /\
    s_props s' !! 1 = Some p' /\ p_votes p' = [35; 40; 25].
Proof.
  do 6 (split; [vm_compute; reflexivity|]). split; [ex_reach|]. split.
  { eexists. split; [apply elem_of_list_lookup; exists 7%nat; vm_compute; reflexivity|].
    vm_compute. discriminate. }
  split.
  { do 2 eexists. split.
    - apply (ex_later _ _
        [ (at_ 15, quiet 3 (CastVote 1 0 None)); (at_ 16, quiet 9 (UpdateConfig ex_cfg_revote));
          (at_ 20, quiet 2 (CastVote 1 0 None)); (at_ 30, quiet 1 (Execute 1)) ]); ex_side.
    - split; [vm_compute; reflexivity|]. eexists. vm_compute. repeat split; reflexivity. }
  split; [ex_reach|]. do 3 eexists. split; [vm_compute; reflexivity|].
  repeat split; vm_compute; reflexivity.
Qed.

(** * C66 *)
(** The quorum test is exact up to less than a billionth of a vote
    ([share_near]). *)
Theorem C66_outcome_at_expiry O d b s l id p :
  sane O d -> reached_for O d b s l ->
  s_props s !! id = Some p -> is_expired (p_exp p) b = true ->
  exists st, query_status s b id = Ok st /\
    (passed_like st \/ rejected_like st \/ st = Vetoed) /\
    (passed_like st -> exists i, chosen (p_quorum p) (p_total p) (p_votes p) i) /\
    (rejected_like st -> forall i, ~ chosen (p_quorum p) (p_total p) (p_votes p) i).
Proof. exact (c06_at_expiry O d b s l id p). Qed.
Print Assumptions C66_outcome_at_expiry.
Theorem C66_not_reported_passed_early O b s l id p st m :
  reached O b s l -> s_props s !! id = Some p -> p_min p = Some m ->
  query_status s b id = Ok st -> passed_like st -> is_expired m b = true.
Proof. exact (c08_reported O b s l id p st m). Qed.
Print Assumptions C66_not_reported_passed_early.
Theorem C66_not_executed_early O b s l pre b' a id post subs p m :
  reached O b s l -> ECall pre b' a (Execute id) post subs ∈ l ->
  s_props pre !! id = Some p -> p_min p = Some m -> is_expired m b' = true.
Proof. exact (c08_executed O b s l pre b' a id post subs p m). Qed.
Print Assumptions C66_not_executed_early.
Theorem C66_revoting_stays_open O b s l id p st :
  reached O b s l -> s_props s !! id = Some p -> p_revote p = true ->
  is_expired (p_exp p) b = false -> query_status s b id = Ok st ->
  st = Open \/ st = Vetoed.
Proof. exact (c09_revote_open O b s l id p st). Qed.
Print Assumptions C66_revoting_stays_open.
Example C66_case :
  let s := ex_s ex_cfg_revote h_revote in
  reached_for ex_O 9 (at_ 110) s (ex_l ex_cfg_revote h_revote) /\
  (exists p, s_props s !! 1 = Some p /\ is_expired (p_exp p) (at_ 110) = true /\
    p_revote p = true /\ is_expired (p_exp p) (at_ 109) = false /\
    p_status p = Open /\ query_status s (at_ 109) 1 = Ok Open /\
    query_status s (at_ 110) 1 = Ok Passed) /\
  query_status (ex_s ex_cfg h_tie) (at_ 110) 1 = Ok Rejected /\
  (exists p, s_props (ex_s ex_cfg h_decided) !! 1 = Some p /\ p_min p = Some (AtHeight 20)) /\
  query_status (ex_s ex_cfg h_decided) (at_ 19) 1 = Ok Open /\
  query_status (ex_s ex_cfg h_decided) (at_ 20) 1 = Ok Passed /\
  exists pre post subs, ECall pre (at_ 30) 1%N (Execute 1) post subs ∈ ex_l ex_cfg h_exec.
Proof.
  split; [ex_reach|]. split; [eexists; split; [vm_compute; reflexivity|]; repeat split; vm_compute; reflexivity|].
  split; [vm_compute; reflexivity|]. split; [eexists; split; vm_compute; reflexivity|].
  split; [vm_compute; reflexivity|]. split; [vm_compute; reflexivity|].
  do 3 eexists. apply elem_of_list_lookup. exists 12%nat. vm_compute. reflexivity.
Qed.

(** * C67 *)
Theorem C67_not_stuck O d b s l id p :
  sane O d -> reached_for O d b s l -> s_props s !! id = Some p ->
  is_expired (p_exp p) b = true ->
  (forall vc e, p_veto p = Some vc -> exp_add (p_exp p) (vc_timelock vc) = Ok e ->
                is_expired e b = true) ->
  (exists st, query_status s b id = Ok st /\ terminal st) \/
  (query_status s b id = Ok Passed /\
   forall a, (c_only_members (s_cfg s) = true -> 0 < vp O d a (p_start p)) ->
     exists s' l', scall O b s (Call a (Execute id) []) = Ok (s', l') /\
       query_status s' b id = Ok Executed) \/
  (query_status s b id = Ok Rejected /\
   forall a, exists s' l', scall O b s (Call a (Close id) []) = Ok (s', l') /\
       query_status s' b id = Ok Closed).
Proof. exact (c16_not_stuck O d b s l id p). Qed.
Print Assumptions C67_not_stuck.
Theorem C67_status_total O d b s l id p b' :
  sane O d -> reached_for O d b s l -> s_props s !! id = Some p ->
  exists st, query_status s b' id = Ok st.
Proof. exact (c16_status_total O d b s l id p b'). Qed.
Print Assumptions C67_status_total.
(** Execute, close and veto are accepted exactly according to the queried status. *)
Theorem C67_execute_iff_status O d b s l a id :
  sane O d -> reached_for O d b s l ->
  is_ok (handle O s b a (Execute id)) = true <->
  exists p st, s_props s !! id = Some p /\ query_status s b id = Ok st /\
    ((st = Passed /\ (c_only_members (s_cfg s) = true ->
                      vp O (c_dao (s_cfg s)) a (p_start p) <> 0)) \/
     (exists e vc, st = VetoTimelock e /\ p_veto p = Some vc /\ vc_vetoer vc = a /\
                   vc_early_execute vc = true)).
Proof. exact (c67_execute O d b s l a id). Qed.
Print Assumptions C67_execute_iff_status.
Theorem C67_close_iff_status O s b a id :
  is_ok (handle O s b a (Close id)) = true <-> query_status s b id = Ok Rejected.
Proof. exact (close_iff O s b a id). Qed.
Print Assumptions C67_close_iff_status.
Theorem C67_veto_iff_status O s b a id :
  is_ok (handle O s b a (Veto id)) = true <->
  exists p vc st, s_props s !! id = Some p /\ p_veto p = Some vc /\ vc_vetoer vc = a /\
    query_status s b id = Ok st /\
    ((st = Open /\ vc_veto_before_passed vc = true) \/
     (exists e, st = VetoTimelock e)).
Proof. exact (veto_iff O s b a id). Qed.
Print Assumptions C67_veto_iff_status.
Theorem C67_time_moves_status O d b s l id p st b' st' :
  sane O d -> reached_for O d b s l -> s_props s !! id = Some p ->
  query_status s b id = Ok st -> block_le b b' -> query_status s b' id = Ok st' ->
  st' = st \/
  match st, st' with
  | Open, (Rejected | Passed | VetoTimelock _) => True
  | VetoTimelock _, Passed => True
  | _, _ => False
  end.
Proof. exact (c17_time O d b s l id p st b' st'). Qed.
Print Assumptions C67_time_moves_status.
Theorem C67_vote_refused_only_if O d b s l a id v r :
  sane O d -> reached_for O d b s l ->
  is_ok (handle O s b a (CastVote id v r)) = true <->
  exists p, s_props s !! id = Some p /\ (v < length (p_choices p))%nat /\
    is_expired (p_exp p) b = false /\ 0 < vp O d a (p_start p) /\
    forall cur, s_ballots s !! (id, a) = Some cur -> p_revote p = true /\ bl_vote cur <> v.
Proof. exact (c21_vote O d b s l a id v r). Qed.
Print Assumptions C67_vote_refused_only_if.
Theorem C67_propose_accepted O d b s l a pm proposer cs :
  sane O d -> reached_for O d b s l ->
  is_permitted (s_policy s) a = true ->
  decide_proposer (s_policy s) a (pm_proposer pm) = Ok proposer ->
  pm_active pm = true -> pm_fits pm = true -> into_checked (pm_options pm) = Ok cs ->
  (pm_vote pm = None \/
   (0 < vp O d proposer (height b) /\ is_expired (after (c_max (s_cfg s)) b) b = false /\
    exists v r, pm_vote pm = Some (v, r) /\ (v < length cs)%nat)) ->
  is_ok (handle O s b a (Propose pm)) = true.
Proof. exact (c21_propose O d b s l a pm proposer cs). Qed.
Print Assumptions C67_propose_accepted.
Example C67_case :
  let s := ex_s ex_cfg_veto h_lock in
  sane ex_O 9 /\ reached_for ex_O 9 (at_ 141) s (ex_l ex_cfg_veto h_lock) /\
  reached_for ex_O 9 (at_ 20) s (ex_l ex_cfg_veto h_lock) /\
  (exists p1 p2, s_props s !! 1 = Some p1 /\ s_props s !! 2 = Some p2 /\
    is_expired (p_exp p1) (at_ 141) = true /\ is_expired (p_exp p2) (at_ 141) = true /\
    (forall vc e, p_veto p1 = Some vc -> exp_add (p_exp p1) (vc_timelock vc) = Ok e ->
       is_expired e (at_ 141) = true) /\
    query_status s (at_ 141) 1 = Ok Passed /\ query_status s (at_ 141) 2 = Ok Rejected) /\
  query_status s (at_ 20) 1 = Ok (VetoTimelock (AtHeight 140)) /\
  is_ok (handle ex_O s (at_ 20) 8 (Veto 1)) = true /\
  is_ok (handle ex_O s (at_ 20) 8 (Execute 1)) = true /\
  is_ok (handle ex_O s (at_ 120) 5 (Close 2)) = true /\
  is_ok (handle ex_O s (at_ 20) 5 (Close 2)) = false /\
  is_ok (handle ex_O s (at_ 15) 3 (CastVote 2 2 None)) = true /\
  is_permitted (s_policy s) 3 = true /\ decide_proposer (s_policy s) 3 None = Ok 3%N /\
  is_ok (into_checked [[7]; [8]]) = true /\
  0 < vp ex_O 9 3 15 /\ is_expired (after (c_max (s_cfg s)) (at_ 15)) (at_ 15) = false.
Proof.
  split; [apply ex_sane|]. split; [ex_reach|]. split; [ex_reach|]. split.
  - do 2 eexists. split; [vm_compute; reflexivity|]. split; [vm_compute; reflexivity|].
    split; [reflexivity|]. split; [reflexivity|]. split; [|split; vm_compute; reflexivity].
    intros vc e [= <-] [= <-]. reflexivity.
  - repeat split; vm_compute; reflexivity.
Qed.

(** * C68 *)
Theorem C68_failure_contained O b s l a id outs p s' l' :
  reached O b s l -> s_props s !! id = Some p -> (forall c, calculate_vote_result p = Ok (SingleWinner c) -> ch_msgs c <> []) ->
  scall O b s (Call a (Execute id) (None :: outs)) = Ok (s', l') ->
  c_close_on_fail (s_cfg s) = true /\ query_status s' b id = Ok ExecutionFailed /\
  forall b2 s2 l2, later O b s' b2 s2 l2 ->
    dispatches id l2 = 0 /\ query_status s2 b2 id = Ok ExecutionFailed.
Proof. exact (c18_caught O b s l a id outs p s' l'). Qed.
Print Assumptions C68_failure_contained.
Theorem C68_failure_does_not_block O b s a id p :
  s_props s !! id = Some p -> (forall c, calculate_vote_result p = Ok (SingleWinner c) -> ch_msgs c <> []) -> c_close_on_fail (s_cfg s) = true ->
  is_ok (handle O s b a (Execute id)) = true ->
  exists s' l', scall O b s (Call a (Execute id) [None]) = Ok (s', l').
Proof. exact (c18_completes O b s a id p). Qed.
Print Assumptions C68_failure_does_not_block.
Theorem C68_failure_reverts O b s l a id outs p :
  reached O b s l -> s_props s !! id = Some p -> (forall c, calculate_vote_result p = Ok (SingleWinner c) -> ch_msgs c <> []) ->
  c_close_on_fail (s_cfg s) = false ->
  srun O s [(b, Call a (Execute id) (None :: outs))] = (s, []).
Proof. exact (c18_not_caught O b s l a id outs p). Qed.
Print Assumptions C68_failure_reverts.
(** If exactly one receiver fails, exactly it is removed and the call succeeds.
    Missing for the full claim: several failures in one transaction, for which it
    is false. *)
Theorem C68_one_proposal_hook_failure_partial O b s l a m s1 subs k i r pm :
  reached O b s l -> (forall i, m <> UpdatePreProposeInfo i) ->
  handle O s b a m = Ok (s1, subs) -> subs !! k = Some (SPropHook i r pm) ->
  exists l', scall O b s (Call a m (replicate k (Some (0%N, [])) ++ [None]))
    = Ok (with_phooks s1 (filter (fun h => h <> r) (s_phooks s)), l').
Proof. exact (c19_proposal_hook O b s l a m s1 subs k i r pm). Qed.
Print Assumptions C68_one_proposal_hook_failure_partial.
Theorem C68_one_vote_hook_failure_partial O b s l a m s1 subs k i r id voter v :
  reached O b s l -> (forall i, m <> UpdatePreProposeInfo i) ->
  handle O s b a m = Ok (s1, subs) -> subs !! k = Some (SVoteHook i r id voter v) ->
  exists l', scall O b s (Call a m (replicate k (Some (0%N, [])) ++ [None]))
    = Ok (with_vhooks s1 (filter (fun h => h <> r) (s_vhooks s)), l').
Proof. exact (c19_vote_hook O b s l a m s1 subs k i r id voter v). Qed.
Print Assumptions C68_one_vote_hook_failure_partial.
Theorem C68_two_failures_refuted :
  exists O b s l a m s' l',
    reached O b s l /\ s_phooks s = [10; 20; 30]%N /\
    scall O b s (Call a m [None; None]) = Ok (s', l') /\
    (exists pre subs, ECall s b a m pre subs ∈ l' /\
       subs = [SPropHook 0 10 (NewProposal 1 1); SPropHook 1 20 (NewProposal 1 1);
               SPropHook 2 30 (NewProposal 1 1)]) /\
    s_phooks s' = [20]%N.
Proof. exact c19_two_failures_refuted. Qed.
Print Assumptions C68_two_failures_refuted.
Theorem C68_call_fails_refuted :
  exists O b s l a m s1 subs,
    reached O b s l /\ s_phooks s = [10; 20]%N /\
    handle O s b a m = Ok (s1, subs) /\
    is_ok (scall O b s (Call a m [])) = true /\
    is_ok (scall O b s (Call a m [None; None])) = false.
Proof. exact c19_call_fails_refuted. Qed.
Print Assumptions C68_call_fails_refuted.
Example C68_case :
  (let s := ex_s ex_cfg h_decided in
   reached ex_O (at_ 30) s (ex_l ex_cfg h_decided) /\
   exists p s' l' c, s_props s !! 1 = Some p /\
     calculate_vote_result p = Ok (SingleWinner c) /\ ch_msgs c = [7; 8] /\
     scall ex_O (at_ 30) s (Call 1 (Execute 1) [None]) = Ok (s', l') /\
     query_status s' (at_ 30) 1 = Ok ExecutionFailed /\
     is_ok (handle ex_O s (at_ 30) 1 (Execute 1)) = true) /\
  (let s := ex_s ex_cfg_veto h_lock in
   reached ex_O (at_ 140) s (ex_l ex_cfg_veto h_lock) /\
   exists p c, s_props s !! 1 = Some p /\ calculate_vote_result p = Ok (SingleWinner c) /\
     ch_msgs c = [8] /\ c_close_on_fail (s_cfg s) = false /\
     query_status s (at_ 140) 1 = Ok Passed) /\
  (let s := ex_s ex_cfg h_open in
   reached ex_O (at_ 15) s (ex_l ex_cfg h_open) /\ s_phooks s = [50; 51]%N /\ s_vhooks s = [52]%N /\
   exists s1 subs, handle ex_O s (at_ 25) 3 (CastVote 1 0 None) = Ok (s1, subs) /\
    subs !! 1%nat = Some (SPropHook 1 51 (ProposalStatusChanged 1 Open Passed)) /\
    subs !! 2%nat = Some (SVoteHook 0 52 1 3 0%nat)).
Proof.
  split; [|split]; (split; [ex_reach|]).
  - do 4 eexists. split; [vm_compute; reflexivity|]. split; [vm_compute; reflexivity|].
    split; [reflexivity|]. split; [vm_compute; reflexivity|]. split; vm_compute; reflexivity.
  - do 2 eexists. split; [vm_compute; reflexivity|]. repeat split; vm_compute; reflexivity.
  - split; [vm_compute; reflexivity|]. split; [vm_compute; reflexivity|].
    do 2 eexists. split; [vm_compute; reflexivity|]. split; vm_compute; reflexivity.
Qed.
