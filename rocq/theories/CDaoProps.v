(** C125, C126, C127: a DAO with a Condorcet module. *)
From stdpp Require Import gmap strings.
From Verif Require Import Base BaseProofs Exec VotingModel VotingSpec CondModel
  CondSpec CondExamples CoreModel CoreSpec CoreProofs CDaoModel CDaoSpec CDaoProofs CDaoClaims
  CDaoExamples.

(** * C125 *)
(** Whatever is put to be done by the DAO is the messages of the winning option of a proposal
    that had its votes, or
    comes from the admin, another enabled module, or a module just created. *)
Theorem C125_authority K O b s l e : dreached K O b s l -> e ∈ l -> dlawful K O e.
Proof. exact (c125_lawful K O b s l e). Qed.
Print Assumptions C125_authority.
Theorem C125_once K O b s l id : dreached K O b s l -> 0 <= lsum (carried id) l <= 1.
Proof. exact (c125_once K O b s l id). Qed.
Print Assumptions C125_once.
Theorem C125_not_while_paused K O b s l e id msgs : dreached K O b s l -> e ∈ l -> carries e id msgs ->
  k_admin (d_core (de_pre e)) <> d_at (de_pre e) -> ~ paused (d_core (de_pre e)) (de_block e).
Proof. exact (c125_paused K O b s l e id msgs). Qed.
Print Assumptions C125_not_while_paused.
Example C125_case :
  let '(b, s, l) := qx_of ex_cfg qx_evs in
  dreached qx_K ex_O b s l /\ lsum (carried 1) l = 1 /\ length l = 13%nat /\
  status_of (d_prop s) 1 = Some CExecuted /\ k_items (d_core s) !! "x" = Some "y" /\
  d_todo s = [] /\ s_cfg (d_prop s) = ex_cfg_min.
Proof.
  rewrite (surjective_pairing (qx_of ex_cfg qx_evs)), (surjective_pairing (qx_of ex_cfg qx_evs).1).
  split; [exact qx_reached1|]. do 5 (split; [vm_compute; reflexivity|]). vm_compute; reflexivity.
Qed.

(** * C126 *)
Theorem C126_acts_mandated K O b0 s0 b s l :
  dstart b0 s0 -> typed O -> sovereign s0 -> dleads K O b0 s0 b s l ->
  (forall e id msgs a, e ∈ l -> carries e id msgs -> stems a (map (act_of K) msgs) -> retains a) ->
  sovereign s /\
  forall l1 e l2 a, l = l1 ++ e :: l2 -> act e = Some a -> mandated K O l1 a.
Proof. exact (c126_acts K O b0 s0 b s l). Qed.
Print Assumptions C126_acts_mandated.
Theorem C126_changes_are_acts K O b0 s0 b s l :
  dstart b0 s0 -> typed O -> sovereign s0 -> dleads K O b0 s0 b s l ->
  (forall e id msgs a, e ∈ l -> carries e id msgs -> stems a (map (act_of K) msgs) -> retains a) ->
  forall e, e ∈ l -> act e = None -> governed (de_post e) = governed (de_pre e).
Proof. exact (c126_changes K O b0 s0 b s l). Qed.
Print Assumptions C126_changes_are_acts.
Theorem C126_nothing_before K O b0 s0 b s l :
  dstart b0 s0 -> typed O -> sovereign s0 -> dleads K O b0 s0 b s l ->
  (forall e id msgs, e ∈ l -> carries e id msgs -> msgs = []) ->
  governed s = governed s0 /\ forall e, e ∈ l -> act e = None.
Proof. exact (c126_nothing_before K O b0 s0 b s l). Qed.
Print Assumptions C126_nothing_before.
Example C126_case :
  let '(b, s, l) := qx_of ex_cfg qx_evs in
  dstart (at_ 1) (qx_s0 ex_cfg) /\ typed ex_O /\
  sovereign (qx_s0 ex_cfg) /\ dleads qx_K ex_O (at_ 1) (qx_s0 ex_cfg) b s l /\
  (forall e id msgs a, e ∈ l -> carries e id msgs -> stems a (map (act_of qx_K) msgs) ->
     retains a) /\
  map act l = [None; None; None; None; None; None; Some (inl (KSetItem "x" "y")); Some (inr 100%N);
    Some (inl (KAdmin [inl (KSetItem "x" "y"); inr 100%N])); Some (inl (KSetItem "x" "y"));
    Some (inr 100%N); Some (inr 200%N); None] /\
  governed s <> governed (qx_s0 ex_cfg).
Proof.
  rewrite (surjective_pairing (qx_of ex_cfg qx_evs)), (surjective_pairing (qx_of ex_cfg qx_evs).1).
  split; [by apply qx_dstart|]. split; [apply ex_typed|].
  split; [apply qx_sov|]. split; [apply qx_leads, qx_runs|]. split; [exact qx_retains|].
  split; [vm_compute; reflexivity|]. intros H. apply (f_equal snd) in H. by vm_compute in H.
Qed.
Example C126_case_before :
  let '(b, s, l) := qx_of ex_cfg (qx_voted [7]) in
  dleads qx_K ex_O (at_ 1) (qx_s0 ex_cfg) b s l /\ length l = 3%nat /\
  (forall e id msgs, e ∈ l -> carries e id msgs -> msgs = []).
Proof.
  rewrite (surjective_pairing (qx_of ex_cfg (qx_voted [7]))),
    (surjective_pairing (qx_of ex_cfg (qx_voted [7])).1).
  split; [apply qx_leads, is_some_true; vm_compute; reflexivity|].
  split; [vm_compute; reflexivity|]. intros e id msgs He [Hr _].
  assert (forallb (fun e => match de_ev e with DRun => false | _ => true end)
    (qx_of ex_cfg (qx_voted [7])).2 = true) as C by (vm_compute; reflexivity).
  rewrite forallb_forall in C. specialize (C e). rewrite <-elem_of_list_In in C.
  specialize (C He). rewrite Hr in C. discriminate.
Qed.

(** * C127 *)
(** Missing: a DAO that is paused, or has disabled the module. *)
Theorem C127_executes_partial K O b s l id t p w a :
  dreached K O b s l -> outside s a = true ->
  s_tallies (d_prop s) !! id = Some t -> s_props (d_prop s) !! id = Some p ->
  query_status (d_prop s) b id = Ok (CPassed w) ->
  vp O (k_self (d_core s)) a (t_start t) <> 0 ->
  enabled (d_core s) (d_at s) -> ~ paused (d_core s) b ->
  exists ms s1 s2 x, p_choices p !! Z.to_nat w = Some ms /\
    share_near (voted_power O (d_prop s) id) (p_total p) (p_quorum p) /\
    beats_all (Z.of_nat (length (p_choices p))) (margin O (d_prop s) id) w /\
    d_event K O s b (DProp a (Execute id)) = Ok s1 /\
    d_event K O s1 b DRun = Ok s2 /\
    d_todo s1 = DP x :: d_todo s /\
    d_todo s2 = acts (map (act_of K) ms) ++ DEnd x :: d_todo s /\
    status_of (d_prop s2) id = Some CExecuted.
Proof. exact (c127_executes K O b s l id t p w a). Qed.
Print Assumptions C127_executes_partial.
Theorem C127_waits_partial K O b s l id w b' s' l' :
  dreached K O b s l -> query_status (d_prop s) b id = Ok (CPassed w) ->
  dleads K O b s b' s' l' ->
  query_status (d_prop s') b' id = Ok (CPassed w) \/
  exists e a, e ∈ l' /\ heard K (de_pre e) (de_ev e) = Some (a, Execute id) /\
    vp O (k_self (d_core s)) a (start_of (d_prop s) id) <> 0.
Proof. exact (c127_waits K O b s l id w b' s' l'). Qed.
Print Assumptions C127_waits_partial.
Theorem C127_pause_ends_partial K O b s l id t p w a :
  dreached K O b s l -> outside s a = true ->
  s_tallies (d_prop s) !! id = Some t -> s_props (d_prop s) !! id = Some p ->
  query_status (d_prop s) b id = Ok (CPassed w) ->
  vp O (k_self (d_core s)) a (t_start t) <> 0 ->
  paused (d_core s) b -> k_admin (d_core s) <> d_at s ->
  exists s1, d_event K O s b (DProp a (Execute id)) = Ok s1 /\
    d_event K O s1 b DRun = Err "Paused" /\
    (p_close_on_fail p = true -> exists s2, d_event K O s1 b DFail = Ok s2 /\
       status_of (d_prop s2) id = Some CExecutionFailed /\ d_core s2 = d_core s) /\
    (p_close_on_fail p = false -> d_event K O s1 b DFail = Err "sub-message failed").
Proof. exact (c127_pause_ends K O b s l id t p w a). Qed.
Print Assumptions C127_pause_ends_partial.
Theorem C127_stays_executable_refuted :
  exists K O b s l id w v b' s' l',
    dreached K O b s l /\ query_status (d_prop s) b id = Ok (CPassed w) /\
    dleads K O b s b' s' l' /\
    s_votes (d_prop s) !! (id, v) = Some [2; 0; 1] /\ w = 1 /\
    (forall e, e ∈ l' -> act e = None /\
       forall a m, heard K (de_pre e) (de_ev e) = Some (a, m) -> a = v) /\
    status_of (d_prop s') id = Some CExecutionFailed /\ lsum (carried id) (l ++ l') = 0.
Proof. exact c127_refuted. Qed.
Print Assumptions C127_stays_executable_refuted.
Example C127_case :
  let '(b, s, l) := qx_of ex_cfg (qx_voted [7; 8]) in
  dreached qx_K ex_O b s l /\ query_status (d_prop s) b 1 = Ok (CPassed 1) /\ outside s 3 = true /\
  option_map (fun p => p_choices p !! 1%nat) (s_props (d_prop s) !! 1) = Some (Some [7; 8]) /\
  option_map (fun t => vp ex_O 9 3 (t_start t)) (s_tallies (d_prop s) !! 1) = Some 25 /\
  k_mods (d_core s) !! d_at s = Some (KMod true "A") /\ k_paused (d_core s) = None.
Proof.
  rewrite (surjective_pairing (qx_of ex_cfg (qx_voted [7; 8]))),
    (surjective_pairing (qx_of ex_cfg (qx_voted [7; 8])).1).
  split.
  { apply qx_reached; [done|apply is_some_true; vm_compute; reflexivity]. }
  do 5 (split; [vm_compute; reflexivity|]). vm_compute; reflexivity.
Qed.
Example C127_case_paused :
  let '(b, s, l) := qx_of ex_cfg qx_paused in
  dreached qx_K ex_O b s l /\ query_status (d_prop s) b 1 = Ok (CPassed 1) /\
  k_paused (d_core s) = Some (AtHeight 65) /\ is_expired (AtHeight 65) b = false /\
  k_admin (d_core s) = 9%N /\ d_at s = 60%N /\
  option_map p_close_on_fail (s_props (d_prop s) !! 1) = Some true.
Proof.
  rewrite (surjective_pairing (qx_of ex_cfg qx_paused)),
    (surjective_pairing (qx_of ex_cfg qx_paused).1).
  split; [exact (qx_reached ex_cfg qx_paused eq_refl qx_runs_paused)|].
  do 5 (split; [vm_compute; reflexivity|]). vm_compute; reflexivity.
Qed.
