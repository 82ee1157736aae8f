(** C121, C122, C123: a DAO with a multiple-choice module. *)
From stdpp Require Import gmap strings.
From Verif Require Import Base BaseProofs Exec VotingModel VotingSpec HooksModel MultModel
  MultSpec MultExamples CoreModel CoreSpec CoreProofs MDaoModel MDaoSpec MDaoProofs MDaoClaims
  MDaoExamples.

(** * C121 *)
(** Whatever is put to be done by the DAO is the messages of the winning option of a proposal
    that had its votes, or
    comes from the admin, another enabled module, or a module just created. *)
Theorem C121_authority K O b s l e : dreached K O b s l -> e ∈ l -> dlawful K O e.
Proof. exact (c121_lawful K O b s l e). Qed.
Print Assumptions C121_authority.
Theorem C121_once K O b s l id : dreached K O b s l -> 0 <= lsum (carried id) l <= 1.
Proof. exact (c121_once K O b s l id). Qed.
Print Assumptions C121_once.
Theorem C121_not_while_paused K O b s l e id msgs : dreached K O b s l -> e ∈ l -> carries e id msgs ->
  k_admin (d_core (de_pre e)) <> d_at (de_pre e) -> ~ paused (d_core (de_pre e)) (de_block e).
Proof. exact (c121_paused K O b s l e id msgs). Qed.
Print Assumptions C121_not_while_paused.
Example C121_case :
  let '(b, s, l) := mx_of ex_cfg mx_evs in
  dreached mx_K ex_O b s l /\ lsum (carried 1) l = 1 /\ length l = 12%nat /\
  status_of (d_prop s) 1 = Some Executed /\ k_items (d_core s) !! "x" = Some "y" /\
  d_todo s = [] /\ s_cfg (d_prop s) = ex_cfg_revote.
Proof.
  rewrite (surjective_pairing (mx_of ex_cfg mx_evs)), (surjective_pairing (mx_of ex_cfg mx_evs).1).
  split; [exact mx_reached1|]. do 5 (split; [vm_compute; reflexivity|]). vm_compute; reflexivity.
Qed.

(** * C122 *)
Theorem C122_acts_mandated K O b0 s0 b s l :
  dstart b0 s0 -> sane O (k_self (d_core s0)) -> sovereign s0 -> dleads K O b0 s0 b s l ->
  (forall e id msgs a, e ∈ l -> carries e id msgs -> stems a (map (act_of K) msgs) -> retains a) ->
  sovereign s /\
  forall l1 e l2 a, l = l1 ++ e :: l2 -> act e = Some a -> mandated K O l1 a.
Proof. exact (c122_acts K O b0 s0 b s l). Qed.
Print Assumptions C122_acts_mandated.
Theorem C122_changes_are_acts K O b0 s0 b s l :
  dstart b0 s0 -> sane O (k_self (d_core s0)) -> sovereign s0 -> dleads K O b0 s0 b s l ->
  (forall e id msgs a, e ∈ l -> carries e id msgs -> stems a (map (act_of K) msgs) -> retains a) ->
  forall e, e ∈ l -> act e = None -> governed (de_post e) = governed (de_pre e).
Proof. exact (c122_changes K O b0 s0 b s l). Qed.
Print Assumptions C122_changes_are_acts.
Theorem C122_nothing_before K O b0 s0 b s l :
  dstart b0 s0 -> sane O (k_self (d_core s0)) -> sovereign s0 -> dleads K O b0 s0 b s l ->
  (forall e id msgs, e ∈ l -> ~ carries e id msgs) ->
  governed s = governed s0 /\ forall e, e ∈ l -> act e = None.
Proof. exact (c122_nothing_before K O b0 s0 b s l). Qed.
Print Assumptions C122_nothing_before.
Example C122_case :
  let '(b, s, l) := mx_of ex_cfg mx_evs in
  dstart (at_ 1) (mx_s0 ex_cfg) /\ sane ex_O (k_self (d_core (mx_s0 ex_cfg))) /\
  sovereign (mx_s0 ex_cfg) /\ dleads mx_K ex_O (at_ 1) (mx_s0 ex_cfg) b s l /\
  (forall e id msgs a, e ∈ l -> carries e id msgs -> stems a (map (act_of mx_K) msgs) ->
     retains a) /\
  map act l = [None; None; None; None; None; Some (inl (KSetItem "x" "y")); Some (inr 100%N);
    Some (inl (KAdmin [inl (KSetItem "x" "y"); inr 100%N])); Some (inl (KSetItem "x" "y"));
    Some (inr 100%N); Some (inr 200%N); None] /\
  governed s <> governed (mx_s0 ex_cfg).
Proof.
  rewrite (surjective_pairing (mx_of ex_cfg mx_evs)), (surjective_pairing (mx_of ex_cfg mx_evs).1).
  split; [apply mx_dstart; [done|by vm_compute]|]. split; [apply ex_sane|].
  split; [apply mx_sov|]. split; [apply mx_leads, mx_runs|]. split; [exact mx_retains|].
  split; [vm_compute; reflexivity|]. intros H. apply (f_equal snd) in H. by vm_compute in H.
Qed.
Example C122_case_before :
  let '(b, s, l) := mx_of ex_cfg (mx_voted [7]) in
  dleads mx_K ex_O (at_ 1) (mx_s0 ex_cfg) b s l /\ length l = 2%nat /\
  (forall e id msgs, e ∈ l -> ~ carries e id msgs).
Proof.
  rewrite (surjective_pairing (mx_of ex_cfg (mx_voted [7]))),
    (surjective_pairing (mx_of ex_cfg (mx_voted [7])).1).
  split; [apply mx_leads, is_some_true; vm_compute; reflexivity|].
  split; [vm_compute; reflexivity|]. intros e id msgs He [Hr _].
  assert (forallb (fun e => match de_ev e with DRun => false | _ => true end)
    (mx_of ex_cfg (mx_voted [7])).2 = true) as C by (vm_compute; reflexivity).
  rewrite forallb_forall in C. specialize (C e). rewrite <-elem_of_list_In in C.
  specialize (C He). rewrite Hr in C. discriminate.
Qed.

(** * C123 *)
(** Missing: a DAO that is paused, or has disabled the module. *)
Theorem C123_executes_partial K O b s l id p a :
  dreached K O b s l -> outside s a = true ->
  s_props (d_prop s) !! id = Some p -> query_status (d_prop s) b id = Ok Passed ->
  (c_only_members (s_cfg (d_prop s)) = true -> vp O (k_self (d_core s)) a (p_start p) <> 0) ->
  enabled (d_core s) (d_at s) -> ~ paused (d_core s) b ->
  exists i c, p_choices p !! i = Some c /\ chosen (p_quorum p) (p_total p) (p_votes p) i /\
  (ch_msgs c <> [] ->
  exists s1 s2 x rest, d_event K O s b (DProp a (Execute id)) = Ok s1 /\
    d_event K O s1 b DRun = Ok s2 /\
    d_todo s1 = DP x :: rest ++ d_todo s /\
    d_todo s2 = acts (map (act_of K) (ch_msgs c)) ++ DEnd x :: rest ++ d_todo s /\
    status_of (d_prop s2) id = Some Executed).
Proof. exact (c123_executes K O b s l id p a). Qed.
Print Assumptions C123_executes_partial.
Theorem C123_pause_ends_partial K O b s l id p a :
  dreached K O b s l -> outside s a = true ->
  s_props (d_prop s) !! id = Some p -> query_status (d_prop s) b id = Ok Passed ->
  (c_only_members (s_cfg (d_prop s)) = true -> vp O (k_self (d_core s)) a (p_start p) <> 0) ->
  c_close_on_fail (s_cfg (d_prop s)) = true ->
  paused (d_core s) b -> k_admin (d_core s) <> d_at s ->
  exists i c, p_choices p !! i = Some c /\ chosen (p_quorum p) (p_total p) (p_votes p) i /\
  (ch_msgs c <> [] ->
  exists s1 s2, d_event K O s b (DProp a (Execute id)) = Ok s1 /\
    d_event K O s1 b DRun = Err "Paused" /\ d_event K O s1 b DFail = Ok s2 /\
    status_of (d_prop s2) id = Some ExecutionFailed /\ d_core s2 = d_core s).
Proof. exact (c123_pause_ends K O b s l id p a). Qed.
Print Assumptions C123_pause_ends_partial.
Theorem C123_stays_executable_refuted :
  exists K O b s l id b' s' l',
    dreached K O b s l /\ query_status (d_prop s) b id = Ok Passed /\
    dleads K O b s b' s' l' /\
    (forall e, e ∈ l' -> act e = None /\
       forall a m, heard K (de_pre e) (de_ev e) = Some (a, m) -> forall h, vp O 9 a h = 0) /\
    status_of (d_prop s') id = Some ExecutionFailed /\ lsum (carried id) (l ++ l') = 0.
Proof. exact c123_refuted. Qed.
Print Assumptions C123_stays_executable_refuted.
Example C123_case :
  let '(b, s, l) := mx_of mx_cfg (mx_voted [7; 8]) in
  dreached mx_K ex_O b s l /\ query_status (d_prop s) b 1 = Ok Passed /\ outside s 66 = true /\
  option_map (fun p => ch_msgs <$> p_choices p !! 1%nat) (s_props (d_prop s) !! 1) = Some (Some [7; 8]) /\
  k_mods (d_core s) !! d_at s = Some (KMod true "A") /\ k_paused (d_core s) = None /\
  c_only_members (s_cfg (d_prop s)) = false.
Proof.
  rewrite (surjective_pairing (mx_of mx_cfg (mx_voted [7; 8]))),
    (surjective_pairing (mx_of mx_cfg (mx_voted [7; 8])).1).
  split.
  { apply mx_reached; [done|by vm_compute|apply is_some_true; vm_compute; reflexivity]. }
  do 5 (split; [vm_compute; reflexivity|]). vm_compute; reflexivity.
Qed.
