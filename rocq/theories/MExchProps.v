(** Exchanging the voting module, multiple choice (C132). *)
From stdpp Require Import gmap strings.
From Verif Require Import Base Exec ExecProofs VotingModel VotingSpec HooksModel MultModel MultSpec
  MExchModel MExchSpec MExchClaims MExchExamples.

(** * C132 *)
(** In every history the tallies of a proposal are the recorded ballots. *)
Theorem C132_tally O d b xs l id p v :
  xreached O d b xs l -> s_props (x_s xs) !! id = Some p ->
  tally_of p v = ballot_total (x_s xs) id v.
Proof. exact (x_tally O d b xs l id p v). Qed.
Print Assumptions C132_tally.
Example C132_tally_case :
  xreached ex_O 9 (at_ 120) (ex_s c_small h_small) (ex_l c_small h_small) /\
  ballot_total (x_s (ex_s c_small h_small)) 1 0 = 4.
Proof. split; [exact small_reached|vm_compute; reflexivity]. Qed.
(** Terms and, without re-voting, ballots stand, also when the voting module is exchanged. *)
Theorem C132_stand O d b xs l b' xs' l' :
  xreached O d b xs l -> xlater O d b xs b' xs' l' ->
  (forall id p, s_props (x_s xs) !! id = Some p ->
     exists p', s_props (x_s xs') !! id = Some p' /\ terms p' = terms p) /\
  (forall id a bl p, s_ballots (x_s xs) !! (id, a) = Some bl -> s_props (x_s xs) !! id = Some p ->
     p_revote p = false ->
     exists bl', s_ballots (x_s xs') !! (id, a) = Some bl' /\
       bl_vote bl' = bl_vote bl /\ bl_power bl' = bl_power bl).
Proof. exact (x_stand O d b xs l b' xs' l'). Qed.
Print Assumptions C132_stand.
Example C132_stand_case :
  let xs := ex_s c_once (take 3 h_late) in
  xreached ex_O 9 (at_ 12) xs (ex_l c_once (take 3 h_late)) /\
  exists xs' l', xlater ex_O 9 (at_ 12) xs (at_ 20) xs' l' /\ x_mod xs = 50%N /\ x_mod xs' = 70%N.
Proof.
  split; [reach|]. destruct (run_hist (xhandle ex_O) xon_fail xon_ok (ex_s c_once (take 3 h_late))
    [(at_ 12, swaps 70)]) as [xs' l'] eqn:E.
  exists xs', l'. split.
  - exists [(at_ 12, swaps 70)]. split; [vm_compute; repeat split; discriminate|]. split; [repeat constructor|].
    split; [exact E|]. vm_compute; split; discriminate.
  - split; [vm_compute; reflexivity|]. revert E. vm_compute. intros [= <- _]. reflexivity.
Qed.
(** Nobody but the DAO exchanges the voting module. *)
Theorem C132_who_exchanges O d b xs l e :
  xreached O d b xs l -> e ∈ l -> x_mod (ev_post e) <> x_mod (ev_pre e) ->
  exists pre b' post subs, e = ECall pre b' (c_dao (s_cfg (x_s pre))) (XExchange (x_mod post)) post subs.
Proof. exact (x_module O d b xs l e). Qed.
Print Assumptions C132_who_exchanges.
(** If exchanges happen only while voting on no proposal goes on (other than those for whose electorate
    both modules give the same answers), a proposal's total and ballots are those of the module it
    was made under. *)
Theorem C132_electorate_partial O d b xs l id p :
  all_sane O d -> xreached O d b xs l -> calm O d l ->
  s_props (x_s xs) !! id = Some p -> ~ terminal (p_status p) ->
  exists v, born l id v /\
    (exists b0, height b0 = p_start p /\ p_total p = tnow (O v) d b0 id) /\
    (forall a bl, s_ballots (x_s xs) !! (id, a) = Some bl ->
       bl_power bl = vp (O v) d a (p_start p) /\ 0 < bl_power bl) /\
    lsum (tally_of p) (seq 0 (length (p_choices p))) <= p_total p.
Proof. exact (x_electorate O d b xs l id p). Qed.
Print Assumptions C132_electorate_partial.
(** Proposal 1 exchanges the module; proposal 2, made under the new one, has passed; 3 is open. *)
Example C132_electorate_case :
  all_sane ex_O 9 /\ xreached ex_O 9 (at_ 20) (ex_s c_once h_calm) (ex_l c_once h_calm) /\
  calm ex_O 9 (ex_l c_once h_calm) /\ x_mod (ex_s c_once h_calm) = 60%N /\
  map (fun x => (x.1, p_status x.2, p_total x.2)) (map_to_list (s_props (x_s (ex_s c_once h_calm)))) =
    [(1, Executed, 3); (2, Executed, 10 ^ 9); (3, Open, 10 ^ 9)].
Proof.
  split; [apply ex_sane|]. split; [exact calm_reached|]. split; [exact calm_calm|].
  split; vm_compute; reflexivity.
Qed.
(** Then the status of every proposal can be told, and every page of the list. *)
Theorem C132_answers_partial O d b xs l b' :
  all_sane O d -> xreached O d b xs l -> calm O d l ->
  (forall id p, s_props (x_s xs) !! id = Some p -> exists st, query_status (x_s xs) b' id = Ok st) /\
  (forall start limit, exists r, query_list (x_s xs) b' start limit = Ok r).
Proof. exact (x_answers O d b xs l b'). Qed.
Print Assumptions C132_answers_partial.
Example C132_answers_case :
  query_status (x_s (ex_s c_once h_calm)) (at_ 20) 3 = Ok Open /\
  query_list (x_s (ex_s c_once h_calm)) (at_ 20) 1 5 = Ok [(2, Executed); (3, Open)].
Proof. split; vm_compute; reflexivity. Qed.
(** Then no proposal is stuck: once voting and timelock are over it has ended, or is passed and can be
    executed, or is rejected and can be closed. *)
Theorem C132_not_stuck_partial O d b xs l id p :
  all_sane O d -> xreached O d b xs l -> calm O d l -> s_props (x_s xs) !! id = Some p ->
  is_expired (p_exp p) b = true ->
  (forall vc e, p_veto p = Some vc -> exp_add (p_exp p) (vc_timelock vc) = Ok e ->
                is_expired e b = true) ->
  (exists st, query_status (x_s xs) b id = Ok st /\ terminal st) \/
  (query_status (x_s xs) b id = Ok Passed /\
   forall a, (c_only_members (s_cfg (x_s xs)) = true -> 0 < vp (O (x_mod xs)) d a (p_start p)) ->
     exists xs' subs, xhandle O xs b a (XMult (Execute id)) = Ok (xs', subs) /\
       query_status (x_s xs') b id = Ok Executed) \/
  (query_status (x_s xs) b id = Ok Rejected /\
   forall a, exists xs' subs, xhandle O xs b a (XMult (Close id)) = Ok (xs', subs) /\
       query_status (x_s xs') b id = Ok Closed).
Proof. exact (x_not_stuck O d b xs l id p). Qed.
Print Assumptions C132_not_stuck_partial.
Example C132_not_stuck_case :
  xreached ex_O 9 (at_ 200) (ex_s c_once h_calm) (ex_l c_once h_calm) /\
  calm ex_O 9 (ex_l c_once h_calm) /\
  query_status (x_s (ex_s c_once h_calm)) (at_ 200) 3 = Ok Rejected.
Proof. split; [reach|]. split; [exact calm_calm|vm_compute; reflexivity]. Qed.
(** Then messages sent to the DAO are those of the option that has more than any other by the powers
    of the module under which they were proposed, and the quorum is met by them. *)
Theorem C132_mandate_partial O d b xs l pre b' a m post subs id ms c dd :
  all_sane O d -> xreached O d b xs l -> calm O d l ->
  ECall pre b' a m post subs ∈ l -> SExec dd id ms c ∈ subs ->
  exists p v i ch, s_props (x_s pre) !! id = Some p /\ dd = d /\ born l id v /\
    p_choices p !! i = Some ch /\ ms = ch_msgs ch /\ (S i < length (p_choices p))%nat /\
    (forall j, (j < length (p_choices p))%nat -> j <> i ->
       backing (O v) d (x_s pre) id (p_start p) j < backing (O v) d (x_s pre) id (p_start p) i) /\
    exists b0, height b0 = p_start p /\
      share_near (backing_all (O v) d (x_s pre) id (p_start p)) (tnow (O v) d b0 id) (p_quorum p).
Proof. exact (x_mandate O d b xs l pre b' a m post subs id ms c dd). Qed.
Print Assumptions C132_mandate_partial.
Example C132_mandate_case :
  existsb (fun e => match e with
    | ECall pre _ _ (XMult (Execute 2)) _ subs =>
        (backing (ex_O 60) 9 (x_s pre) 2 13 1 =? 10 ^ 9 - 4) &&
        existsb (fun x => match x with SExec 9%N 2 _ _ => true | _ => false end) subs
    | _ => false end) (ex_l c_once h_calm) = true.
Proof. vm_compute. reflexivity. Qed.
(** Otherwise a proposal whose quorum is a majority can be executed with the votes of accounts that have no
    more than four in a billion, whichever voting module is asked. *)
Theorem C132_small_share_refuted :
  exists O d b xs l a xs' subs p ch,
    all_sane O d /\ xreached O d b xs l /\ s_props (x_s xs) !! 1 = Some p /\
    p_quorum p = Majority /\ p_choices p !! 0%nat = Some ch /\
    xhandle O xs b a (XMult (Execute 1)) = Ok (xs', subs) /\
    SExec d 1 (ch_msgs ch) true ∈ subs /\
    forall v b0, height b0 = p_start p ->
      backing_all (O v) d (x_s xs) 1 (p_start p) * 250000000 <= tnow (O v) d b0 1.
Proof. exact ex_small. Qed.
Print Assumptions C132_small_share_refuted.
(** Otherwise, though voting goes on, nobody may be able to vote on a proposal for any option. *)
Theorem C132_nobody_votes_refuted :
  exists O d b xs l id p, all_sane O d /\ xreached O d b xs l /\
    s_props (x_s xs) !! id = Some p /\ query_status (x_s xs) b id = Ok Open /\
    (exists a, 0 < vp (O (x_mod xs)) d a (p_start p)) /\
    (forall a, s_ballots (x_s xs) !! (id, a) = None) /\
    forall a v r, is_ok (xhandle O xs b a (XMult (CastVote id v r))) = false.
Proof. exact ex_once. Qed.
Print Assumptions C132_nobody_votes_refuted.
(** Otherwise neither the status of a proposal nor the list of proposals may be told while voting goes on. *)
Theorem C132_silent_refuted :
  exists O d b xs l id, all_sane O d /\ xreached O d b xs l /\ is_Some (s_props (x_s xs) !! id) /\
    is_ok (query_status (x_s xs) b id) = false /\ is_ok (query_list (x_s xs) b 0 30) = false /\
    forall a, is_ok (xhandle O xs b a (XMult (Execute id))) = false /\
      is_ok (xhandle O xs b a (XMult (Close id))) = false.
Proof. exact ex_min. Qed.
Print Assumptions C132_silent_refuted.
(** Otherwise a passed proposal can be one that nobody can execute, at any time, while the module stays. *)
Theorem C132_nobody_executes_refuted :
  exists O d b xs l id, all_sane O d /\ xreached O d b xs l /\
    query_status (x_s xs) b id = Ok Passed /\
    forall b' a, is_ok (xhandle O xs b' a (XMult (Execute id))) = false.
Proof. exact ex_late. Qed.
Print Assumptions C132_nobody_executes_refuted.
