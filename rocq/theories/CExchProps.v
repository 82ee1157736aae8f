(** Exchanging the voting module, Condorcet (C139). *)
From stdpp Require Import gmap strings.
From Verif Require Import Base Exec ExecProofs VotingModel VotingSpec CondModel CondSpec
  CExchModel CExchSpec CExchClaims CExchExamples.

(** * C139 *)
(** Terms and votes stand, also when the voting module is exchanged. *)
Theorem C139_stand O b xs l b' xs' l' :
  xreached O b xs l -> xlater O b xs b' xs' l' ->
  (forall id t p, s_tallies (x_s xs) !! id = Some t -> s_props (x_s xs) !! id = Some p ->
     exists t' p', s_tallies (x_s xs') !! id = Some t' /\ s_props (x_s xs') !! id = Some p' /\
       terms p' = terms p /\ tally_terms t' = tally_terms t) /\
  (forall k r, s_votes (x_s xs) !! k = Some r -> s_votes (x_s xs') !! k = Some r).
Proof. exact (x_stand O b xs l b' xs' l'). Qed.
Print Assumptions C139_stand.
Example C139_stand_case :
  let xs := ex_s (take 3 h_late) in
  xreached ex_O (at_ 12) xs (ex_l (take 3 h_late)) /\ map_to_list (s_votes (x_s xs)) <> [] /\
  exists xs' l', xlater ex_O (at_ 12) xs (at_ 20) xs' l' /\ x_mod xs = 50%N /\ x_mod xs' = 70%N.
Proof.
  split; [reach|]. split; [vm_compute; discriminate|].
  destruct (run_hist (xhandle ex_O) xon_fail xon_ok (ex_s (take 3 h_late)) [(at_ 12, swaps 70)])
    as [xs' l'] eqn:E.
  exists xs', l'. split.
  - exists [(at_ 12, swaps 70)]. split; [vm_compute; repeat split; discriminate|].
    split; [exact E|]. vm_compute; split; discriminate.
  - split; [vm_compute; reflexivity|]. revert E. vm_compute. intros [= <- _]. reflexivity.
Qed.
(** In every history each vote counts with the power that the voting module of the moment gave the voter for
    the height at which the proposal was made: the margins, the power left and the winner are those of these
    weights.  The total is that of the module under which the proposal was made. *)
Theorem C139_counts O b xs l id t p :
  all_typed O -> xreached O b xs l ->
  s_tallies (x_s xs) !! id = Some t -> s_props (x_s xs) !! id = Some p ->
  exists pw v b0, born l id b0 v /\ height b0 = t_start t /\
    p_total p = tnow (O v) (s_dao (x_s xs)) b0 id /\
    weighs O l (x_s xs) id (t_start t) pw /\
    p_total p - t_outstanding t = cast_power pw (x_s xs) id /\ 0 <= t_outstanding t /\
    m_n (t_m t) = Z.of_nat (length (p_choices p)) /\
    (forall x y, 0 <= x < m_n (t_m t) -> 0 <= y < m_n (t_m t) -> x <> y ->
       exists c, get (t_m t) x y = Ok c /\ val c = cast_margin pw (x_s xs) id x y) /\
    (forall c, reported (t_winner t) = Some c <-> beats_all (m_n (t_m t)) (cast_margin pw (x_s xs) id) c).
Proof. exact (x_counts O b xs l id t p). Qed.
Print Assumptions C139_counts.
(** Accounts 1 and 3 vote in the group, account 6 while another module is in force. *)
Example C139_counts_case :
  all_typed ex_O /\ xreached ex_O (at_ 20) (ex_s h_mixed) (ex_l h_mixed) /\
  map (fun x => (x.1, t_outstanding x.2, t_winner x.2)) (map_to_list (s_tallies (x_s (ex_s h_mixed)))) =
    [(1, 0, WUndisputed 0)] /\
  map fst (map_to_list (s_votes (x_s (ex_s h_mixed)))) = [(1, 1%N); (1, 3%N); (1, 6%N)].
Proof. split; [exact ex_typed|]. split; [exact mixed_reached|]. split; vm_compute; reflexivity. Qed.
(** The status of every proposal can be told at any time, whatever the exchanges. *)
Theorem C139_status_answers O b xs l id p b' :
  all_typed O -> xreached O b xs l -> s_props (x_s xs) !! id = Some p ->
  exists st, query_status (x_s xs) b' id = Ok st.
Proof. exact (x_answers O b xs l id p b'). Qed.
Print Assumptions C139_status_answers.
Example C139_status_answers_case :
  xreached ex_O (at_ 20) (ex_s h_none) (ex_l h_none) /\ query_status (x_s (ex_s h_none)) (at_ 20) 1 = Ok COpen.
Proof. split; [reach|vm_compute; reflexivity]. Qed.
(** Once voting is over, every proposal has ended, or is passed and can be executed by whoever has power
    according to the module of the moment, or is rejected and can be closed. *)
Theorem C139_not_stuck O b xs l id p t :
  all_typed O -> xreached O b xs l ->
  s_props (x_s xs) !! id = Some p -> s_tallies (x_s xs) !! id = Some t ->
  is_expired (t_exp t) b = true -> (forall e, p_min p = Some e -> is_expired e b = true) ->
  (exists st, query_status (x_s xs) b id = Ok st /\ terminal st) \/
  (exists w, query_status (x_s xs) b id = Ok (CPassed w) /\
   forall a, 0 < vp (O (x_mod xs)) (s_dao (x_s xs)) a (t_start t) ->
     exists xs' subs, xhandle O xs b a (XCond (Execute id)) = Ok (xs', subs) /\
       query_status (x_s xs') b id = Ok CExecuted) \/
  (query_status (x_s xs) b id = Ok CRejected /\
   forall a, exists xs' subs, xhandle O xs b a (XCond (Close id)) = Ok (xs', subs) /\
       query_status (x_s xs') b id = Ok CClosed).
Proof. exact (x_not_stuck O b xs l id p t). Qed.
Print Assumptions C139_not_stuck.
Example C139_not_stuck_case :
  xreached ex_O (at_ 200) (ex_s h_none) (ex_l h_none) /\
  query_status (x_s (ex_s h_none)) (at_ 200) 1 = Ok CRejected.
Proof. split; [reach|vm_compute; reflexivity]. Qed.
(** The messages of a proposal are sent to the DAO at most once. *)
Theorem C139_at_most_once O b xs l id : xreached O b xs l -> xdispatches id l <= 1.
Proof. exact (x_once O b xs l id). Qed.
Print Assumptions C139_at_most_once.
(** They are those of the choice that beats every other by the weights with which the votes were counted, and
    the quorum is reached by these. *)
Theorem C139_dispatch_is_winner O b xs l pre b1 a m post subs dd id ms c :
  all_typed O -> xreached O b xs l -> ECall pre b1 a m post subs ∈ l -> SExec dd id ms c ∈ subs ->
  m = XCond (Execute id) /\ dd = s_dao (x_s xs) /\
  exists p t w pw, s_props (x_s pre) !! id = Some p /\ s_tallies (x_s pre) !! id = Some t /\
    query_status (x_s pre) b1 id = Ok (CPassed w) /\ p_choices p !! Z.to_nat w = Some ms /\
    c = p_close_on_fail p /\ vp (O (x_mod pre)) (s_dao (x_s xs)) a (t_start t) <> 0 /\
    weighs O l (x_s pre) id (t_start t) pw /\
    share_near (cast_power pw (x_s pre) id) (p_total p) (p_quorum p) /\
    beats_all (Z.of_nat (length (p_choices p))) (cast_margin pw (x_s pre) id) w /\
    status_of (x_s post) id = Some CExecuted.
Proof. exact (x_dispatch O b xs l pre b1 a m post subs dd id ms c). Qed.
Print Assumptions C139_dispatch_is_winner.
Example C139_dispatch_case :
  xreached ex_O (at_ 20) (ex_s h_calm) (ex_l h_calm) /\
  map (fun i => xdispatches i (ex_l h_calm)) [1; 2; 3] = [1; 1; 0].
Proof. split; [exact calm_reached|vm_compute; reflexivity]. Qed.
(** Nobody but the DAO exchanges the voting module. *)
Theorem C139_who_exchanges O b xs l e :
  xreached O b xs l -> e ∈ l -> x_mod (ev_post e) <> x_mod (ev_pre e) ->
  exists pre b' post subs, e = ECall pre b' (s_dao (x_s pre)) (XExchange (x_mod post)) post subs.
Proof. exact (x_module O b xs l e). Qed.
Print Assumptions C139_who_exchanges.
(** If exchanges happen only while voting on no proposal goes on (other than those for whose electorate
    both modules give the same answers), a proposal's margins, power left and winner are those by the powers
    of the module it was made under. *)
Theorem C139_electorate_partial O b xs l id t p :
  all_typed O -> xreached O b xs l -> calm O l ->
  s_tallies (x_s xs) !! id = Some t -> s_props (x_s xs) !! id = Some p -> ~ terminal (p_status p) ->
  exists v b0, born l id b0 v /\ height b0 = t_start t /\
    p_total p = tnow (O v) (s_dao (x_s xs)) b0 id /\
    p_total p - t_outstanding t = voted_power (O v) (x_s xs) id /\
    (forall x y, 0 <= x < m_n (t_m t) -> 0 <= y < m_n (t_m t) -> x <> y ->
       exists c, get (t_m t) x y = Ok c /\ val c = margin (O v) (x_s xs) id x y) /\
    (forall c, reported (t_winner t) = Some c <-> beats_all (m_n (t_m t)) (margin (O v) (x_s xs) id) c).
Proof. exact (x_electorate O b xs l id t p). Qed.
Print Assumptions C139_electorate_partial.
(** Proposal 1 exchanges the module; proposal 2, made under the new one, has been executed; 3 is open. *)
Example C139_electorate_case :
  all_typed ex_O /\ xreached ex_O (at_ 20) (ex_s h_calm) (ex_l h_calm) /\
  calm ex_O (ex_l h_calm) /\ x_mod (ex_s h_calm) = 60%N /\
  map (fun x => (x.1, p_status x.2, p_total x.2)) (map_to_list (s_props (x_s (ex_s h_calm)))) =
    [(1, CExecuted, 3); (2, CExecuted, 10 ^ 9); (3, COpen, 10 ^ 9)].
Proof.
  split; [exact ex_typed|]. split; [exact calm_reached|]. split; [exact calm_calm|].
  split; vm_compute; reflexivity.
Qed.
(** Then whoever has power and has not voted can vote while voting goes on. *)
Theorem C139_voting_goes_on_partial O b xs l a id v t p :
  all_typed O -> all_cover O -> xreached O b xs l -> calm O l ->
  s_tallies (x_s xs) !! id = Some t -> s_props (x_s xs) !! id = Some p -> ~ terminal (p_status p) ->
  (exists r, xhandle O xs b a (XCond (CastVote id v)) = Ok r) <->
  ranking (Z.of_nat (length (p_choices p))) v /\ is_expired (t_exp t) b = false /\
    s_votes (x_s xs) !! (id, a) = None /\ vp (O (x_mod xs)) (s_dao (x_s xs)) a (t_start t) <> 0.
Proof. exact (x_vote_iff O b xs l a id v t p). Qed.
Print Assumptions C139_voting_goes_on_partial.
Example C139_voting_goes_on_case :
  all_cover ex_O /\ is_ok (xhandle ex_O (ex_s h_calm) (at_ 20) 5 (XCond (CastVote 3 [0; 1; 2]))) = true.
Proof. split; [exact ex_cover|vm_compute; reflexivity]. Qed.
(** Then messages sent to the DAO are those of the choice that beats every other by the powers of the module
    under which they were proposed, and the quorum is met by these. *)
Theorem C139_mandate_partial O b xs l pre b1 a m post subs dd id ms c :
  all_typed O -> xreached O b xs l -> calm O l ->
  ECall pre b1 a m post subs ∈ l -> SExec dd id ms c ∈ subs ->
  exists p w v b0, s_props (x_s pre) !! id = Some p /\ p_choices p !! Z.to_nat w = Some ms /\
    born l id b0 v /\ p_total p = tnow (O v) (s_dao (x_s xs)) b0 id /\
    share_near (voted_power (O v) (x_s pre) id) (p_total p) (p_quorum p) /\
    beats_all (Z.of_nat (length (p_choices p))) (margin (O v) (x_s pre) id) w.
Proof. exact (x_mandate O b xs l pre b1 a m post subs dd id ms c). Qed.
Print Assumptions C139_mandate_partial.
(** Otherwise a proposal whose quorum is a majority can be executed with the votes of accounts that have no
    more than three in a billion, whichever voting module is asked. *)
Theorem C139_small_share_refuted :
  exists O b xs l a xs' subs p t ms,
    all_typed O /\ all_cover O /\ xreached O b xs l /\
    s_props (x_s xs) !! 1 = Some p /\ s_tallies (x_s xs) !! 1 = Some t /\
    p_quorum p = Majority /\ p_choices p !! 0%nat = Some ms /\ ms <> [] /\
    xhandle O xs b a (XCond (Execute 1)) = Ok (xs', subs) /\
    SExec (s_dao (x_s xs)) 1 ms true ∈ subs /\
    forall v b0, height b0 = t_start t ->
      voted_power (O v) (x_s xs) 1 * 300000000 <= tnow (O v) (s_dao (x_s xs)) b0 1.
Proof. exact ex_small. Qed.
Print Assumptions C139_small_share_refuted.
(** Otherwise, though the proposal is open and there is who has power and has not voted, nobody may be able to
    vote. *)
Theorem C139_nobody_votes_refuted :
  exists O b xs l id p t, all_typed O /\ all_cover O /\ xreached O b xs l /\
    s_props (x_s xs) !! id = Some p /\ s_tallies (x_s xs) !! id = Some t /\
    query_status (x_s xs) b id = Ok COpen /\
    (exists a, 0 < vp (O (x_mod xs)) (s_dao (x_s xs)) a (t_start t) /\ s_votes (x_s xs) !! (id, a) = None) /\
    forall b' a r, is_ok (xhandle O xs b' a (XCond (CastVote id r))) = false.
Proof. exact ex_none. Qed.
Print Assumptions C139_nobody_votes_refuted.
(** Even if all exchanges are calm, a passed proposal can be one that nobody can execute, at any time, while
    the module stays. *)
Theorem C139_nobody_executes_refuted :
  exists O b xs l id, all_typed O /\ all_cover O /\ xreached O b xs l /\ calm O l /\
    query_status (x_s xs) b id = Ok (CPassed 0) /\
    forall b' a, is_ok (xhandle O xs b' a (XCond (Execute id))) = false.
Proof. exact ex_late. Qed.
Print Assumptions C139_nobody_executes_refuted.
