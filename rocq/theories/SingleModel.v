(** Model of contracts/proposal/dao-proposal-single/src: proposal.rs, state.rs,
    contract.rs.  Line numbers refer to contract.rs unless a file is named. *)
From Verif Require Import Base VotingModel HooksModel.

(** proposal.rs:13-49 [SingleChoiceProposal], without title and description. *)
Record proposal := Proposal {
  p_proposer : addr;
  p_start : Z;
  p_min : option expiration;
  p_exp : expiration;
  p_thr : threshold;
  p_total : Z;
  p_msgs : list Z;
  p_status : status;
  p_votes : votes;
  p_revote : bool;
  p_veto : option veto_config }.

(** state.rs:13-26 [Ballot]. *)
Record ballot := Ballot { bl_power : Z; bl_vote : vote; bl_rationale : option string }.

(** state.rs:30-67 [Config]. *)
Record config := Config {
  c_thr : threshold;
  c_max : duration;
  c_min : option duration;
  c_only_members : bool;
  c_revote : bool;
  c_dao : addr;
  c_close_on_fail : bool;
  c_veto : option veto_config }.

(** state.rs:69-86, the contract's storage. *)
Record state := State {
  s_cfg : config;
  s_count : Z;
  s_props : gmap Z proposal;
  s_ballots : gmap (Z * addr) ballot;
  s_policy : creation_policy;
  s_phooks : list addr;
  s_vhooks : list addr }.

(** Answers of the DAO's voting module: [vp dao a h] is the voting power of [a]
    at height [h], [tp dao h] the total power (dao-voting/src/voting.rs:203-225
    [get_voting_power], [get_total_power]).  Failing queries are not modelled:
    they would make the call fail. *)
Record oracle := Oracle { vp : addr -> addr -> Z -> Z; tp : addr -> Z -> Z }.

(** dao-voting/src/proposal.rs:14-44 [SingleChoiceProposeMsg].  [pm_active] is
    the voting module's answer to [IsActive] (lines 183-197), [pm_fits] whether
    the serialised proposal is within [MAX_PROPOSAL_SIZE] (lines 228-249). *)
Record propose_msg := ProposeMsg {
  pm_msgs : list Z;
  pm_proposer : option addr;
  pm_vote : option (vote * option string);
  pm_active : bool;
  pm_fits : bool }.

(** [ExecuteMsg], dispatched at 95-150. *)
Inductive msg :=
| Propose (pm : propose_msg)
| CastVote (id : Z) (v : vote) (rationale : option string)
| UpdateRationale (id : Z) (rationale : option string)
| Execute (id : Z)
| Veto (id : Z)
| Close (id : Z)
| UpdateConfig (c : config)
| UpdatePreProposeInfo (i : pre_propose_info)
| AddProposalHook (a : addr)
| RemoveProposalHook (a : addr)
| AddVoteHook (a : addr)
| RemoveVoteHook (a : addr).

Notation sub := (psub vote).

(** proposal.rs:117-158 [is_passed]. *)
Definition is_passed (p : proposal) (b : block) : result bool :=
  if p_revote p && negb (is_expired (p_exp p) b) then Ok false
  else if (match p_min p with Some m => negb (is_expired m b) | None => false end)
  then Ok false
  else
    match p_thr p with
    | AbsolutePercentage pc =>
        do! options <- sub128 (p_total p) (v_abstain (p_votes p));
        Ok (does_vote_count_pass (v_yes (p_votes p)) options pc)
    | ThresholdQuorum t q =>
        do! total <- votes_total (p_votes p);
        if negb (does_vote_count_pass total (p_total p) q) then Ok false
        else if is_expired (p_exp p) b then
          do! options <- sub128 total (v_abstain (p_votes p));
          Ok (does_vote_count_pass (v_yes (p_votes p)) options t)
        else
          do! options <- sub128 (p_total p) (v_abstain (p_votes p));
          Ok (does_vote_count_pass (v_yes (p_votes p)) options t)
    | AbsoluteCount n => Ok (n <=? v_yes (p_votes p))
    end.

(** The 100 % special case followed by [does_vote_count_fail]; the same block of
    code occurs three times: proposal.rs:177-199, 212-234, 243-260. *)
Definition rejected_with (no options : Z) (pc : percentage) : bool :=
  if decide (pc = Percent DEC_ONE)
  then if options =? 0 then true else 1 <=? no
  else does_vote_count_fail no options pc.

(** proposal.rs:162-265 [is_rejected]. *)
Definition is_rejected (p : proposal) (b : block) : result bool :=
  if p_revote p && negb (is_expired (p_exp p) b) then Ok false
  else
    match p_thr p with
    | AbsolutePercentage pc =>
        do! options <- sub128 (p_total p) (v_abstain (p_votes p));
        Ok (rejected_with (v_no (p_votes p)) options pc)
    | ThresholdQuorum t q =>
        do! total <- votes_total (p_votes p);
        match does_vote_count_pass total (p_total p) q, is_expired (p_exp p) b with
        | true, true =>
            do! options <- sub128 total (v_abstain (p_votes p));
            Ok (rejected_with (v_no (p_votes p)) options t)
        | true, false | false, false =>
            do! options <- sub128 (p_total p) (v_abstain (p_votes p));
            Ok (rejected_with (v_no (p_votes p)) options t)
        | false, true => Ok true
        end
    | AbsoluteCount n =>
        do! total <- votes_total (p_votes p);
        do! outstanding <- sub128 (p_total p) total;
        do! reachable <- add128 (v_yes (p_votes p)) outstanding;
        Ok (reachable <? n)
    end.

(** proposal.rs:74-105 [current_status]. *)
Definition current_status (p : proposal) (b : block) : result status :=
  match p_status p with
  | Open =>
      do! passed <- is_passed p b;
      if passed then
        match p_veto p with
        | Some vc =>
            do! e <- exp_add (p_exp p) (vc_timelock vc);
            if is_expired e b then Ok Passed else Ok (VetoTimelock e)
        | None => Ok Passed
        end
      else if is_expired (p_exp p) b then Ok Rejected
      else
        do! rejected <- is_rejected p b;
        if rejected then Ok Rejected else Ok Open
  | VetoTimelock e => if is_expired e b then Ok Passed else Ok (VetoTimelock e)
  | st => Ok st
  end.

Definition set_status (p : proposal) (st : status) : proposal :=
  Proposal (p_proposer p) (p_start p) (p_min p) (p_exp p) (p_thr p) (p_total p)
    (p_msgs p) st (p_votes p) (p_revote p) (p_veto p).
Definition set_votes (p : proposal) (v : votes) : proposal :=
  Proposal (p_proposer p) (p_start p) (p_min p) (p_exp p) (p_thr p) (p_total p)
    (p_msgs p) (p_status p) v (p_revote p) (p_veto p).

(** proposal.rs:108-112 [update_status]. *)
Definition update_status (p : proposal) (b : block) : result proposal :=
  do! st <- current_status p b; Ok (set_status p st).

Definition with_props (s : state) (ps : gmap Z proposal) : state :=
  State (s_cfg s) (s_count s) ps (s_ballots s) (s_policy s) (s_phooks s) (s_vhooks s).
Definition with_policy (s : state) (pol : creation_policy) : state :=
  State (s_cfg s) (s_count s) (s_props s) (s_ballots s) pol (s_phooks s) (s_vhooks s).
Definition with_phooks (s : state) (h : list addr) : state :=
  State (s_cfg s) (s_count s) (s_props s) (s_ballots s) (s_policy s) h (s_vhooks s).
Definition with_vhooks (s : state) (h : list addr) : state :=
  State (s_cfg s) (s_count s) (s_props s) (s_ballots s) (s_policy s) (s_phooks s) h.
Definition with_ballots (s : state) (bs : gmap (Z * addr) ballot) : state :=
  State (s_cfg s) (s_count s) (s_props s) bs (s_policy s) (s_phooks s) (s_vhooks s).
Definition with_cfg (s : state) (c : config) : state :=
  State c (s_count s) (s_props s) (s_ballots s) (s_policy s) (s_phooks s) (s_vhooks s).
Definition save_prop (s : state) (id : Z) (p : proposal) : state :=
  with_props s (<[id := p]> (s_props s)).

(** 472-574 [execute_vote]. *)
Definition execute_vote (O : oracle) (s : state) (b : block) (sender : addr)
    (id : Z) (v : vote) (rationale : option string) : result (state * list sub) :=
  some! p <- s_props s !! id else "NoSuchProposal";
  check! negb (is_expired (p_exp p) b) else "Expired";
  let power := vp O (c_dao (s_cfg s)) sender (p_start p) in
  check! negb (power =? 0) else "NotRegistered";
  do! votes0 <-
    match s_ballots s !! (id, sender) with
    | Some cur =>
        if p_revote p then
          if decide (bl_vote cur = v) then Err "AlreadyCast"
          else remove_vote (p_votes p) (bl_vote cur) (bl_power cur)
        else Err "AlreadyVoted"
    | None => Ok (p_votes p)
    end;
  do! votes1 <- add_vote votes0 v power;
  do! p' <- update_status (set_votes p votes1) b;
  let s' := with_ballots (save_prop s id p')
              (<[(id, sender) := Ballot power v rationale]> (s_ballots s)) in
  Ok (s', proposal_status_changed_hooks (s_phooks s) id (p_status p) (p_status p')
          ++ new_vote_hooks (s_vhooks s) id sender v).

(** 172-181, the proposer rule. *)
Definition decide_proposer (pol : creation_policy) (sender : addr) (proposer : option addr)
  : result addr :=
  match proposer, pol with
  | None, Anyone => Ok sender
  | Some a, Module _ => Ok a
  | _, _ => Err "InvalidProposer"
  end.

(** 152-283 [execute_propose]. *)
Definition execute_propose (O : oracle) (s : state) (b : block) (sender : addr)
    (pm : propose_msg) : result (state * list sub) :=
  let c := s_cfg s in
  check! is_permitted (s_policy s) sender else "Unauthorized";
  do! proposer <- decide_proposer (s_policy s) sender (pm_proposer pm);
  check! pm_active pm else "InactiveDao";
  do! p <- update_status
    (Proposal proposer (height b) (option_map (fun d => after d b) (c_min c))
       (after (c_max c) b) (c_thr c) (tp O (c_dao c) (height b)) (pm_msgs pm)
       Open votes_zero (c_revote c) (c_veto c)) b;
  let id := s_count s + 1 in
  check! pm_fits pm else "ProposalTooLarge";
  let s1 := State c id (<[id := p]> (s_props s)) (s_ballots s) (s_policy s)
                  (s_phooks s) (s_vhooks s) in
  let hooks := new_proposal_hooks (s_phooks s) id proposer in
  match pm_vote pm with
  | Some (v, rationale) =>
      do! ' (s2, vote_subs) <- execute_vote O s1 b proposer id v rationale;
      Ok (s2, hooks ++ vote_subs)
  | None => Ok (s1, hooks)
  end.

(** 576-604 [execute_update_rationale]. *)
Definition execute_update_rationale (s : state) (sender : addr) (id : Z)
    (rationale : option string) : result (state * list sub) :=
  some! cur <- s_ballots s !! (id, sender) else "NoSuchVote";
  Ok (with_ballots s
        (<[(id, sender) := Ballot (bl_power cur) (bl_vote cur) rationale]> (s_ballots s)), []).

(** The common tail of veto, execute and close: save the final status, fire the
    status-changed hooks and the completion hook. *)
Definition finish (s : state) (id : Z) (p : proposal) (st : status) : state * list sub :=
  (save_prop s id (set_status p st),
   proposal_status_changed_hooks (s_phooks s) id (p_status p) st
   ++ proposal_completed_hooks (s_policy s) id st).

(** 285-356 [execute_veto]. *)
Definition execute_veto (s : state) (b : block) (sender : addr) (id : Z)
  : result (state * list sub) :=
  some! p0 <- s_props s !! id else "NoSuchProposal";
  do! p <- update_status p0 b;
  some! vc <- p_veto p else "NoVetoConfiguration";
  do! _ <- check_is_vetoer vc sender;
  do! _ <-
    match p_status p with
    | Open => check_veto_before_passed_enabled vc
    | Passed => Err "TimelockExpired"
    | VetoTimelock e => if is_expired e b then Err "TimelockExpired" else Ok tt
    | _ => Err "InvalidProposalStatus"
    end;
  Ok (finish s id p Vetoed).

(** 366-378: may the sender execute a passed proposal. *)
Definition sender_can_execute (O : oracle) (s : state) (sender : addr) (p : proposal) : bool :=
  if c_only_members (s_cfg s)
  then negb (vp O (c_dao (s_cfg s)) sender (p_start p) =? 0) else true.

(** 358-470 [execute_execute]. *)
Definition execute_execute (O : oracle) (s : state) (b : block) (sender : addr) (id : Z)
  : result (state * list sub) :=
  some! p0 <- s_props s !! id else "NoSuchProposal";
  let can := sender_can_execute O s sender p0 in
  do! p <- update_status p0 b;
  do! _ <-
    match p_status p with
    | Passed => if can then Ok tt else Err "Unauthorized"
    | VetoTimelock _ =>
        some! vc <- p_veto p else "NoVetoConfiguration";
        if (vc_vetoer vc =? sender)%N then check_early_execute_enabled vc
        else if can then Err "Timelocked" else Err "Unauthorized"
    | _ => Err "NotPassed"
    end;
  let exec := match p_msgs p with
              | [] => []
              | ms => [SExec (c_dao (s_cfg s)) id ms (c_close_on_fail (s_cfg s))]
              end in
  let '(s', subs) := finish s id p Executed in
  Ok (s', exec ++ subs).

(** 606-646 [execute_close]. *)
Definition execute_close (s : state) (b : block) (id : Z) : result (state * list sub) :=
  some! p0 <- s_props s !! id else "NotFound";
  do! p <- update_status p0 b;
  check! bool_decide (p_status p = Rejected) else "WrongCloseStatus";
  Ok (finish s id p Closed).

(** Validation shared by 47-92 [instantiate] and 649-695 [execute_update_config]. *)
Definition validate_config (c : config) : result unit :=
  do! _ <- validate_threshold (c_thr c);
  do! _ <- validate_voting_period (c_min c) (c_max c);
  validate_veto_opt (c_veto c) (c_max c).

(** 649-695 [execute_update_config]; the message carries all fields. *)
Definition execute_update_config (s : state) (sender : addr) (c : config)
  : result (state * list sub) :=
  check! (sender =? c_dao (s_cfg s))%N else "Unauthorized";
  do! _ <- validate_config c;
  Ok (with_cfg s c, []).

(** 697-715 [execute_update_proposal_creation_policy]. *)
Definition execute_update_policy (s : state) (sender : addr) (i : pre_propose_info)
  : result (state * list sub) :=
  check! (c_dao (s_cfg s) =? sender)%N else "Unauthorized";
  let '(pol, subs) := into_initial_policy_and_messages i in
  Ok (with_policy s pol, subs).

(** 739-821, the four hook administration calls. *)
Definition execute_add_proposal_hook (s : state) (sender a : addr) : result (state * list sub) :=
  check! (c_dao (s_cfg s) =? sender)%N else "Unauthorized";
  do! h <- add_hook (s_phooks s) a; Ok (with_phooks s h, []).
Definition execute_remove_proposal_hook (s : state) (sender a : addr) : result (state * list sub) :=
  check! (c_dao (s_cfg s) =? sender)%N else "Unauthorized";
  do! h <- remove_hook (s_phooks s) a; Ok (with_phooks s h, []).
Definition execute_add_vote_hook (s : state) (sender a : addr) : result (state * list sub) :=
  check! (c_dao (s_cfg s) =? sender)%N else "Unauthorized";
  do! h <- add_hook (s_vhooks s) a; Ok (with_vhooks s h, []).
Definition execute_remove_vote_hook (s : state) (sender a : addr) : result (state * list sub) :=
  check! (c_dao (s_cfg s) =? sender)%N else "Unauthorized";
  do! h <- remove_hook (s_vhooks s) a; Ok (with_vhooks s h, []).

(** 95-150 [execute]. *)
Definition handle (O : oracle) (s : state) (b : block) (sender : addr) (m : msg)
  : result (state * list sub) :=
  match m with
  | Propose pm => execute_propose O s b sender pm
  | CastVote id v r => execute_vote O s b sender id v r
  | UpdateRationale id r => execute_update_rationale s sender id r
  | Execute id => execute_execute O s b sender id
  | Veto id => execute_veto s b sender id
  | Close id => execute_close s b id
  | UpdateConfig c => execute_update_config s sender c
  | UpdatePreProposeInfo i => execute_update_policy s sender i
  | AddProposalHook a => execute_add_proposal_hook s sender a
  | RemoveProposalHook a => execute_remove_proposal_hook s sender a
  | AddVoteHook a => execute_add_vote_hook s sender a
  | RemoveVoteHook a => execute_remove_vote_hook s sender a
  end.

(** 1069-1141 [reply], on the decoded id; [d] is the address of the contract
    instantiated by the sub-message. *)
Definition reply (s : state) (t : tagged_reply) (d : addr) : result state :=
  match t with
  | FailedProposalExecution id =>
      some! p <- s_props s !! id else "NoSuchProposal";
      Ok (save_prop s id (set_status p ExecutionFailed))
  | FailedProposalHook i =>
      do! h <- remove_hook_by_index (s_phooks s) (Z.to_nat i); Ok (with_phooks s h)
  | FailedVoteHook i =>
      do! h <- remove_hook_by_index (s_vhooks s) (Z.to_nat i); Ok (with_vhooks s h)
  | PreProposeModuleInstantiation => Ok (with_policy s (Module d))
  | FailedPreProposeModuleHook =>
      match s_policy s with
      | Anyone => Err "InvalidReplyID"
      | Module _ => Ok (with_policy s Anyone)
      end
  end.

(** A failing sub-message: caught by [reply] if it was sent with
    [reply_on_error], otherwise the whole call fails.  The reply id is passed
    in decoded form; encoding and decoding agree for ids below 2^61 (C20). *)
Definition on_fail (s : state) (b : block) (x : sub) : result state :=
  match x with
  | SExec _ id _ true => reply s (FailedProposalExecution id) 0%N
  | SExec _ _ _ false => Err "sub-message failed"
  | SPropHook i _ _ => reply s (FailedProposalHook (Z.of_nat i)) 0%N
  | SVoteHook i _ _ _ _ => reply s (FailedVoteHook (Z.of_nat i)) 0%N
  | SCompleted _ _ _ => reply s FailedPreProposeModuleHook 0%N
  | SInstantiate _ => Err "sub-message failed"
  end.
(** A succeeding sub-message: only the pre-propose instantiation replies. *)
Definition on_ok (s : state) (b : block) (x : sub) (d : addr) : result state :=
  match x with
  | SInstantiate _ => reply s PreProposeModuleInstantiation d
  | _ => Ok s
  end.

(** 47-92 [instantiate]: the DAO is the sender.  The pre-propose instantiation
    sub-message is handled like the one of [UpdatePreProposeInfo]. *)
Definition instantiate (sender : addr) (c : config) (i : pre_propose_info)
  : result (state * list sub) :=
  do! _ <- validate_config c;
  let c' := Config (c_thr c) (c_max c) (c_min c) (c_only_members c) (c_revote c)
                   sender (c_close_on_fail c) (c_veto c) in
  let '(pol, subs) := into_initial_policy_and_messages i in
  Ok (State c' 0 ∅ ∅ pol [] [], subs).

(** 911-914 [query_proposal]: the reported status. *)
Definition query_status (s : state) (b : block) (id : Z) : result status :=
  some! p <- s_props s !! id else "NotFound"; current_status p b.
