(** Model of contracts/proposal/dao-proposal-multiple/src: proposal.rs, state.rs,
    contract.rs, and of packages/dao-voting/src/multiple_choice.rs.  Line numbers refer to contract.rs unless a file is named. *)
From Verif Require Import Base VotingModel HooksModel.

(** multiple_choice.rs:115-124 [CheckedMultipleChoiceOption], without texts and
    the unused [vote_count]; [ch_none] is [option_type = None]. *)
Record choice := Choice { ch_index : nat; ch_none : bool; ch_msgs : list Z }.

(** multiple_choice.rs:127-171 [into_checked]: between 2 and [MAX_NUM_CHOICES]
    (= 20, line 9) options; "none of the above" is appended. *)
Definition into_checked (opts : list (list Z)) : result (list choice) :=
  check! ((2 <=? length opts) && (length opts <=? 20))%nat else "Wrong number of choices";
  Ok (imap (fun i ms => Choice i false ms) opts ++ [Choice (length opts) true []]).

(** multiple_choice.rs:46-51 [MultipleChoiceVotes]: one weight per option; a vote
    (33-37) is the index of an option. *)
Notation weights := (list Z).
Notation ovote := nat.
(** multiple_choice.rs:76-80 [zero]. *)
Definition weights_zero (n : nat) : weights := replicate n 0.
(** multiple_choice.rs:55-57 [total]; the sum of [Uint128]s aborts on overflow. *)
Fixpoint weights_total (l : weights) : result Z :=
  match l with
  | [] => Ok 0
  | w :: l => do! t <- weights_total l; add128 w t
  end.
(** multiple_choice.rs:60-65 [add_vote]; indexing out of range aborts. *)
Definition add_weight (l : weights) (v : ovote) (w : Z) : result weights :=
  some! c <- l !! v else "index out of bounds";
  do! c' <- add128 c w; Ok (<[v := c']> l).
(** multiple_choice.rs:68-73 [remove_vote]. *)
Definition remove_weight (l : weights) (v : ovote) (w : Z) : result weights :=
  some! c <- l !! v else "index out of bounds";
  do! c' <- sub128 c w; Ok (<[v := c']> l).

(** proposal.rs:18-53 [MultipleChoiceProposal], without title and description;
    the voting strategy is its quorum (multiple_choice.rs:13-30). *)
Record proposal := Proposal {
  p_proposer : addr;
  p_start : Z;
  p_min : option expiration;
  p_exp : expiration;
  p_quorum : percentage;
  p_total : Z;
  p_choices : list choice;
  p_status : status;
  p_votes : weights;
  p_revote : bool;
  p_veto : option veto_config }.

(** state.rs:53-61 [Ballot]. *)
Record ballot := Ballot { bl_power : Z; bl_vote : ovote; bl_rationale : option string }.

(** state.rs:14-50 [Config]. *)
Record config := Config {
  c_quorum : percentage;
  c_max : duration;
  c_min : option duration;
  c_only_members : bool;
  c_revote : bool;
  c_dao : addr;
  c_close_on_fail : bool;
  c_veto : option veto_config }.

(** state.rs:63-75, the contract's storage. *)
Record state := State {
  s_cfg : config;
  s_count : Z;
  s_props : gmap Z proposal;
  s_ballots : gmap (Z * addr) ballot;
  s_policy : creation_policy;
  s_phooks : list addr;
  s_vhooks : list addr }.

(** Answers of the DAO's voting module (dao-voting/src/voting.rs:203-225):
    [vp dao a h] is the voting power of [a] at height [h].  The total power is
    asked for without a height (line 202): [tnow dao b id] is the answer given in
    block [b] while proposal [id] is being created.  Failing queries are not
    modelled: they would make the call fail. *)
Record oracle := Oracle { vp : addr -> addr -> Z -> Z; tnow : addr -> block -> Z -> Z }.

(** dao-voting/src/proposal.rs:55-71 [MultipleChoiceProposeMsg].  [pm_active] is
    the voting module's answer to [IsActive] (lines 182-196), [pm_fits] whether
    the serialised proposal is within [MAX_PROPOSAL_SIZE] (lines 225-247). *)
Record propose_msg := ProposeMsg {
  pm_options : list (list Z);
  pm_proposer : option addr;
  pm_vote : option (ovote * option string);
  pm_active : bool;
  pm_fits : bool }.

(** [ExecuteMsg], dispatched at 92-147. *)
Inductive msg :=
| Propose (pm : propose_msg)
| CastVote (id : Z) (v : ovote) (rationale : option string)
| UpdateRationale (id : Z) (rationale : option string)
| Execute (id : Z)
| Veto (id : Z)
| Close (id : Z)
| UpdateConfig (c : config)
| UpdatePreProposeInfo (i : pre_propose_info)
| AddProposalHook (a : addr)
| RemoveProposalHook (a : addr)
| AddVoteHook (a : addr)
| RemoveVoteHook (a : addr).

Notation sub := (psub ovote).

(** proposal.rs:55-58 [VoteResult]. *)
Inductive vote_outcome := SingleWinner (c : choice) | Tie.

Definition max_list (l : weights) : option Z :=
  match l with [] => None | w :: l => Some (fold_left Z.max l w) end.

(** proposal.rs:216-248 [calculate_vote_result]. *)
Definition calculate_vote_result (p : proposal) : result vote_outcome :=
  some! m <- max_list (p_votes p) else "max vote weight";
  match filter (fun x : nat * Z => x.2 = m) (imap pair (p_votes p)) with
  | [] => Err "no votes found"
  | [(i, _)] =>
      some! c <- p_choices p !! i else "index out of bounds";
      Ok (SingleWinner c)
  | _ => Ok Tie
  end.

(** proposal.rs:252-285 [is_choice_unbeatable]. *)
Definition is_choice_unbeatable (p : proposal) (c : choice) : result bool :=
  some! power <- p_votes p !! ch_index c else "index out of bounds";
  some! second <- max_list (filter (fun w => w < power) (p_votes p))
    else "second highest vote weight";
  do! total <- weights_total (p_votes p);
  do! remaining <- sub128 (p_total p) total;
  do! reach <- add128 second remaining;
  if ch_none c then Ok (reach <=? power) else Ok (reach <? power).

(** proposal.rs:121-164 [is_passed]. *)
Definition is_passed (p : proposal) (b : block) : result bool :=
  if p_revote p && negb (is_expired (p_exp p) b) then Ok false
  else if (match p_min p with Some m => negb (is_expired m b) | None => false end)
  then Ok false
  else
    do! total <- weights_total (p_votes p);
    if does_vote_count_pass total (p_total p) (p_quorum p) then
      do! r <- calculate_vote_result p;
      match r with
      | Tie => Ok false
      | SingleWinner c =>
          if ch_none c then Ok false
          else if is_expired (p_exp p) b then Ok true
          else is_choice_unbeatable p c
      end
    else Ok false.

(** proposal.rs:166-213 [is_rejected]. *)
Definition is_rejected (p : proposal) (b : block) : result bool :=
  if p_revote p && negb (is_expired (p_exp p) b) then Ok false
  else
    do! r <- calculate_vote_result p;
    match r with
    | Tie =>
        if is_expired (p_exp p) b then Ok true
        else do! total <- weights_total (p_votes p); Ok (p_total p =? total)
    | SingleWinner c =>
        do! total <- weights_total (p_votes p);
        match does_vote_count_pass total (p_total p) (p_quorum p), is_expired (p_exp p) b with
        | true, true => Ok (ch_none c)
        | true, false | false, false =>
            if ch_none c then is_choice_unbeatable p c else Ok false
        | false, true => Ok true
        end
    end.

(** proposal.rs:75-106 [current_status]. *)
Definition current_status (p : proposal) (b : block) : result status :=
  match p_status p with
  | Open =>
      do! passed <- is_passed p b;
      if passed then
        match p_veto p with
        | Some vc =>
            do! e <- exp_add (p_exp p) (vc_timelock vc);
            if is_expired e b then Ok Passed else Ok (VetoTimelock e)
        | None => Ok Passed
        end
      else if is_expired (p_exp p) b then Ok Rejected
      else
        do! rejected <- is_rejected p b;
        if rejected then Ok Rejected else Ok Open
  | VetoTimelock e => if is_expired e b then Ok Passed else Ok (VetoTimelock e)
  | st => Ok st
  end.

Definition set_status (p : proposal) (st : status) : proposal :=
  Proposal (p_proposer p) (p_start p) (p_min p) (p_exp p) (p_quorum p) (p_total p)
    (p_choices p) st (p_votes p) (p_revote p) (p_veto p).
Definition set_votes (p : proposal) (v : weights) : proposal :=
  Proposal (p_proposer p) (p_start p) (p_min p) (p_exp p) (p_quorum p) (p_total p)
    (p_choices p) (p_status p) v (p_revote p) (p_veto p).

(** proposal.rs:109-113 [update_status]. *)
Definition update_status (p : proposal) (b : block) : result proposal :=
  do! st <- current_status p b; Ok (set_status p st).

Definition with_props (s : state) (ps : gmap Z proposal) : state :=
  State (s_cfg s) (s_count s) ps (s_ballots s) (s_policy s) (s_phooks s) (s_vhooks s).
Definition with_policy (s : state) (pol : creation_policy) : state :=
  State (s_cfg s) (s_count s) (s_props s) (s_ballots s) pol (s_phooks s) (s_vhooks s).
Definition with_phooks (s : state) (h : list addr) : state :=
  State (s_cfg s) (s_count s) (s_props s) (s_ballots s) (s_policy s) h (s_vhooks s).
Definition with_vhooks (s : state) (h : list addr) : state :=
  State (s_cfg s) (s_count s) (s_props s) (s_ballots s) (s_policy s) (s_phooks s) h.
Definition with_ballots (s : state) (bs : gmap (Z * addr) ballot) : state :=
  State (s_cfg s) (s_count s) (s_props s) bs (s_policy s) (s_phooks s) (s_vhooks s).
Definition with_cfg (s : state) (c : config) : state :=
  State c (s_count s) (s_props s) (s_ballots s) (s_policy s) (s_phooks s) (s_vhooks s).
Definition save_prop (s : state) (id : Z) (p : proposal) : state :=
  with_props s (<[id := p]> (s_props s)).

(** 366-466 [execute_vote]. *)
Definition execute_vote (O : oracle) (s : state) (b : block) (sender : addr)
    (id : Z) (v : ovote) (rationale : option string) : result (state * list sub) :=
  some! p <- s_props s !! id else "NoSuchProposal";
  check! (v <? length (p_choices p))%nat else "InvalidVote";
  check! negb (is_expired (p_exp p) b) else "Expired";
  let power := vp O (c_dao (s_cfg s)) sender (p_start p) in
  check! negb (power =? 0) else "NotRegistered";
  do! votes0 <-
    match s_ballots s !! (id, sender) with
    | Some cur =>
        if p_revote p then
          if decide (bl_vote cur = v) then Err "AlreadyCast"
          else remove_weight (p_votes p) (bl_vote cur) (bl_power cur)
        else Err "AlreadyVoted"
    | None => Ok (p_votes p)
    end;
  do! votes1 <- add_weight votes0 v power;
  do! p' <- update_status (set_votes p votes1) b;
  let s' := with_ballots (save_prop s id p')
              (<[(id, sender) := Ballot power v rationale]> (s_ballots s)) in
  Ok (s', proposal_status_changed_hooks (s_phooks s) id (p_status p) (p_status p')
          ++ new_vote_hooks (s_vhooks s) id sender v).

(** 169-180, the proposer rule. *)
Definition decide_proposer (pol : creation_policy) (sender : addr) (proposer : option addr)
  : result addr :=
  match proposer, pol with
  | None, Anyone => Ok sender
  | Some a, Module _ => Ok a
  | _, _ => Err "InvalidProposer"
  end.

(** 149-291 [execute_propose]. *)
Definition execute_propose (O : oracle) (s : state) (b : block) (sender : addr)
    (pm : propose_msg) : result (state * list sub) :=
  let c := s_cfg s in
  check! is_permitted (s_policy s) sender else "Unauthorized";
  do! proposer <- decide_proposer (s_policy s) sender (pm_proposer pm);
  check! pm_active pm else "InactiveDao";
  do! choices <- into_checked (pm_options pm);
  let id := s_count s + 1 in
  do! p <- update_status
    (Proposal proposer (height b) (option_map (fun d => after d b) (c_min c))
       (after (c_max c) b) (c_quorum c) (tnow O (c_dao c) b id) choices
       Open (weights_zero (length choices)) (c_revote c) (c_veto c)) b;
  check! pm_fits pm else "ProposalTooLarge";
  let s1 := State c id (<[id := p]> (s_props s)) (s_ballots s) (s_policy s)
                  (s_phooks s) (s_vhooks s) in
  let hooks := new_proposal_hooks (s_phooks s) id proposer in
  match pm_vote pm with
  | Some (v, rationale) =>
      do! ' (s2, vote_subs) <- execute_vote O s1 b proposer id v rationale;
      Ok (s2, hooks ++ vote_subs)
  | None => Ok (s1, hooks)
  end.

(** 697-725 [execute_update_rationale]. *)
Definition execute_update_rationale (s : state) (sender : addr) (id : Z)
    (rationale : option string) : result (state * list sub) :=
  some! cur <- s_ballots s !! (id, sender) else "NoSuchVote";
  Ok (with_ballots s
        (<[(id, sender) := Ballot (bl_power cur) (bl_vote cur) rationale]> (s_ballots s)), []).

(** The common tail of veto, execute and close: save the final status, fire the
    status-changed hooks and the completion hook. *)
Definition finish (s : state) (id : Z) (p : proposal) (st : status) : state * list sub :=
  (save_prop s id (set_status p st),
   proposal_status_changed_hooks (s_phooks s) id (p_status p) st
   ++ proposal_completed_hooks (s_policy s) id st).

(** 293-364 [execute_veto]. *)
Definition execute_veto (s : state) (b : block) (sender : addr) (id : Z)
  : result (state * list sub) :=
  some! p0 <- s_props s !! id else "NoSuchProposal";
  do! p <- update_status p0 b;
  some! vc <- p_veto p else "NoVetoConfiguration";
  do! _ <- check_is_vetoer vc sender;
  do! _ <-
    match p_status p with
    | Open => check_veto_before_passed_enabled vc
    | Passed => Err "TimelockExpired"
    | VetoTimelock e => if is_expired e b then Err "TimelockExpired" else Ok tt
    | _ => Err "InvalidProposalStatus"
    end;
  Ok (finish s id p Vetoed).

(** 480-491: may the sender execute a passed proposal. *)
Definition sender_can_execute (O : oracle) (s : state) (sender : addr) (p : proposal) : bool :=
  if c_only_members (s_cfg s)
  then negb (vp O (c_dao (s_cfg s)) sender (p_start p) =? 0) else true.

(** 468-584 [execute_execute]. *)
Definition execute_execute (O : oracle) (s : state) (b : block) (sender : addr) (id : Z)
  : result (state * list sub) :=
  some! p0 <- s_props s !! id else "NoSuchProposal";
  let can := sender_can_execute O s sender p0 in
  do! p <- update_status p0 b;
  do! _ <-
    match p_status p with
    | Passed => if can then Ok tt else Err "Unauthorized"
    | VetoTimelock _ =>
        some! vc <- p_veto p else "NoVetoConfiguration";
        if (vc_vetoer vc =? sender)%N then check_early_execute_enabled vc
        else if can then Err "Timelocked" else Err "Unauthorized"
    | _ => Err "NotPassed"
    end;
  do! r <- calculate_vote_result p;
  do! c <- match r with Tie => Err "Tie" | SingleWinner c => Ok c end;
  let exec := match ch_msgs c with
              | [] => []
              | ms => [SExec (c_dao (s_cfg s)) id ms (c_close_on_fail (s_cfg s))]
              end in
  let '(s', subs) := finish s id p Executed in
  Ok (s', exec ++ subs).

(** 586-624 [execute_close]. *)
Definition execute_close (s : state) (b : block) (id : Z) : result (state * list sub) :=
  some! p0 <- s_props s !! id else "NotFound";
  do! p <- update_status p0 b;
  check! bool_decide (p_status p = Rejected) else "WrongCloseStatus";
  Ok (finish s id p Closed).

(** Validation shared by 44-88 [instantiate] and 627-675 [execute_update_config]. *)
Definition validate_config (c : config) : result unit :=
  do! _ <- validate_quorum (c_quorum c);
  do! _ <- validate_voting_period (c_min c) (c_max c);
  validate_veto_opt (c_veto c) (c_max c).

(** 627-675 [execute_update_config]; the message carries all fields. *)
Definition execute_update_config (s : state) (sender : addr) (c : config)
  : result (state * list sub) :=
  check! (sender =? c_dao (s_cfg s))%N else "Unauthorized";
  do! _ <- validate_config c;
  Ok (with_cfg s c, []).

(** 677-695 [execute_update_proposal_creation_policy]. *)
Definition execute_update_policy (s : state) (sender : addr) (i : pre_propose_info)
  : result (state * list sub) :=
  check! (c_dao (s_cfg s) =? sender)%N else "Unauthorized";
  let '(pol, subs) := into_initial_policy_and_messages i in
  Ok (with_policy s pol, subs).

(** 727-809, the four hook administration calls. *)
Definition execute_add_proposal_hook (s : state) (sender a : addr) : result (state * list sub) :=
  check! (c_dao (s_cfg s) =? sender)%N else "Unauthorized";
  do! h <- add_hook (s_phooks s) a; Ok (with_phooks s h, []).
Definition execute_remove_proposal_hook (s : state) (sender a : addr) : result (state * list sub) :=
  check! (c_dao (s_cfg s) =? sender)%N else "Unauthorized";
  do! h <- remove_hook (s_phooks s) a; Ok (with_phooks s h, []).
Definition execute_add_vote_hook (s : state) (sender a : addr) : result (state * list sub) :=
  check! (c_dao (s_cfg s) =? sender)%N else "Unauthorized";
  do! h <- add_hook (s_vhooks s) a; Ok (with_vhooks s h, []).
Definition execute_remove_vote_hook (s : state) (sender a : addr) : result (state * list sub) :=
  check! (c_dao (s_cfg s) =? sender)%N else "Unauthorized";
  do! h <- remove_hook (s_vhooks s) a; Ok (with_vhooks s h, []).

(** 92-147 [execute]. *)
Definition handle (O : oracle) (s : state) (b : block) (sender : addr) (m : msg)
  : result (state * list sub) :=
  match m with
  | Propose pm => execute_propose O s b sender pm
  | CastVote id v r => execute_vote O s b sender id v r
  | UpdateRationale id r => execute_update_rationale s sender id r
  | Execute id => execute_execute O s b sender id
  | Veto id => execute_veto s b sender id
  | Close id => execute_close s b id
  | UpdateConfig c => execute_update_config s sender c
  | UpdatePreProposeInfo i => execute_update_policy s sender i
  | AddProposalHook a => execute_add_proposal_hook s sender a
  | RemoveProposalHook a => execute_remove_proposal_hook s sender a
  | AddVoteHook a => execute_add_vote_hook s sender a
  | RemoveVoteHook a => execute_remove_vote_hook s sender a
  end.

(** 986-1051 [reply], on the decoded id; [d] is the address of the contract
    instantiated by the sub-message. *)
Definition reply (s : state) (t : tagged_reply) (d : addr) : result state :=
  match t with
  | FailedProposalExecution id =>
      some! p <- s_props s !! id else "NoSuchProposal";
      Ok (save_prop s id (set_status p ExecutionFailed))
  | FailedProposalHook i =>
      do! h <- remove_hook_by_index (s_phooks s) (Z.to_nat i); Ok (with_phooks s h)
  | FailedVoteHook i =>
      do! h <- remove_hook_by_index (s_vhooks s) (Z.to_nat i); Ok (with_vhooks s h)
  | PreProposeModuleInstantiation => Ok (with_policy s (Module d))
  | FailedPreProposeModuleHook =>
      match s_policy s with
      | Anyone => Err "InvalidReplyID"
      | Module _ => Ok (with_policy s Anyone)
      end
  end.

(** A failing sub-message: caught by [reply] if it was sent with
    [reply_on_error], otherwise the whole call fails.  The reply id is passed
    in decoded form; encoding and decoding agree for ids below 2^61 (C20). *)
Definition on_fail (s : state) (b : block) (x : sub) : result state :=
  match x with
  | SExec _ id _ true => reply s (FailedProposalExecution id) 0%N
  | SExec _ _ _ false => Err "sub-message failed"
  | SPropHook i _ _ => reply s (FailedProposalHook (Z.of_nat i)) 0%N
  | SVoteHook i _ _ _ _ => reply s (FailedVoteHook (Z.of_nat i)) 0%N
  | SCompleted _ _ _ => reply s FailedPreProposeModuleHook 0%N
  | SInstantiate _ => Err "sub-message failed"
  end.
(** A succeeding sub-message: only the pre-propose instantiation replies. *)
Definition on_ok (s : state) (b : block) (x : sub) (d : addr) : result state :=
  match x with
  | SInstantiate _ => reply s PreProposeModuleInstantiation d
  | _ => Ok s
  end.

(** 44-88 [instantiate]: the DAO is the sender.  The pre-propose instantiation
    sub-message is handled like the one of [UpdatePreProposeInfo]. *)
Definition instantiate (sender : addr) (c : config) (i : pre_propose_info)
  : result (state * list sub) :=
  do! _ <- validate_config c;
  let c' := Config (c_quorum c) (c_max c) (c_min c) (c_only_members c) (c_revote c)
                   sender (c_close_on_fail c) (c_veto c) in
  let '(pol, subs) := into_initial_policy_and_messages i in
  Ok (State c' 0 ∅ ∅ pol [] [], subs).

(** 881-884 [query_proposal]: the reported status. *)
Definition query_status (s : state) (b : block) (id : Z) : result status :=
  some! p <- s_props s !! id else "NotFound"; current_status p b.
