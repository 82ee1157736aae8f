(** Model of packages/cw-hooks, packages/dao-hooks/src/{proposal,vote}.rs and
    packages/dao-voting/src/reply.rs: hook lists, the sub-messages a proposal
    module emits, and the reply ids they carry. *)
From Verif Require Import Base VotingModel.

(** ** Hook lists (cw-hooks/src/lib.rs).  The stored item is the list; an item
    that was never saved reads as the empty list (lines 35, 70-73). *)

(** lib.rs:34-42 [add_hook]. *)
Definition add_hook (hooks : list addr) (a : addr) : result (list addr) :=
  if existsb (N.eqb a) hooks then Err "HookAlreadyRegistered" else Ok (hooks ++ [a]).

(** [Vec::remove(position)] of the first occurrence. *)
Fixpoint remove_first (a : addr) (hooks : list addr) : list addr :=
  match hooks with
  | [] => []
  | h :: t => if (a =? h)%N then t else h :: remove_first a t
  end.
(** lib.rs:44-52 [remove_hook].  An item that was never saved errors with "not
    found" instead of [HookNotRegistered]; both are errors. *)
Definition remove_hook (hooks : list addr) (a : addr) : result (list addr) :=
  if existsb (N.eqb a) hooks then Ok (remove_first a hooks)
  else Err "HookNotRegistered".

(** lib.rs:54-63 [remove_hook_by_index]; [Vec::remove] panics out of bounds. *)
Definition remove_hook_by_index (hooks : list addr) (i : nat) : result (list addr) :=
  if (i <? length hooks)%nat then Ok (take i hooks ++ drop (S i) hooks)
  else Err "panic".

(** ** Reply ids (dao-voting/src/reply.rs) *)

(** reply.rs:25-36 [TaggedReplyId]. *)
Inductive tagged_reply :=
| FailedProposalExecution (id : Z)
| FailedProposalHook (i : Z)
| FailedVoteHook (i : Z)
| FailedPreProposeModuleHook
| PreProposeModuleInstantiation.

(** [x << 3] on [u64]: the three top bits are dropped. *)
Definition shl3 (x : Z) : Z := Z.shiftl x 3 mod 2 ^ 64.

(** reply.rs:60-77 and constants at 3-14. *)
Definition mask_proposal_execution_proposal_id (id : Z) : Z := Z.lor 0 (shl3 id).
Definition mask_proposal_hook_index (i : Z) : Z := Z.lor 1 (shl3 i).
Definition mask_vote_hook_index (i : Z) : Z := Z.lor 2 (shl3 i).
Definition pre_propose_module_instantiation_id : Z := 3.
Definition failed_pre_propose_module_hook_id : Z := 4.

(** reply.rs:42-55 [TaggedReplyId::new]. *)
Definition tagged_new (id : Z) : result tagged_reply :=
  let reply_type := Z.land id 7 in
  let n := Z.shiftr id 3 in
  if reply_type =? 0 then Ok (FailedProposalExecution n)
  else if reply_type =? 1 then Ok (FailedProposalHook n)
  else if reply_type =? 2 then Ok (FailedVoteHook n)
  else if reply_type =? 3 then Ok PreProposeModuleInstantiation
  else if reply_type =? 4 then Ok FailedPreProposeModuleHook
  else Err "UnknownReplyId".

(** The id under which a sub-message of each kind is sent. *)
Definition reply_id_of (t : tagged_reply) : Z :=
  match t with
  | FailedProposalExecution id => mask_proposal_execution_proposal_id id
  | FailedProposalHook i => mask_proposal_hook_index i
  | FailedVoteHook i => mask_vote_hook_index i
  | FailedPreProposeModuleHook => failed_pre_propose_module_hook_id
  | PreProposeModuleInstantiation => pre_propose_module_instantiation_id
  end.

(** ** Sub-messages emitted by a proposal module *)

(** dao-hooks/src/proposal.rs:13-24 [ProposalHookMsg]. *)
Inductive proposal_hook_msg :=
| NewProposal (id : Z) (proposer : addr)
| ProposalStatusChanged (id : Z) (old_status new_status : status).

(** [V] is the type of a vote ([vote] or an option id).  DAO messages are opaque
    ([Z]); only their identity and order matter to a proposal module. *)
Inductive psub (V : Type) :=
(** Execution of a passed proposal's messages by the DAO; [caught] says whether
    it was sent with [reply_on_error] (contract.rs:416-434 of proposal-single). *)
| SExec (dao : addr) (id : Z) (msgs : list Z) (caught : bool)
(** dao-hooks/src/proposal.rs: [reply_on_error] with the masked index. *)
| SPropHook (i : nat) (receiver : addr) (m : proposal_hook_msg)
(** dao-hooks/src/vote.rs. *)
| SVoteHook (i : nat) (receiver : addr) (id : Z) (voter : addr) (v : V)
(** dao-hooks/src/proposal.rs:100-124 to the pre-propose module. *)
| SCompleted (receiver : addr) (id : Z) (st : status)
(** dao-voting/src/pre_propose.rs:45-62, [reply_on_success]. *)
| SInstantiate (info : Z).
Arguments SExec {V} dao id msgs caught.
Arguments SPropHook {V} i receiver m.
Arguments SVoteHook {V} i receiver id voter v.
Arguments SCompleted {V} receiver id st.
Arguments SInstantiate {V} info.

(** dao-hooks/src/proposal.rs:29-56 [new_proposal_hooks]. *)
Definition new_proposal_hooks {V} (hooks : list addr) (id : Z) (proposer : addr)
  : list (psub V) :=
  imap (fun i a => SPropHook i a (NewProposal id proposer)) hooks.

(** dao-hooks/src/proposal.rs:61-93 [proposal_status_changed_hooks].  Statuses
    are compared as strings in Rust; [Display] is injective on statuses. *)
Definition proposal_status_changed_hooks {V} (hooks : list addr) (id : Z)
    (old_status new_status : status) : list (psub V) :=
  if decide (old_status = new_status) then []
  else imap (fun i a => SPropHook i a (ProposalStatusChanged id old_status new_status)) hooks.

(** dao-hooks/src/vote.rs:19-43 [new_vote_hooks]. *)
Definition new_vote_hooks {V} (hooks : list addr) (id : Z) (voter : addr) (v : V)
  : list (psub V) :=
  imap (fun i a => SVoteHook i a id voter v) hooks.

(** dao-hooks/src/proposal.rs:100-124 [proposal_completed_hooks]. *)
Definition proposal_completed_hooks {V} (pol : creation_policy) (id : Z) (st : status)
  : list (psub V) :=
  match pol with Anyone => [] | Module a => [SCompleted a id st] end.

(** dao-voting/src/pre_propose.rs:12-20 [PreProposeInfo]; the instantiation
    message is opaque. *)
Inductive pre_propose_info := AnyoneMayPropose | ModuleMayPropose (info : Z).
(** pre_propose.rs:45-62 [into_initial_policy_and_messages]. *)
Definition into_initial_policy_and_messages {V} (i : pre_propose_info)
  : creation_policy * list (psub V) :=
  match i with
  | AnyoneMayPropose => (Anyone, [])
  | ModuleMayPropose info => (Anyone, [SInstantiate info])
  end.
