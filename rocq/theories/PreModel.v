(** Model of the pre-propose modules:
    - packages/dao-pre-propose-base/src/{execute,helpers,state}.rs,
    - packages/dao-voting/src/{deposit,pre_propose}.rs,
    - contracts/pre-propose/dao-pre-propose-single/src/contract.rs,
    - contracts/pre-propose/dao-pre-propose-approval-single/src/{contract,state}.rs,
    and of one such module joined to a dao-proposal-single module.

    Line numbers without a file name refer to
    packages/dao-pre-propose-base/src/execute.rs. *)
From stdpp Require Import sorting.
From Verif Require Import Base Exec VotingModel HooksModel StoreModel SingleModel.

(** ** Deposits *)

(** cw-denom [CheckedDenom]: a native denomination or a cw20 contract. *)
Inductive denom := Native (d : N) | Cw20 (a : addr).
Global Instance denom_eq_dec : EqDecision denom.
Proof. solve_decision. Defined.

(** dao-voting/src/deposit.rs:66-74 [DepositRefundPolicy]. *)
Inductive refund := Always | OnlyPassed | Never.
Global Instance refund_eq_dec : EqDecision refund.
Proof. solve_decision. Defined.

(** deposit.rs:76-90 [CheckedDepositInfo]. *)
Record deposit := Deposit { d_denom : denom; d_amount : Z; d_refund : refund }.

(** deposit.rs:92-149 [into_checked].  Resolving the denomination queries other
    contracts; a failing resolution fails the call, so the message carries the
    resolved denomination. *)
Definition into_checked (d : deposit) : result deposit :=
  check! negb (d_amount d =? 0) else "ZeroDeposit"; Ok d.

(** deposit.rs:153-179 [check_native_deposit_paid]. *)
Definition check_native_deposit_paid (d : deposit) (funds : list (N * Z)) : result unit :=
  match d_denom d with
  | Native x =>
      do! paid <- must_pay funds x;
      check! paid =? d_amount d else "InvalidDeposit"; Ok tt
  | Cw20 _ => Ok tt
  end.

(** ** Submission policy *)

(** dao-voting/src/pre_propose.rs:69-85 [PreProposeSubmissionPolicy]. *)
Inductive submission :=
| SAnyone (denylist : list addr)
| SSpecific (dao_members : bool) (allowlist denylist : list addr).

Definition contains (l : list addr) (a : addr) : bool := existsb (N.eqb a) l.

(** pre_propose.rs:104-130 [validate]. *)
Definition validate_submission (p : submission) : result unit :=
  match p with
  | SAnyone _ => Ok tt
  | SSpecific members allow deny =>
      check! negb (existsb (contains allow) deny) else "DenylistAllowlistOverlap";
      check! members || negb (match allow with [] => true | _ => false end)
        else "NoOneAllowed";
      Ok tt
  end.

(** [Vec::dedup]: drop an element equal to its predecessor. *)
Fixpoint dedup (l : list addr) : list addr :=
  match l with
  | [] => []
  | a :: t =>
      match dedup t with
      | [] => [a]
      | c :: t' => if (a =? c)%N then c :: t' else a :: c :: t'
      end
  end.
(** helpers.rs:5-32 [add_and_remove_addresses].  Addresses are compared as
    numbers instead of strings; only membership in the result is observable. *)
Definition add_and_remove (l : list addr) (add rem : option (list addr)) : list addr :=
  let l1 := match add with
            | Some x => dedup (merge_sort N.le (l ++ x))
            | None => l
            end in
  match rem with
  | Some x => List.filter (fun a => negb (contains x a)) l1
  | None => l1
  end.

(** 457-501 [check_can_submit]; [power] is the DAO's answer for the voting power
    of [who] at the latest height. *)
Definition check_can_submit (p : submission) (who : addr) (power : Z) : result unit :=
  match p with
  | SAnyone deny => if negb (contains deny who) then Ok tt else Err "Unauthorized"
  | SSpecific members allow deny =>
      if negb (contains deny who) then
        if contains allow who then Ok tt
        else if members then
          if negb (power =? 0) then Ok tt else Err "Unauthorized"
        else Err "Unauthorized"
      else Err "Unauthorized"
  end.

(** ** State *)

(** Which contract: dao-pre-propose-single or dao-pre-propose-approval-single. *)
Inductive kind := Plain | Approval.

(** approval-single/src/state.rs:8-36. *)
Inductive appr_status := APending | AApproved (created : Z) | ARejected.
Record appr := Appr {
  a_status : appr_status;
  a_id : Z;
  a_proposer : addr;
  a_msg : propose_msg;
  a_deposit : option deposit }.

(** packages/dao-pre-propose-base/src/state.rs:21-50 and, for the approval
    contract, approval-single/src/state.rs:38-51. *)
Record pstate := PState {
  q_kind : kind;
  q_module : addr;
  q_dao : addr;
  q_deposit : option deposit;
  q_policy : submission;
  q_deposits : gmap Z (option deposit * addr);
  q_hooks : list addr;
  q_approver : addr;
  q_pending : gmap Z appr;
  q_completed : gmap Z appr;
  q_created : gmap Z Z;
  q_current : Z }.

Definition q_with_config (q : pstate) (d : option deposit) (p : submission) : pstate :=
  PState (q_kind q) (q_module q) (q_dao q) d p (q_deposits q) (q_hooks q) (q_approver q)
    (q_pending q) (q_completed q) (q_created q) (q_current q).
Definition q_with_deposits (q : pstate) (m : gmap Z (option deposit * addr)) : pstate :=
  PState (q_kind q) (q_module q) (q_dao q) (q_deposit q) (q_policy q) m (q_hooks q)
    (q_approver q) (q_pending q) (q_completed q) (q_created q) (q_current q).
Definition q_with_hooks (q : pstate) (h : list addr) : pstate :=
  PState (q_kind q) (q_module q) (q_dao q) (q_deposit q) (q_policy q) (q_deposits q) h
    (q_approver q) (q_pending q) (q_completed q) (q_created q) (q_current q).
Definition q_with_approver (q : pstate) (a : addr) : pstate :=
  PState (q_kind q) (q_module q) (q_dao q) (q_deposit q) (q_policy q) (q_deposits q)
    (q_hooks q) a (q_pending q) (q_completed q) (q_created q) (q_current q).
Definition q_with_flow (q : pstate) (p c : gmap Z appr) (cr : gmap Z Z) (n : Z) : pstate :=
  PState (q_kind q) (q_module q) (q_dao q) (q_deposit q) (q_policy q) (q_deposits q)
    (q_hooks q) (q_approver q) p c cr n.

(** ** Messages *)

(** [ExecuteMsg]; [PExtension] is any extension message of the plain module.
    The [proposer] field of a submitted message is not exposed to callers. *)
Inductive pmsg :=
| PPropose (pm : propose_msg)
| PUpdateConfig (d : option deposit) (p : option submission)
| PUpdatePolicy (deny_add deny_rem : option (list addr)) (members : option bool)
                (allow_add allow_rem : option (list addr))
| PWithdraw (d : option denom)
| PAddHook (a : addr)
| PRemoveHook (a : addr)
| PCompleted (id : Z) (st : status)
| PApprove (id : Z)
| PReject (id : Z)
| PUpdateApprover (a : addr)
| PExtension.

(** What the chain tells the module during a call: attached native coins, the
    sender's current voting power, the module's balance of the denomination
    being withdrawn, and the proposal module's answer to [NextProposalId]. *)
Record penv := PEnv {
  e_funds : list (N * Z); e_power : Z; e_balance : Z; e_next : Z }.

(** What a deposit is for.  These tags are not part of the Rust messages: they
    say which call emitted a message. *)
Inductive key := KProp (id : Z) | KAppr (id : Z).
Inductive reason := RCompleted (id : Z) | RRejected (id : Z) | RWithdraw.
Global Instance key_eq_dec : EqDecision key.
Proof. solve_decision. Defined.
Global Instance reason_eq_dec : EqDecision reason.
Proof. solve_decision. Defined.

(** The message a submitted-hook receiver gets. *)
Inductive hook_msg := HPropose (pm : propose_msg) | HApproval (id : Z).

(** Messages emitted; all of them uncaught ([add_message], [SubMsg::new]). *)
Inductive xsub :=
| XPropose (pm : propose_msg)
| XHook (receiver : addr) (m : hook_msg)
| XTake (k : key) (token owner : addr) (amount : Z)
| XPay (why : reason) (d : denom) (recipient : addr) (amount : Z).

(** deposit.rs:181-214 [get_take_deposit_messages]. *)
Definition take_messages (k : key) (d : deposit) (depositor : addr) : list xsub :=
  match d_denom d with
  | Cw20 t => if d_amount d =? 0 then [] else [XTake k t depositor (d_amount d)]
  | Native _ => []
  end.
(** deposit.rs:216-223 [get_return_deposit_message]. *)
Definition return_messages (why : reason) (d : deposit) (a : addr) : list xsub :=
  if d_amount d =? 0 then [] else [XPay why (d_denom d) a (d_amount d)].

(** The proposer is the sender: dao-pre-propose-single contract.rs:75-93,
    approval-single contract.rs:92-106. *)
Definition with_proposer (pm : propose_msg) (a : addr) : propose_msg :=
  ProposeMsg (pm_msgs pm) (Some a) (pm_vote pm) (pm_active pm) (pm_fits pm).

(** 145-150, the deposit part of a submission. *)
Definition deposit_part (q : pstate) (e : penv) (k : key) (sender : addr)
  : result (list xsub) :=
  match q_deposit q with
  | Some d =>
      do! _ <- check_native_deposit_paid d (e_funds e);
      Ok (take_messages k d sender)
  | None => Ok []
  end.

(** 134-193 [execute_propose]. *)
Definition pre_propose (q : pstate) (e : penv) (sender : addr) (pm : propose_msg)
  : result (pstate * list xsub) :=
  do! _ <- check_can_submit (q_policy q) sender (e_power e);
  do! takes <- deposit_part q e (KProp (e_next e)) sender;
  let pm' := with_proposer pm sender in
  Ok (q_with_deposits q (<[e_next e := (q_deposit q, sender)]> (q_deposits q)),
      XPropose pm' :: map (fun a => XHook a (HPropose pm')) (q_hooks q) ++ takes).

(** approval-single contract.rs:71-145 [execute_propose]. *)
Definition appr_propose (q : pstate) (e : penv) (sender : addr) (pm : propose_msg)
  : result (pstate * list xsub) :=
  do! _ <- check_can_submit (q_policy q) sender (e_power e);
  let id := q_current q + 1 in
  do! takes <- deposit_part q e (KAppr id) sender;
  let p := Appr APending id sender (with_proposer pm sender) (q_deposit q) in
  Ok (q_with_flow q (<[id := p]> (q_pending q)) (q_completed q) (q_created q) id,
      takes ++ map (fun a => XHook a (HApproval id)) (q_hooks q)).

(** 195-232 [execute_update_config]. *)
Definition pre_update_config (q : pstate) (sender : addr) (d : option deposit)
    (p : option submission) : result (pstate * list xsub) :=
  check! (sender =? q_dao q)%N else "NotDao";
  do! d' <- match d with
            | Some d => do! d' <- into_checked d; Ok (Some d')
            | None => Ok None
            end;
  do! _ <- match p with Some p => validate_submission p | None => Ok tt end;
  Ok (q_with_config q d' (match p with Some p => p | None => q_policy q end), []).

(** 235-311 [execute_update_submission_policy]. *)
Definition pre_update_policy (q : pstate) (sender : addr)
    (deny_add deny_rem : option (list addr)) (members : option bool)
    (allow_add allow_rem : option (list addr)) : result (pstate * list xsub) :=
  check! (sender =? q_dao q)%N else "NotDao";
  do! p <- match q_policy q with
           | SAnyone deny =>
               match members, allow_add, allow_rem with
               | None, None, None => Ok (SAnyone (add_and_remove deny deny_add deny_rem))
               | _, _, _ => Err "AnyoneInvalidUpdateFields"
               end
           | SSpecific mem allow deny =>
               Ok (SSpecific (match members with Some x => x | None => mem end)
                     (add_and_remove allow allow_add allow_rem)
                     (add_and_remove deny deny_add deny_rem))
           end;
  do! _ <- validate_submission p;
  Ok (q_with_config q (q_deposit q) p, []).

(** 313-348 [execute_withdraw]. *)
Definition pre_withdraw (q : pstate) (e : penv) (sender : addr) (d : option denom)
  : result (pstate * list xsub) :=
  check! (sender =? q_dao q)%N else "NotDao";
  some! d' <- match d with Some d => Some d | None => option_map d_denom (q_deposit q) end
    else "NoWithdrawalDenom";
  check! negb (e_balance e =? 0) else "NothingToWithdraw";
  Ok (q, [XPay RWithdraw d' (q_dao q) (e_balance e)]).

(** 350-386, and approval-single contract.rs:282-340, where the approver may
    manage the hooks too. *)
Definition hook_admin (q : pstate) (sender : addr) : bool :=
  match q_kind q with
  | Plain => (sender =? q_dao q)%N
  | Approval => (q_approver q =? sender)%N || (q_dao q =? sender)%N
  end.
Definition pre_add_hook (q : pstate) (sender a : addr) : result (pstate * list xsub) :=
  check! hook_admin q sender else "Unauthorized";
  do! h <- add_hook (q_hooks q) a; Ok (q_with_hooks q h, []).
Definition pre_remove_hook (q : pstate) (sender a : addr) : result (pstate * list xsub) :=
  check! hook_admin q sender else "Unauthorized";
  do! h <- remove_hook (q_hooks q) a; Ok (q_with_hooks q h, []).

(** 388-455 [execute_proposal_completed_hook]. *)
Definition should_refund (st : status) (r : refund) : bool :=
  match st, r with
  | Executed, OnlyPassed => true
  | _, OnlyPassed => false
  | _, Always => true
  | _, Never => false
  end.
Definition pre_completed (q : pstate) (sender : addr) (id : Z) (st : status)
  : result (pstate * list xsub) :=
  check! (sender =? q_module q)%N else "NotModule";
  check! bool_decide (st = Closed \/ st = Executed \/ st = Vetoed) else "NotCompleted";
  match q_deposits q !! id with
  | Some (Some d, proposer) =>
      Ok (q, return_messages (RCompleted id) d
               (if should_refund st (d_refund d) then proposer else q_dao q))
  | Some (None, _) => Ok (q, [])
  | None => Ok (q, [])
  end.

(** approval-single contract.rs:147-206 [execute_approve]. *)
Definition appr_approve (q : pstate) (e : penv) (sender : addr) (id : Z)
  : result (pstate * list xsub) :=
  check! (q_approver q =? sender)%N else "Unauthorized";
  some! p <- q_pending q !! id else "ProposalNotFound";
  let pid := e_next e in
  let q1 := q_with_deposits q (<[pid := (a_deposit p, a_proposer p)]> (q_deposits q)) in
  let done := Appr (AApproved pid) (a_id p) (a_proposer p) (a_msg p) (a_deposit p) in
  Ok (q_with_flow q1 (delete id (q_pending q)) (<[id := done]> (q_completed q))
        (<[pid := id]> (q_created q)) (q_current q),
      [XPropose (a_msg p)]).

(** approval-single contract.rs:208-262 [execute_reject]. *)
Definition appr_reject (q : pstate) (sender : addr) (id : Z)
  : result (pstate * list xsub) :=
  check! (q_approver q =? sender)%N else "Unauthorized";
  some! p <- q_pending q !! id else "ProposalNotFound";
  let done := Appr ARejected (a_id p) (a_proposer p) (a_msg p) (a_deposit p) in
  Ok (q_with_flow q (delete id (q_pending q)) (<[id := done]> (q_completed q))
        (q_created q) (q_current q),
      match a_deposit p with
      | Some d =>
          return_messages (RRejected id) d
            (if decide (d_refund d = Always) then a_proposer p else q_dao q)
      | None => []
      end).

(** approval-single contract.rs:264-280 [execute_update_approver]. *)
Definition appr_update_approver (q : pstate) (sender a : addr)
  : result (pstate * list xsub) :=
  check! (q_approver q =? sender)%N else "Unauthorized";
  Ok (q_with_approver q a, []).

(** 88-132 [execute] for the plain module, approval-single contract.rs:45-69 for
    the approval module.  The plain module ignores extension messages; the
    three named ones do not exist there. *)
Definition pre_handle (q : pstate) (e : penv) (sender : addr) (m : pmsg)
  : result (pstate * list xsub) :=
  match m with
  | PPropose pm =>
      match q_kind q with
      | Plain => pre_propose q e sender pm
      | Approval => appr_propose q e sender pm
      end
  | PUpdateConfig d p => pre_update_config q sender d p
  | PUpdatePolicy da dr mem aa ar => pre_update_policy q sender da dr mem aa ar
  | PWithdraw d => pre_withdraw q e sender d
  | PAddHook a => pre_add_hook q sender a
  | PRemoveHook a => pre_remove_hook q sender a
  | PCompleted id st => pre_completed q sender id st
  | PApprove id =>
      match q_kind q with Plain => Err "parse" | Approval => appr_approve q e sender id end
  | PReject id =>
      match q_kind q with Plain => Err "parse" | Approval => appr_reject q sender id end
  | PUpdateApprover a =>
      match q_kind q with Plain => Err "parse" | Approval => appr_update_approver q sender a end
  | PExtension => match q_kind q with Plain => Ok (q, []) | Approval => Err "parse" end
  end.

(** 41-86 [instantiate] (called by the proposal module, whose DAO is [dao]) and
    approval-single contract.rs:30-42. *)
Definition pre_instantiate (k : kind) (pm_addr dao : addr) (d : option deposit)
    (p : submission) (approver : addr) : result pstate :=
  do! d' <- match d with
            | Some d => do! d' <- into_checked d; Ok (Some d')
            | None => Ok None
            end;
  do! _ <- validate_submission p;
  Ok (PState k pm_addr dao d' p ∅ [] approver ∅ ∅ ∅ 0).

(** ** A pre-propose module joined to its proposal module

    The two contracts run in one system.  The propose message of a pre-propose
    call is the first sub-message of that call, so it runs immediately after the
    handler with nothing in between: the joint handler runs both, and the
    sub-messages of the proposal module come before the remaining ones of the
    pre-propose module, which is the order in which the chain runs them.  The
    completion hook of the proposal module calls the pre-propose module when it
    is delivered; if that call (or the transfer it emits) fails the proposal
    module catches the failure.

    [j_taken] and [j_paid] record the transfers into and out of the pre-propose
    module; no code reads them. *)
Record taken := Taken { tk_key : key; tk_denom : denom; tk_from : addr; tk_amount : Z }.
Record paid := Paid { pd_why : reason; pd_denom : denom; pd_to : addr; pd_amount : Z }.

Record jstate := JState {
  j_self : addr;
  j_s : state;
  j_q : pstate;
  j_taken : list taken;
  j_paid : list paid }.

Inductive jmsg := JSingle (m : msg) | JPre (e : penv) (m : pmsg).
Inductive jsub := FromSingle (x : psub vote) | FromPre (x : xsub).

(** Native coins arrive with the submission itself. *)
Definition native_taken (q : pstate) (e : penv) (sender : addr) (m : pmsg) : list taken :=
  match m, q_deposit q with
  | PPropose _, Some d =>
      match d_denom d with
      | Native x =>
          let k := match q_kind q with
                   | Plain => KProp (e_next e) | Approval => KAppr (q_current q + 1)
                   end in
          map (fun c => Taken k (Native c.1) sender c.2) (e_funds e)
      | Cw20 _ => []
      end
  | _, _ => []
  end.

Definition jhandle (O : oracle) (j : jstate) (b : block) (sender : addr) (m : jmsg)
  : result (jstate * list jsub) :=
  match m with
  | JSingle m =>
      do! ' (s', subs) <- handle O (j_s j) b sender m;
      Ok (JState (j_self j) s' (j_q j) (j_taken j) (j_paid j), map FromSingle subs)
  | JPre e0 m =>
      (* the proposal module calls the pre-propose module only through its
         completion hook, see [jon_ok] *)
      check! negb (sender =? q_module (j_q j))%N else "not a proposal module call";
      let e := PEnv (e_funds e0) (e_power e0) (e_balance e0) (s_count (j_s j) + 1) in
      do! ' (q', subs) <- pre_handle (j_q j) e sender m;
      let tk := j_taken j ++ native_taken (j_q j) e sender m in
      match subs with
      | XPropose pm :: rest =>
          do! ' (s', ssubs) <- handle O (j_s j) b (j_self j) (Propose pm);
          Ok (JState (j_self j) s' q' tk (j_paid j),
              map FromSingle ssubs ++ map FromPre rest)
      | _ => Ok (JState (j_self j) (j_s j) q' tk (j_paid j), map FromPre subs)
      end
  end.

Definition pays (l : list xsub) : list paid :=
  flat_map (fun x => match x with XPay w d a n => [Paid w d a n] | _ => [] end) l.

Definition jon_fail (j : jstate) (b : block) (x : jsub) : result jstate :=
  match x with
  | FromSingle x =>
      do! s' <- on_fail (j_s j) b x;
      Ok (JState (j_self j) s' (j_q j) (j_taken j) (j_paid j))
  | FromPre _ => Err "sub-message failed"
  end.

Definition jon_ok (j : jstate) (b : block) (x : jsub) (d : addr) : result jstate :=
  match x with
  | FromSingle x =>
      do! s' <- on_ok (j_s j) b x d;
      match x with
      | SCompleted a id st =>
          if (a =? j_self j)%N then
            do! ' (q', subs) <- pre_handle (j_q j) (PEnv [] 0 0 0) (q_module (j_q j))
                                  (PCompleted id st);
            Ok (JState (j_self j) s' q' (j_taken j) (j_paid j ++ pays subs))
          else Ok (JState (j_self j) s' (j_q j) (j_taken j) (j_paid j))
      | _ => Ok (JState (j_self j) s' (j_q j) (j_taken j) (j_paid j))
      end
  | FromPre (XTake k t o n) =>
      Ok (JState (j_self j) (j_s j) (j_q j) (j_taken j ++ [Taken k (Cw20 t) o n]) (j_paid j))
  | FromPre (XPay w dn a n) =>
      Ok (JState (j_self j) (j_s j) (j_q j) (j_taken j) (j_paid j ++ [Paid w dn a n]))
  | FromPre _ => Ok j
  end.
