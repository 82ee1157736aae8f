(** dao-proposal-single (as in [SingleModel]) in a DAO that exchanges its voting module.

    - The proposal module asks the DAO for voting powers (packages/dao-voting/src/voting.rs:203-225),
      and the DAO passes the query on to the voting module it has at that moment
      (contracts/dao-dao-core/src/contract.rs:719-738).
    - The DAO alone can exchange it: contracts/dao-dao-core/src/contract.rs:335-350
      [execute_update_voting_module] instantiates the new module, and the reply at 1012-1019 records its
      address.  Here both are one message.

    [O v] is what the voting module at address [v] answers about heights: a module on an existing
    staking contract, group or collection also knows the past before its own creation.  The rest of
    the DAO is left out (see [DaoModel]); the DAO's messages are calls with its address as sender. *)
From stdpp Require Import gmap strings numbers.
From Verif Require Import Base Exec VotingModel HooksModel SingleModel.

Record xstate := XState { x_s : state; x_mod : addr }.
Inductive xmsg :=
| XSingle (m : msg)          (* somebody calls the proposal module *)
| XExchange (v : addr).      (* the DAO makes and installs the voting module [v] *)

Definition xhandle (O : addr -> oracle) (xs : xstate) (b : block) (sender : addr) (m : xmsg)
  : result (xstate * list sub) :=
  match m with
  | XSingle m =>
      do! ' (s, subs) <- handle (O (x_mod xs)) (x_s xs) b sender m;
      Ok (XState s (x_mod xs), subs)
  | XExchange v =>
      check! (sender =? c_dao (s_cfg (x_s xs)))%N else "Unauthorized";
      Ok (XState (x_s xs) v, [])
  end.
Definition xon_fail (xs : xstate) (b : block) (x : sub) : result xstate :=
  do! s <- on_fail (x_s xs) b x; Ok (XState s (x_mod xs)).
Definition xon_ok (xs : xstate) (b : block) (x : sub) (d : addr) : result xstate :=
  do! s <- on_ok (x_s xs) b x d; Ok (XState s (x_mod xs)).

(** contracts/proposal/dao-proposal-single/src/contract.rs:870-889 [query_list_proposals] and
    proposal.rs:68-71 [into_response]: the reported statuses of a page of proposals, in the order
    of their ids, which are 1 to the count (C14). *)
Fixpoint responses (b : block) (l : list (Z * proposal)) : result (list (Z * status)) :=
  match l with
  | [] => Ok []
  | (id, p) :: t =>
      do! st <- current_status p b; do! r <- responses b t; Ok ((id, st) :: r)
  end.
Definition query_list (s : state) (b : block) (start_after : Z) (limit : nat)
  : result (list (Z * status)) :=
  responses b
    (take limit
       (omap (fun id => option_map (pair id) (s_props s !! id))
          (seqZ (start_after + 1) (s_count s - start_after)))).
