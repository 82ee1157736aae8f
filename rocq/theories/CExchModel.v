(** dao-proposal-condorcet (as in [CondModel]) in a DAO that exchanges its voting module; as
    [MExchModel] for multiple choice.

    - Powers are asked of the DAO for the height at which the proposal was made when somebody votes or
      executes (contracts/proposal/dao-proposal-condorcet/src/contract.rs:150-155, 187-192), the total
      when it is made (115); the DAO passes both on to the voting module it has at that moment
      (contracts/dao-dao-core/src/contract.rs:719-738).
    - The DAO alone can exchange it: contracts/dao-dao-core/src/contract.rs:335-350
      [execute_update_voting_module] instantiates the new module, and the reply at 1012-1019 records its
      address.  Here both are one message. *)
From stdpp Require Import gmap strings numbers.
From Verif Require Import Base Exec VotingModel CondModel.

Record xstate := XState { x_s : state; x_mod : addr }.
Inductive xmsg :=
| XCond (m : msg)          (* somebody calls the proposal module *)
| XExchange (v : addr).      (* the DAO makes and installs the voting module [v] *)

Definition xhandle (O : addr -> oracle) (xs : xstate) (b : block) (sender : addr) (m : xmsg)
  : result (xstate * list sub) :=
  match m with
  | XCond m =>
      do! ' (s, subs) <- handle (O (x_mod xs)) (x_s xs) b sender m;
      Ok (XState s (x_mod xs), subs)
  | XExchange v =>
      check! (sender =? s_dao (x_s xs))%N else "Unauthorized";
      Ok (XState (x_s xs) v, [])
  end.
Definition xon_fail (xs : xstate) (b : block) (x : sub) : result xstate :=
  do! s <- on_fail (x_s xs) b x; Ok (XState s (x_mod xs)).
Definition xon_ok (xs : xstate) (b : block) (x : sub) (d : addr) : result xstate :=
  do! s <- on_ok (x_s xs) b x d; Ok (XState s (x_mod xs)).
