(** dao-proposal-multiple (as in [MultModel]) in a DAO that exchanges its voting module; as
    [ExchModel] for single choice.

    - Powers are asked of the DAO for the height at which the proposal was made, the total when it is
      made (packages/dao-voting/src/voting.rs:203-225); the DAO passes both on to the voting module it has
      at that moment (contracts/dao-dao-core/src/contract.rs:719-738).
    - The DAO alone can exchange it: contracts/dao-dao-core/src/contract.rs:335-350
      [execute_update_voting_module] instantiates the new module, and the reply at 1012-1019 records its
      address.  Here both are one message. *)
From stdpp Require Import gmap strings numbers.
From Verif Require Import Base Exec VotingModel HooksModel MultModel.

Record xstate := XState { x_s : state; x_mod : addr }.
Inductive xmsg :=
| XMult (m : msg)          (* somebody calls the proposal module *)
| XExchange (v : addr).      (* the DAO makes and installs the voting module [v] *)

Definition xhandle (O : addr -> oracle) (xs : xstate) (b : block) (sender : addr) (m : xmsg)
  : result (xstate * list sub) :=
  match m with
  | XMult m =>
      do! ' (s, subs) <- handle (O (x_mod xs)) (x_s xs) b sender m;
      Ok (XState s (x_mod xs), subs)
  | XExchange v =>
      check! (sender =? c_dao (s_cfg (x_s xs)))%N else "Unauthorized";
      Ok (XState (x_s xs) v, [])
  end.
Definition xon_fail (xs : xstate) (b : block) (x : sub) : result xstate :=
  do! s <- on_fail (x_s xs) b x; Ok (XState s (x_mod xs)).
Definition xon_ok (xs : xstate) (b : block) (x : sub) (d : addr) : result xstate :=
  do! s <- on_ok (x_s xs) b x d; Ok (XState s (x_mod xs)).

(** contracts/proposal/dao-proposal-multiple/src/contract.rs:891-908 [query_list_proposals] and
    proposal.rs:69-72 [into_response]: the reported statuses of a page of proposals, in the order
    of their ids, which are 1 to the count (C14). *)
Fixpoint responses (b : block) (l : list (Z * proposal)) : result (list (Z * status)) :=
  match l with
  | [] => Ok []
  | (id, p) :: t =>
      do! st <- current_status p b; do! r <- responses b t; Ok ((id, st) :: r)
  end.
Definition query_list (s : state) (b : block) (start_after : Z) (limit : nat)
  : result (list (Z * status)) :=
  responses b
    (take limit
       (omap (fun id => option_map (pair id) (s_props s !! id))
          (seqZ (start_after + 1) (s_count s - start_after)))).
