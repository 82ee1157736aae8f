(** What is claimed of the DAO's ability to act on the decisions of its modules. *)
From stdpp Require Import gmap strings.
From Verif Require Import Base VotingModel VotingSpec HooksModel CoreModel CoreSpec
  ManyModel ManySpec.
From Verif Require SingleModel MultModel CondModel MultSpec CondSpec.

(** Proposal [id] of module [q] has passed, and [a] may execute it. *)
Definition passed_for (Q : powers) (s : many) (b : block) (q a : addr) (id : Z) : Prop :=
  let d := k_self (q_core s) in
  match q_mods s !! q with
  | Some (PSingle p) => exists x, SingleModel.s_props p !! id = Some x /\
      SingleModel.query_status p b id = Ok Passed /\
      (SingleModel.c_only_members (SingleModel.s_cfg p) = true ->
       SingleModel.vp (o_single Q) d a (SingleModel.p_start x) <> 0)
  | Some (PMult p) => exists x, MultModel.s_props p !! id = Some x /\
      MultModel.query_status p b id = Ok Passed /\
      (MultModel.c_only_members (MultModel.s_cfg p) = true ->
       MultModel.vp (o_mult Q) d a (MultModel.p_start x) <> 0)
  | Some (PCond p) => exists t w, CondModel.s_tallies p !! id = Some t /\
      CondModel.query_status p b id = Ok (CondModel.CPassed w) /\
      CondModel.vp (o_cond Q) d a (CondModel.t_start t) <> 0
  | None => False
  end.
(** The messages the electorate has decided for: the proposal's, the winning option's, those of
    the option that beats every other. *)
Definition decided (Q : powers) (s : many) (q : addr) (id : Z) (msgs : list Z) : Prop :=
  match q_mods s !! q with
  | Some (PSingle p) => exists x, SingleModel.s_props p !! id = Some x /\
      SingleModel.p_msgs x = msgs
  | Some (PMult p) => exists x i c, MultModel.s_props p !! id = Some x /\
      MultModel.p_choices x !! i = Some c /\
      MultSpec.chosen (MultModel.p_quorum x) (MultModel.p_total x) (MultModel.p_votes x) i /\
      MultModel.ch_msgs c = msgs
  | Some (PCond p) => exists x w, CondModel.s_props p !! id = Some x /\
      CondModel.p_choices x !! Z.to_nat w = Some msgs /\
      CondSpec.beats_all (Z.of_nat (length (CondModel.p_choices x)))
        (CondSpec.margin (o_cond Q) p id) w
  | None => False
  end.
Definition execute_of (s : many) (q : addr) (id : Z) : pcall :=
  match q_mods s !! q with
  | Some (PMult _) => CMult (MultModel.Execute id)
  | Some (PCond _) => CCond (CondModel.Execute id)
  | _ => CSingle (SingleModel.Execute id)
  end.
(** The proposal is recorded as executed. *)
Definition is_executed (s : many) (q : addr) (id : Z) : Prop :=
  match q_mods s !! q with
  | Some (PSingle p) => SingleModel.p_status <$> SingleModel.s_props p !! id = Some Executed
  | Some (PMult p) => MultModel.p_status <$> MultModel.s_props p !! id = Some Executed
  | Some (PCond p) => CondModel.p_status <$> CondModel.s_props p !! id = Some CondModel.CExecuted
  | None => False
  end.
(** Steps one after the other in one block. *)
Fixpoint q_events (K : codes) (Q : powers) (s : many) (b : block) (es : list qevent)
  : result many :=
  match es with
  | [] => Ok s
  | e :: es => do! s' <- q_event K Q s b e; q_events K Q s' b es
  end.
(** An address nobody has yet. *)
Definition unused (s : many) (a : addr) : Prop :=
  a <> k_self (q_core s) /\ k_mods (q_core s) !! a = None /\ q_mods s !! a = None.
