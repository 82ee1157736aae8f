(** What is claimed of a DAO with modules of all kinds. *)
From stdpp Require Import gmap strings.
From Verif Require Import Base BaseProofs VotingModel VotingSpec HooksModel CoreModel CoreSpec
  ManyModel.
From Verif Require SingleModel MultModel CondModel SingleSpec MultSpec CondSpec
  DaoModel MDaoModel CDaoModel DaoSpec MDaoSpec CDaoSpec.

(** ** Histories *)
Record qentry := QEntry { qe_pre : many; qe_block : block; qe_ev : qevent; qe_post : many }.
(** Who says what to a module in a step. *)
Definition heard (K : codes) (s : many) (e : qevent) : option (addr * pcall) :=
  match e, q_todo s with
  | QProp a _ m, _ => Some (a, m)
  | QSend, QK (KSend (inr n)) :: _ =>
      match call_of K n with Some (_, m) => Some (k_self (q_core s), m) | None => None end
  | _, _ => None
  end.
(** A module is not told to follow another DAO (the Condorcet module cannot be). *)
Definition keeps_dao (d : addr) (a : addr) (m : pcall) : Prop :=
  match m with
  | CSingle m => SingleSpec.keeps_dao d a m
  | CMult m => MultSpec.keeps_dao d a m
  | CCond _ => True
  end.
(** A module that has just been created by DAO [d]. *)
Definition new_of (d : addr) (p : pmodule) : Prop :=
  match p with
  | PSingle s => SingleSpec.fresh s /\ SingleSpec.attached d s
  | PMult s => MultSpec.fresh s /\ MultSpec.attached d s
  | PCond s => CondSpec.fresh s /\ CondModel.s_dao s = d
  end.
Definition sane (Q : powers) (d : addr) : Prop :=
  SingleSpec.sane (o_single Q) d /\ MultSpec.sane (o_mult Q) d /\ CondSpec.typed (o_cond Q).
(** Steps one after the other; blocks change only between transactions; modules that are
    created are new. *)
Inductive qleads (K : codes) (Q : powers) (b0 : block) (s0 : many)
  : block -> many -> list qentry -> Prop :=
| ql_nil : qleads K Q b0 s0 b0 s0 []
| ql_step b s l b' e s' :
    qleads K Q b0 s0 b s l -> block_le b b' -> (q_todo s = [] \/ b' = b) ->
    (forall a m, heard K s e = Some (a, m) -> keeps_dao (k_self (q_core s)) a m) ->
    (forall a p msgs, e = QReply a (Some p) msgs -> new_of (k_self (q_core s)) p) ->
    q_event K Q s b' e = Ok s' ->
    qleads K Q b0 s0 b' s' (l ++ [QEntry s b' e s']).
(** A DAO that has just been given some modules: whatever has happened to it before, they are
    new and listed. *)
Definition qstart (b : block) (s : many) : Prop :=
  (exists l, kreached b (KState (q_core s) []) l) /\
  (forall q p, q_mods s !! q = Some p ->
     is_Some (k_mods (q_core s) !! q) /\ new_of (k_self (q_core s)) p) /\
  q_todo s = [].
Definition qreached (K : codes) (Q : powers) (b : block) (s : many) (l : list qentry) : Prop :=
  exists b0 s0, qstart b0 s0 /\ sane Q (k_self (q_core s0)) /\ qleads K Q b0 s0 b s l.

(** ** Mandates *)
(** The proposal of module [q] has been decided by its electorate as its kind demands
    (mandates for a DAO with the one module: C103, C121, C125). *)
Definition mandate (Q : powers) (s : many) (q : addr) (id : Z) (msgs : list Z) : Prop :=
  match q_mods s !! q with
  | Some (PSingle p) =>
      DaoSpec.mandate (o_single Q) (DaoModel.Dao (q_core s) q p []) id msgs
  | Some (PMult p) =>
      MDaoSpec.mandate (o_mult Q) (MDaoModel.Dao (q_core s) q p []) id msgs
  | Some (PCond p) =>
      CDaoSpec.mandate (o_cond Q) (CDaoModel.Dao (q_core s) q p []) id msgs
  | None => False
  end.
(** The step in which the DAO is given the messages of proposal [id] of module [q]. *)
Definition carries (e : qentry) (q : addr) (id : Z) (msgs : list Z) : Prop :=
  qe_ev e = QRun /\
  exists x t, q_todo (qe_pre e) = QP q x :: t /\
    p_exec x = Some (k_self (q_core (qe_pre e)), id, msgs).
Definition carried (q : addr) (id : Z) (e : qentry) : Z :=
  match qe_ev e, q_todo (qe_pre e) with
  | QRun, QP r x :: _ =>
      match p_exec x with
      | Some (d, i, _) =>
          if bool_decide (r = q /\ i = id /\ d = k_self (q_core (qe_pre e))) then 1 else 0
      | None => 0
      end
  | _, _ => 0
  end.
Notation acts := (map (fun a : kact => QK (KSend a))).
(** What a step puts before what was to be done, and by whose authority. *)
Definition qlawful (K : codes) (Q : powers) (e : qentry) : Prop :=
  let s := q_core (qe_pre e) in
  let before := q_todo (qe_pre e) in
  let after := q_todo (qe_post e) in
  match qe_ev e with
  | QCore a m => after = before \/ exists msgs, orders s a m msgs /\
      q_mods (qe_pre e) !! a = None /\ a <> k_self s /\ after = acts msgs ++ before
  | QProp a q m => exists subs, after = map (QP q) subs ++ before
  | QSelf => exists m rest, before = QK (KSend (inl m)) :: rest /\
      (after = rest \/
       (exists msgs, m = KAdmin msgs /\ k_admin s = k_self s /\ after = acts msgs ++ rest) \/
       (exists i, m = KVoting i /\ after = QK (KInst VOTE_UPDATE_ID i) :: rest) \/
       (exists add dis, m = KModules add dis /\
          after = map (fun i => QK (KInst PROPOSAL_ID i)) add ++ rest))
  | QSend => exists n rest q subs, before = QK (KSend (inr n)) :: rest /\
      after = map (QP q) subs ++ rest
  | QReply a new msgs => exists id i rest, before = QK (KInst id i) :: rest /\
      (after = rest \/ (new = None /\ id <> VOTE_UPDATE_ID /\ after = acts msgs ++ rest))
  | QRun => exists q x rest, before = QP q x :: rest /\
      (after = QEnd q x :: rest \/
       exists id msgs, carries e q id msgs /\ mandate Q (qe_pre e) q id msgs /\
         enabled s q /\
         after = acts (map (act_of K) msgs) ++ QEnd q x :: rest)
  | QFail => exists q x, before = QP q x :: after
  | QOver _ => exists q x, before = QEnd q x :: after
  end.

(** ** Sovereign DAOs *)
(** The DAO is its own admin, nobody is nominated, the enabled modules are of the kinds. *)
Definition sovereign (s : many) : Prop :=
  k_admin (q_core s) = k_self (q_core s) /\ k_nom (q_core s) = None /\
  (forall a, enabled (q_core s) a -> is_Some (q_mods s !! a)).
(** [a] is among the messages, or among those they make the DAO send as its own admin. *)
Inductive stems (a : kact) (l : list kact) : Prop :=
| stems_in : a ∈ l -> stems a l
| stems_sub msgs : stems (inl (KAdmin msgs)) l -> a ∈ msgs -> stems a l.
(** Messages that give no power over the DAO to others; adding modules is allowed. *)
Definition retains (a : kact) : Prop :=
  match a with inl (KNominate (Some _)) | inl (KVoting _) => False | _ => True end.
(** Only modules of the three kinds are created. *)
Definition homely (e : qentry) : Prop :=
  match qe_ev e with QReply _ None _ => False | _ => True end.
(** What the DAO does in a step: it acts, or a module it has ordered is made. *)
Inductive deed := Act (a : kact) | Make (i : N).
Definition did (e : qentry) : option deed :=
  match qe_ev e, q_todo (qe_pre e) with
  | QSelf, QK (KSend (inl m)) :: _ => Some (Act (inl m))
  | QSend, QK (KSend (inr n)) :: _ => Some (Act (inr n))
  | QReply _ _ _, QK (KInst _ i) :: _ => Some (Make i)
  | _, _ => None
  end.
(** Everything of the DAO apart from the lists of tokens it has received, and the
    configurations of the modules. *)
Definition conf (p : pmodule) :=
  match p with
  | PSingle s => inl (inl (SingleModel.s_cfg s))
  | PMult s => inl (inr (MultModel.s_cfg s))
  | PCond s => inr (CondModel.s_cfg s)
  end.
Definition governed (s : many) :=
  (settings (q_core s), modules (q_core s), k_admin (q_core s), k_nom (q_core s),
   k_paused (q_core s), conf <$> q_mods s).
(** The log up to a step has an earlier step from which the act comes. *)
Definition mandated (K : codes) (Q : powers) (l : list qentry) (a : kact) : Prop :=
  exists e q id msgs, e ∈ l /\ carries e q id msgs /\ mandate Q (qe_pre e) q id msgs /\
    enabled (q_core (qe_pre e)) q /\ stems a (map (act_of K) msgs).
Definition meant (K : codes) (Q : powers) (l : list qentry) (d : deed) : Prop :=
  match d with
  | Act a => mandated K Q l a
  | Make i => exists add dis, mandated K Q l (inl (KModules add dis)) /\ i ∈ add
  end.
