(** What the records of the DAO core should say, read from its history. *)
From stdpp Require Import gmap strings.
From Verif Require Import Base CoreModel CoreSpec.

(** A DAO created with these settings. *)
Definition kborn (c : kconf) (items : list (string * string)) (b : block) (s : kstate)
    (l : list kentry) : Prop :=
  exists b0 self admin voting modules s0,
    k_instantiate self c admin voting modules items = Ok s0 /\ kleads b0 s0 b s l.

(** The last thing said in a history; [f] reads one step. *)
Definition last_said {A} (f : kentry -> option A) (l : list kentry) (a0 : A) : A :=
  fold_left (fun r e => default r (f e)) l a0.

(** ** Items *)
Definition says_item (k : string) (e : kentry) : option (option string) :=
  match said e with
  | Some (_, KSetItem k' v) => if bool_decide (k' = k) then Some (Some v) else None
  | Some (_, KRemoveItem k') => if bool_decide (k' = k) then Some None else None
  | _ => None
  end.
(** The value a list of pairs gives to a key. *)
Definition paired {K} `{EqDecision K} {V} (k : K) (l : list (K * V)) : option V :=
  match List.find (fun x => bool_decide (x.1 = k)) l with Some x => Some x.2 | None => None end.

(** ** Lists of tokens: removals win. *)
Definition says_list (a : addr) (add : list (addr * bool)) (remove : list addr) : option bool :=
  if bool_decide (a ∈ remove) then Some false
  else if bool_decide (a ∈ map fst add) then Some true else None.
Definition says_cw20 (a : addr) (e : kentry) : option bool :=
  match said e with
  | Some (_, KCw20s add remove) => says_list a add remove
  | Some (x, KReceive20) =>
      if bool_decide (x = a) && kc_auto20 (k_conf (k_core (ke_pre e))) then Some true else None
  | _ => None
  end.
Definition says_cw721 (a : addr) (e : kentry) : option bool :=
  match said e with
  | Some (_, KCw721s add remove) => says_list a add remove
  | Some (x, KReceive721) =>
      if bool_decide (x = a) && kc_auto721 (k_conf (k_core (ke_pre e))) then Some true else None
  | _ => None
  end.

(** ** SubDAOs: additions win, the last one for an address counts. *)
Definition says_subdao (a : addr) (e : kentry) : option (option (option string)) :=
  match said e with
  | Some (_, KSubdaos add remove) =>
      match paired a (rev add) with
      | Some charter => Some (Some charter)
      | None => if bool_decide (a ∈ remove) then Some None else None
      end
  | _ => None
  end.

(** ** Settings and the voting module *)
Definition says_config (e : kentry) : option kconf :=
  match said e with Some (_, KConfig c) => Some c | _ => None end.
Definition says_voting (e : kentry) : option (option addr) :=
  match ke_ev e, k_todo (ke_pre e) with
  | VReply a _, KInst id _ :: _ => if id =? PROPOSAL_ID then None else Some (Some a)
  | _, _ => None
  end.
