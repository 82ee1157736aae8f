(** What is claimed of a DAO with a single-choice module. *)
From stdpp Require Import gmap strings.
From Verif Require Import Base BaseProofs VotingModel VotingSpec HooksModel SingleModel SingleSpec
  CoreModel CoreSpec DaoModel.

(** ** Histories *)
Record dentry := DEntry { de_pre : dao; de_block : block; de_ev : devent; de_post : dao }.
(** Who says what to the module in a step. *)
Definition heard (K : codes) (s : dao) (e : devent) : option (addr * msg) :=
  match e, d_todo s with
  | DProp a m, _ => Some (a, m)
  | DSend, DK (KSend (inr n)) :: _ =>
      match call_of K n with Some m => Some (k_self (d_core s), m) | None => None end
  | _, _ => None
  end.
(** Steps one after the other; blocks change only between transactions; the module is not
    told to follow another DAO. *)
Inductive dleads (K : codes) (O : oracle) (b0 : block) (s0 : dao)
  : block -> dao -> list dentry -> Prop :=
| dl_nil : dleads K O b0 s0 b0 s0 []
| dl_step b s l b' e s' :
    dleads K O b0 s0 b s l -> block_le b b' -> (d_todo s = [] \/ b' = b) ->
    (forall a m, heard K s e = Some (a, m) -> keeps_dao (k_self (d_core s)) a m) ->
    d_event K O s b' e = Ok s' ->
    dleads K O b0 s0 b' s' (l ++ [DEntry s b' e s']).
(** A DAO that has just been given the module: whatever has happened to it before, the module
    is new, listed and attached to it. *)
Definition dstart (b : block) (s : dao) : Prop :=
  (exists l, kreached b (KState (d_core s) []) l) /\
  is_Some (k_mods (d_core s) !! d_at s) /\
  fresh (d_prop s) /\ attached (k_self (d_core s)) (d_prop s) /\ d_todo s = [].
Definition dreached (K : codes) (O : oracle) (b : block) (s : dao) (l : list dentry) : Prop :=
  exists b0 s0, dstart b0 s0 /\ sane O (k_self (d_core s0)) /\ dleads K O b0 s0 b s l.

(** ** Mandates *)
(** The messages are those of a proposal of the module, the votes on it are the powers of
    its voters at its start, and meet its threshold. *)
Definition mandate (O : oracle) (s : dao) (id : Z) (msgs : list Z) : Prop :=
  exists p, s_props (d_prop s) !! id = Some p /\ p_msgs p = msgs /\
    (p_status p = Executed \/ p_status p = ExecutionFailed) /\
    p_total p = tp O (k_self (d_core s)) (p_start p) /\
    (forall v, tally_of p v = ballot_total (d_prop s) id v) /\
    (forall a bl, s_ballots (d_prop s) !! (id, a) = Some bl ->
       bl_power bl = vp O (k_self (d_core s)) a (p_start p)) /\
    (at_least_billionth (p_thr p) -> outcome_near (p_thr p) (p_total p) (p_votes p)).
(** The step in which the DAO is given the messages of proposal [id]. *)
Definition carries (e : dentry) (id : Z) (msgs : list Z) : Prop :=
  de_ev e = DRun /\
  exists c t, d_todo (de_pre e) = DP (SExec (k_self (d_core (de_pre e))) id msgs c) :: t.
Definition carried (id : Z) (e : dentry) : Z :=
  match de_ev e, d_todo (de_pre e) with
  | DRun, DP (SExec d i _ _) :: _ =>
      if bool_decide (i = id /\ d = k_self (d_core (de_pre e))) then 1 else 0
  | _, _ => 0
  end.
Notation acts := (map (fun a : kact => DK (KSend a))).
(** What a step puts before what was to be done, and by whose authority. *)
Definition dlawful (K : codes) (O : oracle) (e : dentry) : Prop :=
  let s := d_core (de_pre e) in
  let before := d_todo (de_pre e) in
  let after := d_todo (de_post e) in
  match de_ev e with
  | DCore a m => after = before \/ exists msgs, orders s a m msgs /\ a <> d_at (de_pre e) /\
      a <> k_self s /\ after = acts msgs ++ before
  | DProp a m => exists subs, after = map DP subs ++ before
  | DSelf => exists m rest, before = DK (KSend (inl m)) :: rest /\
      (after = rest \/
       (exists msgs, m = KAdmin msgs /\ k_admin s = k_self s /\ after = acts msgs ++ rest) \/
       (exists i, m = KVoting i /\ after = DK (KInst VOTE_UPDATE_ID i) :: rest) \/
       (exists add dis, m = KModules add dis /\
          after = map (fun i => DK (KInst PROPOSAL_ID i)) add ++ rest))
  | DSend => exists n rest subs, before = DK (KSend (inr n)) :: rest /\
      after = map DP subs ++ rest
  | DReply a msgs => exists id i rest, before = DK (KInst id i) :: rest /\
      (after = rest \/ (id <> VOTE_UPDATE_ID /\ after = acts msgs ++ rest))
  | DRun => exists x rest, before = DP x :: rest /\
      (after = DEnd x :: rest \/
       exists id msgs, carries e id msgs /\ mandate O (de_pre e) id msgs /\
         enabled s (d_at (de_pre e)) /\
         after = acts (map (act_of K) msgs) ++ DEnd x :: rest)
  | DFail => exists x, before = DP x :: after
  | DOver _ => exists x, before = DEnd x :: after
  end.

(** ** Sovereign DAOs *)
(** The DAO is its own admin, nobody is nominated, no other module is enabled. *)
Definition sovereign (s : dao) : Prop :=
  k_admin (d_core s) = k_self (d_core s) /\ k_nom (d_core s) = None /\
  (forall a, enabled (d_core s) a -> a = d_at s).
(** [a] is among the messages, or among those they make the DAO send as its own admin. *)
Inductive stems (a : kact) (l : list kact) : Prop :=
| stems_in : a ∈ l -> stems a l
| stems_sub msgs : stems (inl (KAdmin msgs)) l -> a ∈ msgs -> stems a l.
(** Messages that give no power over the DAO to others. *)
Definition retains (a : kact) : Prop :=
  match a with
  | inl (KModules (_ :: _) _) | inl (KNominate (Some _)) | inl (KVoting _) => False
  | _ => True
  end.
(** The act the DAO carries out in a step. *)
Definition act (e : dentry) : option kact :=
  match de_ev e, d_todo (de_pre e) with
  | DSelf, DK (KSend (inl m)) :: _ => Some (inl m)
  | DSend, DK (KSend (inr n)) :: _ => Some (inr n)
  | _, _ => None
  end.
(** Everything of the DAO apart from the lists of tokens it has received, and the
    configuration of the module. *)
Definition governed (s : dao) :=
  (settings (d_core s), modules (d_core s), k_admin (d_core s), k_nom (d_core s),
   k_paused (d_core s), s_cfg (d_prop s)).
(** The log up to a step has an earlier step from which the act comes. *)
Definition mandated (K : codes) (O : oracle) (l : list dentry) (a : kact) : Prop :=
  exists e id msgs, e ∈ l /\ carries e id msgs /\ mandate O (de_pre e) id msgs /\
    stems a (map (act_of K) msgs).
