(** What is claimed of the DAO core, without the functions of the model except its steps. *)
From stdpp Require Import gmap strings.
From Verif Require Import Base CoreModel.

(** ** Histories *)
Record kentry := KEntry { ke_pre : kstate; ke_block : block; ke_ev : kevent; ke_post : kstate }.
(** Steps one after the other; blocks change only between transactions. *)
Inductive kleads (b0 : block) (s0 : kstate) : block -> kstate -> list kentry -> Prop :=
| kl_nil : kleads b0 s0 b0 s0 []
| kl_step b s l b' e s' :
    kleads b0 s0 b s l -> block_le b b' -> (k_todo s = [] \/ b' = b) ->
    k_event s b' e = Ok s' ->
    kleads b0 s0 b' s' (l ++ [KEntry s b' e s']).
(** A state reached from the creation of the DAO. *)
Definition kreached (b : block) (s : kstate) (l : list kentry) : Prop :=
  exists b0 self c admin voting modules items s0,
    k_instantiate self c admin voting modules items = Ok s0 /\ kleads b0 s0 b s l.

(** Who says what to the DAO in a step. *)
Definition said (e : kentry) : option (addr * kmsg) :=
  match ke_ev e, k_todo (ke_pre e) with
  | VCall sender m, _ => Some (sender, m)
  | VSelf, KSend (inl m) :: _ => Some (k_self (k_core (ke_pre e)), m)
  | _, _ => None
  end.

(** ** Acting *)
Definition enabled (s : core) (a : addr) : Prop :=
  exists p, k_mods s !! a = Some (KMod true p).
(** The caller may make the DAO act, and does so with these messages. *)
Definition orders (s : core) (a : addr) (m : kmsg) (msgs : list kact) : Prop :=
  (m = KAdmin msgs /\ a = k_admin s) \/ (m = KHook msgs /\ enabled s a).
(** What a step dispatches, and who has asked for it. *)
Definition lawful (e : kentry) : Prop :=
  let s := k_core (ke_pre e) in
  let before := k_todo (ke_pre e) in
  let after := k_todo (ke_post e) in
  match ke_ev e with
  | VCall a m => after = before \/ exists msgs, orders s a m msgs /\ after = map KSend msgs ++ before
  | VSelf => exists m rest, before = KSend (inl m) :: rest /\
      (after = rest \/
       (exists msgs, m = KAdmin msgs /\ k_admin s = k_self s /\ after = map KSend msgs ++ rest) \/
       (exists i, m = KVoting i /\ after = KInst VOTE_UPDATE_ID i :: rest) \/
       (exists add dis, m = KModules add dis /\ after = map (KInst PROPOSAL_ID) add ++ rest))
  | VReply a msgs => exists id i rest, before = KInst id i :: rest /\
      (after = rest \/ (id <> VOTE_UPDATE_ID /\ after = map KSend msgs ++ rest))
  | VDone => exists n, before = KSend (inr n) :: after
  end.
(** The statement without the messages of new modules. *)
Definition lawful_strict (e : kentry) : Prop :=
  match ke_ev e with
  | VReply _ msgs => msgs = []
  | _ => lawful e
  end.
Definition paused (s : core) (b : block) : Prop :=
  exists e, k_paused s = Some e /\ is_expired e b = false.
(** What belongs to the DAO, apart from its modules and the lists of tokens. *)
Definition settings (s : core) := (k_conf s, k_items s, k_subdaos s).
Definition modules (s : core) := (k_mods s, k_active s, k_total s, k_voting s).
Definition lists (s : core) := (k_cw20s s, k_cw721s s).

(** ** Counting *)
Definition on (x : addr * kmod) : Prop := km_on x.2 = true.
Global Instance on_dec x : Decision (on x) := decide (km_on x.2 = true).
Definition n_active (s : core) : Z := Z.of_nat (size (filter on (k_mods s))).
Definition n_total (s : core) : Z := Z.of_nat (size (k_mods s)).

(** ** Prefixes *)
(** Capital letters, and the number they spell in base 26 with digits from 1 to 26. *)
Definition capital (c : Ascii.ascii) : Prop := 65 <= Z.of_N (Ascii.N_of_ascii c) <= 90.
Fixpoint capitals (s : string) : Prop :=
  match s with
  | EmptyString => True
  | String c s => capital c /\ capitals s
  end.
Fixpoint spells (acc : Z) (s : string) : Z :=
  match s with
  | EmptyString => acc
  | String c s => spells (26 * acc + (Z.of_N (Ascii.N_of_ascii c) - 64)) s
  end.
