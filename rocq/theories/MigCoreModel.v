(** Model of the migration of contracts/dao-dao-core/src: contract.rs:871-950 [migrate], over
    the DAO of [CoreModel].

    The storage holds what version one left ("config", "proposal_modules": crate cw-core
    0.1.0, whose code is not part of this repository) next to what this version uses; the
    keys of the admin, the voting module, the items, the lists and the pause are the same in
    both (state.rs:6-58).  Nothing in this version writes or removes what version one left.

    A migration is sent by the chain's admin of the contract and names the version of the
    code that is to run from then on, whose text is taken to be the text at this commit.  It
    may come at any time, also while messages of the DAO are being executed, as the DAO may
    be its own admin.  Name, description, image and URI are one number, which the message
    carries; that the first three are copied is not claimed. *)
From stdpp Require Import gmap strings.
From Verif Require Import Base CoreModel.

(** [z_vconf]: the flags of version one's configuration; [z_vmods]: the keys of its
    proposal modules, ascending; [z_st]: what this version uses.  Before the first
    migration this version has no configuration and no modules. *)
Record zstate := ZState {
  z_admin : addr;
  z_version : N;
  z_vconf : option (bool * bool);
  z_vmods : list addr;
  z_st : kstate }.

(** packages/dao-interface/src/msg.rs:229-242 [MigrateMsg]; [migrator] is the module that
    [params] asks for. *)
Inductive zmigrate :=
| ZFromV1 (rest : N) (migrator : option N)
| ZFromCompatible.

(** 896-911: the modules get prefixes by position. *)
Fixpoint take_over (i : Z) (keys : list addr) (m : gmap addr kmod) : result (gmap addr kmod) :=
  match keys with
  | [] => Ok m
  | a :: keys =>
      do! p <- derive_prefix i;
      take_over (i + 1) keys (<[a := KMod true p]> m)
  end.

(** 871-950 [migrate]. *)
Definition z_migrate (s : zstate) (v : N) (m : zmigrate) : result zstate :=
  match m with
  | ZFromV1 rest migrator =>
      check! negb (z_version s =? v)%N else "AlreadyMigrated";
      let c := k_core (z_st s) in
      let n := Z.of_nat (length (z_vmods s)) mod 2 ^ 32 in
      do! mods <- take_over 0 (z_vmods s) (k_mods c);
      some! au <- z_vconf s else "NotFound";
      let c' := k_set_conf (k_set_mods c mods n n) (KConf au.1 au.2 rest) in
      let out := match migrator with
                 | Some i => [KSend (inl (KModules [i] []))]
                 | None => []
                 end in
      Ok (ZState (z_admin s) v (z_vconf s) (z_vmods s) (KState c' (out ++ k_todo (z_st s))))
  | ZFromCompatible => Ok (ZState (z_admin s) v (z_vconf s) (z_vmods s) (z_st s))
  end.

Inductive zevent := ZStep (e : kevent) | ZMigrate (sender : addr) (v : N) (m : zmigrate).
Definition z_event (s : zstate) (b : block) (e : zevent) : result zstate :=
  match e with
  | ZStep e =>
      do! t <- k_event (z_st s) b e;
      Ok (ZState (z_admin s) (z_version s) (z_vconf s) (z_vmods s) t)
  | ZMigrate sender v m =>
      check! (sender =? z_admin s)%N else "Unauthorized";
      z_migrate s v m
  end.
