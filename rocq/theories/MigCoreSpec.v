(** Specification vocabulary for migrations of the DAO core. *)
From stdpp Require Import gmap strings.
From Verif Require Import Base CoreModel CoreSpec MigCoreModel.

(** What version one leaves: proposal modules without repetition, of which the DAO is none;
    nothing of this version yet. *)
Record z_left (s : zstate) : Prop := {
  zl_some : z_vmods s <> [];
  zl_nodup : NoDup (z_vmods s);
  zl_self : ~ (k_self (k_core (z_st s)) ∈ z_vmods s);
  zl_few : Z.of_nat (length (z_vmods s)) <= U32_MAX;
  zl_none : k_mods (k_core (z_st s)) = ∅ }.

(** Histories; blocks change only between transactions. *)
Inductive zleads (P : zevent -> Prop) (b0 : block) (s0 : zstate) : block -> zstate -> Prop :=
| zl_nil : zleads P b0 s0 b0 s0
| zl_step b s b' e s' :
    zleads P b0 s0 b s -> block_le b b' -> (k_todo (z_st s) = [] \/ b' = b) -> P e ->
    z_event s b' e = Ok s' -> zleads P b0 s0 b' s'.
Definition anything (e : zevent) : Prop := True.
(** Events that do not read version one's data. *)
Definition no_v1 (e : zevent) : Prop :=
  match e with ZMigrate _ _ (ZFromV1 _ _) => False | _ => True end.

(** A DAO of version one, migrated, then run; its data are never read again. *)
Definition z_upgraded (b : block) (s : zstate) : Prop :=
  exists s0 b1 a v rest migrator s1,
    z_left s0 /\ z_event s0 b1 (ZMigrate a v (ZFromV1 rest migrator)) = Ok s1 /\
    zleads no_v1 b1 s1 b s.
(** A DAO of version one, migrated, then any history, further migrations included. *)
Definition z_grown (b : block) (s : zstate) : Prop :=
  exists s0 b1 a v rest migrator s1,
    z_left s0 /\ z_event s0 b1 (ZMigrate a v (ZFromV1 rest migrator)) = Ok s1 /\
    zleads anything b1 s1 b s.

(** What a migration must leave alone. *)
Definition others (s : core) :=
  (k_self s, k_admin s, k_nom s, k_paused s, k_voting s, k_items s, k_cw20s s, k_cw721s s,
   k_subdaos s).
