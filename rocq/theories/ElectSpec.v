(** Specification vocabulary for a proposal module together with the voting modules on cw4
    groups, role tokens and ONFTs. *)
From Verif Require Import Base Exec Plain StoreModel ActiveModel JointModel.
From Verif Require SingleModel MultModel CondModel GrpModel GrpSpec RolesModel RolesSpec
  OnftModel OnftSpec.

(** The cw4 and the role voting modules have no query for being active: the proposal modules
    then take the DAO to be (dao-proposal-single/src/contract.rs:190-195). *)
Definition always_active {T} (_ : T) (_ : block) (_ : Z) : bool := true.

Definition gpow (t : GrpModel.gstate) (a : addr) (h : Z) : Z := GrpModel.gv_power t a (Some h).
Definition gtot (t : GrpModel.gstate) (h : Z) : Z := GrpModel.gv_total t (Some h).
(** Weights in the group. *)
Definition gheld (t : GrpModel.gstate) (a : addr) : Z := GrpModel.gv_power t a None.
Definition gheld_all (t : GrpModel.gstate) : Z := GrpModel.gv_total t None.

Definition rpow (t : RolesModel.rstate) (a : addr) (h : Z) : Z := RolesModel.v_power t a (Some h).
Definition rtot (t : RolesModel.rstate) (h : Z) : Z := RolesModel.v_total t (Some h).
Definition rheld (t : RolesModel.rstate) (a : addr) : Z := RolesModel.v_power t a None.
(** The weights of all tokens. *)
Definition rheld_all (t : RolesModel.rstate) : Z := RolesSpec.all_held t.

Definition opow (t : OnftModel.fstate) (a : addr) (h : Z) : Z :=
  OnftModel.f_power_at t (Block 0 0) a (Some h).
Definition otot (t : OnftModel.fstate) (h : Z) : Z := OnftModel.f_total_at t (Block 0 0) (Some h).
Definition oact (t : OnftModel.fstate) (b : block) (supply : Z) : bool :=
  match OnftModel.f_is_active t b supply with Ok x => x | Err _ => true end.
(** Numbers of tokens recorded as staked. *)
Definition oheld (t : OnftModel.fstate) (a : addr) : Z := smap_get (OnftModel.f_bals t) a.
Definition oheld_all (t : OnftModel.fstate) : Z := snap_get (OnftModel.f_total t).

Notation single_on_grp := (single_reached GrpModel.g_handle gpow gtot always_active GrpSpec.greached).
Notation single_on_grp_later := (single_later GrpModel.g_handle gpow gtot always_active).
Notation mult_on_grp := (mult_reached GrpModel.g_handle gpow gtot always_active GrpSpec.greached).
Notation mult_on_grp_later := (mult_later GrpModel.g_handle gpow gtot always_active).
Notation cond_on_grp := (cond_reached GrpModel.g_handle gpow gtot GrpSpec.greached).
Notation cond_on_grp_later := (cond_later GrpModel.g_handle gpow gtot).

Notation single_on_role := (single_reached RolesModel.r_handle rpow rtot always_active RolesSpec.rreached).
Notation single_on_role_later := (single_later RolesModel.r_handle rpow rtot always_active).
Notation mult_on_role := (mult_reached RolesModel.r_handle rpow rtot always_active RolesSpec.rreached).
Notation mult_on_role_later := (mult_later RolesModel.r_handle rpow rtot always_active).
Notation cond_on_role := (cond_reached RolesModel.r_handle rpow rtot RolesSpec.rreached).
Notation cond_on_role_later := (cond_later RolesModel.r_handle rpow rtot).

Notation single_on_onft := (single_reached OnftModel.f_handle opow otot oact OnftSpec.freached).
Notation single_on_onft_later := (single_later OnftModel.f_handle opow otot oact).
Notation mult_on_onft := (mult_reached OnftModel.f_handle opow otot oact OnftSpec.freached).
Notation mult_on_onft_later := (mult_later OnftModel.f_handle opow otot oact).
Notation cond_on_onft := (cond_reached OnftModel.f_handle opow otot OnftSpec.freached).
Notation cond_on_onft_later := (cond_later OnftModel.f_handle opow otot).
