(** Specification vocabulary for migrations of the staking contracts. *)
From Verif Require Import Base Exec Plain StoreModel StakeModel StakeSpec ExtModel DistModel
  MigStakeModel.

(** What version one of cw20-stake leaves: its stakes are those of some history, and its
    configuration names the token. *)
Definition k_left (b : block) (s : host kstate kold) : Prop :=
  exists c s1 l, h_old s = Some c /\ kreached b s1 l /\ ko_token c = k_token s1 /\
    k_bals (h_st s) = k_bals s1 /\ k_total (h_st s) = k_total s1 /\ k_pool (h_st s) = k_pool s1 /\
    k_claims (h_st s) = k_claims s1 /\ k_held (h_st s) = k_held s1.
(** Migrated, then any history of calls and further migrations. *)
Definition k_grown (b : block) (s : host kstate kold) : Prop :=
  exists b0 s0 b1 a v s1 subs l,
    k_left b0 s0 /\ block_le b0 b1 /\ hk_handle s0 b1 a (HMigrate v) = Ok (s1, subs) /\
    leads hk_handle b1 s1 b s l.
