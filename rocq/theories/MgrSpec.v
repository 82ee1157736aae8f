(** What is claimed of the migrator. *)
From stdpp Require Import gmap strings.
From Verif Require Import Base BaseProofs VotingModel HooksModel SingleModel CoreModel CoreSpec
  MigModel MigSpec MgrModel.

(** The migrations of a voting module [v] with its staking contract, if it has one. *)
Inductive voting_plan {W} (C : chain W) (w : W) (g : gparams) (v : addr) : list gact -> Prop :=
| plan_cw4 :
    ch_code C w v = Some (ci_cw4 (gp_v1 g)) ->
    voting_plan C w g v [GAct v (ci_cw4 (gp_v2 g)) GCw4]
| plan_cw20 st :
    ch_code C w v = Some (ci_cw20 (gp_v1 g)) -> gp_stake g = Some true ->
    ch_staking C w v = Ok st -> ch_code C w st = Some (ci_stake (gp_v1 g)) ->
    voting_plan C w g v
      [GAct v (ci_cw20 (gp_v2 g)) GCw20; GAct st (ci_stake (gp_v2 g)) GStake].
(** The migration of a proposal module as the parameters for it say. *)
Definition single_plan (g : gparams) (x : addr * pparams) : gact :=
  GAct x.1 (ci_single (gp_v2 g))
    (GSingle (FromV1 (pp_close x.2) (pp_info x.2) (pp_veto x.2))).

(** The proposal modules besides the migrator. *)
Definition is_other (c : core) (me a : addr) : Prop := a <> me /\ is_Some (k_mods c !! a).
Definition enabled_at (c : core) (a : addr) : Prop :=
  exists x, k_mods c !! a = Some x /\ km_on x = true.

(** All that the core keeps: everything but its modules, their number and its SubDAOs. *)
Definition rest_of (c : core) :=
  (k_self c, k_conf c, k_admin c, k_nom c, k_paused c, k_voting c, k_total c, k_items c,
   k_cw20s c, k_cw721s c).

(** The DAO is as the migrator wants it: every module runs version one, the voting module is
    one of the two known kinds, and nothing else stands in the way. *)
Record upgradable {W} (C : chain W) (c : core) (w : W) (b : block) (me : addr)
    (v1 : codeids) : Prop := {
  up_me : enabled_at c me;
  up_more : exists a, a <> me /\ enabled_at c a;
  up_count : k_active c = n_active c;
  up_open : k_paused c = None;
  up_singles : forall a, is_other c me a -> ch_code C w a = Some (ci_single v1);
  up_voting : exists v, k_voting c = Some v /\ ch_code C w v = Some (ci_cw4 v1);
  up_migrates : forall w1 b1 x, exists w2, ch_migrate C w1 b1 x = Ok w2 }.

(** What the storage of a proposal module is after an upgrade as [p] says to version [v],
    with [d] the pre-propose module created. *)
Record kept (v : N) (p : pparams) (d : addr) (t t' : store) : Prop := {
  kp_config : exists c c', t_vcfg t = Some c /\ t_cfg t' = Some c' /\ same_config c c' /\
    c_close_on_fail c' = pp_close p /\ c_veto c' = pp_veto p;
  kp_props : forall id w, t_vprops t !! id = Some w ->
    exists q, t_props t' !! id = Some q /\ same_prop w q /\ p_veto q = None;
  kp_old : forall id, t_vprops t !! id = None -> t_props t' !! id = t_props t !! id;
  kp_count : t_count t' = t_count t;
  kp_ballots : t_ballots t' = t_ballots t;
  kp_hooks : t_phooks t' = t_phooks t /\ t_vhooks t' = t_vhooks t;
  kp_policy : t_policy t' = Some (match pp_info p with
    | AnyoneMayPropose => Anyone | ModuleMayPropose _ => Module d end);
  kp_version : t_version t' = v }.
(** No deposit of version one is still to be returned. *)
Definition no_deposits (t : store) : Prop :=
  forall id w n, t_vprops t !! id = Some w -> vr_deposit w = Some n -> n <> 0 ->
    vr_status w = VExecuted \/ vr_status w = VClosed.
