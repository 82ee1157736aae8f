(** C111: the migration of the pre-propose modules. *)
From Verif Require Import Base BaseProofs VotingModel HooksModel SingleModel PreModel PreSpec
  PreMigModel PreMigSpec PreMigClaims PreMigExamples.

(** * C111 *)
Theorem C111_when x m :
  (exists x', pre_migrate x m = Ok x') <->
  (exists policy c, m = FromUnderV250 policy /\ upgradable (ps_version x) /\
    ps_slot x = SlotOld c /\ forall p, policy = Some p -> sound_policy p).
Proof. exact (c111_iff x m). Qed.
Print Assumptions C111_when.
Theorem C111_same_rule x x' c :
  pre_migrate x (FromUnderV250 None) = Ok x' -> ps_slot x = SlotOld c ->
  exists q, module_of x' = Some q /\
  forall who power, check_can_submit (q_policy q) who power = Ok tt <-> could_submit c power.
Proof. exact (c111_same_rule x x' c). Qed.
Print Assumptions C111_same_rule.
Theorem C111_given_policy x p x' :
  pre_migrate x (FromUnderV250 (Some p)) = Ok x' ->
  exists q, module_of x' = Some q /\ q_policy q = p /\ sound_policy p.
Proof. exact (c111_given x p x'). Qed.
Print Assumptions C111_given_policy.
Theorem C111_kept x m x' c :
  pre_migrate x m = Ok x' -> ps_slot x = SlotOld c ->
  ps_rest x' = ps_rest x /\
  exists q, module_of x' = Some q /\ same_deposit (oc_deposit c) (q_deposit q) /\
    q_kind q = r_kind (ps_rest x) /\ q_module q = r_module (ps_rest x) /\
    q_dao q = r_dao (ps_rest x) /\
    q_deposits q = r_deposits (ps_rest x) /\ q_hooks q = r_hooks (ps_rest x) /\
    q_approver q = r_approver (ps_rest x) /\ q_pending q = r_pending (ps_rest x) /\
    q_completed q = r_completed (ps_rest x) /\ q_created q = r_created (ps_rest x) /\
    q_current q = r_current (ps_rest x).
Proof. exact (c111_kept x m x' c). Qed.
Print Assumptions C111_kept.
Theorem C111_old_deposits_paid x m x' id d proposer q e st :
  pre_migrate x m = Ok x' -> module_of x' = Some q ->
  r_deposits (ps_rest x) !! id = Some (Some d, proposer) -> d_amount d <> 0 ->
  st = Closed \/ st = Executed \/ st = Vetoed ->
  exists to, pre_handle q e (r_module (ps_rest x)) (PCompleted id st) =
    Ok (q, [XPay (RCompleted id) (d_denom d) to (d_amount d)]) /\
    right_party (d_refund d) st proposer (r_dao (ps_rest x)) to.
Proof. exact (c111_paid x m x' id d proposer q e st). Qed.
Print Assumptions C111_old_deposits_paid.
Theorem C111_once x m x' :
  pre_migrate x m = Ok x' ->
  ps_version x' = Some this_version /\ forall m', is_ok (pre_migrate x' m') = false.
Proof. exact (c111_once x m x'). Qed.
Print Assumptions C111_once.
Example C111_case_members :
  pre_migrate (ex_old (Ver 2 4 2 false) false) (FromUnderV250 None) =
  Ok (ex_new (SSpecific true [] [])).
Proof. vm_compute. reflexivity. Qed.
Example C111_case_open :
  pre_migrate (ex_old (Ver 2 4 1 false) true) (FromUnderV250 None) = Ok (ex_new (SAnyone [])).
Proof. vm_compute. reflexivity. Qed.
Example C111_case_given :
  pre_migrate (ex_old (Ver 2 4 10 false) true) (FromUnderV250 (Some ex_pol)) = Ok (ex_new ex_pol).
Proof. vm_compute. reflexivity. Qed.
(** The deposit taken from 1 before the upgrade: paid to 1 if the proposal is
    executed, to the DAO otherwise. *)
Example C111_case_paid :
  match module_of (ex_new (SAnyone [])) with
  | Some q => map (fun st => match pre_handle q (PEnv [] 0 0 0) 30 (PCompleted 1 st) with
                             | Ok (_, l) => l | Err _ => [] end) [Executed; Closed]
  | None => []
  end = [[XPay (RCompleted 1) (Cw20 70) 1 100]; [XPay (RCompleted 1) (Cw20 70) 9 100]].
Proof. vm_compute. reflexivity. Qed.
Example C111_case_refused :
  map (fun r => match r with Ok _ => "done" | Err e => e end)
    [pre_migrate (ex_old (Ver 2 4 0 false) true) (FromUnderV250 None);
     pre_migrate (ex_old (Ver 2 5 0 false) true) (FromUnderV250 None);
     pre_migrate (ex_old (Ver 2 5 0 true) true) (FromUnderV250 None);
     pre_migrate (ex_old (Ver 3 4 1 false) true) (FromUnderV250 None);
     pre_migrate (ex_old (Ver 2 4 1 false) true) (FromUnderV250 (Some (SSpecific false [] [3%N])));
     pre_migrate (ex_old (Ver 2 4 1 false) true) (FromUnderV250 (Some (SSpecific true [3%N] [3%N])));
     pre_migrate (ex_old (Ver 2 4 1 false) true) MExtension;
     pre_migrate (ex_new ex_pol) (FromUnderV250 None)] =
  ["CannotMigrateVersion"; "CannotMigrateVersion"; "CannotMigrateVersion"; "CannotMigrateVersion";
   "NoOneAllowed"; "DenylistAllowlistOverlap"; "not implemented"; "CannotMigrateVersion"].
Proof. vm_compute. reflexivity. Qed.
