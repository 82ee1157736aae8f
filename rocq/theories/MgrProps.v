(** C106, C107, C108: the contract that upgrades a DAO from version one. *)
From stdpp Require Import gmap strings.
From Verif Require Import Base BaseProofs Exec ExecProofs VotingModel VotingSpec HooksModel
  SingleModel SingleSpec CoreModel CoreSpec MigModel MigSpec MigExamples MgrModel MgrSpec
  MgrProofs MgrClaims MgrExamples.

(** * C106 *)
Theorem C106_only_the_dao {W} (C : chain W) c w b me a g : a <> k_self c -> g_run C c w b me a g = Err "Unauthorized".
Proof. exact (only_the_dao C c w b me a g). Qed.
Print Assumptions C106_only_the_dao.
Theorem C106_while_enabled {W} (C : chain W) c w b me a g r :
  g_run C c w b me a g = Ok r -> enabled_at c me /\ k_shut c b me = false.
Proof. exact (only_enabled C c w b me a g r). Qed.
Print Assumptions C106_while_enabled.
Theorem C106_complete {W} (C : chain W) c w b me a g c' w' acts :
  g_run C c w b me a g = Ok (c', w', acts) ->
  migrate_all C w b acts = Ok w' /\
  exists v vacts, k_voting c = Some v /\ voting_plan C w g v vacts /\
    NoDup (map fst (gp_props g)) /\
    (forall m, m ∈ map fst (gp_props g) <-> is_other c me m) /\
    (forall m, is_other c me m -> ch_code C w m = Some (ci_single (gp_v1 g))) /\
    acts ≡ₚ vacts ++ map (single_plan g) (gp_props g).
Proof. exact (run_complete C c w b me a g c' w' acts). Qed.
Print Assumptions C106_complete.
Theorem C106_core {W} (C : chain W) c w b me a g c' w' acts :
  g_run C c w b me a g = Ok (c', w', acts) ->
  rest_of c' = rest_of c /\
  (forall m, m <> me -> k_mods c' !! m = k_mods c !! m) /\
  (exists x, k_mods c' !! me = Some x /\ km_on x = false) /\
  k_active c' = k_active c - 1 /\ 1 <= k_active c' /\
  (forall s n, NoDup (map fst (gp_subdaos g)) -> (s, n) ∈ gp_subdaos g ->
     k_subdaos c' !! s = Some n) /\
  (forall s, s ∉ map fst (gp_subdaos g) -> k_subdaos c' !! s = k_subdaos c !! s).
Proof. exact (run_core C c w b me a g c' w' acts). Qed.
Print Assumptions C106_core.
Example C106_case : gsummary gresult =
  Some ([(21%N, KMod true "B"); (20%N, KMod true "A"); (30%N, KMod false "C")], 2, [(77%N, None)],
    [(50%N, 204); (51%N, 203); (21%N, 201); (20%N, 201)],
    [(51%N, 203); (21%N, 201); (20%N, 201); (50%N, 204)],
    [Some (Some Anyone, 201%N, [1; 2; 4; 3], Some None);
     Some (Some (Module 1021%N), 201%N, [1; 2; 3],
           Some (Some (VetoConfig (DHeight 5) 3 true false)))]).
Proof. exact gresult_summary. Qed.
Example C106_case_refused :
  [gtry 30 10 gworld [20%N; 21%N] (Some true); gtry 30 11 gworld [20%N; 21%N] (Some true);
   gtry 30 10 gworld [20%N; 20%N] (Some true); gtry 30 10 gworld [20%N] (Some true);
   gtry 30 10 gworld [20%N; 30%N] (Some true); gtry 30 10 gworld [20%N; 21%N] None] =
  ["done"; "Unauthorized"; "DuplicateProposalParams";
   "MigrationParamsNotEqualProposalModulesLength"; "ProposalModuleNotFoundInParams";
   "DontMigrateCw20"].
Proof. vm_compute. reflexivity. Qed.

(** * C107 *)
Theorem C107_tested_partial {W} (C : chain W) c w b me a g c' w' acts :
  g_run C c w b me a g = Ok (c', w', acts) ->
  (forall m, is_other c me m ->
     (exists n, ch_count1 C w m = Ok n /\ ch_count2 C w' m = Ok n) /\
     (exists p q, ch_last1 C w b m = Ok (Some p) /\ ch_last2 C w' b m = Ok (Some q) /\
        same_prop p q /\ p_veto q = None)) /\
  (exists v m p t n, k_voting c = Some v /\ is_other c me m /\ ch_last1 C w b m = Ok (Some p) /\
     ch_total1 C w v (vr_start p) = Ok t /\ ch_total2 C w' v (vr_start p) = Ok t /\
     ch_power1 C w v (vr_proposer p) (vr_start p) = Ok n /\
     ch_power2 C w' v (vr_proposer p) (vr_start p) = Ok n).
Proof. exact (run_tested C c w b me a g c' w' acts). Qed.
Print Assumptions C107_tested_partial.
Theorem C107_kept_partial O A c w b me a g c' w' acts :
  g_run (real_chain O A) c w b me a g = Ok (c', w', acts) ->
  (forall m, is_other c me m -> exists p t t', (m, p) ∈ gp_props g /\
     wo_stores w !! m = Some t /\ wo_stores w' !! m = Some t' /\
     wo_codes w' !! m = Some (ci_single (gp_v2 g)) /\
     kept (an_version A (ci_single (gp_v2 g))) p (an_new A m) t t' /\
     no_deposits t /\ t_admin t = an_dao A) /\
  (forall m, ~ is_other c me m -> wo_stores w' !! m = wo_stores w !! m).
Proof. exact (run_kept O A c w b me a g c' w' acts). Qed.
Print Assumptions C107_kept_partial.
Theorem C107_powers_refuted :
  exists (W : Type) (C : chain W) c w b me a g c' w' acts v x h n n',
    g_run C c w b me a g = Ok (c', w', acts) /\ k_voting c = Some v /\
    ch_power1 C w v x h = Ok n /\ ch_power2 C w' v x h = Ok n' /\ n' <> n.
Proof. exact powers_change. Qed.
Print Assumptions C107_powers_refuted.
Example C107_case :
  match gresult with
  | Ok (_, w, _) => map (fun a => match wo_stores w !! a with
      | Some t => option_map (fun p => (p_proposer p, p_status p, p_votes p)) (t_props t !! 1)
      | None => None end) [20%N; 21%N]
  | Err _ => []
  end = [Some (1%N, Open, Votes 60 0 0); Some (1%N, Open, Votes 60 0 0)].
Proof. vm_compute. reflexivity. Qed.

(** * C108 *)
Theorem C108_can_be_upgraded_partial {W} (C : chain W) c w b me g :
  upgradable C c w b me (gp_v1 g) ->
  NoDup (map fst (gp_props g)) ->
  (forall m, m ∈ map fst (gp_props g) <-> is_other c me m) ->
  (forall m, is_other c me m -> exists n, ch_count1 C w m = Ok n) ->
  (forall m, is_other c me m -> exists p, ch_last1 C w b m = Ok (Some p)) ->
  (forall v h, exists n, ch_total1 C w v h = Ok n) ->
  (forall v x h, exists n, ch_power1 C w v x h = Ok n) ->
  (forall w' l, migrate_all C w b l = Ok w' ->
     (forall m, is_other c me m -> ch_count2 C w' m = ch_count1 C w m) /\
     (forall m, is_other c me m -> last_v2 C w' b m = last_v1 C w b m) /\
     (forall v h, ch_total2 C w' v h = ch_total1 C w v h) /\
     (forall v x h, ch_power2 C w' v x h = ch_power1 C w v x h)) ->
  exists c' w' acts, g_run C c w b me (k_self c) g = Ok (c', w', acts).
Proof. exact (can_upgrade C c w b me g). Qed.
Print Assumptions C108_can_be_upgraded_partial.
Theorem C108_any_module_refuted :
  exists (W : Type) (C : chain W) c w b me ids,
    upgradable C c w b me ids /\
    (forall m, is_other c me m -> exists n, ch_count1 C w m = Ok n) /\
    (forall v h, exists n, ch_total1 C w v h = Ok n) /\
    (forall v x h, exists n, ch_power1 C w v x h = Ok n) /\
    (forall w' l, migrate_all C w b l = Ok w' ->
       (forall m, is_other c me m -> ch_count2 C w' m = ch_count1 C w m) /\
       (forall m, is_other c me m -> last_v2 C w' b m = last_v1 C w b m) /\
       (forall v h, ch_total2 C w' v h = ch_total1 C w v h) /\
       (forall v x h, ch_power2 C w' v x h = ch_power1 C w v x h)) /\
    forall a g r, g_run C c w b me a g <> Ok r.
Proof. exact fresh_module_blocks. Qed.
Print Assumptions C108_any_module_refuted.
Example C108_case :
  exists c' w' acts, g_run (plain_chain one_open sixty_forty) gcore false (Block 20 0) 30 10 gtwo =
    Ok (c', w', acts).
Proof. exact plain_can. Qed.
