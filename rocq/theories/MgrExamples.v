(** The migrator: concrete cases. *)
From stdpp Require Import gmap strings.
From Verif Require Import Base BaseProofs Exec ExecProofs VotingModel VotingSpec HooksModel
  SingleModel SingleSpec CoreModel CoreSpec MigModel MigSpec MigExamples MgrModel MgrSpec
  MgrProofs MgrClaims.

(** A DAO (10) with the voting module 50, two proposal modules 20 and 21 and the migrator 30. *)
Definition gmods : gmap addr kmod :=
  list_to_map [(20%N, KMod true "A"); (21%N, KMod true "B"); (30%N, KMod true "C")].
Definition gcore : core :=
  Core 10 (KConf true true 0) 10 None None (Some 50%N) gmods 3 3 ∅ ∅ ∅ ∅.
(** The second module has three of the proposals of the first. *)
Definition xold2 : store :=
  Store 10 1 (Some xvcfg) (delete 4 xvprops) None None 3 ∅ xballots [] [].
Definition gworld : world :=
  World (list_to_map [(20%N, xold); (21%N, xold2)])
    (list_to_map [(20%N, 101); (21%N, 101); (50%N, 104); (51%N, 103)]).
Definition gold_ids : codeids := CodeIds 101 102 103 104.
Definition gnew_ids : codeids := CodeIds 201 202 203 204.
(** Version one answers with the newest of its proposals as saved. *)
Definition gans : answers := {|
  an_dao := 10%N; an_version := fun n => Z.to_N n; an_new := fun a => (a + 1000)%N;
  an_staking := fun _ => Ok 51%N;
  an_last1 := fun t _ => Ok (t_vprops t !! t_count t);
  an_total1 := fun _ _ => Ok 100; an_total2 := fun _ _ => Ok 100;
  an_power1 := fun _ a h => Ok (vp xorc 10%N a h);
  an_power2 := fun _ a h => Ok (vp xorc 10%N a h);
  an_migrate := fun _ _ _ => true |}.
Definition gmessage : gparams :=
  GParams [(77%N, None)] (Some true)
    [(21%N, PParams false (ModuleMayPropose 9) (Some (VetoConfig (DHeight 5) 3 true false)));
     (20%N, PParams true AnyoneMayPropose None)] gold_ids gnew_ids.
Definition gresult := g_run (real_chain xorc gans) gcore gworld (Block 20 0) 30 10 gmessage.

(** The outcome, field by field. *)
Definition gsummary (r : result (core * world * list gact)) :=
  match r with
  | Ok (c, w, acts) =>
      Some (map_to_list (k_mods c), k_active c, map_to_list (k_subdaos c),
            map (fun x => (ga_at x, ga_code x)) acts, map_to_list (wo_codes w),
            map (fun a => match wo_stores w !! a with
              | Some t => Some (t_policy t, t_version t, map fst (map_to_list (t_props t)),
                                option_map c_veto (t_cfg t))
              | None => None end) [20%N; 21%N])
  | Err _ => None
  end.
Example gresult_summary : gsummary gresult =
  Some ([(21%N, KMod true "B"); (20%N, KMod true "A"); (30%N, KMod false "C")], 2, [(77%N, None)],
    [(50%N, 204); (51%N, 203); (21%N, 201); (20%N, 201)],
    [(51%N, 203); (21%N, 201); (20%N, 201); (50%N, 204)],
    [Some (Some Anyone, 201%N, [1; 2; 4; 3], Some None);
     Some (Some (Module 1021%N), 201%N, [1; 2; 3],
           Some (Some (VetoConfig (DHeight 5) 3 true false)))]).
Proof. vm_compute. reflexivity. Qed.

(** Refusals: not the DAO, parameters for one module twice, for too few, for the migrator in
    place of a module, no consent to migrate the staking contract, another code, a deposit. *)
Definition gtry (me a : addr) (w : world) (props : list addr) (stake : option bool) : string :=
  match g_run (real_chain xorc gans) gcore w (Block 20 0) me a
          (GParams [] stake (map (fun a => (a, PParams true AnyoneMayPropose None)) props)
             gold_ids gnew_ids) with
  | Ok _ => "done"
  | Err e => e
  end.
Example grefusals :
  map (fun x => x)
    [gtry 30 10 gworld [20%N; 21%N] (Some true);
     gtry 30 11 gworld [20%N; 21%N] (Some true);
     gtry 30 10 gworld [20%N; 20%N] (Some true);
     gtry 30 10 gworld [20%N] (Some true);
     gtry 30 10 gworld [20%N; 30%N] (Some true);
     gtry 30 10 gworld [20%N; 21%N] None;
     gtry 31 10 gworld [20%N; 21%N] (Some true);
     gtry 30 10 (World (wo_stores gworld) (<[21%N := 99]> (wo_codes gworld))) [20%N; 21%N] (Some true);
     gtry 30 10 (World (<[21%N := Store 10 1 (Some xvcfg) (<[3 := xvprop VOpen (VVotes 0 0 0) (Some 5)]> xvprops)
        None None 3 ∅ xballots [] []]> (wo_stores gworld)) (wo_codes gworld)) [20%N; 21%N] (Some true)] =
  ["done"; "Unauthorized"; "DuplicateProposalParams";
   "MigrationParamsNotEqualProposalModulesLength"; "ProposalModuleNotFoundInParams";
   "DontMigrateCw20"; "ProposalModuleNotFoundInParams"; "CantMigrateModule"; "PendingProposals"].
Proof. vm_compute. reflexivity. Qed.

(** ** A chain whose contracts answer the same in both versions *)
Definition plain_chain (last : addr -> option vproposal) (after : bool -> addr -> Z) : chain bool := {|
  ch_code := fun _ a => if (a =? 50)%N then Some 102 else Some 101;
  ch_staking := fun _ _ => Err "none";
  ch_count1 := fun _ _ => Ok 4; ch_count2 := fun _ _ => Ok 4;
  ch_last1 := fun _ _ a => Ok (last a);
  ch_last2 := fun _ _ a => Ok (option_map prop_to_v2 (last a));
  ch_total1 := fun _ _ _ => Ok 100; ch_total2 := fun _ _ _ => Ok 100;
  ch_power1 := fun w _ a _ => Ok (after w a); ch_power2 := fun w _ a _ => Ok (after w a);
  ch_migrate := fun _ _ _ => Ok true |}.
Definition one_open (a : addr) : option vproposal := Some (xvprop VOpen (VVotes 60 0 0) None).
(** Module 21 has no proposal yet. *)
Definition fresh_21 (a : addr) : option vproposal := if (a =? 21)%N then None else one_open a.
Definition sixty_forty (w : bool) (a : addr) : Z := if (a =? 1)%N then 60 else 40.
(** The new code gives everybody but the proposer ten times the power. *)
Definition tenfold (w : bool) (a : addr) : Z := if (a =? 1)%N then 60 else if w then 400 else 40.

Lemma plain_upgradable last after b : upgradable (plain_chain last after) gcore false b 30 gold_ids.
Proof.
  constructor.
  - by exists (KMod true "C").
  - exists 20%N. split; [done|]. by exists (KMod true "A").
  - vm_compute. reflexivity.
  - done.
  - intros a [Hne [x Hx]]. cbn [ch_code plain_chain]. destruct (N.eqb_spec a 50) as [->|]; [|done].
    vm_compute in Hx. done.
  - by exists 50%N.
  - intros w1 b1 x. by exists true.
Qed.
Lemma gmods_other a : is_other gcore 30 a <-> a = 20%N \/ a = 21%N.
Proof.
  split.
  - intros [Hne [x Hx]]. apply elem_of_list_to_map_2 in Hx.
    repeat (apply elem_of_cons in Hx as [Hx|Hx]; [injection Hx as -> _; auto; done|]).
    by apply elem_of_nil in Hx.
  - intros [->| ->]; (split; [done|]); eexists; vm_compute; reflexivity.
Qed.

Lemma fresh_module_blocks :
  exists (W : Type) (C : chain W) c w b me ids,
    upgradable C c w b me ids /\
    (forall m, is_other c me m -> exists n, ch_count1 C w m = Ok n) /\
    (forall v h, exists n, ch_total1 C w v h = Ok n) /\
    (forall v x h, exists n, ch_power1 C w v x h = Ok n) /\
    (forall w' l, migrate_all C w b l = Ok w' ->
       (forall m, is_other c me m -> ch_count2 C w' m = ch_count1 C w m) /\
       (forall m, is_other c me m -> last_v2 C w' b m = last_v1 C w b m) /\
       (forall v h, ch_total2 C w' v h = ch_total1 C w v h) /\
       (forall v x h, ch_power2 C w' v x h = ch_power1 C w v x h)) /\
    forall a g r, g_run C c w b me a g <> Ok r.
Proof.
  exists bool, (plain_chain fresh_21 sixty_forty), gcore, false, (Block 20 0), 30%N, gold_ids.
  split; [apply plain_upgradable|].
  split; [intros; by exists 4|]. split; [intros; by exists 100|].
  split; [intros v x h; by exists (sixty_forty false x)|].
  split.
  - intros w' l _. split; [done|]. split; [|done]. intros m _. unfold last_v1, last_v2.
    cbn. unfold fresh_21. by destruct (m =? 21)%N.
  - intros a g. apply (no_proposals _ _ _ _ _ _ _ 21%N); [|done]. apply gmods_other. by right.
Qed.

Definition gtwo : gparams :=
  GParams [] None [(20%N, PParams true AnyoneMayPropose None); (21%N, PParams true AnyoneMayPropose None)]
    gold_ids gnew_ids.
Lemma powers_change :
  exists (W : Type) (C : chain W) c w b me a g c' w' acts v x h n n',
    g_run C c w b me a g = Ok (c', w', acts) /\ k_voting c = Some v /\
    ch_power1 C w v x h = Ok n /\ ch_power2 C w' v x h = Ok n' /\ n' <> n.
Proof.
  exists bool, (plain_chain one_open tenfold), gcore, false, (Block 20 0), 30%N, 10%N, gtwo.
  eexists _, _, _. exists 50%N, 2%N, 5, 40, 400.
  split; [vm_compute; reflexivity|]. repeat (split; [vm_compute; reflexivity|]). done.
Qed.
Lemma plain_can :
  exists c' w' acts, g_run (plain_chain one_open sixty_forty) gcore false (Block 20 0) 30 10 gtwo =
    Ok (c', w', acts).
Proof.
  apply (can_upgrade (plain_chain one_open sixty_forty) gcore false (Block 20 0) 30 gtwo).
  - apply plain_upgradable.
  - cbn [gtwo gp_props map fst]. apply NoDup_cons. split; [|by apply NoDup_singleton].
    by intros ?%elem_of_list_singleton.
  - intros m. rewrite gmods_other. cbn [gtwo gp_props map fst].
    rewrite elem_of_cons, elem_of_list_singleton. done.
  - intros. by exists 4.
  - intros m _. by eexists.
  - intros. by exists 100.
  - intros v x h. by exists (sixty_forty false x).
  - intros w' l _. done.
Qed.
