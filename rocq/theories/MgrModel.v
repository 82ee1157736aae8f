(** Model of contracts/external/dao-migrator/src/contract.rs (with utils/state_queries.rs,
    utils/query_helpers.rs and types.rs): the contract that brings a DAO of version one to
    version two.

    The DAO instantiates the migrator as one of its proposal modules and then calls it
    (contract.rs:35-59; the core's side is its migration, see MigCoreModel).  That call with
    all that follows is one transaction, [g_run]: the migrator plans and looks at the DAO,
    has the DAO migrate the modules and add SubDAOs (reply on success), looks again, and has
    the DAO disable it.  A failure anywhere undoes everything.

    The DAO is the core of [CoreModel].  The other contracts are a state [W] that the
    migrator queries and that migrations change ([chain]); versions one's and two's answers
    are separate queries.  During a migration other contracts may run, but none changes the
    core.  The order of the modules is that of the map that holds them; titles and
    descriptions of proposals are left out. *)
From stdpp Require Import gmap strings.
From Verif Require Import Base VotingModel HooksModel SingleModel CoreModel MigModel.

Global Instance threshold_eq_dec : EqDecision threshold.
Proof. solve_decision. Defined.
Global Instance votes_eq_dec : EqDecision votes.
Proof. solve_decision. Defined.
Global Instance veto_config_eq_dec : EqDecision veto_config.
Proof. solve_decision. Defined.
Global Instance proposal_eq_dec : EqDecision proposal.
Proof. solve_decision. Defined.

(** types.rs:7-13, 26-32 [V1CodeIds], [V2CodeIds]. *)
Record codeids := CodeIds { ci_single : Z; ci_cw4 : Z; ci_stake : Z; ci_cw20 : Z }.
(** types.rs:46-51 [ProposalParams]. *)
Record pparams := PParams { pp_close : bool; pp_info : pre_propose_info; pp_veto : option veto_config }.
(** msg.rs:7-13 [MigrateV1ToV2] with types.rs:53-64 [MigrationParams]. *)
Record gparams := GParams {
  gp_subdaos : list (addr * option string);
  gp_stake : option bool;
  gp_props : list (addr * pparams);
  gp_v1 : codeids;
  gp_v2 : codeids }.
(** types.rs:66-74 [MigrationMsgs]. *)
Inductive gmsg := GSingle (m : migrate_msg) | GCw4 | GCw20 | GStake.
(** A migration that the DAO is to perform. *)
Record gact := GAct { ga_at : addr; ga_code : Z; ga_msg : gmsg }.
(** types.rs:125-134 [TestState]. *)
Record tstate := TState {
  ts_counts : list Z; ts_props : list proposal; ts_total : Z; ts_power : Z }.
Global Instance tstate_eq_dec : EqDecision tstate.
Proof. solve_decision. Defined.

(** The other contracts.  [ch_code] is the code id the chain reports, if any; the newest
    proposal is the first of the answer to [ReverseProposals], if any. *)
Record chain (W : Type) := Chain {
  ch_code : W -> addr -> option Z;
  ch_staking : W -> addr -> result addr;
  ch_count1 : W -> addr -> result Z;
  ch_count2 : W -> addr -> result Z;
  ch_last1 : W -> block -> addr -> result (option vproposal);
  ch_last2 : W -> block -> addr -> result (option proposal);
  ch_total1 : W -> addr -> Z -> result Z;
  ch_total2 : W -> addr -> Z -> result Z;
  ch_power1 : W -> addr -> addr -> Z -> result Z;
  ch_power2 : W -> addr -> addr -> Z -> result Z;
  ch_migrate : W -> block -> gact -> result W }.
Arguments ch_code {W}. Arguments ch_staking {W}. Arguments ch_count1 {W}.
Arguments ch_count2 {W}. Arguments ch_last1 {W}. Arguments ch_last2 {W}.
Arguments ch_total1 {W}. Arguments ch_total2 {W}. Arguments ch_power1 {W}.
Arguments ch_power2 {W}. Arguments ch_migrate {W}.

Fixpoint collect {A B} (f : A -> result B) (l : list A) : result (list B) :=
  match l with
  | [] => Ok []
  | x :: l => do! y <- f x; do! ys <- collect f l; Ok (y :: ys)
  end.

(** ** What is to be migrated *)
(** contract.rs:102-126: the message for a proposal module. *)
Definition single_act (g : gparams) (a : addr) (p : pparams) : gact :=
  GAct a (ci_single (gp_v2 g)) (GSingle (FromV1 (pp_close p) (pp_info p) (pp_veto p))).
(** The first entry for an address. *)
Fixpoint params_of (a : addr) (l : list (addr * pparams)) : option pparams :=
  match l with
  | [] => None
  | (a', p) :: l => if (a' =? a)%N then Some p else params_of a l
  end.

Section planning.
Context {W : Type} (C : chain W).

(** 146-222: the voting module and its staking contract. *)
Definition plan_voting (c : core) (w : W) (g : gparams) : result (addr * list gact) :=
  some! v <- k_voting c else "NotFound";
  some! n <- ch_code C w v else "NoContractInfo";
  if n =? ci_cw4 (gp_v1 g) then Ok (v, [GAct v (ci_cw4 (gp_v2 g)) GCw4])
  else if n =? ci_cw20 (gp_v1 g) then
    check! default false (gp_stake g) else "DontMigrateCw20";
    do! st <- ch_staking C w v;
    some! k <- ch_code C w st else "NoContractInfo";
    check! k =? ci_stake (gp_v1 g) else "CantMigrateModule";
    Ok (v, [GAct v (ci_cw20 (gp_v2 g)) GCw20; GAct st (ci_stake (gp_v2 g)) GStake])
  else Err "VotingModuleNotFound".

(** 242-292: the loop over the proposal modules; [me] is the migrator. *)
Fixpoint plan_singles (w : W) (g : gparams) (me : addr) (l : list addr) : result (list gact) :=
  match l with
  | [] => Ok []
  | a :: l =>
      if (a =? me)%N then plan_singles w g me l
      else
        some! p <- params_of a (gp_props g) else "ProposalModuleNotFoundInParams";
        some! n <- ch_code C w a else "NoContractInfo";
        check! n =? ci_single (gp_v1 g) else "CantMigrateModule";
        do! acts <- plan_singles w g me l;
        Ok (single_act g a p :: acts)
  end.

(** 92-299, up to [verify] (types.rs:106-116): the voting module, the proposal modules and
    what is to be migrated.  The subtraction at 238 panics without modules. *)
Definition g_plan (c : core) (w : W) (me : addr) (g : gparams)
  : result (addr * list addr * list gact) :=
  check! bool_decide (NoDup (map fst (gp_props g))) else "DuplicateProposalParams";
  do! ' (v, vacts) <- plan_voting c w g;
  let mods := map fst (map_to_list (k_mods c)) in
  check! 1 <=? Z.of_nat (length mods) else "panic";
  check! Z.of_nat (length mods) - 1 =? Z.of_nat (length (gp_props g))
    else "MigrationParamsNotEqualProposalModulesLength";
  do! pacts <- plan_singles w g me mods;
  check! match pacts with [] => false | _ => true end else "DaoProposalSingleNotFound";
  Ok (v, map ga_at pacts, vacts ++ pacts).

(** ** The tests before and after *)
(** utils/state_queries.rs:33-93, of one module. *)
Definition last_v1 (w : W) (b : block) (a : addr) : result proposal :=
  do! o <- ch_last1 C w b a;
  some! p <- o else "NoProposalsOnModule";
  Ok (prop_to_v2 p).
(** 95-140. *)
Definition last_v2 (w : W) (b : block) (a : addr) : result proposal :=
  do! o <- ch_last2 C w b a;
  some! p <- o else "NoProposalsOnModule";
  Ok p.
(** contract.rs:374-395 [query_state_v1]; the first proposal is the sample. *)
Definition state_v1 (w : W) (b : block) (v : addr) (l : list addr) : result tstate :=
  do! ns <- collect (ch_count1 C w) l;
  do! ps <- collect (last_v1 w b) l;
  some! p <- head ps else "panic";
  do! t <- ch_total1 C w v (p_start p);
  do! n <- ch_power1 C w v (p_proposer p) (p_start p);
  Ok (TState ns ps t n).
(** 397-419 [query_state_v2]. *)
Definition state_v2 (w : W) (b : block) (v : addr) (l : list addr) : result tstate :=
  do! ns <- collect (ch_count2 C w) l;
  do! ps <- collect (last_v2 w b) l;
  some! p <- head ps else "panic";
  do! t <- ch_total2 C w v (p_start p);
  do! n <- ch_power2 C w v (p_proposer p) (p_start p);
  Ok (TState ns ps t n).

(** ** The transaction *)
Fixpoint migrate_all (w : W) (b : block) (l : list gact) : result W :=
  match l with
  | [] => Ok w
  | x :: l => do! w' <- ch_migrate C w b x; migrate_all w' b l
  end.
(** The migrator has the DAO dispatch messages of its own (the core's
    [ExecuteProposalHook]); they are executed by what follows the check. *)
Definition through_dao (c : core) (b : block) (me : addr) : result unit :=
  do! _ <- k_execute c b me (KHook []); Ok tt.

(** 79-328 [execute_migration_v1_v2], the messages of the DAO in their order, 337-372
    [reply] with 421-431 [test_state], and the DAO disabling the migrator. *)
Definition g_run (c : core) (w : W) (b : block) (me sender : addr) (g : gparams)
  : result (core * W * list gact) :=
  check! (sender =? k_self c)%N else "Unauthorized";
  do! ' (v, ps, acts) <- g_plan c w me g;
  do! t1 <- state_v1 w b v ps;
  do! _ <- through_dao c b me;
  do! w' <- migrate_all w b acts;
  do! ' (c1, _) <- k_execute c b (k_self c) (KSubdaos (gp_subdaos g) []);
  do! t2 <- state_v2 w' b v ps;
  check! bool_decide (t2 = t1) else "TestFailed";
  do! _ <- through_dao c1 b me;
  do! ' (c2, _) <- k_execute c1 b (k_self c1) (KModules [] [me]);
  Ok (c2, w', acts).
End planning.

(** ** With the migration of the single-choice module *)
(** The proposal modules hold the storages of [MigModel] and run the code of this version
    after a migration to it.  What version one answers, and everything about the voting
    module, stays open. *)
Record world := World { wo_stores : gmap addr store; wo_codes : gmap addr Z }.
Record answers := Answers {
  an_dao : addr;                                  (* who sends the migrations *)
  an_version : Z -> N;                            (* the version of a code *)
  an_new : addr -> addr;                          (* the pre-propose module created for a module *)
  an_staking : addr -> result addr;
  an_last1 : store -> block -> result (option vproposal);
  an_total1 : addr -> Z -> result Z;
  an_total2 : addr -> Z -> result Z;
  an_power1 : addr -> addr -> Z -> result Z;
  an_power2 : addr -> addr -> Z -> result Z;
  an_migrate : addr -> Z -> gmsg -> bool }.       (* whether other migrations succeed *)

(** dao-proposal-single/src/contract.rs:890-909 [query_reverse_proposals], its first. *)
Definition newest (s : state) (b : block) : result (option proposal) :=
  let ids := map fst (map_to_list (s_props s)) in
  match ids with
  | [] => Ok None
  | i :: l =>
      let m := fold_right Z.max i l in
      some! p <- s_props s !! m else "panic";
      do! st <- current_status p b;
      Ok (Some (Proposal (p_proposer p) (p_start p) (p_min p) (p_exp p) (p_thr p) (p_total p)
                  (p_msgs p) st (p_votes p) (p_revote p) (p_veto p)))
  end.
(** The sub-messages of a migration: the pre-propose module is created. *)
Fixpoint finish (t : store) (b : block) (d : addr) (l : list sub) : result store :=
  match l with
  | [] => Ok t
  | x :: l => do! t' <- t_ok t b x d; finish t' b d l
  end.
Definition real_chain (O : oracle) (A : answers) : chain world := {|
  ch_code := fun w a => wo_codes w !! a;
  ch_staking := fun _ v => an_staking A v;
  ch_count1 := fun w a => some! t <- wo_stores w !! a else "no contract"; Ok (t_count t);
  ch_count2 := fun w a =>
    some! t <- wo_stores w !! a else "no contract";
    some! s <- live t else "NotFound"; Ok (s_count s);
  ch_last1 := fun w b a => some! t <- wo_stores w !! a else "no contract"; an_last1 A t b;
  ch_last2 := fun w b a =>
    some! t <- wo_stores w !! a else "no contract";
    some! s <- live t else "NotFound"; newest s b;
  ch_total1 := fun _ => an_total1 A;
  ch_total2 := fun _ => an_total2 A;
  ch_power1 := fun _ => an_power1 A;
  ch_power2 := fun _ => an_power2 A;
  ch_migrate := fun w b x =>
    match ga_msg x with
    | GSingle m =>
        some! t <- wo_stores w !! ga_at x else "no contract";
        do! ' (t1, subs) <- t_handle O t b (an_dao A) (TMigrate (an_version A (ga_code x)) m);
        do! t2 <- finish t1 b (an_new A (ga_at x)) subs;
        Ok (World (<[ga_at x := t2]> (wo_stores w)) (<[ga_at x := ga_code x]> (wo_codes w)))
    | m =>
        check! an_migrate A (ga_at x) (ga_code x) m else "migration failed";
        Ok (World (wo_stores w) (<[ga_at x := ga_code x]> (wo_codes w)))
    end |}.
