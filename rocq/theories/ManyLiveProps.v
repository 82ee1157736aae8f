(** What a DAO with modules of all kinds can do: theorems.  Each is followed by what it rests on
    and by a concrete case meeting its hypotheses. *)
From stdpp Require Import gmap strings.
From Verif Require Import Base BaseProofs VotingModel VotingSpec HooksModel CoreModel CoreSpec
  ManyModel ManySpec ManyClaims ManyExamples ManyLiveSpec ManyLive ManyLiveExamples.

(** * C142 *)
(** A passed proposal of an enabled module can be executed, and hands the DAO the messages its
    electorate has decided for. *)
Theorem C142_executes K Q b s l q a id :
  qreached K Q b s l -> outside s a = true -> passed_for Q s b q a id ->
  enabled (q_core s) q -> ~ paused (q_core s) b ->
  exists msgs, decided Q s q id msgs /\
  (msgs <> [] -> exists s1 s2 x rest,
    q_event K Q s b (QProp a q (execute_of s q id)) = Ok s1 /\
    q_event K Q s1 b QRun = Ok s2 /\
    q_todo s1 = QP q x :: rest ++ q_todo s /\
    q_todo s2 = acts (map (act_of K) msgs) ++ QEnd q x :: rest ++ q_todo s /\
    is_executed s2 q id).
Proof. exact (c142_executes K Q b s l q a id). Qed.
Print Assumptions C142_executes.
(** Modules to be added and disabled are added and disabled. *)
Theorem C142_changes_modules K Q b s l add dis t news :
  qreached K Q b s l -> q_todo s = QK (KSend (inl (KModules add dis))) :: t ->
  NoDup dis -> (forall a, a ∈ dis -> enabled (q_core s) a) ->
  (add <> [] \/ exists a, enabled (q_core s) a /\ a ∉ dis) ->
  Z.of_nat (size (k_mods (q_core s))) + Z.of_nat (length add) <= U32_MAX ->
  length news = length add -> NoDup (map fst news) ->
  (forall a p, (a, p) ∈ news -> unused s a) ->
  exists s', q_events K Q s b
      (QSelf :: map (fun x : addr * pmodule => QReply x.1 (Some x.2) []) news) = Ok s' /\
    q_todo s' = t /\
    (forall a p, (a, p) ∈ news -> enabled (q_core s') a /\ q_mods s' !! a = Some p) /\
    (forall a, a ∈ dis -> ~ enabled (q_core s') a) /\
    (forall a, a ∉ dis -> a ∉ map fst news ->
       k_mods (q_core s') !! a = k_mods (q_core s) !! a /\ q_mods s' !! a = q_mods s !! a).
Proof. exact (c142_modules K Q b s l add dis t news). Qed.
Print Assumptions C142_changes_modules.
(** The DAO is never left without an enabled module. *)
Theorem C142_never_without K Q b s l : qreached K Q b s l -> q_todo s = [] ->
  exists a, enabled (q_core s) a.
Proof. exact (c142_some K Q b s l). Qed.
Print Assumptions C142_never_without.
(** Proposals of modules of the three kinds have passed. *)
Example C142_case :
  let b := (run_of nx_open).1.1 in let s := (run_of nx_open).1.2 in
  qreached nx_K nx_Q b s (run_of nx_open).2 /\ q_todo s = [] /\
  outside s 2 = true /\ k_paused (q_core s) = None /\
  enabled (q_core s) 60 /\ passed_for nx_Q s b 60 2 2 /\
  enabled (q_core s) 61 /\ passed_for nx_Q s b 61 2 1 /\
  enabled (q_core s) 62 /\ passed_for nx_Q s b 62 2 1.
Proof.
  cbv zeta. split; [exact nx_open_reached|]. do 3 (split; [vm_compute; reflexivity|]).
  split; [apply enabledb_spec; vm_compute; reflexivity|].
  split; [apply passedb_spec; vm_compute; reflexivity|].
  split; [apply enabledb_spec; vm_compute; reflexivity|].
  split; [apply passedb_spec; vm_compute; reflexivity|].
  split; [apply enabledb_spec; vm_compute; reflexivity|].
  apply passedb_spec; vm_compute; reflexivity.
Qed.
(** The DAO is about to create two modules. *)
Example C142_case_modules :
  let b := (run_of nx_adding).1.1 in let s := (run_of nx_adding).1.2 in
  qreached nx_K nx_Q b s (run_of nx_adding).2 /\
  hd_error (q_todo s) = Some (QK (KSend (inl (KModules [300%N; 301%N] [])))) /\
  Z.of_nat (size (k_mods (q_core s))) = 1 /\ enabled (q_core s) 60 /\
  unused s 61 /\ unused s 62.
Proof.
  cbv zeta. split; [exact nx_adding_reached|]. do 2 (split; [vm_compute; reflexivity|]).
  split; [apply enabledb_spec; vm_compute; reflexivity|].
  split; apply unusedb_spec; vm_compute; reflexivity.
Qed.
