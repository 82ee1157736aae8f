(** C99, C100: migrations of the DAO core. *)
From stdpp Require Import gmap strings.
From Verif Require Import Base BaseProofs CoreModel CoreSpec CoreProofs CoreClaims CoreExamples
  MigCoreModel MigCoreSpec MigCoreClaims MigCoreExamples.

(** * C99 *)
Theorem C99_accepted s b a v rest migrator :
  z_left s ->
  ((exists s', z_event s b (ZMigrate a v (ZFromV1 rest migrator)) = Ok s') <->
   a = z_admin s /\ v <> z_version s /\ is_Some (z_vconf s)).
Proof. exact (z_first s b a v rest migrator). Qed.
Print Assumptions C99_accepted.
Theorem C99_taken_over s b a v rest migrator s' :
  z_left s -> z_event s b (ZMigrate a v (ZFromV1 rest migrator)) = Ok s' ->
  let c := k_core (z_st s) in let c' := k_core (z_st s') in
  (forall a, is_Some (k_mods c' !! a) <-> a ∈ z_vmods s) /\
  (forall (n : nat) a, z_vmods s !! n = Some a ->
     exists p, k_mods c' !! a = Some (KMod true p) /\ capitals p /\ spells 0 p = Z.of_nat n + 1) /\
  k_active c' = Z.of_nat (length (z_vmods s)) /\ k_total c' = Z.of_nat (length (z_vmods s)) /\
  others c' = others c /\
  z_vconf s = Some (kc_auto20 (k_conf c'), kc_auto721 (k_conf c')) /\ kc_rest (k_conf c') = rest /\
  z_version s' = v /\
  k_todo (z_st s') =
    match migrator with Some i => [KSend (inl (KModules [i] []))] | None => [] end ++ k_todo (z_st s).
Proof. exact (z_takes_over s b a v rest migrator s'). Qed.
Print Assumptions C99_taken_over.
Example C99_case : z_left zold /\
  z_event zold (Block 5 5000) (ZMigrate 1 2 (ZFromV1 7 (Some 400%N))) = Ok zstart /\
  k_mods (k_core (z_st zstart)) !! 51%N = Some (KMod true "A") /\
  k_mods (k_core (z_st zstart)) !! 52%N = Some (KMod true "B") /\
  q_module_count (k_core (z_st zstart)) = (2, 2) /\ k_conf (k_core (z_st zstart)) = KConf true false 7 /\
  is_ok (z_event zold (Block 5 5000) (ZMigrate 2 2 (ZFromV1 7 None))) = false /\
  is_ok (z_event zold (Block 5 5000) (ZMigrate 1 1 (ZFromV1 7 None))) = false.
Proof. split; [exact zold_left|]. do 6 (split; [vm_compute; reflexivity|]). vm_compute; reflexivity. Qed.

(** * C100 *)
(** Missing: histories in which version one's data are read again. *)
Theorem C100_counts_partial b s : z_upgraded b s ->
  q_module_count (k_core (z_st s)) = (n_active (k_core (z_st s)), n_total (k_core (z_st s))).
Proof. exact (z_counts b s). Qed.
Print Assumptions C100_counts_partial.
Theorem C100_prefixes_partial b s a a' x x' : z_upgraded b s ->
  k_mods (k_core (z_st s)) !! a = Some x -> k_mods (k_core (z_st s)) !! a' = Some x' -> a <> a' ->
  km_prefix x <> km_prefix x'.
Proof. exact (z_prefixes b s a a' x x'). Qed.
Print Assumptions C100_prefixes_partial.
Theorem C100_some_module_partial b s : z_upgraded b s -> k_todo (z_st s) = [] ->
  exists a, enabled (k_core (z_st s)) a.
Proof. exact (z_some_module b s). Qed.
Print Assumptions C100_some_module_partial.
Theorem C100_disabled_partial b s b' s' a x : zleads no_v1 b s b' s' -> z_upgraded b s ->
  k_mods (k_core (z_st s)) !! a = Some x -> km_on x = false ->
  k_mods (k_core (z_st s')) !! a = Some x.
Proof. exact (z_disabled b s b' s' a x). Qed.
Print Assumptions C100_disabled_partial.
Theorem C100_disabled_refuted : exists b s b' s' a x, z_grown b s /\ zleads anything b s b' s' /\
  k_mods (k_core (z_st s)) !! a = Some x /\ km_on x = false /\ ~ enabled (k_core (z_st s)) a /\
  enabled (k_core (z_st s')) a /\ exists s2, z_event s' b' (ZStep (VCall a (KHook [inr 3%N]))) = Ok s2.
Proof. exact z_disabled_refuted. Qed.
Print Assumptions C100_disabled_refuted.
Theorem C100_counts_refuted : exists b s, z_grown b s /\ k_todo (z_st s) = [] /\
  q_module_count (k_core (z_st s)) = (2, 2) /\
  n_active (k_core (z_st s)) = 3 /\ n_total (k_core (z_st s)) = 4.
Proof. exact z_counts_refuted. Qed.
Print Assumptions C100_counts_refuted.
Theorem C100_prefixes_refuted : exists b s a a' x x', z_grown b s /\ a <> a' /\
  k_mods (k_core (z_st s)) !! a = Some x /\ k_mods (k_core (z_st s)) !! a' = Some x' /\
  km_prefix x = km_prefix x'.
Proof. exact z_prefixes_refuted. Qed.
Print Assumptions C100_prefixes_refuted.
Theorem C100_stuck_refuted : exists b s, z_grown b s /\ k_todo (z_st s) = [] /\
  n_active (k_core (z_st s)) = 3 /\ enabled (k_core (z_st s)) 54%N /\
  forall s', k_event (KState (k_core (z_st s)) [KSend (inl (KModules [] [51%N; 52%N]))]) b VSelf <> Ok s'.
Proof. exact z_stuck_refuted. Qed.
Print Assumptions C100_stuck_refuted.
Example C100_case :
  let s := k_core (z_st (zend zhist).2) in
  z_upgraded (zend zhist).1 (zend zhist).2 /\ k_todo (z_st (zend zhist).2) = [] /\
  q_module_count s = (2, 4) /\ k_mods s !! 51%N = Some (KMod false "A") /\
  k_mods s !! 52%N = Some (KMod true "B") /\ k_mods s !! 53%N = Some (KMod false "C") /\
  k_mods s !! 54%N = Some (KMod true "D") /\ z_version (zend zhist).2 = 3%N.
Proof.
  cbv zeta. split.
  { apply zup; [by repeat constructor|eexists; vm_compute; reflexivity]. }
  do 6 (split; [vm_compute; reflexivity|]). vm_compute; reflexivity.
Qed.
