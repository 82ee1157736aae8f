(** C112: the version recorded by migrations that do nothing else. *)
From Verif Require Import Base BaseProofs VerModel VerSpec VerClaims VerExamples.

(** * C112 *)
Theorem C112_newer_partial name i :
  release (i_version i) -> (w_major (i_version i) < 10)%N -> (w_minor (i_version i) < 10)%N ->
  exists i', migrate_newer name i = Ok i' /\
    (older (i_version i) code_version -> i' = Recorded name (Version 2 5 0 "")) /\
    (~ older (i_version i) code_version -> i' = i).
Proof. exact (c112_newer name i). Qed.
Print Assumptions C112_newer_partial.
Theorem C112_upgrade_partial name i :
  (exists i', migrate_upgrade name i = Ok i') <->
  (i_name i = name /\ older (i_version i) code_version).
Proof. exact (c112_upgrade name i). Qed.
Print Assumptions C112_upgrade_partial.
Theorem C112_upgrade_result_partial name i i' :
  migrate_upgrade name i = Ok i' ->
  i' = Recorded name (Version 2 5 0 "") /\ is_ok (migrate_upgrade name i') = false.
Proof. exact (c112_upgrade_result name i i'). Qed.
Print Assumptions C112_upgrade_result_partial.
Theorem C112_downgrade_refuted :
  exists name i i', release (i_version i) /\ older code_version (i_version i) /\
    migrate_newer name i = Ok i' /\ i_version i' = code_version /\ i_version i' <> i_version i.
Proof. exact c112_downgrade_refuted. Qed.
Print Assumptions C112_downgrade_refuted.
Theorem C112_pre_release_refuted :
  exists name i i', older (i_version i) code_version /\
    migrate_newer name i = Ok i' /\ i_version i' <> code_version.
Proof. exact c112_upgrade_refuted. Qed.
Print Assumptions C112_pre_release_refuted.
Example C112_case_text :
  map render [Version 2 5 0 ""; Version 2 10 0 ""; Version 0 0 120 "rc.1"] =
  ["2.5.0"; "2.10.0"; "0.0.120-rc.1"]%string.
Proof. vm_compute. reflexivity. Qed.
Example C112_case_newer :
  map (fun i => ex_shown (migrate_newer 1 i))
    [ex_at 1 9 9 ""; ex_at 2 4 12 ""; ex_at 2 5 0 ""; ex_at 2 5 1 ""; ex_at 3 0 0 "";
     ex_at 2 10 0 ""; ex_at 10 0 0 ""; ex_at 2 5 0 "alpha"] =
  ["2.5.0"; "2.5.0"; "2.5.0"; "2.5.1"; "3.0.0"; "2.5.0"; "2.5.0"; "2.5.0-alpha"]%string.
Proof. vm_compute. reflexivity. Qed.
Example C112_case_always :
  map (fun i => ex_shown (migrate_always 1 i)) [ex_at 1 9 9 ""; ex_at 2 10 0 ""] =
  ["2.5.0"; "2.5.0"]%string.
Proof. vm_compute. reflexivity. Qed.
Example C112_case_upgrade :
  map (fun i => ex_shown (migrate_upgrade 1 i))
    [ex_at 2 4 12 ""; ex_at 2 5 0 "alpha"; ex_at 2 5 0 ""; ex_at 2 10 0 "";
     Recorded 2 (Version 2 4 0 "")] =
  ["2.5.0"; "2.5.0"; "MigrationErrorInvalidVersion"; "MigrationErrorInvalidVersion";
   "MigrationErrorIncorrectContract"]%string.
Proof. vm_compute. reflexivity. Qed.
