(** dao-voting: comparisons of vote counts with thresholds, and reply ids. *)
From Verif Require Import Base BaseProofs VotingModel VotingSpec HooksModel VotingProofs.

(** * C06, arithmetic *)
(** The pass test is the exact test with a tolerance of less than one billionth
    of a vote. *)
Theorem C06_pass_test w o p :
  0 <= o -> does_vote_count_pass w o p = true <-> share_near w o p.
Proof. exact (pass_iff w o p). Qed.
Print Assumptions C06_pass_test.
(** It never misses a share that is reached exactly, and is exact with at most
    nine decimals. *)
Theorem C06_pass_test_complete w o p : share_met w o p -> share_near w o p.
Proof. exact (met_near w o p). Qed.
Print Assumptions C06_pass_test_complete.
Theorem C06_pass_test_exact w o p : nine_decimals_p p -> share_near w o p -> share_met w o p.
Proof. exact (near_met w o p). Qed.
Print Assumptions C06_pass_test_exact.
Example C06_pass_test_case :
  does_vote_count_pass 2 3 (Percent 666666666666666667) = true /\
  ~ share_met 2 3 (Percent 666666666666666667) /\
  does_vote_count_pass 2 3 (Percent 666666667000000000) = false /\
  nine_decimals_p (Percent 666666667000000000) /\
  share_met (2 ^ 127) (2 ^ 128 - 1) Majority.
Proof.
  split; [vm_compute; reflexivity|]. split; [vm_compute; intros [_ H]; by apply H|].
  split; [vm_compute; reflexivity|]. split; [exists 666666667; reflexivity|].
  vm_compute. split; reflexivity.
Qed.

(** * C05, arithmetic *)
(** The reject test is exact, and rules out every continuation. *)
Theorem C05_reject_test n o p :
  does_vote_count_fail n o p = true <->
    o = 0 \/ (o <> 0 /\ match p with
                        | Majority => o <= 2 * n
                        | Percent a => o * (10 ^ 18 - a) < n * 10 ^ 18
                        end).
Proof. exact (fail_iff n o p). Qed.
Print Assumptions C05_reject_test.
Theorem C05_reject_test_sound n o n' o' w' p :
  pct_range p -> 0 <= w' -> 0 <= o ->
  does_vote_count_fail n o p = true -> n <= n' -> o' <= o -> w' + n' <= o' ->
  ~ share_met w' o' p.
Proof. exact (fail_excludes_met n o n' o' w' p). Qed.
Print Assumptions C05_reject_test_sound.
Example C05_reject_test_case :
  does_vote_count_fail 34 100 (Percent (67 * 10 ^ 16)) = true /\
  does_vote_count_fail 33 100 (Percent (67 * 10 ^ 16)) = false /\
  pct_range (Percent (67 * 10 ^ 16)).
Proof. vm_compute. repeat split; discriminate. Qed.

(** * C20 *)
Theorem C20_reply_id_roundtrip t : tagged_ok t -> tagged_new (reply_id_of t) = Ok t.
Proof. exact (tagged_roundtrip t). Qed.
Print Assumptions C20_reply_id_roundtrip.
Theorem C20_reply_ids_distinct t t' :
  tagged_ok t -> tagged_ok t' -> reply_id_of t = reply_id_of t' -> t = t'.
Proof. exact (tagged_inj t t'). Qed.
Print Assumptions C20_reply_ids_distinct.
(** The ids fit 64 bits. *)
Theorem C20_reply_id_range t : tagged_ok t -> 0 <= reply_id_of t <= U64_MAX.
Proof. exact (tagged_range t). Qed.
Print Assumptions C20_reply_id_range.
Example C20_case :
  tagged_ok (FailedProposalExecution (2 ^ 61 - 1)) /\
  tagged_new (reply_id_of (FailedProposalExecution (2 ^ 61 - 1)))
    = Ok (FailedProposalExecution (2 ^ 61 - 1)) /\
  (* the bound is sharp *)
  tagged_new (reply_id_of (FailedProposalExecution (2 ^ 61))) = Ok (FailedProposalExecution 0).
Proof. vm_compute. repeat split; discriminate. Qed.
