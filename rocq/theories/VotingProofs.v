(** Lemmas about vote counting and reply ids. *)
From Verif Require Import Base BaseProofs VotingModel VotingSpec HooksModel.

Lemma div_le_iff x n P : 0 < P -> x / P <= n <-> x < (n + 1) * P.
Proof. intros. split; intros; [|apply Z.lt_succ_r, Z.div_lt_upper_bound; lia].
  pose proof (Z.mul_succ_div_gt x P). nia. Qed.
Lemma div_lt_iff x n P : 0 < P -> x / P < n <-> x < n * P.
Proof. intros. pose proof (div_le_iff x (n - 1) P). lia. Qed.

Lemma thr_simpl t p : t * PRECISION_FACTOR * p / DEC_ONE = t * p / 10 ^ 9.
Proof.
  unfold PRECISION_FACTOR, DEC_ONE.
  replace (t * 10 ^ 9 * p) with (t * p * 10 ^ 9) by lia.
  replace (10 ^ 18) with (10 ^ 9 * 10 ^ 9) by reflexivity.
  apply Z.div_mul_cancel_r; lia.
Qed.

Lemma compare_geq v t p :
  compare_vote_count v Geq t p = true <-> t * p < v * 10 ^ 18 + 10 ^ 9.
Proof.
  unfold compare_vote_count. rewrite thr_simpl, Z.leb_le, div_le_iff by lia.
  unfold PRECISION_FACTOR. lia.
Qed.
Lemma compare_greater v t p :
  compare_vote_count v Greater t p = true <-> t * p < v * 10 ^ 18.
Proof.
  unfold compare_vote_count. rewrite thr_simpl, Z.ltb_lt, div_lt_iff by lia.
  unfold PRECISION_FACTOR. lia.
Qed.

Lemma pass_iff w o p :
  0 <= o -> does_vote_count_pass w o p = true <-> share_near w o p.
Proof.
  intros Ho. unfold does_vote_count_pass, share_near.
  destruct (o =? 0) eqn:E; [split; [done|lia]|].
  destruct p as [|a]; [lia|]. rewrite compare_geq. lia.
Qed.

Lemma fail_iff n o p :
  does_vote_count_fail n o p = true <->
    o = 0 \/ (o <> 0 /\ match p with
                        | Majority => o <= 2 * n
                        | Percent a => o * (10 ^ 18 - a) < n * 10 ^ 18
                        end).
Proof.
  unfold does_vote_count_fail. destruct (o =? 0) eqn:E; [split; [lia|done]|].
  destruct p as [|a]; [lia|]. rewrite compare_greater. unfold DEC_ONE. lia.
Qed.

Lemma met_near w o p : share_met w o p -> share_near w o p.
Proof. unfold share_met, share_near. destruct p; lia. Qed.
Lemma near_met w o p : nine_decimals_p p -> share_near w o p -> share_met w o p.
Proof.
  unfold share_met, share_near. destruct p as [|a]; [lia|].
  intros [k ->] [Ho H]. split; [done|].
  assert (o * k < w * 10 ^ 9 + 1) by nia. nia.
Qed.

Lemma outcome_met_near t T v : outcome_met t T v -> outcome_near t T v.
Proof.
  destruct t; simpl; try done; unfold outcome_met, outcome_near; simpl;
    intuition eauto using met_near.
Qed.
Lemma outcome_near_met t T v : nine_decimals t -> outcome_near t T v -> outcome_met t T v.
Proof.
  destruct t; simpl; try done; unfold outcome_met, outcome_near; simpl;
    intuition eauto using near_met.
Qed.

(** More votes for, fewer options: still reached. *)
Lemma near_mono w o w' o' p :
  pct_range p -> at_least_billionth_p p -> share_near w o p ->
  w <= w' -> o' <= o -> w' <= o' -> share_near w' o' p.
Proof.
  unfold share_near. destruct p as [|a]; simpl; [lia|].
  intros Ha Hb [Ho H] Hw Ho' Hwo.
  assert (0 < w) by nia. split; [lia|]. nia.
Qed.
Lemma near_mono_w w w' o p : share_near w o p -> w <= w' -> share_near w' o p.
Proof. unfold share_near. destruct p; lia. Qed.

(** The reject test is exact, and rules out the exact pass test for every
    extension. *)
Lemma fail_excludes_met n o n' o' w' p :
  pct_range p -> 0 <= w' -> 0 <= o ->
  does_vote_count_fail n o p = true -> n <= n' -> o' <= o -> w' + n' <= o' ->
  ~ share_met w' o' p.
Proof.
  intros Hp Hw Ho Hf Hn Hoo Hsum. apply fail_iff in Hf. unfold share_met.
  destruct p as [|a]; simpl in *; [lia|]. intros [Ho' Hm].
  destruct Hf as [?|[Hne Hf]]; [lia|]. nia.
Qed.

Lemma fail_one_special n o :
  does_vote_count_fail n o (Percent DEC_ONE) = if o =? 0 then true else 1 <=? n.
Proof.
  destruct (does_vote_count_fail n o (Percent DEC_ONE)) eqn:E.
  - apply fail_iff in E. unfold DEC_ONE in E. destruct (o =? 0) eqn:Eo; lia.
  - destruct (o =? 0) eqn:Eo.
    + unfold does_vote_count_fail in E. rewrite Eo in E. done.
    + destruct (1 <=? n) eqn:En; [|done].
      assert (does_vote_count_fail n o (Percent DEC_ONE) = true); [|congruence].
      apply fail_iff. unfold DEC_ONE. lia.
Qed.

(** ** Reply ids *)
Lemma shl3_small n : 0 <= n < 2 ^ 61 -> shl3 n = n * 8.
Proof.
  intros H. unfold shl3. rewrite Z.shiftl_mul_pow2 by lia.
  change (2 ^ 3) with 8. apply Z.mod_small. lia.
Qed.
Lemma lor_shl3 t n :
  0 <= t < 8 -> 0 <= n -> Z.lor t (n * 8) = n * 8 + t.
Proof.
  intros Ht Hn. rewrite Z.lor_comm. rewrite <- Z.add_nocarry_lor; [lia|].
  change 8 with (2 ^ 3). rewrite <- Z.shiftl_mul_pow2 by lia.
  apply Z.bits_inj'. intros i Hi. rewrite Z.land_spec, Z.bits_0.
  destruct (Z.lt_ge_cases i 3).
  - rewrite Z.shiftl_spec_low by lia. done.
  - rewrite (Z.bits_above_log2 t i); [apply andb_false_r|lia|].
    destruct (Z.eq_dec t 0) as [->|]; [simpl; lia|].
    enough (Z.log2 t < 3) by lia. apply Z.log2_lt_pow2; lia.
Qed.
Lemma tagged_split t n : 0 <= t < 8 -> 0 <= n ->
  Z.land (n * 8 + t) 7 = t /\ Z.shiftr (n * 8 + t) 3 = n.
Proof.
  intros Ht Hn. split.
  - change 7 with (Z.ones 3). rewrite Z.land_ones by lia. change (2 ^ 3) with 8.
    rewrite Z.add_comm, Z.mod_add by lia. apply Z.mod_small; lia.
  - rewrite Z.shiftr_div_pow2 by lia. change (2 ^ 3) with 8.
    rewrite Z.div_add_l by lia. rewrite Z.div_small by lia. lia.
Qed.
Definition tagged_ok (t : tagged_reply) : Prop :=
  match t with
  | FailedProposalExecution n | FailedProposalHook n | FailedVoteHook n => 0 <= n < 2 ^ 61
  | _ => True
  end.
Lemma tagged_roundtrip t : tagged_ok t -> tagged_new (reply_id_of t) = Ok t.
Proof.
  destruct t as [n|n|n| |]; cbn [tagged_ok reply_id_of]; intros H; try reflexivity;
    unfold mask_proposal_execution_proposal_id, mask_proposal_hook_index,
      mask_vote_hook_index; rewrite shl3_small, lor_shl3 by lia; unfold tagged_new.
  - destruct (tagged_split 0 n) as [-> ->]; [lia..|reflexivity].
  - destruct (tagged_split 1 n) as [-> ->]; [lia..|reflexivity].
  - destruct (tagged_split 2 n) as [-> ->]; [lia..|reflexivity].
Qed.
Lemma tagged_range t : tagged_ok t -> 0 <= reply_id_of t <= U64_MAX.
Proof.
  unfold U64_MAX. destruct t as [n|n|n| |]; cbn [tagged_ok reply_id_of]; intros H;
    unfold mask_proposal_execution_proposal_id, mask_proposal_hook_index,
      mask_vote_hook_index, failed_pre_propose_module_hook_id,
      pre_propose_module_instantiation_id; try lia;
    rewrite shl3_small, lor_shl3 by lia; lia.
Qed.
Lemma tagged_inj t t' :
  tagged_ok t -> tagged_ok t' -> reply_id_of t = reply_id_of t' -> t = t'.
Proof.
  intros H H' E. pose proof (tagged_roundtrip t H) as A.
  pose proof (tagged_roundtrip t' H') as B. rewrite E in A. congruence.
Qed.
