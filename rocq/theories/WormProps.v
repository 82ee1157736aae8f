(** cw-wormhole and cw-stake-tracker: theorems.  Each is followed by what it rests on
    and by a concrete case meeting its hypotheses. *)
From Verif Require Import Base BaseProofs WormModel WormSpec WormProofs WormClaims WormExamples.

(** * C49 *)
Theorem C49_load_is_sum_of_updates ops m k t :
  wm_run ∅ ops = Ok m -> default 0 (w_load (wm_get m k) t) = wsum k t ops.
Proof. exact (c49_load ops m k t). Qed.
Print Assumptions C49_load_is_sum_of_updates.
Theorem C49_known_from_first_update ops m k t :
  wm_run ∅ ops = Ok m ->
  ((exists x, w_load (wm_get m k) t = Some x) <-> exists o, o ∈ ops /\ wop_touches k t o = true).
Proof. exact (c49_known ops m k t). Qed.
Print Assumptions C49_known_from_first_update.
Theorem C49_order_is_irrelevant ops ops' m m' k t :
  wm_run ∅ ops = Ok m -> wm_run ∅ ops' = Ok m' -> Permutation ops ops' ->
  w_load (wm_get m k) t = w_load (wm_get m' k) t.
Proof. exact (c49_order ops ops' m m' k t). Qed.
Print Assumptions C49_order_is_irrelevant.
Theorem C49_updates_succeed_in_range ops :
  Forall (fun o => match o with WInc _ _ i | WDec _ _ i => 0 <= i end) ops ->
  (exists m, wm_run ∅ ops = Ok m) <->
  forall n k t, 0 <= wsum k t (take n ops) <= U128_MAX.
Proof. exact (c49_success ops). Qed.
Print Assumptions C49_updates_succeed_in_range.
Example C49_case :
  wm_run ∅ ex_wops = Ok ex_wm /\ wm_run ∅ ex_wops' = Ok ex_wm' /\ Permutation ex_wops ex_wops' /\
  Forall (fun o => match o with WInc _ _ i | WDec _ _ i => 0 <= i end) ex_wops /\
  map (w_load (wm_get ex_wm 1)) [9; 10; 20; 24; 25; 30] =
    [None; Some 3; Some 7; Some 7; Some 4; Some 11] /\
  map (fun t => wsum 1 t ex_wops) [9; 10; 20; 24; 25; 30] = [0; 3; 7; 7; 4; 11].
Proof.
  split; [exact ex_wm_ok|]. split; [exact ex_wm'_ok|]. split; [exact ex_wops_perm|].
  split; [repeat constructor; lia|]. split; vm_compute; reflexivity.
Qed.

(** * C50 *)
(** Missing: slashes of unbonding tokens, for which the statement is false (below). *)
Theorem C50_total_partial ops k u :
  t_run tr_new ops = Ok k -> Forall (fun o => is_unb o = false) ops ->
  total_staked k u = staked_at u ops.
Proof. exact (c50_total ops k u). Qed.
Print Assumptions C50_total_partial.
Theorem C50_validator_partial ops k v u :
  t_run tr_new ops = Ok k -> Forall (fun o => is_unb o = false) ops ->
  validator_staked k v u = staked_with v u ops.
Proof. exact (c50_validator ops k v u). Qed.
Print Assumptions C50_validator_partial.
Theorem C50_validators_sum_to_total_partial ops k u :
  t_run tr_new ops = Ok k -> Forall (fun o => is_unb o = false) ops ->
  lsum (fun v => validator_staked k v u) (vals_of ops) = total_staked k u.
Proof. exact (c50_adds_up ops k u). Qed.
Print Assumptions C50_validators_sum_to_total_partial.
Theorem C50_unbonding_slash_until_next_change ops k t v ps k' u :
  t_run tr_new ops = Ok k -> t_apply k (TSlashUnb t v ps) = Ok k' ->
  total_staked k' u =
    total_staked k u -
    (if (t <=? u) && forallb (fun e => (e.1 <=? t) || (u <? e.1)) (tr_total k)
     then lsum snd ps else 0).
Proof. exact (c50_unbonding_slash ops k t v ps k' u). Qed.
Print Assumptions C50_unbonding_slash_until_next_change.
Example C50_case :
  t_run tr_new ex_tops = Ok ex_tr /\ Forall (fun o => is_unb o = false) ex_tops /\
  map (total_staked ex_tr) [9; 10; 20; 34; 35; 50; 129; 130] = [0; 100; 150; 150; 145; 152; 152; 112] /\
  map (validator_staked ex_tr 1) [10; 30; 40; 50; 130] = [100; 100; 70; 77; 37] /\
  vals_of ex_tops = [2; 1]%N /\
  exists k', t_apply ex_tr (TSlashUnb 60 1 [(130, 3)]) = Ok k' /\
    map (total_staked k') [59; 60; 129; 130] = [152; 149; 149; 112].
Proof.
  split; [exact ex_tr_ok|]. split; [repeat constructor|]. split; [vm_compute; reflexivity|].
  split; [vm_compute; reflexivity|]. split; [vm_compute; reflexivity|].
  exists (ok_or (t_apply ex_tr (TSlashUnb 60 1 [(130, 3)])) tr_new).
  split; vm_compute; reflexivity.
Qed.
Theorem C50_unbonding_slash_refuted :
  exists ops k u, in_time_order ops /\ t_run tr_new ops = Ok k /\
    staked_at u ops = 8 /\ total_staked k u = 10.
Proof. exact c50_unbonding_refuted. Qed.
Print Assumptions C50_unbonding_slash_refuted.

(** * C74 *)
(** Missing: redelegations, slashes, and delegating to a validator all of whose
    tokens are unbonding; the count is wrong in the first and the last case. *)
Theorem C74_cardinality_partial d ops k u :
  0 <= d -> t_run tr_new ops = Ok k -> steady d [] ops ->
  validator_cardinality k u = vals_with_stake u ops.
Proof. exact (c74_cardinality d ops k u). Qed.
Print Assumptions C74_cardinality_partial.
Definition ex_steady : list top := [TDel 0 1 10; TDel 1 2 5; TUndel 2 1 4 100; TDel 3 1 2; TUndel 4 1 8 100].
Example C74_case :
  steady 100 [] ex_steady /\ is_ok (t_run tr_new ex_steady) = true /\
  map (fun u => vals_with_stake u ex_steady) [0; 1; 103; 104] = [1; 2; 2; 1].
Proof.
  split; [|split; vm_compute; reflexivity].
  unfold ex_steady. cbn [steady app top_time]. repeat split; try lia; try (repeat constructor; cbn; lia);
    unfold staked_with in *; cbn [lsum top_val] in *; cbn in *; intros;
    repeat match goal with |- context [if ?a <=? ?b then _ else _] => destruct (Z.leb_spec a b); try lia end;
    repeat match goal with H : context [if ?a <=? ?b then _ else _] |- _ => destruct (Z.leb_spec a b); try lia end.
Qed.
Theorem C74_delegating_again_refuted :
  exists ops k u, in_time_order ops /\ t_run tr_new ops = Ok k /\
    staked_with 1 u ops = 10 /\ vals_with_stake u ops = 1 /\ validator_cardinality k u = 0.
Proof. exact c74_again_refuted. Qed.
Print Assumptions C74_delegating_again_refuted.
Theorem C74_redelegating_refuted :
  exists ops k u, in_time_order ops /\ t_run tr_new ops = Ok k /\
    staked_with 1 u ops = 0 /\ vals_with_stake u ops = 1 /\ validator_cardinality k u = 2.
Proof. exact c74_redelegate_refuted. Qed.
Print Assumptions C74_redelegating_refuted.

(** * C75 *)
(** The last condition holds when the cardinality is right. *)
Theorem C75_undelegate_partial ops k t v n d :
  t_run tr_new ops = Ok k -> 0 <= n -> t + d <= U64_MAX ->
  (forall u, t + d <= u -> n <= total_staked k u /\ n <= validator_staked k v u /\
     1 <= validator_cardinality k u) ->
  exists k', t_apply k (TUndel t v n d) = Ok k'.
Proof. exact (c75_undelegate_run ops k t v n d). Qed.
Print Assumptions C75_undelegate_partial.
Example C75_case :
  t_run tr_new ex_tops = Ok ex_tr /\
  (forall u, 200 + 100 <= u -> 30 <= total_staked ex_tr u /\ 30 <= validator_staked ex_tr 1 u /\
     1 <= validator_cardinality ex_tr u).
Proof.
  split; [exact ex_tr_ok|]. intros u Hu. unfold total_staked, validator_staked, validator_cardinality, w_load.
  assert (forall w, forallb (fun e => e.1 <=? 300) w = true -> w_find w u None = w_find w 300 None) as H.
  { intros w Hw. apply find_same; [lia|]. unfold between. induction w as [|e w IH]; [done|].
    cbn in Hw |- *. apply andb_true_iff in Hw as [? ?]. rewrite IH by done. lia. }
  rewrite !H by (vm_compute; reflexivity). vm_compute. repeat split; discriminate.
Qed.
Theorem C75_undelegate_refuted :
  exists ops k t v n d, in_time_order (ops ++ [TUndel t v n d]) /\ t_run tr_new ops = Ok k /\
    0 < n /\ (forall u, t <= u -> staked_with v u ops = n) /\
    t_apply k (TUndel t v n d) = Err "panic".
Proof. exact c75_refuted. Qed.
Print Assumptions C75_undelegate_refuted.
