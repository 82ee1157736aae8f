(** Lemmas about stakes in parts. *)
From Verif Require Import Base BaseProofs Exec ExecProofs Plain PlainProofs HooksModel
  StoreModel StoreProofs StakeModel StakeSpec StakeProofs StakeClaims StakeSplitSpec.

Lemma out_arith T x Y P :
  0 <= x -> 0 < T - x -> 0 <= Y <= T - x -> 0 <= P ->
  let n := x * P / T in
  n + Y * (P - n) / (T - x) <= (x + Y) * P / T /\ (x + Y) * P / T <= n + Y * (P - n) / (T - x) + 1.
Proof.
  intros Hx HT HY HP n. set (U := T - x) in *. assert (T = U + x) as ET by lia.
  pose proof (div_mul_le (x * P) T ltac:(lia)) as A1. pose proof (div_mul_gt (x * P) T ltac:(lia)) as A2.
  fold n in A1, A2. set (q := Y * (P - n) / U).
  pose proof (div_mul_le (Y * (P - n)) U HT) as B1. pose proof (div_mul_gt (Y * (P - n)) U HT) as B2.
  fold q in B1, B2. split.
  - apply Z.div_le_lower_bound; [lia|].
    set (r := x * P - n * T). assert (0 <= r < T) as Hr by (unfold r; lia).
    assert (q * T * U <= (Y * P + r) * U) as C.
    { assert (q * U * T <= Y * (P - n) * T) by (apply Z.mul_le_mono_nonneg_r; lia).
      assert (Y * (P - n) * T = Y * P * U + Y * r) by (unfold r; rewrite ET; ring).
      assert (Y * r <= U * r) by (apply Z.mul_le_mono_nonneg_r; lia). lia. }
    apply Z.mul_le_mono_pos_r in C; [|lia]. unfold r in C. lia.
  - assert ((x + Y) * P / T < n + q + 2); [|lia]. apply Z.div_lt_upper_bound; [lia|].
    set (r := x * P - n * T). assert (0 <= r < T) as Hr by (unfold r; lia).
    assert (Y * P * U < (q + 1) * T * U) as C.
    { assert (Y * (P - n) * T < (q + 1) * U * T) by (apply Z.mul_lt_mono_pos_r; lia).
      assert (Y * (P - n) * T = Y * P * U + Y * r) by (unfold r; rewrite ET; ring).
      assert (0 <= Y * r) by (apply Z.mul_nonneg_nonneg; lia). lia. }
    apply Z.mul_lt_mono_pos_r in C; [|lia]. lia.
Qed.
Lemma in_arith T x Y P :
  0 < T -> 0 < P -> 0 <= x -> 0 <= Y ->
  let n := T * x / P in n + (T + n) * Y / (P + x) <= T * (x + Y) / P.
Proof.
  intros HT HP Hx HY n. pose proof (div_mul_le (T * x) P HP) as A. fold n in A.
  assert (0 <= n) by (unfold n; apply Z.div_pos; nia).
  set (q := (T + n) * Y / (P + x)). pose proof (div_mul_le ((T + n) * Y) (P + x) ltac:(lia)) as B. fold q in B.
  apply Z.div_le_lower_bound; [lia|].
  assert (q * P * (P + x) <= T * Y * (P + x)) as C.
  { assert (q * (P + x) * P <= (T + n) * Y * P) by (apply Z.mul_le_mono_nonneg_r; lia).
    assert ((T + n) * P * Y <= T * (P + x) * Y) by (apply Z.mul_le_mono_nonneg_r; lia). lia. }
  apply Z.mul_le_mono_pos_r in C; lia.
Qed.

Lemma out_any s ps n s' :
  takes_out s ps n s' -> 0 <= total_staked s -> 0 <= k_pool s ->
  match ps with
  | [] => n = 0
  | _ => 0 <= amounts ps <= total_staked s /\ 0 < total_staked s /\
      n <= amounts ps * k_pool s / total_staked s /\
      amounts ps * k_pool s / total_staked s < n + Z.of_nat (length ps)
  end.
Proof.
  induction 1 as [s|s b a x ps s1 subs n s2 H1 H2 IH]; intros Ht Hp; [done|].
  pose proof (unstake_step _ _ _ _ _ _ H1) as (U1 & U2 & U3 & _ & _ & U6 & _ & Et & Ep & _).
  assert (total_staked s1 = total_staked s - x) as Et1 by (unfold total_staked at 1; by rewrite Et).
  set (n1 := x * k_pool s / total_staked s) in *.
  assert (0 <= n1) as Hn1 by (unfold n1; apply Z.div_pos; nia).
  specialize (IH ltac:(lia) ltac:(lia)). unfold amounts in *. cbn [lsum snd].
  destruct ps as [|p ps].
  - cbn [lsum length]. rewrite IH, Z.add_0_r. split; [lia|]. split; [lia|].
    rewrite Ep. fold n1. lia.
  - destruct IH as (I1 & I2 & I3 & I4). set (Y := lsum (fun p => p.2) (p :: ps)) in *.
    rewrite Et1, Ep in *.
    pose proof (out_arith (total_staked s) x Y (k_pool s) ltac:(lia) ltac:(lia) ltac:(lia) ltac:(lia)) as [O1 O2].
    fold n1 in O1, O2. split; [lia|]. split; [lia|]. cbn [length] in *. lia.
Qed.
(** Unstaking in parts, at whatever times and by whatever accounts, gives no more than
    unstaking all at once, and less than one token less per part. *)
Lemma taking_out b s l ps n s' :
  kreached b s l -> takes_out s ps n s' -> ps <> [] ->
  n <= amounts ps * k_pool s / total_staked s < n + Z.of_nat (length ps).
Proof.
  intros HR H Hne. pose proof (kreached_inv _ _ _ HR) as HI. pose proof (total_nonneg _ _ HI).
  pose proof (ki_pool _ _ HI). pose proof (out_any _ _ _ _ H ltac:(lia) ltac:(lia)) as HO.
  destruct ps; [done|]. lia.
Qed.
Lemma in_any s ps n s' :
  puts_in s ps n s' -> 0 < total_staked s <= k_pool s -> 0 <= amounts ps /\
  0 <= n <= total_staked s * amounts ps / k_pool s.
Proof.
  induction 1 as [s|s b a x ps s1 subs n s2 H1 H2 IH]; intros Ht.
  { unfold amounts. cbn [lsum]. rewrite Z.mul_0_r, Z.div_0_l by lia. lia. }
  pose proof (stake_step _ _ _ _ _ _ _ H1) as (m & _ & Hx & _ & Hm & _ & _ & E & _).
  unfold amount_to_stake in Hm. destruct (Z.eqb_spec (total_staked s) 0); [lia|].
  destruct (Z.eqb_spec (k_pool s) 0); [lia|]. cbn [orb] in Hm.
  destruct (_ <=? U128_MAX); [|done]. injection Hm as Hm.
  assert (total_staked s1 = total_staked s + m) as Et by (by rewrite E).
  assert (k_pool s1 = k_pool s + x) as Ep by (by rewrite E).
  assert (staked s1 a = staked s a + m) as Es.
  { rewrite !staked_get, E. cbn [k_bals]. rewrite smap_get_save, decide_True by done. by rewrite staked_get. }
  pose proof (div_mul_le (total_staked s * x) (k_pool s) ltac:(lia)) as Hd. rewrite Hm in Hd.
  assert (0 <= m) by (rewrite <-Hm; apply Z.div_pos; nia).
  assert (m <= x).
  { apply (Z.mul_le_mono_pos_r _ _ (k_pool s)); [lia|].
    assert (total_staked s * x <= k_pool s * x) by (apply Z.mul_le_mono_nonneg_r; lia).
    clear -Hd H0. lia. }
  rewrite Et, Ep in IH. clear Et Ep. specialize (IH ltac:(lia)).
  change (amounts ((b, a, x) :: ps)) with (x + amounts ps). set (Y := amounts ps) in *.
  split; [lia|].
  pose proof (in_arith (total_staked s) x Y (k_pool s) ltac:(lia) ltac:(lia) ltac:(lia) ltac:(lia)) as HA.
  cbv zeta in HA. rewrite Hm in HA. rewrite Es. clear -HA IH H. lia.
Qed.
(** Staking in parts, at whatever times and for whatever accounts, gives no more stake than
    staking all at once. *)
Lemma putting_in b s l ps n s' :
  kreached b s l -> 0 < total_staked s -> puts_in s ps n s' ->
  n <= total_staked s * amounts ps / k_pool s.
Proof.
  intros HR Ht H. pose proof (kreached_inv _ _ _ HR) as HI. pose proof (ki_pool _ _ HI).
  by apply (in_any _ _ _ _ H).
Qed.
(** The whole at once. *)
Lemma at_once_out b s l b' a x s' subs :
  kreached b s l -> k_handle s b' a (KUnstake x) = Ok (s', subs) ->
  k_pool s - k_pool s' = x * k_pool s / total_staked s.
Proof.
  intros _ H. pose proof (unstake_step _ _ _ _ _ _ H) as (_ & _ & _ & _ & _ & _ & _ & _ & -> & _). lia.
Qed.
Lemma at_once_in b s l b' a x s' subs :
  kreached b s l -> 0 < total_staked s -> k_handle s b' (k_token s) (KReceive a x true) = Ok (s', subs) ->
  staked s' a - staked s a = total_staked s * x / k_pool s.
Proof.
  intros HR Ht H. pose proof (kreached_inv _ _ _ HR) as HI. pose proof (ki_pool _ _ HI).
  pose proof (stake_step _ _ _ _ _ _ _ H) as (m & _ & Hx & _ & Hm & _ & _ & E & _).
  unfold amount_to_stake in Hm. destruct (Z.eqb_spec (total_staked s) 0); [lia|].
  destruct (Z.eqb_spec (k_pool s) 0); [lia|]. cbn [orb] in Hm.
  destruct (_ <=? U128_MAX); [|done]. injection Hm as <-.
  rewrite !staked_get, E. cbn [k_bals]. rewrite smap_get_save, decide_True by done. rewrite staked_get. lia.
Qed.
