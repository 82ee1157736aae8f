(** cw20-stake-external-rewards: the lemmas behind the theorems. *)
From Verif Require Import Base BaseProofs Exec ExecProofs Plain PlainProofs HooksModel StoreModel
  StoreProofs LedgerProofs StakeModel StakeSpec StakeProofs StakeClaims ExtModel ExtSpec ExtProofs.

Lemma pending_ok s b u n :
  x_pending s b u = Ok n ->
  let r := x_rew s in
  n = r_pending r u +
      q_balance (x_stake s) b u * (r_rpt r + growth (x_stake s) r b - r_user r u) / SCALE /\
  n <= U128_MAX.
Proof.
  unfold x_pending. destruct (r_per_token _ _ _) as [rpt|] eqn:E; [|done].
  apply per_token_ok in E as ->. unfold r_earned.
  destruct (sub256 _ _) as [f|] eqn:E1; [|done]. apply sub256_ok in E1 as [-> ?].
  destruct (mul256 _ _) as [x|] eqn:E2; [|done]. apply mul256_ok in E2 as [-> ?].
  destruct (_ <=? U128_MAX) eqn:E3; [|done].
  intros [-> ?]%add128_ok. split; [lia|done].
Qed.
Lemma pending_update s b u n :
  x_pending s b u = Ok n -> exists r', r_update (x_stake s) (x_rew s) b u = Ok r' /\ r_pending r' u = n.
Proof.
  unfold x_pending, r_update. destruct (r_per_token _ _ _) as [rpt|]; [|done].
  destruct (r_earned _ _ _ _ _) as [e|]; [|done]. intros [-> ?]%add128_ok.
  rewrite add128_eq by lia. eexists. split; [done|]. unfold r_pending. cbn. rewrite lookup_insert. simpl.
  fold (r_pending (x_rew s) u). lia.
Qed.
Lemma xreached_rinv b s l :
  xreached b s l ->
  xinv b s l /\ rinv b (x_stake s) (x_rew s) [] (paid l) (funded l).
Proof.
  intros [HR Hd]. apply xran_inv in HR as HI. split; [done|]. rewrite <-Hd. apply HI. by left.
Qed.

(** ** C51 *)
Lemma c51_solvent b s l us :
  xreached b s l -> NoDup us ->
  paid l + lsum (claimable s b) us + to_come s b <= funded l /\
  (forall u, 0 <= claimable s b u).
Proof.
  intros HR Hn. apply xreached_rinv in HR as [HX HI]. pose proof (xi_ledger _ _ _ HX) as HL.
  pose proof (last_until _ _ _ _ _ _ HI) as Hu.
  destruct HI as [A1 A2 A3 A4 A5 A6 A7 A8 A9 A10 A11]. pose proof SCALE_pos as HS.
  set (k := x_stake s) in *. set (r := x_rew s) in *.
  destruct (growth_bounds b k r HL A1 Hu) as (G0 & G1 & G2). set (g := growth k r b) in *.
  assert (forall u, 0 <= claimable s b u /\
    SCALE * claimable s b u <= owed k r b u + g * q_balance k b u) as Hc.
  { intros u. pose proof (bal_nonneg b k u HL). pose proof (A5 u). pose proof (A6 u).
    unfold claimable. destruct (x_pending s b u) as [n|] eqn:E.
    - apply pending_ok in E as [-> _]. fold k r g.
      pose proof (Z.mul_div_le (q_balance k b u * (r_rpt r + g - r_user r u)) SCALE HS).
      assert (0 <= q_balance k b u * (r_rpt r + g - r_user r u) / SCALE) by (apply Z.div_pos; nia).
      unfold owed. split; [lia|]. nia.
    - unfold owed. split; [done|]. nia. }
  split; [|intros; apply Hc].
  assert (SCALE * lsum (claimable s b) us <= lsum (owed k r b) us + g * lsum (q_balance k b) us) as H1.
  { rewrite <-!lsum_scale, <-lsum_add. apply lsum_le. intros u _. apply Hc. }
  pose proof (A8 us Hn) as HM. pose proof (bals_le b k us HL Hn) as HB.
  assert (g * lsum (q_balance k b) us <= g * q_total k b) by nia.
  unfold to_come. fold r. fold (r_until r b).
  set (X := r_rate r * (r_fin r - r_last r)) in *.
  assert (r_rate r * (r_fin r - r_until r b) = X - r_rate r * (r_until r b - r_last r)) as -> by (unfold X; lia).
  set (Y := r_rate r * (r_until r b - r_last r)) in *.
  apply (Zmult_le_reg_r _ _ SCALE); [lia|]. nia.
Qed.
Lemma c51_held b s l : xreached b s l -> x_held s = funded l + given l - paid l /\ 0 <= given l.
Proof. intros HR. apply xreached_rinv in HR as [[] _]. done. Qed.

(** A claim pays exactly what is reported. *)
Lemma c51_claim b s l a n :
  xreached b s l -> x_pending s b a = Ok n -> 0 < n ->
  exists s', x_handle s b a (XRew RClaim) = Ok (s', [XPay a n]).
Proof.
  intros HR Hp Hn. pose proof (c51_held _ _ _ HR) as [HH HG].
  pose proof (c51_solvent b s l [a] HR ltac:(apply NoDup_singleton)) as [HS _].
  simpl in HS. unfold claimable in HS. rewrite Hp in HS.
  assert (0 <= to_come s b) as Ht.
  { apply xreached_rinv in HR as [_ HI]. unfold to_come. pose proof (ri_rate _ _ _ _ _ _ HI).
    apply Z.mul_nonneg_nonneg; lia. }
  destruct HR as [_ Hd]. destruct (pending_update _ _ _ _ Hp) as (r' & Hr & Hq).
  unfold x_handle. rewrite Hd. cbn [orb]. cbn [x_rew_handle]. unfold r_claim. rewrite Hr. cbn zeta.
  rewrite Hq. destruct (n =? 0) eqn:E; [lia|]. cbn [negb]. rewrite (proj2 (Z.leb_le _ _)) by lia. eauto.
Qed.

(** Calls leave everybody's reward alone, except that a claim moves it to the claimant. *)
Lemma update_keeps k r b a r' u :
  r_update k r b a = Ok r' -> 0 < SCALE ->
  r_rpt r' = r_rpt r + growth k r b /\ r_until r' b = r_until r b /\ r_last r' = r_until r b /\
  r_pending r' u + q_balance k b u * (r_rpt r' - r_user r' u) / SCALE =
  r_pending r u + q_balance k b u * (r_rpt r + growth k r b - r_user r u) / SCALE /\
  r_user r' a = r_rpt r' /\ (u <> a -> r_user r' u = r_user r u /\ r_pending r' u = r_pending r u).
Proof.
  intros H HS. apply update_ok in H as (-> & _). split; [done|]. split; [done|]. split; [done|].
  cbn [r_rpt]. rewrite pending_insert, user_insert, user_insert.
  destruct (decide (u = a)) as [->|Hne].
  - rewrite decide_True by done. split; [|by split].
    replace (r_rpt r + growth k r b - (r_rpt r + growth k r b)) with 0 by lia.
    rewrite Z.mul_0_r, Z.div_0_l by lia. lia.
  - rewrite decide_True by done. split; [done|]. split; [done|]. done.
Qed.
(** The value of the query, given that it does not overflow. *)
Lemma pending_back s b u n :
  x_pending s b u = Ok n ->
  forall s', x_stake s' = x_stake s ->
  (forall q, q_balance (x_stake s') b q = q_balance (x_stake s) b q) ->
  r_last (x_rew s') = r_until (x_rew s') b ->
  r_rpt (x_rew s') = r_rpt (x_rew s) + growth (x_stake s) (x_rew s) b ->
  r_user (x_rew s') u <= r_rpt (x_rew s') ->
  0 <= q_balance (x_stake s) b u ->
  (r_user (x_rew s') u = r_rpt (x_rew s') \/ r_user (x_rew s') u = r_user (x_rew s) u) ->
  0 <= r_pending (x_rew s') u <= U128_MAX ->
  r_pending (x_rew s') u + q_balance (x_stake s) b u * (r_rpt (x_rew s') - r_user (x_rew s') u) / SCALE <= U128_MAX ->
  x_pending s' b u =
    Ok (r_pending (x_rew s') u +
        q_balance (x_stake s) b u * (r_rpt (x_rew s') - r_user (x_rew s') u) / SCALE).
Proof.
  intros Hp s' Ek Eb El Er Hle Hq Hu Hpd Hmx.
  unfold x_pending in *. destruct (r_per_token (x_stake s) (x_rew s) b) as [rpt|] eqn:E; [|done].
  pose proof (per_token_ok _ _ _ _ E) as Ept.
  assert (rpt <= U256_MAX) as Hr.
  { unfold r_per_token in E. destruct (q_total _ _ =? 0).
    - by apply add256_ok in E as [-> ?].
    - destruct (sub64 _ _); [|done]. destruct (mul256 _ _); [|done]. by apply add256_ok in E as [-> ?]. }
  unfold r_earned in Hp. destruct (sub256 _ _) as [f|] eqn:E1; [|done]. apply sub256_ok in E1 as [-> ?].
  destruct (mul256 _ _) as [x|] eqn:E2; [|done]. apply mul256_ok in E2 as [-> ?].
  assert (r_per_token (x_stake s') (x_rew s') b = Ok (r_rpt (x_rew s'))) as ->.
  { unfold r_per_token. rewrite El, sub64_eq by lia. replace (r_until _ b - r_until _ b) with 0 by lia.
    rewrite Z.mul_0_r, mul256_eq by done. rewrite Z.mul_0_l. pose proof SCALE_pos.
    destruct (q_total (x_stake s') b =? 0) eqn:Et.
    - rewrite add256_eq by lia. f_equal. lia.
    - rewrite Z.div_0_l by lia. rewrite add256_eq by lia. f_equal. lia. }
  unfold r_earned. rewrite sub256_eq by done. rewrite Eb.
  assert (q_balance (x_stake s) b u * (r_rpt (x_rew s') - r_user (x_rew s') u) <= U256_MAX) as Hm.
  { destruct Hu as [->| ->]; [|rewrite Er, <-Ept; lia]. rewrite Z.sub_diag, Z.mul_0_r. done. }
  rewrite mul256_eq by done. pose proof SCALE_pos.
  assert (0 <= q_balance (x_stake s) b u * (r_rpt (x_rew s') - r_user (x_rew s') u) / SCALE).
  { apply Z.div_pos; nia. }
  rewrite (proj2 (Z.leb_le _ _)) by lia. rewrite add128_eq by lia. f_equal. lia.
Qed.
Lemma others_inv b s l a m s' subs u n :
  xinv b s l -> settled b s -> x_handle s b a m = Ok (s', subs) -> x_pending s b u = Ok n ->
  x_pending s' b u = Ok (n - lsum (pay_to u) subs).
Proof.
  intros HX HI H Hp. apply (xi_rew _ _ _ HX) in HI. pose proof (xi_ledger _ _ _ HX) as HL.
  pose proof SCALE_pos as HS. pose proof (pending_ok _ _ _ _ Hp) as [Hn Hn1]. cbn zeta in Hn.
  unfold x_handle in H. destruct (_ || _) in H; [|done].
  (* after an update of somebody *)
  assert (forall w r1 s1, r_update (x_stake s) (x_rew s) b w = Ok r1 -> x_stake s1 = x_stake s ->
    r_rpt (x_rew s1) = r_rpt r1 -> r_urpt (x_rew s1) = r_urpt r1 ->
    r_last (x_rew s1) = r_until (x_rew s1) b ->
    (r_pending (x_rew s1) u = r_pending r1 u \/ (u = w /\ r_pending (x_rew s1) u = 0)) ->
    x_pending s1 b u = Ok (n - r_pending r1 u + r_pending (x_rew s1) u)) as Hup.
  { intros w r1 s1 Hu Ek Er Eu El Hpd.
    destruct (update_step _ _ _ _ _ _ _ _ HL HI Hu) as (_ & HI1 & _).
    destruct (update_keeps _ _ _ _ _ u Hu HS) as (K1 & K2 & K3 & K4 & K5 & K6).
    assert (r_user (x_rew s1) u = r_user r1 u) as Eus by (unfold r_user; by rewrite Eu).
    pose proof (ri_pend _ _ _ _ _ _ HI1 u) as Hp0. pose proof (ri_user _ _ _ _ _ _ HI1 u) as Hu0.
    pose proof (bal_nonneg b _ u HL) as Hb0.
    assert (0 <= q_balance (x_stake s) b u * (r_rpt r1 - r_user r1 u) / SCALE).
    { apply Z.div_pos; nia. }
    rewrite (pending_back s b u n Hp s1); rewrite ?Ek, ?Er, ?Eus; try done; try lia.
    - f_equal. lia.
    - destruct (decide (u = w)) as [->|Hne]; [by left|]. right. by apply K6. }
  destruct m as [m|m|x].
  - destruct (k_handle (x_stake s) b a m) as [[k' ks]|] eqn:E; [|done]. cbn in H. injection H as <- <-.
    destruct (at_call _ _ _ _ _ _ (height b) E ltac:(lia)) as [Eb Et].
    assert (lsum (pay_to u) (map XStakeSub ks) = 0) as -> by (clear; induction ks; simpl; lia).
    rewrite Z.sub_0_r, <-Hp. unfold x_pending, r_per_token, r_earned, q_total, q_balance, k_total_at, k_balance_at.
    cbn. rewrite Et, Eb. done.
  - destruct (x_rew_handle s b a m) as [[s1 subs1]|] eqn:E; [|done]. cbn in H. injection H as <- <-.
    destruct m as [st who| |funds|from x|x|act]; cbn [x_rew_handle] in E.
    + destruct (a =? _)%N; [|done]. destruct (existsb _ _); [|done].
      destruct (r_update _ _ _ _) as [r'|] eqn:Eu; [|done]. injection E as <- <-.
      rewrite (Hup who r'); try done; [simpl; f_equal; lia| |by left].
      destruct (update_keeps _ _ _ _ _ u Eu HS) as (_ & K2 & K3 & _). cbn. by rewrite K2.
    + destruct (r_claim _ _ _ _) as [[r' x]|] eqn:Ec; [|done].
      destruct (x <=? x_held s); [|done]. injection E as <- <-.
      unfold r_claim in Ec. destruct (r_update _ _ _ _) as [r1|] eqn:Eu; [|done].
      destruct (r_pending r1 a =? 0) eqn:E0; [done|]. cbn [negb] in Ec. injection Ec as <- <-.
      destruct (update_keeps _ _ _ _ _ u Eu HS) as (_ & K2 & K3 & _).
      rewrite (Hup a r1); try done.
      * cbn [x_rew x_put]. rewrite pending_insert. simpl. destruct (decide (u = a)) as [->|Hne].
        -- rewrite N.eqb_refl. f_equal. lia.
        -- destruct (a =? u)%N eqn:Ea; [apply N.eqb_eq in Ea; by subst|]. f_equal. lia.
      * cbn. unfold r_until in *. cbn. lia.
      * cbn [x_rew x_put]. rewrite pending_insert. destruct (decide (u = a)); [by right|by left].
    + destruct (forallb _ _); [|done]. destruct (r_token _); [|done].
      destruct (must_pay _ _) as [x|]; [|done]. destruct (_ <=? U128_MAX); [|done].
      destruct (r_fund _ _ _ _ _) as [r'|] eqn:Ef; [|done]. injection E as <- <-.
      unfold r_fund in Ef. destruct (is_owner _ _); [|done].
      destruct (r_update _ _ _ _) as [r1|] eqn:Eu; [|done].
      destruct (update_step _ _ _ _ _ _ _ _ HL HI Eu) as (_ & HI1 & _).
      pose proof (ri_dur _ _ _ _ _ _ HI1). res_inv Ef. apply add64_ok in E as [-> ?].
      rewrite (Hup a r1); try done; [cbn; f_equal; rewrite Z.sub_0_r; unfold r_pending; cbn; lia| |by left].
      cbn. unfold r_until. cbn. lia.
    + destruct (fits128 x); [|done]. destruct (r_token _); [done|]. destruct (a =? _)%N; [|done].
      destruct (_ <=? U128_MAX); [|done].
      destruct (r_fund _ _ _ _ _) as [r'|] eqn:Ef; [|done]. injection E as <- <-.
      unfold r_fund in Ef. destruct (is_owner _ _); [|done].
      destruct (r_update _ _ _ _) as [r1|] eqn:Eu; [|done].
      destruct (update_step _ _ _ _ _ _ _ _ HL HI Eu) as (_ & HI1 & _).
      pose proof (ri_dur _ _ _ _ _ _ HI1). res_inv Ef. apply add64_ok in E as [-> ?].
      rewrite (Hup from r1); try done; [cbn; f_equal; rewrite Z.sub_0_r; unfold r_pending; cbn; lia| |by left].
      cbn. unfold r_until. cbn. lia.
    + destruct (_ && _) in E; [|done]. unfold r_set_duration in E. res_inv E. rename E0 into E1. res_inv E1.
      rewrite Z.sub_0_r. exact Hp.
    + destruct (update_ownership _ _ _ _) as [o|]; [|done]. injection E as <- <-.
      rewrite Z.sub_0_r. exact Hp.
  - destruct (fits128 x); [|done]. destruct (_ <=? U128_MAX); [|done]. cbn in H. injection H as <- <-.
    rewrite Z.sub_0_r. exact Hp.
Qed.
Lemma c51_others b s l a m s' subs u n :
  xreached b s l -> x_handle s b a m = Ok (s', subs) -> x_pending s b u = Ok n ->
  x_pending s' b u = Ok (n - lsum (pay_to u) subs).
Proof.
  intros [HR Hd]. apply others_inv with l; [by apply xran_inv|by left].
Qed.

(** The reward grows with the share of the stake. *)
Lemma floor_diff w A B S : 0 < S -> 0 <= w < S -> 0 <= A <= B ->
  forall W x y c, 0 < W -> A = c + x / W -> B = c + y / W -> x <= y ->
  (w * B / S - w * A / S - 2) * W * S < w * (y - x) < (w * B / S - w * A / S + 2) * W * S.
Proof.
  intros HS Hw HA W x y c HW EA EB Hxy.
  pose proof (Z.mul_div_le (w * B) S HS). pose proof (Z.mul_succ_div_gt (w * B) S HS).
  pose proof (Z.mul_div_le (w * A) S HS). pose proof (Z.mul_succ_div_gt (w * A) S HS).
  pose proof (Z.mul_div_le x W HW). pose proof (Z.mul_succ_div_gt x W HW).
  pose proof (Z.mul_div_le y W HW). pose proof (Z.mul_succ_div_gt y W HW).
  set (p := w * B / S) in *. set (q := w * A / S) in *. set (X := x / W) in *. set (Y := y / W) in *.
  assert (y - x < (Y - X + 1) * W) as K1 by lia.
  assert ((Y - X - 1) * W < y - x) as K2 by lia.
  assert (w * (Y - X) < (p - q + 1) * S) as K3 by (subst A B; nia).
  assert ((p - q - 1) * S < w * (Y - X)) as K4 by (subst A B; nia).
  split.
  - (* (p-q-2) S W <= (w (Y-X) - S) W < ... *)
    assert ((p - q - 1) * S * W <= w * (Y - X) * W) by nia.
    assert (w * ((Y - X - 1) * W) <= w * (y - x)) by nia.
    assert (w * W < S * W) by nia. nia.
  - assert (w * (Y - X) * W <= (p - q + 1) * S * W) by nia.
    assert (w * (y - x) <= w * ((Y - X + 1) * W)) by nia.
    assert (w * W < S * W) by nia. nia.
Qed.
Transparent SCALE.
Lemma max_scale : U128_MAX < SCALE.
Proof. reflexivity. Qed.
Opaque SCALE.

Lemma accrual_inv b s l b' u n n' :
  xinv b s l -> x_due s = [] -> block_le b b' -> x_pending s b u = Ok n -> x_pending s b' u = Ok n' ->
  let w := staked (x_stake s) u in
  let total := total_staked (x_stake s) in
  let fin := r_fin (x_rew s) in
  let blocks := Z.min (height b') fin - Z.min (height b) fin in
  (n' - n - 2) * total < r_rate (x_rew s) * blocks * w < (n' - n + 2) * total \/
  total = 0 /\ w = 0 /\ n' = n.
Proof.
  intros HX Hd Hb Hp Hp' w W fin blocks. pose proof (xi_rew _ _ _ HX (or_introl Hd)) as HI. rewrite Hd in HI.
  pose proof (xi_ledger _ _ _ HX) as HL. pose proof HI as HI'.
  apply (rinv_time b b') in HI'; [|done|done|by left].
  assert (ledger (height b') (k_bals (x_stake s)) (k_total (x_stake s))) as HL'.
  { eapply ledger_time; [done|apply Hb]. }
  set (k := x_stake s) in *. set (r := x_rew s) in *.
  set (g := fun b => if W =? 0 then 0 else r_rate r * (r_until r b - r_last r) * SCALE / W).
  assert (W = snap_get (k_total k)) as EW by done.
  assert (w = smap_get (k_bals k) u) as Ew by apply staked_get.
  assert (forall b1 n1, block_le b b1 -> rinv b1 k r [] (paid l) (funded l) -> x_pending s b1 u = Ok n1 ->
    n1 = r_pending r u + w * (r_rpt r + g b1 - r_user r u) / SCALE) as Hval.
  { intros b1 n1 Hb1 HI1 H1. apply pending_ok in H1 as [-> _]. fold k r. f_equal.
    assert (growth k r b1 = g b1) as Eg.
    { unfold growth, g. rewrite EW. destruct (ri_tot _ _ _ _ _ _ HI1 eq_refl) as [->|H0]; [done|].
      assert (r_rate r * (r_until r b1 - r_last r) = 0) as ->.
      { destruct H0 as [Z0| ->]; [|lia]. destruct (ri_fin0 _ _ _ _ _ _ HI1 Z0) as [-> _]. lia. }
      rewrite Z.mul_0_l. destruct (q_total k b1 =? 0) eqn:E1; destruct (snap_get (k_total k) =? 0) eqn:E2;
        try done; rewrite Z.div_0_l by lia; done. }
    rewrite Eg. f_equal. rewrite Ew.
    destruct (decide (smap_get (k_bals k) u = q_balance k b1 u)) as [->|Hc]; [done|].
    destruct (ri_chg _ _ _ _ _ _ HI1 u ltac:(apply not_elem_of_nil) Hc) as [Z0|[E1 E2]].
    - destruct (ri_fin0 _ _ _ _ _ _ HI1 Z0) as [R0 P0]. pose proof (ri_user _ _ _ _ _ _ HI1 u).
      assert (g b1 = 0) as ->. { unfold g. rewrite R0. destruct (W =? 0) eqn:E; [done|]. rewrite !Z.mul_0_l. apply Z.div_0_l. lia. }
      replace (r_rpt r + 0 - r_user r u) with 0 by lia. lia.
    - assert (g b1 = 0) as ->. { unfold g. rewrite E2. destruct (W =? 0) eqn:E; [done|]. rewrite Z.sub_diag, Z.mul_0_r, Z.mul_0_l. apply Z.div_0_l. lia. }
      rewrite E1. replace (r_rpt r + 0 - r_rpt r) with 0 by lia. lia. }
  pose proof (Hval b n (block_le_refl b) HI Hp) as En. pose proof (Hval b' n' Hb HI' Hp') as En'.
  pose proof (last_until _ _ _ _ _ _ HI) as Hu. pose proof (last_until _ _ _ _ _ _ HI') as Hu'.
  assert (r_until r b <= r_until r b') as Huu by (unfold r_until; destruct Hb; lia).
  pose proof SCALE_pos as HS. pose proof max_scale.
  pose proof (ledger_le _ _ _ u HL) as Hwl. pose proof (lg_max _ _ _ HL) as Hwm.
  rewrite <-EW, <-Ew in Hwl. rewrite <-EW in Hwm.
  destruct (W =? 0) eqn:E0.
  - right. assert (W = 0) by lia. split; [done|]. split; [lia|]. rewrite En, En'.
    assert (w = 0) as -> by lia. rewrite !Z.mul_0_l. done.
  - left. pose proof (ri_rate _ _ _ _ _ _ HI) as HR0. pose proof (ri_user _ _ _ _ _ _ HI u) as HU0.
    set (x := r_rate r * (r_until r b - r_last r) * SCALE).
    set (y := r_rate r * (r_until r b' - r_last r) * SCALE).
    assert (0 <= x <= y) as Hxy.
    { unfold x, y. assert (0 <= r_rate r * (r_until r b - r_last r)) by (apply Z.mul_nonneg_nonneg; lia).
      assert (r_rate r * (r_until r b - r_last r) <= r_rate r * (r_until r b' - r_last r))
        by (apply Z.mul_le_mono_nonneg_l; lia).
      split; [apply Z.mul_nonneg_nonneg; lia|apply Z.mul_le_mono_nonneg_r; lia]. }
    assert (g b = x / W) as Eg by (unfold g; by rewrite ?E0).
    assert (g b' = y / W) as Eg' by (unfold g; by rewrite ?E0).
    pose proof (Z.div_pos x W ltac:(lia) ltac:(lia)) as Hg0.
    pose proof (Z.div_le_mono x y W ltac:(lia) ltac:(lia)) as Hg1.
    pose proof (floor_diff w (r_rpt r + g b - r_user r u) (r_rpt r + g b' - r_user r u) SCALE HS
      ltac:(lia) ltac:(rewrite Eg, Eg'; lia) W x y (r_rpt r - r_user r u) ltac:(lia)
      ltac:(lia) ltac:(lia) ltac:(lia)) as HF.
    assert (n' - n = w * (r_rpt r + g b' - r_user r u) / SCALE - w * (r_rpt r + g b - r_user r u) / SCALE) as Ed by lia.
    rewrite <-Ed in HF.
    assert (w * (y - x) = r_rate r * blocks * w * SCALE) as Ey.
    { unfold x, y, blocks, r_until. fold fin. lia. }
    rewrite Ey in HF. destruct HF as [F1 F2].
    split; apply (Zmult_lt_reg_r _ _ SCALE); lia.
Qed.
Lemma c51_accrual b s l b' u n n' :
  xreached b s l -> block_le b b' -> x_pending s b u = Ok n -> x_pending s b' u = Ok n' ->
  let w := staked (x_stake s) u in
  let total := total_staked (x_stake s) in
  let fin := r_fin (x_rew s) in
  let blocks := Z.min (height b') fin - Z.min (height b) fin in
  (n' - n - 2) * total < r_rate (x_rew s) * blocks * w < (n' - n + 2) * total \/
  total = 0 /\ w = 0 /\ n' = n.
Proof.
  intros [HR Hd]. apply accrual_inv with l; [by apply xran_inv|done].
Qed.

(** ** C77 *)
Transparent SCALE.
Lemma scale_fits n : n <= 10 ^ 38 -> SCALE * n <= U256_MAX.
Proof. unfold SCALE, U256_MAX. lia. Qed.
Lemma small_fits n : n <= 10 ^ 38 -> n <= U128_MAX.
Proof. unfold U128_MAX. lia. Qed.
Opaque SCALE.
Lemma update_total b k r wait pd fd u :
  ledger (height b) (k_bals k) (k_total k) -> rinv b k r wait pd fd -> 0 <= pd -> fd <= 10 ^ 38 ->
  exists rpt e, r_per_token k r b = Ok rpt /\ r_earned k r b u rpt = Ok e /\
    0 <= e /\ r_pending r u + e <= U128_MAX.
Proof.
  intros HL HI Hpd Hfd. pose proof (last_until _ _ _ _ _ _ HI) as Hu.
  destruct HI as [A1 A2 A3 A4 A5 A6 A7 A8 A9 A10 A11]. pose proof SCALE_pos as HS.
  destruct (growth_bounds b k r HL A1 Hu) as (G0 & G1 & G2). pose proof (until_le r b) as [U1 U2].
  pose proof (A5 u) as Hus. pose proof (A6 u) as Hpe. pose proof (bal_nonneg b k u HL) as Hb0.
  pose proof (bal_le b k u HL) as Hbl. pose proof (scale_fits fd Hfd) as HF. pose proof (small_fits fd Hfd).
  pose proof (A8 [u] ltac:(apply NoDup_singleton)) as HM. simpl in HM. unfold owed in HM.
  set (D := r_rate r * (r_until r b - r_last r)) in *. set (X := r_rate r * (r_fin r - r_last r)) in *.
  assert (0 <= D <= X) as HD.
  { unfold D, X. split; [apply Z.mul_nonneg_nonneg; lia|apply Z.mul_le_mono_nonneg_l; lia]. }
  assert (SCALE * D <= SCALE * X) as HDX by nia. assert (0 <= SCALE * pd) by nia.
  assert (r_per_token k r b = Ok (r_rpt r + growth k r b)) as ->.
  { unfold r_per_token, growth. rewrite sub64_eq by done. rewrite mul256_eq by (fold D; nia). fold D.
    destruct (q_total k b =? 0) eqn:E.
    - apply add256_eq. lia.
    - apply add256_eq. unfold growth in G2. rewrite E in G2. fold D in G2. lia. }
  exists (r_rpt r + growth k r b). set (g := growth k r b) in *.
  assert (q_balance k b u * g <= SCALE * D) as Hg by nia.
  unfold r_earned. rewrite sub256_eq by lia. rewrite mul256_eq by nia.
  set (e := q_balance k b u * (r_rpt r + g - r_user r u) / SCALE).
  assert (SCALE * e <= q_balance k b u * (r_rpt r + g - r_user r u)) as He by (by apply Z.mul_div_le).
  assert (0 <= e) by (apply Z.div_pos; nia).
  assert (r_pending r u + e <= fd).
  { apply (Zmult_le_reg_r _ _ SCALE); [lia|]. nia. }
  exists e. rewrite (proj2 (Z.leb_le _ _)) by lia. split; [done|]. split; [done|]. split; lia.
Qed.
Lemma c77_query b s l u :
  xreached b s l -> funded l <= 10 ^ 38 -> exists n, x_pending s b u = Ok n.
Proof.
  intros HR Hf. apply xreached_rinv in HR as [HX HI].
  destruct (update_total _ _ _ _ _ _ u (xi_ledger _ _ _ HX) HI (xi_paid _ _ _ HX) Hf)
    as (rpt & e & E1 & E2 & E3 & E4).
  unfold x_pending. rewrite E1, E2, add128_eq by lia. eauto.
Qed.
Lemma c77_hook b s l st who :
  xran b s l -> height b = x_block s -> funded l <= 10 ^ 38 -> who ∈ x_due s ->
  exists s', x_handle s b (x_staking s) (XRew (RHook st who)) = Ok (s', []).
Proof.
  intros HR Hb Hf Hin. pose proof (xran_inv _ _ _ HR) as HX.
  pose proof (xi_rew _ _ _ HX ltac:(by right)) as HI.
  destruct (update_total _ _ _ _ _ _ who (xi_ledger _ _ _ HX) HI (xi_paid _ _ _ HX) Hf)
    as (rpt & e & E1 & E2 & E3 & E4).
  unfold x_handle. rewrite (proj2 (Z.eqb_eq _ _) Hb), orb_true_r. cbn [x_rew_handle].
  rewrite N.eqb_refl. assert (existsb (N.eqb who) (x_due s) = true) as ->.
  { apply existsb_exists. exists who. split; [by apply elem_of_list_In|apply N.eqb_refl]. }
  unfold r_update. rewrite E1, E2, add128_eq by lia. eauto.
Qed.

(** Only the owner changes the terms, and only between two periods. *)
Lemma update_terms k r b a r' :
  r_update k r b a = Ok r' ->
  r_fin r' = r_fin r /\ r_rate r' = r_rate r /\ r_dur r' = r_dur r /\ r_own r' = r_own r.
Proof. unfold r_update. intros H. res_inv H. done. Qed.
Lemma fund_terms k r b a n r' :
  r_fund k r b a n = Ok r' ->
  o_owner (r_own r) = Some a /\ r_fin r <= height b /\ r_own r' = r_own r /\
  r_fin r' = height b + r_dur r /\ r_rate r' = n / r_dur r /\ r_dur r' = r_dur r.
Proof.
  unfold r_fund. intros H. destruct (is_owner (r_own r) a) eqn:Eo; [|done].
  unfold is_owner in Eo. destruct (r_update _ _ _ _) as [r1|] eqn:Er; [|done].
  apply update_terms in Er as (E1 & E2 & E3 & E4). cbn in H. rewrite E1, E3 in H.
  destruct (height b <? r_fin r) eqn:E; [done|]. cbn in H.
  destruct (add64 _ _) eqn:Ea; [|done]. cbn in H.
  unfold add64 in Ea. destruct (U64_MAX <? _) in Ea; [done|]. simplify_eq.
  destruct (r_dur r =? 0); [done|]. cbn in H. destruct (n / r_dur r =? 0); [done|]. cbn in H.
  simplify_eq. cbn. case_match; [|done]. repeat split; try done; try lia.
  f_equal. by apply N.eqb_eq.
Qed.
Lemma c78_terms s b a m s' subs :
  x_handle s b a m = Ok (s', subs) -> terms s' <> terms s ->
  o_owner (r_own (x_rew s)) = Some (acting a m) /\ r_fin (x_rew s) <= height b.
Proof.
  unfold x_handle. intros H Hn. destruct (_ || _) in H; [|done]. unfold terms in Hn.
  destruct m as [m|m|n].
  - destruct (k_handle _ _ _ _) as [[k' ks]|]; [|done]. cbn in H. by simplify_eq.
  - destruct (x_rew_handle _ _ _ _) as [[s1 sb]|] eqn:E; [|done]. cbn in H. simplify_eq. cbn in Hn.
    destruct m as [st who| |funds|from n|n|act]; cbn in E.
    + destruct (_ =? _)%N in E; [|done]. destruct (existsb _ _) in E; [|done].
      destruct (r_update _ _ _ _) as [r1|] eqn:Er; [|done]. cbn in E. simplify_eq. cbn in Hn.
      apply update_terms in Er as (E1 & E2 & E3 & _). by rewrite E1, E2, E3 in Hn.
    + destruct (r_claim _ _ _ _) as [[r1 n]|] eqn:Er; [|done]. cbn in E.
      destruct (n <=? _) in E; [|done]. simplify_eq. cbn in Hn. unfold r_claim in Er.
      destruct (r_update _ _ _ _) as [r2|] eqn:Er2; [|done]. cbn in Er.
      apply update_terms in Er2 as (E1 & E2 & E3 & _). destruct (_ =? 0) in Er; [done|].
      cbn in Er. simplify_eq. cbn in Hn. by rewrite E1, E2, E3 in Hn.
    + destruct (forallb _ _) in E; [|done]. destruct (r_token _) in E; [|done].
      destruct (must_pay _ _) as [n|]; [|done]. cbn in E. destruct (_ <=? U128_MAX) in E; [|done].
      destruct (r_fund _ _ _ _ _) as [r1|] eqn:Er; [|done]. by apply fund_terms in Er as (? & ? & _).
    + destruct (fits128 _) in E; [|done]. destruct (r_token _) in E; [done|].
      destruct (_ =? _)%N in E; [|done]. destruct (_ <=? U128_MAX) in E; [|done].
      destruct (r_fund _ _ _ _ _) as [r1|] eqn:Er; [|done]. by apply fund_terms in Er as (? & ? & _).
    + destruct (_ && _) in E; [|done]. unfold r_set_duration in E.
      destruct (is_owner _ _) eqn:Eo in E; [|done]. destruct (height b <? _) eqn:Eh in E; [done|].
      unfold is_owner in Eo. destruct (o_owner _) as [o|]; [|done]. apply N.eqb_eq in Eo as ->.
      split; [done|lia].
    + destruct (update_ownership _ _ _ _) as [o|]; [|done]. cbn in E. by simplify_eq.
  - destruct (fits128 _) in H; [|done]. cbn in H. destruct (_ <=? _) in H; [|done]. cbn in H.
    by simplify_eq.
Qed.
(** A funding runs for the set duration at the whole number of tokens per block. *)
Lemma c78_funding s b a funds s' subs d :
  x_handle s b a (XRew (RFund funds)) = Ok (s', subs) -> r_token (x_rew s) = RNative d ->
  o_owner (r_own (x_rew s)) = Some a /\ subs = [] /\
  exists n, funds = [(d, n)] /\ 0 < n /\ x_held s' = x_held s + n /\
    terms s' = (height b + r_dur (x_rew s), n / r_dur (x_rew s), r_dur (x_rew s)) /\
    r_fin (x_rew s) <= height b.
Proof.
  unfold x_handle. intros H Hd. destruct (_ || _) in H; [|done].
  destruct (x_rew_handle _ _ _ _) as [[s1 sb]|] eqn:E; [|done]. cbn in H. simplify_eq. cbn in E.
  destruct (forallb _ _) eqn:Ef in E; [|done]. rewrite Hd in E.
  destruct (must_pay _ _) as [n|] eqn:Em; [|done]. cbn in E. destruct (_ <=? U128_MAX) in E; [|done].
  destruct (r_fund _ _ _ _ _) as [r1|] eqn:Er; [|done]. cbn in E. simplify_eq.
  apply fund_terms in Er as (Ho & Hh & _ & E1 & E2 & E3). split; [done|]. split; [done|].
  unfold must_pay in Em. destruct funds as [|[d' n'] [|]]; try done.
  destruct (n' =? 0) eqn:E0; [done|]. destruct (d' =? d)%N eqn:Ed; [|done].
  apply N.eqb_eq in Ed as ->. simplify_eq. cbn in Ef. apply andb_prop in Ef as [Ef _].
  unfold fits128 in Ef.
  exists n. unfold terms. cbn. rewrite E1, E2, E3. repeat split; try done. lia.
Qed.
