(** cw20-stake-external-rewards: the accounting invariant. *)
From Verif Require Import Base BaseProofs Exec ExecProofs Plain PlainProofs HooksModel StoreModel
  StoreProofs LedgerProofs StakeModel StakeSpec StakeProofs StakeClaims ExtModel ExtSpec.

Lemma SCALE_pos : 0 < SCALE.
Proof. reflexivity. Qed.
Global Opaque SCALE.

Lemma mul256_ok a b c : mul256 a b = Ok c -> c = a * b /\ a * b <= U256_MAX.
Proof. unfold mul256. destruct (_ <? _) eqn:E; intros [=]; lia. Qed.
Lemma add256_ok a b c : add256 a b = Ok c -> c = a + b /\ a + b <= U256_MAX.
Proof. unfold add256. destruct (_ <? _) eqn:E; intros [=]; lia. Qed.
Lemma sub256_ok a b c : sub256 a b = Ok c -> c = a - b /\ b <= a.
Proof. unfold sub256. destruct (_ <? _) eqn:E; intros [=]; lia. Qed.
Lemma sub64_ok a b c : sub64 a b = Ok c -> c = a - b /\ b <= a.
Proof. unfold sub64. destruct (_ <? _) eqn:E; intros [=]; lia. Qed.
Lemma add64_ok a b c : add64 a b = Ok c -> c = a + b /\ a + b <= U64_MAX.
Proof. unfold add64. destruct (_ <? _) eqn:E; intros [=]; lia. Qed.
Lemma mul256_eq a b : a * b <= U256_MAX -> mul256 a b = Ok (a * b).
Proof. unfold mul256. destruct (_ <? _) eqn:E; [lia|done]. Qed.
Lemma add256_eq a b : a + b <= U256_MAX -> add256 a b = Ok (a + b).
Proof. unfold add256. destruct (_ <? _) eqn:E; [lia|done]. Qed.
Lemma sub256_eq a b : b <= a -> sub256 a b = Ok (a - b).
Proof. unfold sub256. destruct (_ <? _) eqn:E; [lia|done]. Qed.
Lemma sub64_eq a b : b <= a -> sub64 a b = Ok (a - b).
Proof. unfold sub64. destruct (_ <? _) eqn:E; [lia|done]. Qed.

Lemma lsum_at {A} (f g : A -> Z) (a : A) l :
  NoDup l -> a ∈ l -> (forall x, x <> a -> f x = g x) -> lsum f l = lsum g l - g a + f a.
Proof.
  induction l as [|x l IH]; intros Hn Hin Hx; [by apply elem_of_nil in Hin|].
  apply NoDup_cons in Hn as [Hn1 Hn2]. apply elem_of_cons in Hin as [->|Hin]; simpl.
  - rewrite (lsum_ext f g); [lia|]. intros y Hy. apply Hx. by intros ->.
  - rewrite IH by done. rewrite (Hx x); [lia|]. by intros ->.
Qed.

(** ** One rewards contract on one staking contract *)
Section rew.
  Implicit Types (b : block) (k : kstate) (r : rstate).
  (** What member [u] has waiting, times the scale, at stakes of block [b]. *)
  Definition owed k r b (u : addr) : Z :=
    SCALE * r_pending r u + q_balance k b u * (r_rpt r - r_user r u).
  Notation kledg b k := (ledger (height b) (k_bals k) (k_total k)).

  Record rinv b k r (wait : list addr) (pd fd : Z) : Prop := RInv {
    ri_rate : 0 <= r_rate r;
    ri_dur : 0 <= r_dur r;
    ri_last : 0 <= r_last r <= r_fin r;
    ri_lastb : r_last r <= height b;
    ri_user : forall u, 0 <= r_user r u <= r_rpt r;
    ri_pend : forall u, 0 <= r_pending r u;
    ri_fin0 : r_fin r = 0 -> r_rate r = 0 /\ r_rpt r = 0;
    ri_main : forall us, NoDup us ->
      SCALE * pd + lsum (owed k r b) us + SCALE * (r_rate r * (r_fin r - r_last r)) <= SCALE * fd;
    ri_chg : forall u, u ∉ wait -> smap_get (k_bals k) u <> q_balance k b u ->
      r_fin r = 0 \/ (r_user r u = r_rpt r /\ r_last r = r_until r b);
    ri_tot : wait = [] ->
      snap_get (k_total k) = q_total k b \/ r_fin r = 0 \/ r_last r = r_until r b;
    ri_rpt : r_rpt r + SCALE * (r_rate r * (r_fin r - r_last r)) <= SCALE * fd
  }.

  Lemma bal_nonneg b k u : kledg b k -> 0 <= q_balance k b u.
  Proof. intros HL. apply (lg_hpos _ _ _ HL). Qed.
  Lemma tot_nonneg b k : kledg b k -> 0 <= q_total k b.
  Proof.
    intros HL. unfold q_total, k_total_at. rewrite <-(lg_snap _ _ _ HL). apply msum_nonneg.
    intros u x _. apply (lg_hpos _ _ _ HL).
  Qed.
  Lemma bals_le b k us : kledg b k -> NoDup us -> lsum (q_balance k b) us <= q_total k b.
  Proof. intros HL Hn. by apply (ledger_at_list _ _ _ _ _ HL). Qed.
  Lemma bal_le b k u : kledg b k -> q_balance k b u <= q_total k b.
  Proof.
    intros HL. pose proof (bals_le b k [u] HL ltac:(apply NoDup_singleton)) as H. simpl in H. lia.
  Qed.
  Lemma until_le r b : r_until r b <= height b /\ r_until r b <= r_fin r.
  Proof. unfold r_until. lia. Qed.
  Lemma last_until b k r wait pd fd : rinv b k r wait pd fd -> r_last r <= r_until r b.
  Proof. intros [A1 A2 A3 A4 A5 A6 A7 A8 A9 A10 A11]. unfold r_until. lia. Qed.

  (** The growth of the reward per token. *)
  Definition growth k r b : Z :=
    if q_total k b =? 0 then 0 else r_rate r * (r_until r b - r_last r) * SCALE / q_total k b.
  Lemma per_token_ok k r b rpt :
    r_per_token k r b = Ok rpt -> rpt = r_rpt r + growth k r b.
  Proof.
    unfold r_per_token, growth. destruct (q_total k b =? 0) eqn:E.
    - intros H. by apply add256_ok in H as [-> _].
    - destruct (sub64 _ _) as [n|] eqn:E1; [|done]. apply sub64_ok in E1 as [-> ?].
      destruct (mul256 _ _) as [x|] eqn:E2; [|done]. apply mul256_ok in E2 as [-> ?].
      intros Ha. by apply add256_ok in Ha as [-> _].
  Qed.
  Lemma growth_bounds b k r :
    kledg b k -> 0 <= r_rate r -> r_last r <= r_until r b ->
    0 <= growth k r b /\ q_total k b * growth k r b <= SCALE * (r_rate r * (r_until r b - r_last r)) /\
    growth k r b <= SCALE * (r_rate r * (r_until r b - r_last r)).
  Proof.
    intros HL Hr Hu. pose proof (tot_nonneg b k HL). pose proof SCALE_pos. unfold growth.
    set (x := r_rate r * (r_until r b - r_last r)) in *.
    assert (0 <= x) by (apply Z.mul_nonneg_nonneg; lia).
    assert (0 <= SCALE * x) by (apply Z.mul_nonneg_nonneg; lia).
    destruct (q_total k b =? 0) eqn:E; [lia|].
    pose proof (div_mul_le (x * SCALE) (q_total k b) ltac:(lia)).
    pose proof (Z.div_pos (x * SCALE) (q_total k b) ltac:(nia) ltac:(lia)). nia.
  Qed.
  Lemma growth_zero k r b : r_rate r * (r_until r b - r_last r) = 0 -> growth k r b = 0.
  Proof. intros H. unfold growth. rewrite H. destruct (_ =? _) eqn:E; [done|]. rewrite Z.mul_0_l. apply Z.div_0_l. lia. Qed.

  Lemma update_ok k r b a r' :
    r_update k r b a = Ok r' ->
    let g := growth k r b in
    let e := q_balance k b a * (r_rpt r + g - r_user r a) / SCALE in
    r' = RState (r_own r) (r_token r) (r_fin r) (r_rate r) (r_dur r) (r_rpt r + g) (r_until r b)
           (<[a := r_pending r a + e]> (r_pend r)) (<[a := r_rpt r + g]> (r_urpt r)) /\
    r_user r a <= r_rpt r + g /\ e <= U128_MAX /\ r_pending r a + e <= U128_MAX.
  Proof.
    unfold r_update. destruct (r_per_token k r b) as [rpt|] eqn:E; [|done].
    apply per_token_ok in E as ->. unfold r_earned.
    destruct (sub256 _ _) as [f|] eqn:E1; [|done]. apply sub256_ok in E1 as [-> ?].
    destruct (mul256 _ _) as [n|] eqn:E2; [|done]. apply mul256_ok in E2 as [-> ?].
    destruct (_ <=? U128_MAX) eqn:E3; [|done].
    destruct (add128 _ _) as [p|] eqn:E4; [|done]. apply add128_ok in E4 as [-> ?].
    intros [= <-]. repeat split; try done; lia.
  Qed.
  Lemma pending_insert r o t f ra d x y a p q u :
    r_pending (RState o t f ra d x y (<[a := p]> (r_pend r)) q) u = if decide (u = a) then p else r_pending r u.
  Proof.
    unfold r_pending. cbn. destruct (decide (u = a)) as [->|]; [by rewrite lookup_insert|].
    by rewrite lookup_insert_ne.
  Qed.
  Lemma user_insert r o t f ra d x y a p q u :
    r_user (RState o t f ra d x y q (<[a := p]> (r_urpt r))) u = if decide (u = a) then p else r_user r u.
  Proof.
    unfold r_user. cbn. destruct (decide (u = a)) as [->|]; [by rewrite lookup_insert|].
    by rewrite lookup_insert_ne.
  Qed.

  (** An update moves what is owed into the pending amount, and to everybody no more
      than the schedule releases. *)
  Lemma update_step b k r wait pd fd a r' :
    kledg b k -> rinv b k r wait pd fd -> r_update k r b a = Ok r' ->
    rinv b k r' (remove_first a wait) pd fd /\ rinv b k r' wait pd fd /\
    r_last r' = r_until r b /\ r_user r' a = r_rpt r' /\
    r_fin r' = r_fin r /\ r_rate r' = r_rate r /\ r_dur r' = r_dur r /\ r_own r' = r_own r /\
    r_token r' = r_token r.
  Proof.
    intros HL HI H. pose proof (last_until _ _ _ _ _ _ HI) as Hu.
    destruct HI as [A1 A2 A3 A4 A5 A6 A7 A8 A9 A10 A11].
    destruct (growth_bounds b k r HL A1 Hu) as (G0 & G1 & G2).
    apply update_ok in H as (-> & Hle & _ & _). set (g := growth k r b) in *.
    set (e := q_balance k b a * (r_rpt r + g - r_user r a) / SCALE) in *.
    pose proof SCALE_pos as HS. pose proof (until_le r b) as [U1 U2].
    assert (0 <= e) as He0.
    { apply Z.div_pos; [|done]. pose proof (bal_nonneg b k a HL). nia. }
    assert (SCALE * e <= q_balance k b a * (r_rpt r + g - r_user r a)) as He1 by by apply Z.mul_div_le.
    set (r' := RState _ _ _ _ _ _ _ _ _).
    assert (forall u, r_user r' u = if decide (u = a) then r_rpt r + g else r_user r u) as EU
      by (intros; apply user_insert).
    assert (forall u, r_pending r' u = if decide (u = a) then r_pending r a + e else r_pending r u) as EP
      by (intros; apply pending_insert).
    assert (r_until r' b = r_until r b) as EUn by done.
    assert (forall us, NoDup us ->
      lsum (owed k r' b) us + SCALE * (r_rate r * (r_fin r - r_until r b)) <=
      lsum (owed k r b) us + SCALE * (r_rate r * (r_fin r - r_last r))) as Hmain.
    { intros us Hn.
      assert (lsum (owed k r' b) us <= lsum (fun u => owed k r b u + g * q_balance k b u) us) as H1.
      { apply lsum_le. intros u _. unfold owed. rewrite EU, EP. change (r_rpt r') with (r_rpt r + g).
        destruct (decide (u = a)) as [->|]; [|lia]. nia. }
      rewrite lsum_add, lsum_scale in H1. pose proof (bals_le b k us HL Hn).
      assert (g * lsum (q_balance k b) us <= g * q_total k b) by nia. nia. }
    assert (forall w, (forall u, u ∉ w -> u = a \/ u ∉ wait) -> rinv b k r' w pd fd) as Hall.
    { intros w Hw. split; cbn [r_rate r_dur r_last r_fin r_rpt r']; try done; try lia.
      - intros u. rewrite EU. pose proof (A5 u). destruct (decide (u = a)); lia.
      - intros u. rewrite EP. pose proof (A6 u). pose proof (A6 a). destruct (decide (u = a)); lia.
      - intros us Hn. pose proof (A8 us Hn). pose proof (Hmain us Hn). lia.
      - intros u Hin Hc. destruct (decide (u = a)) as [->|Hne].
        + right. rewrite EU. by rewrite decide_True by done.
        + destruct (Hw u Hin) as [?|Hin']; [done|]. destruct (A9 u Hin' Hc) as [?|[B1 B2]]; [by left|].
          right. rewrite EU, decide_False by done. split; [|done]. rewrite B1.
          unfold g. rewrite growth_zero; [lia|]. rewrite B2. lia. }
    split; [apply Hall|split; [apply Hall|]].
    - intros u Hin. destruct (decide (u = a)) as [?|Hne]; [by left|]. right. intros Hw. apply Hin.
      clear -Hne Hw. induction wait as [|h t IH]; [by apply elem_of_nil in Hw|]. simpl.
      destruct (a =? h)%N eqn:E.
      + apply N.eqb_eq in E as ->. by apply elem_of_cons in Hw as [?|?].
      + apply elem_of_cons in Hw as [->|Hw]; [left|right; by apply IH].
    - by right.
    - rewrite EU, decide_True by done. done.
  Qed.

  Lemma fund_step_r b k r wait pd fd a n r' :
    kledg b k -> 0 <= height b -> 0 <= n -> rinv b k r wait pd fd -> r_fund k r b a n = Ok r' ->
    rinv b k r' wait pd (fd + n).
  Proof.
    intros HL Hb Hn HI H. unfold r_fund in H. destruct (is_owner _ _); [|done].
    destruct (r_update k r b a) as [r1|] eqn:E; [|done].
    apply (update_step _ _ _ _ _ _ _ _ HL HI) in E as (_ & HI1 & L1 & _ & F1 & _ & _ & _ & _).
    destruct (height b <? r_fin r1) eqn:Ef; [done|]. cbn [negb] in H.
    destruct (add64 _ _) as [fin|] eqn:Ea; [|done]. apply add64_ok in Ea as [-> ?].
    destruct (r_dur r1 =? 0) eqn:Ed; [done|]. cbn [negb] in H.
    cbn zeta in H. destruct (n / r_dur r1 =? 0) eqn:Er; [done|]. cbn [negb] in H. injection H as <-.
    pose proof SCALE_pos as HS. destruct HI1 as [A1 A2 A3 A4 A5 A6 A7 A8 A9 A10 A11].
    assert (r_last r1 = r_fin r1) as EL by (rewrite L1; unfold r_until; lia).
    set (rate := n / r_dur r1) in *. assert (0 <= rate) by (apply Z.div_pos; lia).
    assert (rate * r_dur r1 <= n) as Hrd by (apply div_mul_le; lia).
    split; cbn [r_rate r_dur r_last r_fin r_rpt]; try done; try lia.
    - intros us Hus. pose proof (A8 us Hus) as HM. rewrite EL in HM.
      match goal with |- context [lsum ?f us] => assert (lsum f us = lsum (owed k r1 b) us) as -> by done end.
      replace (height b + r_dur r1 - height b) with (r_dur r1) by lia. nia.
    - intros u Hu Hc. right. change (r_user _ u) with (r_user r1 u).
      destruct (A9 u Hu Hc) as [Z0|[B1 B2]].
      + destruct (A7 Z0) as [_ B]. pose proof (A5 u). split; [lia|]. unfold r_until. cbn. lia.
      + split; [done|]. unfold r_until. cbn. lia.
    - intros _. right; right. unfold r_until. cbn. lia.
  Qed.

  Lemma claim_step_r b k r wait pd fd a r' n :
    kledg b k -> rinv b k r wait pd fd -> r_claim k r b a = Ok (r', n) ->
    rinv b k r' wait (pd + n) fd /\ 0 < n.
  Proof.
    intros HL HI H. unfold r_claim in H. destruct (r_update k r b a) as [r1|] eqn:E; [|done].
    apply (update_step _ _ _ _ _ _ _ _ HL HI) in E as (_ & HI1 & L1 & U1 & _).
    destruct (r_pending r1 a =? 0) eqn:E0; [done|]. cbn [negb] in H. injection H as <- <-.
    pose proof SCALE_pos as HS. destruct HI1 as [A1 A2 A3 A4 A5 A6 A7 A8 A9 A10 A11].
    split; [|pose proof (A6 a); lia].
    set (r' := RState _ _ _ _ _ _ _ _ _).
    assert (forall u, r_pending r' u = if decide (u = a) then 0 else r_pending r1 u) as EP
      by (intros; apply pending_insert).
    split; cbn [r_rate r_dur r_last r_fin r_rpt r']; try done.
    - intros u. rewrite EP. destruct (decide _); [done|apply A6].
    - intros us Hus.
      assert (forall u, u <> a -> owed k r' b u = owed k r1 b u) as Eo.
      { intros u Hne. unfold owed. rewrite EP, decide_False by done. done. }
      assert (owed k r1 b a = SCALE * r_pending r1 a) as Ea by (unfold owed; rewrite U1; lia).
      assert (owed k r' b a = 0) as Ea'.
      { unfold owed. rewrite EP, decide_True by done. change (r_rpt r') with (r_rpt r1).
        change (r_user r' a) with (r_user r1 a). rewrite U1. lia. }
      destruct (decide (a ∈ us)) as [Hin|Hin].
      + pose proof (A8 us Hus). rewrite (lsum_at _ (owed k r1 b) a) by done. lia.
      + pose proof (A8 (a :: us) ltac:(by apply NoDup_cons)) as HM. simpl in HM.
        rewrite (lsum_ext (owed k r' b) (owed k r1 b)); [lia|].
        intros u Hu. apply Eo. by intros ->.
  Qed.

  (** Another block. *)
  Lemma rinv_time b b' k r wait pd fd :
    kledg b k -> block_le b b' -> wait = [] \/ height b = height b' ->
    rinv b k r wait pd fd -> rinv b' k r wait pd fd.
  Proof.
    intros HL [Hb _] Hw HI. destruct (decide (height b = height b')) as [E|Hne].
    - destruct HI as [A1 A2 A3 A4 A5 A6 A7 A8 A9 A10 A11].
      split; try done; unfold owed, q_balance, q_total, k_balance_at, k_total_at, r_until in *; cbn in *;
        rewrite <-E; done.
    - destruct Hw as [->|?]; [|done]. destruct HI as [A1 A2 A3 A4 A5 A6 A7 A8 A9 A10 A11].
      assert (forall u, q_balance k b' u = smap_get (k_bals k) u) as Eb.
      { intros u. unfold q_balance, k_balance_at. cbn. eapply smap_at_now; [apply HL|lia]. }
      assert (q_total k b' = snap_get (k_total k)) as Et.
      { unfold q_total, k_total_at. cbn. eapply snap_get_at_now; [apply HL|lia]. }
      assert (forall u, owed k r b' u = owed k r b u) as Eo.
      { intros u. unfold owed. rewrite Eb.
        destruct (decide (smap_get (k_bals k) u = q_balance k b u)) as [->|Hc]; [done|].
        destruct (A9 u ltac:(apply not_elem_of_nil) Hc) as [Z0|[-> _]]; [|lia].
        destruct (A7 Z0) as [_ ->]. pose proof (A5 u). destruct (A7 Z0) as [_ B]. rewrite B in *.
        replace (r_user r u) with 0 by lia. lia. }
      split; try done; try lia.
      + intros us Hus. rewrite (lsum_ext (owed k r b') (owed k r b)) by (intros; apply Eo). by apply A8.
  Qed.
End rew.

(** A call of the staking contract. *)
Lemma hooks_to_in me (hs : list addr) st who n :
  existsb (N.eqb me) hs = true -> who ∈ hooks_to me (map (fun h => KHook h st who n) hs).
Proof.
  induction hs as [|h hs IH]; simpl; [done|]. rewrite orb_true_iff. intros [E|E].
  - apply N.eqb_eq in E as ->. rewrite N.eqb_refl. left.
  - apply elem_of_app. right. by apply IH.
Qed.
Lemma hooks_to_nonnil me (hs : list addr) st who n :
  existsb (N.eqb me) hs = true -> hooks_to me (map (fun h => KHook h st who n) hs) <> [].
Proof. intros H E. pose proof (hooks_to_in me hs st who n H) as Hin. rewrite E in Hin. by apply elem_of_nil in Hin. Qed.
Lemma stake_only k b a m k' subs :
  k_handle k b a m = Ok (k', subs) -> stake_change m = false ->
  k_bals k' = k_bals k /\ k_total k' = k_total k.
Proof.
  intros H Hs. destruct m as [from x [|]|x| | | | | |x]; try done.
  - by apply fund_step in H as (_ & _ & _ & -> & _).
  - by apply claim_step in H as (_ & _ & _ & -> & _).
  - apply quiet_step in H as (-> & -> & _); done.
  - apply quiet_step in H as (-> & -> & _); done.
  - apply quiet_step in H as (-> & -> & _); done.
  - apply quiet_step in H as (-> & -> & _); done.
  - by apply donate_step in H as (_ & _ & _ & ->).
Qed.
Lemma stake_who k b a m k' subs :
  k_handle k b a m = Ok (k', subs) -> stake_change m = true ->
  exists who st n pre, (forall u, u <> who -> smap_get (k_bals k') u = smap_get (k_bals k) u) /\
    subs = pre ++ map (fun h => KHook h st who n) (k_hooks k) /\ hooks_to (0%N) pre = [] /\
    (forall me, hooks_to me pre = []).
Proof.
  intros H Hs. destruct m as [from x [|]|x| | | | | |x]; try done.
  - apply stake_step in H as (n & _ & _ & _ & _ & _ & _ & -> & ->).
    exists from, true, n, []. split; [|done]. intros u Hu. cbn. rewrite smap_get_save. by rewrite decide_False.
  - apply unstake_step in H as (_ & _ & _ & _ & _ & _ & E & _ & _ & _ & _ & _ & _ & Hc).
    assert (forall u, u <> a -> smap_get (k_bals k') u = smap_get (k_bals k) u) as Hu.
    { intros u Hu. rewrite E, smap_get_save. by rewrite decide_False. }
    destruct Hc as [(_ & _ & _ & _ & ->)|(d & _ & _ & _ & _ & ->)].
    + exists a, false, x, [KPay a (x * k_pool k / total_staked k)]. done.
    + exists a, false, x, []. done.
Qed.
Lemma hooks_to_app me l1 l2 : hooks_to me (l1 ++ l2) = hooks_to me l1 ++ hooks_to me l2.
Proof. apply flat_map_app. Qed.

Lemma rinv_stake b k r wait pd fd me a m k' subs :
  k_handle k b a m = Ok (k', subs) -> rinv b k r wait pd fd ->
  negb (stake_change m) || existsb (N.eqb me) (k_hooks k) || (r_fin r =? 0) = true ->
  rinv b k' r (wait ++ hooks_to me subs) pd fd.
Proof.
  intros H HI Hh. destruct (at_call _ _ _ _ _ _ (height b) H ltac:(lia)) as [Eb Et].
  assert (forall u, q_balance k' b u = q_balance k b u) as Eb' by (intros; apply Eb).
  assert (q_total k' b = q_total k b) as Et' by apply Et.
  destruct HI as [A1 A2 A3 A4 A5 A6 A7 A8 A9 A10 A11].
  split; try done.
  - intros us Hus. rewrite (lsum_ext (owed k' r b) (owed k r b)); [by apply A8|].
    intros u _. unfold owed. by rewrite Eb'.
  - intros u Hu Hc. apply not_elem_of_app in Hu as [Hu1 Hu2]. rewrite Eb' in Hc.
    destruct (stake_change m) eqn:Es.
    + destruct (stake_who _ _ _ _ _ _ H Es) as (who & st & n & pre & Ew & -> & _ & Ep).
      destruct (decide (u = who)) as [->|Hne]; [|rewrite Ew in Hc by done; by apply A9].
      rewrite hooks_to_app, Ep in Hu2. simpl in Hh. apply orb_true_iff in Hh as [Hh|Hh]; [|left; lia].
      exfalso. by apply Hu2, hooks_to_in.
    + destruct (stake_only _ _ _ _ _ _ H Es) as [E1 E2]. rewrite E1 in Hc. by apply A9.
  - intros Hn. apply app_eq_nil in Hn as [Hn1 Hn2]. rewrite Et'. destruct (stake_change m) eqn:Es.
    + destruct (stake_who _ _ _ _ _ _ H Es) as (who & st & n & pre & Ew & -> & _ & Ep).
      rewrite hooks_to_app, Ep in Hn2. simpl in Hh. apply orb_true_iff in Hh as [Hh|Hh]; [|right; left; lia].
      exfalso. by apply (hooks_to_nonnil me (k_hooks k) st who n).
    + destruct (stake_only _ _ _ _ _ _ H Es) as [E1 E2]. rewrite E2. by apply A10.
Qed.

(** ** Joint histories *)
Definition settled (b : block) (s : xstate) : Prop := x_due s = [] \/ height b = x_block s.
Record xinv (b : block) (s : xstate) (l : xlog) : Prop := XInv {
  xi_k : kinv b (x_stake s);
  xi_ledger : ledger (height b) (k_bals (x_stake s)) (k_total (x_stake s));
  xi_block : 0 <= x_block s <= height b;
  xi_held : x_held s = funded l + given l - paid l;
  xi_given : 0 <= given l;
  xi_paid : 0 <= paid l;
  xi_max : x_held s <= U128_MAX;
  xi_rew : settled b s -> rinv b (x_stake s) (x_rew s) (x_due s) (paid l) (funded l)
}.
Lemma funded_app l l' : funded (l ++ l') = funded l + funded l'.
Proof. apply lsum_app. Qed.
Lemma given_app l l' : given (l ++ l') = given l + given l'.
Proof. apply lsum_app. Qed.
Lemma paid_app l l' : paid (l ++ l') = paid l + paid l'.
Proof. apply lsum_app. Qed.
Lemma must_pay_ok funds d n : must_pay funds d = Ok n -> funds = [(d, n)] /\ n <> 0.
Proof.
  unfold must_pay. destruct funds as [|[d' x] [|? ?]]; try done.
  destruct (x =? 0) eqn:E; [done|]. destruct (d' =? d)%N eqn:Ed; [|done].
  apply N.eqb_eq in Ed as ->. intros [= ->]. split; [done|lia].
Qed.
Lemma pay_none subs : lsum pay (map XStakeSub subs) = 0.
Proof. induction subs; simpl; lia. Qed.

Lemma rinv_own b k r wait pd fd o :
  rinv b k r wait pd fd ->
  rinv b k (RState o (r_token r) (r_fin r) (r_rate r) (r_dur r) (r_rpt r) (r_last r) (r_pend r)
    (r_urpt r)) wait pd fd.
Proof. intros [A1 A2 A3 A4 A5 A6 A7 A8 A9 A10 A11]. by split. Qed.

Lemma xinv_call b s l a m s' subs :
  xinv b s l -> x_handle s b a m = Ok (s', subs) -> hooked (ECall s b a m s' subs) = true ->
  xinv b s' (l ++ [ECall s b a m s' subs]).
Proof.
  intros [B1 B2 B3 B4 B5 B5' B6 B7] H Hh. unfold x_handle in H.
  destruct (_ || _) eqn:Eg in H; [|done].
  assert (settled b s) as Hs.
  { unfold settled. apply orb_true_iff in Eg as [E|E]; [left; by destruct (x_due s)|right; lia]. }
  specialize (B7 Hs). clear Eg Hs.
  destruct m as [m|m|n].
  - destruct (k_handle (x_stake s) b a m) as [[k' ks]|] eqn:E; [|done]. cbn in H.
    injection H as <- <-. cbn [hooked] in Hh.
    split; cbn; rewrite ?funded_app, ?given_app, ?paid_app; cbn; rewrite ?pay_none, ?Z.add_0_r; try done; try lia.
    + by eapply kinv_call.
    + by eapply kledger_call.
    + intros _. by eapply rinv_stake.
  - destruct (x_rew_handle s b a m) as [[s1 subs1]|] eqn:E; [|done]. cbn in H. injection H as <- <-.
    destruct m as [st who| |funds|from n|n|act]; cbn [x_rew_handle] in E.
    + destruct (a =? _)%N; [|done]. destruct (existsb _ _) eqn:Ex; [|done].
      destruct (r_update _ _ _ _) as [r'|] eqn:Eu; [|done]. injection E as <- <-.
      apply (update_step _ _ _ _ _ _ _ _ B2 B7) in Eu as (HR & _).
      split; cbn; rewrite ?funded_app, ?given_app, ?paid_app; cbn; rewrite ?Z.add_0_r; try done; lia.
    + destruct (r_claim _ _ _ _) as [[r' n]|] eqn:Ec; [|done].
      destruct (n <=? x_held s) eqn:En; [|done]. injection E as <- <-.
      apply (claim_step_r _ _ _ _ _ _ _ _ _ B2 B7) in Ec as [HR Hn].
      split; cbn; rewrite ?funded_app, ?given_app, ?paid_app; cbn; rewrite ?Z.add_0_r; try done; lia.
    + destruct (forallb _ _) eqn:Ef; [|done]. destruct (r_token _); [|done].
      destruct (must_pay _ _) as [n|] eqn:Em; [|done]. apply must_pay_ok in Em as [-> Hn].
      simpl in Ef. apply andb_true_iff in Ef as [Ef _]. apply fits128_ok in Ef.
      destruct (_ <=? U128_MAX) eqn:Eh; [|done].
      destruct (r_fund _ _ _ _ _) as [r'|] eqn:Eu; [|done]. injection E as <- <-.
      apply (fund_step_r _ _ _ _ _ _ a n _ B2 ltac:(lia) ltac:(lia) B7) in Eu.
      split; cbn; rewrite ?funded_app, ?given_app, ?paid_app; cbn; rewrite ?Z.add_0_r; try done; lia.
    + destruct (fits128 n) eqn:Ef; [|done]. apply fits128_ok in Ef. destruct (r_token _); [done|].
      destruct (a =? _)%N; [|done]. destruct (_ <=? U128_MAX) eqn:Eh; [|done].
      destruct (r_fund _ _ _ _ _) as [r'|] eqn:Eu; [|done]. injection E as <- <-.
      apply (fund_step_r _ _ _ _ _ _ from n _ B2 ltac:(lia) ltac:(lia) B7) in Eu.
      split; cbn; rewrite ?funded_app, ?given_app, ?paid_app; cbn; rewrite ?Z.add_0_r; try done; lia.
    + destruct (_ && _) eqn:Ef in E; [|done]. apply andb_true_iff in Ef as [Ef1 Ef2]. apply Z.leb_le in Ef1. unfold r_set_duration in E. res_inv E. rename E0 into E1. res_inv E1.
      split; cbn; rewrite ?funded_app, ?given_app, ?paid_app; cbn; rewrite ?Z.add_0_r; try done; try lia.
      intros _. destruct B7 as [A1 A2 A3 A4 A5 A6 A7 A8 A9 A10 A11]. split; done.
    + destruct (update_ownership _ _ _ _) as [o|]; [|done]. injection E as <- <-.
      split; cbn; rewrite ?funded_app, ?given_app, ?paid_app; cbn; rewrite ?Z.add_0_r; try done; try lia.
      intros _. by apply rinv_own.
  - destruct (fits128 n) eqn:Ef; [|done]. apply fits128_ok in Ef.
    destruct (_ <=? U128_MAX) eqn:Eh; [|done]. cbn in H. injection H as <- <-.
    split; cbn; rewrite ?funded_app, ?given_app, ?paid_app; cbn; rewrite ?Z.add_0_r; try done; lia.
Qed.
Lemma xinv_time b b' s l : xinv b s l -> block_le b b' -> xinv b' s l.
Proof.
  intros [B1 B2 B3 B4 B5 B5' B6 B7] Hb. pose proof Hb as [Hh _]. split; try done.
  - by eapply kinv_time.
  - by eapply ledger_time.
  - lia.
  - intros Hs. assert (x_due s = [] \/ height b = height b') as Hd.
    { destruct Hs as [?|?]; [by left|]. right. lia. }
    apply (rinv_time b b'); try done. apply B7. destruct Hd as [?|E]; [by left|].
    destruct Hs as [?|?]; [by left|]. right. lia.
Qed.
Lemma xinv_init b k lk me staking owner token dur s :
  0 <= height b -> 0 <= dur <= U64_MAX -> kreached b k lk ->
  x_instantiate b k me staking owner token dur = Ok s -> xinv b s [].
Proof.
  intros Hb Hd HK H. unfold x_instantiate, r_instantiate in H. res_inv H. rename E into E1. res_inv E1. split; cbn; try done; try lia.
  - by eapply kreached_inv.
  - by eapply kledger.
  - intros _. split; cbn [r_fin r_rate r_dur r_rpt r_last]; try done; try lia.
    + intros us _. rewrite (lsum_ext _ (fun _ => 0)).
      * clear. induction us; simpl in *; lia.
      * intros u _. unfold owed, r_pending, r_user. cbn [r_pend r_urpt r_rpt]. rewrite !lookup_empty. cbn. lia.
Qed.
Lemma xran_inv b s l : xran b s l -> xinv b s l.
Proof.
  intros (b0 & k0 & lk & me & staking & owner & token & dur & s0 & Hb & Hd & HK & Hi & HL & Hh).
  assert (forallb hooked l = true -> xinv b s l) as X; [|by apply X].
  revert HL. apply (leads_ind x_handle (fun b s l => forallb hooked l = true -> xinv b s l)).
  - clear. intros b s l a m s' subs IH H Hh. rewrite forallb_app in Hh. apply andb_true_iff in Hh as [H1 H2].
    simpl in H2. rewrite andb_true_r in H2. apply xinv_call; auto.
  - clear. intros b s l x IH Hh. rewrite forallb_app in Hh. apply andb_true_iff in Hh as [H1 _].
    destruct (IH H1) as [B1 B2 B3 B4 B5 B5' B6 B7].
    split; rewrite ?funded_app, ?given_app, ?paid_app; cbn; rewrite ?Z.add_0_r; done.
  - clear. intros b b' s l IH Hb Hh. eapply xinv_time; eauto.
  - intros _. by eapply xinv_init.
Qed.
