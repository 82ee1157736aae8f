(** A reward distributor that serves a staking contract: lemmas. *)
From Coq Require Import QArith.
From Verif Require Import Base BaseProofs Exec ExecProofs Plain PlainProofs StoreModel StoreProofs
  StakeModel StakeSpec StakeProofs StakeClaims DistModel DistSpec DistProofs DistClaims
  FlowModel FlowSpec.
Local Open Scope Z_scope.

(** What the distributor sends in one call. *)
Lemma d_sends s b a m s' subs :
  d_handle s b a m = Ok (s', subs) ->
  subs = [] \/ (exists n, m = DWithdraw /\ subs = [DTransfer (d_token s) a n]) \/
  (m = DDistribute /\ subs = [DFund (d_token s) (d_staking s) (due_at s b)] /\
   d_last s < height b /\ due_at s b <> 0 /\ d_token s' = d_token s /\ d_staking s' = d_staking s /\
   forall t, d_bal s' t = d_bal s t - (if (d_token s =? t)%N then due_at s b else 0)).
Proof.
  intros H. destruct m as [k r t v| | |act|t n]; cbn in H.
  - destruct (fits128 r); [|done]. destruct (is_owner _ _); [|done]. destruct v; [|done].
    rewrite amount_config in H. simplify_eq. by left.
  - destruct (d_amount s b) as [n|] eqn:E; [|done]. simplify_eq.
    apply amount_ok in E as (B1 & B2 & B3 & B4). subst n. right. right.
    do 4 (split; [done|]). split; [done|]. split; [done|].
    intros t. rewrite send_bal. cbn. unfold d_bal. cbn. destruct (d_token s =? t)%N eqn:Et; [|lia].
    apply N.eqb_eq in Et as ->. lia.
  - destruct (is_owner _ _); [|done]. simplify_eq. right. left. eauto.
  - destruct (update_ownership _ _ _ _); [|done]. simplify_eq. by left.
  - destruct (fits128 n); [|done]. destruct (_ <=? _) in H; [|done]. simplify_eq. by left.
Qed.

Record finv (b : block) (s : fstate) : Prop := FInv {
  fi_k : kinv b (f_k s);
  fi_d : dinv b (f_d s);
  fi_sup : f_held s <= U128_MAX }.
(** One call, seen by the staking contract. *)
Lemma f_step b s a m s' subs :
  finv b s -> f_handle s b a m = Ok (s', subs) ->
  f_dist s' = f_dist s /\ f_stk s' = f_stk s /\ f_held s' <= U128_MAX /\ f_outside s a = true /\
  ((exists km ks, m = FStake km /\ k_handle (f_k s) b a km = Ok (f_k s', ks) /\
      subs = map FK ks /\ f_d s' = f_d s) \/
   (exists dm ds, m = FDist dm /\ d_handle (f_d s) b a dm = Ok (f_d s', ds) /\
      ((f_k s' = f_k s /\ lsum (brings (f_stk s)) subs = 0 /\ (dm = DDistribute -> d_staking (f_d s) <> f_stk s)) \/
       (let n := due_at (f_d s) b in
        dm = DDistribute /\ d_staking (f_d s) = f_stk s /\ d_token (f_d s) = k_token (f_k s) /\
        k_handle (f_k s) b (k_token (f_k s)) (KReceive (f_dist s) n false) = Ok (f_k s', []) /\
        0 < n /\ subs = [FD (DFund (k_token (f_k s)) (f_stk s) n)])))).
Proof.
  intros [HK HD HS] H. unfold f_handle in H. destruct (f_outside s a) eqn:Eo; [|done].
  destruct m as [dm|km].
  - destruct (d_handle (f_d s) b a dm) as [[d l]|] eqn:Ed; [|done].
    destruct (f_deliver _ _ _ _ _) as [[k out]|] eqn:Ef; [|done].
    destruct (f_held _ <=? U128_MAX) eqn:Eh in H; [|done]. injection H as <- <-. cbn [f_dist f_stk f_d f_k] in *.
    split; [done|]. split; [done|]. split; [lia|]. split; [done|]. right. exists dm, l.
    split; [done|]. split; [done|].
    destruct (d_sends _ _ _ _ _ _ Ed) as [->|[(n & -> & ->)|(-> & -> & A1 & A2 & A3 & A4 & A5)]];
      cbn [f_deliver] in Ef.
    + injection Ef as <- <-. left. split; [done|]. split; [done|]. intros ->.
      cbn in Ed. destruct (d_amount _ _); [|done]. by simplify_eq.
    + injection Ef as <- <-. left. split; [done|]. done.
    + destruct (d_staking (f_d s) =? f_stk s)%N eqn:E.
      * apply N.eqb_eq in E. destruct (k_handle _ _ _ _) as [[k1 o1]|] eqn:Ek; [|done].
        injection Ef as <- <-. pose proof (fund_step _ _ _ _ _ _ _ Ek) as (B1 & B2 & B3 & B4 & ->).
        right. rewrite B1 in Ek. rewrite B1, E. repeat split; try done. lia.
      * apply N.eqb_neq in E. injection Ef as <- <-. left. split; [done|]. split; [|done].
        cbn. apply N.eqb_neq in E. rewrite E. done.
  - destruct (match km with KReceive _ _ _ => _ | _ => _ end); [|done].
    destruct (k_handle (f_k s) b a km) as [[k l]|] eqn:Ek; [|done].
    destruct (f_held _ <=? U128_MAX) eqn:Eh in H; [|done]. injection H as <- <-. cbn [f_dist f_stk f_d f_k] in *.
    split; [done|]. split; [done|]. split; [lia|]. split; [done|]. left. exists km, l. done.
Qed.
Lemma finv_call b s a m s' subs : finv b s -> f_handle s b a m = Ok (s', subs) -> finv b s'.
Proof.
  intros HI H. destruct (f_step _ _ _ _ _ _ HI H) as (_ & _ & A & _ & B). destruct HI as [HK HD HS].
  destruct B as [(km & ks & -> & B & _ & E)|(dm & ds & -> & B & C)].
  - split; [by eapply kinv_call|by rewrite E|done].
  - split; [|by eapply dinv_call|done].
    destruct C as [(-> & _)|(_ & _ & _ & C & _)]; [done|]. by eapply kinv_call.
Qed.
Lemma finv_time b b' s : finv b s -> block_le b b' -> finv b' s.
Proof. intros [A B C] Hb. split; [by eapply kinv_time|by eapply dinv_time|done]. Qed.
Lemma freached_inv b s l : freached b s l -> finv b s.
Proof.
  intros (b0 & s0 & ld & lk & HD & HK & _ & HS & HL).
  eapply (leads_inv f_handle finv finv_call finv_time); [|exact HL].
  split; [by eapply kreached_inv|by eapply dreached_inv|done].
Qed.
Lemma freached_app b s l b' s' l' :
  freached b s l -> leads f_handle b s b' s' l' -> freached b' s' (l ++ l').
Proof.
  intros (b0 & s0 & ld & lk & HD & HK & HN & HS & HL) HL'.
  exists b0, s0, ld, lk. do 4 (split; [done|]). by eapply leads_app.
Qed.

(** ** One distribution *)
Lemma c135_distribute b s l a s' subs :
  freached b s l -> serves s -> f_handle s b a (FDist DDistribute) = Ok (s', subs) ->
  let n := due_at (f_d s) b in
  0 < n /\ subs = [FD (DFund (k_token (f_k s)) (f_stk s) n)] /\
  d_bal (f_d s') (k_token (f_k s)) = d_bal (f_d s) (k_token (f_k s)) - n /\
  k_held (f_k s') = k_held (f_k s) + n /\ k_pool (f_k s') = k_pool (f_k s) + n /\
  (forall x, staked (f_k s') x = staked (f_k s) x) /\ total_staked (f_k s') = total_staked (f_k s) /\
  k_claims (f_k s') = k_claims (f_k s) /\ serves s'.
Proof.
  intros HR [S1 S2] H. apply freached_inv in HR.
  destruct (f_step _ _ _ _ _ _ HR H) as (E1 & E2 & _ & _ & [(km & ks & Hm & _)|(dm & ds & Hm & B & C)]); [done|].
  injection Hm as <-. destruct C as [(_ & _ & C)|(_ & _ & _ & C & C1 & C2)]; [by destruct C|].
  apply fund_step in C as (_ & _ & _ & C & _).
  destruct (d_sends _ _ _ _ _ _ B) as [->|[(n & ? & _)|(_ & _ & A1 & A2 & A3 & A4 & A5)]]; [|done|].
  { cbn in B. destruct (d_amount _ _); [|done]. by simplify_eq. }
  cbn zeta. rewrite C. cbn. split; [done|]. split; [done|]. rewrite A5, S2, N.eqb_refl.
  do 5 (split; [done|]). split; [done|]. unfold serves. rewrite A3, A4, E2, C. done.
Qed.
(** Nothing about the staking contract stands in its way. *)
Lemma c135_accepted b s l a :
  freached b s l -> serves s -> f_outside s a = true ->
  d_rate (f_d s) * (height b - d_last (f_d s)) <= U128_MAX -> 0 < due_at (f_d s) b ->
  exists s' subs, f_handle s b a (FDist DDistribute) = Ok (s', subs).
Proof.
  intros HR [S1 S2] Ho Hr Hp. apply freached_inv in HR. destruct HR as [HK HD HS].
  destruct HD as [D1 D2 D3].
  unfold f_handle. rewrite Ho.
  assert (d_last (f_d s) < height b) as Hl by (unfold due_at in Hp; nia).
  assert (d_amount (f_d s) b = Ok (due_at (f_d s) b)) as Ea.
  { unfold d_amount, due_at in *. replace (height b <=? d_last (f_d s)) with false by lia. cbn [negb].
    unfold mul128. destruct (U128_MAX <? _) eqn:E; [lia|].
    set (x := Z.min _ _) in *. destruct (x =? 0) eqn:E0; [lia|]. done. }
  cbn [d_handle]. rewrite Ea. cbn [f_deliver]. rewrite S1, S2, N.eqb_refl.
  set (n := due_at (f_d s) b) in *.
  assert (n <= d_bal (f_d s) (k_token (f_k s))) as Hn.
  { unfold n, due_at. rewrite S2. lia. }
  pose proof (ki_held _ _ HK) as H1. pose proof (ki_max _ _ HK) as H2.
  pose proof (total_nonneg _ _ HK) as H3. pose proof (ki_pool _ _ HK) as H4.
  unfold f_held in HS.
  assert (0 <= claims_sum (k_claims (f_k s))) as Hc.
  { unfold claims_sum. apply msum_nonneg. intros x cl Hx. apply lsum_nonneg. intros c Hc. apply (ki_cpos _ _ HK x). unfold claims_of. by rewrite Hx. }
  assert (k_handle (f_k s) b (k_token (f_k s)) (KReceive (f_dist s) n false) =
    Ok (KState (k_token (f_k s)) (k_dur (f_k s)) (k_own (f_k s)) (k_bals (f_k s)) (k_total (f_k s))
         (k_pool (f_k s) + n) (k_claims (f_k s)) (k_hooks (f_k s)) (k_held (f_k s) + n), [])) as Ek.
  { cbn [k_handle]. unfold fits128. replace ((0 <=? n) && (n <=? U128_MAX)) with true by lia.
    unfold k_receive. rewrite N.eqb_refl. unfold k_arrive.
    replace (k_held (f_k s) + n <=? U128_MAX) with true by lia.
    unfold k_fund. cbn. rewrite add128_eq by lia. done. }
  rewrite Ek. cbn [map app].
  match goal with |- context [f_held ?x <=? _] => assert (f_held x <= U128_MAX) as Hh end.
  { unfold f_held. cbn [f_d f_k k_token k_held]. rewrite send_bal. cbn [d_token].
    rewrite ?S2, N.eqb_refl. unfold d_bal in *. cbn. lia. }
  apply Z.leb_le in Hh. rewrite Hh. eauto.
Qed.
(** What the shares of everybody are worth rises by their part of it, to within one token. *)
Lemma c135_parts b s l a s' subs x :
  freached b s l -> serves s -> f_handle s b a (FDist DDistribute) = Ok (s', subs) ->
  0 < total_staked (f_k s) ->
  let n := due_at (f_d s) b in let t := total_staked (f_k s) in
  let worth k := staked k x * k_pool k / total_staked k in
  n * staked (f_k s) x / t <= worth (f_k s') - worth (f_k s) <= n * staked (f_k s) x / t + 1.
Proof.
  intros HR HS H Ht. destruct (c135_distribute _ _ _ _ _ _ HR HS H) as (N0 & _ & _ & _ & E1 & E2 & E3 & _).
  cbn zeta beta. rewrite E1, E2, E3. set (n := due_at _ _) in *. set (t := total_staked _) in *.
  set (y := staked _ _). set (p := k_pool _).
  replace (y * (p + n)) with (y * p + n * y) by lia.
  pose proof (Z.div_mod (y * p) t ltac:(lia)). pose proof (Z.div_mod (n * y) t ltac:(lia)).
  pose proof (Z.div_mod (y * p + n * y) t ltac:(lia)).
  pose proof (Z.mod_pos_bound (y * p) t Ht). pose proof (Z.mod_pos_bound (n * y) t Ht).
  pose proof (Z.mod_pos_bound (y * p + n * y) t Ht).
  split; nia.
Qed.

(** ** Many *)
Lemma Qdiv_le a b c d : 0 < b -> 0 < d -> a * d <= c * b ->
  (inject_Z a / inject_Z b <= inject_Z c / inject_Z d)%Q.
Proof.
  intros Hb Hd H. destruct b as [|b|b]; [lia| |lia]. destruct d as [|d|d]; [lia| |lia].
  unfold Qle, Qdiv, Qmult, Qinv, inject_Z. cbn. lia.
Qed.
Lemma Qdiv_add a n b : 0 < b ->
  (inject_Z (a + n) / inject_Z b == inject_Z a / inject_Z b + inject_Z n / inject_Z b)%Q.
Proof. intros Hb. rewrite inject_Z_plus. unfold Qdiv. ring. Qed.
Lemma rewards_app l l' : (rewards (l ++ l') == rewards l + rewards l')%Q.
Proof.
  induction l as [|e l IH].
  - change (rewards l' == 0 + rewards l')%Q. ring.
  - change (per_share e + rewards (l ++ l') == (per_share e + rewards l) + rewards l')%Q. rewrite IH. ring.
Qed.
Lemma price_step b s a m s' subs :
  finv b s -> f_handle s b a m = Ok (s', subs) -> 0 < total_staked (f_k s) -> 0 < total_staked (f_k s') ->
  (price s + per_share (ECall s b a m s' subs) <= price s')%Q.
Proof.
  intros HI H Ht Ht'. destruct (f_step _ _ _ _ _ _ HI H) as (E1 & E2 & _ & _ & B).
  unfold price, per_share, ev_brings.
  destruct B as [(km & ks & -> & B & -> & E)|(dm & ds & -> & B & C)].
  - assert (lsum (brings (f_stk s)) (map FK ks) = 0) as -> by (clear; induction ks as [|y ks IH]; cbn [map lsum brings]; lia).
    unfold Qdiv at 2. rewrite Qmult_0_l, Qplus_0_r. apply Qdiv_le; [done|done|].
    eapply share_step; [apply HI|exact B|done].
  - destruct C as [(-> & -> & _)|(_ & _ & _ & C & C1 & ->)].
    + unfold Qdiv at 2. rewrite Qmult_0_l, Qplus_0_r. apply Qle_refl.
    + cbn [lsum brings]. rewrite N.eqb_refl, Z.add_0_r. apply fund_step in C as (_ & _ & _ & -> & _).
      cbn [k_pool]. unfold total_staked in *. cbn [k_total]. rewrite <-Qdiv_add by done. apply Qle_refl.
Qed.
Lemma c135_accrue b s l b' s' l' :
  freached b s l -> leads f_handle b s b' s' l' -> 0 < total_staked (f_k s) ->
  (forall e, e ∈ l' -> 0 < total_staked (f_k (ev_post e))) ->
  (price s + rewards l' <= price s')%Q.
Proof.
  intros HR HL Ht. pose proof (freached_inv _ _ _ HR) as HI.
  enough (finv b' s' /\ ((forall e, e ∈ l' -> 0 < total_staked (f_k (ev_post e))) ->
    0 < total_staked (f_k s') /\ (price s + rewards l' <= price s')%Q)) by tauto.
  revert HL.
  apply (leads_ind f_handle (fun b' s' l' => finv b' s' /\
    ((forall e, e ∈ l' -> 0 < total_staked (f_k (ev_post e))) ->
    0 < total_staked (f_k s') /\ (price s + rewards l' <= price s')%Q))).
  - intros b1 s1 l1 a m s2 subs [IH1 IH2] Hh. split; [by eapply finv_call|]. intros He.
    destruct IH2 as [T1 P1]; [intros e Hin; apply He; apply elem_of_app; by left|].
    assert (0 < total_staked (f_k s2)) as T2.
    { apply (He (ECall s1 b1 a m s2 subs)). apply elem_of_app. right. by left. }
    split; [done|]. rewrite rewards_app. cbn [rewards fold_right]. rewrite Qplus_0_r, Qplus_assoc.
    eapply Qle_trans; [|by eapply price_step]. apply Qplus_le_compat; [done|apply Qle_refl].
  - intros b1 s1 l1 x [IH1 IH2]. split; [done|]. intros He.
    destruct IH2 as [T1 P1]; [intros e Hin; apply He; apply elem_of_app; by left|].
    split; [done|]. rewrite rewards_app. cbn [rewards fold_right per_share]. by rewrite !Qplus_0_r.
  - intros b1 b2 s1 l1 [IH1 IH2] Hb. split; [by eapply finv_time|done].
  - split; [done|]. intros _. split; [done|]. cbn. rewrite Qplus_0_r. apply Qle_refl.
Qed.
(** What [x] shares held all along are paid in the end. *)
Lemma c135_collect b s l b' s' l' a x s'' subs :
  freached b s l -> leads f_handle b s b' s' l' -> 0 < total_staked (f_k s) ->
  (forall e, e ∈ l' -> 0 < total_staked (f_k (ev_post e))) ->
  f_handle s' b' a (FStake (KUnstake x)) = Ok (s'', subs) ->
  exists n, n = k_pool (f_k s') - k_pool (f_k s'') /\
    (inject_Z x * (price s + rewards l') < inject_Z (n + 1))%Q /\
    match k_dur (f_k s') with
    | None => FK (KPay a n) ∈ subs
    | Some d => Claim n (after d b') ∈ claims_of (k_claims (f_k s'')) a
    end.
Proof.
  intros HR HL Ht He Hu.
  pose proof (c135_accrue _ _ _ _ _ _ HR HL Ht He) as HP.
  pose proof (freached_inv _ _ _ (freached_app _ _ _ _ _ _ HR HL)) as HI'.
  destruct (f_step _ _ _ _ _ _ HI' Hu) as (_ & _ & _ & _ & [(km & ks & Hm & B & -> & _)|(dm & ds & Hm & _)]); [|done].
  injection Hm as <-.
  apply unstake_step in B as (H0 & Ha & Hat & Has & Hb & Hn & Eb & Et & Ep & _ & _ & _ & _ & Hc).
  pose proof (total_nonneg _ _ (fi_k _ _ HI')) as Ht0.
  set (t := total_staked (f_k s')) in *. set (p := k_pool (f_k s')) in *.
  exists (x * p / t). split; [lia|]. split.
  - apply (Qle_lt_trans _ (inject_Z x * price s')).
    + rewrite !(Qmult_comm (inject_Z x)). apply Qmult_le_compat_r; [done|]. change 0%Q with (inject_Z 0). rewrite <-Zle_Qle. lia.
    + unfold price. fold t p. unfold Qdiv. rewrite Qmult_assoc, <-inject_Z_mult.
      apply Qlt_shift_div_r; [change 0%Q with (inject_Z 0); rewrite <-Zlt_Qlt; lia|].
      rewrite <-inject_Z_mult, <-Zlt_Qlt.
      pose proof (Z.div_mod (x * p) t H0). pose proof (Z.mod_pos_bound (x * p) t ltac:(lia)). nia.
  - destruct Hc as [(-> & _ & _ & _ & ->)|(d & -> & _ & _ & -> & _)].
    + by left.
    + unfold create_claim. rewrite claims_of_insert. destruct (decide (a = a)); [|done].
      apply elem_of_app. right. by left.
Qed.
(** A distributor set up with another token than the staking contract's never pays it. *)
Lemma wrong_token b s l a s' subs :
  freached b s l -> d_staking (f_d s) = f_stk s -> d_token (f_d s) <> k_token (f_k s) ->
  f_handle s b a (FDist DDistribute) <> Ok (s', subs).
Proof.
  intros HR H1 H2 H. apply freached_inv in HR.
  destruct (f_step _ _ _ _ _ _ HR H) as (_ & _ & _ & _ & [(km & ks & Hm & _)|(dm & ds & Hm & B & C)]); [done|].
  injection Hm as <-. destruct C as [(_ & _ & C)|(_ & _ & C & _)]; [by destruct C|done].
Qed.
