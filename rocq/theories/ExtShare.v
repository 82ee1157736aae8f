(** Proofs: what stakers get from cw20-stake-external-rewards over the whole history. *)
From Verif Require StakeRun.
From Verif Require Import Base BaseProofs Exec ExecProofs Plain PlainProofs HooksModel StoreModel
  StoreProofs LedgerProofs StakeModel StakeSpec StakeProofs StakeClaims ExtModel ExtSpec ExtProofs
  ExtClaims ExtShareSpec.

Lemma pending_height s b b' u : height b = height b' -> x_pending s b u = x_pending s b' u.
Proof.
  intros E. unfold x_pending, r_per_token, r_earned, q_total, q_balance, k_total_at, k_balance_at, r_until.
  rewrite E. done.
Qed.
Lemma received_app u l l' : received u (l ++ l') = received u l + received u l'.
Proof. apply lsum_app. Qed.
Lemma moves_app u l l' : moves u (l ++ l') = fold_left (fun t e => match e with
    | ECall pre b _ _ _ _ => move u pre (height b) t
    | _ => t end) l' (moves u l).
Proof. apply fold_left_app. Qed.

(** The state of the count at the last call. *)
Record counted (u : addr) (b : block) (s : xstate) (l : xlog) (b1 : block) : Prop := Counted {
  cn_inv : xinv b1 s l;
  cn_le : block_le b1 b;
  cn_h : (moves u l).1.1 <= height b1;
  cn_0 : 0 <= (moves u l).2;
  cn_min : Z.min (moves u l).1.1 (r_fin (x_rew s)) = Z.min (height b1) (r_fin (x_rew s));
  cn_get : settled b1 s -> exists n, x_pending s b1 u = Ok n /\
    Z.abs (received u l + n - (moves u l).1.2) <= 2 * (moves u l).2
}.
Lemma share_step s u h h' n n' :
  (n' - n - 2) * total_staked (x_stake s) <
    r_rate (x_rew s) * (Z.min h' (r_fin (x_rew s)) - Z.min h (r_fin (x_rew s))) * staked (x_stake s) u <
    (n' - n + 2) * total_staked (x_stake s) \/
  total_staked (x_stake s) = 0 /\ staked (x_stake s) u = 0 /\ n' = n ->
  0 <= total_staked (x_stake s) ->
  Z.abs (n' - n - share s u h h') <= 2.
Proof.
  unfold share. cbv zeta. set (X := _ * _ * staked _ _). set (W := total_staked _). intros [[H1 H2]|(H1 & H2 & ->)] H0.
  - assert (0 < W) by nia. pose proof (Z.div_mod X W ltac:(lia)). pose proof (Z.mod_pos_bound X W ltac:(lia)).
    set (q := X / W) in *. assert (n' - n - 2 < q + 1) by nia. assert (q < n' - n + 2) by nia. lia.
  - rewrite H1. rewrite Zdiv_0_r. lia.
Qed.
(** The count brought up to a later block. *)
Lemma counted_now u b s l b1 :
  counted u b s l b1 -> settled b s -> (x_due s = [] -> funded l <= 10 ^ 38) ->
  exists n, x_pending s b u = Ok n /\
    Z.abs (received u l + n - (move u s (height b) (moves u l)).1.2) <= 2 * (move u s (height b) (moves u l)).2.
Proof.
  intros [HX Hb Hh H0 Hm Hg] Hs Hf. destruct (moves u l) as [[h e] k] eqn:E. cbn in *. pose proof Hb as [Hb' _].
  assert (settled b1 s) as Hs1.
  { destruct Hs as [?|Hs]; [by left|right]. pose proof (xi_block _ _ _ HX). lia. }
  destruct (Hg Hs1) as (n & Hn & Hc).
  destruct (height b =? h) eqn:Eh.
  { exists n. rewrite <-(pending_height s b1 b) by lia. done. }
  cbn. destruct Hs as [Hd|Hs].
  - assert (xinv b s l) as HX' by (by eapply xinv_time).
    pose proof (xi_rew _ _ _ HX' (or_introl Hd)) as HI. 
    destruct (update_total _ _ _ _ _ _ u (xi_ledger _ _ _ HX') HI (xi_paid _ _ _ HX') (Hf Hd))
      as (rpt & e' & E1 & E2 & E3 & E4).
    assert (exists n', x_pending s b u = Ok n') as [n' Hn'].
    { unfold x_pending. rewrite E1, E2, add128_eq by lia. eauto. }
    exists n'. split; [done|].
    pose proof (accrual_inv _ _ _ b u n n' HX Hd Hb Hn Hn') as HA. cbv zeta in HA.
    rewrite <-Hm in HA. apply share_step in HA; [lia|].
    pose proof (ledger_le _ _ _ u (xi_ledger _ _ _ HX)). change (total_staked (x_stake s)) with (snap_get (k_total (x_stake s))).
    pose proof (lg_max _ _ _ (xi_ledger _ _ _ HX)). lia.
  - pose proof (xi_block _ _ _ HX). assert (height b1 = height b) as Eb by lia.
    exists n. rewrite <-(pending_height s b1 b) by done. split; [done|].
    assert (share s u h (height b) = 0) as ->; [|lia].
    unfold share. rewrite Hm, Eb. rewrite Z.sub_diag, Z.mul_0_r, Z.mul_0_l.
    destruct (decide (total_staked (x_stake s) = 0)) as [->|]; [apply Zdiv_0_r|by apply Z.div_0_l].
Qed.
Lemma funded_nonneg s b a m s' subs :
  x_handle s b a m = Ok (s', subs) -> 0 <= ev_funded (ECall s b a m s' subs).
Proof.
  intros H. unfold x_handle in H. destruct (_ || _) in H; [|done].
  destruct m as [m|[st who| |funds|from x|x|act]|x]; cbn; try lia; cbn [x_rew_handle] in H.
  - destruct (forallb _ _) eqn:E in H; [|done]. clear H. induction funds as [|[d n] funds IH]; simpl in *; [lia|].
    apply andb_true_iff in E as [E1 E2]. apply fits128_ok in E1. specialize (IH E2). lia.
  - destruct (fits128 x) eqn:E in H; [|done]. apply fits128_ok in E. lia.
Qed.
Lemma growth_0 k r b : r_rate r = 0 -> growth k r b = 0.
Proof.
  intros E. unfold growth. rewrite E, !Z.mul_0_l. destruct (_ =? 0) eqn:Eq; [done|]. apply Z.div_0_l. lia.
Qed.
Lemma counted_ran u b s l :
  xran b s l -> funded l <= 10 ^ 38 -> exists b1, counted u b s l b1.
Proof.
  intros (b0 & k0 & lk & me & staking & owner & token & dur & s0 & Hb & Hd & HK & Hi & HL & Hh).
  assert (forallb hooked l = true -> funded l <= 10 ^ 38 -> exists b1, counted u b s l b1) as X; [|by apply X].
  clear Hh. revert HL.
  apply (leads_ind x_handle (fun b s l => forallb hooked l = true -> funded l <= 10 ^ 38 ->
    exists b1, counted u b s l b1)).
  - clear. intros b s l a m s' subs IH H Hh Hf. rewrite forallb_app in Hh. apply andb_true_iff in Hh as [H1 H2].
    simpl in H2. rewrite andb_true_r in H2. rewrite funded_app in Hf. pose proof (funded_nonneg _ _ _ _ _ _ H) as H0.
    unfold funded in Hf at 2. cbn [lsum] in Hf. 
    destruct (IH H1 ltac:(lia)) as [b1 HC].
    assert (settled b s) as Hs.
    { unfold x_handle in H. destruct (_ || _) eqn:Eg in H; [|done]. unfold settled.
      apply orb_true_iff in Eg as [E|E]; [left; by destruct (x_due s)|right; lia]. }
    destruct (counted_now _ _ _ _ _ HC Hs ltac:(intros; lia)) as (n & Hn & Hc).
    pose proof HC as [HX Hb Hle Hk Hm Hg].
    assert (xinv b s l) as HX' by (by eapply xinv_time).
    pose proof (others_inv _ _ _ _ _ _ _ u n HX' Hs H Hn) as Hn'.
    assert ((move u s (height b) (moves u l)).1.1 = height b /\ 0 <= (move u s (height b) (moves u l)).2) as [E1 E2].
    { destruct (moves u l) as [[h e] k]. cbn in *. destruct (height b =? h) eqn:E; cbn; lia. }
    exists b. split; rewrite ?moves_app; cbn [fold_left]; rewrite ?E1; [by apply xinv_call|apply block_le_refl|lia|lia|done|].
    intros _. eexists. split; [exact Hn'|]. rewrite received_app.
      unfold received at 2. cbn [lsum]. lia.
  - clear. intros b s l x IH Hh Hf. rewrite forallb_app in Hh. apply andb_true_iff in Hh as [H1 _].
    rewrite funded_app in Hf. cbn in Hf. destruct (IH H1 ltac:(unfold funded in *; lia)) as [b1 [[B1 B2 B3 B4 B5 B5' B6 B7] Hb Hle Hk Hm Hg]].
    exists b1. split; rewrite ?moves_app; cbn [fold_left]; try done.
    + split; rewrite ?funded_app, ?given_app, ?paid_app; cbn; rewrite ?Z.add_0_r; done.
    + rewrite received_app. unfold received at 2. cbn [lsum]. rewrite !Z.add_0_r. done.
  - clear. intros b b' s l IH Hb Hh Hf. destruct (IH Hh Hf) as [b1 [HX Hb1 Hle Hk Hm Hg]].
    exists b1. split; try done. by eapply block_le_trans.
  - intros _ _. exists b0. pose proof (xinv_init _ _ _ _ _ _ _ _ _ Hb Hd HK Hi) as HX.
    unfold x_instantiate, r_instantiate in Hi. res_inv Hi. rename E into E1. res_inv E1.
    split; [exact HX|apply block_le_refl|cbn; lia|cbn; lia|cbn; lia|]. intros _.
    pose proof (xi_rew _ _ _ HX (or_introl eq_refl)) as HI.
    destruct (update_total _ _ _ _ _ _ u (xi_ledger _ _ _ HX) HI (xi_paid _ _ _ HX) ltac:(done))
      as (rpt & e' & F1 & F2 & F3 & F4).
    assert (exists n, x_pending (XState k0 (RState (initialize_owner owner) token 0 0 dur 0 0 ∅ ∅) me staking 0 [] (height b0)) b0 u = Ok n) as [n Hn].
    { unfold x_pending. cbn [x_stake x_rew] in *. rewrite F1, F2, add128_eq by lia. eauto. }
    exists n. split; [exact Hn|]. apply pending_ok in Hn as [Hn _]. cbv zeta in Hn. revert Hn.
    unfold r_pending, r_user. rewrite growth_0 by done. cbn. rewrite !lookup_empty. cbn.
    rewrite Z.mul_0_r, Z.div_0_l by (pose proof SCALE_pos; lia). lia.
Qed.
Lemma entitled_share b s l u :
  xreached b s l -> funded l <= 10 ^ 38 ->
  exists n, x_pending s b u = Ok n /\
    Z.abs (received u l + n - entitled u l s b) <= 2 * stretches u l s b.
Proof.
  intros [HR Hd] Hf. destruct (counted_ran u _ _ _ HR Hf) as [b1 HC].
  destruct (counted_now _ _ _ _ _ HC (or_introl Hd) ltac:(done)) as (n & Hn & Hc).
  exists n. split; [done|]. unfold entitled, stretches. by destruct (move _ _ _ _) as [[h e] k].
Qed.

(** ** All stakers together *)
Definition good (us : list addr) (s : xstate) : Prop :=
  lsum (staked (x_stake s)) us = total_staked (x_stake s) /\ 0 <= total_staked (x_stake s).
Lemma covers_good us s b l : xinv b s l -> NoDup us -> covers us s -> good us s.
Proof.
  intros HX Hn Hc. pose proof (xi_ledger _ _ _ HX) as HL. split.
  - rewrite total_get, <-(lg_sum _ _ _ HL), <-(StakeRun.sum_cover _ us Hn).
    + apply lsum_ext. intros a _. apply staked_get.
    + intros a Ha. rewrite <-staked_get. by apply Hc.
  - rewrite total_get. pose proof (ledger_le _ _ _ 0%N HL). lia.
Qed.
Lemma share_sum us s h h' : good us s ->
  lsum (fun u => share s u h h') us <=
  (if total_staked (x_stake s) =? 0 then 0
   else r_rate (x_rew s) * (Z.min h' (r_fin (x_rew s)) - Z.min h (r_fin (x_rew s)))) <=
  lsum (fun u => share s u h h') us + Z.of_nat (length us).
Proof.
  intros [Hs Hp]. unfold share. cbv zeta. set (X := _ * (_ - _)). set (W := total_staked _) in *.
  set (w := staked (x_stake s)) in *. destruct (W =? 0) eqn:E.
  - assert (W = 0) as -> by lia. rewrite (lsum_ext _ (fun _ => 0)).
    + assert (lsum (fun _ : addr => 0) us = 0) as -> by (clear; induction us; simpl; lia). lia.
    + intros u _. apply Zdiv_0_r.
  - assert (forall vs : list addr, W * lsum (fun u => X * w u / W) vs <= X * lsum w vs <=
      W * (lsum (fun u => X * w u / W) vs + Z.of_nat (length vs))) as H.
    { clear -E Hp. induction vs as [|a vs IH]; cbn [lsum length]; [lia|].
      pose proof (Z.div_mod (X * w a) W ltac:(lia)). pose proof (Z.mod_pos_bound (X * w a) W ltac:(lia)). lia. }
    specialize (H us). rewrite Hs in H. set (S := lsum _ us) in *. set (n := Z.of_nat _) in *. clearbody S n. nia.
Qed.
Lemma move_give us s h' (t : addr -> Z * Z * Z) (g : Z * Z) : good us s ->
  (forall u, (t u).1.1 = g.1) ->
  lsum (fun u => (t u).1.2) us <= g.2 <= lsum (fun u => (t u).1.2) us + lsum (fun u => (t u).2) us ->
  (forall u, (move u s h' (t u)).1.1 = (give s h' g).1) /\
  lsum (fun u => (move u s h' (t u)).1.2) us <= (give s h' g).2 <=
    lsum (fun u => (move u s h' (t u)).1.2) us + lsum (fun u => (move u s h' (t u)).2) us.
Proof.
  intros Hg Ht Hi. destruct g as [h e]. cbn [fst snd give] in *.
  assert (forall u, move u s h' (t u) = if h' =? h then t u else (h', (t u).1.2 + share s u h h', (t u).2 + 1)) as Em.
  { intros u. specialize (Ht u). destruct (t u) as [[h1 e1] k1]. cbn in *. subst h1. done. }
  split. { intros u. rewrite Em. destruct (h' =? h) eqn:E; [rewrite Ht; lia|done]. }
  rewrite (lsum_ext (fun u => (move u s h' (t u)).1.2) (fun u => if h' =? h then (t u).1.2 else (t u).1.2 + share s u h h')).
  2: { intros u _. rewrite Em. by destruct (h' =? h). }
  rewrite (lsum_ext (fun u => (move u s h' (t u)).2) (fun u => if h' =? h then (t u).2 else (t u).2 + 1)).
  2: { intros u _. rewrite Em. by destruct (h' =? h). }
  destruct (h' =? h) eqn:E.
  - assert (h' = h) as -> by lia. rewrite Z.sub_diag, Z.mul_0_r. destruct (_ =? 0); lia.
  - rewrite !lsum_add. pose proof (share_sum us s h h' Hg) as HS.
    assert (lsum (fun _ : addr => 1) us = Z.of_nat (length us)) as -> by (clear; induction us; simpl lsum; simpl length; lia).
    lia.
Qed.
Lemma moves_gives us l :
  (forall e, e ∈ l -> match e with ECall pre _ _ _ _ _ => good us pre | _ => True end) ->
  (forall u, (moves u l).1.1 = (gives l).1) /\
  lsum (fun u => (moves u l).1.2) us <= (gives l).2 <=
    lsum (fun u => (moves u l).1.2) us + lsum (fun u => (moves u l).2) us.
Proof.
  induction l as [|e l IH] using rev_ind; intros H.
  - split; [done|]. cbn. assert (lsum (fun _ : addr => 0) us = 0) as -> by (clear; induction us; simpl; lia). lia.
  - destruct IH as [I1 I2]. { intros x Hx. apply H. apply elem_of_app. by left. }
    specialize (H e ltac:(apply elem_of_app; right; by left)).
    assert (gives (l ++ [e]) = match e with ECall pre b _ _ _ _ => give pre (height b) (gives l) | _ => gives l end) as ->.
    { unfold gives. by rewrite fold_left_app. }
    destruct e as [pre b a m post subs|pre b sub ok post].
    + pose proof (move_give us pre (height b) (fun u => moves u l) (gives l) H I1 I2) as [J1 J2].
      split. { intros u. rewrite moves_app. apply J1. }
      rewrite (lsum_ext (fun u => (moves u (l ++ _)).1.2) (fun u => (move u pre (height b) (moves u l)).1.2)).
      2: { intros u _. by rewrite moves_app. }
      rewrite (lsum_ext (fun u => (moves u (l ++ _)).2) (fun u => (move u pre (height b) (moves u l)).2)).
      2: { intros u _. by rewrite moves_app. }
      exact J2.
    + split. { intros u. rewrite moves_app. apply I1. }
      rewrite (lsum_ext (fun u => (moves u (l ++ _)).1.2) (fun u => (moves u l).1.2)).
      2: { intros u _. by rewrite moves_app. }
      rewrite (lsum_ext (fun u => (moves u (l ++ _)).2) (fun u => (moves u l).2)).
      2: { intros u _. by rewrite moves_app. }
      exact I2.
Qed.
Lemma all_inv b s l :
  xran b s l -> forall e, e ∈ l -> match e with ECall pre _ _ _ _ _ => exists b' l', xinv b' pre l' | _ => True end.
Proof.
  intros (b0 & k0 & lk & me & staking & owner & token & dur & s0 & Hb & Hd & HK & Hi & HL & Hh).
  assert (forallb hooked l = true -> xinv b s l /\
    forall e, e ∈ l -> match e with ECall pre _ _ _ _ _ => exists b' l', xinv b' pre l' | _ => True end) as X; [|by apply X].
  clear Hh. revert HL.
  apply (leads_ind x_handle (fun b s l => forallb hooked l = true -> xinv b s l /\
    forall e, e ∈ l -> match e with ECall pre _ _ _ _ _ => exists b' l', xinv b' pre l' | _ => True end)).
  - clear. intros b s l a m s' subs IH H Hh. rewrite forallb_app in Hh. apply andb_true_iff in Hh as [H1 H2].
    simpl in H2. rewrite andb_true_r in H2. destruct (IH H1) as [I1 I2]. split; [by apply xinv_call|].
    intros e [He|He]%elem_of_app; [by apply I2|]. apply elem_of_list_singleton in He as ->. eauto.
  - clear. intros b s l x IH Hh. rewrite forallb_app in Hh. apply andb_true_iff in Hh as [H1 _].
    destruct (IH H1) as [[B1 B2 B3 B4 B5 B5' B6 B7] I2]. split.
    + split; rewrite ?funded_app, ?given_app, ?paid_app; cbn; rewrite ?Z.add_0_r; done.
    + intros e [He|He]%elem_of_app; [by apply I2|]. apply elem_of_list_singleton in He as ->. done.
  - clear. intros b b' s l IH Hb Hh. destruct (IH Hh) as [I1 I2]. split; [|done]. by eapply xinv_time.
  - intros _. split; [by eapply xinv_init|]. intros e He. by apply elem_of_nil in He.
Qed.
Lemma handed_out b s l us :
  xreached b s l -> funded l <= 10 ^ 38 -> NoDup us -> covers us s -> covered us l ->
  Z.abs (lsum (fun u => received u l + claimable s b u) us - emitted l s b) <=
    3 * lsum (fun u => stretches u l s b) us.
Proof.
  intros HR Hf Hn Hc Hl. pose proof HR as [HR' _].
  assert (forall e, e ∈ l -> match e with ECall pre _ _ _ _ _ => good us pre | _ => True end) as Hg.
  { intros e He. pose proof (all_inv _ _ _ HR' e He) as HI. specialize (Hl e He). destruct e as [pre| ]; [|done].
    destruct HI as (b' & l' & HI). by eapply covers_good. }
  destruct (moves_gives us l Hg) as [I1 I2].
  assert (good us s) as Hs by (eapply covers_good; [by apply xran_inv|done|done]).
  destruct (move_give us s (height b) (fun u => moves u l) (gives l) Hs I1 I2) as [_ J].
  assert (forall vs, Z.abs (lsum (fun u => received u l + claimable s b u) vs - lsum (fun u => entitled u l s b) vs) <=
    2 * lsum (fun u => stretches u l s b) vs) as HE.
  { induction vs as [|u vs IH]; [done|]. cbn [lsum]. destruct (entitled_share b s l u HR Hf) as (n & Hp & Hq).
    assert (claimable s b u = n) as -> by (unfold claimable; by rewrite Hp). lia. }
  specialize (HE us).
  assert (lsum (fun u => (move u s (height b) (moves u l)).1.2) us = lsum (fun u => entitled u l s b) us) as E1.
  { apply lsum_ext. intros u _. unfold entitled. by destruct (move _ _ _ _) as [[h e] k]. }
  assert (lsum (fun u => (move u s (height b) (moves u l)).2) us = lsum (fun u => stretches u l s b) us) as E2.
  { apply lsum_ext. intros u _. unfold stretches. by destruct (move _ _ _ _) as [[h e] k]. }
  rewrite E1, E2 in J. unfold emitted. lia.
Qed.
