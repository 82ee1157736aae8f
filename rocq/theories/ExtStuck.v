(** Proofs: rewards of blocks without stakers stay in cw20-stake-external-rewards. *)
From Verif Require Import Base BaseProofs Exec ExecProofs Plain PlainProofs HooksModel StoreModel
  StoreProofs LedgerProofs StakeModel StakeSpec StakeProofs StakeClaims ExtModel ExtSpec ExtProofs
  ExtClaims.

(** As [xinv], with [c] tokens of the funding out of reach. *)
Definition short (c : Z) (b : block) (s : xstate) (l : xlog) : Prop :=
  xinv b s l /\ (settled b s -> rinv b (x_stake s) (x_rew s) (x_due s) (paid l) (funded l - c)).
Lemma short_call c b s l a m s' subs :
  short c b s l -> x_handle s b a m = Ok (s', subs) -> hooked (ECall s b a m s' subs) = true ->
  short c b s' (l ++ [ECall s b a m s' subs]).
Proof.
  intros [HX B7] H Hh. split; [by apply xinv_call|]. intros _. unfold x_handle in H.
  pose proof (xi_ledger _ _ _ HX) as B2. pose proof (xi_block _ _ _ HX) as B3.
  destruct (_ || _) eqn:Eg in H; [|done].
  assert (settled b s) as Hs.
  { unfold settled. apply orb_true_iff in Eg as [E|E]; [left; by destruct (x_due s)|right; lia]. }
  specialize (B7 Hs). clear Eg Hs.
  assert (forall x y, funded l + x - c = funded l - c + x /\ y = y :> Z) as Ec by (intros; split; [lia|done]).
  destruct m as [m|m|n].
  - destruct (k_handle (x_stake s) b a m) as [[k' ks]|] eqn:E; [|done]. cbn in H.
    injection H as <- <-. cbn [hooked] in Hh.
    rewrite ?funded_app, ?paid_app; cbn; rewrite ?pay_none, ?Z.add_0_r. by eapply rinv_stake.
  - destruct (x_rew_handle s b a m) as [[s1 subs1]|] eqn:E; [|done]. cbn in H. injection H as <- <-.
    rewrite funded_app, paid_app.
    destruct m as [st who| |funds|from n|n|act]; cbn [x_rew_handle] in E.
    + destruct (a =? _)%N; [|done]. destruct (existsb _ _) eqn:Ex; [|done].
      destruct (r_update _ _ _ _) as [r'|] eqn:Eu; [|done]. injection E as <- <-.
      apply (update_step _ _ _ _ _ _ _ _ B2 B7) in Eu as (HR & _).
      cbn. rewrite !Z.add_0_r. done.
    + destruct (r_claim _ _ _ _) as [[r' n]|] eqn:Ec'; [|done].
      destruct (n <=? x_held s) eqn:En; [|done]. injection E as <- <-.
      apply (claim_step_r _ _ _ _ _ _ _ _ _ B2 B7) in Ec' as [HR Hn].
      cbn. rewrite !Z.add_0_r. done.
    + destruct (forallb _ _) eqn:Ef; [|done]. destruct (r_token _); [|done].
      destruct (must_pay _ _) as [n|] eqn:Em; [|done]. apply must_pay_ok in Em as [-> Hn].
      simpl in Ef. apply andb_true_iff in Ef as [Ef _]. apply fits128_ok in Ef.
      destruct (_ <=? U128_MAX) eqn:Eh; [|done].
      destruct (r_fund _ _ _ _ _) as [r'|] eqn:Eu; [|done]. injection E as <- <-.
      apply (fund_step_r _ _ _ _ _ _ a n _ B2 ltac:(lia) ltac:(lia) B7) in Eu.
      cbn. rewrite !Z.add_0_r, (proj1 (Ec n 0)). done.
    + destruct (fits128 n) eqn:Ef; [|done]. apply fits128_ok in Ef. destruct (r_token _); [done|].
      destruct (a =? _)%N; [|done]. destruct (_ <=? U128_MAX) eqn:Eh; [|done].
      destruct (r_fund _ _ _ _ _) as [r'|] eqn:Eu; [|done]. injection E as <- <-.
      apply (fund_step_r _ _ _ _ _ _ from n _ B2 ltac:(lia) ltac:(lia) B7) in Eu.
      cbn. rewrite !Z.add_0_r, (proj1 (Ec n 0)). done.
    + destruct (_ && _) eqn:Ef in E; [|done]. apply andb_true_iff in Ef as [Ef1 Ef2]. apply Z.leb_le in Ef1. unfold r_set_duration in E. res_inv E. rename E0 into E1. res_inv E1.
      cbn. rewrite !Z.add_0_r. destruct B7 as [A1 A2 A3 A4 A5 A6 A7 A8 A9 A10 A11]. split; done.
    + destruct (update_ownership _ _ _ _) as [o|]; [|done]. injection E as <- <-.
      cbn. rewrite !Z.add_0_r. by apply rinv_own.
  - destruct (fits128 n) eqn:Ef; [|done].
    destruct (_ <=? U128_MAX) eqn:Eh; [|done]. cbn in H. injection H as <- <-.
    rewrite funded_app, paid_app. cbn. rewrite !Z.add_0_r. done.
Qed.
Lemma short_leads c b s l b' s' l' :
  short c b s l -> leads x_handle b s b' s' l' -> forallb hooked l' = true -> short c b' s' (l ++ l').
Proof.
  intros HS HL Hh.
  assert (forallb hooked l' = true -> short c b' s' (l ++ l')) as X; [|by apply X]. clear Hh.
  revert HL. apply (leads_ind x_handle (fun b1 s1 l1 => forallb hooked l1 = true -> short c b1 s1 (l ++ l1))).
  - clear. intros b1 s1 l1 a m s' subs IH H Hh. rewrite forallb_app in Hh. apply andb_true_iff in Hh as [H1 H2].
    simpl in H2. rewrite andb_true_r in H2. rewrite app_assoc. apply short_call; auto.
  - clear. intros b1 s1 l1 x IH Hh. rewrite forallb_app in Hh. apply andb_true_iff in Hh as [H1 _].
    destruct (IH H1) as [[B1 B2 B3 B4 B5 B5' B6 B7] C7]. rewrite app_assoc.
    split; [split|]; rewrite ?funded_app, ?given_app, ?paid_app in *; cbn; rewrite ?Z.add_0_r; done.
  - clear. intros b1 b2 s1 l1 IH Hb Hh. destruct (IH Hh) as [I1 I2]. split; [by eapply xinv_time|].
    intros Hs. pose proof (xi_block _ _ _ I1). pose proof Hb as [Hh' _].
    assert (x_due s1 = [] \/ height b1 = height b2) as Hd.
    { destruct Hs as [?|?]; [by left|]. right. lia. }
    apply (rinv_time b1 b2); try done; [apply I1|]. apply I2. destruct Hd as [?|E]; [by left|].
    destruct Hs as [?|?]; [by left|]. right. lia.
  - intros _. by rewrite app_nil_r.
Qed.
(** Nothing accumulated and nothing pending: all that is not to come is out of reach. *)
Lemma short_start b s l :
  xreached b s l -> r_rpt (x_rew s) = 0 -> (forall u, r_pending (x_rew s) u = 0) -> paid l = 0 ->
  short (funded l - r_rate (x_rew s) * (r_fin (x_rew s) - r_last (x_rew s))) b s l.
Proof.
  intros HR E1 E2 E4. apply xreached_rinv in HR as HI. destruct HI as [HX HI]. split; [done|].
  intros _. destruct HR as [_ Hd]. rewrite Hd. set (X := r_rate _ * _).
  destruct HI as [A1 A2 A3 A4 A5 A6 A7 A8 A9 A10 A11]. replace (funded l - (funded l - X)) with X by lia. split; try done.
  - intros us _. assert (lsum (owed (x_stake s) (x_rew s) b) us = 0) as ->; [|rewrite E4; fold X; lia].
    rewrite (lsum_ext _ (fun _ => 0)); [clear; induction us as [|u us IH]; [done|]; cbn [lsum]; lia|].
    intros u _. unfold owed. rewrite E2. specialize (A5 u). rewrite E1 in *. replace (r_user (x_rew s) u) with 0 by lia. lia.
  - rewrite E1. fold X. lia.
Qed.
Lemma short_paid c b s l : short c b s l -> x_due s = [] -> paid l + c <= funded l /\ c <= x_held s.
Proof.
  intros [HX HI] Hd. specialize (HI (or_introl Hd)). rewrite Hd in HI.
  destruct HI as [A1 A2 A3 A4 A5 A6 A7 A8 A9 A10 A11]. specialize (A8 [] ltac:(apply NoDup_nil_2)). cbn [lsum] in A8.
  assert (0 <= r_rate (x_rew s) * (r_fin (x_rew s) - r_last (x_rew s))) as HX0 by (apply Z.mul_nonneg_nonneg; lia).
  set (X := r_rate _ * _) in *. pose proof SCALE_pos as HS.
  assert (paid l + c <= funded l) as Hp by nia. split; [done|].
  rewrite (xi_held _ _ _ HX). pose proof (xi_given _ _ _ HX). lia.
Qed.
Lemma out_of_reach b s l b' s' l' :
  xreached b s l -> r_rpt (x_rew s) = 0 -> (forall u, r_pending (x_rew s) u = 0) -> paid l = 0 ->
  leads x_handle b s b' s' l' -> forallb hooked l' = true -> x_due s' = [] ->
  let c := funded l - r_rate (x_rew s) * (r_fin (x_rew s) - r_last (x_rew s)) in
  paid l' + c <= funded l + funded l' /\ c <= x_held s'.
Proof.
  intros HR E1 E2 E3 HL Hh Hd c. pose proof (short_start b s l HR E1 E2 E3) as HS. fold c in HS.
  pose proof (short_leads _ _ _ _ _ _ _ HS HL Hh) as HS'. apply short_paid in HS' as [H1 H2]; [|done].
  rewrite paid_app, funded_app in H1. lia.
Qed.
