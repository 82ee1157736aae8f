(** The other half of completing a swap. *)
From Verif Require Import Base BaseProofs Exec ExecProofs Plain PlainProofs StoreModel
  StakeProofs ExtProofs SwapModel SwapSpec SwapProofs SwapClaims.

(** The same the other way round: the second has provided, the first completes. *)
Lemma completes_first d b s l : wreached d b s l ->
  pa_provided (w_one s) = false -> pa_provided (w_two s) = true ->
  w_bal (w_held s) (d_t1 d) + d_n1 d <= U128_MAX ->
  exists s', w_handle s b (bring (d_a1 d) (d_t1 d) (d_n1 d)).1 (bring (d_a1 d) (d_t1 d) (d_n1 d)).2 =
      Ok (s', [WPay (d_t1 d) (d_a2 d) (d_n1 d); WPay (d_t2 d) (d_a1 d) (d_n2 d)]) /\
    pa_provided (w_one s') = true /\ pa_provided (w_two s') = true.
Proof.
  intros H P1 P2 Hc. pose proof (wreached_inv _ _ _ _ H) as I.
  assert (0 <= d_n1 d <= U128_MAX) as F1.
  { destruct H as (b0 & v1 & v2 & s0 & Hi & _). unfold w_instantiate, checked in Hi.
    destruct (fits128 (d_n1 d)) eqn:F1; [|done]. by apply fits128_ok in F1. }
  destruct I as [(A1 & T1 & N1) (A2 & T2 & N2) I3 I4 I5 I6 I7 I8 I9].
  assert (forall t m, t = d_t1 d -> take_in (w_held s) t (d_n1 d) = Ok m ->
    exists s', do_fund s m (w_one s) (w_two s) true (d_n1 d) =
      Ok (s', [WPay (d_t1 d) (d_a2 d) (d_n1 d); WPay (d_t2 d) (d_a1 d) (d_n2 d)]) /\
      pa_provided (w_one s') = true /\ pa_provided (w_two s') = true) as K.
  { intros t m -> Hm. pose proof (take_in_ok _ _ _ _ Hm) as Hb. unfold do_fund. rewrite P1, N1.
    cbn. rewrite Z.eqb_refl, P2. unfold pay_out at 1. cbn. rewrite T1, N1.
    pose proof (I6 (d_t1 d)) as E1. pose proof (I7 (d_t1 d)) as G1.
    unfold in_escrow in E1. rewrite P1, P2 in E1. cbn in E1.
    assert (0 <= only (pa_token (w_two s)) (pa_amount (w_two s)) (d_t1 d)).
    { unfold only. case_decide; lia. }
    assert (w_bal m (d_t1 d) = w_bal (w_held s) (d_t1 d) + d_n1 d) as Em.
    { rewrite Hb. unfold only. rewrite decide_True by done. done. }
    destruct (Z.leb_spec (d_n1 d) (w_bal m (d_t1 d))); [|lia].
    unfold pay_out. rewrite T2, N2, bal_insert.
    pose proof (I6 (d_t2 d)) as E2. pose proof (I7 (d_t2 d)) as G2.
    unfold in_escrow in E2. rewrite P1, P2 in E2. cbn in E2. rewrite T2, N2 in E2.
    unfold only in E2 at 1. rewrite decide_True in E2 by done.
    assert (d_n2 d <= (if decide (d_t2 d = d_t1 d) then w_bal m (d_t1 d) - d_n1 d else w_bal m (d_t2 d))).
    { case_decide as E; [rewrite E in *; lia|]. rewrite Hb. unfold only. case_decide; lia. }
    destruct (Z.leb_spec (d_n2 d) (if decide (d_t2 d = d_t1 d) then w_bal m (d_t1 d) - d_n1 d else w_bal m (d_t2 d))); [|lia].
    rewrite A1, A2. eexists. split; [done|]. cbn. done. }
  assert (exists m, take_in (w_held s) (d_t1 d) (d_n1 d) = Ok m) as [m Hm].
  { unfold take_in. destruct (Z.leb_spec (w_bal (w_held s) (d_t1 d) + d_n1 d) U128_MAX); [|lia]. by eexists. }
  apply fits128_ok in F1.
  destruct (d_t1 d) as [[|] k] eqn:Et; cbn; unfold get_party; rewrite A1.
  - rewrite F1. rewrite N.eqb_refl, T1, N.eqb_refl. rewrite Hm. by apply (K _ m eq_refl).
  - rewrite F1. cbn. rewrite N.eqb_refl, T1.
    destruct (Z.eqb_spec (d_n1 d) 0); [lia|]. rewrite N.eqb_refl. rewrite Hm. by apply (K _ m eq_refl).
Qed.
