(** The claims about the token swap. *)
From Verif Require Import Base BaseProofs Exec ExecProofs Plain PlainProofs StoreModel
  StakeProofs ExtProofs SwapModel SwapSpec SwapProofs.

(** Either swapped, or each party has exactly what is recorded in the contract. *)
Lemma outcome d b s l : wreached d b s l ->
  (pa_provided (w_one s) = true /\ pa_provided (w_two s) = true /\ swapped d l) \/
  (pa_provided (w_one s) && pa_provided (w_two s) = false /\
     escrow d (pa_provided (w_one s)) (pa_provided (w_two s)) l).
Proof.
  intros H. apply (wi_out _ _ _ (wreached_inv _ _ _ _ H)).
Qed.
(** A party that has provided before the other gets its promise back, to the last token. *)
Lemma takes_back d b s l : wreached d b s l ->
  (pa_provided (w_one s) = true -> pa_provided (w_two s) = false ->
   exists s', w_handle s b (d_a1 d) WWithdraw = Ok (s', [WPay (d_t1 d) (d_a1 d) (d_n1 d)]) /\
     pa_provided (w_one s') = false) /\
  (pa_provided (w_two s) = true -> pa_provided (w_one s) = false ->
   exists s', w_handle s b (d_a2 d) WWithdraw = Ok (s', [WPay (d_t2 d) (d_a2 d) (d_n2 d)]) /\
     pa_provided (w_two s') = false).
Proof.
  intros H. destruct (wreached_inv _ _ _ _ H) as [(A1 & T1 & N1) (A2 & T2 & N2) I3 I4 I5 I6 I7 I8 I9].
  split; intros P1 P2; cbn; unfold get_party; rewrite A1, A2.
  - rewrite N.eqb_refl, P1, P2. cbn. unfold pay_out.
    specialize (I6 (pa_token (w_one s))). specialize (I7 (pa_token (w_one s))).
    unfold in_escrow in I6. rewrite P1, P2 in I6. cbn in I6. unfold only in I6.
    rewrite decide_True in I6 by done.
    destruct (Z.leb_spec (pa_amount (w_one s)) (w_bal (w_held s) (pa_token (w_one s)))); [|lia].
    rewrite A1, T1, N1. eexists. split; [done|]. done.
  - destruct (N.eqb_spec (d_a2 d) (d_a1 d)); [congruence|]. rewrite N.eqb_refl, P1, P2. cbn.
    unfold pay_out.
    specialize (I6 (pa_token (w_two s))). specialize (I7 (pa_token (w_two s))).
    unfold in_escrow in I6. rewrite P1, P2 in I6. cbn in I6. unfold only in I6.
    rewrite decide_True in I6 by done.
    destruct (Z.leb_spec (pa_amount (w_two s)) (w_bal (w_held s) (pa_token (w_two s)))); [|lia].
    rewrite A2, T2, N2. eexists. split; [done|]. done.
Qed.
(** The message that brings a promise. *)
Definition bring (a : addr) (t : bool * N) (n : Z) : addr * wmsg :=
  match t with
  | (true, k) => (k, WReceive a n)
  | (false, k) => (a, WFund [(k, n)])
  end.
(** When one has provided, the other's promise completes the swap, paying both. *)
Lemma completes d b s l : wreached d b s l ->
  pa_provided (w_one s) = true -> pa_provided (w_two s) = false ->
  w_bal (w_held s) (d_t2 d) + d_n2 d <= U128_MAX ->
  exists s', w_handle s b (bring (d_a2 d) (d_t2 d) (d_n2 d)).1 (bring (d_a2 d) (d_t2 d) (d_n2 d)).2 =
      Ok (s', [WPay (d_t2 d) (d_a1 d) (d_n2 d); WPay (d_t1 d) (d_a2 d) (d_n1 d)]) /\
    pa_provided (w_one s') = true /\ pa_provided (w_two s') = true.
Proof.
  intros H P1 P2 Hc. pose proof (wreached_inv _ _ _ _ H) as I.
  assert (0 <= d_n2 d <= U128_MAX) as F2.
  { destruct I as [? ? ? ? ? I6 I7 ? ?]. specialize (I6 (d_t2 d)). specialize (I7 (d_t2 d)).
    unfold in_escrow in I6. rewrite P1, P2 in I6. cbn in I6. unfold only in I6.
    destruct H as (b0 & v1 & v2 & s0 & Hi & _). unfold w_instantiate, checked in Hi.
    destruct (fits128 (d_n1 d)) eqn:F1; [|done]. apply fits128_ok in F1.
    destruct (d_n1 d =? 0); [done|]. cbn in Hi. destruct (negb (d_t1 d).1 || v1); [|done].
    destruct (fits128 (d_n2 d)) eqn:F2; [|done]. by apply fits128_ok in F2. }
  destruct I as [(A1 & T1 & N1) (A2 & T2 & N2) I3 I4 I5 I6 I7 I8 I9].
  assert (forall t m, t = d_t2 d -> take_in (w_held s) t (d_n2 d) = Ok m ->
    exists s', do_fund s m (w_two s) (w_one s) false (d_n2 d) =
      Ok (s', [WPay (d_t2 d) (d_a1 d) (d_n2 d); WPay (d_t1 d) (d_a2 d) (d_n1 d)]) /\
      pa_provided (w_one s') = true /\ pa_provided (w_two s') = true) as K.
  { intros t m -> Hm. pose proof (take_in_ok _ _ _ _ Hm) as Hb. unfold do_fund. rewrite P2, N2.
    cbn. rewrite Z.eqb_refl, P1. unfold pay_out at 1. cbn. rewrite T2, N2.
    pose proof (I6 (d_t2 d)) as E2. pose proof (I7 (d_t2 d)) as G2.
    unfold in_escrow in E2. rewrite P1, P2 in E2. cbn in E2.
    assert (0 <= only (pa_token (w_one s)) (pa_amount (w_one s)) (d_t2 d)).
    { unfold only. case_decide; lia. }
    assert (w_bal m (d_t2 d) = w_bal (w_held s) (d_t2 d) + d_n2 d) as Em.
    { rewrite Hb. unfold only. rewrite decide_True by done. done. }
    destruct (Z.leb_spec (d_n2 d) (w_bal m (d_t2 d))); [|lia].
    unfold pay_out. rewrite T1, N1, bal_insert.
    pose proof (I6 (d_t1 d)) as E1. pose proof (I7 (d_t1 d)) as G1.
    unfold in_escrow in E1. rewrite P1, P2 in E1. cbn in E1. rewrite T1, N1 in E1.
    unfold only in E1 at 1. rewrite decide_True in E1 by done.
    assert (d_n1 d <= (if decide (d_t1 d = d_t2 d) then w_bal m (d_t2 d) - d_n2 d else w_bal m (d_t1 d))).
    { case_decide as E; [rewrite E in *; lia|]. rewrite Hb. unfold only. case_decide; lia. }
    destruct (Z.leb_spec (d_n1 d) (if decide (d_t1 d = d_t2 d) then w_bal m (d_t2 d) - d_n2 d else w_bal m (d_t1 d))); [|lia].
    rewrite A1, A2. eexists. split; [done|]. cbn. done. }
  assert (exists m, take_in (w_held s) (d_t2 d) (d_n2 d) = Ok m) as [m Hm].
  { unfold take_in. destruct (Z.leb_spec (w_bal (w_held s) (d_t2 d) + d_n2 d) U128_MAX); [|lia]. by eexists. }
  apply fits128_ok in F2.
  destruct (d_t2 d) as [[|] k] eqn:Et; cbn; unfold get_party; rewrite A1, A2.
  - rewrite F2. destruct (N.eqb_spec (d_a2 d) (d_a1 d)); [congruence|]. rewrite N.eqb_refl, T2, N.eqb_refl.
    rewrite Hm. by apply (K _ m eq_refl).
  - rewrite F2. cbn. destruct (N.eqb_spec (d_a2 d) (d_a1 d)); [congruence|]. rewrite N.eqb_refl, T2.
    destruct (Z.eqb_spec (d_n2 d) 0); [lia|]. rewrite N.eqb_refl. rewrite Hm. by apply (K _ m eq_refl).
Qed.
(** After a swap nothing is paid and nothing taken. *)
Lemma complete_step b s a m s' subs : pa_provided (w_one s) = true -> pa_provided (w_two s) = true ->
  w_handle s b a m = Ok (s', subs) ->
  pa_provided (w_one s') = true /\ pa_provided (w_two s') = true /\ subs = [] /\
  exists t n, m = WDonate t n.
Proof.
  intros P1 P2 H.
  assert (forall first, pa_provided (acting s first) = true) as Pa by by intros [].
  assert (forall first, pa_provided (other s first) = true) as Po by by intros [].
  destruct m as [from n|funds| |t n]; cbn in H.
  - destruct (fits128 n); [|done]. destruct (get_party s from) as [[[p o] first]|] eqn:Ep; [|done].
    apply get_party_ok in Ep as (-> & -> & _).
    destruct (pa_token _) as [[|] t]; [|done]. destruct (t =? a)%N; [|done].
    destruct (take_in _ _ _); [|done]. unfold do_fund in H. by rewrite Pa in H.
  - destruct (forallb _ _); [|done]. destruct (get_party s a) as [[[p o] first]|] eqn:Ep; [|done].
    apply get_party_ok in Ep as (-> & -> & _).
    destruct (pa_token _) as [[|] t]; [done|]. destruct (must_pay funds t); [|done].
    destruct (take_in _ _ _); [|done]. unfold do_fund in H. by rewrite Pa in H.
  - destruct (get_party s a) as [[[p o] first]|] eqn:Ep; [|done].
    apply get_party_ok in Ep as (-> & -> & _). rewrite Pa, Po in H. done.
  - destruct (fits128 n); [|done]. destruct (take_in _ _ _); [|done]. injection H as <- <-.
    split; [done|]. split; [done|]. split; [done|]. by exists t, n.
Qed.
Lemma complete_final d b0 s0 l0 b s l : wreached d b0 s0 l0 ->
  pa_provided (w_one s0) = true -> pa_provided (w_two s0) = true ->
  leads w_handle b0 s0 b s l ->
  pa_provided (w_one s) = true /\ pa_provided (w_two s) = true /\
  forall a t, brought a t l = 0 /\ got a t l = 0.
Proof.
  intros _ P1 P2. apply (leads_ind w_handle (fun b s l =>
    pa_provided (w_one s) = true /\ pa_provided (w_two s) = true /\
    forall a t, brought a t l = 0 /\ got a t l = 0)).
  - intros b1 s1 l1 a m s' subs (A & B & C) Hh.
    destruct (complete_step _ _ _ _ _ _ A B Hh) as (A' & B' & -> & t & n & ->).
    split; [done|]. split; [done|]. intros c u. destruct (C c u). unfold brought, got in *.
    rewrite !lsums. cbn. lia.
  - intros b1 s1 l1 x (A & B & C). split; [done|]. split; [done|]. intros c u.
    destruct (C c u). unfold brought, got in *. rewrite !lsums. cbn. lia.
  - done.
  - done.
Qed.
(** Nobody else brings or takes anything; what is in the contract is accounted for. *)
Lemma nobody_else d b s l a t : wreached d b s l -> a <> d_a1 d -> a <> d_a2 d ->
  brought a t l = 0 /\ got a t l = 0.
Proof.
  intros H. apply (wi_others _ _ _ (wreached_inv _ _ _ _ H)).
Qed.
Lemma swap_balance d b s l t : wreached d b s l ->
  w_bal (w_held s) t = given t l + spent (d_a1 d) t l + spent (d_a2 d) t l.
Proof.
  intros H. destruct (wreached_inv _ _ _ _ H) as [(A1 & T1 & N1) (A2 & T2 & N2) I3 I4 I5 I6 I7 I8 I9].
  rewrite I6. unfold in_escrow. destruct I8 as [(P1 & P2 & I8)|[P I8]].
  - rewrite P1, P2. cbn. destruct (I8 t). lia.
  - rewrite P. destruct (I8 t) as [-> ->]. rewrite T1, N1, T2, N2. lia.
Qed.
