(** Proofs about cw20-stake-reward-distributor. *)
From Verif Require Import Base BaseProofs Exec ExecProofs Plain PlainProofs StoreModel DistModel
  DistSpec.

Lemma bal_insert s t t' n :
  d_bal s t' = default 0 (d_bals s !! t') ->
  default 0 (<[t := n]> (d_bals s) !! t') = if (t =? t')%N then n else d_bal s t'.
Proof.
  intros _. destruct (t =? t')%N eqn:E.
  - apply N.eqb_eq in E as ->. by rewrite lookup_insert.
  - apply N.eqb_neq in E. by rewrite lookup_insert_ne.
Qed.
Lemma amount_ok s b n :
  d_amount s b = Ok n ->
  d_last s < height b /\ n = due_at s b /\ n <> 0 /\ d_rate s * (height b - d_last s) <= U128_MAX.
Proof.
  unfold d_amount, due_at. intros H. destruct (height b <=? d_last s) eqn:E; [done|].
  cbn [negb] in H. destruct (mul128 _ _) as [p|] eqn:Em; [|done]. apply mul128_ok in Em as [-> Hm].
  cbn zeta in H. destruct (_ =? 0) eqn:E0 in H; [done|]. cbn [negb] in H. simplify_eq.
  split; [lia|]. split; [done|]. split; [lia|done].
Qed.
Lemma amount_config s b staking rate token :
  d_amount (DState (d_own s) staking token rate (height b) (d_bals s)) b = Err "RewardsDistributedForBlock".
Proof. unfold d_amount. cbn. by rewrite Z.leb_refl. Qed.

(** Well-formedness. *)
Record dinv (b : block) (s : dstate) : Prop := {
  di_last : 0 <= d_last s <= height b;
  di_rate : 0 <= d_rate s;
  di_bal : forall t, 0 <= d_bal s t;
}.
Lemma send_bal s n t :
  d_bal (d_send s n) t = if (d_token s =? t)%N then d_bal s (d_token s) - n else d_bal s t.
Proof. unfold d_send, d_bal at 1. cbn. by apply bal_insert. Qed.
Lemma dinv_call b s a m s' subs : dinv b s -> d_handle s b a m = Ok (s', subs) -> dinv b s'.
Proof.
  intros [A1 A2 A3] H. destruct m as [k r t v| | |act|t n]; cbn in H.
  - unfold fits128 in H. destruct ((0 <=? r) && (r <=? U128_MAX)) eqn:Ef; [|done].
    destruct (is_owner _ _); [|done]. destruct v; [|done]. rewrite amount_config in H.
    simplify_eq. split; cbn; [lia|lia|done].
  - destruct (d_amount s b) as [n|] eqn:E; [|done]. simplify_eq.
    apply amount_ok in E as (B1 & B2 & B3 & B4). split; [cbn; lia|done|].
    intros t. rewrite send_bal. cbn. pose proof (A3 t). unfold due_at in B2. pose proof (A3 (d_token s)).
    unfold d_bal in *. cbn. destruct (d_token s =? t)%N; lia.
  - destruct (is_owner _ _); [|done]. simplify_eq. split; [done|done|].
    intros t. rewrite send_bal. pose proof (A3 t). destruct (d_token s =? t)%N; lia.
  - destruct (update_ownership _ _ _ _); [|done]. by simplify_eq.
  - unfold fits128 in H. destruct ((0 <=? n) && _) eqn:Ef; [|done]. destruct (_ <=? _) in H; [|done].
    simplify_eq. split; [done|done|]. intros t'. unfold d_bal at 1. cbn.
    rewrite bal_insert by done. pose proof (A3 t'). pose proof (A3 t). destruct (t =? t')%N; lia.
Qed.
Lemma dinv_time b b' s : dinv b s -> block_le b b' -> dinv b' s.
Proof. intros [A1 A2 A3] [Hb _]. split; [lia|done|done]. Qed.
Lemma dinv_ini b o k t r v s : 0 <= height b -> d_instantiate b o k t r v = Ok s -> dinv b s.
Proof.
  unfold d_instantiate, fits128. intros Hb H. destruct ((0 <=? r) && _) eqn:E; [|done].
  destruct v; [|done]. simplify_eq. split; cbn; [lia|lia|]. intros x. unfold d_bal. cbn.
  by rewrite lookup_empty.
Qed.
Lemma dreached_inv b s l : dreached b s l -> dinv b s.
Proof.
  intros (b0 & o & k & t & r & v & s0 & Hb & Hi & HL).
  eapply leads_inv; [exact dinv_call|exact dinv_time| |exact HL]. by eapply dinv_ini.
Qed.

(** What one undisturbed call does to the sum forwarded. *)
Lemma step_off b s a m s' subs :
  dinv b s -> d_handle s b a m = Ok (s', subs) -> hands_off (ECall s b a m s' subs) = true ->
  d_token s' = d_token s /\ d_staking s' = d_staking s /\ d_rate s' = d_rate s /\
  d_last s <= d_last s' <= height b /\
  let f := lsum (fund_of (d_token s) (d_staking s)) subs in
  let g := ev_gift (d_token s) (ECall s b a m s' subs) in
  0 <= f <= d_rate s * (d_last s' - d_last s) /\ 0 <= g /\
  d_bal s' (d_token s) = d_bal s (d_token s) + g - f /\
  (f = d_rate s * (d_last s' - d_last s) \/ f = d_bal s (d_token s)) /\
  (f <> 0 -> d_last s' = height b).
Proof.
  intros [A1 A2 A3] H Ho. destruct m as [k r t v| | |act|t n]; cbn in H; try done.
  - destruct (d_amount s b) as [n|] eqn:E; [|done]. simplify_eq. cbn.
    rewrite !N.eqb_refl. cbn. apply amount_ok in E as (B1 & B2 & B3 & B4).
    pose proof (A3 (d_token s)). unfold due_at in B2.
    pose proof (Z.mul_nonneg_nonneg (d_rate s) (height b - d_last s) A2 ltac:(lia)).
    rewrite send_bal. cbn. rewrite N.eqb_refl. unfold d_bal in *. cbn.
    repeat split; try done; lia.
  - destruct (update_ownership _ _ _ _); [|done]. simplify_eq. cbn.
    rewrite Z.sub_diag, Z.mul_0_r. unfold d_bal. cbn. repeat split; try done; lia.
  - unfold fits128 in H. destruct ((0 <=? n) && _) eqn:Ef; [|done]. destruct (_ <=? _) in H; [|done].
    simplify_eq. cbn. rewrite Z.sub_diag, Z.mul_0_r. unfold d_bal at 1. cbn.
    rewrite bal_insert by done. destruct (t =? d_token s)%N eqn:Et.
    + apply N.eqb_eq in Et as ->. repeat split; try done; lia.
    + repeat split; try done; lia.
Qed.
