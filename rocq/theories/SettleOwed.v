(** What a pre-propose module owes, message by message. *)
From Verif Require Import Base BaseProofs Exec ExecProofs VotingModel HooksModel SingleModel
  SingleSpec PreModel PreSpec PreProofs PreJoint SettleModel SettleSpec.

Lemma msum_change {K V} `{Countable K} (f g : K -> V -> Z) (m : gmap K V) k0 v0 :
  (forall k v, m !! k = Some v -> k <> k0 -> g k v = f k v) -> m !! k0 = Some v0 ->
  msum g m = msum f m - f k0 v0 + g k0 v0.
Proof.
  intros Hf Hk. rewrite <- (insert_delete m k0 v0 Hk).
  rewrite !msum_insert_new by apply lookup_delete.
  rewrite (msum_ext g f (delete k0 m)); [lia|].
  intros k v Hkv. apply lookup_delete_Some in Hkv as [Hne Hkv]. by apply Hf.
Qed.

Definition was_paid (l : list paid) (w : reason) : bool :=
  existsb (fun p => bool_decide (pd_why p = w)) l.
Definition o1 (l : list paid) (x : N) (id : Z) (r : option deposit * addr) : Z :=
  if was_paid l (RCompleted id) then 0 else coins_of x r.1.
Definition o2 (x : N) (i : Z) (r : appr) : Z := coins_of x (a_deposit r).
Definition o3 (l : list paid) (x : N) (i : Z) (r : appr) : Z :=
  match a_status r with
  | ARejected => if was_paid l (RRejected i) then 0 else coins_of x (a_deposit r)
  | _ => 0
  end.
Definition owed (l : list paid) (q : pstate) (x : N) : Z :=
  msum (o1 l x) (q_deposits q) + msum (o2 x) (q_pending q) + msum (o3 l x) (q_completed q).
Lemma unreturned_owed j x : unreturned j x = owed (j_paid j) (j_q j) x.
Proof. reflexivity. Qed.

(** Amounts recorded in coins are amounts that arrived. *)
Record coins_pos (q : pstate) : Prop := {
  cp_deposits : forall x id r, q_deposits q !! id = Some r -> 0 <= coins_of x r.1;
  cp_pending : forall x i r, q_pending q !! i = Some r -> 0 <= coins_of x (a_deposit r);
  cp_completed : forall x i r, q_completed q !! i = Some r -> 0 <= coins_of x (a_deposit r) }.

Lemma same_flow_owed l q q' x : same_flow q q' -> owed l q' x = owed l q x.
Proof. intros (_ & _ & _ & D & E & F & _). unfold owed. by rewrite D, E, F. Qed.
Lemma same_flow_pos q q' : same_flow q q' -> coins_pos q -> coins_pos q'.
Proof. intros (_ & _ & _ & D & E & F & _) [A B C]. constructor; rewrite ?D, ?E, ?F; eauto. Qed.

Lemma native_arrives q e k a takes x :
  nonzero (q_deposit q) -> Forall (fun c => 0 <= c.2) (e_funds e) ->
  deposit_part q e k a = Ok takes ->
  0 <= coins_of x (q_deposit q) <= receive_coins (fun _ => 0) (e_funds e) (Native x).
Proof.
  intros Hn Hf H. apply deposit_part_ok in H; [|done].
  assert (forall l h, Forall (fun c : N * Z => 0 <= c.2) l ->
    h (Native x) <= receive_coins h l (Native x)) as Hr.
  { clear. induction l as [|c l IH]; intros h Hl; [unfold receive_coins; cbn; lia|].
    apply Forall_cons in Hl as [Hc Hl]. unfold receive_coins. cbn [fold_left].
    specialize (IH (receive h (Native c.1) c.2) Hl). unfold receive_coins in IH.
    assert (h (Native x) <= receive h (Native c.1) c.2 (Native x)); [|lia].
    unfold receive. destruct (decide _); lia. }
  unfold coins_of. destruct (q_deposit q) as [d|].
  - destruct (decide (d_denom d = Native x)) as [E|E].
    + destruct H as [(y & E1 & E2 & _)|(t & E1 & _)]; [|congruence].
      assert (y = x) as -> by congruence. rewrite E2 in *.
      apply Forall_cons in Hf as [Hc _]. cbn in Hc.
      unfold receive_coins, receive. cbn. rewrite decide_True by done. lia.
    + specialize (Hr (e_funds e) (fun _ => 0) Hf). cbn in Hr. lia.
  - specialize (Hr (e_funds e) (fun _ => 0) Hf). cbn in Hr. lia.
Qed.

Definition asks (m : pmsg) : bool := match m with PPropose _ => true | _ => false end.

Lemma pre_handle_owed q e a m q' subs l :
  qinv q -> coins_pos q -> Forall (fun c => 0 <= c.2) (e_funds e) ->
  q_deposits q !! e_next e = None -> pre_handle q e a m = Ok (q', subs) ->
  coins_pos q' /\
  forall x, owed l q' x <= owed l q x +
    (if asks m then receive_coins (fun _ => 0) (e_funds e) (Native x) else 0).
Proof.
  intros Hq Hp Hf Hnew H.
  assert (quiet_msg m \/ ~ quiet_msg m) as [Hm|Hm] by (destruct m; simpl; tauto).
  { destruct (quiet_shape q e a m q' subs Hm H) as (Hs & _). split; [by eapply same_flow_pos|].
    intros x. rewrite (same_flow_owed l q q' x Hs). destruct m; cbn [asks quiet_msg] in *; try lia; done. }
  destruct m; simpl in Hm; try tauto; clear Hm; cbn [pre_handle] in H; destruct (q_kind q) eqn:Ek;
    try discriminate; cbn [asks].
  - apply pre_propose_shape in H as (takes & _ & Hd & -> & _); [|done].
    pose proof (fun x => native_arrives _ _ _ _ _ x (qi_cfg _ Hq) Hf Hd) as Ha.
    destruct Hp as [P1 P2 P3]. split.
    + constructor; cbn [q_deposits q_pending q_completed q_with_deposits]; eauto.
      intros x id r Hr. apply lookup_insert_Some in Hr as [[_ <-]|[_ Hr]]; [|eauto].
      apply Ha.
    + intros x. unfold owed. cbn [q_deposits q_pending q_completed q_with_deposits].
      rewrite msum_insert_new by done. specialize (Ha x). unfold o1 at 1. cbn [fst].
      destruct (was_paid _ _); lia.
  - apply appr_propose_shape in H as (takes & _ & Hd & -> & _).
    pose proof (fun x => native_arrives _ _ _ _ _ x (qi_cfg _ Hq) Hf Hd) as Ha.
    assert (q_pending q !! (q_current q + 1) = None) as Hpn.
    { destruct (q_pending q !! (q_current q + 1)) eqn:E; [|done]. apply (qi_pending _ Hq) in E. lia. }
    destruct Hp as [P1 P2 P3]. split.
    + constructor; cbn [q_deposits q_pending q_completed q_with_flow]; eauto.
      intros x id r Hr. apply lookup_insert_Some in Hr as [[_ <-]|[_ Hr]]; [|eauto].
      apply Ha.
    + intros x. unfold owed. cbn [q_deposits q_pending q_completed q_with_flow].
      rewrite msum_insert_new by done. specialize (Ha x). unfold o2 at 1. cbn [a_deposit]. lia.
  - unfold appr_approve in H. destruct (_ =? _)%N; [|discriminate].
    destruct (q_pending q !! id) as [p|] eqn:Epd; [|discriminate]. injection H as <- <-.
    assert (q_completed q !! id = None) as Hcn by (by apply (qi_pending _ Hq) in Epd as (_ & _ & _ & _ & _ & Hn)).
    destruct Hp as [P1 P2 P3]. split.
    + constructor; cbn [q_deposits q_pending q_completed q_with_flow q_with_deposits].
      * intros x i r Hr. apply lookup_insert_Some in Hr as [[_ <-]|[_ Hr]]; [|eauto]. cbn [fst]. eauto.
      * intros x i r Hr. apply lookup_delete_Some in Hr as [_ Hr]. eauto.
      * intros x i r Hr. apply lookup_insert_Some in Hr as [[_ <-]|[_ Hr]]; [|eauto]. cbn [a_deposit]. eauto.
    + intros x. unfold owed. cbn [q_deposits q_pending q_completed q_with_flow q_with_deposits].
      rewrite (msum_insert_new (o1 l x)), (msum_insert_new (o3 l x)), (msum_delete _ _ _ p) by done.
      pose proof (P2 x id p Epd). unfold o1 at 1, o2 at 2, o3 at 1. cbn [a_status fst].
      destruct (was_paid _ _); lia.
  - unfold appr_reject in H. destruct (_ =? _)%N; [|discriminate].
    destruct (q_pending q !! id) as [p|] eqn:Epd; [|discriminate]. injection H as <- <-.
    assert (q_completed q !! id = None) as Hcn by (by apply (qi_pending _ Hq) in Epd as (_ & _ & _ & _ & _ & Hn)).
    destruct Hp as [P1 P2 P3]. split.
    + constructor; cbn [q_deposits q_pending q_completed q_with_flow]; eauto.
      * intros x i r Hr. apply lookup_delete_Some in Hr as [_ Hr]. eauto.
      * intros x i r Hr. apply lookup_insert_Some in Hr as [[_ <-]|[_ Hr]]; [|eauto]. cbn [a_deposit]. eauto.
    + intros x. unfold owed. cbn [q_deposits q_pending q_completed q_with_flow].
      rewrite (msum_insert_new (o3 l x)), (msum_delete _ _ _ p) by done.
      pose proof (P2 x id p Epd). unfold o2 at 2, o3 at 1. cbn [a_status a_deposit].
      destruct (was_paid _ _); lia.
Qed.

(** ** Payments *)
Lemma was_paid_app l p w :
  was_paid (l ++ [p]) w = was_paid l w || bool_decide (pd_why p = w).
Proof. unfold was_paid. rewrite existsb_app. cbn. by rewrite orb_false_r. Qed.
Lemma was_paid_other l p w : pd_why p <> w -> was_paid (l ++ [p]) w = was_paid l w.
Proof.
  intros Hn. rewrite was_paid_app. rewrite bool_decide_eq_false_2 by done. by rewrite orb_false_r.
Qed.
Lemma was_paid_count l w : was_paid l w = true <-> 0 < count_why w l.
Proof.
  unfold was_paid, count_why. induction l as [|p l IH]; cbn [existsb lsum]; [split; [done|lia]|].
  assert (0 <= lsum (fun p => if decide (pd_why p = w) then 1 else 0) l).
  { apply lsum_nonneg. intros y _. destruct (decide _); lia. }
  rewrite orb_true_iff, IH, bool_decide_eq_true. destruct (decide _); [|naive_solver lia].
  split; [lia|]. by left.
Qed.

Lemma owed_withdraw l q x dn to n : owed (l ++ [Paid RWithdraw dn to n]) q x = owed l q x.
Proof.
  unfold owed. f_equal; [f_equal|]; apply msum_ext; intros k v _.
  - unfold o1. by rewrite was_paid_other.
  - unfold o3. by rewrite was_paid_other.
Qed.
Lemma owed_completed l q x id d a to :
  q_deposits q !! id = Some (Some d, a) -> was_paid l (RCompleted id) = false ->
  owed (l ++ [Paid (RCompleted id) (d_denom d) to (d_amount d)]) q x = owed l q x - coins_of x (Some d).
Proof.
  intros Hd Hl. unfold owed.
  rewrite (msum_change (o1 l x) _ (q_deposits q) id (Some d, a)); [|..|done].
  - rewrite (msum_ext (o3 (l ++ _) x) (o3 l x)).
    + unfold o1 at 2 3. rewrite Hl, was_paid_app. cbn [pd_why fst].
      rewrite bool_decide_eq_true_2 by done. rewrite orb_true_r. lia.
    + intros k v _. unfold o3. by rewrite was_paid_other.
  - intros k v _ Hne. unfold o1. rewrite was_paid_other; [done|]. cbn. congruence.
Qed.
Lemma owed_rejected l q x i r d to :
  q_completed q !! i = Some r -> a_status r = ARejected -> a_deposit r = Some d ->
  was_paid l (RRejected i) = false ->
  owed (l ++ [Paid (RRejected i) (d_denom d) to (d_amount d)]) q x = owed l q x - coins_of x (Some d).
Proof.
  intros Hr Hs Hd Hl. unfold owed.
  rewrite (msum_change (o3 l x) _ (q_completed q) i r); [|..|done].
  - rewrite (msum_ext (o1 (l ++ _) x) (o1 l x)).
    + unfold o3 at 2 3. rewrite Hs, Hd, Hl, was_paid_app. cbn [pd_why].
      rewrite bool_decide_eq_true_2 by done. rewrite orb_true_r. lia.
    + intros k v _. unfold o1. by rewrite was_paid_other.
  - intros k v _ Hne. unfold o3. rewrite was_paid_other; [done|]. cbn. congruence.
Qed.
Lemma owed_ge_completed l q x id d a :
  coins_pos q -> q_deposits q !! id = Some (Some d, a) -> was_paid l (RCompleted id) = false ->
  coins_of x (Some d) <= owed l q x.
Proof.
  intros [P1 P2 P3] Hd Hl. unfold owed.
  assert (o1 l x id (Some d, a) <= msum (o1 l x) (q_deposits q)) as E1.
  { apply msum_ge_one; [|done]. intros k v Hk. unfold o1. destruct (was_paid l (RCompleted k)); [lia|by eapply P1]. }
  assert (0 <= msum (o2 x) (q_pending q)) by (apply msum_nonneg; intros k v Hk; by eapply P2).
  assert (0 <= msum (o3 l x) (q_completed q)).
  { apply msum_nonneg. intros k v Hk. unfold o3. destruct (a_status v); try lia.
    destruct (was_paid l (RRejected k)); [lia|by eapply P3]. }
  unfold o1 in E1 at 1. rewrite Hl in E1. cbn [fst] in E1. lia.
Qed.
