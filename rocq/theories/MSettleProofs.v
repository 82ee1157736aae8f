(** Deposits of multiple-choice proposals are settled: invariants over histories. *)
From Verif Require Import Base BaseProofs Exec ExecProofs ExecFrame VotingModel HooksModel PreModel
  PreSpec PreProofs PreJoint PreClaims SettleModel SettleSpec SettleOwed SettlePre.
From Verif Require Import MultModel MultSpec MultProofs MultLife PreMultModel PreMultSpec PreMultDone
  PreMultJoint MSettleModel MSettleSpec MSettleMult.

(** ** Counts *)
Definition due (w : reason) (j : mjstate) : Z :=
  match w with
  | RCompleted id => finished (mj_s j) id
  | RRejected i => rejected_deposit (mj_q j) i
  | RWithdraw => 0
  end.
Definition sends (w : reason) (x : mjsub) : Z :=
  match w with RCompleted id => mjcompleted id x | RRejected i => mjreject i x | RWithdraw => 0 end.
Definition cnt (w : reason) (j : mjstate) : Z := count_why w (mj_paid j).
Lemma due_le w j : due w j <= 1.
Proof.
  destruct w; cbn [due]; [pose proof (finished_range (mj_s j) id); lia| |lia].
  pose proof (rejected_range (mj_q j) id). lia.
Qed.
Lemma sends_nonneg w x : 0 <= sends w x.
Proof.
  destruct w as [id|i|]; cbn [sends]; [..|lia].
  - destruct x as [x|]; cbn [mjcompleted]; [|lia]. destruct x; cbn; try lia. destruct (_ =? _); lia.
  - destruct x as [|x]; cbn [mjreject]; [lia|]. destruct x; cbn; try lia. destruct (decide _); lia.
Qed.
Lemma count_nonneg w l : 0 <= count_why w l.
Proof. apply lsum_nonneg. intros p _. destruct (decide _); lia. Qed.

Record mzinv (b : block) (s : mzstate) : Prop := {
  mzi_j : mjinv b (mz_j s);
  mzi_pos : coins_pos (mj_q (mz_j s));
  mzi_cnt : forall w, w <> RWithdraw -> cnt w (mz_j s) <= due w (mz_j s) }.
Definition solv (x : N) (s : mzstate) : Prop :=
  owed (mj_paid (mz_j s)) (mj_q (mz_j s)) x <= mz_held s (Native x).
Definition hd (j : mjstate) (id : Z) : Z := has_deposit (q_deposits (mj_q j) !! id).
Definition gap (s : mzstate) (id : Z) : Z :=
  finished (mj_s (mz_j s)) id * hd (mz_j s) id - cnt (RCompleted id) (mz_j s).
Record mzq (n0 : Z) (s : mzstate) : Prop := {
  mzq_solv : forall x, solv x s;
  mzq_pol : s_policy (mj_s (mz_j s)) = Module (mj_self (mz_j s));
  mzq_cfg : in_coins (q_deposit (mj_q (mz_j s)));
  mzq_recs : forall id r, q_deposits (mj_q (mz_j s)) !! id = Some r -> in_coins r.1;
  mzq_pend : forall i r, q_pending (mj_q (mz_j s)) !! i = Some r -> in_coins (a_deposit r);
  mzq_ids : forall id, is_Some (q_deposits (mj_q (mz_j s)) !! id) <-> n0 < id <= s_count (mj_s (mz_j s));
  mzq_low : n0 <= s_count (mj_s (mz_j s)) }.

(** A failed completion hook was about a deposit in something else. *)
Definition mfine (x : N) (e : event mzstate mzmsg mjsub) : Prop :=
  match e with
  | ESub pre _ (FromMult (SCompleted a id _)) false _ =>
      a = mj_self (mz_j pre) ->
      exists d pr, q_deposits (mj_q (mz_j pre)) !! id = Some (Some d, pr) /\ d_denom d <> Native x
  | _ => True
  end.

Definition mzR (n0 : Z) (s : mzstate) (l : mzlog) (s' : mzstate) : Prop :=
  mjle (mz_j s) (mz_j s') /\
  (forall w, w <> RWithdraw ->
     cnt w (mz_j s') - cnt w (mz_j s) <= due w (mz_j s') - due w (mz_j s)) /\
  (forall x, mleft_alone x l -> solv x s -> solv x s' /\ Forall (mfine x) l) /\
  (mkept l -> mzq n0 s -> mzq n0 s' /\ forall id, gap s' id = gap s id).
Definition mzpend (n0 : Z) (b : block) (s0 : mzstate) (l : mzlog) (s : mzstate) (subs : list mjsub) : Prop :=
  mjle (mz_j s0) (mz_j s) /\
  (forall x, x ∈ subs -> mjpend b (mz_j s) x) /\
  (forall w, w <> RWithdraw ->
     cnt w (mz_j s0) <= due w (mz_j s0) /\
     cnt w (mz_j s) - cnt w (mz_j s0) + lsum (sends w) subs <= due w (mz_j s) - due w (mz_j s0)) /\
  (forall x, mleft_alone x l -> solv x s0 ->
     solv x s /\ Forall (mfine x) l /\
     forall to n, FromBase (XPay RWithdraw (Native x) to n) ∉ subs) /\
  (mkept l -> mzq n0 s0 ->
     mzq n0 s /\
     (forall r id st, FromMult (SCompleted r id st) ∈ subs -> r = mj_self (mz_j s)) /\
     (forall x, FromMult x ∈ subs -> no_inst x) /\
     forall id, gap s id = gap s0 id + lsum (mjcompleted id) subs * hd (mz_j s) id).

Lemma mleft_alone_app x l l' : mleft_alone x (l ++ l') <-> mleft_alone x l /\ mleft_alone x l'.
Proof.
  split.
  - intros H. split; intros pre b a f v d post subs He; eapply (H pre b a f v d post subs);
      apply elem_of_app; [by left|by right].
  - intros [H1 H2] pre b a f v d post subs He. apply elem_of_app in He as [He|He];
      [exact (H1 _ _ _ _ _ _ _ _ He)|exact (H2 _ _ _ _ _ _ _ _ He)].
Qed.
Lemma mkept_app l l' : mkept (l ++ l') <-> mkept l /\ mkept l'.
Proof.
  split.
  - intros H. split; intros pre b a m post subs He; eapply (H pre b a m post subs);
      apply elem_of_app; [by left|by right].
  - intros [H1 H2] pre b a m post subs He. apply elem_of_app in He as [He|He];
      [exact (H1 _ _ _ _ _ _ He)|exact (H2 _ _ _ _ _ _ He)].
Qed.

Lemma mzR_refl n0 s : mzR n0 s [] s.
Proof.
  split; [apply mjle_refl|]. split; [intros; lia|]. split; [done|]. intros _ HQ. done.
Qed.
Lemma mzR_trans n0 s l s' l' s'' : mzR n0 s l s' -> mzR n0 s' l' s'' -> mzR n0 s (l ++ l') s''.
Proof.
  intros (A1 & A2 & A3 & A4) (B1 & B2 & B3 & B4). split; [by eapply mjle_trans|]. split; [|split].
  - intros w Hw. specialize (A2 w Hw). specialize (B2 w Hw). lia.
  - intros x [H1 H2]%mleft_alone_app Hs. destruct (A3 x H1 Hs) as [Hs1 Hf1].
    destruct (B3 x H2 Hs1) as [Hs2 Hf2]. split; [done|]. by apply Forall_app.
  - intros [H1 H2]%mkept_app HQ. destruct (A4 H1 HQ) as [HQ1 G1]. destruct (B4 H2 HQ1) as [HQ2 G2].
    split; [done|]. intros id. by rewrite G2, G1.
Qed.
Lemma mzpend_end n0 b s0 l s : mzinv b s -> mzpend n0 b s0 l s [] -> mzR n0 s0 l s.
Proof.
  intros _ (A1 & _ & A3 & A4 & A5). split; [done|]. split; [|split].
  - intros w Hw. destruct (A3 w Hw) as [_ H]. cbn [lsum] in H. lia.
  - intros x Hl Hs. by destruct (A4 x Hl Hs) as (? & ? & _).
  - intros Hk HQ. destruct (A5 Hk HQ) as (H1 & _ & _ & H2). split; [done|].
    intros id. rewrite H2. cbn [lsum]. lia.
Qed.

Lemma hd_same n0 b s s' id :
  mzinv b s -> mjle (mz_j s) (mz_j s') -> mzq n0 s -> mzq n0 s' -> id <= s_count (mj_s (mz_j s)) ->
  hd (mz_j s') id = hd (mz_j s) id.
Proof.
  intros HI HL HQ HQ' Hid. unfold hd.
  destruct (q_deposits (mj_q (mz_j s)) !! id) as [r|] eqn:E.
  - by rewrite (ql_deposits _ _ (mjl_q _ _ HL) _ _ E).
  - destruct (q_deposits (mj_q (mz_j s')) !! id) as [r|] eqn:E'; [|done].
    pose proof (proj1 (mzq_ids _ _ HQ' id) (mk_is_Some _ _ E')) as [Hn _].
    destruct (proj2 (mzq_ids _ _ HQ id) ltac:(lia)) as [r' Hr']. congruence.
Qed.
Lemma pend_old b j subs id :
  mjinv b j -> (forall x, x ∈ subs -> mjpend b j x) -> lsum (mjcompleted id) subs <> 0 ->
  id <= s_count (mj_s j).
Proof.
  intros HI. induction subs as [|x subs IH]; intros HP Hl; [done|].
  destruct (Z.eq_dec (mjcompleted id x) 0) as [E|E].
  - apply IH; [|cbn [lsum] in Hl; lia]. intros y Hy. apply HP. by right.
  - clear IH Hl. specialize (HP x ltac:(left)). destruct x as [x|]; [|done].
    destruct HP as [_ HP]. destruct x; try done. cbn [mjcompleted sub_completed] in E.
    destruct (id0 =? id) eqn:Ei; [|done]. apply Z.eqb_eq in Ei as ->.
    destruct (HP _ _ _ eq_refl) as (p & Hp & _).
    apply (wi_ids _ _ (mji_w _ _ HI)). eauto.
Qed.

(** Whole calls in between. *)
Lemma mzpend_frame n0 b s0 l s subs l1 s1 :
  mzinv b s -> mzinv b s1 -> mzpend n0 b s0 l s subs -> mzR n0 s l1 s1 ->
  mzpend n0 b s0 (l ++ l1) s1 subs.
Proof.
  intros HI HI1 (A1 & A2 & A3 & A4 & A5) (B1 & B2 & B3 & B4). split; [by eapply mjle_trans|].
  split; [|split; [|split]].
  - intros x Hx. eapply mjpend_mono; [apply HI1|exact B1|by apply A2].
  - intros w Hw. destruct (A3 w Hw) as [H1 H2]. specialize (B2 w Hw). split; [done|]. lia.
  - intros x [H1 H2]%mleft_alone_app Hs. destruct (A4 x H1 Hs) as (Hs1 & Hf1 & Hn).
    destruct (B3 x H2 Hs1) as [Hs2 Hf2]. split; [done|]. split; [by apply Forall_app|done].
  - intros [H1 H2]%mkept_app HQ. destruct (A5 H1 HQ) as (HQ1 & Hr & Hi & G1).
    destruct (B4 H2 HQ1) as [HQ2 G2]. split; [done|]. split; [|split; [done|]].
    + intros r id st Hx. rewrite (mjl_self _ _ B1). by eapply Hr.
    + intros id. rewrite G2, G1.
      destruct (Z.eq_dec (lsum (mjcompleted id) subs) 0) as [E|E]; [rewrite E; lia|].
      rewrite (hd_same n0 b s s1 id HI B1 HQ1 HQ2); [done|].
      by eapply pend_old; [apply HI|exact A2|].
Qed.

(** Nothing was paid for what is about to be delivered. *)
Lemma mzpend_fresh n0 b s0 l s x subs w :
  mzpend n0 b s0 l s (x :: subs) -> w <> RWithdraw -> 1 <= sends w x ->
  was_paid (mj_paid (mz_j s)) w = false.
Proof.
  intros (_ & _ & A3 & _) Hw Hx. destruct (A3 w Hw) as [H1 H2]. cbn [lsum] in H2.
  assert (0 <= lsum (sends w) subs) by (apply lsum_nonneg; intros; apply sends_nonneg).
  pose proof (due_le w (mz_j s)).
  destruct (was_paid (mj_paid (mz_j s)) w) eqn:E; [|done].
  apply was_paid_count in E. unfold cnt in *. lia.
Qed.

(** ** Deliveries *)
Lemma new_paid_app j j' l : mj_paid j' = mj_paid j ++ l -> mnew_paid j j' = l.
Proof. intros E. unfold mnew_paid. rewrite E. by rewrite drop_app. Qed.

Lemma mzon_ok_shape b s x d s' :
  mjinv b (mz_j s) -> mjpend b (mz_j s) x -> mzon_ok s b x d = Ok s' ->
  mjon_ok (mz_j s) b x d = Ok (mz_j s') /\
  ((mj_paid (mz_j s') = mj_paid (mz_j s) /\
    (forall y, mz_held s' (Native y) = mz_held s (Native y)) /\
    (forall i, mjreject i x = 0) /\
    forall r id st, x = FromMult (SCompleted r id st) -> r = mj_self (mz_j s) -> hd (mz_j s) id = 0) \/
   exists p, mj_paid (mz_j s') = mj_paid (mz_j s) ++ [p] /\
     (forall y, mz_held s' (Native y) = pay1 (mz_held s) p y) /\
     ((exists id st d pr to, x = FromMult (SCompleted (mj_self (mz_j s)) id st) /\
         q_deposits (mj_q (mz_j s)) !! id = Some (Some d, pr) /\
         p = Paid (RCompleted id) (d_denom d) to (d_amount d)) \/
      (exists i r d to, sends (RRejected i) x = 1 /\ (forall id, mjcompleted id x = 0) /\
         q_completed (mj_q (mz_j s)) !! i = Some r /\ a_status r = ARejected /\ a_deposit r = Some d /\
         p = Paid (RRejected i) (d_denom d) to (d_amount d)) \/
      (exists dn to n, x = FromBase (XPay RWithdraw dn to n) /\ p = Paid RWithdraw dn to n))).
Proof.
  intros HI HP H. unfold mzon_ok in H.
  destruct (mjon_ok (mz_j s) b x d) as [j'|] eqn:Ej; [|discriminate].
  destruct (spend_all _ _) as [h|] eqn:Eh; [|discriminate]. injection H as <-. cbn [mz_j mz_held].
  split; [done|]. destruct x as [x|x].
  - cbn [mjon_ok] in Ej. destruct (on_ok (mj_s (mz_j s)) b x d) as [s1|] eqn:Eo; [|discriminate].
    assert (mj_paid j' = mj_paid (mz_j s) ->
      (forall r id st, x = SCompleted r id st -> r = mj_self (mz_j s) -> hd (mz_j s) id = 0) ->
      mj_paid j' = mj_paid (mz_j s) /\
      (forall y, h (Native y) = mz_held s (Native y)) /\
      (forall i, mjreject i (FromMult x) = 0) /\
      forall r id st, FromMult x = FromMult (SCompleted r id st) -> r = mj_self (mz_j s) ->
        hd (mz_j s) id = 0) as Hno.
    { intros E Hh. split; [done|]. rewrite (new_paid_app _ _ []) in Eh by (by rewrite app_nil_r).
      injection Eh as <-. split; [done|]. split; [done|]. intros r id st [= ->]. by eapply Hh. }
    destruct x as [| | |r id st|]; try (left; apply Hno; [by injection Ej as <-|done]).
    destruct (r =? mj_self (mz_j s))%N eqn:Er.
    2:{ left. apply Hno; [by injection Ej as <-|]. intros r' id' st' [= -> -> ->] ->.
        by rewrite N.eqb_refl in Er. }
    apply N.eqb_eq in Er as ->. cbn [pre_handle] in Ej.
    destruct (pre_completed _ _ _ _) as [[q' xs]|] eqn:Ep; [|discriminate]. injection Ej as <-.
    destruct (pays_completed (mj_q (mz_j s)) _ id st q' xs (mji_q _ _ HI) Ep) as (-> & Hpd).
    cbn [mj_paid] in *. destruct Hpd as [Hpd|(dd & pr & Hd & Hst & Hpd)].
    + left. apply Hno; [by rewrite Hpd, app_nil_r|]. intros r' id' st' [= <- <-] _.
      unfold pre_completed in Ep. destruct (_ =? _)%N; [|discriminate].
      destruct (bool_decide _); [|discriminate]. unfold hd.
      destruct (q_deposits (mj_q (mz_j s)) !! id) as [[[dd|] pr]|] eqn:Ed; [|done..].
      injection Ep as <-. unfold return_messages in Hpd.
      pose proof (qi_deposits _ (mji_q _ _ HI) _ _ _ Ed) as Hn. simpl in Hn.
      destruct (d_amount dd =? 0) eqn:E0; [lia|]. discriminate.
    + right. eexists. split; [by rewrite Hpd|]. split.
      * intros y. rewrite (new_paid_app _ _ (pays xs)) in Eh by done. rewrite Hpd in Eh.
        apply spend_all_one in Eh as ->. apply receive_pay1.
      * left. eexists id, st, dd, pr, _. done.
  - destruct HP as [HP _].
    destruct x as [pm|r m|k t o n|w dn to n]; cbn [mjon_ok] in Ej; injection Ej as <-; cbn [mj_paid] in *.
    + left. split; [done|]. rewrite (new_paid_app _ _ []) in Eh by (by rewrite app_nil_r).
      injection Eh as <-. done.
    + left. split; [done|]. rewrite (new_paid_app _ _ []) in Eh by (by rewrite app_nil_r).
      injection Eh as <-. done.
    + left. split; [done|]. rewrite (new_paid_app _ _ []) in Eh by (by rewrite app_nil_r).
      injection Eh as <-. split; [|done]. intros y. unfold receive. by rewrite decide_False.
    + right. eexists. split; [done|]. split.
      * intros y. rewrite (new_paid_app _ _ [Paid w dn to n]) in Eh by done.
        apply spend_all_one in Eh as ->. apply receive_pay1.
      * destruct w as [id|i|]; [done| |].
        -- right. left. destruct HP as (r & dd & H1 & H2 & H3 & -> & -> & H6).
           exists i, r, dd, to. split; [cbn; by rewrite decide_True|]. done.
        -- right. right. eauto.
Qed.

Lemma mzok_step (O : oracle) n0 b s0 l s x subs d s' :
  mzinv b s -> mzpend n0 b s0 l s (x :: subs) -> mzon_ok s b x d = Ok s' ->
  mzinv b s' /\ mzpend n0 b s0 (l ++ [ESub s b x true s']) s' subs.
Proof.
  intros HI HP H.
  assert (mjpend b (mz_j s) x) as HPx by (apply HP; left).
  destruct (mzon_ok_shape b s x d s' (mzi_j _ _ HI) HPx H) as (Hj & Hsh).
  destruct (mjok_step O b (mz_j s) x d (mz_j s') (mzi_j _ _ HI) HPx Hj)
    as (HJ & HL & Eq & _ & Hrj & Hcc & Hfin).
  assert (forall w, due w (mz_j s') = due w (mz_j s)) as Hdue.
  { intros []; cbn [due]; [apply Hfin|by rewrite Eq|done]. }
  assert (forall w, w <> RWithdraw -> cnt w (mz_j s') - cnt w (mz_j s) <= sends w x) as Hcnt.
  { intros [id|i|] Hw; cbn [sends]; unfold cnt; [apply Hcc|rewrite Hrj; lia|done]. }
  pose proof HP as (A1 & A2 & A3 & A4 & A5).
  assert (forall w, w <> RWithdraw ->
     cnt w (mz_j s0) <= due w (mz_j s0) /\
     cnt w (mz_j s') - cnt w (mz_j s0) + lsum (sends w) subs <= due w (mz_j s') - due w (mz_j s0)) as A3'.
  { intros w Hw. destruct (A3 w Hw) as [H1 H2]. split; [done|]. specialize (Hcnt w Hw).
    cbn [lsum] in H2. rewrite Hdue. lia. }
  (* solvency *)
  assert (forall y, (forall to n, x <> FromBase (XPay RWithdraw (Native y) to n)) ->
    solv y s -> solv y s') as Hsolv.
  { intros y Hny Hs. unfold solv in *. rewrite Eq.
    destruct Hsh as [(E1 & E2 & _)|(p & E1 & E2 & Hp)]; rewrite E1, E2; [done|].
    destruct Hp as [(id & st & dd & pr & to & -> & Hd & ->)
      |[(i & r & dd & to & Hx & _ & Hr & Hs1 & Hd & ->)|(dn & to & n & -> & ->)]].
    - rewrite (owed_completed _ _ y id dd pr); [|done|].
      + unfold pay1. cbn [pd_denom pd_amount]. unfold coins_of. destruct (decide _); lia.
      + eapply mzpend_fresh; [exact HP|done|]. cbn. rewrite Z.eqb_refl. lia.
    - rewrite (owed_rejected _ _ y i r dd); [|done..|].
      + unfold pay1. cbn [pd_denom pd_amount]. unfold coins_of. destruct (decide _); lia.
      + eapply mzpend_fresh; [exact HP|done|]. lia.
    - rewrite owed_withdraw. unfold pay1. cbn [pd_denom]. rewrite decide_False; [done|].
      intros ->. by eapply Hny. }
  split; [constructor|].
  - done.
  - rewrite Eq. apply HI.
  - intros w Hw. destruct (A3' w Hw) as [H1 H2].
    assert (0 <= lsum (sends w) subs) by (apply lsum_nonneg; intros; apply sends_nonneg). lia.
  - split; [by eapply mjle_trans|]. split; [|split; [done|split]].
    + intros y Hy. eapply mjpend_mono; [apply HJ|exact HL|]. apply A2. by right.
    + intros y [H1 _]%mleft_alone_app Hs. destruct (A4 y H1 Hs) as (Hs1 & Hf & Hn).
      split; [|split].
      * apply Hsolv; [|done]. intros to n ->. apply (Hn to n). left.
      * apply Forall_app. split; [done|]. apply Forall_singleton.
        cbn [mfine]. destruct x as [[]|]; done.
      * intros to n Hx. apply (Hn to n). by right.
    + intros [H1 _]%mkept_app HQ. destruct (A5 H1 HQ) as (HQ1 & Hr & Hi & G).
      assert (mj_s (mz_j s') = mj_s (mz_j s)) as Es.
      { destruct x as [x|x].
        - cbn [mjon_ok] in Hj. destruct (on_ok (mj_s (mz_j s)) b x d) as [s1|] eqn:Eo; [|discriminate].
          apply ok_policy in Eo; [|apply Hi; left]. subst s1.
          destruct x as [| | |r id st|]; try (by injection Hj as <-).
          destruct (r =? _)%N; [|by injection Hj as <-].
          destruct (pre_handle _ _ _ _) as [[q' xs]|]; [|discriminate]. by injection Hj as <-.
        - destruct x; cbn [mjon_ok] in Hj; by injection Hj as <-. }
      pose proof (mjl_self _ _ HL) as Eself.
      split; [|split; [|split]].
      * destruct HQ1 as [Q1 Q2 Q3 Q4 Q5 Q6 Q7].
        constructor; rewrite ?Eq, ?Es, ?Eself; try done.
        intros y. apply Hsolv; [|done]. intros to n ->.
        assert (mleft_alone y l) as Hla.
        { intros pre b' a f v dn post ss He. destruct (H1 _ _ _ _ _ _ He). }
        destruct (A4 y Hla (mzq_solv _ _ HQ y)) as (_ & _ & Hn). apply (Hn to n). left.
      * intros r id st Hx. rewrite Eself. apply (Hr r id st). by right.
      * intros y Hy. apply Hi. by right.
      * intros id. specialize (G id). cbn [lsum] in G. unfold gap in *.
        assert (hd (mz_j s') id = hd (mz_j s) id) as Ehd by (unfold hd; by rewrite Eq).
        rewrite Es, Ehd.
        assert (cnt (RCompleted id) (mz_j s') - cnt (RCompleted id) (mz_j s) =
                mjcompleted id x * hd (mz_j s) id) as Hx; [|lia].
        unfold cnt. destruct Hsh as [(E1 & _ & _ & E3)|(p & E1 & _ & Hp)]; rewrite E1.
        -- destruct x as [x|]; [|cbn; lia]. destruct x as [| | |r i st|]; cbn [mjcompleted sub_completed]; try lia.
           destruct (i =? id) eqn:Ei; [|lia]. apply Z.eqb_eq in Ei as ->.
           rewrite (E3 r id st eq_refl); [lia|]. apply (Hr r id st). left.
        -- rewrite count_why_app. unfold count_why at 2. cbn [lsum].
           destruct Hp as [(i & st & dd & pr & to & -> & Hd & ->)
             |[(i & r & dd & to & _ & Hx & _ & _ & _ & ->)|(dn & to & n & -> & ->)]]; cbn [pd_why].
           ++ cbn [mjcompleted sub_completed]. destruct (i =? id) eqn:Ei.
              ** apply Z.eqb_eq in Ei as ->. rewrite decide_True by done. unfold hd. rewrite Hd.
                 cbn [has_deposit]. lia.
              ** apply Z.eqb_neq in Ei. rewrite decide_False by congruence. lia.
           ++ rewrite Hx, decide_False by done. lia.
           ++ rewrite decide_False by done. cbn. lia.
Qed.

(** ** Failures *)
Lemma surely b s id st :
  mzinv b s -> completed_at (mj_s (mz_j s)) id st ->
  (forall d pr, q_deposits (mj_q (mz_j s)) !! id = Some (Some d, pr) ->
     exists y, d_denom d = Native y /\ d_amount d <= mz_held s (Native y)) ->
  msure s b (FromMult (SCompleted (mj_self (mz_j s)) id st)) = true.
Proof.
  intros HI Hc Hh. unfold msure, mzon_ok. cbn [mjon_ok on_ok pre_handle]. rewrite N.eqb_refl.
  unfold pre_completed. rewrite N.eqb_refl.
  rewrite (bool_decide_eq_true_2 (st = Closed \/ st = Executed \/ st = Vetoed)).
  2:{ destruct Hc as (p & _ & Hc). unfold completes in Hc. naive_solver. }
  destruct (q_deposits (mj_q (mz_j s)) !! id) as [[[d|] pr]|] eqn:E.
  - destruct (Hh d pr eq_refl) as (y & Ey & Hy).
    unfold return_messages. pose proof (qi_deposits _ (mji_q _ _ (mzi_j _ _ HI)) _ _ _ E) as Hn. simpl in Hn.
    destruct (d_amount d =? 0) eqn:E0; [lia|].
    erewrite (new_paid_app (mz_j s)) by (cbn [mj_paid pays flat_map]; reflexivity).
    cbn [app spend_all]. unfold spend. cbn [pd_denom pd_amount]. rewrite Ey.
    rewrite (proj2 (Z.leb_le _ _) Hy). cbn [mz_j].
    erewrite (new_paid_app (mz_j s)) by (cbn [mj_paid pays flat_map]; reflexivity).
    done.
  - cbn [pays flat_map]. rewrite (new_paid_app (mz_j s) _ []) by done. cbn [spend_all mz_j].
    rewrite (new_paid_app (mz_j s) _ []) by done. done.
  - cbn [pays flat_map]. rewrite (new_paid_app (mz_j s) _ []) by done. cbn [spend_all mz_j].
    rewrite (new_paid_app (mz_j s) _ []) by done. done.
Qed.

Lemma mzfail_step n0 b s0 l s x subs s' :
  mzinv b s -> mzpend n0 b s0 l s (x :: subs) -> mzon_fail s b x = Ok s' ->
  mzinv b s' /\ mzpend n0 b s0 (l ++ [ESub s b x false s']) s' subs.
Proof.
  intros HI HP H.
  assert (mjpend b (mz_j s) x) as HPx by (apply HP; left).
  unfold mzon_fail in H.
  match type of H with (if negb ?c then _ else _) = _ => destruct c eqn:Ec; [discriminate|] end.
  cbn [negb] in H. destruct (mjon_fail (mz_j s) b x) as [j'|] eqn:Ej; [|discriminate].
  injection H as <-.
  destruct (mjfail_step b (mz_j s) x j' (mzi_j _ _ HI) HPx Ej)
    as (HJ & HL & [y ->] & Eq & _ & Ep & Hfin).
  pose proof HP as (A1 & A2 & A3 & A4 & A5).
  assert (forall w, due w j' = due w (mz_j s) /\ cnt w j' = cnt w (mz_j s)) as Hdue.
  { intros w. split; [|unfold cnt; by rewrite Ep].
    destruct w; cbn [due]; [apply Hfin|by rewrite Eq|done]. }
  assert (forall y, solv y s -> solv y (MZState j' (mz_held s))) as Hsolv.
  { intros v. unfold solv. cbn [mz_j mz_held]. by rewrite Eq, Ep. }
  (* which completions fail *)
  assert (forall v r id st, y = SCompleted r id st -> r = mj_self (mz_j s) -> solv v s ->
    exists d pr, q_deposits (mj_q (mz_j s)) !! id = Some (Some d, pr) /\ d_denom d <> Native v) as Hfine.
  { intros v r id st -> -> Hs. rewrite N.eqb_refl in Ec. cbn [andb] in Ec.
    destruct (q_deposits (mj_q (mz_j s)) !! id) as [[[d|] pr]|] eqn:Ed.
    - destruct (decide (d_denom d = Native v)) as [Edn|Edn]; [|eauto]. exfalso.
      rewrite (surely b s id st HI) in Ec; [done| |].
      + destruct HPx as [_ HPx]. by eapply HPx.
      + intros d' pr' E'. rewrite Ed in E'. injection E' as <- <-. exists v. split; [done|].
        unfold solv in Hs. 
        assert (was_paid (mj_paid (mz_j s)) (RCompleted id) = false) as Hf.
        { eapply mzpend_fresh; [exact HP|done|]. cbn. rewrite Z.eqb_refl. lia. }
        pose proof (owed_ge_completed _ _ v id d pr (mzi_pos _ _ HI) Ed Hf) as Hge.
        unfold coins_of in Hge. rewrite decide_True in Hge by done. lia.
    - exfalso. rewrite (surely b s id st HI) in Ec; [done| |].
      + destruct HPx as [_ HPx]. by eapply HPx.
      + intros d' pr' E'. congruence.
    - exfalso. rewrite (surely b s id st HI) in Ec; [done| |].
      + destruct HPx as [_ HPx]. by eapply HPx.
      + intros d' pr' E'. congruence. }
  split; [constructor; cbn [mz_j]|].
  - done.
  - rewrite Eq. apply HI.
  - intros w Hw. destruct (Hdue w) as [-> ->]. by apply HI.
  - split; [by eapply mjle_trans|]. cbn [mz_j]. split; [|split; [|split]].
    + intros v Hv. eapply mjpend_mono; [apply HJ|exact HL|]. apply A2. by right.
    + intros w Hw. destruct (A3 w Hw) as [H1 H2]. split; [done|]. destruct (Hdue w) as [-> ->].
      cbn [lsum] in H2. pose proof (sends_nonneg w (FromMult y)). lia.
    + intros v [H1 _]%mleft_alone_app Hs. destruct (A4 v H1 Hs) as (Hs1 & Hf & Hn).
      split; [by apply Hsolv|]. split.
      * apply Forall_app. split; [done|]. apply Forall_singleton. cbn [mfine].
        destruct y; try done. intros ->. by eapply Hfine.
      * intros to n Hx. apply (Hn to n). by right.
    + intros [H1 _]%mkept_app HQ. destruct (A5 H1 HQ) as (HQ1 & Hr & Hi & G).
      assert (forall r id st, y <> SCompleted r id st) as Hnc.
      { intros r id st ->. assert (r = mj_self (mz_j s)) as -> by (apply (Hr r id st); left).
        destruct (q_deposits (mj_q (mz_j s)) !! id) as [[o pr]|] eqn:Ed.
        - pose proof (mzq_recs _ _ HQ1 _ _ Ed) as Hco. cbn [fst in_coins] in Hco.
          destruct o as [d|].
          + destruct Hco as [v Hv].
            destruct (Hfine v _ id st eq_refl eq_refl (mzq_solv _ _ HQ1 v)) as (d' & pr' & E' & Hne).
            congruence.
          + destruct (Hfine 0%N _ id st eq_refl eq_refl (mzq_solv _ _ HQ1 0%N)) as (d' & pr' & E' & Hne).
            congruence.
        - destruct (Hfine 0%N _ id st eq_refl eq_refl (mzq_solv _ _ HQ1 0%N)) as (d' & pr' & E' & Hne).
          congruence. }
      assert (s_policy (mj_s j') = s_policy (mj_s (mz_j s)) /\ s_count (mj_s j') = s_count (mj_s (mz_j s)))
        as [Epol Ecount].
      { cbn [mjon_fail] in Ej. destruct (on_fail (mj_s (mz_j s)) b y) as [s1|] eqn:Eo; [|discriminate].
        injection Ej as <-. cbn [mj_s]. split; [by eapply fail_policy|].
        destruct (on_fail_shape _ _ _ _ Eo) as [(d & i & ms & p & -> & Hp & ->)|(_ & _ & _ & E3 & _)]; done. }
      pose proof (mjl_self _ _ HL) as Eself.
      split; [|split; [|split]].
      * destruct HQ1 as [Q1 Q2 Q3 Q4 Q5 Q6 Q7].
        constructor; cbn [mz_j]; rewrite ?Eq, ?Epol, ?Ecount, ?Eself; try done.
        intros v. by apply Hsolv.
      * intros r id st Hx. rewrite Eself. apply (Hr r id st). by right.
      * intros v Hv. apply Hi. by right.
      * intros id. specialize (G id). cbn [lsum] in G.
        assert (mjcompleted id (FromMult y) = 0) as E0.
        { destruct y; try done. by destruct (Hnc receiver id0 st). }
        unfold gap in *. cbn [mz_j]. unfold hd in *. rewrite Eq, Hfin.
        destruct (Hdue (RCompleted id)) as [_ ->]. lia.
Qed.
