(** Deposits of multiple-choice proposals are settled: statements over histories. *)
From Verif Require Import Base BaseProofs Exec ExecProofs ExecFrame VotingModel HooksModel PreModel
  PreSpec PreProofs PreJoint PreClaims SettleModel SettleSpec SettleOwed SettlePre.
From Verif Require Import MultModel MultSpec MultProofs MultLife PreMultModel PreMultSpec PreMultDone
  PreMultJoint PreMultClaims MSettleModel MSettleSpec MSettleMult MSettleProofs MSettleCalls.

Lemma munreturned_owed j x :
  coins_pos (mj_q j) -> munreturned j x <= owed (mj_paid j) (mj_q j) x.
Proof.
  intros [P1 P2 P3]. unfold owed.
  assert (munreturned j x = msum (o1 (mj_paid j) x) (q_deposits (mj_q j))) as ->.
  { unfold munreturned. apply msum_ext. intros id r _. unfold o1.
    assert (match paid_back j id with [] => false | _ => true end =
            was_paid (mj_paid j) (RCompleted id)) as <-; [|by destruct (paid_back j id)].
    unfold paid_back, was_paid. induction (mj_paid j) as [|p l IH]; [done|]. cbn [List.filter existsb].
    destruct (bool_decide _); [done|]. exact IH. }
  assert (0 <= msum (o2 x) (q_pending (mj_q j))) by (apply msum_nonneg; intros k v Hk; by eapply P2).
  assert (0 <= msum (o3 (mj_paid j) x) (q_completed (mj_q j))); [|lia].
  apply msum_nonneg. intros k v Hk. unfold o3. destruct (a_status v); try lia.
  destruct (was_paid (mj_paid j) (RRejected k)); [lia|by eapply P3].
Qed.

Lemma mzstart_inv O b0 s :
  mzstart O b0 s ->
  mzinv b0 s /\ (forall x, solv x s) /\ (forall id, gap s id = 0) /\
  (in_coins (q_deposit (mj_q (mz_j s))) -> mzq (s_count (mj_s (mz_j s))) s).
Proof.
  intros (l0 & pm & d & p & ap & HR & HQ & Hpol & Et & Epd & Hh).
  destruct s as [[self s q tk pd] h]. cbn [mz_j mz_held mj_s mj_q mj_self mj_taken mj_paid] in *. subst tk pd.
  destruct (start_mjinv O b0 s l0 q self pm d p ap HR HQ) as (HI & _ & _).
  assert (q_deposits q = ∅ /\ q_completed q = ∅ /\ q_pending q = ∅) as (E1 & E2 & E3).
  { clear -HQ. unfold pre_instantiate in HQ. destruct d as [d|]; simpl in HQ.
    - destruct (PreModel.into_checked d); [|discriminate].
      destruct (validate_submission p) as [[]|]; [|discriminate]. by injection HQ as <-.
    - destruct (validate_submission p) as [[]|]; [|discriminate]. by injection HQ as <-. }
  assert (forall x, solv x (MZState (MJState self s q [] []) h)) as Hs.
  { intros x. unfold solv, owed. cbn [mz_j mj_q mj_paid mz_held]. rewrite E1, E2, E3, !msum_empty.
    specialize (Hh (Native x)). lia. }
  split; [|split; [done|split]].
  - constructor; cbn [mz_j].
    + done.
    + constructor; cbn [mj_q]; rewrite ?E1, ?E2, ?E3; intros *; by rewrite lookup_empty.
    + intros w Hw. unfold cnt. cbn [mj_paid]. unfold count_why. cbn [lsum].
      destruct w as [id|i|]; cbn [due mj_s mj_q]; [|..|done].
      * pose proof (finished_range s id). lia.
      * pose proof (rejected_range q i). lia.
  - intros id. unfold gap, hd, cnt. cbn [mz_j mj_q mj_paid]. rewrite E1, lookup_empty.
    unfold count_why. cbn. lia.
  - intros Hc. constructor; cbn [mz_j mj_q mj_s mj_self]; rewrite ?E1, ?E3; try done.
    intros id. rewrite lookup_empty. split; [by intros [? ?]|lia].
Qed.

Lemma mzinv_time b b' s : block_le b b' -> mzinv b s -> mzinv b' s.
Proof. intros Hle [A B C]. constructor; eauto using mjinv_time. Qed.
Lemma mzreached_inv O b0 s0 b s l :
  mzreached O b0 s0 b s l -> mzinv b s /\ mzR (s_count (mj_s (mz_j s0))) s0 l s.
Proof.
  intros (HS & h & Hh & Hr & Hb). destruct (mzstart_inv O b0 s0 HS) as (HI & _).
  assert (mzinv (hist_end b0 h) s /\ mzR (s_count (mj_s (mz_j s0))) s0 l s) as [HI' HR].
  { refine (frame_hist (mzhandle O) mzon_fail mzon_ok mzinv (mzR (s_count (mj_s (mz_j s0))))
      (mzpend (s_count (mj_s (mz_j s0)))) _ _ _ _ _ _ _ h b0 s0 s l HI Hh Hr).
    - apply mzR_refl.
    - apply mzR_trans.
    - apply mzhandle_step.
    - intros *. apply mzfail_step.
    - intros b1 s1 l1 s2 x subs l2 s3 d s4 HI1 HP HI3 HR1 H. rewrite app_assoc.
      eapply (mzok_step O); [exact HI3| |exact H].
      exact (mzpend_frame _ b1 s1 l1 s2 (x :: subs) l2 s3 HI1 HI3 HP HR1).
    - apply mzpend_end.
    - apply mzinv_time. }
  split; [by eapply mzinv_time|done].
Qed.

(** * C130 *)
(** What the module owes in coins it holds, if the DAO takes none of them out. *)
Lemma c130_covered O b0 s0 b s l x :
  mzreached O b0 s0 b s l -> mleft_alone x l -> munreturned (mz_j s) x <= mz_held s (Native x).
Proof.
  intros HR Hl. destruct (mzreached_inv O b0 s0 b s l HR) as [HI (_ & _ & H & _)].
  destruct HR as [HS _]. destruct (mzstart_inv O b0 s0 HS) as (_ & Hs & _).
  destruct (H x Hl (Hs x)) as [Hsolv _].
  pose proof (munreturned_owed (mz_j s) x (mzi_pos _ _ HI)). unfold solv in Hsolv. lia.
Qed.
(** Then no completion hook fails, but for deposits in other tokens. *)
Lemma c130_never_fails O b0 s0 b s l x pre b' id st post :
  mzreached O b0 s0 b s l -> mleft_alone x l ->
  ESub pre b' (FromMult (SCompleted (mj_self (mz_j pre)) id st)) false post ∈ l ->
  exists d who, q_deposits (mj_q (mz_j pre)) !! id = Some (Some d, who) /\ d_denom d <> Native x.
Proof.
  intros HR Hl He. destruct (mzreached_inv O b0 s0 b s l HR) as [_ (_ & _ & H & _)].
  destruct HR as [HS _]. destruct (mzstart_inv O b0 s0 HS) as (_ & Hs & _).
  destruct (H x Hl (Hs x)) as [_ Hf]. rewrite Forall_forall in Hf.
  specialize (Hf _ He). cbn [mfine] in Hf. by apply Hf.
Qed.
(** If the DAO keeps the module, takes nothing out, and asks for coins, then the module stays. *)
Lemma c130_stays O b0 s0 b s l :
  mzreached O b0 s0 b s l -> in_coins (q_deposit (mj_q (mz_j s0))) -> mkept l ->
  s_policy (mj_s (mz_j s)) = Module (mj_self (mz_j s)).
Proof.
  intros HR Hc Hk. destruct (mzreached_inv O b0 s0 b s l HR) as [_ (_ & _ & _ & H)].
  destruct HR as [HS _]. destruct (mzstart_inv O b0 s0 HS) as (_ & _ & _ & HQ).
  by destruct (H Hk (HQ Hc)) as [[] _].
Qed.
(** Then every proposal made since has a record; its deposit was paid out once if the proposal has
    ended, to the right party, and not otherwise. *)
Lemma c130_settled O b0 s0 b s l id p :
  mzreached O b0 s0 b s l -> in_coins (q_deposit (mj_q (mz_j s0))) -> mkept l ->
  s_count (mj_s (mz_j s0)) < id -> s_props (mj_s (mz_j s)) !! id = Some p ->
  exists o who, q_deposits (mj_q (mz_j s)) !! id = Some (o, who) /\
    match o with
    | Some d =>
        (terminal (p_status p) -> exists to,
           paid_back (mz_j s) id = [Paid (RCompleted id) (d_denom d) to (d_amount d)] /\
           right_party (d_refund d) (p_status p) who (q_dao (mj_q (mz_j s))) to) /\
        (~ terminal (p_status p) -> paid_back (mz_j s) id = [])
    | None => paid_back (mz_j s) id = []
    end.
Proof.
  intros HR Hc Hk Hid Hp. destruct (mzreached_inv O b0 s0 b s l HR) as [HI (_ & _ & _ & H)].
  destruct HR as [HS _]. destruct (mzstart_inv O b0 s0 HS) as (_ & _ & G0 & HQ).
  destruct (H Hk (HQ Hc)) as [HQ' G]. specialize (G id). rewrite G0 in G. unfold gap, cnt in G.
  pose proof (proj1 (wi_ids _ _ (mji_w _ _ (mzi_j _ _ HI)) id) (mk_is_Some _ _ Hp)) as Hrange.
  destruct (proj2 (mzq_ids _ _ HQ' id) ltac:(lia)) as [[o who] Hd].
  exists o, who. split; [done|]. unfold hd in G. rewrite Hd in G.
  pose proof (paid_back_length (mz_j s) id) as HL.
  assert (forall n, n = 0 -> Z.of_nat (length (paid_back (mz_j s) id)) = n ->
    paid_back (mz_j s) id = []) as Hnil.
  { intros n -> E. destruct (paid_back _ _); [done|]. cbn [length] in E. lia. }
  destruct o as [d|]; cbn [has_deposit] in G.
  2:{ apply (Hnil _ eq_refl). lia. }
  split.
  - intros Ht. assert (finished (mj_s (mz_j s)) id = 1) as Hf by (apply finished_1; eauto).
    destruct (paid_back (mz_j s) id) as [|y [|y' t]] eqn:E; cbn [length] in HL; try lia.
    assert (y ∈ paid_back (mz_j s) id) as Hy by (rewrite E; left).
    unfold paid_back in Hy. apply filter_elem in Hy as [Hy Hw]. apply bool_decide_eq_true in Hw.
    pose proof (mji_paid _ _ (mzi_j _ _ HI) y Hy) as Hok. unfold mpaid_ok in Hok. rewrite Hw in Hok.
    destruct Hok as (d' & a & st & Hd' & (pr & Hpr & Hcm) & E1 & E2 & E3).
    rewrite Hd in Hd'. injection Hd' as <- <-. rewrite Hp in Hpr. injection Hpr as <-.
    exists (pd_to y). split.
    + destruct y as [w dn to n]. cbn [pd_why pd_denom pd_to pd_amount] in *. by subst.
    + rewrite E3. unfold right_party. destruct (d_refund d); cbn [should_refund]; try (by destruct st).
      destruct Hcm as [[-> [-> | ->]]|[[-> ->]|[-> ->]]]; cbn [should_refund]; eauto 10.
  - intros Ht. assert (finished (mj_s (mz_j s)) id = 0) as Hf.
    { pose proof (finished_range (mj_s (mz_j s)) id).
      destruct (Z.eq_dec (finished (mj_s (mz_j s)) id) 1) as [E|E]; [|lia].
      apply finished_1 in E as (p' & Hp' & Hterm). by rewrite Hp in Hp'; injection Hp' as <-. }
    apply (Hnil _ eq_refl). lia.
Qed.

(** A withdrawal by the DAO takes all the module holds, and nothing else. *)
Lemma c130_withdraw O s b v d dn r s' l :
  q_dao (mj_q (mz_j s)) <> mj_self (mz_j s) -> q_dao (mj_q (mz_j s)) <> q_module (mj_q (mz_j s)) ->
  (d = Some dn \/ d = None /\ exists c, q_deposit (mj_q (mz_j s)) = Some c /\ d_denom c = dn) ->
  0 < mz_held s dn ->
  run_hist (mzhandle O) mzon_fail mzon_ok s
    [(b, Call (q_dao (mj_q (mz_j s))) (MZPre [] v (MOther (PWithdraw d))) [Some (r, [])])] = (s', l) ->
  mz_held s' dn = 0 /\ (forall x, x <> dn -> mz_held s' x = mz_held s x) /\
  mj_paid (mz_j s') = mj_paid (mz_j s) ++ [Paid RWithdraw dn (q_dao (mj_q (mz_j s))) (mz_held s dn)].
Proof.
  intros Hself Hmod Hd H0 Hr. cbn in Hr.
  apply N.eqb_neq in Hself, Hmod. rewrite Hself in Hr. cbn in Hr. rewrite Hmod in Hr. cbn in Hr.
  unfold pre_withdraw in Hr. rewrite N.eqb_refl in Hr. cbn in Hr.
  assert (mz_held s dn =? 0 = false) as En by (apply Z.eqb_neq; lia).
  assert ((mz_held s dn <=? mz_held s dn) = true) as El by (apply Z.leb_le; lia).
  assert (mz_held s' = receive (mz_held s) dn (- mz_held s dn) /\
    mj_paid (mz_j s') = mj_paid (mz_j s) ++ [Paid RWithdraw dn (q_dao (mj_q (mz_j s))) (mz_held s dn)]) as [E Ep].
  { destruct Hd as [->|(-> & c & Ec & <-)]; [|rewrite Ec in Hr; cbn in Hr]; rewrite En in Hr; cbn in Hr;
      unfold mnew_paid in Hr; cbn in Hr; rewrite drop_app in Hr; cbn in Hr; unfold spend in Hr; rewrite El in Hr; cbn in Hr;
      injection Hr as <- <-; done. }
  rewrite E. unfold receive. split; [destruct (decide _); [lia|done]|]. split; [|done].
  intros x Hx. by destruct (decide _).
Qed.
