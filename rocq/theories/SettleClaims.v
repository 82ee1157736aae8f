(** Deposits are settled: statements over histories. *)
From Verif Require Import Base BaseProofs Exec ExecProofs ExecFrame VotingModel HooksModel SingleModel
  SingleSpec SingleProofs SingleLife PreModel PreSpec PreSingle PreProofs PreJoint PreClaims
  SettleModel SettleSpec SettleSingle SettleOwed SettleProofs SettleCalls.

Lemma zstart_inv O b0 s :
  zstart O b0 s ->
  zinv b0 s /\ (forall x, solv x s) /\ (forall id, gap s id = 0) /\
  (in_coins (q_deposit (j_q (z_j s))) -> zq (s_count (j_s (z_j s))) s).
Proof.
  intros (l0 & k & pm & d & p & ap & HR & HQ & Hpol & Et & Epd & Hh).
  destruct s as [[self s q tk pd] h]. cbn [z_j z_held j_s j_q j_self j_taken j_paid] in *. subst tk pd.
  destruct (start_jinv O b0 s l0 q self k pm d p ap HR HQ) as (HI & _ & _).
  assert (q_deposits q = ∅ /\ q_completed q = ∅ /\ q_pending q = ∅) as (E1 & E2 & E3).
  { clear -HQ. unfold pre_instantiate in HQ. destruct d as [d|]; simpl in HQ.
    - destruct (into_checked d); [|discriminate].
      destruct (validate_submission p) as [[]|]; [|discriminate]. by injection HQ as <-.
    - destruct (validate_submission p) as [[]|]; [|discriminate]. by injection HQ as <-. }
  assert (forall x, solv x (ZState (JState self s q [] []) h)) as Hs.
  { intros x. unfold solv, unreturned. cbn [z_j j_q z_held]. rewrite E1, E2, E3, !msum_empty.
    specialize (Hh (Native x)). lia. }
  split; [|split; [done|split]].
  - constructor; cbn [z_j].
    + done.
    + constructor; cbn [j_q]; rewrite ?E1, ?E2, ?E3; intros *; by rewrite lookup_empty.
    + intros w Hw. unfold cnt. cbn [j_paid]. unfold count_why. cbn [lsum].
      destruct w as [id|i|]; cbn [due j_s j_q]; [|..|done].
      * pose proof (finished_range s id). lia.
      * pose proof (rejected_range q i). lia.
  - intros id. unfold gap, hd, cnt. cbn [z_j j_q j_paid]. rewrite E1, lookup_empty.
    unfold count_why. cbn. lia.
  - intros Hc. constructor; cbn [z_j j_q j_s j_self]; rewrite ?E1, ?E3; try done.
    intros id. rewrite lookup_empty. split; [by intros [? ?]|lia].
Qed.

Lemma zinv_time b b' s : block_le b b' -> zinv b s -> zinv b' s.
Proof. intros Hle [A B C]. constructor; eauto using jinv_time. Qed.
Lemma zreached_inv O b0 s0 b s l :
  zreached O b0 s0 b s l -> zinv b s /\ zR (s_count (j_s (z_j s0))) s0 l s.
Proof.
  intros (HS & h & Hh & Hr & Hb). destruct (zstart_inv O b0 s0 HS) as (HI & _).
  assert (zinv (hist_end b0 h) s /\ zR (s_count (j_s (z_j s0))) s0 l s) as [HI' HR].
  { refine (frame_hist (zhandle O) zon_fail zon_ok zinv (zR (s_count (j_s (z_j s0))))
      (zpend (s_count (j_s (z_j s0)))) _ _ _ _ _ _ _ h b0 s0 s l HI Hh Hr).
    - apply zR_refl.
    - apply zR_trans.
    - apply zhandle_step.
    - intros *. apply zfail_step.
    - intros b1 s1 l1 s2 x subs l2 s3 d s4 HI1 HP HI3 HR1 H. rewrite app_assoc.
      eapply (zok_step O); [exact HI3| |exact H].
      exact (zpend_frame _ b1 s1 l1 s2 (x :: subs) l2 s3 HI1 HI3 HP HR1).
    - apply zpend_end.
    - apply zinv_time. }
  split; [by eapply zinv_time|done].
Qed.

(** * C129 *)
(** What the module owes in coins it holds, if the DAO takes none of them out. *)
Lemma c129_covered O b0 s0 b s l x :
  zreached O b0 s0 b s l -> left_alone x l -> unreturned (z_j s) x <= z_held s (Native x).
Proof.
  intros HR Hl. destruct (zreached_inv O b0 s0 b s l HR) as [_ (_ & _ & H & _)].
  destruct HR as [HS _]. destruct (zstart_inv O b0 s0 HS) as (_ & Hs & _).
  by apply (H x Hl (Hs x)).
Qed.
(** Then no completion hook fails, but for deposits in other tokens. *)
Lemma c129_never_fails O b0 s0 b s l x pre b' id st post :
  zreached O b0 s0 b s l -> left_alone x l ->
  ESub pre b' (FromSingle (SCompleted (j_self (z_j pre)) id st)) false post ∈ l ->
  exists d who, q_deposits (j_q (z_j pre)) !! id = Some (Some d, who) /\ d_denom d <> Native x.
Proof.
  intros HR Hl He. destruct (zreached_inv O b0 s0 b s l HR) as [_ (_ & _ & H & _)].
  destruct HR as [HS _]. destruct (zstart_inv O b0 s0 HS) as (_ & Hs & _).
  destruct (H x Hl (Hs x)) as [_ Hf]. rewrite Forall_forall in Hf.
  specialize (Hf _ He). cbn [fine] in Hf. by apply Hf.
Qed.
(** If the DAO keeps the module, takes nothing out, and asks for coins, then the module stays. *)
Lemma c129_stays O b0 s0 b s l :
  zreached O b0 s0 b s l -> in_coins (q_deposit (j_q (z_j s0))) -> kept l ->
  s_policy (j_s (z_j s)) = Module (j_self (z_j s)).
Proof.
  intros HR Hc Hk. destruct (zreached_inv O b0 s0 b s l HR) as [_ (_ & _ & _ & H)].
  destruct HR as [HS _]. destruct (zstart_inv O b0 s0 HS) as (_ & _ & _ & HQ).
  by destruct (H Hk (HQ Hc)) as [[] _].
Qed.
(** Then every proposal made since has a record; its deposit was paid out once if the proposal has
    ended, to the right party, and not otherwise. *)
Lemma c129_settled O b0 s0 b s l id p :
  zreached O b0 s0 b s l -> in_coins (q_deposit (j_q (z_j s0))) -> kept l ->
  s_count (j_s (z_j s0)) < id -> s_props (j_s (z_j s)) !! id = Some p ->
  exists o who, q_deposits (j_q (z_j s)) !! id = Some (o, who) /\
    match o with
    | Some d =>
        (terminal (p_status p) -> exists to,
           paid_for (z_j s) (RCompleted id) = [Paid (RCompleted id) (d_denom d) to (d_amount d)] /\
           right_party (d_refund d) (p_status p) who (q_dao (j_q (z_j s))) to) /\
        (~ terminal (p_status p) -> paid_for (z_j s) (RCompleted id) = [])
    | None => paid_for (z_j s) (RCompleted id) = []
    end.
Proof.
  intros HR Hc Hk Hid Hp. destruct (zreached_inv O b0 s0 b s l HR) as [HI (_ & _ & _ & H)].
  destruct HR as [HS _]. destruct (zstart_inv O b0 s0 HS) as (_ & _ & G0 & HQ).
  destruct (H Hk (HQ Hc)) as [HQ' G]. specialize (G id). rewrite G0 in G. unfold gap, cnt in G.
  pose proof (proj1 (wi_ids _ _ (ji_w _ _ (zi_j _ _ HI)) id) (mk_is_Some _ _ Hp)) as Hrange.
  destruct (proj2 (zq_ids _ _ HQ' id) ltac:(lia)) as [[o who] Hd].
  exists o, who. split; [done|]. unfold hd in G. rewrite Hd in G.
  pose proof (paid_for_length (z_j s) (RCompleted id)) as HL.
  assert (forall n, n = 0 -> Z.of_nat (length (paid_for (z_j s) (RCompleted id))) = n ->
    paid_for (z_j s) (RCompleted id) = []) as Hnil.
  { intros n -> E. destruct (paid_for _ _); [done|]. cbn [length] in E. lia. }
  destruct o as [d|]; cbn [has_deposit] in G.
  2:{ apply (Hnil _ eq_refl). lia. }
  split.
  - intros Ht. assert (finished (j_s (z_j s)) id = 1) as Hf by (apply finished_1; eauto).
    destruct (paid_for (z_j s) (RCompleted id)) as [|y [|y' t]] eqn:E; cbn [length] in HL; try lia.
    assert (y ∈ paid_for (z_j s) (RCompleted id)) as Hy by (rewrite E; left).
    unfold paid_for in Hy. apply filter_elem in Hy as [Hy Hw]. apply bool_decide_eq_true in Hw.
    pose proof (ji_paid _ _ (zi_j _ _ HI) y Hy) as Hok. unfold paid_ok in Hok. rewrite Hw in Hok.
    destruct Hok as (d' & a & st & Hd' & (pr & Hpr & Hcm) & E1 & E2 & E3).
    rewrite Hd in Hd'. injection Hd' as <- <-. rewrite Hp in Hpr. injection Hpr as <-.
    exists (pd_to y). split.
    + destruct y as [w dn to n]. cbn [pd_why pd_denom pd_to pd_amount] in *. by subst.
    + rewrite E3. unfold right_party. destruct (d_refund d); cbn [should_refund]; try (by destruct st).
      destruct Hcm as [[-> [-> | ->]]|[[-> ->]|[-> ->]]]; cbn [should_refund]; eauto 10.
  - intros Ht. assert (finished (j_s (z_j s)) id = 0) as Hf.
    { pose proof (finished_range (j_s (z_j s)) id).
      destruct (Z.eq_dec (finished (j_s (z_j s)) id) 1) as [E|E]; [|lia].
      apply finished_1 in E as (p' & Hp' & Hterm). by rewrite Hp in Hp'; injection Hp' as <-. }
    apply (Hnil _ eq_refl). lia.
Qed.

(** A withdrawal by the DAO takes all the module holds, and nothing else. *)
Lemma c129_withdraw O s b v d dn r s' l :
  q_dao (j_q (z_j s)) <> j_self (z_j s) -> q_dao (j_q (z_j s)) <> q_module (j_q (z_j s)) ->
  (d = Some dn \/ d = None /\ exists c, q_deposit (j_q (z_j s)) = Some c /\ d_denom c = dn) ->
  0 < z_held s dn ->
  run_hist (zhandle O) zon_fail zon_ok s
    [(b, Call (q_dao (j_q (z_j s))) (ZPre [] v (PWithdraw d)) [Some (r, [])])] = (s', l) ->
  z_held s' dn = 0 /\ (forall x, x <> dn -> z_held s' x = z_held s x) /\
  j_paid (z_j s') = j_paid (z_j s) ++ [Paid RWithdraw dn (q_dao (j_q (z_j s))) (z_held s dn)].
Proof.
  intros Hself Hmod Hd H0 Hr. cbn in Hr.
  apply N.eqb_neq in Hself, Hmod. rewrite Hself in Hr. cbn in Hr. rewrite Hmod in Hr. cbn in Hr.
  unfold pre_withdraw in Hr. rewrite N.eqb_refl in Hr. cbn in Hr.
  assert (z_held s dn =? 0 = false) as En by (apply Z.eqb_neq; lia).
  assert ((z_held s dn <=? z_held s dn) = true) as El by (apply Z.leb_le; lia).
  assert (z_held s' = receive (z_held s) dn (- z_held s dn) /\
    j_paid (z_j s') = j_paid (z_j s) ++ [Paid RWithdraw dn (q_dao (j_q (z_j s))) (z_held s dn)]) as [E Ep].
  { destruct Hd as [->|(-> & c & Ec & <-)]; [|rewrite Ec in Hr; cbn in Hr]; rewrite En in Hr; cbn in Hr;
      unfold new_paid in Hr; cbn in Hr; rewrite drop_app in Hr; cbn in Hr; unfold spend in Hr; rewrite El in Hr; cbn in Hr;
      injection Hr as <- <-; done. }
  rewrite E. unfold receive. split; [destruct (decide _); [lia|done]|]. split; [|done].
  intros x Hx. by destruct (decide _).
Qed.
