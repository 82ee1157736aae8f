(** Statements about pre-propose modules of multiple-choice proposals, proved from the
    joint invariants. *)
From Verif Require Import Base BaseProofs Exec ExecProofs VotingModel HooksModel PreModel
  PreSpec PreProofs PreJoint.
From Verif Require PreClaims.
From Verif Require Import MultModel MultSpec MultProofs MultLife MultFinal PreMultModel
  PreMultSpec PreMultDone PreMultJoint.

Lemma start_mjinv O b s l q self pm d p approver :
  reached O b s l -> pre_instantiate Plain pm (c_dao (s_cfg s)) d p approver = Ok q ->
  mjinv b (MJState self s q [] []) /\
  (forall k, mgap_taken k (MJState self s q [] []) = 0) /\
  (forall i, mgap_reject i (MJState self s q [] []) = 0).
Proof.
  intros HR HQ. pose proof (PreClaims.start_qinv _ _ _ _ _ _ _ HQ) as Hq.
  assert (q_deposits q = ∅ /\ q_completed q = ∅ /\ q_pending q = ∅ /\ q_kind q = Plain)
    as (E1 & E2 & E3 & E4).
  { unfold pre_instantiate in HQ. destruct d as [d|]; simpl in HQ.
    - destruct (PreModel.into_checked d); [|discriminate].
      destruct (validate_submission p) as [[]|]; [|discriminate]. by injection HQ as <-.
    - destruct (validate_submission p) as [[]|]; [|discriminate]. by injection HQ as <-. }
  split; [|split].
  - constructor; simpl.
    + by eapply reached_winv.
    + done.
    + done.
    + intros id. rewrite E1, lookup_empty. by intros [? ?].
    + intros t Ht. by apply elem_of_nil in Ht.
    + intros t Ht. by apply elem_of_nil in Ht.
  - intros k'. unfold mgap_taken. simpl. unfold count_key. simpl. unfold rec, submission_of.
    destruct k'; rewrite ?E1, ?E2, ?E3, ?lookup_empty; [by destruct (q_kind q)|done].
  - intros i. unfold mgap_reject, rejected_deposit. simpl. by rewrite E2, lookup_empty.
Qed.

Lemma mjinv_time b b' j : block_le b b' -> mjinv b j -> mjinv b' j.
Proof. intros Hle [A B C D E F]. constructor; eauto using winv_time. Qed.

Lemma mjreached_inv O b j l :
  mjreached O b j l ->
  mjinv b j /\ (forall k, mgap_taken k j = 0) /\ (forall i, mgap_reject i j = 0) /\
  (forall id, count_why (RCompleted id) (mj_paid j) <= finished (mj_s j) id).
Proof.
  intros (b0 & s0 & l0 & self & pm & d & p & ap & q0 & h & HR & HQ & Hh & Hr & Hb).
  destruct (start_mjinv O b0 s0 l0 q0 self pm d p ap HR HQ) as (HI & HT & HJ).
  destruct (joint_trace O b0 _ h j l HI Hh Hr) as [HI' _].
  split; [by eapply mjinv_time|]. split; [|split].
  - intros k'. rewrite (mgap_taken_const O b0 _ h j l k' HI Hh Hr). apply HT.
  - intros i. rewrite (mgap_reject_const O b0 _ h j l i HI Hh Hr). apply HJ.
  - intros id. pose proof (completed_once O b0 _ h j l id HI Hh Hr) as H. simpl in H.
    pose proof (finished_range s0 id). unfold count_why in H at 2. simpl in H. lia.
Qed.

Lemma mjlater_trace O b j b' j' l :
  mjinv b j -> mjlater O b j b' j' l -> mjinv b' j' /\ mjtrace O b j l b' j'.
Proof.
  intros HI (h & Hh & Hr & Hb).
  destruct (joint_trace O b j h j' l HI Hh Hr) as [A B].
  split; [by eapply mjinv_time|].
  rewrite <- (app_nil_r l). eapply trace_app; [exact B|]. by constructor.
Qed.
Lemma mjreached_trace O b j l :
  mjreached O b j l -> exists b0 j0, mjtrace O b0 j0 l b j.
Proof.
  intros (b0 & s0 & l0 & self & pm & d & p & ap & q0 & h & HR & HQ & Hh & Hr & Hb).
  destruct (start_mjinv O b0 s0 l0 q0 self pm d p ap HR HQ) as (HI & _).
  exists b0, (MJState self s0 q0 [] []).
  apply (mjlater_trace O b0 _ b j l HI). by exists h.
Qed.
Lemma mjreached_legit O b j l e :
  mjreached O b j l -> e ∈ l -> legit (mjhandle O) mjon_fail mjon_ok any_msg mjinv mjpend e.
Proof.
  intros HR He. destruct (mjreached_trace O b j l HR) as (b0 & j0 & Ht).
  apply trace_forall in Ht. rewrite Forall_forall in Ht. by apply Ht.
Qed.

Definition paid_le (j j' : mjstate) : Prop := exists l, mj_paid j' = mj_paid j ++ l.
Definition taken_le (j j' : mjstate) : Prop := exists l, mj_taken j' = mj_taken j ++ l.
Definition grows (j j' : mjstate) : Prop := mjle j j' /\ paid_le j j'.
Lemma grows_refl j : grows j j.
Proof. split; [apply mjle_refl|]. exists []. by rewrite app_nil_r. Qed.
Lemma grows_trans a b c : grows a b -> grows b c -> grows a c.
Proof.
  intros [A [l1 E1]] [B [l2 E2]]. split; [by eapply mjle_trans|].
  exists (l1 ++ l2). by rewrite E2, E1, app_assoc.
Qed.
Lemma mjon_ok_paid j b x d j' : mjon_ok j b x d = Ok j' -> paid_le j j'.
Proof.
  destruct x as [x|x]; simpl.
  - destruct (on_ok (mj_s j) b x d) as [s'|]; [|discriminate].
    destruct x as [| | |r id st|]; try (intros [= <-]; exists []; by rewrite app_nil_r).
    destruct (r =? mj_self j)%N; [|intros [= <-]; exists []; by rewrite app_nil_r].
    destruct (pre_completed _ _ _ _) as [[q' subs]|]; [|discriminate].
    intros [= <-]. by eexists.
  - destruct x; intros [= <-]; try (exists []; by rewrite app_nil_r). by eexists.
Qed.
Lemma legit_grows O e :
  legit (mjhandle O) mjon_fail mjon_ok any_msg mjinv mjpend e -> grows (ev_pre e) (ev_post e).
Proof.
  intros (HI & _ & He). destruct e as [pre b a m post subs|pre b x ok post].
  - destruct He as [_ He]. destruct (mjhandle_step O b pre a m post subs HI He).
    split; [done|]. exists []. simpl. by rewrite app_nil_r.
  - destruct ok.
    + destruct He as [HP [d He]].
      destruct (mjok_step O b pre x d post HI HP He) as (_ & A & _).
      split; [done|]. by eapply mjon_ok_paid.
    + destruct He as [HP He].
      destruct (mjfail_step b pre x post HI HP He) as (_ & A & _ & _ & _ & Ep & _).
      split; [done|]. exists []. simpl. by rewrite app_nil_r.
Qed.
Lemma trace_grows O b0 j l b1 j' : mjtrace O b0 j l b1 j' -> grows j j'.
Proof.
  induction 1 as [b0 b1 s Hle|b0 s e l b1 s' Hle Hpre Hleg Htr IH]; [apply grows_refl|].
  subst s. eapply grows_trans; [by eapply legit_grows|done].
Qed.
Lemma mjreached_after O b j l e :
  mjreached O b j l -> e ∈ l ->
  legit (mjhandle O) mjon_fail mjon_ok any_msg mjinv mjpend e /\ grows (ev_post e) j.
Proof.
  intros HR He. split; [by eapply mjreached_legit|].
  destruct (mjreached_trace O b j l HR) as (b0 & j0 & Ht).
  apply elem_of_list_split in He as (l1 & l2 & ->).
  apply trace_split in Ht as (bm & jm & _ & Ht). inversion Ht; subst.
  by eapply trace_grows.
Qed.

(** ** Counting *)
Lemma paid_back_length j id :
  Z.of_nat (length (paid_back j id)) = count_why (RCompleted id) (mj_paid j).
Proof.
  unfold paid_back, count_why. rewrite <- PreClaims.length_count_eq. apply lsum_ext. intros p _.
  destruct (decide _), (bool_decide _) eqn:E; try done.
  - by apply bool_decide_eq_false in E.
  - by apply bool_decide_eq_true in E.
Qed.
Lemma deposited_length j id :
  Z.of_nat (length (deposited j id)) = count_key (KProp id) (mj_taken j).
Proof.
  unfold deposited, count_key. rewrite <- PreClaims.length_count_eq. apply lsum_ext. intros p _.
  destruct (decide _), (bool_decide _) eqn:E; try done.
  - by apply bool_decide_eq_false in E.
  - by apply bool_decide_eq_true in E.
Qed.

(** What was taken for a proposal is what is recorded for it. *)
Lemma deposited_exact O b j l id :
  mjreached O b j l ->
  deposited j id = match q_deposits (mj_q j) !! id with
                   | Some (Some d, a) => [Taken (KProp id) (d_denom d) a (d_amount d)]
                   | _ => []
                   end.
Proof.
  intros HR. destruct (mjreached_inv O b j l HR) as (HI & HT & _).
  specialize (HT (KProp id)). unfold mgap_taken in HT. pose proof (deposited_length j id) as HL.
  assert (rec (mj_q j) (KProp id) = q_deposits (mj_q j) !! id) as Erec
    by (simpl; by rewrite (mji_kind _ _ HI)).
  rewrite Erec in HT.
  assert (forall t, t ∈ deposited j id -> exists d a, q_deposits (mj_q j) !! id = Some (Some d, a) /\
            t = Taken (KProp id) (d_denom d) a (d_amount d)) as Hin.
  { intros t Ht. unfold deposited in Ht. apply filter_elem in Ht as [Ht Hk].
    apply bool_decide_eq_true in Hk. destruct (mji_taken _ _ HI t Ht) as (d & a & H1 & H2).
    rewrite Hk in H1, H2. rewrite Erec in H1. eauto. }
  destruct (q_deposits (mj_q j) !! id) as [[[d|] a]|] eqn:E; simpl in HT.
  - destruct (deposited j id) as [|t [|t' tl]] eqn:Et; simpl in HL; try lia.
    destruct (Hin t ltac:(left)) as (d' & a' & [= <- <-] & ->). done.
  - destruct (deposited j id); simpl in HL; [done|lia].
  - destruct (deposited j id); simpl in HL; [done|lia].
Qed.

(** * C113 *)
Lemma c113_once O b j l id :
  mjreached O b j l -> (length (paid_back j id) <= 1)%nat.
Proof.
  intros HR. destruct (mjreached_inv O b j l HR) as (HI & _ & _ & HC).
  pose proof (paid_back_length j id). pose proof (HC id). pose proof (finished_range (mj_s j) id).
  lia.
Qed.

Lemma c113_right_party O b j l p id :
  mjreached O b j l -> p ∈ paid_back j id ->
  exists d a st,
    q_deposits (mj_q j) !! id = Some (Some d, a) /\
    deposited j id = [Taken (KProp id) (pd_denom p) a (pd_amount p)] /\
    pd_denom p = d_denom d /\ pd_amount p = d_amount d /\
    status_of (mj_s j) id = Some st /\
    right_party (d_refund d) st a (q_dao (mj_q j)) (pd_to p).
Proof.
  intros HR Hp. unfold paid_back in Hp. apply filter_elem in Hp as [Hp Hw].
  apply bool_decide_eq_true in Hw. destruct (mjreached_inv O b j l HR) as (HI & _).
  pose proof (mji_paid _ _ HI p Hp) as H. unfold mpaid_ok in H. rewrite Hw in H.
  destruct H as (d & a & st & Hd & (pr & Hpr & Hc) & E1 & E2 & E3).
  exists d, a, (p_status pr). split; [done|]. split.
  { rewrite (deposited_exact O b j l id HR), Hd, E1, E2. done. }
  split; [done|]. split; [done|]. split; [unfold status_of; by rewrite Hpr|].
  rewrite E3. unfold right_party. destruct (d_refund d); simpl; try (by destruct st).
  destruct Hc as [[-> [-> | ->]]|[[-> ->]|[-> ->]]]; simpl; eauto 10.
Qed.
(** Nothing else leaves the module. *)
Lemma c113_only O b j l p :
  mjreached O b j l -> p ∈ mj_paid j ->
  (exists id, p ∈ paid_back j id) \/ (pd_why p = RWithdraw /\ pd_to p = q_dao (mj_q j)).
Proof.
  intros HR Hp. destruct (mjreached_inv O b j l HR) as (HI & _ & _ & _).
  pose proof (mji_paid _ _ HI p Hp) as H. unfold mpaid_ok in H.
  destruct (pd_why p) as [id|i|] eqn:Ew; [| |by right].
  - left. exists id. unfold paid_back. apply filter_elem. split; [done|]. by rewrite bool_decide_eq_true.
  - destruct H as (r & d & Hr & _). exfalso.
    destruct (qi_plain _ (mji_q _ _ HI) (mji_kind _ _ HI)) as (_ & Ec & _).
    by rewrite Ec, lookup_empty in Hr.
Qed.
(** A completion the module handled without error was paid out. *)
Lemma c113_paid O b j l pre b' id st post d a :
  mjreached O b j l ->
  ESub pre b' (FromMult (SCompleted (mj_self pre) id st)) true post ∈ l ->
  q_deposits (mj_q pre) !! id = Some (Some d, a) ->
  length (paid_back j id) = 1%nat.
Proof.
  intros HR He Hd. destruct (mjreached_inv O b j l HR) as (_ & _ & _ & HC).
  destruct (mjreached_after O b j l _ HR He) as ((HI & _ & HP & (r & Hok)) & [_ [pl Ep]]).
  cbn [ev_pre ev_post ev_block] in *.
  enough (1 <= count_why (RCompleted id) (mj_paid post)) as Hge.
  { pose proof (paid_back_length j id) as HL. rewrite Ep, count_why_app in HL.
    pose proof (HC id) as Hup. rewrite Ep, count_why_app in Hup.
    pose proof (finished_range (mj_s j) id).
    assert (0 <= count_why (RCompleted id) pl)
      by (unfold count_why; apply lsum_nonneg; intros; destruct (decide _); lia).
    lia. }
  cbn [mjon_ok] in Hok. destruct (on_ok (mj_s pre) b' _ r) as [s'|]; [|discriminate].
  rewrite N.eqb_refl in Hok. cbn [pre_handle] in Hok.
  unfold pre_completed in Hok. rewrite N.eqb_refl in Hok. cbn [negb] in Hok.
  destruct (bool_decide _); [|discriminate]. rewrite Hd in Hok. injection Hok as <-.
  cbn [mj_paid]. rewrite count_why_app. unfold return_messages.
  pose proof (qi_deposits _ (mji_q _ _ HI) id _ _ Hd) as Hnz. simpl in Hnz.
  destruct (d_amount d =? 0) eqn:E0; [lia|].
  assert (0 <= count_why (RCompleted id) (mj_paid pre))
    by (unfold count_why; apply lsum_nonneg; intros; destruct (decide _); lia).
  unfold count_why at 2. simpl. destruct (decide _); [lia|done].
Qed.

(** * C114 *)
(** Every committed submission: the configured deposit has arrived by the end of
    its transaction (here: in any later state between transactions), and it is
    recorded with its payer. *)
Lemma c114_taken O b j l pre b' a e pm post subs :
  mjreached O b j l -> ECall pre b' a (MPre e (MPropose pm)) post subs ∈ l ->
  let id := s_count (mj_s pre) + 1 in
  deposited j id = match q_deposit (mj_q pre) with
                   | Some d => [Taken (KProp id) (d_denom d) a (d_amount d)]
                   | None => []
                   end /\
  q_deposits (mj_q j) !! id = Some (q_deposit (mj_q pre), a) /\
  match q_deposit (mj_q pre) with
  | Some (Deposit (Native x) n _) => e_funds e = [(x, n)]
  | _ => True
  end.
Proof.
  intros HR He id.
  destruct (mjreached_after O b j l _ HR He) as ((HI & HI' & _ & Hok) & [HL _]).
  cbn [ev_pre ev_post ev_block] in *.
  destruct (mjpre_inv O b' pre a e _ post subs HI Hok)
    as (Ha & m' & q' & xs & Em & Hh & Eq & _). injection Em as <-.
  simpl in Hh. rewrite (mji_kind _ _ HI) in Hh.
  apply pre_propose_shape in Hh as (takes & _ & Hd & -> & _); [|apply HI].
  assert (q_deposits (mj_q j) !! id = Some (q_deposit (mj_q pre), a)) as Hrec.
  { apply (ql_deposits _ _ (mjl_q _ _ HL)). rewrite Eq. simpl. by rewrite lookup_insert. }
  split; [|split; [done|]].
  - rewrite (deposited_exact O b j l id HR), Hrec. by destruct (q_deposit (mj_q pre)).
  - apply deposit_part_ok in Hd; [|apply HI].
    destruct (q_deposit (mj_q pre)) as [[[x|t] n r]|]; [|done..].
    destruct Hd as [(x' & Ex & Ef & _)|(t & Et & _)]; simpl in *; congruence.
Qed.

(** The proposal it made has the sender as its proposer and the options sent,
    in order, and "none of the above" after them. *)
Lemma propose_created O s b a pm s' subs :
  handle O s b a (Propose pm) = Ok (s', subs) ->
  exists p proposer cs, s_props s' !! (s_count s + 1) = Some p /\
    into_checked (pm_options pm) = Ok cs /\ p_choices p = cs /\ p_proposer p = proposer /\
    decide_proposer (s_policy s) a (pm_proposer pm) = Ok proposer.
Proof.
  simpl. intros H. apply execute_propose_shape in H
    as (proposer & st & s1 & subs2 & cs & _ & Hdp & _ & _ & Hc & Hst & -> & -> & Hv).
  destruct (pm_vote pm) as [[v r]|].
  - apply execute_vote_shape in Hv as (p & votes1 & st2 & Hp & _ & _ & _ & _ & _ & -> & _).
    simpl in Hp. rewrite lookup_insert in Hp. injection Hp as <-.
    simpl. rewrite lookup_insert. eexists _, proposer, cs. split; [reflexivity|]. done.
  - destruct Hv as [-> _]. simpl. rewrite lookup_insert. eexists _, proposer, cs.
    split; [reflexivity|]. done.
Qed.
Lemma imap_msgs (l : list (list Z)) : forall k,
  map ch_msgs (imap (fun i ms => Choice (k + i) false ms) l) = l.
Proof.
  induction l as [|x l IH]; intros k; simpl; [done|]. f_equal.
  rewrite <- (IH (S k)) at 2. f_equal. apply imap_ext. intros i y _. simpl. f_equal. lia.
Qed.
Lemma c114_created O b j l pre b' a e pm post subs :
  mjreached O b j l -> ECall pre b' a (MPre e (MPropose pm)) post subs ∈ l ->
  exists p, s_props (mj_s post) !! (s_count (mj_s pre) + 1) = Some p /\
    s_count (mj_s post) = s_count (mj_s pre) + 1 /\
    p_proposer p = a /\ map ch_msgs (p_choices p) = pm_options pm ++ [[]].
Proof.
  intros HR He.
  destruct (mjreached_after O b j l _ HR He) as ((HI & HI' & _ & Hok) & _).
  cbn [ev_pre ev_post ev_block] in *.
  destruct (mjpre_inv O b' pre a e _ post subs HI Hok)
    as (Ha & m' & q' & xs & Em & Hh & Eq & _ & _ & _ & Hcase).
  destruct Hcase as [(pm1 & pm0 & rest & ssubs & [= <-] & -> & Hp & _)|[Hno _]];
    [|by destruct (Hno pm)].
  pose proof (propose_counts _ _ _ _ _ _ _ Hp) as Hcount.
  apply propose_created in Hp as (p & pr & cs & Hp & Hc & Ecs & Epr & Hdp).
  exists p. split; [done|]. split; [done|]. simpl in Hdp. split.
  - destruct (s_policy (mj_s pre)); simpl in Hdp; congruence.
  - rewrite Ecs. simpl in Hc. unfold into_checked in Hc. destruct (_ && _); [|discriminate].
    injection Hc as <-. rewrite map_app. simpl. f_equal. apply (imap_msgs _ 0%nat).
Qed.

(** No proposal without full payment: wrong coins are refused, and so is a cw20
    deposit that cannot be moved. *)
Lemma c114_wrong_coins O b0 j l b a e pm outs d x :
  mjreached O b0 j l ->
  q_deposit (mj_q j) = Some d -> d_denom d = Native x -> e_funds e <> [(x, d_amount d)] ->
  is_ok (mjcall O b j (Call a (MPre e (MPropose pm)) outs)) = false.
Proof.
  intros HR Hd Hx Hf. rewrite run_call_unfold.
  destruct (mjreached_inv O b0 j l HR) as (HI & _).
  destruct (mjhandle O j b a (MPre e (MPropose pm))) as [[j' subs]|] eqn:E; [|done]. exfalso.
  cbn [mjhandle] in E. destruct (a =? _)%N; [discriminate|]. cbn [negb to_base] in E.
  destruct (pre_handle _ _ _ _) as [[q' xs]|] eqn:Hh; [|discriminate]. clear E.
  simpl in Hh. rewrite (mji_kind _ _ HI) in Hh.
  assert (check_native_deposit_paid d (e_funds e) = Ok tt) as Hc.
  { destruct (check_native_deposit_paid d (e_funds e)) as [[]|] eqn:Ec; [done|]. exfalso.
    unfold pre_propose, deposit_part in Hh. destruct (check_can_submit _ _ _); [|discriminate].
    rewrite Hd in Hh. simpl in Hh. by rewrite Ec in Hh. }
  by apply (native_paid d (e_funds e) x) in Hc.
Qed.
Lemma c114_failed_transfer O b j l pre b' x ok post :
  mjreached O b j l -> ESub pre b' (FromBase x) ok post ∈ l -> ok = true.
Proof.
  intros HR He. apply (mjreached_legit O b j l _ HR) in He as (_ & _ & He).
  destruct ok; [done|]. destruct He as [_ He]. done.
Qed.
(** What is recorded does not change. *)
Lemma c114_stable O b j l b' j' l' id r :
  mjreached O b j l -> mjlater O b j b' j' l' ->
  q_deposits (mj_q j) !! id = Some r -> q_deposits (mj_q j') !! id = Some r.
Proof.
  intros HR HL. destruct (mjreached_inv O b j l HR) as (HI & _).
  destruct (mjlater_trace O b j b' j' l' HI HL) as [HI' Ht].
  apply trace_grows in Ht as [HG _]. apply (mjl_q _ _ HG).
Qed.

Lemma c114_checked O b j l pre b' a e pm post subs :
  mjreached O b j l -> ECall pre b' a (MPre e (MPropose pm)) post subs ∈ l ->
  may_submit (q_policy (mj_q pre)) a (e_power e) /\ ~ denied (q_policy (mj_q pre)) a.
Proof.
  intros HR He. apply (mjreached_legit O b j l _ HR) in He as (HI & _ & _ & Hok).
  cbn [ev_pre ev_post ev_block] in *.
  destruct (mjpre_inv O b' pre a e _ post subs HI Hok)
    as (_ & m' & q' & xs & Em & Hh & _). injection Em as <-.
  simpl in Hh. rewrite (mji_kind _ _ HI) in Hh.
  apply pre_propose_shape in Hh as (takes & Hm & _); [|apply HI].
  split; [done|]. destruct (q_policy (mj_q pre)); simpl in *; tauto.
Qed.
(** In every reachable state the lists are disjoint and somebody can submit. *)
Lemma c114_usable O b j l :
  mjreached O b j l ->
  (forall a, a ∈ allowed_list (q_policy (mj_q j)) -> ~ denied (q_policy (mj_q j)) a) /\
  (exists who power, may_submit (q_policy (mj_q j)) who power) /\
  (forall a, denied (q_policy (mj_q j)) a -> forall power, ~ may_submit (q_policy (mj_q j)) a power).
Proof.
  intros HR. destruct (mjreached_inv O b j l HR) as (HI & _).
  pose proof (qi_policy _ (mji_q _ _ HI)) as Hv. apply validate_submission_iff in Hv.
  destruct (q_policy (mj_q j)) as [deny|members allow deny]; simpl.
  - split; [intros a Ha; by apply elem_of_nil in Ha|]. split; [|tauto].
    exists (stdpp.base.fresh deny), 0. apply infinite_is_fresh.
  - destruct Hv as [Hdis Hsome]. split; [intros a Ha Hd; by eapply Hdis|]. split; [|tauto].
    destruct Hsome as [->|Hne].
    + exists (stdpp.base.fresh deny), 1. split; [apply infinite_is_fresh|]. right. done.
    + destruct allow as [|x allow]; [done|]. exists x, 0. split; [|left; left].
      intros Hd. apply (Hdis x); [left|done].
Qed.
(** Only the DAO changes the policy. *)
Lemma c114_only_dao O b j l pre b' a m post subs :
  mjreached O b j l -> ECall pre b' a m post subs ∈ l ->
  q_policy (mj_q post) <> q_policy (mj_q pre) \/ q_deposit (mj_q post) <> q_deposit (mj_q pre) ->
  a = q_dao (mj_q pre) /\
  exists e, (exists d p, m = MPre e (MOther (PUpdateConfig d p))) \/
            (exists da dr mem aa ar, m = MPre e (MOther (PUpdatePolicy da dr mem aa ar))).
Proof.
  intros HR He Hne. apply (mjreached_legit O b j l _ HR) in He as (HI & _ & _ & Hok).
  cbn [ev_pre ev_post ev_block] in *.
  destruct m as [m|e m].
  { cbn [mjhandle] in Hok. destruct (handle O (mj_s pre) b' a m) as [[s' ss]|]; [|discriminate].
    injection Hok as <- <-. by destruct Hne. }
  destruct (mjpre_inv O b' pre a e _ post subs HI Hok) as (_ & m' & q' & xs & Em & Hh & Eq & _).
  rewrite Eq in Hne. clear Eq Hok.
  destruct m as [pm|m].
  { injection Em as <-. simpl in Hh. rewrite (mji_kind _ _ HI) in Hh.
    apply pre_propose_shape in Hh as (takes & _ & _ & -> & _); [|apply HI]. by destruct Hne. }
  apply to_base_other in Em as [-> Hpm].
  pose proof (mji_kind _ _ HI) as Hk.
  destruct m; simpl in Hh; try discriminate; try (rewrite Hk in Hh; discriminate).
  - unfold pre_update_config in Hh. destruct (a =? q_dao _)%N eqn:Ea; [|discriminate].
    apply N.eqb_eq in Ea. eauto 10.
  - unfold pre_update_policy in Hh. destruct (a =? q_dao _)%N eqn:Ea; [|discriminate].
    apply N.eqb_eq in Ea. eauto 15.
  - unfold pre_withdraw in Hh. destruct (a =? q_dao _)%N; [|discriminate].
    destruct (match d with Some d => _ | None => _ end); [|discriminate].
    destruct (negb _); [|discriminate]. injection Hh as <- <-. by destruct Hne.
  - unfold pre_add_hook in Hh. destruct (hook_admin _ _); [|discriminate].
    destruct (add_hook _ _); [|discriminate]. injection Hh as <- <-. by destruct Hne.
  - unfold pre_remove_hook in Hh. destruct (hook_admin _ _); [|discriminate].
    destruct (remove_hook _ _); [|discriminate]. injection Hh as <- <-. by destruct Hne.
  - unfold pre_completed in Hh. destruct (a =? q_module _)%N; [|discriminate].
    destruct (bool_decide _); [|discriminate].
    destruct (q_deposits (mj_q pre) !! id) as [[[d|] pr]|]; injection Hh as <- <-; by destruct Hne.
  - rewrite Hk in Hh. injection Hh as <- <-. by destruct Hne.
Qed.
