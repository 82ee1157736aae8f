(** Proofs about the migration of the pre-propose modules. *)
From Verif Require Import Base BaseProofs VotingModel HooksModel SingleModel PreModel PreSpec PreProofs PreClaims
  PreMigModel PreMigSpec.

Lemma required_spec v : matches_req required v = true <-> upgradable (Some v).
Proof.
  unfold upgradable, matches_req, required, matches_cmp, matches_exact, matches_greater,
    matches_less. destruct v as [ma mi pa [|]]; cbn -[N.eqb N.ltb];
    rewrite ?andb_false_r, ?andb_true_r.
  - split; [done|]. by intros (n & [=] & _).
  - destruct (N.eqb_spec ma 2) as [->|?]; simpl.
    + destruct (N.eqb_spec mi 4) as [->|?]; simpl.
      * destruct (N.eqb_spec pa 1) as [->|?]; simpl.
        -- split; [|done]. intros _. by exists 1%N.
        -- rewrite andb_true_r, N.ltb_lt. split; [intros; exists pa; split; [done|lia]|].
           intros (k & [= ->] & ?). lia.
      * split; [|intros (k & [= ? ?] & ?); lia]. rewrite andb_true_iff.
        destruct (N.eqb_spec mi 5) as [->|?]; simpl.
        -- destruct (N.eqb_spec pa 0) as [->|?]; simpl; [by intros [_ ?]|].
           rewrite N.ltb_lt. intros [_ H]. lia.
        -- rewrite !N.ltb_lt. lia.
    + split; [|intros (k & [= ? ?] & ?); lia]. rewrite andb_true_iff, !N.ltb_lt. lia.
Qed.

Lemma validate_sound p : validate_submission p = Ok tt <-> sound_policy p.
Proof.
  destruct p as [deny|members allow deny]; simpl; [done|].
  destruct (existsb (contains allow) deny) eqn:He; simpl.
  - split; [done|]. intros [H _].
    apply existsb_exists in He as (x & Hx & Hc). unfold contains in Hc.
    apply existsb_exists in Hc as (y & Hy & Heq). apply N.eqb_eq in Heq as <-.
    exfalso. apply (H x); by apply elem_of_list_In.
  - assert (Hd : forall a, a ∈ allow -> a ∉ deny).
    { intros a Ha Hb. assert (existsb (contains allow) deny = true) as Ht; [|congruence].
      apply existsb_exists. exists a. split; [by apply elem_of_list_In|].
      apply existsb_exists. exists a. split; [by apply elem_of_list_In|]. apply N.eqb_refl. }
    destruct members; simpl; [split; [intros _; split; [done|by left]|done]|].
    destruct allow as [|a allow]; simpl.
    + split; [done|]. intros [_ [?|(a & Ha)]]; [done|]. by apply elem_of_nil in Ha.
    + split; [|done]. intros _. split; [done|]. right. exists a. apply elem_of_cons. by left.
Qed.

Lemma validate_cases p : validate_submission p = Ok tt \/ exists e, validate_submission p = Err e.
Proof. destruct (validate_submission p) as [[]|e]; eauto. Qed.

Lemma c111_iff x m :
  (exists x', pre_migrate x m = Ok x') <->
  (exists policy c, m = FromUnderV250 policy /\ upgradable (ps_version x) /\
    ps_slot x = SlotOld c /\ forall p, policy = Some p -> sound_policy p).
Proof.
  split.
  - intros [x' H]. destruct m as [policy|]; [|done]. unfold pre_migrate in H.
    destruct (ps_version x) as [v|] eqn:Hv; [|done]. simpl in H.
    destruct (matches_req required v) eqn:Hr; [|done].
    destruct (ps_slot x) as [c|] eqn:Hs; [|done]. exists policy, c.
    split; [done|]. split; [by apply required_spec|]. split; [done|].
    intros p ->. apply validate_sound.
    destruct (validate_cases p) as [Hp|[e Hp]]; [done|]. by rewrite Hp in H.
  - intros (policy & c & -> & Hu & Hs & Hp). unfold pre_migrate.
    destruct (ps_version x) as [v|]; [|by destruct Hu as (n & ? & _)].
    simpl. rewrite (proj2 (required_spec v) Hu), Hs.
    destruct policy as [p|]; simpl.
    + rewrite (proj2 (validate_sound p)) by auto. simpl. eauto.
    + destruct (oc_open c); simpl; eauto.
Qed.

Lemma migrate_inv x m x' :
  pre_migrate x m = Ok x' ->
  exists policy c, m = FromUnderV250 policy /\ ps_slot x = SlotOld c /\
    let p := match policy with Some p => p | None => default_policy (oc_open c) end in
    validate_submission p = Ok tt /\
    x' = PStore (Some this_version) (SlotNew (option_map new_deposit (oc_deposit c)) p)
           (ps_rest x).
Proof.
  intros H. destruct m as [policy|]; [|done]. unfold pre_migrate in H.
  destruct (ps_version x) as [v|] eqn:Hv; [|done]. simpl in H.
  destruct (matches_req required v) eqn:Hr; [|done].
  destruct (ps_slot x) as [c|] eqn:Hs; [|done]. exists policy, c.
  split; [done|]. split; [done|]. cbv zeta in *.
  destruct (validate_cases (match policy with Some p => p | None => default_policy (oc_open c) end))
    as [Hp|[e Hp]]; rewrite Hp in H; simpl in H; [|done].
  split; [done|]. by injection H as <-.
Qed.

Lemma c111_same_rule x x' c :
  pre_migrate x (FromUnderV250 None) = Ok x' -> ps_slot x = SlotOld c ->
  exists q, module_of x' = Some q /\
  forall who power, check_can_submit (q_policy q) who power = Ok tt <-> could_submit c power.
Proof.
  intros H Hs. apply migrate_inv in H as (policy & c' & [= <-] & Hs' & _ & ->).
  rewrite Hs in Hs'. injection Hs' as <-.
  eexists. split; [reflexivity|]. intros who power. simpl. rewrite c33_accepts.
  unfold default_policy, could_submit. destruct (oc_open c); simpl.
  - split; [by left|]. intros _. apply not_elem_of_nil.
  - split; [intros [_ [Hn|[_ ?]]]; [by apply elem_of_nil in Hn|by right]|].
    intros [?|?]; [done|]. split; [apply not_elem_of_nil|by right].
Qed.

Lemma c111_given x p x' :
  pre_migrate x (FromUnderV250 (Some p)) = Ok x' ->
  exists q, module_of x' = Some q /\ q_policy q = p /\ sound_policy p.
Proof.
  intros H. apply migrate_inv in H as (policy & c' & [= <-] & Hs' & Hp & ->).
  eexists. split; [reflexivity|]. split; [done|]. by apply validate_sound.
Qed.

Lemma c111_kept x m x' c :
  pre_migrate x m = Ok x' -> ps_slot x = SlotOld c ->
  ps_rest x' = ps_rest x /\
  exists q, module_of x' = Some q /\ same_deposit (oc_deposit c) (q_deposit q) /\
    q_kind q = r_kind (ps_rest x) /\ q_module q = r_module (ps_rest x) /\
    q_dao q = r_dao (ps_rest x) /\
    q_deposits q = r_deposits (ps_rest x) /\ q_hooks q = r_hooks (ps_rest x) /\
    q_approver q = r_approver (ps_rest x) /\ q_pending q = r_pending (ps_rest x) /\
    q_completed q = r_completed (ps_rest x) /\ q_created q = r_created (ps_rest x) /\
    q_current q = r_current (ps_rest x).
Proof.
  intros H Hs. apply migrate_inv in H as (policy & c' & -> & Hs' & _ & ->).
  rewrite Hs in Hs'. injection Hs' as <-. split; [done|].
  eexists. split; [reflexivity|]. split; [|done]. simpl.
  destruct (oc_deposit c) as [[dn am rf]|]; simpl; [|done].
  split; [by destruct dn|]. split; [done|]. by destruct rf.
Qed.

(** A deposit taken before the upgrade is paid out after it as its terms say. *)
Lemma c111_paid x m x' id d proposer q e st :
  pre_migrate x m = Ok x' -> module_of x' = Some q ->
  r_deposits (ps_rest x) !! id = Some (Some d, proposer) -> d_amount d <> 0 ->
  st = Closed \/ st = Executed \/ st = Vetoed ->
  exists to, pre_handle q e (r_module (ps_rest x)) (PCompleted id st) =
    Ok (q, [XPay (RCompleted id) (d_denom d) to (d_amount d)]) /\
    right_party (d_refund d) st proposer (r_dao (ps_rest x)) to.
Proof.
  intros H Hq Hd Hn Hst. apply migrate_inv in H as (policy & c' & -> & Hs' & _ & ->).
  injection Hq as <-. simpl. unfold pre_completed. simpl.
  rewrite N.eqb_refl. simpl. rewrite bool_decide_true by done. simpl. rewrite Hd. simpl.
  unfold return_messages. rewrite (proj2 (Z.eqb_neq _ _) Hn).
  eexists. split; [reflexivity|].
  destruct (d_refund d); destruct Hst as [->|[->| ->]]; simpl; auto.
Qed.

Lemma c111_once x m x' :
  pre_migrate x m = Ok x' ->
  ps_version x' = Some this_version /\ forall m', is_ok (pre_migrate x' m') = false.
Proof.
  intros H. apply migrate_inv in H as (policy & c' & -> & Hs' & _ & ->).
  split; [done|]. by intros [p|].
Qed.
