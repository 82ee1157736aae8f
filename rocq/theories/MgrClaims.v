(** The migrator: the claims. *)
From stdpp Require Import gmap strings.
From Verif Require Import Base BaseProofs VotingModel HooksModel SingleModel CoreModel CoreSpec
  CoreProofs MigModel MigSpec MigProofs MigClaims MgrModel MgrSpec MgrProofs.

Lemma through_ok c b me u : through_dao c b me = Ok u -> enabled_at c me /\ k_shut c b me = false.
Proof.
  unfold through_dao, k_execute. destruct (k_shut c b me); [done|]. cbn [negb k_step].
  destruct (k_mods c !! me) as [x|] eqn:E; [|done]. destruct (km_on x) eqn:Eo; [|done].
  intros _. split; [|done]. by exists x.
Qed.
Lemma self_open c b : k_shut c b (k_self c) = false.
Proof. unfold k_shut. destruct (k_paused c); [|done]. by rewrite N.eqb_refl, andb_false_r. Qed.

Lemma g_run_inv {W} (C : chain W) c w b me a g c' w' acts :
  g_run C c w b me a g = Ok (c', w', acts) ->
  exists v ps t c1 x,
    a = k_self c /\ g_plan C c w me g = Ok (v, ps, acts) /\
    state_v1 C w b v ps = Ok t /\ state_v2 C w' b v ps = Ok t /\
    migrate_all C w b acts = Ok w' /\
    c1 = k_set_subdaos c (update_subdaos (k_subdaos c) (gp_subdaos g) []) /\
    k_mods c !! me = Some x /\ km_on x = true /\ k_shut c b me = false /\
    2 <= k_active c /\
    c' = k_set_mods c1 (<[me := KMod false (km_prefix x)]> (k_mods c)) (k_active c - 1) (k_total c).
Proof.
  unfold g_run. intros H.
  destruct (N.eqb_spec a (k_self c)) as [->|]; [|done].
  destruct (g_plan C c w me g) as [[[v ps] acts']|] eqn:Ep; [|done].
  destruct (state_v1 C w b v ps) as [t|] eqn:E1; [|done].
  destruct (through_dao c b me) as [u|] eqn:Et; [|done].
  apply through_ok in Et as [(x & Hx & Ho) Hs].
  destruct (migrate_all C w b acts') as [w1|] eqn:Em; [|done].
  unfold k_execute in H at 1. rewrite self_open in H. cbn [negb k_step] in H.
  rewrite N.eqb_refl in H.
  set (c1 := k_set_subdaos c (update_subdaos (k_subdaos c) (gp_subdaos g) [])) in *.
  destruct (state_v2 C w1 b v ps) as [t2|] eqn:E2; [|done].
  destruct (bool_decide (t2 = t)) eqn:Eb; [|done]. apply bool_decide_eq_true in Eb as ->.
  destruct (through_dao c1 b me) as [u1|] eqn:Et1; [|done].
  unfold k_execute in H at 1. rewrite self_open in H. cbn [negb k_step] in H.
  rewrite N.eqb_refl in H. cbn [disable_all] in H.
  change (k_mods c1) with (k_mods c) in H. rewrite Hx, Ho in H.
  unfold new_active in H. change (k_active c1) with (k_active c) in H.
  change (Z.of_nat (length [me]) mod 2 ^ 32) with 1 in H.
  destruct (Z.leb_spec (k_active c) 1); [done|]. cbn [andb negb] in H.
  destruct (Z.leb_spec 1 (k_active c)); [|lia].
  injection H as <- <- <-.
  exists v, ps, t, c1, x. repeat (split; [done|]). split; [lia|done].
Qed.

(** ** Who, and what is migrated *)
Lemma only_the_dao {W} (C : chain W) c w b me a g : a <> k_self c -> g_run C c w b me a g = Err "Unauthorized".
Proof. intros H. unfold g_run. by destruct (N.eqb_spec a (k_self c)). Qed.
Lemma only_enabled {W} (C : chain W) c w b me a g r :
  g_run C c w b me a g = Ok r -> enabled_at c me /\ k_shut c b me = false.
Proof.
  destruct r as [[c' w'] acts].
  intros (v & ps & t & c1 & x & _ & _ & _ & _ & _ & _ & Hx & Ho & Hs & _)%g_run_inv.
  split; [by exists x|done].
Qed.

Lemma run_complete {W} (C : chain W) c w b me a g c' w' acts :
  g_run C c w b me a g = Ok (c', w', acts) ->
  migrate_all C w b acts = Ok w' /\
  exists v vacts, k_voting c = Some v /\ voting_plan C w g v vacts /\
    NoDup (map fst (gp_props g)) /\
    (forall m, m ∈ map fst (gp_props g) <-> is_other c me m) /\
    (forall m, is_other c me m -> ch_code C w m = Some (ci_single (gp_v1 g))) /\
    acts ≡ₚ vacts ++ map (single_plan g) (gp_props g).
Proof.
  intros (v & ps & t & c1 & x & _ & Hp & _ & _ & Hm & _ & Hx & _)%g_run_inv.
  split; [done|].
  apply g_plan_ok in Hp as (vacts & pacts & -> & _ & _ & Hv & Hvp & Hd & Hps & _ & Hc & Hperm);
    [|by exists x].
  exists v, vacts. repeat (split; [done|]). by rewrite Hperm.
Qed.

(** ** The DAO afterwards *)
Lemma run_core {W} (C : chain W) c w b me a g c' w' acts :
  g_run C c w b me a g = Ok (c', w', acts) ->
  rest_of c' = rest_of c /\
  (forall m, m <> me -> k_mods c' !! m = k_mods c !! m) /\
  (exists x, k_mods c' !! me = Some x /\ km_on x = false) /\
  k_active c' = k_active c - 1 /\ 1 <= k_active c' /\
  (forall s n, NoDup (map fst (gp_subdaos g)) -> (s, n) ∈ gp_subdaos g ->
     k_subdaos c' !! s = Some n) /\
  (forall s, s ∉ map fst (gp_subdaos g) -> k_subdaos c' !! s = k_subdaos c !! s).
Proof.
  intros (v & ps & t & c1 & x & _ & _ & _ & _ & _ & -> & Hx & Ho & _ & Ha & ->)%g_run_inv.
  split; [done|]. split; [intros m Hm; cbn; by rewrite lookup_insert_ne|].
  split; [exists (KMod false (km_prefix x)); cbn; by rewrite lookup_insert|].
  split; [done|]. split; [cbn; lia|].
  cbn [k_subdaos k_set_mods k_set_subdaos]. unfold update_subdaos. cbn [fold_left].
  clear. generalize (k_subdaos c). induction (gp_subdaos g) as [|[s n] l IH]; intros m.
  { split; [intros s n _ H; by apply elem_of_nil in H|done]. }
  cbn [fold_left fst snd map]. destruct (IH (<[s := n]> m)) as [IH1 IH2]. split.
  - intros s' n' [Hn Hd]%NoDup_cons [E|H]%elem_of_cons; [|eauto].
    injection E as -> ->. by rewrite (IH2 s Hn), lookup_insert.
  - intros s' [Hne Hn]%not_elem_of_cons. rewrite IH2 by done. by rewrite lookup_insert_ne.
Qed.

(** ** The tests *)
Lemma run_tested {W} (C : chain W) c w b me a g c' w' acts :
  g_run C c w b me a g = Ok (c', w', acts) ->
  (forall m, is_other c me m ->
     (exists n, ch_count1 C w m = Ok n /\ ch_count2 C w' m = Ok n) /\
     (exists p q, ch_last1 C w b m = Ok (Some p) /\ ch_last2 C w' b m = Ok (Some q) /\
        same_prop p q /\ p_veto q = None)) /\
  (exists v m p t n, k_voting c = Some v /\ is_other c me m /\ ch_last1 C w b m = Ok (Some p) /\
     ch_total1 C w v (vr_start p) = Ok t /\ ch_total2 C w' v (vr_start p) = Ok t /\
     ch_power1 C w v (vr_proposer p) (vr_start p) = Ok n /\
     ch_power2 C w' v (vr_proposer p) (vr_start p) = Ok n).
Proof.
  intros (v & ps & t & c1 & x & _ & Hp & H1 & H2 & _ & _ & Hx & _)%g_run_inv.
  apply g_plan_ok in Hp as (vacts & pacts & _ & _ & _ & Hv & _ & _ & Hps & Hperm & _);
    [|by exists x].
  assert (forall m, is_other c me m <-> m ∈ ps) as Hin.
  { intros m. by rewrite Hperm, Hps. }
  unfold state_v1 in H1. unfold state_v2 in H2.
  destruct (collect (ch_count1 C w) ps) as [ns|] eqn:N1; [|done].
  destruct (collect (last_v1 C w b) ps) as [qs|] eqn:Q1; [|done].
  destruct (head qs) as [q|] eqn:Eh; [|done].
  destruct (ch_total1 C w v (p_start q)) as [tt1|] eqn:T1; [|done].
  destruct (ch_power1 C w v (p_proposer q) (p_start q)) as [n1|] eqn:P1; [|done].
  injection H1 as <-.
  destruct (collect (ch_count2 C w') ps) as [ns2|] eqn:N2; [|done].
  destruct (collect (last_v2 C w' b) ps) as [qs2|] eqn:Q2; [|done].
  destruct (head qs2) as [q2|] eqn:Eh2; [|done].
  destruct (ch_total2 C w' v (p_start q2)) as [tt2|] eqn:T2; [|done].
  destruct (ch_power2 C w' v (p_proposer q2) (p_start q2)) as [n2|] eqn:P2; [|done].
  injection H2 as -> -> -> ->. assert (q2 = q) as -> by congruence.
  assert (forall m, m ∈ ps -> exists p, ch_last1 C w b m = Ok (Some p) /\
     last_v1 C w b m = Ok (prop_to_v2 p)) as Hl1.
  { intros m Hm. apply collect_ok in Q1. apply elem_of_list_lookup in Hm as [i Hi].
    destruct (Forall2_lookup_l _ _ _ _ _ Q1 Hi) as (y & _ & E).
    unfold last_v1 in *. destruct (ch_last1 C w b m) as [[p|]|]; [|done|done]. eauto. }
  split.
  - intros m Hm%Hin. split.
    + pose proof (collect_same _ _ _ _ N1 N2 m Hm) as E.
      apply collect_ok in N1. apply elem_of_list_lookup in Hm as [i Hi].
      destruct (Forall2_lookup_l _ _ _ _ _ N1 Hi) as (n & _ & En).
      exists n. split; congruence.
    + destruct (Hl1 m Hm) as (p & Ep & Ep2).
      pose proof (collect_same _ _ _ _ Q1 Q2 m Hm) as E. rewrite Ep2 in E.
      unfold last_v2 in E. destruct (ch_last2 C w' b m) as [[p2|]|] eqn:E2; [|done|done].
      injection E as ->. exists p, (prop_to_v2 p). split; [done|]. split; [done|].
      split; [apply prop_same_v2|done].
  - destruct ps as [|m ps]; [by injection Q1 as <-|].
    cbn [collect] in Q1. destruct (Hl1 m) as (p & Ep & Ep2); [by left|].
    rewrite Ep2 in Q1. destruct (collect (last_v1 C w b) ps) as [qs'|]; [|done].
    injection Q1 as <-. cbn [head] in Eh. injection Eh as <-.
    exists v, m, p, tt1, n1. split; [done|]. split; [apply Hin; by left|]. done.
Qed.

(** ** When it can be done *)
Lemma no_proposals {W} (C : chain W) c w b me a g m :
  is_other c me m -> ch_last1 C w b m = Ok None -> forall r, g_run C c w b me a g <> Ok r.
Proof.
  intros Hm Hl [[c' w'] acts] H. destruct (run_tested _ _ _ _ _ _ _ _ _ _ H) as [Hr _].
  destruct (Hr m Hm) as [_ (p & q & E & _)]. congruence.
Qed.

Lemma migrate_all_total {W} (C : chain W) w b l :
  (forall w1 b1 x, exists w2, ch_migrate C w1 b1 x = Ok w2) ->
  exists w', migrate_all C w b l = Ok w'.
Proof.
  intros H. revert w. induction l as [|x l IH]; intros w; cbn [migrate_all]; [eauto|].
  destruct (H w b x) as [w1 ->]. apply IH.
Qed.

Lemma can_upgrade {W} (C : chain W) c w b me g :
  upgradable C c w b me (gp_v1 g) ->
  NoDup (map fst (gp_props g)) ->
  (forall m, m ∈ map fst (gp_props g) <-> is_other c me m) ->
  (forall m, is_other c me m -> exists n, ch_count1 C w m = Ok n) ->
  (forall m, is_other c me m -> exists p, ch_last1 C w b m = Ok (Some p)) ->
  (forall v h, exists n, ch_total1 C w v h = Ok n) ->
  (forall v x h, exists n, ch_power1 C w v x h = Ok n) ->
  (forall w' l, migrate_all C w b l = Ok w' ->
     (forall m, is_other c me m -> ch_count2 C w' m = ch_count1 C w m) /\
     (forall m, is_other c me m -> last_v2 C w' b m = last_v1 C w b m) /\
     (forall v h, ch_total2 C w' v h = ch_total1 C w v h) /\
     (forall v x h, ch_power2 C w' v x h = ch_power1 C w v x h)) ->
  exists c' w' acts, g_run C c w b me (k_self c) g = Ok (c', w', acts).
Proof.
  intros [(x & Hx & Ho) (m2 & Hm2 & x2 & Hx2 & Ho2) Hn Hpause Hs (v & Hv & Hcv) Hmig]
    Hd Hps Hc1 Hl1 Ht1 Hp1 Hafter.
  assert (k_shut c b me = false) as Hsh by (unfold k_shut; by rewrite Hpause).
  assert (2 <= k_active c) as Ha.
  { rewrite Hn. unfold n_active. pose proof (active_disable _ _ _ Hx Ho) as E1.
    assert (<[me:=KMod false (km_prefix x)]> (k_mods c) !! m2 = Some x2) as Hx3
      by (by rewrite lookup_insert_ne).
    pose proof (active_disable _ _ _ Hx3 Ho2) as E2. lia. }
  unfold g_run. rewrite N.eqb_refl.
  set (mods := map fst (map_to_list (k_mods c))).
  assert (length mods = S (length (gp_props g))) as Hlen.
  { assert (mods ≡ₚ me :: map fst (gp_props g)) as Hperm.
    { apply NoDup_Permutation; [apply mods_nodup| |].
      - apply NoDup_cons. split; [|done]. intros [E _]%Hps. done.
      - intros a. unfold mods. rewrite mods_elem, elem_of_cons, Hps. unfold is_other.
        destruct (decide (a = me)) as [->|]; [|tauto]. split; [tauto|]. intros _. eauto. }
    rewrite Hperm. cbn [length]. by rewrite map_length. }
  assert (exists pacts, plan_singles C w g me mods = Ok pacts) as [pacts Epl].
  { apply plan_singles_all. intros a Ha' Hne. unfold mods in Ha'. rewrite mods_elem in Ha'.
    split; [by apply Hs|]. by apply Hps. }
  assert (exists acts, g_plan C c w me g = Ok (v, map ga_at pacts, acts)) as [acts Ep].
  { unfold g_plan. rewrite bool_decide_eq_true_2 by done.
    unfold plan_voting. rewrite Hv, Hcv, Z.eqb_refl.
    fold mods. rewrite Hlen. destruct (Z.leb_spec 1 (Z.of_nat (S (length (gp_props g))))); [|lia].
    rewrite (proj2 (Z.eqb_eq _ _)) by lia. rewrite Epl.
    destruct pacts as [|y l]; [|eauto].
    apply plan_singles_ok in Epl. inversion Epl as [E|]. exfalso.
    assert (m2 ∈ List.filter (fun a => negb (a =? me)%N) mods) as Hin.
    { apply filter_elem. split; [done|]. apply mods_elem. eauto. }
    rewrite <- E in Hin. by apply elem_of_nil in Hin. }
  pose proof Ep as Ep'.
  apply g_plan_ok in Ep' as (_ & _ & _ & _ & _ & _ & _ & _ & _ & Hperm & _); [|by exists x].
  assert (forall m, m ∈ map ga_at pacts <-> is_other c me m) as Hin.
  { intros m. by rewrite Hperm, Hps. }
  rewrite Ep. set (ps := map ga_at pacts) in *.
  destruct (migrate_all_total C w b acts Hmig) as [w' Em].
  destruct (Hafter w' acts Em) as (A1 & A2 & A3 & A4).
  assert (exists t, state_v1 C w b v ps = Ok t) as [t E1].
  { unfold state_v1.
    destruct (collect_all (ch_count1 C w) ps) as [ns ->]; [intros m Hm; by apply Hc1, Hin|].
    destruct (collect_all (last_v1 C w b) ps) as [qs Eq].
    { intros m Hm. destruct (Hl1 m) as [p E]; [by apply Hin|]. unfold last_v1. rewrite E. eauto. }
    rewrite Eq. destruct (head qs) as [q|] eqn:Eh.
    - destruct (Ht1 v (p_start q)) as [n1 ->]. destruct (Hp1 v (p_proposer q) (p_start q)) as [n2 ->].
      eauto.
    - exfalso. destruct qs; [|done]. apply collect_ok in Eq. inversion Eq as [E|].
      assert (m2 ∈ ps) as Hin2 by (apply Hin; split; [done|eauto]).
      rewrite <- E in Hin2. by apply elem_of_nil in Hin2. }
  assert (state_v2 C w' b v ps = Ok t) as E2.
  { rewrite <- E1. unfold state_v2, state_v1.
    rewrite (collect_ext (ch_count1 C w) (ch_count2 C w')) by (intros m Hm; by apply A1, Hin).
    rewrite (collect_ext (last_v1 C w b) (last_v2 C w' b)) by (intros m Hm; by apply A2, Hin).
    destruct (collect (ch_count1 C w) ps); [|done].
    destruct (collect (last_v1 C w b) ps) as [qs|]; [|done].
    destruct (head qs); [|done]. by rewrite A3, A4. }
  rewrite E1. unfold through_dao, k_execute at 1. rewrite Hsh. cbn [negb k_step].
  rewrite Hx, Ho, Em. unfold k_execute at 1. rewrite self_open. cbn [negb k_step].
  rewrite N.eqb_refl, E2, bool_decide_eq_true_2 by done.
  unfold k_execute at 1.
  set (c1 := k_set_subdaos c (update_subdaos (k_subdaos c) (gp_subdaos g) [])).
  change (k_shut c1 b me) with (k_shut c b me). rewrite Hsh. cbn [negb k_step].
  change (k_mods c1) with (k_mods c). rewrite Hx, Ho.
  unfold k_execute. rewrite self_open. cbn [negb k_step]. rewrite N.eqb_refl.
  change (k_mods c1) with (k_mods c). cbn [disable_all]. rewrite Hx, Ho.
  unfold new_active. change (k_active c1) with (k_active c).
  change (Z.of_nat (length [me]) mod 2 ^ 32) with 1.
  destruct (Z.leb_spec (k_active c) 1); [lia|]. cbn [andb negb].
  destruct (Z.leb_spec 1 (k_active c)); [|lia]. eauto.
Qed.

(** ** With the migration of the single-choice module *)
Lemma single_step O A w b x p w' g :
  x = single_plan g (ga_at x, p) -> ch_migrate (real_chain O A) w b x = Ok w' ->
  exists t t', wo_stores w !! ga_at x = Some t /\ wo_stores w' = <[ga_at x := t']> (wo_stores w) /\
    wo_codes w' = <[ga_at x := ci_single (gp_v2 g)]> (wo_codes w) /\
    kept (an_version A (ci_single (gp_v2 g))) p (an_new A (ga_at x)) t t' /\
    no_deposits t /\ t_admin t = an_dao A.
Proof.
  intros E. rewrite E. cbn [ch_migrate real_chain ga_msg ga_at ga_code single_plan fst snd].
  destruct (wo_stores w !! ga_at x) as [t|] eqn:Et; [|done].
  destruct (t_handle O t b (an_dao A) _) as [[t1 subs]|] eqn:Eh; [|done].
  destruct (finish t1 b (an_new A (ga_at x)) subs) as [t2|] eqn:Ef; [|done].
  intros [= <-]. exists t, t2. split; [done|]. split; [done|]. split; [done|].
  pose proof (proj1 (migrate_iff O t b (an_dao A) _ _ _ _) (ex_intro _ t1 (ex_intro _ subs Eh)))
    as (Ha & _ & _ & Hdep).
  pose proof (migrate_keeps O t b _ _ _ _ _ _ _ Eh)
    as (Hc & Hp & Ho & Hn & Hb & Hph & Hvh & Hv & _).
  cbn [t_handle] in Eh. rewrite <- Ha, N.eqb_refl in Eh. unfold migrate in Eh.
  destruct (negb _); [|done]. destruct (t_vcfg t) as [vc|] eqn:Evc; [|done].
  destruct (validate_veto_opt _ _) as [u|]; [|done].
  split; [|done].
  destruct (pp_info p) as [|i] eqn:Ei; cbn [into_initial_policy_and_messages] in Eh;
    destruct (forallb _ _); try done; injection Eh as <- <-;
    cbn [finish t_ok live t_cfg t_policy on_ok reply] in Ef; injection Ef as <-;
    cbn in Hc, Hp, Ho, Hn, Hb, Hph, Hvh, Hv; constructor; cbn; first [by rewrite Ei|by rewrite Evc|exact Hp|exact Ho|by split|done].
Qed.

Lemma other_step O A w b x w' :
  match ga_msg x with GSingle _ => False | _ => True end -> ch_migrate (real_chain O A) w b x = Ok w' ->
  wo_stores w' = wo_stores w.
Proof.
  cbn [ch_migrate real_chain]. destruct (ga_msg x); [done| | |];
    intros _ H; destruct (an_migrate A _ _ _); try done; by injection H as <-.
Qed.

Lemma migrate_all_app O A w b l1 l2 w' : migrate_all (real_chain O A) w b (l1 ++ l2) = Ok w' ->
  exists w1, migrate_all (real_chain O A) w b l1 = Ok w1 /\ migrate_all (real_chain O A) w1 b l2 = Ok w'.
Proof.
  revert w. induction l1 as [|x l1 IH]; intros w; cbn [migrate_all app]; [eauto|].
  destruct (ch_migrate (real_chain O A) w b x); [|done]. apply IH.
Qed.
Lemma voting_keeps O A w b g v l w0 w' : voting_plan (real_chain O A) w0 g v l -> migrate_all (real_chain O A) w b l = Ok w' ->
  wo_stores w' = wo_stores w.
Proof.
  intros H. assert (forall x, x ∈ l -> match ga_msg x with GSingle _ => False | _ => True end) as Hl.
  { destruct H; intros x Hx; repeat (apply elem_of_cons in Hx as [->|Hx]; [done|]);
      by apply elem_of_nil in Hx. }
  clear H. revert w. induction l as [|x l IH]; intros w H; cbn [migrate_all] in H.
  { by injection H as <-. }
  destruct (ch_migrate (real_chain O A) w b x) as [w1|] eqn:E; [|done].
  rewrite (IH (fun y Hy => Hl y (proj2 (elem_of_cons _ _ _) (or_intror Hy))) _ H).
  apply (other_step O A _ _ _ _ (Hl x (elem_of_list_here _ _)) E).
Qed.

Lemma singles_kept O A g : forall ps w b w',
  NoDup (map fst ps) -> migrate_all (real_chain O A) w b (map (single_plan g) ps) = Ok w' ->
  (forall a p, (a, p) ∈ ps -> exists t t', wo_stores w !! a = Some t /\ wo_stores w' !! a = Some t' /\
     wo_codes w' !! a = Some (ci_single (gp_v2 g)) /\
     kept (an_version A (ci_single (gp_v2 g))) p (an_new A a) t t' /\
     no_deposits t /\ t_admin t = an_dao A) /\
  (forall a, a ∉ map fst ps -> wo_stores w' !! a = wo_stores w !! a /\
     wo_codes w' !! a = wo_codes w !! a).
Proof.
  induction ps as [|[a p] ps IH]; intros w b w' Hd H; cbn [map migrate_all fst] in *.
  { injection H as <-. split; [by intros ? ? ?%elem_of_nil|done]. }
  apply NoDup_cons in Hd as [Hn Hd].
  destruct (ch_migrate (real_chain O A) w b (single_plan g (a, p))) as [w1|] eqn:E; [|done].
  destruct (single_step O A w b _ p w1 g eq_refl E) as (t & t' & Ht & Es & Ec & Hk).
  cbn [ga_at single_plan fst] in *.
  destruct (IH w1 b w' Hd H) as [IH1 IH2]. split.
  - intros a' p' [E'|Hin]%elem_of_cons.
    + injection E' as -> ->. exists t, t'. split; [done|].
      destruct (IH2 a Hn) as [-> ->]. rewrite Es, Ec, !lookup_insert. done.
    + destruct (IH1 a' p' Hin) as (t1 & t1' & Ht1 & Hr). exists t1, t1'. split; [|done].
      rewrite Es, lookup_insert_ne in Ht1; [done|]. intros ->.
      apply Hn. by apply (elem_of_list_fmap_1 fst) in Hin.
  - intros a' [Hne Hn']%not_elem_of_cons. destruct (IH2 a' Hn') as [-> ->].
    by rewrite Es, Ec, !lookup_insert_ne.
Qed.

Lemma run_kept O A c w b me a g c' w' acts :
  g_run (real_chain O A) c w b me a g = Ok (c', w', acts) ->
  (forall m, is_other c me m -> exists p t t', (m, p) ∈ gp_props g /\
     wo_stores w !! m = Some t /\ wo_stores w' !! m = Some t' /\
     wo_codes w' !! m = Some (ci_single (gp_v2 g)) /\
     kept (an_version A (ci_single (gp_v2 g))) p (an_new A m) t t' /\
     no_deposits t /\ t_admin t = an_dao A) /\
  (forall m, ~ is_other c me m -> wo_stores w' !! m = wo_stores w !! m).
Proof.
  intros (v & ps & t & c1 & x & _ & Hp & _ & _ & Hm & _ & Hx & _)%g_run_inv.
  apply g_plan_ok in Hp as (vacts & pacts & -> & _ & _ & Hv & Hvp & Hd & Hps & _ & _ & Hperm);
    [|by exists x].
  apply migrate_all_app in Hm as (w1 & Hm1 & Hm2).
  pose proof (voting_keeps O A _ _ _ _ _ _ _ Hvp Hm1) as Es.
  apply Permutation_map_inv in Hperm as (qs & -> & Hq).
  assert (NoDup (map fst qs)) as Hdq by (by rewrite <- Hq).
  destruct (singles_kept O A g qs w1 b w' Hdq Hm2) as [H1 H2]. rewrite Es in *. split.
  - intros m ([m' p] & -> & Hin)%Hps%elem_of_list_fmap. 
    destruct (H1 m' p) as (t1 & t2 & Hr); [by rewrite <- Hq|]. eauto 10.
  - intros m Hn. apply H2. rewrite <- Hq. by rewrite Hps.
Qed.
