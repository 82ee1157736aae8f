(** Lemmas on the migrator. *)
From stdpp Require Import gmap strings.
From Verif Require Import Base BaseProofs VotingModel HooksModel SingleModel CoreModel MigModel
  MgrModel MgrSpec.

Lemma collect_ok {A B} (f : A -> result B) l ys :
  collect f l = Ok ys -> Forall2 (fun x y => f x = Ok y) l ys.
Proof.
  revert ys. induction l as [|x l IH]; intros ys H; cbn [collect] in H.
  - injection H as <-. constructor.
  - destruct (f x) as [y|] eqn:E; [|done]. destruct (collect f l) as [zs|]; [|done].
    injection H as <-. constructor; [done|]. by apply IH.
Qed.
Lemma collect_same {A B} (f g : A -> result B) l ys :
  collect f l = Ok ys -> collect g l = Ok ys -> forall x, x ∈ l -> g x = f x.
Proof.
  intros H1%collect_ok H2%collect_ok. revert ys H1 H2.
  induction l as [|x l IH]; intros ys H1 H2 z Hz; [by apply elem_of_nil in Hz|].
  apply Forall2_cons_inv_l in H1 as (y & ys' & E1 & H1 & ->).
  inversion H2 as [|? ? ? ? E2 H2']; subst.
  apply elem_of_cons in Hz as [->|Hz]; [congruence|eauto].
Qed.
Lemma collect_all {A B} (f : A -> result B) l :
  (forall x, x ∈ l -> exists y, f x = Ok y) -> exists ys, collect f l = Ok ys.
Proof.
  induction l as [|x l IH]; intros H; cbn [collect]; [eauto|].
  destruct (H x) as [y ->]; [by left|].
  destruct IH as [ys ->]; [|eauto]. intros z Hz. apply H. by right.
Qed.
Lemma collect_ext {A B} (f g : A -> result B) l :
  (forall x, x ∈ l -> g x = f x) -> collect g l = collect f l.
Proof.
  induction l as [|x l IH]; intros H; cbn [collect]; [done|].
  rewrite (H x) by (by left). destruct (f x); [|done]. rewrite IH; [done|].
  intros z Hz. apply H. by right.
Qed.

Lemma params_of_in a l p : params_of a l = Some p -> (a, p) ∈ l.
Proof.
  induction l as [|[a' q] l IH]; cbn [params_of]; [done|].
  destruct (N.eqb_spec a' a) as [->|]; intros H.
  - injection H as ->. by left.
  - right. auto.
Qed.
Lemma params_of_some a l : a ∈ map fst l -> exists p, params_of a l = Some p.
Proof.
  induction l as [|[a' q] l IH]; cbn [params_of map fst]; [by intros ?%elem_of_nil|].
  destruct (N.eqb_spec a' a) as [->|]; [eauto|].
  intros [->|H]%elem_of_cons; [done|auto].
Qed.
Lemma params_of_nodup a p l : NoDup (map fst l) -> (a, p) ∈ l -> params_of a l = Some p.
Proof.
  induction l as [|[a' q] l IH]; cbn [params_of map fst]; [by intros _ ?%elem_of_nil|].
  intros [Hn Hd]%NoDup_cons [E|H]%elem_of_cons.
  - injection E as -> ->. by rewrite N.eqb_refl.
  - destruct (N.eqb_spec a' a) as [->|]; [|auto].
    exfalso. apply Hn. by apply (elem_of_list_fmap_1 fst) in H.
Qed.

Section plan.
Context {W : Type} (C : chain W).

Lemma plan_voting_ok c w g v l :
  plan_voting C c w g = Ok (v, l) <-> k_voting c = Some v /\ voting_plan C w g v l /\
    (ch_code C w v = Some (ci_cw4 (gp_v1 g)) -> l = [GAct v (ci_cw4 (gp_v2 g)) GCw4]).
Proof.
  unfold plan_voting. destruct (k_voting c) as [v'|]; [|by split; [|intros (?&_)]].
  split.
  - destruct (ch_code C w v') as [n|] eqn:En; [|done].
    destruct (Z.eqb_spec n (ci_cw4 (gp_v1 g))) as [->|N4].
    { intros H. injection H as <- <-. split; [done|]. split; [by constructor|done]. }
    destruct (Z.eqb_spec n (ci_cw20 (gp_v1 g))) as [->|]; [|done].
    destruct (default false (gp_stake g)) eqn:Es; [|done].
    destruct (ch_staking C w v') as [st|] eqn:Est; [|done].
    destruct (ch_code C w st) as [k|] eqn:Ek; [|done].
    destruct (Z.eqb_spec k (ci_stake (gp_v1 g))) as [->|]; [|done].
    intros H. injection H as <- <-. split; [done|]. split; [|by rewrite En; intros [= ?]].
    apply plan_cw20; try done. destruct (gp_stake g); simpl in Es; congruence.
  - intros ([= ->] & H & H4). destruct H as [En|st En Es Est Ek].
    + rewrite En, Z.eqb_refl. done.
    + rewrite En. destruct (Z.eqb_spec (ci_cw20 (gp_v1 g)) (ci_cw4 (gp_v1 g))) as [E|_].
      { rewrite E in En. by specialize (H4 En). }
      rewrite Z.eqb_refl, Es. simpl. rewrite Est, Ek, Z.eqb_refl. done.
Qed.

Lemma plan_singles_ok w g me l acts :
  plan_singles C w g me l = Ok acts ->
  Forall2 (fun a x => exists p, params_of a (gp_props g) = Some p /\
     ch_code C w a = Some (ci_single (gp_v1 g)) /\ x = single_plan g (a, p))
    (List.filter (fun a => negb (a =? me)%N) l) acts.
Proof.
  revert acts. induction l as [|a l IH]; intros acts H; cbn [plan_singles List.filter] in *.
  - injection H as <-. constructor.
  - destruct (a =? me)%N eqn:Ea; cbn [negb]; [by apply IH|].
    destruct (params_of a (gp_props g)) as [p|] eqn:Ep; [|done].
    destruct (ch_code C w a) as [n|] eqn:En; [|done].
    destruct (Z.eqb_spec n (ci_single (gp_v1 g))) as [->|]; [|done].
    destruct (plan_singles C w g me l) as [acts'|]; [|done].
    injection H as <-. constructor; [|by apply IH]. eauto.
Qed.
Lemma plan_singles_all w g me l :
  (forall a, a ∈ l -> a <> me -> ch_code C w a = Some (ci_single (gp_v1 g)) /\
     a ∈ map fst (gp_props g)) ->
  exists acts, plan_singles C w g me l = Ok acts.
Proof.
  induction l as [|a l IH]; intros H; cbn [plan_singles]; [eauto|].
  destruct IH as [acts IH]; [intros a' Ha'; apply H; by right|].
  destruct (N.eqb_spec a me); [eauto|].
  destruct (H a) as [Hc Hp]; [by left|done|].
  destruct (params_of_some _ _ Hp) as [p ->]. rewrite Hc, Z.eqb_refl, IH. eauto.
Qed.

(** The modules besides the migrator and the parameters are the same addresses. *)
Lemma mods_elem (c : core) a : a ∈ map fst (map_to_list (k_mods c)) <-> is_Some (k_mods c !! a).
Proof.
  split.
  - intros ([a' x] & -> & H)%elem_of_list_fmap. apply elem_of_map_to_list in H. by exists x.
  - intros [x H]. apply elem_of_list_fmap. exists (a, x). split; [done|].
    by apply elem_of_map_to_list.
Qed.
Lemma filter_elem (me : addr) l a :
  a ∈ List.filter (fun a => negb (a =? me)%N) l <-> a <> me /\ a ∈ l.
Proof.
  rewrite elem_of_list_In, filter_In, <- elem_of_list_In. rewrite negb_true_iff, N.eqb_neq. tauto.
Qed.
Lemma filter_length (me : addr) l : NoDup l -> me ∈ l ->
  length l = S (length (List.filter (fun a => negb (a =? me)%N) l)).
Proof.
  induction l as [|a l IH]; [by intros _ ?%elem_of_nil|].
  intros [Hn Hd]%NoDup_cons. cbn [List.filter length].
  destruct (N.eqb_spec a me) as [->|Hne]; cbn [negb length]; intros H.
  - f_equal. clear IH Hd H. induction l as [|x l IH]; [done|].
    cbn [List.filter]. destruct (N.eqb_spec x me) as [->|]; cbn [negb length].
    + exfalso. apply Hn. by left.
    + f_equal. apply IH. intros H. apply Hn. by right.
  - apply elem_of_cons in H as [->|H]; [done|]. by rewrite (IH Hd H).
Qed.
Lemma mods_nodup (c : core) : NoDup (map fst (map_to_list (k_mods c))).
Proof. apply NoDup_fst_map_to_list. Qed.
Lemma filter_nodup (me : addr) l : NoDup l -> NoDup (List.filter (fun a => negb (a =? me)%N) l).
Proof. intros H%NoDup_ListNoDup. apply NoDup_ListNoDup. by apply List.NoDup_filter. Qed.

Lemma same_addresses (l m : list addr) :
  NoDup l -> NoDup m -> (forall a, a ∈ l -> a ∈ m) -> length m = length l -> l ≡ₚ m.
Proof.
  intros Hl Hm Hs Hn. assert (l ⊆+ m) as H.
  { apply NoDup_submseteq; done. }
  apply submseteq_Permutation_length_eq; [done|done].
Qed.

Lemma g_plan_ok c w me g v ps acts :
  is_Some (k_mods c !! me) -> g_plan C c w me g = Ok (v, ps, acts) ->
  exists vacts pacts, acts = vacts ++ pacts /\ ps = map ga_at pacts /\ pacts <> [] /\
    k_voting c = Some v /\ voting_plan C w g v vacts /\
    NoDup (map fst (gp_props g)) /\
    (forall a, a ∈ map fst (gp_props g) <-> is_other c me a) /\
    ps ≡ₚ map fst (gp_props g) /\
    (forall a, is_other c me a -> ch_code C w a = Some (ci_single (gp_v1 g))) /\
    pacts ≡ₚ map (single_plan g) (gp_props g).
Proof.
  unfold g_plan. intros Hme H.
  destruct (bool_decide (NoDup (map fst (gp_props g)))) eqn:Hd; [|done].
  apply bool_decide_eq_true in Hd.
  destruct (plan_voting C c w g) as [[v' vacts]|] eqn:Hv; [|done].
  apply plan_voting_ok in Hv as (Hv & Hvp & _).
  set (mods := map fst (map_to_list (k_mods c))) in *.
  destruct (1 <=? Z.of_nat (length mods)) eqn:E1; [|done].
  destruct (Z.eqb_spec (Z.of_nat (length mods) - 1) (Z.of_nat (length (gp_props g)))) as [E2|];
    [|done].
  destruct (plan_singles C w g me mods) as [pacts|] eqn:Hp; [|done].
  destruct (match pacts with [] => false | _ => true end) eqn:Hne; [|done].
  injection H as -> <- <-.
  apply plan_singles_ok in Hp.
  set (others := List.filter (fun a => negb (a =? me)%N) mods) in *.
  assert (forall a, a ∈ others <-> is_other c me a) as Ho.
  { intros a. unfold others, is_other. rewrite filter_elem. unfold mods. by rewrite mods_elem. }
  assert (NoDup others) as Hdo by (apply filter_nodup, mods_nodup).
  assert (length mods = S (length others)) as Hlen.
  { apply filter_length; [apply mods_nodup|]. by apply mods_elem. }
  assert (map ga_at pacts = others) as Eps.
  { clear -Hp. induction Hp as [|a x l acts (p & _ & _ & ->) Hl IH]; [done|].
    cbn [map]. by rewrite IH. }
  assert (others ≡ₚ map fst (gp_props g)) as Hperm.
  { apply same_addresses; [done|done| |rewrite map_length; unfold addr in *; lia].
    intros a Ha. clear -Hp Ha. induction Hp as [|a' x l acts (p & Hp' & _) Hl IH].
    - by apply elem_of_nil in Ha.
    - apply elem_of_cons in Ha as [->|Ha]; [|auto].
      apply params_of_in in Hp'. by apply (elem_of_list_fmap_1 fst) in Hp'. }
  exists vacts, pacts. split; [done|]. split; [done|].
  split; [by destruct pacts|]. split; [done|]. split; [done|]. split; [done|].
  split; [intros a; rewrite <- Hperm; apply Ho|].
  split; [by rewrite Eps|].
  split.
  - intros a Ha%Ho. clear -Hp Ha. induction Hp as [|a' x l acts (p & _ & Hc & _) Hl IH].
    + by apply elem_of_nil in Ha.
    + apply elem_of_cons in Ha as [->|Ha]; auto.
  - assert (pacts = map (fun a => single_plan g (a, match params_of a (gp_props g) with
       Some p => p | None => PParams false AnyoneMayPropose None end)) others) as ->.
    { clear -Hp. induction Hp as [|a x l acts (p & Hp' & _ & ->) Hl IH]; [done|].
      cbn [map]. rewrite Hp', IH. done. }
    rewrite Hperm. rewrite map_map.
    assert (forall l, (forall x, x ∈ l -> x ∈ gp_props g) ->
      map (fun x : addr * pparams => single_plan g (x.1, match params_of x.1 (gp_props g) with
        Some p => p | None => PParams false AnyoneMayPropose None end)) l =
      map (single_plan g) l) as Hmap.
    { induction l as [|[a p] l IH]; intros Hl; [done|]. cbn [map fst].
      rewrite (params_of_nodup a p _ Hd) by (apply Hl; by left). f_equal.
      apply IH. intros x Hx. apply Hl. by right. }
    rewrite Hmap; done.
Qed.
End plan.
