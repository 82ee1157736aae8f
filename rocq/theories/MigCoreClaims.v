(** Migrations of the DAO core: lemmas and claims. *)
From stdpp Require Import gmap strings.
From Verif Require Import Base BaseProofs CoreModel CoreSpec CoreProofs CoreClaims MigCoreModel
  MigCoreSpec.

(** ** The modules taken over *)
Lemma derive_ok i : i + 1 <= U32_MAX -> exists p, derive_prefix i = Ok p.
Proof.
  intros H. unfold derive_prefix. destruct (Z.leb_spec (i + 1) U32_MAX); [eauto|lia].
Qed.
Lemma derive_bound i p : derive_prefix i = Ok p -> i + 1 <= U32_MAX.
Proof. unfold derive_prefix. destruct (Z.leb_spec (i + 1) U32_MAX); [done|discriminate]. Qed.
Lemma take_over_spec keys : forall i (m m' : gmap addr kmod),
  0 <= i -> NoDup keys -> take_over i keys m = Ok m' ->
  (forall (n : nat) a, keys !! n = Some a ->
     exists p, m' !! a = Some (KMod true p) /\ derive_prefix (i + Z.of_nat n) = Ok p) /\
  (forall a, ~ (a ∈ keys) -> m' !! a = m !! a).
Proof.
  induction keys as [|k keys IH]; intros i m m' Hi Hn H; cbn in H.
  { injection H as <-. split; [intros n a Ha; by rewrite lookup_nil in Ha|done]. }
  apply NoDup_cons in Hn as [Hk Hn].
  destruct (derive_prefix i) as [p|] eqn:Ep; [|discriminate].
  destruct (IH (i + 1) _ _ ltac:(lia) Hn H) as [A B]. split.
  - intros [|n] a Ha.
    + injection Ha as <-. exists p. rewrite (B k Hk), lookup_insert.
      split; [done|]. by replace (i + Z.of_nat 0) with i by lia.
    + destruct (A n a Ha) as (q & Hq & Hp). exists q. split; [done|].
      by replace (i + Z.of_nat (S n)) with (i + 1 + Z.of_nat n) by lia.
  - intros a Ha. apply not_elem_of_cons in Ha as [Ha1 Ha2].
    rewrite (B a Ha2). by rewrite lookup_insert_ne.
Qed.
Lemma take_over_ok keys : forall i (m : gmap addr kmod),
  i + Z.of_nat (length keys) <= U32_MAX -> exists m', take_over i keys m = Ok m'.
Proof.
  induction keys as [|k keys IH]; intros i m H; cbn in H |- *; [eauto|].
  destruct (derive_ok i) as [p ->]; [lia|]. apply IH. lia.
Qed.
Lemma take_over_dom keys i (m' : gmap addr kmod) :
  0 <= i -> NoDup keys -> take_over i keys ∅ = Ok m' ->
  forall a, is_Some (m' !! a) <-> a ∈ keys.
Proof.
  intros Hi Hn H a. destruct (take_over_spec keys i ∅ m' Hi Hn H) as [A B]. split.
  - intros Ha. destruct (decide (a ∈ keys)) as [|Hna]; [done|].
    rewrite (B a Hna), lookup_empty in Ha. by destruct Ha.
  - intros Ha. apply elem_of_list_lookup in Ha as [n Hn']. destruct (A n a Hn') as (p & -> & _).
    eauto.
Qed.
Lemma take_over_size keys i (m' : gmap addr kmod) :
  0 <= i -> NoDup keys -> take_over i keys ∅ = Ok m' -> size m' = length keys.
Proof.
  intros Hi Hn H. rewrite <- (size_dom m').
  assert (dom m' = (list_to_set keys : gset addr)) as ->.
  { apply set_eq. intros a. rewrite elem_of_dom, elem_of_list_to_set.
    by eapply take_over_dom. }
  by apply size_list_to_set.
Qed.
Lemma take_over_active keys i (m' : gmap addr kmod) :
  0 <= i -> NoDup keys -> take_over i keys ∅ = Ok m' -> filter on m' = m'.
Proof.
  intros Hi Hn H. apply map_filter_id. intros a x Hx.
  assert (a ∈ keys) as Ha by (eapply take_over_dom; eauto).
  apply elem_of_list_lookup in Ha as [n Hna].
  destruct (take_over_spec keys i ∅ m' Hi Hn H) as [A _]. destruct (A n a Hna) as (p & Hp & _).
  rewrite Hx in Hp. injection Hp as ->. done.
Qed.

Lemma z_migrate_inv s v rest migrator s' :
  z_migrate s v (ZFromV1 rest migrator) = Ok s' ->
  exists mods au, z_version s <> v /\ z_vconf s = Some au /\
    take_over 0 (z_vmods s) (k_mods (k_core (z_st s))) = Ok mods /\
    s' = ZState (z_admin s) v (z_vconf s) (z_vmods s)
      (KState (k_set_conf (k_set_mods (k_core (z_st s)) mods
                 (Z.of_nat (length (z_vmods s)) mod 2 ^ 32)
                 (Z.of_nat (length (z_vmods s)) mod 2 ^ 32)) (KConf au.1 au.2 rest))
        (match migrator with Some i => [KSend (inl (KModules [i] []))] | None => [] end
         ++ k_todo (z_st s))).
Proof.
  cbn -[Z.modulo Z.pow]. intros H. destruct (N.eqb_spec (z_version s) v); [discriminate|].
  cbn [negb] in H.
  destruct (take_over 0 (z_vmods s) (k_mods (k_core (z_st s)))) as [mods|] eqn:E; [|discriminate].
  destruct (z_vconf s) as [au|] eqn:Ec; [|discriminate].
  injection H as <-. exists mods, au. done.
Qed.

(** ** The first migration *)
Lemma z_first s b a v rest migrator :
  z_left s ->
  ((exists s', z_event s b (ZMigrate a v (ZFromV1 rest migrator)) = Ok s') <->
   a = z_admin s /\ v <> z_version s /\ is_Some (z_vconf s)).
Proof.
  intros HL. cbn [z_event]. split.
  - intros (s' & H). destruct (N.eqb_spec a (z_admin s)) as [->|]; [|discriminate].
    apply z_migrate_inv in H as (mods & au & Hv & Hc & _). split; [done|]. split; [done|].
    rewrite Hc. eauto.
  - intros (-> & Hv & [au Hau]). rewrite N.eqb_refl. unfold z_migrate.
    rewrite (proj2 (N.eqb_neq _ _)) by done. cbn [negb].
    destruct (take_over_ok (z_vmods s) 0 (k_mods (k_core (z_st s)))) as [m ->].
    { pose proof (zl_few s HL). lia. }
    rewrite Hau. eauto.
Qed.
Lemma z_few_mod s : z_left s ->
  Z.of_nat (length (z_vmods s)) mod 2 ^ 32 = Z.of_nat (length (z_vmods s)).
Proof.
  intros HL. pose proof (zl_few s HL) as H. unfold U32_MAX in H. apply Z.mod_small. lia.
Qed.
Lemma z_takes_over s b a v rest migrator s' :
  z_left s -> z_event s b (ZMigrate a v (ZFromV1 rest migrator)) = Ok s' ->
  let c := k_core (z_st s) in let c' := k_core (z_st s') in
  (forall a, is_Some (k_mods c' !! a) <-> a ∈ z_vmods s) /\
  (forall (n : nat) a, z_vmods s !! n = Some a ->
     exists p, k_mods c' !! a = Some (KMod true p) /\ capitals p /\ spells 0 p = Z.of_nat n + 1) /\
  k_active c' = Z.of_nat (length (z_vmods s)) /\ k_total c' = Z.of_nat (length (z_vmods s)) /\
  others c' = others c /\
  z_vconf s = Some (kc_auto20 (k_conf c'), kc_auto721 (k_conf c')) /\ kc_rest (k_conf c') = rest /\
  z_version s' = v /\
  k_todo (z_st s') =
    match migrator with Some i => [KSend (inl (KModules [i] []))] | None => [] end ++ k_todo (z_st s).
Proof.
  intros HL H. cbn [z_event] in H. destruct (a =? z_admin s)%N; [|discriminate].
  apply z_migrate_inv in H as (mods & au & _ & Hc & Hm & ->). rewrite z_few_mod by done.
  rewrite (zl_none s HL) in Hm. cbn [k_core z_st]. cbv zeta.
  destruct (take_over_spec _ 0 ∅ mods ltac:(lia) (zl_nodup s HL) Hm) as [A _].
  split; [exact (take_over_dom _ 0 _ ltac:(lia) (zl_nodup s HL) Hm)|].
  split.
  - intros n x Hx. destruct (A n x Hx) as (p & Hp & Hd). exists p. split; [done|].
    rewrite Z.add_0_l in Hd. split; [by eapply derive_capitals; [|exact Hd]; lia|].
    by eapply derive_spells; [|exact Hd]; lia.
  - do 3 (split; [done|]). cbn. rewrite Hc. by destruct au.
Qed.

(** ** While version one's data are not read again *)
Lemma z_upgraded_first s b a v rest migrator s' :
  z_left s -> z_event s b (ZMigrate a v (ZFromV1 rest migrator)) = Ok s' -> kinv (z_st s').
Proof.
  intros HL H. cbn [z_event] in H. destruct (a =? z_admin s)%N; [|discriminate].
  apply z_migrate_inv in H as (mods & au & _ & Hc & Hm & ->). rewrite z_few_mod by done.
  rewrite (zl_none s HL) in Hm.
  pose proof (zl_nodup s HL) as Hn.
  pose proof (take_over_dom _ 0 _ ltac:(lia) Hn Hm) as Hd.
  destruct (take_over_spec _ 0 ∅ mods ltac:(lia) Hn Hm) as [A _].
  assert (forall x y, mods !! x = Some y -> exists n : nat, z_vmods s !! n = Some x /\
    (n < length (z_vmods s))%nat /\ y = KMod true (km_prefix y) /\
    derive_prefix (Z.of_nat n) = Ok (km_prefix y)) as Hidx.
  { intros x y Hy. assert (x ∈ z_vmods s) as Hx by (apply Hd; eauto).
    apply elem_of_list_lookup in Hx as [n Hx]. destruct (A n x Hx) as (p & Hp & Hp').
    rewrite Hy in Hp. injection Hp as ->. exists n. split; [done|].
    split; [by eapply lookup_lt_Some|]. done. }
  split; cbn.
  - destruct (mods !! _) eqn:E; [|done]. exfalso. apply (zl_self s HL), Hd. eauto.
  - unfold n_active. cbn. rewrite (take_over_active _ 0 _ ltac:(lia) Hn Hm).
    by rewrite (take_over_size _ 0 _ ltac:(lia) Hn Hm).
  - unfold n_total. cbn. by rewrite (take_over_size _ 0 _ ltac:(lia) Hn Hm).
  - apply (zl_few s HL).
  - left. pose proof (zl_some s HL). destruct (z_vmods s); [done|]. cbn. lia.
  - intros x y Hy. destruct (Hidx x y Hy) as (n & _ & Hlt & _ & Hp). exists (Z.of_nat n).
    split; [lia|done].
  - intros x x' y y' Hy Hy' E. destruct (Hidx x y Hy) as (n & Hx & _ & _ & Hp).
    destruct (Hidx x' y' Hy') as (n' & Hx' & _ & _ & Hp'). rewrite E in Hp.
    pose proof (derive_inj (Z.of_nat n) (Z.of_nat n') _ ltac:(lia) ltac:(lia) Hp Hp') as En.
    assert (n = n') as -> by lia. rewrite Hx in Hx'. by injection Hx'.
Qed.
Lemma z_upgraded_inv b s : z_upgraded b s -> kinv (z_st s).
Proof.
  intros (s0 & b1 & a & v & rest & migrator & s1 & HL & H1 & Hl).
  induction Hl as [|b s b' e s' Hl IH Hb Hd He H]; [by eapply z_upgraded_first|].
  destruct e as [e|x v' [? ?|]]; cbn [z_event] in H.
  - destruct (k_event (z_st s) b' e) as [t|] eqn:E; [|discriminate]. injection H as <-.
    by eapply kinv_event.
  - done.
  - destruct (x =? z_admin s)%N; [|discriminate]. by injection H as <-.
Qed.
Lemma z_counts b s : z_upgraded b s ->
  q_module_count (k_core (z_st s)) = (n_active (k_core (z_st s)), n_total (k_core (z_st s))).
Proof.
  intros H. apply z_upgraded_inv in H as I. unfold q_module_count.
  by rewrite (ki_active _ I), (ki_total _ I).
Qed.
Lemma z_prefixes b s a a' x x' : z_upgraded b s ->
  k_mods (k_core (z_st s)) !! a = Some x -> k_mods (k_core (z_st s)) !! a' = Some x' -> a <> a' ->
  km_prefix x <> km_prefix x'.
Proof.
  intros H Hx Hx' Na E. apply z_upgraded_inv in H as I.
  apply Na. exact (ki_prefix _ I _ _ _ _ Hx Hx' E).
Qed.
Lemma z_some_module b s : z_upgraded b s -> k_todo (z_st s) = [] ->
  exists a, enabled (k_core (z_st s)) a.
Proof.
  intros H Ht. apply z_upgraded_inv in H as I. destruct (ki_some _ I) as [Ha|[i Hi]].
  - rewrite (ki_active _ I) in Ha. unfold n_active in Ha.
    destruct (map_to_list (filter on (k_mods (k_core (z_st s))))) as [|[a x] t] eqn:E.
    { apply map_to_list_empty_iff in E. rewrite E, map_size_empty in Ha. lia. }
    assert (filter on (k_mods (k_core (z_st s))) !! a = Some x) as Hx.
    { apply elem_of_map_to_list. rewrite E. left. }
    apply map_filter_lookup_Some in Hx as [Hx Ho]. exists a, (km_prefix x). rewrite Hx.
    destruct x as [o p]. unfold on in Ho. cbn in *. by subst.
  - rewrite Ht in Hi. by apply elem_of_nil in Hi.
Qed.
(** A module that has been disabled stays so. *)
Lemma z_disabled b s b' s' a x : zleads no_v1 b s b' s' -> z_upgraded b s ->
  k_mods (k_core (z_st s)) !! a = Some x -> km_on x = false ->
  k_mods (k_core (z_st s')) !! a = Some x.
Proof.
  intros Hl HU Hx Ho. induction Hl as [|b2 s2 b3 e s3 Hl IH Hb Hd He H]; [done|].
  destruct e as [e|y v' [? ?|]]; cbn [z_event] in H.
  - destruct (k_event (z_st s2) b3 e) as [t|] eqn:E; [|discriminate]. injection H as <-. cbn.
    assert (forall dis m m', disable_all m dis = Ok m' -> m !! a = Some x -> m' !! a = Some x) as Hdis.
    { clear - Ho. induction dis as [|c dis IHd]; intros m m' H Hx; cbn in H.
      { by injection H as <-. }
      destruct (m !! c) as [z|] eqn:Ec; [|done]. destruct (km_on z) eqn:Eo; [|done].
      eapply IHd; [exact H|]. destruct (decide (c = a)) as [->|]; [congruence|].
      by rewrite lookup_insert_ne. }
    destruct e as [y m| |y msgs|]; cbn in E.
    + destruct (negb _); [|done].
      destruct (k_execute (k_core (z_st s2)) b3 y m) as [[c l]|] eqn:E1; [|done].
      injection E as <-. cbn. apply k_execute_step in E1 as [E1 _].
      apply k_step_cases in E1 as [[Em _]|(add & dis & mods & n & -> & -> & -> & Hdi & Hn & ->)].
      * injection Em as -> _ _ _. done.
      * cbn. by eapply Hdis.
    + destruct (k_todo (z_st s2)) as [|[id i|[m|n]] t'] eqn:Et; try done.
      destruct (k_execute (k_core (z_st s2)) b3 _ m) as [[c l]|] eqn:E1; [|done].
      injection E as <-. cbn. apply k_execute_step in E1 as [E1 _].
      apply k_step_cases in E1 as [[Em _]|(add & dis & mods & n & -> & Ey & -> & Hdi & Hn & ->)].
      * injection Em as -> _ _ _. done.
      * cbn. by eapply Hdis.
    + destruct (k_todo (z_st s2)) as [|[id i|[m|n]] t'] eqn:Et; try done.
      destruct (k_mods (k_core (z_st s2)) !! y) eqn:Ey; [done|].
      destruct (N.eqb_spec y (k_self (k_core (z_st s2)))); [done|]. cbn in E.
      destruct (k_reply (k_core (z_st s2)) id y msgs) as [[c l]|] eqn:E1; [|done].
      injection E as <-. cbn. unfold k_reply in E1.
      destruct (id =? PROPOSAL_ID).
      * destruct (derive_prefix _) as [p|]; [|done].
        destruct (k_active _ + 1 <=? U32_MAX); [|done].
        destruct (k_total (k_core (z_st s2)) + 1 <=? U32_MAX); [|done].
        injection E1 as <- <-. cbn. rewrite lookup_insert_ne; [done|]. intros ->. congruence.
      * destruct (id =? VOTE_ID).
        -- destruct (k_voting _); [done|]. injection E1 as <- <-. done.
        -- destruct (id =? VOTE_UPDATE_ID); [|done]. injection E1 as <- <-. done.
    + destruct (k_todo (z_st s2)) as [|[id i|[m|n]] t'] eqn:Et; try done. by injection E as <-.
  - done.
  - destruct (y =? z_admin s2)%N; [|discriminate]. by injection H as <-.
Qed.
