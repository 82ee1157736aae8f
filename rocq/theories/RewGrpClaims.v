(** Proofs of the statements in RewGrpProps.v. *)
From Verif Require Import Base BaseProofs Exec ExecProofs Plain PlainProofs HooksModel StoreModel StoreProofs
  RewModel RewSpec RewProofs RewAccount RewClaims RewHookProofs RewHookClaims RewTokSpec RewTokProofs RewTokClaims
  RolesModel RolesProofs GrpModel GrpSpec GrpProofs RewGrpModel RewGrpSpec RewGrpProofs.

(** ** From one log to the other *)
Lemma tellings_lsum (f : eevent -> Z) sender md caller :
  (forall pre b a vp c w n post, f (ECall pre b a (EPower vp c w n) post []) = 0) ->
  forall ds e b, lsum f (tellings e b sender md caller ds) = 0.
Proof.
  intros Hf ds. induction ds as [|[[a old] new] ds IH]; intros e b; cbn [tellings]; [done|].
  destruct (set_power _ _ _ _ _ _); [|done]. cbn [lsum]. by rewrite Hf, IH.
Qed.
Lemma tellings_all (f : eevent -> bool) sender md caller (D : gmap Z dist) :
  (forall pre b a w n post, e_dists pre = D -> f (ECall pre b a (EPower md caller w n) post []) = true) ->
  forall ds e b, e_dists e = D -> forallb f (tellings e b sender md caller ds) = true.
Proof.
  intros Hf ds. induction ds as [|[[a old] new] ds IH]; intros e b He; cbn [tellings]; [done|].
  destruct (set_power _ _ _ _ _ _) as [e'|] eqn:E; [|done]. cbn [forallb]. rewrite Hf by done. apply IH.
  unfold set_power in E. cbn zeta in E. destruct (_ <=? U128_MAX); [|done]. by injection E as <-.
Qed.
Section logs.
  Context (gr md self : addr) (l : gjlog) (l' : elog) (id : Z).
  Context (Hl : RewTokSpec.calls l' = flat_map (grp_part gr md self) l).
  Ltac each e := destruct e as [pre b a [m|m|] post subs|]; cbn [grp_part lsum];
    [rewrite tellings_lsum by done; reflexivity| |
     destruct (gj_out pre) as [|[h ds] out]; [reflexivity|destruct (h =? self)%N; reflexivity]|reflexivity].
  Lemma gfunded_eq : funded id l' = gfunded id l.
  Proof.
    unfold funded. rewrite lsum_calls, Hl, lsum_flat by done. apply lsum_ext. intros e _.
    each e. cbn. lia.
  Qed.
  Lemma gclaimed_eq : claimed id l' = gclaimed id l.
  Proof.
    unfold claimed. rewrite lsum_calls, Hl, lsum_flat by done. apply lsum_ext. intros e _.
    each e. destruct m; cbn; try reflexivity. lia.
  Qed.
  Lemma gwithdrawn_eq : withdrawn id l' = gwithdrawn id l.
  Proof.
    unfold withdrawn. rewrite lsum_calls, Hl, lsum_flat by done. apply lsum_ext. intros e _.
    each e. destruct m; cbn; try reflexivity. lia.
  Qed.
  Lemma gtame_of : gorderly gr md self id l = true -> tame id l' = true.
  Proof.
    unfold tame, gorderly. rewrite forallb_calls, Hl, forallb_flat by done. generalize l.
    intros k0. induction k0 as [|e k IH]; cbn [forallb]; [done|]. intros [H1 H2]%andb_true_iff.
    rewrite IH by done. rewrite andb_true_r. clear IH H2. apply andb_true_iff in H1 as [H1 H2].
    destruct e as [pre b a [m|m|] post subs|]; cbn [grp_part]; [| | |reflexivity].
    - destruct (g_diffs (gj_g pre) b m) as [|d0 ds0] eqn:Eds; [reflexivity|].
      apply (tellings_all _ _ _ _ (e_dists (gj_e pre))); [|done]. intros p b1 a1 w n q Hp.
      cbn [reported steady quiet funds_to]. rewrite !andb_true_r. rewrite Hp.
      destruct m as [x|remove add|x|x|]; try discriminate Eds. cbn [gset_up] in H1.
      destruct (e_dists (gj_e pre) !! id) as [d|]; [|reflexivity].
      destruct (di_vp d =? md)%N; [|reflexivity]. cbn [negb orb] in *. apply andb_true_iff in H1 as [H1 H3].
      unfold teller. by rewrite H3, H1.
    - cbn [forallb]. rewrite andb_true_r. cbn [gunhurried] in H2.
      assert (quiet id (ECall (gj_e pre) b a m (gj_e post) subs) = true) as -> by exact H2.
      rewrite andb_true_r. destruct m; cbn [reported steady gset_up] in *; rewrite ?andb_true_r; done.
    - destruct (gj_out pre) as [|[h ds] out]; [reflexivity|].
      destruct (h =? self)%N; reflexivity.
  Qed.
End logs.
Lemma greached_tied gr md self b s l :
  gjreached gr md self b s l -> tied gr md self b s /\ gj_goes gr s b = true /\
  exists l', ereached b (gj_e s) l' /\ RewTokSpec.calls l' = flat_map (grp_part gr md self) l.
Proof.
  intros (b0 & owner & admin & vs & H0 & HL & Hg).
  destruct (gj_history _ _ _ _ _ _ _ _ _ _ HL) as (HT & l' & HL' & Hl).
  split; [done|]. split; [done|]. exists l'. split; [|done]. exists b0, owner, ({[md]} ∪ vs). split; [done|]. split; [done|].
  by apply (tied_goes gr md self b s).
Qed.
(** *** C136: a history of the distributor, seeing the module's answers *)
Lemma c136_history gr md self b s l :
  gjreached gr md self b s l ->
  (exists l', ereached b (gj_e s) l' /\ only_calls l' = flat_map (grp_part gr md self) l) /\
  exists v, e_vps (gj_e s) !! md = Some v /\
    (forall a h, smap_at (vp_pow v) a h = gv_power (gj_g s) a (Some h)) /\
    (forall h, snap_get_at (vp_tot v) h = gv_total (gj_g s) (Some h)) /\
    forall a, smap_get (vp_pow v) a = gv_power (gj_g s) a None.
Proof.
  intros HR. destruct (greached_tied _ _ _ _ _ _ HR) as (HT & _ & HE). split; [done|].
  destruct (td_vp _ _ _ _ _ HT) as (v & E & A1 & A2). exists v. split; [done|]. split; [|split].
  - intros a h. symmetry. exact (agree_all _ _ _ h (A1 a)).
  - intros h. symmetry. exact (agree_all _ _ _ h A2).
  - intros a. symmetry. exact (ag_now _ _ _ (A1 a)).
Qed.
(** *** C136: updates the group accepts are accepted *)
Lemma c136_accepts gr md self b s l a m :
  gjreached gr md self b s l ->
  (forall g' subs, g_handle (gj_g s) b a m = Ok (g', subs) ->
     exists s', gj_handle gr md self s b a (GGrp m) = Ok (s', []) /\ gj_g s' = g' /\ gj_out s' = subs ++ gj_out s) /\
  (forall x, g_handle (gj_g s) b a m = Err x -> gj_handle gr md self s b a (GGrp m) = Err x).
Proof.
  intros HR. destruct (greached_tied _ _ _ _ _ _ HR) as (HT & Hg & _).
  destruct (tied_goes _ _ _ _ _ HT Hg) as [He _]. unfold gj_handle. rewrite Hg. split.
  - intros g' subs Eg. rewrite Eg.
    destruct (group_step _ _ _ _ _ _ _ _ _ HT He Eg) as (e' & E1 & _). rewrite E1. by eexists.
  - intros x Ex. by rewrite Ex.
Qed.
(** *** C136: creating a group comes to adding its members *)
Lemma fill_add l : forall ms t h ms' t',
  weights_fit l = true -> NoDup l.*1 -> (forall a, a ∈ l.*1 -> smap_load ms a = None) ->
  0 <= t -> g_fill ms t h l = Ok (ms', t') -> exists ds, g_add ms t h l = Ok (ms', t', ds).
Proof.
  induction l as [|[a w] l IH]; cbn [g_fill g_add]; intros ms t h ms' t' Hf Hn Ha Ht H.
  - injection H as <- <-. by exists [].
  - cbn in Hf. apply andb_true_iff in Hf as [Hf1 Hf2]. apply NoDup_cons in Hn as [Hn1 Hn2].
    rewrite (Ha a) by apply elem_of_list_here. cbn [default from_option id]. unfold sub64. unfold add64 in *. cbn zeta.
    replace (0 <=? t) with true by lia. replace (t - 0) with t by lia.
    destruct (t + w <=? U64_MAX); [|done].
    destruct (IH (smap_save ms a h w) (t + w) h ms' t' Hf2 Hn2) as [ds E]; [| |exact H|].
    + intros x Hx. change (smap_save ms a h w) with (set_member ms a h (Some w)). rewrite set_member_load.
      rewrite decide_False by (intros ->; done). apply Ha. by apply elem_of_list_further.
    + unfold fits64 in Hf1. lia.
    + rewrite E. by eexists.
Qed.
Lemma c136_made admin members b g :
  g_create (Some admin) members b = Ok g ->
  g_handle (g_bare admin b) b admin (GMembers [] members) = Ok (g, []).
Proof.
  intros E. unfold g_create in E.
  destruct (weights_fit members) eqn:Hf; [|done]. destruct (unique members) eqn:Hu; [|done].
  destruct (g_fill ∅ 0 (height b) members) as [[ms t]|] eqn:Ef; [|done]. injection E as <-.
  cbn [g_handle]. rewrite Hf. unfold is_admin. cbn [g_bare g_admin]. rewrite bool_decide_eq_true_2 by done.
  unfold g_update. rewrite Hu. unfold g_bare. cbn [g_members g_total].
  change (snap_get (snap_save snap_empty (height b) 0)) with 0.
  destruct (fill_add members ∅ 0 (height b) ms t Hf) as [ds Ed]; [|intros a _; apply load_empty|lia|done|].
  { unfold unique in Hu. by apply bool_decide_eq_true in Hu. }
  rewrite Ed. cbn [g_remove]. cbn [g_admin g_hooks map]. f_equal. f_equal. f_equal.
  unfold snap_save. cbn. by rewrite Z.eqb_refl.
Qed.
(** *** C136: within what was paid in *)
Lemma c136_covered gr md self id b s l us :
  gjreached gr md self b s l -> gorderly gr md self id l = true -> e_dists (gj_e s) !! id <> None -> NoDup us ->
  (forall u, 0 <= claimable (gj_e s) b id u) /\
  gclaimed id l + gwithdrawn id l + lsum (claimable (gj_e s) b id) us + remaining (gj_e s) b id <= gfunded id l.
Proof.
  intros HR Ho Hd Hn. destruct (greached_tied _ _ _ _ _ _ HR) as (_ & _ & l' & HE & Hl).
  rewrite <-(gclaimed_eq gr md self l l' id Hl), <-(gwithdrawn_eq gr md self l l' id Hl), <-(gfunded_eq gr md self l l' id Hl).
  apply (covered id b _ l' us HE); [by apply (gtame_of gr md self l l' id Hl)|done|done].
Qed.
(** *** C136: claims succeed *)
Lemma c136_claim gr md self b s l id d a n :
  gjreached gr md self b s l -> e_dists (gj_e s) !! id = Some d -> a <> gr ->
  (forall i d', e_dists (gj_e s) !! i = Some d' -> di_denom d' = di_denom d -> gorderly gr md self i l = true) ->
  pending_rewards (gj_e s) b id a = Ok n -> n <> 0 ->
  exists s', gj_handle gr md self s b a (GRew (EClaim id)) = Ok (s', [EPay (di_denom d) a n]) /\ gj_g s' = gj_g s.
Proof.
  intros HR Hd Ha Ho Hp Hn. destruct (greached_tied _ _ _ _ _ _ HR) as (HT & Hg & l' & HE & Hl).
  destruct (claim_goes b (gj_e s) l' id d a n HE Hd) as [e' E]; [|done|done|].
  { intros i d' Hi Hden. apply (gtame_of gr md self l l' i Hl). by eapply Ho. }
  unfold e_handle in E. destruct (e_goes _ _); [|done]. unfold gj_handle. rewrite Hg.
  replace (a =? gr)%N with false by (symmetry; by apply N.eqb_neq). cbn [negb andb g_elsewhere]. rewrite E. by eexists.
Qed.
(** *** C136: an update goes through, hook and all *)
Lemma c136_goes_through gr md self b s l a remove add g' subs ids :
  gjreached gr md self b s l -> gj_out s = [] ->
  g_hooks (gj_g s) = [self] -> e_hooks (gj_e s) !! gr = Some ids ->
  (forall i, i ∈ ids -> gorderly gr md self i l = true /\ gfunded i l <= 10 ^ 38) ->
  g_handle (gj_g s) b a (GMembers remove add) = Ok (g', subs) ->
  exists s1 s2, gj_handle gr md self s b a (GGrp (GMembers remove add)) = Ok (s1, []) /\
    gj_handle gr md self s1 b a GDeliver = Ok (s2, []) /\ gj_g s2 = g' /\ gj_out s2 = [].
Proof.
  intros HR Ho Hk Hr Hi Ht. pose proof (greached_tied _ _ _ _ _ _ HR) as (HT & Hg & l0 & HE0 & _).
  destruct (tied_goes _ _ _ _ _ HT Hg) as [He _].
  destruct (group_call _ _ _ _ _ _ (td_bnd _ _ _ _ _ HT) Ht) as (_ & _ & Hs & _). rewrite Hk in Hs. cbn [map] in Hs.
  destruct (group_step _ _ _ _ _ _ _ _ _ HT He Ht) as (e1 & T1 & _ & T3 & T4 & _).
  set (m := GMembers remove add) in *. set (s1 := GJ g' e1 (subs ++ gj_out s) b).
  assert (g_hooked self (gj_g s) = true) as Hh by (unfold g_hooked; rewrite Hk; cbn; by rewrite N.eqb_refl).
  assert (gj_handle gr md self s b a (GGrp m) = Ok (s1, [])) as E1.
  { unfold gj_handle. by rewrite Hg, Ht, T1. }
  assert (gjreached gr md self b s1 (l ++ [ECall s b a (GGrp m) s1 []])) as HR1.
  { destruct HR as (b0 & owner & admin & vs & H0 & HL & _).
    exists b0, owner, admin, vs. split; [done|]. split.
    - eapply leads_app; [exact HL|]. exists [(b, Call a (GGrp m) [])].
      split; [split; [apply block_le_refl|done]|]. split; [|apply block_le_refl]. cbn -[s1 m]. by rewrite E1.
    - unfold gj_goes in *. cbn [gj_block s1]. rewrite !Z.eqb_refl. apply andb_true_iff in Hg as [-> _]. done. }
  destruct (greached_tied _ _ _ _ _ _ HR1) as (HT1 & Hg1 & l1 & HE1 & Hl1).
  destruct (c115_hook b (gj_e s1) l1 gr ids (map (fun d : gdiff => d.1.1) (g_diffs (gj_g s) b m)) HE1) as [e2 E2].
  { cbn [gj_e s1]. by rewrite T3. }
  { intros i Hin. destruct (Hi i Hin) as [O1 O2]. rewrite (gfunded_eq gr md self _ l1 i Hl1). split.
    - apply (gtame_of gr md self _ l1 i Hl1). unfold gorderly in *. rewrite forallb_app, O1. cbn [andb app forallb].
      destruct (regs_reached _ _ _ HE0 gr i) as (d & Ed & Hd); [unfold registered; by rewrite Hr|].
      cbn [gset_up gunhurried m]. rewrite Ed, Hd, N.eqb_refl, Hh. cbn [andb]. by rewrite orb_true_r.
    - unfold gfunded in *. rewrite lsum_app. cbn [lsum]. lia. }
  exists s1, (GJ g' e2 [] b). split; [exact E1|]. split; [|done].
  unfold gj_handle. rewrite Hg1. cbn [gj_out s1]. rewrite Hs, Ho. cbn [app]. rewrite N.eqb_refl.
  unfold e_handle in E2. destruct (e_goes (gj_e s1) b); [|done].
  cbn [gj_e gj_g s1] in E2 |- *. by rewrite E2.
Qed.
