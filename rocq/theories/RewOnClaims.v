(** Proofs of the statements in RewOnProps.v. *)
From Verif Require Import Base BaseProofs Exec ExecProofs Plain PlainProofs HooksModel StoreModel StoreProofs
  RewModel RewSpec RewProofs RewAccount RewClaims RewHookProofs RewHookClaims RewTokSpec RewTokProofs RewTokClaims
  RewGrpModel RewGrpSpec RewGrpProofs RewOnModel RewOnSpec RewOnProofs.

(** ** From one log to the other *)
Section logs.
  Context {S M X : Type} (I : staking S M X).
  Context (hk md self : addr) (l : ojlog S M) (l' : elog) (id : Z).
  Context (Hl : RewTokSpec.calls l' = flat_map (on_part I hk md self) l).
  Ltac each e := destruct e as [pre b a [m|m|] post subs|]; cbn [on_part lsum];
    [destruct (st_who I a m); reflexivity| |
     destruct (oj_out pre) as [|[h who] out]; [reflexivity|destruct (h =? self)%N; reflexivity]|reflexivity].
  Lemma ofunded_eq : funded id l' = ofunded id l.
  Proof.
    unfold funded. rewrite lsum_calls, Hl, lsum_flat by done. apply lsum_ext. intros e _.
    each e. cbn. lia.
  Qed.
  Lemma oclaimed_eq : claimed id l' = oclaimed id l.
  Proof.
    unfold claimed. rewrite lsum_calls, Hl, lsum_flat by done. apply lsum_ext. intros e _.
    each e. destruct m; cbn; try reflexivity. lia.
  Qed.
  Lemma owithdrawn_eq : withdrawn id l' = owithdrawn id l.
  Proof.
    unfold withdrawn. rewrite lsum_calls, Hl, lsum_flat by done. apply lsum_ext. intros e _.
    each e. destruct m; cbn; try reflexivity. lia.
  Qed.
  Lemma otame_of : oorderly I hk md self id l = true -> tame id l' = true.
  Proof.
    unfold tame, oorderly. rewrite forallb_calls, Hl, forallb_flat by done. generalize l.
    intros k0. induction k0 as [|e k IH]; cbn [forallb]; [done|]. intros [H1 H2]%andb_true_iff.
    rewrite IH by done. rewrite andb_true_r. clear IH H2. apply andb_true_iff in H1 as [H1 H2].
    destruct e as [pre b a [m|m|] post subs|]; cbn [on_part]; [| | |reflexivity].
    - cbn [oset_up] in H1. destruct (st_who I a m) as [w|]; [|reflexivity].
      cbn [forallb reported steady quiet funds_to]. rewrite !andb_true_r.
      destruct (e_dists (oj_e pre) !! id) as [d|]; [|reflexivity].
      destruct (di_vp d =? md)%N; [|reflexivity]. cbn [negb orb] in *. apply andb_true_iff in H1 as [H1 H3].
      unfold o_teller. by rewrite H3, H1.
    - cbn [forallb]. rewrite andb_true_r. cbn [ounhurried] in H2.
      assert (quiet id (ECall (oj_e pre) b a m (oj_e post) subs) = true) as -> by exact H2.
      rewrite andb_true_r. destruct m; cbn [reported steady oset_up] in *; rewrite ?andb_true_r; done.
    - destruct (oj_out pre) as [|[h who] out]; [reflexivity|].
      destruct (h =? self)%N; reflexivity.
  Qed.
End logs.
Lemma oreached_tied {S M X} (I : staking S M X) made ok hk md self b s l :
  lawful I made ok -> ojreached I made hk md self b s l ->
  oj_tied I ok hk md self b s /\ oj_goes hk s b = true /\
  exists l', ereached b (oj_e s) l' /\ RewTokSpec.calls l' = flat_map (on_part I hk md self) l.
Proof.
  intros L (b0 & owner & vs & k0 & H0 & Hm & HL & Hg).
  destruct (oj_history I made ok L hk md self _ _ _ _ _ _ _ Hm HL) as (HT & l' & HL' & Hl).
  split; [done|]. split; [done|]. exists l'. split; [|done]. exists b0, owner, ({[md]} ∪ vs). split; [done|]. split; [done|].
  by apply (oj_tied_goes I ok hk md self b s).
Qed.
(** One more call. *)
Lemma oreached_call {S M X} (I : staking S M X) made hk md self b s l a m s' :
  ojreached I made hk md self b s l -> oj_handle I hk md self s b a m = Ok (s', []) -> oj_block s' = b ->
  ojreached I made hk md self b s' (l ++ [ECall s b a m s' []]).
Proof.
  intros (b0 & owner & vs & k0 & H0 & Hm & HL & Hg) E Hb.
  exists b0, owner, vs, k0. split; [done|]. split; [done|]. split.
  - eapply leads_app; [exact HL|]. exists [(b, Call a m [])].
    split; [split; [apply block_le_refl|done]|]. split; [|apply block_le_refl]. cbn. by rewrite E.
  - unfold oj_goes in *. rewrite Hb, !Z.eqb_refl. by apply andb_true_iff in Hg as [-> _].
Qed.
(** *** C138: a history of the distributor, seeing the staking contract's answers *)
Lemma c138_history {S M X} (I : staking S M X) made hk md self b s l :
  one_of_three I made -> ojreached I made hk md self b s l ->
  (exists l', ereached b (oj_e s) l' /\ ecalls l' = flat_map (on_part I hk md self) l) /\
  exists v, e_vps (oj_e s) !! md = Some v /\
    (forall a h, smap_at (vp_pow v) a h = st_power_at I (oj_m s) b a (Some h)) /\
    (forall h, snap_get_at (vp_tot v) h = st_total_at I (oj_m s) b (Some h)) /\
    (forall a, vp_power_at v b a = st_power_at I (oj_m s) b a None) /\
    vp_total_at v b = st_total_at I (oj_m s) b None.
Proof.
  intros H3 HR. destruct (three_lawful _ _ _ _ _ H3) as [ok L].
  destruct (oreached_tied _ _ _ _ _ _ _ _ _ L HR) as (HT & _ & HE). split; [done|].
  destruct (ot_vp HT) as (v & E & A1 & A2). exists v. split; [done|].
  assert (forall a h, smap_at (vp_pow v) a h = smap_at (st_stakes I (oj_m s)) a h) as Q1.
  { intros a h. symmetry. exact (agree_all _ _ _ h (A1 a)). }
  assert (forall h, snap_get_at (vp_tot v) h = snap_get_at (st_total I (oj_m s)) h) as Q2.
  { intros h. symmetry. exact (agree_all _ _ _ h A2). }
  split; [|split; [|split]].
  - intros a h. rewrite (lw_power _ _ _ L). apply Q1.
  - intros h. rewrite (lw_total _ _ _ L). apply Q2.
  - intros a. rewrite (lw_power _ _ _ L). apply Q1.
  - rewrite (lw_total _ _ _ L). apply Q2.
Qed.
(** *** C138: calls the staking contract accepts are accepted *)
Lemma c138_accepts {S M X} (I : staking S M X) made hk md self b s l a m :
  one_of_three I made -> ojreached I made hk md self b s l ->
  (forall k' subs, st_handle I (oj_m s) b a m = Ok (k', subs) ->
     exists s', oj_handle I hk md self s b a (OMod m) = Ok (s', []) /\ oj_m s' = k' /\
       oj_out s' = match st_who I a m with Some w => map (fun h => (h, w)) (st_hooks I (oj_m s)) | None => [] end ++ oj_out s) /\
  (forall x, st_handle I (oj_m s) b a m = Err x -> oj_handle I hk md self s b a (OMod m) = Err x).
Proof.
  intros H3 HR. destruct (three_lawful _ _ _ _ _ H3) as [ok L].
  destruct (oreached_tied _ _ _ _ _ _ _ _ _ L HR) as (HT & Hg & _).
  destruct (oj_tied_goes _ _ _ _ _ _ _ HT Hg) as [He _]. unfold oj_handle. rewrite Hg. split.
  - intros k' subs Ek. rewrite Ek.
    destruct (mod_step I made ok L hk md self _ _ _ _ _ _ HT He Ek) as (e' & E1 & _ & _ & _ & _ & _ & _ & _ & E8).
    rewrite E1. eexists. split; [reflexivity|]. split; [done|]. cbn [oj_out].
    destruct (st_who I a m); [by destruct E8 as [_ ->]|by rewrite E8].
  - intros x Ex. by rewrite Ex.
Qed.
(** *** C138: within what was paid in *)
Lemma c138_covered {S M X} (I : staking S M X) made hk md self id b s l us :
  one_of_three I made -> ojreached I made hk md self b s l -> oorderly I hk md self id l = true ->
  e_dists (oj_e s) !! id <> None -> NoDup us ->
  (forall u, 0 <= claimable (oj_e s) b id u) /\
  oclaimed id l + owithdrawn id l + lsum (claimable (oj_e s) b id) us + remaining (oj_e s) b id <= ofunded id l.
Proof.
  intros H3 HR Ho Hd Hn. destruct (three_lawful _ _ _ _ _ H3) as [ok L].
  destruct (oreached_tied _ _ _ _ _ _ _ _ _ L HR) as (_ & _ & l' & HE & Hl).
  rewrite <-(oclaimed_eq I hk md self l l' id Hl), <-(owithdrawn_eq I hk md self l l' id Hl), <-(ofunded_eq I hk md self l l' id Hl).
  apply (covered id b _ l' us HE); [by apply (otame_of I hk md self l l' id Hl)|done|done].
Qed.
(** *** C138: claims succeed *)
Lemma c138_claim {S M X} (I : staking S M X) made hk md self b s l id d a n :
  one_of_three I made -> ojreached I made hk md self b s l -> e_dists (oj_e s) !! id = Some d -> a <> hk ->
  (forall i d', e_dists (oj_e s) !! i = Some d' -> di_denom d' = di_denom d -> oorderly I hk md self i l = true) ->
  pending_rewards (oj_e s) b id a = Ok n -> n <> 0 ->
  exists s', oj_handle I hk md self s b a (ORew (EClaim id)) = Ok (s', [EPay (di_denom d) a n]) /\ oj_m s' = oj_m s.
Proof.
  intros H3 HR Hd Ha Ho Hp Hn. destruct (three_lawful _ _ _ _ _ H3) as [ok L].
  destruct (oreached_tied _ _ _ _ _ _ _ _ _ L HR) as (HT & Hg & l' & HE & Hl).
  destruct (claim_goes b (oj_e s) l' id d a n HE Hd) as [e' E]; [|done|done|].
  { intros i d' Hi Hden. apply (otame_of I hk md self l l' i Hl). by eapply Ho. }
  unfold e_handle in E. destruct (e_goes _ _); [|done]. unfold oj_handle. rewrite Hg.
  replace (a =? hk)%N with false by (symmetry; by apply N.eqb_neq). cbn [negb andb g_elsewhere]. rewrite E. by eexists.
Qed.
(** *** C138: a change of stake goes through, with every report *)
Lemma oorderly_snoc {S M X} (I : staking S M X) hk md self i l e :
  oorderly I hk md self i l = true -> oset_up I hk md self i e = true -> ounhurried i e = true ->
  oorderly I hk md self i (l ++ [e]) = true.
Proof. unfold oorderly. intros H1 H2 H3. rewrite forallb_app, H1. cbn. by rewrite H2, H3. Qed.
Lemma all_delivered {S M X} (I : staking S M X) made ok hk md self b c ids :
  lawful I made ok -> forall out s l,
  ojreached I made hk md self b s l -> oj_out s = out -> oj_block s = b -> e_hooks (oj_e s) !! hk = Some ids ->
  (forall i, i ∈ ids -> oorderly I hk md self i l = true /\ ofunded i l <= 10 ^ 38) ->
  exists s', deliveries I hk md self (length out) s b c = Ok s' /\ oj_m s' = oj_m s /\ oj_out s' = [].
Proof.
  intros L out. induction out as [|[h who] out IH]; intros s l HR Eo Eb Hr Hi.
  { exists s. done. }
  cbn [length deliveries].
  pose proof (oreached_tied _ _ _ _ _ _ _ _ _ L HR) as (HT & Hg & l' & HE & Hl).
  assert (exists e', oj_handle I hk md self s b c ODeliver = Ok (OJ (oj_m s) e' out b, []) /\ e_hooks e' = e_hooks (oj_e s)) as (e' & E & Hh).
  { unfold oj_handle. rewrite Hg, Eo. destruct (h =? self)%N; [|by exists (oj_e s)].
    destruct (c115_hook b (oj_e s) l' hk ids [who] HE Hr) as [e2 E2].
    { intros i Hin. destruct (Hi i Hin) as [O1 O2]. rewrite (ofunded_eq I hk md self _ l' i Hl). split; [|done].
      by apply (otame_of I hk md self _ l' i Hl). }
    unfold e_handle in E2. destruct (e_goes (oj_e s) b); [|done]. rewrite E2. exists e2. split; [done|].
    cbn [e_step] in E2. cbn [set_block e_hooks] in E2. rewrite Hr in E2.
    destruct (update_all _ _ _ _) as [s1|] eqn:Ea; [|done]. injection E2 as <-. apply all_same in Ea as [Ea _]. exact Ea. }
  rewrite E. apply (IH (OJ (oj_m s) e' out b) (l ++ [ECall s b c ODeliver (OJ (oj_m s) e' out b) []])); try done.
  - by apply oreached_call.
  - cbn [oj_e]. by rewrite Hh.
  - intros i Hin. destruct (Hi i Hin) as [O1 O2]. split; [by apply oorderly_snoc|].
    unfold ofunded in *. rewrite lsum_app. cbn [lsum]. lia.
Qed.
Lemma c138_goes_through {S M X} (I : staking S M X) made hk md self b s l a c m k' subs ids :
  one_of_three I made -> ojreached I made hk md self b s l ->
  o_hooked I self (oj_m s) = true -> e_hooks (oj_e s) !! hk = Some ids ->
  (forall i, i ∈ ids -> oorderly I hk md self i l = true /\ ofunded i l <= 10 ^ 38) ->
  st_handle I (oj_m s) b a m = Ok (k', subs) ->
  exists s1 s2, oj_handle I hk md self s b a (OMod m) = Ok (s1, []) /\
    deliveries I hk md self (length (oj_out s1)) s1 b c = Ok s2 /\ oj_m s2 = k' /\ oj_out s2 = [].
Proof.
  intros H3 HR Hh Hr Hi Ht. destruct (three_lawful _ _ _ _ _ H3) as [ok L].
  pose proof (oreached_tied _ _ _ _ _ _ _ _ _ L HR) as (HT & Hg & l0 & HE0 & _).
  destruct (oj_tied_goes _ _ _ _ _ _ _ HT Hg) as [He _].
  destruct (mod_step I made ok L hk md self _ _ _ _ _ _ HT He Ht) as (e1 & T1 & _ & T3 & _).
  set (s1 := OJ k' e1 (reports (st_report I) subs ++ oj_out s) b).
  assert (oj_handle I hk md self s b a (OMod m) = Ok (s1, [])) as E1.
  { unfold oj_handle. by rewrite Hg, Ht, T1. }
  pose proof (oreached_call I made hk md self b s l a (OMod m) s1 HR E1 eq_refl) as HR1.
  destruct (all_delivered I made ok hk md self b c ids L (oj_out s1) s1 _ HR1 eq_refl eq_refl) as (s2 & D1 & D2 & D3).
  { cbn [oj_e s1]. by rewrite T3. }
  { intros i Hin. destruct (Hi i Hin) as [O1 O2]. split.
    - apply oorderly_snoc; [done| |done].
      destruct (regs_reached _ _ _ HE0 hk i) as (d & Ed & Hd); [unfold registered; by rewrite Hr|].
      cbn [oset_up]. rewrite Ed, Hd, N.eqb_refl, Hh. cbn [andb]. rewrite orb_true_r. by destruct (st_who I a m).
    - unfold ofunded in *. rewrite lsum_app. cbn [lsum]. lia. }
  exists s1, s2. done.
Qed.
