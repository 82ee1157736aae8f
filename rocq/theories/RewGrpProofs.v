(** The distributor's part of a history with a group is a history of the distributor. *)
From Verif Require Import Base BaseProofs Exec ExecProofs Plain PlainProofs HooksModel StoreModel StoreProofs
  RewModel RewSpec RewProofs RewAccount RewClaims RewHookProofs RewTokSpec RewTokProofs
  RolesModel RolesProofs GrpModel RewGrpModel RewGrpSpec.

(** ** Snapshots giving the same answers *)
Record agree (h : Z) (s s' : snap) : Prop := Agree {
  ag_l : snap_before h s;
  ag_r : snap_before h s';
  ag_now : snap_get s = snap_get s';
  ag_at : forall h0, h0 <= h -> snap_get_at s h0 = snap_get_at s' h0 }.
Lemma agree_later h h' s s' : agree h s s' -> h <= h' -> agree h' s s'.
Proof.
  intros [A B C D] Hh. split; [by eapply snap_before_mono|by eapply snap_before_mono|done|].
  intros h0 H0. destruct (Z.le_gt_cases h0 h) as [|Hl]; [by apply D|].
  by rewrite (snap_get_at_now s h), (snap_get_at_now s' h).
Qed.
Lemma agree_all h s s' h0 : agree h s s' -> snap_get_at s h0 = snap_get_at s' h0.
Proof.
  intros H. destruct (Z.le_gt_cases h0 h) as [|Hl]; [by apply H|].
  apply (agree_later h h0) in H; [|lia]. apply H. lia.
Qed.
Lemma agree_save h s s' v : agree h s s' -> agree h (snap_save s h v) (snap_save s' h v).
Proof.
  intros [A B C D]. split; [by apply snap_before_save|by apply snap_before_save|done|].
  intros h0 H0. rewrite !snap_get_at_save by done. by apply D.
Qed.
Definition agrees (h : Z) (m m' : smap) : Prop := forall a, agree h (smap_snap m a) (smap_snap m' a).
Lemma agrees_set h m m' a v :
  agrees h m m' -> agrees h (set_member m a h v) (smap_save m' a h (default 0 v)).
Proof.
  intros H x. rewrite smap_snap_save, set_member_snap. destruct (decide (x = a)) as [->|]; [|apply H].
  specialize (H a). destruct v as [n|]; [by apply agree_save|]. destruct H as [A B C D]. cbn [default]. split.
  - by apply snap_before_drop.
  - by apply snap_before_save.
  - done.
  - intros h0 H0. rewrite snap_get_at_save by done. unfold snap_get_at at 1. rewrite snap_at_drop by done. by apply D.
Qed.

(** ** The changes of an update *)
Fixpoint walk (h : Z) (ms : smap) (t : Z) (ds : list gdiff) (ms' : smap) (t' : Z) : Prop :=
  match ds with
  | [] => ms' = ms /\ t' = t
  | (a, old, new) :: ds =>
      old = smap_load ms a /\ fits64 (default 0 new) = true /\
      t - default 0 old + default 0 new <= U64_MAX /\
      walk h (set_member ms a h new) (t - default 0 old + default 0 new) ds ms' t'
  end.
Lemma walk_app h ds : forall ds' ms t ms1 t1 ms' t',
  walk h ms t ds ms1 t1 -> walk h ms1 t1 ds' ms' t' -> walk h ms t (ds ++ ds') ms' t'.
Proof.
  induction ds as [|[[a old] new] ds IH]; cbn; intros ds' ms t ms1 t1 ms' t' H H'.
  - by destruct H as [-> ->].
  - destruct H as (A & B & C & D). repeat (split; [done|]). by eapply IH.
Qed.
Lemma add_walk l : forall ms t h ms' t' ds,
  weights_fit l = true -> g_add ms t h l = Ok (ms', t', ds) -> walk h ms t ds ms' t'.
Proof.
  induction l as [|[a w] l IH]; cbn [g_add]; intros ms t h ms' t' ds Hf H; [by injection H as <- <- <-|].
  cbn in Hf. apply andb_true_iff in Hf as [Hf1 Hf2]. cbv zeta in H. unfold sub64, add64 in H.
  destruct (default 0 (smap_load ms a) <=? t); [|done].
  destruct (t - default 0 (smap_load ms a) + w <=? U64_MAX) eqn:E1; [|done].
  destruct (g_add (smap_save ms a h w) _ h l) as [[[ms2 t2] ds2]|] eqn:E; [|done].
  injection H as <- <- <-. cbn. split; [done|]. split; [done|]. split; [lia|]. by apply IH.
Qed.
Lemma remove_walk l : forall ms t h ms' t' ds,
  t <= U64_MAX -> (forall a, 0 <= snap_get (smap_snap ms a)) ->
  g_remove ms t h l = Ok (ms', t', ds) -> walk h ms t ds ms' t'.
Proof.
  induction l as [|a l IH]; cbn [g_remove]; intros ms t h ms' t' ds Ht Hp H; [by injection H as <- <- <-|].
  destruct (smap_load ms a) as [w|] eqn:E; [|by eapply IH]. unfold sub64 in H.
  destruct (w <=? t) eqn:E1; [|done].
  destruct (g_remove (smap_drop ms a h) _ h l) as [[[ms2 t2] ds2]|] eqn:E2; [|done].
  injection H as <- <- <-. assert (0 <= w) as Hw.
  { specialize (Hp a). unfold snap_get in Hp. unfold smap_load in E. by rewrite E in Hp. }
  cbn. split; [done|]. split; [done|]. split; [lia|]. replace (t - w + 0) with (t - w) by lia.
  apply (IH (smap_drop ms a h)); [lia| |done]. intros x. change (smap_drop ms a h) with (set_member ms a h None).
  rewrite set_member_snap. destruct (decide (x = a)); [cbn; lia|apply Hp].
Qed.
Lemma walk_bounds h ds : forall ms t ms' t',
  t <= U64_MAX -> (forall a, 0 <= snap_get (smap_snap ms a)) -> walk h ms t ds ms' t' ->
  t' <= U64_MAX /\ forall a, 0 <= snap_get (smap_snap ms' a).
Proof.
  induction ds as [|[[a old] new] ds IH]; cbn; intros ms t ms' t' Ht Hp H; [by destruct H as [-> ->]|].
  destruct H as (A & B & C & D). eapply IH; [|idtac|exact D]; [lia|].
  intros x. rewrite set_member_snap. destruct (decide (x = a)); [|apply Hp].
  unfold fits64 in B. destruct new as [n|]; cbn in *; lia.
Qed.
Definition bounded (g : gstate) : Prop :=
  snap_get (g_total g) <= U64_MAX /\ forall a, 0 <= snap_get (smap_snap (g_members g) a).
Lemma group_call g b a m g' subs :
  bounded g -> g_handle g b a m = Ok (g', subs) ->
  (exists t', walk (height b) (g_members g) (snap_get (g_total g)) (g_diffs g b m) (g_members g') t' /\
     (g_total g' = snap_save (g_total g) (height b) t' \/ g_total g' = g_total g /\ t' = snap_get (g_total g))) /\
  bounded g' /\
  match m with
  | GMembers _ _ => subs = map (fun h => GHook h (g_diffs g b m)) (g_hooks g) /\ g_hooks g' = g_hooks g
  | _ => subs = [] /\ g_diffs g b m = [] /\ g_members g' = g_members g /\ g_total g' = g_total g
  end.
Proof.
  intros HB H. destruct m as [x|remove add|x|x|]; cbn [g_handle] in H.
  - destruct (is_admin g a); [|done]. injection H as <- <-. cbn. repeat split; try apply HB. eexists. split; [done|]. by right.
  - destruct (weights_fit add) eqn:Hf; [|done]. destruct (is_admin g a); [|done]. unfold g_update in H.
    destruct (unique add); [|done]. cbn [g_diffs].
    destruct (g_add _ _ _ add) as [[[ms t] ds]|] eqn:Ea; [|done].
    destruct (g_remove ms t _ remove) as [[[ms' t'] ds']|] eqn:Er; [|done].
    injection H as <- <-. cbn [g_members g_total g_hooks].
    apply (add_walk _ _ _ _ _ _ _ Hf) in Ea. destruct HB as [HB1 HB2].
    destruct (walk_bounds _ _ _ _ _ _ HB1 HB2 Ea) as [B1 B2].
    apply (remove_walk _ _ _ _ _ _ _ B1 B2) in Er. destruct (walk_bounds _ _ _ _ _ _ B1 B2 Er) as [C1 C2].
    split; [|split; [by split|by split]]. exists t'. split; [by eapply walk_app|by left].
  - destruct (is_admin g a); [|done]. destruct (negb _); [|done]. injection H as <- <-. cbn. repeat split; try apply HB.
    eexists. split; [done|]. by right.
  - destruct (is_admin g a); [|done]. destruct (bool_decide _); [|done]. injection H as <- <-. cbn. repeat split; try apply HB.
    eexists. split; [done|]. by right.
  - done.
Qed.

(** ** The distributor told of them *)
Definition reports (e : estate) (caller : addr) (ds : list gdiff) : list (addr * addr) :=
  match e_hooks e !! caller with Some _ => map (fun d => (caller, d.1.1)) ds | None => [] end.
Lemma told_ok h ds : forall ms t ms' t' e b sender md caller v,
  walk h ms t ds ms' t' -> height b = h -> e_goes e b = true ->
  e_vps e !! md = Some v -> agrees h ms (vp_pow v) -> snap_before h (vp_tot v) -> snap_get (vp_tot v) = t ->
  exists e' v' l,
    told e b md caller ds = Ok e' /\ e_vps e' !! md = Some v' /\ agrees h ms' (vp_pow v') /\
    snap_before h (vp_tot v') /\ snap_get (vp_tot v') = t' /\
    (forall h0, h0 <= h -> snap_get_at (vp_tot v') h0 = snap_get_at (vp_tot v) h0) /\
    e_hooks e' = e_hooks e /\ e_dists e' = e_dists e /\ e_due e' = e_due e ++ reports e caller ds /\
    (ds = [] /\ e' = e \/ e_block e' = b) /\
    leads e_handle b e b e' l /\ calls l = tellings e b sender md caller ds.
Proof.
  induction ds as [|[[a old] new] ds IH]; intros ms t ms' t' e b sender md caller v H Hb Hg Hv Ha Ht1 Ht2.
  - destruct H as [-> ->]. exists e, v, []. cbn. split; [done|]. split; [done|]. split; [done|]. split; [done|].
    split; [done|]. split; [done|]. split; [done|]. split; [done|].
    split; [unfold reports; destruct (e_hooks e !! caller); cbn; by rewrite app_nil_r|].
    split; [by left|]. split; [apply leads_refl, block_le_refl|done].
  - cbn [walk] in H. destruct H as (-> & Hn & Hu & H). cbn [told tellings].
    pose proof (ag_now _ _ _ (Ha a)) as Hold.
    assert (default 0 (smap_load ms a) = smap_get (vp_pow v) a) as Eold by exact Hold.
    set (n := default 0 new) in *.
    set (v1 := VP (smap_save (vp_pow v) a (height b) n)
                 (snap_save (vp_tot v) (height b) (snap_get (vp_tot v) - smap_get (vp_pow v) a + n)) (height b)).
    set (e1 := EState (e_own e) (e_count e) (e_dists e) (e_pend e) (e_acc e) (e_hooks e) (<[md := v1]> (e_vps e)) (e_held e)
                 (match e_hooks e !! caller with Some _ => e_due e ++ [(caller, a)] | None => e_due e end) b).
    assert (set_power (set_block e b) b md caller a n = Ok e1) as E1.
    { unfold set_power. cbn [set_block e_vps e_own e_count e_dists e_pend e_acc e_hooks e_held e_due e_block].
      rewrite Hv. cbn [default from_option id].
      replace (_ <=? U128_MAX) with true; [done|]. rewrite Ht2, <-Eold. symmetry. apply Z.leb_le.
      etransitivity; [exact Hu|]. by vm_compute. }
    rewrite E1.
    destruct (IH _ _ _ _ e1 b sender md caller v1 H Hb) as (e' & v' & l & R1 & R2 & R3 & R4 & R5 & R6 & R7 & R8 & R9 & R10 & R11 & R12).
    { unfold e_goes. cbn [e_block e1]. rewrite !Z.eqb_refl, andb_true_r. unfold e_goes in Hg. by apply andb_true_iff in Hg as [-> _]. }
    { cbn. by rewrite lookup_insert. }
    { cbn [v1 vp_pow]. rewrite Hb. by apply agrees_set. }
    { cbn [v1 vp_tot]. by apply snap_before_save. }
    { cbn. rewrite Ht2, <-Eold. done. }
    assert (e_handle e b sender (EPower md caller a n) = Ok (e1, [])) as E2.
    { unfold e_handle. rewrite Hg. cbn [e_step].
      replace (fits128 n) with true; [by rewrite E1|]. unfold fits64 in Hn. unfold fits128.
      apply andb_true_iff in Hn as [N1 N2]. symmetry. apply andb_true_iff. split; [lia|].
      apply Z.leb_le. apply Z.leb_le in N2. etransitivity; [exact N2|]. by vm_compute. }
    destruct (leads_one _ _ _ _ _ _ E2) as (l1 & HL1 & Hl1).
    exists e', v', (l1 ++ l). split; [done|]. split; [done|]. split; [done|]. split; [done|]. split; [done|]. split.
    { intros h0 H0. rewrite R6 by done. cbn [v1 vp_tot]. by rewrite snap_get_at_save by lia. }
    split; [done|]. split; [done|]. split.
    { rewrite R9. unfold reports. cbn [e1 e_hooks e_due]. destruct (e_hooks e !! caller); cbn [map fst]; [|done].
      by rewrite <-app_assoc. }
    split. { right. destruct R10 as [[_ ->]|?]; done. }
    split; [by eapply leads_app|]. rewrite calls_app, Hl1, R12. done.
Qed.

(** ** Histories *)
Definition to_self (self : addr) (l : list gsub) : list addr :=
  flat_map (fun x => match x with GHook h ds => if (h =? self)%N then map (fun d : gdiff => d.1.1) ds else [] end) l.
Lemma to_self_app self l l' : to_self self (l ++ l') = to_self self l ++ to_self self l'.
Proof. apply flat_map_app. Qed.
Lemma to_self_hooks self (ds : list gdiff) hooks :
  existsb (N.eqb self) hooks = true ->
  map (fun d => d.1.1) ds ⊆+ to_self self (map (fun h => GHook h ds) hooks).
Proof.
  induction hooks as [|x l IH]; [done|]. cbn. rewrite N.eqb_sym.
  destruct (x =? self)%N; cbn; [|exact IH]. intros _. by apply submseteq_inserts_r.
Qed.
Record tied (gr md self : addr) (b : block) (s : gjstate) : Prop := Tied {
  td_vp : exists v, e_vps (gj_e s) !! md = Some v /\ agrees (height b) (g_members (gj_g s)) (vp_pow v) /\
    agree (height b) (g_total (gj_g s)) (vp_tot v);
  td_bnd : bounded (gj_g s);
  td_out : wl gr (e_due (gj_e s)) ⊆+ to_self self (gj_out s);
  td_block : block_le (gj_block s) b;
  td_when : e_block (gj_e s) = gj_block s \/
    (height (e_block (gj_e s)) < height (gj_block s) /\ e_due (gj_e s) = []) }.
Lemma tied_goes gr md self b s :
  tied gr md self b s -> gj_goes gr s b = true ->
  e_goes (gj_e s) b = true /\
  (b = gj_block s \/ height (e_block (gj_e s)) < height b /\ height (gj_block s) < height b /\ e_due (gj_e s) = []).
Proof.
  intros HT Hg. unfold gj_goes in Hg. apply andb_true_iff in Hg as [Hh Hg]. unfold e_goes. rewrite Hh. cbn [andb].
  pose proof (td_block _ _ _ _ _ HT) as Hb.
  assert (forall (Ho : gj_out s = []), forallb (fun x => (x.1 =? gr)%N) (e_due (gj_e s)) = true -> e_due (gj_e s) = []) as Hnd.
  { intros Ho Hd. apply (wl_all gr); [done|]. pose proof (td_out _ _ _ _ _ HT) as H. rewrite Ho in H. cbn in H.
    by apply submseteq_nil_r in H. }
  destruct (td_when _ _ _ _ _ HT) as [E|[E1 E2]].
  - rewrite E. destruct (height b =? height (gj_block s)) eqn:Eh.
    + split; [done|]. left. destruct b as [h t], (gj_block s) as [h' t']. cbn in *. f_equal; lia.
    + apply andb_true_iff in Hg as [Ho Hd]. destruct (gj_out s) eqn:Er; [|done].
      rewrite (Hnd eq_refl Hd). split; [done|]. right. destruct Hb. split; [lia|]. split; [lia|done].
  - rewrite E2. destruct (height b =? height (gj_block s)) eqn:Eh.
    + split.
      * replace (height b =? height (e_block (gj_e s))) with false by lia. done.
      * left. destruct b as [h t], (gj_block s) as [h' t']. cbn in *. f_equal; lia.
    + destruct Hb. split; [|right; split; [lia|split; [lia|done]]]. by replace (height b =? height (e_block (gj_e s))) with false by lia.
Qed.
Lemma drop_all h who : forall l k, wl h l ⊆+ who ++ k -> wl h (fold_left (fun l a => drop_due h a l) who l) ⊆+ k.
Proof.
  induction who as [|a who IH]; intros l k H; [done|]. cbn [fold_left]. apply IH. by apply drop_fewer.
Qed.
Lemma hook_subs s b a who s' subs : e_step s b a (EHook who) = Ok (s', subs) -> subs = [].
Proof. cbn. destruct (e_hooks s !! a); [|done]. destruct (update_all _ _ _ _); [|done]. congruence. Qed.
Lemma wl_reports gr e ds : wl gr (reports e gr ds) = match e_hooks e !! gr with Some _ => map (fun d : gdiff => d.1.1) ds | None => [] end.
Proof.
  unfold reports. destruct (e_hooks e !! gr); [|done]. unfold wl. induction ds as [|d ds IH]; [done|]. cbn.
  rewrite N.eqb_refl. cbn. by rewrite IH.
Qed.
Lemma group_step gr md self s b a m g' subs :
  tied gr md self b s -> e_goes (gj_e s) b = true -> g_handle (gj_g s) b a m = Ok (g', subs) ->
  exists e', told (gj_e s) b md (teller gr self (gj_g s) (gj_e s)) (g_diffs (gj_g s) b m) = Ok e' /\
    (g_diffs (gj_g s) b m = [] /\ e' = gj_e s \/ e_block e' = b) /\
    e_hooks e' = e_hooks (gj_e s) /\ e_dists e' = e_dists (gj_e s) /\
    (exists v, e_vps e' !! md = Some v /\ agrees (height b) (g_members g') (vp_pow v) /\
      agree (height b) (g_total g') (vp_tot v)) /\ bounded g' /\
    wl gr (e_due e') ⊆+ to_self self (subs ++ gj_out s) /\
    exists l, leads e_handle b (gj_e s) b e' l /\
      calls l = tellings (gj_e s) b a md (teller gr self (gj_g s) (gj_e s)) (g_diffs (gj_g s) b m).
Proof.
  intros HT He Hh. pose proof HT as [(v & Hv & Ha & Hag) Hb Ho Hbl Hwh].
  destruct (group_call _ _ _ _ _ _ Hb Hh) as ((t' & Hw & Htot) & HB & Hsub).
  destruct (told_ok _ _ _ _ _ _ (gj_e s) b a md (teller gr self (gj_g s) (gj_e s)) v Hw eq_refl He Hv Ha
    (ag_r _ _ _ Hag) (eq_sym (ag_now _ _ _ Hag)))
    as (e' & v' & l & R1 & R2 & R3 & R4 & R5 & R6 & R7 & R8 & R9 & R10 & R11 & R12).
  exists e'. split; [done|]. split; [done|]. split; [done|]. split; [done|]. split.
  { exists v'. split; [done|]. split; [done|]. destruct Hag as [A1 A2 A3 A4]. destruct Htot as [->|[-> ->]].
    - split; [by apply snap_before_save|done|by rewrite snap_get_save|].
      intros h0 H0. rewrite snap_get_at_save by done. rewrite R6 by done. by apply A4.
    - split; [done|done|done|]. intros h0 H0. rewrite R6 by done. by apply A4. }
  split; [done|]. split.
  { rewrite R9, wl_app, to_self_app. etransitivity; [apply submseteq_app; [exact Ho|reflexivity]|].
    rewrite (Permutation_app_comm (to_self self subs)). apply submseteq_app; [done|].
    unfold teller. destruct (g_hooked self (gj_g s)) eqn:Ehk.
    - rewrite wl_reports. destruct (e_hooks (gj_e s) !! gr); [|apply submseteq_nil_l].
      destruct m; try (destruct Hsub as (_ & -> & _); apply submseteq_nil_l).
      destruct Hsub as [-> _]. by apply to_self_hooks.
    - unfold reports. rewrite (nobody_none (e_hooks (gj_e s)) : e_hooks (gj_e s) !! stranger _ = None).
      apply submseteq_nil_l. }
  exists l. done.
Qed.
Lemma gj_step gr md self s b a m s' subs :
  tied gr md self b s -> gj_handle gr md self s b a m = Ok (s', subs) ->
  tied gr md self b s' /\
  exists l, leads e_handle b (gj_e s) b (gj_e s') l /\ calls l = grp_part gr md self (ECall s b a m s' subs).
Proof.
  intros HT H. unfold gj_handle in H. destruct (gj_goes gr s b) eqn:Hg; [|done].
  destruct (tied_goes _ _ _ _ _ HT Hg) as [He Hw]. pose proof HT as [(v & Hv & Ha & Hag) Hb Ho Hbl Hwh].
  assert (exists l, leads e_handle b (gj_e s) b (gj_e s) l /\ calls l = []) as Hnil.
  { exists []. split; [apply leads_refl, block_le_refl|done]. }
  assert (e_block (gj_e s) = b \/ height (e_block (gj_e s)) < height b /\ e_due (gj_e s) = []) as Hwb.
  { destruct Hw as [->|(? & ? & ?)]; [|right; done]. destruct Hwh as [?|?]; auto. }
  destruct m as [m|m|].
  - destruct (g_handle (gj_g s) b a m) as [[g' gs]|] eqn:Eg; [|done].
    destruct (group_step _ _ _ _ _ _ _ _ _ HT He Eg) as (e' & E1 & E2 & _ & _ & E5 & E6 & E7 & l & E8 & E9).
    rewrite E1 in H. injection H as <- <-. split.
    + split; cbn [gj_g gj_e gj_out gj_block]; [done|done|done|apply block_le_refl|].
      destruct E2 as [[_ ->]|E2]; [done|by left].
    + exists l. split; [done|]. exact E9.
  - destruct (negb (a =? gr)%N && g_elsewhere gr md m) eqn:Hc; [|done].
    apply andb_true_iff in Hc as [Hc1 Hc2]. assert (a <> gr) as Hne by by apply N.eqb_neq, negb_true_iff.
    destruct (e_step (set_block (gj_e s) b) b a m) as [[e' es]|] eqn:Ee; [|done]. injection H as <- <-.
    assert (e_handle (gj_e s) b a m = Ok (e', es)) as E by (unfold e_handle; by rewrite He).
    split.
    + apply step_keeps in Ee.
      assert (e_vps e' !! md = e_vps (gj_e s) !! md /\ wl gr (e_due e') = wl gr (e_due (gj_e s)) /\ e_block e' = b) as (K1 & K2 & K3).
      { destruct m; try (destruct Ee as (K1 & K2 & K3); rewrite K1, K2, K3; done).
        - destruct Ee as (K1 & K2 & K3). rewrite K1, K2, K3. split; [done|]. split; [|done]. by apply wl_drop_others.
        - destruct Ee as (K1 & K2 & K3). cbn in Hc2. apply andb_true_iff in Hc2 as [Hc2 Hc3].
          apply negb_true_iff, N.eqb_neq in Hc2. split; [by apply K2|]. split; [|done].
          destruct K3 as [->| ->]; [done|]. rewrite wl_app, wl_one. apply negb_true_iff in Hc3. rewrite Hc3. by rewrite app_nil_r. }
      split; cbn [gj_g gj_e gj_out gj_block]; [by exists v; rewrite K1|exact Hb|by rewrite K2|apply block_le_refl|by left].
    + destruct (leads_one _ _ _ _ _ _ E) as (l & HL & Hl). exists l. split; [exact HL|]. by rewrite Hl.
  - destruct (gj_out s) as [|[h ds] out] eqn:Er; [done|]. cbn [grp_part]. rewrite Er.
    cbn in Ho. destruct (h =? self)%N eqn:Eh.
    + destruct (e_step (set_block (gj_e s) b) b gr (EHook _)) as [[e' es]|] eqn:Ee; [|done]. injection H as <- <-.
      pose proof (hook_subs _ _ _ _ _ _ Ee) as ->.
      assert (e_handle (gj_e s) b gr (EHook (map (fun d => d.1.1) ds)) = Ok (e', [])) as E by (unfold e_handle; by rewrite He).
      split.
      * apply step_keeps in Ee as (K1 & K2 & K3). cbn in K3.
        split; cbn [gj_g gj_e gj_out gj_block]; [by exists v; rewrite K1|exact Hb| |apply block_le_refl|by left].
        rewrite K3. by apply drop_all.
      * destruct (leads_one _ _ _ _ _ _ E) as (l & HL & Hl). exists l. split; [exact HL|]. by rewrite Hl.
    + injection H as <- <-. split; [|exact Hnil].
      split; cbn [gj_g gj_e gj_out gj_block]; [by exists v|exact Hb|exact Ho|apply block_le_refl|exact Hwb].
Qed.
Lemma gj_history gr md self b0 owner admin vs b s l :
  leads (gj_handle gr md self) b0 (gj_start md b0 owner admin vs) b s l ->
  tied gr md self b s /\
  exists l', leads e_handle b0 (e_instantiate b0 owner ({[md]} ∪ vs)) b (gj_e s) l' /\
    calls l' = flat_map (grp_part gr md self) l.
Proof.
  apply (leads_ind (gj_handle gr md self) (fun b s l => tied gr md self b s /\
    exists l', leads e_handle b0 (e_instantiate b0 owner ({[md]} ∪ vs)) b (gj_e s) l' /\
      calls l' = flat_map (grp_part gr md self) l)).
  - clear b s l. intros b s l a m s' subs (HT & l' & HL & Hl) H.
    destruct (gj_step _ _ _ _ _ _ _ _ _ HT H) as (HT' & l1 & HL1 & Hl1). split; [done|].
    exists (l' ++ l1). split; [by eapply leads_app|]. rewrite calls_app, Hl, Hl1, flat_map_app. cbn. by rewrite app_nil_r.
  - clear b s l. intros b s l sub (HT & l' & HL & Hl). split; [done|]. exists l'. split; [done|].
    rewrite Hl, flat_map_app. cbn. by rewrite app_nil_r.
  - clear b s l. intros b b' s l ([(v & A1 & A2 & A3) B C D E] & l' & HL & Hl) Hb. split.
    + split; try done; [|by eapply block_le_trans]. destruct Hb as [Hb _]. exists v. split; [done|]. split.
      * intros a. by eapply agree_later.
      * by eapply agree_later.
    + exists l'. split; [by eapply leads_later|done].
  - split.
    + assert (forall h, agree h snap_empty snap_empty) as Hem by (intros h; split; [apply snap_before_empty|apply snap_before_empty|done|done]).
      split; cbn [gj_start gj_g gj_e gj_out gj_block].
      * exists (VP ∅ snap_empty 0). split; [apply lookup_gset_to_gmap_Some; set_solver|]. cbn. split.
        -- intros a. unfold smap_snap. rewrite lookup_empty. apply Hem.
        -- split; [by apply snap_before_save, eq_refl; apply snap_before_empty|apply snap_before_empty|done|].
           intros h0 H0. by rewrite snap_get_at_save.
      * split; cbn; [by vm_compute|]. intros a. unfold smap_snap. rewrite lookup_empty. done.
      * done.
      * apply block_le_refl.
      * by left.
    + exists []. split; [apply leads_refl, block_le_refl|done].
Qed.
