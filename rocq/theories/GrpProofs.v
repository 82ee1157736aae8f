(** Proofs about the cw4 voting module. *)
From Verif Require Import Base BaseProofs Exec ExecProofs Plain PlainProofs PlainMore
  StoreModel StoreProofs RolesModel RolesProofs GrpModel GrpSpec.

(** ** Members written in block [h] *)
Record grows (h : Z) (ms ms' : smap) : Prop := Grows {
  gr_before : smap_before h ms -> smap_before h ms';
  gr_at : forall a h0, h0 <= h -> snap_at (smap_snap ms' a) h0 = snap_at (smap_snap ms a) h0;
  gr_sum : forall h0, h0 <= h -> at_sum ms' h0 = at_sum ms h0 }.
Lemma grows_refl h ms : grows h ms ms.
Proof. done. Qed.
Lemma grows_trans h x y z : grows h x y -> grows h y z -> grows h x z.
Proof.
  intros [A1 A2 A3] [B1 B2 B3]. split; [auto| |].
  - intros. by rewrite B2, A2.
  - intros. by rewrite B3, A3.
Qed.
Lemma grows_set h ms a v : grows h ms (set_member ms a h v).
Proof.
  split.
  - apply set_member_before.
  - intros. by apply set_member_at.
  - intros. by apply at_sum_set.
Qed.

Lemma given_notin (l : list (addr * Z)) a : a ∉ l.*1 -> given l a = None.
Proof.
  induction l as [|[x w] l IH]; [done|]. cbn. intros N. apply not_elem_of_cons in N as [N1 N2].
  rewrite decide_False by congruence. auto.
Qed.
Lemma given_in (l : list (addr * Z)) a n : given l a = Some n -> (a, n) ∈ l.
Proof.
  induction l as [|[x w] l IH]; [done|]. cbn. destruct (decide (x = a)) as [->|].
  - intros [= ->]. left.
  - intros. right. auto.
Qed.
Lemma given_elem (l : list (addr * Z)) a n : NoDup l.*1 -> (a, n) ∈ l -> given l a = Some n.
Proof.
  induction l as [|[x w] l IH]; [by intros _ ?%elem_of_nil|]. cbn.
  intros [N ND]%NoDup_cons [[= -> ->]|H]%elem_of_cons; [by rewrite decide_True|].
  rewrite decide_False; [auto|]. intros ->. apply N. apply elem_of_list_fmap. by exists (a, n).
Qed.

Lemma g_add_ok l : forall ms t h ms' t' ds,
  g_add ms t h l = Ok (ms', t', ds) ->
  grows h ms ms' /\ cur_sum ms' - t' = cur_sum ms - t /\
  (NoDup l.*1 -> forall a,
     smap_load ms' a = match given l a with Some n => Some n | None => smap_load ms a end).
Proof.
  induction l as [|[a w] l IH]; cbn [g_add]; intros ms t h ms' t' ds H.
  - injection H as <- <- <-. split; [apply grows_refl|]. split; [lia|done].
  - cbv zeta in H. unfold sub64, add64 in H.
    destruct (default 0 (smap_load ms a) <=? t); [|done]. cbn in H.
    destruct (t - default 0 (smap_load ms a) + w <=? U64_MAX); [|done]. cbn in H.
    destruct (g_add (smap_save ms a h w) _ h l) as [[[ms2 t2] ds2]|] eqn:E; [|done].
    injection H as <- <- <-. apply IH in E as (G & S & L).
    change (smap_save ms a h w) with (set_member ms a h (Some w)) in *.
    split; [eapply grows_trans; [apply grows_set|done]|]. split.
    + rewrite S, cur_sum_set. cbn. lia.
    + cbn. intros [N ND]%NoDup_cons c. rewrite (L ND), set_member_load.
      destruct (decide (a = c)) as [->|Ne].
      * rewrite (given_notin _ _ N). by rewrite decide_True.
      * rewrite (decide_False (P := (c = a))) by congruence. done.
Qed.
Lemma g_remove_ok l : forall ms t h ms' t' ds,
  g_remove ms t h l = Ok (ms', t', ds) ->
  grows h ms ms' /\ cur_sum ms' - t' = cur_sum ms - t /\
  (forall a, smap_load ms' a = if decide (a ∈ l) then None else smap_load ms a).
Proof.
  induction l as [|a l IH]; cbn [g_remove]; intros ms t h ms' t' ds H.
  - injection H as <- <- <-. split; [apply grows_refl|]. split; [lia|].
    intros a. rewrite decide_False; [done|]. by intros ?%elem_of_nil.
  - destruct (smap_load ms a) as [w|] eqn:El.
    + unfold sub64 in H. destruct (w <=? t); [|done]. cbn in H.
      destruct (g_remove (smap_drop ms a h) _ h l) as [[[ms2 t2] ds2]|] eqn:E; [|done].
      injection H as <- <- <-. apply IH in E as (G & S & L).
      change (smap_drop ms a h) with (set_member ms a h None) in *.
      split; [eapply grows_trans; [apply grows_set|done]|]. split.
      * rewrite S, cur_sum_set, El. cbn. lia.
      * intros c. rewrite L, set_member_load.
        destruct (decide (c ∈ l)) as [Hl|Hl].
        -- rewrite decide_True; [done|]. by right.
        -- destruct (decide (c = a)) as [->|Ne].
           ++ rewrite decide_True; [done|]. left.
           ++ rewrite decide_False; [done|]. intros [?|?]%elem_of_cons; congruence.
    + apply IH in H as (G & S & L). split; [done|]. split; [done|]. intros c. rewrite L.
      destruct (decide (c ∈ l)) as [Hl|Hl].
      * rewrite decide_True; [done|]. by right.
      * destruct (decide (c = a)) as [->|Ne].
        -- rewrite decide_True; [done|]. left.
        -- rewrite decide_False; [done|]. intros [?|?]%elem_of_cons; congruence.
Qed.
Lemma g_fill_ok l : forall ms t h ms' t',
  g_fill ms t h l = Ok (ms', t') -> NoDup l.*1 ->
  (forall a, a ∈ l.*1 -> smap_load ms a = None) ->
  grows h ms ms' /\ cur_sum ms' - t' = cur_sum ms - t /\ t' = t + lsum snd l /\
  (forall a, smap_load ms' a = match given l a with Some n => Some n | None => smap_load ms a end).
Proof.
  induction l as [|[a w] l IH]; cbn [g_fill]; intros ms t h ms' t' H ND F.
  - injection H as <- <-. split; [apply grows_refl|]. split; [lia|]. split; [cbn; lia|done].
  - unfold add64 in H. destruct (t + w <=? U64_MAX); [|done]. cbn in H.
    cbn in ND. apply NoDup_cons in ND as [N ND].
    change (smap_save ms a h w) with (set_member ms a h (Some w)) in *.
    apply IH in H as (G & S & T & L); [|done|].
    2:{ intros c Hc. rewrite set_member_load, decide_False by (intros ->; done).
        apply F. cbn. by right. }
    split; [eapply grows_trans; [apply grows_set|done]|]. split; [|split].
    + rewrite S, cur_sum_set, F by (cbn; left). cbn. lia.
    + rewrite T. cbn. lia.
    + cbn. intros c. rewrite L, set_member_load. destruct (decide (a = c)) as [->|Ne].
      * rewrite (given_notin _ _ N). by rewrite decide_True.
      * rewrite (decide_False (P := (c = a))) by congruence. done.
Qed.

(** ** Calls in normal form *)
Inductive gstep (s : gstate) (b : block) (sender : addr) : gmsg -> gstate -> Prop :=
| Gs_admin x : gstep s b sender (GAdmin x) (GState x (g_members s) (g_total s) (g_hooks s))
| Gs_members remove add ms t :
    grows (height b) (g_members s) ms ->
    cur_sum ms - t = cur_sum (g_members s) - snap_get (g_total s) ->
    (forall a, smap_load ms a =
       if decide (a ∈ remove) then None
       else match given add a with Some n => Some n | None => smap_load (g_members s) a end) ->
    weights_fit add = true ->
    gstep s b sender (GMembers remove add)
      (GState (g_admin s) ms (snap_save (g_total s) (height b) t) (g_hooks s))
| Gs_hook m hs :
    match m with GAddHook _ | GRemoveHook _ => True | _ => False end ->
    gstep s b sender m (GState (g_admin s) (g_members s) (g_total s) hs).
Lemma handle_gstep s b a m s' subs :
  g_handle s b a m = Ok (s', subs) -> g_admin s = Some a /\ gstep s b a m s'.
Proof.
  intros H. destruct m as [x|remove add|h|h|]; cbn in H.
  - unfold is_admin in H. destruct (bool_decide_reflect (g_admin s = Some a)); [|done].
    injection H as <- <-. split; [done|]. constructor.
  - destruct (weights_fit add) eqn:Ef; [|done].
    unfold is_admin in H. destruct (bool_decide_reflect (g_admin s = Some a)); [|done].
    unfold g_update, unique in H. destruct (bool_decide_reflect (NoDup add.*1)) as [ND|]; [|done].
    destruct (g_add _ _ _ add) as [[[ms t] ds]|] eqn:Ea; [|done]. cbn in H.
    destruct (g_remove _ _ _ remove) as [[[ms' t'] ds']|] eqn:Er; [|done].
    injection H as <- <-. split; [done|].
    apply g_add_ok in Ea as (G1 & S1 & L1). apply g_remove_ok in Er as (G2 & S2 & L2).
    constructor; [by eapply grows_trans|lia| |done].
    intros c. by rewrite L2, (L1 ND).
  - unfold is_admin in H. destruct (bool_decide_reflect (g_admin s = Some a)); [|done].
    destruct (negb _); [|done]. injection H as <- <-. split; [done|]. by constructor.
  - unfold is_admin in H. destruct (bool_decide_reflect (g_admin s = Some a)); [|done].
    destruct (bool_decide _); [|done]. injection H as <- <-. split; [done|]. by constructor.
  - done.
Qed.

(** ** The invariant *)
Record ginv (b : block) (s : gstate) : Prop := GInv {
  gi_mb : smap_before (height b) (g_members s);
  gi_tb : snap_before (height b) (g_total s);
  gi_pos : forall a n, smap_load (g_members s) a = Some n -> 0 <= n;
  gi_sum : forall h, at_sum (g_members s) h = snap_get_at (g_total s) h;
  gi_cur : cur_sum (g_members s) = snap_get (g_total s) }.
Lemma weights_fit_pos l a n : weights_fit l = true -> given l a = Some n -> 0 <= n <= U64_MAX.
Proof.
  intros F E%given_in. unfold weights_fit in F. rewrite forallb_forall in F.
  specialize (F (a, n)). rewrite <-elem_of_list_In in F. specialize (F E). unfold fits64 in F.
  cbn in F. lia.
Qed.
Lemma ginv_step b s a m s' subs : ginv b s -> g_handle s b a m = Ok (s', subs) -> ginv b s'.
Proof.
  intros I H. pose proof I as [I1 I2 I3 I4 I5]. apply handle_gstep in H as [_ H].
  destruct H as [x|remove add ms t G S L F|m hs Hm]; try done.
  pose proof G as [G1 G2 G3].
  assert (t = cur_sum ms) as -> by lia. split; cbn [g_members g_total].
  - by apply G1.
  - by apply snap_before_save.
  - intros c n. rewrite L. destruct (decide _); [done|]. destruct (given add c) eqn:Eg.
    + intros [= ->]. apply weights_fit_pos in Eg; [lia|done].
    + apply I3.
  - intros h. destruct (Z.le_gt_cases h (height b)).
    + by rewrite G3, snap_get_at_save.
    + rewrite (at_sum_now _ (height b)); [|by apply G1|lia].
      rewrite (snap_get_at_now _ (height b)); [|by apply snap_before_save|lia].
      by rewrite snap_get_save.
  - by rewrite snap_get_save.
Qed.
Lemma ginv_time b b' s : ginv b s -> block_le b b' -> ginv b' s.
Proof.
  intros [I1 I2 I3 I4 I5] [L _]. split; try done.
  - by eapply smap_before_mono.
  - by eapply snap_before_mono.
Qed.
Lemma cur_sum_empty : cur_sum ∅ = 0.
Proof. by rewrite cur_sum_msum, msum_empty. Qed.
Lemma load_empty a : smap_load ∅ a = None.
Proof. unfold smap_load, smap_snap. by rewrite lookup_empty. Qed.
Lemma create_ok admin l b s : g_create admin l b = Ok s ->
  ginv b s /\ g_admin s = admin /\ g_hooks s = [] /\ NoDup l.*1 /\ weights_fit l = true /\
  snap_get (g_total s) = lsum snd l /\
  (forall a, smap_load (g_members s) a = given l a) /\
  (forall h, h <= height b -> snap_get_at (g_total s) h = 0 /\
     forall a, snap_at (smap_snap (g_members s) a) h = None).
Proof.
  intros H. unfold g_create in H. destruct (weights_fit l) eqn:F; [|done].
  unfold unique in H. destruct (bool_decide_reflect (NoDup l.*1)) as [ND|]; [|done].
  destruct (g_fill ∅ 0 (height b) l) as [[ms t]|] eqn:E; [|done].
  injection H as <-. apply g_fill_ok in E as (G & S & T & L); [|done|intros; apply load_empty].
  rewrite cur_sum_empty in S. pose proof G as [G1 G2 G3].
  assert (forall a, smap_load ms a = given l a) as L'.
  { intros a. rewrite L, load_empty. by destruct (given l a). }
  assert (t = cur_sum ms) as Et by lia.
  assert (forall h, h <= height b -> snap_get_at (snap_save snap_empty (height b) t) h = 0) as T0.
  { intros h Hh. by rewrite snap_get_at_save. }
  split; [|split; [done|split; [done|split; [done|split; [done|split; [|split; [done|]]]]]]].
  - split; cbn [g_members g_total].
    + apply G1, smap_before_empty.
    + by apply snap_before_save; [apply snap_before_empty|].
    + intros a n. rewrite L'. intros Hn. apply weights_fit_pos in Hn; [lia|done].
    + intros h. destruct (Z.le_gt_cases h (height b)).
      * rewrite G3, T0 by done. by rewrite at_sum_msum, msum_empty.
      * rewrite (at_sum_now _ (height b)); [|apply G1, smap_before_empty|lia].
        rewrite (snap_get_at_now _ (height b)); [|by apply snap_before_save; [apply snap_before_empty|]|lia].
        by rewrite snap_get_save.
    + by rewrite snap_get_save.
  - cbn [g_total]. rewrite snap_get_save. lia.
  - intros h Hh. cbn [g_total g_members]. split; [by apply T0|]. intros a. rewrite G2 by done.
    unfold smap_snap. by rewrite lookup_empty.
Qed.
Lemma greached_inv b s l : greached b s l -> ginv b s.
Proof.
  intros (ad & ms & b0 & s0 & C & HL). apply create_ok in C as (I & _). revert I HL.
  apply leads_inv; [apply ginv_step|apply ginv_time].
Qed.
