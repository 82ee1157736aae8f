(** A snapshotted balance map with its snapshotted total. *)
From Verif Require Import Base BaseProofs StoreModel StoreProofs.

Record ledger (hb : Z) (m : smap) (t : snap) : Prop := Ledger {
  lg_bals : smap_before hb m;
  lg_tot : snap_before hb t;
  lg_pos : forall a, 0 <= smap_get m a;
  lg_sum : smap_sum m = snap_get t;
  lg_max : snap_get t <= U128_MAX;
  lg_snap : forall h, msum (fun a _ => smap_at m a h) m = snap_get_at t h;
  lg_hpos : forall a h, 0 <= smap_at m a h;
  lg_hmax : forall h, snap_get_at t h <= U128_MAX
}.

Lemma sum_at_save (m : smap) (t : snap) a hb v w :
  smap_before hb m -> snap_before hb t ->
  (forall h, msum (fun a _ => smap_at m a h) m = snap_get_at t h) ->
  smap_sum m - smap_get m a + v = w ->
  forall h, msum (fun a' _ => smap_at (smap_save m a hb v) a' h) (smap_save m a hb v) =
    snap_get_at (snap_save t hb w) h.
Proof.
  intros Hm Ht Hall Hw h. destruct (Z_le_gt_dec h hb) as [Hle|Hgt].
  - rewrite snap_get_at_save by done. rewrite <-Hall.
    unfold smap_save at 2. rewrite msum_insert.
    rewrite smap_at_save by done.
    assert (msum (fun a' _ => smap_at (smap_save m a hb v) a' h) m =
            msum (fun a' _ => smap_at m a' h) m) as ->.
    { apply msum_ext. intros k x Hk. by rewrite smap_at_save. }
    destruct (m !! a) as [x|] eqn:E; [lia|].
    unfold smap_at, smap_snap. rewrite E. simpl. lia.
  - rewrite (snap_get_at_now _ hb) by (try lia; by apply snap_before_save).
    rewrite snap_get_save, <-Hw. rewrite <-(smap_sum_save m a hb v). unfold smap_sum.
    apply msum_ext. intros k x Hk.
    rewrite (smap_at_now _ _ hb) by (try lia; by apply smap_before_save).
    unfold smap_get, smap_snap. by rewrite Hk.
Qed.

Lemma ledger_save hb m t a v w :
  ledger hb m t -> 0 <= v -> w = snap_get t - smap_get m a + v -> w <= U128_MAX ->
  ledger hb (smap_save m a hb v) (snap_save t hb w).
Proof.
  intros [] Hv -> Hw. split.
  - by apply smap_before_save.
  - by apply snap_before_save.
  - intros a'. rewrite smap_get_save. by destruct (decide _).
  - rewrite smap_sum_save, snap_get_save. lia.
  - by rewrite snap_get_save.
  - apply sum_at_save; try done. lia.
  - intros a' h. destruct (Z_le_gt_dec h hb).
    + by rewrite smap_at_save.
    + rewrite (smap_at_now _ _ hb) by (try lia; by apply smap_before_save).
      rewrite smap_get_save. by destruct (decide _).
  - intros h. destruct (Z_le_gt_dec h hb).
    + by rewrite snap_get_at_save.
    + rewrite (snap_get_at_now _ hb) by (try lia; by apply snap_before_save). by rewrite snap_get_save.
Qed.
Lemma ledger_time hb hb' m t : ledger hb m t -> hb <= hb' -> ledger hb' m t.
Proof. intros [] Hle. split; eauto using smap_before_mono, snap_before_mono. Qed.
Lemma ledger_empty hb t : t = snap_empty \/ t = snap_save snap_empty hb 0 -> ledger hb ∅ t.
Proof.
  intros Ht. split.
  - apply smap_before_empty.
  - destruct Ht as [->| ->]; [apply snap_before_empty|by apply snap_before_save, eq_refl; try apply snap_before_empty].
  - intros a. unfold smap_get, smap_snap. by rewrite lookup_empty.
  - by destruct Ht as [->| ->].
  - by destruct Ht as [->| ->].
  - intros h. rewrite msum_empty. destruct Ht as [->| ->]; [done|].
    unfold snap_get_at, snap_at, snap_save. simpl. by destruct (h <=? hb).
  - intros a h. unfold smap_at, smap_snap. rewrite lookup_empty. simpl. lia.
  - intros h. destruct Ht as [->| ->]; [done|].
    unfold snap_get_at, snap_at, snap_save. simpl. by destruct (h <=? hb).
Qed.
Lemma ledger_le hb m t a : ledger hb m t -> 0 <= smap_get m a <= snap_get t.
Proof. intros []. split; [done|]. rewrite <-lg_sum0. by apply smap_sum_ge. Qed.

(** Distinct addresses have at most the sum. *)
Lemma lsum_le_msum {V} (g : addr -> Z) (m : gmap addr V) l :
  NoDup l -> (forall a, 0 <= g a) -> (forall a, m !! a = None -> g a = 0) ->
  lsum g l <= msum (fun a _ => g a) m.
Proof.
  intros Hnd. revert g m. induction Hnd as [|a l Ha Hnd IH]; intros g m Hg Hm; simpl.
  - apply msum_nonneg. intros; apply Hg.
  - set (g' := fun x => if decide (x = a) then 0 else g x).
    assert (lsum g l = lsum g' l) as ->.
    { apply lsum_ext. intros x Hx. unfold g'. destruct (decide (x = a)); [by subst|done]. }
    specialize (IH g' m).
    assert (lsum g' l <= msum (fun a _ => g' a) m) as IH'.
    { apply IH; unfold g'; intros x; destruct (decide (x = a)); (done || by apply Hg || by apply Hm || idtac). }
    destruct (m !! a) as [v|] eqn:E; [|rewrite (Hm a E); etrans; [apply Z.eq_le_incl, Z.add_0_l|]].
    + pose proof (msum_delete (fun a _ => g a) m a v E) as D1.
      pose proof (msum_delete (fun a _ => g' a) m a v E) as D2. cbn beta in D1, D2.
      assert (g' a = 0) as Hz by (unfold g'; by destruct (decide (a = a))).
      assert (msum (fun a _ => g' a) (delete a m) = msum (fun a _ => g a) (delete a m)) as D3; [|lia].
      apply msum_ext. intros k w Hk. unfold g'. destruct (decide (k = a)) as [->|]; [|done].
      by rewrite lookup_delete in Hk.
    + etrans; [exact IH'|]. apply msum_le. intros k w Hk. unfold g'.
      destruct (decide (k = a)); [apply Hg|done].
Qed.
Lemma ledger_at_list hb m t h l :
  ledger hb m t -> NoDup l -> lsum (fun a => smap_at m a h) l <= snap_get_at t h.
Proof.
  intros [] Hl. rewrite <-lg_snap0. apply lsum_le_msum; [done|done|].
  intros a Ha. unfold smap_at, smap_snap. by rewrite Ha.
Qed.
