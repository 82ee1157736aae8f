(** Lemmas about snapshots and claims. *)
From Verif Require Import Base BaseProofs StoreModel.

Lemma snap_find_acc l h acc acc' :
  (exists e, e ∈ l /\ h <= e.1) -> snap_find l h acc = snap_find l h acc'.
Proof.
  revert acc acc'. induction l as [|[h' old] l IH]; intros acc acc' (e & Hin & He); simpl.
  - by apply elem_of_nil in Hin.
  - destruct (h <=? h') eqn:E; [done|].
    apply elem_of_cons in Hin as [->|Hin]; [simpl in He; lia|]. apply IH; eauto.
Qed.
Lemma snap_find_none l h acc : (forall e, e ∈ l -> e.1 < h) -> snap_find l h acc = acc.
Proof.
  revert acc. induction l as [|[h' old] l IH]; intros acc H; simpl; [done|].
  assert (h' < h) by (apply (H (h', old)); left).
  destruct (h <=? h') eqn:E; [lia|]. apply IH. intros; apply H; by right.
Qed.
(** Saving at height [h] does not change what is reported for heights up to [h]. *)
Lemma snap_at_save s h v h0 : h0 <= h -> snap_at (snap_save s h v) h0 = snap_at s h0.
Proof.
  intros Hle. unfold snap_at, snap_save. simpl.
  destruct (existsb _ _) eqn:E.
  - apply existsb_exists in E as (e & Hin & He). apply snap_find_acc.
    exists e. split; [by apply elem_of_list_In|lia].
  - simpl. destruct (h0 <=? h) eqn:E'; [done|lia].
Qed.
Definition snap_before (h : Z) (s : snap) : Prop := forall e, e ∈ sn_log s -> e.1 <= h.
Lemma snap_before_save s h v h' : snap_before h s -> h' = h -> snap_before h (snap_save s h' v).
Proof.
  intros H ->. unfold snap_before, snap_save. simpl. destruct (existsb _ _); [done|].
  intros e [->|Hin]%elem_of_cons; [simpl; lia|by apply H].
Qed.
Lemma snap_before_mono s h h' : snap_before h s -> h <= h' -> snap_before h' s.
Proof. intros H Hle e Hin. specialize (H e Hin). lia. Qed.
Lemma snap_at_now s h h' : snap_before h s -> h < h' -> snap_at s h' = sn_cur s.
Proof. intros H Hlt. apply snap_find_none. intros e Hin. specialize (H e Hin). lia. Qed.
Lemma snap_before_empty h : snap_before h snap_empty.
Proof. intros e Hin. by apply elem_of_nil in Hin. Qed.

(** Maps. *)
Definition smap_before (h : Z) (m : smap) : Prop := forall a, snap_before h (smap_snap m a).
Lemma smap_snap_save m a h v a' :
  smap_snap (smap_save m a h v) a' =
  if decide (a' = a) then snap_save (smap_snap m a) h v else smap_snap m a'.
Proof.
  unfold smap_snap at 1, smap_save. destruct (decide (a' = a)) as [->|Hne].
  - by rewrite lookup_insert.
  - by rewrite lookup_insert_ne.
Qed.
Lemma smap_get_save m a h v a' :
  smap_get (smap_save m a h v) a' = if decide (a' = a) then v else smap_get m a'.
Proof. unfold smap_get. rewrite smap_snap_save. by destruct (decide (a' = a)). Qed.
Lemma smap_at_save m a h v a' h0 : h0 <= h -> smap_at (smap_save m a h v) a' h0 = smap_at m a' h0.
Proof.
  intros. unfold smap_at. rewrite smap_snap_save.
  destruct (decide (a' = a)) as [->|]; [|done]. by rewrite snap_at_save.
Qed.
Lemma smap_before_save m a h v : smap_before h m -> smap_before h (smap_save m a h v).
Proof.
  intros H a'. rewrite smap_snap_save. destruct (decide (a' = a)); [|apply H].
  by apply snap_before_save.
Qed.
Lemma smap_before_mono m h h' : smap_before h m -> h <= h' -> smap_before h' m.
Proof. intros H Hle a. by eapply snap_before_mono. Qed.
Lemma smap_before_empty h : smap_before h ∅.
Proof. intros a. unfold smap_snap. rewrite lookup_empty. apply snap_before_empty. Qed.
Lemma smap_at_now m a h h' : smap_before h m -> h < h' -> smap_at m a h' = smap_get m a.
Proof. intros H Hlt. unfold smap_at, smap_get. by erewrite snap_at_now. Qed.

Lemma snap_get_save s h v : snap_get (snap_save s h v) = v.
Proof. done. Qed.
Lemma snap_get_at_save s h v h0 : h0 <= h -> snap_get_at (snap_save s h v) h0 = snap_get_at s h0.
Proof. intros. unfold snap_get_at. by rewrite snap_at_save. Qed.
Lemma snap_get_at_now s h h' : snap_before h s -> h < h' -> snap_get_at s h' = snap_get s.
Proof. intros. unfold snap_get_at, snap_get. by erewrite snap_at_now. Qed.

(** Sum of current values. *)
Definition smap_sum (m : smap) : Z := msum (fun _ s => snap_get s) m.
Lemma smap_sum_save m a h v : smap_sum (smap_save m a h v) = smap_sum m - smap_get m a + v.
Proof.
  unfold smap_sum, smap_save. rewrite msum_insert. rewrite snap_get_save.
  unfold smap_get, smap_snap. destruct (m !! a); simpl; unfold snap_get; lia.
Qed.
Lemma smap_sum_ge m a :
  (forall a, 0 <= smap_get m a) -> smap_get m a <= smap_sum m.
Proof.
  intros H. unfold smap_sum, smap_get at 1, smap_snap. destruct (m !! a) as [s|] eqn:E; simpl.
  - change (snap_get s <= msum (fun _ s => snap_get s) m).
    apply (msum_ge_one (fun _ s => snap_get s) m a s); [|done].
    intros k v Hk. specialize (H k). unfold smap_get, smap_snap in H. rewrite Hk in H. exact H.
  - apply msum_nonneg. intros k v Hk. specialize (H k). unfold smap_get, smap_snap in H.
    rewrite Hk in H. exact H.
Qed.

(** ** Claims *)
Definition claims_sum (m : claims) : Z := msum (fun _ l => lsum cl_amount l) m.
Lemma claims_of_insert m a l a' :
  claims_of (<[a := l]> m) a' = if decide (a' = a) then l else claims_of m a'.
Proof.
  unfold claims_of. destruct (decide (a' = a)) as [->|]; [by rewrite lookup_insert|].
  by rewrite lookup_insert_ne.
Qed.
Lemma claims_sum_insert m a l :
  claims_sum (<[a := l]> m) = claims_sum m - lsum cl_amount (claims_of m a) + lsum cl_amount l.
Proof.
  unfold claims_sum. rewrite msum_insert. unfold claims_of. destruct (m !! a); simpl; lia.
Qed.
Lemma claims_sum_create m a n e : claims_sum (create_claim m a n e) = claims_sum m + n.
Proof. unfold create_claim. rewrite claims_sum_insert, lsum_app. simpl. lia. Qed.
Lemma lsum_filter_split {A} (f : A -> Z) (p : A -> bool) l :
  lsum f (List.filter p l) + lsum f (List.filter (fun x => negb (p x)) l) = lsum f l.
Proof. induction l as [|x l IH]; simpl; [done|]. destruct (p x); simpl; lia. Qed.
Lemma filter_perm {A} (p : A -> bool) (l : list A) :
  List.filter p l ++ List.filter (fun x => negb (p x)) l ≡ₚ l.
Proof.
  induction l as [|x l IH]; simpl; [done|]. destruct (p x); simpl.
  - by rewrite IH.
  - rewrite <-Permutation_middle. by rewrite IH.
Qed.
Lemma claim_tokens_ok m a b n m' :
  claim_tokens m a b = Ok (n, m') ->
  n = lsum cl_amount (List.filter (mature b) (claims_of m a)) /\
  m' = <[a := List.filter (fun c => negb (mature b c)) (claims_of m a)]> m /\
  claims_sum m' = claims_sum m - n.
Proof.
  unfold claim_tokens. intros H. res_inv H. split; [done|]. split; [done|].
  rewrite claims_sum_insert. pose proof (lsum_filter_split cl_amount (mature b) (claims_of m a)). lia.
Qed.
Definition claims_pos (m : claims) : Prop :=
  forall a c, c ∈ claims_of m a -> 0 <= cl_amount c.
Lemma claims_sum_ge m a :
  claims_pos m -> lsum cl_amount (claims_of m a) <= claims_sum m.
Proof.
  intros H. unfold claims_sum, claims_of. destruct (m !! a) as [l|] eqn:E; simpl.
  - apply (msum_ge_one (fun _ l => lsum cl_amount l) m a l); [|done].
    intros k v Hk. apply lsum_nonneg. intros c Hc. apply (H k). unfold claims_of. by rewrite Hk.
  - apply msum_nonneg. intros k v Hk. apply lsum_nonneg. intros c Hc. apply (H k).
    unfold claims_of. by rewrite Hk.
Qed.
Lemma claims_pos_insert m a l :
  claims_pos m -> (forall c, c ∈ l -> 0 <= cl_amount c) -> claims_pos (<[a := l]> m).
Proof. intros H Hl a' c. rewrite claims_of_insert. destruct (decide (a' = a)); eauto. Qed.
Lemma elem_of_filter_b {A} (p : A -> bool) l x :
  x ∈ List.filter p l <-> x ∈ l /\ p x = true.
Proof. rewrite !elem_of_list_In. apply filter_In. Qed.
Lemma claims_pos_create m a n e : claims_pos m -> 0 <= n -> claims_pos (create_claim m a n e).
Proof.
  intros H Hn. apply claims_pos_insert; [done|]. intros c [Hc|Hc]%elem_of_app; [by eapply H|].
  apply elem_of_list_singleton in Hc. by subst.
Qed.
Lemma claims_pos_empty : claims_pos ∅.
Proof. intros a c. unfold claims_of. rewrite lookup_empty. intros H. by apply elem_of_nil in H. Qed.
