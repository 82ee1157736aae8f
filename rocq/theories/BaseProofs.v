(** Lemmas about the shared vocabulary. *)
From Verif Require Import Base.

Ltac Zify.zify_post_hook ::= Z.div_mod_to_equations.

(** Split a hypothesis [H : (do! ... ) = Ok _] into its successful path. *)
Ltac res_step H :=
  match type of H with
  | Err _ = Ok _ => discriminate H
  | Ok _ = Err _ => discriminate H
  | Ok _ = Ok _ => injection H; clear H; intros; subst
  | context [match ?x with Ok _ => _ | Err _ => _ end] =>
      let E := fresh "E" in destruct x eqn:E; [|try discriminate H]
  | context [match ?x with Some _ => _ | None => _ end] =>
      let E := fresh "E" in destruct x eqn:E; try discriminate H
  | context [if ?x then _ else _] =>
      let E := fresh "E" in destruct x eqn:E; try discriminate H
  | context [let '(_, _) := ?x in _] =>
      let E := fresh "E" in destruct x eqn:E
  end; cbn beta iota in *.
Ltac res_inv H := repeat (res_step H).

Lemma add128_ok a b c : add128 a b = Ok c -> c = a + b /\ a + b <= U128_MAX.
Proof. unfold add128. destruct (_ <? _) eqn:E; intros [=]; lia. Qed.
Lemma sub128_ok a b c : sub128 a b = Ok c -> c = a - b /\ b <= a.
Proof. unfold sub128. destruct (_ <? _) eqn:E; intros [=]; lia. Qed.
Lemma mul128_ok a b c : mul128 a b = Ok c -> c = a * b /\ a * b <= U128_MAX.
Proof. unfold mul128. destruct (_ <? _) eqn:E; intros [=]; lia. Qed.
Lemma mul_ratio128_ok a n d c :
  mul_ratio128 a n d = Ok c -> d <> 0 /\ c = a * n / d /\ c <= U128_MAX.
Proof.
  unfold mul_ratio128. destruct (d =? 0) eqn:E; [discriminate|].
  destruct (_ <? _) eqn:E2; intros [=]; lia.
Qed.
Lemma add128_eq a b : a + b <= U128_MAX -> add128 a b = Ok (a + b).
Proof. unfold add128. intros. destruct (_ <? _) eqn:E; [lia|done]. Qed.
Lemma sub128_eq a b : b <= a -> sub128 a b = Ok (a - b).
Proof. unfold sub128. intros. destruct (_ <? _) eqn:E; [lia|done]. Qed.
Lemma mul_ratio128_eq a n d :
  d <> 0 -> a * n / d <= U128_MAX -> mul_ratio128 a n d = Ok (a * n / d).
Proof.
  unfold mul_ratio128. intros. destruct (d =? 0) eqn:?; [lia|].
  destruct (_ <? _) eqn:E; [lia|done].
Qed.

Lemma block_le_refl b : block_le b b.
Proof. unfold block_le; lia. Qed.
Lemma block_le_trans a b c : block_le a b -> block_le b c -> block_le a c.
Proof. unfold block_le; lia. Qed.

Lemma is_expired_mono e b b' :
  block_le b b' -> is_expired e b = true -> is_expired e b' = true.
Proof. unfold block_le. destruct e; simpl; try lia; try done. Qed.

(** ** Sums *)
Section msum.
  Context {K V : Type} `{Countable K}.
  Implicit Types (m : gmap K V) (f g : K -> V -> Z).

  Lemma msum_empty f : msum f (∅ : gmap K V) = 0.
  Proof. apply map_fold_empty. Qed.

  Lemma msum_insert_new f m k v :
    m !! k = None -> msum f (<[k := v]> m) = f k v + msum f m.
  Proof.
    intros Hk. unfold msum.
    rewrite (map_fold_insert_L (fun k v acc => f k v + acc)); [done| |done].
    intros; lia.
  Qed.

  Lemma msum_delete f m k v :
    m !! k = Some v -> msum f (delete k m) = msum f m - f k v.
  Proof.
    intros Hk. rewrite <- (insert_delete m k v Hk) at 2.
    rewrite msum_insert_new by apply lookup_delete. lia.
  Qed.

  Lemma msum_insert_upd f m k v v' :
    m !! k = Some v -> msum f (<[k := v']> m) = msum f m - f k v + f k v'.
  Proof.
    intros Hk. rewrite <- (insert_delete_insert m k v').
    rewrite msum_insert_new by apply lookup_delete.
    rewrite (msum_delete f m k v Hk). lia.
  Qed.

  (** Uniform statement: replacing or adding. *)
  Lemma msum_insert f m k v' :
    msum f (<[k := v']> m) =
      msum f m - (match m !! k with Some v => f k v | None => 0 end) + f k v'.
  Proof.
    destruct (m !! k) eqn:E.
    - by apply msum_insert_upd.
    - rewrite msum_insert_new by done. lia.
  Qed.

  Lemma msum_le f g m :
    (forall k v, m !! k = Some v -> f k v <= g k v) -> msum f m <= msum g m.
  Proof.
    induction m as [|k v m Hk IH] using map_ind; intros Hle.
    - rewrite !msum_empty. lia.
    - rewrite !msum_insert_new by done.
      assert (f k v <= g k v) by (apply Hle; apply lookup_insert).
      assert (msum f m <= msum g m); [|lia].
      apply IH. intros k' v' Hk'. apply Hle.
      rewrite lookup_insert_ne; [done|]. intros ->. congruence.
  Qed.

  Lemma msum_ext f g m :
    (forall k v, m !! k = Some v -> f k v = g k v) -> msum f m = msum g m.
  Proof.
    intros Heq. apply Z.le_antisymm; apply msum_le; intros k v Hk;
      rewrite (Heq k v Hk); lia.
  Qed.

  Lemma msum_zero m : msum (fun _ _ => 0) m = 0.
  Proof.
    induction m as [|k v m Hk IH] using map_ind; [apply msum_empty|].
    rewrite msum_insert_new by done. lia.
  Qed.

  Lemma msum_nonneg f m :
    (forall k v, m !! k = Some v -> 0 <= f k v) -> 0 <= msum f m.
  Proof. intros Hf. rewrite <- (msum_zero m). by apply msum_le. Qed.

  Lemma msum_add f g m :
    msum (fun k v => f k v + g k v) m = msum f m + msum g m.
  Proof.
    induction m as [|k v m Hk IH] using map_ind; [rewrite !msum_empty; lia|].
    rewrite !msum_insert_new by done. lia.
  Qed.

  Lemma msum_sub f g m :
    msum (fun k v => f k v - g k v) m = msum f m - msum g m.
  Proof.
    induction m as [|k v m Hk IH] using map_ind; [rewrite !msum_empty; lia|].
    rewrite !msum_insert_new by done. lia.
  Qed.

  Lemma msum_scale c f m : msum (fun k v => c * f k v) m = c * msum f m.
  Proof.
    induction m as [|k v m Hk IH] using map_ind; [rewrite !msum_empty; lia|].
    rewrite !msum_insert_new by done. lia.
  Qed.

  Lemma msum_ge_one f m k v :
    (forall k v, m !! k = Some v -> 0 <= f k v) ->
    m !! k = Some v -> f k v <= msum f m.
  Proof.
    intros Hf Hk. pose proof (msum_delete f m k v Hk).
    assert (0 <= msum f (delete k m)); [|lia].
    apply msum_nonneg. intros k' v' Hk'.
    apply lookup_delete_Some in Hk' as [_ Hk']. eauto.
  Qed.

  Lemma msum_ge_two f m k v k' v' :
    (forall k v, m !! k = Some v -> 0 <= f k v) ->
    k <> k' -> m !! k = Some v -> m !! k' = Some v' -> f k v + f k' v' <= msum f m.
  Proof.
    intros Hf Hne Hk Hk'. pose proof (msum_delete f m k v Hk) as Hd.
    assert (f k' v' <= msum f (delete k m)); [|lia].
    apply msum_ge_one.
    - intros k2 v2 Hk2. apply lookup_delete_Some in Hk2 as [_ Hk2]. eauto.
    - rewrite lookup_delete_ne; done.
  Qed.

  (** Sum over the map as a sum over its (duplicate-free) key/value list. *)
  Lemma msum_to_list f m : msum f m = lsum (fun kv => f kv.1 kv.2) (map_to_list m).
  Proof.
    induction m as [|k v m Hk IH] using map_ind.
    - rewrite msum_empty, map_to_list_empty. done.
    - rewrite msum_insert_new by done.
      assert (forall (l l' : list (K * V)), l ≡ₚ l' ->
        lsum (fun kv => f kv.1 kv.2) l = lsum (fun kv => f kv.1 kv.2) l') as Hperm.
      { induction 1; simpl; lia. }
      rewrite (Hperm _ _ (map_to_list_insert m k v Hk)). simpl. lia.
  Qed.
End msum.

Section lsum.
  Context {A : Type}.
  Lemma lsum_app (f : A -> Z) l l' : lsum f (l ++ l') = lsum f l + lsum f l'.
  Proof. induction l; simpl; lia. Qed.
  Lemma lsum_perm (f : A -> Z) l l' : l ≡ₚ l' -> lsum f l = lsum f l'.
  Proof. induction 1; simpl; lia. Qed.
  Lemma lsum_ext (f g : A -> Z) l :
    (forall x, x ∈ l -> f x = g x) -> lsum f l = lsum g l.
  Proof.
    induction l as [|x l IH]; intros Hx; simpl; [done|].
    rewrite (Hx x) by left. rewrite IH; [done|]. intros; apply Hx; by right.
  Qed.
  Lemma lsum_le (f g : A -> Z) l :
    (forall x, x ∈ l -> f x <= g x) -> lsum f l <= lsum g l.
  Proof.
    induction l as [|x l IH]; intros Hx; simpl; [lia|].
    assert (f x <= g x) by (apply Hx; left).
    assert (lsum f l <= lsum g l); [|lia]. apply IH. intros; apply Hx; by right.
  Qed.
  Lemma lsum_nonneg (f : A -> Z) l : (forall x, x ∈ l -> 0 <= f x) -> 0 <= lsum f l.
  Proof.
    induction l as [|x l IH]; intros Hx; simpl; [lia|].
    assert (0 <= f x) by (apply Hx; left).
    assert (0 <= lsum f l); [|lia]. apply IH. intros; apply Hx; by right.
  Qed.
  Lemma lsum_add (f g : A -> Z) l : lsum (fun x => f x + g x) l = lsum f l + lsum g l.
  Proof. induction l; simpl; lia. Qed.
  Lemma lsum_scale c (f : A -> Z) l : lsum (fun x => c * f x) l = c * lsum f l.
  Proof. induction l; simpl; lia. Qed.
  Lemma lsum_map {B} (g : B -> A) (f : A -> Z) l : lsum f (map g l) = lsum (fun x => f (g x)) l.
  Proof. induction l; simpl; [done|]. by rewrite IHl. Qed.
End lsum.

(** ** Floor-division facts used by several contracts *)
Lemma div_mul_le a b : 0 < b -> a / b * b <= a.
Proof. intros. pose proof (Z.mul_div_le a b). lia. Qed.
Lemma div_mul_gt a b : 0 < b -> a < (a / b + 1) * b.
Proof. intros. pose proof (Z.mul_succ_div_gt a b). lia. Qed.
Lemma lsum_div_le {A} (f : A -> Z) d l :
  0 < d -> lsum (fun x => f x / d) l <= lsum f l / d.
Proof.
  intros Hd. apply Z.div_le_lower_bound; [done|].
  rewrite <- lsum_scale. apply lsum_le. intros x _. rewrite Z.mul_comm.
  pose proof (div_mul_le (f x) d Hd). lia.
Qed.
Lemma msum_div_le {K V} `{Countable K} (f : K -> V -> Z) d (m : gmap K V) :
  0 < d -> msum (fun k v => f k v / d) m <= msum f m / d.
Proof.
  intros Hd. apply Z.div_le_lower_bound; [done|].
  rewrite <- msum_scale. apply msum_le. intros k v _. rewrite Z.mul_comm.
  pose proof (div_mul_le (f k v) d Hd). lia.
Qed.
