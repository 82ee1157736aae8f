(** The claims about pages. *)
From stdpp Require Import sorting.
From Verif Require Import Base BaseProofs PageModel PageSpec PageProofs.

(** A listing is determined by the map. *)
Lemma one_listing {V} (o : order) (f : V -> bool) (start : option key) (m : gmap key V) :
  exists l, listing o f start m l /\ forall l', listing o f start m l' -> l' = l.
Proof.
  destruct (listings o f m start) as [l Hl]. exists l. split; [done|]. intros l' H.
  by eapply listing_det.
Qed.
(** One page. *)
Lemma one_page {V} (o : order) (start : option key) (m : gmap key V) (limit : option Z) l :
  listing o anything start m l ->
  paginate_map m start limit o =
  match limit with Some n => take (Z.to_nat n) l | None => l end.
Proof.
  intros H. destruct limit as [n|]; [by apply gives_map|].
  eapply listing_det; [apply unlimited|done].
Qed.
(** As many pages as it takes. *)
Lemma all_pages {V} (o : order) (m : gmap key V) (n : Z) (t : nat) l :
  0 < n -> listing o anything None m l ->
  let pages := fetch (fun m s => paginate_map m s (Some n) o) None (replicate t m) in
  length pages = t /\ concat pages = take (t * Z.to_nat n) l /\
  (Z.of_nat (size m) <= Z.of_nat t * n -> concat pages = l) /\
  (Z.of_nat (size m) < Z.of_nat t * n ->
   exists p, last pages = Some p /\ Z.of_nat (length p) < n).
Proof.
  intros Hn H. cbv zeta. rewrite (fetch_same _ _ _ _ _ _ _ _ (gives_map o n) H), concat_pages.
  rewrite map_length, seq_length. split; [done|]. split; [done|].
  pose proof (listing_size _ _ _ H) as Hs. split.
  - intros L. apply take_ge. rewrite Hs. lia.
  - intros L. destruct t as [|t]; [lia|]. rewrite seq_S, map_app. cbn [map]. rewrite last_snoc. eexists. split; [done|].
    cbn [Nat.add]. rewrite take_length, drop_length, Hs. nia.
Qed.
(** The map may change between pages. *)
Lemma changing_pages {V} (o : order) (n : Z) (ms : list (gmap key V)) :
  let pages := fetch (fun m s => paginate_map m s (Some n) o) None ms in
  in_order o (concat pages) /\
  (forall k v, (k, v) ∈ concat pages -> exists m, m ∈ ms /\ m !! k = Some v) /\
  (forall p k, last pages = Some p -> Z.of_nat (length p) < n ->
    (forall m, m ∈ ms -> is_Some (m !! k)) -> exists v, (k, v) ∈ concat pages).
Proof.
  destruct (fetch_changing _ o anything _ None ms (gives_map o n)) as (A & B & C). cbv zeta.
  split; [exact A|]. split.
  - intros k v H. destruct (B k v H) as (_ & m & ? & ? & _). eauto.
  - intros p k Hp L Hall. apply (C p k Hp); [lia|done|]. intros m Hm.
    destruct (Hall m Hm) as [v Hv]. by exists v.
Qed.
(** The enabled modules. *)
Lemma active_pages {V} (f : V -> bool) (m : gmap key V) (n : Z) (t : nat) l :
  0 < n -> listing Ascending f None m l ->
  let pages := fetch (fun m s => query_active f m s (Some n)) None (replicate t m) in
  length pages = t /\ concat pages = take (t * Z.to_nat n) l /\
  (Z.of_nat (length l) <= Z.of_nat t * n -> concat pages = l).
Proof.
  intros Hn H. cbv zeta. rewrite (fetch_same _ _ _ _ _ _ _ _ (gives_active f n) H), concat_pages.
  rewrite map_length, seq_length. split; [done|]. split; [done|]. intros L. apply take_ge. lia.
Qed.
Lemma active_one {V} (f : V -> bool) (m : gmap key V) (start : option key) l :
  Z.of_nat (size m) < 2 ^ 32 -> listing Ascending f start m l ->
  query_active f m start None = l.
Proof.
  intros L H. unfold query_active. cbn.
  set (vs := paginate_map m start None Ascending).
  rewrite (listing_det _ _ _ _ _ _ H (listing_filter _ f _ _ _ (unlimited Ascending start m))).
  fold vs. apply take_ge.
  assert (length vs <= size m)%nat as L1.
  { unfold vs, paginate_map, range. change (size m) with (length (map_to_list m)).
    pose proof (Permutation_length (merge_sort_Permutation ele (map_to_list m))) as <-.
    apply filter_length_le'. }
  rewrite Z.mod_small; [|split; [lia|eapply Z.le_lt_trans; [|exact L]; by apply inj_le]]. rewrite Nat2Z.id. apply filter_length_le'.
Qed.
