(** cw-paginate-storage: theorems.  Each is followed by what it rests on and by a concrete case
    meeting its hypotheses. *)
From stdpp Require Import sorting.
From Verif Require Import Base BaseProofs PageModel PageSpec PageProofs PageClaims PageExamples.

(** * C64 *)
Theorem C64_one_listing {V} (o : order) (f : V -> bool) (start : option key) (m : gmap key V) :
  exists l, listing o f start m l /\ forall l', listing o f start m l' -> l' = l.
Proof. exact (one_listing o f start m). Qed.
Print Assumptions C64_one_listing.
Theorem C64_one_page {V} (o : order) (start : option key) (m : gmap key V) (limit : option Z) l :
  listing o anything start m l ->
  paginate_map m start limit o =
  match limit with Some n => take (Z.to_nat n) l | None => l end.
Proof. exact (one_page o start m limit l). Qed.
Print Assumptions C64_one_page.
Theorem C64_all_pages {V} (o : order) (m : gmap key V) (n : Z) (t : nat) l :
  0 < n -> listing o anything None m l ->
  let pages := fetch (fun m s => paginate_map m s (Some n) o) None (replicate t m) in
  length pages = t /\ concat pages = take (t * Z.to_nat n) l /\
  (Z.of_nat (size m) <= Z.of_nat t * n -> concat pages = l) /\
  (Z.of_nat (size m) < Z.of_nat t * n ->
   exists p, last pages = Some p /\ Z.of_nat (length p) < n).
Proof. exact (all_pages o m n t l). Qed.
Print Assumptions C64_all_pages.
Theorem C64_changing {V} (o : order) (n : Z) (ms : list (gmap key V)) :
  let pages := fetch (fun m s => paginate_map m s (Some n) o) None ms in
  in_order o (concat pages) /\
  (forall k v, (k, v) ∈ concat pages -> exists m, m ∈ ms /\ m !! k = Some v) /\
  (forall p k, last pages = Some p -> Z.of_nat (length p) < n ->
    (forall m, m ∈ ms -> is_Some (m !! k)) -> exists v, (k, v) ∈ concat pages).
Proof. exact (changing_pages o n ms). Qed.
Print Assumptions C64_changing.
Theorem C64_active_pages {V} (f : V -> bool) (m : gmap key V) (n : Z) (t : nat) l :
  0 < n -> listing Ascending f None m l ->
  let pages := fetch (fun m s => query_active f m s (Some n)) None (replicate t m) in
  length pages = t /\ concat pages = take (t * Z.to_nat n) l /\
  (Z.of_nat (length l) <= Z.of_nat t * n -> concat pages = l).
Proof. exact (active_pages f m n t l). Qed.
Print Assumptions C64_active_pages.
Theorem C64_active_one {V} (f : V -> bool) (m : gmap key V) (start : option key) l :
  Z.of_nat (size m) < 2 ^ 32 -> listing Ascending f start m l ->
  query_active f m start None = l.
Proof. exact (active_one f m start l). Qed.
Print Assumptions C64_active_one.
(** Three pages of two list the five entries; so they do backwards. *)
Example C64_case :
  fetch (fun m s => paginate_map m s (Some 2) Ascending) None (replicate 3 five) =
    [[([]%N, 0); ([1]%N, 1)]; [([1; 9]%N, 19); ([2; 1]%N, 21)]; [([3]%N, 3)]] /\
  concat (fetch (fun m s => paginate_map m s (Some 2) Descending) None (replicate 3 five)) =
    [([3]%N, 3); ([2; 1]%N, 21); ([1; 9]%N, 19); ([1]%N, 1); ([]%N, 0)] /\
  size five = 5%nat /\
  paginate_map five (Some [1]%N) None Descending = [([]%N, 0)].
Proof. split; [|split; [|split]]; vm_compute; reflexivity. Qed.
(** The map changes after the first page: every entry there throughout is listed. *)
Example C64_case_changing :
  fetch (fun m s => paginate_map m s (Some 2) Ascending) None [five; six; six] =
    [[([]%N, 0); ([1]%N, 1)]; [([1; 9]%N, 19); ([1; 9; 1]%N, 191)]; [([2; 1]%N, 21); ([3]%N, 3)]].
Proof. vm_compute; reflexivity. Qed.
Example C64_case_active :
  fetch (fun m s => query_active odd m s (Some 2)) None (replicate 2 five) =
    [[([1]%N, 1); ([1; 9]%N, 19)]; [([2; 1]%N, 21); ([3]%N, 3)]] /\
  query_active odd five (Some [1; 9]%N) None = [([2; 1]%N, 21); ([3]%N, 3)].
Proof. split; vm_compute; reflexivity. Qed.
