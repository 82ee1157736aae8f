(** Model of packages/cw-paginate-storage/src/lib.rs and of the queries built like it.

    A map in storage is read in the order of the bytes of its keys; a key is a list of bytes.
    That a key type is written in bytes in a way that keeps apart different keys is assumed
    (cw-storage-plus). *)
From stdpp Require Import sorting.
From Verif Require Import Base.

Notation key := (list N).
Inductive order := Ascending | Descending.

(** The order of bytes. *)
Fixpoint kcmp (a b : key) : comparison :=
  match a, b with
  | [], [] => Eq
  | [], _ :: _ => Lt
  | _ :: _, [] => Gt
  | x :: a, y :: b => match N.compare x y with Eq => kcmp a b | c => c end
  end.
Definition kltb (a b : key) : bool := match kcmp a b with Lt => true | _ => false end.
Definition kle (a b : key) : Prop := kcmp a b <> Gt.
#[global] Instance kle_dec a b : Decision (kle a b).
Proof. unfold kle. destruct (kcmp a b); first [left; discriminate | right; intros H; by apply H]. Defined.
Definition ele {V} (x y : key * V) : Prop := kle (fst x) (fst y).
#[global] Instance ele_dec {V} (x y : key * V) : Decision (ele x y) := kle_dec _ _.

(** [Map::range] with exclusive bounds. *)
Definition range {V} (m : gmap key V) (min max : option key) (o : order) : list (key * V) :=
  let l := List.filter (fun x =>
      match min with Some k => kltb k (fst x) | None => true end &&
      match max with Some k => kltb (fst x) k | None => true end)
    (merge_sort ele (map_to_list m)) in
  match o with Ascending => l | Descending => reverse l end.

(** 10-33 [paginate_map]; [paginate_map_keys] 36-59, [paginate_snapshot_map] 62-85,
    [paginate_map_values] 88-114 and [paginate_snapshot_map_keys] 118-141 drop a component.
    So read dao-dao-core/src/contract.rs:620-648 and 749-851, and with a limit filled in
    dao-proposal-single/src/contract.rs:870-911 and dao-proposal-multiple/src/contract.rs:890-931,
    cw721-roles/src/contract.rs:474-499. *)
Definition paginate_map {V} (m : gmap key V) (start : option key) (limit : option Z) (o : order)
  : list (key * V) :=
  let ' (min, max) := match o with Ascending => (start, None) | Descending => (None, start) end in
  let items := range m min max o in
  match limit with Some n => take (Z.to_nat n) items | None => items end.

(** dao-dao-core/src/contract.rs:650-676 [query_active_proposal_modules]: [f] holds of the
    enabled.  A length is cut to 32 bits. *)
Definition query_active {V} (f : V -> bool) (m : gmap key V) (start : option key)
  (limit : option Z) : list (key * V) :=
  let values := paginate_map m start None Ascending in
  let n := default (Z.of_nat (length values) mod 2 ^ 32) limit in
  take (Z.to_nat n) (List.filter (fun x => f (snd x)) values).

(** A reader: one page after another, each starting after the last key seen; the map may
    change between pages. *)
Definition next {V} (start : option key) (page : list (key * V)) : option key :=
  match last page with Some x => Some (fst x) | None => start end.
Fixpoint fetch {V} (query : gmap key V -> option key -> list (key * V)) (start : option key)
  (ms : list (gmap key V)) : list (list (key * V)) :=
  match ms with
  | [] => []
  | m :: ms => let p := query m start in p :: fetch query (next start p) ms
  end.
