(** Model of packages/cw-wormhole/src/lib.rs and packages/cw-stake-tracker/src/lib.rs.

    The snapshots of one key are kept as a list of (time, value) in the order of
    the storage, ascending in time.  Times are whole seconds. *)
From Verif Require Import Base.

(** ** cw-wormhole *)
Notation whole := (list (Z * Z)).
(** lib.rs:101-110 [load]: a descending range from [t], its first entry; that is
    the last entry not after [t] in ascending order. *)
Fixpoint w_find (w : whole) (t : Z) (acc : option Z) : option Z :=
  match w with
  | [] => acc
  | (t', v) :: w' => w_find w' t (if t' <=? t then Some v else acc)
  end.
Definition w_load (w : whole) (t : Z) : option Z := w_find w t None.
(** cw_storage_plus [Map::save] under (key, [t]). *)
Fixpoint w_save (w : whole) (t v : Z) : whole :=
  match w with
  | [] => [(t, v)]
  | (t', v') :: w' =>
      if t <? t' then (t, v) :: w
      else if t' =? t then (t, v) :: w' else (t', v') :: w_save w' t v
  end.
(** lib.rs:142-166 [update].  The Rust closure may change variables it captures;
    they are the extra argument and result of [f]. *)
Section update.
  Context {A : Type}.
  Variable f : A -> Z -> Z -> result (Z * A).
  (** 153-163: the loop over later times. *)
  Fixpoint w_later (w : whole) (t : Z) (a : A) : result (whole * A) :=
    match w with
    | [] => Ok ([], a)
    | (t', v) :: w' =>
        if t <? t' then
          do! ' (v', a') <- f a v t';
          do! ' (w'', a'') <- w_later w' t a';
          Ok ((t', v') :: w'', a'')
        else
          do! ' (w'', a') <- w_later w' t a;
          Ok ((t', v) :: w'', a')
    end.
  Definition w_update (w : whole) (t : Z) (a : A) : result (whole * Z * A) :=
    do! ' (v, a1) <- f a (default 0 (w_load w t)) t;
    do! ' (w', a2) <- w_later (w_save w t v) t a1;
    Ok (w', v, a2).
End update.
(** lib.rs:211-222 [dangerously_update]. *)
Definition w_update_one (f : Z -> result Z) (w : whole) (t : Z) : result (whole * Z) :=
  do! v <- f (default 0 (w_load w t));
  Ok (w_save w t v, v).

(** [u64] arithmetic, with overflow checks. *)
Definition add64 (a b : Z) : result Z := if U64_MAX <? a + b then Err "panic" else Ok (a + b).
Definition sub64 (a b : Z) : result Z := if a <? b then Err "panic" else Ok (a - b).

(** lib.rs:113-127 [increment], [decrement], for values in [Uint128] and in [u64]. *)
Definition w_step (op : Z -> Z -> result Z) (w : whole) (t i : Z) : result (whole * Z) :=
  do! ' (w', v, _) <- w_update (fun (_ : unit) v _ => do! x <- op v i; Ok (x, tt)) w t tt;
  Ok (w', v).
Definition w_inc : whole -> Z -> Z -> result (whole * Z) := w_step add128.
Definition w_dec : whole -> Z -> Z -> result (whole * Z) := w_step sub128.
Definition w_inc64 : whole -> Z -> Z -> result (whole * Z) := w_step add64.
Definition w_dec64 : whole -> Z -> Z -> result (whole * Z) := w_step sub64.

(** A wormhole with several keys. *)
Notation wmap := (gmap N whole).
Definition wm_get (m : wmap) (k : N) : whole := default [] (m !! k).
Definition wm_inc (m : wmap) (k : N) (t i : Z) : result (wmap * Z) :=
  do! ' (w, v) <- w_inc (wm_get m k) t i; Ok (<[k := w]> m, v).
Definition wm_dec (m : wmap) (k : N) (t i : Z) : result (wmap * Z) :=
  do! ' (w, v) <- w_dec (wm_get m k) t i; Ok (<[k := w]> m, v).

(** ** cw-stake-tracker

    Validators are numbers.  14-26: *)
Record tracker := Tracker { tr_total : whole; tr_vals : wmap; tr_card : whole }.
Definition tr_new : tracker := Tracker [] ∅ [].

(** 52-71 [on_delegate]. *)
Definition on_delegate (k : tracker) (t : Z) (v : N) (n : Z) : result tracker :=
  do! ' (tot, _) <- w_inc (tr_total k) t n;
  let old := default 0 (w_load (wm_get (tr_vals k) v) t) in
  do! card <- (if (old =? 0) && negb (n =? 0)
               then do! ' (c, _) <- w_inc64 (tr_card k) t 1; Ok c else Ok (tr_card k));
  do! ' (vals, _) <- wm_inc (tr_vals k) v t n;
  Ok (Tracker tot vals card).
(** 78-99 [on_redelegate]. *)
Definition on_redelegate (k : tracker) (t : Z) (src dst : N) (n : Z) : result tracker :=
  do! ' (vals, new) <- wm_dec (tr_vals k) src t n;
  do! card <- (if new =? 0 then do! ' (c, _) <- w_dec64 (tr_card k) t 1; Ok c
               else Ok (tr_card k));
  do! ' (vals', new') <- wm_inc vals dst t n;
  do! card' <- (if new' =? n then do! ' (c, _) <- w_inc64 card t 1; Ok c else Ok card);
  Ok (Tracker (tr_total k) vals' card').
(** 101-126 [on_undelegate]. *)
Definition on_undelegate (k : tracker) (t : Z) (v : N) (n d : Z) : result tracker :=
  do! r <- add64 t d;
  do! ' (tot, _) <- w_dec (tr_total k) r n;
  do! ' (vals, new) <- wm_dec (tr_vals k) v r n;
  do! card <- (if (new =? 0) && negb (n =? 0)
               then do! ' (c, _) <- w_dec64 (tr_card k) r 1; Ok c else Ok (tr_card k));
  Ok (Tracker tot vals card).
(** 143-148: a change of the cardinality. *)
Inductive change := CInc (t : Z) | CDec (t : Z).
(** 166-181: the closure; it captures [was_nonzero] and the changes so far. *)
Definition slash_closure (n : Z) (a : bool * list change) (staked t : Z)
  : result (Z * (bool * list change)) :=
  do! new <- sub128 staked n;
  let '(was, cs) := a in
  Ok (new,
      if (new =? 0) && was then (false, cs ++ [CDec t])
      else if negb (new =? 0) && negb was then (true, cs ++ [CInc t])
      else a).
(** 185-190. *)
Fixpoint apply_changes (card : whole) (cs : list change) : result whole :=
  match cs with
  | [] => Ok card
  | CInc t :: cs => do! ' (c, _) <- w_inc64 card t 1; apply_changes c cs
  | CDec t :: cs => do! ' (c, _) <- w_dec64 card t 1; apply_changes c cs
  end.
(** 136-193 [on_bonded_slash]. *)
Definition on_bonded_slash (k : tracker) (t : Z) (v : N) (n : Z) : result tracker :=
  do! ' (tot, _) <- w_dec (tr_total k) t n;
  do! ' (w, _, (_, cs)) <- w_update (slash_closure n) (wm_get (tr_vals k) v) t (true, []);
  do! card <- apply_changes (tr_card k) cs;
  Ok (Tracker tot (<[v := w]> (tr_vals k)) card).
(** 203-228 [on_unbonding_slash]. *)
Definition on_unbonding_slash (k : tracker) (t : Z) (v : N) (n : Z) : result tracker :=
  do! ' (tot, _) <- w_update_one (fun x => sub128 x n) (tr_total k) t;
  do! ' (w, new) <- w_update_one (fun x => sub128 x n) (wm_get (tr_vals k) v) t;
  do! card <- (if new =? 0
               then do! ' (c, _) <- w_update_one (fun x => sub64 x 1) (tr_card k) t; Ok c
               else Ok (tr_card k));
  Ok (Tracker tot (<[v := w]> (tr_vals k)) card).
(** 232-257: the queries. *)
Definition total_staked (k : tracker) (t : Z) : Z := default 0 (w_load (tr_total k) t).
Definition validator_staked (k : tracker) (v : N) (t : Z) : Z :=
  default 0 (w_load (wm_get (tr_vals k) v) t).
Definition validator_cardinality (k : tracker) (t : Z) : Z := default 0 (w_load (tr_card k) t).
