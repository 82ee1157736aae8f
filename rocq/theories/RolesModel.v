(** Model of contracts/external/cw721-roles/src: contract.rs and state.rs, and of
    contracts/voting/dao-voting-cw721-roles/src/contract.rs.

    The tokens and their owners are kept by cw721-base, an external crate modelled from its
    documentation.  Roles, URIs and approvals change nothing that is modelled: a change of
    role or URI is [RNote], an approval is [RApprove].  A token id is a number. *)
From Verif Require Import Base Exec StoreModel.

(** [SnapshotMap::remove]: the old value goes to the changelog as for a save. *)
Definition snap_drop (s : snap) (h : Z) : snap :=
  Snap None
    (if existsb (fun e => e.1 =? h) (sn_log s) then sn_log s else (h, sn_cur s) :: sn_log s).
Definition smap_drop (m : smap) (a : addr) (h : Z) : smap :=
  <[a := snap_drop (smap_snap m a) h]> m.
Definition smap_load (m : smap) (a : addr) : option Z := sn_cur (smap_snap m a).

(** state.rs:5-22, and of cw721-base the ownership and the tokens with their weights. *)
Record role := Role { ro_owner : addr; ro_weight : Z }.
Record rstate := RState {
  r_own : own;
  r_tokens : gmap N role;
  r_members : smap;
  r_total : snap;
  r_hooks : list addr }.

Inductive rmsg :=
| RMint (id : N) (owner : addr) (w : Z)
| RBurn (id : N)
| RAddHook (a : addr)
| RRemoveHook (a : addr)
| RNote (id : N)
| RWeight (id : N) (w : Z)
| RTransfer (to : addr) (id : N)
| RSend (to : addr) (id : N)
| RApprove
| ROwn (act : own_action).
(** The change of a member's weight told to a hook, and a token sent to a contract. *)
Inductive rsub :=
| RHook (hook : addr) (who : addr) (old new : option Z)
| RReceive (to : addr) (id : N).

(** 31-49 [instantiate]; [minter] owns the contract. *)
Definition r_instantiate (minter : addr) (b : block) : rstate :=
  RState (initialize_owner (Some minter)) ∅ ∅ (snap_save snap_empty (height b) 0) [].

Definition fits64 (n : Z) : bool := (0 <=? n) && (n <=? U64_MAX).
Definition add64 (a b : Z) : result Z := check! a + b <=? U64_MAX else "panic"; Ok (a + b).
Definition sub64 (a b : Z) : result Z := check! b <=? a else "Overflow"; Ok (a - b).

(** Prepared hooks: one message each. *)
Definition tell (s : rstate) (a : addr) (old new : option Z) : list rsub :=
  map (fun h => RHook h a old new) (r_hooks s).

(** 98-148 [execute_mint]. *)
Definition r_mint (s : rstate) (b : block) (id : N) (a : addr) (w : Z)
  : result (rstate * list rsub) :=
  let old := smap_load (r_members s) a in
  do! t <- add64 (snap_get (r_total s)) w;
  do! n <- add64 (default 0 old) w;
  check! match r_tokens s !! id with Some _ => false | None => true end else "Claimed";
  Ok (RState (r_own s) (<[id := Role a w]> (r_tokens s))
        (smap_save (r_members s) a (height b) n) (snap_save (r_total s) (height b) t) (r_hooks s),
      tell s a old (Some n)).
(** 150-229 [execute_burn]. *)
Definition r_burn (s : rstate) (b : block) (id : N) : result (rstate * list rsub) :=
  some! x <- r_tokens s !! id else "not found";
  some! old <- smap_load (r_members s) (ro_owner x) else "not found";
  check! ro_weight x <=? old else "CannotBurn";
  do! t <- sub64 (snap_get (r_total s)) (ro_weight x);
  let n := old - ro_weight x in
  let ms :=
    if n =? 0 then smap_drop (r_members s) (ro_owner x) (height b)
    else smap_save (r_members s) (ro_owner x) (height b) n in
  Ok (RState (r_own s) (delete id (r_tokens s)) ms (snap_save (r_total s) (height b) t) (r_hooks s),
      tell s (ro_owner x) (Some old) (if n =? 0 then None else Some n)).
(** 354-435 [execute_update_token_weight]. *)
Definition r_weight (s : rstate) (b : block) (id : N) (w : Z) : result (rstate * list rsub) :=
  some! x <- r_tokens s !! id else "not found";
  let old := smap_load (r_members s) (ro_owner x) in
  do! ' (t, n, diff) <-
    match Z.compare w (ro_weight x) with
    | Gt =>
        let d := w - ro_weight x in
        do! t <- add64 (snap_get (r_total s)) d;
        do! n <- add64 (default 0 old) d;
        Ok (t, n, (old, Some n))
    | Lt =>
        let d := ro_weight x - w in
        check! d <=? default 0 old else "NegativeValue";
        let n := default 0 old - d in
        do! t <- sub64 (snap_get (r_total s)) d;
        Ok (t, n, (None, None))
    | Eq => Err "NoWeightChange"
    end;
  Ok (RState (r_own s) (<[id := Role (ro_owner x) w]> (r_tokens s))
        (smap_save (r_members s) (ro_owner x) (height b) n)
        (snap_save (r_total s) (height b) t) (r_hooks s),
      tell s (ro_owner x) diff.1 diff.2).

(** 52-96 [execute]. *)
Definition r_handle (s : rstate) (b : block) (sender : addr) (m : rmsg)
  : result (rstate * list rsub) :=
  check! is_owner (r_own s) sender else "NotOwner";
  match m with
  | RMint id a w => check! fits64 w else "parse"; r_mint s b id a w
  | RBurn id => r_burn s b id
  (* 283-309 *)
  | RAddHook a =>
      check! negb (bool_decide (a ∈ r_hooks s)) else "HookAlreadyRegistered";
      Ok (RState (r_own s) (r_tokens s) (r_members s) (r_total s) (r_hooks s ++ [a]), [])
  | RRemoveHook a =>
      check! bool_decide (a ∈ r_hooks s) else "HookNotRegistered";
      Ok (RState (r_own s) (r_tokens s) (r_members s) (r_total s)
            (List.filter (fun x => negb (x =? a)%N) (r_hooks s)), [])
  (* 311-352 *)
  | RNote id => some! x <- r_tokens s !! id else "not found"; Ok (s, [])
  | RWeight id w => check! fits64 w else "parse"; r_weight s b id w
  (* 231-251 *)
  | RTransfer to id =>
      some! x <- r_tokens s !! id else "not found";
      Ok (RState (r_own s) (<[id := Role to (ro_weight x)]> (r_tokens s)) (r_members s)
            (r_total s) (r_hooks s), [])
  (* 253-281 *)
  | RSend to id =>
      some! x <- r_tokens s !! id else "not found";
      Ok (RState (r_own s) (<[id := Role to (ro_weight x)]> (r_tokens s)) (r_members s)
            (r_total s) (r_hooks s), [RReceive to id])
  (* 92-95: the rest is left to cw721-base *)
  | RApprove => Ok (s, [])
  | ROwn act =>
      do! o <- update_ownership (r_own s) b sender act;
      Ok (RState o (r_tokens s) (r_members s) (r_total s) (r_hooks s), [])
  end.

(** 456-472 [query_total_weight], [query_member]. *)
Definition q_total_weight (s : rstate) (h : option Z) : Z :=
  match h with Some h => snap_get_at (r_total s) h | None => snap_get (r_total s) end.
Definition q_member (s : rstate) (a : addr) (h : option Z) : option Z :=
  match h with
  | Some h => snap_at (smap_snap (r_members s) a) h
  | None => smap_load (r_members s) a
  end.

(** ** dao-voting-cw721-roles *)
(** 103-142: power and total power. *)
Definition v_power (s : rstate) (a : addr) (h : option Z) : Z := default 0 (q_member s a h).
Definition v_total (s : rstate) (h : option Z) : Z := q_total_weight s h.
(** 24-82, 160-231: with a new token contract, the voting contract owns it, nominates the DAO
    and mints.  It has no other calls (84-92). *)
Fixpoint r_calls (s : rstate) (b : block) (sender : addr) (ms : list rmsg) : result rstate :=
  match ms with
  | [] => Ok s
  | m :: ms => do! ' (s', _) <- r_handle s b sender m; r_calls s' b sender ms
  end.
Definition v_setup (voting dao : addr) (b : block) (nfts : list (N * addr * Z)) : result rstate :=
  check! match nfts with [] => false | _ => true end else "NoInitialNfts";
  r_calls (r_instantiate voting b) b voting
    (ROwn (OTransfer dao None) :: map (fun x => RMint x.1.1 x.1.2 x.2) nfts).
