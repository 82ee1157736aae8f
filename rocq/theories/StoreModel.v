(** External storage helpers used by the staking contracts: snapshot items and
    maps (cw_storage_plus), unbonding claims (cw_controllers), ownership
    (cw_ownable).  Modelled from their documentation. *)
From Verif Require Import Base.

(** ** Snapshots, [Strategy::EveryBlock]

    [SnapshotItem::save(value, height)] first writes the old value to the
    changelog under [height], unless the changelog already has an entry for that
    height.  [may_load_at_height(h)] returns the old value of the first changelog
    entry with height at least [h], or the current value if there is none.  The
    changelog is kept newest first here; entries are written in order of height. *)
Record snap := Snap { sn_cur : option Z; sn_log : list (Z * option Z) }.
Definition snap_empty : snap := Snap None [].
Definition snap_save (s : snap) (h : Z) (v : Z) : snap :=
  Snap (Some v)
    (if existsb (fun e => e.1 =? h) (sn_log s) then sn_log s else (h, sn_cur s) :: sn_log s).
Fixpoint snap_find (l : list (Z * option Z)) (h : Z) (acc : option Z) : option Z :=
  match l with
  | [] => acc
  | (h', old) :: t => snap_find t h (if h <=? h' then old else acc)
  end.
Definition snap_at (s : snap) (h : Z) : option Z := snap_find (sn_log s) h (sn_cur s).

(** [SnapshotMap]: the same per key. *)
Notation smap := (gmap addr snap).
Definition smap_snap (m : smap) (a : addr) : snap := default snap_empty (m !! a).
Definition smap_get (m : smap) (a : addr) : Z := default 0 (sn_cur (smap_snap m a)).
Definition smap_save (m : smap) (a : addr) (h v : Z) : smap :=
  <[a := snap_save (smap_snap m a) h v]> m.
Definition smap_at (m : smap) (a : addr) (h : Z) : Z := default 0 (snap_at (smap_snap m a) h).
Definition snap_get (s : snap) : Z := default 0 (sn_cur s).
Definition snap_get_at (s : snap) (h : Z) : Z := default 0 (snap_at s h).

(** ** Claims (cw_controllers::Claims) *)
Record claim := Claim { cl_amount : Z; cl_release : expiration }.
Notation claims := (gmap addr (list claim)).
Definition claims_of (m : claims) (a : addr) : list claim := default [] (m !! a).
(** [create_claim]: append. *)
Definition create_claim (m : claims) (a : addr) (n : Z) (e : expiration) : claims :=
  <[a := claims_of m a ++ [Claim n e]]> m.
(** [claim_tokens(addr, block, cap = None)]: everything that has matured; the
    [Uint128] sum panics on overflow. *)
Definition mature (b : block) (c : claim) : bool := is_expired (cl_release c) b.
Definition claim_tokens (m : claims) (a : addr) (b : block) : result (Z * claims) :=
  let n := lsum cl_amount (List.filter (mature b) (claims_of m a)) in
  check! n <=? U128_MAX else "panic";
  Ok (n, <[a := List.filter (fun c => negb (mature b c)) (claims_of m a)]> m).

(** ** Ownership (cw_ownable) *)
Record own := Own {
  o_owner : option addr; o_pending : option addr; o_expiry : option expiration }.
Inductive own_action :=
| OTransfer (a : addr) (e : option expiration)
| OAccept
| ORenounce.
Definition initialize_owner (a : option addr) : own := Own a None None.
Definition is_owner (o : own) (a : addr) : bool :=
  match o_owner o with Some x => (x =? a)%N | None => false end.
Definition update_ownership (o : own) (b : block) (sender : addr) (act : own_action)
  : result own :=
  match act with
  | OTransfer a e =>
      check! is_owner o sender else "NotOwner";
      check! negb (match e with Some e => is_expired e b | None => false end)
        else "TransferExpired";
      Ok (Own (o_owner o) (Some a) e)
  | OAccept =>
      some! p <- o_pending o else "TransferNotFound";
      check! (p =? sender)%N else "NotPendingOwner";
      check! negb (match o_expiry o with Some e => is_expired e b | None => false end)
        else "TransferExpired";
      Ok (Own (Some p) None None)
  | ORenounce =>
      check! is_owner o sender else "NotOwner";
      Ok (Own None None None)
  end.

(** packages/dao-voting/src/duration.rs:10-28 [validate_duration]. *)
Definition validate_duration (d : option duration) : result unit :=
  match d with
  | Some (DHeight n) => check! negb (n =? 0) else "InvalidUnstakingDuration"; Ok tt
  | Some (DTime n) => check! negb (n =? 0) else "InvalidUnstakingDuration"; Ok tt
  | None => Ok tt
  end.
(** Deserialised integers are in range. *)
Definition fits128 (n : Z) : bool := (0 <=? n) && (n <=? U128_MAX).
Definition fits_dur (d : option duration) : bool :=
  match d with
  | Some (DHeight n) | Some (DTime n) => (0 <=? n) && (n <=? U64_MAX)
  | None => true
  end.

(** cw-utils [must_pay]: exactly one coin, of that denomination, not zero. *)
Definition must_pay (funds : list (N * Z)) (d : N) : result Z :=
  match funds with
  | [] => Err "NoFunds"
  | [(d', n)] =>
      if n =? 0 then Err "NoFunds"
      else if (d' =? d)%N then Ok n else Err "MissingDenom"
  | _ => Err "MultipleDenoms"
  end.
