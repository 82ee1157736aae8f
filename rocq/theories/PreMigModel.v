(** Model of the migration of the pre-propose modules:
    - packages/dao-pre-propose-base/src/execute.rs:543-615 [migrate],
    - the [migrate] entry points of contracts/pre-propose/dao-pre-propose-single
      (contract.rs:139-144), dao-pre-propose-multiple (135-140),
      dao-pre-propose-approval-single (407-412) and dao-pre-propose-approver
      (260-265), which call it and then set their own name and version,
    - of the semver crate the matching of a version against a requirement.

    The store is the state of [PreModel] with the configuration in the format of
    version 2.4.1 or in the present one.  The recorded deposits have one JSON
    format in both versions, so the map of deposits is the same map. *)
From Verif Require Import Base HooksModel PreModel.

(** ** Versions *)

(** semver [Version]; of the pre-release part only whether there is one. *)
Record ver := Ver { v_major : N; v_minor : N; v_patch : N; v_pre : bool }.
Inductive op := GreaterEq | Less.
(** semver [Comparator]; the two used here have no pre-release part. *)
Record cmp := Cmp { cp_op : op; cp_major : N; cp_minor : N; cp_patch : N }.

(** semver eval.rs [matches_exact]. *)
Definition matches_exact (c : cmp) (v : ver) : bool :=
  ((v_major v =? cp_major c) && (v_minor v =? cp_minor c) && (v_patch v =? cp_patch c) &&
  negb (v_pre v))%N.
(** semver eval.rs [matches_greater]; a pre-release is below its release. *)
Definition matches_greater (c : cmp) (v : ver) : bool :=
  (if negb (v_major v =? cp_major c) then cp_major c <? v_major v
  else if negb (v_minor v =? cp_minor c) then cp_minor c <? v_minor v
  else if negb (v_patch v =? cp_patch c) then cp_patch c <? v_patch v
  else false)%N.
(** semver eval.rs [matches_less]. *)
Definition matches_less (c : cmp) (v : ver) : bool :=
  (if negb (v_major v =? cp_major c) then v_major v <? cp_major c
  else if negb (v_minor v =? cp_minor c) then v_minor v <? cp_minor c
  else if negb (v_patch v =? cp_patch c) then v_patch v <? cp_patch c
  else v_pre v)%N.
(** semver eval.rs [matches_req].  A pre-release version matches only if some
    comparator has a pre-release part, which none has. *)
Definition matches_cmp (c : cmp) (v : ver) : bool :=
  match cp_op c with
  | GreaterEq => matches_exact c v || matches_greater c v
  | Less => matches_less c v
  end.
Definition matches_req (r : list cmp) (v : ver) : bool :=
  forallb (fun c => matches_cmp c v) r && negb (v_pre v).

(** 551 ">=2.4.1, <2.5.0". *)
Definition required : list cmp := [Cmp GreaterEq 2 4 1; Cmp Less 2 5 0].
(** Cargo.toml:21, the version of this code. *)
Definition this_version : ver := Ver 2 5 0 false.

(** ** The old configuration *)

(** [CheckedDenom], [DepositRefundPolicy] and [CheckedDepositInfo] of cw-denom
    and dao-voting 2.4.1, as converted in 584-597. *)
Inductive denom241 := Native241 (d : N) | Cw20241 (a : addr).
Inductive refund241 := Always241 | OnlyPassed241 | Never241.
Record deposit241 := Deposit241 {
  od_denom : denom241; od_amount : Z; od_refund : refund241 }.
(** [Config] of dao-pre-propose-base 2.4.1. *)
Record config241 := Config241 {
  oc_deposit : option deposit241; oc_open : bool }.

(** 585-597. *)
Definition new_denom (d : denom241) : denom :=
  match d with Cw20241 a => Cw20 a | Native241 x => Native x end.
Definition new_refund (r : refund241) : refund :=
  match r with Always241 => Always | Never241 => Never | OnlyPassed241 => OnlyPassed end.
Definition new_deposit (d : deposit241) : deposit :=
  Deposit (new_denom (od_denom d)) (od_amount d) (new_refund (od_refund d)).

(** ** The store *)

(** What is stored under the key of the configuration. *)
Inductive slot := SlotOld (c : config241) | SlotNew (d : option deposit) (p : submission).
(** The rest of the state, see [PreModel.pstate]. *)
Record prest := PRest {
  r_kind : kind; r_module : addr; r_dao : addr;
  r_deposits : gmap Z (option deposit * addr); r_hooks : list addr;
  r_approver : addr; r_pending : gmap Z appr; r_completed : gmap Z appr;
  r_created : gmap Z Z; r_current : Z }.
(** The version is [None] if what cw2 has stored is not a version. *)
Record pstore := PStore { ps_version : option ver; ps_slot : slot; ps_rest : prest }.

(** The module as the present code sees it: it needs the present format. *)
Definition module_of (x : pstore) : option pstate :=
  match ps_slot x with
  | SlotOld _ => None
  | SlotNew d p =>
      let r := ps_rest x in
      Some (PState (r_kind r) (r_module r) (r_dao r) d p (r_deposits r) (r_hooks r)
              (r_approver r) (r_pending r) (r_completed r) (r_created r) (r_current r))
  end.

(** msg.rs:153-165 [MigrateMsg]. *)
Inductive migrate_msg := FromUnderV250 (policy : option submission) | MExtension.

(** 570-580, the policy if none is given. *)
Definition default_policy (open : bool) : submission :=
  if open then SAnyone [] else SSpecific true [] [].

(** 543-615 [migrate], and the entry points that call it.  Loading the old
    configuration from a store in the present format fails: the field
    [open_proposal_submission] is missing. *)
Definition pre_migrate (x : pstore) (m : migrate_msg) : result pstore :=
  match m with
  | FromUnderV250 policy =>
      some! v <- ps_version x else "panic: unwrap";
      check! matches_req required v else "CannotMigrateVersion";
      match ps_slot x with
      | SlotNew _ _ => Err "parse"
      | SlotOld c =>
          let p := match policy with Some p => p | None => default_policy (oc_open c) end in
          do! _ <- validate_submission p;
          Ok (PStore (Some this_version)
                (SlotNew (option_map new_deposit (oc_deposit c)) p) (ps_rest x))
      end
  | MExtension => Err "not implemented"
  end.
