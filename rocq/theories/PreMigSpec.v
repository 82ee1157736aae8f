(** Specification vocabulary for the migration of the pre-propose modules. *)
From Verif Require Import Base HooksModel PreModel PreMigModel.

(** The versions that share the old configuration: 2.4.1 and later releases of
    the 2.4 line. *)
Definition upgradable (v : option ver) : Prop :=
  exists n, v = Some (Ver 2 4 n false) /\ (1 <= n)%N.

(** Who could propose under the old configuration: everybody, or members only. *)
Definition could_submit (c : config241) (power : Z) : Prop :=
  oc_open c = true \/ power <> 0.

(** A policy that can be set: nobody on both lists, somebody allowed. *)
Definition sound_policy (p : submission) : Prop :=
  match p with
  | SAnyone _ => True
  | SSpecific members allow deny =>
      (forall a, a ∈ allow -> a ∉ deny) /\ (members = true \/ exists a, a ∈ allow)
  end.

(** The same deposit in both formats. *)
Definition same_denom (o : denom241) (d : denom) : Prop :=
  match o, d with
  | Native241 x, Native y => x = y
  | Cw20241 x, Cw20 y => x = y
  | _, _ => False
  end.
Definition same_refund (o : refund241) (r : refund) : Prop :=
  (o = Always241 <-> r = Always) /\ (o = Never241 <-> r = Never) /\
  (o = OnlyPassed241 <-> r = OnlyPassed).
Definition same_deposit (o : option deposit241) (d : option deposit) : Prop :=
  match o, d with
  | None, None => True
  | Some o, Some d =>
      same_denom (od_denom o) (d_denom d) /\ od_amount o = d_amount d /\
      same_refund (od_refund o) (d_refund d)
  | _, _ => False
  end.
