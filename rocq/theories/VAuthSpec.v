(** Specification vocabulary: who may do what with a vest (cw-vesting). *)
From Verif Require Import Base Exec Plain StoreModel VestModel VestSpec.

(** Who may send which message: in state [s] of a vest made with [i], sender [a]. *)
Definition owned_by (s : vstate) (a : addr) : Prop := o_owner (vs_own s) = Some a.
Definition entitled (i : vinit) (s : vstate) (a : addr) (m : vmsg) : Prop :=
  match m with
  | VDelegate _ _ | VRedelegate _ _ _ _ =>
      ve_status (vs_vest s) = Funded /\ a = vi_recipient i /\ vi_denom i = DNative (vi_bond i)
  | VUndelegate _ _ =>
      (ve_status (vs_vest s) = Funded /\ a = vi_recipient i) \/ is_canceled s
  | VSetWithdraw _ self =>
      self = false /\ (a = vi_recipient i /\ ~ is_canceled s \/ owned_by s a /\ is_canceled s)
  | VCancel => owned_by s a /\ ~ is_canceled s
  | VRegisterSlash _ _ _ _ => owned_by s a /\ ve_status (vs_vest s) <> Unfunded
  | VReceive n => ve_status (vs_vest s) = Unfunded /\ vi_denom i = DCw20 a /\ n = vi_total i
  | VWithdraw _ => is_canceled s /\ exists o, owned_by s o
  | VOwnership (OTransfer _ _) | VOwnership ORenounce => owned_by s a
  | VOwnership OAccept => o_pending (vs_own s) = Some a
  | VDistribute _ => ve_status (vs_vest s) <> Unfunded
  | VWithdrawReward _ | VDonate _ | VSlash _ _ | VSlashUnb _ _ => True
  end.
(** To whom a message goes. *)
Definition directed (i : vinit) (s : vstate) (a : addr) (m : vmsg) (x : vsub) : Prop :=
  match x with
  | VPayVestee r n => r = vi_recipient i /\ n <> 0
  | VPayOwner o n => owned_by s o /\ n <> 0
  | VRewardsTo r => (m = VCancel /\ r = a) \/ m = VSetWithdraw r false
  | VStaking => True
  end.
(** The stages of a vest. *)
Definition stage (s : vstate) : Z :=
  match ve_status (vs_vest s) with Unfunded => 0 | Funded => 1 | Canceled _ => 2 end.
(** A schedule pays [total] over [dur] seconds. *)
Definition increasing (l : list (Z * Z)) : Prop :=
  forall k p q, l !! k = Some p -> l !! S k = Some q -> p.1 < q.1 /\ p.2 <= q.2.
Definition pays (sc : schedule) (total : Z) : Prop :=
  match sc with
  | SLinear => True
  | SPiece l =>
      exists first mid fin, l = first :: mid ++ [fin] /\
        0 < first.1 /\ first.2 = 0 /\ fin.2 = total /\ increasing l
  end.
(** The vest is paid for when it is made, or will be by the token contract. *)
Definition paid_in (i : vinit) : Prop :=
  match vi_denom i with DNative d => vi_funds i = [(d, vi_total i)] | DCw20 _ => vi_funds i = [] end.
