(** Specification vocabulary for cw-fund-distributor together with a voting module. *)
From Verif Require Import Base Exec Plain StoreModel FundModel FundSpec FundOnModel JointSpec ElectSpec.
From Verif Require TokModel TokSpec StakeModel StakeSpec NftModel NftSpec GrpModel GrpSpec
  RolesModel RolesSpec OnftModel OnftSpec.

(** [a] has claimed token [t] within the log. *)
Definition has_claimed (a : addr) (t : gtok) (l : glog) : Prop :=
  exists s b m s' subs, ECall s b a m s' subs ∈ l /\ is_claim m = true /\ asks m t.

(** A distributor in state [s] with log [l] pays by powers [pow] out of a total of [T]: *)
Definition pays (pow : addr -> Z) (T : Z) (s : gstate) (l : glog) : Prop :=
  (* never more than was brought in; the rest is there *)
  (forall t, paid t l <= funded t l /\ g_has s t = funded t l + given t l - paid t l) /\
  (* nobody more than their share, *)
  (forall a t, paid_to a t (this_round l) * T <= pool t l * pow a) /\
  (* and who has claimed, all of it but for rounding; *)
  (forall a t, has_claimed a t (this_round l) ->
     pool t l * pow a * 10 ^ 18 <= (paid_to a t (this_round l) + 1) * T * 10 ^ 18 + pool t l * T) /\
  (* once everybody has claimed, less than a token and a 10^-18th of the pool for each is left *)
  (forall us t, NoDup us -> T <= lsum pow us -> (forall a, a ∈ us -> has_claimed a t (this_round l)) ->
     (pool t l - paid t (this_round l)) * 10 ^ 18 <= Z.of_nat (length us) * (10 ^ 18 + pool t l)).

Notation fund_on_tok := (fo_reached TokModel.t_handle tpow ttot TokSpec.treached).
Notation fund_on_tok_from := (fo_from TokModel.t_handle tpow ttot).
Notation fund_on_cw20 := (fo_reached StakeModel.k_handle kpow ktot StakeSpec.kreached).
Notation fund_on_cw20_from := (fo_from StakeModel.k_handle kpow ktot).
Notation fund_on_nft := (fo_reached NftModel.n_handle npow ntot NftSpec.nreached).
Notation fund_on_nft_from := (fo_from NftModel.n_handle npow ntot).
Notation fund_on_grp := (fo_reached GrpModel.g_handle gpow gtot GrpSpec.greached).
Notation fund_on_grp_from := (fo_from GrpModel.g_handle gpow gtot).
Notation fund_on_role := (fo_reached RolesModel.r_handle rpow rtot RolesSpec.rreached).
Notation fund_on_role_from := (fo_from RolesModel.r_handle rpow rtot).
Notation fund_on_onft := (fo_reached OnftModel.f_handle opow otot OnftSpec.freached).
Notation fund_on_onft_from := (fo_from OnftModel.f_handle opow otot).
