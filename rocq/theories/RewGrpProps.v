(** dao-rewards-distributor with a cw4 group: theorems.  Each is followed by what it rests on
    and by a concrete case meeting its hypotheses. *)
From Verif Require Import Base BaseProofs Exec Plain HooksModel StoreModel ExtModel ExtProofs RewModel RewSpec
  RolesModel GrpModel RewGrpModel RewGrpSpec RewGrpProofs RewGrpClaims RewGrpExamples.

(** * C136 *)
Theorem C136_is_a_history gr md self b s l :
  gjreached gr md self b s l ->
  (exists l', ereached b (gj_e s) l' /\ only_calls l' = flat_map (grp_part gr md self) l) /\
  exists v, e_vps (gj_e s) !! md = Some v /\
    (forall a h, smap_at (vp_pow v) a h = gv_power (gj_g s) a (Some h)) /\
    (forall h, snap_get_at (vp_tot v) h = gv_total (gj_g s) (Some h)) /\
    forall a, smap_get (vp_pow v) a = gv_power (gj_g s) a None.
Proof. exact (c136_history gr md self b s l). Qed.
Print Assumptions C136_is_a_history.
Theorem C136_accepts gr md self b s l a m :
  gjreached gr md self b s l ->
  (forall g' subs, g_handle (gj_g s) b a m = Ok (g', subs) ->
     exists s', gj_handle gr md self s b a (GGrp m) = Ok (s', []) /\ gj_g s' = g' /\ gj_out s' = subs ++ gj_out s) /\
  (forall x, g_handle (gj_g s) b a m = Err x -> gj_handle gr md self s b a (GGrp m) = Err x).
Proof. exact (c136_accepts gr md self b s l a m). Qed.
Print Assumptions C136_accepts.
Theorem C136_made admin members b g :
  g_create (Some admin) members b = Ok g ->
  g_handle (g_bare admin b) b admin (GMembers [] members) = Ok (g, []).
Proof. exact (c136_made admin members b g). Qed.
Print Assumptions C136_made.
(** Missing: histories in which the hook is not in place when members change, in which rewards
    are handed out at once in a block in which members changed before, or in which the contracts
    of a distribution are exchanged; for updates also distributions funded with more than 10^38
    units and further receivers on the group's list. *)
Theorem C136_within_funding_partial gr md self id b s l us :
  gjreached gr md self b s l -> gorderly gr md self id l = true -> e_dists (gj_e s) !! id <> None -> NoDup us ->
  (forall u, 0 <= claimable (gj_e s) b id u) /\
  gclaimed id l + gwithdrawn id l + lsum (claimable (gj_e s) b id) us + remaining (gj_e s) b id <= gfunded id l.
Proof. exact (c136_covered gr md self id b s l us). Qed.
Print Assumptions C136_within_funding_partial.
Theorem C136_claims_succeed_partial gr md self b s l id d a n :
  gjreached gr md self b s l -> e_dists (gj_e s) !! id = Some d -> a <> gr ->
  (forall i d', e_dists (gj_e s) !! i = Some d' -> di_denom d' = di_denom d -> gorderly gr md self i l = true) ->
  pending_rewards (gj_e s) b id a = Ok n -> n <> 0 ->
  exists s', gj_handle gr md self s b a (GRew (EClaim id)) = Ok (s', [EPay (di_denom d) a n]) /\ gj_g s' = gj_g s.
Proof. exact (c136_claim gr md self b s l id d a n). Qed.
Print Assumptions C136_claims_succeed_partial.
Theorem C136_updates_go_through_partial gr md self b s l a remove add g' subs ids :
  gjreached gr md self b s l -> gj_out s = [] ->
  g_hooks (gj_g s) = [self] -> e_hooks (gj_e s) !! gr = Some ids ->
  (forall i, i ∈ ids -> gorderly gr md self i l = true /\ gfunded i l <= 10 ^ 38) ->
  g_handle (gj_g s) b a (GMembers remove add) = Ok (g', subs) ->
  exists s1 s2, gj_handle gr md self s b a (GGrp (GMembers remove add)) = Ok (s1, []) /\
    gj_handle gr md self s1 b a GDeliver = Ok (s2, []) /\ gj_g s2 = g' /\ gj_out s2 = [].
Proof. exact (c136_goes_through gr md self b s l a remove add g' subs ids). Qed.
Print Assumptions C136_updates_go_through_partial.
Theorem C136_wrong_caller_refuted :
  exists gr md self b s l id d, gjreached gr md self b s l /\ e_dists (gj_e s) !! id = Some d /\
    di_vp d = md /\ di_hook d = md /\ gj_out s = [] /\ g_hooks (gj_g s) = [self] /\
    exists a s1, gj_handle gr md self s b a (GGrp (GMembers [] [(4%N, 1)])) = Ok (s1, []) /\
      forall c, gj_handle gr md self s1 b c GDeliver = Err "InvalidHookSender".
Proof. exact wrong_stuck. Qed.
Print Assumptions C136_wrong_caller_refuted.
Theorem C136_late_hook_refuted :
  exists gr md self b s l id a d, gjreached gr md self b s l /\ e_dists (gj_e s) !! id = Some d /\
    di_vp d = md /\ di_hook d = gr /\ g_hooks (gj_g s) = [self] /\ e_hooks (gj_e s) !! gr = Some [id] /\
    forallb (gunhurried id) l = true /\ gfunded id l = 1000 /\ claimable (gj_e s) b id a = 19392.
Proof. exact late_promises. Qed.
Print Assumptions C136_late_hook_refuted.
(** One update raises a weight, lets a member in and another go; the first claims.  The one who
    went can still claim what was earned until then. *)
Example C136_case :
  gjreached gr md self (jb 9) us ul /\ gorderly gr md self 1 ul = true /\ e_dists (gj_e us) !! 1 <> None /\
  gj_out us = [] /\ g_hooks (gj_g us) = [self] /\ e_hooks (gj_e us) !! gr = Some [1] /\
  gfunded 1 ul = 1000 /\ gclaimed 1 ul = 200 /\ map (claimable (gj_e us) (jb 9) 1) [alice; bob; carol] = [50; 300; 150] /\
  pending_rewards (gj_e us) (jb 9) 1 bob = Ok 300 /\
  is_ok (g_create (Some 1%N) members (jb 0)) = true /\
  (exists g' subs, g_handle (gj_g us) (jb 9) 1%N (GMembers [alice] [(bob, 7)]) = Ok (g', subs)) /\
  exists x, g_handle (gj_g us) (jb 9) bob (GMembers [alice] [(bob, 7)]) = Err x.
Proof.
  split; [gjreach|]. split; [vm_compute; reflexivity|]. split; [vm_compute; discriminate|].
  do 8 (split; [vm_compute; reflexivity|]). split; [eexists _, _; vm_compute; reflexivity|].
  eexists. vm_compute. reflexivity.
Qed.
