(** Concrete histories of the distributor at 80 with the module at 70 and its group at 71. *)
From Verif Require Import Base BaseProofs Exec Plain HooksModel StoreModel ExtModel ExtProofs RewModel RewSpec
  RolesModel GrpModel RewGrpModel RewGrpSpec.
Transparent SCALE.

Definition gr : addr := 71%N.
Definition md : addr := 70%N.
Definition self : addr := 80%N.
Definition alice : addr := 2%N.
Definition bob : addr := 3%N.
Definition carol : addr := 4%N.
Definition jb (n : Z) : block := Block n (n * 6).
Definition gjrun (h : list (block * call gjmsg)) : gjstate * gjlog :=
  run_hist (gj_handle gr md self) no_fail no_reply (gj_start md (jb 0) 1%N 1%N ∅) h.
Definition jc (n : Z) (a : addr) (m : gjmsg) : block * call gjmsg := (jb n, Call a m []).
Lemma gjreached_run h b :
  hist_ok (jb 0) h -> block_le (hist_end (jb 0) h) b -> gj_goes gr (fst (gjrun h)) b = true ->
  gjreached gr md self b (fst (gjrun h)) (snd (gjrun h)).
Proof.
  intros Hh Hb Hg. exists (jb 0), 1%N, 1%N, ∅.
  split; [done|]. split; [|done].
  exists h. split; [done|]. split; [|done]. unfold gjrun. by destruct (run_hist _ _ _ _ h).
Qed.
Ltac gjside := vm_compute; repeat split; discriminate || reflexivity.
Ltac gjreach := apply gjreached_run; gjside.

Definition reward : asset := (false, 7%N).
Definition make (hook : addr) : gjmsg :=
  GRew (ECreate reward (EmLinear 100 (DHeight 1) false) md hook None None [(7%N, 1000)]).
Definition members : list (addr * Z) := [(alice, 10); (bob, 30)].
(** A group of two; a distribution of 100 a block is made and the hook added; in one update
    Alice's weight is doubled, Carol comes in and Bob goes; Alice claims. *)
Definition usual : list (block * call gjmsg) :=
  [jc 0 1%N (GGrp (GMembers [] members)); jc 2 1%N (make gr); jc 2 1%N (GGrp (GAddHook self));
   jc 6 1%N (GGrp (GMembers [bob] [(alice, 20); (carol, 20)])); jc 6 1%N GDeliver;
   jc 8 alice (GRew (EClaim 1))].
(** The module is named as hook caller instead of the group. *)
Definition wrong : list (block * call gjmsg) :=
  [jc 0 1%N (GGrp (GMembers [] members)); jc 2 1%N (make md); jc 2 1%N (GGrp (GAddHook self))].
(** The hook is added too late: Carol comes in unnoticed. *)
Definition late : list (block * call gjmsg) :=
  [jc 0 1%N (GGrp (GMembers [] members)); jc 2 1%N (make gr); jc 10 alice (GRew (EClaim 1));
   jc 10 1%N (GGrp (GMembers [] [(carol, 960)])); jc 11 1%N (GGrp (GAddHook self))].
Definition us : gjstate := fst (gjrun usual).
Definition ul : gjlog := snd (gjrun usual).
Definition ws : gjstate := fst (gjrun wrong).
Definition ls : gjstate := fst (gjrun late).
Definition ll : gjlog := snd (gjrun late).

Lemma wrong_stuck :
  exists gr md self b s l id d, gjreached gr md self b s l /\ e_dists (gj_e s) !! id = Some d /\
    di_vp d = md /\ di_hook d = md /\ gj_out s = [] /\ g_hooks (gj_g s) = [self] /\
    exists a s1, gj_handle gr md self s b a (GGrp (GMembers [] [(4%N, 1)])) = Ok (s1, []) /\
      forall c, gj_handle gr md self s1 b c GDeliver = Err "InvalidHookSender".
Proof.
  exists gr, md, self, (jb 3), ws, (snd (gjrun wrong)), 1.
  destruct (e_dists (gj_e ws) !! 1) as [d|] eqn:E; [|vm_compute in E; discriminate].
  exists d. split; [gjreach|]. split; [reflexivity|].
  assert ((di_vp d =? md)%N && (di_hook d =? md)%N = true) as H.
  { vm_compute in E. injection E as <-. vm_compute. reflexivity. }
  apply andb_prop in H as [H1 H2]. apply N.eqb_eq in H1, H2. clear E. split; [exact H1|]. split; [exact H2|].
  do 2 (split; [vm_compute; reflexivity|]). exists 1%N. eexists. split; [vm_compute; reflexivity|].
  intros c. vm_compute. reflexivity.
Qed.
Lemma late_promises :
  exists gr md self b s l id a d, gjreached gr md self b s l /\ e_dists (gj_e s) !! id = Some d /\
    di_vp d = md /\ di_hook d = gr /\ g_hooks (gj_g s) = [self] /\ e_hooks (gj_e s) !! gr = Some [id] /\
    forallb (gunhurried id) l = true /\ gfunded id l = 1000 /\ claimable (gj_e s) b id a = 19392.
Proof.
  exists gr, md, self, (jb 20), ls, ll, 1, carol.
  destruct (e_dists (gj_e ls) !! 1) as [d|] eqn:E; [|vm_compute in E; discriminate].
  exists d. split; [gjreach|]. split; [reflexivity|].
  assert ((di_vp d =? md)%N && (di_hook d =? gr)%N = true) as H.
  { vm_compute in E. injection E as <-. vm_compute. reflexivity. }
  apply andb_prop in H as [H1 H2]. apply N.eqb_eq in H1, H2. clear E. split; [exact H1|]. split; [exact H2|].
  do 3 (split; [vm_compute; reflexivity|]). split; vm_compute; reflexivity.
Qed.
