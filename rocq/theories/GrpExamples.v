(** Groups of accounts 5, 6 and 7; the DAO is account 30. *)
From Verif Require Import Base BaseProofs Exec ExecProofs Plain PlainProofs StoreModel RolesModel
  GrpModel GrpSpec.

Definition gb (h : Z) : block := Block h (h * 10).
Definition trio : list (addr * Z) := [(5%N, 3); (6%N, 4); (7%N, 0)].
Definition g_of (admin : option addr) (l : list (addr * Z)) : gstate :=
  match g_create admin l (gb 0) with Ok s => s | Err _ => GState None ∅ snap_empty [] end.
Definition g0 : gstate := g_of (Some 30%N) trio.
Definition gc (h : Z) (a : addr) (m : gmsg) : block * call gmsg := (gb h, Call a m []).
Definition grun_from (s : gstate) (h : list (block * call gmsg)) : gstate * glog :=
  run_hist g_handle no_fail no_reply s h.
Definition grun (h : list (block * call gmsg)) : gstate * glog := grun_from g0 h.
Lemma gleads_run s h b : hist_ok (gb 0) h -> block_le (hist_end (gb 0) h) b ->
  leads g_handle (gb 0) s b (fst (grun_from s h)) (snd (grun_from s h)).
Proof.
  intros Hh Hb. exists h. split; [done|]. split; [|done]. unfold grun_from.
  by destruct (run_hist _ _ _ _ h).
Qed.
Lemma gborn_run h b : hist_ok (gb 0) h -> block_le (hist_end (gb 0) h) b ->
  gborn (Some 30%N) trio b (fst (grun h)) (snd (grun h)).
Proof.
  intros Hh Hb. exists (gb 0), g0. split; [vm_compute; reflexivity|]. by apply gleads_run.
Qed.
Lemma greached_run h b : hist_ok (gb 0) h -> block_le (hist_end (gb 0) h) b ->
  greached b (fst (grun h)) (snd (grun h)).
Proof. intros Hh Hb. exists (Some 30%N), trio. by apply gborn_run. Qed.
Ltac gside := vm_compute; repeat split; discriminate || reflexivity.
Ltac greach := apply greached_run; gside.

(** Strangers are refused; the DAO raises 5, adds 8 and takes 6 out, changes 5 twice in one
    block, takes 8 out in the call that adds it, and names another admin. *)
Definition changing : list (block * call gmsg) :=
  [gc 1 5 (GMembers [] [(5%N, 100)]); gc 1 30 (GAddHook 50);
   gc 2 30 (GMembers [6%N; 9%N] [(5%N, 10); (8%N, 2)]); gc 3 30 (GMembers [] [(5%N, 1)]);
   gc 3 30 (GMembers [] [(5%N, 6)]); gc 3 30 (GMembers [] [(6%N, 1); (6%N, 2)]);
   gc 4 30 (GMembers [8%N] [(8%N, 3); (7%N, 1)]); gc 4 30 GVoting].
Definition handed : list (block * call gmsg) :=
  changing ++ [gc 5 30 (GAdmin (Some 31%N)); gc 5 30 (GMembers [5%N] []); gc 6 31 (GMembers [5%N] []);
               gc 7 31 (GAdmin None); gc 8 31 (GMembers [] [(5%N, 9)])].

(** ** Set-ups that leave a DAO without power *)
Definition idle : gstate := g_of (Some 40%N) [(5%N, 0)].
Lemma idle_reached : greached (gb 0) idle [].
Proof.
  exists (Some 40%N), [(5%N, 0)], (gb 0), idle. split; [vm_compute; reflexivity|].
  apply leads_refl. split; reflexivity.
Qed.
Lemma old_zero_refuted : exists b s l,
  greached b s l /\ gv_old s = Ok tt /\ gv_total s None = 0 /\ forall a, gv_power s a None = 0.
Proof.
  exists (gb 0), idle, []. split; [apply idle_reached|].
  do 2 (split; [vm_compute; reflexivity|]). intros a.
  unfold gv_power, q_weight, smap_load, smap_snap.
  destruct (decide (a = 5%N)) as [->|N]; [vm_compute; reflexivity|].
  replace (g_members idle !! a) with (@None snap); [done|]. symmetry. apply not_elem_of_dom.
  assert (dom (g_members idle) ⊆ ({[5%N]} : gset addr)) as S
    by (apply (bool_decide_eq_true_1 _); vm_compute; reflexivity).
  intros D. apply S in D. by apply elem_of_singleton in D.
Qed.
(** In the block of its set-up a DAO with a new group has no power for proposals. *)
Lemma first_block_refuted : exists dao b members s,
  gv_new dao b members = Ok s /\ gv_total s (Some (height b)) = 0 /\ 0 < gv_total s None.
Proof.
  exists 30%N, (gb 0), trio, g0. do 2 (split; [vm_compute; reflexivity|]). vm_compute. reflexivity.
Qed.
(** The DAO of an accepted group cannot change it; someone else can take all power away. *)
Definition foreign : gstate := g_of (Some 40%N) trio.
Definition drained : list (block * call gmsg) :=
  [gc 1 30 (GMembers [] [(5%N, 9)]); gc 2 40 (GMembers [5%N; 6%N; 7%N] [])].
Lemma foreign_refuted : exists dao b s b' s' l',
  greached b s [] /\ gv_old s = Ok tt /\ gv_total s None = 7 /\
  (forall m, is_ok (g_handle s b dao m) = false) /\
  leads g_handle b s b' s' l' /\ gv_total s' None = 0.
Proof.
  exists 30%N, (gb 0), foreign, (gb 2), (fst (grun_from foreign drained)), (snd (grun_from foreign drained)).
  split. { exists (Some 40%N), trio, (gb 0), foreign. split; [vm_compute; reflexivity|].
           apply leads_refl. split; reflexivity. }
  do 2 (split; [vm_compute; reflexivity|]). split.
  { assert (is_admin foreign 30 = false) as E by (vm_compute; reflexivity).
    intros []; cbn [g_handle]; rewrite ?E; try done. by destruct (weights_fit _). }
  split; [apply gleads_run; gside|]. vm_compute. reflexivity.
Qed.
