(** A history of a DAO, for the examples, and the refutations. *)
From stdpp Require Import gmap strings.
From Verif Require Import Base BaseProofs CoreModel CoreSpec CoreProofs.

Definition goes (b b' : block) (t : list ksub) : bool :=
  (height b <=? height b') && (time b <=? time b') &&
  match t with [] => true | _ => (height b =? height b') && (time b =? time b') end.
Fixpoint krun (b : block) (s : kstate) (evs : list (block * kevent))
  : option (block * kstate * list kentry) :=
  match evs with
  | [] => Some (b, s, [])
  | (b', v) :: evs =>
      if goes b b' (k_todo s) then
        match k_event s b' v with
        | Ok s' =>
            match krun b' s' evs with
            | Some (b'', s'', l) => Some (b'', s'', KEntry s b' v s' :: l)
            | None => None
            end
        | Err _ => None
        end
      else None
  end.
Lemma krun_leads evs : forall b0 s0 b s l0 b' s' l, kleads b0 s0 b s l0 ->
  krun b s evs = Some (b', s', l) -> kleads b0 s0 b' s' (l0 ++ l).
Proof.
  induction evs as [|[b1 v] evs IH]; intros b0 s0 b s l0 b' s' l H E; cbn in E.
  { injection E as <- <- <-. by rewrite app_nil_r. }
  destruct (goes b b1 (k_todo s)) eqn:G; [|done].
  destruct (k_event s b1 v) as [s1|] eqn:Ev; [|done].
  destruct (krun b1 s1 evs) as [[[b2 s2] l2]|] eqn:Er; [|done]. injection E as <- <- <-.
  unfold goes in G. assert (kleads b0 s0 b1 s1 (l0 ++ [KEntry s b1 v s1])) as H1.
  { apply kl_step with b; try done.
    - split; lia.
    - destruct (k_todo s); [by left|]. right. destruct b, b1. cbn in G. f_equal; lia. }
  specialize (IH _ _ _ _ _ _ _ _ H1 Er). by rewrite <-app_assoc in IH.
Qed.
Definition the_init : result kstate :=
  k_instantiate 1%N (KConf true false 0%N) (Some 9%N) 100%N [200%N; 201%N] [("a", "b")]%string.
Definition the_start : kstate := match the_init with Ok s => s | Err _ => KState (Core 0 (KConf false false 0) 0 None None None ∅ 0 0 ∅ ∅ ∅ ∅) [] end.
Definition at_ (h : Z) (evs : list kevent) : list (block * kevent) :=
  map (pair (Block h (h * 1000))) evs.
(** Creation, with a module asking for messages; a module exchanges the other. *)
Definition created : list (block * kevent) :=
  at_ 5 [VReply 50 []; VReply 51 [inl (KSetItem "x" "y"); inr 7%N]; VSelf; VDone; VReply 52 []].
Definition exchanged : list (block * kevent) :=
  at_ 6 [VCall 51 (KHook [inl (KModules [300%N] [51%N; 52%N]); inr 8%N]); VSelf; VReply 53 []; VDone].
(** A new admin, who pauses. *)
Definition handed : list (block * kevent) :=
  at_ 7 [VCall 9 (KNominate (Some 4%N))] ++ at_ 8 [VCall 77 KReceive20; VCall 4 KAccept] ++
  at_ 9 [VCall 4 (KAdmin [inl (KPause (DHeight 10))]); VSelf].
Definition run_of (evs : list (block * kevent)) : block * kstate * list kentry :=
  match krun (Block 5 5000) the_start evs with
  | Some x => x
  | None => (Block 0 0, the_start, [])
  end.
Lemma reached_run evs : is_Some (krun (Block 5 5000) the_start evs) ->
  kreached (run_of evs).1.1 (run_of evs).1.2 (run_of evs).2.
Proof.
  intros [[[b s] l] E]. unfold run_of. rewrite E. cbn.
  exists (Block 5 5000), 1%N, (KConf true false 0%N), (Some 9%N), 100%N, [200%N; 201%N],
    [("a", "b")]%string, the_start.
  split; [done|]. apply (krun_leads _ _ _ _ _ [] _ _ _ (kl_nil _ _) E).
Qed.
Ltac kreach := apply reached_run; eexists; vm_compute; reflexivity.

(** A DAO nobody has called has sent a message and changed its items. *)
Lemma callbacks_refuted : exists b s l e, kreached b s l /\ e ∈ l /\ ~ lawful_strict e /\
  (forall x, x ∈ l -> forall a m, ke_ev x <> VCall a m) /\
  (exists x, x ∈ l /\ ke_ev x = VDone) /\ k_items (k_core s) !! "x"%string = Some "y"%string.
Proof.
  exists (run_of created).1.1, (run_of created).1.2, (run_of created).2.
  destruct ((run_of created).2 !! 1%nat) as [e|] eqn:E; [|by vm_compute in E].
  exists e. split; [kreach|]. split; [by apply (elem_of_list_lookup_2 _ 1)|].
  split.
  { vm_compute in E. injection E as <-. unfold lawful_strict. cbn. discriminate. }
  split.
  { assert (Forall (fun x => match ke_ev x with VCall _ _ => False | _ => True end)
      (run_of created).2) as F.
    { clear E. assert (forallb (fun x => match ke_ev x with VCall _ _ => false | _ => true end)
        (run_of created).2 = true) as F by (vm_compute; reflexivity).
      apply Forall_forall. intros x Hx. apply elem_of_list_In in Hx.
      rewrite forallb_forall in F. specialize (F x Hx). by destruct (ke_ev x). }
    intros x Hx a m Hv. rewrite Forall_forall in F. specialize (F x Hx). by rewrite Hv in F. }
  split; [|by vm_compute].
  destruct ((run_of created).2 !! 3%nat) as [x|] eqn:E3; [|by vm_compute in E3].
  exists x. split; [by apply (elem_of_list_lookup_2 _ 3)|].
  clear E. vm_compute in E3. by injection E3 as <-.
Qed.
(** Anybody adds themselves to the list of tokens. *)
Lemma lists_refuted : exists b s l s', kreached b s l /\
  k_event s b (VCall 77%N KReceive20) = Ok s' /\ k_mods (k_core s) !! 77%N = None /\
  k_admin (k_core s) <> 77%N /\ k_self (k_core s) <> 77%N /\
  77%N ∉ k_cw20s (k_core s) /\ 77%N ∈ k_cw20s (k_core s').
Proof.
  exists (run_of created).1.1, (run_of created).1.2, (run_of created).2.
  destruct (k_event (run_of created).1.2 (run_of created).1.1 (VCall 77%N KReceive20)) as [s'|] eqn:E;
    [|by vm_compute in E].
  exists s'. split; [kreach|]. split; [done|]. split; [by vm_compute|]. split; [by vm_compute|].
  split; [by vm_compute|]. split.
  - apply (bool_decide_eq_false_1 _). vm_compute. reflexivity.
  - vm_compute in E. injection E as <-. apply (bool_decide_eq_true_1 _). vm_compute. reflexivity.
Qed.
