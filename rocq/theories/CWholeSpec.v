(** What is claimed of a DAO with its voting module. *)
From stdpp Require Import gmap strings.
From Verif Require Import Base Exec Plain VotingModel VotingSpec CondModel CondSpec
  CoreModel CoreSpec CDaoModel CDaoSpec JointModel CWholeModel.

(** Those who have cast a ranking for proposal [id] such that [P]. *)
Definition voters_who (s : state) (id : Z) (P : list Z -> bool) : list addr :=
  map (fun x => x.1.2)
    (filter (fun x => x.1.1 = id /\ P x.2 = true) (map_to_list (s_votes s))).
(** Everybody outside [C] who has cast a ranking puts "none of the above", the last option,
    first. *)
Definition others_decline (C : list addr) (s : state) : Prop :=
  forall id a l p, s_votes s !! (id, a) = Some l -> s_props s !! id = Some p ->
    a ∈ C \/ head l = Some (Z.of_nat (length (p_choices p)) - 1).

Section spec.
  Context {T MV XV : Type}.
  Variable handle_v : T -> block -> addr -> MV -> result (T * list XV).
  Variable power : T -> addr -> Z -> Z.
  Variable total : T -> Z -> Z.
  Variable vreached : block -> T -> log T MV XV -> Prop.
  Variable for_v : N -> option MV.
  Variable K : codes.

  Record wentry := WEntry { we_pre : @whole T; we_block : block; we_ev : @wevent MV; we_post : @whole T }.
  (** Steps one after the other; blocks change only between transactions; the DAO does not
      exchange its voting module. *)
  Inductive wleads (b0 : block) (s0 : whole) : block -> whole -> list wentry -> Prop :=
  | wl_nil : wleads b0 s0 b0 s0 []
  | wl_step b s l b' e s' :
      wleads b0 s0 b s l -> block_le b b' -> (d_todo (w_dao s) = [] \/ b' = b) ->
      k_voting (d_core (w_dao s')) = k_voting (d_core (w_dao s)) ->
      w_event handle_v power total for_v K s b' e = Ok s' ->
      wleads b0 s0 b' s' (l ++ [WEntry s b' e s']).
  (** A DAO with a new proposal module and a voting module, whatever has happened to them. *)
  Definition wstart (b : block) (s : whole) : Prop :=
    dstart b (w_dao s) /\ exists l, vreached b (w_v s) l.
  Definition wreached (b : block) (s : whole) (l : list wentry) : Prop :=
    exists b0 s0, wstart b0 s0 /\ wleads b0 s0 b s l.

  (** The steps of the DAO and the proposal module. *)
  Definition dao_entry (e : wentry) : option dentry :=
    match we_ev e with
    | WDao v => Some (DEntry (w_dao (we_pre e)) (we_block e) v (w_dao (we_post e)))
    | WVote _ _ => None
    end.
  Definition dao_log (l : list wentry) : list dentry := omap dao_entry l.
  (** In the step the DAO is given the messages of proposal [id]. *)
  Definition wcarries (e : wentry) (id : Z) (msgs : list Z) : Prop :=
    exists d, dao_entry e = Some d /\ carries d id msgs.

  (** What those who prefer option [x] to [y] held at height [h], and all who voted. *)
  Definition behind (t : T) (s : state) (id : Z) (h x y : Z) : Z :=
    lsum (fun a => power t a h) (voters_who s id (fun l => prefers l x y)).
  Definition behind_all (t : T) (s : state) (id : Z) (h : Z) : Z :=
    lsum (fun a => power t a h) (voters_who s id (fun _ => true)).
  (** For every other option more holdings prefer [w] to it than it to [w]; the holdings behind
      all rankings meet the proposal's quorum. *)
  Definition backed (t : T) (s : state) (id : Z) (p : proposal) (h w : Z) : Prop :=
    NoDup (voters_who s id (fun _ => true)) /\
    0 <= w < Z.of_nat (length (p_choices p)) /\
    (forall y, 0 <= y < Z.of_nat (length (p_choices p)) -> y <> w ->
       behind t s id h y w < behind t s id h w y) /\
    share_near (behind_all t s id h) (total t h) (p_quorum p).
  (** [C] would not meet the quorum in any block begun, not even all voting, and with others who
      hold less than it declining. *)
  Definition short (t : T) (b : block) (q : percentage) (C : list addr) : Prop :=
    forall h n, h <= height b -> 0 <= n < lsum (fun a => power t a h) C ->
      ~ share_near (lsum (fun a => power t a h) C + n) (total t h) q.
  (** [C] alone would not meet the quorum. *)
  Definition short_alone (t : T) (b : block) (q : percentage) (C : list addr) : Prop :=
    forall h, h <= height b -> ~ share_near (lsum (fun a => power t a h) C) (total t h) q.
  (** The voting module is called: by somebody outside, or by the DAO with a message it sends
      that is not for the proposal module. *)
  Definition called_by (e : wentry) (a : addr) (m : MV) : Prop :=
    (we_ev e = WVote a m /\ a <> k_self (d_core (w_dao (we_pre e))) /\ a <> d_at (w_dao (we_pre e))) \/
    (exists d n, dao_entry e = Some d /\ act d = Some (inr n) /\ a = k_self (d_core (w_dao (we_pre e))) /\
       call_of K n = None /\ for_v n = Some m).
  Definition v_lawful (e : wentry) : Prop :=
    w_v (we_post e) = w_v (we_pre e) \/
    exists a m subs, called_by e a m /\
      handle_v (w_v (we_pre e)) (we_block e) a m = Ok (w_v (we_post e), subs).
End spec.
Arguments WEntry {T MV}.
Arguments we_pre {T MV}.
Arguments we_block {T MV}.
Arguments we_ev {T MV}.
Arguments we_post {T MV}.
Arguments dao_entry {T MV}.
Arguments dao_log {T MV}.
Arguments wcarries {T MV}.
