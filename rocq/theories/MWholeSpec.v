(** What is claimed of a DAO with its voting module. *)
From stdpp Require Import gmap strings.
From Verif Require Import Base Exec Plain VotingModel VotingSpec HooksModel MultModel MultSpec
  CoreModel CoreSpec MDaoModel MDaoSpec JointModel MWholeModel.

(** Those who have voted on proposal [id] for an option in [P]. *)
Definition voters_by (s : state) (id : Z) (P : ovote -> Prop) `{forall v, Decision (P v)} : list addr :=
  map (fun x => x.1.2)
    (filter (fun x => x.1.1 = id /\ P (bl_vote x.2)) (map_to_list (s_ballots s))).

(** Nobody outside [C] has voted other than "none of the above", the last option. *)
Definition others_decline (C : list addr) (s : state) : Prop :=
  forall id a bl p, s_ballots s !! (id, a) = Some bl -> s_props s !! id = Some p ->
    a ∈ C \/ none_option (length (p_choices p)) (bl_vote bl).

Section spec.
  Context {T MV XV : Type}.
  Variable handle_v : T -> block -> addr -> MV -> result (T * list XV).
  Variable power : T -> addr -> Z -> Z.
  Variable total : T -> Z -> Z.
  Variable vreached : block -> T -> log T MV XV -> Prop.
  Variable for_v : N -> option MV.
  Variable K : codes.

  Record wentry := WEntry { we_pre : @whole T; we_block : block; we_ev : @wevent MV; we_post : @whole T }.
  (** Steps one after the other; blocks change only between transactions; the proposal module
      is not told to follow another DAO; the DAO does not exchange its voting module. *)
  Inductive wleads (b0 : block) (s0 : whole) : block -> whole -> list wentry -> Prop :=
  | wl_nil : wleads b0 s0 b0 s0 []
  | wl_step b s l b' e s' :
      wleads b0 s0 b s l -> block_le b b' -> (d_todo (w_dao s) = [] \/ b' = b) ->
      (forall e', e = WDao e' ->
         forall a m, heard K (w_dao s) e' = Some (a, m) -> keeps_dao (k_self (d_core (w_dao s))) a m) ->
      k_voting (d_core (w_dao s')) = k_voting (d_core (w_dao s)) ->
      w_event handle_v power total for_v K s b' e = Ok s' ->
      wleads b0 s0 b' s' (l ++ [WEntry s b' e s']).
  (** A DAO with a new proposal module and a voting module, whatever has happened to them. *)
  Definition wstart (b : block) (s : whole) : Prop :=
    dstart b (w_dao s) /\ exists l, vreached b (w_v s) l.
  Definition wreached (b : block) (s : whole) (l : list wentry) : Prop :=
    exists b0 s0, wstart b0 s0 /\ wleads b0 s0 b s l.

  (** The steps of the DAO and the proposal module. *)
  Definition dao_entry (e : wentry) : option dentry :=
    match we_ev e with
    | WDao v => Some (DEntry (w_dao (we_pre e)) (we_block e) v (w_dao (we_post e)))
    | WVote _ _ => None
    end.
  Definition dao_log (l : list wentry) : list dentry := omap dao_entry l.
  (** In the step the DAO is given the messages of proposal [id]. *)
  Definition wcarries (e : wentry) (id : Z) (msgs : list Z) : Prop :=
    exists d, dao_entry e = Some d /\ carries d id msgs.

  (** What those who voted for option [v] held at height [h], and all who voted. *)
  Definition behind (t : T) (s : state) (id : Z) (h : Z) (v : ovote) : Z :=
    lsum (fun a => power t a h) (voters_by s id (fun v' => v' = v)).
  Definition behind_all (t : T) (s : state) (id : Z) (h : Z) : Z :=
    lsum (fun a => power t a h) (voters_by s id (fun _ => True)).
  (** More holdings are behind option [i] than behind any other; it is not "none of the above";
      the holdings behind all votes meet the proposal's quorum. *)
  Definition backed (t : T) (s : state) (id : Z) (p : proposal) (i : nat) : Prop :=
    let w := behind t s id (p_start p) in
    NoDup (voters_by s id (fun _ => True)) /\
    (forall j, (j < length (p_choices p))%nat -> j <> i -> w j < w i) /\
    (S i < length (p_choices p))%nat /\
    share_near (behind_all t s id (p_start p)) (total t (p_start p)) (p_quorum p).
  (** [C] would not meet the quorum in any block begun, not even all voting, and with others who
      hold less than it declining. *)
  Definition short (t : T) (b : block) (q : percentage) (C : list addr) : Prop :=
    forall h n, h <= height b -> 0 <= n < lsum (fun a => power t a h) C ->
      ~ share_near (lsum (fun a => power t a h) C + n) (total t h) q.
  (** [C] alone would not meet the quorum. *)
  Definition short_alone (t : T) (b : block) (q : percentage) (C : list addr) : Prop :=
    forall h, h <= height b -> ~ share_near (lsum (fun a => power t a h) C) (total t h) q.
  (** The voting module is called: by somebody outside, or by the DAO with a message it sends
      that is not for the proposal module. *)
  Definition called_by (e : wentry) (a : addr) (m : MV) : Prop :=
    (we_ev e = WVote a m /\ a <> k_self (d_core (w_dao (we_pre e))) /\ a <> d_at (w_dao (we_pre e))) \/
    (exists d n, dao_entry e = Some d /\ act d = Some (inr n) /\ a = k_self (d_core (w_dao (we_pre e))) /\
       call_of K n = None /\ for_v n = Some m).
  Definition v_lawful (e : wentry) : Prop :=
    w_v (we_post e) = w_v (we_pre e) \/
    exists a m subs, called_by e a m /\
      handle_v (w_v (we_pre e)) (we_block e) a m = Ok (w_v (we_post e), subs).
End spec.
Arguments WEntry {T MV}.
Arguments we_pre {T MV}.
Arguments we_block {T MV}.
Arguments we_ev {T MV}.
Arguments we_post {T MV}.
Arguments dao_entry {T MV}.
Arguments dao_log {T MV}.
Arguments wcarries {T MV}.
