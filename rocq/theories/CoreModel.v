(** Model of contracts/dao-dao-core/src/contract.rs and state.rs.

    A call to the DAO may dispatch messages, and may itself arrive while earlier messages
    of the DAO are being executed.  So the state of the chain is the DAO's storage and the
    list of what it has dispatched and is not finished, first to be executed first
    ([k_todo]); the messages of a call go to the front, as the chain executes them depth
    first.  A transaction is over when the list is empty.  An execution that fails is
    undone together with the call that led to it, so histories contain no failed steps.

    Not modelled: queries by page (see the pagination model), migration, attributes;
    a message to another contract is a number.  The addresses of new contracts are new. *)
From stdpp Require Import gmap strings.
From Verif Require Import Base.

(** packages/dao-interface/src/state.rs:5-23 [Config]; name, description, image and URI are
    one number. *)
Record kconf := KConf { kc_auto20 : bool; kc_auto721 : bool; kc_rest : N }.
(** packages/dao-interface/src/state.rs:25-41 [ProposalModule]; the address is the key. *)
Record kmod := KMod { km_on : bool; km_prefix : string }.

(** packages/dao-interface/src/msg.rs: [ExecuteMsg].  Messages to be dispatched are messages
    to the DAO itself or others.  An address to be listed comes with the outcome of the
    query that verifies it. *)
Inductive kmsg :=
| KAdmin (msgs : list (kmsg + N))
| KHook (msgs : list (kmsg + N))
| KPause (d : duration)
| KUnpause
| KReceive20
| KReceive721
| KRemoveItem (key : string)
| KSetItem (key value : string)
| KConfig (c : kconf)
| KCw20s (add : list (addr * bool)) (remove : list addr)
| KCw721s (add : list (addr * bool)) (remove : list addr)
| KVoting (info : N)
| KModules (add : list N) (disable : list addr)
| KNominate (a : option addr)
| KAccept
| KWithdraw
| KSubdaos (add : list (addr * option string)) (remove : list addr).
Notation kact := (kmsg + N)%type.

(** What the DAO dispatches: the instantiation of a module with its reply id, a message. *)
Inductive ksub := KInst (id : Z) (info : N) | KSend (a : kact).

(** state.rs:6-58; [k_self] is the address of the contract. *)
Record core := Core {
  k_self : addr;
  k_conf : kconf;
  k_admin : addr;
  k_nom : option addr;
  k_paused : option expiration;
  k_voting : option addr;
  k_mods : gmap addr kmod;
  k_active : Z;
  k_total : Z;
  k_items : gmap string string;
  k_cw20s : gset addr;
  k_cw721s : gset addr;
  k_subdaos : gmap addr (option string) }.
Record kstate := KState { k_core : core; k_todo : list ksub }.

Definition U32_MAX : Z := 2 ^ 32 - 1.

(** Reply ids, 33-35. *)
Definition PROPOSAL_ID : Z := 0.
Definition VOTE_ID : Z := 1.
Definition VOTE_UPDATE_ID : Z := 2.

(** 1024-1039 [derive_proposal_module_prefix]; [usize] has 32 bits on the chain.  The
    logarithm bounds the number of rounds. *)
Definition letter (r : Z) : Ascii.ascii := Ascii.ascii_of_N (Z.to_N (r + 65)).
Fixpoint prefix_loop (fuel : nat) (n : Z) (acc : string) : string :=
  match fuel with
  | O => acc
  | S fuel =>
      let r := (n - 1) mod 26 in
      let n' := (n - r) / 26 in
      let acc' := String (letter r) acc in
      if n' =? 0 then acc' else prefix_loop fuel n' acc'
  end.
Definition derive_prefix (i : Z) : result string :=
  check! i + 1 <=? U32_MAX else "panic";
  Ok (prefix_loop (S (Z.to_nat (Z.log2 (i + 1)))) (i + 1) "").

(** ** Updates of single fields *)
Definition k_set_conf (s : core) (c : kconf) : core :=
  Core (k_self s) c (k_admin s) (k_nom s) (k_paused s) (k_voting s) (k_mods s) (k_active s)
    (k_total s) (k_items s) (k_cw20s s) (k_cw721s s) (k_subdaos s).
Definition k_set_admin (s : core) (a : addr) (nom : option addr) : core :=
  Core (k_self s) (k_conf s) a nom (k_paused s) (k_voting s) (k_mods s) (k_active s)
    (k_total s) (k_items s) (k_cw20s s) (k_cw721s s) (k_subdaos s).
Definition k_set_paused (s : core) (p : option expiration) : core :=
  Core (k_self s) (k_conf s) (k_admin s) (k_nom s) p (k_voting s) (k_mods s) (k_active s)
    (k_total s) (k_items s) (k_cw20s s) (k_cw721s s) (k_subdaos s).
Definition k_set_voting (s : core) (a : addr) : core :=
  Core (k_self s) (k_conf s) (k_admin s) (k_nom s) (k_paused s) (Some a) (k_mods s)
    (k_active s) (k_total s) (k_items s) (k_cw20s s) (k_cw721s s) (k_subdaos s).
Definition k_set_mods (s : core) (m : gmap addr kmod) (active total : Z) : core :=
  Core (k_self s) (k_conf s) (k_admin s) (k_nom s) (k_paused s) (k_voting s) m active total
    (k_items s) (k_cw20s s) (k_cw721s s) (k_subdaos s).
Definition k_set_items (s : core) (m : gmap string string) : core :=
  Core (k_self s) (k_conf s) (k_admin s) (k_nom s) (k_paused s) (k_voting s) (k_mods s)
    (k_active s) (k_total s) m (k_cw20s s) (k_cw721s s) (k_subdaos s).
Definition k_set_lists (s : core) (l20 l721 : gset addr) : core :=
  Core (k_self s) (k_conf s) (k_admin s) (k_nom s) (k_paused s) (k_voting s) (k_mods s)
    (k_active s) (k_total s) (k_items s) l20 l721 (k_subdaos s).
Definition k_set_subdaos (s : core) (m : gmap addr (option string)) : core :=
  Core (k_self s) (k_conf s) (k_admin s) (k_nom s) (k_paused s) (k_voting s) (k_mods s)
    (k_active s) (k_total s) (k_items s) (k_cw20s s) (k_cw721s s) m.

(** ** contract.rs *)
(** 78-88: initial items, no key twice. *)
Fixpoint init_items (m : gmap string string) (l : list (string * string))
  : result (gmap string string) :=
  match l with
  | [] => Ok m
  | (k, v) :: l =>
      check! match m !! k with Some _ => false | None => true end else "DuplicateInitialItem";
      init_items (<[k := v]> m) l
  end.
(** 37-99 [instantiate]. *)
Definition k_instantiate (self : addr) (c : kconf) (admin : option addr) (voting : N)
    (modules : list N) (items : list (string * string)) : result kstate :=
  check! match modules with [] => false | _ => true end else "NoActiveProposalModules";
  do! m <- init_items ∅ items;
  Ok (KState (Core self c (default self admin) None None None ∅ 0 0 m ∅ ∅ ∅)
        (KInst VOTE_ID voting :: map (KInst PROPOSAL_ID) modules)).

(** 109-119: paused, and not called by the DAO or the admin. *)
Definition k_shut (s : core) (b : block) (sender : addr) : bool :=
  match k_paused s with
  | Some e => negb (is_expired e b) && negb (sender =? k_self s)%N && negb (sender =? k_admin s)%N
  | None => false
  end.
(** 352-378: each module to be disabled exists and is enabled. *)
Fixpoint disable_all (m : gmap addr kmod) (l : list addr) : result (gmap addr kmod) :=
  match l with
  | [] => Ok m
  | a :: l =>
      some! x <- m !! a else "ProposalModuleDoesNotExist";
      check! km_on x else "ModuleAlreadyDisabled";
      disable_all (<[a := KMod false (km_prefix x)]> m) l
  end.
(** 360, 380-388: the number of modules to disable is truncated to 32 bits. *)
Definition new_active (s : core) (add : list N) (disable : list addr) : result Z :=
  let n := Z.of_nat (length disable) mod 2 ^ 32 in
  check! negb ((k_active s <=? n) && match add with [] => true | _ => false end)
    else "NoActiveProposalModules";
  check! n <=? k_active s else "panic";
  Ok (k_active s - n).
(** 405-431 [do_update_addr_list]. *)
Definition update_list (l : gset addr) (add : list (addr * bool)) (remove : list addr)
  : result (gset addr) :=
  check! forallb snd add else "query failed";
  Ok ((l ∪ list_to_set (map fst add)) ∖ list_to_set remove).
(** 514-538: removals first. *)
Definition update_subdaos (m : gmap addr (option string)) (add : list (addr * option string))
    (remove : list addr) : gmap addr (option string) :=
  fold_left (fun m x => <[x.1 := x.2]> m) add (fold_left (fun m a => delete a m) remove m).

(** 162-181: the duration may leave the range of [u64]. *)
Definition pause_until (d : duration) (b : block) : result expiration :=
  match after d b with
  | AtHeight n => check! n <=? U64_MAX else "panic"; Ok (AtHeight n)
  | AtTime n => check! n <=? U64_MAX else "panic"; Ok (AtTime n)
  | Never => Ok Never
  end.

(** 102-160 [execute], after the check for a pause. *)
Definition k_step (s : core) (b : block) (sender : addr) (m : kmsg)
  : result (core * list ksub) :=
  let self := (sender =? k_self s)%N in
  let admin := (sender =? k_admin s)%N in
  match m with
  (* 198-213 *)
  | KAdmin msgs => check! admin else "Unauthorized"; Ok (s, map KSend msgs)
  (* 215-232 *)
  | KHook msgs =>
      some! x <- k_mods s !! sender else "Unauthorized";
      check! km_on x else "ModuleDisabledCannotExecute";
      Ok (s, map KSend msgs)
  (* 162-181 *)
  | KPause d =>
      check! self else "Unauthorized";
      do! e <- pause_until d b;
      Ok (k_set_paused s (Some e), [])
  (* 183-196 *)
  | KUnpause => check! admin else "Unauthorized"; Ok (k_set_paused s None, [])
  (* 540-562 *)
  | KReceive20 =>
      Ok (if kc_auto20 (k_conf s) then k_set_lists s ({[sender]} ∪ k_cw20s s) (k_cw721s s) else s, [])
  | KReceive721 =>
      Ok (if kc_auto721 (k_conf s) then k_set_lists s (k_cw20s s) ({[sender]} ∪ k_cw721s s) else s, [])
  (* 494-512 *)
  | KRemoveItem k =>
      check! self else "Unauthorized";
      check! match k_items s !! k with Some _ => true | None => false end else "KeyMissing";
      Ok (k_set_items s (delete k (k_items s)), [])
  (* 476-492 *)
  | KSetItem k v =>
      check! self else "Unauthorized"; Ok (k_set_items s (<[k := v]> (k_items s)), [])
  (* 309-333 *)
  | KConfig c => check! self else "Unauthorized"; Ok (k_set_conf s c, [])
  (* 433-454 *)
  | KCw20s add remove =>
      check! self else "Unauthorized";
      do! l <- update_list (k_cw20s s) add remove;
      Ok (k_set_lists s l (k_cw721s s), [])
  (* 456-474 *)
  | KCw721s add remove =>
      check! self else "Unauthorized";
      do! l <- update_list (k_cw721s s) add remove;
      Ok (k_set_lists s (k_cw20s s) l, [])
  (* 335-350 *)
  | KVoting info => check! self else "Unauthorized"; Ok (s, [KInst VOTE_UPDATE_ID info])
  (* 352-401 *)
  | KModules add disable =>
      check! self else "Unauthorized";
      do! mods <- disable_all (k_mods s) disable;
      do! n <- new_active s add disable;
      Ok (k_set_mods s mods n (k_total s), map (KInst PROPOSAL_ID) add)
  (* 234-267 *)
  | KNominate a =>
      check! admin else "Unauthorized";
      check! match k_nom s with Some _ => false | None => true end else "PendingNomination";
      Ok (match a with
          | Some a => k_set_admin s (k_admin s) (Some a)
          | None => k_set_admin s (k_self s) (k_nom s)
          end, [])
  (* 269-285 *)
  | KAccept =>
      some! a <- k_nom s else "NoAdminNomination";
      check! (sender =? a)%N else "Unauthorized";
      Ok (k_set_admin s a None, [])
  (* 287-307 *)
  | KWithdraw =>
      check! admin else "Unauthorized";
      check! match k_nom s with Some _ => true | None => false end else "NoAdminNomination";
      Ok (k_set_admin s (k_admin s) None, [])
  (* 514-538 *)
  | KSubdaos add remove =>
      check! self else "Unauthorized";
      Ok (k_set_subdaos s (update_subdaos (k_subdaos s) add remove), [])
  end.
Definition k_execute (s : core) (b : block) (sender : addr) (m : kmsg)
  : result (core * list ksub) :=
  check! negb (k_shut s b sender) else "Paused";
  k_step s b sender m.

(** 953-1022 [reply]: the new contract and the messages its data asks for (none when the
    data cannot be parsed). *)
Definition k_reply (s : core) (id : Z) (a : addr) (msgs : list kact)
  : result (core * list ksub) :=
  if id =? PROPOSAL_ID then
    do! p <- derive_prefix (k_total s);
    check! k_active s + 1 <=? U32_MAX else "panic";
    check! k_total s + 1 <=? U32_MAX else "panic";
    Ok (k_set_mods s (<[a := KMod true p]> (k_mods s)) (k_active s + 1) (k_total s + 1),
        map KSend msgs)
  else if id =? VOTE_ID then
    check! match k_voting s with Some _ => false | None => true end else "MultipleVotingModules";
    Ok (k_set_voting s a, map KSend msgs)
  else if id =? VOTE_UPDATE_ID then Ok (k_set_voting s a, [])
  else Err "UnknownReplyID".

(** ** The chain *)
Inductive kevent :=
| VCall (sender : addr) (m : kmsg)           (* another account calls the DAO *)
| VSelf                                      (* the DAO executes its own message *)
| VReply (a : addr) (msgs : list kact)       (* a module has been created *)
| VDone.                                     (* a message to others has been executed *)
Definition k_event (s : kstate) (b : block) (e : kevent) : result kstate :=
  match e with
  | VCall sender m =>
      check! negb (sender =? k_self (k_core s))%N else "not the DAO";
      do! ' (c, l) <- k_execute (k_core s) b sender m;
      Ok (KState c (l ++ k_todo s))
  | VSelf =>
      match k_todo s with
      | KSend (inl m) :: t =>
          do! ' (c, l) <- k_execute (k_core s) b (k_self (k_core s)) m; Ok (KState c (l ++ t))
      | _ => Err "nothing to execute"
      end
  | VReply a msgs =>
      match k_todo s with
      | KInst id _ :: t =>
          check! match k_mods (k_core s) !! a with Some _ => false | None => true end
            else "address in use";
          check! negb (a =? k_self (k_core s))%N else "address in use";
          do! ' (c, l) <- k_reply (k_core s) id a msgs; Ok (KState c (l ++ t))
      | _ => Err "nothing to reply to"
      end
  | VDone =>
      match k_todo s with
      | KSend (inr _) :: t => Ok (KState (k_core s) t)
      | _ => Err "nothing to execute"
      end
  end.

(** 650-676 [query_active_proposal_modules] without paging; 678-690 [get_pause_info];
    864-869 [query_proposal_module_count]. *)
Definition q_active_modules (s : core) : list addr :=
  map fst (List.filter (fun x => km_on x.2) (map_to_list (k_mods s))).
Definition q_paused (s : core) (b : block) : option expiration :=
  match k_paused s with Some e => if is_expired e b then None else Some e | None => None end.
Definition q_module_count (s : core) : Z * Z := (k_active s, k_total s).
