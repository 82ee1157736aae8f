(** Model of the migrations that change nothing but the name and version
    recorded by cw2.

    - Unconditional: dao-proposal-multiple contract.rs:1054-1057, btsg-ft-factory
      177-181, cw-admin-factory 176-180, cw-token-swap 250-254.
    - "Only migrate if newer": cw-tokenfactory-issuer contract.rs:166-176,
      dao-voting-cw20-staked 374-384, dao-voting-cw4 172-182,
      dao-voting-cw721-staked 646-656, dao-voting-onft-staked 692-702,
      dao-voting-token-staked 560-570.
    - dao-rewards-distributor contract.rs:725-749.

    All are of the workspace's version, 2.5.0 (Cargo.toml:21). *)
From Coq Require Import String DecimalString DecimalNat.
From Coq Require Import NArith.
From Verif Require Import Base.

(** A version as semver has it; [w_pre] is the pre-release part, empty for a
    release.  Build metadata are left out. *)
Record version := Version {
  w_major : N; w_minor : N; w_patch : N; w_pre : string }.

(** The text of a version, which is what cw2 records. *)
Definition render_number (n : N) : string := NilEmpty.string_of_uint (N.to_uint n).
Definition render (v : version) : string :=
  (render_number (w_major v) ++ "." ++ render_number (w_minor v) ++ "." ++
   render_number (w_patch v) ++
   match w_pre v with EmptyString => "" | p => "-" ++ p end)%string.

(** What cw2 records, and the rest of the store, which no migration touches. *)
Record recorded := Recorded { i_name : N; i_version : version }.

(** Cargo.toml:21. *)
Definition code_version : version := Version 2 5 0 "".

(** semver [Version] order, as far as needed: against a release.  A pre-release
    comes before its release. *)
Definition cmp_release (v r : version) : comparison :=
  match N.compare (w_major v) (w_major r) with
  | Eq => match N.compare (w_minor v) (w_minor r) with
          | Eq => match N.compare (w_patch v) (w_patch r) with
                  | Eq => match w_pre v with EmptyString => Eq | _ => Lt end
                  | c => c
                  end
          | c => c
          end
  | c => c
  end.

(** dao-proposal-multiple contract.rs:1054-1057 and the like. *)
Definition migrate_always (name : N) (i : recorded) : result recorded :=
  Ok (Recorded name code_version).

(** dao-voting-cw4 contract.rs:172-182 and the like: the texts are compared, byte
    by byte. *)
Definition migrate_newer (name : N) (i : recorded) : result recorded :=
  Ok (if String.ltb (render (i_version i)) (render code_version)
      then Recorded name code_version else i).

(** dao-rewards-distributor contract.rs:725-749. *)
Definition migrate_upgrade (name : N) (i : recorded) : result recorded :=
  check! (i_name i =? name)%N else "MigrationErrorIncorrectContract";
  match cmp_release (i_version i) code_version with
  | Lt => Ok (Recorded name code_version)
  | _ => Err "MigrationErrorInvalidVersion"
  end.
