(** CNI version strings (pkg/version). *)
From Coq Require Import String Ascii List Arith ZArith Bool.
From Verif Require Import Model.GoStr Model.Errors.
Import ListNotations.
Open Scope string_scope.
Open Scope Z_scope.

(** version.Current (pkg/version/version.go:26-28). *)
Definition current_version : string := "1.1.0".

(** version.All / version.Legacy (pkg/version/version.go:37-40). *)
Definition all_versions : list string :=
  ["0.1.0"; "0.2.0"; "0.3.0"; "0.3.1"; "0.4.0"; "1.0.0"; "1.1.0"].
Definition legacy_versions : list string := ["0.1.0"; "0.2.0"].

(** version.VersionsStartingFrom (pkg/version/version.go:43-56); [None] is the
    PluginSupports panic on an empty list. *)
Fixpoint versions_from (ok : bool) (min : string) (l : list string) : list string :=
  match l with
  | [] => []
  | v :: l' =>
      let ok' := ok || String.eqb v min in
      if ok' then v :: versions_from ok' min l' else versions_from ok' min l'
  end.
Definition versions_starting_from (min : string) : option (list string) :=
  match versions_from false min all_versions with [] => None | l => Some l end.

(** version.ParseVersion (pkg/version/plugin.go:87-118). *)
Definition parse_version (version : string) : res (Z * Z * Z) :=
  if String.eqb version "" then Ok (0, 1, 0)
  else
    let parts := split_on "."%char version in
    if (4 <=? List.length parts)%nat then Err (EMsg "invalid version: too many parts")
    else
      match parts with
      | [] => Panic (* parts[0] of an empty slice; strings.Split never returns one *)
      | p0 :: rest =>
          match atoi p0 with
          | None => Err (EMsg "failed to convert major version part")
          | Some major =>
              match rest with
              | [] => Ok (major, 0, 0)
              | p1 :: rest' =>
                  match atoi p1 with
                  | None => Err (EMsg "failed to convert minor version part")
                  | Some minor =>
                      match rest' with
                      | [] => Ok (major, minor, 0)
                      | p2 :: _ =>
                          match atoi p2 with
                          | None => Err (EMsg "failed to convert micro version part")
                          | Some micro => Ok (major, minor, micro)
                          end
                      end
                  end
              end
          end
      end.

(** version.GreaterThanOrEqualTo (pkg/version/plugin.go:123-144). *)
Definition gte (version otherVersion : string) : res bool :=
  match parse_version version with
  | Err e => Err e
  | Panic => Panic
  | Ok (firstMajor, firstMinor, firstMicro) =>
      match parse_version otherVersion with
      | Err e => Err e
      | Panic => Panic
      | Ok (secondMajor, secondMinor, secondMicro) =>
          Ok (if firstMajor >? secondMajor then true
              else if firstMajor =? secondMajor then
                if firstMinor >? secondMinor then true
                else if (firstMinor =? secondMinor) && (firstMicro >=? secondMicro) then true
                else false
              else false)
      end
  end.

(** version.GreaterThan (pkg/version/plugin.go:147-168). *)
Definition gt (version otherVersion : string) : res bool :=
  match parse_version version with
  | Err e => Err e
  | Panic => Panic
  | Ok (firstMajor, firstMinor, firstMicro) =>
      match parse_version otherVersion with
      | Err e => Err e
      | Panic => Panic
      | Ok (secondMajor, secondMinor, secondMicro) =>
          Ok (if firstMajor >? secondMajor then true
              else if firstMajor =? secondMajor then
                if firstMinor >? secondMinor then true
                else if (firstMinor =? secondMinor) && (firstMicro >? secondMicro) then true
                else false
              else false)
      end
  end.

(** Reconciler.CheckRaw (pkg/version/reconcile.go:38-49): [None] is nil. *)
Definition check_raw (configVersion : string) (supported : list string) : option goerr :=
  if mem_str configVersion supported then None
  else Some (EIncompat configVersion supported).
