(** Locating plugin binaries (pkg/invoke/find.go). *)
From Coq Require Import String Ascii List Arith NArith Bool.
From Verif Require Import Model.GoStr Model.Errors Model.Path.
Import ListNotations.
Open Scope string_scope.

(** os.Stat as seen by FindInPath: [Some true] is a regular file, [Some false] exists but is
    not regular (directory, device, ...), [None] is an error. *)
Definition stat_fn : Type := string -> option bool.

(** ExecutableFileExtensions on Unix (pkg/invoke/os_unix.go:20-21): one empty extension. *)
Definition executable_file_extensions : list string := [""].

(** One candidate file (find.go:42-45). *)
Definition candidate (path plugin fe : string) : string := join_path [path; plugin] ++ fe.

Fixpoint find_ext (stat : stat_fn) (path plugin : string) (exts : list string) : option string :=
  match exts with
  | [] => None
  | fe :: exts' =>
      let fullpath := candidate path plugin fe in
      match stat fullpath with
      | Some true => Some fullpath
      | _ => find_ext stat path plugin exts'
      end
  end.

Fixpoint find_paths (stat : stat_fn) (plugin : string) (paths : list string) : option string :=
  match paths with
  | [] => None
  | p :: ps =>
      match find_ext stat p plugin executable_file_extensions with
      | Some f => Some f
      | None => find_paths stat plugin ps
      end
  end.

(** invoke.FindInPath (pkg/invoke/find.go:25-48). *)
Definition find_in_path (stat : stat_fn) (plugin : string) (paths : list string) : res string :=
  if String.eqb plugin "" then Err (EMsg "no plugin name provided")
  else if contains_byte slash plugin then Err (EMsg ("invalid plugin name: " ++ plugin))
  else match paths with
       | [] => Err (EMsg "no paths provided")
       | _ =>
           match find_paths stat plugin paths with
           | Some f => Ok f
           | None => Err (EMsg ("failed to find plugin " ++ quote plugin ++ " in path"))
           end
       end.
