(** File names and directories, lexically. *)
From Coq Require Import String Ascii List.
From Verif Require Import Spec.EnvSpec.
Import ListNotations.
Open Scope string_scope.

(** One element of a path, naming an entry of a directory. *)
Definition file_name (n : string) : Prop :=
  n <> "" /\ n <> "." /\ n <> ".." /\ lacks "/"%char n.

(** Entry [n] of directory [d], [d] in cleaned form. *)
Definition entry_of (d n : string) : string :=
  if String.eqb d "/" then "/" ++ n else if String.eqb d "." then n else d ++ "/" ++ n.

(** Cleaned form: components separated by single slashes, no . and no .. except leading ones of
    a relative path. *)
Fixpoint dotdots (l : list string) : Prop :=        (* .. only at the front *)
  match l with
  | [] => True
  | c :: l' => (c = ".." /\ dotdots l') \/ (c <> ".." /\ Forall (fun x => x <> "..") l')
  end.
Definition normal_comps (rooted : bool) (l : list string) : Prop :=
  Forall (fun c => c <> "" /\ c <> "." /\ lacks "/"%char c) l /\
  (if rooted then Forall (fun c => c <> "..") l else dotdots l).
Definition in_clean_form (p : string) : Prop :=
  p = "/" \/ p = "." \/
  exists rooted l, l <> [] /\ normal_comps rooted l /\
    p = (if rooted then "/" else "") ++ String.concat "/" l.
