(** Which files of a directory are configuration candidates. *)
From Coq Require Import String List Permutation Sorted.
From Verif Require Import Model.Errors Model.Path Model.Conf Spec.ConfSpec.
Import ListNotations.
Open Scope string_scope.

(** [entry fs dir n]: [n] is a regular (non-directory) entry of [dir] with one of the extensions. *)
Definition named_like (exts : list string) (e : string * bool) : Prop :=
  snd e = false /\ exists x, In x exts /\ ends_with x (fst e).
(** The names in [ns] are those of the entries that qualify, in the same order. *)
Inductive picks {A} (p : A -> Prop) : list A -> list A -> Prop :=
| picks_nil : picks p [] []
| picks_take : forall a l l', p a -> picks p l l' -> picks p (a :: l) (a :: l')
| picks_skip : forall a l l', ~ p a -> picks p l l' -> picks p (a :: l) l'.
(** A directory listing (os.ReadDir: in name order); a missing directory has no entries. *)
Definition listing (fs : fsys) (dir : string) (es : list (string * bool)) : Prop :=
  fs_read_dir fs dir = Ok es \/
  (es = [] /\ exists e, fs_read_dir fs dir = Err e /\ is_not_exist e = true).
Definition candidates (fs : fsys) (dir : string) (exts : list string) (files : list string) : Prop :=
  exists es ns, listing fs dir es /\ picks (named_like exts) es ns /\
    files = map (fun e => join_path [dir; fst e]) ns.
(** The same in the order of sort.Strings. *)
Definition sorted_candidates (fs : fsys) (dir : string) (exts files : list string) : Prop :=
  exists fs0, candidates fs dir exts fs0 /\ Permutation fs0 files /\
    StronglySorted (fun a b => String.compare a b <> Gt) files.
Definition reads_plugin (fs : fsys) (f : string) (p : plugin_config) : Prop :=
  exists b, fs_read_file fs f = Ok b /\ plugin_conf_from_bytes b = Ok p.
