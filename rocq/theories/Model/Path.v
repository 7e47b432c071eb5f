(** path/filepath on Unix: Clean, Join, SplitList, Dir, Base, Ext. *)
From Coq Require Import String Ascii List Arith NArith Bool.
From Verif Require Import Model.GoStr.
Import ListNotations.
Open Scope string_scope.

Definition slash : ascii := "/"%char.

(** One step of filepath.Clean's component loop; [st] is the output stack, last component
    first.  Empty and "." components are dropped; ".." pops, is dropped at the root of a rooted
    path, and is kept at the start of a relative one. *)
Definition clean_step (rooted : bool) (st : list string) (c : string) : list string :=
  if String.eqb c "" || String.eqb c "." then st
  else if String.eqb c ".." then
    match st with
    | [] => if rooted then [] else [".."]
    | top :: rest => if String.eqb top ".." then ".." :: st else rest
    end
  else c :: st.

Definition is_rooted (p : string) : bool :=
  match p with String c _ => Ascii.eqb c slash | _ => false end.

(** The cleaned components of a path, first first. *)
Definition clean_comps (p : string) : list string :=
  rev (fold_left (clean_step (is_rooted p)) (split_on slash p) []).

Definition render_path (rooted : bool) (comps : list string) : string :=
  match comps with
  | [] => if rooted then "/" else "."
  | _ => (if rooted then "/" else "") ++ join "/" comps
  end.

(** filepath.Clean. *)
Definition clean (p : string) : string :=
  if String.eqb p "" then "." else render_path (is_rooted p) (clean_comps p).

(** filepath.Join: empty leading elements are skipped; "" if all are empty. *)
Fixpoint join_path (elems : list string) : string :=
  match elems with
  | [] => ""
  | e :: es => if String.eqb e "" then join_path es else clean (join "/" (e :: es))
  end.

(** filepath.SplitList (pkg/invoke/delegate.go:30, cnitool/cnitool.go:108). *)
Definition split_list (p : string) : list string :=
  if String.eqb p "" then [] else split_on ":"%char p.

(** The text up to and including the last slash, and the rest. *)
Fixpoint split_last_slash (s : string) : option (string * string) :=
  match s with
  | EmptyString => None
  | String c s' =>
      match split_last_slash s' with
      | Some (a, b) => Some (String c a, b)
      | None => if Ascii.eqb c slash then Some (String c "", s') else None
      end
  end.

(** filepath.Dir. *)
Definition dir_path (p : string) : string :=
  match split_last_slash p with
  | Some (a, _) => clean a
  | None => clean ""
  end.

Definition all_slashes (s : string) : bool := sforall (is_byte slash) s.

(** filepath.Base: trailing slashes are removed first. *)
Fixpoint strip_trailing_slashes (s : string) : string :=
  match s with
  | EmptyString => EmptyString
  | String c s' => if all_slashes s then EmptyString else String c (strip_trailing_slashes s')
  end.
Definition base_path (p : string) : string :=
  if String.eqb p "" then "."
  else
    let q := strip_trailing_slashes p in
    let b := match split_last_slash q with Some (_, b) => b | None => q end in
    if String.eqb b "" then "/" else b.

(** filepath.Ext: suffix from the last '.' of the last element, "" if none. *)
Fixpoint last_dot (s : string) : option string :=
  match s with
  | EmptyString => None
  | String c s' =>
      match last_dot s' with
      | Some e => Some e
      | None => if Ascii.eqb c "."%char then Some s else None
      end
  end.
Definition ext_path (p : string) : string :=
  let b := match split_last_slash p with Some (_, b) => b | None => p end in
  match last_dot b with Some e => e | None => "" end.
