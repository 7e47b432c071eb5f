(** Reading a plugin's answers. *)
From Coq Require Import String List NArith.
From Verif Require Import Model.GoStr Model.Json Model.GoJson Model.Invoke Spec.JsonSpec Spec.ConfSpec.
Import ListNotations.
Open Scope string_scope.

(** *** Process outcomes *)

(** The run failed because the program file is being written. *)
Definition busy (o : run_outcome) : Prop :=
  exists e a b, ro_err o = Some e /\ e = a ++ "text file busy" ++ b.
Definition exited_zero (o : run_outcome) : Prop := ro_err o = None.
(** Everything the runs up to and including the [n]-th wrote. *)
Fixpoint output (f : run_outcome -> string) (runs : nat -> run_outcome) (n : nat) : string :=
  match n with
  | O => f (runs O)
  | S m => output f runs m ++ f (runs n)
  end.

(** *** Documents *)

(** The last member that encoding/json matches with [field]. *)
Fixpoint last_match (field : string) (o : list (string * json)) : option json :=
  match o with
  | [] => None
  | (k, v) :: o' => match last_match field o' with
                    | Some x => Some x
                    | None => if key_is field k then Some v else None
                    end
  end.
(** A list of texts; null counts as the empty text and the empty list. *)
Definition text_of (j : json) : string := match j with JStr s => s | _ => "" end.
Definition texts_of (oj : option json) : list string :=
  match oj with Some (JArr l) => map text_of l | _ => [] end.
(** The version a document declares: the last non-null cniVersion, or none. *)
Inductive declares (o : list (string * json)) : string -> Prop :=
| declares_it v : says "cniVersion" o v -> declares o v
| declares_none : (forall k v, In (k, v) o -> key_is "cniVersion" k = true -> v = JNull) -> declares o "".
(** The version of a configuration: what it declares, 0.1.0 if nothing or the empty text. *)
Definition conf_version (netconf v : string) : Prop :=
  exists o d, parse netconf = Some (JObj o) /\ declares o d /\
    (forall k x, In (k, x) o -> key_is "cniVersion" k = true -> text_or_null x) /\
    v = (if String.eqb d "" then "0.1.0" else d).
