(** Which Exec the calls of a shared CNIConfig use (C86). *)
From Coq Require Import List Bool.
From Verif Require Import Model.Prog Model.Share.
Import ListNotations.

(** Goroutines that only call the API. *)
Definition goroutines (o : order) (ps : list mprog) : Prop := forall p, In p ps -> exists plugins, p = api_calls o plugins.
(** A complete default Exec. *)
Definition a_default (u : exec_type * pointer) : Prop := fst u = TypeDefault /\ snd u <> 0.
(** Half of one: a method call on it follows a nil pointer. *)
Definition half_made (u : exec_type * pointer) : Prop := fst u = TypeDefault /\ snd u = 0.
