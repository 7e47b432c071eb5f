(** Two requests to one plugin that agree but for the previous result (C79). *)
From Coq Require Import String List.
From Verif Require Import Model.GoStr Model.Json Model.Args Model.Conf Model.Invoke Spec.JsonSpec Spec.ConfSpec Spec.RunSpec.
Import ListNotations.
Open Scope string_scope.

(** The parameters in the environment are the same. *)
Definition same_parameters (x y : call) : Prop :=
  forall k, In k ["CNI_CONTAINERID"; "CNI_NETNS"; "CNI_ARGS"; "CNI_IFNAME"; "CNI_PATH"] -> getenv (call_env x) k = getenv (call_env y) k.
(** The configurations are objects with the same members, except for prevResult and, as [rc] says,
    runtimeConfig. *)
Definition same_but_prev (rc : option json -> option json -> Prop) (s t : string) : Prop :=
  exists d e, parse s = Some (JObj d) /\ parse t = Some (JObj e) /\ NoDup (map fst d) /\ NoDup (map fst e) /\
    (forall k, k <> "prevResult" -> k <> "runtimeConfig" -> last_member k d = last_member k e) /\
    rc (last_member "runtimeConfig" d) (last_member "runtimeConfig" e).
(** [y] repeats the request [x] with another command. *)
Definition repeats (rc : option json -> option json -> Prop) (command : string) (x y : call) : Prop :=
  getenv (call_env x) "CNI_COMMAND" = "ADD" /\ getenv (call_env y) "CNI_COMMAND" = command /\
  same_parameters x y /\ same_but_prev rc (call_stdin x) (call_stdin y).
(** The configuration's previous result is this document, perhaps after a trip through interface{}. *)
Definition gives_prev (s : string) (j : json) : Prop :=
  exists d v, parse s = Some (JObj d) /\ last_member "prevResult" d = Some v /\ (v = j \/ reencoded j v).
