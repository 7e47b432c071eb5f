(** Which plugin a configuration document names (C66). *)
From Coq Require Import String List Bool.
From Verif Require Import Model.GoStr Model.Json Model.GoJson Model.Types Model.Conf Spec.JsonSpec Spec.ConfSpec.
Import ListNotations.
Open Scope string_scope.

(** The plugin's document still names the same type after its members have been put into a map
    (as happens when parameters are added to it). *)
Definition settled (net : plugin_config) : Prop :=
  exists m, decodes_to (pg_bytes net) m /\ says "type" m (pc_type (pg_conf net)).
(** At most one member of the object is taken for the type (names are matched ignoring case). *)
Definition one_type (o : list (string * json)) : Prop :=
  List.length (filter (fun kv => key_is "type" (fst kv)) o) <= 1.
