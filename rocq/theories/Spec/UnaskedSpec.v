(** Capability arguments: which plugins ask for one, and which values cannot be written. *)
From Coq Require Import String List NArith.
From Verif Require Import Model.GoStr Model.Json Model.Conf Model.Api Spec.JsonSpec Spec.ConfSpec.
Import ListNotations.
Open Scope string_scope.

(** The plugin's configuration says "capabilities": {k: true}. *)
Definition asks_for (net : plugin_config) (k : string) : Prop :=
  exists o, parse (pg_bytes net) = Some (JObj o) /\ advertises o k.
(** It spells "capabilities" in one way only (Go matches member names whatever their case). *)
Definition spelt (net : plugin_config) : Prop := forall o, parse (pg_bytes net) = Some (JObj o) -> only_spelling "capabilities" o.
(** The call without that argument. *)
Definition without_arg (k : string) (rt : runtime_conf) : runtime_conf :=
  {| rt_container := rt_container rt; rt_netns := rt_netns rt; rt_ifname := rt_ifname rt; rt_args := rt_args rt;
     rt_caps := sdel k (rt_caps rt); rt_cache_dir := rt_cache_dir rt |}.
(** A value JSON has no form for: it holds, at some depth, a number that is no JSON number (NaN, an
    infinity; what stands for a channel or a function). *)
Inductive unwritable : json -> Prop :=
| uw_num : forall l, ~ number_lit l -> unwritable (JNum l)
| uw_arr : forall l j, In j l -> unwritable j -> unwritable (JArr l)
| uw_obj : forall l k j, In (k, j) l -> unwritable j -> unwritable (JObj l).
(** The caller's map has that value under [k]; a Go map has each key once. *)
Definition given (k : string) (v : json) (rt : runtime_conf) : Prop := NoDup (map fst (rt_caps rt)) /\ sget k (rt_caps rt) = Some v.
