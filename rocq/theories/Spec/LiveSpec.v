(** When a request has no reason to fail. *)
From Coq Require Import String List Bool ZArith.
From Verif Require Import Model.GoStr Model.Errors Model.Json Model.Types Model.Conf Model.Prog Model.Api
  Spec.NameSpec Spec.JsonSpec Spec.ConfSpec Spec.TypesSpec Spec.RunSpec Spec.CacheSpec.
Import ListNotations.
Open Scope string_scope.

(** The plugin's configuration document decodes and is a plugin configuration. *)
Definition usable (net : plugin_config) : Prop := exists m, decodes_to (pg_bytes net) m /\ plugin_object (JObj m).
(** Every program that was looked up was found. *)
Definition nothing_missing (tr : trace) : Prop := forall type paths e, ~ In (OpFind type paths, RStr (Err e)) tr.
(** Every plugin that ran returned a result that decodes. *)
Definition all_yield (tr : trace) : Prop := forall x, In x (calls tr) -> exists v, yields x v.
(** Every plugin that ran succeeded. *)
Definition all_answer (tr : trace) : Prop := forall x, In x (calls tr) -> succeeded x.
(** The text of the request: what JSON can carry, nested less deeply than Go allows. *)
Definition sendable (name ver : string) (rt : runtime_conf) : Prop :=
  well_formed_text name /\ well_formed_text ver /\
  Forall (fun kj => well_formed_text (fst kj) /\ injectable (snd kj)) (rt_caps rt).
(** A previous result in the forms the library produces. *)
Definition proper (prev : option result) : Prop := forall r, prev = Some r -> wf_result int64 any_prefix r.
(** The attachments the caller declares valid can be written as JSON. *)
Definition sendable_args (args : option gc_args) : Prop :=
  forall l a, args = Some (Some l) -> In a l -> well_formed_text (ga_container a) /\ well_formed_text (ga_ifname a).
(** No file of the world crashes a reader at this version. *)
Definition safe_world (ver : string) (w : world) : Prop := forall p d, sget p w = Some d -> reads_result ver (Some d) <> Panic.
