(** Two invocations of cnitool for one attachment. *)
From Coq Require Import String List NArith.
From Verif Require Import Model.GoStr Model.Json Model.Conf Model.Api Model.Cnitool Spec.JsonSpec Spec.ToolSpec.
Import ListNotations.
Open Scope string_scope.

(** The command of an invocation. *)
Definition asks (te : tool_env) (cmd : string) : Prop := exists rest, te_argv te = cmd :: rest.
(** Two invocations in the same environment, working directory and configuration files, for the same
    network and for the same namespace, which may be written differently. *)
Definition same_attachment (te te' : tool_env) : Prop :=
  te_environ te' = te_environ te /\ te_cwd te' = te_cwd te /\ te_fs te' = te_fs te /\ te_sha512 te' = te_sha512 te /\
  exists cmd cmd' net ns ns' more more' p,
    te_argv te = cmd :: net :: ns :: more /\ te_argv te' = cmd' :: net :: ns' :: more' /\
    absolute (te_cwd te) ns p /\ absolute (te_cwd te) ns' p.
(** CAP_ARGS does not nest deeper than a request can carry: two levels are used up. *)
Definition shallow (rt : runtime_conf) : Prop := Forall (fun kj => (jdepth (snd kj) <= 9998)%N) (rt_caps rt).
