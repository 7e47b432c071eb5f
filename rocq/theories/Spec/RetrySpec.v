(** Deleting again until it works (C85). *)
From Coq Require Import String List Bool ZArith.
From Verif Require Import Model.GoStr Model.Errors Model.Args Model.Types Model.Conf Model.Invoke Model.Prog Model.Api
  Spec.VersionSpec Spec.RunSpec Spec.CacheSpec.
Import ListNotations.
Open Scope string_scope.

(** What the record of the attachment says about the network's previous result: nothing before
    0.4.0, else what a reader of the file gets. *)
Definition recalls (version : string) (file : option string) (prev : option result) : Prop :=
  (below version (0, 4, 0)%Z /\ prev = None) \/
  (at_least version (0, 4, 0)%Z /\ reads_result version file = Ok prev).
(** Attempts at deleting one attachment, each of which ended in any way: it succeeded, it failed, or
    the process died at some point of it.  Between two attempts anything may happen to the files,
    except to the attachment's own record. *)
Inductive attempts (fl : bool) (c : cni) (l : network_list) (rt : runtime_conf) : world -> list trace -> world -> Prop :=
| attempts_none w w' : sget (entry_path c (nl_name l) rt) w' = sget (entry_path c (nl_name l) rt) w -> attempts fl c l rt w [] w'
| attempts_more w w0 tr w1 trs w2 :
    sget (entry_path c (nl_name l) rt) w0 = sget (entry_path c (nl_name l) rt) w ->
    crashes fl (del_network_list c l rt) w0 tr w1 ->
    attempts fl c l rt w1 trs w2 ->
    attempts fl c l rt w (tr :: trs) w2.
(** In this attempt every plugin of the network was asked and confirmed. *)
Definition confirmed (l : network_list) (tr : trace) : Prop := all_succeeded (List.length (nl_plugins l)) tr.
(** Before attempt [i] no attempt was confirmed by every plugin. *)
Definition unconfirmed (l : network_list) (trs : list trace) (i : nat) : Prop :=
  forall j tr, j < i -> nth_error trs j = Some tr -> ~ confirmed l tr.
(** In this attempt the plugins were asked last one first, up to the first failure, each told that
    the previous result was [prev]. *)
Definition asks_to_delete (c : cni) (l : network_list) (rt : runtime_conf) (prev : option result) (tr : trace) : Prop :=
  asked_in_order c "DEL" (nl_name l) (nl_version l) rt (rev (nl_plugins l)) prev tr.
(** The two executions got the same input. *)
Definition same_request (x y : call) : Prop :=
  call_stdin x = call_stdin y /\
  forall k, In k ["CNI_COMMAND"; "CNI_CONTAINERID"; "CNI_NETNS"; "CNI_ARGS"; "CNI_IFNAME"; "CNI_PATH"] ->
    getenv (call_env x) k = getenv (call_env y) k.
