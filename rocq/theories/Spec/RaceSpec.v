(** Several ADDs of one attachment at once (C83). *)
From Coq Require Import String List Bool.
From Verif Require Import Model.GoStr Model.Errors Model.Types Model.Conf Model.Prog Model.Api
  Spec.RunSpec Spec.CacheSpec Spec.HistSpec Spec.MapSpec Spec.CollectSpec.
Import ListNotations.
Open Scope string_scope.

(** What may happen to one operation among others: an answer as alone, or (a write by name reaches the
    file that was opened) a write that is lost, because since the file was opened it was removed and
    another created under its name.  Losing any write is allowed here, which includes this case. *)
Definition happens (fl : bool) (w : world) (o : op) (r : resp) (w' : world) : Prop :=
  answer fl w o r w' \/ exists p d, o = OpWrite p d /\ r = RErr None /\ w' = w.
(** Any schedule of several programs (as [interleaves], with such losses). *)
Inductive mingles (fl : bool) {A} : list (prog A) -> world -> list (nat * event) -> world -> list (prog A) -> Prop :=
| MgDone ps w : mingles fl ps w [] w ps
| MgStep ps w i o k r w1 tr w2 rest :
    nth_error ps i = Some (Do o k) -> happens fl w o r w1 -> mingles fl (set_nth i (k r) ps) w1 tr w2 rest ->
    mingles fl ps w ((i, (o, r)) :: tr) w2 rest.

(** A query for the result or the configuration. *)
Definition asks (a : action) : Prop := match a with ListResult _ _ | OneResult _ _ | ListConfig _ _ | OneConfig _ _ => True | _ => False end.

(** Of the operations [acts], started at [w], whose steps so far are [tr] and which are now at
    [rest]: member [j] is an ADD whose attachment is recorded at [p]; it has succeeded, and run alone
    in the starting world, with the same steps, it succeeds too and leaves the file system [u]. *)
Definition added (c : cni) (acts : list action) (w : world) (tr : list (nat * event)) (rest : list (prog (res value))) (p : string) (j : nat) (u : world) : Prop :=
  exists b x, nth_error acts j = Some b /\ is_add b /\ at_entry c b p /\ nth_error rest j = Some (Ret (Ok x)) /\
    runs false (performs c b) w (own j tr) u (Ok x).
