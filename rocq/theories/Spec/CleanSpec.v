(** Histories in which anything goes wrong, and the clean-up after them. *)
From Coq Require Import String List Bool.
From Verif Require Import Model.GoStr Model.Errors Model.Types Model.Conf Model.Prog Model.Api
  Spec.RunSpec Spec.CacheSpec Spec.HistSpec.
Import ListNotations.

(** Operations one after the other; any file operation may fail, any operation may end with an
    error, and the process may be killed in the middle of any of them. *)
Inductive troubled (c : cni) : list action -> world -> world -> Prop :=
| TNil w : troubled c [] w w
| TDone a h w tr w1 v w2 : runs true (performs c a) w tr w1 v -> troubled c h w1 w2 -> troubled c (a :: h) w w2
| TKilled a h w tr w1 w2 : crashes true (performs c a) w tr w1 -> troubled c h w1 w2 -> troubled c (a :: h) w w2.

(** Only successful deletions. *)
Definition deletions (d : list (action * res value)) : Prop :=
  Forall (fun av => is_del (fst av) /\ exists x, snd av = Ok x) d.
(** Every attachment an operation of [h] is about is deleted in [d]. *)
Definition all_deleted (c : cni) (h : list action) (d : list (action * res value)) : Prop :=
  forall a p, In a h -> at_entry c a p -> exists av, In av d /\ at_entry c (fst av) p.
