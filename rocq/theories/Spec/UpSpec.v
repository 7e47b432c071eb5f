(** When the operations on a list obtained from a single configuration do what the operations on
    the single configuration do. *)
From Coq Require Import String List ZArith Bool.
From Verif Require Import Model.GoStr Model.Errors Model.Version Model.Json Model.GoJson Model.Types Model.Conf Model.Prog Model.Api
  Spec.JsonSpec Spec.VersionSpec Spec.ConfSpec Spec.CacheSpec.
Import ListNotations.
Open Scope string_scope.

(** [c] was loaded from the text [b], an object with no repeated key and "type" spelt so, and [l] is
    what ConfListFromConf makes of it. *)
Definition upconverted (b : string) (c : plugin_config) (l : network_list) : Prop :=
  plugin_conf_from_bytes b = Ok c /\ conf_list_from_conf c = Ok l /\
  exists o, parse b = Some (JObj o) /\ NoDup (map fst o) /\ only_spelling "type" o /\ (jdepth (JObj o) <= 9998)%N.

(** The same operation with the same answer, except that the contents written to a file differ. *)
Inductive alike : event -> event -> Prop :=
| alike_same ev : alike ev ev
| alike_write p d d' r : alike (OpWrite p d, r) (OpWrite p d', r).
Definition same_steps (tr tr2 : trace) : Prop := Forall2 alike tr tr2.

(** All files but [p] are the same. *)
Definition agree_but (p : string) (w w2 : world) : Prop := forall q, q <> p -> sget q w = sget q w2.

(** Both succeed, or both fail, the list operation with the other's error, to which it may have
    added which plugin failed. *)
Definition same_outcome {A B} (ok : A -> B -> Prop) (r : res A) (r2 : res B) : Prop :=
  match r, r2 with
  | Ok a, Ok b => ok a b
  | Err e, Err e2 => e = e2 \/ exists m, e = EWrap m e2
  | Panic, Panic => True
  | _, _ => False
  end.

(** Every run of the first has its counterpart in the second. *)
Definition follows {A B} (fl : bool) (outcome : res A -> res B -> Prop) (entry : string)
    (p : prog (res A)) (q : prog (res B)) (w : world) : Prop :=
  forall tr w' r, runs fl p w tr w' r ->
  exists tr2 w2 r2, runs fl q w tr2 w2 r2 /\ same_steps tr tr2 /\ agree_but entry w' w2 /\ outcome r r2.
(** Each does what the other does; [p] is the operation on the list. *)
Definition alike_but {A B} (fl : bool) (ok : A -> B -> Prop) (entry : string)
    (p : prog (res A)) (q : prog (res B)) (w : world) : Prop :=
  follows fl (same_outcome ok) entry p q w /\ follows fl (fun r2 r => same_outcome ok r r2) entry q p w.
