(** Looking at an attachment while it is being changed (C82). *)
From Coq Require Import String List Bool.
From Verif Require Import Model.GoStr Model.Errors Model.Types Model.Conf Model.Prog Model.Api
  Spec.RunSpec Spec.CacheSpec Spec.HistSpec Spec.MapSpec Spec.CollectSpec Spec.CrowdSpec.
Import ListNotations.
Open Scope string_scope.

(** The operations that look an attachment up in the cache and change nothing there. *)
Definition looks (a : action) : Prop :=
  match a with
  | ListResult _ _ | OneResult _ _ | ListConfig _ _ | OneConfig _ _ | CheckList _ _ | CheckOne _ _ => True
  | _ => False
  end.
Definition asks_config (a : action) : Prop := match a with ListConfig _ _ | OneConfig _ _ => True | _ => False end.

(** The same operations without the lookers (a question to the empty plugin name takes their place). *)
Definition unless_looking (a : action) : action :=
  match a with
  | ListResult _ _ | OneResult _ _ | ListConfig _ _ | OneConfig _ _ | CheckList _ _ | CheckOne _ _ => VersionInfo ""
  | a => a
  end.

(** [acts] may be started together at [w]: as for C77, but any number of queries and CHECKs may be
    about attachments that others are adding, deleting or collecting. *)
Definition company (c : cni) (acts : list action) (w : world) : Prop :=
  (forall i j a b p, i <> j -> nth_error acts i = Some a -> nth_error acts j = Some b -> ~ looks a -> ~ looks b -> at_entry c a p -> ~ at_entry c b p) /\
  (forall a p, In a acts -> ~ looks a -> at_entry c a p -> ~ doomed c acts w p) /\
  (forall a, In a acts -> carries a) /\
  (forall l args a name rt, In (Gc l args) acts -> In a acts -> is_add a -> about a = Some (name, rt) -> known l args name rt).

(** The file system is [u] after the first [k] steps. *)
Definition moment (fl : bool) (ps : list (prog (res value))) (w : world) (tr : list (nat * event)) (w' : world) (rest : list (prog (res value)))
    (k : nat) (u : world) : Prop :=
  exists qs, interleaves fl ps w (firstn k tr) u qs /\ interleaves fl qs u (skipn k tr) w' rest.

(** Run alone at [u], where it changes nothing, the operation [a] may return [v] and run the plugins
    as in [seen]. *)
Definition alone (fl : bool) (c : cni) (a : action) (u : world) (seen : trace) (v : res value) : Prop :=
  exists t, runs fl (performs c a) u t u v /\ calls t = calls seen.
