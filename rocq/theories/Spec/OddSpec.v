(** Runtime parameters that are not UTF-8 (C78). *)
From Coq Require Import String List.
From Verif Require Import Model.GoStr Model.Json Model.Conf Model.Api Spec.NameSpec Spec.JsonSpec.
Import ListNotations.

(** [rt'] is [rt] after a trip through the cache: in interface name, namespace and CNI arguments
    each byte that is no part of a UTF-8 character has become U+FFFD. *)
Definition mended_rt (rt rt' : runtime_conf) : Prop :=
  mended_text (rt_container rt) (rt_container rt') /\ mended_text (rt_ifname rt) (rt_ifname rt') /\
  mended_text (rt_netns rt) (rt_netns rt') /\
  Forall2 (fun a b => mended_text (fst a) (fst b) /\ mended_text (snd a) (snd b)) (rt_args rt) (rt_args rt') /\
  rt_caps rt' = rt_caps rt /\ rt_cache_dir rt' = rt_cache_dir rt.
