(** Operations of every kind at once (C77). *)
From Coq Require Import String List Bool.
From Verif Require Import Model.GoStr Model.Errors Model.Json Model.Types Model.Conf Model.Prog Model.Api
  Spec.RunSpec Spec.CacheSpec Spec.HistSpec Spec.MapSpec Spec.CollectSpec.
Import ListNotations.
Open Scope string_scope.

(** [p] is the entry of an attachment that one of the collections among [acts] is to collect. *)
Definition doomed (c : cni) (acts : list action) (w : world) (p : string) : Prop :=
  exists l args, In (Gc l args) acts /\ condemned c l args w p.
(** [acts] may be started together at [w]: no two are about the same attachment, none about one
    that is being collected; and an ADD is of an attachment all collections know, with text that
    JSON can carry. *)
Definition together (c : cni) (acts : list action) (w : world) : Prop :=
  (forall i j a b p, i <> j -> nth_error acts i = Some a -> nth_error acts j = Some b -> at_entry c a p -> ~ at_entry c b p) /\
  (forall a p, In a acts -> at_entry c a p -> ~ doomed c acts w p) /\
  (forall a, In a acts -> carries a) /\
  (forall l args a name rt, In (Gc l args) acts -> In a acts -> is_add a -> about a = Some (name, rt) -> known l args name rt).

(** No operation of [acts] concerns the file [p]. *)
Definition left_alone (c : cni) (acts : list action) (w : world) (p : string) : Prop :=
  (forall a, In a acts -> ~ at_entry c a p) /\ ~ doomed c acts w p.
(** What an ADD says of its attachment: network, parameters and configuration. *)
Definition adds (b : action) : option (string * runtime_conf * string) :=
  match b with
  | AddList l rt => Some (nl_name l, rt, nl_bytes l)
  | AddOne n rt => Some (pc_name (pg_conf n), rt, pg_bytes n)
  | _ => None
  end.
(** [a] is the attachment of the ADD [b], as a listing shows it. *)
Definition recorded_by (b : action) (a : attachment) : Prop :=
  exists name rt config caps, adds b = Some (name, rt, config) /\ caps_as rt caps /\
    a = {| at_container := rt_container rt; at_network := name; at_ifname := rt_ifname rt; at_config := config;
           at_netns := rt_netns rt; at_args := rt_args rt; at_caps := caps |}.
(** A listing may show [a] for file [n]: so it was at the start, or an ADD under way is of it. *)
Definition may_list (c : cni) (acts : list action) (w : world) (id n : string) (a : attachment) : Prop :=
  to_list c id w n a \/
  exists b, In b acts /\ at_entry c b (results_dir c ++ "/" ++ n) /\ recorded_by b a /\ (id = "" \/ at_container a = id).
