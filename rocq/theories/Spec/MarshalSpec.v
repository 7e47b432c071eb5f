(** Plugin configurations that JSON carries unchanged (C64). *)
From Coq Require Import String List NArith.
From Verif Require Import Model.GoStr Model.Json Model.GoJson Model.Types Model.Conf Spec.NameSpec Spec.JsonSpec Spec.TypesSpec Spec.ConfSpec.
Import ListNotations.

(** All text is valid UTF-8, maps are maps, a previous result is a non-empty object whose numbers
    are in the form a float64 prints as, and nesting stays within the decoder's limit. *)
Definition carried_conf (c : plugin_conf) : Prop :=
  well_formed_text (pc_version c) /\ well_formed_text (pc_name c) /\ well_formed_text (pc_type c) /\
  well_formed_text (pc_ipam c) /\ wf_dns (pc_dns c) /\
  ssorted (pc_caps c) /\ Forall (fun kv => well_formed_text (fst kv)) (pc_caps c) /\
  Forall (fun a => well_formed_text (ga_container a) /\ well_formed_text (ga_ifname a)) (pc_valid c) /\
  match pc_prev c with
  | None => True
  | Some m => m <> [] /\ reencoded (JObj m) (JObj m) /\ jwf (JObj m) /\ (jdepth (JObj m) <= 9999)%N
  end.
(** [c] with an empty previous result taken as none. *)
Definition same_but_empty_prev (c c' : plugin_conf) : Prop :=
  c' = {| pc_version := pc_version c; pc_name := pc_name c; pc_type := pc_type c; pc_caps := pc_caps c;
          pc_ipam := pc_ipam c; pc_dns := pc_dns c;
          pc_prev := match pc_prev c with Some [] => None | p => p end; pc_valid := pc_valid c |}.
