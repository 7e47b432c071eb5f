(** Reading a configuration document. *)
From Coq Require Import String List NArith.
From Verif Require Import Model.GoStr Model.Json Model.GoJson Spec.JsonSpec Spec.VersionSpec.
Import ListNotations.
Open Scope string_scope.

(** The declared cniVersion of a document, "" if absent. *)
Definition declared_of (raw : smap json) : string :=
  match sget "cniVersion" raw with Some (JStr v) => v | _ => "" end.
(** The versions a document offers: those in cniVersions and the declared one. *)
Definition offered (raw : smap json) (rvs : list json) (v : string) : Prop :=
  In (JStr v) rvs \/ (v = declared_of raw /\ v <> "").

(** Values that can be placed in a request: valid text, bounded nesting. *)
Definition injectable (j : json) : Prop := jwf j /\ (jdepth j <= 9998)%N.
(** [y] is [x] after one trip through interface{} (see C10 for what that preserves). *)
Definition reencoded (x y : json) : Prop := norm x = Some y.
Definition reencoded_opt (x y : option json) : Prop :=
  match x, y with
  | Some a, Some b => reencoded a b
  | None, None => True
  | _, _ => False
  end.
(** Both decode to the same Go value. *)
Definition same_value (x y : json) : Prop := norm x = norm y.

(** The capability [k] is advertised as true by an object. *)
Definition advertises (o : list (string * json)) (k : string) : Prop :=
  at_path [Key "capabilities"; Key k] (JObj o) = Some (JBool true).
(** Every member that encoding/json would match with [field] is spelt exactly so. *)
Definition only_spelling (field : string) (o : list (string * json)) : Prop :=
  forall k v, In (k, v) o -> key_is field k = true -> k = field.

(** *** What a plugin configuration may contain

    [key_is f k]: encoding/json matches the key [k] with the field named [f]. *)
Definition text_or_null (j : json) : Prop := j = JNull \/ exists s, j = JStr s.
Definition list_or_null (elem : json -> Prop) (j : json) : Prop :=
  j = JNull \/ exists l, j = JArr l /\ Forall elem l.
Definition object_or_null (member : string -> json -> Prop) (j : json) : Prop :=
  j = JNull \/ exists l, j = JObj l /\ forall k v, In (k, v) l -> member k v.
Definition fields_ok (fields : list (string * (json -> Prop))) (k : string) (v : json) : Prop :=
  forall f P, In (f, P) fields -> key_is f k = true -> P v.
Definition dns_fields : list (string * (json -> Prop)) :=
  [("nameservers", list_or_null text_or_null); ("domain", text_or_null);
   ("search", list_or_null text_or_null); ("options", list_or_null text_or_null)].
Definition attachment_fields : list (string * (json -> Prop)) :=
  [("containerID", text_or_null); ("ifname", text_or_null)].
Definition plugin_fields : list (string * (json -> Prop)) :=
  [("cniVersion", text_or_null); ("name", text_or_null); ("type", text_or_null);
   ("capabilities", object_or_null (fun _ v => v = JNull \/ exists b, v = JBool b));
   ("ipam", object_or_null (fields_ok [("type", text_or_null)]));
   ("dns", object_or_null (fields_ok dns_fields));
   ("prevResult", object_or_null (fun _ v => exists y, reencoded v y));
   ("cni.dev/valid-attachments", list_or_null (object_or_null (fields_ok attachment_fields)))].
(** The value the decoder leaves in a string field: the last non-null one. *)
Definition says (field : string) (o : list (string * json)) (s : string) : Prop :=
  exists l1 k l2, o = (l1 ++ (k, JStr s) :: l2)%list /\ key_is field k = true /\
    forall k' v, In (k', v) l2 -> key_is field k' = true -> v = JNull.
(** A plugin configuration: an object, well-typed, with a non-empty type. *)
Definition plugin_object (j : json) : Prop :=
  exists o t, j = JObj o /\ (forall k v, In (k, v) o -> fields_ok plugin_fields k v) /\
    says "type" o t /\ t <> "".

(** A boolean option of a network configuration: absent is false; strings in any case. *)
Definition option_is (m : smap json) (key : string) (b : bool) : Prop :=
  match sget key m with
  | None => b = false
  | Some (JBool x) => b = x
  | Some (JStr s) => to_lower s = (if b then "true" else "false")
  | Some _ => False
  end.

(** The Go map a document decodes to: members deduplicated, numbers as float64 (C10). *)
Definition decodes_to (b : string) (m : smap json) : Prop :=
  exists o, parse b = Some (JObj o) /\ reencoded (JObj o) (JObj m).

(** A network configuration list that is accepted. *)
Definition acceptable (m : smap json) : Prop :=
  (exists n, sget "name" m = Some (JStr n)) /\
  (sget "cniVersion" m = None \/ exists v, sget "cniVersion" m = Some (JStr v)) /\
  (sget "cniVersions" m = None \/
   exists vs, sget "cniVersions" m = Some (JArr vs) /\
     Forall (fun j => exists v, j = JStr v /\ well_formed_version v) vs /\
     well_formed_version (declared_of m)) /\
  (exists b, option_is m "disableCheck" b) /\
  (exists b, option_is m "disableGC" b) /\
  (exists b, option_is m "loadOnlyInlinedPlugins" b) /\
  ((sget "plugins" m = None /\ option_is m "loadOnlyInlinedPlugins" false) \/
   (exists ps, sget "plugins" m = Some (JArr ps) /\ ps <> [] /\ Forall plugin_object ps)).

(** *** Loading from files: the first file that holds what is wanted, all before it loading. *)
Inductive first_loaded {A} (load : string -> A -> Prop) (wanted : A -> Prop) : list string -> A -> Prop :=
| first_here : forall f fs a, load f a -> wanted a -> first_loaded load wanted (f :: fs) a
| first_next : forall f fs x a, load f x -> ~ wanted x -> first_loaded load wanted fs a ->
    first_loaded load wanted (f :: fs) a.
Definition none_wanted {A} (load : string -> A -> Prop) (wanted : A -> Prop) (fs : list string) : Prop :=
  Forall (fun f => exists x, load f x /\ ~ wanted x) fs.
Definition ends_with (suffix s : string) : Prop := exists p, s = p ++ suffix.
