(** Error documents (C47): what a plugin's diagnostic output says. *)
From Coq Require Import String List NArith.
From Verif Require Import Model.GoStr Model.Json Model.GoJson Spec.VersionSpec Spec.JsonSpec Spec.ConfSpec Spec.QuoteSpec.
Import ListNotations.
Open Scope string_scope.

(** The last member of that name with a usable value decides; without one the zero value. *)
Definition gives {A} (field : string) (value : json -> A -> Prop) (zero : A) (o : list (string * json)) (a : A) : Prop :=
  (exists l1 k v l2, o = (l1 ++ (k, v) :: l2)%list /\ key_is field k = true /\ value v a /\
     forall k' v' b, In (k', v') l2 -> key_is field k' = true -> ~ value v' b) \/
  (a = zero /\ forall k v b, In (k, v) o -> key_is field k = true -> ~ value v b).
(** A code: decimal digits, below 2^64. *)
Definition code_value (v : json) (c : N) : Prop := exists s, v = JNum s /\ decimal s c /\ (c < 2 ^ 64)%N.
Definition text_value (v : json) (s : string) : Prop := v = JStr s.
(** A well-typed error document. *)
Definition error_fields : list (string * (json -> Prop)) :=
  [("code", fun v => v = JNull \/ exists c, code_value v c); ("msg", text_or_null); ("details", text_or_null)].
Definition error_document (o : list (string * json)) : Prop := forall k v, In (k, v) o -> fields_ok error_fields k v.
(** The message for other output quotes it. *)
Definition quotes_output (out m : string) : Prop :=
  exists q why, quotes q out /\ m = "netplugin failed but error parsing its diagnostic message " ++ q ++ ": " ++ why.
