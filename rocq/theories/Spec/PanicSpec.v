(** When converting a result dereferences a nil entry (C38, C34): a specification that does not
    mention the conversion functions. *)
From Coq Require Import String List.
From Verif Require Import Model.Types Spec.TypesSpec.
Import ListNotations.
Open Scope string_scope.

(** An address of the given family ("4" or "6") is among the entries of a 0.3.0-0.4.0 result. *)
Definition lists_family (f : string) (l : list (option ipc040)) : Prop :=
  exists c, In (Some c) l /\ i4_version c = f.
(** A nil address comes before both families have been seen. *)
Definition nil_too_early (l : list (option ipc040)) : Prop :=
  exists l1 l2, l = (l1 ++ None :: l2)%list /\ ~ (lists_family "4" l1 /\ lists_family "6" l1).
(** Converting [r] to version [v] meets a nil entry. *)
Definition meets_nil (r : result) (v : string) : Prop :=
  match r with
  | R020 _ => False
  | R040 r =>
      (In v ["1.0.0"; "1.1.0"] /\ (In None (v4_interfaces r) \/ In None (v4_ips r))) \/
      (old_version v /\ (nil_too_early (v4_ips r) \/ In None (v4_routes r)))
  | R100 r =>
      (In v ["0.3.0"; "0.3.1"; "0.4.0"] /\ (In None (v1_interfaces r) \/ In None (v1_ips r))) \/
      (old_version v /\ (In None (v1_interfaces r) \/ In None (v1_ips r) \/ In None (v1_routes r)))
  end.
