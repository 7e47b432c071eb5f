(** C81: converting a result to a version in several steps. *)
From Coq Require Import String List Arith.
From Verif Require Import Model.GoStr Model.Errors Model.NetIP Model.Types Spec.TypesSpec.
Import ListNotations.
Open Scope nat_scope.
Open Scope string_scope.

(** The three forms a result comes in, oldest first: one address of each family (0.1.0, 0.2.0);
    interfaces and any number of addresses, each with a declared family (0.3.0 to 0.4.0); and the
    1.x form. *)
Definition level (v : string) : nat :=
  if mem_str v ["0.1.0"; "0.2.0"] then 0 else if mem_str v ["0.3.0"; "0.3.1"; "0.4.0"] then 1 else 2.

(** Converting to each version of a list in turn; the first failure is the outcome. *)
Fixpoint in_steps (r : result) (steps : list string) : res result :=
  match steps with
  | [] => Ok r
  | v :: rest => match get_as_version r v with Ok x => in_steps x rest | Err e => Err e | Panic => Panic end
  end.

(** A result whose declarations agree with its data: what is listed under a family is of that
    family, and, in the oldest form, there is an address and routes hold a destination and a
    gateway only. *)
Definition of_family (f : string) (o : option ipc020) : Prop :=
  match o with
  | Some c => family (n_ip (i2_ip c)) = f /\ forall q, In q (i2_routes c) -> family (n_ip (r_dst q)) = f /\ q = short q
  | None => True
  end.
Definition truthful (r : result) : Prop :=
  match r with
  | R020 r => of_family "4" (v2_ip4 r) /\ of_family "6" (v2_ip6 r) /\ (v2_ip4 r <> None \/ v2_ip6 r <> None)
  | R040 r => forall c, In (Some c) (v4_ips r) -> i4_version c = family (n_ip (i4_address c))
  | R100 _ => True
  end.

(** Never newer than the version before (or never older). *)
Fixpoint falling (v : string) (steps : list string) : Prop :=
  match steps with [] => True | w :: rest => level w <= level v /\ falling w rest end.
Fixpoint rising (v : string) (steps : list string) : Prop :=
  match steps with [] => True | w :: rest => level v <= level w /\ rising w rest end.
