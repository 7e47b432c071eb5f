(** The typed accessors of the three result packages: GetResult and NewResultFromResult. *)
From Coq Require Import String List Bool ZArith.
From Verif Require Import Model.GoStr Model.Errors Model.Types.
Import ListNotations.
Open Scope string_scope.

(** types020.GetResult (pkg/types/020/types.go:64-75): Convert, not GetAsVersion, so an empty
    CNIVersion is not filled in. *)
Definition get_result020 (r : result) : res res020 :=
  let! x := convert r "0.2.0" in
  match x with R020 y => Ok y | _ => Err (EMsg "failed to convert result") end.
(** types040.GetResult (pkg/types/040/types.go:65-75). *)
Definition get_result040 (r : result) : res res040 :=
  let! x := get_as_version r "0.4.0" in
  match x with R040 y => Ok y | _ => Err (EMsg "failed to convert result") end.
(** types100.GetResult (pkg/types/100/types.go:69-79); the ImplementedSpecVersion is 1.1.0. *)
Definition get_result100 (r : result) : res res100 :=
  let! x := get_as_version r "1.1.0" in
  match x with R100 y => Ok y | _ => Err (EMsg "failed to convert result") end.
(** types040.NewResultFromResult (pkg/types/040/types.go:77-83): an unchecked type assertion. *)
Definition new_result_from_result040 (r : result) : res res040 :=
  let! x := convert r "0.4.0" in
  match x with R040 y => Ok y | _ => Panic end.
(** types100.NewResultFromResult (pkg/types/100/types.go:81-87). *)
Definition new_result_from_result100 (r : result) : res res100 :=
  let! x := convert r "1.1.0" in
  match x with R100 y => Ok y | _ => Panic end.
