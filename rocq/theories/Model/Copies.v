(** The Copy methods of the 1.x package, as heap programs (those of the other packages are in
    Model/Heap.v, where the converters use them). *)
From Coq Require Import String List Bool ZArith.
From Verif Require Import Model.GoStr Model.Errors Model.NetIP Model.Types Model.Heap.
Import ListNotations.
Open Scope string_scope.

(** types100.Interface.Copy (pkg/types/100/types.go:283-289): newIntf := *i. *)
Definition copy_if1_at (l : loc) : hm loc :=
  run c := load l in match c with CIf1 i => alloc (CIf1 i) | _ => hpanic end.
(** types100.IPConfig.Copy (pkg/types/100/types.go:309-322). *)
Definition copy_ipc1_at (l : loc) : hm loc :=
  run c := load l in
  match c with
  | CIpc1 c => run n := copy_int (h1_interface c) in
      alloc (CIpc1 {| h1_interface := n; h1_address := h1_address c; h1_gateway := h1_gateway c |})
  | _ => hpanic
  end.
