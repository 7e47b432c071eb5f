(** What a Copy method promises (C63). *)
From Coq Require Import String List Bool Arith.
From Verif Require Import Model.Errors Model.Heap Spec.AliasSpec.
Import ListNotations.

(** [rd p h]: the value of the object [p] in memory [h], the locations [own] of its structs, arrays
    and ints, and those of its address bytes.  Copying succeeds and leaves the original as it is;
    the copy has the same value; only address bytes are shared: whatever is written to the copy's
    own memory, the original keeps its value, and conversely. *)
Definition copies {A B} (rd : A -> reader B) (copy : A -> hm A) : Prop :=
  forall h p b own addr, rd p h = Some (b, own, addr) ->
  exists h' q own' addr', copy p h = Ok (h', q) /\ rd q h' = Some (b, own', addr') /\ rd p h' = Some (b, own, addr) /\
    incl addr' addr /\
    (forall h2, writes own' h' h2 -> rd p h2 = Some (b, own, addr)) /\
    (forall h2, writes own h' h2 -> rd q h2 = Some (b, own', addr')).
