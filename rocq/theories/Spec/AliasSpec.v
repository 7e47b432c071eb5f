(** Results as objects in memory, for C55. *)
From Coq Require Import String List Bool Arith.
From Verif Require Import Model.Errors Model.Types Model.Heap.
Import ListNotations.
Open Scope string_scope.

(** [p] points to a result whose value is [r].  [own] are the locations of its struct and of all
    structs, arrays and ints reachable from it, [addr] those of the bytes of its addresses
    (net.IP, net.IPMask). *)
Definition object (h : heap) (p : loc) (r : result) (own addr : list loc) : Prop := rd_result p h = Some (r, own, addr).
(** The value of the result at [p]; None if there is none. *)
Definition value_at (h : heap) (p : loc) : option result := option_map (fun x => fst (fst x)) (rd_result p h).
(** [h2] comes from [h] by writing anything at the locations [ls], and allocating. *)
Definition writes (ls : list loc) (h h2 : heap) : Prop :=
  forall l, l < List.length h -> ~ In l ls -> nth_error h2 l = nth_error h l.
(** The version a result counts as, and the version a request asks for. *)
Definition has_version (r : result) (v : string) : Prop :=
  v = match result_version r with
      | "" => match r with R020 _ => "0.2.0" | R040 _ => "0.4.0" | R100 _ => "1.1.0" end
      | w => w
      end.
Definition asks_version (v w : string) : Prop := w = match v with "" => "0.1.0" | _ => v end.
Definition version_1 (v : string) : Prop := v = "1.0.0" \/ v = "1.1.0".
(** A conversion that is more than a relabelling: neither to the same version, nor from one 1.x
    version to the other. *)
Definition different_format (r : result) (v : string) : Prop :=
  exists a b, has_version r a /\ asks_version v b /\ a <> b /\ ~ (version_1 a /\ version_1 b).
