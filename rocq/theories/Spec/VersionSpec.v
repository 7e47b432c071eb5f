(** What version strings mean, in words a reader of the CNI documentation would use.
    Nothing here refers to the model's parser. *)
From Coq Require Import String Ascii List ZArith NArith.
Import ListNotations.
Open Scope string_scope.

Definition digit_is (c : ascii) (d : N) : Prop := (d <= 9)%N /\ N_of_ascii c = (48 + d)%N.

(** A non-empty run of decimal digits and its value. *)
Inductive decimal : string -> N -> Prop :=
| dec_one : forall c d, digit_is c d -> decimal (String c "") d
| dec_snoc : forall s n c d, decimal s n -> digit_is c d -> decimal (s ++ String c "") (10 * n + d).

Definition fits_int64 (z : Z) : Prop := (- 2 ^ 63 <= z < 2 ^ 63)%Z.

(** One part of a version: optional sign, decimal digits, value within int64. *)
Inductive part_means : string -> Z -> Prop :=
| part_plain : forall s n, decimal s n -> fits_int64 (Z.of_N n) -> part_means s (Z.of_N n)
| part_plus : forall s n, decimal s n -> fits_int64 (Z.of_N n) -> part_means ("+" ++ s) (Z.of_N n)
| part_minus : forall s n, decimal s n -> fits_int64 (- Z.of_N n) -> part_means ("-" ++ s) (- Z.of_N n).

(** A version string and the triple it stands for. *)
Inductive version_means : string -> Z * Z * Z -> Prop :=
| ver_empty : version_means "" (0, 1, 0)%Z
| ver_1 : forall a x, part_means a x -> version_means a (x, 0, 0)%Z
| ver_2 : forall a b x y, part_means a x -> part_means b y ->
    version_means (a ++ "." ++ b) (x, y, 0)%Z
| ver_3 : forall a b c x y z, part_means a x -> part_means b y -> part_means c z ->
    version_means (a ++ "." ++ b ++ "." ++ c) (x, y, z).

Definition well_formed_version (s : string) : Prop := exists t, version_means s t.

(** Numeric lexicographic order on triples. *)
Definition triple_gt (t u : Z * Z * Z) : Prop :=
  let '(a, b, c) := t in let '(a', b', c') := u in
  (a > a' \/ (a = a' /\ (b > b' \/ (b = b' /\ c > c'))))%Z.
Definition triple_ge (t u : Z * Z * Z) : Prop := triple_gt t u \/ t = u.

(** [ver_le a b]: both are well-formed and [a] is not above [b]. *)
Definition ver_le (a b : string) : Prop :=
  exists t u, version_means a t /\ version_means b u /\ triple_ge u t.

(** The version a string stands for is / is not at least [t]. *)
Definition at_least (s : string) (t : Z * Z * Z) : Prop := exists u, version_means s u /\ triple_ge u t.
Definition below (s : string) (t : Z * Z * Z) : Prop := exists u, version_means s u /\ triple_gt t u.
