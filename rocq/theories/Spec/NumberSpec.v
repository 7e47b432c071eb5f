(** Numbers: the real number a JSON literal denotes (RFC 8259 section 6), and the float64 a real
    number is rounded to (IEEE 754 binary64, round to nearest, ties to even, as Flocq defines it). *)
From Coq Require Import String Ascii List ZArith Reals.
From Flocq Require Import Core.
From Verif Require Import Model.Json Spec.JsonSpec.
Open Scope string_scope.

Definition ten : radix := Build_radix 10 (eq_refl true).

(** The number written by a row of decimal digits. *)
Fixpoint row (acc : Z) (s : string) : Z :=
  match s with
  | EmptyString => acc
  | String c s' => row (10 * acc + (Z.of_nat (nat_of_ascii c) - 48)) s'
  end.

Definition sign_value (a : string) : R := if String.eqb a "-" then (-1)%R else 1%R.
Definition frac_value (c : string) (v : R) : Prop :=
  (c = "" /\ v = 0%R) \/
  exists d, some_digits d /\ c = "." ++ d /\ v = (IZR (row 0 d) * bpow ten (- Z.of_nat (String.length d)))%R.
Definition exp_value_is (d : string) (e : Z) : Prop :=
  (d = "" /\ e = 0%Z) \/
  exists c sg ds, (c = "e" \/ c = "E") /\ some_digits ds /\ d = c ++ sg ++ ds /\
    (((sg = "" \/ sg = "+") /\ e = row 0 ds) \/ (sg = "-" /\ e = (- row 0 ds)%Z)).

(** [denotes l x]: the literal [l] is sign, integer part, fraction and exponent, and [x] is the
    number they write. *)
Definition denotes (l : string) (x : R) : Prop :=
  exists a b c d f e,
    sign_opt a /\ int_lit b /\ frac_value c f /\ exp_value_is d e /\
    l = a ++ b ++ c ++ d /\
    x = (sign_value a * (IZR (row 0 b) + f) * bpow ten e)%R.

(** The nearest float64, were the exponent unbounded above; it is infinite when that is 2^1024
    or more. *)
Definition float64 (x : R) : R := round radix2 (FLT_exp (-1074) 53) ZnearestE x.
Definition out_of_range (x : R) : Prop := (bpow radix2 1024 <= Rabs (float64 x))%R.
(** The smallest positive normal float64. *)
Definition smallest_normal : R := bpow radix2 (-1022).

(** [y] can be written with [k] significant decimal digits. *)
Definition in_digits (k : nat) (y : R) : Prop :=
  exists (c e : Z), (Z.abs c < 10 ^ Z.of_nat k)%Z /\ y = (IZR c * bpow ten e)%R.

Definition negative (l : string) : Prop := exists l', l = "-" ++ l'.

(** A number literal anywhere in a document, hidden duplicate members included. *)
Inductive mentions (l : string) : json -> Prop :=
| m_here : mentions l (JNum l)
| m_arr x xs : In x xs -> mentions l x -> mentions l (JArr xs)
| m_obj k x m : In (k, x) m -> mentions l x -> mentions l (JObj m).

(** [k] is the number of significant digits of [y]. *)
Definition fewest (k : nat) (y : R) : Prop := in_digits k y /\ forall k', (k' < k)%nat -> ~ in_digits k' y.

(** [z] is a best way of writing the float64 [x]: it reads back as [x], nothing shorter does, and
    nothing as short that does is nearer. *)
Definition best (z x : R) : Prop :=
  float64 z = x /\
  (forall k y, in_digits k y -> float64 y = x -> in_digits k z) /\
  (forall k, fewest k z -> forall y, in_digits k y -> float64 y = x -> (Rabs (z - x) <= Rabs (y - x))%R).

(** Exponent notation. *)
Definition with_exponent (t : string) : Prop := exists a b, t = a ++ "e" ++ b.
