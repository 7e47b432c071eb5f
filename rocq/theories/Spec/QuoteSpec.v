(** Text quoted inside messages: Go's interpreted string literals (The Go Programming Language
    Specification, "String literals"). *)
From Coq Require Import String Ascii List NArith.
From Verif Require Import Spec.NameSpec.
Import ListNotations.
Open Scope string_scope.

(** The one-letter escapes: what follows the backslash, and the byte meant. *)
Inductive simple_escape : ascii -> N -> Prop :=
| se_a : simple_escape "a" 7 | se_b : simple_escape "b" 8 | se_t : simple_escape "t" 9 | se_n : simple_escape "n" 10
| se_v : simple_escape "v" 11 | se_f : simple_escape "f" 12 | se_r : simple_escape "r" 13
| se_quote : simple_escape """" 34 | se_backslash : simple_escape "\" 92.
Definition hex_value (c : ascii) (d : N) : Prop := String.get (N.to_nat d) "0123456789abcdef" = Some c.
(** Bytes written in hexadecimal: those that do not print and have no one-letter escape. *)
Definition hex_only (c : ascii) : Prop := ~ (32 <= byte c <= 126)%N /\ forall e, ~ simple_escape e (byte c).
(** [literal t s]: between quotation marks, [t] stands for the bytes [s]. *)
Inductive literal : string -> string -> Prop :=
| lit_end : literal "" ""
| lit_itself : forall c t s, byte c <> 34%N -> byte c <> 92%N -> byte c <> 10%N -> literal t s -> literal (String c t) (String c s)
| lit_escape : forall e c t s, simple_escape e (byte c) -> literal t s -> literal (String "\" (String e t)) (String c s)
| lit_hex : forall a b hi lo c t s, hex_value a hi -> hex_value b lo -> byte c = (16 * hi + lo)%N -> hex_only c -> literal t s ->
    literal (String "\" (String "x" (String a (String b t)))) (String c s).

(** Printable ASCII without quotation marks and backslashes stands for itself. *)
Definition plain_text (s : string) : Prop := all_bytes (fun c => (32 <= byte c <= 126)%N /\ byte c <> 34%N /\ byte c <> 92%N) s.
Definition in_quotes (s : string) : string := """" ++ s ++ """".
(** [q] is the text [s] in quotation marks. *)
Definition quotes (q s : string) : Prop :=
  (exists t, q = in_quotes t /\ literal t s) /\ (plain_text s -> q = in_quotes s) /\
  all_bytes (fun c => (32 <= byte c)%N /\ byte c <> 127%N) q.
