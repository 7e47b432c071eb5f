(** The JSON grammar (RFC 8259): which texts are documents and what they say. *)
From Coq Require Import String Ascii List NArith.
From Verif Require Import Model.Json Spec.NameSpec Spec.JsonSpec.
Import ListNotations.
Open Scope string_scope.

(** White space: blanks, tabs, line feeds, carriage returns. *)
Definition blank (s : string) : Prop := forall c, In c (list_ascii_of_string s) -> In (N_of_ascii c) [32; 9; 10; 13]%N.
(** Hexadecimal digits of either case, and four of them. *)
Definition hex_digit_is (c : ascii) (n : N) : Prop :=
  ((48 <= N_of_ascii c <= 57 /\ n = N_of_ascii c - 48) \/ (65 <= N_of_ascii c <= 70 /\ n = N_of_ascii c - 55) \/
   (97 <= N_of_ascii c <= 102 /\ n = N_of_ascii c - 87))%N.
Definition hex_four (s : string) (u : N) : Prop :=
  exists a b c d x y z w, s = String a (String b (String c (String d ""))) /\
    hex_digit_is a x /\ hex_digit_is b y /\ hex_digit_is c z /\ hex_digit_is d w /\ u = (((x * 16 + y) * 16 + z) * 16 + w)%N.
(** Halves of a surrogate pair. *)
Definition high (u : N) : Prop := (55296 <= u < 56320)%N.
Definition low (u : N) : Prop := (56320 <= u < 57344)%N.
(** The character an escape of two characters stands for. *)
Definition escaped (e c : ascii) : Prop :=
  In (e, N_of_ascii c) [(""""%char, 34); ("\"%char, 92); ("/"%char, 47); ("b"%char, 8); ("f"%char, 12); ("n"%char, 10); ("r"%char, 13); ("t"%char, 9)]%N.
Definition quoted (s : string) : string := """" ++ s ++ """".
(** The characters of a string literal and the text they stand for.  Where RFC 8259 leaves it open,
    an unpaired half of a surrogate pair and a byte that is no part of a UTF-8 character stand for U+FFFD. *)
Inductive spells : string -> string -> Prop :=
| ch_none : spells "" ""
| ch_one r s t : scalar r -> (32 <= r)%N -> r <> 34%N -> r <> 92%N -> spells s t -> spells (utf8 r ++ s) (utf8 r ++ t)
| ch_escape e c s t : escaped e c -> spells s t -> spells (String "\" (String e s)) (String c t)
| ch_code h u s t : hex_four h u -> scalar u -> spells s t -> spells ("\u" ++ h ++ s) (utf8 u ++ t)
| ch_pair h1 h2 u1 u2 s t : hex_four h1 u1 -> hex_four h2 u2 -> high u1 -> low u2 -> spells s t ->
    spells ("\u" ++ h1 ++ "\u" ++ h2 ++ s) (utf8 (65536 + (u1 - 55296) * 1024 + (u2 - 56320)) ++ t)
| ch_lone h u s t : hex_four h u -> ~ scalar u -> (forall h2 u2 s', s = "\u" ++ h2 ++ s' -> hex_four h2 u2 -> ~ (high u /\ low u2)) ->
    spells s t -> spells ("\u" ++ h ++ s) (utf8 65533 ++ t)
| ch_bad c s t : (forall r t, scalar r -> String c s <> utf8 r ++ t) -> spells s t -> spells (String c s) (utf8 65533 ++ t).

(** Values; the elements of an array and the members of an object with the white space around them.  A
    member keeps its place, and members of one name are all there. *)
Inductive value : string -> json -> Prop :=
| va_null : value "null" JNull
| va_true : value "true" (JBool true)
| va_false : value "false" (JBool false)
| va_num l : number_lit l -> value l (JNum l)
| va_str s t : spells s t -> value (quoted s) (JStr t)
| va_no_elements w : blank w -> value ("[" ++ w ++ "]") (JArr [])
| va_arr s l : elements s l -> value ("[" ++ s ++ "]") (JArr l)
| va_no_members w : blank w -> value ("{" ++ w ++ "}") (JObj [])
| va_obj s l : members s l -> value ("{" ++ s ++ "}") (JObj l)
with elements : string -> list json -> Prop :=
| el_one w1 s w2 j : blank w1 -> value s j -> blank w2 -> elements (w1 ++ s ++ w2) [j]
| el_more w1 s w2 j rest l : blank w1 -> value s j -> blank w2 -> elements rest l -> elements (w1 ++ s ++ w2 ++ "," ++ rest) (j :: l)
with members : string -> list (string * json) -> Prop :=
| mb_one w1 k key w2 w3 s w4 j : blank w1 -> spells k key -> blank w2 -> blank w3 -> value s j -> blank w4 ->
    members (w1 ++ quoted k ++ w2 ++ ":" ++ w3 ++ s ++ w4) [(key, j)]
| mb_more w1 k key w2 w3 s w4 j rest l : blank w1 -> spells k key -> blank w2 -> blank w3 -> value s j -> blank w4 -> members rest l ->
    members (w1 ++ quoted k ++ w2 ++ ":" ++ w3 ++ s ++ w4 ++ "," ++ rest) ((key, j) :: l).
(** A document: one value, nested at most ten thousand deep. *)
Definition json_text (s : string) (j : json) : Prop :=
  exists w1 v w2, s = w1 ++ v ++ w2 /\ blank w1 /\ value v j /\ blank w2 /\ (jdepth j <= 10000)%N.
