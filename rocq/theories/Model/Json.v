(** JSON text as read and written by Go's encoding/json (Go 1.21).

    The repository has no JSON code of its own: every use below goes through
    json.Unmarshal, json.Marshal, json.MarshalIndent or json.Encoder
    (libcni/api.go, libcni/conf.go, pkg/types, pkg/invoke, pkg/skel, pkg/version).
    This file models the byte-level scanner and encoder; decoding into Go values is in
    [Model.GoJson]. *)
From Coq Require Import String Ascii List Arith NArith Bool.
From Verif Require Import Model.GoStr Model.Utf8.
Import ListNotations.
Open Scope string_scope.

(** A JSON document: numbers keep their literal text, object members keep document order and
    duplicates (what a Go map or struct makes of them is decided by the decoder). *)
Inductive json : Type :=
| JNull
| JBool (b : bool)
| JNum (lit : string)
| JStr (s : string)
| JArr (l : list json)
| JObj (l : list (string * json)).

(** ** Scanner *)

(** isSpace. *)
Definition is_ws (c : ascii) : bool :=
  Ascii.eqb c " "%char || Ascii.eqb c (chr 9) || Ascii.eqb c (chr 13) || Ascii.eqb c (chr 10).
Fixpoint skip_ws (s : string) : string :=
  match s with
  | String c s' => if is_ws c then skip_ws s' else s
  | EmptyString => EmptyString
  end.

Fixpoint span_digits (s : string) : string * string :=
  match s with
  | String c s' =>
      if is_digit c then let '(d, r) := span_digits s' in (String c d, r) else ("", s)
  | EmptyString => ("", "")
  end.

(** Number literal: -?(0|[1-9][0-9]* )(.[0-9]+)?([eE][+-]?[0-9]+)?; longest match, and once
    '.' or 'e' is seen the digits must follow (states of json/scanner.go). *)
Definition scan_int (s : string) : option (string * string) :=
  match s with
  | String c s' =>
      if Ascii.eqb c "0"%char then Some ("0", s')
      else if is_digit c then let '(d, r) := span_digits s' in Some (String c d, r)
      else None
  | EmptyString => None
  end.
Definition scan_frac (s : string) : option (string * string) :=
  match s with
  | String c s' =>
      if Ascii.eqb c "."%char then
        let '(d, r) := span_digits s' in
        if String.eqb d "" then None else Some (String c d, r)
      else Some ("", s)
  | EmptyString => Some ("", s)
  end.
Definition scan_sign (s : string) : string * string :=
  match s with
  | String c s' =>
      if Ascii.eqb c "+"%char || Ascii.eqb c "-"%char then (String c "", s') else ("", s)
  | EmptyString => ("", s)
  end.
Definition scan_exp (s : string) : option (string * string) :=
  match s with
  | String c s' =>
      if Ascii.eqb c "e"%char || Ascii.eqb c "E"%char then
        let '(sg, r0) := scan_sign s' in
        let '(d, r) := span_digits r0 in
        if String.eqb d "" then None else Some (String c (sg ++ d), r)
      else Some ("", s)
  | EmptyString => Some ("", s)
  end.
Definition scan_minus (s : string) : string * string :=
  match s with
  | String c s' => if Ascii.eqb c "-"%char then ("-", s') else ("", s)
  | EmptyString => ("", s)
  end.
Definition scan_num (s : string) : option (string * string) :=
  let '(m, s0) := scan_minus s in
  match scan_int s0 with
  | None => None
  | Some (i, s1) =>
      match scan_frac s1 with
      | None => None
      | Some (fr, s2) =>
          match scan_exp s2 with
          | None => None
          | Some (e, s3) => Some (m ++ i ++ fr ++ e, s3)
          end
      end
  end.

(** A complete number literal. *)
Definition valid_number (l : string) : bool :=
  match scan_num l with Some (_, "") => true | _ => false end.

(** ** Strings *)

Definition hex_val (c : ascii) : option N :=
  let n := code c in
  if is_digit c then Some (n - 48)%N
  else if ((97 <=? n) && (n <=? 102))%N then Some (n - 87)%N
  else if ((65 <=? n) && (n <=? 70))%N then Some (n - 55)%N
  else None.

(** getu4: four hexadecimal digits. *)
Definition hex4 (s : string) : option (N * string) :=
  match s with
  | String a (String b (String c (String d r))) =>
      match hex_val a, hex_val b, hex_val c, hex_val d with
      | Some x, Some y, Some z, Some w => Some (x * 4096 + y * 256 + z * 16 + w, r)%N
      | _, _, _, _ => None
      end
  | _ => None
  end.

(** utf16.IsSurrogate and utf16.DecodeRune. *)
Definition is_surrogate (u : N) : bool := ((55296 <=? u) && (u <=? 57343))%N.
Definition is_high (u : N) : bool := ((55296 <=? u) && (u <=? 56319))%N.
Definition is_low (u : N) : bool := ((56320 <=? u) && (u <=? 57343))%N.
Definition decode_pair (u1 u2 : N) : N := ((u1 - 55296) * 1024 + (u2 - 56320) + 65536)%N.

(** The second half of a surrogate pair: \uDC00-\uDFFF directly after [u]. *)
Definition low_half (u : N) (s : string) : option (N * string) :=
  match s with
  | String b (String x r) =>
      if Ascii.eqb b "\"%char && Ascii.eqb x "u"%char then
        match hex4 r with
        | Some (u2, r2) => if is_high u && is_low u2 then Some (decode_pair u u2, r2) else None
        | None => None
        end
      else None
  | _ => None
  end.

(** Single-character escapes of unquote. *)
Definition simple_escape (e : ascii) : option ascii :=
  if Ascii.eqb e """"%char then Some """"%char
  else if Ascii.eqb e "\"%char then Some "\"%char
  else if Ascii.eqb e "/"%char then Some "/"%char
  else if Ascii.eqb e "b"%char then Some (chr 8)
  else if Ascii.eqb e "f"%char then Some (chr 12)
  else if Ascii.eqb e "n"%char then Some (chr 10)
  else if Ascii.eqb e "r"%char then Some (chr 13)
  else if Ascii.eqb e "t"%char then Some (chr 9)
  else None.

Definition repl : string := encode_rune rune_error.

Definition pcons (h : string) (r : option (string * string)) : option (string * string) :=
  match r with Some (s, rest) => Some (h ++ s, rest) | None => None end.

(** String contents and closing quote, unquoted (decode.go: unquoteBytes; scanner.go:
    stateInString...).  Malformed UTF-8 is replaced byte by byte by U+FFFD. *)
Fixpoint parse_str (fuel : nat) (s : string) : option (string * string) :=
  match fuel with
  | O => None
  | S f =>
      match s with
      | EmptyString => None
      | String c r =>
          if Ascii.eqb c """"%char then Some ("", r)
          else if Ascii.eqb c "\"%char then
            match r with
            | EmptyString => None
            | String e r2 =>
                if Ascii.eqb e "u"%char then
                  match hex4 r2 with
                  | None => None
                  | Some (u, r3) =>
                      if is_surrogate u then
                        match low_half u r3 with
                        | Some (rn, r5) => pcons (encode_rune rn) (parse_str f r5)
                        | None => pcons repl (parse_str f r3)
                        end
                      else pcons (encode_rune u) (parse_str f r3)
                  end
                else
                  match simple_escape e with
                  | Some b => pcons (String b "") (parse_str f r2)
                  | None => None
                  end
            end
          else if (code c <? 32)%N then None
          else match utf8_len s with
               | O => pcons repl (parse_str f r)
               | w => pcons (stake w s) (parse_str f (sdrop w s))
               end
      end
  end.

(** A string literal after its opening quote. *)
Definition scan_str (s : string) : option (string * string) := parse_str (String.length s) s.

(** The literals true, false, null. *)
Definition scan_lit (lit : string) (s : string) : option string :=
  if String.prefix lit s then Some (sdrop (String.length lit) s) else None.

(** ** Values
    [depth] counts down from maxNestingDepth; [fuel] is bounded by the input length
    (see [parse_fuel_enough] in Proofs). *)
Fixpoint pval (fuel : nat) (depth : N) (s : string) : option (json * string) :=
  match fuel with
  | O => None
  | S f =>
      match skip_ws s with
      | EmptyString => None
      | String c r =>
          if Ascii.eqb c """"%char then
            match scan_str r with Some (t, r') => Some (JStr t, r') | None => None end
          else if Ascii.eqb c "{"%char then
            if (depth =? 0)%N then None else
            match skip_ws r with
            | String d r1 =>
                if Ascii.eqb d "}"%char then Some (JObj [], r1)
                else match pobj f (N.pred depth) (String d r1) with
                     | Some (l, r') => Some (JObj l, r')
                     | None => None
                     end
            | EmptyString => None
            end
          else if Ascii.eqb c "["%char then
            if (depth =? 0)%N then None else
            match skip_ws r with
            | String d r1 =>
                if Ascii.eqb d "]"%char then Some (JArr [], r1)
                else match parr f (N.pred depth) (String d r1) with
                     | Some (l, r') => Some (JArr l, r')
                     | None => None
                     end
            | EmptyString => None
            end
          else if Ascii.eqb c "t"%char then
            match scan_lit "true" (String c r) with Some r' => Some (JBool true, r') | None => None end
          else if Ascii.eqb c "f"%char then
            match scan_lit "false" (String c r) with Some r' => Some (JBool false, r') | None => None end
          else if Ascii.eqb c "n"%char then
            match scan_lit "null" (String c r) with Some r' => Some (JNull, r') | None => None end
          else
            match scan_num (String c r) with Some (l, r') => Some (JNum l, r') | None => None end
      end
  end
(* elements of a non-empty array, up to and including the closing bracket *)
with parr (fuel : nat) (depth : N) (s : string) : option (list json * string) :=
  match fuel with
  | O => None
  | S f =>
      match pval f depth s with
      | None => None
      | Some (j, r) =>
          match skip_ws r with
          | String c r1 =>
              if Ascii.eqb c ","%char then
                match parr f depth r1 with
                | Some (l, r') => Some (j :: l, r')
                | None => None
                end
              else if Ascii.eqb c "]"%char then Some ([j], r1)
              else None
          | EmptyString => None
          end
      end
  end
(* members of a non-empty object, up to and including the closing brace *)
with pobj (fuel : nat) (depth : N) (s : string) : option (list (string * json) * string) :=
  match fuel with
  | O => None
  | S f =>
      match skip_ws s with
      | String q r0 =>
          if Ascii.eqb q """"%char then
            match scan_str r0 with
            | None => None
            | Some (k, r1) =>
                match skip_ws r1 with
                | String cl r2 =>
                    if Ascii.eqb cl ":"%char then
                      match pval f depth r2 with
                      | None => None
                      | Some (j, r) =>
                          match skip_ws r with
                          | String c r3 =>
                              if Ascii.eqb c ","%char then
                                match pobj f depth r3 with
                                | Some (l, r') => Some ((k, j) :: l, r')
                                | None => None
                                end
                              else if Ascii.eqb c "}"%char then Some ([(k, j)], r3)
                              else None
                          | EmptyString => None
                          end
                      end
                    else None
                | EmptyString => None
                end
            end
          else None
      | EmptyString => None
      end
  end.

(** maxNestingDepth of json/scanner.go. *)
Definition max_nesting_depth : N := 10000.

(** checkValid + parse: one value surrounded by optional white space.  [None] is a
    syntax error. *)
Definition parse (s : string) : option json :=
  match pval (2 * String.length s + 2) max_nesting_depth s with
  | Some (j, r) => match skip_ws r with EmptyString => Some j | _ => None end
  | None => None
  end.

(** ** Encoder *)

Definition hex_digit (n : N) : ascii := if (n <? 10)%N then chr (48 + n) else chr (87 + n).

(** \u00XX *)
Definition u00 (c : ascii) : string :=
  "\u00" ++ String (hex_digit (code c / 16)) (String (hex_digit (code c mod 16)) "").

(** htmlSafeSet: characters written as themselves. *)
Definition html_safe (c : ascii) : bool :=
  ((32 <=? code c) && (code c <? 128))%N &&
  negb (Ascii.eqb c """"%char || Ascii.eqb c "\"%char || Ascii.eqb c "<"%char ||
        Ascii.eqb c ">"%char || Ascii.eqb c "&"%char).

(** Encoding of one ASCII byte (appendString, escapeHTML = true). *)
Definition esc_ascii (c : ascii) : string :=
  if html_safe c then String c ""
  else if Ascii.eqb c """"%char || Ascii.eqb c "\"%char then String "\"%char (String c "")
  else if Ascii.eqb c (chr 10) then "\n"
  else if Ascii.eqb c (chr 13) then "\r"
  else if Ascii.eqb c (chr 9) then "\t"
  else u00 c.

(** U+2028 and U+2029 are escaped. *)
Definition line_sep (w : string) : option string :=
  if String.eqb w (encode_rune 8232) then Some "\u2028"
  else if String.eqb w (encode_rune 8233) then Some "\u2029"
  else None.

Fixpoint esc_str (fuel : nat) (s : string) : string :=
  match fuel with
  | O => ""
  | S f =>
      match s with
      | EmptyString => ""
      | String c r =>
          match utf8_len s with
          | O => "\ufffd" ++ esc_str f r
          | 1%nat => esc_ascii c ++ esc_str f r
          | w =>
              match line_sep (stake w s) with
              | Some e => e ++ esc_str f (sdrop w s)
              | None => stake w s ++ esc_str f (sdrop w s)
              end
          end
      end
  end.

Definition print_str (s : string) : string :=
  String """"%char (esc_str (String.length s) s ++ """").

(** Layout: [nl d] is written after '{', '[' and ',' and before '}' and ']' at nesting level
    [d]; [sp] after ':'. *)
Fixpoint pr (nl : nat -> string) (sp : string) (d : nat) (j : json) {struct j} : string :=
    match j with
    | JNull => "null"
    | JBool b => if b then "true" else "false"
    | JNum l => l
    | JStr s => print_str s
    | JArr [] => "[]"
    | JArr (x :: xs) =>
        "[" ++ nl (S d) ++ pr nl sp (S d) x ++
        (fix go (l : list json) : string :=
           match l with
           | [] => ""
           | y :: ys => "," ++ nl (S d) ++ pr nl sp (S d) y ++ go ys
           end) xs ++ nl d ++ "]"
    | JObj [] => "{}"
    | JObj ((k, x) :: xs) =>
        "{" ++ nl (S d) ++ print_str k ++ ":" ++ sp ++ pr nl sp (S d) x ++
        (fix go (l : list (string * json)) : string :=
           match l with
           | [] => ""
           | (k', y) :: ys => "," ++ nl (S d) ++ print_str k' ++ ":" ++ sp ++ pr nl sp (S d) y ++ go ys
           end) xs ++ nl d ++ "}"
    end.

(** json.Marshal of the value. *)
Definition print (j : json) : string := pr (fun _ => "") "" 0 j.

(** json.MarshalIndent(v, "", "    "). *)
Fixpoint spaces (n : nat) : string :=
  match n with O => "" | S n' => String " "%char (spaces n') end.
Definition indent_nl (d : nat) : string := String (chr 10) (spaces (4 * d)).
Definition print_indent (j : json) : string := pr indent_nl " " 0 j.
