(** base64.StdEncoding: the JSON form of a []byte field (libcni/api.go:243, cachedInfo.Config). *)
From Coq Require Import String Ascii List Arith NArith Bool.
From Verif Require Import Model.GoStr.
Import ListNotations.
Open Scope string_scope.
Open Scope N_scope.

Definition b64_char (n : N) : ascii :=
  if n <? 26 then chr (65 + n)
  else if n <? 52 then chr (97 + (n - 26))
  else if n <? 62 then chr (48 + (n - 52))
  else if n =? 62 then "+"%char else "/"%char.

Definition b64_val (c : ascii) : option N :=
  if is_upper c then Some (code c - 65)
  else if is_lower c then Some (code c - 97 + 26)
  else if is_digit c then Some (code c - 48 + 52)
  else if Ascii.eqb c "+"%char then Some 62
  else if Ascii.eqb c "/"%char then Some 63
  else None.

(** StdEncoding.EncodeToString. *)
Fixpoint b64_encode (s : string) : string :=
  match s with
  | EmptyString => ""
  | String a EmptyString =>
      String (b64_char (code a / 4)) (String (b64_char (code a mod 4 * 16)) "==")
  | String a (String b EmptyString) =>
      String (b64_char (code a / 4))
        (String (b64_char (code a mod 4 * 16 + code b / 16))
          (String (b64_char (code b mod 16 * 4)) "="))
  | String a (String b (String c r)) =>
      String (b64_char (code a / 4))
        (String (b64_char (code a mod 4 * 16 + code b / 16))
          (String (b64_char (code b mod 16 * 4 + code c / 64))
            (String (b64_char (code c mod 64)) (b64_encode r))))
  end.

(** StdEncoding.Decode after dropping \r and \n; non-strict (trailing bits ignored). *)
Fixpoint drop_newlines (s : string) : string :=
  match s with
  | EmptyString => ""
  | String c r =>
      if Ascii.eqb c (chr 10) || Ascii.eqb c (chr 13) then drop_newlines r
      else String c (drop_newlines r)
  end.

Fixpoint b64_quads (s : string) : option string :=
  match s with
  | EmptyString => Some ""
  | String a (String b (String c (String d r))) =>
      match b64_val a, b64_val b with
      | Some x, Some y =>
          let o1 := chr (x * 4 + y / 16) in
          match b64_val c with
          | Some z =>
              let o2 := chr (y mod 16 * 16 + z / 4) in
              match b64_val d with
              | Some w =>
                  let o3 := chr (z mod 4 * 64 + w) in
                  match b64_quads r with
                  | Some t => Some (String o1 (String o2 (String o3 t)))
                  | None => None
                  end
              | None =>
                  if Ascii.eqb d "="%char && String.eqb r ""
                  then Some (String o1 (String o2 "")) else None
              end
          | None =>
              if Ascii.eqb c "="%char && Ascii.eqb d "="%char && String.eqb r ""
              then Some (String o1 "") else None
          end
      | _, _ => None
      end
  | _ => None
  end.

Definition b64_decode (s : string) : option string := b64_quads (drop_newlines s).
