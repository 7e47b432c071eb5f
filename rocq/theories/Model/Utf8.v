(** UTF-8 decoding as in Go's unicode/utf8 package, and unicode.IsSpace. *)
From Coq Require Import String Ascii List Arith NArith Bool.
From Verif Require Import Model.GoStr.
Import ListNotations.
Open Scope N_scope.

(** U+FFFD, utf8.RuneError. *)
Definition rune_error : N := 65533.

Definition cont (c : ascii) : bool := (128 <=? code c) && (code c <=? 191).
Definition between (lo hi : N) (c : ascii) : bool := (lo <=? code c) && (code c <=? hi).

(** Number of bytes of a well-formed UTF-8 sequence at the head of [s], 0 if the head is
    not well-formed (table acceptRanges/first of unicode/utf8). *)
Definition utf8_len (s : string) : nat :=
  match s with
  | EmptyString => 0
  | String b0 r0 =>
      let x := code b0 in
      if (x <? 128)%N then 1
      else if (x <? 194)%N then 0
      else if (x <? 224)%N then
        match r0 with
        | String b1 _ => if cont b1 then 2 else 0
        | _ => 0
        end
      else if (x <? 240)%N then
        match r0 with
        | String b1 (String b2 _) =>
            let lo := (if (x =? 224) then 160 else 128)%N in
            let hi := (if x =? 237 then 159 else 191)%N in
            if between lo hi b1 && cont b2 then 3 else 0
        | _ => 0
        end
      else if (x <? 245)%N then
        match r0 with
        | String b1 (String b2 (String b3 _)) =>
            let lo := (if x =? 240 then 144 else 128)%N in
            let hi := (if x =? 244 then 143 else 191)%N in
            if between lo hi b1 && cont b2 && cont b3 then 4 else 0
        | _ => 0
        end
      else 0
  end%nat.

(** utf8.DecodeRune: rune and width; (RuneError, 1) for a malformed head. *)
Definition decode_rune (s : string) : N * nat :=
  match utf8_len s, s with
  | 1%nat, String b0 _ => (code b0, 1%nat)
  | 2%nat, String b0 (String b1 _) => ((code b0 - 192) * 64 + (code b1 - 128), 2%nat)
  | 3%nat, String b0 (String b1 (String b2 _)) =>
      ((code b0 - 224) * 4096 + (code b1 - 128) * 64 + (code b2 - 128), 3%nat)
  | 4%nat, String b0 (String b1 (String b2 (String b3 _))) =>
      ((code b0 - 240) * 262144 + (code b1 - 128) * 4096 + (code b2 - 128) * 64 + (code b3 - 128), 4%nat)
  | _, _ => (rune_error, 1%nat)
  end.

(** bytes.Runes / []rune(s) (pkg/utils/utils.go:75). Fuel: the byte length. *)
Fixpoint runes_fuel (fuel : nat) (s : string) : list N :=
  match fuel with
  | O => []
  | S f =>
      match s with
      | EmptyString => []
      | _ => let '(r, w) := decode_rune s in r :: runes_fuel f (sdrop w s)
      end
  end.
Definition runes (s : string) : list N := runes_fuel (String.length s) s.

(** utf8.AppendRune / string(rune) for a valid rune. *)
Definition encode_rune (r : N) : string :=
  if r <? 128 then String (chr r) ""
  else if r <? 2048 then String (chr (192 + r / 64)) (String (chr (128 + r mod 64)) "")
  else if r <? 65536 then
    String (chr (224 + r / 4096)) (String (chr (128 + r / 64 mod 64))
      (String (chr (128 + r mod 64)) ""))
  else
    String (chr (240 + r / 262144)) (String (chr (128 + r / 4096 mod 64))
      (String (chr (128 + r / 64 mod 64)) (String (chr (128 + r mod 64)) ""))).

(** utf8.ValidString. *)
Fixpoint valid_utf8_fuel (fuel : nat) (s : string) : bool :=
  match fuel with
  | O => match s with EmptyString => true | _ => false end
  | S f =>
      match s with
      | EmptyString => true
      | _ => match utf8_len s with
             | O => false
             | w => valid_utf8_fuel f (sdrop w s)
             end
      end
  end.
Definition valid_utf8 (s : string) : bool := valid_utf8_fuel (String.length s) s.

(** unicode.IsSpace: White_Space property. *)
Definition is_space_rune (r : N) : bool :=
  ((9 <=? r) && (r <=? 13)) || (r =? 32) || (r =? 133) || (r =? 160) || (r =? 5760) ||
  ((8192 <=? r) && (r <=? 8202)) || (r =? 8232) || (r =? 8233) || (r =? 8239) ||
  (r =? 8287) || (r =? 12288).
