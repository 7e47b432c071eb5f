(** Which JSON values can be written: valid text, valid number literals, bounded nesting. *)
From Coq Require Import String Ascii List NArith.
From Verif Require Import Model.Json Spec.NameSpec.
Import ListNotations.
Open Scope string_scope.

Fixpoint jdepth (j : json) : N :=
  match j with
  | JArr l => 1 + fold_right (fun x m => N.max (jdepth x) m) 0 l
  | JObj l => 1 + fold_right (fun kx m => N.max (jdepth (snd kx)) m) 0 l
  | _ => 0
  end%N.

(** RFC 8259 numbers. *)
Definition digit (c : ascii) : Prop := (48 <= N_of_ascii c <= 57)%N.
Inductive some_digits : string -> Prop :=
| sd_one : forall c, digit c -> some_digits (String c "")
| sd_more : forall c s, digit c -> some_digits s -> some_digits (String c s).
Inductive int_lit : string -> Prop :=
| il_zero : int_lit "0"
| il_digit : forall c, digit c -> c <> "0"%char -> int_lit (String c "")
| il_more : forall c s, digit c -> c <> "0"%char -> some_digits s -> int_lit (String c s).
Definition sign_opt (s : string) : Prop := s = "" \/ s = "-".
Definition frac_opt (s : string) : Prop := s = "" \/ exists d, some_digits d /\ s = "." ++ d.
Definition exp_opt (s : string) : Prop :=
  s = "" \/ exists e sg d, (e = "e" \/ e = "E") /\ (sg = "" \/ sg = "+" \/ sg = "-") /\
                           some_digits d /\ s = e ++ sg ++ d.
Definition number_lit (s : string) : Prop :=
  exists a b c d, sign_opt a /\ int_lit b /\ frac_opt c /\ exp_opt d /\ s = a ++ b ++ c ++ d.

Fixpoint jwf (j : json) : Prop :=
  match j with
  | JNum l => number_lit l
  | JStr s => well_formed_text s
  | JArr l => fold_right (fun x P => jwf x /\ P) True l
  | JObj l => fold_right (fun kx P => well_formed_text (fst kx) /\ jwf (snd kx) /\ P) True l
  | _ => True
  end.

(** Values whose encoding can be read back. *)
Definition encodable (j : json) : Prop := jwf j /\ (jdepth j <= 10000)%N.

(** Text as it is after writing and reading: each byte that is no part of a UTF-8 character has
    become U+FFFD. *)
Definition mended_text (s t : string) : Prop :=
  exists rs, reads s rs /\ t = fold_right (fun r u => utf8 r ++ u) "" rs.
(** A value as it is after writing and reading. *)
Inductive mended : json -> json -> Prop :=
| me_null : mended JNull JNull
| me_bool : forall b, mended (JBool b) (JBool b)
| me_num : forall l, number_lit l -> mended (JNum l) (JNum l)
| me_str : forall s t, mended_text s t -> mended (JStr s) (JStr t)
| me_arr : forall l m, Forall2 mended l m -> mended (JArr l) (JArr m)
| me_obj : forall l m, Forall2 (fun a b => mended_text (fst a) (fst b) /\ mended (snd a) (snd b)) l m -> mended (JObj l) (JObj m).

(** Reading a document by path; the last of duplicate members counts, as in Go. *)
Inductive step := Key (k : string) | Idx (n : nat).
Fixpoint last_member (k : string) (l : list (string * json)) : option json :=
  match l with
  | [] => None
  | (k', v) :: l' => match last_member k l' with
                     | Some x => Some x
                     | None => if String.eqb k k' then Some v else None
                     end
  end.
Fixpoint at_path (p : list step) (j : json) : option json :=
  match p with
  | [] => Some j
  | Key k :: p' => match j with JObj l => match last_member k l with Some x => at_path p' x | None => None end | _ => None end
  | Idx n :: p' => match j with JArr l => match nth_error l n with Some x => at_path p' x | None => None end | _ => None end
  end.
