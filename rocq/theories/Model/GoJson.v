(** Decoding JSON documents into Go values (encoding/json). *)
From Coq Require Import String Ascii List Arith NArith ZArith Bool.
From Verif Require Import Model.GoStr Model.Utf8 Model.Json Model.Num.
Import ListNotations.
Open Scope string_scope.

(** *** interface{}

    A Go interface{} holding decoded JSON is represented by the JSON document that
    json.Marshal would print for it: objects are maps (sorted keys, last duplicate wins),
    numbers are float64 printed canonically.  [None]: a number out of float64 range. *)
Fixpoint norm (j : json) : option json :=
  match j with
  | JNull => Some JNull
  | JBool b => Some (JBool b)
  | JNum l => option_map JNum (canon_num l)
  | JStr s => Some (JStr s)
  | JArr l =>
      option_map JArr
        ((fix go (l : list json) : option (list json) :=
            match l with
            | [] => Some []
            | x :: xs =>
                match norm x, go xs with
                | Some x', Some xs' => Some (x' :: xs')
                | _, _ => None
                end
            end) l)
  | JObj l =>
      option_map JObj
        ((fix go (l : list (string * json)) (m : smap json) : option (smap json) :=
            match l with
            | [] => Some m
            | (k, x) :: xs =>
                match norm x with
                | Some x' => go xs (sset k x' m)
                | None => None
                end
            end) l [])
  end.

(** var m map[string]interface{}; json.Unmarshal(data, &m): [None] is an error,
    [Some None] the nil map (document null), [Some (Some m)] a map. *)
Definition decode_map (j : json) : option (option (smap json)) :=
  match j with
  | JNull => Some None
  | JObj _ => match norm j with Some (JObj m) => Some (Some m) | _ => None end
  | _ => None
  end.

(** var v interface{}; json.Unmarshal(data, &v). *)
Definition unmarshal_any (data : string) : option json :=
  match parse data with Some j => norm j | None => None end.
Definition unmarshal_map (data : string) : option (option (smap json)) :=
  match parse data with Some j => decode_map j | None => None end.

(** *** Struct fields

    A member sets the field whose name equals its key, else the one equal under Unicode simple
    case folding.  For ASCII field names that is ASCII case folding plus U+017F (long s) and
    U+212A (Kelvin sign). *)
Fixpoint fold_key (s : string) : string :=
  match s with
  | EmptyString => EmptyString
  | String c r =>
      match r with
      | String d r1 =>
          if Ascii.eqb c (chr 197) && Ascii.eqb d (chr 191) then String "S"%char (fold_key r1)
          else match r1 with
               | String e r2 =>
                   if Ascii.eqb c (chr 226) && Ascii.eqb d (chr 132) && Ascii.eqb e (chr 170)
                   then String "K"%char (fold_key r2)
                   else String (upper c) (fold_key r)
               | EmptyString => String (upper c) (fold_key r)
               end
      | EmptyString => String (upper c) (fold_key r)
      end
  end.
Definition key_is (field key : string) : bool := String.eqb (fold_key field) (fold_key key).

(** Fold over the members of an object in document order; [None] is an error.  Go goes on
    after a type error and reports the first one at the end; since no caller looks at a value
    when an error is returned (except pluginErr, modelled separately) stopping is equivalent. *)
Definition decode_members {A} (step : A -> string -> json -> option A) (zero : A)
    (l : list (string * json)) : option A :=
  fold_left (fun acc kv => match acc with
                           | Some a => step a (fst kv) (snd kv)
                           | None => None
                           end) l (Some zero).

(** Decode an object (or null, a no-op) into a struct. *)
Definition decode_struct {A} (step : A -> string -> json -> option A) (zero : A) (j : json)
  : option A :=
  match j with
  | JNull => Some zero
  | JObj l => decode_members step zero l
  | _ => None
  end.

(** Scalars: null leaves the current value alone. *)
Definition dec_string (cur : string) (j : json) : option string :=
  match j with JNull => Some cur | JStr s => Some s | _ => None end.
Definition dec_bool (cur : bool) (j : json) : option bool :=
  match j with JNull => Some cur | JBool b => Some b | _ => None end.

(** strconv.ParseInt(lit, 10, 64) on a JSON number literal. *)
Definition dec_int (cur : Z) (j : json) : option Z :=
  match j with JNull => Some cur | JNum l => atoi l | _ => None end.
(** strconv.ParseUint(lit, 10, 64). *)
Definition atou (l : string) : option N :=
  match digits l with
  | Some n => if (n <? 2 ^ 64)%N then Some n else None
  | None => None
  end.
Definition dec_uint (cur : N) (j : json) : option N :=
  match j with JNull => Some cur | JNum l => atou l | _ => None end.

(** *T: null is nil, otherwise a fresh T (simplification: an existing pointee reached through a
    duplicate key is not reused). *)
Definition dec_ptr {A} (dec : json -> option A) (j : json) : option (option A) :=
  match j with JNull => Some None | _ => option_map Some (dec j) end.

(** []T: null is the nil slice; nil and empty slices are identified.  Elements are decoded into
    zero values (simplification: the backing array of an earlier duplicate key is not reused). *)
Fixpoint dec_all {A} (dec : json -> option A) (l : list json) : option (list A) :=
  match l with
  | [] => Some []
  | x :: xs =>
      match dec x, dec_all dec xs with
      | Some a, Some l' => Some (a :: l')
      | _, _ => None
      end
  end.
Definition dec_list {A} (dec : json -> option A) (j : json) : option (list A) :=
  match j with JNull => Some [] | JArr l => dec_all dec l | _ => None end.

(** map[string]bool: members are added to the existing map; null is nil. *)
Definition dec_map_bool (cur : smap bool) (j : json) : option (smap bool) :=
  match j with
  | JNull => Some []
  | JObj l =>
      decode_members (fun m k v =>
        match dec_bool false v with Some b => Some (sset k b m) | None => None end) cur l
  | _ => None
  end.

(** map[string]interface{}: members are added to the existing map; null is nil. *)
Definition dec_map_any (cur : option (smap json)) (j : json) : option (option (smap json)) :=
  match j with
  | JNull => Some None
  | JObj l =>
      option_map Some
        (decode_members (fun m k v =>
           match norm v with Some v' => Some (sset k v' m) | None => None end)
           (match cur with Some m => m | None => [] end) l)
  | _ => None
  end.

(** *** Encoding helpers *)
Definition enc_strings (l : list string) : json := JArr (map JStr l).
Definition enc_int (z : Z) : json := JNum (itoa z).

(** omitempty *)
Definition omit_if (b : bool) (k : string) (j : json) : list (string * json) :=
  if b then [] else [(k, j)].
