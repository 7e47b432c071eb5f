(** Go strings, byte slices and the few library functions on them.

    A Go [string] or [[]byte] is a Coq [string], i.e. a list of 8-bit characters.
    No definition here models repository code; each one models the Go standard
    library function named in its comment, as used by the cited repository lines. *)
From Coq Require Import String Ascii List Arith NArith ZArith Bool.
Import ListNotations.
Open Scope string_scope.

(** A byte and its numeric value. *)
Definition code (c : ascii) : N := N_of_ascii c.
Definition chr (n : N) : ascii := ascii_of_N n.

(** [s[i:]]-style helpers. *)
Fixpoint sdrop (n : nat) (s : string) : string :=
  match n, s with
  | O, _ => s
  | S n', String _ s' => sdrop n' s'
  | S _, EmptyString => EmptyString
  end.

Fixpoint stake (n : nat) (s : string) : string :=
  match n, s with
  | O, _ => EmptyString
  | S n', String c s' => String c (stake n' s')
  | S _, EmptyString => EmptyString
  end.

(** [for each byte of s]. *)
Fixpoint sforall (p : ascii -> bool) (s : string) : bool :=
  match s with
  | EmptyString => true
  | String c s' => p c && sforall p s'
  end.

Fixpoint sexists (p : ascii -> bool) (s : string) : bool :=
  match s with
  | EmptyString => false
  | String c s' => p c || sexists p s'
  end.

Definition is_byte (c : ascii) : ascii -> bool := Ascii.eqb c.

(** strings.ContainsRune / IndexByte >= 0 for a one-byte rune
    (pkg/invoke/find.go:32). *)
Definition contains_byte (c : ascii) (s : string) : bool := sexists (is_byte c) s.

(** strings.Split(s, sep) for a one-byte separator
    (pkg/version/plugin.go:93, pkg/types/args.go:80,83). Always non-empty. *)
Fixpoint split_on (c : ascii) (s : string) : list string :=
  match s with
  | EmptyString => [EmptyString]
  | String d s' =>
      if Ascii.eqb d c then EmptyString :: split_on c s'
      else match split_on c s' with
           | [] => [String d EmptyString]
           | p :: ps => String d p :: ps
           end
  end.

(** strings.Index(s, sep) for a one-byte separator together with the two slices
    s[:i] and s[i+1:] (pkg/invoke/args.go:115-120; os.Getenv). *)
Fixpoint cut_on (c : ascii) (s : string) : option (string * string) :=
  match s with
  | EmptyString => None
  | String d s' =>
      if Ascii.eqb d c then Some (EmptyString, s')
      else match cut_on c s' with
           | Some (a, b) => Some (String d a, b)
           | None => None
           end
  end.

(** strings.Join(elems, sep) = [String.concat sep elems] of the Coq library. *)
Definition join (sep : string) (l : list string) : string := String.concat sep l.

(** strings.Contains(s, sub) (pkg/invoke/raw_exec.go:54). *)
Fixpoint contains_str (sub s : string) : bool :=
  String.prefix sub s ||
  match s with
  | EmptyString => false
  | String _ s' => contains_str sub s'
  end.

(** strings.HasSuffix(s, suf). *)
Definition has_suffix (suf s : string) : bool :=
  (String.length suf <=? String.length s)%nat &&
  String.eqb (sdrop (String.length s - String.length suf) s) suf.

(** ASCII part of strings.ToLower / ToUpper. *)
Definition is_upper (c : ascii) : bool := ((65 <=? code c) && (code c <=? 90))%N.
Definition is_lower (c : ascii) : bool := ((97 <=? code c) && (code c <=? 122))%N.
Definition is_digit (c : ascii) : bool := ((48 <=? code c) && (code c <=? 57))%N.
Definition lower (c : ascii) : ascii := if is_upper c then chr (code c + 32) else c.
Definition upper (c : ascii) : ascii := if is_lower c then chr (code c - 32) else c.
Fixpoint smap_bytes (f : ascii -> ascii) (s : string) : string :=
  match s with
  | EmptyString => EmptyString
  | String c s' => String (f c) (smap_bytes f s')
  end.
Definition to_lower (s : string) : string := smap_bytes lower s.

(** ** Decimal integers *)

Definition digit_val (c : ascii) : N := (code c - 48)%N.
Definition digit_chr (n : N) : ascii := chr (48 + n).

(** Value of a run of decimal digits (left to right accumulation). *)
Fixpoint digits_acc (acc : N) (s : string) : option N :=
  match s with
  | EmptyString => Some acc
  | String c s' => if is_digit c then digits_acc (10 * acc + digit_val c) s' else None
  end.
Definition digits (s : string) : option N :=
  match s with EmptyString => None | _ => digits_acc 0 s end.

(** strconv.Itoa / FormatUint on a natural number. *)
Fixpoint itoa_aux (fuel : nat) (n : N) (acc : string) : string :=
  match fuel with
  | O => acc
  | S f =>
      let acc' := String (digit_chr (N.modulo n 10)) acc in
      if (N.div n 10 =? 0)%N then acc' else itoa_aux f (N.div n 10) acc'
  end.
Definition itoaN (n : N) : string := itoa_aux (S (N.size_nat n)) n "".

(** strconv.Itoa on an int. *)
Definition itoa (z : Z) : string :=
  match z with
  | Zneg p => String "-"%char (itoaN (Npos p))
  | _ => itoaN (Z.to_N z)
  end.

(** int on a 64-bit platform. *)
Definition min_int64 : Z := (- 2 ^ 63)%Z.
Definition max_int64 : Z := (2 ^ 63 - 1)%Z.
Definition in_int64 (z : Z) : bool := ((min_int64 <=? z) && (z <=? max_int64))%Z.

(** strconv.Atoi: optional sign, at least one decimal digit, in int64
    (pkg/version/plugin.go:98-111). *)
Definition atoi (s : string) : option Z :=
  let '(neg, body) :=
    match s with
    | String c s' =>
        if Ascii.eqb c "-"%char then (true, s')
        else if Ascii.eqb c "+"%char then (false, s')
        else (false, s)
    | EmptyString => (false, s)
    end in
  match digits body with
  | None => None
  | Some n =>
      let z := if neg : bool then (- Z.of_N n)%Z else Z.of_N n in
      if in_int64 z then Some z else None
  end.

(** ** Sorted association lists: Go maps with string keys

    encoding/json prints map keys in ascending byte order, so a map is kept as a
    list sorted by [String.compare]; with that, equality of maps is equality of lists. *)
Definition smap (A : Type) : Type := list (string * A).

Fixpoint sget {A} (k : string) (m : smap A) : option A :=
  match m with
  | [] => None
  | (k', v) :: m' => if String.eqb k k' then Some v else sget k m'
  end.

Fixpoint sset {A} (k : string) (v : A) (m : smap A) : smap A :=
  match m with
  | [] => [(k, v)]
  | (k', v') :: m' =>
      match String.compare k k' with
      | Eq => (k, v) :: m'
      | Lt => (k, v) :: (k', v') :: m'
      | Gt => (k', v') :: sset k v m'
      end
  end.

Definition sdel {A} (k : string) (m : smap A) : smap A :=
  filter (fun kv => negb (String.eqb k (fst kv))) m.

Definition smem {A} (k : string) (m : smap A) : bool :=
  match sget k m with Some _ => true | None => false end.

Definition skeys {A} (m : smap A) : list string := map fst m.

(** Assign each pair in turn; later pairs win. *)
Definition sset_all {A} (kvs : list (string * A)) (m : smap A) : smap A :=
  fold_left (fun m kv => sset (fst kv) (snd kv) m) kvs m.

(** Strictly ascending keys. *)
Fixpoint ssorted {A} (m : smap A) : Prop :=
  match m with
  | [] => True
  | (k, _) :: m' =>
      match m' with
      | [] => True
      | (k', _) :: _ => String.compare k k' = Lt
      end /\ ssorted m'
  end.

(** membership in a list of strings *)
Definition mem_str (s : string) (l : list string) : bool := existsb (String.eqb s) l.
