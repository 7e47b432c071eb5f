(** Go errors as values, and the three ways a Go call can end. *)
From Coq Require Import String Ascii List Arith NArith Bool.
From Verif Require Import Model.GoStr Model.Utf8.
Import ListNotations.
Open Scope string_scope.

(** The error values the library returns.
    - [ECNI] is *types.Error (pkg/types/types.go:247-251)
    - [EMsg]/[EWrap] are fmt.Errorf without / with %w
    - [ENotFound], [ENoConfigs] are libcni.NotFoundError and NoConfigsFoundError
      (libcni/conf.go:29-44)
    - [EJoin] is errors.Join (libcni/api.go:596,804)
    - [EIncompat] is *version.ErrorIncompatible (pkg/version/reconcile.go:19-22)
    - [ENotExist] is an OS error for which os.IsNotExist holds; [EOS] any other OS error
    - [EArgs] is types.UnmarshalableArgsError (pkg/types/args.go:68-70)
    - [ENotImpl] is the sentinel of the api's version gates
    Simplification: the text of errors produced by the Go standard library
    (json, strconv, os) is not modelled; they carry a tag instead. *)
Inductive goerr : Type :=
| EMsg (msg : string)
| EWrap (pre : string) (e : goerr)
| ECNI (ecode : N) (msg details : string)
| ENotFound (dir name : string)
| ENoConfigs (dir : string)
| EJoin (l : list goerr)
| EIncompat (config : string) (supported : list string)
| ENotExist (what : string)
| EOS (what : string)
| EJson (what : string)
| EArgs (msg : string).

(** (T, error) results; [Panic] is a run-time panic. *)
Inductive res (A : Type) : Type :=
| Ok (a : A)
| Err (e : goerr)
| Panic.
Arguments Ok {A} a.
Arguments Err {A} e.
Arguments Panic {A}.

Definition rbind {A B} (r : res A) (f : A -> res B) : res B :=
  match r with
  | Ok a => f a
  | Err e => Err e
  | Panic => Panic
  end.

Definition rmap {A B} (f : A -> B) (r : res A) : res B :=
  rbind r (fun a => Ok (f a)).

(** Wrap the error of a result: [if err != nil { return fmt.Errorf(pre+": %w", err) }]. *)
Definition rwrap {A} (pre : string) (r : res A) : res A :=
  match r with
  | Ok a => Ok a
  | Err e => Err (EWrap pre e)
  | Panic => Panic
  end.

Definition of_option {A} (e : goerr) (o : option A) : res A :=
  match o with Some a => Ok a | None => Err e end.

Definition is_ok {A} (r : res A) : bool := match r with Ok _ => true | _ => false end.
Definition is_err {A} (r : res A) : bool := match r with Err _ => true | _ => false end.
Definition is_panic {A} (r : res A) : bool := match r with Panic => true | _ => false end.

Declare Scope res_scope.
Delimit Scope res_scope with res.
Notation "'let!' x ':=' r 'in' f" := (rbind r (fun x => f))
  (at level 200, x pattern, r at level 100, f at level 200, right associativity) : res_scope.
Open Scope res_scope.

(** Well known error codes (pkg/types/types.go:233-245). *)
Definition ErrUnknown : N := 0.
Definition ErrIncompatibleCNIVersion : N := 1.
Definition ErrUnsupportedField : N := 2.
Definition ErrUnknownContainer : N := 3.
Definition ErrInvalidEnvironmentVariables : N := 4.
Definition ErrIOFailure : N := 5.
Definition ErrDecodingFailure : N := 6.
Definition ErrInvalidNetworkConfig : N := 7.
Definition ErrInvalidNetNS : N := 8.
Definition ErrTryAgainLater : N := 11.
Definition ErrInternal : N := 999.

(** strconv.Quote as used by the %q verb: one byte that stands for itself or is malformed.
    Quotation marks and backslashes get a backslash, printable ASCII is copied, the other bytes
    below 0x80 and malformed bytes get an escape. *)
Definition low_hex (n : N) : ascii := if (n <? 10)%N then chr (48 + n) else chr (87 + n).
Definition quote_byte (c : ascii) : string :=
  if (Ascii.eqb c """"%char || Ascii.eqb c "\"%char)%bool then String "\"%char (String c "")
  else if ((32 <=? code c) && (code c <? 127))%N then String c ""
  else if (code c =? 7)%N then "\a"
  else if (code c =? 8)%N then "\b"
  else if (code c =? 12)%N then "\f"
  else if (code c =? 10)%N then "\n"
  else if (code c =? 13)%N then "\r"
  else if (code c =? 9)%N then "\t"
  else if (code c =? 11)%N then "\v"
  else "\x" ++ String (low_hex (code c / 16)) (String (low_hex (code c mod 16)) "").
(** Longer UTF-8 sequences are copied (simplification: Go writes \u or \U escapes for the code
    points beyond ASCII that Unicode does not count as printable; only the text of error messages
    depends on it).  Fuel: the byte length. *)
Fixpoint quote_fuel (fuel : nat) (s : string) : string :=
  match fuel with
  | O => ""
  | S f =>
      match s with
      | EmptyString => ""
      | String c r =>
          match utf8_len s with
          | 0%nat | 1%nat => quote_byte c ++ quote_fuel f r
          | w => stake w s ++ quote_fuel f (sdrop w s)
          end
      end
  end.
Definition quote (s : string) : string := String """"%char (quote_fuel (String.length s) s ++ """").

(** %q on a []string: [["a" "b"]]. *)
Definition quote_list (l : list string) : string := "[" ++ join " " (map quote l) ++ "]".

(** ErrorIncompatible.Details (pkg/version/reconcile.go:24-26). *)
Definition incompat_details (config : string) (supported : list string) : string :=
  "config is " ++ quote config ++ ", plugin supports " ++ quote_list supported.

(** err.Error() (pkg/types/types.go:261-267 for [ECNI]; pkg/version/reconcile.go:28-30). *)
Fixpoint err_string (e : goerr) : string :=
  match e with
  | EMsg m => m
  | EWrap pre e' => pre ++ ": " ++ err_string e'
  | ECNI _ m d => if String.eqb d "" then m else m ++ "; " ++ d
  | ENotFound dir name =>
      "no net configuration with name " ++ quote name ++ " in " ++ dir
  | ENoConfigs dir => "no net configurations found in " ++ dir
  | EJoin l => join (String (chr 10) "") (map err_string l)
  | EIncompat c s => "incompatible CNI versions: " ++ incompat_details c s
  | ENotExist w => w
  | EOS w => w
  | EJson w => w
  | EArgs m => m
  end.

(** os.IsNotExist / errors.As(err, *types.Error) style queries. *)
Definition is_not_exist (e : goerr) : bool :=
  match e with ENotExist _ => true | _ => false end.
