(** JSON numbers decoded into interface{} (float64) and printed again.

    Models strconv.ParseFloat(lit, 64) and encoding/json's float64 encoder, which every
    value passing through map[string]interface{} undergoes: libcni/conf.go:391-420 (InjectConf),
    libcni/api.go:304-320 (cached capability args and results), pkg/invoke/exec.go:48-78
    (fixupResultVersion), pkg/types/100/types.go:180-205 (Result.MarshalJSON),
    pkg/version/version.go:66-90 (ParsePrevResult). *)
From Coq Require Import String Ascii List Arith NArith ZArith Bool.
From Verif Require Import Model.GoStr Model.Json.
Import ListNotations.
Open Scope string_scope.

(** Sign, decimal mantissa (all digits), decimal exponent of a number literal. *)
Record dec := { dec_neg : bool; dec_mant : N; dec_exp : Z }.

Definition digits0 (s : string) : N := match digits_acc 0 s with Some n => n | None => 0%N end.

Definition exp_value (s : string) : Z :=
  (* [s] is "" or e[+-]digits *)
  match s with
  | EmptyString => 0%Z
  | String _ s' =>
      let '(sg, d) := scan_sign s' in
      let z := Z.of_N (digits0 d) in
      if String.eqb sg "-" then Z.opp z else z
  end.

Definition lit_dec (l : string) : option dec :=
  let '(m, s0) := scan_minus l in
  match scan_int s0 with
  | None => None
  | Some (i, s1) =>
      match scan_frac s1 with
      | None => None
      | Some (fr, s2) =>
          match scan_exp s2 with
          | Some (e, EmptyString) =>
              let frd := match fr with String _ d => d | EmptyString => "" end in
              Some {| dec_neg := negb (String.eqb m "");
                      dec_mant := digits0 (i ++ frd);
                      dec_exp := (exp_value e - Z.of_nat (String.length frd))%Z |}
          | _ => None
          end
      end
  end.

(** A finite float64 value: sign and reduced non-negative fraction. *)
Record flt := { f_neg : bool; f_num : N; f_den : N }.

Definition flt_eqb (a b : flt) : bool :=
  Bool.eqb (f_neg a) (f_neg b) && (f_num a =? f_num b)%N && (f_den a =? f_den b)%N.

Definition reduce (n d : N) : N * N :=
  let g := N.gcd n d in if (g =? 0)%N then (n, d) else (N.div n g, N.div d g).

Definition two53 : N := 9007199254740992.

(** n * 2^e as a fraction. *)
Definition scale2 (n : N) (e : Z) : N * N :=
  if (0 <=? e)%Z then (n * 2 ^ Z.to_N e, 1)%N else (n, 2 ^ Z.to_N (Z.opp e))%N.

(** floor and remainder of (n/d) / 2^e with the divisor used. *)
Definition div2e (n d : N) (e : Z) : N * N * N :=
  if (0 <=? e)%Z then
    let d' := (d * 2 ^ Z.to_N e)%N in (N.div n d', N.modulo n d', d')
  else
    let n' := (n * 2 ^ Z.to_N (Z.opp e))%N in (N.div n' d, N.modulo n' d, d).

(** Round a positive fraction to float64: nearest, ties to even, subnormals down to 2^-1074,
    [None] on overflow.  Integers up to 2^53 are exact (the fast path of strconv's atof). *)
Definition round64 (n d : N) : option (N * N) :=
  let '(n, d) := reduce n d in
  if ((d =? 1) && (n <=? two53))%N then Some (n, 1%N)
  else
    let k := (Z.of_N (N.log2 n) - Z.of_N (N.log2 d))%Z in
    let e1 := (k - 52)%Z in
    let '(q1, _, _) := div2e n d e1 in
    let e2 := if (q1 <? 4503599627370496)%N then (e1 - 1)%Z else e1 in
    let e := Z.max e2 (-1074) in
    let '(q, r, dv) := div2e n d e in
    let up := match (2 * r ?= dv)%N with
              | Gt => true
              | Eq => N.odd q
              | Lt => false
              end in
    let m := if up then (q + 1)%N else q in
    if ((971 <? e)%Z || ((e =? 971)%Z && (two53 <=? m)%N))%bool then None
    else let '(a, b) := scale2 m e in Some (reduce a b).

(** The float64 denoted by a literal.  Magnitudes outside 10^±400 are decided without
    computing the power. *)
Definition lit_float (l : string) : option flt :=
  match lit_dec l with
  | None => None
  | Some x =>
      if (dec_mant x =? 0)%N then Some {| f_neg := dec_neg x; f_num := 0; f_den := 1 |}
      else
        let mag := (Z.of_nat (String.length (itoaN (dec_mant x))) + dec_exp x)%Z in
        if (dec_exp x =? 0)%Z && (dec_mant x <=? two53)%N then
          Some {| f_neg := dec_neg x; f_num := dec_mant x; f_den := 1 |}
        else if (400 <? mag)%Z then None
        else if (mag <? -400)%Z then Some {| f_neg := dec_neg x; f_num := 0; f_den := 1 |}
        else
          let '(n, d) :=
            if (0 <=? dec_exp x)%Z then ((dec_mant x * 10 ^ Z.to_N (dec_exp x))%N, 1%N)
            else (dec_mant x, (10 ^ Z.to_N (Z.opp (dec_exp x)))%N) in
          match round64 n d with
          | None => None
          | Some (a, b) => Some {| f_neg := dec_neg x; f_num := a; f_den := b |}
          end
  end.

(** *** Formatting: shortest decimal that reads back as the same float64 *)

(** Decimal point position p with 10^(p-1) <= n/d < 10^p, searched upwards from [p]. *)
Definition lt_pow10 (n d : N) (p : Z) : bool :=
  if (0 <=? p)%Z then (n <? d * 10 ^ Z.to_N p)%N
  else (n * 10 ^ Z.to_N (Z.opp p) <? d)%N.
Fixpoint find_point (fuel : nat) (n d : N) (p : Z) : Z :=
  match fuel with
  | O => p
  | S f => if lt_pow10 n d p then p else find_point f n d (p + 1)
  end.
Definition point (n d : N) : Z :=
  let k := (Z.of_N (N.log2 n) - Z.of_N (N.log2 d))%Z in
  find_point 8 n d (((k - 1) * 30103) / 100000 - 1)%Z.

(** floor((n/d) * 10^s) and whether it is inexact. *)
Definition scale10 (n d : N) (s : Z) : N * N * N :=
  if (0 <=? s)%Z then
    let n' := (n * 10 ^ Z.to_N s)%N in (N.div n' d, N.modulo n' d, d)
  else
    let d' := (d * 10 ^ Z.to_N (Z.opp s))%N in (N.div n d', N.modulo n d', d').

(** digits * 10^-s read back as a float equals n/d. *)
Definition reads_back (n d c : N) (s : Z) : bool :=
  let r := if (0 <=? s)%Z then round64 c (10 ^ Z.to_N s)%N
           else round64 (c * 10 ^ Z.to_N (Z.opp s))%N 1 in
  match r with Some (a, b) => ((a =? n) && (b =? d))%N | None => false end.

(** Try 1, 2, ... digits; the nearer of floor and ceiling wins, the even one on a tie. *)
Fixpoint shortest (fuel : nat) (nd : Z) (n d : N) (p : Z) : option (N * Z) :=
  match fuel with
  | O => None
  | S f =>
      let s := (nd - p)%Z in
      let '(lo, r, dv) := scale10 n d s in
      let hi := (lo + 1)%N in
      let lo_ok := negb (lo =? 0)%N && reads_back n d lo s in
      let hi_ok := negb (r =? 0)%N && reads_back n d hi s in
      let hi_nearer := ((dv <? 2 * r) || ((dv =? 2 * r) && N.odd lo))%N in
      if lo_ok && negb (hi_ok && hi_nearer) then Some (lo, s)
      else if hi_ok then Some (hi, s)
      else shortest f (nd + 1) n d p
  end.

Fixpoint zeros (n : nat) : string := match n with O => "" | S n' => String "0"%char (zeros n') end.

(** %f layout of digits c * 10^-s. *)
Definition layout_f (c : N) (s : Z) : string :=
  let ds := itoaN c in
  let len := String.length ds in
  if (s <=? 0)%Z then ds ++ zeros (Z.to_nat (Z.opp s))
  else
    let sn := Z.to_nat s in
    if (sn <? len)%nat then stake (len - sn) ds ++ "." ++ sdrop (len - sn) ds
    else "0." ++ zeros (sn - len) ++ ds.

(** %e layout with encoding/json's clean-up of e-09 to e-9. *)
Definition layout_e (c : N) (s : Z) : string :=
  let ds := itoaN c in
  let x := (Z.of_nat (String.length ds) - 1 - s)%Z in
  let m := match ds with
           | String a "" => String a ""
           | String a r => String a ("." ++ r)
           | EmptyString => ""
           end in
  let xs := itoaN (Z.to_N (Z.abs x)) in
  let xs2 := if (String.length xs <? 2)%nat && (0 <=? x)%Z then "0" ++ xs else xs in
  m ++ "e" ++ (if (0 <=? x)%Z then "+" else "-") ++ xs2.

(** Rounding up may carry into a new digit (0.99.. to 1.00): drop the zeros. *)
Fixpoint strip_zeros (fuel : nat) (c : N) (s : Z) : N * Z :=
  match fuel with
  | O => (c, s)
  | S f => if (negb (c =? 0) && (c mod 10 =? 0))%N then strip_zeros f (c / 10)%N (s - 1)%Z else (c, s)
  end.

(** abs < 1e-6 || abs >= 1e21, with 1e-6 the float64 constant. *)
Definition use_e (n d : N) : bool :=
  ((n * 4722366482869645213696 <? 4722366482869645 * d) || (10 ^ 21 * d <=? n))%N.

(** The text encoding/json writes for a float64. *)
Definition fmt_float (f : flt) : option string :=
  let sign := if f_neg f then "-" else "" in
  if ((f_den f =? 1) && (f_num f <=? two53))%N then Some (sign ++ itoaN (f_num f))
  else
    let p := point (f_num f) (f_den f) in
    match shortest 18 1 (f_num f) (f_den f) p with
    | None => None
    | Some (c, s) =>
        let '(c, s) := strip_zeros 20 c s in
        Some (sign ++ (if use_e (f_num f) (f_den f) then layout_e c s else layout_f c s))
    end.

(** The literal after one trip through float64; [None] is the decoder's range error.
    The read-back test never fails (Proofs/CanonP.v, canon_num_plain: on every literal this is
    [fmt_float] of [lit_float]); it is kept so that idempotence does not need the real numbers. *)
Definition canon_num (l : string) : option string :=
  match lit_float l with
  | None => None
  | Some f =>
      match fmt_float f with
      | Some t =>
          if valid_number t &&
             match lit_float t with Some f' => flt_eqb f f' | None => false end
          then Some t else Some l
      | None => Some l
      end
  end.
