(** The %f and %e layouts denote the number they are given. *)
From Coq Require Import String Ascii List Arith ZArith NArith Bool Reals Lia Lra Psatz.
From Flocq Require Import Core.
From Verif Require Import Model.GoStr Model.Json Model.Num Spec.NameSpec Spec.JsonSpec Spec.NumberSpec
  Proofs.StrP Proofs.JsonP Proofs.JsonRT Proofs.NumP Proofs.FloatP Proofs.LitP.
Import ListNotations.
Open Scope nat_scope.
Open Scope string_scope.

Lemma zeros_digits n : sforall is_digit (zeros n) = true.
Proof. induction n as [|n IH]; [reflexivity|exact IH]. Qed.
Lemma zeros_length n : String.length (zeros n) = n.
Proof. induction n as [|n IH]; [reflexivity|]. cbn. now rewrite IH. Qed.
Lemma zeros_row n : row 0 (zeros n) = 0%Z.
Proof. induction n as [|n IH]; [reflexivity|exact IH]. Qed.
Lemma itoaN_head c : (0 < c)%N -> exists h t, itoaN c = String h t /\ digit h /\ h <> "0"%char /\ sforall is_digit t = true.
Proof.
  intros P. destruct (itoa_aux_head _ c "" P (size_bound c)) as (h & t & E & D & N0).
  change (itoa_aux (S (N.size_nat c)) c "") with (itoaN c) in E. exists h, t.
  pose proof (itoaN_digits c) as A. rewrite E in A. cbn [sforall] in A. rewrite D in A. apply digit_spec in D. auto.
Qed.
Lemma int_lit_cons h t : digit h -> h <> "0"%char -> sforall is_digit t = true -> int_lit (String h t).
Proof.
  intros D N0 S. destruct t as [|x t]; [now apply il_digit|]. apply il_more; [assumption|assumption|].
  apply some_digits_spec. split; [discriminate|exact S].
Qed.

Lemma denotes_parts a b c d f e v : sign_opt a -> int_lit b -> frac_value c f -> exp_value_is d e ->
  ((IZR (row 0 b) + f) * bpow ten e = v)%R -> denotes (a ++ b ++ c ++ d) (sign_value a * v)%R.
Proof. intros A B C D <-. exists a, b, c, d, f, e. repeat (split; [assumption|]). split; [reflexivity|]. ring. Qed.

Lemma layout_f_denotes a c s : sign_opt a -> (0 < c)%N ->
  denotes (a ++ layout_f c s) (sign_value a * (NR c * bpow ten (- s)))%R.
Proof.
  intros A P. unfold layout_f. destruct (itoaN_head c P) as (h & t & E & D & N0 & T).
  assert (RW : row 0 (itoaN c) = Z.of_N c) by apply row_itoaN. pose proof (itoaN_digits c) as DG.
  assert (NoExp : exp_value_is "" 0) by now left.
  destruct (Z.leb_spec s 0) as [L|L].
  - rewrite <- (append_nil_r (itoaN c ++ _)). change "" with ("" ++ "").
    apply denotes_parts with (f := 0%R) (e := 0%Z); [exact A| |now left|exact NoExp|].
    + rewrite E. cbn [append]. apply int_lit_cons; [assumption|assumption|]. rewrite sforall_app, T. apply zeros_digits.
    + rewrite row_app, (row_shift (zeros _) (row 0 _)), zeros_row, RW, zeros_length, Z.add_0_r, mult_IZR, bpow10_shift by lia.
      change (bpow ten 0) with 1%R. rewrite Z2Nat.id by lia. unfold NR. ring.
  - set (len := String.length (itoaN c)). destruct (Nat.ltb_spec (Z.to_nat s) len) as [K|K].
    + set (b := stake (len - Z.to_nat s) (itoaN c)). set (r := sdrop (len - Z.to_nat s) (itoaN c)).
      assert (BR : b ++ r = itoaN c) by apply stake_sdrop.
      assert (LR : String.length r = Z.to_nat s) by (unfold r; rewrite length_sdrop; fold len; lia).
      assert (DD : sforall is_digit b = true /\ sforall is_digit r = true).
      { rewrite <- BR, sforall_app in DG. now apply andb_true_iff in DG. }
      destruct DD as [DB DR].
      assert (X : b ++ "." ++ r = b ++ ("." ++ r) ++ "") by now rewrite append_nil_r. rewrite X.
      apply denotes_parts with (f := (IZR (row 0 r) * bpow ten (- Z.of_nat (String.length r)))%R) (e := 0%Z); [exact A| | |exact NoExp|].
      * assert (LB : String.length b = len - Z.to_nat s) by (unfold b; rewrite length_stake; fold len; lia).
        clearbody b r. destruct b as [|h2 b2]; [cbn [String.length] in LB; lia|]. rewrite E in BR. cbn [append] in BR. injection BR as -> BT.
        cbn [sforall] in DB. apply andb_true_iff in DB. destruct DB as [_ DB]. now apply int_lit_cons.
      * right. exists r. split; [|auto]. apply some_digits_spec. split; [|exact DR]. intros K2. rewrite K2 in LR. cbn in LR. lia.
      * rewrite <- BR, row_app, (row_shift r (row 0 b)) in RW. apply (f_equal IZR) in RW. rewrite plus_IZR, mult_IZR, bpow10_shift in RW by lia.
        unfold NR. rewrite <- RW, LR, Z2Nat.id by lia. change (bpow ten 0) with 1%R.
        assert (Y : (bpow ten s * bpow ten (- s) = 1)%R) by (rewrite <- bpow_plus, Z.add_opp_diag_r; reflexivity).
        set (u := bpow ten s) in *. set (w := bpow ten (- s)) in *.
        replace ((IZR (row 0 b) * u + IZR (row 0 r)) * w)%R with (IZR (row 0 b) * (u * w) + IZR (row 0 r) * w)%R by ring.
        rewrite Y. ring.
    + assert (X : "0." ++ zeros (Z.to_nat s - len) ++ itoaN c = "0" ++ ("." ++ (zeros (Z.to_nat s - len) ++ itoaN c)) ++ "")
        by now rewrite append_nil_r. rewrite X.
      set (r := zeros (Z.to_nat s - len) ++ itoaN c).
      assert (LR : String.length r = Z.to_nat s) by (unfold r; rewrite length_append, zeros_length; fold len; lia).
      assert (RR : row 0 r = Z.of_N c) by (unfold r; rewrite row_app, zeros_row; exact RW).
      apply denotes_parts with (f := (IZR (row 0 r) * bpow ten (- Z.of_nat (String.length r)))%R) (e := 0%Z); [exact A|constructor| |exact NoExp|].
      * right. exists r. split; [|auto]. apply some_digits_spec. split; [intros K2; rewrite K2 in LR; cbn in LR; lia|].
        unfold r. rewrite sforall_app, zeros_digits. exact DG.
      * rewrite RR, LR, Z2Nat.id by lia. change (bpow ten 0) with 1%R. change (row 0 "0") with 0%Z. unfold NR. ring.
Qed.

Lemma layout_e_denotes a c s : sign_opt a -> (0 < c)%N ->
  denotes (a ++ layout_e c s) (sign_value a * (NR c * bpow ten (- s)))%R.
Proof.
  intros A P. unfold layout_e. destruct (itoaN_head c P) as (h & t & E & D & N0 & T).
  assert (RW : row 0 (itoaN c) = Z.of_N c) by apply row_itoaN.
  set (x := (Z.of_nat (String.length (itoaN c)) - 1 - s)%Z).
  set (xs := itoaN (Z.to_N (Z.abs x))).
  set (xs2 := if (String.length xs <? 2)%nat && (0 <=? x)%Z then "0" ++ xs else xs).
  assert (XD : some_digits xs2 /\ row 0 xs2 = Z.abs x).
  { assert (DX : some_digits xs) by (apply some_digits_spec; split; [apply itoaN_nonempty|apply itoaN_digits]).
    assert (RX : row 0 xs = Z.abs x) by (unfold xs; rewrite row_itoaN; lia).
    unfold xs2. destruct (_ && _); [|auto]. split; [|exact RX]. apply (sd_more "0"%char); [|exact DX].
    unfold digit. split; vm_compute; discriminate. }
  destruct XD as [XD XR].
  assert (EX : exp_value_is ("e" ++ (if (0 <=? x)%Z then "+" else "-") ++ xs2) x).
  { right. exists "e", (if (0 <=? x)%Z then "+" else "-"), xs2. split; [now left|]. split; [exact XD|]. split; [reflexivity|].
    destruct (Z.leb_spec 0 x); [left; split; [now right|]|right; split; [reflexivity|]]; rewrite XR; lia. }
  assert (LEN : String.length (itoaN c) = S (String.length t)) by (rewrite E; reflexivity).
  rewrite E in RW |- *. cbn [row] in RW.
  destruct t as [|h2 t2].
  - change (a ++ String h "" ++ "e" ++ (if (0 <=? x)%Z then "+" else "-") ++ xs2)
      with (a ++ String h "" ++ "" ++ "e" ++ (if (0 <=? x)%Z then "+" else "-") ++ xs2).
    apply denotes_parts with (f := 0%R) (e := x); [exact A|now apply il_digit|now left|exact EX|].
    cbn [row] in RW |- *. rewrite RW. unfold NR, x. rewrite LEN. cbn [String.length]. rewrite Rplus_0_r. do 2 f_equal.
  - set (t := String h2 t2) in *.
    assert (X : String h ("." ++ t) ++ "e" ++ (if (0 <=? x)%Z then "+" else "-") ++ xs2
      = String h "" ++ ("." ++ t) ++ "e" ++ (if (0 <=? x)%Z then "+" else "-") ++ xs2) by reflexivity. rewrite X.
    apply denotes_parts with (f := (IZR (row 0 t) * bpow ten (- Z.of_nat (String.length t)))%R) (e := x);
      [exact A|now apply il_digit| |exact EX|].
    + right. exists t. split; [|auto]. apply some_digits_spec. split; [discriminate|exact T].
    + rewrite row_shift in RW. cbn [row]. apply (f_equal IZR) in RW. rewrite plus_IZR, mult_IZR, bpow10_shift in RW by lia.
      unfold NR. rewrite <- RW. set (u := IZR (10 * 0 + _)). unfold x. rewrite LEN.
      replace (Z.of_nat (S (String.length t)) - 1 - s)%Z with (Z.of_nat (String.length t) + - s)%Z by lia.
      rewrite bpow_plus. set (k := Z.of_nat (String.length t)).
      assert (Y : (bpow ten (- k) * bpow ten k = 1)%R) by (rewrite <- bpow_plus, Z.add_opp_diag_l; reflexivity).
      replace ((u + IZR (row 0 t) * bpow ten (- k)) * (bpow ten k * bpow ten (- s)))%R
        with ((u * bpow ten k + IZR (row 0 t) * (bpow ten (- k) * bpow ten k)) * bpow ten (- s))%R by ring.
      rewrite Y. ring.
Qed.

Lemma strip_zeros_spec f : forall c s, (0 < c)%N ->
  let '(c', s') := strip_zeros f c s in (0 < c')%N /\ (NR c' * bpow ten (- s') = NR c * bpow ten (- s))%R.
Proof.
  induction f as [|f IH]; intros c s P; cbn [strip_zeros]; [auto|].
  destruct (negb (c =? 0) && (c mod 10 =? 0))%N eqn:E; [|auto].
  apply andb_true_iff in E. destruct E as [_ E]. apply N.eqb_eq in E.
  assert (C : (c = 10 * (c / 10))%N) by (rewrite (N.div_mod c 10) at 1 by discriminate; lia).
  assert (P' : (0 < c / 10)%N) by lia.
  specialize (IH (c / 10)%N (s - 1)%Z P'). destruct (strip_zeros f (c / 10) (s - 1)) as [c' s'].
  destruct IH as [A B]. split; [exact A|]. rewrite B. rewrite C at 2. rewrite NR_mul. change (NR 10) with 10%R.
  replace (- (s - 1))%Z with (1 + - s)%Z by lia. rewrite bpow_plus. change (bpow ten 1) with 10%R. ring.
Qed.
