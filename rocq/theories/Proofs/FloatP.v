(** Rounding and formatting of float64 against Flocq. *)
From Coq Require Import String Ascii List Arith ZArith NArith Bool Reals Lia Lra Psatz.
From Flocq Require Import Core.
From Verif Require Import Model.GoStr Model.Json Model.Num Spec.NumberSpec.
Import ListNotations.
Open Scope R_scope.

Notation fe := (FLT_exp (-1074) 53).
Definition NR (n : N) : R := IZR (Z.of_N n).
Definition frac (n d : N) : R := NR n / NR d.

#[global] Instance prec53 : Prec_gt_0 53. Proof. easy. Qed.

Lemma NR_pos n : (0 < n)%N -> 0 < NR n.
Proof. intros H. apply IZR_lt. lia. Qed.
Lemma NR_nz n : n <> 0%N -> NR n <> 0.
Proof. intros H. apply IZR_neq. lia. Qed.
Lemma NR_mul a b : NR (a * b) = NR a * NR b.
Proof. unfold NR. now rewrite N2Z.inj_mul, mult_IZR. Qed.
Lemma NR_add a b : NR (a + b) = NR a + NR b.
Proof. unfold NR. now rewrite N2Z.inj_add, plus_IZR. Qed.
Lemma NR_pow2 e : NR (2 ^ e) = bpow radix2 (Z.of_N e).
Proof. unfold NR. rewrite N2Z.inj_pow. change (Z.of_N 2) with (radix_val radix2). apply IZR_Zpower. lia. Qed.
Lemma NR_pow10 e : NR (10 ^ e) = bpow ten (Z.of_N e).
Proof. unfold NR. rewrite N2Z.inj_pow. change (Z.of_N 10) with (radix_val ten). apply IZR_Zpower. lia. Qed.
Lemma NR_ge0 n : 0 <= NR n.
Proof. apply IZR_le. lia. Qed.
Lemma NR_lt a b : (a < b)%N <-> NR a < NR b.
Proof. unfold NR. split; intros H; [apply IZR_lt; lia|apply lt_IZR in H; lia]. Qed.
Lemma NR_le a b : (a <= b)%N <-> NR a <= NR b.
Proof. unfold NR. split; intros H; [apply IZR_le; lia|apply le_IZR in H; lia]. Qed.
Lemma NR_inj a b : NR a = NR b -> a = b.
Proof. unfold NR. intros H. apply eq_IZR in H. lia. Qed.
Lemma NR_1 : NR 1 = 1. Proof. reflexivity. Qed.
Lemma NR_0 : NR 0 = 0. Proof. reflexivity. Qed.

Lemma frac_pos n d : (0 < n)%N -> (0 < d)%N -> 0 < frac n d.
Proof. intros H K. unfold frac, Rdiv. apply Rmult_lt_0_compat; [now apply NR_pos|]. now apply Rinv_0_lt_compat, NR_pos. Qed.

(** Lowest terms. *)
Definition lowest (n d : N) : Prop := d <> 0%N /\ N.gcd n d = 1%N.
Lemma reduce_spec n d : d <> 0%N ->
  let '(a, b) := reduce n d in lowest a b /\ frac a b = frac n d /\ (n <> 0%N -> a <> 0%N).
Proof.
  intros D. unfold reduce. destruct (N.eqb_spec (N.gcd n d) 0) as [E|NE].
  { apply N.gcd_eq_0_r in E. contradiction. }
  pose proof (N.gcd_divide_l n d) as [a A]. pose proof (N.gcd_divide_r n d) as [b B].
  set (g := N.gcd n d) in *.
  assert (QA : (n / g = a)%N) by (rewrite A; now apply N.div_mul).
  assert (QB : (d / g = b)%N) by (rewrite B; now apply N.div_mul).
  rewrite QA, QB.
  assert (B0 : b <> 0%N) by (intros ->; lia).
  split; [split; [exact B0|]|split].
  - rewrite <- QA, <- QB. apply N.gcd_div_gcd; [exact NE|reflexivity].
  - unfold frac. rewrite A, B, !NR_mul. field. split; now apply NR_nz.
  - intros N0 ->. lia.
Qed.
Lemma lowest_unique a b c d : lowest a b -> lowest c d -> frac a b = frac c d -> a = c /\ b = d.
Proof.
  intros [B G] [D K] E. unfold frac in E.
  assert (X : (a * d = c * b)%N).
  { apply NR_inj. rewrite !NR_mul. apply NR_nz in B, D.
    assert (Y : NR a = NR c / NR d * NR b) by (rewrite <- E; now field).
    rewrite Y. now field. }
  assert (P : (b | d)%N).
  { apply (N.gauss b a d); [exists c; rewrite X; reflexivity|]. now rewrite N.gcd_comm. }
  assert (Q : (d | b)%N).
  { apply (N.gauss d c b); [exists a; rewrite <- X; reflexivity|]. now rewrite N.gcd_comm. }
  assert (b = d) by (now apply N.divide_antisym_nonneg; try apply N.le_0_l).
  subst d. split; [|reflexivity]. apply N.mul_cancel_r in X; assumption.
Qed.
Lemma lowest_1 n : lowest n 1.
Proof. split; [discriminate|]. apply N.gcd_1_r. Qed.

(** Rounding. *)
Lemma divmod_frac n d : d <> 0%N -> frac n d = NR (n / d) + frac (n mod d) d.
Proof.
  intros D. unfold frac. rewrite (N.div_mod n d D) at 1. rewrite NR_add, NR_mul. field. now apply NR_nz.
Qed.
Lemma div2e_spec n d e : d <> 0%N ->
  let '(q, r, dv) := div2e n d e in
  dv <> 0%N /\ (r < dv)%N /\ frac n d * bpow radix2 (- e) = NR q + frac r dv.
Proof.
  intros D. unfold div2e. destruct (Z.leb_spec 0 e) as [L|L].
  - assert (P : (2 ^ Z.to_N e <> 0)%N) by (apply N.pow_nonzero; discriminate).
    assert (D' : (d * 2 ^ Z.to_N e <> 0)%N) by lia.
    split; [exact D'|]. split; [now apply N.mod_lt|]. rewrite <- divmod_frac by exact D'.
    unfold frac. rewrite NR_mul, NR_pow2, Z2N.id, bpow_opp by lia. field.
    split; [apply Rgt_not_eq, bpow_gt_0|now apply NR_nz].
  - split; [exact D|]. split; [now apply N.mod_lt|]. rewrite <- divmod_frac by exact D.
    unfold frac. rewrite NR_mul, NR_pow2, Z2N.id by lia. field. now apply NR_nz.
Qed.
Lemma frac_unit r dv : dv <> 0%N -> (r < dv)%N -> 0 <= frac r dv < 1.
Proof.
  intros D L. assert (0 < NR dv) by (apply NR_pos; lia). split.
  - apply Rmult_le_pos; [apply NR_ge0|]. now apply Rlt_le, Rinv_0_lt_compat.
  - unfold frac. apply Rmult_lt_reg_r with (NR dv); [assumption|]. unfold Rdiv. rewrite Rmult_assoc, Rinv_l by lra.
    rewrite Rmult_1_r, Rmult_1_l. now apply NR_lt.
Qed.
Lemma floor_spec q r dv x : dv <> 0%N -> (r < dv)%N -> x = NR q + frac r dv -> Zfloor x = Z.of_N q.
Proof.
  intros D L E. apply Zfloor_imp. pose proof (frac_unit r dv D L). rewrite plus_IZR. fold (NR q). lra.
Qed.
Lemma frac_half r dv : dv <> 0%N -> Rcompare (frac r dv) (/ 2) = (2 * r ?= dv)%N.
Proof.
  intros D. assert (P : 0 < NR dv) by (apply NR_pos; lia).
  assert (E : frac r dv - / 2 = (NR (2 * r) - NR dv) * / (2 * NR dv)).
  { unfold frac. rewrite NR_mul. change (NR 2) with 2. field. lra. }
  assert (0 < / (2 * NR dv)) by (apply Rinv_0_lt_compat; lra).
  destruct (N.compare_spec (2 * r) dv) as [C|C|C].
  - apply Rcompare_Eq. rewrite C in E. replace (NR dv - NR dv) with 0 in E by lra. lra.
  - apply Rcompare_Lt. apply NR_lt in C. assert ((NR (2 * r) - NR dv) * / (2 * NR dv) < 0) by nra. lra.
  - apply Rcompare_Gt. apply NR_lt in C. assert ((NR (2 * r) - NR dv) * / (2 * NR dv) > 0) by nra. lra.
Qed.
Lemma nearest_spec q r dv x : dv <> 0%N -> (r < dv)%N -> x = NR q + frac r dv ->
  ZnearestE x = Z.of_N (if match (2 * r ?= dv)%N with Gt => true | Eq => N.odd q | Lt => false end then q + 1 else q).
Proof.
  intros D L E. pose proof (floor_spec q r dv x D L E) as F. unfold Znearest. rewrite F.
  replace (x - IZR (Z.of_N q)) with (frac r dv) by (unfold NR in E; lra).
  rewrite frac_half by exact D.
  assert (C : r <> 0%N -> Zceil x = Z.of_N (q + 1)).
  { intros R0. rewrite Zceil_floor_neq; [rewrite F; lia|]. rewrite F. intros E'. 
    assert (Y : frac r dv = 0) by (unfold NR in E; lra).
    assert (0 < frac r dv) by (apply frac_pos; lia). lra. }
  destruct (N.compare_spec (2 * r) dv) as [K|K|K].
  - assert (B : negb (Z.even (Z.of_N q)) = N.odd q).
    { unfold N.odd. f_equal. destruct q as [|[]]; reflexivity. }
    rewrite B. destruct (N.odd q); [apply C; lia|reflexivity].
  - reflexivity.
  - apply C; lia.
Qed.

(** Binary magnitude of a fraction. *)
Lemma log2_NR n : (0 < n)%N -> bpow radix2 (Z.of_N (N.log2 n)) <= NR n < bpow radix2 (Z.of_N (N.log2 n) + 1).
Proof.
  intros P. pose proof (N.log2_spec n P) as [A B].
  rewrite <- NR_pow2. replace (Z.of_N (N.log2 n) + 1)%Z with (Z.of_N (N.succ (N.log2 n))) by lia. rewrite <- NR_pow2.
  split; [now apply NR_le|now apply NR_lt].
Qed.
Lemma frac_mag n d : (0 < n)%N -> (0 < d)%N ->
  let k := (Z.of_N (N.log2 n) - Z.of_N (N.log2 d))%Z in
  bpow radix2 (k - 1) <= frac n d < bpow radix2 (k + 1).
Proof.
  intros P Q k. destruct (log2_NR n P) as [A B]. destruct (log2_NR d Q) as [C D].
  assert (0 < NR d) by now apply NR_pos. unfold frac. split.
  - apply Rmult_le_reg_r with (NR d); [assumption|]. unfold Rdiv. rewrite Rmult_assoc, Rinv_l, Rmult_1_r by lra.
    eapply Rle_trans; [|exact A]. replace (Z.of_N (N.log2 n)) with ((k - 1) + (Z.of_N (N.log2 d) + 1))%Z by (unfold k; lia).
    rewrite bpow_plus. apply Rmult_le_compat_l; [apply bpow_ge_0|lra].
  - apply Rmult_lt_reg_r with (NR d); [assumption|]. unfold Rdiv. rewrite Rmult_assoc, Rinv_l, Rmult_1_r by lra.
    eapply Rlt_le_trans; [exact B|]. replace (Z.of_N (N.log2 n) + 1)%Z with ((k + 1) + (Z.of_N (N.log2 d)))%Z by (unfold k; lia).
    rewrite bpow_plus. apply Rmult_le_compat_l; [apply bpow_ge_0|lra].
Qed.
Lemma scale2_spec m e : let '(a, b) := scale2 m e in b <> 0%N /\ frac a b = NR m * bpow radix2 e.
Proof.
  unfold scale2. destruct (Z.leb_spec 0 e) as [L|L].
  - split; [discriminate|]. unfold frac. rewrite NR_mul, NR_pow2, Z2N.id, NR_1 by lia. field.
  - split; [apply N.pow_nonzero; discriminate|]. unfold frac. rewrite NR_pow2, Z2N.id by lia.
    unfold Rdiv. rewrite <- bpow_opp. do 2 f_equal. lia.
Qed.

Lemma two53_R : NR two53 = bpow radix2 53.
Proof. unfold NR, two53. rewrite <- (IZR_Zpower radix2 53) by lia. reflexivity. Qed.

Lemma int_format n : (n <= two53)%N -> generic_format radix2 fe (NR n).
Proof.
  intros L. destruct (N.eq_dec n two53) as [->|NE].
  - rewrite two53_R. apply generic_format_bpow. cbn. lia.
  - apply generic_format_FLT. exists (Float radix2 (Z.of_N n) 0); [|cbn [Fnum]|cbn; lia].
    + unfold F2R. cbn. unfold NR. lra.
    + change (Z.abs (Z.of_N n) < 9007199254740992)%Z. unfold two53 in *. lia.
Qed.

Theorem round64_correct n d : (0 < n)%N -> (0 < d)%N ->
  match round64 n d with
  | Some (a, b) => lowest a b /\ frac a b = float64 (frac n d) /\ float64 (frac n d) < bpow radix2 1024
  | None => bpow radix2 1024 <= float64 (frac n d)
  end.
Proof.
  intros P0 Q0. unfold round64. pose proof (reduce_spec n d) as RS. destruct (reduce n d) as [n' d'].
  destruct RS as ([D' G] & FE & N'); [lia|]. rewrite <- FE. clear FE.
  assert (P : (0 < n')%N) by (assert (n' <> 0%N) by (apply N'; lia); lia).
  assert (Q : (0 < d')%N) by lia. clear n d P0 Q0 N'. rename n' into n, d' into d.
  destruct ((d =? 1) && (n <=? two53))%N eqn:FAST.
  { apply andb_true_iff in FAST. destruct FAST as [A B]. apply N.eqb_eq in A. apply N.leb_le in B. subst d.
    split; [apply lowest_1|].
    assert (E : frac n 1 = NR n) by (unfold frac; rewrite NR_1; field). rewrite E.
    assert (F : float64 (NR n) = NR n).
    { apply round_generic; [apply valid_rnd_N|now apply int_format]. }
    rewrite F. split; [reflexivity|]. apply Rle_lt_trans with (NR two53); [now apply NR_le|].
    rewrite two53_R. apply bpow_lt. lia. }
  clear FAST. set (x := frac n d). pose proof (frac_mag n d P Q) as M. cbv zeta in M. fold x in M.
  set (k := (Z.of_N (N.log2 n) - Z.of_N (N.log2 d))%Z) in *. cbv zeta.
  pose proof (div2e_spec n d (k - 52) D') as S1. destruct (div2e n d (k - 52)) as [[q1 r1] dv1].
  destruct S1 as (DV1 & R1 & E1). fold x in E1.
  set (e2 := if (q1 <? 4503599627370496)%N then (k - 52 - 1)%Z else (k - 52)%Z).
  assert (XP : 0 < x) by now apply frac_pos.
  assert (MG : (bpow radix2 (e2 + 53 - 1) <= x < bpow radix2 (e2 + 53))).
  { assert (V : NR 4503599627370496 = bpow radix2 52) by (unfold NR; rewrite <- (IZR_Zpower radix2 52) by lia; reflexivity).
    pose proof (frac_unit r1 dv1 DV1 R1) as U.
    assert (XE : x = (NR q1 + frac r1 dv1) * bpow radix2 (k - 52)).
    { rewrite <- E1, Rmult_assoc, <- bpow_plus, Z.add_opp_diag_l. cbn [bpow]. ring. }
    pose proof (bpow_gt_0 radix2 (k - 52)) as BP.
    assert (BK : bpow radix2 k = bpow radix2 52 * bpow radix2 (k - 52)) by (rewrite <- bpow_plus; f_equal; lia).
    unfold e2. destruct (N.ltb_spec q1 4503599627370496) as [L|L].
    - replace (k - 52 - 1 + 53)%Z with k by lia. split; [apply M|]. rewrite BK, XE.
      apply Rmult_lt_compat_r; [exact BP|]. rewrite <- V.
      assert (q1 + 1 <= 4503599627370496)%N as L' by lia. apply NR_le in L'. rewrite NR_add, NR_1 in L'. lra.
    - replace (k - 52 + 53)%Z with (k + 1)%Z by lia. split; [|apply M]. replace (k + 1 - 1)%Z with k by lia.
      rewrite BK, XE. apply Rmult_le_compat_r; [lra|]. rewrite <- V. apply NR_le in L. lra. }
  clearbody e2. clear E1 R1 DV1 q1 r1 dv1.
  set (e := Z.max e2 (-1074)).
  assert (MAG : mag radix2 x = (e2 + 53)%Z :> Z).
  { apply mag_unique. rewrite Rabs_pos_eq by lra. exact MG. }
  assert (CE : cexp radix2 fe x = e).
  { unfold cexp, FLT_exp. rewrite MAG. unfold e. f_equal. lia. }
  pose proof (div2e_spec n d e D') as S2. destruct (div2e n d e) as [[q r] dv]. destruct S2 as (DV & RV & E). fold x in E.
  pose proof (nearest_spec q r dv _ DV RV E) as NS.
  set (m := if match (2 * r ?= dv)%N with Gt => true | Eq => N.odd q | Lt => false end then (q + 1)%N else q) in *.
  assert (RD : float64 x = NR m * bpow radix2 e).
  { unfold float64, round, F2R. cbn [Fnum Fexp]. unfold scaled_mantissa. rewrite CE, NS. reflexivity. }
  clearbody m. clear NS E RV DV q r dv.
  assert (HI : float64 x <= bpow radix2 (Z.max (e2 + 53) (-1074))).
  { apply round_le_generic; [apply FLT_exp_valid; easy|apply valid_rnd_N| |].
    - apply generic_format_bpow. unfold FLT_exp. lia.
    - apply Rle_trans with (bpow radix2 (e2 + 53)); [lra|]. apply bpow_le. lia. }
  assert (BE : 0 < bpow radix2 e) by apply bpow_gt_0.
  destruct ((971 <? e)%Z || ((e =? 971)%Z && (two53 <=? m)%N))%bool eqn:OV.
  - apply orb_true_iff in OV. destruct OV as [L|L].
    + apply Z.ltb_lt in L. apply Rle_trans with (bpow radix2 (e2 + 53 - 1)); [apply bpow_le; lia|].
      apply round_ge_generic; [apply FLT_exp_valid; easy|apply valid_rnd_N| |apply MG].
      apply generic_format_bpow. unfold FLT_exp. lia.
    + apply andb_true_iff in L. destruct L as [L1 L2]. apply Z.eqb_eq in L1. apply N.leb_le in L2.
      rewrite RD, L1. apply NR_le in L2. rewrite two53_R in L2.
      change 1024%Z with (53 + 971)%Z. rewrite bpow_plus. apply Rmult_le_compat_r; [apply bpow_ge_0|exact L2].
  - apply orb_false_iff in OV. destruct OV as [L1 L2]. apply Z.ltb_ge in L1.
    pose proof (scale2_spec m e) as SS. destruct (scale2 m e) as [a0 b0]. destruct SS as [B0 FB].
    pose proof (reduce_spec a0 b0 B0) as RS. destruct (reduce a0 b0) as [a b]. destruct RS as (LW & FE & _).
    split; [exact LW|]. split; [rewrite FE, FB, RD; reflexivity|].
    destruct (Z.eqb_spec e 971) as [E9|N9].
    + cbn [andb] in L2. apply N.leb_gt in L2. rewrite RD, E9. apply NR_lt in L2. rewrite two53_R in L2.
      change 1024%Z with (53 + 971)%Z. rewrite bpow_plus. apply Rmult_lt_compat_r; [apply bpow_gt_0|exact L2].
    + eapply Rle_lt_trans; [exact HI|]. apply bpow_lt. unfold e in *. lia.
Qed.
