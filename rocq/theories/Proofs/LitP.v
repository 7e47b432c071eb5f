(** Number literals: what they denote, and the layouts of the encoder. *)
From Coq Require Import String Ascii List Arith ZArith NArith Bool Reals Lia Lra Psatz.
From Flocq Require Import Core.
From Verif Require Import Model.GoStr Model.Json Model.Num Spec.NameSpec Spec.JsonSpec Spec.NumberSpec
  Proofs.StrP Proofs.JsonP Proofs.JsonRT Proofs.NumP Proofs.FloatP.
Import ListNotations.
Open Scope nat_scope.
Open Scope string_scope.

Lemma lit_scan a b c d : sign_opt a -> int_lit b -> frac_opt c -> exp_opt d ->
  scan_minus (a ++ b ++ c ++ d) = (a, b ++ c ++ d) /\
  scan_int (b ++ c ++ d) = Some (b, c ++ d) /\
  scan_frac (c ++ d) = Some (c, d) /\ scan_exp d = Some (d, "").
Proof.
  intros Ha Hb Hc Hd.
    assert (M : scan_minus (a ++ b ++ c ++ d) = (a, b ++ c ++ d)).
    { destruct Ha as [->| ->]; [|reflexivity]. cbn.
      assert (exists x y, b = String x y /\ Ascii.eqb x "-"%char = false) as (x & y & -> & N).
      { destruct Hb as [|x D N|x y D N S]; eexists _, _; (split; [reflexivity|]); [reflexivity|..];
          apply digit_spec, digit_not_sign in D; tauto. }
      cbn. now rewrite N. }
    assert (Sd : match d with String x _ => is_digit x = false | _ => True end).
    { destruct Hd as [->|(e & sg & dd & He & Hs & Hdd & ->)]; [exact I|]. destruct He as [->| ->]; reflexivity. }
    assert (Sc : match c ++ d with String x _ => is_digit x = false | _ => True end).
    { destruct Hc as [->|(dd & Hdd & ->)]; [exact Sd|reflexivity]. }
    assert (I : scan_int (b ++ c ++ d) = Some (b, c ++ d)).
    { destruct Hb as [|x D N|x y D N S].
      - reflexivity.
      - cbn. apply Ascii.eqb_neq in N. rewrite N. apply digit_spec in D. rewrite D.
        change (c ++ d) with ("" ++ c ++ d). now rewrite (span_digits_exact "" (c ++ d)).
      - cbn. apply Ascii.eqb_neq in N. rewrite N. apply digit_spec in D. rewrite D.
        apply some_digits_spec in S. rewrite (span_digits_exact y (c ++ d)) by tauto. reflexivity. }
    assert (F : scan_frac (c ++ d) = Some (c, d)).
    { destruct Hc as [->|(dd & Hdd & ->)].
      - cbn. destruct d as [|x d]; [reflexivity|]. cbn.
        assert (Ascii.eqb x "."%char = false) as ->; [|reflexivity].
        destruct Hd as [E|(e & sg & dd & He & Hs & Hdd & E)]; [discriminate|].
        destruct He as [->| ->]; injection E as -> _; reflexivity.
      - apply some_digits_spec in Hdd. cbn. rewrite (span_digits_exact dd d) by tauto.
        destruct (String.eqb_spec dd "") as [E|_]; [tauto|]. reflexivity. }
    assert (E : scan_exp d = Some (d, "")).
    { destruct Hd as [->|(e & sg & dd & He & Hs & Hdd & ->)]; [reflexivity|].
      apply some_digits_spec in Hdd. destruct Hdd as [Ne Hdd].
      assert (Sg : scan_sign (sg ++ dd) = (sg, dd)).
      { destruct Hs as [->|[->| ->]]; try reflexivity. cbn. destruct dd as [|x dd]; [contradiction|]. cbn in *.
        apply andb_true_iff in Hdd. destruct Hdd as [Dx _]. apply digit_not_sign in Dx. destruct Dx as [-> ->]. reflexivity. }
      assert (Sp : span_digits dd = (dd, "")).
      { rewrite <- (append_nil_r dd) at 1. now apply span_digits_exact. }
      destruct (String.eqb_spec dd "") as [E|Ne']; [contradiction|].
      destruct He as [->| ->]; cbn [append]; unfold scan_exp; cbn [Ascii.eqb orb]; cbn;
        rewrite Sg, Sp; destruct (String.eqb_spec dd "") as [E|_]; try contradiction; reflexivity. }
    auto.
Qed.

(** Rows of digits. *)
Lemma row_digits s : sforall is_digit s = true -> forall a, exists n, digits_acc a s = Some n /\ row (Z.of_N a) s = Z.of_N n.
Proof.
  induction s as [|c s IH]; intros D a; [eexists; split; reflexivity|]. cbn [row digits_acc sforall] in D |- *.
  apply andb_true_iff in D. destruct D as [Dc D]. rewrite Dc.
  destruct (IH D (10 * a + digit_val c)%N) as (n & A & B). exists n. split; [exact A|]. rewrite <- B. f_equal.
  unfold digit_val, code. apply digit_spec in Dc. unfold digit in Dc.
  unfold nat_of_ascii. lia.
Qed.
Lemma digits0_row s : sforall is_digit s = true -> Z.of_N (digits0 s) = row 0 s.
Proof. intros D. destruct (row_digits s D 0%N) as (n & A & B). unfold digits0. rewrite A. symmetry. exact B. Qed.
Lemma row_app s t a : row a (s ++ t) = row (row a s) t.
Proof. revert a. induction s as [|c s IH]; intros a; [reflexivity|]. cbn. apply IH. Qed.
Lemma row_shift s a : row a s = (a * 10 ^ Z.of_nat (String.length s) + row 0 s)%Z.
Proof.
  revert a. induction s as [|c s IH]; intros a; [cbn; lia|]. cbn [row String.length].
  rewrite IH, (IH (10 * 0 + _)%Z). rewrite Nat2Z.inj_succ, Z.pow_succ_r by lia. ring.
Qed.

(** The number a decoded literal stands for. *)
Definition dec_real (x : dec) : R :=
  ((if dec_neg x then -1 else 1) * NR (dec_mant x) * bpow ten (dec_exp x))%R.

Lemma int_lit_digits b : int_lit b -> sforall is_digit b = true.
Proof.
  intros [|c D _|c s D _ S]; [reflexivity|..]; cbn; apply digit_spec in D; rewrite D; [reflexivity|].
  apply some_digits_spec in S. apply S.
Qed.
Lemma bpow10_shift n : (0 <= n)%Z -> (IZR (10 ^ n) = bpow ten n)%R.
Proof. intros H. change 10%Z with (radix_val ten). now apply IZR_Zpower. Qed.

Lemma exp_parts d e : exp_value_is d e -> exp_opt d /\ exp_value d = e.
Proof.
  intros [[-> ->]|(c & sg & ds & C & D & -> & V)]; [split; [now left|reflexivity]|]. split.
  - right. exists c, sg, ds. repeat split; try assumption. tauto.
  - apply some_digits_spec in D. destruct D as [Ne D].
    assert (Sg : forall g, (g = "" \/ g = "+" \/ g = "-") -> scan_sign (g ++ ds) = (g, ds)).
    { intros g G. destruct G as [->|[->| ->]]; try reflexivity. cbn. destruct ds as [|x ds]; [contradiction|]. cbn in *.
      apply andb_true_iff in D. destruct D as [Dx _]. apply digit_not_sign in Dx. destruct Dx as [-> ->]. reflexivity. }
    assert (X : exp_value (c ++ sg ++ ds) = let z := Z.of_N (digits0 ds) in if String.eqb sg "-" then Z.opp z else z).
    { destruct C as [->| ->]; cbn [append exp_value]; rewrite (Sg sg) by tauto; reflexivity. }
    rewrite X. cbv zeta. rewrite digits0_row by exact D.
    destruct V as [[[->| ->] ->]|[-> ->]]; reflexivity.
Qed.

Theorem denotes_dec l v : denotes l v -> valid_number l = true /\ exists x, lit_dec l = Some x /\ v = dec_real x /\ (dec_neg x = true <-> negative l).
Proof.
  intros (a & b & c & d & f & e & A & B & C & D & -> & ->).
  apply exp_parts in D. destruct D as [D E].
  assert (C' : frac_opt c) by (destruct C as [[-> _]|(ds & S & -> & _)]; [now left|right; eauto]).
  split; [apply number_lit_spec; exists a, b, c, d; auto|].
  destruct (lit_scan a b c d A B C' D) as (M & I & F & X). unfold lit_dec. rewrite M, I, F, X. eexists. split; [reflexivity|].
  pose proof (int_lit_digits b B) as DB.
  assert (SG : (sign_value a = if negb (String.eqb a "") then -1 else 1)%R) by (destruct A as [->| ->]; reflexivity).
  split; [|cbn [dec_neg]; split].
  - unfold dec_real. cbn [dec_neg dec_mant dec_exp]. rewrite SG, E.
    destruct C as [[-> ->]|(ds & S & -> & ->)].
    + cbn [String.length Z.of_nat]. rewrite append_nil_r, Z.sub_0_r. unfold NR. rewrite digits0_row by exact DB. ring.
    + apply some_digits_spec in S. destruct S as [_ S]. cbn [append].
      unfold NR. rewrite digits0_row by (rewrite sforall_app, DB, S; reflexivity).
      rewrite row_app, (row_shift ds (row 0 b)), plus_IZR, mult_IZR, bpow10_shift by lia.
      unfold Zminus. rewrite bpow_plus.
      assert (Y : (bpow ten (Z.of_nat (String.length ds)) * bpow ten (- Z.of_nat (String.length ds)) = 1)%R).
      { rewrite <- bpow_plus, Z.add_opp_diag_r. reflexivity. }
      set (u := bpow ten (Z.of_nat (String.length ds))) in *. set (w := bpow ten (- Z.of_nat (String.length ds))) in *.
      set (g := (if negb (String.eqb a "") then -1 else 1)%R).
      replace (g * (IZR (row 0 b) * u + IZR (row 0 ds)) * (bpow ten e * w))%R
        with (g * (IZR (row 0 b) * (u * w) + IZR (row 0 ds) * w) * bpow ten e)%R by ring.
      rewrite Y. ring.
  - destruct A as [->| ->]; [discriminate|]. intros _. eexists. reflexivity.
  - intros [l' N]. destruct A as [->| ->]; [|reflexivity]. cbn [append] in N.
    destruct B as [|x G _|x y G _ S]; cbn in N; [discriminate|..]; injection N as -> _; apply digit_spec in G; discriminate.
Qed.
Lemma denotes_exists l : valid_number l = true -> exists v, denotes l v.
Proof.
  intros V. apply number_lit_spec in V. destruct V as (a & b & c & d & A & B & C & D & ->).
  assert (F : exists f, frac_value c f).
  { destruct C as [->|(ds & S & ->)]; [exists 0%R; now left|]. eexists. right. eauto. }
  assert (E : exists e, exp_value_is d e).
  { destruct D as [->|(e & sg & ds & He & Hs & Hd & ->)]; [exists 0%Z; now left|].
    destruct Hs as [->|[->| ->]]; eexists; right; exists e; eexists; exists ds; (split; [exact He|]); (split; [exact Hd|]);
      (split; [reflexivity|]); [left|left|right]; split; auto. }
  destruct F as [f F]. destruct E as [e E]. eexists. exists a, b, c, d, f, e. repeat (split; [eassumption|]). split; reflexivity.
Qed.

(** Lengths of decimal numerals. *)
Lemma row_bound s : sforall is_digit s = true -> (0 <= row 0 s < 10 ^ Z.of_nat (String.length s))%Z.
Proof.
  induction s as [|c s IH]; intros D; [cbn; lia|]. cbn [row String.length sforall] in *.
  apply andb_true_iff in D. destruct D as [Dc D]. specialize (IH D). rewrite row_shift.
  apply digit_spec in Dc. unfold digit in Dc. unfold nat_of_ascii.
  rewrite Nat2Z.inj_succ, Z.pow_succ_r by lia. rewrite N_nat_Z.
  set (p := (10 ^ Z.of_nat (String.length s))%Z) in *. nia.
Qed.
Lemma row_itoaN n : row 0 (itoaN n) = Z.of_N n.
Proof.
  rewrite <- digits0_row by apply itoaN_digits. unfold digits0.
  rewrite <- (append_nil_r (itoaN n)), digits_acc_itoaN. reflexivity.
Qed.
Lemma itoaN_upper n : (n < 10 ^ N.of_nat (String.length (itoaN n)))%N.
Proof.
  pose proof (row_bound _ (itoaN_digits n)) as [_ B]. rewrite row_itoaN in B.
  apply N2Z.inj_lt. rewrite N2Z.inj_pow, nat_N_Z. exact B.
Qed.
Lemma itoaN_lower n : (0 < n)%N -> (10 ^ N.of_nat (String.length (itoaN n) - 1) <= n)%N.
Proof.
  intros P. destruct (itoa_aux_head _ n "" P (size_bound n)) as (c & s & E & D & N0).
  change (itoa_aux (S (N.size_nat n)) n "") with (itoaN n) in E.
  pose proof (row_itoaN n) as R. pose proof (itoaN_digits n) as A. rewrite E in *. cbn [sforall row String.length] in *.
  rewrite row_shift in R. rewrite D in A. cbn [andb] in A. pose proof (row_bound s A) as B.
  assert (C : (1 <= Z.of_nat (nat_of_ascii c) - 48)%Z).
  { apply digit_spec in D. unfold digit in D. unfold nat_of_ascii. assert (N_of_ascii c <> 48%N); [|lia].
    intros K. apply N0. rewrite <- (ascii_N_embedding c), K. reflexivity. }
  apply N2Z.inj_le. rewrite N2Z.inj_pow, nat_N_Z. replace (S (String.length s) - 1) with (String.length s) by lia.
  change (Z.of_N 10) with 10%Z. set (p := (10 ^ Z.of_nat (String.length s))%Z) in *. nia.
Qed.
Lemma itoaN_len_pos n : 1 <= String.length (itoaN n).
Proof. destruct (itoaN_cons n) as (c & s & -> & _). cbn. lia. Qed.

(** The float64 of a real number. *)
Open Scope R_scope.
Lemma float64_opp x : float64 (- x) = - float64 x.
Proof. apply round_NE_opp. Qed.
Lemma float64_0 : float64 0 = 0.
Proof. apply round_0, valid_rnd_N. Qed.
Lemma float64_le x y : x <= y -> float64 x <= float64 y.
Proof. apply round_le; [apply FLT_exp_valid; easy|apply valid_rnd_N]. Qed.
Lemma float64_pos x : 0 <= x -> 0 <= float64 x.
Proof. intros H. rewrite <- float64_0. now apply float64_le. Qed.
Lemma float64_fix x : generic_format radix2 fe x -> float64 x = x.
Proof. intros H. apply round_generic; [apply valid_rnd_N|exact H]. Qed.
Lemma float64_format x : generic_format radix2 fe (float64 x).
Proof. apply generic_format_round; [apply FLT_exp_valid; easy|apply valid_rnd_N]. Qed.
Lemma float64_signed (b : bool) x : float64 ((if b then -1 else 1) * x) = (if b then -1 else 1) * float64 x.
Proof.
  destruct b; [|now rewrite !Rmult_1_l]. replace (-1 * x) with (- x) by ring. rewrite float64_opp. ring.
Qed.
Lemma float64_big x : bpow ten 400 <= x -> bpow radix2 1024 <= float64 x.
Proof.
  intros H. apply round_ge_generic; [apply FLT_exp_valid; easy|apply valid_rnd_N|apply generic_format_bpow; unfold FLT_exp; lia|].
  eapply Rle_trans; [|exact H]. rewrite <- !IZR_Zpower by lia. apply IZR_le. vm_compute. discriminate.
Qed.
Lemma float64_small x : 0 < x -> x < bpow ten (-400) -> float64 x = 0.
Proof.
  intros P H. unfold float64. apply round_N_small_pos with (ex := mag radix2 x : Z).
  - pose proof (bpow_mag_gt radix2 x). pose proof (bpow_mag_le radix2 x). rewrite Rabs_pos_eq in * by lra. split; [apply H1; lra|exact H0].
  - assert (mag radix2 x <= -1075)%Z.
    { apply mag_le_bpow; [lra|]. rewrite Rabs_pos_eq by lra. eapply Rlt_le_trans; [exact H|].
      change (-400)%Z with (- (400))%Z. change (-1075)%Z with (- (1075))%Z. rewrite !bpow_opp.
      apply Rinv_le; [apply bpow_gt_0|]. rewrite <- !IZR_Zpower by lia. apply IZR_le. vm_compute. discriminate. }
    unfold FLT_exp. lia.
Qed.

Definition flt_real (f : flt) : R := (if f_neg f then -1 else 1) * frac (f_num f) (f_den f).
Lemma frac_0 d : frac 0 d = 0.
Proof. unfold frac. rewrite NR_0. unfold Rdiv. ring. Qed.
Lemma frac_1 n : frac n 1 = NR n.
Proof. unfold frac. rewrite NR_1. field. Qed.
Lemma frac_ge0 n d : 0 <= frac n d.
Proof.
  unfold frac. destruct (N.eq_dec d 0) as [->|D].
  - rewrite NR_0. unfold Rdiv. rewrite Rinv_0, Rmult_0_r. lra.
  - apply Rmult_le_pos; [apply NR_ge0|]. apply Rlt_le, Rinv_0_lt_compat, NR_pos. lia.
Qed.
Lemma Rabs_sg (b : bool) x : 0 <= x -> Rabs ((if b then -1 else 1) * x) = x.
Proof. intros H. destruct b; [replace (-1 * x) with (- x) by ring; rewrite Rabs_Ropp|rewrite Rmult_1_l]; now apply Rabs_pos_eq. Qed.

Definition good (f : flt) (v : R) : Prop :=
  lowest (f_num f) (f_den f) /\ float64 v = flt_real f /\ Rabs (float64 v) < bpow radix2 1024.

Theorem lit_float_correct l x : lit_dec l = Some x ->
  match lit_float l with
  | Some f => f_neg f = dec_neg x /\ good f (dec_real x)
  | None => out_of_range (dec_real x)
  end.
Proof.
  intros E. unfold lit_float. rewrite E. unfold good, flt_real, out_of_range, dec_real.
  rewrite Rmult_assoc, float64_signed.
  destruct (N.eqb_spec (dec_mant x) 0) as [Z0|NZ].
  { cbn [f_neg f_num f_den]. rewrite Z0, NR_0, Rmult_0_l, float64_0, frac_0.
    split; [reflexivity|]. split; [now apply lowest_1|]. split; [reflexivity|]. rewrite Rmult_0_r, Rabs_R0. apply bpow_gt_0. }
  set (m := dec_mant x) in *. set (g := (if dec_neg x then -1 else 1)).
  assert (P : (0 < m)%N) by lia.
  assert (RA : forall y, 0 <= y -> Rabs (g * y) = y) by (intros y Y; unfold g; now apply Rabs_sg).
  assert (VP : 0 < NR m * bpow ten (dec_exp x)).
  { apply Rmult_lt_0_compat; [now apply NR_pos|apply bpow_gt_0]. }
  pose proof (float64_pos _ (Rlt_le _ _ VP)) as FP.
  pose proof (itoaN_upper m) as U. pose proof (itoaN_lower m P) as L. pose proof (itoaN_len_pos m) as LP.
  apply NR_lt in U. apply NR_le in L. rewrite NR_pow10, nat_N_Z in U, L.
  destruct ((dec_exp x =? 0)%Z && (m <=? two53)%N) eqn:FAST.
  { apply andb_true_iff in FAST. destruct FAST as [A B]. apply Z.eqb_eq in A. apply N.leb_le in B.
    cbn [f_neg f_num f_den]. rewrite A in *. change (bpow ten 0) with 1 in *. rewrite Rmult_1_r in *. rewrite frac_1.
    split; [reflexivity|]. split; [apply lowest_1|].
    rewrite (float64_fix (NR m)) in * by now apply int_format. split; [reflexivity|]. rewrite RA by apply NR_ge0.
    apply Rle_lt_trans with (NR two53); [now apply NR_le|]. rewrite two53_R. apply bpow_lt. lia. }
  destruct (Z.ltb_spec 400 (Z.of_nat (String.length (itoaN m)) + dec_exp x)) as [BIG|NB].
  { rewrite RA by exact FP. apply float64_big.
    apply Rle_trans with (bpow ten (Z.of_nat (String.length (itoaN m) - 1) + dec_exp x)); [apply bpow_le; lia|].
    rewrite bpow_plus. apply Rmult_le_compat_r; [apply bpow_ge_0|exact L]. }
  destruct (Z.ltb_spec (Z.of_nat (String.length (itoaN m)) + dec_exp x) (-400)) as [SM|NS].
  { cbn [f_neg f_num f_den]. split; [reflexivity|]. split; [apply lowest_1|].
    rewrite (float64_small (NR m * bpow ten (dec_exp x))); [|exact VP|].
    - rewrite frac_0, !Rmult_0_r, Rabs_R0. split; [reflexivity|apply bpow_gt_0].
    - apply Rlt_le_trans with (bpow ten (Z.of_nat (String.length (itoaN m)) + dec_exp x)); [|apply bpow_le; lia].
      rewrite bpow_plus. apply Rmult_lt_compat_r; [apply bpow_gt_0|exact U]. }
  destruct (if (0 <=? dec_exp x)%Z then ((m * 10 ^ Z.to_N (dec_exp x))%N, 1%N)
            else (m, (10 ^ Z.to_N (- dec_exp x))%N)) as [n d] eqn:ND.
  assert (PR : (0 < n)%N /\ (0 < d)%N /\ frac n d = NR m * bpow ten (dec_exp x)).
  { destruct (Z.leb_spec 0 (dec_exp x)) as [K|K]; injection ND as <- <-.
    - assert (10 ^ Z.to_N (dec_exp x) <> 0)%N by (apply N.pow_nonzero; discriminate).
      split; [apply N.mul_pos_pos; lia|]. split; [lia|]. rewrite frac_1, NR_mul, NR_pow10, Z2N.id by lia. reflexivity.
    - assert (10 ^ Z.to_N (- dec_exp x) <> 0)%N by (apply N.pow_nonzero; discriminate).
      split; [exact P|]. split; [lia|]. unfold frac. rewrite NR_pow10, Z2N.id by lia.
      unfold Rdiv. rewrite <- bpow_opp. do 2 f_equal. lia. }
  destruct PR as (PN & PD & FE). pose proof (round64_correct n d PN PD) as RC. rewrite FE in RC.
  destruct (round64 n d) as [[a b]|].
  - cbn [f_neg f_num f_den]. destruct RC as (LW & EQ & LT). split; [reflexivity|]. split; [exact LW|].
    rewrite EQ. split; [reflexivity|]. now rewrite RA.
  - now rewrite RA.
Qed.
