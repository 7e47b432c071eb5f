(** The shortest decimal that reads back. *)
From Coq Require Import String Ascii List Arith ZArith NArith Bool Reals Lia Lra Psatz.
From Flocq Require Import Core.
From Verif Require Import Model.GoStr Model.Json Model.Num Spec.NumberSpec Proofs.StrP Proofs.FloatP Proofs.LitP.
Import ListNotations.
Open Scope R_scope.

Lemma frac_lt_l n d m : (0 < d)%N -> (frac n d < NR m <-> (n < d * m)%N).
Proof.
  intros P. assert (0 < NR d) by now apply NR_pos. rewrite NR_lt, NR_mul. unfold frac.
  assert (E : NR n = NR n / NR d * NR d) by (field; lra). rewrite E at 2. split; intros K; nra.
Qed.
Lemma lt_pow10_spec n d p : (0 < d)%N -> lt_pow10 n d p = true <-> frac n d < bpow ten p.
Proof.
  intros P. assert (0 < NR d) by now apply NR_pos. unfold lt_pow10. destruct (Z.leb_spec 0 p) as [L|L]; rewrite N.ltb_lt.
  - rewrite <- (Z2N.id p) at 2 by exact L. rewrite <- NR_pow10. symmetry. now apply frac_lt_l.
  - rewrite NR_lt, NR_mul, NR_pow10, Z2N.id, bpow_opp by lia.
    pose proof (bpow_gt_0 ten p) as B. unfold frac.
    assert (E : NR n = NR n / NR d * NR d) by (field; lra). set (x := NR n / NR d) in *. rewrite E.
    assert (I : / bpow ten p * bpow ten p = 1) by (field; lra).
    assert (0 < / bpow ten p) by now apply Rinv_0_lt_compat.
    set (i := / bpow ten p) in *. set (b := bpow ten p) in *. split; intros K.
    + assert (x * i < 1) by nra. assert (x * i * b < 1 * b) by (apply Rmult_lt_compat_r; lra).
      rewrite Rmult_assoc, I in H2. lra.
    + assert (x * i < b * i) by (apply Rmult_lt_compat_r; lra). nra.
Qed.

Lemma find_point_spec n d : (0 < d)%N -> forall f p, bpow ten (p - 1) <= frac n d -> frac n d < bpow ten (p + Z.of_nat f) ->
  let q := find_point f n d p in bpow ten (q - 1) <= frac n d < bpow ten q.
Proof.
  intros P. induction f as [|f IH]; intros p A B; cbn [find_point].
  - rewrite Z.add_0_r in B. auto.
  - destruct (lt_pow10 n d p) eqn:E; [apply lt_pow10_spec in E; auto|].
    apply IH.
    + replace (p + 1 - 1)%Z with p by lia. apply Rnot_lt_le. intros K. apply lt_pow10_spec in K; [congruence|exact P].
    + replace (p + 1 + Z.of_nat f)%Z with (p + Z.of_nat (S f))%Z by lia. exact B.
Qed.

(** 10^p <= 2^k for each binary exponent of a float64. *)
Definition le10 (p k : Z) : bool :=
  (10 ^ Z.max p 0 * 2 ^ Z.max (- k) 0 <=? 2 ^ Z.max k 0 * 10 ^ Z.max (- p) 0)%Z.
Lemma bpow_split b k : bpow b k = IZR (Zpower b (Z.max k 0)) * / IZR (Zpower b (Z.max (- k) 0)).
Proof.
  rewrite !IZR_Zpower by lia. destruct (Z.leb_spec 0 k).
  - rewrite (Z.max_l k 0), (Z.max_r (- k) 0) by lia. cbn [bpow]. rewrite Rinv_1, Rmult_1_r. reflexivity.
  - rewrite (Z.max_r k 0), (Z.max_l (- k) 0) by lia. cbn [bpow]. rewrite Rmult_1_l, bpow_opp, Rinv_inv. reflexivity.
Qed.
Lemma cross a b c d : 0 < b -> 0 < d -> (a * / b <= c * / d <-> a * d <= c * b).
Proof.
  intros B D. assert (a = a * / b * b) by (field; lra). assert (c = c * / d * d) by (field; lra).
  set (x := a * / b) in *. set (y := c * / d) in *. clearbody x y. subst a c.
  replace (x * b * d) with (x * (b * d)) by ring. replace (y * d * b) with (y * (b * d)) by ring.
  assert (0 < b * d) by nra. split; intros K; [apply Rmult_le_compat_r; lra|now apply Rmult_le_reg_r with (b * d)].
Qed.
Lemma le10_spec p k : le10 p k = true <-> bpow ten p <= bpow radix2 k.
Proof.
  unfold le10. rewrite Z.leb_le, !bpow_split, cross.
  - rewrite <- !mult_IZR. cbn [radix_val ten radix2]. split; [apply IZR_le|apply le_IZR].
  - apply IZR_lt. apply Zpower_gt_0. lia.
  - apply IZR_lt. apply Zpower_gt_0. lia.
Qed.
Definition ge10 (p k : Z) : bool :=
  (2 ^ Z.max k 0 * 10 ^ Z.max (- p) 0 <=? 10 ^ Z.max p 0 * 2 ^ Z.max (- k) 0)%Z.
Lemma ge10_spec p k : ge10 p k = true <-> bpow radix2 k <= bpow ten p.
Proof.
  unfold ge10. rewrite Z.leb_le, !bpow_split, cross.
  - rewrite <- !mult_IZR. cbn [radix_val ten radix2]. split; [apply IZR_le|apply le_IZR].
  - apply IZR_lt. apply Zpower_gt_0. lia.
  - apply IZR_lt. apply Zpower_gt_0. lia.
Qed.
Fixpoint all_from (f : Z -> bool) (n : nat) (z : Z) : bool :=
  match n with O => true | S n' => f z && all_from f n' (z + 1)%Z end.
Lemma all_from_spec f n : forall z, all_from f n z = true -> forall k, (z <= k < z + Z.of_nat n)%Z -> f k = true.
Proof.
  induction n as [|n IH]; intros z H k K; [lia|]. cbn [all_from] in H. apply andb_true_iff in H. destruct H as [A B].
  destruct (Z.eq_dec k z) as [->|NE]; [exact A|]. apply (IH (z + 1)%Z); [exact B|lia].
Qed.
(** The estimate of the decimal point from the binary exponent, in three steps of 196, 10 and 1. *)
Definition near (m w : Z) (a : Z) : bool := (le10 (m * a - (if a <? 0 then 1 else 0)) (w * a) && ge10 (m * a + 1) (w * a))%Z.
Lemma steps196 : all_from (near 59 196) 13 (-6) = true.
Proof. vm_compute. reflexivity. Qed.
Lemma steps10 : all_from (near 3 10) 20 0 = true.
Proof. vm_compute. reflexivity. Qed.
Definition near1 (c : Z) : bool := le10 (c * 30103 / 100000) c && ge10 (c * 30103 / 100000 + 1) c.
Lemma steps1 : all_from near1 10 0 = true.
Proof. vm_compute. reflexivity. Qed.
Lemma estimate K : (-1100 <= K <= 1100)%Z ->
  bpow ten (K * 30103 / 100000 - 2) <= bpow radix2 K <= bpow ten (K * 30103 / 100000 + 6).
Proof.
  intros B. set (a := (K / 196)%Z). set (r := (K mod 196)%Z). set (b := (r / 10)%Z). set (c := (r mod 10)%Z).
  assert (E : (K = 196 * a + (10 * b + c))%Z).
  { unfold b, c. rewrite <- Z.div_mod by lia. apply Z.div_mod. lia. }
  assert (BR : (0 <= r < 196)%Z) by (apply Z.mod_pos_bound; lia).
  assert (BC : (0 <= c < 10)%Z) by (apply Z.mod_pos_bound; lia).
  assert (BA : (-6 <= a <= 6)%Z) by (unfold a; split; [apply Z.div_le_lower_bound|apply Z.lt_succ_r, Z.div_lt_upper_bound]; lia).
  assert (BB : (0 <= b < 20)%Z) by (unfold b; split; [apply Z.div_le_lower_bound|apply Z.div_lt_upper_bound]; lia).
  clearbody a r b c.
  pose proof (all_from_spec _ _ _ steps196 a ltac:(lia)) as A. pose proof (all_from_spec _ _ _ steps10 b ltac:(lia)) as T.
  pose proof (all_from_spec _ _ _ steps1 c ltac:(lia)) as U.
  apply andb_true_iff in A, T, U. destruct A as [A1 A2]. destruct T as [T1 T2]. destruct U as [U1 U2].
  apply le10_spec in A1, T1, U1. apply ge10_spec in A2, T2, U2.
  destruct (Z.ltb_spec b 0) as [L|_]; [lia|]. rewrite Z.sub_0_r in T1.
  set (C := (c * 30103 / 100000)%Z) in *.
  assert (HC : (100000 * C <= c * 30103 < 100000 * C + 100000)%Z).
  { unfold C. pose proof (Z.mul_div_le (c * 30103) 100000). pose proof (Z.mul_succ_div_gt (c * 30103) 100000). lia. }
  set (P := (K * 30103 / 100000)%Z).
  assert (HP : (100000 * P <= K * 30103 < 100000 * P + 100000)%Z).
  { unfold P. pose proof (Z.mul_div_le (K * 30103) 100000). pose proof (Z.mul_succ_div_gt (K * 30103) 100000). lia. }
  clearbody C P. rewrite E at 1 2. rewrite !bpow_plus.
  pose proof (bpow_ge_0 radix2 (196 * a)). pose proof (bpow_ge_0 radix2 (10 * b)). pose proof (bpow_ge_0 radix2 c).
  split.
  - apply Rle_trans with (bpow ten (59 * a - (if (a <? 0)%Z then 1 else 0)) * (bpow ten (3 * b) * bpow ten C)).
    + rewrite <- !bpow_plus. apply bpow_le. destruct (Z.ltb_spec a 0); lia.
    + apply Rmult_le_compat; [apply bpow_ge_0|apply Rmult_le_pos; apply bpow_ge_0|exact A1|].
      apply Rmult_le_compat; try apply bpow_ge_0; assumption.
  - apply Rle_trans with (bpow ten (59 * a + 1) * (bpow ten (3 * b + 1) * bpow ten (C + 1))).
    + apply Rmult_le_compat; [apply bpow_ge_0|apply Rmult_le_pos; apply bpow_ge_0|exact A2|].
      apply Rmult_le_compat; try apply bpow_ge_0; assumption.
    + rewrite <- !bpow_plus. apply bpow_le. lia.
Qed.

Lemma point_spec n d : (0 < n)%N -> (0 < d)%N -> bpow radix2 (-1074) <= frac n d < bpow radix2 1024 ->
  bpow ten (point n d - 1) <= frac n d < bpow ten (point n d).
Proof.
  intros P Q [A B]. pose proof (frac_mag n d P Q) as M. cbv zeta in M. unfold point.
  set (k := (Z.of_N (N.log2 n) - Z.of_N (N.log2 d))%Z) in *. destruct M as [M1 M2].
  assert (K : (-1077 <= k < 1027)%Z).
  { assert (k - 1 < 1024)%Z by (apply (lt_bpow radix2); lra). assert (-1074 < k + 1)%Z by (apply (lt_bpow radix2); lra). lia. }
  destruct (estimate (k - 1)) as [O1 O2]; [lia|]. set (p := ((k - 1) * 30103 / 100000)%Z) in *.
  apply find_point_spec; [exact Q| |].
  - replace (p - 1 - 1)%Z with (p - 2)%Z by lia. lra.
  - replace (k + 1)%Z with (k - 1 + 2)%Z in M2 by lia. rewrite bpow_plus in M2.
    replace (p - 1 + Z.of_nat 8)%Z with (p + 6 + 1)%Z by lia. rewrite bpow_plus.
    change (bpow radix2 2) with 4 in M2. change (bpow ten 1) with 10.
    pose proof (bpow_gt_0 ten (p + 6)). lra.
Qed.

(** Candidates. *)
Lemma scale10_spec n d s : d <> 0%N ->
  let '(q, r, dv) := scale10 n d s in
  dv <> 0%N /\ (r < dv)%N /\ frac n d * bpow ten s = NR q + frac r dv.
Proof.
  intros D. unfold scale10. destruct (Z.leb_spec 0 s) as [L|L].
  - split; [exact D|]. split; [now apply N.mod_lt|]. rewrite <- divmod_frac by exact D.
    unfold frac. rewrite NR_mul, NR_pow10, Z2N.id by lia. field. now apply NR_nz.
  - assert (P : (10 ^ Z.to_N (- s) <> 0)%N) by (apply N.pow_nonzero; discriminate).
    assert (D' : (d * 10 ^ Z.to_N (- s) <> 0)%N) by lia.
    split; [exact D'|]. split; [now apply N.mod_lt|]. rewrite <- divmod_frac by exact D'.
    unfold frac. rewrite NR_mul, NR_pow10, Z2N.id by lia.
    replace s with (- - s)%Z at 1 by lia. rewrite bpow_opp. field.
    split; [apply Rgt_not_eq, bpow_gt_0|now apply NR_nz].
Qed.
Lemma reads_back_spec n d c s : lowest n d -> frac n d < bpow radix2 1024 -> (0 < c)%N ->
  reads_back n d c s = true <-> float64 (NR c * bpow ten (- s)) = frac n d.
Proof.
  intros LW LT C. unfold reads_back.
  assert (G : forall a b, (0 < a)%N -> (0 < b)%N -> frac a b = NR c * bpow ten (- s) ->
    match round64 a b with Some (a', b') => ((a' =? n) && (b' =? d))%N | None => false end = true <->
    float64 (NR c * bpow ten (- s)) = frac n d).
  { intros a b A B E. pose proof (round64_correct a b A B) as R. rewrite E in R.
    destruct (round64 a b) as [[u w]|].
    - destruct R as (L & F & _). rewrite andb_true_iff, !N.eqb_eq. rewrite <- F. split.
      + intros [-> ->]. reflexivity.
      + now apply lowest_unique.
    - split; [discriminate|]. intros K. lra. }
  destruct (Z.leb_spec 0 s) as [L|L].
  - assert (10 ^ Z.to_N s <> 0)%N by (apply N.pow_nonzero; discriminate).
    apply G; [exact C|lia|]. unfold frac. rewrite NR_pow10, Z2N.id, bpow_opp by lia. reflexivity.
  - assert (10 ^ Z.to_N (- s) <> 0)%N by (apply N.pow_nonzero; discriminate).
    apply G; [apply N.mul_pos_pos; lia|lia|]. rewrite frac_1, NR_mul, NR_pow10, Z2N.id by lia. reflexivity.
Qed.

(** A number of [nd] digits next to [x] that reads back as [x]. *)
Definition cand (x : R) (p nd : Z) (c : N) : Prop :=
  (0 < c)%N /\ Rabs (NR c - x * bpow ten (nd - p)) < 1 /\ float64 (NR c * bpow ten (- (nd - p))) = x.

Section Shortest.
Variables (n d : N) (p : Z).
Hypothesis LW : lowest n d.
Hypothesis NP : (0 < n)%N.
Hypothesis LT : frac n d < bpow radix2 1024.
Let x := frac n d.

Lemma NR_step a : NR (a + 1) = NR a + 1.
Proof. rewrite NR_add. reflexivity. Qed.

Lemma shortest_spec : forall fuel nd,
  match shortest fuel nd n d p with
  | Some (c, s) => exists m, (nd <= m < nd + Z.of_nat fuel)%Z /\ s = (m - p)%Z /\ cand x p m c /\
      (forall m' c', (nd <= m' < m)%Z -> ~ cand x p m' c') /\
      (forall c', cand x p m c' -> Rabs (NR c - x * bpow ten s) <= Rabs (NR c' - x * bpow ten s))
  | None => forall m c, (nd <= m < nd + Z.of_nat fuel)%Z -> ~ cand x p m c
  end.
Proof.
  destruct LW as [D0 _]. assert (DP : (0 < d)%N) by lia.
  assert (XP : 0 < x) by (apply frac_pos; assumption).
  induction fuel as [|fuel IH]; intros nd; [cbn; intros; lia|]. cbn [shortest]. set (s := (nd - p)%Z).
  pose proof (scale10_spec n d s D0) as SC. destruct (scale10 n d s) as [[lo r] dv]. destruct SC as (DV & RV & E).
  fold x in E. pose proof (frac_unit r dv DV RV) as FU.
  set (z := x * bpow ten s) in *.
  assert (LOK : negb (lo =? 0)%N && reads_back n d lo s = true <-> cand x p nd lo).
  { rewrite andb_true_iff, negb_true_iff, N.eqb_neq. unfold cand. fold s. fold z. split.
    - intros [A B]. apply reads_back_spec in B; [|assumption|assumption|lia]. split; [lia|]. split; [|exact B].
      rewrite E. apply Rabs_lt. lra.
    - intros (A & _ & B). split; [lia|]. now apply reads_back_spec. }
  assert (HOK : negb (r =? 0)%N && reads_back n d (lo + 1) s = true <-> r <> 0%N /\ cand x p nd (lo + 1)).
  { rewrite andb_true_iff, negb_true_iff, N.eqb_neq. unfold cand. fold s. fold z. split.
    - intros [A B]. apply reads_back_spec in B; [|assumption|assumption|lia]. split; [exact A|]. split; [lia|]. split; [|exact B].
      rewrite E, NR_step. assert (0 < frac r dv) by (apply frac_pos; lia). apply Rabs_lt. lra.
    - intros (A & _ & _ & B). split; [exact A|]. apply reads_back_spec; [assumption|assumption|lia|exact B]. }
  assert (TWO : forall c, cand x p nd c -> c = lo \/ (r <> 0%N /\ c = lo + 1)%N).
  { intros c (_ & A & _). fold s in A. fold z in A. rewrite E in A. apply Rabs_lt_inv in A.
    destruct (N.lt_trichotomy c lo) as [K|[K|K]]; [|left; exact K|].
    - exfalso. assert (c + 1 <= lo)%N as K' by lia. apply NR_le in K'. rewrite NR_step in K'. lra.
    - right. destruct (N.eq_dec c (lo + 1)) as [->|NE].
      + split; [|reflexivity]. intros ->. rewrite frac_0 in *. rewrite NR_step in A. lra.
      + exfalso. assert (lo + 1 + 1 <= c)%N as K' by lia. apply NR_le in K'. rewrite !NR_step in K'. lra. }
  assert (HN : ((dv <? 2 * r) || ((dv =? 2 * r) && N.odd lo))%N = true -> / 2 <= frac r dv).
  { intros H. pose proof (frac_half r dv DV) as F. rewrite orb_true_iff, andb_true_iff, N.ltb_lt, N.eqb_eq in H.
    destruct H as [H|[H _]].
    - assert ((2 * r ?= dv) = Gt)%N as C by (apply N.compare_gt_iff; exact H). rewrite C in F. apply Rcompare_Gt_inv in F. lra.
    - assert ((2 * r ?= dv) = Eq)%N as C by (apply N.compare_eq_iff; lia). rewrite C in F. apply Rcompare_Eq_inv in F. lra. }
  assert (HF : ((dv <? 2 * r) || ((dv =? 2 * r) && N.odd lo))%N = false -> frac r dv <= / 2).
  { intros H. pose proof (frac_half r dv DV) as F. rewrite orb_false_iff, N.ltb_ge in H. destruct H as [H _].
    destruct (N.compare_spec (2 * r) dv) as [K|K|K]; [apply Rcompare_Eq_inv in F; lra|apply Rcompare_Lt_inv in F; lra|lia]. }
  assert (DL : Rabs (NR lo - z) = frac r dv).
  { rewrite E. replace (NR lo - (NR lo + frac r dv)) with (- frac r dv) by ring. rewrite Rabs_Ropp. apply Rabs_pos_eq. lra. }
  assert (DH : Rabs (NR (lo + 1) - z) = 1 - frac r dv).
  { rewrite E, NR_step. replace (NR lo + 1 - (NR lo + frac r dv)) with (1 - frac r dv) by ring. apply Rabs_pos_eq. lra. }
  set (hn := ((dv <? 2 * r) || ((dv =? 2 * r) && N.odd lo))%N) in *.
  destruct (negb (lo =? 0)%N && reads_back n d lo s) eqn:LO.
  - assert (CL : cand x p nd lo) by now apply LOK.
    destruct (negb (r =? 0)%N && reads_back n d (lo + 1) s) eqn:HI.
    + destruct (proj1 HOK eq_refl) as [R0 CH]. destruct hn; cbn [andb negb].
      * exists nd. split; [lia|]. split; [reflexivity|]. split; [exact CH|]. split; [intros; lia|].
        intros c' C'. fold z. destruct (TWO c' C') as [->|[_ ->]]; [|lra]. rewrite DL, DH. specialize (HN eq_refl). lra.
      * exists nd. split; [lia|]. split; [reflexivity|]. split; [exact CL|]. split; [intros; lia|].
        intros c' C'. fold z. destruct (TWO c' C') as [->|[_ ->]]; [lra|]. rewrite DL, DH. specialize (HF eq_refl). lra.
    + cbn [andb negb]. exists nd. split; [lia|]. split; [reflexivity|]. split; [exact CL|]. split; [intros; lia|].
      intros c' C'. fold z. destruct (TWO c' C') as [->|[R0 ->]]; [lra|].
      assert (true = true -> false = true); [|now intuition]. intros _. apply HOK. auto.
  - assert (NL : ~ cand x p nd lo) by (intros K; apply LOK in K; discriminate).
    cbn [andb]. destruct (negb (r =? 0)%N && reads_back n d (lo + 1) s) eqn:HI.
    + destruct (proj1 HOK eq_refl) as [R0 CH].
      exists nd. split; [lia|]. split; [reflexivity|]. split; [exact CH|]. split; [intros; lia|].
      intros c' C'. fold z. destruct (TWO c' C') as [->|[_ ->]]; [contradiction|lra].
    + assert (NONE : forall c, ~ cand x p nd c).
      { intros c C. destruct (TWO c C) as [->|[R0 ->]]; [contradiction|].
        assert (false = true) by (apply HOK; auto). discriminate. }
      specialize (IH (nd + 1)%Z). destruct (shortest fuel (nd + 1) n d p) as [[c s']|].
      * destruct IH as (m & B & S & C & F & Q). exists m. split; [lia|]. split; [exact S|]. split; [exact C|]. split; [|exact Q].
        intros m' c' B'. destruct (Z.eq_dec m' nd) as [->|NE]; [apply NONE|apply F; lia].
      * intros m c B. destruct (Z.eq_dec m nd) as [->|NE]; [apply NONE|apply IH; lia].
Qed.
End Shortest.

(** A decimal of k digits that reads back gives a candidate of k digits at least as near. *)
Lemma sandwich x y c : generic_format radix2 fe x -> float64 y = x -> (y <= c <= x \/ x <= c <= y) -> float64 c = x.
Proof.
  intros G Y B. pose proof (float64_fix x G) as X. apply Rle_antisym.
  - destruct B as [[_ B]|[_ B]]; apply float64_le in B; lra.
  - destruct B as [[B _]|[B _]]; apply float64_le in B; lra.
Qed.
Lemma bpow10_1 k : bpow ten (- k) * bpow ten k = 1.
Proof. rewrite <- bpow_plus, Z.add_opp_diag_l. reflexivity. Qed.
Lemma unscale y s : y = y * bpow ten s * bpow ten (- s).
Proof. rewrite Rmult_assoc, <- bpow_plus, Z.add_opp_diag_r. cbn [bpow]. ring. Qed.

Lemma digits_cand x p k y : generic_format radix2 fe x -> bpow ten (p - 1) <= x < bpow ten p -> (1 <= k)%nat ->
  in_digits k y -> float64 y = x ->
  exists c, cand x p (Z.of_nat k) c /\
    Rabs (NR c * bpow ten (- (Z.of_nat k - p)) - x) <= Rabs (y - x).
Proof.
  intros G [P1 P2] K1 (c' & e' & CB & YE) Y.
  set (s := (Z.of_nat k - p)%Z). set (z := x * bpow ten s).
  assert (XP : 0 < x) by (pose proof (bpow_gt_0 ten (p - 1)); lra).
  assert (SP : 0 < bpow ten s) by apply bpow_gt_0. assert (SN : 0 < bpow ten (- s)) by apply bpow_gt_0.
  assert (XZ : x = z * bpow ten (- s)) by apply unscale.
  assert (Z1 : bpow ten (Z.of_nat k - 1) <= z).
  { replace (Z.of_nat k - 1)%Z with (p - 1 + s)%Z by (unfold s; lia). rewrite bpow_plus. apply Rmult_le_compat_r; lra. }
  assert (Z2 : z < bpow ten (Z.of_nat k)).
  { replace (Z.of_nat k) with (p + s)%Z by (unfold s; lia). rewrite bpow_plus. apply Rmult_lt_compat_r; lra. }
  set (w := y * bpow ten s). assert (YW : y = w * bpow ten (- s)) by apply unscale.
  set (lo := Zfloor z). pose proof (Zfloor_lb z) as FL. pose proof (Zfloor_ub z) as FU. fold lo in FL, FU.
  assert (LO1 : (10 ^ (Z.of_nat k - 1) <= lo)%Z).
  { apply Zfloor_lub. rewrite bpow10_shift by lia. exact Z1. }
  assert (L1 : (1 <= lo)%Z) by (assert (0 < 10 ^ (Z.of_nat k - 1))%Z by (apply Z.pow_pos_nonneg; lia); lia).
  assert (TEN : (10 ^ Z.of_nat k)%Z = (10 * 10 ^ (Z.of_nat k - 1))%Z).
  { rewrite <- Z.pow_succ_r by lia. f_equal. lia. }
  (* how the grid separates w from z *)
  assert (SEP : w <= z -> w <= IZR lo).
  { intros WZ. destruct (Rlt_le_dec w (bpow ten (Z.of_nat k - 1))) as [L|L].
    - apply IZR_le in LO1. rewrite bpow10_shift in LO1 by lia. lra.
    - assert (EE : (p - Z.of_nat k <= e')%Z).
      { assert (p - Z.of_nat k - 1 < e')%Z; [|lia]. apply (lt_bpow ten).
        assert (YL : bpow ten (p - 1) <= y).
        { rewrite YW. replace (p - 1)%Z with (Z.of_nat k - 1 + - s)%Z by (unfold s; lia). rewrite bpow_plus.
          apply Rmult_le_compat_r; lra. }
        assert (CL : IZR c' < bpow ten (Z.of_nat k)).
        { rewrite <- bpow10_shift by lia. apply IZR_lt. lia. }
        rewrite YE in YL. pose proof (bpow_gt_0 ten e') as EP.
        assert (LL : bpow ten (p - 1) < bpow ten (Z.of_nat k) * bpow ten e') by nra.
        replace (p - 1)%Z with (Z.of_nat k + (p - Z.of_nat k - 1))%Z in LL by lia. rewrite bpow_plus in LL.
        apply Rmult_lt_reg_l in LL; [exact LL|apply bpow_gt_0]. }
      assert (WI : w = IZR (c' * 10 ^ (e' + s))).
      { unfold w. rewrite YE, mult_IZR, bpow10_shift, bpow_plus by (unfold s; lia). ring. }
      rewrite WI in *. apply IZR_le. apply Zfloor_lub. exact WZ. }
  assert (SEP2 : z < w -> IZR (lo + 1) <= w).
  { intros WZ. destruct (Rlt_le_dec w (bpow ten (Z.of_nat k))) as [L|L].
    - assert (EE : (p - Z.of_nat k <= e')%Z).
      { assert (p - Z.of_nat k - 1 < e')%Z; [|lia]. apply (lt_bpow ten).
        assert (YL : bpow ten (p - 1) <= y).
        { rewrite YW. replace (p - 1)%Z with (Z.of_nat k - 1 + - s)%Z by (unfold s; lia). rewrite bpow_plus.
          apply Rmult_le_compat_r; lra. }
        assert (CL : IZR c' < bpow ten (Z.of_nat k)).
        { rewrite <- bpow10_shift by lia. apply IZR_lt. lia. }
        rewrite YE in YL. pose proof (bpow_gt_0 ten e') as EP.
        assert (LL : bpow ten (p - 1) < bpow ten (Z.of_nat k) * bpow ten e') by nra.
        replace (p - 1)%Z with (Z.of_nat k + (p - Z.of_nat k - 1))%Z in LL by lia. rewrite bpow_plus in LL.
        apply Rmult_lt_reg_l in LL; [exact LL|apply bpow_gt_0]. }
      assert (WI : w = IZR (c' * 10 ^ (e' + s))).
      { unfold w. rewrite YE, mult_IZR, bpow10_shift, bpow_plus by (unfold s; lia). ring. }
      rewrite WI in *. apply IZR_le. assert (lo < c' * 10 ^ (e' + s))%Z; [|lia]. apply lt_IZR. lra.
    - assert (lo + 1 <= 10 ^ Z.of_nat k)%Z as B.
      { assert (lo < 10 ^ Z.of_nat k)%Z; [|lia]. apply lt_IZR. rewrite bpow10_shift by lia. lra. }
      apply IZR_le in B. rewrite bpow10_shift in B by lia. lra. }
  assert (DIST : forall u, Rabs (u * bpow ten (- s) - x) = Rabs (u - z) * bpow ten (- s)).
  { intros u. rewrite XZ at 1. replace (u * bpow ten (- s) - z * bpow ten (- s)) with ((u - z) * bpow ten (- s)) by ring.
    rewrite Rabs_mult, (Rabs_pos_eq (bpow ten (- s))) by lra. reflexivity. }
  assert (LON : NR (Z.to_N lo) = IZR lo) by (unfold NR; rewrite Z2N.id by lia; reflexivity).
  assert (HIN : NR (Z.to_N (lo + 1)) = IZR lo + 1) by (unfold NR; rewrite Z2N.id, plus_IZR by lia; reflexivity).
  destruct (Rle_lt_dec w z) as [WZ|WZ].
  - specialize (SEP WZ). exists (Z.to_N lo). unfold cand. fold s. fold z. rewrite LON. split; [split; [lia|split]|].
    + apply Rabs_lt. lra.
    + apply (sandwich x y); [exact G|exact Y|left]. split; [rewrite YW|rewrite XZ]; apply Rmult_le_compat_r; lra.
    + rewrite YW, !DIST. apply Rmult_le_compat_r; [lra|]. rewrite !Rabs_left1 by lra. lra.
  - specialize (SEP2 WZ). rewrite plus_IZR in SEP2. destruct (Req_dec (IZR lo) z) as [EX|NX].
    + exists (Z.to_N lo). unfold cand. fold s. fold z. rewrite LON, EX, <- XZ. split; [split; [lia|split]|].
      * rewrite Rminus_diag_eq, Rabs_R0 by reflexivity. lra.
      * now apply float64_fix.
      * rewrite Rminus_diag_eq, Rabs_R0 by reflexivity. apply Rabs_pos.
    + exists (Z.to_N (lo + 1)). unfold cand. fold s. fold z. rewrite HIN. split; [split; [lia|split]|].
      * apply Rabs_lt. lra.
      * apply (sandwich x y); [exact G|exact Y|right]. split; [rewrite XZ|rewrite YW]; apply Rmult_le_compat_r; lra.
      * rewrite YW, !DIST. apply Rmult_le_compat_r; [lra|]. rewrite !Rabs_pos_eq by lra. lra.
Qed.

(** Seventeen digits always suffice. *)
Lemma ulp_gt x p : 0 < x -> bpow ten (p - 1) <= x -> bpow ten (p - 17) < ulp radix2 fe x.
Proof.
  intros XP P. rewrite ulp_neq_0 by lra. unfold cexp.
  pose proof (bpow_mag_gt radix2 x) as M. rewrite Rabs_pos_eq in M by lra.
  apply Rlt_le_trans with (bpow radix2 (mag radix2 x - 53)); [|apply bpow_le; unfold FLT_exp; lia].
  replace (p - 17)%Z with ((p - 1) + -16)%Z by lia.
  replace (mag radix2 x - 53)%Z with (mag radix2 x + -53)%Z by lia. rewrite !bpow_plus.
  assert (bpow ten (-16) < bpow radix2 (-53)).
  { change (-16)%Z with (- (16))%Z. change (-53)%Z with (- (53))%Z. rewrite !bpow_opp. apply Rinv_lt; [apply bpow_gt_0|].
    rewrite <- !IZR_Zpower by lia. apply IZR_lt. reflexivity. }
  pose proof (bpow_gt_0 ten (-16)). pose proof (bpow_gt_0 ten (p - 1)). apply Rmult_le_0_lt_compat; lra.
Qed.
Lemma pred_gap x p : generic_format radix2 fe x -> 0 < x -> bpow ten (p - 1) <= x ->
  pred radix2 fe x < x - bpow ten (p - 17).
Proof.
  intros G XP P. rewrite pred_eq_pos by lra. unfold pred_pos. case Req_bool_spec; intros E.
  - apply Rplus_lt_compat_l, Ropp_lt_contravar.
    set (k := (mag radix2 x - 1)%Z) in *.
    apply Rlt_le_trans with (bpow radix2 (k - 53)); [|apply bpow_le; unfold FLT_exp; lia].
    replace (p - 17)%Z with ((p - 1) + -16)%Z by lia. replace (k - 53)%Z with (k + -53)%Z by lia. rewrite !bpow_plus.
    assert (bpow ten (-16) < bpow radix2 (-53)).
    { change (-16)%Z with (- (16))%Z. change (-53)%Z with (- (53))%Z. rewrite !bpow_opp. apply Rinv_lt; [apply bpow_gt_0|].
      rewrite <- !IZR_Zpower by lia. apply IZR_lt. reflexivity. }
    pose proof (bpow_gt_0 ten (-16)). pose proof (bpow_gt_0 ten (p - 1)). pose proof (bpow_gt_0 radix2 (-53)).
    rewrite E in P. apply Rle_lt_trans with (bpow radix2 k * bpow ten (-16)); [apply Rmult_le_compat_r; lra|].
    apply Rmult_lt_compat_l; [apply bpow_gt_0|assumption].
  - pose proof (ulp_gt x p XP P). lra.
Qed.
Lemma seventeen x p : generic_format radix2 fe x -> bpow ten (p - 1) <= x < bpow ten p -> exists c, cand x p 17 c.
Proof.
  intros G [P1 P2]. assert (XP : 0 < x) by (pose proof (bpow_gt_0 ten (p - 1)); lra).
  set (s := (17 - p)%Z). set (z := x * bpow ten s).
  assert (SP : 0 < bpow ten s) by apply bpow_gt_0. assert (SN : 0 < bpow ten (- s)) by apply bpow_gt_0.
  assert (XZ : x = z * bpow ten (- s)) by apply unscale.
  pose proof (Znearest_half (fun t => negb (Z.even t)) z) as H. set (c := ZnearestE z) in *.
  assert (Z1 : bpow ten 16 <= z).
  { replace 16%Z with (p - 1 + s)%Z by (unfold s; lia). rewrite bpow_plus. apply Rmult_le_compat_r; lra. }
  apply Rabs_le_inv in H.
  assert (C1 : (1 <= c)%Z).
  { assert (0 < c)%Z; [|lia]. apply lt_IZR. assert (1 <= bpow ten 16) by (change 1 with (bpow ten 0); apply bpow_le; lia). lra. }
  exists (Z.to_N c). unfold cand. fold s. fold z.
  assert (CN : NR (Z.to_N c) = IZR c) by (unfold NR; rewrite Z2N.id by lia; reflexivity). rewrite CN.
  split; [lia|]. split; [apply Rabs_lt; lra|].
  set (y := IZR c * bpow ten (- s)).
  assert (BS : bpow ten (- s) = bpow ten (p - 17)) by (f_equal; unfold s; lia).
  assert (D : x - / 2 * bpow ten (p - 17) <= y <= x + / 2 * bpow ten (p - 17)).
  { unfold y. rewrite <- BS. rewrite XZ. split; nra. }
  pose proof (ulp_gt x p XP P1) as U. pose proof (pred_gap x p G XP P1) as V.
  apply Rle_antisym.
  - apply round_N_le_midp; [apply FLT_exp_valid; easy|exact G|]. rewrite succ_eq_pos by lra. lra.
  - apply round_N_ge_midp; [apply FLT_exp_valid; easy|exact G|]. lra.
Qed.

(** Fifteen digits always come back. *)
Lemma fifteen x p v c m : bpow ten (p - 1) <= x < bpow ten p -> bpow radix2 (-1022) <= x ->
  in_digits 15 v -> float64 v = x -> (m <= 15)%Z -> cand x p m c -> NR c * bpow ten (- (m - p)) = v.
Proof.
  intros [P1 P2] NM (c' & e' & CB & VE) FV M (CP & _ & FC).
  set (y := NR c * bpow ten (- (m - p))) in *.
  assert (XP : 0 < x) by (pose proof (bpow_gt_0 ten (p - 1)); lra).
  assert (U : ulp radix2 fe x <= x * bpow radix2 (-52)).
  { pose proof (ulp_FLT_le radix2 (-1074) 53 x) as K. rewrite Rabs_pos_eq in K by lra. apply K. exact NM. }
  assert (HV : Rabs (x - v) <= / 2 * ulp radix2 fe x).
  { rewrite <- FV at 1. unfold float64. rewrite <- FV. apply error_le_half_ulp_round; [apply FLT_exp_valid; easy|apply FLT_exp_monotone]. }
  assert (HY : Rabs (x - y) <= / 2 * ulp radix2 fe x).
  { rewrite <- FC at 1. unfold float64. rewrite <- FC. apply error_le_half_ulp_round; [apply FLT_exp_valid; easy|apply FLT_exp_monotone]. }
  apply Rabs_le_inv in HV, HY.
  assert (B52 : 0 < bpow radix2 (-52)) by apply bpow_gt_0.
  assert (T : bpow radix2 (-52) < / 4 * bpow ten (-15) * 1).
  { rewrite Rmult_1_r. change (-52)%Z with (- (52))%Z. change (-15)%Z with (- (15))%Z. rewrite !bpow_opp.
    rewrite <- Rinv_mult. apply Rinv_lt; [apply Rmult_lt_0_compat; [lra|apply bpow_gt_0]|].
    rewrite <- !IZR_Zpower by lia. rewrite <- mult_IZR. apply IZR_lt. reflexivity. }
  set (t := bpow ten (p - 15)). assert (TP : 0 < t) by apply bpow_gt_0.
  assert (T1 : bpow ten (p - 1) * bpow ten (-15) = bpow ten (p - 16)) by (rewrite <- bpow_plus; f_equal; lia).
  assert (T2 : bpow ten p * bpow ten (-15) = t) by (rewrite <- bpow_plus; reflexivity).
  pose proof (bpow_gt_0 ten (-15)) as B15.
  assert (VP : bpow ten (p - 1) <= v).
  { apply Rnot_lt_le. intros LTV.
    assert (GAP : v <= bpow ten (p - 1) - bpow ten (p - 16)).
    { destruct (Z.le_gt_cases (p - 16) e') as [L|L].
      - assert (VI : v = IZR (c' * 10 ^ (e' - (p - 16))) * bpow ten (p - 16)).
        { rewrite VE, mult_IZR, bpow10_shift, Rmult_assoc, <- bpow_plus by lia. do 2 f_equal. lia. }
        assert (TI : bpow ten (p - 1) = IZR (10 ^ 15) * bpow ten (p - 16)).
        { rewrite bpow10_shift, <- bpow_plus by lia. f_equal. lia. }
        rewrite VI, TI in LTV |- *. apply Rmult_lt_reg_r in LTV; [|apply bpow_gt_0]. apply lt_IZR in LTV.
        assert (IZR (c' * 10 ^ (e' - (p - 16))) <= IZR (10 ^ 15 - 1)) as K by (apply IZR_le; lia).
        rewrite minus_IZR in K. pose proof (bpow_gt_0 ten (p - 16)). nra.
      - assert (CL : IZR c' < bpow ten 15) by (rewrite <- bpow10_shift by lia; apply IZR_lt; lia).
        assert (v < bpow ten (p - 2)).
        { rewrite VE. pose proof (bpow_gt_0 ten e').
          apply Rlt_le_trans with (bpow ten 15 * bpow ten e'); [apply Rmult_lt_compat_r; lra|].
          rewrite <- bpow_plus. apply bpow_le. lia. }
        assert (bpow ten (p - 1) = 10 * bpow ten (p - 2)).
        { replace (p - 1)%Z with (1 + (p - 2))%Z by lia. rewrite bpow_plus. reflexivity. }
        assert (bpow ten (p - 16) <= bpow ten (p - 2)) by (apply bpow_le; lia).
        pose proof (bpow_gt_0 ten (p - 2)). lra. }
    rewrite <- T1 in GAP. pose proof (bpow_gt_0 ten (p - 1)) as QP. set (q := bpow ten (p - 1)) in *.
    assert (ONE : bpow ten (-15) <= 1) by (change 1 with (bpow ten 0); apply bpow_le; lia).
    assert (K1 : x * bpow radix2 (-52) <= x * (/ 4 * bpow ten (-15) * 1)) by (apply Rmult_le_compat_l; lra).
    assert (K2 : (x - q) * bpow ten (-15) <= (x - q) * 1) by (apply Rmult_le_compat_l; lra).
    assert (K3 : 0 < q * bpow ten (-15)) by (apply Rmult_lt_0_compat; lra). lra. }
  assert (VI : exists a : Z, v = IZR a * t).
  { assert (EE : (p - 15 <= e')%Z).
    { assert (p - 16 < e')%Z; [|lia]. apply (lt_bpow ten).
      assert (CL : IZR c' < bpow ten 15) by (rewrite <- bpow10_shift by lia; apply IZR_lt; lia).
      rewrite VE in VP. pose proof (bpow_gt_0 ten e') as EP.
      assert (LL : bpow ten (p - 1) < bpow ten 15 * bpow ten e') by nra.
      replace (p - 1)%Z with (15 + (p - 16))%Z in LL by lia. rewrite bpow_plus in LL.
      apply Rmult_lt_reg_l in LL; [exact LL|apply bpow_gt_0]. }
    exists (c' * 10 ^ (e' - (p - 15)))%Z. rewrite VE, mult_IZR, bpow10_shift, Rmult_assoc by lia. unfold t.
    rewrite <- bpow_plus. do 2 f_equal. lia. }
  assert (YI : exists a : Z, y = IZR a * t).
  { exists (Z.of_N c * 10 ^ (15 - m))%Z. unfold y, NR, t. rewrite mult_IZR, bpow10_shift, Rmult_assoc, <- bpow_plus by lia. do 2 f_equal. lia. }
  destruct VI as [a VA]. destruct YI as [b YB].
  assert (DD : - t < v - y < t).
  { assert (K1 : x * bpow radix2 (-52) <= x * (/ 4 * bpow ten (-15) * 1)) by (apply Rmult_le_compat_l; lra).
    assert (K2 : x * bpow ten (-15) < bpow ten p * bpow ten (-15)) by (apply Rmult_lt_compat_r; lra).
    lra. }
  rewrite VA, YB in *. f_equal. f_equal.
  assert (L1 : IZR (b - a) < 1). { rewrite minus_IZR. apply Rmult_lt_reg_r with t; [exact TP|]. lra. }
  assert (L2 : IZR (a - b) < 1). { rewrite minus_IZR. apply Rmult_lt_reg_r with t; [exact TP|]. lra. }
  apply (lt_IZR _ 1) in L1, L2. lia.
Qed.
