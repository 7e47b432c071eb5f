(** One trip of a number literal through float64. *)
From Coq Require Import String Ascii List Arith ZArith NArith Bool Reals Lia Lra Psatz.
From Flocq Require Import Core.
From Verif Require Import Model.GoStr Model.Json Model.Num Model.GoJson Spec.NameSpec Spec.JsonSpec Spec.NumberSpec
  Proofs.StrP Proofs.JsonP Proofs.JsonRT Proofs.NumP Proofs.GoJsonP Proofs.FloatP Proofs.LitP Proofs.ShortP Proofs.LayoutP.
Import ListNotations.
Open Scope R_scope.

Lemma in_digits_0 k : in_digits k 0.
Proof. exists 0%Z, 0%Z. split; [apply Z.pow_pos_nonneg; lia|]. ring. Qed.
Lemma in_digits_mono k k' y : (k <= k')%nat -> in_digits k y -> in_digits k' y.
Proof.
  intros L (c & e & B & E). exists c, e. split; [|exact E]. eapply Z.lt_le_trans; [exact B|]. apply Z.pow_le_mono_r; lia.
Qed.
Lemma in_digits_opp k y : in_digits k y -> in_digits k (- y).
Proof. intros (c & e & B & ->). exists (- c)%Z, e. split; [rewrite Z.abs_opp; exact B|]. rewrite opp_IZR. ring. Qed.
Lemma in_digits_none y : in_digits 0 y -> y = 0.
Proof. intros (c & e & B & ->). cbn in B. assert (c = 0%Z) by lia. subst c. ring. Qed.

Lemma cand_digits x p m c : x < bpow ten p -> (1 <= m)%Z -> cand x p m c -> in_digits (Z.to_nat m) (NR c * bpow ten (- (m - p))).
Proof.
  intros X M (_ & A & _). apply Rabs_lt_inv in A.
  assert (U : x * bpow ten (m - p) < IZR (10 ^ m)).
  { rewrite bpow10_shift by lia. replace m with (p + (m - p))%Z at 2 by lia. rewrite bpow_plus.
    apply Rmult_lt_compat_r; [apply bpow_gt_0|exact X]. }
  assert (C : (Z.of_N c <= 10 ^ m)%Z).
  { assert (Z.of_N c < 10 ^ m + 1)%Z; [|lia]. apply lt_IZR. rewrite plus_IZR. fold (NR c). lra. }
  destruct (Z.eq_dec (Z.of_N c) (10 ^ m)) as [E|NE].
  - exists 1%Z, p. split; [rewrite Z2Nat.id by lia; apply (Z.pow_gt_1 10 m); lia|].
    unfold NR. rewrite E, bpow10_shift, <- bpow_plus, Rmult_1_l by lia. f_equal. lia.
  - exists (Z.of_N c), (- (m - p))%Z. split; [rewrite Z2Nat.id by lia; lia|reflexivity].
Qed.

(** Integers up to 2^53: what reads as one of them with fewer digits than it has is that integer. *)
Lemma int_short n p k y : (n <= two53)%N -> (0 < n)%N -> bpow ten (p - 1) <= NR n < bpow ten p ->
  (1 <= k)%nat -> (Z.of_nat k < p)%Z -> in_digits k y -> float64 y = NR n ->
  exists c, cand (NR n) p (Z.of_nat k) c /\ NR c * bpow ten (- (Z.of_nat k - p)) = NR n.
Proof.
  intros B P PT K1 KP I F. pose proof (int_format n B) as G.
  destruct (digits_cand (NR n) p k y G PT K1 I F) as (c & C & _). exists c. split; [exact C|].
  destruct C as (CP & _ & FC).
  set (j := (- (Z.of_nat k - p))%Z) in *. assert (J : (1 <= j)%Z) by (unfold j; lia).
  set (m := (c * 10 ^ Z.to_N j)%N).
  assert (M : NR c * bpow ten j = NR m) by (unfold m; rewrite NR_mul, NR_pow10, Z2N.id by lia; reflexivity).
  rewrite M in *. destruct (N.le_gt_cases m two53) as [L|L].
  - rewrite <- FC. symmetry. apply float64_fix. now apply int_format.
  - exfalso.
    assert (T : (m mod 10 = 0)%N).
    { unfold m. replace (Z.to_N j) with (N.succ (Z.to_N (j - 1))) by lia. rewrite N.pow_succ_r'.
      replace (c * (10 * 10 ^ Z.to_N (j - 1)))%N with (c * 10 ^ Z.to_N (j - 1) * 10)%N by lia. apply N.mod_mul. discriminate. }
    destruct (N.eq_dec m (two53 + 1)) as [->|NE]; [vm_compute in T; discriminate|].
    assert (m >= two53 + 2)%N as L2 by lia. 
    assert (G2 : generic_format radix2 fe (NR (two53 + 2))).
    { apply generic_format_FLT. exists (Float radix2 4503599627370497 1); [|cbn [Fnum]|cbn; lia].
      - unfold F2R. cbn [Fnum Fexp]. change (bpow radix2 1) with 2. unfold NR. rewrite <- mult_IZR. reflexivity.
      - change (4503599627370497 < 9007199254740992)%Z. lia. }
    assert (K : NR (two53 + 2) <= float64 (NR m)).
    { rewrite <- (float64_fix _ G2). apply float64_le. apply NR_le. lia. }
    rewrite FC in K. apply NR_le in K. lia.
Qed.

Definition fifteens (z x : R) : Prop := bpow radix2 (-1022) <= x -> forall y, in_digits 15 y -> float64 y = x -> z = y.

Lemma best_int n : (n <= two53)%N -> best (NR n) (NR n) /\ fifteens (NR n) (NR n).
Proof.
  intros B. pose proof (int_format n B) as G. pose proof (float64_fix _ G) as FX.
  destruct (N.eq_dec n 0) as [->|N0].
  { rewrite NR_0 in *. split; [split; [exact FX|split]|].
    - intros. apply in_digits_0.
    - intros. rewrite Rminus_diag_eq, Rabs_R0 by reflexivity. apply Rabs_pos.
    - intros K. pose proof (bpow_gt_0 radix2 (-1022)). lra. }
  assert (P : (0 < n)%N) by lia. set (len := String.length (itoaN n)).
  pose proof (itoaN_upper n) as U. pose proof (itoaN_lower n P) as L. pose proof (itoaN_len_pos n) as LP. fold len in U, L, LP.
  apply NR_lt in U. apply NR_le in L. rewrite NR_pow10, nat_N_Z in U, L.
  set (p := Z.of_nat len) in *. replace (Z.of_nat (len - 1)) with (p - 1)%Z in L by (unfold p; lia).
  split; [split; [exact FX|split]|].
  - intros k y I F. destruct (Z.le_gt_cases p (Z.of_nat k)) as [C|C].
    + apply in_digits_mono with len; [unfold p in C; lia|]. exists (Z.of_N n), 0%Z. split; [|change (bpow ten 0) with 1; unfold NR; ring].
      fold p. rewrite Z.abs_eq by lia. apply lt_IZR. rewrite bpow10_shift by (unfold p; lia). exact U.
    + destruct k as [|k]; [apply in_digits_none in I; subst y; rewrite float64_0 in F; pose proof (NR_pos n P); lra|].
      destruct (int_short n p (S k) y B P (conj L U) ltac:(lia) C I F) as (c & C1 & E). rewrite <- E.
      rewrite <- (Nat2Z.id (S k)) at 1. eapply cand_digits; [exact U|lia|exact C1].
  - intros. rewrite Rminus_diag_eq, Rabs_R0 by reflexivity. apply Rabs_pos.
  - intros NM y I F. destruct (Z.le_gt_cases p 15) as [C|C].
    + assert (CN : cand (NR n) p p n).
      { split; [exact P|]. rewrite Z.sub_diag. change (bpow ten 0) with 1. change (bpow ten (- 0)) with 1. rewrite !Rmult_1_r. split; [|exact FX].
        rewrite Rminus_diag_eq, Rabs_R0 by reflexivity. lra. }
      rewrite <- (fifteen (NR n) p y n p (conj L U) NM I F C CN). rewrite Z.sub_diag. change (bpow ten (- 0)) with 1. ring.
    + destruct (int_short n p 15 y B P (conj L U) ltac:(lia) C I F) as (c & C1 & E). rewrite <- E at 1.
      apply (fifteen (NR n) p y c 15 (conj L U) NM I F); [lia|exact C1].
Qed.

Lemma best_general n d : lowest n d -> (0 < n)%N -> generic_format radix2 fe (frac n d) -> frac n d < bpow radix2 1024 ->
  exists c s, shortest 18 1 n d (point n d) = Some (c, s) /\ (0 < c)%N /\
    best (NR c * bpow ten (- s)) (frac n d) /\ fifteens (NR c * bpow ten (- s)) (frac n d).
Proof.
  intros LW P G LT. assert (D : (0 < d)%N) by (destruct LW; lia).
  assert (XP : 0 < frac n d) by now apply frac_pos.
  assert (LB : bpow radix2 (-1074) <= frac n d).
  { apply generic_format_ge_bpow with fe; [intros; unfold FLT_exp; lia|exact XP|exact G]. }
  pose proof (point_spec n d P D (conj LB LT)) as PT. set (p := point n d) in *. set (x := frac n d) in *.
  pose proof (shortest_spec n d p LW P LT 18 1) as S. fold x in S.
  destruct (shortest 18 1 n d p) as [[c s]|].
  2:{ destruct (seventeen x p G PT) as [c C]. exfalso. apply (S 17%Z c); [lia|exact C]. }
  destruct S as (m & MB & -> & C & MIN & NEAR). exists c, (m - p)%Z. split; [reflexivity|]. split; [apply C|].
  set (z := NR c * bpow ten (- (m - p))).
  assert (LEAST : forall k y, in_digits k y -> float64 y = x -> (m <= Z.of_nat k)%Z /\ (1 <= k)%nat).
  { intros k y I F. assert (K1 : (1 <= k)%nat).
    { destruct k; [|lia]. apply in_digits_none in I. subst y. rewrite float64_0 in F. lra. }
    split; [|exact K1]. destruct (digits_cand x p k y G PT K1 I F) as (c' & C' & _).
    destruct (Z.le_gt_cases m (Z.of_nat k)) as [Q|Q]; [exact Q|]. exfalso. apply (MIN (Z.of_nat k) c'); [lia|exact C']. }
  assert (ZD : in_digits (Z.to_nat m) z) by (apply cand_digits with (x := x); [apply PT|lia|exact C]).
  assert (FZ : float64 z = x) by apply C.
  split; [split; [exact FZ|split]|].
  - intros k y I F. destruct (LEAST k y I F) as [Q _]. apply in_digits_mono with (Z.to_nat m); [lia|exact ZD].
  - intros k [IK FK] y I F. destruct (LEAST k z IK FZ) as [Q K1].
    assert (KM : k = Z.to_nat m).
    { destruct (Nat.le_gt_cases k (Z.to_nat m)) as [H|H]; [lia|]. exfalso. apply (FK (Z.to_nat m) H ZD). }
    assert (MK : m = Z.of_nat k) by lia.
    destruct (digits_cand x p k y G PT K1 I F) as (c' & C' & DC). rewrite <- MK in C', DC.
    specialize (NEAR c' C'). eapply Rle_trans; [|exact DC].
    assert (DIST : forall u, Rabs (u * bpow ten (- (m - p)) - x) = Rabs (u - x * bpow ten (m - p)) * bpow ten (- (m - p))).
    { intros u. rewrite (unscale x (m - p)) at 1.
      replace (u * bpow ten (- (m - p)) - x * bpow ten (m - p) * bpow ten (- (m - p)))
        with ((u - x * bpow ten (m - p)) * bpow ten (- (m - p))) by ring.
      rewrite Rabs_mult, (Rabs_pos_eq (bpow ten (- (m - p)))) by apply bpow_ge_0. reflexivity. }
    unfold z. rewrite !DIST. apply Rmult_le_compat_r; [apply bpow_ge_0|exact NEAR].
  - intros NM y I F. destruct (LEAST 15%nat y I F) as [Q _]. apply (fifteen x p y c m PT NM I F); [lia|exact C].
Qed.

(** The layout chosen. *)
Lemma use_e_spec n d : (0 < d)%N ->
  use_e n d = true <-> frac n d < float64 (bpow ten (-6)) \/ bpow ten 21 <= frac n d.
Proof.
  intros P. pose proof (NR_pos d P) as DP. unfold use_e. rewrite orb_true_iff, N.ltb_lt, N.leb_le.
  assert (C : float64 (bpow ten (-6)) = NR 4722366482869645 / NR 4722366482869645213696).
  { pose proof (round64_correct 1 1000000 eq_refl eq_refl) as R.
    assert (E : round64 1 1000000 = Some (4722366482869645, 4722366482869645213696)%N) by (vm_compute; reflexivity).
    rewrite E in R. destruct R as (_ & F & _). replace (bpow ten (-6)) with (frac 1 1000000); [symmetry; exact F|].
    unfold frac, Rdiv. rewrite NR_1, Rmult_1_l. change (-6)%Z with (- (6))%Z. rewrite bpow_opp. reflexivity. }
  rewrite C. assert (E : NR n = frac n d * NR d) by (unfold frac; field; lra).
  assert (K : 0 < NR 4722366482869645213696) by (apply NR_pos; reflexivity).
  assert (T : NR (10 ^ 21) = bpow ten 21) by (rewrite NR_pow10; reflexivity).
  assert (A : (n * 4722366482869645213696 < 4722366482869645 * d)%N <-> frac n d < NR 4722366482869645 / NR 4722366482869645213696).
  { rewrite NR_lt, !NR_mul, E. set (x := frac n d). set (u := NR 4722366482869645213696) in *. set (w := NR 4722366482869645).
    assert (W : w = w / u * u) by (field; lra). set (q := w / u) in *. rewrite W.
    replace (x * NR d * u) with (x * (NR d * u)) by ring. replace (q * u * NR d) with (q * (NR d * u)) by ring.
    assert (0 < NR d * u) by (apply Rmult_lt_0_compat; assumption).
    split; intros Q; [now apply Rmult_lt_reg_r with (NR d * u)|apply Rmult_lt_compat_r; assumption]. }
  assert (B : (10 ^ 21 * d <= n)%N <-> bpow ten 21 <= frac n d).
  { rewrite NR_le, NR_mul, T, E. split; intros Q; [now apply Rmult_le_reg_r with (NR d)|apply Rmult_le_compat_r; lra]. }
  rewrite A, B. reflexivity.
Qed.

Definition plain_char (c : ascii) : bool := is_digit c || Ascii.eqb c "."%char || Ascii.eqb c "-"%char.
Lemma digits_plain s : sforall is_digit s = true -> sforall plain_char s = true.
Proof.
  induction s as [|c s IH]; [reflexivity|]. cbn [sforall]. rewrite !andb_true_iff. intros [A B].
  split; [unfold plain_char; now rewrite A|now apply IH].
Qed.
Lemma plain_no_exp t : sforall plain_char t = true -> ~ with_exponent t.
Proof.
  intros S (a & b & ->). rewrite !sforall_app in S. apply andb_true_iff in S. destruct S as [_ S]. discriminate.
Qed.
Lemma sforall_stake (q : ascii -> bool) k s : sforall q s = true -> sforall q (stake k s) = true /\ sforall q (sdrop k s) = true.
Proof. intros H. rewrite <- (stake_sdrop k s), sforall_app in H. now apply andb_true_iff in H. Qed.
Lemma layout_f_plain c s : sforall plain_char (layout_f c s) = true.
Proof.
  unfold layout_f. pose proof (digits_plain _ (itoaN_digits c)) as D.
  destruct (s <=? 0)%Z.
  - rewrite sforall_app, D. apply digits_plain, zeros_digits.
  - destruct (_ <? _)%nat.
    + rewrite !sforall_app. destruct (sforall_stake plain_char (String.length (itoaN c) - Z.to_nat s) _ D) as [-> ->]. reflexivity.
    + rewrite !sforall_app, D, (digits_plain _ (zeros_digits _)). reflexivity.
Qed.

Theorem fmt_float_spec f : lowest (f_num f) (f_den f) ->
  generic_format radix2 fe (frac (f_num f) (f_den f)) -> frac (f_num f) (f_den f) < bpow radix2 1024 ->
  exists t z, fmt_float f = Some t /\ denotes t ((if f_neg f then -1 else 1) * z) /\ 0 <= z /\
    best z (frac (f_num f) (f_den f)) /\ fifteens z (frac (f_num f) (f_den f)) /\
    (negative t <-> f_neg f = true) /\
    (with_exponent t <-> frac (f_num f) (f_den f) <> 0 /\
       (frac (f_num f) (f_den f) < float64 (bpow ten (-6)) \/ bpow ten 21 <= frac (f_num f) (f_den f))).
Proof.
  destruct f as [neg n d]. cbn [f_neg f_num f_den]. intros LW G LT. unfold fmt_float. cbn [f_neg f_num f_den].
  set (sg := if neg then "-"%string else ""%string).
  assert (SO : sign_opt sg) by (unfold sg; destruct neg; [now right|now left]).
  assert (SV : sign_value sg = if neg then -1 else 1) by (unfold sg; destruct neg; reflexivity).
  assert (NEG : forall u, neg = true -> negative (sg ++ u)) by (intros u ->; eexists; reflexivity).
  assert (SP : sforall plain_char sg = true) by (unfold sg; destruct neg; reflexivity).
  assert (D : (0 < d)%N) by (destruct LW; lia).
  destruct ((d =? 1) && (n <=? two53))%N eqn:FAST.
  - apply andb_true_iff in FAST. destruct FAST as [A B]. apply N.eqb_eq in A. apply N.leb_le in B. subst d. rewrite frac_1 in *.
    exists (sg ++ itoaN n)%string, (NR n). destruct (best_int n B) as [BE FI].
    split; [reflexivity|]. split; [|split; [apply NR_ge0|split; [exact BE|split; [exact FI|split]]]].
    + rewrite <- SV. assert (X : itoaN n = (itoaN n ++ "" ++ "")%string) by (rewrite !append_nil_r; reflexivity). rewrite X.
      apply denotes_parts with (f := 0) (e := 0%Z); [exact SO|apply int_lit_itoaN|now left|now left|].
      rewrite row_itoaN. change (bpow ten 0) with 1. unfold NR. ring.
    + split; [|apply NEG]. intros [l' E]. destruct neg; [reflexivity|]. unfold sg in E. cbn [append] in E. destruct (itoaN_cons n) as (h & t & E2 & H).
      rewrite E2 in E. injection E as -> _. discriminate.
    + split.
      * intros K. exfalso. revert K. apply plain_no_exp. rewrite sforall_app, SP. apply digits_plain, itoaN_digits.
      * intros [N0 [K|K]]; exfalso.
        -- assert (1 <= NR n) as Q.
           { change 1 with (NR 1). apply NR_le. destruct n; [exfalso; now apply N0|lia]. }
           assert (float64 (bpow ten (-6)) <= 1).
           { replace 1 with (float64 1) by (apply float64_fix; change 1 with (NR 1); apply int_format; vm_compute; discriminate).
             apply float64_le. change 1 with (bpow ten 0). apply bpow_le. lia. }
           lra.
        -- apply NR_le in B. assert (NR two53 < bpow ten 21); [|lra]. rewrite <- IZR_Zpower by lia. apply IZR_lt. reflexivity.
  - assert (NP : (0 < n)%N).
    { destruct n; [exfalso|lia]. destruct LW as [_ GC]. rewrite N.gcd_0_l in GC. subst d. discriminate. }
    destruct (best_general n d LW NP G LT) as (c & s & -> & CP & BE & FI).
    pose proof (strip_zeros_spec 20 c s CP) as SZ. destruct (strip_zeros 20 c s) as [c' s']. destruct SZ as [CP' E].
    rewrite <- E in BE, FI. set (z := NR c' * bpow ten (- s')) in *.
    assert (ZP : 0 < z) by (apply Rmult_lt_0_compat; [now apply NR_pos|apply bpow_gt_0]).
    exists (sg ++ (if use_e n d then layout_e c' s' else layout_f c' s'))%string, z. split; [reflexivity|].
    assert (DN : denotes (sg ++ (if use_e n d then layout_e c' s' else layout_f c' s')) ((if neg then -1 else 1) * z)).
    { rewrite <- SV. unfold z. destruct (use_e n d); [now apply layout_e_denotes|now apply layout_f_denotes]. }
    split; [exact DN|]. split; [lra|]. split; [exact BE|]. split; [exact FI|]. split.
    + split; [|apply NEG]. intros K. apply denotes_dec in DN. destruct DN as (_ & x & _ & V & NG). apply NG in K.
      destruct neg; [reflexivity|]. exfalso. unfold dec_real in V. rewrite K in V.
      pose proof (NR_ge0 (dec_mant x)). pose proof (bpow_gt_0 ten (dec_exp x)).
      assert (0 <= NR (dec_mant x) * bpow ten (dec_exp x)) by (apply Rmult_le_pos; lra). lra.
    + pose proof (use_e_spec n d D) as UE. pose proof (frac_pos n d NP D) as XP. destruct (use_e n d).
      * split; [intros _; split; [lra|now apply UE]|]. intros _. unfold layout_e. eexists (sg ++ _)%string, _.
        rewrite <- append_assoc. reflexivity.
      * split; [|intros [_ K]; apply UE in K; discriminate].
        intros K. exfalso. revert K. apply plain_no_exp. rewrite sforall_app, SP. apply layout_f_plain.
Qed.

(** What is written reads back as the float64 it was written for: the self-check of the model
    never fails, so one trip is parsing and formatting. *)
Lemma read_back f v t z : good f v -> denotes t ((if f_neg f then -1 else 1) * z) -> float64 z = frac (f_num f) (f_den f) ->
  (negative t <-> f_neg f = true) -> valid_number t = true /\ lit_float t = Some f.
Proof.
  intros (LW & FV & LT) DT BE NT. set (q := frac (f_num f) (f_den f)) in *. set (g := if f_neg f then -1 else 1) in *.
  assert (AQ : Rabs (float64 v) = q) by (rewrite FV; unfold flt_real; apply Rabs_sg, frac_ge0).
  assert (F' : float64 (g * z) = float64 v) by (unfold g; rewrite float64_signed, FV, BE; reflexivity).
  destruct (denotes_dec t _ DT) as (VT & x' & LD' & E & NG'). split; [exact VT|].
  pose proof (lit_float_correct t x' LD') as LF'. rewrite <- E in LF'.
  destruct (lit_float t) as [f'|].
  - destruct LF' as (FN' & LW' & FV' & _).
    assert (SG : f_neg f' = f_neg f).
    { rewrite FN'. destruct (dec_neg x') eqn:A, (f_neg f) eqn:B; try reflexivity.
      - assert (negative t) by (apply NG'; reflexivity). apply NT in H. discriminate.
      - assert (negative t) by (apply NT; reflexivity). apply NG' in H. discriminate. }
    assert (QQ : frac (f_num f') (f_den f') = q).
    { rewrite <- (Rabs_sg (f_neg f') (frac (f_num f') (f_den f'))) by apply frac_ge0. fold (flt_real f').
      rewrite <- FV', F'. exact AQ. }
    destruct (lowest_unique _ _ _ _ LW' LW QQ) as [A B].
    destruct f as [n1 a1 b1], f' as [n2 a2 b2]. cbn in SG, A, B. subst. reflexivity.
  - exfalso. unfold out_of_range in LF'. rewrite F' in LF'. lra.
Qed.
Theorem canon_num_plain l : valid_number l = true ->
  canon_num l = match lit_float l with Some f => fmt_float f | None => None end.
Proof.
  intros V. destruct (denotes_exists l V) as [v DN]. destruct (denotes_dec l v DN) as (_ & x & LD & -> & NG).
  pose proof (lit_float_correct l x LD) as LF. unfold canon_num. destruct (lit_float l) as [f|]; [|reflexivity].
  destruct LF as (_ & GD). pose proof GD as (LW & FV & LT).
  assert (AQ : Rabs (float64 (dec_real x)) = frac (f_num f) (f_den f)) by (rewrite FV; unfold flt_real; apply Rabs_sg, frac_ge0).
  assert (GQ : generic_format radix2 fe (frac (f_num f) (f_den f))) by (rewrite <- AQ; apply generic_format_abs, float64_format).
  destruct (fmt_float_spec f LW GQ ltac:(lra)) as (t & z & -> & DT & _ & BE & _ & NT & _).
  destruct (read_back f _ t z GD DT (proj1 BE) NT) as [VT LT']. rewrite VT, LT', flt_eqb_refl. reflexivity.
Qed.

(** The trip. *)
Theorem canon_num_correct l v : denotes l v ->
  match canon_num l with
  | Some t => ~ out_of_range v /\ exists z, denotes t z /\ (negative t <-> negative l) /\
      best z (float64 v) /\ (smallest_normal <= Rabs v -> in_digits 15 v -> z = v) /\
      (with_exponent t <-> float64 v <> 0 /\
         (Rabs (float64 v) < float64 (bpow ten (-6)) \/ bpow ten 21 <= Rabs (float64 v)))
  | None => out_of_range v
  end.
Proof.
  intros DN. destruct (denotes_dec l v DN) as (_ & x & LD & -> & NG).
  pose proof (lit_float_correct l x LD) as LF. unfold canon_num. destruct (lit_float l) as [f|]; [|exact LF].
  destruct LF as (FN & LW & FV & LT). set (v := dec_real x) in *. set (q := frac (f_num f) (f_den f)) in *.
  assert (AQ : Rabs (float64 v) = q) by (rewrite FV; unfold flt_real; apply Rabs_sg, frac_ge0).
  assert (GQ : generic_format radix2 fe q).
  { rewrite <- AQ. apply generic_format_abs, float64_format. }
  destruct (fmt_float_spec f LW GQ ltac:(fold q; lra)) as (t & z & -> & DT & ZP & BE & FI & NT & EX).
  fold q in BE, FI, EX. set (g := if f_neg f then -1 else 1) in *.
  assert (GG : g * g = 1) by (unfold g; destruct (f_neg f); ring).
  assert (GO : forall y, float64 (g * y) = g * float64 y) by (intros y; unfold g; apply float64_signed).
  assert (FQ : float64 v = g * q) by exact FV.
  destruct (read_back f v t z (conj LW (conj FV LT)) DT (proj1 BE) NT) as [VT LT']. rewrite VT, LT', flt_eqb_refl. cbn [andb].
  split; [unfold out_of_range; lra|]. exists (g * z). split; [exact DT|]. split; [|split; [|split]].
  - rewrite NT, FN. exact NG.
  - rewrite FQ. destruct BE as (B1 & B2 & B3).
    assert (DG : forall k y, in_digits k y -> in_digits k (g * y)).
    { intros k y I. unfold g. destruct (f_neg f); [|rewrite Rmult_1_l; exact I].
      replace (-1 * y) with (- y) by ring. now apply in_digits_opp. }
    assert (BACK : forall y, float64 y = g * q -> float64 (g * y) = q).
    { intros y F. rewrite GO, F, <- Rmult_assoc, GG. ring. }
    assert (GI : forall y, g * (g * y) = y) by (intros y; rewrite <- Rmult_assoc, GG; ring).
    assert (GA : forall y, Rabs (g * y - g * q) = Rabs (y - q)).
    { intros y. replace (g * y - g * q) with (g * (y - q)) by ring. rewrite Rabs_mult.
      replace (Rabs g) with 1; [ring|]. unfold g. destruct (f_neg f); [rewrite Rabs_left by lra; ring|rewrite Rabs_pos_eq by lra; reflexivity]. }
    split; [rewrite GO; f_equal; exact B1|split].
    + intros k y I F. apply DG. apply (B2 k (g * y)); [now apply DG|now apply BACK].
    + intros k [I1 I2] y I F. rewrite GA.
      assert (FZ : fewest k z).
      { split; [rewrite <- (GI z); now apply DG|]. intros k' L I'. apply (I2 k' L). now apply DG. }
      specialize (B3 k FZ (g * y) (DG k y I) (BACK y F)). rewrite <- (GI y). rewrite GA. exact B3.
  - intros NM I15.
    assert (NQ : bpow radix2 (-1022) <= q).
    { rewrite <- AQ. unfold smallest_normal in NM.
      assert (FM : float64 (bpow radix2 (-1022)) = bpow radix2 (-1022)) by (apply float64_fix, generic_format_bpow; unfold FLT_exp; lia).
      destruct (Rle_lt_dec 0 v) as [H|H].
      - rewrite Rabs_pos_eq in NM by lra. apply float64_le in NM. rewrite FM in NM.
        eapply Rle_trans; [exact NM|]. apply RRle_abs.
      - rewrite Rabs_left in NM by lra. apply float64_le in NM. rewrite FM, float64_opp in NM.
        eapply Rle_trans; [exact NM|]. rewrite <- Rabs_Ropp. apply RRle_abs. }
    assert (GI : forall y, g * (g * y) = y) by (intros y; rewrite <- Rmult_assoc, GG; ring).
    assert (Z : z = g * v).
    { apply (FI NQ).
      - unfold g. destruct (f_neg f); [|rewrite Rmult_1_l; exact I15]. replace (-1 * v) with (- v) by ring. now apply in_digits_opp.
      - rewrite GO, FQ. apply GI. }
    rewrite Z. apply GI.
  - rewrite EX, AQ, FQ. assert (NZ : q <> 0 <-> g * q <> 0).
    { split; intros H K; apply H; [|rewrite K; ring]. rewrite <- (Rmult_1_l q), <- GG, Rmult_assoc, K. ring. }
    rewrite NZ. reflexivity.
Qed.

(** Documents. *)
Lemma norm_none j : norm j = None <-> exists l, mentions l j /\ canon_num l = None.
Proof.
  split.
  - induction j as [|b|l|s|l IH|l IH] using json_ind'; intros H; try discriminate.
    + cbn in H. destruct (canon_num l) eqn:E; [discriminate|]. exists l. split; [constructor|exact E].
    + rewrite norm_arr in H. destruct (norm_all l) eqn:E; [discriminate|]. clear H.
      assert (X : exists x, In x l /\ norm x = None).
      { clear IH. induction l as [|x l IHl]; [discriminate|]. cbn in E. destruct (norm x) eqn:N; [|exists x; split; [now left|exact N]].
        destruct (norm_all l); [discriminate|]. destruct (IHl eq_refl) as (y & A & B). exists y. split; [now right|exact B]. }
      destruct X as (x & I & N). rewrite Forall_forall in IH. destruct (IH x I N) as (t & M & C).
      exists t. split; [econstructor; eassumption|exact C].
    + rewrite norm_obj in H. destruct (norm_pairs l) eqn:E; [discriminate|]. clear H.
      assert (X : exists k x, In (k, x) l /\ norm x = None).
      { clear IH. induction l as [|[k x] l IHl]; [discriminate|]. cbn in E. destruct (norm x) eqn:N; [|exists k, x; split; [now left|exact N]].
        destruct (norm_pairs l); [discriminate|]. destruct (IHl eq_refl) as (k' & y & A & B). exists k', y. split; [now right|exact B]. }
      destruct X as (k & x & I & N). rewrite Forall_forall in IH. destruct (IH (k, x) I N) as (t & M & C).
      exists t. split; [econstructor; eassumption|exact C].
  - intros (t & M & C). induction M as [|x xs I M IH|k x m I M IH].
    + cbn. now rewrite C.
    + rewrite norm_arr. assert (N : norm_all xs = None); [|now rewrite N].
      clear M C. induction xs as [|y xs IHl]; [destruct I|]. cbn. destruct I as [->|I]; [now rewrite IH|].
      rewrite IHl by exact I. now destruct (norm y).
    + rewrite norm_obj. assert (N : norm_pairs m = None); [|now rewrite N].
      clear M C. induction m as [|[k' y] m IHl]; [destruct I|]. cbn. destruct I as [E|I]; [injection E as -> ->; now rewrite IH|].
      rewrite IHl by exact I. now destruct (norm y).
Qed.
Lemma mentions_wf l j : mentions l j -> jwf j -> valid_number l = true.
Proof.
  intros M. induction M as [|x xs I M IH|k x m I M IH]; intros W.
  - now apply number_lit_spec.
  - apply IH. apply jwf_arr in W. rewrite Forall_forall in W. now apply W.
  - apply IH. apply jwf_obj in W. rewrite Forall_forall in W. apply (W (k, x) I).
Qed.
Lemma norm_number_some p : forall j j' l, norm j = Some j' -> at_path p j = Some (JNum l) -> canon_num l <> None.
Proof.
  intros j j' l N A C. assert (M : mentions l j).
  { clear N C. revert j A. induction p as [|s p IH]; intros j A; [injection A as ->; constructor|].
    destruct s as [k|n]; cbn [at_path] in A.
    - destruct j as [| | | | |m]; try discriminate. destruct (last_member k m) as [x|] eqn:E; [|discriminate].
      assert (I : exists k', In (k', x) m).
      { clear - E. induction m as [|[k' y] m IH]; [discriminate|]. cbn [last_member] in E. destruct (last_member k m) as [z|].
        - destruct (IH E) as (k2 & I2). exists k2. now right.
        - destruct (String.eqb k k'); [|discriminate]. injection E as ->. exists k'. now left. }
      destruct I as [k' I]. econstructor; [exact I|]. now apply IH.
    - destruct j as [| | | |m|]; try discriminate. destruct (nth_error m n) as [x|] eqn:E; [|discriminate].
      apply nth_error_In in E. econstructor; [exact E|]. now apply IH. }
  assert (norm j = None) by (apply norm_none; eauto). congruence.
Qed.
