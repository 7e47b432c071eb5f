(** Numbers through float64. *)
From Coq Require Import String Ascii List Arith ZArith NArith Bool Lia.
From Verif Require Import Model.GoStr Model.Json Model.Num Spec.NameSpec Spec.JsonSpec Proofs.StrP Proofs.JsonP Proofs.JsonRT.
Import ListNotations.
Open Scope nat_scope.
Open Scope string_scope.

Lemma flt_eqb_eq a b : flt_eqb a b = true -> a = b.
Proof.
  unfold flt_eqb. rewrite !andb_true_iff, !N.eqb_eq, Bool.eqb_true_iff. destruct a, b; cbn.
  intros [[-> ->] ->]. reflexivity.
Qed.
Lemma flt_eqb_refl a : flt_eqb a a = true.
Proof. unfold flt_eqb. now rewrite Bool.eqb_reflx, !N.eqb_refl. Qed.
Lemma canon_num_valid l t : valid_number l = true -> canon_num l = Some t -> valid_number t = true.
Proof.
  unfold canon_num. intros V. destruct (lit_float l) as [f|]; [|discriminate].
  destruct (fmt_float f) as [u|]; [|intros H; injection H as <-; exact V].
  destruct (valid_number u) eqn:E; cbn [andb]; [|intros H; injection H as <-; exact V].
  destruct (match lit_float u with Some f' => flt_eqb f f' | None => false end); intros H; injection H as <-; assumption.
Qed.
Lemma canon_num_idem l t : canon_num l = Some t -> canon_num t = Some t.
Proof.
  intros H. assert (D : t = l \/ t <> l) by (destruct (string_dec t l); auto). destruct D as [->|N]; [exact H|].
  unfold canon_num in H |- *. destruct (lit_float l) as [f|]; [|discriminate].
  destruct (fmt_float f) as [u|] eqn:F; [|congruence].
  destruct (valid_number u) eqn:E; cbn [andb] in H; [|congruence].
  destruct (lit_float u) as [f'|] eqn:L; [|congruence].
  destruct (flt_eqb f f') eqn:Q; [|congruence]. injection H as <-. apply flt_eqb_eq in Q. subst f'.
  rewrite L, F, E, L, flt_eqb_refl. reflexivity.
Qed.

Lemma itoa_aux_head f n acc : (0 < n)%N -> (n < 10 ^ N.of_nat f)%N ->
  exists c s, itoa_aux f n acc = String c s /\ is_digit c = true /\ c <> "0"%char.
Proof.
  revert n acc. induction f as [|f IH]; intros n acc P B; [cbn in B; lia|]. cbn [itoa_aux].
  destruct (N.eqb_spec (n / 10) 0) as [Z|NZ].
  - eexists _, _. split; [reflexivity|]. assert (n < 10)%N by (apply N.div_small_iff; lia).
    rewrite N.mod_small by assumption. split; [now apply is_digit_chr|].
    intros E. apply (f_equal digit_val) in E. rewrite digit_val_chr in E by assumption. vm_compute in E. lia.
  - apply IH; [lia|]. apply N.div_lt_upper_bound; [lia|]. rewrite Nat2N.inj_succ, N.pow_succ_r' in B. lia.
Qed.
Lemma int_lit_itoaN n : int_lit (itoaN n).
Proof.
  destruct (N.eq_dec n 0) as [->|NZ]; [constructor|].
  assert (P : (0 < n)%N) by lia.
  destruct (itoa_aux_head _ n "" P (size_bound n)) as (c & s & E & D & N0).
  change (itoa_aux (S (N.size_nat n)) n "") with (itoaN n) in E.
  pose proof (itoaN_digits n) as A. rewrite E in *. cbn in A. rewrite D in A. apply digit_spec in D.
  destruct s as [|x s]; [now apply il_digit|]. apply il_more; [assumption|assumption|].
  apply some_digits_spec. split; [discriminate|exact A].
Qed.
Lemma valid_number_itoaN n : valid_number (itoaN n) = true.
Proof.
  apply number_lit_spec. exists "", (itoaN n), "", "". repeat split; try now left.
  - apply int_lit_itoaN.
  - now rewrite !append_nil_r.
Qed.
Lemma valid_number_itoa z : valid_number (itoa z) = true.
Proof.
  destruct z as [|p|p]; cbn [itoa]; [reflexivity|apply valid_number_itoaN|].
  apply number_lit_spec. exists "-", (itoaN (Npos p)), "", "". repeat split; try now left.
  - now right.
  - apply int_lit_itoaN.
  - now rewrite !append_nil_r.
Qed.
Lemma scan_int_itoaN n : scan_int (itoaN n) = Some (itoaN n, "").
Proof.
  pose proof (int_lit_itoaN n) as H. destruct H as [|c D N0|c s D N0 S].
  - reflexivity.
  - cbn. apply Ascii.eqb_neq in N0. rewrite N0. apply digit_spec in D. now rewrite D.
  - cbn. apply Ascii.eqb_neq in N0. rewrite N0. apply digit_spec in D. rewrite D.
    apply some_digits_spec in S. rewrite <- (append_nil_r s) at 1.
    rewrite (span_digits_exact s "") by tauto. reflexivity.
Qed.
Lemma lit_dec_itoa z : lit_dec (itoa z) =
  Some {| dec_neg := (z <? 0)%Z; dec_mant := Z.to_N (Z.abs z); dec_exp := 0 |}.
Proof.
  unfold lit_dec.
  assert (M : scan_minus (itoa z) = (if (z <? 0)%Z then "-" else "", itoaN (Z.to_N (Z.abs z)))).
  { destruct z as [|p|p]; [reflexivity| |reflexivity].
    cbn [itoa Z.ltb Z.compare Z.abs]. change (Z.to_N (Zpos p)) with (Npos p).
    destruct (itoaN_cons (Npos p)) as (c & s & E & D). rewrite E. cbn.
    destruct (digit_not_sign c D) as [-> _]. reflexivity. }
  rewrite M, scan_int_itoaN. cbn [scan_frac scan_exp exp_value String.length Z.of_nat Z.sub Z.opp Z.add].
  replace (digits0 (itoaN (Z.to_N (Z.abs z)) ++ "")) with (Z.to_N (Z.abs z)).
  - destruct (z <? 0)%Z; reflexivity.
  - unfold digits0. rewrite digits_acc_itoaN. reflexivity.
Qed.
Lemma lit_float_itoa z : (Z.abs z <= 2 ^ 53)%Z ->
  lit_float (itoa z) = Some {| f_neg := (z <? 0)%Z; f_num := Z.to_N (Z.abs z); f_den := 1 |}.
Proof.
  intros H. unfold lit_float. rewrite lit_dec_itoa. cbn [dec_mant dec_neg dec_exp].
  destruct (N.eqb_spec (Z.to_N (Z.abs z)) 0) as [E|N0]; [now rewrite E|].
  assert (B : (Z.to_N (Z.abs z) <=? two53)%N = true) by (apply N.leb_le; unfold two53; lia).
  rewrite B. reflexivity.
Qed.
Lemma canon_num_itoa z : (Z.abs z <= 2 ^ 53)%Z -> canon_num (itoa z) = Some (itoa z).
Proof.
  intros H. unfold canon_num. rewrite (lit_float_itoa z H). unfold fmt_float. cbn [f_den f_num f_neg].
  assert (B : (Z.to_N (Z.abs z) <=? two53)%N = true) by (apply N.leb_le; unfold two53; lia).
  rewrite B. cbn [N.eqb Pos.eqb andb].
  assert (E : (if (z <? 0)%Z then "-" else "") ++ itoaN (Z.to_N (Z.abs z)) = itoa z).
  { destruct z as [|p|p]; reflexivity. }
  rewrite E, valid_number_itoa, (lit_float_itoa z H). cbn [andb]. now rewrite flt_eqb_refl.
Qed.
