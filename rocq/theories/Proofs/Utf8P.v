(** UTF-8: the decoder against the encoding table. *)
From Coq Require Import String Ascii List Arith ZArith NArith Bool Lia.
From Coq Require Import ZifyBool ZifyN ZifyNat.
From Verif Require Import Model.GoStr Model.Utf8 Spec.NameSpec Proofs.StrP.
Import ListNotations.
Open Scope nat_scope.
Open Scope string_scope.
Ltac Zify.zify_post_hook ::= Z.div_mod_to_equations.

Lemma utf8_encode r : utf8 r = encode_rune r.
Proof.
  unfold utf8, encode_rune, b, chr. destruct (r <? 128)%N; [reflexivity|].
  destruct (r <? 2048)%N; [reflexivity|]. destruct (r <? 65536)%N; reflexivity.
Qed.
Lemma scalar_bound r : scalar r -> (r < 1114112)%N. Proof. unfold scalar. lia. Qed.

Ltac dif := match goal with |- context [if ?c then _ else _] => destruct c eqn:? end.
Ltac codes := rewrite ?code_chr in * by lia.

Lemma decode_encode r s : scalar r ->
  utf8_len (encode_rune r ++ s) = String.length (encode_rune r) /\
  decode_rune (encode_rune r ++ s) = (r, String.length (encode_rune r)).
Proof.
  intros H. pose proof (scalar_bound r H) as B. unfold scalar in H.
  unfold encode_rune.
  destruct (r <? 128)%N eqn:H1.
  { cbn [append String.length]. unfold decode_rune, utf8_len. codes. rewrite H1. auto. }
  destruct (r <? 2048)%N eqn:H2.
  { cbn [append String.length].
    assert (L : utf8_len (String (chr (192 + r / 64)) (String (chr (128 + r mod 64)) s)) = 2).
    { unfold utf8_len, cont. codes.
      replace (192 + r / 64 <? 128)%N with false by lia.
      replace (192 + r / 64 <? 194)%N with false by lia.
      replace (192 + r / 64 <? 224)%N with true by lia.
      replace ((128 <=? 128 + r mod 64) && (128 + r mod 64 <=? 191))%N with true by lia. reflexivity. }
    split; [exact L|]. unfold decode_rune. rewrite L. codes. f_equal. lia. }
  destruct (r <? 65536)%N eqn:H3.
  { cbn [append String.length].
    match goal with |- utf8_len ?t = _ /\ _ => assert (L : utf8_len t = 3) end.
    { unfold utf8_len, cont, between. codes.
      replace (224 + r / 4096 <? 128)%N with false by lia.
      replace (224 + r / 4096 <? 194)%N with false by lia.
      replace (224 + r / 4096 <? 224)%N with false by lia.
      replace (224 + r / 4096 <? 240)%N with true by lia.
      destruct (224 + r / 4096 =? 224)%N eqn:?; destruct (224 + r / 4096 =? 237)%N eqn:?;
      match goal with |- (if ?c then _ else _) = _ => replace c with true by lia end; reflexivity. }
    split; [exact L|]. unfold decode_rune. rewrite L. codes. f_equal. lia. }
  cbn [append String.length].
  match goal with |- utf8_len ?t = _ /\ _ => assert (L : utf8_len t = 4) end.
  { unfold utf8_len, cont, between. codes.
    replace (240 + r / 262144 <? 128)%N with false by lia.
    replace (240 + r / 262144 <? 194)%N with false by lia.
    replace (240 + r / 262144 <? 224)%N with false by lia.
    replace (240 + r / 262144 <? 240)%N with false by lia.
    replace (240 + r / 262144 <? 245)%N with true by lia.
    destruct (240 + r / 262144 =? 240)%N eqn:?; destruct (240 + r / 262144 =? 244)%N eqn:?;
    match goal with |- (if ?c then _ else _) = _ => replace c with true by lia end; reflexivity. }
  split; [exact L|]. unfold decode_rune. rewrite L. codes. f_equal. lia.
Qed.

Lemma chr_eq c n : (n < 256)%N -> code c = n -> c = chr n.
Proof. intros H E. rewrite <- E. now rewrite chr_code. Qed.
Lemma encode_decode s : utf8_len s <> 0 ->
  scalar (fst (decode_rune s)) /\
  s = encode_rune (fst (decode_rune s)) ++ sdrop (utf8_len s) s /\
  String.length (encode_rune (fst (decode_rune s))) = utf8_len s /\
  snd (decode_rune s) = utf8_len s.
Proof.
  intros H. destruct s as [|b0 s]; [contradiction|].
  unfold utf8_len in H. pose proof (code_lt_256 b0) as B0.
  destruct (code b0 <? 128)%N eqn:H1.
  { assert (L : utf8_len (String b0 s) = 1) by (unfold utf8_len; now rewrite H1).
    unfold decode_rune. rewrite L. cbn [fst snd sdrop]. unfold encode_rune. rewrite H1.
    cbn. rewrite chr_code, ?sdrop_0. repeat split; try reflexivity. unfold scalar. lia. }
  destruct (code b0 <? 194)%N eqn:H2; [contradiction|].
  destruct (code b0 <? 224)%N eqn:H3.
  { destruct s as [|b1 s]; [contradiction|]. destruct (cont b1) eqn:C1; [|contradiction].
    assert (L : utf8_len (String b0 (String b1 s)) = 2)
      by (unfold utf8_len; now rewrite H1, H2, H3, C1).
    unfold cont in C1. unfold decode_rune. rewrite L. cbn [fst snd].
    set (r := ((code b0 - 192) * 64 + (code b1 - 128))%N).
    assert (R : (128 <= r < 2048)%N) by lia.
    unfold encode_rune. replace (r <? 128)%N with false by lia. replace (r <? 2048)%N with true by lia.
    repeat split; try reflexivity; [unfold scalar; lia|].
    cbn [append sdrop]. rewrite ?sdrop_0. f_equal; [|f_equal]; apply chr_eq; lia. }
  destruct (code b0 <? 240)%N eqn:H4.
  { destruct s as [|b1 [|b2 s]]; try contradiction.
    match type of H with (if ?c then _ else _) <> _ => destruct c eqn:C; [|contradiction] end.
    assert (L : utf8_len (String b0 (String b1 (String b2 s))) = 3)
      by (unfold utf8_len; now rewrite H1, H2, H3, H4, C).
    unfold cont, between in C. unfold decode_rune. rewrite L. cbn [fst snd].
    pose proof (code_lt_256 b1). pose proof (code_lt_256 b2).
    apply andb_true_iff in C. destruct C as [C C2]. apply andb_true_iff in C. destruct C as [Ca Cb].
    set (r := ((code b0 - 224) * 4096 + (code b1 - 128) * 64 + (code b2 - 128))%N).
    assert (R : (2048 <= r < 65536)%N /\ scalar r).
    { unfold scalar. destruct (code b0 =? 224)%N eqn:?; destruct (code b0 =? 237)%N eqn:?; lia. }
    assert (C1 : (128 <= code b1 <= 191)%N).
    { destruct (code b0 =? 224)%N eqn:?; destruct (code b0 =? 237)%N eqn:?; lia. }
    clear Ca Cb. destruct R as [R SR].
    unfold encode_rune. replace (r <? 128)%N with false by lia. replace (r <? 2048)%N with false by lia.
    replace (r <? 65536)%N with true by lia.
    split; [exact SR|]. clear SR H. repeat split; try reflexivity.
    cbn [append sdrop]. rewrite ?sdrop_0. f_equal; [|f_equal; [|f_equal]]; apply chr_eq; lia. }
  destruct (code b0 <? 245)%N eqn:H5; [|contradiction].
  destruct s as [|b1 [|b2 [|b3 s]]]; try contradiction.
  match type of H with (if ?c then _ else _) <> _ => destruct c eqn:C; [|contradiction] end.
  assert (L : utf8_len (String b0 (String b1 (String b2 (String b3 s)))) = 4)
    by (unfold utf8_len; now rewrite H1, H2, H3, H4, H5, C).
  unfold cont, between in C. unfold decode_rune. rewrite L. cbn [fst snd].
  pose proof (code_lt_256 b1). pose proof (code_lt_256 b2). pose proof (code_lt_256 b3).
  apply andb_true_iff in C. destruct C as [C C3].
  apply andb_true_iff in C. destruct C as [C C2]. apply andb_true_iff in C. destruct C as [Ca Cb].
  set (r := ((code b0 - 240) * 262144 + (code b1 - 128) * 4096 + (code b2 - 128) * 64 + (code b3 - 128))%N).
  assert (R : (65536 <= r < 1114112)%N).
  { destruct (code b0 =? 240)%N eqn:?; destruct (code b0 =? 244)%N eqn:?; lia. }
  assert (C1 : (128 <= code b1 <= 191)%N).
  { destruct (code b0 =? 240)%N eqn:?; destruct (code b0 =? 244)%N eqn:?; lia. }
  clear Ca Cb H.
  unfold encode_rune. replace (r <? 128)%N with false by lia. replace (r <? 2048)%N with false by lia.
  replace (r <? 65536)%N with false by lia.
  repeat split; try reflexivity; [unfold scalar; lia|].
  cbn [append sdrop]. rewrite ?sdrop_0. f_equal; [|f_equal; [|f_equal; [|f_equal]]]; apply chr_eq; lia.
Qed.
Lemma decode_bad s : utf8_len s = 0 -> decode_rune s = (rune_error, 1).
Proof. intros H. unfold decode_rune. now rewrite H. Qed.
Lemma encode_rune_nonempty r : 1 <= String.length (encode_rune r) <= 4.
Proof. unfold encode_rune. repeat dif; cbn; lia. Qed.

Lemma runes_fuel_reads f s : String.length s <= f -> reads s (runes_fuel f s).
Proof.
  revert s. induction f as [|f IH]; intros s Hf.
  - destruct s; [constructor|cbn in Hf; lia].
  - cbn [runes_fuel]. destruct s as [|c s]; [constructor|].
    destruct (Nat.eq_dec (utf8_len (String c s)) 0) as [Z|NZ].
    + rewrite decode_bad by exact Z. cbn [sdrop]. rewrite ?sdrop_0. apply reads_bad.
      * intros r t Hr E. rewrite utf8_encode in E. destruct (decode_encode r t Hr) as [L _].
        rewrite <- E, Z in L. pose proof (encode_rune_nonempty r). lia.
      * apply IH. cbn in Hf. lia.
    + destruct (encode_decode _ NZ) as (S & E & L & W).
      destruct (decode_rune (String c s)) as [r w]. cbn [fst snd] in *. subst w.
      rewrite E at 1. rewrite <- utf8_encode. apply reads_rune; [exact S|].
      apply IH. rewrite length_sdrop. pose proof (encode_rune_nonempty r). lia.
Qed.
Lemma runes_reads s : reads s (runes s).
Proof. now apply runes_fuel_reads. Qed.
Lemma utf8_inj r r' s s' : scalar r -> scalar r' -> utf8 r ++ s = utf8 r' ++ s' -> r = r' /\ s = s'.
Proof.
  intros H H' E. rewrite (utf8_encode r), (utf8_encode r') in E. destruct (decode_encode r s H) as [_ D].
  destruct (decode_encode r' s' H') as [_ D']. rewrite E, D' in D.
  injection D as -> _. split; [reflexivity|]. now apply append_inj_l in E.
Qed.
Lemma utf8_nonempty r : utf8 r <> "".
Proof. rewrite utf8_encode. intros E. pose proof (encode_rune_nonempty r). rewrite E in H. cbn in H. lia. Qed.
Lemma reads_fun s rs rs' : reads s rs -> reads s rs' -> rs = rs'.
Proof.
  intros H. revert rs'. induction H as [|r s rs Hr H IH|c s rs Hb H IH]; intros rs' H'.
  - inversion H' as [|r s rs Hr ? E|]; [reflexivity|]. exfalso.
    destruct (append_eq_nil _ _ E) as [E' _]. now apply utf8_nonempty in E'.
  - inversion H' as [E|r' s' rs2 Hr' H2 E|c s' rs2 Hb H2 E].
    + exfalso. symmetry in E. destruct (append_eq_nil _ _ E) as [E' _]. now apply utf8_nonempty in E'.
    + destruct (utf8_inj r' r s' s Hr' Hr E) as [-> ->]. f_equal. now apply IH.
    + exfalso. now apply (Hb r s Hr).
  - inversion H' as [|r' s' rs2 Hr' H2 E|c' s' rs2 Hb' H2 E]; subst.
    + exfalso. eapply Hb; [exact Hr'|]. symmetry. exact E.
    + f_equal. now apply IH.
Qed.

(** Validity. *)
Lemma valid_utf8_fuel_wf f s : String.length s <= f -> (valid_utf8_fuel f s = true <-> well_formed_text s).
Proof.
  revert s. induction f as [|f IH]; intros s Hf.
  - destruct s; [|cbn in Hf; lia]. cbn. split; [constructor|reflexivity].
  - cbn [valid_utf8_fuel]. destruct s as [|c s]; [split; [constructor|reflexivity]|].
    destruct (utf8_len (String c s)) as [|w] eqn:E.
    + split; [discriminate|]. intros H. inversion H as [|r t Hr Ht Es]. exfalso.
      rewrite utf8_encode in Es. destruct (decode_encode r t Hr) as [L _].
      rewrite Es, E in L. pose proof (encode_rune_nonempty r). lia.
    + rewrite IH by (rewrite length_sdrop; cbn in *; lia).
      assert (NZ : utf8_len (String c s) <> 0) by lia.
      destruct (encode_decode _ NZ) as (S & Es & L & _). rewrite E in Es.
      split; intros H.
      * rewrite Es, <- utf8_encode. now constructor.
      * inversion H as [|r t Hr Ht Es']. pose proof (eq_trans Es' Es) as Eq.
        rewrite <- (utf8_encode (fst _)) in Eq.
        apply utf8_inj in Eq; [|assumption|assumption]. destruct Eq as [_ Et].
        rewrite Et in Ht. rewrite Es'. exact Ht.
Qed.
Lemma valid_utf8_wf s : valid_utf8 s = true <-> well_formed_text s.
Proof. now apply valid_utf8_fuel_wf. Qed.
Lemma reads_once s : exists rs, reads s rs /\ forall rs', reads s rs' -> rs' = rs.
Proof. exists (runes s). split; [apply runes_reads|]. intros rs' H. eapply reads_fun; [exact H|apply runes_reads]. Qed.
