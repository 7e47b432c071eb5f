(** JSON: consumption, extension, fuel and round trip. *)
From Coq Require Import String Ascii List Arith ZArith NArith Bool Lia.
From Verif Require Import Model.GoStr Model.Utf8 Model.Json Spec.NameSpec Spec.JsonSpec Proofs.StrP Proofs.Utf8P.
Import ListNotations.
Open Scope nat_scope.
Open Scope string_scope.

(** ** Induction on documents *)
Section JsonInd.
Variable P : json -> Prop.
Hypothesis Hnull : P JNull.
Hypothesis Hbool : forall b, P (JBool b).
Hypothesis Hnum : forall l, P (JNum l).
Hypothesis Hstr : forall s, P (JStr s).
Hypothesis Harr : forall l, Forall P l -> P (JArr l).
Hypothesis Hobj : forall l, Forall (fun kx => P (snd kx)) l -> P (JObj l).
Fixpoint json_ind' (j : json) : P j :=
  match j with
  | JNull => Hnull
  | JBool b => Hbool b
  | JNum l => Hnum l
  | JStr s => Hstr s
  | JArr l => Harr l ((fix go l : Forall P l :=
                         match l with [] => Forall_nil _ | x :: xs => Forall_cons _ (json_ind' x) (go xs) end) l)
  | JObj l => Hobj l ((fix go l : Forall (fun kx => P (snd kx)) l :=
                         match l with [] => Forall_nil _ | x :: xs => Forall_cons _ (json_ind' (snd x)) (go xs) end) l)
  end.
End JsonInd.

(** ** White space *)
Fixpoint all_ws (s : string) : bool :=
  match s with "" => true | String c s' => is_ws c && all_ws s' end.
Lemma skip_ws_app w s : all_ws w = true -> skip_ws (w ++ s) = skip_ws s.
Proof. induction w as [|c w IH]; [reflexivity|]. cbn. rewrite andb_true_iff. intros [-> H]. auto. Qed.
Lemma skip_ws_ext s q : skip_ws s <> "" -> skip_ws (s ++ q) = skip_ws s ++ q.
Proof.
  induction s as [|c s IH]; [contradiction|]. cbn. destruct (is_ws c); [exact IH|reflexivity].
Qed.
Lemma skip_ws_len s : String.length (skip_ws s) <= String.length s.
Proof. induction s as [|c s IH]; cbn; [lia|]. destruct (is_ws c); cbn; lia. Qed.
Lemma skip_ws_head c s : is_ws c = false -> skip_ws (String c s) = String c s.
Proof. intros H. cbn. now rewrite H. Qed.
Lemma skip_ws_idem s : skip_ws (skip_ws s) = skip_ws s.
Proof. induction s as [|c s IH]; [reflexivity|]. cbn. destruct (is_ws c) eqn:E; [exact IH|]. cbn. now rewrite E. Qed.
Lemma skip_ws_all s : skip_ws s = "" <-> all_ws s = true.
Proof.
  induction s as [|c s IH]; cbn; [tauto|]. destruct (is_ws c); cbn; [exact IH|]. split; discriminate.
Qed.

(** ** Numbers *)
Definition num_stop (q : string) : bool :=
  match q with
  | "" => true
  | String c _ => negb (is_digit c || Ascii.eqb c "."%char || Ascii.eqb c "e"%char || Ascii.eqb c "E"%char)
  end.
Lemma span_digits_app s : let '(d, r) := span_digits s in s = d ++ r.
Proof. induction s as [|c s IH]; cbn; [reflexivity|]. destruct (is_digit c); [|reflexivity].
  destruct (span_digits s). cbn. now rewrite <- IH. Qed.
Lemma span_digits_ext s q d r : span_digits s = (d, r) -> r <> "" \/ num_stop q = true ->
  span_digits (s ++ q) = (d, r ++ q).
Proof.
  revert d r. induction s as [|c s IH]; intros d r H HQ.
  - injection H as <- <-. destruct HQ as [HQ|HQ]; [contradiction|]. cbn.
    destruct q as [|c q]; [reflexivity|]. cbn in *. destruct (is_digit c); [discriminate|reflexivity].
  - cbn in H |- *. destruct (is_digit c); [|injection H as <- <-; reflexivity].
    destruct (span_digits s) as [d' r']. injection H as <- <-. now rewrite (IH d' r' eq_refl HQ).
Qed.
Lemma scan_int_app s i r : scan_int s = Some (i, r) -> s = i ++ r.
Proof.
  destruct s as [|c s]; [discriminate|]. cbn. destruct (Ascii.eqb_spec c "0"%char) as [->|].
  - intros H. injection H as <- <-. reflexivity.
  - destruct (is_digit c); [|discriminate]. pose proof (span_digits_app s) as A.
    destruct (span_digits s) as [d r']. intros H. injection H as <- <-. now rewrite A.
Qed.
Lemma scan_int_ext s q i r : scan_int s = Some (i, r) -> r <> "" \/ num_stop q = true ->
  scan_int (s ++ q) = Some (i, r ++ q).
Proof.
  destruct s as [|c s]; [discriminate|]. cbn. destruct (Ascii.eqb c "0"%char).
  - intros H. injection H as <- <-. reflexivity.
  - destruct (is_digit c); [|discriminate]. destruct (span_digits s) as [d r'] eqn:E.
    intros H HQ. injection H as <- <-. now rewrite (span_digits_ext _ _ _ _ E HQ).
Qed.
Lemma scan_frac_app s i r : scan_frac s = Some (i, r) -> s = i ++ r.
Proof.
  destruct s as [|c s]; cbn; [intros H; injection H as <- <-; reflexivity|].
  destruct (Ascii.eqb c "."%char); [|intros H; injection H as <- <-; reflexivity].
  pose proof (span_digits_app s) as A. destruct (span_digits s) as [d r'].
  destruct (String.eqb d ""); [discriminate|]. intros H; injection H as <- <-. now rewrite A.
Qed.
Lemma scan_frac_ext s q i r : scan_frac s = Some (i, r) -> r <> "" \/ num_stop q = true ->
  scan_frac (s ++ q) = Some (i, r ++ q).
Proof.
  destruct s as [|c s]; cbn.
  - intros H HQ. injection H as <- <-. destruct HQ as [HQ|HQ]; [contradiction|].
    destruct q as [|c q]; [reflexivity|]. cbn in *. destruct (Ascii.eqb c "."%char); [|reflexivity].
    rewrite orb_true_r in HQ. discriminate.
  - destruct (Ascii.eqb c "."%char); [|intros H HQ; injection H as <- <-; reflexivity].
    destruct (span_digits s) as [d r'] eqn:E. destruct (String.eqb d "") eqn:D; [discriminate|].
    intros H HQ. injection H as <- <-. rewrite (span_digits_ext _ _ _ _ E HQ). now rewrite D.
Qed.
Lemma scan_exp_app s i r : scan_exp s = Some (i, r) -> s = i ++ r.
Proof.
  destruct s as [|c s]; cbn; [intros H; injection H as <- <-; reflexivity|].
  destruct (Ascii.eqb c "e"%char || Ascii.eqb c "E"%char); [|intros H; injection H as <- <-; reflexivity].
  destruct (scan_sign s) as [sg r0] eqn:E.
  assert (S : s = sg ++ r0).
  { destruct s as [|c' s]; cbn in E; [injection E as <- <-; reflexivity|].
    destruct (_ || _); injection E as <- <-; reflexivity. }
  pose proof (span_digits_app r0) as A. destruct (span_digits r0) as [d r'].
  destruct (String.eqb d ""); [discriminate|]. intros H; injection H as <- <-.
  rewrite S, A. cbn. now rewrite <- append_assoc.
Qed.
Lemma scan_exp_ext s q i r : scan_exp s = Some (i, r) -> r <> "" \/ num_stop q = true ->
  scan_exp (s ++ q) = Some (i, r ++ q).
Proof.
  destruct s as [|c s]; cbn.
  - intros H HQ. injection H as <- <-. destruct HQ as [HQ|HQ]; [contradiction|].
    destruct q as [|c q]; [reflexivity|]. cbn in *.
    destruct (Ascii.eqb c "e"%char), (Ascii.eqb c "E"%char); try reflexivity;
    rewrite ?orb_true_r in HQ; cbn in HQ; rewrite ?orb_true_r in HQ; discriminate.
  - destruct (Ascii.eqb c "e"%char || Ascii.eqb c "E"%char); [|intros H HQ; injection H as <- <-; reflexivity].
    destruct (scan_sign s) as [sg r0] eqn:E. destruct (span_digits r0) as [d r'] eqn:E2.
    destruct (String.eqb d "") eqn:D; [discriminate|]. intros H HQ. injection H as <- <-.
    assert (S : scan_sign (s ++ q) = (sg, r0 ++ q)).
    { destruct s as [|c' s]; cbn in E.
      - injection E as <- <-. cbn in E2. injection E2 as <- <-. discriminate.
      - cbn. destruct (_ || _); injection E as <- <-; reflexivity. }
    rewrite S, (span_digits_ext _ _ _ _ E2 HQ). now rewrite D.
Qed.
Lemma app_nonempty_or (r q : string) (HQ : r <> "" \/ num_stop q = true) t : t = "" -> r <> "" \/ num_stop (t ++ q) = true.
Proof. intros ->. exact HQ. Qed.
Lemma scan_num_app s l r : scan_num s = Some (l, r) -> s = l ++ r.
Proof.
  unfold scan_num. destruct (scan_minus s) as [m s0] eqn:M.
  assert (S : s = m ++ s0).
  { destruct s as [|c s]; cbn in M; [injection M as <- <-; reflexivity|].
    destruct (Ascii.eqb_spec c "-"%char) as [->|]; injection M as <- <-; reflexivity. }
  destruct (scan_int s0) as [[i s1]|] eqn:I; [|discriminate]. apply scan_int_app in I.
  destruct (scan_frac s1) as [[f s2]|] eqn:F; [|discriminate]. apply scan_frac_app in F.
  destruct (scan_exp s2) as [[e s3]|] eqn:E; [|discriminate]. apply scan_exp_app in E.
  intros H. injection H as <- <-. subst. now rewrite <- !append_assoc.
Qed.
Lemma nonempty_dec (s : string) : s = "" \/ s <> "".
Proof. destruct s; [now left|right; discriminate]. Qed.
Lemma scan_num_ext s q l r : scan_num s = Some (l, r) -> r <> "" \/ num_stop q = true ->
  scan_num (s ++ q) = Some (l, r ++ q).
Proof.
  unfold scan_num. destruct (scan_minus s) as [m s0] eqn:M.
  destruct (scan_int s0) as [[i s1]|] eqn:I; [|discriminate].
  destruct (scan_frac s1) as [[f s2]|] eqn:F; [|discriminate].
  destruct (scan_exp s2) as [[e s3]|] eqn:E; [|discriminate].
  intros H HQ. injection H as <- <-.
  assert (M' : scan_minus (s ++ q) = (m, s0 ++ q)).
  { destruct s as [|c s]; cbn in M.
    - injection M as <- <-. discriminate.
    - cbn. destruct (Ascii.eqb c "-"%char); injection M as <- <-; reflexivity. }
  assert (Q2 : s2 <> "" \/ num_stop q = true).
  { destruct HQ as [HQ|HQ]; [left|now right]. apply scan_exp_app in E. intros ->.
    symmetry in E. apply append_eq_nil in E. tauto. }
  assert (Q1 : s1 <> "" \/ num_stop q = true).
  { destruct Q2 as [HQ2|HQ2]; [left|now right]. apply scan_frac_app in F. intros ->.
    symmetry in F. apply append_eq_nil in F. tauto. }
  rewrite M', (scan_int_ext _ _ _ _ I Q1), (scan_frac_ext _ _ _ _ F Q2), (scan_exp_ext _ _ _ _ E HQ).
  reflexivity.
Qed.
Lemma scan_num_nonempty s l r : scan_num s = Some (l, r) -> l <> "".
Proof.
  unfold scan_num. destruct (scan_minus s) as [m s0].
  destruct (scan_int s0) as [[i s1]|] eqn:I; [|discriminate].
  assert (i <> "").
  { destruct s0 as [|c s0]; [discriminate|]. cbn in I. destruct (Ascii.eqb c "0"%char).
    - injection I as <- <-. discriminate.
    - destruct (is_digit c); [|discriminate]. destruct (span_digits s0). injection I as <- <-. discriminate. }
  destruct (scan_frac s1) as [[f s2]|]; [|discriminate].
  destruct (scan_exp s2) as [[e s3]|]; [|discriminate].
  intros Q. injection Q as <- <-. intros A. apply append_eq_nil in A. destruct A as [_ A].
  apply append_eq_nil in A. tauto.
Qed.
Lemma valid_number_scan l : valid_number l = true <-> scan_num l = Some (l, "").
Proof.
  unfold valid_number. split.
  - destruct (scan_num l) as [[l' r]|] eqn:E; [|discriminate]. destruct r; [|discriminate].
    intros _. apply scan_num_app in E. rewrite append_nil_r in E. now subst.
  - now intros ->.
Qed.
Lemma valid_number_ext l q : valid_number l = true -> num_stop q = true -> scan_num (l ++ q) = Some (l, q).
Proof. intros V Q. apply valid_number_scan in V. now apply (scan_num_ext l q l "" V (or_intror Q)). Qed.

(** ** Strings *)
Lemma hex4_ext s q u r : hex4 s = Some (u, r) -> hex4 (s ++ q) = Some (u, r ++ q).
Proof.
  destruct s as [|a [|b [|c [|d s]]]]; try discriminate. cbn.
  destruct (hex_val a), (hex_val b), (hex_val c), (hex_val d); try discriminate.
  intros H. injection H as <- <-. reflexivity.
Qed.
Lemma hex4_len s u r : hex4 s = Some (u, r) -> String.length s = 4 + String.length r.
Proof.
  destruct s as [|a [|b [|c [|d s]]]]; try discriminate. cbn.
  destruct (hex_val a), (hex_val b), (hex_val c), (hex_val d); try discriminate.
  intros H. injection H as <- <-. reflexivity.
Qed.
Lemma hex_val_bound c n : hex_val c = Some n -> (n < 16)%N.
Proof.
  unfold hex_val. destruct (is_digit c) eqn:D.
  - unfold is_digit in D. apply andb_true_iff in D. rewrite !N.leb_le in D. intros H; injection H; lia.
  - destruct ((97 <=? code c) && (code c <=? 102))%N eqn:E.
    + apply andb_true_iff in E. rewrite !N.leb_le in E. intros H; injection H; lia.
    + destruct ((65 <=? code c) && (code c <=? 70))%N eqn:E2; [|discriminate].
      apply andb_true_iff in E2. rewrite !N.leb_le in E2. intros H; injection H; lia.
Qed.
Lemma hex4_bound s u r : hex4 s = Some (u, r) -> (u < 65536)%N.
Proof.
  destruct s as [|a [|b [|c [|d s]]]]; try discriminate. cbn.
  destruct (hex_val a) eqn:A, (hex_val b) eqn:B, (hex_val c) eqn:C, (hex_val d) eqn:D; try discriminate.
  apply hex_val_bound in A, B, C, D. intros H. injection H as <- <-. lia.
Qed.
Lemma low_half_len u s rn r : low_half u s = Some (rn, r) -> String.length r < String.length s.
Proof.
  unfold low_half. destruct s as [|b [|x s]]; try discriminate.
  destruct (_ && _); [|discriminate]. destruct (hex4 s) as [[u2 r2]|] eqn:E; [|discriminate].
  apply hex4_len in E. destruct (_ && _); [|discriminate]. intros H. injection H as <- <-. cbn. lia.
Qed.
Lemma utf8_len_le s : utf8_len s <= String.length s.
Proof.
  destruct (Nat.eq_dec (utf8_len s) 0) as [->|N]; [lia|].
  destruct (encode_decode s N) as (_ & E & L & _). rewrite E, length_append, L, length_sdrop.
  rewrite <- E. lia.
Qed.
Lemma pcons_some h r s t : pcons h r = Some (s, t) <-> exists s', r = Some (s', t) /\ s = h ++ s'.
Proof.
  unfold pcons. destruct r as [[s' t']|].
  - split; [intros H; injection H as <- <-; eauto|]. intros (x & H & ->). injection H as <- <-. reflexivity.
  - split; [discriminate|]. intros (x & H & _). discriminate.
Qed.
Definition quote_c : ascii := """"%char.

Lemma parse_str_quote f s t r : parse_str f s = Some (t, r) -> contains_byte quote_c s = true.
Proof.
  revert s t r. induction f as [|f IH]; intros s t r H; [discriminate|].
  cbn in H. destruct s as [|c s]; [discriminate|].
  rewrite contains_byte_cons. destruct (Ascii.eqb_spec c """"%char) as [->|Nq]; [reflexivity|].
  apply orb_true_iff. right.
  destruct (Ascii.eqb c "\"%char).
  - destruct s as [|e s]; [discriminate|]. rewrite contains_byte_cons. apply orb_true_iff. right.
    destruct (Ascii.eqb e "u"%char).
    + destruct (hex4 s) as [[u r3]|] eqn:X; [|discriminate].
      assert (Sub : contains_byte quote_c r3 = true -> contains_byte quote_c s = true).
      { destruct s as [|a [|b [|c2 [|d s]]]]; try discriminate. cbn in X.
        destruct (hex_val a), (hex_val b), (hex_val c2), (hex_val d); try discriminate.
        injection X as <- <-. intros Q. rewrite !contains_byte_cons, Q, !orb_true_r. reflexivity. }
      apply Sub. destruct (is_surrogate u).
      * destruct (low_half u r3) as [[rn r5]|] eqn:LH.
        -- apply pcons_some in H. destruct H as (s' & H & _). apply IH in H.
           unfold low_half in LH. destruct r3 as [|b [|x r3]]; try discriminate.
           destruct (_ && _); [|discriminate]. destruct (hex4 r3) as [[u2 r2]|] eqn:X2; [|discriminate].
           destruct (_ && _); [|discriminate]. injection LH as <- <-.
           rewrite !contains_byte_cons. apply orb_true_iff. right. apply orb_true_iff. right.
           destruct r3 as [|a [|b2 [|c2 [|d r3]]]]; try discriminate. cbn in X2.
           destruct (hex_val a), (hex_val b2), (hex_val c2), (hex_val d); try discriminate.
           injection X2 as <- <-. rewrite !contains_byte_cons, H, !orb_true_r. reflexivity.
        -- apply pcons_some in H. destruct H as (s' & H & _). eauto.
      * apply pcons_some in H. destruct H as (s' & H & _). eauto.
    + destruct (simple_escape e); [|discriminate]. apply pcons_some in H. destruct H as (s' & H & _). eauto.
  - destruct (code c <? 32)%N; [discriminate|].
    destruct (utf8_len (String c s)) as [|w] eqn:W.
    + apply pcons_some in H. destruct H as (s' & H & _). eauto.
    + apply pcons_some in H. destruct H as (s' & H & _). apply IH in H.
      cbn [sdrop] in H. rewrite <- (stake_sdrop w s), contains_byte_app, H. apply orb_true_r.
Qed.
Lemma utf8_len_ext s q : contains_byte quote_c s = true -> utf8_len (s ++ q) = utf8_len s.
Proof.
  intros H. destruct s as [|b0 s]; [discriminate|]. cbn [append]. unfold utf8_len.
  destruct (code b0 <? 128)%N eqn:E0; [reflexivity|]. destruct (code b0 <? 194)%N; [reflexivity|].
  rewrite contains_byte_cons in H.
  assert (N0 : Ascii.eqb quote_c b0 = false).
  { apply Ascii.eqb_neq. intros <-. vm_compute in E0. discriminate. }
  rewrite N0 in H. cbn [orb] in H. destruct s as [|b1 s]; [discriminate|]. cbn [append].
  destruct (code b0 <? 224)%N; [reflexivity|].
  rewrite contains_byte_cons in H.
  assert (Q : forall b, Ascii.eqb quote_c b = true -> code b = 34%N).
  { intros b E. apply Ascii.eqb_eq in E. subst b. reflexivity. }
  destruct (code b0 <? 240)%N.
  - destruct s as [|b2 s]; [|reflexivity]. rewrite orb_false_r in H. apply Q in H. cbn [append].
    destruct q as [|b2 q]; [reflexivity|]. unfold between. rewrite H.
    destruct (code b0 =? 224)%N; reflexivity.
  - destruct (code b0 <? 245)%N; [|reflexivity].
    destruct s as [|b2 s].
    + rewrite orb_false_r in H. apply Q in H. cbn [append]. destruct q as [|b2 [|b3 q]]; try reflexivity.
      unfold between. rewrite H. destruct (code b0 =? 240)%N; reflexivity.
    + destruct s as [|b3 s]; [|reflexivity]. cbn [append]. destruct q as [|b3 q]; [reflexivity|].
      rewrite contains_byte_cons, orb_false_r in H. apply orb_true_iff in H. destruct H as [H|H]; apply Q in H.
      * unfold between. rewrite H. destruct (code b0 =? 240)%N; reflexivity.
      * unfold cont. rewrite H. cbn. now rewrite andb_false_r.
Qed.
Lemma low_half_ext f u s q t r : parse_str f s = Some (t, r) ->
  low_half u (s ++ q) = match low_half u s with Some (n, r') => Some (n, r' ++ q) | None => None end.
Proof.
  intros H. destruct f as [|f]; [discriminate|]. destruct s as [|b s]; [discriminate|].
  cbn in H. destruct (Ascii.eqb_spec b """"%char) as [->|Nq].
  { cbn. destruct s as [|x s]; [destruct q; reflexivity|]. reflexivity. }
  destruct (Ascii.eqb_spec b "\"%char) as [->|Nb].
  - destruct s as [|e s]; [discriminate|]. unfold low_half. cbn [append].
    destruct (Ascii.eqb e "u"%char); [|reflexivity]. cbn [andb].
    destruct (hex4 s) as [[u2 r3]|] eqn:X; [|discriminate]. rewrite (hex4_ext _ q _ _ X).
    rewrite Ascii.eqb_refl. cbn [andb]. destruct (_ && _); reflexivity.
  - unfold low_half. cbn [append]. apply Ascii.eqb_neq in Nb. rewrite Nb. cbn [andb].
    destruct (s ++ q), s; reflexivity.
Qed.
Lemma parse_str_ext f s t r : parse_str f s = Some (t, r) ->
  String.length r < String.length s /\
  forall f' q, String.length s <= f' -> parse_str f' (s ++ q) = Some (t, r ++ q).
Proof.
  revert s t r. induction f as [|f IH]; intros s t r H; [discriminate|].
  cbn in H. destruct s as [|c s]; [discriminate|]. pose proof (parse_str_quote (S f) (String c s) t r H) as CQ.
  destruct (Ascii.eqb c """"%char) eqn:Eq.
  { injection H as <- <-. split; [cbn; lia|]. intros f' q Hf. destruct f' as [|f']; [cbn in Hf; lia|].
    cbn. now rewrite Eq. }
  destruct (Ascii.eqb c "\"%char) eqn:Eb.
  - destruct s as [|e s]; [discriminate|].
    destruct (Ascii.eqb e "u"%char) eqn:Eu.
    + destruct (hex4 s) as [[u r3]|] eqn:X; [|discriminate]. pose proof (hex4_len _ _ _ X) as XL.
      destruct (is_surrogate u) eqn:Su.
      * destruct (low_half u r3) as [[rn r5]|] eqn:LH.
        -- apply pcons_some in H. destruct H as (s' & H & ->). pose proof (low_half_len _ _ _ _ LH) as LL.
           destruct (IH _ _ _ H) as [L E]. split; [cbn; lia|].
           intros f' q Hf. cbn in Hf. destruct f' as [|f']; [lia|]. cbn [append]. cbn [parse_str].
           rewrite Eq, Eb, Eu, (hex4_ext _ q _ _ X), Su.
           assert (LE : low_half u (r3 ++ q) = Some (rn, r5 ++ q)).
           { unfold low_half in LH |- *. destruct r3 as [|b [|x r3]]; try discriminate. cbn [append].
             destruct (_ && _); [|discriminate]. destruct (hex4 r3) as [[u2 r2]|] eqn:X2; [|discriminate].
             rewrite (hex4_ext _ q _ _ X2). destruct (_ && _); [|discriminate]. injection LH as <- <-. reflexivity. }
           rewrite LE, (E f' q) by lia. reflexivity.
        -- apply pcons_some in H. destruct H as (s' & H & ->). destruct (IH _ _ _ H) as [L E].
           split; [cbn; lia|]. intros f' q Hf. cbn in Hf. destruct f' as [|f']; [lia|]. cbn [append]. cbn [parse_str].
           rewrite Eq, Eb, Eu, (hex4_ext _ q _ _ X), Su, (low_half_ext _ _ _ q _ _ H), LH, (E f' q) by lia. reflexivity.
      * apply pcons_some in H. destruct H as (s' & H & ->). destruct (IH _ _ _ H) as [L E].
        split; [cbn; lia|]. intros f' q Hf. cbn in Hf. destruct f' as [|f']; [lia|]. cbn [append]. cbn [parse_str].
        rewrite Eq, Eb, Eu, (hex4_ext _ q _ _ X), Su, (E f' q) by lia. reflexivity.
    + destruct (simple_escape e) as [b|] eqn:Es; [|discriminate].
      apply pcons_some in H. destruct H as (s' & H & ->). destruct (IH _ _ _ H) as [L E].
      split; [cbn; lia|]. intros f' q Hf. cbn in Hf. destruct f' as [|f']; [lia|]. cbn [append]. cbn [parse_str].
      rewrite Eq, Eb, Eu, Es, (E f' q) by lia. reflexivity.
  - destruct (code c <? 32)%N eqn:E32; [discriminate|].
    destruct (utf8_len (String c s)) as [|w] eqn:W.
    + apply pcons_some in H. destruct H as (s' & H & ->). destruct (IH _ _ _ H) as [L E].
      split; [cbn; lia|]. intros f' q Hf. cbn in Hf. destruct f' as [|f']; [lia|].
      pose proof (utf8_len_ext _ q CQ) as UL. rewrite W in UL. cbn [append] in *. cbn [parse_str].
      rewrite Eq, Eb, E32, UL, (E f' q) by lia. reflexivity.
    + apply pcons_some in H. destruct H as (s' & H & ->). destruct (IH _ _ _ H) as [L E].
      pose proof (utf8_len_le (String c s)) as WL. rewrite W in WL.
      rewrite length_sdrop in L. split; [cbn [String.length]; lia|].
      intros f' q Hf. cbn in Hf. destruct f' as [|f']; [lia|].
      pose proof (utf8_len_ext _ q CQ) as UL. rewrite W in UL.
      change (String c s ++ q) with (String c (s ++ q)) in *. cbn [parse_str].
      rewrite Eq, Eb, E32, UL.
      change (String c (s ++ q)) with (String c s ++ q).
      rewrite stake_append_le, sdrop_append_le by exact WL.
      change (sdrop (S w) (String c s)) with (sdrop w s).
      rewrite (E f' q) by (rewrite length_sdrop; lia). reflexivity.
Qed.
Lemma scan_str_ext s t r : scan_str s = Some (t, r) ->
  String.length r < String.length s /\ forall q, scan_str (s ++ q) = Some (t, r ++ q).
Proof.
  unfold scan_str. intros H. destruct (parse_str_ext _ _ _ _ H) as [L E]. split; [exact L|].
  intros q. apply E. rewrite length_append. lia.
Qed.

(** ** Values: consumption, extension, fuel *)
Definition is_num (j : json) : bool := match j with JNum _ => true | _ => false end.
Definition ext_ok (j : json) (r q : string) : Prop := is_num j = false \/ r <> "" \/ num_stop q = true.

Lemma prefix_app_sdrop lit s : String.prefix lit s = true -> s = lit ++ sdrop (String.length lit) s.
Proof.
  revert s. induction lit as [|c lit IH]; intros s H; [cbn; reflexivity|].
  destruct s as [|d s]; [discriminate|]. cbn in H.
  destruct (ascii_dec c d) as [->|]; [|discriminate]. cbn. f_equal. now apply IH.
Qed.
Lemma prefix_app lit s : String.prefix lit (lit ++ s) = true.
Proof. induction lit as [|c lit IH]; cbn; [destruct s; reflexivity|]. destruct (ascii_dec c c); [exact IH|contradiction]. Qed.
Lemma scan_lit_some lit s r : scan_lit lit s = Some r <-> s = lit ++ r.
Proof.
  unfold scan_lit. split.
  - destruct (String.prefix lit s) eqn:E; [|discriminate]. intros H. injection H as <-.
    now apply prefix_app_sdrop.
  - intros ->. rewrite prefix_app, sdrop_append_exact. reflexivity.
Qed.
Lemma skip_ws_cons_ext s q c r : skip_ws s = String c r -> skip_ws (s ++ q) = String c (r ++ q).
Proof. intros H. rewrite skip_ws_ext, H by (rewrite H; discriminate). reflexivity. Qed.
Lemma skip_ws_cons_len s c r : skip_ws s = String c r -> String.length r < String.length s.
Proof. intros H. pose proof (skip_ws_len s). rewrite H in *. cbn in *. lia. Qed.
Lemma skip_ws_cons_is s c r : skip_ws s = String c r -> skip_ws (String c r) = String c r.
Proof. intros H. rewrite <- H. now rewrite skip_ws_idem. Qed.

Lemma p_ext f :
  (forall d s j r, pval f d s = Some (j, r) ->
     String.length r < String.length s /\
     forall f' q, 2 * String.length s + 1 <= f' -> ext_ok j r q -> pval f' d (s ++ q) = Some (j, r ++ q)) /\
  (forall d s l r, parr f d s = Some (l, r) ->
     String.length r < String.length s /\
     forall f' q, 2 * String.length s + 2 <= f' -> parr f' d (s ++ q) = Some (l, r ++ q)) /\
  (forall d s l r, pobj f d s = Some (l, r) ->
     String.length r < String.length s /\
     forall f' q, 2 * String.length s + 2 <= f' -> pobj f' d (s ++ q) = Some (l, r ++ q)).
Proof.
  induction f as [|f IH]; [repeat split; discriminate|].
  destruct IH as (IHv & IHa & IHo). split; [|split].
  - intros d s j r H. cbn [pval] in H.
    destruct (skip_ws s) as [|c r0] eqn:WS; [discriminate|].
    pose proof (skip_ws_cons_len _ _ _ WS) as WL.
    assert (WE := fun q => skip_ws_cons_ext s q c r0 WS).
    destruct (Ascii.eqb c """"%char) eqn:Eq.
    { destruct (scan_str r0) as [[t r']|] eqn:SS; [|discriminate]. injection H as <- <-.
      destruct (scan_str_ext _ _ _ SS) as [L E]. split; [lia|].
      intros f' q Hf _. destruct f' as [|f']; [lia|]. cbn [pval]. now rewrite WE, Eq, E. }
    destruct (Ascii.eqb c "{"%char) eqn:Eo.
    { destruct (d =? 0)%N eqn:D0; [discriminate|].
      destruct (skip_ws r0) as [|d0 r1] eqn:WS1; [discriminate|].
      pose proof (skip_ws_cons_len _ _ _ WS1) as WL1.
      assert (WE1 := fun q => skip_ws_cons_ext r0 q d0 r1 WS1).
      destruct (Ascii.eqb d0 "}"%char) eqn:E0.
      - injection H as <- <-. split; [lia|]. intros f' q Hf _. destruct f' as [|f']; [lia|].
        cbn [pval]. now rewrite WE, Eq, Eo, D0, WE1, E0.
      - destruct (pobj f (N.pred d) (String d0 r1)) as [[l r']|] eqn:PO; [|discriminate]. injection H as <- <-.
        destruct (IHo _ _ _ _ PO) as [L E]. cbn [String.length] in L. split; [lia|].
        intros f' q Hf _. destruct f' as [|f']; [lia|].
        cbn [pval]. rewrite WE, Eq, Eo, D0, WE1, E0.
        change (String d0 (r1 ++ q)) with (String d0 r1 ++ q).
        rewrite E by (cbn [String.length]; lia). reflexivity. }
    destruct (Ascii.eqb c "["%char) eqn:Ea.
    { destruct (d =? 0)%N eqn:D0; [discriminate|].
      destruct (skip_ws r0) as [|d0 r1] eqn:WS1; [discriminate|].
      pose proof (skip_ws_cons_len _ _ _ WS1) as WL1.
      assert (WE1 := fun q => skip_ws_cons_ext r0 q d0 r1 WS1).
      destruct (Ascii.eqb d0 "]"%char) eqn:E0.
      - injection H as <- <-. split; [lia|]. intros f' q Hf _. destruct f' as [|f']; [lia|].
        cbn [pval]. now rewrite WE, Eq, Eo, Ea, D0, WE1, E0.
      - destruct (parr f (N.pred d) (String d0 r1)) as [[l r']|] eqn:PO; [|discriminate]. injection H as <- <-.
        destruct (IHa _ _ _ _ PO) as [L E]. cbn [String.length] in L. split; [lia|].
        intros f' q Hf _. destruct f' as [|f']; [lia|].
        cbn [pval]. rewrite WE, Eq, Eo, Ea, D0, WE1, E0.
        change (String d0 (r1 ++ q)) with (String d0 r1 ++ q).
        rewrite E by (cbn [String.length]; lia). reflexivity. }
    assert (Lit : forall lit v, scan_lit lit (String c r0) = Some v -> 
       String.length v <= String.length (String c r0) /\ forall q, scan_lit lit (String c (r0 ++ q)) = Some (v ++ q)).
    { intros lit v HL. apply scan_lit_some in HL. split; [rewrite HL, length_append; lia|].
      intros q. apply scan_lit_some. change (String c (r0 ++ q)) with (String c r0 ++ q). rewrite HL.
      now rewrite append_assoc. }
    destruct (Ascii.eqb c "t"%char) eqn:Et.
    { destruct (scan_lit "true" (String c r0)) as [v|] eqn:SL; [|discriminate]. injection H as <- <-.
      destruct (Lit _ _ SL) as [_ LE]. apply scan_lit_some in SL. split.
      - apply (f_equal String.length) in SL. rewrite length_append in SL. cbn in SL. lia.
      - intros f' q Hf _. destruct f' as [|f']; [lia|]. cbn [pval]. now rewrite WE, Eq, Eo, Ea, Et, LE. }
    destruct (Ascii.eqb c "f"%char) eqn:Ef.
    { destruct (scan_lit "false" (String c r0)) as [v|] eqn:SL; [|discriminate]. injection H as <- <-.
      destruct (Lit _ _ SL) as [_ LE]. apply scan_lit_some in SL. split.
      - apply (f_equal String.length) in SL. rewrite length_append in SL. cbn in SL. lia.
      - intros f' q Hf _. destruct f' as [|f']; [lia|]. cbn [pval]. now rewrite WE, Eq, Eo, Ea, Et, Ef, LE. }
    destruct (Ascii.eqb c "n"%char) eqn:En.
    { destruct (scan_lit "null" (String c r0)) as [v|] eqn:SL; [|discriminate]. injection H as <- <-.
      destruct (Lit _ _ SL) as [_ LE]. apply scan_lit_some in SL. split.
      - apply (f_equal String.length) in SL. rewrite length_append in SL. cbn in SL. lia.
      - intros f' q Hf _. destruct f' as [|f']; [lia|]. cbn [pval]. now rewrite WE, Eq, Eo, Ea, Et, Ef, En, LE. }
    destruct (scan_num (String c r0)) as [[l r']|] eqn:SN; [|discriminate]. injection H as <- <-. split.
    + pose proof (scan_num_nonempty _ _ _ SN) as NE. apply scan_num_app in SN.
      apply (f_equal String.length) in SN. rewrite length_append in SN. cbn in SN.
      destruct l; [contradiction|cbn in SN; lia].
    + intros f' q Hf HE. destruct f' as [|f']; [lia|]. cbn [pval]. rewrite WE, Eq, Eo, Ea, Et, Ef, En.
      change (String c (r0 ++ q)) with (String c r0 ++ q).
      destruct HE as [HE|HE]; [discriminate|]. now rewrite (scan_num_ext _ q _ _ SN HE).
  - intros d s l r H. cbn [parr] in H.
    destruct (pval f d s) as [[j r0]|] eqn:PV; [|discriminate]. destruct (IHv _ _ _ _ PV) as [L E].
    destruct (skip_ws r0) as [|c r1] eqn:WS; [discriminate|].
    pose proof (skip_ws_cons_len _ _ _ WS) as WL.
    assert (WE := fun q => skip_ws_cons_ext r0 q c r1 WS).
    assert (NE : r0 <> "") by (intros ->; discriminate).
    destruct (Ascii.eqb c ","%char) eqn:Ec.
    + destruct (parr f d r1) as [[l' r']|] eqn:PA; [|discriminate]. injection H as <- <-.
      destruct (IHa _ _ _ _ PA) as [L' E']. split; [lia|]. intros f' q Hf. destruct f' as [|f']; [lia|].
      cbn [parr]. rewrite E by (try lia; right; now left). rewrite WE, Ec, E' by lia. reflexivity.
    + destruct (Ascii.eqb c "]"%char) eqn:Ec'; [|discriminate]. injection H as <- <-. split; [lia|].
      intros f' q Hf. destruct f' as [|f']; [lia|].
      cbn [parr]. rewrite E by (try lia; right; now left). rewrite WE, Ec, Ec'. reflexivity.
  - intros d s l r H. cbn [pobj] in H.
    destruct (skip_ws s) as [|q0 r0] eqn:WS; [discriminate|].
    pose proof (skip_ws_cons_len _ _ _ WS) as WL. assert (WE := fun q => skip_ws_cons_ext s q q0 r0 WS).
    destruct (Ascii.eqb q0 """"%char) eqn:Eq; [|discriminate].
    destruct (scan_str r0) as [[k r1]|] eqn:SS; [|discriminate].
    destruct (scan_str_ext _ _ _ SS) as [LS ES].
    destruct (skip_ws r1) as [|cl r2] eqn:WS1; [discriminate|].
    pose proof (skip_ws_cons_len _ _ _ WS1) as WL1. assert (WE1 := fun q => skip_ws_cons_ext r1 q cl r2 WS1).
    destruct (Ascii.eqb cl ":"%char) eqn:Ecl; [|discriminate].
    destruct (pval f d r2) as [[j r3]|] eqn:PV; [|discriminate]. destruct (IHv _ _ _ _ PV) as [L E].
    destruct (skip_ws r3) as [|c r4] eqn:WS2; [discriminate|].
    pose proof (skip_ws_cons_len _ _ _ WS2) as WL2. assert (WE2 := fun q => skip_ws_cons_ext r3 q c r4 WS2).
    assert (NE : r3 <> "") by (intros ->; discriminate).
    destruct (Ascii.eqb c ","%char) eqn:Ec.
    + destruct (pobj f d r4) as [[l' r']|] eqn:PA; [|discriminate]. injection H as <- <-.
      destruct (IHo _ _ _ _ PA) as [L' E']. split; [lia|]. intros f' q Hf. destruct f' as [|f']; [lia|].
      cbn [pobj]. rewrite WE, Eq, ES, WE1, Ecl, E by (try lia; right; now left). rewrite WE2, Ec, E' by lia. reflexivity.
    + destruct (Ascii.eqb c "}"%char) eqn:Ec'; [|discriminate]. injection H as <- <-. split; [lia|].
      intros f' q Hf. destruct f' as [|f']; [lia|].
      cbn [pobj]. rewrite WE, Eq, ES, WE1, Ecl, E by (try lia; right; now left). rewrite WE2, Ec, Ec'. reflexivity.
Qed.
Lemma pval_ext f d s j r : pval f d s = Some (j, r) ->
  forall f' q, 2 * String.length s + 1 <= f' -> ext_ok j r q -> pval f' d (s ++ q) = Some (j, r ++ q).
Proof. intros H. apply (proj2 (proj1 (p_ext f) _ _ _ _ H)). Qed.
Lemma pval_len f d s j r : pval f d s = Some (j, r) -> String.length r < String.length s.
Proof. intros H. apply (proj1 (proj1 (p_ext f) _ _ _ _ H)). Qed.

(** The fuel given by [parse] always suffices: no other amount accepts more. *)
Lemma parse_fuel_enough f d s j r : pval f d s = Some (j, r) ->
  pval (2 * String.length s + 2) d s = Some (j, r).
Proof.
  intros H. rewrite <- (append_nil_r s) at 2. rewrite <- (append_nil_r r).
  apply (pval_ext f d s j r H); [lia|]. right. right. reflexivity.
Qed.
Lemma pval_mono f d s j r f' : pval f d s = Some (j, r) -> 2 * String.length s + 1 <= f' -> pval f' d s = Some (j, r).
Proof.
  intros H L. rewrite <- (append_nil_r s), <- (append_nil_r r).
  apply (pval_ext f d s j r H); [exact L|]. right. right. reflexivity.
Qed.

(** ** String round trip *)
Definition esc_rune (r : N) : string :=
  if (r <? 128)%N then esc_ascii (chr r)
  else if (r =? 8232)%N then "\u2028" else if (r =? 8233)%N then "\u2029" else encode_rune r.
Lemma encode_ascii r : (r < 128)%N -> encode_rune r = String (chr r) "".
Proof. intros H. unfold encode_rune. apply N.ltb_lt in H. now rewrite H. Qed.
Lemma encode_rune_inj r r' : scalar r -> scalar r' -> encode_rune r = encode_rune r' -> r = r'.
Proof.
  intros H H' E. pose proof (utf8_inj r r' "" "" H H') as I. rewrite !append_nil_r, !utf8_encode in I.
  apply I. exact E.
Qed.
Lemma encode_len1 r : String.length (encode_rune r) = 1 <-> (r < 128)%N.
Proof.
  unfold encode_rune. destruct (N.ltb_spec r 128); [cbn; lia|].
  destruct (r <? 2048)%N; [cbn; lia|]. destruct (r <? 65536)%N; cbn; lia.
Qed.
Lemma esc_str_step f r s : scalar r ->
  esc_str (S f) (encode_rune r ++ s) = esc_rune r ++ esc_str f s.
Proof.
  intros H. destruct (decode_encode r s H) as [L D]. cbn [esc_str].
  pose proof (encode_rune_nonempty r) as NE.
  destruct (encode_rune r ++ s) as [|c t] eqn:E.
  { apply append_eq_nil in E. destruct E as [E _]. rewrite E in NE. cbn in NE. lia. }
  rewrite L. unfold esc_rune.
  destruct (N.ltb_spec r 128) as [Lt|Ge].
  - rewrite encode_ascii in E by assumption. injection E as <- <-. rewrite encode_ascii by assumption. reflexivity.
  - assert (N1 : String.length (encode_rune r) <> 1) by (rewrite encode_len1; lia).
    destruct (String.length (encode_rune r)) as [|[|w]] eqn:LW; [lia|lia|].
    rewrite <- E.
    replace (stake (S (S w)) (encode_rune r ++ s)) with (encode_rune r) by (rewrite <- LW; now rewrite stake_append_exact).
    replace (sdrop (S (S w)) (encode_rune r ++ s)) with s by (rewrite <- LW; now rewrite sdrop_append_exact).
    unfold line_sep.
    destruct (String.eqb_spec (encode_rune r) (encode_rune 8232)) as [E1|E1].
    { apply encode_rune_inj in E1; [subst r; reflexivity|assumption|unfold scalar; lia]. }
    destruct (String.eqb_spec (encode_rune r) (encode_rune 8233)) as [E2|E2].
    { apply encode_rune_inj in E2; [subst r; reflexivity|assumption|unfold scalar; lia]. }
    destruct (N.eqb_spec r 8232); [subst; contradiction|].
    destruct (N.eqb_spec r 8233); [subst; contradiction|]. reflexivity.
Qed.
Lemma esc_str_nil f : esc_str f "" = "". Proof. destruct f; reflexivity. Qed.
Lemma reads_bad_len c s : (forall r t, scalar r -> String c s <> utf8 r ++ t) -> utf8_len (String c s) = 0.
Proof.
  intros H. destruct (Nat.eq_dec (utf8_len (String c s)) 0) as [Z|NZ]; [exact Z|]. exfalso.
  destruct (encode_decode _ NZ) as (S & E & _ & _). rewrite <- utf8_encode in E. eapply H; [exact S|exact E].
Qed.
Lemma esc_str_bad f c s : utf8_len (String c s) = 0 -> esc_str (S f) (String c s) = "\ufffd" ++ esc_str f s.
Proof. intros H. cbn [esc_str]. now rewrite H. Qed.
Lemma esc_str_fuel s rs : reads s rs -> forall f, String.length s <= f ->
  esc_str f s = esc_str (String.length s) s.
Proof.
  intros W. induction W as [|r s rs Hr W IH|c s rs Hb W IH]; intros f Hf; [now rewrite !esc_str_nil| |].
  - rewrite utf8_encode in *. rewrite length_append in *. pose proof (encode_rune_nonempty r) as NE.
    destruct f as [|f]; [lia|].
    destruct (String.length (encode_rune r) + String.length s) as [|n] eqn:En; [lia|].
    rewrite !esc_str_step by assumption. f_equal. rewrite IH by lia. symmetry. apply IH. lia.
  - cbn [String.length] in *. destruct f as [|f]; [lia|]. apply reads_bad_len in Hb.
    rewrite !esc_str_bad by assumption. f_equal. apply IH. lia.
Qed.
Lemma parse_esc_ascii f c t : (code c < 128)%N ->
  parse_str (S f) (esc_ascii c ++ t) = pcons (String c "") (parse_str f t).
Proof.
  intros H. destruct c as [[|] [|] [|] [|] [|] [|] [|] [|]]; try (vm_compute in H; discriminate); reflexivity.
Qed.
Lemma parse_esc_rune f r t : scalar r ->
  parse_str (S f) (esc_rune r ++ t) = pcons (encode_rune r) (parse_str f t).
Proof.
  intros H. unfold esc_rune. destruct (N.ltb_spec r 128) as [Lt|Ge].
  - rewrite encode_ascii by assumption. apply parse_esc_ascii. rewrite code_chr by lia. assumption.
  - destruct (N.eqb_spec r 8232) as [->|N1]; [reflexivity|].
    destruct (N.eqb_spec r 8233) as [->|N2]; [reflexivity|].
    destruct (decode_encode r t H) as [L _]. cbn [parse_str].
    pose proof (encode_rune_nonempty r) as NE.
    assert (Hd : exists c u, encode_rune r = String c u /\ (128 <= code c)%N).
    { unfold encode_rune. destruct (N.ltb_spec r 128); [lia|]. pose proof (scalar_bound r H).
      destruct (N.ltb_spec r 2048).
      { eexists _, _; split; [reflexivity|]. rewrite code_chr; [lia|].
        assert (r / 64 < 32)%N by (apply N.div_lt_upper_bound; lia). lia. }
      destruct (N.ltb_spec r 65536).
      { eexists _, _; split; [reflexivity|]. rewrite code_chr; [lia|].
        assert (r / 4096 < 16)%N by (apply N.div_lt_upper_bound; lia). lia. }
      eexists _, _; split; [reflexivity|]. rewrite code_chr; [lia|].
      assert (r / 262144 < 8)%N by (apply N.div_lt_upper_bound; lia). lia. }
    destruct Hd as (c & u & Ec & Hc). rewrite Ec in L |- *. cbn [append] in L |- *.
    assert (Nq : Ascii.eqb c """"%char = false) by (apply Ascii.eqb_neq; intros ->; vm_compute in Hc; apply Hc; reflexivity).
    assert (Nb : Ascii.eqb c "\"%char = false) by (apply Ascii.eqb_neq; intros ->; vm_compute in Hc; apply Hc; reflexivity).
    rewrite Nq, Nb. assert (N32 : (code c <? 32)%N = false) by (apply N.ltb_ge; lia). rewrite N32, L.
    cbn [String.length].
    change (String c (u ++ t)) with (String c u ++ t).
    change (S (String.length u)) with (String.length (String c u)).
    now rewrite stake_append_exact, sdrop_append_exact.
Qed.
Lemma parse_esc_str s rs : reads s rs -> forall f q, String.length s < f ->
  parse_str f (esc_str (String.length s) s ++ String quote_c q) = Some (fold_right (fun r u => utf8 r ++ u) "" rs, q).
Proof.
  intros W. induction W as [|r s rs Hr W IH|c s rs Hb W IH]; intros f q Hf.
  - destruct f as [|f]; [cbn in Hf; lia|]. reflexivity.
  - cbn [fold_right]. rewrite utf8_encode in *. rewrite length_append in *. pose proof (encode_rune_nonempty r) as NE.
    destruct f as [|f]; [lia|].
    destruct (String.length (encode_rune r) + String.length s) as [|n] eqn:En; [lia|].
    rewrite esc_str_step by assumption. rewrite <- append_assoc, parse_esc_rune by assumption.
    rewrite (esc_str_fuel _ _ W) by lia. rewrite IH by lia. reflexivity.
  - cbn [fold_right String.length] in *. destruct f as [|f]; [lia|]. apply reads_bad_len in Hb.
    rewrite esc_str_bad by assumption. rewrite <- append_assoc.
    change (parse_str (S f) ("\ufffd" ++ ?x)) with (pcons (utf8 65533) (parse_str f x)).
    rewrite IH by lia. reflexivity.
Qed.
Lemma wft_reads s : well_formed_text s -> exists rs, reads s rs /\ s = fold_right (fun r u => utf8 r ++ u) "" rs.
Proof.
  intros W. induction W as [|r s Hr W (rs & R & E)]; [exists []; split; [constructor|reflexivity]|].
  exists (r :: rs). split; [now constructor|]. cbn [fold_right]. now rewrite <- E.
Qed.
Lemma esc_rune_len r : 1 <= String.length (esc_rune r).
Proof.
  unfold esc_rune. destruct (r <? 128)%N.
  - unfold esc_ascii, u00. destruct (html_safe _); [cbn; lia|]. destruct (_ || _); [cbn; lia|].
    destruct (Ascii.eqb _ _); [cbn; lia|]. destruct (Ascii.eqb _ _); [cbn; lia|].
    destruct (Ascii.eqb _ _); cbn; lia.
  - destruct (r =? 8232)%N; [cbn; lia|]. destruct (r =? 8233)%N; [cbn; lia|]. apply encode_rune_nonempty.
Qed.
(** [parse_str] on an escaped string with the fuel of [scan_str]. *)
Lemma scan_str_esc s t q : mended_text s t ->
  scan_str (esc_str (String.length s) s ++ String quote_c q) = Some (t, q).
Proof.
  intros (rs & W & ->). unfold scan_str.
  pose proof (parse_esc_str s rs W (S (String.length s)) "" (Nat.lt_succ_diag_r _)) as P.
  destruct (parse_str_ext _ _ _ _ P) as [_ E].
  specialize (E (String.length (esc_str (String.length s) s ++ String quote_c q)) q).
  rewrite <- append_assoc in E. cbn [append] in E. apply E.
  rewrite !length_append. cbn. lia.
Qed.
Lemma mended_text_wf s : well_formed_text s -> mended_text s s.
Proof. exact (wft_reads s). Qed.
Lemma mended_text_total s : exists t, mended_text s t.
Proof. eexists. exists (runes s). split; [apply runes_reads|reflexivity]. Qed.
Lemma mended_text_fun s t u : mended_text s t -> mended_text s u -> t = u.
Proof. intros (rs & A & ->) (rs' & B & ->). now rewrite (reads_fun _ _ _ A B). Qed.
