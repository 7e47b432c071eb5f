(** JSON: number literals, value round trip, torn documents, documents produced by the parser. *)
From Coq Require Import String Ascii List Arith ZArith NArith Bool Lia.
From Verif Require Import Model.GoStr Model.Utf8 Model.Json Spec.NameSpec Spec.JsonSpec Proofs.StrP Proofs.Utf8P Proofs.JsonP.
Import ListNotations.
Open Scope nat_scope.
Open Scope string_scope.

(** ** Number literals *)
Lemma digit_spec c : digit c <-> is_digit c = true.
Proof. unfold digit, is_digit. change (N_of_ascii c) with (code c). rewrite andb_true_iff, !N.leb_le. tauto. Qed.
Lemma some_digits_spec s : some_digits s <-> s <> "" /\ sforall is_digit s = true.
Proof.
  split.
  - induction 1 as [c D|c s D H IH]; (split; [discriminate|]); apply digit_spec in D; cbn; rewrite D; [reflexivity|tauto].
  - induction s as [|c s IH]; [intros [H _]; contradiction|]. intros [_ H]. cbn in H. apply andb_true_iff in H.
    destruct H as [D H]. apply digit_spec in D. destruct s as [|c' s]; [now constructor|].
    apply sd_more; [assumption|]. apply IH. split; [discriminate|assumption].
Qed.
Lemma span_digits_all s d r : span_digits s = (d, r) -> sforall is_digit d = true.
Proof.
  revert d r. induction s as [|c s IH]; intros d r H; cbn in H; [injection H as <- <-; reflexivity|].
  destruct (is_digit c) eqn:D; [|injection H as <- <-; reflexivity].
  destruct (span_digits s) as [d' r']. injection H as <- <-. cbn. rewrite D. eauto.
Qed.
Lemma span_digits_exact d r : sforall is_digit d = true -> match r with String c _ => is_digit c = false | _ => True end ->
  span_digits (d ++ r) = (d, r).
Proof.
  intros D R. induction d as [|c d IH]; cbn in *.
  - destruct r as [|c r]; [reflexivity|]. cbn. now rewrite R.
  - apply andb_true_iff in D. destruct D as [-> D]. now rewrite IH.
Qed.
Lemma number_lit_spec s : number_lit s <-> valid_number s = true.
Proof.
  rewrite valid_number_scan. split.
  - intros (a & b & c & d & Ha & Hb & Hc & Hd & ->). unfold scan_num.
    assert (M : scan_minus (a ++ b ++ c ++ d) = (a, b ++ c ++ d)).
    { destruct Ha as [->| ->]; [|reflexivity]. cbn.
      assert (exists x y, b = String x y /\ Ascii.eqb x "-"%char = false) as (x & y & -> & N).
      { destruct Hb as [|x D N|x y D N S]; eexists _, _; (split; [reflexivity|]); [reflexivity|..];
          apply digit_spec, digit_not_sign in D; tauto. }
      cbn. now rewrite N. }
    assert (Sd : match d with String x _ => is_digit x = false | _ => True end).
    { destruct Hd as [->|(e & sg & dd & He & Hs & Hdd & ->)]; [exact I|]. destruct He as [->| ->]; reflexivity. }
    assert (Sc : match c ++ d with String x _ => is_digit x = false | _ => True end).
    { destruct Hc as [->|(dd & Hdd & ->)]; [exact Sd|reflexivity]. }
    assert (I : scan_int (b ++ c ++ d) = Some (b, c ++ d)).
    { destruct Hb as [|x D N|x y D N S].
      - reflexivity.
      - cbn. apply Ascii.eqb_neq in N. rewrite N. apply digit_spec in D. rewrite D.
        change (c ++ d) with ("" ++ c ++ d). now rewrite (span_digits_exact "" (c ++ d)).
      - cbn. apply Ascii.eqb_neq in N. rewrite N. apply digit_spec in D. rewrite D.
        apply some_digits_spec in S. rewrite (span_digits_exact y (c ++ d)) by tauto. reflexivity. }
    assert (F : scan_frac (c ++ d) = Some (c, d)).
    { destruct Hc as [->|(dd & Hdd & ->)].
      - cbn. destruct d as [|x d]; [reflexivity|]. cbn.
        assert (Ascii.eqb x "."%char = false) as ->; [|reflexivity].
        destruct Hd as [E|(e & sg & dd & He & Hs & Hdd & E)]; [discriminate|].
        destruct He as [->| ->]; injection E as -> _; reflexivity.
      - apply some_digits_spec in Hdd. cbn. rewrite (span_digits_exact dd d) by tauto.
        destruct (String.eqb_spec dd "") as [E|_]; [tauto|]. reflexivity. }
    assert (E : scan_exp d = Some (d, "")).
    { destruct Hd as [->|(e & sg & dd & He & Hs & Hdd & ->)]; [reflexivity|].
      apply some_digits_spec in Hdd. destruct Hdd as [Ne Hdd].
      assert (Sg : scan_sign (sg ++ dd) = (sg, dd)).
      { destruct Hs as [->|[->| ->]]; try reflexivity. cbn. destruct dd as [|x dd]; [contradiction|]. cbn in *.
        apply andb_true_iff in Hdd. destruct Hdd as [Dx _]. apply digit_not_sign in Dx. destruct Dx as [-> ->]. reflexivity. }
      assert (Sp : span_digits dd = (dd, "")).
      { rewrite <- (append_nil_r dd) at 1. now apply span_digits_exact. }
      destruct (String.eqb_spec dd "") as [E|Ne']; [contradiction|].
      destruct He as [->| ->]; cbn [append]; unfold scan_exp; cbn [Ascii.eqb orb]; cbn;
        rewrite Sg, Sp; destruct (String.eqb_spec dd "") as [E|_]; try contradiction; reflexivity. }
    now rewrite M, I, F, E.
  - unfold scan_num. destruct (scan_minus s) as [m s0] eqn:M.
    destruct (scan_int s0) as [[i s1]|] eqn:I; [|discriminate].
    destruct (scan_frac s1) as [[f s2]|] eqn:F; [|discriminate].
    destruct (scan_exp s2) as [[e s3]|] eqn:E; [|discriminate].
    intros H. injection H as Hs Hr. exists m, i, f, e. split; [|split; [|split; [|split; [|now symmetry]]]].
    + destruct s as [|c s]; cbn in M; [injection M as <- <-; now left|].
      destruct (Ascii.eqb c "-"%char); injection M as <- <-; [now right|now left].
    + destruct s0 as [|c s0]; [discriminate|]. cbn in I. destruct (Ascii.eqb_spec c "0"%char) as [->|N].
      { injection I as <- <-. constructor. }
      destruct (is_digit c) eqn:D; [|discriminate]. destruct (span_digits s0) as [d r] eqn:Sd.
      injection I as <- <-. apply digit_spec in D. destruct d as [|x d]; [now apply il_digit|].
      apply il_more; [assumption|assumption|]. apply some_digits_spec. split; [discriminate|].
      eapply span_digits_all; exact Sd.
    + destruct s1 as [|c s1]; cbn in F; [injection F as <- <-; now left|].
      destruct (Ascii.eqb_spec c "."%char) as [->|]; [|injection F as <- <-; now left].
      destruct (span_digits s1) as [d r] eqn:Sd. destruct (String.eqb_spec d "") as [|Nd]; [discriminate|].
      injection F as <- <-. right. exists d. split; [|reflexivity]. apply some_digits_spec. split; [exact Nd|].
      eapply span_digits_all; exact Sd.
    + destruct s2 as [|c s2]; cbn in E; [injection E as <- <-; now left|].
      destruct (Ascii.eqb c "e"%char || Ascii.eqb c "E"%char) eqn:Ec; [|injection E as <- <-; now left].
      destruct (scan_sign s2) as [sg r0] eqn:Sg. destruct (span_digits r0) as [d r] eqn:Sd.
      destruct (String.eqb_spec d "") as [|Nd]; [discriminate|]. injection E as <- <-. right.
      exists (String c ""), sg, d. split; [|split; [|split; [|reflexivity]]].
      * apply orb_true_iff in Ec. rewrite !Ascii.eqb_eq in Ec. destruct Ec as [->| ->]; auto.
      * destruct s2 as [|x s2]; cbn in Sg; [injection Sg as <- <-; now left|].
        destruct (Ascii.eqb_spec x "+"%char) as [->|]; [injection Sg as <- <-; auto|].
        destruct (Ascii.eqb_spec x "-"%char) as [->|]; [injection Sg as <- <-; auto|].
        injection Sg as <- <-. now left.
      * apply some_digits_spec. split; [exact Nd|]. eapply span_digits_all; exact Sd.
Qed.

(** ** Printing *)
Definition pr_items (nl : nat -> string) (sp : string) (d : nat) (l : list json) : string :=
  fold_right (fun y s => "," ++ nl (S d) ++ pr nl sp (S d) y ++ s) "" l.
Definition pr_members (nl : nat -> string) (sp : string) (d : nat) (l : list (string * json)) : string :=
  fold_right (fun ky s => "," ++ nl (S d) ++ print_str (fst ky) ++ ":" ++ sp ++ pr nl sp (S d) (snd ky) ++ s) "" l.
Lemma pr_arr nl sp d x xs : pr nl sp d (JArr (x :: xs)) =
  "[" ++ nl (S d) ++ pr nl sp (S d) x ++ pr_items nl sp d xs ++ nl d ++ "]".
Proof. reflexivity. Qed.
Lemma pr_obj nl sp d k x xs : pr nl sp d (JObj ((k, x) :: xs)) =
  "{" ++ nl (S d) ++ print_str k ++ ":" ++ sp ++ pr nl sp (S d) x ++ pr_members nl sp d xs ++ nl d ++ "}".
Proof.
  cbn [pr]. do 6 f_equal. unfold pr_members. f_equal.
  induction xs as [|[k' y] ys IH]; [reflexivity|]. cbn [fold_right fst snd]. now rewrite <- IH.
Qed.
Lemma print_str_shape s : print_str s = String quote_c (esc_str (String.length s) s ++ String quote_c "").
Proof. reflexivity. Qed.

(** First byte of a printed value. *)
Definition starts (c : ascii) : bool :=
  negb (is_ws c) && negb (Ascii.eqb c "]"%char) && negb (Ascii.eqb c "}"%char).
Lemma digit_starts c : is_digit c = true -> starts c = true.
Proof.
  intros H. destruct c as [[|] [|] [|] [|] [|] [|] [|] [|]]; try (vm_compute in H; discriminate); reflexivity.
Qed.
Lemma number_head l : valid_number l = true -> exists c t, l = String c t /\ starts c = true /\
  (is_digit c = true \/ c = "-"%char).
Proof.
  intros V. apply number_lit_spec in V. destruct V as (a & b & c & d & Ha & Hb & _ & _ & ->).
  destruct Ha as [->| ->].
  - destruct Hb as [|x D N|x y D N S]; cbn; eexists _, _; (split; [reflexivity|]); [now split; [|left]|..];
    apply digit_spec in D; split; auto using digit_starts.
  - cbn. eexists _, _; split; [reflexivity|]. split; [reflexivity|now right].
Qed.
Lemma pr_head nl sp d j j' : mended j j' -> exists c t, pr nl sp d j = String c t /\ starts c = true.
Proof.
  destruct j as [| [|] |l|s|[|x xs]|[|[k x] xs]]; intros W; try (eexists _, _; split; reflexivity).
  inversion W as [| |? L| | |]; subst. apply number_lit_spec in L. apply number_head in L. destruct L as (c & t & E & S & _). eauto.
Qed.
Fixpoint mended_refl j : jwf j -> mended j j.
Proof.
  destruct j as [|b|l|s|l|l]; intros W; cbn [jwf] in W.
  - constructor.
  - constructor.
  - now constructor.
  - constructor. now apply mended_text_wf.
  - constructor. induction l as [|x l IH]; [constructor|]. cbn [fold_right] in W. destruct W as [W1 W2]. constructor; [now apply mended_refl|now apply IH].
  - constructor. induction l as [|[k x] l IH]; [constructor|]. cbn [fold_right fst snd] in W. destruct W as (W0 & W1 & W2).
    constructor; [split; [now apply mended_text_wf|now apply mended_refl]|now apply IH].
Qed.

Section RoundTrip.
Variable nl : nat -> string.
Variable sp : string.
Hypothesis nl_ws : forall d, all_ws (nl d) = true.
Hypothesis sp_ws : all_ws sp = true.

Lemma pval_ws f d w s : all_ws w = true -> pval (S f) d (w ++ s) = pval (S f) d s.
Proof. intros W. cbn [pval]. now rewrite skip_ws_app. Qed.

Definition rt (k : nat) (j : json) : Prop :=
  forall j' dep rest f, mended j j' -> (jdepth j <= dep)%N -> ext_ok j "" rest ->
    2 * String.length (pr nl sp k j ++ rest) + 1 <= f -> pval f dep (pr nl sp k j ++ rest) = Some (j', rest).

Lemma ws_stop s q : all_ws s = true -> num_stop q = true -> num_stop (s ++ q) = true.
Proof.
  destruct s as [|c s]; [intros _ Q; exact Q|]. cbn. intros H _. apply andb_true_iff in H. destruct H as [H _].
  unfold is_ws in H. rewrite !orb_true_iff, !Ascii.eqb_eq in H. destruct H as [[[->| ->]| ->]| ->]; reflexivity.
Qed.
Lemma starts_not_ws c : starts c = true -> is_ws c = false.
Proof. unfold starts. rewrite !andb_true_iff, !negb_true_iff. tauto. Qed.

Lemma rt_items k l dep rest x x' l' :
  (forall k, rt k x) -> Forall (fun y => forall k, rt k y) l ->
  mended x x' -> Forall2 mended l l' ->
  (jdepth x <= dep)%N -> (fold_right (fun y m => N.max (jdepth y) m) 0 l <= dep)%N ->
  forall f s, s = pr nl sp (S k) x ++ pr_items nl sp k l ++ nl k ++ "]" ++ rest ->
  forall w, all_ws w = true -> 2 * String.length (w ++ s) + 2 <= f -> parr f dep (w ++ s) = Some (x' :: l', rest).
Proof.
  intros Hx Hl. revert x Hx x' l'. induction Hl as [|y l Hy Hl IH]; intros x Hx x' l' Wx Wl Dx Dl f s -> w Ww Hf; inversion Wl as [|? y' ? l2 Wy Wl2]; subst; clear Wl.
  - cbn [pr_items fold_right append] in *. destruct f as [|f]; [lia|]. cbn [parr].
    rewrite length_append in Hf. destruct f as [|f]; [lia|].
    rewrite pval_ws by assumption.
    rewrite (Hx (S k) x' dep (nl k ++ String "]" rest) (S f)); [|assumption|assumption| |lia].
    2:{ right. right. apply ws_stop; [apply nl_ws|reflexivity]. }
    rewrite skip_ws_app by apply nl_ws. reflexivity.
  - cbn [pr_items fold_right] in *. destruct f as [|f]; [lia|]. cbn [parr].
    rewrite length_append in Hf. destruct f as [|f]; [lia|].
    rewrite pval_ws by assumption.
    fold (pr_items nl sp k l) in *.
    rewrite <- !append_assoc in *.
    rewrite (Hx (S k) x' dep _ (S f)); [|assumption|assumption| |lia].
    2:{ right. right. reflexivity. }
    cbn [append skip_ws]. cbn [is_ws Ascii.eqb].
    change (is_ws ",") with false. cbn iota. change (Ascii.eqb "," ",") with true. cbn iota.
    rewrite (IH y Hy y' l2); [reflexivity|exact Wy|exact Wl2|lia|lia|reflexivity|apply nl_ws|].
    rewrite !length_append in *. cbn [String.length append] in *. rewrite ?length_append in *. lia.
Qed.

Lemma rt_members k l dep rest key x key' x' l' :
  (forall k, rt k x) -> Forall (fun ky => forall k, rt k (snd ky)) l ->
  mended_text key key' -> mended x x' -> Forall2 (fun a b => mended_text (fst a) (fst b) /\ mended (snd a) (snd b)) l l' ->
  (jdepth x <= dep)%N -> (fold_right (fun ky m => N.max (jdepth (snd ky)) m) 0 l <= dep)%N ->
  forall f s, s = print_str key ++ ":" ++ sp ++ pr nl sp (S k) x ++ pr_members nl sp k l ++ nl k ++ "}" ++ rest ->
  forall w, all_ws w = true -> 2 * String.length (w ++ s) + 2 <= f -> pobj f dep (w ++ s) = Some ((key', x') :: l', rest).
Proof.
  intros Hx Hl. revert key x Hx key' x' l'. induction Hl as [|[ky y] l Hy Hl IH]; intros key x Hx key' x' l' Wk Wx Wl Dx Dl f s -> w Ww Hf;
    [inversion Wl; subst; clear Wl|inversion Wl as [|? [ky' y'] ? l2 [Wky Wy] Wl2]; subst; clear Wl].
  - cbn [pr_members fold_right append] in *. destruct f as [|f]; [lia|]. cbn [pobj].
    rewrite length_append in Hf. destruct f as [|f]; [lia|].
    rewrite skip_ws_app by assumption. rewrite print_str_shape in *. cbn [append skip_ws].
    change (is_ws quote_c) with false. cbn iota. change (Ascii.eqb quote_c """") with true. cbn iota.
    rewrite <- append_assoc. cbn [append]. rewrite (scan_str_esc _ _ _ Wk). cbn [skip_ws].
    change (is_ws ":") with false. cbn iota. change (Ascii.eqb ":" ":") with true. cbn iota.
    rewrite pval_ws by exact sp_ws.
    cbn [append String.length] in Hf. rewrite !length_append in Hf. cbn [append String.length] in Hf.
    rewrite !length_append in Hf. 
    rewrite (Hx (S k) x' dep (nl k ++ String "}" rest) (S f)); [|assumption|assumption| |rewrite !length_append; lia].
    2:{ right. right. apply ws_stop; [apply nl_ws|reflexivity]. }
    rewrite skip_ws_app by apply nl_ws. reflexivity.
  - cbn [pr_members fold_right fst snd] in *. destruct f as [|f]; [lia|]. cbn [pobj].
    fold (pr_members nl sp k l) in *.
    rewrite length_append in Hf. destruct f as [|f]; [lia|].
    rewrite skip_ws_app by assumption. rewrite print_str_shape in *. cbn [append skip_ws].
    change (is_ws quote_c) with false. cbn iota. change (Ascii.eqb quote_c """") with true. cbn iota.
    rewrite <- append_assoc. cbn [append]. rewrite (scan_str_esc _ _ _ Wk). cbn [skip_ws].
    change (is_ws ":") with false. cbn iota. change (Ascii.eqb ":" ":") with true. cbn iota.
    rewrite pval_ws by exact sp_ws.
    cbn [append String.length] in Hf. rewrite !length_append in Hf. cbn [append String.length] in Hf.
    rewrite !length_append in Hf. cbn [append String.length] in Hf. rewrite !length_append in Hf.
    rewrite (Hx (S k) x' dep _ (S f)); [|assumption|assumption| |].
    2:{ right. right. reflexivity. }
    2:{ rewrite !length_append. cbn [append String.length]. rewrite !length_append. cbn [append String.length].
        rewrite ?length_append in *. cbn [append String.length] in *. rewrite ?length_append in *. lia. }
    cbn [append skip_ws].
    change (is_ws ",") with false. cbn iota. change (Ascii.eqb "," ",") with true. cbn iota.
    rewrite <- !append_assoc.
    erewrite (IH ky y Hy ky' y' l2); [reflexivity|exact Wky|exact Wy|exact Wl2|lia|lia| |apply nl_ws|].
    + rewrite print_str_shape. cbn [append]. rewrite <- !append_assoc. cbn [append]. rewrite <- ?append_assoc. reflexivity.
    + cbn [append String.length] in *. rewrite ?length_append in *. cbn [append String.length] in *.
      rewrite ?length_append in *. cbn [append String.length] in *. rewrite ?length_append in *. lia.
Qed.

Lemma rt_all j : forall k, rt k j.
Proof.
  induction j as [|b|l|s|l IH|l IH] using json_ind'; intros k j' dep rest f W D X Hf; inversion W as [|?|? Wn|? s' Ws|? l' Wl|? l' Wl]; subst; clear W.
  - destruct f as [|f]; [lia|]. destruct rest; reflexivity.
  - destruct f as [|f]; [lia|]. destruct b, rest; reflexivity.
  - destruct f as [|f]; [lia|]. apply number_lit_spec in Wn. cbn [pr] in *.
    destruct (number_head l Wn) as (c & t & E & S & Hc). 
    destruct X as [X|[X|X]]; [discriminate|contradiction|].
    pose proof (valid_number_ext l rest Wn X) as SN. cbn [pval]. rewrite E in SN |- *. cbn [append] in SN |- *.
    rewrite skip_ws_head by (now apply starts_not_ws).
    assert (Hn : Ascii.eqb c """"%char = false /\ Ascii.eqb c "{"%char = false /\ Ascii.eqb c "["%char = false /\
      Ascii.eqb c "t"%char = false /\ Ascii.eqb c "f"%char = false /\ Ascii.eqb c "n"%char = false).
    { destruct Hc as [Hc| ->]; [|repeat split; reflexivity].
      repeat split; apply Ascii.eqb_neq; intros ->; vm_compute in Hc; discriminate. }
    destruct Hn as (-> & -> & -> & -> & -> & ->). now rewrite SN.
  - destruct f as [|f]; [lia|]. cbn [pr] in *. rewrite print_str_shape in *. cbn [append pval skip_ws].
    change (is_ws quote_c) with false. cbn iota. change (Ascii.eqb quote_c """") with true. cbn iota.
    rewrite <- append_assoc. cbn [append]. now rewrite (scan_str_esc _ _ _ Ws).
  - destruct f as [|f]; [lia|]. cbn [jdepth] in D.
    destruct l as [|x l].
    + inversion Wl; subst; clear Wl. cbn [pr append pval skip_ws]. change (is_ws "[") with false. cbn iota.
      change (Ascii.eqb "[" """") with false. cbn iota. change (Ascii.eqb "[" "{") with false. cbn iota.
      change (Ascii.eqb "[" "[") with true. cbn iota.
      destruct (N.eqb_spec dep 0); [lia|]. reflexivity.
    + inversion Wl as [|? x' ? l2 Wx Wl2]; subst; clear Wl. rewrite pr_arr in *. inversion IH as [|? ? Hx Hl]; subst. cbn [fold_right] in D.
      cbn [append pval skip_ws]. change (is_ws "[") with false. cbn iota.
      change (Ascii.eqb "[" """") with false. cbn iota. change (Ascii.eqb "[" "{") with false. cbn iota.
      change (Ascii.eqb "[" "[") with true. cbn iota.
      destruct (N.eqb_spec dep 0); [lia|].
      rewrite <- !append_assoc in *.
      destruct (pr_head nl sp (S k) x x' Wx) as (c & t & Ec & Sc).
      rewrite skip_ws_app by apply nl_ws. rewrite Ec. cbn [append skip_ws]. rewrite starts_not_ws by exact Sc.
      assert (Ascii.eqb c "]"%char = false) as ->.
      { unfold starts in Sc. rewrite !andb_true_iff, !negb_true_iff in Sc. tauto. }
      assert (R : parr f (N.pred dep) ("" ++ pr nl sp (S k) x ++ pr_items nl sp k l ++ nl k ++ "]" ++ rest) = Some (x' :: l2, rest)).
      { eapply rt_items; try eassumption; try tauto; try lia; try reflexivity.
        cbn [append String.length] in *. rewrite ?length_append in *. cbn [String.length] in *. rewrite ?length_append in *. lia. }
      rewrite Ec in R. cbn [append] in R. now rewrite R.
  - destruct f as [|f]; [lia|]. cbn [jdepth] in D.
    destruct l as [|[key x] l].
    + inversion Wl; subst; clear Wl. cbn [pr append pval skip_ws]. change (is_ws "{") with false. cbn iota.
      change (Ascii.eqb "{" """") with false. cbn iota. change (Ascii.eqb "{" "{") with true. cbn iota.
      destruct (N.eqb_spec dep 0); [lia|]. reflexivity.
    + inversion Wl as [|? [key' x'] ? l2 [Wk Wx] Wl2]; subst; clear Wl. cbn [fst snd] in Wk, Wx. rewrite pr_obj in *. inversion IH as [|? ? Hx Hl]; subst. cbn [fold_right fst snd] in D, Hx.
      cbn [append pval skip_ws]. change (is_ws "{") with false. cbn iota.
      change (Ascii.eqb "{" """") with false. cbn iota. change (Ascii.eqb "{" "{") with true. cbn iota.
      destruct (N.eqb_spec dep 0); [lia|].
      rewrite <- !append_assoc in *.
      rewrite skip_ws_app by apply nl_ws. rewrite print_str_shape at 1. cbn [append skip_ws].
      change (is_ws quote_c) with false. cbn iota. change (Ascii.eqb quote_c "}") with false. cbn iota.
      assert (R : pobj f (N.pred dep) ("" ++ print_str key ++ ":" ++ sp ++ pr nl sp (S k) x ++ pr_members nl sp k l ++ nl k ++ "}" ++ rest) = Some ((key', x') :: l2, rest)).
      { eapply rt_members; try eassumption; try tauto; try lia; try reflexivity.
        cbn [append String.length] in *. rewrite ?length_append in *. cbn [String.length] in *. rewrite ?length_append in *. lia. }
      rewrite print_str_shape in R. cbn [append] in R. rewrite <- !append_assoc in *. cbn [append] in *. now rewrite R.
Qed.
Lemma parse_pr_mended k j j' w : mended j j' -> (jdepth j <= 10000)%N -> all_ws w = true -> parse (pr nl sp k j ++ w) = Some j'.
Proof.
  intros W D Hw. unfold parse.
  rewrite (rt_all j k j' max_nesting_depth w); [|assumption|exact D| |lia].
  - apply skip_ws_all in Hw. now rewrite Hw.
  - right. right. rewrite <- (append_nil_r w). apply ws_stop; [assumption|reflexivity].
Qed.
Lemma parse_pr k j w : encodable j -> all_ws w = true -> parse (pr nl sp k j ++ w) = Some j.
Proof. intros [W D] Hw. apply parse_pr_mended; [now apply mended_refl|exact D|exact Hw]. Qed.
End RoundTrip.

Lemma spaces_ws n : all_ws (spaces n) = true.
Proof. induction n as [|n IH]; [reflexivity|]. exact IH. Qed.
Lemma indent_nl_ws d : all_ws (indent_nl d) = true.
Proof. unfold indent_nl. apply spaces_ws. Qed.
Lemma parse_print j : encodable j -> parse (print j) = Some j.
Proof.
  intros H. unfold print. rewrite <- (append_nil_r (pr _ _ _ _)). now apply parse_pr.
Qed.
Lemma parse_print_indent j : encodable j -> parse (print_indent j) = Some j.
Proof.
  intros H. unfold print_indent. rewrite <- (append_nil_r (pr _ _ _ _)). apply parse_pr; auto using indent_nl_ws.
Qed.
(** json.Encoder appends a newline. *)
Lemma parse_print_nl j w : encodable j -> all_ws w = true -> parse (print j ++ w) = Some j.
Proof. intros H W. unfold print. now apply parse_pr. Qed.
Lemma parse_print_indent_nl j w : encodable j -> all_ws w = true -> parse (print_indent j ++ w) = Some j.
Proof. intros H W. unfold print_indent. apply parse_pr; auto using indent_nl_ws. Qed.

(** ** Torn documents *)
Lemma parse_some s j : parse s = Some j <-> exists r, pval (2 * String.length s + 2) max_nesting_depth s = Some (j, r) /\ all_ws r = true.
Proof.
  unfold parse. destruct (pval _ _ s) as [[j' r]|].
  - rewrite <- skip_ws_all || idtac. split.
    + destruct (skip_ws r) eqn:E; [|discriminate]. intros H. injection H as <-. exists r. split; [reflexivity|]. now apply skip_ws_all.
    + intros (r' & H & W). injection H as -> ->. apply skip_ws_all in W. now rewrite W.
  - split; [discriminate|]. intros (r & H & _). discriminate.
Qed.
(** Anything after a complete non-number document must be white space, and adds nothing. *)
Lemma parse_extend s q j : parse s = Some j -> is_num j = false ->
  parse (s ++ q) = if all_ws q then Some j else None.
Proof.
  intros H N. apply parse_some in H. destruct H as (r & H & W).
  unfold parse. rewrite (pval_ext _ _ _ _ _ H); [|rewrite length_append; lia|now left].
  rewrite skip_ws_app by assumption. destruct (all_ws q) eqn:E.
  - apply skip_ws_all in E. now rewrite E.
  - destruct (skip_ws q) eqn:S; [|reflexivity]. apply skip_ws_all in S. congruence.
Qed.
Lemma all_ws_app a b : all_ws (a ++ b) = all_ws a && all_ws b.
Proof. induction a as [|c a IH]; [reflexivity|]. cbn. rewrite IH. now rewrite andb_assoc. Qed.
(** The last byte of a printed array or object is not white space. *)
Lemma strict_prefix_rejected s j : (forall q, pval (2 * String.length (s ++ q) + 2) max_nesting_depth (s ++ q) = Some (j, q)) ->
  is_num j = false -> (forall p t, s = p ++ t -> t <> "" -> forall j', parse p = Some j' -> is_num j' = false) ->
  forall p t, s = p ++ t -> t <> "" -> parse p = None.
Proof.
  intros H N Hn p t E T. destruct (parse p) as [j'|] eqn:P; [|reflexivity]. exfalso.
  pose proof (Hn p t E T j' P) as N'.
  apply parse_some in P. destruct P as (r & P & W).
  specialize (H ""). rewrite append_nil_r in H.
  pose proof (pval_ext _ _ _ _ _ P (2 * String.length s + 2) t) as X. rewrite <- E in X.
  rewrite X in H; [|rewrite E, length_append; lia|now left]. injection H as _ H.
  apply append_eq_nil in H. tauto.
Qed.
Lemma parse_brace_not_num c r j : Ascii.eqb c "{"%char || Ascii.eqb c "["%char || Ascii.eqb c """"%char = true ->
  parse (String c r) = Some j -> is_num j = false.
Proof.
  intros C H. apply parse_some in H. destruct H as (r' & H & _). 
  destruct (2 * String.length (String c r) + 2) as [|f]; [discriminate|]. cbn [pval] in H.
  rewrite !orb_true_iff, !Ascii.eqb_eq in C. destruct C as [[->| ->]| ->].
  - cbn [skip_ws] in H. change (is_ws "{") with false in H. cbn iota in H.
    change (Ascii.eqb "{" """") with false in H. cbn iota in H. change (Ascii.eqb "{" "{") with true in H. cbn iota in H.
    change (max_nesting_depth =? 0)%N with false in H. cbn iota in H.
    destruct (skip_ws r) as [|d r1]; [discriminate|]. destruct (Ascii.eqb d "}"); [injection H as <- <-; reflexivity|].
    destruct (pobj _ _ _) as [[l x]|]; [|discriminate]. injection H as <- <-. reflexivity.
  - cbn [skip_ws] in H. change (is_ws "[") with false in H. cbn iota in H.
    change (Ascii.eqb "[" """") with false in H. cbn iota in H. change (Ascii.eqb "[" "{") with false in H. cbn iota in H.
    change (Ascii.eqb "[" "[") with true in H. cbn iota in H.
    change (max_nesting_depth =? 0)%N with false in H. cbn iota in H.
    destruct (skip_ws r) as [|d r1]; [discriminate|]. destruct (Ascii.eqb d "]"); [injection H as <- <-; reflexivity|].
    destruct (parr _ _ _) as [[l x]|]; [|discriminate]. injection H as <- <-. reflexivity.
  - cbn [skip_ws] in H. change (is_ws """") with false in H. cbn iota in H.
    change (Ascii.eqb """" """") with true in H. cbn iota in H.
    destruct (scan_str r) as [[l x]|]; [|discriminate]. injection H as <- <-. reflexivity.
Qed.
Lemma parse_empty : parse "" = None. Proof. reflexivity. Qed.
Definition is_obj (j : json) : bool := match j with JObj _ => true | _ => false end.
Lemma pr_obj_head nl sp d l : exists r, pr nl sp d (JObj l) = String "{"%char r.
Proof. destruct l as [|[k x] l]; eexists; reflexivity. Qed.
Lemma pr_prefix_rejected nl sp k l m p t : (forall d, all_ws (nl d) = true) -> all_ws sp = true -> mended (JObj l) m -> (jdepth (JObj l) <= 10000)%N ->
  pr nl sp k (JObj l) = p ++ t -> t <> "" -> parse p = None.
Proof.
  intros Hnl Hsp W D E T.
  eapply (strict_prefix_rejected (pr nl sp k (JObj l)) m); [|inversion W; reflexivity| |exact E|exact T].
  - intros q. apply rt_all; [assumption|assumption|assumption|exact D|now left|lia].
  - intros p' t' E' T' j' P. destruct (pr_obj_head nl sp k l) as [r R]. rewrite R in E'.
    destruct p' as [|c p']; [rewrite parse_empty in P; discriminate|].
    cbn in E'. injection E' as <- _. eapply parse_brace_not_num; [|exact P]. reflexivity.
Qed.
Lemma print_prefix_rejected l p t : encodable (JObj l) -> print (JObj l) = p ++ t -> t <> "" -> parse p = None.
Proof. unfold print. intros [W D]. eapply pr_prefix_rejected; [reflexivity|reflexivity|apply mended_refl; exact W|exact D]. Qed.
Lemma print_indent_prefix_rejected l p t : encodable (JObj l) -> print_indent (JObj l) = p ++ t -> t <> "" -> parse p = None.
Proof. unfold print_indent. intros [W D]. eapply pr_prefix_rejected; [apply indent_nl_ws|reflexivity|apply mended_refl; exact W|exact D]. Qed.

(** ** The parser only produces encodable documents *)
Lemma wft_app a b : well_formed_text a -> well_formed_text b -> well_formed_text (a ++ b).
Proof. intros H Hb. induction H as [|r s Hr H IH]; [exact Hb|]. rewrite <- append_assoc. now constructor. Qed.
Lemma wft_encode r : scalar r -> well_formed_text (encode_rune r).
Proof. intros H. rewrite <- utf8_encode, <- (append_nil_r (utf8 r)). constructor; [assumption|constructor]. Qed.
Lemma wft_ascii c : (code c < 128)%N -> well_formed_text (String c "").
Proof.
  intros H. rewrite <- (chr_code c), <- encode_ascii by assumption. apply wft_encode. unfold scalar. lia.
Qed.
Lemma wft_repl : well_formed_text repl.
Proof. apply wft_encode. unfold scalar, rune_error. lia. Qed.
Lemma simple_escape_ascii e b : simple_escape e = Some b -> (code b < 128)%N.
Proof.
  unfold simple_escape. repeat (destruct (Ascii.eqb e _); [intros H; injection H as <-; reflexivity|]). discriminate.
Qed.
Lemma low_half_scalar u s rn r : low_half u s = Some (rn, r) -> scalar rn.
Proof.
  unfold low_half. destruct s as [|b [|x s]]; try discriminate. destruct (_ && _); [|discriminate].
  destruct (hex4 s) as [[u2 r2]|]; [|discriminate]. destruct (is_high u && is_low u2) eqn:E; [|discriminate].
  intros H. injection H as <- <-. unfold is_high, is_low, decode_pair, scalar in *.
  rewrite !andb_true_iff, !N.leb_le in E. lia.
Qed.
Lemma parse_str_wf f s t r : parse_str f s = Some (t, r) -> well_formed_text t.
Proof.
  revert s t r. induction f as [|f IH]; intros s t r H; [discriminate|].
  cbn in H. destruct s as [|c s]; [discriminate|].
  destruct (Ascii.eqb c """"%char); [injection H as <- <-; constructor|].
  destruct (Ascii.eqb c "\"%char).
  - destruct s as [|e s]; [discriminate|]. destruct (Ascii.eqb e "u"%char).
    + destruct (hex4 s) as [[u r3]|] eqn:X; [|discriminate]. apply hex4_bound in X.
      destruct (is_surrogate u) eqn:Su.
      * destruct (low_half u r3) as [[rn r5]|] eqn:LH; apply pcons_some in H; destruct H as (s' & H & ->);
          (apply wft_app; [|eauto]); [apply wft_encode; eapply low_half_scalar; eassumption|apply wft_repl].
      * apply pcons_some in H; destruct H as (s' & H & ->). apply wft_app; [|eauto]. apply wft_encode.
        unfold is_surrogate in Su. unfold scalar. rewrite andb_false_iff, !N.leb_gt in Su. lia.
    + destruct (simple_escape e) as [b|] eqn:Es; [|discriminate]. apply pcons_some in H; destruct H as (s' & H & ->).
      apply wft_app; [|eauto]. apply wft_ascii. eapply simple_escape_ascii; eassumption.
  - destruct (code c <? 32)%N; [discriminate|]. destruct (utf8_len (String c s)) as [|w] eqn:W;
      apply pcons_some in H; destruct H as (s' & H & ->); (apply wft_app; [|eauto]); [apply wft_repl|].
    assert (NZ : utf8_len (String c s) <> 0) by lia. destruct (encode_decode _ NZ) as (Sc & E & L & _).
    rewrite W in *. change (String c (stake w s)) with (stake (S w) (String c s)).
    rewrite E, <- L, stake_append_exact. now apply wft_encode.
Qed.
Lemma scan_str_wf s t r : scan_str s = Some (t, r) -> well_formed_text t.
Proof. apply parse_str_wf. Qed.
Lemma scan_num_valid s l r : scan_num s = Some (l, r) -> valid_number l = true.
Proof.
  intros H. apply number_lit_spec.
  (* same case analysis as for complete literals *)
  unfold scan_num in H. destruct (scan_minus s) as [m s0] eqn:M.
  destruct (scan_int s0) as [[i s1]|] eqn:I; [|discriminate].
  destruct (scan_frac s1) as [[f s2]|] eqn:F; [|discriminate].
  destruct (scan_exp s2) as [[e s3]|] eqn:E; [|discriminate].
  injection H as Hs Hr. exists m, i, f, e. split; [|split; [|split; [|split; [|now symmetry]]]].
  + destruct s as [|c s]; cbn in M; [injection M as <- <-; now left|].
    destruct (Ascii.eqb c "-"%char); injection M as <- <-; [now right|now left].
  + destruct s0 as [|c s0]; [discriminate|]. cbn in I. destruct (Ascii.eqb_spec c "0"%char) as [->|N].
    { injection I as <- <-. constructor. }
    destruct (is_digit c) eqn:D; [|discriminate]. destruct (span_digits s0) as [d r'] eqn:Sd.
    injection I as <- <-. apply digit_spec in D. destruct d as [|x d]; [now apply il_digit|].
    apply il_more; [assumption|assumption|]. apply some_digits_spec. split; [discriminate|].
    eapply span_digits_all; exact Sd.
  + destruct s1 as [|c s1]; cbn in F; [injection F as <- <-; now left|].
    destruct (Ascii.eqb_spec c "."%char) as [->|]; [|injection F as <- <-; now left].
    destruct (span_digits s1) as [d r'] eqn:Sd. destruct (String.eqb_spec d "") as [|Nd]; [discriminate|].
    injection F as <- <-. right. exists d. split; [|reflexivity]. apply some_digits_spec. split; [exact Nd|].
    eapply span_digits_all; exact Sd.
  + destruct s2 as [|c s2]; cbn in E; [injection E as <- <-; now left|].
    destruct (Ascii.eqb c "e"%char || Ascii.eqb c "E"%char) eqn:Ec; [|injection E as <- <-; now left].
    destruct (scan_sign s2) as [sg r0] eqn:Sg. destruct (span_digits r0) as [d r'] eqn:Sd.
    destruct (String.eqb_spec d "") as [|Nd]; [discriminate|]. injection E as <- <-. right.
    exists (String c ""), sg, d. split; [|split; [|split; [|reflexivity]]].
    * apply orb_true_iff in Ec. rewrite !Ascii.eqb_eq in Ec. destruct Ec as [->| ->]; auto.
    * destruct s2 as [|x s2]; cbn in Sg; [injection Sg as <- <-; now left|].
      destruct (Ascii.eqb_spec x "+"%char) as [->|]; [injection Sg as <- <-; auto|].
      destruct (Ascii.eqb_spec x "-"%char) as [->|]; [injection Sg as <- <-; auto|].
      injection Sg as <- <-. now left.
    * apply some_digits_spec. split; [exact Nd|]. eapply span_digits_all; exact Sd.
Qed.
Lemma p_wf f :
  (forall d s j r, pval f d s = Some (j, r) -> jwf j /\ (jdepth j <= d)%N) /\
  (forall d s l r, parr f d s = Some (l, r) ->
     fold_right (fun x P => jwf x /\ P) True l /\ (fold_right (fun x m => N.max (jdepth x) m) 0 l <= d)%N) /\
  (forall d s l r, pobj f d s = Some (l, r) ->
     fold_right (fun kx P => well_formed_text (fst kx) /\ jwf (snd kx) /\ P) True l /\
     (fold_right (fun kx m => N.max (jdepth (snd kx)) m) 0 l <= d)%N).
Proof.
  induction f as [|f IH]; [repeat split; discriminate|].
  destruct IH as (IHv & IHa & IHo). split; [|split].
  - intros d s j r H. cbn [pval] in H. destruct (skip_ws s) as [|c r0]; [discriminate|].
    destruct (Ascii.eqb c """"%char).
    { destruct (scan_str r0) as [[t r']|] eqn:SS; [|discriminate]. injection H as <- <-. cbn.
      split; [eapply scan_str_wf; eassumption|lia]. }
    destruct (Ascii.eqb c "{"%char).
    { destruct (N.eqb_spec d 0); [discriminate|]. destruct (skip_ws r0) as [|d0 r1]; [discriminate|].
      destruct (Ascii.eqb d0 "}"%char); [injection H as <- <-; cbn; split; [exact I|lia]|].
      destruct (pobj _ _ _) as [[l r']|] eqn:PO; [|discriminate]. injection H as <- <-.
      destruct (IHo _ _ _ _ PO) as [A B]. cbn [jwf jdepth]. split; [exact A|lia]. }
    destruct (Ascii.eqb c "["%char).
    { destruct (N.eqb_spec d 0); [discriminate|]. destruct (skip_ws r0) as [|d0 r1]; [discriminate|].
      destruct (Ascii.eqb d0 "]"%char); [injection H as <- <-; cbn; split; [exact I|lia]|].
      destruct (parr _ _ _) as [[l r']|] eqn:PO; [|discriminate]. injection H as <- <-.
      destruct (IHa _ _ _ _ PO) as [A B]. cbn [jwf jdepth]. split; [exact A|lia]. }
    destruct (Ascii.eqb c "t"%char). { destruct (scan_lit _ _); [|discriminate]. injection H as <- <-. cbn. split; [exact I|lia]. }
    destruct (Ascii.eqb c "f"%char). { destruct (scan_lit _ _); [|discriminate]. injection H as <- <-. cbn. split; [exact I|lia]. }
    destruct (Ascii.eqb c "n"%char). { destruct (scan_lit _ _); [|discriminate]. injection H as <- <-. cbn. split; [exact I|lia]. }
    destruct (scan_num _) as [[l r']|] eqn:SN; [|discriminate]. injection H as <- <-. cbn. split; [|lia].
    apply number_lit_spec. eapply scan_num_valid; eassumption.
  - intros d s l r H. cbn [parr] in H. destruct (pval f d s) as [[j r0]|] eqn:PV; [|discriminate].
    destruct (IHv _ _ _ _ PV) as [A B]. destruct (skip_ws r0) as [|c r1]; [discriminate|].
    destruct (Ascii.eqb c ","%char).
    + destruct (parr f d r1) as [[l' r']|] eqn:PA; [|discriminate]. injection H as <- <-.
      destruct (IHa _ _ _ _ PA) as [C D]. cbn [fold_right]. split; [auto|lia].
    + destruct (Ascii.eqb c "]"%char); [|discriminate]. injection H as <- <-. cbn [fold_right]. split; [auto|lia].
  - intros d s l r H. cbn [pobj] in H. destruct (skip_ws s) as [|q0 r0]; [discriminate|].
    destruct (Ascii.eqb q0 """"%char); [|discriminate]. destruct (scan_str r0) as [[k r1]|] eqn:SS; [|discriminate].
    apply scan_str_wf in SS. destruct (skip_ws r1) as [|cl r2]; [discriminate|].
    destruct (Ascii.eqb cl ":"%char); [|discriminate].
    destruct (pval f d r2) as [[j r3]|] eqn:PV; [|discriminate]. destruct (IHv _ _ _ _ PV) as [A B].
    destruct (skip_ws r3) as [|c r4]; [discriminate|].
    destruct (Ascii.eqb c ","%char).
    + destruct (pobj f d r4) as [[l' r']|] eqn:PA; [|discriminate]. injection H as <- <-.
      destruct (IHo _ _ _ _ PA) as [C D]. cbn [fold_right fst snd]. split; [auto|lia].
    + destruct (Ascii.eqb c "}"%char); [|discriminate]. injection H as <- <-. cbn [fold_right fst snd]. split; [auto|lia].
Qed.
Lemma parse_encodable s j : parse s = Some j -> encodable j.
Proof.
  intros H. apply parse_some in H. destruct H as (r & H & _). exact (proj1 (p_wf _) _ _ _ _ H).
Qed.
(** Re-encoding any accepted document and reading it again changes nothing. *)
Lemma reparse s j : parse s = Some j -> parse (print j) = Some j.
Proof. intros H. apply parse_print. eapply parse_encodable; eassumption. Qed.
