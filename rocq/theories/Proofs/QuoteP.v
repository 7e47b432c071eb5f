(** Quoting (Model/Errors.v) against Spec/QuoteSpec.v. *)
From Coq Require Import String Ascii List Arith NArith Bool Lia.
From Verif Require Import Model.GoStr Model.Utf8 Model.Errors Spec.NameSpec Spec.QuoteSpec Proofs.StrP.
Import ListNotations.
Open Scope nat_scope.
Open Scope string_scope.

Lemma low_hex_value d : (d < 16)%N -> hex_value (low_hex d) d.
Proof.
  intros D. assert (I : In d (map N.of_nat (seq 0 16))) by (apply in_map_iff; exists (N.to_nat d); split; [apply N2Nat.id|apply in_seq; lia]).
  assert (T : forallb (fun d => match String.get (N.to_nat d) "0123456789abcdef" with Some c => Ascii.eqb c (low_hex d) | None => false end) (map N.of_nat (seq 0 16)) = true)
    by (vm_compute; reflexivity).
  rewrite forallb_forall in T. specialize (T _ I). unfold hex_value. cbv beta in T. destruct (String.get _ _); [|discriminate]. apply Ascii.eqb_eq in T. now subst.
Qed.
Lemma byte_code c : byte c = code c. Proof. reflexivity. Qed.
Lemma code_bound c : (code c < 256)%N.
Proof. unfold code. apply N_ascii_bounded. Qed.
Lemma quote_byte_literal c t s : literal t s -> literal (quote_byte c ++ t) (String c s).
Proof.
  intros L. unfold quote_byte. destruct (Ascii.eqb_spec c """"%char) as [-> |N1]; [cbn [orb append]; apply lit_escape; [apply se_quote|exact L]|].
  destruct (Ascii.eqb_spec c "\"%char) as [-> |N2]; [cbn [orb append]; apply lit_escape; [apply se_backslash|exact L]|]. cbn [orb].
  assert (B : (code c < 256)%N) by apply code_bound.
  assert (J : forall x, (code c =? N_of_ascii x)%N = true -> c = x).
  { intros x H. apply N.eqb_eq in H. rewrite <- (ascii_N_embedding c), <- (ascii_N_embedding x). now f_equal. }
  destruct ((32 <=? code c) && (code c <? 127))%N eqn:P.
  - apply andb_prop in P as [P1 P2]. apply N.leb_le in P1. apply N.ltb_lt in P2. cbn [append]. apply lit_itself; [| | |exact L]; rewrite byte_code.
    + intros H. apply N1, (J """"%char). now apply N.eqb_eq.
    + intros H. apply N2, (J "\"%char). now apply N.eqb_eq.
    + lia.
  - repeat match goal with |- context[(code c =? ?n)%N] => let E := fresh in destruct (code c =? n)%N eqn:E;
      [apply N.eqb_eq in E; cbn [append]; apply lit_escape; [rewrite byte_code, E; constructor|exact L]|] end.
    cbn [append]. apply lit_hex with (hi := (code c / 16)%N) (lo := (code c mod 16)%N); [| | | |exact L].
    + apply low_hex_value. apply N.div_lt_upper_bound; lia.
    + apply low_hex_value. apply N.mod_lt. lia.
    + rewrite byte_code. apply N.div_mod. lia.
    + split; rewrite byte_code.
      * apply andb_false_iff in P as [P|P]; [apply N.leb_gt in P|apply N.ltb_ge in P]; lia.
      * intros e X. inversion X; match goal with Y : ?n = code c |- _ => first [discriminate (eq_trans (eq_sym (N.eqb_refl n)) (eq_trans (f_equal (fun k => N.eqb k n) Y) ltac:(eassumption))) | apply N1, (J """"%char); rewrite <- Y; reflexivity | apply N2, (J "\"%char); rewrite <- Y; reflexivity] end.
Qed.
(** The bytes of a longer UTF-8 sequence. *)
Definition high (c : ascii) : Prop := (128 <= byte c)%N.
Lemma long_high s w : utf8_len s = w -> 2 <= w -> all_bytes high (stake w s) /\ w <= String.length s.
Proof.
  unfold utf8_len. intros <-. destruct s as [|c0 s]; [cbn; lia|].
  assert (C : forall c, cont c = true -> high c) by (intros c H; unfold cont in H; apply andb_prop in H as [H _]; apply N.leb_le in H; exact H).
  assert (B : forall lo hi c, (128 <= lo)%N -> between lo hi c = true -> high c) by (intros lo hi c G H; unfold between in H; apply andb_prop in H as [H _]; apply N.leb_le in H; unfold high; rewrite byte_code; lia).
  destruct (N.ltb_spec (code c0) 128) as [X|X]; [lia|]. assert (H0 : high c0) by exact X.
  destruct (code c0 <? 194)%N; [lia|]. destruct (code c0 <? 224)%N.
  { destruct s as [|c1 s]; [lia|]. destruct (cont c1) eqn:E1; [|lia]. intros _. cbn [stake String.length]. split; [|lia]. repeat (constructor; [auto|]). constructor. }
  destruct (code c0 <? 240)%N.
  { destruct s as [|c1 [|c2 s]]; try lia. destruct (between _ _ c1) eqn:E1; [|cbn [andb]; lia]. destruct (cont c2) eqn:E2; [|cbn [andb]; lia].
    intros _. cbn [stake String.length andb]. split; [|lia]. constructor; [exact H0|]. constructor; [eapply B; [|exact E1]; destruct (code c0 =? 224)%N; lia|]. repeat (constructor; [auto|]). constructor. }
  destruct (code c0 <? 245)%N; [|lia].
  destruct s as [|c1 [|c2 [|c3 s]]]; try lia. destruct (between _ _ c1) eqn:E1; [|cbn [andb]; lia]. destruct (cont c2) eqn:E2; [|cbn [andb]; lia]. destruct (cont c3) eqn:E3; [|cbn [andb]; lia].
  intros _. cbn [stake String.length andb]. split; [|lia]. constructor; [exact H0|]. constructor; [eapply B; [|exact E1]; destruct (code c0 =? 240)%N; lia|]. repeat (constructor; [auto|]). constructor.
Qed.
Lemma high_literal h t s : all_bytes high h -> literal t s -> literal (h ++ t) (h ++ s).
Proof.
  intros H L. induction H as [|c h H0 H IH]; [exact L|]. cbn [append]. unfold high in H0. apply lit_itself; [lia|lia|lia|exact IH].
Qed.
Lemma quote_literal f : forall s, String.length s <= f -> literal (quote_fuel f s) s.
Proof.
  induction f as [|f IH]; intros s H; [destruct s; [constructor|cbn in H; lia]|]. destruct s as [|c r]; [constructor|]. cbn [quote_fuel].
  assert (R : literal (quote_byte c ++ quote_fuel f r) (String c r)) by (apply quote_byte_literal, IH; cbn in H; lia).
  destruct (utf8_len (String c r)) as [|[|w]] eqn:E; [exact R|exact R|]. destruct (long_high _ _ E) as [A B]; [lia|].
  rewrite <- (stake_sdrop (S (S w)) (String c r)) at 3. apply high_literal; [exact A|]. apply IH. rewrite length_sdrop. cbn [String.length] in *. lia.
Qed.
Lemma all_bytes_app P a b : all_bytes P a -> all_bytes P b -> all_bytes P (a ++ b).
Proof. intros A B. induction A; [exact B|]. cbn [append]. now constructor. Qed.
Lemma high_visible h : all_bytes high h -> all_bytes (fun c => (32 <= byte c)%N /\ byte c <> 127%N) h.
Proof. induction 1 as [|c h C H IH]; constructor; [unfold high in C; lia|exact IH]. Qed.
Lemma quote_byte_visible c : all_bytes (fun c => (32 <= byte c)%N /\ byte c <> 127%N) (quote_byte c).
Proof.
  assert (T : forallb (fun n => forallb (fun c => (32 <=? byte c)%N && negb (byte c =? 127)%N) (list_ascii_of_string (quote_byte (ascii_of_nat n)))) (seq 0 256) = true) by (vm_compute; reflexivity).
  rewrite forallb_forall in T. specialize (T (nat_of_ascii c)). rewrite ascii_nat_embedding in T. specialize (T ltac:(apply in_seq; pose proof (nat_ascii_bounded c); lia)).
  revert T. generalize (quote_byte c). intros s. induction s as [|d s IH]; intros T; [constructor|]. cbn [list_ascii_of_string forallb] in T.
  apply andb_prop in T as [T1 T2]. apply andb_prop in T1 as [A B]. apply N.leb_le in A. apply negb_true_iff, N.eqb_neq in B. constructor; auto.
Qed.
Lemma quote_visible f : forall s, all_bytes (fun c => (32 <= byte c)%N /\ byte c <> 127%N) (quote_fuel f s).
Proof.
  induction f as [|f IH]; intros s; [constructor|]. destruct s as [|c r]; [constructor|]. cbn [quote_fuel].
  assert (R : all_bytes (fun c => (32 <= byte c)%N /\ byte c <> 127%N) (quote_byte c ++ quote_fuel f r)) by (apply all_bytes_app; [apply quote_byte_visible|apply IH]).
  destruct (utf8_len (String c r)) as [|[|w]] eqn:E; [exact R|exact R|]. destruct (long_high _ _ E) as [A B]; [lia|].
  apply all_bytes_app; [now apply high_visible|apply IH].
Qed.
Lemma quote_plain s : plain_text s -> quote s = in_quotes s.
Proof.
  intros P. unfold quote, in_quotes. cbn [append]. f_equal. f_equal. unfold plain_text in P.
  induction P as [|c s (H0 & H1 & H2) P IH]; [reflexivity|]. cbn [quote_fuel String.length].
  assert (U : utf8_len (String c s) = 1) by (unfold utf8_len; rewrite <- byte_code; destruct (N.ltb_spec (byte c) 128); [reflexivity|lia]).
  rewrite U, IH. unfold quote_byte. destruct (Ascii.eqb_spec c """"%char) as [-> |_]; [now destruct H1|]. destruct (Ascii.eqb_spec c "\"%char) as [-> |_]; [now destruct H2|].
  cbn [orb]. rewrite <- byte_code. destruct (N.leb_spec 32 (byte c)); [|lia]. destruct (N.ltb_spec (byte c) 127); [|lia]. reflexivity.
Qed.
Lemma quotes_quote s : quotes (quote s) s.
Proof.
  split; [|split].
  - eexists. split; [reflexivity|]. now apply quote_literal.
  - apply quote_plain.
  - unfold quote. constructor; [vm_compute; split; discriminate|]. apply all_bytes_app; [apply quote_visible|]. constructor; [vm_compute; split; discriminate|constructor].
Qed.
(** A literal ends at its closing mark, and stands for one text. *)
Lemma hex_value_is c d : hex_value c d -> d = (if byte c <? 58 then byte c - 48 else byte c - 87)%N.
Proof.
  unfold hex_value. rewrite <- (N2Nat.id d) at 2. generalize (N.to_nat d) as n. intros n H.
  do 16 (destruct n as [|n]; [cbn in H; injection H as <-; reflexivity|]). destruct n; discriminate H.
Qed.
Lemma escape_fun e a b : simple_escape e a -> simple_escape e b -> a = b.
Proof. intros A B. inversion A; subst; inversion B; subst; reflexivity. Qed.
Lemma byte_inj c d : byte c = byte d -> c = d.
Proof. intros H. rewrite <- (ascii_N_embedding c), <- (ascii_N_embedding d). unfold byte in H. now f_equal. Qed.
Lemma not_x n : ~ simple_escape "x" n.
Proof. intros H. inversion H. Qed.
Lemma literal_split t s : literal t s -> forall t' s' r r', literal t' s' -> t ++ String """" r = t' ++ String """" r' -> t = t' /\ s = s' /\ r = r'.
Proof.
  induction 1 as [|c t s N1 N2 N3 L IH|e c t s E L IH|a b hi lo c t s A B C HX L IH]; intros t' s' r r' L' X.
  - destruct L' as [|c' t' s' M1 M2 M3 L'|e' c' t' s' E' L'|a' b' hi' lo' c' t' s' A' B' C' HX' L']; cbn [append] in X.
    + injection X as ->. auto.
    + injection X as <- _. now destruct M1.
    + discriminate X.
    + discriminate X.
  - destruct L' as [|c' t' s' M1 M2 M3 L'|e' c' t' s' E' L'|a' b' hi' lo' c' t' s' A' B' C' HX' L']; cbn [append] in X.
    + injection X as -> _. now destruct N1.
    + injection X as -> X. destruct (IH _ _ _ _ L' X) as (-> & -> & ->). auto.
    + injection X as -> _. now destruct N2.
    + injection X as -> _. now destruct N2.
  - destruct L' as [|c' t' s' M1 M2 M3 L'|e' c' t' s' E' L'|a' b' hi' lo' c' t' s' A' B' C' HX' L']; cbn [append] in X.
    + discriminate X.
    + injection X as <- _. now destruct M2.
    + injection X as -> X. destruct (IH _ _ _ _ L' X) as (-> & -> & ->). rewrite (byte_inj c c'); [auto|]. eapply escape_fun; eassumption.
    + injection X as -> _. now apply not_x in E.
  - destruct L' as [|c' t' s' M1 M2 M3 L'|e' c' t' s' E' L'|a' b' hi' lo' c' t' s' A' B' C' HX' L']; cbn [append] in X.
    + discriminate X.
    + injection X as <- _. now destruct M2.
    + injection X as <- _. now apply not_x in E'.
    + injection X as -> -> X. destruct (IH _ _ _ _ L' X) as (-> & -> & ->). rewrite (byte_inj c c'); [auto|].
      apply hex_value_is in A, B, A', B'. rewrite C, C'. congruence.
Qed.
Lemma quotes_split q s q' s' r r' : quotes q s -> quotes q' s' -> q ++ r = q' ++ r' -> q = q' /\ s = s' /\ r = r'.
Proof.
  intros ((t & -> & L) & _) ((t' & -> & L') & _) E. unfold in_quotes in *. cbn [append] in *. injection E as E.
  rewrite <- !append_assoc in E. cbn [append] in E. destruct (literal_split _ _ L _ _ _ _ L' E) as (-> & -> & ->). auto.
Qed.
