(** Proofs about version parsing and comparison. *)
From Coq Require Import String Ascii List Arith ZArith NArith Bool Lia.
From Verif Require Import Model.GoStr Model.Errors Model.Version Spec.VersionSpec Proofs.StrP.
Import ListNotations.
Open Scope string_scope.

Lemma digit_is_spec c d : digit_is c d <-> is_digit c = true /\ digit_val c = d.
Proof.
  unfold digit_is, is_digit, digit_val. change (N_of_ascii c) with (code c).
  rewrite andb_true_iff, !N.leb_le. lia.
Qed.
Lemma digits_snoc s n c : digits s = Some n -> is_digit c = true ->
  digits (s ++ String c "") = Some (10 * n + digit_val c)%N.
Proof.
  intros H D. destruct s as [|c0 s]; [discriminate|]. unfold digits in *.
  cbn [append]. change (String c0 (s ++ String c "")) with (String c0 s ++ String c "").
  rewrite digits_acc_app, H. cbn. now rewrite D.
Qed.
Lemma string_snoc_ind (P : string -> Prop) :
  P "" -> (forall s c, P s -> P (s ++ String c "")) -> forall s, P s.
Proof.
  intros H0 Hs s. remember (String.length s) as n eqn:Hn. revert s Hn.
  induction n as [|n IH]; intros s Hn.
  - destruct s; [exact H0|discriminate].
  - assert (E : exists t c, s = t ++ String c "").
    { clear -Hn. revert n Hn. induction s as [|c s IH]; intros n Hn; [discriminate|].
      destruct s as [|c' s]; [now exists "", c|]. cbn in Hn. injection Hn as Hn.
      destruct n as [|n]; [discriminate|]. destruct (IH n Hn) as [t [c2 E]].
      exists (String c t), c2. now rewrite E. }
    destruct E as [t [c E]]. subst s. apply Hs. apply IH.
    rewrite length_append in Hn. cbn in Hn. lia.
Qed.
Lemma decimal_digits s n : decimal s n <-> digits s = Some n.
Proof.
  split.
  - induction 1 as [c d H|s n c d H IH Hd].
    + apply digit_is_spec in H. destruct H as [D V]. cbn. rewrite D. subst. f_equal.
    + apply digit_is_spec in Hd. destruct Hd as [D V]. subst. now apply digits_snoc.
  - revert n. induction s as [|s c IH] using string_snoc_ind; intros n H; [discriminate|].
    destruct s as [|c0 s].
    + cbn in H. destruct (is_digit c) eqn:D; [|discriminate]. injection H as <-.
      change ("" ++ String c "") with (String c ""). apply dec_one. apply digit_is_spec. tauto.
    + unfold digits in H. cbn [append] in H.
      change (String c0 (s ++ String c "")) with (String c0 s ++ String c "") in H.
      rewrite digits_acc_app in H.
      destruct (digits_acc 0 (String c0 s)) as [m|] eqn:E; [|discriminate].
      cbn in H. destruct (is_digit c) eqn:D; [|discriminate].
      assert (n = (10 * m + digit_val c)%N) by (injection H as <-; reflexivity). subst n.
      apply dec_snoc; [apply IH; exact E|]. apply digit_is_spec. tauto.
Qed.
Lemma fits_spec z : fits_int64 z <-> in_int64 z = true.
Proof.
  unfold fits_int64, in_int64, min_int64, max_int64. rewrite andb_true_iff, !Z.leb_le. lia.
Qed.
Lemma decimal_head s n : decimal s n -> exists c t, s = String c t /\ is_digit c = true.
Proof.
  intros H. apply decimal_digits in H. destruct s as [|c t]; [discriminate|].
  exists c, t. split; [reflexivity|]. cbn in H. destruct (is_digit c); [reflexivity|discriminate].
Qed.
Lemma part_atoi s z : part_means s z <-> atoi s = Some z.
Proof.
  split.
  - intros H. destruct H as [s n H F|s n H F|s n H F]; unfold atoi; apply fits_spec in F.
    + destruct (decimal_head s n H) as [c [t [E D]]]. apply decimal_digits in H.
      rewrite E. destruct (digit_not_sign c D) as [-> ->]. rewrite <- E, H, F. reflexivity.
    + cbn. apply decimal_digits in H. now rewrite H, F.
    + cbn. apply decimal_digits in H. now rewrite H, F.
  - unfold atoi. intros H. destruct s as [|c s]; [discriminate|].
    destruct (Ascii.eqb_spec c "-"%char) as [Hc|Hm].
    + subst c. destruct (digits s) as [n|] eqn:E; [|discriminate].
      destruct (in_int64 (- Z.of_N n)) eqn:F; [|discriminate]. injection H as <-.
      apply (part_minus s n); [now apply decimal_digits|now apply fits_spec].
    + destruct (Ascii.eqb_spec c "+"%char) as [Hc|Hp].
      * subst c. destruct (digits s) as [n|] eqn:E; [|discriminate].
        destruct (in_int64 (Z.of_N n)) eqn:F; [|discriminate]. injection H as <-.
        apply (part_plus s n); [now apply decimal_digits|now apply fits_spec].
      * destruct (digits (String c s)) as [n|] eqn:E; [|discriminate].
        destruct (in_int64 (Z.of_N n)) eqn:F; [|discriminate]. injection H as <-.
        apply part_plain; [now apply decimal_digits|now apply fits_spec].
Qed.
Lemma digits_no_dot s n : digits s = Some n -> contains_byte "."%char s = false.
Proof.
  destruct s as [|c s]; [discriminate|]. unfold digits. generalize 0%N as a.
  generalize (String c s) as t. clear. intros t. induction t as [|c t IH]; intros a H; [reflexivity|].
  cbn in H. destruct (is_digit c) eqn:D; [|discriminate]. rewrite contains_byte_cons.
  rewrite (IH _ H), orb_false_r. apply Ascii.eqb_neq. intros <-. vm_compute in D. discriminate.
Qed.
Lemma part_no_dot s z : part_means s z -> contains_byte "."%char s = false.
Proof.
  intros H. destruct H as [s n H F|s n H F|s n H F]; apply decimal_digits in H;
    apply digits_no_dot in H; [assumption|..]; cbn [append]; rewrite contains_byte_cons, H; reflexivity.
Qed.
Lemma part_nonempty s z : part_means s z -> s <> "".
Proof.
  intros H. destruct H as [s n H F|s n H F|s n H F]; try discriminate.
  destruct (decimal_head s n H) as [c [t [-> _]]]. discriminate.
Qed.

Lemma parse_version_spec s t : parse_version s = Ok t <-> version_means s t.
Proof.
  split.
  - unfold parse_version. destruct (String.eqb_spec s "") as [Hs|Hne].
    { intros H. injection H as <-. subst s. apply ver_empty. }
    pose proof (join_split_on "."%char s) as J.
    destruct (split_on "."%char s) as [|p0 [|p1 [|p2 [|p3 l]]]] eqn:E; try discriminate;
      cbn [List.length Nat.leb]; cbn in J.
    + destruct (atoi p0) as [x|] eqn:A; [|discriminate]. intros H. injection H as <-.
      subst s. apply ver_1. now apply part_atoi.
    + destruct (atoi p0) as [x|] eqn:A; [|discriminate].
      destruct (atoi p1) as [y|] eqn:B; [|discriminate]. intros H. injection H as <-.
      subst s. apply ver_2; now apply part_atoi.
    + destruct (atoi p0) as [x|] eqn:A; [|discriminate].
      destruct (atoi p1) as [y|] eqn:B; [|discriminate].
      destruct (atoi p2) as [z|] eqn:C; [|discriminate]. intros H. injection H as <-.
      subst s. apply ver_3; now apply part_atoi.
  - intros H. destruct H as [|a x A|a b x y A B|a b c x y z A B C].
    + reflexivity.
    + unfold parse_version. pose proof (part_nonempty a x A) as N.
      destruct (String.eqb_spec a "") as [|_]; [contradiction|].
      rewrite split_on_no_sep by (eapply part_no_dot; eassumption). cbn [List.length Nat.leb].
      apply part_atoi in A. now rewrite A.
    + unfold parse_version. pose proof (part_nonempty a x A) as N.
      destruct (String.eqb_spec (a ++ "." ++ b) "") as [E|_].
      { apply append_eq_nil in E. tauto. }
      change (a ++ "." ++ b) with (join "." [a; b]). rewrite split_on_join; [|discriminate|].
      2:{ repeat constructor; eapply part_no_dot; eassumption. }
      cbn [List.length Nat.leb]. apply part_atoi in A, B. now rewrite A, B.
    + unfold parse_version. pose proof (part_nonempty a x A) as N.
      destruct (String.eqb_spec (a ++ "." ++ b ++ "." ++ c) "") as [E|_].
      { apply append_eq_nil in E. tauto. }
      change (a ++ "." ++ b ++ "." ++ c) with (join "." [a; b; c]). rewrite split_on_join; [|discriminate|].
      2:{ repeat constructor; eapply part_no_dot; eassumption. }
      cbn [List.length Nat.leb]. apply part_atoi in A, B, C. now rewrite A, B, C.
Qed.
Lemma parse_version_no_panic s : parse_version s <> Panic.
Proof.
  unfold parse_version. destruct (String.eqb s ""); [discriminate|].
  pose proof (split_on_nonnil "."%char s) as N.
  destruct (split_on "."%char s) as [|p0 l]; [contradiction|].
  destruct (Nat.leb 4 _); [discriminate|].
  destruct (atoi p0); [|discriminate]. destruct l as [|p1 [|p2 l]]; [discriminate|..];
  destruct (atoi p1); try discriminate; destruct (atoi p2); discriminate.
Qed.
Lemma parse_version_rejects s : ~ well_formed_version s <-> exists e, parse_version s = Err e.
Proof.
  split.
  - intros H. destruct (parse_version s) as [t|e|] eqn:E.
    + exfalso. apply H. exists t. now apply parse_version_spec.
    + eauto.
    + now apply parse_version_no_panic in E.
  - intros [e E] [t T]. apply parse_version_spec in T. congruence.
Qed.
Lemma version_means_fun s t u : version_means s t -> version_means s u -> t = u.
Proof. rewrite <- !parse_version_spec. congruence. Qed.

Lemma gte_value t u : 
  (let '(a, b, c) := t in let '(a', b', c') := u in
   if a >? a' then true else if a =? a' then if b >? b' then true
     else if (b =? b') && (c >=? c') then true else false else false)%Z = true <-> triple_ge t u.
Proof.
  destruct t as [[a b] c], u as [[a' b'] c']. unfold triple_ge, triple_gt.
  assert (E : (a, b, c) = (a', b', c') <-> a = a' /\ b = b' /\ c = c')
    by (split; [intros H; injection H; auto|intros (-> & -> & ->); reflexivity]).
  rewrite E. clear E.
  destruct (Z.gtb_spec a a'); [split; [lia|reflexivity]|].
  destruct (Z.eqb_spec a a'); [|split; [discriminate|lia]].
  destruct (Z.gtb_spec b b'); [split; [lia|reflexivity]|].
  destruct (Z.eqb_spec b b'); [|split; [discriminate|lia]]. cbn [andb].
  destruct (Z.geb_spec c c'); split; try discriminate; lia.
Qed.
Lemma gt_value t u : 
  (let '(a, b, c) := t in let '(a', b', c') := u in
   if a >? a' then true else if a =? a' then if b >? b' then true
     else if (b =? b') && (c >? c') then true else false else false)%Z = true <-> triple_gt t u.
Proof.
  destruct t as [[a b] c], u as [[a' b'] c']. unfold triple_gt.
  destruct (Z.gtb_spec a a'); [split; [lia|reflexivity]|].
  destruct (Z.eqb_spec a a'); [|split; [discriminate|lia]].
  destruct (Z.gtb_spec b b'); [split; [lia|reflexivity]|].
  destruct (Z.eqb_spec b b'); [|split; [discriminate|lia]]. cbn [andb].
  destruct (Z.gtb_spec c c'); split; try discriminate; lia.
Qed.
Lemma gte_ok a b t u : version_means a t -> version_means b u ->
  exists r, gte a b = Ok r /\ (r = true <-> triple_ge t u).
Proof.
  rewrite <- !parse_version_spec. intros A B. unfold gte. rewrite A, B.
  destruct t as [[a1 a2] a3], u as [[b1 b2] b3]. eexists. split; [reflexivity|].
  exact (gte_value (a1, a2, a3) (b1, b2, b3)).
Qed.
Lemma gt_ok a b t u : version_means a t -> version_means b u ->
  exists r, gt a b = Ok r /\ (r = true <-> triple_gt t u).
Proof.
  rewrite <- !parse_version_spec. intros A B. unfold gt. rewrite A, B.
  destruct t as [[a1 a2] a3], u as [[b1 b2] b3]. eexists. split; [reflexivity|].
  exact (gt_value (a1, a2, a3) (b1, b2, b3)).
Qed.
Lemma gte_error a b : (exists e, gte a b = Err e) <-> ~ well_formed_version a \/ ~ well_formed_version b.
Proof.
  rewrite !parse_version_rejects. unfold gte.
  pose proof (parse_version_no_panic a) as Na. pose proof (parse_version_no_panic b) as Nb.
  destruct (parse_version a) as [[[? ?] ?]|e|]; [|split; eauto|contradiction].
  destruct (parse_version b) as [[[? ?] ?]|e|]; [|split; eauto|contradiction].
  split; [intros [? ?]; discriminate|intros [[? ?]|[? ?]]; discriminate].
Qed.
Lemma gt_error a b : (exists e, gt a b = Err e) <-> ~ well_formed_version a \/ ~ well_formed_version b.
Proof.
  rewrite !parse_version_rejects. unfold gt.
  pose proof (parse_version_no_panic a) as Na. pose proof (parse_version_no_panic b) as Nb.
  destruct (parse_version a) as [[[? ?] ?]|e|]; [|split; eauto|contradiction].
  destruct (parse_version b) as [[[? ?] ?]|e|]; [|split; eauto|contradiction].
  split; [intros [? ?]; discriminate|intros [[? ?]|[? ?]]; discriminate].
Qed.
Lemma triple_ge_refl t : triple_ge t t. Proof. now right. Qed.
Lemma triple_ge_trans t u v : triple_ge t u -> triple_ge u v -> triple_ge t v.
Proof.
  destruct t as [[? ?] ?], u as [[? ?] ?], v as [[? ?] ?]. unfold triple_ge, triple_gt.
  intros [H|H]; [|injection H as -> -> ->; auto].
  intros [H'|H']; [|injection H' as <- <- <-; auto]. left. lia.
Qed.
Lemma triple_ge_total t u : triple_ge t u \/ triple_ge u t.
Proof.
  destruct t as [[a b] c], u as [[a' b'] c']. unfold triple_ge, triple_gt.
  destruct (Z.lt_trichotomy a a') as [H|[H|H]]; [right; left; lia| |left; left; lia].
  destruct (Z.lt_trichotomy b b') as [H'|[H'|H']]; [right; left; lia| |left; left; lia].
  destruct (Z.lt_trichotomy c c') as [H''|[H''|H'']]; [right; left; lia| |left; left; lia].
  left. right. subst. reflexivity.
Qed.
Lemma triple_gt_strict t u : triple_gt t u <-> triple_ge t u /\ ~ triple_ge u t.
Proof.
  destruct t as [[a b] c], u as [[a' b'] c']. unfold triple_ge, triple_gt. split.
  - intros H. split; [tauto|]. intros [H'|H']; [lia|]. injection H' as -> -> ->. lia.
  - intros [[H|H] N]; [assumption|]. exfalso. apply N. right. congruence.
Qed.
Lemma gte_Ok_iff a b : gte a b = Ok true <->
  exists t u, version_means a t /\ version_means b u /\ triple_ge t u.
Proof.
  split.
  - intros H. destruct (parse_version a) as [t|e|] eqn:A; [|unfold gte in H; rewrite A in H; discriminate..].
    destruct (parse_version b) as [u|e|] eqn:B.
    + apply parse_version_spec in A, B. exists t, u. destruct (gte_ok a b t u A B) as [r [E R]].
      rewrite H in E. injection E as <-. tauto.
    + unfold gte in H. rewrite A, B in H. destruct t as [[? ?] ?]. discriminate.
    + unfold gte in H. rewrite A, B in H. destruct t as [[? ?] ?]. discriminate.
  - intros (t & u & A & B & G). destruct (gte_ok a b t u A B) as [r [E R]]. rewrite E. f_equal. tauto.
Qed.
Lemma gte_refl a : well_formed_version a -> gte a a = Ok true.
Proof. intros [t A]. apply gte_Ok_iff. exists t, t. auto using triple_ge_refl. Qed.
Lemma gte_trans a b c : gte a b = Ok true -> gte b c = Ok true -> gte a c = Ok true.
Proof.
  rewrite !gte_Ok_iff. intros (t & u & A & B & G) (u' & v & B' & C & G').
  rewrite (version_means_fun _ _ _ B' B) in G'. exists t, v. eauto using triple_ge_trans.
Qed.
Lemma gte_total a b : well_formed_version a -> well_formed_version b -> gte a b = Ok true \/ gte b a = Ok true.
Proof.
  intros [t A] [u B]. rewrite !gte_Ok_iff. destruct (triple_ge_total t u); [left; exists t, u|right; exists u, t]; auto.
Qed.
Lemma gt_strict a b : well_formed_version a -> well_formed_version b ->
  (gt a b = Ok true <-> gte a b = Ok true /\ gte b a = Ok false).
Proof.
  intros [t A] [u B]. destruct (gt_ok a b t u A B) as [r [E R]].
  destruct (gte_ok a b t u A B) as [r1 [E1 R1]]. destruct (gte_ok b a u t B A) as [r2 [E2 R2]].
  rewrite E, E1, E2. pose proof (triple_gt_strict t u) as S.
  assert (Hr : r = true <-> r1 = true /\ r2 <> true) by (rewrite R, R1, S, <- R2; tauto).
  destruct r, r1, r2; intuition congruence.
Qed.
