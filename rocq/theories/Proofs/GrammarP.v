(** The scanner accepts exactly the JSON grammar. *)
From Coq Require Import String Ascii List Arith NArith Bool Lia.
From Verif Require Import Model.GoStr Model.Utf8 Model.Json Spec.NameSpec Spec.JsonSpec Spec.GrammarSpec Proofs.StrP Proofs.Utf8P Proofs.JsonP Proofs.JsonRT.
Import ListNotations.
Open Scope nat_scope.
Open Scope string_scope.

(** *** White space, digits *)
Lemma is_ws_iff c : is_ws c = true <-> In (N_of_ascii c) [32; 9; 10; 13]%N.
Proof. destruct c as [[|] [|] [|] [|] [|] [|] [|] [|]]; cbn; intuition discriminate. Qed.
Lemma blank_iff s : blank s <-> all_ws s = true.
Proof.
  unfold blank. induction s as [|c s IH]; cbn [list_ascii_of_string In all_ws]; [split; [reflexivity|intros _ c []]|].
  rewrite andb_true_iff, <- IH, is_ws_iff. split; [intros H; split; [apply H; now left|intros x X; apply H; now right]|].
  intros [A B] x [<-|X]; [exact A|now apply B].
Qed.
Lemma hex_iff c n : hex_val c = Some n <-> hex_digit_is c n.
Proof.
  unfold hex_val, hex_digit_is, is_digit, code. set (m := N_of_ascii c).
  destruct ((48 <=? m) && (m <=? 57))%N eqn:A; [apply andb_true_iff in A as [A1 A2]; apply N.leb_le in A1, A2|].
  - split; [intros E; injection E as <-; left; lia|]. intros [[H ->]|[[H _]|[H _]]]; [reflexivity|lia|lia].
  - assert (A' : ~ (48 <= m <= 57)%N) by (intros [X Y]; apply N.leb_le in X, Y; now rewrite X, Y in A).
    destruct ((97 <=? m) && (m <=? 102))%N eqn:B; [apply andb_true_iff in B as [B1 B2]; apply N.leb_le in B1, B2|].
    + split; [intros E; injection E as <-; right; right; lia|]. intros [[H ->]|[[H _]|[H ->]]]; [lia|lia|reflexivity].
    + assert (B' : ~ (97 <= m <= 102)%N) by (intros [X Y]; apply N.leb_le in X, Y; now rewrite X, Y in B).
      destruct ((65 <=? m) && (m <=? 70))%N eqn:C; [apply andb_true_iff in C as [C1 C2]; apply N.leb_le in C1, C2|].
      * split; [intros E; injection E as <-; right; left; lia|]. intros [[H ->]|[[H ->]|[H _]]]; [lia|reflexivity|lia].
      * assert (C' : ~ (65 <= m <= 70)%N) by (intros [X Y]; apply N.leb_le in X, Y; now rewrite X, Y in C).
        split; [discriminate|]. intros [[H ->]|[[H ->]|[H _]]]; lia.
Qed.
Lemma hex4_iff s u r : hex4 s = Some (u, r) <-> exists h, hex_four h u /\ s = h ++ r.
Proof.
  split.
  - intros H. destruct s as [|a [|b [|c [|d s]]]]; try discriminate. cbn [hex4] in H.
    destruct (hex_val a) as [x|] eqn:A; [|discriminate]. destruct (hex_val b) as [y|] eqn:B; [|discriminate].
    destruct (hex_val c) as [z|] eqn:C; [|discriminate]. destruct (hex_val d) as [w|] eqn:D; [|discriminate]. injection H as <- <-.
    exists (String a (String b (String c (String d "")))). split; [|reflexivity]. exists a, b, c, d, x, y, z, w. rewrite <- !hex_iff. repeat split; try assumption. lia.
  - intros (h & (a & b & c & d & x & y & z & w & -> & A & B & C & D & ->) & ->). apply hex_iff in A, B, C, D. cbn [append hex4]. rewrite A, B, C, D. do 2 f_equal. lia.
Qed.
Lemma high_iff u : is_high u = true <-> high u.
Proof. unfold is_high, high. rewrite andb_true_iff, !N.leb_le. lia. Qed.
Lemma low_iff u : is_low u = true <-> low u.
Proof. unfold is_low, low. rewrite andb_true_iff, !N.leb_le. lia. Qed.
Lemma surrogate_iff u : (u < 65536)%N -> (is_surrogate u = false <-> scalar u).
Proof.
  intros B. unfold is_surrogate, scalar. destruct (N.leb_spec 55296 u), (N.leb_spec u 57343); cbn [andb]; split; intros X; try discriminate; try reflexivity; lia.
Qed.
Lemma escape_iff e c : simple_escape e = Some c <-> escaped e c.
Proof.
  unfold escaped. split.
  - unfold simple_escape. repeat (match goal with |- context [Ascii.eqb e ?x] => destruct (Ascii.eqb_spec e x) as [->|_] end; [intros X; injection X as <-; cbn; tauto|]). discriminate.
  - intros H. assert (X : forall n, N_of_ascii c = n -> c = chr n) by (intros n <-; unfold chr; now rewrite ascii_N_embedding).
    cbn [In] in H. repeat (destruct H as [H|H]; [injection H as <- H; symmetry in H; apply X in H; subst c; reflexivity|]). destruct H.
Qed.

(** *** Strings *)
Definition no_quote (p : string) : Prop := forall c, In c (list_ascii_of_string p) -> c <> quote_c.
(** What has no quote in it ends before the quote. *)
Lemma before_quote p : forall rest s q, no_quote p -> p ++ rest = s ++ String quote_c q -> exists s', s = p ++ s'.
Proof.
  induction p as [|c p IH]; intros rest s q N E; [now exists s|]. destruct s as [|c' s]; cbn [append] in E.
  - injection E as E _. destruct (N c); [now left|exact E].
  - injection E as <- E. destruct (IH _ _ _ (fun x X => N x (or_intror X)) E) as (s' & ->). now exists s'.
Qed.
Lemma hex_no_quote h u : hex_four h u -> no_quote h.
Proof.
  intros (a & b & c & d & x & y & z & w & -> & A & B & C & D & _) k H. cbn in H.
  assert (X : forall k n, hex_digit_is k n -> k <> quote_c) by (intros k0 n K ->; revert K; unfold hex_digit_is, quote_c; cbn; lia).
  destruct H as [<-|[<-|[<-|[<-|[]]]]]; eauto.
Qed.
Lemma high_bytes r c : scalar r -> (128 <= r)%N -> In c (list_ascii_of_string (utf8 r)) -> (128 <= N_of_ascii c)%N.
Proof.
  intros S L. pose proof (scalar_bound r S) as B. unfold utf8, NameSpec.b.
  assert (X : forall n, (128 <= n < 256)%N -> (128 <= N_of_ascii (ascii_of_N n))%N) by (intros n H; rewrite N_ascii_embedding; lia).
  destruct (N.ltb_spec r 128); [lia|].
  pose proof (N.mod_upper_bound r 64). pose proof (N.mod_upper_bound (r / 64) 64). pose proof (N.mod_upper_bound (r / 4096) 64).
  destruct (N.ltb_spec r 2048); [|destruct (N.ltb_spec r 65536)]; cbn [append list_ascii_of_string In]; intros H'.
  - pose proof (N.div_lt_upper_bound r 64 32). destruct H' as [<-|[<-|[]]]; apply X; lia.
  - pose proof (N.div_lt_upper_bound r 4096 16). destruct H' as [<-|[<-|[<-|[]]]]; apply X; lia.
  - pose proof (N.div_lt_upper_bound r 262144 5). destruct H' as [<-|[<-|[<-|[<-|[]]]]]; apply X; lia.
Qed.
Lemma utf8_no_quote r : scalar r -> r <> 34%N -> no_quote (utf8 r).
Proof.
  intros S N c H. destruct (N.lt_ge_cases r 128) as [L|L].
  - unfold utf8, NameSpec.b in H. apply N.ltb_lt in L as L'. rewrite L' in H. destruct H as [<-|[]]. intros E. apply (f_equal N_of_ascii) in E. rewrite N_ascii_embedding in E by lia. now apply N.
  - pose proof (high_bytes r c S L H) as B. intros ->. revert B. unfold quote_c. cbn. lia.
Qed.
Lemma low_half_iff u s rn r : low_half u s = Some (rn, r) <-> exists h2 u2, s = "\u" ++ h2 ++ r /\ hex_four h2 u2 /\ high u /\ low u2 /\ rn = (65536 + (u - 55296) * 1024 + (u2 - 56320))%N.
Proof.
  split.
  - destruct s as [|b0 [|x s]]; try discriminate. cbn [low_half]. destruct (Ascii.eqb_spec b0 "\"%char) as [->|]; [|discriminate]. destruct (Ascii.eqb_spec x "u"%char) as [->|]; [|discriminate].
    cbn [andb]. destruct (hex4 s) as [[u2 r2]|] eqn:H; [|discriminate]. destruct (is_high u && is_low u2) eqn:HL; [|discriminate]. intros E. injection E as <- <-.
    apply andb_true_iff in HL as [HH LL]. apply high_iff in HH. apply low_iff in LL. apply hex4_iff in H as (h & HF & ->). exists h, u2. split; [reflexivity|]. split; [exact HF|]. split; [exact HH|]. split; [exact LL|].
    unfold decode_pair. lia.
  - intros (h & u2 & -> & HF & HH & LL & ->). cbn [append low_half]. change (Ascii.eqb "\" "\" && Ascii.eqb "u" "u") with true. cbv iota.
    rewrite (proj2 (hex4_iff (h ++ r) u2 r)) by eauto. apply high_iff in HH. apply low_iff in LL. rewrite HH, LL. cbn [andb]. unfold decode_pair. do 2 f_equal. lia.
Qed.
Lemma ascii_utf8 c : (code c < 128)%N -> String c "" = utf8 (code c).
Proof. intros L. unfold utf8, NameSpec.b. apply N.ltb_lt in L. rewrite L. unfold code. now rewrite ascii_N_embedding. Qed.
Lemma ascii_scalar c : (code c < 128)%N -> scalar (code c).
Proof. unfold scalar. lia. Qed.
Lemma repl_is : repl = utf8 65533. Proof. reflexivity. Qed.
Lemma app_cancel (p a b : string) : p ++ a = p ++ b -> a = b.
Proof. induction p; cbn; intros E; [exact E|injection E; auto]. Qed.
Lemma parse_str_sound f : forall s t r, parse_str f s = Some (t, r) -> exists raw, s = raw ++ String quote_c r /\ spells raw t.
Proof.
  induction f as [|f IH]; intros s t r H; [discriminate|]. cbn [parse_str] in H. destruct s as [|c s]; [discriminate|].
  destruct (Ascii.eqb_spec c """"%char) as [->|NQ]; [injection H as <- <-; exists ""; split; [reflexivity|constructor]|].
  destruct (Ascii.eqb_spec c "\"%char) as [->|NB].
  - destruct s as [|e s]; [discriminate|]. destruct (Ascii.eqb_spec e "u"%char) as [->|NU].
    + destruct (hex4 s) as [[u r3]|] eqn:H4; [|discriminate]. pose proof (hex4_bound _ _ _ H4) as UB. apply hex4_iff in H4 as (h & HF & ->).
      destruct (is_surrogate u) eqn:SU.
      * assert (NS : ~ scalar u) by (intros X; apply (surrogate_iff u UB) in X; congruence).
        destruct (low_half u r3) as [[rn r5]|] eqn:LH.
        -- apply pcons_some in H as (s' & H & ->). apply IH in H as (raw & -> & C). apply low_half_iff in LH as (h2 & u2 & -> & H2 & HH & LL & ->).
           exists ("\u" ++ h ++ "\u" ++ h2 ++ raw). split; [now rewrite <- ?append_assoc; cbn; rewrite <- ?append_assoc|]. rewrite <- utf8_encode. now apply ch_pair.
        -- apply pcons_some in H as (s' & H & ->). apply IH in H as (raw & -> & C). exists ("\u" ++ h ++ raw). split; [now rewrite <- ?append_assoc; cbn; rewrite <- ?append_assoc|].
           rewrite repl_is. apply (ch_lone h u); try assumption. intros h2 u2 s2 -> H2 [HH LL].
           assert (X : low_half u (("\u" ++ h2 ++ s2) ++ String quote_c r) = Some ((65536 + (u - 55296) * 1024 + (u2 - 56320))%N, s2 ++ String quote_c r)).
           { apply low_half_iff. exists h2, u2. rewrite <- ?append_assoc. cbn. rewrite <- ?append_assoc. auto. }
           congruence.
      * apply pcons_some in H as (s' & H & ->). apply IH in H as (raw & -> & C). exists ("\u" ++ h ++ raw). split; [now rewrite <- ?append_assoc; cbn; rewrite <- ?append_assoc|].
        rewrite <- utf8_encode. apply ch_code; try assumption. now apply surrogate_iff.
    + destruct (simple_escape e) as [b|] eqn:SE; [|discriminate]. apply pcons_some in H as (s' & H & ->). apply IH in H as (raw & -> & C). exists (String "\" (String e raw)).
      split; [reflexivity|]. cbn [append]. apply ch_escape; [now apply escape_iff|exact C].
  - destruct (N.ltb_spec (code c) 32) as [|L32]; [discriminate|]. destruct (utf8_len (String c s)) as [|w] eqn:UL.
    + apply pcons_some in H as (s' & H & ->). apply IH in H as (raw & -> & C). exists (String c raw). split; [reflexivity|]. rewrite repl_is. apply ch_bad; [|exact C].
      intros rr t' SR E. assert (X : utf8_len (utf8 rr ++ (t' ++ String quote_c r)) = String.length (utf8 rr)) by (rewrite utf8_encode; apply decode_encode; exact SR).
      rewrite append_assoc, <- E in X. cbn [append] in X. rewrite UL in X. pose proof (utf8_nonempty rr). destruct (utf8 rr); [contradiction|discriminate].
    + rewrite <- UL in H. apply pcons_some in H as (s' & H & ->). assert (NZ : utf8_len (String c s) <> 0) by lia.
      destruct (encode_decode _ NZ) as (SC & E & LEN & _). set (rn := fst (decode_rune (String c s))) in *. rewrite <- utf8_encode in E, LEN.
      apply IH in H as (raw & D & C). exists (utf8 rn ++ raw). rewrite <- append_assoc, <- D. split; [exact E|].
      assert (ST : stake (utf8_len (String c s)) (String c s) = utf8 rn).
      { rewrite E at 2. rewrite <- LEN. clear. generalize (sdrop (String.length (utf8 rn)) (String c s)) as q. generalize (utf8 rn) as p. induction p as [|x p IHp]; intros q; [now destruct q|]. cbn. f_equal. apply IHp. }
      rewrite ST. assert (K : (rn < 128)%N -> code c = rn).
      { intros L. unfold utf8, NameSpec.b in E. apply N.ltb_lt in L as L'. rewrite L' in E. cbn [append] in E. injection E as EC _. rewrite EC. unfold code. apply N_ascii_embedding. lia. }
      apply ch_one; [exact SC| | | |exact C].
      * destruct (N.lt_ge_cases rn 128) as [L|L]; [rewrite <- (K L); exact L32|lia].
      * intros X. apply NQ. assert (L : (rn < 128)%N) by lia. apply K in L. rewrite X in L. rewrite <- (chr_code c), L. reflexivity.
      * intros X. apply NB. assert (L : (rn < 128)%N) by lia. apply K in L. rewrite X in L. rewrite <- (chr_code c), L. reflexivity.
Qed.
Lemma parse_str_complete raw t : spells raw t -> forall f q, String.length raw < f -> parse_str f (raw ++ String quote_c q) = Some (t, q).
Proof.
  induction 1 as [|rr s t SC L32 NQ NB C IH|e c s t E C IH|h u s t HF SC C IH|h1 h2 u1 u2 s t H1 H2 HH LL C IH|h u s t HF NS LO C IH|c s t BAD C IH]; intros f q L; destruct f as [|f]; try lia.
  - reflexivity.
  - rewrite <- append_assoc. destruct (decode_encode rr (s ++ String quote_c q) SC) as [UL _]. rewrite <- utf8_encode in UL.
    pose proof (utf8_nonempty rr) as NE. rewrite length_append in L.
    assert (LP : 0 < String.length (utf8 rr)) by (destruct (utf8 rr); [contradiction|cbn; lia]).
    assert (X : parse_str f (s ++ String quote_c q) = Some (t, q)) by (apply IH; lia).
    assert (HD : exists c w, utf8 rr = String c w /\ c <> quote_c /\ c <> "\"%char /\ (32 <= code c)%N).
    { destruct (utf8 rr) as [|c w] eqn:U; [contradiction|]. exists c, w. split; [reflexivity|]. destruct (N.lt_ge_cases rr 128) as [A|A].
      - unfold utf8, NameSpec.b in U. apply N.ltb_lt in A as A'. rewrite A' in U. injection U as <- _. assert (CC : code (ascii_of_N rr) = rr) by (unfold code; apply N_ascii_embedding; lia).
        split; [intros Z; apply NQ; rewrite <- CC, Z; reflexivity|]. split; [intros Z; apply NB; rewrite <- CC, Z; reflexivity|]. rewrite CC. exact L32.
      - assert (B : (128 <= N_of_ascii c)%N) by (apply (high_bytes rr); [exact SC|exact A|rewrite U; now left]). repeat split; [intros ->; revert B; cbn; lia|intros ->; revert B; cbn; lia|unfold code; lia]. }
    destruct HD as (c & w & U & N1 & N2 & L3). cbn [parse_str]. rewrite U in *. cbn [append] in *.
    destruct (Ascii.eqb_spec c """"%char) as [|_]; [contradiction|]. destruct (Ascii.eqb_spec c "\"%char) as [|_]; [contradiction|]. destruct (N.ltb_spec (code c) 32) as [|_]; [lia|].
    rewrite UL. cbn [String.length]. change (String c (w ++ s ++ String quote_c q)) with (String c w ++ (s ++ String quote_c q)).
    rewrite (stake_append_exact (String c w)), (sdrop_append_exact (String c w)). rewrite X. reflexivity.
  - cbn [append parse_str String.length] in *. change (Ascii.eqb "\" """") with false. change (Ascii.eqb "\" "\") with true. cbv iota. apply escape_iff in E.
    destruct (Ascii.eqb_spec e "u"%char) as [->|_]; [discriminate E|]. rewrite E, IH by lia. reflexivity.
  - rewrite !length_append in L. cbn [String.length] in L. cbn [append parse_str]. change (Ascii.eqb "\" """") with false. change (Ascii.eqb "\" "\") with true. change (Ascii.eqb "u" "u") with true. cbv iota.
    rewrite <- append_assoc. assert (H4 : hex4 (h ++ (s ++ String quote_c q)) = Some (u, s ++ String quote_c q)) by (apply hex4_iff; eauto). rewrite H4. pose proof (hex4_bound _ _ _ H4) as UB. rewrite (proj2 (surrogate_iff u UB) SC).
    rewrite IH by lia. rewrite <- (utf8_encode u). reflexivity.
  - rewrite !length_append in L. cbn [String.length] in L. cbn [append parse_str]. change (Ascii.eqb "\" """") with false. change (Ascii.eqb "\" "\") with true. change (Ascii.eqb "u" "u") with true. cbv iota.
    rewrite <- append_assoc. match goal with |- context [hex4 (h1 ++ ?x)] => assert (H4 : hex4 (h1 ++ x) = Some (u1, x)) by (apply hex4_iff; eauto) end. rewrite H4. pose proof (hex4_bound _ _ _ H4) as UB.
    destruct (is_surrogate u1) eqn:SU; [|apply (surrogate_iff u1 UB) in SU; unfold scalar, high in *; lia].
    match goal with |- context [low_half u1 ?x] => assert (X : low_half u1 x = Some ((65536 + (u1 - 55296) * 1024 + (u2 - 56320))%N, s ++ String quote_c q)) end.
    { apply low_half_iff. exists h2, u2. split; [cbn [append]; now rewrite <- append_assoc|auto]. }
    rewrite X, IH by lia. rewrite <- utf8_encode. reflexivity.
  - rewrite !length_append in L. cbn [String.length] in L. cbn [append parse_str]. change (Ascii.eqb "\" """") with false. change (Ascii.eqb "\" "\") with true. change (Ascii.eqb "u" "u") with true. cbv iota.
    rewrite <- append_assoc. assert (H4 : hex4 (h ++ (s ++ String quote_c q)) = Some (u, s ++ String quote_c q)) by (apply hex4_iff; eauto). rewrite H4. pose proof (hex4_bound _ _ _ H4) as UB.
    destruct (is_surrogate u) eqn:SU; [|apply (surrogate_iff u UB) in SU; contradiction].
    destruct (low_half u (s ++ String quote_c q)) as [[rn r5]|] eqn:LH; [|rewrite IH by lia; reflexivity].
    exfalso. apply low_half_iff in LH as (h2 & u2 & E & H2 & HH & LL & _). rewrite append_assoc in E.
    destruct (before_quote ("\u" ++ h2) r5 s q) as (s' & ->); [|symmetry; exact E|].
    + intros k K. cbn [append list_ascii_of_string In] in K. destruct K as [<-|[<-|K]]; [discriminate|discriminate|exact (hex_no_quote _ _ H2 k K)].
    + apply (LO h2 u2 s'); [now rewrite append_assoc|exact H2|auto].
  - cbn [append parse_str String.length] in *.
    assert (L128 : (128 <= code c)%N).
    { destruct (N.lt_ge_cases (code c) 128) as [A|A]; [|exact A]. exfalso. apply (BAD (code c) s (ascii_scalar _ A)). rewrite <- ascii_utf8 by exact A. reflexivity. }
    destruct (Ascii.eqb_spec c """"%char) as [->|_]; [revert L128; cbn; lia|]. destruct (Ascii.eqb_spec c "\"%char) as [->|_]; [revert L128; cbn; lia|]. destruct (N.ltb_spec (code c) 32) as [|_]; [lia|].
    assert (UL : utf8_len (String c (s ++ String quote_c q)) = 0).
    { apply reads_bad_len. intros rr t' SR E. destruct (before_quote (utf8 rr) t' (String c s) q) as (s' & E'); [|symmetry; exact E|exact (BAD rr s' SR E')].
      apply utf8_no_quote; [exact SR|]. intros ->. cbn in E. injection E as -> _. revert L128. cbn. lia. }
    rewrite UL, IH by lia. reflexivity.
Qed.

(** *** Values *)
Scheme value_ind' := Minimality for value Sort Prop
  with elements_ind' := Minimality for elements Sort Prop
  with members_ind' := Minimality for members Sort Prop.
Combined Scheme grammar_ind from value_ind', elements_ind', members_ind'.
Lemma skip_split s : exists w, s = w ++ skip_ws s /\ all_ws w = true.
Proof.
  induction s as [|c s (w & E & W)]; [exists ""; auto|]. cbn [skip_ws]. destruct (is_ws c) eqn:B; [|exists ""; auto].
  exists (String c w). cbn. rewrite <- E, B. auto.
Qed.
Lemma skip_some s c r : skip_ws s = String c r -> exists w, s = w ++ String c r /\ blank w.
Proof. intros E. destruct (skip_split s) as (w & S & W). rewrite E in S. exists w. split; [exact S|now apply blank_iff]. Qed.
Lemma blank_nil : blank "". Proof. intros c []. Qed.
Ltac flat := rewrite <- ?append_assoc; cbn [append]; rewrite <- ?append_assoc; cbn [append]; rewrite <- ?append_assoc; cbn [append]; rewrite <- ?append_assoc; cbn [append]; rewrite <- ?append_assoc; cbn [append].
Lemma grammar_sound f :
  (forall d s j r, pval f d s = Some (j, r) -> exists w v, s = w ++ v ++ r /\ blank w /\ value v j) /\
  (forall d s l r, parr f d s = Some (l, r) -> exists v, s = v ++ String "]" r /\ elements v l) /\
  (forall d s l r, pobj f d s = Some (l, r) -> exists v, s = v ++ String "}" r /\ members v l).
Proof.
  induction f as [|f IH]; [repeat split; discriminate|]. destruct IH as (IHv & IHa & IHo). split; [|split].
  - intros d s j r H. cbn [pval] in H. destruct (skip_ws s) as [|c r0] eqn:WS; [discriminate|]. apply skip_some in WS as (w & -> & W). exists w.
    destruct (Ascii.eqb_spec c """"%char) as [->|_].
    { destruct (scan_str r0) as [[t r']|] eqn:SS; [|discriminate]. injection H as <- <-. apply parse_str_sound in SS as (raw & -> & C).
      exists (quoted raw). split; [unfold quoted; flat; reflexivity|]. split; [exact W|now constructor]. }
    destruct (Ascii.eqb_spec c "{"%char) as [->|_].
    { destruct (N.eqb_spec d 0); [discriminate|]. destruct (skip_ws r0) as [|d0 r1] eqn:WS1; [discriminate|].
      pose proof (skip_some _ _ _ WS1) as (w1 & -> & W1). destruct (Ascii.eqb_spec d0 "}"%char) as [->|_].
      - injection H as <- <-. exists ("{" ++ w1 ++ "}"). split; [flat; reflexivity|]. split; [exact W|now constructor].
      - destruct (pobj _ _ _) as [[l r']|] eqn:PO; [|discriminate]. injection H as <- <-. apply IHo in PO as (v & E & M).
        exists ("{" ++ (w1 ++ v) ++ "}"). rewrite E. split; [flat; reflexivity|]. split; [exact W|]. constructor.
        destruct M as [wa k key w2 w3 sv w4 j A B C D F G|wa k key w2 w3 sv w4 j rest l A B C D F G M];
          [rewrite (append_assoc w1 wa)|rewrite (append_assoc w1 wa)]; constructor; try assumption; apply blank_iff; apply blank_iff in W1, A; rewrite all_ws_app, W1, A; reflexivity. }
    destruct (Ascii.eqb_spec c "["%char) as [->|_].
    { destruct (N.eqb_spec d 0); [discriminate|]. destruct (skip_ws r0) as [|d0 r1] eqn:WS1; [discriminate|].
      pose proof (skip_some _ _ _ WS1) as (w1 & -> & W1). destruct (Ascii.eqb_spec d0 "]"%char) as [->|_].
      - injection H as <- <-. exists ("[" ++ w1 ++ "]"). split; [flat; reflexivity|]. split; [exact W|now constructor].
      - destruct (parr _ _ _) as [[l r']|] eqn:PO; [|discriminate]. injection H as <- <-. apply IHa in PO as (v & E & M).
        exists ("[" ++ (w1 ++ v) ++ "]"). rewrite E. split; [flat; reflexivity|]. split; [exact W|]. constructor.
        destruct M as [wa sv w2 j A B C|wa sv w2 j rest l A B C M];
          [rewrite (append_assoc w1 wa)|rewrite (append_assoc w1 wa)]; constructor; try assumption; apply blank_iff; apply blank_iff in W1, A; rewrite all_ws_app, W1, A; reflexivity. }
    destruct (Ascii.eqb_spec c "t"%char) as [->|_].
    { destruct (scan_lit _ _) as [r'|] eqn:SL; [|discriminate]. injection H as <- <-. apply scan_lit_some in SL. exists "true". rewrite SL. split; [reflexivity|]. split; [exact W|constructor]. }
    destruct (Ascii.eqb_spec c "f"%char) as [->|_].
    { destruct (scan_lit _ _) as [r'|] eqn:SL; [|discriminate]. injection H as <- <-. apply scan_lit_some in SL. exists "false". rewrite SL. split; [reflexivity|]. split; [exact W|constructor]. }
    destruct (Ascii.eqb_spec c "n"%char) as [->|_].
    { destruct (scan_lit _ _) as [r'|] eqn:SL; [|discriminate]. injection H as <- <-. apply scan_lit_some in SL. exists "null". rewrite SL. split; [reflexivity|]. split; [exact W|constructor]. }
    destruct (scan_num _) as [[l r']|] eqn:SN; [|discriminate]. injection H as <- <-. exists l. pose proof (scan_num_app _ _ _ SN) as E. rewrite E. split; [reflexivity|]. split; [exact W|]. constructor.
    apply number_lit_spec. eapply scan_num_valid; eassumption.
  - intros d s l r H. cbn [parr] in H. destruct (pval f d s) as [[j r0]|] eqn:PV; [|discriminate]. apply IHv in PV as (w & v & -> & W & V).
    destruct (skip_ws r0) as [|c r1] eqn:WS; [discriminate|]. apply skip_some in WS as (w2 & -> & W2). destruct (Ascii.eqb_spec c ","%char) as [->|_].
    + destruct (parr f d r1) as [[l' r']|] eqn:PA; [|discriminate]. injection H as <- <-. apply IHa in PA as (v2 & -> & M).
      exists (w ++ v ++ w2 ++ "," ++ v2). split; [flat; reflexivity|now constructor].
    + destruct (Ascii.eqb_spec c "]"%char) as [->|_]; [|discriminate]. injection H as <- <-. exists (w ++ v ++ w2). split; [flat; reflexivity|now constructor].
  - intros d s l r H. cbn [pobj] in H. destruct (skip_ws s) as [|q0 r0] eqn:WS; [discriminate|]. apply skip_some in WS as (w1 & -> & W1).
    destruct (Ascii.eqb_spec q0 """"%char) as [->|_]; [|discriminate]. destruct (scan_str r0) as [[k r1]|] eqn:SS; [|discriminate]. apply parse_str_sound in SS as (raw & -> & C).
    destruct (skip_ws r1) as [|cl r2] eqn:WS; [discriminate|]. apply skip_some in WS as (w2 & -> & W2). destruct (Ascii.eqb_spec cl ":"%char) as [->|_]; [|discriminate].
    destruct (pval f d r2) as [[j r3]|] eqn:PV; [|discriminate]. apply IHv in PV as (w3 & v & -> & W3 & V).
    destruct (skip_ws r3) as [|c r4] eqn:WS; [discriminate|]. apply skip_some in WS as (w4 & -> & W4). destruct (Ascii.eqb_spec c ","%char) as [->|_].
    + destruct (pobj f d r4) as [[l' r']|] eqn:PA; [|discriminate]. injection H as <- <-. apply IHo in PA as (v2 & -> & M).
      exists (w1 ++ quoted raw ++ w2 ++ ":" ++ w3 ++ v ++ w4 ++ "," ++ v2). split; [unfold quoted; flat; reflexivity|now constructor].
    + destruct (Ascii.eqb_spec c "}"%char) as [->|_]; [|discriminate]. injection H as <- <-. exists (w1 ++ quoted raw ++ w2 ++ ":" ++ w3 ++ v ++ w4). split; [unfold quoted; flat; reflexivity|now constructor].
Qed.

Definition eventually {A} (g : nat -> option A) (x : A) : Prop := exists f0, forall f, f0 <= f -> g f = Some x.
Lemma value_head s j : value s j -> exists c t, s = String c t /\ starts c = true.
Proof.
  destruct 1 as [| | |l N|s t C|w W|s l M|w W|s l M]; try (eexists _, _; split; reflexivity).
  apply number_lit_spec in N. apply number_head in N as (c & t & E & S & _). eauto.
Qed.
Lemma elements_head s l q : elements s l -> exists c r, skip_ws (s ++ q) = String c r /\ Ascii.eqb c "]"%char = false.
Proof.
  intros E. assert (X : exists w v j rest, blank w /\ value v j /\ s = w ++ v ++ rest).
  { destruct E as [w1 s w2 j A B C|w1 s w2 j rest l A B C M]; [exists w1, s, j, w2|exists w1, s, j, (w2 ++ "," ++ rest)]; auto. }
  destruct X as (w & v & j & rest & W & V & ->). apply value_head in V as (c & t & -> & S). apply blank_iff in W. exists c, (t ++ rest ++ q).
  flat. rewrite skip_ws_app by exact W. rewrite skip_ws_head by now apply starts_not_ws. split; [reflexivity|].
  unfold starts in S. rewrite !andb_true_iff in S. destruct S as ((_ & S) & _). now destruct (Ascii.eqb c "]").
Qed.
Lemma members_head s l q : members s l -> exists c r, skip_ws (s ++ q) = String c r /\ Ascii.eqb c "}"%char = false.
Proof.
  intros E. assert (X : exists w k rest, blank w /\ s = w ++ quoted k ++ rest).
  { destruct E as [w1 k key w2 w3 sv w4 j A B C D F G|w1 k key w2 w3 sv w4 j rest l A B C D F G M]; eexists w1, k, _; (split; [exact A|reflexivity]). }
  destruct X as (w & k & rest & W & ->). apply blank_iff in W. exists """"%char, (k ++ """" ++ rest ++ q). unfold quoted. flat. rewrite skip_ws_app by exact W. split; reflexivity.
Qed.
Lemma parr_skip f d s : parr f d (skip_ws s) = parr f d s.
Proof. destruct f as [|[|f]]; [reflexivity|reflexivity|]. cbn [parr pval]. now rewrite skip_ws_idem. Qed.
Lemma pobj_skip f d s : pobj f d (skip_ws s) = pobj f d s.
Proof. destruct f as [|f]; [reflexivity|]. cbn [pobj]. now rewrite skip_ws_idem. Qed.
Lemma scan_spelled k key q : spells k key -> scan_str (k ++ String """"%char q) = Some (key, q).
Proof. intros C. apply parse_str_complete; [exact C|]. rewrite length_append. cbn. lia. Qed.
Lemma ws_sep w c q : blank w -> num_stop (String c q) = true -> num_stop (w ++ String c q) = true.
Proof. intros W. apply ws_stop. now apply blank_iff. Qed.
Lemma skip_blank w c q : blank w -> is_ws c = false -> skip_ws (w ++ String c q) = String c q.
Proof. intros W N. rewrite skip_ws_app by now apply blank_iff. now apply skip_ws_head. Qed.
Lemma pval_blank f d w s : blank w -> pval f d (w ++ s) = pval f d s.
Proof. intros W. destruct f; [reflexivity|]. apply pval_ws. now apply blank_iff. Qed.
Lemma number_not c l q : starts c = true -> (is_digit c = true \/ c = "-"%char) -> forall f d, pval (S f) d (String c l ++ q) =
  match scan_num (String c l ++ q) with Some (l, r') => Some (JNum l, r') | None => None end.
Proof.
  intros S D f d. cbn [append pval]. rewrite skip_ws_head by now apply starts_not_ws.
  assert (X : forall x, is_digit x = false -> x <> "-"%char -> Ascii.eqb c x = false) by (intros x Y Z; destruct (Ascii.eqb_spec c x) as [->|]; [destruct D; congruence|reflexivity]).
  rewrite !X by (reflexivity || discriminate). reflexivity.
Qed.
Lemma grammar_complete :
  (forall s j, value s j -> forall d q, (jdepth j <= d)%N -> num_stop q = true -> eventually (fun f => pval f d (s ++ q)) (j, q)) /\
  (forall s l, elements s l -> forall d q, (fold_right (fun x m => N.max (jdepth x) m) 0 l <= d)%N -> eventually (fun f => parr f d (s ++ String "]" q)) (l, q)) /\
  (forall s l, members s l -> forall d q, (fold_right (fun kx m => N.max (jdepth (snd kx)) m) 0 l <= d)%N -> eventually (fun f => pobj f d (s ++ String "}" q)) (l, q)).
Proof.
  apply grammar_ind.
  - intros d q _ _. exists 1. intros [|f] L; [lia|]. exact (f_equal (fun o => match o with Some r' => Some (JNull, r') | None => None end) (proj2 (scan_lit_some "null" ("null" ++ q) q) eq_refl)).
  - intros d q _ _. exists 1. intros [|f] L; [lia|]. exact (f_equal (fun o => match o with Some r' => Some (JBool true, r') | None => None end) (proj2 (scan_lit_some "true" ("true" ++ q) q) eq_refl)).
  - intros d q _ _. exists 1. intros [|f] L; [lia|]. exact (f_equal (fun o => match o with Some r' => Some (JBool false, r') | None => None end) (proj2 (scan_lit_some "false" ("false" ++ q) q) eq_refl)).
  - intros l N d q _ Q. exists 1. intros [|f] L; [lia|]. apply number_lit_spec in N. pose proof (valid_number_ext _ _ N Q) as SN.
    apply number_head in N as (c & t & -> & S & D). rewrite number_not by assumption. now rewrite SN.
  - intros s t C d q _ _. exists 1. intros [|f] L; [lia|]. unfold quoted. flat. cbn [pval skip_ws]. change (is_ws """") with false. cbv iota. change (Ascii.eqb """" """") with true. cbv iota.
    rewrite (scan_spelled s t q C). reflexivity.
  - intros w W d q D _. exists 1. intros [|f] L; [lia|]. flat. cbn [pval skip_ws]. change (is_ws "[") with false. cbv iota. change (Ascii.eqb "[" """") with false. change (Ascii.eqb "[" "{") with false. change (Ascii.eqb "[" "[") with true. cbv iota.
    cbn [jdepth fold_right] in D. destruct (N.eqb_spec d 0); [lia|]. rewrite skip_blank by (exact W || reflexivity). reflexivity.
  - intros s l M IH d q D _. cbn [jdepth] in D. destruct (IH (N.pred d) q) as (f0 & F); [lia|]. exists (S f0). intros [|f] L; [lia|]. flat. cbn [pval skip_ws]. change (is_ws "[") with false. cbv iota. change (Ascii.eqb "[" """") with false. change (Ascii.eqb "[" "{") with false. change (Ascii.eqb "[" "[") with true. cbv iota.
    destruct (N.eqb_spec d 0); [lia|]. destruct (elements_head s l (String "]" q) M) as (c & r & E & NE). rewrite E, NE, <- E, parr_skip, F by lia. reflexivity.
  - intros w W d q D _. exists 1. intros [|f] L; [lia|]. flat. cbn [pval skip_ws]. change (is_ws "{") with false. cbv iota. change (Ascii.eqb "{" """") with false. change (Ascii.eqb "{" "{") with true. cbv iota.
    cbn [jdepth fold_right] in D. destruct (N.eqb_spec d 0); [lia|]. rewrite skip_blank by (exact W || reflexivity). reflexivity.
  - intros s l M IH d q D _. cbn [jdepth] in D. destruct (IH (N.pred d) q) as (f0 & F); [lia|]. exists (S f0). intros [|f] L; [lia|]. flat. cbn [pval skip_ws]. change (is_ws "{") with false. cbv iota. change (Ascii.eqb "{" """") with false. change (Ascii.eqb "{" "{") with true. cbv iota.
    destruct (N.eqb_spec d 0); [lia|]. destruct (members_head s l (String "}" q) M) as (c & r & E & NE). rewrite E, NE, <- E, pobj_skip, F by lia. reflexivity.
  - intros w1 s w2 j W1 V IH W2 d q D. cbn [fold_right] in D. destruct (IH d (w2 ++ String "]" q)) as (f0 & F); [lia|now apply ws_sep|]. exists (S f0). intros [|f] L; [lia|]. flat. cbn [parr]. rewrite pval_blank, F by (exact W1 || lia).
    rewrite skip_blank by (exact W2 || reflexivity). reflexivity.
  - intros w1 s w2 j rest l W1 V IH W2 M IHM d q D. cbn [fold_right] in D. destruct (IH d (w2 ++ String "," (rest ++ String "]" q))) as (f0 & F); [lia|now apply ws_sep|]. destruct (IHM d q) as (f1 & F1); [lia|].
    exists (S (f0 + f1)). intros [|f] L; [lia|]. flat. cbn [parr]. rewrite pval_blank, F by (exact W1 || lia).
    rewrite skip_blank by (exact W2 || reflexivity). change (Ascii.eqb "," ",") with true. cbv iota. rewrite F1 by lia. reflexivity.
  - intros w1 k key w2 w3 s w4 j W1 C W2 W3 V IH W4 d q D. cbn [fold_right snd] in D. destruct (IH d (w4 ++ String "}" q)) as (f0 & F); [lia|now apply ws_sep|]. exists (S f0). intros [|f] L; [lia|]. unfold quoted. flat. cbn [pobj].
    rewrite skip_blank by (exact W1 || reflexivity). change (Ascii.eqb """" """") with true. cbv iota. rewrite (scan_spelled k key _ C). rewrite skip_blank by (exact W2 || reflexivity). change (Ascii.eqb ":" ":") with true. cbv iota.
    rewrite pval_blank, F by (exact W3 || lia). rewrite skip_blank by (exact W4 || reflexivity). reflexivity.
  - intros w1 k key w2 w3 s w4 j rest l W1 C W2 W3 V IH W4 M IHM d q D. cbn [fold_right snd] in D. destruct (IH d (w4 ++ String "," (rest ++ String "}" q))) as (f0 & F); [lia|now apply ws_sep|]. destruct (IHM d q) as (f1 & F1); [lia|].
    exists (S (f0 + f1)). intros [|f] L; [lia|]. unfold quoted. flat. cbn [pobj].
    rewrite skip_blank by (exact W1 || reflexivity). change (Ascii.eqb """" """") with true. cbv iota. rewrite (scan_spelled k key _ C). rewrite skip_blank by (exact W2 || reflexivity). change (Ascii.eqb ":" ":") with true. cbv iota.
    rewrite pval_blank, F by (exact W3 || lia). rewrite skip_blank by (exact W4 || reflexivity). change (Ascii.eqb "," ",") with true. cbv iota. rewrite F1 by lia. reflexivity.
Qed.
Lemma parse_grammar s j : parse s = Some j <-> json_text s j.
Proof.
  split.
  - intros H. pose proof (parse_encodable _ _ H) as (_ & D). apply parse_some in H as (r & H & W). apply grammar_sound in H as (w & v & -> & W1 & V).
    exists w, v, r. split; [reflexivity|]. split; [exact W1|]. split; [exact V|]. split; [now apply blank_iff|exact D].
  - intros (w1 & v & w2 & -> & W1 & V & W2 & D). apply blank_iff in W2. destruct (proj1 grammar_complete v j V max_nesting_depth w2 D) as (f0 & F).
    { rewrite <- (append_nil_r w2). now apply ws_stop. }
    apply parse_some. exists w2. split; [|exact W2]. specialize (F f0 (le_n _)). rewrite <- (pval_blank f0 max_nesting_depth w1 (v ++ w2) W1) in F. eapply pval_mono; [exact F|lia].
Qed.
Lemma las_app a b : list_ascii_of_string (a ++ b) = (list_ascii_of_string a ++ list_ascii_of_string b)%list.
Proof. induction a as [|c a IH]; [reflexivity|]. cbn. now rewrite IH. Qed.
Lemma blank_end s a w : s ++ String """"%char "" = a ++ String """"%char w -> blank w -> s = a.
Proof.
  intros E W. assert (X : w = "").
  { destruct w as [|c w]; [reflexivity|]. exfalso.
    assert (Y : (list_ascii_of_string s ++ [""""%char] = (list_ascii_of_string a ++ [""""%char]) ++ list_ascii_of_string (String c w))%list).
    { rewrite <- app_assoc. change ([""""%char] ++ list_ascii_of_string (String c w))%list with (list_ascii_of_string (String """" (String c w))). change [""""%char] with (list_ascii_of_string (String """" "")). rewrite <- !las_app. now rewrite <- E. }
    destruct (exists_last (l := list_ascii_of_string (String c w))) as (l & x & L); [discriminate|]. specialize (W x). rewrite L in Y, W.
    rewrite app_assoc in Y. apply app_inj_tail in Y as (_ & <-). destruct W as [Z|[Z|[Z|[Z|[]]]]]; [|discriminate..]. apply in_or_app. right. now left. }
  subst w. revert a E. induction s as [|c s IH]; intros [|d a] E; cbn [append] in E; [reflexivity| | |].
  - injection E as _ E. destruct a; discriminate.
  - injection E as _ E. destruct s; discriminate.
  - injection E as -> E. f_equal. now apply IH.
Qed.
