(** The cache file's decoder reads what the document says. *)
From Coq Require Import String Ascii List Arith NArith ZArith Bool Lia.
From Verif Require Import Model.GoStr Model.Errors Model.Json Model.GoJson Model.Types Model.Base64 Model.Api
  Spec.VersionSpec Spec.ConfSpec Spec.DocSpec Spec.RecordSpec Proofs.StrP Proofs.VersionP Proofs.JsonRT Proofs.GoJsonP Proofs.ConfP Proofs.Base64P Proofs.DecodeP Proofs.ShapeP Proofs.DocP.
Import ListNotations.
Open Scope nat_scope.
Open Scope string_scope.

(** *** Base64 *)
Lemma val_six c n : b64_val c = Some n <-> six c n.
Proof.
  unfold six. split.
  - assert (H : forall k, (k < 256)%N -> match b64_val (chr k) with Some n => match String.get (N.to_nat n) alphabet with Some d => Ascii.eqb d (chr k) | None => false end | None => true end = true)
      by (apply (small_cases (fun k => match b64_val (chr k) with Some n => match String.get (N.to_nat n) alphabet with Some d => Ascii.eqb d (chr k) | None => false end | None => true end) 256); vm_compute; reflexivity).
    specialize (H (code c) (cc_lt c)). rewrite chr_code in H. intros E. rewrite E in H. destruct (String.get (N.to_nat n) alphabet) as [d|]; [|discriminate].
    apply Ascii.eqb_eq in H. congruence.
  - intros G. assert (L : (n < 64)%N).
    { destruct (N.lt_ge_cases n 64) as [L|L]; [exact L|]. exfalso. assert (K : String.length alphabet <= N.to_nat n) by (change (String.length alphabet) with 64; lia).
      clear L. revert K G. generalize (N.to_nat n) as k. induction alphabet as [|a s IH]; intros k K G; [destruct k; discriminate|]. destruct k as [|k]; cbn in K; [lia|]. cbn in G. apply (IH k); [lia|exact G]. }
    assert (H : forall k, (k < 64)%N -> match String.get (N.to_nat k) alphabet with Some d => match b64_val d with Some m => N.eqb m k | None => false end | None => false end = true)
      by (apply (small_cases (fun k => match String.get (N.to_nat k) alphabet with Some d => match b64_val d with Some m => N.eqb m k | None => false end | None => false end) 64); vm_compute; reflexivity).
    specialize (H n L). rewrite G in H. destruct (b64_val c) as [m|]; [|discriminate]. apply N.eqb_eq in H. congruence.
Qed.
Lemma six_lt c n : six c n -> (n < 64)%N.
Proof.
  intros G. apply val_six in G. unfold b64_val in G.
  assert (H : forall k, (k < 256)%N -> match b64_val (chr k) with Some n => (n <? 64)%N | None => true end = true)
    by (apply (small_cases (fun k => match b64_val (chr k) with Some n => (n <? 64)%N | None => true end) 256); vm_compute; reflexivity).
  specialize (H (code c) (cc_lt c)). rewrite chr_code in H. unfold b64_val in H. rewrite G in H. now apply N.ltb_lt.
Qed.
Lemma chr_is (x : ascii) n : (n < 256)%N -> (chr n = x <-> code x = n).
Proof. intros L. split; [intros <-; now apply code_chr|intros <-; apply chr_code]. Qed.
Lemma no_six : b64_val "="%char = None. Proof. reflexivity. Qed.
Lemma first_byte i j x : (i < 64)%N -> (j < 64)%N -> (chr (i * 4 + j / 16) = x <-> exists u, (i * 64 + j = code x * 16 + u)%N /\ (u < 16)%N).
Proof.
  intros Li Lj. pose proof (N.div_mod j 16 ltac:(lia)) as D. pose proof (N.mod_lt j 16 ltac:(lia)) as M. set (q := (j / 16)%N) in *. set (r := (j mod 16)%N) in *.
  rewrite chr_is by lia. split; [intros ->; exists r; lia|intros (u & E & U); lia].
Qed.
Lemma two_bytes i j k x y : (i < 64)%N -> (j < 64)%N -> (k < 64)%N ->
  (chr (i * 4 + j / 16) = x /\ chr (j mod 16 * 16 + k / 4) = y <-> exists u, ((i * 64 + j) * 64 + k = (code x * 256 + code y) * 4 + u)%N /\ (u < 4)%N).
Proof.
  intros Li Lj Lk. pose proof (N.div_mod j 16 ltac:(lia)) as D. pose proof (N.mod_lt j 16 ltac:(lia)) as M. set (q := (j / 16)%N) in *. set (r := (j mod 16)%N) in *.
  pose proof (N.div_mod k 4 ltac:(lia)) as D'. pose proof (N.mod_lt k 4 ltac:(lia)) as M'. set (q' := (k / 4)%N) in *. set (r' := (k mod 4)%N) in *.
  pose proof (cc_lt x). pose proof (cc_lt y). rewrite !chr_is by lia. split; [intros [-> ->]; exists r'; lia|intros (u & E & U); lia].
Qed.
Lemma three_bytes i j k l x y z : (i < 64)%N -> (j < 64)%N -> (k < 64)%N -> (l < 64)%N ->
  (chr (i * 4 + j / 16) = x /\ chr (j mod 16 * 16 + k / 4) = y /\ chr (k mod 4 * 64 + l) = z <->
   (((i * 64 + j) * 64 + k) * 64 + l = (code x * 256 + code y) * 256 + code z)%N).
Proof.
  intros Li Lj Lk Ll. pose proof (N.div_mod j 16 ltac:(lia)) as D. pose proof (N.mod_lt j 16 ltac:(lia)) as M. set (q := (j / 16)%N) in *. set (r := (j mod 16)%N) in *.
  pose proof (N.div_mod k 4 ltac:(lia)) as D'. pose proof (N.mod_lt k 4 ltac:(lia)) as M'. set (q' := (k / 4)%N) in *. set (r' := (k mod 4)%N) in *.
  pose proof (cc_lt x). pose proof (cc_lt y). pose proof (cc_lt z). rewrite !chr_is by lia. split; [intros (-> & -> & ->); lia|intros E; lia].
Qed.
Lemma str_ind4 (P : string -> Prop) :
  P "" -> (forall a, P (String a "")) -> (forall a b, P (String a (String b ""))) -> (forall a b c, P (String a (String b (String c "")))) ->
  (forall a b c d r, P r -> P (String a (String b (String c (String d r))))) -> forall s, P s.
Proof.
  intros H0 H1 H2 H3 H4 s. assert (G : forall n s, String.length s <= n -> P s).
  { clear s. induction n as [|n IH]; intros s Hs.
    - destruct s; [exact H0|simpl in Hs; lia].
    - destruct s as [|a [|b [|c [|d r]]]]; auto. apply H4. apply IH. simpl in Hs. lia. }
  apply (G (String.length s)). lia.
Qed.
Lemma quads_iff t : forall s, b64_quads t = Some s <-> base64 t s.
Proof.
  induction t as [|a|a b|a b c|a b c d r IH] using str_ind4; intros s.
  1:{ cbn. split; [intros E; injection E as <-; constructor|intros E; inversion E; reflexivity]. }
  1-3: split; [discriminate|intros E; inversion E].
  split.
  - cbn [b64_quads]. destruct (b64_val a) as [i|] eqn:A; [|discriminate]. destruct (b64_val b) as [j|] eqn:B; [|discriminate].
    apply val_six in A, B. pose proof (six_lt _ _ A) as LA. pose proof (six_lt _ _ B) as LB.
    destruct (b64_val c) as [k|] eqn:C.
    + apply val_six in C. pose proof (six_lt _ _ C) as LC. destruct (b64_val d) as [l|] eqn:D.
      * apply val_six in D. pose proof (six_lt _ _ D) as LD. destruct (b64_quads r) as [t|] eqn:R; [|discriminate]. intros E. apply some_eq in E. subst s.
        eapply (b64_three _ _ _ _ i j k l); try eassumption; [|now apply IH]. apply three_bytes; auto.
      * destruct (Ascii.eqb_spec d "="%char) as [-> |]; [|discriminate]. destruct (String.eqb_spec r "") as [-> |]; [|discriminate]. cbn [andb]. intros E. apply some_eq in E. subst s.
        destruct (proj1 (two_bytes i j k _ _ LA LB LC) (conj eq_refl eq_refl)) as (u & E & U). eapply (b64_two _ _ _ i j k); eassumption.
    + destruct (Ascii.eqb_spec c "="%char) as [-> |]; [|discriminate]. destruct (Ascii.eqb_spec d "="%char) as [-> |]; [|discriminate]. destruct (String.eqb_spec r "") as [-> |]; [|discriminate]. cbn [andb].
      intros E. apply some_eq in E. subst s. destruct (proj1 (first_byte i j _ LA LB) eq_refl) as (u & E & U). eapply (b64_one _ _ i j); eassumption.
  - intros E. inversion E as [|? ? ? ? i j k l x y z ? s' A B C D Q H|? ? ? i j k x y u A B C Q U|? ? i j x u A B Q U]; subst; cbn [b64_quads].
    + pose proof (six_lt _ _ A) as LA. pose proof (six_lt _ _ B) as LB. pose proof (six_lt _ _ C) as LC. pose proof (six_lt _ _ D) as LD. apply val_six in A, B, C, D. rewrite A, B, C, D.
      apply IH in H. rewrite H. apply (three_bytes i j k l x y z LA LB LC LD) in Q as (-> & -> & ->). reflexivity.
    + pose proof (six_lt _ _ A) as LA. pose proof (six_lt _ _ B) as LB. pose proof (six_lt _ _ C) as LC. apply val_six in A, B, C. rewrite A, B, C, no_six.
      destruct (proj2 (two_bytes i j k x y LA LB LC) (ex_intro _ u (conj Q U))) as [-> ->]. reflexivity.
    + pose proof (six_lt _ _ A) as LA. pose proof (six_lt _ _ B) as LB. apply val_six in A, B. rewrite A, B, no_six.
      rewrite (proj2 (first_byte i j x LA LB) (ex_intro _ u (conj Q U))). reflexivity.
Qed.
Lemma one_line_drop s : one_line s = drop_newlines s.
Proof.
  unfold one_line. induction s as [|c s IH]; [reflexivity|]. cbn [list_ascii_of_string filter drop_newlines].
  assert (B : breaks c = (Ascii.eqb c (chr 10) || Ascii.eqb c (chr 13))).
  { unfold breaks. assert (K : forall n, (n < 256)%N -> (N_of_ascii c =? n)%N = Ascii.eqb c (chr n)).
    { intros n L. apply eq_true_iff_eq. rewrite N.eqb_eq, Ascii.eqb_eq. split; [intros E; symmetry; now apply chr_is|intros E; apply chr_is; auto]. }
    now rewrite !K by lia. }
  rewrite B. destruct (_ || _); cbn [negb]; [exact IH|]. cbn [string_of_list_ascii]. now rewrite IH.
Qed.

(** *** Members, whatever their values hold *)
Record takes {B} (P : option json -> B -> Prop) (dec : B -> json -> option B) (z : B) : Prop := {
  tk_none : forall b, P None b <-> b = z;
  tk_some : forall v b, dec z v = Some b <-> P (Some v) b;
  tk_any : forall c v b, dec z v = Some b -> exists b', dec c v = Some b'
}.
Lemma takes_field_fun {B} P dec (z : B) f o b b' : takes P dec z -> NoDup (folds o) -> field f o P b -> field f o P b' -> b = b'.
Proof.
  intros R N (v & M & H) (v' & M' & H'). rewrite (member_fun f o v' v N M' M) in H'. destruct v as [v|].
  - apply (tk_some _ _ _ R) in H, H'. congruence.
  - apply (tk_none _ _ _ R) in H, H'. congruence.
Qed.
Lemma takes_accept {B} P dec (z : B) f o b k v c : takes P dec z -> NoDup (folds o) -> field f o P b -> In (k, v) o -> key_is f k = true -> exists b', dec c v = Some b'.
Proof.
  intros R N (w & M & H) I K. rewrite (member_fun f o w (Some v) N M) in H by (exists k; auto). apply (tk_some _ _ _ R) in H. eapply (tk_any _ _ _ R); eassumption.
Qed.
Lemma take_text : takes text dec_string "".
Proof.
  split; [reflexivity| |].
  - intros v b. destruct v; cbn; split; intros H; try discriminate; try contradiction; congruence.
  - intros c v b H. destruct v; try discriminate; cbn; eauto.
Qed.
Lemma dec_text v s : dec_string "" v = Some s <-> text (Some v) s.
Proof. apply (tk_some _ _ _ take_text). Qed.
Lemma all_iff {C} (Q : json -> C -> Prop) d : (forall v x, d v = Some x <-> Q v x) -> forall l xs, dec_all d l = Some xs <-> Forall2 Q l xs.
Proof.
  intros H l. induction l as [|v l IH]; intros xs; cbn [dec_all].
  - split; [intros E; injection E as <-; constructor|intros E; inversion E; reflexivity].
  - split.
    + destruct (d v) as [x|] eqn:E; [|discriminate]. destruct (dec_all d l) as [ys|]; [|discriminate]. intros E'. injection E' as <-. constructor; [now apply H|now apply IH].
    + intros E. inversion E as [|? x ? ys Q0 F2]; subst. apply H in Q0. apply IH in F2. rewrite Q0, F2. reflexivity.
Qed.
Lemma byte_iff v c : dec_byte v = Some c <-> byte v c.
Proof.
  destruct v as [| |l| | |]; cbn [dec_byte byte]; try (split; [discriminate|contradiction]); [split; [intros E; injection E as <-; reflexivity|intros ->; reflexivity]|].
  unfold atou. rewrite decimal_digits. destruct (digits l) as [n|]; [|split; discriminate]. split.
  - destruct (n <? 2 ^ 64)%N; [|discriminate]. destruct (N.ltb_spec n 256) as [L|L]; [|discriminate]. intros E. injection E as <-. f_equal. symmetry. now apply code_chr.
  - intros E. apply some_eq in E. subst n. pose proof (cc_lt c) as L. unfold code in L.
    destruct (N.ltb_spec (N_of_ascii c) (2 ^ 64)) as [|G]; [|change (2 ^ 64)%N with 18446744073709551616%N in G; lia]. destruct (N.ltb_spec (N_of_ascii c) 256); [|lia].
    f_equal. apply chr_code.
Qed.
Lemma string_of l s : string_of_list l = s <-> l = list_ascii_of_string s.
Proof.
  split.
  - intros <-. induction l as [|c l IH]; [reflexivity|]. cbn. now rewrite <- IH.
  - intros ->. induction s as [|c s IH]; [reflexivity|]. cbn. now rewrite IH.
Qed.
Lemma take_bytes : takes bytes (fun _ => dec_bytes) "".
Proof.
  split; [reflexivity| |eauto]. intros v b. destruct v as [| | |s|l|]; cbn [dec_bytes bytes]; try (split; [discriminate|contradiction]).
  - split; congruence.
  - unfold b64_decode. rewrite one_line_drop. apply quads_iff.
  - split.
    + destruct (dec_all dec_byte l) as [xs|] eqn:E; [|discriminate]. intros X. apply some_eq in X. apply string_of in X. subst xs. revert E. apply all_iff, byte_iff.
    + intros F. apply (all_iff byte dec_byte byte_iff) in F. rewrite F. cbn [option_map]. f_equal. now apply string_of.
Qed.
Lemma pair_iff v p : dec_pair v = Some p <-> pair v p.
Proof.
  destruct v as [| | | |l|]; cbn [dec_pair pair]; try (split; [discriminate|contradiction]); [split; congruence|].
  destruct p as [x y]. destruct l as [|a [|b l]]; cbn [nth_error fst snd].
  - cbn [text]. split; [intros E; injection E as <- <-; auto|intros [-> ->]; reflexivity].
  - rewrite <- dec_text. split.
    + destruct (dec_string "" a) as [u|]; [|discriminate]. cbn [option_map]. intros E. injection E as -> <-. split; reflexivity.
    + intros [-> Y]. cbn [text] in Y. subst y. reflexivity.
  - rewrite <- !dec_text. split.
    + destruct (dec_string "" a) as [u|]; [|discriminate]. cbn [obind]. destruct (dec_string "" b) as [w|]; [|discriminate]. cbn [option_map]. intros E. injection E as -> ->. auto.
    + intros [-> ->]. reflexivity.
Qed.
Lemma take_pairs : takes (maybe pairs) (fun _ v => match v with JNull => Some None | JArr l => option_map Some (dec_all dec_pair l) | _ => None end) None.
Proof.
  split; [reflexivity| |eauto]. intros v b. destruct v as [| | | |l|]; cbn [maybe]; try (split; [discriminate|intros (a & _ & js & E & _); discriminate E]); [split; congruence|]. split.
  - destruct (dec_all dec_pair l) as [xs|] eqn:E; [|discriminate]. intros X. apply some_eq in X. subst b. exists xs. split; [reflexivity|]. exists l. split; [reflexivity|]. revert E. apply all_iff, pair_iff.
  - intros (a & -> & js & E & F). injection E as <-. apply (all_iff pair dec_pair pair_iff) in F. now rewrite F.
Qed.
Lemma map_norm l cur : decode_members (fun m k v => match norm v with Some v' => Some (sset k v' m) | None => None end) cur l = option_map (fun l' => sset_all l' cur) (norm_pairs l).
Proof.
  revert cur. induction l as [|[k v] l IH]; intros cur; [reflexivity|]. rewrite decode_members_cons. cbn [norm_pairs]. destruct (norm v) as [v'|]; [|reflexivity].
  rewrite IH. destruct (norm_pairs l); reflexivity.
Qed.
Lemma take_values : takes (maybe values) dec_map_any None.
Proof.
  split; [reflexivity| |].
  - intros v b. destruct v as [| | | | |l]; cbn [dec_map_any maybe]; try (split; [discriminate|intros (a & _ & (o & E) & _); discriminate E]); [split; congruence|].
    rewrite map_norm. unfold values, reencoded. rewrite norm_obj. destruct (norm_pairs l) as [l'|]; cbn [option_map].
    + split; [intros E; apply some_eq in E; subst b; eexists; split; [reflexivity|]; split; [exists l; reflexivity|reflexivity]|]. intros (a & -> & _ & E). injection E as <-. reflexivity.
    + split; [discriminate|]. intros (a & _ & _ & E). discriminate E.
  - intros c v b. destruct v as [| | | | |l]; cbn [dec_map_any]; try discriminate; [eauto|]. rewrite !map_norm. destruct (norm_pairs l); [cbn; eauto|discriminate].
Qed.

(** *** The record *)
Ltac gives' R := let I := fresh "I" in let K := fresh "Key" in let G := fresh "G" in let H := fresh "H" in
  intros ? ? ? ? I K G H; cases H; try key_clash; try congruence; apply omap_some in H as (? & H & ->);
  apply (tk_some _ _ _ R); cbn in G |- *; rewrite ?G in H; exact H.
Ltac one' R N D := refine (field_read _ _ _ _ _ _ _ _ N _ _ D); [keeps|apply (tk_none _ _ _ R); reflexivity|gives' R].
Ltac same' R N D F := refine (takes_field_fun _ _ _ _ _ _ _ R N _ F); one' R N D.
Ltac take' R N F I := match goal with |- exists _, (if key_is ?f ?k then _ else _) = _ =>
  let K := fresh "K" in let X := fresh "X" in destruct (key_is f k) eqn:K;
  [pose proof (fun c => takes_accept _ _ _ _ _ _ _ _ c R N F I K) as X; cbv beta in X;
   match goal with |- exists _, option_map _ ?t = _ => let b := fresh "b" in assert (exists b, t = Some b) as [b ->] by (let TR := type of R in match TR with takes _ _ ?z => first [exact (X z) | apply X] end); eexists; reflexivity end
  |clear K] end.
Theorem record_iff j c : once j -> (decode_struct cached_info_step cached_info_zero j = Some c <-> record_doc j c).
Proof.
  intros ON. unfold record_doc. rewrite struct_object. split.
  - intros (o & O & D). exists o. split; [exact O|]. pose proof (ON o O) as N. fold (folds o) in N. unfold cached_info_step in D.
    split; [one' take_text N D|]. split; [one' take_text N D|]. split; [one' take_bytes N D|]. split; [one' take_text N D|]. split; [one' take_text N D|].
    split; [one' take_text N D|]. split; [one' take_pairs N D|]. split; [one' take_values N D|one' take_values N D].
  - intros (o & O & F1 & F2 & F3 & F4 & F5 & F6 & F7 & F8 & F9). exists o. split; [exact O|]. pose proof (ON o O) as N. fold (folds o) in N.
    total T o.
    { apply members_total. intros a k v I. unfold cached_info_step. take' take_text N F1 I. take' take_text N F2 I. take' take_bytes N F3 I. take' take_text N F4 I. take' take_text N F5 I.
      take' take_text N F6 I. take' take_pairs N F7 I. take' take_values N F8 I. take' take_values N F9 I. eexists; reflexivity. }
    destruct T as [a D]. rewrite D. f_equal. unfold cached_info_step in D.
    assert (E1 : ci_kind a = ci_kind c) by same' take_text N D F1. assert (E2 : ci_container a = ci_container c) by same' take_text N D F2.
    assert (E3 : ci_config a = ci_config c) by same' take_bytes N D F3. assert (E4 : ci_ifname a = ci_ifname c) by same' take_text N D F4.
    assert (E5 : ci_network a = ci_network c) by same' take_text N D F5. assert (E6 : ci_netns a = ci_netns c) by same' take_text N D F6.
    assert (E7 : ci_args a = ci_args c) by same' take_pairs N D F7. assert (E8 : ci_caps a = ci_caps c) by same' take_values N D F8.
    assert (E9 : ci_result a = ci_result c) by same' take_values N D F9. destruct a, c; cbn in *; congruence.
Qed.
