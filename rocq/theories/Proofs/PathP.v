(** Path cleaning and joining. *)
From Coq Require Import String Ascii List Arith NArith Bool Lia.
From Verif Require Import Model.GoStr Model.Errors Model.Path Model.Find Spec.EnvSpec Spec.PathSpec
  Proofs.StrP Proofs.EnvP.
Import ListNotations.
Open Scope nat_scope.
Open Scope string_scope.

Definition simple (n : string) : bool :=
  negb (String.eqb n "") && negb (String.eqb n ".") && negb (String.eqb n "..") && negb (contains_byte slash n).
Lemma simple_spec n : simple n = true <-> file_name n.
Proof.
  unfold simple, file_name. rewrite !andb_true_iff, !negb_true_iff, lacks_cb.
  rewrite !String.eqb_neq. tauto.
Qed.

Lemma split_app_slash a b : split_on slash (a ++ String slash b) = (split_on slash a ++ split_on slash b)%list.
Proof.
  induction a as [|c a IH]; [reflexivity|]. cbn.
  destruct (Ascii.eqb c slash); cbn; [now rewrite IH|]. 
  change (a ++ String slash b) with (a ++ String slash b). rewrite IH.
  pose proof (split_on_nonnil slash a). destruct (split_on slash a); [congruence|reflexivity].
Qed.
Lemma is_rooted_app a b : a <> "" -> is_rooted (a ++ b) = is_rooted a.
Proof. destruct a; [congruence|reflexivity]. Qed.
Lemma app_nonempty a b : a <> "" -> a ++ b <> "".
Proof. destruct a; [congruence|discriminate]. Qed.

Lemma comps_app a b : a <> "" ->
  clean_comps (a ++ String slash b) =
  rev (fold_left (clean_step (is_rooted a)) (split_on slash b) (rev (clean_comps a))).
Proof.
  intros N. unfold clean_comps. rewrite is_rooted_app by exact N.
  now rewrite split_app_slash, fold_left_app, rev_involutive.
Qed.
Lemma clean_step_simple r st n : simple n = true -> clean_step r st n = n :: st.
Proof.
  unfold simple, clean_step. rewrite !andb_true_iff, !negb_true_iff. intros [[[-> ->] ->] _]. reflexivity.
Qed.
Lemma comps_app_simple a n : a <> "" -> simple n = true -> clean_comps (a ++ String slash n) = (clean_comps a ++ [n])%list.
Proof.
  intros N S. rewrite comps_app by exact N. rewrite split_on_no_sep.
  - cbn. rewrite clean_step_simple by exact S. cbn. now rewrite rev_involutive.
  - unfold simple in S. rewrite !andb_true_iff, !negb_true_iff in S. apply S.
Qed.

Lemma join_app sep l x : l <> [] -> join sep (l ++ [x])%list = join sep l ++ sep ++ x.
Proof.
  induction l as [|y l IH]; [congruence|]. intros _. destruct l as [|z l].
  - reflexivity.
  - change (join sep ((y :: z :: l) ++ [x])%list) with (y ++ sep ++ join sep ((z :: l) ++ [x])%list).
    rewrite IH by discriminate. change (join sep (y :: z :: l)) with (y ++ sep ++ join sep (z :: l)).
    now rewrite !append_assoc.
Qed.
Lemma join_nonempty sep l : sep <> "" \/ List.length l = 1 -> Forall (fun c => c <> "") l -> l <> [] -> join sep l <> "".
Proof.
  intros _ F N. destruct l as [|x l]; [congruence|]. inversion F as [|? ? Hx Hl]; subst.
  destruct l; cbn; [exact Hx|]. intros H. apply append_eq_nil in H. tauto.
Qed.

(** Cleaned components: never empty, "." nor with a slash. *)
Definition ok_comp (c : string) : bool :=
  negb (String.eqb c "") && negb (String.eqb c ".") && negb (contains_byte slash c).
Lemma fold_clean_ok r l st : Forall (fun c => contains_byte slash c = false) l ->
  Forall (fun c => ok_comp c = true) st -> Forall (fun c => ok_comp c = true) (fold_left (clean_step r) l st).
Proof.
  revert st. induction l as [|c l IH]; intros st L S; [exact S|].
  inversion L as [|? ? Hc Hl]; subst. cbn. apply IH; [exact Hl|]. unfold clean_step.
  destruct (String.eqb_spec c "") as [->|N1]; [exact S|]. destruct (String.eqb_spec c ".") as [->|N2]; [exact S|]. cbn.
  destruct (String.eqb_spec c "..") as [->|N3].
  - destruct st as [|t st]; [destruct r; repeat constructor|]. inversion S; subst.
    destruct (String.eqb t ".."); [constructor; [reflexivity|exact S]|assumption].
  - constructor; [|exact S]. unfold ok_comp. rewrite Hc. apply String.eqb_neq in N1, N2. now rewrite N1, N2.
Qed.
Lemma clean_comps_ok p : Forall (fun c => ok_comp c = true) (clean_comps p).
Proof.
  unfold clean_comps. apply Forall_rev. apply fold_clean_ok; [apply split_on_parts|constructor].
Qed.
Lemma ok_comp_nonempty c : ok_comp c = true -> c <> "".
Proof. unfold ok_comp. rewrite !andb_true_iff, !negb_true_iff, !String.eqb_neq. tauto. Qed.
Lemma ok_comp_slash c : ok_comp c = true -> contains_byte slash c = false.
Proof. unfold ok_comp. rewrite !andb_true_iff, !negb_true_iff. tauto. Qed.
Lemma ok_comp_dot c : ok_comp c = true -> c <> ".".
Proof. unfold ok_comp. rewrite !andb_true_iff, !negb_true_iff, !String.eqb_neq. tauto. Qed.

(** ".." only at the front of relative paths. *)
Definition nd (c : string) : Prop := c <> "..".
Definition stack_ok (r : bool) (st : list string) : Prop :=     (* last component first *)
  if r then Forall nd st else exists a b, st = (a ++ b)%list /\ Forall nd a /\ Forall (fun c => c = "..") b.
Lemma fold_clean_stack r l st : stack_ok r st -> stack_ok r (fold_left (clean_step r) l st).
Proof.
  revert st. induction l as [|c l IH]; intros st S; [exact S|]. cbn. apply IH. unfold clean_step.
  destruct (String.eqb c "" || String.eqb c "."); [exact S|].
  destruct (String.eqb_spec c "..") as [->|N].
  - destruct st as [|t st].
    + destruct r; [constructor|]. exists [], [".."]. repeat constructor.
    + destruct r; cbn in S.
      * inversion S as [|? ? Ht Hs]; subst. apply String.eqb_neq in Ht. now rewrite Ht.
      * destruct S as (a & b & E & A & B). destruct a as [|x a]; cbn in E.
        -- subst b. inversion B; subst. rewrite String.eqb_refl. exists [], (".." :: ".." :: st). repeat split; constructor; auto.
        -- injection E as -> ->. inversion A as [|? ? Hx Ha]; subst. apply String.eqb_neq in Hx. rewrite Hx. exists a, b. auto.
  - destruct r; cbn in *; [constructor; assumption|]. destruct S as (a & b & -> & A & B). exists (c :: a), b. repeat split; auto.
Qed.
Lemma clean_comps_stack p : stack_ok (is_rooted p) (rev (clean_comps p)).
Proof.
  unfold clean_comps. rewrite rev_involutive. apply fold_clean_stack.
  destruct (is_rooted p); cbn; [constructor|]. exists [], []. repeat constructor.
Qed.

Lemma clean_nonempty p : p <> "" -> clean p = render_path (is_rooted p) (clean_comps p).
Proof. intros N. unfold clean. apply String.eqb_neq in N. now rewrite N. Qed.
Lemma is_rooted_slash_first p : is_rooted p = true -> exists q, p = String slash q.
Proof. destruct p as [|c p]; [discriminate|]. cbn. intros H. apply Ascii.eqb_eq in H. subst. eauto. Qed.

(** Joining one simple name below a directory. *)
Lemma clean_below d n : d <> "" -> simple n = true -> clean (d ++ String slash n) = entry_of (clean d) n.
Proof.
  intros N S. rewrite (clean_nonempty d N), clean_nonempty by now apply app_nonempty.
  rewrite is_rooted_app by exact N. rewrite comps_app_simple by assumption.
  pose proof (clean_comps_ok d) as O. destruct (clean_comps d) as [|c l] eqn:E.
  - cbn. destruct (is_rooted d); reflexivity.
  - assert (X : render_path (is_rooted d) ((c :: l) ++ [n])%list = render_path (is_rooted d) (c :: l) ++ "/" ++ n).
    { change ((c :: l) ++ [n])%list with (c :: (l ++ [n]))%list. unfold render_path.
      change (c :: (l ++ [n]))%list with ((c :: l) ++ [n])%list.
      rewrite join_app by discriminate. now rewrite !append_assoc. }
    rewrite X. unfold entry_of.
    assert (J : join "/" (c :: l) <> "" ).
    { apply join_nonempty; [left; discriminate| |discriminate]. eapply Forall_impl; [|exact O]. apply ok_comp_nonempty. }
    destruct (String.eqb_spec (render_path (is_rooted d) (c :: l)) "/") as [R|_].
    + exfalso. unfold render_path in R. destruct (is_rooted d).
      * change ("/" ++ join "/" (c :: l)) with (String slash (join "/" (c :: l))) in R. injection R as R. contradiction.
      * change ("" ++ join "/" (c :: l)) with (join "/" (c :: l)) in R. destruct l as [|y l].
        -- cbn in R. inversion O as [|? ? Hc _]; subst. apply ok_comp_slash in Hc. discriminate.
        -- rewrite join_cons in R. inversion O as [|? ? Hc _]; subst. apply ok_comp_nonempty in Hc.
           destruct c; [congruence|]. cbn in R. injection R as -> R. apply append_eq_nil in R. destruct R as [_ R]. discriminate.
    + destruct (String.eqb_spec (render_path (is_rooted d) (c :: l)) ".") as [R|_]; [|reflexivity].
      exfalso. unfold render_path in R. destruct (is_rooted d); [discriminate|].
      change ("" ++ join "/" (c :: l)) with (join "/" (c :: l)) in R. destruct l as [|y l].
      * cbn in R. inversion O as [|? ? Hc _]; subst. discriminate.
      * rewrite join_cons in R. inversion O as [|? ? Hc _]; subst. apply ok_comp_nonempty in Hc.
        destruct c; [congruence|]. cbn in R. injection R as -> R. apply append_eq_nil in R. destruct R as [_ R]. discriminate.
Qed.
Lemma join2_below d n : simple n = true -> join_path [d; n] = entry_of (clean d) n.
Proof.
  intros S. cbn [join_path]. destruct (String.eqb_spec d "") as [->|N].
  - assert (Hn : n <> "") by (apply simple_spec in S; apply S).
    destruct (String.eqb_spec n ""); [contradiction|]. cbn. rewrite clean_nonempty by exact Hn.
    unfold clean_comps. rewrite split_on_no_sep by (unfold simple in S; rewrite !andb_true_iff, !negb_true_iff in S; apply S).
    cbn [fold_left]. rewrite clean_step_simple by exact S. cbn.
    replace (is_rooted n) with false; [reflexivity|].
    destruct n as [|c n]; [reflexivity|]. cbn. unfold simple in S. rewrite !andb_true_iff, !negb_true_iff, contains_byte_cons in S.
    destruct S as [_ S]. apply orb_false_iff in S. rewrite Ascii.eqb_sym. symmetry. apply S.
  - change (join "/" [d; n]) with (d ++ String slash n). now apply clean_below.
Qed.
Lemma join3_below d m n : d <> "" -> simple m = true -> simple n = true ->
  join_path [d; m; n] = entry_of (join_path [d; m]) n.
Proof.
  intros N M S. cbn [join_path]. destruct (String.eqb_spec d ""); [contradiction|].
  change (join "/" [d; m; n]) with (d ++ String slash (m ++ String slash n)).
  change (join "/" [d; m]) with (d ++ String slash m).
  replace (d ++ String slash (m ++ String slash n)) with ((d ++ String slash m) ++ String slash n)
    by (rewrite <- append_assoc; reflexivity).
  apply clean_below; [now apply app_nonempty|exact S].
Qed.

(** Cleaning is idempotent, so a directory's cleaned form is itself a directory name. *)
Lemma fold_ok r a : forall st, Forall (fun c => ok_comp c = true) a -> Forall nd a ->
  fold_left (clean_step r) a st = (rev a ++ st)%list.
Proof.
  induction a as [|c a IH]; intros st O D; [reflexivity|].
  inversion O as [|? ? Oc Oa]; subst. inversion D as [|? ? Dc Da]; subst. cbn.
  rewrite clean_step_simple.
  - rewrite IH by assumption. now rewrite <- app_assoc.
  - unfold simple, ok_comp in *. apply String.eqb_neq in Dc. rewrite Dc. rewrite !andb_true_iff in *. tauto.
Qed.
Lemma fold_dd b : forall st, Forall (fun c => c = "..") st -> Forall (fun c => c = "..") b ->
  fold_left (clean_step false) b st = (b ++ st)%list.
Proof.
  induction b as [|c b IH]; intros st S B; [reflexivity|]. inversion B as [|? ? Bc Bb]; subst. cbn [fold_left app].
  assert (E : clean_step false st ".." = ".." :: st).
  { unfold clean_step. cbn. destruct st as [|t st]; [reflexivity|]. inversion S; subst. reflexivity. }
  rewrite E, IH; [|constructor; auto|exact Bb].
  assert (X : forall (l : list string) s, Forall (fun c => c = "..") l -> (l ++ ".." :: s)%list = (".." :: l ++ s)%list).
  { intros l s F. induction F as [|x l Hx F IH']; [reflexivity|]. cbn. subst x. now rewrite IH'. }
  now apply X.
Qed.
Lemma comps_of_render r l : Forall (fun c => ok_comp c = true) l -> stack_ok r (rev l) -> l <> [] ->
  fold_left (clean_step r) l [] = rev l.
Proof.
  intros O S N. destruct r; cbn in S.
  - rewrite fold_ok; [now rewrite app_nil_r|exact O|]. apply Forall_rev in S. now rewrite rev_involutive in S.
  - destruct S as (a & b & E & A & B). assert (L : l = (rev b ++ rev a)%list) by (rewrite <- rev_app_distr, <- E; now rewrite rev_involutive).
    rewrite L, fold_left_app. rewrite L in O. apply Forall_app in O. destruct O as [_ O].
    rewrite (fold_dd (rev b) []) by (try (now apply Forall_rev); constructor). rewrite fold_ok by (try assumption; now apply Forall_rev).
    rewrite rev_app_distr, app_nil_r, !rev_involutive.
    f_equal. assert (X : forall b : list string, Forall (fun c => c = "..") b -> rev b = b).
    { clear. induction b as [|x b IH]; [reflexivity|]. intros F. inversion F as [|? ? Fx Fb]; subst. cbn. rewrite IH by exact Fb.
      clear - Fb. induction Fb as [|y l Hy F IH]; [reflexivity|]. cbn. subst y. now rewrite IH. }
    now rewrite X.
Qed.
Lemma render_nonempty r l : Forall (fun c => ok_comp c = true) l -> render_path r l <> "".
Proof.
  intros O. destruct l as [|c l]; [destruct r; discriminate|]. unfold render_path. destruct r; [discriminate|].
  apply join_nonempty; [left; discriminate| |discriminate]. eapply Forall_impl; [|exact O]. apply ok_comp_nonempty.
Qed.
Lemma render_rooted r l : Forall (fun c => ok_comp c = true) l -> is_rooted (render_path r l) = r.
Proof.
  intros O. destruct l as [|c l]; [destruct r; reflexivity|]. unfold render_path. destruct r; [reflexivity|].
  change ("" ++ join "/" (c :: l)) with (join "/" (c :: l)). inversion O as [|? ? Oc Ol]; subst.
  pose proof (ok_comp_nonempty _ Oc) as N. pose proof (ok_comp_slash _ Oc) as S. destruct c as [|x c]; [congruence|].
  rewrite contains_byte_cons in S. apply orb_false_iff in S. destruct S as [S _]. rewrite Ascii.eqb_sym in S.
  destruct l; cbn; exact S.
Qed.
Lemma comps_render r l : Forall (fun c => ok_comp c = true) l -> stack_ok r (rev l) -> clean_comps (render_path r l) = l.
Proof.
  intros O S. unfold clean_comps. rewrite render_rooted by exact O. destruct l as [|c l]; [destruct r; reflexivity|].
  unfold render_path. assert (J : split_on slash (join "/" (c :: l)) = c :: l).
  { apply split_on_join; [discriminate|]. eapply Forall_impl; [|exact O]. apply ok_comp_slash. }
  destruct r.
  - change ("/" ++ join "/" (c :: l)) with (String slash (join "/" (c :: l))).
    change (split_on slash (String slash (join "/" (c :: l)))) with ("" :: split_on slash (join "/" (c :: l))).
    rewrite J. cbn [fold_left]. change (clean_step true [] "") with (@nil string).
    change (fold_left (clean_step true) l (clean_step true [] c)) with (fold_left (clean_step true) (c :: l) []).
    rewrite comps_of_render by (assumption || discriminate). apply rev_involutive.
  - change ("" ++ join "/" (c :: l)) with (join "/" (c :: l)). rewrite J.
    rewrite comps_of_render by (assumption || discriminate). apply rev_involutive.
Qed.
Lemma clean_idem p : clean (clean p) = clean p.
Proof.
  destruct (String.eqb_spec p "") as [->|N]; [reflexivity|].
  rewrite (clean_nonempty p N). pose proof (clean_comps_ok p) as O. pose proof (clean_comps_stack p) as S.
  rewrite clean_nonempty by now apply render_nonempty.
  now rewrite render_rooted, comps_render by assumption.
Qed.
Lemma dotdots_spec l : (exists a b, rev l = (a ++ b)%list /\ Forall nd a /\ Forall (fun c => c = "..") b) -> dotdots l.
Proof.
  intros (a & b & E & A & B). assert (L : l = (rev b ++ rev a)%list) by (rewrite <- rev_app_distr, <- E; now rewrite rev_involutive).
  subst l. clear E. apply Forall_rev in A. apply Forall_rev in B.
  induction B as [|x l Hx B IH]; cbn.
  - destruct A as [|y l Hy A]; cbn; [exact I|]. right. auto.
  - left. auto.
Qed.
Lemma clean_form p : in_clean_form (clean p).
Proof.
  destruct (String.eqb_spec p "") as [->|N]; [right; left; reflexivity|]. rewrite (clean_nonempty p N).
  pose proof (clean_comps_ok p) as O. pose proof (clean_comps_stack p) as S.
  destruct (clean_comps p) as [|c l] eqn:E.
  - destruct (is_rooted p); [left|right; left]; reflexivity.
  - right. right. exists (is_rooted p), (c :: l). split; [discriminate|]. split; [|reflexivity]. split.
    + eapply Forall_impl; [|exact O]. intros x Hx. rewrite lacks_cb.
      auto using ok_comp_nonempty, ok_comp_dot, ok_comp_slash.
    + destruct (is_rooted p); cbn in S |- *.
      * apply Forall_rev in S. change ((rev l ++ [c])%list) with (rev (c :: l)) in S. now rewrite rev_involutive in S.
      * change (dotdots (c :: l)). apply dotdots_spec. exact S.
Qed.
Lemma clean_form_fixed p : in_clean_form p -> clean p = p.
Proof.
  intros [->|[->|(r & l & N & [F D] & ->)]]; [reflexivity|reflexivity|].
  assert (O : Forall (fun c => ok_comp c = true) l).
  { eapply Forall_impl; [|exact F]. intros c (H1 & H2 & H3). apply lacks_cb in H3. unfold ok_comp.
    apply String.eqb_neq in H1, H2. unfold slash. now rewrite H1, H2, H3. }
  assert (S : stack_ok r (rev l)).
  { destruct r; cbn in D |- *; [now apply Forall_rev|].
    clear - D. revert D. induction l as [|c l IH]; intros D; [exists [], []; repeat constructor|].
    cbn in D. destruct D as [[-> D]|[Dc D]].
    - destruct (IH D) as (a & b & E & A & B). exists a, (b ++ [".."])%list. cbn. rewrite E, <- app_assoc. repeat split; auto.
      apply Forall_app. split; auto.
    - exists (rev (c :: l)), []. rewrite app_nil_r. repeat split; [|constructor]. apply Forall_rev. constructor; assumption. }
  assert (E : (if r then "/" else "") ++ String.concat "/" l = render_path r l).
  { destruct l; [congruence|reflexivity]. }
  rewrite E, clean_nonempty by now apply render_nonempty. now rewrite render_rooted, comps_render by assumption.
Qed.
(** Parent and last element of an entry. *)
Lemma split_last_app a n : contains_byte slash n = false -> split_last_slash (a ++ String slash n) = Some (a ++ "/", n).
Proof.
  intros S. assert (Z : forall n, contains_byte slash n = false -> split_last_slash n = None).
  { clear. induction n as [|c n IH]; [reflexivity|]. rewrite contains_byte_cons. intros H. apply orb_false_iff in H.
    cbn. rewrite IH by tauto. rewrite Ascii.eqb_sym. now rewrite (proj1 H). }
  induction a as [|c a IH]; cbn.
  - rewrite Z by exact S. reflexivity.
  - now rewrite IH.
Qed.
Lemma clean_trailing p : p <> "" -> clean (p ++ "/") = clean p.
Proof.
  intros N. rewrite !clean_nonempty by (try apply app_nonempty; assumption).
  change "/" with (String slash ""). rewrite is_rooted_app by exact N. rewrite comps_app by exact N. cbn. now rewrite rev_involutive.
Qed.
Lemma dir_entry d n : in_clean_form d -> simple n = true -> dir_path (entry_of d n) = d.
Proof.
  intros D S. assert (NS : contains_byte slash n = false) by (unfold simple in S; rewrite !andb_true_iff, !negb_true_iff in S; apply S).
  unfold dir_path, entry_of.
  destruct (String.eqb_spec d "/") as [->|N1].
  - change ("/" ++ n) with ("" ++ String slash n). rewrite split_last_app by exact NS. reflexivity.
  - destruct (String.eqb_spec d ".") as [->|N2].
    + assert (Z : split_last_slash n = None).
      { clear - NS. induction n as [|c n IH]; [reflexivity|]. rewrite contains_byte_cons in NS. apply orb_false_iff in NS.
        cbn. rewrite IH by tauto. rewrite Ascii.eqb_sym. now rewrite (proj1 NS). }
      rewrite Z. reflexivity.
    + change (d ++ "/" ++ n) with (d ++ String slash n). rewrite split_last_app by exact NS.
      assert (N : d <> "").
      { intros ->. apply clean_form_fixed in D. discriminate. }
      rewrite clean_trailing by exact N. now apply clean_form_fixed.
Qed.
Lemma join_path_clean l : join_path l = "" \/ in_clean_form (join_path l).
Proof.
  induction l as [|e l IH]; [now left|]. cbn [join_path]. destruct (String.eqb e ""); [exact IH|]. right. apply clean_form.
Qed.
Lemma entry_of_inj d n n' : entry_of d n = entry_of d n' -> n = n'.
Proof.
  unfold entry_of. destruct (String.eqb d "/"); [apply (append_inj_l "/")|].
  destruct (String.eqb d "."); [trivial|]. intros H. apply append_inj_l in H. now apply (append_inj_l "/") in H.
Qed.

(** *** FindInPath *)
Lemma find_ext_one stat p n : find_ext stat p n executable_file_extensions =
  match stat (join_path [p; n]) with Some true => Some (join_path [p; n]) | _ => None end.
Proof.
  unfold executable_file_extensions. cbn [find_ext]. unfold candidate. rewrite append_nil_r. reflexivity.
Qed.
Lemma find_paths_some stat n paths f : find_paths stat n paths = Some f <->
  exists l1 p l2, paths = (l1 ++ p :: l2)%list /\ f = join_path [p; n] /\ stat f = Some true /\
    forall q, In q l1 -> stat (join_path [q; n]) <> Some true.
Proof.
  induction paths as [|p ps IH]; cbn [find_paths].
  - split; [discriminate|]. intros (l1 & p & l2 & E & _). destruct l1; discriminate.
  - rewrite find_ext_one. split.
    + destruct (stat (join_path [p; n])) as [[|]|] eqn:T.
      * intros H. injection H as <-. exists [], p, ps. repeat split; [exact T|intros q []].
      * intros H. apply IH in H. destruct H as (l1 & p' & l2 & -> & -> & T' & N).
        exists (p :: l1), p', l2. repeat split; [exact T'|]. intros q [<-|I]; [congruence|auto].
      * intros H. apply IH in H. destruct H as (l1 & p' & l2 & -> & -> & T' & N).
        exists (p :: l1), p', l2. repeat split; [exact T'|]. intros q [<-|I]; [congruence|auto].
    + intros (l1 & p' & l2 & E & F & T & N). destruct l1 as [|x l1]; cbn in E; injection E as -> ->.
      * subst f. now rewrite T.
      * assert (H : find_paths stat n (l1 ++ p' :: l2)%list = Some f).
        { apply IH. exists l1, p', l2. repeat split; [exact F|exact T|]. intros q I. apply N. now right. }
        specialize (N x (or_introl eq_refl)). rewrite H. destruct (stat (join_path [x; n])) as [[|]|]; congruence.
Qed.
Lemma find_in_path_ok stat n paths f : find_in_path stat n paths = Ok f <->
  n <> "" /\ lacks "/"%char n /\
  exists l1 p l2, paths = (l1 ++ p :: l2)%list /\ f = join_path [p; n] /\ stat f = Some true /\
    forall q, In q l1 -> stat (join_path [q; n]) <> Some true.
Proof.
  rewrite <- find_paths_some. unfold find_in_path. rewrite lacks_cb.
  change (contains_byte "/"%char n) with (contains_byte slash n).
  destruct (String.eqb_spec n "") as [->|N]; [split; [discriminate|tauto]|].
  destruct (contains_byte slash n); [split; [discriminate|intros (_ & H & _); discriminate]|].
  destruct paths as [|p ps]; [split; [discriminate|cbn; intros (_ & _ & H); discriminate]|].
  destruct (find_paths stat n (p :: ps)) as [g|]; split; try discriminate.
  - intros H. injection H as ->. auto.
  - intros (_ & _ & H). now injection H as ->.
  - intros (_ & _ & H). discriminate.
Qed.
Lemma find_in_path_total stat n paths : (exists f, find_in_path stat n paths = Ok f) \/ exists e, find_in_path stat n paths = Err e.
Proof.
  unfold find_in_path. destruct (String.eqb n ""); eauto. destruct (contains_byte slash n); eauto.
  destruct paths; eauto. destruct (find_paths stat n (s :: paths)); eauto.
Qed.
