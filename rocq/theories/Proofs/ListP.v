(** The listing of cached attachments. *)
From Coq Require Import String Ascii List Bool Arith NArith ZArith Lia Permutation Sorted.
From Verif Require Import Model.GoStr Model.Errors Model.Version Model.Path Model.Json Model.GoJson Model.Types Model.Conf Model.Invoke
  Model.Prog Model.Api
  Spec.NameSpec Spec.VersionSpec Spec.JsonSpec Spec.ConfSpec Spec.TypesSpec Spec.PathSpec Spec.RunSpec Spec.CacheSpec Spec.HistSpec Spec.MapSpec
  Proofs.StrP Proofs.PathP Proofs.FilesP Proofs.EnvP Proofs.ProgP Proofs.ApiP Proofs.VerbP Proofs.SingleP Proofs.ConfineP Proofs.EntryP.
Import ListNotations.
Open Scope nat_scope.
Open Scope string_scope.

(** ** The directory *)
Lemma comps_dir c : exists r X, results_dir c = render_path r (X ++ ["results"])%list /\ Forall (fun x => ok_comp x = true) (X ++ ["results"])%list /\
  clean_comps (results_dir c) = (X ++ ["results"])%list /\ is_rooted (results_dir c) = r.
Proof.
  unfold results_dir. pose proof (cache_root_nonempty c runtime_conf_zero) as N. set (d := cache_root c runtime_conf_zero) in *.
  cbn [join_path]. apply String.eqb_neq in N as N'. rewrite N'. change (join "/" [d; "results"]) with (d ++ String Path.slash "results").
  rewrite clean_nonempty by now apply app_nonempty. rewrite is_rooted_app by exact N.
  pose proof (clean_comps_ok (d ++ String Path.slash "results")) as O. pose proof (clean_comps_stack (d ++ String Path.slash "results")) as S.
  rewrite is_rooted_app in S by exact N. rewrite (comps_app_simple d "results" N eq_refl) in *.
  exists (is_rooted d), (clean_comps d). split; [reflexivity|]. split; [exact O|]. split; [now apply comps_render|now apply render_rooted].
Qed.
Lemma dir_clean c : clean (results_dir c) = results_dir c.
Proof.
  unfold results_dir. pose proof (cache_root_nonempty c runtime_conf_zero) as N. cbn [join_path]. apply String.eqb_neq in N. rewrite N. apply clean_idem.
Qed.
Lemma render_app r X y : render_path r (X ++ [y])%list = match X with [] => (if r then "/" else "") ++ y | _ => render_path r X ++ "/" ++ y end.
Proof.
  destruct X as [|x X]; [reflexivity|]. change ((x :: X) ++ [y])%list with (x :: (X ++ [y]))%list. unfold render_path.
  change (x :: (X ++ [y]))%list with ((x :: X) ++ [y])%list. rewrite join_app by discriminate. now rewrite !append_assoc.
Qed.
Lemma dir_long c : 7 <= String.length (results_dir c).
Proof.
  destruct (comps_dir c) as (r & X & -> & _ & _ & _). rewrite render_app.
  destruct X; rewrite !length_append; cbn [String.length]; lia.
Qed.
Lemma dir_entry_of c n : entry_of (results_dir c) n = results_dir c ++ "/" ++ n.
Proof.
  pose proof (dir_long c) as L. unfold entry_of. destruct (String.eqb_spec (results_dir c) "/") as [E|_]; [rewrite E in L; cbn in L; lia|].
  destruct (String.eqb_spec (results_dir c) ".") as [E|_]; [rewrite E in L; cbn in L; lia|reflexivity].
Qed.
Lemma dir_join c n : file_name n -> join_path [results_dir c; n] = results_dir c ++ "/" ++ n.
Proof. intros F. rewrite join2_below by now apply simple_spec. now rewrite dir_clean, dir_entry_of. Qed.
Lemma dot_unclean c n : n = "." \/ n = ".." -> ~ in_clean_form (results_dir c ++ "/" ++ n).
Proof.
  intros D F. apply clean_form_fixed in F. pose proof (dir_long c) as L. destruct (comps_dir c) as (r & X & E & O & C & R).
  assert (N : results_dir c <> "") by (intros Z; rewrite Z in L; cbn in L; lia).
  change (results_dir c ++ "/" ++ n) with (results_dir c ++ String Path.slash n) in F. rewrite clean_nonempty in F by now apply app_nonempty.
  rewrite is_rooted_app, comps_app, C, R in F by exact N. destruct D as [-> | ->].
  - change (split_on Path.slash ".") with ["."] in F. cbn [fold_left] in F.
    change (clean_step r (rev (X ++ ["results"])%list) ".") with (rev (X ++ ["results"])%list) in F. rewrite rev_involutive, <- E in F. apply (f_equal String.length) in F. rewrite length_append in F. cbn in F. lia.
  - change (split_on Path.slash "..") with [".."] in F. cbn [fold_left] in F. rewrite rev_app_distr in F. cbn [rev app] in F.
    change (clean_step r ("results" :: rev X) "..") with (rev X) in F. rewrite rev_involutive in F. apply (f_equal String.length) in F.
    rewrite length_append in F. rewrite E, render_app in F. cbn [String.length] in F. destruct X; [destruct r; cbn in F; lia|].
    rewrite !length_append in F. cbn [String.length] in F. lia.
Qed.

(** ** Its entries *)
Lemma strip_prefix_spec p : forall s t, strip_prefix p s = Some t <-> s = p ++ t.
Proof.
  induction p as [|a p IH]; intros s t; cbn.
  - split; intros H; [now injection H|now subst].
  - destruct s as [|b s]; [split; discriminate|]. destruct (Ascii.eqb_spec a b) as [->|N]; [|split; [discriminate|congruence]].
    rewrite IH. split; [now intros ->|intros H; now injection H].
Qed.
Lemma child_spec p q n : child_name p q = Some n <-> q = p ++ "/" ++ n /\ n <> "" /\ contains_byte Path.slash n = false.
Proof.
  unfold child_name. destruct (strip_prefix (p ++ "/") q) as [t|] eqn:E.
  - apply strip_prefix_spec in E. rewrite <- append_assoc in E. subst q. destruct (String.eqb_spec t "") as [->|T]; cbn [orb].
    + split; [discriminate|]. intros (X & N & _). apply append_inj_l in X. apply (append_inj_l "/") in X. now subst.
    + destruct (contains_byte Path.slash t) eqn:S.
      * split; [discriminate|]. intros (X & _ & C). apply append_inj_l in X. apply (append_inj_l "/") in X. congruence.
      * split; [intros [= <-]; auto|]. intros (X & _ & _). apply append_inj_l in X. apply (append_inj_l "/") in X. now subst.
  - split; [discriminate|]. intros (-> & _). rewrite append_assoc in E. assert (X : strip_prefix (p ++ "/") ((p ++ "/") ++ n) = Some n) by (now apply strip_prefix_spec). congruence.
Qed.
Lemma sget_nodup (w : world) k v : NoDup (map fst w) -> In (k, v) w -> sget k w = Some v.
Proof.
  induction w as [|[k' v'] w IH]; intros N I; [destruct I|]. cbn in N. apply NoDup_cons_iff in N as [A B]. cbn [sget]. destruct I as [E|I].
  - injection E as -> ->. now rewrite String.eqb_refl.
  - destruct (String.eqb_spec k k') as [->|_]; [|auto]. destruct A. change k' with (fst (k', v)). now apply in_map.
Qed.
Lemma children_iff c w n : tidy w -> (In n (children (results_dir c) w) <-> file_name n /\ exists d, sget (results_dir c ++ "/" ++ n) w = Some d).
Proof.
  intros [ND CF]. apply ssorted_nodup in ND. unfold children. rewrite in_flat_map. split.
  - intros ([p d] & I & C). cbn [fst] in C. destruct (child_name (results_dir c) p) as [m|] eqn:E; [|destruct C].
    destruct C as [->|[]]. apply child_spec in E as (-> & N & S). split.
    + rewrite Forall_forall in CF. assert (K : In (results_dir c ++ "/" ++ n) (map fst w)) by (change (results_dir c ++ "/" ++ n) with (fst (results_dir c ++ "/" ++ n, d)); now apply in_map).
      apply CF in K. split; [exact N|]. split; [intros ->; exact (dot_unclean c "." (or_introl eq_refl) K)|]. split; [intros ->; exact (dot_unclean c ".." (or_intror eq_refl) K)|].
      apply lacks_cb. exact S.
    + exists d. now apply sget_nodup.
  - intros ((N & _ & _ & S) & d & G). apply sget_In in G. exists (results_dir c ++ "/" ++ n, d). split; [exact G|]. cbn [fst].
    assert (E : child_name (results_dir c) (results_dir c ++ "/" ++ n) = Some n) by (apply child_spec; repeat split; auto; now apply lacks_cb). rewrite E. now left.
Qed.
Lemma children_nodup p w : NoDup (map fst w) -> NoDup (children p w).
Proof.
  induction w as [|[q d] w IH]; intros N; [constructor|]. cbn in N. apply NoDup_cons_iff in N as [A B]. unfold children. cbn [flat_map fst].
  destruct (child_name p q) as [n|] eqn:E; [|exact (IH B)]. cbn [app]. constructor; [|exact (IH B)].
  intros I. apply in_flat_map in I as ([q' d'] & I & C). cbn [fst] in C. destruct (child_name p q') as [m|] eqn:E'; [|destruct C]. destruct C as [->|[]].
  apply child_spec in E as (-> & _). apply child_spec in E' as (-> & _). apply A. now apply (in_map fst) in I.
Qed.

(** ** The filter on names *)
Lemma prefix_ex p s : String.prefix p s = true <-> exists t, s = p ++ t.
Proof.
  revert s. induction p as [|a p IH]; intros s; [split; [exists s; reflexivity|destruct s; reflexivity]|].
  destruct s as [|b s]; [split; [discriminate|intros (t & X); discriminate]|]. cbn. destruct (ascii_dec a b) as [->|N].
  - rewrite IH. split; intros (t & E); exists t; [now rewrite E|congruence].
  - split; [discriminate|]. intros (t & X). congruence.
Qed.
Lemma index_none p s : index_of p s = None <-> forall a b, s <> a ++ p ++ b.
Proof.
  induction s as [|x s IH]; cbn [index_of]; destruct (String.prefix p _) eqn:P.
  - apply prefix_ex in P as (t & P). split; [discriminate|]. intros H. exfalso. exact (H "" t P).
  - split; [|reflexivity]. intros _ a b E. symmetry in E. apply append_eq_nil in E as [_ E]. apply append_eq_nil in E as [-> _]. discriminate.
  - apply prefix_ex in P as (t & P). split; [discriminate|]. intros H. exfalso. exact (H "" t P).
  - destruct (index_of p s) eqn:E; cbn [option_map].
    + split; [discriminate|]. intros H. exfalso. assert (X : Some n = None) by (apply IH; intros a b Q; apply (H (String x a) b); now rewrite Q). discriminate.
    + split; [|reflexivity]. intros _ [|y a] b Q.
      * cbn in Q. assert (T : String.prefix p (String x s) = true) by (apply prefix_ex; exists b; exact Q). congruence.
      * injection Q as <- Q. destruct IH as [IH _]. exact (IH eq_refl a b Q).
Qed.
Lemma index_some p s i : index_of p s = Some i -> (exists a b, String.length a = i /\ s = a ++ p ++ b) /\
  forall a b, s = a ++ p ++ b -> i <= String.length a.
Proof.
  revert i. induction s as [|x s IH]; intros i; cbn [index_of]; destruct (String.prefix p _) eqn:P.
  - intros [= <-]. apply prefix_ex in P as (t & P). split; [exists "", t; auto|]. intros; lia.
  - discriminate.
  - intros [= <-]. apply prefix_ex in P as (t & P). split; [exists "", t; auto|]. intros; lia.
  - destruct (index_of p s) as [j|] eqn:E; cbn [option_map]; [|discriminate]. intros [= <-]. destruct (IH j eq_refl) as ((a & b & L & ->) & M).
    split; [exists (String x a), b; cbn; auto|]. intros [|y a'] b' Q.
    + assert (T : String.prefix p (String x (a ++ p ++ b)) = true) by (apply prefix_ex; exists b'; exact Q). congruence.
    + injection Q as <- Q. apply M in Q. cbn. lia.
Qed.
Lemma name_selected_iff id n : name_selected id n = true <-> name_for id n.
Proof.
  unfold name_selected, name_for. destruct (String.eqb_spec id "") as [->|N]; [tauto|]. set (p := "-" ++ id ++ "-").
  assert (A : forall a b, a ++ "-" ++ id ++ "-" ++ b = a ++ p ++ b) by (intros; unfold p; now rewrite <- !append_assoc).
  assert (B : forall b, "-" ++ id ++ "-" ++ b = p ++ b) by (intros; unfold p; now rewrite <- !append_assoc).
  destruct (index_of p n) as [i|] eqn:E.
  - apply index_some in E as ((a & b & L & Q) & M). destruct i as [|i].
    + split; [discriminate|]. intros [X|[X _]]; [contradiction|]. apply length_nil in L. subst a. exfalso. apply (X b). now rewrite B.
    + rewrite Nat.ltb_lt. split.
      * intros H. right. split; [intros t T; rewrite B in T; apply (M "" t) in T; cbn in T; lia|].
        exists a, b. rewrite A. split; [|exact Q]. intros ->. rewrite Q, !length_append in H. cbn in H. lia.
      * intros [X|(_ & a' & b' & NB & Q')]; [contradiction|]. rewrite A in Q'. apply M in Q' as G. rewrite Q', !length_append.
        destruct b'; [congruence|]. cbn [String.length]. lia.
  - split; [discriminate|]. intros [X|(_ & a & b & _ & Q)]; [contradiction|]. rewrite A in Q. apply index_none with (a := a) (b := b) in E. contradiction.
Qed.

(** ** The listing *)
Lemma attachment_of_iff id data a : attachment_of id data = Some a <-> describes data a /\ (id = "" \/ at_container a = id).
Proof.
  unfold attachment_of, describes. destruct (unmarshal_cached_info data) as [ci|].
  2:{ split; [discriminate|]. intros ((ci & X & _) & _). discriminate. }
  destruct (String.eqb_spec (ci_kind ci) cni_cache_v1) as [K|K]; cbn [negb].
  2:{ split; [discriminate|]. intros ((ci' & X & K' & _) & _). injection X as <-. contradiction. }
  destruct (String.eqb_spec id "") as [->|I]; cbn [negb andb].
  - destruct (String.eqb_spec (ci_ifname ci) "") as [F|F]; cbn [orb].
    { split; [discriminate|]. intros ((ci' & X & _ & F' & _) & _). injection X as <-. contradiction. }
    destruct (String.eqb_spec (ci_network ci) "") as [G|G].
    { split; [discriminate|]. intros ((ci' & X & _ & _ & G' & _) & _). injection X as <-. contradiction. }
    split; [intros [= <-]; split; [exists ci; auto 10|now left]|]. intros ((ci' & X & _ & _ & _ & ->) & _). now injection X as <-.
  - destruct (String.eqb_spec (ci_container ci) id) as [C|C]; cbn [negb].
    2:{ split; [discriminate|]. intros ((ci' & X & _ & _ & _ & ->) & [Y|Y]); [contradiction|]. injection X as <-. cbn in Y. contradiction. }
    destruct (String.eqb_spec (ci_ifname ci) "") as [F|F]; cbn [orb].
    { split; [discriminate|]. intros ((ci' & X & _ & F' & _) & _). injection X as <-. contradiction. }
    destruct (String.eqb_spec (ci_network ci) "") as [G|G].
    { split; [discriminate|]. intros ((ci' & X & _ & _ & G' & _) & _). injection X as <-. contradiction. }
    split; [intros [= <-]; split; [exists ci; auto 10|now right]|]. intros ((ci' & X & _ & _ & _ & ->) & _). now injection X as <-.
Qed.
Definition listed_here (c : cni) (id : string) (w : world) (n : string) : list (string * attachment) :=
  if name_selected id n then
    match sget (join_path [results_dir c; n]) w with
    | Some d => match attachment_of id d with Some a => [(n, a)] | None => [] end
    | None => []
    end
  else [].
Lemma strictly l : StronglySorted (fun a b => String.compare a b <> Gt) l -> NoDup l -> StronglySorted (fun a b => String.compare a b = Lt) l.
Proof.
  induction 1 as [|x l S IH F]; intros N; [constructor|]. apply NoDup_cons_iff in N as [A B]. constructor; [auto|].
  rewrite Forall_forall in *. intros y I. specialize (F y I). destruct (String.compare x y) eqn:E; [|reflexivity|contradiction].
  apply String.compare_eq_iff in E. subst. contradiction.
Qed.
Lemma flat_sorted (f : string -> list (string * attachment)) l : (forall n, f n = [] \/ exists a, f n = [(n, a)]) ->
  StronglySorted (fun a b => String.compare a b = Lt) l -> StronglySorted (fun a b => String.compare a b = Lt) (map fst (flat_map f l)).
Proof.
  intros H. induction 1 as [|x l S IH F]; [constructor|]. cbn [flat_map]. destruct (H x) as [->|[a ->]]; [exact IH|]. cbn [app map fst]. constructor; [exact IH|].
  rewrite Forall_forall in *. intros y I. apply in_map_iff in I as ([y' b] & <- & I). apply in_flat_map in I as (z & Z & I). cbn [fst].
  destruct (H z) as [E|[e E]]; rewrite E in I; [destruct I|]. destruct I as [X|[]]. injection X as -> ->. auto.
Qed.
Lemma sorted_ascending l : StronglySorted (fun a b => String.compare a b = Lt) l -> ascending l.
Proof.
  induction 1 as [|x l S IH F]; [exact I|]. destruct l as [|y l]; [exact I|]. split; [|exact IH]. now inversion F.
Qed.
Lemma listing c id w tr w' r : tidy w -> runs false (get_cached_attachments c id) w tr w' r ->
  w' = w /\ exists pairs, r = Ok (map snd pairs) /\ ascending (map fst pairs) /\ forall n a, In (n, a) pairs <-> to_list c id w n a.
Proof.
  intros T R. apply get_cached_attachments_inv in R. destruct R as (-> & _ & _ & _ & E). split; [reflexivity|]. specialize (E eq_refl).
  fold (results_dir c) in E. set (names := sort_strings (children (results_dir c) w)) in *.
  assert (SN : StronglySorted (fun a b => String.compare a b = Lt) names).
  { apply strictly; [apply sort_strings_sorted|]. eapply Permutation_NoDup; [apply sort_strings_perm|]. apply children_nodup, ssorted_nodup, T. }
  exists (flat_map (listed_here c id w) names). split.
  - rewrite E. f_equal. clear. induction names as [|n l IH]; [reflexivity|]. cbn [flat_map]. rewrite map_app, <- IH. f_equal. unfold listed_here.
    destruct (name_selected id n); [|reflexivity]. destruct (sget _ w); [|reflexivity]. destruct (attachment_of id s); reflexivity.
  - split.
    + apply sorted_ascending, flat_sorted; [|exact SN]. intros n. unfold listed_here. destruct (name_selected id n); [|auto]. destruct (sget _ w); [|auto].
      destruct (attachment_of id s); eauto.
    + intros n a. rewrite in_flat_map. assert (MEM : forall x, In x names <-> file_name x /\ exists d, sget (results_dir c ++ "/" ++ x) w = Some d).
      { intros x. rewrite <- (children_iff c w x T). unfold names. split; apply Permutation_in; [symmetry|]; apply sort_strings_perm. }
      unfold to_list. split.
      * intros (x & X & I). apply MEM in X as (FN & d & G). unfold listed_here in I. destruct (name_selected id x) eqn:S; [|destruct I].
        rewrite dir_join, G in I by exact FN. destruct (attachment_of id d) as [b|] eqn:A; [|destruct I]. destruct I as [I|[]]. injection I as -> ->.
        apply name_selected_iff in S. apply attachment_of_iff in A as [D A]. eauto 10.
      * intros (FN & NF & d & G & D & A). exists n. split; [apply MEM; eauto|]. unfold listed_here. apply name_selected_iff in NF. rewrite NF.
        rewrite dir_join, G by exact FN. assert (X : attachment_of id d = Some a) by (apply attachment_of_iff; auto). rewrite X. now left.
Qed.
(** The files ADD writes pass the filter. *)
Lemma entry_name_for name rt : good_name name -> rt_ifname rt <> "" -> name_for (rt_container rt) (entry_name name rt).
Proof.
  intros (c & rest & -> & A & _) N. right. unfold entry_name. split.
  - intros t E. injection E as -> _. destruct A as [A|[A|A]]; cbn in A; lia.
  - exists (String c rest), (rt_ifname rt). auto.
Qed.

(** ** Operations keep the file system tidy *)
Lemma sset_keys (m : world) k v p : In p (map fst (sset k v m)) -> p = k \/ In p (map fst m).
Proof.
  induction m as [|[k' v'] m IH]; cbn [sset]; [intros [<-|[]]; auto|].
  destruct (String.compare k k'); cbn [map fst In]; intuition.
Qed.
Lemma tidy_sset p d w : in_clean_form p -> tidy w -> tidy (sset p d w).
Proof.
  intros C [S F]. split; [now apply sset_sorted|]. rewrite Forall_forall in *. intros q I. apply sset_keys in I as [->|I]; auto.
Qed.
Lemma tidy_sdel p w : tidy w -> tidy (sdel p w).
Proof.
  intros [S F]. split; [now apply sdel_sorted|]. rewrite Forall_forall in *. intros q I. apply F. unfold sdel in I. apply in_map_iff in I as (x & <- & I).
  apply filter_In in I as [I _]. now apply in_map.
Qed.
Lemma answer_tidy fl w o r w1 : answer fl w o r w1 -> (forall p, changes o = Some p -> in_clean_form p) -> tidy w -> tidy w1.
Proof.
  intros A C T. destruct A; auto; cbn [changes] in C; try (apply tidy_sset; auto; fail); try (now apply tidy_sdel).
  all: unfold overlay; destruct (sget p w); [apply tidy_sset; auto|exact T].
Qed.
Lemma runs_tidy fl A (p : prog A) w tr w' a : runs fl p w tr w' a -> (forall q, In q (changed tr) -> in_clean_form q) -> tidy w -> tidy w'.
Proof.
  induction 1 as [|o k w r w1 tr w2 a An R IH]; intros C T; [exact T|]. apply IH; [intros q I; apply C; cbn; apply in_or_app; now right|].
  eapply answer_tidy; [exact An| |exact T]. intros q E. apply C. cbn. rewrite E. now left.
Qed.
Lemma confined_changed fl A P (p : prog A) w tr w' a : runs fl p w tr w' a -> confined P p -> forall q, In q (changed tr) -> P q.
Proof.
  induction 1 as [|o k w r w1 tr w2 a An R IH]; intros C q I; [destruct I|]. inversion C as [|o0 k0 OI F]; subst. cbn in I. apply in_app_or in I as [I|I]; [|eauto].
  destruct (changes o) eqn:E; [|destruct I]. destruct I as [<-|[]]. eapply op_in_changes; eassumption.
Qed.
Lemma entry_clean c name rt : in_clean_form (entry_path c name rt).
Proof.
  unfold entry_path. cbn [join_path]. pose proof (cache_root_nonempty c rt) as N. apply String.eqb_neq in N. rewrite N. apply clean_form.
Qed.
Lemma dels_changed fl c l : forall atts w tr w' rs, dels fl c l atts w tr w' rs -> forall q, In q (changed tr) -> exists rt, q = entry_path c (nl_name l) rt.
Proof.
  induction 1 as [|a rt atts w tr1 w1 r tr2 w2 rs P R D IH]; intros q I; [destruct I|]. rewrite changed_app in I. apply in_app_or in I as [I|I]; [|auto].
  apply del_world in R as [R _]. apply R in I as [_ ->]. eauto.
Qed.
Lemma returning_inv fl A (f : A -> value) p w tr w' v : runs fl (returning f p) w tr w' v -> exists r, runs fl p w tr w' r /\ v = rmap f r.
Proof.
  unfold returning. intros R. apply runs_bind in R. destruct R as (t1 & w1 & r & t2 & R1 & R2 & ->). apply runs_ret in R2. destruct R2 as (-> & -> & ->).
  rewrite app_nil_r. eauto.
Qed.
Lemma performs_changed fl c a w tr w' v : runs fl (performs c a) w tr w' v -> forall q, In q (changed tr) -> exists name rt, q = entry_path c name rt.
Proof.
  intros R q I. destruct a as [l rt|l rt|l rt|l rt|l rt|n rt|n rt|n rt|n rt|n rt|l|n|l args|l|id|t];
    try (eapply (confined_changed _ _ (fun q => exists name rt, q = entry_path c name rt)) in R;
         [exact R|apply cf_performs; [exact (fun x => x)|intros p (name & rt' & _ & _ & ->); eauto]|exact I]).
  - apply returning_inv in R as (r & R & _). apply gc_network_list_inv in R.
    destruct R as [(_ & -> & _)|[(_ & _ & (e & G) & _)|(_ & tr0 & atts & tr1 & tr2 & w1 & G & -> & K)]]; [destruct I| |].
    + apply get_cached_attachments_inv in G as (_ & C & _). rewrite C in I. destruct I.
    + apply get_cached_attachments_inv in G as (_ & C & _). rewrite !changed_app, C in I. cbn [app] in I.
      destruct K as [(_ & -> & _ & D)|(es & rs & _ & D & _ & _ & C2 & _)].
      * rewrite app_nil_r in I. apply gc_del_loop_inv in D as [(_ & done & a & rest & tr3 & w2 & tr4 & rs & rt & _ & DD & _ & R & ->)|(rs & es & DD & X & _)]; [|discriminate].
        rewrite changed_app in I. apply in_app_or in I as [I|I]; [apply (dels_changed _ _ _ _ _ _ _ _ DD) in I as [rt' ->]; eauto|].
        apply del_world in R as [R _]. apply R in I as [_ ->]. eauto.
      * rewrite C2, app_nil_r in I. apply (dels_changed _ _ _ _ _ _ _ _ D) in I as [rt' ->]. eauto.
  - apply returning_inv in R as (r & R & _). apply get_cached_attachments_inv in R as (_ & C & _). rewrite C in I. destruct I.
Qed.
Lemma performs_tidy fl c a w tr w' v : runs fl (performs c a) w tr w' v -> tidy w -> tidy w'.
Proof. intros R. eapply runs_tidy; [exact R|]. intros q I. destruct (performs_changed _ _ _ _ _ _ _ R q I) as (name & rt & ->). apply entry_clean. Qed.
Lemma history_tidy fl c h w w' : history fl c h w w' -> tidy w -> tidy w'.
Proof. induction 1; intros T; [exact T|]. apply IHhistory. eapply performs_tidy; eassumption. Qed.
