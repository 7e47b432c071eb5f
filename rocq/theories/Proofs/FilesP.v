(** Configuration files, single configurations, repeated injection. *)
From Coq Require Import String Ascii List Arith ZArith NArith Bool Lia Permutation Sorted.
From Verif Require Import Model.GoStr Model.Utf8 Model.Errors Model.Version Model.Path Model.Json Model.Num Model.GoJson
  Model.NetIP Model.Types Model.Conf
  Spec.VersionSpec Spec.NameSpec Spec.JsonSpec Spec.ConfSpec Spec.PathSpec Spec.FileSpec
  Proofs.StrP Proofs.VersionP Proofs.SelectP Proofs.Utf8P Proofs.JsonP Proofs.JsonRT Proofs.NumP Proofs.GoJsonP Proofs.EnvP Proofs.ConfP
  Proofs.PathP Proofs.LoadP Proofs.BuildP.
Import ListNotations.
Open Scope nat_scope.
Open Scope string_scope.

(** *** Extensions *)
Lemma split_last_slash_some s a b : split_last_slash s = Some (a, b) -> s = a ++ b.
Proof.
  revert a b. induction s as [|c s IH]; intros a b H; [discriminate|]. cbn in H.
  destruct (split_last_slash s) as [[x y]|].
  - injection H as <- <-. cbn. now rewrite (IH x y eq_refl).
  - destruct (Ascii.eqb c Path.slash); [|discriminate]. injection H as <- <-. reflexivity.
Qed.
Lemma split_last_slash_none s : contains_byte Path.slash s = false -> split_last_slash s = None.
Proof.
  induction s as [|c s IH]; intros H; [reflexivity|]. rewrite contains_byte_cons in H. apply orb_false_iff in H. destruct H as [A B].
  cbn. rewrite (IH B). destruct (Ascii.eqb_spec c Path.slash) as [->|N]; [|reflexivity]. now rewrite Ascii.eqb_refl in A.
Qed.
Lemma split_last_slash_app p e : contains_byte Path.slash e = false ->
  match split_last_slash (p ++ e) with Some (_, b) => exists q, b = q ++ e | None => True end.
Proof.
  intros E. induction p as [|c p IH]; cbn [append]; [now rewrite split_last_slash_none|].
  cbn. destruct (split_last_slash (p ++ e)) as [[x y]|]; [exact IH|]. destruct (Ascii.eqb c Path.slash); [now exists p|exact I].
Qed.
Lemma last_dot_some s e : last_dot s = Some e -> exists p, s = p ++ e.
Proof.
  induction s as [|c s IH]; [discriminate|]. cbn. destruct (last_dot s) as [x|].
  - intros H. injection H as <-. destruct (IH eq_refl) as [p ->]. now exists (String c p).
  - destruct (Ascii.eqb c "."%char); [|discriminate]. intros H. injection H as <-. now exists "".
Qed.
Lemma last_dot_none s : contains_byte "."%char s = false -> last_dot s = None.
Proof.
  induction s as [|c s IH]; intros H; [reflexivity|]. rewrite contains_byte_cons in H. apply orb_false_iff in H. destruct H as [A B].
  cbn. rewrite (IH B). destruct (Ascii.eqb_spec c "."%char) as [->|N]; [|reflexivity]. now rewrite Ascii.eqb_refl in A.
Qed.
Lemma last_dot_app p t : contains_byte "."%char t = false -> last_dot (p ++ String "."%char t) = Some (String "."%char t).
Proof.
  intros H. induction p as [|c p IH]; cbn; [|now rewrite IH]. rewrite last_dot_none by exact H. reflexivity.
Qed.
Lemma ext_path_iff s t : contains_byte "."%char t = false -> contains_byte Path.slash t = false ->
  (ext_path s = String "."%char t <-> ends_with (String "."%char t) s).
Proof.
  intros D S. unfold ext_path, ends_with. split.
  - intros H. destruct (split_last_slash s) as [[a b]|] eqn:E.
    + destruct (last_dot b) as [e|] eqn:L; [|discriminate]. subst e. apply last_dot_some in L. destruct L as [p ->].
      apply split_last_slash_some in E. exists (a ++ p). now rewrite <- append_assoc.
    + destruct (last_dot s) as [e|] eqn:L; [|discriminate]. subst e. now apply last_dot_some in L.
  - intros [p ->]. assert (S' : contains_byte Path.slash (String "."%char t) = false) by (rewrite contains_byte_cons, S; reflexivity).
    pose proof (split_last_slash_app p (String "."%char t) S') as H.
    destruct (split_last_slash (p ++ String "."%char t)) as [[a b]|]; [destruct H as [q ->]|]; now rewrite last_dot_app.
Qed.

(** *** ConfFiles *)
Lemma conf_files_ok fs dir exts files :
  Forall (fun e => exists t, e = String "."%char t /\ contains_byte "."%char t = false /\ contains_byte Path.slash t = false) exts ->
  NoDup exts ->
  (conf_files fs dir exts = Ok files <-> candidates fs dir exts files).
Proof.
  intros F ND. unfold candidates, listing.
  assert (G : forall es, exists ns, picks (named_like exts) es ns /\
    flat_map (fun f : string * bool => if snd f then []
            else flat_map (fun ext => if String.eqb (ext_path (fst f)) ext then [join_path [dir; fst f]] else []) exts) es =
    map (fun e => join_path [dir; fst e]) ns).
  { induction es as [|[n d] es (ns & P & E)]; [exists []; split; [constructor|reflexivity]|].
    cbn [flat_map fst snd]. rewrite E. destruct d.
    - exists ns. split; [|reflexivity]. constructor; [|exact P]. intros [X _]. discriminate.
    - assert (X : (In (ext_path n) exts /\ flat_map (fun ext => if String.eqb (ext_path n) ext then [join_path [dir; n]] else []) exts = [join_path [dir; n]]) \/
        (~ In (ext_path n) exts /\ flat_map (fun ext => if String.eqb (ext_path n) ext then [join_path [dir; n]] else []) exts = [])).
      { clear - ND. induction exts as [|x l IH]; [right; split; [intros []|reflexivity]|].
        inversion ND as [|? ? N ND']; subst. cbn [flat_map]. destruct (String.eqb_spec (ext_path n) x) as [Q|Q].
        - left. split; [now left|]. destruct (IH ND') as [[I _]|[_ ->]]; [rewrite Q in I; contradiction|reflexivity].
        - destruct (IH ND') as [[I ->]|[I ->]]; [left|right]; (split; [|reflexivity]); [now right|]. intros [Z|Z]; [now symmetry in Z|contradiction]. }
      assert (Y : named_like exts (n, false) <-> In (ext_path n) exts).
      { unfold named_like. cbn [fst snd]. rewrite Forall_forall in F. split.
        - intros (_ & x & I & W). destruct (F x I) as (t & -> & A & B). apply (ext_path_iff n t A B) in W. now rewrite W.
        - intros I. split; [reflexivity|]. exists (ext_path n). split; [exact I|]. destruct (F _ I) as (t & T & A & B).
          rewrite T. now apply ext_path_iff. }
      destruct X as [[I ->]|[I ->]].
      + exists ((n, false) :: ns). split; [constructor; [now apply Y|exact P]|reflexivity].
      + exists ns. split; [constructor; [now rewrite Y|exact P]|reflexivity]. }
  assert (U : forall es a b, picks (named_like exts) es a -> picks (named_like exts) es b -> a = b).
  { induction es as [|e es IH]; intros a b A B; inversion A; inversion B; subst; try contradiction; [reflexivity|f_equal|]; eauto. }
  unfold conf_files. destruct (fs_read_dir fs dir) as [es|e|].
  - destruct (G es) as (ns & P & E). split.
    + intros H. injection H as <-. exists es, ns. split; [now left|]. split; [exact P|]. exact E.
    + intros (es' & ns' & [L|[_ (e & L & _)]] & P' & ->); [|discriminate]. injection L as <-. f_equal. rewrite E. now rewrite (U _ _ _ P P').
  - split.
    + intros H. destruct (is_not_exist e) eqn:X; [|discriminate]. injection H as <-. exists [], []. split; [right; split; [reflexivity|]; eauto|]. split; [constructor|reflexivity].
    + intros (es & ns & [L|[-> (e' & L & X)]] & P & ->); [discriminate|]. injection L as <-. rewrite X. inversion P. reflexivity.
  - split; [discriminate|]. intros (es & ns & [L|[_ (e & L & _)]] & _); discriminate.
Qed.
Lemma conf_exts_ok l : forallb (fun e => match e with String "."%char t => negb (contains_byte "."%char t) && negb (contains_byte Path.slash t) | _ => false end) l = true ->
  Forall (fun e => exists t, e = String "."%char t /\ contains_byte "."%char t = false /\ contains_byte Path.slash t = false) l.
Proof.
  intros H. rewrite forallb_forall in H. apply Forall_forall. intros e I. specialize (H e I).
  destruct e as [|c t]; [discriminate|]. destruct (Ascii.eqb_spec c "."%char) as [->|N].
  - apply andb_true_iff in H. rewrite !negb_true_iff in H. exists t. tauto.
  - exfalso. destruct c as [[] [] [] [] [] [] [] []]; try discriminate. now apply N.
Qed.
Lemma load_plugin_files_ok fs files ps : load_plugin_files fs files = Ok ps <-> Forall2 (reads_plugin fs) files ps.
Proof.
  unfold reads_plugin. revert ps. induction files as [|f files IH]; intros ps; cbn [load_plugin_files].
  - split; [intros H; injection H as <-; constructor|intros H; now inversion H].
  - split.
    + intros H. destruct (fs_read_file fs f) as [b|e|] eqn:R; try discriminate. cbn [rwrap rbind] in H.
      destruct (plugin_conf_from_bytes b) as [p|e|] eqn:P; try discriminate. cbn [rbind] in H.
      destruct (load_plugin_files fs files) as [qs|e|]; try discriminate. injection H as <-. constructor; [eauto|now apply IH].
    + intros H. inversion H as [|? p ? qs (b & R & P) Q]; subst. rewrite R. cbn [rwrap rbind]. rewrite P. cbn [rbind].
      apply IH in Q. now rewrite Q.
Qed.
Lemma plugin_confs_from_files_ok fs d n ps : plugin_confs_from_files fs d n = Ok ps <->
  exists files, candidates fs (join_path [d; n]) [".conf"] files /\ Forall2 (reads_plugin fs) files ps.
Proof.
  unfold plugin_confs_from_files.
  pose proof (fun files => conf_files_ok fs (join_path [d; n]) [".conf"] files (conf_exts_ok [".conf"] eq_refl) ltac:(repeat constructor; intros [])) as C.
  split.
  - intros H. destruct (conf_files fs (join_path [d; n]) [".conf"]) as [files|e|]; try discriminate. cbn [rwrap rbind] in H.
    exists files. split; [now apply C|now apply load_plugin_files_ok].
  - intros (files & K & L). apply C in K. rewrite K. cbn [rwrap rbind]. now apply load_plugin_files_ok.
Qed.
Lemma network_conf_from_file_ok fs f l : network_conf_from_file fs f = Ok l <->
  exists b l0 extra, fs_read_file fs f = Ok b /\ network_conf_from_bytes b = Ok l0 /\
    (if nl_only_inlined l0 then extra = []
     else exists files, candidates fs (join_path [dir_path f; nl_name l0]) [".conf"] files /\ Forall2 (reads_plugin fs) files extra) /\
    l = set_plugins l0 (nl_plugins l0 ++ extra) /\ nl_plugins l <> [].
Proof.
  unfold network_conf_from_file. split.
  - intros H. destruct (fs_read_file fs f) as [b|e|]; try discriminate. cbn [rwrap rbind] in H.
    destruct (network_conf_from_bytes b) as [l0|e|] eqn:N; try discriminate. cbn [rbind] in H.
    exists b, l0. destruct (nl_only_inlined l0).
    + cbn [rbind] in H. exists []. split; [reflexivity|]. split; [exact N|]. split; [reflexivity|].
      rewrite app_nil_r. destruct (nl_plugins l0) eqn:P; [discriminate|]. injection H as <-. split; [|rewrite P; discriminate].
      destruct l0. cbn in *. now subst.
    + destruct (plugin_confs_from_files fs (dir_path f) (nl_name l0)) as [ps|e|] eqn:P; try discriminate. cbn [rbind] in H.
      exists ps. apply plugin_confs_from_files_ok in P. split; [reflexivity|]. split; [exact N|]. split; [exact P|].
      destruct (nl_plugins (set_plugins l0 (nl_plugins l0 ++ ps))) eqn:Q; [discriminate|]. injection H as <-.
      split; [reflexivity|]. rewrite Q. discriminate.
  - intros (b & l0 & extra & R & N & X & E & NE). rewrite R. cbn [rwrap rbind]. rewrite N. cbn [rbind].
    assert (Y : (if nl_only_inlined l0 then Ok l0
                 else let! ps := plugin_confs_from_files fs (dir_path f) (nl_name l0) in
                      Ok (set_plugins l0 (nl_plugins l0 ++ ps)%list)) = Ok l).
    { destruct (nl_only_inlined l0).
      - subst extra. rewrite app_nil_r in E. subst l. f_equal. now destruct l0.
      - apply plugin_confs_from_files_ok in X. rewrite X. cbn [rbind]. now subst l. }
    rewrite Y. cbn [rbind]. destruct (nl_plugins l); [contradiction|reflexivity].
Qed.

(** *** LoadNetworkConf *)
Lemma insert_string_perm x l : Permutation (x :: l) (insert_string x l).
Proof.
  induction l as [|y l IH]; [reflexivity|]. cbn. destruct (String.compare x y); try reflexivity.
  transitivity (y :: x :: l); [constructor|now constructor].
Qed.
Lemma sort_strings_perm l : Permutation l (sort_strings l).
Proof. induction l as [|x l IH]; [reflexivity|]. cbn. transitivity (x :: sort_strings l); [now constructor|apply insert_string_perm]. Qed.
Lemma not_gt_trans a b c : String.compare a b <> Gt -> String.compare b c <> Gt -> String.compare a c <> Gt.
Proof.
  intros A B. destruct (String.compare a b) eqn:E; [|clear A|contradiction].
  - apply String.compare_eq_iff in E. now subst.
  - destruct (String.compare b c) eqn:F; [|clear B|contradiction].
    + apply String.compare_eq_iff in F. subst. congruence.
    + rewrite (compare_trans _ _ _ E F). discriminate.
Qed.
Lemma insert_string_sorted x l : StronglySorted (fun a b => String.compare a b <> Gt) l ->
  StronglySorted (fun a b => String.compare a b <> Gt) (insert_string x l).
Proof.
  induction l as [|y l IH]; intros S; [repeat constructor|]. cbn. inversion S as [|? ? S' F]; subst.
  destruct (String.compare x y) eqn:E.
  - constructor; [exact S|]. constructor; [congruence|]. eapply Forall_impl; [|exact F]. intros z Z. eapply not_gt_trans; [|exact Z]. congruence.
  - constructor; [exact S|]. constructor; [congruence|]. eapply Forall_impl; [|exact F]. intros z Z. eapply not_gt_trans; [|exact Z]. congruence.
  - constructor; [now apply IH|]. apply Forall_forall. intros z Z.
    apply (Permutation_in z (Permutation_sym (insert_string_perm x l))) in Z. destruct Z as [<-|Z].
    + rewrite String.compare_antisym, E. discriminate.
    + rewrite Forall_forall in F. now apply F.
Qed.
Lemma sort_strings_sorted l : StronglySorted (fun a b => String.compare a b <> Gt) (sort_strings l).
Proof. induction l as [|x l IH]; [constructor|]. cbn. now apply insert_string_sorted. Qed.
Lemma sorted_unique : forall a b, Permutation a b -> StronglySorted (fun a b => String.compare a b <> Gt) a ->
  StronglySorted (fun a b => String.compare a b <> Gt) b -> a = b.
Proof.
  induction a as [|x a IH]; intros [|y b] P A B.
  - reflexivity.
  - apply Permutation_nil in P. discriminate.
  - apply Permutation_sym, Permutation_nil in P. discriminate.
  - inversion A as [|? ? A' FA]; inversion B as [|? ? B' FB]; subst.
    assert (E : x = y).
    { assert (I1 : In x (y :: b)) by (eapply Permutation_in; [exact P|now left]).
      assert (I2 : In y (x :: a)) by (eapply Permutation_in; [apply Permutation_sym; exact P|now left]).
      destruct I1 as [->|I1]; [reflexivity|]. destruct I2 as [->|I2]; [reflexivity|].
      rewrite Forall_forall in FA, FB. specialize (FA y I2). specialize (FB x I1). rewrite String.compare_antisym in FB.
      destruct (String.compare x y) eqn:E; [now apply String.compare_eq_iff in E|now destruct FB|now destruct FA]. }
    subst y. f_equal. apply IH; [eapply Permutation_cons_inv; exact P|exact A'|exact B'].
Qed.
Lemma sorted_candidates_iff fs dir exts F :
  Forall (fun e => exists t, e = String "."%char t /\ contains_byte "."%char t = false /\ contains_byte Path.slash t = false) exts ->
  NoDup exts ->
  (sorted_candidates fs dir exts F <-> exists F0, conf_files fs dir exts = Ok F0 /\ F = sort_strings F0).
Proof.
  intros X Y. unfold sorted_candidates. split.
  - intros (F0 & C & P & S). exists F0. split; [now apply conf_files_ok|].
    apply sorted_unique; [|exact S|apply sort_strings_sorted]. transitivity F0; [now apply Permutation_sym|apply sort_strings_perm].
  - intros (F0 & C & ->). exists F0. split; [now apply conf_files_ok|]. split; [apply sort_strings_perm|apply sort_strings_sorted].
Qed.
Lemma find_conf_ok fs name files c : find_conf fs name files = Ok (Some c) <->
  first_loaded (fun f x => conf_from_file fs f = Ok x) (fun x => pc_name (pg_conf x) = name) files c.
Proof.
  induction files as [|f files IH]; cbn [find_conf].
  - split; [discriminate|]. intros H. inversion H.
  - destruct (conf_from_file fs f) as [x|e|] eqn:L; cbn [rbind];
      try (split; [discriminate|intros H; inversion H; congruence]).
    destruct (String.eqb_spec (pc_name (pg_conf x)) name) as [E|N].
    + split; [intros H; injection H as <-; now constructor|]. intros H. inversion H; subst; [congruence|]. rewrite L in H2. injection H2 as <-. contradiction.
    + rewrite IH. split; [intros H; econstructor 2; eassumption|]. intros H. inversion H; subst; [|assumption]. rewrite L in H2. injection H2 as <-. contradiction.
Qed.
Lemma find_conf_list_ok fs name files c : find_conf_list fs name files = Ok (Some c) <->
  first_loaded (fun f x => network_conf_from_file fs f = Ok x) (fun x => nl_name x = name) files c.
Proof.
  induction files as [|f files IH]; cbn [find_conf_list].
  - split; [discriminate|]. intros H. inversion H.
  - destruct (network_conf_from_file fs f) as [x|e|] eqn:L; cbn [rbind];
      try (split; [discriminate|intros H; inversion H; congruence]).
    destruct (String.eqb_spec (nl_name x) name) as [E|N].
    + split; [intros H; injection H as <-; now constructor|]. intros H. inversion H; subst; [congruence|]. rewrite L in H2. injection H2 as <-. contradiction.
    + rewrite IH. split; [intros H; econstructor 2; eassumption|]. intros H. inversion H; subst; [|assumption]. rewrite L in H2. injection H2 as <-. contradiction.
Qed.
Lemma find_conf_list_none fs name files : find_conf_list fs name files = Ok None <->
  none_wanted (fun f x => network_conf_from_file fs f = Ok x) (fun x => nl_name x = name) files.
Proof.
  unfold none_wanted. induction files as [|f files IH]; cbn [find_conf_list].
  - split; [constructor|reflexivity].
  - destruct (network_conf_from_file fs f) as [x|e|] eqn:L; cbn [rbind];
      try (split; [discriminate|intros H; inversion H as [|? ? (y & Y & _)]; congruence]).
    destruct (String.eqb_spec (nl_name x) name) as [E|N].
    + split; [discriminate|]. intros H. inversion H as [|? ? (y & Y & Z)]; subst. rewrite L in Y. injection Y as <-. now destruct Z.
    + rewrite IH. split; [intros H; constructor; [eauto|exact H]|]. intros H. now inversion H.
Qed.
Lemma first_loaded_nonnil {A} (load : string -> A -> Prop) w fs a : first_loaded load w fs a -> fs <> [].
Proof. intros H. inversion H; discriminate. Qed.
Lemma load_network_conf_ok fs dir name l : load_network_conf fs dir name = Ok l <->
  exists F, sorted_candidates fs dir [".conflist"] F /\
    (first_loaded (fun f x => network_conf_from_file fs f = Ok x) (fun x => nl_name x = name) F l \/
     (none_wanted (fun f x => network_conf_from_file fs f = Ok x) (fun x => nl_name x = name) F /\
      exists G c, sorted_candidates fs dir [".conf"; ".json"] G /\
        first_loaded (fun f x => conf_from_file fs f = Ok x) (fun x => pc_name (pg_conf x) = name) G c /\
        conf_list_from_conf c = Ok l)).
Proof.
  pose proof (fun F => sorted_candidates_iff fs dir [".conflist"] F (conf_exts_ok [".conflist"] eq_refl) ltac:(repeat constructor; intros [])) as C1.
  assert (ND : NoDup [".conf"; ".json"]) by (constructor; [intros [X|[]]; discriminate|repeat constructor; intros []]).
  pose proof (fun F => sorted_candidates_iff fs dir [".conf"; ".json"] F (conf_exts_ok [".conf"; ".json"] eq_refl) ND) as C2.
  unfold load_network_conf. split.
  - intros H. destruct (conf_files fs dir [".conflist"]) as [F0|e|]; try discriminate. cbn [rbind] in H.
    exists (sort_strings F0). split; [apply C1; eauto|].
    destruct (find_conf_list fs name (sort_strings F0)) as [[x|]|e|] eqn:FL; try discriminate; cbn [rbind] in H.
    + injection H as ->. left. now apply find_conf_list_ok.
    + right. split; [now apply find_conf_list_none|]. unfold load_conf in H.
      destruct (conf_files fs dir [".conf"; ".json"]) as [G0|e|]; cbn [rbind] in H; [|destruct e, F0; discriminate|discriminate].
      assert (exists c, find_conf fs name (sort_strings G0) = Ok (Some c) /\ conf_list_from_conf c = Ok l) as (c & FC & CL).
      { destruct G0 as [|g G0]; [destruct F0; discriminate|].
        destruct (find_conf fs name (sort_strings (g :: G0))) as [[c|]|e|]; cbn [rbind of_option] in H; [eauto|discriminate| |discriminate].
        destruct e, F0; discriminate. }
      exists (sort_strings G0), c. split; [apply C2; eauto|]. split; [now apply find_conf_ok|exact CL].
  - intros (F & CF & H). apply C1 in CF. destruct CF as (F0 & CF & ->). rewrite CF. cbn [rbind]. destruct H as [H|[H (G & c & CG & FC & CL)]].
    + apply find_conf_list_ok in H. rewrite H. reflexivity.
    + apply find_conf_list_none in H. rewrite H. cbn [rbind]. apply C2 in CG. destruct CG as (G0 & CG & ->).
      unfold load_conf. rewrite CG. cbn [rbind]. destruct G0 as [|g G0]; [now apply first_loaded_nonnil in FC|].
      apply find_conf_ok in FC. rewrite FC. exact CL.
Qed.

(** *** Typing survives re-encoding *)
Definition preserved (P : json -> Prop) : Prop := forall v v', P v -> norm v = Some v' -> P v'.
Lemma norm_in o m k y : norm (JObj o) = Some (JObj m) -> In (k, y) m -> exists x, In (k, x) o /\ norm x = Some y.
Proof.
  intros N I. pose proof (norm_member o m k N) as H.
  assert (S : ssorted m) by (apply norm_canonical in N; apply canonical_obj in N; apply N).
  assert (G : sget k m = Some y) by now apply sorted_in_get. rewrite G in H.
  destruct (last_member k o) as [x|] eqn:L; [|destruct H]. exists x. split; [now apply last_member_in|exact H].
Qed.
Lemma text_preserved : preserved text_or_null.
Proof. intros v v' [->|[s ->]] H; injection H as <-; [now left|right; eauto]. Qed.
Lemma list_preserved P : preserved P -> preserved (list_or_null P).
Proof.
  intros Q v v' [->|(l & -> & F)] H; [injection H as <-; now left|]. rewrite norm_arr in H.
  destruct (norm_all l) as [l'|] eqn:E; [|discriminate]. injection H as <-. right. exists l'. split; [reflexivity|].
  revert l' E. induction F as [|x l X F IH]; intros l' E; [injection E as <-; constructor|]. cbn in E.
  destruct (norm x) as [y|] eqn:Y; [|discriminate]. destruct (norm_all l) as [l2|]; [|discriminate]. injection E as <-.
  constructor; [eapply Q; eassumption|now apply IH].
Qed.
Lemma norm_obj_obj l v : norm (JObj l) = Some v -> exists m, v = JObj m.
Proof. rewrite norm_obj. destruct (norm_pairs l); [|discriminate]. intros H. injection H as <-. eauto. Qed.
Lemma object_preserved (P : string -> json -> Prop) : (forall k, preserved (P k)) -> preserved (object_or_null P).
Proof.
  intros Q v v' [->|(l & -> & F)] H; [injection H as <-; now left|].
  destruct (norm_obj_obj _ _ H) as [m ->]. right. exists m. split; [reflexivity|]. intros k y I.
  destruct (norm_in _ _ _ _ H I) as (x & X & N). eapply Q; [|exact N]. now apply F.
Qed.
Lemma fields_preserved fs : (forall f P, In (f, P) fs -> preserved P) -> forall k, preserved (fields_ok fs k).
Proof. intros Q k v v' H N f P I K. eapply Q; [exact I|now apply (H f P)|exact N]. Qed.
Ltac pres := let I := fresh in intros ? ? I; cbn [In] in I;
  repeat match goal with H : _ \/ _ |- _ => destruct H as [H|H]; [injection H as <- <-|] end; try (destruct I; fail);
  auto using text_preserved, list_preserved.
Lemma plugin_fields_preserved k : preserved (fields_ok plugin_fields k).
Proof.
  apply fields_preserved. unfold plugin_fields. pres; try apply text_preserved.
  - apply object_preserved. intros _ v v' [->|[b ->]] H; injection H as <-; eauto.
  - apply object_preserved. apply fields_preserved. pres.
  - apply object_preserved. apply fields_preserved. unfold dns_fields. pres.
  - apply object_preserved. intros _ v v' _ H. exists v'. apply norm_canonical in H. now apply canonical_norm.
  - apply list_preserved, object_preserved. apply fields_preserved. unfold attachment_fields. pres.
Qed.

(** *** ConfListFromConf *)
Lemma decode_strings l : forall c c', decode_members plugin_conf_step c l = Some c' ->
  (pc_name c' = pc_name c \/ exists k, In (k, JStr (pc_name c')) l) /\
  (pc_version c' = pc_version c \/ exists k, In (k, JStr (pc_version c')) l).
Proof.
  induction l as [|[k v] l IH]; intros c c' H; [injection H as <-; auto|].
  rewrite decode_members_cons in H. destruct (plugin_conf_step c k v) as [b|] eqn:E; [|discriminate].
  destruct (IH _ _ H) as [A B]. split.
  - destruct A as [A|[q A]]; [|right; exists q; now right]. rewrite A. destruct (key_is "name" k) eqn:K; [|left; eapply step_name_keep; eassumption].
    unfold plugin_conf_step in E. rewrite (key_is_excl "name" "cniVersion" k), K in E by (discriminate || assumption).
    destruct v; try discriminate; cbn in E; injection E as <-; cbn; [now left|right; exists k; now left].
  - destruct B as [B|[q B]]; [|right; exists q; now right]. rewrite B. destruct (key_is "cniVersion" k) eqn:K; [|left; eapply step_version_keep; eassumption].
    unfold plugin_conf_step in E. rewrite K in E.
    destruct v; try discriminate; cbn in E; injection E as <-; cbn; [now left|right; exists k; now left].
Qed.
Lemma dec_strings_wft o c : jwf (JObj o) -> dec_plugin_conf (JObj o) = Some c -> well_formed_text (pc_name c) /\ well_formed_text (pc_version c).
Proof.
  intros W D. apply jwf_obj in W. rewrite Forall_forall in W. apply decode_strings in D. destruct D as [A B]. split.
  - destruct A as [->|[k I]]; [constructor|]. now apply (W _ I).
  - destruct B as [->|[k I]]; [constructor|]. now apply (W _ I).
Qed.
Lemma plugin_from_doc b c : plugin_conf_from_bytes b = Ok c ->
  exists o, parse b = Some (JObj o) /\ dec_plugin_conf (JObj o) = Some (pg_conf c) /\ pc_type (pg_conf c) <> "" /\ pg_bytes c = b.
Proof.
  intros H. apply plugin_from_ok in H. destruct H as (x & U & T & ->). unfold unmarshal_plugin_conf in U.
  destruct (parse b) as [j|]; [|discriminate]. destruct j; try discriminate; [injection U as <-; now destruct T|]. eauto 6.
Qed.
Lemma conf_list_raw c m : canonical (JObj m) -> jwf (JObj m) -> (jdepth (JObj m) <= 9998)%N ->
  well_formed_text (pc_name (pg_conf c)) -> well_formed_text (pc_version (pg_conf c)) ->
  unmarshal_map (pg_bytes c) = Some (Some m) ->
  exists b, unmarshal_map b = Some (Some [("cniVersion", JStr (pc_version (pg_conf c))); ("name", JStr (pc_name (pg_conf c))); ("plugins", JArr [JObj m])]) /\
    conf_list_from_conf c = network_conf_from_bytes b.
Proof.
  intros C W D Wn Wv U. unfold conf_list_from_conf. rewrite U. eexists. split; [|reflexivity].
  change (sset_all _ _) with [("cniVersion", JStr (pc_version (pg_conf c))); ("name", JStr (pc_name (pg_conf c))); ("plugins", JArr [JObj m])].
  apply unmarshal_map_print.
  - apply canonical_obj. split; [cbn; tauto|]. repeat (apply Forall_cons; [exact I|]). apply Forall_cons; [|constructor].
    cbn [snd]. apply canonical_arr. constructor; [exact C|constructor].
  - split.
    + apply jwf_obj. repeat (apply Forall_cons; [split; [apply valid_utf8_wf; reflexivity|assumption]|]).
      apply Forall_cons; [|constructor]. split; [apply valid_utf8_wf; reflexivity|]. apply jwf_arr. constructor; [exact W|constructor].
    + change 10000%N with (N.succ 9999). apply jdepth_obj.
      repeat (apply Forall_cons; [cbn; lia|]). apply Forall_cons; [|constructor]. cbn [snd].
      change 9999%N with (N.succ 9998). apply jdepth_arr. constructor; [exact D|constructor].
Qed.
Lemma conf_list_from_conf_ok b c o m l : plugin_conf_from_bytes b = Ok c -> parse b = Some (JObj o) ->
  reencoded (JObj o) (JObj m) -> (jdepth (JObj o) <= 9998)%N ->
  (conf_list_from_conf c = Ok l <->
   nl_name l = pc_name (pg_conf c) /\ nl_version l = pc_version (pg_conf c) /\
   nl_disable_check l = false /\ nl_disable_gc l = false /\ nl_only_inlined l = false /\
   unmarshal_map (nl_bytes l) = Some (Some [("cniVersion", JStr (pc_version (pg_conf c))); ("name", JStr (pc_name (pg_conf c))); ("plugins", JArr [JObj m])]) /\
   nl_bytes l = print (JObj [("cniVersion", JStr (pc_version (pg_conf c))); ("name", JStr (pc_name (pg_conf c))); ("plugins", JArr [JObj m])]) /\
   exists p, nl_plugins l = [p] /\ pg_bytes p = print (JObj m) /\ dec_plugin_conf (JObj m) = Some (pg_conf p) /\ pc_type (pg_conf p) <> "").
Proof.
  intros PB P R D. destruct (plugin_from_doc _ _ PB) as (o' & P' & DC & T & EB). rewrite P in P'. injection P' as <-.
  pose proof (parse_encodable _ _ P) as [W _]. destruct (dec_strings_wft _ _ W DC) as [Wn Wv].
  destruct (norm_encodable _ _ R W) as [Wm Dm].
  assert (U : unmarshal_map (pg_bytes c) = Some (Some m)).
  { apply unmarshal_map_some. exists (JObj o). rewrite EB. auto. }
  destruct (conf_list_raw c m (norm_canonical _ _ R) Wm (N.le_trans _ _ _ Dm D) Wn Wv U) as (b' & U' & E).
  assert (E' : conf_list_from_conf c = network_conf_from_bytes (print (JObj [("cniVersion", JStr (pc_version (pg_conf c))); ("name", JStr (pc_name (pg_conf c))); ("plugins", JArr [JObj m])]))).
  { unfold conf_list_from_conf. rewrite U. reflexivity. }
  assert (UP : unmarshal_map (print (JObj [("cniVersion", JStr (pc_version (pg_conf c))); ("name", JStr (pc_name (pg_conf c))); ("plugins", JArr [JObj m])])) =
     Some (Some [("cniVersion", JStr (pc_version (pg_conf c))); ("name", JStr (pc_name (pg_conf c))); ("plugins", JArr [JObj m])])).
  { pose proof (unmarshal_map_canonical _ _ U') as [A B]. now apply unmarshal_map_print. }
  rewrite E'. rewrite (network_conf_ok _ _ l UP). unfold select_version, option_is. cbn [sget String.eqb Ascii.eqb Bool.eqb rbind]. split.
  - intros (A1 & A2 & A3 & A4 & A5 & A6 & [(A7 & _)|(ps & A7 & _ & F)]); [discriminate|]. injection A7 as <-.
    inversion F as [|? p ? q (B1 & B2 & B3) F']; subst. inversion F'; subst.
    injection A1 as A1. injection A2 as A2. rewrite A6. repeat (split; [congruence || exact UP|]). exists p. auto.
  - intros (A1 & A2 & A3 & A4 & A5 & _ & A6 & p & A7 & A8 & A9 & A10). rewrite A1, A2.
    repeat (split; [auto|]). right. exists [JObj m]. split; [reflexivity|]. split; [discriminate|]. rewrite A7. repeat constructor; assumption.
Qed.
Lemma nodup_last_member k v (o : list (string * json)) : NoDup (map fst o) -> In (k, v) o -> last_member k o = Some v.
Proof.
  induction o as [|[k' v'] o IH]; intros N I; [destruct I|]. cbn in N. inversion N as [|? ? A B]; subst. cbn. destruct I as [I|I].
  - injection I as -> ->. destruct (last_member k o) as [x|] eqn:L; [|now rewrite String.eqb_refl].
    exfalso. apply A. apply last_member_in in L. change k with (fst (k, x)). now apply in_map.
  - now rewrite (IH B I).
Qed.
Lemma retyped o m c : NoDup (map fst o) -> only_spelling "type" o -> norm (JObj o) = Some (JObj m) ->
  dec_plugin_conf (JObj o) = Some c -> pc_type c <> "" ->
  exists c', dec_plugin_conf (JObj m) = Some c' /\ pc_type c' = pc_type c.
Proof.
  intros ND OS N D T.
  assert (F : object_or_null (fields_ok plugin_fields) (JObj o)) by (apply dec_plugin_conf_defined; rewrite D; apply defined_some).
  pose proof (object_preserved _ plugin_fields_preserved _ _ F N) as F'. apply dec_plugin_conf_defined in F'. destruct F' as [c' D'].
  exists c'. split; [exact D'|]. eapply dec_says_type; [exact D'|].
  destruct (dec_type_says _ _ D T) as (l1 & k & l2 & E & K & _).
  assert (I : In (k, JStr (pc_type c)) o) by (rewrite E; apply in_or_app; right; now left).
  rewrite (OS _ _ I K) in I. pose proof (nodup_last_member _ _ _ ND I) as L.
  pose proof (norm_member _ _ "type" N) as M. rewrite L in M. destruct (sget "type" m) as [y|] eqn:G; [|destruct M].
  injection M as <-. assert (S : ssorted m) by (apply norm_canonical in N; apply canonical_obj in N; apply N).
  destruct (split_sorted _ _ _ S G) as (a & b & E2 & _ & A2). exists a, "type", b. split; [exact E2|]. split; [reflexivity|].
  intros k' v I' K'. exfalso. assert (I2 : In (k', v) m) by (rewrite E2; apply in_or_app; right; now right).
  destruct (norm_in _ _ _ _ N I2) as (x & I3 & _). rewrite (OS _ _ I3 K') in I'.
  assert (L' : String.compare "type" "type" = Lt) by (eapply A2; exact I'). discriminate.
Qed.

(** *** Injecting twice *)
Lemma gvals_app a b : gvals (a ++ b) = (gvals a ++ gvals b)%list. Proof. apply map_app. Qed.
Lemma inject_twice orig a b mid : inject_conf orig (gvals a) = Ok mid ->
  Forall (fun kj => well_formed_text (fst kj) /\ injectable (snd kj) /\ reencoded (snd kj) (snd kj)) a ->
  inject_conf mid (gvals b) = inject_conf orig (gvals (a ++ b)).
Proof.
  intros H F. apply inject_ok in H. destruct H as (m & kvs & c & U & E & K & D & T & ->).
  assert (kvs = a).
  { clear - E. unfold gvals in E. revert kvs E. induction a as [|[k j] l IH]; intros [|[k' j'] l'] E; try discriminate; [reflexivity|].
    cbn in E. injection E as -> -> E. f_equal. now apply IH. }
  subst kvs. destruct (unmarshal_map_canonical _ _ U) as [C En].
  assert (C' : canonical (JObj (sset_all a m))).
  { apply inject_canonical; [|exact C]. eapply Forall_impl; [|exact F]. intros kj (_ & _ & R). eapply norm_canonical. exact R. }
  assert (En' : encodable (JObj (sset_all a m))).
  { apply inject_encodable; [|exact En]. eapply Forall_impl; [|exact F]. intros kj (A & [B B'] & _). split; [exact A|]. split; [exact B|]. lia. }
  unfold inject_conf. cbn [pg_bytes]. rewrite (unmarshal_map_print _ C' En'), U.
  rewrite !gvals_check. rewrite existsb_app. apply keys_ok_iff in K. rewrite K. cbn [orb].
  destruct (existsb _ b); [reflexivity|]. cbn [rbind]. rewrite (proj2 (encode_all_some (gvals b) b) eq_refl).
  rewrite (proj2 (encode_all_some (gvals (a ++ b)) (a ++ b)) eq_refl). now rewrite sset_all_app.
Qed.

(** *** What is reported when nothing is found *)
Lemma find_conf_none fs name files : find_conf fs name files = Ok None <->
  none_wanted (fun f x => conf_from_file fs f = Ok x) (fun x => pc_name (pg_conf x) = name) files.
Proof.
  unfold none_wanted. induction files as [|f files IH]; cbn [find_conf].
  - split; [constructor|reflexivity].
  - destruct (conf_from_file fs f) as [x|e|] eqn:L; cbn [rbind];
      try (split; [discriminate|intros H; inversion H as [|? ? (y & Y & _)]; congruence]).
    destruct (String.eqb_spec (pc_name (pg_conf x)) name) as [E|N].
    + split; [discriminate|]. intros H. inversion H as [|? ? (y & Y & Z)]; subst. rewrite L in Y. injection Y as <-. now destruct Z.
    + rewrite IH. split; [intros H; constructor; [eauto|exact H]|]. intros H. now inversion H.
Qed.
Lemma sorted_nil l : sort_strings l = [] <-> l = [].
Proof. split; [|intros ->; reflexivity]. intros H. pose proof (sort_strings_perm l) as P. rewrite H in P. now apply Permutation_sym, Permutation_nil in P. Qed.
Lemma conf_not_special fs f e : conf_from_file fs f = Err e -> forall d, e <> ENoConfigs d.
Proof.
  unfold conf_from_file. intros H d ->. destruct (fs_read_file fs f) as [b|e|]; cbn [rwrap rbind] in H; [|discriminate..].
  unfold plugin_conf_from_bytes in H. destruct (unmarshal_plugin_conf b) as [c|]; [|discriminate]. destruct (String.eqb (pc_type c) ""); discriminate.
Qed.
Lemma find_list_broken fs name F1 f F2 e : none_wanted (fun f x => network_conf_from_file fs f = Ok x) (fun x => nl_name x = name) F1 ->
  network_conf_from_file fs f = Err e -> find_conf_list fs name (F1 ++ f :: F2) = Err e.
Proof.
  intros N E. induction N as [|g F1 (x & L & NE) _ IH]; cbn [app find_conf_list]; [rewrite E; reflexivity|]. rewrite L. cbn [rbind].
  destruct (String.eqb_spec (nl_name x) name); [contradiction|exact IH].
Qed.
Lemma find_conf_broken fs name F1 f F2 e : none_wanted (fun f x => conf_from_file fs f = Ok x) (fun x => pc_name (pg_conf x) = name) F1 ->
  conf_from_file fs f = Err e -> find_conf fs name (F1 ++ f :: F2) = Err e.
Proof.
  intros N E. induction N as [|g F1 (x & L & NE) _ IH]; cbn [app find_conf]; [rewrite E; reflexivity|]. rewrite L. cbn [rbind].
  destruct (String.eqb_spec (pc_name (pg_conf x)) name); [contradiction|exact IH].
Qed.
Lemma conflists fs dir F : sorted_candidates fs dir [".conflist"] F <-> exists F0, conf_files fs dir [".conflist"] = Ok F0 /\ F = sort_strings F0.
Proof. apply sorted_candidates_iff; [exact (conf_exts_ok [".conflist"] eq_refl)|repeat constructor; intros []]. Qed.
Lemma confs fs dir F : sorted_candidates fs dir [".conf"; ".json"] F <-> exists F0, conf_files fs dir [".conf"; ".json"] = Ok F0 /\ F = sort_strings F0.
Proof. apply sorted_candidates_iff; [exact (conf_exts_ok [".conf"; ".json"] eq_refl)|constructor; [intros [X|[]]; discriminate|repeat constructor; intros []]]. Qed.
Lemma not_found fs dir name F G : sorted_candidates fs dir [".conflist"] F -> sorted_candidates fs dir [".conf"; ".json"] G ->
  none_wanted (fun f x => network_conf_from_file fs f = Ok x) (fun x => nl_name x = name) F ->
  none_wanted (fun f x => conf_from_file fs f = Ok x) (fun x => pc_name (pg_conf x) = name) G ->
  load_network_conf fs dir name = Err (match F, G with [], [] => ENoConfigs dir | _, _ => ENotFound dir name end).
Proof.
  intros HF HG NF NG. apply conflists in HF as (F0 & E & ->). apply confs in HG as (G0 & E' & ->). apply find_conf_list_none in NF. apply find_conf_none in NG.
  unfold load_network_conf, load_conf. rewrite E. cbn [rbind]. rewrite NF, E'. cbn [rbind]. destruct G0 as [|g G0].
  - destruct F0 as [|f F0]; [reflexivity|]. destruct (sort_strings (f :: F0)) eqn:S; [|reflexivity]. apply (proj1 (sorted_nil _)) in S. discriminate S.
  - rewrite NG. cbn [rbind of_option]. destruct (sort_strings (g :: G0)) eqn:S; [apply (proj1 (sorted_nil _)) in S; discriminate S|].
    destruct F0; destruct (sort_strings _); reflexivity.
Qed.
Lemma broken_list fs dir name F1 f F2 e : sorted_candidates fs dir [".conflist"] (F1 ++ f :: F2) ->
  none_wanted (fun f x => network_conf_from_file fs f = Ok x) (fun x => nl_name x = name) F1 -> network_conf_from_file fs f = Err e ->
  load_network_conf fs dir name = Err e.
Proof.
  intros HF N E. apply conflists in HF as (F0 & C & S). unfold load_network_conf. rewrite C. cbn [rbind]. rewrite <- S, (find_list_broken _ _ _ _ _ _ N E). reflexivity.
Qed.
Lemma broken_conf fs dir name F G1 f G2 e : sorted_candidates fs dir [".conflist"] F -> sorted_candidates fs dir [".conf"; ".json"] (G1 ++ f :: G2) ->
  none_wanted (fun f x => network_conf_from_file fs f = Ok x) (fun x => nl_name x = name) F ->
  none_wanted (fun f x => conf_from_file fs f = Ok x) (fun x => pc_name (pg_conf x) = name) G1 -> conf_from_file fs f = Err e ->
  load_network_conf fs dir name = Err e.
Proof.
  intros HF HG NF NG E. apply conflists in HF as (F0 & C & ->). apply confs in HG as (G0 & C' & S). apply find_conf_list_none in NF.
  unfold load_network_conf, load_conf. rewrite C. cbn [rbind]. rewrite NF, C'. cbn [rbind].
  destruct G0 as [|g G0]; [destruct G1; discriminate S|]. rewrite <- S, (find_conf_broken _ _ _ _ _ _ NG E). cbn [rbind].
  pose proof (conf_not_special _ _ _ E) as K. destruct e; try (destruct F0; reflexivity). exfalso. exact (K _ eq_refl).
Qed.
