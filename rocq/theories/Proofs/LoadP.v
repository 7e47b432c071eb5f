(** Loading configurations. *)
From Coq Require Import String Ascii List Arith ZArith NArith Bool Lia Permutation Sorted.
From Verif Require Import Model.GoStr Model.Utf8 Model.Errors Model.Version Model.Path Model.Json Model.Num Model.GoJson
  Model.NetIP Model.Types Model.Conf
  Spec.VersionSpec Spec.NameSpec Spec.JsonSpec Spec.ConfSpec Spec.PathSpec
  Proofs.StrP Proofs.VersionP Proofs.SelectP Proofs.Utf8P Proofs.JsonP Proofs.JsonRT Proofs.NumP Proofs.GoJsonP Proofs.EnvP Proofs.ConfP
  Proofs.PathP.
Import ListNotations.
Open Scope nat_scope.
Open Scope string_scope.

(** *** Typing of struct decoding *)
Definition defined {A} (o : option A) : Prop := exists a, o = Some a.
Lemma defined_map {A B} (f : A -> B) o : defined (option_map f o) <-> defined o.
Proof. destruct o; unfold defined; cbn; split; intros [x H]; try discriminate; eauto. Qed.
Lemma defined_some {A} (a : A) : defined (Some a). Proof. now exists a. Qed.
Lemma decode_members_defined {A} (step : A -> string -> json -> option A) (ok : string -> json -> Prop) :
  (forall a k v, defined (step a k v) <-> ok k v) ->
  forall l a, defined (decode_members step a l) <-> (forall k v, In (k, v) l -> ok k v).
Proof.
  intros H. induction l as [|[k v] l IH]; intros a.
  - rewrite decode_members_nil. split; [intros _ ? ? []|intros _; apply defined_some].
  - rewrite decode_members_cons. specialize (H a k v). destruct (step a k v) as [b|].
    + rewrite IH. split.
      * intros F k' v' [E|I]; [injection E as <- <-; apply H; apply defined_some|auto].
      * intros F k' v' I. apply F. now right.
    + split; [intros [x X]; discriminate|]. intros F. apply H. apply F. now left.
Qed.
Lemma decode_struct_defined {A} (step : A -> string -> json -> option A) (ok : string -> json -> Prop) zero j :
  (forall a k v, defined (step a k v) <-> ok k v) ->
  (defined (decode_struct step zero j) <-> object_or_null ok j).
Proof.
  intros H. unfold object_or_null, decode_struct.
  destruct j as [| | | | |l];
    try (split; [intros [x X]; discriminate|intros [X|(lx & X & _)]; discriminate]).
  - split; [auto|intros _; apply defined_some].
  - cbv beta iota. rewrite (decode_members_defined step ok H). split; [eauto|]. intros [X|(l' & X & F)]; [discriminate|]. now injection X as ->.
Qed.
Lemma dec_string_defined cur v : defined (dec_string cur v) <-> text_or_null v.
Proof.
  unfold text_or_null. destruct v; cbn; (split; [intros [x X]; try discriminate; eauto|intros [X|[sx X]]; try discriminate; apply defined_some]).
Qed.
Lemma dec_all_defined {A} (dec : json -> option A) (ok : json -> Prop) l : (forall j, defined (dec j) <-> ok j) ->
  (defined (dec_all dec l) <-> Forall ok l).
Proof.
  intros H. induction l as [|x l IH]; cbn; [split; [constructor|intros _; apply defined_some]|].
  specialize (H x). destruct (dec x) as [a|]; [destruct (dec_all dec l) as [l'|]|].
  - split; [|intros _; apply defined_some]. intros _. constructor; [apply H|apply IH]; apply defined_some.
  - split; [intros [z Z]; discriminate|]. intros F. inversion F; subst. apply IH in H3. destruct H3; discriminate.
  - split; [intros [z Z]; discriminate|]. intros F. inversion F; subst. apply H in H2. destruct H2; discriminate.
Qed.
Lemma dec_list_defined {A} (dec : json -> option A) (ok : json -> Prop) j : (forall j, defined (dec j) <-> ok j) ->
  (defined (dec_list dec j) <-> list_or_null ok j).
Proof.
  intros H. unfold list_or_null. destruct j as [| | | |l|];
    try (split; [intros [x X]; discriminate|intros [X|(lx & X & _)]; discriminate]).
  - split; [auto|intros _; apply defined_some].
  - cbn. rewrite (dec_all_defined dec ok l H). split; [eauto|]. intros [X|(l' & X & F)]; [discriminate|]. now injection X as ->.
Qed.
Lemma dec_map_bool_defined cur j : defined (dec_map_bool cur j) <-> object_or_null (fun _ v => v = JNull \/ exists b, v = JBool b) j.
Proof.
  unfold object_or_null. destruct j as [| | | | |l];
    try (split; [intros [x X]; discriminate|intros [X|(lx & X & _)]; discriminate]).
  - split; [auto|intros _; apply defined_some].
  - cbn [dec_map_bool]. rewrite (decode_members_defined _ (fun _ v => v = JNull \/ exists b, v = JBool b)).
    + split; [eauto|]. intros [X|(l' & X & F)]; [discriminate|]. now injection X as ->.
    + intros a k v. destruct v; cbn; (split; [intros [x X]; try discriminate; eauto|intros [X|[sx X]]; try discriminate; apply defined_some]).
Qed.
Lemma dec_map_any_defined cur j : defined (dec_map_any cur j) <-> object_or_null (fun _ v => exists y, reencoded v y) j.
Proof.
  unfold object_or_null. destruct j as [| | | | |l];
    try (split; [intros [x X]; discriminate|intros [X|(lx & X & _)]; discriminate]).
  - split; [auto|intros _; apply defined_some].
  - cbn [dec_map_any]. rewrite defined_map, (decode_members_defined _ (fun _ v => exists y, reencoded v y)).
    + split; [eauto|]. intros [X|(l' & X & F)]; [discriminate|]. now injection X as ->.
    + intros a k v. unfold reencoded. destruct (norm v); (split; [intros [x X]; try discriminate; eauto|intros [y X]; try discriminate; apply defined_some]).
Qed.
(** A chain of [if key_is] tests against a field table. *)
Lemma fields_cons f P fs k v : (forall g Q, In (g, Q) fs -> fold_key f <> fold_key g) ->
  (fields_ok ((f, P) :: fs) k v <-> if key_is f k then P v else fields_ok fs k v).
Proof.
  intros D. unfold fields_ok. destruct (key_is f k) eqn:K.
  - split; [intros H; apply (H f P); [now left|exact K]|]. intros H g Q [E|I] KG; [injection E as <- <-; exact H|].
    rewrite (key_is_excl f g k (D _ _ I) K) in KG. discriminate.
  - split; [intros H g Q I; exact (H g Q (or_intror I))|]. intros H g Q [E|I] KG; [injection E as <- <-; congruence|exact (H g Q I KG)].
Qed.
Lemma fields_nil k v : fields_ok [] k v <-> True.
Proof. split; [auto|]. intros _ f P []. Qed.
Ltac distinct_fields := let I := fresh in let E := fresh in
  intros ? ? I; cbn [In] in I;
  repeat match goal with H : _ \/ _ |- _ => destruct H as [E|H]; [injection E as <- <-; discriminate|] end; destruct I.
Ltac field_chain := repeat (rewrite fields_cons by distinct_fields;
    match goal with |- context [if key_is ?f ?k then _ else _] => destruct (key_is f k) end);
  rewrite ?fields_nil, ?defined_map, ?dec_string_defined.
Lemma dec_ipam_defined cur j : defined (dec_ipam cur j) <-> object_or_null (fields_ok [("type", text_or_null)]) j.
Proof.
  unfold dec_ipam. apply decode_struct_defined. intros a k v. field_chain; [reflexivity|]. split; [auto|intros _; apply defined_some].
Qed.
Lemma dec_strs_defined j : defined (dec_strs j) <-> list_or_null text_or_null j.
Proof. unfold dec_strs. apply dec_list_defined. intros x. apply dec_string_defined. Qed.
Lemma dec_dns_defined cur j : defined (dec_dns cur j) <-> object_or_null (fields_ok dns_fields) j.
Proof.
  unfold dec_dns, dns_fields. apply decode_struct_defined. intros a k v. field_chain; rewrite ?dec_strs_defined; try reflexivity.
  split; [auto|intros _; apply defined_some].
Qed.
Lemma dec_gc_attachment_defined j : defined (dec_gc_attachment j) <-> object_or_null (fields_ok attachment_fields) j.
Proof.
  unfold dec_gc_attachment, attachment_fields. apply decode_struct_defined. intros a k v. field_chain; try reflexivity.
  split; [auto|intros _; apply defined_some].
Qed.
Lemma step_defined c k v : defined (plugin_conf_step c k v) <-> fields_ok plugin_fields k v.
Proof.
  unfold plugin_conf_step, plugin_fields. field_chain; rewrite ?dec_map_bool_defined, ?dec_ipam_defined, ?dec_dns_defined, ?dec_map_any_defined;
    try reflexivity.
  - apply dec_list_defined. apply dec_gc_attachment_defined.
  - split; [auto|intros _; apply defined_some].
Qed.
Lemma dec_plugin_conf_defined j : defined (dec_plugin_conf j) <-> object_or_null (fields_ok plugin_fields) j.
Proof. unfold dec_plugin_conf. apply decode_struct_defined. apply step_defined. Qed.

(** The string fields. *)
Lemma step_type c k v c' : plugin_conf_step c k v = Some c' -> key_is "type" k = true ->
  dec_string (pc_type c) v = Some (pc_type c').
Proof.
  unfold plugin_conf_step. intros H K.
  rewrite (key_is_excl "type" "cniVersion" k), (key_is_excl "type" "name" k), K in H by (discriminate || assumption).
  destruct (dec_string (pc_type c) v); [|discriminate]. now injection H as <-.
Qed.
Lemma decode_type l : forall c c', decode_members plugin_conf_step c l = Some c' ->
  (says "type" l (pc_type c') \/ (pc_type c' = pc_type c /\ forall k v, In (k, v) l -> key_is "type" k = true -> v = JNull)).
Proof.
  induction l as [|[k v] l IH]; intros c c' H.
  - injection H as <-. right. split; [reflexivity|]. intros ? ? [].
  - rewrite decode_members_cons in H. destruct (plugin_conf_step c k v) as [b|] eqn:E; [|discriminate].
    destruct (IH _ _ H) as [(l1 & k' & l2 & -> & K & R)|[T R]].
    + left. exists ((k, v) :: l1), k', l2. auto.
    + destruct (key_is "type" k) eqn:K.
      * pose proof (step_type _ _ _ _ E K) as D. destruct v; try discriminate; cbn in D; injection D as D.
        -- right. split; [congruence|]. intros k' v' [X|I] K'; [now injection X as <- <-|eauto].
        -- left. exists [], k, l. rewrite T, <- D. auto.
      * right. split; [now rewrite T, (step_type_keep _ _ _ _ E K)|].
        intros k' v' [X|I] K'; [injection X as <- <-; congruence|eauto].
Qed.
Lemma says_fun f o s t : says f o s -> says f o t -> s = t.
Proof.
  intros (l1 & k & l2 & E & K & R) (l1' & k' & l2' & E' & K' & R'). subst o.
  revert l1' E'. induction l1 as [|x l1 IH]; intros [|x' l1'] E'; cbn in E'.
  - injection E' as -> -> ->. reflexivity.
  - injection E' as <- E2. subst l2. assert (JStr t = JNull) by (eapply R; [apply in_or_app; right; now left|exact K']). discriminate.
  - injection E' as -> E2. subst l2'. assert (JStr s = JNull) by (eapply R'; [apply in_or_app; right; now left|exact K]). discriminate.
  - injection E' as _ E2. eapply IH. exact E2.
Qed.
Lemma dec_type_says o c : dec_plugin_conf (JObj o) = Some c -> pc_type c <> "" -> says "type" o (pc_type c).
Proof.
  unfold dec_plugin_conf, decode_struct. intros H N. destruct (decode_type _ _ _ H) as [S|[E _]]; [exact S|].
  exfalso. apply N. now rewrite E.
Qed.
Lemma dec_says_type o c t : dec_plugin_conf (JObj o) = Some c -> says "type" o t -> pc_type c = t.
Proof.
  unfold dec_plugin_conf, decode_struct. intros H S. destruct (decode_type _ _ _ H) as [S'|[_ A]]; [eapply says_fun; eassumption|].
  destruct S as (l1 & k & l2 & -> & K & _). assert (JStr t = JNull) by (eapply A; [apply in_or_app; right; now left|exact K]). discriminate.
Qed.
Lemma plugin_object_iff j : plugin_object j <-> exists c, dec_plugin_conf j = Some c /\ pc_type c <> "".
Proof.
  split.
  - intros (o & t & -> & F & S & N).
    assert (D : defined (dec_plugin_conf (JObj o))) by (apply dec_plugin_conf_defined; right; eauto).
    destruct D as [c D]. exists c. split; [exact D|]. now rewrite (dec_says_type _ _ _ D S).
  - intros (c & D & N). assert (X : defined (dec_plugin_conf j)) by (rewrite D; apply defined_some).
    apply dec_plugin_conf_defined in X. destruct X as [->|(o & -> & F)]; [injection D as <-; now destruct N|].
    exists o, (pc_type c). split; [reflexivity|]. split; [exact F|]. split; [now apply dec_type_says|exact N].
Qed.

(** *** NetworkConfFromBytes *)
Lemma decodes_iff b m : decodes_to b m <-> unmarshal_map b = Some (Some m).
Proof.
  rewrite unmarshal_map_some. unfold decodes_to, reencoded. split.
  - intros (o & P & N). exists (JObj o). auto.
  - intros (j & P & O & N). destruct j; try discriminate. eauto.
Qed.
Lemma option_is_iff m key b : option_is m key b <-> read_bool m key = Ok b.
Proof.
  unfold option_is, read_bool. destruct (sget key m) as [[|x| |s| |]|]; try (split; [tauto|discriminate]).
  - split; [intros <-; reflexivity|intros H; now injection H].
  - destruct (String.eqb_spec (to_lower s) "false") as [E|N].
    + rewrite E. destruct b; split; try discriminate; reflexivity.
    + destruct (String.eqb_spec (to_lower s) "true") as [E|N2].
      * rewrite E. destruct b; split; try discriminate; reflexivity.
      * destruct b; split; try discriminate; contradiction.
  - split; [intros ->; reflexivity|intros H; now injection H].
Qed.
Lemma read_bool_not_panic m k : read_bool m k <> Panic.
Proof. unfold read_bool. destruct (sget k m) as [[| | | s| |]|]; try discriminate. destruct (String.eqb _ _); [discriminate|]. destruct (String.eqb _ _); discriminate. Qed.
Lemma wf_current : well_formed_version current_version.
Proof. exists (1, 1, 0)%Z. apply parse_version_spec. reflexivity. Qed.
Lemma gt_current_wf v : (exists g, gt v current_version = Ok g) <-> well_formed_version v.
Proof.
  split.
  - intros [g H]. unfold gt in H. destruct (parse_version v) as [t|e|] eqn:E; [|discriminate..]. exists t. now apply parse_version_spec.
  - intros W. destruct (gt_wf v current_version W wf_current); eauto.
Qed.
Lemma usable_versions_defined rvs : (exists vs, usable_versions rvs = Ok vs) <->
  Forall (fun j => exists v, j = JStr v /\ well_formed_version v) rvs.
Proof.
  induction rvs as [|j rvs IH]; cbn [usable_versions].
  - split; [constructor|eauto].
  - destruct j as [| | |v| |]; try (split; [intros [x X]; discriminate|intros F; inversion F as [|? ? (w & X & _)]; discriminate]).
    pose proof (gt_current_wf v) as W. destruct (gt v current_version) as [g|e|].
    + destruct (usable_versions rvs) as [vs|e|] eqn:U; cbn [rbind].
      * split; [intros _|eauto]. constructor; [exists v; split; [reflexivity|apply W; eauto]|apply IH; eauto].
      * split; [intros [x X]; discriminate|]. intros F. inversion F as [|? ? _ F']; subst. apply IH in F'. destruct F'; discriminate.
      * split; [intros [x X]; discriminate|]. intros F. inversion F as [|? ? _ F']; subst. apply IH in F'. destruct F'; discriminate.
    + split; [intros [x X]; discriminate|]. intros F. inversion F as [|? ? (w & X & Wv) _]; subst. injection X as <-.
      apply W in Wv. destruct Wv; discriminate.
    + split; [intros [x X]; discriminate|]. intros F. inversion F as [|? ? (w & X & Wv) _]; subst. injection X as <-.
      apply W in Wv. destruct Wv; discriminate.
Qed.
Lemma select_version_defined m : (exists v, select_version m = Ok v) <->
  (sget "cniVersion" m = None \/ exists v, sget "cniVersion" m = Some (JStr v)) /\
  (sget "cniVersions" m = None \/
   exists vs, sget "cniVersions" m = Some (JArr vs) /\
     Forall (fun j => exists v, j = JStr v /\ well_formed_version v) vs /\
     well_formed_version (declared_of m)).
Proof.
  unfold select_version, declared_of.
  assert (W0 : well_formed_version "") by (exists (0,1,0)%Z; constructor).
  assert (G : forall d, (exists v, match sget "cniVersions" m with
  | None => Ok d
  | Some (JArr rvs) =>
      let! vs := usable_versions rvs in
      let! vs :=
        if String.eqb d "" then Ok vs
        else match gt d current_version with
             | Ok g => Ok (if g then vs else (vs ++ [d])%list)
             | _ => Err (EMsg "error parsing configuration list: invalid cniVersion")
             end in
      let sorted := sort_versions vs in
      Ok (match sorted with [] => d | _ => last sorted "" end)
  | Some _ => Err (EMsg "error parsing configuration list: invalid type for cniVersions")
  end = Ok v) <-> (sget "cniVersions" m = None \/
   exists vs, sget "cniVersions" m = Some (JArr vs) /\
     Forall (fun j => exists v, j = JStr v /\ well_formed_version v) vs /\ well_formed_version d)).
  { intros d. destruct (sget "cniVersions" m) as [[| | | |rvs|]|];
      try (split; [intros [x X]; discriminate|intros [X|(lx & X & _)]; discriminate]); [|split; [auto|eauto]].
    pose proof (usable_versions_defined rvs) as U. pose proof (gt_current_wf d) as Gd.
    destruct (usable_versions rvs) as [vs|e|]; cbn [rbind].
    - destruct (String.eqb_spec d "") as [->|N]; cbn [rbind].
      + split; [|eauto]. intros _. right. exists rvs. split; [reflexivity|]. split; [apply U; eauto|exact W0].
      + destruct (gt d current_version) as [g|e|]; cbn [rbind].
        * split; [|eauto]. intros _. right. exists rvs. split; [reflexivity|]. split; [apply U; eauto|apply Gd; eauto].
        * split; [intros [x X]; discriminate|]. intros [X|(l & _ & _ & X)]; [discriminate|]. apply Gd in X. destruct X; discriminate.
        * split; [intros [x X]; discriminate|]. intros [X|(l & _ & _ & X)]; [discriminate|]. apply Gd in X. destruct X; discriminate.
    - split; [intros [x X]; discriminate|]. intros [X|(l & E & F & _)]; [discriminate|]. injection E as <-. apply U in F. destruct F; discriminate.
    - split; [intros [x X]; discriminate|]. intros [X|(l & E & F & _)]; [discriminate|]. injection E as <-. apply U in F. destruct F; discriminate. }
  destruct (sget "cniVersion" m) as [[| | |d| |]|]; cbn [rbind];
    try (split; [intros [x X]; discriminate|intros [[X|[w X]] _]; discriminate]).
  - rewrite G. split; [eauto|]. tauto.
  - rewrite G. split; [auto|]. tauto.
Qed.
Lemma plugins_from_ok l ps : Forall encodable l -> (plugins_from l = Ok ps <->
  Forall2 (fun j p => pg_bytes p = print j /\ dec_plugin_conf j = Some (pg_conf p) /\ pc_type (pg_conf p) <> "") l ps).
Proof.
  revert ps. induction l as [|j l IH]; intros ps F; cbn [plugins_from].
  - split; [intros H; injection H as <-; constructor|intros H; now inversion H].
  - inversion F as [|? ? E F']; subst.
    assert (X : forall p, plugin_conf_from_bytes (print j) = Ok p <->
                pg_bytes p = print j /\ dec_plugin_conf j = Some (pg_conf p) /\ pc_type (pg_conf p) <> "").
    { intros p. rewrite plugin_from_ok. unfold unmarshal_plugin_conf. rewrite (parse_print _ E). split.
      - intros (c & D & T & ->). auto.
      - intros (B & D & T). exists (pg_conf p). split; [exact D|]. split; [exact T|]. rewrite <- B. now destruct p. }
    split.
    + intros H. destruct (plugin_conf_from_bytes (print j)) as [p|e|] eqn:P; try discriminate. cbn [rwrap rbind] in H.
      destruct (plugins_from l) as [qs|e|] eqn:Q; try discriminate. injection H as <-. constructor; [now apply X|now apply IH].
    + intros H. inversion H as [|? p ? qs A B]; subst. apply X in A. rewrite A. cbn [rwrap rbind].
      apply (IH qs F') in B. rewrite B. reflexivity.
Qed.
Lemma forall2_exists {A B} (R : A -> B -> Prop) l : Forall (fun a => exists b, R a b) l -> exists l', Forall2 R l l'.
Proof. induction 1 as [|a l [b H] _ [l' IH]]; [exists []; constructor|]. exists (b :: l'). now constructor. Qed.
Lemma plugins_from_defined l : Forall encodable l -> ((exists ps, plugins_from l = Ok ps) <-> Forall plugin_object l).
Proof.
  intros F. split.
  - intros [ps H]. apply (plugins_from_ok _ _ F) in H. clear F. induction H as [|j p js ps' (_ & D & T) _ IH]; constructor; [|exact IH].
    apply plugin_object_iff. eauto.
  - intros P. assert (Q : Forall (fun j => exists p, pg_bytes p = print j /\ dec_plugin_conf j = Some (pg_conf p) /\ pc_type (pg_conf p) <> "") l).
    { eapply Forall_impl; [|exact P]. intros j Pj. apply plugin_object_iff in Pj. destruct Pj as (c & D & T).
      exists {| pg_conf := c; pg_bytes := print j |}. auto. }
    apply forall2_exists in Q. destruct Q as [ps Q]. exists ps. now apply plugins_from_ok.
Qed.
Lemma elements_encodable b m k l : unmarshal_map b = Some (Some m) -> sget k m = Some (JArr l) -> Forall encodable l.
Proof.
  intros U G. destruct (unmarshal_map_canonical _ _ U) as [_ [W D]].
  apply sget_In in G. apply jwf_obj in W. rewrite Forall_forall in W. specialize (W _ G). cbn [snd fst] in W.
  change 10000%N with (N.succ 9999) in D. apply jdepth_obj in D. rewrite Forall_forall in D. specialize (D _ G). cbn [snd] in D.
  change 9999%N with (N.succ 9998) in D. apply jdepth_arr in D. destruct W as [_ W]. apply jwf_arr in W.
  rewrite Forall_forall in *. intros x I. split; [auto|]. specialize (D x I). cbn beta in D. lia.
Qed.
Lemma network_conf_ok b m l : unmarshal_map b = Some (Some m) ->
  (network_conf_from_bytes b = Ok l <->
   sget "name" m = Some (JStr (nl_name l)) /\ select_version m = Ok (nl_version l) /\
   option_is m "disableCheck" (nl_disable_check l) /\ option_is m "disableGC" (nl_disable_gc l) /\
   option_is m "loadOnlyInlinedPlugins" (nl_only_inlined l) /\ nl_bytes l = b /\
   ((sget "plugins" m = None /\ nl_only_inlined l = false /\ nl_plugins l = []) \/
    (exists ps, sget "plugins" m = Some (JArr ps) /\ ps <> [] /\
       Forall2 (fun j p => pg_bytes p = print j /\ dec_plugin_conf j = Some (pg_conf p) /\ pc_type (pg_conf p) <> "") ps (nl_plugins l)))).
Proof.
  intros U. unfold network_conf_from_bytes. rewrite U. rewrite !option_is_iff. split.
  - intros H.
    destruct (sget "name" m) as [[| | |n| |]|]; try discriminate. cbn [rbind] in H.
    destruct (select_version m) as [v|e|]; try discriminate. cbn [rbind] in H.
    destruct (read_bool m "disableCheck") as [dc|e|]; try discriminate. cbn [rbind] in H.
    destruct (read_bool m "disableGC") as [dg|e|]; try discriminate. cbn [rbind] in H.
    destruct (read_bool m "loadOnlyInlinedPlugins") as [oi|e|]; try discriminate. cbn [rbind] in H.
    destruct (sget "plugins" m) as [[| | | |[|j js]|]|] eqn:G; try discriminate.
    + destruct (plugins_from (j :: js)) as [ps|e|] eqn:P; try discriminate. cbn [rbind] in H. injection H as <-. cbn.
      apply plugins_from_ok in P; [|eapply elements_encodable; eassumption].
      repeat (split; [reflexivity|]). right. exists (j :: js). split; [reflexivity|]. split; [discriminate|]. exact P.
    + destruct oi; [discriminate|]. injection H as <-. cbn. repeat (split; [reflexivity|]). left. auto.
  - intros (E1 & E2 & E3 & E4 & E5 & E6 & H). rewrite E1, E2, E3, E4, E5. cbn [rbind].
    destruct H as [(E & O & P)|(ps & E & N & P)]; rewrite E.
    + rewrite O. rewrite O in *. f_equal. destruct l. cbn in *. congruence.
    + destruct ps as [|j js]; [contradiction|].
      apply (plugins_from_ok (j :: js) (nl_plugins l)) in P; [|eapply elements_encodable; eassumption].
      rewrite P. cbn [rbind]. f_equal. destruct l. cbn in *. congruence.
Qed.
Lemma network_conf_acceptable b m : decodes_to b m -> ((exists l, network_conf_from_bytes b = Ok l) <-> acceptable m).
Proof.
  intros D. apply decodes_iff in D. unfold acceptable. split.
  - intros [l H]. apply (network_conf_ok _ _ _ D) in H. destruct H as (E1 & E2 & E3 & E4 & E5 & E6 & H).
    pose proof (proj1 (select_version_defined m) (ex_intro _ _ E2)) as [V1 V2].
    split; [eauto|]. split; [exact V1|]. split; [exact V2|]. split; [eauto|]. split; [eauto|]. split; [eauto|].
    destruct H as [(E & O & P)|(ps & E & N & P)]; [left; rewrite O in E5; auto|right].
    exists ps. split; [exact E|]. split; [exact N|]. clear - P. induction P as [|j p js ps' (_ & A & B) _ IH]; constructor; [|exact IH].
    apply plugin_object_iff. eauto.
  - intros ((n & E1) & V1 & V2 & (b1 & O1) & (b2 & O2) & (b3 & O3) & H).
    destruct (proj2 (select_version_defined m) (conj V1 V2)) as [v E2].
    destruct H as [(E & O)|(ps & E & N & P)].
    + exists {| nl_name := n; nl_version := v; nl_disable_check := b1; nl_disable_gc := b2; nl_only_inlined := false; nl_plugins := []; nl_bytes := b |}.
      apply (network_conf_ok _ _ _ D). cbn. repeat (split; [assumption || reflexivity|]). left. auto.
    + apply plugins_from_defined in P; [|eapply elements_encodable; eassumption]. destruct P as [qs P].
      exists {| nl_name := n; nl_version := v; nl_disable_check := b1; nl_disable_gc := b2; nl_only_inlined := b3; nl_plugins := qs; nl_bytes := b |}.
      apply (network_conf_ok _ _ _ D). cbn. repeat (split; [assumption || reflexivity|]). right. exists ps. split; [exact E|]. split; [exact N|].
      apply plugins_from_ok; [eapply elements_encodable; eassumption|exact P].
Qed.
Lemma undecodable_map b : parse b <> Some JNull -> (forall m, ~ decodes_to b m) -> unmarshal_map b = None.
Proof.
  intros N H. destruct (unmarshal_map b) as [[m|]|] eqn:U; [exfalso; apply (H m); now apply decodes_iff| |reflexivity].
  exfalso. apply N. unfold unmarshal_map in U. destruct (parse b) as [j|]; [|discriminate]. unfold decode_map in U. destruct j; try discriminate; [reflexivity|].
  match type of U with match ?x with _ => _ end = _ => destruct x as [[]|] end; discriminate.
Qed.
Lemma network_conf_undecodable b : (forall m, ~ decodes_to b m) -> exists e, network_conf_from_bytes b = Err e.
Proof.
  intros H. unfold network_conf_from_bytes. destruct (unmarshal_map b) as [[m|]|] eqn:U; [|cbn; eauto..].
  exfalso. apply (H m). now apply decodes_iff.
Qed.
Lemma plugins_from_not_panic l : plugins_from l <> Panic.
Proof.
  induction l as [|j l IH]; [discriminate|]. cbn [plugins_from]. pose proof (plugin_from_not_panic (print j)).
  destruct (plugin_conf_from_bytes (print j)); [cbn [rwrap rbind]|discriminate|contradiction].
  destruct (plugins_from l); [discriminate..|contradiction].
Qed.
Lemma usable_not_panic l : usable_versions l <> Panic.
Proof.
  induction l as [|j l IH]; [discriminate|]. destruct j as [| | |v| |]; try discriminate. cbn [usable_versions]. destruct (gt v current_version); try discriminate.
  destruct (usable_versions l); [discriminate..|contradiction].
Qed.
Lemma select_not_panic m : select_version m <> Panic.
Proof.
  unfold select_version. destruct (sget "cniVersion" m) as [[| | |d| |]|]; try discriminate; cbn [rbind];
    destruct (sget "cniVersions" m) as [[| | | |rvs|]|]; try discriminate; pose proof (usable_not_panic rvs);
    (destruct (usable_versions rvs); [cbn [rbind]|discriminate|contradiction]); (destruct (String.eqb _ ""); [discriminate|]);
    destruct (gt _ current_version); discriminate.
Qed.
Lemma network_conf_not_panic b : network_conf_from_bytes b <> Panic.
Proof.
  unfold network_conf_from_bytes. destruct (unmarshal_map b) as [om|]; [|discriminate].
  set (m := match om with Some m => m | None => [] end).
  destruct (sget "name" m) as [[| | |n| |]|]; try discriminate. cbn [rbind].
  pose proof (select_not_panic m). destruct (select_version m); [cbn [rbind]|discriminate|contradiction].
  pose proof (read_bool_not_panic m "disableCheck"). destruct (read_bool m "disableCheck"); [cbn [rbind]|discriminate|contradiction].
  pose proof (read_bool_not_panic m "disableGC"). destruct (read_bool m "disableGC"); [cbn [rbind]|discriminate|contradiction].
  pose proof (read_bool_not_panic m "loadOnlyInlinedPlugins"). destruct (read_bool m "loadOnlyInlinedPlugins") as [oi|e|]; [cbn [rbind]|discriminate|contradiction].
  destruct (sget "plugins" m) as [[| | | |[|j js]|]|]; try discriminate; [|destruct oi; discriminate].
  pose proof (plugins_from_not_panic (j :: js)). destruct (plugins_from (j :: js)); [discriminate..|contradiction].
Qed.
