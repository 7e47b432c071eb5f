(** Proofs about the version selected when loading a network list. *)
From Coq Require Import String Ascii List Arith ZArith NArith Bool Lia.
From Verif Require Import Model.GoStr Model.Errors Model.Version Model.Json Model.GoJson Model.Conf
  Spec.VersionSpec Spec.ConfSpec Proofs.StrP Proofs.VersionP.
Import ListNotations.
Open Scope nat_scope.
Open Scope string_scope.


Lemma gt_false_le a b : gt a b = Ok false -> ver_le a b.
Proof.
  intros H.
  assert (A : well_formed_version a).
  { destruct (parse_version a) as [t|e|] eqn:E; [exists t; now apply parse_version_spec|..];
      unfold gt in H; rewrite E in H; discriminate. }
  assert (B : well_formed_version b).
  { destruct (parse_version b) as [t|e|] eqn:E; [exists t; now apply parse_version_spec|..];
      unfold gt in H; rewrite E in H; destruct (parse_version a) as [[[? ?] ?]| |]; discriminate. }
  destruct A as [t A], B as [u B]. exists t, u. split; [assumption|]. split; [assumption|].
  destruct (gt_ok a b t u A B) as [r [E R]]. rewrite H in E. injection E as <-.
  destruct (triple_ge_total u t) as [G|G]; [exact G|].
  destruct G as [G|G]; [apply R in G; discriminate|]. subst. now right.
Qed.
Lemma gt_true_wf a b : gt a b = Ok true -> exists t u, version_means a t /\ version_means b u /\ triple_gt t u.
Proof.
  intros H.
  destruct (parse_version a) as [t|e|] eqn:A; [|unfold gt in H; rewrite A in H; discriminate..].
  destruct (parse_version b) as [u|e|] eqn:B;
    [|unfold gt in H; rewrite A, B in H; destruct t as [[? ?] ?]; discriminate..].
  apply parse_version_spec in A, B. exists t, u. destruct (gt_ok a b t u A B) as [r [E R]].
  rewrite H in E. injection E as <-. tauto.
Qed.
Lemma gt_wf a b : well_formed_version a -> well_formed_version b ->
  gt a b = Ok true \/ gt a b = Ok false.
Proof.
  intros [t A] [u B]. destruct (gt_ok a b t u A B) as [[|] [E _]]; auto.
Qed.
Lemma ver_le_refl a : well_formed_version a -> ver_le a a.
Proof. intros [t A]. exists t, t. auto using triple_ge_refl. Qed.
Lemma ver_le_trans a b c : ver_le a b -> ver_le b c -> ver_le a c.
Proof.
  intros (t & u & A & B & G) (u' & v & B' & C & G'). rewrite (version_means_fun _ _ _ B' B) in *.
  exists t, v. eauto using triple_ge_trans.
Qed.
Lemma before_le a b : well_formed_version a -> well_formed_version b ->
  (version_before a b = true -> ver_le a b) /\ (version_before a b = false -> ver_le b a).
Proof.
  intros A B. unfold version_before. destruct (String.eqb_spec a b) as [E|N].
  - subst b. split; [discriminate|]. intros _. now apply ver_le_refl.
  - destruct (gt_wf a b A B) as [E|E]; rewrite E.
    + split; [discriminate|]. intros _. apply gt_true_wf in E. destruct E as (t & u & At & Bu & G).
      exists u, t. split; [assumption|]. split; [assumption|]. now left.
    + split; [|discriminate]. intros _. now apply gt_false_le.
Qed.

(** [desc l]: the head dominates and so on (the reversed sorted prefix). *)
Fixpoint desc (l : list string) : Prop :=
  match l with
  | [] => True
  | x :: l' => Forall (fun y => ver_le y x) l' /\ desc l'
  end.
Lemma insert_In x y l : In y (insert_version x l) <-> y = x \/ In y l.
Proof.
  induction l as [|z l IH]; cbn; [intuition|].
  destruct (version_before x z); cbn; [rewrite IH|]; intuition.
Qed.
Lemma insert_desc x l : well_formed_version x -> Forall well_formed_version l ->
  desc l -> desc (insert_version x l).
Proof.
  intros X. induction l as [|y l IH]; intros F D; [cbn; auto|].
  inversion F as [|? ? Y F']; subst. destruct D as [D1 D2]. cbn [insert_version].
  destruct (before_le x y X Y) as [Bt Bf].
  destruct (version_before x y); cbn [desc].
  - split; [|now apply IH]. apply Forall_forall. intros z Hz. apply insert_In in Hz.
    destruct Hz as [->|Hz]; [now apply Bt|]. rewrite Forall_forall in D1. now apply D1.
  - split; [|auto]. constructor; [now apply Bf|]. rewrite Forall_forall in *. intros z Hz.
    eapply ver_le_trans; [now apply D1|now apply Bf].
Qed.
Lemma fold_insert_In l acc y : In y (fold_left (fun a x => insert_version x a) l acc) <-> In y l \/ In y acc.
Proof.
  revert acc. induction l as [|x l IH]; intros acc; cbn; [tauto|].
  rewrite IH, insert_In. intuition.
Qed.
Lemma fold_insert_desc l acc : Forall well_formed_version l -> Forall well_formed_version acc ->
  desc acc -> desc (fold_left (fun a x => insert_version x a) l acc).
Proof.
  revert acc. induction l as [|x l IH]; intros acc F A D; [exact D|].
  inversion F; subst. cbn. apply IH; [assumption| |now apply insert_desc].
  apply Forall_forall. intros y Hy. apply insert_In in Hy. rewrite Forall_forall in A.
  destruct Hy as [->|Hy]; auto.
Qed.
Lemma sort_versions_In l y : In y (sort_versions l) <-> In y l.
Proof. unfold sort_versions. rewrite <- in_rev, fold_insert_In. cbn. tauto. Qed.
Lemma sort_versions_last l : Forall well_formed_version l -> l <> [] ->
  In (last (sort_versions l) "") l /\ forall y, In y l -> ver_le y (last (sort_versions l) "").
Proof.
  intros F N. unfold sort_versions.
  pose proof (fold_insert_desc l [] F (Forall_nil _) I) as D.
  pose proof (fun y => fold_insert_In l [] y) as M.
  destruct (fold_left _ l []) as [|x r] eqn:E.
  - exfalso. destruct l as [|z l]; [contradiction|]. apply (proj2 (M z)). left. now left.
  - cbn [rev]. rewrite last_last. destruct D as [D _]. split.
    + specialize (M x). cbn in M. tauto.
    + intros y Hy. pose proof (proj2 (M y) (or_introl Hy)) as Hy'. destruct Hy' as [<-|Hy'].
      * apply ver_le_refl. rewrite Forall_forall in F. now apply F.
      * rewrite Forall_forall in D. now apply D.
Qed.
Lemma sort_versions_nil l : sort_versions l = [] <-> l = [].
Proof.
  split; [|intros ->; reflexivity]. intros H. destruct l as [|x l]; [reflexivity|].
  exfalso. assert (In x (sort_versions (x :: l))) by (apply sort_versions_In; now left).
  rewrite H in *. contradiction.
Qed.
Lemma usable_versions_ok rvs vs : usable_versions rvs = Ok vs ->
  (forall v, In (JStr v) rvs -> well_formed_version v) /\
  (forall j, In j rvs -> exists v, j = JStr v) /\
  (forall v, In v vs <-> In (JStr v) rvs /\ ver_le v current_version).
Proof.
  revert vs. induction rvs as [|j rvs IH]; intros vs H.
  - injection H as <-. cbn. intuition.
  - destruct j as [| |n|v|a|o]; try discriminate. cbn in H.
    destruct (gt v current_version) as [g|e|] eqn:G; try discriminate.
    destruct (usable_versions rvs) as [vs'|e|]; try discriminate. cbn in H. injection H as <-.
    destruct (IH vs' eq_refl) as (A & B & C). 
    assert (W : well_formed_version v).
    { destruct g; [destruct (gt_true_wf _ _ G) as (t & u & T & _)|destruct (gt_false_le _ _ G) as (t & u & T & _)];
      now exists t. }
    split; [|split].
    + intros w [E|Hw]; [injection E as <-; exact W|auto].
    + intros j [<-|Hj]; [eauto|auto].
    + intros w. destruct g; cbn.
      * rewrite C. split; [tauto|]. intros [[E|Hw] L]; [|tauto]. injection E as <-. exfalso.
        destruct (gt_true_wf _ _ G) as (t & u & T & U & Gt). destruct L as (t' & u' & T' & U' & Ge).
        rewrite (version_means_fun _ _ _ T' T), (version_means_fun _ _ _ U' U) in Ge.
        apply triple_gt_strict in Gt. tauto.
      * rewrite C. apply gt_false_le in G. split.
        -- intros [<-|H]; [auto|tauto].
        -- intros [[E|Hw] L]; [injection E as <-; auto|tauto].
Qed.


Lemma select_version_none raw v : sget "cniVersions" raw = None -> select_version raw = Ok v -> v = declared_of raw.
Proof.
  unfold select_version, declared_of. intros H S. rewrite H in S.
  destruct (sget "cniVersion" raw) as [[| |n|s|a|o]|]; cbn in S; congruence.
Qed.
Lemma select_version_ok raw rvs v : sget "cniVersions" raw = Some (JArr rvs) -> select_version raw = Ok v ->
  ((exists w, offered raw rvs w /\ ver_le w current_version) ->
     offered raw rvs v /\ ver_le v current_version /\
     forall w, offered raw rvs w -> ver_le w current_version -> ver_le w v) /\
  ((forall w, offered raw rvs w -> ~ ver_le w current_version) -> v = declared_of raw).
Proof.
  unfold select_version, offered. intros H S. rewrite H in S.
  assert (D : exists d, d = declared_of raw /\
     (match usable_versions rvs with Ok vs => 
      (let! vs := if String.eqb d "" then Ok vs
        else match gt d current_version with
             | Ok g => Ok (if g then vs else (vs ++ [d])%list)
             | _ => Err (EMsg "error parsing configuration list: invalid cniVersion")
             end in
      let sorted := sort_versions vs in
      Ok (match sorted with [] => d | _ => last sorted "" end)) | _ => Err (EMsg "") end) = Ok v).
  { unfold declared_of in *. destruct (sget "cniVersion" raw) as [[| |n|s|a|o]|]; cbn in S; try discriminate;
    (eexists; split; [reflexivity|]); destruct (usable_versions rvs); cbn in S |- *; congruence. }
  clear S. destruct D as (d & Ed & S). rewrite <- Ed. clear Ed.
  destruct (usable_versions rvs) as [vs|e|] eqn:U; try discriminate.
  destruct (usable_versions_ok _ _ U) as (Wf & _ & Uin).
  assert (K : exists vs', (forall w, In w vs' <-> (In (JStr w) rvs \/ (w = d /\ w <> "")) /\ ver_le w current_version) /\
    v = match sort_versions vs' with [] => d | _ => last (sort_versions vs') "" end).
  { destruct (String.eqb_spec d "") as [E|N].
    - cbn in S. injection S as <-. exists vs. split; [|reflexivity]. intros w. rewrite Uin.
      split; [tauto|]. intros [[A|[-> B]] C]; [tauto|contradiction].
    - destruct (gt d current_version) as [g|e|] eqn:G; try discriminate. cbn in S. injection S as <-.
      exists (if g then vs else (vs ++ [d])%list). split; [|reflexivity]. intros w. destruct g.
      + rewrite Uin. split; [tauto|]. intros [[A|[-> B]] C]; [tauto|]. exfalso.
        destruct (gt_true_wf _ _ G) as (t & u & T & Q & Gt). destruct C as (t' & u' & T' & U' & Ge).
        rewrite (version_means_fun _ _ _ T' T), (version_means_fun _ _ _ U' Q) in Ge.
        apply triple_gt_strict in Gt. tauto.
      + rewrite in_app_iff, Uin. apply gt_false_le in G. cbn. split.
        * intros [[A B]|[<-|[]]]; [tauto|]. split; [right; auto|assumption].
        * intros [[A|[-> B]] C]; [tauto|]. right. now left. }
  clear S U Uin Wf. destruct K as (vs' & In' & Ev).
  assert (F : Forall well_formed_version vs').
  { apply Forall_forall. intros w Hw. apply In' in Hw. destruct Hw as [_ (t & u & T & _)]. now exists t. }
  split.
  - intros (w & O & L). assert (Hw : In w vs') by (apply In'; auto).
    assert (Ne : vs' <> []) by (intros ->; contradiction).
    destruct (sort_versions_last vs' F Ne) as [A B].
    assert (v = last (sort_versions vs') "").
    { rewrite Ev. destruct (sort_versions vs') eqn:E; [|reflexivity]. exfalso. apply Ne. now apply sort_versions_nil. }
    rewrite <- H0 in A, B. apply In' in A. split; [tauto|]. split; [tauto|].
    intros w' O' L'. apply B. apply In'. auto.
  - intros None'. assert (vs' = []).
    { destruct vs' as [|w l]; [reflexivity|]. exfalso. destruct (proj1 (In' w) (or_introl eq_refl)) as [O L].
      now apply (None' w O). }
    subst vs'. exact Ev.
Qed.

Lemma network_conf_version b l raw : network_conf_from_bytes b = Ok l -> unmarshal_map b = Some (Some raw) ->
  select_version raw = Ok (nl_version l).
Proof.
  unfold network_conf_from_bytes. intros H U. rewrite U in H.
  destruct (sget "name" raw) as [[| | |n| |]|]; try discriminate. cbn [rbind] in H.
  destruct (select_version raw) as [v|e|]; try discriminate. cbn [rbind] in H.
  destruct (read_bool raw "disableCheck") as [dc|e|]; try discriminate. cbn [rbind] in H.
  destruct (read_bool raw "disableGC") as [dg|e|]; try discriminate. cbn [rbind] in H.
  destruct (read_bool raw "loadOnlyInlinedPlugins") as [oi|e|]; try discriminate. cbn [rbind] in H.
  destruct (sget "plugins" raw) as [[| | | |[|p ps]|]|]; try discriminate.
  - destruct (plugins_from (p :: ps)) as [q|e|]; try discriminate. cbn [rbind] in H. injection H as <-. reflexivity.
  - destruct oi; [discriminate|]. injection H as <-. reflexivity.
Qed.
Lemma highest_usable_version b l raw rvs :
  network_conf_from_bytes b = Ok l -> unmarshal_map b = Some (Some raw) ->
  sget "cniVersions" raw = Some (JArr rvs) ->
  ((exists w, offered raw rvs w /\ ver_le w current_version) ->
     offered raw rvs (nl_version l) /\ ver_le (nl_version l) current_version /\
     forall w, offered raw rvs w -> ver_le w current_version -> ver_le w (nl_version l)) /\
  ((forall w, offered raw rvs w -> ~ ver_le w current_version) -> nl_version l = declared_of raw).
Proof. intros H U S. eapply select_version_ok; [exact S|]. eapply network_conf_version; eassumption. Qed.
Lemma declared_is_kept b l raw : network_conf_from_bytes b = Ok l -> unmarshal_map b = Some (Some raw) ->
  sget "cniVersions" raw = None -> nl_version l = declared_of raw.
Proof. intros H U S. eapply select_version_none; [exact S|]. eapply network_conf_version; eassumption. Qed.
Lemma version_not_capped : exists b l,
  network_conf_from_bytes b = Ok l /\ ~ ver_le (nl_version l) current_version.
Proof.
  exists "{""name"":""n"",""cniVersion"":""9.0.0""}". eexists. split; [vm_compute; reflexivity|].
  cbn [nl_version]. intros (t & u & T & U & G). apply parse_version_spec in T, U.
  vm_compute in T, U. injection T as <-. injection U as <-. unfold triple_ge, triple_gt in G.
  destruct G as [G|G]; [lia|discriminate].
Qed.
