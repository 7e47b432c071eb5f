(** C93: the versions a plugin written with this library declares are those the runtime goes by. *)
From Coq Require Import String Ascii List Arith NArith ZArith Bool Lia.
From Verif Require Import Model.GoStr Model.Errors Model.Version Model.Validate Model.Args Model.Path Model.Json Model.GoJson
  Model.Types Model.Conf Model.Invoke Model.Skel Model.Prog Model.Api
  Spec.JsonSpec Spec.VersionSpec Spec.NameSpec Spec.ConfSpec Spec.EnvSpec Spec.RunSpec Spec.CacheSpec Spec.SkelSpec Spec.TypesSpec
  Proofs.StrP Proofs.ProgP Proofs.ApiP Proofs.VerbP Proofs.Utf8P
  Properties.P_Invoke Properties.P_Skel Properties.P_Api Properties.P_Single Properties.P_E2E.
Import ListNotations.
Open Scope nat_scope.
Open Scope string_scope.

(** The program answering [x] is one written with package skel: it runs PluginMain with
    version.PluginSupports([vs]...), in the environment and on the input the runtime gave it. *)
Definition library_plugin (x : call) (vs : list string) : Prop :=
  exists pe funcs info about, started_by x pe /\ plugin_supports vs = Some info /\ Forall well_formed_text vs /\
    answered_by x pe funcs info about.

Lemma library_reports x vs : version_probe x -> library_plugin x vs ->
  exists info, version_answer (call_answer x) = Ok info /\ pi_supported info = vs.
Proof.
  intros (CMD & _) (pe & funcs & info & about & (SE & _) & PS & WF & A).
  assert (C : command pe = "VERSION") by (unfold command; now rewrite SE).
  destruct (C45_version_answers pe funcs vs info about C PS WF) as (out & PP & _ & got & DI & GS).
  exists got. split; [|exact GS]. unfold answered_by in A. rewrite PP in A. cbn in A. now rewrite A.
Qed.

(** GetVersionInfo. *)
Theorem C93_version_info : forall fl c type w tr w' r vs, runs fl (get_version_info c type) w tr w' r ->
  (forall x, In x (calls tr) -> library_plugin x vs) -> calls tr <> [] ->
  exists info, r = Ok info /\ pi_supported info = vs.
Proof.
  intros fl c type w tr w' r vs H L N. apply C59_version_info in H. destruct H as (_ & t & T & K). destruct T as [e E|x C _ F V].
  - subst tr. now destruct N.
  - rewrite K. apply library_reports; [exact V|]. apply L. rewrite C. now left.
Qed.

(** *** Validation *)
Lemma calls_concat segs : calls (List.concat segs) = List.concat (map calls segs).
Proof. induction segs as [|s l IH]; [reflexivity|]. cbn [List.concat map]. now rewrite calls_app, IH. Qed.
Lemma turns_cons P net nets tr ends : turns P (net :: nets) tr ends ->
  exists seg tr2 t ends2, tr = (seg ++ tr2)%list /\ ends = t :: ends2 /\ P net seg t /\ turns P nets tr2 ends2.
Proof.
  intros (segs & -> & L1 & L2 & H). destruct segs as [|seg segs]; [discriminate|]. destruct ends as [|t ends]; [discriminate|].
  exists seg, (List.concat segs), t, ends. split; [reflexivity|]. split; [reflexivity|]. split; [exact (H 0 net seg t eq_refl eq_refl eq_refl)|].
  exists segs. split; [reflexivity|]. split; [now injection L1|]. split; [now injection L2|]. intros i n s u A B C. exact (H (S i) n s u A B C).
Qed.
(** [vs p]: what the program at [p] declares. *)
Lemma turns_declared c vs v : forall nets tr ends, turns (asks_version c) nets tr ends ->
  (forall x, In x (calls tr) -> library_plugin x (vs (call_path x))) ->
  (Forall (supports v) ends <-> List.length (calls tr) = List.length nets /\ Forall (fun x => In v (vs (call_path x))) (calls tr)) /\
  List.length (calls tr) <= List.length nets.
Proof.
  induction nets as [|net nets IH]; intros tr ends T L.
  - destruct T as (segs & -> & L1 & L2 & _). destruct segs; [|discriminate L1]. destruct ends; [|discriminate L2].
    split; [split; [intros _; split; [reflexivity|constructor]|constructor]|]. auto.
  - apply turns_cons in T. destruct T as (seg & tr2 & t & ends2 & -> & -> & A & T).
    assert (L2 : forall x, In x (calls tr2) -> library_plugin x (vs (call_path x))) by (intros x I; apply L; rewrite calls_app; apply in_or_app; now right).
    destruct (IH _ _ T L2) as (IH1 & IH2). rewrite calls_app, app_length. cbn [List.length]. destruct A as [e E|x C _ F V].
    + subst seg. replace (List.length (calls [])) with 0 by reflexivity. rewrite Nat.add_0_l. change (calls [] ++ calls tr2)%list with (calls tr2). split; [|clear - IH2; lia].
      split; [intros X; exfalso; inversion X as [|? ? X1 X2]; clear - X1; destruct X1 as (? & [] & _) || destruct X1|intros (X & _); exfalso; clear - X IH2; lia].
    + rewrite C. cbn [List.length app]. split; [|clear - IH2; cbn; lia].
      assert (LX : library_plugin x (vs (call_path x))) by (apply L; rewrite calls_app, C; now left).
      destruct (library_reports _ _ V LX) as (info & VA & PS).
      assert (S1 : supports v (Ran x) <-> In v (vs (call_path x))).
      { cbn [supports]. split; [intros (vs0 & (i & VA' & PS') & I); assert (i = info) by congruence; subst i; congruence|intros I; exists (vs (call_path x)); split; [now exists info|exact I]]. }
      split.
      * intros X. inversion X as [|? ? X1 X2]; subst. apply IH1 in X2. destruct X2 as (X2 & X3). split; [cbn; lia|]. constructor; [now apply S1|exact X3].
      * intros (X1 & X2). inversion X2 as [|? ? X3 X4]; subst. constructor; [now apply S1|]. apply IH1. split; [cbn in X1; lia|exact X4].
Qed.

(** ValidateNetworkList. *)
Theorem C93_validate : forall fl c l w tr w' r vs, runs fl (validate_network_list c l) w tr w' r ->
  (forall x, In x (calls tr) -> library_plugin x (vs (call_path x))) ->
  (exists caps, r = Ok caps) <->
  List.length (calls tr) = List.length (nl_plugins l) /\ Forall (fun x => In (wanted_version l) (vs (call_path x))) (calls tr).
Proof.
  intros fl c l w tr w' r vs H L. apply C21_validate_exact in H. destruct H as (_ & _ & ends & T & K).
  destruct (turns_declared _ _ (wanted_version l) _ _ _ T L) as (Q & _). rewrite <- Q.
  destruct K as [(F & caps & E & _)|(F & e & E)]; subst r.
  - split; [intros _; exact F|intros _; now exists caps].
  - split; [intros (caps & X); discriminate X|intros X; now destruct F].
Qed.
(** *** A case: the two programs of P_E2E, asked by a validation. *)
Lemma ex_library x : started_by x (e2e_env (call_stdin x) (call_env x)) ->
  answered_by x (e2e_env (call_stdin x) (call_env x)) e2e_funcs ex_info "" ->
  plugin_supports (pi_supported ex_info) = Some ex_info -> Forall well_formed_text (pi_supported ex_info) -> library_plugin x (pi_supported ex_info).
Proof. intros A B C D. exists (e2e_env (call_stdin x) (call_env x)), e2e_funcs, ex_info, "". auto. Qed.
Definition e2e_list_new : network_list :=
  {| nl_name := "net1"; nl_version := "1.1.0"; nl_disable_check := false; nl_disable_gc := false; nl_only_inlined := false;
     nl_plugins := [e2e_net]; nl_bytes := e2e_conf |}.
Lemma ex_wf : Forall well_formed_text (pi_supported ex_info).
Proof.
  change (Forall well_formed_text ["0.3.1"; "0.4.0"; "1.0.0"]).
  apply Forall_cons; [apply valid_utf8_wf; reflexivity|]. apply Forall_cons; [apply valid_utf8_wf; reflexivity|].
  apply Forall_cons; [apply valid_utf8_wf; reflexivity|]. constructor.
Qed.
(** The same program passes a validation for 0.4.0, which it declares, and fails one for 1.1.0, which it does not. *)
Example C93_nonvacuous :
  (exists tr caps, runs false (validate_network_list e2e_cni e2e_list) [] tr [] (Ok caps) /\ List.length (calls tr) = 1 /\
     forall x, In x (calls tr) -> library_plugin x ["0.3.1"; "0.4.0"; "1.0.0"]) /\
  (exists tr e, runs false (validate_network_list e2e_cni e2e_list_new) [] tr [] (Err e) /\ List.length (calls tr) = 1 /\
     forall x, In x (calls tr) -> library_plugin x ["0.3.1"; "0.4.0"; "1.0.0"]) /\
  (exists tr info, runs false (get_version_info e2e_cni "bridge") [] tr [] (Ok info) /\ calls tr <> [] /\
     pi_supported info = ["0.3.1"; "0.4.0"; "1.0.0"]).
Proof.
  split; [|split].
  - destruct (interp e2e_oracle 0 (validate_network_list e2e_cni e2e_list) []) as [[r w'] tr] eqn:E.
    pose proof (interp_run _ e2e_oracle _ _ _ _ _ e2e_tame E) as R. vm_compute in E. injection E as <- <- <-.
    eexists _, _. split; [exact R|]. split; [reflexivity|]. intros x [<-|[]].
    apply ex_library; [split; reflexivity|vm_compute; reflexivity|reflexivity|exact ex_wf].
  - destruct (interp e2e_oracle 0 (validate_network_list e2e_cni e2e_list_new) []) as [[r w'] tr] eqn:E.
    pose proof (interp_run _ e2e_oracle _ _ _ _ _ e2e_tame E) as R. vm_compute in E. injection E as <- <- <-.
    eexists _, _. split; [exact R|]. split; [reflexivity|]. intros x [<-|[]].
    apply ex_library; [split; reflexivity|vm_compute; reflexivity|reflexivity|exact ex_wf].
  - destruct (interp e2e_oracle 0 (get_version_info e2e_cni "bridge") []) as [[r w'] tr] eqn:E.
    pose proof (interp_run _ e2e_oracle _ _ _ _ _ e2e_tame E) as R. vm_compute in E. injection E as <- <- <-.
    eexists _, _. split; [exact R|]. split; [discriminate|reflexivity].
Qed.
