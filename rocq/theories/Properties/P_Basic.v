(** C01-C05: versions and name validation. *)
From Coq Require Import String Ascii List ZArith NArith.
From Verif Require Import Model.GoStr Model.Errors Model.Version Model.Validate Model.Json Model.GoJson Model.Conf
  Spec.VersionSpec Spec.NameSpec Spec.ConfSpec
  Proofs.VersionP Proofs.ValidateP Proofs.Utf8P Proofs.SelectP.
Import ListNotations.
Open Scope nat_scope.
Open Scope string_scope.

(** C01: comparison is the numeric lexicographic order on what the strings mean. *)
Theorem C01_gte_is_numeric_order : forall a b t u, version_means a t -> version_means b u ->
  exists r, gte a b = Ok r /\ (r = true <-> triple_ge t u).
Proof. exact gte_ok. Qed.
Theorem C01_gt_is_numeric_order : forall a b t u, version_means a t -> version_means b u ->
  exists r, gt a b = Ok r /\ (r = true <-> triple_gt t u).
Proof. exact gt_ok. Qed.
Theorem C01_gte_errors_exactly_on_malformed : forall a b,
  (exists e, gte a b = Err e) <-> ~ well_formed_version a \/ ~ well_formed_version b.
Proof. exact gte_error. Qed.
Theorem C01_gt_errors_exactly_on_malformed : forall a b,
  (exists e, gt a b = Err e) <-> ~ well_formed_version a \/ ~ well_formed_version b.
Proof. exact gt_error. Qed.
Theorem C01_gte_reflexive : forall a, well_formed_version a -> gte a a = Ok true.
Proof. exact gte_refl. Qed.
Theorem C01_gte_transitive : forall a b c, gte a b = Ok true -> gte b c = Ok true -> gte a c = Ok true.
Proof. exact gte_trans. Qed.
Theorem C01_gte_total : forall a b, well_formed_version a -> well_formed_version b ->
  gte a b = Ok true \/ gte b a = Ok true.
Proof. exact gte_total. Qed.
Theorem C01_gt_is_strict_part : forall a b, well_formed_version a -> well_formed_version b ->
  (gt a b = Ok true <-> gte a b = Ok true /\ gte b a = Ok false).
Proof. exact gt_strict. Qed.
Example C01_nonvacuous : version_means "1.10" (1, 10, 0)%Z /\ version_means "1.9.7" (1, 9, 7)%Z /\
  gte "1.10" "1.9.7" = Ok true /\ gte "1.9.7" "1.10" = Ok false.
Proof. repeat split; apply parse_version_spec; reflexivity. Qed.

(** C02: exactly the documented strings are accepted, with the documented meaning. *)
Theorem C02_parse_version_exact : forall s t, parse_version s = Ok t <-> version_means s t.
Proof. exact parse_version_spec. Qed.
Theorem C02_everything_else_is_an_error : forall s,
  ~ well_formed_version s <-> exists e, parse_version s = Err e.
Proof. exact parse_version_rejects. Qed.
Theorem C02_never_panics : forall s, parse_version s <> Panic.
Proof. exact parse_version_no_panic. Qed.
Example C02_nonvacuous : version_means "-3.+04" (-3, 4, 0)%Z /\ ~ well_formed_version "1.0.0-rc1".
Proof. split; [apply parse_version_spec; reflexivity|apply parse_version_rejects; eexists; reflexivity]. Qed.

(** C03: the loaded list uses the highest usable version. *)
Theorem C03_highest_usable_version : forall b l raw rvs,
  network_conf_from_bytes b = Ok l -> unmarshal_map b = Some (Some raw) ->
  sget "cniVersions" raw = Some (JArr rvs) ->
  ((exists w, offered raw rvs w /\ ver_le w current_version) ->
     offered raw rvs (nl_version l) /\ ver_le (nl_version l) current_version /\
     forall w, offered raw rvs w -> ver_le w current_version -> ver_le w (nl_version l)) /\
  ((forall w, offered raw rvs w -> ~ ver_le w current_version) -> nl_version l = declared_of raw).
Proof. exact highest_usable_version. Qed.
Theorem C03_without_list_declared_is_kept : forall b l raw,
  network_conf_from_bytes b = Ok l -> unmarshal_map b = Some (Some raw) ->
  sget "cniVersions" raw = None -> nl_version l = declared_of raw.
Proof. exact declared_is_kept. Qed.
(** "The loaded version never exceeds the library's" is false: nothing caps a lone cniVersion. *)
Theorem C03_version_capped_refuted : exists b l,
  network_conf_from_bytes b = Ok l /\ ~ ver_le (nl_version l) current_version.
Proof. exact version_not_capped. Qed.
Definition C03_doc : string :=
  "{""name"":""n"",""cniVersion"":""0.4.0"",""cniVersions"":[""1.0.0"",""0.3.1"",""2.0.0""]}".
Example C03_nonvacuous : exists l raw,
  network_conf_from_bytes C03_doc = Ok l /\ unmarshal_map C03_doc = Some (Some raw) /\
  sget "cniVersions" raw = Some (JArr [JStr "1.0.0"; JStr "0.3.1"; JStr "2.0.0"]) /\
  nl_version l = "1.0.0".
Proof. eexists _, _. vm_compute. repeat split. Qed.

(** C04 *)
Theorem C04_container_id_exact : forall s, validate_container_id s = None <-> good_name s.
Proof. exact validate_container_id_ok. Qed.
Theorem C04_container_id_error_code : forall s, ~ good_name s ->
  exists msg det, validate_container_id s =
    Some (ECNI (if String.eqb s "" then ErrUnknownContainer else ErrInvalidEnvironmentVariables) msg det).
Proof. exact validate_container_id_err. Qed.
Theorem C04_network_name_exact : forall s, validate_network_name s = None <-> good_name s.
Proof. exact validate_network_name_ok. Qed.
Theorem C04_network_name_error_code : forall s, ~ good_name s ->
  exists msg det, validate_network_name s = Some (ECNI ErrInvalidNetworkConfig msg det).
Proof. exact validate_network_name_err. Qed.
Example C04_nonvacuous : good_name "a-b_C.9" /\ ~ good_name "-a" /\ ~ good_name "../x".
Proof. repeat split; try (intros H; apply cni_reg_good in H; discriminate). apply cni_reg_good. reflexivity. Qed.

(** C05 *)
Theorem C05_interface_name_exact : forall s, validate_interface_name s = None <-> good_ifname s.
Proof. exact validate_interface_name_ok. Qed.
Theorem C05_interface_name_error_code : forall s, ~ good_ifname s ->
  exists msg det, validate_interface_name s = Some (ECNI ErrInvalidEnvironmentVariables msg det).
Proof. exact validate_interface_name_err. Qed.
(** Every byte string has exactly one reading, so the condition on readings is not vacuous. *)
Theorem C05_every_string_reads_once : forall s, exists rs, reads s rs /\ forall rs', reads s rs' -> rs' = rs.
Proof. exact reads_once. Qed.
Example C05_nonvacuous : good_ifname "eth0" /\ ~ good_ifname "a b" /\ ~ good_ifname "0123456789abcdef".
Proof.
  split; [apply validate_interface_name_ok; reflexivity|].
  split; intros H; apply validate_interface_name_ok in H; discriminate.
Qed.

(** C60: starting from a version means exactly the supported versions not below it, oldest first. *)
Definition supported : list string := ["0.1.0"; "0.2.0"; "0.3.0"; "0.3.1"; "0.4.0"; "1.0.0"; "1.1.0"].
Lemma supported_means v : In v supported -> exists t, version_means v t /\ parse_version v = Ok t.
Proof.
  intros H. assert (exists t, parse_version v = Ok t) as [t E].
  { unfold supported in H. cbn [In] in H.
    repeat (destruct H as [<- | H]; [eexists; vm_compute; reflexivity|]). destruct H. }
  exists t. split; [now apply parse_version_spec|exact E].
Qed.
Lemma ver_le_gte a b : ver_le a b <-> gte b a = Ok true.
Proof.
  rewrite gte_Ok_iff. unfold ver_le. split.
  - intros (t & u & A & B & C). exists u, t. auto.
  - intros (t & u & A & B & C). exists u, t. auto.
Qed.
Theorem C60_versions_starting_from : forall min,
  (In min supported -> exists l, versions_starting_from min = Some l /\
     (exists older, supported = older ++ l)%list /\
     forall v, In v l <-> In v supported /\ ver_le min v) /\
  (~ In min supported -> versions_starting_from min = None).
Proof.
  intros min. split.
  - intros H. unfold supported in H. cbn [In] in H.
    repeat (destruct H as [<- | H];
      [eexists; split; [vm_compute; reflexivity|]; split;
        [first [exists [] ; reflexivity | exists ["0.1.0"]; reflexivity | exists ["0.1.0"; "0.2.0"]; reflexivity
          | exists ["0.1.0"; "0.2.0"; "0.3.0"]; reflexivity | exists ["0.1.0"; "0.2.0"; "0.3.0"; "0.3.1"]; reflexivity
          | exists ["0.1.0"; "0.2.0"; "0.3.0"; "0.3.1"; "0.4.0"]; reflexivity
          | exists ["0.1.0"; "0.2.0"; "0.3.0"; "0.3.1"; "0.4.0"; "1.0.0"]; reflexivity]|];
       intros v; rewrite ver_le_gte; unfold supported; cbn [In]; split;
       [intros X; repeat (destruct X as [<- | X]; [split; [tauto|vm_compute; reflexivity]|]); destruct X
       |intros [X Y]; repeat (destruct X as [<- | X]; [vm_compute in Y; first [discriminate Y|tauto]|]); destruct X]|]).
    destruct H.
  - intros H. unfold versions_starting_from.
    assert (forall l, ~ In min l -> versions_from false min l = []) as E.
    { induction l as [|v l IH]; intros N; [reflexivity|]. cbn [versions_from orb].
      destruct (String.eqb_spec v min) as [->|_]; [destruct N; now left|]. apply IH. intros X. apply N. now right. }
    rewrite E; [reflexivity|exact H].
Qed.
Example C60_nonvacuous : versions_starting_from "0.3.1" = Some ["0.3.1"; "0.4.0"; "1.0.0"; "1.1.0"] /\
  versions_starting_from "0.3.2" = None.
Proof. split; reflexivity. Qed.

Print Assumptions C01_gte_is_numeric_order.
Print Assumptions C02_parse_version_exact.
Print Assumptions C03_highest_usable_version.
Print Assumptions C03_version_capped_refuted.
Print Assumptions C04_container_id_exact.
Print Assumptions C05_interface_name_exact.
Print Assumptions C60_versions_starting_from.
