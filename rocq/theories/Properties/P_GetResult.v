(** C62: the typed accessors of the result packages. *)
From Coq Require Import String List Bool ZArith.
From Verif Require Import Model.GoStr Model.Errors Model.NetIP Model.Types Model.GetResult Spec.TypesSpec Spec.PanicSpec
  Proofs.StrP Proofs.TypesP Proofs.ConvP Proofs.PanicP Proofs.DecodeP Properties.P_Types.
Import ListNotations.
Open Scope nat_scope.
Open Scope string_scope.

Lemma convert_versioned r v : result_version r <> "" -> convert r v = get_as_version r v.
Proof. intros N. unfold get_as_version. destruct (String.eqb_spec (result_version r) ""); [easy|reflexivity]. Qed.
Lemma right_versioned r : right_version r -> result_version r <> "".
Proof. intros V. now apply right_nonempty in V. Qed.
Lemma good_known r v x : right_version r -> complete r -> In v known_versions -> get_as_version r v = Ok x -> result_version x = v /\ right_version x.
Proof.
  intros V C K E. destruct (C35_reaches_every_version r v V C K) as [A B].
  assert (N : ~ (old_version v /\ ~ old_version (result_version r) /\ ~ has_usable_ip r)) by (intros X; apply A in X as [e X]; congruence).
  apply B in N as (y & Y & W). assert (y = x) by congruence. now subst y.
Qed.

(** For a decoded result without nil entries, the 0.4.0 and 1.x packages' accessors always
    succeed: they give the package's own type, at its version, with the content GetAsVersion
    gives. *)
Theorem C62_own_type : forall v0 text r, create v0 text = Ok r -> complete r ->
  (exists x, get_as_version r "0.4.0" = Ok (R040 x) /\ v4_version x = "0.4.0" /\
     get_result040 r = Ok x /\ new_result_from_result040 r = Ok x) /\
  (exists x, get_as_version r "1.1.0" = Ok (R100 x) /\ v1_version x = "1.1.0" /\
     get_result100 r = Ok x /\ new_result_from_result100 r = Ok x).
Proof.
  intros v0 text r H C. apply create_inv in H as (_ & _ & _ & V & _). pose proof (right_versioned r V) as N.
  unfold get_result040, new_result_from_result040, get_result100, new_result_from_result100. rewrite !convert_versioned by exact N.
  assert (G : forall v, In v ["0.4.0"; "1.1.0"] -> exists x, get_as_version r v = Ok x /\ result_version x = v /\ right_version x).
  { intros v I. assert (K : In v known_versions) by (cbn [In known_versions] in *; tauto).
    apply (C35_reaches_every_version r v V C K). intros (O & _). unfold old_version in O. cbn [In] in I. intuition; subst; discriminate. }
  split.
  - destruct (G "0.4.0") as (x & E & W & R); [now left|]. rewrite E. unfold right_version in R. rewrite W in R.
    destruct x as [x|x|x]; cbn [versions_of In result_version] in *; try (exfalso; intuition discriminate). exists x. cbn [rbind]. auto.
  - destruct (G "1.1.0") as (x & E & W & R); [right; now left|]. rewrite E. unfold right_version in R. rewrite W in R.
    destruct x as [x|x|x]; cbn [versions_of In result_version] in *; try (exfalso; intuition discriminate). exists x. cbn [rbind]. auto.
Qed.
(** The 0.2.0 package's accessor fails exactly when the result is newer and has no usable address. *)
Theorem C62_old_type : forall v0 text r, create v0 text = Ok r -> complete r ->
  (~ old_version (result_version r) /\ ~ has_usable_ip r -> exists e, get_result020 r = Err e) /\
  (~ (~ old_version (result_version r) /\ ~ has_usable_ip r) ->
     exists x, get_as_version r "0.2.0" = Ok (R020 x) /\ v2_version x = "0.2.0" /\ get_result020 r = Ok x).
Proof.
  intros v0 text r H C. apply create_inv in H as (_ & _ & _ & V & _). pose proof (right_versioned r V) as N.
  unfold get_result020. rewrite convert_versioned by exact N.
  assert (K : In "0.2.0" known_versions) by (cbn; tauto). destruct (C35_reaches_every_version r "0.2.0" V C K) as [A B].
  assert (O : old_version "0.2.0") by (now right). split.
  - intros X. destruct (A (conj O X)) as [e ->]. exists e. reflexivity.
  - intros X. destruct B as (x & E & W & R); [tauto|]. rewrite E. unfold right_version in R. rewrite W in R.
    destruct x as [x|x|x]; cbn [versions_of In result_version] in *; try (exfalso; intuition discriminate). exists x. cbn [rbind]. auto.
Qed.
(** A result already of the package's version comes back unchanged. *)
Theorem C62_already_there : 
  (forall x, v2_version x = "0.2.0" -> get_result020 (R020 x) = Ok x) /\
  (forall x, v4_version x = "0.4.0" -> get_result040 (R040 x) = Ok x /\ new_result_from_result040 (R040 x) = Ok x) /\
  (forall x, v1_version x = "1.1.0" -> get_result100 (R100 x) = Ok x /\ new_result_from_result100 (R100 x) = Ok x).
Proof.
  unfold get_result020, get_result040, get_result100, new_result_from_result040, new_result_from_result100, get_as_version, convert.
  split; [|split]; intros x E; cbn [convert_fuel result_version]; rewrite E; cbn; rewrite ?E; [reflexivity|split; reflexivity|split; reflexivity].
Qed.
(** A result without a version: GetResult of the 0.4.0 and 1.x packages take it to be of its
    type's own version; the 0.2.0 accessor and NewResultFromResult refuse it, even their own type. *)
Theorem C62_unversioned : forall r, result_version r = "" ->
  get_result040 r = get_result040 (set_version (implemented_version r) r) /\
  get_result100 r = get_result100 (set_version (implemented_version r) r) /\
  (exists e, get_result020 r = Err e) /\ (exists e, new_result_from_result040 r = Err e) /\ (exists e, new_result_from_result100 r = Err e).
Proof.
  intros r E. unfold get_result040, get_result100. rewrite !(proj1 (C35_empty_versions r _) E). split; [reflexivity|]. split; [reflexivity|].
  assert (F : forall v, In v ["0.2.0"; "0.4.0"; "1.1.0"] -> exists e, convert r v = Err e).
  { intros v I. unfold convert. cbn [convert_fuel]. rewrite E.
    assert (X : find_converter converters "" v = None) by (cbn [In] in I; repeat (destruct I as [<-|I]; [vm_compute; reflexivity|]); destruct I).
    cbn [In] in I. repeat (destruct I as [<-|I]; [change (String.eqb "" _) with false; change (String.eqb _ "") with false; cbn beta iota; change (String.eqb "" _) with false; rewrite ?X; eauto|]); try destruct I; eauto. }
  unfold get_result020, new_result_from_result040, new_result_from_result100.
  destruct (F "0.2.0") as [e1 ->]; [now left|]. destruct (F "0.4.0") as [e2 ->]; [right; now left|]. destruct (F "1.1.0") as [e3 ->]; [right; right; now left|].
  repeat split; eexists; reflexivity.
Qed.
(** A result whose CNIVersion does not belong to its Go type (a program can build one): GetResult
    returns an error, but NewResultFromResult panics. *)
Theorem C62_mislabelled_refuted : forall r,
  (result_version r = "0.4.0" -> ~ right_version r -> (exists e, get_result040 r = Err e) /\ new_result_from_result040 r = Panic) /\
  (result_version r = "1.1.0" -> ~ right_version r -> (exists e, get_result100 r = Err e) /\ new_result_from_result100 r = Panic).
Proof.
  intros r. unfold right_version. split; intros E N; rewrite E in N;
  unfold get_result040, get_result100, new_result_from_result040, new_result_from_result100, get_as_version, convert; cbn [convert_fuel]; rewrite E; cbn; rewrite ?E; cbn;
  destruct r as [x|x|x]; cbn [versions_of In] in N; try (exfalso; tauto); split; eauto.
Qed.
Example C62_nonvacuous : exists r, create "0.3.1" "{""cniVersion"":""0.3.1"",""ips"":[{""version"":""4"",""address"":""10.0.0.1/8""}]}" = Ok r /\
  complete r /\ has_usable_ip r.
Proof.
  eexists. split; [vm_compute; reflexivity|]. split; [cbn [complete v4_interfaces v4_ips v4_routes In]; intuition discriminate|].
  vm_compute. eauto.
Qed.
Example C62_mislabelled_nonvacuous : exists r, result_version r = "0.4.0" /\ ~ right_version r.
Proof. exists (R020 {| v2_version := "0.4.0"; v2_ip4 := None; v2_ip6 := None; v2_dns := dns_zero |}). split; [reflexivity|]. unfold right_version. cbn. intuition discriminate. Qed.
Print Assumptions C62_own_type.
Print Assumptions C62_old_type.
Print Assumptions C62_already_there.
Print Assumptions C62_unversioned.
Print Assumptions C62_mislabelled_refuted.
