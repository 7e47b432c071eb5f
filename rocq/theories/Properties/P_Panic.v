(** C38, C34: exactly when a nil list entry makes conversion, and so DEL, panic. *)
From Coq Require Import String List Arith ZArith Bool.
From Verif Require Import Model.GoStr Model.Errors Model.NetIP Model.Json Model.Types Model.Conf Model.Prog Model.Api
  Spec.VersionSpec Spec.TypesSpec Spec.PanicSpec Spec.RunSpec Spec.CacheSpec
  Proofs.StrP Proofs.VersionP Proofs.ProgP Proofs.ApiP Proofs.VerbP Proofs.DecodeP Proofs.ConvP Proofs.PanicP Proofs.MapP Properties.P_Types Properties.P_Api.
Import ListNotations.
Open Scope nat_scope.
Open Scope string_scope.

(** Converting a decoded result panics exactly if it meets a nil entry; to a version that is not
    known it never does. *)
Theorem C38_panics_exactly : forall v0 text r v, create v0 text = Ok r -> In v known_versions ->
  (get_as_version r v = Panic <-> meets_nil r v).
Proof. intros v0 text r v H K. apply create_inv in H as (_ & _ & _ & V & _). now apply gv_panics. Qed.
Theorem C38_unknown_never_panics : forall v0 text r v, create v0 text = Ok r -> v <> "" -> ~ In v known_versions ->
  get_as_version r v <> Panic.
Proof.
  intros v0 text r v H N K. apply create_inv in H as (_ & _ & _ & V & _). destruct (C35_unknown_target r v V N K) as [e ->]. discriminate.
Qed.
(** In particular, same-format conversions never panic, and neither does anything from 0.1.0/0.2.0. *)
Theorem C38_same_format_never_panics : forall v0 text r v, create v0 text = Ok r -> In v (versions_of r) -> get_as_version r v <> Panic.
Proof.
  intros v0 text r v H K P. assert (K' : In v known_versions) by (destruct r; cbn [versions_of In known_versions] in *; tauto).
  apply (C38_panics_exactly _ _ _ _ H K') in P.
  destruct r; cbn [versions_of meets_nil In] in *; unfold old_version in P; intuition; subst; discriminate.
Qed.
Example C38_exact_nonvacuous :
  (exists r, create "1.0.0" "{""cniVersion"":""1.0.0"",""ips"":[null]}" = Ok r /\ meets_nil r "0.4.0" /\ ~ meets_nil r "1.1.0") /\
  (exists r, create "0.4.0" "{""cniVersion"":""0.4.0"",""ips"":[{""version"":""4"",""address"":""10.0.0.1/8""},{""version"":""6"",""address"":""fe80::1/64""},null]}" = Ok r /\
     meets_nil r "1.0.0" /\ ~ meets_nil r "0.2.0").
Proof.
  split; eexists; (split; [vm_compute; reflexivity|]); (split; [left; cbn [In v1_ips v1_interfaces v4_ips v4_interfaces]; tauto|]).
  - intros [[X _]|[X _]]; [cbn [In] in X; repeat (destruct X as [X|X]; [discriminate|]); exact X|destruct X; discriminate].
  - intros [[X _]|[_ [X|X]]].
    + cbn [In] in X. repeat (destruct X as [X|X]; [discriminate|]). exact X.
    + cbn [v4_ips] in X. destruct X as (l1 & l2 & E & N). destruct l1 as [|a l1]; [discriminate|]. destruct l1 as [|b l1]; [discriminate|].
      cbn [app] in E. apply N. split; [exists (match a with Some x => x | None => {| i4_version := ""; i4_interface := None; i4_address := {| n_ip := []; n_mask := [] |}; i4_gateway := [] |} end)
        |exists (match b with Some x => x | None => {| i4_version := ""; i4_interface := None; i4_address := {| n_ip := []; n_mask := [] |}; i4_gateway := [] |} end)];
      (split; [|injection E as <- <- _; reflexivity]); injection E as <- <- _; [now left|right; now left].
    + exact X.
Qed.

Lemma held_right data x : held_result data = Ok x -> right_version x.
Proof.
  unfold held_result, create_from_bytes. destruct (Types.decode_version (held_document data)) as [v|e|]; cbn [rbind]; [|discriminate|discriminate].
  intros H. now apply create_inv in H as (_ & _ & _ & V & _).
Qed.
Lemma held_no_panic data : held_result data <> Panic.
Proof.
  unfold held_result, create_from_bytes. destruct (Types.decode_version (held_document data)) as [v|e|] eqn:E; cbn [rbind]; [apply create_no_panic|discriminate|].
  unfold Types.decode_version in E. destruct (obind _ _); [destruct (String.eqb _ _)|]; discriminate.
Qed.
Lemma reads_panic ver data : ver <> "" -> (reads_result ver (Some data) = Panic <-> exists x, held_result data = Ok x /\ meets_nil x ver).
Proof.
  intros NE. unfold reads_result. destruct (held_result data) as [x|e|] eqn:H.
  - pose proof (held_right _ _ H) as V. transitivity (get_as_version x ver = Panic).
    { destruct (get_as_version x ver); split; congruence. }
    destruct (mem_str ver known_versions) eqn:M.
    + apply mem_in in M. rewrite (gv_panics x ver V M). split; [intros X; exists x; auto|intros (y & E & X); congruence].
    + assert (K : ~ In ver known_versions) by (intros I; apply mem_in in I; congruence).
      destruct (C35_unknown_target x ver V NE K) as [e ->]. split; [discriminate|]. intros (y & E & X). exfalso. apply K.
      destruct y as [y|y|y]; unfold meets_nil, old_version, known_versions in *; cbn [In] in *; intuition.
  - split; [discriminate|intros (y & E & _); discriminate].
  - now apply held_no_panic in H.
Qed.
(** Whatever the cache file holds (any bytes): unless it holds a result whose conversion to the
    list's version meets a nil entry, every plugin is asked and DEL succeeds exactly if they all do. *)
Theorem C34_del_tolerates_any_file : forall fl c l rt w tr w' r, runs fl (del_network_list c l rt) w tr w' r ->
  at_least (nl_version l) (0, 4, 0)%Z ->
  (forall data x, sget (entry_path c (nl_name l) rt) w = Some data -> held_result data = Ok x -> ~ meets_nil x (nl_version l)) ->
  exists prev, asked_in_order c "DEL" (nl_name l) (nl_version l) rt (rev (nl_plugins l)) prev tr /\
  (r = Ok tt <-> all_succeeded (List.length (nl_plugins l)) tr) /\
  (cache_provides c (nl_name l) (nl_version l) rt w prev \/ (fl = true /\ prev = None)).
Proof.
  intros fl c l rt w tr w' r H AL NP.
  assert (WF : well_formed_version (nl_version l)) by (destruct AL as (u & V & _); now exists u).
  assert (SE : safe_entry c (nl_name l) (nl_version l) rt w).
  { unfold safe_entry. destruct (sget (entry_path c (nl_name l) rt) w) as [data|] eqn:G; [|discriminate].
    intros P. apply reads_panic in P as (x & E & M).
    - exact (NP data x eq_refl E M).
    - intros E. rewrite E in AL. destruct AL as (u & V & GE). apply parse_version_spec in V. vm_compute in V. assert (U : u = (0, 1, 0)%Z) by congruence. rewrite U in GE. vm_compute in GE. intuition discriminate. }
  destruct (del_summary _ _ _ _ _ _ _ _ H WF (fun _ => SE)) as (prev & A & O & _ & _ & P). exists prev. auto.
Qed.
(** In the remaining case DEL panics before asking any plugin, and leaves the file. *)
Theorem C34_otherwise_exactly : forall c l rt w tr w' r data x, runs false (del_network_list c l rt) w tr w' r ->
  at_least (nl_version l) (0, 4, 0)%Z -> named (nl_name l) rt ->
  sget (entry_path c (nl_name l) rt) w = Some data -> held_result data = Ok x -> meets_nil x (nl_version l) ->
  r = Panic /\ calls tr = [] /\ w' = w.
Proof.
  intros c l rt w tr w' r data x H AL N G HR M.
  assert (NE : nl_version l <> "").
  { intros E. rewrite E in M. destruct x; unfold meets_nil, old_version in M; cbn [In] in M; intuition discriminate. }
  assert (P : cached_in c (nl_name l) (nl_version l) rt w = Panic).
  { rewrite cached_in_named by exact N. rewrite G. apply reads_panic; [exact NE|eauto]. }
  destruct (del_network_list_inv _ _ _ _ _ _ _ _ H) as [(NW & _)|[(_ & _ & -> & -> & _ & C)|D]].
  - exfalso. apply NW. destruct AL as (u & V & _). now exists u.
  - auto.
  - destruct D as (cached & tr0 & trp & w1 & tr1 & trd & r1 & _ & _ & _ & K & _). exfalso.
    destruct K as [(_ & K & [E|(X & _)])|(B & _)]; [|discriminate|].
    + rewrite P in E. destruct K as [(y & Y & _)|(e & Y & _)]; congruence.
    + exact (at_least_below _ _ AL B).
Qed.
Example C34_exact_nonvacuous : exists data x, data = "{""cniVersion"":""0.4.0"",""ips"":[null]}" /\ held_result data = Ok x /\ meets_nil x (nl_version X_list).
Proof.
  eexists _, _. split; [reflexivity|]. split; [vm_compute; reflexivity|]. left. split; [vm_compute; tauto|]. right. now left.
Qed.
Print Assumptions C38_panics_exactly.
Print Assumptions C34_del_tolerates_any_file.
Print Assumptions C34_otherwise_exactly.
