(** C65: what the library's operations do to the file system and which programs they look up. *)
From Coq Require Import String Ascii List Bool Arith Lia.
From Verif Require Import Model.GoStr Model.Errors Model.Version Model.Path Model.Json Model.GoJson Model.Types Model.Conf Model.Invoke
  Model.Prog Model.Api Spec.NameSpec Spec.EnvSpec Spec.PathSpec Spec.VersionSpec Spec.RunSpec Spec.CacheSpec Spec.HistSpec Spec.MapSpec Spec.TouchSpec
  Proofs.StrP Proofs.PathP Proofs.FilesP Proofs.ProgP Proofs.EnvP Proofs.ApiP Proofs.VerbP Proofs.ConfineP Proofs.EntryP Proofs.ListP Proofs.TouchP Proofs.ValidateP Properties.P_Api.
Import ListNotations.
Open Scope nat_scope.
Open Scope string_scope.

(** Every step of every operation about one attachment or none, however far it gets. *)
Theorem C65_steps : forall fl c a w tr w' rest, goes fl (performs c a) w tr w' rest -> ~ looks_around a ->
  forall o r, In (o, r) tr -> may c a o.
Proof. intros fl c a w tr w' rest G L. eapply goes_within; [exact G|now apply wi_performs]. Qed.
(** The same for an interrupted operation; a write cut short is to the same entry. *)
Theorem C65_crash : forall fl c a w tr w', crashes fl (performs c a) w tr w' -> ~ looks_around a ->
  forall p, ~ at_entry c a p -> sget p w' = sget p w.
Proof. intros fl c a w tr w' C L p N. eapply crashes_confined; [exact C| |exact N]. now apply cf_performs. Qed.
(** Listing reads files of the results directory, and GC in addition reads and removes the entries
    named by records it found there. *)
Theorem C65_listing : forall fl c id w tr w' rest, goes fl (performs c (Attachments id)) w tr w' rest -> tidy w ->
  forall o r, In (o, r) tr -> may_list c o.
Proof.
  intros fl c id w tr w' rest G T o r I. apply goes_bind in G as [(q & G)|(t1 & w1 & a & t2 & R & G & ->)].
  - eapply list_ops; eassumption.
  - inversion G; subst. rewrite app_nil_r in I. apply runs_goes in R. eapply list_ops; eassumption.
Qed.
Theorem C65_gc : forall fl c l args w tr w' rest, goes fl (performs c (Gc l args)) w tr w' rest -> tidy w ->
  forall o r, In (o, r) tr -> may_collect c l tr o.
Proof.
  intros fl c l args w tr w' rest G T o r I. apply goes_bind in G as [(q & G)|(t1 & w1 & a & t2 & R & G & ->)].
  - eapply gc_ops; eassumption.
  - inversion G; subst. rewrite app_nil_r in *. apply runs_goes in R. eapply gc_ops; eassumption.
Qed.

(** The entry of an attachment whose names are accepted is a file of the results directory. *)
Theorem C65_inside : forall c a p name rt, about a = Some (name, rt) -> at_entry c a p ->
  good_name name -> good_name (rt_container rt) -> good_ifname (rt_ifname rt) ->
  let dir := join_path [cache_root c rt; "results"] in
  file_name (entry_name name rt) /\ p = entry_of dir (entry_name name rt) /\ dir_path p = dir.
Proof.
  intros c a p name rt A (name' & rt' & A' & N & ->) G1 G2 G3. cbv zeta. assert (name' = name) by congruence. assert (rt' = rt) by congruence. subst name' rt'.
  pose proof (accepted_file_name name rt G1 G2 G3) as F. split; [exact F|]. rewrite (entry_path_eq c name rt F). split; [reflexivity|].
  apply dir_entry; [|now apply simple_spec]. cbn [join_path].
  destruct (String.eqb_spec (cache_root c rt) "") as [E|_]; [now apply cache_root_nonempty in E|]. apply clean_form.
Qed.
(** If the records GC finds have accepted names, it touches files of the results directory only. *)
Theorem C65_gc_inside : forall fl c l args w tr w' rest, goes fl (performs c (Gc l args)) w tr w' rest -> tidy w ->
  good_name (nl_name l) ->
  (forall a, found_record l tr a -> at_container a <> "" -> good_name (at_container a) /\ good_ifname (at_ifname a)) ->
  forall o r p, In (o, r) tr -> o = OpRead p \/ changes o = Some p -> in_results c p /\ (o = OpRead p \/ o = OpRemove p).
Proof.
  intros fl c l args w tr w' rest G T GN H o r p I C. pose proof (C65_gc _ _ _ _ _ _ _ _ G T o r I) as M.
  assert (X : forall a, found_record l tr a -> at_container a <> "" -> in_results c (entry_path c (nl_name l) (rt_of_attachment a))).
  { intros a F NE. destruct (H a F NE) as [G2 G3]. pose proof (accepted_file_name (nl_name l) (rt_of_attachment a) GN G2 G3) as FN.
    exists (entry_name (nl_name l) (rt_of_attachment a)). split; [exact FN|]. rewrite (entry_path_eq _ _ _ FN).
    change (join_path [cache_root c (rt_of_attachment a); "results"]) with (results_dir c). apply dir_entry_of. }
  destruct M as [M|M].
  - destruct o; try (destruct M; fail); destruct C as [E|E]; try discriminate E. assert (path = p) by congruence. subst path. split; [exact M|now left].
  - destruct o; try (destruct M; fail); destruct C as [E|E]; try discriminate E;
      (assert (path = p) by (cbn in E; congruence); subst path; destruct M as (a & F & NE & ->); split; [now apply X|auto]).
Qed.

(** *** What does not hold *)
(** DEL validates nothing: an interface name with dots and slashes makes it remove a file anywhere. *)
Definition X_escape : runtime_conf :=
  {| rt_container := "c"; rt_netns := ""; rt_ifname := "/../../../etc/x"; rt_args := []; rt_caps := []; rt_cache_dir := "" |}.
Theorem C65_del_refuted : exists tr w', runs false (performs X_cni (DelList X_list X_escape)) [("/etc/x", "other")] tr w' (Ok VNothing) /\
  sget "/etc/x" w' = None.
Proof.
  destruct (interp X_oracle 0 (performs X_cni (DelList X_list X_escape)) [("/etc/x", "other")]) as [[r w'] tr] eqn:E. pose proof (interp_run _ _ _ _ _ _ _ X_tame E) as R.
  vm_compute in E. injection E as <- <- <-. eexists _, _. split; [exact R|reflexivity].
Qed.
(** A query with such a name reads (and a DEL removes) outside the cache; GC does so on behalf of a record
    in the results directory that carries such a name. *)
Definition X_record : string := "{""kind"":""cniCacheV1"",""containerId"":""c"",""ifName"":""/../../../etc/x"",""networkName"":""net""}".
Lemma X_record_tidy : tidy [("/c/results/r", X_record); ("/etc/x", "other")].
Proof.
  assert (K : forall x, x <> "" -> x <> "." -> contains_byte "/"%char x = false -> x <> "" /\ x <> "." /\ lacks "/"%char x) by (intros x A B C; repeat split; [exact A|exact B|now apply lacks_cb]).
  split; [apply ssorted_cons; split; [reflexivity|apply ssorted_cons; split; exact I]|]. cbn [map fst]. apply Forall_cons; [|apply Forall_cons; [|apply Forall_nil]]; right; right; exists true.
  - exists ["c"; "results"; "r"]. split; [easy|]. split; [|reflexivity].
    split; (do 3 (apply Forall_cons; [try (apply K; easy); easy|]); apply Forall_nil).
  - exists ["etc"; "x"]. split; [easy|]. split; [|reflexivity].
    split; (do 2 (apply Forall_cons; [try (apply K; easy); easy|]); apply Forall_nil).
Qed.
Theorem C65_gc_refuted : exists tr w', tidy [("/c/results/r", X_record); ("/etc/x", "other")] /\
  runs false (performs X_cni (Gc X_list (Some (Some [])))) [("/c/results/r", X_record); ("/etc/x", "other")] tr w' (Ok VNothing) /\
  sget "/etc/x" w' = None /\ sget "/c/results/r" w' = Some X_record.
Proof.
  destruct (interp X_oracle 0 (performs X_cni (Gc X_list (Some (Some [])))) [("/c/results/r", X_record); ("/etc/x", "other")]) as [[r w'] tr] eqn:E.
  pose proof (interp_run _ _ _ _ _ _ _ X_tame E) as R.
  vm_compute in E. injection E as <- <- <-. eexists _, _. split; [|split; [exact R|split; reflexivity]].
  exact X_record_tidy.
Qed.

(** An ADD, and a GC that removes the entry, with all they touch. *)
Example C65_nonvacuous :
  (exists tr w', goes false (performs X_cni (AddList X_list X_rt)) [] tr w' (Ret (Ok (VResult (match X_add with (Ok x, _, _) => x | _ => None end)))) /\
     changed tr = ["/c/results/net-c1-eth0"; "/c/results/net-c1-eth0"] /\ good_name (nl_name X_list) /\ good_name (rt_container X_rt) /\ good_ifname (rt_ifname X_rt)) /\
  (exists tr, goes false (performs X_cni (Gc X_list (Some (Some [])))) X_world tr [] (Ret (Ok VNothing)) /\ changed tr = ["/c/results/net-c1-eth0"]).
Proof.
  split.
  - destruct (interp X_oracle 0 (performs X_cni (AddList X_list X_rt)) []) as [[r w'] tr] eqn:E. pose proof (interp_run _ _ _ _ _ _ _ X_tame E) as R. apply runs_goes in R.
    vm_compute in E. injection E as <- <- <-. eexists _, _. split; [exact R|]. split; [vm_compute; reflexivity|].
    split; [apply ValidateP.validate_network_name_ok; reflexivity|]. split; [apply ValidateP.validate_container_id_ok; reflexivity|apply ValidateP.validate_interface_name_ok; reflexivity].
  - destruct (interp X_oracle 0 (performs X_cni (Gc X_list (Some (Some [])))) X_world) as [[r w'] tr] eqn:E. pose proof (interp_run _ _ _ _ _ _ _ X_tame E) as R. apply runs_goes in R.
    vm_compute in E. injection E as <- <- <-. eexists. split; [exact R|vm_compute; reflexivity].
Qed.

Print Assumptions C65_steps.
Print Assumptions C65_gc.
Print Assumptions C65_gc_inside.
Print Assumptions C65_inside.
