(** C07, C32: different attachments do not share cache entries and do not interfere. *)
From Coq Require Import String Ascii List Bool Arith Lia ZArith.
From Verif Require Import Model.GoStr Model.Errors Model.Version Model.Path Model.Json Model.GoJson Model.Types Model.Conf Model.Invoke
  Model.Prog Model.Api Model.Validate
  Spec.VersionSpec Spec.NameSpec Spec.EnvSpec Spec.PathSpec Spec.RunSpec Spec.CacheSpec Spec.HistSpec
  Proofs.StrP Proofs.EnvP Proofs.ValidateP Proofs.PathP Proofs.ProgP Proofs.ApiP Proofs.VerbP Proofs.ConfineP Proofs.EntryP
  Properties.P_Api.
Import ListNotations.
Open Scope nat_scope.
Open Scope string_scope.

(** An attachment ADD accepts (C04, C05). *)
Definition accepted (name : string) (rt : runtime_conf) : Prop :=
  good_name name /\ good_name (rt_container rt) /\ good_ifname (rt_ifname rt).
(** Two attachments differ. *)
Definition different (n : string) (rt : runtime_conf) (n' : string) (rt' : runtime_conf) : Prop :=
  n <> n' \/ rt_container rt <> rt_container rt' \/ rt_ifname rt <> rt_ifname rt'.
(** Two of the three names of both attachments are free of dashes. *)
Definition few_dashes (n : string) (rt : runtime_conf) (n' : string) (rt' : runtime_conf) : Prop :=
  (undashed n n' /\ undashed (rt_container rt) (rt_container rt')) \/
  (undashed n n' /\ undashed (rt_ifname rt) (rt_ifname rt')) \/
  (undashed (rt_container rt) (rt_container rt') /\ undashed (rt_ifname rt) (rt_ifname rt')).

(** C07.  Exactly: two accepted attachments share an entry if and only if their three names joined
    with dashes read the same. *)
Definition dashed (n : string) (rt : runtime_conf) : string := n ++ "-" ++ rt_container rt ++ "-" ++ rt_ifname rt.
Theorem C07_shared_exactly : forall c n rt n' rt',
  accepted n rt -> accepted n' rt' -> cache_root c rt = cache_root c rt' ->
  (entry_path c n rt = entry_path c n' rt' <-> dashed n rt = dashed n' rt').
Proof.
  intros c n rt n' rt' (A1 & A2 & A3) (B1 & B2 & B3) R. split; intros E.
  - apply entry_path_inj in E; [exact E|now apply accepted_file_name|now apply accepted_file_name|exact R].
  - unfold entry_path, entry_name. unfold dashed in E. now rewrite R, E.
Qed.
(** The full claim is the next theorem without [few_dashes]; it is false (below). *)
Theorem C07_distinct_entries_partial : forall c n rt n' rt',
  accepted n rt -> accepted n' rt' -> cache_root c rt = cache_root c rt' ->
  few_dashes n rt n' rt' -> different n rt n' rt' ->
  entry_path c n rt <> entry_path c n' rt'.
Proof.
  intros c n rt n' rt' A B R D N E. apply C07_shared_exactly in E; [|assumption..].
  apply entry_name_inj in E; [|exact D]. unfold different in N. intuition.
Qed.
(** An operation on one attachment leaves the other's entry as it is, and goes the same way
    whatever the other's entry holds, whenever the joined names differ. *)
Theorem C07_no_interference_unless_shared : forall fl c a n rt n' rt' w tr w' v,
  about a = Some (n, rt) -> accepted n rt -> accepted n' rt' -> cache_root c rt = cache_root c rt' ->
  dashed n rt <> dashed n' rt' ->
  runs fl (performs c a) w tr w' v ->
  sget (entry_path c n' rt') w' = sget (entry_path c n' rt') w /\
  (forall x, In x tr -> match fst x with
     | OpRead p | OpTrunc p | OpWrite p _ | OpRemove p => p <> entry_path c n' rt' | _ => True end) /\
  forall data, exists u', runs fl (performs c a) (sset (entry_path c n' rt') data w) tr u' v /\
    sget (entry_path c n rt) u' = sget (entry_path c n rt) w'.
Proof.
  intros fl c a n rt n' rt' w tr w' v Ab A B R N Run.
  assert (Ne : entry_path c n rt <> entry_path c n' rt') by (intros E; apply N; exact (proj1 (C07_shared_exactly c n rt n' rt' A B R) E)).
  assert (C : confined (eq (entry_path c n rt)) (performs c a)).
  { apply cf_performs; [destruct a; cbn in *; tauto || discriminate|].
    intros p (x & y & E & _ & ->). rewrite Ab in E. injection E as -> ->. reflexivity. }
  split; [eapply runs_confined; eauto|]. split.
  - clear - Run C Ne. induction Run as [|o k w r w1 tr w2 a0 An Run IH]; intros x I; [destruct I|].
    destruct (confined_step _ _ _ _ _ _ _ _ C An) as (C1 & O & _). destruct I as [<-|I]; [|now apply (IH C1)].
    cbn [fst]. destruct o; cbn [op_in] in O; auto; intros ->; now apply Ne.
  - intros data. eapply runs_agree in Run as (u' & Ru & G); [|exact C|].
    + exists u'. split; [exact Ru|]. symmetry. apply G. reflexivity.
    + intros p <-. rewrite sget_sset_other; [reflexivity|exact Ne].
Qed.
Theorem C07_no_interference_partial : forall fl c a n rt n' rt' w tr w' v,
  about a = Some (n, rt) -> accepted n rt -> accepted n' rt' -> cache_root c rt = cache_root c rt' ->
  few_dashes n rt n' rt' -> different n rt n' rt' ->
  runs fl (performs c a) w tr w' v ->
  sget (entry_path c n' rt') w' = sget (entry_path c n' rt') w /\
  (forall x, In x tr -> match fst x with
     | OpRead p | OpTrunc p | OpWrite p _ | OpRemove p => p <> entry_path c n' rt' | _ => True end) /\
  forall data, exists u', runs fl (performs c a) (sset (entry_path c n' rt') data w) tr u' v /\
    sget (entry_path c n rt) u' = sget (entry_path c n rt) w'.
Proof.
  intros fl c a n rt n' rt' w tr w' v Ab A B R D N Run. eapply C07_no_interference_unless_shared; try eassumption.
  intros E. apply (C07_distinct_entries_partial c n rt n' rt' A B R D N). now apply C07_shared_exactly.
Qed.
(** Network a-b with container c, and network a with container b-c, share one entry: a successful
    DEL of the second removes what the ADD of the first cached. *)
Definition X_ab (n : string) (l : network_list) : network_list :=
  {| nl_name := n; nl_version := nl_version l; nl_disable_check := false; nl_disable_gc := false; nl_only_inlined := false;
     nl_plugins := nl_plugins l; nl_bytes := nl_bytes l |}.
Definition X_cid (s : string) : runtime_conf :=
  {| rt_container := s; rt_netns := "/ns"; rt_ifname := "eth0"; rt_args := []; rt_caps := []; rt_cache_dir := "" |}.
Theorem C07_shared_entry_refuted :
  accepted "a-b" (X_cid "c") /\ accepted "a" (X_cid "b-c") /\ different "a-b" (X_cid "c") "a" (X_cid "b-c") /\
  exists tr1 w1 r tr2 w2,
    runs false (add_network_list X_cni (X_ab "a-b" X_list) (X_cid "c")) [] tr1 w1 (Ok r) /\
    sget (entry_path X_cni "a-b" (X_cid "c")) w1 <> None /\
    runs false (del_network_list X_cni (X_ab "a" X_list) (X_cid "b-c")) w1 tr2 w2 (Ok tt) /\
    sget (entry_path X_cni "a-b" (X_cid "c")) w2 = None.
Proof.
  assert (G : forall s, validate_container_id s = None -> good_name s) by (intros; now apply validate_container_id_ok).
  split; [split; [apply G; reflexivity|split; [apply G; reflexivity|apply validate_interface_name_ok; reflexivity]]|].
  split; [split; [apply G; reflexivity|split; [apply G; reflexivity|apply validate_interface_name_ok; reflexivity]]|].
  split; [left; discriminate|].
  destruct (interp X_oracle 0 (add_network_list X_cni (X_ab "a-b" X_list) (X_cid "c")) []) as [[r w1] tr] eqn:E.
  pose proof (interp_run _ _ _ _ _ _ _ X_tame E) as R. vm_compute in E. injection E as <- <- <-.
  match type of R with runs _ _ _ ?t ?w (Ok ?r) => exists t, w, r end.
  match type of R with runs _ _ _ _ ?w _ =>
    destruct (interp X_oracle 0 (del_network_list X_cni (X_ab "a" X_list) (X_cid "b-c")) w) as [[r2 w2] tr2] eqn:E2 end.
  pose proof (interp_run _ _ _ _ _ _ _ X_tame E2) as R2. vm_compute in E2. injection E2 as <- <- <-.
  eexists _, _. split; [exact R|]. split; [vm_compute; discriminate|]. split; [exact R2|reflexivity].
Qed.
Example C07_nonvacuous : accepted "a-b" (X_cid "c") /\ accepted "a" (X_cid "c") /\
  few_dashes "a-b" (X_cid "c") "a" (X_cid "c") /\ different "a-b" (X_cid "c") "a" (X_cid "c").
Proof.
  assert (G : forall s, validate_container_id s = None -> good_name s) by (intros; now apply validate_container_id_ok).
  split; [split; [apply G; reflexivity|split; [apply G; reflexivity|apply validate_interface_name_ok; reflexivity]]|].
  split; [split; [apply G; reflexivity|split; [apply G; reflexivity|apply validate_interface_name_ok; reflexivity]]|].
  split; [|left; discriminate]. right. right. repeat split; apply lacks_cb; reflexivity.
Qed.

(** C32: any number of operations on attachments with different entries, run concurrently in any
    interleaving: each does what it could have done alone in the starting world, with the same
    answers from plugins and file system, and leaves its entry the same as if run alone; nothing
    else changes.  ([goes] is a run alone up to where it got, [runs] a complete one.) *)
Theorem C32_as_if_alone : forall fl c acts w tr w' rest,
  interleaves fl (map (performs c) acts) w tr w' rest ->
  Forall (fun a => ~ looks_around a) acts ->
  (forall i j a b p, i <> j -> nth_error acts i = Some a -> nth_error acts j = Some b ->
     at_entry c a p -> ~ at_entry c b p) ->
  (forall i a, nth_error acts i = Some a ->
     exists todo w_alone, nth_error rest i = Some todo /\
       goes fl (performs c a) w (own i tr) w_alone todo /\
       (forall v, todo = Ret v -> runs fl (performs c a) w (own i tr) w_alone v) /\
       forall p, at_entry c a p -> sget p w' = sget p w_alone) /\
  (forall p, (forall a, In a acts -> ~ at_entry c a p) -> sget p w' = sget p w).
Proof.
  intros fl c acts w tr w' rest H L D.
  pose (F := fun i p => exists a, nth_error acts i = Some a /\ at_entry c a p).
  destruct (interleaves_separate _ _ _ _ _ _ _ F H) as (Len & Each & Rest).
  - intros i p E. rewrite nth_error_map in E. destruct (nth_error acts i) as [a|] eqn:Ei; [|discriminate]. injection E as <-.
    apply cf_performs; [|intros q Q; exists a; auto]. rewrite Forall_forall in L. apply L. eapply nth_error_In; eauto.
  - intros i j p N _ _ (a & Ea & Pa) (b & Eb & Pb). exact (D _ _ _ _ _ N Ea Eb Pa Pb).
  - split.
    + intros i a Ea. destruct (Each i (performs c a)) with (u := w) as (q & u' & Q & Go & G).
      * rewrite nth_error_map, Ea. reflexivity.
      * intros p _. reflexivity.
      * exists q, u'. split; [exact Q|]. split; [exact Go|]. split; [intros v ->; now apply goes_runs|].
        intros p Pa. apply G. exists a. auto.
    + intros p N. apply Rest. intros i Li (a & Ea & Pa). apply (N a); [eapply nth_error_In; eauto|exact Pa].
Qed.

(** A scheduler for examples: which thread moves next. *)
Fixpoint schedule {A} (orc : oracle) (sched : list nat) (ps : list (prog A)) (w : world)
  : option (list (nat * event) * world * list (prog A)) :=
  match sched with
  | [] => Some ([], w, ps)
  | i :: sched' =>
      match nth_error ps i with
      | Some (Do o k) =>
          let (r, w1) := respond orc 0 w o in
          match schedule orc sched' (set_nth i (k r) ps) w1 with
          | Some (tr, w2, qs) => Some ((i, (o, r)) :: tr, w2, qs)
          | None => None
          end
      | _ => None
      end
  end.
Lemma schedule_interleaves A orc : tame orc -> forall sched (ps : list (prog A)) w tr w' qs,
  schedule orc sched ps w = Some (tr, w', qs) -> interleaves false ps w tr w' qs.
Proof.
  intros T. induction sched as [|i sched IH]; intros ps w tr w' qs E; cbn in E.
  - injection E as <- <- <-. constructor.
  - destruct (nth_error ps i) as [[a|o k]|] eqn:Ei; try discriminate.
    destruct (respond orc 0 w o) as [r w1] eqn:Er. destruct (schedule _ _ _ w1) as [[[t w2] q]|] eqn:Es; [|discriminate].
    injection E as <- <- <-. eapply ILStep; [exact Ei| |apply IH; exact Es].
    pose proof (respond_answer orc 0 w o T) as An. rewrite Er in An. exact An.
Qed.
(** Two concurrent ADDs for different containers, alternating: both finish and both entries are there. *)
Definition X_alternate : list nat := concat (repeat [0; 1] 9).
Example C32_nonvacuous : exists tr w' v1 v2,
  interleaves false (map (performs X_cni) [AddList X_list (X_cid "c1"); AddList X_list (X_cid "c2")]) [] tr w' [Ret (Ok v1); Ret (Ok v2)] /\
  sget "/c/results/net-c1-eth0" w' <> None /\ sget "/c/results/net-c2-eth0" w' <> None.
Proof.
  destruct (schedule X_oracle X_alternate (map (performs X_cni) [AddList X_list (X_cid "c1"); AddList X_list (X_cid "c2")]) []) as [[[tr w'] qs]|] eqn:E.
  - pose proof (schedule_interleaves _ _ X_tame _ _ _ _ _ _ E) as R. vm_compute in E. injection E as <- <- <-.
    eexists _, _, _, _. split; [exact R|]. split; vm_compute; discriminate.
  - vm_compute in E. discriminate.
Qed.
(** For one and the same attachment no such claim holds: two concurrent ADDs, both successful, can
    leave an entry that is neither's and cannot be read, because the file is truncated by both
    before either writes (os.WriteFile, api.go:296). *)
Definition X_args (a : string) : runtime_conf :=
  {| rt_container := "c1"; rt_netns := "/ns"; rt_ifname := "eth0"; rt_args := [("K", a)]; rt_caps := []; rt_cache_dir := "" |}.
Theorem C32_same_attachment_refuted : exists tr w' v1 v2,
  interleaves false (map (performs X_cni) [AddList X_list (X_args "a-long-value"); AddList X_list (X_args "v")]) [] tr w' [Ret (Ok v1); Ret (Ok v2)] /\
  (exists tr2 e, runs false (performs X_cni (ListConfig X_list X_rt)) w' tr2 w' (Err e)) /\
  (exists tr2 e, runs false (performs X_cni (ListResult X_list X_rt)) w' tr2 w' (Err e)).
Proof.
  destruct (schedule X_oracle (repeat 0 8 ++ repeat 1 8 ++ [0; 1])%list
    (map (performs X_cni) [AddList X_list (X_args "a-long-value"); AddList X_list (X_args "v")]) []) as [[[tr w'] qs]|] eqn:E.
  - pose proof (schedule_interleaves _ _ X_tame _ _ _ _ _ _ E) as R. vm_compute in E. injection E as <- <- <-.
    match type of R with interleaves _ _ _ ?t ?w [Ret (Ok ?a); Ret (Ok ?b)] => exists t, w, a, b; split; [exact R|];
      destruct (interp X_oracle 0 (performs X_cni (ListConfig X_list X_rt)) w) as [[r1 w1] tr1] eqn:E1;
      destruct (interp X_oracle 0 (performs X_cni (ListResult X_list X_rt)) w) as [[r2 w2] tr2] eqn:E2 end.
    pose proof (interp_run _ _ _ _ _ _ _ X_tame E1) as R1. pose proof (interp_run _ _ _ _ _ _ _ X_tame E2) as R2.
    vm_compute in E1. injection E1 as <- <- <-. vm_compute in E2. injection E2 as <- <- <-.
    split; eexists _, _; eassumption.
  - vm_compute in E. discriminate.
Qed.

Print Assumptions C07_shared_exactly.
Print Assumptions C07_no_interference_unless_shared.
Print Assumptions C07_distinct_entries_partial.
Print Assumptions C07_no_interference_partial.
Print Assumptions C07_shared_entry_refuted.
Print Assumptions C32_as_if_alone.
Print Assumptions C32_same_attachment_refuted.
