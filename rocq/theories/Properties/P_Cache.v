(** C27-C31, C33: the cache. *)
From Coq Require Import String Ascii List Arith NArith ZArith Bool Lia.
From Verif Require Import Model.GoStr Model.Errors Model.Version Model.Path Model.Json Model.GoJson Model.NetIP Model.Types Model.Conf Model.Invoke
  Model.Prog Model.Api
  Spec.NameSpec Spec.VersionSpec Spec.JsonSpec Spec.ConfSpec Spec.TypesSpec Spec.PathSpec Spec.RunSpec Spec.CacheSpec Spec.HistSpec Spec.MapSpec
  Proofs.StrP Proofs.PathP Proofs.JsonP Proofs.JsonRT Proofs.GoJsonP Proofs.TypesP Proofs.DecodeP Proofs.ShapeP
  Proofs.ProgP Proofs.ApiP Proofs.CacheP Proofs.VerbP Proofs.SingleP Proofs.ConfineP Proofs.EntryP Proofs.HistP Proofs.ListP Proofs.MapP
  Properties.P_Api Properties.P_Types.
Import ListNotations.
Open Scope nat_scope.
Open Scope string_scope.

Lemma same_entry_path c name rt rt' : same_entry c rt rt' -> entry_path c name rt' = entry_path c name rt.
Proof. intros (A & B & C). unfold entry_path, entry_name. now rewrite A, B, C. Qed.
Lemma same_entry_named c name rt rt' : same_entry c rt rt' -> named name rt -> named name rt'.
Proof. intros (A & B & _) (N1 & N2 & N3). unfold named. rewrite A, B. auto. Qed.
Lemma saves_list fl c l rt w tr w1 r : runs fl (add_network_list c l rt) w tr w1 (Ok r) ->
  runs fl (performs c (AddList l rt)) w tr w1 (Ok (VResult r)).
Proof. intros R. cbn [performs]. unfold returning. apply runs_bind. exists tr, w1, (Ok r), []. rewrite app_nil_r. split; [exact R|]. split; [constructor|reflexivity]. Qed.
Lemma saves_one fl c n rt w tr w1 r : runs fl (add_network c n rt) w tr w1 (Ok r) ->
  runs fl (performs c (AddOne n rt)) w tr w1 (Ok (VResult (Some r))).
Proof. intros R. cbn [performs]. unfold returning. apply runs_bind. exists tr, w1, (Ok r), []. rewrite app_nil_r. split; [exact R|]. split; [constructor|reflexivity]. Qed.

(** ** C27 *)
(** After a successful ADD that returned [r], a query for that network and attachment with any
    configuration version gets [r] converted to that version ([C35] to [C39] say what that is). *)
Theorem C27_query_returns_the_add_result : forall fl fl' c l rt w tr w1 r l' rt' tr' w2 v,
  runs fl (add_network_list c l rt) w tr w1 (Ok (Some r)) -> carried (nl_name l) rt -> wf_result exact prefix_form r ->
  nl_name l' = nl_name l -> same_entry c rt rt' ->
  runs fl' (get_network_list_cached_result c l' rt') w1 tr' w2 v ->
  w2 = w1 /\ (v = presented (nl_version l') r \/ (fl' = true /\ v = Ok None)).
Proof.
  intros fl fl' c l rt w tr w1 r l' rt' tr' w2 v A C W NL SE Q. apply saves_list in A.
  destruct (add_saves _ _ _ _ _ _ _ _ A eq_refl) as (_ & NM & FP & (data & ST & G) & _).
  apply get_cached_inv in Q. destruct Q as (-> & _ & _ & Q). split; [reflexivity|]. destruct Q as [->|(F & _ & ->)]; [left|right; auto].
  rewrite NL. rewrite cached_in_named by (eapply same_entry_named; eassumption). rewrite (same_entry_path _ _ _ _ SE).
  cbn [sv_name sv_rt] in *. unfold place in G. cbn [sv_name sv_rt] in G. rewrite G. exact (stored_reads _ _ r _ ST C FP eq_refl W).
Qed.
Lemma presented_same r : right_version r -> presented (result_version r) r = Ok (Some r).
Proof. intros V. unfold presented. rewrite C36_same_type; [destruct r as [[]|[]|[]]; reflexivity|exact V|exact V]. Qed.
(** It is the ADD's result itself when the versions agree. *)
Theorem C27_same_version : forall fl c l rt w tr w1 r l' rt' tr' w2 v,
  runs fl (add_network_list c l rt) w tr w1 (Ok (Some r)) -> carried (nl_name l) rt -> wf_result exact prefix_form r ->
  nl_name l' = nl_name l -> nl_version l' = result_version r -> same_entry c rt rt' ->
  runs false (get_network_list_cached_result c l' rt') w1 tr' w2 v -> v = Ok (Some r).
Proof.
  intros fl c l rt w tr w1 r l' rt' tr' w2 v A C W NL NV SE Q.
  destruct (C27_query_returns_the_add_result _ _ _ _ _ _ _ _ _ _ _ _ _ _ A C W NL SE Q) as (_ & [->|(X & _)]); [|discriminate].
  rewrite NV. apply presented_same. apply W.
Qed.
(** The same for AddNetwork and its query. *)
Theorem C27_one : forall fl fl' c n rt w tr w1 r n' rt' tr' w2 v,
  runs fl (add_network c n rt) w tr w1 (Ok r) -> carried (pc_name (pg_conf n)) rt -> wf_result exact prefix_form r ->
  pc_name (pg_conf n') = pc_name (pg_conf n) -> same_entry c rt rt' ->
  runs fl' (get_network_cached_result c n' rt') w1 tr' w2 v ->
  w2 = w1 /\ (v = presented (pc_version (pg_conf n')) r \/ (fl' = true /\ v = Ok None)).
Proof.
  intros fl fl' c n rt w tr w1 r n' rt' tr' w2 v A C W NL SE Q. apply saves_one in A.
  destruct (add_saves _ _ _ _ _ _ _ _ A eq_refl) as (_ & NM & FP & (data & ST & G) & _).
  apply get_cached_inv in Q. destruct Q as (-> & _ & _ & Q). split; [reflexivity|]. destruct Q as [->|(F & _ & ->)]; [left|right; auto].
  rewrite NL. rewrite cached_in_named by (eapply same_entry_named; eassumption). rewrite (same_entry_path _ _ _ _ SE).
  unfold place in G. cbn [sv_name sv_rt] in *. rewrite G. exact (stored_reads _ _ r _ ST C FP eq_refl W).
Qed.

(** ** C28 *)
(** After a successful ADD, the query for the configuration of that network and attachment returns
    the configuration's exact bytes, with the ADD's CNI arguments (those of the query if the ADD had
    none) and its capability arguments as JSON carries them ([C10]). *)
Theorem C28_query_returns_the_add_configuration : forall fl fl' c l rt w tr w1 r l' rt' tr' w2 v m,
  runs fl (add_network_list c l rt) w tr w1 (Ok r) -> carried (nl_name l) rt -> caps_as rt m ->
  nl_name l' = nl_name l -> same_entry c rt rt' ->
  runs fl' (get_network_list_cached_config c l' rt') w1 tr' w2 v ->
  w2 = w1 /\ (v = Ok (Some (config_answer (nl_bytes l) rt rt' m)) \/ (fl' = true /\ v = Ok None)).
Proof.
  intros fl fl' c l rt w tr w1 r l' rt' tr' w2 v m A C CM NL SE Q. apply saves_list in A.
  destruct (add_saves _ _ _ _ _ _ _ _ A eq_refl) as (_ & NM & FP & (data & ST & G) & _).
  apply get_cached_config_inv in Q. destruct Q as (-> & _ & _ & Q). split; [reflexivity|]. destruct Q as [->|(F & _ & ->)]; [left|right; auto].
  rewrite NL. apply (stored_config _ _ _ rt' m w1 ST C FP CM).
  - eapply same_entry_named; eassumption.
  - cbn [sv_name]. rewrite (same_entry_path _ _ _ _ SE). exact G.
Qed.
Theorem C28_one : forall fl fl' c n rt w tr w1 r n' rt' tr' w2 v m,
  runs fl (add_network c n rt) w tr w1 (Ok r) -> carried (pc_name (pg_conf n)) rt -> caps_as rt m ->
  pc_name (pg_conf n') = pc_name (pg_conf n) -> same_entry c rt rt' ->
  runs fl' (get_network_cached_config c n' rt') w1 tr' w2 v ->
  w2 = w1 /\ (v = Ok (Some (config_answer (pg_bytes n) rt rt' m)) \/ (fl' = true /\ v = Ok None)).
Proof.
  intros fl fl' c n rt w tr w1 r n' rt' tr' w2 v m A C CM NL SE Q. apply saves_one in A.
  destruct (add_saves _ _ _ _ _ _ _ _ A eq_refl) as (_ & NM & FP & (data & ST & G) & _).
  apply get_cached_config_inv in Q. destruct Q as (-> & _ & _ & Q). split; [reflexivity|]. destruct Q as [->|(F & _ & ->)]; [left|right; auto].
  rewrite NL. apply (stored_config _ _ _ rt' m w1 ST C FP CM).
  - eapply same_entry_named; eassumption.
  - cbn [sv_name]. rewrite (same_entry_path _ _ _ _ SE). exact G.
Qed.
(** If the capability arguments are as JSON decodes them (sorted keys, shortest float64 numbers) the
    query returns them unchanged. *)
Theorem C28_capability_arguments : forall rt,
  Forall (fun kj => well_formed_text (fst kj) /\ injectable (snd kj)) (rt_caps rt) -> canonical (JObj (rt_caps rt)) -> caps_as rt (rt_caps rt).
Proof.
  intros rt F C. split; [exact F|]. unfold reencoded, enc_map. pose proof C as C'. apply canonical_obj in C as [S _]. rewrite sset_all_id by exact S.
  now apply canonical_norm.
Qed.

(** *** Concrete cases *)
Definition X_caps_rt : runtime_conf :=
  {| rt_container := "c1"; rt_netns := "/ns"; rt_ifname := "eth0"; rt_args := [("K", "v")];
     rt_caps := [("mac", JStr "aa"); ("ports", JArr [JNum "80"])]; rt_cache_dir := "" |}.
Definition X_asked_rt : runtime_conf :=
  {| rt_container := "c1"; rt_netns := ""; rt_ifname := "eth0"; rt_args := []; rt_caps := []; rt_cache_dir := "/elsewhere" |}.
Definition X_add_result : result :=
  R100 {| v1_version := "1.1.0"; v1_interfaces := [];
          v1_ips := [Some {| i1_interface := None; i1_address := {| n_ip := v4in6 [10; 0; 0; 3]%N; n_mask := cidr_mask 24 32 |}; i1_gateway := [] |}];
          v1_routes := []; v1_dns := {| d_nameservers := []; d_domain := ""; d_search := []; d_options := [] |} |}.
Lemma X_add_result_wf : wf_result exact prefix_form X_add_result.
Proof.
  split; [|cbn; auto]. split; [constructor|]. split.
  - constructor; [|constructor]. split; [exact I|]. split; [|now left]. apply pf4; [now apply X_octets|easy].
  - split; [constructor|]. repeat split; constructor.
Qed.
Lemma X_caps_carried : carried (nl_name X_list) X_caps_rt /\ caps_as X_caps_rt (rt_caps X_caps_rt).
Proof.
  assert (C : caps_as X_caps_rt (rt_caps X_caps_rt)).
  { apply C28_capability_arguments.
    - constructor; [split; [apply ascii_wft; reflexivity|split; [apply ascii_wft; reflexivity|easy]]|].
      constructor; [split; [apply ascii_wft; reflexivity|split; [split; [|exact I]|easy]]|constructor]. apply number_lit_spec. reflexivity.
    - split; [repeat constructor|]. repeat split. }
  split; [|exact C]. split; [|eexists; exact C].
  unfold texts_ok. repeat (split; [apply ascii_wft; reflexivity|]). constructor; [split; apply ascii_wft; reflexivity|constructor].
Qed.
Definition X_caps_world : world := Eval vm_compute in match interp X_oracle 0 (add_network_list X_cni X_list X_caps_rt) [] with (_, w, _) => w end.
Lemma X_caps_add : exists tr, runs false (add_network_list X_cni X_list X_caps_rt) [] tr X_caps_world (Ok (Some X_add_result)).
Proof.
  destruct (interp X_oracle 0 (add_network_list X_cni X_list X_caps_rt) []) as [[r w1] tr] eqn:E. pose proof (interp_run _ _ _ _ _ _ _ X_tame E) as R.
  assert (E2 : match interp X_oracle 0 (add_network_list X_cni X_list X_caps_rt) [] with (r, w, _) => (r, w) end = (Ok (Some X_add_result), X_caps_world)) by (vm_compute; reflexivity).
  rewrite E in E2. injection E2 as -> ->. exists tr. exact R.
Qed.
Example C27_nonvacuous : exists tr tr' w2,
  runs false (add_network_list X_cni X_list X_caps_rt) [] tr X_caps_world (Ok (Some X_add_result)) /\
  carried (nl_name X_list) X_caps_rt /\ wf_result exact prefix_form X_add_result /\ same_entry X_cni X_caps_rt X_asked_rt /\
  runs false (get_network_list_cached_result X_cni X_list X_asked_rt) X_caps_world tr' w2 (Ok (Some X_add_result)).
Proof.
  destruct X_caps_add as [tr R].
  destruct (interp X_oracle 0 (get_network_list_cached_result X_cni X_list X_asked_rt) X_caps_world) as [[r2 w2] tr2] eqn:E. pose proof (interp_run _ _ _ _ _ _ _ X_tame E) as R2.
  assert (E2 : match interp X_oracle 0 (get_network_list_cached_result X_cni X_list X_asked_rt) X_caps_world with (r, _, _) => r end = Ok (Some X_add_result)) by (vm_compute; reflexivity).
  rewrite E in E2. subst r2.
  exists tr, tr2, w2. split; [exact R|]. split; [apply X_caps_carried|]. split; [exact X_add_result_wf|]. split; [repeat split|exact R2].
Qed.
Example C28_nonvacuous : exists tr tr' w2,
  runs false (add_network_list X_cni X_list X_caps_rt) [] tr X_caps_world (Ok (Some X_add_result)) /\
  caps_as X_caps_rt (rt_caps X_caps_rt) /\
  runs false (get_network_list_cached_config X_cni X_list X_asked_rt) X_caps_world tr' w2
    (Ok (Some (X_list_doc, {| rt_container := "c1"; rt_netns := ""; rt_ifname := "eth0"; rt_args := [("K", "v")];
                              rt_caps := rt_caps X_caps_rt; rt_cache_dir := "/elsewhere" |}))).
Proof.
  destruct X_caps_add as [tr R].
  destruct (interp X_oracle 0 (get_network_list_cached_config X_cni X_list X_asked_rt) X_caps_world) as [[r2 w2] tr2] eqn:E. pose proof (interp_run _ _ _ _ _ _ _ X_tame E) as R2.
  assert (E2 : match interp X_oracle 0 (get_network_list_cached_config X_cni X_list X_asked_rt) X_caps_world with (r, _, _) => r end = 
    Ok (Some (X_list_doc, {| rt_container := "c1"; rt_netns := ""; rt_ifname := "eth0"; rt_args := [("K", "v")];
                              rt_caps := rt_caps X_caps_rt; rt_cache_dir := "/elsewhere" |}))) by (vm_compute; reflexivity).
  rewrite E in E2. subst r2. exists tr, tr2, w2. split; [exact R|]. split; [apply X_caps_carried|exact R2].
Qed.

(** ** C30 *)
(** GetCachedAttachments(id) returns one attachment per file of the results directory that is to be
    listed, in file-name order, and nothing else; it changes nothing. *)
Theorem C30_listing_is_exact : forall c id w tr w' r, tidy w -> runs false (get_cached_attachments c id) w tr w' r ->
  w' = w /\ exists pairs, r = Ok (map snd pairs) /\ ascending (map fst pairs) /\ forall n a, In (n, a) pairs <-> to_list c id w n a.
Proof. exact listing. Qed.
(** File systems stay tidy whatever the library does. *)
Theorem C30_files_stay_tidy : forall fl c h w w', history fl c h w w' -> tidy w -> tidy w'.
Proof. exact history_tidy. Qed.
Lemma shown_listed c s m id data w : stored s data -> carried (sv_name s) (sv_rt s) -> from_plugin (sv_result s) -> accepted s ->
  caps_as (sv_rt s) m -> own_root c (sv_rt s) -> sget (place c s) w = Some data -> id = "" \/ id = rt_container (sv_rt s) ->
  to_list c id w (entry_name (sv_name s) (sv_rt s)) (shown s m).
Proof.
  intros ST C FP (A1 & A2 & A3) CM OW G ID. pose proof (accepted_file_name _ _ A1 A2 A3) as FN. pose proof (accepted_named _ _ A1 A2 A3) as NM.
  split; [exact FN|]. split.
  { destruct ID as [->| ->]; [now left|]. apply entry_name_for; [exact A1|apply NM]. }
  exists data. split.
  - rewrite <- dir_entry_of. unfold place in G. rewrite entry_path_eq in G by exact FN. unfold own_root in OW. rewrite OW in G. exact G.
  - pose proof (stored_attachment s data id m ST C FP CM NM) as AT. assert (X : negb (String.eqb id "") && negb (String.eqb (rt_container (sv_rt s)) id) = false).
    { destruct ID as [->| ->]; [reflexivity|]. rewrite String.eqb_refl. now rewrite andb_false_r. }
    rewrite X in AT. now apply attachment_of_iff in AT.
Qed.
(** An attachment just added is among those listed for its container, and among all. *)
Theorem C30_added_is_listed : forall fl c l rt w tr w1 r m id tr' w2 v, tidy w ->
  runs fl (add_network_list c l rt) w tr w1 (Ok r) -> nl_plugins l <> [] -> carried (nl_name l) rt -> caps_as rt m -> own_root c rt ->
  id = "" \/ id = rt_container rt -> runs false (get_cached_attachments c id) w1 tr' w2 v ->
  exists atts, v = Ok atts /\ In {| at_container := rt_container rt; at_network := nl_name l; at_ifname := rt_ifname rt; at_config := nl_bytes l;
     at_netns := rt_netns rt; at_args := rt_args rt; at_caps := m |} atts.
Proof.
  intros fl c l rt w tr w1 r m id tr' w2 v T A P C CM OW ID Q. apply saves_list in A. pose proof (performs_tidy _ _ _ _ _ _ _ A T) as T1.
  destruct (add_saves _ _ _ _ _ _ _ _ A eq_refl) as (AC & NM & FP & (data & ST & G) & _).
  destruct (listing _ _ _ _ _ _ T1 Q) as (_ & pairs & -> & _ & IFF). eexists. split; [reflexivity|].
  apply in_map_iff. eexists (_, _). split; [reflexivity|]. apply IFF. exact (shown_listed _ _ m id _ _ ST C FP (AC P) CM OW G ID).
Qed.
(** An attachment added with only the runtime configuration's CacheDir set is cached there, where
    the listing (and garbage collection) does not look. *)
Definition X_plain_cni : cni := {| c_path := ["/opt/bin"]; c_cache_dir := "" |}.
Definition X_dir_rt : runtime_conf :=
  {| rt_container := "c1"; rt_netns := "/ns"; rt_ifname := "eth0"; rt_args := []; rt_caps := []; rt_cache_dir := "/mine" |}.
Theorem C30_cache_dir_refuted : exists tr w1 r tr',
  runs false (add_network_list X_plain_cni X_list X_dir_rt) [] tr w1 (Ok (Some r)) /\ w1 <> [] /\
  runs false (get_cached_attachments X_plain_cni "") w1 tr' w1 (Ok []).
Proof.
  destruct (interp X_oracle 0 (add_network_list X_plain_cni X_list X_dir_rt) []) as [[r w1] tr] eqn:E. pose proof (interp_run _ _ _ _ _ _ _ X_tame E) as R.
  destruct (interp X_oracle 0 (get_cached_attachments X_plain_cni "") w1) as [[r2 w2] tr2] eqn:E2. pose proof (interp_run _ _ _ _ _ _ _ X_tame E2) as R2.
  assert (K : match interp X_oracle 0 (add_network_list X_plain_cni X_list X_dir_rt) [] with
     | (r, w, _) => (r, List.length w, match interp X_oracle 0 (get_cached_attachments X_plain_cni "") w with (x, _, _) => x end) end
     = (Ok (Some X_add_result), 1, Ok [])) by (vm_compute; reflexivity).
  rewrite E, E2 in K. injection K as -> L ->. apply get_cached_attachments_inv in R2 as W. destruct W as (-> & _).
  exists tr, w1, X_add_result, tr2. split; [exact R|]. split; [intros ->; discriminate|exact R2].
Qed.
(** A readable version-1 file of the container whose name does not say so is not listed. *)
Theorem C30_foreign_name_refuted : exists w data a tr,
  tidy w /\ sget (results_dir X_cni ++ "/" ++ "renamed") w = Some data /\ describes data a /\ at_container a = "c1" /\
  runs false (get_cached_attachments X_cni "c1") w tr w (Ok []).
Proof.
  set (w := [("/c/results/renamed", match sget "/c/results/net-c1-eth0" X_caps_world with Some d => d | None => "" end)]).
  destruct (interp X_oracle 0 (get_cached_attachments X_cni "c1") w) as [[r2 w2] tr2] eqn:E2. pose proof (interp_run _ _ _ _ _ _ _ X_tame E2) as R2.
  assert (K : match interp X_oracle 0 (get_cached_attachments X_cni "c1") w with (x, _, _) => x end = Ok []) by (vm_compute; reflexivity).
  rewrite E2 in K. subst r2. apply get_cached_attachments_inv in R2 as W. destruct W as (-> & _).
  destruct (attachment_of "c1" (match sget "/c/results/net-c1-eth0" X_caps_world with Some d => d | None => "" end)) as [a|] eqn:A.
  2:{ assert (K : match attachment_of "c1" (match sget "/c/results/net-c1-eth0" X_caps_world with Some d => d | None => "" end) with Some _ => true | None => false end = true) by (vm_compute; reflexivity).
      rewrite A in K. discriminate. }
  apply attachment_of_iff in A as [D [X|AC]]; [discriminate|].
  exists w, (match sget "/c/results/net-c1-eth0" X_caps_world with Some d => d | None => "" end), a, tr2. split.
  - split; [repeat constructor|]. constructor; [|constructor]. cbn [fst w].
    assert (F : clean "/c/results/renamed" = "/c/results/renamed") by (vm_compute; reflexivity). rewrite <- F. apply PathP.clean_form.
  - split; [vm_compute; reflexivity|]. split; [exact D|]. split; [exact AC|exact R2].
Qed.
Example C30_nonvacuous : exists tr tr' w2, tidy ([] : world) /\
  runs false (add_network_list X_cni X_list X_caps_rt) [] tr X_caps_world (Ok (Some X_add_result)) /\
  nl_plugins X_list <> [] /\ carried (nl_name X_list) X_caps_rt /\ own_root X_cni X_caps_rt /\
  runs false (get_cached_attachments X_cni "c1") X_caps_world tr' w2 (Ok [{| at_container := "c1"; at_network := "net"; at_ifname := "eth0";
    at_config := X_list_doc; at_netns := "/ns"; at_args := [("K", "v")]; at_caps := rt_caps X_caps_rt |}]).
Proof.
  destruct X_caps_add as [tr R].
  destruct (interp X_oracle 0 (get_cached_attachments X_cni "c1") X_caps_world) as [[r2 w2] tr2] eqn:E. pose proof (interp_run _ _ _ _ _ _ _ X_tame E) as R2.
  assert (E2 : match interp X_oracle 0 (get_cached_attachments X_cni "c1") X_caps_world with (r, _, _) => r end = Ok [{| at_container := "c1"; at_network := "net"; at_ifname := "eth0";
    at_config := X_list_doc; at_netns := "/ns"; at_args := [("K", "v")]; at_caps := rt_caps X_caps_rt |}]) by (vm_compute; reflexivity).
  rewrite E in E2. subst r2. exists tr, tr2, w2. split; [split; constructor|]. split; [exact R|]. split; [discriminate|]. split; [apply X_caps_carried|]. split; [reflexivity|exact R2].
Qed.

(** ** C29 *)
(** Over any history of operations from an empty cache, the cache behaves like a map from entries to
    what the latest ADD saved: each operation changes the map as [moves] says, and every query in
    the end answers from the map. *)
Theorem C29_the_cache_is_a_map : forall c h w w', tidy w -> fresh c w -> Forall (fun av => ordinary c (fst av)) h -> history false c h w w' ->
  exists m, evolves c h (fun _ => None) m /\
  forall q tr w2 u, runs false (performs c q) w' tr w2 u -> answers c m q u.
Proof.
  intros c h w w' T F O H. destruct (whole_history _ _ _ _ H (fun _ => None) O T (fresh_represents _ _ F)) as (m & E & RP & T').
  exists m. split; [exact E|]. intros q tr w2 u R. eapply query; eassumption.
Qed.
(** In particular what a successful ADD saved is there as long as nothing that concerns it happens:
    no later successful ADD or DEL of that entry, no DEL by a list whose version it cannot be
    presented in, and no collection that is to remove it. *)
Theorem C29_latest_add_is_found : forall c h1 a v h2 s w w', tidy w -> fresh c w ->
  Forall (fun av => ordinary c (fst av)) (h1 ++ (a, v) :: h2)%list -> history false c (h1 ++ (a, v) :: h2)%list w w' ->
  saves a v = Some s -> Forall (spares c s) h2 ->
  exists m, m (place c s) = Some s /\ forall q tr w2 u, runs false (performs c q) w' tr w2 u -> answers c m q u.
Proof.
  intros c h1 a v h2 s w w' T F O H S SP. destruct (C29_the_cache_is_a_map _ _ _ _ T F O H) as (m & E & Q). exists m. split; [|exact Q].
  apply evolves_app in E as (m1 & _ & E). inversion E as [|? ? ? ? m2 ? M E2]; subst. eapply spared; [exact E2| |exact SP].
  unfold moves in M. rewrite S in M. apply M.
Qed.
(** And once deleted an entry is gone until it is added again. *)
Theorem C29_nothing_after_delete : forall c h1 a v h2 p w w', tidy w -> fresh c w ->
  Forall (fun av => ordinary c (fst av)) (h1 ++ (a, v) :: h2)%list -> history false c (h1 ++ (a, v) :: h2)%list w w' ->
  deletes c a v p -> Forall (fun av => forall s, saves (fst av) (snd av) = Some s -> place c s <> p) h2 ->
  exists m, m p = None /\ forall q tr w2 u, runs false (performs c q) w' tr w2 u -> answers c m q u.
Proof.
  intros c h1 a v h2 p w w' T F O H (D & AE & OK) SP. destruct (C29_the_cache_is_a_map _ _ _ _ T F O H) as (m & E & Q). exists m. split; [|exact Q].
  apply evolves_app in E as (m1 & _ & E). inversion E as [|? ? ? ? m2 ? M E2]; subst. eapply nothing; [exact E2| |exact SP].
  destruct a; try destruct D; unfold moves in M; cbn [saves] in M; apply M; assumption.
Qed.
(** The two for the query of a list's result. *)
Theorem C29_query_after_add : forall c h1 a v h2 s w w' l rt tr w2 u r, tidy w -> fresh c w ->
  Forall (fun av => ordinary c (fst av)) (h1 ++ (a, v) :: h2)%list -> history false c (h1 ++ (a, v) :: h2)%list w w' ->
  saves a v = Some s -> Forall (spares c s) h2 ->
  runs false (get_network_list_cached_result c l rt) w' tr w2 u -> named (nl_name l) rt -> entry_path c (nl_name l) rt = place c s -> in_results c (place c s) ->
  sv_result s = Some r -> wf_result exact prefix_form r -> u = presented (nl_version l) r.
Proof.
  intros c h1 a v h2 s w w' l rt tr w2 u r T F O H S SP R NM EP IR SR WF.
  destruct (C29_latest_add_is_found _ _ _ _ _ _ _ _ T F O H S SP) as (m & E & Q).
  assert (R' : runs false (performs c (ListResult l rt)) w' tr w2 (rmap VResult u)).
  { cbn [performs]. unfold returning. apply runs_bind. exists tr, w2, u, []. rewrite app_nil_r. split; [exact R|]. split; [constructor|reflexivity]. }
  specialize (Q _ _ _ _ R'). cbn [answers] in Q. specialize (Q (place c s)). assert (A : asks c (ListResult l rt) (place c s)).
  { split; [exists (nl_name l), rt; auto|exact IR]. }
  specialize (Q A). unfold answers_result in Q. rewrite E in Q. specialize (Q r SR WF). revert Q. clear.
  destruct u as [o|e|], (presented (nl_version l) r) as [o'|e'|]; cbn; intros Q; try discriminate; congruence.
Qed.
Theorem C29_query_after_delete : forall c h1 a v h2 w w' l rt tr w2 u, tidy w -> fresh c w ->
  Forall (fun av => ordinary c (fst av)) (h1 ++ (a, v) :: h2)%list -> history false c (h1 ++ (a, v) :: h2)%list w w' ->
  deletes c a v (entry_path c (nl_name l) rt) -> Forall (fun av => forall s, saves (fst av) (snd av) = Some s -> place c s <> entry_path c (nl_name l) rt) h2 ->
  runs false (get_network_list_cached_result c l rt) w' tr w2 u -> named (nl_name l) rt -> in_results c (entry_path c (nl_name l) rt) -> u = Ok None.
Proof.
  intros c h1 a v h2 w w' l rt tr w2 u T F O H D SP R NM IR.
  destruct (C29_nothing_after_delete _ _ _ _ _ _ _ _ T F O H D SP) as (m & E & Q).
  assert (R' : runs false (performs c (ListResult l rt)) w' tr w2 (rmap VResult u)).
  { cbn [performs]. unfold returning. apply runs_bind. exists tr, w2, u, []. rewrite app_nil_r. split; [exact R|]. split; [constructor|reflexivity]. }
  specialize (Q _ _ _ _ R'). cbn [answers] in Q. specialize (Q (entry_path c (nl_name l) rt)). assert (A : asks c (ListResult l rt) (entry_path c (nl_name l) rt)).
  { split; [exists (nl_name l), rt; auto|exact IR]. }
  specialize (Q A). unfold answers_result in Q. rewrite E in Q. revert Q. clear. destruct u as [o|e|]; cbn; intros Q; try discriminate; congruence.
Qed.
(** Accepted names lead to entries of the results directory. *)
Theorem C29_accepted_names : forall c name rt, good_name name -> good_name (rt_container rt) -> good_ifname (rt_ifname rt) -> own_root c rt ->
  named name rt /\ in_results c (entry_path c name rt).
Proof.
  intros c name rt A B C OW. split; [now apply accepted_named|]. pose proof (accepted_file_name _ _ A B C) as FN. exists (entry_name name rt). split; [exact FN|].
  rewrite entry_path_eq by exact FN. unfold own_root in OW. rewrite OW. apply dir_entry_of.
Qed.
Definition X_saved : saved := {| sv_result := Some X_add_result; sv_config := X_list_doc; sv_name := "net"; sv_rt := X_caps_rt |}.
Lemma X_fresh : tidy ([] : world) /\ fresh X_cni []. Proof. repeat split; constructor. Qed.
Lemma X_ordinary : ordinary X_cni (AddList X_list X_caps_rt).
Proof. split; [discriminate|]. split; [apply X_caps_carried|reflexivity]. Qed.
Lemma X_added : exists tr, runs false (performs X_cni (AddList X_list X_caps_rt)) [] tr X_caps_world (Ok (VResult (Some X_add_result))).
Proof. destruct X_caps_add as [tr R]. exists tr. now apply saves_list. Qed.
(** ADD then a listing: the entry is still there; ADD, DEL: gone. *)
Example C29_nonvacuous : exists v u w',
  history false X_cni ([] ++ (AddList X_list X_caps_rt, Ok (VResult (Some X_add_result))) :: [(Attachments "", v)])%list [] X_caps_world /\
  saves (AddList X_list X_caps_rt) (Ok (VResult (Some X_add_result))) = Some X_saved /\ Forall (spares X_cni X_saved) [(Attachments "", v)] /\
  tidy ([] : world) /\ fresh X_cni [] /\ ordinary X_cni (AddList X_list X_caps_rt) /\ in_results X_cni (place X_cni X_saved) /\
  history false X_cni ([(AddList X_list X_caps_rt, Ok (VResult (Some X_add_result)))] ++ (DelList X_list X_asked_rt, u) :: [])%list [] w' /\
  deletes X_cni (DelList X_list X_asked_rt) u (entry_path X_cni (nl_name X_list) X_rt).
Proof.
  destruct X_added as [tr R]. destruct X_fresh as [T F].
  destruct (interp X_oracle 0 (performs X_cni (Attachments "")) X_caps_world) as [[v w2] tr2] eqn:E. pose proof (interp_run _ _ _ _ _ _ _ X_tame E) as R2.
  pose proof (unchanged_query _ _ _ _ _ _ _ R2) as W. cbn beta iota in W. subst w2.
  destruct (interp X_oracle 0 (performs X_cni (DelList X_list X_asked_rt)) X_caps_world) as [[u w3] tr3] eqn:E3. pose proof (interp_run _ _ _ _ _ _ _ X_tame E3) as R3.
  assert (K : match interp X_oracle 0 (performs X_cni (DelList X_list X_asked_rt)) X_caps_world with (u, _, _) => u end = Ok VNothing) by (vm_compute; reflexivity).
  rewrite E3 in K. subst u. exists v, (Ok VNothing), w3.
  split; [cbn [app]; econstructor; [exact R|]; econstructor; [exact R2|constructor]|].
  split; [reflexivity|]. split; [constructor; [split; [discriminate|exact I]|constructor]|]. split; [exact T|]. split; [exact F|]. split; [exact X_ordinary|]. split.
  { exists "net-c1-eth0". split; [apply simple_spec; reflexivity|vm_compute; reflexivity]. }
  split; [cbn [app]; econstructor; [exact R|]; econstructor; [exact R3|constructor]|].
  split; [exact I|]. split; [|reflexivity]. exists "net", X_asked_rt. repeat split; discriminate.
Qed.

Print Assumptions C27_query_returns_the_add_result.
Print Assumptions C27_same_version.
Print Assumptions C27_one.
Print Assumptions C28_query_returns_the_add_configuration.
Print Assumptions C28_one.
Print Assumptions C28_capability_arguments.
Print Assumptions C30_listing_is_exact.
Print Assumptions C30_files_stay_tidy.
Print Assumptions C30_added_is_listed.
Print Assumptions C30_cache_dir_refuted.
Print Assumptions C30_foreign_name_refuted.
Print Assumptions C29_the_cache_is_a_map.
Print Assumptions C29_latest_add_is_found.
Print Assumptions C29_nothing_after_delete.
Print Assumptions C29_query_after_add.
Print Assumptions C29_query_after_delete.
Print Assumptions C29_accepted_names.
