(** C33: cache files in the old format, a bare result. *)
From Coq Require Import String Ascii List Arith NArith ZArith Bool Lia.
From Verif Require Import Model.GoStr Model.Errors Model.Version Model.Path Model.Json Model.GoJson Model.NetIP Model.Types Model.Conf Model.Invoke
  Model.Prog Model.Api
  Spec.NameSpec Spec.VersionSpec Spec.JsonSpec Spec.ConfSpec Spec.TypesSpec Spec.PathSpec Spec.RunSpec Spec.CacheSpec Spec.HistSpec Spec.MapSpec
  Proofs.StrP Proofs.JsonP Proofs.JsonRT Proofs.GoJsonP Proofs.TypesP Proofs.DecodeP Proofs.ShapeP
  Proofs.VersionP Proofs.ProgP Proofs.ApiP Proofs.CacheP Proofs.VerbP Proofs.ListP Proofs.LegacyP
  Properties.P_Api Properties.P_Types Properties.P_Cache.
Import ListNotations.
Open Scope nat_scope.
Open Scope string_scope.

(** Any well-formed result, written compactly (as runtimes once wrote their cache) or indented, makes
    a file of the old format. *)
Theorem C33_written_results_are_old_format : forall r, wf_result (ints_for r) prefix_form r -> exists text pretty,
  result_bytes r = Ok text /\ old_format text r /\ result_print r = Ok pretty /\ old_format pretty r.
Proof.
  intros r W. destruct (C39_round_trip r W) as (text & pretty & T & C1 & C2 & P & C3 & C4). exists text, pretty.
  destruct (C39_decoded_form _ _ _ C1) as [WB _]. destruct (result_rt r W) as (j & E & O & J & D & _). pose proof (jenc j J D O) as N.
  unfold result_bytes in T. unfold result_print in P |- *. unfold result_bytes. rewrite E in *.
  assert (T' : text = print j) by congruence. assert (P' : pretty = print_indent j) by congruence. subst text pretty.
  destruct j as [| | | | |o]; try discriminate.
  assert (U : unkind o) by (eapply enc_unkind; [exact WB|apply right_nonempty, W|exact E]).
  repeat split; try assumption; exists o; (split; [|exact U]); [now apply parse_print|now apply parse_print_indent].
Qed.
(** A query gets the result the file holds, at the version asked for. *)
Theorem C33_query_reads_the_result : forall fl c l rt w tr w' v data r,
  named (nl_name l) rt -> sget (entry_path c (nl_name l) rt) w = Some data -> old_format data r ->
  runs fl (get_network_list_cached_result c l rt) w tr w' v ->
  w' = w /\ (v = presented (nl_version l) r \/ (fl = true /\ v = Ok None)).
Proof.
  intros fl c l rt w tr w' v data r N G O Q. apply get_cached_inv in Q. destruct Q as (-> & _ & _ & Q). split; [reflexivity|].
  destruct Q as [->|(F & _ & ->)]; [left|right; auto]. rewrite cached_in_named by exact N. rewrite G. now apply old_reads.
Qed.
Theorem C33_query_one : forall fl c n rt w tr w' v data r,
  named (pc_name (pg_conf n)) rt -> sget (entry_path c (pc_name (pg_conf n)) rt) w = Some data -> old_format data r ->
  runs fl (get_network_cached_result c n rt) w tr w' v ->
  w' = w /\ (v = presented (pc_version (pg_conf n)) r \/ (fl = true /\ v = Ok None)).
Proof.
  intros fl c l rt w tr w' v data r N G O Q. apply get_cached_inv in Q. destruct Q as (-> & _ & _ & Q). split; [reflexivity|].
  destruct Q as [->|(F & _ & ->)]; [left|right; auto]. rewrite cached_in_named by exact N. rewrite G. now apply old_reads.
Qed.
(** Every plugin's DEL and CHECK gets it as the previous result. *)
Theorem C33_del_gets_the_result : forall c l rt w tr w' v data r r',
  at_least (nl_version l) (0, 4, 0)%Z -> named (nl_name l) rt -> sget (entry_path c (nl_name l) rt) w = Some data -> old_format data r ->
  get_as_version r (nl_version l) = Ok r' -> runs false (del_network_list c l rt) w tr w' v ->
  asked_in_order c "DEL" (nl_name l) (nl_version l) rt (rev (nl_plugins l)) (Some r') tr /\
  (v = Ok tt <-> all_succeeded (List.length (nl_plugins l)) tr).
Proof.
  intros c l rt w tr w' v data r r' AL N G O GV H.
  assert (RD : reads_result (nl_version l) (sget (entry_path c (nl_name l) rt) w) = Ok (Some r')).
  { rewrite G, (old_reads _ _ _ O). unfold presented. now rewrite GV. }
  assert (WF : well_formed_version (nl_version l)) by (destruct AL as (u & V & _); now exists u).
  destruct (C16_del_reverse_with_cached_result _ _ _ _ _ _ _ _ H WF) as (prev & A & B & _ & _ & P).
  { intros _. unfold safe_entry. rewrite RD. discriminate. }
  destruct (P AL) as [[(_ & P')|([X|[e X]] & _)]|(X & _)]; [| contradiction| |discriminate].
  - assert (E : prev = Some r') by congruence. subst prev. auto.
  - congruence.
Qed.
Theorem C33_check_gets_the_result : forall c l rt w tr w' v data r r',
  at_least (nl_version l) (0, 4, 0)%Z -> nl_disable_check l = false -> named (nl_name l) rt ->
  sget (entry_path c (nl_name l) rt) w = Some data -> old_format data r ->
  get_as_version r (nl_version l) = Ok r' -> runs false (check_network_list c l rt) w tr w' v ->
  asked_in_order c "CHECK" (nl_name l) (nl_version l) rt (nl_plugins l) (Some r') tr /\
  (v = Ok tt <-> all_succeeded (List.length (nl_plugins l)) tr).
Proof.
  intros c l rt w tr w' v data r r' AL DC N G O GV H.
  destruct (C18_check_asks_in_order _ _ _ _ _ _ _ _ H AL DC N) as (cached & [C|(X & _)] & M); [|discriminate].
  rewrite G, (old_reads _ _ _ O) in C. unfold presented in C. rewrite GV in C. subst cached. destruct M as (A & B & _). auto.
Qed.
(** But it is not an attachment any listing shows. *)
Theorem C33_listing_ignores_it : forall c id w tr w' v n data r, tidy w ->
  sget (results_dir c ++ "/" ++ n) w = Some data -> old_format data r -> runs false (get_cached_attachments c id) w tr w' v ->
  exists pairs, v = Ok (map snd pairs) /\ (forall n' a, In (n', a) pairs <-> to_list c id w n' a) /\ forall a, ~ In (n, a) pairs.
Proof.
  intros c id w tr w' v n data r T G O Q. destruct (C30_listing_is_exact _ _ _ _ _ _ T Q) as (_ & pairs & -> & _ & IFF).
  exists pairs. split; [reflexivity|]. split; [exact IFF|]. intros a I. apply IFF in I as (_ & _ & d & G' & D & ID).
  assert (d = data) by congruence. subst d.
  assert (X : attachment_of id data = Some a) by (apply attachment_of_iff; auto). rewrite (old_unlisted _ _ _ O) in X. discriminate.
Qed.

(** A 0.2.0 result, presented to a 1.1.0 network. *)
Definition X_old_doc : string := "{""cniVersion"":""0.2.0"",""ip4"":{""ip"":""10.0.0.3/24""}}".
Definition X_old : result := R020 {| v2_version := "0.2.0";
  v2_ip4 := Some {| i2_ip := {| n_ip := v4in6 [10; 0; 0; 3]%N; n_mask := cidr_mask 24 32 |}; i2_gateway := []; i2_routes := [] |};
  v2_ip6 := None; v2_dns := dns_zero |}.
Lemma X_old_format : old_format X_old_doc X_old.
Proof.
  split; [|vm_compute; reflexivity].
  destruct (parse X_old_doc) as [[| | | | |o]|] eqn:E; try (vm_compute in E; discriminate).
  exists o. split; [reflexivity|].
  assert (K : match parse X_old_doc with Some (JObj o) => forallb (fun kv => negb (key_is "kind" (fst kv))) o | _ => false end = true) by (vm_compute; reflexivity).
  rewrite E in K. rewrite forallb_forall in K. intros k v I. specialize (K _ I). cbn [fst] in K. now apply negb_true_iff.
Qed.
Definition X_old_world : world := [("/c/results/net-c1-eth0", X_old_doc)].
Example C33_nonvacuous : exists r' tr tr2 v,
  named (nl_name X_list) X_rt /\ sget (entry_path X_cni (nl_name X_list) X_rt) X_old_world = Some X_old_doc /\ old_format X_old_doc X_old /\
  at_least (nl_version X_list) (0, 4, 0)%Z /\ nl_disable_check X_list = false /\ get_as_version X_old (nl_version X_list) = Ok r' /\ tidy X_old_world /\
  runs false (del_network_list X_cni X_list X_rt) X_old_world tr [] (Ok tt) /\ List.length (calls tr) = List.length (nl_plugins X_list) /\
  nl_plugins X_list <> [] /\ runs false (check_network_list X_cni X_list X_rt) X_old_world tr2 X_old_world v.
Proof.
  assert (GV : exists r', get_as_version X_old (nl_version X_list) = Ok r') by (eexists; vm_compute; reflexivity). destruct GV as [r' GV].
  destruct (interp X_oracle 0 (del_network_list X_cni X_list X_rt) X_old_world) as [[u w1] tr] eqn:E. pose proof (interp_run _ _ _ _ _ _ _ X_tame E) as R.
  destruct (interp X_oracle 0 (check_network_list X_cni X_list X_rt) X_old_world) as [[u2 w2] tr2] eqn:E2. pose proof (interp_run _ _ _ _ _ _ _ X_tame E2) as R2.
  assert (K : match interp X_oracle 0 (del_network_list X_cni X_list X_rt) X_old_world with (u, w, t) => (u, w, List.length (calls t)) end = (Ok tt, [], List.length (nl_plugins X_list))) by (vm_compute; reflexivity).
  rewrite E in K. injection K as -> -> L. destruct (C18_check_changes_nothing _ _ _ _ _ _ _ _ R2) as [-> _].
  exists r', tr, tr2, u2. split; [repeat split; discriminate|]. split; [vm_compute; reflexivity|]. split; [exact X_old_format|].
  split; [apply (proj1 (gte_iff _ "0.4.0" _ means_040)); vm_compute; reflexivity|]. split; [reflexivity|]. split; [exact GV|].
  split. { split; [repeat constructor|]. constructor; [|constructor]. cbn [fst].
    assert (F : clean "/c/results/net-c1-eth0" = "/c/results/net-c1-eth0") by (vm_compute; reflexivity). rewrite <- F. apply PathP.clean_form. }
  split; [exact R|]. split; [exact L|]. split; [discriminate|exact R2].
Qed.

Print Assumptions C33_written_results_are_old_format.
Print Assumptions C33_query_reads_the_result.
Print Assumptions C33_query_one.
Print Assumptions C33_del_gets_the_result.
Print Assumptions C33_check_gets_the_result.
Print Assumptions C33_listing_ignores_it.
