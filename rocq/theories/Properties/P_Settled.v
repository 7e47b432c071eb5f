(** C66: GC and STATUS go to the same plugins as the other operations. *)
From Coq Require Import String Ascii List Bool Arith NArith ZArith Lia.
From Verif Require Import Model.GoStr Model.Errors Model.Version Model.Path Model.Json Model.GoJson Model.Types Model.Conf Model.Invoke
  Model.Prog Model.Api Spec.NameSpec Spec.VersionSpec Spec.JsonSpec Spec.ConfSpec Spec.TypesSpec Spec.FileSpec Spec.RunSpec Spec.CacheSpec Spec.HistSpec Spec.LiveSpec Spec.SettledSpec
  Proofs.StrP Proofs.JsonP Proofs.JsonRT Proofs.GoJsonP Proofs.ConfP Proofs.LoadP Proofs.FilesP Proofs.LiveP Proofs.InvokeP Proofs.ProgP Proofs.ApiP Proofs.VerbP Properties.P_Api Properties.P_Live.
Import ListNotations.
Open Scope nat_scope.
Open Scope string_scope.

Definition tkey (kv : string * json) : bool := key_is "type" (fst kv).
Lemma says_type_filter o t : says "type" o t <-> says "type" (filter tkey o) t.
Proof.
  split.
  - intros (l1 & k & l2 & -> & K & R). exists (filter tkey l1), k, (filter tkey l2). split; [|split; [exact K|]].
    + rewrite filter_app. cbn [filter]. unfold tkey at 2. cbn [fst]. now rewrite K.
    + intros k' v I. apply filter_In in I as [I _]. now apply R.
  - revert t. induction o as [|[k v] o IH]; intros t (l1 & k0 & l2 & E & K & R); cbn [filter] in E; [destruct l1; discriminate|].
    unfold tkey at 1 in E. cbn [fst] in E. destruct (key_is "type" k) eqn:KK.
    + destruct l1 as [|x l1].
      * cbn [app] in E. assert (E1 : k = k0) by congruence. assert (E2 : v = JStr t) by congruence. assert (E3 : filter tkey o = l2) by congruence. subst k v l2. clear E.
        exists [], k0, o. split; [reflexivity|]. split; [exact K|]. intros k' v' I K'. eapply R; [|exact K']. apply filter_In. now split.
      * cbn [app] in E. assert (E3 : filter tkey o = (l1 ++ (k0, JStr t) :: l2)%list) by congruence.
        destruct (IH t) as (m1 & k1 & m2 & -> & K1 & R1); [exists l1, k0, l2; auto|]. exists ((k, v) :: m1), k1, m2. auto.
    + destruct (IH t) as (m1 & k1 & m2 & -> & K1 & R1); [exists l1, k0, l2; auto|]. exists ((k, v) :: m1), k1, m2. auto.
Qed.
Lemma sset_front {A} k (v : A) m : lb k m -> sset k v m = (k, v) :: m.
Proof. destruct m as [|[k2 v2] m]; [reflexivity|]. intros L. cbn [sset]. cbn [lb] in L. now rewrite L. Qed.
Lemma filter_sset_keep {A} (p : string -> bool) k (v : A) m : p k = true -> ssorted m ->
  filter (fun kv => p (fst kv)) (sset k v m) = sset k v (filter (fun kv => p (fst kv)) m).
Proof.
  intros K. induction m as [|[k2 v2] m IH]; intros S; cbn [sset filter fst]; [now rewrite K|]. apply ssorted_cons in S as [L S].
  destruct (String.compare k k2) eqn:C; cbn [filter fst].
  - apply String.compare_eq_iff in C. subst k2. rewrite K. cbn [sset]. now rewrite compare_refl.
  - rewrite K. destruct (p k2) eqn:K2; cbn [sset]; [now rewrite C|]. symmetry. apply sset_front. apply lb_filter; [exact S|]. eapply lb_trans; [exact C|exact L].
  - destruct (p k2) eqn:K2; cbn [sset]; [rewrite C; now rewrite IH|now apply IH].
Qed.
Lemma filter_once {A} (p : string -> bool) (l : list (string * A)) : List.length (filter (fun kv => p (fst kv)) l) <= 1 ->
  forall m, ssorted m -> filter (fun kv => p (fst kv)) m = [] ->
  filter (fun kv => p (fst kv)) (sset_all l m) = filter (fun kv => p (fst kv)) l.
Proof.
  induction l as [|[k v] l IH]; intros H m S E; [exact E|]. unfold sset_all. cbn [fold_left fst snd filter] in *. fold (@sset_all A).
  destruct (p k) eqn:K.
  - cbn [List.length] in H. assert (F : filter (fun kv => p (fst kv)) l = []) by (destruct (filter (fun kv => p (fst kv)) l); [reflexivity|cbn in H; lia]).
    rewrite F. change (fold_left (fun m0 kv => sset (fst kv) (snd kv) m0) l (sset k v m)) with (sset_all l (sset k v m)). rewrite filter_sset_all.
    + rewrite filter_sset_keep by assumption. rewrite E. reflexivity.
    + apply Forall_forall. intros kv I. destruct (p (fst kv)) eqn:P; [|reflexivity]. exfalso.
      assert (J : In kv (filter (fun kv => p (fst kv)) l)) by (apply filter_In; now split). rewrite F in J. destruct J.
  - change (fold_left (fun m0 kv => sset (fst kv) (snd kv) m0) l (sset k v m)) with (sset_all l (sset k v m)). apply IH; [exact H|now apply sset_sorted|]. rewrite <- E. now apply filter_sset.
Qed.
Lemma norm_pairs_filter p l l' : norm_pairs l = Some l' -> norm_pairs (filter (fun kv => p (fst kv)) l) = Some (filter (fun kv => p (fst kv)) l').
Proof.
  revert l'. induction l as [|[k v] l IH]; intros l' H; [injection H as <-; reflexivity|]. cbn [norm_pairs] in H.
  destruct (norm v) as [v'|] eqn:NV; [|discriminate]. destruct (norm_pairs l) as [l2|] eqn:NL; [|discriminate].
  assert (X : l' = (k, v') :: l2) by (cbn in H; congruence). subst l'. cbn [filter fst]. destruct (p k); [|now apply IH].
  cbn [norm_pairs]. rewrite NV, (IH l2 eq_refl). reflexivity.
Qed.
Lemma loaded_ok b net : plugin_conf_from_bytes b = Ok net -> pg_bytes net = b /\ unmarshal_plugin_conf b = Some (pg_conf net) /\ pc_type (pg_conf net) <> "".
Proof. intros H. apply plugin_from_ok in H as (c & D & T & ->). auto. Qed.

(** A configuration loaded from a document with one type member is settled, and so is every plugin
    of a network configuration list loaded from a document, whatever its members. *)
Theorem C66_one_type_settled : forall b net o, plugin_conf_from_bytes b = Ok net -> parse b = Some (JObj o) -> one_type o ->
  (exists m, decodes_to b m) -> settled net.
Proof.
  intros b net o H P O (m & DM). apply loaded_ok in H as (B & U & T). unfold unmarshal_plugin_conf in U. rewrite P in U.
  exists m. rewrite B. split; [exact DM|]. apply decodes_iff in DM. apply unmarshal_map_some in DM as (j & P' & _ & N).
  assert (j = JObj o) by congruence. subst j. rewrite norm_obj in N. destruct (norm_pairs o) as [o'|] eqn:NP; [|discriminate].
  assert (m = sset_all o' []) by (cbn in N; congruence). subst m. apply says_type_filter.
  pose proof (norm_pairs_filter (key_is "type") _ _ NP) as NF. change (filter (fun kv => key_is "type" (fst kv))) with (filter tkey) in NF.
  assert (L : List.length (filter tkey o') <= 1).
  { unfold one_type in O. change (filter (fun kv => key_is "type" (fst kv))) with (filter tkey) in O. destruct (filter tkey o) as [|[k v] [|x y]] eqn:F; cbn [List.length] in O; try lia; cbn [norm_pairs] in NF.
    - assert (filter tkey o' = []) as -> by congruence. cbn. lia.
    - destruct (norm v); [|discriminate]. cbn in NF. assert (X : filter tkey o' = [(k, j)]) by congruence. rewrite X. cbn. lia. }
  change (filter tkey (sset_all o' [])) with (filter (fun kv => key_is "type" (fst kv)) (sset_all o' [])). rewrite (filter_once (key_is "type") o' L) by (exact I || reflexivity).
  change (filter (fun kv => key_is "type" (fst kv)) o') with (filter tkey o').
  apply dec_type_says in U; [|exact T]. apply says_type_filter in U. unfold one_type in O. change (filter (fun kv => key_is "type" (fst kv)) o) with (filter tkey o) in O.
  destruct U as (l1 & k & l2 & E & K & R). rewrite E in O, NF. rewrite app_length in O. cbn [List.length] in O.
  destruct l1; [|cbn in O; lia]. destruct l2; [|cbn in O; lia]. cbn [app norm_pairs norm] in NF. cbn in NF.
  assert (X : filter tkey o' = [(k, JStr (pc_type (pg_conf net)))]) by congruence. rewrite X. exists [], k, []. split; [reflexivity|]. split; [exact K|]. intros k' v [].
Qed.
Theorem C66_inlined_settled : forall b l net, network_conf_from_bytes b = Ok l -> In net (nl_plugins l) -> settled net.
Proof.
  intros b l net H I. assert (U : exists m, unmarshal_map b = Some (Some m)).
  { unfold network_conf_from_bytes in H. destruct (unmarshal_map b) as [[m|]|]; [eauto|discriminate|discriminate]. }
  destruct U as (m & U). apply (network_conf_ok b m l U) in H as (_ & _ & _ & _ & _ & _ & [(_ & _ & E)|(ps & G & _ & F)]); [rewrite E in I; destruct I|].
  pose proof (elements_encodable _ _ _ _ U G) as EN. destruct (unmarshal_map_canonical _ _ U) as [CM _]. apply canonical_obj in CM as [_ CM].
  assert (CA : Forall canonical ps). { apply sget_In in G. rewrite Forall_forall in CM. specialize (CM _ G). cbn [snd] in CM. now apply canonical_arr. }
  clear G U. induction F as [|j p js qs (B & D & T) F IH]; [destruct I|]. apply Forall_cons_iff in EN as [E1 EN]. apply Forall_cons_iff in CA as [C1 CA].
  destruct I as [<-|I]; [|now apply IH]. assert (O : exists o, j = JObj o).
  { destruct j; try discriminate; [|eauto]. exfalso. cbn in D. injection D as D. apply T. now rewrite <- D. }
  destruct O as (o & ->). exists o. rewrite B. split; [apply decodes_iff; now apply unmarshal_map_print|]. now apply dec_type_says.
Qed.
(** Adding parameters (that JSON can carry) to a settled configuration keeps the type. *)
Theorem C66_keeps_type : forall net kvs conf, settled net ->
  Forall (fun kj => well_formed_text (fst kj) /\ jwf (snd kj) /\ (jdepth (snd kj) <= 9999)%N) kvs ->
  Forall (fun kj => key_is "type" (fst kj) = false) kvs ->
  inject_conf net (map (fun kj => (fst kj, GVal (Some (snd kj)))) kvs) = Ok conf -> pc_type (pg_conf conf) = pc_type (pg_conf net).
Proof.
  intros net kvs0 conf (m & DM & S) W K H. apply inject_ok in H as (m' & kvs & c & U & E & _ & D & T & ->). cbn [pg_conf].
  apply decodes_iff in DM. assert (m' = m) by congruence. subst m'.
  assert (kvs = kvs0). { clear - E. revert kvs E. induction kvs0 as [|[k v] l IH]; intros [|[k' v'] kvs] E; try discriminate; [reflexivity|]. cbn in E. unfold gvals in E. cbn in E. injection E as -> -> E. f_equal. now apply IH. }
  subst kvs0. unfold unmarshal_plugin_conf in D. destruct (unmarshal_map_canonical _ _ U) as [_ EN].
  rewrite parse_print in D by (apply inject_encodable; [exact W|exact EN]). eapply dec_says_type; [exact D|].
  apply says_type_filter. apply says_type_filter in S. unfold tkey in *. now rewrite (filter_sset_all (key_is "type")).
Qed.
Lemma gc_type l args net conf : settled net -> well_formed_text (nl_name l) -> well_formed_text (nl_version l) -> sendable_args args ->
  inject_conf net (gc_params l args) = Ok conf -> pc_type (pg_conf conf) = pc_type (pg_conf net).
Proof.
  intros SE Wn Wv S H.
  set (kvs := ([("name", JStr (nl_name l)); ("cniVersion", JStr (nl_version l))] ++
    match args with None => [] | Some a => [("cni.dev/valid-attachments", enc_gc_args a); ("cni.dev/attachments", enc_gc_args a)] end)%list).
  assert (E : gc_params l args = map (fun kj => (fst kj, GVal (Some (snd kj)))) kvs) by (unfold gc_params, kvs; destruct args; reflexivity). rewrite E in H.
  refine (C66_keeps_type net kvs conf SE _ _ H); unfold kvs; apply Forall_app; (split; [repeat apply Forall_cons; try apply Forall_nil|destruct args as [a|]; [repeat apply Forall_cons; try apply Forall_nil|constructor]]); try reflexivity.
  - split; [apply lit_wf; vm_compute; reflexivity|]. split; [exact Wn|cbn; lia].
  - split; [apply lit_wf; vm_compute; reflexivity|]. split; [exact Wv|cbn; lia].
  - destruct (args_json a S) as (J & D & _). split; [apply lit_wf; vm_compute; reflexivity|split; [exact J|cbn [snd]; lia]].
  - destruct (args_json a S) as (J & D & _). split; [apply lit_wf; vm_compute; reflexivity|split; [exact J|cbn [snd]; lia]].
Qed.
(** STATUS and GC of a list of settled configurations run the program found for the plugin's own type. *)
Theorem C66_status : forall fl c l w tr w' r, runs fl (get_status_network_list c l) w tr w' r ->
  Forall settled (nl_plugins l) -> well_formed_text (nl_name l) -> well_formed_text (nl_version l) -> at_least (nl_version l) (1, 1, 0)%Z ->
  forall i x, nth_error (calls tr) i = Some x -> exists net, nth_error (nl_plugins l) i = Some net /\ found_at c (pc_type (pg_conf net)) tr (call_path x).
Proof.
  intros fl c l w tr w' r H S Wn Wv A i x N. destruct (C20_status_asks_in_order _ _ _ _ _ _ _ H A) as (_ & _ & K & _).
  destruct (K i x N) as (net & conf & NN & I & _ & F & _). exists net. split; [exact NN|].
  rewrite Forall_forall in S. rewrite <- (gc_type l None net conf (S net (nth_error_In _ _ NN)) Wn Wv); [exact F| |exact I]. intros a b E. discriminate.
Qed.
Theorem C66_gc : forall fl c l args w tr w' r, runs fl (gc_network_list c l args) w tr w' r ->
  nl_disable_gc l = false -> r <> Panic ->
  Forall settled (nl_plugins l) -> well_formed_text (nl_name l) -> well_formed_text (nl_version l) -> sendable_args args ->
  at_least (nl_version l) (1, 1, 0)%Z ->
  (exists e, runs fl (get_cached_attachments c "") w tr w' (Err e) /\ fl = true /\ r = Ok tt) \/
  exists tr1 tr2 ends, tr = (tr1 ++ tr2)%list /\
    turns (fun net seg t => turn c (pc_type (pg_conf net)) (fun x => plain_env c "GC" (call_env x)) seg t) (nl_plugins l) tr2 ends.
Proof.
  intros fl c l args w tr w' r H D NP S Wn Wv SA A.
  destruct (C19_gc_deletes_the_stale_and_tells_plugins _ _ _ _ _ _ _ _ H D NP) as [X|(atts & st & t0 & t1 & t2 & rs & _ & -> & _ & _ & K)]; [now left|]. right.
  destruct K as [(N & _)|(_ & ends & (segs & E & L1 & L2 & K) & _)]; [now destruct N|].
  exists (t0 ++ t1)%list, t2, ends. split; [now rewrite app_assoc|]. exists segs. split; [exact E|]. split; [exact L1|]. split; [exact L2|].
  intros i net seg t N1 N2 N3. destruct (K i net seg t N1 N2 N3) as (conf & I & T).
  rewrite Forall_forall in S. rewrite <- (gc_type l args net conf (S net (nth_error_In _ _ N1)) Wn Wv SA I).
  destruct T as [e X|x X Y Z (P1 & P2)]; [eapply turn_missing; exact X|]. apply turn_ran; assumption.
Qed.

(** *** What does not hold *)
(** A plugin configuration from a file of the network's directory is kept as it was written; if it
    names its type twice, in different spellings, ADD and STATUS run different programs. *)
Definition X_files : fsys :=
  {| fs_read_dir := fun d => if String.eqb d "/n/net" then Ok [("p.conf", false)] else Ok [];
     fs_read_file := fun f => if String.eqb f "/n/x.conflist" then Ok "{""cniVersion"":""1.1.0"",""name"":""net""}"
                              else if String.eqb f "/n/net/p.conf" then Ok "{""type"":""b"",""Type"":""a""}" else Err (EMsg "no such file") |}.
Definition X_two : network_list := Eval vm_compute in match network_conf_from_file X_files "/n/x.conflist" with Ok l => l | _ => X_list end.
Theorem C66_two_types_refuted : network_conf_from_file X_files "/n/x.conflist" = Ok X_two /\
  (exists tr w' r, runs false (add_network_list X_cni X_two X_rt) [] tr w' (Ok r) /\ map call_path (calls tr) = ["/opt/bin/a"]) /\
  (exists tr, runs false (get_status_network_list X_cni X_two) [] tr [] (Ok tt) /\ map call_path (calls tr) = ["/opt/bin/b"]).
Proof.
  split; [vm_compute; reflexivity|]. split.
  - destruct (interp X_oracle 0 (add_network_list X_cni X_two X_rt) []) as [[r w'] tr] eqn:E. pose proof (interp_run _ _ _ _ _ _ _ X_tame E) as R.
    vm_compute in E. injection E as <- <- <-. eexists _, _, _. split; [exact R|reflexivity].
  - destruct (interp X_oracle 0 (get_status_network_list X_cni X_two) []) as [[r w'] tr] eqn:E. pose proof (interp_run _ _ _ _ _ _ _ X_tame E) as R.
    vm_compute in E. injection E as <- <- <-. eexists. split; [exact R|reflexivity].
Qed.
(** If the second one is null, the file is loaded, but ADD and STATUS fail and GC crashes. *)
Definition X_null_files : fsys :=
  {| fs_read_dir := fs_read_dir X_files;
     fs_read_file := fun f => if String.eqb f "/n/net/p.conf" then Ok "{""type"":""a"",""type"":null}" else fs_read_file X_files f |}.
Definition X_null : network_list := Eval vm_compute in match network_conf_from_file X_null_files "/n/x.conflist" with Ok l => l | _ => X_list end.
Theorem C66_null_type_refuted : network_conf_from_file X_null_files "/n/x.conflist" = Ok X_null /\
  (exists tr e, runs false (add_network_list X_cni X_null X_rt) [] tr [] (Err e) /\ calls tr = []) /\
  (exists tr e, runs false (get_status_network_list X_cni X_null) [] tr [] (Err e) /\ calls tr = []) /\
  (exists tr, runs false (gc_network_list X_cni X_null None) [] tr [] Panic).
Proof.
  split; [vm_compute; reflexivity|]. split; [|split].
  - destruct (interp X_oracle 0 (add_network_list X_cni X_null X_rt) []) as [[r w'] tr] eqn:E. pose proof (interp_run _ _ _ _ _ _ _ X_tame E) as R.
    vm_compute in E. injection E as <- <- <-. eexists _, _. split; [exact R|reflexivity].
  - destruct (interp X_oracle 0 (get_status_network_list X_cni X_null) []) as [[r w'] tr] eqn:E. pose proof (interp_run _ _ _ _ _ _ _ X_tame E) as R.
    vm_compute in E. injection E as <- <- <-. eexists _, _. split; [exact R|reflexivity].
  - destruct (interp X_oracle 0 (gc_network_list X_cni X_null None) []) as [[r w'] tr] eqn:E. pose proof (interp_run _ _ _ _ _ _ _ X_tame E) as R.
    vm_compute in E. injection E as <- <- <-. eexists. exact R.
Qed.
(** The usual list meets the conditions. *)
Example C66_nonvacuous : network_conf_from_bytes (nl_bytes X_list) = Ok X_list /\ Forall settled (nl_plugins X_list) /\ at_least (nl_version X_list) (1, 1, 0)%Z /\
  one_type [("type", JStr "bridge"); ("types", JNull)] /\
  exists tr, runs false (get_status_network_list X_cni X_list) [] tr [] (Ok tt) /\ map call_path (calls tr) = ["/opt/bin/bridge"; "/opt/bin/tuning"].
Proof.
  assert (L : network_conf_from_bytes (nl_bytes X_list) = Ok X_list) by (vm_compute; reflexivity).
  split; [exact L|]. split; [apply Forall_forall; intros net; now apply (C66_inlined_settled _ _ _ L)|]. split; [|split; [cbv; lia|]].
  - apply gte_or_false_iff. reflexivity.
  - destruct (interp X_oracle 0 (get_status_network_list X_cni X_list) []) as [[r w'] tr] eqn:E. pose proof (interp_run _ _ _ _ _ _ _ X_tame E) as R.
    vm_compute in E. injection E as <- <- <-. eexists. split; [exact R|reflexivity].
Qed.

Print Assumptions C66_one_type_settled.
Print Assumptions C66_inlined_settled.
Print Assumptions C66_status.
Print Assumptions C66_gc.
