(** C94: plugins written with this library accept the runtime's GC and STATUS requests. *)
From Coq Require Import String Ascii List Arith ZArith NArith Bool Lia.
From Verif Require Import Model.GoStr Model.Errors Model.Version Model.Validate Model.Json Model.GoJson Model.Types Model.Conf Model.Args Model.Invoke Model.Prog Model.Api Model.Skel
  Spec.VersionSpec Spec.NameSpec Spec.JsonSpec Spec.ConfSpec Spec.EnvSpec Spec.RunSpec Spec.CacheSpec Spec.InvokeSpec Spec.SkelSpec Spec.TypesSpec Spec.LiveSpec
  Proofs.StrP Proofs.Utf8P Proofs.VersionP Proofs.ValidateP Proofs.JsonRT Proofs.GoJsonP Proofs.ConfP Proofs.BuildP Proofs.LoadP Proofs.EnvP Proofs.ProgP Proofs.ApiP Proofs.VerbP Proofs.InvokeP Proofs.SkelP Proofs.TypesP Proofs.LiveP
  Properties.P_Conf Properties.P_Api Properties.P_Invoke Properties.P_Skel Properties.P_Types Properties.P_Live Properties.P_E2E.
Import ListNotations.
Open Scope nat_scope.
Open Scope string_scope.

(** A plugin configuration in which no other spelling of the version's key overrides it (C13). *)
Definition plain_version (net : plugin_config) : Prop :=
  exists o, parse (pg_bytes net) = Some (JObj o) /\
    forall k v, In (k, v) o -> key_is "cniVersion" k = true -> k = "cniVersion" \/ String.compare k "cniVersion" = Lt.

Lemma good_name_wf name : good_name name -> well_formed_text name.
Proof.
  intros (a & r & -> & A & R). assert (AS : forall c s, (code c < 128)%N -> well_formed_text s -> well_formed_text (String c s)).
  { intros c0 s L W. assert (E : String c0 s = utf8 (code c0) ++ s) by (unfold utf8; rewrite (proj2 (N.ltb_lt _ _) L); unfold NameSpec.b, code; now rewrite ascii_N_embedding).
    rewrite E. constructor; [unfold scalar; lia|exact W]. }
  assert (AN : forall c, alnum c -> (code c < 128)%N) by (intros c0 H; unfold alnum, byte in H; unfold code; lia).
  apply AS; [now apply AN|]. clear - R AS AN. induction R as [|c0 s H R IH]; [constructor|]. apply AS; [|exact IH].
  destruct H as [H|[-> | [-> | ->]]]; [now apply AN|reflexivity|reflexivity|reflexivity].
Qed.
Lemma at_least_nonempty v : at_least v (1, 1, 0)%Z -> v <> "".
Proof. intros A ->. apply gte_or_false_iff in A. vm_compute in A. discriminate A. Qed.

Lemma injected_acceptable verb c net kvs conf pe supported name ver :
  inject_conf net (gvals kvs) = Ok conf -> plain_version net -> Forall wf3 kvs ->
  last_get "name" kvs = Some (JStr name) -> last_get "cniVersion" kvs = Some (JStr ver) ->
  (forall k, In k (map fst kvs) -> key_is "cniVersion" k = true -> k = "cniVersion") ->
  verb = "GC" \/ verb = "STATUS" -> command pe = verb -> pe_getenv pe "CNI_PATH" = String.concat ":" (c_path c) -> String.concat ":" (c_path c) <> "" ->
  pe_stdin pe = Some (pg_bytes conf) -> good_name name -> at_least ver (1, 1, 0)%Z -> In ver supported ->
  acceptable_request pe supported (pg_bytes conf).
Proof.
  intros I (o & P & SP) F LN LV KK VB CMD CP NP SI GN AL IS.
  destruct (inject_doc _ _ _ _ I P F) as (d & P' & S & D & T & M).
  pose proof (M "name") as N. rewrite LN in N. pose proof (M "cniVersion") as V. rewrite LV in V.
  rewrite last_member_sorted in N, V by exact S.
  assert (KV : forall k v, In (k, v) d -> key_is "cniVersion" k = true -> k = "cniVersion" \/ String.compare k "cniVersion" = Lt).
  { intros k v J E. destruct (inject_keys _ _ _ _ _ _ _ I P P' F J) as [Z|[y Z]]; [left; now apply KK|eapply SP; eassumption]. }
  assert (FO : forall k v, In (k, v) d -> fields_ok plugin_fields k v).
  { assert (PO2 : plugin_object (JObj d)) by (apply plugin_object_iff; eauto). destruct PO2 as (o' & t & E & Q & _). injection E as <-. exact Q. }
  unfold acceptable_request. split; [|split; [|split; [|split]]].
  - unfold missing. rewrite CMD. assert (C1 : String.eqb (pe_getenv pe "CNI_COMMAND") "" = false).
    { apply String.eqb_neq. unfold command in CMD. rewrite CMD. destruct VB as [-> | ->]; discriminate. }
    assert (C2 : String.eqb (pe_getenv pe "CNI_PATH") "" = false) by (apply String.eqb_neq; now rewrite CP).
    destruct VB as [-> | ->]; cbn [required String.eqb Ascii.eqb Bool.eqb filter]; now rewrite C1, C2.
  - intros X. exfalso. rewrite CMD in X. destruct VB as [-> | ->], X as [X|[X|X]]; discriminate X.
  - exact SI.
  - exists name. split; [|exact GN]. exists d. split; [exact P'|]. split.
    + apply sorted_says; [exact S|exact N|]. intros k v _ E. now apply name_spellings.
    + intros k v J E. exact (FO k v J "name" text_or_null ltac:(cbn; tauto) E).
  - exists ver. split; [|split; [exact IS|]].
    + exists d, ver. split; [exact P'|]. split; [apply declares_it; now apply sorted_says|]. split.
      * intros k v J E. exact (FO k v J "cniVersion" text_or_null ltac:(cbn; tauto) E).
      * destruct (String.eqb_spec ver "") as [X|_]; [|reflexivity]. now destruct (at_least_nonempty _ AL).
    + rewrite CMD. right. right. split; [exact VB|exact AL].
Qed.

(** STATUS. *)
Theorem C94_status : forall fl c l w tr w' r x pe supported,
  runs fl (get_status_network_list c l) w tr w' r -> In x (calls tr) -> started_by x pe ->
  Forall plain_version (nl_plugins l) -> good_name (nl_name l) -> well_formed_text (nl_version l) ->
  In (nl_version l) supported -> String.concat ":" (c_path c) <> "" ->
  command pe = "STATUS" /\ acceptable_request pe supported (call_stdin x).
Proof.
  intros fl c l w tr w' r x pe supported H I (SE & SI) PV GN WV IS NP.
  destruct (gte_or_false (nl_version l) "1.1.0") eqn:G.
  2:{ exfalso. assert (N : ~ at_least (nl_version l) (1, 1, 0)%Z) by (intros A; apply gte_or_false_iff in A; congruence).
      destruct (C20_status_needs_110 _ _ _ _ _ _ _ H N) as (-> & _). destruct I. }
  apply gte_or_false_iff in G. destruct (C20_status_asks_in_order _ _ _ _ _ _ _ H G) as (_ & _ & Q & _).
  apply In_nth_error in I. destruct I as [i I]. destruct (Q i x I) as (net & conf & N & J & (E1 & E2) & _ & SD).
  assert (CMD : command pe = "STATUS") by (unfold command; now rewrite SE). split; [exact CMD|]. rewrite SD in *.
  rewrite Forall_forall in PV. specialize (PV _ (nth_error_In _ _ N)).
  apply (injected_acceptable "STATUS" c net [("name", JStr (nl_name l)); ("cniVersion", JStr (nl_version l))] conf pe supported (nl_name l) (nl_version l)); try assumption.
  - repeat (apply Forall_cons; [split; [apply lit_wf; vm_compute; reflexivity|split; [first [exact (good_name_wf _ GN)|exact WV]|cbn; discriminate]]|]). constructor.
  - reflexivity.
  - reflexivity.
  - intros k [<-|[<-|[]]]; [vm_compute; discriminate|reflexivity].
  - now right.
  - now rewrite SE.
Qed.
(** The deletions in a collection run plugins with CNI_COMMAND=DEL only. *)
Lemma dels_commands fl c l atts w tr w' rs : dels fl c l atts w tr w' rs ->
  forall x, In x (calls tr) -> getenv (call_env x) "CNI_COMMAND" = "DEL".
Proof.
  induction 1 as [w|a rt atts w tr1 w1 r tr2 w2 rs PO R D IH]; intros x I; [destruct I|]. rewrite calls_app in I. apply in_app_or in I. destruct I as [I|I]; [|now apply IH].
  assert (V : verb_run "DEL" c l rt fl w tr1 w1) by (right; left; split; [reflexivity|now exists r]).
  destruct (verb_call _ _ _ _ _ _ _ _ _ V I) as (net & prev & _ & (E & _) & _). exact E.
Qed.
Lemma turns_call P nets tr ends x : turns P nets tr ends -> In x (calls tr) ->
  exists net seg t, In net nets /\ P net seg t /\ In x (calls seg).
Proof.
  intros (segs & -> & L1 & L2 & H) I. unfold calls in I. apply in_flat_map in I. destruct I as (e & I & J). apply in_concat in I. destruct I as (seg & I & K).
  apply In_nth_error in I. destruct I as [i I]. assert (LT : i < List.length segs) by (apply nth_error_Some; congruence).
  destruct (nth_error nets i) as [net|] eqn:N; [|apply nth_error_None in N; lia]. destruct (nth_error ends i) as [t|] eqn:T; [|apply nth_error_None in T; lia].
  exists net, seg, t. split; [now apply nth_error_In in N|]. split; [now apply (H i)|]. unfold calls. apply in_flat_map. eauto.
Qed.
(** GC. *)
Theorem C94_gc : forall fl c l args w tr w' r x pe supported,
  runs fl (gc_network_list c l args) w tr w' r -> r <> Panic -> In x (calls tr) -> command pe = "GC" -> started_by x pe ->
  Forall plain_version (nl_plugins l) -> good_name (nl_name l) -> well_formed_text (nl_version l) -> sendable_args args ->
  In (nl_version l) supported -> String.concat ":" (c_path c) <> "" ->
  acceptable_request pe supported (call_stdin x).
Proof.
  intros fl c l args w tr w' r x pe supported H RP I CMD (SE & SI) PV GN WV SA IS NP. destruct (nl_disable_gc l) eqn:DG.
  { destruct (C19_gc_disabled _ _ _ _ _ _ _ _ H DG) as (-> & _). destruct I. }
  assert (NC : forall w0 tr0 w1 r0, runs fl (get_cached_attachments c "") w0 tr0 w1 r0 -> calls tr0 = []) by (intros w0 tr0 w1 r0 R; now apply get_cached_attachments_inv in R).
  destruct (C19_gc_deletes_the_stale_and_tells_plugins _ _ _ _ _ _ _ _ H DG RP) as [(e & R & _)|(atts & st & tr0 & tr1 & tr2 & rs & R & -> & _ & D & K)].
  { rewrite (NC _ _ _ _ R) in I. destruct I. }
  rewrite !calls_app, (NC _ _ _ _ R) in I. cbn [app] in I. apply in_app_or in I. destruct I as [I|I].
  { exfalso. apply (dels_commands _ _ _ _ _ _ _ _ D) in I. unfold command in CMD. rewrite SE, I in CMD. discriminate CMD. }
  destruct K as [(_ & -> & _)|(A & ends & T & _)]; [destruct I|].
  destruct (turns_call _ _ _ _ _ T I) as (net & seg & t & J & (conf & IJ & TN) & X).
  destruct TN as [e E|y C _ F ((E1 & E2) & SD)]; [subst seg; destruct X|]. rewrite C in X. destruct X as [->|[]]. rewrite SD in *.
  rewrite Forall_forall in PV. specialize (PV _ J).
  set (kvs := ([("name", JStr (nl_name l)); ("cniVersion", JStr (nl_version l))] ++
    match args with None => [] | Some a => [("cni.dev/valid-attachments", enc_gc_args a); ("cni.dev/attachments", enc_gc_args a)] end)%list).
  assert (E : gc_params l args = gvals kvs) by (unfold gc_params, kvs, gvals; destruct args; reflexivity). rewrite E in IJ.
  apply (injected_acceptable "GC" c net kvs conf pe supported (nl_name l) (nl_version l)); try assumption.
  - unfold kvs. apply Forall_app. split.
    + repeat (apply Forall_cons; [split; [apply lit_wf; vm_compute; reflexivity|split; [first [exact (good_name_wf _ GN)|exact WV]|cbn; discriminate]]|]). constructor.
    + destruct args as [a|]; [|constructor]. destruct (args_json a SA) as (W & L & _).
      repeat (apply Forall_cons; [split; [apply lit_wf; vm_compute; reflexivity|split; [exact W|cbn [snd]; lia]]|]). constructor.
  - unfold kvs. destruct args; reflexivity.
  - unfold kvs. destruct args; reflexivity.
  - unfold kvs. intros k K KK. destruct args; cbn [map app fst In] in K; repeat (destruct K as [<-|K]; [first [reflexivity|vm_compute in KK; discriminate KK]|]); destruct K.
  - now left.
  - now rewrite SE.
Qed.

(** So a plugin that supports the network's version and implements the command has its function
    called, once, with the request's document as standard input. *)
Theorem C94_function_called : forall fl c l w tr w' x pe funcs info about which f,
  (which = "STATUS" /\ (exists r, runs fl (get_status_network_list c l) w tr w' r) \/
   which = "GC" /\ (exists args r, runs fl (gc_network_list c l args) w tr w' r /\ r <> Panic /\ sendable_args args)) ->
  In x (calls tr) -> started_by x pe -> command pe = which ->
  Forall plain_version (nl_plugins l) -> good_name (nl_name l) -> well_formed_text (nl_version l) ->
  In (nl_version l) (pi_supported info) -> Forall well_formed_version (pi_supported info) -> String.concat ":" (c_path c) <> "" ->
  function_for funcs which = Some f ->
  exists a, so_calls (plugin_main pe funcs info about) = [(which, a)] /\ ca_stdin a = call_stdin x.
Proof.
  intros fl c l w tr w' x pe funcs info about which f H I S CMD PV GN WV IS WS NP FF.
  assert (A : acceptable_request pe (pi_supported info) (call_stdin x)).
  { destruct H as [(-> & r & H)|(-> & args & r & H & RP & SA)]; [eapply C94_status; eassumption|eapply C94_gc; eassumption]. }
  rewrite <- CMD in FF. destruct (C44_called_if pe funcs info about _ f A WS FF) as (a & AR & C & _). exists a. rewrite <- CMD. split; [exact C|]. apply AR.
Qed.

(** *** A case: a 1.1.0 network whose plugin implements both commands. *)
Definition sw_info : plugin_info := {| pi_version := "1.1.0"; pi_supported := ["1.0.0"; "1.1.0"] |}.
Definition sw_funcs : cni_funcs :=
  {| f_add := None; f_del := None; f_check := None; f_gc := Some (fun _ => ("", None)); f_status := Some (fun _ => ("", None)) |}.
Definition sw_oracle : oracle :=
  {| or_environ := ["PATH=/bin"]; or_find := fun p _ => Ok ("/opt/cni/bin/" ++ p);
     or_exec := fun _ _ stdin env => fst (exec_plugin (fun _ => process_outcome (plugin_process (e2e_env stdin env) sw_funcs sw_info ""))) |}.
Lemma sw_tame : tame sw_oracle.
Proof.
  split; [reflexivity|]. intros n p s e. cbn [sw_oracle or_exec].
  destruct (process_outcome (plugin_process (e2e_env s e) sw_funcs sw_info "")) as [out err oe]. unfold exec_plugin.
  assert (G : forall left i so se, is_panic (fst (exec_loop left i (fun _ => {| ro_stdout := out; ro_stderr := err; ro_err := oe |}) so se)) = false).
  { induction left as [|left IH]; intros i so se; cbn [exec_loop]; [reflexivity|]. cbn [ro_err]. destruct oe as [e0|]; [|reflexivity].
    destruct (contains_str text_file_busy e0); [apply IH|reflexivity]. }
  apply G.
Qed.
Definition sw_list : network_list :=
  {| nl_name := "net1"; nl_version := "1.1.0"; nl_disable_check := false; nl_disable_gc := false; nl_only_inlined := false;
     nl_plugins := [e2e_net]; nl_bytes := e2e_conf |}.
Lemma sw_plain : Forall plain_version (nl_plugins sw_list).
Proof.
  change (Forall plain_version [e2e_net]). apply Forall_cons; [|constructor]. eexists. split; [vm_compute; reflexivity|].
  intros k v H K. repeat (destruct H as [H|H]; [injection H as <- <-; discriminate K|]). destruct H.
Qed.
Example C94_nonvacuous :
  (exists tr x, runs false (get_status_network_list e2e_cni sw_list) [] tr [] (Ok tt) /\ In x (calls tr) /\
     started_by x (e2e_env (call_stdin x) (call_env x)) /\ command (e2e_env (call_stdin x) (call_env x)) = "STATUS") /\
  (exists tr x, runs false (gc_network_list e2e_cni sw_list (Some (Some [{| ga_container := "c-1"; ga_ifname := "eth0" |}]))) [] tr [] (Ok tt) /\ In x (calls tr) /\
     started_by x (e2e_env (call_stdin x) (call_env x)) /\ command (e2e_env (call_stdin x) (call_env x)) = "GC") /\
  Forall plain_version (nl_plugins sw_list) /\ good_name (nl_name sw_list) /\ well_formed_text (nl_version sw_list) /\
  In (nl_version sw_list) (pi_supported sw_info) /\ Forall well_formed_version (pi_supported sw_info) /\ String.concat ":" (c_path e2e_cni) <> "" /\
  sendable_args (Some (Some [{| ga_container := "c-1"; ga_ifname := "eth0" |}])).
Proof.
  split; [|split; [|split; [exact sw_plain|split; [|split; [|split; [|split; [|split]]]]]]].
  - destruct (interp sw_oracle 0 (get_status_network_list e2e_cni sw_list) []) as [[r w'] tr] eqn:E.
    pose proof (interp_run _ sw_oracle _ _ _ _ _ sw_tame E) as R. vm_compute in E. injection E as <- <- <-.
    eexists _, _. split; [exact R|]. split; [left; reflexivity|]. split; [split; reflexivity|reflexivity].
  - destruct (interp sw_oracle 0 (gc_network_list e2e_cni sw_list (Some (Some [{| ga_container := "c-1"; ga_ifname := "eth0" |}]))) []) as [[r w'] tr] eqn:E.
    pose proof (interp_run _ sw_oracle _ _ _ _ _ sw_tame E) as R. vm_compute in E. injection E as <- <- <-.
    eexists _, _. split; [exact R|]. split; [left; reflexivity|]. split; [split; reflexivity|reflexivity].
  - apply validate_network_name_ok. reflexivity.
  - apply valid_utf8_wf. reflexivity.
  - right. now left.
  - repeat constructor; eexists; apply parse_version_spec; reflexivity.
  - discriminate.
  - intros l a E I. injection E as <-. destruct I as [<-|[]]. split; apply valid_utf8_wf; reflexivity.
Qed.
Print Assumptions C94_status.
Print Assumptions C94_gc.
Print Assumptions C94_function_called.
