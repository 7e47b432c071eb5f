(** Runtime to plugin and back: C57. *)
From Coq Require Import String Ascii List Arith ZArith NArith Bool Lia.
From Verif Require Import Model.GoStr Model.Errors Model.Version Model.Validate Model.Json Model.Num Model.GoJson Model.NetIP Model.Types Model.Conf Model.Args Model.Invoke Model.Prog Model.Api Model.Skel
  Spec.VersionSpec Spec.NameSpec Spec.JsonSpec Spec.ConfSpec Spec.EnvSpec Spec.RunSpec Spec.CacheSpec Spec.InvokeSpec Spec.SkelSpec Spec.TypesSpec
  Proofs.StrP Proofs.Utf8P Proofs.VersionP Proofs.ValidateP Proofs.JsonRT Proofs.GoJsonP Proofs.NumP Proofs.ConfP Proofs.BuildP Proofs.LoadP Proofs.EnvP Proofs.ProgP Proofs.ApiP Proofs.VerbP Proofs.InvokeP Proofs.SkelP Proofs.TypesP
  Properties.P_Conf Properties.P_Api Properties.P_Invoke Properties.P_Skel Properties.P_Types.
Import ListNotations.
Open Scope nat_scope.
Open Scope string_scope.

(** A plugin process started by this execution: it has its environment and standard input. *)
Definition started_by (x : call) (pe : plugin_env) : Prop :=
  (forall k, pe_getenv pe k = getenv (call_env x) k) /\ pe_stdin pe = Some (call_stdin x).
(** The runtime's request. *)
Definition verb_run (verb : string) (c : cni) (l : network_list) (rt : runtime_conf) (fl : bool) (w : world) (tr : trace) (w' : world) : Prop :=
  (verb = "ADD" /\ exists r, runs fl (add_network_list c l rt) w tr w' r) \/
  (verb = "DEL" /\ exists r, runs fl (del_network_list c l rt) w tr w' r) \/
  (verb = "CHECK" /\ exists r, runs fl (check_network_list c l rt) w tr w' r).

Lemma verb_call verb c l rt fl w tr w' x : verb_run verb c l rt fl w tr w' -> In x (calls tr) ->
  exists net prev, In net (nl_plugins l) /\ request c verb (nl_name l) (nl_version l) rt net prev tr x.
Proof.
  intros H I. apply In_nth_error in I. destruct I as [i I].
  destruct H as [(-> & r & H)|[(-> & r & H)|(-> & r & H)]].
  - destruct (C14_add_chains_results _ _ _ _ _ _ _ _ H) as (rs & P & _). destruct (P i x I) as (net & N & R). exists net. eexists. split; [eapply nth_error_In; exact N|exact R].
  - destruct (del_network_list_inv _ _ _ _ _ _ _ _ H) as [(_ & -> & _)|[(_ & _ & _ & _ & _ & C)|D]]; [destruct i; discriminate|rewrite C in I; destruct i; discriminate|].
    destruct D as (cached & tr0 & trp & w1 & tr1 & trd & r1 & -> & C0 & _ & K & R & -> & FIN).
    destruct (del_loop_inv _ _ _ _ _ _ _ _ _ _ _ R) as (_ & _ & (A1 & _) & _ & _).
    assert (CP : calls trp = []) by (destruct K as [(_ & [(y & _ & -> & _)|(e & _ & K)] & _)|(_ & _ & -> & _)]; [reflexivity| |reflexivity]; now apply cache_del_inv in K).
    assert (CD : calls trd = []) by (destruct FIN as [(_ & K2)|(_ & -> & _)]; [now apply cache_del_inv in K2|reflexivity]).
    assert (CC : calls (tr0 ++ trp ++ tr1 ++ trd)%list = calls tr1) by (rewrite !calls_app, C0, CP, CD; cbn; now rewrite app_nil_r).
    rewrite CC in I. destruct (A1 i x I) as (net & E1 & Q). exists net, (del_prev cached). split; [apply in_rev; eapply nth_error_In; exact E1|].
    apply request_app_r, request_app_r, request_app_l. exact Q.
  - apply check_summary in H. destruct H as (_ & _ & H).
    assert (N : calls tr <> []) by (intros E; rewrite E in I; destruct i; discriminate).
    destruct H as [(_ & C & _)|[(_ & C & _)|[(_ & _ & C & _)|(_ & _ & cached & _ & M)]]]; try contradiction.
    destruct cached as [prev|e|]; [|destruct M; contradiction|destruct M; contradiction].
    destruct M as ((A1 & _) & _). destruct (A1 i x I) as (net & E1 & Q). exists net, prev. split; [eapply nth_error_In; exact E1|exact Q].
Qed.
(** The function a skel plugin calls for an execution of an ADD, DEL or CHECK is the one for that
    command and receives exactly the parameters of the request; its standard input is the
    configuration built for it. *)
Theorem C57_arguments_arrive : forall verb c l rt fl w tr w' x pe funcs info about which a,
  verb_run verb c l rt fl w tr w' -> In x (calls tr) -> started_by x pe ->
  In (which, a) (so_calls (plugin_main pe funcs info about)) ->
  which = verb /\ ca_container a = rt_container rt /\ ca_netns a = rt_netns rt /\ ca_ifname a = rt_ifname rt /\
  ca_args a = String.concat ";" (map (fun kv => fst kv ++ "=" ++ snd kv) (rt_args rt)) /\
  ca_path a = String.concat ":" (c_path c) /\ ca_stdin a = call_stdin x /\
  exists net prev, In net (nl_plugins l) /\ request_for (nl_name l) (nl_version l) net prev rt (ca_stdin a).
Proof.
  intros verb c l rt fl w tr w' x pe funcs info about which a V I (SE & SI) C.
  destruct (verb_call _ _ _ _ _ _ _ _ _ V I) as (net & prev & IN & (E1 & E2 & E3 & E4 & E5 & E6) & _ & RF).
  apply C44_called_only_if in C. destruct C as (_ & -> & f & data & _ & AR & AC).
  destruct AR as (A1 & A2 & A3 & A4 & A5 & _ & A7). destruct AC as (_ & _ & AS & _). rewrite SI in AS. injection AS as <-.
  unfold command. rewrite A1, A2, A3, A4, A5, A7, !SE. rewrite E1, E2, E3, E4, E5, E6. repeat split. exists net, prev. split; [exact IN|exact RF].
Qed.
Lemma sorted_says field d s : ssorted d -> sget field d = Some (JStr s) ->
  (forall k v, In (k, v) d -> key_is field k = true -> k = field \/ String.compare k field = Lt) -> says field d s.
Proof.
  intros S G A. apply sget_In in G. apply in_split in G. destruct G as (l1 & l2 & E). exists l1, field, l2. split; [exact E|].
  split; [unfold key_is; now rewrite String.eqb_refl|]. intros k v I K. exfalso. subst d.
  assert (X : ssorted ((field, JStr s) :: l2)) by (clear - S; induction l1 as [|(a, b) l1 IH]; [exact S|apply IH; now apply (proj1 (ssorted_cons _ _ _)) in S]).
  assert (Y : String.compare field k = Lt).
  { clear - X I. apply (proj1 (ssorted_cons _ _ _)) in X. destruct X as (L & S2). revert field s L. revert I S2. induction l2 as [|(a, b) l2 IH]; intros I S2 f s L; [destruct I|].
    cbn in L. destruct I as [E|I]; [injection E as -> ->; exact L|]. apply (proj1 (ssorted_cons _ _ _)) in S2. destruct S2 as (L2 & S2).
    eapply (IH I S2 f s). eapply lb_trans; eassumption. }
  destruct (A k v) as [->|Z]; [apply in_or_app; right; now right|exact K|now rewrite compare_refl in Y|].
  apply compare_gt in Y. congruence.
Qed.
(** Such an execution is acceptable to any skel plugin that supports the network's version: its
    function is called.  The parameters must be there, and the version must not be overridden by
    another spelling of its key in the plugin's configuration (C13). *)
Theorem C57_request_is_acceptable : forall verb c name ver rt net o prev tr x pe supported,
  request c verb name ver rt net prev tr x -> started_by x pe ->
  parse (pg_bytes net) = Some (JObj o) -> well_formed_text ver -> prev_ok prev -> good_caps rt ->
  (forall k v, In (k, v) o -> key_is "cniVersion" k = true -> k = "cniVersion" \/ String.compare k "cniVersion" = Lt) ->
  per_attachment verb -> allowed_at verb ver -> ver <> "" -> In ver supported ->
  good_name name -> good_name (rt_container rt) -> good_ifname (rt_ifname rt) ->
  (verb <> "DEL" -> rt_netns rt <> "") -> String.concat ":" (c_path c) <> "" ->
  acceptable_request pe supported (call_stdin x).
Proof.
  intros verb c name ver rt net o prev tr x pe supported (EV & _ & (conf & B & SD)) (SE & SI) P WV PO GC SP PA AL NV IS GN GI GF NN NP.
  destruct EV as (E1 & E2 & E3 & E4 & E5 & E6).
  assert (WN : well_formed_text name).
  { destruct GN as (a & r & -> & A & R). assert (AS : forall c s, (code c < 128)%N -> well_formed_text s -> well_formed_text (String c s)).
    { intros c0 s L W. assert (E : String c0 s = utf8 (code c0) ++ s) by (unfold utf8; rewrite (proj2 (N.ltb_lt _ _) L); unfold NameSpec.b, code; now rewrite ascii_N_embedding).
      rewrite E. constructor; [unfold scalar; lia|exact W]. }
    assert (AN : forall c, alnum c -> (code c < 128)%N) by (intros c0 H; unfold alnum, byte in H; unfold code; lia).
    apply AS; [now apply AN|]. clear - R AS AN. induction R as [|c0 s H R IH]; [constructor|]. apply AS; [|exact IH].
    destruct H as [H|[-> | [-> | ->]]]; [now apply AN|reflexivity|reflexivity|reflexivity]. }
  destruct (build_doc _ _ _ _ _ _ _ B P WN WV PO GC) as (d & c1 & P' & S & D & T & N & V & _ & _ & _ & _ & _ & K).
  assert (CMD : command pe = verb) by (unfold command; now rewrite SE).
  assert (NE1 : rt_container rt <> "") by (destruct GI as (a & r & -> & _); discriminate).
  assert (NE2 : rt_ifname rt <> "") by (destruct GF; assumption).
  assert (KV : forall k v, In (k, v) d -> key_is "cniVersion" k = true -> k = "cniVersion" \/ String.compare k "cniVersion" = Lt).
  { intros k v I F. destruct (K k v I) as [Z|[y Z]]; [|eapply SP; eassumption].
    unfold request_keys in Z. cbn [In] in Z. destruct Z as [<-|[<-|[<-|[<-|[]]]]]; try discriminate. now left. }
  assert (FO : forall k v, In (k, v) d -> fields_ok plugin_fields k v).
  { assert (PO2 : plugin_object (JObj d)) by (apply plugin_object_iff; eauto). destruct PO2 as (o' & t & E & F & _). injection E as <-. exact F. }
  unfold acceptable_request. rewrite CMD. split; [|split; [|split; [|split]]].
  - unfold missing. rewrite CMD.
    assert (F : forall v, In v ["CNI_COMMAND"; "CNI_CONTAINERID"; "CNI_IFNAME"; "CNI_PATH"] \/ (v = "CNI_NETNS" /\ verb <> "DEL") -> String.eqb (pe_getenv pe v) "" = false).
    { intros v H. apply String.eqb_neq. rewrite SE. cbn [In] in H. destruct H as [[<-|[<-|[<-|[<-|[]]]]]|(-> & H)]; rewrite ?E1, ?E2, ?E3, ?E5, ?E6; auto. destruct PA as [-> | [-> | ->]]; discriminate. }
    destruct PA as [-> | [-> | ->]]; cbn [required String.eqb Ascii.eqb Bool.eqb filter];
      repeat match goal with |- context [String.eqb (pe_getenv pe ?v) ""] => rewrite (F v) by first [left; cbn; tauto|right; split; [reflexivity|discriminate]] end; reflexivity.
  - intros _. rewrite !SE, E2, E5. auto.
  - exact SI.
  - exists name. split; [|exact GN]. exists d. rewrite SD. split; [exact P'|]. split.
    + apply sorted_says; [exact S|exact N|]. intros k v _ F. now apply name_spellings.
    + intros k v I F. exact (FO k v I "name" text_or_null ltac:(cbn; tauto) F).
  - exists ver. split; [|split; [exact IS|exact AL]]. exists d, ver. rewrite SD. split; [exact P'|]. split; [apply declares_it; now apply sorted_says|]. split.
    + intros k v I F. exact (FO k v I "cniVersion" text_or_null ltac:(cbn; tauto) F).
    + destruct (String.eqb_spec ver "") as [|_]; [contradiction|reflexivity].
Qed.
(** The answer the runtime gets is what running the plugin process reports (C24, C47). *)
Definition answered_by (x : call) (pe : plugin_env) (funcs : cni_funcs) (info : plugin_info) (about : string) : Prop :=
  call_answer x = fst (exec_plugin (fun _ => process_outcome (plugin_process pe funcs info about))).
(** An error a plugin function returns without having printed anything reaches the caller of
    AddNetworkList unchanged, wrapped. *)
Theorem C57_errors_come_back : forall c l rt fl w tr w' r x pe funcs info about f data e code msg details,
  runs fl (add_network_list c l rt) w tr w' r -> In x (calls tr) -> started_by x pe ->
  answered_by x pe funcs info about ->
  acceptable_request pe (pi_supported info) data -> Forall well_formed_version (pi_supported info) ->
  f_add funcs = Some f -> (forall a, f a = ("", Some e)) -> carries e code msg details ->
  (code < 2 ^ 64)%N -> well_formed_text msg -> well_formed_text details ->
  exists m, r = Err (EWrap m (ECNI code msg details)).
Proof.
  intros c l rt fl w tr w' r x pe funcs info about f data e code msg details R I SB AB AC WF FA FR CA C M D.
  assert (CMD : command pe = "ADD").
  { destruct (verb_call "ADD" c l rt fl w tr w' x) as (net & prev & _ & (E1 & _) & _); [left; eauto|exact I|]. unfold command. rewrite (proj1 SB). exact E1. }
  eapply C15_error_is_the_plugins; [exact R|exact I|]. rewrite AB.
  destruct (C44_called_if pe funcs info about data f AC WF) as (a & _ & _ & SO & ER & _); [now rewrite CMD|]. rewrite FR in SO. cbn [fst] in SO.
  specialize (ER e code msg details). rewrite FR in ER. specialize (ER eq_refl CA).
  assert (PP : process_outcome (plugin_process pe funcs info about) =
    {| ro_stdout := print_error code msg details; ro_stderr := so_stderr (plugin_main pe funcs info about); ro_err := Some "exit status 1" |}).
  { unfold plugin_process, process_outcome. rewrite ER, SO. reflexivity. }
  rewrite PP. apply C47_error_reaches_caller with (n := 0) (e := "exit status 1"); try assumption; try reflexivity; [lia|intros j J; lia|apply not_busy_exit].
Qed.

(** A result a plugin function prints (types.PrintResult) is the result the runtime has for that
    plugin: it goes to the next plugin (C14), and the last one is what AddNetworkList returns.  The
    plugin is not in the container's namespace (C46) and the result survives JSON (C39). *)
Theorem C57_results_come_back : forall c l rt fl w tr w' r i x pe funcs info about f data v ver v' text,
  runs fl (add_network_list c l rt) w tr w' r -> nth_error (calls tr) i = Some x -> started_by x pe ->
  answered_by x pe funcs info about ->
  acceptable_request pe (pi_supported info) data -> Forall well_formed_version (pi_supported info) ->
  f_add funcs = Some f -> (forall a, f a = (text, None)) ->
  get_as_version v ver = Ok v' -> print_result v ver = Ok text -> wf_result exact prefix_form v' ->
  ~ (~ override_on pe /\ in_own_namespace pe) ->
  yields x v' /\
  (forall y, nth_error (calls tr) (S i) = Some y -> exists net,
     nth_error (nl_plugins l) (S i) = Some net /\ request c "ADD" (nl_name l) (nl_version l) rt net (Some v') tr y) /\
  (forall a, r = Ok a -> S i = List.length (nl_plugins l) -> a = Some v').
Proof.
  intros c l rt fl w tr w' r i x pe funcs info about f data v ver v' text R I SB AB AC WF FA FR GV PR W NS.
  assert (CMD : command pe = "ADD").
  { destruct (verb_call "ADD" c l rt fl w tr w' x) as (net & prev & _ & (E1 & _) & _); [left; eauto|eapply nth_error_In; exact I|].
    unfold command. rewrite (proj1 SB). exact E1. }
  assert (FF : function_for funcs (command pe) = Some f) by now rewrite CMD.
  destruct (C44_called_if pe funcs info about data f AC WF FF) as (a & AR & _ & SO & _). rewrite FR in SO. cbn [fst] in SO.
  destruct (C46_own_namespace pe funcs info about data f a (or_introl CMD) AC FF AR) as [_ NE]; [now rewrite FR|]. specialize (NE NS).
  assert (PP : process_outcome (plugin_process pe funcs info about) =
    {| ro_stdout := text; ro_stderr := so_stderr (plugin_main pe funcs info about); ro_err := None |}).
  { unfold plugin_process, process_outcome. rewrite NE, SO. reflexivity. }
  assert (CA : call_answer x = Ok text).
  { rewrite AB, PP. unfold exec_plugin. reflexivity. }
  assert (Y : yields x v').
  { exists text. split; [exact CA|]. unfold print_result in PR. rewrite GV in PR. cbn [rbind] in PR. unfold result_print in PR.
    destruct (result_rtn v' W) as (j & m & E & N & D & t & EM). destruct (result_rt v' (wf_exact_any _ W)) as (j0 & E0 & O & J & DP & DL).
    assert (j0 = j) by congruence. subst j0. rewrite E in PR. assert (T : text = print_indent j) by congruence. rewrite T. clear T PR PP CA SO FR.
    assert (P : parse (print_indent j) = Some j) by (apply parse_print_indent; now apply jenc).
    destruct AC as (_ & _ & AS & _ & cv & CV & _). rewrite (proj2 SB) in AS. assert (CD : conf_version (call_stdin x) cv) by (replace (call_stdin x) with data by congruence; exact CV).
    destruct j as [| | | | |o]; try discriminate O.
    assert (Q : add_result (call_stdin x) (print_indent (JObj o)) = create (result_version v') (print_indent (JObj o)));
      [eapply C40_named_version; [exact CD| | |]|etransitivity; [exact Q|]].
    4: exact (proj1 (text_back v' _ _ P DL (proj2 W))).
    - exists o. split; [exact P|exact N].
    - subst m. reflexivity.
    - exact (proj1 (right_nonempty _ (proj2 W))). }
  split; [exact Y|]. destruct (C14_add_chains_results _ _ _ _ _ _ _ _ R) as (rs & C1 & C2 & C3).
  assert (RI : nth_error rs i = Some v') by (apply C2; eauto). split.
  - intros y Hy. destruct (C1 _ _ Hy) as (net & N & Q). exists net. split; [exact N|]. cbn [before] in Q. now rewrite RI in Q.
  - intros b -> L. destruct (C3 b eq_refl) as (_ & L2 & ->). unfold last_or. rewrite L2, <- L. exact RI.
Qed.

(** *** An example: one network with one plugin, ADDed by the runtime, refused by the plugin. *)
Definition e2e_conf : string := Eval vm_compute in print (JObj [("name", JStr "net1"); ("type", JStr "bridge")]).
Definition e2e_net : plugin_config := Eval vm_compute in match plugin_conf_from_bytes e2e_conf with Ok c => c | _ => {| pg_conf := pg_conf (C_conf ""); pg_bytes := "" |} end.
Definition e2e_list : network_list :=
  {| nl_name := "net1"; nl_version := "0.4.0"; nl_disable_check := false; nl_disable_gc := false; nl_only_inlined := false;
     nl_plugins := [e2e_net]; nl_bytes := e2e_conf |}.
Definition e2e_rt : runtime_conf :=
  {| rt_container := "c-1"; rt_netns := "/ns/1"; rt_ifname := "eth0"; rt_args := [("K", "V"); ("A", "B")]; rt_caps := []; rt_cache_dir := "" |}.
Definition e2e_cni : cni := {| c_path := ["/opt/cni/bin"; "/usr/lib/cni"]; c_cache_dir := "" |}.
Definition e2e_funcs : cni_funcs :=
  {| f_add := Some (fun _ => ("", Some (ECNI 100 "no address left" "pool 1"))); f_del := None; f_check := None; f_gc := None; f_status := None |}.
Definition e2e_env (stdin : string) (env : list string) : plugin_env :=
  {| pe_getenv := getenv env; pe_stdin := Some stdin; pe_ns_at := fun _ => None; pe_own_ns := Some 1%N |}.
Definition e2e_oracle : oracle :=
  {| or_environ := ["PATH=/bin"; "CNI_IFNAME=other"]; or_find := fun p _ => Ok ("/opt/cni/bin/" ++ p);
     or_exec := fun _ _ stdin env => fst (exec_plugin (fun _ => process_outcome (plugin_process (e2e_env stdin env) e2e_funcs ex_info ""))) |}.
Lemma e2e_tame : tame e2e_oracle.
Proof.
  split; [reflexivity|]. intros n p s e. cbn [e2e_oracle or_exec].
  destruct (process_outcome (plugin_process (e2e_env s e) e2e_funcs ex_info "")) as [out err oe]. unfold exec_plugin.
  assert (G : forall left i so se, is_panic (fst (exec_loop left i (fun _ => {| ro_stdout := out; ro_stderr := err; ro_err := oe |}) so se)) = false).
  { induction left as [|left IH]; intros i so se; cbn [exec_loop]; [reflexivity|]. cbn [ro_err]. destruct oe as [e0|]; [|reflexivity].
    destruct (contains_str text_file_busy e0); [apply IH|reflexivity]. }
  apply G.
Qed.
Example C57_nonvacuous : exists tr x m,
  runs false (add_network_list e2e_cni e2e_list e2e_rt) [] tr [] (Err (EWrap m (ECNI 100 "no address left" "pool 1"))) /\
  In x (calls tr) /\ started_by x (e2e_env (call_stdin x) (call_env x)) /\
  answered_by x (e2e_env (call_stdin x) (call_env x)) e2e_funcs ex_info "" /\
  request e2e_cni "ADD" "net1" "0.4.0" e2e_rt e2e_net None tr x /\
  acceptable_request (e2e_env (call_stdin x) (call_env x)) (pi_supported ex_info) (call_stdin x).
Proof.
  destruct (interp e2e_oracle 0 (add_network_list e2e_cni e2e_list e2e_rt) []) as [[r w'] tr] eqn:E.
  pose proof (interp_run _ e2e_oracle _ _ _ _ _ e2e_tame E) as R. vm_compute in E. injection E as <- <- <-.
  destruct (C14_add_chains_results _ _ _ _ _ _ _ _ R) as (rs & P & _).
  eexists _, _, _. split; [exact R|]. split; [left; reflexivity|]. split; [split; [reflexivity|reflexivity]|]. split; [vm_compute; reflexivity|].
  destruct (P 0 _ eq_refl) as (net & N & RQ). injection N as <-. cbn [before] in RQ. split; [exact RQ|].
  eapply (C57_request_is_acceptable "ADD" e2e_cni "net1" "0.4.0" e2e_rt e2e_net).
  - exact RQ.
  - split; reflexivity.
  - vm_compute. reflexivity.
  - apply valid_utf8_wf. reflexivity.
  - exact I.
  - constructor.
  - intros k v H K. repeat (destruct H as [H|H]; [injection H as <- <-; discriminate|]). destruct H.
  - now left.
  - left. now left.
  - discriminate.
  - right. now left.
  - apply validate_network_name_ok. reflexivity.
  - apply validate_container_id_ok. reflexivity.
  - apply validate_interface_name_ok. reflexivity.
  - discriminate.
  - discriminate.
Qed.
(** The same network with a plugin that prints a 0.4.0 result. *)
Definition e2e_result : result :=
  R040 {| v4_version := "0.4.0"; v4_interfaces := []; v4_ips := []; v4_routes := [];
          v4_dns := {| d_nameservers := ["10.0.0.53"]; d_domain := "d"; d_search := []; d_options := [] |} |}.
Definition e2e_text : string := Eval vm_compute in match print_result e2e_result "0.4.0" with Ok t => t | _ => "" end.
Definition e2e_good : cni_funcs :=
  {| f_add := Some (fun _ => (e2e_text, None)); f_del := None; f_check := None; f_gc := None; f_status := None |}.
Definition e2e_oracle2 : oracle :=
  {| or_environ := ["PATH=/bin"; "CNI_IFNAME=other"]; or_find := fun p _ => Ok ("/opt/cni/bin/" ++ p);
     or_exec := fun _ _ stdin env => fst (exec_plugin (fun _ => process_outcome (plugin_process (e2e_env stdin env) e2e_good ex_info ""))) |}.
Lemma e2e_tame2 : tame e2e_oracle2.
Proof.
  split; [reflexivity|]. intros n p s e. cbn [e2e_oracle2 or_exec].
  destruct (process_outcome (plugin_process (e2e_env s e) e2e_good ex_info "")) as [out err oe]. unfold exec_plugin.
  assert (G : forall left i so se, is_panic (fst (exec_loop left i (fun _ => {| ro_stdout := out; ro_stderr := err; ro_err := oe |}) so se)) = false).
  { induction left as [|left IH]; intros i so se; cbn [exec_loop]; [reflexivity|]. cbn [ro_err]. destruct oe as [e0|]; [|reflexivity].
    destruct (contains_str text_file_busy e0); [apply IH|reflexivity]. }
  apply G.
Qed.
Example C57_results_nonvacuous : exists tr w' x,
  runs false (add_network_list e2e_cni e2e_list e2e_rt) [] tr w' (Ok (Some e2e_result)) /\
  nth_error (calls tr) 0 = Some x /\ started_by x (e2e_env (call_stdin x) (call_env x)) /\
  answered_by x (e2e_env (call_stdin x) (call_env x)) e2e_good ex_info "" /\
  get_as_version e2e_result "0.4.0" = Ok e2e_result /\ print_result e2e_result "0.4.0" = Ok e2e_text /\ wf_result exact prefix_form e2e_result /\
  ~ in_own_namespace (e2e_env (call_stdin x) (call_env x)).
Proof.
  destruct (interp e2e_oracle2 0 (add_network_list e2e_cni e2e_list e2e_rt) []) as [[r w'] tr] eqn:E.
  pose proof (interp_run _ e2e_oracle2 _ _ _ _ _ e2e_tame2 E) as R. vm_compute in E. injection E as <- <- <-.
  eexists _, _, _. split; [exact R|]. split; [reflexivity|]. split; [split; [reflexivity|reflexivity]|]. split; [vm_compute; reflexivity|].
  split; [vm_compute; reflexivity|]. split; [vm_compute; reflexivity|]. split; [|intros (n & X & _); discriminate X].
  split; [|cbn; tauto]. cbn [wf_body]. repeat split; try constructor; cbn; try (apply valid_utf8_wf; reflexivity); try constructor.
Qed.
Print Assumptions C57_arguments_arrive.
Print Assumptions C57_request_is_acceptable.
Print Assumptions C57_errors_come_back.
Print Assumptions C57_results_come_back.
