(** Why a plugin refuses a request: C73. *)
From Coq Require Import String Ascii List Arith ZArith NArith Bool Lia.
From Verif Require Import Model.GoStr Model.Errors Model.Version Model.Validate Model.Json Model.GoJson Model.NetIP Model.Types Model.Args Model.Invoke Model.Skel
  Spec.VersionSpec Spec.NameSpec Spec.JsonSpec Spec.ConfSpec Spec.InvokeSpec Spec.SkelSpec Spec.QuoteSpec Spec.RefuseSpec
  Proofs.StrP Proofs.Utf8P Proofs.QuoteP Proofs.VersionP Proofs.SelectP Proofs.ValidateP Proofs.JsonRT Proofs.GoJsonP Proofs.NumP Proofs.ConfP Proofs.LoadP Proofs.VerbP Proofs.InvokeP Proofs.SkelP
  Properties.P_Invoke Properties.P_Skel.
Import ListNotations.
Open Scope nat_scope.
Open Scope string_scope.

(** *** The text *)
Lemma incompat_text v l : incompatible v l "incompatible CNI versions" (incompat_details v l).
Proof.
  split; [reflexivity|]. exists (quote v), (map quote l). split; [apply quotes_quote|]. split; [|reflexivity].
  induction l as [|x l IH]; [constructor|]. cbn [map]. constructor; [apply quotes_quote|exact IH].
Qed.

(** *** The variables *)
Lemma bad_value_given f v : v <> "" -> bad_value f v = option_map to_terr (f v).
Proof. intros N. unfold bad_value. destruct (String.eqb_spec v ""); [contradiction|reflexivity]. Qed.
Lemma container_ok v : v = "" \/ good_name v -> bad_value validate_container_id v = None.
Proof.
  intros [->|G]; [reflexivity|]. unfold bad_value. destruct (String.eqb v ""); [reflexivity|]. apply validate_container_id_ok in G. now rewrite G.
Qed.
Lemma container_bad v : v <> "" -> ~ good_name v ->
  bad_value validate_container_id v = Some (new_error 4 "invalid characters in containerID" v).
Proof.
  intros N G. rewrite bad_value_given by exact N. unfold validate_container_id. destruct (String.eqb_spec v ""); [contradiction|].
  destruct (cni_reg_match v) eqn:C; [destruct G; now apply cni_reg_good|reflexivity].
Qed.
Lemma ifname_bad v : v <> "" -> ~ good_ifname v -> exists m d, bad_value validate_interface_name v = Some (new_error 4 m d).
Proof. intros N G. rewrite bad_value_given by exact N. destruct (validate_interface_name_err v G) as (m & d & ->). exists m, d. reflexivity. Qed.
Lemma names_given pe : names_valid pe -> given_names_valid pe.
Proof. intros H P. destruct (H P). auto. Qed.
Lemma cmd_args_submits pe data : submits pe data ->
  get_cmd_args pe = match validate_config data with Some e => inr e | None => inl (command pe, args_of pe data) end.
Proof.
  intros (M & NV & C & S). unfold get_cmd_args. fold (command pe).
  rewrite check_vars_eq, (proj2 (bad_names_given pe) (names_given _ NV)), M. destruct (String.eqb_spec (command pe) "VERSION"); [contradiction|].
  rewrite S. reflexivity.
Qed.
Lemma main_fails pe funcs info about e : get_cmd_args pe = inr e -> (command pe = "" -> about = "") ->
  plugin_main pe funcs info about = so_fail e.
Proof.
  intros G A. unfold plugin_main. rewrite G. fold (command pe). destruct (String.eqb_spec (command pe) "") as [E|_].
  - rewrite (A E). cbn [String.eqb negb]. now rewrite andb_false_r.
  - now rewrite andb_false_r.
Qed.

(** *** The configuration *)
Lemma readable_dec data : readable data <-> exists n, obind (parse data) dec_name = Some n.
Proof.
  unfold readable, dec_name. split.
  - intros [-> | (o & -> & T)]; [now exists ""|]. cbn [obind decode_struct].
    assert (Y : defined (decode_members name_step "" o)).
    { apply (decode_members_defined name_step _ name_step_defined). intros k x I f P [E|[]]. injection E as <- <-. intros K. eapply T; eassumption. }
    exact Y.
  - intros (n & H). destruct (parse data) as [j|]; [|discriminate]. cbn [obind] in H.
    destruct j as [| | | | |o]; try discriminate; [now left|]. right. exists o. split; [reflexivity|]. intros k x I K.
    apply (proj1 (decode_members_defined name_step _ name_step_defined o "") (ex_intro _ n H) k x I _ _ (or_introl eq_refl) K).
Qed.
Lemma config_unreadable data : ~ readable data -> exists m d, validate_config data = Some (new_error 6 m d).
Proof.
  intros N. unfold validate_config. destruct (obind (parse data) dec_name) as [n|] eqn:D; [destruct N; apply readable_dec; eauto|]. eexists _, _. reflexivity.
Qed.
Lemma config_unnamed data : readable data -> unnamed data -> validate_config data = Some (new_error 7 "missing network name" "").
Proof.
  intros R U. apply readable_dec in R. destruct R as (n & D). unfold validate_config. rewrite D.
  destruct (String.eqb_spec n "") as [|N]; [reflexivity|]. exfalso. apply N, U. exact (proj1 (dec_name_iff data n N) D).
Qed.
Lemma config_misnamed data n : conf_name data n -> n <> "" -> ~ good_name n ->
  validate_config data = Some (new_error 7 "invalid characters found in network name" n).
Proof.
  intros C N G. apply dec_name_iff in C; [|exact N]. unfold validate_config. rewrite C. destruct (String.eqb_spec n ""); [contradiction|].
  unfold validate_network_name. destruct (String.eqb_spec n ""); [contradiction|].
  destruct (cni_reg_match n) eqn:M; [destruct G; now apply cni_reg_good|reflexivity].
Qed.
Lemma configured_args pe data : configured pe data -> get_cmd_args pe = inl (command pe, args_of pe data).
Proof. intros (S & C). rewrite (cmd_args_submits _ _ S). now rewrite (proj2 (validate_config_iff data) C). Qed.
Lemma configured_version pe data v : configured pe data -> (Types.decode_version data = Ok v <-> conf_version data v).
Proof.
  intros (_ & n & C & _). rewrite decode_version_iff. split; [intros [H|(H & _)]; [exact H|]|auto]. destruct (conf_name_not_null _ _ C H).
Qed.
Lemma configured_no_version pe data : configured pe data -> (forall v, ~ conf_version data v) -> exists e, Types.decode_version data = Err e.
Proof.
  intros C N. destruct (Types.decode_version data) as [v|e|] eqn:D; [|eauto|now destruct (decode_version_not_panic data)].
  apply (configured_version pe) in D; [destruct (N v D)|exact C].
Qed.
(** The gate of a command. *)
Definition gate (cmd : string) : string := if String.eqb cmd "CHECK" then "0.4.0" else "1.1.0".
Lemma since_gate cmd t : since cmd t -> version_means (gate cmd) t.
Proof. intros [(-> & ->)|([->| ->] & ->)]; [exact means_040|exact means_110|exact means_110]. Qed.
Lemma main_gated pe funcs info about data t : configured pe data -> since (command pe) t ->
  plugin_main pe funcs info about =
  call_gated (command pe) (gate (command pe)) (args_of pe data) (pi_supported info) (function_for funcs (command pe)).
Proof.
  intros C S. unfold plugin_main. rewrite (configured_args _ _ C). fold (command pe).
  destruct S as [(E & _)|([E|E] & _)]; rewrite E; reflexivity.
Qed.
Lemma main_ungated pe funcs info about data : configured pe data -> command pe = "ADD" \/ command pe = "DEL" ->
  plugin_main pe funcs info about =
  netns_check pe (args_of pe data) (check_version_and_call (command pe) (args_of pe data) (pi_supported info) (function_for funcs (command pe))).
Proof.
  intros C S. unfold plugin_main. rewrite (configured_args _ _ C). fold (command pe). destruct S as [E|E]; rewrite E; reflexivity.
Qed.
Lemma since_of cmd : acting cmd -> cmd = "ADD" \/ cmd = "DEL" \/ exists t, since cmd t.
Proof.
  intros [H|[H|[H|[H|H]]]]; [tauto| |tauto| |]; right; right; eexists; unfold since; [left; split; [exact H|reflexivity]|right; split; [tauto|reflexivity]..].
Qed.
Lemma gte_le v p : well_formed_version v -> well_formed_version p ->
  (gte p v = Ok true /\ ver_le v p) \/ (gte p v = Ok false /\ ~ ver_le v p).
Proof.
  intros (t & V) W. destruct (gte_iff p v t V) as (GT & GF & GE & GP). destruct (gte p v) as [[|]|e|].
  - left. split; [reflexivity|]. destruct (proj1 GT eq_refl) as (u & U & L). exists t, u. auto.
  - right. split; [reflexivity|]. intros (t' & u & V' & U & L). assert (t' = t) by (eapply version_means_fun; eassumption). subst t'.
    assert (X : at_least p t) by (exists u; auto). apply GT in X. discriminate.
  - exfalso. apply GE; eauto.
  - congruence.
Qed.
Lemma gated_late which a v supported f : well_formed_version v -> forall rest, Forall well_formed_version rest ->
  (forall p, In p rest -> ~ ver_le v p) ->
  gated_loop which a v supported rest f = so_fail (new_error 1 ("plugin version does not allow " ++ which) "").
Proof.
  intros V. induction rest as [|p rest IH]; intros F N; [reflexivity|]. apply Forall_cons_iff in F. destruct F as (W & F). cbn [gated_loop].
  destruct (gte_le v p V W) as [(_ & L)|(-> & _)]; [destruct (N p (or_introl eq_refl) L)|]. apply IH; [exact F|]. intros q Q. apply N. now right.
Qed.
Lemma gated_found which a v supported f p : well_formed_version v -> ver_le v p -> forall rest, Forall well_formed_version rest -> In p rest ->
  gated_loop which a v supported rest f = check_version_and_call which a supported f.
Proof.
  intros V L. induction rest as [|q rest IH]; intros F I; [destruct I|]. apply Forall_cons_iff in F. destruct F as (W & F). cbn [gated_loop].
  destruct (gte_le v q V W) as [(-> & _)|(-> & N)]; [reflexivity|]. destruct I as [->|I]; [contradiction|]. now apply IH.
Qed.
Lemma cvc_unsupported which a supported f v : Types.decode_version (ca_stdin a) = Ok v -> ~ In v supported ->
  check_version_and_call which a supported f = so_fail (new_error 1 "incompatible CNI versions" (incompat_details v supported)).
Proof.
  intros D N. unfold check_version_and_call. rewrite D. destruct (check_raw v supported) eqn:C; [reflexivity|]. apply check_raw_iff in C. contradiction.
Qed.
Lemma at_least_wf v t : at_least v t -> well_formed_version v.
Proof. intros (u & U & _). now exists u. Qed.
(** A request with a fault of the list is refused with its code and its text, and nothing is called. *)
Theorem C73_says_why : forall pe funcs info about code text,
  refused pe (pi_supported info) code text -> Forall well_formed_version (pi_supported info) ->
  (command pe = "" -> about = "") ->
  let o := plugin_main pe funcs info about in
  so_calls o = [] /\ so_stdout o = "" /\ so_stderr o = "" /\
  exists e, so_err o = Some e /\ e_code e = code /\ text (e_msg e) (e_details e).
Proof.
  intros pe funcs info about code text R W A. cbn zeta.
  assert (K : forall m d, text m d -> plugin_main pe funcs info about = so_fail (new_error code m d) ->
    so_calls (plugin_main pe funcs info about) = [] /\ so_stdout (plugin_main pe funcs info about) = "" /\ so_stderr (plugin_main pe funcs info about) = "" /\
    exists e, so_err (plugin_main pe funcs info about) = Some e /\ e_code e = code /\ text (e_msg e) (e_details e)).
  { intros m d T E. rewrite E. cbn [so_fail so_calls so_stdout so_stderr so_err]. repeat (split; [reflexivity|]). eexists. split; [reflexivity|]. split; [reflexivity|exact T]. }
  destruct R as [P N G|P C N G|G M|M NV C S|data S N|data S R U|data n S C N G|data C N|data C P N|data t v C S V N|data t v C S V L|data t v C S V L N|data t v p C S V L I LE N|data v C S V N].
  - apply (K "invalid characters in containerID" (pe_getenv pe "CNI_CONTAINERID")); [split; reflexivity|]. apply main_fails; [|exact A].
    unfold get_cmd_args. fold (command pe). rewrite check_vars_eq. unfold bad_names. rewrite (proj2 (needs_names_iff _) P).
    now rewrite (container_bad _ N G).
  - destruct (ifname_bad _ N G) as (m & d & B). apply (K m d); [exact Logic.I|]. apply main_fails; [|exact A].
    unfold get_cmd_args. fold (command pe). rewrite check_vars_eq. unfold bad_names. rewrite (proj2 (needs_names_iff _) P).
    now rewrite (container_ok _ C), B.
  - eapply K; [split; reflexivity|]. apply main_fails; [|exact A].
    unfold get_cmd_args. fold (command pe). rewrite check_vars_eq, (proj2 (bad_names_given pe) G). destruct (missing pe) as [|x l]; [congruence|reflexivity].
  - eapply (K _ ""); [exact Logic.I|]. apply main_fails; [|exact A].
    unfold get_cmd_args. fold (command pe). rewrite check_vars_eq, (proj2 (bad_names_given pe) (names_given _ NV)), M.
    destruct (String.eqb_spec (command pe) "VERSION"); [contradiction|]. rewrite S. reflexivity.
  - destruct (config_unreadable data N) as (m & d & E). apply (K m d); [exact Logic.I|]. apply main_fails; [|exact A]. now rewrite (cmd_args_submits _ _ S), E.
  - eapply K; [split; reflexivity|]. apply main_fails; [|exact A]. now rewrite (cmd_args_submits _ _ S), (config_unnamed _ R U).
  - eapply K; [split; reflexivity|]. apply main_fails; [|exact A]. now rewrite (cmd_args_submits _ _ S), (config_misnamed _ _ C N G).
  - eapply K; [split; reflexivity|]. unfold plugin_main. rewrite (configured_args _ _ C). fold (command pe).
    assert (V : String.eqb (command pe) "VERSION" = false) by (destruct C as ((_ & _ & X & _) & _); now apply String.eqb_neq).
    destruct (cmd_cases (command pe)) as [E|[E|[E|[E|[E|(E1 & E2 & E3 & E4 & E5)]]]]]; [destruct N; unfold acting; tauto..|].
    now rewrite E1, E2, E3, E4, E5, V.
  - destruct (configured_no_version _ _ C N) as (e & D). apply (K (err_string e) ""); [exact Logic.I|].
    destruct (since_of _ P) as [E|[E|(t & S)]].
    1,2: rewrite (main_ungated _ _ _ _ _ C) by tauto; unfold check_version_and_call; cbn [ca_stdin args_of]; rewrite D; reflexivity.
    rewrite (main_gated _ _ _ _ _ _ C S). unfold call_gated. cbn [ca_stdin args_of]. now rewrite D.
  - apply (configured_version pe) in V; [|exact C]. pose proof (since_gate _ _ S) as G. destruct (gte_iff v _ _ G) as (_ & _ & GE & _).
    destruct (proj2 GE N) as (e & E). apply (K (err_string e) ""); [exact Logic.I|].
    rewrite (main_gated _ _ _ _ _ _ C S). unfold call_gated. cbn [ca_stdin args_of]. now rewrite V, E.
  - apply (configured_version pe) in V; [|exact C]. pose proof (since_gate _ _ S) as G. destruct (gte_iff v _ _ G) as (_ & GF & _).
    eapply K; [split; reflexivity|]. rewrite (main_gated _ _ _ _ _ _ C S). unfold call_gated. cbn [ca_stdin args_of]. now rewrite V, (proj2 GF L).
  - apply (configured_version pe) in V; [|exact C]. pose proof (since_gate _ _ S) as G. destruct (gte_iff v _ _ G) as (GT & _).
    eapply K; [split; reflexivity|]. rewrite (main_gated _ _ _ _ _ _ C S). unfold call_gated. cbn [ca_stdin args_of]. rewrite V, (proj2 GT L).
    apply gated_late; [eapply at_least_wf; eassumption|exact W|exact N].
  - apply (configured_version pe) in V; [|exact C]. pose proof (since_gate _ _ S) as G. destruct (gte_iff v _ _ G) as (GT & _).
    eapply K; [apply incompat_text|]. rewrite (main_gated _ _ _ _ _ _ C S). unfold call_gated. cbn [ca_stdin args_of]. rewrite V, (proj2 GT L).
    rewrite (gated_found _ _ v _ _ p); [|eapply at_least_wf; eassumption|exact LE|exact W|exact I]. apply cvc_unsupported; [exact V|exact N].
  - apply (configured_version pe) in V; [|exact C]. eapply K; [apply incompat_text|]. rewrite (main_ungated _ _ _ _ _ C S).
    rewrite (cvc_unsupported _ (args_of pe data) _ _ v V N). apply netns_check_fail.
Qed.

(** The list is complete: a request that is not acceptable has one of these faults. *)
Theorem C73_every_refusal_explained : forall pe supported,
  command pe <> "VERSION" -> (forall data, ~ acceptable_request pe supported data) ->
  exists code text, refused pe supported code text.
Proof.
  intros pe supported V N.
  destruct (bad_names pe) as [e|] eqn:B.
  { unfold bad_names in B. destruct (needs_names (command pe)) eqn:P; [|discriminate]. apply needs_names_iff in P.
    destruct (bad_value validate_container_id (pe_getenv pe "CNI_CONTAINERID")) eqn:B1.
    - exists 4%N. eexists. apply refused_container; [exact P| |]; [intros E|intros G].
      + rewrite container_ok in B1 by tauto. discriminate.
      + rewrite container_ok in B1 by tauto. discriminate.
    - exists 4%N, anything. apply refused_ifname; [exact P| | |].
      + destruct (String.eqb_spec (pe_getenv pe "CNI_CONTAINERID") "") as [E|NE]; [now left|right].
        rewrite bad_value_given in B1 by exact NE. destruct (validate_container_id (pe_getenv pe "CNI_CONTAINERID")) eqn:X; [discriminate|]. now apply validate_container_id_ok.
      + intros E. rewrite E in B. discriminate.
      + intros G. unfold bad_value in B. apply validate_interface_name_ok in G. rewrite G in B. destruct (String.eqb _ ""); discriminate. }
  pose proof (proj1 (bad_names_given pe) B) as G.
  destruct (missing pe) as [|x l] eqn:M.
  2:{ exists 4%N. eexists. apply refused_missing; [exact G|]. rewrite M. discriminate. }
  pose proof (proj1 (bad_names_iff pe M) B) as NV.
  destruct (pe_stdin pe) as [data|] eqn:S.
  2:{ exists 5%N. eexists. apply refused_input; assumption. }
  assert (SUB : submits pe data) by (split; [exact M|]; split; [exact NV|]; split; [exact V|exact S]).
  destruct (obind (parse data) dec_name) as [n|] eqn:D.
  2:{ exists 6%N. eexists. apply refused_unreadable with data; [exact SUB|]. rewrite readable_dec. intros (n & X). congruence. }
  destruct (String.eqb_spec n "") as [E|NE].
  { exists 7%N. eexists. apply refused_unnamed with data; [exact SUB|apply readable_dec; eauto|].
    intros m C. destruct (String.eqb_spec m "") as [|NM]; [assumption|]. apply dec_name_iff in C; [|exact NM]. congruence. }
  pose proof (proj1 (dec_name_iff data n NE) D) as CN.
  destruct (validate_network_name n) eqn:VN.
  { exists 7%N. eexists. eapply refused_name; [exact SUB|exact CN|exact NE|]. intros X. apply validate_network_name_ok in X. congruence. }
  apply validate_network_name_ok in VN.
  assert (C : configured pe data) by (split; [exact SUB|eauto]).
  assert (AC : acting (command pe) \/ ~ acting (command pe)).
  { unfold acting. destruct (cmd_cases (command pe)) as [E|[E|[E|[E|[E|(E1 & E2 & E3 & E4 & E5)]]]]]; [tauto..|]. apply String.eqb_neq in E1, E2, E3, E4, E5. tauto. }
  destruct AC as [AC|NA].
  2:{ exists 4%N. eexists. now apply refused_command with data. }
  destruct (Types.decode_version data) as [v|e|] eqn:DV; [| |now destruct (decode_version_not_panic data)].
  2:{ exists 6%N. eexists. apply refused_version with data; [exact C|exact AC|]. intros v X. apply (configured_version pe) in X; [congruence|exact C]. }
  pose proof (proj1 (configured_version pe data v C) DV) as CV.
  assert (NO : In v supported -> ~ allowed_at (command pe) v).
  { intros I AL. apply (N data). split; [exact M|]. split; [exact NV|]. split; [exact S|]. split; [eauto|]. eauto. }
  destruct (mem_str v supported) eqn:MS.
  - apply mem_str_In in MS. specialize (NO MS). destruct (since_of _ AC) as [E|[E|(t & SI)]]; [destruct NO; left; tauto..|].
    destruct (gte_iff v _ _ (since_gate _ _ SI)) as (GT & GF & GE & GP). destruct (gte v (gate (command pe))) as [[|]|e|]; [| | |congruence].
    + exfalso. apply NO. unfold allowed_at. destruct SI as [(E & ->)|(E & ->)]; pose proof (proj1 GT eq_refl); tauto.
    + exists 1%N. eexists. eapply refused_early; [exact C|exact SI|exact CV|now apply GF].
    + exists 6%N. eexists. eapply refused_malformed; [exact C|exact SI|exact CV|apply GE; eauto].
  - assert (NI : ~ In v supported) by (intros I; apply mem_str_In in I; congruence).
    destruct (since_of _ AC) as [E|[E|(t & SI)]]; [exists 1%N; eexists; eapply refused_unsupported_now; [exact C|tauto|exact CV|exact NI]..|].
    destruct (gte_iff v _ _ (since_gate _ _ SI)) as (GT & GF & GE & GP). destruct (gte v (gate (command pe))) as [[|]|e|]; [| | |congruence].
    + pose proof (proj1 GT eq_refl) as AL.
      assert (X : (exists p, In p supported /\ ver_le v p) \/ (forall p, In p supported -> ~ ver_le v p)).
      { clear - AL. pose proof (at_least_wf _ _ AL) as W. induction supported as [|p l IH]; [right; intros p []|].
        assert (Y : ver_le v p \/ ~ ver_le v p).
        { destruct (parse_version p) as [u|e|] eqn:PP.
          - destruct (gte_le v p W) as [(_ & L)|(_ & L)]; [exists u; now apply parse_version_spec|tauto|tauto].
          - right. intros (a & b & _ & U & _). apply parse_version_spec in U. congruence.
          - right. intros (a & b & _ & U & _). apply parse_version_spec in U. congruence. }
        destruct Y as [Y|Y]; [left; exists p; split; [now left|exact Y]|].
        destruct IH as [(q & Q & L)|IH]; [left; exists q; split; [now right|exact L]|]. right. intros q [->|Q]; [exact Y|now apply IH]. }
      destruct X as [(p & I & L)|X]; [exists 1%N; eexists; eapply refused_unsupported; [exact C|exact SI|exact CV|exact AL|exact I|exact L|exact NI]|].
      exists 1%N. eexists. eapply refused_late; [exact C|exact SI|exact CV|exact AL|exact X].
    + exists 1%N. eexists. eapply refused_early; [exact C|exact SI|exact CV|now apply GF].
    + exists 6%N. eexists. eapply refused_malformed; [exact C|exact SI|exact CV|apply GE; eauto].
Qed.
(** ... and only those: an acceptable request has none of them. *)
Theorem C73_acceptable_has_no_fault : forall pe supported data, Forall well_formed_version supported ->
  acceptable_request pe supported data -> forall code text, ~ refused pe supported code text.
Proof.
  intros pe supported data W A code text R.
  pose (f := fun _ : cmd_args => ("", @None goerr)).
  pose (funcs := {| f_add := Some f; f_del := Some f; f_check := Some f; f_gc := Some f; f_status := Some f |}).
  pose (info := {| pi_version := ""; pi_supported := supported |}).
  assert (F : exists g, function_for funcs (command pe) = Some g).
  { destruct A as (_ & _ & _ & _ & v & _ & _ & AL). apply allowed_cmd in AL. unfold function_for.
    destruct AL as [-> | [-> | [-> | [-> | ->]]]]; eexists; reflexivity. }
  destruct F as (g & F).
  destruct (C44_called_if pe funcs info "" data g A W F) as (a & _ & CA & _).
  destruct (C73_says_why pe funcs info "" code text R W (fun _ => eq_refl)) as (NC & _). rewrite CA in NC. discriminate.
Qed.
(** What the runtime learns: run by the executor, the plugin's refusal is its error, with that code. *)
Theorem C73_runtime_learns_why : forall pe funcs info about code text,
  refused pe (pi_supported info) code text -> Forall well_formed_version (pi_supported info) ->
  (command pe = "" -> about = "") ->
  exists m d, text m d /\ plugin_process pe funcs info about = (print_error code m d, "", 1%N) /\
    (well_formed_text m -> well_formed_text d ->
     fst (exec_plugin (fun _ => process_outcome (plugin_process pe funcs info about))) = Err (ECNI code m d)).
Proof.
  intros pe funcs info about code text R W A.
  destruct (C73_says_why pe funcs info about code text R W A) as (_ & SO & SE & e & E & C & T).
  exists (e_msg e), (e_details e). split; [exact T|].
  assert (PP : plugin_process pe funcs info about = (print_error code (e_msg e) (e_details e), "", 1%N)).
  { unfold plugin_process. rewrite E, SO, SE, C. reflexivity. }
  split; [exact PP|]. intros M D. rewrite PP.
  assert (L : (code < 2 ^ 64)%N) by (clear - R; destruct R; reflexivity).
  apply C47_error_reaches_caller with (n := 0) (e := "exit status 1"); try assumption; try reflexivity; [lia|intros j J; lia|apply not_busy_exit].
Qed.

(** *** Examples *)
Definition with_stdin (pe : plugin_env) (s : option string) : plugin_env :=
  {| pe_getenv := pe_getenv pe; pe_stdin := s; pe_ns_at := pe_ns_at pe; pe_own_ns := pe_own_ns pe |}.
Example C73_nonvacuous :
  refused (ex_env "ADD" "") (pi_supported ex_info) 4 (exactly "required env variables [CNI_NETNS] missing" "") /\
  refused (with_stdin (ex_env "DEL" "") None) (pi_supported ex_info) 5 anything /\
  refused (with_stdin (ex_env "DEL" "") (Some "null")) (pi_supported ex_info) 7 (exactly "missing network name" "") /\
  refused (ex_env "FOO" "") (pi_supported ex_info) 4 (exactly "unknown CNI_COMMAND: FOO" "") /\
  refused (ex_env "GC" "") (pi_supported ex_info) 1 (exactly "config version does not allow GC" "") /\
  refused (ex_env "ADD" "/ns/other") ["0.3.1"; "1.0.0"] 1 (incompatible "0.4.0" ["0.3.1"; "1.0.0"]) /\
  Forall well_formed_version (pi_supported ex_info).
Proof.
  assert (NV : forall c n s, names_valid (with_stdin (ex_env c n) s)).
  { intros c n s _. split; [apply validate_container_id_ok|apply validate_interface_name_ok]; reflexivity. }
  assert (NM : conf_name ex_data "net1" /\ good_name "net1").
  { split; [apply dec_name_iff; [discriminate|vm_compute; reflexivity]|apply validate_network_name_ok; reflexivity]. }
  assert (V : conf_version ex_data "0.4.0") by (apply C40_conf_version_exact; [vm_compute; discriminate|vm_compute; reflexivity]).
  assert (CF : forall c n, missing (ex_env c n) = [] -> command (ex_env c n) <> "VERSION" -> configured (ex_env c n) ex_data).
  { intros c n M C. split; [|now exists "net1"]. split; [exact M|]. split; [apply (NV c n (Some ex_data))|]. split; [exact C|reflexivity]. }
  split; [|split; [|split; [|split; [|split; [|split]]]]].
  - apply refused_missing; [apply bad_names_given; reflexivity|discriminate].
  - apply refused_input; [reflexivity|apply NV|discriminate|reflexivity].
  - apply refused_unnamed with "null"; [split; [reflexivity|]; split; [apply NV|]; split; [discriminate|reflexivity]|left; reflexivity|].
    intros n (o & P & _). discriminate.
  - apply (refused_command (ex_env "FOO" "") (pi_supported ex_info) ex_data); [apply CF; [reflexivity|discriminate]|].
    intros [H|[H|[H|[H|H]]]]; discriminate.
  - apply (refused_early (ex_env "GC" "") (pi_supported ex_info) ex_data (1, 1, 0)%Z "0.4.0"); [apply CF; [reflexivity|discriminate]| |exact V|].
    + right. split; [now left|reflexivity].
    + exists (0, 4, 0)%Z. split; [exact means_040|]. cbn. lia.
  - apply (refused_unsupported_now (ex_env "ADD" "/ns/other") ["0.3.1"; "1.0.0"] ex_data "0.4.0"); [apply CF; [reflexivity|discriminate]|now left|exact V|].
    intros [H|[H|[]]]; discriminate.
  - repeat constructor; eexists; apply parse_version_spec; reflexivity.
Qed.
Print Assumptions C73_says_why.
Print Assumptions C73_every_refusal_explained.
Print Assumptions C73_acceptable_has_no_fault.
Print Assumptions C73_runtime_learns_why.
