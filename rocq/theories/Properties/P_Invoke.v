(** Executing plugins and interpreting their answers: C24, C26, C40, C47. *)
From Coq Require Import String Ascii List Arith ZArith NArith Bool Lia.
From Verif Require Import Model.GoStr Model.Errors Model.Version Model.Json Model.GoJson Model.NetIP Model.Types Model.Args Model.Invoke
  Spec.VersionSpec Spec.NameSpec Spec.JsonSpec Spec.ConfSpec Spec.InvokeSpec Spec.QuoteSpec Spec.ErrorSpec
  Proofs.StrP Proofs.QuoteP Proofs.Utf8P Proofs.VersionP Proofs.JsonRT Proofs.GoJsonP Proofs.NumP Proofs.ConfP Proofs.LoadP Proofs.InvokeP.
Import ListNotations.
Open Scope nat_scope.
Open Scope string_scope.

(** *** C24: RawExec.ExecPlugin *)

(** The first run that does not fail with text-file-busy, if it is among the first six, decides;
    no run follows it. *)
Theorem C24_first_unbusy_run_decides : forall runs n, n < 6 -> ~ busy (runs n) -> (forall j, j < n -> busy (runs j)) ->
  snd (exec_plugin runs) = S n /\
  (exited_zero (runs n) -> fst (exec_plugin runs) = Ok (output ro_stdout runs n)) /\
  (forall e, ro_err (runs n) = Some e ->
     fst (exec_plugin runs) = Err (plugin_err e (output ro_stdout runs n) (output ro_stderr runs n))).
Proof.
  intros runs n L N B. pose proof (exec_loop_ends runs n N 6 0 ltac:(lia) ltac:(intros j J; apply B; lia)) as X. cbn [sofar] in X.
  unfold exec_plugin. rewrite X. cbn [fst snd]. split; [reflexivity|]. split; [now intros ->|]. now intros e ->.
Qed.
(** It runs the plugin at most six times, and again only after text-file-busy. *)
Theorem C24_retries_only_when_busy : forall runs, snd (exec_plugin runs) <= 6 /\
  forall j, S j < snd (exec_plugin runs) -> busy (runs j).
Proof.
  intros runs. destruct (first_not_busy runs 6) as [B|(m & L & N & B)].
  - pose proof (exec_loop_busy runs 6 0 ltac:(intros j J; apply B; lia)) as X. cbn [sofar] in X. unfold exec_plugin. rewrite X. cbn [snd].
    split; [lia|]. intros j J. apply B. lia.
  - destruct (C24_first_unbusy_run_decides runs m L N B) as (-> & _). split; [lia|]. intros j J. apply B. lia.
Qed.
(** The full property: success means that the last run performed exited successfully.  Partial: it
    holds unless all six runs are text-file-busy. *)
Theorem C24_success_needs_a_successful_run_partial : forall runs out k, exec_plugin runs = (Ok out, k) ->
  (exists n, n < 6 /\ ~ busy (runs n)) ->
  exists n, k = S n /\ exited_zero (runs n) /\ out = output ro_stdout runs n.
Proof.
  intros runs out k H (x & X & NX). destruct (first_not_busy runs 6) as [B|(m & L & N & B)]; [destruct (NX (B x X))|].
  destruct (C24_first_unbusy_run_decides runs m L N B) as (K & S & F). rewrite H in K, S, F. cbn in K, S, F. exists m. split; [exact K|].
  destruct (ro_err (runs m)) as [e|] eqn:E; [discriminate (F e eq_refl)|]. split; [exact E|]. specialize (S E). congruence.
Qed.
(** It does not hold when they are: the plugin never ran, and success is reported. *)
Theorem C24_six_busy_refuted : forall runs, (forall j, j < 6 -> busy (runs j)) ->
  exec_plugin runs = (Ok (output ro_stdout runs 5), 6).
Proof. intros runs B. unfold exec_plugin. apply (exec_loop_busy runs 6 0). intros j J. apply B. lia. Qed.
(** Altogether: success is reported exactly when one of the first six runs succeeds after busy ones
    only, or all six are busy. *)
Theorem C24_success_exactly : forall runs out k, exec_plugin runs = (Ok out, k) <->
  (exists n, n < 6 /\ (forall j, j < n -> busy (runs j)) /\ exited_zero (runs n) /\ k = S n /\ out = output ro_stdout runs n) \/
  ((forall j, j < 6 -> busy (runs j)) /\ k = 6 /\ out = output ro_stdout runs 5).
Proof.
  intros runs out k. split.
  - intros H. destruct (first_not_busy runs 6) as [B|(m & L & N & B)].
    + right. rewrite (C24_six_busy_refuted runs B) in H. split; [exact B|]. split; congruence.
    + left. destruct (C24_success_needs_a_successful_run_partial runs out k H (ex_intro _ m (conj L N))) as (n & K & Z & O).
      exists n. destruct (C24_retries_only_when_busy runs) as [A1 A2]. rewrite H in A1, A2. cbn [snd] in A1, A2. split; [lia|].
      split; [intros j J; apply A2; lia|]. auto.
  - intros [(n & L & B & Z & -> & ->)|(B & -> & ->)]; [|now apply C24_six_busy_refuted].
    assert (N : ~ busy (runs n)) by (intros (e & a & b & E & _); unfold exited_zero in Z; congruence).
    destruct (C24_first_unbusy_run_decides runs n L N B) as (K & S & _). specialize (S Z).
    destruct (exec_plugin runs) as [r q]. cbn [fst snd] in K, S. congruence.
Qed.
Definition C24_busy_run : run_outcome := {| ro_stdout := ""; ro_stderr := ""; ro_err := Some "fork/exec /opt/bin/x: text file busy" |}.
Definition C24_good_run : run_outcome := {| ro_stdout := "{}"; ro_stderr := "warn"; ro_err := None |}.
Example C24_nonvacuous :
  busy C24_busy_run /\ ~ busy C24_good_run /\ exited_zero C24_good_run /\
  exec_plugin (fun n => if Nat.eqb n 2 then C24_good_run else C24_busy_run) = (Ok "{}", 3) /\
  exec_plugin (fun _ => C24_busy_run) = (Ok "", 6).
Proof.
  split; [exists "fork/exec /opt/bin/x: text file busy", "fork/exec /opt/bin/x: ", ""; split; reflexivity|].
  split; [intros (e & a & b & X & _); discriminate|]. split; [reflexivity|]. split; reflexivity.
Qed.

(** *** C26: version probing *)

(** The answer to VERSION: an object with a non-empty cniVersion and well-typed members.  The
    versions are those listed, or 0.1.0 and 0.2.0 if a 0.2.0 plugin lists none; every other
    output is an error. *)
Theorem C26_output_exact : forall out info, version_answer (Ok out) = Ok info <->
  exists o v, parse out = Some (JObj o) /\
    (forall k x, In (k, x) o -> key_is "cniVersion" k = true -> text_or_null x) /\
    (forall k x, In (k, x) o -> key_is "supportedVersions" k = true -> list_or_null text_or_null x) /\
    says "cniVersion" o v /\ v <> "" /\
    ((texts_of (last_match "supportedVersions" o) <> [] /\ pi_supported info = texts_of (last_match "supportedVersions" o) /\ pi_version info = v) \/
     (texts_of (last_match "supportedVersions" o) = [] /\ v = "0.2.0" /\ pi_supported info = ["0.1.0"; "0.2.0"] /\ pi_version info = "1.1.0")).
Proof.
  intros out info. cbn [version_answer]. unfold decode_plugin_info.
  assert (FO : forall o, (forall k v, In (k, v) o -> fields_ok info_fields k v) <->
    (forall k x, In (k, x) o -> key_is "cniVersion" k = true -> text_or_null x) /\
    (forall k x, In (k, x) o -> key_is "supportedVersions" k = true -> list_or_null text_or_null x)).
  { intros o. split.
    - intros F. split; intros k x I K; [apply (F k x I _ _ (or_introl eq_refl) K)|apply (F k x I _ _ (or_intror (or_introl eq_refl)) K)].
    - intros (F & G) k x I f P [E|[E|[]]] K; injection E as <- <-; eauto. }
  split.
  - destruct (parse out) as [j|]; [|discriminate]. unfold obind. destruct (dec_plugin_info j) as [i|] eqn:D; [|discriminate].
    apply dec_info_iff in D. destruct D as [(-> & ->)|(o & -> & F & DC & SU)]; [discriminate|].
    destruct (String.eqb_spec (pi_version i) "") as [|NV]; [discriminate|]. intros H.
    exists o, (pi_version i). split; [reflexivity|]. apply FO in F. destruct F as (F1 & F2). split; [exact F1|]. split; [exact F2|].
    split; [inversion DC; subst; [assumption|congruence]|]. split; [exact NV|]. rewrite <- SU.
    destruct (pi_supported i) as [|s l] eqn:SI.
    + destruct (String.eqb_spec (pi_version i) "0.2.0") as [E2|]; [|discriminate]. injection H as <-. right. auto.
    + injection H as <-. left. rewrite SI. split; [discriminate|auto].
  - intros (o & v & P & F1 & F2 & S & NV & C). rewrite P. unfold obind.
    assert (D : dec_plugin_info (JObj o) = Some {| pi_version := v; pi_supported := texts_of (last_match "supportedVersions" o) |}).
    { apply dec_info_iff. right. exists o. split; [reflexivity|]. split; [apply FO; auto|]. split; [now constructor|reflexivity]. }
    rewrite D. cbn [pi_version pi_supported]. destruct (String.eqb_spec v "") as [|_]; [congruence|].
    destruct C as [(N & E1 & E2)|(N & -> & E1 & E2)].
    + destruct (texts_of (last_match "supportedVersions" o)); [congruence|]. f_equal. destruct info. cbn in *. congruence.
    + rewrite N. cbn. f_equal. destruct info. cbn in *. unfold current_version. congruence.
Qed.
(** Nor does it crash. *)
Theorem C26_never_panics : forall r, is_panic r = false -> version_answer r <> Panic.
Proof.
  intros [out|e|] H; [|cbn; destruct (String.eqb _ _); discriminate|discriminate].
  cbn. unfold decode_plugin_info. destruct (obind _ _) as [i|]; [|discriminate]. destruct (String.eqb _ _); [discriminate|].
  destruct (pi_supported i); [|discriminate]. destruct (String.eqb _ _); discriminate.
Qed.
(** A plugin that does not know VERSION supports 0.1.0; other errors are passed on. *)
Theorem C26_unknown_command : forall e,
  (err_string e = "unknown CNI_COMMAND: VERSION" -> exists info, version_answer (Err e) = Ok info /\ pi_supported info = ["0.1.0"]) /\
  (err_string e <> "unknown CNI_COMMAND: VERSION" -> version_answer (Err e) = Err e).
Proof.
  intros e. cbn. destruct (String.eqb_spec (err_string e) "unknown CNI_COMMAND: VERSION") as [E|N]; split; intros H; try congruence.
  eexists. split; reflexivity.
Qed.
(** What a plugin encodes, the runtime decodes. *)
Theorem C26_round_trip : forall l info, plugin_supports l = Some info -> Forall well_formed_text l ->
  decode_plugin_info (encode_plugin_info info) = Ok info /\ pi_supported info = l.
Proof.
  intros l info H W. destruct l as [|s l]; [discriminate|]. injection H as <-. split; [|reflexivity].
  unfold decode_plugin_info, encode_plugin_info. cbn [pi_version pi_supported].
  rewrite parse_print_nl; [|split|reflexivity].
  - assert (A : forall k, dec_all (dec_string "") (map JStr k) = Some k).
    { induction k as [|x k IH]; [reflexivity|]. cbn [map dec_all dec_string]. now rewrite IH. }
    assert (B : dec_strs (enc_strings (s :: l)) = Some (s :: l)) by apply A.
    assert (C : dec_plugin_info (JObj [("cniVersion", JStr current_version); ("supportedVersions", enc_strings (s :: l))]) =
                Some {| pi_version := current_version; pi_supported := s :: l |}).
    { rewrite dec_plugin_info_eq. unfold decode_struct. rewrite decode_members_cons. unfold info_step at 1.
      change (key_is "cniVersion" "cniVersion") with true. cbn [dec_string option_map pi_version pi_supported].
      rewrite decode_members_cons. unfold info_step at 1. change (key_is "cniVersion" "supportedVersions") with false.
      change (key_is "supportedVersions" "supportedVersions") with true. rewrite B. reflexivity. }
    unfold obind, fld_strs, omit_if. cbn [nil_list app]. rewrite C. reflexivity.
  - apply jwf_obj. constructor; [split; apply valid_utf8_wf; reflexivity|]. unfold fld_strs, omit_if. cbn [nil_list].
    constructor; [split; [apply valid_utf8_wf; reflexivity|]|constructor]. apply jwf_arr. apply Forall_map. exact W.
  - apply N.le_trans with (N.succ 1); [|lia]. apply jdepth_obj. constructor; [cbn; lia|]. constructor; [|constructor].
    cbn [snd]. apply (jdepth_arr _ 0). apply Forall_map. apply Forall_forall. intros x _. cbn. lia.
Qed.
Theorem C26_needs_a_version : plugin_supports [] = None.
Proof. reflexivity. Qed.
Example C26_nonvacuous :
  (exists info, version_answer (Ok "{""cniVersion"":""0.4.0"",""supportedVersions"":[""0.3.1"",""0.4.0""],""extra"":1}") = Ok info /\ pi_supported info = ["0.3.1"; "0.4.0"]) /\
  (exists info, version_answer (Ok "{""cniVersion"":""0.2.0""}") = Ok info /\ pi_supported info = ["0.1.0"; "0.2.0"]) /\
  (exists e, version_answer (Ok "{""cniVersion"":""1.0.0""}") = Err e) /\
  (exists info, version_answer (Err (ECNI 4 "unknown CNI_COMMAND: VERSION" "")) = Ok info /\ pi_supported info = ["0.1.0"]) /\
  (exists info, plugin_supports ["0.2.0"; "1.0.0"] = Some info /\ encode_plugin_info info = "{""cniVersion"":""1.1.0"",""supportedVersions"":[""0.2.0"",""1.0.0""]}" ++ String (chr 10) "").
Proof. repeat split; eexists; (split; [vm_compute; reflexivity|reflexivity]) || (vm_compute; reflexivity). Qed.

(** *** C40: the version of an ADD answer *)

(** An answer that names its version is decoded as it is at that version. *)
Theorem C40_named_version : forall netconf cv out m v, conf_version netconf cv -> decodes_to out m ->
  sget "cniVersion" m = Some (JStr v) -> v <> "" -> add_result netconf out = create v out.
Proof.
  intros netconf cv out m v C D G N. unfold add_result, fixup_result_version.
  rewrite (proj2 (decode_version_iff netconf cv) (or_introl C)). cbn [rbind]. apply decodes_iff in D. rewrite D, G.
  destruct (String.eqb_spec v "") as [|_]; [congruence|reflexivity].
Qed.
(** Any other object is decoded at the configuration's version: the same document with cniVersion
    set to that and every other member as it was (up to one trip through interface{}, see C10). *)
Theorem C40_unnamed_version : forall netconf cv out m, conf_version netconf cv -> decodes_to out m ->
  well_formed_text cv ->
  (forall v, sget "cniVersion" m = Some (JStr v) -> v = "") ->
  exists doc m', add_result netconf out = create cv doc /\ parse doc = Some (JObj m') /\
    last_member "cniVersion" m' = Some (JStr cv) /\
    (forall k, k <> "cniVersion" -> last_member k m' = sget k m).
Proof.
  intros netconf cv out m C D W G. unfold add_result, fixup_result_version.
  rewrite (proj2 (decode_version_iff netconf cv) (or_introl C)). cbn [rbind]. apply decodes_iff in D. rewrite D.
  destruct (unmarshal_map_canonical _ _ D) as (CA & EN).
  exists (print (JObj (sset "cniVersion" (JStr cv) m))), (sset "cniVersion" (JStr cv) m).
  assert (S : ssorted (sset "cniVersion" (JStr cv) m)) by (apply sset_sorted; now apply canonical_obj in CA).
  split; [|split; [|split]].
  - destruct (sget "cniVersion" m) as [[| | |s| |]|] eqn:E; try reflexivity. rewrite (G s eq_refl). reflexivity.
  - apply parse_print. destruct EN as (J & DP). split.
    + apply jwf_obj. apply Forall_sset; [split; [apply valid_utf8_wf; reflexivity|exact W]|now apply jwf_obj].
    + apply N.le_trans with (N.succ 9999); [|lia]. apply jdepth_obj. apply Forall_sset; [cbn; lia|]. apply jdepth_obj. exact DP.
  - rewrite last_member_sorted by exact S. apply sget_sset_same.
  - intros k K. rewrite last_member_sorted by exact S. now apply sget_sset_other.
Qed.
(** The configuration's version: what it declares, 0.1.0 if that is absent or empty. *)
Theorem C40_conf_version_exact : forall b v, parse b <> Some JNull -> (Types.decode_version b = Ok v <-> conf_version b v).
Proof. intros b v N. rewrite decode_version_iff. split; [intros [H|(H & _)]; [exact H|contradiction]|auto]. Qed.
(** Anything but an object or null is refused. *)
Theorem C40_not_an_object : forall netconf out, parse out <> Some JNull -> (forall m, ~ decodes_to out m) ->
  exists e, add_result netconf out = Err e.
Proof.
  intros netconf out N H. pose proof (undecodable_map _ N H) as U. unfold add_result, fixup_result_version. pose proof (decode_version_not_panic netconf) as NP.
  destruct (Types.decode_version netconf) as [v|e|]; [cbn [rbind]; rewrite U; cbn [rbind]; eauto|cbn [rbind]; eauto|congruence].
Qed.
Example C40_nonvacuous :
  let conf := "{""cniVersion"":""0.4.0"",""name"":""n"",""type"":""t""}" in
  let out := "{""ips"":[{""version"":""4"",""address"":""10.1.2.3/24""}]}" in
  conf_version conf "0.4.0" /\ (exists m, decodes_to out m /\ sget "cniVersion" m = None) /\
  (exists r, add_result conf out = Ok r /\ result_version r = "0.4.0") /\
  (exists r, add_result conf "{""cniVersion"":""0.2.0"",""ip4"":{""ip"":""10.1.2.3/24""}}" = Ok r /\ result_version r = "0.2.0").
Proof.
  split; [apply C40_conf_version_exact; [vm_compute; discriminate|vm_compute; reflexivity]|].
  split; [eexists; split; [apply decodes_iff; vm_compute; reflexivity|vm_compute; reflexivity]|].
  split; eexists; (split; [vm_compute; reflexivity|reflexivity]).
Qed.

(** *** C47: plugin errors reach the caller *)

(** A plugin prints a CNI error and exits non-zero (after any number of text-file-busy attempts
    that did not start it): the caller gets that error. *)
Theorem C47_error_reaches_caller : forall runs n e code msg details, n < 6 ->
  (forall j, j < n -> busy (runs j) /\ ro_stdout (runs j) = "") ->
  ro_err (runs n) = Some e -> ~ busy (runs n) -> ro_stdout (runs n) = print_error code msg details ->
  (code < 2 ^ 64)%N -> well_formed_text msg -> well_formed_text details ->
  fst (exec_plugin runs) = Err (ECNI code msg details).
Proof.
  intros runs n e code msg details L B E NB O C M D.
  destruct (C24_first_unbusy_run_decides runs n L NB (fun j J => proj1 (B j J))) as (_ & _ & F). rewrite (F e E).
  assert (X : output ro_stdout runs n = ro_stdout (runs n)).
  { clear - B. assert (Y : forall m, m < n -> output ro_stdout runs m = "").
    { induction m as [|m IH]; intros H; cbn [output]; [apply (B 0 H)|]. rewrite IH by lia. apply (B (S m) H). }
    destruct n as [|n]; [reflexivity|]. cbn [output]. rewrite Y by lia. reflexivity. }
  rewrite X, O. unfold plugin_err. destruct (String.eqb_spec (print_error code msg details) "") as [Z|_]; [destruct (print_error_nonempty _ _ _ Z)|].
  now rewrite (error_round_trip code msg details C M D).
Qed.
(** A plugin that fails without printing: the message says so, with the error of the run or what it
    wrote to stderr. *)
Theorem C47_silent_failure : forall runs e, ro_err (runs 0) = Some e -> ~ busy (runs 0) -> ro_stdout (runs 0) = "" ->
  exists m, fst (exec_plugin runs) = Err (ECNI 0 m "") /\
    (ro_stderr (runs 0) = "" -> m = "netplugin failed with no error message: " ++ e) /\
    (ro_stderr (runs 0) <> "" -> exists q, quotes q (ro_stderr (runs 0)) /\ m = "netplugin failed: " ++ q).
Proof.
  intros runs e E NB O. destruct (C24_first_unbusy_run_decides runs 0 ltac:(lia) NB ltac:(intros j J; lia)) as (_ & _ & F).
  rewrite (F e E). cbn [output]. rewrite O. unfold plugin_err. cbn [String.eqb].
  destruct (String.eqb_spec (ro_stderr (runs 0)) "") as [Z|Z]; eexists; (split; [reflexivity|]); split; intros H; try contradiction; [reflexivity|].
  eexists. split; [apply quotes_quote|reflexivity].
Qed.
(** Output that is not an error document is quoted in the message; it is never reported as success. *)
Theorem C47_garbled_failure : forall runs e, ro_err (runs 0) = Some e -> ~ busy (runs 0) -> ro_stdout (runs 0) <> "" ->
  parse (ro_stdout (runs 0)) = None ->
  exists m, quotes_output (ro_stdout (runs 0)) m /\ fst (exec_plugin runs) = Err (ECNI 0 m "").
Proof.
  intros runs e E NB O P. destruct (C24_first_unbusy_run_decides runs 0 ltac:(lia) NB ltac:(intros j J; lia)) as (_ & _ & F).
  rewrite (F e E). cbn [output]. unfold plugin_err. destruct (String.eqb_spec (ro_stdout (runs 0)) "") as [Z|_]; [congruence|].
  unfold unmarshal_error. rewrite P. eexists. split; [|reflexivity]. eexists _, "json error". split; [apply quotes_quote|reflexivity].
Qed.
(** Any output of a failed plugin.  null is an empty error; of an object the last usable code and
    details count, and the last message if all of it is well-typed; for everything else the message
    quotes the output. *)
Lemma gives_snoc {A} field (value : json -> A -> Prop) zero o k v a :
  (key_is field k = true /\ value v a) \/ ((key_is field k = true -> forall b, ~ value v b) /\ gives field value zero o a) ->
  gives field value zero (o ++ [(k, v)])%list a.
Proof.
  intros [[K V]|[N [(l1 & k1 & v1 & l2 & -> & K & V & R)|[-> R]]]].
  - left. exists o, k, v, []. split; [reflexivity|]. split; [exact K|]. split; [exact V|]. intros ? ? ? [].
  - left. exists l1, k1, v1, (l2 ++ [(k, v)])%list. split; [now rewrite <- app_assoc|]. split; [exact K|]. split; [exact V|].
    intros k' v' b I K'. apply in_app_or in I as [I|[E|[]]]; [now apply (R k')|]. injection E as <- <-. now apply N.
  - right. split; [reflexivity|]. intros k' v' b I K'. apply in_app_or in I as [I|[E|[]]]; [now apply (R k')|]. injection E as <- <-. now apply N.
Qed.
Lemma code_value_iff v c : v <> JNull -> (code_value v c <-> dec_uint 0 v = Some c).
Proof.
  intros N. unfold code_value. destruct v as [| |s| | |]; try (split; [intros (x & E & _); discriminate E|discriminate]).
  - now destruct N.
  - cbn [dec_uint]. unfold atou. split.
    + intros (x & E & D & L). injection E as <-. apply decimal_digits in D. rewrite D. apply N.ltb_lt in L. now rewrite L.
    + intros H. exists s. split; [reflexivity|]. destruct (digits s) as [n|] eqn:D; [|discriminate]. destruct (N.ltb_spec n (2 ^ 64)) as [L|L]; [|discriminate].
      injection H as <-. split; [now apply decimal_digits|exact L].
Qed.
Lemma error_doc_snoc o k v : error_document (o ++ [(k, v)])%list <-> error_document o /\ fields_ok error_fields k v.
Proof.
  unfold error_document. split.
  - intros H. split; [intros k' v' I; apply H, in_or_app; now left|apply H, in_or_app; right; now left].
  - intros [A B] k' v' I. apply in_app_or in I as [I|[E|[]]]; [now apply A|]. now injection E as <- <-.
Qed.
Lemma error_fold o : let '(e, bad) := fold_left error_step o (cni_error_zero, false) in
  gives "code" code_value 0%N o (e_code e) /\ gives "msg" text_value "" o (e_msg e) /\ gives "details" text_value "" o (e_details e) /\
  (bad = false <-> error_document o).
Proof.
  induction o as [|[k v] o IH] using rev_ind.
  - cbn. split; [|split; [|split; [|split; [intros _ ? ? []|reflexivity]]]]; right; (split; [reflexivity|intros ? ? ? []]).
  - rewrite fold_left_app. cbn [fold_left]. destruct (fold_left error_step o (cni_error_zero, false)) as [e bad]. destruct IH as (GC & GM & GD & GB).
    unfold error_step. pose proof (error_doc_snoc o k v) as ES. unfold error_fields in ES. rewrite fields_cons in ES by distinct_fields.
    destruct (key_is "code" k) eqn:K1.
    { assert (K2 : key_is "msg" k = false) by (apply (key_is_excl "code"); [discriminate|exact K1]). assert (K3 : key_is "details" k = false) by (apply (key_is_excl "code"); [discriminate|exact K1]).
      destruct (dec_uint (e_code e) v) as [c|] eqn:D; cbn [e_code e_msg e_details].
      - split; [|split; [|split]]; try (apply gives_snoc; right; split; [congruence|assumption]).
        + apply gives_snoc. destruct v as [| |s| | |]; try discriminate D; [right; injection D as <-; split; [intros _ b (x & X & _); discriminate X|exact GC]|].
          left. split; [exact K1|]. apply code_value_iff; [discriminate|exact D].
        + rewrite ES, GB. split; [intros H; split; [exact H|]|tauto]. destruct v as [| |s| | |]; try discriminate D; [now left|]. right. exists c. apply code_value_iff; [discriminate|exact D].
      - assert (NV : v <> JNull /\ forall b, ~ code_value v b).
        { split; [intros ->; discriminate D|]. intros b X. assert (NN : v <> JNull) by (intros ->; discriminate D). apply code_value_iff in X; [|exact NN]. destruct v; discriminate || (cbn in D, X; congruence). }
        split; [|split; [|split]]; try (apply gives_snoc; right; split; [congruence|assumption]).
        + apply gives_snoc. right. split; [intros _; apply NV|exact GC].
        + rewrite ES. split; [discriminate|]. intros [_ [X|[b X]]]; [now destruct (proj1 NV)|now destruct (proj2 NV b)]. }
    rewrite fields_cons in ES by distinct_fields. destruct (key_is "msg" k) eqn:K2.
    { assert (K3 : key_is "details" k = false) by (apply (key_is_excl "msg"); [discriminate|exact K2]).
      destruct (dec_string (e_msg e) v) as [m|] eqn:D; cbn [e_code e_msg e_details].
      - split; [|split; [|split]]; try (apply gives_snoc; right; split; [congruence|assumption]).
        + apply gives_snoc. destruct v as [| | |s| |]; try discriminate D; injection D as <-; [right; split; [intros _ b X; discriminate X|exact GM]|]. left. split; [exact K2|reflexivity].
        + rewrite ES, GB. split; [intros H; split; [exact H|]|tauto]. apply (dec_string_defined (e_msg e)). now exists m.
      - split; [|split; [|split]]; try (apply gives_snoc; right; split; [congruence|assumption]).
        + apply gives_snoc. right. split; [intros _ b X; unfold text_value in X; subst v; discriminate D|exact GM].
        + rewrite ES. split; [discriminate|]. intros [_ X]. apply (dec_string_defined (e_msg e)) in X as [x X]. congruence. }
    rewrite fields_cons in ES by distinct_fields. destruct (key_is "details" k) eqn:K3.
    { destruct (dec_string (e_details e) v) as [m|] eqn:D; cbn [e_code e_msg e_details].
      - split; [|split; [|split]]; try (apply gives_snoc; right; split; [congruence|assumption]).
        + apply gives_snoc. destruct v as [| | |s| |]; try discriminate D; injection D as <-; [right; split; [intros _ b X; discriminate X|exact GD]|]. left. split; [exact K3|reflexivity].
        + rewrite ES, GB. split; [intros H; split; [exact H|]|tauto]. apply (dec_string_defined (e_details e)). now exists m.
      - split; [|split; [|split]]; try (apply gives_snoc; right; split; [congruence|assumption]).
        + apply gives_snoc. right. split; [intros _ b X; unfold text_value in X; subst v; discriminate D|exact GD].
        + rewrite ES. split; [discriminate|]. intros [_ X]. apply (dec_string_defined (e_details e)) in X as [x X]. congruence. }
    split; [|split; [|split]]; try (apply gives_snoc; right; split; [congruence|assumption]).
    rewrite fields_nil in ES. rewrite ES, GB. tauto.
Qed.
Definition unread_message (out : string) : string := "netplugin failed but error parsing its diagnostic message " ++ quote out ++ ": json error".
Lemma unread_unreadable out : quotes_output out (unread_message out).
Proof. exists (quote out), "json error". split; [apply quotes_quote|reflexivity]. Qed.
Theorem C47_any_output : forall runs e out, ro_err (runs 0) = Some e -> ~ busy (runs 0) -> ro_stdout (runs 0) = out -> out <> "" ->
  exists c m d, fst (exec_plugin runs) = Err (ECNI c m d) /\
    match parse out with
    | Some JNull => c = 0%N /\ m = "" /\ d = ""
    | Some (JObj o) => gives "code" code_value 0%N o c /\ gives "details" text_value "" o d /\
        ((error_document o /\ gives "msg" text_value "" o m) \/ (~ error_document o /\ quotes_output out m))
    | _ => c = 0%N /\ quotes_output out m /\ d = ""
    end.
Proof.
  intros runs e out E NB O NE. destruct (C24_first_unbusy_run_decides runs 0 ltac:(lia) NB ltac:(intros j J; lia)) as (_ & _ & F).
  rewrite (F e E). cbn [output]. rewrite O. unfold plugin_err. destruct (String.eqb_spec out "") as [Z|_]; [contradiction|].
  unfold unmarshal_error. destruct (parse out) as [[| | | | |o]|].
  - exists 0%N, "", "". auto.
  - exists 0%N, (unread_message out), "". pose proof (unread_unreadable out). auto.
  - exists 0%N, (unread_message out), "". pose proof (unread_unreadable out). auto.
  - exists 0%N, (unread_message out), "". pose proof (unread_unreadable out). auto.
  - exists 0%N, (unread_message out), "". pose proof (unread_unreadable out). auto.
  - pose proof (error_fold o) as G. destruct (fold_left error_step o (cni_error_zero, false)) as [x bad]. destruct G as (GC & GM & GD & GB).
    destruct bad.
    + exists (e_code x), (unread_message out), (e_details x). split; [reflexivity|]. split; [exact GC|]. split; [exact GD|]. right. split; [|apply unread_unreadable]. intros X. apply GB in X. discriminate.
    + exists (e_code x), (e_msg x), (e_details x). split; [reflexivity|]. split; [exact GC|]. split; [exact GD|]. left. split; [now apply GB|exact GM].
  - exists 0%N, (unread_message out), "". pose proof (unread_unreadable out). auto.
Qed.
Example C47_nonvacuous :
  exec_plugin (fun _ => {| ro_stdout := print_error 11 "try ""again""" "later"; ro_stderr := "x"; ro_err := Some "exit status 1" |}) =
    (Err (ECNI 11 "try ""again""" "later"), 1) /\
  ~ busy {| ro_stdout := print_error 11 "try ""again""" "later"; ro_stderr := "x"; ro_err := Some "exit status 1" |} /\
  well_formed_text "try ""again""".
Proof. split; [vm_compute; reflexivity|]. split; [rewrite busy_iff; discriminate|apply valid_utf8_wf; reflexivity]. Qed.
(** A partly well-typed error document keeps its code although the message is replaced. *)
Theorem C47_partial_document_keeps_code : plugin_err "exit status 1" "{""code"":7,""msg"":3}" "" =
  ECNI 7 ("netplugin failed but error parsing its diagnostic message " ++ quote "{""code"":7,""msg"":3}" ++ ": json error") "".
Proof. vm_compute. reflexivity. Qed.

Print Assumptions C24_success_exactly.
Print Assumptions C24_success_needs_a_successful_run_partial.
Print Assumptions C26_output_exact.
Print Assumptions C40_unnamed_version.
Print Assumptions C47_error_reaches_caller.
Print Assumptions C47_any_output.
