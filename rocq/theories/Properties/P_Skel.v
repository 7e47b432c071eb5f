(** The plugin side: C43-C46. *)
From Coq Require Import String Ascii List Arith ZArith NArith Bool Lia.
From Verif Require Import Model.GoStr Model.Errors Model.Version Model.Validate Model.Json Model.GoJson Model.NetIP Model.Types Model.Args Model.Invoke Model.Skel
  Spec.VersionSpec Spec.NameSpec Spec.JsonSpec Spec.ConfSpec Spec.InvokeSpec Spec.SkelSpec
  Proofs.StrP Proofs.Utf8P Proofs.VersionP Proofs.ValidateP Proofs.JsonRT Proofs.GoJsonP Proofs.NumP Proofs.ConfP Proofs.LoadP Proofs.VerbP Proofs.InvokeP Proofs.SkelP
  Properties.P_Invoke.
Import ListNotations.
Open Scope nat_scope.
Open Scope string_scope.

(** *** C43: missing variables *)
Lemma bad_names_given pe : bad_names pe = None <-> given_names_valid pe.
Proof.
  unfold bad_names, given_names_valid. destruct (needs_names (command pe)) eqn:N.
  - apply needs_names_iff in N. unfold bad_value.
    assert (A : forall f g v, (f v = None <-> g v) -> ((if String.eqb v "" then None else option_map to_terr (f v)) = None <-> v = "" \/ g v)).
    { intros f g v H. destruct (String.eqb_spec v "") as [->|NV]; [tauto|]. destruct (f v); cbn; [|tauto]. split; [discriminate|]. intros [->|G]; [congruence|]. apply H in G. discriminate. }
    pose proof (A validate_container_id good_name _ (validate_container_id_ok (pe_getenv pe "CNI_CONTAINERID"))) as A1.
    pose proof (A validate_interface_name good_ifname _ (validate_interface_name_ok (pe_getenv pe "CNI_IFNAME"))) as A2.
    destruct (if String.eqb (pe_getenv pe "CNI_CONTAINERID") "" then None else _).
    + split; [discriminate|]. intros H. destruct (H N) as (H1 & _). apply A1 in H1. discriminate.
    + rewrite A2. tauto.
  - split; [intros _ H; apply needs_names_iff in H; congruence|reflexivity].
Qed.
Lemma bad_names_code pe e : bad_names pe = Some e -> e_code e = 4%N.
Proof.
  unfold bad_names, bad_value. destruct (needs_names (command pe)); [|discriminate].
  destruct (String.eqb_spec (pe_getenv pe "CNI_CONTAINERID") "") as [|N1].
  - destruct (String.eqb_spec (pe_getenv pe "CNI_IFNAME") "") as [|N2]; [discriminate|].
    destruct (validate_interface_name (pe_getenv pe "CNI_IFNAME")) eqn:V; [|discriminate]. intros H. injection H as <-.
    destruct (validate_interface_name_err (pe_getenv pe "CNI_IFNAME")) as (m & d & E); [intros G; apply validate_interface_name_ok in G; congruence|].
    rewrite V in E. injection E as ->. reflexivity.
  - destruct (validate_container_id (pe_getenv pe "CNI_CONTAINERID")) eqn:V; cbn [option_map].
    + intros H. injection H as <-.
      destruct (validate_container_id_err (pe_getenv pe "CNI_CONTAINERID")) as (m & d & E); [intros G; apply validate_container_id_ok in G; congruence|].
      rewrite V in E. destruct (String.eqb_spec (pe_getenv pe "CNI_CONTAINERID") "") as [|_]; [congruence|]. injection E as ->. reflexivity.
    + destruct (String.eqb_spec (pe_getenv pe "CNI_IFNAME") "") as [|N2]; [discriminate|].
      destruct (validate_interface_name (pe_getenv pe "CNI_IFNAME")) eqn:V2; [|discriminate]. intros H. injection H as <-.
      destruct (validate_interface_name_err (pe_getenv pe "CNI_IFNAME")) as (m & d & E); [intros G; apply validate_interface_name_ok in G; congruence|].
      rewrite V2 in E. injection E as ->. reflexivity.
Qed.
(** A request that lacks a required variable: no function is called and the error has code 4; it
    names exactly the missing variables, unless a name that was given is itself invalid. *)
Theorem C43_missing_variables : forall pe funcs info about, missing pe <> [] -> (command pe = "" -> about = "") ->
  let o := plugin_main pe funcs info about in
  so_calls o = [] /\ so_stdout o = "" /\
  exists e, so_err o = Some e /\ e_code e = 4%N /\
    (given_names_valid pe -> e_msg e = "required env variables [" ++ String.concat "," (missing pe) ++ "] missing").
Proof.
  intros pe funcs info about M A o. unfold o, plugin_main, get_cmd_args. fold (command pe). rewrite check_vars_eq.
  destruct (bad_names pe) as [e|] eqn:B.
  - assert (C : e_code e = 4%N) by now apply bad_names_code in B.
    assert (X : (e_code e =? ErrInvalidEnvironmentVariables)%N && String.eqb (command pe) "" && negb (String.eqb about "") = false).
    { destruct (String.eqb_spec (command pe) "") as [E|_]; [rewrite (A E); now rewrite andb_false_r|now rewrite andb_false_r]. }
    rewrite X. cbn. split; [reflexivity|]. split; [reflexivity|]. exists e. split; [reflexivity|]. split; [exact C|]. intros G. apply bad_names_given in G. congruence.
  - destruct (missing pe) as [|m ms] eqn:E; [congruence|].
    match goal with |- context [if ?c then _ else _] => assert (X : c = false) end.
    { destruct (String.eqb_spec (command pe) "") as [E2|_]; [rewrite (A E2); now rewrite andb_false_r|now rewrite andb_false_r]. }
    rewrite X. cbn [so_fail so_calls so_stdout so_err]. split; [reflexivity|]. split; [reflexivity|]. eexists. split; [reflexivity|]. split; reflexivity.
Qed.
(** With no command at all a plugin that describes itself prints that and the versions it supports, a
    line each, to stderr and succeeds. *)
Theorem C43_no_command_prints_about : forall pe funcs info about, command pe = "" -> about <> "" ->
  let o := plugin_main pe funcs info about in
  so_err o = None /\ so_calls o = [] /\ so_stdout o = "" /\
  so_stderr o = about ++ String (ascii_of_nat 10) ("CNI protocol versions supported: " ++ String.concat ", " (pi_supported info) ++ String (ascii_of_nat 10) "").
Proof.
  intros pe funcs info about C A o. unfold o, plugin_main, get_cmd_args. fold (command pe). rewrite check_vars_eq.
  assert (B : bad_names pe = None) by (unfold bad_names; now rewrite C).
  assert (M : missing pe = ["CNI_COMMAND"]).
  { unfold missing. rewrite C. change (required "") with ["CNI_COMMAND"]. cbn [filter]. unfold command in C. now rewrite C. }
  rewrite B, M, C. destruct (String.eqb_spec about "") as [|_]; [congruence|]. cbn -[append]. repeat split.
Qed.
(** What is required: see [required] in SkelSpec; in particular VERSION needs only the command. *)
Theorem C43_version_requires_none : forall pe, command pe = "VERSION" -> missing pe = [].
Proof. intros pe C. unfold missing. rewrite C. change (required "VERSION") with ["CNI_COMMAND"]. cbn [filter]. unfold command in C. now rewrite C. Qed.

(** *** C44: dispatch *)
Lemma allowed_cmd cmd v : allowed_at cmd v -> cmd = "ADD" \/ cmd = "CHECK" \/ cmd = "DEL" \/ cmd = "GC" \/ cmd = "STATUS".
Proof. intros [[H|H]|[[H _]|[[H|H] _]]]; tauto. Qed.
Lemma conf_name_not_null data n : conf_name data n -> parse data <> Some JNull.
Proof. intros (o & P & _). congruence. Qed.
(** The namespace check after ADD and DEL. *)
Definition netns_check (pe : plugin_env) (a : cmd_args) (o : skel_outcome) : skel_outcome :=
  match so_err o with
  | Some _ => o
  | None =>
      if netns_overridden (ca_netns_override a) then o
      else
        let err e := {| so_err := Some e; so_stdout := so_stdout o; so_stderr := so_stderr o; so_calls := so_calls o |} in
        match check_netns pe (ca_netns a) with
        | inr e => err e
        | inl true => err (new_error ErrInvalidNetNS "plugin's netns and netns from CNI_NETNS should not be the same" "")
        | inl false => o
        end
  end.
Lemma call_in_netns_check pe which a supported f :
  call_in_netns pe which a supported f = netns_check pe a (check_version_and_call which a supported f).
Proof. reflexivity. Qed.
Lemma netns_check_same pe a o : so_calls (netns_check pe a o) = so_calls o /\ so_stdout (netns_check pe a o) = so_stdout o.
Proof.
  unfold netns_check. destruct (so_err o); [auto|]. destruct (netns_overridden _); [auto|]. destruct (check_netns _ _) as [[|]|]; auto.
Qed.
Lemma netns_check_fail pe a e : netns_check pe a (so_fail e) = so_fail e.
Proof. reflexivity. Qed.
Definition after (pe : plugin_env) (a : cmd_args) (o : skel_outcome) : skel_outcome :=
  if String.eqb (command pe) "ADD" || String.eqb (command pe) "DEL" then netns_check pe a o else o.
Lemma version_not_acceptable pe l data : command pe = "VERSION" -> ~ acceptable_request pe l data.
Proof. intros E (_ & _ & _ & _ & v & _ & _ & A). rewrite E in A. apply allowed_cmd in A. destruct A as [A|[A|[A|[A|A]]]]; discriminate. Qed.
Lemma main_cases pe funcs info about : let o := plugin_main pe funcs info about in
  (exists data, acceptable_request pe (pi_supported info) data /\
     (o = after pe (args_of pe data) (outcome_of (command pe) (args_of pe data) (function_for funcs (command pe))) \/
      (~ Forall well_formed_version (pi_supported info) /\ exists e, o = so_fail e))) \/
  ((forall data, ~ acceptable_request pe (pi_supported info) data) /\ so_calls o = [] /\
   (command pe <> "VERSION" -> (command pe = "" -> about = "") -> exists e, o = so_fail e)).
Proof.
  cbn zeta. unfold plugin_main. fold (command pe). destruct (get_cmd_args pe) as [(cmd & a)|e] eqn:G.
  - apply get_cmd_args_inl in G. destruct G as (-> & M & NV & H).
    destruct H as [(V & ->)|(V & data & S & (n & CN & GN) & ->)].
    + right. rewrite V. cbn. split; [intros data; now apply version_not_acceptable|]. split; [reflexivity|congruence].
    + assert (NN : parse (ca_stdin (args_of pe data)) <> Some JNull) by (cbn; eapply conf_name_not_null; eassumption).
      assert (ACC : forall v, conf_version data v -> In v (pi_supported info) -> allowed_at (command pe) v -> acceptable_request pe (pi_supported info) data).
      { intros v CV I A. split; [exact M|]. split; [exact NV|]. split; [exact S|]. split; [eauto|]. eauto. }
      assert (INV : forall d, acceptable_request pe (pi_supported info) d -> exists v, conf_version data v /\ In v (pi_supported info) /\ allowed_at (command pe) v).
      { intros d (_ & _ & S2 & _ & X). rewrite S in S2. injection S2 as <-. exact X. }
      unfold after, function_for.
      destruct (cmd_cases (command pe)) as [E|[E|[E|[E|[E|(E1 & E2 & E3 & E4 & E5)]]]]].
      6: { rewrite E1, E2, E3, E4, E5. right. destruct (String.eqb_spec (command pe) "VERSION") as [|_]; [congruence|].
           split; [|split; [reflexivity|eauto]]. intros d A. destruct (INV d A) as (v & _ & _ & AL). apply allowed_cmd in AL.
           apply String.eqb_neq in E1, E2, E3, E4, E5. tauto. }
      { rewrite E; cbn [String.eqb Ascii.eqb Bool.eqb orb]; rewrite call_in_netns_check.
        destruct (cvc_inv "ADD" (args_of pe data) (pi_supported info) (f_add funcs) NN) as [((v & CV & I) & EQ)|(NO & (e & EQ))]; rewrite EQ.
        - left; exists data; split; [eapply ACC; [exact CV|exact I|rewrite E; left; tauto]|now left].
        - right; rewrite netns_check_fail; split; [intros d A; destruct (INV d A) as (v & CV & I & _); apply NO; eauto|split; [reflexivity|eauto]]. }
      { rewrite E; cbn [String.eqb Ascii.eqb Bool.eqb orb].
        destruct (gated_inv "CHECK" "0.4.0" (0, 4, 0)%Z (args_of pe data) (pi_supported info) (f_check funcs) means_040 NN) as [((v & CV & I & AL) & H)|(NO & (e & EQ))].
        - left; exists data; split; [eapply ACC; [exact CV|exact I|rewrite E; unfold allowed_at; tauto]|exact H].
        - right; rewrite EQ; split; [intros d A; destruct (INV d A) as (v & CV & I & AL); apply NO; exists v; split; [exact CV|]; split; [exact I|];
                 rewrite E in AL; unfold allowed_at in AL; intuition discriminate|split; [reflexivity|eauto]]. }
      { rewrite E; cbn [String.eqb Ascii.eqb Bool.eqb orb]; rewrite call_in_netns_check.
        destruct (cvc_inv "DEL" (args_of pe data) (pi_supported info) (f_del funcs) NN) as [((v & CV & I) & EQ)|(NO & (e & EQ))]; rewrite EQ.
        - left; exists data; split; [eapply ACC; [exact CV|exact I|rewrite E; left; tauto]|now left].
        - right; rewrite netns_check_fail; split; [intros d A; destruct (INV d A) as (v & CV & I & _); apply NO; eauto|split; [reflexivity|eauto]]. }
      { rewrite E; cbn [String.eqb Ascii.eqb Bool.eqb orb].
        destruct (gated_inv "GC" "1.1.0" (1, 1, 0)%Z (args_of pe data) (pi_supported info) (f_gc funcs) means_110 NN) as [((v & CV & I & AL) & H)|(NO & (e & EQ))].
        - left; exists data; split; [eapply ACC; [exact CV|exact I|rewrite E; unfold allowed_at; tauto]|exact H].
        - right; rewrite EQ; split; [intros d A; destruct (INV d A) as (v & CV & I & AL); apply NO; exists v; split; [exact CV|]; split; [exact I|];
                 rewrite E in AL; unfold allowed_at in AL; intuition discriminate|split; [reflexivity|eauto]]. }
      { rewrite E; cbn [String.eqb Ascii.eqb Bool.eqb orb].
        destruct (gated_inv "STATUS" "1.1.0" (1, 1, 0)%Z (args_of pe data) (pi_supported info) (f_status funcs) means_110 NN) as [((v & CV & I & AL) & H)|(NO & (e & EQ))].
        - left; exists data; split; [eapply ACC; [exact CV|exact I|rewrite E; unfold allowed_at; tauto]|exact H].
        - right; rewrite EQ; split; [intros d A; destruct (INV d A) as (v & CV & I & AL); apply NO; exists v; split; [exact CV|]; split; [exact I|];
                 rewrite E in AL; unfold allowed_at in AL; intuition discriminate|split; [reflexivity|eauto]]. }
  - right. split; [|split].
    + intros d A. assert (X : get_cmd_args pe = inl (command pe, args_of pe d)).
      { apply get_cmd_args_inl. destruct A as (M & NV & S & C & v & _ & _ & AL). split; [reflexivity|]. split; [exact M|]. split; [exact NV|]. right.
        split; [intros V; rewrite V in AL; apply allowed_cmd in AL; destruct AL as [A|[A|[A|[A|A]]]]; discriminate|]. exists d. auto. }
      congruence.
    + match goal with |- context [if ?c then _ else _] => destruct c end; reflexivity.
    + intros NV AB. match goal with |- context [if ?c then _ else _] => destruct c eqn:C end; [|eauto].
      rewrite !andb_true_iff in C. destruct C as ((_ & C1) & C2). apply String.eqb_eq in C1. rewrite (AB C1) in C2. discriminate.
Qed.
(** A plugin function is called only for an acceptable request: the one for the command, once, with
    the arguments of the request. *)
Theorem C44_called_only_if : forall pe funcs info about which a,
  In (which, a) (so_calls (plugin_main pe funcs info about)) ->
  so_calls (plugin_main pe funcs info about) = [(which, a)] /\ which = command pe /\
  exists f data, function_for funcs (command pe) = Some f /\ arguments pe data a /\
    acceptable_request pe (pi_supported info) data.
Proof.
  intros pe funcs info about which a H. destruct (main_cases pe funcs info about) as [(data & A & [O|(_ & e & O)])|(_ & O & _)].
  - rewrite O in *. unfold after in *.
    assert (X : so_calls (outcome_of (command pe) (args_of pe data) (function_for funcs (command pe))) =
                so_calls (if String.eqb (command pe) "ADD" || String.eqb (command pe) "DEL"
                          then netns_check pe (args_of pe data) (outcome_of (command pe) (args_of pe data) (function_for funcs (command pe)))
                          else outcome_of (command pe) (args_of pe data) (function_for funcs (command pe)))).
    { destruct (_ || _)%bool; [|reflexivity]. now rewrite (proj1 (netns_check_same _ _ _)). }
    rewrite <- X in *. destruct (function_for funcs (command pe)) as [f|] eqn:F; [|destruct H]. cbn [outcome_of so_calls] in *.
    destruct H as [H|[]]. injection H as <- <-. repeat split. exists f, data. split; [reflexivity|]. split; [now apply arguments_iff|exact A].
  - rewrite O in H. destruct H.
  - rewrite O in H. destruct H.
Qed.
(** An acceptable request to a plugin that implements the command gets its function called; what it
    prints is the output, and its error is the answer's: a CNI error, or one that is wrapped, as it is, any other
    with code 999 and its text. *)
Theorem C44_called_if : forall pe funcs info about data f,
  acceptable_request pe (pi_supported info) data -> Forall well_formed_version (pi_supported info) ->
  function_for funcs (command pe) = Some f ->
  exists a, arguments pe data a /\
    let o := plugin_main pe funcs info about in
    so_calls o = [(command pe, a)] /\ so_stdout o = fst (f a) /\
    (forall e code msg details, snd (f a) = Some e -> carries e code msg details ->
       so_err o = Some {| e_code := code; e_msg := msg; e_details := details |}) /\
    (forall e, snd (f a) = Some e -> carries_none e -> so_err o = Some {| e_code := 999; e_msg := err_string e; e_details := "" |}) /\
    (forall e, so_err o = Some e -> (command pe <> "ADD" /\ command pe <> "DEL") -> snd (f a) <> None).
Proof.
  intros pe funcs info about data f A W F. exists (args_of pe data). split; [now apply arguments_iff|]. cbn zeta.
  destruct (main_cases pe funcs info about) as [(d & A2 & [O|(N & _)])|(N & _)]; [|contradiction|destruct (N data A)].
  assert (d = data) by (destruct A as (_ & _ & S1 & _), A2 as (_ & _ & S2 & _); congruence). subst d.
  rewrite F in O. rewrite O. unfold after. set (o1 := outcome_of _ _ _).
  split; [destruct (_ || _)%bool; [now rewrite (proj1 (netns_check_same _ _ _))|reflexivity]|].
  split; [destruct (_ || _)%bool; [now rewrite (proj2 (netns_check_same _ _ _))|reflexivity]|].
  assert (P : forall e, so_err o1 = Some e -> (if String.eqb (command pe) "ADD" || String.eqb (command pe) "DEL" then netns_check pe (args_of pe data) o1 else o1) = o1).
  { intros e E. destruct (_ || _)%bool; [|reflexivity]. unfold netns_check. now rewrite E. }
  split; [|split].
  - intros e c m dt E K. apply carries_as_cni in K. rewrite (P {| e_code := c; e_msg := m; e_details := dt |}); unfold o1; cbn [outcome_of so_err]; now rewrite E, K.
  - intros e E K. apply as_cni_none in K. rewrite (P {| e_code := 999; e_msg := err_string e; e_details := "" |}); unfold o1; cbn [outcome_of so_err]; now rewrite E, K.
  - intros e E (N1 & N2). destruct (String.eqb_spec (command pe) "ADD"); [congruence|]. destruct (String.eqb_spec (command pe) "DEL"); [congruence|].
    cbn [orb] in E. unfold o1 in E. cbn [outcome_of so_err] in E. destruct (snd (f _)); [discriminate|congruence].
Qed.
(** Anything else, except VERSION and the about text, is refused: an error and no call. *)
Theorem C44_others_are_refused : forall pe funcs info about,
  (forall data, ~ acceptable_request pe (pi_supported info) data) ->
  command pe <> "VERSION" -> (command pe = "" -> about = "") ->
  let o := plugin_main pe funcs info about in so_calls o = [] /\ so_stdout o = "" /\ exists e, so_err o = Some e.
Proof.
  intros pe funcs info about N V AB o. destruct (main_cases pe funcs info about) as [(d & A & _)|(_ & _ & H)]; [destruct (N d A)|].
  destruct (H V AB) as (e & E). unfold o. rewrite E. cbn. repeat split. eauto.
Qed.
(** A function the plugin does not implement is not an error. *)
Theorem C44_unimplemented_succeeds : forall pe funcs info about data,
  acceptable_request pe (pi_supported info) data -> Forall well_formed_version (pi_supported info) ->
  function_for funcs (command pe) = None -> command pe <> "ADD" -> command pe <> "DEL" ->
  let o := plugin_main pe funcs info about in so_calls o = [] /\ so_stdout o = "" /\ so_err o = None.
Proof.
  intros pe funcs info about data A W F N1 N2 o.
  destruct (main_cases pe funcs info about) as [(d & A2 & [O|(N & _)])|(N & _)]; [|contradiction|destruct (N data A)].
  unfold o. rewrite O, F. unfold after. destruct (String.eqb_spec (command pe) "ADD"); [congruence|]. destruct (String.eqb_spec (command pe) "DEL"); [congruence|].
  cbn. auto.
Qed.

(** *** C45: VERSION *)
Lemma version_main pe funcs info about : command pe = "VERSION" ->
  plugin_main pe funcs info about = {| so_err := None; so_stdout := encode_plugin_info info; so_stderr := ""; so_calls := [] |}.
Proof.
  intros C. unfold plugin_main. fold (command pe).
  assert (G : get_cmd_args pe = inl ("VERSION", args_of pe "")).
  { apply get_cmd_args_inl. split; [now symmetry|]. split; [now apply C43_version_requires_none|]. split; [|now left].
    intros [H|[H|H]]; rewrite C in H; discriminate. }
  rewrite G. reflexivity.
Qed.
(** VERSION succeeds whatever else there is, calls nothing, and its output decodes, as the runtime
    decodes it, to the versions the plugin supports. *)
Theorem C45_version_answers : forall pe funcs l info about, command pe = "VERSION" ->
  plugin_supports l = Some info -> Forall well_formed_text l ->
  exists out, plugin_process pe funcs info about = (out, "", 0%N) /\
    so_calls (plugin_main pe funcs info about) = [] /\
    exists got, decode_plugin_info out = Ok got /\ pi_supported got = l.
Proof.
  intros pe funcs l info about C P W. unfold plugin_process. rewrite (version_main _ _ _ _ C). cbn.
  eexists. split; [reflexivity|]. split; [reflexivity|]. exists info. now apply C26_round_trip.
Qed.

(** *** C46: the plugin's own namespace *)
Lemma upper_lower_T c : Ascii.eqb (upper c) "T"%char = Ascii.eqb (lower c) "t"%char.
Proof. destruct c as [[] [] [] [] [] [] [] []]; reflexivity. Qed.
Lemma upper_lower_R c : Ascii.eqb (upper c) "R"%char = Ascii.eqb (lower c) "r"%char.
Proof. destruct c as [[] [] [] [] [] [] [] []]; reflexivity. Qed.
Lemma upper_lower_U c : Ascii.eqb (upper c) "U"%char = Ascii.eqb (lower c) "u"%char.
Proof. destruct c as [[] [] [] [] [] [] [] []]; reflexivity. Qed.
Lemma upper_lower_E c : Ascii.eqb (upper c) "E"%char = Ascii.eqb (lower c) "e"%char.
Proof. destruct c as [[] [] [] [] [] [] [] []]; reflexivity. Qed.
Lemma eqb_cons a s b t : String.eqb (String a s) (String b t) = (Ascii.eqb a b && String.eqb s t)%bool.
Proof. cbn. now destruct (Ascii.eqb a b). Qed.
Lemma overridden_iff pe : netns_overridden (pe_getenv pe "CNI_NETNS_OVERRIDE") = true <-> override_on pe.
Proof.
  unfold override_on, netns_overridden. generalize (pe_getenv pe "CNI_NETNS_OVERRIDE") as v. intros v.
  assert (X : String.eqb (smap_bytes upper v) "TRUE" = String.eqb (to_lower v) "true").
  { unfold to_lower. destruct v as [|a [|b [|c [|d [|e v]]]]]; cbn [smap_bytes]; rewrite ?eqb_cons, ?upper_lower_T, ?upper_lower_R, ?upper_lower_U, ?upper_lower_E; try reflexivity. }
  rewrite X, orb_true_iff, !String.eqb_eq. tauto.
Qed.
(** ADD or DEL whose function succeeded: error 8 exactly when the namespace is the plugin's own and
    this is not overridden; otherwise no error. *)
Theorem C46_own_namespace : forall pe funcs info about data f a, (command pe = "ADD" \/ command pe = "DEL") ->
  acceptable_request pe (pi_supported info) data -> function_for funcs (command pe) = Some f ->
  arguments pe data a -> snd (f a) = None ->
  let o := plugin_main pe funcs info about in
  ((~ override_on pe /\ in_own_namespace pe) -> exists e, so_err o = Some e /\ e_code e = 8%N) /\
  (~ (~ override_on pe /\ in_own_namespace pe) -> so_err o = None).
Proof.
  intros pe funcs info about data f a C A F AR S. cbn zeta. apply arguments_iff in AR. subst a.
  assert (O : plugin_main pe funcs info about = netns_check pe (args_of pe data) (outcome_of (command pe) (args_of pe data) (Some f))).
  { destruct (main_cases pe funcs info about) as [(d & A2 & O)|(N & _)]; [|destruct (N data A)].
    assert (d = data) by (destruct A as (_ & _ & S1 & _), A2 as (_ & _ & S2 & _); congruence). subst d. rewrite F in O.
    unfold after in O. destruct O as [O|(_ & e & O)].
    - rewrite O. destruct C as [C|C]; rewrite C; reflexivity.
    - exfalso. (* ADD and DEL do not look at how the versions are written *)
      unfold plugin_main in O. fold (command pe) in O.
      assert (G : get_cmd_args pe = inl (command pe, args_of pe data)).
      { apply get_cmd_args_inl. destruct A as (M & NV & SD & CN & _). split; [reflexivity|]. split; [exact M|]. split; [exact NV|]. right.
        split; [destruct C as [C|C]; rewrite C; discriminate|]. eauto. }
      rewrite G in O. destruct A as (_ & _ & _ & (n & CN & _) & v & CV & I & _).
      assert (NN : parse (ca_stdin (args_of pe data)) <> Some JNull) by (cbn; eapply conf_name_not_null; eassumption).
      destruct C as [C|C]; rewrite C in O, F; cbn [function_for String.eqb Ascii.eqb Bool.eqb] in O, F; rewrite F in O; rewrite call_in_netns_check in O;
        match type of O with context [check_version_and_call ?w ?a ?s ?g] => destruct (cvc_inv w a s g NN) as [(_ & EQ)|(NO & _)]; [|apply NO; eauto] end;
        rewrite EQ in O; assert (Y : so_calls (so_fail e) = []) by reflexivity; rewrite <- O, (proj1 (netns_check_same _ _ _)) in Y; discriminate. }
  rewrite O. unfold netns_check. cbn [outcome_of so_err]. rewrite S. cbn [args_of ca_netns_override ca_netns].
  pose proof (overridden_iff pe) as OV. destruct (netns_overridden (pe_getenv pe "CNI_NETNS_OVERRIDE")).
  { split; [intros (N & _); destruct N; now apply OV|]. intros _. reflexivity. }
  assert (NO : ~ override_on pe) by (intros X; apply OV in X; discriminate).
  unfold check_netns, in_own_namespace. destruct (pe_ns_at pe (pe_getenv pe "CNI_NETNS")) as [n|].
  - destruct (pe_own_ns pe) as [own|].
    + destruct (N.eqb_spec own n) as [->|D].
      * split; [|intros X; destruct X; split; [exact NO|eauto]]. intros _. cbn [so_err]. eauto.
      * split; [intros (_ & m & E & [X|X]); [discriminate|congruence]|]. intros _. reflexivity.
    + split; [|intros X; destruct X; split; [exact NO|eauto]]. intros _. cbn [so_err]. eauto.
  - split; [intros (_ & m & E & _); discriminate|]. intros _. reflexivity.
Qed.

(** *** Examples *)
Definition ex_info : plugin_info := {| pi_version := "1.1.0"; pi_supported := ["0.3.1"; "0.4.0"; "1.0.0"] |}.
Definition ex_data : string := Eval vm_compute in print (JObj [("cniVersion", JStr "0.4.0"); ("name", JStr "net1"); ("type", JStr "bridge")]).
Definition ex_vars (cmd netns : string) (v : string) : string :=
  if String.eqb v "CNI_COMMAND" then cmd else if String.eqb v "CNI_CONTAINERID" then "c-1" else
  if String.eqb v "CNI_NETNS" then netns else if String.eqb v "CNI_IFNAME" then "eth0" else
  if String.eqb v "CNI_PATH" then "/opt/cni/bin" else if String.eqb v "CNI_ARGS" then "K=V" else "".
Definition ex_env (cmd netns : string) : plugin_env :=
  {| pe_getenv := ex_vars cmd netns; pe_stdin := Some ex_data;
     pe_ns_at := fun p => if String.eqb p "/ns/own" then Some 1%N else if String.eqb p "/ns/other" then Some 2%N else None; pe_own_ns := Some 1%N |}.
Definition ex_funcs : cni_funcs :=
  {| f_add := Some (fun a => ("{}", None)); f_del := Some (fun a => ("", None)); f_check := Some (fun a => ("", Some (ECNI 7 "gone" "")));
     f_gc := None; f_status := None |}.
Lemma ex_acceptable cmd netns : missing (ex_env cmd netns) = [] -> allowed_at cmd "0.4.0" -> acceptable_request (ex_env cmd netns) (pi_supported ex_info) ex_data.
Proof.
  intros M AL. split; [exact M|]. split; [intros _; split; [apply validate_container_id_ok|apply validate_interface_name_ok]; reflexivity|]. split; [reflexivity|]. split.
  - exists "net1". split; [apply dec_name_iff; [discriminate|vm_compute; reflexivity]|apply validate_network_name_ok; reflexivity].
  - exists "0.4.0". split; [apply C40_conf_version_exact; [vm_compute; discriminate|vm_compute; reflexivity]|]. split; [right; now left|exact AL].
Qed.
Example C43_nonvacuous : missing (ex_env "ADD" "") = ["CNI_NETNS"] /\ given_names_valid (ex_env "ADD" "").
Proof. split; [reflexivity|]. apply bad_names_given. reflexivity. Qed.
Example C44_errors_nonvacuous :
  carries (EWrap "x" (EJoin [EMsg "a"; ECNI 7 "m" "d"; ECNI 8 "n" ""])) 7 "m" "d" /\
  carries_none (EJoin [EMsg "a"; EWrap "p" (EMsg "b")]).
Proof.
  split; [|apply as_cni_none; reflexivity]. apply carries_wrapped. apply (carries_joined [EMsg "a"]); [|constructor].
  intros x c m d [<-|[]] H. inversion H.
Qed.
Example C44_nonvacuous : exists a, arguments (ex_env "CHECK" "/ns/other") ex_data a /\
  acceptable_request (ex_env "CHECK" "/ns/other") (pi_supported ex_info) ex_data /\
  so_calls (plugin_main (ex_env "CHECK" "/ns/other") ex_funcs ex_info "") = [("CHECK", a)] /\
  so_err (plugin_main (ex_env "CHECK" "/ns/other") ex_funcs ex_info "") = Some {| e_code := 7; e_msg := "gone"; e_details := "" |}.
Proof.
  assert (A : acceptable_request (ex_env "CHECK" "/ns/other") (pi_supported ex_info) ex_data).
  { apply ex_acceptable; [reflexivity|]. right. left. split; [reflexivity|]. exists (0, 4, 0)%Z. split; [exact means_040|]. now right. }
  eexists. split; [apply arguments_iff; reflexivity|]. split; [exact A|]. split; vm_compute; reflexivity.
Qed.
(** GC is refused at 0.4.0. *)
Example C44_refused_nonvacuous : so_calls (plugin_main (ex_env "GC" "/ns/other") ex_funcs ex_info "") = [] /\
  option_map e_code (so_err (plugin_main (ex_env "GC" "/ns/other") ex_funcs ex_info "")) = Some 1%N.
Proof. split; vm_compute; reflexivity. Qed.
Example C45_nonvacuous : command (ex_env "VERSION" "") = "VERSION" /\ plugin_supports ["0.4.0"; "1.0.0"] <> None.
Proof. split; [reflexivity|discriminate]. Qed.
(** The function has run and printed a result, yet the answer is error 8. *)
Example C46_nonvacuous : in_own_namespace (ex_env "ADD" "/ns/own") /\ ~ override_on (ex_env "ADD" "/ns/own") /\
  acceptable_request (ex_env "ADD" "/ns/own") (pi_supported ex_info) ex_data /\
  option_map e_code (so_err (plugin_main (ex_env "ADD" "/ns/own") ex_funcs ex_info "")) = Some 8%N /\
  so_stdout (plugin_main (ex_env "ADD" "/ns/own") ex_funcs ex_info "") = "{}" /\
  so_err (plugin_main (ex_env "ADD" "/ns/other") ex_funcs ex_info "") = None.
Proof.
  split; [exists 1%N; split; [reflexivity|now right]|]. split; [intros [H|H]; discriminate|].
  split; [apply ex_acceptable; [reflexivity|left; now left]|]. repeat split; vm_compute; reflexivity.
Qed.
Print Assumptions C43_missing_variables.
Print Assumptions C44_called_only_if.
Print Assumptions C44_called_if.
Print Assumptions C45_version_answers.
Print Assumptions C46_own_namespace.
