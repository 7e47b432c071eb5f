(** C74: the debug plugin records what it is asked and passes results on unchanged. *)
From Coq Require Import String Ascii List Arith ZArith NArith Bool Lia.
From Verif Require Import Model.GoStr Model.Errors Model.Version Model.Validate Model.Json Model.Num Model.GoJson Model.NetIP Model.Types Model.GetResult Model.Conf Model.Args Model.Invoke Model.Prog Model.Api Model.Skel Model.Debug
  Spec.VersionSpec Spec.NameSpec Spec.JsonSpec Spec.ConfSpec Spec.EnvSpec Spec.RunSpec Spec.CacheSpec Spec.HistSpec Spec.MapSpec Spec.InvokeSpec Spec.SkelSpec Spec.TypesSpec Spec.LiveSpec Spec.FormSpec Spec.DebugSpec
  Proofs.StrP Proofs.Utf8P Proofs.VersionP Proofs.ValidateP Proofs.JsonRT Proofs.GoJsonP Proofs.NumP Proofs.ConfP Proofs.BuildP Proofs.LoadP Proofs.EnvP Proofs.ProgP Proofs.ApiP Proofs.VerbP Proofs.InvokeP Proofs.SkelP Proofs.TypesP Proofs.ConvP Proofs.PanicP Proofs.DecodeP Proofs.HistP Proofs.LiveP
  Properties.P_Conf Properties.P_Api Properties.P_Invoke Properties.P_Skel Properties.P_Types Properties.P_Prev Properties.P_E2E Properties.P_Cache Properties.P_Live Properties.P_Form Properties.P_Chain.
Import ListNotations.
Open Scope nat_scope.
Open Scope string_scope.

(** *** Decoding its configuration *)
Lemma debug_step_defined c k v : defined (debug_conf_step c k v) <-> (fields_ok debug_fields k v /\ fields_ok plugin_fields k v).
Proof.
  unfold debug_conf_step.
  assert (DJ : forall f, In f ["cniOutput"; "addHooks"; "delHooks"; "checkHooks"] -> key_is f k = true -> fields_ok plugin_fields k v).
  { intros f I K g P J KG. exfalso. rewrite (key_is_excl f g k) in KG; [discriminate| |exact K].
    cbn [In plugin_fields] in I, J. repeat (destruct I as [<-|I]; [repeat (destruct J as [J|J]; [injection J as <- <-; discriminate|]); destruct J|]). destruct I. }
  unfold debug_fields. rewrite fields_cons by distinct_fields.
  destruct (key_is "cniOutput" k) eqn:K1; [rewrite defined_map, dec_string_defined; split; [intros H; split; [exact H|apply (DJ "cniOutput"); [cbn; tauto|exact K1]]|tauto]|].
  assert (HD : forall j, defined (dec_hooks j) <-> list_or_null (list_or_null text_or_null) j).
  { intros j. unfold dec_hooks. apply dec_list_defined. intros i. apply dec_list_defined. intros x. apply dec_string_defined. }
  rewrite fields_cons by distinct_fields. destruct (key_is "addHooks" k) eqn:K2; [rewrite defined_map, HD; split; [intros H; split; [exact H|apply (DJ "addHooks"); [cbn; tauto|exact K2]]|tauto]|].
  rewrite fields_cons by distinct_fields. destruct (key_is "delHooks" k) eqn:K3; [rewrite defined_map, HD; split; [intros H; split; [exact H|apply (DJ "delHooks"); [cbn; tauto|exact K3]]|tauto]|].
  rewrite fields_cons by distinct_fields. destruct (key_is "checkHooks" k) eqn:K4; [rewrite defined_map, HD; split; [intros H; split; [exact H|apply (DJ "checkHooks"); [cbn; tauto|exact K4]]|tauto]|].
  rewrite fields_nil, defined_map, step_defined. tauto.
Qed.
Lemma debug_readable data : defined (parse_debug_conf data) <-> exists o, debug_document data o.
Proof.
  unfold parse_debug_conf, debug_document. destruct (parse data) as [j|]; [|split; [intros [x X]; discriminate|intros (o & X & _); discriminate]].
  destruct j as [| | | | |o]; try (split; [intros [x X]; discriminate|intros (o & X & _); discriminate]).
  unfold decode_struct. rewrite (decode_members_defined _ (fun k v => fields_ok debug_fields k v /\ fields_ok plugin_fields k v)) by (intros; apply debug_step_defined).
  split; [intros H; exists o; auto|]. intros (o' & E & H). injection E as ->. exact H.
Qed.
(** The embedded part is what any plugin reads. *)
Lemma debug_embedded o : forall c c', decode_members debug_conf_step c o = Some c' -> decode_members plugin_conf_step (dc_conf c) o = Some (dc_conf c').
Proof.
  induction o as [|[k v] o IH]; intros c c' H; [injection H as <-; reflexivity|].
  rewrite decode_members_cons in H. rewrite decode_members_cons. destruct (debug_conf_step c k v) as [b|] eqn:E; [|discriminate].
  assert (S : plugin_conf_step (dc_conf c) k v = Some (dc_conf b)).
  { assert (DJ : forall f, In f ["cniOutput"; "addHooks"; "delHooks"; "checkHooks"] -> key_is f k = true -> plugin_conf_step (dc_conf c) k v = Some (dc_conf c)).
    { intros f I K. unfold plugin_conf_step.
      cbn [In] in I. repeat (destruct I as [<-|I]; [match type of K with key_is ?f _ = _ =>
        rewrite (key_is_excl f "cniVersion" k), (key_is_excl f "name" k), (key_is_excl f "type" k), (key_is_excl f "capabilities" k),
          (key_is_excl f "ipam" k), (key_is_excl f "dns" k), (key_is_excl f "prevResult" k), (key_is_excl f "cni.dev/valid-attachments" k) by (discriminate || exact K); reflexivity end|]). destruct I. }
    unfold debug_conf_step in E.
    destruct (key_is "cniOutput" k) eqn:K1; [rewrite (DJ "cniOutput") by (cbn; tauto); destruct (dec_string (dc_output c) v); [|discriminate]; now injection E as <-|].
    destruct (key_is "addHooks" k) eqn:K2; [rewrite (DJ "addHooks") by (cbn; tauto); destruct (dec_hooks v); [|discriminate]; now injection E as <-|].
    destruct (key_is "delHooks" k) eqn:K3; [rewrite (DJ "delHooks") by (cbn; tauto); destruct (dec_hooks v); [|discriminate]; now injection E as <-|].
    destruct (key_is "checkHooks" k) eqn:K4; [rewrite (DJ "checkHooks") by (cbn; tauto); destruct (dec_hooks v); [|discriminate]; now injection E as <-|].
    destruct (plugin_conf_step (dc_conf c) k v); [|discriminate]. now injection E as <-. }
  rewrite S. now apply IH.
Qed.
Lemma dec_hooks_texts v hs : dec_hooks v = Some hs -> hs = match v with JArr l => map (fun h => texts_of (Some h)) l | _ => [] end.
Proof.
  unfold dec_hooks, dec_list at 1. destruct v as [| | | |xs|]; try discriminate; [now injection 1 as <-|].
  revert hs. induction xs as [|x xs IH]; intros hs H; cbn [dec_all] in H; [now injection H as <-|].
  destruct (dec_list (dec_string "") x) as [s|] eqn:E; [|discriminate]. destruct (dec_all (dec_list (dec_string "")) xs) as [l'|]; [|discriminate].
  injection H as <-. cbn [map]. rewrite <- (IH l' eq_refl). f_equal. exact (dec_strs_texts _ _ E).
Qed.
(** The fields of the decoded configuration are those the document says. *)
Definition hooks_for (cmd : string) (c : debug_conf) : list (list string) :=
  if String.eqb cmd "ADD" then dc_add c else if String.eqb cmd "DEL" then dc_del c else dc_check c.
Ltac dstep X := repeat match type of X with
  | (if ?b then _ else _) = Some _ => destruct b eqn:?
  | option_map _ ?o = Some _ => destruct o eqn:?; [injection X as <-|discriminate X]
  end.
Lemma debug_fields_read o c : decode_members debug_conf_step debug_conf_zero o = Some c ->
  log_file o (dc_output c) /\ forall cmd, hooks_for cmd c = hooks_in o cmd.
Proof.
  intros H. split.
  - destruct (decode_says debug_conf_step dc_output "cniOutput") with (l := o) (a := debug_conf_zero) (a' := c) as [S|[E N]]; [| |exact H| |].
    + intros a k v a' X K. unfold debug_conf_step in X. rewrite K in X. destruct (dec_string (dc_output a) v); [|discriminate]. now injection X as <-.
    + intros a k v a' X K. unfold debug_conf_step in X. rewrite K in X. dstep X; reflexivity.
    + now left.
    + right. split; [exact E|exact N].
  - assert (G : forall f key, In (f, key) [(dc_add, "addHooks"); (dc_del, "delHooks"); (dc_check, "checkHooks")] ->
      f c = match last_match key o with Some (JArr l) => map (fun h => texts_of (Some h)) l | _ => [] end).
    { intros f key I. pose proof (decode_last debug_conf_step f dec_hooks key) as L. specialize L with (3 := H).
      assert (A : forall a k v a', debug_conf_step a k v = Some a' -> key_is key k = true -> dec_hooks v = Some (f a')).
      { intros a k v a' X K. unfold debug_conf_step in X. rewrite (key_is_excl key "cniOutput" k) in X; [| |exact K].
        - cbn [In] in I. destruct I as [I|[I|[I|[]]]]; injection I as <- <-.
          + rewrite K in X. dstep X; reflexivity.
          + rewrite (key_is_excl "delHooks" "addHooks" k), K in X by (discriminate || exact K). dstep X; reflexivity.
          + rewrite (key_is_excl "checkHooks" "addHooks" k), (key_is_excl "checkHooks" "delHooks" k), K in X by (discriminate || exact K). dstep X; reflexivity.
        - cbn [In] in I. destruct I as [I|[I|[I|[]]]]; injection I as <- <-; discriminate. }
      assert (B : forall a k v a', debug_conf_step a k v = Some a' -> key_is key k = false -> f a' = f a).
      { intros a k v a' X K. unfold debug_conf_step in X. cbn [In] in I. destruct I as [I|[I|[I|[]]]]; injection I as <- <-; rewrite K in X; dstep X; reflexivity. }
      specialize (L A B). destruct (last_match key o) as [v|].
      - apply dec_hooks_texts in L. rewrite L. now destruct v.
      - rewrite L. cbn [In] in I. destruct I as [I|[I|[I|[]]]]; injection I as <- <-; reflexivity. }
    intros cmd. unfold hooks_for, hooks_in, hook_key.
    destruct (String.eqb cmd "ADD"); [apply G; now left|]. destruct (String.eqb cmd "DEL"); apply G; [right; now left|right; right; now left].
Qed.
Lemma debug_reads data o : debug_document data o -> exists c, parse_debug_conf data = Some c /\ unmarshal_plugin_conf data = Some (dc_conf c) /\
  log_file o (dc_output c) /\ forall cmd, hooks_for cmd c = hooks_in o cmd.
Proof.
  intros D. destruct (proj2 (debug_readable data) (ex_intro _ o D)) as [c C]. exists c. split; [exact C|]. destruct D as [P _].
  unfold parse_debug_conf in C. rewrite P in C. cbn [decode_struct] in C. unfold unmarshal_plugin_conf. rewrite P. unfold dec_plugin_conf, decode_struct.
  split; [exact (debug_embedded _ _ _ C)|]. now apply debug_fields_read.
Qed.
Lemma log_file_fun o p q : log_file o p -> log_file o q -> p = q.
Proof.
  assert (X : forall v, says "cniOutput" o v -> (forall k v, In (k, v) o -> key_is "cniOutput" k = true -> v = JNull) -> False).
  { intros v (l1 & k & l2 & -> & K & _) A. specialize (A k (JStr v)). assert (JStr v = JNull) by (apply A; [apply in_or_app; right; now left|exact K]). discriminate. }
  intros [S|[-> A]] [T|[-> B]]; [eapply says_fun; eassumption|destruct (X _ S B)|destruct (X _ T A)|reflexivity].
Qed.

(** *** What it does *)
Definition run_hook (netns : string) (h : list string) : debug_effect := DHook netns (hd "" h) (tl h).
Lemma run_hooks_spec n hs : exists before rest, hs = (before ++ rest)%list /\ fst (run_hooks n hs) = map (run_hook n) before /\
  ((rest = [] /\ ~ In [] hs /\ snd (run_hooks n hs) = Ok tt) \/ (exists rest', rest = [] :: rest' /\ snd (run_hooks n hs) = Panic)).
Proof.
  induction hs as [|[|w ws] hs (before & rest & E & F & S)].
  - exists [], []. split; [reflexivity|]. split; [reflexivity|]. left. split; [reflexivity|]. split; [intros []|reflexivity].
  - exists [], ([] :: hs). split; [reflexivity|]. split; [reflexivity|]. right. exists hs. split; reflexivity.
  - exists ((w :: ws) :: before), rest. cbn [run_hooks]. destruct (run_hooks n hs) as [es r]. cbn [fst snd] in *. split; [now rewrite E|]. split; [cbn [map]; now rewrite F|].
    destruct S as [(A & B & C)|S]; [left|right; exact S]. split; [exact A|]. split; [|exact C]. intros [X|X]; [discriminate|contradiction].
Qed.
Lemma call_run cmd de : per_attachment cmd -> exists result_of,
  (forall a, debug_call de cmd a = debug_run de (if String.eqb cmd "ADD" then "CmdAdd" else if String.eqb cmd "DEL" then "CmdDel" else "CmdCheck") (hooks_for cmd) result_of a) /\
  (cmd = "ADD" -> result_of = debug_get_result) /\ (cmd <> "ADD" -> result_of = fun _ => Ok empty_result).
Proof.
  intros [->|[->| ->]].
  - exists debug_get_result. split; [reflexivity|]. split; [reflexivity|]. intros N. now destruct N.
  - exists (fun _ => Ok empty_result). split; [reflexivity|]. split; [discriminate|reflexivity].
  - exists (fun _ => Ok empty_result). split; [reflexivity|]. split; [discriminate|reflexivity].
Qed.
(** Asked with a configuration it can read, the plugin appends one record to the log file, if one is
    configured and can be opened, and then runs the command's hooks in order in the container's
    namespace, if that can be opened (stopping at an empty one). *)
Theorem C74_does : forall de cmd a o p, per_attachment cmd -> debug_document (ca_stdin a) o -> log_file o p ->
  exists log run, fst (debug_call de cmd a) = (log ++ map (run_hook (ca_netns a)) run)%list /\
    (p <> "" -> de_open de p = true -> log = [DLog p (title cmd); DLog p (block a)]) /\
    (p = "" \/ de_open de p = false -> log = []) /\
    (de_netns de (ca_netns a) = true -> (~ In [] (hooks_in o cmd) /\ run = hooks_in o cmd) \/ (exists rest, hooks_in o cmd = (run ++ [] :: rest)%list)) /\
    (de_netns de (ca_netns a) = false -> run = []).
Proof.
  intros de cmd a o p PA D LF. destruct (call_run cmd de PA) as (ro & E & _). rewrite E. clear E.
  destruct (debug_reads _ _ D) as (c & C & _ & LF' & HK). unfold debug_run. rewrite C, HK. assert (dc_output c = p) by (eapply log_file_fun; eassumption). clear LF LF'. subst p.
  assert (B : output_cmd_args a = block a).
  { unfold output_cmd_args, block, line, newline. cbn [String.concat]. rewrite <- !append_assoc. reflexivity. }
  assert (T : (if String.eqb cmd "ADD" then "CmdAdd" else if String.eqb cmd "DEL" then "CmdDel" else "CmdCheck") ++ newline = title cmd) by reflexivity.
  unfold execute_hooks. destruct (de_netns de (ca_netns a)).
  - destruct (run_hooks_spec (ca_netns a) (hooks_in o cmd)) as (before & rest & E & F & S). destruct (run_hooks (ca_netns a) (hooks_in o cmd)) as [es r]. cbn [fst snd] in *.
    exists (debug_log de c (if String.eqb cmd "ADD" then "CmdAdd" else if String.eqb cmd "DEL" then "CmdDel" else "CmdCheck") a), before. split; [now rewrite F|].
    unfold debug_log. rewrite T, B. split; [intros N ->; destruct (String.eqb_spec (dc_output c) ""); [contradiction|reflexivity]|].
    split; [intros [->| ->]; [reflexivity|destruct (String.eqb (dc_output c) ""); reflexivity]|]. split; [|discriminate]. intros _.
    destruct S as [(-> & N & _)|(rest' & -> & _)]; [left|right; now exists rest']. rewrite app_nil_r in E. split; [exact N|now rewrite <- E].
  - exists (debug_log de c (if String.eqb cmd "ADD" then "CmdAdd" else if String.eqb cmd "DEL" then "CmdDel" else "CmdCheck") a), []. split; [reflexivity|].
    unfold debug_log. rewrite T, B. split; [intros N ->; destruct (String.eqb_spec (dc_output c) ""); [contradiction|reflexivity]|].
    split; [intros [->| ->]; [reflexivity|destruct (String.eqb (dc_output c) ""); reflexivity]|]. split; [discriminate|reflexivity].
Qed.
(** A configuration it cannot read has no effect but a crash. *)
Theorem C74_unreadable : forall de cmd a, per_attachment cmd -> (forall o, ~ debug_document (ca_stdin a) o) -> debug_call de cmd a = ([], Panic).
Proof.
  intros de cmd a PA N. destruct (call_run cmd de PA) as (ro & E & _). rewrite E. unfold debug_run.
  destruct (parse_debug_conf (ca_stdin a)) as [c|] eqn:P; [|reflexivity]. destruct (proj1 (debug_readable (ca_stdin a)) (ex_intro _ c P)) as [o D]. now destruct (N o).
Qed.

(** *** The log over a history *)
Definition pieces (p : string) (es : list debug_effect) : list string :=
  flat_map (fun e => match e with DLog q t => if String.eqb q p then [t] else [] | DHook _ _ _ => [] end) es.
Lemma concat_nil_app (l : list string) : forall m, String.concat "" (l ++ m)%list = String.concat "" l ++ String.concat "" m.
Proof.
  induction l as [|x [|y l] IH]; intros m; [reflexivity|destruct m as [|z m]; cbn [app String.concat]; [now rewrite append_nil_r|reflexivity]|].
  change ((x :: y :: l) ++ m)%list with (x :: (y :: l) ++ m)%list. change (String.concat "" (x :: (y :: l) ++ m)%list) with (x ++ "" ++ String.concat "" ((y :: l) ++ m)%list).
  rewrite IH. change (String.concat "" (x :: y :: l)) with (x ++ "" ++ String.concat "" (y :: l)). now rewrite !append_assoc.
Qed.
Lemma after_pieces p es : forall files, contents (files_after files es) p = contents files p ++ String.concat "" (pieces p es).
Proof.
  induction es as [|[q t|n c l] es IH]; intros files; cbn [files_after pieces flat_map]; [now rewrite append_nil_r| |apply IH].
  rewrite IH. fold (pieces p es). unfold contents at 1. destruct (String.eqb_spec q p) as [->|N].
  - rewrite sget_sset_same. unfold contents. change ([t] ++ pieces p es)%list with (t :: pieces p es).
    replace (String.concat "" (t :: pieces p es)) with (t ++ String.concat "" (pieces p es)); [now rewrite append_assoc|].
    change (t :: pieces p es) with ([t] ++ pieces p es)%list. now rewrite concat_nil_app.
  - rewrite sget_sset_other by congruence. reflexivity.
Qed.
Lemma hook_pieces p n l : pieces p (map (run_hook n) l) = [].
Proof. induction l as [|h l IH]; [reflexivity|exact IH]. Qed.
(** Requests one after the other: the log file gets their records, whole and in order, after whatever
    it held. *)
Definition logs_to (p : string) (x : debug_env * string * cmd_args) : Prop := let '(de, cmd, a) := x in
  per_attachment cmd /\ (exists o, debug_document (ca_stdin a) o /\ log_file o p) /\ de_open de p = true.
Theorem C74_log : forall p reqs files, p <> "" -> Forall (logs_to p) reqs ->
  contents (files_after files (flat_map (fun '(de, cmd, a) => fst (debug_call de cmd a)) reqs)) p =
  contents files p ++ String.concat "" (map (fun '(_, cmd, a) => title cmd ++ block a) reqs).
Proof.
  intros p reqs files N F. rewrite after_pieces. f_equal. induction F as [|[[de cmd] a] reqs (PA & (o & D & LF) & OP) F IH]; [reflexivity|].
  cbn [flat_map map]. unfold pieces. rewrite flat_map_app. fold (pieces p (fst (debug_call de cmd a))) (pieces p (flat_map (fun '(de0, cmd0, a0) => fst (debug_call de0 cmd0 a0)) reqs)).
  rewrite concat_nil_app, IH. match goal with |- _ = String.concat "" (?x :: ?l) => change (x :: l) with ([x] ++ l)%list end. rewrite concat_nil_app. f_equal.
  destruct (C74_does de cmd a o p PA D LF) as (log & run & E & L & _). rewrite E, (L N OP). unfold pieces. rewrite flat_map_app.
  fold (pieces p (map (run_hook (ca_netns a)) run)). rewrite hook_pieces, app_nil_r. cbn [flat_map]. rewrite String.eqb_refl. reflexivity.
Qed.
(** However the appends of concurrent requests (and of anything else) are interleaved, each block
    ends up in the file in one piece. *)
Theorem C74_log_in_one_piece : forall p de cmd a es files, p <> "" -> logs_to p (de, cmd, a) ->
  (forall e, In e (fst (debug_call de cmd a)) -> In e es) ->
  exists s1 s2, contents (files_after files es) p = s1 ++ block a ++ s2.
Proof.
  intros p de cmd a es files N (PA & (o & D & LF) & OP) I. destruct (C74_does de cmd a o p PA D LF) as (log & run & E & L & _). specialize (L N OP).
  assert (J : In (DLog p (block a)) es) by (apply I; rewrite E, L; right; now left). apply in_split in J as (e1 & e2 & ->).
  rewrite after_pieces. unfold pieces. rewrite flat_map_app. cbn [flat_map]. rewrite String.eqb_refl, !concat_nil_app. cbn [String.concat].
  match goal with |- exists s1 s2, ?x ++ ?y ++ ?z ++ ?t = _ => exists (x ++ y), t; rewrite !append_assoc end. reflexivity.
Qed.

(** *** What it answers *)
Lemma empty_prints v : In v ["0.3.0"; "0.3.1"; "0.4.0"; "1.0.0"; "1.1.0"] -> exists text r, print_result empty_result v = Ok text /\
  create_from_bytes text = Ok r /\ result_version r = v /\ addresses r = [] /\ routes_of r = [] /\ dns_of r = dns_zero.
Proof. intros I. cbn [In] in I. repeat (destruct I as [<-|I]; [eexists _, _; split; [vm_compute; reflexivity|split; [vm_compute; reflexivity|repeat split]]|]). destruct I. Qed.
Lemma empty_old v : old_version v -> exists e, print_result empty_result v = Err e.
Proof. intros [->| ->]; eexists; vm_compute; reflexivity. Qed.
Lemma read_version data c v : unmarshal_plugin_conf data = Some c -> parse data <> Some JNull -> conf_version data v ->
  v = (if String.eqb (pc_version c) "" then "0.1.0" else pc_version c).
Proof.
  intros U NN (o & d & P & D & T & ->). unfold unmarshal_plugin_conf in U. rewrite P in U.
  assert (E : pc_version c = d); [|now rewrite E]. unfold dec_plugin_conf, decode_struct in U.
  destruct (decode_says plugin_conf_step pc_version "cniVersion") with (l := o) (a := plugin_conf_zero) (a' := c) as [S|[Z N]]; [| |exact U| |].
  - intros a k x a' X K. unfold plugin_conf_step in X. rewrite K in X. destruct (dec_string (pc_version a) x); [|discriminate]. now injection X as <-.
  - intros a k x a' X K. unfold plugin_conf_step in X. rewrite K in X. dstep X; reflexivity || (injection X as <-; reflexivity).
  - eapply declares_fun; [constructor; exact S|exact D].
  - eapply declares_fun; [|exact D]. rewrite Z. apply declares_none. exact N.
Qed.
Lemma print_empty_version r v : print_result r v = print_result r (if String.eqb v "" then "0.1.0" else v).
Proof. destruct (String.eqb_spec v "") as [->|]; [|reflexivity]. unfold print_result. now rewrite (proj2 (C35_empty_versions r "")). Qed.
Definition no_empty_hook (de : debug_env) (o : list (string * json)) (cmd : string) (a : cmd_args) : Prop :=
  de_netns de (ca_netns a) = true -> ~ In [] (hooks_in o cmd).
Lemma debug_answer de cmd a o : per_attachment cmd -> debug_document (ca_stdin a) o -> exists result_of c,
  unmarshal_plugin_conf (ca_stdin a) = Some c /\ (cmd = "ADD" -> result_of = debug_get_result) /\ (cmd <> "ADD" -> result_of = fun _ => Ok empty_result) /\
  (no_empty_hook de o cmd a -> snd (debug_call de cmd a) = debug_print (result_of c) (pc_version c)) /\
  (~ no_empty_hook de o cmd a -> snd (debug_call de cmd a) = Panic).
Proof.
  intros PA D. destruct (call_run cmd de PA) as (ro & E & R1 & R2). destruct (debug_reads _ _ D) as (c & C & U & _ & HK).
  exists ro, (dc_conf c). split; [exact U|]. split; [exact R1|]. split; [exact R2|]. rewrite E. unfold debug_run. rewrite C, HK. unfold execute_hooks, no_empty_hook.
  destruct (de_netns de (ca_netns a)); [|split; [intros _; reflexivity|intros X; exfalso; apply X; discriminate]].
  destruct (run_hooks_spec (ca_netns a) (hooks_in o cmd)) as (b & rest & EH & F & S). destruct (run_hooks (ca_netns a) (hooks_in o cmd)) as [es r]. cbn [fst snd] in *.
  destruct S as [(-> & N & ->)|(rest' & -> & ->)]; split; intros X; try reflexivity.
  - exfalso. apply X. intros _. exact N.
  - exfalso. apply X; [reflexivity|]. rewrite EH. apply in_or_app. right. now left.
Qed.
(** DEL and CHECK answer with an empty result of the configuration's version from 0.3.0 on; with
    0.1.0 and 0.2.0, which cannot express an empty result, they fail. *)
Theorem C74_del_check : forall de cmd a o v, cmd = "DEL" \/ cmd = "CHECK" -> debug_document (ca_stdin a) o -> no_empty_hook de o cmd a ->
  conf_version (ca_stdin a) v ->
  (In v ["0.3.0"; "0.3.1"; "0.4.0"; "1.0.0"; "1.1.0"] -> exists text r, snd (debug_call de cmd a) = Ok (text, None) /\
     create_from_bytes text = Ok r /\ result_version r = v /\ addresses r = [] /\ routes_of r = [] /\ dns_of r = dns_zero) /\
  (old_version v -> exists e, snd (debug_call de cmd a) = Ok ("", Some e)).
Proof.
  intros de cmd a o v HC D NE CV. assert (PA : per_attachment cmd) by (unfold per_attachment; tauto).
  destruct (debug_answer de cmd a o PA D) as (ro & c & U & _ & R & A & _). rewrite (A NE), R by (destruct HC; subst cmd; discriminate). clear A R.
  assert (NN : parse (ca_stdin a) <> Some JNull) by (rewrite (proj1 D); discriminate).
  unfold debug_print. rewrite print_empty_version, <- (read_version _ _ _ U NN CV). split.
  - intros I. destruct (empty_prints v I) as (text & r & -> & H). exists text, r. split; [reflexivity|exact H].
  - intros O. destruct (empty_old v O) as [e ->]. now exists e.
Qed.
(** When they crash, exactly. *)
Theorem C74_del_check_crash : forall de cmd a, cmd = "DEL" \/ cmd = "CHECK" ->
  (snd (debug_call de cmd a) = Panic <->
   (forall o, ~ debug_document (ca_stdin a) o) \/
   (exists o, debug_document (ca_stdin a) o /\ de_netns de (ca_netns a) = true /\ In [] (hooks_in o cmd))).
Proof.
  intros de cmd a HC. assert (PA : per_attachment cmd) by (unfold per_attachment; tauto).
  destruct (parse_debug_conf (ca_stdin a)) as [dc|] eqn:P.
  - destruct (proj1 (debug_readable (ca_stdin a)) (ex_intro _ dc P)) as [o D].
    destruct (debug_answer de cmd a o PA D) as (ro & c & U & _ & R & A & B). rewrite R in A by (destruct HC; subst cmd; discriminate). split.
    + intros E. right. exists o. split; [exact D|]. destruct (de_netns de (ca_netns a)) eqn:N.
      * split; [reflexivity|]. destruct (in_dec (list_eq_dec string_dec) [] (hooks_in o cmd)) as [I|I]; [exact I|exfalso].
        rewrite A in E by (intros _; exact I). revert E. unfold debug_print.
        assert (NP : print_result empty_result (pc_version c) <> Panic).
        { intros X. unfold print_result in X. destruct (get_as_version empty_result (pc_version c)) as [y|e|] eqn:G; cbn [rbind] in X.
          - unfold result_print in X. destruct (enc_result y); discriminate X.
          - discriminate.
          - revert G. apply C38_no_panic; [|repeat split; intros []]. left. reflexivity. }
        destruct (print_result empty_result (pc_version c)); [discriminate|discriminate|contradiction].
      * exfalso. rewrite A in E by (intros X; congruence). revert E. unfold debug_print.
        assert (NP : print_result empty_result (pc_version c) <> Panic).
        { intros X. unfold print_result in X. destruct (get_as_version empty_result (pc_version c)) as [y|e|] eqn:G; cbn [rbind] in X.
          - unfold result_print in X. destruct (enc_result y); discriminate X.
          - discriminate.
          - revert G. apply C38_no_panic; [|repeat split; intros []]. left. reflexivity. }
        destruct (print_result empty_result (pc_version c)); [discriminate|discriminate|contradiction].
    + intros [X|(o' & D' & N & I)]; [destruct (X o D)|]. assert (o' = o) by (destruct D as [D _], D' as [D' _]; congruence). subst o'.
      apply B. intros X. exact (X N I).
  - assert (ND : forall o, ~ debug_document (ca_stdin a) o).
    { intros o D. destruct (proj2 (debug_readable (ca_stdin a)) (ex_intro _ o D)) as [x X]. congruence. }
    split; [intros _; left; exact ND|]. intros _. rewrite (C74_unreadable de cmd a PA ND). reflexivity.
Qed.

(** The same of ADD: it also crashes on a previous result it cannot read or cannot convert to its own type. *)
Lemma print_panics r v : print_result r v = Panic -> get_as_version r v = Panic.
Proof.
  unfold print_result. destruct (get_as_version r v) as [y|e|]; cbn [rbind]; [|discriminate|reflexivity].
  unfold result_print. destruct (enc_result y); discriminate.
Qed.
Lemma nrr100 r : right_version r -> new_result_from_result100 r = (let! x := get_as_version r "1.1.0" in match x with R100 y => Ok y | _ => Panic end).
Proof.
  intros V. unfold new_result_from_result100, get_as_version. destruct (String.eqb_spec (result_version r) "") as [E|_]; [destruct (right_nonempty _ V); contradiction|reflexivity].
Qed.
Lemma back_no_panic r v r' : right_version r -> In v (versions_of r) \/ v = "" /\ like020 r -> new_result_from_result100 r = Ok r' ->
  get_as_version (R100 r') v <> Panic.
Proof.
  intros V K H. rewrite (nrr100 r V) in H. assert (T : In "1.1.0" v10) by (cbn; tauto).
  destruct r as [r|r|r]; unfold right_version in V; cbn [versions_of result_version] in *.
  - rewrite (gv_020_100 r "1.1.0" V T) in H. cbn [rbind] in H. injection H as <-. apply C38_no_panic; [right; unfold right_version; cbn; tauto|].
    destruct (up020_complete "0.4.0" r) as (A & B & C). cbn [complete up040 v1_interfaces v1_ips v1_routes].
    split; [|split]; [intros X; apply in_map_iff in X as ([x|] & Y & Z); [discriminate|now apply A]|intros X; apply in_map_iff in X as ([x|] & Y & Z); [discriminate|now apply B]|exact C].
  - rewrite (gv_040_100 r "1.1.0" V T) in H. destruct K as [K|[_ K]]; [|destruct K].
    assert (N : ~ In None (v4_interfaces r) /\ ~ In None (v4_ips r)).
    { split; intros X; rewrite (proj2 (from04x_panics r "1.1.0")) in H by tauto; discriminate. }
    rewrite conv100_from04x_eq in H by apply N. cbn [rbind] in H. injection H as <-.
    rewrite gv_100_040; [|cbn; tauto|exact K]. rewrite to04x_panics. cbn [up040 v1_interfaces v1_ips].
    intros [X|X]; apply in_map_iff in X as ([x|] & Y & Z); try discriminate; now apply N.
  - rewrite (gv_100_100 r "1.1.0" V T) in H. cbn [rbind] in H. injection H as <-. destruct K as [K|[_ K]]; [|destruct K].
    rewrite gv_100_100; [discriminate|cbn; tauto|exact K].
Qed.
Lemma lands_100 r x : right_version r -> get_as_version r "1.1.0" = Ok x -> exists y, x = R100 y.
Proof.
  intros V H. assert (T : In "1.1.0" v10) by (cbn; tauto). destruct r as [r|r|r]; unfold right_version in V; cbn [versions_of result_version] in *.
  - rewrite (gv_020_100 r _ V T) in H. injection H as <-. eauto.
  - rewrite (gv_040_100 r _ V T) in H. unfold conv100_from04x in H. repeat (let E := fresh in destruct (map_deref _ _) eqn:E in H; cbn [rbind] in H; try discriminate H). injection H as <-. eauto.
  - rewrite (gv_100_100 r _ V T) in H. injection H as <-. eauto.
Qed.
Lemma empty_no_panic v : print_result empty_result v <> Panic.
Proof. intros X. revert X. intros X. apply print_panics in X. revert X. apply C38_no_panic; [|repeat split; intros []]. left. reflexivity. Qed.
(** The previous result in the configuration, converted to the plugin's own type. *)
Definition convertible (conf : plugin_conf) : Prop := exists r r', parse_prev_result conf = Ok (Some r) /\ get_as_version r "1.1.0" = Ok r'.
Theorem C74_add_crash : forall de a,
  (snd (debug_call de "ADD" a) = Panic <->
   (forall o, ~ debug_document (ca_stdin a) o) \/
   (exists o, debug_document (ca_stdin a) o /\ de_netns de (ca_netns a) = true /\ In [] (hooks_in o "ADD")) \/
   (exists o conf, debug_document (ca_stdin a) o /\ unmarshal_plugin_conf (ca_stdin a) = Some conf /\ pc_prev conf <> None /\ ~ convertible conf)).
Proof.
  intros de a. assert (PA : per_attachment "ADD") by (unfold per_attachment; tauto).
  destruct (parse_debug_conf (ca_stdin a)) as [dc|] eqn:P.
  2:{ assert (ND : forall o, ~ debug_document (ca_stdin a) o).
      { intros o D. destruct (proj2 (debug_readable (ca_stdin a)) (ex_intro _ o D)) as [x X]. congruence. }
      split; [intros _; left; exact ND|]. intros _. rewrite (C74_unreadable de "ADD" a PA ND). reflexivity. }
  destruct (proj1 (debug_readable (ca_stdin a)) (ex_intro _ dc P)) as [o D].
  destruct (debug_answer de "ADD" a o PA D) as (ro & c & U & R & _ & A & B). specialize (R eq_refl). subst ro.
  assert (DO : forall o', debug_document (ca_stdin a) o' -> o' = o) by (intros o' [D' _]; destruct D as [D _]; congruence).
  assert (HD : {no_empty_hook de o "ADD" a} + {~ no_empty_hook de o "ADD" a}).
  { unfold no_empty_hook. destruct (de_netns de (ca_netns a)); [|left; discriminate].
    destruct (in_dec (list_eq_dec string_dec) [] (hooks_in o "ADD")) as [X|X]; [right; intros Y; now apply Y|left; intros _; exact X]. }
  destruct HD as [NH|NH].
  2:{ split; [|intros _; now apply B]. intros _. right. left. exists o. split; [exact D|]. unfold no_empty_hook in NH.
      destruct (de_netns de (ca_netns a)); [|exfalso; apply NH; discriminate]. split; [reflexivity|].
      destruct (in_dec (list_eq_dec string_dec) [] (hooks_in o "ADD")) as [X|X]; [exact X|exfalso; apply NH; intros _; exact X]. }
  rewrite (A NH). assert (Z : debug_print (debug_get_result c) (pc_version c) = Panic <-> pc_prev c <> None /\ ~ convertible c).
  { unfold debug_get_result, convertible. destruct (pc_prev c) as [m|] eqn:PC.
    2:{ split; [|intros [X _]; now destruct X]. unfold debug_print. pose proof (empty_no_panic (pc_version c)) as N. destruct (print_result empty_result (pc_version c)); [discriminate|discriminate|contradiction]. }
    destruct (parse_prev_result c) as [[r|]|e|] eqn:E; try (split; [intros _; split; [discriminate|intros (r0 & r' & X & _); discriminate X]|reflexivity]).
    assert (CR : exists text, create (pc_version c) text = Ok r).
    { unfold parse_prev_result in E. rewrite PC in E. cbv zeta in E. match type of E with context [create _ ?t] => exists t; destruct (create (pc_version c) t) as [x|x|] end; cbn in E; congruence. }
    destruct CR as [text CR]. destruct (create_inv _ _ _ CR) as (_ & _ & _ & V & _ & K).
    destruct (new_result_from_result100 r) as [r'|e'|] eqn:NR.
    - split.
      + unfold debug_print. pose proof (back_no_panic r (pc_version c) r' V K NR) as N. intros X. exfalso. apply N. apply print_panics. destruct (print_result (R100 r') (pc_version c)); [discriminate|discriminate|reflexivity].
      + intros [_ X]. exfalso. apply X. rewrite (nrr100 r V) in NR. destruct (get_as_version r "1.1.0") as [x|x|] eqn:G; try discriminate. exists r, x. auto.
    - split; [|reflexivity]. intros _. split; [discriminate|]. intros (r0 & r' & X & G). injection X as <-. rewrite (nrr100 r V), G in NR. destruct (lands_100 _ _ V G) as [y ->]. discriminate.
    - split; [|reflexivity]. intros _. split; [discriminate|]. intros (r0 & r' & X & G). injection X as <-. rewrite (nrr100 r V), G in NR. destruct (lands_100 _ _ V G) as [y ->]. discriminate. }
  rewrite Z. split.
  - intros X. right. right. exists o, c. tauto.
  - intros [X|[(o' & D' & N & I)|(o' & conf & D' & U' & X)]]; [destruct (X o D)| |].
    + exfalso. rewrite (DO o' D') in I. now apply NH.
    + congruence.
Qed.

(** *** In a chain *)
(** Its work: the previous result in the 1.1.0 type; a result of no version where that fails (the plugin
    crashes there, see below). *)
Definition debug_work : work := fun prev => match prev with
  | None => empty_result
  | Some r => match new_result_from_result100 r with
    | Ok r' => R100 r'
    | _ => R100 {| v1_version := "none"; v1_interfaces := []; v1_ips := []; v1_routes := []; v1_dns := dns_zero |}
    end
  end.
Lemma none_unprintable v : v <> "none" -> v <> "" -> forall r, v1_version r = "none" -> exists e, print_result (R100 r) v = Err e.
Proof.
  intros N NE r E.
  assert (F : find_converter converters "none" v = None) by (cbn [find_converter converters c_from c_tos]; repeat match goal with |- context [mem_str v ?l] => destruct (mem_str v l) end; reflexivity).
  assert (C : forall f, exists e, convert_fuel (S f) (R100 r) v = Err e).
  { intros f. cbn [convert_fuel]. cbv zeta. destruct (String.eqb_spec v ""); [contradiction|]. cbn [result_version]. rewrite E. destruct (String.eqb_spec "none" v); [congruence|]. rewrite F. eauto. }
  unfold print_result, get_as_version, convert. cbn [result_version]. rewrite E. change (String.eqb "none" "") with false. cbv iota zeta.
  match goal with |- context [convert_fuel (S ?f) _ _] => destruct (C f) as [e ->] | |- context [convert_fuel ?f _ _] => destruct (C (pred f)) as [e X]; cbn [pred] in X; rewrite X end. cbn [rbind]. eauto.
Qed.
Lemma survives_trip r : right_version r -> survives r -> exists r', new_result_from_result100 r = Ok r' /\ get_as_version (R100 r') (result_version r) = Ok r.
Proof.
  intros V S.
  assert (K : exists r1, get_as_version r "1.1.0" = Ok r1 /\ get_as_version r1 (result_version r) = Ok r /\ exists r', r1 = R100 r').
  { destruct r as [r|r|r].
    - destruct S as [N F]. assert (OR : own_routes "4" (v2_ip4 r) /\ own_routes "6" (v2_ip6 r) /\ own_address "4" (v2_ip4 r) /\ own_address "6" (v2_ip6 r)).
      { split; [|split; [|split]]; [unfold own_routes; destruct (v2_ip4 r) as [c|] eqn:E|unfold own_routes; destruct (v2_ip6 r) as [c|] eqn:E|unfold own_address; destruct (v2_ip4 r) as [c|] eqn:E|unfold own_address; destruct (v2_ip6 r) as [c|] eqn:E]; try exact I.
        - exact (proj2 (F "4" c (or_introl (conj eq_refl eq_refl)))).
        - exact (proj2 (F "6" c (or_intror (conj eq_refl eq_refl)))).
        - exact (proj1 (F "4" c (or_introl (conj eq_refl eq_refl)))).
        - exact (proj1 (F "6" c (or_intror (conj eq_refl eq_refl)))). }
      destruct OR as (O4 & O6 & A4 & A6).
      destruct (C36_old_up_then_down r "1.1.0" V) as (r1 & G & RV & B); [cbn; tauto|exact N|exact O4|exact O6|intros _; split; assumption|].
      exists r1. split; [exact G|]. split; [exact B|].
      destruct (proj2 (C35_reaches_every_version (R020 r) "1.1.0" V I ltac:(cbn; tauto))) as (r2 & G2 & _ & RV2); [intros ([X|X] & _); discriminate|].
      assert (r2 = r1) by congruence. subst r2. unfold right_version in RV2. rewrite RV in RV2. destruct r1 as [x|x|x]; [| |now exists x]; cbn [versions_of In] in RV2; intuition discriminate.
    - destruct S as [C F]. destruct (C36_up_then_down r "1.1.0" V C F (or_intror eq_refl)) as (r1 & G & RV & B). exists r1. split; [exact G|]. split; [exact B|].
      destruct (proj2 (C35_reaches_every_version (R040 r) "1.1.0" V C ltac:(cbn; tauto))) as (r2 & G2 & _ & RV2); [intros ([X|X] & _); discriminate|].
      assert (r2 = r1) by congruence. subst r2. unfold right_version in RV2. rewrite RV in RV2. destruct r1 as [x|x|x]; [| |now exists x]; cbn [versions_of In] in RV2; intuition discriminate.
    - exists (set_version "1.1.0" (R100 r)). split; [apply C36_same_type; [exact V|cbn; tauto]|]. split; [|cbn [set_version]; eauto].
      rewrite (C36_same_type (set_version "1.1.0" (R100 r)) (result_version (R100 r))); [destruct r; reflexivity|cbn; tauto|exact V]. }
  destruct K as (r1 & G & B & r' & ->). exists r'. split; [|exact B]. unfold new_result_from_result100. unfold get_as_version in G.
  destruct (String.eqb_spec (result_version r) "") as [E|_]; [destruct (right_nonempty _ V); contradiction|]. cbv iota zeta in G. rewrite G. reflexivity.
Qed.
(** Executions of the debug plugin: built on skel with [debug_call] as its functions, where those do not crash. *)
Definition debug_info : plugin_info := {| pi_version := "1.1.0"; pi_supported := all_versions |}.
Definition debug_ran (de : debug_env) (x : call) : Prop := exists pe funcs about,
  started_by x pe /\ answered_by x pe funcs debug_info about /\
  (forall cmd, per_attachment cmd -> exists f, function_for funcs cmd = Some f /\ forall a out e, snd (debug_call de cmd a) = Ok (out, e) -> f a = (out, e)) /\
  ~ (~ override_on pe /\ in_own_namespace pe).
(** Its configuration: well-typed, and every hook names a command. *)
Definition debug_config (net : plugin_config) : Prop := exists o, debug_document (pg_bytes net) o /\
  forall k v, In (k, v) o -> key_is "addHooks" k = true \/ key_is "delHooks" k = true \/ key_is "checkHooks" k = true ->
    match v with JArr hs => ~ In JNull hs /\ ~ In (JArr []) hs | _ => True end.
Definition hooks_ok (v : json) : Prop := match v with JArr hs => ~ In JNull hs /\ ~ In (JArr []) hs | _ => True end.
Lemma norm_null h : norm h = Some JNull -> h = JNull.
Proof.
  destruct h as [|b|n|s|l|l]; try (cbn [norm]; congruence).
  - cbn [norm]. destruct (canon_num n); discriminate.
  - rewrite norm_arr. destruct (norm_all l); discriminate.
  - rewrite norm_obj. destruct (norm_pairs l); discriminate.
Qed.
Lemma norm_empty h : norm h = Some (JArr []) -> h = JArr [].
Proof.
  destruct h as [|b|n|s|l|l]; try (cbn [norm]; congruence).
  - cbn [norm]. destruct (canon_num n); discriminate.
  - rewrite norm_arr. destruct l as [|y l]; [reflexivity|]. cbn [norm_all]. destruct (norm y); [|discriminate]. destruct (norm_all l); discriminate.
  - rewrite norm_obj. destruct (norm_pairs l); discriminate.
Qed.
Lemma norm_all_in l : forall l' y, norm_all l = Some l' -> In y l' -> exists x, In x l /\ norm x = Some y.
Proof.
  induction l as [|x l IH]; intros l' y E I; cbn [norm_all] in E; [injection E as <-; destruct I|].
  destruct (norm x) as [x'|] eqn:NX; [|discriminate]. destruct (norm_all l) as [t|]; [|discriminate]. injection E as <-.
  destruct I as [<-|I]; [exists x; split; [now left|exact NX]|]. destruct (IH t y eq_refl I) as (z & Z & N). exists z. split; [now right|exact N].
Qed.
Lemma kept_hooks : kept hooks_ok.
Proof.
  intros x y N H. destruct y as [| | | |hs'|]; try exact I. destruct x as [|b|n|s|hs|l]; try (cbn [norm] in N; congruence).
  - cbn [norm] in N. destruct (canon_num n); discriminate.
  - rewrite norm_arr in N. destruct (norm_all hs) as [t|] eqn:E; [|discriminate]. cbn [option_map] in N. assert (t = hs') by congruence. subst t. destruct H as [H1 H2].
    split; intros J; destruct (norm_all_in _ _ _ E J) as (z & Z & NZ); [apply norm_null in NZ|apply norm_empty in NZ]; subst z; contradiction.
  - rewrite norm_obj in N. destruct (norm_pairs l); discriminate.
Qed.
Lemma last_match_in f o v : last_match f o = Some v -> exists k, In (k, v) o /\ key_is f k = true.
Proof.
  induction o as [|[k u] o IH]; cbn [last_match]; [discriminate|]. destruct (last_match f o) as [z|].
  - intros E. injection E as ->. destruct (IH eq_refl) as (k' & J & K). exists k'. split; [now right|exact K].
  - destruct (key_is f k) eqn:K; [|discriminate]. intros E. injection E as ->. exists k. split; [now left|exact K].
Qed.
Lemma debug_sent c verb name ver rt net prev tr x : request c verb name ver rt net prev tr x -> debug_config net ->
  well_formed_text name -> well_formed_text ver -> good_caps rt -> prev_ok prev ->
  exists d, debug_document (call_stdin x) d /\ forall cmd, ~ In [] (hooks_in d cmd).
Proof.
  intros (_ & _ & (new & B & SD)) (o & (P & T) & H) WN WV GC PO.
  destruct (build_doc _ _ _ _ _ _ _ B P WN WV PO GC) as (d & c1 & P' & S & D & _ & _ & _ & _ & R & _).
  exists d. rewrite SD.
  assert (OWN : forall f k v, In f ["cniOutput"; "addHooks"; "delHooks"; "checkHooks"] -> key_is f k = true -> In (k, v) d -> exists u, In (k, u) o /\ norm u = Some v).
  { intros f k v F K J. assert (NR : ~ In k request_keys).
    { intros X. unfold request_keys in X. cbn [In] in F, X. repeat (destruct F as [<-|F]; [repeat (destruct X as [<-|X]; [discriminate K|]); destruct X|]). destruct F. }
    specialize (R k NR). rewrite (sorted_in_get _ _ _ S J) in R. destruct (last_member k o) as [u|] eqn:L; [|destruct R]. exists u. split; [now apply last_member_in|exact R]. }
  assert (DD : debug_document (pg_bytes new) d).
  { split; [exact P'|]. intros k v J. split.
    - intros f Q FI K. assert (FF : In f ["cniOutput"; "addHooks"; "delHooks"; "checkHooks"]) by (unfold debug_fields in FI; cbn [In] in FI |- *; repeat (destruct FI as [FI|FI]; [injection FI as <- <-; tauto|]); destruct FI).
      destruct (OWN f k v FF K J) as (u & U & N). pose proof (proj1 (T k u U) f Q FI K) as TU.
      unfold debug_fields in FI. cbn [In] in FI. assert (KQ : kept Q).
      { destruct FI as [FI|[FI|[FI|[FI|[]]]]]; injection FI as <- <-; [apply kept_text| | |]; apply kept_list, kept_list, kept_text. }
      exact (KQ u v N TU).
    - assert (OK : object_or_null (fields_ok plugin_fields) (JObj d)) by (apply dec_plugin_conf_defined; rewrite D; apply defined_some).
      destruct OK as [X|(l & X & F)]; [discriminate|]. injection X as <-. now apply F. }
  split; [exact DD|]. intros cmd J. unfold hooks_in in J.
  destruct (last_match (hook_key cmd) d) as [v|] eqn:L; [|destruct J]. destruct v as [| | | |hs|]; try destruct J.
  destruct (last_match_in _ _ _ L) as (k & KI & K).
  assert (HK : In (hook_key cmd) ["addHooks"; "delHooks"; "checkHooks"]) by (unfold hook_key; destruct (String.eqb cmd "ADD"); [cbn; tauto|destruct (String.eqb cmd "DEL"); cbn; tauto]).
  destruct (OWN (hook_key cmd) k (JArr hs) (or_intror HK) K KI) as (u & U & N).
  assert (HO : hooks_ok u). { apply (H k u U). cbn [In] in HK. destruct HK as [E|[E|[E|[]]]]; rewrite <- E in K; tauto. }
  destruct (kept_hooks _ _ N HO) as [H1 H2].
  assert (TY : list_or_null (list_or_null text_or_null) (JArr hs)).
  { apply (proj1 (proj2 DD k (JArr hs) KI) (hook_key cmd)); [|exact K]. unfold debug_fields. cbn [In] in HK |- *. destruct HK as [E|[E|[E|[]]]]; rewrite <- E; tauto. }
  destruct TY as [X|(l & X & F)]; [discriminate|]. injection X as <-. apply in_map_iff in J as (h & EH & IH). rewrite Forall_forall in F. destruct (F h IH) as [->|(ws & -> & _)]; [contradiction|].
  destruct ws as [|w ws]; [contradiction|discriminate EH].
Qed.
Lemma debug_does_it c name ver rt net prev tr x de : request c "ADD" name ver rt net prev tr x -> debug_config net ->
  well_formed_text name -> well_formed_text ver -> good_caps rt -> prev_ok prev -> In ver all_versions -> debug_ran de x -> reads_prev x ver prev ->
  done_by debug_work ver x.
Proof.
  intros RQ DC WN WV GC PO KV (pe & funcs & about & SB & AB & FN & NS) (conf0 & U0 & V0 & _).
  destruct (debug_sent _ _ _ _ _ _ _ _ _ RQ DC WN WV GC PO) as (d & D & NH). destruct (FN "ADD" (or_introl eq_refl)) as (f & FF & FA).
  exists pe, funcs, debug_info, about, f. split; [exact SB|]. split; [exact AB|]. split; [|split; [exact KV|split; [exact FF|split; [|exact NS]]]].
  { assert (W : forall v t, parse_version v = Ok t -> well_formed_version v) by (intros v t P; exists t; now apply parse_version_spec).
    repeat (constructor; [eapply W; vm_compute; reflexivity|]). constructor. }
  intros a conf pr text SD U PP PR. assert (conf0 = conf) by congruence. subst conf0. apply FA. rewrite <- SD in D.
  destruct (debug_answer de "ADD" a d (or_introl eq_refl) D) as (ro & cc & U' & RO & _ & A & _). rewrite SD in U'. assert (cc = conf) by congruence. subst cc.
  rewrite A by (intros _; apply NH). rewrite (RO eq_refl). unfold debug_get_result. unfold parse_prev_result in PP. destruct (pc_prev conf) as [m|] eqn:PC.
  - unfold parse_prev_result. rewrite PC. cbv zeta in PP |- *. rewrite PP. destruct pr as [r|].
    + unfold debug_work in PR. destruct (new_result_from_result100 r) as [r'|e|].
      * unfold debug_print. now rewrite PR.
      * exfalso. rewrite V0 in PR. destruct (none_unprintable ver) with (r := {| v1_version := "none"; v1_interfaces := []; v1_ips := []; v1_routes := []; v1_dns := dns_zero |}) as [z Z]; [| |reflexivity|congruence]; intros ->; cbn in KV; intuition discriminate.
      * exfalso. rewrite V0 in PR. destruct (none_unprintable ver) with (r := {| v1_version := "none"; v1_interfaces := []; v1_ips := []; v1_routes := []; v1_dns := dns_zero |}) as [z Z]; [| |reflexivity|congruence]; intros ->; cbn in KV; intuition discriminate.
    + exfalso. destruct (create _ _); discriminate PP.
  - injection PP as <-. cbn [debug_work] in PR. unfold debug_print. now rewrite PR.
Qed.
Lemma same_opt_refl {A} (R : A -> A -> Prop) o : (forall a, R a a) -> same_opt R o o.
Proof. intros H. destruct o; [apply H|exact I]. Qed.
Lemma same_all_refl {A} (R : A -> A -> Prop) l : (forall a, R a a) -> Forall2 R l l.
Proof. intros H. induction l; constructor; auto. Qed.
Lemma same_route_refl q : same_route q q.
Proof. split; [now left|]. split; [now left|]. repeat split. Qed.
Lemma same_refl r : same_result r r.
Proof.
  assert (RR : forall q, same_route q q) by exact same_route_refl.
  destruct r as [r|r|r]; cbn [same_result].
  - assert (C : forall c, same_ipc020 c c) by (intros c; split; [now left|]; split; [now left|now apply same_all_refl]).
    split; [reflexivity|]. split; [now apply same_opt_refl|]. split; [now apply same_opt_refl|reflexivity].
  - assert (C : forall c, same_ipc040 c c) by (intros c; split; [reflexivity|]; split; [reflexivity|]; split; now left).
    split; [reflexivity|]. split; [reflexivity|]. split; [apply same_all_refl; intros; now apply same_opt_refl|]. split; [apply same_all_refl; intros; now apply same_opt_refl|reflexivity].
  - assert (C : forall c, same_ipc100 c c) by (intros c; split; [reflexivity|]; split; now left).
    split; [reflexivity|]. split; [reflexivity|]. split; [apply same_all_refl; intros; now apply same_opt_refl|]. split; [apply same_all_refl; intros; now apply same_opt_refl|reflexivity].
Qed.
Lemma before_cons {A} prev (v : A) l i : before prev (v :: l) (S i) = before (Some v) l i.
Proof. destruct i; reflexivity. Qed.
(** A list of plugins: what each does, or that it is the debug plugin. *)
Definition to_work (p : option work) : work := match p with Some g => g | None => debug_work end.
Lemma chained_debug ver : ver <> "" -> forall parts prev vs, chained ver prev (somes parts) vs -> Forall survives vs ->
  match prev with
  | None => match parts with None :: _ => False | _ => True end
  | Some p => wf_result exact prefix_form p /\ survives p /\ result_version p = ver
  end ->
  exists vs', chained ver prev (map to_work parts) vs' /\
    forall i, i <= List.length parts -> before prev vs' i = before prev vs (List.length (somes (firstn i parts))).
Proof.
  intros NE. induction parts as [|[g|] parts IH]; intros prev vs C S H; cbn [somes map] in *.
  - inversion C; subst. exists []. split; [apply ch_none|]. intros i L. cbn [List.length] in L. assert (i = 0) by lia. now subst i.
  - inversion C as [|prev' g' gs u v vs0 G SR W C' E1 E2 E3]; subst. apply Forall_cons_iff in S as [S1 S2].
    destruct (IH (Some v) vs0 C' S2) as (vs' & CV & B).
    { split; [exact W|]. split; [exact S1|]. rewrite <- (same_version _ _ SR). eapply gv_version; eassumption. }
    exists (v :: vs'). split; [eapply ch_more; eassumption|]. intros [|i] L; [reflexivity|]. cbn [List.length] in L. cbn [firstn somes List.length].
    rewrite !before_cons. apply B. lia.
  - destruct prev as [p|]; [|destruct H]. destruct H as (W & SP & V). destruct (survives_trip p (proj2 W) SP) as (r' & N & G). rewrite V in G.
    destruct (IH (Some p) vs C S (conj W (conj SP V))) as (vs' & CV & B). exists (p :: vs'). split.
    + eapply ch_more; [|apply same_refl|exact W|exact CV]. cbn [to_work debug_work]. rewrite N. exact G.
    + intros [|i] L; [reflexivity|]. cbn [List.length] in L. cbn [firstn somes]. rewrite before_cons. apply B. lia.
Qed.
Definition played (l : network_list) (parts : list (option work)) (i : nat) (x : call) : Prop :=
  match nth_error parts i, nth_error (nl_plugins l) i with
  | Some (Some g), _ => done_by g (nl_version l) x
  | Some None, Some net => debug_config net /\ exists de, debug_ran de x
  | _, _ => True
  end.
Lemma debug_chain : forall fl c l rt parts vs w tr w' r, runs fl (add_network_list c l rt) w tr w' r ->
  well_addressed c (nl_name l) rt -> well_formed_text (nl_name l) -> In (nl_version l) known_versions -> good_caps rt ->
  Forall chainable (nl_plugins l) -> List.length parts = List.length (nl_plugins l) -> hd_error parts <> Some None ->
  chained (nl_version l) None (somes parts) vs -> Forall survives vs ->
  (forall i x, nth_error (calls tr) i = Some x -> played l parts i x) ->
  (forall i x, nth_error (calls tr) i = Some x -> (exists v, yields x v) /\ reads_prev x (nl_version l) (before None vs (List.length (somes (firstn i parts))))) /\
  (forall a, r = Ok a -> a = last_or None vs).
Proof.
  intros fl c l rt parts vs w tr w' r R WA WN KV GC CH LP HD CN SV PL.
  assert (NE : nl_version l <> "") by (intros E; rewrite E in KV; cbn in KV; intuition discriminate).
  assert (WV : well_formed_text (nl_version l)) by (cbn [In known_versions] in KV; repeat (destruct KV as [<-|KV]; [apply valid_utf8_wf; reflexivity|]); destruct KV).
  destruct (chained_debug (nl_version l) NE parts None vs CN SV) as (vs' & CV & B); [destruct parts as [|[g|] parts]; [exact I|exact I|now apply HD]|].
  destruct (chain_add fl c l rt (map to_work parts) vs' w tr w' r R WA WN NE WV GC CH) as [A1 A2]; [now rewrite map_length|exact CV| |].
  - intros i x g net prev X G EN Q HP. specialize (PL i x X). unfold played in PL. rewrite nth_error_map in G. destruct (nth_error parts i) as [[g'|]|]; [| |discriminate G]; injection G as <-; [exact PL|].
    rewrite EN in PL. destruct PL as (DC & de & DR). eapply (debug_does_it c (nl_name l) (nl_version l) rt net prev tr x de); try eassumption.
    + destruct prev; [apply wf_prev_ok; apply HP|exact I].
    + eapply request_reads; try eassumption. rewrite Forall_forall in CH. apply CH. eapply nth_error_In; exact EN.
  - assert (LC : forall i x, nth_error (calls tr) i = Some x -> i <= List.length parts).
    { intros i x X. destruct (A1 i x X) as (v & V & _). assert (i < List.length vs') by (apply nth_error_Some; congruence). rewrite (chained_length _ _ _ _ CV), map_length in H. lia. }
    split.
    + intros i x X. rewrite <- (B i (LC i x X)). destruct (A1 i x X) as (v & _ & Y & Q). split; [now exists v|exact Q].
    + intros a E. rewrite (A2 a E). unfold last_or. rewrite (chained_length _ _ _ _ CV), map_length, (B (List.length parts) (le_n _)), firstn_all, <- (chained_length _ _ _ _ CN). reflexivity.
Qed.
(** The debug plugin anywhere in a list but first, any number of times: every plugin still reads what
    the last ordinary plugin before it returned, and ADD returns what it would without. *)
Theorem C74_add : forall fl c l rt parts vs w tr w' r, runs fl (add_network_list c l rt) w tr w' r ->
  well_addressed c (nl_name l) rt -> well_formed_text (nl_name l) -> In (nl_version l) known_versions -> good_caps rt ->
  Forall chainable (nl_plugins l) -> List.length parts = List.length (nl_plugins l) -> hd_error parts <> Some None ->
  chained (nl_version l) None (somes parts) vs -> Forall survives vs ->
  (forall i x, nth_error (calls tr) i = Some x -> played l parts i x) ->
  (forall i x, nth_error (calls tr) i = Some x -> reads_prev x (nl_version l) (before None vs (List.length (somes (firstn i parts))))) /\
  (forall a, r = Ok a -> a = last_or None vs).
Proof.
  intros fl c l rt parts vs w tr w' r R WA WN KV GC CH LP HD CN SV PL. destruct (debug_chain fl c l rt parts vs w tr w' r R WA WN KV GC CH LP HD CN SV PL) as [A B].
  split; [|exact B]. intros i x X. apply (A i x X).
Qed.
(** Without file-system faults, if all plugins are found, it succeeds. *)
Theorem C74_add_succeeds : forall c l rt parts vs w tr w' r, runs false (add_network_list c l rt) w tr w' r ->
  well_addressed c (nl_name l) rt -> well_formed_text (nl_name l) -> In (nl_version l) known_versions -> good_caps rt ->
  Forall chainable (nl_plugins l) -> Forall usable (nl_plugins l) -> nothing_missing tr ->
  List.length parts = List.length (nl_plugins l) -> hd_error parts <> Some None ->
  chained (nl_version l) None (somes parts) vs -> Forall survives vs ->
  (forall i x, nth_error (calls tr) i = Some x -> played l parts i x) ->
  r = Ok (last_or None vs).
Proof.
  intros c l rt parts vs w tr w' r R WA WN KV GC CH US NM LP HD CN SV PL. destruct (debug_chain false c l rt parts vs w tr w' r R WA WN KV GC CH LP HD CN SV PL) as [A B].
  assert (WV : well_formed_text (nl_version l)) by (cbn [In known_versions] in KV; repeat (destruct KV as [<-|KV]; [apply valid_utf8_wf; reflexivity|]); destruct KV).
  destruct (C61_add _ _ _ _ _ _ _ R) as [a E]; try assumption; try apply WA.
  - now split.
  - intros x X. apply In_nth_error in X as [i X]. destruct (A i x X) as ((v & Y) & _). eauto.
  - rewrite E. f_equal. now apply B.
Qed.

(** *** DEL and CHECK through the runtime *)
Lemma newer v : In v known_versions -> ~ old_version v -> In v ["0.3.0"; "0.3.1"; "0.4.0"; "1.0.0"; "1.1.0"].
Proof.
  intros KV NO. unfold old_version in NO. cbn [In known_versions] in KV. cbn [In]. destruct KV as [<-|[<-|KV]]; [exfalso; apply NO; now left|exfalso; apply NO; now right|exact KV].
Qed.
Lemma empty_old_error v : old_version v -> print_result empty_result v = Err (EMsg "cannot convert: no valid IP addresses").
Proof. intros [->| ->]; vm_compute; reflexivity. Qed.
(** Asked by the runtime, the debug plugin always agrees to DEL and CHECK of a network with version
    0.3.0 or later; DEL of one with 0.1.0 or 0.2.0 always fails. *)
Theorem C74_del_of_a_network : forall c verb name ver rt net prev tr x de, request c verb name ver rt net prev tr x ->
  (verb = "DEL" \/ verb = "CHECK") -> allowed_at verb ver -> chainable net -> debug_config net -> well_addressed c name rt -> well_formed_text name ->
  In ver known_versions -> good_caps rt -> prev_ok prev -> debug_ran de x ->
  (~ old_version ver -> succeeded x) /\
  (old_version ver -> exists e, call_answer x = Err e).
Proof.
  intros c verb name ver rt net prev tr x de RQ HV AL CH DC (A1 & A2 & A3 & A4 & A5) WN KV GC PO (pe & funcs & about & SB & AB & FN & NS).
  assert (NE : ver <> "") by (intros E; rewrite E in KV; cbn in KV; intuition discriminate).
  assert (WV : well_formed_text ver) by (cbn [In known_versions] in KV; repeat (destruct KV as [<-|KV]; [apply valid_utf8_wf; reflexivity|]); destruct KV).
  assert (PA : per_attachment verb) by (unfold per_attachment; tauto).
  destruct (debug_sent _ _ _ _ _ _ _ _ _ RQ DC WN WV GC PO) as (d & D & NH).
  destruct CH as (o & P & _ & SV).
  assert (AC : acceptable_request pe (pi_supported debug_info) (call_stdin x)).
  { eapply (C57_request_is_acceptable verb c name ver rt net o prev tr x); try eassumption; [exact (spell o SV)|intros _; exact A4]. }
  assert (CMD : command pe = verb) by (unfold command; rewrite (proj1 SB); exact (proj1 (proj1 RQ))).
  destruct (FN verb PA) as (f & FF & FA). rewrite <- CMD in FF.
  assert (WF : Forall well_formed_version (pi_supported debug_info)).
  { assert (W : forall v t, parse_version v = Ok t -> well_formed_version v) by (intros v t Q; exists t; now apply parse_version_spec).
    repeat (constructor; [eapply W; vm_compute; reflexivity|]). constructor. }
  destruct (C44_called_if pe funcs debug_info about (call_stdin x) f AC WF FF) as (a & AR & _ & SO & _ & EN & NN).
  assert (SD : ca_stdin a = call_stdin x) by apply AR. rewrite <- SD in D.
  destruct (debug_answer de verb a d PA D) as (ro & cc & U & _ & RO & AN & _). specialize (AN (fun _ => NH verb)).
  rewrite RO in AN by (destruct HV; subst verb; discriminate).
  assert (PV : pc_version cc = ver).
  { destruct RQ as (_ & _ & (new & B & S)). destruct (C13_plugin_sees_the_version_partial name ver net prev rt new o B P WN WV PO GC (spell o SV)) as (conf & U' & V).
    rewrite SD, S in U. congruence. }
  rewrite PV in AN. split.
  - intros NO. destruct (empty_prints ver) as (text & r & PT & _).
    { now apply newer. }
    unfold debug_print in AN. rewrite PT in AN. assert (FR : f a = (text, None)) by (apply FA; exact AN).
    assert (OK : so_err (plugin_main pe funcs debug_info about) = None).
    { destruct HV as [->| ->].
      - apply (C46_own_namespace pe funcs debug_info about (call_stdin x) f a (or_intror CMD) AC FF AR); [now rewrite FR|exact NS].
      - destruct (so_err (plugin_main pe funcs debug_info about)) as [e|] eqn:E; [|reflexivity]. exfalso. apply (NN e eq_refl); [rewrite CMD; split; discriminate|now rewrite FR]. }
    exists (so_stdout (plugin_main pe funcs debug_info about)). rewrite AB. unfold plugin_process, process_outcome. rewrite OK. reflexivity.
  - intros OV. unfold debug_print in AN. rewrite (empty_old_error ver OV) in AN. assert (FR : f a = ("", Some (EMsg "cannot convert: no valid IP addresses"))) by (apply FA; exact AN).
    specialize (EN (EMsg "cannot convert: no valid IP addresses")). rewrite FR in EN. specialize (EN eq_refl ltac:(intros q m dd X; inversion X)).
    rewrite AB. unfold plugin_process, process_outcome. rewrite EN.
    match goal with |- exists e, fst (exec_plugin ?rs) = _ => pose (runs := rs) end.
    destruct (C24_first_unbusy_run_decides runs 0 ltac:(lia) (not_busy_exit _ _) ltac:(intros j J; lia)) as (_ & _ & F).
    eexists. exact (F "exit status 1" eq_refl).
Qed.

(** *** An example: the two plugins of C69's example with the debug plugin between them and after them. *)
Definition dbg_env : debug_env := {| de_open := fun _ => true; de_netns := fun _ => true |}.
Definition dbg_fun (cmd : string) : callback := fun a => match snd (debug_call dbg_env cmd a) with Ok x => x | _ => ("", Some (EMsg "panic")) end.
Definition dbg_funcs : cni_funcs := {| f_add := Some (dbg_fun "ADD"); f_del := Some (dbg_fun "DEL"); f_check := Some (dbg_fun "CHECK"); f_gc := None; f_status := None |}.
Definition dbg_text : string := print (JObj [("name", JStr "net1"); ("type", JStr "debug"); ("cniOutput", JStr "/log"); ("addHooks", JArr [JArr [JStr "ip"; JStr "link"]; JArr [JStr "true"]])]).
Definition dbg_net : plugin_config := Eval vm_compute in match plugin_conf_from_bytes dbg_text with Ok c => c | _ => {| pg_conf := pg_conf (C_conf ""); pg_bytes := "" |} end.
Definition dbg_list : network_list :=
  {| nl_name := "net1"; nl_version := "0.4.0"; nl_disable_check := false; nl_disable_gc := false; nl_only_inlined := false;
     nl_plugins := [ch_net1; dbg_net; ch_net2; dbg_net]; nl_bytes := "" |}.
Definition dbg_oracle : oracle :=
  {| or_environ := ["PATH=/bin"]; or_find := fun p _ => Ok ("/opt/cni/bin/" ++ p);
     or_exec := fun _ p stdin env => fst (exec_plugin (fun _ => process_outcome (plugin_process (e2e_env stdin env)
       (if String.eqb p "/opt/cni/bin/first" then ch_funcs ch_first else if String.eqb p "/opt/cni/bin/debug" then dbg_funcs else ch_funcs ch_second)
       (if String.eqb p "/opt/cni/bin/debug" then debug_info else ex_info) ""))) |}.
Lemma dbg_tame : tame dbg_oracle.
Proof.
  split; [reflexivity|]. intros n p s e. cbn [dbg_oracle or_exec].
  destruct (process_outcome _) as [out err oe]. unfold exec_plugin.
  assert (G : forall left i so se, is_panic (fst (exec_loop left i (fun _ => {| ro_stdout := out; ro_stderr := err; ro_err := oe |}) so se)) = false).
  { induction left as [|left IH]; intros i so se; cbn [exec_loop]; [reflexivity|]. cbn [ro_err]. destruct oe as [e0|]; [|reflexivity].
    destruct (contains_str text_file_busy e0); [apply IH|reflexivity]. }
  apply G.
Qed.
Lemma dbg_config : debug_config dbg_net.
Proof.
  eexists. split; [split; [vm_compute; reflexivity|]|].
  - intros k v J. apply debug_step_defined with (c := debug_conf_zero). repeat (destruct J as [J|J]; [injection J as <- <-; eexists; vm_compute; reflexivity|]). destruct J.
  - intros k v J _. repeat (destruct J as [J|J]; [injection J as <- <-; try exact I; split; intros X; repeat (destruct X as [X|X]; [discriminate X|]); destruct X|]). destruct J.
Qed.
Lemma dbg_chainable : chainable dbg_net.
Proof.
  eexists. split; [vm_compute; reflexivity|]. split; intros k v H; repeat (destruct H as [H|H]; [injection H as <- <-; vm_compute; congruence|]); destruct H.
Qed.
Lemma dbg_ran x : call_answer x = fst (exec_plugin (fun _ => process_outcome (plugin_process (e2e_env (call_stdin x) (call_env x)) dbg_funcs debug_info ""))) -> debug_ran dbg_env x.
Proof.
  intros A. exists (e2e_env (call_stdin x) (call_env x)), dbg_funcs, "". split; [split; reflexivity|]. split; [exact A|].
  split; [|intros (_ & n & X & _); discriminate X]. intros cmd [->|[->| ->]]; eexists; (split; [reflexivity|]); intros a out e E; unfold dbg_fun; now rewrite E.
Qed.
Definition dbg_parts : list (option work) := [Some ch_first; None; Some ch_second; None].
Theorem C74_nonvacuous : exists tr w',
  runs false (add_network_list e2e_cni dbg_list e2e_rt) [] tr w' (Ok (Some ch_last)) /\
  Forall chainable (nl_plugins dbg_list) /\ chained "0.4.0" None (somes dbg_parts) [ch_v1; ch_last] /\ Forall survives [ch_v1; ch_last] /\
  List.length (calls tr) = 4 /\ (forall i x, nth_error (calls tr) i = Some x -> played dbg_list dbg_parts i x).
Proof.
  destruct (interp dbg_oracle 0 (add_network_list e2e_cni dbg_list e2e_rt) []) as [[r w'] tr] eqn:E.
  pose proof (interp_run _ dbg_oracle _ _ _ _ _ dbg_tame E) as R.
  vm_compute in E. injection E as <- <- <-. eexists _, _. split; [exact R|].
  split; [apply Forall_cons; [exact ch_chainable1|apply Forall_cons; [exact dbg_chainable|apply Forall_cons; [exact ch_chainable2|apply Forall_cons; [exact dbg_chainable|apply Forall_nil]]]]|].
  split; [exact ch_chained|]. assert (S : forall d, survives (ch_r d)) by (intros d; split; [split; [intros []|split; intros []]|intros c []]).
  split; [apply Forall_cons; [apply S|apply Forall_cons; [apply S|apply Forall_nil]]|]. split; [reflexivity|].
  intros [|[|[|[|[|i]]]]] x X; cbn [nth_error calls call_of flat_map app] in X; try discriminate X; injection X as <-; cbn [played nth_error dbg_parts dbg_list nl_plugins nl_version].
  - apply ch_done; [cbn; tauto|vm_compute; reflexivity].
  - split; [exact dbg_config|]. exists dbg_env. apply dbg_ran. vm_compute. reflexivity.
  - apply ch_done; [cbn; tauto|vm_compute; reflexivity].
  - split; [exact dbg_config|]. exists dbg_env. apply dbg_ran. vm_compute. reflexivity.
Qed.
Print Assumptions C74_does.
Print Assumptions C74_unreadable.
Print Assumptions C74_log.
Print Assumptions C74_log_in_one_piece.
Print Assumptions C74_del_check.
Print Assumptions C74_del_check_crash.
Print Assumptions C74_add_crash.
Print Assumptions C74_add.
Print Assumptions C74_add_succeeds.
Print Assumptions C74_del_of_a_network.
Print Assumptions C74_nonvacuous.
