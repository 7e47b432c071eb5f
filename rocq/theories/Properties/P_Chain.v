(** C69: a chain of plugins written with this library computes the composition of their functions. *)
From Coq Require Import String Ascii List Arith ZArith NArith Bool Lia.
From Verif Require Import Model.GoStr Model.Errors Model.Version Model.Validate Model.Json Model.Num Model.GoJson Model.NetIP Model.Types Model.Conf Model.Args Model.Invoke Model.Prog Model.Api Model.Skel
  Spec.VersionSpec Spec.NameSpec Spec.JsonSpec Spec.ConfSpec Spec.EnvSpec Spec.RunSpec Spec.CacheSpec Spec.HistSpec Spec.MapSpec Spec.InvokeSpec Spec.SkelSpec Spec.TypesSpec Spec.LiveSpec Spec.FormSpec
  Proofs.StrP Proofs.Utf8P Proofs.VersionP Proofs.ValidateP Proofs.JsonRT Proofs.GoJsonP Proofs.NumP Proofs.ConfP Proofs.BuildP Proofs.LoadP Proofs.EnvP Proofs.ProgP Proofs.ApiP Proofs.VerbP Proofs.InvokeP Proofs.SkelP Proofs.TypesP Proofs.ConvP Proofs.HistP
  Properties.P_Conf Properties.P_Api Properties.P_Invoke Properties.P_Skel Properties.P_Types Properties.P_Prev Properties.P_E2E Properties.P_Cache Properties.P_Live Properties.P_Form.
Import ListNotations.
Open Scope nat_scope.
Open Scope string_scope.

(** *** What the plugins do *)
(** A plugin's work: from the previous result, if any, to the result after its own set-up. *)
Definition work := option result -> result.
(** An ADD function doing this work on the configuration [data] as the library's documentation
    prescribes: decode the configuration, ParsePrevResult, PrintResult in the configuration's version. *)
Definition does (g : work) (f : callback) (data : string) : Prop := forall a conf prev text, ca_stdin a = data ->
  unmarshal_plugin_conf data = Some conf -> parse_prev_result conf = Ok prev ->
  print_result (g prev) (pc_version conf) = Ok text -> f a = (text, None).
(** This execution was one of a plugin built on skel with such a function, that supports [ver] and
    is not in the container's namespace. *)
Definition done_by (g : work) (ver : string) (x : call) : Prop := exists pe funcs info about f,
  started_by x pe /\ answered_by x pe funcs info about /\
  Forall well_formed_version (pi_supported info) /\ In ver (pi_supported info) /\
  f_add funcs = Some f /\ does g f (call_stdin x) /\ ~ (~ override_on pe /\ in_own_namespace pe).
(** The results of the works in sequence, each handed on in version [ver], its addresses in the form
    documents are read in (C70: 10.0.0.1 held in four bytes is read as 10.0.0.1 in sixteen). *)
Inductive chained (ver : string) : option result -> list work -> list result -> Prop :=
| ch_none prev : chained ver prev [] []
| ch_more prev g gs u v vs : get_as_version (g prev) ver = Ok u -> same_result u v -> wf_result exact prefix_form v ->
    chained ver (Some v) gs vs -> chained ver prev (g :: gs) (v :: vs).
(** The plugin's configuration document: no previous result of its own, one spelling of the version. *)
Definition chainable (net : plugin_config) : Prop := exists o, parse (pg_bytes net) = Some (JObj o) /\
  (forall k v, In (k, v) o -> key_is "prevResult" k = false) /\ only_spelling "cniVersion" o.
(** What a plugin reads from this execution's standard input. *)
Definition reads_prev (x : call) (ver : string) (prev : option result) : Prop :=
  exists conf, unmarshal_plugin_conf (call_stdin x) = Some conf /\ pc_version conf = ver /\ parse_prev_result conf = Ok prev.

(** *** Lemmas *)
Ltac vstep H := repeat (match type of H with
  | rbind ?x _ = Ok _ => destruct x as [?y|?e|]; [cbn [rbind] in H|discriminate H|discriminate H]
  | (let '(_, _) := ?x in _) = Ok _ => destruct x as [? ?]
  | match ?x with _ => _ end = Ok _ => destruct x; try discriminate H
  end).
Lemma from02_version r v r' : conv040_from02x r v = Ok r' -> result_version r' = v.
Proof. destruct r as [r|r|r]; try discriminate. cbn [conv040_from02x]. intros H. vstep H; injection H as <-; reflexivity. Qed.
Lemma internal_version r v r' : conv040_internal r v = Ok r' -> result_version r' = v.
Proof. destruct r as [r|r|r]; try discriminate. cbn [conv040_internal]. intros H. injection H as <-. reflexivity. Qed.
Lemma to02_version r v r' : conv040_to02x r v = Ok r' -> result_version r' = v.
Proof. destruct r as [r|r|r]; try discriminate. cbn [conv040_to02x]. intros H. vstep H; injection H as <-; reflexivity. Qed.
Lemma from04_version r v r' : conv100_from04x r v = Ok r' -> result_version r' = v.
Proof. destruct r as [r|r|r]; try discriminate. cbn [conv100_from04x]. intros H. vstep H; injection H as <-; reflexivity. Qed.
Lemma to04_version r v r' : conv100_to04x r v = Ok r' -> result_version r' = v.
Proof. destruct r as [r|r|r]; try discriminate. cbn [conv100_to04x]. intros H. vstep H; injection H as <-; reflexivity. Qed.
Lemma from100_version r v r' : conv100_from100 r v = Ok r' -> result_version r' = v.
Proof. destruct r as [r|r|r]; try discriminate. cbn [conv100_from100]. intros H. injection H as <-. reflexivity. Qed.
Lemma conv010_version o r v r' : conv010 o o r v = Ok r' -> result_version r' = v.
Proof.
  unfold conv010. destruct (String.eqb_spec v o) as [->|]; [|discriminate]. cbn [negb]. destruct r as [r|r|r]; try discriminate. intros H. injection H as <-. reflexivity.
Qed.
Lemma convert_version f : forall r v r', v <> "" -> convert_fuel f r v = Ok r' -> result_version r' = v.
Proof.
  induction f as [|f IH]; intros r v r' N H; [discriminate|]. cbn [convert_fuel] in H. cbv zeta in H.
  destruct (String.eqb_spec v "") as [|_]; [contradiction|]. destruct (String.eqb_spec (result_version r) v) as [E|_]; [congruence|].
  destruct (find_converter converters (result_version r) v) as [c|]; [|discriminate].
  destruct (c_fn c); eauto using conv010_version, from02_version, internal_version, to02_version, from100_version, from04_version, to04_version.
  - destruct (convert_fuel f r "0.4.0") as [y|e|]; [|discriminate..]. cbn [rbind] in H. eapply from04_version; exact H.
  - destruct (conv100_to04x r "0.4.0") as [y|e|]; [|discriminate..]. cbn [rbind] in H. eapply IH; eassumption.
Qed.
Lemma gv_version r v r' : v <> "" -> get_as_version r v = Ok r' -> result_version r' = v.
Proof. intros N H. unfold get_as_version, convert in H. cbv zeta in H. eapply convert_version; eassumption. Qed.

Lemma chained_length ver prev gs vs : chained ver prev gs vs -> List.length vs = List.length gs.
Proof. induction 1; cbn; congruence. Qed.
Lemma chained_nth ver prev gs vs : chained ver prev gs vs -> forall i g, nth_error gs i = Some g ->
  exists u v, nth_error vs i = Some v /\ get_as_version (g (before prev vs i)) ver = Ok u /\ same_result u v /\ wf_result exact prefix_form v.
Proof.
  induction 1 as [|prev g gs u v vs G S W C IH]; intros i g' I; [destruct i; discriminate|]. destruct i as [|i]; cbn [nth_error] in *.
  - injection I as <-. exists u, v. auto.
  - destruct (IH i g' I) as (u' & v' & N & G' & S' & W'). exists u', v'. split; [exact N|]. split; [|split; [exact S'|exact W']]. destruct i; exact G'.
Qed.
Lemma wf_prev_ok v : wf_result exact prefix_form v -> prev_ok (Some v).
Proof.
  intros W. destruct (result_rtn v W) as (j & m & E & N & _). exists j. split; [exact E|].
  destruct (result_rt v (wf_exact_any _ W)) as (j0 & E0 & O & J & D & _). assert (j0 = j) by congruence. subst j0.
  split; [exact J|]. eapply N.le_trans; [exact D|]. vm_compute. discriminate.
Qed.
(** The parameters of a request a plugin accepts. *)
Definition well_addressed (c : cni) (name : string) (rt : runtime_conf) : Prop :=
  good_name name /\ good_name (rt_container rt) /\ good_ifname (rt_ifname rt) /\ rt_netns rt <> "" /\ String.concat ":" (c_path c) <> "".
Definition handed (ver : string) (prev : option result) : Prop :=
  match prev with None => True | Some v => wf_result exact prefix_form v /\ result_version v = ver end.
Lemma handed_ok ver prev : handed ver prev -> prev_ok prev.
Proof. destruct prev as [v|]; intros H; [apply wf_prev_ok; apply H|exact I]. Qed.
Lemma spell o : only_spelling "cniVersion" o -> forall k v, In (k, v) o -> key_is "cniVersion" k = true -> k = "cniVersion" \/ String.compare k "cniVersion" = Lt.
Proof. intros S k v I K. left. eapply S; eassumption. Qed.
Lemma request_reads c verb name ver rt net prev tr x : request c verb name ver rt net prev tr x -> chainable net ->
  well_formed_text name -> well_formed_text ver -> good_caps rt -> handed ver prev -> reads_prev x ver prev.
Proof.
  intros (_ & _ & (new & B & SD)) (o & P & NP & SV) WN WV GC H. unfold reads_prev. rewrite SD. destruct prev as [v|].
  - destruct H as [W V]. eapply C42_prev_result; try eassumption.
    + intros k u I K. rewrite (NP k u I) in K. discriminate.
    + rewrite <- V. exact (proj2 W).
  - destruct (C42_absent _ _ _ _ _ _ B P NP WN WV GC) as (conf & U & PP). exists conf. split; [exact U|]. split; [|exact PP].
    destruct (C13_plugin_sees_the_version_partial name ver net None rt new o B P WN WV I GC (spell o SV)) as (conf' & U' & V). congruence.
Qed.

Lemma printed_result v ver u v' text data cv x : get_as_version v ver = Ok u -> same_result u v' -> print_result v ver = Ok text -> wf_result exact prefix_form v' ->
  call_answer x = Ok text -> call_stdin x = data -> conf_version data cv -> yields x v'.
Proof.
  intros GV SR PR W CA SD CV. exists text. split; [exact CA|]. unfold print_result in PR. rewrite GV in PR. cbn [rbind] in PR. rewrite (proj2 (C70_same_text _ _ SR)) in PR. unfold result_print in PR.
  destruct (result_rtn v' W) as (j & m & E & N & D & t & EM). destruct (result_rt v' (wf_exact_any _ W)) as (j0 & E0 & O & J & DP & DL).
  assert (j0 = j) by congruence. subst j0. rewrite E in PR. assert (T : text = print_indent j) by congruence. rewrite T. clear T PR CA.
  assert (P : parse (print_indent j) = Some j) by (apply parse_print_indent; now apply jenc).
  destruct j as [| | | | |o]; try discriminate O. subst data.
  assert (Q : add_result (call_stdin x) (print_indent (JObj o)) = create (result_version v') (print_indent (JObj o)));
    [eapply C40_named_version; [exact CV| | |]|etransitivity; [exact Q|]].
  4: exact (proj1 (text_back v' _ _ P DL (proj2 W))).
  - exists o. split; [exact P|exact N].
  - subst m. reflexivity.
  - exact (proj1 (right_nonempty _ (proj2 W))).
Qed.
(** One execution: what it is sent and what comes back. *)
Lemma done_yields c name ver rt net prev tr x g u v : request c "ADD" name ver rt net prev tr x -> chainable net ->
  well_addressed c name rt -> well_formed_text name -> well_formed_text ver -> ver <> "" -> good_caps rt -> handed ver prev ->
  done_by g ver x -> get_as_version (g prev) ver = Ok u -> same_result u v -> wf_result exact prefix_form v -> reads_prev x ver prev /\ yields x v.
Proof.
  intros RQ CH (A1 & A2 & A3 & A4 & A5) WN WV NE GC H (pe & funcs & info & about & f & SB & AB & WF & IS & FA & DO & NS) GV SR W.
  pose proof (request_reads _ _ _ _ _ _ _ _ _ RQ CH WN WV GC H) as RP. split; [exact RP|].
  assert (AC : acceptable_request pe (pi_supported info) (call_stdin x)).
  { destruct CH as (o & P & _ & SV). eapply (C57_request_is_acceptable "ADD" c name ver rt net o prev tr x); try eassumption.
    - now apply (handed_ok ver).
    - exact (spell o SV).
    - now left.
    - left. now left.
    - intros _. exact A4. }
  assert (CMD : command pe = "ADD") by (unfold command; rewrite (proj1 SB); exact (proj1 (proj1 RQ))).
  assert (FF : function_for funcs (command pe) = Some f) by now rewrite CMD.
  destruct (C44_called_if pe funcs info about (call_stdin x) f AC WF FF) as (a & AR & _ & SO & _).
  assert (SD : ca_stdin a = call_stdin x) by apply AR.
  destruct RP as (conf & U & PV & PP).
  assert (PR : exists text, print_result (g prev) ver = Ok text).
  { unfold print_result. rewrite GV. cbn [rbind]. rewrite (proj2 (C70_same_text _ _ SR)). destruct (C39_round_trip v (wf_exact_any _ W)) as (t & p & _ & _ & _ & E & _). eauto. }
  destruct PR as [text PR].
  assert (FR : f a = (text, None)) by (apply (DO a conf prev text SD U PP); now rewrite PV).
  rewrite FR in SO. cbn [fst] in SO.
  destruct (C46_own_namespace pe funcs info about (call_stdin x) f a (or_introl CMD) AC FF AR) as [_ NO]; [now rewrite FR|]. specialize (NO NS).
  assert (CA : call_answer x = Ok text).
  { rewrite AB. unfold plugin_process, process_outcome. rewrite NO, SO. unfold exec_plugin. reflexivity. }
  destruct AC as (_ & _ & _ & _ & cv & CV & _). eapply printed_result; try eassumption. reflexivity.
Qed.

(** *** ADD *)
Lemma chain_add : forall fl c l rt gs vs w tr w' r, runs fl (add_network_list c l rt) w tr w' r ->
  well_addressed c (nl_name l) rt -> well_formed_text (nl_name l) -> nl_version l <> "" -> well_formed_text (nl_version l) -> good_caps rt ->
  Forall chainable (nl_plugins l) -> List.length gs = List.length (nl_plugins l) -> chained (nl_version l) None gs vs ->
  (forall i x g net prev, nth_error (calls tr) i = Some x -> nth_error gs i = Some g -> nth_error (nl_plugins l) i = Some net ->
     request c "ADD" (nl_name l) (nl_version l) rt net prev tr x -> handed (nl_version l) prev -> done_by g (nl_version l) x) ->
  (forall i x, nth_error (calls tr) i = Some x -> exists v, nth_error vs i = Some v /\ yields x v /\
     reads_prev x (nl_version l) (before None vs i)) /\
  (forall a, r = Ok a -> a = last_or None vs).
Proof.
  intros fl c l rt gs vs w tr w' r R WA WN NE WV GC CH LG CN DB.
  destruct (C14_add_chains_results _ _ _ _ _ _ _ _ R) as (rs & C1 & C2 & C3).
  assert (LC : List.length (calls tr) <= List.length gs).
  { rewrite LG. destruct (Nat.le_gt_cases (List.length (calls tr)) (List.length (nl_plugins l))) as [|L]; [assumption|exfalso].
    destruct (nth_error (calls tr) (List.length (nl_plugins l))) as [x|] eqn:E; [|apply nth_error_None in E; lia].
    destruct (C1 _ _ E) as (net & N & _). assert (nth_error (nl_plugins l) (List.length (nl_plugins l)) = None) by now apply nth_error_None. congruence. }
  assert (G : forall i x, nth_error (calls tr) i = Some x -> exists v, nth_error vs i = Some v /\ yields x v /\ reads_prev x (nl_version l) (before None vs i)).
  { induction i as [|i IH]; intros x I.
    - destruct (C1 _ _ I) as (net & N & Q). cbn [before] in Q.
      destruct (nth_error gs 0) as [g|] eqn:EG; [|apply nth_error_None in EG; assert (0 < List.length (calls tr)) by (apply nth_error_Some; congruence); lia].
      destruct (chained_nth _ _ _ _ CN _ _ EG) as (u & v & EV & GV & SR & W). cbn [before] in *.
      destruct (done_yields c (nl_name l) (nl_version l) rt net None tr x g u v Q) as [A B]; try eassumption; [|exact Logic.I|eapply DB; try eassumption; exact Logic.I|eauto].
      rewrite Forall_forall in CH. apply CH. eapply nth_error_In; eassumption.
    - destruct (C1 _ _ I) as (net & N & Q). cbn [before] in Q.
      assert (LI : S i < List.length (calls tr)) by (apply nth_error_Some; congruence).
      destruct (nth_error (calls tr) i) as [x'|] eqn:EX; [|apply nth_error_None in EX; lia].
      destruct (IH x' eq_refl) as (v' & EV' & Y' & _).
      assert (RI : nth_error rs i = Some v') by (apply C2; eauto). rewrite RI in Q.
      destruct (nth_error gs i) as [g'|] eqn:EG'; [|apply nth_error_None in EG'; lia].
      destruct (nth_error gs (S i)) as [g|] eqn:EG; [|apply nth_error_None in EG; lia].
      destruct (chained_nth _ _ _ _ CN _ _ EG') as (u' & v'' & E' & GV' & SR' & W'). rewrite EV' in E'. injection E' as <-.
      destruct (chained_nth _ _ _ _ CN _ _ EG) as (u & v & EV & GV & SR & W). cbn [before] in *. rewrite EV' in *.
      assert (HD : handed (nl_version l) (Some v')) by (split; [exact W'|rewrite <- (same_version _ _ SR'); eapply gv_version; eassumption]).
      destruct (done_yields c (nl_name l) (nl_version l) rt net (Some v') tr x g u v Q) as [A B]; try eassumption; [|eapply DB; eassumption|eauto].
      rewrite Forall_forall in CH. apply CH. eapply nth_error_In; eassumption. }
  split; [exact G|]. intros a E. destruct (C3 a E) as (L1 & L2 & ->). unfold last_or. rewrite L2, <- LG, <- (chained_length _ _ _ _ CN).
  destruct (List.length vs) as [|n] eqn:LV; [reflexivity|]. cbn [before].
  destruct (nth_error (calls tr) n) as [x|] eqn:EX; [|apply nth_error_None in EX; rewrite (chained_length _ _ _ _ CN) in LV; lia].
  destruct (G n x EX) as (v & EV & Y & _). rewrite EV. apply C2. eauto.
Qed.
(** Each plugin reads its predecessor's result, as far as the chain gets; ADD returns the last one. *)
Theorem C69_add : forall fl c l rt gs vs w tr w' r, runs fl (add_network_list c l rt) w tr w' r ->
  well_addressed c (nl_name l) rt -> well_formed_text (nl_name l) -> nl_version l <> "" -> well_formed_text (nl_version l) -> good_caps rt ->
  Forall chainable (nl_plugins l) -> List.length gs = List.length (nl_plugins l) -> chained (nl_version l) None gs vs ->
  (forall i x g, nth_error (calls tr) i = Some x -> nth_error gs i = Some g -> done_by g (nl_version l) x) ->
  (forall i x, nth_error (calls tr) i = Some x -> exists v, nth_error vs i = Some v /\ yields x v /\
     reads_prev x (nl_version l) (before None vs i)) /\
  (forall a, r = Ok a -> a = last_or None vs).
Proof.
  intros fl c l rt gs vs w tr w' r R WA WN NE WV GC CH LG CN DB. eapply chain_add; try eassumption. intros i x g net prev X G _ _ _. eapply DB; eassumption.
Qed.
(** Without file-system faults, if all plugins are found, ADD succeeds with the last result. *)
Theorem C69_add_succeeds : forall c l rt gs vs w tr w' r, runs false (add_network_list c l rt) w tr w' r ->
  well_addressed c (nl_name l) rt -> well_formed_text (nl_name l) -> nl_version l <> "" -> well_formed_text (nl_version l) -> good_caps rt ->
  Forall chainable (nl_plugins l) -> Forall usable (nl_plugins l) -> nothing_missing tr ->
  List.length gs = List.length (nl_plugins l) -> chained (nl_version l) None gs vs ->
  (forall i x g, nth_error (calls tr) i = Some x -> nth_error gs i = Some g -> done_by g (nl_version l) x) ->
  r = Ok (last_or None vs).
Proof.
  intros c l rt gs vs w tr w' r R WA WN NE WV GC CH US NM LG CN DB.
  destruct (C69_add _ _ _ _ _ _ _ _ _ _ R WA WN NE WV GC CH LG CN DB) as [G E].
  destruct (C61_add _ _ _ _ _ _ _ R) as [a A]; try assumption; try apply WA.
  - now split.
  - intros x I. apply In_nth_error in I as [i I]. destruct (G i x I) as (v & _ & Y & _). eauto.
  - rewrite A. f_equal. now apply E.
Qed.
(** *** Afterwards *)
(** DEL and CHECK of the same attachment hand every plugin the result ADD returned. *)
Theorem C69_later : forall fl c l rt w tr w1 v tr2 w2 verb, runs fl (add_network_list c l rt) w tr w1 (Ok (Some v)) ->
  carried (nl_name l) rt -> wf_result exact prefix_form v -> result_version v = nl_version l -> at_least (nl_version l) (0, 4, 0)%Z ->
  well_formed_text (nl_name l) -> good_caps rt -> Forall chainable (nl_plugins l) -> verb = "DEL" \/ verb = "CHECK" ->
  verb_run verb c l rt false w1 tr2 w2 -> forall x, In x (calls tr2) -> reads_prev x (nl_version l) (Some v).
Proof.
  intros fl c l rt w tr w1 v tr2 w2 verb A C W V AL WN GC CH HV VR x I.
  assert (WV : well_formed_text (nl_version l)) by (rewrite <- V; exact (proj2 (right_nonempty _ (proj2 W)))).
  assert (PS : presented (nl_version l) v = Ok (Some v)) by (rewrite <- V; apply presented_same; exact (proj2 W)).
  apply saves_list in A. destruct (add_saves _ _ _ _ _ _ _ _ A eq_refl) as (_ & NM & FP & (data & ST & G) & _).
  cbn [sv_name sv_rt] in *. unfold place in G. cbn [sv_name sv_rt] in G.
  assert (RR : reads_result (nl_version l) (sget (entry_path c (nl_name l) rt) w1) = Ok (Some v)).
  { rewrite G. rewrite (stored_reads _ _ v (nl_version l) ST C FP eq_refl W). exact PS. }
  assert (K : exists net, In net (nl_plugins l) /\ request c verb (nl_name l) (nl_version l) rt net (Some v) tr2 x).
  { apply In_nth_error in I as [i I]. destruct VR as [(-> & _)|[(-> & r & R)|(-> & r & R)]]; [destruct HV; discriminate| |].
    - destruct (C16_del_reverse_with_cached_result _ _ _ _ _ _ _ _ R) as (prev & (AO & _) & _ & _ & _ & CP).
      + destruct AL as (u & M & _). now exists u.
      + intros _. unfold safe_entry. rewrite RR. discriminate.
      + destruct (CP AL) as [CP'|[X _]]; [|discriminate]. assert (prev = Some v).
        { destruct CP' as [(_ & X)|([N|[e X]] & _)]; [congruence|now destruct N|congruence]. }
        subst prev. destruct (AO i x I) as (net & EN & Q). exists net. split; [|exact Q]. apply in_rev. eapply nth_error_In; exact EN.
    - destruct (nl_disable_check l) eqn:D; [destruct (C18_check_can_be_disabled _ _ _ _ _ _ _ _ R AL D) as [X _]; rewrite X in I; destruct i; discriminate|].
      destruct (C18_check_asks_in_order _ _ _ _ _ _ _ _ R AL D NM) as (cached & [->|[X _]] & M); [|discriminate]. rewrite RR in M. destruct M as ((AO & _) & _).
      destruct (AO i x I) as (net & EN & Q). exists net. split; [eapply nth_error_In; exact EN|exact Q]. }
  destruct K as (net & IN & Q). eapply request_reads; try eassumption; [|now split]. rewrite Forall_forall in CH. now apply CH.
Qed.

(** *** An example: two plugins; the first sets the domain, the second adds a name server and reports
    in another version, which PrintResult converts. *)
Definition ch_r (d : dns) : result := R040 {| v4_version := "0.4.0"; v4_interfaces := []; v4_ips := []; v4_routes := []; v4_dns := d |}.
Definition ch_first : work := fun _ => ch_r {| d_nameservers := ["10.0.0.53"]; d_domain := "d"; d_search := []; d_options := [] |}.
Definition ch_second : work := fun prev => match prev with
  | Some (R040 r) => R100 {| v1_version := "1.0.0"; v1_interfaces := []; v1_ips := []; v1_routes := [];
      v1_dns := {| d_nameservers := d_nameservers (v4_dns r) ++ ["10.0.0.54"]; d_domain := d_domain (v4_dns r); d_search := []; d_options := [] |} |}
  | _ => ch_r dns_zero
  end%list.
Definition ch_fun (g : work) : callback := fun a =>
  match unmarshal_plugin_conf (ca_stdin a) with
  | Some conf => match parse_prev_result conf with
    | Ok prev => match print_result (g prev) (pc_version conf) with Ok t => (t, None) | _ => ("", Some (EMsg "print")) end
    | _ => ("", Some (EMsg "prevResult"))
    end
  | None => ("", Some (EMsg "conf"))
  end.
Lemma ch_does g data : does g (ch_fun g) data.
Proof. intros a conf prev text E U P T. unfold ch_fun. now rewrite E, U, P, T. Qed.
Definition ch_funcs (g : work) : cni_funcs := {| f_add := Some (ch_fun g); f_del := None; f_check := None; f_gc := None; f_status := None |}.
Definition ch_conf (type : string) : string := print (JObj [("name", JStr "net1"); ("type", JStr type); ("mtu", JNum "1500")]).
Definition ch_net (type : string) : plugin_config := match plugin_conf_from_bytes (ch_conf type) with Ok c => c | _ => {| pg_conf := pg_conf (C_conf ""); pg_bytes := "" |} end.
Definition ch_net1 := Eval vm_compute in ch_net "first".
Definition ch_net2 := Eval vm_compute in ch_net "second".
Definition ch_list : network_list :=
  {| nl_name := "net1"; nl_version := "0.4.0"; nl_disable_check := false; nl_disable_gc := false; nl_only_inlined := false;
     nl_plugins := [ch_net1; ch_net2]; nl_bytes := "" |}.
Definition ch_oracle : oracle :=
  {| or_environ := ["PATH=/bin"]; or_find := fun p _ => Ok ("/opt/cni/bin/" ++ p);
     or_exec := fun _ p stdin env => fst (exec_plugin (fun _ => process_outcome (plugin_process (e2e_env stdin env)
       (if String.eqb p "/opt/cni/bin/first" then ch_funcs ch_first else ch_funcs ch_second) ex_info ""))) |}.
Lemma ch_tame : tame ch_oracle.
Proof.
  split; [reflexivity|]. intros n p s e. cbn [ch_oracle or_exec].
  destruct (process_outcome _) as [out err oe]. unfold exec_plugin.
  assert (G : forall left i so se, is_panic (fst (exec_loop left i (fun _ => {| ro_stdout := out; ro_stderr := err; ro_err := oe |}) so se)) = false).
  { induction left as [|left IH]; intros i so se; cbn [exec_loop]; [reflexivity|]. cbn [ro_err]. destruct oe as [e0|]; [|reflexivity].
    destruct (contains_str text_file_busy e0); [apply IH|reflexivity]. }
  apply G.
Qed.
Definition ch_last : result := ch_r {| d_nameservers := ["10.0.0.53"; "10.0.0.54"]; d_domain := "d"; d_search := []; d_options := [] |}.
Definition ch_v1 : result := ch_first None.
Lemma ch_wf d : wf_dns d -> wf_result exact prefix_form (ch_r d).
Proof. intros W. split; [|cbn; tauto]. split; [constructor|]. split; [constructor|]. split; [constructor|exact W]. Qed.
Lemma ch_same d : same_result (ch_r d) (ch_r d).
Proof. repeat split; constructor. Qed.
Lemma ch_chained : chained "0.4.0" None [ch_first; ch_second] [ch_v1; ch_last].
Proof.
  assert (A : forall s, Utf8.valid_utf8 s = true -> well_formed_text s) by (intros; now apply valid_utf8_wf).
  apply (ch_more "0.4.0" None ch_first [ch_second] ch_v1 ch_v1 [ch_last]); [vm_compute; reflexivity|apply ch_same|apply ch_wf; repeat split; cbn; repeat constructor; apply A; reflexivity|].
  apply (ch_more "0.4.0" (Some ch_v1) ch_second [] ch_last ch_last []); [vm_compute; reflexivity|apply ch_same|apply ch_wf; repeat split; cbn; repeat constructor; apply A; reflexivity|].
  apply (ch_none "0.4.0" (Some ch_last)).
Qed.
Lemma ch_chainable1 : chainable ch_net1.
Proof.
  eexists. split; [vm_compute; reflexivity|]. split; intros k v H; repeat (destruct H as [H|H]; [injection H as <- <-; vm_compute; congruence|]); destruct H.
Qed.
Lemma ch_chainable2 : chainable ch_net2.
Proof.
  eexists. split; [vm_compute; reflexivity|]. split; intros k v H; repeat (destruct H as [H|H]; [injection H as <- <-; vm_compute; congruence|]); destruct H.
Qed.
Lemma ch_done g x : In g [ch_first; ch_second] -> call_answer x = fst (exec_plugin (fun _ => process_outcome (plugin_process (e2e_env (call_stdin x) (call_env x)) (ch_funcs g) ex_info ""))) ->
  done_by g "0.4.0" x.
Proof.
  intros _ A. exists (e2e_env (call_stdin x) (call_env x)), (ch_funcs g), ex_info, "", (ch_fun g). split; [split; reflexivity|]. split; [exact A|].
  split; [|split; [right; now left|split; [reflexivity|split; [apply ch_does|intros (_ & n & X & _); discriminate X]]]].
  assert (W : forall v t, parse_version v = Ok t -> well_formed_version v) by (intros v t P; exists t; now apply parse_version_spec).
  repeat (constructor; [eapply W; vm_compute; reflexivity|]). constructor.
Qed.
Theorem C69_nonvacuous : exists tr w',
  runs false (add_network_list e2e_cni ch_list e2e_rt) [] tr w' (Ok (Some ch_last)) /\
  well_addressed e2e_cni "net1" e2e_rt /\ good_caps e2e_rt /\ Forall chainable (nl_plugins ch_list) /\
  chained "0.4.0" None [ch_first; ch_second] [ch_v1; ch_last] /\ List.length (calls tr) = 2 /\ nothing_missing tr /\
  (forall i x g, nth_error (calls tr) i = Some x -> nth_error [ch_first; ch_second] i = Some g -> done_by g "0.4.0" x).
Proof.
  destruct (interp ch_oracle 0 (add_network_list e2e_cni ch_list e2e_rt) []) as [[r w'] tr] eqn:E.
  pose proof (interp_run _ ch_oracle _ _ _ _ _ ch_tame E) as R.
  assert (WA : well_addressed e2e_cni "net1" e2e_rt).
  { split; [apply validate_network_name_ok; reflexivity|]. split; [apply validate_container_id_ok; reflexivity|]. split; [apply validate_interface_name_ok; reflexivity|]. split; discriminate. }
  assert (CHN : Forall chainable (nl_plugins ch_list)) by (constructor; [exact ch_chainable1|constructor; [exact ch_chainable2|constructor]]).
  vm_compute in E. injection E as <- <- <-. eexists _, _. split; [exact R|]. split; [exact WA|]. split; [constructor|]. split; [exact CHN|]. split; [exact ch_chained|].
  split; [reflexivity|]. split; [intros t p e H; repeat (destruct H as [H|H]; [discriminate H|]); destruct H|].
  intros [|[|[|i]]] x g X G; cbn [nth_error calls call_of flat_map app] in X, G; try discriminate X; injection X as <-; injection G as <-;
    (apply ch_done; [cbn; tauto|vm_compute; reflexivity]).
Qed.
Print Assumptions C69_add.
Print Assumptions C69_add_succeeds.
Print Assumptions C69_later.
Print Assumptions C69_nonvacuous.
