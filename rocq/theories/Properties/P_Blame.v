(** C75: the error of an API call says which plugin failed, and the plugin's own error stays inside. *)
From Coq Require Import String Ascii List Arith NArith ZArith Bool Lia.
From Verif Require Import Model.GoStr Model.Errors Model.Version Model.Json Model.GoJson Model.Args Model.Types Model.Validate Model.Conf Model.Invoke Model.Prog Model.Api
  Spec.NameSpec Spec.VersionSpec Spec.RunSpec Spec.CacheSpec Spec.QuoteSpec Spec.RefuseSpec Spec.BlameSpec
  Proofs.StrP Proofs.QuoteP Proofs.ValidateP Proofs.VersionP Proofs.ProgP Proofs.ApiP Proofs.VerbP Properties.P_Api Properties.P_Refuse.
Import ListNotations.
Open Scope nat_scope.
Open Scope string_scope.

Lemma described net : names_plugin net (plugin_description (pg_conf net)).
Proof.
  exists (quote (pc_type (pg_conf net))), (quote (pc_name (pg_conf net))). split; [apply quotes_quote|]. split; [apply quotes_quote|]. unfold plugin_description.
  destruct (String.eqb_spec (pc_name (pg_conf net)) "") as [E|E]; split; intros X; try contradiction; [|reflexivity].
  now rewrite StrP.append_nil_r.
Qed.
Lemma explains_wrap m e : explains (EWrap m e) m e.
Proof. split; [reflexivity|]. apply wraps_inside, wraps_itself. Qed.

(** *** One turn *)
Lemma verb_trouble fl verb c name ver net prev rt w tr w' e : runs fl (verb_network verb c name ver net prev rt) w tr w' (Err e) ->
  exists o, calls tr = maybe o /\ trouble c verb name ver rt net prev tr o e.
Proof.
  intros R. pose proof R as R0. apply verb_network_inv in R0. destruct R0 as (_ & _ & [(C & _)|(x & C & Q & NP & E)]).
  - exists None. split; [exact C|]. unfold verb_network in R. apply runs_rbindp in R.
    destruct R as [(tr1 & w1 & path & tr2 & R1 & R2 & ->)|[(e0 & [= <-] & R)|(X & _)]]; [| |discriminate].
    + apply runs_find in R1. destruct R1 as (-> & -> & _). apply runs_lift_then in R2.
      destruct (build_one_config name ver net prev rt) as [conf|e0|] eqn:B.
      * exfalso. unfold exec_plugin_without_result in R2. apply runs_rbindp in R2. destruct R2 as [(t1 & w1 & a & t2 & E1 & E2 & ->)|[(e0 & [= <-] & E)|(X & _)]]; [| |discriminate].
        -- apply runs_exec_with_args in E1. destruct E1 as (env & -> & _). discriminate.
        -- apply runs_exec_with_args in E. destruct E as (env & -> & _). discriminate.
      * destruct R2 as (-> & -> & [= ->]). now apply request_impossible.
      * destruct R2 as (_ & _ & X). discriminate.
    + apply runs_find in R. destruct R as (-> & -> & _). apply program_missing. now left.
  - exists (Some x). split; [exact C|]. destruct (call_answer x) as [o|e0|] eqn:CA; cbn in E; try discriminate. injection E as ->.
    now apply plugin_failed.
Qed.
Lemma add_trouble fl c name ver net prev rt w tr w' e : runs fl (add_network_one c name ver net prev rt) w tr w' (Err e) ->
  exists o, calls tr = maybe o /\ trouble c "ADD" name ver rt net prev tr o e.
Proof.
  intros R. pose proof R as R0. apply add_one_inv in R0. destruct R0 as (_ & _ & [(C & _)|(x & C & Q & NP & _ & _ & _ & E)]).
  - exists None. split; [exact C|]. unfold add_network_one in R. apply runs_rbindp in R.
    destruct R as [(tr1 & w1 & path & tr2 & R1 & R2 & ->)|[(e0 & [= <-] & R)|(X & _)]]; [| |discriminate].
    + apply runs_find in R1. destruct R1 as (-> & -> & _).
      apply runs_lift_then in R2. destruct (validate_container_id (rt_container rt)) eqn:V1; cbn [check_opt] in R2.
      { apply names_refused; [reflexivity|]. intros (G & _). apply validate_container_id_ok in G. congruence. }
      apply runs_lift_then in R2. destruct (validate_network_name name) eqn:V2; cbn [check_opt] in R2.
      { apply names_refused; [reflexivity|]. intros (_ & G & _). apply validate_network_name_ok in G. congruence. }
      apply runs_lift_then in R2. destruct (validate_interface_name (rt_ifname rt)) eqn:V3; cbn [check_opt] in R2.
      { apply names_refused; [reflexivity|]. intros (_ & _ & G). apply validate_interface_name_ok in G. congruence. }
      apply runs_lift_then in R2. destruct (build_one_config name ver net prev rt) as [conf|e0|] eqn:B.
      * exfalso. unfold exec_plugin_with_result in R2. apply runs_rbindp in R2. destruct R2 as [(t1 & w1 & a & t2 & E1 & E2 & ->)|[(e0 & [= <-] & E)|(X & _)]]; [| |discriminate].
        -- apply runs_exec_with_args in E1. destruct E1 as (env & -> & _). discriminate.
        -- apply runs_exec_with_args in E. destruct E as (env & -> & _). discriminate.
      * destruct R2 as (-> & -> & [= ->]). now apply request_impossible.
      * destruct R2 as (_ & _ & X). discriminate.
    + apply runs_find in R. destruct R as (-> & -> & _). apply program_missing. now left.
  - exists (Some x). split; [exact C|]. destruct (call_answer x) as [o|e0|] eqn:CA; cbn in E; try discriminate.
    + symmetry in E. eapply result_unreadable; [reflexivity|exact Q|exact CA|exact E].
    + injection E as ->. now apply plugin_failed.
Qed.
Lemma trouble_more c verb name ver rt net prev a tr o e : trouble c verb name ver rt net prev tr o e ->
  trouble c verb name ver rt net prev (a ++ tr)%list o e.
Proof.
  destruct 1 as [e I|e V N|e B|x e Q CA|x out e V Q CA D].
  - apply program_missing. apply in_or_app. now right.
  - now apply names_refused.
  - now apply request_impossible.
  - apply plugin_failed; [now apply request_app_r|exact CA].
  - eapply result_unreadable; [exact V|apply request_app_r; exact Q|exact CA|exact D].
Qed.
Lemma trouble_before c verb name ver rt net prev a tr o e : trouble c verb name ver rt net prev tr o e ->
  trouble c verb name ver rt net prev (tr ++ a)%list o e.
Proof.
  destruct 1 as [e I|e V N|e B|x e Q CA|x out e V Q CA D].
  - apply program_missing. apply in_or_app. now left.
  - now apply names_refused.
  - now apply request_impossible.
  - apply plugin_failed; [now apply request_app_l|exact CA].
  - eapply result_unreadable; [exact V|apply request_app_l; exact Q|exact CA|exact D].
Qed.

(** *** ADD *)
Lemma add_blame fl c name ver rt : forall nets prev w tr w' e, runs fl (add_loop c name ver nets prev rt) w tr w' (Err e) ->
  exists past results o net e', calls tr = (past ++ maybe o)%list /\ Forall2 yields past results /\
    nth_error nets (List.length past) = Some net /\ trouble c "ADD" name ver rt net (last_or prev results) tr o e' /\
    e = EWrap ("plugin " ++ plugin_description (pg_conf net) ++ " failed (add)") e'.
Proof.
  induction nets as [|net nets IH]; intros prev w tr w' e H; cbn [add_loop] in H.
  { apply runs_ret in H. destruct H as (_ & _ & X). discriminate. }
  apply runs_rbindp in H. destruct H as [(tr1 & w1 & a & tr2 & R1 & R2 & ->)|[(e0 & [= <-] & R)|(X & _)]]; [| |discriminate].
  - apply runs_pwrap in R1. destruct R1 as (r0 & R1 & E). destruct r0 as [b|?|]; try discriminate. assert (b = a) by (cbn in E; congruence). subst b. clear E.
    destruct (add_one_inv _ _ _ _ _ _ _ _ _ _ _ R1) as (-> & _ & [(_ & X)|(x & C & _ & _ & _ & _ & _ & E)]); [now destruct (X a)|].
    apply IH in R2. destruct R2 as (past & results & o & n & e' & C2 & Y & L & T & ->).
    exists (x :: past), (a :: results), o, n, e'. rewrite calls_app, C, C2. split; [reflexivity|].
    split. { constructor; [|exact Y]. destruct (call_answer x) as [out|e1|] eqn:CA; cbn in E; try discriminate. exists out. auto. }
    split; [exact L|]. split; [|reflexivity]. apply trouble_more.
    replace (last_or prev (a :: results)) with (last_or (Some a) results) by (destruct results; reflexivity). exact T.
  - apply runs_pwrap in R. destruct R as (r0 & R & E). destruct r0 as [|e0|]; try discriminate. injection E as ->.
    apply add_trouble in R. destruct R as (o & C & T). exists [], [], o, net, e0. rewrite C. auto 8.
Qed.
(** An ADD that returns an error names the plugin at which it stopped; the ones before it
    succeeded, with these results; or all did, and the attachment could not be recorded. *)
Theorem C75_add : forall fl c l rt w tr w' e, runs fl (add_network_list c l rt) w tr w' (Err e) ->
  (exists past results o net e' d, calls tr = (past ++ maybe o)%list /\ Forall2 yields past results /\
     nth_error (nl_plugins l) (List.length past) = Some net /\
     trouble c "ADD" (nl_name l) (nl_version l) rt net (last_or None results) tr o e' /\
     names_plugin net d /\ explains e ("plugin " ++ d ++ " failed (add)") e') \/
  (List.length (calls tr) = List.length (nl_plugins l) /\ (forall x, In x (calls tr) -> exists v, yields x v) /\
   exists e' d, explains e ("failed to set network " ++ d ++ " cached result") e' /\
     quotes d (nl_name l)).
Proof.
  intros fl c l rt w tr w' e H. pose proof H as H0. unfold add_network_list in H. apply runs_rbindp in H.
  destruct H as [(tr1 & w1 & a & tr2 & R1 & R2 & ->)|[(e0 & [= <-] & R)|(X & _)]]; [| |discriminate].
  - right. apply runs_rbindp in R2. destruct R2 as [(t1 & w2 & u & t2 & S1 & S2 & ->)|[(e0 & [= <-] & S1)|(X & _)]]; [| |discriminate].
    + apply runs_lift in S2. destruct S2 as (_ & _ & X). discriminate.
    + apply runs_pwrap in S1. destruct S1 as (r0 & S1 & E). destruct r0 as [|e0|]; try discriminate. injection E as ->.
      apply cache_add_inv in S1. destruct S1 as (C2 & _). rewrite calls_app, C2, app_nil_r.
      apply add_loop_inv in R1. destruct R1 as (_ & _ & results & _ & P2 & _ & [(L1 & L2 & _)|(_ & N & _)]); [|now destruct (N a)].
      split; [exact L2|]. split.
      * intros x I. apply In_nth_error in I. destruct I as [i I]. assert (i < List.length results) as LI.
        { rewrite L1, <- L2. apply nth_error_Some. congruence. }
        apply nth_error_Some in LI. destruct (nth_error results i) as [v|] eqn:E; [|congruence]. apply P2 in E. destruct E as (x' & I' & Y).
        exists v. congruence.
      * exists e0, (quote (nl_name l)). split; [apply explains_wrap|apply quotes_quote].
  - left. apply add_blame in R. destruct R as (past & results & o & net & e' & C & Y & L & T & ->).
    exists past, results, o, net, e', (plugin_description (pg_conf net)).
    split; [exact C|]. split; [exact Y|]. split; [exact L|]. split; [exact T|]. split; [apply described|apply explains_wrap].
Qed.

(** *** DEL *)
Lemma del_blame fl c name ver rt prev : forall nets w tr w' e, runs fl (del_loop c name ver nets prev rt) w tr w' (Err e) ->
  exists net e', stops_at c "DEL" name ver rt nets prev tr net e' /\
    e = EWrap ("plugin " ++ plugin_description (pg_conf net) ++ " failed (delete)") e'.
Proof.
  induction nets as [|net nets IH]; intros w tr w' e H; cbn [del_loop] in H.
  { apply runs_ret in H. destruct H as (_ & _ & X). discriminate. }
  apply runs_rbindp in H. destruct H as [(tr1 & w1 & a & tr2 & R1 & R2 & ->)|[(e0 & [= <-] & R)|(X & _)]]; [| |discriminate].
  - apply runs_pwrap in R1. destruct R1 as (r0 & R1 & E). destruct r0 as [[]|?|]; try discriminate. clear E.
    destruct (verb_network_inv _ _ _ _ _ _ _ _ _ _ _ _ R1) as (-> & _ & [(_ & X)|(x & C & _ & _ & E)]); [now destruct X|].
    apply IH in R2. destruct R2 as (n & e' & (past & o & C2 & F & L & T) & ->).
    exists n, e'. split; [|reflexivity]. exists (x :: past), o. rewrite calls_app, C, C2. split; [reflexivity|].
    split; [constructor; [symmetry in E; apply rmap_tt_ok in E; exact E|exact F]|]. split; [exact L|now apply trouble_more].
  - apply runs_pwrap in R. destruct R as (r0 & R & E). destruct r0 as [|e0|]; try discriminate. injection E as ->.
    apply verb_trouble in R. destruct R as (o & C & T). exists net, e0. split; [|reflexivity]. exists [], o. auto.
Qed.
Lemma del_stages fl c l rt w tr w' e g : runs fl (del_network_list c l rt) w tr w' (Err e) -> gte (nl_version l) "0.4.0" = Ok g ->
  exists prev tr0 w0 tr1, runs fl (del_loop c (nl_name l) (nl_version l) (rev (nl_plugins l)) prev rt) w0 tr1 w' (Err e) /\ tr = (tr0 ++ tr1)%list /\ calls tr0 = [].
Proof.
  intros H G. unfold del_network_list in H. apply runs_lift_then in H. rewrite G in H.
  apply runs_rbindp in H. destruct H as [(u1 & w1 & cached & u2 & R1 & R2 & ->)|[(e0 & [= <-] & R)|(X & _)]]; [| |discriminate].
  - apply runs_rbindp in R2. destruct R2 as [(v1 & w2 & [] & v2 & R2 & R3 & ->)|[(e0 & [= <-] & R)|(X & _)]]; [| |discriminate].
    { apply runs_bind in R3. destruct R3 as (x1 & w3 & y & x2 & _ & R3 & _). apply runs_ret in R3. destruct R3 as (_ & _ & X). discriminate. }
    exists cached, u1, w1, u2. split; [exact R|]. split; [reflexivity|].
    destruct g; [|apply runs_ret in R1; destruct R1 as (-> & _); reflexivity].
    apply runs_bind in R1. destruct R1 as (x1 & w3 & y & x2 & R0 & R1 & ->). apply get_cached_inv in R0. destruct R0 as (_ & _ & C0 & _). rewrite calls_app, C0.
    destruct y; [apply runs_ret in R1; destruct R1 as (-> & _); reflexivity| |apply runs_ret in R1; destruct R1 as (-> & _); reflexivity].
    apply runs_bind in R1. destruct R1 as (x3 & w4 & y & x4 & R4 & R5 & ->). apply runs_ret in R5. destruct R5 as (-> & _). apply cache_del_inv in R4. rewrite app_nil_r.
    now destruct R4 as (C4 & _).
  - exfalso. destruct g; [|apply runs_ret in R; destruct R as (_ & _ & X); discriminate].
    apply runs_bind in R. destruct R as (x1 & w3 & y & x2 & _ & R & _). destruct y;
    [apply runs_ret in R; destruct R as (_ & _ & X); discriminate
    |apply runs_bind in R; destruct R as (x3 & w4 & y & x4 & _ & R & _); apply runs_ret in R; destruct R as (_ & _ & X); discriminate
    |apply runs_ret in R; destruct R as (_ & _ & X); discriminate].
Qed.
(** A DEL that returns an error names the plugin at which it stopped, in reverse list order; only a
    configuration version that is none is refused before. *)
Theorem C75_del : forall fl c l rt w tr w' e, runs fl (del_network_list c l rt) w tr w' (Err e) ->
  (exists prev net e' d, stops_at c "DEL" (nl_name l) (nl_version l) rt (rev (nl_plugins l)) prev tr net e' /\
     names_plugin net d /\ explains e ("plugin " ++ d ++ " failed (delete)") e') \/
  (~ well_formed_version (nl_version l) /\ tr = []).
Proof.
  intros fl c l rt w tr w' e H. destruct (gte_iff (nl_version l) "0.4.0" _ means_040) as (GT & GF & GE & _).
  destruct (gte (nl_version l) "0.4.0") as [g|e0|] eqn:G.
  - left. destruct (del_stages _ _ _ _ _ _ _ _ _ H G) as (prev & tr0 & w0 & tr1 & R & -> & C0). apply del_blame in R.
    destruct R as (net & e' & (past & o & C & F & L & T) & ->).
    exists prev, net, e', (plugin_description (pg_conf net)). split; [|split; [apply described|apply explains_wrap]].
    exists past, o. rewrite calls_app, C0, C. split; [reflexivity|]. split; [exact F|]. split; [exact L|now apply trouble_more].
  - right. assert (N : ~ well_formed_version (nl_version l)) by (apply GE; eauto). split; [exact N|].
    now destruct (C16_bad_version_runs_nothing _ _ _ _ _ _ _ _ H N).
  - exfalso. unfold del_network_list in H. apply runs_lift_then in H. rewrite G in H. destruct H as (_ & _ & X). discriminate.
Qed.

(** *** CHECK *)
Lemma check_blame fl c name ver rt prev : forall nets w tr w' e, runs fl (check_loop c name ver nets prev rt) w tr w' (Err e) ->
  exists net, stops_at c "CHECK" name ver rt nets prev tr net e.
Proof.
  induction nets as [|net nets IH]; intros w tr w' e H; cbn [check_loop] in H.
  { apply runs_ret in H. destruct H as (_ & _ & X). discriminate. }
  apply runs_rbindp in H. destruct H as [(tr1 & w1 & [] & tr2 & R1 & R2 & ->)|[(e0 & [= <-] & R)|(X & _)]]; [| |discriminate].
  - destruct (verb_network_inv _ _ _ _ _ _ _ _ _ _ _ _ R1) as (-> & _ & [(_ & X)|(x & C & _ & _ & E)]); [now destruct X|].
    apply IH in R2. destruct R2 as (n & past & o & C2 & F & L & T).
    exists n. exists (x :: past), o. rewrite calls_app, C, C2. split; [reflexivity|].
    split; [constructor; [symmetry in E; apply rmap_tt_ok in E; exact E|exact F]|]. split; [exact L|now apply trouble_more].
  - apply verb_trouble in R. destruct R as (o & C & T). exists net. exists [], o. auto.
Qed.
(** A CHECK that returns an error returns the error of the plugin at which it stopped as it is
    (without naming the plugin); or the record could not be read; or the version does not have
    CHECK. *)
Theorem C75_check : forall fl c l rt w tr w' e, runs fl (check_network_list c l rt) w tr w' (Err e) ->
  (exists prev net, stops_at c "CHECK" (nl_name l) (nl_version l) rt (nl_plugins l) prev tr net e) \/
  (calls tr = [] /\ exists e' d, explains e ("failed to get network " ++ d ++ " cached result") e' /\
     quotes d (nl_name l)) \/
  (tr = [] /\ below (nl_version l) (0, 4, 0)%Z /\
     exists q, quotes q (nl_version l) /\ err_string e = "configuration version " ++ q ++ " does not support the CHECK command") \/
  (tr = [] /\ ~ well_formed_version (nl_version l)).
Proof.
  intros fl c l rt w tr w' e H. destruct (gte_iff (nl_version l) "0.4.0" _ means_040) as (GT & GF & GE & _).
  unfold check_network_list in H. apply runs_lift_then in H. destruct (gte (nl_version l) "0.4.0") as [g|e0|] eqn:G.
  - destruct g; cbn [negb] in H.
    + destruct (nl_disable_check l); [apply runs_ret in H; destruct H as (_ & _ & X); discriminate|].
      apply runs_rbindp in H. destruct H as [(tr1 & w1 & cached & tr2 & R1 & R2 & ->)|[(e0 & [= <-] & R)|(X & _)]]; [| |discriminate].
      * left. apply runs_pwrap in R1. destruct R1 as (r0 & R1 & _). apply get_cached_inv in R1. destruct R1 as (_ & _ & C0 & _).
        apply check_blame in R2. destruct R2 as (net & past & o & C & F & L & T). exists cached, net. exists past, o. rewrite calls_app, C0, C.
        split; [reflexivity|]. split; [exact F|]. split; [exact L|now apply trouble_more].
      * right. left. apply runs_pwrap in R. destruct R as (r0 & R1 & E). destruct r0 as [|e0|]; try discriminate. cbn in E. injection E as ->.
        apply get_cached_inv in R1. destruct R1 as (_ & _ & C0 & _). split; [exact C0|]. exists e0, (quote (nl_name l)). split; [apply explains_wrap|apply quotes_quote].
    + right. right. left. apply runs_ret in H. destruct H as (-> & _ & [= ->]). split; [reflexivity|]. split; [now apply GF|].
      exists (quote (nl_version l)). split; [apply quotes_quote|reflexivity].
  - right. right. right. destruct H as (-> & _). split; [reflexivity|]. apply GE. eauto.
  - destruct H as (_ & _ & X). discriminate.
Qed.

(** *** STATUS *)
Lemma plain_more c conf verb a tr o e : plain_trouble c conf verb tr o e -> plain_trouble c conf verb (a ++ tr)%list o e.
Proof.
  destruct 1 as [e I|x e Q CA].
  - apply plain_missing. apply in_or_app. now right.
  - apply plain_failed; [now apply plain_app_r|exact CA].
Qed.
Lemma status_blame fl c inject : forall nets w tr w' e, runs fl (status_loop c inject nets) w tr w' (Err e) ->
  exists past o net, calls tr = (past ++ maybe o)%list /\ Forall succeeded past /\ nth_error nets (List.length past) = Some net /\
    ((exists conf, inject_conf net inject = Ok conf /\ plain_trouble c conf "STATUS" tr o e) \/
     (o = None /\ exists e', inject_conf net inject = Err e' /\ explains e ("failed to generate configuration to get plugin STATUS " ++ pc_type (pg_conf net)) e')).
Proof.
  induction nets as [|net nets IH]; intros w tr w' e H; cbn [status_loop] in H.
  { apply runs_ret in H. destruct H as (_ & _ & X). discriminate. }
  apply runs_lift_then in H. destruct (inject_conf net inject) as [conf|e0|] eqn:IC; cbn [rwrap] in H.
  - apply runs_rbindp in H. destruct H as [(tr1 & w1 & [] & tr2 & R1 & R2 & ->)|[(e0 & [= <-] & R)|(X & _)]]; [| |discriminate].
    + apply verb_only_inv in R1. destruct R1 as (-> & _ & [(_ & e0 & X & _)|(x & C & _ & _ & E)]); [discriminate|].
      apply IH in R2. destruct R2 as (past & o & n & C2 & F & L & T). exists (x :: past), o, n. rewrite calls_app, C, C2. split; [reflexivity|].
      split; [constructor; [symmetry in E; apply rmap_tt_ok in E; exact E|exact F]|]. split; [exact L|].
      destruct T as [(cf & IC2 & T)|T]; [left; exists cf; split; [exact IC2|now apply plain_more]|now right].
    + apply verb_only_inv in R. destruct R as (-> & _ & [(C & e0 & [= <-] & I)|(x & C & Q & NP & E)]).
      * exists [], None, net. split; [exact C|]. split; [constructor|]. split; [reflexivity|]. left. exists conf. split; [exact IC|now apply plain_missing].
      * exists [], (Some x), net. split; [exact C|]. split; [constructor|]. split; [reflexivity|]. left. exists conf. split; [exact IC|].
        destruct (call_answer x) as [o|e0|] eqn:CA; cbn in E; try discriminate. injection E as ->. now apply plain_failed.
  - destruct H as (-> & _ & [= ->]). exists [], None, net. split; [reflexivity|]. split; [constructor|]. split; [reflexivity|]. right. split; [reflexivity|].
    exists e0. split; [exact IC|apply explains_wrap].
  - destruct H as (_ & _ & X). discriminate.
Qed.
(** A STATUS that returns an error returns that of the first plugin that is not ready, as it is. *)
Theorem C75_status : forall fl c l w tr w' e, runs fl (get_status_network_list c l) w tr w' (Err e) ->
  exists past o net, calls tr = (past ++ maybe o)%list /\ Forall succeeded past /\
    nth_error (nl_plugins l) (List.length past) = Some net /\
    let with_names := inject_conf net [("name", GVal (Some (JStr (nl_name l)))); ("cniVersion", GVal (Some (JStr (nl_version l))))] in
    ((exists conf, with_names = Ok conf /\ plain_trouble c conf "STATUS" tr o e) \/
     (o = None /\ exists e', with_names = Err e' /\
        explains e ("failed to generate configuration to get plugin STATUS " ++ pc_type (pg_conf net)) e')).
Proof.
  intros fl c l w tr w' e H. unfold get_status_network_list in H. destruct (negb _); [apply runs_ret in H; destruct H as (_ & _ & X); discriminate|].
  now apply status_blame in H.
Qed.

(** *** GC *)
Lemma gc_del_blame fl c l args : forall atts errs w tr w' r, runs fl (gc_del_loop c l args atts errs) w tr w' (Ok r) ->
  exists rs es, dels fl c l (filter (staleb l args) atts) w tr w' rs /\ r = (errs ++ es)%list /\ del_errors (filter (staleb l args) atts) rs es.
Proof.
  induction atts as [|a atts IH]; intros errs w tr w' r H; cbn [gc_del_loop] in H.
  - apply runs_ret in H. destruct H as (-> & -> & [= ->]). exists [], []. rewrite app_nil_r. split; [constructor|]. split; [reflexivity|constructor].
  - cbn [filter]. assert (SB : staleb l args a = String.eqb (at_network a) (nl_name l) && negb (is_valid_attachment args {| ga_container := at_container a; ga_ifname := at_ifname a |})) by reflexivity.
    destruct (String.eqb (at_network a) (nl_name l)); cbn [negb andb] in *; [|rewrite SB; now apply IH].
    destruct (is_valid_attachment args _); cbn [negb] in *; rewrite SB; [now apply IH|].
    apply runs_bind in H. destruct H as (t1 & w1 & a1 & t2 & R1 & R2 & ->).
    destruct a1 as [[]|e|].
    + apply IH in R2. destruct R2 as (rs & es & D & -> & E). exists (Ok tt :: rs), es. split; [econstructor; [apply params_of_rt|exact R1|exact D]|].
      split; [reflexivity|]. now constructor.
    + apply IH in R2. destruct R2 as (rs & es & D & -> & E). eexists (Err e :: rs), (_ :: es). split; [econstructor; [apply params_of_rt|exact R1|exact D]|].
      split; [rewrite <- app_assoc; reflexivity|]. constructor; [apply explains_wrap|exact E].
    + apply runs_ret in R2. destruct R2 as (_ & _ & X). discriminate.
Qed.
Lemma gc_plugin_blame fl c inject : forall nets errs w tr w' r, runs fl (gc_plugin_loop c inject nets errs) w tr w' (Ok r) ->
  exists ends es, turns (gc_turn c inject) nets tr ends /\ r = (errs ++ es)%list /\ gc_errors nets ends es.
Proof.
  induction nets as [|net nets IH]; intros errs w tr w' r H; cbn [gc_plugin_loop] in H.
  - apply runs_ret in H. destruct H as (-> & -> & [= ->]). exists [], []. rewrite app_nil_r. split; [apply turns_nil|]. split; [reflexivity|constructor].
  - destruct (inject_conf net inject) as [conf|e|] eqn:IC; [|apply runs_ret in H; destruct H as (_ & _ & X); discriminate|apply runs_ret in H; destruct H as (_ & _ & X); discriminate].
    apply runs_bind in H. destruct H as (t1 & w1 & a & t2 & R1 & R2 & ->).
    apply verb_only_turn in R1. destruct R1 as (-> & _ & t & NP & -> & T).
    destruct t as [e|x]; cbn [end_answer] in *.
    + cbn [rmap rbind] in R2. apply IH in R2. destruct R2 as (ends & es & T2 & -> & E). eexists (Missing e :: ends), (_ :: es).
      split; [apply turns_cons; [now exists conf|exact T2]|]. split; [rewrite <- app_assoc; reflexivity|]. constructor; [apply explains_wrap|exact E].
    + destruct (call_answer x) as [o|e|] eqn:CA; cbn [rmap rbind] in R2; [| |discriminate].
      * apply IH in R2. destruct R2 as (ends & es & T2 & -> & E). exists (Ran x :: ends), es.
        split; [apply turns_cons; [now exists conf|exact T2]|]. split; [reflexivity|]. apply gc_errors_ok; [now exists o|exact E].
      * apply IH in R2. destruct R2 as (ends & es & T2 & -> & E). eexists (Ran x :: ends), (_ :: es).
        split; [apply turns_cons; [now exists conf|exact T2]|]. split; [rewrite <- app_assoc; reflexivity|].
        eapply gc_errors_failed; [exact CA|apply explains_wrap|exact E].
Qed.
(** A GC that returns an error has one line for every stale attachment whose DEL failed, naming
    it, and then one for every plugin whose GC failed, naming its type; and nothing else. *)
Theorem C75_gc : forall fl c l args w tr w' e, runs fl (gc_network_list c l args) w tr w' (Err e) ->
  exists atts is_stale tr0 tr1 tr2 rs del_lines gc_lines,
    runs fl (get_cached_attachments c "") w tr0 w (Ok atts) /\ tr = (tr0 ++ tr1 ++ tr2)%list /\
    (forall a, is_stale a = true <-> stale l args a) /\
    dels fl c l (filter is_stale atts) w tr1 w' rs /\ del_errors (filter is_stale atts) rs del_lines /\
    ((~ at_least (nl_version l) (1, 1, 0)%Z /\ tr2 = [] /\ gc_lines = []) \/
     (at_least (nl_version l) (1, 1, 0)%Z /\ exists ends, turns (gc_asks c l args) (nl_plugins l) tr2 ends /\
        gc_errors (nl_plugins l) ends gc_lines)) /\
    one_per_line e (del_lines ++ gc_lines)%list /\ (del_lines ++ gc_lines)%list <> [].
Proof.
  intros fl c l args w tr w' e H. unfold gc_network_list in H. destruct (nl_disable_gc l); [apply runs_ret in H; destruct H as (_ & _ & X); discriminate|].
  apply runs_bind in H. destruct H as (t1 & w1 & a & t2 & R1 & R2 & ->). pose proof R1 as R0. apply get_cached_attachments_inv in R0. destruct R0 as (-> & _).
  destruct a as [atts|e0|]; [|apply runs_ret in R2; destruct R2 as (_ & _ & X); discriminate|apply runs_ret in R2; destruct R2 as (_ & _ & X); discriminate].
  assert (LAST : forall es, join_errors es = Err e -> one_per_line e es /\ es <> []).
  { intros es E. destruct es as [|x es]; [discriminate|]. unfold join_errors in E. injection E as <-. split; [|discriminate]. split; [reflexivity|].
    intros y I. eapply wraps_joined; [exact I|apply wraps_itself]. }
  apply runs_rbindp in R2. destruct R2 as [(u1 & w2 & es & u2 & R2 & R3 & ->)|[(e0 & [= <-] & R)|(X & _)]]; [| |discriminate].
  - apply gc_del_blame in R2. destruct R2 as (rs & es0 & D & -> & DE). cbn [app] in R3.
    apply runs_rbindp in R3. destruct R3 as [(v1 & w3 & es1 & v2 & R3 & R4 & ->)|[(e0 & [= <-] & R)|(X & _)]]; [| |discriminate].
    + apply runs_ret in R4. destruct R4 as (-> & -> & E). symmetry in E. apply LAST in E.
      destruct (gte_or_false (nl_version l) "1.1.0") eqn:G.
      * pose proof R3 as R3'. apply gc_plugin_loop_inv in R3'. destruct R3' as (-> & _). apply gc_plugin_blame in R3. destruct R3 as (ends & es2 & T & -> & GE).
        exists atts, (staleb l args), t1, u1, v1, rs, es0, es2. split; [exact R1|]. rewrite app_nil_r. split; [reflexivity|]. split; [apply staleb_iff|].
        split; [exact D|]. split; [exact DE|]. split; [|exact E]. right. split; [now apply gte_or_false_iff|]. exists ends. split; [exact T|exact GE].
      * apply runs_ret in R3. destruct R3 as (-> & -> & [= ->]). exists atts, (staleb l args), t1, u1, [], rs, es0, [].
        split; [exact R1|]. split; [reflexivity|]. split; [apply staleb_iff|]. split; [exact D|]. split; [exact DE|]. rewrite !app_nil_r. split; [|exact E].
        left. split; [|auto]. rewrite <- gte_or_false_iff. congruence.
    + destruct (gte_or_false (nl_version l) "1.1.0"); [|apply runs_ret in R; destruct R as (_ & _ & X); discriminate].
      apply gc_plugin_loop_inv in R. destruct R as (_ & _ & [(X & _)|(ends & es' & _ & X & _)]); discriminate.
  - apply gc_del_loop_inv in R. destruct R as [(X & _)|(rs & es & _ & X & _)]; discriminate.
Qed.

(** *** Validation *)
Lemma validate_plugin_blame fl c net v w tr w' r : runs fl (validate_plugin c (pc_type (pg_conf net)) v) w tr w' r ->
  exists t, asks_version c net tr t /\ w' = w /\
    ((r = Ok tt /\ exists x vs, t = Ran x /\ reports x vs /\ In (expected_version v) vs) \/
     (exists e, r = Err e /\ t = Missing e) \/
     (exists e x, r = Err e /\ t = Ran x /\ version_answer (call_answer x) = Err e) \/
     (exists e x vs, r = Err e /\ t = Ran x /\ reports x vs /\ ~ In (expected_version v) vs /\
        exists q, quotes q (expected_version v) /\ err_string e = "plugin " ++ pc_type (pg_conf net) ++ " does not support config version " ++ q)).
Proof.
  intros H. pose proof H as H0. apply validate_plugin_inv in H0. destruct H0 as (-> & _ & NP & t & T & V). exists t. split; [exact T|]. split; [reflexivity|].
  unfold validate_plugin in H. apply runs_rbindp in H. destruct H as [(tr1 & w1 & path & tr2 & R1 & R2 & ->)|[(e & -> & R)|(-> & R)]].
  - apply runs_find in R1. destruct R1 as (-> & -> & _).
    assert (G : exists env a, tr2 = [(OpEnviron, REnv env); (OpExec path version_stdin (as_env env version_args), RStr a)] /\
       r = match version_answer a with Ok vi => if mem_str (expected_version v) (pi_supported vi) then Ok tt
             else Err (EMsg ("plugin " ++ pc_type (pg_conf net) ++ " does not support config version " ++ quote (expected_version v))) | Err e => Err e | Panic => Panic end).
    { apply runs_rbindp in R2. destruct R2 as [(t1 & w1 & vi & t2 & E1 & E2 & ->)|[(e & -> & E)|(-> & E)]].
      - apply version_info_inv in E1. destruct E1 as (-> & env & a & -> & _ & E). apply runs_ret in E2. destruct E2 as (-> & _ & ->).
        rewrite app_nil_r. exists env, a. rewrite <- E. auto.
      - apply version_info_inv in E. destruct E as (_ & env & a & -> & _ & E). exists env, a. rewrite <- E. auto.
      - apply version_info_inv in E. destruct E as (_ & env & a & -> & _ & E). exists env, a. rewrite <- E. auto. }
    destruct G as (env & a & -> & ->). destruct T as [e X|x C _ _ _]; [discriminate|]. cbn in C. injection C as <-.
    set (x := {| call_path := path; call_stdin := version_stdin; call_env := as_env env version_args; call_answer := a |}) in *.
    destruct (version_answer a) as [vi|e|] eqn:VA; [| |now destruct NP].
    + assert (RP : reports x (pi_supported vi)) by (exists vi; auto).
      destruct (mem_str (expected_version v) (pi_supported vi)) eqn:M.
      * left. split; [reflexivity|]. exists x, (pi_supported vi). split; [reflexivity|]. split; [exact RP|now apply mem_str_In].
      * right. right. right. eexists _, x, (pi_supported vi). split; [reflexivity|]. split; [reflexivity|]. split; [exact RP|].
        split; [intros I; apply mem_str_In in I; congruence|]. exists (quote (expected_version v)). split; [apply quotes_quote|reflexivity].
    + right. right. left. exists e, x. auto.
  - right. left. exists e. split; [reflexivity|]. apply runs_find in R. destruct R as (-> & _). destruct T as [e' X|x C _ _ _]; [congruence|discriminate].
  - now destruct NP.
Qed.
Lemma validate_loop_blame fl c v : forall nets caps errs w tr w' caps' r, runs fl (validate_loop c v nets caps errs) w tr w' (Ok (caps', r)) ->
  exists ends es, turns (asks_version c) nets tr ends /\ r = (errs ++ es)%list /\ validate_errors (expected_version v) nets ends (map err_string es).
Proof.
  induction nets as [|net nets IH]; intros caps errs w tr w' caps' r H; cbn [validate_loop] in H.
  - apply runs_ret in H. destruct H as (-> & _ & [= _ ->]). exists [], []. split; [apply turns_nil|]. rewrite app_nil_r. split; [reflexivity|constructor].
  - apply runs_bind in H. destruct H as (t1 & w1 & a & t2 & R1 & R2 & ->).
    apply validate_plugin_blame in R1. destruct R1 as (t & T & -> & [(-> & x & vs & -> & RP & I)|[(e & -> & ->)|[(e & x & -> & -> & VA)|(e & x & vs & -> & -> & RP & NI & q & QV & TX)]]]);
      apply IH in R2; destruct R2 as (ends & es & T2 & -> & E).
    + exists (Ran x :: ends), es. split; [now apply turns_cons|]. split; [reflexivity|]. econstructor; eassumption.
    + exists (Missing e :: ends), (e :: es). split; [now apply turns_cons|]. split; [now rewrite <- app_assoc|]. now apply validate_errors_missing.
    + exists (Ran x :: ends), (e :: es). split; [now apply turns_cons|]. split; [now rewrite <- app_assoc|]. now apply validate_errors_silent.
    + exists (Ran x :: ends), (e :: es). split; [now apply turns_cons|]. split; [now rewrite <- app_assoc|]. eapply validate_errors_other; eassumption.
Qed.
(** A validation that returns an error lists, in list order, what is wrong with each plugin. *)
Theorem C75_validate : forall fl c l w tr w' e, runs fl (validate_network_list c l) w tr w' (Err e) ->
  exists ends ms, turns (asks_version c) (nl_plugins l) tr ends /\ validate_errors (wanted_version l) (nl_plugins l) ends ms /\
    ms <> [] /\ err_string e = "[" ++ String.concat " " ms ++ "]".
Proof.
  intros fl c l w tr w' e H. unfold validate_network_list in H. apply runs_rbindp in H.
  destruct H as [(t1 & w1 & [caps errs] & t2 & R1 & R2 & ->)|[(e0 & _ & R)|(X & _)]]; [| |discriminate].
  2: apply validate_loop_inv in R; destruct R as (_ & _ & ends & es & _ & _ & X); discriminate.
  apply validate_loop_blame in R1. destruct R1 as (ends & es & T & -> & VE). apply runs_ret in R2. destruct R2 as (-> & _ & E). rewrite app_nil_r.
  cbn [app] in E. exists ends, (map err_string es). split; [exact T|]. split; [exact VE|].
  destruct es as [|e1 es]; [discriminate|]. injection E as ->. split; [discriminate|reflexivity].
Qed.

(** *** Concrete cases *)
Lemma plain_all s : forallb (fun c => (32 <=? byte c)%N && (byte c <=? 126)%N && negb (N.eqb (byte c) 34) && negb (N.eqb (byte c) 92)) (list_ascii_of_string s) = true -> plain_text s.
Proof.
  unfold plain_text. induction s as [|c s IH]; intros H; [constructor|]. cbn [list_ascii_of_string forallb] in H. apply andb_prop in H. destruct H as (H & H2).
  apply andb_prop in H. destruct H as (H & H0). apply andb_prop in H. destruct H as (H & H1). apply andb_prop in H. destruct H as (H3 & H4).
  apply N.leb_le in H3, H4. apply negb_true_iff, N.eqb_neq in H0, H1. constructor; [auto|now apply IH].
Qed.
(** What stands in quotation marks in a message can be read back, whatever follows it. *)
Theorem C75_quoted : forall s, quotes (quote s) s.
Proof. exact quotes_quote. Qed.
Theorem C75_quoted_once : forall q s q' s' r r', quotes q s -> quotes q' s' -> q ++ r = q' ++ r' -> s = s' /\ r = r'.
Proof. intros q s q' s' r r' Q Q' E. destruct (quotes_split _ _ _ _ _ _ Q Q' E) as (_ & A & B). auto. Qed.
Example C75_quoted_nonvacuous :
  quotes """a\\\""""" (String "a" (String "\" (String """" ""))) /\
  quotes """line\x1b\xff\n""" ("line" ++ String (ascii_of_nat 27) (String (ascii_of_nat 255) (String (ascii_of_nat 10) ""))) /\ plain_text "tuning".
Proof.
  split; [exact (C75_quoted (String "a" (String "\" (String """" ""))))|]. split; [|now apply plain_all].
  exact (C75_quoted ("line" ++ String (ascii_of_nat 27) (String (ascii_of_nat 255) (String (ascii_of_nat 10) "")))).
Qed.
(** The text of a plugin's error is its message, and its details if there are any. *)
Theorem C75_text : forall code m d,
  (d = "" -> err_string (ECNI code m d) = m) /\ (d <> "" -> err_string (ECNI code m d) = m ++ "; " ++ d).
Proof.
  intros code m d. cbn [err_string]. destruct (String.eqb_spec d "") as [-> |E]; split; intros H; try reflexivity; contradiction.
Qed.
(** The second plugin of an ADD is busy: the caller reads which one, and finds code 11. *)
Example C75_nonvacuous : exists tr e, runs false (add_network_list X_cni X_list X_rt) [] tr [] (Err e) /\
  err_string e = "plugin type=""tuning"" failed (add): try again" /\ wraps e (ECNI 11 "try again" "") /\ List.length (calls tr) = 2 /\
  plain_text "tuning".
Proof.
  destruct (interp X_busy 0 (add_network_list X_cni X_list X_rt) []) as [[r w'] tr] eqn:E. pose proof (interp_run _ _ _ _ _ _ _ X_busy_tame E) as R.
  vm_compute in E. injection E as <- <- <-. eexists _, _. split; [exact R|]. split; [reflexivity|]. split; [apply wraps_inside, wraps_itself|]. split; [reflexivity|].
  now apply plain_all.
Qed.
Definition X_gone : oracle :=
  {| or_environ := []; or_find := fun p _ => if String.eqb p "tuning" then Err (EMsg "not there") else Ok ("/opt/bin/" ++ p);
     or_exec := fun _ _ _ _ => Err (ECNI 11 "try again" "") |}.
Lemma X_gone_tame : tame X_gone. Proof. split; [intros p d; unfold X_gone; cbn; destruct (String.eqb p "tuning"); reflexivity|reflexivity]. Qed.
(** DEL asks the last plugin first, which is not there; CHECK reports the first one's own words. *)
Example C75_nonvacuous_del_check :
  (exists tr e, runs false (del_network_list X_cni X_list X_rt) X_world tr X_world (Err e) /\
     err_string e = "plugin type=""tuning"" failed (delete): not there") /\
  (exists tr e, runs false (check_network_list X_cni X_list X_rt) X_world tr X_world (Err e) /\ err_string e = "try again") /\
  (exists tr e, runs false (get_status_network_list X_cni X_list) X_world tr X_world (Err e) /\ err_string e = "try again").
Proof.
  split; [|split].
  - destruct (interp X_gone 0 (del_network_list X_cni X_list X_rt) X_world) as [[r w'] tr] eqn:E. pose proof (interp_run _ _ _ _ _ _ _ X_gone_tame E) as R.
    vm_compute in E. injection E as <- <- <-. eexists _, _. split; [exact R|reflexivity].
  - destruct (interp X_gone 0 (check_network_list X_cni X_list X_rt) X_world) as [[r w'] tr] eqn:E. pose proof (interp_run _ _ _ _ _ _ _ X_gone_tame E) as R.
    vm_compute in E. injection E as <- <- <-. eexists _, _. split; [exact R|reflexivity].
  - destruct (interp X_gone 0 (get_status_network_list X_cni X_list) X_world) as [[r w'] tr] eqn:E. pose proof (interp_run _ _ _ _ _ _ _ X_gone_tame E) as R.
    vm_compute in E. injection E as <- <- <-. eexists _, _. split; [exact R|reflexivity].
Qed.
(** GC and validation report everything that is wrong. *)
Example C75_nonvacuous_gc_validate :
  (exists tr e, runs false (gc_network_list X_cni X_list None) X_world tr X_world (Err e) /\
     err_string e = "failed to delete stale attachment c1 eth0: plugin type=""tuning"" failed (delete): not there" ++ newline ++
       "failed to GC plugin bridge: try again" ++ newline ++ "failed to GC plugin tuning: not there") /\
  (exists tr e, runs false (validate_network_list X_cni X_list) [] tr [] (Err e) /\ err_string e = "[try again not there]").
Proof.
  split.
  - destruct (interp X_gone 0 (gc_network_list X_cni X_list None) X_world) as [[r w'] tr] eqn:E. pose proof (interp_run _ _ _ _ _ _ _ X_gone_tame E) as R.
    vm_compute in E. injection E as <- <- <-. eexists _, _. split; [exact R|reflexivity].
  - destruct (interp X_gone 0 (validate_network_list X_cni X_list) []) as [[r w'] tr] eqn:E. pose proof (interp_run _ _ _ _ _ _ _ X_gone_tame E) as R.
    vm_compute in E. injection E as <- <- <-. eexists _, _. split; [exact R|reflexivity].
Qed.
Print Assumptions C75_quoted.
Print Assumptions C75_quoted_once.
Print Assumptions C75_text.
Print Assumptions C75_add.
Print Assumptions C75_del.
Print Assumptions C75_check.
Print Assumptions C75_status.
Print Assumptions C75_gc.
Print Assumptions C75_validate.
Print Assumptions C75_nonvacuous_gc_validate.
