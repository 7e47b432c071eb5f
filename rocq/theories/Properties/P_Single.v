(** Operations on a single plugin configuration: C59. *)
From Coq Require Import String Ascii List Arith ZArith Bool Lia.
From Verif Require Import Model.GoStr Model.Errors Model.Version Model.Validate Model.Args Model.Path Model.Json Model.GoJson
  Model.Types Model.Conf Model.Invoke Model.Prog Model.Api
  Spec.VersionSpec Spec.NameSpec Spec.RunSpec Spec.CacheSpec
  Proofs.StrP Proofs.VersionP Proofs.ValidateP Proofs.ProgP Proofs.ApiP Proofs.VerbP Proofs.SingleP Properties.P_Api.
Import ListNotations.
Open Scope nat_scope.
Open Scope string_scope.

(** The network name and the version in the plugin's own configuration. *)
Definition own_name (n : plugin_config) : string := pc_name (pg_conf n).
Definition own_version (n : plugin_config) : string := pc_version (pg_conf n).

(** AddNetwork runs at most one plugin: the ADD request to that plugin, with acceptable names and
    no previous result.  It succeeds only with that plugin's result, and then (and only then,
    unless a file operation fails) its own cache entry changes. *)
Theorem C59_add_one : forall fl c net rt w tr w' r, runs fl (add_network c net rt) w tr w' r ->
  (forall x, In x (calls tr) -> calls tr = [x] /\ request c "ADD" (own_name net) (own_version net) rt net None tr x /\
     good_name (rt_container rt) /\ good_name (own_name net) /\ good_ifname (rt_ifname rt)) /\
  (forall v, r = Ok v -> exists x, calls tr = [x] /\ yields x v /\ In (entry_path c (own_name net) rt) (changed tr)) /\
  (forall x e, In x (calls tr) -> call_answer x = Err e -> r = Err e) /\
  (forall p, In p (changed tr) -> named (own_name net) rt /\ p = entry_path c (own_name net) rt) /\
  (fl = false \/ (forall x v, In x (calls tr) -> ~ yields x v) -> (forall v, r <> Ok v) -> w' = w /\ changed tr = []).
Proof.
  intros fl c net rt w tr w' r H. pose proof H as H0. apply add_network_inv in H.
  destruct H as [(-> & C & NO & K)|(x & res & tr1 & tr2 & r2 & -> & C & K & R & (V1 & V2 & V3) & Y & RA & E)].
  - split; [|split; [|split; [|split]]].
    + intros x I. destruct K as [K|(y & K & R & (V1 & V2 & V3) & _)]; rewrite K in I; [destruct I|]. destruct I as [<-|[]]. split; [exact K|]. split; [exact R|].
      apply validate_container_id_ok in V1. apply validate_network_name_ok in V2. apply validate_interface_name_ok in V3. auto.
    + intros v ->. now destruct (NO v).
    + intros x e I A. destruct K as [K|(y & K & _ & _ & _ & F)]; rewrite K in I; [destruct I|]. destruct I as [<-|[]]. auto.
    + rewrite C. intros p [].
    + auto.
  - pose proof RA as RA'. apply cache_add_inv in RA'. destruct RA' as (CC & CH & OKW & _ & _ & CF).
    split; [|split; [|split; [|split]]].
    + intros y I. rewrite K in I. destruct I as [<-|[]]. split; [exact K|]. split; [exact R|].
      apply validate_container_id_ok in V1. apply validate_network_name_ok in V2. apply validate_interface_name_ok in V3. auto.
    + intros v ->. exists x. split; [exact K|]. destruct r2 as [[]|e|]; [|destruct E as [m E]; discriminate|discriminate]. injection E as ->. split; [exact Y|].
      destruct (OKW eq_refl) as (b & _ & _ & _ & I). rewrite changed_app. apply in_or_app. now right.
    + intros y e I A. rewrite K in I. destruct I as [<-|[]]. destruct Y as (o & A' & _). congruence.
    + intros p I. rewrite changed_app, C in I. now apply CH.
    + intros F NO. assert (fl = false) as ->. { destruct F as [F|F]; [exact F|]. destruct (F x res); [rewrite K; now left|exact Y]. }
      rewrite changed_app, C. cbn [app]. assert (N : r2 <> Ok tt). { intros ->. now destruct (NO res). }
      rewrite (CF eq_refl N). split; [|reflexivity]. eapply (runs_same_world _ _ _ _ _ _ _ RA). now apply CF.
Qed.

(** CheckNetwork needs version 0.4.0; then it is the CHECK request to that one plugin with what
    the cache holds (an unreadable entry is an error and nothing runs); it changes nothing. *)
Theorem C59_check_one : forall fl c net rt w tr w' r, runs fl (check_network c net rt) w tr w' r ->
  w' = w /\ changed tr = [] /\
  (~ at_least (own_version net) (0, 4, 0)%Z -> calls tr = [] /\ exists e, r = Err e) /\
  (at_least (own_version net) (0, 4, 0)%Z -> named (own_name net) rt ->
     (forall prev, reads_result (own_version net) (sget (entry_path c (own_name net) rt) w) = Ok prev ->
        exists prev', (prev' = prev \/ (fl = true /\ prev' = None)) /\
        asked_in_order c "CHECK" (own_name net) (own_version net) rt [net] prev' tr /\ (r = Ok tt <-> all_succeeded 1 tr) /\
        (forall x e, In x (calls tr) -> call_answer x = Err e -> r = Err e)) /\
     (forall e, reads_result (own_version net) (sget (entry_path c (own_name net) rt) w) = Err e -> fl = false ->
        calls tr = [] /\ exists m, r = Err (EWrap m e))).
Proof.
  intros fl c net rt w tr w' r H. apply check_network_inv in H. destruct H as (-> & C & K). split; [reflexivity|]. split; [exact C|].
  destruct K as [(N & K & E)|[(B & K & E)|(AL & cached & D & K)]].
  - split; [auto|]. intros AL. exfalso. apply N. exact (at_least_wf _ _ AL).
  - split; [auto|]. intros AL. exfalso. exact (at_least_not_below _ _ AL B).
  - split; [intros X; now destruct X|]. intros _ N. fold (own_name net) in *. change (pname net) with (own_name net) in *. change (pver net) with (own_version net) in *.
    rewrite (cached_in_named _ _ _ _ _ N) in D. split.
    + intros prev P. rewrite P in D. destruct D as [->|(F & _ & ->)]; [exists prev|exists None]; (split; [auto|]; exact K).
    + intros e P F. rewrite P in D. destruct D as [->|(F' & _)]; [exact K|congruence].
Qed.

(** DelNetwork is the DEL request to that one plugin with what the cache holds; on success the
    entry is gone, on failure nothing changes. *)
Theorem C59_del_one : forall fl c net rt w tr w' r, runs fl (del_network c net rt) w tr w' r ->
  (~ well_formed_version (own_version net) -> tr = [] /\ w' = w /\ exists e, r = Err e) /\
  (forall prev, well_formed_version (own_version net) ->
     (below (own_version net) (0, 4, 0)%Z /\ prev = None \/
      at_least (own_version net) (0, 4, 0)%Z /\ named (own_name net) rt /\
        reads_result (own_version net) (sget (entry_path c (own_name net) rt) w) = Ok prev) ->
     exists prev', (prev' = prev \/ (fl = true /\ prev' = None)) /\
       asked_in_order c "DEL" (own_name net) (own_version net) rt [net] prev' tr /\ (r = Ok tt <-> all_succeeded 1 tr) /\
       (forall x e, In x (calls tr) -> call_answer x = Err e -> r = Err e)) /\
  (r = Ok tt -> fl = false -> named (own_name net) rt -> sget (entry_path c (own_name net) rt) w' = None) /\
  (r <> Ok tt -> w' = w /\ changed tr = []) /\
  (forall p, In p (changed tr) -> named (own_name net) rt /\ p = entry_path c (own_name net) rt).
Proof.
  intros fl c net rt w tr w' r H. apply del_network_inv in H.
  destruct H as [(N & -> & -> & E)|(cached & tr0 & tr1 & trd & -> & C0 & H0 & D & K)].
  - split; [auto|]. split; [intros prev W; now destruct N|]. destruct E as (e & ->). split; [discriminate|]. split; [auto|intros p []].
  - assert (WF : well_formed_version (own_version net)).
    { destruct D as [(AL & _)|(B & _)]; [exact (at_least_wf _ _ AL)|destruct B as (u & V & _); now exists u]. }
    split; [intros X; now destruct X|].
    destruct cached as [prev|e|].
    + destruct K as (r1 & R & -> & F). pose proof R as R'. apply single_verb_inv in R'. destruct R' as (_ & C1 & A & O & EE).
      assert (CD : calls trd = [] /\ (forall p, In p (changed trd) -> named (own_name net) rt /\ p = entry_path c (own_name net) rt)).
      { destruct F as [(_ & RD)|(_ & -> & _)]; [apply cache_del_inv in RD; destruct RD as (X1 & X2 & _); auto|]. split; [reflexivity|intros p []]. }
      destruct CD as (CD & HD).
      split; [|split; [|split]].
      * intros prev0 _ P. exists prev. split.
        { destruct P as [(B & ->)|(AL & N & P)].
          - destruct D as [(AL & _)|(_ & [= ->])]; [exfalso; exact (at_least_not_below _ _ AL B)|now left].
          - destruct D as [(_ & [D|(F' & _ & [= ->])])|(B & _)]; [|now right|exfalso; exact (at_least_not_below _ _ AL B)].
            change (pname net) with (own_name net) in D. change (pver net) with (own_version net) in D. rewrite (cached_in_named _ _ _ _ _ N) in D. rewrite P in D. left. congruence. }
        unfold all_succeeded, asked_in_order in *. rewrite !calls_app, C0, CD, app_nil_r. cbn [app]. split; [|split; [exact O|exact EE]].
        destruct A as (A1 & A2). split; [|exact A2]. intros i x Hx. destruct (A1 i x Hx) as (nt & N1 & N2). exists nt. split; [exact N1|]. now apply request_weaken.
      * intros -> Fl N. subst fl. destruct F as [(_ & RD)|(X & _)]; [|now destruct X]. apply cache_del_inv in RD. destruct RD as (_ & _ & _ & X). now apply X.
      * intros NO. destruct F as [(X & _)|(_ & -> & ->)]; [now destruct NO|]. rewrite !changed_app, H0, C1. auto.
      * intros p I. rewrite !changed_app, H0, C1 in I. cbn [app] in I. now apply HD.
    + destruct K as (-> & -> & -> & m & ->). cbn [app]. rewrite !app_nil_r. split; [|split; [|split]].
      * intros prev _ P. exfalso. destruct P as [(B & ->)|(AL & N & P)].
        { destruct D as [(AL & _)|(_ & X)]; [exact (at_least_not_below _ _ AL B)|discriminate]. }
        destruct D as [(_ & [D|(F' & _ & X)])|(B & _)]; [|discriminate|exact (at_least_not_below _ _ AL B)].
        change (pname net) with (own_name net) in D. change (pver net) with (own_version net) in D. rewrite (cached_in_named _ _ _ _ _ N) in D. congruence.
      * discriminate.
      * auto.
      * rewrite H0. intros p [].
    + destruct K as (-> & -> & -> & ->). cbn [app]. rewrite !app_nil_r. split; [|split; [|split]].
      * intros prev _ P. exfalso. destruct P as [(B & ->)|(AL & N & P)].
        { destruct D as [(AL & _)|(_ & X)]; [exact (at_least_not_below _ _ AL B)|discriminate]. }
        destruct D as [(_ & [D|(F' & _ & X)])|(B & _)]; [|discriminate|exact (at_least_not_below _ _ AL B)].
        change (pname net) with (own_name net) in D. change (pver net) with (own_version net) in D. rewrite (cached_in_named _ _ _ _ _ N) in D. congruence.
      * discriminate.
      * auto.
      * rewrite H0. intros p [].
Qed.

(** ValidateNetwork succeeds exactly when the plugin reports the configuration's version ("" is
    0.1.0), and then returns the capabilities declared true. *)
Theorem C59_validate_one : forall fl c net w tr w' r, runs fl (validate_network c net) w tr w' r ->
  w' = w /\ changed tr = [] /\ exists t, asks_version c net tr t /\
    ((supports (if String.eqb (own_version net) "" then "0.1.0" else own_version net) t /\
        exists caps, r = Ok caps /\ forall k, In k caps <-> In (k, true) (pc_caps (pg_conf net))) \/
     (~ supports (if String.eqb (own_version net) "" then "0.1.0" else own_version net) t /\ exists e, r = Err e)).
Proof.
  intros fl c net w tr w' r H. apply validate_network_inv in H. destruct H as (-> & C & t & T & K). split; [reflexivity|]. split; [exact C|].
  exists t. split; [exact T|]. destruct K as [(V & ->)|(V & E)]; [left; split; [exact V|]|right; auto].
  eexists. split; [reflexivity|]. intros k. apply enabled_caps_in.
Qed.

(** GetVersionInfo asks the plugin found for the type, and changes nothing. *)
Theorem C59_version_info : forall fl c type w tr w' r, runs fl (get_version_info c type) w tr w' r ->
  w' = w /\ exists t, turn c type version_probe tr t /\
    match t with Missing e => r = Err e | Ran x => r = version_answer (call_answer x) end.
Proof.
  intros fl c type w tr w' r H. unfold get_version_info in H. apply runs_rbindp in H.
  destruct H as [(t1 & w1 & path & t2 & R1 & R2 & ->)|[(e & -> & R)|(-> & R)]].
  - apply runs_find in R1. destruct R1 as (-> & -> & _). apply version_info_inv in R2. destruct R2 as (-> & env & a & -> & NP & ->).
    split; [reflexivity|]. exists (Ran {| call_path := path; call_stdin := version_stdin; call_env := as_env env version_args; call_answer := a |}).
    split; [|reflexivity]. constructor; [reflexivity|reflexivity|now left|]. apply version_probe_made.
  - apply runs_find in R. destruct R as (-> & -> & _). split; [reflexivity|]. exists (Missing e). split; [now constructor|reflexivity].
  - apply runs_find in R. destruct R as (-> & -> & X). discriminate.
Qed.

(** A single ADD and the DEL after it. *)
Definition X_net : plugin_config := Eval vm_compute in
  match plugin_conf_from_bytes "{""cniVersion"":""1.0.0"",""name"":""net"",""type"":""bridge"",""capabilities"":{""mac"":true}}" with
  | Ok p => p | _ => {| pg_conf := plugin_conf_zero; pg_bytes := "" |} end.
Example C59_nonvacuous : exists tr1 w1 v tr2 w2, runs false (add_network X_cni X_net X_rt) [] tr1 w1 (Ok v) /\
  runs false (del_network X_cni X_net X_rt) w1 tr2 w2 (Ok tt) /\ w1 <> [] /\ w2 = [] /\
  map call_stdin (calls tr2) = ["{""capabilities"":{""mac"":true},""cniVersion"":""1.0.0"",""name"":""net"",""prevResult"":{""cniVersion"":""1.0.0"",""ips"":[{""address"":""10.0.0.2/24""}]},""type"":""bridge""}"].
Proof.
  destruct (interp X_oracle 0 (add_network X_cni X_net X_rt) []) as [[r1 w1] tr1] eqn:E1. pose proof (interp_run _ _ _ _ _ _ _ X_tame E1) as R1.
  vm_compute in E1. injection E1 as <- <- <-.
  match type of R1 with runs _ _ _ _ ?W _ => destruct (interp X_oracle 0 (del_network X_cni X_net X_rt) W) as [[r2 w2] tr2] eqn:E2; pose proof (interp_run _ _ _ _ _ _ _ X_tame E2) as R2 end.
  vm_compute in E2. injection E2 as <- <- <-. eexists _, _, _, _, _. split; [exact R1|]. split; [exact R2|]. split; [discriminate|]. split; [reflexivity|]. reflexivity.
Qed.
Print Assumptions C59_add_one.
Print Assumptions C59_check_one.
Print Assumptions C59_del_one.
Print Assumptions C59_validate_one.
Print Assumptions C59_version_info.
