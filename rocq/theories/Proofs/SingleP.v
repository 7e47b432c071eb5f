(** Operations on a single plugin configuration (AddNetwork, CheckNetwork, DelNetwork, ...). *)
From Coq Require Import String Ascii List Arith NArith ZArith Bool Lia.
From Verif Require Import Model.GoStr Model.Errors Model.Version Model.Validate Model.Json Model.Types Model.Conf Model.Invoke Model.Prog Model.Api
  Spec.VersionSpec Spec.RunSpec Spec.CacheSpec Proofs.StrP Proofs.ProgP Proofs.ApiP Proofs.VerbP.
Import ListNotations.
Open Scope nat_scope.
Open Scope string_scope.

Definition pname (n : plugin_config) : string := pc_name (pg_conf n).
Definition pver (n : plugin_config) : string := pc_version (pg_conf n).

Lemma add_network_inv fl c net rt w tr w' r : runs fl (add_network c net rt) w tr w' r ->
  (w' = w /\ changed tr = [] /\ (forall a, r <> Ok a) /\
    (calls tr = [] \/ exists x, calls tr = [x] /\ request c "ADD" (pname net) (pver net) rt net None tr x /\ names_ok (pname net) rt /\
       (forall v, ~ yields x v) /\ forall e, call_answer x = Err e -> r = Err e)) \/
  (exists x res tr1 tr2 r2, tr = (tr1 ++ tr2)%list /\ changed tr1 = [] /\ calls tr = [x] /\
     request c "ADD" (pname net) (pver net) rt net None tr x /\ names_ok (pname net) rt /\ yields x res /\
     runs fl (cache_add c (Some res) (pg_bytes net) (pname net) rt) w tr2 w' r2 /\
     match r2 with Ok _ => r = Ok res | Err e => exists m, r = Err (EWrap m e) | Panic => r = Panic end).
Proof.
  unfold add_network. intros H. apply runs_rbindp in H.
  assert (FAIL : forall r0, (forall a, r0 <> Ok a) -> runs fl (add_network_one c (pname net) (pver net) net None rt) w tr w' r0 ->
     w' = w /\ changed tr = [] /\ (forall a : result, r0 <> Ok a) /\
    (calls tr = [] \/ exists x, calls tr = [x] /\ request c "ADD" (pname net) (pver net) rt net None tr x /\ names_ok (pname net) rt /\
       (forall v, ~ yields x v) /\ forall e, call_answer x = Err e -> r0 = Err e)).
  { intros r0 NO R. apply add_one_inv in R. destruct R as (-> & C & K). split; [reflexivity|]. split; [exact C|]. split; [exact NO|].
    destruct K as [(K & _)|(x & K1 & K2 & K3 & V1 & V2 & V3 & E)]; [now left|]. right. exists x. split; [exact K1|]. split; [exact K2|].
    split; [repeat split; assumption|]. split.
    - intros v (o & Y1 & Y2). rewrite Y1 in E. cbn [rbind] in E. apply (NO v). congruence.
    - intros e A. rewrite A in E. exact E. }
  destruct H as [(tr1 & w1 & res & tr2 & R1 & R2 & ->)|[(e & -> & R)|(-> & R)]].
  - right. apply add_one_inv in R1. destruct R1 as (-> & C & [(_ & X)|(x & K1 & K2 & K3 & V1 & V2 & V3 & E)]); [now destruct (X res)|].
    assert (Y : yields x res).
    { destruct (call_answer x) as [o|e|] eqn:A; cbn [rbind] in E; try discriminate. exists o. split; [exact A|now symmetry]. }
    apply runs_rbindp in R2. destruct R2 as [(u1 & w1 & [] & u2 & R2 & R3 & ->)|[(e & -> & R)|(-> & R)]].
    + apply runs_lift in R3. destruct R3 as (-> & -> & ->). rewrite app_nil_r. apply runs_pwrap in R2. destruct R2 as (r2 & R2 & E2).
      exists x, res, tr1, u1, r2. split; [reflexivity|]. split; [exact C|]. pose proof (cache_add_inv _ _ _ _ _ _ _ _ _ _ R2) as (CC & _).
      rewrite calls_app, K1, CC. split; [reflexivity|]. split; [now apply request_app_l|]. split; [repeat split; assumption|]. split; [exact Y|]. split; [exact R2|].
      destruct r2; [reflexivity|discriminate|discriminate].
    + apply runs_pwrap in R. destruct R as (r2 & R2 & E2).
      exists x, res, tr1, tr2, r2. split; [reflexivity|]. split; [exact C|]. pose proof (cache_add_inv _ _ _ _ _ _ _ _ _ _ R2) as (CC & _).
      rewrite calls_app, K1, CC. split; [reflexivity|]. split; [now apply request_app_l|]. split; [repeat split; assumption|]. split; [exact Y|]. split; [exact R2|].
      destruct r2; cbn [rwrap] in E2; [discriminate|injection E2 as ->; eauto|discriminate].
    + apply runs_pwrap in R. destruct R as (r2 & R2 & E2).
      exists x, res, tr1, tr2, r2. split; [reflexivity|]. split; [exact C|]. pose proof (cache_add_inv _ _ _ _ _ _ _ _ _ _ R2) as (CC & _).
      rewrite calls_app, K1, CC. split; [reflexivity|]. split; [now apply request_app_l|]. split; [repeat split; assumption|]. split; [exact Y|]. split; [exact R2|].
      destruct r2; cbn [rwrap] in E2; [discriminate|discriminate|reflexivity].
  - left. apply FAIL; [discriminate|exact R].
  - left. apply FAIL; [discriminate|exact R].
Qed.

(** The previous result of a single DEL or CHECK: an unreadable entry is an error. *)
Lemma single_verb_inv fl verb c net cached rt w tr w' r :
  runs fl (verb_network verb c (pname net) (pver net) net cached rt) w tr w' r ->
  w' = w /\ changed tr = [] /\
  asked_in_order c verb (pname net) (pver net) rt [net] cached tr /\ (r = Ok tt <-> all_succeeded 1 tr) /\
  (forall x e, In x (calls tr) -> call_answer x = Err e -> r = Err e).
Proof.
  intros H. apply verb_network_inv in H. destruct H as (-> & C & [(K & N)|(x & K & R & NP & ->)]); (split; [reflexivity|]; split; [exact C|]).
  - split; [now apply asked_none|]. unfold all_succeeded. rewrite K. split; [split; [congruence|intros (X & _); discriminate]|]. intros x e [].
  - split; [split|].
    + intros i y Hy. rewrite K in Hy. destruct i as [|i]; [injection Hy as <-; exists net; split; [reflexivity|exact R]|destruct i; discriminate].
    + intros i y Hy L. rewrite K in L. cbn in L. lia.
    + unfold all_succeeded. rewrite K. split.
      * rewrite rmap_tt_ok. split; [intros S; split; [reflexivity|constructor; [exact S|constructor]]|]. intros (_ & F). apply Forall_cons_iff in F. apply F.
      * intros y e [<-|[]] A. rewrite A. reflexivity.
Qed.

Lemma check_network_inv fl c net rt w tr w' r : runs fl (check_network c net rt) w tr w' r ->
  w' = w /\ changed tr = [] /\
  ((~ well_formed_version (pver net) /\ calls tr = [] /\ exists e, r = Err e) \/
   (below (pver net) (0, 4, 0)%Z /\ calls tr = [] /\ exists e, r = Err e) \/
   (at_least (pver net) (0, 4, 0)%Z /\
     exists cached, (cached = cached_in c (pname net) (pver net) rt w \/ (fl = true /\ named (pname net) rt /\ cached = Ok None)) /\
      match cached with
      | Ok prev => asked_in_order c "CHECK" (pname net) (pver net) rt [net] prev tr /\ (r = Ok tt <-> all_succeeded 1 tr) /\
         (forall x e, In x (calls tr) -> call_answer x = Err e -> r = Err e)
      | Err e => calls tr = [] /\ exists m, r = Err (EWrap m e)
      | Panic => calls tr = [] /\ r = Panic
      end)).
Proof.
  intros H. unfold check_network in H. fold (pname net) in H. fold (pver net) in H. apply runs_lift_then in H.
  destruct (gte_iff (pver net) "0.4.0" _ means_040) as (GT & GF & GE & GP).
  destruct (gte (pver net) "0.4.0") as [b|e|] eqn:G.
  2:{ destruct H as (-> & -> & ->). split; [reflexivity|]. split; [reflexivity|]. left. split; [apply GE; eauto|eauto]. }
  2:{ now destruct GP. }
  destruct b; cbn [negb] in H.
  2:{ apply runs_ret in H. destruct H as (-> & -> & ->). split; [reflexivity|]. split; [reflexivity|]. right. left. split; [now apply GF|eauto]. }
  assert (AL : at_least (pver net) (0, 4, 0)%Z) by now apply GT.
  apply runs_rbindp in H. destruct H as [(t1 & w1 & cached & t2 & R1 & R2 & ->)|[(e & -> & R)|(-> & R)]].
  - apply runs_pwrap in R1. destruct R1 as (a & R1 & E). apply get_cached_inv in R1. destruct R1 as (-> & C1 & C2 & D).
    destruct a as [prev|e|]; cbn [rwrap] in E; try discriminate. injection E as ->.
    apply single_verb_inv in R2. destruct R2 as (-> & C3 & A & O & F). rewrite changed_app, C1, C3. split; [reflexivity|]. split; [reflexivity|].
    right. right. split; [exact AL|]. exists (Ok prev). split; [exact D|]. unfold all_succeeded, asked_in_order in *. rewrite calls_app, C2. cbn [app].
    split; [|split; [exact O|exact F]]. destruct A as (A1 & A2). split; [|exact A2]. intros i x Hx. destruct (A1 i x Hx) as (nt & N1 & N2). exists nt. split; [exact N1|]. now apply request_app_r.
  - apply runs_pwrap in R. destruct R as (a & R1 & E). apply get_cached_inv in R1. destruct R1 as (-> & C1 & C2 & D).
    split; [reflexivity|]. split; [exact C1|]. right. right. split; [exact AL|]. exists a. split; [exact D|]. destruct a; cbn [rwrap] in E; try discriminate. injection E as ->. eauto.
  - apply runs_pwrap in R. destruct R as (a & R1 & E). apply get_cached_inv in R1. destruct R1 as (-> & C1 & C2 & D).
    split; [reflexivity|]. split; [exact C1|]. right. right. split; [exact AL|]. exists a. split; [exact D|]. destruct a; cbn [rwrap] in E; try discriminate. auto.
Qed.

Lemma del_network_inv fl c net rt w tr w' r : runs fl (del_network c net rt) w tr w' r ->
  (~ well_formed_version (pver net) /\ tr = [] /\ w' = w /\ exists e, r = Err e) \/
  (exists cached tr0 tr1 trd, tr = (tr0 ++ tr1 ++ trd)%list /\ calls tr0 = [] /\ changed tr0 = [] /\
    (at_least (pver net) (0, 4, 0)%Z /\ (cached = cached_in c (pname net) (pver net) rt w \/ (fl = true /\ named (pname net) rt /\ cached = Ok None)) \/
     below (pver net) (0, 4, 0)%Z /\ cached = Ok None) /\
    match cached with
    | Ok prev => exists r1, runs fl (verb_network "DEL" c (pname net) (pver net) net prev rt) w tr1 w r1 /\ r = r1 /\
        (r1 = Ok tt /\ runs fl (cache_del c (pname net) rt) w trd w' tt \/ r1 <> Ok tt /\ trd = [] /\ w' = w)
    | Err e => tr1 = [] /\ trd = [] /\ w' = w /\ exists m, r = Err (EWrap m e)
    | Panic => tr1 = [] /\ trd = [] /\ w' = w /\ r = Panic
    end).
Proof.
  intros H. unfold del_network in H. fold (pname net) in H. fold (pver net) in H. apply runs_lift_then in H.
  destruct (gte_iff (pver net) "0.4.0" _ means_040) as (GT & GF & GE & GP).
  destruct (gte (pver net) "0.4.0") as [b|e|] eqn:G.
  2:{ destruct H as (-> & -> & ->). left. split; [apply GE; eauto|eauto]. }
  2:{ now destruct GP. }
  right.
  assert (TAIL : forall prev t1, runs fl (rbindp (verb_network "DEL" c (pname net) (pver net) net prev rt) (fun _ => bind (cache_del c (pname net) rt) (fun _ => Ret (Ok tt)))) w t1 w' r ->
    exists tr1 trd r1, t1 = (tr1 ++ trd)%list /\ runs fl (verb_network "DEL" c (pname net) (pver net) net prev rt) w tr1 w r1 /\ r = r1 /\
        (r1 = Ok tt /\ runs fl (cache_del c (pname net) rt) w trd w' tt \/ r1 <> Ok tt /\ trd = [] /\ w' = w)).
  { intros prev t1 R. apply runs_rbindp in R. destruct R as [(u1 & w1 & [] & u2 & R1 & R2 & ->)|[(e & -> & R)|(-> & R)]].
    - pose proof R1 as R1'. apply verb_network_inv in R1. destruct R1 as (-> & _).
      apply runs_bind in R2. destruct R2 as (v1 & w2 & [] & v2 & R2 & R3 & ->). apply runs_ret in R3. destruct R3 as (-> & -> & ->). rewrite app_nil_r.
      exists u1, v1, (Ok tt). split; [reflexivity|]. split; [exact R1'|]. split; [reflexivity|]. left. auto.
    - pose proof R as R1'. apply verb_network_inv in R. destruct R as (-> & _). exists t1, [], (Err e). rewrite app_nil_r. split; [reflexivity|]. split; [exact R1'|]. split; [reflexivity|]. right. split; [discriminate|auto].
    - pose proof R as R1'. apply verb_network_inv in R. destruct R as (-> & _). exists t1, [], Panic. rewrite app_nil_r. split; [reflexivity|]. split; [exact R1'|]. split; [reflexivity|]. right. split; [discriminate|auto]. }
  destruct b.
  - assert (AL : at_least (pver net) (0, 4, 0)%Z) by now apply GT.
    apply runs_rbindp in H. destruct H as [(t1 & w1 & cached & t2 & R1 & R2 & ->)|[(e & -> & R)|(-> & R)]].
    + apply runs_pwrap in R1. destruct R1 as (a & R1 & E). apply get_cached_inv in R1. destruct R1 as (-> & C1 & C2 & D).
      destruct a as [prev|e|]; cbn [rwrap] in E; try discriminate. injection E as ->.
      apply TAIL in R2. destruct R2 as (tr1 & trd & r1 & -> & R2). exists (Ok prev), t1, tr1, trd. split; [reflexivity|]. split; [exact C2|]. split; [exact C1|]. split; [left; auto|]. exists r1. exact R2.
    + apply runs_pwrap in R. destruct R as (a & R1 & E). apply get_cached_inv in R1. destruct R1 as (-> & C1 & C2 & D).
      destruct a as [prev|e0|]; cbn [rwrap] in E; try discriminate. injection E as ->. exists (Err e0), tr, [], []. rewrite !app_nil_r. split; [reflexivity|]. split; [exact C2|]. split; [exact C1|]. split; [left; auto|]. eauto.
    + apply runs_pwrap in R. destruct R as (a & R1 & E). apply get_cached_inv in R1. destruct R1 as (-> & C1 & C2 & D).
      destruct a as [prev|e0|]; cbn [rwrap] in E; try discriminate. exists Panic, tr, [], []. rewrite !app_nil_r. split; [reflexivity|]. split; [exact C2|]. split; [exact C1|]. split; [left; auto|]. eauto.
  - assert (BL : below (pver net) (0, 4, 0)%Z) by now apply GF.
    apply runs_rbindp in H. destruct H as [(t1 & w1 & cached & t2 & R1 & R2 & ->)|[(e & -> & R)|(-> & R)]].
    + apply runs_ret in R1. destruct R1 as (-> & -> & [= ->]). apply TAIL in R2. destruct R2 as (tr1 & trd & r1 & -> & R2).
      exists (Ok None), [], tr1, trd. split; [reflexivity|]. split; [reflexivity|]. split; [reflexivity|]. split; [right; auto|]. exists r1. exact R2.
    + apply runs_ret in R. destruct R as (_ & _ & R). discriminate.
    + apply runs_ret in R. destruct R as (_ & _ & R). discriminate.
Qed.

Lemma validate_network_inv fl c net w tr w' r : runs fl (validate_network c net) w tr w' r ->
  w' = w /\ changed tr = [] /\ exists t, version_turn c (pc_type (pg_conf net)) tr t /\
   ((validated (pver net) t /\ r = Ok (enabled_caps (pc_caps (pg_conf net)))) \/ (~ validated (pver net) t /\ exists e, r = Err e)).
Proof.
  intros H. unfold validate_network in H. apply runs_rbindp in H. destruct H as [(t1 & w1 & [] & t2 & R1 & R2 & ->)|[(e & -> & R)|(-> & R)]].
  - apply validate_plugin_inv in R1. destruct R1 as (-> & C & NP & t & T & V). apply runs_ret in R2. destruct R2 as (-> & -> & ->). rewrite app_nil_r.
    split; [reflexivity|]. split; [exact C|]. exists t. split; [exact T|]. left. split; [now apply V|reflexivity].
  - apply validate_plugin_inv in R. destruct R as (-> & C & NP & t & T & V). split; [reflexivity|]. split; [exact C|]. exists t. split; [exact T|]. right. split; [rewrite <- V; discriminate|eauto].
  - apply validate_plugin_inv in R. destruct R as (_ & _ & NP & _). now destruct NP.
Qed.
