(** Runs of the runtime library's operations. *)
From Coq Require Import String Ascii List Arith Bool Lia Permutation.
From Verif Require Import Model.GoStr Model.Errors Model.Version Model.Validate Model.Args Model.Path Model.Json Model.GoJson
  Model.Types Model.Conf Model.Invoke Model.Prog Model.Api Spec.RunSpec Spec.CacheSpec
  Proofs.StrP Proofs.EnvP Proofs.ProgP.
Import ListNotations.
Open Scope nat_scope.
Open Scope string_scope.

Lemma protocol_env_as_env c verb rt environ : protocol_env c verb rt (as_env environ (api_args c verb rt)).
Proof.
  pose proof (Permutation_refl (as_env environ (api_args c verb rt))) as P. rewrite as_env_eq in P.
  unfold protocol_env. repeat split; (apply (out_getenv _ _ P); [discriminate|]; rewrite as_env_last; reflexivity).
Qed.

Lemma request_weaken c verb name ver rt net prev (a b d : trace) x :
  request c verb name ver rt net prev b x -> request c verb name ver rt net prev (a ++ b ++ d)%list x.
Proof.
  intros (P & F & R). split; [exact P|]. split; [|exact R]. apply in_or_app. right. apply in_or_app. now left.
Qed.
Lemma request_app_l c verb name ver rt net prev (a b : trace) x :
  request c verb name ver rt net prev a x -> request c verb name ver rt net prev (a ++ b)%list x.
Proof. intros H. apply (request_weaken _ _ _ _ _ _ _ [] a b x H). Qed.
Lemma request_app_r c verb name ver rt net prev (a b : trace) x :
  request c verb name ver rt net prev b x -> request c verb name ver rt net prev (a ++ b)%list x.
Proof. intros H. pose proof (request_weaken _ _ _ _ _ _ _ a b [] x H) as K. now rewrite app_nil_r in K. Qed.

(** One request that returns no result. *)
Lemma verb_network_inv fl verb c name ver net prev rt w tr w' r :
  runs fl (verb_network verb c name ver net prev rt) w tr w' r ->
  w' = w /\ changed tr = [] /\
  ((calls tr = [] /\ r <> Ok tt) \/
   (exists x, calls tr = [x] /\ request c verb name ver rt net prev tr x /\ is_panic (call_answer x) = false /\
      r = rmap (fun _ => tt) (call_answer x))).
Proof.
  unfold verb_network. rewrite runs_rbindp. intros [(tr1 & w1 & path & tr2 & R1 & R2 & ->)|[(e & -> & R)|(-> & R)]].
  - apply runs_find in R1. destruct R1 as (-> & -> & _). apply runs_lift_then in R2.
    destruct (build_one_config name ver net prev rt) as [conf|e|] eqn:B.
    + unfold exec_plugin_without_result in R2. apply runs_rbindp in R2.
      assert (G : exists a env, tr2 = [(OpEnviron, REnv env); (OpExec path (pg_bytes conf) (as_env env (api_args c verb rt)), RStr a)] /\
        w' = w /\ is_panic a = false /\ r = rmap (fun _ => tt) a).
      { destruct R2 as [(t1 & w1 & a & t2 & E1 & E2 & ->)|[(e & -> & E)|(-> & E)]].
        - apply runs_exec_with_args in E1. destruct E1 as (env & -> & -> & _). apply runs_lift in E2. destruct E2 as (-> & -> & ->).
          rewrite app_nil_r. exists (Ok a), env. auto.
        - apply runs_exec_with_args in E. destruct E as (env & -> & -> & _). exists (Err e), env. auto.
        - apply runs_exec_with_args in E. destruct E as (env & -> & -> & X). discriminate. }
      destruct G as (a & env & -> & -> & NP & ->). split; [reflexivity|]. split; [reflexivity|]. right.
      eexists. split; [reflexivity|]. split; [|split; [exact NP|reflexivity]].
      split; [apply protocol_env_as_env|]. split; [now left|]. exists conf. auto.
    + destruct R2 as (-> & -> & ->). split; [reflexivity|]. split; [reflexivity|]. left. split; [reflexivity|discriminate].
    + destruct R2 as (-> & -> & ->). split; [reflexivity|]. split; [reflexivity|]. left. split; [reflexivity|discriminate].
  - apply runs_find in R. destruct R as (-> & -> & _). split; [reflexivity|]. split; [reflexivity|]. left. split; [reflexivity|discriminate].
  - apply runs_find in R. destruct R as (-> & -> & X). discriminate.
Qed.

(** One ADD. *)
Lemma add_one_inv fl c name ver net prev rt w tr w' r :
  runs fl (add_network_one c name ver net prev rt) w tr w' r ->
  w' = w /\ changed tr = [] /\
  ((calls tr = [] /\ forall a, r <> Ok a) \/
   (exists x, calls tr = [x] /\ request c "ADD" name ver rt net prev tr x /\ is_panic (call_answer x) = false /\
      validate_container_id (rt_container rt) = None /\ validate_network_name name = None /\
      validate_interface_name (rt_ifname rt) = None /\
      r = rbind (call_answer x) (add_result (call_stdin x)))).
Proof.
  unfold add_network_one. rewrite runs_rbindp. intros [(tr1 & w1 & path & tr2 & R1 & R2 & ->)|[(e & -> & R)|(-> & R)]].
  - apply runs_find in R1. destruct R1 as (-> & -> & _).
    apply runs_lift_then in R2. destruct (validate_container_id (rt_container rt)) eqn:V1; cbn [check_opt] in R2.
    { destruct R2 as (-> & -> & ->). split; [reflexivity|]. split; [reflexivity|]. left. split; [reflexivity|discriminate]. }
    apply runs_lift_then in R2. destruct (validate_network_name name) eqn:V2; cbn [check_opt] in R2.
    { destruct R2 as (-> & -> & ->). split; [reflexivity|]. split; [reflexivity|]. left. split; [reflexivity|discriminate]. }
    apply runs_lift_then in R2. destruct (validate_interface_name (rt_ifname rt)) eqn:V3; cbn [check_opt] in R2.
    { destruct R2 as (-> & -> & ->). split; [reflexivity|]. split; [reflexivity|]. left. split; [reflexivity|discriminate]. }
    apply runs_lift_then in R2. destruct (build_one_config name ver net prev rt) as [conf|e|] eqn:B.
    + unfold exec_plugin_with_result in R2. apply runs_rbindp in R2.
      assert (G : exists a env, tr2 = [(OpEnviron, REnv env); (OpExec path (pg_bytes conf) (as_env env (api_args c "ADD" rt)), RStr a)] /\
        w' = w /\ is_panic a = false /\ r = rbind a (add_result (pg_bytes conf))).
      { destruct R2 as [(t1 & w1 & a & t2 & E1 & E2 & ->)|[(e & -> & E)|(-> & E)]].
        - apply runs_exec_with_args in E1. destruct E1 as (env & -> & -> & _). apply runs_lift in E2. destruct E2 as (-> & -> & ->).
          rewrite app_nil_r. exists (Ok a), env. auto.
        - apply runs_exec_with_args in E. destruct E as (env & -> & -> & _). exists (Err e), env. auto.
        - apply runs_exec_with_args in E. destruct E as (env & -> & -> & X). discriminate. }
      destruct G as (a & env & -> & -> & NP & ->). split; [reflexivity|]. split; [reflexivity|]. right.
      eexists. split; [reflexivity|]. split; [|split; [exact NP|auto]].
      split; [apply protocol_env_as_env|]. split; [now left|]. exists conf. auto.
    + destruct R2 as (-> & -> & ->). split; [reflexivity|]. split; [reflexivity|]. left. split; [reflexivity|discriminate].
    + destruct R2 as (-> & -> & ->). split; [reflexivity|]. split; [reflexivity|]. left. split; [reflexivity|discriminate].
  - apply runs_find in R. destruct R as (-> & -> & _). split; [reflexivity|]. split; [reflexivity|]. left. split; [reflexivity|discriminate].
  - apply runs_find in R. destruct R as (-> & -> & X). discriminate.
Qed.

(** The ADD loop. *)
Definition names_ok (name : string) (rt : runtime_conf) : Prop :=
  validate_container_id (rt_container rt) = None /\ validate_network_name name = None /\
  validate_interface_name (rt_ifname rt) = None.
Lemma add_loop_inv fl c name ver rt : forall nets prev w tr w' r,
  runs fl (add_loop c name ver nets prev rt) w tr w' r ->
  w' = w /\ changed tr = [] /\ exists results : list result,
  (forall i x, nth_error (calls tr) i = Some x -> names_ok name rt /\
     exists net, nth_error nets i = Some net /\ request c "ADD" name ver rt net (before prev results i) tr x) /\
  (forall i v, nth_error results i = Some v <-> exists x, nth_error (calls tr) i = Some x /\ yields x v) /\
  List.length results <= List.length (calls tr) <= S (List.length results) /\
  ((List.length results = List.length nets /\ List.length (calls tr) = List.length nets /\ r = Ok (last_or prev results)) \/
   (List.length results < List.length nets /\ (forall a, r <> Ok a) /\
    forall x e, nth_error (calls tr) (List.length results) = Some x -> call_answer x = Err e -> exists m, r = Err (EWrap m e))).
Proof.
  induction nets as [|net nets IH]; intros prev w tr w' r H; cbn [add_loop] in H.
  - apply runs_ret in H. destruct H as (-> & -> & ->). split; [reflexivity|]. split; [reflexivity|].
    exists []. split; [intros [|i] x E; discriminate|]. split.
    { intros i v. split; [destruct i; discriminate|]. intros (x & E & _). destruct i; discriminate. }
    split; [cbn; lia|]. left. auto.
  - assert (K : (exists tr1 a tr2, runs fl (add_network_one c name ver net prev rt) w tr1 w (Ok a) /\
        runs fl (add_loop c name ver nets (Some a) rt) w tr2 w' r /\ tr = (tr1 ++ tr2)%list) \/
      (exists r0, runs fl (add_network_one c name ver net prev rt) w tr w' r0 /\ (forall a, r0 <> Ok a) /\
         (forall a, r <> Ok a) /\ forall e, r0 = Err e -> exists m, r = Err (EWrap m e))).
    { apply runs_rbindp in H. destruct H as [(tr1 & w1 & a & tr2 & R1 & R2 & ->)|[(e & -> & R)|(-> & R)]].
      - apply runs_pwrap in R1. destruct R1 as (r0 & R1 & E). destruct r0; try discriminate. injection E as ->.
        left. destruct (add_one_inv _ _ _ _ _ _ _ _ _ _ _ R1) as (-> & _). eauto 6.
      - apply runs_pwrap in R. destruct R as (r0 & R & E). right. exists r0. split; [exact R|].
        destruct r0; try discriminate. injection E as ->. split; [discriminate|]. split; [discriminate|]. intros e1 [= ->]. eauto.
      - apply runs_pwrap in R. destruct R as (r0 & R & E). right. exists r0. split; [exact R|].
        destruct r0; try discriminate. split; [discriminate|]. split; [discriminate|]. discriminate. }
    clear H. destruct K as [(tr1 & a & tr2 & R1 & R2 & ->)|(r0 & R & N0 & N & EM)].
    + destruct (add_one_inv _ _ _ _ _ _ _ _ _ _ _ R1) as (_ & C1 & [[_ X]|(x & C & Q & NP & V1 & V2 & V3 & E)]); [now destruct (X a)|].
      destruct (IH _ _ _ _ _ R2) as (-> & C2 & results & P1 & P2 & P3 & P4).
      split; [reflexivity|]. rewrite changed_app, C1, C2. split; [reflexivity|].
      exists (a :: results). rewrite calls_app, C. cbn [app]. split.
      { intros [|i] y Y.
        - injection Y as <-. split; [now split|]. exists net. split; [reflexivity|]. apply request_app_l. exact Q.
        - destruct (P1 i y Y) as (NO & net' & Y1 & Y2). split; [exact NO|]. exists net'. split; [exact Y1|].
          apply request_app_r. destruct i; exact Y2. }
      split.
      { intros [|i] v; cbn [nth_error].
        - split.
          + intros [= <-]. exists x. split; [reflexivity|]. destruct (call_answer x) as [out|e|] eqn:CA; cbn in E; [|discriminate|discriminate].
            exists out. auto.
          + intros (y & [= <-] & (out & CA & Z)). rewrite CA in E. cbn in E. congruence.
        - apply P2. }
      split; [cbn [List.length]; lia|]. destruct P4 as [(L1 & L2 & ->)|(L1 & L2 & L3)].
      * left. cbn [List.length]. split; [lia|]. split; [lia|]. f_equal. unfold last_or.
        cbn [List.length before]. destruct results as [|b rs]; reflexivity.
      * right. cbn [List.length]. split; [lia|]. split; [exact L2|exact L3].
    + destruct (add_one_inv _ _ _ _ _ _ _ _ _ _ _ R) as (-> & C1 & D). split; [reflexivity|]. split; [exact C1|]. exists [].
      destruct D as [[C _]|(x & C & Q & NP & V1 & V2 & V3 & E)]; rewrite C.
      * split; [intros [|i] x E; discriminate|]. split.
        { intros i v. split; [destruct i; discriminate|]. intros (x & E & _). destruct i; discriminate. }
        split; [cbn; lia|]. right. split; [cbn; lia|]. split; [exact N|]. intros x e E. discriminate.
      * split.
        { intros [|i] y Y; [|destruct i; discriminate]. injection Y as <-. split; [now split|]. exists net. split; [reflexivity|exact Q]. }
        split.
        { intros i v. split; [destruct i; discriminate|]. intros (y & Y & (out & CA & Z)). destruct i; [|destruct i; discriminate].
          injection Y as <-. rewrite CA in E. cbn in E. destruct (N0 v). congruence. }
        split; [cbn; lia|]. right. split; [cbn; lia|]. split; [exact N|].
        intros y e Y CA. injection Y as <-. apply EM. rewrite E, CA. reflexivity.
Qed.

(** *** The cache *)
Lemma cache_path_ok c name rt p : get_cache_file_path c name rt = Ok p <-> named name rt /\ p = entry_path c name rt.
Proof.
  unfold get_cache_file_path, named, entry_path, entry_name, cache_root, get_cache_dir, default_cache_dir.
  destruct (String.eqb_spec name "") as [->|N1]; cbn [orb].
  { split; [discriminate|]. intros ((X & _) & _). now destruct X. }
  destruct (String.eqb_spec (rt_container rt) "") as [E|N2]; cbn [orb].
  { split; [discriminate|]. intros ((_ & X & _) & _). now destruct X. }
  destruct (String.eqb_spec (rt_ifname rt) "") as [E|N3].
  { split; [discriminate|]. intros ((_ & _ & X) & _). now destruct X. }
  split; [intros [= <-]; auto|]. now intros (_ & ->).
Qed.
Lemma cache_path_cases c name rt : (named name rt /\ get_cache_file_path c name rt = Ok (entry_path c name rt)) \/
  (~ named name rt /\ exists e, get_cache_file_path c name rt = Err e).
Proof.
  destruct (get_cache_file_path c name rt) as [p|e|] eqn:E.
  - left. apply cache_path_ok in E. destruct E as (N & ->). auto.
  - right. split; [|eauto]. intros N. assert (X : get_cache_file_path c name rt = Ok (entry_path c name rt)) by (apply cache_path_ok; auto). congruence.
  - unfold get_cache_file_path in E. destruct (String.eqb name "" || String.eqb (rt_container rt) "" || String.eqb (rt_ifname rt) ""); discriminate.
Qed.
(** What a query for the cached result sees. *)
Definition cached_in (c : cni) (name ver : string) (rt : runtime_conf) (w : world) : res (option result) :=
  rbind (get_cache_file_path c name rt) (fun p => reads_result ver (sget p w)).
Lemma cached_in_named c name ver rt w : named name rt -> cached_in c name ver rt w = reads_result ver (sget (entry_path c name rt) w).
Proof. intros N. unfold cached_in. assert (X : get_cache_file_path c name rt = Ok (entry_path c name rt)) by (apply cache_path_ok; auto). now rewrite X. Qed.
Lemma cached_in_unnamed c name ver rt w : ~ named name rt -> exists e, cached_in c name ver rt w = Err e.
Proof. intros N. unfold cached_in. destruct (cache_path_cases c name rt) as [[X _]|[_ [e ->]]]; [now destruct N|]. now exists e. Qed.

Lemma reads_eq ver data : reads_result ver (Some data) =
  match unmarshal_cached_info data with
  | Some ci => if String.eqb (ci_kind ci) cni_cache_v1
               then (let! r := cached_result_of ci in convert_cached ver r)
               else (let! r := create_from_bytes data in convert_cached ver r)
  | None => (let! r := create_from_bytes data in convert_cached ver r)
  end.
Proof.
  unfold reads_result, held_result, held_document, cached_result_of, cni_cache_v1.
  assert (G : forall x : res result, match x with
    | Ok r => match get_as_version r ver with Ok r' => Ok (Some r') | Err e => Err (EWrap ("failed to convert cached result to config version " ++ quote ver) e) | Panic => Panic end
    | Err e => Err e | Panic => Panic end = (let! r := x in convert_cached ver r)).
  { intros [x|e|]; [|reflexivity|reflexivity]. cbn [rbind]. unfold convert_cached. destruct (get_as_version x ver); reflexivity. }
  rewrite G. destruct (unmarshal_cached_info data) as [ci|]; [|reflexivity]. destruct (String.eqb (ci_kind ci) "cniCacheV1"); reflexivity.
Qed.
Lemma get_legacy_inv fl c name ver rt w tr w' r : runs fl (get_legacy_cached_result c name ver rt) w tr w' r -> named name rt ->
  w' = w /\ changed tr = [] /\ calls tr = [] /\ (fl = true /\ r = Ok None \/
   r = match sget (entry_path c name rt) w with None => Ok None | Some data => (let! x := create_from_bytes data in convert_cached ver x) end).
Proof.
  intros H N. unfold get_legacy_cached_result in H. apply runs_lift_then in H.
  assert (X : get_cache_file_path c name rt = Ok (entry_path c name rt)) by (apply cache_path_ok; auto). rewrite X in H.
  apply runs_bind in H. destruct H as (t1 & w1 & d & t2 & R1 & R2 & ->). apply runs_read in R1. destruct R1 as (-> & -> & D).
  assert (t2 = [] /\ w' = w /\ r = match d with None => Ok None | Some data => (let! x := create_from_bytes data in convert_cached ver x) end) as (-> & -> & ->).
  { destruct d; apply runs_ret in R2; exact R2. }
  split; [reflexivity|]. split; [reflexivity|]. split; [reflexivity|]. destruct D as [->|(F & ->)]; auto.
Qed.
Lemma get_cached_inv fl c name ver rt w tr w' r : runs fl (get_cached_result c name ver rt) w tr w' r ->
  w' = w /\ changed tr = [] /\ calls tr = [] /\ (r = cached_in c name ver rt w \/ (fl = true /\ named name rt /\ r = Ok None)).
Proof.
  intros H. unfold get_cached_result in H. apply runs_lift_then in H. unfold cached_in.
  destruct (cache_path_cases c name rt) as [[N E]|[N [e E]]]; rewrite E in *.
  2:{ destruct H as (-> & -> & ->). auto. }
  apply runs_bind in H. destruct H as (t1 & w1 & d & t2 & R1 & R2 & ->). apply runs_read in R1. destruct R1 as (-> & -> & D).
  cbn [rbind]. destruct D as [->|(F & ->)].
  2:{ apply runs_ret in R2. destruct R2 as (-> & -> & ->). auto 7. }
  destruct (sget (entry_path c name rt) w) as [data|] eqn:G.
  2:{ apply runs_ret in R2. destruct R2 as (-> & -> & ->). auto 7. }
  rewrite reads_eq.
  assert (L : runs fl (get_legacy_cached_result c name ver rt) w t2 w' r -> w' = w /\ changed t2 = [] /\ calls t2 = [] /\
     (r = (let! x := create_from_bytes data in convert_cached ver x) \/ (fl = true /\ named name rt /\ r = Ok None))).
  { intros L. destruct (get_legacy_inv _ _ _ _ _ _ _ _ _ L N) as (A1 & A2 & A3 & A4). rewrite G in A4. intuition. }
  destruct (unmarshal_cached_info data) as [ci|]; [|now apply L].
  destruct (String.eqb (ci_kind ci) cni_cache_v1); [|now apply L].
  apply runs_ret in R2. destruct R2 as (-> & -> & ->). auto.
Qed.

Lemma cache_del_inv fl c name rt w tr w' r : runs fl (cache_del c name rt) w tr w' r ->
  calls tr = [] /\ (forall p, In p (changed tr) -> named name rt /\ p = entry_path c name rt) /\
  (w' = w \/ (named name rt /\ w' = sdel (entry_path c name rt) w)) /\
  (fl = false -> named name rt -> sget (entry_path c name rt) w' = None).
Proof.
  intros H. unfold cache_del in H. destruct (cache_path_cases c name rt) as [[N E]|[N [e E]]]; rewrite E in H.
  2:{ apply runs_ret in H. destruct H as (-> & -> & _). split; [reflexivity|]. split; [intros p []|]. split; [now left|]. intros _ X. now destruct N. }
  apply runs_bind in H. destruct H as (t1 & w1 & d & t2 & R1 & R2 & ->). apply runs_ret in R2. destruct R2 as (-> & -> & _).
  apply runs_remove in R1. destruct R1 as (-> & D). split; [reflexivity|]. split; [intros p [<-|[]]; auto|].
  destruct D as [(_ & (cc & G) & ->)|(-> & x & -> & D)].
  - split; [auto|]. intros _ _. rewrite sget_sdel. now rewrite String.eqb_refl.
  - split; [auto|]. intros F _. destruct D as [[G _]|F']; [exact G|congruence].
Qed.
Lemma cache_add_inv fl c res config name rt w tr w' r : runs fl (cache_add c res config name rt) w tr w' r ->
  calls tr = [] /\ (forall p, In p (changed tr) -> named name rt /\ p = entry_path c name rt) /\
  (r = Ok tt -> exists bytes, cache_bytes res config name rt = Ok bytes /\ named name rt /\
     w' = overlay (entry_path c name rt) bytes (sset (entry_path c name rt) "" w) /\ In (entry_path c name rt) (changed tr)) /\
  (fl = false -> named name rt -> (exists bytes, cache_bytes res config name rt = Ok bytes) -> r = Ok tt) /\
  ((forall e, cache_bytes res config name rt = Err e -> r = Err e) /\ (cache_bytes res config name rt = Panic -> r = Panic)) /\
  (fl = false -> r <> Ok tt -> changed tr = []).
Proof.
  intros H. unfold cache_add in H. apply runs_lift_then in H. destruct (cache_bytes res config name rt) as [bytes|e|] eqn:B.
  2:{ destruct H as (-> & -> & ->). split; [reflexivity|]. split; [intros p []|]. split; [discriminate|].
      split; [intros _ _ (b & X); discriminate|]. split; [split; [intros e0 [= ->]; reflexivity|discriminate]|reflexivity]. }
  2:{ destruct H as (-> & -> & ->). split; [reflexivity|]. split; [intros p []|]. split; [discriminate|].
      split; [intros _ _ (b & X); discriminate|]. split; [split; [discriminate|reflexivity]|reflexivity]. }
  apply runs_lift_then in H. destruct (cache_path_cases c name rt) as [[N E]|[N [e E]]]; rewrite E in H.
  2:{ destruct H as (-> & -> & ->). split; [reflexivity|]. split; [intros p []|]. split; [discriminate|].
      split; [intros _ X; now destruct N|]. split; [split; discriminate|reflexivity]. }
  unfold mkdir_all in H. cbn [bind] in H. apply runs_do in H. destruct H as (x & w1 & t1 & -> & An & R).
  assert (W1 : w1 = w /\ (x = RErr None \/ exists e, x = RErr (Some e) /\ fl = true)) by (inversion An; subst; eauto 6).
  destruct W1 as (-> & D). clear An. destruct D as [->|(e & -> & F)].
  2:{ apply runs_ret in R. destruct R as (-> & -> & ->). split; [reflexivity|]. split; [intros p []|]. split; [discriminate|].
      split; [congruence|]. split; [split; discriminate|]. congruence. }
  unfold write_file in R. cbn [bind] in R. apply runs_do in R. destruct R as (x & w1 & t2 & -> & An & R).
  assert (W1 : (x = RErr None /\ w1 = sset (entry_path c name rt) "" w) \/ (exists e, x = RErr (Some e) /\ w1 = w /\ fl = true)).
  { inversion An; subst; eauto 6. }
  clear An. destruct W1 as [(-> & ->)|(e & -> & -> & F)].
  2:{ apply runs_ret in R. destruct R as (-> & -> & ->). split; [reflexivity|]. split; [intros p [<-|[]]; auto|]. split; [discriminate|].
      split; [congruence|]. split; [split; discriminate|]. congruence. }
  cbn [bind] in R. apply runs_do in R. destruct R as (x & w1 & t3 & -> & An & R). apply runs_ret in R. destruct R as (-> & -> & ->).
  split; [reflexivity|]. split; [intros p [<-|[<-|[]]]; auto|].
  inversion An; subst.
  - split; [intros _; exists bytes; split; [reflexivity|]; split; [exact N|]; split; [reflexivity|now left]|].
    split; [reflexivity|]. split; [split; discriminate|]. intros _ X. now destruct X.
  - split; [discriminate|]. split; [congruence|]. split; [split; discriminate|]. congruence.
Qed.

(** *** Loops of requests without result *)
Lemma asked_cons c verb name ver rt net nets prev tr1 tr2 x : calls tr1 = [x] -> request c verb name ver rt net prev tr1 x -> succeeded x ->
  asked_in_order c verb name ver rt nets prev tr2 -> asked_in_order c verb name ver rt (net :: nets) prev (tr1 ++ tr2)%list.
Proof.
  intros C Q S (A1 & A2). unfold asked_in_order. rewrite calls_app, C. cbn [app]. split.
  - intros [|i] y Y.
    + injection Y as <-. exists net. split; [reflexivity|now apply request_app_l].
    + destruct (A1 i y Y) as (n & E & R). exists n. split; [exact E|now apply request_app_r].
  - intros [|i] y Y L.
    + injection Y as <-. exact S.
    + apply (A2 i y Y). cbn [List.length] in L. lia.
Qed.
Lemma asked_stop c verb name ver rt net nets prev tr x : calls tr = [x] -> request c verb name ver rt net prev tr x ->
  asked_in_order c verb name ver rt (net :: nets) prev tr.
Proof.
  intros C Q. unfold asked_in_order. rewrite C. split; intros [|i] y Y; try (destruct i; discriminate).
  - injection Y as <-. exists net. auto.
  - cbn [List.length]. lia.
Qed.
Lemma asked_none c verb name ver rt nets prev tr : calls tr = [] -> asked_in_order c verb name ver rt nets prev tr.
Proof. intros C. unfold asked_in_order. rewrite C. split; intros [|i] y Y; discriminate. Qed.
Lemma all_succeeded_cons n tr1 tr2 x : calls tr1 = [x] -> succeeded x -> (all_succeeded n tr2 <-> all_succeeded (S n) (tr1 ++ tr2)%list).
Proof.
  intros C S. unfold all_succeeded. rewrite calls_app, C. cbn [app List.length]. split.
  - intros (L & F). split; [lia|now constructor].
  - intros (L & F). inversion F. split; [lia|assumption].
Qed.
Lemma rmap_tt_ok (a : res string) : rmap (fun _ => tt) a = Ok tt <-> exists o, a = Ok o.
Proof. destruct a; cbn; split; try discriminate; try (intros (o & E); discriminate); eauto. Qed.

(** One step of either loop; [f] wraps the error. *)
Lemma verb_step fl verb c name ver net nets prev rt (f : goerr -> goerr) (p : prog (res unit)) (rest : prog (res unit)) w tr w' r :
  (forall w tr w' r, runs fl p w tr w' r <-> exists r0, runs fl (verb_network verb c name ver net prev rt) w tr w' r0 /\
      r = match r0 with Ok u => Ok u | Err e => Err (f e) | Panic => Panic end) ->
  (forall tr w' r, runs fl rest w tr w' r -> w' = w /\ changed tr = [] /\ asked_in_order c verb name ver rt nets prev tr /\
     (r = Ok tt <-> all_succeeded (List.length nets) tr) /\
     (forall x e, In x (calls tr) -> call_answer x = Err e -> r = Err (f e))) ->
  runs fl (rbindp p (fun _ => rest)) w tr w' r ->
  w' = w /\ changed tr = [] /\ asked_in_order c verb name ver rt (net :: nets) prev tr /\
     (r = Ok tt <-> all_succeeded (List.length (net :: nets)) tr) /\
     (forall x e, In x (calls tr) -> call_answer x = Err e -> r = Err (f e)).
Proof.
  intros HP HR H. apply runs_rbindp in H.
  assert (K : (exists tr1 w1 tr2, runs fl (verb_network verb c name ver net prev rt) w tr1 w1 (Ok tt) /\ runs fl rest w1 tr2 w' r /\ tr = (tr1 ++ tr2)%list) \/
     (exists r0, runs fl (verb_network verb c name ver net prev rt) w tr w' r0 /\ r0 <> Ok tt /\ r <> Ok tt /\ forall e, r0 = Err e -> r = Err (f e))).
  { destruct H as [(tr1 & w1 & [] & tr2 & R1 & R2 & ->)|[(e & -> & R)|(-> & R)]].
    - apply HP in R1. destruct R1 as (r0 & R1 & E). destruct r0 as [u| |]; try discriminate. destruct u. left. eauto 7.
    - apply HP in R. destruct R as (r0 & R & E). destruct r0 as [u|e0|]; try discriminate. injection E as ->. right. exists (Err e0).
      split; [exact R|]. split; [discriminate|]. split; [discriminate|]. now intros e1 [= ->].
    - apply HP in R. destruct R as (r0 & R & E). destruct r0 as [u|e0|]; try discriminate. right. exists Panic.
      split; [exact R|]. split; [discriminate|]. split; [discriminate|]. discriminate. }
  destruct K as [(tr1 & w1 & tr2 & R1 & R2 & ->)|(r0 & R & N0 & N & EE)].
  - apply verb_network_inv in R1. destruct R1 as (-> & C1 & [[_ X]|(x & C & Q & NP & E)]); [now destruct X|].
    symmetry in E. apply rmap_tt_ok in E. assert (S : succeeded x) by exact E.
    apply HR in R2. destruct R2 as (-> & C2 & A & B & D). split; [reflexivity|]. rewrite changed_app, C1, C2. split; [reflexivity|].
    split; [eapply asked_cons; eassumption|]. cbn [List.length]. split.
    + rewrite B. now apply all_succeeded_cons with (x := x).
    + intros y e. rewrite calls_app, C. cbn [app]. intros [<-|I] CA; [|eapply D; eassumption].
      destruct E as [o E]. congruence.
  - apply verb_network_inv in R. destruct R as (-> & C1 & [[C _]|(x & C & Q & NP & E)]); (split; [reflexivity|]); (split; [exact C1|]).
    + split; [now apply asked_none|]. split.
      * split; [intros X; now destruct N|]. intros (L & _). rewrite C in L. discriminate.
      * rewrite C. intros x e [].
    + split; [eapply asked_stop; eassumption|]. split.
      * split; [intros X; now destruct N|]. intros (_ & F). rewrite C in F. inversion F as [|? ? [o CA] _]. subst.
        destruct N0. apply rmap_tt_ok. eauto.
      * rewrite C. intros y e [<-|[]] CA. apply EE. rewrite E, CA. reflexivity.
Qed.
Lemma check_loop_inv fl c name ver prev rt : forall nets w tr w' r, runs fl (check_loop c name ver nets prev rt) w tr w' r ->
  w' = w /\ changed tr = [] /\ asked_in_order c "CHECK" name ver rt nets prev tr /\
     (r = Ok tt <-> all_succeeded (List.length nets) tr) /\
     (forall x e, In x (calls tr) -> call_answer x = Err e -> r = Err e).
Proof.
  induction nets as [|net nets IH]; intros w tr w' r H; cbn [check_loop] in H.
  - apply runs_ret in H. destruct H as (-> & -> & ->). split; [reflexivity|]. split; [reflexivity|]. split; [now apply asked_none|].
    split; [split; [split; [reflexivity|constructor]|reflexivity]|intros x e []].
  - eapply verb_step with (f := fun e => e); [| |exact H].
    + intros w0 tr0 w0' r1. split; [intros R; exists r1; split; [exact R|destruct r1; reflexivity]|].
      intros (r0 & R & ->). destruct r0; exact R.
    + intros. now apply IH.
Qed.
(** The error of a DEL names the plugin that failed; which one is unambiguous: it is the last one asked. *)
Lemma del_loop_inv fl c name ver prev rt : forall nets w tr w' r, runs fl (del_loop c name ver nets prev rt) w tr w' r ->
  w' = w /\ changed tr = [] /\ asked_in_order c "DEL" name ver rt nets prev tr /\
     (r = Ok tt <-> all_succeeded (List.length nets) tr) /\
     (forall x e, In x (calls tr) -> call_answer x = Err e -> exists m, r = Err (EWrap m e)).
Proof.
  induction nets as [|net nets IH]; intros w tr w' r H; cbn [del_loop] in H.
  - apply runs_ret in H. destruct H as (-> & -> & ->). split; [reflexivity|]. split; [reflexivity|]. split; [now apply asked_none|].
    split; [split; [split; [reflexivity|constructor]|reflexivity]|intros x e []].
  - apply runs_rbindp in H.
    assert (K : (exists tr1 w1 tr2, runs fl (verb_network "DEL" c name ver net prev rt) w tr1 w1 (Ok tt) /\ runs fl (del_loop c name ver nets prev rt) w1 tr2 w' r /\ tr = (tr1 ++ tr2)%list) \/
       (exists r0, runs fl (verb_network "DEL" c name ver net prev rt) w tr w' r0 /\ r0 <> Ok tt /\ r <> Ok tt /\ forall e, r0 = Err e -> exists m, r = Err (EWrap m e))).
    { destruct H as [(tr1 & w1 & [] & tr2 & R1 & R2 & ->)|[(e & -> & R)|(-> & R)]].
      - apply runs_pwrap in R1. destruct R1 as (r0 & R1 & E). destruct r0 as [u| |]; try discriminate. destruct u. left. eauto 7.
      - apply runs_pwrap in R. destruct R as (r0 & R & E). destruct r0 as [u|e0|]; try discriminate. injection E as ->. right. exists (Err e0).
        split; [exact R|]. split; [discriminate|]. split; [discriminate|]. intros e1 [= ->]. eauto.
      - apply runs_pwrap in R. destruct R as (r0 & R & E). destruct r0 as [u|e0|]; try discriminate. right. exists Panic.
        split; [exact R|]. split; [discriminate|]. split; [discriminate|]. discriminate. }
    destruct K as [(tr1 & w1 & tr2 & R1 & R2 & ->)|(r0 & R & N0 & N & EE)].
    + apply verb_network_inv in R1. destruct R1 as (-> & C1 & [[_ X]|(x & C & Q & NP & E)]); [now destruct X|].
      symmetry in E. apply rmap_tt_ok in E. assert (S : succeeded x) by exact E.
      apply IH in R2. destruct R2 as (-> & C2 & A & B & D). split; [reflexivity|]. rewrite changed_app, C1, C2. split; [reflexivity|].
      split; [eapply asked_cons; eassumption|]. cbn [List.length]. split.
      * rewrite B. now apply all_succeeded_cons with (x := x).
      * intros y e. rewrite calls_app, C. cbn [app]. intros [<-|I] CA; [|eapply D; eassumption].
        destruct E as [o E]. congruence.
    + apply verb_network_inv in R. destruct R as (-> & C1 & [[C _]|(x & C & Q & NP & E)]); (split; [reflexivity|]); (split; [exact C1|]).
      * split; [now apply asked_none|]. split.
        -- split; [intros X; now destruct N|]. intros (L & _). rewrite C in L. discriminate.
        -- rewrite C. intros x e [].
      * split; [eapply asked_stop; eassumption|]. split.
        -- split; [intros X; now destruct N|]. intros (_ & F). rewrite C in F. inversion F as [|? ? [o CA] _]. subst.
           destruct N0. apply rmap_tt_ok. eauto.
        -- rewrite C. intros y e [<-|[]] CA. apply EE. rewrite E, CA. reflexivity.
Qed.
