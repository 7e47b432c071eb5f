(** C22 for the API: whatever operation runs a plugin, the plugin inherits the environment of the
    process at that moment, but for the protocol variables. *)
From Coq Require Import String Ascii List Bool Arith Permutation.
From Verif Require Import Model.GoStr Model.Errors Model.Args Model.Types Model.Conf Model.Invoke Model.Prog Model.Api
  Spec.EnvSpec Spec.RunSpec Spec.CacheSpec Spec.HistSpec Proofs.EnvP Proofs.ProgP Properties.P_Env Properties.P_Api.
Import ListNotations.
Open Scope nat_scope.
Open Scope string_scope.

(** A program that runs plugins only right after reading the environment. *)
Inductive inherits {A} : prog A -> Prop :=
| inh_ret a : inherits (Ret a)
| inh_do o k : is_exec o = false -> (forall r, inherits (k r)) -> inherits (Do o k)
| inh_exec path stdin a k : (forall r, inherits (k r)) ->
    inherits (Do OpEnviron (fun r => Do (OpExec path stdin (as_env (match r with REnv l => l | _ => [] end) a)) k)).
Lemma inh_bind A B (p : prog A) (f : A -> prog B) : inherits p -> (forall a, inherits (f a)) -> inherits (bind p f).
Proof. intros H F. induction H; cbn [bind]; [apply F|apply inh_do; auto|apply inh_exec; auto]. Qed.
Lemma inh_rbindp A B (p : prog (res A)) (f : A -> prog (res B)) : inherits p -> (forall a, inherits (f a)) -> inherits (rbindp p f).
Proof. intros H F. apply inh_bind; [exact H|]. intros [a|e|]; [apply F|apply inh_ret|apply inh_ret]. Qed.
Lemma inh_pwrap A pre (p : prog (res A)) : inherits p -> inherits (pwrap pre p).
Proof. intros H. apply inh_bind; [exact H|intros; apply inh_ret]. Qed.
Lemma inh_lift A (r : res A) : inherits (lift r). Proof. apply inh_ret. Qed.
Lemma inh_one A o (k : resp -> A) : is_exec o = false -> inherits (Do o (fun r => Ret (k r))).
Proof. intros H. apply inh_do; [exact H|intros; apply inh_ret]. Qed.
Lemma inh_args path stdin a : inherits (exec_with_args path stdin a).
Proof. apply inh_exec. intros; apply inh_ret. Qed.
Ltac inh0 := repeat first
  [ apply inh_ret | apply inh_lift | apply inh_args | (apply inh_one; reflexivity)
  | apply inh_pwrap | simple apply inh_rbindp; [|intros ?] | simple apply inh_bind; [|intros ?] ].
Ltac inh := inh0; repeat (match goal with |- inherits (match ?x with _ => _ end) => destruct x end; inh0).
Lemma inh_verb verb c name ver net prev rt : inherits (verb_network verb c name ver net prev rt).
Proof. unfold verb_network, exec_plugin_without_result. inh. Qed.
Lemma inh_add_one c name ver net prev rt : inherits (add_network_one c name ver net prev rt).
Proof. unfold add_network_one, exec_plugin_with_result. inh. Qed.
Lemma inh_only verb c net : inherits (verb_only verb c net).
Proof. unfold verb_only, exec_plugin_without_result. inh. Qed.
Lemma inh_version path : inherits (invoke_get_version_info path).
Proof. unfold invoke_get_version_info. inh. Qed.
Lemma inh_cached c name ver rt : inherits (get_cached_result c name ver rt).
Proof.
  unfold get_cached_result, get_legacy_cached_result, read_file. inh.
Qed.
Lemma inh_config c name rt : inherits (get_cached_config c name rt).
Proof. unfold get_cached_config, read_file. inh. Qed.
Lemma inh_cache_del c name rt : inherits (cache_del c name rt).
Proof. unfold cache_del, remove_file. inh. Qed.
Lemma inh_cache_add c res config name rt : inherits (cache_add c res config name rt).
Proof.
  unfold cache_add, mkdir_all, write_file. inh. apply inh_do; [reflexivity|]. intros r. inh.
Qed.
Lemma inh_add_loop c name ver rt : forall nets prev, inherits (add_loop c name ver nets prev rt).
Proof. induction nets as [|n nets IH]; intros prev; cbn [add_loop]; inh; [apply inh_add_one|apply IH]. Qed.
Lemma inh_check_loop c name ver prev rt : forall nets, inherits (check_loop c name ver nets prev rt).
Proof. induction nets as [|n nets IH]; cbn [check_loop]; inh; [apply inh_verb|apply IH]. Qed.
Lemma inh_del_loop c name ver prev rt : forall nets, inherits (del_loop c name ver nets prev rt).
Proof. induction nets as [|n nets IH]; cbn [del_loop]; inh; [apply inh_verb|apply IH]. Qed.
Lemma inh_del c l rt : inherits (del_network_list c l rt).
Proof.
  unfold del_network_list. inh; first [apply inh_cached|apply inh_cache_del|apply inh_del_loop].
Qed.
Lemma inh_validate c t v : inherits (validate_plugin c t v).
Proof. unfold validate_plugin, find_plugin. inh. apply inh_version. Qed.
Lemma inh_validate_loop c v : forall nets caps errs, inherits (validate_loop c v nets caps errs).
Proof. induction nets as [|n nets IH]; intros; cbn [validate_loop]; inh; [apply inh_validate|..]; apply IH. Qed.
Lemma inh_read dir id : forall names, inherits (read_attachments dir id names).
Proof. induction names as [|n names IH]; cbn [read_attachments]; inh; apply IH. Qed.
Lemma inh_attachments c id : inherits (get_cached_attachments c id).
Proof. unfold get_cached_attachments, read_dir. inh. apply inh_read. Qed.
Lemma inh_status c inject : forall nets, inherits (status_loop c inject nets).
Proof. induction nets as [|n nets IH]; cbn [status_loop]; inh; [apply inh_only|apply IH]. Qed.
Lemma inh_gc_plugins c inject : forall nets errs, inherits (gc_plugin_loop c inject nets errs).
Proof. induction nets as [|n nets IH]; intros; cbn [gc_plugin_loop]; inh; [apply inh_only|..]; apply IH. Qed.
Lemma inh_gc_dels c l args : forall atts errs, inherits (gc_del_loop c l args atts errs).
Proof.
  induction atts as [|a atts IH]; intros; cbn [gc_del_loop]; inh; first [apply IH|apply inh_del].
Qed.
Lemma inh_performs c a : inherits (performs c a).
Proof.
  assert (W : forall A (f : A -> value) p, inherits p -> inherits (returning f p)) by (intros; unfold returning; inh; assumption).
  destruct a; cbn [performs]; apply W;
    unfold add_network_list, check_network_list, get_network_list_cached_result, get_network_list_cached_config, add_network, check_network, del_network,
      get_network_cached_result, get_network_cached_config, validate_network_list, validate_network, gc_network_list, get_status_network_list, get_version_info, find_plugin;
    inh;
    first [apply inh_add_loop|apply inh_cache_add|apply inh_cached|apply inh_check_loop|apply inh_del|apply inh_config|apply inh_add_one|apply inh_verb|apply inh_cache_del
      |apply inh_validate_loop|apply inh_validate|apply inh_attachments|apply inh_gc_dels|apply inh_gc_plugins|apply inh_status|apply inh_version].
Qed.

Lemma inh_goes A fl (p : prog A) : inherits p -> forall w tr w' q, goes fl p w tr w' q ->
  forall t1 path stdin env r t2, tr = (t1 ++ (OpExec path stdin env, r) :: t2)%list ->
  exists t0 environ a, t1 = (t0 ++ [(OpEnviron, REnv environ)])%list /\ env = as_env environ a.
Proof.
  induction 1 as [a|o k X _ IH|path0 stdin0 a k _ IH]; intros w tr w' q G t1 path stdin env r t2 E.
  - inversion G; subst. destruct t1; discriminate.
  - inversion G as [|o' k1 w0 r0 w1 tr' w2 q' An G']; subst; [destruct t1; discriminate|]. match goal with X : _ = (t1 ++ _)%list |- _ => rename X into H end.
    destruct t1 as [|ev t1]; [injection H as -> _; discriminate|]. injection H as <- ->.
    destruct (IH r0 _ _ _ _ G' t1 _ _ _ _ _ eq_refl) as (t0 & environ & a & -> & ->). exists ((o, r0) :: t0), environ, a. auto.
  - inversion G as [|o' k1 w0 r0 w1 tr' w2 q' An G']; subst; [destruct t1; discriminate|]. match goal with X : _ = (t1 ++ _)%list |- _ => rename X into H end.
    destruct t1 as [|ev t1]; [discriminate|]. injection H as <- ->.
    inversion An; subst. inversion G' as [|o' k1 w0 r0 w2 tr' w3 q' An' G'']; subst; [destruct t1; discriminate|]. match goal with X : _ = (t1 ++ _)%list |- _ => rename X into H end.
    destruct t1 as [|ev t1].
    + injection H as <- <- <- <- <-. exists [], l, a. auto.
    + injection H as <- ->. destruct (IH r0 _ _ _ _ G'' t1 _ _ _ _ _ eq_refl) as (t0 & environ & b & -> & ->).
      eexists (_ :: _ :: t0), environ, b. split; reflexivity.
Qed.
(** Whatever the operation, whether it is complete or not: a plugin is run with the variables the
    process has just then, each once; of those it inherits all but the protocol's, which are the
    request's. *)
Theorem C22_every_plugin_inherits : forall fl c a w tr w' rest, goes fl (performs c a) w tr w' rest ->
  forall t1 path stdin env r t2, tr = (t1 ++ (OpExec path stdin env, r) :: t2)%list ->
  exists t0 environ, t1 = (t0 ++ [(OpEnviron, REnv environ)])%list /\ each_once env /\
    (forall e k v, ~ In k ["CNI_COMMAND"; "CNI_CONTAINERID"; "CNI_NETNS"; "CNI_ARGS"; "CNI_IFNAME"; "CNI_PATH"] ->
       assigns e k v -> (In e env <-> last_assigned environ k v)) /\
    (forall e, lacks "="%char e -> count_occ string_dec env e = count_occ string_dec environ e) /\
    (forall k, In k ["CNI_COMMAND"; "CNI_CONTAINERID"; "CNI_NETNS"; "CNI_ARGS"; "CNI_IFNAME"; "CNI_PATH"] ->
       exists v, forall e v', assigns e k v' -> (In e env <-> v' = v)).
Proof.
  intros fl c a w tr w' rest G t1 path stdin env r t2 E. destruct (inh_goes _ _ _ (inh_performs c a) _ _ _ _ G _ _ _ _ _ _ E) as (t0 & environ & b & -> & ->).
  exists t0, environ. split; [reflexivity|]. split; [exact (C22_each_variable_once environ b _ (Permutation_refl _))|].
  split; [intros e k v; exact (C22_others_inherited environ b _ e k v (Permutation_refl _))|].
  split; [intros e; exact (C22_other_entries_kept environ b _ e (Permutation_refl _))|].
  intros k I. cbn [In] in I. destruct I as [<-|[<-|[<-|[<-|[<-|[<-|[]]]]]]];
    (eexists; intros e v'; refine (C22_protocol_entries_exact environ b _ e _ _ (Permutation_refl _) _ v'); cbn [In]; eauto 8).
Qed.
(** An ADD that runs two plugins, in an environment with a variable of its own. *)
Example C22_nonvacuous_api : exists tr w' v t1 path stdin env r t2,
  runs false (performs X_cni (AddList X_list X_rt)) [] tr w' v /\ tr = (t1 ++ (OpExec path stdin env, r) :: t2)%list /\
  In "HOME=/root" env /\ In "CNI_COMMAND=ADD" env.
Proof.
  destruct (interp X_oracle 0 (performs X_cni (AddList X_list X_rt)) []) as [[v w'] tr] eqn:E. pose proof (interp_run _ _ _ _ _ _ _ X_tame E) as R.
  vm_compute in E. injection E as <- <- <-.
  eexists _, _, _, [_; _], _, _, _, _, _. split; [exact R|]. split; [reflexivity|]. cbn [In]. tauto.
Qed.
Print Assumptions C22_every_plugin_inherits.
Print Assumptions C22_nonvacuous_api.
