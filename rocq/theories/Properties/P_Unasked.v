(** C87: capability arguments nobody asks for, and those that cannot be written. *)
From Coq Require Import String Ascii List Bool Arith ZArith NArith Lia.
From Verif Require Import Model.GoStr Model.Errors Model.Json Model.GoJson Model.Version Model.Args Model.Types Model.Conf Model.Invoke Model.Prog Model.Api
  Spec.NameSpec Spec.VersionSpec Spec.JsonSpec Spec.ConfSpec Spec.TypesSpec Spec.RunSpec Spec.CacheSpec Spec.HistSpec Spec.PathSpec Spec.MapSpec Spec.LiveSpec Spec.UnaskedSpec
  Proofs.StrP Proofs.JsonP Proofs.JsonRT Proofs.TypesP Proofs.DecodeP Proofs.ShapeP Proofs.ConfP Proofs.BuildP Proofs.GoJsonP Proofs.ProgP Proofs.ApiP Proofs.VerbP Proofs.HistP Proofs.LiveP
  Properties.P_Types Properties.P_Conf Properties.P_Api Properties.P_Cache Properties.P_Again.
Import ListNotations.
Open Scope nat_scope.
Open Scope string_scope.

(** *** What cannot be written *)
Lemma unwritable_iff j : unwritable j <-> marshals j = false.
Proof.
  induction j using json_ind'; cbn [marshals]; try (split; [intros U; inversion U|discriminate]; fail).
  - split.
    + intros U. inversion U; subst. match goal with K : ~ number_lit _ |- _ => rewrite number_lit_spec in K; now apply not_true_is_false end.
    + intros E. apply uw_num. rewrite number_lit_spec. congruence.
  - split.
    + intros U. inversion U as [|l' x I Ux|]; subst. clear U. rewrite Forall_forall in H. apply (H x I) in Ux.
      apply not_true_is_false. rewrite forallb_forall. intros G. rewrite (G x I) in Ux. discriminate.
    + intros E. induction H as [|x l Hx _ IH]; [discriminate|]. cbn [forallb] in E. apply andb_false_iff in E. destruct E as [E|E].
      * apply (uw_arr _ x); [now left|now apply Hx].
      * apply IH in E. inversion E as [|l' y I Uy|]; subst. apply (uw_arr _ y); [now right|exact Uy].
  - split.
    + intros U. inversion U as [| |l' k x I Ux]; subst. clear U. rewrite Forall_forall in H. apply (H (k, x) I) in Ux.
      apply not_true_is_false. rewrite forallb_forall. intros G. specialize (G _ I). cbn [snd] in *. rewrite G in Ux. discriminate.
    + intros E. induction H as [|[k x] l Hx _ IH]; [discriminate|]. cbn [forallb snd] in *. apply andb_false_iff in E. destruct E as [E|E].
      * apply (uw_obj _ k x); [now left|now apply Hx].
      * apply IH in E. inversion E as [| |l' k' y I Uy]; subst. apply (uw_obj _ k' y); [now right|exact Uy].
Qed.
Lemma unwritable_map k v m : last_get k m = Some v -> unwritable v -> marshal_map m = None.
Proof.
  intros G U. unfold marshal_map. replace (marshals (enc_map m)) with false; [reflexivity|]. symmetry. apply unwritable_iff. apply (uw_obj _ k v); [|exact U].
  apply sget_In. rewrite sget_sset_all, G. reflexivity.
Qed.
Lemma given_last k v rt : given k v rt -> last_get k (rt_caps rt) = Some v.
Proof. intros [ND G]. now rewrite (last_get_nodup _ _ ND). Qed.

(** *** Building a request *)
(** A request is built in two steps, the second of which adds the arguments the plugin asks for. *)
Lemma build_steps name ver net prev : well_formed_text name -> well_formed_text ver -> sound prev -> spelt net ->
  (exists x, (forall mid, x <> Ok mid) /\ forall rt', build_one_config name ver net prev rt' = x) \/
  (exists mid, ssorted (pc_caps (pg_conf mid)) /\ (forall k, sget k (pc_caps (pg_conf mid)) = Some true <-> asks_for net k) /\
     forall rt', build_one_config name ver net prev rt' = inject_runtime_config mid rt').
Proof.
  intros Wn Wv S SP. destruct (build_one_config name ver net prev runtime_conf_zero) as [mid|e|] eqn:B.
  - right. assert (K : forall rt', build_one_config name ver net prev rt' = inject_runtime_config mid rt').
    { intros rt'. unfold build_one_config in *. match type of B with rbind ?x _ = _ => destruct x as [m0|e0|] eqn:E; try discriminate end.
      cbn [rbind] in *. unfold inject_runtime_config in B at 1. cbn [rt_caps runtime_conf_zero] in B.
      assert (Z : forall caps, selected_caps caps [] = []).
      { unfold selected_caps. induction caps as [|[k [|]] caps IH]; [reflexivity|exact IH|exact IH]. }
      rewrite Z in B. injection B as <-. reflexivity. }
    pose proof (sound_ok _ _ _ _ _ _ S B) as PO.
    assert (P : exists o, parse (pg_bytes net) = Some (JObj o)).
    { pose proof B as B'. unfold build_one_config in B'. match type of B' with rbind ?x _ = _ => destruct x as [m0|e0|] eqn:E; try discriminate end.
      apply inject_ok in E. destruct E as (m & kvs & c0 & U & _). apply unmarshal_map_some in U as (j & P & IO & _).
      destruct j as [|b|n|t|a|o]; try discriminate IO. eauto. }
    destruct P as [o P]. destruct (build_doc_caps _ _ _ _ _ _ _ B P Wn Wv PO) as (d & c1 & _ & _ & _ & _ & _ & _ & _ & _ & (SS & AD) & _ & _ & _ & C1); [constructor|].
    rewrite (C1 eq_refl) in *. exists mid. split; [exact SS|]. split; [|exact K]. intros k. rewrite (AD (SP o P) k). unfold asks_for. split; [eauto|].
    intros (o' & P' & A'). rewrite P in P'. injection P' as <-. exact A'.
  - left. exists (Err e). split; [discriminate|]. intros rt'. unfold build_one_config in *.
    match type of B with rbind ?x _ = _ => destruct x as [m0|e0|] eqn:E end; cbn [rbind] in *; [|congruence|discriminate]. exfalso. revert B.
    unfold inject_runtime_config. cbn [rt_caps runtime_conf_zero]. assert (Z : forall caps, selected_caps caps [] = []).
    { unfold selected_caps. induction caps as [|[k [|]] caps IH]; [reflexivity|exact IH|exact IH]. }
    rewrite Z. discriminate.
  - left. exists Panic. split; [discriminate|]. intros rt'. unfold build_one_config in *.
    match type of B with rbind ?x _ = _ => destruct x as [m0|e0|] eqn:E end; cbn [rbind] in *; [|discriminate|congruence]. exfalso. revert B.
    unfold inject_runtime_config. cbn [rt_caps runtime_conf_zero]. assert (Z : forall caps, selected_caps caps [] = []).
    { unfold selected_caps. induction caps as [|[k [|]] caps IH]; [reflexivity|exact IH|exact IH]. }
    rewrite Z. discriminate.
Qed.
Lemma selected_without caps args k : ssorted caps -> sget k caps <> Some true -> selected_caps caps (sdel k args) = selected_caps caps args.
Proof.
  intros S N. unfold selected_caps. assert (G : forall k' b, In (k', b) caps -> b = true -> k' <> k).
  { intros k' b I -> ->. apply N. now apply sget_in_sorted. }
  clear S N. induction caps as [|[k' b] caps IH]; [reflexivity|]. cbn [flat_map fst snd]. rewrite IH by (intros k2 b2 I; apply G; now right). f_equal.
  destruct b; [|reflexivity]. rewrite sget_sdel. destruct (String.eqb_spec k' k) as [->|D]; [|reflexivity]. destruct (G k true (or_introl eq_refl) eq_refl eq_refl).
Qed.
Lemma build_unasked name ver net prev rt k : well_formed_text name -> well_formed_text ver -> sound prev -> spelt net -> ~ asks_for net k ->
  build_one_config name ver net prev (without_arg k rt) = build_one_config name ver net prev rt.
Proof.
  intros Wn Wv S SP N. destruct (build_steps name ver net prev Wn Wv S SP) as [(x & _ & K)|(mid & SS & AD & K)]; rewrite !K; [reflexivity|].
  unfold inject_runtime_config. cbn [without_arg rt_caps]. rewrite selected_without; [reflexivity|exact SS|]. now rewrite AD.
Qed.
Lemma build_unwritable name ver net prev rt k v : well_formed_text name -> well_formed_text ver -> sound prev -> spelt net -> asks_for net k ->
  given k v rt -> unwritable v -> forall conf, build_one_config name ver net prev rt <> Ok conf.
Proof.
  intros Wn Wv S SP A [ND G] U conf. destruct (build_steps name ver net prev Wn Wv S SP) as [(x & X & K)|(mid & SS & AD & K)]; rewrite !K; [apply X|].
  unfold inject_runtime_config. apply AD in A. pose proof (selected_get (pc_caps (pg_conf mid)) (rt_caps rt) k SS) as SG. rewrite A, G in SG.
  destruct (selected_caps (pc_caps (pg_conf mid)) (rt_caps rt)) as [|kv rc] eqn:SC; [discriminate|]. rewrite <- SC in *. rewrite (unwritable_map _ _ _ SG U).
  intros E. apply inject_ok in E. destruct E as (m & kvs & c0 & _ & E & _). destruct kvs as [|[k1 j1] kvs]; discriminate.
Qed.

(** *** Calls that build the same requests make the same runs *)
Definition alike (rt1 rt2 : runtime_conf) : Prop :=
  rt_container rt1 = rt_container rt2 /\ rt_netns rt1 = rt_netns rt2 /\ rt_ifname rt1 = rt_ifname rt2 /\ rt_args rt1 = rt_args rt2 /\ rt_cache_dir rt1 = rt_cache_dir rt2.
Definition builds_alike (name ver : string) (nets : list plugin_config) (rt1 rt2 : runtime_conf) : Prop :=
  forall net prev, In net nets -> sound prev -> build_one_config name ver net prev rt1 = build_one_config name ver net prev rt2.
Lemma verb_alike verb c name ver net prev rt1 rt2 : alike rt1 rt2 -> build_one_config name ver net prev rt1 = build_one_config name ver net prev rt2 ->
  verb_network verb c name ver net prev rt1 = verb_network verb c name ver net prev rt2.
Proof.
  intros (E1 & E2 & E3 & E4 & E5) B. unfold verb_network. rewrite B. unfold api_args. rewrite E1, E2, E3, E4. reflexivity.
Qed.
Lemma add_one_alike c name ver net prev rt1 rt2 : alike rt1 rt2 -> build_one_config name ver net prev rt1 = build_one_config name ver net prev rt2 ->
  add_network_one c name ver net prev rt1 = add_network_one c name ver net prev rt2.
Proof.
  intros (E1 & E2 & E3 & E4 & E5) B. unfold add_network_one. rewrite B. unfold api_args. rewrite E1, E2, E3, E4. reflexivity.
Qed.
Lemma path_alike c name rt1 rt2 : alike rt1 rt2 -> get_cache_file_path c name rt1 = get_cache_file_path c name rt2.
Proof. intros (E1 & E2 & E3 & E4 & E5). unfold get_cache_file_path, get_cache_dir. now rewrite E1, E3, E5. Qed.
Lemma cached_alike c name ver rt1 rt2 : alike rt1 rt2 -> get_cached_result c name ver rt1 = get_cached_result c name ver rt2.
Proof.
  intros A. unfold get_cached_result, get_legacy_cached_result. rewrite (path_alike c name _ _ A). reflexivity.
Qed.
Lemma cache_del_alike c name rt1 rt2 : alike rt1 rt2 -> cache_del c name rt1 = cache_del c name rt2.
Proof. intros A. unfold cache_del. now rewrite (path_alike c name _ _ A). Qed.
Lemma del_loop_alike c name ver prev rt1 rt2 : alike rt1 rt2 -> sound prev -> forall nets, builds_alike name ver nets rt1 rt2 ->
  del_loop c name ver nets prev rt1 = del_loop c name ver nets prev rt2.
Proof.
  intros A S. induction nets as [|net nets IH]; intros B; [reflexivity|]. cbn [del_loop]. rewrite IH by (intros n p I; apply B; now right).
  rewrite (verb_alike "DEL" c name ver net prev rt1 rt2 A); [reflexivity|]. apply B; [now left|exact S].
Qed.
Lemma check_loop_alike c name ver prev rt1 rt2 : alike rt1 rt2 -> sound prev -> forall nets, builds_alike name ver nets rt1 rt2 ->
  check_loop c name ver nets prev rt1 = check_loop c name ver nets prev rt2.
Proof.
  intros A S. induction nets as [|net nets IH]; intros B; [reflexivity|]. cbn [check_loop]. rewrite IH by (intros n p I; apply B; now right).
  rewrite (verb_alike "CHECK" c name ver net prev rt1 rt2 A); [reflexivity|]. apply B; [now left|exact S].
Qed.
Lemma got_sound fl c name ver rt w tr w' prev : runs fl (get_cached_result c name ver rt) w tr w' (Ok prev) -> sound prev.
Proof.
  intros H. apply get_cached_inv in H. destruct H as (_ & _ & _ & [H|(_ & _ & H)]); [eapply cached_sound; symmetry; exact H|]. injection H as ->. intros r E. discriminate E.
Qed.
Lemma none_sound : sound None. Proof. intros r E. discriminate E. Qed.
Lemma del_alike fl c l rt1 rt2 w tr w' r : alike rt1 rt2 -> builds_alike (nl_name l) (nl_version l) (nl_plugins l) rt1 rt2 ->
  runs fl (del_network_list c l rt1) w tr w' r -> runs fl (del_network_list c l rt2) w tr w' r.
Proof.
  intros A B H. unfold del_network_list in *. rewrite <- (cached_alike c (nl_name l) (nl_version l) _ _ A), <- (cache_del_alike c (nl_name l) _ _ A).
  apply runs_lift_then in H. apply runs_lift_then. destruct (gte (nl_version l) "0.4.0") as [gtet|e|]; [|exact H|exact H].
  apply runs_rbindp in H. apply runs_rbindp. destruct H as [(tr1 & w1 & cached & tr2 & R1 & R2 & E)|H]; [|right; exact H].
  left. exists tr1, w1, cached, tr2. split; [exact R1|]. split; [|exact E].
  assert (S : sound cached).
  { destruct gtet; [|apply runs_ret in R1; destruct R1 as (_ & _ & R1); injection R1 as ->; apply none_sound].
    apply runs_bind in R1. destruct R1 as (t1 & w2 & x & t2 & G & R1 & _). destruct x as [x|e|].
    - apply runs_ret in R1. destruct R1 as (_ & _ & R1). injection R1 as ->. eapply got_sound. exact G.
    - apply runs_bind in R1. destruct R1 as (t3 & w3 & u & t4 & _ & R1 & _). apply runs_ret in R1. destruct R1 as (_ & _ & R1). injection R1 as ->. apply none_sound.
    - apply runs_ret in R1. destruct R1 as (_ & _ & R1). discriminate. }
  rewrite <- (del_loop_alike c (nl_name l) (nl_version l) cached rt1 rt2 A S); [exact R2|].
  intros net prev I. apply B. now apply in_rev.
Qed.
Lemma check_alike fl c l rt1 rt2 w tr w' r : alike rt1 rt2 -> builds_alike (nl_name l) (nl_version l) (nl_plugins l) rt1 rt2 ->
  runs fl (check_network_list c l rt1) w tr w' r -> runs fl (check_network_list c l rt2) w tr w' r.
Proof.
  intros A B H. unfold check_network_list in *. rewrite <- (cached_alike c (nl_name l) (nl_version l) _ _ A).
  apply runs_lift_then in H. apply runs_lift_then. destruct (gte (nl_version l) "0.4.0") as [gtet|e|]; [|exact H|exact H].
  destruct (negb gtet); [exact H|]. destruct (nl_disable_check l); [exact H|].
  apply runs_rbindp in H. apply runs_rbindp. destruct H as [(tr1 & w1 & cached & tr2 & R1 & R2 & E)|H]; [|right; exact H].
  left. exists tr1, w1, cached, tr2. split; [exact R1|]. split; [|exact E].
  assert (S : sound cached).
  { apply runs_pwrap in R1. destruct R1 as (x & R1 & E1). destruct x as [x|e|]; try discriminate. injection E1 as ->. eapply got_sound. exact R1. }
  rewrite <- (check_loop_alike c (nl_name l) (nl_version l) cached rt1 rt2 A S); [exact R2|exact B].
Qed.
Lemma add_loop_alike fl c name ver rt1 rt2 : alike rt1 rt2 -> forall nets prev w tr w' r, builds_alike name ver nets rt1 rt2 -> sound prev ->
  runs fl (add_loop c name ver nets prev rt1) w tr w' r -> runs fl (add_loop c name ver nets prev rt2) w tr w' r.
Proof.
  intros A. induction nets as [|net nets IH]; intros prev w tr w' r B S H; [exact H|]. cbn [add_loop] in *.
  rewrite (add_one_alike c name ver net prev rt1 rt2 A) in H by (apply B; [now left|exact S]).
  apply runs_rbindp in H. apply runs_rbindp. destruct H as [(tr1 & w1 & x & tr2 & R1 & R2 & E)|H]; [|right; exact H].
  left. exists tr1, w1, x, tr2. split; [exact R1|]. split; [|exact E]. apply IH; [intros n p I; apply B; now right| |exact R2].
  apply runs_pwrap in R1. destruct R1 as (y & R1 & E1). destruct y as [y|e|]; try discriminate. injection E1 as ->.
  apply add_one_inv in R1. destruct R1 as (_ & _ & [(_ & N)|(z & _ & _ & _ & _ & _ & _ & E1)]); [now destruct (N y)|].
  destruct (call_answer z) as [out|e|]; cbn [rbind] in E1; try discriminate. intros r0 E0. injection E0 as <-. symmetry in E1. exact (add_result_from _ _ _ E1).
Qed.
Lemma without_alike k rt : alike rt (without_arg k rt). Proof. repeat split. Qed.
Lemma alike_sym rt1 rt2 : alike rt1 rt2 -> alike rt2 rt1. Proof. intros (A & B & C & D & E). repeat split; now symmetry. Qed.
Lemma without_builds name ver nets k rt : well_formed_text name -> well_formed_text ver -> Forall spelt nets -> (forall net, In net nets -> ~ asks_for net k) ->
  builds_alike name ver nets rt (without_arg k rt).
Proof. intros Wn Wv SP N net prev I S. symmetry. rewrite Forall_forall in SP. apply build_unasked; auto. Qed.
Lemma builds_sym name ver nets rt1 rt2 : builds_alike name ver nets rt1 rt2 -> builds_alike name ver nets rt2 rt1.
Proof. intros B net prev I S. symmetry. now apply B. Qed.

(** *** C87 *)
(** An argument no plugin of the network asks for makes no difference to DEL: the runs are the same,
    operation by operation, with it and without it. *)
Theorem C87_del_unasked : forall fl c l rt k w tr w' r, well_formed_text (nl_name l) -> well_formed_text (nl_version l) ->
  Forall spelt (nl_plugins l) -> (forall net, In net (nl_plugins l) -> ~ asks_for net k) ->
  runs fl (del_network_list c l rt) w tr w' r <-> runs fl (del_network_list c l (without_arg k rt)) w tr w' r.
Proof.
  intros fl c l rt k w tr w' r Wn Wv SP N. pose proof (without_builds _ _ _ k rt Wn Wv SP N) as B. split; apply del_alike.
  - apply without_alike.
  - exact B.
  - apply alike_sym, without_alike.
  - now apply builds_sym.
Qed.
Theorem C87_check_unasked : forall fl c l rt k w tr w' r, well_formed_text (nl_name l) -> well_formed_text (nl_version l) ->
  Forall spelt (nl_plugins l) -> (forall net, In net (nl_plugins l) -> ~ asks_for net k) ->
  runs fl (check_network_list c l rt) w tr w' r <-> runs fl (check_network_list c l (without_arg k rt)) w tr w' r.
Proof.
  intros fl c l rt k w tr w' r Wn Wv SP N. pose proof (without_builds _ _ _ k rt Wn Wv SP N) as B. split; apply check_alike.
  - apply without_alike.
  - exact B.
  - apply alike_sym, without_alike.
  - now apply builds_sym.
Qed.
(** Nor to what ADD asks the plugins: each gets the request it would get without it. *)
Theorem C87_add_unasked : forall fl c l rt k w tr w' r, runs fl (add_network_list c l rt) w tr w' r -> well_formed_text (nl_version l) ->
  Forall spelt (nl_plugins l) -> (forall net, In net (nl_plugins l) -> ~ asks_for net k) ->
  forall i x, nth_error (calls tr) i = Some x ->
  exists net prev, nth_error (nl_plugins l) i = Some net /\ request c "ADD" (nl_name l) (nl_version l) rt net prev tr x /\
    request c "ADD" (nl_name l) (nl_version l) (without_arg k rt) net prev tr x.
Proof.
  intros fl c l rt k w tr w' r H Wv SP N i x X. destruct (add_requests _ _ _ _ _ _ _ _ H i x X) as (Wn & net & p & G & Q & S).
  exists net, p. split; [exact G|]. split; [exact Q|]. destruct Q as (Q1 & Q2 & conf & Q3 & Q4). split; [exact Q1|]. split; [exact Q2|]. exists conf. split; [|exact Q4].
  rewrite build_unasked; try assumption; [rewrite Forall_forall in SP; apply SP; eapply nth_error_In; exact G|]. apply N. eapply nth_error_In. exact G.
Qed.
(** With an argument that cannot be written, ADD never succeeds, and it leaves the cache as it is. *)
Theorem C87_add_unwritable : forall fl c l rt k v w tr w' r, given k v rt -> unwritable v -> runs fl (add_network_list c l rt) w tr w' r ->
  (forall a, r <> Ok a) /\ w' = w /\ changed tr = [].
Proof.
  intros fl c l rt k v w tr w' r G U H. destruct (add_network_list_inv _ _ _ _ _ _ _ _ H) as (tr1 & results & r1 & R & C1 & _ & _ & _ & CC & [(_ & _ & tr2 & r2 & -> & R2 & E)|(-> & -> & _ & N & _)]).
  - assert (M : cache_bytes (last_or None results) (nl_bytes l) (nl_name l) rt <> Panic /\ forall b, cache_bytes (last_or None results) (nl_bytes l) (nl_name l) rt <> Ok b).
    { unfold cache_bytes. rewrite (unwritable_map _ _ _ (given_last _ _ _ G) U). destruct (last_or None results) as [x|]; [|split; discriminate].
      destruct (enc_result x) as [j|]; [|split; discriminate]. destruct (unmarshal_map (print j)); split; discriminate. }
    unfold cache_add in R2. apply runs_lift_then in R2. destruct (cache_bytes (last_or None results) (nl_bytes l) (nl_name l) rt) as [b|e|]; [now destruct (proj2 M b)| |now destruct (proj1 M)].
    destruct R2 as (-> & -> & ->). destruct E as [m ->]. split; [discriminate|]. split; [reflexivity|]. now rewrite app_nil_r.
  - auto.
Qed.
Theorem C87_add_single_unwritable : forall fl c net rt k v w tr w' r, given k v rt -> unwritable v -> runs fl (add_network c net rt) w tr w' r ->
  (forall a, r <> Ok a) /\ w' = w /\ changed tr = [].
Proof.
  intros fl c net rt k v w tr w' r G U H. unfold add_network in H. apply runs_rbindp in H.
  destruct H as [(tr1 & w1 & a & tr2 & R1 & R2 & ->)|[(e & -> & R)|(-> & R)]].
  2,3: apply add_one_inv in R; destruct R as (-> & C & _); split; [discriminate|auto].
  apply add_one_inv in R1. destruct R1 as (-> & C & _). apply runs_rbindp in R2.
  assert (K : forall t w2 x, runs fl (pwrap ("failed to set network " ++ quote (pc_name (pg_conf net)) ++ " cached result") (cache_add c (Some a) (pg_bytes net) (pc_name (pg_conf net)) rt)) w t w2 x ->
    (forall u, x <> Ok u) /\ w2 = w /\ t = []).
  { intros t w2 x R. apply runs_pwrap in R. destruct R as (x0 & R & ->). unfold cache_add in R. apply runs_lift_then in R. unfold cache_bytes in R.
    rewrite (unwritable_map _ _ _ (given_last _ _ _ G) U) in R. destruct (enc_result a) as [j|]; [destruct (unmarshal_map (print j))|]; cbn [rbind] in R;
      destruct R as (-> & -> & ->); (split; [discriminate|auto]). }
  destruct R2 as [(t1 & w2 & u & t2 & E1 & E2 & ->)|[(e & -> & E1)|(-> & E1)]]; apply K in E1; destruct E1 as (N & -> & ->).
  - now destruct (N u).
  - split; [discriminate|]. split; [reflexivity|]. now rewrite app_nil_r.
  - split; [discriminate|]. split; [reflexivity|]. now rewrite app_nil_r.
Qed.
(** A plugin that asks for the argument that cannot be written is never asked, by any of the verbs. *)
Theorem C87_asked_unwritable : forall fl c l rt k v, given k v rt -> unwritable v -> well_formed_text (nl_name l) -> well_formed_text (nl_version l) -> Forall spelt (nl_plugins l) ->
  forall i net, nth_error (nl_plugins l) i = Some net -> asks_for net k ->
  (forall w tr w' r, runs fl (add_network_list c l rt) w tr w' r -> List.length (calls tr) <= i) /\
  (forall w tr w' r, runs fl (check_network_list c l rt) w tr w' r -> List.length (calls tr) <= i) /\
  (forall w tr w' r, runs fl (del_network_list c l rt) w tr w' r -> List.length (calls tr) <= List.length (nl_plugins l) - S i).
Proof.
  intros fl c l rt k v G U Wn Wv SP i net NE A. assert (SPN : spelt net) by (rewrite Forall_forall in SP; apply SP; eapply nth_error_In; exact NE).
  assert (K : forall verb p tr x, sound p -> ~ request c verb (nl_name l) (nl_version l) rt net p tr x).
  { intros verb p tr x S (_ & _ & conf & B & _). revert B. eapply build_unwritable; eassumption. }
  assert (L : i < List.length (nl_plugins l)) by (apply nth_error_Some; congruence).
  split; [|split]; intros w tr w' r H.
  - destruct (nth_error (calls tr) i) as [x|] eqn:X; [|now apply nth_error_None]. exfalso.
    destruct (add_requests _ _ _ _ _ _ _ _ H i x X) as (_ & net' & p & N' & Q & S). rewrite NE in N'. injection N' as <-. exact (K _ _ _ _ S Q).
  - destruct (nth_error (calls tr) i) as [x|] eqn:X; [|now apply nth_error_None]. exfalso.
    destruct (check_requests _ _ _ _ _ _ _ _ H i x X) as (net' & p & N' & Q & S & _). rewrite NE in N'. injection N' as <-. exact (K _ _ _ _ S Q).
  - destruct (nth_error (calls tr) (List.length (nl_plugins l) - S i)) as [x|] eqn:X; [|now apply nth_error_None]. exfalso.
    destruct (del_requests _ _ _ _ _ _ _ _ H _ x X) as (net' & p & N' & Q & S & _). rewrite (nth_rev _ _ net) in N' by exact L. rewrite NE in N'. injection N' as <-. exact (K _ _ _ _ S Q).
Qed.
(** When no plugin asks for it, ADD runs the whole network before it fails. *)
Theorem C87_add_unasked_unwritable : forall fl c l rt k v w tr w' r, given k v rt -> unwritable v -> runs fl (add_network_list c l rt) w tr w' r ->
  Forall spelt (nl_plugins l) -> (forall net, In net (nl_plugins l) -> ~ asks_for net k) ->
  names_ok (nl_name l) rt -> sendable (nl_name l) (nl_version l) (without_arg k rt) -> Forall usable (nl_plugins l) -> nothing_missing tr -> all_yield tr ->
  List.length (calls tr) = List.length (nl_plugins l) /\ exists e, r = Err e.
Proof.
  intros fl c l rt k v w tr w' r G U H SP N NO SE US M Y.
  destruct (C87_add_unwritable _ _ _ _ _ _ _ _ _ _ G U H) as (F & _ & _).
  destruct (add_network_list_inv _ _ _ _ _ _ _ _ H) as (tr1 & results & r1 & R & C1 & _ & P2 & _ & CC & D).
  assert (Q : nothing_missing tr1 /\ all_yield tr1).
  { destruct D as [(_ & _ & tr2 & r2 & -> & _)|(-> & _)]; [|auto]. apply missing_app in M. apply yield_app in Y. split; [apply M|apply Y]. }
  assert (R' : runs fl (add_loop c (nl_name l) (nl_version l) (nl_plugins l) None (without_arg k rt)) w tr1 w r1).
  { eapply add_loop_alike; [apply without_alike| |apply none_sound|exact R]. apply without_builds; try assumption; apply SE. }
  assert (P0 : proper None) by (intros r0 E; discriminate E).
  destruct (add_loop_live fl c _ _ (without_arg k rt) NO SE _ _ _ _ _ _ R' US P0 (proj1 Q) (proj2 Q)) as (a & -> & _).
  destruct (add_loop_inv _ _ _ _ _ _ _ _ _ _ _ R) as (_ & _ & results2 & _ & _ & _ & [(_ & L & _)|(_ & X & _)]); [|now destruct (X a)].
  rewrite CC. split; [exact L|]. destruct r as [a'|e|]; [now destruct (F a')|eauto|]. exfalso.
  destruct D as [(_ & _ & tr2 & r2 & _ & R2 & E)|(T & _ & LT & _ & _)].
  - unfold cache_add in R2. apply runs_lift_then in R2. unfold cache_bytes in R2. rewrite (unwritable_map _ _ _ (given_last _ _ _ G) U) in R2.
    destruct (last_or None results) as [x|]; [destruct (enc_result x) as [j|]; [destruct (unmarshal_map (print j))|]|]; cbn [rbind] in R2; destruct R2 as (_ & _ & ->); destruct E; discriminate.
  - rewrite <- L in LT. apply nth_error_Some in LT. destruct (nth_error (calls tr1) (List.length results)) as [x|] eqn:X; [|congruence].
    destruct (proj2 Q x (nth_error_In _ _ X)) as [v0 V0]. assert (Z : nth_error results (List.length results) = Some v0) by (apply P2; eauto).
    assert (List.length results < List.length results) by (apply nth_error_Some; congruence). lia.
Qed.

(** Two plugins, of which the first asks for "mac": a NaN under "speed" lets both run and then fails,
    a NaN under "mac" fails before anything is run. *)
Definition U_rt (k : string) : runtime_conf :=
  {| rt_container := "c1"; rt_netns := "/ns"; rt_ifname := "eth0"; rt_args := []; rt_caps := [(k, JArr [JNum "NaN"])]; rt_cache_dir := "" |}.
Lemma U_nan : unwritable (JArr [JNum "NaN"]).
Proof. apply (uw_arr _ (JNum "NaN")); [now left|]. apply uw_num. rewrite number_lit_spec. discriminate. Qed.
Lemma U_given k : given k (JArr [JNum "NaN"]) (U_rt k).
Proof. split; [constructor; [intros []|constructor]|]. cbn [U_rt rt_caps sget]. now rewrite String.eqb_refl. Qed.
Definition U_first : list (string * json) := [("capabilities", JObj [("mac", JBool true)]); ("type", JStr "bridge")].
Definition U_second : list (string * json) := [("type", JStr "tuning")].
Lemma U_parse : exists a b, nl_plugins X_list = [a; b] /\ parse (pg_bytes a) = Some (JObj U_first) /\ parse (pg_bytes b) = Some (JObj U_second).
Proof. eexists _, _. split; [reflexivity|]. split; vm_compute; reflexivity. Qed.
Lemma U_spelt : Forall spelt (nl_plugins X_list).
Proof.
  destruct U_parse as (a & b & -> & PA & PB). apply Forall_cons; [|apply Forall_cons; [|apply Forall_nil]]; intros o P.
  - rewrite PA in P. injection P as <-. intros k v I K. destruct I as [E|[E|[]]]; injection E as <- <-; [reflexivity|discriminate K].
  - rewrite PB in P. injection P as <-. intros k v I K. destruct I as [E|[]]; injection E as <- <-; discriminate K.
Qed.
Lemma U_asks : exists net, nth_error (nl_plugins X_list) 0 = Some net /\ asks_for net "mac".
Proof. destruct U_parse as (a & b & -> & PA & PB). exists a. split; [reflexivity|]. exists U_first. split; [exact PA|reflexivity]. Qed.
Lemma U_silent : forall net, In net (nl_plugins X_list) -> ~ asks_for net "speed".
Proof.
  destruct U_parse as (a & b & -> & PA & PB). intros net [<-|[<-|[]]] (o & P & A); [rewrite PA in P|rewrite PB in P]; injection P as <-; discriminate A.
Qed.
Definition clear_run (tr : trace) : bool :=
  forallb (fun ev : event => match ev with (OpFind _ _, RStr (Err _)) => false | _ => true end) tr &&
  forallb (fun x => match call_answer x with Ok out => match add_result (call_stdin x) out with Ok _ => true | _ => false end | _ => false end) (calls tr).
Lemma clear_run_ok tr : clear_run tr = true -> nothing_missing tr /\ all_yield tr.
Proof.
  intros H. apply andb_true_iff in H as [A B]. rewrite forallb_forall in A, B. split.
  - intros ty ps e I. discriminate (A _ I).
  - intros x I. specialize (B _ I). cbn beta in B. destruct (call_answer x) as [out|e|] eqn:CA; try discriminate. destruct (add_result (call_stdin x) out) as [v|e|] eqn:AR; try discriminate.
    exists v, out. auto.
Qed.
Notation U_speed := (interp X_oracle 0 (add_network_list X_cni X_list (U_rt "speed")) []).
Notation U_mac := (interp X_oracle 0 (add_network_list X_cni X_list (U_rt "mac")) []).
Notation U_del := (interp X_oracle 0 (del_network_list X_cni X_list (U_rt "speed")) X_world).
Example C87_nonvacuous : Forall spelt (nl_plugins X_list) /\ (forall net, In net (nl_plugins X_list) -> ~ asks_for net "speed") /\
  (exists net, nth_error (nl_plugins X_list) 0 = Some net /\ asks_for net "mac") /\
  (forall k, given k (JArr [JNum "NaN"]) (U_rt k)) /\ unwritable (JArr [JNum "NaN"]) /\
  (exists tr w' r, runs false (add_network_list X_cni X_list (U_rt "speed")) [] tr w' r /\ nothing_missing tr /\ all_yield tr /\ List.length (calls tr) = 2) /\
  (exists tr w' r, runs false (add_network_list X_cni X_list (U_rt "mac")) [] tr w' r /\ List.length (calls tr) = 0) /\
  (exists tr w', runs false (del_network_list X_cni X_list (U_rt "speed")) X_world tr w' (Ok tt) /\ List.length (calls tr) = 2) /\
  names_ok (nl_name X_list) (U_rt "speed") /\ sendable (nl_name X_list) (nl_version X_list) (without_arg "speed" (U_rt "speed")) /\ Forall usable (nl_plugins X_list).
Proof.
  split; [exact U_spelt|]. split; [exact U_silent|]. split; [exact U_asks|]. split; [exact U_given|]. split; [exact U_nan|].
  split; [|split; [|split; [|split; [|split]]]].
  - assert (K : match U_speed with (_, _, tr) => (clear_run tr, List.length (calls tr)) end = (true, 2)) by (vm_compute; reflexivity).
    destruct U_speed as [[r w'] tr] eqn:E. pose proof (interp_run _ _ _ _ _ _ _ X_tame E) as R. clear E. injection K as K1 K2.
    exists tr, w', r. apply clear_run_ok in K1. destruct K1. auto.
  - assert (K : match U_mac with (_, _, tr) => List.length (calls tr) end = 0) by (vm_compute; reflexivity).
    destruct U_mac as [[r w'] tr] eqn:E. pose proof (interp_run _ _ _ _ _ _ _ X_tame E) as R. clear E. eauto.
  - assert (K : match U_del with (r, _, tr) => (r, List.length (calls tr)) end = (Ok tt, 2)) by (vm_compute; reflexivity).
    destruct U_del as [[r w'] tr] eqn:E. pose proof (interp_run _ _ _ _ _ _ _ X_tame E) as R. clear E. injection K as -> K2. eauto.
  - repeat split; vm_compute; reflexivity.
  - split; [apply ascii_wft; reflexivity|]. split; [apply ascii_wft; reflexivity|]. constructor.
  - apply (loaded_usable X_list_doc). vm_compute. reflexivity.
Qed.

Print Assumptions C87_del_unasked.
Print Assumptions C87_check_unasked.
Print Assumptions C87_add_unasked.
Print Assumptions C87_add_unwritable.
Print Assumptions C87_add_single_unwritable.
Print Assumptions C87_asked_unwritable.
Print Assumptions C87_add_unasked_unwritable.
Print Assumptions C87_nonvacuous.
