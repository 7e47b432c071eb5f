(** A single configuration and the list made of it: C91. *)
From Coq Require Import String Ascii List Arith NArith ZArith Bool Lia.
From Verif Require Import Model.GoStr Model.Errors Model.Version Model.Validate Model.Args Model.Path Model.Json Model.GoJson
  Model.Types Model.Conf Model.Invoke Model.Prog Model.Api
  Spec.JsonSpec Spec.VersionSpec Spec.ConfSpec Spec.NameSpec Spec.RunSpec Spec.CacheSpec Spec.MapSpec Spec.TypesSpec Spec.UpSpec
  Proofs.StrP Proofs.GoJsonP Proofs.ConfP Proofs.FilesP Proofs.VersionP Proofs.ValidateP Proofs.ProgP Proofs.ApiP Proofs.VerbP Proofs.SingleP Proofs.HistP
  Properties.P_Conf Properties.P_Api Properties.P_Cache.
Import ListNotations.
Open Scope nat_scope.
Open Scope string_scope.

(** *** The list *)
Lemma up_parts b c l : upconverted b c l ->
  nl_name l = pname c /\ nl_version l = pver c /\ nl_disable_check l = false /\ nl_disable_gc l = false /\
  exists p, nl_plugins l = [p] /\ pc_type (pg_conf p) = pc_type (pg_conf c) /\ unmarshal_map (pg_bytes p) = unmarshal_map (pg_bytes c) /\
    exists m, unmarshal_map (pg_bytes c) = Some (Some m).
Proof.
  intros (PB & CL & o & P & ND & OS & D).
  destruct (plugin_from_doc _ _ PB) as (o' & P' & DC & T & EB). rewrite P in P'. injection P' as <-.
  assert (U : exists m, norm (JObj o) = Some (JObj m) /\ unmarshal_map (pg_bytes c) = Some (Some m)).
  { unfold conf_list_from_conf in CL. destruct (unmarshal_map (pg_bytes c)) as [[m|]|] eqn:U; [| |discriminate].
    - exists m. split; [|reflexivity]. apply unmarshal_map_some in U. destruct U as (j & Pj & _ & N). rewrite EB, P in Pj. injection Pj as <-. exact N.
    - exfalso. rewrite EB in U. unfold unmarshal_map in U. rewrite P in U. unfold decode_map in U. destruct (norm (JObj o)) as [j|]; [|discriminate].
      destruct j; discriminate. }
  destruct U as (m & R & U).
  pose proof (C53_upconversion_succeeds _ _ _ _ PB P R D ND OS) as (l' & p & CL' & NP & TP). rewrite CL in CL'. injection CL' as <-.
  pose proof CL as K. apply (conf_list_from_conf_ok _ _ _ _ l PB P R D) in K.
  destruct K as (A1 & A2 & A3 & A4 & _ & _ & _ & p' & A7 & A8 & _). rewrite NP in A7. injection A7 as <-.
  repeat (split; [assumption|]). exists p. split; [exact NP|]. split; [exact TP|]. split; [|now exists m].
  rewrite U, A8. destruct (unmarshal_map_canonical _ _ U). now apply unmarshal_map_print.
Qed.

(** What a plugin is sent depends on the plugin's document only through its decoded members. *)
Lemma same_build p c name ver prev rt : unmarshal_map (pg_bytes p) = unmarshal_map (pg_bytes c) ->
  build_one_config name ver p prev rt = build_one_config name ver c prev rt.
Proof. intros E. unfold build_one_config, inject_conf. now rewrite E. Qed.
Lemma same_add_one C name ver p c prev rt : pc_type (pg_conf p) = pc_type (pg_conf c) -> unmarshal_map (pg_bytes p) = unmarshal_map (pg_bytes c) ->
  add_network_one C name ver p prev rt = add_network_one C name ver c prev rt.
Proof. intros T E. unfold add_network_one. rewrite T, (same_build p c); [reflexivity|exact E]. Qed.
Lemma same_verb verb C name ver p c prev rt : pc_type (pg_conf p) = pc_type (pg_conf c) -> unmarshal_map (pg_bytes p) = unmarshal_map (pg_bytes c) ->
  verb_network verb C name ver p prev rt = verb_network verb C name ver c prev rt.
Proof. intros T E. unfold verb_network. rewrite T, (same_build p c); [reflexivity|exact E]. Qed.

(** *** Steps *)
Lemma steps_refl tr : same_steps tr tr.
Proof. induction tr; constructor; [constructor|assumption]. Qed.
Lemma agree_refl p w : agree_but p w w. Proof. intros q _. reflexivity. Qed.
Lemma steps_calls tr tr2 : same_steps tr tr2 -> calls tr2 = calls tr /\ changed tr2 = changed tr.
Proof.
  induction 1 as [|x y l l' A H (IH1 & IH2)]; [auto|]. unfold calls, changed in *. cbn [flat_map]. rewrite IH1, IH2.
  destruct A; [auto|]. split; reflexivity.
Qed.

(** Saving other configuration bytes takes the same steps. *)
Definition save_file (p d : string) : prog (res unit) :=
  bind (mkdir_all (dir_path p)) (fun oe => match oe with
    | Some e => Ret (Err e)
    | None => bind (write_file p d) (fun oe => Ret (match oe with Some e => Err e | None => Ok tt end)) end).
Lemma cache_add_save C res0 b name rt : cache_add C res0 b name rt =
  match cache_bytes res0 b name rt with
  | Ok d => match get_cache_file_path C name rt with Ok p => save_file p d | Err e => Ret (Err e) | Panic => Ret Panic end
  | Err e => Ret (Err e) | Panic => Ret Panic end.
Proof. unfold cache_add, rbindp, lift. cbn [bind]. destruct (cache_bytes res0 b name rt); [|reflexivity|reflexivity]. now destruct (get_cache_file_path C name rt). Qed.
Lemma overlay_agree p d1 d2 w1 w2 : agree_but p w1 w2 -> agree_but p (overlay p d1 w1) (overlay p d2 w2).
Proof.
  intros A q N. rewrite !sget_overlay. destruct (String.eqb q p) eqn:E; [apply String.eqb_eq in E; contradiction|]. now apply A.
Qed.
Lemma save_file_other fl p d1 d2 w tr w' r : runs fl (save_file p d1) w tr w' r ->
  exists tr2 w2, runs fl (save_file p d2) w tr2 w2 r /\ same_steps tr tr2 /\ agree_but p w' w2.
Proof.
  unfold save_file, mkdir_all, write_file. cbn [bind]. intros H.
  apply runs_do in H. destruct H as (a & w1 & t1 & -> & An & H).
  assert (K : exists t2 w2, runs fl (bind (Ret (match a with RErr e => e | _ => None end)) (fun oe => match oe with
     | Some e => Ret (Err e)
     | None => bind (Do (OpTrunc p) (fun r0 => match r0 with RErr (Some e) => Ret (Some e) | _ => Do (OpWrite p d2) (fun r1 => Ret (match r1 with RErr e => e | _ => None end)) end))
                 (fun oe0 => Ret (match oe0 with Some e => Err e | None => Ok tt end)) end)) w1 t2 w2 r /\ same_steps t1 t2 /\ agree_but p w' w2).
  2:{ destruct K as (t2 & w2 & R & S & A). exists ((OpMkdir (dir_path p), a) :: t2), w2. split; [|split; [|exact A]].
      - cbn [bind]. apply runs_do. exists a, w1, t2. split; [reflexivity|]. split; [exact An|exact R].
      - constructor; [constructor|exact S]. }
  clear An. cbn [bind] in *. destruct (match a with RErr e => e | _ => None end) as [e|].
  { apply runs_ret in H. destruct H as (-> & -> & ->). exists [], w1. split; [constructor|]. split; [constructor|apply agree_refl]. }
  cbn [bind] in *. apply runs_do in H. destruct H as (a2 & w2 & t2 & -> & An & H).
  assert (K : (exists e, a2 = RErr (Some e)) \/ a2 = RErr None) by (inversion An; subst; eauto).
  destruct K as [(e & ->)| ->].
  { cbn [bind] in H. apply runs_ret in H. destruct H as (-> & -> & ->). exists [(OpTrunc p, RErr (Some e))], w2. split; [|split; [repeat constructor|apply agree_refl]].
    apply runs_do. exists (RErr (Some e)), w2, []. split; [reflexivity|]. split; [exact An|constructor]. }
  cbn [bind] in H. apply runs_do in H. destruct H as (a3 & w3 & t3 & -> & An3 & H). apply runs_ret in H. destruct H as (-> & -> & ->).
  assert (K : exists w4, answer fl w2 (OpWrite p d2) a3 w4 /\ agree_but p w3 w4).
  { inversion An3; subst.
    - exists (overlay p d2 w2). split; [constructor|]. apply overlay_agree, agree_refl.
    - exists (overlay p "" w2). split; [apply AnsWriteFault; [reflexivity|exists d2; reflexivity]|]. apply overlay_agree, agree_refl. }
  destruct K as (w4 & An4 & A). exists [(OpTrunc p, RErr None); (OpWrite p d2, a3)], w4. split; [|split; [|exact A]].
  - apply runs_do. exists (RErr None), w2, [(OpWrite p d2, a3)]. split; [reflexivity|]. split; [exact An|]. cbn [bind]. apply runs_do.
    exists a3, w4, []. split; [reflexivity|]. split; [exact An4|constructor].
  - constructor; [constructor|]. constructor; [apply alike_write|constructor].
Qed.
Lemma save_other fl C res0 b1 b2 name rt w tr w' r : runs fl (cache_add C res0 b1 name rt) w tr w' r ->
  exists tr2 w2, runs fl (cache_add C res0 b2 name rt) w tr2 w2 r /\ same_steps tr tr2 /\ agree_but (entry_path C name rt) w' w2.
Proof.
  rewrite !cache_add_save. intros H.
  assert (K : match cache_bytes res0 b1 name rt, cache_bytes res0 b2 name rt with
              | Ok _, Ok _ => True | Err e, Err e' => e = e' | Panic, Panic => True | _, _ => False end).
  { unfold cache_bytes. destruct res0 as [x|]; [|now destruct (marshal_map (rt_caps rt))].
    destruct (enc_result x) as [j|]; [|reflexivity]. cbn [rbind].
    destruct (unmarshal_map (print j)); [|reflexivity]. cbn [rbind]. now destruct (marshal_map (rt_caps rt)). }
  assert (DONE : forall q, runs fl (Ret q) w tr w' r ->
     exists tr2 w2, runs fl (Ret q) w tr2 w2 r /\ same_steps tr tr2 /\ agree_but (entry_path C name rt) w' w2).
  { intros q R. exists tr, w'. split; [exact R|]. split; [apply steps_refl|apply agree_refl]. }
  destruct (cache_bytes res0 b1 name rt) as [d1|e1|], (cache_bytes res0 b2 name rt) as [d2|e2|]; try contradiction; [|subst; now apply DONE|now apply DONE].
  destruct (cache_path_cases C name rt) as [[N P]|[N [e P]]]; rewrite P in *; [|now apply DONE].
  exact (save_file_other _ _ _ d2 _ _ _ _ H).
Qed.

(** ** C91: ADD *)
Definition same_value (a : option result) (b : result) : Prop := a = Some b.
Lemma steps_app a b a2 b2 : same_steps a a2 -> same_steps b b2 -> same_steps (a ++ b)%list (a2 ++ b2)%list.
Proof. apply Forall2_app. Qed.
Lemma up_loop C name ver p prev rt fl w tr w' r : runs fl (add_loop C name ver [p] prev rt) w tr w' r <->
  exists r1, runs fl (add_network_one C name ver p prev rt) w tr w' r1 /\
    r = match rwrap ("plugin " ++ plugin_description (pg_conf p) ++ " failed (add)") r1 with Ok v => Ok (Some v) | Err e => Err e | Panic => Panic end.
Proof.
  cbn [add_loop]. rewrite runs_rbindp. split.
  - intros [(t1 & w1 & a & t2 & R1 & R2 & ->)|[(e & -> & R)|(-> & R)]].
    + apply runs_ret in R2. destruct R2 as (-> & -> & ->). rewrite app_nil_r. apply runs_pwrap in R1. destruct R1 as (r1 & R1 & E). exists r1. now rewrite <- E.
    + apply runs_pwrap in R. destruct R as (r1 & R1 & E). exists r1. now rewrite <- E.
    + apply runs_pwrap in R. destruct R as (r1 & R1 & E). exists r1. now rewrite <- E.
  - intros (r1 & R & ->). destruct r1 as [v|e|].
    + left. exists tr, w', v, []. split; [apply runs_pwrap; now exists (Ok v)|]. split; [constructor|now rewrite app_nil_r].
    + right. left. eexists. split; [reflexivity|]. apply runs_pwrap. now exists (Err e).
    + right. right. split; [reflexivity|]. apply runs_pwrap. now exists Panic.
Qed.

Lemma up_add b c l C rt fl w : upconverted b c l ->
  follows fl (same_outcome same_value) (entry_path C (nl_name l) rt) (add_network_list C l rt) (add_network C c rt) w.
Proof.
  intros U. destruct (up_parts _ _ _ U) as (EN & EV & _ & _ & p & NP & TP & UM & _). intros tr w' r H.
  unfold add_network_list in H. rewrite NP, EN, EV in *. unfold pname, pver in *. unfold add_network.
  apply runs_rbindp in H. destruct H as [(t1 & w1 & a & t2 & R1 & R2 & ->)|[(e & -> & R)|(-> & R)]].
  - apply up_loop in R1. destruct R1 as (r1 & R1 & E). rewrite (same_add_one _ _ _ p c) in R1 by assumption.
    destruct r1 as [v|e|]; try discriminate. injection E as ->.
    apply runs_rbindp in R2. destruct R2 as [(u1 & w2 & [] & u2 & R2 & R3 & ->)|[(e & -> & R2)|(-> & R2)]].
    + apply runs_lift in R3. destruct R3 as (-> & -> & ->). rewrite app_nil_r. apply runs_pwrap in R2. destruct R2 as (r2 & R2 & E2).
      apply (save_other _ _ _ _ (pg_bytes c)) in R2. destruct R2 as (u2 & w3 & R2 & S & A).
      exists (t1 ++ u2)%list, w3, (Ok v). split; [|split; [apply steps_app; [apply steps_refl|exact S]|split; [exact A|reflexivity]]].
      apply runs_rbindp. left. exists t1, w1, v, u2. split; [exact R1|]. split; [|reflexivity].
      apply runs_rbindp. left. exists u2, w3, tt, []. split; [apply runs_pwrap; now exists r2|]. split; [constructor|now rewrite app_nil_r].
    + apply runs_pwrap in R2. destruct R2 as (r2 & R2 & E2).
      apply (save_other _ _ _ _ (pg_bytes c)) in R2. destruct R2 as (u2 & w3 & R2 & S & A).
      exists (t1 ++ u2)%list, w3, (Err e). split; [|split; [apply steps_app; [apply steps_refl|exact S]|split; [exact A|now left]]].
      apply runs_rbindp. left. exists t1, w1, v, u2. split; [exact R1|]. split; [|reflexivity].
      apply runs_rbindp. right. left. exists e. split; [reflexivity|]. apply runs_pwrap. now exists r2.
    + apply runs_pwrap in R2. destruct R2 as (r2 & R2 & E2).
      apply (save_other _ _ _ _ (pg_bytes c)) in R2. destruct R2 as (u2 & w3 & R2 & S & A).
      exists (t1 ++ u2)%list, w3, Panic. split; [|split; [apply steps_app; [apply steps_refl|exact S]|split; [exact A|exact I]]].
      apply runs_rbindp. left. exists t1, w1, v, u2. split; [exact R1|]. split; [|reflexivity].
      apply runs_rbindp. right. right. split; [reflexivity|]. apply runs_pwrap. now exists r2.
  - apply up_loop in R. destruct R as (r1 & R1 & E). rewrite (same_add_one _ _ _ p c) in R1 by assumption.
    destruct r1 as [v|e1|]; try discriminate. injection E as ->.
    exists tr, w', (Err e1). split; [|split; [apply steps_refl|split; [apply agree_refl|right; now eexists]]].
    apply runs_rbindp. right. left. now exists e1.
  - apply up_loop in R. destruct R as (r1 & R1 & E). rewrite (same_add_one _ _ _ p c) in R1 by assumption.
    destruct r1 as [v|e1|]; try discriminate.
    exists tr, w', Panic. split; [|split; [apply steps_refl|split; [apply agree_refl|exact I]]].
    apply runs_rbindp. right. right. now split.
Qed.

Lemma up_add_back b c l C rt fl w : upconverted b c l ->
  follows fl (fun r2 r => same_outcome same_value r r2) (entry_path C (nl_name l) rt) (add_network C c rt) (add_network_list C l rt) w.
Proof.
  intros U. destruct (up_parts _ _ _ U) as (EN & EV & _ & _ & p & NP & TP & UM & _). intros tr w' r H.
  unfold add_network_list. rewrite NP, EN, EV in *. unfold pname, pver in *. unfold add_network in H.
  assert (ONE : forall r1 t1 w1, runs fl (add_network_one C (pc_name (pg_conf c)) (pc_version (pg_conf c)) c None rt) w t1 w1 r1 ->
     runs fl (add_loop C (pc_name (pg_conf c)) (pc_version (pg_conf c)) [p] None rt) w t1 w1
       (match rwrap ("plugin " ++ plugin_description (pg_conf p) ++ " failed (add)") r1 with Ok v => Ok (Some v) | Err e => Err e | Panic => Panic end)).
  { intros r1 t1 w1 R. apply up_loop. exists r1. split; [|reflexivity]. now rewrite (same_add_one _ _ _ p c). }
  apply runs_rbindp in H. destruct H as [(t1 & w1 & v & t2 & R1 & R2 & ->)|[(e & -> & R)|(-> & R)]].
  - apply ONE in R1. cbn [rwrap] in R1.
    apply runs_rbindp in R2. destruct R2 as [(u1 & w2 & [] & u2 & R2 & R3 & ->)|[(e & -> & R2)|(-> & R2)]].
    + apply runs_lift in R3. destruct R3 as (-> & -> & ->). rewrite app_nil_r. apply runs_pwrap in R2. destruct R2 as (r2 & R2 & E2).
      apply (save_other _ _ _ _ (nl_bytes l)) in R2. destruct R2 as (u2 & w3 & R2 & S & A).
      exists (t1 ++ u2)%list, w3, (Ok (Some v)). split; [|split; [apply steps_app; [apply steps_refl|exact S]|split; [exact A|reflexivity]]].
      apply runs_rbindp. left. exists t1, w1, (Some v), u2. split; [exact R1|]. split; [|reflexivity].
      apply runs_rbindp. left. exists u2, w3, tt, []. split; [apply runs_pwrap; now exists r2|]. split; [constructor|now rewrite app_nil_r].
    + apply runs_pwrap in R2. destruct R2 as (r2 & R2 & E2).
      apply (save_other _ _ _ _ (nl_bytes l)) in R2. destruct R2 as (u2 & w3 & R2 & S & A).
      exists (t1 ++ u2)%list, w3, (Err e). split; [|split; [apply steps_app; [apply steps_refl|exact S]|split; [exact A|now left]]].
      apply runs_rbindp. left. exists t1, w1, (Some v), u2. split; [exact R1|]. split; [|reflexivity].
      apply runs_rbindp. right. left. exists e. split; [reflexivity|]. apply runs_pwrap. now exists r2.
    + apply runs_pwrap in R2. destruct R2 as (r2 & R2 & E2).
      apply (save_other _ _ _ _ (nl_bytes l)) in R2. destruct R2 as (u2 & w3 & R2 & S & A).
      exists (t1 ++ u2)%list, w3, Panic. split; [|split; [apply steps_app; [apply steps_refl|exact S]|split; [exact A|exact I]]].
      apply runs_rbindp. left. exists t1, w1, (Some v), u2. split; [exact R1|]. split; [|reflexivity].
      apply runs_rbindp. right. right. split; [reflexivity|]. apply runs_pwrap. now exists r2.
  - apply ONE in R. cbn [rwrap] in R. eexists tr, w', (Err _). split; [|split; [apply steps_refl|split; [apply agree_refl|right; now eexists]]].
    apply runs_rbindp. right. left. eexists. split; [reflexivity|exact R].
  - apply ONE in R. cbn [rwrap] in R. exists tr, w', Panic. split; [|split; [apply steps_refl|split; [apply agree_refl|exact I]]].
    apply runs_rbindp. right. right. split; [reflexivity|exact R].
Qed.

(** AddNetworkList on the list and AddNetwork on the configuration: the same operations with the
    same answers in the same order, byte for byte what the plugin is sent included, but for what is
    written to the attachment's entry; the same outcome. *)
Theorem C91_add : forall b c l C rt fl w, upconverted b c l ->
  alike_but fl same_value (entry_path C (nl_name l) rt) (add_network_list C l rt) (add_network C c rt) w.
Proof. intros b c l C rt fl w U. split; [exact (up_add _ _ _ _ _ _ _ U)|exact (up_add_back _ _ _ _ _ _ _ U)]. Qed.
Theorem C91_same_calls : forall tr tr2, same_steps tr tr2 -> calls tr2 = calls tr /\ changed tr2 = changed tr.
Proof. exact steps_calls. Qed.
(** What the two leave in the entry answers the same to CHECK, DEL and queries for the result. *)
Theorem C91_same_cache : forall b c l C rt fl fl' w w0 tr w' tr2 w2 v ver, upconverted b c l ->
  runs fl (add_network_list C l rt) w tr w' (Ok (Some v)) -> runs fl' (add_network C c rt) w0 tr2 w2 (Ok v) ->
  carried (nl_name l) rt -> wf_result exact prefix_form v ->
  reads_result ver (sget (entry_path C (nl_name l) rt) w') = presented ver v /\
  reads_result ver (sget (entry_path C (nl_name l) rt) w2) = presented ver v.
Proof.
  intros b c l C rt fl fl' w w0 tr w' tr2 w2 v ver U A B CA W. destruct (up_parts _ _ _ U) as (EN & _).
  apply saves_list in A. destruct (add_saves _ _ _ _ _ _ _ _ A eq_refl) as (_ & NM & FP & (data & ST & G) & _).
  apply saves_one in B. destruct (add_saves _ _ _ _ _ _ _ _ B eq_refl) as (_ & NM' & FP' & (data' & ST' & G') & _).
  cbn [sv_name sv_rt] in *. unfold place in *. cbn [sv_name sv_rt] in *. rewrite EN in *. unfold pname in *. rewrite G, G'.
  split; [exact (stored_reads _ _ v _ ST CA FP eq_refl W)|exact (stored_reads _ _ v _ ST' CA FP' eq_refl W)].
Qed.

(** ** CHECK *)
Theorem C91_check : forall b c l C rt fl w tr w' r, upconverted b c l ->
  (runs fl (check_network_list C l rt) w tr w' r <-> runs fl (check_network C c rt) w tr w' r).
Proof.
  intros b c l C rt fl w tr w' r U. destruct (up_parts _ _ _ U) as (EN & EV & DC & _ & p & NP & TP & UM & _).
  unfold check_network_list, check_network. rewrite NP, EN, EV, DC. unfold pname, pver. cbn [check_loop].
  rewrite !runs_lift_then. destruct (gte (pc_version (pg_conf c)) "0.4.0") as [[]|e|]; cbn [negb]; try reflexivity.
  rewrite !runs_rbindp.
  assert (E : forall x w1 t2, runs fl (rbindp (verb_network "CHECK" C (pc_name (pg_conf c)) (pc_version (pg_conf c)) p x rt) (fun _ => Ret (Ok tt))) w1 t2 w' r <->
    runs fl (verb_network "CHECK" C (pc_name (pg_conf c)) (pc_version (pg_conf c)) c x rt) w1 t2 w' r).
  { intros x w1 t2. rewrite (same_verb _ _ _ _ p c) by assumption. rewrite runs_rbindp. split.
    - intros [(u1 & w2 & [] & u2 & R1 & R2 & ->)|[(e & -> & R)|(-> & R)]]; [|exact R|exact R].
      apply runs_ret in R2. destruct R2 as (-> & -> & ->). rewrite app_nil_r. exact R1.
    - intros R. destruct r as [[]|e|]; [left|right; left; now exists e|now right; right].
      exists t2, w', tt, []. split; [exact R|]. split; [constructor|now rewrite app_nil_r]. }
  split; (intros [(t1 & w1 & a & t2 & R1 & R2 & ->)|[K|K]]; [left; exists t1, w1, a, t2; split; [exact R1|]; split; [now apply E|reflexivity]|now right; left|now right; right]).
Qed.

(** ** DEL: the same unless there is an entry that cannot be read. *)
Lemma up_del_loop C name ver p prev rt fl w tr w' r : runs fl (del_loop C name ver [p] prev rt) w tr w' r <->
  exists r1, runs fl (verb_network "DEL" C name ver p prev rt) w tr w' r1 /\
    r = rwrap ("plugin " ++ plugin_description (pg_conf p) ++ " failed (delete)") r1.
Proof.
  cbn [del_loop]. rewrite runs_rbindp. split.
  - intros [(t1 & w1 & [] & t2 & R1 & R2 & ->)|[(e & -> & R)|(-> & R)]].
    + apply runs_ret in R2. destruct R2 as (-> & -> & ->). rewrite app_nil_r. now apply runs_pwrap in R1.
    + now apply runs_pwrap in R.
    + now apply runs_pwrap in R.
  - intros (r1 & R & ->). destruct r1 as [[]|e|].
    + left. exists tr, w', tt, []. split; [apply runs_pwrap; now exists (Ok tt)|]. split; [constructor|now rewrite app_nil_r].
    + right. left. eexists. split; [reflexivity|]. apply runs_pwrap. now exists (Err e).
    + right. right. split; [reflexivity|]. apply runs_pwrap. now exists Panic.
Qed.
Definition readable (C : cni) (name ver : string) (rt : runtime_conf) (w : world) : Prop :=
  named name rt /\ exists prev, reads_result ver (sget (entry_path C name rt) w) = Ok prev.

Lemma cached_stage C name ver m rt fl w t w1 x : readable C name ver rt w ->
  (runs fl (bind (get_cached_result C name ver rt) (fun r => match r with
      | Ok x => Ret (Ok x) | Err _ => bind (cache_del C name rt) (fun _ => Ret (Ok None)) | Panic => Ret Panic end)) w t w1 x <->
   runs fl (pwrap m (get_cached_result C name ver rt)) w t w1 x).
Proof.
  intros (N & prev & P).
  assert (OK : forall t w1 r, runs fl (get_cached_result C name ver rt) w t w1 r -> exists v, r = Ok v).
  { intros t0 w0 r R. apply get_cached_inv in R. destruct R as (_ & _ & _ & [->|(_ & _ & ->)]); [|now exists None].
    rewrite (cached_in_named _ _ _ _ _ N), P. now exists prev. }
  rewrite runs_pwrap, runs_bind. split.
  - intros (t1 & w2 & r & t2 & R1 & R2 & ->). destruct (OK _ _ _ R1) as (v & ->). apply runs_ret in R2. destruct R2 as (-> & -> & ->).
    rewrite app_nil_r. exists (Ok v). split; [exact R1|reflexivity].
  - intros (r & R & ->). destruct (OK _ _ _ R) as (v & ->). exists t, w1, (Ok v), []. split; [exact R|]. split; [constructor|now rewrite app_nil_r].
Qed.
Theorem C91_del : forall b c l C rt fl w, upconverted b c l ->
  (at_least (nl_version l) (0, 4, 0)%Z -> readable C (nl_name l) (nl_version l) rt w) ->
  (forall tr w' r, runs fl (del_network_list C l rt) w tr w' r ->
     exists r2, runs fl (del_network C c rt) w tr w' r2 /\ same_outcome eq r r2) /\
  (forall tr w' r2, runs fl (del_network C c rt) w tr w' r2 ->
     exists r, runs fl (del_network_list C l rt) w tr w' r /\ same_outcome eq r r2).
Proof.
  intros b c l C rt fl w U RD. destruct (up_parts _ _ _ U) as (EN & EV & _ & _ & p & NP & TP & UM & _).
  unfold del_network_list, del_network. rewrite NP, EN, EV in *. unfold pname, pver in *. cbn [rev app].
  set (name := pc_name (pg_conf c)) in *. set (ver := pc_version (pg_conf c)) in *.
  set (m := "failed to get network " ++ quote name ++ " cached result").
  assert (LOOP : forall x w1 t2 w' r, runs fl (del_loop C name ver [p] x rt) w1 t2 w' r <->
     exists r1, runs fl (verb_network "DEL" C name ver c x rt) w1 t2 w' r1 /\ r = rwrap ("plugin " ++ plugin_description (pg_conf p) ++ " failed (delete)") r1).
  { intros x w1 t2 w' r. rewrite up_del_loop, (same_verb _ _ _ _ p c) by assumption. reflexivity. }
  assert (STAGE : forall g t w1 x, gte ver "0.4.0" = Ok g ->
     (runs fl (if g : bool then bind (get_cached_result C name ver rt) (fun r => match r with
        | Ok x => Ret (Ok x) | Err _ => bind (cache_del C name rt) (fun _ => Ret (Ok None)) | Panic => Ret Panic end) else Ret (Ok None)) w t w1 x <->
      runs fl (if g then pwrap m (get_cached_result C name ver rt) else Ret (Ok None)) w t w1 x)).
  { intros [] t w1 x G; [|reflexivity]. apply cached_stage. apply RD. destruct (gte_iff ver "0.4.0" _ means_040) as (GT & _). now apply GT. }
  split; intros tr w' r H.
  - apply runs_lift_then in H. destruct (gte ver "0.4.0") as [g|e|] eqn:G.
    2:{ destruct H as (-> & -> & ->). exists (Err e). split; [|now left]. apply runs_lift_then. rewrite ?G. auto. }
    2:{ destruct H as (-> & -> & ->). exists Panic. split; [|exact I]. apply runs_lift_then. rewrite ?G. auto. }
    assert (LB : forall r2 t w2, runs fl (rbindp (if g then pwrap m (get_cached_result C name ver rt) else Ret (Ok None))
       (fun cached => rbindp (verb_network "DEL" C name ver c cached rt) (fun _ => bind (cache_del C name rt) (fun _ => Ret (Ok tt))))) w t w2 r2 ->
       runs fl (rbindp (lift (Ok g)) (fun gtet : bool => rbindp (if gtet then pwrap m (get_cached_result C name ver rt) else Ret (Ok None))
       (fun cached => rbindp (verb_network "DEL" C name ver c cached rt) (fun _ => bind (cache_del C name rt) (fun _ => Ret (Ok tt)))))) w t w2 r2).
    { intros r2 t w2 R. apply runs_lift_then. exact R. }
    apply runs_rbindp in H. destruct H as [(t1 & w1 & x & t2 & R1 & R2 & ->)|[(e & -> & R)|(-> & R)]].
    + apply (STAGE g _ _ _ eq_refl) in R1.
      apply runs_rbindp in R2. destruct R2 as [(u1 & w2 & [] & u2 & R2 & R3 & ->)|[(e & -> & R)|(-> & R)]].
      * apply LOOP in R2. destruct R2 as (r1 & R2 & E). destruct r1 as [[]|e1|]; try discriminate.
        assert (r = Ok tt) as ->. { apply runs_bind in R3. destruct R3 as (? & ? & ? & ? & _ & R3 & _). apply runs_ret in R3. apply R3. }
        exists (Ok tt). split; [|reflexivity]. apply LB. apply runs_rbindp. left. exists t1, w1, x, (u1 ++ u2)%list. split; [exact R1|]. split; [|reflexivity].
        apply runs_rbindp. left. exists u1, w2, tt, u2. auto.
      * apply LOOP in R. destruct R as (r1 & R & E). destruct r1 as [[]|e1|]; try discriminate. injection E as ->.
        exists (Err e1). split; [|right; now eexists]. apply LB. apply runs_rbindp. left. exists t1, w1, x, t2. split; [exact R1|]. split; [|reflexivity].
        apply runs_rbindp. right. left. now exists e1.
      * apply LOOP in R. destruct R as (r1 & R & E). destruct r1 as [[]|e1|]; try discriminate.
        exists Panic. split; [|exact I]. apply LB. apply runs_rbindp. left. exists t1, w1, x, t2. split; [exact R1|]. split; [|reflexivity].
        apply runs_rbindp. right. right. now split.
    + apply (STAGE g _ _ _ eq_refl) in R. exists (Err e). split; [|now left]. apply LB. apply runs_rbindp. right. left. now exists e.
    + apply (STAGE g _ _ _ eq_refl) in R. exists Panic. split; [|exact I]. apply LB. apply runs_rbindp. right. right. now split.
  - apply runs_lift_then in H. destruct (gte ver "0.4.0") as [g|e|] eqn:G.
    2:{ destruct H as (-> & -> & ->). exists (Err e). split; [|now left]. apply runs_lift_then. rewrite ?G. auto. }
    2:{ destruct H as (-> & -> & ->). exists Panic. split; [|exact I]. apply runs_lift_then. rewrite ?G. auto. }
    apply runs_rbindp in H. destruct H as [(t1 & w1 & x & t2 & R1 & R2 & ->)|[(e & -> & R)|(-> & R)]].
    + apply (STAGE g _ _ _ eq_refl) in R1.
      apply runs_rbindp in R2. destruct R2 as [(u1 & w2 & [] & u2 & R2 & R3 & ->)|[(e & -> & R)|(-> & R)]].
      * assert (r = Ok tt) as ->. { apply runs_bind in R3. destruct R3 as (? & ? & ? & ? & _ & R3 & _). apply runs_ret in R3. apply R3. }
        exists (Ok tt). split; [|reflexivity]. apply runs_lift_then. rewrite ?G. apply runs_rbindp. left. exists t1, w1, x, (u1 ++ u2)%list. split; [exact R1|]. split; [|reflexivity].
        apply runs_rbindp. left. exists u1, w2, tt, u2. split; [apply LOOP; now exists (Ok tt)|]. auto.
      * eexists (Err _). split; [|right; eexists; reflexivity]. apply runs_lift_then. rewrite ?G. apply runs_rbindp. left. exists t1, w1, x, t2. split; [exact R1|]. split; [|reflexivity].
        apply runs_rbindp. right. left. eexists. split; [reflexivity|]. apply LOOP. exists (Err e). split; [exact R|reflexivity].
      * exists Panic. split; [|exact I]. apply runs_lift_then. rewrite ?G. apply runs_rbindp. left. exists t1, w1, x, t2. split; [exact R1|]. split; [|reflexivity].
        apply runs_rbindp. right. right. split; [reflexivity|]. apply LOOP. now exists Panic.
    + apply (STAGE g _ _ _ eq_refl) in R. exists (Err e). split; [|now left]. apply runs_lift_then. rewrite ?G. apply runs_rbindp. right. left. now exists e.
    + apply (STAGE g _ _ _ eq_refl) in R. exists Panic. split; [|exact I]. apply runs_lift_then. rewrite ?G. apply runs_rbindp. right. right. now split.
Qed.

(** ** Validation asks the same and accepts the same. *)
Theorem C91_validate : forall b c l C fl w, upconverted b c l ->
  (forall tr w' r, runs fl (validate_network_list C l) w tr w' r ->
     exists r2, runs fl (validate_network C c) w tr w' r2 /\ (is_ok r = is_ok r2)) /\
  (forall tr w' r2, runs fl (validate_network C c) w tr w' r2 ->
     exists r, runs fl (validate_network_list C l) w tr w' r /\ (is_ok r = is_ok r2)).
Proof.
  intros b c l C fl w U. destruct (up_parts _ _ _ U) as (EN & EV & _ & _ & p & NP & TP & UM & _).
  unfold validate_network_list, validate_network. rewrite NP, EV. unfold pver. cbn [validate_loop]. rewrite TP.
  split; intros tr w' r H.
  - apply runs_rbindp in H. destruct H as [(t1 & w1 & x & t2 & R1 & R2 & ->)|[(e & -> & R)|(-> & R)]].
    + apply runs_bind in R1. destruct R1 as (u1 & w2 & v & u2 & R1 & R3 & ->).
      destruct v as [[]|e|]; apply runs_ret in R3; destruct R3 as (-> & -> & E); try discriminate; injection E as ->;
      cbn [app] in R2; apply runs_ret in R2; destruct R2 as (-> & -> & ->); rewrite !app_nil_r.
      * exists (Ok (enabled_caps (pc_caps (pg_conf c)))). split; [|reflexivity]. apply runs_rbindp. left. exists u1, w2, tt, []. split; [exact R1|]. split; [constructor|now rewrite app_nil_r].
      * exists (Err e). split; [|reflexivity]. apply runs_rbindp. right. left. now exists e.
    + exfalso. apply runs_bind in R. destruct R as (u1 & w2 & v & u2 & R1 & R3 & ->).
      destruct v as [[]|e1|]; apply runs_ret in R3; destruct R3 as (_ & _ & E); discriminate.
    + apply runs_bind in R. destruct R as (u1 & w2 & v & u2 & R1 & R3 & ->).
      destruct v as [[]|e1|]; apply runs_ret in R3; destruct R3 as (-> & -> & E); try discriminate. rewrite app_nil_r.
      exists Panic. split; [|reflexivity]. apply runs_rbindp. right. right. now split.
  - apply runs_rbindp in H. destruct H as [(t1 & w1 & [] & t2 & R1 & R2 & ->)|[(e & -> & R)|(-> & R)]].
    + apply runs_ret in R2. destruct R2 as (-> & -> & ->). rewrite app_nil_r. exists (Ok (skeys (sset_all (map (fun k : string => (k, tt)) (enabled_caps (pc_caps (pg_conf p)))) []))). split; [|reflexivity].
      apply runs_rbindp. left. exists t1, w1, (sset_all (map (fun k : string => (k, tt)) (enabled_caps (pc_caps (pg_conf p)))) [], []), []. split; [|split; [apply runs_ret; split; [reflexivity|split; reflexivity]|now rewrite app_nil_r]].
      apply runs_bind. exists t1, w1, (Ok tt), []. split; [exact R1|]. split; [constructor|now rewrite app_nil_r].
    + exists (Err (EMsg ("[" ++ join " " (map err_string [e]) ++ "]"))). split; [|reflexivity].
      apply runs_rbindp. left. exists tr, w', (sset_all (map (fun k : string => (k, tt)) (enabled_caps (pc_caps (pg_conf p)))) [], [e]), []. split; [|split; [apply runs_ret; split; [reflexivity|split; reflexivity]|now rewrite app_nil_r]].
      apply runs_bind. exists tr, w', (Err e), []. split; [exact R|]. split; [constructor|now rewrite app_nil_r].
    + exists Panic. split; [|reflexivity]. apply runs_rbindp. right. right. split; [reflexivity|].
      apply runs_bind. exists tr, w', Panic, []. split; [exact R|]. split; [constructor|now rewrite app_nil_r].
Qed.

(** *** A case *)
Definition U_doc : string := "{""type"":""bridge"",""cniVersion"":""1.0.0"",""name"":""net"",""b"":1.0,""a"":[1,2]}".
Definition U_conf : plugin_config := match plugin_conf_from_bytes U_doc with Ok c => c | _ => {| pg_conf := plugin_conf_zero; pg_bytes := "" |} end.
Definition U_list : network_list := match conf_list_from_conf U_conf with Ok l => l | _ => X_list end.
Lemma U_up : upconverted U_doc U_conf U_list.
Proof.
  split; [vm_compute; reflexivity|]. split; [vm_compute; reflexivity|].
  eexists. split; [vm_compute; reflexivity|]. split; [repeat constructor; cbn; intuition discriminate|]. split; [|vm_compute; discriminate].
  intros k v I K. cbn [In] in I. repeat (destruct I as [E|I]; [injection E as <- <-; try discriminate; reflexivity|]). destruct I.
Qed.
Definition U_add := interp X_oracle 0 (add_network_list X_cni U_list X_rt) [].
Definition U_one := interp X_oracle 0 (add_network X_cni U_conf X_rt) [].
(** The plugin is sent the same; what is kept differs (the configuration is not the same text). *)
Example C91_nonvacuous : exists tr w' tr2 w2 v,
  runs false (add_network_list X_cni U_list X_rt) [] tr w' (Ok (Some v)) /\ runs false (add_network X_cni U_conf X_rt) [] tr2 w2 (Ok v) /\
  calls tr = calls tr2 /\ w' <> w2 /\
  map call_stdin (calls tr) = ["{""a"":[1,2],""b"":1,""cniVersion"":""1.0.0"",""name"":""net"",""type"":""bridge""}"].
Proof.
  destruct U_add as [[r w'] tr] eqn:E. pose proof (interp_run _ _ _ _ _ _ _ X_tame E) as R.
  destruct U_one as [[r2 w2] tr2] eqn:E2. pose proof (interp_run _ _ _ _ _ _ _ X_tame E2) as R2.
  assert (K1 : fst (fst U_add) = r) by (rewrite E; reflexivity). assert (K2 : fst (fst U_one) = r2) by (rewrite E2; reflexivity).
  assert (K3 : snd U_add = tr) by (rewrite E; reflexivity). assert (K4 : snd U_one = tr2) by (rewrite E2; reflexivity).
  assert (K5 : snd (fst U_add) = w') by (rewrite E; reflexivity). assert (K6 : snd (fst U_one) = w2) by (rewrite E2; reflexivity).
  clear E E2. assert (exists v, r = Ok (Some v) /\ r2 = Ok v) as (v & -> & ->).
  { rewrite <- K1, <- K2. eexists. split; vm_compute; reflexivity. }
  exists tr, w', tr2, w2, v. split; [exact R|]. split; [exact R2|]. rewrite <- K3, <- K4, <- K5, <- K6.
  split; [vm_compute; reflexivity|]. split; [|vm_compute; reflexivity].
  intros X. apply (f_equal (fun w => match sget "/c/results/net-c1-eth0" w with Some d => String.length d | None => 0 end)) in X. vm_compute in X. discriminate.
Qed.
Example C91_del_nonvacuous : readable X_cni (nl_name U_list) (nl_version U_list) X_rt (snd (fst U_add)).
Proof. split; [repeat split; vm_compute; discriminate|]. eexists. vm_compute. reflexivity. Qed.
(** With an entry that cannot be read the two differ: the list runs the plugin, DelNetwork fails. *)
Theorem C91_del_unreadable_refuted : exists b c l C rt w tr w' tr2 e, upconverted b c l /\
  runs false (del_network_list C l rt) w tr w' (Ok tt) /\ List.length (calls tr) = 1 /\
  runs false (del_network C c rt) w tr2 w (Err e) /\ calls tr2 = [].
Proof.
  set (w0 := [("/c/results/net-c1-eth0", "{""kind"":")]).
  destruct (interp X_oracle 0 (del_network_list X_cni U_list X_rt) w0) as [[r w'] tr] eqn:E. pose proof (interp_run _ _ _ _ _ _ _ X_tame E) as R.
  destruct (interp X_oracle 0 (del_network X_cni U_conf X_rt) w0) as [[r2 w2] tr2] eqn:E2. pose proof (interp_run _ _ _ _ _ _ _ X_tame E2) as R2.
  vm_compute in E. injection E as <- <- <-. vm_compute in E2. injection E2 as <- <- <-.
  exists U_doc, U_conf, U_list, X_cni, X_rt, w0. eexists _, _, _, _. split; [exact U_up|]. split; [exact R|]. split; [reflexivity|]. split; [exact R2|reflexivity].
Qed.
