(** Two requests to one plugin with the same parameters. *)
From Coq Require Import String Ascii List Arith ZArith NArith Bool Lia.
From Verif Require Import Model.GoStr Model.Utf8 Model.Errors Model.Version Model.Json Model.Num Model.GoJson
  Model.NetIP Model.Types Model.Conf Model.Prog Model.Api
  Spec.NameSpec Spec.JsonSpec Spec.ConfSpec Spec.TypesSpec Spec.RunSpec Spec.MapSpec Spec.AgainSpec
  Proofs.StrP Proofs.Utf8P Proofs.JsonP Proofs.JsonRT Proofs.NumP Proofs.GoJsonP Proofs.EnvP Proofs.ConfP Proofs.BuildP Proofs.ShapeP Proofs.CacheP.
Import ListNotations.
Open Scope nat_scope.
Open Scope string_scope.

(** The capabilities a document declares depend on its capabilities members only. *)
Fixpoint caps_of (cur : smap bool) (l : list (string * json)) : option (smap bool) :=
  match l with
  | [] => Some cur
  | (k, v) :: l => if key_is "capabilities" k then match dec_map_bool cur v with Some m => caps_of m l | None => None end else caps_of cur l
  end.
Lemma caps_decode l : forall c c', decode_members plugin_conf_step c l = Some c' -> caps_of (pc_caps c) l = Some (pc_caps c').
Proof.
  induction l as [|[k v] l IH]; intros c c' H; [injection H as <-; reflexivity|].
  rewrite decode_members_cons in H. destruct (plugin_conf_step c k v) as [b|] eqn:E; [|discriminate]. cbn [caps_of].
  destruct (key_is "capabilities" k) eqn:K.
  - unfold plugin_conf_step in E.
    rewrite (key_is_excl "capabilities" "cniVersion" k), (key_is_excl "capabilities" "name" k), (key_is_excl "capabilities" "type" k), K in E
      by (discriminate || assumption).
    destruct (dec_map_bool (pc_caps c) v) as [m|]; [|discriminate]. injection E as <-. exact (IH _ _ H).
  - rewrite <- (step_caps_keep _ _ _ _ E K). now apply IH.
Qed.
Lemma caps_of_sset k v m : key_is "capabilities" k = false -> forall cur, caps_of cur (sset k v m) = caps_of cur m.
Proof.
  intros K. induction m as [|[k' v'] m IH]; intros cur; cbn [sset caps_of]; [now rewrite K|].
  destruct (String.compare k k') eqn:C; cbn [caps_of].
  - apply compare_eq in C. subst k'. now rewrite K.
  - now rewrite K.
  - destruct (key_is "capabilities" k'); [|apply IH]. destruct (dec_map_bool cur v'); [apply IH|reflexivity].
Qed.
Lemma caps_of_sset_all kvs : (forall k v, In (k, v) kvs -> key_is "capabilities" k = false) -> forall m cur, caps_of cur (sset_all kvs m) = caps_of cur m.
Proof.
  induction kvs as [|[k v] kvs IH]; intros H m cur; [reflexivity|].
  change (caps_of cur (sset_all kvs (sset k v m)) = caps_of cur m). rewrite IH by (intros k' v' I; eapply H; right; exact I). apply caps_of_sset. eapply H. now left.
Qed.

Lemma reencoded_opt_fun x y z : reencoded_opt x y -> reencoded_opt x z -> y = z.
Proof. destruct x, y, z; cbn; try tauto; unfold reencoded; congruence. Qed.
Lemma norm_twice x y : reencoded x y -> reencoded y y.
Proof. unfold reencoded. intros N. apply norm_canonical in N. now apply canonical_norm. Qed.

(** The first injection. *)
Definition first_vals (name ver : string) (prev : option result) : list (string * json) :=
  ([("name", JStr name); ("cniVersion", JStr ver)] ++
   match prev with Some r => match enc_result r with Some j => [("prevResult", j)] | None => [] end | None => [] end)%list.
Lemma first_wf name ver prev : well_formed_text name -> well_formed_text ver -> prev_ok prev -> Forall wf3 (first_vals name ver prev).
Proof.
  intros Wn Wv PO. apply Forall_app. split.
  - assert (G : forall k x, well_formed_text k -> well_formed_text x -> wf3 (k, JStr x)).
    { intros k x A B. split; [exact A|]. split; [exact B|]. cbn. discriminate. }
    apply Forall_cons; [apply G; [apply valid_utf8_wf; vm_compute; reflexivity|exact Wn]|].
    apply Forall_cons; [apply G; [apply valid_utf8_wf; vm_compute; reflexivity|exact Wv]|]. apply Forall_nil.
  - destruct prev as [r|]; [|constructor]. destruct PO as (j & E & [Wj Dj]). rewrite E. apply Forall_cons; [|apply Forall_nil].
    split; [apply valid_utf8_wf; vm_compute; reflexivity|]. split; [exact Wj|]. cbn [snd]. lia.
Qed.
Lemma first_get name ver prev k : k <> "prevResult" -> last_get k (first_vals name ver prev) = last_get k [("name", JStr name); ("cniVersion", JStr ver)].
Proof.
  intros N. apply String.eqb_neq in N. unfold first_vals. rewrite last_get_app.
  replace (last_get k match prev with Some r => match enc_result r with Some j => [("prevResult", j)] | None => [] end | None => [] end) with (@None json); [reflexivity|].
  destruct prev as [r|]; [|reflexivity]. destruct (enc_result r) as [j|]; [|reflexivity]. cbn [last_get]. now rewrite N.
Qed.
Lemma first_caps name ver prev k v : In (k, v) (first_vals name ver prev) -> key_is "capabilities" k = false.
Proof.
  unfold first_vals. rewrite in_app_iff. intros [[E|[E|[]]]|E]; [injection E as <- _; reflexivity|injection E as <- _; reflexivity|].
  destruct prev as [r|]; [|destruct E]. destruct (enc_result r) as [j|]; [|destruct E]. destruct E as [E|[]]. injection E as <- _. reflexivity.
Qed.
Lemma first_stage name ver orig prev rt new : build_one_config name ver orig prev rt = Ok new ->
  well_formed_text name -> well_formed_text ver -> prev_ok prev ->
  exists m mid, unmarshal_map (pg_bytes orig) = Some (Some m) /\ ssorted m /\ canonical (JObj m) /\
    parse (pg_bytes mid) = Some (JObj (sset_all (first_vals name ver prev) m)) /\
    caps_of [] m = Some (pc_caps (pg_conf mid)) /\ inject_runtime_config mid rt = Ok new.
Proof.
  intros B Wn Wv PO. destruct (build_split _ _ _ _ _ _ B PO) as (kvs & mid & EK & I1 & I2). fold (first_vals name ver prev) in EK. subst kvs.
  apply inject_ok in I1. destruct I1 as (m & kvs' & c & U & E & _ & D & T & ->).
  assert (kvs' = first_vals name ver prev).
  { clear - E. unfold gvals in E. revert kvs' E. generalize (first_vals name ver prev). intros kvs. induction kvs as [|[k j] l IH]; intros [|[k' j'] l'] E; try discriminate; [reflexivity|].
    cbn in E. injection E as -> -> E. f_equal. now apply IH. }
  subst kvs'. pose proof (unmarshal_map_canonical _ _ U) as [C Enc].
  pose proof (inject_encodable _ m (first_wf name ver prev Wn Wv PO) Enc) as EN. unfold unmarshal_plugin_conf in D. rewrite (parse_print _ EN) in D.
  exists m, {| pg_conf := c; pg_bytes := print (JObj (sset_all (first_vals name ver prev) m)) |}. split; [exact U|]. split; [apply canonical_obj in C; apply C|]. split; [exact C|]. split; [cbn [pg_bytes]; apply parse_print; exact EN|]. split; [|exact I2].
  cbn [pg_conf]. unfold dec_plugin_conf, decode_struct in D. apply caps_decode in D.
  rewrite caps_of_sset_all in D; [exact D|apply first_caps].
Qed.

(** The second injection: nothing, or the selected capability arguments. *)
Lemma second_stage mid rt new d1 : inject_runtime_config mid rt = Ok new -> parse (pg_bytes mid) = Some (JObj d1) -> ssorted d1 ->
  Forall (fun kj => well_formed_text (fst kj) /\ injectable (snd kj)) (rt_caps rt) ->
  exists d, parse (pg_bytes new) = Some (JObj d) /\ ssorted d /\
    let sel := selected_caps (pc_caps (pg_conf mid)) (rt_caps rt) in
    ((sel = [] /\ d = d1) \/
     (sel <> [] /\ sget "runtimeConfig" d = Some (enc_map sel) /\ forall k, k <> "runtimeConfig" -> reencoded_opt (sget k d1) (sget k d))).
Proof.
  intros I2 P1 S1 WC. unfold inject_runtime_config in I2. cbv zeta.
  destruct (selected_caps (pc_caps (pg_conf mid)) (rt_caps rt)) as [|kv0 rc] eqn:SC.
  - injection I2 as <-. exists d1. auto.
  - rewrite <- SC in *.
    assert (WF2 : Forall wf3 [("runtimeConfig", enc_map (selected_caps (pc_caps (pg_conf mid)) (rt_caps rt)))]).
    { constructor; [|constructor]. split; [apply valid_utf8_wf; vm_compute; reflexivity|]. apply enc_map_ok. apply Forall_forall.
      intros [k v] I. apply selected_in in I. rewrite Forall_forall in WC. now apply WC. }
    rewrite marshal_map_wf in I2 by (apply Forall_forall; intros [k v] I; apply selected_in in I; rewrite Forall_forall in WC; now apply WC).
    change [("runtimeConfig", GVal (Some (enc_map (selected_caps (pc_caps (pg_conf mid)) (rt_caps rt)))))] with
      (gvals [("runtimeConfig", enc_map (selected_caps (pc_caps (pg_conf mid)) (rt_caps rt)))]) in I2.
    destruct (inject_doc _ _ _ _ I2 P1 WF2) as (d2 & P2 & S2 & D2 & T2 & M2). exists d2. split; [exact P2|]. split; [exact S2|]. right.
    split; [rewrite SC; discriminate|]. split.
    + specialize (M2 "runtimeConfig"). cbn [last_get] in M2. rewrite String.eqb_refl, last_member_sorted in M2 by exact S2. exact M2.
    + intros k N. specialize (M2 k). cbn [last_get] in M2. apply String.eqb_neq in N. rewrite N in M2. now rewrite !last_member_sorted in M2 by assumption.
Qed.

Lemma selected_same caps args args' : (forall k, sget k args = sget k args') -> selected_caps caps args = selected_caps caps args'.
Proof. intros H. unfold selected_caps. apply flat_map_ext. intros [k b]. cbn [fst snd]. now rewrite H. Qed.
Lemma selected_nil caps args args' : ssorted caps -> (forall k, reencoded_opt (sget k args) (sget k args')) ->
  selected_caps caps args = [] <-> selected_caps caps args' = [].
Proof.
  intros S H. assert (G : forall a a', (forall k v, sget k a' = Some v -> exists u, sget k a = Some u) -> selected_caps caps a = [] -> selected_caps caps a' = []).
  { intros a a' X E. destruct (selected_caps caps a') as [|[k v] l] eqn:E'; [reflexivity|]. exfalso.
    destruct (last_get_cons_some k v l) as [x L]. rewrite <- E', (selected_get caps a' k S) in L.
    pose proof (selected_get caps a k S) as K. rewrite E in K. destruct (sget k caps) as [[|]|]; try discriminate. destruct (X k x L) as [u U]. rewrite U in K. discriminate. }
  split; apply G; intros k v E; specialize (H k); rewrite E in H; [destruct (sget k args) as [u|]|destruct (sget k args') as [u|]]; eauto; destruct H.
Qed.
Lemma selected_reencoded caps args args' : ssorted caps -> (forall k, reencoded_opt (sget k args) (sget k args')) ->
  reencoded (enc_map (selected_caps caps args)) (enc_map (selected_caps caps args')).
Proof.
  intros S H. unfold enc_map.
  assert (S1 : forall a, ssorted (sset_all (selected_caps caps a) [])) by (intros; apply sset_all_sorted; exact I).
  assert (G : forall a k, sget k (sset_all (selected_caps caps a) []) = match sget k caps with Some true => sget k a | _ => None end).
  { intros a k. rewrite sget_sset_all, (selected_get caps a k S). destruct (match sget k caps with Some true => sget k a | _ => None end); reflexivity. }
  destruct (norm_obj_some (sset_all (selected_caps caps args) [])) as [m N].
  { intros k x In1. apply (sorted_in_get _ _ _ (S1 _)) in In1. rewrite G in In1. destruct (sget k caps) as [[|]|]; try discriminate.
    specialize (H k). rewrite In1 in H. destruct (sget k args') as [y|]; [|destruct H]. exists y. exact H. }
  unfold reencoded. rewrite N. do 2 f_equal. apply ssorted_ext; [|apply S1|].
  { apply norm_canonical in N. apply canonical_obj in N. apply N. }
  intros k. pose proof (norm_member _ _ k N) as M. rewrite (last_member_sorted k _ (S1 args)), G in M. rewrite G.
  destruct (sget k caps) as [[|]|]; [|destruct (sget k m); [destruct M|reflexivity]..].
  exact (reencoded_opt_fun _ _ _ M (H k)).
Qed.

Definition good_map (m : smap json) : Prop := Forall (fun kj => well_formed_text (fst kj) /\ injectable (snd kj)) m.
Lemma build_same name ver orig p1 p2 rt1 rt2 n1 n2 (rc : option json -> option json -> Prop) :
  build_one_config name ver orig p1 rt1 = Ok n1 -> build_one_config name ver orig p2 rt2 = Ok n2 ->
  well_formed_text name -> well_formed_text ver -> prev_ok p1 -> prev_ok p2 -> good_map (rt_caps rt1) -> good_map (rt_caps rt2) ->
  (forall caps, ssorted caps -> (selected_caps caps (rt_caps rt1) = [] <-> selected_caps caps (rt_caps rt2) = []) /\
     rc (Some (enc_map (selected_caps caps (rt_caps rt1)))) (Some (enc_map (selected_caps caps (rt_caps rt2))))) ->
  (forall x y, reencoded_opt x y -> rc y y) ->
  same_but_prev rc (pg_bytes n1) (pg_bytes n2).
Proof.
  intros B1 B2 Wn Wv P1 P2 G1 G2 SEL REF.
  destruct (first_stage _ _ _ _ _ _ B1 Wn Wv P1) as (m & mid1 & U & SM & CM & PA1 & C1 & I1).
  destruct (first_stage _ _ _ _ _ _ B2 Wn Wv P2) as (m' & mid2 & U' & _ & _ & PA2 & C2 & I2).
  assert (m' = m) by congruence. subst m'. clear U'. rewrite C1 in C2. injection C2 as C2.
  assert (S1 : ssorted (sset_all (first_vals name ver p1) m)) by now apply sset_all_sorted.
  assert (S2 : ssorted (sset_all (first_vals name ver p2) m)) by now apply sset_all_sorted.
  assert (EQ : forall k, k <> "prevResult" -> sget k (sset_all (first_vals name ver p1) m) = sget k (sset_all (first_vals name ver p2) m)).
  { intros k N. rewrite !sget_sset_all, !first_get by exact N. reflexivity. }
  assert (RCM : forall p, sget "runtimeConfig" (sset_all (first_vals name ver p) m) = sget "runtimeConfig" m).
  { intros p. rewrite sget_sset_all, first_get by discriminate. reflexivity. }
  assert (CAN : reencoded_opt (sget "runtimeConfig" m) (sget "runtimeConfig" m)).
  { pose proof (canonical_norm _ CM) as N. apply (norm_member _ _ "runtimeConfig") in N. now rewrite (last_member_sorted _ _ SM) in N. }
  assert (SC : ssorted (pc_caps (pg_conf mid1))).
  { clear - C1. assert (K : forall l cur c, caps_of cur l = Some c -> ssorted cur -> ssorted c).
    { induction l as [|[k v] l IH]; intros cur c H S; [injection H as <-; exact S|]. cbn [caps_of] in H. destruct (key_is "capabilities" k); [|eauto].
      destruct (dec_map_bool cur v) as [b|] eqn:E; [|discriminate]. eapply IH; [exact H|]. destruct v; try discriminate; cbn in E; [injection E as <-; exact I|].
      eapply map_bool_sorted; [exact E|exact S]. }
    eapply K; [exact C1|exact I]. }
  destruct (second_stage _ _ _ _ I1 PA1 S1 G1) as (d & PD & SD & D). destruct (second_stage _ _ _ _ I2 PA2 S2 G2) as (e & PE & SE & E'). cbv zeta in D, E'.
  rewrite <- C2 in E'. destruct (SEL _ SC) as [NIL RC].
  exists d, e. split; [exact PD|]. split; [exact PE|]. split; [now apply ssorted_nodup|]. split; [now apply ssorted_nodup|].
  split.
  - intros k N1 N2. rewrite (last_member_sorted k _ SD), (last_member_sorted k _ SE).
    destruct D as [[Z1 ->]|(Z1 & _ & D)], E' as [[Z2 ->]|(Z2 & _ & E')]; try (exfalso; tauto); [now apply EQ|].
    specialize (D k N2). specialize (E' k N2). rewrite (EQ k N1) in D. exact (reencoded_opt_fun _ _ _ D E').
  - rewrite (last_member_sorted _ _ SD), (last_member_sorted _ _ SE).
    destruct D as [[Z1 ->]|(Z1 & D & _)], E' as [[Z2 ->]|(Z2 & E' & _)]; try (exfalso; tauto); [|rewrite D, E'; exact RC].
    rewrite !RCM. eapply REF. exact CAN.
Qed.
(** With the same capability arguments, and with those a cache file gives back. *)
Lemma build_same_eq name ver orig p1 p2 rt1 rt2 n1 n2 :
  build_one_config name ver orig p1 rt1 = Ok n1 -> build_one_config name ver orig p2 rt2 = Ok n2 ->
  well_formed_text name -> well_formed_text ver -> prev_ok p1 -> prev_ok p2 -> good_map (rt_caps rt1) -> rt_caps rt2 = rt_caps rt1 ->
  same_but_prev eq (pg_bytes n1) (pg_bytes n2).
Proof.
  intros B1 B2 Wn Wv P1 P2 G1 E. eapply build_same; try eassumption; [now rewrite E| |reflexivity].
  intros caps _. rewrite E. split; reflexivity.
Qed.
Lemma caps_as_get rt m : caps_as rt m -> NoDup (map fst (rt_caps rt)) -> forall k, reencoded_opt (sget k (rt_caps rt)) (sget k m).
Proof.
  intros [_ R] ND k. apply (norm_member _ _ k) in R. rewrite last_member_sorted, sget_sset_all, (last_get_nodup k (rt_caps rt) ND) in R by (apply sset_all_sorted; exact I).
  destruct (sget k (rt_caps rt)); exact R.
Qed.
