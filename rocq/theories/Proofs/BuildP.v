(** The request given to a plugin. *)
From Coq Require Import String Ascii List Arith ZArith NArith Bool Lia.
From Verif Require Import Model.GoStr Model.Utf8 Model.Errors Model.Version Model.Json Model.Num Model.GoJson
  Model.NetIP Model.Types Model.Conf Model.Prog Model.Api
  Spec.NameSpec Spec.JsonSpec Spec.ConfSpec
  Proofs.StrP Proofs.Utf8P Proofs.JsonP Proofs.JsonRT Proofs.NumP Proofs.GoJsonP Proofs.EnvP Proofs.ConfP.
Import ListNotations.
Open Scope nat_scope.
Open Scope string_scope.

(** *** Capabilities *)
Lemma map_bool_get l : forall cur m k,
  decode_members (fun m k v => match dec_bool false v with Some b => Some (sset k b m) | None => None end) cur l = Some m ->
  sget k m = match last_member k l with Some v => dec_bool false v | None => sget k cur end.
Proof.
  induction l as [|[k' v'] l IH]; intros cur m k H.
  - injection H as <-. reflexivity.
  - rewrite decode_members_cons in H. destruct (dec_bool false v') as [b|] eqn:E; [|discriminate].
    rewrite (IH _ _ k H). cbn. destruct (last_member k l); [reflexivity|]. rewrite sget_sset.
    destruct (String.eqb k k'); [now rewrite E|reflexivity].
Qed.
Lemma map_bool_sorted l : forall cur m,
  decode_members (fun m k v => match dec_bool false v with Some b => Some (sset k b m) | None => None end) cur l = Some m ->
  ssorted cur -> ssorted m.
Proof.
  induction l as [|[k' v'] l IH]; intros cur m H S.
  - injection H as <-. exact S.
  - rewrite decode_members_cons in H. destruct (dec_bool false v') as [b|] eqn:E; [|discriminate].
    apply (IH _ _ H). now apply sset_sorted.
Qed.
Lemma step_caps_sorted c k v c' : plugin_conf_step c k v = Some c' -> ssorted (pc_caps c) -> ssorted (pc_caps c').
Proof.
  intros H S. destruct (key_is "capabilities" k) eqn:K; [|now rewrite (step_caps_keep _ _ _ _ H K)].
  unfold plugin_conf_step in H.
  rewrite (key_is_excl "capabilities" "cniVersion" k), (key_is_excl "capabilities" "name" k), (key_is_excl "capabilities" "type" k), K in H
    by (discriminate || assumption).
  destruct (dec_map_bool (pc_caps c) v) as [m|] eqn:E; [|discriminate]. injection H as <-. cbn.
  destruct v; try discriminate; cbn in E; [injection E as <-; exact I|]. eapply map_bool_sorted; [exact E|exact S].
Qed.
Lemma decode_caps_sorted l : forall c c', decode_members plugin_conf_step c l = Some c' -> ssorted (pc_caps c) -> ssorted (pc_caps c').
Proof.
  induction l as [|[k v] l IH]; intros c c' H S; [injection H as <-; exact S|].
  rewrite decode_members_cons in H. destruct (plugin_conf_step c k v) as [b|] eqn:E; [|discriminate].
  eapply IH; [exact H|]. eapply step_caps_sorted; eassumption.
Qed.
Lemma pc_caps_sorted j c : dec_plugin_conf j = Some c -> ssorted (pc_caps c).
Proof.
  unfold dec_plugin_conf, decode_struct. destruct j; try discriminate; [intros H; injection H as <-; exact I|].
  intros H. eapply decode_caps_sorted; [exact H|exact I].
Qed.
Lemma pc_caps_advertised d c k : ssorted d -> only_spelling "capabilities" d -> dec_plugin_conf (JObj d) = Some c ->
  (sget k (pc_caps c) = Some true <-> advertises d k).
Proof.
  intros S O D. unfold advertises. cbn [at_path]. rewrite (last_member_sorted "capabilities" d S).
  unfold dec_plugin_conf, decode_struct in D.
  destruct (sget "capabilities" d) as [x|] eqn:G.
  - destruct (split_sorted _ _ _ S G) as (l1 & l2 & E & A1 & A2). subst d.
    rewrite decode_members_app in D.
    destruct (decode_members plugin_conf_step plugin_conf_zero l1) as [b|] eqn:B; [|discriminate].
    rewrite decode_members_cons in D. destruct (plugin_conf_step b "capabilities" x) as [b'|] eqn:E; [|discriminate].
    assert (N1 : forall k v, In (k, v) l1 -> key_is "capabilities" k = false).
    { intros q v I. destruct (key_is "capabilities" q) eqn:K; [|reflexivity]. exfalso.
      assert (L : String.compare q "capabilities" = Lt) by (eapply A1; exact I).
      rewrite (O q v) in L; [rewrite compare_refl in L; discriminate|apply in_or_app; now left|exact K]. }
    assert (N2 : forall k v, In (k, v) l2 -> key_is "capabilities" k = false).
    { intros q v I. destruct (key_is "capabilities" q) eqn:K; [|reflexivity]. exfalso.
      assert (L : String.compare "capabilities" q = Lt) by (eapply A2; exact I).
      rewrite (O q v) in L; [rewrite compare_refl in L; discriminate|apply in_or_app; right; now right|exact K]. }
    rewrite (decode_members_keep _ pc_caps (key_is "capabilities") step_caps_keep _ _ _ D N2).
    pose proof (decode_members_keep _ pc_caps (key_is "capabilities") step_caps_keep _ _ _ B N1) as C1. cbn in C1.
    change (plugin_conf_step b "capabilities" x) with
      (option_map (fun x => {| pc_version := pc_version b; pc_name := pc_name b; pc_type := pc_type b; pc_caps := x;
                            pc_ipam := pc_ipam b; pc_dns := pc_dns b; pc_prev := pc_prev b; pc_valid := pc_valid b |})
         (dec_map_bool (pc_caps b) x)) in E.
    destruct (dec_map_bool (pc_caps b) x) as [m|] eqn:M; [|discriminate]. injection E as <-. cbn [pc_caps].
    rewrite C1 in M. destruct x as [|bb|n|s|a|l]; try discriminate; cbn in M.
    + injection M as <-. cbn. intuition discriminate.
    + rewrite (map_bool_get _ _ _ k M). destruct (last_member k l) as [v|]; cbn; [|intuition discriminate].
      destruct v; cbn; intuition congruence.
  - rewrite (decode_members_keep _ pc_caps (key_is "capabilities") step_caps_keep _ _ _ D).
    + cbn. intuition discriminate.
    + intros q v I. destruct (key_is "capabilities" q) eqn:K; [|reflexivity]. exfalso.
      rewrite (O q v I K) in I. apply in_last_member in I. destruct I as [y Y].
      rewrite last_member_sorted in Y by exact S. congruence.
Qed.
Lemma selected_get caps args k : ssorted caps ->
  last_get k (selected_caps caps args) = match sget k caps with Some true => sget k args | _ => None end.
Proof.
  unfold selected_caps. induction caps as [|[k' b] caps IH]; intros S; [reflexivity|].
  rewrite ssorted_cons in S. destruct S as [L S]. cbn [flat_map]. rewrite last_get_app, (IH S). cbn [fst snd sget].
  destruct (String.eqb_spec k k') as [E|N].
  - subst k'. rewrite (lb_get k caps S L). destruct b; [|reflexivity]. destruct (sget k args); cbn; [now rewrite String.eqb_refl|reflexivity].
  - destruct (match sget k caps with Some true => sget k args | _ => None end); [reflexivity|].
    destruct b; [|reflexivity]. destruct (sget k' args); cbn; [|reflexivity]. destruct (String.eqb_spec k k'); [contradiction|reflexivity].
Qed.

(** *** Keys of injected documents *)
Lemma norm_keys o m k y : norm (JObj o) = Some (JObj m) -> In (k, y) m -> exists x, In (k, x) o.
Proof.
  intros N I. pose proof (norm_member o m k N) as H.
  assert (S : ssorted m) by (apply norm_canonical in N; apply canonical_obj in N; apply N).
  assert (G : sget k m = Some y) by now apply sorted_in_get. rewrite G in H.
  destruct (last_member k o) as [x|] eqn:L; [|destruct H]. exists x. now apply last_member_in.
Qed.
Lemma reencoded_idem x y z : reencoded x y -> reencoded y z -> z = y.
Proof. unfold reencoded. intros A B. apply norm_canonical in A. apply canonical_norm in A. congruence. Qed.

Lemma inject_parse orig kvs new o :
  inject_conf orig (gvals kvs) = Ok new -> parse (pg_bytes orig) = Some (JObj o) ->
  exists m, norm (JObj o) = Some (JObj m) /\ ssorted m.
Proof.
  intros H P. apply inject_ok in H. destruct H as (m & _ & _ & U & _).
  apply unmarshal_map_some in U. destruct U as (j & P' & _ & N). rewrite P in P'. injection P' as <-.
  exists m. split; [exact N|]. apply norm_canonical in N. apply canonical_obj in N. apply N.
Qed.
Lemma inject_keys orig kvs new o d k v :
  inject_conf orig (gvals kvs) = Ok new -> parse (pg_bytes orig) = Some (JObj o) ->
  parse (pg_bytes new) = Some (JObj d) ->
  Forall (fun kj => well_formed_text (fst kj) /\ jwf (snd kj) /\ (jdepth (snd kj) <= 9999)%N) kvs ->
  In (k, v) d -> In k (map fst kvs) \/ exists x, In (k, x) o.
Proof.
  intros H P PD F I. apply inject_ok in H. destruct H as (m & kvs' & c & U & E & _ & D & T & ->).
  assert (kvs' = kvs).
  { clear - E. unfold gvals in E. revert kvs' E. induction kvs as [|[k0 j] l IH]; intros [|[k' j'] l'] E; try discriminate; [reflexivity|].
    cbn in E. injection E as -> -> E. f_equal. now apply IH. }
  subst kvs'. cbn [pg_bytes] in PD. pose proof (unmarshal_map_canonical _ _ U) as [C Enc]. pose proof (inject_encodable kvs m F Enc) as En.
  rewrite (parse_print _ En) in PD. injection PD as <-. apply sset_all_in in I. destruct I as [I|I].
  - left. change k with (fst (k, v)). now apply in_map.
  - right. apply unmarshal_map_some in U. destruct U as (j & P' & _ & N). rewrite P in P'. injection P' as <-. eapply norm_keys; eassumption.
Qed.

(** *** buildOneConfig *)
Definition request_keys : list string := ["name"; "cniVersion"; "prevResult"; "runtimeConfig"].
Definition prev_ok (prev : option result) : Prop :=
  match prev with Some r => exists j, enc_result r = Some j /\ injectable j | None => True end.

Lemma enc_map_get rc k : last_member k (match enc_map rc with JObj m => m | _ => [] end) = last_get k rc.
Proof.
  unfold enc_map. rewrite last_member_sorted by (apply sset_all_sorted; exact I).
  rewrite sget_sset_all. now destruct (last_get k rc).
Qed.
Lemma marshals_wf j : jwf j -> marshals j = true.
Proof.
  induction j using json_ind'; try reflexivity.
  - intros W. apply number_lit_spec. exact W.
  - cbn [jwf marshals]. induction H as [|x l Hx _ IH]; [reflexivity|]. cbn [fold_right forallb]. intros [W1 W2]. rewrite (Hx W1). exact (IH W2).
  - cbn [jwf marshals]. induction H as [|[k x] l Hx _ IH]; [reflexivity|]. cbn [fold_right forallb fst snd] in *. intros (_ & W1 & W2). rewrite (Hx W1). exact (IH W2).
Qed.
Lemma marshal_map_some rc j : marshal_map rc = Some j -> j = enc_map rc.
Proof. unfold marshal_map. destruct (marshals (enc_map rc)); congruence. Qed.
Lemma enc_map_ok rc : Forall (fun kj : string * json => well_formed_text (fst kj) /\ injectable (snd kj)) rc ->
  jwf (enc_map rc) /\ (jdepth (enc_map rc) <= 9999)%N.
Proof.
  intros F. unfold enc_map. split.
  - apply jwf_obj. apply Forall_sset_all; [|constructor]. eapply Forall_impl; [|exact F]. unfold injectable. cbn. tauto.
  - change 9999%N with (N.succ 9998). apply jdepth_obj. apply Forall_sset_all; [|constructor].
    eapply Forall_impl; [|exact F]. unfold injectable. cbn. tauto.
Qed.
Lemma marshal_map_wf rc : Forall (fun kj : string * json => well_formed_text (fst kj) /\ injectable (snd kj)) rc -> marshal_map rc = Some (enc_map rc).
Proof. intros F. unfold marshal_map. now rewrite (marshals_wf _ (proj1 (enc_map_ok _ F))). Qed.
Lemma selected_in caps args k v : In (k, v) (selected_caps caps args) -> In (k, v) args.
Proof.
  unfold selected_caps. rewrite in_flat_map. intros ((k', b) & _ & H). cbn in H. destruct b; [|destruct H].
  destruct (sget k' args) eqn:G; [|destruct H]. destruct H as [H|[]]. injection H as -> ->. now apply sget_In.
Qed.
Lemma last_get_nonnil {A} k (x : A) l : last_get k l = Some x -> l <> [].
Proof. destruct l; [discriminate|discriminate]. Qed.
Lemma last_get_cons_some {A} k (v : A) l : exists x, last_get k ((k, v) :: l) = Some x.
Proof. cbn. rewrite String.eqb_refl. destruct (last_get k l); eauto. Qed.

Definition wf3 (kj : string * json) : Prop :=
  well_formed_text (fst kj) /\ jwf (snd kj) /\ (jdepth (snd kj) <= 9999)%N.

Lemma build_split name ver orig prev rt new : build_one_config name ver orig prev rt = Ok new -> prev_ok prev ->
  exists kvs mid,
    kvs = ([("name", JStr name); ("cniVersion", JStr ver)] ++
           match prev with Some r => match enc_result r with Some j => [("prevResult", j)] | None => [] end | None => [] end)%list /\
    inject_conf orig (gvals kvs) = Ok mid /\ inject_runtime_config mid rt = Ok new.
Proof.
  intros H PO. unfold build_one_config in H.
  exists ([("name", JStr name); ("cniVersion", JStr ver)] ++
           match prev with Some r => match enc_result r with Some j => [("prevResult", j)] | None => [] end | None => [] end)%list.
  destruct prev as [r|].
  - destruct PO as (j & E & _). rewrite E in *.
    match type of H with rbind ?x _ = _ => destruct x as [mid|e|] eqn:M; [|discriminate|discriminate] end.
    exists mid. auto.
  - match type of H with rbind ?x _ = _ => destruct x as [mid|e|] eqn:M; [|discriminate|discriminate] end.
    exists mid. auto.
Qed.
Lemma build_doc_caps name ver orig prev rt new o :
  build_one_config name ver orig prev rt = Ok new ->
  parse (pg_bytes orig) = Some (JObj o) ->
  well_formed_text name -> well_formed_text ver -> prev_ok prev ->
  Forall (fun kj => well_formed_text (fst kj) /\ injectable (snd kj)) (rt_caps rt) ->
  exists d c1, parse (pg_bytes new) = Some (JObj d) /\ ssorted d /\
    dec_plugin_conf (JObj d) = Some (pg_conf new) /\ pc_type (pg_conf new) <> "" /\
    sget "name" d = Some (JStr name) /\ sget "cniVersion" d = Some (JStr ver) /\
    match prev with
    | Some r => exists j j', enc_result r = Some j /\ sget "prevResult" d = Some j' /\ (j' = j \/ reencoded j j')
    | None => reencoded_opt (last_member "prevResult" o) (sget "prevResult" d)
    end /\
    (forall k, ~ In k request_keys -> reencoded_opt (last_member k o) (sget k d)) /\
    (ssorted (pc_caps c1) /\ (only_spelling "capabilities" o -> forall k, sget k (pc_caps c1) = Some true <-> advertises o k)) /\
    ((forall k v, sget k (pc_caps c1) = Some true -> sget k (rt_caps rt) <> Some v) ->
       reencoded_opt (last_member "runtimeConfig" o) (sget "runtimeConfig" d)) /\
    (forall k0 v0, sget k0 (pc_caps c1) = Some true -> sget k0 (rt_caps rt) = Some v0 ->
       exists rc, sget "runtimeConfig" d = Some (JObj rc) /\
         forall k, last_member k rc = match sget k (pc_caps c1) with Some true => sget k (rt_caps rt) | _ => None end) /\
    (forall k v, In (k, v) d -> In k request_keys \/ exists x, In (k, x) o) /\
    (rt_caps rt = [] -> c1 = pg_conf new).
Proof.
  intros H P Wn Wv PO WC.
  destruct (build_split _ _ _ _ _ _ H PO) as (kvs & mid & EK & I1 & I2). clear H.
  assert (F : Forall wf3 kvs).
  { subst kvs. apply Forall_app. split.
    - assert (G : forall k x, well_formed_text k -> well_formed_text x -> wf3 (k, JStr x)).
      { intros k x A B. split; [exact A|]. split; [exact B|]. cbn. discriminate. }
      apply Forall_cons; [apply G; [apply valid_utf8_wf; vm_compute; reflexivity|exact Wn]|].
      apply Forall_cons; [apply G; [apply valid_utf8_wf; vm_compute; reflexivity|exact Wv]|]. apply Forall_nil.
    - destruct prev as [r|]; [|constructor]. destruct PO as (j & E & [Wj Dj]). rewrite E. apply Forall_cons; [|apply Forall_nil].
      repeat split; cbn; [apply valid_utf8_wf; vm_compute; reflexivity|exact Wj|lia]. }
  destruct (inject_doc _ _ _ _ I1 P F) as (d1 & P1 & S1 & D1 & T1 & M1).
  pose proof (fun k v => inject_keys _ _ _ _ d1 k v I1 P P1 F) as K1.
  assert (LG : forall k, last_get k kvs =
             if String.eqb k "name" then Some (JStr name)
             else if String.eqb k "cniVersion" then Some (JStr ver)
             else if String.eqb k "prevResult" then match prev with Some r => enc_result r | None => None end
             else None).
  { intros k. subst kvs. destruct (String.eqb_spec k "name") as [->|N1];
      [destruct prev as [r|]; [destruct PO as (j & -> & _)|]; reflexivity|].
    destruct (String.eqb_spec k "cniVersion") as [->|N2];
      [destruct prev as [r|]; [destruct PO as (j & -> & _)|]; reflexivity|].
    apply String.eqb_neq in N1, N2. rewrite last_get_app.
    replace (last_get k [("name", JStr name); ("cniVersion", JStr ver)]) with (@None json)
      by (cbn [last_get]; now rewrite N1, N2).
    destruct prev as [r|]; [|now destruct (String.eqb k "prevResult")].
    destruct PO as (j & -> & _). cbn [last_get]. destruct (String.eqb k "prevResult"); reflexivity. }
  assert (KK : forall k, In k (map fst kvs) -> In k request_keys).
  { intros k. subst kvs. destruct prev as [r|]; [destruct PO as (j & -> & _)|]; cbn; intuition. }
  assert (OS : only_spelling "capabilities" o -> only_spelling "capabilities" d1).
  { intros O k v I K. destruct (K1 k v I) as [Z|[x Z]].
    - apply KK in Z. cbn in Z. repeat (destruct Z as [<-|Z]; [discriminate|]). destruct Z.
    - eapply O; eassumption. }
  assert (CAPS : ssorted (pc_caps (pg_conf mid)) /\
     (only_spelling "capabilities" o -> forall k, sget k (pc_caps (pg_conf mid)) = Some true <-> advertises o k)).
  { split; [eapply pc_caps_sorted; exact D1|]. intros O k. rewrite (pc_caps_advertised d1 (pg_conf mid) k S1 (OS O) D1).
    unfold advertises. cbn [at_path]. pose proof (M1 "capabilities") as M. rewrite LG in M. cbn [String.eqb Ascii.eqb Bool.eqb] in M.
    destruct (last_member "capabilities" o) as [x|]; destruct (last_member "capabilities" d1) as [y|]; try (destruct M; fail); [|reflexivity].
    cbn in M. unfold reencoded in M. pose proof (norm_at_path [Key k] _ _ M) as Q. cbn [at_path] in Q.
    transitivity (at_path [Key k] y = Some (JBool true)); [reflexivity|]. cbn [at_path]. rewrite Q.
    destruct (match x with JObj l => match last_member k l with Some x0 => Some x0 | None => None end | _ => None end) as [z|]; [|reflexivity].
    split.
    - destruct z as [|b|n|s|a|l]; cbn; try congruence.
      + destruct (canon_num n); discriminate.
      + change (option_map JArr (norm_all a) = Some (JBool true) -> Some (JArr a) = Some (JBool true)). destruct (norm_all a); discriminate.
      + intros H. exfalso. change (norm (JObj l) = Some (JBool true)) in H. rewrite norm_obj in H. destruct (norm_pairs l); discriminate.
    - intros H. injection H as ->. reflexivity. }
  assert (Mc : forall k, ~ In k request_keys -> reencoded_opt (last_member k o) (sget k d1)).
  { intros k N. specialize (M1 k). rewrite LG, last_member_sorted in M1 by exact S1.
    destruct (String.eqb_spec k "name") as [Q|_]; [exfalso; apply N; rewrite Q; cbn; tauto|].
    destruct (String.eqb_spec k "cniVersion") as [Q|_]; [exfalso; apply N; rewrite Q; cbn; tauto|].
    destruct (String.eqb_spec k "prevResult") as [Q|_]; [exfalso; apply N; rewrite Q; cbn; tauto|]. exact M1. }
  assert (Mr : reencoded_opt (last_member "runtimeConfig" o) (sget "runtimeConfig" d1)).
  { specialize (M1 "runtimeConfig"). rewrite LG, last_member_sorted in M1 by exact S1. exact M1. }
  assert (Mn : sget "name" d1 = Some (JStr name)).
  { specialize (M1 "name"). rewrite LG, last_member_sorted in M1 by exact S1. exact M1. }
  assert (Mv : sget "cniVersion" d1 = Some (JStr ver)).
  { specialize (M1 "cniVersion"). rewrite LG, last_member_sorted in M1 by exact S1. exact M1. }
  assert (Mp : match prev with
    | Some r => exists j, enc_result r = Some j /\ sget "prevResult" d1 = Some j
    | None => reencoded_opt (last_member "prevResult" o) (sget "prevResult" d1)
    end).
  { specialize (M1 "prevResult"). rewrite LG, last_member_sorted in M1 by exact S1.
    cbn [String.eqb Ascii.eqb Bool.eqb] in M1. destruct prev as [r|]; [|exact M1].
    destruct PO as (j & E & _). rewrite E in M1. eauto. }
  unfold inject_runtime_config in I2.
  pose proof (selected_get (pc_caps (pg_conf mid)) (rt_caps rt)) as SG.
  destruct (selected_caps (pc_caps (pg_conf mid)) (rt_caps rt)) as [|kv0 rc] eqn:SC.
  - injection I2 as <-. exists d1, (pg_conf mid). split; [exact P1|]. split; [exact S1|]. split; [exact D1|]. split; [exact T1|].
    split; [exact Mn|]. split; [exact Mv|].
    split; [destruct prev as [r|]; [destruct Mp as (j & E1 & E2); eauto 6|exact Mp]|].
    split; [exact Mc|]. split; [exact CAPS|]. split; [intros _; exact Mr|].
    split.
    + intros k v C A. exfalso. specialize (SG k (proj1 CAPS)). cbn in SG. rewrite C, A in SG. discriminate.
    + split; [|reflexivity]. intros k v I. destruct (K1 k v I) as [Z|Z]; [left; auto|now right].
  - rewrite <- SC in *.
    assert (WF2 : Forall wf3 [("runtimeConfig", enc_map (selected_caps (pc_caps (pg_conf mid)) (rt_caps rt)))]).
    { constructor; [|constructor]. split; [apply valid_utf8_wf; vm_compute; reflexivity|]. apply enc_map_ok. apply Forall_forall.
      intros [k v] I. apply selected_in in I. rewrite Forall_forall in WC. now apply WC. }
    rewrite marshal_map_wf in I2 by (apply Forall_forall; intros [k v] I; apply selected_in in I; rewrite Forall_forall in WC; now apply WC).
    change [("runtimeConfig", GVal (Some (enc_map (selected_caps (pc_caps (pg_conf mid)) (rt_caps rt)))))] with
      (gvals [("runtimeConfig", enc_map (selected_caps (pc_caps (pg_conf mid)) (rt_caps rt)))]) in I2.
    destruct (inject_doc _ _ _ _ I2 P1 WF2) as (d2 & P2 & S2 & D2 & T2 & M2).
    pose proof (fun k v => inject_keys _ _ _ _ d2 k v I2 P1 P2 WF2) as K2.
    assert (R2 : forall k, k <> "runtimeConfig" -> reencoded_opt (sget k d1) (sget k d2)).
    { intros k N. specialize (M2 k). cbn [last_get] in M2. apply String.eqb_neq in N. rewrite N in M2.
      now rewrite !last_member_sorted in M2 by assumption. }
    exists d2, (pg_conf mid). split; [exact P2|]. split; [exact S2|]. split; [exact D2|]. split; [exact T2|].
    split. { specialize (R2 "name"). rewrite Mn in R2. destruct (sget "name" d2); [|destruct R2; discriminate].
      symmetry. apply R2. discriminate. }
    split. { specialize (R2 "cniVersion"). rewrite Mv in R2. destruct (sget "cniVersion" d2); [|destruct R2; discriminate].
      symmetry. apply R2. discriminate. }
    split. { specialize (R2 "prevResult"). destruct prev as [r|].
      - destruct Mp as (j & E1 & E2). rewrite E2 in R2. destruct (sget "prevResult" d2) as [j'|]; [|destruct R2; discriminate].
        exists j, j'. split; [exact E1|]. split; [reflexivity|]. right. apply R2. discriminate.
      - assert (R : reencoded_opt (sget "prevResult" d1) (sget "prevResult" d2)) by (apply R2; discriminate). clear R2.
        destruct (last_member "prevResult" o) as [x|], (sget "prevResult" d1) as [y|], (sget "prevResult" d2) as [z|]; cbn in *; try tauto.
        now rewrite (reencoded_idem _ _ _ Mp R). }
    split. { intros k N. assert (R : reencoded_opt (sget k d1) (sget k d2)) by (apply R2; intros ->; apply N; cbn; tauto).
      specialize (Mc k N). destruct (last_member k o) as [x|], (sget k d1) as [y|], (sget k d2) as [z|]; cbn in *; try tauto.
      now rewrite (reencoded_idem _ _ _ Mc R). }
    split; [exact CAPS|].
    assert (RC : sget "runtimeConfig" d2 = Some (enc_map (selected_caps (pc_caps (pg_conf mid)) (rt_caps rt)))).
    { specialize (M2 "runtimeConfig"). cbn [last_get] in M2. rewrite String.eqb_refl in M2. now rewrite last_member_sorted in M2 by exact S2. }
    split.
    + intros Z. exfalso. destruct kv0 as [k v]. destruct (last_get_cons_some k v rc) as [x L]. rewrite <- SC in L.
      rewrite (SG k (proj1 CAPS)) in L. destruct (sget k (pc_caps (pg_conf mid))) as [[|]|] eqn:C; try discriminate.
      exact (Z k x C L).
    + split.
      * intros k v _ _. eexists. split; [exact RC|]. intros q.
        rewrite <- (SG q (proj1 CAPS)). apply (enc_map_get (selected_caps (pc_caps (pg_conf mid)) (rt_caps rt)) q).
      * split; [|intros Z; exfalso; rewrite Z in SC; destruct kv0 as [k0 v0]; assert (I0 : In (k0, v0) ((k0, v0) :: rc)) by (now left); rewrite <- SC in I0; apply selected_in in I0; destruct I0].
        intros k v I. destruct (K2 k v I) as [Z|[x Z]]; [left; cbn in Z; destruct Z as [<-|[]]; cbn; tauto|].
        destruct (K1 k x Z) as [Z'|Z']; [left; auto|now right].
Qed.
Lemma build_doc name ver orig prev rt new o :
  build_one_config name ver orig prev rt = Ok new ->
  parse (pg_bytes orig) = Some (JObj o) ->
  well_formed_text name -> well_formed_text ver -> prev_ok prev ->
  Forall (fun kj => well_formed_text (fst kj) /\ injectable (snd kj)) (rt_caps rt) ->
  exists d c1, parse (pg_bytes new) = Some (JObj d) /\ ssorted d /\
    dec_plugin_conf (JObj d) = Some (pg_conf new) /\ pc_type (pg_conf new) <> "" /\
    sget "name" d = Some (JStr name) /\ sget "cniVersion" d = Some (JStr ver) /\
    match prev with
    | Some r => exists j j', enc_result r = Some j /\ sget "prevResult" d = Some j' /\ (j' = j \/ reencoded j j')
    | None => reencoded_opt (last_member "prevResult" o) (sget "prevResult" d)
    end /\
    (forall k, ~ In k request_keys -> reencoded_opt (last_member k o) (sget k d)) /\
    (ssorted (pc_caps c1) /\ (only_spelling "capabilities" o -> forall k, sget k (pc_caps c1) = Some true <-> advertises o k)) /\
    ((forall k v, sget k (pc_caps c1) = Some true -> sget k (rt_caps rt) <> Some v) ->
       reencoded_opt (last_member "runtimeConfig" o) (sget "runtimeConfig" d)) /\
    (forall k0 v0, sget k0 (pc_caps c1) = Some true -> sget k0 (rt_caps rt) = Some v0 ->
       exists rc, sget "runtimeConfig" d = Some (JObj rc) /\
         forall k, last_member k rc = match sget k (pc_caps c1) with Some true => sget k (rt_caps rt) | _ => None end) /\
    (forall k v, In (k, v) d -> In k request_keys \/ exists x, In (k, x) o).
Proof.
  intros H P Wn Wv PO WC. destruct (build_doc_caps _ _ _ _ _ _ _ H P Wn Wv PO WC) as (d & c1 & A1 & A2 & A3 & A4 & A5 & A6 & A7 & A8 & A9 & A10 & A11 & A12 & _).
  exists d, c1. repeat (split; [assumption|]). exact A12.
Qed.
