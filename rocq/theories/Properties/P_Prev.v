(** C42: what a plugin reads from the prevResult of its request. *)
From Coq Require Import String Ascii List Arith NArith ZArith Bool Lia.
From Verif Require Import Model.GoStr Model.Errors Model.Json Model.Num Model.GoJson Model.NetIP Model.Types Model.Conf Model.Prog Model.Api Model.Skel
  Spec.NameSpec Spec.JsonSpec Spec.ConfSpec Spec.TypesSpec Proofs.StrP Proofs.JsonP Proofs.JsonRT Proofs.GoJsonP Proofs.ConfP
  Proofs.TypesP Proofs.DecodeP Proofs.BuildP Proofs.CacheP Properties.P_Types.
Import ListNotations.
Open Scope nat_scope.
Open Scope string_scope.

Lemma version_twice r v w t : dec_like r (JObj (("CNIVersion", JStr v) :: ("cniVersion", JStr w) :: t)) = dec_like r (JObj (("cniVersion", JStr w) :: t)).
Proof.
  assert (K1 : key_is "cniVersion" "CNIVersion" = true) by (vm_compute; reflexivity).
  assert (K2 : key_is "cniVersion" "cniVersion" = true) by (vm_compute; reflexivity).
  destruct r; cbn [dec_like]; [unfold dec_res020|unfold dec_res040|unfold dec_res100]; unfold decode_struct; rewrite !decode_members_cons, K1, K2; cbn [dec_string option_map]; projs; reflexivity.
Qed.
Lemma cni_version_twice v w t : dec_cni_version (JObj (("CNIVersion", JStr v) :: ("cniVersion", JStr w) :: t)) = dec_cni_version (JObj (("cniVersion", JStr w) :: t)).
Proof.
  assert (K1 : key_is "cniVersion" "CNIVersion" = true) by (vm_compute; reflexivity).
  assert (K2 : key_is "cniVersion" "cniVersion" = true) by (vm_compute; reflexivity).
  unfold dec_cni_version, decode_struct; rewrite !decode_members_cons, K1, K2; reflexivity.
Qed.
Lemma decode_prev d c x m : ssorted d -> dec_plugin_conf (JObj d) = Some c -> sget "prevResult" d = Some x -> dec_map_any None x = Some (Some m) ->
  only_spelling "prevResult" d -> pc_prev c = Some m.
Proof.
  intros S D G M H. destruct (split_sorted _ _ _ S G) as (l1 & l2 & E & A1 & A2). subst d.
  assert (N1 : forall k v, In (k, v) l1 -> key_is "prevResult" k = false).
  { intros k v I. destruct (key_is "prevResult" k) eqn:K; [|reflexivity]. exfalso. assert (X : k = "prevResult") by (eapply H; [apply in_or_app; left; exact I|exact K]).
    subst k. apply A1 in I. rewrite compare_refl in I. discriminate. }
  assert (N2 : forall k v, In (k, v) l2 -> key_is "prevResult" k = false).
  { intros k v I. destruct (key_is "prevResult" k) eqn:K; [|reflexivity]. exfalso. assert (X : k = "prevResult") by (eapply H; [apply in_or_app; right; right; exact I|exact K]).
    subst k. apply A2 in I. rewrite compare_refl in I. discriminate. }
  unfold dec_plugin_conf, decode_struct in D. rewrite decode_members_app in D.
  destruct (decode_members plugin_conf_step plugin_conf_zero l1) as [b|] eqn:B; [|discriminate].
  pose proof (decode_members_keep _ pc_prev (key_is "prevResult") step_prev_keep _ _ _ B N1) as B1. change (pc_prev plugin_conf_zero) with (@None (smap json)) in B1.
  rewrite decode_members_cons in D. destruct (plugin_conf_step b "prevResult" x) as [b'|] eqn:B'; [|discriminate].
  rewrite (decode_members_keep _ pc_prev (key_is "prevResult") step_prev_keep _ _ _ D N2).
  change (plugin_conf_step b "prevResult" x) with
    (option_map (fun x => {| pc_version := pc_version b; pc_name := pc_name b; pc_type := pc_type b; pc_caps := pc_caps b;
             pc_ipam := pc_ipam b; pc_dns := pc_dns b; pc_prev := x; pc_valid := pc_valid b |}) (dec_map_any (pc_prev b) x)) in B'.
  rewrite B1, M in B'. injection B' as <-. reflexivity.
Qed.
Lemma decode_no_prev d c : dec_plugin_conf (JObj d) = Some c -> (forall k v, In (k, v) d -> key_is "prevResult" k = false) -> pc_prev c = None.
Proof.
  intros D N. unfold dec_plugin_conf, decode_struct in D.
  exact (decode_members_keep _ pc_prev (key_is "prevResult") step_prev_keep _ _ _ D N).
Qed.
Lemma sset_cni v m t w : m = ("cniVersion", JStr w) :: t -> ssorted m -> sget "CNIVersion" m = None /\ sset "CNIVersion" (JStr v) m = ("CNIVersion", JStr v) :: m.
Proof.
  intros -> S. assert (C : String.compare "CNIVersion" "cniVersion" = Lt) by (vm_compute; reflexivity). split.
  - apply lb_get; [exact S|exact C].
  - cbn [sset]. rewrite C. reflexivity.
Qed.
Lemma request_key_other f k : In k request_keys -> key_is f k = true -> In f request_keys -> k = f.
Proof.
  assert (B : forallb (fun f => forallb (fun k => negb (key_is f k) || String.eqb k f) request_keys) request_keys = true) by (vm_compute; reflexivity).
  intros K E F. rewrite forallb_forall in B. specialize (B f F). rewrite forallb_forall in B. specialize (B k K). rewrite E in B. cbn in B. now apply String.eqb_eq.
Qed.
Lemma spelt f o d : In f request_keys -> only_spelling f o -> (forall k v, In (k, v) d -> In k request_keys \/ exists x : json, In (k, x) o) -> only_spelling f d.
Proof.
  intros F S H k v I K. destruct (H k v I) as [R|[x X]]; [now apply request_key_other|]. eapply S; eassumption.
Qed.
(** The request's decoded configuration, given the runtime's previous result. *)
Lemma request_prev name ver orig r rt new o :
  build_one_config name ver orig (Some r) rt = Ok new -> parse (pg_bytes orig) = Some (JObj o) ->
  only_spelling "prevResult" o -> only_spelling "cniVersion" o ->
  well_formed_text name -> well_formed_text ver ->
  Forall (fun kj => well_formed_text (fst kj) /\ injectable (snd kj)) (rt_caps rt) ->
  wf_result exact prefix_form r ->
  exists c text j w t, unmarshal_plugin_conf (pg_bytes new) = Some c /\ pc_version c = ver /\
    parse_prev_result c = rmap Some (rwrap "could not parse prevResult" (create ver text)) /\
    parse text = Some j /\ j = JObj (("CNIVersion", JStr ver) :: ("cniVersion", JStr (result_version r)) :: t) /\
    w = JObj (("cniVersion", JStr (result_version r)) :: t) /\ dec_like r w = Some r.
Proof.
  intros B P SP SV WN WV WC W. pose proof (wf_exact_any _ W) as W'.
  destruct (result_rtn r W) as (j & m & E & NM & DL & t & T). destruct (result_rt r W') as (j0 & E0 & _ & J & D5 & _). rewrite E in E0. injection E0 as <-.
  assert (PO : prev_ok (Some r)) by (exists j; split; [exact E|]; split; [exact J|]; eapply N.le_trans; [exact D5|vm_compute; discriminate]).
  destruct (build_doc _ _ _ _ _ _ _ B P WN WV PO WC) as (d & c1 & PN & S & DC & _ & _ & GV & (j1 & j' & E1 & GP & JJ) & _ & _ & _ & _ & KEYS).
  rewrite E in E1. injection E1 as <-.
  assert (SP' : only_spelling "prevResult" d) by (eapply spelt; [cbn; tauto|exact SP|exact KEYS]).
  assert (SV' : only_spelling "cniVersion" d) by (eapply spelt; [cbn; tauto|exact SV|exact KEYS]).
  assert (MM : dec_map_any None j' = Some (Some m)).
  { assert (N' : norm j' = Some (JObj m)) by (destruct JJ as [->|JJ]; [exact NM|unfold reencoded in JJ; rewrite NM in JJ; injection JJ as <-; now apply canonical_norm, (norm_canonical _ _ NM)]).
    destruct j' as [| | | |a|l]; try discriminate; [cbn in N'; match type of N' with context [canon_num ?x] => destruct (canon_num x); discriminate end|rewrite norm_arr in N'; destruct (norm_all a); discriminate|]. now apply dec_map_any_obj. }
  pose proof (norm_canonical _ _ NM) as CM. assert (D10 : (jdepth j <= 10000)%N) by (eapply N.le_trans; [exact D5|vm_compute; discriminate]).
  pose proof (norm_encodable _ _ NM J) as EM.
  destruct (sset_cni ver m t _ T (proj1 (proj1 (canonical_obj _) CM))) as [SG SS].
  exists (pg_conf new), (print (JObj (("CNIVersion", JStr ver) :: m))), (JObj (("CNIVersion", JStr ver) :: m)), (JObj m), t.
  assert (PV : pc_version (pg_conf new) = ver).
  { eapply ConfP.decode_version; [exact S|exact DC|exact GV|]. intros k v I K. left. eapply SV'; eassumption. }
  split; [unfold unmarshal_plugin_conf; now rewrite PN|]. split; [exact PV|]. split; [|split; [|split; [now rewrite T|split; [now rewrite T|exact DL]]]].
  - unfold parse_prev_result. rewrite (decode_prev _ _ _ _ S DC GP MM SP'), SG, PV, SS. reflexivity.
  - apply parse_print. destruct EM as [EM1 EM2]. split.
    + apply jwf_obj. apply jwf_obj in EM1. constructor; [|exact EM1]. split; [apply ascii_wft; reflexivity|exact WV].
    + assert (X : (jdepth (JObj m) <= N.succ 9999)%N) by lia. apply jdepth_obj in X. apply (jdepth_obj _ 9999). constructor; [cbn; lia|exact X].
Qed.

(** ** C42 *)
(** A plugin whose request carries the runtime's previous result, of a version the configuration
    version's Go type serves, gets that very result. *)
Theorem C42_prev_result : forall name ver orig r rt new o,
  build_one_config name ver orig (Some r) rt = Ok new -> parse (pg_bytes orig) = Some (JObj o) ->
  only_spelling "prevResult" o -> only_spelling "cniVersion" o ->
  well_formed_text name -> Forall (fun kj => well_formed_text (fst kj) /\ injectable (snd kj)) (rt_caps rt) ->
  wf_result exact prefix_form r -> In ver (versions_of r) ->
  exists c, unmarshal_plugin_conf (pg_bytes new) = Some c /\ pc_version c = ver /\ parse_prev_result c = Ok (Some r).
Proof.
  intros name ver orig r rt new o B P SP SV WN WC W V.
  assert (WV : well_formed_text ver).
  { apply ascii_wft. destruct r; cbn [versions_of In] in V; intuition (subst; reflexivity). }
  destruct (request_prev _ _ _ _ _ _ _ B P SP SV WN WV WC W) as (c & text & j & w & t & U & PV & PP & PJ & -> & -> & DL).
  exists c. split; [exact U|]. split; [exact PV|]. rewrite PP.
  rewrite (create_like r ver text _ V PJ); [reflexivity| |exact (proj2 W)]. rewrite version_twice. exact DL.
Qed.
(** One of another family of versions is refused. *)
Theorem C42_other_version : forall name ver orig r rt new o,
  build_one_config name ver orig (Some r) rt = Ok new -> parse (pg_bytes orig) = Some (JObj o) ->
  only_spelling "prevResult" o -> only_spelling "cniVersion" o ->
  well_formed_text name -> well_formed_text ver -> Forall (fun kj => well_formed_text (fst kj) /\ injectable (snd kj)) (rt_caps rt) ->
  wf_result exact prefix_form r -> ver <> "" -> ~ In ver (versions_of r) ->
  exists c e, unmarshal_plugin_conf (pg_bytes new) = Some c /\ parse_prev_result c = Err e.
Proof.
  intros name ver orig r rt new o B P SP SV WN WV WC W NE V.
  destruct (request_prev _ _ _ _ _ _ _ B P SP SV WN WV WC W) as (c & text & j & w & t & U & PV & PP & PJ & -> & -> & DL).
  exists c. rewrite PP. destruct (create ver text) as [r'|e|] eqn:C; [|eexists; split; [exact U|reflexivity]|now apply create_no_panic in C].
  exfalso. destruct (C41_create _ _ _ C) as (_ & V' & K & D'). destruct (String.eqb_spec ver ""); [easy|].
  assert (D : Types.decode_version text = Ok (result_version r)).
  { unfold Types.decode_version. rewrite PJ. cbn [obind]. rewrite cni_version_twice.
    assert (X : dec_cni_version (JObj (("cniVersion", JStr (result_version r)) :: t)) = Some (result_version r)).
    { revert DL. destruct r as [r|r|r]; cbn [dec_like result_version]; intros DL.
      - destruct (dec_res020 _) as [x|] eqn:X in DL; [|discriminate]. injection DL as ->. exact (dec_res020_version _ _ X).
      - destruct (dec_res040 _) as [x|] eqn:X in DL; [|discriminate]. injection DL as ->. exact (dec_res040_version _ _ X).
      - destruct (dec_res100 _) as [x|] eqn:X in DL; [|discriminate]. injection DL as ->. exact (dec_res100_version _ _ X). }
    rewrite X. pose proof (right_nonempty _ (proj2 W)) as [NR _]. destruct (String.eqb_spec (result_version r) ""); [easy|reflexivity]. }
  rewrite D in D'. injection D' as D'. rewrite <- D' in V'. apply V. destruct W as [_ V0]. unfold right_version in V0.
  revert V0 V' K. generalize (result_version r). intros w. destruct r, r'; cbn [versions_of In]; intros; try assumption; exfalso; intuition (subst; discriminate).
Qed.
(** No prevResult in the request, no previous result. *)
Theorem C42_absent : forall name ver orig rt new o,
  build_one_config name ver orig None rt = Ok new -> parse (pg_bytes orig) = Some (JObj o) ->
  (forall k v, In (k, v) o -> key_is "prevResult" k = false) ->
  well_formed_text name -> well_formed_text ver -> Forall (fun kj => well_formed_text (fst kj) /\ injectable (snd kj)) (rt_caps rt) ->
  exists c, unmarshal_plugin_conf (pg_bytes new) = Some c /\ parse_prev_result c = Ok None.
Proof.
  intros name ver orig rt new o B P N WN WV WC.
  destruct (build_doc _ _ _ _ _ _ _ B P WN WV I WC) as (d & c1 & PN & S & DC & _ & _ & GV & RP & _ & _ & _ & _ & KEYS).
  exists (pg_conf new). split; [unfold unmarshal_plugin_conf; now rewrite PN|]. unfold parse_prev_result. rewrite (decode_no_prev d); [reflexivity|exact DC|].
  intros k v I. destruct (KEYS k v I) as [R|[x X]]; [|eapply N; exact X]. destruct (key_is "prevResult" k) eqn:K; [|reflexivity]. exfalso.
  apply (request_key_other "prevResult") in R; [|exact K|cbn; tauto]. subst k.
  assert (L : last_member "prevResult" o = None).
  { destruct (last_member "prevResult" o) as [y|] eqn:L; [|reflexivity]. exfalso. apply last_member_in in L. specialize (N _ _ L). vm_compute in N. discriminate. }
  rewrite L in RP. destruct (sget "prevResult" d) as [y|] eqn:G; [destruct RP|].
  assert (In "prevResult" (skeys d)) by (apply in_map_iff; exists ("prevResult", v); split; [reflexivity|exact I]).
  apply sget_skeys in H as [z Z]. congruence.
Qed.

(** ** The hypotheses are met *)
Definition X_text : string := "{""type"":""bridge"",""bridge"":""br0"",""cniVersion"":""0.4.0""}".
Definition X_rtp : runtime_conf :=
  {| rt_container := "c"; rt_netns := "/n"; rt_ifname := "eth0"; rt_args := []; rt_caps := []; rt_cache_dir := "" |}.
Definition X_orig : plugin_config := match plugin_conf_from_bytes X_text with Ok p => p | _ => {| pg_conf := plugin_conf_zero; pg_bytes := "" |} end.
Example C42_nonvacuous : exists new o, build_one_config "net" "1.1.0" X_orig (Some (R100 X_100)) X_rtp = Ok new /\ parse (pg_bytes X_orig) = Some (JObj o) /\
  only_spelling "prevResult" o /\ only_spelling "cniVersion" o /\ wf_result exact prefix_form (R100 X_100) /\ In "1.1.0" (versions_of (R100 X_100)) /\
  exists c, unmarshal_plugin_conf (pg_bytes new) = Some c /\ parse_prev_result c = Ok (Some (R100 X_100)).
Proof.
  assert (B : exists new, build_one_config "net" "1.1.0" X_orig (Some (R100 X_100)) X_rtp = Ok new) by (eexists; vm_compute; reflexivity).
  destruct B as [new B]. set (o := [("type", JStr "bridge"); ("bridge", JStr "br0"); ("cniVersion", JStr "0.4.0")]).
  assert (P : parse (pg_bytes X_orig) = Some (JObj o)) by (vm_compute; reflexivity).
  assert (SP : only_spelling "prevResult" o /\ only_spelling "cniVersion" o).
  { assert (F : forallb (fun kv => implb (key_is "prevResult" (fst kv)) (String.eqb (fst kv) "prevResult") && implb (key_is "cniVersion" (fst kv)) (String.eqb (fst kv) "cniVersion")) o = true) by (vm_compute; reflexivity).
    rewrite forallb_forall in F. split; intros k v I K; specialize (F _ I); apply andb_true_iff in F as [F1 F2]; cbn [fst] in *.
    - rewrite K in F1. now apply String.eqb_eq.
    - rewrite K in F2. now apply String.eqb_eq. }
  destruct SP as [SP SV]. exists new, o. split; [exact B|]. split; [exact P|]. split; [exact SP|]. split; [exact SV|].
  split; [exact X_100_wf|]. split; [cbn; auto|].
  destruct (C42_prev_result "net" "1.1.0" X_orig (R100 X_100) X_rtp new o B P SP SV) as (c & A & _ & D); [apply ascii_wft; reflexivity|constructor|exact X_100_wf|cbn; auto|].
  eauto.
Qed.
Print Assumptions C42_prev_result.
Print Assumptions C42_other_version.
Print Assumptions C42_absent.
