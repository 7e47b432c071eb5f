(** C11-C13, C50-C54: configurations and the requests built from them. *)
From Coq Require Import String Ascii List Permutation ZArith NArith Bool Lia.
From Verif Require Import Model.GoStr Model.Utf8 Model.Errors Model.Version Model.Path Model.Json Model.Num Model.GoJson
  Model.NetIP Model.Types Model.Conf Model.Prog Model.Api
  Spec.VersionSpec Spec.NameSpec Spec.JsonSpec Spec.ConfSpec Spec.FileSpec
  Proofs.StrP Proofs.Utf8P Proofs.JsonP Proofs.JsonRT Proofs.NumP Proofs.GoJsonP Proofs.ConfP Proofs.BuildP Proofs.LoadP Proofs.FilesP Proofs.EnvP Proofs.InvokeP Proofs.LiveP.
Import ListNotations.
Open Scope nat_scope.
Open Scope string_scope.

(** A runtime's capability arguments and previous result that can be put in a request. *)
Definition good_caps (rt : runtime_conf) : Prop :=
  Forall (fun kj => well_formed_text (fst kj) /\ injectable (snd kj)) (rt_caps rt).

(** C11: the request is the plugin's object with the network's name and version (and previous
    result) set; other keys are there, unchanged up to the float64 trip of C10, and no others. *)
Theorem C11_request_document : forall name ver orig prev rt new o,
  build_one_config name ver orig prev rt = Ok new ->
  parse (pg_bytes orig) = Some (JObj o) ->
  well_formed_text name -> well_formed_text ver -> prev_ok prev -> good_caps rt ->
  exists d, parse (pg_bytes new) = Some (JObj d) /\ NoDup (map fst d) /\
    last_member "name" d = Some (JStr name) /\
    last_member "cniVersion" d = Some (JStr ver) /\
    match prev with
    | Some r => exists j j', enc_result r = Some j /\ last_member "prevResult" d = Some j' /\ (j' = j \/ reencoded j j')
    | None => reencoded_opt (last_member "prevResult" o) (last_member "prevResult" d)
    end /\
    (forall k, ~ In k ["name"; "cniVersion"; "prevResult"; "runtimeConfig"] ->
       reencoded_opt (last_member k o) (last_member k d)).
Proof.
  intros name ver orig prev rt new o H P Wn Wv PO GC.
  destruct (build_doc _ _ _ _ _ _ _ H P Wn Wv PO GC) as (d & c1 & P' & S & _ & _ & N & V & PR & R & _).
  exists d. rewrite (last_member_sorted "name" d S), (last_member_sorted "cniVersion" d S), (last_member_sorted "prevResult" d S). split; [exact P'|]. split; [now apply ssorted_nodup|].
  split; [exact N|]. split; [exact V|]. split; [exact PR|]. intros k I. rewrite (last_member_sorted k d S). now apply R.
Qed.
(** Integers up to 2^53 in the plugin's own configuration reach the plugin unchanged, at any depth. *)
Theorem C10_integers_reach_the_plugin : forall name ver orig prev rt new o k p z,
  build_one_config name ver orig prev rt = Ok new ->
  parse (pg_bytes orig) = Some (JObj o) ->
  well_formed_text name -> well_formed_text ver -> prev_ok prev -> good_caps rt ->
  ~ In k ["name"; "cniVersion"; "prevResult"; "runtimeConfig"] ->
  (Z.abs z <= 2 ^ 53)%Z -> at_path (Key k :: p) (JObj o) = Some (JNum (itoa z)) ->
  exists d, parse (pg_bytes new) = Some d /\ at_path (Key k :: p) d = Some (JNum (itoa z)).
Proof.
  intros name ver orig prev rt new o k p z H P Wn Wv PO GC I B A.
  destruct (C11_request_document _ _ _ _ _ _ _ H P Wn Wv PO GC) as (d & P' & _ & _ & _ & _ & R).
  exists (JObj d). split; [exact P'|]. specialize (R k I). cbn [at_path] in A |- *.
  destruct (last_member k o) as [x|]; [|discriminate]. destruct (last_member k d) as [y|]; [|destruct R].
  cbn in R. unfold reencoded in R. rewrite (norm_at_path p x y R), A. cbn. now rewrite canon_num_itoa.
Qed.
(** Each plugin's own object is what it is derived from; the request has a type. *)
Theorem C11_no_other_keys : forall name ver orig prev rt new o,
  build_one_config name ver orig prev rt = Ok new ->
  parse (pg_bytes orig) = Some (JObj o) ->
  well_formed_text name -> well_formed_text ver -> prev_ok prev -> good_caps rt ->
  exists d, parse (pg_bytes new) = Some (JObj d) /\ plugin_object (JObj d) /\
    forall k v, In (k, v) d -> In k ["name"; "cniVersion"; "prevResult"; "runtimeConfig"] \/ exists x, In (k, x) o.
Proof.
  intros name ver orig prev rt new o H P Wn Wv PO GC.
  destruct (build_doc _ _ _ _ _ _ _ H P Wn Wv PO GC) as (d & c1 & P' & S & D & T & _ & _ & _ & _ & _ & _ & _ & K).
  exists d. split; [exact P'|]. split; [apply plugin_object_iff; eauto|exact K].
Qed.

(** C12: with the capabilities key spelt as documented. *)
Theorem C12_runtime_config_exact : forall name ver orig prev rt new o,
  build_one_config name ver orig prev rt = Ok new ->
  parse (pg_bytes orig) = Some (JObj o) ->
  well_formed_text name -> well_formed_text ver -> prev_ok prev -> good_caps rt ->
  only_spelling "capabilities" o ->
  exists d, parse (pg_bytes new) = Some (JObj d) /\
    ((exists k v, advertises o k /\ sget k (rt_caps rt) = Some v) ->
       exists rc, last_member "runtimeConfig" d = Some (JObj rc) /\
         forall k v, last_member k rc = Some v <-> advertises o k /\ sget k (rt_caps rt) = Some v) /\
    ((forall k v, advertises o k -> sget k (rt_caps rt) <> Some v) ->
       reencoded_opt (last_member "runtimeConfig" o) (last_member "runtimeConfig" d)).
Proof.
  intros name ver orig prev rt new o H P Wn Wv PO GC OS.
  destruct (build_doc _ _ _ _ _ _ _ H P Wn Wv PO GC) as (d & c1 & P' & S & _ & _ & _ & _ & _ & _ & [_ CA] & R0 & R1 & _).
  specialize (CA OS). exists d. rewrite !(last_member_sorted "runtimeConfig" d S). split; [exact P'|]. split.
  - intros (k0 & v0 & A0 & G0). apply CA in A0. destruct (R1 k0 v0 A0 G0) as (rc & E & M). exists rc. split; [exact E|].
    intros k v. rewrite M, <- CA. destruct (sget k (pc_caps c1)) as [[|]|]; intuition discriminate.
  - intros Z. apply R0. intros k v A. apply Z. now apply CA.
Qed.

(** C13: what types.PluginConf holds after decoding the request. *)
Theorem C13_plugin_sees_the_name : forall name ver orig prev rt new o,
  build_one_config name ver orig prev rt = Ok new ->
  parse (pg_bytes orig) = Some (JObj o) ->
  well_formed_text name -> well_formed_text ver -> prev_ok prev -> good_caps rt ->
  exists c, unmarshal_plugin_conf (pg_bytes new) = Some c /\ pc_name c = name.
Proof.
  intros name ver orig prev rt new o H P Wn Wv PO GC.
  destruct (build_doc _ _ _ _ _ _ _ H P Wn Wv PO GC) as (d & c1 & P' & S & D & _ & N & _).
  exists (pg_conf new). unfold unmarshal_plugin_conf. rewrite P'. split; [exact D|].
  eapply decode_name; [exact S|exact D|exact N|]. intros k v _ K. now apply name_spellings.
Qed.
(** The version too, unless the configuration spells a cniVersion key in a way that sorts after. *)
Theorem C13_plugin_sees_the_version_partial : forall name ver orig prev rt new o,
  build_one_config name ver orig prev rt = Ok new ->
  parse (pg_bytes orig) = Some (JObj o) ->
  well_formed_text name -> well_formed_text ver -> prev_ok prev -> good_caps rt ->
  (forall k v, In (k, v) o -> key_is "cniVersion" k = true -> k = "cniVersion" \/ String.compare k "cniVersion" = Lt) ->
  exists c, unmarshal_plugin_conf (pg_bytes new) = Some c /\ pc_version c = ver.
Proof.
  intros name ver orig prev rt new o H P Wn Wv PO GC SP.
  destruct (build_doc _ _ _ _ _ _ _ H P Wn Wv PO GC) as (d & c1 & P' & S & D & _ & _ & V & _ & _ & _ & _ & _ & K).
  exists (pg_conf new). unfold unmarshal_plugin_conf. rewrite P'. split; [exact D|].
  eapply decode_version; [exact S|exact D|exact V|]. intros k v I F. destruct (K k v I) as [Z|[x Z]]; [|eapply SP; eassumption].
  unfold request_keys in Z. cbn [In] in Z. destruct Z as [<-|[<-|[<-|[<-|[]]]]]; try discriminate. now left.
Qed.
(** Exactly: [k] is the greatest spelling of cniVersion above the documented one that the
    configuration gives a text. *)
Definition version_override (o : list (string * json)) (k s : string) : Prop :=
  key_is "cniVersion" k = true /\ String.compare "cniVersion" k = Lt /\ last_member k o = Some (JStr s) /\
  forall k', key_is "cniVersion" k' = true -> String.compare k k' = Lt -> last_member k' o = None \/ last_member k' o = Some JNull.
Lemma norm_str_inv j s : norm j = Some (JStr s) -> j = JStr s.
Proof.
  destruct j as [| |n| |l|l].
  1,2,4: cbn [norm]; congruence.
  - cbn [norm]. destruct (canon_num n); discriminate.
  - rewrite norm_arr. destruct (norm_all l); discriminate.
  - rewrite norm_obj. destruct (norm_pairs l); discriminate.
Qed.
Lemma norm_null_inv j : norm j = Some JNull -> j = JNull.
Proof.
  destruct j as [| |n| |l|l].
  1,2,4: cbn [norm]; congruence.
  - cbn [norm]. destruct (canon_num n); discriminate.
  - rewrite norm_arr. destruct (norm_all l); discriminate.
  - rewrite norm_obj. destruct (norm_pairs l); discriminate.
Qed.
Lemma spelling_not_set k : key_is "cniVersion" k = true -> k <> "cniVersion" -> ~ In k request_keys.
Proof. intros K N [<-|[<-|[<-|[<-|[]]]]]; try discriminate. now apply N. Qed.
Lemma ssorted_after k k' (x : json) m : ssorted m -> lb k m -> In (k', x) m -> String.compare k k' = Lt.
Proof.
  revert k. induction m as [|[k2 y] m IH]; intros k S L I; [destruct I|]. rewrite ssorted_cons in S. destruct I as [I|I].
  - assert (k2 = k') as <- by congruence. exact L.
  - eapply compare_trans; [exact L|]. apply IH; tauto.
Qed.
Lemma ssorted_before l1 k (v : json) l2 k' y : ssorted (l1 ++ (k, v) :: l2)%list -> In (k', y) l1 -> String.compare k' k = Lt.
Proof.
  induction l1 as [|[k1 z] l1 IH]; intros S I; [destruct I|]. cbn [app] in S. rewrite ssorted_cons in S. destruct S as [L S]. destruct I as [I|I].
  - assert (k1 = k') as -> by congruence. eapply ssorted_after; [exact S|exact L|]. apply in_or_app. right. now left.
  - now apply IH.
Qed.
Theorem C13_version_seen_exactly : forall name ver orig prev rt new o,
  build_one_config name ver orig prev rt = Ok new ->
  parse (pg_bytes orig) = Some (JObj o) ->
  well_formed_text name -> well_formed_text ver -> prev_ok prev -> good_caps rt ->
  exists c, unmarshal_plugin_conf (pg_bytes new) = Some c /\
    (forall k s, version_override o k s -> pc_version c = s) /\
    ((forall k s, ~ version_override o k s) -> pc_version c = ver).
Proof.
  intros name ver orig prev rt new o H P Wn Wv PO GC.
  destruct (build_doc _ _ _ _ _ _ _ H P Wn Wv PO GC) as (d & c1 & P' & S & D & _ & _ & V & _ & RE & _).
  exists (pg_conf new). unfold unmarshal_plugin_conf. rewrite P'. split; [exact D|].
  assert (SV : says "cniVersion" d (pc_version (pg_conf new))).
  { unfold dec_plugin_conf, decode_struct in D. pose proof (decode_says plugin_conf_step pc_version "cniVersion") as L. specialize L with (3 := D).
    destruct L as [L|[_ L]]; [| |exact L|].
    - intros a k v a' E K. unfold plugin_conf_step in E. rewrite K in E. destruct (dec_string (pc_version a) v) as [x|]; [|discriminate].
      cbn in E. assert (a' = {| pc_version := x; pc_name := pc_name a; pc_type := pc_type a; pc_caps := pc_caps a;
        pc_ipam := pc_ipam a; pc_dns := pc_dns a; pc_prev := pc_prev a; pc_valid := pc_valid a |}) by congruence. now subst a'.
    - intros a k v a'. apply step_version_keep.
    - apply sget_In in V. discriminate (L _ _ V eq_refl). }
  assert (RK : forall k, key_is "cniVersion" k = true -> String.compare "cniVersion" k = Lt -> reencoded_opt (last_member k o) (sget k d)).
  { intros k K L. apply RE, spelling_not_set; [exact K|]. intros ->. rewrite compare_refl in L. discriminate. }
  destruct SV as (l1 & k & l2 & E & K & R).
  assert (Gk : sget k d = Some (JStr (pc_version (pg_conf new)))).
  { apply (sorted_in_get _ _ _ S). rewrite E. apply in_or_app. right. now left. }
  destruct (split_sorted _ _ _ S Gk) as (m1 & m2 & E2 & A1 & A2).
  assert (X : forall k' v, sget k' d = Some v -> key_is "cniVersion" k' = true -> String.compare k k' = Lt -> v = JNull).
  { intros k' v G F L. assert (I : In (k', v) d) by now apply sget_In. rewrite E in I. apply in_app_or in I. destruct I as [I|[I|I]].
    - exfalso. assert (I2 : String.compare k' k = Lt); [|apply compare_gt in I2; congruence].
      rewrite E in S. eapply ssorted_before; [exact S|exact I].
    - exfalso. injection I as <- _. rewrite compare_refl in L. discriminate.
    - eapply R; eassumption. }
  destruct (String.compare "cniVersion" k) eqn:C.
  - apply compare_eq in C. subst k. assert (pc_version (pg_conf new) = ver) as -> by congruence. split; [|trivial].
    intros k s (Kk & Lk & Mk & _). pose proof (RK k Kk Lk) as Q. rewrite Mk in Q. destruct (sget k d) as [v|] eqn:G; [|destruct Q].
    rewrite (X _ _ G Kk Lk) in Q. apply norm_null_inv in Q. discriminate.
  - pose proof (RK k K C) as Q. rewrite Gk in Q. destruct (last_member k o) as [x|] eqn:Lm; [|destruct Q]. apply norm_str_inv in Q. subst x.
    assert (U : forall k', key_is "cniVersion" k' = true -> String.compare k k' = Lt -> last_member k' o = None \/ last_member k' o = Some JNull).
    { intros k' F L. pose proof (RK k' F (compare_trans _ _ _ C L)) as Q. destruct (last_member k' o) as [x|]; [right|now left].
      destruct (sget k' d) as [v|] eqn:G; [|destruct Q]. rewrite (X _ _ G F L) in Q. apply norm_null_inv in Q. now subst x. }
    split; [|intros N; exfalso; apply (N k (pc_version (pg_conf new))); repeat split; assumption].
    intros k' s (Kk & Lk & Mk & Uk). destruct (String.compare k k') eqn:CC.
    + apply compare_eq in CC. subst k'. congruence.
    + destruct (U k' Kk CC); congruence.
    + apply compare_gt in CC. destruct (Uk k K CC); congruence.
  - exfalso. apply compare_gt in C. discriminate (X _ _ V eq_refl C).
Qed.
Example C13_exactly_nonvacuous : exists o, parse "{""type"":""t"",""cniversion"":""0.1.0"",""cniverSion"":""0.2.0""}" = Some (JObj o) /\
  version_override o "cniversion" "0.1.0".
Proof.
  eexists. split; [vm_compute; reflexivity|]. split; [reflexivity|]. split; [reflexivity|]. split; [reflexivity|].
  intros k' K L. left. cbn [last_member]. 
  destruct (String.eqb_spec k' "type") as [->|]; [discriminate K|].
  destruct (String.eqb_spec k' "cniversion") as [->|]; [rewrite compare_refl in L; discriminate|].
  destruct (String.eqb_spec k' "cniverSion") as [->|]; [discriminate L|]. reflexivity.
Qed.
Definition C_rt : runtime_conf :=
  {| rt_container := "c1"; rt_netns := "/ns"; rt_ifname := "eth0"; rt_args := [];
     rt_caps := [("mac", JStr "aa"); ("ports", JArr [JNum "8080"])]; rt_cache_dir := "" |}.
Definition C_conf (b : string) : plugin_config :=
  match plugin_conf_from_bytes b with Ok p => p | _ => {| pg_conf := plugin_conf_zero; pg_bytes := b |} end.
(** In full generality the version claim is false. *)
Theorem C13_plugin_sees_the_version_refuted : exists orig new c,
  plugin_conf_from_bytes (pg_bytes orig) = Ok orig /\
  build_one_config "net" "1.0.0" orig None C_rt = Ok new /\
  unmarshal_plugin_conf (pg_bytes new) = Some c /\ pc_version c = "0.1.0".
Proof.
  exists (C_conf "{""type"":""t"",""cniversion"":""0.1.0""}"). eexists _, _. split; [vm_compute; reflexivity|].
  split; [vm_compute; reflexivity|]. (split; [vm_compute; reflexivity|vm_compute; reflexivity]).
Qed.
(** So is the one about the previous result: a plugin may see another one. *)
Theorem C13_prev_result_refuted : exists orig new c prev,
  plugin_conf_from_bytes (pg_bytes orig) = Ok orig /\ prev_ok (Some prev) /\
  build_one_config "net" "1.0.0" orig (Some prev) C_rt = Ok new /\
  unmarshal_plugin_conf (pg_bytes new) = Some c /\ pc_prev c = None.
Proof.
  exists (C_conf "{""type"":""t"",""prevresult"":null}"). eexists _, _,
    (R100 {| v1_version := "1.0.0"; v1_interfaces := []; v1_ips := []; v1_routes := []; v1_dns := dns_zero |}).
  split; [vm_compute; reflexivity|]. split; [eexists; split; [vm_compute; reflexivity|]|split; [vm_compute; reflexivity|(split; [vm_compute; reflexivity|vm_compute; reflexivity])]].
  split; [|vm_compute; discriminate]. apply jwf_obj. repeat constructor; cbn; apply valid_utf8_wf; reflexivity.
Qed.
Definition C11_doc : string := "{""type"":""t"",""capabilities"":{""mac"":true,""ports"":false},""mtu"":1500}".
Example C11_nonvacuous : exists new o, parse C11_doc = Some (JObj o) /\ only_spelling "capabilities" o /\ good_caps C_rt /\
  build_one_config "net" "1.0.0" (C_conf C11_doc) None C_rt = Ok new /\
  pg_bytes new = "{""capabilities"":{""mac"":true,""ports"":false},""cniVersion"":""1.0.0"",""mtu"":1500,""name"":""net"",""runtimeConfig"":{""mac"":""aa""},""type"":""t""}".
Proof.
  eexists _, _. split; [vm_compute; reflexivity|]. split.
  - intros k v I K. cbn [In] in I. repeat (destruct I as [E|I]; [injection E as <- <-; try discriminate; reflexivity|]). destruct I.
  - split; [|(split; [vm_compute; reflexivity|vm_compute; reflexivity])].
    repeat constructor; cbn; try (apply valid_utf8_wf; reflexivity); try discriminate. apply number_lit_spec. reflexivity.
Qed.

(** C50 *)
Theorem C50_accepts_exactly : forall b m, decodes_to b m ->
  ((exists l, network_conf_from_bytes b = Ok l) <-> acceptable m).
Proof. exact network_conf_acceptable. Qed.
Theorem C50_rejects_undecodable : forall b, (forall m, ~ decodes_to b m) -> exists e, network_conf_from_bytes b = Err e.
Proof. exact network_conf_undecodable. Qed.
Theorem C50_never_panics : forall b, network_conf_from_bytes b <> Panic.
Proof. exact network_conf_not_panic. Qed.
(** What is loaded: the name, the options and the plugins, in order, each with its own object. *)
Theorem C50_contents : forall b m l, decodes_to b m -> network_conf_from_bytes b = Ok l ->
  sget "name" m = Some (JStr (nl_name l)) /\
  option_is m "disableCheck" (nl_disable_check l) /\
  option_is m "disableGC" (nl_disable_gc l) /\
  option_is m "loadOnlyInlinedPlugins" (nl_only_inlined l) /\
  nl_bytes l = b /\
  match sget "plugins" m with
  | None => nl_plugins l = [] /\ nl_only_inlined l = false
  | Some (JArr ps) => Forall2 (fun j p => parse (pg_bytes p) = Some j /\ unmarshal_plugin_conf (pg_bytes p) = Some (pg_conf p)) ps (nl_plugins l)
  | Some _ => False
  end.
Proof.
  intros b m l D H. apply decodes_iff in D. apply (network_conf_ok _ _ _ D) in H.
  destruct H as (E1 & _ & E3 & E4 & E5 & E6 & H). repeat (split; [assumption|]).
  destruct H as [(E & O & P)|(ps & E & N & P)]; rewrite E; [auto|].
  pose proof (elements_encodable _ _ _ _ D E) as F. clear - P F. revert F.
  induction P as [|j p js qs (A & B & C) _ IH]; intros F; constructor.
  - inversion F; subst. unfold unmarshal_plugin_conf. rewrite A, parse_print by assumption. auto.
  - apply IH. now inversion F.
Qed.
Example C50_nonvacuous : exists l, network_conf_from_bytes
  "{""name"":""n"",""cniVersion"":""1.0.0"",""disableCheck"":""TRUE"",""plugins"":[{""type"":""a""},{""Type"":""b"",""dns"":{}}]}" = Ok l /\
  nl_disable_check l = true /\ map (fun p => pc_type (pg_conf p)) (nl_plugins l) = ["a"; "b"].
Proof. eexists. split; [vm_compute; reflexivity|]. (split; [vm_compute; reflexivity|vm_compute; reflexivity]). Qed.
Example C50_rejected : (exists e, network_conf_from_bytes "{""name"":""n"",""plugins"":[{""type"":""""}]}" = Err e) /\
  (exists e, network_conf_from_bytes "{""name"":""n"",""loadOnlyInlinedPlugins"":true}" = Err e).
Proof. vm_compute. eauto. Qed.

(** C51 *)
Theorem C51_folder_plugins_follow : forall fs f l, network_conf_from_file fs f = Ok l <->
  exists b l0 extra, fs_read_file fs f = Ok b /\ network_conf_from_bytes b = Ok l0 /\
    (if nl_only_inlined l0 then extra = []
     else exists files, candidates fs (join_path [dir_path f; nl_name l0]) [".conf"] files /\
          Forall2 (reads_plugin fs) files extra) /\
    nl_name l = nl_name l0 /\ nl_version l = nl_version l0 /\ nl_disable_check l = nl_disable_check l0 /\
    nl_disable_gc l = nl_disable_gc l0 /\ nl_only_inlined l = nl_only_inlined l0 /\ nl_bytes l = nl_bytes l0 /\
    nl_plugins l = (nl_plugins l0 ++ extra)%list /\ nl_plugins l <> [].
Proof.
  intros fs f l. rewrite network_conf_from_file_ok. split; intros (b & l0 & extra & H).
  - destruct H as (A & B & C & -> & E). exists b, l0, extra. cbn in *. repeat (split; [first [assumption|reflexivity]|]). assumption.
  - destruct H as (A & B & C & E1 & E2 & E3 & E4 & E5 & E6 & E7 & E8). exists b, l0, extra.
    repeat (split; [assumption|]). split; [|exact E8]. destruct l, l0. unfold set_plugins. cbn in *. now subst.
Qed.
Definition C_fs : fsys :=
  {| fs_read_dir := fun d =>
       if String.eqb d "/etc/n" then Ok [("10.conf", false); ("20.txt", false); ("30.conf", true)]
       else if String.eqb d "/etc" then Ok [("a.conflist", false); ("b.conf", false); ("n", true)]
       else Err (ENotExist "open");
     fs_read_file := fun f =>
       if String.eqb f "/etc/a.conflist" then Ok "{""name"":""n"",""cniVersion"":""1.0.0""}"
       else if String.eqb f "/etc/n/10.conf" then Ok "{""type"":""x""}"
       else if String.eqb f "/etc/b.conf" then Ok "{""name"":""m"",""type"":""y"",""cniVersion"":""0.4.0""}"
       else Err (ENotExist "open") |}.
Example C51_nonvacuous : exists l, network_conf_from_file C_fs "/etc/a.conflist" = Ok l /\
  map (fun p => pc_type (pg_conf p)) (nl_plugins l) = ["x"].
Proof. eexists. (split; [vm_compute; reflexivity|vm_compute; reflexivity]). Qed.

(** C52 *)
Theorem C52_first_match : forall fs dir name l, load_network_conf fs dir name = Ok l <->
  exists F, sorted_candidates fs dir [".conflist"] F /\
    (first_loaded (fun f x => network_conf_from_file fs f = Ok x) (fun x => nl_name x = name) F l \/
     (none_wanted (fun f x => network_conf_from_file fs f = Ok x) (fun x => nl_name x = name) F /\
      exists G c, sorted_candidates fs dir [".conf"; ".json"] G /\
        first_loaded (fun f x => conf_from_file fs f = Ok x) (fun x => pc_name (pg_conf x) = name) G c /\
        conf_list_from_conf c = Ok l)).
Proof. exact load_network_conf_ok. Qed.
(** Nothing found: NoConfigsFoundError if there is no candidate at all, else NotFoundError. *)
Theorem C52_not_found : forall fs dir name F G, sorted_candidates fs dir [".conflist"] F -> sorted_candidates fs dir [".conf"; ".json"] G ->
  none_wanted (fun f x => network_conf_from_file fs f = Ok x) (fun x => nl_name x = name) F ->
  none_wanted (fun f x => conf_from_file fs f = Ok x) (fun x => pc_name (pg_conf x) = name) G ->
  load_network_conf fs dir name = Err (match F, G with [], [] => ENoConfigs dir | _, _ => ENotFound dir name end).
Proof. exact not_found. Qed.
(** A file that does not load, before any that is wanted, ends the search with its error. *)
Theorem C52_broken_list : forall fs dir name F1 f F2 e, sorted_candidates fs dir [".conflist"] (F1 ++ f :: F2) ->
  none_wanted (fun f x => network_conf_from_file fs f = Ok x) (fun x => nl_name x = name) F1 -> network_conf_from_file fs f = Err e ->
  load_network_conf fs dir name = Err e.
Proof. exact broken_list. Qed.
Theorem C52_broken_conf : forall fs dir name F G1 f G2 e, sorted_candidates fs dir [".conflist"] F ->
  sorted_candidates fs dir [".conf"; ".json"] (G1 ++ f :: G2) ->
  none_wanted (fun f x => network_conf_from_file fs f = Ok x) (fun x => nl_name x = name) F ->
  none_wanted (fun f x => conf_from_file fs f = Ok x) (fun x => pc_name (pg_conf x) = name) G1 -> conf_from_file fs f = Err e ->
  load_network_conf fs dir name = Err e.
Proof. exact broken_conf. Qed.
Example C52_nonvacuous : (exists l, load_network_conf C_fs "/etc" "n" = Ok l /\ nl_name l = "n") /\
  (exists l, load_network_conf C_fs "/etc" "m" = Ok l /\ nl_name l = "m" /\ nl_version l = "0.4.0") /\
  load_network_conf C_fs "/etc" "zz" = Err (ENotFound "/etc" "zz") /\ load_network_conf C_fs "/none" "zz" = Err (ENoConfigs "/none").
Proof.
  split; [eexists; (split; [vm_compute; reflexivity|vm_compute; reflexivity])|]. split; [eexists; split; [vm_compute; reflexivity|(split; [vm_compute; reflexivity|vm_compute; reflexivity])]|].
  (split; [vm_compute; reflexivity|vm_compute; reflexivity]).
Qed.

(** C53: under two nesting levels of head room in the decoder. *)
Theorem C53_upconversion : forall b c o m l, plugin_conf_from_bytes b = Ok c -> parse b = Some (JObj o) ->
  reencoded (JObj o) (JObj m) -> (jdepth (JObj o) <= 9998)%N ->
  conf_list_from_conf c = Ok l ->
  nl_name l = pc_name (pg_conf c) /\ nl_version l = pc_version (pg_conf c) /\
  nl_disable_check l = false /\ nl_disable_gc l = false /\
  exists p, nl_plugins l = [p] /\ parse (pg_bytes p) = Some (JObj m).
Proof.
  intros b c o m l PB P R D H. apply (conf_list_from_conf_ok _ _ _ _ l PB P R D) in H.
  destruct H as (A1 & A2 & A3 & A4 & _ & _ & _ & p & A7 & A8 & _). repeat (split; [assumption|]).
  exists p. split; [exact A7|]. rewrite A8. apply parse_print. eapply norm_enc; [exact R|]. eapply parse_encodable; exact P.
Qed.
(** It succeeds when no key is repeated and "type" is spelt so. *)
Theorem C53_upconversion_succeeds : forall b c o m, plugin_conf_from_bytes b = Ok c -> parse b = Some (JObj o) ->
  reencoded (JObj o) (JObj m) -> (jdepth (JObj o) <= 9998)%N ->
  NoDup (map fst o) -> only_spelling "type" o ->
  exists l p, conf_list_from_conf c = Ok l /\ nl_plugins l = [p] /\ pc_type (pg_conf p) = pc_type (pg_conf c).
Proof.
  intros b c o m PB P R D ND OS. destruct (plugin_from_doc _ _ PB) as (o' & P' & DC & T & EB). rewrite P in P'. injection P' as <-.
  destruct (retyped _ _ _ ND OS R DC T) as (c' & D' & E).
  exists {| nl_name := pc_name (pg_conf c); nl_version := pc_version (pg_conf c); nl_disable_check := false; nl_disable_gc := false;
            nl_only_inlined := false; nl_plugins := [{| pg_conf := c'; pg_bytes := print (JObj m) |}];
            nl_bytes := print (JObj [("cniVersion", JStr (pc_version (pg_conf c))); ("name", JStr (pc_name (pg_conf c))); ("plugins", JArr [JObj m])]) |},
         {| pg_conf := c'; pg_bytes := print (JObj m) |}.
  split; [|split; [reflexivity|exact E]]. apply (conf_list_from_conf_ok _ _ _ _ _ PB P R D).
  cbn [nl_name nl_version nl_disable_check nl_disable_gc nl_only_inlined nl_plugins nl_bytes].
  repeat (split; [reflexivity|]). split.
  - destruct (conf_list_raw c m) as (b' & U' & _).
    + eapply norm_canonical; exact R.
    + apply (norm_encodable _ _ R). apply (parse_encodable _ _ P).
    + pose proof (parse_encodable _ _ P) as [W _]. destruct (norm_encodable _ _ R W). lia.
    + apply (dec_strings_wft o); [apply (parse_encodable _ _ P)|exact DC].
    + apply (dec_strings_wft o); [apply (parse_encodable _ _ P)|exact DC].
    + rewrite EB. apply unmarshal_map_some. exists (JObj o). auto.
    + destruct (unmarshal_map_canonical _ _ U'). now apply unmarshal_map_print.
  - split; [reflexivity|]. eexists. split; [reflexivity|]. cbn [pg_bytes pg_conf]. split; [reflexivity|]. split; [exact D'|]. now rewrite E.
Qed.
(** Otherwise a configuration that loads alone may not load as a list. *)
Theorem C53_always_succeeds_refuted : exists b c e, plugin_conf_from_bytes b = Ok c /\ conf_list_from_conf c = Err e.
Proof. exists "{""type"":"""",""Type"":""a""}". eexists _, _. (split; [vm_compute; reflexivity|vm_compute; reflexivity]). Qed.
Example C53_nonvacuous : exists c o m,
  plugin_conf_from_bytes "{""name"":""n"",""type"":""t"",""x"":[1]}" = Ok c /\ parse "{""name"":""n"",""type"":""t"",""x"":[1]}" = Some (JObj o) /\
  reencoded (JObj o) (JObj m) /\ (jdepth (JObj o) <= 9998)%N /\ NoDup (map fst o) /\ only_spelling "type" o.
Proof.
  eexists _, _, _. split; [vm_compute; reflexivity|]. split; [vm_compute; reflexivity|]. split; [vm_compute; reflexivity|].
  split; [vm_compute; discriminate|]. split; [repeat constructor; cbn; intuition discriminate|].
  intros k v I K. cbn [In] in I. repeat (destruct I as [E|I]; [injection E as <- <-; try discriminate; reflexivity|]). destruct I.
Qed.

(** C54: [last_member k kvs] is the value newValues has for [k]. *)
Definition as_values (kvs : list (string * json)) : list (string * gval) := map (fun kj => (fst kj, GVal (Some (snd kj)))) kvs.
Theorem C54_effect : forall orig kvs new o, inject_conf orig (as_values kvs) = Ok new ->
  parse (pg_bytes orig) = Some (JObj o) ->
  Forall (fun kj => well_formed_text (fst kj) /\ injectable (snd kj)) kvs ->
  exists d, parse (pg_bytes new) = Some (JObj d) /\ plugin_object (JObj d) /\
    unmarshal_plugin_conf (pg_bytes new) = Some (pg_conf new) /\
    forall k, match last_member k kvs with
              | Some j => last_member k d = Some j
              | None => reencoded_opt (last_member k o) (last_member k d)
              end.
Proof.
  intros orig kvs new o H P F.
  assert (F' : Forall (fun kj => well_formed_text (fst kj) /\ jwf (snd kj) /\ (jdepth (snd kj) <= 9999)%N) kvs).
  { eapply Forall_impl; [|exact F]. intros kj (A & B & C). split; [exact A|]. split; [exact B|]. lia. }
  destruct (inject_doc _ _ _ _ H P F') as (d & P' & S & D & T & M). exists d. split; [exact P'|].
  split; [apply plugin_object_iff; eauto|]. split; [unfold unmarshal_plugin_conf; now rewrite P'|].
  intros k. specialize (M k). now rewrite last_member_last_get.
Qed.
Theorem C54_succeeds_exactly : forall orig kvs m d, decodes_to (pg_bytes orig) m ->
  Forall (fun kj => well_formed_text (fst kj) /\ injectable (snd kj)) kvs ->
  NoDup (map fst d) -> ssorted d ->
  (forall k, last_member k d = match last_member k kvs with Some j => Some j | None => sget k m end) ->
  ((exists new, inject_conf orig (as_values kvs) = Ok new) <->
   (~ In "" (map fst kvs)) /\ plugin_object (JObj d)).
Proof.
  intros orig kvs m d DT F _ S M. apply decodes_iff in DT.
  destruct (unmarshal_map_canonical _ _ DT) as [C En]. apply canonical_obj in C. destruct C as [Sm _].
  assert (E : d = sset_all kvs m).
  { apply ssorted_ext; [exact S|now apply sset_all_sorted|]. intros k.
    rewrite <- (last_member_sorted k d S). rewrite M, sget_sset_all, last_member_last_get. reflexivity. }
  assert (En' : encodable (JObj (sset_all kvs m))).
  { apply inject_encodable; [|exact En]. eapply Forall_impl; [|exact F]. intros kj (A & B & B'). split; [exact A|]. split; [exact B|]. lia. }
  assert (K : ~ In "" (map fst kvs) <-> Forall (fun kj => fst kj <> "") kvs).
  { rewrite Forall_forall. split.
    - intros N kj I E2. apply N. rewrite <- E2. now apply in_map.
    - intros N I. apply in_map_iff in I. destruct I as (kj & E2 & I). exact (N kj I E2). }
  rewrite K. rewrite plugin_object_iff. split.
  - intros [new H]. apply inject_ok in H. destruct H as (m' & kvs' & c & U & EV & KK & D & T & _).
    rewrite DT in U. injection U as <-.
    assert (kvs' = kvs).
    { clear - EV. unfold gvals, as_values in EV. revert kvs' EV. induction kvs as [|[k j] l IH]; intros [|[k' j'] l'] E; try discriminate; [reflexivity|].
      cbn in E. injection E as -> -> E. f_equal. now apply IH. }
    subst kvs'. split; [exact KK|]. exists c. split; [|exact T]. subst d. unfold unmarshal_plugin_conf in D. now rewrite parse_print in D.
  - intros (KK & c & D & T). eexists. apply inject_ok. exists m, kvs, c. split; [exact DT|]. split; [reflexivity|]. split; [exact KK|].
    split; [unfold unmarshal_plugin_conf; rewrite parse_print by exact En'; now subst d|]. split; [exact T|reflexivity].
Qed.
Theorem C54_bad_values_rejected : forall orig vals k v, In (k, v) vals ->
  k = "" \/ v = GNil \/ v = GVal None -> forall new, inject_conf orig vals <> Ok new.
Proof.
  intros orig vals k v I B new H. apply inject_ok in H. destruct H as (m & kvs & c & _ & -> & K & _).
  unfold gvals in I. apply in_map_iff in I. destruct I as (kj & E & I). injection E as <- <-.
  rewrite Forall_forall in K. specialize (K kj I). destruct B as [B|[B|B]]; [contradiction|discriminate|discriminate].
Qed.
Theorem C54_undecodable_rejected : forall orig vals, parse (pg_bytes orig) <> Some JNull -> (forall m, ~ decodes_to (pg_bytes orig) m) ->
  exists e, inject_conf orig vals = Err e.
Proof. intros orig vals N H. pose proof (undecodable_map _ N H) as U. unfold inject_conf. rewrite U. eauto. Qed.
Theorem C54_twice_is_union : forall orig a b mid, inject_conf orig (as_values a) = Ok mid ->
  Forall (fun kj => well_formed_text (fst kj) /\ injectable (snd kj) /\ reencoded (snd kj) (snd kj)) a ->
  inject_conf mid (as_values b) = inject_conf orig (as_values (a ++ b)).
Proof. exact inject_twice. Qed.
(** The error contract has a hole: a null document makes the first assignment panic. *)
Theorem C54_null_document_refuted : forall kv kvs, fst kv <> "" ->
  inject_conf {| pg_conf := plugin_conf_zero; pg_bytes := "null" |} (as_values (kv :: kvs)) = Panic.
Proof.
  intros [k j] kvs N. unfold inject_conf. replace (unmarshal_map (pg_bytes _)) with (@Some (option (smap json)) None) by (vm_compute; reflexivity).
  unfold as_values. cbn [map inject_check fst snd]. cbn [fst] in N. apply String.eqb_neq in N. now rewrite N.
Qed.
Lemma sget_perm {A} (l l' : list (string * A)) : NoDup (map fst l) -> Permutation l l' -> forall k, sget k l = sget k l'.
Proof.
  intros ND P. induction P as [|[k0 v0] l l' P IH|[k1 v1] [k2 v2] l|l1 l2 l3 P1 IH1 P2 IH2]; intros k; [reflexivity| | |].
  - cbn [sget]. cbn in ND. apply NoDup_cons_iff in ND as [_ ND]. now rewrite (IH ND).
  - cbn [sget]. cbn in ND. apply NoDup_cons_iff in ND as [N ND]. destruct (String.eqb_spec k k2) as [E|], (String.eqb_spec k k1) as [E'|]; try reflexivity.
    exfalso. apply N. left. congruence.
  - rewrite (IH1 ND). apply IH2. eapply Permutation_NoDup; [apply Permutation_map; exact P1|exact ND].
Qed.
(** The order in which the new values are visited (Go does not specify it for a map) does not matter:
    the new configuration is the same one, and an order fails if another one does.  It panics only
    if the document is null. *)
Theorem C54_any_order : forall orig vals vals', NoDup (map fst vals) -> Permutation vals vals' ->
  (forall new, inject_conf orig vals = Ok new -> inject_conf orig vals' = Ok new) /\
  (parse (pg_bytes orig) <> Some JNull -> inject_conf orig vals' <> Panic).
Proof.
  intros orig vals vals' ND P. split.
  - intros new H. apply inject_ok in H. destruct H as (m & kvs & c & U & -> & K & D & T & ->).
    destruct (Permutation_map_inv _ _ (Permutation_sym P)) as (kvs' & -> & P'). apply inject_ok.
    assert (ND1 : NoDup (map fst kvs)) by (unfold gvals in ND; rewrite map_map in ND; exact ND).
    assert (ND2 : NoDup (map fst kvs')) by (eapply Permutation_NoDup; [apply Permutation_map; exact P'|exact ND1]).
    assert (E : sset_all kvs' m = sset_all kvs m).
    { destruct (unmarshal_map_canonical _ _ U) as [C _]. apply canonical_obj in C. destruct C as [S _].
      apply ssorted_ext; [now apply sset_all_sorted|now apply sset_all_sorted|]. intros k. rewrite !sget_sset_all.
      rewrite (last_get_nodup _ _ ND1), (last_get_nodup _ _ ND2), (sget_perm _ _ ND1 P'). reflexivity. }
    exists m, kvs', c. rewrite E. split; [exact U|]. split; [reflexivity|]. split; [|auto].
    rewrite Forall_forall in K |- *. intros kj I. apply K. eapply Permutation_in; [apply Permutation_sym; exact P'|exact I].
  - intros N. apply inject_no_panic. intros U. apply N. unfold unmarshal_map in U. destruct (parse (pg_bytes orig)) as [j|]; [|discriminate].
    unfold decode_map in U. destruct j as [| | | | |l]; try discriminate; [reflexivity|]. destruct (norm (JObj l)) as [[]|]; discriminate.
Qed.
(** Nor does the order in which the capabilities are visited. *)
Lemma selected_perm caps caps' args : Permutation caps caps' -> Permutation (selected_caps caps args) (selected_caps caps' args).
Proof. intros P. unfold selected_caps. now apply Permutation_flat_map. Qed.
Lemma selected_keys caps args k : In k (map fst (selected_caps caps args)) -> In k (map fst caps).
Proof.
  unfold selected_caps. rewrite !in_map_iff. intros ([k' j] & E & I). cbn [fst] in E. subst k'. apply in_flat_map in I as ([k' b] & I & X). cbn [fst snd] in X.
  destruct b; [|destruct X]. destruct (sget k' args); [|destruct X]. destruct X as [X|[]]. injection X as -> _. exists (k, true). auto.
Qed.
Lemma selected_nodup caps args : NoDup (map fst caps) -> NoDup (map fst (selected_caps caps args)).
Proof.
  induction caps as [|[k b] caps IH]; intros ND; [constructor|]. cbn [map fst] in ND. apply NoDup_cons_iff in ND as [N ND]. unfold selected_caps. cbn [flat_map fst snd].
  fold (selected_caps caps args). destruct b; [|now apply IH]. destruct (sget k args); [|now apply IH]. cbn [app map fst]. constructor; [|now apply IH].
  intros H. apply N. eapply selected_keys; eassumption.
Qed.
Theorem C12_any_order : forall bytes conf conf' rt, NoDup (map fst (pc_caps conf)) -> Permutation (pc_caps conf) (pc_caps conf') ->
  rmap pg_bytes (inject_runtime_config {| pg_conf := conf; pg_bytes := bytes |} rt) =
  rmap pg_bytes (inject_runtime_config {| pg_conf := conf'; pg_bytes := bytes |} rt).
Proof.
  intros bytes conf conf' rt ND P. unfold inject_runtime_config. cbn [pg_conf].
  pose proof (selected_perm _ _ (rt_caps rt) P) as Q. pose proof (selected_nodup _ (rt_caps rt) ND) as N1.
  assert (N2 : NoDup (map fst (selected_caps (pc_caps conf') (rt_caps rt)))) by (eapply Permutation_NoDup; [apply Permutation_map; exact Q|exact N1]).
  assert (E : enc_map (selected_caps (pc_caps conf) (rt_caps rt)) = enc_map (selected_caps (pc_caps conf') (rt_caps rt))).
  { unfold enc_map. f_equal. apply ssorted_ext; [now apply sset_all_sorted|now apply sset_all_sorted|]. intros k. rewrite !sget_sset_all.
    rewrite (last_get_nodup _ _ N1), (last_get_nodup _ _ N2), (sget_perm _ _ N1 Q). reflexivity. }
  destruct (selected_caps (pc_caps conf) (rt_caps rt)) as [|x l] eqn:S1; destruct (selected_caps (pc_caps conf') (rt_caps rt)) as [|x' l'] eqn:S2.
  - reflexivity.
  - apply Permutation_nil in Q. discriminate.
  - apply Permutation_sym, Permutation_nil in Q. discriminate.
  - unfold inject_conf, marshal_map. cbn [pg_bytes]. now rewrite E.
Qed.
Example C54_any_order_nonvacuous : NoDup (map fst [("b", GVal (Some JNull)); ("a", GVal (Some (JStr "x")))]) /\
  Permutation [("b", GVal (Some JNull)); ("a", GVal (Some (JStr "x")))] [("a", GVal (Some (JStr "x"))); ("b", GVal (Some JNull))] /\
  exists new, inject_conf (C_conf "{""type"":""t"",""a"":1}") [("b", GVal (Some JNull)); ("a", GVal (Some (JStr "x")))] = Ok new.
Proof.
  split; [cbn; apply NoDup_cons; [intros [H|[]]; discriminate|]; apply NoDup_cons; [intros []|apply NoDup_nil]|]. split; [apply perm_swap|]. eexists. vm_compute. reflexivity.
Qed.
Example C54_nonvacuous : exists new, inject_conf (C_conf "{""type"":""t"",""a"":1}") (as_values [("a", JStr "x"); ("b", JNull)]) = Ok new /\
  pg_bytes new = "{""a"":""x"",""b"":null,""type"":""t""}".
Proof. eexists. (split; [vm_compute; reflexivity|vm_compute; reflexivity]). Qed.

Print Assumptions C11_request_document.
Print Assumptions C10_integers_reach_the_plugin.
Print Assumptions C12_runtime_config_exact.
Print Assumptions C13_plugin_sees_the_name.
Print Assumptions C13_plugin_sees_the_version_partial.
Print Assumptions C13_version_seen_exactly.
Print Assumptions C50_accepts_exactly.
Print Assumptions C50_contents.
Print Assumptions C51_folder_plugins_follow.
Print Assumptions C52_first_match.
Print Assumptions C52_not_found.
Print Assumptions C52_broken_list.
Print Assumptions C52_broken_conf.
Print Assumptions C53_upconversion.
Print Assumptions C53_upconversion_succeeds.
Print Assumptions C54_any_order.
Print Assumptions C12_any_order.
Print Assumptions C54_effect.
Print Assumptions C54_succeeds_exactly.
Print Assumptions C54_twice_is_union.
