(** Encoding a plugin configuration (C64). *)
From Coq Require Import String Ascii List Arith NArith ZArith Bool Lia.
From Verif Require Import Model.GoStr Model.Errors Model.Json Model.Num Model.GoJson Model.NetIP Model.Types Model.Conf Model.Skel
  Spec.NameSpec Spec.JsonSpec Spec.TypesSpec Spec.ConfSpec Spec.MarshalSpec Proofs.StrP Proofs.JsonP Proofs.JsonRT Proofs.NumP Proofs.NetIPP
  Proofs.GoJsonP Proofs.ConfP Proofs.TypesP Proofs.DecodeP.
Import ListNotations.
Open Scope nat_scope.
Open Scope string_scope.

Definition jcaps (m : smap bool) : list (string * json) := map (fun kv => (fst kv, JBool (snd kv))) m.
Definition ocaps (m : smap bool) : option json := match m with [] => None | _ => Some (JObj (sset_all (jcaps m) [])) end.
Definition oprev (p : option (smap json)) : option json := match p with Some (kv :: m) => Some (JObj (sset_all (kv :: m) [])) | _ => None end.
Definition ipam_obj (t : string) : json := JObj (present [("type", ostr t)]).
Definition conf_fields (c : plugin_conf) : fields :=
  [("cniVersion", ostr (pc_version c)); ("name", ostr (pc_name c)); ("type", ostr (pc_type c)); ("capabilities", ocaps (pc_caps c));
   ("ipam", Some (ipam_obj (pc_ipam c))); ("dns", Some (enc_dns (pc_dns c))); ("prevResult", oprev (pc_prev c));
   ("cni.dev/valid-attachments", oarr (map enc_valid (pc_valid c)))].
Lemma plain_present c : enc_plugin_conf_plain c = JObj (present (conf_fields c)).
Proof.
  unfold enc_plugin_conf_plain, conf_fields. rewrite !fld_str_present, fld_arr_present.
  replace (match pc_caps c with [] => [] | m => [("capabilities", JObj (sset_all (map (fun kv => (fst kv, JBool (snd kv))) m) []))] end)
    with (present [("capabilities", ocaps (pc_caps c))]) by (destruct (pc_caps c); reflexivity).
  replace (match pc_prev c with Some (kv :: m) => [("prevResult", JObj (sset_all (kv :: m) []))] | _ => [] end)
    with (present [("prevResult", oprev (pc_prev c))]) by (destruct (pc_prev c) as [[|]|]; reflexivity).
  change [("ipam", JObj (present [("type", ostr (pc_ipam c))])); ("dns", enc_dns (pc_dns c))]
    with (present [("ipam", Some (ipam_obj (pc_ipam c))); ("dns", Some (enc_dns (pc_dns c)))]).
  rewrite <- !present_app. reflexivity.
Qed.
Definition conf_sorted (c : plugin_conf) (dj : option json) : fields :=
  [("capabilities", ocaps (pc_caps c)); ("cni.dev/valid-attachments", oarr (map enc_valid (pc_valid c))); ("cniVersion", ostr (pc_version c));
   ("dns", dj); ("ipam", Some (ipam_obj (pc_ipam c))); ("name", ostr (pc_name c)); ("prevResult", oprev (pc_prev c)); ("type", ostr (pc_type c))].

Lemma lb_jcaps k m : lb k m -> lb k (jcaps m).
Proof. destruct m as [|[k' b] m]; [exact (fun _ => I)|exact (fun h => h)]. Qed.
Lemma jcaps_sorted m : ssorted m -> ssorted (jcaps m).
Proof.
  induction m as [|[k b] m IH]; intros S; [exact I|]. apply ssorted_cons in S as [L S]. cbn [jcaps map fst snd]. apply ssorted_cons.
  split; [now apply lb_jcaps|now apply IH].
Qed.
Lemma ocaps_eq m : ssorted m -> ocaps m = match m with [] => None | _ => Some (JObj (jcaps m)) end.
Proof. intros S. unfold ocaps. destruct m as [|kv m]; [reflexivity|]. now rewrite (sset_all_id _ (jcaps_sorted _ S)). Qed.
Lemma keeps_caps m : ssorted m -> keeps (ocaps m).
Proof.
  intros S. rewrite (ocaps_eq _ S). destruct m as [|kv m]; [exact I|]. cbn [keeps wf_opt]. apply canonical_norm. apply canonical_obj.
  split; [now apply jcaps_sorted|]. apply Forall_map. apply Forall_forall. intros x _. reflexivity.
Qed.
Lemma keeps_valid l : keeps (oarr (map enc_valid l)).
Proof.
  destruct l as [|a l]; [exact I|]. cbn [keeps wf_opt oarr map]. rewrite norm_arr.
  assert (E : norm_all (map enc_valid (a :: l)) = Some (map enc_valid (a :: l))).
  { induction (a :: l) as [|x xs IH]; [reflexivity|]. cbn [map norm_all]. rewrite IH. reflexivity. }
  cbn [map] in E. now rewrite E.
Qed.
Lemma keeps_ipam t : keeps (Some (ipam_obj t)).
Proof. cbn [keeps wf_opt]. unfold ipam_obj, ostr. destruct (String.eqb t ""); reflexivity. Qed.
Definition prev_fine (p : option (smap json)) : Prop :=
  match p with None => True | Some m => m <> [] /\ reencoded (JObj m) (JObj m) /\ jwf (JObj m) /\ (jdepth (JObj m) <= 9999)%N end.
Lemma reenc_sorted m : reencoded (JObj m) (JObj m) -> ssorted m /\ sset_all m [] = m.
Proof. intros R. apply norm_canonical in R. apply canonical_obj in R as [S _]. split; [exact S|now apply sset_all_id]. Qed.
Lemma oprev_eq p : prev_fine p -> oprev p = option_map JObj p.
Proof.
  destruct p as [[|kv m]|]; [intros (N & _); easy| |reflexivity]. intros (_ & R & _). apply reenc_sorted in R as [_ E]. cbn [oprev option_map]. now rewrite E.
Qed.
Lemma dec_caps_back m : ssorted m -> dec_map_bool [] (JObj (jcaps m)) = Some m.
Proof.
  intros S. cbn [dec_map_bool]. transitivity (Some (sset_all m [])); [|now rewrite sset_all_id].
  generalize (@nil (string * bool)). clear S. induction m as [|[k b] m IH]; intros acc; [reflexivity|]. cbn [jcaps map fst snd]. rewrite decode_members_cons.
  cbn [dec_bool]. apply IH.
Qed.
Lemma dec_prev_back m : reencoded (JObj m) (JObj m) -> dec_map_any None (JObj m) = Some (Some m).
Proof.
  intros R. pose proof (norm_canonical _ _ R) as C. apply canonical_obj in C as [S F]. cbn [dec_map_any].
  assert (E : forall acc, decode_members (fun m k v => match norm v with Some v' => Some (sset k v' m) | None => None end) acc m = Some (sset_all m acc)).
  { clear R S. induction m as [|[k v] m IH]; intros acc; [reflexivity|]. apply Forall_cons_iff in F as [V F]. rewrite decode_members_cons. cbn [snd] in V.
    rewrite (canonical_norm _ V). now apply IH. }
  rewrite E. cbn [option_map]. now rewrite sset_all_id.
Qed.
Lemma dec_valid_back l : dec_list dec_gc_attachment (JArr (map enc_valid l)) = Some l.
Proof.
  cbn [dec_list]. induction l as [|a l IH]; [reflexivity|]. cbn [map dec_all]. rewrite IH. destruct a as [x y]. reflexivity.
Qed.
Lemma dec_ipam_back t : dec_ipam "" (ipam_obj t) = Some t.
Proof. unfold ipam_obj, ostr. destruct (String.eqb_spec t "") as [->|N]; reflexivity. Qed.
Ltac projc := cbn [pc_version pc_name pc_type pc_caps pc_ipam pc_dns pc_prev pc_valid option_map dec_string].
Ltac keyedp := unfold plugin_conf_step; keyed; projc.

Lemma marshal_ok c : carried_conf c -> exists j, marshal_plugin_conf c = Some j /\ encodable j /\ canonical j /\ dec_plugin_conf j = Some c /\
  exists dj, j = JObj (present (conf_sorted c (if dns_is_empty (pc_dns c) then None else Some dj))).
Proof.
  intros (V & N & T & IP & WD & CS & CK & VA & PV).
  destruct (dns_nrm (pc_dns c)) as (dj & ND & OD & RD). destruct (dns_raw _ WD) as (_ & JD & DD & _).
  assert (NN : norm (JObj (present (conf_fields c))) = Some (JObj (present (conf_sorted c (Some dj))))).
  { set (fs' := [("cniVersion", ostr (pc_version c)); ("name", ostr (pc_name c)); ("type", ostr (pc_type c)); ("capabilities", ocaps (pc_caps c));
     ("ipam", Some (ipam_obj (pc_ipam c))); ("dns", Some dj); ("prevResult", oprev (pc_prev c)); ("cni.dev/valid-attachments", oarr (map enc_valid (pc_valid c)))]).
    change (conf_sorted c (Some dj)) with (sset_all fs' []). apply norm_present; [|unfold conf_fields; nodup_keys]. unfold conf_fields, fs'.
    repeat apply Forall2_cons; try apply Forall2_nil; try (apply keep_nrm; auto using keeps_str, keeps_caps, keeps_ipam, keeps_valid).
    - split; [reflexivity|exact ND].
    - rewrite (oprev_eq _ PV). destruct (pc_prev c) as [m|]; [|exact I]. cbn [option_map keeps wf_opt]. now destruct PV as (_ & R & _). }
  assert (JC : wf_opt jwf (ocaps (pc_caps c)) /\ wf_opt (fun v => jdepth v <= 9999)%N (ocaps (pc_caps c))).
  { rewrite (ocaps_eq _ CS). destruct (pc_caps c) as [|kv m]; [now split|]. cbn [wf_opt]. split.
    - apply jwf_obj. unfold jcaps. apply Forall_map. eapply Forall_impl; [|exact CK]. intros x W. split; [exact W|exact I].
    - change 9999%N with (N.succ 9998). apply jdepth_obj. unfold jcaps. apply Forall_map. apply Forall_forall. intros x _. cbn [snd jdepth]. lia. }
  assert (JV : wf_opt jwf (oarr (map enc_valid (pc_valid c))) /\ wf_opt (fun v => jdepth v <= 9999)%N (oarr (map enc_valid (pc_valid c)))).
  { split.
    - apply arr_jwf. apply Forall_map. eapply Forall_impl; [|exact VA]. intros a (A & B). unfold enc_valid. apply jwf_obj.
      repeat apply Forall_cons; try apply Forall_nil; (split; [apply ascii_wft; reflexivity|assumption]).
    - change 9999%N with (N.succ 9998). apply arr_depth. apply Forall_map. apply Forall_forall. intros a _. unfold enc_valid. cbn. lia. }
  assert (JI : jwf (ipam_obj (pc_ipam c)) /\ (jdepth (ipam_obj (pc_ipam c)) <= 9999)%N).
  { unfold ipam_obj. split; [apply jwf_present; repeat constructor; cbn [fst snd]; [apply ascii_wft; reflexivity|apply fine_jwf; now apply fine_str]|].
    unfold ostr. destruct (String.eqb (pc_ipam c) ""); cbn; lia. }
  assert (JP : wf_opt jwf (oprev (pc_prev c)) /\ wf_opt (fun v => jdepth v <= 9999)%N (oprev (pc_prev c))).
  { rewrite (oprev_eq _ PV). destruct (pc_prev c) as [m|]; [|now split]. destruct PV as (_ & _ & A & B). now split. }
  assert (EN : encodable (JObj (present (conf_fields c)))).
  { split.
    - apply jwf_present. unfold conf_fields. destruct JC, JV, JI, JP.
      repeat apply Forall_cons; try apply Forall_nil; (split; [apply ascii_wft; reflexivity|cbn [snd wf_opt]]); auto using fine_jwf, fine_str.
    - change 10000%N with (N.succ 9999). apply jdepth_present. unfold conf_fields. destruct JC, JV, JI, JP.
      repeat apply Forall_cons; try apply Forall_nil; cbn [snd wf_opt]; auto; try (apply fine_depth; [now apply fine_str|easy]).
      eapply depth_le; [exact DD|easy]. }
  assert (U : unmarshal_map (print (JObj (present (conf_fields c)))) = Some (Some (present (conf_sorted c (Some dj))))).
  { apply unmarshal_map_some. eexists. split; [now apply parse_print|]. split; [reflexivity|exact NN]. }
  pose proof (norm_enc _ _ NN EN) as EN'. pose proof (norm_canonical _ _ NN) as CN.
  set (od := if dns_is_empty (pc_dns c) then None else Some dj).
  assert (SD : (if dns_is_empty (pc_dns c) then sdel "dns" (present (conf_sorted c (Some dj))) else present (conf_sorted c (Some dj))) = present (conf_sorted c od)).
  { unfold od. destruct (dns_is_empty (pc_dns c)); [|reflexivity]. unfold conf_sorted. 
    destruct (ocaps (pc_caps c)), (oarr (map enc_valid (pc_valid c))), (ostr (pc_version c)), (ostr (pc_name c)), (oprev (pc_prev c)), (ostr (pc_type c)); reflexivity. }
  exists (JObj (present (conf_sorted c od))). split; [|split; [|split; [|split]]].
  - unfold marshal_plugin_conf. rewrite plain_present, U. unfold obind. cbv zeta iota beta. do 2 f_equal. exact SD.
  - rewrite <- SD. destruct (dns_is_empty (pc_dns c)); [|exact EN']. destruct EN' as [J' D']. split.
    + apply jwf_obj. apply jwf_obj in J'. now apply Forall_filter_incl.
    + change 10000%N with (N.succ 9999) in *. apply jdepth_obj. apply jdepth_obj in D'. now apply Forall_filter_incl.
  - rewrite <- SD. destruct (dns_is_empty (pc_dns c)); [|exact CN]. apply canonical_obj in CN as [S F]. apply canonical_obj.
    split; [now apply sdel_sorted|now apply Forall_filter_incl].
  - clear - RD CS PV. destruct c as [v n t caps ip d prev va]. cbn [pc_version pc_name pc_type pc_caps pc_ipam pc_dns pc_prev pc_valid] in *. subst od.
    unfold dec_plugin_conf, decode_struct, plugin_conf_zero, conf_sorted. projc.
    transitivity (decode_members plugin_conf_step {| pc_version := ""; pc_name := ""; pc_type := ""; pc_caps := caps; pc_ipam := ""; pc_dns := dns_zero; pc_prev := None; pc_valid := [] |}
       (present [("cni.dev/valid-attachments", oarr (map enc_valid va)); ("cniVersion", ostr v); ("dns", if dns_is_empty d then None else Some dj); ("ipam", Some (ipam_obj ip));
          ("name", ostr n); ("prevResult", oprev prev); ("type", ostr t)])).
    { rewrite (ocaps_eq _ CS). destruct caps as [|kv m]; [apply fold_none|]. apply fold_req. keyedp. now rewrite (dec_caps_back _ CS). }
    eapply eq_trans; [eapply fold_arr; [keyedp; rewrite dec_valid_back; projc; reflexivity|intros Z%map_eq_nil; subst; reflexivity]|].
    eapply eq_trans; [eapply fold_str; [keyedp; reflexivity|intros ->; reflexivity]|].
    transitivity (decode_members plugin_conf_step {| pc_version := v; pc_name := ""; pc_type := ""; pc_caps := caps; pc_ipam := ""; pc_dns := d; pc_prev := None; pc_valid := va |}
       (present [("ipam", Some (ipam_obj ip)); ("name", ostr n); ("prevResult", oprev prev); ("type", ostr t)])).
    { destruct (dns_is_empty d) eqn:DE; [apply dns_empty in DE; subst d; apply fold_none|]. apply fold_req. keyedp. now rewrite RD. }
    eapply eq_trans; [eapply fold_req; keyedp; rewrite dec_ipam_back; projc; reflexivity|].
    eapply eq_trans; [eapply fold_str; [keyedp; reflexivity|intros ->; reflexivity]|].
    transitivity (decode_members plugin_conf_step {| pc_version := v; pc_name := n; pc_type := ""; pc_caps := caps; pc_ipam := ip; pc_dns := d; pc_prev := prev; pc_valid := va |}
       (present [("type", ostr t)])).
    { rewrite (oprev_eq _ PV). destruct prev as [m|]; cbn [option_map]; [|apply fold_none]. apply fold_req. keyedp. destruct PV as (_ & R & _). now rewrite (dec_prev_back _ R). }
    eapply eq_trans; [eapply fold_str; [keyedp; reflexivity|intros ->; reflexivity]|]. now apply fold_end.
  - exists dj. reflexivity.
Qed.

(** *** What decoding a document yields *)
Definition fits (v : json) : Prop := jwf v /\ (jdepth v <= 9999)%N.
Definition drop_prev (c : plugin_conf) : plugin_conf :=
  {| pc_version := pc_version c; pc_name := pc_name c; pc_type := pc_type c; pc_caps := pc_caps c;
     pc_ipam := pc_ipam c; pc_dns := pc_dns c; pc_prev := match pc_prev c with Some [] => None | p => p end; pc_valid := pc_valid c |}.
Lemma marshal_drop c : marshal_plugin_conf (drop_prev c) = marshal_plugin_conf c.
Proof. destruct c as [v n t caps ip d [[|]|] va]; reflexivity. Qed.
Definition prev_held (p : option (smap json)) : Prop :=
  match p with None => True | Some m => canonical (JObj m) /\ jwf (JObj m) /\ (jdepth (JObj m) <= 9999)%N end.
Definition held_conf (c : plugin_conf) : Prop :=
  well_formed_text (pc_version c) /\ well_formed_text (pc_name c) /\ well_formed_text (pc_type c) /\
  well_formed_text (pc_ipam c) /\ wf_dns (pc_dns c) /\
  (ssorted (pc_caps c) /\ Forall (fun kv => well_formed_text (fst kv)) (pc_caps c)) /\
  Forall (fun a => well_formed_text (ga_container a) /\ well_formed_text (ga_ifname a)) (pc_valid c) /\ prev_held (pc_prev c).
Lemma held_carried c : held_conf c -> carried_conf (drop_prev c).
Proof.
  intros (V & N & T & I & D & (S & K) & VA & P). unfold carried_conf, drop_prev. cbn [pc_version pc_name pc_type pc_caps pc_ipam pc_dns pc_prev pc_valid].
  repeat (split; [assumption|]). destruct (pc_prev c) as [[|kv m]|]; [exact Logic.I| |exact Logic.I].
  destruct P as (C & J & L). split; [easy|]. split; [|now split]. now apply canonical_norm.
Qed.
Lemma held_zero : held_conf plugin_conf_zero.
Proof.
  unfold held_conf, plugin_conf_zero. cbn [pc_version pc_name pc_type pc_caps pc_ipam pc_dns pc_prev pc_valid].
  do 4 (split; [constructor|]). split; [apply wf_dns_zero|]. split; [split; [exact I|constructor]|]. split; [constructor|exact I].
Qed.
Lemma dec_caps_held cur v m : dec_map_bool cur v = Some m -> jwf v -> ssorted cur /\ Forall (fun kv => well_formed_text (fst kv)) cur ->
  ssorted m /\ Forall (fun kv => well_formed_text (fst kv)) m.
Proof.
  intros D J H. destruct v; try discriminate; [injection D as <-; split; constructor|]. cbn [dec_map_bool] in D. apply jwf_obj in J.
  revert cur H D. induction J as [|[k v] l [K _] _ IH]; intros cur H D; [injection D as <-; exact H|]. rewrite decode_members_cons in D.
  destruct (dec_bool false v) as [b|]; [|discriminate]. eapply IH; [|exact D]. destruct H as [S F]. split; [now apply sset_sorted|]. now apply Forall_sset.
Qed.
Lemma dec_prev_held cur v p : dec_map_any cur v = Some p -> fits v -> prev_held cur -> prev_held p.
Proof.
  intros D [J L] H. destruct v; try discriminate; [injection D as <-; exact I|]. cbn [dec_map_any] in D. apply omap_some in D as (m & D & ->).
  apply jwf_obj in J. change 9999%N with (N.succ 9998) in L. apply jdepth_obj in L.
  assert (Z : prev_held (Some (match cur with Some m => m | None => [] end))).
  { destruct cur as [m0|]; [exact H|]. cbn [prev_held]. split; [apply canonical_obj; split; constructor|]. split; [exact Logic.I|cbn; lia]. }
  clear H. revert Z D. generalize (match cur with Some m => m | None => [] end). clear cur.
  induction l as [|[k v] l IH]; intros m0 Z D; [injection D as <-; exact Z|]. rewrite decode_members_cons in D.
  apply Forall_cons_iff in J as [[JK JV] J]. apply Forall_cons_iff in L as [LV L]. cbn [fst snd] in *.
  destruct (norm v) as [v'|] eqn:NV; [|discriminate]. apply (IH J L) in D; [exact D|]. destruct Z as (C & ZJ & ZL).
  pose proof (norm_encodable _ _ NV JV) as [J' L']. apply canonical_obj in C as [S F]. cbn [prev_held]. split; [|split].
  - apply canonical_obj. split; [now apply sset_sorted|]. apply Forall_sset; [|exact F]. cbn [snd]. now apply norm_canonical in NV.
  - apply jwf_obj. apply Forall_sset; [now split|]. now apply jwf_obj.
  - change 9999%N with (N.succ 9998) in *. apply jdepth_obj. apply Forall_sset; [cbn [snd]; lia|]. now apply jdepth_obj.
Qed.
Lemma dec_attachment_held v a : jwf v -> dec_gc_attachment v = Some a -> well_formed_text (ga_container a) /\ well_formed_text (ga_ifname a).
Proof.
  intros J D. unfold dec_gc_attachment in D. refine (decode_inv (fun a => well_formed_text (ga_container a) /\ well_formed_text (ga_ifname a)) _ _ _ _ _ J _ D); [split; constructor|].
  intros x k w x' (A & B) W E. step_cases E; cbn [ga_container ga_ifname]; split; eauto using dec_string_wf.
Qed.
Lemma dec_ipam_wf cur v t : dec_ipam cur v = Some t -> jwf v -> well_formed_text cur -> well_formed_text t.
Proof.
  intros D J W. unfold dec_ipam in D. refine (decode_inv _ _ _ _ _ W J _ D). intros a k w a' A WJ E. destruct (key_is "type" k); [eauto using dec_string_wf|]. now injection E as <-.
Qed.
Lemma dec_held j c : encodable j -> dec_plugin_conf j = Some c -> held_conf c.
Proof.
  intros [J L] D. destruct j; try discriminate; [injection D as <-; apply held_zero|]. unfold dec_plugin_conf in D.
  refine (decode_inv_in _ _ _ _ _ held_zero _ D). apply jwf_obj in J. change 10000%N with (N.succ 9999) in L. apply jdepth_obj in L.
  rewrite Forall_forall in J, L. intros a k v a' IN (V & N & T & IP & DN & CA & VA & P) E. specialize (J _ IN). specialize (L _ IN). cbn [fst snd] in J, L. destruct J as [_ JV].
  assert (CA' := CA). destruct CA' as [CS CK].
  unfold plugin_conf_step in E. step_cases E; unfold held_conf; cbn [pc_version pc_name pc_type pc_caps pc_ipam pc_dns pc_prev pc_valid];
    repeat (split; [solve [assumption | eauto using dec_string_wf, dec_ipam_wf, dec_dns_wf, dec_caps_held | eapply dec_list_wf; eauto using dec_attachment_held]|]);
    solve [assumption | eapply dec_prev_held; [eassumption|split; assumption|assumption]].
Qed.
