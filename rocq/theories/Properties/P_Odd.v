(** C78: attachments whose parameters are not UTF-8. *)
From Coq Require Import String Ascii List Bool Arith Lia NArith ZArith.
From Verif Require Import Model.GoStr Model.Errors Model.Version Model.Path Model.Json Model.GoJson Model.Args Model.Types Model.Conf Model.Invoke
  Model.Prog Model.Api
  Spec.VersionSpec Spec.NameSpec Spec.EnvSpec Spec.PathSpec Spec.JsonSpec Spec.ConfSpec Spec.TypesSpec Spec.RunSpec Spec.CacheSpec Spec.HistSpec Spec.MapSpec Spec.OddSpec
  Proofs.StrP Proofs.Utf8P Proofs.EnvP Proofs.PathP Proofs.JsonP Proofs.JsonRT Proofs.GoJsonP Proofs.Base64P Proofs.ConfP Proofs.ProgP Proofs.ApiP Proofs.CacheP Proofs.VerbP Proofs.ConfineP Proofs.EntryP Proofs.HistP Proofs.ListP Proofs.TypesP
  Properties.P_Json Properties.P_Api Properties.P_Cache.
Import ListNotations.
Open Scope nat_scope.
Open Scope string_scope.

Lemma mended_text_wft s t : mended_text s t -> well_formed_text t.
Proof. intros M. destruct (C08_any_string s) as (u & M' & U & W & _). rewrite (U t M). exact W. Qed.
Lemma mended_text_empty s t : mended_text s t -> (s = "" <-> t = "").
Proof.
  intros (rs & R & ->). destruct R as [|r s rs Hr R|c s rs Hb R]; cbn [fold_right].
  - split; auto.
  - split; intros E; apply append_eq_nil in E as [E _]; now apply utf8_nonempty in E.
  - split; [discriminate|]. intros E. apply append_eq_nil in E as [E _]. discriminate.
Qed.
(** Every runtime configuration has exactly one such form, itself if its texts are UTF-8. *)
Theorem C78_mended_exists : forall rt, exists rt', mended_rt rt rt' /\ forall rt2, mended_rt rt rt2 -> rt2 = rt'.
Proof.
  intros [cid ns ifn args caps dir]. destruct (mended_text_total cid) as (cid' & M1). destruct (mended_text_total ifn) as (ifn' & M2). destruct (mended_text_total ns) as (ns' & M3).
  assert (A : exists args', Forall2 (fun a b => mended_text (fst a) (fst b) /\ mended_text (snd a) (snd b)) args args').
  { induction args as [|[k v] args (l & IH)]; [exists []; constructor|]. destruct (mended_text_total k) as (k' & K). destruct (mended_text_total v) as (v' & V).
    exists ((k', v') :: l). constructor; [split; [exact K|exact V]|exact IH]. }
  destruct A as (args' & M4). exists {| rt_container := cid'; rt_netns := ns'; rt_ifname := ifn'; rt_args := args'; rt_caps := caps; rt_cache_dir := dir |}.
  split; [now repeat (split; [assumption || reflexivity|])|].
  intros [c2 n2 i2 a2 k2 d2] (A1 & A2 & A3 & A4 & A5 & A6). cbn in *. subst k2 d2.
  rewrite (mended_text_fun _ _ _ A1 M1), (mended_text_fun _ _ _ A2 M2), (mended_text_fun _ _ _ A3 M3). f_equal.
  clear - M4 A4. revert a2 A4. induction M4 as [|[k v] [k' v'] l l' [K V] M IH]; intros a2 A4; inversion A4 as [|? [k2 v2] ? l2 [K2 V2] M2]; subst; [reflexivity|].
  cbn [fst snd] in *. rewrite (mended_text_fun _ _ _ K2 K), (mended_text_fun _ _ _ V2 V). f_equal. now apply IH.
Qed.
Theorem C78_utf8_unchanged : forall name rt rt', texts_ok name rt -> mended_rt rt rt' -> rt' = rt.
Proof.
  intros name rt rt' (_ & T2 & T3 & T4 & T5) M. destruct (C78_mended_exists rt) as (x & _ & U). rewrite (U rt' M). symmetry. apply U.
  split; [now apply mended_text_wf|]. split; [now apply mended_text_wf|]. split; [now apply mended_text_wf|]. split; [|now split].
  induction T5 as [|kv l [A B] T IH]; constructor; [|exact IH]. split; now apply mended_text_wf.
Qed.
Lemma mended_ok name name' rt rt' : mended_text name name' -> mended_rt rt rt' -> texts_ok name' rt'.
Proof.
  intros N (M1 & M2 & M3 & M4 & _). split; [now apply (mended_text_wft name)|]. split; [now apply (mended_text_wft _ _ M1)|]. split; [now apply (mended_text_wft _ _ M2)|].
  split; [now apply (mended_text_wft _ _ M3)|]. induction M4 as [|a b l l' [A B] M IH]; constructor; [|exact IH]. split; eapply mended_text_wft; eassumption.
Qed.
Lemma good_mended n n' : good_name n -> mended_text n n' -> n' = n.
Proof.
  intros (c & rest & -> & A & R) M. apply (mended_text_fun (String c rest)); [exact M|]. apply mended_text_wf. apply ascii_wf.
  assert (L : forall x, name_char x -> (N_of_ascii x < 128)%N).
  { intros x [[X|[X|X]]|[->|[->| ->]]]; unfold byte in *; try reflexivity; lia. }
  assert (alnum c -> name_char c) by (now left).
  assert (B : all_bytes name_char (String c rest)) by (constructor; auto). revert B. clear - L. generalize (String c rest). intros s B.
  induction B as [|x s X B IH]; [reflexivity|]. cbn. apply L in X. apply N.ltb_lt in X. unfold code. rewrite X. exact IH.
Qed.

(** The document of an entry reads as the document of the mended parameters. *)
Definition mended_saved (s s' : saved) : Prop :=
  sv_result s' = sv_result s /\ sv_config s' = sv_config s /\ mended_text (sv_name s) (sv_name s') /\ mended_rt (sv_rt s) (sv_rt s').
Lemma Forall2_app' {A B} (R : A -> B -> Prop) a b c d : Forall2 R a b -> Forall2 R c d -> Forall2 R (a ++ c)%list (b ++ d)%list.
Proof. induction 1; [auto|constructor; auto]. Qed.
Definition member_mended (a b : string * json) : Prop := mended_text (fst a) (fst b) /\ mended (snd a) (snd b).
Lemma member_text k s t : well_formed_text k -> mended_text s t -> member_mended (k, JStr s) (k, JStr t).
Proof. intros K M. split; [now apply mended_text_wf|now constructor]. Qed.
Lemma member_same (l : list (string * json)) : jwf (JObj l) -> Forall2 member_mended l l.
Proof. intros W. apply mended_refl in W. inversion W; subst. assumption. Qed.
Lemma stored_mended s s' data m : stored s data -> from_plugin (sv_result s) -> mended_saved s s' -> caps_as (sv_rt s) m ->
  exists data', stored s' data' /\ unmarshal_cached_info data = unmarshal_cached_info data'.
Proof.
  intros ST FP (E1 & E2 & M0 & MR) CM. pose proof MR as (M1 & M2 & M3 & M4 & E3 & E4). destruct (stored_raw s data ST FP) as (raw & -> & SO & WR & _).
  exists (print (enc_cached_info (info_of s' raw))). split; [now apply SO|].
  pose proof (mended_ok _ _ _ _ M0 MR) as (T1 & T2 & T3 & T4 & T5).
  assert (CM' : caps_as (sv_rt s') m) by (unfold caps_as in *; now rewrite E3).
  destruct (cached_info_rt cni_cache_v1 (rt_container (sv_rt s')) (sv_config s') (rt_ifname (sv_rt s')) (sv_name s') (rt_netns (sv_rt s'))
     (rt_args (sv_rt s')) (rt_caps (sv_rt s')) raw m) as [EN _]; auto.
  { apply ascii_wf. reflexivity. }
  { exact (caps_enc _ _ CM'). }
  { apply CM'. }
  fold (info_of s' raw) in EN.
  assert (MM : mended (enc_cached_info (info_of s raw)) (enc_cached_info (info_of s' raw))).
  { destruct EN as [W _]. revert W. unfold enc_cached_info, info_of. cbn [ci_kind ci_container ci_config ci_ifname ci_network ci_netns ci_args ci_caps ci_result].
    intros W. constructor. rewrite E3, E2 in *. apply jwf_obj in W. repeat rewrite Forall_app in W. destruct W as (_ & _ & _ & W4 & W5).
    apply Forall2_app'; [|apply Forall2_app'; [|apply Forall2_app'; [|apply Forall2_app']]].
    - repeat (apply Forall2_cons; [apply member_text; [apply ascii_wf; reflexivity|first [assumption|apply mended_text_wf, ascii_wf; first [reflexivity|apply b64_ascii]]]|]). constructor.
    - unfold fld_str, omit_if. destruct (mended_text_empty _ _ M3) as [Z1 Z2].
      destruct (String.eqb_spec (rt_netns (sv_rt s)) "") as [Y|Y]; destruct (String.eqb_spec (rt_netns (sv_rt s')) "") as [Y'|Y']; try tauto; [constructor|].
      constructor; [|constructor]. apply member_text; [apply ascii_wf; reflexivity|exact M3].
    - clear - M4. inversion M4 as [|a b l l' H M Q Q']; [constructor|]. constructor; [|constructor]. split; [apply mended_text_wf, ascii_wf; reflexivity|].
      cbn [snd]. rewrite Q, Q'. clear - M4. unfold enc_args. constructor. induction M4 as [|a b l l' [A B] M IH]; [constructor|]. cbn [map]. constructor; [|exact IH].
      constructor. constructor; [now constructor|]. constructor; [now constructor|constructor].
    - apply member_same, jwf_obj. exact W4.
    - apply member_same, jwf_obj. exact W5. }
  assert (D : forall a b, mended a b -> jdepth a = jdepth b).
  { clear. fix REC 3. intros a b M. destruct M as [|b|l N|s t N|l m M|l m M]; try reflexivity; cbn [jdepth]; f_equal.
    - induction M as [|x y l m X M IH]; [reflexivity|]. cbn [fold_right]. now rewrite IH, (REC _ _ X).
    - induction M as [|x y l m [_ X] M IH]; [reflexivity|]. cbn [fold_right]. now rewrite IH, (REC _ _ X). }
  unfold unmarshal_cached_info.
  rewrite (proj1 (C08_any_text _ _ MM ltac:(rewrite (D _ _ MM); apply EN))), parse_print by exact EN. reflexivity.
Qed.

(** The cached result of an attachment is found, whatever bytes its parameters have. *)
Theorem C78_result_found : forall fl fl' c l rt w tr w1 r m l' rt' tr' w2 v,
  runs fl (add_network_list c l rt) w tr w1 (Ok (Some r)) -> caps_as rt m -> wf_result exact prefix_form r ->
  nl_name l' = nl_name l -> same_entry c rt rt' ->
  runs fl' (get_network_list_cached_result c l' rt') w1 tr' w2 v ->
  w2 = w1 /\ (v = presented (nl_version l') r \/ (fl' = true /\ v = Ok None)).
Proof.
  intros fl fl' c l rt w tr w1 r m l' rt' tr' w2 v A CM W NL SE Q. apply saves_list in A.
  destruct (add_saves _ _ _ _ _ _ _ _ A eq_refl) as (_ & NM & FP & (data & ST & G) & _).
  apply get_cached_inv in Q. destruct Q as (-> & _ & _ & Q). split; [reflexivity|]. destruct Q as [->|(F & _ & ->)]; [left|right; auto].
  rewrite NL. rewrite cached_in_named by (eapply same_entry_named; eassumption). rewrite (same_entry_path _ _ _ _ SE).
  cbn [sv_name sv_rt] in *. unfold place in G. cbn [sv_name sv_rt] in G. rewrite G.
  destruct (C78_mended_exists rt) as (rm & MR & _). destruct (mended_text_total (nl_name l)) as (nm & MN).
  destruct (stored_mended _ {| sv_result := Some r; sv_config := nl_bytes l; sv_name := nm; sv_rt := rm |} _ m ST FP) as (data' & ST' & U); [now split|exact CM|].
  assert (CM' : caps_as rm m) by (unfold caps_as in *; destruct MR as (_ & _ & _ & _ & E & _); now rewrite E).
  assert (C' : carried nm rm) by (split; [exact (mended_ok _ _ _ _ MN MR)|now exists m]).
  rewrite <- (stored_reads _ _ r (nl_version l') ST' C' FP eq_refl W). rewrite !reads_eq, U.
  destruct (stored_doc _ _ ST' C' FP) as (? & ? & ? & _ & _ & _ & U' & _). rewrite U'. cbn [ci_kind]. unfold cni_cache_v1. now rewrite String.eqb_refl.
Qed.
(** The cached configuration is found too, with the mended CNI arguments. *)
Theorem C78_configuration_found : forall fl fl' c l rt rtm w tr w1 r m l' rt' tr' w2 v,
  runs fl (add_network_list c l rt) w tr w1 (Ok r) -> caps_as rt m -> mended_rt rt rtm ->
  nl_name l' = nl_name l -> same_entry c rt rt' ->
  runs fl' (get_network_list_cached_config c l' rt') w1 tr' w2 v ->
  w2 = w1 /\ (v = Ok (Some (config_answer (nl_bytes l) rtm rt' m)) \/ (fl' = true /\ v = Ok None)).
Proof.
  intros fl fl' c l rt rtm w tr w1 r m l' rt' tr' w2 v A CM MR NL SE Q. apply saves_list in A.
  destruct (add_saves _ _ _ _ _ _ _ _ A eq_refl) as (_ & NM & FP & (data & ST & G) & _).
  apply get_cached_config_inv in Q. destruct Q as (-> & _ & _ & Q). split; [reflexivity|]. destruct Q as [->|(F & _ & ->)]; [left|right; auto].
  destruct (mended_text_total (nl_name l)) as (nm & MN).
  destruct (stored_mended _ {| sv_result := r; sv_config := nl_bytes l; sv_name := nm; sv_rt := rtm |} _ m ST FP) as (data' & ST' & U); [now split|exact CM|].
  assert (CM' : caps_as rtm m) by (unfold caps_as in *; destruct MR as (_ & _ & _ & _ & E & _); now rewrite E).
  assert (C' : carried nm rtm) by (split; [exact (mended_ok _ _ _ _ MN MR)|now exists m]).
  destruct (stored_doc _ _ ST' C' FP) as (? & m' & ? & _ & _ & CM2 & U' & _). cbn [sv_rt sv_name sv_config] in *.
  assert (m' = m) as ->. { destruct CM' as [_ B], CM2 as [_ D]. unfold reencoded in *. congruence. }
  rewrite NL. unfold config_in. assert (X : get_cache_file_path c (nl_name l) rt' = Ok (entry_path c (nl_name l) rt')) by (apply cache_path_ok; split; [eapply same_entry_named; eassumption|reflexivity]).
  unfold place in G. cbn [sv_name sv_rt] in G. rewrite X, (same_entry_path _ _ _ _ SE), G, U, U'. cbn [ci_kind ci_config ci_args ci_caps]. unfold cni_cache_v1. rewrite String.eqb_refl. cbn [negb].
  unfold config_answer. rewrite (caps_opt _ _ CM'). destruct (rt_args rtm); reflexivity.
Qed.
(** The listing shows the attachment with mended interface name, namespace and arguments. *)
Theorem C78_listed_mended : forall fl c l rt rtm w tr w1 r m id tr' w2 v, tidy w ->
  runs fl (add_network_list c l rt) w tr w1 (Ok r) -> nl_plugins l <> [] -> caps_as rt m -> mended_rt rt rtm -> own_root c rt ->
  id = "" \/ id = rt_container rt -> runs false (get_cached_attachments c id) w1 tr' w2 v ->
  exists atts, v = Ok atts /\ In {| at_container := rt_container rt; at_network := nl_name l; at_ifname := rt_ifname rtm; at_config := nl_bytes l;
     at_netns := rt_netns rtm; at_args := rt_args rtm; at_caps := m |} atts.
Proof.
  intros fl c l rt rtm w tr w1 r m id tr' w2 v T A P CM MR OW ID Q. apply saves_list in A. pose proof (performs_tidy _ _ _ _ _ _ _ A T) as T1.
  destruct (add_saves _ _ _ _ _ _ _ _ A eq_refl) as (AC & NM & FP & (data & ST & G) & _). destruct (AC P) as (A1 & A2 & A3). cbn [sv_rt sv_name sv_config sv_result] in *.
  destruct (listing _ _ _ _ _ _ T1 Q) as (_ & pairs & -> & _ & IFF). eexists. split; [reflexivity|].
  assert (Ec : rt_container rtm = rt_container rt) by (apply good_mended; [exact A2|apply MR]).
  assert (MN : mended_text (nl_name l) (nl_name l)).
  { destruct (mended_text_total (nl_name l)) as (n & M). now rewrite <- (good_mended _ _ A1 M) at 2. }
  destruct (stored_mended _ {| sv_result := r; sv_config := nl_bytes l; sv_name := nl_name l; sv_rt := rtm |} _ m ST FP) as (data' & ST' & U); [now split|exact CM|].
  assert (CM' : caps_as rtm m) by (unfold caps_as in *; destruct MR as (_ & _ & _ & _ & E & _); now rewrite E).
  assert (C' : carried (nl_name l) rtm) by (split; [exact (mended_ok _ _ _ _ MN MR)|now exists m]).
  assert (NM' : named (nl_name l) rtm).
  { destruct NM as (N1 & N2 & N3). split; [exact N1|]. split; [now rewrite Ec|]. intros E. apply N3. now apply (mended_text_empty _ _ (proj1 (proj2 MR))). }
  pose proof (stored_attachment _ _ id m ST' C' FP CM' NM') as AT.
  apply in_map_iff. exists (entry_name (nl_name l) rt, shown {| sv_result := r; sv_config := nl_bytes l; sv_name := nl_name l; sv_rt := rtm |} m).
  split; [unfold shown; cbn [snd sv_rt sv_name sv_config]; now rewrite Ec|]. apply IFF.
  pose proof (accepted_file_name _ _ A1 A2 A3) as FN. split; [exact FN|]. split.
  { destruct ID as [->| ->]; [now left|]. apply entry_name_for; [exact A1|apply NM]. }
  exists data. split.
  - rewrite <- dir_entry_of. unfold place in G. cbn [sv_rt sv_name] in G. rewrite entry_path_eq in G by exact FN. unfold own_root in OW. rewrite OW in G. exact G.
  - apply attachment_of_iff. unfold attachment_of in *. rewrite U, AT. cbn [sv_rt]. rewrite Ec.
    assert (X : negb (String.eqb id "") && negb (String.eqb (rt_container rt) id) = false).
    { destruct ID as [->| ->]; [reflexivity|]. rewrite String.eqb_refl. now rewrite andb_false_r. }
    now rewrite X.
Qed.

(** *** A concrete case: the interface name "eth" followed by the byte 255 *)
Definition O_rt : runtime_conf :=
  {| rt_container := "c1"; rt_netns := "/ns"; rt_ifname := "eth" ++ odd_byte; rt_args := [("K", odd_byte)]; rt_caps := []; rt_cache_dir := "" |}.
Definition O_mended : runtime_conf :=
  {| rt_container := "c1"; rt_netns := "/ns"; rt_ifname := "eth" ++ utf8 65533; rt_args := [("K", utf8 65533)]; rt_caps := []; rt_cache_dir := "" |}.
Lemma mended_computes s : mended_text s (fold_right (fun r u => utf8 r ++ u) "" (Utf8.runes s)).
Proof. eexists. split; [apply runes_reads|reflexivity]. Qed.
Lemma O_mends : mended_rt O_rt O_mended.
Proof.
  assert (H : forall s t, fold_right (fun r u => utf8 r ++ u) "" (Utf8.runes s) = t -> mended_text s t) by (intros s t <-; apply mended_computes).
  split; [apply H; vm_compute; reflexivity|]. split; [apply H; vm_compute; reflexivity|]. split; [apply H; vm_compute; reflexivity|]. split; [|now split].
  constructor; [|constructor]. split; apply H; vm_compute; reflexivity.
Qed.
Lemma O_caps : caps_as O_rt []. Proof. split; [constructor|reflexivity]. Qed.
Notation O_add := (interp X_oracle 0 (add_network_list X_cni X_list O_rt) []) (only parsing).
Definition O_world : world := Eval vm_compute in snd (fst O_add).
Lemma O_added : exists tr, runs false (add_network_list X_cni X_list O_rt) [] tr O_world (Ok (Some X_add_result)).
Proof.
  assert (K : O_add = (Ok (Some X_add_result), O_world, snd O_add)) by (vm_compute; reflexivity).
  exists (snd O_add). exact (interp_run _ _ _ _ _ _ _ X_tame K).
Qed.
Example C78_nonvacuous : exists tr tr' tr2 w2 w3,
  runs false (add_network_list X_cni X_list O_rt) [] tr O_world (Ok (Some X_add_result)) /\ mended_rt O_rt O_mended /\ O_mended <> O_rt /\ caps_as O_rt [] /\
  runs false (get_network_list_cached_result X_cni X_list O_rt) O_world tr' w2 (Ok (Some X_add_result)) /\
  runs false (get_cached_attachments X_cni "c1") O_world tr2 w3
    (Ok [{| at_container := "c1"; at_network := "net"; at_ifname := "eth" ++ utf8 65533; at_config := nl_bytes X_list;
            at_netns := "/ns"; at_args := [("K", utf8 65533)]; at_caps := [] |}]).
Proof.
  destruct O_added as [tr R]. exists tr.
  assert (K : interp X_oracle 0 (get_network_list_cached_result X_cni X_list O_rt) O_world = (Ok (Some X_add_result), O_world, snd (interp X_oracle 0 (get_network_list_cached_result X_cni X_list O_rt) O_world))) by (vm_compute; reflexivity).
  pose proof (interp_run _ _ _ _ _ _ _ X_tame K) as R1. eexists _, _, O_world, O_world.
  split; [exact R|]. split; [exact O_mends|]. split; [discriminate|]. split; [exact O_caps|]. split; [exact R1|]. eapply (interp_run _ X_oracle); [exact X_tame|]. vm_compute. reflexivity.
Qed.
(** So garbage collection does not know it: declared valid under its own name, its DEL is run all the
    same, under another interface's name; not declared valid, it is not removed though the
    collection succeeds. *)
Definition O_valid : gc_args := Some [{| ga_container := "c1"; ga_ifname := rt_ifname O_rt |}].
Theorem C78_valid_attachment_deleted_refuted : exists tr tr' x,
  runs false (add_network_list X_cni X_list O_rt) [] tr O_world (Ok (Some X_add_result)) /\
  runs false (gc_network_list X_cni X_list (Some O_valid)) O_world tr' O_world (Ok tt) /\
  In x (calls tr') /\ protocol_env X_cni "DEL" O_mended (call_env x).
Proof.
  destruct O_added as [tr R]. exists tr.
  assert (K : interp X_oracle 0 (gc_network_list X_cni X_list (Some O_valid)) O_world = (Ok tt, O_world, snd (interp X_oracle 0 (gc_network_list X_cni X_list (Some O_valid)) O_world))) by (vm_compute; reflexivity).
  pose proof (interp_run _ _ _ _ _ _ _ X_tame K) as R1. eexists _, _. split; [exact R|]. split; [exact R1|]. clear.
  match goal with |- context [snd ?t] => let v := eval vm_compute in (snd t) in assert (E : snd t = v) by (vm_compute; reflexivity); rewrite E; clear E end.
  split; [left; reflexivity|]. now repeat split.
Qed.
Theorem C78_stale_record_stays_refuted : exists tr tr',
  runs false (add_network_list X_cni X_list O_rt) [] tr O_world (Ok (Some X_add_result)) /\
  runs false (gc_network_list X_cni X_list (Some (Some []))) O_world tr' O_world (Ok tt) /\ O_world <> [].
Proof.
  destruct O_added as [tr R]. exists tr.
  assert (K : interp X_oracle 0 (gc_network_list X_cni X_list (Some (Some []))) O_world = (Ok tt, O_world, snd (interp X_oracle 0 (gc_network_list X_cni X_list (Some (Some []))) O_world))) by (vm_compute; reflexivity).
  pose proof (interp_run _ _ _ _ _ _ _ X_tame K) as R1. eexists. split; [exact R|]. split; [exact R1|discriminate].
Qed.

Print Assumptions C78_result_found.
Print Assumptions C78_configuration_found.
Print Assumptions C78_listed_mended.
Print Assumptions C78_valid_attachment_deleted_refuted.
