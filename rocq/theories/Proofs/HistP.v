(** What ADD writes and what the readers make of it. *)
From Coq Require Import String Ascii List Bool Arith NArith ZArith Lia.
From Verif Require Import Model.GoStr Model.Errors Model.Version Model.Path Model.Json Model.GoJson Model.Types Model.Conf Model.Invoke
  Model.Prog Model.Api Model.Validate
  Spec.NameSpec Spec.VersionSpec Spec.JsonSpec Spec.ConfSpec Spec.TypesSpec Spec.PathSpec Spec.RunSpec Spec.CacheSpec Spec.HistSpec Spec.MapSpec
  Proofs.StrP Proofs.ValidateP Proofs.JsonP Proofs.JsonRT Proofs.GoJsonP Proofs.ConfP Proofs.PathP Proofs.TypesP Proofs.DecodeP Proofs.ShapeP
  Proofs.ProgP Proofs.ApiP Proofs.CacheP Proofs.VerbP Proofs.SingleP Proofs.ConfineP Proofs.EntryP Properties.P_Types.
Import ListNotations.
Open Scope nat_scope.
Open Scope string_scope.

(** ** The document of an entry *)
Definition stored (s : saved) (data : string) : Prop :=
  cache_bytes (sv_result s) (sv_config s) (sv_name s) (sv_rt s) = Ok data.
(** Its result is one a plugin's output decodes to. *)
Definition from_plugin (o : option result) : Prop := forall r, o = Some r -> wf_body int64 any_prefix r /\ right_version r.

Lemma caps_enc rt m : caps_as rt m -> encodable (JObj [("capabilityArgs", enc_map (rt_caps rt))]).
Proof.
  intros [F _]. assert (G : Forall (fun kj : string * json => well_formed_text (fst kj) /\ injectable (snd kj)) (sset_all (rt_caps rt) [])).
  { apply Forall_forall. intros [k v] I. apply sset_all_in in I. destruct I as [I|[]]. rewrite Forall_forall in F. exact (F _ I). }
  split.
  - apply jwf_obj. constructor; [|constructor]. split; [apply ascii_wft; reflexivity|]. cbn [snd]. apply jwf_obj. revert G. apply Forall_impl.
    intros [k v] [A [B _]]. now split.
  - change 10000%N with (N.succ 9999). apply jdepth_obj. constructor; [|constructor]. cbn [snd]. change 9999%N with (N.succ 9998). apply jdepth_obj.
    revert G. apply Forall_impl. intros [k v] [_ [_ B]]. exact B.
Qed.

Definition info_of (s : saved) (raw : option (smap json)) : cached_info :=
  {| ci_kind := cni_cache_v1; ci_container := rt_container (sv_rt s); ci_config := sv_config s;
     ci_ifname := rt_ifname (sv_rt s); ci_network := sv_name s; ci_netns := rt_netns (sv_rt s);
     ci_args := Some (rt_args (sv_rt s)); ci_caps := Some (rt_caps (sv_rt s)); ci_result := raw |}.
Lemma stored_raw s data : stored s data -> from_plugin (sv_result s) ->
  exists raw, data = print (enc_cached_info (info_of s raw)) /\
     (forall s', sv_result s' = sv_result s -> rt_caps (sv_rt s') = rt_caps (sv_rt s) -> stored s' (print (enc_cached_info (info_of s' raw)))) /\
     match raw with Some r => canonical (JObj r) /\ encodable (JObj [("result", JObj r)]) | None => True end /\
     (forall r, sv_result s = Some r -> exists j mr, enc_result r = Some j /\ jwf j /\ (jdepth j <= 5)%N /\ (unmarshal_map (print j) = Some (Some mr) /\ raw = Some mr \/ raw = None /\ unmarshal_map (print j) = Some None)).
Proof.
  unfold stored, cache_bytes. intros H FP. destruct (marshal_map (rt_caps (sv_rt s))) as [mc|] eqn:MC; cbn [rbind] in H; [|destruct (sv_result s) as [r|]; [destruct (enc_result r) as [j|]; [destruct (unmarshal_map (print j))|]|]; discriminate].
  destruct (sv_result s) as [r|].
    - destruct (FP r eq_refl) as [WB RV]. destruct (enc_result r) as [j|] eqn:E; [|discriminate].
      destruct (enc_shape r j WB (proj2 (right_nonempty _ RV)) E) as [J D].
      destruct (unmarshal_map (print j)) as [om|] eqn:U; [|discriminate]. cbn [rbind] in H. injection H as <-. exists om.
      split; [reflexivity|]. split; [intros s' E' EC; rewrite <- EC in MC; unfold stored, cache_bytes; rewrite E', E, U, MC; reflexivity|]. split.
      + destruct om as [mr|]; [|exact I]. destruct (unmarshal_map_canonical _ _ U) as [C [W _]]. split; [exact C|].
        apply unmarshal_map_some in U as (j' & P & _ & N). rewrite parse_print in P by (split; [exact J|eapply N.le_trans; [exact D|easy]]).
        injection P as <-. destruct (norm_encodable _ _ N J) as [J' D']. split.
        * apply jwf_obj. constructor; [|constructor]. split; [apply ascii_wft; reflexivity|exact J'].
        * change 10000%N with (N.succ 9999). apply jdepth_obj. constructor; [|constructor]. cbn [snd]. eapply N.le_trans; [exact D'|]. eapply N.le_trans; [exact D|easy].
      + intros r' [= <-]. exists j. destruct om as [mr|]; [exists mr|exists []]; repeat split; auto.
    - injection H as <-. exists None. split; [reflexivity|]. split; [intros s' E' EC; rewrite <- EC in MC; unfold stored, cache_bytes; rewrite E', MC; reflexivity|]. split; [exact I|discriminate].
Qed.

Lemma stored_doc s data : stored s data -> carried (sv_name s) (sv_rt s) -> from_plugin (sv_result s) ->
  exists l m raw, data = print (JObj l) /\ encodable (JObj l) /\ caps_as (sv_rt s) m /\
   unmarshal_cached_info data = Some
    {| ci_kind := "cniCacheV1"; ci_container := rt_container (sv_rt s); ci_config := sv_config s; ci_ifname := rt_ifname (sv_rt s);
       ci_network := sv_name s; ci_netns := rt_netns (sv_rt s); ci_args := opt_nil (rt_args (sv_rt s));
       ci_caps := match rt_caps (sv_rt s) with [] => None | _ => Some m end; ci_result := raw |} /\
   (forall r, sv_result s = Some r -> wf_result exact prefix_form r -> exists j mr t, enc_result r = Some j /\ norm j = Some (JObj mr) /\
       raw = Some mr /\ dec_like r (JObj mr) = Some r /\ mr = ("cniVersion", JStr (result_version r)) :: t /\ encodable (JObj mr) /\ canonical (JObj mr)).
Proof.
  intros H ((T1 & T2 & T3 & T4 & T5) & m & CM) FP. destruct (stored_raw s data H FP) as (raw & -> & _ & WR & RR). unfold info_of.
  destruct (cached_info_rt cni_cache_v1 (rt_container (sv_rt s)) (sv_config s) (rt_ifname (sv_rt s)) (sv_name s) (rt_netns (sv_rt s))
     (rt_args (sv_rt s)) (rt_caps (sv_rt s)) raw m) as [EN U]; auto.
  { apply ascii_wf. reflexivity. }
  { exact (caps_enc _ _ CM). }
  { apply CM. }
  eexists _, m, _. split; [reflexivity|]. split; [exact EN|]. split; [exact CM|]. split; [exact U|].
  intros r E W. destruct (RR r E) as (j & mr & EJ & J & D & X). destruct (result_rtn r W) as (j' & m' & EJ' & N & DL & t & TT).
  rewrite EJ in EJ'. injection EJ' as <-.
  assert (EJN : encodable j) by (split; [exact J|eapply N.le_trans; [exact D|easy]]).
  assert (UM : unmarshal_map (print j) = Some (Some m')).
  { apply unmarshal_map_some. exists j. split; [now apply parse_print|]. split; [|exact N]. destruct (result_rt r (wf_exact_any _ W)) as (j0 & E0 & O & _). congruence. }
  rewrite UM in X. destruct X as [[X ->]|[_ X]]; [|discriminate]. injection X as <-.
  exists j, m', t. destruct (unmarshal_map_canonical _ _ UM) as [C1 C2]. rewrite TT in *. repeat split; auto; try apply C1; apply C2.
Qed.

(** ** Reading it back *)
Lemma obj_nonempty mr r t : mr = ("cniVersion", JStr (result_version r)) :: t -> mr <> []. Proof. now intros ->. Qed.
Lemma stored_reads s data r ver : stored s data -> carried (sv_name s) (sv_rt s) -> from_plugin (sv_result s) ->
  sv_result s = Some r -> wf_result exact prefix_form r -> reads_result ver (Some data) = presented ver r.
Proof.
  intros S C F E W. destruct (stored_doc s data S C F) as (l & m & raw & -> & EN & CM & U & RR).
  destruct (RR r E W) as (j & mr & t & EJ & N & -> & DL & TT & EM & CA). rewrite reads_eq, U. cbn [ci_kind]. unfold cni_cache_v1.
  rewrite String.eqb_refl. unfold cached_result_of. cbn [ci_result]. unfold enc_map. apply canonical_obj in CA. rewrite sset_all_id by apply CA.
  destruct (text_back r (print (JObj mr)) (JObj mr)) as [_ K]; [now apply parse_print|exact DL|apply W|]. rewrite K. cbn [rbind].
  unfold convert_cached, presented, rwrap, rmap. destruct (get_as_version r ver); reflexivity.
Qed.
(** What a query for the cached configuration sees. *)
Definition config_in (c : cni) (name : string) (rt : runtime_conf) (w : world) : res (option (string * runtime_conf)) :=
  match get_cache_file_path c name rt with
  | Ok p => match sget p w with
            | None => Ok None
            | Some bytes =>
                match unmarshal_cached_info bytes with
                | None => Err (EWrap ("failed to unmarshal cached network " ++ quote name ++ " config") (EJson "unmarshal"))
                | Some ci =>
                    if negb (String.eqb (ci_kind ci) cni_cache_v1) then
                      Err (EMsg ("read cached network " ++ quote name ++ " config has wrong kind: " ++ ci_kind ci))
                    else
                      Ok (Some (ci_config ci,
                        {| rt_container := rt_container rt; rt_netns := rt_netns rt; rt_ifname := rt_ifname rt;
                           rt_args := match ci_args ci with Some l => l | None => rt_args rt end;
                           rt_caps := match ci_caps ci with Some m => m | None => [] end;
                           rt_cache_dir := rt_cache_dir rt |}))
                end
            end
  | Err e => Err e
  | Panic => Panic
  end.
Lemma get_cached_config_inv fl c name rt w tr w' r : runs fl (get_cached_config c name rt) w tr w' r ->
  w' = w /\ changed tr = [] /\ calls tr = [] /\ (r = config_in c name rt w \/ (fl = true /\ named name rt /\ r = Ok None)).
Proof.
  intros H. unfold get_cached_config in H. apply runs_lift_then in H. unfold config_in.
  destruct (cache_path_cases c name rt) as [[N E]|[N [e E]]]; rewrite E in *.
  2:{ destruct H as (-> & -> & ->). auto. }
  apply runs_bind in H. destruct H as (t1 & w1 & d & t2 & R1 & R2 & ->). apply runs_read in R1. destruct R1 as (-> & -> & D).
  destruct D as [->|(F & ->)].
  2:{ apply runs_ret in R2. destruct R2 as (-> & -> & ->). auto 7. }
  destruct (sget (entry_path c name rt) w) as [bytes|]; apply runs_ret in R2; destruct R2 as (-> & -> & ->); auto.
Qed.
Lemma caps_nil rt m : caps_as rt m -> rt_caps rt = [] -> m = [].
Proof. intros [_ R] E. unfold reencoded in R. rewrite E in R. cbn in R. now injection R as <-. Qed.
Lemma caps_opt rt m : caps_as rt m -> match match rt_caps rt with [] => None | _ => Some m end with Some x => x | None => [] end = m.
Proof. intros C. destruct (rt_caps rt) eqn:E; [symmetry; eapply caps_nil; eassumption|reflexivity]. Qed.
Lemma stored_config s data c asked m w : stored s data -> carried (sv_name s) (sv_rt s) -> from_plugin (sv_result s) -> caps_as (sv_rt s) m ->
  named (sv_name s) asked -> sget (entry_path c (sv_name s) asked) w = Some data ->
  config_in c (sv_name s) asked w = Ok (Some (config_answer (sv_config s) (sv_rt s) asked m)).
Proof.
  intros S C F CM NM G. destruct (stored_doc s data S C F) as (l & m' & raw & -> & EN & CM' & U & _).
  assert (m' = m) as ->. { destruct CM as [_ A], CM' as [_ B]. unfold reencoded in *. congruence. }
  unfold config_in. assert (X : get_cache_file_path c (sv_name s) asked = Ok (entry_path c (sv_name s) asked)) by (apply cache_path_ok; auto).
  rewrite X, G, U. cbn [ci_kind ci_config ci_args ci_caps]. unfold cni_cache_v1. rewrite String.eqb_refl. cbn [negb].
  unfold config_answer. rewrite (caps_opt _ _ CM). destruct (rt_args (sv_rt s)); reflexivity.
Qed.
Lemma stored_attachment s data id m : stored s data -> carried (sv_name s) (sv_rt s) -> from_plugin (sv_result s) -> caps_as (sv_rt s) m ->
  named (sv_name s) (sv_rt s) -> attachment_of id data =
    if negb (String.eqb id "") && negb (String.eqb (rt_container (sv_rt s)) id) then None else Some (shown s m).
Proof.
  intros S C F CM (N1 & N2 & N3). destruct (stored_doc s data S C F) as (l & m' & raw & -> & EN & CM' & U & _).
  assert (m' = m) as ->. { destruct CM as [_ A], CM' as [_ B]. unfold reencoded in *. congruence. }
  unfold attachment_of. rewrite U. cbn [ci_kind ci_config ci_args ci_caps ci_container ci_ifname ci_network ci_netns]. unfold cni_cache_v1. rewrite String.eqb_refl. cbn [negb].
  destruct (negb _ && negb _); [reflexivity|]. apply String.eqb_neq in N1, N3. rewrite N1, N3. cbn [orb].
  unfold shown. rewrite (caps_opt _ _ CM). destruct (rt_args (sv_rt s)); reflexivity.
Qed.

(** ** ADD *)
Lemma add_result_from conf out r : add_result conf out = Ok r -> wf_body int64 any_prefix r /\ right_version r.
Proof.
  unfold add_result. destruct (fixup_result_version conf out) as [[v b]|e|]; cbn [rbind]; try discriminate.
  intros H. apply create_inv in H as (j & _ & W & V & _). auto.
Qed.
Definition accepted (s : saved) : Prop :=
  good_name (sv_name s) /\ good_name (rt_container (sv_rt s)) /\ good_ifname (rt_ifname (sv_rt s)).
Lemma saved_world c s bytes w : sget (place c s) (overlay (place c s) bytes (sset (place c s) "" w)) = Some bytes /\
  forall p, p <> place c s -> sget p (overlay (place c s) bytes (sset (place c s) "" w)) = sget p w.
Proof.
  split.
  - rewrite sget_overlay, String.eqb_refl, sget_sset, String.eqb_refl. f_equal.
    replace (sdrop (String.length bytes) "") with "" by (destruct (String.length bytes); reflexivity). apply append_nil_r.
  - intros p N. apply String.eqb_neq in N. rewrite sget_overlay, N, sget_sset, N. reflexivity.
Qed.
Lemma names_accepted name rt : names_ok name rt -> good_name name /\ good_name (rt_container rt) /\ good_ifname (rt_ifname rt).
Proof.
  intros (A & B & C). split; [now apply validate_network_name_ok|]. split; [now apply validate_container_id_ok|now apply validate_interface_name_ok].
Qed.
Lemma last_or_in A (l : list A) x : last_or None l = Some x -> exists i, nth_error l i = Some x.
Proof. unfold last_or, before. destruct (List.length l) as [|n]; [discriminate|eauto]. Qed.
Definition adds_something (a : action) : Prop := match a with AddList l _ => nl_plugins l <> [] | _ => True end.
Lemma add_saves fl c a w tr w' v s : runs fl (performs c a) w tr w' v -> saves a v = Some s ->
  (adds_something a -> accepted s) /\ named (sv_name s) (sv_rt s) /\ from_plugin (sv_result s) /\ (exists data, stored s data /\ sget (place c s) w' = Some data) /\
  (forall p, p <> place c s -> sget p w' = sget p w).
Proof.
  intros R S. destruct a as [l rt| | | | |n rt| | | | | | | | | |]; try discriminate.
  - cbn [saves] in S. destruct v as [[|ro| | | |]|e|]; try discriminate. injection S as <-. cbn [performs] in R. unfold returning in R.
    apply runs_bind in R. destruct R as (t1 & w1 & r & t2 & R1 & R2 & ->). apply runs_ret in R2. destruct R2 as (-> & -> & E).
    destruct r as [o|e|]; try discriminate. injection E as <-.
    apply add_network_list_inv in R1. destruct R1 as (tr1 & results & r1 & R0 & _ & REQ & YI & _ & _ & [(L1 & L2 & tr2 & r2 & _ & CA & E)|(_ & _ & _ & NO & _)]).
    2:{ now destruct (NO ro). }
    destruct r2 as [[]|e|]; try discriminate; [|destruct E; discriminate]. injection E as ->.
    apply cache_add_inv in CA. destruct CA as (_ & _ & CA & _). destruct (CA eq_refl) as (bytes & B & NM & -> & _).
    assert (AC : nl_plugins l <> [] -> names_ok (nl_name l) rt).
    { intros P. destruct (nth_error (calls tr1) 0) as [x|] eqn:X; [apply (REQ _ _ X)|]. apply nth_error_None in X. destruct (nl_plugins l); [now destruct P|]. cbn in L2. lia. }
    split; [intros P; exact (names_accepted _ _ (AC P))|]. split; [exact NM|]. split.
    { intros r E. cbn [sv_result] in E. apply last_or_in in E as [i E]. apply YI in E as (x & _ & out & _ & A). now apply add_result_from in A. }
    pose proof (saved_world c {| sv_result := last_or None results; sv_config := nl_bytes l; sv_name := nl_name l; sv_rt := rt |} bytes w) as [A1 A2].
    split; [|exact A2]. exists bytes. split; [exact B|exact A1].
  - cbn [saves] in S. destruct v as [[|ro| | | |]|e|]; try discriminate. injection S as <-. cbn [performs] in R. unfold returning in R.
    apply runs_bind in R. destruct R as (t1 & w1 & r & t2 & R1 & R2 & ->). apply runs_ret in R2. destruct R2 as (-> & -> & E).
    destruct r as [o|e|]; try discriminate. injection E as ->.
    apply add_network_inv in R1. destruct R1 as [(_ & _ & NO & _)|(x & res & tr1 & tr2 & r2 & _ & _ & _ & _ & AC & (out & _ & YI) & CA & E)].
    { now destruct (NO o). }
    destruct r2 as [[]|e|]; try discriminate; [|destruct E; discriminate]. injection E as ->.
    apply cache_add_inv in CA. destruct CA as (_ & _ & CA & _). destruct (CA eq_refl) as (bytes & B & NM & -> & _).
    split; [intros _; exact (names_accepted _ _ AC)|]. split; [exact NM|]. split.
    { intros r E. injection E as <-. now apply add_result_from in YI. }
    pose proof (saved_world c {| sv_result := Some res; sv_config := pg_bytes n; sv_name := pc_name (pg_conf n); sv_rt := rt |} bytes w) as [A1 A2].
    split; [|exact A2]. exists bytes. split; [exact B|exact A1].
Qed.
