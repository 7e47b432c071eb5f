(** The noop plugin's files and configuration. *)
From Coq Require Import String Ascii List Arith NArith ZArith Bool Lia.
From Verif Require Import Model.GoStr Model.Errors Model.Json Model.Num Model.GoJson Model.Base64 Model.NetIP Model.Types Model.Conf Model.Args Model.Prog Model.Api Model.Skel Model.Noop
  Spec.NameSpec Spec.VersionSpec Spec.JsonSpec Spec.ConfSpec Spec.EnvSpec Spec.TypesSpec Spec.RunSpec Spec.RecordSpec Spec.DocSpec Spec.NoopSpec
  Proofs.StrP Proofs.VersionP Proofs.JsonRT Proofs.GoJsonP Proofs.NumP Proofs.ConfP Proofs.LoadP Proofs.EnvP Proofs.Base64P Proofs.TypesP Proofs.DecodeP Proofs.DocP Proofs.RecordP Proofs.CacheP Proofs.InvokeP Proofs.ProgP.
Import ListNotations.
Open Scope nat_scope.
Open Scope string_scope.

(** *** Decoding is reading *)
Lemma read_bytes : reads bytes (fun _ => dec_bytes) "".
Proof. destruct take_bytes as [A B C]. split; [exact A|intros v b _; apply B|eauto]. Qed.
Lemma read_count : reads count dec_uint 0%N.
Proof.
  split; [reflexivity| |].
  - intros v b _. destruct v as [| |l| | |]; cbn [dec_uint count]; try (split; [discriminate|contradiction]); [split; congruence|].
    unfold atou. rewrite decimal_digits. destruct (digits l) as [n|]; [|split; [discriminate|intros [E _]; discriminate]].
    destruct (N.ltb_spec n (2 ^ 64)); split; intros H1; try discriminate.
    + injection H1 as <-. auto.
    + destruct H1 as [E _]. exact E.
    + destruct H1 as [E L]. injection E as ->. lia.
  - intros c v b _ H. destruct v; try discriminate; cbn [dec_uint] in *; eauto.
Qed.
Lemma args_any cur j d : decode_struct cmd_args_step cur j = Some d -> forall c, exists d', decode_struct cmd_args_step c j = Some d'.
Proof.
  intros H c. apply struct_object in H as (o & O & D).
  assert (S : forall a a' k v b, cmd_args_step a k v = Some b -> exists b', cmd_args_step a' k v = Some b').
  { intros a a' k v b S. unfold cmd_args_step in *. cases S; [..|eexists; reflexivity]; apply omap_some in S as (x & S & _);
      try (destruct v; try discriminate S; cbn; eexists; reflexivity). rewrite S. eexists; reflexivity. }
  enough (exists d', decode_members cmd_args_step c o = Some d') as [d' E] by (exists d'; apply struct_object; eauto).
  clear O. revert cur c D. induction o as [|[k v] o IH]; intros cur c D; [exists c; reflexivity|]. rewrite decode_members_cons in *.
  destruct (cmd_args_step cur k v) as [b|] eqn:E; [|discriminate]. destruct (S _ c _ _ _ E) as [b' E']. rewrite E'. exact (IH _ _ D).
Qed.
Lemma args_iff j a : DocSpec.plain j -> (decode_struct cmd_args_step cmd_args_zero j = Some a <-> args_doc j a).
Proof.
  intros P. unfold args_doc. rewrite struct_object. split.
  - intros (o & O & D). exists o. split; [exact O|]. destruct (plain_object _ _ P O) as [N W]. unfold cmd_args_step in D.
    split; [one read_text N W D|]. split; [one read_text N W D|]. split; [one read_text N W D|]. split; [one read_text N W D|].
    split; [one read_text N W D|]. split; [one read_text N W D|]. one read_bytes N W D.
  - intros (o & O & F1 & F2 & F3 & F4 & F5 & F6 & F7). exists o. split; [exact O|]. destruct (plain_object _ _ P O) as [N W]. total T o.
    { apply members_total. intros b k v I. unfold cmd_args_step. take read_text N W F1 I. take read_text N W F2 I. take read_text N W F3 I. take read_text N W F4 I.
      take read_text N W F5 I. take read_text N W F6 I. take read_bytes N W F7 I. eexists; reflexivity. }
    destruct T as [b D]. rewrite D. f_equal. unfold cmd_args_step in D.
    assert (E1 : ca_container b = ca_container a) by same read_text N W D F1. assert (E2 : ca_netns b = ca_netns a) by same read_text N W D F2.
    assert (E3 : ca_ifname b = ca_ifname a) by same read_text N W D F3. assert (E4 : ca_args b = ca_args a) by same read_text N W D F4.
    assert (E5 : ca_path b = ca_path a) by same read_text N W D F5. assert (E6 : ca_netns_override b = ca_netns_override a) by same read_text N W D F6.
    assert (E7 : ca_stdin b = ca_stdin a) by same read_bytes N W D F7. destruct a, b; cbn in *; congruence.
Qed.
Lemma read_args : reads args_field (decode_struct cmd_args_step) cmd_args_zero.
Proof. split; [reflexivity|exact args_iff|]. intros c v b _ H. exact (args_any _ _ _ H c). Qed.
Lemma read_versions : reads (maybe (fun j l => texts (Some j) l)) (fun _ => dec_ptr (dec_list (dec_string ""))) None.
Proof. apply read_maybe. intros v x W _. exact (rd_some _ _ _ read_texts v x W). Qed.
Lemma control_iff j d : DocSpec.plain j -> (decode_struct noop_debug_step noop_debug_zero j = Some d <-> control_doc j d).
Proof.
  intros P. unfold control_doc. rewrite struct_object. split.
  - intros (o & O & D). exists o. split; [exact O|]. destruct (plain_object _ _ P O) as [N W]. unfold noop_debug_step in D.
    split; [one read_text N W D|]. split; [one read_text N W D|]. split; [one read_count N W D|]. split; [one read_text N W D|].
    split; [one read_versions N W D|]. split; [one read_integer N W D|]. split; [one read_text N W D|]. one read_args N W D.
  - intros (o & O & F1 & F2 & F3 & F4 & F5 & F6 & F7 & F8). exists o. split; [exact O|]. destruct (plain_object _ _ P O) as [N W]. total T o.
    { apply members_total. intros b k v I. unfold noop_debug_step. take read_text N W F1 I. take read_text N W F2 I. take read_count N W F3 I. take read_text N W F4 I.
      take read_versions N W F5 I. take read_integer N W F6 I. take read_text N W F7 I. take read_args N W F8 I. eexists; reflexivity. }
    destruct T as [b D]. rewrite D. f_equal. unfold noop_debug_step in D.
    assert (E1 : nd_result b = nd_result d) by same read_text N W D F1. assert (E2 : nd_error b = nd_error d) by same read_text N W D F2.
    assert (E3 : nd_code b = nd_code d) by same read_count N W D F3. assert (E4 : nd_stderr b = nd_stderr d) by same read_text N W D F4.
    assert (E5 : nd_versions b = nd_versions d) by same read_versions N W D F5. assert (E6 : nd_exit b = nd_exit d) by same read_integer N W D F6.
    assert (E7 : nd_command b = nd_command d) by same read_text N W D F7. assert (E8 : nd_args b = nd_args d) by same read_args N W D F8. destruct d, b; cbn in *; congruence.
Qed.
Lemma entry_doc_iff j e : DocSpec.plain j -> (decode_struct log_entry_step log_entry_zero j = Some e <-> entry_doc j e).
Proof.
  intros P. unfold entry_doc. rewrite struct_object. split.
  - intros (o & O & D). exists o. split; [exact O|]. destruct (plain_object _ _ P O) as [N W]. unfold log_entry_step in D.
    split; [one read_text N W D|]. one read_args N W D.
  - intros (o & O & F1 & F2). exists o. split; [exact O|]. destruct (plain_object _ _ P O) as [N W]. total T o.
    { apply members_total. intros b k v I. unfold log_entry_step. take read_text N W F1 I. take read_args N W F2 I. eexists; reflexivity. }
    destruct T as [b D]. rewrite D. f_equal. unfold log_entry_step in D.
    assert (E1 : le_command b = le_command e) by same read_text N W D F1. assert (E2 : le_args b = le_args e) by same read_args N W D F2. destruct e, b; cbn in *; congruence.
Qed.
Lemma log_iff j l : DocSpec.plain j -> (dec_list (decode_struct log_entry_step log_entry_zero) j = Some l <-> log_doc j l).
Proof. intros P. exact (rd_some _ _ _ (read_array _ _ entry_doc_iff) j l P). Qed.

(** *** What was read is well-formed *)
Definition wf_args (a : cmd_args) : Prop :=
  well_formed_text (ca_container a) /\ well_formed_text (ca_netns a) /\ well_formed_text (ca_ifname a) /\
  well_formed_text (ca_args a) /\ well_formed_text (ca_path a) /\ well_formed_text (ca_netns_override a).
Lemma member_wf f o v : jwf (JObj o) -> member f o (Some v) -> jwf v.
Proof. intros W (k & I & _). apply jwf_obj in W. rewrite Forall_forall in W. exact (proj2 (W _ I)). Qed.
Lemma object_wf j o : jwf j -> object j o -> jwf (JObj o).
Proof. intros W [->|[-> ->]]; [exact W|constructor]. Qed.
Lemma text_wf f o s : jwf (JObj o) -> field f o text s -> well_formed_text s.
Proof.
  intros W (v & M & T). destruct v as [v|]; [|cbn in T; subst; constructor]. pose proof (member_wf _ _ _ W M) as J.
  destruct v; cbn in T, J; subst; try contradiction; [constructor|exact J].
Qed.
Lemma args_doc_wf j a : jwf j -> args_doc j a -> wf_args a.
Proof.
  intros W (o & O & F1 & F2 & F3 & F4 & F5 & F6 & _). pose proof (object_wf _ _ W O) as J.
  repeat split; eapply text_wf; eassumption.
Qed.
Lemma args_field_wf f o a : jwf (JObj o) -> field f o args_field a -> wf_args a.
Proof.
  intros W (v & M & T). destruct v as [v|]; cbn [args_field] in T; [eapply args_doc_wf; [eapply member_wf; eassumption|exact T]|].
  subst a. repeat split; constructor.
Qed.
Lemma texts_wf v l : jwf v -> texts (Some v) l -> Forall well_formed_text l.
Proof.
  intros W T. destruct v as [| | | |js|]; cbn in T; try contradiction; [subst; constructor|]. apply jwf_arr in W.
  induction T as [|j s js l H F IH]; [constructor|]. inversion W; subst. constructor; [|now apply IH].
  destruct j; cbn in H; subst; try contradiction; [constructor|assumption].
Qed.
(** What a control file can say. *)
Record wf_control (d : noop_debug) : Prop := {
  wc_result : well_formed_text (nd_result d);
  wc_error : well_formed_text (nd_error d);
  wc_stderr : well_formed_text (nd_stderr d);
  wc_command : well_formed_text (nd_command d);
  wc_code : (nd_code d < 2 ^ 64)%N;
  wc_versions : match nd_versions d with Some l => Forall well_formed_text l | None => True end;
  wc_exit : int64 (nd_exit d);
  wc_args : wf_args (nd_args d)
}.
Lemma control_doc_wf j d : jwf j -> control_doc j d -> wf_control d.
Proof.
  intros W (o & O & F1 & F2 & F3 & F4 & F5 & F6 & F7 & F8). pose proof (object_wf _ _ W O) as J.
  split; try (eapply text_wf; eassumption).
  - destruct F3 as (v & M & C). destruct v as [v|]; cbn in C; [|subst; lia]. destruct v; try contradiction; [subst; lia|apply C].
  - destruct F5 as (v & M & C). destruct v as [v|]; cbn [maybe] in C; [|rewrite C; exact I]. pose proof (member_wf _ _ _ J M) as JV.
    destruct v; [rewrite C; exact I|destruct C as (ll & -> & C); eapply texts_wf; eassumption..].
  - destruct F6 as (v & M & C). destruct v as [v|]; cbn in C; [|subst; unfold int64; lia]. destruct v; try contradiction; [subst; unfold int64; lia|].
    inversion C; subst; assumption.
  - eapply args_field_wf; eassumption.
Qed.
Lemma entry_wf j e : jwf j -> entry_doc j e -> well_formed_text (le_command e) /\ wf_args (le_args e).
Proof.
  intros W (o & O & F1 & F2). pose proof (object_wf _ _ W O) as J. split; [eapply text_wf; eassumption|eapply args_field_wf; eassumption].
Qed.
Lemma log_doc_wf j l : jwf j -> log_doc j l -> Forall (fun e => well_formed_text (le_command e) /\ wf_args (le_args e)) l.
Proof.
  intros W H. unfold log_doc, array in H. destruct j as [| | | |js|]; try contradiction; [subst; constructor|]. apply jwf_arr in W.
  induction H as [|j e js l H F IH]; [constructor|]. inversion W; subst. constructor; [eapply entry_wf; eassumption|now apply IH].
Qed.

(** *** What is written is read *)
Lemma itoaN_lit n : number_lit (itoaN n).
Proof. exists "", (itoaN n), "", "". split; [now left|]. split; [apply int_lit_itoaN|]. split; [now left|]. split; [now left|]. now rewrite append_nil_r. Qed.
Ltac dup_free := repeat (apply NoDup_cons; [intros I; vm_compute in I; repeat (destruct I as [I|I]; [discriminate I|]); exact I|]); constructor.
Lemma enc_args_ok a : wf_args a -> jwf (enc_cmd_args a) /\ (jdepth (enc_cmd_args a) <= 9000)%N /\ DocSpec.plain (enc_cmd_args a) /\
  forall cur, decode_struct cmd_args_step cur (enc_cmd_args a) = Some a.
Proof.
  intros (W1 & W2 & W3 & W4 & W5 & W6). unfold enc_cmd_args. split; [|split; [|split]].
  - apply jwf_obj. repeat (apply Forall_cons; [cbn [fst snd jwf]; split; [apply ascii_wf; reflexivity|first [assumption | apply ascii_wf, b64_ascii]]|]). constructor.
  - cbn. lia.
  - constructor; [cbn [map fst]; dup_free|]. repeat (apply Forall_cons; [constructor|]). constructor.
  - intros cur. unfold decode_struct.
    do 6 (rewrite decode_members_cons; unfold cmd_args_step at 1; keys; cbn [dec_string option_map ca_container ca_netns ca_ifname ca_args ca_path ca_netns_override ca_stdin]).
    rewrite decode_members_cons; unfold cmd_args_step at 1; keys; cbn [dec_bytes option_map ca_container ca_netns ca_ifname ca_args ca_path ca_netns_override ca_stdin].
    rewrite b64_round_trip. cbn [option_map]. rewrite decode_members_nil. destruct a; reflexivity.
Qed.
Lemma strings_ok l : Forall well_formed_text l -> jwf (enc_strings l) /\ (jdepth (enc_strings l) <= 9000)%N /\ DocSpec.plain (enc_strings l) /\ dec_all (dec_string "") (map JStr l) = Some l.
Proof.
  intros W. unfold enc_strings. split; [|split; [|split]].
  - apply jwf_arr. induction W; cbn; constructor; auto.
  - change 9000%N with (N.succ 8999). apply jdepth_arr. apply Forall_forall. intros x I. apply in_map_iff in I as (s & <- & _). cbn. lia.
  - constructor. apply Forall_forall. intros x I. apply in_map_iff in I as (s & <- & _). constructor.
  - clear W. induction l as [|s l IH]; [reflexivity|]. cbn [map dec_all dec_string]. now rewrite IH.
Qed.
Lemma enc_control_ok d : wf_control d -> encodable (enc_noop_debug d) /\ DocSpec.plain (enc_noop_debug d) /\ control_doc (enc_noop_debug d) d.
Proof.
  intros [W1 W2 W3 W4 C V E A]. destruct (enc_args_ok _ A) as (A1 & A2 & A3 & A4).
  assert (VS : let j := match nd_versions d with Some l => enc_strings l | None => JNull end in jwf j /\ (jdepth j <= 9000)%N /\ DocSpec.plain j /\
    dec_ptr (dec_list (dec_string "")) j = Some (nd_versions d)).
  { destruct (nd_versions d) as [l|]; cbn zeta; [|split; [exact I|]; split; [cbn; lia|]; split; [constructor|reflexivity]].
    destruct (strings_ok l V) as (S1 & S2 & S3 & S4). split; [exact S1|]. split; [exact S2|]. split; [exact S3|]. cbn [dec_ptr dec_list enc_strings]. now rewrite S4. }
  cbn zeta in VS. destruct VS as (V1 & V2 & V3 & V4).
  assert (P : DocSpec.plain (enc_noop_debug d)).
  { unfold enc_noop_debug. constructor; [cbn [map fst]; dup_free|]. repeat (apply Forall_cons; [cbn [snd]; first [assumption | constructor]|]). constructor. }
  split; [split|split; [exact P|]].
  - unfold enc_noop_debug. apply jwf_obj.
    repeat (apply Forall_cons; [cbn [fst snd]; split; [apply ascii_wf; reflexivity|first [assumption | apply itoaN_lit | apply number_lit_spec, valid_number_itoa]]|]). constructor.
  - unfold enc_noop_debug. change 10000%N with (N.succ 9999). apply jdepth_obj. repeat (apply Forall_cons; [cbn [snd]; first [cbn; lia | lia]|]). constructor.
  - apply (control_iff _ _ P). unfold enc_noop_debug, decode_struct.
    do 8 (rewrite decode_members_cons; unfold noop_debug_step at 1; keys;
      cbn [dec_string dec_uint option_map nd_result nd_error nd_code nd_stderr nd_versions nd_exit nd_command nd_args noop_debug_zero];
      rewrite ?(atou_itoaN _ C), ?V4, ?(dec_int_enc _ _ E), ?A4; cbn [option_map]).
    rewrite decode_members_nil. destruct d; reflexivity.
Qed.
Lemma enc_log_ok l : Forall (fun e => well_formed_text (le_command e) /\ wf_args (le_args e)) l ->
  encodable (JArr (map enc_log_entry l)) /\ DocSpec.plain (JArr (map enc_log_entry l)) /\ log_doc (JArr (map enc_log_entry l)) l.
Proof.
  intros W.
  assert (X : Forall (fun e => jwf (enc_log_entry e) /\ (jdepth (enc_log_entry e) <= 9999)%N /\ DocSpec.plain (enc_log_entry e) /\ entry_doc (enc_log_entry e) e) l).
  { eapply Forall_impl; [|exact W]. intros e [C A]. destruct (enc_args_ok _ A) as (A1 & A2 & A3 & A4).
    assert (P : DocSpec.plain (enc_log_entry e)).
    { unfold enc_log_entry. constructor; [cbn [map fst]; dup_free|]. repeat (apply Forall_cons; [cbn [snd]; first [assumption | constructor]|]). constructor. }
    split; [|split; [|split; [exact P|]]].
    - unfold enc_log_entry. apply jwf_obj. repeat (apply Forall_cons; [cbn [fst snd]; split; [apply ascii_wf; reflexivity|assumption]|]). constructor.
    - unfold enc_log_entry. change 9999%N with (N.succ 9998). apply jdepth_obj. repeat (apply Forall_cons; [cbn [snd]; first [cbn; lia | lia]|]). constructor.
    - apply (entry_doc_iff _ _ P). unfold enc_log_entry, decode_struct.
      do 2 (rewrite decode_members_cons; unfold log_entry_step at 1; keys; cbn [dec_string option_map le_command le_args log_entry_zero]; rewrite ?A4; cbn [option_map]).
      rewrite decode_members_nil. destruct e; reflexivity. }
  split; [split|split].
  - apply jwf_arr, Forall_map. eapply Forall_impl; [|exact X]. intros e (XA & XB & XC & XD); assumption.
  - change 10000%N with (N.succ 9999). apply jdepth_arr, Forall_map. eapply Forall_impl; [|exact X]. intros e (XA & XB & XC & XD); assumption.
  - constructor. apply Forall_map. eapply Forall_impl; [|exact X]. intros e (XA & XB & XC & XD); assumption.
  - unfold log_doc, array. induction X as [|e l (_ & _ & _ & H) F IH]; cbn [map]; constructor; [exact H|]. apply IH. now inversion W.
Qed.

(** *** Its configuration *)
Lemma noop_step_defined c k v : defined (noop_conf_step c k v) <-> (fields_ok noop_fields k v /\ fields_ok plugin_fields k v).
Proof.
  unfold noop_conf_step.
  assert (DJ : forall f, In f ["debugFile"; "commandLog"] -> key_is f k = true -> fields_ok plugin_fields k v).
  { intros f I K g P J KG. exfalso. rewrite (key_is_excl f g k) in KG; [discriminate| |exact K].
    cbn [In plugin_fields] in I, J. repeat (destruct I as [<-|I]; [repeat (destruct J as [J|J]; [injection J as <- <-; discriminate|]); destruct J|]). destruct I. }
  unfold noop_fields. rewrite fields_cons by distinct_fields.
  destruct (key_is "debugFile" k) eqn:K1; [rewrite defined_map, dec_string_defined; split; [intros H; split; [exact H|apply (DJ "debugFile"); [cbn; tauto|exact K1]]|tauto]|].
  rewrite fields_cons by distinct_fields. destruct (key_is "commandLog" k) eqn:K2; [rewrite defined_map, dec_string_defined; split; [intros H; split; [exact H|apply (DJ "commandLog"); [cbn; tauto|exact K2]]|tauto]|].
  rewrite fields_nil, defined_map, step_defined. tauto.
Qed.
Lemma noop_embedded o : forall c c', decode_members noop_conf_step c o = Some c' -> decode_members plugin_conf_step (nc_conf c) o = Some (nc_conf c').
Proof.
  induction o as [|[k v] o IH]; intros c c' H; [injection H as <-; reflexivity|].
  rewrite decode_members_cons in H. rewrite decode_members_cons. destruct (noop_conf_step c k v) as [b|] eqn:E; [|discriminate].
  assert (S : plugin_conf_step (nc_conf c) k v = Some (nc_conf b)).
  { assert (DJ : forall f, In f ["debugFile"; "commandLog"] -> key_is f k = true -> plugin_conf_step (nc_conf c) k v = Some (nc_conf c)).
    { intros f I K. unfold plugin_conf_step.
      cbn [In] in I. repeat (destruct I as [<-|I]; [match type of K with key_is ?f _ = _ =>
        rewrite (key_is_excl f "cniVersion" k), (key_is_excl f "name" k), (key_is_excl f "type" k), (key_is_excl f "capabilities" k),
          (key_is_excl f "ipam" k), (key_is_excl f "dns" k), (key_is_excl f "prevResult" k), (key_is_excl f "cni.dev/valid-attachments" k) by (discriminate || exact K); reflexivity end|]). destruct I. }
    unfold noop_conf_step in E.
    destruct (key_is "debugFile" k) eqn:K1; [rewrite (DJ "debugFile") by (cbn; tauto); destruct (dec_string (nc_debug c) v); [|discriminate]; now injection E as <-|].
    destruct (key_is "commandLog" k) eqn:K2; [rewrite (DJ "commandLog") by (cbn; tauto); destruct (dec_string (nc_log c) v); [|discriminate]; now injection E as <-|].
    destruct (plugin_conf_step (nc_conf c) k v); [|discriminate]. now injection E as <-. }
  rewrite S. now apply IH.
Qed.
Ltac nstep X := repeat match type of X with
  | (if ?b then _ else _) = Some _ => destruct b eqn:?
  | option_map _ ?o = Some _ => destruct o eqn:?; [injection X as <-|discriminate X]
  end.
Lemma tells_debug o c : decode_members noop_conf_step noop_conf_zero o = Some c -> tells "debugFile" o (nc_debug c) /\ tells "commandLog" o (nc_log c).
Proof.
  intros H. split.
  - destruct (decode_says noop_conf_step nc_debug "debugFile") with (l := o) (a := noop_conf_zero) (a' := c) as [S|[E N]]; [| |exact H|now left|right; split; [exact E|exact N]].
    + intros a k v a' X K. unfold noop_conf_step in X. rewrite K in X. nstep X; assumption || reflexivity.
    + intros a k v a' X K. unfold noop_conf_step in X. rewrite K in X. nstep X; reflexivity.
  - destruct (decode_says noop_conf_step nc_log "commandLog") with (l := o) (a := noop_conf_zero) (a' := c) as [S|[E N]]; [| |exact H|now left|right; split; [exact E|exact N]].
    + intros a k v a' X K. unfold noop_conf_step in X. rewrite (key_is_excl "commandLog" "debugFile" k), K in X by (discriminate || exact K). nstep X; assumption || reflexivity.
    + intros a k v a' X K. unfold noop_conf_step in X. rewrite K in X. nstep X; reflexivity.
Qed.
Lemma tells_version o c : decode_members plugin_conf_step plugin_conf_zero o = Some c -> tells "cniVersion" o (pc_version c).
Proof.
  intros H. destruct (decode_says plugin_conf_step pc_version "cniVersion") with (l := o) (a := plugin_conf_zero) (a' := c) as [S|[E N]]; [| |exact H|now left|right; split; [exact E|exact N]].
  - intros a k v a' X K. unfold plugin_conf_step in X. rewrite K in X. nstep X; assumption || reflexivity.
  - intros a k v a' X K. unfold plugin_conf_step in X. rewrite K in X. nstep X; try injection X as <-; reflexivity.
Qed.
Lemma tells_fun f o s t : tells f o s -> tells f o t -> s = t.
Proof.
  assert (X : forall v, says f o v -> (forall k v, In (k, v) o -> key_is f k = true -> v = JNull) -> False).
  { intros v (l1 & k & l2 & -> & K & _) A. specialize (A k (JStr v)). assert (JStr v = JNull) by (apply A; [apply in_or_app; right; now left|exact K]). discriminate. }
  intros [S|[-> A]] [T|[-> B]]; [eapply says_fun; eassumption|destruct (X _ S B)|destruct (X _ T A)|reflexivity].
Qed.
(** The configuration is read as the document tells. *)
Lemma noop_reads data o : noop_document data o -> exists c, obind (parse data) (decode_struct noop_conf_step noop_conf_zero) = Some c /\
  unmarshal_plugin_conf data = Some (nc_conf c) /\ tells "debugFile" o (nc_debug c) /\ tells "commandLog" o (nc_log c) /\ tells "cniVersion" o (pc_version (nc_conf c)).
Proof.
  intros [P D].
  assert (X : defined (decode_members noop_conf_step noop_conf_zero o)).
  { rewrite (decode_members_defined _ (fun k v => fields_ok noop_fields k v /\ fields_ok plugin_fields k v)) by (intros; apply noop_step_defined). exact D. }
  destruct X as [c C]. exists c. rewrite P. cbn [obind decode_struct]. split; [exact C|]. pose proof (noop_embedded _ _ _ C) as E.
  split; [unfold unmarshal_plugin_conf; rewrite P; exact E|]. destruct (tells_debug _ _ C) as [T1 T2]. split; [exact T1|]. split; [exact T2|]. now apply tells_version.
Qed.
Lemma noop_reads_only data c : obind (parse data) (decode_struct noop_conf_step noop_conf_zero) = Some c -> (exists o, noop_document data o) \/ parse data = Some JNull.
Proof.
  unfold noop_document. destruct (parse data) as [j|]; [|discriminate]. cbn [obind]. destruct j as [| | | | |o]; try discriminate; [now right|]. cbn [decode_struct]. intros C.
  left. exists o. split; [reflexivity|]. apply (decode_members_defined noop_conf_step (fun k v => fields_ok noop_fields k v /\ fields_ok plugin_fields k v)) with (a := noop_conf_zero); [intros; apply noop_step_defined|now exists c].
Qed.

(** *** Its arguments *)
Lemma extra_loop l : forall m items, map (split_on "="%char) items = map (fun kv => [fst kv; snd kv]) l ->
  exists m', extra_args_loop items m = Ok m' /\ forall k, sget k m' = match last_value k l with Some v => Some v | None => sget k m end.
Proof.
  induction l as [|[k v] l IH]; intros m items E; destruct items as [|i items]; try discriminate; cbn [map] in E.
  - exists m. split; reflexivity.
  - injection E as E1 E2. cbn [extra_args_loop fst snd] in *. rewrite E1. destruct (IH (sset k v m) items E2) as (m' & L & G). exists m'. split; [exact L|].
    intros q. rewrite G. cbn [last_value]. destruct (last_value q l); [reflexivity|].
    destruct (String.eqb_spec q k) as [->|N]; [now rewrite sget_sset_same|now rewrite sget_sset_other by congruence].
Qed.
Lemma arg_text l : String.concat ";" (map (fun kv => fst kv ++ "=" ++ snd kv) l) = stringify l.
Proof. reflexivity. Qed.
Lemma extra_pairs args l : arg_pairs args l -> exists m, parse_extra_args args = Ok m /\ sget "DEBUG" m = last_value "DEBUG" l.
Proof.
  intros [P E]. unfold parse_extra_args. destruct l as [|kv l].
  - cbn in E. subst args. exists []. split; reflexivity.
  - assert (N : kv :: l <> []) by discriminate. rewrite arg_text in E. destruct (String.eqb_spec args "") as [X|X]; [destruct (stringify_nonempty _ N); congruence|].
    rewrite E. destruct (extra_loop _ [] _ (stringify_pairs _ N P)) as (m & L & G). exists m. split; [exact L|]. rewrite G. destruct (last_value "DEBUG" (kv :: l)); reflexivity.
Qed.
Lemma extra_pairs_only args m : parse_extra_args args = Ok m -> exists l, arg_pairs args l.
Proof.
  unfold parse_extra_args, arg_pairs. destruct (String.eqb_spec args "") as [->|N]; [intros _; exists []; split; [constructor|reflexivity]|]. intros H.
  assert (S : forall items m m', extra_args_loop items m = Ok m' -> forall p, In p items -> exists k v, split_on "="%char p = [k; v]).
  { induction items as [|i items IH]; intros m0 m1 E p I; [destruct I|]. cbn [extra_args_loop] in E.
    destruct (split_on "="%char i) as [|k [|v [|z zs]]] eqn:SI; try discriminate. destruct I as [<-|I]; [eauto|eapply IH; eassumption]. }
  destruct (plain_of_split args (S _ _ _ H)) as (l & _ & P & E). exists l. split; [exact P|]. now rewrite arg_text.
Qed.
