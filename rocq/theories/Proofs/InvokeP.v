(** Running a plugin and reading its answers. *)
From Coq Require Import String Ascii List Arith ZArith NArith Bool Lia.
From Verif Require Import Model.GoStr Model.Utf8 Model.Errors Model.Version Model.Json Model.Num Model.GoJson
  Model.NetIP Model.Types Model.Conf Model.Args Model.Invoke
  Spec.VersionSpec Spec.NameSpec Spec.JsonSpec Spec.ConfSpec Spec.InvokeSpec
  Proofs.StrP Proofs.Utf8P Proofs.JsonP Proofs.JsonRT Proofs.NumP Proofs.GoJsonP Proofs.ConfP Proofs.LoadP.
Import ListNotations.
Open Scope nat_scope.
Open Scope string_scope.

(** *** The retry loop *)
Lemma prefix_iff sub s : String.prefix sub s = true <-> exists b, s = sub ++ b.
Proof. split; [intros H; eexists; now apply prefix_app_sdrop|]. intros (b & ->). apply prefix_app. Qed.
Lemma contains_str_iff sub s : contains_str sub s = true <-> exists a b, s = a ++ sub ++ b.
Proof.
  induction s as [|c s IH]; cbn [contains_str]; rewrite orb_true_iff, prefix_iff.
  - split.
    + intros [(b & E)|H]; [|discriminate]. now exists "", b.
    + intros (a & b & E). left. destruct a; [|discriminate]. now exists b.
  - rewrite IH. split.
    + intros [(b & E)|(a & b & ->)]; [now exists "", b|now exists (String c a), b].
    + intros (a & b & E). destruct a as [|d a]; [left; now exists b|]. injection E as <- ->. right. now exists a, b.
Qed.
Lemma busy_iff o : busy o <-> match ro_err o with Some e => contains_str text_file_busy e = true | None => False end.
Proof.
  unfold busy, text_file_busy. split.
  - intros (e & a & b & -> & E). apply contains_str_iff. eauto.
  - destruct (ro_err o) as [e|]; [|intros []]. intros H. apply contains_str_iff in H. destruct H as (a & b & ->). eauto 6.
Qed.

Definition sofar (f : run_outcome -> string) (runs : nat -> run_outcome) (i : nat) : string :=
  match i with O => "" | S m => output f runs m end.
Lemma sofar_S f runs i : sofar f runs (S i) = sofar f runs i ++ f (runs i).
Proof. destruct i; reflexivity. Qed.
Lemma exec_loop_busy runs : forall left i, (forall j, i <= j < i + left -> busy (runs j)) ->
  exec_loop left i runs (sofar ro_stdout runs i) (sofar ro_stderr runs i) = (Ok (sofar ro_stdout runs (i + left)), i + left).
Proof.
  induction left as [|left IH]; intros i B; cbn [exec_loop]; [now rewrite Nat.add_0_r|].
  pose proof (B i ltac:(lia)) as X. apply busy_iff in X. destruct (ro_err (runs i)) as [e|]; [|destruct X]. rewrite X.
  rewrite <- !sofar_S, IH by (intros j J; apply B; lia). now rewrite <- Nat.add_succ_comm.
Qed.
Lemma exec_loop_ends runs n : ~ busy (runs n) -> forall left i, i <= n < i + left -> (forall j, i <= j < n -> busy (runs j)) ->
  exec_loop left i runs (sofar ro_stdout runs i) (sofar ro_stderr runs i) =
  (match ro_err (runs n) with
   | None => Ok (output ro_stdout runs n)
   | Some e => Err (plugin_err e (output ro_stdout runs n) (output ro_stderr runs n))
   end, S n).
Proof.
  intros NB. induction left as [|left IH]; intros i L B; cbn [exec_loop]; [lia|].
  destruct (Nat.eq_dec i n) as [->|N].
  - rewrite busy_iff in NB. rewrite <- !sofar_S. cbn [sofar].
    destruct (ro_err (runs n)) as [e|]; [|reflexivity]. now destruct (contains_str text_file_busy e).
  - pose proof (B i ltac:(lia)) as X. apply busy_iff in X. destruct (ro_err (runs i)) as [e|]; [|destruct X]. rewrite X.
    rewrite <- !sofar_S. apply IH; [lia|]. intros j J. apply B. lia.
Qed.
Lemma busy_dec o : busy o \/ ~ busy o.
Proof. rewrite busy_iff. destruct (ro_err o) as [e|]; [|tauto]. destruct (contains_str text_file_busy e); [now left|now right]. Qed.
Lemma first_not_busy runs n : (forall j, j < n -> busy (runs j)) \/ (exists m, m < n /\ ~ busy (runs m) /\ forall j, j < m -> busy (runs j)).
Proof.
  induction n as [|n [IH|(m & L & N & B)]]; [left; lia| |right; exists m; split; [lia|auto]].
  destruct (busy_dec (runs n)) as [B|B].
  - left. intros j J. destruct (Nat.eq_dec j n) as [->|]; [exact B|apply IH; lia].
  - right. exists n. auto.
Qed.

(** *** Fields of structs *)
Lemma decode_says {A} (step : A -> string -> json -> option A) (f : A -> string) field :
  (forall a k v a', step a k v = Some a' -> key_is field k = true -> dec_string (f a) v = Some (f a')) ->
  (forall a k v a', step a k v = Some a' -> key_is field k = false -> f a' = f a) ->
  forall l a a', decode_members step a l = Some a' ->
  says field l (f a') \/ (f a' = f a /\ forall k v, In (k, v) l -> key_is field k = true -> v = JNull).
Proof.
  intros Hy Hn. induction l as [|[k v] l IH]; intros c c' H.
  - injection H as <-. right. split; [reflexivity|]. intros ? ? [].
  - rewrite decode_members_cons in H. destruct (step c k v) as [b|] eqn:E; [|discriminate].
    destruct (IH _ _ H) as [(l1 & k' & l2 & -> & K & R)|[T R]].
    + left. exists ((k, v) :: l1), k', l2. auto.
    + destruct (key_is field k) eqn:K.
      * pose proof (Hy _ _ _ _ E K) as D. destruct v; try discriminate; cbn in D; injection D as D.
        -- right. split; [congruence|]. intros k' v' [X|I] K'; [now injection X as <- <-|eauto].
        -- left. exists [], k, l. rewrite T, <- D. auto.
      * right. split; [now rewrite T, (Hn _ _ _ _ E K)|].
        intros k' v' [X|I] K'; [injection X as <- <-; congruence|eauto].
Qed.
Lemma declares_fun o a b : declares o a -> declares o b -> a = b.
Proof.
  assert (X : forall v, says "cniVersion" o v -> (forall k v, In (k, v) o -> key_is "cniVersion" k = true -> v = JNull) -> False).
  { intros v (l1 & k & l2 & -> & K & _) A. specialize (A k (JStr v)). assert (JStr v = JNull) by (apply A; [apply in_or_app; right; now left|exact K]). discriminate. }
  intros [x S|N] [y T|M]; [eapply says_fun; eassumption|destruct (X _ S M)|destruct (X _ T N)|reflexivity].
Qed.
(** The last matching member decides a field that every member overwrites. *)
Lemma decode_last {A B} (step : A -> string -> json -> option A) (f : A -> B) (dec : json -> option B) field :
  (forall a k v a', step a k v = Some a' -> key_is field k = true -> dec v = Some (f a')) ->
  (forall a k v a', step a k v = Some a' -> key_is field k = false -> f a' = f a) ->
  forall l a a', decode_members step a l = Some a' ->
  match last_match field l with Some v => dec v = Some (f a') | None => f a' = f a end.
Proof.
  intros Hy Hn. induction l as [|[k v] l IH]; intros c c' H.
  - injection H as <-. reflexivity.
  - rewrite decode_members_cons in H. destruct (step c k v) as [b|] eqn:E; [|discriminate]. cbn [last_match].
    specialize (IH _ _ H). destruct (last_match field l); [exact IH|].
    destruct (key_is field k) eqn:K; rewrite IH; [now apply (Hy _ _ _ _ E)|now apply (Hn _ _ _ _ E)].
Qed.

(** *** Version information *)
Definition info_step (i : plugin_info) (k : string) (v : json) : option plugin_info :=
  if key_is "cniVersion" k then
    option_map (fun x => {| pi_version := x; pi_supported := pi_supported i |}) (dec_string (pi_version i) v)
  else if key_is "supportedVersions" k then
    option_map (fun x => {| pi_version := pi_version i; pi_supported := x |}) (dec_strs v)
  else Some i.
Lemma dec_plugin_info_eq j : dec_plugin_info j = decode_struct info_step {| pi_version := ""; pi_supported := [] |} j.
Proof. reflexivity. Qed.
Definition info_fields : list (string * (json -> Prop)) :=
  [("cniVersion", text_or_null); ("supportedVersions", list_or_null text_or_null)].
Lemma info_step_defined a k v : defined (info_step a k v) <-> fields_ok info_fields k v.
Proof.
  unfold info_step, info_fields. field_chain; rewrite ?dec_strs_defined; try reflexivity.
  split; [auto|intros _; apply defined_some].
Qed.
Lemma dec_strs_texts v l : dec_strs v = Some l -> l = texts_of (Some v).
Proof.
  unfold dec_strs, dec_list, texts_of. destruct v as [| | | |xs|]; try discriminate; [now injection 1 as <-|].
  revert l. induction xs as [|x xs IH]; intros l H; cbn [dec_all] in H; [now injection H as <-|].
  destruct (dec_string "" x) as [s|] eqn:E; [|discriminate]. destruct (dec_all (dec_string "") xs) as [l'|]; [|discriminate].
  injection H as <-. cbn [map]. rewrite <- (IH l' eq_refl). f_equal. destruct x; try discriminate; cbn in E; now injection E as <-.
Qed.
Lemma dec_info_iff j i : dec_plugin_info j = Some i <->
  (j = JNull /\ i = {| pi_version := ""; pi_supported := [] |}) \/
  (exists o, j = JObj o /\ (forall k v, In (k, v) o -> fields_ok info_fields k v) /\
     declares o (pi_version i) /\ pi_supported i = texts_of (last_match "supportedVersions" o)).
Proof.
  rewrite dec_plugin_info_eq. unfold decode_struct.
  assert (F : forall o i, decode_members info_step {| pi_version := ""; pi_supported := [] |} o = Some i ->
    declares o (pi_version i) /\ pi_supported i = texts_of (last_match "supportedVersions" o)).
  { intros o x H. split.
    - destruct (decode_says info_step pi_version "cniVersion") with (l := o) (2 := fun a k v a' => fun (X : info_step a k v = Some a') => fun (K : key_is "cniVersion" k = false) =>
        ltac:(unfold info_step in X; rewrite K in X; destruct (key_is "supportedVersions" k); [destruct (dec_strs v); [|discriminate]|]; now injection X as <-) : pi_version a' = pi_version a) (3 := H) as [S|[E N]].
      + intros a k v a' X K. unfold info_step in X. rewrite K in X. destruct (dec_string (pi_version a) v); [|discriminate]. now injection X as <-.
      + now constructor.
      + rewrite E. now constructor.
    - pose proof (decode_last info_step pi_supported dec_strs "supportedVersions") as L. specialize L with (3 := H).
      assert (L' := L ltac:(intros a k v a' X K; unfold info_step in X; rewrite (key_is_excl "supportedVersions" "cniVersion" k), K in X by (discriminate || assumption); destruct (dec_strs v); [|discriminate]; now injection X as <-)
                      ltac:(intros a k v a' X K; unfold info_step in X; rewrite K in X; destruct (key_is "cniVersion" k); [destruct (dec_string (pi_version a) v); [|discriminate]|]; now injection X as <-)).
      destruct (last_match "supportedVersions" o) as [v|]; [now apply dec_strs_texts|exact L']. }
  split.
  - destruct j as [| | | | |o]; try discriminate; intros H; [left; injection H as <-; auto|]. right. exists o. split; [reflexivity|].
    split; [|now apply F]. apply (decode_members_defined info_step _ info_step_defined o {| pi_version := ""; pi_supported := [] |}). rewrite H. apply defined_some.
  - intros [(-> & ->)|(o & -> & T & D & L)]; [reflexivity|].
    assert (X : defined (decode_members info_step {| pi_version := ""; pi_supported := [] |} o)) by now apply (decode_members_defined info_step _ info_step_defined).
    destruct X as [i' X]. destruct (F _ _ X) as (D' & L'). rewrite X. f_equal. destruct i as [v l], i' as [v' l']. cbn in *.
    rewrite (declares_fun _ _ _ D D'). now rewrite L, L'.
Qed.

(** *** The version of a configuration *)
Lemma decode_version_iff b v : Types.decode_version b = Ok v <-> conf_version b v \/ (parse b = Some JNull /\ v = "0.1.0").
Proof.
  unfold Types.decode_version, conf_version, dec_cni_version, obind. destruct (parse b) as [j|]; [|split; [discriminate|intros [(o & d & X & _)|(X & _)]; discriminate]].
  unfold decode_struct. set (step := fun v k x => if key_is "cniVersion" k then dec_string v x else Some v).
  assert (SD : forall a k x, defined (step a k x) <-> fields_ok [("cniVersion", text_or_null)] k x).
  { intros a k x. unfold step. field_chain; try reflexivity. split; [auto|intros _; apply defined_some]. }
  assert (F : forall o d, decode_members step "" o = Some d -> declares o d).
  { intros o d H. pose proof (decode_says step (fun s => s) "cniVersion") as L. specialize L with (3 := H).
    destruct L as [S|[E N]]; [| |now constructor|cbn in E; subst d; now constructor].
    - intros a k x a' X K. unfold step in X. now rewrite K in X.
    - intros a k x a' X K. unfold step in X. rewrite K in X. now injection X. }
  destruct j as [| | | | |o]; try (split; [discriminate|intros [(o & d & X & _)|(X & _)]; discriminate]).
  - cbn. split; [intros H; injection H as <-; right; auto|]. intros [(o & d & X & _)|(_ & ->)]; [discriminate|reflexivity].
  - split.
    + destruct (decode_members step "" o) as [d|] eqn:D; [|discriminate]. intros H. injection H as <-. left. exists o, d. split; [reflexivity|].
      split; [now apply F|]. split; [|reflexivity]. intros k x I K.
      apply (proj1 (decode_members_defined step _ SD o "") (ex_intro _ d D) k x I _ _ (or_introl eq_refl) K).
    + intros [(o' & d & X & D & T & ->)|(X & _)]; [|discriminate]. injection X as <-.
      assert (Y : defined (decode_members step "" o)).
      { apply (decode_members_defined step _ SD). intros k x I f P [E|[]]. injection E as <- <-. intros K. eapply T; eassumption. }
      destruct Y as [d' Y]. rewrite Y. now rewrite (declares_fun _ _ _ D (F _ _ Y)).
Qed.
Lemma decode_version_not_panic b : Types.decode_version b <> Panic.
Proof. unfold Types.decode_version. destruct (obind (parse b) dec_cni_version); discriminate. Qed.

(** *** Errors *)
Lemma atou_itoaN n : (n < 2 ^ 64)%N -> atou (itoaN n) = Some n.
Proof. intros H. unfold atou. rewrite digits_itoaN. apply N.ltb_lt in H. now rewrite H. Qed.
Lemma enc_error_encodable c m d : well_formed_text m -> well_formed_text d -> encodable (enc_error c m d).
Proof.
  intros M D. split.
  - unfold enc_error. apply jwf_obj. apply Forall_app. split.
    + constructor; [split; [apply valid_utf8_wf; reflexivity|apply number_lit_spec, valid_number_itoaN]|].
      constructor; [split; [apply valid_utf8_wf; reflexivity|exact M]|constructor].
    + unfold fld_str, omit_if. destruct (String.eqb d ""); constructor; [split; [apply valid_utf8_wf; reflexivity|exact D]|constructor].
  - unfold enc_error. apply N.le_trans with (N.succ 0); [|lia]. apply jdepth_obj. apply Forall_app. split.
    + repeat constructor; cbn; lia.
    + unfold fld_str, omit_if. destruct (String.eqb d ""); repeat constructor; cbn; lia.
Qed.
Lemma error_round_trip c m d : (c < 2 ^ 64)%N -> well_formed_text m -> well_formed_text d ->
  unmarshal_error (print_error c m d) = ({| e_code := c; e_msg := m; e_details := d |}, false).
Proof.
  intros C M D. unfold unmarshal_error, print_error. rewrite (parse_print_indent _ (enc_error_encodable c m d M D)).
  unfold enc_error. rewrite fold_left_app. cbn [fold_left error_step].
  change (key_is "code" "code") with true. change (key_is "code" "msg") with false. change (key_is "msg" "msg") with true.
  cbn [dec_uint dec_string cni_error_zero e_code e_msg e_details]. rewrite (atou_itoaN c C).
  unfold fld_str, omit_if. destruct (String.eqb_spec d "") as [->|N]; cbn [fold_left error_step]; [reflexivity|].
  change (key_is "code" "details") with false. change (key_is "msg" "details") with false. change (key_is "details" "details") with true. reflexivity.
Qed.
Lemma print_error_nonempty c m d : print_error c m d <> "".
Proof. unfold print_error, print_indent, enc_error. destruct (pr_obj_head indent_nl " " 0 ([("code", JNum (itoaN c)); ("msg", JStr m)] ++ fld_str "details" d)%list) as (r & ->). discriminate. Qed.
