(** Delegation and cnitool. *)
From Coq Require Import String Ascii List Arith ZArith NArith Bool Lia Permutation.
From Verif Require Import Model.GoStr Model.Errors Model.Args Model.Path Model.Validate Model.Json Model.GoJson Model.Types Model.Conf Model.Invoke Model.Prog Model.Api Model.Delegate Model.Cnitool
  Spec.EnvSpec Spec.NameSpec Spec.PathSpec Spec.ConfSpec Spec.RunSpec Spec.ToolSpec
  Proofs.StrP Proofs.EnvP Proofs.ValidateP Proofs.PathP Proofs.GoJsonP Proofs.LoadP Proofs.ProgP.
Import ListNotations.
Open Scope nat_scope.
Open Scope string_scope.

Lemma split_list_iff s l : split_list s = l <-> search_path s l.
Proof.
  unfold split_list, search_path. destruct (String.eqb_spec s "") as [->|N].
  - split; [intros <-; now left|]. intros [(_ & ->)|(H & _)]; [reflexivity|congruence].
  - split.
    + intros <-. right. split; [exact N|]. split; [apply split_on_nonnil|]. split; [symmetry; apply join_split_on|].
      eapply Forall_impl; [|apply split_on_parts]. intros x. apply lacks_cb.
    + intros [(H & _)|(_ & NN & -> & F)]; [contradiction|].
      apply (split_on_join ":"%char l); [exact NN|]. eapply Forall_impl; [|exact F]. intros x. apply lacks_cb.
Qed.

Lemma last_assigned_app environ k' v' k v : lacks "="%char k' ->
  (last_assigned (environ ++ [(k' ++ "=" ++ v')%string])%list k v <-> if String.eqb k k' then v = v' else last_assigned environ k v).
Proof.
  intros L. rewrite <- !last_get_pairs, pairs_app, last_get_app.
  assert (P : pairs [k' ++ "=" ++ v'] = [(k', v')]).
  { unfold pairs. cbn [flat_map]. replace (cut_on "="%char (k' ++ "=" ++ v')) with (Some (k', v')); [reflexivity|]. symmetry. apply assigns_cut. now split. }
  rewrite P. cbn [last_get]. destruct (String.eqb_spec k k') as [->|N]; [|apply last_get_pairs]. split; congruence.
Qed.
Lemma delegate_env_ok environ verb env : Permutation (delegate_as_env environ verb) env -> delegated_env environ verb env.
Proof.
  unfold delegate_as_env. intros P. assert (L : lacks "="%char "CNI_COMMAND") by now apply lacks_cb. split; [|split; [|split]].
  - apply (out_getenv _ _ P); [discriminate|]. apply (last_assigned_app environ "CNI_COMMAND" verb); [exact L|reflexivity].
  - exact (out_once _ _ P).
  - intros e k v N A. rewrite (out_iff _ _ P k v e A). change ("CNI_COMMAND=" ++ verb) with ("CNI_COMMAND" ++ "=" ++ verb).
    rewrite (last_assigned_app environ "CNI_COMMAND" verb k v L). destruct (String.eqb_spec k "CNI_COMMAND"); [contradiction|reflexivity].
  - intros e LE. rewrite (out_bare _ _ P e LE), count_occ_app.
    assert (count_occ string_dec ["CNI_COMMAND=" ++ verb] e = 0); [|lia].
    apply count_occ_not_In. intros [<-|[]]. apply lacks_cb in LE. discriminate.
Qed.

Lemma runs_environ fl w tr w' e : runs fl get_environ w tr w' e <-> tr = [(OpEnviron, REnv e)] /\ w' = w.
Proof.
  unfold get_environ. rewrite runs_do. split.
  - intros (x & w1 & tr1 & -> & An & R). inversion An; subst. apply runs_ret in R. destruct R as (-> & -> & ->). auto.
  - intros (-> & ->). exists (REnv e), w, []. split; [reflexivity|]. split; [constructor|constructor].
Qed.
Lemma runs_run fl path stdin env w tr w' r : runs fl (run_plugin path stdin env) w tr w' r <->
  tr = [(OpExec path stdin env, RStr r)] /\ w' = w /\ is_panic r = false.
Proof.
  unfold run_plugin. rewrite runs_do. split.
  - intros (x & w1 & tr1 & -> & An & R). apply runs_ret in R. destruct R as (-> & -> & ->). inversion An; subst. auto.
  - intros (-> & -> & P). exists (RStr r), w, []. split; [reflexivity|]. split; [now constructor|constructor].
Qed.
(** Any program that starts by looking up and running a delegate. *)
Lemma delegate_inv fl A plugin netconf verb (f : string -> res A) w tr w' (b : res A) :
  runs fl (rbindp (delegate_common plugin) (fun p => rbindp (exec_delegate p netconf verb) (fun out => lift (f out)))) w tr w' b ->
  w' = w /\ exists found, delegation plugin netconf verb tr found /\
  ((exists e, found = Err e /\ b = Err e) \/
   (exists path x, found = Ok path /\ calls tr = [x] /\ call_path x = path /\ call_stdin x = netconf /\
      ((exists e, call_answer x = Err e /\ b = Err e) \/ (exists out, call_answer x = Ok out /\ b = f out)))).
Proof.
  intros H. apply runs_rbindp in H. unfold delegate_common, exec_delegate in H.
  assert (D : forall tr1 w1 r, runs fl (bind get_environ (fun env => find_plugin plugin (split_list (getenv env "CNI_PATH")))) w tr1 w1 r ->
    w1 = w /\ is_panic r = false /\ exists environ, tr1 = [(OpEnviron, REnv environ); (OpFind plugin (split_list (getenv environ "CNI_PATH")), RStr r)]).
  { intros tr1 w1 r R. apply runs_bind in R. destruct R as (ta & wa & env & tb & Ra & Rb & ->). apply runs_environ in Ra. destruct Ra as (-> & ->).
    apply runs_find in Rb. destruct Rb as (-> & -> & P). split; [reflexivity|]. split; [exact P|]. exists env. reflexivity. }
  destruct H as [(tr1 & w1 & path & tr2 & R1 & R2 & ->)|[(e & -> & R1)|(-> & R1)]].
  - destruct (D _ _ _ R1) as (-> & _ & environ & ->). apply runs_rbindp in R2.
    assert (D2 : forall tr1 w1 r, runs fl (bind get_environ (fun env => run_plugin path netconf (delegate_as_env env verb))) w tr1 w1 r ->
      w1 = w /\ is_panic r = false /\ exists env, tr1 = [(OpEnviron, REnv env); (OpExec path netconf (delegate_as_env env verb), RStr r)]).
    { intros tr1 w1 r R. apply runs_bind in R. destruct R as (ta & wa & env & tb & Ra & Rb & ->). apply runs_environ in Ra. destruct Ra as (-> & ->).
      apply runs_run in Rb. destruct Rb as (-> & -> & P). split; [reflexivity|]. split; [exact P|]. exists env. reflexivity. }
    assert (G : forall r env, delegation plugin netconf verb
       ([(OpEnviron, REnv environ); (OpFind plugin (split_list (getenv environ "CNI_PATH")), RStr (Ok path))] ++ [(OpEnviron, REnv env); (OpExec path netconf (delegate_as_env env verb), RStr r)])%list (Ok path)).
    { intros r env. exists environ, (split_list (getenv environ "CNI_PATH")). split; [now apply split_list_iff|]. exists env, (delegate_as_env env verb), r.
      split; [now apply delegate_env_ok|reflexivity]. }
    destruct R2 as [(tr3 & w3 & out & tr4 & R3 & R4 & ->)|[(e & -> & R3)|(-> & R3)]].
    + destruct (D2 _ _ _ R3) as (-> & _ & env & ->). apply runs_lift in R4. destruct R4 as (-> & -> & ->). split; [reflexivity|].
      rewrite app_nil_r. exists (Ok path). split; [apply G|]. right. exists path. eexists. split; [reflexivity|]. split; [reflexivity|]. cbn. eauto 8.
    + destruct (D2 _ _ _ R3) as (-> & _ & env & ->). split; [reflexivity|].
      exists (Ok path). split; [apply G|]. right. exists path. eexists. split; [reflexivity|]. split; [reflexivity|]. cbn. eauto 8.
    + destruct (D2 _ _ _ R3) as (_ & P & _). discriminate.
  - destruct (D _ _ _ R1) as (-> & _ & environ & ->). split; [reflexivity|]. exists (Err e). split; [|eauto].
    exists environ, (split_list (getenv environ "CNI_PATH")). split; [now apply split_list_iff|reflexivity].
  - destruct (D _ _ _ R1) as (_ & P & _). discriminate.
Qed.

(** *** cnitool *)
Lemma parse_args_pairs_iff : forall pairs l, parse_args_pairs pairs = Ok l <->
  pairs = map (fun kv => fst kv ++ "=" ++ snd kv) l /\
  Forall (fun kv => fst kv <> "" /\ snd kv <> "" /\ lacks "="%char (fst kv) /\ lacks "="%char (snd kv)) l.
Proof.
  induction pairs as [|kv pairs IH]; intros l; cbn [parse_args_pairs].
  - split; [intros H; injection H as <-; auto|]. intros (E & _). destruct l; [reflexivity|discriminate].
  - split.
    + destruct (split_on "="%char kv) as [|k [|v [|z t]]] eqn:E; try discriminate.
      destruct (String.eqb_spec k "") as [|NK]; [discriminate|]. destruct (String.eqb_spec v "") as [|NV]; [discriminate|]. cbn [orb].
      destruct (parse_args_pairs pairs) as [l'|e|]; try discriminate. intros H. injection H as <-.
      destruct (proj1 (IH l') eq_refl) as (-> & F). pose proof (join_split_on "="%char kv) as J. rewrite E in J.
      pose proof (split_on_parts "="%char kv) as SP. rewrite E in SP. inversion SP as [|x1 l1 A1 B1]; subst. inversion B1 as [|x2 l2 A2 B2]; subst.
      split; [reflexivity|]. constructor; [|exact F]. cbn [fst snd]. rewrite !lacks_cb. auto.
    + intros (E & F). destruct l as [|(k, v) l]; [discriminate|]. cbn [map fst snd] in E. injection E as EK ->.
      apply Forall_cons_iff in F. destruct F as ((NK & NV & LK & LV) & F2). cbn [fst snd] in *.
      assert (SJ : split_on "="%char kv = [k; v]) by (rewrite EK; apply (split_on_join "="%char [k; v]); [discriminate|repeat constructor; now apply lacks_cb]).
      rewrite SJ.
      destruct (String.eqb_spec k "") as [|_]; [contradiction|]. destruct (String.eqb_spec v "") as [|_]; [contradiction|]. cbn [orb].
      rewrite (proj2 (IH l) (conj eq_refl F2)). reflexivity.
Qed.
Lemma lacks_app c a b : lacks c (a ++ b) <-> lacks c a /\ lacks c b.
Proof. rewrite !lacks_cb, contains_byte_app, orb_false_iff. reflexivity. Qed.
Lemma args_written_iff s l : (if String.eqb s "" then Ok [] else parse_args s) = Ok l <-> args_written s l.
Proof.
  unfold args_written, parse_args. destruct (String.eqb_spec s "") as [->|N].
  - split; [intros H; injection H as <-; now left|]. intros [(_ & ->)|(NN & E & F)]; [reflexivity|].
    destruct l as [|(k, v) l]; [congruence|]. inversion F as [|x l1 (NK & _) F2]; subst. cbn [fst map] in *.
    destruct k; [congruence|]. destruct l; discriminate.
  - rewrite parse_args_pairs_iff. split.
    + intros (E & F). right. pose proof (join_split_on ";"%char s) as J. pose proof (split_on_parts ";"%char s) as SP. pose proof (split_on_nonnil ";"%char s) as NN. rewrite E in J, SP, NN.
      split; [intros ->; now destruct NN|]. split; [now symmetry|].
      rewrite Forall_forall in *. intros kv I. destruct (F kv I) as (NK & NV & LK & LV). specialize (SP _ (in_map _ _ _ I)). cbn beta in SP.
      apply lacks_cb in SP. apply lacks_app in SP. destruct SP as (SK & SV). change ("=" ++ snd kv) with ("=" ++ snd kv) in SV. apply lacks_app in SV. unfold plain. tauto.
    + intros [(E & _)|(NN & -> & F)]; [contradiction|]. split.
      * apply (split_on_join ";"%char); [destruct l; [congruence|discriminate]|]. apply Forall_map. eapply Forall_impl; [|exact F].
        intros (k, v) (_ & _ & (_ & A) & (_ & B)). cbn [fst snd] in *. apply lacks_cb. apply lacks_app. split; [exact A|]. apply lacks_app. split; [now apply lacks_cb|exact B].
      * eapply Forall_impl; [|exact F]. intros (k, v) (A & B & (C & _) & (D & _)). auto.
Qed.
Lemma caps_written_iff s m : (if String.eqb s "" then Ok []
        else match unmarshal_map s with None => Err (EJson "CAP_ARGS") | Some None => Ok [] | Some (Some m) => Ok m end) = Ok m <-> caps_written s m.
Proof.
  unfold caps_written. destruct (String.eqb_spec s "") as [->|N].
  - split; [intros H; injection H as <-; now left|]. intros [(_ & ->)|[(H & _)|(H & _)]]; [reflexivity|congruence|discriminate].
  - rewrite decodes_iff. destruct (unmarshal_map s) as [[x|]|] eqn:U.
    + split; [intros H; injection H as <-; auto|]. intros [(H & _)|[(_ & H)|(H & _)]]; [congruence|injection H as ->; reflexivity|]. unfold unmarshal_map in U. rewrite H in U. discriminate.
    + split; [intros H; injection H as <-|].
      * right. right. split; [|reflexivity]. unfold unmarshal_map in U. destruct (parse s) as [j|]; [|discriminate]. unfold decode_map in U. destruct j; try discriminate; [reflexivity|].
        exfalso. destruct (norm _) as [[]|]; discriminate.
      * intros [(H & _)|[(_ & H)|(H & ->)]]; [congruence|discriminate|reflexivity].
    + split; [discriminate|]. intros [(H & _)|[(_ & H)|(H & _)]]; [congruence|discriminate|]. unfold unmarshal_map in U. rewrite H in U. discriminate.
Qed.
Lemma abs_path_iff cwd arg p : abs_path cwd arg = Ok p <-> absolute cwd arg p.
Proof.
  unfold abs_path, absolute. destruct (is_rooted arg).
  - split; [intros H; injection H as <-; auto|]. intros [(_ & ->)|(H & _)]; [reflexivity|discriminate].
  - destruct cwd as [d|].
    + split; [intros H; injection H as <-; eauto|]. intros [(H & _)|(_ & d' & E & ->)]; [discriminate|]. injection E as <-. reflexivity.
    + split; [discriminate|]. intros [(H & _)|(_ & d' & E & ->)]; discriminate.
Qed.
Lemma never_assigned_lookup env k : never_assigned env k <-> lookup_env env k = None.
Proof.
  split; [apply lookup_none|]. rewrite lookup_env_pairs, never_assigned_get, last_get_none. intros H I.
  apply (sget_skeys k) in I. destruct I as [v I]. congruence.
Qed.
Lemma ifname_iff env n : let v := match lookup_env env "CNI_IFNAME" with Some v => v | None => "eth0" end in
  n = v <-> (never_assigned env "CNI_IFNAME" -> n = "eth0") /\ (~ never_assigned env "CNI_IFNAME" -> n = getenv env "CNI_IFNAME").
Proof.
  cbn zeta. rewrite never_assigned_lookup. unfold getenv. cbn [String.eqb]. destruct (lookup_env env "CNI_IFNAME") as [v|].
  - split; [intros ->; split; [discriminate|auto]|]. intros (_ & H). apply H. discriminate.
  - split; [intros ->; split; [auto|congruence]|]. intros (H & _). auto.
Qed.
Lemma tool_setup_iff te cmd c l rt : tool_setup te = Ok (cmd, c, l, rt) <-> tool_request te cmd c l rt.
Proof.
  unfold tool_setup, tool_request, tool_container_id.
  pose proof (caps_written_iff (getenv (te_environ te) "CAP_ARGS")) as CW. pose proof (args_written_iff (getenv (te_environ te) "CNI_ARGS")) as AW.
  split.
  - destruct (te_argv te) as [|cmd' [|net [|ns more]]]; try discriminate. unfold rbind.
    set (dir := if String.eqb _ "" then _ else _). destruct (load_network_conf (te_fs te) dir net) as [l'|e|] eqn:L; try discriminate.
    match goal with |- context [match ?x with Ok _ => _ | Err _ => _ | Panic => _ end] => destruct x as [caps|e|] eqn:E1; try discriminate end.
    match goal with |- context [match ?x with Ok _ => _ | Err _ => _ | Panic => _ end] => destruct x as [ar|e|] eqn:E2; try discriminate end.
    destruct (abs_path (te_cwd te) ns) as [p|e|] eqn:E3; try discriminate. intros H. injection H as <- <- <- <-. exists net, ns, more. cbn [c_path c_cache_dir rt_container rt_netns rt_ifname rt_args rt_caps rt_cache_dir].
    split; [reflexivity|]. split; [exact L|]. split; [now apply split_list_iff|]. split; [reflexivity|]. split; [now apply abs_path_iff|]. split; [reflexivity|].
    pose proof (proj1 (ifname_iff (te_environ te) _) eq_refl) as (I1 & I2). split; [exact I1|]. split; [exact I2|]. split; [now apply AW|]. split; [now apply CW|reflexivity].
  - intros (net & ns & more & -> & L & SP & CD & AB & ID & I1 & I2 & AR & CA & RD). unfold rbind. rewrite L.
    apply CW in CA. rewrite CA. apply AW in AR. rewrite AR. apply abs_path_iff in AB. rewrite AB. apply split_list_iff in SP. rewrite SP.
    pose proof (proj2 (ifname_iff (te_environ te) (rt_ifname rt)) (conj I1 I2)) as I. cbn zeta in I. rewrite <- I.
    destruct c as [cp cd], rt as [r1 r2 r3 r4 r5 r6]. cbn in *. subst. reflexivity.
Qed.
