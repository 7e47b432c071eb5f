(** The plugin side. *)
From Coq Require Import String Ascii List Arith ZArith NArith Bool Lia.
From Verif Require Import Model.GoStr Model.Utf8 Model.Errors Model.Version Model.Validate Model.Json Model.Num Model.GoJson
  Model.NetIP Model.Types Model.Conf Model.Args Model.Invoke Model.Skel
  Spec.VersionSpec Spec.NameSpec Spec.JsonSpec Spec.ConfSpec Spec.InvokeSpec Spec.SkelSpec
  Proofs.StrP Proofs.Utf8P Proofs.VersionP Proofs.ValidateP Proofs.JsonP Proofs.JsonRT Proofs.NumP Proofs.GoJsonP Proofs.ConfP Proofs.LoadP
  Proofs.ProgP Proofs.ApiP Proofs.VerbP Proofs.InvokeP.
Import ListNotations.
Open Scope nat_scope.
Open Scope string_scope.

Lemma cmd_cases cmd : cmd = "ADD" \/ cmd = "CHECK" \/ cmd = "DEL" \/ cmd = "GC" \/ cmd = "STATUS" \/
  (String.eqb cmd "ADD" = false /\ String.eqb cmd "CHECK" = false /\ String.eqb cmd "DEL" = false /\
   String.eqb cmd "GC" = false /\ String.eqb cmd "STATUS" = false).
Proof.
  destruct (String.eqb_spec cmd "ADD"); [tauto|]. destruct (String.eqb_spec cmd "CHECK"); [tauto|].
  destruct (String.eqb_spec cmd "DEL"); [tauto|]. destruct (String.eqb_spec cmd "GC"); [tauto|]. destruct (String.eqb_spec cmd "STATUS"); tauto.
Qed.
Definition needs_names (cmd : string) : bool := mem_str cmd ["ADD"; "CHECK"; "DEL"].
Definition bad_value (f : string -> option goerr) (v : string) : option terr :=
  if String.eqb v "" then None else option_map to_terr (f v).
Definition bad_names (pe : plugin_env) : option terr :=
  if needs_names (command pe) then
    match bad_value validate_container_id (pe_getenv pe "CNI_CONTAINERID") with
    | Some e => Some e
    | None => bad_value validate_interface_name (pe_getenv pe "CNI_IFNAME")
    end
  else None.
Definition add_if (b : bool) (g : string -> string) (name : string) : list string :=
  if b then filter (fun v => String.eqb (g v) "") [name] else [].
Lemma cv_none g cmd name req vars miss b : mem_str cmd req || String.eqb name "CNI_COMMAND" = b ->
  check_vars g cmd ((name, req, None) :: vars) miss = check_vars g cmd vars (miss ++ add_if b g name)%list.
Proof.
  intros <-. unfold add_if. cbn [check_vars filter]. destruct (String.eqb (g name) "").
  - destruct (mem_str cmd req || String.eqb name "CNI_COMMAND"); [reflexivity|now rewrite app_nil_r].
  - assert (E : (if mem_str cmd req || String.eqb name "CNI_COMMAND" then ([] : list string) else []) = []) by now destruct (_ || _).
    rewrite E, app_nil_r. now destruct (mem_str cmd req).
Qed.
Lemma cv_some g cmd name req f vars miss b : String.eqb name "CNI_COMMAND" = false -> mem_str cmd req = b ->
  check_vars g cmd ((name, req, Some f) :: vars) miss =
  match (if b then bad_value f (g name) else None) with
  | Some e => inr e
  | None => check_vars g cmd vars (miss ++ add_if b g name)%list
  end.
Proof.
  intros N <-. unfold add_if, bad_value. cbn [check_vars filter]. rewrite N, orb_false_r. destruct (mem_str cmd req).
  - destruct (String.eqb (g name) ""); [reflexivity|]. rewrite app_nil_r. destruct (f (g name)); reflexivity.
  - rewrite app_nil_r. now destruct (String.eqb (g name) "").
Qed.
Ltac cv b := rewrite (cv_none _ _ _ _ _ _ b) by (reflexivity || assumption).
Lemma check_vars_gen g cmd (n p q : bool) :
  mem_str cmd ["ADD"; "CHECK"; "DEL"] = n -> mem_str cmd ["ADD"; "CHECK"] = p -> mem_str cmd ["ADD"; "CHECK"; "DEL"; "GC"; "STATUS"] = q ->
  check_vars g cmd env_vars [] =
  match (if n then match bad_value validate_container_id (g "CNI_CONTAINERID") with Some e => Some e | None => bad_value validate_interface_name (g "CNI_IFNAME") end else None) with
  | Some e => inr e
  | None => inl (add_if true g "CNI_COMMAND" ++ add_if n g "CNI_CONTAINERID" ++ add_if p g "CNI_NETNS" ++ add_if n g "CNI_IFNAME" ++ add_if q g "CNI_PATH")%list
  end.
Proof.
  intros N P Q. unfold env_vars. rewrite (cv_none _ _ _ _ _ _ true) by now rewrite orb_true_r.
  rewrite (cv_some _ _ _ _ _ _ _ n) by (reflexivity || assumption).
  destruct n.
  - destruct (bad_value validate_container_id (g "CNI_CONTAINERID")); [reflexivity|].
    rewrite (cv_none _ _ _ _ _ _ p) by now rewrite P, orb_false_r. rewrite (cv_some _ _ _ _ _ _ _ true) by (reflexivity || assumption).
    destruct (bad_value validate_interface_name (g "CNI_IFNAME")); [reflexivity|].
    rewrite (cv_none _ _ _ _ _ _ false) by reflexivity. rewrite (cv_none _ _ _ _ _ _ q) by now rewrite Q, orb_false_r.
    rewrite (cv_none _ _ _ _ _ _ false) by reflexivity. cbn [check_vars]. f_equal. unfold add_if at 5 7. now rewrite !app_nil_r, !app_assoc.
  - rewrite (cv_none _ _ _ _ _ _ p) by now rewrite P, orb_false_r. rewrite (cv_some _ _ _ _ _ _ _ false) by (reflexivity || assumption).
    rewrite (cv_none _ _ _ _ _ _ false) by reflexivity. rewrite (cv_none _ _ _ _ _ _ q) by now rewrite Q, orb_false_r.
    rewrite (cv_none _ _ _ _ _ _ false) by reflexivity. cbn [check_vars]. f_equal. cbn [add_if]. rewrite !app_nil_r. cbn [app]. now rewrite !app_assoc.
Qed.
Lemma filter_cons_app (f : string -> bool) x l : filter f (x :: l) = (filter f [x] ++ filter f l)%list.
Proof. cbn. now destruct (f x). Qed.
Lemma check_vars_eq pe : check_vars (pe_getenv pe) (command pe) env_vars [] =
  match bad_names pe with Some e => inr e | None => inl (missing pe) end.
Proof.
  unfold bad_names, missing, needs_names, required. generalize (command pe) as cmd. intros cmd.
  destruct (cmd_cases cmd) as [->|[->|[->|[->|[->|(E1 & E2 & E3 & E4 & E5)]]]]].
  6: { rewrite (check_vars_gen _ _ false false false) by (unfold mem_str, existsb; now rewrite ?E1, ?E2, ?E3, ?E4, ?E5).
       unfold mem_str, existsb. rewrite E1, E2, E3, E4, E5. cbn [orb add_if app]. now rewrite app_nil_r. }
  1,2: rewrite (check_vars_gen _ _ true true true) by reflexivity.
  3: rewrite (check_vars_gen _ _ true false true) by reflexivity.
  4,5: rewrite (check_vars_gen _ _ false false true) by reflexivity.
  all: match goal with |- context [mem_str ?c ?l] => let b := eval vm_compute in (mem_str c l) in change (mem_str c l) with b end.
  all: match goal with |- context [filter ?f ?t] => let b := eval lazy in t in change t with b end.
  all: rewrite ?(filter_cons_app _ _ (_ :: _)); cbn [add_if app]; reflexivity.
Qed.

(** *** The configuration *)
Definition name_step := fun (n : string) k v => if key_is "name" k then dec_string n v else Some n.
Lemma dec_name_says o n : decode_members name_step "" o = Some n -> n <> "" -> says "name" o n.
Proof.
  intros H N. pose proof (decode_says name_step (fun s => s) "name") as L. specialize L with (3 := H).
  destruct L as [S|[E _]]; [| |exact S|congruence].
  - intros a k x a' X K. unfold name_step in X. now rewrite K in X.
  - intros a k x a' X K. unfold name_step in X. rewrite K in X. now injection X.
Qed.
Lemma name_step_defined a k x : defined (name_step a k x) <-> fields_ok [("name", text_or_null)] k x.
Proof. unfold name_step. field_chain; try reflexivity. split; [auto|intros _; apply defined_some]. Qed.
Lemma dec_name_iff data n : n <> "" -> (obind (parse data) dec_name = Some n <-> conf_name data n).
Proof.
  intros N. unfold conf_name, dec_name, obind. split.
  - destruct (parse data) as [j|]; [|discriminate]. destruct j as [| | | | |o]; try discriminate; cbn [decode_struct]; [intros H; injection H as <-; congruence|].
    intros H. exists o. split; [reflexivity|]. split; [now apply dec_name_says|]. intros k x I K.
    apply (proj1 (decode_members_defined name_step _ name_step_defined o "") (ex_intro _ n H) k x I _ _ (or_introl eq_refl) K).
  - intros (o & -> & S & T). cbn [decode_struct].
    assert (Y : defined (decode_members name_step "" o)).
    { apply (decode_members_defined name_step _ name_step_defined). intros k x I f P [E|[]]. injection E as <- <-. intros K. eapply T; eassumption. }
    destruct Y as [m Y]. fold name_step. rewrite Y. f_equal.
    pose proof (decode_says name_step (fun s => s) "name") as L. specialize L with (3 := Y).
    destruct L as [S'|[_ A]]; [| |eapply says_fun; eassumption|].
    + intros a k x a' X K. unfold name_step in X. now rewrite K in X.
    + intros a k x a' X K. unfold name_step in X. rewrite K in X. now injection X.
    + destruct S as (l1 & k & l2 & -> & K & _). assert (JStr n = JNull) by (eapply A; [apply in_or_app; right; now left|exact K]). discriminate.
Qed.
Lemma validate_config_iff data : validate_config data = None <-> exists n, conf_name data n /\ good_name n.
Proof.
  unfold validate_config. split.
  - destruct (obind (parse data) dec_name) as [n|] eqn:D; [|discriminate]. destruct (String.eqb_spec n "") as [|N]; [discriminate|].
    destruct (validate_network_name n) eqn:V; [discriminate|]. intros _. exists n. split; [now apply dec_name_iff|now apply validate_network_name_ok].
  - intros (n & C & G). assert (N : n <> "") by (destruct G as (c & r & -> & _); discriminate).
    apply dec_name_iff in C; [|exact N]. rewrite C. destruct (String.eqb_spec n "") as [|_]; [congruence|].
    apply validate_network_name_ok in G. now rewrite G.
Qed.
Lemma needs_names_iff cmd : needs_names cmd = true <-> per_attachment cmd.
Proof.
  unfold needs_names, per_attachment, mem_str, existsb. rewrite !orb_true_iff, !String.eqb_eq. intuition discriminate.
Qed.
Lemma bad_names_iff pe : missing pe = [] -> (bad_names pe = None <-> names_valid pe).
Proof.
  intros M. unfold bad_names, names_valid.
  assert (NE : per_attachment (command pe) -> pe_getenv pe "CNI_CONTAINERID" <> "" /\ pe_getenv pe "CNI_IFNAME" <> "").
  { unfold missing, per_attachment in *. intros H.
    assert (I : In "CNI_CONTAINERID" (required (command pe)) /\ In "CNI_IFNAME" (required (command pe))) by (destruct H as [-> | [-> | ->]]; cbn; tauto).
    assert (F : forall v, In v (required (command pe)) -> pe_getenv pe v <> "").
    { intros v V E. assert (X : In v (filter (fun v => String.eqb (pe_getenv pe v) "") (required (command pe)))) by (apply filter_In; split; [exact V|now apply String.eqb_eq]).
      rewrite M in X. destruct X. }
    split; apply F; tauto. }
  destruct (needs_names (command pe)) eqn:N.
  - apply needs_names_iff in N. destruct (NE N) as (N1 & N2). unfold bad_value.
    destruct (String.eqb_spec (pe_getenv pe "CNI_CONTAINERID") "") as [|_]; [congruence|]. destruct (String.eqb_spec (pe_getenv pe "CNI_IFNAME") "") as [|_]; [congruence|].
    rewrite <- validate_container_id_ok, <- validate_interface_name_ok.
    destruct (validate_container_id _), (validate_interface_name _); cbn; intuition discriminate.
  - split; [intros _ H; apply needs_names_iff in H; congruence|reflexivity].
Qed.
Definition args_of (pe : plugin_env) (stdin : string) : cmd_args :=
  {| ca_container := pe_getenv pe "CNI_CONTAINERID"; ca_netns := pe_getenv pe "CNI_NETNS";
     ca_ifname := pe_getenv pe "CNI_IFNAME"; ca_args := pe_getenv pe "CNI_ARGS";
     ca_path := pe_getenv pe "CNI_PATH"; ca_netns_override := pe_getenv pe "CNI_NETNS_OVERRIDE";
     ca_stdin := stdin |}.
Lemma arguments_iff pe data a : arguments pe data a <-> a = args_of pe data.
Proof.
  unfold arguments. split; [|intros ->; repeat split; reflexivity]. intros (H1 & H2 & H3 & H4 & H5 & H6 & H7).
  destruct a. cbn in *. subst. reflexivity.
Qed.
Lemma get_cmd_args_inl pe cmd a : get_cmd_args pe = inl (cmd, a) <->
  cmd = command pe /\ missing pe = [] /\ names_valid pe /\
  ((cmd = "VERSION" /\ a = args_of pe "") \/
   (cmd <> "VERSION" /\ exists data, pe_stdin pe = Some data /\ (exists n, conf_name data n /\ good_name n) /\ a = args_of pe data)).
Proof.
  unfold get_cmd_args. fold (command pe). rewrite check_vars_eq. split.
  - destruct (bad_names pe) as [e|] eqn:B; [discriminate|]. destruct (missing pe) as [|m ms] eqn:M; [|discriminate].
    apply bad_names_iff in B; [|exact M].
    destruct (String.eqb_spec (command pe) "VERSION") as [V|V].
    + intros H. injection H as <- <-. tauto.
    + destruct (pe_stdin pe) as [data|]; [|discriminate]. destruct (validate_config data) eqn:C; [discriminate|]. intros H. injection H as <- <-.
      apply validate_config_iff in C. split; [reflexivity|]. split; [reflexivity|]. split; [exact B|]. right. split; [exact V|]. exists data. auto.
  - intros (-> & M & N & H). rewrite (proj2 (bad_names_iff pe M) N), M.
    destruct H as [(V & ->)|(V & data & S & C & ->)].
    + rewrite V. reflexivity.
    + destruct (String.eqb_spec (command pe) "VERSION") as [|_]; [congruence|]. rewrite S, (proj2 (validate_config_iff data) C). reflexivity.
Qed.


(** *** The CNI error in an error *)
Definition go_first := (fix go (l : list goerr) : option terr :=
  match l with [] => None | e' :: l' => match as_cni e' with Some t => Some t | None => go l' end end).
Lemma as_cni_join l : as_cni (EJoin l) = go_first l. Proof. reflexivity. Qed.
Lemma as_cni_contains : forall e t, as_cni e = Some t -> contains_cni e (e_code t) (e_msg t) (e_details t).
Proof.
  fix F 1. intros [m|p e|c m d|d n|d|l|c s|w|w|w|m] t H; try discriminate H.
  - apply contains_wrapped. apply F. exact H.
  - injection H as <-. apply contains_self.
  - rewrite as_cni_join in H. revert H. induction l as [|e l IH]; cbn [go_first]; [discriminate|].
    pose proof (F e) as Fe. destruct (as_cni e) as [u|]; intros H.
    + apply contains_joined with e; [now left|]. apply Fe. exact H.
    + specialize (IH H). inversion IH; subst. eapply contains_joined; [right; eassumption|assumption].
Qed.
Lemma contains_as_cni e c m d : contains_cni e c m d -> as_cni e <> None.
Proof.
  induction 1 as [c m d|p e c m d H IH|l e c m d I H IH]; [discriminate|exact IH|]. rewrite as_cni_join.
  induction l as [|x l IHl]; [destruct I|]. cbn [go_first]. destruct I as [->|I]; [destruct (as_cni e); [discriminate|now destruct IH]|].
  destruct (as_cni x); [discriminate|now apply IHl].
Qed.
Lemma as_cni_none e : carries_none e <-> as_cni e = None.
Proof.
  split.
  - intros N. destruct (as_cni e) as [t|] eqn:E; [|reflexivity]. destruct (N _ _ _ (as_cni_contains _ _ E)).
  - intros N c m d H. exact (contains_as_cni _ _ _ _ H N).
Qed.
Lemma carries_as_cni e c m d : carries e c m d -> as_cni e = Some {| e_code := c; e_msg := m; e_details := d |}.
Proof.
  induction 1 as [c m d|p e c m d H IH|l1 e l2 c m d N H IH]; [reflexivity|exact IH|]. rewrite as_cni_join.
  induction l1 as [|x l1 IHl]; cbn [app go_first]; [now rewrite IH|].
  rewrite (proj1 (as_cni_none x)); [|intros c' m' d'; apply N; now left]. apply IHl. intros y c' m' d' I. apply N. now right.
Qed.

(** *** Dispatch *)
Lemma check_raw_iff v l : check_raw v l = None <-> In v l.
Proof.
  unfold check_raw. destruct (mem_str v l) eqn:M; [apply mem_str_In in M; tauto|]. split; [discriminate|]. intros I. apply mem_str_In in I. congruence.
Qed.
(** What one function call leaves. *)
Definition outcome_of (which : string) (a : cmd_args) (of : option callback) : skel_outcome :=
  match of with
  | None => {| so_err := None; so_stdout := ""; so_stderr := ""; so_calls := [] |}
  | Some f => {| so_err := match snd (f a) with
                           | None => None
                           | Some e => Some (match as_cni e with Some t => t | None => new_error ErrInternal (err_string e) "" end)
                           end;
                 so_stdout := fst (f a); so_stderr := ""; so_calls := [(which, a)] |}
  end.
Lemma cvc_inv which a supported f : parse (ca_stdin a) <> Some JNull ->
  ((exists v, conf_version (ca_stdin a) v /\ In v supported) /\ check_version_and_call which a supported f = outcome_of which a f) \/
  (~ (exists v, conf_version (ca_stdin a) v /\ In v supported) /\ exists e, check_version_and_call which a supported f = so_fail e).
Proof.
  intros NN. unfold check_version_and_call.
  assert (D : forall v, Types.decode_version (ca_stdin a) = Ok v <-> conf_version (ca_stdin a) v).
  { intros v. rewrite decode_version_iff. split; [intros [H|(H & _)]; [exact H|contradiction]|auto]. }
  destruct (Types.decode_version (ca_stdin a)) as [v|e|] eqn:E.
  - destruct (check_raw v supported) eqn:C.
    + right. split; [|eauto]. intros (v' & CV & I). apply D in CV. injection CV as <-. apply check_raw_iff in I. congruence.
    + left. apply check_raw_iff in C. split; [exists v; split; [now apply D|exact C]|]. unfold outcome_of. destruct f as [f|]; [|reflexivity].
      destruct (f a). reflexivity.
  - right. split; [|eauto]. intros (v' & CV & I). apply D in CV. discriminate.
  - now destruct (decode_version_not_panic (ca_stdin a)).
Qed.
Lemma gated_loop_cases which a cv supported f : forall rest,
  gated_loop which a cv supported rest f = check_version_and_call which a supported f \/
  exists e, gated_loop which a cv supported rest f = so_fail e.
Proof.
  induction rest as [|pv rest IH]; cbn [gated_loop]; [eauto|]. destruct (gte pv cv) as [[|]|e|]; eauto.
Qed.
Lemma gated_loop_found which a cv supported f : well_formed_version cv -> forall rest, Forall well_formed_version rest -> In cv rest ->
  gated_loop which a cv supported rest f = check_version_and_call which a supported f.
Proof.
  intros W. induction rest as [|pv rest IH]; intros F I; [destruct I|]. cbn [gated_loop]. inversion F as [|x l W2 F2]; subst.
  destruct (gte pv cv) as [b|e|] eqn:G.
  - destruct b; [reflexivity|]. destruct I as [->|I]; [rewrite (gte_refl _ W) in G; discriminate|]. now apply IH.
  - exfalso. assert (X : exists e, gte pv cv = Err e) by eauto. apply gte_error in X. tauto.
  - exfalso. destruct W as [t W]. destruct (gte_iff pv cv t W) as (_ & _ & _ & NP). contradiction.
Qed.
Lemma gated_inv which min t a supported f : version_means min t -> parse (ca_stdin a) <> Some JNull ->
  ((exists v, conf_version (ca_stdin a) v /\ In v supported /\ at_least v t) /\
   (call_gated which min a supported f = outcome_of which a f \/ (~ Forall well_formed_version supported /\ exists e, call_gated which min a supported f = so_fail e))) \/
  (~ (exists v, conf_version (ca_stdin a) v /\ In v supported /\ at_least v t) /\ exists e, call_gated which min a supported f = so_fail e).
Proof.
  intros MN NN. unfold call_gated.
  assert (D : forall v, Types.decode_version (ca_stdin a) = Ok v <-> conf_version (ca_stdin a) v).
  { intros v. rewrite decode_version_iff. split; [intros [H|(H & _)]; [exact H|contradiction]|auto]. }
  destruct (Types.decode_version (ca_stdin a)) as [v|e|] eqn:E.
  - destruct (gte_iff v min t MN) as (GT & GF & GE & GP). destruct (gte v min) as [[|]|e|] eqn:G.
    + assert (AL : at_least v t) by now apply GT.
      destruct (cvc_inv which a supported f NN) as [((v' & CV & I) & EQ)|(NO & (e & EQ))].
      * apply D in CV. assert (v' = v) by congruence. subst v'. left. split; [exists v; split; [now apply D|auto]|].
        destruct (gated_loop_cases which a v supported f supported) as [L|(e & L)]; [left; congruence|].
        right. split; [|eauto]. intros W. rewrite (gated_loop_found which a v supported f) in L; [|destruct AL as (u & V & _); now exists u|exact W|exact I].
        rewrite EQ in L. destruct f as [f|]; [|discriminate]. unfold outcome_of in L. discriminate.
      * right. split.
        -- intros (v' & CV & I & _). apply NO. eauto.
        -- destruct (gated_loop_cases which a v supported f supported) as [L|(e' & L)]; [rewrite L; eauto|eauto].
    + right. split; [|eauto]. intros (v' & CV & I & A). apply D in CV. injection CV as <-. apply GT in A. discriminate.
    + right. split; [|eauto]. intros (v' & CV & I & A). apply D in CV. injection CV as <-. apply GT in A. discriminate.
    + congruence.
  - right. split; [|eauto]. intros (v' & CV & I). apply D in CV. discriminate.
  - now destruct (decode_version_not_panic (ca_stdin a)).
Qed.
(** Every run of the main function: it refuses the request, answers VERSION, or lets the function
    for the command produce the outcome. *)
Definition acted (pe : plugin_env) (funcs : cni_funcs) (a : cmd_args) (o : skel_outcome) : Prop :=
  let o1 := outcome_of (command pe) a (function_for funcs (command pe)) in
  so_calls o = so_calls o1 /\ so_stdout o = so_stdout o1 /\ so_stderr o = "".
Lemma call_in_netns_eq pe which a supported f : let o := check_version_and_call which a supported f in
  exists oe, call_in_netns pe which a supported f = {| so_err := oe; so_stdout := so_stdout o; so_stderr := so_stderr o; so_calls := so_calls o |} /\
  (forall e, so_err o = Some e -> oe = Some e) /\
  (so_err o = None -> netns_overridden (ca_netns_override a) = true -> oe = None) /\
  (so_err o = None -> netns_overridden (ca_netns_override a) = false ->
     oe = match check_netns pe (ca_netns a) with inr e => Some e | inl true => Some (new_error ErrInvalidNetNS "plugin's netns and netns from CNI_NETNS should not be the same" "") | inl false => None end).
Proof.
  cbn zeta. unfold call_in_netns. destruct (check_version_and_call which a supported f) as [er so se sc]. cbn [so_err so_stdout so_stderr so_calls].
  destruct er as [e|]; [exists (Some e); repeat split; congruence|].
  destruct (netns_overridden (ca_netns_override a)); [exists None; repeat split; congruence|].
  destruct (check_netns pe (ca_netns a)) as [[|]|e].
  - eexists. split; [reflexivity|]. repeat split; congruence.
  - exists None. repeat split; congruence.
  - exists (Some e). repeat split; congruence.
Qed.
Lemma not_busy_exit : forall out err, ~ busy {| ro_stdout := out; ro_stderr := err; ro_err := Some "exit status 1" |}.
Proof.
  intros out err (e & a & b & E & X). cbn in E. injection E as <-.
  assert (L : String.length "exit status 1" = String.length a + (String.length "text file busy" + String.length b)) by (rewrite X at 1; now rewrite !length_append).
  cbn [String.length] in L. lia.
Qed.
