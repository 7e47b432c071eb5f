(** Programs whose steps are restricted as long as the answers are: garbage collection among other
    operations. *)
From Coq Require Import String List Bool Arith Lia.
From Verif Require Import Model.GoStr Model.Errors Model.Version Model.Path Model.Json Model.GoJson Model.Args Model.Types Model.Conf Model.Invoke
  Model.Prog Model.Api Spec.NameSpec Spec.VersionSpec Spec.JsonSpec Spec.TypesSpec Spec.PathSpec Spec.RunSpec Spec.CacheSpec Spec.HistSpec Spec.MapSpec Spec.TouchSpec Spec.CollectSpec
  Proofs.StrP Proofs.JsonP Proofs.JsonRT Proofs.PathP Proofs.EnvP Proofs.ProgP Proofs.ApiP Proofs.VerbP Proofs.SingleP Proofs.ConfineP Proofs.EntryP Proofs.ListP Proofs.HistP Proofs.CrashP Proofs.TouchP.
Import ListNotations.
Open Scope nat_scope.
Open Scope string_scope.

Inductive guarded {A} (Q : op -> Prop) (K : op -> resp -> Prop) (P : A -> Prop) : prog A -> Prop :=
| GdRet a : P a -> guarded Q K P (Ret a)
| GdDo o k : Q o -> (forall r, K o r -> guarded Q K P (k r)) -> guarded Q K P (Do o k).

Section Rules.
Variables (Q : op -> Prop) (K : op -> resp -> Prop).
Lemma gd_weaken A (P P' : A -> Prop) p : (forall a, P a -> P' a) -> guarded Q K P p -> guarded Q K P' p.
Proof. intros W H. induction H; constructor; auto. Qed.
Lemma gd_bind A B (P : A -> Prop) (P' : B -> Prop) p f : guarded Q K P p -> (forall a, P a -> guarded Q K P' (f a)) -> guarded Q K P' (bind p f).
Proof. intros H F. induction H; cbn [bind]; [auto|constructor; auto]. Qed.
Lemma gd_rbindp A B (P : res A -> Prop) (P' : res B -> Prop) p f : guarded Q K P p -> (forall a, P (Ok a) -> guarded Q K P' (f a)) ->
  (forall e, P' (Err e)) -> P' Panic -> guarded Q K P' (rbindp p f).
Proof. intros H F E N. apply (gd_bind _ _ P); [exact H|]. intros [a|e|] I; [now apply F|now constructor|now constructor]. Qed.
Lemma gd_pwrap A pre (p : prog (res A)) (P : res A -> Prop) : guarded Q K P p -> (forall e, P (Err e)) -> guarded Q K P (pwrap pre p).
Proof.
  intros H E. apply (gd_bind _ _ P); [exact H|]. intros [a|e|] I; constructor; cbn; auto.
Qed.
Definition any {A} (_ : A) : Prop := True.
(** A program of allowed operations is guarded whatever the answers. *)
Lemma gd_within A (p : prog A) : within Q p -> guarded Q K any p.
Proof. induction 1; [now constructor|]. constructor; auto. Qed.
End Rules.

(** ** The collection *)
Section Gc.
Variables (c : cni) (l : network_list) (args : option gc_args).

Lemma staleb_cases a : stale l args a \/ (~ stale l args a).
Proof. destruct (staleb l args a) eqn:E; [left; now apply staleb_iff|right; intros S; apply staleb_iff in S; congruence]. Qed.

Section Safe.
Variables (Rec : attachment -> Prop).
(** What the collection does, where [Rec] are the records it can find ... *)
Definition may_do (o : op) : Prop :=
  match o with
  | OpTrunc _ | OpWrite _ _ => False
  | OpRemove p => exists a rt, (Rec a /\ stale l args a) /\ params_of a rt /\ p = entry_path c (nl_name l) rt
  | OpExec _ _ env => getenv env "CNI_COMMAND" = "GC" \/
      exists a rt, (Rec a /\ stale l args a) /\ params_of a rt /\ protocol_env c "DEL" rt env
  | _ => True
  end.
(** ... that is, what it can read in the results directory. *)
Definition sees (o : op) (r : resp) : Prop :=
  match o, r with
  | OpReadDir p, RNames (Ok names) => p = results_dir c -> Forall file_name names
  | OpRead p, RData (Some d) => forall n a, file_name n -> p = results_dir c ++ "/" ++ n -> describes d a -> stale l args a -> Rec a
  | _, _ => True
  end.
Local Notation gd := (guarded may_do sees).

Lemma gd_exec path stdin a rt : Rec a -> stale l args a -> params_of a rt -> gd any (exec_with_args path stdin (api_args c "DEL" rt)).
Proof.
  intros R S P. unfold exec_with_args, get_environ, run_plugin. cbn [bind]. constructor; [exact I|]. intros r _.
  constructor; [|intros r' _; now constructor]. right. exists a, rt. split; [now split|]. split; [exact P|apply protocol_env_as_env].
Qed.
Lemma gd_exec_gc path stdin : gd any (exec_with_args path stdin (api_args c "GC" runtime_conf_zero)).
Proof.
  unfold exec_with_args, get_environ, run_plugin. cbn [bind]. constructor; [exact I|]. intros r _.
  constructor; [|intros r' _; now constructor]. left. apply (protocol_env_as_env c "GC" runtime_conf_zero).
Qed.
Lemma gd_without path stdin x : gd any (exec_with_args path stdin x) -> gd any (exec_plugin_without_result path stdin x).
Proof. intros H. eapply gd_rbindp; [exact H| |now intros|exact I]. intros. now constructor. Qed.
Lemma gd_find t paths : gd any (find_plugin t paths).
Proof. constructor; [exact I|]. intros. now constructor. Qed.
Lemma gd_lift A (r : res A) : gd any (lift r). Proof. now constructor. Qed.

Lemma gd_del a rt : Rec a -> stale l args a -> params_of a rt -> gd any (del_network_list c l rt).
Proof.
  intros R S P.
  assert (CD : gd any (cache_del c (nl_name l) rt)).
  { unfold cache_del. destruct (cache_path_cases c (nl_name l) rt) as [[N E]|[_ [e E]]]; rewrite E; [|now constructor].
    constructor; [exists a, rt; split; [now split|]; split; [exact P|reflexivity]|]. intros. now constructor. }
  assert (RD : forall p, gd any (read_file p)) by (intros p; constructor; [exact I|intros; now constructor]).
  eapply gd_rbindp; [apply gd_lift| |now intros|exact I]. intros b _. eapply gd_rbindp; [| |now intros|exact I].
  - instantiate (1 := any). destruct b; [|now constructor]. apply (gd_bind _ _ _ _ any).
    + eapply gd_rbindp; [apply gd_lift| |now intros|exact I]. intros p _. apply (gd_bind _ _ _ _ any); [apply RD|]. intros [d|] _; [|now constructor].
      assert (LG : gd any (get_legacy_cached_result c (nl_name l) (nl_version l) rt)).
      { eapply gd_rbindp; [apply gd_lift| |now intros|exact I]. intros q _. apply (gd_bind _ _ _ _ any); [apply RD|]. intros [d'|] _; now constructor. }
      destruct (unmarshal_cached_info d) as [ci|]; [|exact LG]. destruct (String.eqb _ _); [now constructor|exact LG].
    + intros [x|e|] _; try now constructor. apply (gd_bind _ _ _ _ any); [exact CD|]. intros. now constructor.
  - intros prev _. eapply gd_rbindp; [| |now intros|exact I].
    + instantiate (1 := any). induction (rev (nl_plugins l)) as [|net nets IH]; cbn [del_loop]; [now constructor|].
      apply (gd_rbindp _ _ _ _ any); [apply gd_pwrap; [|now intros]| |now intros|exact I].
      * eapply gd_rbindp; [apply gd_find| |now intros|exact I]. intros path _. eapply gd_rbindp; [apply gd_lift| |now intros|exact I]. intros conf _.
        apply gd_without. eapply gd_exec; eassumption.
      * intros. exact IH.
    + intros. apply (gd_bind _ _ _ _ any); [exact CD|]. intros. now constructor.
Qed.
Lemma gd_del_loop : forall atts errs, (forall a, In a atts -> stale l args a -> Rec a) -> gd any (gc_del_loop c l args atts errs).
Proof.
  induction atts as [|a atts IH]; intros errs H; cbn [gc_del_loop]; [now constructor|].
  assert (T : forall errs, gd any (gc_del_loop c l args atts errs)) by (intros; apply IH; intros x J; apply H; now right).
  assert (SB : staleb l args a = String.eqb (at_network a) (nl_name l) && negb (is_valid_attachment args {| ga_container := at_container a; ga_ifname := at_ifname a |})) by reflexivity.
  destruct (String.eqb (at_network a) (nl_name l)); cbn [negb andb] in *; [|apply T].
  destruct (is_valid_attachment args _); cbn [negb] in *; [apply T|]. apply staleb_iff in SB.
  apply (gd_bind _ _ _ _ any); [apply (gd_del a); [apply H; [now left|exact SB]|exact SB|apply params_of_rt]|]. intros [u|e|] _; [apply T|apply T|now constructor].
Qed.
Definition only_recs (atts : list attachment) : Prop := forall a, In a atts -> stale l args a -> Rec a.
Lemma gd_read : forall names, Forall file_name names -> gd only_recs (read_attachments (results_dir c) "" names).
Proof.
  induction names as [|n names IH]; intros F; cbn [read_attachments]; [constructor; intros a []|].
  apply Forall_cons_iff in F as [F1 F]. assert (NS : name_selected "" n = true) by reflexivity. rewrite NS. cbn [negb].
  unfold read_file. cbn [bind]. constructor; [exact I|]. intros r S.
  apply (gd_bind _ _ _ _ only_recs); [now apply IH|]. intros rest R. constructor. intros a J ST. apply in_app_or in J as [J|J]; [|now apply R].
  destruct r as [|[d|]| | |]; try destruct J. destruct (attachment_of "" d) as [a'|] eqn:E; [|destruct J]. destruct J as [<-|[]].
  apply attachment_of_iff in E as [E _]. cbn [sees] in S. rewrite dir_join in S by exact F1. eapply S; [exact F1|reflexivity|exact E|exact ST].
Qed.
Definition listed_recs (r : res (list attachment)) : Prop := forall atts, r = Ok atts -> only_recs atts.
Lemma sort_names l0 : Forall file_name l0 -> Forall file_name (sort_strings l0).
Proof. rewrite !Forall_forall. intros H n J. apply H. now apply (proj1 (sorted_in _ _)). Qed.
Lemma gd_list : gd listed_recs (get_cached_attachments c "").
Proof.
  unfold get_cached_attachments. change (join_path [get_cache_dir c runtime_conf_zero; "results"]) with (results_dir c).
  unfold read_dir. cbn [bind]. constructor; [exact I|]. intros r S.
  destruct r as [|d|x| |]; try (constructor; intros atts [= <-] a []; fail).
  all: try (apply (gd_bind _ _ _ _ only_recs); [apply gd_read; constructor|intros a R; constructor; intros atts [= <-]; exact R]).
  destruct x as [names|e|].
  - cbn [sees] in S. apply (gd_bind _ _ _ _ only_recs); [apply gd_read, sort_names; auto|]. intros a R. constructor. intros atts [= <-]. exact R.
  - constructor. destruct (is_not_exist e); intros atts E; [injection E as <-; intros a []|discriminate].
  - constructor. intros atts E. discriminate.
Qed.
Lemma gd_plugin_loop inject : forall nets errs, gd any (gc_plugin_loop c inject nets errs).
Proof.
  induction nets as [|n nets IH]; intros errs; cbn [gc_plugin_loop]; [now constructor|].
  destruct (inject_conf n inject) as [conf|e|]; [|now constructor|now constructor].
  apply (gd_bind _ _ _ _ any).
  - eapply gd_rbindp; [apply gd_find| |now intros|exact I]. intros path _. apply gd_without, gd_exec_gc.
  - intros [u|e|] _; [apply IH|apply IH|now constructor].
Qed.
Lemma gd_gc : gd any (performs c (Gc l args)).
Proof.
  apply (gd_bind _ _ _ _ any); [|intros; now constructor]. unfold gc_network_list. destruct (nl_disable_gc l); [now constructor|].
  apply (gd_bind _ _ _ _ listed_recs); [apply gd_list|]. intros [atts|e|] R; [|now constructor|now constructor].
  eapply gd_rbindp; [apply gd_del_loop; now apply R| |now intros|exact I]. intros errs _.
  eapply gd_rbindp; [| |now intros|exact I].
  - instantiate (1 := any). destruct (gte_or_false _ _); [apply gd_plugin_loop|now constructor].
  - intros. now constructor.
Qed.
End Safe.

(** As long as a stale record stays where it is, the collection cannot succeed. *)
Section Stuck.
Variables (n0 d0 : string) (a0 : attachment).
Local Notation p0 := (results_dir c ++ "/" ++ n0).
Hypothesis F0 : file_name n0.
Hypothesis D0 : describes d0 a0.
Hypothesis S0 : stale l args a0.
Hypothesis E0 : entry_path c (nl_name l) (rt_of_attachment a0) = p0.
Hypothesis N0 : named (nl_name l) (rt_of_attachment a0).
Hypothesis G0 : nl_disable_gc l = false.
Definition stays (o : op) (r : resp) : Prop :=
  (o = OpReadDir (results_dir c) -> exists names, r = RNames (Ok names) /\ In n0 names) /\
  (o = OpRead p0 -> r = RData (Some d0)) /\ o <> OpRemove p0.
Definition op_any (o : op) : Prop := True.
Local Notation gd := (guarded op_any stays).
Definition has_it (atts : list attachment) : Prop := In a0 atts.
Lemma gs_any A (p : prog A) : gd any p.
Proof. induction p; [now constructor|]. constructor; [exact I|auto]. Qed.
Lemma gs_read : forall names, In n0 names -> gd has_it (read_attachments (results_dir c) "" names).
Proof.
  induction names as [|n names IH]; intros J; cbn [read_attachments]; [destruct J|].
  assert (NS : name_selected "" n = true) by reflexivity. rewrite NS. cbn [negb]. unfold read_file. cbn [bind]. constructor; [exact I|]. intros r (_ & S & _).
  destruct (string_dec n n0) as [->|NE].
  - apply (gd_bind _ _ _ _ any); [apply gs_any|]. intros rest _. constructor. apply in_or_app. left. rewrite dir_join in S by exact F0. rewrite (S eq_refl).
    assert (X : attachment_of "" d0 = Some a0) by (apply attachment_of_iff; auto). rewrite X. now left.
  - destruct J as [J|J]; [congruence|]. apply (gd_bind _ _ _ _ has_it); [now apply IH|]. intros rest R. constructor. apply in_or_app. now right.
Qed.
Definition has_it_ok (r : res (list attachment)) : Prop := exists atts, r = Ok atts /\ has_it atts.
Lemma gs_list : gd has_it_ok (get_cached_attachments c "").
Proof.
  unfold get_cached_attachments. change (join_path [get_cache_dir c runtime_conf_zero; "results"]) with (results_dir c).
  unfold read_dir. cbn [bind]. constructor; [exact I|]. intros r (S & _). destruct (S eq_refl) as (names & -> & J).
  apply (gd_bind _ _ _ _ has_it); [apply gs_read; now apply (proj2 (sorted_in _ _))|]. intros a R. constructor. now exists a.
Qed.
Definition not_ok {A} (r : res A) : Prop := forall a, r <> Ok a.
Definition errs_left (r : res (list goerr)) : Prop := forall es, r = Ok es -> es <> [].
Lemma gs_del : gd (fun r : res unit => not_ok r) (del_network_list c l (rt_of_attachment a0)).
Proof.
  apply (gd_rbindp _ _ _ _ any); [apply gs_any| |discriminate|discriminate]. intros b _.
  apply (gd_rbindp _ _ _ _ any); [apply gs_any| |discriminate|discriminate]. intros prev _.
  apply (gd_rbindp _ _ _ _ any); [apply gs_any| |discriminate|discriminate]. intros u _.
  unfold cache_del. assert (X : get_cache_file_path c (nl_name l) (rt_of_attachment a0) = Ok p0) by (apply cache_path_ok; now split).
  rewrite X. unfold remove_file. cbn [bind]. constructor; [exact I|]. intros r (_ & _ & S). now destruct S.
Qed.
Lemma gs_errs_kept inject : forall nets errs, errs <> [] -> gd errs_left (gc_plugin_loop c inject nets errs).
Proof.
  induction nets as [|n nets IH]; intros errs NE; cbn [gc_plugin_loop]; [constructor; now intros es [= <-]|].
  destruct (inject_conf n inject) as [conf|e|]; [|constructor; discriminate|constructor; discriminate].
  apply (gd_bind _ _ _ _ any); [apply gs_any|]. intros [u|e|] _; [now apply IH| |constructor; discriminate].
  apply IH. destruct errs; [now destruct NE|discriminate].
Qed.
Lemma gs_del_loop : forall atts errs, (errs <> [] \/ has_it atts) -> gd errs_left (gc_del_loop c l args atts errs).
Proof.
  induction atts as [|a atts IH]; intros errs H; cbn [gc_del_loop].
  { constructor. intros es [= <-]. destruct H as [H|[]]. exact H. }
  assert (SB : staleb l args a = String.eqb (at_network a) (nl_name l) && negb (is_valid_attachment args {| ga_container := at_container a; ga_ifname := at_ifname a |})) by reflexivity.
  assert (SKIP : staleb l args a = false -> errs <> [] \/ has_it atts).
  { intros X. destruct H as [H|[->|H]]; [now left| |now right]. apply staleb_iff in S0. congruence. }
  destruct (String.eqb (at_network a) (nl_name l)); cbn [negb andb] in *; [|now apply IH, SKIP].
  destruct (is_valid_attachment args _); cbn [negb] in *; [now apply IH, SKIP|]. clear SKIP.
  assert (REST : errs <> [] \/ has_it atts \/ a = a0).
  { destruct H as [H|[->|H]]; auto. }
  assert (FAIL : forall e, gd errs_left (gc_del_loop c l args atts (errs ++ [e])%list)).
  { intros e. apply IH. left. destruct errs; discriminate. }
  destruct REST as [R|[R| ->]].
  - apply (gd_bind _ _ _ _ any); [apply gs_any|]. intros [u|e|] _; [apply IH; now left|apply FAIL|constructor; discriminate].
  - apply (gd_bind _ _ _ _ any); [apply gs_any|]. intros [u|e|] _; [apply IH; now right|apply FAIL|constructor; discriminate].
  - apply (gd_bind _ _ _ _ (fun r : res unit => not_ok r)); [apply gs_del|]. intros [u|e|] N; [now destruct (N u)|apply FAIL|constructor; discriminate].
Qed.
Lemma gs_gc : gd (fun r : res value => not_ok r) (performs c (Gc l args)).
Proof.
  apply (gd_bind _ _ _ _ (fun r : res unit => not_ok r)).
  2:{ intros [u|e|] N; [now destruct (N u)|constructor; discriminate|constructor; discriminate]. }
  unfold gc_network_list. rewrite G0. apply (gd_bind _ _ _ _ has_it_ok); [apply gs_list|]. intros x (atts & -> & J).
  apply (gd_rbindp _ _ _ _ errs_left); [apply gs_del_loop; now right| |discriminate|discriminate]. intros errs X. specialize (X errs eq_refl).
  apply (gd_rbindp _ _ _ _ errs_left); [|intros es Y; specialize (Y es eq_refl); destruct es; [now destruct Y|constructor; discriminate]|discriminate|discriminate].
  destruct (gte_or_false _ _); [now apply gs_errs_kept|]. constructor. now intros es [= <-].
Qed.
End Stuck.
End Gc.

(** ** What an operation alone can leave in its entry *)
Lemma goes_crashes A fl (p : prog A) w tr w' q : goes fl p w tr w' q -> crashes fl p w tr w'.
Proof. induction 1; econstructor; eassumption. Qed.
Lemma goes_snoc A fl (p : prog A) w tr v o k r v1 : goes fl p w tr v (Do o k) -> answer fl v o r v1 -> goes fl p w (tr ++ [(o, r)])%list v1 (k r).
Proof.
  intros G An. remember (Do o k) as q. revert Heqq. induction G as [p w|o' k' w r' w1 tr w2 q A1 G IH]; intros ->; cbn [app].
  - econstructor; [exact An|constructor].
  - econstructor; [exact A1|now apply IH].
Qed.
Lemma goes_removes A fl (p : prog A) w tr w' q : goes fl p w tr w' q ->
  within (fun o => match o with OpTrunc _ | OpWrite _ _ => False | _ => True end) p -> forall x, sget x w' = sget x w \/ sget x w' = None.
Proof.
  induction 1 as [p w|o k w r w1 tr w2 q A1 G IH]; intros W x; [now left|]. inversion W as [|o1 k1 Q1 W1]; subst.
  destruct (IH (W1 r) x) as [->|E]; [|now right]. clear - A1 Q1. destruct A1; try (destruct Q1; fail); auto. rewrite sget_sdel. destruct (String.eqb x p); auto.
Qed.
(** A prefix of a complete record, perhaps all of it. *)
Definition written_by (a : action) (d : string) : Prop :=
  exists s data, is_add a /\ about a = Some (sv_name s, sv_rt s) /\ named (sv_name s) (sv_rt s) /\ stored s data /\ from_plugin (sv_result s) /\ str_prefix d data /\
    match a with AddList l _ => sv_config s = nl_bytes l | AddOne n _ => sv_config s = pg_bytes n | _ => True end.
Lemma yields_from x r : yields x r -> wf_body int64 any_prefix r /\ right_version r.
Proof. intros (out & _ & A). now apply add_result_from in A. Qed.
Lemma lone_contents fl c a w tr u q x : goes fl (performs c a) w tr u q -> ~ looks_around a -> carries a -> at_entry c a x ->
  sget x u = sget x w \/ sget x u = None \/ exists d, written_by a d /\ sget x u = Some d.
Proof.
  intros G L CA AE. assert (DEC : is_add a \/ ~ is_add a) by (destruct a; cbn; auto). destruct DEC as [IA|NA].
  2:{ apply goes_removes with (x := x) in G; [destruct G; auto|]. eapply within_weaken; [|now apply wi_performs]. intros o M. destruct o; auto; now apply NA, M. }
  apply goes_crashes in G. destruct AE as (name & rt0 & AB & NM & ->).
  destruct a as [l rt| | | | |n rt| | | | | | | | | |]; try destruct IA; cbn [about] in AB; injection AB as <- <-.
  - assert (C : crashes fl (add_network_list c l rt) w tr u).
    { cbn [performs] in G. unfold returning in G. apply crash_bind in G as [G|(t1 & w1 & r & t2 & R & C & ->)]; [exact G|]. apply crash_ret in C as [-> ->]. rewrite app_nil_r. now apply runs_crashes in R. }
    apply crash_add in C as [S|(ro & bytes & d & B & _ & D & G1 & _ & _ & Y)]; [left; apply S|]. right. right. exists d. split; [|exact G1].
    destruct CA as [NE CA]. destruct (Y NE) as (r & y & -> & _ & YR).
    exists {| sv_result := Some r; sv_config := nl_bytes l; sv_name := nl_name l; sv_rt := rt |}, bytes. split; [exact I|]. split; [reflexivity|]. split; [exact NM|]. split; [exact B|].
    split; [|split; [exact D|reflexivity]]. intros r0 E. injection E as <-. eapply yields_from; exact YR.
  - assert (C : crashes fl (add_network c n rt) w tr u).
    { cbn [performs] in G. unfold returning in G. apply crash_bind in G as [G|(t1 & w1 & r & t2 & R & C & ->)]; [exact G|]. apply crash_ret in C as [-> ->]. rewrite app_nil_r. now apply runs_crashes in R. }
    unfold add_network in C. apply crash_rbindp in C as [C|(t1 & w1 & r & t2 & R & C & ->)].
    { left. eapply (crashes_confined _ (fun _ => False)); [exact C|apply cf_add_one|auto]. }
    apply add_one_inv in R. destruct R as (-> & _ & R).
    assert (FP : from_plugin (Some r)).
    { intros r0 E. injection E as <-. destruct R as [(_ & X)|(y & _ & _ & _ & _ & _ & _ & X)]; [now destruct (X r)|].
      destruct (call_answer y) as [out|e|]; try discriminate. cbn [rbind] in X. symmetry in X. now apply add_result_from in X. }
    assert (CA' : exists t, crashes fl (cache_add c (Some r) (pg_bytes n) (pc_name (pg_conf n)) rt) w t u).
    { apply crash_rbindp in C as [C|(t3 & w2 & y & t4 & R2 & C & ->)].
      - unfold pwrap in C. apply crash_bind in C as [C|(t5 & w2 & y & t6 & R2 & C & ->)]; [eauto|]. apply crash_ret in C as [-> ->]. exists t5. now apply runs_crashes in R2.
      - unfold lift in C. apply crash_ret in C as [-> ->]. apply runs_bind in R2. destruct R2 as (t7 & w3 & u2 & t8 & R3 & R4 & ->).
        apply runs_ret in R4. destruct R4 as (-> & -> & _). exists t7. now apply runs_crashes in R3. }
    destruct CA' as (t & CA'). apply crash_cache_add in CA' as [_ [->|(bytes & d & B & _ & D & G1 & _)]]; [now left|]. right. right. exists d. split; [|exact G1].
    exists {| sv_result := Some r; sv_config := pg_bytes n; sv_name := pc_name (pg_conf n); sv_rt := rt |}, bytes. split; [exact I|]. split; [reflexivity|]. split; [exact NM|]. split; [exact B|]. split; [exact FP|]. now split.
Qed.
(** A record being written describes the attachment of the ADD, or nothing. *)
Lemma written_describes a d b name rt : written_by a d -> carries a -> about a = Some (name, rt) -> describes d b ->
  at_network b = name /\ at_container b = rt_container rt /\ at_ifname b = rt_ifname rt.
Proof.
  intros (s & data & IA & AB & NM & ST & FP & (t & P) & _) CA AB' D. rewrite AB in AB'. injection AB' as <- <-.
  assert (CR : carried (sv_name s) (sv_rt s)).
  { destruct a as [l rt| | | | |n rt| | | | | | | | | |]; try destruct IA; cbn in AB, CA; injection AB as <- <-; [apply CA|exact CA]. }
  destruct (stored_doc s data ST CR FP) as (j & m & raw & PR & EN & CM & U & _).
  destruct (string_dec t "") as [->|T].
  - rewrite append_nil_r in P. subst d. destruct D as (ci & U' & _ & _ & _ & ->). rewrite U in U'. injection U' as <-. now repeat split.
  - assert (PN : parse d = None) by (eapply print_prefix_rejected; [exact EN| |exact T]; congruence).
    destruct D as (ci & U' & _). unfold unmarshal_cached_info in U'. rewrite PN in U'. discriminate.
Qed.

(** ** The interleaving *)
Lemma own_app i a b : own i (a ++ b)%list = (own i a ++ own i b)%list.
Proof. apply flat_map_app. Qed.
Lemma at_entry_dec c a x : at_entry c a x \/ ~ at_entry c a x.
Proof.
  unfold at_entry. destruct (about a) as [[name rt]|] eqn:E; [|right; intros (n & r & X & _); discriminate].
  destruct (string_dec name "") as [N1|N1]; [right; intros (n & r & X & (M & _) & _); injection X as <- <-; contradiction|].
  destruct (string_dec (rt_container rt) "") as [N2|N2]; [right; intros (n & r & X & (_ & M & _) & _); injection X as <- <-; contradiction|].
  destruct (string_dec (rt_ifname rt) "") as [N3|N3]; [right; intros (n & r & X & (_ & _ & M) & _); injection X as <- <-; contradiction|].
  destruct (string_dec x (entry_path c name rt)) as [->|N]; [left; exists name, rt; now repeat split|].
  right. intros (n & r & X & _ & M). injection X as <- <-. contradiction.
Qed.
Lemma somewhere_dec c acts x : (exists i a, nth_error acts i = Some a /\ at_entry c a x) \/ (forall a, In a acts -> ~ at_entry c a x).
Proof.
  induction acts as [|a acts [(i & b & E & A)|N]]; [right; intros a []|left; now exists (S i), b|].
  destruct (at_entry_dec c a x) as [Y|Y]; [left; now exists 0, a|]. right. intros b [<-|J]; auto.
Qed.

Section Together.
Variables (fl : bool) (c : cni) (l : network_list) (args : option gc_args) (acts : list action) (w0 : world).
Hypothesis T0 : tidy w0.
Hypothesis AL : alongside c l args acts w0.
Let Rec (a : attachment) : Prop := to_collect c l args w0 a.
Let Qs := may_do c l args Rec.
Let Ks := sees c l args Rec.

Definition here (ps : list (prog (res value))) (v : world) (acc : list (nat * event)) : Prop :=
  (exists g, nth_error ps 0 = Some g /\ guarded Qs Ks any g) /\
  (forall i a, nth_error acts i = Some a -> exists p u, nth_error ps (S i) = Some p /\
     goes fl (performs c a) w0 (own (S i) acc) u p /\ confined (at_entry c a) p /\ agree (at_entry c a) v u) /\
  (forall x, (forall a, In a acts -> ~ at_entry c a x) -> sget x v = sget x w0 \/ (condemned c l args w0 x /\ sget x v = None)) /\
  tidy v /\ List.length ps = S (List.length acts).

Lemma qs_remove p : Qs (OpRemove p) -> condemned c l args w0 p.
Proof. intros (a & rt & (R & _) & P & ->). now exists a, rt. Qed.

Lemma here_start : here (map (performs c) (Gc l args :: acts)) w0 [].
Proof.
  split; [exists (performs c (Gc l args)); split; [reflexivity|apply gd_gc]|]. split.
  { intros i a E. exists (performs c a), w0. split; [cbn; now rewrite nth_error_map, E|]. split; [constructor|]. split; [|now intros x].
    apply cf_performs; [|auto]. apply AL. eapply nth_error_In; exact E. }
  split; [auto|]. split; [exact T0|]. cbn. now rewrite map_length.
Qed.
(** What is readable is a record of the start, if it is stale. *)
Lemma here_records ps v acc n d a : here ps v acc -> file_name n -> sget (results_dir c ++ "/" ++ n) v = Some d -> describes d a -> stale l args a ->
  to_list c "" w0 n a.
Proof.
  intros (_ & H & U & _) F G D S. destruct AL as (L & DI & NC & KN).
  assert (OLD : sget (results_dir c ++ "/" ++ n) w0 = Some d -> to_list c "" w0 n a).
  { intros E. split; [exact F|]. split; [now left|]. exists d. split; [exact E|]. split; [exact D|now left]. }
  destruct (somewhere_dec c acts (results_dir c ++ "/" ++ n)) as [(i & b & E & A)|N].
  - pose proof (nth_error_In _ _ E) as J. destruct (H _ _ E) as (p & u & _ & Go & _ & AG). rewrite (AG _ A) in G.
    assert (CA : carries b).
    { destruct b; cbn [carries]; auto; [apply (KN (AddList l0 rt) (nl_name l0) rt J I eq_refl)|apply (KN (AddOne n0 rt) (pc_name (pg_conf n0)) rt J I eq_refl)]. }
    destruct (lone_contents _ _ _ _ _ _ _ _ Go (L _ J) CA A) as [X|[X|(d' & W & X)]]; [apply OLD; congruence|congruence|].
    assert (d' = d) by congruence. subst d'. exfalso. destruct A as (name & rt & AB & NM & _).
    assert (IA : is_add b) by (destruct W as (s & data & IA & _); exact IA).
    destruct (written_describes _ _ _ _ _ W CA AB D) as (E1 & E2 & E3). destruct (KN b name rt J IA AB) as [[K|(valid & K1 & K2)] _].
    + apply K. rewrite <- E1. apply S.
    + apply (proj2 S valid K1). now rewrite E2, E3.
  - destruct (U _ N) as [X|[_ X]]; [apply OLD; congruence|congruence].
Qed.
Lemma here_sees ps v acc o r v1 : here ps v acc -> answer fl v o r v1 -> Ks o r.
Proof.
  intros H An. destruct An; cbn; auto.
  - destruct (sget p v) as [d|] eqn:E; [|exact I]. intros n a F -> D S. exists n. split; [|exact S]. eapply here_records; eassumption.
  - intros ->. apply Forall_forall. intros n J. destruct H as (_ & _ & _ & T & _). now apply (children_iff c v n T) in J.
Qed.
Lemma here_step ps v acc i o k r v1 : here ps v acc -> nth_error ps i = Some (Do o k) -> answer fl v o r v1 ->
  here (set_nth i (k r) ps) v1 (acc ++ [(i, (o, r))])%list.
Proof.
  intros H E An. pose proof (here_sees _ _ _ _ _ _ H An) as SE. destruct H as ((g & G0 & GD) & H & U & T & LE). destruct AL as (L & DI & NC & KN).
  destruct i as [|i].
  - rewrite G0 in E. injection E as ->. inversion GD as [|o' k' Q1 K1]; subst. split; [|split; [|split; [|split]]].
    + exists (k r). split; [eapply nth_set_same; exact G0|auto].
    + intros i a Ei. destruct (H _ _ Ei) as (p & u & Ep & Go & C & AG). exists p, u. split; [rewrite nth_set_other by discriminate; exact Ep|].
      rewrite own_app. cbn [own flat_map fst snd Nat.eqb app]. rewrite app_nil_r. split; [exact Go|]. split; [exact C|]. intros x A. rewrite <- (AG x A).
      destruct (changes o) as [y|] eqn:CH; [|apply (answer_unchanged _ _ _ _ _ x An); congruence].
      apply (answer_unchanged _ _ _ _ _ x An). rewrite CH. intros [= ->]. destruct o; cbn in CH; try discriminate; try (destruct Q1; fail). injection CH as ->.
      apply (NC a x (nth_error_In _ _ Ei) A). now apply qs_remove.
    + intros x N. destruct (changes o) as [y|] eqn:CH.
      * destruct o; cbn in CH; try discriminate; try (destruct Q1; fail). injection CH as <-. destruct (string_dec x path) as [->|NE].
        -- pose proof (qs_remove _ Q1) as CD. inversion An; subst; try (apply (U _ N)). right. split; [exact CD|]. now rewrite sget_sdel, String.eqb_refl.
        -- rewrite (answer_unchanged _ _ _ _ _ x An); [apply (U _ N)|]. cbn. congruence.
      * rewrite (answer_unchanged _ _ _ _ _ x An); [apply (U _ N)|congruence].
    + eapply answer_tidy; [exact An| |exact T]. intros p CH. destruct o; cbn in CH; try discriminate; try (destruct Q1; fail). injection CH as <-.
      destruct (qs_remove _ Q1) as (a & rt & _ & _ & ->). apply entry_clean.
    + now rewrite length_set.
  - assert (Li : exists a, nth_error acts i = Some a).
    { assert (LT : i < List.length acts) by (assert (S i < List.length ps) by (apply nth_error_Some; congruence); lia).
      apply nth_error_Some in LT. destruct (nth_error acts i); [eauto|congruence]. }
    destruct Li as (a & Ea). destruct (H _ _ Ea) as (p & u & Ep & Go & C & AG). rewrite E in Ep. injection Ep as <-.
    destruct (confined_step _ _ _ _ _ _ _ _ C An) as (C1 & OI & UN). destruct (answer_agree _ _ _ _ _ _ _ An OI AG) as (u1 & A1 & AG1).
    split; [|split; [|split; [|split]]].
    + exists g. split; [rewrite nth_set_other by discriminate; exact G0|exact GD].
    + intros j b Ej. rewrite own_app. cbn [own flat_map fst snd app]. destruct (Nat.eq_dec i j) as [<-|NE].
      * rewrite Ea in Ej. injection Ej as <-. exists (k r), u1. split; [eapply nth_set_same; exact E|]. rewrite Nat.eqb_refl. cbn [app].
        split; [eapply goes_snoc; eassumption|]. now split.
      * destruct (H _ _ Ej) as (p & u' & Ep & Go' & C' & AG'). exists p, u'. split; [rewrite nth_set_other by congruence; exact Ep|].
        assert (X : Nat.eqb (S i) (S j) = false) by (apply Nat.eqb_neq; congruence). rewrite X. cbn [app]. rewrite app_nil_r. split; [exact Go'|]. split; [exact C'|].
        intros x A. rewrite <- (AG' x A). apply UN. intros B. exact (DI i j a b x NE Ea Ej B A).
    + intros x N. rewrite UN; [apply (U _ N)|]. apply N. eapply nth_error_In; exact Ea.
    + eapply answer_tidy; [exact An| |exact T]. intros q CH. apply (op_in_changes _ _ _ OI) in CH. destruct CH as (name & rt & _ & _ & ->). apply entry_clean.
    + now rewrite length_set.
Qed.
Lemma here_end : forall ps v tr v' rest acc, interleaves fl ps v tr v' rest -> here ps v acc -> here rest v' (acc ++ tr)%list.
Proof.
  intros ps v tr v' rest acc H. revert acc. induction H as [ps v|ps v i o k r v1 tr v2 qs E An H IH]; intros acc X; [now rewrite app_nil_r|].
  change ((i, (o, r)) :: tr) with ([(i, (o, r))] ++ tr)%list. rewrite app_assoc. apply IH. eapply here_step; eassumption.
Qed.
(** Everything the collection did was allowed. *)
Lemma here_did : forall ps v tr v' rest acc, interleaves fl ps v tr v' rest -> here ps v acc -> forall o r, In (o, r) (own 0 tr) -> Qs o.
Proof.
  intros ps v tr v' rest acc H. revert acc. induction H as [ps v|ps v i o k r v1 tr v2 qs E An H IH]; intros acc X o' r' J; [destruct J|].
  cbn [own flat_map fst snd] in J. apply in_app_or in J as [J|J]; [|eapply IH; [eapply here_step; eassumption|exact J]].
  destruct (Nat.eqb_spec i 0) as [->|N]; [|destruct J]. destruct J as [[= <- <-]|[]]. destruct X as ((g & G0 & GD) & _). rewrite G0 in E. injection E as ->. now inversion GD.
Qed.
(** A file that is gone and not an operation's own stays away. *)
Lemma here_gone x : (forall a, In a acts -> ~ at_entry c a x) -> forall ps v tr v' rest acc, interleaves fl ps v tr v' rest -> here ps v acc ->
  sget x v = None -> sget x v' = None.
Proof.
  intros N ps v tr v' rest acc H. revert acc. induction H as [ps v|ps v i o k r v1 tr v2 qs E An H IH]; intros acc X G; [exact G|].
  pose proof (here_step _ _ _ _ _ _ _ _ X E An) as X1. apply (IH _ X1). destruct X as ((g & G0 & GD) & Each & _ & _ & LE).
  destruct (changes o) as [y|] eqn:CH; [|rewrite (answer_unchanged _ _ _ _ _ x An); congruence].
  destruct (string_dec x y) as [->|NE]; [|rewrite (answer_unchanged _ _ _ _ _ x An); [exact G|congruence]].
  destruct i as [|i].
  - rewrite G0 in E. injection E as ->. inversion GD as [|o' k' Q1 K1]; subst. destruct o; cbn in CH; try discriminate; try (destruct Q1; fail). injection CH as ->.
    inversion An; subst; auto. rewrite sget_sdel, String.eqb_refl. reflexivity.
  - exfalso. destruct (nth_error acts i) as [a|] eqn:Ea.
    + destruct (Each _ _ Ea) as (p & u & Ep & _ & C & _). rewrite E in Ep. injection Ep as <-. destruct (confined_step _ _ _ _ _ _ _ _ C An) as (_ & OI & _).
      apply (N a (nth_error_In _ _ Ea)). eapply op_in_changes; eassumption.
    + apply nth_error_None in Ea. assert (S i < List.length ps) by (apply nth_error_Some; congruence). lia.
Qed.
End Together.

Section Progress.
Variables (c : cni) (l : network_list) (args : option gc_args) (acts : list action) (w0 : world).
Hypothesis T0 : tidy w0.
Hypothesis AL : alongside c l args acts w0.
Variables (n0 d0 : string) (a0 : attachment).
Hypothesis F0 : file_name n0.
Hypothesis D0 : describes d0 a0.
Hypothesis S0 : stale l args a0.
Hypothesis E0 : entry_path c (nl_name l) (rt_of_attachment a0) = results_dir c ++ "/" ++ n0.
Hypothesis G0 : sget (results_dir c ++ "/" ++ n0) w0 = Some d0.

Lemma not_own : forall a, In a acts -> ~ at_entry c a (results_dir c ++ "/" ++ n0).
Proof.
  intros a J A. destruct AL as (_ & _ & NC & _). apply (NC a _ J A). exists a0, (rt_of_attachment a0). split; [|split; [apply params_of_rt|now symmetry]].
  exists n0. split; [|exact S0]. split; [exact F0|]. split; [now left|]. exists d0. split; [exact G0|]. split; [exact D0|now left].
Qed.
Lemma stuck ps v tr v' rest acc g P : interleaves false ps v tr v' rest -> here false c l args acts w0 ps v acc ->
  sget (results_dir c ++ "/" ++ n0) v' <> None ->
  nth_error ps 0 = Some g -> guarded op_any (stays c n0 d0) P g -> exists g', nth_error rest 0 = Some g' /\ guarded op_any (stays c n0 d0) P g'.
Proof.
  intros H. revert acc g. induction H as [ps v|ps v i o k r v1 tr v2 qs E An H IH]; intros acc g X ST Eg GD; [eauto|].
  pose proof (here_step _ _ _ _ _ _ AL _ _ _ _ _ _ _ _ X E An) as X1.
  assert (PV : sget (results_dir c ++ "/" ++ n0) v = Some d0).
  { pose proof X as (_ & _ & U & _). destruct (U _ not_own) as [Y|[_ Y]]; [congruence|]. exfalso. apply ST.
    eapply (here_gone _ _ _ _ _ _ AL _ not_own); [eapply ILStep; eassumption|exact X|exact Y]. }
  assert (PV1 : sget (results_dir c ++ "/" ++ n0) v1 <> None).
  { intros Y. apply ST. eapply (here_gone _ _ _ _ _ _ AL _ not_own); [exact H|exact X1|exact Y]. }
  destruct i as [|i].
  - rewrite Eg in E. injection E as ->. inversion GD as [|o' k' Q1 K1]; subst. eapply IH; [exact X1|exact ST|eapply nth_set_same; exact Eg|]. apply K1.
    split; [|split].
    + intros ->. assert (CH : In n0 (children (results_dir c) v)) by (destruct X as (_ & _ & _ & T & _); apply (children_iff c v n0 T); eauto).
      inversion An; subst; try discriminate; [eauto|]. match goal with Z : children _ _ = [] |- _ => rewrite Z in CH; destruct CH end.
    + intros ->. inversion An; subst; try discriminate. f_equal. exact PV.
    + intros ->. clear - An PV PV1. set (p0 := results_dir c ++ "/" ++ n0) in *. clearbody p0. inversion An; subst; try discriminate; [|congruence]. apply PV1. now rewrite sget_sdel, String.eqb_refl.
  - eapply IH; [exact X1|exact ST|rewrite nth_set_other by discriminate; exact Eg|exact GD].
Qed.
End Progress.
