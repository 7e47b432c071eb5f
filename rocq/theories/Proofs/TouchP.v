(** Which operations a program can perform at all (C65). *)
From Coq Require Import String List Bool Arith Lia Permutation.
From Verif Require Import Model.GoStr Model.Errors Model.Version Model.Path Model.Json Model.GoJson Model.Types Model.Conf Model.Invoke
  Model.Prog Model.Api Spec.PathSpec Spec.VersionSpec Spec.RunSpec Spec.CacheSpec Spec.HistSpec Spec.MapSpec Spec.TouchSpec
  Proofs.StrP Proofs.FilesP Proofs.ProgP Proofs.ApiP Proofs.ConfineP Proofs.ListP.
Import ListNotations.
Open Scope nat_scope.
Open Scope string_scope.

Inductive within {A} (Q : op -> Prop) : prog A -> Prop :=
| WiRet a : within Q (Ret a)
| WiDo o k : Q o -> (forall r, within Q (k r)) -> within Q (Do o k).

Section Rules.
Variable Q : op -> Prop.
Lemma wi_bind A B (p : prog A) (f : A -> prog B) : within Q p -> (forall a, within Q (f a)) -> within Q (bind p f).
Proof. intros H F. induction H; cbn; [apply F|constructor; auto]. Qed.
Lemma wi_rbindp A B (p : prog (res A)) (f : A -> prog (res B)) : within Q p -> (forall a, within Q (f a)) -> within Q (rbindp p f).
Proof. intros H F. apply wi_bind; [exact H|]. intros [a|e|]; [apply F|constructor|constructor]. Qed.
Lemma wi_lift A (r : res A) : within Q (lift r). Proof. constructor. Qed.
Lemma wi_lift_then A B (r : res A) (f : A -> prog (res B)) : (forall a, r = Ok a -> within Q (f a)) -> within Q (rbindp (lift r) f).
Proof. intros F. unfold rbindp, lift. cbn. destruct r; [now apply F|constructor|constructor]. Qed.
Lemma wi_pwrap A pre (p : prog (res A)) : within Q p -> within Q (pwrap pre p).
Proof. intros H. apply wi_bind; [exact H|constructor]. Qed.
Lemma wi_returning A (f : A -> value) p : within Q p -> within Q (returning f p).
Proof. intros H. apply wi_bind; [exact H|constructor]. Qed.
Lemma wi_one A o (k : resp -> A) : Q o -> within Q (Do o (fun r => Ret (k r))).
Proof. intros H. constructor; [exact H|constructor]. Qed.

(** Plugins may be run. *)
Definition runs_plugins : Prop := Q OpEnviron /\ forall p s e, Q (OpExec p s e).
Lemma wi_exec path stdin a : runs_plugins -> within Q (exec_with_args path stdin a).
Proof. intros [E X]. unfold exec_with_args, get_environ, run_plugin. cbn. constructor; [exact E|]. intros. constructor; [apply X|constructor]. Qed.
Lemma wi_with_result path stdin a : runs_plugins -> within Q (exec_plugin_with_result path stdin a).
Proof. intros H. apply wi_rbindp; [now apply wi_exec|intros; apply wi_lift]. Qed.
Lemma wi_without_result path stdin a : runs_plugins -> within Q (exec_plugin_without_result path stdin a).
Proof. intros H. apply wi_rbindp; [now apply wi_exec|intros; apply wi_lift]. Qed.

Section One.
Variables (c : cni) (name : string) (rt : runtime_conf).
Definition finds (n : plugin_config) : Prop := runs_plugins /\ Q (OpFind (pc_type (pg_conf n)) (c_path c)).
Lemma wi_path A (f : string -> prog (res A)) : (named name rt -> within Q (f (entry_path c name rt))) -> within Q (rbindp (lift (get_cache_file_path c name rt)) f).
Proof. intros F. apply wi_lift_then. intros p E. apply cache_path_ok in E as [N ->]. auto. Qed.
Lemma wi_add_one ver net prev : finds net -> within Q (add_network_one c name ver net prev rt).
Proof.
  intros [R F]. apply wi_rbindp; [now apply wi_one|]. intros p.
  do 4 (apply wi_rbindp; [apply wi_lift|]; intros). now apply wi_with_result.
Qed.
Lemma wi_add_loop ver : forall nets prev, Forall finds nets -> within Q (add_loop c name ver nets prev rt).
Proof.
  induction nets as [|n nets IH]; intros prev F; cbn [add_loop]; [constructor|]. apply Forall_cons_iff in F as [F1 F].
  apply wi_rbindp; [now apply wi_pwrap, wi_add_one|]. intros. now apply IH.
Qed.
Lemma wi_verb verb ver net prev : finds net -> within Q (verb_network verb c name ver net prev rt).
Proof.
  intros [R F]. apply wi_rbindp; [now apply wi_one|]. intros p. apply wi_rbindp; [apply wi_lift|]. intros. now apply wi_without_result.
Qed.
Lemma wi_check_loop ver prev : forall nets, Forall finds nets -> within Q (check_loop c name ver nets prev rt).
Proof. induction nets as [|n nets IH]; intros F; cbn [check_loop]; [constructor|]. apply Forall_cons_iff in F as [F1 F]. apply wi_rbindp; [now apply wi_verb|auto]. Qed.
Lemma wi_del_loop ver prev : forall nets, Forall finds nets -> within Q (del_loop c name ver nets prev rt).
Proof. induction nets as [|n nets IH]; intros F; cbn [del_loop]; [constructor|]. apply Forall_cons_iff in F as [F1 F]. apply wi_rbindp; [now apply wi_pwrap, wi_verb|auto]. Qed.
Lemma wi_cache_add res config : (named name rt -> let p := entry_path c name rt in Q (OpMkdir (dir_path p)) /\ Q (OpTrunc p) /\ forall d, Q (OpWrite p d)) ->
  within Q (cache_add c res config name rt).
Proof.
  intros H. apply wi_rbindp; [apply wi_lift|]. intros bytes. apply wi_path. intros N. destruct (H N) as (M & T & W).
  apply wi_bind; [now apply wi_one|]. intros [e|]; [constructor|].
  apply wi_bind; [|constructor]. constructor; [exact T|]. intros r. destruct r as [[e|]| | | |]; try constructor; try apply W; constructor.
Qed.
Lemma wi_cache_del : (named name rt -> Q (OpRemove (entry_path c name rt))) -> within Q (cache_del c name rt).
Proof.
  intros H. unfold cache_del. destruct (get_cache_file_path c name rt) as [p|e|] eqn:E; try constructor.
  - apply cache_path_ok in E as [N ->]. auto.
  - constructor.
Qed.
Lemma wi_cached ver : (named name rt -> Q (OpRead (entry_path c name rt))) -> within Q (get_cached_result c name ver rt).
Proof.
  intros H. assert (L : within Q (get_legacy_cached_result c name ver rt)).
  { apply wi_path. intros N. apply wi_bind; [apply wi_one; auto|]. intros [d|]; constructor. }
  apply wi_path. intros N. apply wi_bind; [apply wi_one; auto|]. intros [d|]; [|constructor].
  destruct (unmarshal_cached_info d) as [ci|]; [|exact L]. destruct (String.eqb _ _); [constructor|exact L].
Qed.
Lemma wi_config : (named name rt -> Q (OpRead (entry_path c name rt))) -> within Q (get_cached_config c name rt).
Proof. intros H. apply wi_path. intros N. apply wi_bind; [apply wi_one; auto|]. intros [d|]; constructor. Qed.
End One.

Lemma wi_version path : runs_plugins -> within Q (invoke_get_version_info path).
Proof. intros R. unfold invoke_get_version_info. apply wi_bind; [now apply wi_exec|]. intros. constructor. Qed.
Lemma wi_validate_plugin c t v : runs_plugins -> Q (OpFind t (c_path c)) -> within Q (validate_plugin c t v).
Proof. intros R F. apply wi_rbindp; [now apply wi_one|]. intros. apply wi_rbindp; [now apply wi_version|]. intros. constructor. Qed.
Lemma wi_validate_loop c v : forall nets caps errs, Forall (finds c) nets -> within Q (validate_loop c v nets caps errs).
Proof.
  induction nets as [|n nets IH]; intros caps errs F; cbn [validate_loop]; [constructor|]. apply Forall_cons_iff in F as [[F1 F2] F].
  apply wi_bind; [now apply wi_validate_plugin|]. intros [u|e|]; [now apply IH|now apply IH|constructor].
Qed.
Definition sends c (inject : list (string * gval)) (n : plugin_config) : Prop := forall conf, inject_conf n inject = Ok conf -> finds c conf.
Lemma wi_only verb c net : finds c net -> within Q (verb_only verb c net).
Proof. intros [R F]. apply wi_rbindp; [now apply wi_one|]. intros. now apply wi_without_result. Qed.
Lemma wi_status_loop c inject : forall nets, Forall (sends c inject) nets -> within Q (status_loop c inject nets).
Proof.
  induction nets as [|n nets IH]; intros F; cbn [status_loop]; [constructor|]. apply Forall_cons_iff in F as [F1 F].
  apply wi_lift_then. intros conf E. assert (I : inject_conf n inject = Ok conf) by (destruct (inject_conf n inject); cbn in E; congruence).
  apply wi_rbindp; [apply wi_only; now apply F1|auto].
Qed.
Lemma wi_gc_plugin_loop c inject : forall nets errs, Forall (sends c inject) nets -> within Q (gc_plugin_loop c inject nets errs).
Proof.
  induction nets as [|n nets IH]; intros errs F; cbn [gc_plugin_loop]; [constructor|]. apply Forall_cons_iff in F as [F1 F].
  destruct (inject_conf n inject) as [conf|e|] eqn:E; [|constructor|constructor].
  apply wi_bind; [apply wi_only; now apply F1|]. intros [u|e|]; [now apply IH|now apply IH|constructor].
Qed.
Lemma wi_del c l rt : (named (nl_name l) rt -> Q (OpRead (entry_path c (nl_name l) rt)) /\ Q (OpRemove (entry_path c (nl_name l) rt))) ->
  Forall (finds c) (nl_plugins l) -> within Q (del_network_list c l rt).
Proof.
  intros H F. apply wi_rbindp; [apply wi_lift|]. intros b. apply wi_rbindp.
  - destruct b; [|constructor]. apply wi_bind; [apply wi_cached; intros N; now apply H|]. intros [x|e|]; try constructor.
    apply wi_bind; [apply wi_cache_del; intros N; now apply H|]. constructor.
  - intros. apply wi_rbindp; [apply wi_del_loop; now apply Forall_rev|]. intros. apply wi_bind; [apply wi_cache_del; intros N; now apply H|]. constructor.
Qed.
Lemma wi_gc_del_loop c l args : Forall (finds c) (nl_plugins l) -> forall atts errs,
  (forall a, In a atts -> at_network a = nl_name l -> named (nl_name l) (rt_of_attachment a) ->
     Q (OpRead (entry_path c (nl_name l) (rt_of_attachment a))) /\ Q (OpRemove (entry_path c (nl_name l) (rt_of_attachment a)))) ->
  within Q (gc_del_loop c l args atts errs).
Proof.
  intros F. induction atts as [|a atts IH]; intros errs H; cbn [gc_del_loop]; [constructor|].
  assert (T : forall errs, within Q (gc_del_loop c l args atts errs)) by (intros; apply IH; intros x I; apply H; now right).
  destruct (String.eqb_spec (at_network a) (nl_name l)) as [E|]; cbn [negb]; [|apply T]. destruct (is_valid_attachment _ _); [apply T|].
  apply wi_bind; [apply wi_del; [|exact F]; intros N; apply H; [now left|exact E|exact N]|]. intros [u|e|]; [apply T|apply T|constructor].
Qed.
Lemma wi_read_attachments dir id : forall names, (forall n, In n names -> Q (OpRead (join_path [dir; n]))) -> within Q (read_attachments dir id names).
Proof.
  induction names as [|n names IH]; intros H; cbn [read_attachments]; [constructor|].
  assert (T : within Q (read_attachments dir id names)) by (apply IH; intros x I; apply H; now right).
  destruct (name_selected id n); cbn [negb]; [|exact T]. apply wi_bind; [apply wi_one; apply H; now left|]. intros. apply wi_bind; [exact T|constructor].
Qed.
End Rules.

Lemma within_weaken A (Q Q' : op -> Prop) (p : prog A) : (forall o, Q o -> Q' o) -> within Q p -> within Q' p.
Proof. intros W H. induction H; constructor; auto. Qed.
Lemma goes_within A Q fl (p : prog A) w tr w' q : goes fl p w tr w' q -> within Q p -> forall o r, In (o, r) tr -> Q o.
Proof.
  induction 1 as [|o k w r w1 tr w2 q A1 G IH]; intros W o' r' I; [destruct I|]. inversion W as [|o1 k1 Q1 W1]; subst.
  destruct I as [E|I]; [injection E as <- <-; exact Q1|]. eapply IH; [apply W1|exact I].
Qed.

Lemma at_of c a name rt : about a = Some (name, rt) -> named name rt -> at_entry c a (entry_path c name rt).
Proof. intros A N. exists name, rt. now split. Qed.
Lemma finds_concern c a n : concerns a (pc_type (pg_conf n)) -> finds (may c a) c n.
Proof. intros C. split; [split; [|intros]; exists (pc_type (pg_conf n)); exact C|]. now split. Qed.
Lemma finds_list c a l : (forall t, own_type l t -> concerns a t) -> Forall (finds (may c a) c) (nl_plugins l).
Proof. intros H. apply Forall_forall. intros n I. apply finds_concern, H. now exists n. Qed.
Lemma sends_list c a l inject : ~ In "type" (map fst inject) -> (forall t, sent_type l t -> concerns a t) -> Forall (sends (may c a) c inject) (nl_plugins l).
Proof. intros T H. apply Forall_forall. intros n I conf E. apply finds_concern, H. now exists n, inject, conf. Qed.

Lemma wi_performs c a : ~ looks_around a -> within (may c a) (performs c a).
Proof.
  intros L. destruct a as [l rt|l rt|l rt|l rt|l rt|n rt|n rt|n rt|n rt|n rt|l|n|l args|l|id|t];
    try (destruct L; exact I); apply wi_returning.
  - apply wi_rbindp; [apply wi_add_loop, finds_list; auto|]. intros r. apply wi_rbindp; [|intros; apply wi_lift].
    apply wi_pwrap, wi_cache_add. intros N p. pose proof (at_of c (AddList l rt) _ _ eq_refl N) as P.
    split; [split; [exact I|exists p; auto]|]. split; [|intros d]; (split; [exact I|exact P]).
  - apply wi_rbindp; [apply wi_lift|]. intros b. destruct b; cbn [negb]; [|constructor]. destruct (nl_disable_check l); [constructor|].
    apply wi_rbindp; [apply wi_pwrap, wi_cached; intros N; split; [easy|now apply at_of]|]. intros. apply wi_check_loop, finds_list. auto.
  - apply wi_del; [|apply finds_list; auto]. intros N. split; (split; [easy|now apply at_of]).
  - apply wi_cached. intros N. split; [easy|now apply at_of].
  - apply wi_config. intros N. split; [easy|now apply at_of].
  - apply wi_rbindp; [apply wi_add_one, finds_concern; reflexivity|]. intros r. apply wi_rbindp; [|intros; apply wi_lift].
    apply wi_pwrap, wi_cache_add. intros N p. pose proof (at_of c (AddOne n rt) _ _ eq_refl N) as P.
    split; [split; [exact I|exists p; auto]|]. split; [|intros d]; (split; [exact I|exact P]).
  - apply wi_rbindp; [apply wi_lift|]. intros b. destruct b; cbn [negb]; [|constructor].
    apply wi_rbindp; [apply wi_pwrap, wi_cached; intros N; split; [easy|now apply at_of]|]. intros. apply wi_verb, finds_concern. reflexivity.
  - apply wi_rbindp; [apply wi_lift|]. intros b. apply wi_rbindp.
    + destruct b; [|constructor]. apply wi_pwrap, wi_cached. intros N; split; [easy|now apply at_of].
    + intros. apply wi_rbindp; [apply wi_verb, finds_concern; reflexivity|]. intros. apply wi_bind; [apply wi_cache_del; intros N; split; [easy|now apply at_of]|]. constructor.
  - apply wi_cached. intros N. split; [easy|now apply at_of].
  - apply wi_config. intros N. split; [easy|now apply at_of].
  - apply wi_rbindp; [apply wi_validate_loop, finds_list; auto|]. intros [caps errs]. constructor.
  - destruct (finds_concern c (ValidateOne n) n eq_refl) as [R F]. apply wi_rbindp; [now apply wi_validate_plugin|]. intros. constructor.
  - unfold get_status_network_list. destruct (gte_or_false _ _); cbn [negb]; [|constructor]. apply wi_status_loop, sends_list; [|auto]. cbn. intuition discriminate.
  - apply wi_rbindp; [apply wi_one; now split|]. intros. apply wi_version. split; [|intros]; now exists t.
Qed.

(** *** Listing and garbage collection *)
Lemma goes_bind A B fl (p : prog A) (f : A -> prog B) w tr w' q : goes fl (bind p f) w tr w' q ->
  (exists q1, goes fl p w tr w' q1) \/ exists t1 w1 a t2, runs fl p w t1 w1 a /\ goes fl (f a) w1 t2 w' q /\ tr = (t1 ++ t2)%list.
Proof.
  revert w tr. induction p as [a|o k IH]; intros w tr G.
  - right. exists [], w, a, tr. split; [constructor|]. now split.
  - cbn [bind] in G. inversion G as [|o' k' w0 r w1 tr' w2 q' A1 G']; subst.
    + left. exists (Do o k). constructor.
    + destruct (IH r _ _ G') as [(q1 & H)|(t1 & wm & a & t2 & R & H & ->)].
      * left. exists q1. econstructor; eassumption.
      * right. exists ((o, r) :: t1), wm, a, t2. split; [econstructor; eassumption|]. now split.
Qed.
Lemma sorted_in l n : In n (sort_strings l) <-> In n l.
Proof. split; apply Permutation_in; [symmetry|]; apply sort_strings_perm. Qed.
Lemma list_ops fl c id w tr w' q : tidy w -> goes fl (get_cached_attachments c id) w tr w' q -> forall o r, In (o, r) tr -> may_list c o.
Proof.
  intros T G o r I. unfold get_cached_attachments, read_dir in G. cbn [bind] in G.
  inversion G as [|o' k' w0 r0 w1 tr' w2 q' A1 G']; subst; [destruct I|]. destruct I as [E|I]; [injection E as <- <-; reflexivity|].
  assert (N : forall names, (match r0 with RNames x => x | _ => Ok [] end) = Ok names -> forall n, In n names -> file_name n).
  { intros names E n J. inversion A1; subst; try discriminate. assert (E' : names = children (results_dir c) w1) by (symmetry; injection E; intros X; exact X).
    rewrite E' in J. now apply (children_iff c w1 n T) in J. }
  destruct (match r0 with RNames x => x | _ => Ok [] end) as [names|e|].
  - refine (goes_within _ (may_list c) _ _ _ _ _ _ G' _ o r I). apply wi_bind; [|constructor]. apply wi_read_attachments.
    intros n J. apply (proj1 (sorted_in _ _)) in J. pose proof (N names eq_refl n J) as F. exists n. split; [exact F|]. exact (dir_join c n F).
  - inversion G'; subst. destruct I.
  - inversion G'; subst. destruct I.
Qed.
Lemma read_records fl dir id : forall names w tr w' atts, runs fl (read_attachments dir id names) w tr w' atts ->
  forall a, In a atts -> exists p data, In (OpRead p, RData (Some data)) tr /\ describes data a.
Proof.
  induction names as [|n names IH]; intros w tr w' atts R a I; cbn [read_attachments] in R.
  - apply runs_ret in R as (_ & _ & ->). destruct I.
  - destruct (name_selected id n); cbn [negb] in R; [|eauto]. apply runs_bind in R as (t1 & w1 & od & t2 & R1 & R2 & ->).
    apply runs_bind in R2 as (t3 & w3 & rest & t4 & R3 & R4 & ->). apply runs_ret in R4 as (-> & -> & ->). apply in_app_or in I as [I|I].
    + destruct od as [data|]; [|destruct I]. destruct (attachment_of id data) as [a'|] eqn:E; [|destruct I]. destruct I as [<-|[]].
      apply attachment_of_iff in E as [E _]. unfold read_file in R1. inversion R1 as [|o k w0 r w2 tr0 w4 a0 A1 R5]; subst. apply runs_ret in R5 as (-> & -> & E5).
      inversion A1; subst; [|discriminate]. eexists _, data. split; [|exact E]. left. f_equal. f_equal. congruence.
    + destruct (IH _ _ _ _ R3 a I) as (p & d & J & K). exists p, d. split; [|exact K]. rewrite app_nil_r. apply in_or_app. now right.
Qed.
Lemma list_records fl c id w tr w' atts : runs fl (get_cached_attachments c id) w tr w' (Ok atts) ->
  forall a, In a atts -> exists p data, In (OpRead p, RData (Some data)) tr /\ describes data a.
Proof.
  intros R a I. apply runs_bind in R as (t1 & w1 & [names|e|] & t2 & R1 & R2 & ->).
  - apply runs_bind in R2 as (t3 & w3 & l & t4 & R3 & R4 & ->). apply runs_ret in R4 as (-> & -> & E). assert (l = atts) by congruence. subst l.
    destruct (read_records _ _ _ _ _ _ _ _ R3 a I) as (p & d & J & K). exists p, d. split; [|exact K]. apply in_or_app. right. apply in_or_app. now left.
  - apply runs_ret in R2 as (_ & _ & E). destruct (is_not_exist e); [|discriminate]. assert (atts = []) by congruence. subst atts. destruct I.
  - apply runs_ret in R2 as (_ & _ & E). discriminate.
Qed.
Lemma gc_inject_type l args : ~ In "type" (map fst (gc_inject l args)).
Proof. destruct args; cbn; intuition discriminate. Qed.
Lemma collect_mono c l t1 t2 o : may_collect c l t1 o -> may_collect c l (t1 ++ t2)%list o.
Proof.
  intros [M|M]; [now left|]. right. destruct o; try exact M; destruct M as (a & (N & p & d & I & D) & M); exists a; (split; [|exact M]); (split; [exact N|]); exists p, d; (split; [|exact D]); apply in_or_app; now left.
Qed.
Lemma gc_ops fl c l args w tr w' q : tidy w -> goes fl (gc_network_list c l args) w tr w' q -> forall o r, In (o, r) tr -> may_collect c l tr o.
Proof.
  intros T G o r I. unfold gc_network_list in G. destruct (nl_disable_gc l); [inversion G; subst; destruct I|].
  apply goes_bind in G as [(q1 & G)|(t1 & w1 & x & t2 & R & G & ->)]; [left; eapply list_ops; eassumption|].
  apply in_app_or in I as [I|I]; [left; apply runs_goes in R; eapply list_ops; eassumption|].
  apply collect_mono. destruct x as [atts|e|]; [|inversion G; subst; destruct I|inversion G; subst; destruct I].
  pose proof (list_records _ _ _ _ _ _ _ R) as REC.
  assert (RP : forall n, In n (nl_plugins l) -> runs_plugins (may_collect c l t1)).
  { intros n J. split; [|intros p s e]; right; intros E; rewrite E in J; destruct J. }
  refine (goes_within _ (may_collect c l t1) _ _ _ _ _ _ G _ o r I).
  assert (FD : Forall (finds (may_collect c l t1) c) (nl_plugins l)).
  { apply Forall_forall. intros n J. split; [eapply RP; exact J|]. right. split; [left; now exists n|reflexivity]. }
  assert (FS : Forall (sends (may_collect c l t1) c (gc_inject l args)) (nl_plugins l)).
  { apply Forall_forall. intros n J conf E. split; [eapply RP; exact J|]. right. split; [|reflexivity]. right. exists n, (gc_inject l args), conf. now split; [|split; [apply gc_inject_type|]]. }
  apply wi_rbindp.
  - apply wi_gc_del_loop; [exact FD|]. intros a J NW (N1 & N2 & N3). destruct (REC a J) as (p & d & K & D).
    assert (M : exists a0, found_record l t1 a0 /\ at_container a0 <> "" /\ entry_path c (nl_name l) (rt_of_attachment a) = entry_path c (nl_name l) (rt_of_attachment a0)).
    { exists a. split; [split; [exact NW|]; now exists p, d|]. split; [exact N2|reflexivity]. }
    split; right; exact M.
  - intros errs. apply wi_rbindp; [|intros; constructor]. destruct (gte_or_false _ _); [|constructor]. now apply wi_gc_plugin_loop.
Qed.
