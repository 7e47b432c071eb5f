(** Which cache files an operation can touch at all, and what follows for interleavings. *)
From Coq Require Import String List Bool Arith Lia.
From Verif Require Import Model.GoStr Model.Errors Model.Version Model.Json Model.GoJson Model.Types Model.Conf Model.Invoke
  Model.Prog Model.Api Spec.VersionSpec Spec.RunSpec Spec.CacheSpec Spec.HistSpec
  Proofs.StrP Proofs.ProgP Proofs.ApiP.
Import ListNotations.
Open Scope nat_scope.
Open Scope string_scope.

Definition op_in (P : string -> Prop) (o : op) : Prop :=
  match o with
  | OpRead p | OpTrunc p | OpWrite p _ | OpRemove p => P p
  | OpReadDir _ => False
  | _ => True
  end.
Inductive confined {A} (P : string -> Prop) : prog A -> Prop :=
| CfRet a : confined P (Ret a)
| CfDo o k : op_in P o -> (forall r, confined P (k r)) -> confined P (Do o k).

Section Rules.
Variable P : string -> Prop.
Lemma cf_bind A B (p : prog A) (f : A -> prog B) : confined P p -> (forall a, confined P (f a)) -> confined P (bind p f).
Proof. intros H F. induction H; cbn; [apply F|constructor; auto]. Qed.
Lemma cf_rbindp A B (p : prog (res A)) (f : A -> prog (res B)) : confined P p -> (forall a, confined P (f a)) -> confined P (rbindp p f).
Proof. intros H F. apply cf_bind; [exact H|]. intros [a|e|]; [apply F|constructor|constructor]. Qed.
Lemma cf_lift A (r : res A) : confined P (lift r). Proof. constructor. Qed.
Lemma cf_lift_then A B (r : res A) (f : A -> prog (res B)) : (forall a, r = Ok a -> confined P (f a)) -> confined P (rbindp (lift r) f).
Proof. intros F. unfold rbindp, lift. cbn. destruct r; [now apply F|constructor|constructor]. Qed.
Lemma cf_pwrap A pre (p : prog (res A)) : confined P p -> confined P (pwrap pre p).
Proof. intros H. apply cf_bind; [exact H|constructor]. Qed.
Lemma cf_find a b : confined P (find_plugin a b). Proof. constructor; [exact I|constructor]. Qed.
Lemma cf_exec path stdin a : confined P (exec_with_args path stdin a).
Proof. unfold exec_with_args, get_environ, run_plugin. cbn. repeat (constructor; [exact I|intros ?]). constructor. Qed.
Lemma cf_read p : P p -> confined P (read_file p). Proof. constructor; [exact H|constructor]. Qed.
Lemma cf_remove p : P p -> confined P (remove_file p). Proof. constructor; [exact H|constructor]. Qed.
Lemma cf_mkdir p : confined P (mkdir_all p). Proof. constructor; [exact I|constructor]. Qed.
Lemma cf_write p d : P p -> confined P (write_file p d).
Proof. intros H. constructor; [exact H|]. intros r. destruct r as [[e|]| | | |]; repeat constructor; exact H. Qed.
Lemma cf_returning A (f : A -> value) p : confined P p -> confined P (returning f p).
Proof. intros H. apply cf_bind; [exact H|constructor]. Qed.

Section One.
Variables (c : cni) (name : string) (rt : runtime_conf).
Hypothesis HP : named name rt -> P (entry_path c name rt).

Lemma cf_path A (f : string -> prog (res A)) : (forall p, P p -> confined P (f p)) -> confined P (rbindp (lift (get_cache_file_path c name rt)) f).
Proof. intros F. apply cf_lift_then. intros p E. apply F. apply cache_path_ok in E as [N ->]. auto. Qed.

Lemma cf_with_result path stdin a : confined P (exec_plugin_with_result path stdin a).
Proof. apply cf_rbindp; [apply cf_exec|intros; apply cf_lift]. Qed.
Lemma cf_without_result path stdin a : confined P (exec_plugin_without_result path stdin a).
Proof. apply cf_rbindp; [apply cf_exec|intros; apply cf_lift]. Qed.

Lemma cf_add_one ver net prev : confined P (add_network_one c name ver net prev rt).
Proof.
  apply cf_rbindp; [apply cf_find|]. intros p.
  do 4 (apply cf_rbindp; [apply cf_lift|]; intros). apply cf_with_result.
Qed.
Lemma cf_add_loop ver : forall nets prev, confined P (add_loop c name ver nets prev rt).
Proof.
  induction nets as [|n nets IH]; intros prev; cbn [add_loop]; [constructor|].
  apply cf_rbindp; [apply cf_pwrap, cf_add_one|]. intros. apply IH.
Qed.
Lemma cf_cache_add res config : confined P (cache_add c res config name rt).
Proof.
  apply cf_rbindp; [apply cf_lift|]. intros bytes. apply cf_path. intros p Hp.
  apply cf_bind; [apply cf_mkdir|]. intros [e|]; [constructor|].
  apply cf_bind; [now apply cf_write|constructor].
Qed.
Lemma cf_cache_del : confined P (cache_del c name rt).
Proof.
  unfold cache_del. destruct (get_cache_file_path c name rt) as [p|e|] eqn:E; try constructor.
  - cbn. apply cache_path_ok in E as [N ->]. auto.
  - constructor.
Qed.
Lemma cf_legacy ver : confined P (get_legacy_cached_result c name ver rt).
Proof. apply cf_path. intros p Hp. apply cf_bind; [now apply cf_read|]. intros [d|]; constructor. Qed.
Lemma cf_cached ver : confined P (get_cached_result c name ver rt).
Proof.
  apply cf_path. intros p Hp. apply cf_bind; [now apply cf_read|]. intros [d|]; [|constructor].
  destruct (unmarshal_cached_info d) as [ci|]; [|apply cf_legacy]. destruct (String.eqb _ _); [constructor|apply cf_legacy].
Qed.
Lemma cf_config : confined P (get_cached_config c name rt).
Proof. apply cf_path. intros p Hp. apply cf_bind; [now apply cf_read|]. intros [d|]; constructor. Qed.
Lemma cf_verb verb ver net prev : confined P (verb_network verb c name ver net prev rt).
Proof.
  apply cf_rbindp; [apply cf_find|]. intros p. apply cf_rbindp; [apply cf_lift|]. intros. apply cf_without_result.
Qed.
Lemma cf_check_loop ver prev : forall nets, confined P (check_loop c name ver nets prev rt).
Proof. induction nets as [|n nets IH]; cbn [check_loop]; [constructor|]. apply cf_rbindp; [apply cf_verb|auto]. Qed.
Lemma cf_del_loop ver prev : forall nets, confined P (del_loop c name ver nets prev rt).
Proof. induction nets as [|n nets IH]; cbn [del_loop]; [constructor|]. apply cf_rbindp; [apply cf_pwrap, cf_verb|auto]. Qed.
End One.

Lemma cf_version path : confined P (invoke_get_version_info path).
Proof. unfold invoke_get_version_info. apply cf_bind; [apply cf_exec|]. intros. constructor. Qed.
Lemma cf_validate_plugin c t v : confined P (validate_plugin c t v).
Proof. apply cf_rbindp; [apply cf_find|]. intros. apply cf_rbindp; [apply cf_version|]. intros. constructor. Qed.
Lemma cf_validate_loop c v : forall nets caps errs, confined P (validate_loop c v nets caps errs).
Proof.
  induction nets as [|n nets IH]; intros; cbn [validate_loop]; [constructor|].
  apply cf_bind; [apply cf_validate_plugin|]. intros [u|e|]; [apply IH|apply IH|constructor].
Qed.
Lemma cf_status_loop c inject : forall nets, confined P (status_loop c inject nets).
Proof.
  induction nets as [|n nets IH]; cbn [status_loop]; [constructor|].
  apply cf_rbindp; [apply cf_lift|]. intros. apply cf_rbindp; [|auto].
  apply cf_rbindp; [apply cf_find|]. intros. apply cf_rbindp; [apply cf_exec|intros; apply cf_lift].
Qed.

Lemma cf_performs c a : ~ looks_around a -> (forall p, at_entry c a p -> P p) -> confined P (performs c a).
Proof.
  intros L HP. destruct a as [l rt|l rt|l rt|l rt|l rt|n rt|n rt|n rt|n rt|n rt|l|n|l args|l|id|t];
    try (destruct L; exact I); apply cf_returning;
    try (assert (HN : forall name, about _ = Some (name, rt) -> named name rt -> P (entry_path c name rt))
           by (intros name A N; apply HP; exists name, rt; repeat split; [exact A|apply N..])).
  - apply cf_rbindp; [apply cf_add_loop|]. intros r. apply cf_rbindp; [|intros; apply cf_lift].
    apply cf_pwrap, cf_cache_add. apply HN. reflexivity.
  - apply cf_rbindp; [apply cf_lift|]. intros b. destruct b; cbn [negb]; [|constructor]. destruct (nl_disable_check l); [constructor|].
    apply cf_rbindp; [apply cf_pwrap, cf_cached; apply HN; reflexivity|]. intros. apply cf_check_loop.
  - apply cf_rbindp; [apply cf_lift|]. intros b. apply cf_rbindp.
    + destruct b; [|constructor]. apply cf_bind; [apply cf_cached; apply HN; reflexivity|].
      intros [x|e|]; try constructor. apply cf_bind; [apply cf_cache_del; apply HN; reflexivity|]. constructor.
    + intros. apply cf_rbindp; [apply cf_del_loop|]. intros. apply cf_bind; [apply cf_cache_del; apply HN; reflexivity|]. constructor.
  - apply cf_cached. apply HN. reflexivity.
  - apply cf_config. apply HN. reflexivity.
  - apply cf_rbindp; [apply cf_add_one|]. intros r. apply cf_rbindp; [|intros; apply cf_lift].
    apply cf_pwrap, cf_cache_add. apply HN. reflexivity.
  - apply cf_rbindp; [apply cf_lift|]. intros b. destruct b; cbn [negb]; [|constructor].
    apply cf_rbindp; [apply cf_pwrap, cf_cached; apply HN; reflexivity|]. intros. apply cf_verb.
  - apply cf_rbindp; [apply cf_lift|]. intros b. apply cf_rbindp.
    + destruct b; [|constructor]. apply cf_pwrap, cf_cached; apply HN; reflexivity.
    + intros. apply cf_rbindp; [apply cf_verb|]. intros. apply cf_bind; [apply cf_cache_del; apply HN; reflexivity|]. constructor.
  - apply cf_cached. apply HN. reflexivity.
  - apply cf_config. apply HN. reflexivity.
  - apply cf_rbindp; [apply cf_validate_loop|]. intros [caps errs]. constructor.
  - apply cf_rbindp; [apply cf_validate_plugin|]. intros. constructor.
  - unfold get_status_network_list.
    repeat match goal with |- confined P (if ?b then _ else _) => destruct b | |- confined P (rbindp (lift _) _) => apply cf_rbindp; [apply cf_lift|intros] | |- confined P (Ret _) => constructor end.
    all: try apply cf_status_loop.
  - apply cf_rbindp; [apply cf_find|]. intros. apply cf_version.
Qed.
End Rules.

(** ** Runs of confined programs *)
Definition agree (P : string -> Prop) (w w' : world) : Prop := forall p, P p -> sget p w = sget p w'.

Lemma answer_agree P fl w o r w1 v : answer fl w o r w1 -> op_in P o -> agree P w v ->
  exists v1, answer fl v o r v1 /\ agree P w1 v1.
Proof.
  intros A I G. destruct A; cbn in I; try (destruct I; fail).
  - exists v. rewrite (G _ I). split; [constructor|exact G].
  - exists v. split; [now constructor|exact G].
  - eexists. split; [constructor|]. intros q Q. rewrite !sget_sset. destruct (String.eqb_spec q p); auto.
  - exists v. split; [now constructor|exact G].
  - eexists. split; [constructor|]. intros q Q. rewrite !sget_overlay. rewrite (G _ I). destruct (String.eqb q p); auto.
  - eexists. split; [eapply AnsWriteFault; eauto|]. intros q Q. rewrite !sget_overlay. rewrite (G _ I). destruct (String.eqb q p); auto.
  - eexists. split; [eapply AnsRemove; rewrite <- (G _ I); eassumption|]. intros q Q. rewrite !sget_sdel. destruct (String.eqb q p); auto.
  - exists v. split; [apply AnsRemoveNone; [rewrite <- (G _ I)|]; assumption|exact G].
  - exists v. split; [now constructor|exact G].
  - exists v. split; [now constructor|exact G].
  - exists v. split; [now constructor|exact G].
  - exists v. split; [now constructor|exact G].
  - exists v. split; [now constructor|exact G].
  - exists v. split; [now constructor|exact G].
Qed.

Lemma op_in_changes P o q : op_in P o -> changes o = Some q -> P q.
Proof. destruct o; cbn; intros I E; try discriminate; injection E as <-; exact I. Qed.

Lemma confined_step A P fl (o : op) (k : resp -> prog A) w r w1 : confined P (Do o k) -> answer fl w o r w1 ->
  confined P (k r) /\ op_in P o /\ forall q, ~ P q -> sget q w1 = sget q w.
Proof.
  intros C An. inversion C; subst. repeat split; auto. intros q N. eapply answer_unchanged; [eassumption|].
  intros E. apply N. eapply op_in_changes; eassumption.
Qed.

Lemma goes_runs A fl (p : prog A) w tr w' v : goes fl p w tr w' (Ret v) -> runs fl p w tr w' v.
Proof.
  intros H. remember (Ret v) as q. revert Heqq. induction H; intros E; [subst; constructor|]. econstructor; eauto.
Qed.
Lemma runs_goes A fl (p : prog A) w tr w' v : runs fl p w tr w' v -> goes fl p w tr w' (Ret v).
Proof. induction 1; econstructor; eauto. Qed.

Lemma goes_confined A P fl (p : prog A) w tr w' q : goes fl p w tr w' q -> confined P p -> confined P q /\ forall x, ~ P x -> sget x w' = sget x w.
Proof.
  induction 1; intros C; [auto|]. destruct (confined_step _ _ _ _ _ _ _ _ C H) as (C1 & _ & U).
  destruct (IHgoes C1) as (C2 & U2). split; [exact C2|]. intros x N. rewrite U2 by exact N. auto.
Qed.
Lemma runs_confined A P fl (p : prog A) w tr w' v : runs fl p w tr w' v -> confined P p -> forall x, ~ P x -> sget x w' = sget x w.
Proof. intros R C. apply runs_goes in R. eapply goes_confined in R; [|exact C]. apply R. Qed.
(** A confined program behaves the same in any world that agrees on its files. *)
Lemma runs_agree A P fl (p : prog A) w tr w' v : runs fl p w tr w' v -> confined P p -> forall u, agree P w u ->
  exists u', runs fl p u tr u' v /\ agree P w' u'.
Proof.
  induction 1; intros C u G; [exists u; split; [constructor|exact G]|].
  destruct (confined_step _ _ _ _ _ _ _ _ C H) as (C1 & I & _).
  destruct (answer_agree _ _ _ _ _ _ _ H I G) as (u1 & A1 & G1).
  destruct (IHruns C1 u1 G1) as (u2 & R2 & G2). exists u2. split; [econstructor; eauto|exact G2].
Qed.
Lemma crashes_confined A P fl (p : prog A) w tr w' : crashes fl p w tr w' -> confined P p -> forall x, ~ P x -> sget x w' = sget x w.
Proof.
  induction 1; intros C x N; [reflexivity| |].
  - inversion C as [|o k0 I F]; subst. cbn in I. rewrite sget_overlay. destruct (String.eqb_spec x p); [subst; contradiction|reflexivity].
  - destruct (confined_step _ _ _ _ _ _ _ _ C H) as (C1 & _ & U). rewrite IHcrashes by assumption. auto.
Qed.

Lemma nth_set_same A n (x : A) l y : nth_error l n = Some y -> nth_error (set_nth n x l) n = Some x.
Proof. revert l. induction n; intros [|z l] H; try discriminate; cbn in *; auto. Qed.
Lemma nth_set_other A n m (x : A) l : n <> m -> nth_error (set_nth n x l) m = nth_error l m.
Proof. revert m l. induction n; intros m [|z l] H; cbn; auto; destruct m; cbn; auto; congruence. Qed.
Lemma length_set A n (x : A) l : List.length (set_nth n x l) = List.length l.
Proof. revert l. induction n; intros [|z l]; cbn; auto. Qed.

(** Interleaved programs on separate files each do what they could have done alone. *)
Lemma interleaves_separate A fl (ps : list (prog A)) w tr w' qs (F : nat -> string -> Prop) :
  interleaves fl ps w tr w' qs ->
  (forall i p, nth_error ps i = Some p -> confined (F i) p) ->
  (forall i j x, i <> j -> i < List.length ps -> j < List.length ps -> F i x -> F j x -> False) ->
  List.length qs = List.length ps /\
  (forall i p, nth_error ps i = Some p -> forall u, agree (F i) w u ->
     exists q u', nth_error qs i = Some q /\ goes fl p u (own i tr) u' q /\ agree (F i) w' u') /\
  (forall x, (forall i, i < List.length ps -> ~ F i x) -> sget x w' = sget x w).
Proof.
  intros H. revert F. induction H as [ps w|ps w i o k r w1 tr w2 qs E An H IH]; intros F C D.
  - split; [reflexivity|]. split; [|auto]. intros i p E u G. exists p, u. repeat split; [exact E|constructor|exact G].
  - assert (Li : i < List.length ps) by (apply nth_error_Some; congruence).
    destruct (confined_step _ _ _ _ _ _ _ _ (C _ _ E) An) as (Ck & I & U).
    destruct (IH F) as (L & Each & Rest).
    + intros j p Ej. destruct (Nat.eq_dec i j) as [<-|N].
      * rewrite (nth_set_same _ _ _ _ _ E) in Ej. injection Ej as <-. exact Ck.
      * rewrite nth_set_other in Ej by exact N. eauto.
    + rewrite length_set. exact D.
    + rewrite length_set in L, Rest. split; [exact L|]. split.
      * intros j p Ej u G. destruct (Nat.eq_dec i j) as [<-|N].
        -- rewrite E in Ej. injection Ej as <-.
           destruct (answer_agree _ _ _ _ _ _ _ An I G) as (u1 & A1 & G1).
           destruct (Each i (k r) (nth_set_same _ _ _ _ _ E) u1 G1) as (q & u' & Q & Go & G').
           exists q, u'. split; [exact Q|]. split; [|exact G']. cbn [own flat_map fst snd]. rewrite Nat.eqb_refl. econstructor; eauto.
        -- assert (Lj : j < List.length ps) by (apply nth_error_Some; congruence).
           destruct (Each j p) with (u := u) as (q & u' & Q & Go & G').
           ++ rewrite nth_set_other by exact N. exact Ej.
           ++ intros x Fx. rewrite U; [auto|]. intros Fi. exact (D i j x N Li Lj Fi Fx).
           ++ exists q, u'. repeat split; auto. cbn [own flat_map fst snd]. rewrite (proj2 (Nat.eqb_neq i j) N). exact Go.
      * intros x N. rewrite Rest by exact N. apply U. auto.
Qed.
