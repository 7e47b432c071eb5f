(** Runs of programs. *)
From Coq Require Import String Ascii List Arith Bool Lia.
From Verif Require Import Model.GoStr Model.Errors Model.Args Model.Path Model.Prog Model.Api Spec.RunSpec Proofs.StrP.
Import ListNotations.
Open Scope nat_scope.
Open Scope string_scope.

Lemma runs_ret fl A (a : A) w tr w' b : runs fl (Ret a) w tr w' b <-> tr = [] /\ w' = w /\ b = a.
Proof. split; [intros H; now inversion H|]. intros (-> & -> & ->). constructor. Qed.
Lemma runs_do fl A o (k : resp -> prog A) w tr w' b : runs fl (Do o k) w tr w' b <->
  exists r w1 tr1, tr = (o, r) :: tr1 /\ answer fl w o r w1 /\ runs fl (k r) w1 tr1 w' b.
Proof.
  split; [intros H; inversion H; subst; eauto 7|]. intros (r & w1 & tr1 & -> & A1 & R). econstructor; eassumption.
Qed.
Lemma runs_bind fl A B (p : prog A) (f : A -> prog B) : forall w tr w' b, runs fl (bind p f) w tr w' b <->
  exists tr1 w1 a tr2, runs fl p w tr1 w1 a /\ runs fl (f a) w1 tr2 w' b /\ tr = (tr1 ++ tr2)%list.
Proof.
  induction p as [a|o k IH]; intros w tr w' b; cbn [bind].
  - split.
    + intros H. exists [], w, a, tr. split; [constructor|]. auto.
    + intros (tr1 & w1 & a' & tr2 & R1 & R2 & ->). apply runs_ret in R1. destruct R1 as (-> & -> & ->). exact R2.
  - rewrite runs_do. split.
    + intros (r & w1 & tr1 & -> & An & R). apply IH in R. destruct R as (tr2 & w2 & a & tr3 & R1 & R2 & ->).
      exists ((o, r) :: tr2), w2, a, tr3. split; [econstructor; eassumption|]. auto.
    + intros (tr1 & w1 & a & tr2 & R1 & R2 & ->). apply runs_do in R1. destruct R1 as (r & w2 & tr3 & -> & An & R1).
      exists r, w2, (tr3 ++ tr2)%list. split; [reflexivity|]. split; [exact An|]. apply IH. eauto 8.
Qed.
Lemma runs_rbindp fl A B (p : prog (res A)) (f : A -> prog (res B)) w tr w' b : runs fl (rbindp p f) w tr w' b <->
  (exists tr1 w1 a tr2, runs fl p w tr1 w1 (Ok a) /\ runs fl (f a) w1 tr2 w' b /\ tr = (tr1 ++ tr2)%list) \/
  (exists e, b = Err e /\ runs fl p w tr w' (Err e)) \/ (b = Panic /\ runs fl p w tr w' Panic).
Proof.
  unfold rbindp. rewrite runs_bind. split.
  - intros (tr1 & w1 & a & tr2 & R1 & R2 & ->). destruct a as [a|e|].
    + left. eauto 8.
    + apply runs_ret in R2. destruct R2 as (-> & -> & ->). rewrite app_nil_r. eauto.
    + apply runs_ret in R2. destruct R2 as (-> & -> & ->). rewrite app_nil_r. auto.
  - intros [(tr1 & w1 & a & tr2 & R1 & R2 & ->)|[(e & -> & R)|[-> R]]].
    + exists tr1, w1, (Ok a), tr2. auto.
    + exists tr, w', (Err e), []. rewrite app_nil_r. split; [exact R|]. split; [constructor|reflexivity].
    + exists tr, w', Panic, []. rewrite app_nil_r. split; [exact R|]. split; [constructor|reflexivity].
Qed.
Lemma runs_lift fl A (r : res A) w tr w' b : runs fl (lift r) w tr w' b <-> tr = [] /\ w' = w /\ b = r.
Proof. apply runs_ret. Qed.
Lemma runs_lift_then fl A B (r : res A) (f : A -> prog (res B)) w tr w' b : runs fl (rbindp (lift r) f) w tr w' b <->
  match r with Ok a => runs fl (f a) w tr w' b | Err e => tr = [] /\ w' = w /\ b = Err e | Panic => tr = [] /\ w' = w /\ b = Panic end.
Proof. unfold rbindp, lift. cbn [bind]. destruct r; [reflexivity|apply runs_ret|apply runs_ret]. Qed.
Lemma runs_pwrap fl A pre (p : prog (res A)) w tr w' b : runs fl (pwrap pre p) w tr w' b <->
  exists r, runs fl p w tr w' r /\ b = rwrap pre r.
Proof.
  unfold pwrap. rewrite runs_bind. split.
  - intros (tr1 & w1 & a & tr2 & R1 & R2 & ->). apply runs_ret in R2. destruct R2 as (-> & -> & ->). rewrite app_nil_r. eauto.
  - intros (r & R & ->). exists tr, w', r, []. rewrite app_nil_r. split; [exact R|]. split; [constructor|reflexivity].
Qed.

(** *** Single operations *)
Lemma runs_find fl plugin paths w tr w' r : runs fl (find_plugin plugin paths) w tr w' r <->
  tr = [(OpFind plugin paths, RStr r)] /\ w' = w /\ is_panic r = false.
Proof.
  unfold find_plugin. rewrite runs_do. split.
  - intros (x & w1 & tr1 & -> & An & R). apply runs_ret in R. destruct R as (-> & -> & ->). inversion An; subst. auto.
  - intros (-> & -> & P). exists (RStr r), w, []. split; [reflexivity|]. split; [now constructor|constructor].
Qed.
Lemma runs_exec_with_args fl path stdin a w tr w' r : runs fl (exec_with_args path stdin a) w tr w' r <->
  exists env, tr = [(OpEnviron, REnv env); (OpExec path stdin (as_env env a), RStr r)] /\ w' = w /\ is_panic r = false.
Proof.
  unfold exec_with_args, get_environ, run_plugin. cbn [bind]. rewrite runs_do. split.
  - intros (x & w1 & tr1 & -> & An & R). inversion An; subst. apply runs_do in R. destruct R as (y & w2 & tr2 & -> & An2 & R).
    apply runs_ret in R. destruct R as (-> & -> & ->). inversion An2; subst. eauto.
  - intros (env & -> & -> & P). exists (REnv env), w, [(OpExec path stdin (as_env env a), RStr r)].
    split; [reflexivity|]. split; [constructor|]. apply runs_do. exists (RStr r), w, []. split; [reflexivity|]. split; [now constructor|constructor].
Qed.
Lemma runs_read fl p w tr w' d : runs fl (read_file p) w tr w' d <->
  tr = [(OpRead p, RData d)] /\ w' = w /\ (d = sget p w \/ (fl = true /\ d = None)).
Proof.
  unfold read_file. rewrite runs_do. split.
  - intros (x & w1 & tr1 & -> & An & R). apply runs_ret in R. destruct R as (-> & -> & ->). inversion An; subst; auto.
  - intros (-> & -> & [->|[F ->]]).
    + exists (RData (sget p w)), w, []. split; [reflexivity|]. split; [constructor|constructor].
    + exists (RData None), w, []. split; [reflexivity|]. split; [now constructor|constructor].
Qed.
Lemma runs_remove fl p w tr w' e : runs fl (remove_file p) w tr w' e <->
  tr = [(OpRemove p, RErr e)] /\
  ((e = None /\ (exists c, sget p w = Some c) /\ w' = sdel p w) \/
   (w' = w /\ exists x, e = Some x /\ ((sget p w = None /\ is_not_exist x = true) \/ fl = true))).
Proof.
  unfold remove_file. rewrite runs_do. split.
  - intros (x & w1 & tr1 & -> & An & R). apply runs_ret in R. destruct R as (-> & -> & ->). inversion An; subst; cbn; split; eauto 9.
  - intros (-> & [(-> & (c & G) & ->)|(-> & x & -> & H)]).
    + exists (RErr None), (sdel p w), []. split; [reflexivity|]. split; [econstructor; exact G|constructor].
    + exists (RErr (Some x)), w, []. split; [reflexivity|]. split; [destruct H as [[G N]|F]; [now constructor|now apply AnsRemoveFault]|constructor].
Qed.

(** *** Calls and changes of traces *)
Lemma calls_app (a b : trace) : calls (a ++ b)%list = (calls a ++ calls b)%list. Proof. apply flat_map_app. Qed.
Lemma changed_app (a b : trace) : changed (a ++ b)%list = (changed a ++ changed b)%list. Proof. apply flat_map_app. Qed.
Lemma found_at_app c t (a b : trace) p : found_at c t (a ++ b)%list p <-> found_at c t a p \/ found_at c t b p.
Proof. unfold found_at. apply in_app_iff. Qed.

(** A file nobody names is left alone. *)
Lemma sget_overlay p q d w : sget q (overlay p d w) = if String.eqb q p then match sget p w with Some c => Some (d ++ sdrop (String.length d) c) | None => None end else sget q w.
Proof.
  unfold overlay. destruct (String.eqb_spec q p) as [->|N].
  - destruct (sget p w) eqn:E; [apply sget_sset_same|exact E].
  - destruct (sget p w); [now apply sget_sset_other|reflexivity].
Qed.
Lemma answer_unchanged fl w o r w' q : answer fl w o r w' -> changes o <> Some q -> sget q w' = sget q w.
Proof.
  intros H N. destruct H; cbn in N; try reflexivity.
  - apply sget_sset_other. congruence.
  - rewrite sget_overlay. destruct (String.eqb_spec q p); [congruence|reflexivity].
  - rewrite sget_overlay. destruct (String.eqb_spec q p); [congruence|reflexivity].
  - rewrite sget_sdel. destruct (String.eqb_spec q p); [congruence|reflexivity].
Qed.
Lemma runs_unchanged fl A (p : prog A) w tr w' a q : runs fl p w tr w' a -> ~ In q (changed tr) -> sget q w' = sget q w.
Proof.
  induction 1 as [|o k w r w1 tr w2 a An R IH]; intros N; [reflexivity|]. cbn in N. rewrite IH.
  - eapply answer_unchanged; [exact An|]. intros E. apply N. cbn. rewrite E. now left.
  - intros I. apply N. apply in_or_app. now right.
Qed.
Lemma runs_same_world fl A (p : prog A) w tr w' a : runs fl p w tr w' a -> changed tr = [] -> w' = w.
Proof.
  induction 1 as [|o k w r w1 tr w2 a An R IH]; intros N; [reflexivity|]. cbn in N.
  destruct (changes o) eqn:C; [discriminate|]. cbn in N. rewrite (IH N). destruct An; try reflexivity; discriminate.
Qed.

(** The interpreter's answers are runs without faults. *)
Definition tame (orc : oracle) : Prop :=
  (forall p l, is_panic (or_find orc p l) = false) /\ (forall n p s e, is_panic (or_exec orc n p s e) = false).
Lemma respond_answer orc n w o : tame orc -> answer false w o (fst (respond orc n w o)) (snd (respond orc n w o)).
Proof.
  intros (T1 & T2). destruct o; cbn [respond]; try (cbn; now constructor).
  - destruct (sget path w) eqn:G; cbn; [econstructor; exact G|now constructor].
  - destruct (children path w) eqn:G; cbn; [now constructor|rewrite <- G; constructor].
Qed.
Lemma interp_runs A orc : tame orc -> forall (p : prog A) n w, let '(a, w', tr) := interp orc n p w in runs false p w tr w' a.
Proof.
  intros T. induction p as [a|o k IH]; intros n w; cbn [interp]; [constructor|].
  pose proof (respond_answer orc n w o T) as An. destruct (respond orc n w o) as [x w1]. cbn [fst snd] in An.
  specialize (IH x (if is_exec o then S n else n) w1). destruct (interp orc _ (k x) w1) as [[a w2] tr]. econstructor; eassumption.
Qed.
Lemma interp_run A orc (p : prog A) w a w' tr : tame orc -> interp orc 0 p w = (a, w', tr) -> runs false p w tr w' a.
Proof. intros T E. pose proof (interp_runs A orc T p 0 w) as R. now rewrite E in R. Qed.
