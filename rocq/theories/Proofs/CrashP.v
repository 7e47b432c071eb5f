(** What a crash during ADD leaves behind. *)
From Coq Require Import String Ascii List Arith NArith ZArith Bool Lia.
From Verif Require Import Model.GoStr Model.Errors Model.Version Model.Json Model.GoJson Model.NetIP Model.Types Model.Conf Model.Prog Model.Api
  Spec.NameSpec Spec.JsonSpec Spec.ConfSpec Spec.TypesSpec Spec.RunSpec Spec.CacheSpec Spec.HistSpec Spec.MapSpec
  Proofs.StrP Proofs.JsonP Proofs.JsonRT Proofs.GoJsonP Proofs.ConfP Proofs.TypesP Proofs.DecodeP Proofs.ShapeP Proofs.ProgP Proofs.ApiP
  Proofs.VerbP Proofs.ConfineP Proofs.HistP.
Import ListNotations.
Open Scope nat_scope.
Open Scope string_scope.

Lemma crash_ret fl A (a : A) w tr w' : crashes fl (Ret a) w tr w' -> tr = [] /\ w' = w.
Proof. intros H. inversion H; subst. auto. Qed.
Lemma crash_bind fl A B (p : prog A) (f : A -> prog B) w tr w' : crashes fl (bind p f) w tr w' ->
  crashes fl p w tr w' \/ exists tr1 w1 a tr2, runs fl p w tr1 w1 a /\ crashes fl (f a) w1 tr2 w' /\ tr = (tr1 ++ tr2)%list.
Proof.
  revert w tr. induction p as [a|o k IH]; intros w tr H; cbn [bind] in H.
  - right. exists [], w, a, tr. split; [constructor|]. auto.
  - inversion H; subst.
    + left. constructor.
    + left. now constructor.
    + match goal with X : answer _ _ _ ?r _ |- _ => rename X into AN; rename r into y end.
      match goal with X : crashes _ _ _ _ _ |- _ => rename X into CR end.
      apply IH in CR. destruct CR as [CR|(t1 & w3 & a & t2 & R & CR & ->)].
      * left. econstructor; eassumption.
      * right. exists ((o, y) :: t1), w3, a, t2. split; [econstructor; eassumption|]. auto.
Qed.
Lemma crash_rbindp fl A B (p : prog (res A)) (f : A -> prog (res B)) w tr w' : crashes fl (rbindp p f) w tr w' ->
  crashes fl p w tr w' \/ (exists tr1 w1 a tr2, runs fl p w tr1 w1 (Ok a) /\ crashes fl (f a) w1 tr2 w' /\ tr = (tr1 ++ tr2)%list).
Proof.
  intros H. unfold rbindp in H. apply crash_bind in H as [H|(t1 & w1 & r & t2 & R & C & ->)]; [now left|].
  destruct r as [a|e|]; [right; exists t1, w1, a, t2; auto| |];
    apply crash_ret in C as [-> ->]; rewrite app_nil_r; left; clear - R; induction R; econstructor; eassumption.
Qed.
Lemma runs_crashes fl A (p : prog A) w tr w' a : runs fl p w tr w' a -> crashes fl p w tr w'.
Proof. induction 1; econstructor; eassumption. Qed.
Definition same_files (w w' : world) : Prop := forall p, sget p w' = sget p w.
Lemma prefix_refl d : str_prefix d d. Proof. exists "". now rewrite append_nil_r. Qed.
Lemma prefix_nil d : str_prefix "" d. Proof. now exists d. Qed.
Lemma overlay_new p d w : sget p (overlay p d (sset p "" w)) = Some d /\ forall q, q <> p -> sget q (overlay p d (sset p "" w)) = sget q w.
Proof.
  split.
  - rewrite sget_overlay, String.eqb_refl, sget_sset, String.eqb_refl. f_equal.
    replace (sdrop (String.length d) "") with "" by (destruct (String.length d); reflexivity). apply append_nil_r.
  - intros q N. apply String.eqb_neq in N. rewrite sget_overlay, N, sget_sset, N. reflexivity.
Qed.
(** A crash of a write leaves the file as it was or with a prefix of the new contents. *)
Lemma crash_write fl p d w tr w' : crashes fl (write_file p d) w tr w' -> calls tr = [] /\
  (w' = w \/ exists d', str_prefix d' d /\ sget p w' = Some d' /\ forall q, q <> p -> sget q w' = sget q w).
Proof.
  intros H. unfold write_file in H. inversion H; subst; [auto|]. 
  match goal with X : answer _ _ _ _ _ |- _ => inversion X; subst; clear X end.
  - match goal with X : crashes _ _ _ _ _ |- _ => rename X into CR end. inversion CR; subst.
    + split; [reflexivity|]. right. exists "". split; [apply prefix_nil|]. split; [rewrite sget_sset, String.eqb_refl; reflexivity|].
      intros q N. apply String.eqb_neq in N. rewrite sget_sset, N. reflexivity.
    + split; [reflexivity|]. right. eexists. split; [eassumption|]. apply overlay_new.
    + match goal with X : crashes _ (Ret _) _ _ _ |- _ => apply crash_ret in X as [-> ->] end. split; [reflexivity|]. right.
      match goal with X : answer _ _ _ _ _ |- _ => inversion X; subst; clear X end; eexists; (split; [|apply overlay_new]); [apply prefix_refl|assumption].
  - match goal with X : crashes _ _ _ _ _ |- _ => apply crash_ret in X as [-> ->] end. auto.
Qed.
Lemma calls_app a b : calls (a ++ b)%list = (calls a ++ calls b)%list.
Proof. apply flat_map_app. Qed.
Lemma crash_cache_add fl c res config name rt w tr w' : crashes fl (cache_add c res config name rt) w tr w' ->
  calls tr = [] /\ (w' = w \/ exists bytes d, cache_bytes res config name rt = Ok bytes /\ named name rt /\ str_prefix d bytes /\
    sget (entry_path c name rt) w' = Some d /\ forall q, q <> entry_path c name rt -> sget q w' = sget q w).
Proof.
  intros H. unfold cache_add in H. apply crash_rbindp in H as [H|(t1 & w1 & bytes & t2 & R & C & ->)]; [apply crash_ret in H as [-> ->]; auto|].
  unfold lift in R. apply runs_ret in R. destruct R as (-> & -> & B). cbn [app].
  apply crash_rbindp in C as [C|(t1 & w1 & fname & t3 & R & C & ->)]; [apply crash_ret in C as [-> ->]; auto|].
  unfold lift in R. apply runs_ret in R. destruct R as (-> & -> & P). cbn [app].
  destruct (cache_path_cases c name rt) as [[N E]|[_ [e E]]]; [|congruence]. assert (fname = entry_path c name rt) by congruence. subst fname.
  apply crash_bind in C as [C|(t1 & w1 & oe & t4 & R & C & ->)].
  { unfold mkdir_all in C. inversion C; subst; [auto|]. match goal with X : crashes _ (Ret _) _ _ _ |- _ => apply crash_ret in X as [-> ->] end.
    match goal with X : answer _ _ _ _ _ |- _ => inversion X; subst; clear X end; auto. }
  assert (M : calls t1 = [] /\ w1 = w).
  { unfold mkdir_all in R. apply runs_do in R. destruct R as (x & w2 & t5 & -> & An & R). apply runs_ret in R. destruct R as (-> & -> & _). inversion An; subst; auto. }
  destruct M as [M ->]. rewrite calls_app, M. cbn [app]. destruct oe as [e|]; [apply crash_ret in C as [-> ->]; auto|].
  apply crash_bind in C as [C|(t5 & w2 & oe & t6 & R2 & C & ->)].
  - apply crash_write in C as [CT [->|(d & D)]]; [auto|]. split; [exact CT|]. right. exists bytes, d. destruct D as (D1 & D2 & D3). auto 6.
  - apply runs_crashes in R2. apply crash_write in R2. destruct R2 as [CT D]. assert (Q : t6 = [] /\ w' = w2) by (now apply crash_ret in C). destruct Q as [-> ->].
    rewrite app_nil_r. split; [exact CT|]. destruct D as [->|(d & D1 & D2 & D3)]; [now left|]. right. exists bytes, d. auto 6.
Qed.
Lemma crash_loop fl c name ver nets prev rt w tr w' : crashes fl (add_loop c name ver nets prev rt) w tr w' -> same_files w w'.
Proof. intros H p. eapply (crashes_confined _ (fun _ => False)); [exact H|apply cf_add_loop|auto]. Qed.
(** A crash of AddNetworkList leaves all files as they were, or it was writing the entry of the last
    plugin's result. *)
Lemma crash_add fl c l rt w tr w' : crashes fl (add_network_list c l rt) w tr w' ->
  same_files w w' \/
  exists ro bytes d, cache_bytes ro (nl_bytes l) (nl_name l) rt = Ok bytes /\ named (nl_name l) rt /\ str_prefix d bytes /\
    sget (entry_path c (nl_name l) rt) w' = Some d /\ (forall q, q <> entry_path c (nl_name l) rt -> sget q w' = sget q w) /\
    List.length (calls tr) = List.length (nl_plugins l) /\
    (nl_plugins l <> [] -> exists r x, ro = Some r /\ nth_error (calls tr) (pred (List.length (calls tr))) = Some x /\ yields x r).
Proof.
  intros H. unfold add_network_list in H. apply crash_rbindp in H as [H|(t1 & w1 & ro & t2 & R & C & ->)].
  { left. now apply crash_loop in H. }
  destruct (add_loop_inv _ _ _ _ _ _ _ _ _ _ _ R) as (-> & _ & results & _ & Y & _ & [(L1 & L2 & E)|(_ & NO & _)]); [|now destruct (NO ro)].
  assert (ro = last_or None results) by congruence. subst ro.
  assert (CA : exists t, crashes fl (cache_add c (last_or None results) (nl_bytes l) (nl_name l) rt) w t w' /\ (calls t2 = calls t)).
  { apply crash_rbindp in C as [C|(t3 & w2 & u & t4 & R2 & C & ->)].
    - unfold pwrap in C. apply crash_bind in C as [C|(t5 & w2 & u & t6 & R2 & C & ->)]; [eauto|].
      apply crash_ret in C as [-> ->]. exists t5. rewrite app_nil_r. split; [now apply runs_crashes in R2|reflexivity].
    - unfold lift in C. apply crash_ret in C as [-> ->]. rewrite app_nil_r. apply runs_bind in R2. destruct R2 as (t7 & w3 & u2 & t8 & R3 & R4 & ->).
      apply runs_ret in R4. destruct R4 as (-> & -> & _). rewrite app_nil_r. exists t7. split; [now apply runs_crashes in R3|reflexivity]. }
  destruct CA as (t & CA & CT). apply crash_cache_add in CA as [C0 CA]. destruct CA as [->|(bytes & d & B & N & D & G & O)]; [left; intros p; reflexivity|].
  right. exists (last_or None results), bytes, d. do 5 (split; [assumption|]). rewrite calls_app, CT, C0, app_nil_r. split; [exact L2|].
  intros NE. rewrite L2. unfold last_or. rewrite L1. destruct (nl_plugins l) as [|n ns]; [now destruct NE|]. cbn [List.length pred before].
  destruct (nth_error results (List.length ns)) as [r|] eqn:NR.
  - exists r. apply Y in NR. destruct NR as (x & X & YX). exists x. auto.
  - apply nth_error_None in NR. cbn [List.length] in L1. lia.
Qed.
(** A strict prefix of an entry is unreadable. *)
Lemma torn_unreadable ver s data d t : stored s data -> carried (sv_name s) (sv_rt s) -> from_plugin (sv_result s) ->
  data = d ++ t -> t <> "" -> exists e, reads_result ver (Some d) = Err e.
Proof.
  intros S C F E NE. destruct (stored_doc s data S C F) as (l & m & raw & P & EN & _).
  assert (PN : parse d = None). { eapply print_prefix_rejected; [exact EN| |exact NE]. congruence. }
  unfold reads_result, held_result, held_document, unmarshal_cached_info. rewrite PN. cbn [obind].
  unfold create_from_bytes, Types.decode_version. rewrite PN. cbn [obind rbind]. eauto.
Qed.

(** An executable crash, for examples: the first write stops after [k] bytes. *)
Fixpoint stake (k : nat) (s : string) : string :=
  match k, s with
  | S k', String a s' => String a (stake k' s')
  | _, _ => ""
  end.
Lemma stake_prefix k s : str_prefix (stake k s) s.
Proof.
  revert s. induction k as [|k IH]; intros s; [exists s; destruct s; reflexivity|]. destruct s as [|a s]; [now exists ""|].
  destruct (IH s) as [t E]. exists t. cbn [stake append]. now rewrite <- E.
Qed.
Fixpoint tear {A} (orc : oracle) (k n : nat) (p : prog A) (w : world) : trace * world :=
  match p with
  | Ret _ => ([], w)
  | Do o f =>
      match o with
      | OpWrite q d => ([], overlay q (stake k d) w)
      | _ => let '(r, w1) := respond orc n w o in
             let '(tr, w2) := tear orc k (if is_exec o then S n else n) (f r) w1 in ((o, r) :: tr, w2)
      end
  end.
Lemma tear_crashes A orc k : tame orc -> forall (p : prog A) n w, let '(tr, w') := tear orc k n p w in crashes false p w tr w'.
Proof.
  intros T. induction p as [a|o f IH]; intros n w; [constructor|].
  assert (STEP : (let '(r, w1) := respond orc n w o in let '(tr, w2) := tear orc k (if is_exec o then S n else n) (f r) w1 in
     crashes false (Do o f) w ((o, r) :: tr) w2)).
  { pose proof (respond_answer orc n w o T) as An. destruct (respond orc n w o) as [x w1]. cbn [fst snd] in An.
    specialize (IH x (if is_exec o then S n else n) w1). destruct (tear orc k _ (f x) w1) as [tr w2]. econstructor; eassumption. }
  destruct o; cbn [tear]; try (destruct (respond _ _ _ _) as [x w1]; destruct (tear _ _ _ (f x) w1) as [tr w2]; exact STEP).
  constructor. apply stake_prefix.
Qed.
Lemma tear_crash A orc k (p : prog A) w tr w' : tame orc -> tear orc k 0 p w = (tr, w') -> crashes false p w tr w'.
Proof. intros T E. pose proof (tear_crashes A orc k T p 0 w) as R. now rewrite E in R. Qed.
