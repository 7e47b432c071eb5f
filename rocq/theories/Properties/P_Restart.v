(** C71: an interrupted DEL or GC loses no attachment, and running GC again completes it. *)
From Coq Require Import String Ascii List Arith NArith ZArith Bool Lia.
From Verif Require Import Model.GoStr Model.Errors Model.Version Model.Path Model.Json Model.GoJson Model.Types Model.Conf Model.Prog Model.Api
  Spec.PathSpec Spec.VersionSpec Spec.RunSpec Spec.CacheSpec Spec.HistSpec Spec.MapSpec Spec.TouchSpec Spec.RestartSpec
  Proofs.StrP Proofs.VersionP Proofs.ProgP Proofs.ApiP Proofs.VerbP Proofs.ConfineP Proofs.ListP Proofs.HistP Proofs.MapP Proofs.TouchP Proofs.CrashP
  Proofs.PathP Proofs.TypesP Properties.P_Api Properties.P_Cache.
Import ListNotations.
Open Scope nat_scope.
Open Scope string_scope.

(** *** One DEL *)
Lemma torn_more c l rt a tr b : torn_down c l rt tr -> torn_down c l rt (a ++ tr ++ b)%list.
Proof. intros (x & s & y & prev & -> & H). exists (a ++ x)%list, s, (y ++ b)%list, prev. split; [now rewrite !app_assoc|exact H]. Qed.
Lemma torn_l c l rt tr b : torn_down c l rt tr -> torn_down c l rt (tr ++ b)%list.
Proof. exact (torn_more c l rt [] tr b). Qed.
Lemma torn_r c l rt a tr : torn_down c l rt tr -> torn_down c l rt (a ++ tr)%list.
Proof. intros H. rewrite <- (app_nil_r tr). now apply torn_more. Qed.
Lemma torn_loop fl c l rt prev w tr w' : runs fl (del_loop c (nl_name l) (nl_version l) (rev (nl_plugins l)) prev rt) w tr w' (Ok tt) -> torn_down c l rt tr.
Proof.
  intros R. destruct (del_loop_inv _ _ _ _ _ _ _ _ _ _ _ R) as (_ & _ & A & B & _). exists [], tr, [], prev. rewrite app_nil_r. split; [reflexivity|].
  split; [exact A|]. rewrite <- rev_length. now apply B.
Qed.
Lemma del_ok_torn fl c l rt w tr w' : runs fl (del_network_list c l rt) w tr w' (Ok tt) -> torn_down c l rt tr.
Proof.
  intros R. destruct (del_network_list_inv _ _ _ _ _ _ _ _ R) as [(_ & _ & _ & e & X)|[(_ & _ & X & _)|D]]; [discriminate|discriminate|].
  destruct D as (cached & tr0 & trp & w1 & tr1 & trd & r1 & -> & _ & _ & _ & L & <- & _). apply torn_loop in L. now apply torn_r, torn_r, torn_l.
Qed.
Lemma crash_remove fl c name rt w tr w' : crashes fl (cache_del c name rt) w tr w' ->
  w' = w \/ (named name rt /\ w' = sdel (entry_path c name rt) w).
Proof.
  intros H. unfold cache_del in H. destruct (cache_path_cases c name rt) as [[N E]|[N [e E]]]; rewrite E in H.
  2:{ apply crash_ret in H as [_ ->]. now left. }
  apply crash_bind in H as [H|(t1 & w1 & a & t2 & R & C & _)].
  - unfold remove_file in H. inversion H; subst; [now left|].
    match goal with X : crashes _ (Ret _) _ _ _ |- _ => apply crash_ret in X as [_ ->] end.
    match goal with X : answer _ _ _ _ _ |- _ => inversion X; subst; clear X end; [right; auto|now left|now left].
  - apply crash_ret in C as [_ ->]. apply runs_remove in R as (_ & [(_ & _ & ->)|(-> & _)]); [right; auto|now left].
Qed.
Lemma crash_quiet fl A (p : prog A) w tr w' : within (fun o => changes o = None) p -> crashes fl p w tr w' -> w' = w.
Proof.
  intros Q H. revert Q. induction H as [p w|p d d1 k w PR|o k w r w1 tr w2 An C IH]; intros Q; [reflexivity| |].
  - inversion Q as [|? ? O F]; subst. discriminate O.
  - inversion Q as [|? ? O F]; subst. rewrite IH; [|apply F]. destruct An; try reflexivity; discriminate O.
Qed.
Lemma quiet_cached c name ver rt : within (fun o => changes o = None) (get_cached_result c name ver rt).
Proof. apply wi_cached. reflexivity. Qed.
Lemma quiet_del c name ver nets prev rt : within (fun o => changes o = None) (del_loop c name ver nets prev rt).
Proof. apply wi_del_loop. apply Forall_forall. intros n _. split; [split|]; reflexivity. Qed.
Lemma del_prefix fl c l rt w tr w' : crashes fl (del_network_list c l rt) w tr w' -> w' = w \/
  (named (nl_name l) rt /\ (w' = sdel (entry_path c (nl_name l) rt) w) /\
   (torn_down c l rt tr \/ unreadable l (sget (entry_path c (nl_name l) rt) w))).
Proof.
  intros H. unfold del_network_list in H.
  apply crash_rbindp in H as [H|(t1 & w1 & g & t2 & R & C & ->)]; [apply crash_ret in H as [_ ->]; now left|].
  apply runs_ret in R as (-> & -> & G). cbn [app].
  assert (AL : g = true -> at_least (nl_version l) (0, 4, 0)%Z).
  { intros ->. destruct (gte_iff (nl_version l) "0.4.0" _ means_040) as (GT & _). apply GT. now symmetry. }
  assert (PRE : forall t (w1 : world), (exists e, cached_in c (nl_name l) (nl_version l) rt w = Err e) -> g = true -> crashes fl (cache_del c (nl_name l) rt) w t w1 ->
     w1 = w \/ (named (nl_name l) rt /\ w1 = sdel (entry_path c (nl_name l) rt) w /\ unreadable l (sget (entry_path c (nl_name l) rt) w))).
  { intros t w1 (e & E) GT X. apply crash_remove in X as [->|[N ->]]; [now left|]. right. split; [exact N|]. split; [reflexivity|].
    split; [now apply AL|]. exists e. now rewrite <- (cached_in_named c _ _ _ _ N). }
  apply crash_rbindp in C as [C|(t3 & w1 & cached & t4 & R & C & ->)].
  - destruct g; [|apply crash_ret in C as [_ ->]; now left].
    apply crash_bind in C as [C|(u1 & w1 & r & u2 & R & C & ->)]; [left; eapply crash_quiet; [apply quiet_cached|exact C]|].
    apply get_cached_inv in R as (-> & _ & _ & D).
    destruct r as [x|e|]; [apply crash_ret in C as [_ ->]; now left| |apply crash_ret in C as [_ ->]; now left].
    assert (D' : exists e, cached_in c (nl_name l) (nl_version l) rt w = Err e) by (destruct D as [D|(_ & _ & D)]; [eauto|discriminate]).
    assert (X : exists t, crashes fl (cache_del c (nl_name l) rt) w t w').
    { apply crash_bind in C as [C|(v1 & w2 & y & v2 & R & C & ->)]; [eauto|]. apply crash_ret in C as [_ ->]. exists v1. now apply runs_crashes in R. }
    destruct X as (t & X). apply PRE in X as [->|(N & -> & U)]; [now left|right; auto|exact D'|reflexivity].
  - assert (S : w1 = w \/ (named (nl_name l) rt /\ w1 = sdel (entry_path c (nl_name l) rt) w /\ unreadable l (sget (entry_path c (nl_name l) rt) w))).
    { destruct g; [|apply runs_ret in R as (_ & -> & _); now left].
      apply runs_bind in R as (u1 & w2 & r & u2 & R1 & R2 & ->). apply get_cached_inv in R1 as (-> & _ & _ & D).
      destruct r as [x|e|]; [apply runs_ret in R2 as (_ & -> & _); now left| |apply runs_ret in R2 as (_ & -> & _); now left].
      apply runs_bind in R2 as (v1 & w3 & y & v2 & R1 & R2 & ->). apply runs_ret in R2 as (_ & -> & _). apply runs_crashes in R1.
      eapply PRE; [|reflexivity|exact R1]. destruct D as [D|(_ & _ & D)]; [eauto|discriminate]. }
    apply crash_rbindp in C as [C|(u1 & w2 & [] & u2 & R2 & C & ->)].
    + apply crash_quiet in C; [|apply quiet_del]. subst w'. destruct S as [->|(N & -> & U)]; [now left|right; auto].
    + pose proof (torn_loop _ _ _ _ _ _ _ _ R2) as TD. apply runs_crashes in R2. apply crash_quiet in R2; [|apply quiet_del]. subst w2.
      assert (X : exists t, crashes fl (cache_del c (nl_name l) rt) w1 t w').
      { apply crash_bind in C as [C|(v1 & w2 & y & v2 & R3 & C & ->)]; [eauto|]. apply crash_ret in C as [_ ->]. exists v1. now apply runs_crashes in R3. }
      destruct X as (t & X). assert (TD' : torn_down c l rt (t3 ++ u1 ++ u2)%list) by (now apply torn_r, torn_l).
      apply crash_remove in X as [->|[N ->]]; destruct S as [->|(N' & -> & U)]; [now left|right; auto|right; auto|].
      right. split; [exact N|]. split; [|auto]. apply sdel_absent. rewrite sget_sdel, String.eqb_refl. reflexivity.
Qed.
Lemma sget_gone p q (w : world) : sget p (sdel q w) = sget p w \/ (p = q /\ sget p (sdel q w) = None).
Proof. rewrite sget_sdel. destruct (String.eqb_spec p q) as [->|]; [right; auto|now left]. Qed.

(** C71, DEL: however the caller's process ends while it deletes an attachment, every file of the
    cache is as it was, but possibly that attachment's own record, which is then removed, and only
    when all plugins of the network have torn the attachment down, or the record could not be used. *)
Theorem C71_interrupted_del : forall fl c l rt w tr w', crashes fl (del_network_list c l rt) w tr w' ->
  forall p, sget p w' = sget p w \/ (named (nl_name l) rt /\ p = entry_path c (nl_name l) rt /\ rightly_gone c l rt w tr w').
Proof.
  intros fl c l rt w tr w' H p. apply del_prefix in H as [->|(N & -> & T)]; [now left|].
  destruct (sget_gone p (entry_path c (nl_name l) rt) w) as [E|[-> E]]; [now left|]. right. split; [exact N|]. split; [reflexivity|]. now split.
Qed.

(** *** GC *)
Lemma unreadable_none l : ~ unreadable l None.
Proof. intros (_ & e & X). discriminate. Qed.
Lemma gc_loop_prefix fl c l args : forall atts errs w tr w', crashes fl (gc_del_loop c l args atts errs) w tr w' ->
  forall p, sget p w' = sget p w \/
    exists a, In a atts /\ stale l args a /\ named (nl_name l) (rt_of_attachment a) /\ p = entry_path c (nl_name l) (rt_of_attachment a) /\
      rightly_gone c l (rt_of_attachment a) w tr w'.
Proof.
  induction atts as [|a atts IH]; intros errs w tr w' H p; cbn [gc_del_loop] in H.
  - apply crash_ret in H as [_ ->]. now left.
  - assert (SB : staleb l args a = String.eqb (at_network a) (nl_name l) && negb (is_valid_attachment args {| ga_container := at_container a; ga_ifname := at_ifname a |})) by reflexivity.
    assert (SKIP : crashes fl (gc_del_loop c l args atts errs) w tr w' -> sget p w' = sget p w \/
      exists a0, In a0 (a :: atts) /\ stale l args a0 /\ named (nl_name l) (rt_of_attachment a0) /\ p = entry_path c (nl_name l) (rt_of_attachment a0) /\ rightly_gone c l (rt_of_attachment a0) w tr w').
    { intros C. destruct (IH _ _ _ _ C p) as [E|(b & I & R)]; [now left|]. right. exists b. split; [now right|exact R]. }
    destruct (String.eqb (at_network a) (nl_name l)); cbn [negb andb] in *; [|now apply SKIP].
    destruct (is_valid_attachment args _); cbn [negb] in *; [now apply SKIP|]. apply staleb_iff in SB. clear SKIP.
    apply crash_bind in H as [H|(t1 & w1 & r & t2 & R & C & ->)].
    { destruct (C71_interrupted_del _ _ _ _ _ _ _ H p) as [E|(N & E & G)]; [now left|]. right. exists a. split; [now left|]. auto. }
    apply runs_crashes in R. pose proof (C71_interrupted_del _ _ _ _ _ _ _ R) as D. clear R.
    assert (REST : w' = w1 \/ exists errs', crashes fl (gc_del_loop c l args atts errs') w1 t2 w').
    { destruct r as [u|e|]; [eauto|eauto|]. apply crash_ret in C as [_ ->]. now left. }
    assert (MINE : forall p, sget p w' = None -> (named (nl_name l) (rt_of_attachment a) /\ p = entry_path c (nl_name l) (rt_of_attachment a) /\ rightly_gone c l (rt_of_attachment a) w t1 w1) ->
      exists a0, In a0 (a :: atts) /\ stale l args a0 /\ named (nl_name l) (rt_of_attachment a0) /\ p = entry_path c (nl_name l) (rt_of_attachment a0) /\ rightly_gone c l (rt_of_attachment a0) w (t1 ++ t2)%list w').
    { intros q G (N & -> & G1 & T). exists a. split; [now left|]. do 3 (split; [assumption||reflexivity|]). split; [exact G|]. destruct T as [T|T]; [left; now apply torn_l|now right]. }
    destruct REST as [->|(errs' & C')].
    { destruct (D p) as [E|G]; [now left|]. right. apply MINE; [|exact G]. destruct G as (_ & -> & G & _). exact G. }
    destruct (IH _ _ _ _ C' p) as [E|(b & I & ST & N & P & G & T)].
    + destruct (D p) as [E'|G]; [left; congruence|]. right. apply MINE; [|exact G]. rewrite E. destruct G as (_ & -> & G & _). exact G.
    + destruct (D p) as [E'|G'].
      * right. exists b. split; [now right|]. do 3 (split; [assumption|]). split; [exact G|]. destruct T as [T|T]; [left; now apply torn_r|right]. rewrite <- P in *. now rewrite <- E'.
      * right. apply MINE; [|exact G']. now rewrite P.
Qed.
Lemma quiet_gc_plugins c inject nets errs : within (fun o => changes o = None) (gc_plugin_loop c inject nets errs).
Proof. apply wi_gc_plugin_loop. apply Forall_forall. intros n _ conf _. split; [split|]; reflexivity. Qed.
Lemma quiet_list c id : within (fun o => changes o = None) (get_cached_attachments c id).
Proof.
  apply wi_bind; [now apply wi_one|]. intros [names|e|]; [|constructor|constructor]. apply wi_bind; [|constructor]. now apply wi_read_attachments.
Qed.
Lemma quiet_reads fl A (p : prog A) w tr w' a : within (fun o => changes o = None) p -> runs fl p w tr w' a ->
  w' = w /\ forall q d, In (OpRead q, RData (Some d)) tr -> sget q w = Some d.
Proof.
  intros Q H. revert Q. induction H as [a w|o k w r w1 tr w2 a An R IH]; intros Q; [split; [reflexivity|intros q d []]|].
  inversion Q as [|? ? O F]; subst. destruct (IH (F r)) as [-> RD]. assert (w1 = w) by (destruct An; try reflexivity; discriminate O). subst w1.
  split; [reflexivity|]. intros q d [E|I]; [|now apply RD]. inversion An; subst; try discriminate; injection E; intros; subst; congruence.
Qed.
Lemma listed_recorded fl c w tr w' atts : tidy w -> runs fl (get_cached_attachments c "") w tr w' (Ok atts) -> w' = w /\ forall a, In a atts -> recorded c w a.
Proof.
  intros T R. destruct (quiet_reads _ _ _ _ _ _ _ (quiet_list c "") R) as [-> Q]. split; [reflexivity|]. intros a I.
  destruct (list_records _ _ _ _ _ _ _ R a I) as (p & d & J & D). pose proof (list_ops _ _ _ _ _ _ _ T (runs_goes _ _ _ _ _ _ _ R) _ _ J) as (n & F & ->).
  exists n. split; [exact F|]. split; [now left|]. exists d. split; [now apply Q|]. auto.
Qed.
(** C71, GC: likewise for the attachments it collects; what is not to be collected is not touched. *)
Theorem C71_interrupted_gc : forall fl c l args w tr w', tidy w -> crashes fl (gc_network_list c l args) w tr w' ->
  forall p, sget p w' = sget p w \/
    (nl_disable_gc l = false /\ exists a, recorded c w a /\ stale l args a /\ at_container a <> "" /\
       p = entry_path c (nl_name l) (rt_of_attachment a) /\ rightly_gone c l (rt_of_attachment a) w tr w').
Proof.
  intros fl c l args w tr w' T H p. unfold gc_network_list in H. destruct (nl_disable_gc l); [apply crash_ret in H as [_ ->]; now left|].
  apply crash_bind in H as [H|(t1 & w1 & r & t2 & R & C & ->)]; [apply crash_quiet in H as ->; [now left|apply quiet_list]|].
  destruct r as [atts|e|].
  2,3: apply crash_ret in C as [_ ->]; apply (quiet_reads _ _ _ _ _ _ _ (quiet_list c "")) in R as [-> _]; now left.
  destruct (listed_recorded _ _ _ _ _ _ T R) as [-> REC].
  assert (X : exists t3 t4, t2 = (t3 ++ t4)%list /\ crashes fl (gc_del_loop c l args atts []) w t3 w').
  { apply crash_rbindp in C as [C|(t3 & w1 & errs & t4 & R3 & C & ->)]; [exists t2, []; rewrite app_nil_r; auto|]. exists t3, t4. split; [reflexivity|].
    assert (W : w' = w1); [|subst; now apply runs_crashes in R3].
    apply crash_rbindp in C as [C|(t5 & w2 & errs2 & t6 & R5 & C & ->)].
    - destruct (gte_or_false _ _); [|now apply crash_ret in C as [_ ->]]. eapply crash_quiet; [apply quiet_gc_plugins|exact C].
    - apply crash_ret in C as [_ ->]. destruct (gte_or_false _ _); [|now apply runs_ret in R5 as (_ & -> & _)].
      apply (quiet_reads _ _ _ _ _ _ _ (quiet_gc_plugins _ _ _ _)) in R5 as [-> _]. reflexivity. }
  destruct X as (t3 & t4 & -> & X). destruct (gc_loop_prefix _ _ _ _ _ _ _ _ _ X p) as [E|(a & I & ST & (_ & N & _) & -> & G & TD)]; [now left|].
  right. split; [reflexivity|]. exists a. split; [now apply REC|]. do 3 (split; [assumption||reflexivity|]). split; [exact G|].
  destruct TD as [TD|TD]; [left; now apply torn_r, torn_l|now right].
Qed.
Theorem C71_interrupted_gc_spares : forall fl c l args w tr w' n a, tidy w -> crashes fl (gc_network_list c l args) w tr w' ->
  in_place c l args w -> to_list c "" w n a -> ~ stale l args a -> to_list c "" w' n a.
Proof.
  intros fl c l args w tr w' n a T H IP TL NS. destruct TL as (F & NF & d & G & D & S). split; [exact F|]. split; [exact NF|]. exists d.
  split; [|auto]. destruct (C71_interrupted_gc _ _ _ _ _ _ _ T H (results_dir c ++ "/" ++ n)) as [E|(_ & b & (m & M) & ST & _ & P & _)]; [congruence|].
  exfalso. rewrite (IP m b M ST) in P. apply append_inj_l in P. apply (append_inj_l "/") in P. subst m. destruct M as (_ & _ & d' & G' & D' & _).
  assert (d' = d) by congruence. subst d'. destruct D as (ci & U & _ & _ & _ & ->), D' as (ci' & U' & _ & _ & _ & ->).
  assert (ci' = ci) by congruence. subst. contradiction.
Qed.

(** *** Running it again *)
Lemma gc_tame c l args : within (fun o => changes o = None \/ exists q, o = OpRemove q) (gc_network_list c l args).
Proof.
  unfold gc_network_list. destruct (nl_disable_gc l); [constructor|].
  assert (W : forall A (p : prog A), within (fun o => changes o = None) p -> within (fun o => changes o = None \/ exists q, o = OpRemove q) p).
  { intros A p. induction 1; constructor; auto. }
  apply wi_bind; [apply W, quiet_list|]. intros [atts|e|]; [|constructor|constructor]. apply wi_rbindp.
  - apply wi_gc_del_loop; [|intros; split; [now left|right; eauto]].
    apply Forall_forall. intros n _. split; [split; [now left|intros; now left]|now left].
  - intros errs. apply wi_rbindp; [|constructor]. destruct (gte_or_false _ _); [apply W, quiet_gc_plugins|constructor].
Qed.
Lemma tame_tidy fl A (p : prog A) w tr w' : within (fun o => changes o = None \/ exists q, o = OpRemove q) p -> crashes fl p w tr w' -> tidy w -> tidy w'.
Proof.
  intros Q H. revert Q. induction H as [p w|p d d1 k w PR|o k w r w1 tr w2 An C IH]; intros Q T; [exact T| |].
  - inversion Q as [|? ? O F]; subst. destruct O as [O|(q & O)]; discriminate.
  - inversion Q as [|? ? O F]; subst. apply IH; [apply F|]. destruct An; try exact T; try (destruct O as [O|(q & O)]; discriminate). now apply tidy_sdel.
Qed.
Lemma fewer fl c l args w tr w' n a : tidy w -> crashes fl (gc_network_list c l args) w tr w' -> to_list c "" w' n a -> to_list c "" w n a.
Proof.
  intros T H (F & NF & d & G & D). split; [exact F|]. split; [exact NF|]. exists d. split; [|exact D].
  destruct (C71_interrupted_gc _ _ _ _ _ _ _ T H (results_dir c ++ "/" ++ n)) as [E|(_ & b & _ & _ & _ & P & X & _)]; congruence.
Qed.
Lemma same_record c w n a b : to_list c "" w n a -> to_list c "" w n b -> a = b.
Proof.
  intros (_ & _ & d & G & (ci & U & _ & _ & _ & ->) & _) (_ & _ & d' & G' & (ci' & U' & _ & _ & _ & ->) & _).
  assert (d' = d) by congruence. subst. assert (ci' = ci) by congruence. now subst.
Qed.
(** What interrupted attempts leave of a record: the record, or its attachment was torn down. *)
Lemma attempts_leave fl c l args w tr w' : interrupted fl c l args w tr w' -> tidy w -> in_place c l args w ->
  tidy w' /\ in_place c l args w' /\
  forall n a, to_list c "" w n a -> stale l args a ->
    sget (results_dir c ++ "/" ++ n) w' = sget (results_dir c ++ "/" ++ n) w \/
    (sget (results_dir c ++ "/" ++ n) w' = None /\ (torn_down c l (rt_of_attachment a) tr \/ unreadable l (sget (results_dir c ++ "/" ++ n) w))).
Proof.
  induction 1 as [w|w tr w1 tr' w2 C H IH]; intros T IP; [split; [exact T|]; split; [exact IP|]; intros; now left|].
  assert (T1 : tidy w1) by (eapply tame_tidy; [apply gc_tame|exact C|exact T]).
  assert (IP1 : in_place c l args w1). { intros n a TL. apply IP. eapply fewer; eassumption. }
  destruct (IH T1 IP1) as (T2 & IP2 & K). split; [exact T2|]. split; [exact IP2|]. intros n a TL ST.
  destruct (C71_interrupted_gc _ _ _ _ _ _ _ T C (results_dir c ++ "/" ++ n)) as [E|(_ & b & (m & M) & SB & _ & P & G & TD)].
  - assert (TL1 : to_list c "" w1 n a). { destruct TL as (F & NF & d & Gd & D). split; [exact F|]. split; [exact NF|]. exists d. split; [congruence|exact D]. }
    destruct (K n a TL1 ST) as [E2|(G & TD)]; [left; congruence|]. right. split; [exact G|]. destruct TD as [TD|TD]; [left; now apply torn_r|right; now rewrite <- E].
  - assert (m = n). { pose proof (IP m b M SB) as Q. rewrite Q in P. apply append_inj_l in P. apply (append_inj_l "/") in P. now symmetry. } subst m.
    rewrite (same_record _ _ _ _ _ M TL) in *. right. split.
    + assert (N1 : sget (results_dir c ++ "/" ++ n) w1 = None) by now rewrite P. clear - N1 H T1. revert N1 T1. induction H as [x|x u x1 u1 x2 C H IH]; intros N T; [exact N|].
      apply IH; [|eapply tame_tidy; [apply gc_tame|exact C|exact T]]. destruct (C71_interrupted_gc _ _ _ _ _ _ _ T C (results_dir c ++ "/" ++ n)) as [E|(_ & b & _ & _ & _ & P & X & _)]; congruence.
    + rewrite P. destruct TD as [TD|TD]; [left; now apply torn_l|now right].
Qed.
Lemma params_eq a rt : params_of a rt -> rt = rt_of_attachment a.
Proof. intros (A & B & C & D & E & F). destruct rt; cbn in *. subst. reflexivity. Qed.
Lemma dels_gone fl c l : forall atts w tr w' rs, dels fl c l atts w tr w' rs -> forall p, sget p w = None -> sget p w' = None.
Proof.
  induction 1 as [|a rt atts w tr1 w1 r tr2 w2 rs P R D IH]; intros p N; [exact N|]. apply IH. apply del_world in R as (_ & [->|(_ & ->)] & _); [exact N|].
  destruct (sget_gone p (entry_path c (nl_name l) rt) w) as [E|[_ E]]; congruence.
Qed.
Lemma dels_in c l : forall atts w tr w' rs, dels false c l atts w tr w' rs -> Forall (fun x => x = Ok tt) rs -> forall a, In a atts ->
  torn_down c l (rt_of_attachment a) tr /\ (named (nl_name l) (rt_of_attachment a) -> sget (entry_path c (nl_name l) (rt_of_attachment a)) w' = None).
Proof.
  induction 1 as [|a rt atts w tr1 w1 r tr2 w2 rs P R D IH]; intros F b I; [destruct I|]. apply Forall_cons_iff in F as [-> F]. destruct I as [<-|I].
  - apply params_eq in P. subst rt. split; [apply torn_l; eapply del_ok_torn; exact R|]. intros N.
    eapply dels_gone; [exact D|]. apply del_world in R as (_ & _ & K & _). now apply K.
  - destruct (IH F b I) as [TD G]. split; [now apply torn_r|exact G].
Qed.
(** C71, completion: any number of interrupted attempts, with any file-system failures, and then one
    that runs to its end and reports success, tear down every attachment that was to be collected at
    the beginning and remove its record; only records that no result could be read from are removed
    without. *)
Theorem C71_gc_completes : forall fl c l args w tr w1 tr' w2, tidy w -> in_place c l args w -> nl_disable_gc l = false ->
  interrupted fl c l args w tr w1 -> runs false (gc_network_list c l args) w1 tr' w2 (Ok tt) ->
  forall n a, to_list c "" w n a -> stale l args a ->
    (torn_down c l (rt_of_attachment a) tr \/ torn_down c l (rt_of_attachment a) tr' \/ unreadable l (sget (results_dir c ++ "/" ++ n) w)) /\
    (at_container a <> "" -> sget (results_dir c ++ "/" ++ n) w2 = None).
Proof.
  intros fl c l args w tr w1 tr' w2 T IP DG H R n a TL ST. destruct (attempts_leave _ _ _ _ _ _ _ H T IP) as (T1 & IP1 & K).
  assert (NM : at_container a <> "" -> named (nl_name l) (rt_of_attachment a)).
  { destruct TL as (_ & _ & d & _ & (ci & _ & _ & I1 & I2 & ->) & _). destruct ST as [E _]. cbn in *. intros X. split; [congruence|]. split; [exact X|exact I1]. }
  destruct (C19_gc_deletes_the_stale_and_tells_plugins _ _ _ _ _ _ _ _ R DG) as [(e & _ & X & _)|(atts & st & tr0 & t1 & t2 & rs & RL & -> & SI & DL & OKS)]; [discriminate|discriminate|].
  assert (F : Forall (fun x => x = Ok tt) rs).
  { destruct OKS as [(_ & _ & [X _])|(_ & ends & _ & [X _])]; [now apply X|now apply X]. }
  destruct (K n a TL ST) as [E|(G & TD)].
  - assert (TL1 : to_list c "" w1 n a). { destruct TL as (F1 & NF & d & Gd & D). split; [exact F1|]. split; [exact NF|]. exists d. split; [congruence|exact D]. }
    destruct (listing _ _ _ _ _ _ T1 RL) as (_ & pairs & EP & _ & IN). injection EP as ->.
    assert (I : In a (filter st (map snd pairs))). { apply filter_In. split; [|now apply SI]. apply in_map_iff. exists (n, a). split; [reflexivity|now apply IN]. }
    destruct (dels_in _ _ _ _ _ _ _ DL F a I) as [TD G]. split; [right; left; now apply torn_r, torn_l|]. intros NE. rewrite <- (IP n a TL ST). apply G. now apply NM.
  - split; [tauto|]. intros _. eapply dels_gone; [exact DL|exact G].
Qed.
(** The records the library itself wrote are in place. *)
Theorem C71_records_are_in_place : forall c h w w' l args, tidy w -> fresh c w -> Forall (fun av => ordinary c (fst av)) h ->
  history false c h w w' -> tidy w' /\ in_place c l args w'.
Proof.
  intros c h w w' l args T F O H. destruct (whole_history _ _ _ _ H (fun _ => None) O T (fresh_represents _ _ F)) as (m & _ & RP & T').
  split; [exact T'|]. intros n a TL [NW _]. destruct (listed_saved _ _ _ _ _ _ RP TL) as (s & k & E & _ & -> & _). destruct RP as [R1 _].
  destruct (R1 _ _ E) as (P & RG & _). rewrite <- P. cbn [shown at_network] in NW. unfold place. rewrite <- NW.
  assert (OW : cache_root c (sv_rt s) = cache_root c runtime_conf_zero) by (destruct RG as (_ & _ & OW & _); exact OW).
  unfold entry_path. rewrite OW. reflexivity.
Qed.

(** *** An example: two attachments, a collection interrupted when the first has been torn down but its
    record is still there, and a second one that completes it. *)
Fixpoint cut {A} (orc : oracle) (k n : nat) (p : prog A) (w : world) : trace * world :=
  match k, p with
  | S k', Do o f => let '(r, w1) := respond orc n w o in
                    let '(tr, w2) := cut orc k' (if is_exec o then S n else n) (f r) w1 in ((o, r) :: tr, w2)
  | _, _ => ([], w)
  end.
Lemma cut_crashes A orc : tame orc -> forall k (p : prog A) n w tr w', cut orc k n p w = (tr, w') -> crashes false p w tr w'.
Proof.
  intros T. induction k as [|k IH]; intros p n w tr w' E; [cbn in E; injection E as <- <-; constructor|]. destruct p as [a|o f]; [injection E as <- <-; constructor|].
  cbn [cut] in E. pose proof (respond_answer orc n w o T) as An. destruct (respond orc n w o) as [x w1]. cbn [fst snd] in An.
  destruct (cut orc k _ (f x) w1) as [tr1 w2] eqn:C. injection E as <- <-. econstructor; [exact An|]. eapply IH. exact C.
Qed.
Definition Y_rt : runtime_conf :=
  {| rt_container := "c2"; rt_netns := "/ns2"; rt_ifname := "eth0"; rt_args := []; rt_caps := []; rt_cache_dir := "" |}.
Definition Y_add_run := interp X_oracle 0 (performs X_cni (AddList X_list Y_rt)) X_caps_world.
Definition Y_world : world := Eval vm_compute in match Y_add_run with (_, w, _) => w end.
Definition Y_value : res value := Eval vm_compute in match Y_add_run with (v, _, _) => v end.
Lemma Y_ordinary : ordinary X_cni (AddList X_list Y_rt).
Proof.
  split; [discriminate|]. split; [|reflexivity]. split; [|exists []; apply (C28_capability_arguments Y_rt); [constructor|split; [exact Logic.I|split; exact Logic.I]]].
  unfold texts_ok. repeat (split; [apply ascii_wft; reflexivity|]). constructor.
Qed.
Lemma Y_history : history false X_cni [(AddList X_list X_caps_rt, Ok (VResult (Some X_add_result))); (AddList X_list Y_rt, Y_value)] [] Y_world.
Proof.
  destruct X_added as [tr R]. econstructor; [exact R|].
  destruct Y_add_run as [[v w] t] eqn:E. pose proof (interp_run _ _ _ _ _ _ _ X_tame E) as R2.
  assert (v = Y_value) by (replace v with (fst (fst Y_add_run)) by (now rewrite E); vm_compute; reflexivity).
  assert (w = Y_world) by (replace w with (snd (fst Y_add_run)) by (now rewrite E); vm_compute; reflexivity). subst. econstructor; [exact R2|constructor].
Qed.
Lemma Y_good : tidy Y_world /\ in_place X_cni X_list None Y_world.
Proof.
  destruct X_fresh as [T F]. eapply C71_records_are_in_place; [exact T|exact F| |exact Y_history].
  constructor; [exact X_ordinary|]. constructor; [exact Y_ordinary|constructor].
Qed.
Definition Y_data : string := Eval vm_compute in match sget "/c/results/net-c2-eth0" Y_world with Some d => d | None => "" end.
Definition Y_att : attachment := Eval vm_compute in
  match attachment_of "" Y_data with Some a => a | None => shown {| sv_result := None; sv_config := ""; sv_name := ""; sv_rt := Y_rt |} [] end.
Lemma Y_listed : to_list X_cni "" Y_world "net-c2-eth0" Y_att.
Proof.
  split; [apply simple_spec; reflexivity|]. split; [now left|]. exists Y_data. split; [vm_compute; reflexivity|]. apply attachment_of_iff. vm_compute. reflexivity.
Qed.
Example C71_nonvacuous : exists tr w1 tr' w2 n a,
  tidy Y_world /\ in_place X_cni X_list None Y_world /\ nl_disable_gc X_list = false /\
  crashes false (gc_network_list X_cni X_list None) Y_world tr w1 /\ map fst w1 = ["/c/results/net-c1-eth0"; "/c/results/net-c2-eth0"] /\ List.length (calls tr) = 2 /\
  runs false (gc_network_list X_cni X_list None) w1 tr' w2 (Ok tt) /\ w2 = [] /\
  to_list X_cni "" Y_world n a /\ stale X_list None a /\ at_container a = "c2".
Proof.
  destruct (cut X_oracle 10 0 (gc_network_list X_cni X_list None) Y_world) as [tr w1] eqn:E. pose proof (cut_crashes _ _ X_tame _ _ _ _ _ _ E) as C.
  assert (W : w1 = snd (cut X_oracle 10 0 (gc_network_list X_cni X_list None) Y_world)) by now rewrite E.
  assert (TR : tr = fst (cut X_oracle 10 0 (gc_network_list X_cni X_list None) Y_world)) by now rewrite E.
  destruct (interp X_oracle 0 (gc_network_list X_cni X_list None) w1) as [[r w2] tr'] eqn:E2. pose proof (interp_run _ _ _ _ _ _ _ X_tame E2) as R.
  rewrite W in E2. vm_compute in E2. injection E2 as <- <- <-.
  clear E. destruct Y_good as [T IP]. eexists tr, w1, _, _, "net-c2-eth0", Y_att. split; [exact T|]. split; [exact IP|]. split; [reflexivity|].
  split; [exact C|]. split; [rewrite W; vm_compute; reflexivity|]. split; [rewrite TR; vm_compute; reflexivity|]. split; [exact R|]. split; [reflexivity|].
  split; [exact Y_listed|]. split; [|reflexivity]. split; [reflexivity|discriminate].
Qed.

Print Assumptions C71_interrupted_del.
Print Assumptions C71_interrupted_gc.
Print Assumptions C71_interrupted_gc_spares.
Print Assumptions C71_gc_completes.
Print Assumptions C71_records_are_in_place.
