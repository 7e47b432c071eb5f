(** Looking at an attachment while it is being changed. *)
From Coq Require Import String List Bool Arith Lia.
From Verif Require Import Model.GoStr Model.Errors Model.Version Model.Path Model.Json Model.GoJson Model.Args Model.Types Model.Conf Model.Invoke
  Model.Prog Model.Api Spec.NameSpec Spec.VersionSpec Spec.JsonSpec Spec.TypesSpec Spec.PathSpec Spec.RunSpec Spec.CacheSpec Spec.HistSpec Spec.MapSpec Spec.TouchSpec Spec.CollectSpec Spec.CrowdSpec Spec.LookSpec
  Proofs.StrP Proofs.JsonP Proofs.JsonRT Proofs.PathP Proofs.EnvP Proofs.ProgP Proofs.ApiP Proofs.VerbP Proofs.SingleP Proofs.ConfineP Proofs.EntryP Proofs.FilesP Proofs.ListP Proofs.HistP Proofs.CrashP Proofs.TouchP Proofs.CollectP Proofs.CrowdP.
Import ListNotations.
Open Scope nat_scope.
Open Scope string_scope.

(** ** Steps of one program among others *)
Section Steps.
Context {A : Type}.
Variable fl : bool.
Lemma il_app : forall tr1 (ps : list (prog A)) w tr2 w' qs u rs, interleaves fl ps w tr1 u qs -> interleaves fl qs u tr2 w' rs -> interleaves fl ps w (tr1 ++ tr2)%list w' rs.
Proof. intros tr1 ps w tr2 w' qs u rs H. induction H; intros J; cbn [app]; [exact J|]. econstructor; eauto. Qed.
Lemma next_own i o k : forall (ps : list (prog A)) w tr w' rest v, interleaves fl ps w tr w' rest -> nth_error ps i = Some (Do o k) -> nth_error rest i = Some (Ret v) ->
  exists tr1 r tr2 u u1 qs, tr = (tr1 ++ (i, (o, r)) :: tr2)%list /\ own i tr1 = [] /\ interleaves fl ps w tr1 u qs /\ nth_error qs i = Some (Do o k) /\
    answer fl u o r u1 /\ interleaves fl (set_nth i (k r) qs) u1 tr2 w' rest.
Proof.
  intros ps w tr w' rest v H. induction H as [ps w|ps w j o' k' r w1 tr w2 rest E An H IH]; intros Ei Ev; [congruence|].
  destruct (Nat.eq_dec j i) as [->|N].
  - rewrite E in Ei. injection Ei as -> ->. exists [], r, tr, w, w1, ps. split; [reflexivity|]. split; [reflexivity|]. split; [constructor|]. auto.
  - destruct IH as (tr1 & r' & tr2 & u & u1 & qs & -> & O & H1 & Eq & A1 & H2); [rewrite nth_set_other by exact N; exact Ei|exact Ev|].
    exists ((j, (o', r)) :: tr1), r', tr2, u, u1, qs. split; [reflexivity|]. split; [|split; [econstructor; eassumption|auto]].
    cbn [own flat_map fst snd]. apply Nat.eqb_neq in N. rewrite N. exact O.
Qed.
(** A program that touches no file behaves the same anywhere. *)
Lemma blind_answer (o : op) r w w1 u : op_in (fun _ => False) o -> answer fl w o r w1 -> answer fl u o r u.
Proof. intros I An. destruct An; cbn in I; try (destruct I; fail); now constructor. Qed.
Lemma blind_tail i : forall (ps : list (prog A)) w tr w' rest p v u, interleaves fl ps w tr w' rest -> nth_error ps i = Some p -> confined (fun _ => False) p ->
  nth_error rest i = Some (Ret v) -> runs fl p u (own i tr) u v.
Proof.
  intros ps w tr w' rest p v u H. revert p. induction H as [ps w|ps w j o k r w1 tr w2 rest E An H IH]; intros p Ei C Ev.
  - rewrite Ei in Ev. injection Ev as ->. constructor.
  - cbn [own flat_map fst snd]. destruct (Nat.eqb_spec j i) as [->|N].
    + rewrite E in Ei. injection Ei as <-. inversion C as [|o1 k1 OI C1]; subst. cbn [app]. econstructor; [eapply blind_answer; eassumption|].
      apply IH; [eapply nth_set_same; exact E|apply C1|exact Ev].
    + cbn [app]. apply IH; [rewrite nth_set_other by exact N; exact Ei|exact C|exact Ev].
Qed.
(** Programs that change nothing can be left out. *)
Definition idle (o : op) : Prop := match o with OpTrunc _ | OpWrite _ _ | OpRemove _ => False | _ => True end.
Lemma idle_answer o r w w1 : idle o -> answer fl w o r w1 -> w1 = w.
Proof. intros I An. destruct An; cbn in I; try (destruct I; fail); reflexivity. Qed.
Lemma leave_out (R : nat -> bool) : forall (ps : list (prog A)) w tr w' rest, interleaves fl ps w tr w' rest ->
  (forall i p, R i = true -> nth_error ps i = Some p -> within idle p) ->
  forall ps', List.length ps' = List.length ps -> (forall i, R i = false -> nth_error ps' i = nth_error ps i) ->
  exists rest', interleaves fl ps' w (filter (fun e => negb (R (fst e))) tr) w' rest' /\ forall i, R i = false -> nth_error rest' i = nth_error rest i.
Proof.
  intros ps w tr w' rest H. induction H as [ps w|ps w j o k r w1 tr w2 rest E An H IH]; intros W ps' L S.
  - exists ps'. split; [constructor|exact S].
  - cbn [filter fst]. destruct (R j) eqn:Rj; cbn [negb].
    + pose proof (W _ _ Rj E) as Wj. inversion Wj as [|o1 k1 Q1 W1]; subst. rewrite (idle_answer _ _ _ _ Q1 An) in *.
      apply IH; [|now rewrite length_set|].
      * intros i p Ri Ei. destruct (Nat.eq_dec j i) as [->|N]; [erewrite nth_set_same in Ei by exact E; injection Ei as <-; apply W1|].
        rewrite nth_set_other in Ei by exact N. eapply W; eassumption.
      * intros i Ri. rewrite nth_set_other; [now apply S|]. intros ->. congruence.
    + destruct (IH) with (ps' := set_nth j (k r) ps') as (rest' & IL & RS).
      * intros i p Ri Ei. rewrite nth_set_other in Ei; [eapply W; eassumption|]. intros ->. congruence.
      * now rewrite !length_set.
      * intros i Ri. destruct (Nat.eq_dec j i) as [->|N]; [|rewrite !nth_set_other by exact N; now apply S].
        erewrite !nth_set_same; [reflexivity|exact E|rewrite S by exact Rj; exact E].
      * exists rest'. split; [|exact RS]. econstructor; [rewrite S by exact Rj; exact E|exact An|exact IL].
Qed.
Lemma own_left_out R i tr : R i = false -> own i (filter (fun e : nat * event => negb (R (fst e))) tr) = own i tr.
Proof.
  intros Ri. induction tr as [|[j e] tr IH]; [reflexivity|]. cbn [filter fst]. destruct (Nat.eqb_spec j i) as [->|N].
  - rewrite Ri. cbn [negb own flat_map fst snd]. rewrite Nat.eqb_refl. cbn [app]. f_equal. exact IH.
  - apply Nat.eqb_neq in N. destruct (R j); cbn [negb own flat_map fst snd]; rewrite N; exact IH.
Qed.
End Steps.

(** ** When an ADD has begun to write *)
Definition began (p : string) (t : trace) : Prop := In (OpTrunc p, RErr None) t.
Lemma began_app p a b : began p (a ++ b)%list <-> began p a \/ began p b.
Proof. apply in_app_iff. Qed.
Lemma blind_not_began A fl P (q : prog A) w tr w' p : crashes fl q w tr w' -> confined P q -> ~ P p -> ~ began p tr.
Proof.
  intros H C N. induction H as [| |o k w r w1 tr w2 An H IH]; [intros []|intros []|]. inversion C as [|o1 k1 OI C1]; subst. intros [E|J]; [|now apply (IH (C1 r))].
  injection E as -> _. now apply N.
Qed.
Lemma goes_write fl p d w tr w' : crashes fl (write_file p d) w tr w' ->
  (w' = w /\ ~ began p tr) \/ (began p tr /\ exists d', str_prefix d' d /\ sget p w' = Some d').
Proof.
  intros H. unfold write_file in H. inversion H; subst; [left; split; [reflexivity|intros []]|].
  match goal with X : answer _ _ _ _ _ |- _ => inversion X; subst; clear X end.
  - match goal with X : crashes _ _ _ _ _ |- _ => rename X into CR end. right. split; [now left|]. inversion CR; subst.
    + exists "". split; [apply prefix_nil|]. now rewrite sget_sset, String.eqb_refl.
    + eexists. split; [eassumption|]. apply overlay_new.
    + match goal with X : crashes _ (Ret _) _ _ _ |- _ => apply crash_ret in X as [-> ->] end.
      match goal with X : answer _ _ _ _ _ |- _ => inversion X; subst; clear X end; eexists; (split; [|apply overlay_new]); [apply prefix_refl|assumption].
  - match goal with X : crashes _ _ _ _ _ |- _ => apply crash_ret in X as [-> ->] end. left. split; [reflexivity|]. intros [E|[]]. discriminate.
Qed.
Lemma goes_cache_add fl c res config name rt w tr w' : crashes fl (cache_add c res config name rt) w tr w' ->
  (w' = w /\ ~ began (entry_path c name rt) tr) \/
  (began (entry_path c name rt) tr /\ exists bytes d, cache_bytes res config name rt = Ok bytes /\ named name rt /\ str_prefix d bytes /\ sget (entry_path c name rt) w' = Some d).
Proof.
  intros H. unfold cache_add in H. apply crash_rbindp in H as [H|(t1 & w1 & bytes & t2 & R & C & ->)]; [apply crash_ret in H as [-> ->]; left; split; [reflexivity|intros []]|].
  unfold lift in R. apply runs_ret in R. destruct R as (-> & -> & B). cbn [app].
  apply crash_rbindp in C as [C|(t1 & w1 & fname & t3 & R & C & ->)]; [apply crash_ret in C as [-> ->]; left; split; [reflexivity|intros []]|].
  unfold lift in R. apply runs_ret in R. destruct R as (-> & -> & P). cbn [app].
  destruct (cache_path_cases c name rt) as [[N E]|[_ [e E]]]; [|congruence]. assert (fname = entry_path c name rt) by congruence. subst fname.
  apply crash_bind in C as [C|(t1 & w1 & oe & t4 & R & C & ->)].
  { unfold mkdir_all in C. inversion C; subst; [left; split; [reflexivity|intros []]|]. match goal with X : crashes _ (Ret _) _ _ _ |- _ => apply crash_ret in X as [-> ->] end.
    match goal with X : answer _ _ _ _ _ |- _ => inversion X; subst; clear X end; left; (split; [reflexivity|]); intros [X|[]]; discriminate. }
  assert (M : ~ began (entry_path c name rt) t1 /\ w1 = w).
  { unfold mkdir_all in R. apply runs_do in R. destruct R as (x & w2 & t5 & -> & An & R). apply runs_ret in R. destruct R as (-> & -> & _). inversion An; subst; (split; [|reflexivity]); intros [X|[]]; discriminate. }
  destruct M as [M ->].
  assert (K : forall t, ((w' = w /\ ~ began (entry_path c name rt) t) \/ (began (entry_path c name rt) t /\ exists d, str_prefix d bytes /\ sget (entry_path c name rt) w' = Some d)) ->
    (w' = w /\ ~ began (entry_path c name rt) (t1 ++ t)%list) \/
    (began (entry_path c name rt) (t1 ++ t)%list /\ exists bytes d, cache_bytes res config name rt = Ok bytes /\ named name rt /\ str_prefix d bytes /\ sget (entry_path c name rt) w' = Some d)).
  { intros t [[-> X]|[X (d & D1 & D2)]]; [left|right]; (split; [try reflexivity|]); rewrite ?began_app; auto; [tauto|]. exists bytes, d. auto. }
  apply K. destruct oe as [e|]; [apply crash_ret in C as [-> ->]; left; split; [reflexivity|intros []]|].
  apply crash_bind in C as [C|(t5 & w2 & oe & t6 & R2 & C & ->)]; [now apply goes_write in C|].
  apply runs_crashes in R2. apply goes_write in R2. assert (Q : t6 = [] /\ w' = w2) by (now apply crash_ret in C). destruct Q as [-> ->]. now rewrite app_nil_r.
Qed.
Lemma rev_case {A} (l : list A) : l = [] \/ exists m x, l = (m ++ [x])%list.
Proof. induction l as [|x l _] using rev_ind; [now left|right; eauto]. Qed.
Lemma lone_began fl c a w tr u q x : goes fl (performs c a) w tr u q -> is_add a -> carries a -> at_entry c a x ->
  (~ began x tr /\ sget x u = sget x w) \/ (began x tr /\ exists d, written_by a d /\ sget x u = Some d).
Proof.
  intros G IA CA AE. apply goes_crashes in G. destruct AE as (name & rt0 & AB & NM & ->).
  destruct a as [l rt| | | | |n rt| | | | | | | | | |]; try destruct IA; cbn [about] in AB; injection AB as <- <-.
  - assert (C : crashes fl (add_network_list c l rt) w tr u).
    { cbn [performs] in G. unfold returning in G. apply crash_bind in G as [G|(t1 & w1 & r & t2 & R & C & ->)]; [exact G|]. apply crash_ret in C as [-> ->]. rewrite app_nil_r. now apply runs_crashes in R. }
    clear G. pose proof C as C0. unfold add_network_list in C. apply crash_rbindp in C as [H|(t1 & w1 & ro & t2 & R & C & ->)].
    { left. split; [eapply (blind_not_began _ _ (fun _ => False)); [exact H|apply cf_add_loop|auto]|now apply crash_loop in H]. }
    assert (B1 : ~ began (entry_path c (nl_name l) rt) t1).
    { apply runs_crashes in R. eapply (blind_not_began _ _ (fun _ => False)); [exact R|apply cf_add_loop|auto]. }
    destruct (add_loop_inv _ _ _ _ _ _ _ _ _ _ _ R) as (-> & _ & results & _ & Y & _ & [(L1 & L2 & E)|(_ & NO & _)]); [|now destruct (NO ro)].
    assert (ro = last_or None results) by congruence. subst ro. clear E.
    assert (CC : exists t, crashes fl (cache_add c (last_or None results) (nl_bytes l) (nl_name l) rt) w t u /\ t2 = t).
    { apply crash_rbindp in C as [C|(t3 & w2 & y & t4 & R2 & C & ->)].
      - unfold pwrap in C. apply crash_bind in C as [C|(t5 & w2 & y & t6 & R2 & C & ->)]; [eauto|].
        apply crash_ret in C as [-> ->]. exists t5. rewrite app_nil_r. split; [now apply runs_crashes in R2|reflexivity].
      - unfold lift in C. apply crash_ret in C as [-> ->]. rewrite app_nil_r. apply runs_bind in R2. destruct R2 as (t7 & w3 & u2 & t8 & R3 & R4 & ->).
        apply runs_ret in R4. destruct R4 as (-> & -> & _). rewrite app_nil_r. exists t7. split; [now apply runs_crashes in R3|reflexivity]. }
    destruct CC as (t & CC & ->). apply goes_cache_add in CC as [[-> NB]|[B (bytes & d & B0 & _ & D & G1)]].
    + left. split; [rewrite began_app; tauto|reflexivity].
    + right. split; [rewrite began_app; tauto|]. exists d. split; [|exact G1]. destruct CA as [NE CA].
      assert (LR : exists r, last_or None results = Some r /\ from_plugin (Some r)).
      { destruct (rev_case results) as [->|(rs & r & ->)].
        - exfalso. cbn [List.length] in L1. destruct (nl_plugins l); [now apply NE|discriminate].
        - exists r. unfold last_or. rewrite app_length. cbn [List.length]. rewrite Nat.add_1_r. cbn [before]. rewrite nth_error_app2 by lia. rewrite Nat.sub_diag. cbn [nth_error]. split; [reflexivity|].
          destruct (proj1 (Y (List.length rs) r)) as (x & _ & YX); [rewrite nth_error_app2 by lia; now rewrite Nat.sub_diag|]. intros r0 E. injection E as <-. eapply yields_from; exact YX. }
      destruct LR as (r & LR & FP). rewrite LR in B0.
      exists {| sv_result := Some r; sv_config := nl_bytes l; sv_name := nl_name l; sv_rt := rt |}, bytes. split; [exact I|]. split; [reflexivity|]. split; [exact NM|]. split; [exact B0|].
      split; [exact FP|]. now split.
  - assert (C : crashes fl (add_network c n rt) w tr u).
    { cbn [performs] in G. unfold returning in G. apply crash_bind in G as [G|(t1 & w1 & r & t2 & R & C & ->)]; [exact G|]. apply crash_ret in C as [-> ->]. rewrite app_nil_r. now apply runs_crashes in R. }
    clear G. unfold add_network in C. apply crash_rbindp in C as [C|(t1 & w1 & r & t2 & R & C & ->)].
    { left. split; [eapply (blind_not_began _ _ (fun _ => False)); [exact C|apply cf_add_one|auto]|]. eapply (crashes_confined _ (fun _ => False)); [exact C|apply cf_add_one|auto]. }
    assert (B1 : ~ began (entry_path c (pc_name (pg_conf n)) rt) t1).
    { apply runs_crashes in R. eapply (blind_not_began _ _ (fun _ => False)); [exact R|apply cf_add_one|auto]. }
    apply add_one_inv in R. destruct R as (-> & _ & R).
    assert (FP : from_plugin (Some r)).
    { intros r0 E. injection E as <-. destruct R as [(_ & X)|(y & _ & _ & _ & _ & _ & _ & X)]; [now destruct (X r)|].
      destruct (call_answer y) as [out|e|]; try discriminate. cbn [rbind] in X. symmetry in X. now apply add_result_from in X. }
    assert (CA' : exists t, crashes fl (cache_add c (Some r) (pg_bytes n) (pc_name (pg_conf n)) rt) w t u /\ t2 = t).
    { apply crash_rbindp in C as [C|(t3 & w2 & y & t4 & R2 & C & ->)].
      - unfold pwrap in C. apply crash_bind in C as [C|(t5 & w2 & y & t6 & R2 & C & ->)]; [eauto|]. apply crash_ret in C as [-> ->]. exists t5. rewrite app_nil_r. split; [now apply runs_crashes in R2|reflexivity].
      - unfold lift in C. apply crash_ret in C as [-> ->]. rewrite app_nil_r. apply runs_bind in R2. destruct R2 as (t7 & w3 & u2 & t8 & R3 & R4 & ->).
        apply runs_ret in R4. destruct R4 as (-> & -> & _). rewrite app_nil_r. exists t7. split; [now apply runs_crashes in R3|reflexivity]. }
    destruct CA' as (t & CA' & ->). apply goes_cache_add in CA' as [[-> NB]|[B (bytes & d & B0 & _ & D & G1)]].
    + left. split; [rewrite began_app; tauto|reflexivity].
    + right. split; [rewrite began_app; tauto|]. exists d. split; [|exact G1].
      exists {| sv_result := Some r; sv_config := pg_bytes n; sv_name := pc_name (pg_conf n); sv_rt := rt |}, bytes. split; [exact I|]. split; [reflexivity|]. split; [exact NM|]. split; [exact B0|]. split; [exact FP|]. now split.
Qed.

(** ** Without the lookers *)
Definition lookb (a : action) : bool :=
  match a with
  | ListResult _ _ | OneResult _ _ | ListConfig _ _ | OneConfig _ _ | CheckList _ _ | CheckOne _ _ => true
  | _ => false
  end.
Lemma lookb_iff a : lookb a = true <-> looks a.
Proof. destruct a; cbn; split; auto; discriminate. Qed.
Lemma lookb_not a : lookb a = false <-> ~ looks a.
Proof. rewrite <- lookb_iff. destruct (lookb a); split; auto; try discriminate. intros X. now destruct X. Qed.
Lemma hidden_iff acts a : In a (map unless_looking acts) -> (In a acts /\ ~ looks a) \/ a = VersionInfo "".
Proof. intros J. apply in_map_iff in J as (b & <- & J). destruct b; cbn; auto. Qed.
Lemma hidden_in acts a : In a acts -> ~ looks a -> In a (map unless_looking acts).
Proof. intros J N. apply in_map_iff. exists a. split; [|exact J]. destruct a; cbn in *; auto; now destruct N. Qed.
Lemma hidden_nth acts i a : nth_error acts i = Some a -> ~ looks a -> nth_error (map unless_looking acts) i = Some a.
Proof. intros J N. rewrite nth_error_map, J. cbn [option_map]. f_equal. destruct a; cbn in *; auto; now destruct N. Qed.
Lemma hidden_back acts i a p c : nth_error (map unless_looking acts) i = Some a -> at_entry c a p -> nth_error acts i = Some a /\ ~ looks a.
Proof.
  rewrite nth_error_map. destruct (nth_error acts i) as [b|]; [|discriminate]. cbn [option_map]. intros [= <-] (n & rt & AB & _).
  destruct b; cbn in AB |- *; try discriminate; split; auto.
Qed.
Lemma hidden_at acts a p c : In a (map unless_looking acts) -> at_entry c a p -> In a acts /\ ~ looks a.
Proof. intros J A. destruct (hidden_iff _ _ J) as [X| ->]; [exact X|]. destruct A as (n & rt & AB & _). discriminate. Qed.
Lemma hidden_doomed c acts w p : doomed c (map unless_looking acts) w p <-> doomed c acts w p.
Proof.
  split; intros (l & args & J & C); exists l, args; (split; [|exact C]).
  - destruct (hidden_iff _ _ J) as [[X _]|X]; [exact X|discriminate].
  - apply hidden_in; [exact J|]. auto.
Qed.
Lemma company_together c acts w : company c acts w -> together c (map unless_looking acts) w.
Proof.
  intros (D & N & CA & KN). split; [|split; [|split]].
  - intros i j a b p NE Ea Eb A B. destruct (hidden_back _ _ _ _ _ Ea A) as [Ea' La], (hidden_back _ _ _ _ _ Eb B) as [Eb' Lb]. exact (D i j a b p NE Ea' Eb' La Lb A B).
  - intros a p J A X. apply (proj1 (hidden_doomed _ _ _ _)) in X. destruct (hidden_at _ _ _ _ J A) as [J' La]. exact (N a p J' La A X).
  - intros a J. destruct (hidden_iff _ _ J) as [[X _]| ->]; [now apply CA|exact I].
  - intros l args a name rt Jg J IA AB. destruct (hidden_iff _ _ Jg) as [[Xg _]|X]; [|discriminate]. destruct (hidden_iff _ _ J) as [[X _]| ->]; [|destruct IA]. exact (KN l args a name rt Xg X IA AB).
Qed.
Lemma looker_idle c a : looks a -> within idle (performs c a).
Proof. intros L. eapply within_weaken; [|apply wi_performs; destruct a; cbn in *; auto]. intros o M. destruct o, a; cbn in *; try exact I; try (destruct L; fail); tauto. Qed.
Definition skipped (acts : list action) (i : nat) : bool := match nth_error acts i with Some a => lookb a | None => false end.
Lemma without fl c acts w tr w' rest : interleaves fl (map (performs c) acts) w tr w' rest ->
  exists tr' rest', interleaves fl (map (performs c) (map unless_looking acts)) w tr' w' rest' /\
    forall j b, nth_error acts j = Some b -> ~ looks b -> own j tr' = own j tr /\ nth_error rest' j = nth_error rest j.
Proof.
  intros H. destruct (leave_out fl (skipped acts) _ _ _ _ _ H) with (ps' := map (performs c) (map unless_looking acts)) as (rest' & IL & RS).
  - intros i p S E. unfold skipped in S. rewrite nth_error_map in E. destruct (nth_error acts i) as [a|]; [|discriminate]. cbn [option_map] in E. injection E as <-. apply looker_idle. now apply lookb_iff.
  - now rewrite !map_length.
  - intros i S. unfold skipped in S. rewrite !nth_error_map. destruct (nth_error acts i) as [a|] eqn:E; [|reflexivity]. cbn [option_map]. f_equal. f_equal. destruct a; cbn in *; try discriminate; reflexivity.
  - eexists _, rest'. split; [exact IL|]. intros j b Ej N. assert (S : skipped acts j = false) by (unfold skipped; rewrite Ej; now apply lookb_not).
    split; [now apply own_left_out|now apply RS].
Qed.
(** ** The entry at a moment *)
Section Moments.
Variables (fl : bool) (c : cni) (acts : list action) (w : world).
Hypothesis T0 : tidy w.
Hypothesis CO : company c acts w.
Lemma contents tr u qs p : interleaves fl (map (performs c) acts) w tr u qs ->
  (exists j b uu q, nth_error acts j = Some b /\ ~ looks b /\ ~ looks_around b /\ at_entry c b p /\ goes fl (performs c b) w (own j tr) uu q /\ sget p u = sget p uu) \/
  ((forall b, In b acts -> ~ looks b -> ~ at_entry c b p) /\ (sget p u = sget p w \/ (doomed c acts w p /\ sget p u = None))).
Proof.
  intros H. destruct (without _ _ _ _ _ _ _ H) as (tr' & rest' & IL & OW).
  pose proof (crowd_end _ _ _ _ (company_together _ _ _ CO) _ _ _ _ _ [] IL (crowd_start _ _ _ _ T0)) as (Each & U & _). cbn [app] in Each.
  destruct (somewhere_dec c (map unless_looking acts) p) as [(j & b & E & A)|N].
  - left. destruct (hidden_back _ _ _ _ _ E A) as [E' L]. assert (LA : ~ looks_around b) by (intros X; exact (about_none c b X p A)).
    destruct (Each _ _ E) as (q & _ & _ & _ & FI). destruct (FI LA) as (uu & Go & _ & AG). exists j, b, uu, q. rewrite <- (proj1 (OW _ _ E' L)). auto 10.
  - right. split; [intros b J L A; exact (N b (hidden_in _ _ J L) A)|]. destruct (U p N) as [X|[X Y]]; [now left|right]. split; [now apply hidden_doomed|exact Y].
Qed.
Lemma began_more p j tr1 tr2 : began p (own j tr1) -> began p (own j (tr1 ++ tr2)%list).
Proof. rewrite own_app. rewrite began_app. auto. Qed.
Lemma replaced tr1 u1 qs1 tr2 u2 qs2 p d1 d2 : interleaves fl (map (performs c) acts) w tr1 u1 qs1 -> interleaves fl qs1 u1 tr2 u2 qs2 ->
  sget p u1 = Some d1 -> sget p u2 = Some d2 -> d1 <> d2 ->
  exists b, In b acts /\ is_add b /\ at_entry c b p /\ carries b /\ written_by b d2.
Proof.
  intros H1 H2 G1 G2 NE. pose proof (il_app _ _ _ _ _ _ _ _ _ H1 H2) as H. pose proof CO as (D & _ & CA & _).
  destruct (contents _ _ _ p H1) as [(j & b & uu & q & E & L & LA & A & Go & S)|[N [S|[_ S]]]]; [| |congruence].
  2:{ destruct (contents _ _ _ p H) as [(j & b & _ & _ & E & L & _ & A & _)|[_ [S'|[_ S']]]]; [|congruence|congruence]. now destruct (N b (nth_error_In _ _ E) L). }
  destruct (contents _ _ _ p H) as [(j' & b' & uu' & q' & E' & L' & LA' & A' & Go' & S')|[N _]]; [|now destruct (N b (nth_error_In _ _ E) L)].
  assert (j' = j) as ->. { destruct (Nat.eq_dec j' j) as [X|X]; [exact X|]. now destruct (D j' j b' b p X E' E L' L A'). }
  assert (b' = b) as -> by congruence. pose proof (nth_error_In _ _ E) as J. pose proof (CA _ J) as CB.
  assert (DEC : is_add b \/ ~ is_add b) by (destruct b; cbn; auto). destruct DEC as [IA|NA].
  - exists b. split; [exact J|]. split; [exact IA|]. split; [exact A|]. split; [exact CB|].
    destruct (lone_began _ _ _ _ _ _ _ _ Go' IA CB A) as [[NB X]|[_ (d & W & X)]]; [|assert (d = d2) by congruence; now subst d].
    destruct (lone_began _ _ _ _ _ _ _ _ Go IA CB A) as [[_ Y]|[B _]]; [congruence|]. exfalso. apply NB. now apply began_more.
  - exfalso. destruct (lone_contents _ _ _ _ _ _ _ _ Go LA CB A) as [X|[X|(d & (s & data & IA & _) & _)]]; [|congruence|now apply NA].
    destruct (lone_contents _ _ _ _ _ _ _ _ Go' LA CB A) as [Y|[Y|(d & (s & data & IA & _) & _)]]; [congruence|congruence|now apply NA].
Qed.
End Moments.

(** ** The lookers *)
Definition result_in (ver d : string) : res (option result) := let! r := create_from_bytes d in convert_cached ver r.
Definition record_in (ver d : string) : option (res (option result)) :=
  match unmarshal_cached_info d with
  | Some ci => if String.eqb (ci_kind ci) cni_cache_v1 then Some (let! r := cached_result_of ci in convert_cached ver r) else None
  | None => None
  end.
(** The program reads [p], once or twice, and goes on with [K]. *)
Definition reads_twice {A} (p ver : string) (q : prog A) (K : res (option result) -> prog A) : Prop :=
  exists k1, q = Do (OpRead p) k1 /\ k1 (RData None) = K (Ok None) /\
    forall d, (exists x, record_in ver d = Some x /\ k1 (RData (Some d)) = K x) \/
      (record_in ver d = None /\ exists k2, k1 (RData (Some d)) = Do (OpRead p) k2 /\ k2 (RData None) = K (Ok None) /\ forall d', k2 (RData (Some d')) = K (result_in ver d')).
Lemma rr_get c name ver rt : named name rt -> reads_twice (entry_path c name rt) ver (get_cached_result c name ver rt) (fun x => Ret x).
Proof.
  intros NM. unfold get_cached_result, get_legacy_cached_result. destruct (cache_path_cases c name rt) as [[_ E]|[X _]]; [|contradiction]. rewrite E.
  unfold rbindp, lift, read_file. cbn [bind]. eexists. split; [reflexivity|]. split; [reflexivity|]. intros d. unfold record_in.
  destruct (unmarshal_cached_info d) as [ci|].
  - destruct (String.eqb (ci_kind ci) cni_cache_v1); [left; eexists; split; reflexivity|right]. split; [reflexivity|]. eexists. split; [reflexivity|]. split; reflexivity.
  - right. split; [reflexivity|]. eexists. split; [reflexivity|]. split; reflexivity.
Qed.
Lemma rr_bind A B p ver (q : prog A) K (g : A -> prog B) : reads_twice p ver q K -> reads_twice p ver (bind q g) (fun x => bind (K x) g).
Proof.
  intros (k1 & -> & N & D). exists (fun r => bind (k1 r) g). split; [reflexivity|]. split; [now rewrite N|]. intros d.
  destruct (D d) as [(x & R & E)|(R & k2 & E & N2 & D2)]; [left|right].
  - exists x. split; [exact R|now rewrite E].
  - split; [exact R|]. exists (fun r => bind (k2 r) g). split; [now rewrite E|]. split; [now rewrite N2|]. intros d'. now rewrite D2.
Qed.
Lemma gcr_unnamed c name ver rt : ~ named name rt -> exists e, get_cached_result c name ver rt = Ret (Err e).
Proof.
  intros NM. unfold get_cached_result. destruct (cache_path_cases c name rt) as [[X _]|[_ [e E]]]; [contradiction|]. rewrite E. exists e. reflexivity.
Qed.
Lemma named_dec name rt : named name rt \/ ~ named name rt.
Proof. unfold named. destruct (string_dec name ""), (string_dec (rt_container rt) ""), (string_dec (rt_ifname rt) ""); tauto. Qed.
Lemma looker_shape c a : looks a -> ~ asks_config a ->
  confined (fun _ => False) (performs c a) \/
  exists p ver K, at_entry c a p /\ (forall r, confined (fun _ => False) (K r)) /\ reads_twice p ver (performs c a) K.
Proof.
  intros L NC. assert (C0 : forall (v : res value), confined (fun _ => False) (Ret v)) by (intros; constructor).
  destruct a as [|l rt| |l rt|l rt| |n rt| |n rt|n rt| | | | | |]; try (destruct L; fail); try (now destruct NC).
  - cbn [performs]. unfold returning, check_network_list. destruct (gte (nl_version l) "0.4.0") as [[|]|e|]; cbn [lift rbindp bind negb]; try (left; apply C0).
    destruct (nl_disable_check l); [left; apply C0|]. destruct (named_dec (nl_name l) rt) as [NM|NM].
    + right. exists (entry_path c (nl_name l) rt), (nl_version l). eexists. split; [exists (nl_name l), rt; auto|]. split; [|unfold pwrap, rbindp; apply rr_bind, rr_bind, rr_bind, rr_get; exact NM].
      intros r. cbn [bind]. apply cf_bind; [|intros; constructor]. destruct (rwrap _ r); [apply cf_check_loop|constructor|constructor].
    + left. destruct (gcr_unnamed c (nl_name l) (nl_version l) rt NM) as [e ->]. unfold pwrap, rbindp. cbn [bind rwrap]. apply C0.
  - cbn [performs]. unfold returning, get_network_list_cached_result. destruct (named_dec (nl_name l) rt) as [NM|NM].
    + right. exists (entry_path c (nl_name l) rt), (nl_version l). eexists. split; [exists (nl_name l), rt; auto|]. split; [|apply rr_bind, rr_get; exact NM]. intros r. apply C0.
    + left. destruct (gcr_unnamed c (nl_name l) (nl_version l) rt NM) as [e ->]. apply C0.
  - cbn [performs]. unfold returning, check_network. destruct (gte (pc_version (pg_conf n)) "0.4.0") as [[|]|e|]; cbn [lift rbindp bind negb]; try (left; apply C0).
    destruct (named_dec (pc_name (pg_conf n)) rt) as [NM|NM].
    + right. exists (entry_path c (pc_name (pg_conf n)) rt), (pc_version (pg_conf n)). eexists. split; [exists (pc_name (pg_conf n)), rt; auto|]. split; [|unfold pwrap, rbindp; apply rr_bind, rr_bind, rr_bind, rr_get; exact NM].
      intros r. cbn [bind]. apply cf_bind; [|intros; constructor]. destruct (rwrap _ r); [apply cf_verb|constructor|constructor].
    + left. destruct (gcr_unnamed c (pc_name (pg_conf n)) (pc_version (pg_conf n)) rt NM) as [e ->]. unfold pwrap, rbindp. cbn [bind rwrap]. apply C0.
  - cbn [performs]. unfold returning, get_network_cached_result. destruct (named_dec (pc_name (pg_conf n)) rt) as [NM|NM].
    + right. exists (entry_path c (pc_name (pg_conf n)) rt), (pc_version (pg_conf n)). eexists. split; [exists (pc_name (pg_conf n)), rt; auto|]. split; [|apply rr_bind, rr_get; exact NM]. intros r. apply C0.
    + left. destruct (gcr_unnamed c (pc_name (pg_conf n)) (pc_version (pg_conf n)) rt NM) as [e ->]. apply C0.
Qed.
Lemma config_shape c a : asks_config a -> (exists v, performs c a = Ret v) \/ exists p k, performs c a = Do (OpRead p) k /\ forall r, exists v, k r = Ret v.
Proof.
  assert (G : forall name rt, (exists v, get_cached_config c name rt = Ret v) \/ exists p k, get_cached_config c name rt = Do (OpRead p) k /\ forall r, exists v, k r = Ret v).
  { intros name rt. unfold get_cached_config. destruct (get_cache_file_path c name rt) as [p|e|]; cbn [lift rbindp bind]; [right|left; eauto|left; eauto].
    unfold read_file. cbn [bind]. eexists _, _. split; [reflexivity|]. intros r. cbn [bind]. destruct r as [|[d|]| | |]; cbn; eauto. }
  assert (R : forall name rt, (exists v, returning VConfig (get_cached_config c name rt) = Ret v) \/ exists p k, returning VConfig (get_cached_config c name rt) = Do (OpRead p) k /\ forall r, exists v, k r = Ret v).
  { intros name rt. unfold returning. destruct (G name rt) as [[v ->]|(p & k & -> & K)]; [left; cbn [bind]; eauto|right]. exists p, (fun r => bind (k r) (fun r => Ret (rmap VConfig r))). split; [reflexivity|].
    intros r. destruct (K r) as [v ->]. cbn [bind]. eauto. }
  intros A. destruct a; try (destruct A; fail); apply R.
Qed.
