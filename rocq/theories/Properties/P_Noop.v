(** C88: the noop test plugin records what it is asked and reports what it is told. *)
From Coq Require Import String Ascii List Arith ZArith NArith Bool Lia.
From Verif Require Import Model.GoStr Model.Errors Model.Version Model.Json Model.Num Model.GoJson Model.NetIP Model.Types Model.GetResult Model.Conf Model.Args Model.Invoke Model.Prog Model.Api Model.Skel Model.Noop
  Spec.VersionSpec Spec.NameSpec Spec.JsonSpec Spec.ConfSpec Spec.EnvSpec Spec.TypesSpec Spec.RunSpec Spec.DocSpec Spec.InvokeSpec Spec.SkelSpec Spec.NoopSpec
  Proofs.StrP Proofs.ValidateP Proofs.VersionP Proofs.SkelP Proofs.ConvP Proofs.TidyP Proofs.JsonRT Proofs.GoJsonP Proofs.ConfP Proofs.LoadP Proofs.ProgP Proofs.InvokeP Proofs.CacheP Proofs.DecodeP Proofs.TypesP Proofs.NoopP
  Properties.P_Api Properties.P_Collect Properties.P_Types Properties.P_Doc Properties.P_Invoke Properties.P_Skel.
Import ListNotations.
Open Scope nat_scope.
Open Scope string_scope.

(** *** One run *)
Lemma get_config_ok cmd a p q ver prev : well_asked cmd a p q ver prev -> exists c, get_config (ca_stdin a) (ca_args a) = Ok (p, c, prev) /\ nc_log c = q /\ pc_version (nc_conf c) = ver.
Proof.
  intros (_ & o & D & (l & A & L) & _ & Q & _ & V & (c0 & U & PP)). destruct (noop_reads _ _ D) as (c & C & E & T1 & T2 & T3). exists c.
  rewrite E in U. injection U as <-. destruct (extra_pairs _ _ A) as (m & M & G).
  unfold get_config, load_conf. rewrite C, PP. cbn [rmap rbind fst snd]. rewrite M. cbn [rbind]. rewrite G.
  split; [|split; [exact (tells_fun _ _ _ _ T2 Q)|exact (tells_fun _ _ _ _ T3 V)]].
  destruct (last_value "DEBUG" l) as [p'|]; [now rewrite L|]. now rewrite (tells_fun _ _ _ _ T1 L).
Qed.
Lemma runs_write p d w tr w' r : runs false (write_file p d) w tr w' r -> r = None /\ sget p w' = Some d /\ forall x, x <> p -> sget x w' = sget x w.
Proof.
  unfold write_file. rewrite runs_do. intros (x & w1 & t1 & -> & An & R). inversion An; subst; [|discriminate]. apply runs_do in R as (y & w2 & t2 & -> & An2 & R).
  apply runs_ret in R as (-> & -> & ->). inversion An2; subst; [|discriminate]. split; [reflexivity|].
  unfold overlay. rewrite sget_sset_same. split; [rewrite sget_sset_same; f_equal; destruct (String.length d); apply append_nil_r|].
  intros x N. rewrite !sget_sset_other by congruence. reflexivity.
Qed.
Lemma controls_read w p d : controls w p d -> exists data, sget p w = Some data /\ unmarshal_debug data = Some d /\ wf_control d.
Proof.
  intros (data & j & G & P & PL & C). exists data. split; [exact G|]. split; [unfold unmarshal_debug; rewrite P; now apply control_iff|].
  eapply control_doc_wf; [exact (jwf_parse _ _ P)|exact C].
Qed.
Lemma logged_read w q l : logged w q l -> exists data, sget q w = Some data /\ (if String.eqb data "" then Some [] else unmarshal_log data) = Some l /\
  Forall (fun e => well_formed_text (le_command e) /\ wf_args (le_args e)) l.
Proof.
  intros (data & G & [[-> ->]|(j & P & PL & D)]); exists ""  + exists data; (split; [exact G|]).
  - split; [reflexivity|constructor].
  - destruct (String.eqb_spec data "") as [->|N]; [discriminate P|]. split; [unfold unmarshal_log; rewrite P; now apply log_iff|]. eapply log_doc_wf; [exact (jwf_parse _ _ P)|exact D].
Qed.
Lemma asked_wf d cmd a : wf_control d -> text_args cmd a -> wf_control (asked d cmd a).
Proof. intros [W1 W2 W3 W4 C V E A] (T0 & T1 & T2 & T3 & T4 & T5 & T6). split; cbn; try assumption. repeat split; assumption. Qed.
Lemma written_controls w p d : wf_control d -> sget p w = Some (print (enc_noop_debug d)) -> controls w p d.
Proof.
  intros W G. destruct (enc_control_ok d W) as (E & P & C). exists (print (enc_noop_debug d)), (enc_noop_debug d). split; [exact G|]. split; [now apply parse_print|]. auto.
Qed.
Lemma written_log w q l : Forall (fun e => well_formed_text (le_command e) /\ wf_args (le_args e)) l -> sget q w = Some (print (JArr (map enc_log_entry l))) -> logged w q l.
Proof.
  intros W G. destruct (enc_log_ok l W) as (E & P & C). eexists. split; [exact G|]. right. eexists. split; [apply parse_print; exact E|]. auto.
Qed.
Lemma one_run cmd a p q ver prev d w tr w' e : runs false (debug_behavior a cmd) w tr w' e -> well_asked cmd a p q ver prev ->
  controls w p d -> (q <> "" -> exists l, logged w q l) ->
  controls w' p (asked d cmd a) /\ (forall l, q <> "" -> logged w q l -> logged w' q (l ++ [{| le_command := cmd; le_args := a |}])) /\
  (forall x, x <> p -> x <> q \/ q = "" -> sget x w' = sget x w) /\ e = noop_report (asked d cmd a) ver prev.
Proof.
  intros R W C LG. destruct (get_config_ok _ _ _ _ _ _ W) as (c & G & Q & V). destruct W as (TA & o & _ & _ & NP & _ & NQ & _ & _).
  destruct (controls_read _ _ _ C) as (data & GD & UD & WD).
  unfold debug_behavior in R. rewrite G in R. destruct (String.eqb_spec p "") as [|_]; [contradiction|].
  apply runs_bind in R as (t1 & w1 & rd & t2 & R1 & R & ->). unfold read_debug in R1. apply runs_bind in R1 as (t3 & w2 & od & t4 & R1 & R2 & ->).
  apply runs_read in R1 as (-> & -> & [OD|[X _]]); [|discriminate]. apply runs_ret in R2 as (-> & -> & ->). rewrite OD, GD, UD in R.
  apply runs_bind in R as (t5 & w3 & we & t6 & R1 & R & ->). fold (asked d cmd a) in R1, R. unfold write_debug in R1. apply runs_write in R1 as (-> & GP & GO).
  apply runs_bind in R as (t7 & w4 & le & t8 & R1 & R & ->). rewrite Q, V in *.
  destruct (String.eqb_spec q "") as [->|NE].
  - apply runs_ret in R1 as (-> & -> & ->). apply runs_ret in R as (-> & -> & ->). split; [apply written_controls; [now apply asked_wf|exact GP]|].
    split; [intros l X; now destruct X|]. split; [intros x N _; now apply GO|reflexivity].
  - destruct (LG NE) as [l L]. destruct (logged_read _ _ _ L) as (ldata & GL & UL & WL).
    unfold write_command_log in R1. apply runs_bind in R1 as (t9 & w5 & ol & t10 & R1 & R2 & ->). apply runs_read in R1 as (-> & -> & [OL|[X _]]); [|discriminate].
    rewrite (GO q NQ), GL in OL. rewrite OL, UL in R2. apply runs_write in R2 as (-> & GQ & GO2). apply runs_ret in R as (-> & -> & ->).
    split; [apply written_controls; [now apply asked_wf|rewrite GO2 by congruence; exact GP]|]. split; [|split; [|reflexivity]].
    + intros l' _ L'. assert (E : l' = l).
      { destruct (logged_read _ _ _ L') as (ld & GL' & UL' & _). assert (ED : ld = ldata) by congruence. rewrite ED in UL'. congruence. }
      subst l'. apply written_log; [|exact GQ]. apply Forall_app. split; [exact WL|]. constructor; [|constructor]. cbn. destruct TA as (T0 & T1 & T2 & T3 & T4 & T5 & T6). repeat split; assumption.
    + intros x N [NX|X]; [|contradiction]. rewrite GO2 by exact NX. now apply GO.
Qed.
(** Asked something it can act on, the plugin records the command and its arguments in the control
    file, whose other members stay, appends them to the command log, if one is configured, and
    touches nothing else. *)
Theorem C88_records : forall cmd a p q ver prev d w tr w' e, runs false (debug_behavior a cmd) w tr w' e -> well_asked cmd a p q ver prev ->
  controls w p d -> (q <> "" -> exists l, logged w q l) ->
  controls w' p (asked d cmd a) /\ (forall l, q <> "" -> logged w q l -> logged w' q (l ++ [{| le_command := cmd; le_args := a |}])) /\
  (forall x, x <> p -> x <> q \/ q = "" -> sget x w' = sget x w).
Proof. intros. edestruct one_run as (A & B & C & _); try eassumption. auto. Qed.

(** *** What it reports *)
Lemma finish_iff d out : finished d out (noop_finish d out (nd_stderr d)).
Proof. unfold finished, noop_finish. destruct (Z.ltb_spec 0 (nd_exit d)); [right|left]; split; auto. Qed.
Lemma passes_iff d : String.eqb (nd_result d) "PASSTHROUGH" || String.eqb (nd_result d) "INJECT-DNS" = true <-> passes_on d.
Proof. unfold passes_on. rewrite orb_true_iff, !String.eqb_eq. reflexivity. Qed.
Lemma passed_adapted d ver r r1 : adapted d r r1 -> passed_on d ver (Some r) =
  rbind (rwrap ("failed to convert result to config " ++ quote ver) (get_as_version r1 ver)) (fun r2 =>
      match enc_result r2 with Some j => Ok (print j) | None => Err (EWrap "failed to marshal new result" (EJson "marshal result")) end).
Proof.
  intros [[E ->]|(E & x & X & ->)]; unfold passed_on; rewrite E; [reflexivity|]. change (String.eqb "INJECT-DNS" "INJECT-DNS") with true. rewrite X. reflexivity.
Qed.
(** And it reports what the control file tells: an error with the code asked for, 999 if none is; or
    a text as it is; or the previous result, as it is or with the name server 1.2.3.4, in the
    configuration's version.  Without a previous result to pass on it crashes. *)
Theorem C88_reports : forall cmd a p q ver prev d w tr w' e, runs false (debug_behavior a cmd) w tr w' e -> well_asked cmd a p q ver prev ->
  controls w p d -> (q <> "" -> exists l, logged w q l) ->
  (nd_error d <> "" -> exists code, (nd_code d = 0%N -> code = 999%N) /\ (nd_code d <> 0%N -> code = nd_code d) /\
     e = NDone "" (nd_stderr d) (Some (ECNI code (nd_error d) ""))) /\
  (nd_error d = "" -> ~ passes_on d -> finished d (nd_result d) e) /\
  (nd_error d = "" -> passes_on d -> prev = None -> e = NPanic (nd_stderr d)) /\
  (forall r r1 r2, nd_error d = "" -> prev = Some r -> adapted d r r1 -> get_as_version r1 ver = Ok r2 -> wf_result (ints_for r2) prefix_form r2 ->
     exists out j, finished d out e /\ parse out = Some j /\ DocSpec.plain j /\ says_result j r2) /\
  (forall r r1 x, nd_error d = "" -> prev = Some r -> adapted d r r1 -> get_as_version r1 ver = Err x ->
     exists m, e = NDone "" (nd_stderr d) (Some (EWrap m x))).
Proof.
  intros cmd a p q ver prev d w tr w' e R W C L. destruct (one_run _ _ _ _ _ _ _ _ _ _ _ R W C L) as (_ & _ & _ & E). clear R.
  assert (AD : forall r r1, adapted d r r1 -> adapted (asked d cmd a) r r1) by (intros r r1 A; exact A).
  assert (PA : forall r r1, adapted d r r1 -> passes_on d) by (intros r r1 [[A _]|[A _]]; [now left|now right]).
  unfold noop_report in E. cbn [asked nd_stderr nd_error] in E. fold (asked d cmd a) in E.
  split; [|split; [|split; [|split]]].
  - intros N. destruct (String.eqb_spec (nd_error d) "") as [|_]; [contradiction|]. cbn [negb] in E. unfold noop_error in E. cbn [asked nd_code nd_error] in E.
    eexists. split; [|split; [|exact E]]; intros X; [now rewrite X|]. apply N.eqb_neq in X. now rewrite X.
  - intros N NP. rewrite N in E. change (negb (String.eqb "" "")) with false in E. cbn [asked nd_result] in E. fold (asked d cmd a) in E.
    destruct (String.eqb (nd_result d) "PASSTHROUGH" || String.eqb (nd_result d) "INJECT-DNS") eqn:PO; [apply passes_iff in PO; contradiction|].
    rewrite E. exact (finish_iff d (nd_result d)).
  - intros N PO ->. rewrite N in E. change (negb (String.eqb "" "")) with false in E. cbn [asked nd_result] in E. fold (asked d cmd a) in E.
    rewrite (proj2 (passes_iff d) PO) in E. exact E.
  - intros r r1 r2 N -> A G WF. rewrite N in E. change (negb (String.eqb "" "")) with false in E. cbn [asked nd_result] in E. fold (asked d cmd a) in E.
    rewrite (proj2 (passes_iff d) (PA _ _ A)), (passed_adapted _ ver _ _ (AD _ _ A)), G in E. cbn [rwrap rbind] in E.
    destruct (result_rt r2 WF) as (j & J & _). rewrite J in E. destruct (written j r2 WF J) as (EN & TD & SR). exists (print j), j.
    split; [rewrite E; exact (finish_iff d (print j))|]. split; [now apply parse_print|]. split; [now apply tidy_plain|exact SR].
  - intros r r1 x N -> A G. rewrite N in E. change (negb (String.eqb "" "")) with false in E. cbn [asked nd_result] in E. fold (asked d cmd a) in E.
    rewrite (proj2 (passes_iff d) (PA _ _ A)), (passed_adapted _ ver _ _ (AD _ _ A)), G in E. cbn [rwrap rbind] in E. eexists. exact E.
Qed.
Lemma same_version r : right_version r -> get_as_version r (result_version r) = Ok r.
Proof.
  destruct r as [r|r|r]; unfold right_version; cbn [versions_of result_version]; intros V.
  - rewrite gv_020_020 by exact V. now destruct r.
  - rewrite gv_040_040 by exact V. now destruct r.
  - rewrite gv_100_100 by exact V. now destruct r.
Qed.
(** Told to pass the previous result on in the version it has, it prints that result. *)
Theorem C88_passthrough : forall cmd a p q prev d w tr w' e, runs false (debug_behavior a cmd) w tr w' e -> well_asked cmd a p q (result_version prev) (Some prev) ->
  controls w p d -> (q <> "" -> exists l, logged w q l) -> nd_error d = "" -> nd_result d = "PASSTHROUGH" -> wf_result (ints_for prev) prefix_form prev ->
  exists out j, finished d out e /\ parse out = Some j /\ DocSpec.plain j /\ says_result j prev.
Proof.
  intros cmd a p q r d w tr w' e R W C L E RS WF. destruct (C88_reports _ _ _ _ _ _ _ _ _ _ _ R W C L) as (_ & _ & _ & X & _).
  eapply (X r r r); [exact E|reflexivity|left; auto|apply same_version; exact (proj2 WF)|exact WF].
Qed.

(** *** One run after another *)
Lemma controls_same w w' p d : controls w p d -> sget p w' = sget p w -> controls w' p d.
Proof. intros (data & j & G & X) E. exists data, j. rewrite E. auto. Qed.
Lemma logged_same w w' q l : logged w q l -> sget q w' = sget q w -> logged w' q l.
Proof. intros (data & G & X) E. exists data. rewrite E. auto. Qed.
Lemma controls_kept cmd a p q ver prev d w tr w' e p' d' : runs false (debug_behavior a cmd) w tr w' e -> well_asked cmd a p q ver prev ->
  controls w p d -> (q <> "" -> exists l, logged w q l) -> controls w p' d' -> (q <> "" -> p' <> q) ->
  (p' <> p /\ controls w' p' d') \/ (p' = p /\ controls w' p' (asked d' cmd a)).
Proof.
  intros R W C L C' N. destruct (string_dec p' p) as [->|NP].
  - right. split; [reflexivity|]. destruct (one_run _ _ _ _ _ _ _ _ _ _ _ R W C' L) as (X & _). exact X.
  - left. split; [exact NP|]. destruct (one_run _ _ _ _ _ _ _ _ _ _ _ R W C L) as (_ & _ & X & _). eapply controls_same; [exact C'|]. apply X; [exact NP|].
    destruct (string_dec q "") as [E|E]; [now right|left; now apply N].
Qed.
Lemma workable_along cmd a w tr w1 e q r : runs false (debug_behavior a cmd) w tr w1 e -> workable w q (cmd, a) -> (q <> "" -> exists l, logged w q l) -> workable w q r -> workable w1 q r.
Proof.
  intros R (p & ver & prev & d & W & C) L (p' & ver' & prev' & d' & W' & C').
  assert (NQ : q <> p') by (destruct W' as (_ & o & _ & _ & _ & _ & X & _); exact X).
  destruct (controls_kept _ _ _ _ _ _ _ _ _ _ _ p' d' R W C L C') as [[_ K]|[_ K]]; [congruence| |]; exists p', ver', prev'; eauto.
Qed.
Lemma log_along cmd a w tr w1 e q : runs false (debug_behavior a cmd) w tr w1 e -> workable w q (cmd, a) -> (q <> "" -> exists l, logged w q l) -> q <> "" -> exists l, logged w1 q l.
Proof.
  intros R (p & ver & prev & d & W & C) L NE. destruct (L NE) as [l LL]. destruct (one_run _ _ _ _ _ _ _ _ _ _ _ R W C L) as (_ & L1 & _ & _). eauto.
Qed.
(** However many requests share a command log, each with a control file of its own or not, the log
    gains them all, in order. *)
Theorem C88_log : forall reqs w w' es q l, sequence reqs w w' es -> q <> "" -> logged w q l -> Forall (workable w q) reqs ->
  logged w' q (l ++ map (fun r => {| le_command := fst r; le_args := snd r |}) reqs) /\ Datatypes.length es = Datatypes.length reqs.
Proof.
  intros reqs w w' es q l S NE. revert l. induction S as [w|cmd a reqs w tr w1 e w2 es R S IH]; intros l L F.
  - cbn [map]. rewrite app_nil_r. auto.
  - apply Forall_cons_iff in F as (SV & F). assert (LG : q <> "" -> exists l, logged w q l) by eauto. pose proof SV as (p & ver & prev & d & W & C). cbn [fst snd] in W.
    destruct (one_run _ _ _ _ _ _ _ _ _ _ _ R W C LG) as (_ & L1 & _ & _). specialize (L1 l NE L).
    destruct (IH (l ++ [{| le_command := cmd; le_args := a |}])%list L1) as [L2 LE].
    + rewrite Forall_forall in F |- *. intros r I. eapply workable_along; eauto.
    + cbn [map fst snd Datatypes.length]. rewrite <- app_assoc in L2. cbn [app] in L2. split; [exact L2|now rewrite LE].
Qed.
Lemma sequence_app l1 : forall l2 w w' es, sequence (l1 ++ l2) w w' es -> exists w1 e1 e2, sequence l1 w w1 e1 /\ sequence l2 w1 w' e2 /\ es = (e1 ++ e2)%list.
Proof.
  induction l1 as [|[cmd a] l1 IH]; intros l2 w w' es S.
  - exists w, [], es. split; [constructor|auto].
  - inversion S as [|c0 a0 reqs w0 tr w1 e w2 es0 R S']; subst. apply IH in S' as (w3 & e1 & e2 & S1 & S2 & ->). exists w3, (e :: e1), e2. split; [econstructor; eassumption|auto].
Qed.
Lemma sequence_keeps reqs w w' es q : sequence reqs w w' es -> (q <> "" -> exists l, logged w q l) -> Forall (workable w q) reqs ->
  (q <> "" -> exists l, logged w' q l) /\ (forall r, workable w q r -> workable w' q r) /\
  (forall p d, p <> q -> controls w p d -> (controls w' p d \/ exists c b, controls w' p (asked d c b)) /\
    (Forall (fun r => forall ver prev, ~ well_asked (fst r) (snd r) p q ver prev) reqs -> controls w' p d)).
Proof.
  induction 1 as [w|cmd a reqs w tr w1 e w2 es R S IH]; intros L F.
  - split; [exact L|]. split; [auto|]. intros p d _ C. auto.
  - apply Forall_cons_iff in F as (SV & F). assert (F1 : Forall (workable w1 q) reqs) by (rewrite Forall_forall in F |- *; intros r I; eapply workable_along; eauto).
    destruct (IH (log_along _ _ _ _ _ _ _ R SV L) F1) as (L2 & S2 & K). split; [exact L2|]. split; [intros r X; apply S2; eapply workable_along; eauto|].
    intros p d NQ C. pose proof SV as (p1 & ver & prev & d1 & W & C1). cbn [fst snd] in W.
    destruct (controls_kept _ _ _ _ _ _ _ _ _ _ _ p d R W C1 L C) as [[NP X]|[-> X]]; [auto| |].
    + destruct (K p d NQ X) as [A B]. split; [exact A|]. intros FO. apply B. now apply Forall_cons_iff in FO as [_ FO].
    + destruct (K p1 _ NQ X) as [[A|(c & b & A)] B]; (split; [right|]).
      * exists cmd, a. exact A.
      * intros FO. apply Forall_cons_iff in FO as [FO _]. destruct (FO ver prev W).
      * exists c, b. exact A.
      * intros FO. apply Forall_cons_iff in FO as [FO _]. destruct (FO ver prev W).
Qed.
(** And a control file holds, beside what it told, the last request that used it. *)
Theorem C88_last : forall before cmd a after w w' es p q ver prev d, sequence (before ++ (cmd, a) :: after) w w' es ->
  (q <> "" -> exists l, logged w q l) -> Forall (workable w q) (before ++ (cmd, a) :: after) -> well_asked cmd a p q ver prev -> controls w p d ->
  Forall (fun r => forall ver prev, ~ well_asked (fst r) (snd r) p q ver prev) after -> controls w' p (asked d cmd a).
Proof.
  intros before cmd a after w w' es p q ver prev d S L F W C A. apply sequence_app in S as (w1 & e1 & e2 & S1 & S2 & _). apply Forall_app in F as [F1 F2].
  assert (NQ : p <> q) by (destruct W as (_ & o & _ & _ & _ & _ & X & _); congruence).
  destruct (sequence_keeps _ _ _ _ _ S1 L F1) as (L1 & SV & K). destruct (K p d NQ C) as [X _].
  assert (F2' : Forall (workable w1 q) ((cmd, a) :: after)) by (rewrite Forall_forall in F2 |- *; auto). clear F2.
  inversion S2 as [|c0 a0 reqs w0 tr w2 e w3 es0 R S3]; subst. apply Forall_cons_iff in F2' as [SC F3].
  assert (F4 : Forall (workable w2 q) after) by (rewrite Forall_forall in F3 |- *; intros r I; eapply workable_along; eauto).
  destruct (sequence_keeps _ _ _ _ _ S3 (log_along _ _ _ _ _ _ _ R SC L1) F4) as (_ & _ & K2).
  destruct X as [X|(c & b & X)]; destruct (one_run _ _ _ _ _ _ _ _ _ _ _ R W X L1) as (Y & _); apply (K2 _ _ NQ Y); exact A.
Qed.

(** *** What it refuses *)
Lemma previous_no_panic c : parse_prev_result c <> Panic.
Proof.
  unfold parse_prev_result. destruct (pc_prev c); [|discriminate]. cbn zeta. match goal with |- context [create ?v ?t] => pose proof (create_no_panic v t) as X; destruct (create v t) end; try discriminate; contradiction.
Qed.
(** A configuration it cannot read, arguments that are not pairs or a previous result that it cannot
    read: an error, nothing printed, no file touched. *)
Theorem C88_refuses : forall cmd a fl w tr w' e, runs fl (debug_behavior a cmd) w tr w' e ->
  (((forall o, ~ noop_document (ca_stdin a) o) /\ parse (ca_stdin a) <> Some JNull) \/ (forall l, ~ arg_pairs (ca_args a) l) \/ (forall prev, ~ previous (ca_stdin a) prev)) ->
  w' = w /\ tr = [] /\ exists x, e = NDone "" "" (Some x).
Proof.
  intros cmd a fl w tr w' e R H. unfold debug_behavior in R.
  assert (X : exists x, get_config (ca_stdin a) (ca_args a) = Err x).
  { unfold get_config, load_conf. destruct (obind (parse (ca_stdin a)) (decode_struct noop_conf_step noop_conf_zero)) as [c|] eqn:D; [|eexists; reflexivity].
    destruct (parse_prev_result (nc_conf c)) as [pr|x|] eqn:PP; [|eexists; reflexivity|destruct (previous_no_panic _ PP)]. cbn [rmap rbind fst snd].
    destruct (parse_extra_args (ca_args a)) as [m|x|] eqn:AR; [|eexists; reflexivity|].
    - exfalso. destruct (extra_pairs_only _ _ AR) as (l & AL). destruct H as [[H1 H2]|[H|H]]; [|exact (H _ AL)|].
      + destruct (noop_reads_only _ _ D) as [(o & O)|O]; [exact (H1 _ O)|exact (H2 O)].
      + apply (H pr). exists (nc_conf c). split; [|exact PP]. destruct (noop_reads_only _ _ D) as [(o & O)|O].
        * destruct (noop_reads _ _ O) as (c' & C' & U & _). congruence.
        * unfold unmarshal_plugin_conf. rewrite O in D |- *. cbn in D |- *. injection D as <-. reflexivity.
    - exfalso. revert AR. unfold parse_extra_args. destruct (String.eqb (ca_args a) ""); [discriminate|]. generalize (split_on ";"%char (ca_args a)), (@nil (string * string)).
      induction l as [|i l IH]; intros m; cbn [extra_args_loop]; [discriminate|]. destruct (split_on "="%char i) as [|k [|v [|z zs]]]; try discriminate. apply IH. }
  destruct X as [x X]. rewrite X in R. apply runs_ret in R as (-> & -> & ->). eauto.
Qed.
(** The same for a control file that is missing or not JSON. *)
Theorem C88_refuses_control : forall cmd a p q ver prev w tr w' e, runs false (debug_behavior a cmd) w tr w' e -> well_asked cmd a p q ver prev ->
  (forall data j, sget p w = Some data -> parse data <> Some j) -> w' = w /\ exists x, e = NDone "" "" (Some x).
Proof.
  intros cmd a p q ver prev w tr w' e R W H. destruct (get_config_ok _ _ _ _ _ _ W) as (c & G & Q & V). destruct W as (TA & o & _ & _ & NP & _).
  unfold debug_behavior in R. rewrite G in R. destruct (String.eqb_spec p "") as [|_]; [contradiction|].
  apply runs_bind in R as (t1 & w1 & rd & t2 & R1 & R & ->). unfold read_debug in R1. apply runs_bind in R1 as (t3 & w2 & od & t4 & R1 & R2 & ->).
  apply runs_read in R1 as (-> & -> & [OD|[X _]]); [|discriminate]. apply runs_ret in R2 as (-> & -> & ->). rewrite OD in R. destruct (sget p w) as [data|] eqn:GD.
  - unfold unmarshal_debug in R. destruct (parse data) as [j|] eqn:P; [destruct (H _ j eq_refl P)|]. cbn [obind] in R. apply runs_ret in R as (-> & -> & ->). eauto.
  - apply runs_ret in R as (-> & -> & ->). eauto.
Qed.
Lemma runs_write_any fl p d w tr w' r : runs fl (write_file p d) w tr w' r -> forall x, x <> p -> sget x w' = sget x w.
Proof.
  unfold write_file. rewrite runs_do. intros (x & w1 & t1 & -> & An & R) y N. inversion An; subst.
  - apply runs_do in R as (z & w2 & t2 & -> & An2 & R). apply runs_ret in R as (-> & -> & _).
    inversion An2; subst; rewrite sget_overlay; (destruct (String.eqb_spec y p) as [|_]; [contradiction|]); now apply sget_sset_other.
  - apply runs_ret in R as (-> & -> & _). reflexivity.
Qed.
(** Whatever the files hold and whatever fails, only those two files can change; and without a log
    only the control file. *)
Theorem C88_touches : forall cmd a p q ver prev fl w tr w' e, runs fl (debug_behavior a cmd) w tr w' e -> well_asked cmd a p q ver prev ->
  forall x, x <> p -> x <> q \/ q = "" -> sget x w' = sget x w.
Proof.
  intros cmd a p q ver prev fl w tr w' e R W x NX NQ. destruct (get_config_ok _ _ _ _ _ _ W) as (c & G & Q & V). destruct W as (_ & o & _ & _ & NP & _).
  unfold debug_behavior in R. rewrite G in R. destruct (String.eqb_spec p "") as [|_]; [contradiction|].
  apply runs_bind in R as (t1 & w1 & rd & t2 & R1 & R & ->). unfold read_debug in R1. apply runs_bind in R1 as (t3 & w2 & od & t4 & R1 & R2 & ->).
  apply runs_read in R1 as (-> & -> & _). apply runs_ret in R2 as (-> & -> & ->).
  match type of R with context [match ?m with Ok _ => _ | Err _ => _ | Panic => _ end] => destruct m as [d|x0|] end; try (apply runs_ret in R as (-> & -> & _); reflexivity).
  apply runs_bind in R as (t5 & w3 & we & t6 & R1 & R & ->). unfold write_debug in R1. pose proof (runs_write_any _ _ _ _ _ _ _ R1 x NX) as S1.
  destruct we; [apply runs_ret in R as (-> & -> & _); exact S1|].
  apply runs_bind in R as (t7 & w4 & le & t8 & R2 & R & ->). rewrite Q in R2.
  assert (S2 : sget x w4 = sget x w3).
  { destruct (String.eqb_spec q "") as [E|NE]; [apply runs_ret in R2 as (-> & -> & _); reflexivity|]. destruct NQ as [NQ|]; [|contradiction].
    unfold write_command_log in R2. apply runs_bind in R2 as (t9 & w5 & ol & t10 & R2 & R3 & ->). apply runs_read in R2 as (-> & -> & _).
    destruct ol as [ld|]; [|apply runs_ret in R3 as (-> & -> & _); reflexivity].
    destruct (if String.eqb ld "" then Some [] else unmarshal_log ld); [|apply runs_ret in R3 as (-> & -> & _); reflexivity].
    eapply runs_write_any; [exact R3|exact NQ]. }
  rewrite <- S1, <- S2. destruct le; apply runs_ret in R as (-> & -> & _); reflexivity.
Qed.
(** No I/O failure is passed over: if anything cannot be read or written, the command fails and
    reports nothing. *)
Definition broke (ev : event) : Prop := snd ev = RData None \/ exists x, snd ev = RErr (Some x).
Lemma write_broke fl p d w tr w' r ev : runs fl (write_file p d) w tr w' r -> In ev tr -> broke ev -> r <> None.
Proof.
  unfold write_file. rewrite runs_do. intros (x & w1 & t1 & -> & An & R) H B. assert (BR : forall o y, broke (o, y) -> y = RData None \/ exists z, y = RErr (Some z)) by (intros o y X; exact X).
  inversion An; subst.
  - apply runs_do in R as (z & w2 & t2 & -> & An2 & R). apply runs_ret in R as (-> & -> & ->). inversion An2; subst; try discriminate;
    exfalso; cbn [In] in H; destruct H as [<-|[<-|[]]]; destruct (BR _ _ B) as [X|(y & X)]; discriminate.
  - apply runs_ret in R as (_ & _ & ->). discriminate.
Qed.
Theorem C88_no_failure_unnoticed : forall cmd a fl w tr w' e ev, runs fl (debug_behavior a cmd) w tr w' e -> In ev tr -> broke ev -> exists x, e = NDone "" "" (Some x).
Proof.
  intros cmd a fl w tr w' e ev R H B. unfold debug_behavior in R.
  destruct (get_config (ca_stdin a) (ca_args a)) as [((p & c) & prev)|x|]; try (apply runs_ret in R as (-> & _ & _); destruct H).
  destruct (String.eqb p ""); [apply runs_ret in R as (-> & _ & _); destruct H|].
  apply runs_bind in R as (t1 & w1 & rd & t2 & R1 & R & ->). unfold read_debug in R1. apply runs_bind in R1 as (t3 & w2 & od & t4 & R1 & R2 & ->).
  apply runs_read in R1 as (-> & -> & _). apply runs_ret in R2 as (-> & -> & ->).
  destruct od as [data|]; [|apply runs_ret in R as (_ & _ & ->); eauto].
  apply in_app_or in H as [H|H]. { cbn in H. destruct H as [<-|[]]. destruct B as [B|(x & B)]; discriminate. }
  destruct (unmarshal_debug data) as [d|]; [|apply runs_ret in R as (-> & _ & _); destruct H].
  apply runs_bind in R as (t5 & w3 & we & t6 & R1 & R & ->). unfold write_debug in R1.
  destruct we as [x|]; [apply runs_ret in R as (_ & _ & ->); eauto|].
  apply in_app_or in H as [H|H]. { exfalso. now apply (write_broke _ _ _ _ _ _ _ _ R1 H B). }
  apply runs_bind in R as (t7 & w4 & le & t8 & R2 & R & ->). destruct le as [x|]; [apply runs_ret in R as (_ & _ & ->); eauto|].
  exfalso. apply in_app_or in H as [H|H]; [|apply runs_ret in R as (-> & _ & _); destruct H].
  destruct (String.eqb (nc_log c) ""); [apply runs_ret in R2 as (-> & _ & _); destruct H|].
  unfold write_command_log in R2. apply runs_bind in R2 as (t9 & w5 & ol & t10 & R2 & R3 & ->). apply runs_read in R2 as (-> & -> & _).
  destruct ol as [ld|]; [|apply runs_ret in R3 as (_ & _ & X); discriminate].
  apply in_app_or in H as [H|H]. { destruct H as [<-|[]]. destruct B as [B|(x & B)]; discriminate. }
  destruct (if String.eqb ld "" then Some [] else unmarshal_log ld) as [l|]; [|apply runs_ret in R3 as (_ & _ & X); discriminate].
  now apply (write_broke _ _ _ _ _ _ _ _ R3 H B).
Qed.
(** With no control file named it prints an empty object and touches nothing. *)
Theorem C88_idle : forall cmd a o prev fl w tr w' e, runs fl (debug_behavior a cmd) w tr w' e -> noop_document (ca_stdin a) o -> control_path a o "" ->
  previous (ca_stdin a) prev -> w' = w /\ tr = [] /\ exists err, e = NDone "{}" err None.
Proof.
  intros cmd a o prev fl w tr w' e R D (l & A & L) (c0 & U & PP). destruct (noop_reads _ _ D) as (c & C & E & T1 & T2 & T3).
  rewrite E in U. injection U as <-. destruct (extra_pairs _ _ A) as (m & M & G).
  unfold debug_behavior, get_config, load_conf in R. rewrite C, PP in R. cbn [rmap rbind fst snd] in R. rewrite M in R. cbn [rbind] in R. rewrite G in R.
  assert (X : match last_value "DEBUG" l with Some p => p | None => nc_debug c end = "") by (destruct (last_value "DEBUG" l); [now symmetry|exact (tells_fun _ _ _ _ T1 L)]).
  rewrite X in R. apply runs_ret in R as (-> & -> & ->). eauto.
Qed.

(** *** The process *)
Lemma offers_run pe data a p q ver prev d l w tr w' r : runs false (get_supported_versions data (pe_getenv pe "CNI_ARGS")) w tr w' r -> arguments pe data a ->
  well_asked (command pe) a p q ver prev -> controls w p d -> offers (pe_getenv pe "CNI_ARGS") d l -> w' = w /\ r = Ok l.
Proof.
  intros R AR W C O. destruct (get_config_ok _ _ _ _ _ _ W) as (c & G & Q & V). destruct AR as (_ & _ & _ & A4 & _ & _ & A7). rewrite A4, A7 in G.
  unfold get_supported_versions in R. destruct (String.eqb_spec (pe_getenv pe "CNI_ARGS") "") as [E|NE].
  - apply runs_ret in R as (-> & -> & ->). destruct O as [[_ ->]|[[N _]|[N _]]]; [auto|contradiction|contradiction].
  - rewrite G in R. destruct (controls_read _ _ _ C) as (cd & GD & UD & _).
    apply runs_bind in R as (t1 & w1 & rd & t2 & R1 & R & ->). unfold read_debug in R1. apply runs_bind in R1 as (t3 & w2 & od & t4 & R1 & R2 & ->).
    apply runs_read in R1 as (-> & -> & [OD|[X _]]); [|discriminate]. apply runs_ret in R2 as (-> & -> & ->). rewrite OD, GD, UD in R. apply runs_ret in R as (-> & -> & ->).
    split; [reflexivity|]. destruct O as [[N _]|[(_ & X & ->)|(_ & X)]]; [contradiction| |]; now rewrite X.
Qed.
Lemma noop_function pe l data r : acceptable_request pe l data -> function_for (noop_funcs r) (command pe) = Some (fun _ => r).
Proof.
  intros (_ & _ & _ & _ & v & _ & _ & A). apply allowed_cmd in A. unfold function_for. destruct A as [E|[E|[E|[E|E]]]]; rewrite E; reflexivity.
Qed.
Lemma noop_process pe l data r a : acceptable_request pe l data -> Forall well_formed_version l -> arguments pe data a ->
  let info := {| pi_version := current_version; pi_supported := l |} in
  so_calls (plugin_main pe (noop_funcs r) info noop_about) = [(command pe, a)] /\
  (forall e code msg det, snd r = Some e -> carries e code msg det -> plugin_process pe (noop_funcs r) info noop_about = (fst r ++ print_error code msg det, "", 1%N)) /\
  (snd r = None -> (command pe = "ADD" \/ command pe = "DEL") /\ ~ override_on pe /\ in_own_namespace pe ->
     exists m det, plugin_process pe (noop_funcs r) info noop_about = (fst r ++ print_error 8 m det, "", 1%N)) /\
  (snd r = None -> ~ ((command pe = "ADD" \/ command pe = "DEL") /\ ~ override_on pe /\ in_own_namespace pe) ->
     plugin_process pe (noop_funcs r) info noop_about = (fst r, "", 0%N)).
Proof.
  intros A W AR info. pose proof (noop_function _ _ _ r A) as F.
  destruct (C44_called_if pe (noop_funcs r) info noop_about data _ A W F) as (a' & AR' & CL & OUT & E1 & E2 & E3).
  assert (a' = a) by (apply arguments_iff in AR, AR'; congruence). subst a'. cbn zeta in *.
  assert (SE : so_stderr (plugin_main pe (noop_funcs r) info noop_about) = "").
  { destruct (main_cases pe (noop_funcs r) info noop_about) as [(d & A2 & [O|(N & _)])|(N & _)]; [|contradiction|destruct (N data A)]. rewrite O, F. unfold after.
    destruct (_ || _)%bool; [|reflexivity]. unfold netns_check. cbn [outcome_of so_err]. destruct (snd r); [reflexivity|]. destruct (netns_overridden _); [reflexivity|]. destruct (check_netns _ _) as [[|]|]; reflexivity. }
  split; [exact CL|]. unfold plugin_process. rewrite SE. split; [|split].
  - intros e code msg det S CA. rewrite (E1 e code msg det S CA), OUT. reflexivity.
  - intros S (C & NO & NS). destruct (C46_own_namespace pe (noop_funcs r) info noop_about data _ a C A F AR S) as [X _]. destruct (X (conj NO NS)) as (e & EE & EC). rewrite EE, OUT, EC. eauto.
  - intros S N. assert (X : so_err (plugin_main pe (noop_funcs r) info noop_about) = None).
    { destruct (so_err (plugin_main pe (noop_funcs r) info noop_about)) as [e|] eqn:EE; [|reflexivity]. exfalso.
      assert (C : command pe = "ADD" \/ command pe = "DEL").
      { destruct (string_dec (command pe) "ADD"); [now left|]. destruct (string_dec (command pe) "DEL"); [now right|]. destruct (E3 e eq_refl); auto. }
      destruct (C46_own_namespace pe (noop_funcs r) info noop_about data _ a C A F AR S) as [_ X]. rewrite EE in X. discriminate X. intros (NO & NS). apply N. auto. }
    rewrite X, OUT. reflexivity.
Qed.
(** Run as a process for a request it should act on, at one of the versions it offers, the plugin
    does that once, and its output, its stderr and its status are what was reported.  A status is a
    byte: told to exit with 256, it exits with 0. *)
Theorem C88_process : forall pe data a p q ver prev d l w tr w' out err st, runs false (noop_main pe) w tr w' (out, err, st) ->
  offers (pe_getenv pe "CNI_ARGS") d l -> acceptable_request pe l data -> Forall well_formed_version l -> arguments pe data a ->
  well_asked (command pe) a p q ver prev -> controls w p d ->
  exists tr1 e, runs false (debug_behavior a (command pe)) w tr1 w' e /\
    (forall o er x code msg det, e = NDone o er (Some x) -> carries x code msg det -> out = o ++ print_error code msg det /\ err = er /\ st = 1%N) /\
    (forall o er, e = NDone o er None -> (command pe = "ADD" \/ command pe = "DEL") /\ ~ override_on pe /\ in_own_namespace pe ->
       exists m det, out = o ++ print_error 8 m det /\ err = er /\ st = 1%N) /\
    (forall o er, e = NDone o er None -> ~ ((command pe = "ADD" \/ command pe = "DEL") /\ ~ override_on pe /\ in_own_namespace pe) ->
       out = o /\ err = er /\ st = 0%N) /\
    (forall o er c, e = NExit o er c -> out = o /\ err = er /\ Z.of_N st = (c mod 256)%Z) /\
    (forall er, e = NPanic er -> out = "" /\ String.prefix er err = true /\ st = 2%N).
Proof.
  intros pe data a p q ver prev d l w tr w' out err st R O A WV AR W C. unfold noop_main in R. pose proof A as (_ & _ & SI & _ & v & _ & IV & _). rewrite SI in R.
  apply runs_bind in R as (t1 & w1 & vs & t2 & R1 & R & ->). destruct (offers_run _ _ _ _ _ _ _ _ _ _ _ _ _ R1 AR W C O) as [-> ->]. clear R1.
  assert (P : plugin_supports l = Some {| pi_version := current_version; pi_supported := l |}) by (destruct l; [destruct IV|reflexivity]). rewrite P in R.
  destruct (noop_process pe l data ("", None) a A WV AR) as (CL & _). cbn zeta in CL. rewrite CL in R.
  apply runs_bind in R as (t3 & w2 & e & t4 & R1 & R & ->). exists t3, e. apply runs_ret in R as (-> & -> & E). split; [exact R1|].
  assert (K : forall o er oe, e = NDone o er oe -> let '(o', e', s) := plugin_process pe (noop_funcs (o, oe)) {| pi_version := current_version; pi_supported := l |} noop_about in (out, err, st) = (o', er ++ e', s)).
  { intros o er oe ->. destruct (plugin_process pe (noop_funcs (o, oe)) _ noop_about) as [[o' e'] s]. exact E. }
  split; [|split; [|split; [|split]]].
  - intros o er x code msg det EE CA. specialize (K o er (Some x) EE). destruct (noop_process pe l data (o, Some x) a A WV AR) as (_ & X & _). rewrite (X x code msg det eq_refl CA) in K. rewrite append_nil_r in K. cbn [fst] in K.
    injection K as -> -> ->. auto.
  - intros o er EE NS. specialize (K o er None EE). destruct (noop_process pe l data (o, None) a A WV AR) as (_ & _ & X & _). destruct (X eq_refl NS) as (m & det & Y). rewrite Y in K. rewrite append_nil_r in K. cbn [fst] in K.
    exists m, det. injection K as -> -> ->. auto.
  - intros o er EE NS. specialize (K o er None EE). destruct (noop_process pe l data (o, None) a A WV AR) as (_ & _ & _ & X). rewrite (X eq_refl NS) in K. rewrite append_nil_r in K. cbn [fst] in K.
    injection K as -> -> ->. auto.
  - intros o er c ->. injection E as -> -> ->. split; [reflexivity|]. split; [reflexivity|]. apply Z2N.id. apply Z.mod_pos_bound. lia.
  - intros er ->. unfold noop_crash in E. injection E as -> -> ->. split; [reflexivity|]. split; [|reflexivity]. apply prefix_iff. eauto.
Qed.
(** Asked for its versions, it offers those the control file tells, if CNI_ARGS leads to one. *)
Theorem C88_versions : forall pe data a p q ver prev d l w tr w' r, runs false (noop_main pe) w tr w' r -> command pe = "VERSION" ->
  pe_stdin pe = Some data -> arguments pe data a -> well_asked "VERSION" a p q ver prev -> controls w p d ->
  offers (pe_getenv pe "CNI_ARGS") d l -> l <> [] -> Forall well_formed_text l ->
  w' = w /\ exists out, r = (out, "", 0%N) /\ exists info, decode_plugin_info out = Ok info /\ pi_supported info = l.
Proof.
  intros pe data a p q ver prev d l w tr w' r R CM SI AR W C O NE WF. unfold noop_main in R. rewrite SI in R.
  apply runs_bind in R as (t1 & w1 & vs & t2 & R1 & R & ->). rewrite <- CM in W. destruct (offers_run _ _ _ _ _ _ _ _ _ _ _ _ _ R1 AR W C O) as [-> ->]. clear R1.
  assert (P : exists info, plugin_supports l = Some info) by (destruct l; [contradiction|eexists; reflexivity]). destruct P as [info P]. rewrite P in R.
  destruct (C45_version_answers pe (noop_funcs ("", None)) l info noop_about CM P WF) as (out & OUT & CL & X). rewrite CL, OUT in R. apply runs_ret in R as (-> & -> & ->). eauto.
Qed.
(** A runtime that runs it gets the error the control file tells. *)
Theorem C88_told : forall pe data a p q ver prev d l w tr w' res, runs false (noop_main pe) w tr w' res ->
  offers (pe_getenv pe "CNI_ARGS") d l -> acceptable_request pe l data -> Forall well_formed_version l -> arguments pe data a ->
  well_asked (command pe) a p q ver prev -> controls w p d -> (q <> "" -> exists lg, logged w q lg) ->
  nd_error d <> "" ->
  fst (exec_plugin (fun _ => process_outcome res)) = Err (ECNI (if (nd_code d =? 0)%N then 999 else nd_code d) (nd_error d) "").
Proof.
  intros pe data a p q ver prev d l w tr w' [[out err] st] R O A WV AR W C L NE.
  destruct (controls_read _ _ _ C) as (cd & _ & _ & [_ W2 _ _ CO _ _ _]).
  destruct (C88_process _ _ _ _ _ _ _ _ _ _ _ _ _ _ _ R O A WV AR W C) as (tr1 & e & R1 & X & _).
  destruct (C88_reports _ _ _ _ _ _ _ _ _ _ _ R1 W C L) as (Y & _). destruct (Y NE) as (code & C0 & C1 & E).
  destruct (X _ _ _ code (nd_error d) "" E (carries_self _ _ _)) as (-> & -> & ->).
  assert (EC : (if (nd_code d =? 0)%N then 999%N else nd_code d) = code) by (destruct (N.eqb_spec (nd_code d) 0); [symmetry; auto|symmetry; auto]).
  rewrite EC. apply C47_error_reaches_caller with (n := 0) (e := "exit status 1").
  - lia.
  - intros j J. lia.
  - reflexivity.
  - intros (x & b1 & b2 & EX & B). cbn [process_outcome ro_err] in EX. injection EX as <-. apply (f_equal String.length) in B. rewrite !length_append in B. cbn in B. lia.
  - reflexivity.
  - rewrite <- EC. destruct (N.eqb_spec (nd_code d) 0); [reflexivity|exact CO].
  - exact W2.
  - apply ascii_wft. reflexivity.
Qed.

(** *** Examples *)
Lemma well_asked_if cmd a l c prev p : text_args cmd a -> obind (parse (ca_stdin a)) (decode_struct noop_conf_step noop_conf_zero) = Some c ->
  parse (ca_stdin a) <> Some JNull -> arg_pairs (ca_args a) l -> parse_prev_result (nc_conf c) = Ok prev ->
  match last_value "DEBUG" l with Some q => p = q | None => p = nc_debug c end -> p <> "" -> nc_log c <> p ->
  well_asked cmd a p (nc_log c) (pc_version (nc_conf c)) prev.
Proof.
  intros T D N A PP L NP NQ. split; [exact T|]. destruct (noop_reads_only _ _ D) as [(o & O)|O]; [|contradiction].
  destruct (noop_reads _ _ O) as (c' & D' & U & T1 & T2 & T3). assert (c' = c) by congruence. subst c'.
  exists o. split; [exact O|]. split; [exists l; split; [exact A|]; destruct (last_value "DEBUG" l); [exact L|subst p; exact T1]|].
  split; [exact NP|]. split; [exact T2|]. split; [exact NQ|]. split; [exact T3|]. exists (nc_conf c). auto.
Qed.
Lemma controls_if w p data d : sget p w = Some data -> unmarshal_debug data = Some d -> (exists j, parse data = Some j /\ plainb j = true) -> controls w p d.
Proof.
  intros G U (j & P & PL). apply plainb_plain in PL. exists data, j. split; [exact G|]. split; [exact P|]. split; [exact PL|]. apply control_iff; [exact PL|]. unfold unmarshal_debug in U. rewrite P in U. exact U.
Qed.
Lemma logged_if w q data l : sget q w = Some data -> unmarshal_log data = Some l -> (exists j, parse data = Some j /\ plainb j = true) -> logged w q l.
Proof.
  intros G U (j & P & PL). apply plainb_plain in PL. exists data. split; [exact G|]. right. exists j. split; [exact P|]. split; [exact PL|]. apply log_iff; [exact PL|]. unfold unmarshal_log in U. rewrite P in U. exact U.
Qed.
Definition N_data : string := Eval vm_compute in
  print (JObj [("cniVersion", JStr "1.0.0"); ("name", JStr "net1"); ("type", JStr "noop"); ("commandLog", JStr "/d/log");
    ("prevResult", JObj [("cniVersion", JStr "1.0.0"); ("ips", JArr [JObj [("address", JStr "10.0.0.2/24")]])])]).
Definition N_vars (cmd file : string) (v : string) : string :=
  if String.eqb v "CNI_COMMAND" then cmd else if String.eqb v "CNI_CONTAINERID" then "c1" else
  if String.eqb v "CNI_NETNS" then "/ns/other" else if String.eqb v "CNI_IFNAME" then "eth0" else
  if String.eqb v "CNI_PATH" then "/opt/cni/bin" else if String.eqb v "CNI_ARGS" then "K=V;DEBUG=" ++ file else "".
Definition N_env (cmd file : string) : plugin_env :=
  {| pe_getenv := N_vars cmd file; pe_stdin := Some N_data;
     pe_ns_at := fun p => if String.eqb p "/ns/own" then Some 1%N else if String.eqb p "/ns/other" then Some 2%N else None; pe_own_ns := Some 1%N |}.
Definition N_args (file : string) : cmd_args := args_of (N_env "ADD" file) N_data.
Definition N_prev : option result := Eval vm_compute in
  match load_conf N_data with Ok (_, r) => r | _ => None end.
Definition N_zero : noop_debug := {| nd_result := ""; nd_error := ""; nd_code := 0; nd_stderr := ""; nd_versions := None; nd_exit := 0; nd_command := ""; nd_args := no_args |}.
(** /d/a: pass the previous result on; /d/b: an error; /d/c: some text, then exit with code 3. *)
Definition N_world : world :=
  [("/d/a", "{""ReportResult"":""PASSTHROUGH"",""ReportStderr"":""well""}"); ("/d/b", "{""ReportError"":""no"",""ReportErrorCode"":7,""ReportVersionSupport"":[""1.0.0""]}");
   ("/d/c", "{""ReportResult"":""text"",""ExitWithCode"":3}"); ("/d/log", "")].
Lemma N_asked cmd file : (file = "/d/a" \/ file = "/d/b" \/ file = "/d/c") -> well_formed_text cmd -> well_asked cmd (N_args file) file "/d/log" "1.0.0" N_prev.
Proof.
  intros F W. destruct (obind (parse N_data) (decode_struct noop_conf_step noop_conf_zero)) as [c|] eqn:D; [|exfalso; revert D; vm_compute; discriminate].
  assert (X : nc_log c = "/d/log" /\ pc_version (nc_conf c) = "1.0.0" /\ parse_prev_result (nc_conf c) = Ok N_prev).
  { assert (Y : option_map (fun c => (nc_log c, pc_version (nc_conf c), parse_prev_result (nc_conf c))) (obind (parse N_data) (decode_struct noop_conf_step noop_conf_zero)) = Some ("/d/log", "1.0.0", Ok N_prev)) by (vm_compute; reflexivity).
    rewrite D in Y. cbn [option_map] in Y. injection Y as Y1 Y2 Y3. auto. }
  destruct X as (X1 & X2 & X3). rewrite <- X1 at 1. rewrite <- X2.
  assert (N : parse N_data <> Some JNull) by (vm_compute; discriminate).
  apply well_asked_if with (l := [("K", "V"); ("DEBUG", file)]); [| |exact N| |exact X3|reflexivity| |].
  - destruct F as [->|[->| ->]]; (split; [exact W|]); repeat split; apply ascii_wft; vm_compute; reflexivity.
  - exact D.
  - destruct F as [->|[->| ->]]; (split; [|reflexivity]); repeat constructor; cbn; unfold lacks; cbn; intuition discriminate.
  - destruct F as [->|[->| ->]]; discriminate.
  - rewrite X1. destruct F as [->|[->| ->]]; discriminate.
Qed.
Definition N_b : noop_debug := {| nd_result := ""; nd_error := "no"; nd_code := 7; nd_stderr := ""; nd_versions := Some ["1.0.0"]; nd_exit := 0; nd_command := ""; nd_args := no_args |}.
Definition N_a : noop_debug := {| nd_result := "PASSTHROUGH"; nd_error := ""; nd_code := 0; nd_stderr := "well"; nd_versions := None; nd_exit := 0; nd_command := ""; nd_args := no_args |}.
Definition N_c : noop_debug := {| nd_result := "text"; nd_error := ""; nd_code := 0; nd_stderr := ""; nd_versions := None; nd_exit := 3; nd_command := ""; nd_args := no_args |}.
Lemma N_controls : controls N_world "/d/a" N_a /\ controls N_world "/d/b" N_b /\ controls N_world "/d/c" N_c /\ logged N_world "/d/log" [].
Proof.
  split; [|split; [|split]].
  1-3: eapply controls_if; [reflexivity|vm_compute; reflexivity|eexists; split; vm_compute; reflexivity].
  exists "". split; [reflexivity|]. left. auto.
Qed.
(** An ADD that is to pass the previous result on and a DEL that is to fail, one after the other. *)
Example C88_nonvacuous : exists w' e1 e2, sequence [("ADD", N_args "/d/a"); ("DEL", N_args "/d/b")] N_world w' [e1; e2] /\
  Forall (workable N_world "/d/log") [("ADD", N_args "/d/a"); ("DEL", N_args "/d/b")] /\ logged N_world "/d/log" [] /\
  logged w' "/d/log" [{| le_command := "ADD"; le_args := N_args "/d/a" |}; {| le_command := "DEL"; le_args := N_args "/d/b" |}] /\
  controls w' "/d/a" (asked N_a "ADD" (N_args "/d/a")) /\ controls w' "/d/b" (asked N_b "DEL" (N_args "/d/b")) /\
  (exists out j r, N_prev = Some r /\ e1 = NDone out "well" None /\ parse out = Some j /\ says_result j r) /\
  e2 = NDone "" "" (Some (ECNI 7 "no" "")).
Proof.
  destruct N_controls as (CA & CB & CC & LG). assert (WA : well_formed_text "ADD") by (apply ascii_wft; reflexivity). assert (WD : well_formed_text "DEL") by (apply ascii_wft; reflexivity).
  pose proof (N_asked "ADD" "/d/a" (or_introl eq_refl) WA) as QA. pose proof (N_asked "DEL" "/d/b" (or_intror (or_introl eq_refl)) WD) as QB.
  assert (F : Forall (workable N_world "/d/log") [("ADD", N_args "/d/a"); ("DEL", N_args "/d/b")]).
  { constructor; [exists "/d/a", "1.0.0", N_prev, N_a; auto|]. constructor; [exists "/d/b", "1.0.0", N_prev, N_b; auto|constructor]. }
  destruct (interp X_oracle 0 (debug_behavior (N_args "/d/a") "ADD") N_world) as [[e1 w1] t1] eqn:E1. pose proof (interp_run _ _ _ _ _ _ _ X_tame E1) as R1. clear E1.
  destruct (interp X_oracle 0 (debug_behavior (N_args "/d/b") "DEL") w1) as [[e2 w2] t2] eqn:E2. pose proof (interp_run _ _ _ _ _ _ _ X_tame E2) as R2. clear E2.
  exists w2, e1, e2. assert (S : sequence [("ADD", N_args "/d/a"); ("DEL", N_args "/d/b")] N_world w2 [e1; e2]) by (repeat (econstructor; try eassumption)).
  assert (LQ : "/d/log" <> "" -> exists l, logged N_world "/d/log" l) by eauto. assert (NQ : "/d/log" <> "") by discriminate.
  split; [exact S|]. split; [exact F|]. split; [exact LG|]. split; [exact (proj1 (C88_log _ _ _ _ _ _ S NQ LG F))|].
  split; [|split; [|split]].
  - apply (C88_last [] "ADD" (N_args "/d/a") [("DEL", N_args "/d/b")] N_world w2 [e1; e2] "/d/a" "/d/log" "1.0.0" N_prev N_a S LQ F QA CA).
    constructor; [|constructor]. cbn [fst snd]. intros ver prev (_ & o & _ & (l & A & L) & _). destruct QB as (_ & o' & _ & (l' & A' & L') & _).
    destruct (extra_pairs _ _ A) as (m & M & G). destruct (extra_pairs _ _ A') as (m' & M' & G').
    assert (X : match parse_extra_args (ca_args (N_args "/d/b")) with Ok m => sget "DEBUG" m | _ => None end = Some "/d/b") by (vm_compute; reflexivity).
    rewrite M in X. cbv iota beta in X. rewrite G in X. rewrite X in L. discriminate.
  - exact (C88_last [("ADD", N_args "/d/a")] "DEL" (N_args "/d/b") [] N_world w2 [e1; e2] "/d/b" "/d/log" "1.0.0" N_prev N_b S LQ F QB CB (Forall_nil _)).
  - assert (P : exists r, N_prev = Some r) by (eexists; reflexivity). destruct P as [r P].
    assert (V : result_version r = "1.0.0") by (assert (Y : option_map result_version N_prev = Some "1.0.0") by reflexivity; rewrite P in Y; now injection Y).
    rewrite P in QA. rewrite <- V in QA at 1.
    destruct (C88_passthrough "ADD" (N_args "/d/a") "/d/a" "/d/log" r N_a _ _ _ _ R1 QA CA LQ eq_refl eq_refl) as (out & j & FI & PO & _ & SR).
    + injection P as <-. split; [|cbn; auto]. split; [constructor|]. split.
      * constructor; [|constructor]. split; [exact I|]. split; [|now left]. apply (pf4 [10; 0; 0; 2]%N 24%N); [now apply X_octets|discriminate].
      * split; [constructor|]. repeat split; constructor.
    + exists out, j, r. destruct FI as [[_ FI]|[FI _]]; [|cbn in FI; lia]. auto.
  - assert (CB1 : exists d, controls w1 "/d/b" d /\ nd_error d = "no" /\ nd_code d = 7%N /\ nd_stderr d = "").
    { destruct (controls_kept _ _ _ _ _ _ _ _ _ _ _ "/d/b" N_b R1 QA CA LQ CB) as [[_ K]|[K _]]; [intros _; discriminate|exists N_b; auto|discriminate]. }
    destruct CB1 as (d & CB1 & D1 & D2 & D3).
    assert (L1 : "/d/log" <> "" -> exists l, logged w1 "/d/log" l) by (eapply log_along; [exact R1|exists "/d/a", "1.0.0", N_prev, N_a; auto|exact LQ]).
    destruct (C88_reports _ _ _ _ _ _ _ _ _ _ _ R2 QB CB1 L1) as (Y & _). destruct Y as (code & _ & Y & ->); [congruence|]. rewrite D1, D3, (Y ltac:(congruence)), D2. reflexivity.
Qed.
(** Two runs at the same time share a log at their peril: both succeed, and the log has one entry. *)
Theorem C88_lost : exists tr w' e1 e2,
  interleaves false [debug_behavior (N_args "/d/a") "ADD"; debug_behavior (N_args "/d/c") "DEL"] N_world tr w' [Ret e1; Ret e2] /\
  well_asked "ADD" (N_args "/d/a") "/d/a" "/d/log" "1.0.0" N_prev /\ well_asked "DEL" (N_args "/d/c") "/d/c" "/d/log" "1.0.0" N_prev /\
  controls N_world "/d/a" N_a /\ controls N_world "/d/c" N_c /\ logged N_world "/d/log" [] /\
  (exists out, e1 = NDone out "well" None) /\ e2 = NExit "text" "" 3 /\
  logged w' "/d/log" [{| le_command := "DEL"; le_args := N_args "/d/c" |}].
Proof.
  destruct N_controls as (CA & CB & CC & LG). assert (WA : well_formed_text "ADD") by (apply ascii_wft; reflexivity). assert (WD : well_formed_text "DEL") by (apply ascii_wft; reflexivity).
  pose proof (N_asked "ADD" "/d/a" (or_introl eq_refl) WA) as QA. pose proof (N_asked "DEL" "/d/c" (or_intror (or_intror eq_refl)) WD) as QC.
  pose (good := fun x : list (nat * event) * world * list (prog noop_end) =>
    match x with (_, w', [Ret (NDone _ err None); Ret e2]) => Some (err, e2,
       match sget "/d/log" w' with Some data => unmarshal_log data | None => None end,
       match sget "/d/log" w' with Some data => option_map plainb (parse data) | None => None end) | _ => None end).
  pose (x := weave X_oracle [0; 0; 0; 0; 1; 1; 1; 1; 0; 0; 1; 1] [debug_behavior (N_args "/d/a") "ADD"; debug_behavior (N_args "/d/c") "DEL"] N_world).
  assert (K : good x = Some ("well", NExit "text" "" 3, Some [{| le_command := "DEL"; le_args := N_args "/d/c" |}], Some true)) by (vm_compute; reflexivity).
  assert (R : interleaves false [debug_behavior (N_args "/d/a") "ADD"; debug_behavior (N_args "/d/c") "DEL"] N_world (fst (fst x)) (snd (fst x)) (snd x))
    by (apply (weave_interleaves _ _ X_tame _ _ _ _ _ _ (eq_trans (surjective_pairing x) (f_equal (fun y => (y, snd x)) (surjective_pairing (fst x)))))).
  revert K R. generalize x. intros [[tr w'] qs] K R. cbn [fst snd] in R. unfold good in K. clear x good.
  destruct qs as [|[[out err [x|]|o1 r1 c1|r1]|o k] [|[e2|o2 k2] [|q3 qs]]]; try discriminate K. injection K as K1 K2 K4 K5.
  destruct (sget "/d/log" w') as [data|] eqn:K3; [|discriminate K4].
  exists tr, w', (NDone out err None), e2. split; [exact R|]. split; [exact QA|]. split; [exact QC|]. split; [exact CA|]. split; [exact CC|]. split; [exact LG|].
  split; [rewrite K1; eauto|]. split; [exact K2|]. eapply logged_if; [exact K3|exact K4|]. destruct (parse data) as [j|]; [|discriminate K5]. cbn [option_map] in K5. injection K5 as K5. eauto.
Qed.
(** The hypotheses of the theorems about the process: the DEL as a process, at the one version the
    control file offers. *)
Example C88_process_nonvacuous : exists l, offers (pe_getenv (N_env "DEL" "/d/b") "CNI_ARGS") N_b l /\
  acceptable_request (N_env "DEL" "/d/b") l N_data /\ Forall well_formed_version l /\ arguments (N_env "DEL" "/d/b") N_data (N_args "/d/b") /\
  well_asked (command (N_env "DEL" "/d/b")) (N_args "/d/b") "/d/b" "/d/log" "1.0.0" N_prev /\ controls N_world "/d/b" N_b /\
  exists tr w' res, runs false (noop_main (N_env "DEL" "/d/b")) N_world tr w' res /\
  fst (exec_plugin (fun _ => process_outcome res)) = Err (ECNI 7 "no" "").
Proof.
  assert (WD : well_formed_text "DEL") by (apply ascii_wft; reflexivity).
  pose proof (N_asked "DEL" "/d/b" (or_intror (or_introl eq_refl)) WD) as QB. destruct N_controls as (_ & CB & _ & LG).
  assert (O : offers (pe_getenv (N_env "DEL" "/d/b") "CNI_ARGS") N_b ["1.0.0"]) by (right; right; split; [discriminate|reflexivity]).
  assert (A : acceptable_request (N_env "DEL" "/d/b") ["1.0.0"] N_data).
  { split; [reflexivity|]. split; [intros _; split; [apply validate_container_id_ok|apply validate_interface_name_ok]; reflexivity|]. split; [reflexivity|]. split.
    - exists "net1". split; [apply dec_name_iff; [discriminate|vm_compute; reflexivity]|apply validate_network_name_ok; reflexivity].
    - exists "1.0.0". split; [apply C40_conf_version_exact; [vm_compute; discriminate|vm_compute; reflexivity]|]. split; [now left|left; now right]. }
  assert (W : Forall well_formed_version ["1.0.0"]) by (constructor; [exists (1, 0, 0)%Z; apply parse_version_spec; reflexivity|constructor]).
  assert (AR : arguments (N_env "DEL" "/d/b") N_data (N_args "/d/b")) by (apply arguments_iff; reflexivity).
  exists ["1.0.0"]. split; [exact O|]. split; [exact A|]. split; [exact W|]. split; [exact AR|]. split; [exact QB|]. split; [exact CB|].
  destruct (interp X_oracle 0 (noop_main (N_env "DEL" "/d/b")) N_world) as [[r w1] t1] eqn:E1. pose proof (interp_run _ _ _ _ _ _ _ X_tame E1) as R1. clear E1.
  exists t1, w1, r. split; [exact R1|]. eapply (C88_told _ _ _ _ _ _ _ N_b); try eassumption; [intros _; eauto|discriminate].
Qed.
