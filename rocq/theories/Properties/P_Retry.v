(** C85: DEL can be repeated until it works. *)
From Coq Require Import String Ascii List Arith NArith ZArith Bool Lia.
From Verif Require Import Model.GoStr Model.Errors Model.Args Model.Version Model.Path Model.Json Model.GoJson Model.Types Model.Conf Model.Invoke Model.Prog Model.Api
  Spec.PathSpec Spec.VersionSpec Spec.RunSpec Spec.CacheSpec Spec.HistSpec Spec.MapSpec Spec.TouchSpec Spec.RestartSpec Spec.RetrySpec
  Proofs.StrP Proofs.VersionP Proofs.ProgP Proofs.ApiP Proofs.VerbP Proofs.ConfineP Proofs.ListP Proofs.HistP Proofs.MapP Proofs.TouchP Proofs.CrashP
  Proofs.PathP Proofs.TypesP Properties.P_Api Properties.P_Cache Properties.P_Restart.
Import ListNotations.
Open Scope nat_scope.
Open Scope string_scope.

(** *** One attempt, however it ends *)
Lemma crash_verb fl verb c name ver net prev rt w tr w' : crashes fl (verb_network verb c name ver net prev rt) w tr w' ->
  calls tr = [] \/ exists x, calls tr = [x] /\ request c verb name ver rt net prev tr x.
Proof.
  intros H. unfold verb_network in H. apply crash_rbindp in H as [H|(t1 & w1 & path & t2 & R & C & ->)].
  - left. unfold find_plugin in H. inversion H; subst; [reflexivity|].
    match goal with X : crashes _ (Ret _) _ _ _ |- _ => apply crash_ret in X as [-> ->] end.
    match goal with X : answer _ _ _ _ _ |- _ => inversion X; subst; clear X end; reflexivity.
  - apply runs_find in R as (-> & -> & _). apply crash_rbindp in C as [C|(t3 & w1 & conf & t4 & R & C & ->)]; [apply crash_ret in C as [-> ->]; now left|].
    apply runs_ret in R as (-> & -> & B). cbn [app] in *. symmetry in B.
    assert (K : forall t, (exists r, t = [(OpEnviron, REnv r)]) \/ t = [] \/
       (exists env a, t = [(OpEnviron, REnv env); (OpExec path (pg_bytes conf) (as_env env (api_args c verb rt)), RStr a)]) ->
       calls ((OpFind (pc_type (pg_conf net)) (c_path c), RStr (Ok path)) :: t) = [] \/
       exists x, calls ((OpFind (pc_type (pg_conf net)) (c_path c), RStr (Ok path)) :: t) = [x] /\
         request c verb name ver rt net prev ((OpFind (pc_type (pg_conf net)) (c_path c), RStr (Ok path)) :: t) x).
    { intros t [(r & ->)|[->|(env & a & ->)]]; [now left|now left|right]. eexists. split; [reflexivity|].
      split; [apply protocol_env_as_env|]. split; [now left|]. exists conf. auto. }
    apply K. clear K. unfold exec_plugin_without_result in C. apply crash_rbindp in C as [C|(t5 & w1 & o & t6 & R & C & ->)].
    + unfold exec_with_args, get_environ, run_plugin in C. cbn [bind] in C. inversion C; subst; [now right; left|].
      match goal with X : answer _ _ OpEnviron _ _ |- _ => inversion X; subst; clear X end. cbn [bind] in *.
      match goal with X : crashes _ (Do (OpExec _ _ _) _) _ _ _ |- _ => inversion X; subst; clear X end; [left; eauto|].
      match goal with X : crashes _ (Ret _) _ _ _ |- _ => apply crash_ret in X as [-> ->] end.
      match goal with X : answer _ _ (OpExec _ _ _) _ _ |- _ => inversion X; subst; clear X end. right; right; eauto.
    + apply runs_exec_with_args in R as (env & -> & -> & _). apply crash_ret in C as [-> ->]. right; right. eexists env, _. reflexivity.
Qed.
Lemma asked_first c verb name ver rt net nets prev tr x : calls tr = [x] -> request c verb name ver rt net prev tr x ->
  asked_in_order c verb name ver rt (net :: nets) prev tr.
Proof.
  intros C Q. unfold asked_in_order. rewrite C. split; [|cbn; intros; lia].
  intros [|i] y Y; [injection Y as <-; exists net; auto|destruct i; discriminate].
Qed.
Lemma crash_del_loop fl c name ver prev rt : forall nets w tr w', crashes fl (del_loop c name ver nets prev rt) w tr w' ->
  asked_in_order c "DEL" name ver rt nets prev tr.
Proof.
  induction nets as [|net nets IH]; intros w tr w' H; cbn [del_loop] in H.
  - apply crash_ret in H as [-> _]. now apply asked_none.
  - apply crash_rbindp in H as [H|(t1 & w1 & [] & t2 & R & C & ->)].
    + apply crash_bind in H as [H|(t1 & w1 & r & t2 & R & C & ->)].
      * apply crash_verb in H as [H|(x & C & Q)]; [now apply asked_none|eapply asked_first; eassumption].
      * apply crash_ret in C as [-> ->]. rewrite app_nil_r. apply runs_crashes in R. apply crash_verb in R as [H|(x & C & Q)]; [now apply asked_none|eapply asked_first; eassumption].
    + apply runs_pwrap in R as (r & R & E). destruct r as [u|e|]; try discriminate. destruct u.
      apply verb_network_inv in R as (-> & _ & [[_ X]|(x & C1 & Q & _ & E1)]); [now destruct X|].
      eapply asked_cons; [exact C1|exact Q| |eapply IH; exact C]. symmetry in E1. now apply rmap_tt_ok in E1.
Qed.
Lemma asked_around c verb name ver rt nets prev a tr b : calls a = [] -> calls b = [] -> asked_in_order c verb name ver rt nets prev tr ->
  asked_in_order c verb name ver rt nets prev (a ++ tr ++ b)%list.
Proof.
  intros A B (H1 & H2). unfold asked_in_order. assert (E : calls (a ++ tr ++ b)%list = calls tr) by (rewrite !calls_app, A, B; cbn; now rewrite app_nil_r).
  rewrite E. split; [|exact H2]. intros i x X. destruct (H1 i x X) as (net & N & Q). exists net. split; [exact N|]. now apply request_app_r, request_app_l.
Qed.
Lemma confirmed_around n a tr b : calls a = [] -> calls b = [] -> all_succeeded n tr -> all_succeeded n (a ++ tr ++ b)%list.
Proof.
  intros A B H. unfold all_succeeded. assert (E : calls (a ++ tr ++ b)%list = calls tr) by (rewrite !calls_app, A, B; cbn; now rewrite app_nil_r). now rewrite E.
Qed.
Lemma crash_still fl A (p : prog A) w tr w' : within (fun o => forall q s e, o <> OpExec q s e) p -> crashes fl p w tr w' -> calls tr = [].
Proof.
  intros Q H. revert Q. induction H as [p w|p d d1 k w PR|o k w r w1 tr w2 An C IH]; intros Q; [reflexivity|reflexivity|].
  inversion Q as [|? ? O F]; subst. unfold calls in *. cbn [flat_map]. rewrite IH by apply F.
  destruct o; cbn; try reflexivity. now destruct (O path stdin env).
Qed.
Lemma still_cached c name ver rt : within (fun o => forall q s e, o <> OpExec q s e) (get_cached_result c name ver rt).
Proof. apply wi_cached. discriminate. Qed.
Lemma still_remove fl c name rt w tr w' : crashes fl (cache_del c name rt) w tr w' -> calls tr = [].
Proof.
  intros H. unfold cache_del in H. destruct (cache_path_cases c name rt) as [[N E]|[N [e E]]]; rewrite E in H.
  2:{ now apply crash_ret in H as [-> _]. }
  apply crash_bind in H as [H|(t1 & w1 & a & t2 & R & C & ->)].
  - unfold remove_file in H. inversion H; subst; [reflexivity|].
    match goal with X : crashes _ (Ret _) _ _ _ |- _ => apply crash_ret in X as [-> ->] end. reflexivity.
  - apply crash_ret in C as [-> ->]. apply runs_remove in R as (-> & _). reflexivity.
Qed.
Lemma loop_end fl c name ver nets prev rt w tr w' : crashes fl (rbindp (del_loop c name ver nets prev rt) (fun _ => bind (cache_del c name rt) (fun _ => Ret (Ok tt)))) w tr w' ->
  asked_in_order c "DEL" name ver rt nets prev tr /\
  (w' = w \/ (all_succeeded (List.length nets) tr /\ named name rt /\ w' = sdel (entry_path c name rt) w)).
Proof.
  intros C. apply crash_rbindp in C as [C|(t1 & w1 & [] & t2 & R & C & ->)].
  - split; [eapply crash_del_loop; exact C|left]. eapply crash_quiet; [apply quiet_del|exact C].
  - destruct (del_loop_inv _ _ _ _ _ _ _ _ _ _ _ R) as (-> & _ & A & B & _).
    assert (X : crashes fl (cache_del c name rt) w t2 w').
    { apply crash_bind in C as [C|(v1 & w2 & y & v2 & R3 & C & ->)]; [exact C|]. apply crash_ret in C as [-> ->]. rewrite app_nil_r. now apply runs_crashes in R3. }
    pose proof (still_remove _ _ _ _ _ _ _ X) as T. split; [apply (asked_around _ _ _ _ _ _ _ [] t1 t2 eq_refl T A)|].
    apply crash_remove in X as [->|[N ->]]; [now left|right]. split; [|auto]. apply (confirmed_around _ [] t1 t2 eq_refl T). now apply B.
Qed.
Lemma recalls_version v file prev : recalls v file prev -> well_formed_version v.
Proof. intros [((u & V & _) & _)|((u & V & _) & _)]; now exists u. Qed.
Lemma one_attempt fl c l rt w tr w' prev : crashes fl (del_network_list c l rt) w tr w' -> named (nl_name l) rt ->
  recalls (nl_version l) (sget (entry_path c (nl_name l) rt) w) prev ->
  (exists p, (p = prev \/ (fl = true /\ p = None)) /\ asks_to_delete c l rt p tr) /\
  (w' = w \/ (confirmed l tr /\ w' = sdel (entry_path c (nl_name l) rt) w)).
Proof.
  intros H N RC. unfold asks_to_delete, confirmed. rewrite <- (rev_length (nl_plugins l)). set (nets := rev (nl_plugins l)) in *. unfold del_network_list in H. fold nets in H.
  assert (NIL : calls tr = [] -> exists p, (p = prev \/ (fl = true /\ p = None)) /\ asked_in_order c "DEL" (nl_name l) (nl_version l) rt nets p tr).
  { intros E. exists prev. split; [now left|now apply asked_none]. }
  apply crash_rbindp in H as [H|(t1 & w1 & g & t2 & R & C & ->)]; [apply crash_ret in H as [-> ->]; auto|].
  apply runs_ret in R as (-> & -> & G). cbn [app] in *.
  destruct (gte_iff (nl_version l) "0.4.0" _ means_040) as (GT & GF & _).
  destruct g.
  - assert (AL : at_least (nl_version l) (0, 4, 0)%Z) by (apply GT; now symmetry).
    destruct RC as [(BL & _)|(_ & RR)]; [destruct (at_least_not_below _ _ AL BL)|].
    assert (K : cached_in c (nl_name l) (nl_version l) rt w = Ok prev) by (rewrite cached_in_named; assumption).
    apply crash_rbindp in C as [C|(t3 & w1 & cached & t4 & R & C & ->)].
    + assert (X : calls t2 = [] /\ w' = w).
      { apply crash_bind in C as [C|(u1 & w1 & r & u2 & R & C & ->)].
        - split; [eapply crash_still; [apply still_cached|exact C]|eapply crash_quiet; [apply quiet_cached|exact C]].
        - apply get_cached_inv in R as (-> & _ & CC & D). rewrite K in D.
          assert (exists x, r = Ok x) as (x & ->) by (destruct D as [->|(_ & _ & ->)]; eauto). apply crash_ret in C as [-> ->]. now rewrite calls_app, CC. }
      destruct X as [X ->]. auto.
    + assert (X : calls t3 = [] /\ w1 = w /\ (cached = prev \/ (fl = true /\ cached = None))).
      { apply runs_bind in R as (u1 & w2 & r & u2 & R1 & R2 & ->). apply get_cached_inv in R1 as (-> & _ & CC & D). rewrite K in D.
        destruct D as [->|(F & _ & ->)]; apply runs_ret in R2 as (-> & -> & E); injection E as ->; rewrite calls_app, CC; auto. }
      destruct X as (X & -> & P). apply loop_end in C as [A B]. split.
      * exists cached. split; [exact P|]. rewrite <- (app_nil_r t4). now apply asked_around.
      * destruct B as [->|(B & _ & ->)]; [now left|right]. split; [|reflexivity]. rewrite <- (app_nil_r t4). now apply confirmed_around.
  - assert (BL : below (nl_version l) (0, 4, 0)%Z) by (apply GF; now symmetry).
    destruct RC as [(_ & ->)|(AL & _)]; [|destruct (at_least_not_below _ _ AL BL)].
    apply crash_rbindp in C as [C|(t3 & w1 & cached & t4 & R & C & ->)]; [apply crash_ret in C as [-> ->]; auto|].
    apply runs_ret in R as (-> & -> & E). injection E as ->. cbn [app] in *. apply loop_end in C as [A B]. split; [exists None; auto|].
    destruct B as [->|(B & _ & ->)]; auto.
Qed.

(** *** Attempts *)
Lemma recalls_gone v file prev : recalls v file prev -> recalls v None None.
Proof. intros [(B & _)|(A & _)]; [left|right]; auto. Qed.
Lemma asks_dec l tr : confirmed l tr \/ ~ confirmed l tr.
Proof.
  unfold confirmed, all_succeeded. destruct (Nat.eq_dec (List.length (calls tr)) (List.length (nl_plugins l))) as [E|E]; [|right; intros [X _]; contradiction].
  assert (D : forall x, succeeded x \/ ~ succeeded x).
  { intros x. unfold succeeded. destruct (call_answer x) as [o|e|]; [left; eauto|right; intros [o X]; discriminate|right; intros [o X]; discriminate]. }
  induction (calls tr) as [|x t IH] in E |- *.
  - left. split; [exact E|constructor].
  - assert (F : Forall succeeded (x :: t) \/ ~ Forall succeeded (x :: t)).
    { clear IH E. induction (x :: t) as [|y u IH]; [left; constructor|]. destruct (D y) as [Y|Y], IH as [F|F].
      1: left; now constructor. all: right; rewrite Forall_cons_iff; intros [P Q]; contradiction. }
    destruct F as [F|F]; [left; auto|right; intros [_ X]; contradiction].
Qed.
Lemma gone_stays fl c l rt w tr w' prev : crashes fl (del_network_list c l rt) w tr w' -> named (nl_name l) rt -> recalls (nl_version l) None prev ->
  sget (entry_path c (nl_name l) rt) w = None -> sget (entry_path c (nl_name l) rt) w' = None.
Proof.
  intros H N RC E. rewrite <- E in RC. destruct (one_attempt _ _ _ _ _ _ _ _ H N RC) as (_ & [->|(_ & ->)]); [exact E|]. rewrite sget_sdel. now rewrite String.eqb_refl.
Qed.

(** Until every plugin has confirmed, the record stays, and every attempt tells the plugins the
    recorded result.  [p] differs from it only if the file could not be read. *)
Theorem C85_until_confirmed : forall fl c l rt w trs w' prev, attempts fl c l rt w trs w' -> named (nl_name l) rt ->
  recalls (nl_version l) (sget (entry_path c (nl_name l) rt) w) prev ->
  (unconfirmed l trs (List.length trs) -> sget (entry_path c (nl_name l) rt) w' = sget (entry_path c (nl_name l) rt) w) /\
  (sget (entry_path c (nl_name l) rt) w' = sget (entry_path c (nl_name l) rt) w \/ sget (entry_path c (nl_name l) rt) w' = None) /\
  (forall i tr, nth_error trs i = Some tr ->
     exists p, asks_to_delete c l rt p tr /\ (p = prev \/ p = None) /\ (unconfirmed l trs i -> fl = false -> p = prev)).
Proof.
  intros fl c l rt w trs w' prev H N. revert prev. induction H as [w w' E|w w0 tr w1 trs w2 E C H IH]; intros prev RC.
  - split; [auto|]. split; [now left|]. intros [|i] tr; discriminate.
  - rewrite <- E in RC. destruct (one_attempt _ _ _ _ _ _ _ _ C N RC) as ((p & P & A) & W). rewrite <- E.
    assert (P' : p = prev \/ p = None) by (destruct P as [|[_ ]]; auto).
    destruct W as [->|(CF & ->)].
    + destruct (IH prev RC) as (I1 & I2 & I3). split; [|split].
      * intros U. apply I1. intros j t L X. apply (U (S j)); [cbn; lia|exact X].
      * exact I2.
      * intros [|i] t T; cbn in T.
        -- injection T as <-. exists p. split; [exact A|]. split; [exact P'|]. intros _ F. destruct P as [|[X _]]; [assumption|congruence].
        -- destruct (I3 i t T) as (q & Q1 & Q2 & Q3). exists q. split; [exact Q1|]. split; [exact Q2|]. intros U F. apply Q3; [|exact F].
           intros j t' L X. apply (U (S j)); [lia|exact X].
    + assert (G : sget (entry_path c (nl_name l) rt) (sdel (entry_path c (nl_name l) rt) w0) = None) by (rewrite sget_sdel; now rewrite String.eqb_refl).
      assert (RC' : recalls (nl_version l) (sget (entry_path c (nl_name l) rt) (sdel (entry_path c (nl_name l) rt) w0)) None) by (rewrite G; eapply recalls_gone; exact RC).
      destruct (IH None RC') as (I1 & I2 & I3). split; [|split].
      * intros U. exfalso. apply (U 0 tr); [cbn; lia|reflexivity|exact CF].
      * right. destruct I2 as [I2|I2]; congruence.
      * intros [|i] t T; cbn in T.
        -- injection T as <-. exists p. split; [exact A|]. split; [exact P'|]. intros _ F. destruct P as [|[X _]]; [assumption|congruence].
        -- destruct (I3 i t T) as (q & Q1 & Q2 & _). exists q. split; [exact Q1|]. split; [destruct Q2; auto|]. intros U. exfalso. apply (U 0 tr); [lia|reflexivity|exact CF].
Qed.

(** However many attempts failed or were cut short before: when one reports success, there was an
    attempt in which all plugins of the network confirmed, in reverse order, the deletion of what was
    recorded; the record is gone. *)
Theorem C85_success : forall c l rt w trs w1 tr w2 prev, attempts false c l rt w trs w1 -> named (nl_name l) rt ->
  recalls (nl_version l) (sget (entry_path c (nl_name l) rt) w) prev ->
  runs false (del_network_list c l rt) w1 tr w2 (Ok tt) ->
  (exists t, In t (trs ++ [tr])%list /\ confirmed l t /\ asks_to_delete c l rt prev t) /\
  confirmed l tr /\ sget (entry_path c (nl_name l) rt) w2 = None.
Proof.
  intros c l rt w trs w1 tr w2 prev H N RC R.
  assert (SE : at_least (nl_version l) (0, 4, 0)%Z -> safe_entry c (nl_name l) (nl_version l) rt w1).
  { intros AL. destruct (C85_until_confirmed _ _ _ _ _ _ _ _ H N RC) as (_ & G & _). unfold safe_entry.
    destruct G as [-> | ->]; [|discriminate]. destruct RC as [(B & _)|(_ & ->)]; [destruct (at_least_not_below _ _ AL B)|discriminate]. }
  destruct (C16_del_reverse_with_cached_result _ _ _ _ _ _ _ _ R (recalls_version _ _ _ RC) SE) as (q & _ & OK & _).
  assert (CF : confirmed l tr) by now apply OK.
  assert (H' : attempts false c l rt w (trs ++ [tr])%list w2).
  { apply runs_crashes in R. clear -H R. induction H; [cbn [app]; econstructor; [eassumption|exact R|now constructor]|].
    cbn [app]. econstructor; [eassumption|eassumption|]. now apply IHattempts. }
  split; [|split; [exact CF|]].
  - destruct (C85_until_confirmed _ _ _ _ _ _ _ _ H' N RC) as (_ & _ & A).
    assert (F : exists i t, nth_error (trs ++ [tr])%list i = Some t /\ confirmed l t /\ unconfirmed l (trs ++ [tr])%list i).
    { assert (X : exists t, In t (trs ++ [tr])%list /\ confirmed l t) by (exists tr; split; [apply in_app_iff; right; now left|exact CF]).
      clear -X. induction (trs ++ [tr])%list as [|t ts IH]; [destruct X as (t & [] & _)|].
      destruct (asks_dec l t) as [Y|Y].
      - exists 0, t. split; [reflexivity|]. split; [exact Y|]. intros j u L. lia.
      - destruct X as (u & [->|I] & U); [contradiction|]. destruct IH as (i & v & V1 & V2 & V3); [now exists u|]. exists (S i), v. split; [exact V1|]. split; [exact V2|].
        intros [|j] x L X; [injection X as <-; exact Y|apply (V3 j); [lia|exact X]]. }
    destruct F as (i & t & T & C & U). exists t. split; [eapply nth_error_In; exact T|]. split; [exact C|].
    destruct (A i t T) as (p & P1 & _ & P3). now rewrite <- (P3 U eq_refl).
  - exact (C17_success_removes_the_entry _ _ _ _ _ _ R N).
Qed.

(** Attempts before the confirmation send each plugin the same input. *)
Theorem C85_same_requests : forall c l rt w trs w' prev, attempts false c l rt w trs w' -> named (nl_name l) rt ->
  recalls (nl_version l) (sget (entry_path c (nl_name l) rt) w) prev ->
  forall i j s t k x y, nth_error trs i = Some s -> nth_error trs j = Some t -> unconfirmed l trs i -> unconfirmed l trs j ->
    nth_error (calls s) k = Some x -> nth_error (calls t) k = Some y -> same_request x y.
Proof.
  intros c l rt w trs w' prev H N RC i j s t k x y I J U V X Y. destruct (C85_until_confirmed _ _ _ _ _ _ _ _ H N RC) as (_ & _ & A).
  destruct (A i s I) as (p & (P & _) & _ & P3), (A j t J) as (q & (Q & _) & _ & Q3). rewrite (P3 U eq_refl) in P. rewrite (Q3 V eq_refl) in Q.
  destruct (P k x X) as (n & N1 & (X1 & X2 & X3 & X4 & X5 & X6) & _ & (b & B1 & B2)), (Q k y Y) as (n' & N2 & (Y1 & Y2 & Y3 & Y4 & Y5 & Y6) & _ & (b' & B3 & B4)).
  rewrite N1 in N2. injection N2 as <-. rewrite B1 in B3. injection B3 as <-. split; [congruence|].
  intros z [<-|[<-|[<-|[<-|[<-|[<-|[]]]]]]]; congruence.
Qed.

(** Deleting what has no record (any more) asks every plugin again, with no previous result, and
    changes no file. *)
Theorem C85_again_after_deletion : forall fl c l rt w tr w', crashes fl (del_network_list c l rt) w tr w' -> named (nl_name l) rt ->
  well_formed_version (nl_version l) -> sget (entry_path c (nl_name l) rt) w = None ->
  asks_to_delete c l rt None tr /\ w' = w.
Proof.
  intros fl c l rt w tr w' H N WF E.
  assert (RC : recalls (nl_version l) (sget (entry_path c (nl_name l) rt) w) None).
  { rewrite E. destruct (gte_iff (nl_version l) "0.4.0" _ means_040) as (GT & GF & GE & GP). destruct (gte (nl_version l) "0.4.0") as [[|]|e|] eqn:G.
    - right. split; [now apply GT|reflexivity].
    - left. split; [now apply GF|reflexivity].
    - exfalso. destruct (proj1 GE); [eauto|exact WF].
    - now destruct GP. }
  destruct (one_attempt _ _ _ _ _ _ _ _ H N RC) as ((p & P & A) & W). split.
  - destruct P as [->|[_ ->]]; exact A.
  - destruct W as [->|(_ & ->)]; [reflexivity|now apply sdel_absent].
Qed.
(** An ADD that fails leaves no trace DEL could see. *)
Theorem C85_after_a_failed_add : forall c l rt w tr w1 r, runs false (add_network_list c l rt) w tr w1 r -> (forall v, r <> Ok v) -> w1 = w.
Proof.
  intros c l rt w tr w1 r R NO. apply add_network_list_inv in R as (tr1 & results & r1 & _ & _ & _ & _ & _ & _ & [(_ & _ & tr2 & r2 & _ & CA & E)|(_ & -> & _)]); [|reflexivity].
  assert (N2 : r2 <> Ok tt) by (intros ->; exact (NO _ E)). pose proof CA as CA'. apply cache_add_inv in CA as (_ & _ & _ & _ & _ & CH).
  exact (runs_same_world _ _ _ _ _ _ _ CA' (CH eq_refl N2)).
Qed.
(** The same for a single plugin configuration: whatever ends the attempt, the record goes only if
    the plugin, told the recorded result, confirmed. *)
Theorem C85_single_network : forall fl c net rt w tr w' prev, crashes fl (del_network c net rt) w tr w' -> named (pc_name (pg_conf net)) rt ->
  recalls (pc_version (pg_conf net)) (sget (entry_path c (pc_name (pg_conf net)) rt) w) prev ->
  (exists p, (p = prev \/ (fl = true /\ p = None)) /\
     asked_in_order c "DEL" (pc_name (pg_conf net)) (pc_version (pg_conf net)) rt [net] p tr) /\
  (w' = w \/ (all_succeeded 1 tr /\ w' = sdel (entry_path c (pc_name (pg_conf net)) rt) w)).
Proof.
  intros fl c net rt w tr w' prev H N RC. set (name := pc_name (pg_conf net)) in *. set (v := pc_version (pg_conf net)) in *.
  unfold del_network in H. fold name v in H. cbv zeta in H.
  assert (NIL : calls tr = [] -> exists p, (p = prev \/ (fl = true /\ p = None)) /\ asked_in_order c "DEL" name v rt [net] p tr).
  { intros E. exists prev. split; [now left|now apply asked_none]. }
  assert (REST : forall p w0 t, crashes fl (rbindp (verb_network "DEL" c name v net p rt) (fun _ => bind (cache_del c name rt) (fun _ => Ret (Ok tt)))) w0 t w' ->
    asked_in_order c "DEL" name v rt [net] p t /\ (w' = w0 \/ (all_succeeded 1 t /\ w' = sdel (entry_path c name rt) w0))).
  { intros p w0 t C. apply crash_rbindp in C as [C|(t1 & w1 & [] & t2 & R & C & ->)].
    - split.
      + apply crash_verb in C as [C|(x & C & Q)]; [now apply asked_none|eapply asked_first; eassumption].
      + left. eapply crash_quiet; [|exact C]. apply wi_verb. split; [split|]; reflexivity.
    - apply verb_network_inv in R as (-> & _ & [[_ X]|(x & C1 & Q & _ & E1)]); [now destruct X|].
      assert (X : crashes fl (cache_del c name rt) w0 t2 w').
      { apply crash_bind in C as [C|(v1 & w2 & y & v2 & R3 & C & ->)]; [exact C|]. apply crash_ret in C as [-> ->]. rewrite app_nil_r. now apply runs_crashes in R3. }
      pose proof (still_remove _ _ _ _ _ _ _ X) as T. split; [apply (asked_around _ _ _ _ _ _ _ [] t1 t2 eq_refl T); eapply asked_first; eassumption|].
      apply crash_remove in X as [->|[_ ->]]; [now left|right]. split; [|reflexivity]. apply (confirmed_around _ [] t1 t2 eq_refl T).
      unfold all_succeeded. rewrite C1. split; [reflexivity|]. constructor; [|constructor]. symmetry in E1. now apply rmap_tt_ok in E1. }
  apply crash_rbindp in H as [H|(t1 & w1 & g & t2 & R & C & ->)]; [apply crash_ret in H as [-> ->]; auto|].
  apply runs_ret in R as (-> & -> & G). cbn [app] in *.
  destruct (gte_iff v "0.4.0" _ means_040) as (GT & GF & _).
  destruct g.
  - assert (AL : at_least v (0, 4, 0)%Z) by (apply GT; now symmetry).
    destruct RC as [(BL & _)|(_ & RR)]; [destruct (at_least_not_below _ _ AL BL)|].
    assert (K : cached_in c name v rt w = Ok prev) by (rewrite cached_in_named; assumption).
    apply crash_rbindp in C as [C|(t3 & w1 & cached & t4 & R & C & ->)].
    + assert (X : calls t2 = [] /\ w' = w).
      { apply crash_bind in C as [C|(u1 & w1 & r & u2 & R & C & ->)].
        - split; [eapply crash_still; [apply still_cached|exact C]|eapply crash_quiet; [apply quiet_cached|exact C]].
        - apply get_cached_inv in R as (-> & _ & CC & D). apply crash_ret in C as [-> ->]. now rewrite calls_app, CC. }
      destruct X as [X ->]. auto.
    + apply runs_pwrap in R as (r & R & E). apply get_cached_inv in R as (-> & _ & X & D). rewrite K in D.
      assert (P : cached = prev \/ (fl = true /\ cached = None)) by (destruct D as [->|(F & _ & ->)]; cbn in E; injection E as ->; auto).
      apply REST in C as [A B]. split.
      * exists cached. split; [exact P|]. rewrite <- (app_nil_r t4). now apply asked_around.
      * destruct B as [->|(B & ->)]; [now left|right]. split; [|reflexivity]. rewrite <- (app_nil_r t4). now apply confirmed_around.
  - assert (BL : below v (0, 4, 0)%Z) by (apply GF; now symmetry).
    destruct RC as [(_ & ->)|(AL & _)]; [|destruct (at_least_not_below _ _ AL BL)].
    apply crash_rbindp in C as [C|(t3 & w1 & cached & t4 & R & C & ->)]; [apply crash_ret in C as [-> ->]; auto|].
    apply runs_ret in R as (-> & -> & E). injection E as ->. cbn [app] in *. apply REST in C as [A B]. split; [exists None; auto|exact B].
Qed.

(** An attempt is cut short after the first plugin, another fails at the second, the third succeeds. *)
Notation V_first := (cut X_oracle 4 0 (del_network_list X_cni X_list X_rt) X_world) (only parsing).
Notation V_second := (interp X_busy 0 (del_network_list X_cni X_list X_rt) X_world) (only parsing).
Notation V_third := (interp X_oracle 0 (del_network_list X_cni X_list X_rt) X_world) (only parsing).
Example C85_nonvacuous : exists t1 t2 t3 w3 prev,
  attempts false X_cni X_list X_rt X_world [t1; t2] X_world /\ named (nl_name X_list) X_rt /\
  recalls (nl_version X_list) (sget (entry_path X_cni (nl_name X_list) X_rt) X_world) (Some prev) /\
  List.length (calls t1) = 1 /\ List.length (calls t2) = 2 /\ unconfirmed X_list [t1; t2] 2 /\
  runs false (del_network_list X_cni X_list X_rt) X_world t3 w3 (Ok tt) /\ List.length (calls t3) = 2 /\ w3 = [].
Proof.
  destruct V_first as [t1 w1] eqn:E1. pose proof (cut_crashes _ _ X_tame _ _ _ _ _ _ E1) as C1.
  assert (T1 : t1 = fst V_first) by now rewrite E1. assert (W1 : w1 = snd V_first) by now rewrite E1. clear E1.
  destruct V_second as [[r2 w2] t2] eqn:E2. pose proof (interp_run _ _ _ _ _ _ _ X_busy_tame E2) as R2.
  assert (T2 : t2 = snd V_second) by now rewrite E2. assert (W2 : w2 = snd (fst V_second)) by now rewrite E2. clear E2.
  destruct V_third as [[r3 w3] t3] eqn:E3. pose proof (interp_run _ _ _ _ _ _ _ X_tame E3) as R3.
  assert (T3 : t3 = snd V_third) by now rewrite E3. assert (W3 : w3 = snd (fst V_third)) by now rewrite E3.
  assert (Q3 : r3 = fst (fst V_third)) by now rewrite E3. clear E3.
  assert (L1 : List.length (calls (fst V_first)) = 1) by (vm_compute; reflexivity). rewrite <- T1 in L1.
  assert (L2 : List.length (calls (snd V_second)) = 2) by (vm_compute; reflexivity). rewrite <- T2 in L2.
  assert (L3 : List.length (calls (snd V_third)) = 2) by (vm_compute; reflexivity). rewrite <- T3 in L3.
  assert (F2 : match nth_error (calls (snd V_second)) 1 with Some x => call_answer x | None => Ok "" end = Err (ECNI 11 "try again" "")) by (vm_compute; reflexivity).
  rewrite <- T2 in F2.
  assert (X1 : snd V_first = X_world) by (vm_compute; reflexivity). rewrite <- W1 in X1. rewrite X1 in C1.
  assert (X2 : snd (fst V_second) = X_world) by (vm_compute; reflexivity). rewrite <- W2 in X2. rewrite X2 in R2.
  assert (X3 : snd (fst V_third) = []) by (vm_compute; reflexivity). rewrite <- W3 in X3.
  assert (Y3 : fst (fst V_third) = Ok tt) by (vm_compute; reflexivity). rewrite <- Q3 in Y3. rewrite Y3 in R3.
  assert (RR : match reads_result "1.1.0" (sget (entry_path X_cni (nl_name X_list) X_rt) X_world) with Ok (Some _) => true | _ => false end = true) by (vm_compute; reflexivity).
  assert (VV : nl_version X_list = "1.1.0") by reflexivity.
  destruct (reads_result "1.1.0" (sget (entry_path X_cni (nl_name X_list) X_rt) X_world)) as [[prev|]| |] eqn:RE; try discriminate RR.
  exists t1, t2, t3, w3, prev. split; [|split; [|split; [|split; [exact L1|split; [exact L2|split; [|split; [exact R3|split; [exact L3|exact X3]]]]]]]].
  - econstructor; [reflexivity|exact C1|]. econstructor; [reflexivity|apply runs_crashes in R2; exact R2|]. now constructor.
  - repeat split; discriminate.
  - right. rewrite VV. split; [|exact RE]. destruct (gte_iff "1.1.0" "0.4.0" _ means_040) as (GT & _). apply GT. vm_compute. reflexivity.
  - assert (LP : List.length (nl_plugins X_list) = 2) by reflexivity. intros j t L T [A B]. rewrite LP in A. destruct j as [|[|j]]; [injection T as <-|injection T as <-|lia].
    + rewrite L1 in A. discriminate A.
    + destruct (nth_error (calls t2) 1) as [x|] eqn:X; [|discriminate F2]. rewrite Forall_forall in B. destruct (B x (nth_error_In _ _ X)) as [o O]. rewrite O in F2. discriminate F2.
Qed.

Print Assumptions C85_until_confirmed.
Print Assumptions C85_success.
Print Assumptions C85_same_requests.
Print Assumptions C85_again_after_deletion.
Print Assumptions C85_after_a_failed_add.
Print Assumptions C85_single_network.
