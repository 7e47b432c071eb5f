(** C90: cnitool add, check and del act on one attachment. *)
From Coq Require Import String Ascii List Bool Arith ZArith NArith Lia.
From Verif Require Import Model.GoStr Model.Errors Model.Json Model.GoJson Model.Version Model.Args Model.Types Model.Conf Model.Invoke Model.Prog Model.Api Model.Cnitool
  Spec.VersionSpec Spec.NameSpec Spec.JsonSpec Spec.ConfSpec Spec.TypesSpec Spec.RunSpec Spec.EnvSpec Spec.CacheSpec Spec.HistSpec Spec.MapSpec Spec.AgainSpec Spec.ToolSpec Spec.DocSpec Spec.PairSpec
  Proofs.StrP Proofs.JsonP Proofs.JsonRT Proofs.TypesP Proofs.GoJsonP Proofs.ConfP Proofs.LoadP Proofs.ProgP Proofs.ApiP Proofs.VerbP Proofs.LiveP Proofs.HistP Proofs.EntryP Proofs.ToolP
  Properties.P_Types Properties.P_Conf Properties.P_Api Properties.P_Cache Properties.P_Again Properties.P_Tool Properties.P_Doc.
Import ListNotations.
Open Scope nat_scope.
Open Scope string_scope.

(** *** What cnitool loads can be sent *)
Lemma rbind_ok A B (r : res A) (f : A -> res B) b : rbind r f = Ok b -> exists a, r = Ok a /\ f a = Ok b.
Proof. destruct r; try discriminate. eauto. Qed.
Lemma from_file_loaded fs f l : network_conf_from_file fs f = Ok l -> well_formed_text (nl_name l) /\ well_formed_text (nl_version l).
Proof.
  unfold network_conf_from_file. intros H. apply rbind_ok in H as (b & _ & H). apply rbind_ok in H as (l0 & L & H). apply loaded_usable in L as (_ & N & V).
  assert (X : forall l1, nl_name l1 = nl_name l0 -> nl_version l1 = nl_version l0 -> match nl_plugins l1 with [] => Err (EMsg "no plugin configs found") | _ => Ok l1 end = Ok l -> well_formed_text (nl_name l) /\ well_formed_text (nl_version l)).
  { intros l1 E1 E2 Y. destruct (nl_plugins l1); [discriminate|]. injection Y as <-. now rewrite E1, E2. }
  destruct (nl_only_inlined l0); cbn [rbind] in H; [now apply (X l0)|].
  apply rbind_ok in H as (l1 & H1 & H). apply rbind_ok in H1 as (ps & _ & H1). injection H1 as <-. revert H. now apply X.
Qed.
Lemma loaded_texts fs dir name l : load_network_conf fs dir name = Ok l -> well_formed_text (nl_name l) /\ well_formed_text (nl_version l).
Proof.
  intros H. apply C52_first_match in H as (F & _ & [FL|(_ & G & c & _ & _ & H)]).
  - induction FL as [f fs' a L W|f fs' x a L W FL IH]; [now apply from_file_loaded in L|exact IH].
  - unfold conf_list_from_conf in H. destruct (unmarshal_map _); [|discriminate]. apply loaded_usable in H. tauto.
Qed.
Lemma tool_texts te cmd c l rt : tool_request te cmd c l rt -> well_formed_text (nl_name l) /\ well_formed_text (nl_version l).
Proof. intros (n & ns & m & _ & L & _). eapply loaded_texts; eassumption. Qed.
Lemma tool_caps te cmd c l rt : tool_request te cmd c l rt -> shallow rt -> caps_as rt (rt_caps rt).
Proof.
  intros (n & ns & m & _ & _ & _ & _ & _ & _ & _ & _ & _ & C & _) S. unfold shallow in S.
  assert (X : canonical (JObj (rt_caps rt)) /\ jwf (JObj (rt_caps rt))).
  { assert (Z : canonical (JObj []) /\ jwf (JObj [])) by (split; [apply canonical_obj; split; constructor|apply jwf_obj; constructor]).
    destruct C as [[_ ->]|[[_ D]|[_ ->]]]; [exact Z| |exact Z]. apply decodes_iff in D. destruct (unmarshal_map_canonical _ _ D) as (A & B & _). auto. }
  destruct X as (A & B). apply C28_capability_arguments; [|exact A]. apply jwf_obj in B. rewrite Forall_forall in *. intros kj I. specialize (B kj I). specialize (S kj I). unfold injectable. tauto.
Qed.
Lemma tool_good_caps te cmd c l rt : tool_request te cmd c l rt -> shallow rt -> good_caps rt.
Proof. intros T S. exact (proj1 (tool_caps _ _ _ _ _ T S)). Qed.

(** *** C90 *)
(** The two invocations stand for one request: the same network, plugin path and runtime
    arguments, container ID included. *)
Theorem C90_one_request : forall te te' cmd c l rt, same_attachment te te' -> tool_request te cmd c l rt ->
  exists cmd', asks te' cmd' /\ tool_request te' cmd' c l rt /\
    forall cmd2 c2 l2 rt2, tool_request te' cmd2 c2 l2 rt2 -> cmd2 = cmd' /\ c2 = c /\ l2 = l /\ rt2 = rt.
Proof.
  intros te te' cmd c l rt (E1 & E2 & E3 & E4 & k & k' & net & ns & ns' & more & more' & p & A & A' & P & P') T. exists k'.
  assert (T' : tool_request te' k' c l rt).
  { destruct T as (n & s & m & B & L & SP & CD & AB & ID & I1 & I2 & AR & CA & RD). rewrite A in B. injection B as <- <- <- <-.
    assert (Q : rt_netns rt = p) by (apply abs_path_iff in AB, P; congruence).
    exists net, ns', more'. rewrite E1, E2, E3, E4. rewrite <- Q in P'. repeat (split; [assumption|]). assumption. }
  split; [eexists; exact A'|]. split; [exact T'|]. intros cmd2 c2 l2 rt2 T2. apply tool_setup_iff in T', T2. rewrite T' in T2. injection T2 as <- <- <- <-. auto.
Qed.
Lemma second te te' cmd cmd' c l rt : same_attachment te te' -> tool_request te cmd c l rt -> asks te' cmd' -> tool_request te' cmd' c l rt.
Proof.
  intros S T (r & A). destruct (C90_one_request _ _ _ _ _ _ S T) as (k & (r' & A') & T' & _). rewrite A in A'. injection A' as -> _. exact T'.
Qed.
(** [del] repeats the calls of [add] in reverse order, [check] in the same order. *)
Theorem C90_del : forall fl fl' te te' c l rt w tr w1 o w2 tr' w3 o', same_attachment te te' -> tool_request te "add" c l rt -> asks te' "del" -> shallow rt ->
  runs fl (cnitool_main te) w tr w1 o -> runs fl' (cnitool_main te') w2 tr' w3 o' ->
  forall i x y, nth_error (calls tr) i = Some x -> nth_error (calls tr') (List.length (nl_plugins l) - S i) = Some y -> repeats eq "DEL" x y.
Proof.
  intros fl fl' te te' c l rt w tr w1 o w2 tr' w3 o' S T A SH R R' i x y X Y. pose proof (second _ _ _ _ _ _ _ S T A) as T'.
  destruct (C56_performs_the_operation _ _ _ _ _ _ _ _ _ _ T R) as (Q & _). destruct (Q eq_refl) as (r & RA & _).
  destruct (C56_performs_the_operation _ _ _ _ _ _ _ _ _ _ T' R') as (_ & _ & Q' & _). destruct (Q' eq_refl) as (r' & RD & _).
  exact (C79_del _ _ _ _ _ _ _ _ _ _ _ _ _ RA RD (proj2 (tool_texts _ _ _ _ _ T)) (tool_good_caps _ _ _ _ _ T SH) i x y X Y).
Qed.
Theorem C90_check : forall fl fl' te te' c l rt w tr w1 o w2 tr' w3 o', same_attachment te te' -> tool_request te "add" c l rt -> asks te' "check" -> shallow rt ->
  runs fl (cnitool_main te) w tr w1 o -> runs fl' (cnitool_main te') w2 tr' w3 o' ->
  forall i x y, nth_error (calls tr) i = Some x -> nth_error (calls tr') i = Some y -> repeats eq "CHECK" x y.
Proof.
  intros fl fl' te te' c l rt w tr w1 o w2 tr' w3 o' S T A SH R R' i x y X Y. pose proof (second _ _ _ _ _ _ _ S T A) as T'.
  destruct (C56_performs_the_operation _ _ _ _ _ _ _ _ _ _ T R) as (Q & _). destruct (Q eq_refl) as (r & RA & _).
  destruct (C56_performs_the_operation _ _ _ _ _ _ _ _ _ _ T' R') as (_ & Q' & _). destruct (Q' eq_refl) as (r' & RD & _).
  exact (C79_check _ _ _ _ _ _ _ _ _ _ _ _ _ RA RD (proj2 (tool_texts _ _ _ _ _ T)) (tool_good_caps _ _ _ _ _ T SH) i x y X Y).
Qed.
Lemma add_gives fl c l rt w tr w1 a : runs fl (add_network_list c l rt) w tr w1 (Ok a) -> nl_plugins l <> [] -> exists r, a = Some r.
Proof.
  intros R N. destruct (C14_add_chains_results _ _ _ _ _ _ _ _ R) as (rs & _ & _ & L). destruct (L a eq_refl) as (_ & LN & ->).
  destruct rs as [|r rs] using rev_ind; [destruct (nl_plugins l); [congruence|discriminate]|]. exists r. unfold last_or. rewrite app_length, Nat.add_comm. cbn. rewrite nth_error_app2, Nat.sub_diag by lia. reflexivity.
Qed.
Lemma reported_ok A (r : res A) o : exit_reports r o -> to_exit o = 0%N -> exists a, r = Ok a.
Proof. destruct r as [a|e|]; cbn; [eauto|intros [-> _]; discriminate|intros ->; discriminate]. Qed.
(** After a successful [add], a [del] that succeeds leaves every file as it was before the [add],
    but for the attachment's cache entry, which is gone. *)
Theorem C90_undone : forall te te' c l rt w tr w1 o tr' w2 o', same_attachment te te' -> tool_request te "add" c l rt -> asks te' "del" -> nl_plugins l <> [] ->
  runs false (cnitool_main te) w tr w1 o -> to_exit o = 0%N -> runs false (cnitool_main te') w1 tr' w2 o' -> to_exit o' = 0%N ->
  sget (entry_path c (nl_name l) rt) w2 = None /\ forall p, p <> entry_path c (nl_name l) rt -> sget p w2 = sget p w.
Proof.
  intros te te' c l rt w tr w1 o tr' w2 o' S T A N R X R' X'. pose proof (second _ _ _ _ _ _ _ S T A) as T'.
  destruct (C56_performs_the_operation _ _ _ _ _ _ _ _ _ _ T R) as (Q & _). destruct (Q eq_refl) as (r & RA & EX & _).
  destruct (C56_performs_the_operation _ _ _ _ _ _ _ _ _ _ T' R') as (_ & _ & Q' & _). destruct (Q' eq_refl) as (r' & RD & EX' & _).
  destruct (reported_ok _ _ _ EX X) as (a & ->). destruct (reported_ok _ _ _ EX' X') as ([] & ->).
  destruct (add_gives _ _ _ _ _ _ _ _ RA N) as (v & ->). apply saves_list in RA.
  destruct (add_saves _ _ _ _ _ _ _ _ RA eq_refl) as (_ & NM & _ & _ & KEEP). cbn [sv_name sv_rt] in *. unfold place in KEEP. cbn [sv_name sv_rt] in KEEP.
  split; [eapply C17_success_removes_the_entry; eassumption|]. intros p NP. rewrite <- (KEEP p NP).
  destruct (C17_only_its_own_entry _ _ _ _ _ _ _ _ RD) as [->| ->]; [reflexivity|]. rewrite sget_sdel. destruct (String.eqb_spec p (entry_path c (nl_name l) rt)); [contradiction|reflexivity].
Qed.
(** What [add] prints is the result, and it is what a [check] or [del] right after it gives every
    plugin as the previous result, if it is in the network's version. *)
Theorem C90_previous_result : forall fl te te' c l rt w tr w1 o tr' w2 o', same_attachment te te' -> tool_request te "add" c l rt -> asks te' "del" \/ asks te' "check" ->
  nl_plugins l <> [] -> shallow rt -> texts_ok (nl_name l) rt ->
  runs fl (cnitool_main te) w tr w1 o -> to_exit o = 0%N -> runs false (cnitool_main te') w1 tr' w2 o' ->
  exists r, (exists t, runs fl (add_network_list c l rt) w t w1 (Ok (Some r))) /\
    (wf_result exact prefix_form r -> result_version r = nl_version l -> at_least (nl_version l) (0, 4, 0)%Z ->
     exists j, parse (to_stdout o) = Some j /\ says_result j r /\ forall y, In y (calls tr') -> gives_prev (call_stdin y) j).
Proof.
  intros fl te te' c l rt w tr w1 o tr' w2 o' S T A N SH TX R X R'.
  destruct (C56_performs_the_operation _ _ _ _ _ _ _ _ _ _ T R) as (Q & _). destruct (Q eq_refl) as (r & RA & EX & OUT & _).
  destruct (reported_ok _ _ _ EX X) as (a & ->). destruct (add_gives _ _ _ _ _ _ _ _ RA N) as (v & ->). exists v. split; [eauto|]. intros W RV AL.
  assert (CA : carried (nl_name l) rt) by (split; [exact TX|eexists; eapply tool_caps; eassumption]).
  pose proof (proj2 (tool_texts _ _ _ _ _ T)) as WV. pose proof W as W'.
  assert (SV : get_as_version v (nl_version l) = Ok v).
  { rewrite <- RV. rewrite C36_same_type by apply W. now destruct v as [[]|[]|[]]. }
  assert (K : exists j, enc_result v = Some j) by (destruct (result_rt _ (wf_exact_any _ W)) as (j & J & _); eauto). destruct K as (j & J). exists j.
  destruct (written _ _ (wf_exact_any _ W) J) as (EN & _ & SR).
  assert (PR : result_print v = Ok (print_indent j)) by (unfold result_print; now rewrite J). rewrite (OUT v _ eq_refl PR). split; [now apply parse_print_indent|]. split; [exact SR|].
  intros y Y. assert (D : exists verb r', verb = "DEL" /\ runs false (del_network_list c l rt) w1 tr' w2 r' \/ verb = "CHECK" /\ runs false (check_network_list c l rt) w1 tr' w2 r').
  { destruct A as [A|A]; pose proof (second _ _ _ _ _ _ _ S T A) as T'.
    - destruct (C56_performs_the_operation _ _ _ _ _ _ _ _ _ _ T' R') as (_ & _ & Q' & _). destruct (Q' eq_refl) as (r' & RD & _). exists "DEL", r'. auto.
    - destruct (C56_performs_the_operation _ _ _ _ _ _ _ _ _ _ T' R') as (_ & Q' & _). destruct (Q' eq_refl) as (r' & RD & _). exists "CHECK", r'. auto. }
  destruct D as (verb & r' & D). destruct (C79_previous_result _ _ _ _ _ _ _ _ _ _ _ _ _ RA D CA W WV AL SV y Y) as (j' & J' & G). congruence.
Qed.

(** *** A case: the namespace once relative, once absolute *)
Definition D_fs : fsys :=
  {| fs_read_dir := fun d => if String.eqb d "/etc/cni/net.d" then Ok [("10.conflist", false)] else Err (ENotExist d);
     fs_read_file := fun f => if String.eqb f "/etc/cni/net.d/10.conflist" then Ok X_list_doc else Err (ENotExist f) |}.
Definition D_env (cmd ns : string) : tool_env :=
  {| te_argv := [cmd; "net"; ns]; te_environ := ["CNI_PATH=/opt/bin"; "CNI_ARGS=K=v"; "CAP_ARGS={""mac"":""aa""}"]; te_cwd := Some "/run"; te_fs := D_fs; te_sha512 := fun s => s |}.
Lemma D_same cmd cmd' : same_attachment (D_env cmd "../ns") (D_env cmd' "/ns").
Proof.
  repeat (split; [reflexivity|]). exists cmd, cmd', "net", "../ns", "/ns", [], [], "/ns". split; [reflexivity|]. split; [reflexivity|].
  split; apply abs_path_iff; vm_compute; reflexivity.
Qed.
Example C90_nonvacuous : exists c l rt tr w1 o tr' w2 o', same_attachment (D_env "add" "../ns") (D_env "del" "/ns") /\
  tool_request (D_env "add" "../ns") "add" c l rt /\ asks (D_env "del" "/ns") "del" /\ shallow rt /\ texts_ok (nl_name l) rt /\ List.length (nl_plugins l) = 2 /\
  runs false (cnitool_main (D_env "add" "../ns")) [] tr w1 o /\ to_exit o = 0%N /\ w1 <> [] /\
  runs false (cnitool_main (D_env "del" "/ns")) w1 tr' w2 o' /\ to_exit o' = 0%N /\ List.length (calls tr) = 2 /\ List.length (calls tr') = 2 /\
  exists r, (exists t, runs false (add_network_list c l rt) [] t w1 (Ok (Some r))) /\
    wf_result exact prefix_form r /\ result_version r = nl_version l /\ at_least (nl_version l) (0, 4, 0)%Z.
Proof.
  assert (T : exists c l rt, tool_setup (D_env "add" "../ns") = Ok ("add", c, l, rt) /\ nl_name l = "net" /\ nl_version l = "1.1.0" /\ List.length (nl_plugins l) = 2 /\
     shallow rt /\ rt_container rt = "cnitool-2f6e73" /\ rt_ifname rt = "eth0" /\ rt_netns rt = "/ns" /\ rt_args rt = [("K", "v")]).
  { eexists _, _, _. split; [vm_compute; reflexivity|]. repeat (split; [reflexivity|]). split; [repeat constructor; discriminate|]. repeat split; reflexivity. }
  destruct T as (c & l & rt & T & NN & NV & LN & SH & RC & RI & RN & RA). apply tool_setup_iff in T.
  destruct (interp X_oracle 0 (cnitool_main (D_env "add" "../ns")) []) as [[o w1] tr] eqn:E. pose proof (interp_run _ _ _ _ _ _ _ X_tame E) as R.
  assert (K : match interp X_oracle 0 (cnitool_main (D_env "add" "../ns")) [] with (o, w, t) => (to_exit o, to_stdout o, match w with [] => true | _ => false end, List.length (calls t)) end =
    (0%N, match result_print X_add_result with Ok t => t | _ => "" end, false, 2)) by (vm_compute; reflexivity).
  rewrite E in K. injection K as K1 K2 K3 K4.
  destruct (interp X_oracle 0 (cnitool_main (D_env "del" "/ns")) w1) as [[o' w2] tr'] eqn:E'. pose proof (interp_run _ _ _ _ _ _ _ X_tame E') as R'.
  assert (K' : match interp X_oracle 0 (cnitool_main (D_env "add" "../ns")) [] with (_, w, _) => match interp X_oracle 0 (cnitool_main (D_env "del" "/ns")) w with (o, _, t) => (to_exit o, List.length (calls t)) end end = (0%N, 2)) by (vm_compute; reflexivity).
  assert (K7 : match tool_setup (D_env "add" "../ns") with Ok (_, c, l, rt) => match interp X_oracle 0 (add_network_list c l rt) [] with (r, w, _) => (r, w) end | _ => (Panic, []) end =
    (Ok (Some X_add_result), match interp X_oracle 0 (cnitool_main (D_env "add" "../ns")) [] with (_, w, _) => w end)) by (vm_compute; reflexivity).
  rewrite E, E' in K'. injection K' as K5 K6. rewrite E in K7. clear E E'.
  exists c, l, rt, tr, w1, o, tr', w2, o'. split; [apply D_same|]. split; [exact T|]. split; [eexists; reflexivity|]. split; [exact SH|].
  split. { unfold texts_ok. rewrite NN, RC, RI, RN, RA. repeat split; try (apply ascii_wft; reflexivity). repeat constructor; apply ascii_wft; reflexivity. }
  split; [exact LN|]. split; [exact R|]. split; [exact K1|]. split; [clear - K3; intros ->; discriminate K3|]. split; [exact R'|]. split; [exact K5|]. split; [exact K4|]. split; [exact K6|].
  exists X_add_result. split; [|split; [exact X_add_result_wf|split; [now rewrite NV|rewrite NV; apply (gte_iff "1.1.0" "0.4.0" _ means_040); reflexivity]]].
  apply tool_setup_iff in T. rewrite T in K7. destruct (interp X_oracle 0 (add_network_list c l rt) []) as [[r w] t] eqn:E. pose proof (interp_run _ _ _ _ _ _ _ X_tame E) as R0.
  injection K7 as -> ->. eauto.
Qed.
Print Assumptions C90_undone.
Print Assumptions C90_previous_result.
