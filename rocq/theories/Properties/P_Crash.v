(** C31: a crash during ADD cannot wedge DEL. *)
From Coq Require Import String Ascii List Arith NArith ZArith Bool Lia.
From Verif Require Import Model.GoStr Model.Errors Model.Version Model.Path Model.Json Model.GoJson Model.NetIP Model.Types Model.Conf Model.Invoke
  Model.Prog Model.Api
  Spec.NameSpec Spec.VersionSpec Spec.JsonSpec Spec.ConfSpec Spec.TypesSpec Spec.PathSpec Spec.RunSpec Spec.CacheSpec Spec.HistSpec Spec.MapSpec
  Proofs.StrP Proofs.JsonP Proofs.JsonRT Proofs.GoJsonP Proofs.TypesP Proofs.DecodeP Proofs.ShapeP
  Proofs.VersionP Proofs.ProgP Proofs.ApiP Proofs.CacheP Proofs.VerbP Proofs.ListP Proofs.HistP Proofs.CrashP
  Properties.P_Api Properties.P_Types Properties.P_Cache.
Import ListNotations.
Open Scope nat_scope.
Open Scope string_scope.

(** The plugin run last in this trace printed this result. *)
Definition last_printed (tr : trace) (r : result) : Prop :=
  exists x, nth_error (calls tr) (pred (List.length (calls tr))) = Some x /\ yields x r.

(** Whenever AddNetworkList dies, every file but its own entry is as before, and the entry is as
    before or holds a prefix (perhaps all, perhaps nothing) of the document the finished ADD leaves. *)
Theorem C31_what_a_crash_leaves : forall fl c l rt w tr w1, crashes fl (add_network_list c l rt) w tr w1 ->
  (forall p, p <> entry_path c (nl_name l) rt -> sget p w1 = sget p w) /\
  (sget (entry_path c (nl_name l) rt) w1 = sget (entry_path c (nl_name l) rt) w \/
   exists ro data d, cache_bytes ro (nl_bytes l) (nl_name l) rt = Ok data /\ str_prefix d data /\ sget (entry_path c (nl_name l) rt) w1 = Some d /\
     (nl_plugins l <> [] -> exists r, ro = Some r /\ last_printed tr r)).
Proof.
  intros fl c l rt w tr w1 H. apply crash_add in H as [S|(ro & bytes & d & B & N & D & G & O & _ & L)].
  - split; [intros p _; apply S|left; apply S].
  - split; [exact O|right]. exists ro, bytes, d. do 3 (split; [assumption|]). intros NE. destruct (L NE) as (r & x & -> & X). exists r. split; [reflexivity|]. now exists x.
Qed.
(** A later DelNetworkList of the network and attachment (perhaps with another version of its
    configuration) asks every plugin in turn, with the old result, the new one or none, and once it
    succeeds the entry is gone. *)
Theorem C31_del_after_a_crash : forall fl c l rt w tr w1 fl' l' rt' tr' w2 v,
  crashes fl (add_network_list c l rt) w tr w1 ->
  nl_plugins l <> [] -> carried (nl_name l) rt -> named (nl_name l) rt ->
  (forall x r, In x (calls tr) -> yields x r -> wf_result exact prefix_form r /\ complete r) ->
  nl_name l' = nl_name l -> same_entry c rt rt' -> well_formed_version (nl_version l') ->
  safe_entry c (nl_name l) (nl_version l') rt w ->
  runs fl' (del_network_list c l' rt') w1 tr' w2 v ->
  exists prev,
    asked_in_order c "DEL" (nl_name l') (nl_version l') rt' (rev (nl_plugins l')) prev tr' /\
    (v = Ok tt <-> all_succeeded (List.length (nl_plugins l')) tr') /\
    (prev = None \/ cache_provides c (nl_name l) (nl_version l') rt w prev \/
     exists r r', last_printed tr r /\ get_as_version r (nl_version l') = Ok r' /\ prev = Some r') /\
    (fl' = false -> v = Ok tt -> sget (entry_path c (nl_name l) rt) w2 = None).
Proof.
  intros fl c l rt w tr w1 fl' l' rt' tr' w2 v H NE CA NM PL NL SE WF SF D.
  assert (GONE : fl' = false -> v = Ok tt -> sget (entry_path c (nl_name l) rt) w2 = None).
  { intros -> ->. rewrite <- (same_entry_path _ _ _ _ SE), <- NL. eapply C17_success_removes_the_entry; [exact D|].
    rewrite NL. eapply same_entry_named; eassumption. }
  set (e := entry_path c (nl_name l) rt) in *.
  (* what the entry can be *)
  assert (K : sget e w1 = sget e w \/ (exists er, reads_result (nl_version l') (sget e w1) = Err er) \/
     exists r, last_printed tr r /\ complete r /\ right_version r /\ reads_result (nl_version l') (sget e w1) = presented (nl_version l') r).
  { apply crash_add in H as [S|(ro & data & d & B & _ & (t & P) & G & _ & LN & L)]; [left; apply S|].
    destruct (L NE) as (r & x & -> & X & Y). destruct (PL x r (nth_error_In _ _ X) Y) as [W CO].
    set (s := {| sv_result := Some r; sv_config := nl_bytes l; sv_name := nl_name l; sv_rt := rt |}).
    assert (ST : stored s data) by exact B.
    assert (FP : from_plugin (sv_result s)).
    { intros r0 E0. injection E0 as <-. destruct Y as (out & _ & AR). eapply add_result_from; exact AR. }
    fold e in G. right. rewrite G. destruct (string_dec t "") as [->|T].
    - rewrite append_nil_r in P. subst d. right. exists r. split; [exists x; auto|]. split; [exact CO|]. split; [apply W|].
      exact (stored_reads s data r _ ST CA FP eq_refl W).
    - left. exact (torn_unreadable _ s data d t ST CA FP P T). }
  assert (EE : entry_path c (nl_name l') rt' = e) by (rewrite NL; exact (same_entry_path _ _ _ _ SE)).
  assert (SF1 : safe_entry c (nl_name l') (nl_version l') rt' w1).
  { unfold safe_entry in *. rewrite EE. fold e in SF. destruct K as [->|[[er ->]|(r & _ & CO & RV & ->)]]; [exact SF|discriminate|].
    unfold presented. pose proof (C38_no_panic r (nl_version l') (or_intror RV) CO) as NP. destruct (get_as_version r (nl_version l')); try discriminate. contradiction. }
  destruct (C16_del_reverse_with_cached_result _ _ _ _ _ _ _ _ D WF (fun _ => SF1)) as (prev & A & B & _ & BL & AL).
  exists prev. split; [exact A|]. split; [exact B|]. split; [|exact GONE].
  destruct (version_cases (nl_version l') (0, 4, 0)%Z) as [V|[V|V]]; [|left; auto|contradiction].
  destruct (AL V) as [[(_ & R)|(_ & ->)]|(_ & ->)]; [|now left|now left]. rewrite EE in R.
  destruct K as [S|[[er E]|(r & LP & _ & _ & E)]].
  - right. left. left. split; [exact NM|]. fold e. congruence.
  - congruence.
  - rewrite E in R. unfold presented in R. destruct (get_as_version r (nl_version l')) as [r'|er|] eqn:GV; try discriminate.
    right. right. exists r, r'. split; [exact LP|]. split; [exact GV|congruence].
Qed.
(** A network with a single configuration can be wedged: after a crash of AddNetwork, DelNetwork
    fails without asking the plugin, and leaves everything as it is, so it fails every time. *)
Definition X_one_doc : string := "{""cniVersion"":""1.0.0"",""name"":""net"",""type"":""bridge""}".
Definition X_one : plugin_config := Eval vm_compute in
  match plugin_conf_from_bytes X_one_doc with Ok n => n | _ => {| pg_conf := plugin_conf_zero; pg_bytes := "" |} end.
Theorem C31_single_network_refuted : exists tr w1 tr' e,
  crashes false (add_network X_cni X_one X_rt) [] tr w1 /\ well_formed_version (pc_version (pg_conf X_one)) /\
  runs false (del_network X_cni X_one X_rt) w1 tr' w1 (Err e) /\ calls tr' = [].
Proof.
  destruct (tear X_oracle 10 0 (add_network X_cni X_one X_rt) []) as [tr w1] eqn:E. pose proof (tear_crash _ _ _ _ _ _ _ X_tame E) as C.
  assert (K1 : match tear X_oracle 10 0 (add_network X_cni X_one X_rt) [] with (_, w) => w end = [("/c/results/net-c1-eth0", "{""kind"":""c")]) by (vm_compute; reflexivity).
  rewrite E in K1. subst w1.
  set (w1 := [("/c/results/net-c1-eth0", "{""kind"":""c")]) in *.
  destruct (interp X_oracle 0 (del_network X_cni X_one X_rt) w1) as [[v w2] tr'] eqn:E2. pose proof (interp_run _ _ _ _ _ _ _ X_tame E2) as R2.
  assert (K2 : match interp X_oracle 0 (del_network X_cni X_one X_rt) w1 with (v, w, t) => (is_ok v, is_panic v, w, calls t) end = (false, false, w1, [])) by (vm_compute; reflexivity).
  rewrite E2 in K2. injection K2 as OK NP -> CT. clear E E2. destruct v as [u|e|]; [discriminate OK| |discriminate NP].
  exists tr, w1, tr', e. split; [exact C|]. split; [|auto]. exists (1, 0, 0)%Z. apply parse_version_spec. vm_compute. reflexivity.
Qed.

(** *** A concrete crash *)
(** The second plugin has run, and 30 bytes of the entry are written over a longer old entry. *)
Definition X_torn_world : world := Eval vm_compute in snd (tear X_oracle 30 0 (add_network_list X_cni X_list X_caps_rt) X_world).
Example C31_nonvacuous : exists tr tr',
  crashes false (add_network_list X_cni X_list X_caps_rt) X_world tr X_torn_world /\ X_torn_world <> X_world /\ nl_plugins X_list <> [] /\
  carried (nl_name X_list) X_caps_rt /\ named (nl_name X_list) X_caps_rt /\
  (forall x r, In x (calls tr) -> yields x r -> wf_result exact prefix_form r /\ complete r) /\
  same_entry X_cni X_caps_rt X_rt /\ well_formed_version (nl_version X_list) /\
  safe_entry X_cni (nl_name X_list) (nl_version X_list) X_caps_rt X_world /\
  runs false (del_network_list X_cni X_list X_rt) X_torn_world tr' [] (Ok tt) /\ List.length (calls tr') = 2.
Proof.
  destruct (tear X_oracle 30 0 (add_network_list X_cni X_list X_caps_rt) X_world) as [tr w1] eqn:E. pose proof (tear_crash _ _ _ _ _ _ _ X_tame E) as C.
  assert (K1 : match tear X_oracle 30 0 (add_network_list X_cni X_list X_caps_rt) X_world with (_, w) => w end = X_torn_world) by (vm_compute; reflexivity).
  rewrite E in K1. subst w1.
  assert (K2 : map (fun x => (call_answer x, add_result (call_stdin x) (match call_answer x with Ok o => o | _ => "" end)))
     (calls (fst (tear X_oracle 30 0 (add_network_list X_cni X_list X_caps_rt) X_world))) =
     [(Ok "{""cniVersion"":""1.1.0"",""ips"":[{""address"":""10.0.0.2/24""}]}",
       Ok (R100 {| v1_version := "1.1.0"; v1_interfaces := [];
          v1_ips := [Some {| i1_interface := None; i1_address := {| n_ip := v4in6 [10; 0; 0; 2]%N; n_mask := cidr_mask 24 32 |}; i1_gateway := [] |}];
          v1_routes := []; v1_dns := {| d_nameservers := []; d_domain := ""; d_search := []; d_options := [] |} |}));
      (Ok "{""cniVersion"":""1.1.0"",""ips"":[{""address"":""10.0.0.3/24""}]}", Ok X_add_result)]) by (vm_compute; reflexivity).
  rewrite E in K2. cbn [fst] in K2.
  destruct (interp X_oracle 0 (del_network_list X_cni X_list X_rt) X_torn_world) as [[v w2] tr'] eqn:E2. pose proof (interp_run _ _ _ _ _ _ _ X_tame E2) as R2.
  assert (K3 : match interp X_oracle 0 (del_network_list X_cni X_list X_rt) X_torn_world with (v, w, t) => (v, w, List.length (calls t)) end = (Ok tt, [], 2)) by (vm_compute; reflexivity).
  rewrite E2 in K3. injection K3 as -> -> L.
  exists tr, tr'. split; [exact C|]. split; [vm_compute; discriminate|]. split; [discriminate|]. split; [apply X_caps_carried|]. split; [repeat split; discriminate|].
  split.
  { intros x r I (out & A & Y). apply (in_map (fun x => (call_answer x, add_result (call_stdin x) (match call_answer x with Ok o => o | _ => "" end)))) in I.
    rewrite K2, A, Y in I. clear - I. destruct I as [I|[I|[]]]; injection I as _ <-.
    - split; [|split; [intros []|split; [intros [H|[]]; discriminate H|intros []]]]. split; [|cbn; auto]. split; [constructor|]. split.
      + constructor; [|constructor]. split; [exact I|]. split; [|now left]. apply pf4; [now apply X_octets|easy].
      + split; [constructor|]. repeat split; constructor.
    - split; [apply X_add_result_wf|split; [intros []|split; [intros [H|[]]; discriminate H|intros []]]]. }
  split; [repeat split|]. split; [exists (1, 1, 0)%Z; apply parse_version_spec; vm_compute; reflexivity|]. split; [vm_compute; discriminate|]. split; [exact R2|exact L].
Qed.
Print Assumptions C31_what_a_crash_leaves.
Print Assumptions C31_del_after_a_crash.
Print Assumptions C31_single_network_refuted.
