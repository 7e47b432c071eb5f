(** ADD, DEL, CHECK, GC, STATUS and validation of network lists: C06, C14-C21, C34, C58. *)
From Coq Require Import String Ascii List Arith ZArith Bool Lia.
From Verif Require Import Model.GoStr Model.Errors Model.Version Model.Validate Model.Args Model.Path Model.Json Model.GoJson
  Model.Types Model.Conf Model.Invoke Model.Prog Model.Api
  Spec.VersionSpec Spec.NameSpec Spec.EnvSpec Spec.PathSpec Spec.RunSpec Spec.CacheSpec
  Proofs.StrP Proofs.VersionP Proofs.ValidateP Proofs.PathP Proofs.ProgP Proofs.ApiP Proofs.VerbP.
Import ListNotations.
Open Scope nat_scope.
Open Scope string_scope.

(** C14: whatever the plugins answer, the i-th execution is the ADD request to the i-th plugin of
    the list with the result of the one before it (the first with none); on success all have run
    and the last one's result is returned. *)
Theorem C14_add_chains_results : forall fl c l rt w tr w' r, runs fl (add_network_list c l rt) w tr w' r ->
  exists results : list result,
  (forall i x, nth_error (calls tr) i = Some x -> exists net, nth_error (nl_plugins l) i = Some net /\
     request c "ADD" (nl_name l) (nl_version l) rt net (before None results i) tr x) /\
  (forall i v, nth_error results i = Some v <-> exists x, nth_error (calls tr) i = Some x /\ yields x v) /\
  (forall a, r = Ok a -> List.length (calls tr) = List.length (nl_plugins l) /\
     List.length results = List.length (nl_plugins l) /\ a = last_or None results).
Proof.
  intros fl c l rt w tr w' r H. destruct (add_network_list_inv _ _ _ _ _ _ _ _ H) as (tr1 & results & r1 & _ & _ & P1 & P2 & P3 & CC & P4).
  exists results. rewrite CC. split; [intros i x I; now destruct (P1 i x I) as (_ & Q)|]. split; [exact P2|].
  intros a ->. destruct P4 as [(L1 & L2 & tr2 & r2 & _ & _ & E)|(_ & _ & _ & N & _)]; [|now destruct (N a)].
  split; [exact L2|]. split; [exact L1|]. destruct r2 as [u|e|]; [congruence|destruct E as [m E]; discriminate|discriminate].
Qed.

(** C15: a plugin that fails, that cannot be found, or a request that cannot be made stops ADD:
    nothing later runs, an error is returned and no file is touched. *)
Theorem C15_failure_stops_and_keeps_cache : forall fl c l rt w tr w' r, runs fl (add_network_list c l rt) w tr w' r ->
  (exists x, In x (calls tr) /\ forall v, ~ yields x v) \/ List.length (calls tr) < List.length (nl_plugins l) ->
  (forall a, r <> Ok a) /\ w' = w /\ changed tr = [].
Proof.
  intros fl c l rt w tr w' r H F. destruct (add_network_list_inv _ _ _ _ _ _ _ _ H) as (tr1 & results & r1 & _ & CH & P1 & P2 & P3 & CC & P4).
  destruct P4 as [(L1 & L2 & _)|(-> & -> & _ & N & _)]; [|auto]. exfalso. rewrite CC in F. destruct F as [(x & I & Y)|L]; [|lia].
  apply In_nth_error in I. destruct I as [i I]. assert (B : i < List.length results).
  { rewrite L1, <- L2. apply nth_error_Some. congruence. }
  apply nth_error_Some in B. destruct (nth_error results i) as [v|] eqn:E; [|congruence]. apply P2 in E. destruct E as (x' & I' & Y').
  rewrite I in I'. injection I' as <-. exact (Y v Y').
Qed.
Theorem C15_nothing_runs_after_a_failure : forall fl c l rt w tr w' r i x, runs fl (add_network_list c l rt) w tr w' r ->
  nth_error (calls tr) i = Some x -> (forall v, ~ yields x v) -> S i = List.length (calls tr).
Proof.
  intros fl c l rt w tr w' r i x H I Y. destruct (add_network_list_inv _ _ _ _ _ _ _ _ H) as (tr1 & results & r1 & _ & CH & P1 & P2 & P3 & CC & P4).
  rewrite CC in *. assert (B : i < List.length (calls tr1)) by (apply nth_error_Some; congruence).
  destruct (Nat.lt_ge_cases i (List.length results)) as [L|L]; [|lia]. exfalso.
  apply nth_error_Some in L. destruct (nth_error results i) as [v|] eqn:E; [|congruence]. apply P2 in E. destruct E as (x' & I' & Y').
  rewrite I in I'. injection I' as <-. exact (Y v Y').
Qed.
(** The error is the plugin's own, wrapped. *)
Theorem C15_error_is_the_plugins : forall fl c l rt w tr w' r x e, runs fl (add_network_list c l rt) w tr w' r ->
  In x (calls tr) -> call_answer x = Err e -> exists m, r = Err (EWrap m e).
Proof.
  intros fl c l rt w tr w' r x e H I CA.
  assert (Y : forall v, ~ yields x v) by (intros v (out & CA' & _); congruence).
  apply In_nth_error in I. destruct I as [i I]. pose proof (C15_nothing_runs_after_a_failure _ _ _ _ _ _ _ _ _ _ H I Y) as L.
  destruct (add_network_list_inv _ _ _ _ _ _ _ _ H) as (tr1 & results & r1 & _ & CH & P1 & P2 & P3 & CC & P4). rewrite CC in *.
  assert (G : ~ i < List.length results).
  { intros G. apply nth_error_Some in G. destruct (nth_error results i) as [v|] eqn:E; [|congruence]. apply P2 in E. destruct E as (x' & I' & Y').
    rewrite I in I'. injection I' as <-. exact (Y v Y'). }
  assert (i = List.length results) by lia. subst i.
  destruct P4 as [(L1 & L2 & _)|(_ & _ & _ & _ & E)]; [lia|]. eapply E; eassumption.
Qed.
(** With an unacceptable name no plugin runs at all. *)
Theorem C15_bad_names_run_nothing : forall fl c l rt w tr w' r, runs fl (add_network_list c l rt) w tr w' r ->
  nl_plugins l <> [] -> ~ (good_name (rt_container rt) /\ good_name (nl_name l) /\ good_ifname (rt_ifname rt)) ->
  calls tr = [] /\ (forall a, r <> Ok a) /\ w' = w /\ changed tr = [].
Proof.
  intros fl c l rt w tr w' r H NE B.
  assert (C : calls tr = []).
  { destruct (add_network_list_inv _ _ _ _ _ _ _ _ H) as (tr1 & results & r1 & _ & CH & P1 & P2 & P3 & CC & P4). rewrite CC.
    destruct (calls tr1) as [|x l1] eqn:E; [reflexivity|]. exfalso. destruct (P1 0 x eq_refl) as ((V1 & V2 & V3) & _). apply B.
    apply validate_container_id_ok in V1. apply validate_network_name_ok in V2. apply validate_interface_name_ok in V3. auto. }
  split; [exact C|]. apply (C15_failure_stops_and_keeps_cache _ _ _ _ _ _ _ _ H). right. rewrite C. destruct (nl_plugins l); [now destruct NE|cbn; lia].
Qed.

(** C16 and C34: DEL asks the plugins in reverse order, each with what the cache provides, whatever
    the cache file contains; only the plugins' answers decide the outcome. *)
Theorem C16_del_reverse_with_cached_result : forall fl c l rt w tr w' r, runs fl (del_network_list c l rt) w tr w' r ->
  well_formed_version (nl_version l) ->
  (at_least (nl_version l) (0, 4, 0)%Z -> safe_entry c (nl_name l) (nl_version l) rt w) ->
  exists prev,
    asked_in_order c "DEL" (nl_name l) (nl_version l) rt (rev (nl_plugins l)) prev tr /\
    (r = Ok tt <-> all_succeeded (List.length (nl_plugins l)) tr) /\
    (forall x e, In x (calls tr) -> call_answer x = Err e -> exists m, r = Err (EWrap m e)) /\
    (below (nl_version l) (0, 4, 0)%Z -> prev = None) /\
    (at_least (nl_version l) (0, 4, 0)%Z ->
       cache_provides c (nl_name l) (nl_version l) rt w prev \/ (fl = true /\ prev = None)).
Proof. exact del_summary. Qed.
Theorem C16_bad_version_runs_nothing : forall fl c l rt w tr w' r, runs fl (del_network_list c l rt) w tr w' r ->
  ~ well_formed_version (nl_version l) -> tr = [] /\ w' = w /\ exists e, r = Err e.
Proof.
  intros fl c l rt w tr w' r H N. unfold del_network_list in H. apply runs_lift_then in H.
  destruct (gte_iff (nl_version l) "0.4.0" _ means_040) as (_ & _ & GE & _). apply GE in N. destruct N as [e N]. rewrite N in H.
  destruct H as (-> & -> & ->). eauto.
Qed.
Theorem C34_del_tolerates_bad_cache : forall fl c l rt w tr w' r, runs fl (del_network_list c l rt) w tr w' r ->
  at_least (nl_version l) (0, 4, 0)%Z -> named (nl_name l) rt ->
  (sget (entry_path c (nl_name l) rt) w = None \/
   exists e, reads_result (nl_version l) (sget (entry_path c (nl_name l) rt) w) = Err e) ->
  asked_in_order c "DEL" (nl_name l) (nl_version l) rt (rev (nl_plugins l)) None tr /\
  (r = Ok tt <-> all_succeeded (List.length (nl_plugins l)) tr).
Proof.
  intros fl c l rt w tr w' r H AL N B.
  assert (RR : reads_result (nl_version l) (sget (entry_path c (nl_name l) rt) w) = Ok None \/
     exists e, reads_result (nl_version l) (sget (entry_path c (nl_name l) rt) w) = Err e).
  { destruct B as [G|E]; [left; now rewrite G|now right]. }
  assert (SE : safe_entry c (nl_name l) (nl_version l) rt w).
  { unfold safe_entry. destruct RR as [X|[e X]]; rewrite X; discriminate. }
  assert (WF : well_formed_version (nl_version l)) by (destruct AL as (u & V & _); now exists u).
  destruct (del_summary _ _ _ _ _ _ _ _ H WF (fun _ => SE)) as (prev & A & O & _ & _ & P).
  assert (prev = None).
  { destruct (P AL) as [[(_ & X)|(_ & X)]|(_ & X)]; [|exact X|exact X]. destruct RR as [Y|[e Y]]; congruence. }
  subst prev. auto.
Qed.

(** C17 *)
Theorem C17_success_removes_the_entry : forall c l rt w tr w', runs false (del_network_list c l rt) w tr w' (Ok tt) ->
  named (nl_name l) rt -> sget (entry_path c (nl_name l) rt) w' = None.
Proof. intros c l rt w tr w' H N. apply del_world in H. destruct H as (_ & _ & H & _). now apply H. Qed.
(** After a failure the next DEL finds the same files. *)
Theorem C17_failure_keeps_readable_entry : forall fl c l rt w tr w' r, runs fl (del_network_list c l rt) w tr w' r ->
  r <> Ok tt -> named (nl_name l) rt ->
  below (nl_version l) (0, 4, 0)%Z \/ (exists x, reads_result (nl_version l) (sget (entry_path c (nl_name l) rt) w) = Ok x) ->
  w' = w.
Proof. intros fl c l rt w tr w' r H N M B. apply del_world in H. destruct H as (_ & _ & _ & H). now apply H. Qed.
Theorem C17_only_its_own_entry : forall fl c l rt w tr w' r, runs fl (del_network_list c l rt) w tr w' r ->
  w' = w \/ w' = sdel (entry_path c (nl_name l) rt) w.
Proof. intros fl c l rt w tr w' r H. apply del_world in H. destruct H as (_ & [->|(_ & ->)] & _); auto. Qed.

(** C18 *)
Theorem C18_check_needs_040 : forall fl c l rt w tr w' r, runs fl (check_network_list c l rt) w tr w' r ->
  ~ at_least (nl_version l) (0, 4, 0)%Z -> calls tr = [] /\ exists e, r = Err e.
Proof.
  intros fl c l rt w tr w' r H N. apply check_summary in H. destruct H as (_ & _ & [(_ & H)|[(_ & H)|[(A & _)|(A & _)]]]); auto; now destruct N.
Qed.
Theorem C18_check_can_be_disabled : forall fl c l rt w tr w' r, runs fl (check_network_list c l rt) w tr w' r ->
  at_least (nl_version l) (0, 4, 0)%Z -> nl_disable_check l = true -> calls tr = [] /\ r = Ok tt.
Proof.
  intros fl c l rt w tr w' r H A D.
  assert (X : forall u t, at_least u t -> below u t -> False).
  { intros u t (x & V & G) (x' & V' & G'). apply parse_version_spec in V. apply parse_version_spec in V'. rewrite V in V'. injection V' as <-. exact (triple_excl _ _ G G'). }
  apply check_summary in H. destruct H as (_ & _ & [(N & _)|[(B & _)|[(_ & _ & H)|(_ & D' & _)]]]).
  - destruct N. destruct A as (u & V & _). now exists u.
  - destruct (X _ _ A B).
  - exact H.
  - congruence.
Qed.
Lemma at_least_not_below u t : at_least u t -> below u t -> False.
Proof.
  intros (x & V & G) (x' & V' & G'). apply parse_version_spec in V. apply parse_version_spec in V'. rewrite V in V'. injection V' as <-. exact (triple_excl _ _ G G').
Qed.
Lemma at_least_wf u t : at_least u t -> well_formed_version u.
Proof. intros (x & V & _). now exists x. Qed.
(** The plugins get the cached result; a cache entry that cannot be read fails CHECK at once. *)
Theorem C18_check_asks_in_order : forall fl c l rt w tr w' r, runs fl (check_network_list c l rt) w tr w' r ->
  at_least (nl_version l) (0, 4, 0)%Z -> nl_disable_check l = false -> named (nl_name l) rt ->
  exists cached,
    (cached = reads_result (nl_version l) (sget (entry_path c (nl_name l) rt) w) \/ (fl = true /\ cached = Ok None)) /\
    match cached with
    | Ok prev => asked_in_order c "CHECK" (nl_name l) (nl_version l) rt (nl_plugins l) prev tr /\
       (r = Ok tt <-> all_succeeded (List.length (nl_plugins l)) tr) /\
       (forall x e, In x (calls tr) -> call_answer x = Err e -> r = Err e)
    | Err e => calls tr = [] /\ exists m, r = Err (EWrap m e)
    | Panic => calls tr = [] /\ r = Panic
    end.
Proof.
  intros fl c l rt w tr w' r H A D N. apply check_summary in H. destruct H as (_ & _ & [(X & _)|[(B & _)|[(_ & D' & _)|(_ & _ & cached & K & M)]]]).
  - destruct (X (at_least_wf _ _ A)).
  - destruct (at_least_not_below _ _ A B).
  - congruence.
  - exists cached. split; [|exact M]. rewrite cached_in_named in K by exact N. destruct K as [->|(F & _ & ->)]; auto.
Qed.
Theorem C18_check_changes_nothing : forall fl c l rt w tr w' r, runs fl (check_network_list c l rt) w tr w' r -> w' = w /\ changed tr = [].
Proof. intros fl c l rt w tr w' r H. apply check_summary in H. destruct H as (-> & C & _). auto. Qed.

(** C19: listing what is cached (C30), then one DEL for each stale attachment in listing order,
    then one GC for each plugin in list order; failures do not stop the rest. *)
Definition gc_params (l : network_list) (args : option gc_args) : list (string * gval) :=
  ([("name", GVal (Some (JStr (nl_name l)))); ("cniVersion", GVal (Some (JStr (nl_version l))))] ++
   match args with
   | None => []
   | Some a => let v := GVal (Some (enc_gc_args a)) in [("cni.dev/valid-attachments", v); ("cni.dev/attachments", v)]
   end)%list.
Definition gc_asks (c : cni) (l : network_list) (args : option gc_args) (net : plugin_config) (seg : trace) (t : turn_end) : Prop :=
  exists conf, inject_conf net (gc_params l args) = Ok conf /\
    turn c (pc_type (pg_conf conf)) (fun x => plain_env c "GC" (call_env x) /\ call_stdin x = pg_bytes conf) seg t.
Theorem C19_gc_disabled : forall fl c l args w tr w' r, runs fl (gc_network_list c l args) w tr w' r ->
  nl_disable_gc l = true -> tr = [] /\ w' = w /\ r = Ok tt.
Proof.
  intros fl c l args w tr w' r H D. apply gc_network_list_inv in H. destruct H as [(_ & H)|[(D' & _)|(D' & _)]]; [exact H|congruence|congruence].
Qed.
Theorem C19_gc_deletes_the_stale_and_tells_plugins : forall fl c l args w tr w' r, runs fl (gc_network_list c l args) w tr w' r ->
  nl_disable_gc l = false -> r <> Panic ->
  (exists e, runs fl (get_cached_attachments c "") w tr w' (Err e) /\ fl = true /\ r = Ok tt) \/
  exists atts is_stale tr0 tr1 tr2 rs,
    runs fl (get_cached_attachments c "") w tr0 w (Ok atts) /\ tr = (tr0 ++ tr1 ++ tr2)%list /\
    (forall a, is_stale a = true <-> stale l args a) /\
    dels fl c l (filter is_stale atts) w tr1 w' rs /\
    ((~ at_least (nl_version l) (1, 1, 0)%Z /\ tr2 = [] /\ (r = Ok tt <-> Forall (fun x => x = Ok tt) rs)) \/
     (at_least (nl_version l) (1, 1, 0)%Z /\ exists ends, turns (gc_asks c l args) (nl_plugins l) tr2 ends /\
        (r = Ok tt <-> Forall (fun x => x = Ok tt) rs /\ Forall turn_ok ends))).
Proof.
  intros fl c l args w tr w' r H D NP. apply gc_network_list_inv in H. destruct H as [(D' & _)|[(_ & F & (e & R) & -> & ->)|(_ & tr0 & atts & tr1 & tr2 & w1 & R & -> & K)]]; [congruence|left; eauto|].
  right. destruct K as [(X & _)|(es & rs & _ & DL & V & -> & _ & K)]; [now destruct NP|].
  exists atts, (staleb l args), tr0, tr1, tr2, rs. split; [exact R|]. split; [reflexivity|]. split; [apply staleb_iff|]. split; [exact DL|].
  assert (JE : forall es, join_errors es = Ok tt <-> es = []) by (intros [|e0 es0]; split; (reflexivity || discriminate)).
  destruct K as [(N & -> & ->)|(A & [(X & _)|(ends & es' & T & -> & V')])].
  - left. split; [exact N|]. split; [reflexivity|]. rewrite JE. exact V.
  - now destruct NP.
  - right. split; [exact A|]. exists ends. split; [exact T|]. rewrite JE, <- V, <- V'. split.
    + intros X. now apply app_eq_nil in X.
    + intros (-> & ->). reflexivity.
Qed.
(** GC can only panic through a DEL that does (C38), or through a configuration into which the
    parameters cannot be injected. *)
Theorem C19_gc_panics_only : forall fl c l args w tr w', runs fl (gc_network_list c l args) w tr w' Panic ->
  (exists rt w1 tr1, runs fl (del_network_list c l rt) w1 tr1 w' Panic) \/
  (exists net, In net (nl_plugins l) /\ forall conf, inject_conf net (gc_params l args) <> Ok conf).
Proof.
  intros fl c l args w tr w' H. apply gc_network_list_inv in H.
  destruct H as [(_ & _ & _ & X)|[(_ & _ & _ & _ & X)|(_ & tr0 & atts & tr1 & tr2 & w1 & R & -> & K)]]; [discriminate|discriminate|].
  destruct K as [(_ & _ & _ & K)|(es & rs & _ & _ & _ & _ & _ & K)].
  - apply gc_del_loop_inv in K. destruct K as [(_ & dn & a & rest & t1 & w2 & t2 & rs & rt & _ & _ & _ & K & _)|(rs & es & _ & X & _)]; [eauto|discriminate].
  - destruct K as [(_ & _ & X)|(_ & [(_ & X)|(ends & es' & _ & X & _)])]; [|right; exact X|].
    + destruct es; discriminate.
    + destruct (es ++ es')%list; discriminate.
Qed.

(** C20 *)
Theorem C20_status_needs_110 : forall fl c l w tr w' r, runs fl (get_status_network_list c l) w tr w' r ->
  ~ at_least (nl_version l) (1, 1, 0)%Z -> tr = [] /\ w' = w /\ r = Ok tt.
Proof.
  intros fl c l w tr w' r H N. unfold get_status_network_list in H. destruct (gte_or_false (nl_version l) "1.1.0") eqn:G.
  - apply gte_or_false_iff in G. now destruct N.
  - apply runs_ret in H. destruct H as (-> & -> & ->). auto.
Qed.
Theorem C20_status_asks_in_order : forall fl c l w tr w' r, runs fl (get_status_network_list c l) w tr w' r ->
  at_least (nl_version l) (1, 1, 0)%Z ->
  w' = w /\ changed tr = [] /\
  (forall i x, nth_error (calls tr) i = Some x -> exists net conf, nth_error (nl_plugins l) i = Some net /\
     inject_conf net [("name", GVal (Some (JStr (nl_name l)))); ("cniVersion", GVal (Some (JStr (nl_version l))))] = Ok conf /\
     plain_request c "STATUS" conf tr x) /\
  (forall i x, nth_error (calls tr) i = Some x -> S i < List.length (calls tr) -> succeeded x) /\
  (r = Ok tt <-> all_succeeded (List.length (nl_plugins l)) tr) /\
  (forall x e, In x (calls tr) -> call_answer x = Err e -> r = Err e).
Proof.
  intros fl c l w tr w' r H A. unfold get_status_network_list in H. destruct (gte_or_false (nl_version l) "1.1.0") eqn:G.
  - cbn [negb] in H. now apply status_loop_inv in H.
  - apply gte_or_false_iff in A. congruence.
Qed.

(** C21 *)
Definition wanted_version (l : network_list) : string := if String.eqb (nl_version l) "" then "0.1.0" else nl_version l.
Definition supports (v : string) (t : turn_end) : Prop :=
  match t with Missing _ => False | Ran x => exists vs, reports x vs /\ In v vs end.
Definition asks_version (c : cni) (net : plugin_config) (seg : trace) (t : turn_end) : Prop :=
  turn c (pc_type (pg_conf net)) version_probe seg t.
Theorem C21_validate_exact : forall fl c l w tr w' r, runs fl (validate_network_list c l) w tr w' r ->
  w' = w /\ changed tr = [] /\ exists ends, turns (asks_version c) (nl_plugins l) tr ends /\
    ((Forall (supports (wanted_version l)) ends /\ exists caps, r = Ok caps /\ NoDup caps /\
        forall k, In k caps <-> exists net, In net (nl_plugins l) /\ In (k, true) (pc_caps (pg_conf net))) \/
     (~ Forall (supports (wanted_version l)) ends /\ exists e, r = Err e)).
Proof. intros fl c l w tr w' r H. exact (validate_list_inv _ _ _ _ _ _ _ H). Qed.

(** C58 *)
Theorem C58_cache_dir_precedence : forall c name rt, named name rt ->
  exists p, get_cache_file_path c name rt = Ok p /\
    (c_cache_dir c <> "" -> p = join_path [c_cache_dir c; "results"; entry_name name rt]) /\
    (c_cache_dir c = "" -> rt_cache_dir rt <> "" -> p = join_path [rt_cache_dir rt; "results"; entry_name name rt]) /\
    (c_cache_dir c = "" -> rt_cache_dir rt = "" -> p = join_path ["/var/lib/cni"; "results"; entry_name name rt]).
Proof.
  intros c name rt N. exists (entry_path c name rt). split; [now apply cache_path_ok|]. unfold entry_path, cache_root.
  destruct (String.eqb_spec (c_cache_dir c) "") as [E|E], (String.eqb_spec (rt_cache_dir rt) "") as [E'|E']; cbn [negb]; repeat split; intros; congruence.
Qed.
(** Every file ADD, DEL and CHECK change is that one. *)
Theorem C58_add_and_del_use_it : forall fl c l rt w tr w',
  (forall r, runs fl (add_network_list c l rt) w tr w' r -> forall p, In p (changed tr) -> get_cache_file_path c (nl_name l) rt = Ok p) /\
  (forall r, runs fl (del_network_list c l rt) w tr w' r -> forall p, In p (changed tr) -> get_cache_file_path c (nl_name l) rt = Ok p).
Proof.
  intros fl c l rt w tr w'. split; intros r H p I.
  - apply cache_path_ok. destruct (add_network_list_inv _ _ _ _ _ _ _ _ H) as (tr1 & results & r1 & _ & CH & _ & _ & _ & _ & P4).
    destruct P4 as [(_ & _ & tr2 & r2 & -> & R & _)|(-> & _)]; [|rewrite CH in I; destruct I].
    rewrite changed_app, CH in I. cbn in I. apply cache_add_inv in R. destruct R as (_ & R & _). now apply R.
  - apply cache_path_ok. apply del_world in H. destruct H as (H & _). now apply H.
Qed.

(** C06 *)
Theorem C06_add_writes_only_its_entry : forall fl c l rt w tr w' r, runs fl (add_network_list c l rt) w tr w' r ->
  nl_plugins l <> [] ->
  (forall p, In p (changed tr) -> file_name (entry_name (nl_name l) rt) /\
     p = entry_of (join_path [cache_root c rt; "results"]) (entry_name (nl_name l) rt)) /\
  (forall q, q <> entry_of (join_path [cache_root c rt; "results"]) (entry_name (nl_name l) rt) -> sget q w' = sget q w).
Proof.
  intros fl c l rt w tr w' r H NE.
  assert (G : forall p, In p (changed tr) -> file_name (entry_name (nl_name l) rt) /\
     p = entry_of (join_path [cache_root c rt; "results"]) (entry_name (nl_name l) rt)).
  { intros p I.
    destruct (add_network_list_inv _ _ _ _ _ _ _ _ H) as (tr1 & results & r1 & _ & CH & P1 & _ & _ & _ & P4).
    destruct P4 as [(_ & L2 & tr2 & r2 & -> & R & _)|(-> & _)]; [|rewrite CH in I; destruct I].
    rewrite changed_app, CH in I. cbn in I. apply cache_add_inv in R. destruct R as (_ & R & _). destruct (R p I) as (N & ->).
    destruct (calls tr1) as [|x xs] eqn:E; [destruct (nl_plugins l); [now destruct NE|discriminate]|].
    destruct (P1 0 x eq_refl) as ((V1 & V2 & V3) & _).
    assert (F : file_name (entry_name (nl_name l) rt)) by now apply entry_name_ok.
    split; [exact F|]. unfold entry_path. apply join3_below; [apply cache_root_nonempty|reflexivity|now apply simple_spec]. }
  split; [exact G|]. intros q Q. eapply runs_unchanged; [exact H|]. intros I. destruct (G q I) as (_ & E). congruence.
Qed.

(** *** Concrete cases *)
Definition X_list_doc : string :=
  "{""cniVersion"":""1.1.0"",""name"":""net"",""plugins"":[{""type"":""bridge"",""capabilities"":{""mac"":true}},{""type"":""tuning""}]}".
Definition X_list : network_list := Eval vm_compute in
  match network_conf_from_bytes X_list_doc with Ok l => l | _ => {| nl_name := ""; nl_version := ""; nl_disable_check := false; nl_disable_gc := false; nl_only_inlined := false; nl_plugins := []; nl_bytes := "" |} end.
Definition X_cni : cni := {| c_path := ["/opt/bin"]; c_cache_dir := "/c" |}.
Definition X_rt : runtime_conf :=
  {| rt_container := "c1"; rt_netns := "/ns"; rt_ifname := "eth0"; rt_args := [("K", "v")]; rt_caps := []; rt_cache_dir := "" |}.
Definition X_oracle : oracle :=
  {| or_environ := ["HOME=/root"]; or_find := fun p _ => Ok ("/opt/bin/" ++ p);
     or_exec := fun n _ _ _ => Ok (if Nat.eqb n 0 then "{""cniVersion"":""1.1.0"",""ips"":[{""address"":""10.0.0.2/24""}]}"
                                   else "{""cniVersion"":""1.1.0"",""ips"":[{""address"":""10.0.0.3/24""}]}") |}.
Definition X_busy : oracle :=
  {| or_environ := []; or_find := fun p _ => Ok ("/opt/bin/" ++ p);
     or_exec := fun n _ _ _ => if Nat.eqb n 0 then Ok "{""cniVersion"":""1.1.0""}" else Err (ECNI 11 "try again" "") |}.
Lemma X_tame : tame X_oracle. Proof. split; reflexivity. Qed.
Lemma X_busy_tame : tame X_busy. Proof. split; [reflexivity|]. intros [|n]; reflexivity. Qed.
Definition X_add := interp X_oracle 0 (add_network_list X_cni X_list X_rt) [].

(** ADD with two plugins: both run, the second with the first one's result, the entry is written. *)
Example C14_nonvacuous : exists tr w' a, runs false (add_network_list X_cni X_list X_rt) [] tr w' (Ok a) /\
  map call_path (calls tr) = ["/opt/bin/bridge"; "/opt/bin/tuning"] /\
  map call_stdin (calls tr) =
    ["{""capabilities"":{""mac"":true},""cniVersion"":""1.1.0"",""name"":""net"",""type"":""bridge""}";
     "{""cniVersion"":""1.1.0"",""name"":""net"",""prevResult"":{""cniVersion"":""1.1.0"",""ips"":[{""address"":""10.0.0.2/24""}]},""type"":""tuning""}"] /\
  changed tr = ["/c/results/net-c1-eth0"; "/c/results/net-c1-eth0"].
Proof.
  destruct X_add as [[r w'] tr] eqn:E. pose proof (interp_run _ _ _ _ _ _ _ X_tame E) as R.
  vm_compute in E. injection E as <- <- <-. eexists _, _, _. split; [exact R|]. split; [reflexivity|]. split; [reflexivity|reflexivity].
Qed.
Definition X_world : world := Eval vm_compute in match X_add with (_, w, _) => w end.
(** ADD whose second plugin fails: the error is reported, nothing is cached. *)
Example C15_nonvacuous : exists tr m, runs false (add_network_list X_cni X_list X_rt) [] tr [] (Err (EWrap m (ECNI 11 "try again" ""))) /\
  List.length (calls tr) = 2.
Proof.
  destruct (interp X_busy 0 (add_network_list X_cni X_list X_rt) []) as [[r w'] tr] eqn:E. pose proof (interp_run _ _ _ _ _ _ _ X_busy_tame E) as R.
  vm_compute in E. injection E as <- <- <-. eexists _, _. split; [exact R|reflexivity].
Qed.
(** DEL after that ADD: in reverse, both with the cached result; the entry is gone. *)
Example C16_nonvacuous : exists tr, runs false (del_network_list X_cni X_list X_rt) X_world tr [] (Ok tt) /\
  map call_path (calls tr) = ["/opt/bin/tuning"; "/opt/bin/bridge"] /\
  at_least (nl_version X_list) (0, 4, 0)%Z /\ safe_entry X_cni (nl_name X_list) (nl_version X_list) X_rt X_world /\
  named (nl_name X_list) X_rt /\ X_world <> [].
Proof.
  destruct (interp X_oracle 0 (del_network_list X_cni X_list X_rt) X_world) as [[r w'] tr] eqn:E. pose proof (interp_run _ _ _ _ _ _ _ X_tame E) as R.
  vm_compute in E. injection E as <- <- <-. eexists. split; [exact R|]. split; [reflexivity|].
  split; [apply (proj1 (gte_iff _ "0.4.0" _ means_040)); vm_compute; reflexivity|]. split; [vm_compute; discriminate|].
  split; [repeat split; discriminate|discriminate].
Qed.
(** DEL with garbage in the cache file. *)
Example C34_nonvacuous : exists tr w' e, let w := [("/c/results/net-c1-eth0", "{""kind"":")] in
  runs false (del_network_list X_cni X_list X_rt) w tr w' (Ok tt) /\
  reads_result (nl_version X_list) (sget (entry_path X_cni (nl_name X_list) X_rt) w) = Err e /\ List.length (calls tr) = 2.
Proof.
  destruct (interp X_oracle 0 (del_network_list X_cni X_list X_rt) [("/c/results/net-c1-eth0", "{""kind"":")]) as [[r w'] tr] eqn:E. pose proof (interp_run _ _ _ _ _ _ _ X_tame E) as R.
  vm_compute in E. injection E as <- <- <-. eexists _, _, _. split; [exact R|]. split; [vm_compute; reflexivity|reflexivity].
Qed.
Example C17_nonvacuous : exists tr m e, runs false (del_network_list X_cni X_list X_rt) X_world tr X_world (Err (EWrap m e)) /\ List.length (calls tr) = 2.
Proof.
  destruct (interp X_busy 0 (del_network_list X_cni X_list X_rt) X_world) as [[r w'] tr] eqn:E. pose proof (interp_run _ _ _ _ _ _ _ X_busy_tame E) as R.
  vm_compute in E. injection E as <- <- <-. eexists _, _, _. split; [exact R|reflexivity].
Qed.
Example C18_nonvacuous : exists tr, runs false (check_network_list X_cni X_list X_rt) X_world tr X_world (Ok tt) /\
  map call_path (calls tr) = ["/opt/bin/bridge"; "/opt/bin/tuning"].
Proof.
  destruct (interp X_oracle 0 (check_network_list X_cni X_list X_rt) X_world) as [[r w'] tr] eqn:E. pose proof (interp_run _ _ _ _ _ _ _ X_tame E) as R.
  vm_compute in E. injection E as <- <- <-. eexists. split; [exact R|reflexivity].
Qed.
(** GC with an empty valid set: the attachment is deleted, then both plugins get GC. *)
Example C19_nonvacuous : exists tr, runs false (gc_network_list X_cni X_list (Some (Some []))) X_world tr [] (Ok tt) /\
  map (fun x => getenv (call_env x) "CNI_COMMAND") (calls tr) = ["DEL"; "DEL"; "GC"; "GC"].
Proof.
  destruct (interp X_oracle 0 (gc_network_list X_cni X_list (Some (Some []))) X_world) as [[r w'] tr] eqn:E. pose proof (interp_run _ _ _ _ _ _ _ X_tame E) as R.
  vm_compute in E. injection E as <- <- <-. eexists. split; [exact R|vm_compute; reflexivity].
Qed.
Example C20_nonvacuous : exists tr, runs false (get_status_network_list X_cni X_list) [] tr [] (Err (ECNI 11 "try again" "")) /\
  map (fun x => getenv (call_env x) "CNI_COMMAND") (calls tr) = ["STATUS"; "STATUS"].
Proof.
  destruct (interp X_busy 0 (get_status_network_list X_cni X_list) []) as [[r w'] tr] eqn:E. pose proof (interp_run _ _ _ _ _ _ _ X_busy_tame E) as R.
  vm_compute in E. injection E as <- <- <-. eexists. split; [exact R|vm_compute; reflexivity].
Qed.
Definition X_versions : oracle :=
  {| or_environ := []; or_find := fun p _ => Ok ("/opt/bin/" ++ p);
     or_exec := fun n _ _ _ => Ok "{""cniVersion"":""1.1.0"",""supportedVersions"":[""1.0.0"",""1.1.0""]}" |}.
Example C21_nonvacuous : exists tr, runs false (validate_network_list X_cni X_list) [] tr [] (Ok ["mac"]) /\ List.length (calls tr) = 2.
Proof.
  destruct (interp X_versions 0 (validate_network_list X_cni X_list) []) as [[r w'] tr] eqn:E.
  assert (T : tame X_versions) by (split; reflexivity). pose proof (interp_run _ _ _ _ _ _ _ T E) as R.
  vm_compute in E. injection E as <- <- <-. eexists. split; [exact R|reflexivity].
Qed.

(** *** What does not hold *)

(** Without plugins nothing validates the names: ADD of an empty list writes anywhere. *)
Theorem C06_empty_list_refuted : exists l rt tr w', network_conf_from_bytes (nl_bytes l) = Ok l /\
  runs false (add_network_list X_cni l rt) [] tr w' (Ok None) /\ sget "/etc/x" w' <> None.
Proof.
  set (doc := "{""cniVersion"":""1.0.0"",""name"":""n""}").
  destruct (network_conf_from_bytes doc) as [l|e|] eqn:L; [|vm_compute in L; discriminate|vm_compute in L; discriminate].
  assert (B : nl_bytes l = doc) by (vm_compute in L; injection L as <-; reflexivity).
  set (rt := {| rt_container := "c"; rt_netns := ""; rt_ifname := "/../../../etc/x"; rt_args := []; rt_caps := []; rt_cache_dir := "" |}).
  exists l, rt. destruct (interp X_oracle 0 (add_network_list X_cni l rt) []) as [[r w'] tr] eqn:E. pose proof (interp_run _ _ _ _ _ _ _ X_tame E) as R.
  vm_compute in L. injection L as <-. vm_compute in E. injection E as <- <- <-. eexists _, _. split; [vm_compute; reflexivity|]. split; [exact R|discriminate].
Qed.
(** A cache file with a null list entry makes DEL panic before running any plugin. *)
Theorem C34_null_entry_refuted : exists w tr, runs false (del_network_list X_cni X_list X_rt) w tr w Panic /\ calls tr = [] /\
  sget (entry_path X_cni (nl_name X_list) X_rt) w = Some "{""cniVersion"":""0.4.0"",""ips"":[null]}".
Proof.
  set (w := [("/c/results/net-c1-eth0", "{""cniVersion"":""0.4.0"",""ips"":[null]}")]).
  destruct (interp X_oracle 0 (del_network_list X_cni X_list X_rt) w) as [[r w'] tr] eqn:E. pose proof (interp_run _ _ _ _ _ _ _ X_tame E) as R.
  vm_compute in E. injection E as <- <- <-. exists w. eexists. split; [exact R|]. split; [reflexivity|vm_compute; reflexivity].
Qed.
(** DelNetwork, for a single configuration, is not tolerant: garbage in the cache makes it fail. *)
Theorem C34_single_del_refuted : exists net w tr e, plugin_conf_from_bytes (pg_bytes net) = Ok net /\
  runs false (del_network X_cni net X_rt) w tr w (Err e) /\ calls tr = [].
Proof.
  set (doc := "{""cniVersion"":""1.0.0"",""name"":""net"",""type"":""bridge""}").
  destruct (plugin_conf_from_bytes doc) as [net|e|] eqn:L; [|vm_compute in L; discriminate|vm_compute in L; discriminate].
  set (w := [("/c/results/net-c1-eth0", "{""kind"":")]).
  destruct (interp X_oracle 0 (del_network X_cni net X_rt) w) as [[r w'] tr] eqn:E. pose proof (interp_run _ _ _ _ _ _ _ X_tame E) as R.
  exists net, w. vm_compute in L. injection L as <-. vm_compute in E. injection E as <- <- <-. eexists _, _. split; [vm_compute; reflexivity|]. split; [exact R|reflexivity].
Qed.
Print Assumptions C06_add_writes_only_its_entry.
Print Assumptions C14_add_chains_results.
Print Assumptions C15_failure_stops_and_keeps_cache.
Print Assumptions C16_del_reverse_with_cached_result.
Print Assumptions C17_failure_keeps_readable_entry.
Print Assumptions C18_check_asks_in_order.
Print Assumptions C19_gc_deletes_the_stale_and_tells_plugins.
Print Assumptions C20_status_asks_in_order.
Print Assumptions C21_validate_exact.
Print Assumptions C34_del_tolerates_bad_cache.
Print Assumptions C58_add_and_del_use_it.
