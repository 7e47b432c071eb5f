(** Delegation and cnitool: C25, C56. *)
From Coq Require Import String Ascii List Arith ZArith NArith Bool Lia Permutation.
From Verif Require Import Model.GoStr Model.Errors Model.Version Model.Args Model.Path Model.Validate Model.Json Model.GoJson Model.Types Model.Conf Model.Invoke Model.Prog Model.Api Model.Delegate Model.Cnitool
  Spec.EnvSpec Spec.NameSpec Spec.PathSpec Spec.ConfSpec Spec.RunSpec Spec.ToolSpec
  Proofs.StrP Proofs.EnvP Proofs.ValidateP Proofs.PathP Proofs.GoJsonP Proofs.LoadP Proofs.ProgP Proofs.ToolP Properties.P_Conf.
Import ListNotations.
Open Scope nat_scope.
Open Scope string_scope.

(** *** C25: delegation *)
(** ADD: look up, run once with the configuration and the caller's environment, decode (C40). *)
Theorem C25_delegate_add : forall fl plugin netconf w tr w' r, runs fl (delegate_add plugin netconf) w tr w' r ->
  w' = w /\ exists found, delegation plugin netconf "ADD" tr found /\
  ((exists e, found = Err e /\ r = Err e) \/
   (exists path x, found = Ok path /\ calls tr = [x] /\ call_path x = path /\ call_stdin x = netconf /\
      ((exists e, call_answer x = Err e /\ r = Err e) \/ (exists out, call_answer x = Ok out /\ r = add_result netconf out)))).
Proof. intros fl plugin netconf w tr w' r H. exact (delegate_inv _ _ _ _ _ _ _ _ _ _ H). Qed.
(** The other verbs: the same, and the answer is only success or the plugin's error. *)
Theorem C25_delegate_others : forall fl plugin netconf verb p w tr w' r,
  In (verb, p) [("CHECK", delegate_check plugin netconf); ("DEL", delegate_del plugin netconf);
                ("STATUS", delegate_status plugin netconf); ("GC", delegate_gc plugin netconf)] ->
  runs fl p w tr w' r ->
  w' = w /\ exists found, delegation plugin netconf verb tr found /\
  ((exists e, found = Err e /\ r = Err e) \/
   (exists path x, found = Ok path /\ calls tr = [x] /\ call_path x = path /\ call_stdin x = netconf /\
      ((exists e, call_answer x = Err e /\ r = Err e) \/ (exists out, call_answer x = Ok out /\ r = Ok tt)))).
Proof.
  intros fl plugin netconf verb p w tr w' r I H. cbn [In] in I.
  destruct I as [I|[I|[I|[I|[]]]]]; injection I as <- <-; exact (delegate_inv _ _ _ _ _ (fun _ => Ok tt) _ _ _ _ H).
Qed.
(** So the delegate reads every other variable as the caller does: a process environment, as
    os.Environ returns it, assigns each variable once. *)
Theorem C25_same_variables : forall environ verb env, delegated_env environ verb env -> each_once environ ->
  forall k, k <> "CNI_COMMAND" -> getenv env k = getenv environ k.
Proof.
  intros environ verb env (_ & O & D & _) OE k N. unfold getenv. destruct (String.eqb k ""); [reflexivity|].
  destruct (lookup_env environ k) as [v|] eqn:L.
  - assert (A : exists e, In e environ /\ assigns e k v).
    { rewrite lookup_env_pairs in L. apply sget_In in L. now apply pairs_in in L. }
    destruct A as (e & I & A). assert (LA : last_assigned environ k v).
    { apply last_get_pairs. rewrite last_get_nodup by now apply each_once_nodup. now rewrite <- lookup_env_pairs. }
    apply (D e k v N A) in LA. destruct A as (LK & ->). now rewrite (lookup_once env k v O LK LA).
  - rewrite lookup_none; [reflexivity|]. intros e v I A. apply (D e k v N A) in I. apply last_get_pairs in I.
    rewrite last_get_nodup in I by now apply each_once_nodup. rewrite lookup_env_pairs in L. congruence.
Qed.
Definition C25_oracle : oracle :=
  {| or_environ := ["CNI_COMMAND=ADD"; "CNI_PATH=/a:/b"; "CNI_IFNAME=eth0"; "junk"];
     or_find := fun p dirs => if String.eqb (String.concat "," dirs) "/a,/b" then Ok ("/b/" ++ p) else Err (EMsg "not found");
     or_exec := fun _ _ _ _ => Ok "" |}.
Example C25_nonvacuous : exists tr, runs false (delegate_del "host-local" "{}") [] tr [] (Ok tt) /\
  tr = [(OpEnviron, REnv (or_environ C25_oracle)); (OpFind "host-local" ["/a"; "/b"], RStr (Ok "/b/host-local"));
        (OpEnviron, REnv (or_environ C25_oracle));
        (OpExec "/b/host-local" "{}" ["junk"; "CNI_COMMAND=DEL"; "CNI_IFNAME=eth0"; "CNI_PATH=/a:/b"], RStr (Ok ""))] /\
  each_once (or_environ C25_oracle).
Proof.
  eexists. split; [apply (interp_run (res unit) C25_oracle)|].
  - split; intros; cbn; [destruct (String.eqb _ _)|]; reflexivity.
  - vm_compute. reflexivity.
  - split; [reflexivity|]. apply each_once_nodup. vm_compute. repeat constructor; cbn; intuition discriminate.
Qed.

(** *** C56: cnitool *)
(** A command line and environment that do not stand for a request: message, status 1, nothing done. *)
Theorem C56_bad_request : forall fl te w tr w' o, runs fl (cnitool_main te) w tr w' o ->
  (forall cmd c l rt, ~ tool_request te cmd c l rt) -> tr = [] /\ w' = w /\ to_exit o <> 0%N /\ to_stdout o = "".
Proof.
  intros fl te w tr w' o H N. unfold cnitool_main in H. destruct (tool_setup te) as [(((cmd & c) & l) & rt)|e|] eqn:E.
  - apply tool_setup_iff in E. now destruct (N _ _ _ _ E).
  - apply runs_ret in H. destruct H as (-> & -> & ->). repeat split. discriminate.
  - apply runs_ret in H. destruct H as (-> & -> & ->). repeat split. discriminate.
Qed.
Lemma tool_run_simple fl (p : prog (res unit)) w tr w' o :
  runs fl (bind p (fun r => Ret (tool_exit r ""))) w tr w' o -> exists r, runs fl p w tr w' r /\ exit_reports r o /\ to_stdout o = "".
Proof.
  intros H. apply runs_bind in H. destruct H as (tr1 & w1 & r & tr2 & R & R2 & ->). apply runs_ret in R2. destruct R2 as (-> & -> & ->).
  rewrite app_nil_r. exists r. split; [exact R|]. destruct r; cbn; auto.
Qed.
(** Each command performs that operation of the library, once, and reports its outcome. *)
Theorem C56_performs_the_operation : forall fl te cmd c l rt w tr w' o,
  tool_request te cmd c l rt -> runs fl (cnitool_main te) w tr w' o ->
  (cmd = "add" -> exists r, runs fl (add_network_list c l rt) w tr w' r /\ exit_reports r o /\
     (forall x text, r = Ok (Some x) -> result_print x = Ok text -> to_stdout o = text) /\
     ((forall x, r <> Ok (Some x)) -> to_stdout o = "")) /\
  (cmd = "check" -> exists r, runs fl (check_network_list c l rt) w tr w' r /\ exit_reports r o /\ to_stdout o = "") /\
  (cmd = "del" -> exists r, runs fl (del_network_list c l rt) w tr w' r /\ exit_reports r o /\ to_stdout o = "") /\
  (cmd = "gc" -> exists r, runs fl (gc_network_list c l None) w tr w' r /\ exit_reports r o /\ to_stdout o = "") /\
  (cmd = "status" -> exists r, runs fl (get_status_network_list c l) w tr w' r /\ exit_reports r o /\ to_stdout o = "").
Proof.
  intros fl te cmd c l rt w tr w' o T H. unfold cnitool_main in H. apply tool_setup_iff in T. rewrite T in H. unfold tool_dispatch in H.
  repeat split; intros ->; cbn [String.eqb Ascii.eqb Bool.eqb] in H; try (now apply tool_run_simple).
  apply runs_bind in H. destruct H as (tr1 & w1 & r & tr2 & R & R2 & ->). apply runs_ret in R2. destruct R2 as (-> & -> & ->).
  rewrite app_nil_r. exists r. split; [exact R|]. destruct r as [[x|]|e|]; cbn.
  - split; [auto|]. split; [intros y t E P; injection E as <-; now rewrite P|]. intros N. now destruct (N x).
  - split; [auto|]. split; [discriminate|reflexivity].
  - split; [auto|]. split; [discriminate|reflexivity].
  - split; [auto|]. split; [discriminate|reflexivity].
Qed.
(** The container ID is a function of the absolute namespace path only, and a valid one. *)
Theorem C56_container_id : forall te te' cmd cmd' c c' l l' rt rt',
  tool_request te cmd c l rt -> tool_request te' cmd' c' l' rt' -> te_sha512 te = te_sha512 te' ->
  rt_netns rt = rt_netns rt' -> rt_container rt = rt_container rt'.
Proof.
  intros te te' cmd cmd' c c' l l' rt rt' (n & ns & m & _ & _ & _ & _ & _ & -> & _) (n' & ns' & m' & _ & _ & _ & _ & _ & -> & _) -> ->. reflexivity.
Qed.
Lemma hex_digit_alnum n : (n < 16)%N -> alnum (hex_digit n).
Proof.
  intros H. unfold alnum, hex_digit. destruct (N.ltb_spec n 10).
  - fold (code (chr (48 + n))). rewrite code_chr by lia. lia.
  - fold (code (chr (87 + n))). rewrite code_chr by lia. lia.
Qed.
Lemma hex_of_name s : all_bytes name_char (hex_of s).
Proof.
  induction s as [|a s IH]; [constructor|]. cbn [hex_of]. pose proof (code_lt_256 a).
  constructor; [left; apply hex_digit_alnum; apply N.div_lt_upper_bound; lia|]. constructor; [left; apply hex_digit_alnum; apply N.mod_lt; lia|exact IH].
Qed.
Theorem C56_container_id_is_valid : forall te cmd c l rt, tool_request te cmd c l rt -> good_name (rt_container rt).
Proof.
  intros te cmd c l rt (n & ns & m & _ & _ & _ & _ & _ & -> & _). exists "c"%char, ("nitool-" ++ hex_of (stake 10 (te_sha512 te (rt_netns rt)))).
  split; [reflexivity|]. split; [vm_compute; intuition discriminate|].
  do 7 (constructor; [first [left; vm_compute; intuition discriminate|right; right; right; reflexivity]|]). apply hex_of_name.
Qed.
(** The namespace path is absolute and cleaned, so all spellings of a path give one attachment. *)
Theorem C56_absolute_path : forall te cmd c l rt, tool_request te cmd c l rt ->
  (forall d, te_cwd te = Some d -> is_rooted d = true) -> in_clean_form (rt_netns rt) /\ String.prefix "/" (rt_netns rt) = true.
Proof.
  intros te cmd c l rt (n & ns & m & _ & _ & _ & _ & AB & _) CW.
  assert (G : forall p, is_rooted p = true -> in_clean_form (clean p) /\ String.prefix "/" (clean p) = true).
  { intros p R. split; [apply clean_form|]. assert (NE : p <> "") by (intros ->; discriminate). rewrite (clean_nonempty p NE).
    pose proof (render_rooted (is_rooted p) (clean_comps p) (clean_comps_ok p)) as RR. rewrite R in *.
    apply is_rooted_slash_first in RR. destruct RR as (q & ->). destruct q; reflexivity. }
  destruct AB as [(R & ->)|(R & d & D & ->)]; [now apply G|].
  specialize (CW d D). cbn [join_path]. destruct (String.eqb_spec d "") as [->|ND]; [discriminate|]. apply G.
  unfold join. cbn [String.concat]. now rewrite is_rooted_app.
Qed.
(** The part that fails: a command cnitool does not know succeeds without doing anything. *)
Theorem C56_unknown_command_refuted : forall fl te cmd c l rt w tr w' o,
  tool_request te cmd c l rt -> ~ In cmd ["add"; "check"; "del"; "gc"; "status"] -> runs fl (cnitool_main te) w tr w' o ->
  tr = [] /\ w' = w /\ to_exit o = 0%N.
Proof.
  intros fl te cmd c l rt w tr w' o T N H. unfold cnitool_main in H. apply tool_setup_iff in T. rewrite T in H. unfold tool_dispatch in H.
  cbn [In] in N. repeat match type of H with context [String.eqb cmd ?k] => destruct (String.eqb_spec cmd k) as [->|_]; [exfalso; apply N; tauto|] end.
  apply runs_ret in H. destruct H as (-> & -> & ->). auto.
Qed.
Definition C56_env (cmd : string) : tool_env :=
  {| te_argv := [cmd; "m"; "ns/../a"]; te_environ := ["NETCONFPATH=/etc"; "CNI_PATH=/opt/cni/bin"; "CNI_ARGS=K=V;A=B"; "CAP_ARGS={""mac"":""aa""}"];
     te_cwd := Some "/run"; te_fs := C_fs; te_sha512 := fun s => s |}.
Example C56_nonvacuous : exists c l rt, tool_request (C56_env "del") "del" c l rt /\ nl_name l = "m" /\
  rt_netns rt = "/run/a" /\ rt_ifname rt = "eth0" /\ rt_args rt = [("K", "V"); ("A", "B")] /\ rt_container rt = "cnitool-2f72756e2f61".
Proof.
  eexists _, _, _. split; [apply tool_setup_iff; vm_compute; reflexivity|]. repeat split; reflexivity.
Qed.
Example C56_unknown_command_nonvacuous : exists c l rt, tool_request (C56_env "delete") "delete" c l rt.
Proof. eexists _, _, _. apply tool_setup_iff. vm_compute. reflexivity. Qed.
Print Assumptions C25_delegate_add.
Print Assumptions C25_same_variables.
Print Assumptions C56_performs_the_operation.
Print Assumptions C56_absolute_path.
