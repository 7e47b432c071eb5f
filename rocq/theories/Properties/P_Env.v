(** C22, C48, C49: plugin environments and CNI_ARGS. *)
From Coq Require Import String Ascii List NArith Bool Permutation.
From Verif Require Import Model.GoStr Model.Errors Model.Args Spec.EnvSpec Proofs.StrP Proofs.EnvP.
Import ListNotations.
Open Scope nat_scope.
Open Scope string_scope.

(** C22.  [env] is the environment given to the plugin in any order (Go iterates a map), [environ]
    the process environment, [a] the request. *)
Theorem C22_each_variable_once : forall environ a env, Permutation (as_env environ a) env -> each_once env.
Proof. intros environ a env. exact (out_once _ _). Qed.
Theorem C22_protocol_variables_override : forall environ a env, Permutation (as_env environ a) env ->
  getenv env "CNI_COMMAND" = a_command a /\
  getenv env "CNI_CONTAINERID" = a_container_id a /\
  getenv env "CNI_NETNS" = a_netns a /\
  getenv env "CNI_ARGS" = (if String.eqb (a_plugin_args_str a) "" then stringify (a_plugin_args a) else a_plugin_args_str a) /\
  getenv env "CNI_IFNAME" = a_ifname a /\
  getenv env "CNI_PATH" = a_path a.
Proof.
  intros environ a env P. rewrite as_env_eq in P.
  repeat split; (apply (out_getenv _ _ P); [discriminate|]; apply as_env_last; reflexivity).
Qed.
(** The entries for a protocol variable are exactly the request's one. *)
Theorem C22_protocol_entries_exact : forall environ a env e k v, Permutation (as_env environ a) env ->
  In (k, v) [("CNI_COMMAND", a_command a); ("CNI_CONTAINERID", a_container_id a); ("CNI_NETNS", a_netns a);
             ("CNI_ARGS", if String.eqb (a_plugin_args_str a) "" then stringify (a_plugin_args a) else a_plugin_args_str a);
             ("CNI_IFNAME", a_ifname a); ("CNI_PATH", a_path a)] ->
  forall v', assigns e k v' -> (In e env <-> v' = v).
Proof.
  intros environ a env e k v P I v' A. rewrite as_env_eq in P. rewrite (out_iff _ _ P k v' e A), as_env_last.
  change (In (k, v) (protocol a)) in I.
  assert (L : last_get k (protocol a) = Some v).
  { rewrite last_get_nodup; [|repeat constructor; cbn; intuition discriminate].
    cbn in I. intuition; injection H0 as <- <- || injection H as <- <-; reflexivity. }
  rewrite L. intuition.
Qed.
Theorem C22_others_inherited : forall environ a env e k v, Permutation (as_env environ a) env ->
  ~ In k ["CNI_COMMAND"; "CNI_CONTAINERID"; "CNI_NETNS"; "CNI_ARGS"; "CNI_IFNAME"; "CNI_PATH"] ->
  assigns e k v -> (In e env <-> last_assigned environ k v).
Proof.
  intros environ a env e k v P N A. rewrite as_env_eq in P. rewrite (out_iff _ _ P k v e A), as_env_last, protocol_other; [reflexivity|exact N].
Qed.
(** Entries that assign nothing are kept, as often as they occur. *)
Theorem C22_other_entries_kept : forall environ a env e, Permutation (as_env environ a) env ->
  lacks "="%char e -> count_occ string_dec env e = count_occ string_dec environ e.
Proof.
  intros environ a env e P L. rewrite as_env_eq in P. rewrite (out_bare _ _ P e L), count_occ_app.
  replace (count_occ string_dec (map _ _) e) with 0; [apply PeanoNat.Nat.add_0_r|].
  symmetry. apply count_occ_not_In. intros H. apply lacks_cb in L.
  cbn in H. repeat (destruct H as [H|H]; [subst e; discriminate|]). destruct H.
Qed.
Definition C22_args : args :=
  {| a_command := "ADD"; a_container_id := "c"; a_netns := "/n"; a_plugin_args := [("K", "V"); ("X", "")];
     a_plugin_args_str := ""; a_ifname := "eth0"; a_path := "/bin:/opt" |}.
Example C22_nonvacuous :
  as_env ["A=1"; "CNI_COMMAND=DEL"; "junk"; "A=2=3"; "CNI_ARGS=evil"; "CNI_COMMAND=x"] C22_args =
  ["junk"; "A=2=3"; "CNI_ARGS=K=V;X="; "CNI_COMMAND=ADD"; "CNI_CONTAINERID=c"; "CNI_IFNAME=eth0"; "CNI_NETNS=/n"; "CNI_PATH=/bin:/opt"].
Proof. vm_compute. reflexivity. Qed.

(** C48: the text CNI_ARGS splits at ; and = into the pairs it was made of, in order. *)
Theorem C48_args_round_trip : forall l, l <> [] -> plain_pairs l ->
  map (split_on "="%char) (split_on ";"%char (stringify l)) = map (fun kv => [fst kv; snd kv]) l.
Proof. exact stringify_pairs. Qed.
(** From the runtime's arguments to the fields of a plugin whose struct takes all of them. *)
Theorem C48_args_reach_the_plugin : forall environ a env desc st,
  Permutation (as_env environ a) env -> a_plugin_args_str a = "" -> plain_pairs (a_plugin_args a) ->
  (forall k v, In (k, v) (a_plugin_args a) -> exists acc, sget k desc = Some (FText acc) /\ acc v = true) ->
  exists st', load_args desc (getenv env "CNI_ARGS") st = (st', Ok tt) /\
    forall k v, last_value k (a_plugin_args a) = Some v -> sget k (st_fields st') = Some v.
Proof.
  intros environ a env desc st P S PP D.
  destruct (C22_protocol_variables_override _ _ _ P) as (_ & _ & _ & -> & _). rewrite S. cbn [String.eqb].
  destruct (a_plugin_args a) as [|kv l] eqn:E.
  - cbn. exists st. split; [reflexivity|]. discriminate.
  - rewrite <- E in *. assert (N : a_plugin_args a <> []) by (rewrite E; discriminate).
    unfold load_args. destruct (String.eqb_spec (stringify (a_plugin_args a)) "") as [X|_];
      [exfalso; exact (stringify_nonempty _ N X)|].
    rewrite stringify_entries by assumption.
    assert (F : forallb (field_ok desc) (a_plugin_args a) = true).
    { apply forallb_forall. intros [k v] I. destruct (D k v I) as (acc & G & A). unfold field_ok. cbn. now rewrite G. }
    rewrite load_args_loop_ok by assumption.
    assert (U : filter (fun kv => negb (known desc (fst kv))) (a_plugin_args a) = []).
    { clear - D. induction (a_plugin_args a) as [|[k v] l IH]; [reflexivity|]. cbn.
      destruct (D k v (or_introl eq_refl)) as (acc & G & _). unfold known. rewrite G. cbn. apply IH.
      intros k' v' I. apply D. now right. }
    rewrite U. cbn. eexists. split; [reflexivity|]. intros k v L. rewrite fold_upd_fields, L.
    assert (K : known desc k = true); [|now rewrite K].
    assert (I : exists v', In (k, v') (a_plugin_args a)).
    { clear - L. induction (a_plugin_args a) as [|[k' v'] l IH]; [discriminate|]. cbn in L.
      destruct (last_value k l) as [x|]; [injection L as ->; destruct (IH eq_refl) as [w I]; exists w; now right|].
      destruct (String.eqb_spec k k') as [->|]; [|discriminate]. exists v'. now left. }
    destruct I as [v' I]. destruct (D k v' I) as (acc & G & _). unfold known. now rewrite G.
Qed.
(** The restriction is needed: a value with ; smuggles in another argument. *)
Theorem C48_separators_in_values_refuted :
  stringify [("A", "x;B=y")] = stringify [("A", "x"); ("B", "y")].
Proof. reflexivity. Qed.
Example C48_nonvacuous : plain_pairs [("K", "V"); ("K8S_POD", "")] /\ stringify [("K", "V"); ("K8S_POD", "")] = "K=V;K8S_POD=".
Proof.
  split; [|reflexivity]. repeat constructor; cbn; unfold lacks; cbn; intuition discriminate.
Qed.

(** C49.  A struct: fields by name; exactly IgnoreUnknown is the boolean of CommonArgs. *)
Definition args_struct (desc : struct_desc) : Prop :=
  forall k, sget k desc = Some FBoolIgnore <-> k = "IgnoreUnknown".
(** The field exists and takes the value. *)
Definition takes (desc : struct_desc) (k v : string) : Prop :=
  match sget k desc with
  | Some (FText acc) => acc v = true
  | Some FBoolIgnore => In (to_lower v) ["1"; "true"; "0"; "false"]
  | _ => False
  end.
(** IgnoreUnknown when all arguments have been processed. *)
Definition ignoring (l : list (string * string)) (b0 : bool) : Prop :=
  match last_value "IgnoreUnknown" l with
  | Some v => In (to_lower v) ["1"; "true"]
  | None => b0 = true
  end.

Lemma unmarshal_bool_true v : unmarshal_bool v = Some true <-> In (to_lower v) ["1"; "true"].
Proof.
  unfold unmarshal_bool. cbn. destruct (String.eqb_spec (to_lower v) "1") as [->|N1]; cbn; [intuition|].
  destruct (String.eqb_spec (to_lower v) "true") as [->|N2]; cbn; [intuition|].
  destruct (_ || _); intuition congruence.
Qed.
Lemma unmarshal_bool_ok v : (exists b, unmarshal_bool v = Some b) <-> In (to_lower v) ["1"; "true"; "0"; "false"].
Proof.
  unfold unmarshal_bool. cbn.
  destruct (String.eqb_spec (to_lower v) "1") as [->|N1]; cbn; [intuition eauto|].
  destruct (String.eqb_spec (to_lower v) "true") as [->|N2]; cbn; [intuition eauto|].
  destruct (String.eqb_spec (to_lower v) "0") as [->|N3]; cbn; [intuition eauto|].
  destruct (String.eqb_spec (to_lower v) "false") as [->|N4]; cbn; [intuition eauto|].
  split; [intros [b H]; discriminate|intuition congruence].
Qed.
Lemma takes_field_ok desc k v : sget k desc <> None -> (takes desc k v <-> field_ok desc (k, v) = true).
Proof.
  unfold takes, field_ok. cbn. intros N. destruct (sget k desc) as [[acc| | |]|]; try tauto; try (intuition discriminate).
  rewrite <- (unmarshal_bool_ok v). destruct (unmarshal_bool v) as [b|]; [intuition eauto|].
  split; [intros [b H]; discriminate|discriminate].
Qed.

Theorem C49_load_args_exact : forall desc l st, args_struct desc -> l <> [] -> plain_pairs l ->
  ((exists st', load_args desc (stringify l) st = (st', Ok tt)) <->
   (forall k v, In (k, v) l -> sget k desc <> None -> takes desc k v) /\
   ((forall k v, In (k, v) l -> sget k desc <> None) \/ ignoring l (st_ignore st))) /\
  (forall st', load_args desc (stringify l) st = (st', Ok tt) ->
   forall k, sget k (st_fields st') =
     match sget k desc, last_value k l with
     | Some _, Some v => Some v
     | _, _ => sget k (st_fields st)
     end).
Proof.
  intros desc l st AS N P.
  assert (I : forall k, is_ignore desc k = true <-> k = "IgnoreUnknown").
  { intros k. rewrite <- (AS k). unfold is_ignore. destruct (sget k desc) as [[]|]; intuition discriminate. }
  unfold load_args. destruct (String.eqb_spec (stringify l) "") as [X|_]; [exfalso; exact (stringify_nonempty _ N X)|].
  rewrite stringify_entries by assumption.
  destruct (forallb (field_ok desc) l) eqn:F.
  - rewrite load_args_loop_ok by assumption. cbn [app].
    assert (T : forall k v, In (k, v) l -> sget k desc <> None -> takes desc k v).
    { intros k v H K. apply takes_field_ok; [exact K|]. rewrite forallb_forall in F. now apply F. }
    assert (IG : st_ignore (fold_left (upd desc) l st) = true <-> ignoring l (st_ignore st)).
    { rewrite (fold_upd_ignore desc l "IgnoreUnknown") by assumption. unfold ignore_after, ignoring.
      destruct (last_value "IgnoreUnknown" l) as [v|] eqn:L; [|reflexivity].
      rewrite <- unmarshal_bool_true.
      assert (X : exists b, unmarshal_bool v = Some b).
      { apply unmarshal_bool_ok. assert (In ("IgnoreUnknown", v) l).
        { clear - L. induction l as [|[k' v'] l IH]; [discriminate|]. cbn [last_value] in L.
          destruct (last_value "IgnoreUnknown" l) as [x|]; [right; apply IH; exact L|].
          destruct (String.eqb_spec "IgnoreUnknown" k') as [<-|]; [|discriminate]. injection L as ->. now left. }
        assert (G : sget "IgnoreUnknown" desc = Some FBoolIgnore) by now apply AS.
        specialize (T _ _ H). unfold takes in T. rewrite G in T. apply T. discriminate. }
      destruct X as [b ->]. split; [intros ->; reflexivity|congruence]. }
    set (un := filter _ l). assert (U : un = [] <-> forall k v, In (k, v) l -> sget k desc <> None).
    { unfold un, known. split.
      - intros E k v H G. assert (Z : In (k, v) un) by (apply filter_In; cbn; unfold known; now rewrite G).
        unfold un, known in Z. rewrite E in Z. destruct Z.
      - intros H. clear - H. induction l as [|[k v] l IH]; [reflexivity|]. cbn.
        destruct (sget k desc) eqn:G; [|exfalso; exact (H k v (or_introl eq_refl) G)]. cbn. apply IH.
        intros k' v' Z. apply (H k' v'). now right. }
    split.
    + split.
      * intros [st' H]. split; [exact T|]. destruct un as [|u us] eqn:EU; [left; now apply U|right].
        apply IG. cbn in H. destruct (st_ignore (fold_left (upd desc) l st)); [reflexivity|]. cbn in H. discriminate.
      * intros [_ [H|H]].
        -- apply U in H. rewrite H. cbn. eauto.
        -- apply IG in H. rewrite H, andb_false_r. eauto.
    + intros st' H. assert (E : st' = fold_left (upd desc) l st) by (destruct (_ && _); congruence).
      subst st'. intros k. rewrite fold_upd_fields. unfold known. destruct (sget k desc); reflexivity.
  - destruct (load_args_loop_bad desc l [] st P F) as (st' & e & ->). split; [|intros st'' H; discriminate].
    split; [intros [? H]; discriminate|]. intros [H _]. exfalso.
    assert (X : forallb (field_ok desc) l = true); [|congruence]. apply forallb_forall. intros [k v] Z.
    destruct (sget k desc) eqn:G; [|unfold field_ok; cbn; now rewrite G].
    apply takes_field_ok; [congruence|]. apply H; [exact Z|congruence].
Qed.
(** A text that is not a list of pairs is an error; the empty text is no arguments. *)
Theorem C49_malformed_rejected : forall desc s st, s <> "" ->
  (forall l, l <> [] -> plain_pairs l -> s <> stringify l) ->
  exists st' e, load_args desc s st = (st', Err e).
Proof.
  intros desc s st N H. unfold load_args. destruct (String.eqb_spec s ""); [contradiction|].
  assert (X : exists p, In p (split_on ";"%char s) /\ forall k v, split_on "="%char p <> [k; v]).
  { assert (D : forall ps, (forall p, In p ps -> exists k v, split_on "="%char p = [k; v]) \/
                           exists p, In p ps /\ forall k v, split_on "="%char p <> [k; v]).
    { induction ps as [|p ps IH]; [left; intros p []|]. destruct (split_two_dec p) as [E|E]; [|right; exists p; split; [now left|exact E]].
      destruct IH as [IH|(q & I & Q)]; [left|right; exists q; split; [now right|exact Q]].
      intros q [<-|I]; auto. }
    destruct (D (split_on ";"%char s)) as [A|A]; [|exact A].
    apply plain_of_split in A. destruct A as (l & L & P & E). exfalso. exact (H l L P E). }
  destruct (load_args_loop_malformed desc _ [] st X) as (st' & e & ->). eauto.
Qed.
Theorem C49_empty_is_ok : forall desc st, load_args desc "" st = (st, Ok tt).
Proof. reflexivity. Qed.
Definition C49_desc : struct_desc :=
  [("CommonArgs", FOther); ("IgnoreUnknown", FBoolIgnore); ("IP", FText (fun v => negb (String.eqb v "")));
   ("private", FHidden)].
Example C49_nonvacuous : args_struct C49_desc /\
  load_args C49_desc "X=1;IP=a;IP=b;IgnoreUnknown=TRUE" {| st_fields := []; st_ignore := false |} =
    ({| st_fields := [("IP", "b"); ("IgnoreUnknown", "TRUE")]; st_ignore := true |}, Ok tt) /\
  snd (load_args C49_desc "X=1;IP=a" {| st_fields := []; st_ignore := false |}) <> Ok tt.
Proof.
  split; [|split; [vm_compute; reflexivity|vm_compute; discriminate]].
  intros k. unfold C49_desc. cbn.
  destruct (String.eqb_spec k "CommonArgs") as [->|]; [intuition discriminate|].
  destruct (String.eqb_spec k "IgnoreUnknown") as [->|N]; [intuition|].
  destruct (String.eqb_spec k "IP"); [intuition discriminate|].
  destruct (String.eqb_spec k "private"); intuition discriminate.
Qed.

Print Assumptions C22_each_variable_once.
Print Assumptions C22_protocol_variables_override.
Print Assumptions C22_others_inherited.
Print Assumptions C48_args_reach_the_plugin.
Print Assumptions C49_load_args_exact.
Print Assumptions C49_malformed_rejected.
