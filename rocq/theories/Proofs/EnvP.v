(** Environments and CNI_ARGS. *)
From Coq Require Import String Ascii List Arith NArith Bool Lia Permutation.
From Verif Require Import Model.GoStr Model.Errors Model.Args Spec.EnvSpec Proofs.StrP.
Import ListNotations.
Open Scope nat_scope.
Open Scope string_scope.

Lemma chars_lascii s : list_ascii_of_string s = chars s.
Proof. induction s as [|c s IH]; cbn; [reflexivity|now rewrite IH]. Qed.
Lemma lacks_cb c s : lacks c s <-> contains_byte c s = false.
Proof. unfold lacks. rewrite chars_lascii. symmetry. apply contains_byte_false_chars. Qed.

Lemma assigns_cut e k v : assigns e k v <-> cut_on "="%char e = Some (k, v).
Proof. unfold assigns. rewrite cut_on_some, lacks_cb. cbn. intuition. Qed.
Lemma assigns_fun e k v k' v' : assigns e k v -> assigns e k' v' -> k = k' /\ v = v'.
Proof. rewrite !assigns_cut. intros H1 H2. rewrite H1 in H2. injection H2 as -> ->. auto. Qed.

(** The assignments of an environment, as pairs. *)
Definition pairs (env : list string) : list (string * string) :=
  flat_map (fun e => match cut_on "="%char e with Some kv => [kv] | None => [] end) env.
Definition bare (env : list string) : list string :=
  filter (fun e => negb (contains_byte "="%char e)) env.

Lemma dedup_collect_eq env : forall out m,
  dedup_collect env out m = ((out ++ bare env)%list, sset_all (pairs env) m).
Proof.
  induction env as [|e env IH]; intros out m; cbn; [now rewrite app_nil_r|].
  destruct (cut_on "="%char e) as [[k v]|] eqn:E.
  - rewrite IH. apply cut_on_some in E. destruct E as [-> E].
    rewrite contains_byte_app, contains_byte_cons. change (Ascii.eqb "=" "=") with true.
    rewrite orb_true_r. reflexivity.
  - rewrite IH. apply cut_on_none in E. rewrite E. cbn. now rewrite <- app_assoc.
Qed.
Lemma dedup_env_eq env : dedup_env env =
  (bare env ++ map (fun kv => (fst kv ++ "=" ++ snd kv)%string) (sset_all (pairs env) []))%list.
Proof. unfold dedup_env. now rewrite dedup_collect_eq. Qed.

Lemma pairs_in env k v : In (k, v) (pairs env) <-> exists e, In e env /\ assigns e k v.
Proof.
  unfold pairs. rewrite in_flat_map. split.
  - intros (e & H & K). exists e. split; [exact H|]. apply assigns_cut.
    destruct (cut_on "="%char e) as [kv|]; [|destruct K]. destruct K as [->|[]]. reflexivity.
  - intros (e & H & K). exists e. apply assigns_cut in K. rewrite K. cbn. auto.
Qed.
Lemma pairs_app a b : pairs (a ++ b)%list = (pairs a ++ pairs b)%list.
Proof. unfold pairs. now rewrite flat_map_app. Qed.
Lemma bare_app a b : bare (a ++ b)%list = (bare a ++ bare b)%list.
Proof. unfold bare. now rewrite filter_app. Qed.
Lemma bare_no_assign env e k v : In e (bare env) -> ~ assigns e k v.
Proof.
  unfold bare. rewrite filter_In. intros [_ H] A. apply negb_true_iff in H.
  apply cut_on_none in H. apply assigns_cut in A. congruence.
Qed.

Lemma pairs_cons e env : pairs (e :: env) = ((match cut_on "="%char e with Some kv => [kv] | None => [] end) ++ pairs env)%list.
Proof. reflexivity. Qed.
Lemma last_get_pairs env k v : last_get k (pairs env) = Some v <-> last_assigned env k v.
Proof.
  induction env as [|e env IH].
  - cbn. split; [discriminate|]. intros (l1 & e & l2 & E & _). destruct l1; discriminate.
  - rewrite pairs_cons, last_get_app. split.
    + destruct (last_get k (pairs env)) as [x|] eqn:L.
      * intros H. injection H as ->.
        destruct (proj1 IH eq_refl) as (l1 & e' & l2 & -> & A & N).
        exists (e :: l1), e', l2. auto.
      * destruct (cut_on "="%char e) as [[k' v']|] eqn:C; cbn; [|discriminate].
        destruct (String.eqb_spec k k') as [->|]; [|discriminate]. intros H. injection H as ->.
        exists [], e, env. split; [reflexivity|]. split; [now apply assigns_cut|].
        intros e' v' I A. apply last_get_none in L. apply L.
        change k' with (fst (k', v')). apply in_map. apply pairs_in. eauto.
    + intros (l1 & e' & l2 & E & A & N). destruct l1 as [|x l1]; cbn in E.
      * injection E as -> ->. assert (L : last_get k (pairs l2) = None).
        { apply last_get_none. intros H. apply in_map_iff in H. destruct H as ((k', v') & <- & H).
          apply pairs_in in H. destruct H as (e'' & I & A'). exact (N _ _ I A'). }
        rewrite L. apply assigns_cut in A. rewrite A. cbn. now rewrite String.eqb_refl.
      * injection E as -> ->. rewrite (proj2 IH); [reflexivity|]. exists l1, e', l2. auto.
Qed.
Lemma never_assigned_get env k : never_assigned env k <-> last_get k (pairs env) = None.
Proof.
  rewrite last_get_none. split.
  - intros N H. apply in_map_iff in H. destruct H as ((k', v') & <- & H). apply pairs_in in H.
    destruct H as (e & I & A). exact (N _ _ I A).
  - intros N e v I A. apply N. change k with (fst (k, v)). apply in_map. apply pairs_in. eauto.
Qed.

(** Members of the cleaned environment. *)
Lemma sset_all_keys_lack env : forall k v, In (k, v) (sset_all (pairs env) []) -> contains_byte "="%char k = false.
Proof.
  intros k v H.
  assert (S : sget k (sset_all (pairs env) []) <> None).
  { assert (K : In k (skeys (sset_all (pairs env) []))) by (unfold skeys; change k with (fst (k, v)); now apply in_map).
    apply sget_skeys in K. destruct K as [x K]. congruence. }
  rewrite sget_sset_all in S. cbn in S. destruct (last_get k (pairs env)) as [x|] eqn:L; [|congruence].
  apply last_get_pairs in L. destruct L as (l1 & e & l2 & _ & [A _] & _). now apply lacks_cb.
Qed.
Lemma sorted_in_get {A} k (v : A) m : ssorted m -> In (k, v) m -> sget k m = Some v.
Proof.
  intros S H. rewrite <- last_get_nodup by (apply ssorted_nodup; exact S).
  apply ssorted_nodup in S. unfold skeys in S. induction m as [|[k' v'] m IH]; [destruct H|].
  cbn in *. inversion S as [|? ? Hn Hd]; subst. destruct H as [H|H].
  - injection H as -> ->. replace (last_get k m) with (@None A); [now rewrite String.eqb_refl|].
    symmetry. apply last_get_none. exact Hn.
  - now rewrite (IH Hd H).
Qed.
Lemma dedup_assigns env e k v : In e (dedup_env env) -> assigns e k v -> last_assigned env k v.
Proof.
  rewrite dedup_env_eq, in_app_iff. intros [H|H] A; [exfalso; eapply bare_no_assign; eassumption|].
  apply in_map_iff in H. destruct H as ((k', v') & <- & H). cbn in A.
  assert (A' : assigns (k' ++ "=" ++ v') k' v').
  { split; [|reflexivity]. apply lacks_cb. eapply sset_all_keys_lack; eassumption. }
  destruct (assigns_fun _ _ _ _ _ A A') as [-> ->]. apply last_get_pairs.
  apply sorted_in_get in H; [|apply sset_all_sorted; exact I]. rewrite sget_sset_all in H. cbn in H.
  destruct (last_get k' (pairs env)); [exact H|discriminate].
Qed.
Lemma dedup_has env k v : last_assigned env k v -> In (k ++ "=" ++ v) (dedup_env env).
Proof.
  intros L. apply last_get_pairs in L. rewrite dedup_env_eq, in_app_iff. right.
  apply in_map_iff. exists (k, v). split; [reflexivity|]. apply sget_In. rewrite sget_sset_all. now rewrite L.
Qed.

Lemma map_entry_inj l : (forall k v, In (k, v) l -> contains_byte "="%char k = false) -> NoDup (map fst l) ->
  each_once (map (fun kv => (fst kv ++ "=" ++ snd kv)%string) l).
Proof.
  intros K N i j e1 e2 k v1 v2 H1 H2 A1 A2.
  rewrite nth_error_map in H1, H2.
  destruct (nth_error l i) as [[k1 w1]|] eqn:N1; [|discriminate].
  destruct (nth_error l j) as [[k2 w2]|] eqn:N2; [|discriminate].
  cbn in H1, H2. injection H1 as <-. injection H2 as <-.
  assert (B1 : assigns (k1 ++ "=" ++ w1) k1 w1).
  { split; [apply lacks_cb; eapply K; eapply nth_error_In; exact N1|reflexivity]. }
  assert (B2 : assigns (k2 ++ "=" ++ w2) k2 w2).
  { split; [apply lacks_cb; eapply K; eapply nth_error_In; exact N2|reflexivity]. }
  cbn in A1, A2. destruct (assigns_fun _ _ _ _ _ A1 B1) as [-> _].
  destruct (assigns_fun _ _ _ _ _ A2 B2) as [-> _].
  rewrite NoDup_nth_error in N. apply N.
  - rewrite map_length. apply nth_error_Some. congruence.
  - now rewrite !nth_error_map, N1, N2.
Qed.
Lemma each_once_app a b : (forall e k v, In e a -> ~ assigns e k v) -> each_once b -> each_once (a ++ b)%list.
Proof.
  intros A B i j e1 e2 k v1 v2 H1 H2 A1 A2.
  destruct (Nat.lt_ge_cases i (List.length a)) as [L|L].
  - rewrite nth_error_app1 in H1 by lia. apply nth_error_In in H1. exfalso. eapply A; eassumption.
  - destruct (Nat.lt_ge_cases j (List.length a)) as [L'|L'].
    + rewrite nth_error_app1 in H2 by lia. apply nth_error_In in H2. exfalso. eapply A; eassumption.
    + rewrite nth_error_app2 in H1, H2 by lia. assert (i - List.length a = j - List.length a) by (eapply B; eassumption). lia.
Qed.
Lemma dedup_each_once env : each_once (dedup_env env).
Proof.
  rewrite dedup_env_eq. apply each_once_app; [intros e k v; apply bare_no_assign|].
  apply map_entry_inj; [apply sset_all_keys_lack|].
  apply ssorted_nodup. apply sset_all_sorted. exact I.
Qed.
(** [each_once] as NoDup, to move it across permutations. *)
Lemma each_once_nodup env : each_once env <-> NoDup (map fst (pairs env)).
Proof.
  induction env as [|e env IH].
  - cbn. split; [constructor|]. intros _ i j e1 e2 k v1 v2 H. destruct i; discriminate.
  - rewrite pairs_cons. destruct (cut_on "="%char e) as [[k v]|] eqn:C; cbn [app map fst].
    + apply assigns_cut in C. split.
      * intros E. constructor.
        -- intros H. apply in_map_iff in H. destruct H as ((k', v') & F & H). cbn in F. subst k'.
           apply pairs_in in H. destruct H as (e' & I & A). apply In_nth_error in I. destruct I as [n I].
           specialize (E 0 (S n) e e' k v v' eq_refl I C A). discriminate.
        -- apply IH. intros i j e1 e2 k' v1 v2 H1 H2 A1 A2.
           specialize (E (S i) (S j) e1 e2 k' v1 v2 H1 H2 A1 A2). lia.
      * intros N. inversion N as [|? ? Hn Hd]; subst. apply IH in Hd.
        assert (X : forall e' v', In e' env -> ~ assigns e' k v').
        { intros e' v' I A. apply Hn. change k with (fst (k, v')). apply in_map. apply pairs_in. eauto. }
        intros i j e1 e2 k' v1 v2 H1 H2 A1 A2. destruct i as [|i], j as [|j]; cbn in H1, H2.
        -- reflexivity.
        -- injection H1 as ->. destruct (assigns_fun _ _ _ _ _ A1 C) as [-> _]. exfalso. apply nth_error_In in H2. eapply X; eassumption.
        -- injection H2 as ->. destruct (assigns_fun _ _ _ _ _ A2 C) as [-> _]. exfalso. apply nth_error_In in H1. eapply X; eassumption.
        -- f_equal. eapply Hd; eassumption.
    + rewrite <- IH. split; intros E i j e1 e2 k' v1 v2 H1 H2 A1 A2.
      * specialize (E (S i) (S j) e1 e2 k' v1 v2 H1 H2 A1 A2). lia.
      * destruct i as [|i], j as [|j]; cbn in H1, H2; [reflexivity| | |f_equal; eapply E; eassumption].
        -- injection H1 as ->. apply assigns_cut in A1. congruence.
        -- injection H2 as ->. apply assigns_cut in A2. congruence.
Qed.
Lemma pairs_perm a b : Permutation a b -> Permutation (pairs a) (pairs b).
Proof. intros H. unfold pairs. now apply Permutation_flat_map. Qed.
Lemma each_once_perm a b : Permutation a b -> each_once a -> each_once b.
Proof.
  intros P. rewrite !each_once_nodup. apply Permutation_NoDup. apply Permutation_map. now apply pairs_perm.
Qed.

(** Looking a variable up. *)
Lemma lookup_env_pairs env k : lookup_env env k = sget k (pairs env).
Proof.
  induction env as [|e env IH]; [reflexivity|]. cbn. destruct (cut_on "="%char e) as [[k' v]|]; cbn; [|exact IH].
  rewrite String.eqb_sym. destruct (String.eqb k k'); [reflexivity|exact IH].
Qed.
Lemma lookup_once env k v : each_once env -> lacks "="%char k -> In (k ++ "=" ++ v) env -> lookup_env env k = Some v.
Proof.
  intros O K H. rewrite lookup_env_pairs. apply each_once_nodup in O. rewrite <- last_get_nodup by exact O.
  assert (P : In (k, v) (pairs env)) by (apply pairs_in; exists (k ++ "=" ++ v); split; [exact H|split; [exact K|reflexivity]]).
  clear H. induction (pairs env) as [|[k' v'] l IH]; [destruct P|]. cbn in *. inversion O as [|? ? Hn Hd]; subst.
  destruct P as [P|P].
  - injection P as -> ->. replace (last_get k l) with (@None string); [now rewrite String.eqb_refl|].
    symmetry. now apply last_get_none.
  - now rewrite (IH Hd P).
Qed.
Lemma lookup_none env k : never_assigned env k -> lookup_env env k = None.
Proof.
  intros H. rewrite lookup_env_pairs. apply never_assigned_get in H. apply last_get_none in H.
  destruct (sget k (pairs env)) as [v|] eqn:E; [|reflexivity]. exfalso. apply H.
  apply sget_In in E. change k with (fst (k, v)). now apply in_map.
Qed.

(** The environment of a cleaned list, in any order. *)
Section Dedup.
  Variables env out : list string.
  Hypothesis P : Permutation (dedup_env env) out.
  Lemma out_once : each_once out.
  Proof. eapply each_once_perm; [exact P|apply dedup_each_once]. Qed.
  Lemma out_iff k v e : assigns e k v -> (In e out <-> last_assigned env k v).
  Proof.
    intros A. split.
    - intros H. eapply dedup_assigns; [|exact A]. eapply Permutation_in; [apply Permutation_sym; exact P|exact H].
    - intros L. destruct A as [_ ->]. eapply Permutation_in; [exact P|]. now apply dedup_has.
  Qed.
  Lemma out_bare e : lacks "="%char e -> count_occ string_dec out e = count_occ string_dec env e.
  Proof.
    intros L. apply lacks_cb in L.
    rewrite <- (proj1 (Permutation_count_occ string_dec _ _) P e).
    rewrite dedup_env_eq, count_occ_app.
    replace (count_occ string_dec (map _ _) e) with 0.
    - rewrite Nat.add_0_r. unfold bare. clear P. induction env as [|x l IH]; [reflexivity|]. cbn.
      destruct (contains_byte "="%char x) eqn:C; cbn.
      + destruct (string_dec x e) as [->|]; [congruence|exact IH].
      + destruct (string_dec x e); now rewrite IH.
    - symmetry. apply count_occ_not_In. intros H. apply in_map_iff in H. destruct H as ((k, v) & <- & _).
      cbn [fst snd] in L. rewrite contains_byte_app in L. change ("=" ++ v) with (String "="%char v) in L. rewrite contains_byte_cons in L. change (Ascii.eqb "=" "=") with true in L.
      rewrite orb_true_r in L. discriminate.
  Qed.
  Lemma out_getenv k v : k <> "" -> last_assigned env k v -> getenv out k = v.
  Proof.
    intros N L. unfold getenv. destruct (String.eqb_spec k ""); [contradiction|].
    assert (K : lacks "="%char k) by (destruct L as (? & ? & ? & _ & [K _] & _); exact K).
    rewrite (lookup_once out k v); [reflexivity|exact out_once|exact K|].
    apply (out_iff k v); [split; [exact K|reflexivity]|exact L].
  Qed.
  Lemma out_getenv_none k : never_assigned env k -> getenv out k = "".
  Proof.
    intros N. unfold getenv. destruct (String.eqb k ""); [reflexivity|]. rewrite lookup_none; [reflexivity|].
    intros e v I A. apply (out_iff k v e A) in I. destruct I as (l1 & e' & l2 & -> & A' & _).
    eapply N; [|exact A']. apply in_or_app. right. now left.
  Qed.
End Dedup.

(** *** Args.AsEnv *)
Definition args_string (a : args) : string :=
  if String.eqb (a_plugin_args_str a) "" then stringify (a_plugin_args a) else a_plugin_args_str a.
Definition protocol (a : args) : list (string * string) :=
  [("CNI_COMMAND", a_command a); ("CNI_CONTAINERID", a_container_id a); ("CNI_NETNS", a_netns a);
   ("CNI_ARGS", args_string a); ("CNI_IFNAME", a_ifname a); ("CNI_PATH", a_path a)].

Lemma as_env_eq environ a :
  as_env environ a = dedup_env (environ ++ map (fun kv => (fst kv ++ "=" ++ snd kv)%string) (protocol a))%list.
Proof. reflexivity. Qed.
Lemma pairs_map l : (forall k v, In (k, v) l -> contains_byte "="%char k = false) ->
  pairs (map (fun kv => (fst kv ++ "=" ++ snd kv)%string) l) = l.
Proof.
  induction l as [|[k v] l IH]; intros H; [reflexivity|].
  unfold pairs. cbn [map flat_map]. fold (pairs (map (fun kv => (fst kv ++ "=" ++ snd kv)%string) l)).
  rewrite IH by (intros k' v' I; apply (H k' v'); now right).
  replace (cut_on "="%char (fst (k, v) ++ "=" ++ snd (k, v))) with (Some (k, v)); [reflexivity|].
  symmetry. apply cut_on_some. split; [reflexivity|]. apply (H k v). now left.
Qed.
Lemma protocol_lacks a k v : In (k, v) (protocol a) -> contains_byte "="%char k = false.
Proof. cbn. intuition; injection H0 as <- _ || injection H as <- _; reflexivity. Qed.
Lemma as_env_last environ a k v :
  last_assigned (environ ++ map (fun kv => (fst kv ++ "=" ++ snd kv)%string) (protocol a))%list k v <->
  match last_get k (protocol a) with Some x => x = v | None => last_assigned environ k v end.
Proof.
  rewrite <- last_get_pairs, pairs_app, last_get_app, pairs_map by apply protocol_lacks.
  destruct (last_get k (protocol a)) as [x|]; [intuition congruence|apply last_get_pairs].
Qed.
Lemma as_env_last_none environ a k :
  never_assigned (environ ++ map (fun kv => (fst kv ++ "=" ++ snd kv)%string) (protocol a))%list k <->
  last_get k (protocol a) = None /\ never_assigned environ k.
Proof.
  rewrite !never_assigned_get, pairs_app, last_get_app, pairs_map by apply protocol_lacks.
  destruct (last_get k (protocol a)); intuition congruence.
Qed.
Definition protocol_names : list string :=
  ["CNI_COMMAND"; "CNI_CONTAINERID"; "CNI_NETNS"; "CNI_ARGS"; "CNI_IFNAME"; "CNI_PATH"].
Lemma protocol_other a k : ~ In k protocol_names -> last_get k (protocol a) = None.
Proof. intros H. apply last_get_none. exact H. Qed.

(** *** CNI_ARGS *)
Lemma stringify_pairs l : l <> [] -> plain_pairs l ->
  map (split_on "="%char) (split_on ";"%char (stringify l)) = map (fun kv => [fst kv; snd kv]) l.
Proof.
  intros N P. unfold stringify. rewrite split_on_join.
  - rewrite map_map. apply map_ext_in. intros [k v] H. cbn.
    unfold plain_pairs in P; rewrite Forall_forall in P. specialize (P _ H). destruct P as [[K _] [V _]]. cbn in *.
    apply lacks_cb in K. apply lacks_cb in V.
    change (k ++ String "=" v) with (k ++ String "="%char v). rewrite split_on_app by exact K.
    now rewrite split_on_no_sep by exact V.
  - destruct l; [congruence|discriminate].
  - apply Forall_forall. intros s H. apply in_map_iff in H. destruct H as ([k v] & <- & H).
    unfold plain_pairs in P; rewrite Forall_forall in P. specialize (P _ H). destruct P as [[_ K] [_ V]]. cbn [fst snd] in *.
    apply lacks_cb in K. apply lacks_cb in V. change (join "=" [k; v]) with (k ++ String "="%char v).
    rewrite contains_byte_app, contains_byte_cons, K, V. reflexivity.
Qed.
Lemma stringify_nonempty l : l <> [] -> stringify l <> "".
Proof.
  destruct l as [|[k v] l]; [congruence|]. intros _ H. unfold stringify in H. cbn in H.
  destruct l as [|kv l]; cbn in H; destruct k; discriminate.
Qed.

Lemma plain_of_split s : (forall p, In p (split_on ";"%char s) -> exists k v, split_on "="%char p = [k; v]) ->
  exists l, l <> [] /\ plain_pairs l /\ s = stringify l.
Proof.
  intros H. pose proof (split_on_parts ";"%char s) as F. pose proof (split_on_nonnil ";"%char s) as NN.
  assert (X : exists l, plain_pairs l /\ split_on ";"%char s = map (fun kv => join "=" [fst kv; snd kv]) l).
  { clear NN. induction (split_on ";"%char s) as [|p ps IH].
    - exists []. split; [constructor|reflexivity].
    - inversion F as [|? ? Fp Fs]; subst. destruct (H p (or_introl eq_refl)) as (k & v & S).
      destruct IH as (l & P & E); [intros q I; apply H; now right|exact Fs|].
      exists ((k, v) :: l). pose proof (split_on_parts "="%char p) as G. rewrite S in G.
      inversion G as [|? ? G1 G2]; subst. inversion G2 as [|? ? G3 _]; subst.
      pose proof (join_split_on "="%char p) as J. rewrite S in J. cbn in J. rewrite <- J in Fp.
      rewrite contains_byte_app, contains_byte_cons, !orb_false_iff in Fp. destruct Fp as [F1 [_ F2]].
      split.
      + constructor; [|exact P]. cbn. unfold plain. rewrite !lacks_cb. auto.
      + cbn. f_equal. symmetry. exact J. }
  destruct X as (l & P & E). exists l. split; [|split; [exact P|]].
  - intros ->. cbn in E. congruence.
  - unfold stringify. rewrite <- E. symmetry. apply (join_split_on ";"%char s).
Qed.

(** The parser over well-formed pairs: [values] is the specification of one pass. *)
Definition field_ok (desc : struct_desc) (kv : string * string) : bool :=
  match sget (fst kv) desc with
  | None => true
  | Some (FText acc) => acc (snd kv)
  | Some FBoolIgnore => match unmarshal_bool (snd kv) with Some _ => true | None => false end
  | Some _ => false
  end.
Definition known (desc : struct_desc) (k : string) : bool :=
  match sget k desc with Some _ => true | None => false end.
Definition is_ignore (desc : struct_desc) (k : string) : bool :=
  match sget k desc with Some FBoolIgnore => true | _ => false end.

Definition entry (kv : string * string) : string := join "=" [fst kv; snd kv].
Lemma split_entry kv : plain (fst kv) -> plain (snd kv) -> split_on "="%char (entry kv) = [fst kv; snd kv].
Proof.
  intros [K _] [V _]. apply lacks_cb in K. apply lacks_cb in V. unfold entry. cbn.
  change (fst kv ++ String "=" (snd kv)) with (fst kv ++ String "="%char (snd kv)).
  rewrite split_on_app by exact K. now rewrite split_on_no_sep by exact V.
Qed.

Definition upd (desc : struct_desc) (st : args_state) (kv : string * string) : args_state :=
  if known desc (fst kv) then
    {| st_fields := sset (fst kv) (snd kv) (st_fields st);
       st_ignore := if is_ignore desc (fst kv)
                    then match unmarshal_bool (snd kv) with Some b => b | None => st_ignore st end
                    else st_ignore st |}
  else st.
Lemma load_args_loop_ok desc l : forall unknown st, plain_pairs l -> forallb (field_ok desc) l = true ->
  load_args_loop desc (map entry l) unknown st =
    (fold_left (upd desc) l st,
     Ok (unknown ++ map entry (filter (fun kv => negb (known desc (fst kv))) l))%list).
Proof.
  induction l as [|kv l IH]; intros unknown st P F; [cbn; now rewrite app_nil_r|].
  inversion P as [|? ? [Pk Pv] Pl]; subst. cbn in F. apply andb_true_iff in F. destruct F as [F1 F2].
  cbn [map load_args_loop]. rewrite split_entry by assumption.
  unfold field_ok in F1. cbn [fold_left filter].
  replace (upd desc st kv) with
    (match sget (fst kv) desc with
     | None => st
     | Some FBoolIgnore => {| st_fields := sset (fst kv) (snd kv) (st_fields st);
                              st_ignore := match unmarshal_bool (snd kv) with Some b => b | None => st_ignore st end |}
     | Some _ => {| st_fields := sset (fst kv) (snd kv) (st_fields st); st_ignore := st_ignore st |}
     end) by (unfold upd, known, is_ignore; destruct (sget (fst kv) desc) as [[]|]; reflexivity).
  unfold known at 1.
  destruct (sget (fst kv) desc) as [[acc| | |]|] eqn:G; try discriminate.
  - rewrite F1. rewrite IH by assumption. reflexivity.
  - destruct (unmarshal_bool (snd kv)) as [b|]; [|discriminate]. rewrite IH by assumption. reflexivity.
  - rewrite IH by assumption. cbn [negb filter map]. rewrite <- app_assoc. reflexivity.
Qed.
Lemma load_args_loop_bad desc l : forall unknown st, plain_pairs l -> forallb (field_ok desc) l = false ->
  exists st' e, load_args_loop desc (map entry l) unknown st = (st', Err e).
Proof.
  induction l as [|kv l IH]; intros unknown st P F; [discriminate|].
  inversion P as [|? ? [Pk Pv] Pl]; subst. cbn [map load_args_loop]. rewrite split_entry by assumption.
  cbn in F. unfold field_ok in F at 1.
  destruct (sget (fst kv) desc) as [[acc| | |]|] eqn:G; cbn in F.
  - destruct (acc (snd kv)); cbn in F; [apply IH; assumption|eauto].
  - destruct (unmarshal_bool (snd kv)) as [b|]; cbn in F; [apply IH; assumption|eauto].
  - eauto.
  - eauto.
  - apply IH; assumption.
Qed.
Lemma load_args_loop_malformed desc ps : forall unknown st,
  (exists p, In p ps /\ forall k v, split_on "="%char p <> [k; v]) ->
  exists st' e, load_args_loop desc ps unknown st = (st', Err e).
Proof.
  induction ps as [|p ps IH]; intros unknown st (q & I & N); [destruct I|].
  cbn. destruct I as [->|I].
  - destruct (split_on "="%char q) as [|k [|v [|x r]]]; eauto. exfalso. eapply N; reflexivity.
  - assert (X : exists q, In q ps /\ forall k v, split_on "="%char q <> [k; v]) by eauto.
    destruct (split_on "="%char p) as [|k [|v [|x r]]]; eauto.
    destruct (sget k desc) as [[acc| | |]|]; eauto.
    + destruct (acc v); eauto.
    + destruct (unmarshal_bool v); eauto.
Qed.
Lemma split_two_dec p : (exists k v, split_on "="%char p = [k; v]) \/ (forall k v, split_on "="%char p <> [k; v]).
Proof.
  destruct (split_on "="%char p) as [|k [|v [|x r]]]; [right|right|left|right]; try (intros; discriminate). eauto.
Qed.

Lemma stringify_entries l : l <> [] -> plain_pairs l -> split_on ";"%char (stringify l) = map entry l.
Proof.
  intros N P. unfold stringify. fold entry. apply split_on_join; [destruct l; [congruence|discriminate]|].
  apply Forall_forall. intros s H. apply in_map_iff in H. destruct H as ([k v] & <- & H).
  unfold plain_pairs in P; rewrite Forall_forall in P. specialize (P _ H). destruct P as [[_ K] [_ V]]. cbn [fst snd] in *.
  apply lacks_cb in K. apply lacks_cb in V. change (entry (k, v)) with (k ++ String "="%char v).
  rewrite contains_byte_app, contains_byte_cons, K, V. reflexivity.
Qed.

Lemma fold_upd_fields desc l : forall st k,
  sget k (st_fields (fold_left (upd desc) l st)) =
  if known desc k then match last_value k l with Some v => Some v | None => sget k (st_fields st) end
  else sget k (st_fields st).
Proof.
  induction l as [|[k' v'] l IH]; intros st k; cbn [fold_left last_value].
  - now destruct (known desc k).
  - rewrite IH. destruct (known desc k) eqn:K.
    + destruct (last_value k l); [reflexivity|]. unfold upd. cbn [fst snd].
      destruct (String.eqb_spec k k') as [E|N].
      * subst k'. rewrite K. cbn. now rewrite sget_sset_same.
      * destruct (known desc k'); cbn; [now rewrite sget_sset_other|reflexivity].
    + unfold upd. cbn [fst snd]. destruct (known desc k') eqn:K'; cbn; [|reflexivity].
      rewrite sget_sset_other; [reflexivity|]. intros ->. congruence.
Qed.
Definition ignore_after (k : string) (l : list (string * string)) (b0 : bool) : bool :=
  match last_value k l with
  | Some v => match unmarshal_bool v with Some b => b | None => b0 end
  | None => b0
  end.
(** One struct has a single IgnoreUnknown field. *)
Lemma fold_upd_ignore desc l name : forall st,
  (forall k, is_ignore desc k = true <-> k = name) -> forallb (field_ok desc) l = true ->
  st_ignore (fold_left (upd desc) l st) = ignore_after name l (st_ignore st).
Proof.
  intros st D. revert st. induction l as [|[k' v'] l IH]; intros st F; [reflexivity|].
  cbn in F. apply andb_true_iff in F. destruct F as [F1 F2]. cbn [fold_left]. rewrite IH by exact F2.
  unfold ignore_after. cbn [last_value]. destruct (last_value name l) as [v|] eqn:L.
  - (* the later value decides, and it is well-formed *)
    assert (X : exists b, unmarshal_bool v = Some b).
    { clear IH F1. induction l as [|[k2 v2] l IHl]; [discriminate|]. cbn in L, F2. apply andb_true_iff in F2. destruct F2 as [G1 G2].
      destruct (last_value name l); [apply IHl; congruence|].
      destruct (String.eqb_spec name k2) as [E|]; [|discriminate]. injection L as ->. subst k2.
      unfold field_ok in G1. cbn in G1. pose proof (proj2 (D name) eq_refl) as I. unfold is_ignore in I.
      destruct (sget name desc) as [[]|]; try discriminate. destruct (unmarshal_bool v); [eauto|discriminate]. }
    destruct X as [b ->]. reflexivity.
  - destruct (String.eqb_spec name k') as [E|N].
    + subst k'. unfold upd. cbn [fst snd]. pose proof (proj2 (D name) eq_refl) as I. rewrite I.
      unfold is_ignore in I. unfold known. destruct (sget name desc) as [[]|]; try discriminate. reflexivity.
    + unfold upd. cbn [fst snd]. destruct (known desc k'); [|reflexivity]. cbn.
      destruct (is_ignore desc k') eqn:I; [|reflexivity]. apply D in I. congruence.
Qed.
