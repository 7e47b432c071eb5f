(** A request that has no reason to fail succeeds: C61. *)
From Coq Require Import String Ascii List Arith ZArith NArith Bool Lia.
From Verif Require Import Model.GoStr Model.Errors Model.Version Model.Validate Model.Args Model.Path Model.Json Model.GoJson
  Model.Types Model.Conf Model.Invoke Model.Prog Model.Api
  Spec.VersionSpec Spec.NameSpec Spec.JsonSpec Spec.ConfSpec Spec.TypesSpec Spec.RunSpec Spec.CacheSpec Spec.LiveSpec
  Proofs.StrP Proofs.VersionP Proofs.JsonP Proofs.JsonRT Proofs.GoJsonP Proofs.ConfP Proofs.BuildP Proofs.LoadP Proofs.TypesP Proofs.DecodeP
  Proofs.ValidateP Proofs.ProgP Proofs.ApiP Proofs.VerbP Proofs.SingleP Proofs.TotalP Proofs.LiveP
  Properties.P_Api Properties.P_Single Properties.P_Types.
Import ListNotations.
Open Scope nat_scope.
Open Scope string_scope.

(** *** Loaded lists *)
(** Every plugin of a list loaded from a document is usable, and the list's name and version can be
    sent. *)
Theorem C61_loaded_lists_are_usable : forall b l, network_conf_from_bytes b = Ok l ->
  Forall usable (nl_plugins l) /\ well_formed_text (nl_name l) /\ well_formed_text (nl_version l).
Proof. exact loaded_usable. Qed.

(** *** ADD *)
(** ADD succeeds when the names are acceptable, the plugins are usable and found, and each returns a
    result. *)
Theorem C61_add : forall c l rt w tr w' r, runs false (add_network_list c l rt) w tr w' r ->
  good_name (rt_container rt) -> good_name (nl_name l) -> good_ifname (rt_ifname rt) ->
  sendable (nl_name l) (nl_version l) rt -> Forall usable (nl_plugins l) ->
  nothing_missing tr -> all_yield tr -> exists a, r = Ok a.
Proof.
  intros c l rt w tr w' r H A B C S U M Y. eapply add_list_live; try eassumption. now apply validated_names.
Qed.
Theorem C61_add_one : forall c net rt w tr w' r, runs false (add_network c net rt) w tr w' r ->
  good_name (rt_container rt) -> good_name (own_name net) -> good_ifname (rt_ifname rt) ->
  sendable (own_name net) (own_version net) rt -> usable net ->
  nothing_missing tr -> all_yield tr -> exists a, r = Ok a.
Proof.
  intros c net rt w tr w' r H A B C S U M Y. eapply add_network_live; try eassumption. now apply validated_names.
Qed.

(** *** DEL and CHECK *)
Lemma int64_0 : int64 0%Z. Proof. unfold int64. lia. Qed.
Lemma held_proper data r : held_result data = Ok r -> wf_result int64 any_prefix r.
Proof.
  unfold held_result, create_from_bytes. destruct (Types.decode_version _) as [v|e|]; try discriminate. cbn [rbind]. intros H.
  apply create_inv in H. destruct H as (j & _ & W & R & _). now split.
Qed.
Lemma reads_proper ver file prev : reads_result ver file = Ok prev -> proper prev.
Proof.
  unfold reads_result. destruct file as [data|]; [|intros H r E; congruence].
  destruct (held_result data) as [r0|e|] eqn:HR; try discriminate. destruct (get_as_version r0 ver) as [r1|e|] eqn:G; try discriminate.
  intros H r E. assert (r1 = r) by congruence. subst r1. exact (gv_wf_gen int64_0 _ _ _ (held_proper _ _ HR) G).
Qed.
Lemma cached_proper c name ver rt w prev : cached_in c name ver rt w = Ok prev -> proper prev.
Proof.
  destruct (cache_path_cases c name rt) as [[N _]|[N _]].
  - rewrite cached_in_named by exact N. apply reads_proper.
  - destruct (cached_in_unnamed c name ver rt w N) as [e ->]. discriminate.
Qed.
Lemma proper_none : proper None. Proof. discriminate. Qed.
(** DEL succeeds whatever the cache holds, short of an entry that crashes its reader. *)
Theorem C61_del : forall fl c l rt w tr w' r, runs fl (del_network_list c l rt) w tr w' r ->
  well_formed_version (nl_version l) -> safe_entry c (nl_name l) (nl_version l) rt w ->
  sendable (nl_name l) (nl_version l) rt -> Forall usable (nl_plugins l) ->
  nothing_missing tr -> all_answer tr -> r = Ok tt.
Proof.
  intros fl c l rt w tr w' r H V SE S U M Y. apply del_network_list_inv in H.
  destruct H as [(N & _)|[(_ & P & _)|(cached & tr0 & trp & w1 & tr1 & trd & r1 & -> & _ & _ & K & R & -> & _)]].
  - now destruct N.
  - exfalso. exact (cached_in_cases _ _ _ _ _ SE P).
  - apply missing_app in M. destruct M as [_ M]. apply missing_app in M. destruct M as [_ M]. apply missing_app in M. destruct M as [M _].
    apply answer_app in Y. destruct Y as [_ Y]. apply answer_app in Y. destruct Y as [_ Y]. apply answer_app in Y. destruct Y as [Y _].
    assert (P : proper (del_prev cached)).
    { destruct cached as [x|e|]; cbn [del_prev]; try exact proper_none. destruct K as [(_ & _ & [E|(_ & _ & E)])|(_ & E & _)].
      - eapply cached_proper. symmetry. exact E.
      - injection E as ->. exact proper_none.
      - injection E as ->. exact proper_none. }
    eapply del_loop_live; [exact S|exact P|exact R| |exact M|exact Y]. now apply Forall_rev.
Qed.
(** CHECK succeeds when it applies and the entry can be read. *)
Theorem C61_check : forall fl c l rt w tr w' r x, runs fl (check_network_list c l rt) w tr w' r ->
  at_least (nl_version l) (0, 4, 0)%Z -> named (nl_name l) rt ->
  reads_result (nl_version l) (sget (entry_path c (nl_name l) rt) w) = Ok x ->
  sendable (nl_name l) (nl_version l) rt -> Forall usable (nl_plugins l) ->
  nothing_missing tr -> all_answer tr -> r = Ok tt.
Proof.
  intros fl c l rt w tr w' r x H AL N RR S U M Y. unfold check_network_list in H. apply runs_lift_then in H.
  destruct (gte_iff (nl_version l) "0.4.0" _ means_040) as (GT & _). apply GT in AL. rewrite AL in H. cbn [negb] in H.
  destruct (nl_disable_check l); [apply runs_ret in H; now destruct H as (_ & _ & ->)|].
  assert (C : cached_in c (nl_name l) (nl_version l) rt w = Ok x) by (rewrite cached_in_named by exact N; exact RR).
  apply runs_rbindp in H.
  assert (G : forall t w1 y, runs fl (pwrap ("failed to get network " ++ quote (nl_name l) ++ " cached result") (get_cached_result c (nl_name l) (nl_version l) rt)) w t w1 y ->
     exists z, y = Ok z /\ proper z).
  { intros t w1 y R. apply runs_pwrap in R. destruct R as (y0 & R & ->). apply get_cached_inv in R. destruct R as (_ & _ & _ & [->|(_ & _ & ->)]).
    - rewrite C. exists x. split; [reflexivity|]. eapply cached_proper. exact C.
    - exists None. split; [reflexivity|exact proper_none]. }
  destruct H as [(tr1 & w1 & a & tr2 & R1 & R2 & ->)|[(e & -> & R)|(-> & R)]].
  - destruct (G _ _ _ R1) as (z & E & P). assert (z = a) by congruence. subst z. apply missing_app in M. apply answer_app in Y.
    eapply check_loop_live; [exact S|exact P|exact R2|exact U|apply M|apply Y].
  - destruct (G _ _ _ R) as (z & E & _). discriminate.
  - destruct (G _ _ _ R) as (z & E & _). discriminate.
Qed.
Theorem C61_del_one : forall fl c net rt w tr w' r x, runs fl (del_network c net rt) w tr w' r ->
  well_formed_version (own_version net) -> named (own_name net) rt ->
  reads_result (own_version net) (sget (entry_path c (own_name net) rt) w) = Ok x ->
  sendable (own_name net) (own_version net) rt -> usable net ->
  nothing_missing tr -> all_answer tr -> r = Ok tt.
Proof.
  intros fl c net rt w tr w' r x H V N RR S U M Y.
  assert (C : cached_in c (own_name net) (own_version net) rt w = Ok x) by (rewrite cached_in_named by exact N; exact RR).
  apply del_network_inv in H. unfold pname, pver, own_name, own_version in *.
  destruct H as [(NV & _)|(cached & tr0 & tr1 & trd & -> & _ & _ & K & D)]; [now destruct NV|].
  assert (P : exists z, cached = Ok z /\ proper z).
  { destruct K as [(_ & [E|(_ & _ & E)])|(_ & E)].
    - exists x. split; [congruence|]. eapply cached_proper. exact C.
    - exists None. split; [exact E|exact proper_none].
    - exists None. split; [exact E|exact proper_none]. }
  destruct P as (z & -> & P). destruct D as (r1 & R & -> & _).
  apply missing_app in M. destruct M as [_ M]. apply missing_app in M. apply answer_app in Y. destruct Y as [_ Y]. apply answer_app in Y.
  eapply verb_network_live; [exact R|exact S|exact U|exact P|apply M|apply Y].
Qed.
Theorem C61_check_one : forall fl c net rt w tr w' r x, runs fl (check_network c net rt) w tr w' r ->
  at_least (own_version net) (0, 4, 0)%Z -> named (own_name net) rt ->
  reads_result (own_version net) (sget (entry_path c (own_name net) rt) w) = Ok x ->
  sendable (own_name net) (own_version net) rt -> usable net ->
  nothing_missing tr -> all_answer tr -> r = Ok tt.
Proof.
  intros fl c net rt w tr w' r x H AL N RR S U M Y. unfold own_name, own_version in *. unfold check_network in H. apply runs_lift_then in H.
  destruct (gte_iff (pc_version (pg_conf net)) "0.4.0" _ means_040) as (GT & _). apply GT in AL. rewrite AL in H. cbn [negb] in H.
  assert (C : cached_in c (pc_name (pg_conf net)) (pc_version (pg_conf net)) rt w = Ok x) by (rewrite cached_in_named by exact N; exact RR).
  apply runs_rbindp in H.
  assert (G : forall t w1 y, runs fl (pwrap ("failed to get network " ++ quote (pc_name (pg_conf net)) ++ " cached result") (get_cached_result c (pc_name (pg_conf net)) (pc_version (pg_conf net)) rt)) w t w1 y ->
     exists z, y = Ok z /\ proper z).
  { intros t w1 y R. apply runs_pwrap in R. destruct R as (y0 & R & ->). apply get_cached_inv in R. destruct R as (_ & _ & _ & [->|(_ & _ & ->)]).
    - rewrite C. exists x. split; [reflexivity|]. eapply cached_proper. exact C.
    - exists None. split; [reflexivity|exact proper_none]. }
  destruct H as [(tr1 & w1 & a & tr2 & R1 & R2 & ->)|[(e & -> & R)|(-> & R)]].
  - destruct (G _ _ _ R1) as (z & E & P). assert (z = a) by congruence. subst z. apply missing_app in M. apply answer_app in Y.
    eapply verb_network_live; [exact R2|exact S|exact U|exact P|apply M|apply Y].
  - destruct (G _ _ _ R) as (z & E & _). discriminate.
  - destruct (G _ _ _ R) as (z & E & _). discriminate.
Qed.

(** *** STATUS and GC *)
Theorem C61_status : forall fl c l w tr w' r, runs fl (get_status_network_list c l) w tr w' r ->
  well_formed_text (nl_name l) -> well_formed_text (nl_version l) -> Forall usable (nl_plugins l) ->
  nothing_missing tr -> all_answer tr -> r = Ok tt.
Proof.
  intros fl c l w tr w' r H Wn Wv U M Y. unfold get_status_network_list in H. destruct (gte_or_false _ _); cbn [negb] in H.
  - exact (status_loop_live _ _ _ _ Wn Wv _ _ _ _ _ H U M Y).
  - apply runs_ret in H. now destruct H as (_ & _ & ->).
Qed.
Lemma args_json a : sendable_args (Some a) -> jwf (enc_gc_args a) /\ (jdepth (enc_gc_args a) <= 2)%N /\ normable (enc_gc_args a) /\
  list_or_null (object_or_null (fields_ok attachment_fields)) (enc_gc_args a).
Proof.
  intros S. destruct a as [l|]; [|cbn; split; [exact I|split; [lia|split; [now exists JNull|now left]]]].
  assert (F : Forall (fun x => well_formed_text (ga_container x) /\ well_formed_text (ga_ifname x)) l) by (apply Forall_forall; intros x I; exact (S l x eq_refl I)).
  cbn [enc_gc_args]. assert (J : Forall jwf (map enc_gc_attachment l)).
  { apply Forall_map. eapply Forall_impl; [|exact F]. intros x [A B]. apply jwf_obj. apply Forall_cons; [split; [apply lit_wf; vm_compute; reflexivity|exact A]|].
    apply Forall_cons; [split; [apply lit_wf; vm_compute; reflexivity|exact B]|apply Forall_nil]. }
  split; [now apply jwf_arr|]. split.
  { change 2%N with (N.succ 1). apply jdepth_arr. apply Forall_map. apply Forall_forall. intros x _. change 1%N with (N.succ 0). apply jdepth_obj.
    apply Forall_cons; [cbn; lia|]. apply Forall_cons; [cbn; lia|apply Forall_nil]. }
  split.
  { apply normable_arr. apply Forall_map. apply Forall_forall. intros x _.
    destruct (normable_obj [("containerID", JStr (ga_container x)); ("ifname", JStr (ga_ifname x))]) as [m E]; [|now exists (JObj m)].
    apply Forall_cons; [apply normable_str|]. apply Forall_cons; [apply normable_str|apply Forall_nil]. }
  right. eexists. split; [reflexivity|]. apply Forall_map. apply Forall_forall. intros x _. right. eexists. split; [reflexivity|].
  intros k v I f P J0 _. assert (V : exists s, v = JStr s) by (destruct I as [I|[I|[]]]; injection I as _ <-; eauto). destruct V as [s ->].
  assert (P = text_or_null) by (cbn in J0; destruct J0 as [X|[X|[]]]; injection X as _ <-; reflexivity). subst P. right. now exists s.
Qed.
Lemma attach_field v : list_or_null (object_or_null (fields_ok attachment_fields)) v -> fields_ok plugin_fields "cni.dev/valid-attachments" v.
Proof.
  intros L f P I K. cbn in I. repeat (destruct I as [I|I]; [|]); try (destruct I; fail);
    try (exfalso; apply (f_equal fst) in I; cbn in I; subst f; vm_compute in K; discriminate K).
  assert (E : P = list_or_null (object_or_null (fields_ok attachment_fields))) by (injection I as _ <-; reflexivity). now subst P.
Qed.
Lemma other_field v : fields_ok plugin_fields "cni.dev/attachments" v.
Proof.
  intros f P I K. exfalso. cbn in I.
  repeat (destruct I as [I|I]; [apply (f_equal fst) in I; cbn in I; subst f; vm_compute in K; discriminate K|]). destruct I.
Qed.
Lemma gc_inject_live l args net : usable net -> well_formed_text (nl_name l) -> well_formed_text (nl_version l) -> sendable_args args ->
  exists conf, inject_conf net (gc_params l args) = Ok conf.
Proof.
  intros U Wn Wv S.
  set (kvs := ([("name", JStr (nl_name l)); ("cniVersion", JStr (nl_version l))] ++
    match args with None => [] | Some a => [("cni.dev/valid-attachments", enc_gc_args a); ("cni.dev/attachments", enc_gc_args a)] end)%list).
  assert (E : gc_params l args = gvals kvs) by (unfold gc_params, kvs, gvals; destruct args; reflexivity). rewrite E.
  assert (G : forall P : string * json -> Prop, P ("name", JStr (nl_name l)) -> P ("cniVersion", JStr (nl_version l)) ->
     (forall a, args = Some a -> P ("cni.dev/valid-attachments", enc_gc_args a) /\ P ("cni.dev/attachments", enc_gc_args a)) -> Forall P kvs).
  { intros P A B C. unfold kvs. apply Forall_app. split; [apply Forall_cons; [exact A|apply Forall_cons; [exact B|apply Forall_nil]]|].
    destruct args as [a|]; [|constructor]. destruct (C a eq_refl) as [C1 C2]. apply Forall_cons; [exact C1|apply Forall_cons; [exact C2|apply Forall_nil]]. }
  destruct (inject_total net kvs U) as (conf & I & _); [| | | |eauto].
  - apply G.
    + split; [apply lit_wf; vm_compute; reflexivity|]. split; [exact Wn|cbn; discriminate].
    + split; [apply lit_wf; vm_compute; reflexivity|]. split; [exact Wv|cbn; discriminate].
    + intros a ->. destruct (args_json a S) as (J & D & _). split; (split; [apply lit_wf; vm_compute; reflexivity|split; [exact J|cbn [snd]; lia]]).
  - apply G; [discriminate|discriminate|]. intros a _. split; discriminate.
  - apply G; [apply text_field; cbn; tauto|apply text_field; cbn; tauto|]. intros a ->. destruct (args_json a S) as (_ & _ & _ & L).
    split; [now apply attach_field|apply other_field].
  - apply G; [reflexivity|reflexivity|]. intros a _. split; reflexivity.
Qed.
(** GC of a usable list crashes only on a cache entry that crashes its reader (C38). *)
Theorem C19_gc_panics_only_on_bad_entries : forall fl c l args w tr w', runs fl (gc_network_list c l args) w tr w' Panic ->
  Forall usable (nl_plugins l) -> well_formed_text (nl_name l) -> well_formed_text (nl_version l) -> sendable_args args ->
  exists rt, named (nl_name l) rt /\ ~ safe_entry c (nl_name l) (nl_version l) rt w'.
Proof.
  intros fl c l args w tr w' H U Wn Wv S. apply C19_gc_panics_only in H. destruct H as [(rt & w1 & tr1 & R)|(net & I & N)].
  - destruct (del_list_panics _ _ _ _ _ _ _ U R) as (-> & P). exists rt. destruct (cache_path_cases c (nl_name l) rt) as [[NM _]|[NM _]].
    + split; [exact NM|]. rewrite cached_in_named in P by exact NM. unfold safe_entry. intros X. now apply X.
    + destruct (cached_in_unnamed c (nl_name l) (nl_version l) rt w1 NM) as [e E]. congruence.
  - exfalso. rewrite Forall_forall in U. destruct (gc_inject_live l args net (U _ I) Wn Wv S) as [conf E]. exact (N conf E).
Qed.
Lemma sdel_safe p ver (w : world) : safe_world ver w -> safe_world ver (sdel p w).
Proof.
  intros H q d G. apply (H q d). rewrite sget_sdel in G. destruct (String.eqb q p); [discriminate|exact G].
Qed.
Lemma safe_world_entry c name ver rt w : safe_world ver w -> safe_entry c name ver rt w.
Proof.
  intros H. unfold safe_entry. destruct (sget (entry_path c name rt) w) as [d|] eqn:G; [|discriminate]. exact (H _ _ G).
Qed.
Lemma dels_live c l atts w tr w' rs : dels false c l atts w tr w' rs -> Forall usable (nl_plugins l) -> well_formed_text (nl_name l) -> well_formed_text (nl_version l) ->
  well_formed_version (nl_version l) -> Forall (fun a => Forall okc (at_caps a)) atts -> safe_world (nl_version l) w -> nothing_missing tr -> all_answer tr ->
  Forall (fun x => x = Ok tt) rs.
Proof.
  intros D U Wn Wv V. induction D as [w|a rt atts w tr1 w1 r tr2 w2 rs P R D IH]; intros C S M Y; [constructor|].
  apply Forall_cons_iff in C. destruct C as [C1 C2]. apply missing_app in M. apply answer_app in Y. destruct M as [M1 M2], Y as [Y1 Y2].
  constructor.
  - eapply C61_del; [exact R|exact V|now apply safe_world_entry| |exact U|exact M1|exact Y1].
    split; [exact Wn|]. split; [exact Wv|]. destruct P as (_ & _ & _ & _ & -> & _). exact C1.
  - apply IH; [exact C2| |exact M2|exact Y2]. apply C17_only_its_own_entry in R. destruct R as [-> | ->]; [exact S|now apply sdel_safe].
Qed.
Lemma turn_live c type P seg t : turn c type P seg t -> nothing_missing seg -> all_answer seg -> turn_ok t.
Proof.
  intros T M Y. destruct T as [e E|x C _ _ _]; cbn [turn_ok].
  - subst seg. exfalso. eapply M. now left.
  - apply Y. rewrite C. now left.
Qed.
Lemma turns_live (P : plugin_config -> trace -> turn_end -> Prop) : (forall net seg t, P net seg t -> nothing_missing seg -> all_answer seg -> turn_ok t) ->
  forall nets tr ends, turns P nets tr ends -> nothing_missing tr -> all_answer tr -> Forall turn_ok ends.
Proof.
  intros HP nets tr ends (segs & -> & L1 & L2 & F) M Y.
  apply Forall_forall. intros t I. apply In_nth_error in I. destruct I as [i I].
  assert (B : i < List.length nets) by (rewrite <- L2; apply nth_error_Some; congruence).
  destruct (nth_error nets i) as [net|] eqn:EN; [|apply nth_error_None in EN; lia].
  destruct (nth_error segs i) as [seg|] eqn:ES; [|apply nth_error_None in ES; lia].
  apply nth_error_split in ES as X. destruct X as (l1 & l2 & E & _). rewrite E in M, Y. rewrite concat_app in M, Y. cbn [concat] in M, Y.
  apply missing_app in M. destruct M as [_ M]. apply missing_app in M. apply answer_app in Y. destruct Y as [_ Y]. apply answer_app in Y.
  eapply HP; [eapply F; eassumption|apply M|apply Y].
Qed.
(** GC succeeds when no cache file crashes its reader and every plugin answers. *)
Theorem C61_gc : forall c l args w tr w' r, runs false (gc_network_list c l args) w tr w' r ->
  Forall usable (nl_plugins l) -> well_formed_text (nl_name l) -> well_formed_text (nl_version l) -> well_formed_version (nl_version l) ->
  sendable_args args -> safe_world (nl_version l) w ->
  nothing_missing tr -> all_answer tr -> r = Ok tt.
Proof.
  intros c l args w tr w' r H U Wn Wv V S SW M Y. destruct (nl_disable_gc l) eqn:DG.
  - now destruct (C19_gc_disabled _ _ _ _ _ _ _ _ H DG) as (_ & _ & ->).
  - assert (NP : r <> Panic).
    { intros ->. destruct (C19_gc_panics_only_on_bad_entries _ _ _ _ _ _ _ H U Wn Wv S) as (rt & _ & B). apply B. apply safe_world_entry.
      assert (G : safe_world (nl_version l) w'); [|exact G].
      apply gc_network_list_inv in H. destruct H as [(_ & _ & -> & _)|[(_ & X & _)|(_ & tr0 & atts & tr1 & tr2 & w1 & _ & _ & K)]]; [exact SW|discriminate|].
      assert (DW : forall atts w tr w' rs, dels false c l atts w tr w' rs -> safe_world (nl_version l) w -> safe_world (nl_version l) w').
      { clear. intros atts w tr w' rs D. induction D as [w|a rt atts w tr1 w1 r tr2 w2 rs P R D IH]; intros SW; [exact SW|]. apply IH.
        apply C17_only_its_own_entry in R. destruct R as [-> | ->]; [exact SW|now apply sdel_safe]. }
      destruct K as [(_ & _ & _ & R)|(es & rs & _ & D & _ & -> & _)]; [|eapply DW; eassumption].
      apply gc_del_loop_inv in R. destruct R as [(_ & dn & a & rest & t1 & w2 & t2 & rs & rt' & _ & D & _ & R & _)|(rs & es & D & X & _)]; [|discriminate].
      apply C17_only_its_own_entry in R. apply DW in D; [|exact SW]. destruct R as [-> | ->]; [exact D|now apply sdel_safe]. }
    destruct (C19_gc_deletes_the_stale_and_tells_plugins _ _ _ _ _ _ _ _ H DG NP) as [(e & _ & X & _)|(atts & st & tr0 & tr1 & tr2 & rs & R & -> & _ & D & K)]; [discriminate|].
    apply missing_app in M. destruct M as [_ M]. apply missing_app in M. apply answer_app in Y. destruct Y as [_ Y]. apply answer_app in Y.
    assert (DL : Forall (fun x => x = Ok tt) rs).
    { eapply dels_live; [exact D|exact U|exact Wn|exact Wv|exact V| |exact SW|apply M|apply Y]. apply listed_caps in R.
      apply Forall_forall. intros a I. apply filter_In in I. rewrite Forall_forall in R. apply R. apply I. }
    destruct K as [(_ & _ & K)|(_ & ends & T & K)]; apply K; [exact DL|]. split; [exact DL|].
    eapply turns_live; [|exact T|apply M|apply Y]. intros net seg t (conf & _ & TT). eapply turn_live. exact TT.
Qed.

(** *** Concrete cases *)
(** The two-plugin list of C14: every hypothesis of C61_add holds of a run, and of the DEL, CHECK and
    GC after it. *)
Lemma X_names : good_name (rt_container X_rt) /\ good_name (nl_name X_list) /\ good_ifname (rt_ifname X_rt).
Proof.
  split; [apply validate_container_id_ok; vm_compute; reflexivity|]. split; [apply validate_network_name_ok; vm_compute; reflexivity|].
  apply validate_interface_name_ok. vm_compute. reflexivity.
Qed.
Lemma X_loaded : network_conf_from_bytes X_list_doc = Ok X_list. Proof. vm_compute. reflexivity. Qed.
Lemma X_sendable : sendable (nl_name X_list) (nl_version X_list) X_rt.
Proof. destruct (loaded_usable _ _ X_loaded) as (_ & A & B). split; [exact A|]. split; [exact B|]. constructor. Qed.
Example C61_nonvacuous_add : exists tr w' r, runs false (add_network_list X_cni X_list X_rt) [] tr w' r /\
  nothing_missing tr /\ all_yield tr /\ List.length (calls tr) = 2.
Proof.
  destruct X_add as [[r w'] tr] eqn:E. pose proof (interp_run _ _ _ _ _ _ _ X_tame E) as R.
  vm_compute in E. injection E as <- <- <-. eexists _, _, _. split; [exact R|]. split; [|split; [|reflexivity]].
  - intros ty ps e I. cbn in I. repeat (destruct I as [I|I]; [discriminate I|]). destruct I.
  - intros x I. cbn in I. destruct I as [<-|[<-|[]]]; (eexists; eexists; split; [reflexivity|vm_compute; reflexivity]).
Qed.
Lemma X_world_read : exists x, reads_result "1.1.0" (sget (entry_path X_cni (nl_name X_list) X_rt) X_world) = Ok (Some x).
Proof. eexists. vm_compute. reflexivity. Qed.
Example C61_nonvacuous_after : forall p : prog (res unit), In p [del_network_list X_cni X_list X_rt; check_network_list X_cni X_list X_rt; gc_network_list X_cni X_list (Some (Some []))] ->
  exists tr w' r, runs false p X_world tr w' r /\ nothing_missing tr /\ all_answer tr /\ calls tr <> [].
Proof.
  assert (G : forall (p : prog (res unit)) r w' tr, interp X_oracle 0 p X_world = (r, w', tr) ->
    forallb (fun ev : event => match ev with (OpFind _ _, RStr (Err _)) => false | _ => true end) tr = true ->
    forallb (fun x => match call_answer x with Ok _ => true | _ => false end) (calls tr) = true -> calls tr <> [] ->
    exists tr w' r, runs false p X_world tr w' r /\ nothing_missing tr /\ all_answer tr /\ calls tr <> []).
  { intros p r w' tr E A B C. exists tr, w', r. split; [exact (interp_run _ _ _ _ _ _ _ X_tame E)|]. rewrite forallb_forall in A, B. split; [|split; [|exact C]].
    - intros ty ps e I. discriminate (A _ I).
    - intros x I. specialize (B _ I). destruct (call_answer x) as [o| |] eqn:CA; try discriminate. now exists o. }
  intros p [<-|[<-|[<-|[]]]]; (eapply G; [vm_compute; reflexivity|reflexivity|reflexivity|discriminate]).
Qed.
Example C61_nonvacuous_safe : safe_world (nl_version X_list) X_world /\ sendable_args (Some (Some [])) /\ well_formed_version (nl_version X_list).
Proof.
  split; [|split].
  - intros p d G. assert (S : In d (map snd X_world)) by (apply sget_In in G; exact (in_map snd _ _ G)).
    destruct S as [<-|[]]; vm_compute; discriminate.
  - intros l a E I. assert (l = []) by congruence. subst l. destruct I.
  - eexists. apply parse_version_spec. vm_compute. reflexivity.
Qed.

Print Assumptions C61_loaded_lists_are_usable.
Print Assumptions C61_add.
Print Assumptions C61_add_one.
Print Assumptions C61_del.
Print Assumptions C61_del_one.
Print Assumptions C61_check.
Print Assumptions C61_check_one.
Print Assumptions C61_status.
Print Assumptions C61_gc.
Print Assumptions C19_gc_panics_only_on_bad_entries.
