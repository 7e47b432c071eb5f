(** What makes a request succeed. *)
From Coq Require Import String Ascii List Arith ZArith NArith Bool Lia.
From Verif Require Import Model.GoStr Model.Utf8 Model.Errors Model.Version Model.Json Model.Num Model.GoJson
  Model.NetIP Model.Types Model.Conf Model.Prog Model.Api
  Model.Args Model.Validate Model.Invoke Spec.NameSpec Spec.JsonSpec Spec.ConfSpec Spec.TypesSpec Spec.RunSpec Spec.CacheSpec Spec.LiveSpec Spec.VersionSpec
  Proofs.StrP Proofs.Utf8P Proofs.SelectP Proofs.JsonP Proofs.JsonRT Proofs.NumP Proofs.GoJsonP Proofs.EnvP Proofs.ConfP
  Proofs.BuildP Proofs.LoadP Proofs.TypesP Proofs.TotalP Proofs.DecodeP Proofs.ValidateP Proofs.ProgP Proofs.ApiP Proofs.VerbP.
Import ListNotations.
Open Scope nat_scope.
Open Scope string_scope.

(** *** The decoder's rules are kept by a trip through interface{} *)
Lemma norm_pairs_in l l' k y : norm_pairs l = Some l' -> In (k, y) l' -> exists x, In (k, x) l /\ norm x = Some y.
Proof.
  revert l'. induction l as [|[k' x'] l IH]; intros l' H I; cbn in H; [injection H as <-; destruct I|].
  destruct (norm x') as [y'|] eqn:N; [|discriminate]. destruct (norm_pairs l) as [t|]; [|discriminate]. injection H as <-.
  destruct I as [I|I]; [injection I as -> ->; exists x'; split; [now left|exact N]|].
  destruct (IH t eq_refl I) as (x & A & B). exists x. split; [now right|exact B].
Qed.
Lemma norm_obj_in o m k y : norm (JObj o) = Some (JObj m) -> In (k, y) m -> exists x, In (k, x) o /\ norm x = Some y.
Proof.
  rewrite norm_obj. destruct (norm_pairs o) as [l'|] eqn:E; [|discriminate]. cbn. intros H I.
  assert (M : m = sset_all l' []) by congruence. subst m. apply sset_all_in in I. destruct I as [I|[]].
  exact (norm_pairs_in _ _ _ _ E I).
Qed.
Definition kept (P : json -> Prop) : Prop := forall x y, norm x = Some y -> P x -> P y.
Lemma kept_text : kept text_or_null.
Proof.
  intros x y N [->|[s ->]]; cbn in N; [left|right; exists s]; congruence.
Qed.
Lemma kept_list P : kept P -> kept (list_or_null P).
Proof.
  intros K x y N [->|(l & -> & F)]; [left; cbn in N; congruence|]. rewrite norm_arr in N.
  destruct (norm_all l) as [l'|] eqn:E; [|discriminate]. right. exists l'. split; [cbn in N; congruence|]. clear N.
  revert l' E. induction F as [|a l Ha F IH]; intros l' E; cbn in E; [injection E as <-; constructor|].
  destruct (norm a) as [a'|] eqn:NA; [|discriminate]. destruct (norm_all l) as [t|]; [|discriminate]. injection E as <-.
  constructor; [exact (K _ _ NA Ha)|now apply IH].
Qed.
Lemma kept_obj (P : string -> json -> Prop) : (forall k, kept (P k)) -> kept (object_or_null P).
Proof.
  intros K x y N [->|(l & -> & F)]; [left; cbn in N; congruence|]. right.
  assert (X : exists m, y = JObj m) by (rewrite norm_obj in N; destruct (norm_pairs l); [|discriminate]; cbn in N; eexists; symmetry; injection N as E; exact E).
  destruct X as [m ->]. exists m. split; [reflexivity|]. intros k v I.
  destruct (norm_obj_in _ _ _ _ N I) as (z & A & B). exact (K k _ _ B (F _ _ A)).
Qed.
Lemma kept_fields fs : Forall (fun fP => kept (snd fP)) fs -> forall k, kept (fields_ok fs k).
Proof.
  intros F k x y N H f P I K. rewrite Forall_forall in F. exact (F (f, P) I _ _ N (H f P I K)).
Qed.
Lemma kept_reencoded : kept (fun v => exists y, reencoded v y).
Proof. intros x y N _. exists y. apply canonical_norm. eapply norm_canonical. exact N. Qed.
Lemma kept_bool : kept (fun v => v = JNull \/ exists b, v = JBool b).
Proof. intros x y N [->|[b ->]]; cbn in N; [left|right; exists b]; congruence. Qed.
Lemma plugin_fields_kept k : kept (fields_ok plugin_fields k).
Proof.
  apply kept_fields. unfold plugin_fields, dns_fields, attachment_fields.
  repeat (apply Forall_cons; cbn [snd]); try apply Forall_nil;
    repeat first [apply kept_text | apply kept_bool | apply kept_reencoded | apply kept_list | apply kept_obj; intros _
                 | apply kept_obj; apply kept_fields | apply Forall_cons; cbn [snd] | apply Forall_nil].
Qed.

(** *** The type of a plugin is kept when other members are set *)
Lemma says_filter f o s : says f o s <-> says f (filter (fun kv => key_is f (fst kv)) o) s.
Proof.
  split.
  - intros (l1 & k & l2 & -> & K & R). exists (filter (fun kv => key_is f (fst kv)) l1), k, (filter (fun kv => key_is f (fst kv)) l2).
    rewrite filter_app. cbn [filter fst]. rewrite K. split; [reflexivity|]. split; [reflexivity|]. intros k' v I. apply filter_In in I. destruct I as [I _]. eapply R. exact I.
  - intros (l1 & k & l2 & E & K & R).
    assert (G : forall p (o : list (string * json)) a x b, filter p o = (a ++ x :: b)%list -> exists o1 o2, o = (o1 ++ x :: o2)%list /\ filter p o2 = b).
    { clear. intros p. induction o as [|z o IH]; intros a x b E; [destruct a; discriminate|]. cbn in E. destruct (p z).
      - destruct a as [|y a]; cbn in E.
        + exists [], o. split; [cbn; congruence|congruence].
        + assert (E' : filter p o = (a ++ x :: b)%list) by congruence. destruct (IH _ _ _ E') as (o1 & o2 & -> & B). exists (z :: o1), o2. split; [reflexivity|exact B].
      - destruct (IH _ _ _ E) as (o1 & o2 & -> & B). exists (z :: o1), o2. split; [reflexivity|exact B]. }
    destruct (G _ _ _ _ _ E) as (o1 & o2 & -> & B). exists o1, k, o2. split; [reflexivity|]. split; [exact K|].
    intros k' v I K'. eapply R; [|exact K']. rewrite <- B. apply filter_In. split; [exact I|exact K'].
Qed.
Lemma filter_sset {A} (p : string -> bool) k (v : A) m : p k = false ->
  filter (fun kv => p (fst kv)) (sset k v m) = filter (fun kv => p (fst kv)) m.
Proof.
  intros K. induction m as [|[k2 v2] m IH]; cbn [sset filter fst]; [now rewrite K|].
  destruct (String.compare k k2) eqn:C; cbn [filter fst].
  - apply String.compare_eq_iff in C. subst k2. now rewrite K.
  - now rewrite K.
  - now rewrite IH.
Qed.
Lemma filter_sset_all {A} (p : string -> bool) (kvs : list (string * A)) : Forall (fun kv => p (fst kv) = false) kvs ->
  forall m, filter (fun kv => p (fst kv)) (sset_all kvs m) = filter (fun kv => p (fst kv)) m.
Proof.
  unfold sset_all. induction 1 as [|[k v] kvs K F IH]; intros m; [reflexivity|]. cbn. cbn in IH. rewrite IH. now apply filter_sset.
Qed.
Lemma object_set kvs m : plugin_object (JObj m) ->
  Forall (fun kj => fields_ok plugin_fields (fst kj) (snd kj)) kvs ->
  Forall (fun kj : string * json => key_is "type" (fst kj) = false) kvs -> plugin_object (JObj (sset_all kvs m)).
Proof.
  intros (o & t & E & F & S & N) K T. assert (o = m) by congruence. subst o. exists (sset_all kvs m), t. split; [reflexivity|]. split.
  - intros k v I. apply sset_all_in in I. destruct I as [I|I]; [|now apply F]. rewrite Forall_forall in K. exact (K _ I).
  - split; [|exact N]. apply says_filter. rewrite filter_sset_all by exact T. now apply says_filter in S.
Qed.
Lemma ssorted_keys {A B} (a : smap A) (b : smap B) : map fst a = map fst b -> ssorted b -> ssorted a.
Proof.
  revert b. induction a as [|[k x] a IH]; intros [|[k' y] b] E S; try discriminate; [exact I|]. cbn [map fst] in E.
  assert (k = k') by congruence. assert (E2 : map fst a = map fst b) by congruence. subst k'. clear E.
  cbn [ssorted] in *. destruct S as [L S]. split; [|eapply IH; eassumption].
  destruct a as [|[k1 x1] a]; [exact I|]. destruct b as [|[k2 y2] b]; [discriminate|]. cbn in E2. assert (k1 = k2) by congruence. now subst.
Qed.
Lemma object_norm d m : ssorted d -> plugin_object (JObj d) -> norm (JObj d) = Some (JObj m) -> plugin_object (JObj m).
Proof.
  intros SD (o & t & E & F & S & N) H. assert (o = d) by congruence. subst o. exists m, t. split; [reflexivity|]. split.
  - intros k v I. destruct (norm_obj_in _ _ _ _ H I) as (x & A & B). exact (plugin_fields_kept k _ _ B (F _ _ A)).
  - split; [|exact N]. rewrite norm_obj in H. destruct (norm_pairs d) as [l'|] eqn:E'; [|discriminate]. cbn in H.
    assert (KS : map fst l' = map fst d).
    { clear - E'. revert l' E'. induction d as [|[k x] d IH]; intros l' E; cbn in E; [injection E as <-; reflexivity|].
      destruct (norm x); [|discriminate]. destruct (norm_pairs d); [|discriminate]. injection E as <-. cbn. f_equal. now apply IH. }
    assert (SL : ssorted l') by (clear - KS SD; revert KS SD; apply ssorted_keys).
    rewrite (sset_all_id _ SL) in H. assert (m = l') by congruence. subst m. clear H KS SL SD F E.
    destruct S as (l1 & k & l2 & -> & K & R). revert l' E'. induction l1 as [|[k1 x1] l1 IH]; intros l' E'; cbn in E'.
    + destruct (norm_pairs l2) as [t2|] eqn:E2; [|discriminate]. injection E' as <-. exists [], k, t2. split; [reflexivity|]. split; [exact K|].
      intros k' v I K'. destruct (norm_pairs_in _ _ _ _ E2 I) as (x & A & B). rewrite (R _ _ A K') in B. cbn in B. congruence.
    + destruct (norm x1) as [y1|]; [|discriminate]. destruct (norm_pairs (l1 ++ (k, JStr t) :: l2)) as [t2|]; [|discriminate]. injection E' as <-.
      destruct (IH t2 eq_refl) as (a & k' & b & -> & P & Q). exists ((k1, y1) :: a), k', b. split; [reflexivity|]. split; [exact P|exact Q].
Qed.

(** *** Setting members of a usable configuration succeeds *)
Lemma inject_total orig kvs : usable orig -> Forall wf3 kvs -> Forall (fun kj => fst kj <> "") kvs ->
  Forall (fun kj => fields_ok plugin_fields (fst kj) (snd kj)) kvs ->
  Forall (fun kj : string * json => key_is "type" (fst kj) = false) kvs ->
  exists new, inject_conf orig (gvals kvs) = Ok new /\ (Forall (fun kj => normable (snd kj)) kvs -> usable new).
Proof.
  intros (m & D & O) W K F T. apply decodes_iff in D. pose proof (unmarshal_map_canonical _ _ D) as [C Enc].
  pose proof (object_set kvs m O F T) as O2. pose proof (inject_encodable kvs m W Enc) as E2.
  apply plugin_object_iff in O2 as X. destruct X as (c & DC & TC).
  exists {| pg_conf := c; pg_bytes := print (JObj (sset_all kvs m)) |}. split.
  - apply inject_ok. exists m, kvs, c. split; [exact D|]. split; [reflexivity|]. split; [exact K|]. split; [|split; [exact TC|reflexivity]].
    unfold unmarshal_plugin_conf. rewrite parse_print by exact E2. exact DC.
  - intros N. apply canonical_obj in C. destruct C as [SM CM].
    destruct (normable_obj (sset_all kvs m)) as [m2 M2].
    { apply Forall_sset_all; [exact N|]. eapply Forall_impl; [|exact CM]. intros [k x] CX. exists x. now apply canonical_norm. }
    exists m2. split.
    + exists (sset_all kvs m). split; [cbn [pg_bytes]; now apply parse_print|exact M2].
    + eapply object_norm; [|exact O2|exact M2]. now apply sset_all_sorted.
Qed.

Ltac no_field := let f := fresh in let P := fresh in let I := fresh in let K := fresh in
  intros f P I K; cbn in I; repeat (destruct I as [I|I]; [assert (f = _) by (symmetry; exact (f_equal fst I)); subst f; vm_compute in K; try discriminate|]); try (destruct I).
Lemma text_field k s : In k ["name"; "cniVersion"] -> fields_ok plugin_fields k (JStr s).
Proof.
  intros H f P I K.
  assert (E : f = k).
  { cbn in H, I. destruct H as [<-|[<-|[]]]; repeat (destruct I as [I|I]; [apply (f_equal fst) in I; cbn in I; subst f; vm_compute in K; first [reflexivity|discriminate K]|]); destruct I. }
  subst f. assert (E : P = text_or_null); [|subst P; right; now exists s].
  cbn in H, I. destruct H as [<-|[<-|[]]]; repeat (destruct I as [I|I]; [first [discriminate I | injection I as <-; reflexivity]|]); destruct I.
Qed.
Lemma prev_field l m : norm (JObj l) = Some (JObj m) -> fields_ok plugin_fields "prevResult" (JObj l).
Proof.
  intros N f P I K. cbn in I.
  repeat (destruct I as [I|I]; [|]); try (destruct I; fail);
    try (exfalso; apply (f_equal fst) in I; cbn in I; subst f; vm_compute in K; discriminate K).
  assert (E : P = object_or_null (fun _ v => exists y, reencoded v y)) by (injection I as _ <-; reflexivity). subst P. clear I K.
  right. exists l. split; [reflexivity|]. intros k v J. rewrite norm_obj in N. destruct (norm_pairs l) as [l'|] eqn:E; [|discriminate]. clear N.
  revert l' E. induction l as [|[k1 x1] l IH]; intros l' E; [destruct J|]. cbn in E. destruct (norm x1) as [y1|] eqn:N1; [|discriminate].
  destruct (norm_pairs l) as [t|]; [|discriminate]. destruct J as [J|J]; [injection J as -> ->; now exists y1|]. exact (IH J t eq_refl).
Qed.
Lemma runtime_field v : fields_ok plugin_fields "runtimeConfig" v.
Proof.
  intros f P I K. exfalso. cbn in I.
  repeat (destruct I as [I|I]; [apply (f_equal fst) in I; cbn in I; subst f; vm_compute in K; discriminate K|]). destruct I.
Qed.
Lemma lit_wf s : valid_utf8 s = true -> well_formed_text s.
Proof. apply valid_utf8_wf. Qed.

Theorem build_total name ver orig prev rt : usable orig -> well_formed_text name -> well_formed_text ver ->
  (forall r, prev = Some r -> wf_result int64 any_prefix r) ->
  Forall (fun kj => well_formed_text (fst kj) /\ injectable (snd kj)) (rt_caps rt) ->
  exists new, build_one_config name ver orig prev rt = Ok new.
Proof.
  intros U Wn Wv WP WC.
  set (kvs := ([("name", JStr name); ("cniVersion", JStr ver)] ++
           match prev with Some r => match enc_result r with Some j => [("prevResult", j)] | None => [] end | None => [] end)%list).
  assert (PV : forall r, prev = Some r -> exists l m, enc_result r = Some (JObj l) /\ norm (JObj l) = Some (JObj m) /\ jwf (JObj l) /\ (jdepth (JObj l) <= 5)%N)
    by (intros r E; apply enc_total; now apply WP).
  assert (G : forall P : string * json -> Prop, P ("name", JStr name) -> P ("cniVersion", JStr ver) ->
     (forall l m, norm (JObj l) = Some (JObj m) -> jwf (JObj l) -> (jdepth (JObj l) <= 5)%N -> P ("prevResult", JObj l)) -> Forall P kvs).
  { intros P A B H. unfold kvs. apply Forall_app. split; [apply Forall_cons; [exact A|apply Forall_cons; [exact B|apply Forall_nil]]|].
    destruct prev as [r|]; [|constructor]. destruct (PV r eq_refl) as (l & m & E & N & J & D). rewrite E. apply Forall_cons; [|apply Forall_nil]. eapply H; eassumption. }
  destruct (inject_total orig kvs U) as (mid & I1 & N1).
  - apply G.
    + split; [apply lit_wf; vm_compute; reflexivity|]. split; [exact Wn|cbn; discriminate].
    + split; [apply lit_wf; vm_compute; reflexivity|]. split; [exact Wv|cbn; discriminate].
    + intros l m _ J D. split; [apply lit_wf; vm_compute; reflexivity|]. split; [exact J|cbn [snd]; lia].
  - apply G; discriminate.
  - apply G; [apply text_field; cbn; tauto|apply text_field; cbn; tauto|]. intros l m N _ _. eapply prev_field. exact N.
  - apply G; reflexivity.
  - assert (UM : usable mid) by (apply N1; apply G; [apply normable_str|apply normable_str|intros l m N _ _; now exists (JObj m)]).
    assert (B1 : build_one_config name ver orig prev rt = inject_runtime_config mid rt).
    { unfold build_one_config. unfold kvs in I1. destruct prev as [r|].
      - destruct (PV r eq_refl) as (l & m & E & _). rewrite E in *. unfold gvals in I1. cbn [map app fst snd] in I1. cbn [app]. now rewrite I1.
      - unfold gvals in I1. cbn [map app fst snd] in I1. cbn [app]. now rewrite I1. }
    rewrite B1. unfold inject_runtime_config. destruct (selected_caps _ (rt_caps rt)) as [|kv rc] eqn:SC; [eauto|].
    destruct (inject_total mid [("runtimeConfig", enc_map (kv :: rc))] UM) as (new & I2 & _).
    + apply Forall_cons; [|apply Forall_nil]. unfold wf3. cbn [fst snd]. split; [apply lit_wf; vm_compute; reflexivity|].
      apply enc_map_ok. rewrite <- SC. apply Forall_forall. intros [k v] I. apply selected_in in I. rewrite Forall_forall in WC. exact (WC _ I).
    + apply Forall_cons; [discriminate|apply Forall_nil].
    + apply Forall_cons; [apply runtime_field|apply Forall_nil].
    + apply Forall_cons; [reflexivity|apply Forall_nil].
    + exists new. rewrite marshal_map_wf; [exact I2|]. rewrite <- SC. apply Forall_forall. intros [k v] I. apply selected_in in I. rewrite Forall_forall in WC. exact (WC _ I).
Qed.

(** *** ADD *)
Lemma missing_app a b : nothing_missing (a ++ b)%list <-> nothing_missing a /\ nothing_missing b.
Proof.
  unfold nothing_missing. split.
  - intros H. split; intros t p e I; eapply H; apply in_or_app; [left|right]; exact I.
  - intros [A B] t p e I. apply in_app_or in I. destruct I as [I|I]; [eapply A|eapply B]; exact I.
Qed.
Lemma yield_app a b : all_yield (a ++ b)%list <-> all_yield a /\ all_yield b.
Proof.
  unfold all_yield. rewrite calls_app. setoid_rewrite in_app_iff. split; [intros H; split; intros x I; apply H; tauto|].
  intros [A B] x [I|I]; auto.
Qed.
Lemma answer_app a b : all_answer (a ++ b)%list <-> all_answer a /\ all_answer b.
Proof.
  unfold all_answer. rewrite calls_app. setoid_rewrite in_app_iff. split; [intros H; split; intros x I; apply H; tauto|].
  intros [A B] x [I|I]; auto.
Qed.
Lemma yields_proper x v : yields x v -> wf_result int64 any_prefix v.
Proof.
  intros (out & _ & H). unfold add_result in H. destruct (fixup_result_version (call_stdin x) out) as [[rv fb]|e|]; try discriminate.
  cbn [rbind] in H. apply create_inv in H. destruct H as (j & _ & W & R & _). now split.
Qed.
Lemma add_one_live fl c name ver net prev rt w tr w' r : runs fl (add_network_one c name ver net prev rt) w tr w' r ->
  names_ok name rt -> sendable name ver rt -> usable net -> proper prev -> nothing_missing tr -> all_yield tr ->
  exists a, r = Ok a /\ proper (Some a).
Proof.
  intros H (V1 & V2 & V3) (Wn & Wv & WC) U P M Y. destruct (build_total name ver net prev rt U Wn Wv P WC) as [new B].
  pose proof (add_one_inv _ _ _ _ _ _ _ _ _ _ _ H) as (_ & _ & [(C & _)|(x & C & _ & _ & _ & _ & _ & E)]).
  - exfalso. unfold add_network_one in H. apply runs_rbindp in H. destruct H as [(tr1 & w1 & path & tr2 & R1 & R2 & ->)|[(e & -> & R)|(-> & R)]].
    + rewrite V1, V2, V3, B in R2. cbn [check_opt] in R2.
      repeat (apply runs_lift_then in R2; cbn iota beta in R2). unfold exec_plugin_with_result in R2. apply runs_rbindp in R2. rewrite calls_app in C. apply app_eq_nil in C. destruct C as [_ C].
      destruct R2 as [(t1 & w2 & a & t2 & E1 & E2 & ->)|[(e & -> & E)|(-> & E)]].
      * apply runs_exec_with_args in E1. destruct E1 as (env & -> & _). discriminate.
      * apply runs_exec_with_args in E. destruct E as (env & -> & _). discriminate.
      * apply runs_exec_with_args in E. destruct E as (env & -> & _). discriminate.
    + apply runs_find in R. destruct R as (-> & _). eapply M. left. reflexivity.
    + apply runs_find in R. destruct R as (_ & _ & X). discriminate.
  - destruct (Y x) as [v Yv]; [rewrite C; now left|]. pose proof (yields_proper _ _ Yv) as W. destruct Yv as (out & A & D). rewrite A in E. cbn [rbind] in E.
    exists v. split; [congruence|]. intros r0 E0. assert (r0 = v) by congruence. now subst.
Qed.
Lemma add_loop_live fl c name ver rt : names_ok name rt -> sendable name ver rt -> forall nets prev w tr w' r,
  runs fl (add_loop c name ver nets prev rt) w tr w' r -> Forall usable nets -> proper prev -> nothing_missing tr -> all_yield tr ->
  exists a, r = Ok a /\ proper a.
Proof.
  intros N S. induction nets as [|net nets IH]; intros prev w tr w' r H U P M Y; cbn [add_loop] in H.
  - apply runs_ret in H. destruct H as (_ & _ & ->). eauto.
  - apply Forall_cons_iff in U. destruct U as [U1 U2]. apply runs_rbindp in H. destruct H as [(tr1 & w1 & a & tr2 & R1 & R2 & ->)|[(e & -> & R)|(-> & R)]].
    + apply runs_pwrap in R1. destruct R1 as (r0 & R1 & E). destruct r0 as [a0|e0|]; try discriminate. assert (a0 = a) by (cbn in E; congruence). subst a0.
      apply missing_app in M. apply yield_app in Y. destruct M as [M1 M2], Y as [Y1 Y2].
      destruct (add_one_live _ _ _ _ _ _ _ _ _ _ _ R1 N S U1 P M1 Y1) as (b & E1 & Pb). assert (b = a) by congruence. subst b.
      exact (IH _ _ _ _ _ R2 U2 Pb M2 Y2).
    + apply runs_pwrap in R. destruct R as (r0 & R & E). destruct (add_one_live _ _ _ _ _ _ _ _ _ _ _ R N S U1 P M Y) as (b & -> & _). discriminate.
    + apply runs_pwrap in R. destruct R as (r0 & R & E). destruct (add_one_live _ _ _ _ _ _ _ _ _ _ _ R N S U1 P M Y) as (b & -> & _). discriminate.
Qed.
Lemma cache_bytes_total prev config name ver rt : sendable name ver rt -> proper prev -> exists data, cache_bytes prev config name rt = Ok data.
Proof.
  intros (_ & _ & F) P. unfold cache_bytes. rewrite (marshal_map_wf _ F). destruct prev as [r|]; [|eexists; reflexivity].
  destruct (enc_total r (P r eq_refl)) as (l & m & E & N & J & D). rewrite E.
  assert (U : unmarshal_map (print (JObj l)) = Some (Some m)).
  { unfold unmarshal_map. rewrite parse_print by (split; [exact J|eapply N.le_trans; [exact D|easy]]). unfold decode_map. now rewrite N. }
  rewrite U. eexists. reflexivity.
Qed.
Lemma names_named name rt : names_ok name rt -> named name rt.
Proof.
  intros (V1 & V2 & V3). apply validate_container_id_ok in V1. apply validate_network_name_ok in V2. apply validate_interface_name_ok in V3.
  destruct V1 as (a & b & E1 & _). destruct V2 as (a' & b' & E2 & _). destruct V3 as (V3 & _). unfold named. rewrite E1, E2. split; [discriminate|]. split; [discriminate|exact V3].
Qed.
Theorem add_list_live c l rt w tr w' r : runs false (add_network_list c l rt) w tr w' r ->
  names_ok (nl_name l) rt -> sendable (nl_name l) (nl_version l) rt -> Forall usable (nl_plugins l) -> nothing_missing tr -> all_yield tr ->
  exists a, r = Ok a.
Proof.
  intros H N S U M Y. unfold add_network_list in H. apply runs_rbindp in H.
  assert (P0 : proper None) by discriminate.
  destruct H as [(tr1 & w1 & a & tr2 & R1 & R2 & ->)|[(e & -> & R)|(-> & R)]].
  - apply missing_app in M. apply yield_app in Y. destruct (add_loop_live _ _ _ _ _ N S _ _ _ _ _ _ R1 U P0 (proj1 M) (proj1 Y)) as (b & E & Pa).
    assert (b = a) by congruence. subst b. apply runs_rbindp in R2.
    assert (G : forall t w2 x, runs false (pwrap ("failed to set network " ++ quote (nl_name l) ++ " cached result") (cache_add c a (nl_bytes l) (nl_name l) rt)) w1 t w2 x -> x = Ok tt).
    { intros t w2 x R. apply runs_pwrap in R. destruct R as (x0 & R & ->). apply cache_add_inv in R. destruct R as (_ & _ & _ & K & _).
      rewrite (K eq_refl (names_named _ _ N) (cache_bytes_total _ _ _ _ _ S Pa)). reflexivity. }
    destruct R2 as [(t1 & w2 & [] & t2 & E1 & E2 & ->)|[(e & -> & E1)|(-> & E1)]].
    + apply runs_lift in E2. destruct E2 as (_ & _ & ->). eauto.
    + apply G in E1. discriminate.
    + apply G in E1. discriminate.
  - destruct (add_loop_live _ _ _ _ _ N S _ _ _ _ _ _ R U P0 M Y) as (b & E & _). discriminate.
  - destruct (add_loop_live _ _ _ _ _ N S _ _ _ _ _ _ R U P0 M Y) as (b & E & _). discriminate.
Qed.
Theorem add_network_live c net rt w tr w' r : runs false (add_network c net rt) w tr w' r ->
  names_ok (pc_name (pg_conf net)) rt -> sendable (pc_name (pg_conf net)) (pc_version (pg_conf net)) rt -> usable net -> nothing_missing tr -> all_yield tr ->
  exists a, r = Ok a.
Proof.
  intros H N S U M Y. unfold add_network in H. apply runs_rbindp in H.
  assert (P0 : proper None) by discriminate.
  destruct H as [(tr1 & w1 & a & tr2 & R1 & R2 & ->)|[(e & -> & R)|(-> & R)]].
  - apply missing_app in M. apply yield_app in Y. destruct (add_one_live _ _ _ _ _ _ _ _ _ _ _ R1 N S U P0 (proj1 M) (proj1 Y)) as (b & E & Pa).
    assert (b = a) by congruence. subst b. apply runs_rbindp in R2.
    assert (G : forall t w2 x, runs false (pwrap ("failed to set network " ++ quote (pc_name (pg_conf net)) ++ " cached result") (cache_add c (Some a) (pg_bytes net) (pc_name (pg_conf net)) rt)) w1 t w2 x -> x = Ok tt).
    { intros t w2 x R. apply runs_pwrap in R. destruct R as (x0 & R & ->). apply cache_add_inv in R. destruct R as (_ & _ & _ & K & _).
      rewrite (K eq_refl (names_named _ _ N) (cache_bytes_total _ _ _ _ _ S Pa)). reflexivity. }
    destruct R2 as [(t1 & w2 & [] & t2 & E1 & E2 & ->)|[(e & -> & E1)|(-> & E1)]].
    + apply runs_lift in E2. destruct E2 as (_ & _ & ->). eauto.
    + apply G in E1. discriminate.
    + apply G in E1. discriminate.
  - destruct (add_one_live _ _ _ _ _ _ _ _ _ _ _ R N S U P0 M Y) as (b & E & _). discriminate.
  - destruct (add_one_live _ _ _ _ _ _ _ _ _ _ _ R N S U P0 M Y) as (b & E & _). discriminate.
Qed.

(** *** DEL, CHECK *)
Lemma verb_network_live fl verb c name ver net prev rt w tr w' r : runs fl (verb_network verb c name ver net prev rt) w tr w' r ->
  sendable name ver rt -> usable net -> proper prev -> nothing_missing tr -> all_answer tr -> r = Ok tt.
Proof.
  intros H (Wn & Wv & WC) U P M Y. destruct (build_total name ver net prev rt U Wn Wv P WC) as [new B].
  pose proof (verb_network_inv _ _ _ _ _ _ _ _ _ _ _ _ H) as (_ & _ & [(C & _)|(x & C & _ & _ & E)]).
  - exfalso. unfold verb_network in H. apply runs_rbindp in H. destruct H as [(tr1 & w1 & path & tr2 & R1 & R2 & ->)|[(e & -> & R)|(-> & R)]].
    + rewrite B in R2. apply runs_lift_then in R2. cbn iota beta in R2. unfold exec_plugin_without_result in R2. apply runs_rbindp in R2.
      rewrite calls_app in C. apply app_eq_nil in C. destruct C as [_ C].
      destruct R2 as [(t1 & w2 & a & t2 & E1 & E2 & ->)|[(e & -> & E)|(-> & E)]].
      * apply runs_exec_with_args in E1. destruct E1 as (env & -> & _). discriminate.
      * apply runs_exec_with_args in E. destruct E as (env & -> & _). discriminate.
      * apply runs_exec_with_args in E. destruct E as (env & -> & _). discriminate.
    + apply runs_find in R. destruct R as (-> & _). eapply M. left. reflexivity.
    + apply runs_find in R. destruct R as (_ & _ & X). discriminate.
  - destruct (Y x) as [out A]; [rewrite C; now left|]. rewrite A in E. exact E.
Qed.
Lemma del_loop_live fl c name ver rt prev : sendable name ver rt -> proper prev -> forall nets w tr w' r,
  runs fl (del_loop c name ver nets prev rt) w tr w' r -> Forall usable nets -> nothing_missing tr -> all_answer tr -> r = Ok tt.
Proof.
  intros S P. induction nets as [|net nets IH]; intros w tr w' r H U M Y; cbn [del_loop] in H.
  - apply runs_ret in H. now destruct H as (_ & _ & ->).
  - apply Forall_cons_iff in U. destruct U as [U1 U2]. apply runs_rbindp in H. destruct H as [(tr1 & w1 & a & tr2 & R1 & R2 & ->)|[(e & -> & R)|(-> & R)]].
    + apply missing_app in M. apply answer_app in Y. exact (IH _ _ _ _ R2 U2 (proj2 M) (proj2 Y)).
    + apply runs_pwrap in R. destruct R as (r0 & R & E). rewrite (verb_network_live _ _ _ _ _ _ _ _ _ _ _ _ R S U1 P M Y) in E. discriminate.
    + apply runs_pwrap in R. destruct R as (r0 & R & E). rewrite (verb_network_live _ _ _ _ _ _ _ _ _ _ _ _ R S U1 P M Y) in E. discriminate.
Qed.
Lemma check_loop_live fl c name ver rt prev : sendable name ver rt -> proper prev -> forall nets w tr w' r,
  runs fl (check_loop c name ver nets prev rt) w tr w' r -> Forall usable nets -> nothing_missing tr -> all_answer tr -> r = Ok tt.
Proof.
  intros S P. induction nets as [|net nets IH]; intros w tr w' r H U M Y; cbn [check_loop] in H.
  - apply runs_ret in H. now destruct H as (_ & _ & ->).
  - apply Forall_cons_iff in U. destruct U as [U1 U2]. apply runs_rbindp in H. destruct H as [(tr1 & w1 & a & tr2 & R1 & R2 & ->)|[(e & -> & R)|(-> & R)]].
    + apply missing_app in M. apply answer_app in Y. exact (IH _ _ _ _ R2 U2 (proj2 M) (proj2 Y)).
    + discriminate (verb_network_live _ _ _ _ _ _ _ _ _ _ _ _ R S U1 P M Y).
    + discriminate (verb_network_live _ _ _ _ _ _ _ _ _ _ _ _ R S U1 P M Y).
Qed.
Lemma verb_only_live fl verb c conf w tr w' r : runs fl (verb_only verb c conf) w tr w' r -> nothing_missing tr -> all_answer tr -> r = Ok tt.
Proof.
  intros H M Y. apply verb_only_inv in H. destruct H as (_ & _ & [(_ & e & _ & I)|(x & C & _ & _ & E)]).
  - destruct (M _ _ _ I).
  - destruct (Y x) as [out A]; [rewrite C; now left|]. rewrite A in E. exact E.
Qed.
Lemma inject_live net kvs : usable net -> Forall (fun kj => exists s, kj = ("name", JStr s) \/ kj = ("cniVersion", JStr s)) kvs ->
  Forall (fun kj : string * json => jwf (snd kj)) kvs -> exists conf, inject_conf net (gvals kvs) = Ok conf.
Proof.
  intros U K W. destruct (inject_total net kvs U) as (new & I & _); [| | | |eauto].
  - rewrite Forall_forall in *. intros kj I. specialize (K _ I). specialize (W _ I). destruct K as (s & [-> | ->]);
      (split; [apply lit_wf; vm_compute; reflexivity|split; [exact W|cbn; discriminate]]).
  - rewrite Forall_forall in *. intros kj I. destruct (K _ I) as (s & [-> | ->]); discriminate.
  - rewrite Forall_forall in *. intros kj I. destruct (K _ I) as (s & [-> | ->]); cbn [fst snd]; apply text_field; cbn; tauto.
  - rewrite Forall_forall in *. intros kj I. destruct (K _ I) as (s & [-> | ->]); reflexivity.
Qed.
Lemma status_loop_live fl c name ver : well_formed_text name -> well_formed_text ver -> forall nets w tr w' r,
  runs fl (status_loop c [("name", GVal (Some (JStr name))); ("cniVersion", GVal (Some (JStr ver)))] nets) w tr w' r ->
  Forall usable nets -> nothing_missing tr -> all_answer tr -> r = Ok tt.
Proof.
  intros Wn Wv. induction nets as [|net nets IH]; intros w tr w' r H U M Y; cbn [status_loop] in H.
  - apply runs_ret in H. now destruct H as (_ & _ & ->).
  - apply Forall_cons_iff in U. destruct U as [U1 U2].
    destruct (inject_live net [("name", JStr name); ("cniVersion", JStr ver)] U1) as [conf IC].
    { apply Forall_cons; [exists name; now left|]. apply Forall_cons; [exists ver; now right|apply Forall_nil]. }
    { apply Forall_cons; [exact Wn|]. apply Forall_cons; [exact Wv|apply Forall_nil]. }
    unfold gvals in IC. cbn [map fst snd] in IC. rewrite IC in H. cbn [rwrap] in H. apply runs_lift_then in H. cbn iota beta in H.
    apply runs_rbindp in H. destruct H as [(tr1 & w1 & a & tr2 & R1 & R2 & ->)|[(e & -> & R)|(-> & R)]].
    + apply missing_app in M. apply answer_app in Y. exact (IH _ _ _ _ R2 U2 (proj2 M) (proj2 Y)).
    + discriminate (verb_only_live _ _ _ _ _ _ _ _ R M Y).
    + discriminate (verb_only_live _ _ _ _ _ _ _ _ R M Y).
Qed.

(** *** No panic *)
Lemma inject_no_panic orig kvs : unmarshal_map (pg_bytes orig) <> Some None -> inject_conf orig kvs <> Panic.
Proof.
  intros N. unfold inject_conf. destruct (unmarshal_map (pg_bytes orig)) as [[m|]|]; [| |discriminate].
  - destruct (inject_check_end kvs) as [-> |[e ->]]; [|discriminate]. cbn [rbind]. destruct (encode_all kvs); [|discriminate].
    unfold plugin_conf_from_bytes. destruct (unmarshal_plugin_conf _); [|discriminate]. destruct (String.eqb _ ""); discriminate.
  - now destruct N.
Qed.
Lemma inject_not_null orig kvs new : inject_conf orig (gvals kvs) = Ok new -> unmarshal_map (pg_bytes new) <> Some None.
Proof.
  intros H. apply inject_ok in H. destruct H as (m & kvs' & c & _ & _ & _ & D & T & ->). cbn [pg_bytes].
  unfold unmarshal_plugin_conf in D. unfold unmarshal_map. destruct (parse _) as [j|]; [|discriminate].
  unfold decode_map. destruct j as [| | | | |l]; try discriminate.
  - cbn in D. assert (c = plugin_conf_zero) by congruence. subst c. now destruct T.
  - destruct (norm (JObj l)) as [[]|]; discriminate.
Qed.
Lemma build_no_panic name ver orig prev rt : usable orig -> build_one_config name ver orig prev rt <> Panic.
Proof.
  intros (m & D & _). apply decodes_iff in D. unfold build_one_config.
  match goal with |- context [inject_conf orig ?k] => destruct (inject_conf orig k) as [mid|e|] eqn:I1 end; [|discriminate|].
  2:{ exfalso. revert I1. apply inject_no_panic. rewrite D. discriminate. }
  cbn [rbind]. unfold inject_runtime_config. destruct (selected_caps _ _); [discriminate|]. apply inject_no_panic.
  assert (X := I1). apply inject_ok in X. destruct X as (_ & kvs & _ & _ & E & _). rewrite E in I1. eapply inject_not_null. exact I1.
Qed.
Lemma verb_network_no_panic fl verb c name ver net prev rt w tr w' : usable net -> ~ runs fl (verb_network verb c name ver net prev rt) w tr w' Panic.
Proof.
  intros U H. unfold verb_network in H. apply runs_rbindp in H. destruct H as [(tr1 & w1 & path & tr2 & R1 & R2 & ->)|[(e & X & _)|(_ & R)]]; [|discriminate|].
  - apply runs_lift_then in R2. pose proof (build_no_panic name ver net prev rt U) as NP. destruct (build_one_config name ver net prev rt) as [new|e|]; [|now destruct R2 as (_ & _ & X)|now destruct NP].
    unfold exec_plugin_without_result in R2. apply runs_rbindp in R2. destruct R2 as [(t1 & w2 & a & t2 & E1 & E2 & ->)|[(e & X & _)|(_ & E)]]; [|discriminate|].
    + apply runs_lift in E2. now destruct E2 as (_ & _ & X).
    + apply runs_exec_with_args in E. now destruct E as (env & _ & _ & X).
  - apply runs_find in R. now destruct R as (_ & _ & X).
Qed.
Lemma del_loop_no_panic fl c name ver rt prev : forall nets w tr w', Forall usable nets -> ~ runs fl (del_loop c name ver nets prev rt) w tr w' Panic.
Proof.
  induction nets as [|net nets IH]; intros w tr w' U H; cbn [del_loop] in H; [apply runs_ret in H; now destruct H as (_ & _ & X)|].
  apply Forall_cons_iff in U. destruct U as [U1 U2]. apply runs_rbindp in H. destruct H as [(tr1 & w1 & a & tr2 & R1 & R2 & ->)|[(e & X & _)|(_ & R)]]; [|discriminate|].
  - eapply IH; eassumption.
  - apply runs_pwrap in R. destruct R as (r0 & R & E). destruct r0; try discriminate. eapply verb_network_no_panic; eassumption.
Qed.
Lemma del_list_panics fl c l rt w tr w' : Forall usable (nl_plugins l) -> runs fl (del_network_list c l rt) w tr w' Panic ->
  w' = w /\ cached_in c (nl_name l) (nl_version l) rt w = Panic.
Proof.
  intros U H. apply del_network_list_inv in H. destruct H as [(_ & _ & _ & e & X)|[(_ & P & _ & -> & _)|(cached & tr0 & trp & w1 & tr1 & trd & r1 & _ & _ & _ & _ & R & <- & _)]].
  - discriminate.
  - auto.
  - exfalso. eapply del_loop_no_panic; [|exact R]. apply Forall_rev. exact U.
Qed.

(** *** What is loaded can be used *)
Lemma last_In {A} (l : list A) d : l <> [] -> In (last l d) l.
Proof. induction l as [|x l IH]; [now destruct 1|]. intros _. destruct l as [|y l]; [now left|]. right. apply IH. discriminate. Qed.
Lemma select_version_from raw v : select_version raw = Ok v -> v = declared_of raw \/
  exists rvs, sget "cniVersions" raw = Some (JArr rvs) /\ In (JStr v) rvs.
Proof.
  intros S. destruct (sget "cniVersions" raw) as [j|] eqn:G.
  2:{ left. eapply select_version_none; eassumption. }
  unfold select_version in S. rewrite G in S.
  assert (D : exists d, d = declared_of raw /\ exists rvs vs vs', j = JArr rvs /\ usable_versions rvs = Ok vs /\ (vs' = vs \/ vs' = (vs ++ [d])%list) /\
     v = match sort_versions vs' with [] => d | _ => last (sort_versions vs') "" end).
  { exists (declared_of raw). split; [reflexivity|]. unfold declared_of.
    assert (X : forall d, match j with JArr rvs => let! vs := usable_versions rvs in
        let! vs := if String.eqb d "" then Ok vs
        else match gt d current_version with
             | Ok g => Ok (if g then vs else (vs ++ [d])%list)
             | _ => Err (EMsg "error parsing configuration list: invalid cniVersion")
             end in
        let sorted := sort_versions vs in
        Ok (match sorted with [] => d | _ => last sorted "" end) | _ => Err (EMsg "error parsing configuration list: invalid type for cniVersions") end = Ok v ->
        exists rvs vs vs', j = JArr rvs /\ usable_versions rvs = Ok vs /\ (vs' = vs \/ vs' = (vs ++ [d])%list) /\
     v = match sort_versions vs' with [] => d | _ => last (sort_versions vs') "" end).
    { intros d X. destruct j as [| | | |rvs|]; try discriminate. destruct (usable_versions rvs) as [vs|e|] eqn:U; try discriminate. cbn [rbind] in X.
      exists rvs, vs. destruct (String.eqb d "").
      - cbn [rbind] in X. exists vs. split; [reflexivity|]. split; [exact U|]. split; [now left|congruence].
      - destruct (gt d current_version) as [[|]|e|]; try discriminate; cbn [rbind] in X.
        + exists vs. split; [reflexivity|]. split; [exact U|]. split; [now left|congruence].
        + exists (vs ++ [d])%list. split; [reflexivity|]. split; [exact U|]. split; [now right|congruence]. }
    destruct (sget "cniVersion" raw) as [[| | |d| |]|]; try discriminate; cbn [rbind] in S; [exact (X d S)|exact (X "" S)]. }
  clear S. destruct D as (d & E & rvs & vs & vs' & -> & U & V & ->). destruct (usable_versions_ok _ _ U) as (_ & _ & I).
  destruct (sort_versions vs') as [|x s] eqn:SV; [now left|].
  assert (L : In (last (x :: s) "") vs') by (apply sort_versions_In; rewrite SV; apply last_In; discriminate).
  destruct V as [-> | ->].
  - right. exists rvs. split; [reflexivity|]. now apply I.
  - apply in_app_or in L. destruct L as [L|[L|[]]]; [|left; congruence]. right. exists rvs. split; [reflexivity|]. now apply I.
Qed.
Lemma loaded_map b l : network_conf_from_bytes b = Ok l -> exists m, unmarshal_map b = Some (Some m).
Proof.
  unfold network_conf_from_bytes. destruct (unmarshal_map b) as [[m|]|]; [eauto| |]; cbn; discriminate.
Qed.
Theorem loaded_usable b l : network_conf_from_bytes b = Ok l ->
  Forall usable (nl_plugins l) /\ well_formed_text (nl_name l) /\ well_formed_text (nl_version l).
Proof.
  intros H. destruct (loaded_map _ _ H) as [m U]. pose proof (unmarshal_map_canonical _ _ U) as [C [W D]].
  apply (network_conf_ok _ _ _ U) in H. destruct H as (N & V & _ & _ & _ & _ & P).
  assert (JW : forall k j, sget k m = Some j -> jwf j).
  { intros k j G. apply sget_In in G. apply jwf_obj in W. rewrite Forall_forall in W. specialize (W _ G). exact (proj2 W). }
  split; [|split].
  - destruct P as [(_ & _ & ->)|(ps & G & _ & F)]; [constructor|].
    pose proof (elements_encodable _ _ _ _ U G) as EE.
    assert (CE : Forall canonical ps).
    { apply canonical_obj in C. destruct C as [_ C]. rewrite Forall_forall in C. apply sget_In in G. specialize (C _ G). now apply canonical_arr. }
    clear G. induction F as [|j p js qs (A & B & T) _ IH]; [constructor|].
    apply Forall_cons_iff in EE. apply Forall_cons_iff in CE. destruct EE as [E1 E2], CE as [C1 C2]. constructor; [|now apply IH].
    assert (PO : plugin_object j) by (apply plugin_object_iff; eauto).
    assert (O : exists o, j = JObj o) by (destruct PO as (o & t & -> & _); eauto). destruct O as [o ->].
    exists o. split; [|exact PO]. exists o. rewrite A. split; [now apply parse_print|now apply canonical_norm].
  - exact (JW _ _ N).
  - apply select_version_from in V. destruct V as [->|(rvs & G & I)].
    + unfold declared_of. destruct (sget "cniVersion" m) as [[| | |d| |]|] eqn:G; try (apply lit_wf; reflexivity). exact (JW _ _ G).
    + pose proof (JW _ _ G) as X. apply jwf_arr in X. rewrite Forall_forall in X. exact (X _ I).
Qed.
Lemma validated_names name rt : good_name (rt_container rt) -> good_name name -> good_ifname (rt_ifname rt) -> names_ok name rt.
Proof.
  intros A B C. split; [now apply validate_container_id_ok|]. split; [now apply validate_network_name_ok|now apply validate_interface_name_ok].
Qed.

(** *** Attachments read from files can be sent again *)
Definition okc (kj : string * json) : Prop := well_formed_text (fst kj) /\ injectable (snd kj).
Lemma caps_step_ok m0 l m : decode_members (fun m k v => match norm v with Some v' => Some (sset k v' m) | None => None end) m0 l = Some m ->
  Forall okc m0 -> Forall okc l -> Forall okc m.
Proof.
  revert m0. induction l as [|[k v] l IH]; intros m0 H A B; [injection H as <-; exact A|].
  rewrite decode_members_cons in H. destruct (norm v) as [v'|] eqn:N; [|discriminate]. apply Forall_cons_iff in B. destruct B as [[B1 [B2 B3]] B].
  apply (IH _ H); [|exact B]. apply (Forall_sset_all okc [(k, v')] m0); [|exact A]. apply Forall_cons; [|apply Forall_nil].
  destruct (norm_encodable v v' N B2) as [X Y]. split; [exact B1|]. split; [exact X|]. cbn [snd] in *. eapply N.le_trans; [exact Y|exact B3].
Qed.
Lemma info_caps_ok l : forall ci ci', decode_members cached_info_step ci l = Some ci' ->
  Forall okc (match ci_caps ci with Some m => m | None => [] end) ->
  Forall (fun kj : string * json => jwf (snd kj) /\ (jdepth (snd kj) <= 9999)%N) l ->
  Forall okc (match ci_caps ci' with Some m => m | None => [] end).
Proof.
  induction l as [|[k v] l IH]; intros ci ci' H A B; [injection H as <-; exact A|].
  rewrite decode_members_cons in H. destruct (cached_info_step ci k v) as [ci1|] eqn:S; [|discriminate]. apply Forall_cons_iff in B. destruct B as [[B1 B2] B].
  apply (IH _ _ H); [|exact B]. cbn [snd] in *. unfold cached_info_step in S.
  repeat match type of S with
  | (if ?b then _ else _) = _ => destruct b
  | option_map _ ?x = Some _ => let E := fresh "E" in destruct x eqn:E; [|discriminate]; cbn [option_map] in S
  end; assert (X := f_equal (fun o => match o with Some z => ci_caps z | None => None end) S); cbn [ci_caps] in X; rewrite <- X; try exact A.
  unfold dec_map_any in E. destruct v as [| | | | |lo]; try discriminate; [assert (EO : o = None) by congruence; rewrite EO; constructor|].
  destruct (decode_members _ _ lo) as [m|] eqn:D; [|discriminate]. cbn [option_map] in E. assert (EO : o = Some m) by congruence. rewrite EO.
  apply (caps_step_ok _ _ _ D); [exact A|]. apply jwf_obj in B1. change 9999%N with (N.succ 9998) in B2. apply jdepth_obj in B2.
  rewrite Forall_forall in *. intros kj I. destruct (B1 _ I) as [P Q]. split; [exact P|]. split; [exact Q|exact (B2 _ I)].
Qed.
Lemma attachment_caps id data a : attachment_of id data = Some a -> Forall okc (at_caps a).
Proof.
  unfold attachment_of. destruct (unmarshal_cached_info data) as [ci|] eqn:U; [|discriminate].
  assert (G : Forall okc (match ci_caps ci with Some m => m | None => [] end)).
  { unfold unmarshal_cached_info in U. destruct (parse data) as [j|] eqn:P; [|discriminate]. cbn [obind] in U. apply parse_encodable in P. destruct P as [W D].
    unfold decode_struct in U. destruct j as [| | | | |l]; try discriminate; [assert (ci = cached_info_zero) by congruence; subst ci; constructor|].
    apply (info_caps_ok _ _ _ U); [constructor|]. apply jwf_obj in W. change 10000%N with (N.succ 9999) in D. apply jdepth_obj in D.
    rewrite Forall_forall in *. intros kj I. split; [exact (proj2 (W _ I))|exact (D _ I)]. }
  destruct (negb _); [discriminate|]. destruct (negb _ && negb _)%bool; [discriminate|]. destruct (_ || _)%bool; [discriminate|].
  intros H. assert (X := f_equal (fun o => match o with Some z => at_caps z | None => [] end) H). cbn [at_caps] in X. rewrite <- X. exact G.
Qed.
Lemma listed_caps c w tr w' l : runs false (get_cached_attachments c "") w tr w' (Ok l) -> Forall (fun a => Forall okc (at_caps a)) l.
Proof.
  intros H. apply get_cached_attachments_inv in H. destruct H as (_ & _ & _ & _ & H). specialize (H eq_refl).
  assert (E := f_equal (fun o => match o with Ok z => z | _ => [] end) H). cbv beta iota in E. rewrite E. clear. apply Forall_forall. intros a I. apply in_flat_map in I. destruct I as (n & _ & I).
  destruct (name_selected "" n); [|destruct I]. destruct (sget _ w) as [d|]; [|destruct I]. destruct (attachment_of "" d) as [b|] eqn:A; [|destruct I].
  destruct I as [<-|[]]. eapply attachment_caps. exact A.
Qed.
