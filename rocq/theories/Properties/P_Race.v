(** C83: several ADDs of one attachment at once. *)
From Coq Require Import String Ascii List Bool Arith Lia ZArith.
From Verif Require Import Model.GoStr Model.Errors Model.Version Model.Path Model.Json Model.GoJson Model.Args Model.Types Model.Conf Model.Invoke
  Model.Prog Model.Api
  Spec.VersionSpec Spec.NameSpec Spec.EnvSpec Spec.PathSpec Spec.JsonSpec Spec.ConfSpec Spec.TypesSpec Spec.RunSpec Spec.CacheSpec Spec.HistSpec Spec.MapSpec Spec.CollectSpec Spec.CrowdSpec Spec.LookSpec Spec.RaceSpec
  Proofs.StrP Proofs.EnvP Proofs.PathP Proofs.JsonP Proofs.JsonRT Proofs.ShapeP Proofs.CacheP Proofs.ProgP Proofs.ApiP Proofs.VerbP Proofs.ConfineP Proofs.EntryP Proofs.ListP Proofs.HistP Proofs.TypesP Proofs.TouchP Proofs.CollectP Proofs.CrowdP Proofs.LookP Proofs.RaceP
  Properties.P_Api Properties.P_Cache Properties.P_Conc Properties.P_Restart Properties.P_Collect Properties.P_Look.
Import ListNotations.
Open Scope nat_scope.
Open Scope string_scope.

(** ** Helpers *)
Lemma at_entry_is c a p q : at_entry c a p -> at_entry c a q -> q = p.
Proof. intros (n & rt & E & _ & ->) (n' & rt' & E' & _ & ->). congruence. Qed.
Definition clean_op (o : op) : Prop := forall q, changes o = Some q -> in_clean_form q.
Lemma within_clean c b : within clean_op (performs c b).
Proof.
  assert (RP : runs_plugins clean_op) by (split; intros; intros q X; discriminate).
  assert (FI : forall ns : list plugin_config, Forall (TouchP.finds clean_op c) ns) by (intros; apply Forall_forall; intros; split; [exact RP|intros q X; discriminate]).
  assert (SE : forall inj (ns : list plugin_config), Forall (sends clean_op c inj) ns) by (intros; apply Forall_forall; intros x _ conf _; split; [exact RP|intros q X; discriminate]).
  destruct (looks_dec b) as [L|L].
  - assert (LI : forall id, within clean_op (get_cached_attachments c id)).
    { intros id. unfold get_cached_attachments, read_dir. cbn [bind]. constructor; [intros q X; discriminate|]. intros r. cbn [bind].
      destruct (match r with RNames x => x | _ => _ end) as [names|e|]; try constructor. apply wi_bind; [apply wi_read_attachments; intros; intros q X; discriminate|intros; constructor]. }
    destruct b; try destruct L; cbn [performs]; apply wi_returning; [|apply LI]. unfold gc_network_list. destruct (nl_disable_gc l); [constructor|]. apply wi_bind; [apply LI|]. intros [atts|e|]; try constructor.
    apply wi_rbindp; [apply wi_gc_del_loop; [apply FI|split; intros q X; [discriminate|injection X as <-; apply entry_clean]]|]. intros errs. apply wi_rbindp; [|intros; constructor]. destruct (gte_or_false _ _); [now apply wi_gc_plugin_loop|constructor].
  - eapply within_weaken; [|now apply wi_performs]. intros o M q CH. assert (A : at_entry c b q) by (destruct o; cbn in CH; try discriminate; injection CH as ->; cbn in M; tauto).
    destruct A as (n & rt & _ & _ & ->). apply entry_clean.
Qed.
Lemma together_tidy fl : forall (ps : list (prog (res value))) w tr w' rest, mingles fl ps w tr w' rest -> Forall (within clean_op) ps -> tidy w -> tidy w'.
Proof.
  intros ps w tr w' rest H. induction H as [ps w|ps w i o k r w1 tr w2 qs E An H IH]; intros F T; [exact T|]. pose proof (proj1 (Forall_forall _ _) F _ (nth_error_In _ _ E)) as W.
  inversion W as [|o1 k1 C1 W1]; subst. apply IH; [|eapply happens_tidy; eassumption]. clear - F W1. revert i. induction ps as [|p ps IH]; intros i; [destruct i; constructor|]. apply Forall_cons_iff in F as [F1 F2].
  destruct i as [|i]; cbn [set_nth]; constructor; auto.
Qed.
Lemma unreadable_result ver d : parse d = None -> exists e, reads_result ver (Some d) = Err e.
Proof. intros P. rewrite reads_eq. unfold unmarshal_cached_info, create_from_bytes, decode_version. rewrite P. cbn [obind rbind]. eexists. reflexivity. Qed.
Lemma unreadable_config c name rt w d : named name rt -> sget (entry_path c name rt) w = Some d -> parse d = None -> exists e, config_in c name rt w = Err e.
Proof.
  intros N G P. unfold config_in. assert (X : get_cache_file_path c name rt = Ok (entry_path c name rt)) by (apply cache_path_ok; auto). rewrite X, G. unfold unmarshal_cached_info. rewrite P. cbn. eexists. reflexivity.
Qed.
Lemma asks_unreadable c a p w t w' v d : asks a -> at_entry c a p -> sget p w = Some d -> parse d = None -> runs false (performs c a) w t w' v -> exists e, v = Err e.
Proof.
  intros A (name & rt & AB & NM & ->) G P R.
  destruct a as [l rt0|l rt0|l rt0|l rt0|l rt0|n rt0|n rt0|n rt0|n rt0|n rt0|l|n|l args|l|id|x]; try destruct A; cbn [about] in AB; injection AB as <- <-; cbn [performs] in R; unfold returning in R;
    apply runs_bind in R; destruct R as (t1 & w1 & x & t2 & R1 & R2 & _); apply runs_ret in R2; destruct R2 as (_ & _ & ->);
    unfold get_network_list_cached_result, get_network_cached_result, get_network_list_cached_config, get_network_cached_config in R1;
    first [apply get_cached_inv in R1 as (_ & _ & _ & [-> |(X & _)]); [|discriminate]; rewrite (cached_in_named _ _ _ _ _ NM), G; match goal with |- context [reads_result ?ver _] => destruct (unreadable_result ver d P) as (e & ->) end
          |apply get_cached_config_inv in R1 as (_ & _ & _ & [-> |(X & _)]); [|discriminate]; destruct (unreadable_config _ _ _ _ _ NM G P) as (e & ->)]; eexists; reflexivity.
Qed.

(** The schedules are those of [mingles], which has every one of [interleaves] (mingles_some). *)

(** ** What an ADD does *)
(** Whatever runs beside it -- ADDs, DELs, collections, of the same attachment or others, and
    whatever file operations fail -- the steps an ADD takes are steps it could have taken alone, in
    any file system at all: in particular it sends the plugins what it would have sent alone, and
    returns what it would have returned. *)
Theorem C83_each_add_as_alone : forall fl c acts w tr w' rest i a u, mingles fl (map (performs c) acts) w tr w' rest ->
  nth_error acts i = Some a -> is_add a ->
  exists todo u', nth_error rest i = Some todo /\ goes fl (performs c a) u (own i tr) u' todo /\
    forall v, todo = Ret v -> runs fl (performs c a) u (own i tr) u' v.
Proof.
  intros fl c acts w tr w' rest i a u H E IA. destruct (sightless_alone _ fl i _ _ _ _ _ _ u H (nth_performs c _ _ _ E) (add_sightless c a IA)) as (q & u' & Eq & G).
  exists q, u'. split; [exact Eq|]. split; [exact G|]. intros v ->. now apply goes_runs in G.
Qed.

(** ** What is in the cache *)
(** As long as no file operation fails, at every moment of every interleaving the entry of an
    attachment is unreadable, or holds exactly what it held at the start or exactly what one of the
    ADDs that have succeeded would have left had it run alone -- never part of one and part of
    another. *)
Theorem C83_never_a_mixture : forall c acts w tr w' rest p d, mingles false (map (performs c) acts) w tr w' rest ->
  (forall b, In b acts -> at_entry c b p -> carries b) ->
  sget p w' = Some d -> parse d <> None ->
  sget p w = Some d \/ exists j u, added c acts w tr rest p j u /\ sget p u = Some d.
Proof.
  intros c acts w tr w' rest p d H CA G PN. pose proof (race_end c acts w p CA _ _ _ _ _ [] H (race_start c acts w p)) as R. cbn [app] in R.
  destruct (race_readable c acts w p CA _ _ _ _ R G PN) as [X|(j & b & x & u & E & [IA AE] & EP & RU & GD)]; [now left|right]. exists j, u. split; [|exact GD]. exists b, x. auto.
Qed.
(** So a query at any moment fails, or answers as it would have at the start, or with no entry there,
    or after one of the ADDs alone. *)
Theorem C83_queries : forall c acts w tr w' rest a p t w'' v, mingles false (map (performs c) acts) w tr w' rest ->
  (forall b, In b acts -> at_entry c b p -> carries b) ->
  asks a -> at_entry c a p -> runs false (performs c a) w' t w'' v ->
  (exists e, v = Err e) \/ (exists u', runs false (performs c a) w t u' v) \/ (exists u', runs false (performs c a) (sdel p w) t u' v) \/
  exists j u u', added c acts w tr rest p j u /\ runs false (performs c a) u t u' v.
Proof.
  intros c acts w tr w' rest a p t w'' v H CA A AE R.
  assert (CF : confined (fun q => q = p) (performs c a)) by (apply cf_performs; [destruct a; cbn in *; tauto|intros q Q; eapply at_entry_is; eassumption]).
  assert (AG : forall z, sget p z = sget p w' -> exists u', runs false (performs c a) z t u' v).
  { intros z E. destruct (runs_agree _ _ _ _ _ _ _ _ R CF z) as (u' & RU & _); [|eauto]. intros q ->. now symmetry. }
  destruct (sget p w') as [d|] eqn:G.
  2:{ right. right. left. apply AG. now rewrite sget_sdel, String.eqb_refl. }
  destruct (parse d) as [j|] eqn:P; [|left; eapply asks_unreadable; eassumption]. assert (PN : parse d <> None) by congruence.
  destruct (C83_never_a_mixture _ _ _ _ _ _ _ _ H CA G PN) as [X|(i & u & AD & X)]; [right; left; now apply AG|].
  right. right. right. destruct (AG u X) as (u' & RU). exists i, u, u'. now split.
Qed.
(** And a listing at any moment shows only what it would have shown at the start, or attachments as
    an ADD among the operations describes them: network, container, interface, configuration,
    namespace, arguments and capability arguments all of the same ADD. *)
Theorem C83_listing : forall c acts w tr w' rest id t w'' v, mingles false (map (performs c) acts) w tr w' rest -> tidy w ->
  (forall b, In b acts -> carries b) ->
  runs false (get_cached_attachments c id) w' t w'' v ->
  exists atts, v = Ok atts /\ forall a, In a atts -> exists n, may_list c acts w id n a.
Proof.
  intros c acts w tr w' rest id t w'' v H T0 CA R. assert (T : tidy w').
  { eapply together_tidy; [exact H| |exact T0]. apply Forall_forall. intros q J. apply in_map_iff in J as (b & <- & _). apply within_clean. }
  destruct (listing _ _ _ _ _ _ T R) as (_ & pairs & -> & _ & IFF). eexists. split; [reflexivity|]. intros a J. apply in_map_iff in J as ([n a'] & X & J). cbn in X. subst a'. apply IFF in J. exists n.
  destruct J as (F & S & data & G & D & ID). assert (PN : parse data <> None).
  { intros P. assert (X : attachment_of id data = Some a) by (apply attachment_of_iff; now split). unfold attachment_of, unmarshal_cached_info in X. rewrite P in X. discriminate. }
  destruct (C83_never_a_mixture _ _ _ _ _ _ _ _ H (fun b J _ => CA b J) G PN) as [X|(j & u & (b & x & E & IA & AE & EP & RU) & X)].
  - left. split; [exact F|]. split; [exact S|]. exists data. auto.
  - right. exists b. pose proof (nth_error_In _ _ E) as J. split; [exact J|]. split; [exact AE|]. split; [|exact ID].
    destruct AE as (name & rt & AB & NM & EQ).
    assert (SV : exists s, saves b (Ok x) = Some s /\ place c s = results_dir c ++ "/" ++ n /\ about b = Some (sv_name s, sv_rt s) /\
       match b with AddList l _ => sv_config s = nl_bytes l | AddOne n _ => sv_config s = pg_bytes n | _ => True end).
    { destruct b as [l rt0| | | | |n0 rt0| | | | | | | | | |]; try destruct IA; cbn [about] in AB; injection AB as <- <-; cbn [performs] in RU; unfold returning in RU;
        apply runs_bind in RU; destruct RU as (t1 & w1 & y & t2 & _ & R2 & _); apply runs_ret in R2; destruct R2 as (_ & _ & EX); destruct y as [y|e|]; try discriminate; cbn [rmap rbind] in EX; injection EX as ->;
        (eexists; split; [reflexivity|]; split; [symmetry; exact EQ|]; now split). }
    destruct SV as (s & SV & PL & AB' & CFG). destruct (add_saves _ _ _ _ _ _ _ _ RU SV) as (_ & NM' & FP & (dd & ST & GP) & _). rewrite PL, X in GP. injection GP as <-.
    apply (written_recorded b data); [|now apply CA|exact D]. exists s, data. split; [exact IA|]. split; [exact AB'|]. split; [exact NM'|]. split; [exact ST|]. split; [exact FP|]. split; [now exists ""; rewrite append_nil_r|exact CFG].
Qed.

(** ** Two ADDs of one attachment that both succeed *)
Definition R_rt (ns arg : string) : runtime_conf :=
  {| rt_container := "c3"; rt_netns := ns; rt_ifname := "eth0"; rt_args := [("K", arg)]; rt_caps := []; rt_cache_dir := "" |}.
Ltac carry := split; [unfold texts_ok; cbn; repeat (split; [apply ascii_wft; reflexivity|]); repeat constructor; apply ascii_wft; reflexivity
  |exists []; apply C28_capability_arguments; [constructor|split; [exact Logic.I|split; exact Logic.I]]].
Definition R_path : string := "/c/results/net-c3-eth0".
(** They have different namespaces, so that their records have different lengths. *)
Definition R_acts : list action := [AddList X_list (R_rt "/a/longer/ns" "v"); AddList X_list (R_rt "/ns" "v")].
Lemma R_carries : forall b, In b R_acts -> carries b.
Proof. intros b [<-|[<-|[]]]; (split; [discriminate|carry]). Qed.
Definition R_sched : list nat := (repeat 0 8 ++ repeat 1 8 ++ [0; 1])%list.
Notation R_run := (weave X_oracle R_sched (map (performs X_cni) R_acts) Y_world) (only parsing).
Definition unreadable (p : string) (w : world) : bool := match sget p w with Some d => match parse d with None => true | _ => false end | None => false end.
Definition R_good (x : list (nat * event) * world * list (prog (res value))) : bool :=
  match x with
  | (tr, w', [Ret (Ok (VResult (Some _))); Ret (Ok (VResult (Some _)))]) => unreadable R_path w'
  | _ => false
  end.
(** Both succeed, and what they leave in the cache cannot be read: every query for the result or the
    configuration fails from then on. *)
Theorem C83_both_succeed_unreadable : exists tr w' r1 r2 d,
  interleaves false (map (performs X_cni) R_acts) Y_world tr w' [Ret (Ok (VResult (Some r1))); Ret (Ok (VResult (Some r2)))] /\
  tidy Y_world /\ (forall b, In b R_acts -> carries b) /\ (forall b, In b R_acts -> at_entry X_cni b R_path) /\
  sget R_path w' = Some d /\ parse d = None /\
  forall a t w'' v, asks a -> at_entry X_cni a R_path -> runs false (performs X_cni a) w' t w'' v -> exists e, v = Err e.
Proof.
  assert (K : R_good R_run = true) by (vm_compute; reflexivity).
  destruct R_run as [[tr w'] qs] eqn:E. pose proof (weave_interleaves _ _ X_tame _ _ _ _ _ _ E) as R. clear E. cbn [R_good] in K.
  destruct qs as [|[[[|[r1|]| | | |]|e|]|o k] qs]; try discriminate. destruct qs as [|[[[|[r2|]| | | |]|e|]|o k] qs]; try discriminate. destruct qs; try discriminate.
  unfold unreadable in K. destruct (sget R_path w') as [d|] eqn:G; [|discriminate]. destruct (parse d) eqn:P; [discriminate|].
  exists tr, w', r1, r2, d. split; [exact R|]. destruct Y_good as [T _]. split; [exact T|]. split; [exact R_carries|]. split.
  { intros b [<-|[<-|[]]]; (eexists _, _; split; [reflexivity|]; split; [repeat split; discriminate|reflexivity]). }
  split; [exact G|]. split; [exact P|]. intros a t w'' v A AE RU. eapply asks_unreadable; eassumption.
Qed.

(** ** When writes fail *)
(** The first ADD is held up after emptying the file; the second completes; then the first one's
    write fails half way.  It reports the failure -- but the cache now shows, for the attachment that
    the second ADD said it added, the namespace of the first with the arguments of the second. *)
Definition W_acts : list action := [AddList X_list (R_rt "/nsA" "a"); AddList X_list (R_rt "/nsB" "b")].
Definition W_sched : list nat := (repeat 0 8 ++ repeat 1 9)%list.
Notation W_run := (weave X_oracle W_sched (map (performs X_cni) W_acts) Y_world) (only parsing).
Fixpoint upto (s t : string) (n : nat) : nat := match n with 0 => 0 | S n => if String.prefix s t then 0 else match t with String _ t => S (upto s t n) | EmptyString => 0 end end.
Definition W_cut (d : string) : string := stake (upto "/nsA" d 2000 + 4) d.
Definition W_mixed (x : option attachment) : bool :=
  match x with Some a => String.eqb (at_container a) "c3" && String.eqb (at_netns a) "/nsA" && match at_args a with [(k, v)] => String.eqb k "K" && String.eqb v "b" | _ => false end | None => false end.
Definition W_good (x : list (nat * event) * world * list (prog (res value))) : bool :=
  match x with
  | (tr, w', [Do (OpWrite p d) k; Ret (Ok (VResult (Some _)))]) =>
      String.eqb p R_path && match k (RErr (Some (EOS "no space left on device"))) with Ret (Err _) => true | _ => false end &&
      match sget p (overlay p (W_cut d) w') with Some d' => W_mixed (attachment_of "" d') | None => false end
  | _ => false
  end.
Lemma answer_more w o r w1 : answer false w o r w1 -> answer true w o r w1.
Proof. intros A. destruct A; try discriminate; econstructor; eassumption. Qed.
Lemma interleaves_more : forall (ps : list (prog (res value))) w tr w' rest, interleaves false ps w tr w' rest -> interleaves true ps w tr w' rest.
Proof. intros ps w tr w' rest H. induction H; [constructor|]. econstructor; [eassumption|apply answer_more; eassumption|assumption]. Qed.
Theorem C83_mixture_when_writes_fail : exists tr w' e r d a,
  interleaves true (map (performs X_cni) W_acts) Y_world tr w' [Ret (Err e); Ret (Ok (VResult (Some r)))] /\
  sget R_path w' = Some d /\ describes d a /\ at_container a = "c3" /\ at_netns a = "/nsA" /\ at_args a = [("K", "b")].
Proof.
  assert (K : W_good W_run = true) by (vm_compute; reflexivity).
  destruct W_run as [[tr w'] qs] eqn:E. pose proof (weave_interleaves _ _ X_tame _ _ _ _ _ _ E) as R. clear E. cbn [W_good] in K.
  destruct qs as [|[x|[| |p d| | | | | |] k] qs]; try discriminate. destruct qs as [|[[[|[r|]| | | |]|e|]|o k'] qs]; try discriminate. destruct qs; try discriminate.
  apply andb_prop in K as [K K3]. apply andb_prop in K as [K1 K2]. apply String.eqb_eq in K1. subst p.
  destruct (k (RErr (Some (EOS "no space left on device")))) as [[z|e|]|o k'] eqn:KE; try discriminate.
  destruct (sget R_path (overlay R_path (W_cut d) w')) as [d'|] eqn:G; [|discriminate]. destruct (attachment_of "" d') as [a|] eqn:A; [|discriminate]. cbn [W_mixed] in K3.
  apply andb_prop in K3 as [K3 K4]. apply andb_prop in K3 as [K3 K5]. apply String.eqb_eq in K3, K5.
  destruct (at_args a) as [|[x y] [|z l]] eqn:AA; try discriminate. apply andb_prop in K4 as [K6 K7]. apply String.eqb_eq in K6, K7. subst x y.
  exists (tr ++ [(0, (OpWrite R_path d, RErr (Some (EOS "no space left on device"))))])%list, (overlay R_path (W_cut d) w'), e, r, d', a.
  split; [|split; [exact G|]; split; [apply attachment_of_iff in A; apply A|auto]].
  eapply il_app; [apply interleaves_more; exact R|]. eapply ILStep; [reflexivity| |cbn [set_nth]; rewrite KE; constructor].
  apply AnsWriteFault; [reflexivity|]. exists (sdrop (upto "/nsA" d 2000 + 4) d). symmetry. apply stake_sdrop.
Qed.

(** ** The theorems apply *)
(** Two ADDs of c3 and a DEL of c1, their steps mixed; the entry is that of the second ADD. *)
Definition S_acts : list action := [AddList X_list (R_rt "/nsA" "a"); AddList X_list (R_rt "/nsB" "b"); DelList X_list X_rt].
Definition S_sched : list nat := (repeat 0 4 ++ repeat 2 3 ++ repeat 1 8 ++ repeat 0 20 ++ [1] ++ repeat 2 20)%list.
Notation S_run := (weave X_oracle S_sched (map (performs X_cni) S_acts) Y_world) (only parsing).
Definition S_shows (x : option attachment) : bool :=
  match x with Some a => String.eqb (at_container a) "c3" && String.eqb (at_netns a) "/nsB" | None => false end.
Definition S_good (x : list (nat * event) * world * list (prog (res value))) : bool :=
  match x with
  | (tr, w', [Ret (Ok _); Ret (Ok _); Ret (Ok _)]) =>
      match sget R_path w' with Some d => match parse d with Some _ => S_shows (attachment_of "" d) | None => false end | None => false end
  | _ => false
  end.
Example C83_nonvacuous : exists tr w' v1 v2 v3 d a,
  interleaves false (map (performs X_cni) S_acts) Y_world tr w' [Ret (Ok v1); Ret (Ok v2); Ret (Ok v3)] /\ tidy Y_world /\
  (forall b, In b S_acts -> carries b) /\ sget R_path Y_world = None /\ sget R_path w' = Some d /\ parse d <> None /\ describes d a /\ at_netns a = "/nsB" /\
  asks (ListConfig X_list (R_rt "" "")) /\ at_entry X_cni (ListConfig X_list (R_rt "" "")) R_path.
Proof.
  assert (K : S_good S_run = true) by (vm_compute; reflexivity).
  destruct S_run as [[tr w'] qs] eqn:E. pose proof (weave_interleaves _ _ X_tame _ _ _ _ _ _ E) as R. clear E. cbn [S_good] in K.
  destruct qs as [|[[v1|e|]|o k] qs]; try discriminate. destruct qs as [|[[v2|e|]|o k] qs]; try discriminate. destruct qs as [|[[v3|e|]|o k] qs]; try discriminate. destruct qs; try discriminate.
  destruct (sget R_path w') as [d|] eqn:G; [|discriminate]. destruct (parse d) eqn:P; [|discriminate]. destruct (attachment_of "" d) as [a|] eqn:A; [|discriminate]. cbn [S_shows] in K.
  apply andb_prop in K as [_ K]. apply String.eqb_eq in K. exists tr, w', v1, v2, v3, d, a. split; [exact R|]. destruct Y_good as [T _]. split; [exact T|]. split.
  { intros b [<-|[<-|[<-|[]]]]; try exact Logic.I; (split; [discriminate|carry]). }
  split; [reflexivity|]. split; [exact G|]. split; [congruence|]. apply attachment_of_iff in A as [D _]. split; [exact D|]. split; [exact K|]. split; [exact Logic.I|].
  eexists _, _. split; [reflexivity|]. split; [repeat split; discriminate|reflexivity].
Qed.

Print Assumptions C83_each_add_as_alone.
Print Assumptions C83_never_a_mixture.
Print Assumptions C83_queries.
Print Assumptions C83_listing.
Print Assumptions C83_both_succeed_unreadable.
Print Assumptions C83_mixture_when_writes_fail.
