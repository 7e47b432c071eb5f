(** C82: looking at an attachment while it is being changed. *)
From Coq Require Import String Ascii List Bool Arith Lia ZArith.
From Verif Require Import Model.GoStr Model.Errors Model.Version Model.Path Model.Json Model.GoJson Model.Args Model.Types Model.Conf Model.Invoke
  Model.Prog Model.Api
  Spec.VersionSpec Spec.NameSpec Spec.EnvSpec Spec.PathSpec Spec.JsonSpec Spec.ConfSpec Spec.TypesSpec Spec.RunSpec Spec.CacheSpec Spec.RecordSpec Spec.HistSpec Spec.MapSpec Spec.CollectSpec Spec.CrowdSpec Spec.LookSpec
  Proofs.StrP Proofs.EnvP Proofs.PathP Proofs.JsonP Proofs.JsonRT Proofs.ShapeP Proofs.CacheP Proofs.ProgP Proofs.ApiP Proofs.VerbP Proofs.ConfineP Proofs.EntryP Proofs.ListP Proofs.HistP Proofs.TypesP Proofs.CollectP Proofs.CrowdP Proofs.LookP
  Properties.P_Api Properties.P_Cache Properties.P_Conc Properties.P_Restart Properties.P_Collect Properties.P_Record.
Import ListNotations.
Open Scope nat_scope.
Open Scope string_scope.

(** ** A record read as a bare result *)
Lemma members_skip A (step : A -> string -> json -> option A) z : forall o, (forall k, In k (map fst o) -> forall v, step z k v = Some z) -> decode_members step z o = Some z.
Proof.
  unfold decode_members. induction o as [|[k v] o IH]; intros H; [reflexivity|]. cbn [fold_left fst snd]. rewrite (H k) by (now left). apply IH. intros k' J. apply H. now right.
Qed.
Lemma bare_record data o : parse data = Some (JObj o) -> incl (map fst o) record_members -> create_from_bytes data = create_from_bytes "{}".
Proof.
  intros P I.
  assert (T : forallb (fun k => negb (key_is "cniVersion" k) && negb (key_is "ip4" k) && negb (key_is "ip6" k) && negb (key_is "dns" k)) record_members = true) by (vm_compute; reflexivity).
  rewrite forallb_forall in T.
  assert (V : forall k, In k (map fst o) -> key_is "cniVersion" k = false /\ key_is "ip4" k = false /\ key_is "ip6" k = false /\ key_is "dns" k = false).
  { intros k J. specialize (T k (I k J)). repeat (apply andb_prop in T as [T ?]). repeat match goal with X : negb _ = true |- _ => apply negb_true_iff in X end. auto. }
  assert (D1 : dec_cni_version (JObj o) = Some "").
  { unfold dec_cni_version, decode_struct. apply members_skip. intros k J v. destruct (V k J) as (-> & _). reflexivity. }
  assert (D2 : dec_res020 (JObj o) = Some {| v2_version := ""; v2_ip4 := None; v2_ip6 := None; v2_dns := dns_zero |}).
  { unfold dec_res020, decode_struct. apply members_skip. intros k J v. destruct (V k J) as (-> & -> & -> & ->). reflexivity. }
  assert (E : create_from_bytes "{}" = Ok (set_version "0.1.0" (R020 {| v2_version := ""; v2_ip4 := None; v2_ip6 := None; v2_dns := dns_zero |}))) by (vm_compute; reflexivity).
  rewrite E. clear E. unfold create_from_bytes, decode_version. rewrite P. cbn [obind]. rewrite D1. cbn [rbind String.eqb].
  change (create "0.1.0" data) with (new_result020 data). unfold new_result020. rewrite P. cbn [obind]. rewrite D2. reflexivity.
Qed.
Lemma full_record b d : written_by b d -> carries b -> parse d <> None ->
  create_from_bytes d = create_from_bytes "{}" /\ exists att, describes d att /\ recorded_by b att.
Proof.
  intros W CA PN. pose proof W as (s & data & IA & AB & NM & ST & FP & (t & P) & CF).
  assert (CR : carried (sv_name s) (sv_rt s)).
  { destruct b as [l rt| | | | |n rt| | | | | | | | | |]; try destruct IA; cbn in AB, CA; injection AB as <- <-; [apply CA|exact CA]. }
  destruct (stored_doc s data ST CR FP) as (o & m & raw & PR & EN & CM & U & _).
  destruct (string_dec t "") as [->|T]; [|exfalso; apply PN; eapply print_prefix_rejected; [exact EN| |exact T]; congruence].
  rewrite append_nil_r in P. subst d. split.
  - assert (PA : parse data = Some (JObj o)) by (rewrite PR; now apply parse_print). apply (bare_record _ _ PA).
    destruct (stored_raw _ _ ST FP) as (raw' & ED' & _ & WR & _). destruct CR as ((T1 & T2 & T3 & T4 & T5) & _).
    destruct (cached_info_rt cni_cache_v1 (rt_container (sv_rt s)) (sv_config s) (rt_ifname (sv_rt s)) (sv_name s) (rt_netns (sv_rt s)) (rt_args (sv_rt s)) (rt_caps (sv_rt s)) raw' m) as [EN' _]; auto.
    { apply ascii_wf. reflexivity. }
    { exact (caps_enc _ _ CM). }
    { apply CM. }
    apply parse_print in EN'. unfold info_of in ED'. rewrite <- ED', PA in EN'. apply some_eq in EN'. eapply proj2, written_keys. symmetry. exact EN'.
  - pose proof (stored_attachment s data "" m ST CR FP CM NM) as AT. cbn in AT. apply attachment_of_iff in AT as [D _]. eexists. split; [exact D|]. eapply written_recorded; eassumption.
Qed.

(** ** Lookers *)
Lemma moment_at fl ps w tr1 e tr2 w' rest u qs : interleaves fl ps w tr1 u qs -> interleaves fl qs u (e :: tr2) w' rest -> moment fl ps w (tr1 ++ e :: tr2)%list w' rest (List.length tr1) u.
Proof.
  intros H1 H2. exists qs. rewrite firstn_app, Nat.sub_diag, firstn_all, skipn_app, Nat.sub_diag, skipn_all. cbn [firstn skipn app]. rewrite app_nil_r. now split.
Qed.
Lemma moment_first fl ps w tr w' rest : interleaves fl ps w tr w' rest -> moment fl ps w tr w' rest 0 w.
Proof. intros H. exists ps. cbn [firstn skipn]. split; [constructor|exact H]. Qed.
Lemma own_mid i tr1 e tr2 : own i tr1 = [] -> own i (tr1 ++ (i, e) :: tr2)%list = e :: own i tr2.
Proof. intros O. rewrite own_app, O. cbn [app own flat_map fst snd]. now rewrite Nat.eqb_refl. Qed.
Lemma nth_performs c acts i a : nth_error acts i = Some a -> nth_error (map (performs c) acts) i = Some (performs c a).
Proof. intros E. now rewrite nth_error_map, E. Qed.

(** A query for the configuration answers as it would alone at one moment, whatever runs beside it. *)
Theorem C82_configuration : forall fl c acts w tr w' rest i a v, interleaves fl (map (performs c) acts) w tr w' rest ->
  nth_error acts i = Some a -> asks_config a -> nth_error rest i = Some (Ret v) ->
  exists k u, moment fl (map (performs c) acts) w tr w' rest k u /\ runs fl (performs c a) u (own i tr) u v.
Proof.
  intros fl c acts w tr w' rest i a v H E A EV. pose proof (nth_performs c _ _ _ E) as EP. destruct (config_shape c a A) as [[x X]|(p & k & X & K)].
  - exists 0, w. split; [now apply moment_first|]. eapply blind_tail; [exact H|exact EP| |exact EV]. rewrite X. constructor.
  - rewrite X in EP. destruct (next_own fl i _ _ _ _ _ _ _ _ H EP EV) as (tr1 & r & tr2 & u & u1 & qs & -> & O & H1 & Eq & An & H2).
    assert (u1 = u) as -> by (eapply idle_answer; [|exact An]; exact Logic.I).
    exists (List.length tr1), u. split; [eapply moment_at; [exact H1|]; econstructor; eassumption|]. rewrite (own_mid _ _ _ _ O), X. econstructor; [exact An|].
    eapply blind_tail; [exact H2|eapply nth_set_same; exact Eq| |exact EV]. destruct (K r) as [z ->]. constructor.
Qed.
(** So does a query for the result and a CHECK -- or it takes the record that an ADD has just
    completed for a bare result, and answers as if the entry were the empty object. *)
Theorem C82_looking : forall fl c acts w tr w' rest i a v, interleaves fl (map (performs c) acts) w tr w' rest -> tidy w -> company c acts w ->
  nth_error acts i = Some a -> looks a -> nth_error rest i = Some (Ret v) ->
  exists k u, moment fl (map (performs c) acts) w tr w' rest k u /\
    (alone fl c a u (own i tr) v \/
     exists b p d att, In b acts /\ is_add b /\ at_entry c b p /\ at_entry c a p /\ ~ asks_config a /\
       sget p u = Some d /\ describes d att /\ recorded_by b att /\ alone fl c a (sset p "{}" u) (own i tr) v).
Proof.
  intros fl c acts w tr w' rest i a v H T0 CO E L EV. pose proof (nth_performs c _ _ _ E) as EP.
  assert (DEC : asks_config a \/ ~ asks_config a) by (destruct a; cbn; auto). destruct DEC as [A|A].
  { destruct (C82_configuration _ _ _ _ _ _ _ _ _ _ H E A EV) as (k & u & M & R). exists k, u. split; [exact M|]. left. exists (own i tr). now split. }
  destruct (looker_shape c a L A) as [B|(p & ver & K & AE & KC & k1 & X & N1 & D1)].
  { exists 0, w. split; [now apply moment_first|]. left. exists (own i tr). split; [|reflexivity]. eapply blind_tail; eassumption. }
  rewrite X in EP. destruct (next_own fl i _ _ _ _ _ _ _ _ H EP EV) as (tr1 & r & tr2 & u & u1 & qs & -> & O & H1 & Eq & An & H2).
  assert (u1 = u) as -> by (eapply idle_answer; [|exact An]; exact Logic.I). rewrite (own_mid _ _ _ _ O).
  assert (Eq2 : nth_error (set_nth i (k1 r) qs) i = Some (k1 r)) by (eapply nth_set_same; exact Eq).
  assert (ONE : forall x, k1 r = K x -> moment fl (map (performs c) acts) w (tr1 ++ (i, (OpRead p, r)) :: tr2)%list w' rest (List.length tr1) u /\ alone fl c a u ((OpRead p, r) :: own i tr2) v).
  { intros x KX. split; [eapply moment_at; [exact H1|]; econstructor; eassumption|]. eexists. split; [|reflexivity]. rewrite X. econstructor; [exact An|].
    eapply blind_tail; [exact H2|exact Eq2| |exact EV]. rewrite KX. apply KC. }
  assert (RR : r = RData None \/ exists d, r = RData (Some d) /\ sget p u = Some d) by (inversion An; subst; [destruct (sget p u); eauto|auto]).
  destruct RR as [->|(d & -> & G)]; [exists (List.length tr1), u; destruct (ONE _ N1); auto|].
  destruct (D1 d) as [(x & _ & KX)|(RN & k2 & KX & N2 & D2)]; [exists (List.length tr1), u; destruct (ONE _ KX); auto|]. clear ONE.
  rewrite KX in Eq2, H2. destruct (next_own fl i _ _ _ _ _ _ _ _ H2 Eq2 EV) as (tr3 & r2 & tr4 & u2 & u3 & qs3 & -> & O3 & H3 & Eq3 & An3 & H4).
  assert (u3 = u2) as -> by (eapply idle_answer; [|exact An3]; exact Logic.I). rewrite (own_mid _ _ _ _ O3).
  assert (H13 : interleaves fl (map (performs c) acts) w (tr1 ++ (i, (OpRead p, RData (Some d))) :: tr3)%list u2 qs3).
  { eapply il_app; [exact H1|]. econstructor; [exact Eq|exact An|]. now rewrite KX. }
  assert (M : moment fl (map (performs c) acts) w (tr1 ++ (i, (OpRead p, RData (Some d))) :: tr3 ++ (i, (OpRead p, r2)) :: tr4)%list w' rest (List.length (tr1 ++ (i, (OpRead p, RData (Some d))) :: tr3)%list) u2).
  { change (tr1 ++ (i, (OpRead p, RData (Some d))) :: tr3 ++ (i, (OpRead p, r2)) :: tr4)%list with (tr1 ++ ((i, (OpRead p, RData (Some d))) :: tr3) ++ (i, (OpRead p, r2)) :: tr4)%list.
    rewrite app_assoc. eapply moment_at; [exact H13|]. econstructor; eassumption. }
  eexists _, u2. split; [exact M|].
  assert (TAIL : forall x z, k2 r2 = K x -> runs fl (K x) z (own i tr4) z v).
  { intros x z KE. rewrite <- KE. eapply blind_tail; [exact H4|eapply nth_set_same; exact Eq3| |exact EV]. rewrite KE. apply KC. }
  assert (R2 : r2 = RData None \/ exists d', r2 = RData (Some d') /\ sget p u2 = Some d') by (inversion An3; subst; [destruct (sget p u2); eauto|auto]).
  destruct R2 as [->|(d' & -> & G')].
  { left. exists ((OpRead p, RData None) :: own i tr4). split; [|reflexivity]. rewrite X. econstructor; [exact An3|]. rewrite N1. now apply TAIL. }
  assert (TWICE : forall z e, record_in ver e = None -> sget p z = Some e -> result_in ver e = result_in ver d' -> alone fl c a z ((OpRead p, RData (Some d)) :: (OpRead p, RData (Some d')) :: own i tr4) v).
  { intros z e RE GE RS. exists ((OpRead p, RData (Some e)) :: (OpRead p, RData (Some e)) :: own i tr4). split; [|reflexivity]. rewrite X.
    assert (AZ : answer fl z (OpRead p) (RData (Some e)) z) by (rewrite <- GE; constructor). econstructor; [exact AZ|].
    destruct (D1 e) as [(x & Y & _)|(_ & k3 & KE & _ & D3)]; [congruence|]. rewrite KE. econstructor; [exact AZ|]. rewrite D3, RS. apply TAIL. apply D2. }
  destruct (record_in ver d') as [x|] eqn:RD; [right|left; now apply (TWICE u2 d')].
  assert (DN : d <> d') by congruence.
  assert (H3' : interleaves fl (set_nth i (k1 (RData (Some d))) qs) u tr3 u2 qs3) by (now rewrite KX).
  assert (H1' : interleaves fl (map (performs c) acts) w (tr1 ++ [(i, (OpRead p, RData (Some d)))])%list u (set_nth i (k1 (RData (Some d))) qs)).
  { eapply il_app; [exact H1|]. econstructor; [exact Eq|exact An|constructor]. }
  destruct (replaced fl c acts w T0 CO _ _ _ _ _ _ p d d' H1' H3' G G' DN) as (b & J & IA & AB & CB & WB).
  assert (PN : parse d' <> None) by (intros PN; unfold record_in, unmarshal_cached_info in RD; rewrite PN in RD; discriminate).
  destruct (full_record b d' WB CB PN) as [CF (att & DA & RB)].
  exists b, p, d', att. split; [exact J|]. split; [exact IA|]. split; [exact AB|]. split; [exact AE|]. split; [exact A|]. split; [exact G'|]. split; [exact DA|]. split; [exact RB|].
  apply (TWICE (sset p "{}" u2) "{}"); [vm_compute; reflexivity|now rewrite sget_sset, String.eqb_refl|]. unfold result_in. now rewrite CF.
Qed.
(** If no ADD of that attachment is under way, a query or CHECK answers as it would alone at one
    moment -- even if the attachment is being deleted or collected. *)
Theorem C82_no_add : forall fl c acts w tr w' rest i a v, interleaves fl (map (performs c) acts) w tr w' rest -> tidy w -> company c acts w ->
  nth_error acts i = Some a -> looks a -> nth_error rest i = Some (Ret v) ->
  (forall b p, In b acts -> is_add b -> at_entry c b p -> ~ at_entry c a p) ->
  exists k u, moment fl (map (performs c) acts) w tr w' rest k u /\ alone fl c a u (own i tr) v.
Proof.
  intros fl c acts w tr w' rest i a v H T0 CO E L EV NA. destruct (C82_looking _ _ _ _ _ _ _ _ _ _ H T0 CO E L EV) as (k & u & M & [A|(b & p & d & att & J & IA & AB & AA & _)]); [eauto|].
  now destruct (NA b p J IA AB).
Qed.
(** The lookers can be left out: the other operations do what they would without them, so C77 says
    of them what it says of operations that run together. *)
Theorem C82_others : forall fl c acts w tr w' rest, interleaves fl (map (performs c) acts) w tr w' rest ->
  (company c acts w -> together c (map unless_looking acts) w) /\
  exists tr' rest', interleaves fl (map (performs c) (map unless_looking acts)) w tr' w' rest' /\
    forall j b, nth_error acts j = Some b -> ~ looks b -> own j tr' = own j tr /\ nth_error rest' j = nth_error rest j.
Proof. intros fl c acts w tr w' rest H. split; [apply company_together|now apply without in H]. Qed.
(** The entry at any moment is what an operation about it, so far, would have left alone; or it is
    what it was, or collected. *)
Theorem C82_moments : forall fl c acts w tr w' rest k u p, tidy w -> company c acts w -> moment fl (map (performs c) acts) w tr w' rest k u ->
  (exists j b uu q, nth_error acts j = Some b /\ ~ looks b /\ at_entry c b p /\ goes fl (performs c b) w (own j (firstn k tr)) uu q /\ sget p u = sget p uu) \/
  ((forall b, In b acts -> ~ looks b -> ~ at_entry c b p) /\ (sget p u = sget p w \/ (doomed c acts w p /\ sget p u = None))).
Proof.
  intros fl c acts w tr w' rest k u p T0 CO (qs & H & _). destruct (contents fl c acts w T0 CO _ _ _ p H) as [(j & b & uu & q & E & L & _ & A & Go & S)|X]; [left|now right].
  exists j, b, uu, q. auto.
Qed.

(** ** The ADD of c3 on its way, a query for its result and a CHECK of it *)
Definition L_acts : list action := [AddList X_list (X_cid "c3"); ListResult X_list (X_cid "c3"); CheckList X_list (X_cid "c3")].
Definition L_sched : list nat := (repeat 0 8 ++ [1; 2] ++ [0] ++ List.concat (repeat [1; 2; 0] 20))%list.
Definition L_path : string := "/c/results/net-c3-eth0".
Lemma L_company : company X_cni L_acts Y_world.
Proof.
  split; [|split; [|split]].
  - intros i j a b p NE Ei Ej La Lb. destruct i as [|[|[|i]]]; cbn in Ei; try (destruct i; discriminate); injection Ei as <-; try (now destruct La).
    destruct j as [|[|[|j]]]; cbn in Ej; try (destruct j; discriminate); injection Ej as <-; try (now destruct Lb).
  - intros a p J La A (l & args & [X|[X|[X|[]]]] & _); discriminate.
  - intros a [<-|[<-|[<-|[]]]]; try exact Logic.I. split; [discriminate|exact G_carried].
  - intros l args a name rt [X|[X|[X|[]]]]; discriminate.
Qed.
(** The file system after some steps, when no file operation fails. *)
Definition replay1 (w : world) (e : nat * event) : world :=
  match snd e with
  | (OpTrunc p, RErr None) => sset p "" w
  | (OpWrite p d, RErr None) => overlay p d w
  | (OpRemove p, RErr None) => sdel p w
  | _ => w
  end.
Lemma replays A : forall (ps : list (prog A)) w tr u qs, interleaves false ps w tr u qs -> u = fold_left replay1 tr w.
Proof.
  intros ps w tr u qs H. induction H as [|ps w j o k r w1 tr w2 rest E An H IH]; [reflexivity|]. cbn [fold_left]. rewrite IH. f_equal.
  inversion An; subst; try reflexivity; discriminate.
Qed.
Definition no_ips (r : option result) : bool := match r with Some (R100 r) => match v1_ips r with [] => true | _ => false end | _ => false end.
Definition L_asked : list string :=
  ["{""capabilities"":{""mac"":true},""cniVersion"":""1.1.0"",""name"":""net"",""prevResult"":{""cniVersion"":""1.1.0""},""type"":""bridge""}";
   "{""cniVersion"":""1.1.0"",""name"":""net"",""prevResult"":{""cniVersion"":""1.1.0""},""type"":""tuning""}"].
Notation L_run := (weave X_oracle L_sched (map (performs X_cni) L_acts) Y_world) (only parsing).
Definition strs_eqb (a b : list string) : bool := if list_eq_dec string_dec a b then true else false.
Definition L_good (x : list (nat * event) * world * list (prog (res value))) : bool :=
  match x with
  | (tr, w', [Ret (Ok (VResult (Some r))); Ret (Ok (VResult r0)); Ret (Ok _)]) =>
      negb (no_ips (Some r)) && no_ips r0 && strs_eqb (map call_stdin (calls (own 2 tr))) L_asked && Nat.leb (List.length tr) 19 &&
      forallb (fun k => match CacheSpec.reads_result "1.1.0" (sget L_path (fold_left replay1 (firstn k tr) Y_world)) with Ok r => negb (no_ips r) | _ => true end) (seq 0 20)
  | _ => false
  end.
(** The query answers with an empty result and the CHECK sends the plugins an empty previous result,
    although at no moment would a query alone have found the result without its address. *)
Theorem C82_one_moment_refuted : exists tr w' r r0 v2,
  interleaves false (map (performs X_cni) L_acts) Y_world tr w' [Ret (Ok (VResult (Some r))); Ret (Ok (VResult r0)); Ret (Ok v2)] /\
  tidy Y_world /\ company X_cni L_acts Y_world /\ no_ips (Some r) = false /\ no_ips r0 = true /\ map call_stdin (calls (own 2 tr)) = L_asked /\
  forall k u, moment false (map (performs X_cni) L_acts) Y_world tr w' [Ret (Ok (VResult (Some r))); Ret (Ok (VResult r0)); Ret (Ok v2)] k u ->
    ~ alone false X_cni (ListResult X_list (X_cid "c3")) u (own 1 tr) (Ok (VResult r0)).
Proof.
  assert (K : L_good L_run = true) by (vm_compute; reflexivity).
  destruct L_run as [[tr w'] qs] eqn:E. pose proof (weave_interleaves _ _ X_tame _ _ _ _ _ _ E) as R. clear E. cbn [L_good] in K.
  destruct qs as [|[[[|[r|]| | | |]|e|]|o k] qs]; try discriminate. destruct qs as [|[[[|r0| | | |]|e|]|o k] qs]; try discriminate. destruct qs as [|[[v2|e|]|o k] qs]; try discriminate. destruct qs; try discriminate.
  apply andb_prop in K as [K K5]. apply andb_prop in K as [K K4]. apply andb_prop in K as [K K3]. apply andb_prop in K as [K1 K2]. apply negb_true_iff in K1.
  assert (K6 : map call_stdin (calls (own 2 tr)) = L_asked) by (unfold strs_eqb in K3; destruct (list_eq_dec string_dec _ _); [assumption|discriminate]).
  exists tr, w', r, r0, v2. split; [exact R|]. destruct Y_good as [T _]. split; [exact T|]. split; [exact L_company|]. split; [exact K1|]. split; [exact K2|]. split; [exact K6|].
  intros k u (qs & H & _) (t & RU & _). apply replays in H.
  assert (KK : exists k', k' <= 19 /\ u = fold_left replay1 (firstn k' tr) Y_world).
  { destruct (Nat.le_gt_cases k 19) as [X|X]; [now exists k|]. exists 19. split; [lia|]. apply Nat.leb_le in K4. rewrite firstn_all2 in H by lia. rewrite firstn_all2 by exact K4. exact H. }
  destruct KK as (k' & LE & UE). clear H K3 R. cbn [performs] in RU. unfold returning in RU. apply runs_bind in RU. destruct RU as (t1 & u1 & x & t2 & R1 & R2 & _).
  apply runs_ret in R2. destruct R2 as (_ & _ & EX). unfold get_network_list_cached_result in R1. apply get_cached_inv in R1 as (_ & _ & _ & [X|(X & _)]); [|discriminate].
  rewrite cached_in_named in X by (repeat split; discriminate). change (entry_path X_cni (nl_name X_list) (X_cid "c3")) with L_path in X. change (nl_version X_list) with "1.1.0" in X.
  rewrite forallb_forall in K5. specialize (K5 k'). rewrite <- UE in K5. rewrite <- X in K5. destruct x as [y|e|]; cbn [rmap rbind] in EX; try discriminate. injection EX as <-.
  rewrite K2 in K5. cbn [negb] in K5. assert (J : In k' (seq 0 20)) by (apply in_seq; lia). specialize (K5 J). discriminate.
Qed.
(** The DEL of c1 on its way: a query and a CHECK, begun before the entry goes, use the old result; a
    query for the configuration, begun after, finds none. *)
Definition M_acts : list action := [DelList X_list X_rt; ListResult X_list X_rt; CheckList X_list X_rt; ListConfig X_list X_rt].
Definition M_sched : list nat := (repeat 0 3 ++ [1; 2] ++ repeat 0 20 ++ [3] ++ repeat 2 20)%list.
Notation M_run := (weave X_oracle M_sched (map (performs X_cni) M_acts) Y_world) (only parsing).
Definition M_good (x : list (nat * event) * world * list (prog (res value))) : bool :=
  match x with
  | (tr, w', [Ret (Ok _); Ret (Ok (VResult (Some (R100 r)))); Ret (Ok _); Ret (Ok (VConfig None))]) =>
      Nat.eqb (List.length (v1_ips r)) 1 && keys_are ["/c/results/net-c2-eth0"] w' && Nat.eqb (List.length (calls (own 2 tr))) 2
  | _ => false
  end.
Example C82_nonvacuous : exists tr w' v0 r v2,
  interleaves false (map (performs X_cni) M_acts) Y_world tr w' [Ret (Ok v0); Ret (Ok (VResult (Some (R100 r)))); Ret (Ok v2); Ret (Ok (VConfig None))] /\
  tidy Y_world /\ company X_cni M_acts Y_world /\ (forall b p, In b M_acts -> is_add b -> at_entry X_cni b p -> ~ at_entry X_cni (ListResult X_list X_rt) p) /\
  List.length (v1_ips r) = 1 /\ map fst Y_world = ["/c/results/net-c1-eth0"; "/c/results/net-c2-eth0"] /\ map fst w' = ["/c/results/net-c2-eth0"] /\ List.length (calls (own 2 tr)) = 2.
Proof.
  assert (K : M_good M_run = true) by (vm_compute; reflexivity).
  destruct M_run as [[tr w'] qs] eqn:E. pose proof (weave_interleaves _ _ X_tame _ _ _ _ _ _ E) as R. clear E. cbn [M_good] in K.
  destruct qs as [|[[v0|e|]|o k] qs]; try discriminate. destruct qs as [|[[[|[[r|r|r]|]| | | |]|e|]|o k] qs]; try discriminate. destruct qs as [|[[v2|e|]|o k] qs]; try discriminate.
  destruct qs as [|[[[| |[x|]| | |]|e|]|o k] qs]; try discriminate. destruct qs; try discriminate.
  apply andb_prop in K as [K K3]. apply andb_prop in K as [K1 K2]. apply Nat.eqb_eq in K1, K3. apply keys_are_eq in K2.
  exists tr, w', v0, r, v2. split; [exact R|]. destruct Y_good as [T _]. split; [exact T|]. split; [|split; [intros b p [<-|[<-|[<-|[<-|[]]]]] []|auto]].
  split; [|split; [|split]].
  - intros i j a b p NE Ei Ej La Lb. destruct i as [|[|[|[|i]]]]; cbn in Ei; try (destruct i; discriminate); injection Ei as <-; try (now destruct La).
    destruct j as [|[|[|[|j]]]]; cbn in Ej; try (destruct j; discriminate); injection Ej as <-; try (now destruct Lb).
  - intros a p J La A (l & args & [X|[X|[X|[X|[]]]]] & _); discriminate.
  - intros a [<-|[<-|[<-|[<-|[]]]]]; exact Logic.I.
  - intros l args a name rt [X|[X|[X|[X|[]]]]]; discriminate.
Qed.

Print Assumptions C82_configuration.
Print Assumptions C82_looking.
Print Assumptions C82_no_add.
Print Assumptions C82_others.
Print Assumptions C82_moments.
Print Assumptions C82_one_moment_refuted.
