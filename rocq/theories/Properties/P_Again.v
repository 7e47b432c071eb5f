(** C79: CHECK, DEL and garbage collection ask a plugin with the request ADD asked it with. *)
From Coq Require Import String Ascii List Bool Arith ZArith NArith Lia.
From Verif Require Import Model.GoStr Model.Errors Model.Json Model.GoJson Model.Version Model.Args Model.Types Model.Conf Model.Invoke Model.Prog Model.Api
  Spec.NameSpec Spec.VersionSpec Spec.JsonSpec Spec.ConfSpec Spec.TypesSpec Spec.RunSpec Spec.CacheSpec Spec.HistSpec Spec.PathSpec Spec.MapSpec Spec.AgainSpec
  Proofs.StrP Proofs.JsonRT Proofs.TypesP Proofs.DecodeP Proofs.ShapeP Proofs.ConfP Proofs.BuildP Proofs.AgainP Proofs.GoJsonP Proofs.ProgP Proofs.ApiP Proofs.VerbP Proofs.HistP
  Properties.P_Types Properties.P_Conf Properties.P_Api Properties.P_Cache.
Import ListNotations.
Open Scope nat_scope.
Open Scope string_scope.

(** *** Results that come from a plugin or a cache file can be passed on *)
Lemma build_enc name ver orig r rt new : build_one_config name ver orig (Some r) rt = Ok new -> exists j, enc_result r = Some j.
Proof.
  unfold build_one_config. destruct (enc_result r) as [j|]; [eauto|]. intros H. exfalso.
  match type of H with rbind ?x _ = _ => destruct x as [mid|e|] eqn:E; try discriminate end. apply inject_ok in E. destruct E as (m & kvs & c & _ & E & _).
  cbn [app] in E. destruct kvs as [|[k1 j1] kvs]; [discriminate|]. destruct kvs as [|[k2 j2] kvs]; [discriminate|]. destruct kvs as [|[k3 j3] kvs]; discriminate.
Qed.
Definition sound (prev : option result) : Prop := forall r, prev = Some r -> wf_body int64 any_prefix r /\ right_version r.
Lemma sound_ok name ver orig prev rt new : sound prev -> build_one_config name ver orig prev rt = Ok new -> prev_ok prev.
Proof.
  intros S B. destruct prev as [r|]; [|exact I]. destruct (S r eq_refl) as [WB RV]. destruct (build_enc _ _ _ _ _ _ B) as [j E].
  exists j. split; [exact E|]. destruct (enc_shape r j WB (proj2 (right_nonempty _ RV)) E) as [J D]. split; [exact J|]. eapply N.le_trans; [exact D|]. vm_compute. discriminate.
Qed.
Lemma reads_sound ver file prev : reads_result ver file = Ok prev -> sound prev.
Proof.
  unfold reads_result. destruct file as [data|]; [|intros [= <-]; discriminate]. unfold held_result, create_from_bytes.
  destruct (Types.decode_version _) as [v|e|]; cbn [rbind]; try discriminate. destruct (create v _) as [r|e|] eqn:C; try discriminate.
  destruct (get_as_version r ver) as [r'|e|] eqn:G; try discriminate. intros [= <-] r0 [= <-]. apply create_inv in C as (j & _ & W & V & _).
  assert (Z0 : int64 0%Z) by (unfold int64; lia). exact (gv_wf_gen Z0 _ _ _ (conj W V) G).
Qed.
Lemma cached_sound c name ver rt w prev : cached_in c name ver rt w = Ok prev -> sound prev.
Proof. unfold cached_in. destruct (get_cache_file_path c name rt); try discriminate. apply reads_sound. Qed.

(** *** One plugin *)
Lemma request_again c verb name ver rt rt' net p q tr tr' x y (rc : option json -> option json -> Prop) :
  request c "ADD" name ver rt net p tr x -> request c verb name ver rt' net q tr' y ->
  well_formed_text name -> well_formed_text ver -> sound p -> sound q ->
  rt_container rt' = rt_container rt -> rt_netns rt' = rt_netns rt -> rt_ifname rt' = rt_ifname rt -> rt_args rt' = rt_args rt ->
  good_caps rt -> good_caps rt' ->
  (forall caps, ssorted caps -> (selected_caps caps (rt_caps rt) = [] <-> selected_caps caps (rt_caps rt') = []) /\
     rc (Some (enc_map (selected_caps caps (rt_caps rt)))) (Some (enc_map (selected_caps caps (rt_caps rt'))))) ->
  (forall a b, reencoded_opt a b -> rc b b) ->
  repeats rc verb x y.
Proof.
  intros ((X1 & X2 & X3 & X4 & X5 & X6) & _ & (n1 & B1 & D1)) ((Y1 & Y2 & Y3 & Y4 & Y5 & Y6) & _ & (n2 & B2 & D2)) Wn Wv Sp Sq E1 E2 E3 E4 G1 G2 SEL REF.
  split; [exact X1|]. split; [exact Y1|]. split.
  - intros k [<-|[<-|[<-|[<-|[<-|[]]]]]]; congruence.
  - rewrite D1, D2. eapply build_same; try eassumption; eapply sound_ok; eassumption.
Qed.
Lemma good_name_text n : good_name n -> well_formed_text n.
Proof.
  intros (a & r & -> & A & R). assert (AS : forall c s, (code c < 128)%N -> well_formed_text s -> well_formed_text (String c s)).
  { intros c0 s L W. assert (E : String c0 s = utf8 (code c0) ++ s) by (unfold utf8; rewrite (proj2 (N.ltb_lt _ _) L); unfold NameSpec.b, code; now rewrite ascii_N_embedding).
    rewrite E. constructor; [unfold scalar; lia|exact W]. }
  assert (AN : forall c, alnum c -> (code c < 128)%N) by (intros c0 H; unfold alnum, byte in H; unfold code; lia).
  apply AS; [now apply AN|]. clear - R AS AN. induction R as [|c0 s H R IH]; [constructor|]. apply AS; [|exact IH].
  destruct H as [H|[-> | [-> | ->]]]; [now apply AN|reflexivity|reflexivity|reflexivity].
Qed.

Lemma nth_rev {A} (l : list A) i (d : A) : i < List.length l -> nth_error (rev l) (List.length l - S i) = nth_error l i.
Proof.
  intros L. rewrite (nth_error_nth' (rev l) d) by (rewrite rev_length; lia). rewrite (nth_error_nth' l d) by lia. rewrite rev_nth by lia. do 2 f_equal. lia.
Qed.
(** *** The requests of ADD, DEL and CHECK *)
Lemma add_requests fl c l rt w tr w1 r : runs fl (add_network_list c l rt) w tr w1 r -> forall i x, nth_error (calls tr) i = Some x ->
  well_formed_text (nl_name l) /\ exists net p, nth_error (nl_plugins l) i = Some net /\ request c "ADD" (nl_name l) (nl_version l) rt net p tr x /\ sound p.
Proof.
  intros H i x X. destruct (add_network_list_inv _ _ _ _ _ _ _ _ H) as (tr1 & results & r1 & _ & _ & P1 & P2 & _ & CC & _). rewrite CC in X.
  destruct (P1 i x X) as (NO & net & N & Q). split; [apply good_name_text; now apply names_accepted in NO|]. exists net, (before None results i). split; [exact N|]. split; [exact Q|].
  intros v V. destruct i as [|i]; cbn [before] in V; [discriminate|]. apply P2 in V. destruct V as (y & _ & out & _ & A). exact (add_result_from _ _ _ A).
Qed.
Lemma del_requests fl c l rt w tr w1 r : runs fl (del_network_list c l rt) w tr w1 r -> forall i x, nth_error (calls tr) i = Some x ->
  exists net p, nth_error (rev (nl_plugins l)) i = Some net /\ request c "DEL" (nl_name l) (nl_version l) rt net p tr x /\ sound p /\
    (fl = false -> at_least (nl_version l) (0, 4, 0)%Z -> forall q, cached_in c (nl_name l) (nl_version l) rt w = Ok q -> p = q).
Proof.
  intros H i x X. destruct (del_network_list_inv _ _ _ _ _ _ _ _ H) as [(_ & -> & _)|[(_ & _ & _ & _ & _ & C)|D]]; [destruct i; discriminate|rewrite C in X; destruct i; discriminate|].
  destruct D as (cached & tr0 & trp & w2 & tr1 & trd & r1 & -> & C0 & _ & K & R & -> & FIN).
  destruct (del_loop_inv _ _ _ _ _ _ _ _ _ _ _ R) as (_ & _ & (A1 & _) & _ & _).
  assert (CP : calls trp = []).
  { destruct K as [(_ & [(y & _ & -> & _)|(e & _ & K)] & _)|(_ & _ & -> & _)]; try reflexivity. now apply cache_del_inv in K. }
  assert (CD : calls trd = []).
  { destruct FIN as [(_ & K2)|(_ & -> & _)]; [now apply cache_del_inv in K2|reflexivity]. }
  assert (CC : calls (tr0 ++ trp ++ tr1 ++ trd)%list = calls tr1).
  { rewrite !calls_app, C0, CP, CD. cbn. now rewrite app_nil_r. }
  rewrite CC in X. destruct (A1 i x X) as (net & N & Q). exists net, (del_prev cached). split; [exact N|].
  split; [apply request_app_r, request_app_r, request_app_l; exact Q|]. split.
  - destruct cached as [q|e|]; cbn [del_prev]; [|discriminate..]. destruct K as [(_ & _ & K)|(_ & K & _)]; [|injection K as ->; discriminate].
    destruct K as [K|(_ & _ & K)]; [symmetry in K; eapply cached_sound; exact K|injection K as ->; discriminate].
  - intros -> AL q E. destruct K as [(_ & _ & K)|(BL & _)]; [|destruct (at_least_not_below _ _ AL BL)].
    destruct K as [->|(F & _)]; [rewrite E; reflexivity|discriminate].
Qed.
Lemma check_requests fl c l rt w tr w1 r : runs fl (check_network_list c l rt) w tr w1 r -> forall i x, nth_error (calls tr) i = Some x ->
  exists net p, nth_error (nl_plugins l) i = Some net /\ request c "CHECK" (nl_name l) (nl_version l) rt net p tr x /\ sound p /\
    (fl = false -> cached_in c (nl_name l) (nl_version l) rt w = Ok p).
Proof.
  intros H i x X. apply check_summary in H. destruct H as (_ & _ & H).
  destruct H as [(_ & C & _)|[(_ & C & _)|[(_ & _ & C & _)|(_ & _ & cached & K & M)]]]; try (rewrite C in X; destruct i; discriminate).
  destruct cached as [p|e|]; [|destruct M as [C _]; rewrite C in X; destruct i; discriminate..]. destruct M as ((A1 & _) & _).
  destruct (A1 i x X) as (net & N & Q). exists net, p. split; [exact N|]. split; [exact Q|]. split.
  - destruct K as [K|(_ & _ & K)]; [symmetry in K; eapply cached_sound; exact K|injection K as ->; discriminate].
  - intros ->. destruct K as [K|(F & _)]; [now symmetry|discriminate].
Qed.
(** *** C79 *)
(** Whatever happened in between: DEL with the same configuration and parameters repeats to each
    plugin the request ADD made to it (in reverse order), with the command DEL and another previous
    result. *)
Theorem C79_del : forall fl fl' c l rt w tr w1 r w2 tr' w3 r', runs fl (add_network_list c l rt) w tr w1 r -> runs fl' (del_network_list c l rt) w2 tr' w3 r' ->
  well_formed_text (nl_version l) -> good_caps rt ->
  forall i x y, nth_error (calls tr) i = Some x -> nth_error (calls tr') (List.length (nl_plugins l) - S i) = Some y ->
  repeats eq "DEL" x y.
Proof.
  intros fl fl' c l rt w tr w1 r w2 tr' w3 r' A D WV GC i x y X Y. destruct (add_requests _ _ _ _ _ _ _ _ A i x X) as (WN & net & p & N & Q & SO).
  destruct (del_requests _ _ _ _ _ _ _ _ D _ y Y) as (net' & q & N' & Q' & S' & _).
  assert (net' = net).
  { rewrite (nth_rev _ _ net') in N' by (apply nth_error_Some; congruence). congruence. }
  subst net'. eapply request_again; try eassumption; try reflexivity. intros caps _. split; reflexivity.
Qed.
Theorem C79_check : forall fl fl' c l rt w tr w1 r w2 tr' w3 r', runs fl (add_network_list c l rt) w tr w1 r -> runs fl' (check_network_list c l rt) w2 tr' w3 r' ->
  well_formed_text (nl_version l) -> good_caps rt ->
  forall i x y, nth_error (calls tr) i = Some x -> nth_error (calls tr') i = Some y -> repeats eq "CHECK" x y.
Proof.
  intros fl fl' c l rt w tr w1 r w2 tr' w3 r' A D WV GC i x y X Y. destruct (add_requests _ _ _ _ _ _ _ _ A i x X) as (WN & net & p & N & Q & SO).
  destruct (check_requests _ _ _ _ _ _ _ _ D _ y Y) as (net' & q & N' & Q' & S' & _). assert (net' = net) by congruence. subst net'.
  eapply request_again; try eassumption; try reflexivity. intros caps _. split; reflexivity.
Qed.

(** Garbage collection works from the cache: what it lists for the attachment makes DEL repeat the
    request too; the capability arguments are as JSON returns them (C10, C72). *)
Lemma caps_again_good rt m : caps_as rt m -> good_map m.
Proof.
  intros [F R]. assert (J : jwf (enc_map (rt_caps rt)) /\ (jdepth (enc_map (rt_caps rt)) <= 9999)%N) by now apply enc_map_ok. destruct J as [J D].
  destruct (norm_encodable _ _ R J) as [J' D']. apply Forall_forall. intros [k v] I. apply jwf_obj in J'. rewrite Forall_forall in J'. destruct (J' _ I) as [A B]. cbn [fst snd] in *.
  split; [exact A|]. split; [exact B|]. assert (DD : (jdepth (JObj m) <= N.succ 9998)%N) by (eapply N.le_trans; [exact D'|exact D]).
  apply jdepth_obj in DD. rewrite Forall_forall in DD. exact (DD _ I).
Qed.
Theorem C79_collection : forall fl c l rt w tr w1 r m t0 w2 v, MapSpec.tidy w ->
  runs fl (add_network_list c l rt) w tr w1 (Ok r) -> nl_plugins l <> [] -> carried (nl_name l) rt -> caps_as rt m -> NoDup (map fst (rt_caps rt)) -> own_root c rt ->
  well_formed_text (nl_version l) ->
  runs false (get_cached_attachments c "") w1 t0 w2 v ->
  exists atts a, v = Ok atts /\ In a atts /\ at_network a = nl_name l /\ at_container a = rt_container rt /\ at_ifname a = rt_ifname rt /\
    forall fl' rt' w3 tr' w4 r', params_of a rt' -> runs fl' (del_network_list c l rt') w3 tr' w4 r' ->
    forall i x y, nth_error (calls tr) i = Some x -> nth_error (calls tr') (List.length (nl_plugins l) - S i) = Some y -> repeats reencoded_opt "DEL" x y.
Proof.
  intros fl c l rt w tr w1 r m t0 w2 v T A NE CA CM ND OW WV Q.
  destruct (C30_added_is_listed _ _ _ _ _ _ _ _ _ _ _ _ _ T A NE CA CM OW (or_introl eq_refl) Q) as (atts & -> & I).
  eexists atts, _. split; [reflexivity|]. split; [exact I|]. cbn [at_network at_container at_ifname]. split; [reflexivity|]. split; [reflexivity|]. split; [reflexivity|].
  intros fl' rt' w3 tr' w4 r' (E1 & E2 & E3 & E4 & E5 & _) D i x y X Y. cbn [at_network at_container at_ifname at_netns at_args at_caps] in *.
  destruct (add_requests _ _ _ _ _ _ _ _ A i x X) as (WN & net & p & N & Q1 & SO). destruct (del_requests _ _ _ _ _ _ _ _ D _ y Y) as (net' & q & N' & Q' & S' & _).
  assert (net' = net).
  { rewrite (nth_rev _ _ net') in N' by (apply nth_error_Some; congruence). congruence. }
  subst net'. assert (G : forall k, reencoded_opt (sget k (rt_caps rt)) (sget k (rt_caps rt'))) by (rewrite E5; now apply caps_as_get).
  eapply request_again; try eassumption.
  - apply CM.
  - unfold good_caps. rewrite E5. eapply caps_again_good; exact CM.
  - intros caps S. split; [now apply selected_nil|]. cbn. now apply selected_reencoded.
  - intros a b R. destruct a as [a|], b as [b|]; cbn in *; try tauto. eapply norm_twice; exact R.
Qed.

(** Right after the ADD, the previous result of DEL and CHECK is the ADD's result in the network's
    version. *)
Lemma request_gives c verb name ver rt net p j tr x : request c verb name ver rt net (Some p) tr x -> well_formed_text name -> well_formed_text ver -> good_caps rt ->
  sound (Some p) -> enc_result p = Some j -> gives_prev (call_stdin x) j.
Proof.
  intros (_ & _ & (n & B & ->)) WN WV GC SO E. pose proof (sound_ok _ _ _ _ _ _ SO B) as PO. destruct (first_stage _ _ _ _ _ _ B WN WV PO) as (m & _ & U & _).
  apply unmarshal_map_some in U. destruct U as (o & P & O & _). destruct o as [| | | | |o]; try discriminate.
  destruct (build_doc _ _ _ _ _ _ _ B P WN WV PO GC) as (d & c1 & P' & SD & _ & _ & _ & _ & (j1 & v & E' & G & R) & _).
  exists d, v. split; [exact P'|]. rewrite (last_member_sorted _ _ SD). split; [exact G|]. rewrite E in E'. injection E' as <-. exact R.
Qed.
Theorem C79_previous_result : forall fl c l rt w tr w1 r p tr' w2 r' verb, runs fl (add_network_list c l rt) w tr w1 (Ok (Some r)) ->
  (verb = "DEL" /\ runs false (del_network_list c l rt) w1 tr' w2 r' \/ verb = "CHECK" /\ runs false (check_network_list c l rt) w1 tr' w2 r') ->
  carried (nl_name l) rt -> wf_result exact prefix_form r -> well_formed_text (nl_version l) -> at_least (nl_version l) (0, 4, 0)%Z ->
  get_as_version r (nl_version l) = Ok p ->
  forall y, In y (calls tr') -> exists j, enc_result p = Some j /\ gives_prev (call_stdin y) j.
Proof.
  intros fl c l rt w tr w1 r p tr' w2 r' verb A D CA W WV AL G y Y. pose proof A as A'. apply saves_list in A'.
  destruct (add_saves _ _ _ _ _ _ _ _ A' eq_refl) as (_ & NM & FP & (data & ST & GD) & _). cbn [sv_name sv_rt] in *. unfold place in GD. cbn [sv_name sv_rt] in GD.
  assert (C : cached_in c (nl_name l) (nl_version l) rt w1 = Ok (Some p)).
  { rewrite cached_in_named by exact NM. rewrite GD. rewrite (stored_reads _ _ r _ ST CA FP eq_refl W). unfold presented. now rewrite G. }
  assert (GC : good_caps rt) by (destruct CA as (_ & m & F & _); exact F). assert (WN : well_formed_text (nl_name l)) by apply CA.
  apply In_nth_error in Y. destruct Y as [i Y].
  assert (K : exists net, request c verb (nl_name l) (nl_version l) rt net (Some p) tr' y /\ sound (Some p)).
  { destruct D as [(-> & D)|(-> & D)].
    - destruct (del_requests _ _ _ _ _ _ _ _ D i y Y) as (net & q & _ & Q & SO & E). specialize (E eq_refl AL _ C). subst q. eauto.
    - destruct (check_requests _ _ _ _ _ _ _ _ D i y Y) as (net & q & _ & Q & SO & E). specialize (E eq_refl). rewrite C in E. injection E as <-. eauto. }
  destruct K as (net & Q & SO). pose proof Q as (_ & _ & (n & B & _)). destruct (build_enc _ _ _ _ _ _ B) as [j E]. exists j. split; [exact E|]. eapply request_gives; eassumption.
Qed.
(** ADD of a list of two plugins with a capability argument, then DEL: what the first plugin gets. *)
Notation X_first := (interp X_oracle 0 (add_network_list X_cni X_list X_caps_rt) []).
Notation X_then := (interp X_oracle 0 (del_network_list X_cni X_list X_caps_rt) X_caps_world).
Example C79_nonvacuous : exists tr tr' w2 x y,
  runs false (add_network_list X_cni X_list X_caps_rt) [] tr X_caps_world (Ok (Some X_add_result)) /\
  runs false (del_network_list X_cni X_list X_caps_rt) X_caps_world tr' w2 (Ok tt) /\
  well_formed_text (nl_version X_list) /\ carried (nl_name X_list) X_caps_rt /\ NoDup (map fst (rt_caps X_caps_rt)) /\ at_least (nl_version X_list) (0, 4, 0)%Z /\
  wf_result exact prefix_form X_add_result /\ get_as_version X_add_result (nl_version X_list) = Ok X_add_result /\
  nth_error (calls tr) 0 = Some x /\ nth_error (calls tr') 1 = Some y /\
  call_stdin x = "{""capabilities"":{""mac"":true},""cniVersion"":""1.1.0"",""name"":""net"",""runtimeConfig"":{""mac"":""aa""},""type"":""bridge""}" /\
  call_stdin y = "{""capabilities"":{""mac"":true},""cniVersion"":""1.1.0"",""name"":""net"",""prevResult"":{""cniVersion"":""1.1.0"",""ips"":[{""address"":""10.0.0.3/24""}]},""runtimeConfig"":{""mac"":""aa""},""type"":""bridge""}" /\
  repeats eq "DEL" x y.
Proof.
  destruct X_first as [[r w1] tr] eqn:E. pose proof (interp_run _ _ _ _ _ _ _ X_tame E) as R.
  destruct X_then as [[r' w2] tr'] eqn:E'. pose proof (interp_run _ _ _ _ _ _ _ X_tame E') as R'.
  assert (K : match X_first with (r, w, t) => (r, w, option_map call_stdin (nth_error (calls t) 0)) end =
    (Ok (Some X_add_result), X_caps_world,
     Some "{""capabilities"":{""mac"":true},""cniVersion"":""1.1.0"",""name"":""net"",""runtimeConfig"":{""mac"":""aa""},""type"":""bridge""}")) by (vm_compute; reflexivity).
  assert (K' : match X_then with (r, _, t) => (r, option_map call_stdin (nth_error (calls t) 1)) end =
    (Ok tt, Some "{""capabilities"":{""mac"":true},""cniVersion"":""1.1.0"",""name"":""net"",""prevResult"":{""cniVersion"":""1.1.0"",""ips"":[{""address"":""10.0.0.3/24""}]},""runtimeConfig"":{""mac"":""aa""},""type"":""bridge""}"))
    by (vm_compute; reflexivity).
  rewrite E in K. rewrite E' in K'. clear E E'. destruct (nth_error (calls tr) 0) as [x|] eqn:X; [|discriminate K]. destruct (nth_error (calls tr') 1) as [y|] eqn:Y; [|discriminate K'].
  cbn [option_map] in K, K'. injection K as -> -> SX. injection K' as -> SY.
  assert (WV : well_formed_text (nl_version X_list)) by (apply ascii_wft; vm_compute; reflexivity).
  pose proof X_caps_carried as [CA CM].
  exists tr, tr', w2, x, y. split; [exact R|]. split; [exact R'|]. split; [exact WV|]. split; [exact CA|]. split; [constructor; [intros [F|[]]; discriminate F|constructor; [intros []|constructor]]|].
  split; [|split; [exact X_add_result_wf|split; [vm_compute; reflexivity|split; [exact X|split; [exact Y|split; [exact SX|split; [exact SY|]]]]]]].
  - apply (gte_iff (nl_version X_list) "0.4.0" _ means_040). vm_compute. reflexivity.
  - eapply (C79_del _ _ _ _ _ _ _ _ _ _ _ _ _ R R' WV); [destruct CA as (_ & m & F & _); exact F|exact X|exact Y].
Qed.
