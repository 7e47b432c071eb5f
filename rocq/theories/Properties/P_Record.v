(** C80: what a cache file says, whoever wrote it. *)
From Coq Require Import String Ascii List Bool Arith ZArith NArith Lia.
From Verif Require Import Model.GoStr Model.Errors Model.Json Model.GoJson Model.Version Model.Types Model.Conf Model.Prog Model.Api
  Spec.NameSpec Spec.VersionSpec Spec.JsonSpec Spec.ConfSpec Spec.TypesSpec Spec.RunSpec Spec.CacheSpec Spec.HistSpec Spec.PathSpec Spec.MapSpec Spec.AddrSpec Spec.DocSpec Spec.RecordSpec
  Proofs.StrP Proofs.JsonP Proofs.JsonRT Proofs.GoJsonP Proofs.ConfP Proofs.TypesP Proofs.ShapeP Proofs.DecodeP Proofs.CacheP Proofs.DocP Proofs.RecordP Proofs.ProgP Proofs.ApiP Proofs.HistP Proofs.ListP
  Properties.P_Types Properties.P_Doc Properties.P_Api Properties.P_Cache.
Import ListNotations.
Open Scope nat_scope.
Open Scope string_scope.

Lemma plain_once j : plain j -> once j.
Proof. intros P o O. exact (proj1 (plain_object _ _ P O)). Qed.
(** The library reads a cache file as the record its document is. *)
Theorem C80_document : forall data j c, parse data = Some j -> once j -> (unmarshal_cached_info data = Some c <-> record_doc j c).
Proof. intros data j c P O. unfold unmarshal_cached_info. rewrite P. now apply record_iff. Qed.
Theorem C80_unambiguous : forall j c c', once j -> record_doc j c -> record_doc j c' -> c = c'.
Proof. intros j c c' O A B. apply (record_iff j c O) in A. apply (record_iff j c' O) in B. congruence. Qed.

Lemma describes_iff data j a : parse data = Some j -> once j -> (describes data a <-> attachment_doc j a).
Proof.
  intros P O. unfold describes, attachment_doc. split; intros (c & H & R); exists c; (split; [|exact R]); now apply (C80_document data j c P O).
Qed.
(** Listing: a file is listed exactly as the attachment its record describes. *)
Theorem C80_listing : forall c id w tr w' r, MapSpec.tidy w -> runs false (get_cached_attachments c id) w tr w' r ->
  exists pairs, r = Ok (map snd pairs) /\ ascending (map fst pairs) /\
  forall n data, file_name n -> name_for id n -> sget (results_dir c ++ "/" ++ n) w = Some data ->
    (forall j, parse data = Some j -> once j -> forall a, In (n, a) pairs <-> attachment_doc j a /\ (id = "" \/ at_container a = id)) /\
    (parse data = None -> forall a, ~ In (n, a) pairs).
Proof.
  intros c id w tr w' r T R. destruct (listing _ _ _ _ _ _ T R) as (_ & pairs & E & A & IFF). exists pairs. split; [exact E|]. split; [exact A|].
  intros n data FN NF G. split.
  - intros j P O a. rewrite IFF, <- (describes_iff data j a P O). split.
    + intros (_ & _ & data' & G' & D & I). rewrite G in G'. injection G' as <-. auto.
    + intros (D & I). split; [exact FN|]. split; [exact NF|]. eauto.
  - intros P a I. apply IFF in I as (_ & _ & data' & G' & (ci & U & _) & _). rewrite G in G'. injection G' as <-. unfold unmarshal_cached_info in U. rewrite P in U. discriminate U.
Qed.

(** The query for the configuration. *)
Theorem C80_config : forall c l rt w tr w' v data, runs false (get_network_list_cached_config c l rt) w tr w' v ->
  named (nl_name l) rt -> sget (entry_path c (nl_name l) rt) w = Some data ->
  (forall j, parse data = Some j -> once j ->
    (exists ci, record_doc j ci /\ ci_kind ci = record_kind /\ v = Ok (Some (config_of ci rt))) \/
    ((forall ci, record_doc j ci -> ci_kind ci <> record_kind) /\ exists e, v = Err e)) /\
  (parse data = None -> exists e, v = Err e).
Proof.
  intros c l rt w tr w' v data R NM G. apply get_cached_config_inv in R as (_ & _ & _ & [E|(X & _)]); [|discriminate]. unfold config_in in E.
  assert (X : get_cache_file_path c (nl_name l) rt = Ok (entry_path c (nl_name l) rt)) by (apply cache_path_ok; auto). rewrite X, G in E. split.
  - intros j P O. destruct (unmarshal_cached_info data) as [ci|] eqn:U.
    + pose proof (proj1 (C80_document data j ci P O) U) as D. destruct (String.eqb_spec (ci_kind ci) cni_cache_v1) as [K|K]; cbn [negb] in E.
      * left. exists ci. split; [exact D|]. split; [exact K|exact E].
      * right. split; [|eexists; exact E]. intros ci' D'. now rewrite (C80_unambiguous j ci' ci O D' D).
    + right. split; [|eexists; exact E]. intros ci D. apply (C80_document data j ci P O) in D. congruence.
  - intros P. unfold unmarshal_cached_info in E. rewrite P in E. eexists; exact E.
Qed.

(** The query for the result, and what DEL and CHECK pass on. *)
Lemma nodup_map {A B} (f : A -> B) l : (forall x y, In x l -> In y l -> f x = f y -> x = y) -> NoDup l -> NoDup (map f l).
Proof.
  induction l as [|a l IH]; intros H N; [constructor|]. apply NoDup_cons_iff in N as [NI N]. cbn [map]. constructor.
  - intros I. apply in_map_iff in I as (b & E & I). apply NI. rewrite <- (H b a (or_intror I) (or_introl eq_refl) E). exact I.
  - apply IH; [|exact N]. intros x y X Y. apply H; now right.
Qed.
Lemma norm_plain j : forall j', norm j = Some j' -> plain j -> plain j'.
Proof.
  induction j as [|b|l|s|l IH|l IH] using json_ind'; intros j' H P.
  - injection H as <-. constructor.
  - injection H as <-. constructor.
  - cbn [norm] in H. match type of H with match ?x with _ => _ end = _ => destruct x | option_map _ ?x = _ => destruct x end; [|discriminate]; injection H as <-; constructor.
  - injection H as <-. constructor.
  - rewrite norm_arr in H. apply omap_some in H as (l' & H & ->). constructor. inversion P as [| | | |? F|]; subst.
    assert (G : Forall2 (fun x x' => plain x -> plain x') l l') by (apply (norm_all_Forall (fun x x' => plain x -> plain x')); [|exact H]; revert IH; apply Forall_impl; auto).
    clear IH H P. induction G; inversion F; subst; constructor; auto.
  - rewrite norm_obj in H. apply omap_some in H as (l' & H & ->). inversion P as [| | | | |? ND F]; subst.
    assert (G : Forall2 (fun a b => fst a = fst b /\ (plain (snd a) -> plain (snd b))) l l').
    { apply (norm_pairs_Forall (fun x x' => plain x -> plain x')); [|exact H]. revert IH. apply Forall_impl. auto. }
    assert (K : map (fun kv : string * json => fold_key (fst kv)) l' = map (fun kv => fold_key (fst kv)) l).
    { clear - G. induction G as [|a b l l' [E _] G IH]; [reflexivity|]. cbn. now rewrite E, IH. }
    assert (F' : Forall (fun kv => plain (snd kv)) l').
    { clear - G F. induction G as [|a b l l' [_ E] G IH]; [constructor|]. apply Forall_cons_iff in F as [A F]. constructor; auto. }
    constructor.
    + apply nodup_map.
      * intros [k v] [k' v'] I I' E. cbn [fst] in E. apply sset_all_in in I as [I|[]]. apply sset_all_in in I' as [I'|[]].
        assert (X : NoDup (map (fun kv : string * json => fold_key (fst kv)) l')) by (rewrite K; exact ND).
        assert (Y : forall l, NoDup (map (fun kv : string * json => fold_key (fst kv)) l) -> forall p q, In p l -> In q l -> fold_key (fst p) = fold_key (fst q) -> p = q).
        { clear. induction l as [|a l IH]; intros N p q P Q E; [destruct P|]. cbn in N. apply NoDup_cons_iff in N as [NI N].
          destruct P as [-> |P], Q as [-> |Q]; [reflexivity| | |now apply IH].
          - destruct NI. rewrite E. apply in_map_iff. eauto.
          - destruct NI. rewrite <- E. apply in_map_iff. eauto. }
        exact (Y l' X _ _ I I' E).
      * apply (NoDup_map_inv fst). apply ssorted_nodup, sset_all_sorted. constructor.
    + apply Forall_forall. intros [k v] I. apply sset_all_in in I as [I|[]]. rewrite Forall_forall in F'. exact (F' _ I).
Qed.

Lemma result_of_plain j ci : plain j -> record_doc j ci -> plain (result_of ci).
Proof.
  intros P (o & O & _ & _ & _ & _ & _ & _ & _ & _ & (v & M & V)). unfold result_of. destruct (ci_result ci) as [m|]; [|constructor].
  destruct v as [v|]; [|discriminate V]. destruct M as (k & I & _). assert (R : values v m) by (destruct v; cbn in V; try discriminate V; destruct V as (a & E & V); injection E as ->; exact V).
  destruct R as [_ R]. eapply norm_plain; [exact R|]. exact (proj2 (plain_object _ _ P O) _ _ I).
Qed.
Lemma result_of_prints data j ci : parse data = Some j -> record_doc j ci -> parse (print (match ci_result ci with Some m => enc_map m | None => JNull end)) = Some (result_of ci).
Proof.
  intros P (o & O & _ & _ & _ & _ & _ & _ & _ & _ & (v & M & V)). unfold result_of. destruct (ci_result ci) as [m|]; [|reflexivity].
  destruct v as [v|]; [|discriminate V]. destruct M as (k & I & _). assert (R : values v m) by (destruct v; cbn in V; try discriminate V; destruct V as (a & E & V); injection E as ->; exact V).
  destruct R as [_ R]. unfold enc_map. assert (S : ssorted m) by (apply norm_canonical in R; now apply canonical_obj in R). rewrite sset_all_id by exact S. apply parse_print. eapply norm_enc; [exact R|].
  apply parse_encodable in P. destruct O as [-> |[-> ->]]; [|destruct I]. destruct P as [J D]. split.
  - apply jwf_obj in J. rewrite Forall_forall in J. exact (proj2 (J _ I)).
  - assert (D' : (jdepth (JObj o) <= N.succ 9999)%N) by exact D. apply jdepth_obj in D'. rewrite Forall_forall in D'. specialize (D' _ I). cbn [snd] in D'. lia.
Qed.
(** The result query presents the result the record's document says; a record without one says what
    the empty document says.  A file that is no such record is read as a result document. *)
Theorem C80_result : forall c l rt w tr w' v data j, runs false (get_network_list_cached_result c l rt) w tr w' v ->
  named (nl_name l) rt -> sget (entry_path c (nl_name l) rt) w = Some data -> parse data = Some j -> plain j ->
  forall d, (exists ci, record_doc j ci /\ ci_kind ci = record_kind /\ d = result_of ci) \/
            ((forall ci, record_doc j ci -> ci_kind ci <> record_kind) /\ d = j) ->
  (exists r, says_result d r /\ right_version r /\ v = presented (nl_version l) r) \/
  ((forall r, says_result d r -> ~ right_version r) /\ exists e, v = Err e).
Proof.
  intros c l rt w tr w' v data j R NM G P PL d D. apply get_cached_inv in R as (_ & _ & _ & [E|(X & _)]); [|discriminate].
  rewrite cached_in_named, G, reads_eq in E by exact NM. pose proof (plain_once j PL) as O.
  assert (H : exists t, parse t = Some d /\ plain d /\ v = (let! r := create_from_bytes t in convert_cached (nl_version l) r)).
  { destruct D as [(ci & DC & K & ->)|(NK & ->)].
    - pose proof (proj2 (C80_document data j ci P O) DC) as U. rewrite U in E. unfold record_kind in K. rewrite K in E. cbn [String.eqb cni_cache_v1] in E.
      eexists. split; [exact (result_of_prints _ _ _ P DC)|]. split; [now apply (result_of_plain j)|exact E].
    - exists data. split; [exact P|]. split; [exact PL|]. rewrite E. destruct (unmarshal_cached_info data) as [ci|] eqn:U; [|reflexivity].
      destruct (String.eqb_spec (ci_kind ci) cni_cache_v1) as [K|K]; [|reflexivity]. destruct (NK ci); [now apply (C80_document data j ci P O)|exact K]. }
  clear E. destruct H as (t & PT & PD & ->). destruct (create_from_bytes t) as [r|e|] eqn:C.
  - left. exists r. apply (C67_from_bytes t d r PT PD) in C as [S V]. split; [exact S|]. split; [exact V|]. cbn [rbind]. unfold convert_cached, presented, rwrap, rmap. now destruct (get_as_version r (nl_version l)).
  - right. split; [|cbn [rbind]; eauto]. intros r S V. assert (X : create_from_bytes t = Ok r) by (apply (C67_from_bytes t d r PT PD); auto). congruence.
  - now apply C41_no_panic in C.
Qed.

(** What ADD writes: such a record, spelled as documented, with what it was asked for. *)
Lemma members_once o : NoDup (map fst o) -> incl (map fst o) record_members -> once (JObj o).
Proof.
  intros N I o' [E|[E _]]; [|discriminate]. injection E as <-. rewrite <- (map_map fst fold_key). apply nodup_map; [|exact N].
  assert (T : forallb (fun a => forallb (fun b => implb (String.eqb (fold_key a) (fold_key b)) (String.eqb a b)) record_members) record_members = true) by (vm_compute; reflexivity).
  intros a b A B E. apply I in A, B. rewrite forallb_forall in T. specialize (T a A). rewrite forallb_forall in T. specialize (T b B). rewrite E, String.eqb_refl in T. cbn [implb] in T. now apply String.eqb_eq.
Qed.
Lemma written_keys ci o : enc_cached_info ci = JObj o -> NoDup (map fst o) /\ incl (map fst o) record_members.
Proof.
  intros E. unfold enc_cached_info in E. assert (X : o = match enc_cached_info ci with JObj o => o | _ => [] end) by (unfold enc_cached_info; congruence). clear E. subst o. unfold enc_cached_info.
  unfold fld_str, omit_if. destruct (String.eqb (ci_netns ci) ""), (ci_args ci) as [[|? ?]|], (ci_caps ci) as [[|? ?]|], (ci_result ci) as [[|? ?]|]; cbn [app map fst];
    (split; [|intros k K; cbn [In record_members] in *; intuition congruence]); repeat (apply NoDup_cons; [cbn [In]; intuition congruence|]); apply NoDup_nil.
Qed.
Theorem C80_written : forall fl c l rt w tr w1 r m, runs fl (add_network_list c l rt) w tr w1 (Ok (Some r)) -> carried (nl_name l) rt -> caps_as rt m ->
  exists data o x, sget (entry_path c (nl_name l) rt) w1 = Some data /\ parse data = Some (JObj o) /\ NoDup (map fst o) /\ incl (map fst o) record_members /\
    record_doc (JObj o) {| ci_kind := record_kind; ci_container := rt_container rt; ci_config := nl_bytes l; ci_ifname := rt_ifname rt; ci_network := nl_name l; ci_netns := rt_netns rt;
      ci_args := match rt_args rt with [] => None | a => Some a end; ci_caps := match rt_caps rt with [] => None | _ => Some m end; ci_result := x |} /\
    (wf_result exact prefix_form r -> exists mr, x = Some mr /\ says_result (JObj mr) r).
Proof.
  intros fl c l rt w tr w1 r m A CA CM. apply saves_list in A. destruct (add_saves _ _ _ _ _ _ _ _ A eq_refl) as (_ & NM & FP & (data & ST & GD) & _).
  unfold place in GD. cbn [sv_name sv_rt] in *. destruct (stored_doc _ _ ST CA FP) as (o & m' & raw & ED & EN & CM' & U & RR). cbn [sv_name sv_rt sv_config sv_result] in *.
  assert (m' = m) as -> by (destruct CM as [_ X], CM' as [_ Y]; unfold reencoded in *; congruence).
  assert (P : parse data = Some (JObj o)) by (rewrite ED; now apply parse_print).
  assert (K : NoDup (map fst o) /\ incl (map fst o) record_members).
  { destruct (stored_raw _ _ ST FP) as (raw' & ED' & _ & WR & _). destruct CA as ((T1 & T2 & T3 & T4 & T5) & _).
    destruct (cached_info_rt cni_cache_v1 (rt_container rt) (nl_bytes l) (rt_ifname rt) (nl_name l) (rt_netns rt) (rt_args rt) (rt_caps rt) raw' m) as [EN' _]; auto.
    { apply ascii_wf. reflexivity. }
    { exact (caps_enc _ _ CM). }
    { apply CM. }
    apply parse_print in EN'. unfold info_of in ED'. cbn [sv_name sv_rt sv_config] in ED'. rewrite <- ED', P in EN'. apply some_eq in EN'. eapply written_keys. symmetry. exact EN'. }
  destruct K as [K1 K2]. exists data, o, raw. split; [exact GD|]. split; [exact P|]. split; [exact K1|]. split; [exact K2|]. split.
  - apply (C80_document data (JObj o) _ P (members_once o K1 K2)). rewrite U. unfold record_kind, opt_nil. now destruct (rt_args rt).
  - intros W. destruct (RR r eq_refl W) as (j & mr & t & EJ & N & -> & DL & _). exists mr. split; [reflexivity|].
    assert (PJ : plain (JObj mr)) by (eapply norm_plain; [exact N|]; apply C67_written_is_plain; exact (proj1 (proj2 (written j r (wf_exact_any _ W) EJ)))).
    destruct r as [x|x|x]; cbn [dec_like says_result] in *.
    + left. apply res020_iff; [exact PJ|]. destruct (dec_res020 (JObj mr)); [|discriminate]. cbn [option_map] in DL. congruence.
    + apply res040_iff; [exact PJ|]. destruct (dec_res040 (JObj mr)); [|discriminate]. cbn [option_map] in DL. congruence.
    + apply res100_iff; [exact PJ|]. destruct (dec_res100 (JObj mr)); [|discriminate]. cbn [option_map] in DL. congruence.
Qed.

(** A record written by hand: another spelling, broken base64 lines, surplus and missing values. *)
Definition X_foreign : string :=
  "{""KIND"": ""cniCacheV1"", ""containerId"": ""c1"", ""config"": ""e\n30\r="", ""ifName"": ""eth0"", ""networkName"": ""net"", ""netns"": null,
    ""cniArgs"": [[""K""], [""A"", ""B"", 7], null], ""result"": {""ips"": [], ""cniVersion"": ""1.0.0""}, ""other"": 1}".
Definition X_record : cached_info :=
  {| ci_kind := "cniCacheV1"; ci_container := "c1"; ci_config := "{}"; ci_ifname := "eth0"; ci_network := "net"; ci_netns := ""; ci_args := Some [("K", ""); ("A", "B"); ("", "")];
     ci_caps := None; ci_result := Some [("cniVersion", JStr "1.0.0"); ("ips", JArr [])] |}.
Definition X_foreign_world : world := [("/c/results/net-c1-eth0", X_foreign)].
Theorem C80_nonvacuous : exists j tr tr' v v', parse X_foreign = Some j /\ plain j /\ record_doc j X_record /\ MapSpec.tidy X_foreign_world /\
  named (nl_name X_list) X_rt /\ sget (entry_path X_cni (nl_name X_list) X_rt) X_foreign_world = Some X_foreign /\
  runs false (get_network_list_cached_config X_cni X_list X_rt) X_foreign_world tr X_foreign_world (Ok (Some v)) /\ v = config_of X_record X_rt /\ fst v = "{}" /\
  runs false (get_network_list_cached_result X_cni X_list X_rt) X_foreign_world tr' X_foreign_world (Ok (Some v')) /\ result_version v' = "1.1.0" /\
  (forall c, RecordSpec.byte (JNum "256") c -> False) /\ bytes (Some (JArr [JNum "123"; JNum "125"])) "{}".
Proof.
  destruct (parse X_foreign) as [j|] eqn:P; [|vm_compute in P; discriminate P].
  assert (PL : plain j) by (apply plainb_plain; vm_compute in P; apply some_eq in P; subst j; vm_compute; reflexivity).
  assert (D : record_doc j X_record) by (apply (C80_document X_foreign j X_record P (plain_once j PL)); vm_compute; reflexivity).
  destruct (interp X_oracle 0 (get_network_list_cached_config X_cni X_list X_rt) X_foreign_world) as [[r1 w1] tr1] eqn:E1. pose proof (interp_run _ _ _ _ _ _ _ X_tame E1) as R1.
  destruct (interp X_oracle 0 (get_network_list_cached_result X_cni X_list X_rt) X_foreign_world) as [[r2 w2] tr2] eqn:E2. pose proof (interp_run _ _ _ _ _ _ _ X_tame E2) as R2.
  assert (K1 : match interp X_oracle 0 (get_network_list_cached_config X_cni X_list X_rt) X_foreign_world with (r, w, _) => (r, w) end = (Ok (Some (config_of X_record X_rt)), X_foreign_world)) by (vm_compute; reflexivity).
  rewrite E1 in K1. injection K1 as -> ->.
  assert (K2 : match interp X_oracle 0 (get_network_list_cached_result X_cni X_list X_rt) X_foreign_world with (Ok (Some r), w, _) => (result_version r, w) | _ => ("", []) end = ("1.1.0", X_foreign_world)) by (vm_compute; reflexivity).
  rewrite E2 in K2. destruct r2 as [[r2|]|e|]; try discriminate K2. injection K2 as K2 ->.
  exists j, tr1, tr2, (config_of X_record X_rt), r2. split; [reflexivity|]. split; [exact PL|]. split; [exact D|].
  split. { split; [apply ssorted_cons; split; [constructor|constructor]|]. constructor; [|constructor]. change (fst ("/c/results/net-c1-eth0", X_foreign)) with "/c/results/net-c1-eth0". replace "/c/results/net-c1-eth0" with (entry_path X_cni (nl_name X_list) X_rt) by (vm_compute; reflexivity). apply entry_clean. }
  split; [repeat split; discriminate|]. split; [vm_compute; reflexivity|]. split; [exact R1|]. split; [reflexivity|]. split; [reflexivity|]. split; [exact R2|]. split; [exact K2|]. split.
  - intros c B. apply byte_iff in B. discriminate B.
  - apply (tk_some _ _ _ take_bytes). vm_compute. reflexivity.
Qed.
Print Assumptions C80_document.
Print Assumptions C80_unambiguous.
Print Assumptions C80_listing.
Print Assumptions C80_config.
Print Assumptions C80_result.
Print Assumptions C80_written.
Print Assumptions C80_nonvacuous.
