(** C55: a converted result and the original as objects in memory.
    The full claim (writing anything reachable from one never changes the value of the other) is
    false of the code; what does hold and the three ways in which it fails are proved here. *)
From Coq Require Import String List Bool Arith NArith ZArith Lia.
From Verif Require Import Model.GoStr Model.Errors Model.NetIP Model.Types Model.Heap Spec.AliasSpec Proofs.StrP Proofs.HeapP.
Import ListNotations.
Open Scope nat_scope.
Open Scope string_scope.

(** The full claim. *)
Definition separate_always : Prop := forall h p r own addr v h' q,
  object h p r own addr -> hget_as_version p v h = Ok (h', q) ->
  exists r' own' addr', object h' q r' own' addr' /\
    (forall h2, writes (own' ++ addr') h' h2 -> value_at h2 p = value_at h' p) /\
    (forall h2, writes (own ++ addr) h' h2 -> value_at h2 q = value_at h' q).

Lemma writes_keep h h2 ls p r own addr : object h p r own addr -> writes ls h h2 -> (forall l, In l own \/ In l addr -> ~ In l ls) -> value_at h2 p = value_at h p.
Proof.
  intros O W D. unfold value_at, object in *. destruct (good_result p _ _ _ _ O) as (A & B & K). rewrite O, (K h2); [reflexivity|].
  intros l I. apply W; [|apply D; exact I]. apply nth_error_Some. destruct I as [I|I]; [destruct (A l I) as (c & -> & _)|destruct (B l I) as (c & ->)]; discriminate.
Qed.
Lemma kinds h p r own addr p' r' own' addr' l : object h p r own addr -> object h p' r' own' addr' -> In l own -> In l addr' -> False.
Proof.
  intros O O' I I'. destruct (good_result p _ _ _ _ O) as (A & _ & _). destruct (good_result p' _ _ _ _ O') as (_ & B & _).
  destruct (A l I) as (c & N & C). destruct (B l I') as (b & N'). rewrite N in N'. injection N' as ->. discriminate C.
Qed.
Lemma has_versioned r a : has_version r a -> a = result_version (versioned r).
Proof. unfold has_version, versioned. intros ->. destruct (result_version r) eqn:E; destruct r; cbn in *; congruence. Qed.
Lemma asks_eq v b : asks_version v b -> b = if String.eqb v "" then "0.1.0" else v.
Proof. unfold asks_version. intros ->. destruct v; reflexivity. Qed.
Lemma different_new r v : different_format r v -> new_format (result_version (versioned r)) (if String.eqb v "" then "0.1.0" else v) = true.
Proof.
  intros (a & b & A & B & NE & N1). apply has_versioned in A. apply asks_eq in B. rewrite <- A, <- B. unfold new_format. apply andb_true_iff. split.
  - apply negb_true_iff. now apply String.eqb_neq.
  - apply negb_true_iff. apply not_true_iff_false. intros T. apply andb_true_iff in T as [T1 T2]. apply N1. unfold one_x, version_1 in *.
    apply mem_str_In in T1, T2. cbn [In] in *. intuition congruence.
Qed.

(** The memory model computes what the value model of the other properties computes. *)
Theorem C55_memory_model_agrees h p r own addr v : object h p r own addr ->
  match get_as_version r v with
  | Ok r' => exists h' q own' addr', hget_as_version p v h = Ok (h', q) /\ object h' q r' own' addr' /\ incl addr' addr
  | Err e => hget_as_version p v h = Err e
  | Panic => hget_as_version p v h = Panic
  end.
Proof.
  intros O. unfold object in *. destruct (get_split p v _ _ _ _ O) as (h0 & G & L & R & _). rewrite G, versioned_eq.
  pose proof (convert_sim 0 addr 3 h0 p _ _ _ v (or_introl eq_refl) (Nat.le_0_l _) R (incl_refl _)) as S. unfold sim in S. fold (convert (versioned r) v) in S. fold (hconvert p v) in S.
  destruct (convert (versioned r) v); [|exact S|exact S]. destruct S as (h' & q & o' & d' & E & _ & Q & _ & I). exists h', q, o', d'. auto.
Qed.
Lemma get_new h p r own addr v h' q : object h p r own addr -> different_format r v -> hget_as_version p v h = Ok (h', q) ->
  exists r' own' addr', object h' q r' own' addr' /\ object h' p (versioned r) own addr /\ above (Datatypes.length h) own' /\ incl addr' addr.
Proof.
  unfold object. intros O DF E. destruct (get_split p v _ _ _ _ O) as (h0 & G & L & R & _). rewrite G in E. unfold hconvert in E.
  pose proof (convert_sim (Datatypes.length h) addr 3 h0 p _ _ _ v (or_intror (different_new _ _ DF)) ltac:(lia) R (incl_refl _)) as S. unfold sim in S.
  destruct (convert_fuel 3 (versioned r) v) as [r'| |]; [|congruence|congruence]. destruct S as (h1 & q1 & o' & d' & E1 & X & Q & AB & I).
  rewrite E1 in E. injection E as -> ->. exists r', o', d'. split; [exact Q|]. split; [|auto]. exact (read_ext _ _ _ _ _ (good_result p) R X).
Qed.

(** When the formats differ, the two have only address bytes in common: whatever is written to the
    structs, arrays and ints of one, the value of the other stays. *)
Theorem C55_separate_partial h p r own addr v h' q : object h p r own addr -> different_format r v -> hget_as_version p v h = Ok (h', q) ->
  exists r' own' addr', object h' q r' own' addr' /\ incl addr' addr /\
    (forall h2, writes own' h' h2 -> value_at h2 p = value_at h' p) /\
    (forall h2, writes own h' h2 -> value_at h2 q = value_at h' q).
Proof.
  intros O DF E. destruct (get_new _ _ _ _ _ _ _ _ O DF E) as (r' & own' & addr' & Q & P & AB & I). exists r', own', addr'. split; [exact Q|]. split; [exact I|].
  pose proof (read_below _ _ _ _ _ _ (good_result p) O) as BL. rewrite Forall_forall in BL. unfold above in AB. rewrite Forall_forall in AB.
  split; intros h2 W.
  - eapply writes_keep; [exact P|exact W|]. intros l [J|J] K; specialize (AB _ K); specialize (BL l); rewrite in_app_iff in BL; intuition lia.
  - eapply writes_keep; [exact Q|exact W|]. intros l [J|J] K.
    + specialize (AB _ J). specialize (BL l). rewrite in_app_iff in BL. intuition lia.
    + exact (kinds _ _ _ _ _ _ _ _ _ _ P Q K J).
Qed.

(** Between versions the struct itself is always new: setting a field of one result (a version, a
    slice, the DNS domain) leaves the other. *)
Theorem C55_struct_is_new_partial h p r own addr v h' q a b : object h p r own addr -> has_version r a -> asks_version v b -> a <> b ->
  hget_as_version p v h = Ok (h', q) ->
  q <> p /\ (forall h2, writes [q] h' h2 -> value_at h2 p = value_at h' p) /\ (forall h2, writes [p] h' h2 -> value_at h2 q = value_at h' q).
Proof.
  intros O A B NE E.
  assert (D : (version_1 a /\ version_1 b) \/ ~ (version_1 a /\ version_1 b)).
  { unfold version_1. destruct (string_dec a "1.0.0"), (string_dec a "1.1.0"), (string_dec b "1.0.0"), (string_dec b "1.1.0"); tauto. }
  destruct D as [[V1 V2]|D].
  - unfold object in *. destruct (get_split p v _ _ _ _ O) as (h0 & G & L & R & _). rewrite G in E. apply has_versioned in A. apply asks_eq in B.
    unfold hconvert in E. cbn [hconvert_fuel] in E. unfold hthen at 1 in E. rewrite (version_load _ _ _ _ _ R), <- A, <- B in E.
    assert (NEB : String.eqb a b = false) by now apply String.eqb_neq. rewrite NEB in E.
    replace (find_converter converters a b) with (Some {| c_from := a; c_tos := [b]; c_fn := C100From100 |}) in E
      by (destruct V1 as [-> | ->], V2 as [-> | ->]; try congruence; vm_compute; reflexivity). cbn [c_fn] in E.
    unfold hconv100_from100 in E. pose proof R as R0. unfold rd_result in R0. apply then_inv in R0 as (c & o1 & d1 & o2 & d2 & K1 & K2 & -> & ->). apply look_inv in K1 as (K1 & -> & -> & _).
    rewrite (load_ok _ _ _ _ _ K1) in E. destruct c; try discriminate E. injection E as <- <-.
    pose proof (read_ext _ _ _ _ _ (good_result p) R (ext_one h0 (CRes1 {| hv_version := b; hv_interfaces := hv_interfaces r0; hv_ips := hv_ips r0; hv_routes := hv_routes r0; hv_dns := hv_dns r0 |}))) as P.
    pose proof (conv100_from100_sim d2 h0 p _ _ _ b R (incl_refl _)) as S. unfold hconv100_from100, sim in S. rewrite (load_ok _ _ _ _ _ K1) in S. cbv iota in S.
    apply then_inv in K2 as (x & o3 & d3 & o4 & d4 & K2 & K3 & -> & ->). apply ret_inv in K3 as (K3 & -> & ->). rewrite K3 in S. cbn [conv100_from100] in S.
    destruct S as (h1 & q1 & o' & d' & E1 & X & Q & AB & I). injection E1 as <- <-.
    pose proof (read_below _ _ _ _ _ _ (good_result p) R) as BL. rewrite Forall_forall in BL.
    assert (PL : p < Datatypes.length h0) by (apply BL; now left).
    split; [lia|]. split; intros h2 W.
    + eapply writes_keep; [exact P|exact W|]. intros l J [<- | []]. specialize (BL (Datatypes.length h0)). rewrite in_app_iff in BL. apply BL in J. lia.
    + eapply writes_keep; [exact Q|exact W|]. intros l J [<- | []]. destruct J as [J|J].
      * unfold rd_result in Q. apply then_inv in Q as (c & oa & da & ob & db & Q1 & Q2 & -> & ->). unfold look in Q1. rewrite nth_last in Q1. cbn [is_bytes] in Q1. injection Q1 as <- <- <-.
        cbv iota in Q2. apply then_inv in Q2 as (y & oc & dc & oe & de & Q2 & Q3 & -> & ->). apply ret_inv in Q3 as (_ & -> & ->). rewrite app_nil_r in J. destruct J as [J|J]; [lia|].
        apply (sub_res1 _ _ _ _ _ Q2) in J as (c & N & C). apply load_at in K1. rewrite nth_error_app1 in N by exact PL. rewrite K1 in N. injection N as <-. discriminate C.
      * eapply (kinds _ _ _ _ _ _ _ _ _ p P Q); [now left|exact J].
  - assert (DF : different_format r v) by (exists a, b; auto).
    destruct (get_new _ _ _ _ _ _ _ _ O DF E) as (r' & own' & addr' & Q & P & AB & I).
    destruct (result_head _ _ _ _ _ Q) as (t & -> & _). destruct (result_head _ _ _ _ _ P) as (s & -> & _).
    unfold above in AB. rewrite Forall_cons_iff in AB. destruct AB as [AQ AB]. rewrite Forall_forall in AB.
    pose proof (read_below _ _ _ _ _ _ (good_result p) O) as BL. rewrite Forall_forall in BL.
    assert (PL : p < Datatypes.length h) by (apply BL; now left).
    split; [lia|]. split; intros h2 W.
    + eapply writes_keep; [exact P|exact W|]. intros l J [<- | []]. specialize (BL q). rewrite in_app_iff in BL. apply BL in J. lia.
    + eapply writes_keep; [exact Q|exact W|]. intros l [J|J] [<- | []].
      * destruct J as [J|J]; [lia|]. specialize (AB _ J). lia.
      * eapply (kinds _ _ _ _ _ _ _ _ _ p P Q); [now left|exact J].
Qed.

(** For the version it already has, a result is returned itself. *)
Theorem C55_same_version_is_same_object h p r own addr v : object h p r own addr -> result_version r = v -> v <> "" -> hget_as_version p v h = Ok (h, p).
Proof.
  unfold object. intros O V NE. destruct (get_split p v _ _ _ _ O) as (h0 & G & L & R & SAME). rewrite G.
  assert (EE : String.eqb (result_version r) "" = false) by (rewrite V; now apply String.eqb_neq). specialize (SAME EE). subst h0.
  unfold hconvert. cbn [hconvert_fuel]. unfold hthen. rewrite (version_load _ _ _ _ _ R).
  assert (EV : String.eqb v "" = false) by (now apply String.eqb_neq). rewrite EV. unfold versioned. rewrite EE, V, String.eqb_refl. reflexivity.
Qed.

(** ** Where it fails *)
(** A 1.0.0 result with one interface, one address, its DNS: location 6 is the struct. *)
Definition mem : heap :=
  [ CIf1 {| if1_name := "eth0"; if1_mac := ""; if1_mtu := 0; if1_sandbox := "/ns"; if1_socket := ""; if1_pci := "" |};
    CPtrs [Some 0];
    CBytes [10; 0; 0; 2]%N;
    CInt 0;
    CIpc1 {| h1_interface := Some 3; h1_address := {| hn_ip := Some 2; hn_mask := None |}; h1_gateway := None |};
    CPtrs [Some 4];
    CRes1 {| hv_version := "1.0.0"; hv_interfaces := Some 1; hv_ips := Some 5; hv_routes := None;
             hv_dns := {| hd_nameservers := None; hd_domain := ""; hd_search := None; hd_options := None |} |} ].
Definition mem_value : result :=
  R100 {| v1_version := "1.0.0";
          v1_interfaces := [Some {| if1_name := "eth0"; if1_mac := ""; if1_mtu := 0; if1_sandbox := "/ns"; if1_socket := ""; if1_pci := "" |}];
          v1_ips := [Some {| i1_interface := Some 0%Z; i1_address := {| n_ip := [10; 0; 0; 2]%N; n_mask := [] |}; i1_gateway := [] |}];
          v1_routes := []; v1_dns := {| d_nameservers := []; d_domain := ""; d_search := []; d_options := [] |} |}.
Lemma mem_object : object mem 6 mem_value [6; 1; 0; 5; 4; 3] [2].
Proof. reflexivity. Qed.

(** A write at one location. *)
Lemma writes_one l c ls h : In l ls -> writes ls h (upd l c h).
Proof. intros I x _ N. rewrite nth_upd. destruct (Nat.eqb x l) eqn:E; [|reflexivity]. apply Nat.eqb_eq in E. now subst. Qed.

(** From 1.0.0 to 1.1.0 the new struct has the old slices: renaming an interface of one renames it
    in the other. *)
Theorem C55_relabelled_refuted : exists h p r own addr v h' q r' own' addr' l c,
  object h p r own addr /\ hget_as_version p v h = Ok (h', q) /\ object h' q r' own' addr' /\ q <> p /\
  In l own' /\ value_at (upd l c h') p <> value_at h' p.
Proof.
  exists mem, 6, mem_value, [6; 1; 0; 5; 4; 3], [2], "1.1.0". eexists. exists 7. eexists. exists [7; 1; 0; 5; 4; 3], [2], 0,
    (CIf1 {| if1_name := "eth1"; if1_mac := ""; if1_mtu := 0; if1_sandbox := "/ns"; if1_socket := ""; if1_pci := "" |}).
  split; [exact mem_object|]. split; [vm_compute; reflexivity|]. split; [reflexivity|]. split; [discriminate|]. split; [cbn; tauto|].
  vm_compute. intros K. discriminate K.
Qed.
(** The bytes of addresses are shared by the conversions: changing an address of one in place
    changes the other. *)
Lemma mem_different : different_format mem_value "0.4.0".
Proof. exists "1.0.0", "0.4.0". split; [reflexivity|]. split; [reflexivity|]. split; [discriminate|]. intros [_ [K|K]]; discriminate K. Qed.
Theorem C55_addresses_refuted : exists h p r own addr v h' q r' own' addr' l c,
  object h p r own addr /\ different_format r v /\ hget_as_version p v h = Ok (h', q) /\ object h' q r' own' addr' /\
  In l addr' /\ value_at (upd l c h') p <> value_at h' p.
Proof.
  exists mem, 6, mem_value, [6; 1; 0; 5; 4; 3], [2], "0.4.0". eexists. exists 13. eexists. exists [13; 8; 7; 11; 10; 9; 12], [2], 2, (CBytes [10; 0; 0; 3]%N).
  split; [exact mem_object|]. split; [exact mem_different|]. split; [vm_compute; reflexivity|]. split; [reflexivity|]. split; [now left|].
  vm_compute. intros K. discriminate K.
Qed.
Theorem C55_refuted : ~ separate_always.
Proof.
  intros F. destruct (F mem 6 mem_value [6; 1; 0; 5; 4; 3] [2] "1.0.0" mem 6 mem_object (C55_same_version_is_same_object _ _ _ _ _ _ mem_object eq_refl ltac:(discriminate)))
    as (r' & own' & addr' & O & K & _).
  pose proof (K (upd 6 (CInt 0) mem)) as K1. unfold object in O. rewrite mem_object in O. injection O as <- <- <-.
  assert (W : writes ([6; 1; 0; 5; 4; 3] ++ [2]) mem (upd 6 (CInt 0) mem)) by (apply writes_one; cbn; tauto). specialize (K1 W). vm_compute in K1. discriminate K1.
Qed.

(** GetAsVersion itself writes one thing to the original: a version, if it has none. *)
Theorem C55_original_kept h p r own addr v h' q : object h p r own addr -> result_version r <> "" -> hget_as_version p v h = Ok (h', q) -> object h' p r own addr.
Proof.
  unfold object. intros O NE E. destruct (get_split p v _ _ _ _ O) as (h0 & G & L & R & SAME). rewrite G in E.
  assert (EE : String.eqb (result_version r) "" = false) by now apply String.eqb_neq. specialize (SAME EE). subst h0.
  pose proof (convert_sim 0 addr 3 h p _ _ _ v (or_introl eq_refl) (Nat.le_0_l _) R (incl_refl _)) as S. unfold sim in S. unfold hconvert in E.
  destruct (convert_fuel 3 (versioned r) v); [|congruence|congruence]. destruct S as (h1 & q1 & o' & d' & E1 & X & _). rewrite E1 in E. injection E as -> ->.
  exact (read_ext _ _ _ _ _ (good_result p) O X).
Qed.

(** The hypotheses can be met: the example converted to 0.4.0, then its interface renamed. *)
Example C55_nonvacuous : exists h' q, hget_as_version 6 "0.4.0" mem = Ok (h', q) /\ q <> 6 /\ different_format mem_value "0.4.0" /\ object mem 6 mem_value [6; 1; 0; 5; 4; 3] [2] /\
  (forall m, value_at (upd 7 (CIf4 {| if4_name := "eth1"; if4_mac := m; if4_sandbox := "/ns" |}) h') 6 = Some mem_value) /\
  value_at (upd 7 (CIf4 {| if4_name := "eth1"; if4_mac := ""; if4_sandbox := "/ns" |}) h') q <> value_at h' q.
Proof.
  eexists. exists 13. split; [vm_compute; reflexivity|]. split; [discriminate|]. split; [exact mem_different|]. split; [exact mem_object|]. split; [intros m; reflexivity|].
  vm_compute. intros K. discriminate K.
Qed.

Print Assumptions C55_memory_model_agrees.
Print Assumptions C55_separate_partial.
Print Assumptions C55_struct_is_new_partial.
Print Assumptions C55_same_version_is_same_object.
Print Assumptions C55_relabelled_refuted.
Print Assumptions C55_addresses_refuted.
Print Assumptions C55_refuted.
Print Assumptions C55_original_kept.
