(** C67: a result document means what the specification's types say. *)
From Coq Require Import String Ascii List Arith NArith ZArith Bool Lia.
From Verif Require Import Model.GoStr Model.Errors Model.Json Model.Num Model.GoJson Model.NetIP Model.Types
  Spec.NameSpec Spec.JsonSpec Spec.VersionSpec Spec.TypesSpec Spec.AddrSpec Spec.DocSpec Proofs.StrP Proofs.JsonP Proofs.JsonRT Proofs.TypesP Proofs.DecodeP Proofs.ShapeP
  Proofs.DocP Proofs.TidyP Properties.P_Types.
Import ListNotations.
Open Scope nat_scope.
Open Scope string_scope.

Lemma find_for r v : In v (versions_of r) -> find_creator creators v = Some
  match r with R020 _ => (supported020, new_result020) | R040 _ => (supported040, new_result040) | R100 _ => (supported100, new_result100) end.
Proof.
  change creators with [(supported020, new_result020); (supported040, new_result040); (supported100, new_result100)].
  destruct r; cbn [versions_of In]; intros H; repeat (destruct H as [<-|H]; [reflexivity|]); destruct H.
Qed.
Lemma find_empty : find_creator creators "" = Some (supported020, new_result020).
Proof. reflexivity. Qed.

Theorem C67_exact : forall v text j r, parse text = Some j -> plain j ->
  (create v text = Ok r <-> same_type v r /\ says_result j r /\ right_version r).
Proof.
  intros v text j r P PL. split.
  - intros C. destruct (create_inv _ _ _ C) as (_ & _ & _ & RV & _ & ST). split; [|split; [|exact RV]].
    { destruct ST as [I|[-> L]]; [now left|right]. split; [reflexivity|]. destruct r; cbn in L; [eauto|easy..]. }
    unfold create in C. destruct (find_creator creators v) as [c|] eqn:F; [|discriminate].
    apply find_creator_cases in F as [[IV ->]|[[IV ->]|[IV ->]]]; cbn [snd] in C.
    + unfold new_result020 in C. rewrite P in C. cbn [obind] in C. destruct (dec_res020 j) as [x|] eqn:D; [|discriminate].
      destruct (mem_str _ _); [|discriminate]. apply (res020_iff j x PL) in D.
      destruct (String.eqb_spec (v2_version x) "") as [E|E].
      * assert (X : r = set_version "0.1.0" (R020 x)) by congruence. rewrite X. cbn [set_version says_result]. right. cbn [v2_version]. split; [reflexivity|].
        destruct x as [a b c d]. cbn [v2_version] in E. cbn [v2_version v2_ip4 v2_ip6 v2_dns]. rewrite E in D. exact D.
      * assert (X : r = R020 x) by congruence. rewrite X. now left.
    + unfold new_result040 in C. rewrite P in C. cbn [obind] in C. destruct (dec_res040 j) as [x|] eqn:D; [|discriminate].
      destruct (mem_str _ _); [|discriminate]. apply (res040_iff j x PL) in D. assert (X : r = R040 x) by congruence. rewrite X. exact D.
    + unfold new_result100 in C. rewrite P in C. cbn [obind] in C. destruct (dec_res100 j) as [x|] eqn:D; [|discriminate].
      destruct (mem_str _ _); [|discriminate]. apply (res100_iff j x PL) in D. assert (X : r = R100 x) by congruence. rewrite X. exact D.
  - intros (ST & S & RV).
    assert (F : find_creator creators v = Some match r with R020 _ => (supported020, new_result020) | R040 _ => (supported040, new_result040) | R100 _ => (supported100, new_result100) end).
    { destruct ST as [I|[-> [x ->]]]; [now apply find_for|exact find_empty]. }
    unfold create. rewrite F. unfold right_version in RV. destruct r as [x|x|x]; cbn [snd says_result versions_of result_version] in *.
    + unfold new_result020. rewrite P. cbn [obind]. destruct S as [S|[E S]].
      * apply (res020_iff j x PL) in S. rewrite S. cbn [In] in RV. destruct RV as [E|[E|[]]]; rewrite <- E; reflexivity.
      * apply (res020_iff j _ PL) in S. rewrite S. cbn [v2_version mem_str supported020 String.eqb orb set_version v2_ip4 v2_ip6 v2_dns].
        destruct x as [a b c d]. cbn [v2_version v2_ip4 v2_ip6 v2_dns] in *. now rewrite E.
    + unfold new_result040. rewrite P. cbn [obind]. apply (res040_iff j x PL) in S. rewrite S.
      cbn [In] in RV. destruct RV as [E|[E|[E|[]]]]; rewrite <- E; reflexivity.
    + unfold new_result100. rewrite P. cbn [obind]. apply (res100_iff j x PL) in S. rewrite S.
      cbn [In] in RV. destruct RV as [E|[E|[]]]; rewrite <- E; reflexivity.
Qed.
Theorem C67_from_bytes : forall text j r, parse text = Some j -> plain j ->
  (create_from_bytes text = Ok r <-> says_result j r /\ right_version r).
Proof.
  intros text j r P PL. unfold create_from_bytes. split.
  - destruct (Types.decode_version text) as [v|e|] eqn:D; cbn [rbind]; [|discriminate..]. intros C. now apply (C67_exact v text j r P PL) in C.
  - intros (S & RV). assert (C : create (result_version r) text = Ok r).
    { apply (C67_exact _ text j r P PL). split; [now left|now split]. }
    destruct (create_inv _ _ _ C) as (_ & _ & _ & _ & D & _). now rewrite D.
Qed.
(** A document says at most one result. *)
Theorem C67_unambiguous : forall text j r r', parse text = Some j -> plain j -> says_result j r -> says_result j r' ->
  right_version r -> right_version r' -> r = r'.
Proof.
  intros text j r r' P PL A B RA RB.
  pose proof (proj2 (C67_from_bytes text j r P PL) (conj A RA)) as CA. pose proof (proj2 (C67_from_bytes text j r' P PL) (conj B RB)) as CB. congruence.
Qed.
(** What is written: a document that says the result, with the specification's member names. *)
Lemma written j r : wf_result (ints_for r) prefix_form r -> enc_result r = Some j -> encodable j /\ tidy j /\ says_result j r.
Proof.
  intros W E. destruct (result_rt r W) as (j' & E' & O & J & D & R). rewrite E in E'. apply some_eq in E'. subst j'.
  assert (T : tidy j).
  { destruct (right_nonempty _ (proj2 W)) as [_ V']. destruct (C39_round_trip r W) as (t & _ & _ & C & _). apply create_inv in C as (_ & _ & WB & _).
    eapply result_tidy; eassumption. }
  split; [now apply jenc|]. split; [exact T|]. apply tidy_plain in T. destruct r as [x|x|x]; cbn [dec_like says_result] in *.
  - left. apply res020_iff; [exact T|]. destruct (dec_res020 j); [|discriminate]. cbn [option_map] in R. congruence.
  - apply res040_iff; [exact T|]. destruct (dec_res040 j); [|discriminate]. cbn [option_map] in R. congruence.
  - apply res100_iff; [exact T|]. destruct (dec_res100 j); [|discriminate]. cbn [option_map] in R. congruence.
Qed.
Theorem C67_written : forall r text, wf_result (ints_for r) prefix_form r -> result_bytes r = Ok text \/ result_print r = Ok text ->
  exists j, parse text = Some j /\ tidy j /\ says_result j r.
Proof.
  intros r text W H. unfold result_bytes, result_print in H.
  destruct (enc_result r) as [j|] eqn:E; [|destruct H; discriminate]. destruct (written j r W E) as (N & T & S).
  exists j. split; [|auto]. destruct H as [H|H]; assert (X : Ok text = Ok text) by reflexivity; [assert (Y : text = print j) by congruence; rewrite Y; now apply parse_print|
    assert (Y : text = print_indent j) by congruence; rewrite Y; now apply parse_print_indent].
Qed.
Theorem C67_written_is_plain : forall j, tidy j -> plain j.
Proof. exact tidy_plain. Qed.

Definition X_text : string :=
  "{ ""IPS"": [ {""address"": ""10.1.2.3/16"", ""interface"": 0, ""gateway"": null, ""note"": {}} ],
     ""interfaces"": [ {""name"": ""eth0"", ""sandbox"": ""/run/netns/x"", ""mtu"": 1500} ],
     ""cniVersion"": ""1.0.0"", ""routes"": [ {""dst"": ""2001:DB8::/32"", ""gw"": ""fe80::1"", ""scope"": 0} ] }".
Definition X_said : res100 :=
  {| v1_version := "1.0.0";
     v1_interfaces := [Some {| if1_name := "eth0"; if1_mac := ""; if1_mtu := 1500; if1_sandbox := "/run/netns/x"; if1_socket := ""; if1_pci := "" |}];
     v1_ips := [Some {| i1_interface := Some 0%Z; i1_address := {| n_ip := v4in6 [10; 1; 2; 3]%N; n_mask := [255; 255; 0; 0]%N |}; i1_gateway := [] |}];
     v1_routes := [Some {| r_dst := {| n_ip := [32; 1; 13; 184; 0; 0; 0; 0; 0; 0; 0; 0; 0; 0; 0; 0]%N; n_mask := cidr_mask 32 128 |};
                           r_gw := [254; 128; 0; 0; 0; 0; 0; 0; 0; 0; 0; 0; 0; 0; 0; 1]%N; r_mtu := 0; r_advmss := 0; r_priority := 0;
                           r_table := None; r_scope := Some 0%Z |}];
     v1_dns := dns_zero |}.
Fixpoint plainb (j : json) : bool :=
  match j with
  | JArr l => forallb plainb l
  | JObj o => (fix nd (l : list (string * json)) := match l with [] => true | kv :: l' =>
      negb (existsb (fun kw => String.eqb (fold_key (fst kv)) (fold_key (fst kw))) l') && plainb (snd kv) && nd l' end) o
  | _ => true
  end.
Lemma plainb_plain j : plainb j = true -> plain j.
Proof.
  induction j as [|b|l|s|l IH|l IH] using json_ind'; intros B; try constructor; cbn [plainb] in B.
  - rewrite forallb_forall in B. rewrite Forall_forall in *. auto.
  - clear IH. induction l as [|[k v] l IH]; cbn [map]; [constructor|]. apply andb_true_iff in B as [B B2]. apply andb_true_iff in B as [B0 B1].
    constructor; [|now apply IH]. rewrite in_map_iff. intros (x & E & I). apply negb_true_iff in B0. rewrite <- not_true_iff_false in B0. apply B0.
    apply existsb_exists. exists x. split; [exact I|]. apply String.eqb_eq. cbn [fst] in *. congruence.
  - induction IH as [|[k v] l X IH IH']; constructor; apply andb_true_iff in B as [B B2]; apply andb_true_iff in B as [B0 B1]; [now apply X|now apply IH'].
Qed.
Theorem C67_nonvacuous : exists j, parse X_text = Some j /\ plain j /\ says_result j (R100 X_said) /\
  create_from_bytes X_text = Ok (R100 X_said) /\
  (forall v r, create v X_text = Ok r -> v = "1.0.0" \/ v = "1.1.0").
Proof.
  destruct (parse X_text) as [j|] eqn:P; [|vm_compute in P; discriminate P]. exists j. split; [reflexivity|].
  assert (PJ : plain j) by (apply plainb_plain; vm_compute in P; apply some_eq in P; subst j; vm_compute; reflexivity).
  assert (S : says_result j (R100 X_said)) by (apply res100_iff; [exact PJ|]; vm_compute in P; apply some_eq in P; subst j; vm_compute; reflexivity).
  split; [exact PJ|]. split; [exact S|].
  assert (C : create_from_bytes X_text = Ok (R100 X_said)) by (apply (C67_from_bytes X_text j _ P PJ); split; [exact S|left; reflexivity]). split; [exact C|].
  intros v r Cr. assert (E : r = R100 X_said).
  { apply (C67_exact v X_text j r P PJ) in Cr as (_ & A & B). eapply (C67_unambiguous X_text j); [exact P|exact PJ|exact A|exact S|exact B|left; reflexivity]. }
  apply (C67_exact v X_text j r P PJ) in Cr as ([I|[_ [x X]]] & _); [|rewrite E in X; discriminate X]. rewrite E in I. cbn [versions_of In] in I. intuition.
Qed.
Print Assumptions C67_exact.
Print Assumptions C67_from_bytes.
Print Assumptions C67_unambiguous.
Print Assumptions C67_written.
Print Assumptions C67_written_is_plain.
Print Assumptions C67_nonvacuous.
