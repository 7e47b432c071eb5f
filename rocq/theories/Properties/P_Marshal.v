(** C64: encoding a plugin configuration (types.PluginConf.MarshalJSON). *)
From Coq Require Import String Ascii List Arith NArith ZArith Bool Lia.
From Verif Require Import Model.GoStr Model.Errors Model.Json Model.GoJson Model.Types Model.Conf Model.Skel
  Spec.NameSpec Spec.JsonSpec Spec.TypesSpec Spec.ConfSpec Spec.MarshalSpec Proofs.StrP Proofs.JsonP Proofs.JsonRT
  Proofs.GoJsonP Proofs.TypesP Proofs.DecodeP Proofs.MarshalP.
Import ListNotations.
Open Scope nat_scope.
Open Scope string_scope.

Lemma present_from k v fs : In (k, v) (present fs) -> exists o, In (k, o) fs.
Proof.
  induction fs as [|[k' [x|]] fs IH]; cbn [present In]; [easy| |].
  - intros [E|I]; [exists (Some x); left; congruence|]. destruct (IH I) as (o & J). exists o. now right.
  - intros I. destruct (IH I) as (o & J). exists o. now right.
Qed.

(** A configuration JSON can carry is encoded, and decoding the text gives it back. *)
Theorem C64_round_trip : forall c, carried_conf c ->
  exists j, marshal_plugin_conf c = Some j /\ encodable j /\ unmarshal_plugin_conf (print j) = Some c.
Proof.
  intros c H. destruct (marshal_ok c H) as (j & M & E & _ & D & _). exists j. split; [exact M|]. split; [exact E|].
  unfold unmarshal_plugin_conf. now rewrite (parse_print _ E).
Qed.

(** Every configuration loaded from a document is encoded, and decoding the text gives it back,
    except that an empty previous result is taken as none. *)
Theorem C64_loaded : forall b c, unmarshal_plugin_conf b = Some c ->
  exists j c', marshal_plugin_conf c = Some j /\ unmarshal_plugin_conf (print j) = Some c' /\ same_but_empty_prev c c'.
Proof.
  intros b c U. unfold unmarshal_plugin_conf in U. destruct (parse b) as [j0|] eqn:P; [|discriminate].
  apply parse_encodable in P. pose proof (dec_held _ _ P U) as H. apply held_carried in H.
  destruct (C64_round_trip _ H) as (j & M & _ & D). exists j, (drop_prev c). rewrite marshal_drop in M. now split.
Qed.

(** The members of the document: text fields that are not empty, capabilities and valid
    attachments when there are any, ipam always, dns unless empty, the previous result when there
    is one; and nothing else. *)
Theorem C64_members : forall c, carried_conf c -> exists m, marshal_plugin_conf c = Some (JObj m) /\
  sget "cniVersion" m = (if String.eqb (pc_version c) "" then None else Some (JStr (pc_version c))) /\
  sget "name" m = (if String.eqb (pc_name c) "" then None else Some (JStr (pc_name c))) /\
  sget "type" m = (if String.eqb (pc_type c) "" then None else Some (JStr (pc_type c))) /\
  (sget "capabilities" m = None <-> pc_caps c = []) /\
  sget "ipam" m = Some (JObj (if String.eqb (pc_ipam c) "" then [] else [("type", JStr (pc_ipam c))])) /\
  (sget "dns" m = None <-> pc_dns c = dns_zero) /\
  sget "prevResult" m = option_map JObj (pc_prev c) /\
  (sget "cni.dev/valid-attachments" m = None <-> pc_valid c = []) /\
  (forall k v, In (k, v) m -> In k ["cniVersion"; "name"; "type"; "capabilities"; "ipam"; "dns"; "prevResult"; "cni.dev/valid-attachments"]).
Proof.
  intros c H. destruct (marshal_ok c H) as (j & M & _ & _ & _ & dj & ->). eexists. split; [exact M|].
  assert (G : forall od k, sget k (present (conf_sorted c od)) = match sget k (conf_sorted c od) with Some o => o | None => None end)
    by (intros od k; apply present_get; unfold conf_sorted; nodup_keys).
  rewrite !G. clear G. cbn [sget conf_sorted String.eqb Ascii.eqb Bool.eqb].
  destruct H as (_ & _ & _ & _ & _ & CS & _ & _ & PV).
  split; [reflexivity|]. split; [reflexivity|]. split; [reflexivity|]. split; [|split; [|split; [|split; [|split]]]].
  - rewrite (ocaps_eq _ CS). destruct (pc_caps c); split; congruence.
  - unfold ipam_obj, ostr. destruct (String.eqb (pc_ipam c) ""); reflexivity.
  - destruct (dns_is_empty (pc_dns c)) eqn:E; [split; [intros _; now apply dns_empty|reflexivity]|]. split; [discriminate|]. intros Z. rewrite Z in E. discriminate E.
  - now apply oprev_eq.
  - destruct (pc_valid c); cbn [map oarr]; split; congruence.
  - intros k v I. assert (J : exists o, In (k, o) (conf_sorted c (if dns_is_empty (pc_dns c) then None else Some dj))) by (exact (present_from _ _ _ I)).
    clear I. destruct J as (o & I). unfold conf_sorted in I. cbn [In] in *. intuition congruence.
Qed.

(** A configuration with every kind of member; one with an empty previous result. *)
Example C64_nonvacuous :
  let b := "{""cniVersion"":""1.0.0"",""name"":""net"",""type"":""bridge"",""capabilities"":{""portMappings"":true},""ipam"":{""type"":""host-local""},""dns"":{""domain"":""d""},""prevResult"":{""b"":1,""a"":[]},""cni.dev/valid-attachments"":[{""containerID"":""c"",""ifname"":""eth0""}],""mtu"":1500}" in
  (exists c j, unmarshal_plugin_conf b = Some c /\ carried_conf c /\ marshal_plugin_conf c = Some j /\
     print j = "{""capabilities"":{""portMappings"":true},""cni.dev/valid-attachments"":[{""containerID"":""c"",""ifname"":""eth0""}],""cniVersion"":""1.0.0"",""dns"":{""domain"":""d""},""ipam"":{""type"":""host-local""},""name"":""net"",""prevResult"":{""a"":[],""b"":1},""type"":""bridge""}") /\
  (exists c, unmarshal_plugin_conf "{""type"":""bridge"",""prevResult"":{}}" = Some c /\ pc_prev c = Some [] /\
     option_map print (marshal_plugin_conf c) = Some "{""ipam"":{},""type"":""bridge""}").
Proof.
  cbv zeta. split.
  - eexists. eexists. split; [vm_compute; reflexivity|]. split; [|split; vm_compute; reflexivity].
    unfold carried_conf. cbn [pc_version pc_name pc_type pc_caps pc_ipam pc_dns pc_prev pc_valid].
    do 4 (split; [apply ascii_wft; reflexivity|]). split; [|split; [repeat constructor|split; [|split]]].
    + repeat split; try constructor; apply ascii_wft; reflexivity.
    + repeat constructor; cbn [fst]; apply ascii_wft; reflexivity.
    + repeat constructor; apply ascii_wft; reflexivity.
    + split; [easy|]. split; [vm_compute; reflexivity|]. split; [|vm_compute; discriminate].
      cbn. repeat split; try (apply ascii_wft; reflexivity).
      apply number_lit_spec. reflexivity.
  - eexists. split; [vm_compute; reflexivity|]. split; [reflexivity|vm_compute; reflexivity].
Qed.

Print Assumptions C64_round_trip.
Print Assumptions C64_loaded.
Print Assumptions C64_members.
