(** When cache entries are distinct. *)
From Coq Require Import String Ascii List Bool Arith Lia.
From Verif Require Import Model.GoStr Model.Errors Model.Path Model.Types Model.Prog Model.Api Model.Validate
  Spec.NameSpec Spec.EnvSpec Spec.PathSpec Spec.CacheSpec
  Proofs.StrP Proofs.EnvP Proofs.ValidateP Proofs.PathP Proofs.ApiP Proofs.VerbP.
Import ListNotations.
Open Scope nat_scope.
Open Scope string_scope.

Lemma cb_cons ch a s : contains_byte ch (String a s) = false -> a <> ch /\ contains_byte ch s = false.
Proof.
  intros H. rewrite <- lacks_cb in H. unfold lacks in H. cbn in H. split; [tauto|]. rewrite <- lacks_cb. unfold lacks. tauto.
Qed.
Lemma dash_first : forall a b x y, contains_byte "-" a = false -> contains_byte "-" b = false ->
  a ++ "-" ++ x = b ++ "-" ++ y -> a = b /\ x = y.
Proof.
  induction a as [|ca a IH]; intros [|cb b] x y A B E.
  - injection E as ->. auto.
  - injection E as <- _. apply cb_cons in B as [N _]. congruence.
  - injection E as -> _. apply cb_cons in A as [N _]. congruence.
  - injection E as <- E. apply cb_cons in A as [_ A]. apply cb_cons in B as [_ B].
    destruct (IH _ _ _ A B E) as [-> ->]. auto.
Qed.
Lemma contains_mid a b : contains_byte "-" (a ++ "-" ++ b) = true.
Proof. rewrite contains_app. apply orb_true_iff. right. reflexivity. Qed.
Lemma dash_last : forall a b x y, contains_byte "-" x = false -> contains_byte "-" y = false ->
  a ++ "-" ++ x = b ++ "-" ++ y -> a = b /\ x = y.
Proof.
  induction a as [|ca a IH]; intros [|cb b] x y A B E.
  - injection E as ->. auto.
  - injection E as <- E. rewrite E in A. change (b ++ String "-" y) with (b ++ "-" ++ y) in A. rewrite contains_mid in A. discriminate.
  - injection E as -> E. rewrite <- E in B. change (a ++ String "-" x) with (a ++ "-" ++ x) in B. rewrite contains_mid in B. discriminate.
  - injection E as <- E. destruct (IH _ _ _ A B E) as [-> ->]. auto.
Qed.

Definition undashed (s t : string) : Prop := lacks "-"%char s /\ lacks "-"%char t.
Lemma entry_name_inj n n' rt rt' :
  (undashed n n' /\ undashed (rt_container rt) (rt_container rt')) \/
  (undashed n n' /\ undashed (rt_ifname rt) (rt_ifname rt')) \/
  (undashed (rt_container rt) (rt_container rt') /\ undashed (rt_ifname rt) (rt_ifname rt')) ->
  entry_name n rt = entry_name n' rt' -> n = n' /\ rt_container rt = rt_container rt' /\ rt_ifname rt = rt_ifname rt'.
Proof.
  unfold undashed. rewrite !lacks_cb. unfold entry_name.
  intros [[[A B] [C D]] | [[[A B] [C D]] | [[A B] [C D]]]] E.
  - destruct (dash_first _ _ _ _ A B E) as [-> E2]. destruct (dash_first _ _ _ _ C D E2) as [-> ->]. auto.
  - destruct (dash_first _ _ _ _ A B E) as [-> E2]. destruct (dash_last _ _ _ _ C D E2) as [-> ->]. auto.
  -     replace (n ++ "-" ++ rt_container rt ++ "-" ++ rt_ifname rt) with ((n ++ "-" ++ rt_container rt) ++ "-" ++ rt_ifname rt) in E
      by (rewrite <- !append_assoc; reflexivity).
    replace (n' ++ "-" ++ rt_container rt' ++ "-" ++ rt_ifname rt') with ((n' ++ "-" ++ rt_container rt') ++ "-" ++ rt_ifname rt') in E
      by (rewrite <- !append_assoc; reflexivity).
    destruct (dash_last _ _ _ _ C D E) as [E2 ->]. destruct (dash_last _ _ _ _ A B E2) as [-> ->]. auto.
Qed.

Lemma entry_path_eq c n rt : file_name (entry_name n rt) ->
  entry_path c n rt = entry_of (join_path [cache_root c rt; "results"]) (entry_name n rt).
Proof. intros F. unfold entry_path. apply join3_below; [apply cache_root_nonempty|reflexivity|now apply simple_spec]. Qed.
Lemma entry_path_inj c n n' rt rt' : file_name (entry_name n rt) -> file_name (entry_name n' rt') ->
  cache_root c rt = cache_root c rt' -> entry_path c n rt = entry_path c n' rt' -> entry_name n rt = entry_name n' rt'.
Proof. intros F F' R. rewrite !entry_path_eq by assumption. rewrite R. apply entry_of_inj. Qed.
Lemma accepted_file_name n rt : good_name n -> good_name (rt_container rt) -> good_ifname (rt_ifname rt) -> file_name (entry_name n rt).
Proof.
  intros A B C. apply entry_name_ok; [now apply validate_container_id_ok|now apply validate_network_name_ok|now apply validate_interface_name_ok].
Qed.
Lemma accepted_named n rt : good_name n -> good_name (rt_container rt) -> good_ifname (rt_ifname rt) -> named n rt.
Proof.
  intros A B C. apply validate_network_name_ok in A. apply validate_container_id_ok in B. apply validate_interface_name_ok in C.
  repeat split; intros E; rewrite E in *; discriminate.
Qed.
