(** Proofs about name validation. *)
From Coq Require Import String Ascii List Arith ZArith NArith Bool Lia.
From Verif Require Import Model.GoStr Model.Errors Model.Utf8 Model.Validate Spec.NameSpec Proofs.StrP Proofs.Utf8P.
Import ListNotations.
Open Scope nat_scope.
Open Scope string_scope.

Lemma name_first_spec c : name_first c = true <-> alnum c.
Proof.
  unfold name_first, alnum, is_lower, is_upper, is_digit, byte. change (N_of_ascii c) with (code c).
  rewrite !orb_true_iff, !andb_true_iff, !N.leb_le. tauto.
Qed.
Lemma name_rest_spec c : name_rest c = true <-> name_char c.
Proof.
  unfold name_rest, name_char. rewrite !orb_true_iff, !Ascii.eqb_eq, <- name_first_spec.
  unfold name_first. rewrite !orb_true_iff. tauto.
Qed.
Lemma all_bytes_sforall (p : ascii -> bool) (P : ascii -> Prop) s :
  (forall c, p c = true <-> P c) -> (sforall p s = true <-> all_bytes P s).
Proof.
  intros H. induction s as [|c s IH]; cbn.
  - split; [constructor|reflexivity].
  - rewrite andb_true_iff, H, IH. split; [intros [A B]; now constructor|].
    intros A. inversion A; auto.
Qed.
Lemma cni_reg_good s : cni_reg_match s = true <-> good_name s.
Proof.
  unfold good_name. destruct s as [|c s]; cbn.
  - split; [discriminate|]. intros (c & r & E & _). discriminate.
  - rewrite andb_true_iff, name_first_spec, (all_bytes_sforall _ name_char) by apply name_rest_spec.
    split.
    + intros [A B]. now exists c, s.
    + intros (c' & r & E & A & B). injection E as -> ->. auto.
Qed.
Lemma good_name_nonempty s : good_name s -> s <> "".
Proof. intros (c & r & -> & _). discriminate. Qed.
Lemma validate_container_id_ok s : validate_container_id s = None <-> good_name s.
Proof.
  rewrite <- cni_reg_good. unfold validate_container_id.
  destruct (String.eqb_spec s "") as [E|N]; [subst s; split; discriminate|].
  destruct (cni_reg_match s); cbn; split; intros; try discriminate; reflexivity.
Qed.
Lemma validate_container_id_err s : ~ good_name s ->
  exists msg det, validate_container_id s =
    Some (ECNI (if String.eqb s "" then ErrUnknownContainer else ErrInvalidEnvironmentVariables) msg det).
Proof.
  rewrite <- cni_reg_good. unfold validate_container_id. intros H.
  destruct (String.eqb s ""); [eauto|].
  destruct (cni_reg_match s); [congruence|]. cbn. eauto.
Qed.
Lemma validate_network_name_ok s : validate_network_name s = None <-> good_name s.
Proof.
  rewrite <- cni_reg_good. unfold validate_network_name.
  destruct (String.eqb_spec s "") as [E|N]; [subst s; split; discriminate|].
  destruct (cni_reg_match s); cbn; split; intros; try discriminate; reflexivity.
Qed.
Lemma validate_network_name_err s : ~ good_name s ->
  exists msg det, validate_network_name s = Some (ECNI ErrInvalidNetworkConfig msg det).
Proof.
  rewrite <- cni_reg_good. unfold validate_network_name. intros H.
  destruct (String.eqb s ""); [eauto|].
  destruct (cni_reg_match s); [congruence|]. cbn. eauto.
Qed.
Lemma is_space_spec r : is_space_rune r = true <-> In r white_space.
Proof.
  unfold is_space_rune, white_space. rewrite !orb_true_iff, !andb_true_iff, !N.leb_le, !N.eqb_eq.
  cbn [In]. lia.
Qed.
Lemma validate_interface_name_ok s : validate_interface_name s = None <-> good_ifname s.
Proof.
  unfold validate_interface_name, good_ifname, max_interface_name_length.
  destruct (Nat.eqb_spec (String.length s) 0) as [E|NE].
  { apply length_nil in E. subst s. split; [discriminate|]. intros [H _]. congruence. }
  assert (N : s <> "") by (intros ->; cbn in NE; congruence).
  destruct (Nat.ltb_spec 15 (String.length s)) as [L|L]; [split; [discriminate|lia]|].
  destruct (String.eqb_spec s ".") as [E|N1]; [split; [discriminate|]; intros H; tauto|].
  destruct (String.eqb_spec s "..") as [E|N2]; [split; [discriminate|]; intros H; tauto|]. cbn [orb].
  match goal with |- context [existsb ?g ?l] => destruct (existsb g l) eqn:Ex end.
  - split; [discriminate|]. intros (_ & _ & _ & _ & H). apply existsb_exists in Ex.
    destruct Ex as (r & Hin & Hr). destruct (H _ (runes_reads s) r Hin) as (A & B & C).
    rewrite !orb_true_iff, !N.eqb_eq, is_space_spec in Hr. unfold slash, colon in *. tauto.
  - split; [|reflexivity]. intros _. repeat split; try assumption; intros Q;
    rewrite (reads_fun _ _ _ H (runes_reads s)) in H0;
    assert (T : existsb (fun r => (r =? 47)%N || (r =? 58)%N || is_space_rune r) (runes s) = true)
      by (apply existsb_exists; exists r; split; [assumption|];
          rewrite !orb_true_iff, !N.eqb_eq, is_space_spec; unfold slash, colon in *; tauto);
    congruence.
Qed.
Lemma validate_interface_name_err s : ~ good_ifname s ->
  exists msg det, validate_interface_name s = Some (ECNI ErrInvalidEnvironmentVariables msg det).
Proof.
  rewrite <- validate_interface_name_ok. unfold validate_interface_name. intros H.
  destruct (Nat.eqb _ 0); [eauto|]. destruct (Nat.ltb _ _); [eauto|]. destruct (_ || _); [eauto|].
  destruct (existsb _ _); [eauto|]. congruence.
Qed.
