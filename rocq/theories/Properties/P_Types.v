(** C35-C39, C41, C42: CNI results, their JSON form and their conversion between versions. *)
From Coq Require Import String Ascii List Arith NArith ZArith Bool Lia.
From Verif Require Import Model.GoStr Model.Errors Model.Json Model.Num Model.GoJson Model.NetIP Model.Types
  Spec.NameSpec Spec.JsonSpec Spec.ConfSpec Spec.TypesSpec Proofs.StrP Proofs.JsonP Proofs.JsonRT Proofs.NumP Proofs.NetIPP
  Proofs.GoJsonP Proofs.ConfP Proofs.TypesP Proofs.DecodeP Proofs.ConvP.
Import ListNotations.
Open Scope nat_scope.
Open Scope string_scope.

(** ** C35 *)
(** Results of the seven versions; an empty version is read as the newest of its Go type. *)
Definition served (r : result) : Prop := result_version r = "" \/ right_version r.
Lemma served_settle r : served r -> exists r', right_version r' /\ (forall v, get_as_version r v = get_as_version r' v) /\
  (complete r -> complete r') /\ addresses r' = addresses r /\ routes_of r' = routes_of r /\ dns_of r' = dns_of r.
Proof.
  intros [E|V]; [|exists r; split; [exact V|]; split; [reflexivity|]; split; [exact (fun h => h)|repeat split]]. exists (set_version (implemented_version r) r). split; [|split; [|destruct r; (split; [exact (fun h => h)|repeat split])]].
  - destruct r; cbn; auto.
  - intros v. unfold get_as_version. rewrite E. change (String.eqb "" "") with true. destruct r; reflexivity.
Qed.

(** Conversion of a result without nil entries to a known version succeeds, with that version and
    a Go type serving it, unless the target is 0.1.0 or 0.2.0, the source is newer, and there is
    no address of a known family. *)
Theorem C35_reaches_every_version : forall r v, right_version r -> complete r -> In v known_versions ->
  (old_version v /\ ~ old_version (result_version r) /\ ~ has_usable_ip r ->
     exists e, get_as_version r v = Err e) /\
  (~ (old_version v /\ ~ old_version (result_version r) /\ ~ has_usable_ip r) ->
     exists r', get_as_version r v = Ok r' /\ result_version r' = v /\ right_version r').
Proof.
  intros r v V C K. assert (K' : In v v02 \/ In v v04 \/ In v v10) by (cbn [In known_versions v02 v04 v10] in *; tauto). clear K.
  assert (O : old_version v <-> In v v02) by (unfold old_version; cbn [In v02]; intuition).
  destruct r as [r|r|r]; cbn [versions_of result_version] in V; unfold right_version in V; cbn [versions_of result_version] in V.
  - assert (OV : old_version (result_version (R020 r))) by (unfold old_version; cbn [result_version]; cbn [In] in V; intuition).
    split; [tauto|]. intros _. destruct K' as [K|[K|K]].
    + rewrite gv_020_020 by assumption. eexists. split; [reflexivity|]. split; [reflexivity|exact K].
    + rewrite gv_020_040 by assumption. eexists. split; [reflexivity|]. split; [reflexivity|exact K].
    + rewrite gv_020_100 by assumption. eexists. split; [reflexivity|]. split; [reflexivity|exact K].
  - destruct C as (C1 & C2 & C3). destruct K' as [K|[K|K]].
    + rewrite gv_040_020, conv040_to02x_eq by assumption. destruct (old_form "4" (R040 r)) eqn:E4.
      { apply usable_form in E4; [|now left]. split; [tauto|]. intros _. eexists. split; [reflexivity|]. split; [reflexivity|exact K]. }
      destruct (old_form "6" (R040 r)) eqn:E6.
      { apply usable_form in E6; [|now right]. split; [tauto|]. intros _. eexists. split; [reflexivity|]. split; [reflexivity|exact K]. }
      split; [eauto|]. intros N. exfalso. apply N. split; [tauto|]. split; [|now apply unusable].
      unfold old_version. cbn [result_version]. cbn [In] in V. intros [X|X]; rewrite X in V; intuition discriminate.
    + split. { intros (X & _). apply O in X. exfalso. cbn [In v02 v04] in *. intuition congruence. }
      intros _. rewrite gv_040_040 by assumption. eexists. split; [reflexivity|]. split; [reflexivity|exact K].
    + split. { intros (X & _). apply O in X. exfalso. cbn [In v02 v10] in *. intuition congruence. }
      intros _. rewrite gv_040_100, conv100_from04x_eq by assumption. eexists. split; [reflexivity|]. split; [reflexivity|exact K].
  - destruct C as (C1 & C2 & C3). destruct K' as [K|[K|K]].
    + rewrite gv_100_020, conv100_to04x_eq by assumption. cbn [rbind].
      pose proof (down100_addresses "0.4.0" r) as AD. assert (U : has_usable_ip (R040 (down100 "0.4.0" r)) <-> has_usable_ip (R100 r)) by (unfold has_usable_ip; now rewrite AD).
      rewrite conv040_to02x_eq by (cbn [down100 v4_ips v4_routes]; auto using map_no_none).
      destruct (old_form "4" (R040 (down100 "0.4.0" r))) eqn:E4.
      { apply usable_form in E4; [|now left]. split; [tauto|]. intros _. eexists. split; [reflexivity|]. split; [reflexivity|exact K]. }
      destruct (old_form "6" (R040 (down100 "0.4.0" r))) eqn:E6.
      { apply usable_form in E6; [|now right]. split; [tauto|]. intros _. eexists. split; [reflexivity|]. split; [reflexivity|exact K]. }
      split; [eauto|]. intros N. exfalso. apply N. split; [tauto|]. split; [|rewrite <- U; now apply unusable].
      unfold old_version. cbn [result_version]. cbn [In] in V. intros [X|X]; rewrite X in V; intuition discriminate.
    + split. { intros (X & _). apply O in X. exfalso. cbn [In v02 v04] in *. intuition congruence. }
      intros _. rewrite gv_100_040, conv100_to04x_eq by assumption. eexists. split; [reflexivity|]. split; [reflexivity|exact K].
    + split. { intros (X & _). apply O in X. exfalso. cbn [In v02 v10] in *. intuition congruence. }
      intros _. rewrite gv_100_100 by assumption. eexists. split; [reflexivity|]. split; [reflexivity|exact K].
Qed.
(** An empty version is treated as 1.1.0, 0.4.0 or 0.2.0 according to the Go type; an empty target as 0.1.0. *)
Theorem C35_empty_versions : forall r v, 
  (result_version r = "" -> get_as_version r v = get_as_version (set_version (implemented_version r) r) v) /\
  get_as_version r "" = get_as_version r "0.1.0".
Proof.
  intros r v. split.
  - intros E. unfold get_as_version. rewrite E. change (String.eqb "" "") with true. destruct r; reflexivity.
  - unfold get_as_version, convert. cbn [convert_fuel]. change (String.eqb "" "") with true. change (String.eqb "0.1.0" "") with false. reflexivity.
Qed.
Theorem C35_unknown_target : forall r v, right_version r -> v <> "" -> ~ In v known_versions -> exists e, get_as_version r v = Err e.
Proof.
  intros r v V N U. assert (M : mem_str v known_versions = false) by (destruct (mem_str v known_versions) eqn:E; [apply mem_in in E; easy|reflexivity]).
  pose proof (right_nonempty _ V) as [NE _].
  assert (F : forall l from, (forall c, In c l -> forall w, In w (c_tos c) -> In w known_versions) -> find_converter l from v = None).
  { induction l as [|c l IH]; intros from H; [reflexivity|]. cbn [find_converter].
    destruct (mem_str v (c_tos c)) eqn:E; [apply mem_in in E; exfalso; apply U; eapply H; [now left|exact E]|].
    rewrite andb_false_r. apply IH. intros c' I. apply H. now right. }
  unfold get_as_version, convert. destruct (String.eqb_spec (result_version r) ""); [easy|]. cbn [convert_fuel].
  destruct (String.eqb_spec v ""); [easy|]. destruct (String.eqb_spec (result_version r) v) as [E|_].
  { exfalso. apply U. rewrite <- E. unfold right_version in V. destruct r; cbn [versions_of In known_versions result_version] in *; tauto. }
  rewrite F; [eauto|].
  assert (B : forallb (fun c => forallb (fun w => mem_str w known_versions) (c_tos c)) converters = true) by (vm_compute; reflexivity).
  rewrite forallb_forall in B. intros c I w W. apply B in I. rewrite forallb_forall in I. now apply mem_in, I.
Qed.
(** The packages' registrations all succeed, and never give two converters (or two decoders) for
    the same pair of versions. *)
Theorem C35_one_converter : registered_converters <> None /\ registered_creators <> None /\
  (forall i j a b v, nth_error converters i = Some a -> nth_error converters j = Some b ->
     c_from a = c_from b -> In v (c_tos a) -> In v (c_tos b) -> i = j) /\
  (forall i j a b v, nth_error creators i = Some a -> nth_error creators j = Some b -> In v (fst a) -> In v (fst b) -> i = j).
Proof.
  split; [vm_compute; discriminate|].
  assert (R : registered_creators = Some [(supported020, new_result020); (supported040, new_result040); (supported100, new_result100)])
    by (cbv [registered_creators fold_left register_creator find_creator existsb fst mem_str supported020 supported040 supported100 String.eqb Ascii.eqb Bool.eqb app]; reflexivity).
  split; [rewrite R; discriminate|]. split.
  - assert (B : forallb (fun i => forallb (fun j =>
      match nth_error converters i, nth_error converters j with
      | Some a, Some b => (i =? j)%nat || negb (String.eqb (c_from a) (c_from b) && existsb (fun v => mem_str v (c_tos b)) (c_tos a))
      | _, _ => true end) (seq 0 21)) (seq 0 21) = true) by (vm_compute; reflexivity).
    intros i j a b v A C F I J. assert (L : List.length converters = 21) by (vm_compute; reflexivity).
    assert (Li : i < 21) by (rewrite <- L; apply nth_error_Some; congruence).
    assert (Lj : j < 21) by (rewrite <- L; apply nth_error_Some; congruence).
    rewrite forallb_forall in B. specialize (B i). rewrite in_seq in B. specialize (B ltac:(lia)). rewrite forallb_forall in B.
    specialize (B j). rewrite in_seq in B. specialize (B ltac:(lia)). rewrite A, C in B. apply orb_true_iff in B as [B|B]; [now apply Nat.eqb_eq|].
    rewrite F, String.eqb_refl in B. cbn [andb] in B. apply negb_true_iff in B. exfalso.
    assert (X : existsb (fun w => mem_str w (c_tos b)) (c_tos a) = true) by (apply existsb_exists; exists v; split; [exact I|now apply mem_in]). congruence.
  - intros i j a b v. unfold creators. rewrite R. clear R.
    destruct i as [|[|[|i]]], j as [|[|[|j]]]; cbn [nth_error]; try reflexivity; try (intros A; destruct i; discriminate); try (intros _ A; destruct j; discriminate);
    intros A B; injection A as <-; injection B as <-; cbn [fst supported020 supported040 supported100 In]; intuition congruence.
Qed.

(** ** C36 *)
(** The declared family of each 0.3/0.4 address is that of the address. *)
Definition families_match (r : res040) : Prop := forall c, In (Some c) (v4_ips r) -> i4_version c = family (n_ip (i4_address c)).
Theorem C36_up_then_down : forall r v, right_version (R040 r) -> complete (R040 r) -> families_match r -> (v = "1.0.0" \/ v = "1.1.0") ->
  exists r1, get_as_version (R040 r) v = Ok r1 /\ result_version r1 = v /\ get_as_version r1 (v4_version r) = Ok (R040 r).
Proof.
  intros r v V (C1 & C2 & C3) F K. assert (K' : In v v10) by (cbn [In v10]; intuition).
  exists (R100 (up040 v r)). rewrite gv_040_100, conv100_from04x_eq by assumption. split; [reflexivity|]. split; [reflexivity|].
  rewrite gv_100_040; [|exact K'|exact V]. rewrite conv100_to04x_eq by (cbn [up040 v1_interfaces v1_ips]; auto using map_no_none).
  do 2 f_equal. destruct r as [w i p q d]. unfold down100, up040. cbn in *. rewrite !map_map.
  assert (E1 : map (fun x => option_map conv_if_to040 (option_map conv_if_from040 x)) i = i).
  { rewrite <- (map_id i) at 2. apply map_ext. intros [[a b c]|]; reflexivity. }
  assert (E2 : map (fun x => option_map conv_ipc_to040 (option_map conv_ipc_from040 x)) p = p).
  { rewrite <- (map_id p) at 2. apply map_ext_in. intros [c|] I; [|reflexivity]. apply F in I. destruct c as [a b e g]. cbn in *.
    unfold conv_ipc_to040. cbn. unfold family in I. now rewrite <- I. }
  now rewrite E1, E2.
Qed.
(** What a 1.x interface loses in 0.4.0. *)
Definition forget_if (i : if100) : if100 :=
  {| if1_name := if1_name i; if1_mac := if1_mac i; if1_mtu := 0; if1_sandbox := if1_sandbox i; if1_socket := ""; if1_pci := "" |}.
Definition forget (r : res100) : res100 :=
  {| v1_version := v1_version r; v1_interfaces := map (option_map forget_if) (v1_interfaces r); v1_ips := v1_ips r; v1_routes := v1_routes r; v1_dns := v1_dns r |}.
Theorem C36_down_then_up : forall r v, right_version (R100 r) -> complete (R100 r) -> In v ["0.3.0"; "0.3.1"; "0.4.0"] ->
  exists r4, get_as_version (R100 r) v = Ok r4 /\ result_version r4 = v /\ get_as_version r4 (v1_version r) = Ok (R100 (forget r)).
Proof.
  intros r v V (C1 & C2 & C3) K. exists (R040 (down100 v r)). rewrite gv_100_040, conv100_to04x_eq by assumption.
  split; [reflexivity|]. split; [reflexivity|]. rewrite gv_040_100; [|exact K|exact V].
  rewrite conv100_from04x_eq by (cbn [down100 v4_interfaces v4_ips]; auto using map_no_none).
  do 2 f_equal. destruct r as [w i p q d]. unfold up040, down100, forget. cbn in *. rewrite !map_map.
  assert (E1 : map (fun x => option_map conv_if_from040 (option_map conv_if_to040 x)) i = map (option_map forget_if) i).
  { apply map_ext. intros [[]|]; reflexivity. }
  assert (E2 : map (fun x => option_map conv_ipc_from040 (option_map conv_ipc_to040 x)) p = p).
  { rewrite <- (map_id p) at 2. apply map_ext. intros [[a b c]|]; reflexivity. }
  now rewrite E1, E2.
Qed.
(** Between versions of the same Go type nothing but the version changes. *)
Theorem C36_same_type : forall r v, right_version r -> In v (versions_of r) -> get_as_version r v = Ok (set_version v r).
Proof.
  intros [r|r|r] v V K; unfold right_version in V; cbn [versions_of result_version] in *.
  - now rewrite gv_020_020.
  - now rewrite gv_040_040.
  - now rewrite gv_100_100.
Qed.
(** A 0.1/0.2 result survives going up to any later version and back, if its routes are of the
    family they are listed under and hold only destination and gateway (and, for 1.x, its
    addresses are of the family they are listed under). *)
Definition own_routes (v : string) (o : option ipc020) : Prop :=
  match o with Some c => forall q, In q (i2_routes c) -> family (n_ip (r_dst q)) = v /\ q = short q | None => True end.
Definition own_address (v : string) (o : option ipc020) : Prop :=
  match o with Some c => family (n_ip (i2_ip c)) = v | None => True end.
Lemma filter_all {A} (p : A -> bool) l : (forall a, In a l -> p a = true) -> filter p l = l.
Proof. induction l as [|a l IH]; intros H; [reflexivity|]. cbn. rewrite (H a) by now left. f_equal. apply IH. intros b I. apply H. now right. Qed.
Lemma filter_none {A} (p : A -> bool) l : (forall a, In a l -> p a = false) -> filter p l = [].
Proof. induction l as [|a l IH]; intros H; [reflexivity|]. cbn. rewrite (H a) by now left. apply IH. intros b I. apply H. now right. Qed.
Lemma map_short_id l : (forall q, In q l -> q = short q) -> map short l = l.
Proof. intros H. rewrite <- (map_id l) at 2. apply map_ext_in. intros q I. symmetry. auto. Qed.
Lemma somes_app {A} (a b : list (option A)) : somes (a ++ b) = (somes a ++ somes b)%list.
Proof. induction a as [|[x|] a IH]; cbn; now rewrite ?IH. Qed.
Lemma somes_some {A} (l : list A) : somes (map Some l) = l.
Proof. induction l as [|a l IH]; cbn; now rewrite ?IH. Qed.
Lemma up020_addresses v r : addresses (R040 (up020 v r)) = addresses (R020 r).
Proof. destruct r as [w [a|] [b|] d]; reflexivity. Qed.
Lemma up020_routes v r : routes_of (R040 (up020 v r)) = routes_of (R020 r).
Proof. destruct r as [w [a|] [b|] d]; cbn; rewrite ?somes_app, ?somes_some, ?app_nil_r; reflexivity. Qed.
Lemma own_4 r : own_routes "4" (v2_ip4 r) -> own_routes "6" (v2_ip6 r) ->
  filter (fun q => String.eqb (family (n_ip (r_dst q))) "4") (routes_of (R020 r)) = match v2_ip4 r with Some c => i2_routes c | None => [] end /\
  filter (fun q => String.eqb (family (n_ip (r_dst q))) "6") (routes_of (R020 r)) = match v2_ip6 r with Some c => i2_routes c | None => [] end.
Proof.
  intros A B. cbn [routes_of]. rewrite !filter_app.
  assert (A4 : filter (fun q => String.eqb (family (n_ip (r_dst q))) "4") match v2_ip4 r with Some c => i2_routes c | None => [] end = match v2_ip4 r with Some c => i2_routes c | None => [] end).
  { apply filter_all. destruct (v2_ip4 r); [|easy]. intros q I. apply A in I as [-> _]. reflexivity. }
  assert (A6 : filter (fun q => String.eqb (family (n_ip (r_dst q))) "6") match v2_ip4 r with Some c => i2_routes c | None => [] end = []).
  { apply filter_none. destruct (v2_ip4 r); [|easy]. intros q I. apply A in I as [-> _]. reflexivity. }
  assert (B6 : filter (fun q => String.eqb (family (n_ip (r_dst q))) "6") match v2_ip6 r with Some c => i2_routes c | None => [] end = match v2_ip6 r with Some c => i2_routes c | None => [] end).
  { apply filter_all. destruct (v2_ip6 r); [|easy]. intros q I. apply B in I as [-> _]. reflexivity. }
  assert (B4 : filter (fun q => String.eqb (family (n_ip (r_dst q))) "4") match v2_ip6 r with Some c => i2_routes c | None => [] end = []).
  { apply filter_none. destruct (v2_ip6 r); [|easy]. intros q I. apply B in I as [-> _]. reflexivity. }
  rewrite A4, A6, B4, B6, app_nil_r. split; reflexivity.
Qed.
Lemma old_form_up v r : own_routes "4" (v2_ip4 r) -> own_routes "6" (v2_ip6 r) ->
  old_form "4" (R040 (up020 v r)) = v2_ip4 r /\ old_form "6" (R040 (up020 v r)) = v2_ip6 r.
Proof.
  intros A B. unfold old_form. rewrite up020_addresses, up020_routes. destruct (own_4 r A B) as [-> ->].
  destruct r as [w [[a1 a2 a3]|] [[b1 b2 b3]|] d]; cbn [v2_ip4 v2_ip6 own_routes i2_routes] in *; cbn [addresses v2_ip4 v2_ip6 i2_ip i2_gateway app find fam fst snd];
  repeat change (String.eqb "4" "4") with true; repeat change (String.eqb "6" "6") with true; repeat change (String.eqb "4" "6") with false; repeat change (String.eqb "6" "4") with false;
  cbn [option_map fst snd]; (split; [try reflexivity|try reflexivity]); rewrite map_short_id; try reflexivity; intros q I; try (apply A in I; tauto); try (apply B in I; tauto).
Qed.
Theorem C36_old_up_then_down : forall r v, right_version (R020 r) -> In v ["0.3.0"; "0.3.1"; "0.4.0"; "1.0.0"; "1.1.0"] ->
  (v2_ip4 r <> None \/ v2_ip6 r <> None) -> own_routes "4" (v2_ip4 r) -> own_routes "6" (v2_ip6 r) ->
  (v = "1.0.0" \/ v = "1.1.0" -> own_address "4" (v2_ip4 r) /\ own_address "6" (v2_ip6 r)) ->
  exists r1, get_as_version (R020 r) v = Ok r1 /\ result_version r1 = v /\ get_as_version r1 (v2_version r) = Ok (R020 r).
Proof.
  intros r v V K S A B F. assert (D : forall w, conv040_to02x (R040 (up020 w r)) (v2_version r) = Ok (R020 r)).
  { intros w. destruct (up020_complete w r) as (_ & C2 & C3). rewrite conv040_to02x_eq by assumption. unfold down040.
    destruct (old_form_up w r A B) as [-> ->]. destruct r as [u [a|] [b|] d]; try reflexivity. cbn in S. intuition. }
  assert (K' : In v v04 \/ In v v10) by (cbn [In v04 v10] in *; tauto). destruct K' as [K'|K'].
  - exists (R040 (up020 v r)). rewrite gv_020_040 by assumption. split; [reflexivity|]. split; [reflexivity|].
    rewrite gv_040_020; [apply D|exact K'|exact V].
  - exists (R100 (up040 v (up020 "0.4.0" r))). rewrite gv_020_100 by assumption. split; [reflexivity|]. split; [reflexivity|].
    rewrite gv_100_020; [|exact K'|exact V]. destruct (up020_complete "0.4.0" r) as (C1 & C2 & C3).
    rewrite conv100_to04x_eq by (cbn [up040 v1_interfaces v1_ips]; auto using map_no_none). cbn [rbind].
    replace (down100 "0.4.0" (up040 v (up020 "0.4.0" r))) with (up020 "0.4.0" r); [apply D|].
    destruct F as [F4 F6]; [cbn [In v10] in K'; intuition|]. clear - F4 F6. unfold own_address, family in *.
    destruct r as [w [[a1 a2 a3]|] [[b1 b2 b3]|] d]; unfold down100, up040, up020, conv_ipc_to040; cbn in *; rewrite ?F4, ?F6; reflexivity.
Qed.

(** ** C37 *)
Theorem C37_down_to_020 : forall r v, right_version r -> ~ old_version (result_version r) -> complete r -> has_usable_ip r -> old_version v ->
  get_as_version r v = Ok (R020 {| v2_version := v; v2_ip4 := old_form "4" r; v2_ip6 := old_form "6" r; v2_dns := dns_of r |}).
Proof.
  intros r v V NO C U O. assert (K : In v v02) by (unfold old_version in O; cbn [In v02]; intuition).
  assert (S : match old_form "4" r, old_form "6" r with None, None => False | _, _ => True end).
  { destruct (old_form "4" r) eqn:E4, (old_form "6" r) eqn:E6; try exact I. exact (unusable r E4 E6 U). }
  destruct r as [r|r|r]; unfold right_version in V; cbn [result_version versions_of complete dns_of] in *.
  - exfalso. apply NO. unfold old_version. cbn [In] in V. intuition.
  - destruct C as (C1 & C2 & C3). rewrite gv_040_020, conv040_to02x_eq by assumption. unfold down040. destruct (old_form "4" (R040 r)), (old_form "6" (R040 r)); easy.
  - destruct C as (C1 & C2 & C3). rewrite gv_100_020, conv100_to04x_eq by assumption. cbn [rbind].
    rewrite conv040_to02x_eq by (cbn [down100 v4_ips v4_routes]; auto using map_no_none). unfold down040.
    assert (OF : forall f, old_form f (R040 (down100 "0.4.0" r)) = old_form f (R100 r)) by (intros f; unfold old_form; now rewrite down100_addresses).
    rewrite !OF. cbn [down100 v4_dns]. destruct (old_form "4" (R100 r)), (old_form "6" (R100 r)); easy.
Qed.

(** ** C38 *)
Lemma gv_no_panic r v : right_version r -> complete r -> get_as_version r v <> Panic.
Proof.
  intros V C. destruct (mem_str v known_versions) eqn:M.
  - apply mem_in in M. destruct (C35_reaches_every_version r v V C M) as [A B].
    destruct (get_as_version r v) as [x|e|] eqn:G; try discriminate.
    assert (N : ~ (old_version v /\ ~ old_version (result_version r) /\ ~ has_usable_ip r)) by (intros X; apply A in X as [e X]; discriminate).
    apply B in N as (x & X & _). discriminate.
  - destruct (String.eqb_spec v "") as [->|NE].
    + rewrite (proj2 (C35_empty_versions r "")). destruct (C35_reaches_every_version r "0.1.0" V C ltac:(now left)) as [A B].
      destruct (get_as_version r "0.1.0") as [x|e|] eqn:G; try discriminate.
      assert (N : ~ (old_version "0.1.0" /\ ~ old_version (result_version r) /\ ~ has_usable_ip r)) by (intros X; apply A in X as [e X]; discriminate).
      apply B in N as (x & X & _). discriminate.
    + destruct (C35_unknown_target r v V NE) as [e E]; [|rewrite E; discriminate].
      intros I. apply mem_in in I. congruence.
Qed.
(** Conversion of a result without nil entries never panics; nor does converting a decoded document
    with no null among its interfaces, ips and routes, whatever the requested version. *)
Theorem C38_no_panic : forall r v, served r -> complete r -> get_as_version r v <> Panic.
Proof. intros r v S C. destruct (served_settle r S) as (r' & V & E & C' & _). rewrite E. apply gv_no_panic; auto. Qed.
Theorem C38_decoded : forall v text j r w, create v text = Ok r -> parse text = Some j -> no_null_entries j ->
  get_as_version r w <> Panic /\ print_result r w <> Panic.
Proof.
  intros v text j r w H P N. pose proof (create_inv _ _ _ H) as (j' & P' & _ & V & _). pose proof (create_complete _ _ _ _ H P N) as C.
  pose proof (gv_no_panic r w V C) as G. split; [exact G|]. unfold print_result. destruct (get_as_version r w) as [x|e|] eqn:GV; [|discriminate|congruence].
  cbn [rbind]. unfold result_print. destruct (enc_result x); discriminate.
Qed.
(** A null entry, which plugin output may contain, does make conversion panic. *)
Theorem C38_null_entry_refuted : exists r, create "1.0.0" "{""cniVersion"":""1.0.0"",""ips"":[null]}" = Ok r /\ get_as_version r "0.4.0" = Panic.
Proof.
  exists (R100 {| v1_version := "1.0.0"; v1_interfaces := []; v1_ips := [None]; v1_routes := []; v1_dns := dns_zero |}). split; vm_compute; reflexivity.
Qed.

(** ** C39 *)
Lemma version_text r text j : parse text = Some j -> dec_like r j = Some r -> right_version r -> Types.decode_version text = Ok (result_version r).
Proof.
  intros P D V. pose proof (right_nonempty _ V) as [NE _]. unfold Types.decode_version. rewrite P. cbn [obind].
  assert (E : dec_cni_version j = Some (result_version r)).
  { destruct r as [r|r|r]; cbn [dec_like result_version] in *.
    - destruct (dec_res020 j) as [x|] eqn:X; [|discriminate]. injection D as ->. exact (dec_res020_version _ _ X).
    - destruct (dec_res040 j) as [x|] eqn:X; [|discriminate]. injection D as ->. exact (dec_res040_version _ _ X).
    - destruct (dec_res100 j) as [x|] eqn:X; [|discriminate]. injection D as ->. exact (dec_res100_version _ _ X). }
  rewrite E. destruct (String.eqb_spec (result_version r) ""); [easy|reflexivity].
Qed.
Lemma text_back r text j : parse text = Some j -> dec_like r j = Some r -> right_version r ->
  create (result_version r) text = Ok r /\ create_from_bytes text = Ok r.
Proof.
  intros P D V. assert (C : create (result_version r) text = Ok r) by (eapply create_like; eassumption). split; [exact C|].
  unfold create_from_bytes. rewrite (version_text _ _ _ P D V). exact C.
Qed.
Lemma jenc j : jwf j -> (jdepth j <= 5)%N -> is_obj j = true -> encodable j.
Proof. intros A B _. split; [exact A|]. eapply N.le_trans; [exact B|]. vm_compute. discriminate. Qed.
(** Encoding (json.Marshal, PrintTo) a well-formed result of any version gives a document that
    decodes to the same result, given its version or not. *)
Theorem C39_round_trip : forall r, wf_result (ints_for r) prefix_form r -> exists text pretty,
  result_bytes r = Ok text /\ create (result_version r) text = Ok r /\ create_from_bytes text = Ok r /\
  result_print r = Ok pretty /\ create (result_version r) pretty = Ok r /\ create_from_bytes pretty = Ok r.
Proof.
  intros r W. destruct (result_rt r W) as (j & E & O & J & D & R). pose proof (jenc j J D O) as N.
  exists (print j), (print_indent j). unfold result_bytes, result_print. rewrite E.
  destruct (text_back r (print j) j (parse_print j N) R (proj2 W)). destruct (text_back r (print_indent j) j (parse_print_indent j N) R (proj2 W)). auto 8.
Qed.

(** Conversion keeps results well formed. *)
Lemma map_deref_wf {A B} (f : A -> B) (P : A -> Prop) (Q : B -> Prop) : (forall a, P a -> Q (f a)) ->
  forall l l', map_deref f l = Ok l' -> Forall (wf_opt P) l -> Forall (wf_opt Q) l'.
Proof.
  intros H. induction l as [|[a|] l IH]; intros l' E F; [injection E as <-; constructor| |discriminate].
  cbn [map_deref] in E. destruct (map_deref f l) as [l2|e|]; try discriminate. injection E as <-. apply Forall_cons_iff in F as [F1 F2].
  constructor; [now apply H|]. now apply IH.
Qed.
Lemma to02x_ips_wf {Iz : Z -> Prop} {Qp : ipnet -> Prop} (Z0 : Iz 0%Z) l : Forall (wf_opt (wf_ipc040 Iz Qp)) l -> forall a b a' b', to02x_ips l a b = Ok (a', b') ->
  wf_opt (wf_ipc020 Iz Qp) a -> wf_opt (wf_ipc020 Iz Qp) b ->
  wf_opt (wf_ipc020 Iz Qp) a' /\ wf_opt (wf_ipc020 Iz Qp) b'.
Proof.
  induction l as [|[c|] l IH]; intros F a b a' b' H A B; [injection H as <- <-; auto| |discriminate].
  apply Forall_cons_iff in F as [(C1 & C2 & C3 & C4) F]. specialize (IH F). cbn [to02x_ips] in H.
  assert (W : wf_ipc020 Iz Qp {| i2_ip := i4_address c; i2_gateway := i4_gateway c; i2_routes := [] |}) by (split; [exact C3|split; [exact C4|constructor]]).
  set (x := {| i2_ip := i4_address c; i2_gateway := i4_gateway c; i2_routes := [] |}) in *. clearbody x.
  destruct (String.eqb (i4_version c) "4" && negb (is_some a));
  [|destruct (String.eqb (i4_version c) "6" && negb (is_some b))]; cbv beta iota in H.
  - destruct b as [b|]; [injection H as <- <-; auto|]. eapply IH; eauto.
  - destruct a as [a|]; [injection H as <- <-; auto|]. eapply IH; eauto.
  - destruct a as [a|], b as [b|]; try (injection H as <- <-; auto); eapply IH; eauto.
Qed.
Lemma add_route_wf {Iz : Z -> Prop} {Qp : ipnet -> Prop} (Z0 : Iz 0%Z) c q : wf_ipc020 Iz Qp c -> wf_route Iz Qp q -> wf_ipc020 Iz Qp (add_route c (short_route q)).
Proof.
  intros (A & B & C) (Q1 & Q2 & _). split; [exact A|]. split; [exact B|]. cbn [add_route i2_routes]. apply Forall_app. split; [exact C|]. constructor; [|constructor].
  assert (Z : Iz 0%Z) by exact Z0. split; [exact Q1|]. split; [exact Q2|]. split; [exact Z|]. split; [exact Z|]. split; [exact Z|]. split; exact I.
Qed.
Lemma to02x_routes_wf {Iz : Z -> Prop} {Qp : ipnet -> Prop} (Z0 : Iz 0%Z) l : Forall (wf_opt (wf_route Iz Qp)) l -> forall a b a' b', to02x_routes l a b = Ok (a', b') ->
  wf_opt (wf_ipc020 Iz Qp) a -> wf_opt (wf_ipc020 Iz Qp) b ->
  wf_opt (wf_ipc020 Iz Qp) a' /\ wf_opt (wf_ipc020 Iz Qp) b'.
Proof.
  induction l as [|[q|] l IH]; intros F a b a' b' H A B; [injection H as <- <-; auto| |discriminate].
  apply Forall_cons_iff in F as [Q F]. specialize (IH F). cbn [to02x_routes] in H. destruct (is4 (n_ip (r_dst q))).
  - destruct a as [a|]; eapply IH; try exact H; auto. now apply (add_route_wf Z0).
  - destruct b as [b|]; eapply IH; try exact H; auto. now apply (add_route_wf Z0).
Qed.
Lemma conv040_to02x_wf {Iz : Z -> Prop} {Qp : ipnet -> Prop} (Z0 : Iz 0%Z) r v r' : wf_res040 Iz Qp r -> conv040_to02x (R040 r) v = Ok r' ->
  wf_body Iz Qp r' /\ (In v v02 -> right_version r').
Proof.
  intros (W1 & W2 & W3 & W4) H. unfold conv040_to02x in H. destruct (to02x_ips (v4_ips r) None None) as [[a b]|e|] eqn:E1; try discriminate. cbn [rbind] in H.
  destruct (to02x_routes (v4_routes r) a b) as [[a' b']|e|] eqn:E2; try discriminate. cbn [rbind] in H.
  destruct (to02x_ips_wf Z0 _ W2 _ _ _ _ E1 I I) as [A B]. destruct (to02x_routes_wf Z0 _ W3 _ _ _ _ E2 A B) as [A' B']. rewrite dns_copy_id in H.
  destruct a', b'; try discriminate; injection H as <-; (split; [split; [assumption|split; [assumption|exact W4]]|intros K; exact K]).
Qed.
Lemma up020_wf {Iz : Z -> Prop} {Qp : ipnet -> Prop} (Z0 : Iz 0%Z) v r : wf_res020 Iz Qp r -> wf_res040 Iz Qp (up020 v r).
Proof.
  intros (A & B & C). unfold up020. cbn [wf_res040]. split; [constructor|].
  assert (P : forall c f, (f = "4" \/ f = "6") -> wf_opt (wf_ipc020 Iz Qp) c -> Forall (wf_opt (wf_ipc040 Iz Qp)) (fst (up_part c f)) /\
    Forall (wf_opt (wf_route Iz Qp)) (snd (up_part c f))).
  { intros [c|] f F W; [|split; constructor]. destruct W as (W1 & W2 & W3). cbn [up_part fst snd]. split.
    - constructor; [|constructor]. split; [destruct F as [-> | ->]; apply ascii_wft; reflexivity|]. split; [exact I|]. split; assumption.
    - apply Forall_map. exact W3. }
  destruct (P _ "4" (or_introl eq_refl) A) as [A1 A2]. destruct (P _ "6" (or_intror eq_refl) B) as [B1 B2]. cbn [v4_ips v4_routes v4_dns].
  split; [apply Forall_app; auto|]. split; [apply Forall_app; auto|exact C].
Qed.
Lemma from04x_wf {Iz : Z -> Prop} {Qp : ipnet -> Prop} (Z0 : Iz 0%Z) r v r' : wf_res040 Iz Qp r -> conv100_from04x (R040 r) v = Ok r' -> wf_body Iz Qp r' /\ (In v v10 -> right_version r').
Proof.
  intros (A & B & C & D) H. unfold conv100_from04x in H. destruct (map_deref conv_if_from040 (v4_interfaces r)) as [l1|e|] eqn:E1; try discriminate. cbn [rbind] in H.
  destruct (map_deref conv_ipc_from040 (v4_ips r)) as [l2|e|] eqn:E2; try discriminate. cbn [rbind] in H. rewrite map_opt_copy, dns_copy_id in H.
  injection H as <-. split; [|intros K; exact K]. split; [|split; [|split; [exact C|exact D]]]; cbn [v1_interfaces v1_ips].
  - revert A. apply (map_deref_wf _ _ _) with (2 := E1). intros i (I1 & I2 & I3). repeat (split; [first [assumption | exact Z0 | apply ascii_wft; reflexivity]|]). apply ascii_wft. reflexivity.
  - revert B. apply (map_deref_wf _ _ _) with (2 := E2). intros i (I1 & I2 & I3 & I4). split; [exact I2|]. split; assumption.
Qed.
Lemma to04x_wf {Iz : Z -> Prop} {Qp : ipnet -> Prop} (Z0 : Iz 0%Z) r v r' : wf_res100 Iz Qp r -> conv100_to04x (R100 r) v = Ok r' ->
  (exists x, r' = R040 x /\ wf_res040 Iz Qp x) /\ (In v v04 -> right_version r').
Proof.
  intros (A & B & C & D) H. unfold conv100_to04x in H. destruct (map_deref conv_if_to040 (v1_interfaces r)) as [l1|e|] eqn:E1; try discriminate. cbn [rbind] in H.
  destruct (map_deref conv_ipc_to040 (v1_ips r)) as [l2|e|] eqn:E2; try discriminate. cbn [rbind] in H. rewrite map_opt_copy, dns_copy_id in H.
  injection H as <-. split; [|intros K; exact K]. eexists. split; [reflexivity|]. split; [|split; [|split; [exact C|exact D]]]; cbn [v4_interfaces v4_ips].
  - revert A. apply (map_deref_wf _ _ _) with (2 := E1). intros i (I1 & I2 & I3 & I4 & _). split; [exact I1|]. split; assumption.
  - revert B. apply (map_deref_wf _ _ _) with (2 := E2). intros i (I1 & I2 & I3). split; [|split; [exact I1|split; assumption]].
    cbn [conv_ipc_to040 i4_version]. destruct (is4 _); apply ascii_wft; reflexivity.
Qed.
Lemma gv_wf_gen {Iz : Z -> Prop} {Qp : ipnet -> Prop} (Z0 : Iz 0%Z) r v r' : wf_result Iz Qp r -> get_as_version r v = Ok r' -> wf_result Iz Qp r'.
Proof.
  intros [W V] H. assert (G : exists w, In w known_versions /\ get_as_version r w = Ok r').
  { destruct (mem_str v known_versions) eqn:M; [apply mem_in in M; eauto|]. destruct (String.eqb_spec v "") as [->|NE].
    - exists "0.1.0". rewrite <- (proj2 (C35_empty_versions r "")). split; [now left|exact H].
    - destruct (C35_unknown_target r v V NE) as [e E]; [intros I; apply mem_in in I; congruence|congruence]. }
  clear v H. destruct G as (v & K & H). assert (K' : In v v02 \/ In v v04 \/ In v v10) by (cbn [In known_versions v02 v04 v10] in *; tauto). clear K.
  destruct r as [r|r|r]; unfold right_version in V; cbn [versions_of result_version wf_body] in *.
  - destruct K' as [K|[K|K]].
    + rewrite gv_020_020 in H by assumption. injection H as <-. split; [exact W|exact K].
    + rewrite gv_020_040 in H by assumption. injection H as <-. split; [now apply (up020_wf Z0)|exact K].
    + assert (H' := H). rewrite gv_020_100 in H' by assumption. injection H' as <-. split; [|exact K].
      destruct (up020_complete "0.4.0" r) as (P & Q & _). pose proof (from04x_wf Z0 _ v _ (up020_wf Z0 "0.4.0" r W) (conv100_from04x_eq _ _ P Q)) as [X _]. exact X.
  - destruct K' as [K|[K|K]].
    + rewrite gv_040_020 in H by assumption. destruct (conv040_to02x_wf Z0 _ _ _ W H). split; auto.
    + rewrite gv_040_040 in H by assumption. injection H as <-. split; [exact W|exact K].
    + rewrite gv_040_100 in H by assumption. destruct (from04x_wf Z0 _ _ _ W H). split; auto.
  - destruct K' as [K|[K|K]].
    + rewrite gv_100_020 in H by assumption. destruct (conv100_to04x (R100 r) "0.4.0") as [x|e|] eqn:E; try discriminate. cbn [rbind] in H.
      destruct (to04x_wf Z0 _ _ _ W E) as [(y & -> & Wy) _]. destruct (conv040_to02x_wf Z0 _ _ _ Wy H). split; auto.
    + rewrite gv_100_040 in H by assumption. destruct (to04x_wf Z0 _ _ _ W H) as [(y & -> & Wy) R]. split; auto.
    + rewrite gv_100_100 in H by assumption. injection H as <-. split; [exact W|exact K].
Qed.
Lemma gv_wf r v r' : wf_result exact prefix_form r -> get_as_version r v = Ok r' -> wf_result exact prefix_form r'.
Proof. apply gv_wf_gen. unfold exact. cbn. lia. Qed.
(** types.PrintResult: what a plugin prints for a requested version decodes to the converted result. *)
Theorem C39_print_result : forall r v text, wf_result exact prefix_form r -> print_result r v = Ok text ->
  exists r', get_as_version r v = Ok r' /\ wf_result exact prefix_form r' /\ create (result_version r') text = Ok r' /\ create_from_bytes text = Ok r'.
Proof.
  intros r v text W H. unfold print_result in H. destruct (get_as_version r v) as [r'|e|] eqn:G; try discriminate. cbn [rbind] in H.
  pose proof (gv_wf _ _ _ W G) as W'. exists r'. split; [reflexivity|]. split; [exact W'|].
  destruct (C39_round_trip r' (wf_exact_any _ W')) as (t & p & _ & _ & _ & P & A & B). rewrite P in H. injection H as <-. auto.
Qed.
(** What decoding can produce: the right version for its type, int64 numbers, text that is valid
    UTF-8, prefixes of [any_prefix]. *)
Theorem C39_decoded_form : forall v text r, create v text = Ok r -> wf_result int64 any_prefix r.
Proof. intros v text r H. apply create_inv in H as (j & _ & W & V & _). split; assumption. Qed.
(** So what decodes, encodes and decodes again to itself when its prefixes are in canonical form
    and, for 1.x, its integers are within 2^53. *)
Theorem C39_decode_encode_decode : forall v text r, create v text = Ok r -> wf_body (ints_for r) prefix_form r ->
  exists text', result_bytes r = Ok text' /\ create_from_bytes text' = Ok r.
Proof.
  intros v text r H W. pose proof (create_inv _ _ _ H) as (j & _ & _ & V & _).
  destruct (C39_round_trip r (conj W V)) as (t & p & E & _ & R & _). eauto.
Qed.
(** Outside those bounds the round trip fails, for documents plugins may print. *)
Theorem C39_big_integer_refuted : exists r text r', create_from_bytes "{""cniVersion"":""1.0.0"",""interfaces"":[{""name"":""e"",""mtu"":9007199254740993}]}" = Ok r /\
  wf_result int64 prefix_form r /\ result_bytes r = Ok text /\ create_from_bytes text = Ok r' /\ r' <> r.
Proof.
  pose (f m := R100 {| v1_version := "1.0.0"; v1_interfaces := [Some {| if1_name := "e"; if1_mac := ""; if1_mtu := m; if1_sandbox := ""; if1_socket := ""; if1_pci := "" |}];
    v1_ips := []; v1_routes := []; v1_dns := dns_zero |}).
  exists (f 9007199254740993%Z), "{""cniVersion"":""1.0.0"",""interfaces"":[{""mtu"":9007199254740992,""name"":""e""}]}", (f 9007199254740992%Z).
  split; [vm_compute; reflexivity|]. split; [|split; [vm_compute; reflexivity|split; [vm_compute; reflexivity|discriminate]]].
  split; [|cbn; auto]. split; [|split; [constructor|split; [constructor|]]].
  - constructor; [|constructor]. unfold wf_opt, wf_if100. cbn [if1_name if1_mac if1_mtu if1_sandbox if1_socket if1_pci].
    split; [apply ascii_wft; reflexivity|]. split; [apply ascii_wft; reflexivity|]. split; [unfold int64; lia|]. repeat (split; [apply ascii_wft; reflexivity|]). apply ascii_wft. reflexivity.
  - split; [constructor|]. split; [apply ascii_wft; reflexivity|]. split; constructor.
Qed.
Theorem C39_mapped_prefix_refuted : exists r text r', create_from_bytes "{""cniVersion"":""1.0.0"",""ips"":[{""address"":""::ffff:1.2.3.4/64""}]}" = Ok r /\
  result_bytes r = Ok text /\ text = "{""cniVersion"":""1.0.0"",""ips"":[{""address"":""1.2.3.4/0""}]}" /\ create_from_bytes text = Ok r' /\ r' <> r.
Proof.
  pose (f m := R100 {| v1_version := "1.0.0"; v1_interfaces := [];
    v1_ips := [Some {| i1_interface := None; i1_address := {| n_ip := v4in6 [1; 2; 3; 4]%N; n_mask := m |}; i1_gateway := [] |}]; v1_routes := []; v1_dns := dns_zero |}).
  exists (f (cidr_mask 64 128)), "{""cniVersion"":""1.0.0"",""ips"":[{""address"":""1.2.3.4/0""}]}", (f (cidr_mask 0 32)).
  split; [vm_compute; reflexivity|]. split; [vm_compute; reflexivity|]. split; [reflexivity|]. split; [vm_compute; reflexivity|]. vm_compute. discriminate.
Qed.
Theorem C39_missing_address_refuted : exists r text, create_from_bytes "{""cniVersion"":""0.4.0"",""ips"":[{""version"":""4""}]}" = Ok r /\
  result_bytes r = Ok text /\ is_panic (create_from_bytes text) = false /\ forall r', create_from_bytes text <> Ok r'.
Proof.
  exists (R040 {| v4_version := "0.4.0"; v4_interfaces := [];
    v4_ips := [Some {| i4_version := "4"; i4_interface := None; i4_address := ipnet_zero; i4_gateway := [] |}]; v4_routes := []; v4_dns := dns_zero |}),
    "{""cniVersion"":""0.4.0"",""ips"":[{""version"":""4"",""address"":""\u003cnil\u003e""}],""dns"":{}}".
  split; [vm_compute; reflexivity|]. split; [vm_compute; reflexivity|]. split; [vm_compute; reflexivity|].
  intros r'. vm_compute. discriminate.
Qed.

(** ** C41 *)
Lemma last_member_in k o x : last_member k o = Some x -> In (k, x) o.
Proof.
  induction o as [|[k' y] o IH]; [discriminate|]. cbn [last_member]. destruct (last_member k o) as [z|]; [intros H; injection H as ->; right; auto|].
  destruct (String.eqb_spec k k') as [->|]; [|discriminate]. intros H. injection H as ->. now left.
Qed.
(** Creating a result for a version succeeds only for one of the seven versions (or an empty one,
    as 0.1.0), gives the Go type that serves this version, and the version it reports is the
    document's (DecodeVersion), one that this type serves. *)
Theorem C41_create : forall v text r, create v text = Ok r ->
  (In v known_versions \/ v = "") /\ In (result_version r) (versions_of r) /\ In (if String.eqb v "" then "0.1.0" else v) (versions_of r) /\
  Types.decode_version text = Ok (result_version r).
Proof.
  intros v text r H. apply create_inv in H as (j & _ & _ & V & D & K). split; [|split; [exact V|split; [|exact D]]].
  - destruct K as [K|[K _]]; [left|now right]. destruct r; cbn [versions_of In known_versions] in *; tauto.
  - destruct K as [K|[-> K]]; [|destruct r; try easy; now left]. destruct (String.eqb_spec v "") as [->|]; [|exact K].
    exfalso. destruct r; cbn [versions_of In] in K; intuition discriminate.
Qed.
Theorem C41_create_from_bytes : forall text r, create_from_bytes text = Ok r ->
  In (result_version r) (versions_of r) /\ Types.decode_version text = Ok (result_version r).
Proof.
  intros text r H. unfold create_from_bytes in H. destruct (Types.decode_version text) as [v|e|] eqn:D; try discriminate. cbn [rbind] in H.
  destruct (C41_create v text r H) as (_ & V & _ & D'). rewrite D' in D. injection D as <-. auto.
Qed.
(** The document's version: the last member whose key matches cniVersion; empty or absent is 0.1.0. *)
Theorem C41_version_of_document : forall text o, parse text = Some (JObj o) -> only_spelling "cniVersion" o ->
  (forall w, last_member "cniVersion" o = Some (JStr w) -> (forall k x, In (k, x) o -> k = "cniVersion" -> exists s, x = JStr s) ->
     Types.decode_version text = Ok (if String.eqb w "" then "0.1.0" else w)) /\
  (last_member "cniVersion" o = None -> Types.decode_version text = Ok "0.1.0").
Proof.
  intros text o P S. unfold Types.decode_version. rewrite P. cbn [obind]. unfold dec_cni_version, decode_struct.
  assert (G : forall cur, (forall k x, In (k, x) o -> k = "cniVersion" -> exists s, x = JStr s) ->
    decode_members (fun v k x => if key_is "cniVersion" k then dec_string v x else Some v) cur o =
    Some match last_member "cniVersion" o with Some (JStr w) => w | _ => cur end).
  { clear P. revert S. induction o as [|[k x] o IH]; intros S cur A; [reflexivity|]. rewrite decode_members_cons. cbn [last_member].
    assert (S' : only_spelling "cniVersion" o) by (intros k' v' I; apply (S k' v'); now right).
    assert (A' : forall k x, In (k, x) o -> k = "cniVersion" -> exists s, x = JStr s) by (intros k' v' I; apply (A k' v'); now right).
    destruct (String.eqb_spec k "cniVersion") as [->|NE].
    - change (key_is "cniVersion" "cniVersion") with true. destruct (A "cniVersion" x) as [s ->]; [now left|reflexivity|]. cbn [dec_string].
      rewrite (IH S' s A'). destruct (last_member "cniVersion" o) as [y|] eqn:L; [|reflexivity].
      destruct (A' "cniVersion" y) as [s' ->]; [now apply last_member_in|reflexivity|reflexivity].
    - destruct (key_is "cniVersion" k) eqn:K; [exfalso; apply NE; apply (S k x); [now left|exact K]|].
      rewrite (IH S' cur A'). destruct (last_member "cniVersion" o); [reflexivity|].
      destruct (String.eqb_spec "cniVersion" k) as [E|_]; [congruence|reflexivity]. }
  split.
  - intros w L A. rewrite (G "" A), L. reflexivity.
  - intros L. rewrite G.
    + rewrite L. reflexivity.
    + intros k x I ->. exfalso. clear - L I. induction o as [|[k' x'] o IH]; [easy|]. cbn [last_member] in L.
      destruct (last_member "cniVersion" o) eqn:E; [discriminate|]. destruct I as [I|I]; [|apply IH; auto]. injection I as -> ->. cbn in L. discriminate.
Qed.
(** Any other version is refused, and nothing makes decoding panic. *)
Theorem C41_unsupported : forall v text, ~ In v known_versions -> v <> "" -> exists e, create v text = Err e.
Proof.
  intros v text N NE. destruct (create v text) as [r|e|] eqn:E; [|eauto|now apply create_no_panic in E].
  apply C41_create in E as [[K|K] _]; easy.
Qed.
Theorem C41_no_panic : forall v text, create v text <> Panic /\ create_from_bytes text <> Panic.
Proof.
  intros v text. split; [apply create_no_panic|]. unfold create_from_bytes, Types.decode_version. destruct (obind _ _); [apply create_no_panic|discriminate].
Qed.

(** ** The hypotheses are met *)
Definition X_net4 : ipnet := {| n_ip := v4in6 [10; 0; 0; 5]%N; n_mask := cidr_mask 24 32 |}.
Definition X_net6 : ipnet := {| n_ip := [32; 1; 13; 184; 0; 0; 0; 0; 0; 0; 0; 0; 0; 0; 0; 1]%N; n_mask := cidr_mask 64 128 |}.
Definition X_any4 : ipnet := {| n_ip := v4in6 [0; 0; 0; 0]%N; n_mask := cidr_mask 0 32 |}.
Definition X_gw4 : ip := v4in6 [10; 0; 0; 1]%N.
Definition X_dns : dns := {| d_nameservers := ["10.0.0.2"]; d_domain := "example.org"; d_search := []; d_options := ["ndots:2"] |}.
Definition X_route4 : route := {| r_dst := X_any4; r_gw := X_gw4; r_mtu := 1400; r_advmss := 0; r_priority := 7; r_table := Some 254%Z; r_scope := None |}.
Definition X_route6 : route := {| r_dst := X_net6; r_gw := []; r_mtu := 0; r_advmss := 0; r_priority := 0; r_table := None; r_scope := Some 0%Z |}.
Definition X_100 : res100 :=
  {| v1_version := "1.1.0";
     v1_interfaces := [Some {| if1_name := "eth0"; if1_mac := "00:11:22:33:44:55"; if1_mtu := 1500; if1_sandbox := "/run/netns/x"; if1_socket := "/s"; if1_pci := "" |}];
     v1_ips := [Some {| i1_interface := Some 0%Z; i1_address := X_net4; i1_gateway := X_gw4 |};
                Some {| i1_interface := None; i1_address := X_net6; i1_gateway := [] |};
                Some {| i1_interface := None; i1_address := X_any4; i1_gateway := [] |}];
     v1_routes := [Some X_route6; Some X_route4]; v1_dns := X_dns |}.
Definition X_040 : res040 := down100 "0.4.0" X_100.
Definition X_020 : res020 :=
  {| v2_version := "0.2.0"; v2_ip4 := Some {| i2_ip := X_net4; i2_gateway := X_gw4; i2_routes := [short X_route4] |};
     v2_ip6 := Some {| i2_ip := X_net6; i2_gateway := []; i2_routes := [short X_route6] |}; v2_dns := X_dns |}.
Lemma X_octets a b c d : (a < 256)%N -> (b < 256)%N -> (c < 256)%N -> (d < 256)%N -> octets [a; b; c; d].
Proof. intros A B C D. split; [reflexivity|]. repeat (constructor; [assumption|]). constructor. Qed.
Lemma X_forms : prefix_form X_net4 /\ prefix_form X_net6 /\ prefix_form X_any4 /\ wf_gw X_gw4 /\ wf_gw [].
Proof.
  split; [apply pf4; [now apply X_octets|easy]|]. split; [|split; [apply pf4; [now apply X_octets|easy]|split; [|now left]]].
  - apply pf6; [|vm_compute; reflexivity|easy]. split; [reflexivity|]. repeat (constructor; [reflexivity|]). constructor.
  - right. split; [reflexivity|]. unfold X_gw4. cbn. repeat (constructor; [reflexivity|]). constructor.
Qed.
Ltac X_exact := unfold exact; cbn; lia.
Lemma X_100_wf : wf_result exact prefix_form (R100 X_100).
Proof.
  destruct X_forms as (F4 & F6 & F0 & G & G0). split; [|cbn; auto]. split; [|split; [|split]].
  - constructor; [|constructor]. unfold wf_opt, wf_if100. cbn [if1_name if1_mac if1_mtu if1_sandbox if1_socket if1_pci].
    repeat (split; [first [X_exact | apply ascii_wft; reflexivity]|]). apply ascii_wft. reflexivity.
  - cbn [X_100 v1_ips]. constructor; [split; [X_exact|auto]|]. constructor; [split; [exact I|auto]|]. constructor; [split; [exact I|auto]|constructor].
  - cbn [X_100 v1_routes]. constructor; [|constructor; [|constructor]].
    + split; [exact F6|]. split; [exact G0|]. repeat (split; [X_exact|]). X_exact.
    + split; [exact F0|]. split; [exact G|]. repeat (split; [X_exact|]). exact I.
  - cbn [X_100 v1_dns X_dns]. split; [constructor; [apply ascii_wft; reflexivity|constructor]|]. split; [apply ascii_wft; reflexivity|].
    split; [constructor|]. constructor; [apply ascii_wft; reflexivity|constructor].
Qed.
Lemma X_100_complete : complete (R100 X_100).
Proof. cbn. intuition discriminate. Qed.
Example C35_nonvacuous : right_version (R100 X_100) /\ complete (R100 X_100) /\ has_usable_ip (R100 X_100) /\
  get_as_version (R100 X_100) "0.2.0" = Ok (R020 X_020).
Proof.
  split; [cbn; auto|]. split; [exact X_100_complete|]. split; [|vm_compute; reflexivity]. exists ("4", X_net4, X_gw4). split; [vm_compute; auto|now left].
Qed.
(** Down-conversion with no address of a known family does fail. *)
Example C35_no_address : get_as_version (R040 {| v4_version := "0.4.0"; v4_interfaces := []; v4_ips := []; v4_routes := []; v4_dns := X_dns |}) "0.2.0" =
  Err (EMsg "cannot convert: no valid IP addresses").
Proof. vm_compute. reflexivity. Qed.
Example C36_nonvacuous : families_match X_040 /\ complete (R040 X_040) /\ forget X_100 <> X_100 /\
  get_as_version (R100 X_100) "0.4.0" = Ok (R040 X_040) /\ get_as_version (R040 X_040) "1.1.0" = Ok (R100 (forget X_100)) /\
  own_routes "4" (v2_ip4 X_020) /\ own_routes "6" (v2_ip6 X_020) /\ own_address "4" (v2_ip4 X_020) /\ own_address "6" (v2_ip6 X_020).
Proof.
  split; [|split; [cbn; intuition discriminate|split; [discriminate|split; [vm_compute; reflexivity|split; [vm_compute; reflexivity|]]]]].
  - intros c. cbn. intros [H|[H|[H|[]]]]; injection H as <-; reflexivity.
  - split; [|split; [|split; reflexivity]]; cbn; intros q [<-|[]]; split; reflexivity.
Qed.
Example C37_nonvacuous : old_form "4" (R100 X_100) = Some {| i2_ip := X_net4; i2_gateway := X_gw4; i2_routes := [short X_route4] |} /\
  old_form "6" (R100 X_100) = Some {| i2_ip := X_net6; i2_gateway := []; i2_routes := [short X_route6] |}.
Proof. split; vm_compute; reflexivity. Qed.
Example C39_nonvacuous : exists text, result_bytes (R100 X_100) = Ok text /\ create_from_bytes text = Ok (R100 X_100) /\
  text = "{""cniVersion"":""1.1.0"",""dns"":{""domain"":""example.org"",""nameservers"":[""10.0.0.2""],""options"":[""ndots:2""]},""interfaces"":[{""mac"":""00:11:22:33:44:55"",""mtu"":1500,""name"":""eth0"",""sandbox"":""/run/netns/x"",""socketPath"":""/s""}],""ips"":[{""address"":""10.0.0.5/24"",""gateway"":""10.0.0.1"",""interface"":0},{""address"":""2001:db8::1/64""},{""address"":""0.0.0.0/0""}],""routes"":[{""dst"":""2001:db8::1/64"",""scope"":0},{""dst"":""0.0.0.0/0"",""gw"":""10.0.0.1"",""mtu"":1400,""priority"":7,""table"":254}]}".
Proof. eexists. split; [vm_compute; reflexivity|]. split; [vm_compute; reflexivity|reflexivity]. Qed.
Example C41_nonvacuous : create "0.4.0" "{""cniVersion"":""0.3.1"",""dns"":{}}" = 
  Ok (R040 {| v4_version := "0.3.1"; v4_interfaces := []; v4_ips := []; v4_routes := []; v4_dns := dns_zero |}) /\
  is_panic (create "0.4.0" "{""cniVersion"":""1.0.0""}") = false /\ (forall r, create "0.4.0" "{""cniVersion"":""1.0.0""}" <> Ok r).
Proof. split; [vm_compute; reflexivity|]. split; [vm_compute; reflexivity|]. intros r. vm_compute. discriminate. Qed.

Print Assumptions C35_reaches_every_version.
Print Assumptions C35_empty_versions.
Print Assumptions C35_unknown_target.
Print Assumptions C35_one_converter.
Print Assumptions C36_up_then_down.
Print Assumptions C36_down_then_up.
Print Assumptions C36_same_type.
Print Assumptions C36_old_up_then_down.
Print Assumptions C37_down_to_020.
Print Assumptions C38_no_panic.
Print Assumptions C38_decoded.
Print Assumptions C38_null_entry_refuted.
Print Assumptions C39_round_trip.
Print Assumptions C39_print_result.
Print Assumptions C39_decoded_form.
Print Assumptions C39_decode_encode_decode.
Print Assumptions C39_big_integer_refuted.
Print Assumptions C39_mapped_prefix_refuted.
Print Assumptions C39_missing_address_refuted.
Print Assumptions C41_create.
Print Assumptions C41_create_from_bytes.
Print Assumptions C41_version_of_document.
Print Assumptions C41_unsupported.
Print Assumptions C41_no_panic.
