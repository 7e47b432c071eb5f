(** C70: the form in which a program holds addresses does not matter. *)
From Coq Require Import String Ascii List Arith ZArith NArith Bool Lia.
From Verif Require Import Model.GoStr Model.Errors Model.Json Model.Num Model.GoJson Model.NetIP Model.Types
  Spec.NameSpec Spec.TypesSpec Spec.FormSpec Proofs.StrP Proofs.NetIPP Proofs.TypesP Properties.P_Types.
Import ListNotations.
Open Scope nat_scope.
Open Scope string_scope.

(** *** Text *)
Lemma to4_octets q : octets q -> to4 q = q.
Proof. intros [L _]. unfold to4. now rewrite L. Qed.
Lemma v4_to4 a q : v4_address a q -> to4 a = q.
Proof. intros [O [-> | ->]]; [now apply to4_octets|now apply to4_v4in6]. Qed.
Lemma v4_length a q : v4_address a q -> List.length a = 4 \/ List.length a = 16.
Proof. intros [O [-> | ->]]; [left; apply O|right; apply (v4in6_bytes _ O)]. Qed.
Lemma v4_string a q : v4_address a q -> ip_string a = ip4_string q.
Proof.
  intros V. pose proof (v4_to4 _ _ V) as T. pose proof (v4_length _ _ V) as L. destruct V as [[LQ _] _]. unfold ip_string. rewrite T.
  destruct a as [|x a]; [destruct L; discriminate|]. destruct q as [|y q]; [discriminate|]. destruct L as [-> | ->]; reflexivity.
Qed.
Lemma v4_prefix_string p q n : v4_prefix p q n -> ipnet_string p = ip4_string q ++ "/" ++ itoaN n.
Proof.
  intros (V & N & M). unfold ipnet_string, net_and_mask. rewrite (v4_to4 _ _ V). assert (O : octets q) by apply V.
  destruct q as [|x q0]; [destruct O; discriminate|]. set (q := x :: q0) in *. assert (LQ : List.length q = 4) by apply O.
  rewrite LQ. cbn [Nat.eqb].
  assert (S : simple_mask_length (cidr_mask n 32) = Some n) by (apply (mask_length 4); exact N).
  assert (IS : ip_string q = ip4_string q) by (apply v4_string; split; [exact O|now left]).
  destruct M as [M | [L M]].
  - rewrite M. replace (List.length (cidr_mask n 32)) with 4 by (symmetry; apply (cidr_length 4)). cbn [Nat.eqb]. now rewrite S, IS.
  - rewrite L, M. cbn [Nat.eqb]. now rewrite S, IS.
Qed.
Lemma same_ipnet p p' : same_prefix p p' -> enc_ipnet p = enc_ipnet p'.
Proof. intros [-> | (q & n & V & V')]; [reflexivity|]. unfold enc_ipnet. now rewrite (v4_prefix_string _ _ _ V), (v4_prefix_string _ _ _ V'). Qed.
Lemma v4_enc a q k : v4_address a q -> fld_ip k a = Some [(k, JStr (ip4_string q))].
Proof.
  intros V. pose proof (v4_length _ _ V) as L. pose proof (v4_string _ _ V) as S. unfold fld_ip, enc_ip.
  destruct a as [|x a]; [destruct L; discriminate|]. rewrite S. destruct L as [-> | ->]; reflexivity.
Qed.
Lemma same_fld k a b : same_address a b -> fld_ip k a = fld_ip k b.
Proof. intros [-> | (q & V & V')]; [reflexivity|]. now rewrite (v4_enc _ _ k V), (v4_enc _ _ k V'). Qed.
Lemma same_enc_route r r' : same_route r r' -> enc_route r = enc_route r'.
Proof.
  intros (D & G & M & A & P & T & S). unfold enc_route. rewrite (same_fld "gw" _ _ G), (same_ipnet _ _ D), M, A, P, T, S. reflexivity.
Qed.
Lemma omap_same {A} (f : A -> option json) (R : A -> A -> Prop) l l' : (forall a b, R a b -> f a = f b) -> Forall2 R l l' -> omap_list f l = omap_list f l'.
Proof. intros H. induction 1 as [|a b l l' AB F IH]; [reflexivity|]. cbn [omap_list]. now rewrite (H _ _ AB), IH. Qed.
Lemma enc_opt_same {A} (f : A -> option json) (R : A -> A -> Prop) : (forall a b, R a b -> f a = f b) -> forall o o', same_opt R o o' -> enc_opt f o = enc_opt f o'.
Proof. intros H [a|] [b|] S; try contradiction; [now apply H|reflexivity]. Qed.
Lemma same_enc_ipc020 c c' : same_ipc020 c c' -> enc_ipc020 c = enc_ipc020 c'.
Proof.
  intros (P & G & R). unfold enc_ipc020. rewrite (same_fld _ _ _ G), (omap_same _ _ _ _ same_enc_route R), (same_ipnet _ _ P). reflexivity.
Qed.
Lemma same_enc_ipc040 c c' : same_ipc040 c c' -> enc_ipc040 c = enc_ipc040 c'.
Proof. intros (V & I & P & G). unfold enc_ipc040. rewrite (same_fld _ _ _ G), (same_ipnet _ _ P), V, I. reflexivity. Qed.
Lemma same_enc_ipc100 c c' : same_ipc100 c c' -> enc_ipc100 c = enc_ipc100 c'.
Proof. intros (I & P & G). unfold enc_ipc100. rewrite (same_fld _ _ _ G), (same_ipnet _ _ P), I. reflexivity. Qed.
Lemma same_enc r r' : same_result r r' -> enc_result r = enc_result r'.
Proof.
  destruct r as [r|r|r], r' as [r'|r'|r']; try contradiction; cbn [same_result enc_result].
  - intros (V & A & B & D). unfold enc_res020. rewrite V, D.
    assert (H : forall k o o', same_opt same_ipc020 o o' -> fld_ipc020 k o = fld_ipc020 k o').
    { intros k [c|] [c'|] S; try contradiction; [|reflexivity]. cbn [fld_ipc020]. now rewrite (same_enc_ipc020 _ _ S). }
    now rewrite (H "ip4" _ _ A), (H "ip6" _ _ B).
  - intros (V & IF & IP & R & D). unfold enc_res040. rewrite V, IF, D.
    rewrite (omap_same _ _ _ _ (enc_opt_same _ _ same_enc_ipc040) IP), (omap_same _ _ _ _ (enc_opt_same _ _ same_enc_route) R). reflexivity.
  - intros (V & IF & IP & R & D). unfold enc_res100, enc_res100_plain. rewrite V, IF, D.
    rewrite (omap_same _ _ _ _ (enc_opt_same _ _ same_enc_ipc100) IP), (omap_same _ _ _ _ (enc_opt_same _ _ same_enc_route) R). reflexivity.
Qed.

(** *** Conversion *)
Lemma same_is4 p p' : same_prefix p p' -> is4 (n_ip p) = is4 (n_ip p').
Proof. intros [-> | (q & n & V & V')]; [reflexivity|]. unfold is4. now rewrite (v4_to4 _ _ (proj1 V)), (v4_to4 _ _ (proj1 V')). Qed.
Lemma same_address_refl a : same_address a a. Proof. now left. Qed.
Lemma same_prefix_refl p : same_prefix p p. Proof. now left. Qed.
Lemma same_route_refl r : same_route r r.
Proof. repeat split; apply same_prefix_refl || apply same_address_refl. Qed.
Lemma same_copy r r' : same_route r r' -> same_route (route_copy r) (route_copy r').
Proof. exact (fun H => H). Qed.
Lemma same_short r r' : same_route r r' -> same_route (short_route r) (short_route r').
Proof. intros (D & G & _). repeat split; assumption. Qed.
Lemma Forall2_mapped {A B} (R : A -> A -> Prop) (S : B -> B -> Prop) (f : A -> B) l l' :
  (forall a b, R a b -> S (f a) (f b)) -> Forall2 R l l' -> Forall2 S (map f l) (map f l').
Proof. intros H. induction 1; cbn [map]; constructor; auto. Qed.
Lemma same_opt_map {A B} (R : A -> A -> Prop) (S : B -> B -> Prop) (f : A -> B) : (forall a b, R a b -> S (f a) (f b)) ->
  forall o o', same_opt R o o' -> same_opt S (option_map f o) (option_map f o').
Proof. intros H [a|] [b|] E; try contradiction; [now apply H|exact E]. Qed.
Lemma bind_same {A B} (R : A -> A -> Prop) (S : B -> B -> Prop) x y (f g : A -> res B) : same_outcome R x y ->
  (forall a b, R a b -> same_outcome S (f a) (g b)) -> same_outcome S (rbind x f) (rbind y g).
Proof. destruct x, y; cbn [same_outcome rbind]; intros H F; try contradiction; auto. Qed.
Lemma deref_same {A B} (R : A -> A -> Prop) (S : B -> B -> Prop) (f : A -> B) : (forall a b, R a b -> S (f a) (f b)) ->
  forall l l', Forall2 (same_opt R) l l' -> same_outcome (Forall2 (same_opt S)) (map_deref f l) (map_deref f l').
Proof.
  intros H. induction 1 as [|[a|] [b|] l l' AB F IH]; try contradiction; cbn [map_deref].
  - constructor.
  - eapply bind_same; [exact IH|]. intros u u' U. constructor; [now apply H|exact U].
  - exact Logic.I.
Qed.
Definition pair_same (x y : option ipc020 * option ipc020) : Prop := same_opt same_ipc020 (fst x) (fst y) /\ same_opt same_ipc020 (snd x) (snd y).
Lemma to02_ips_same l l' : Forall2 (same_opt same_ipc040) l l' -> forall a a' b b', same_opt same_ipc020 a a' -> same_opt same_ipc020 b b' ->
  same_outcome pair_same (to02x_ips l a b) (to02x_ips l' a' b').
Proof.
  induction 1 as [|[c|] [c'|] l l' C F IH]; intros a a' b b' A B; try contradiction; cbn [to02x_ips].
  - split; assumption.
  - destruct C as (V & _ & P & G). rewrite V.
    assert (K : same_ipc020 {| i2_ip := i4_address c; i2_gateway := i4_gateway c; i2_routes := [] |} {| i2_ip := i4_address c'; i2_gateway := i4_gateway c'; i2_routes := [] |})
      by (repeat split; auto; constructor).
    assert (SA : is_some a = is_some a') by (destruct a, a'; try contradiction; reflexivity).
    assert (SB : is_some b = is_some b') by (destruct b, b'; try contradiction; reflexivity).
    rewrite SA, SB. destruct (String.eqb (i4_version c') "4" && negb (is_some a')).
    { destruct b, b'; try contradiction; [split; assumption|]. apply IH; assumption. }
    destruct (String.eqb (i4_version c') "6" && negb (is_some b')).
    { destruct a, a'; try contradiction; [split; assumption|]. apply IH; assumption. }
    destruct a, a'; try contradiction; [destruct b, b'; try contradiction; [split; assumption|]|]; apply IH; assumption.
  - exact Logic.I.
Qed.
Lemma to02_routes_same l l' : Forall2 (same_opt same_route) l l' -> forall a a' b b', same_opt same_ipc020 a a' -> same_opt same_ipc020 b b' ->
  same_outcome pair_same (to02x_routes l a b) (to02x_routes l' a' b').
Proof.
  assert (AR : forall c c' r r', same_ipc020 c c' -> same_route r r' -> same_ipc020 (add_route c (short_route r)) (add_route c' (short_route r'))).
  { intros c c' r r' (P & G & R) S. repeat split; [exact P|exact G|]. cbn [i2_routes add_route]. apply Forall2_app; [exact R|]. constructor; [now apply same_short|constructor]. }
  induction 1 as [|[r|] [r'|] l l' C F IH]; intros a a' b b' A B; try contradiction; cbn [to02x_routes].
  - split; assumption.
  - rewrite (same_is4 _ _ (proj1 C)). destruct (is4 (n_ip (r_dst r'))).
    + destruct a, a'; try contradiction; apply IH; try assumption. now apply AR.
    + destruct b, b'; try contradiction; apply IH; try assumption. now apply AR.
  - exact Logic.I.
Qed.
Lemma same_version r r' : same_result r r' -> result_version r = result_version r'.
Proof. destruct r, r'; try contradiction; intros H; apply H. Qed.
Lemma same_set v r r' : same_result r r' -> same_result (set_version v r) (set_version v r').
Proof. destruct r, r'; try contradiction; intros (_ & H); (split; [reflexivity|exact H]). Qed.
Lemma refl_opt {A} (R : A -> A -> Prop) : (forall a, R a a) -> forall o, same_opt R o o.
Proof. intros H [a|]; [apply H|exact Logic.I]. Qed.
Lemma Forall2_same {A} (R : A -> A -> Prop) : (forall a, R a a) -> forall l, Forall2 R l l.
Proof. intros H l. induction l; constructor; auto. Qed.

Lemma from02_same r r' v : same_result r r' -> same_outcome same_result (conv040_from02x r v) (conv040_from02x r' v).
Proof.
  destruct r as [r|r|r], r' as [r'|r'|r']; try contradiction; intros H; try exact Logic.I. destruct H as (_ & A & B & D). cbn [conv040_from02x].
  assert (RC : forall l l', Forall2 same_route l l' -> Forall2 (same_opt same_route) (map (fun x => Some (route_copy x)) l) (map (fun x => Some (route_copy x)) l'))
    by (intros l l' F; eapply Forall2_mapped; [|exact F]; intros a b S; exact S).
  assert (CC : forall c c' s, same_ipc020 c c' -> same_ipc040 (conv020_ipc c s) (conv020_ipc c' s)) by (intros c c' s (P & G & _); repeat split; assumption).
  assert (ONE : forall c c' s, same_ipc020 c c' -> Forall2 (same_opt same_ipc040) [Some (conv020_ipc c s)] [Some (conv020_ipc c' s)])
    by (intros c c' s S; constructor; [now apply CC|constructor]).
  destruct (v2_ip4 r) as [c|], (v2_ip4 r') as [c'|]; try contradiction; destruct (v2_ip6 r) as [d|], (v2_ip6 r') as [d'|]; try contradiction;
    cbn [same_outcome same_result v4_version v4_interfaces v4_ips v4_routes v4_dns]; (split; [reflexivity|]); (split; [reflexivity|]); (split; [|split; [|now rewrite D]]);
    repeat apply Forall2_app; try (apply ONE; assumption); try (apply RC; first [apply A|apply B]); constructor.
Qed.
Lemma internal_same r r' v : same_result r r' -> same_outcome same_result (conv040_internal r v) (conv040_internal r' v).
Proof.
  destruct r as [r|r|r], r' as [r'|r'|r']; try contradiction; intros H; try exact Logic.I. destruct H as (_ & IF & IP & R & D).
  repeat split; auto; [|cbn [v4_dns]; now rewrite D]. cbn [v4_routes]. eapply Forall2_mapped; [|exact R]. intros [a|] [b|] S; exact S.
Qed.
Lemma to02_same r r' v : same_result r r' -> same_outcome same_result (conv040_to02x r v) (conv040_to02x r' v).
Proof.
  destruct r as [r|r|r], r' as [r'|r'|r']; try contradiction; intros H; try exact Logic.I. destruct H as (_ & IF & IP & R & D). cbn [conv040_to02x].
  eapply bind_same; [apply (to02_ips_same _ _ IP None None None None); exact Logic.I|]. intros [a b] [a' b'] [A B].
  eapply bind_same; [apply (to02_routes_same _ _ R); assumption|]. cbn [fst snd] in *. intros [c d] [c' d'] [C E]. cbn [fst snd] in *.
  destruct c, c'; try contradiction; destruct d, d'; try contradiction; cbn [same_outcome]; try reflexivity; (split; [reflexivity|]);
    (split; [exact C|]); (split; [exact E|]); cbn [v2_dns]; now rewrite D.
Qed.
Lemma from04_same r r' v : same_result r r' -> same_outcome same_result (conv100_from04x r v) (conv100_from04x r' v).
Proof.
  destruct r as [r|r|r], r' as [r'|r'|r']; try contradiction; intros H; try exact Logic.I. destruct H as (_ & IF & IP & R & D). cbn [conv100_from04x]. rewrite IF.
  destruct (map_deref conv_if_from040 (v4_interfaces r')) as [ifs|e|]; [|reflexivity|exact Logic.I]. cbn [rbind].
  eapply bind_same; [eapply deref_same; [|exact IP]|].
  - intros a b S. instantiate (1 := same_ipc100). destruct S as (_ & I & P & G). repeat split; assumption.
  - intros a b F. repeat split; auto; [|cbn [v1_dns]; now rewrite D]. cbn [v1_routes]. eapply Forall2_mapped; [|exact R]. intros [x|] [y|] S; exact S.
Qed.
Lemma to04_same r r' v : same_result r r' -> same_outcome same_result (conv100_to04x r v) (conv100_to04x r' v).
Proof.
  destruct r as [r|r|r], r' as [r'|r'|r']; try contradiction; intros H; try exact Logic.I. destruct H as (_ & IF & IP & R & D). cbn [conv100_to04x]. rewrite IF.
  destruct (map_deref conv_if_to040 (v1_interfaces r')) as [ifs|e|]; [|reflexivity|exact Logic.I]. cbn [rbind].
  eapply bind_same; [eapply deref_same; [|exact IP]|].
  - intros a b S. instantiate (1 := same_ipc040). destruct S as (I & P & G). repeat split; try assumption. cbn [i4_version conv_ipc_to040]. now rewrite (same_is4 _ _ P).
  - intros a b F. repeat split; auto; [|cbn [v4_dns]; now rewrite D]. cbn [v4_routes]. eapply Forall2_mapped; [|exact R]. intros [x|] [y|] S; exact S.
Qed.
Lemma from100_same r r' v : same_result r r' -> same_outcome same_result (conv100_from100 r v) (conv100_from100 r' v).
Proof.
  destruct r as [r|r|r], r' as [r'|r'|r']; try contradiction; intros H; try exact Logic.I. destruct H as (_ & H). split; [reflexivity|exact H].
Qed.
Lemma conv010_same o u r r' v : same_result r r' -> same_outcome same_result (conv010 o u r v) (conv010 o u r' v).
Proof.
  intros H. unfold conv010. destruct (negb (String.eqb v o)); [exact Logic.I|]. destruct r as [r|r|r], r' as [r'|r'|r']; try contradiction; try exact Logic.I.
  destruct H as (_ & A & B & D).
  assert (CC : forall a b, same_ipc020 a b -> same_ipc020 (ipc020_copy a) (ipc020_copy b)).
  { intros a b (P & G & R). repeat split; try assumption. cbn [i2_routes ipc020_copy]. eapply Forall2_mapped; [|exact R]. intros x y S; exact S. }
  split; [reflexivity|]. split; [exact (same_opt_map _ _ _ CC _ _ A)|]. split; [exact (same_opt_map _ _ _ CC _ _ B)|]. cbn [v2_dns]. now rewrite D.
Qed.
Lemma convert_same f : forall r r' v, same_result r r' -> same_outcome same_result (convert_fuel f r v) (convert_fuel f r' v).
Proof.
  induction f as [|f IH]; intros r r' v H; [exact Logic.I|]. cbn [convert_fuel]. cbv zeta. rewrite (same_version _ _ H).
  set (u := if String.eqb v "" then "0.1.0" else v). destruct (String.eqb (result_version r') u); [exact H|].
  destruct (find_converter converters (result_version r') u) as [c|]; [|reflexivity].
  destruct (c_fn c); auto using conv010_same, from02_same, internal_same, to02_same, from100_same, from04_same, to04_same.
  - eapply bind_same; [apply IH; exact H|]. intros a b S. now apply from04_same.
  - eapply bind_same; [apply to04_same; exact H|]. intros a b S. now apply IH.
Qed.

(** *** The property *)
(** Written alike, in compact and indented form: also the same error, if an address has no form. *)
Theorem C70_same_text : forall r r', same_result r r' -> result_bytes r = result_bytes r' /\ result_print r = result_print r'.
Proof. intros r r' H. unfold result_bytes, result_print. now rewrite (same_enc _ _ H). Qed.
(** Converted alike, to any version; printed alike in any version. *)
Theorem C70_conversion : forall r r' v, same_result r r' -> same_outcome same_result (get_as_version r v) (get_as_version r' v).
Proof.
  intros r r' v H. unfold get_as_version, convert. cbv zeta. apply convert_same. rewrite (same_version _ _ H).
  destruct (String.eqb (result_version r') ""); [|exact H]. assert (E : implemented_version r = implemented_version r') by (destruct r, r'; try contradiction; reflexivity).
  rewrite E. now apply same_set.
Qed.
Theorem C70_print_result : forall r r' v, same_result r r' -> print_result r v = print_result r' v.
Proof.
  intros r r' v H. unfold print_result. pose proof (C70_conversion r r' v H) as C.
  destruct (get_as_version r v) as [a|e|], (get_as_version r' v) as [b|e'|]; cbn [same_outcome rbind] in *; try contradiction; try congruence; try reflexivity.
  exact (proj2 (C70_same_text _ _ C)).
Qed.
(** What is written reads back in the form documents are read in. *)
Theorem C70_read_back : forall r r', same_result r r' -> wf_result (ints_for r') prefix_form r' -> exists text pretty,
  result_bytes r = Ok text /\ create_from_bytes text = Ok r' /\ result_print r = Ok pretty /\ create_from_bytes pretty = Ok r'.
Proof.
  intros r r' H W. destruct (C39_round_trip r' W) as (t & p & T & _ & CT & P & _ & CP). destruct (C70_same_text r r' H) as [E E'].
  exists t, p. rewrite E, E'. auto.
Qed.
(** [widen] gives that form: the same addresses, for every result it makes well-formed. *)
Lemma widen_gw a : wf_gw (widen_address a) -> same_address a (widen_address a).
Proof.
  unfold widen_address. destruct (List.length a =? 4)%nat eqn:L; [|now left]. apply Nat.eqb_eq in L. intros [E | [_ B]].
  { destruct a; [discriminate L|]. cbn in E. discriminate E. }
  right. exists a. assert (O : octets a). { split; [exact L|]. unfold v4in6 in B. apply Forall_app in B as [_ B]. apply Forall_app in B as [_ B]. exact B. }
  split; (split; [exact O|]); [now left|now right].
Qed.
Lemma widen_ipnet p : prefix_form (widen_prefix p) -> same_prefix p (widen_prefix p).
Proof.
  intros H. remember (widen_prefix p) as w eqn:W. assert (WI : n_ip w = widen_address (n_ip p)) by now rewrite W.
  assert (WM : n_mask w = match to4 (n_ip p) with [] => n_mask p | _ => if (List.length (n_mask p) =? 16)%nat then skipn 12 (n_mask p) else n_mask p end) by now rewrite W.
  destruct H as [q n O N|a n B T N]; cbn [n_ip n_mask] in *.
  - right. exists q, n. assert (VA : v4_address (n_ip p) q).
    { split; [exact O|]. unfold widen_address in WI. destruct (List.length (n_ip p) =? 4)%nat; [left|now right; symmetry].
      unfold v4in6 in WI. apply app_inv_head in WI. apply app_inv_head in WI. now symmetry. }
    split.
    + split; [exact VA|]. split; [exact N|]. rewrite (v4_to4 _ _ VA) in WM. destruct q as [|y q]; [destruct O; discriminate|].
      destruct (List.length (n_mask p) =? 16)%nat eqn:L; [|now left; symmetry]. apply Nat.eqb_eq in L. right. split; [exact L|now symmetry].
    + split; [split; [exact O|now right]|]. split; [exact N|now left].
  - left. destruct p as [i m]. cbn [n_ip n_mask] in *. unfold widen_address in WI. destruct (List.length i =? 4)%nat eqn:L.
    { apply Nat.eqb_eq in L. exfalso. rewrite WI in T. unfold to4 in T. unfold v4in6 in T. rewrite !app_length, repeat_length in T. cbn [List.length] in T.
      rewrite L in T. cbn [Nat.add Nat.eqb repeat app firstn skipn forallb andb N.eqb Pos.eqb] in T. subst i. discriminate L. }
    subst i. rewrite T in WM. now subst m.
Qed.
Lemma widen_route_same I r : wf_route I prefix_form (widen_route r) -> same_route r (widen_route r).
Proof. intros (D & G & _). repeat split; [now apply widen_ipnet|now apply widen_gw]. Qed.
Lemma widen_list {A} (R : A -> A -> Prop) (P : A -> Prop) f l : (forall a, P (f a) -> R a (f a)) -> Forall P (map f l) -> Forall2 R l (map f l).
Proof. intros H. induction l as [|a l IH]; cbn [map]; intros F; [constructor|]. apply Forall_cons_iff in F as [X F]. constructor; auto. Qed.
Lemma widen_opt {A} (R : A -> A -> Prop) (P : A -> Prop) f : (forall a, P (f a) -> R a (f a)) -> forall o, wf_opt P (option_map f o) -> same_opt R o (option_map f o).
Proof. intros H [a|] X; [now apply H|exact Logic.I]. Qed.
Theorem C70_forms : forall r I, wf_result I prefix_form (widen r) -> same_result r (widen r).
Proof.
  intros r I [W _]. destruct r as [r|r|r]; cbn [widen same_result wf_body] in *.
  - destruct W as (A & B & _). cbn [v2_ip4 v2_ip6 v2_version v2_dns] in *. split; [reflexivity|]. split; [|split; [|reflexivity]]; eapply widen_opt; try eassumption;
      intros c (P & G & R); (repeat split; [now apply widen_ipnet|now apply widen_gw|]); cbn [i2_routes] in *; eapply widen_list; [|exact R| |exact R]; apply widen_route_same.
  - destruct W as (_ & IP & R & _). cbn [v4_version v4_interfaces v4_ips v4_routes v4_dns] in *. split; [reflexivity|]. split; [reflexivity|]. split; [|split; [|reflexivity]].
    + eapply widen_list; [|exact IP]. apply widen_opt. intros c (_ & _ & P & G). repeat split; [now apply widen_ipnet|now apply widen_gw].
    + eapply widen_list; [|exact R]. apply widen_opt. apply widen_route_same.
  - destruct W as (_ & IP & R & _). cbn [v1_version v1_interfaces v1_ips v1_routes v1_dns] in *. split; [reflexivity|]. split; [reflexivity|]. split; [|split; [|reflexivity]].
    + eapply widen_list; [|exact IP]. apply widen_opt. intros c (_ & P & G). repeat split; [now apply widen_ipnet|now apply widen_gw].
    + eapply widen_list; [|exact R]. apply widen_opt. apply widen_route_same.
Qed.
(** *** An example: an IPv4 address, mask and gateway in four bytes, as Go's To4 leaves them. *)
Definition form_short : result := R100 {| v1_version := "1.0.0"; v1_interfaces := [];
  v1_ips := [Some {| i1_interface := None; i1_address := {| n_ip := [10; 1; 2; 3]%N; n_mask := [255; 255; 0; 0]%N |}; i1_gateway := [10; 1; 0; 1]%N |};
             Some {| i1_interface := None; i1_address := {| n_ip := [10; 1; 2; 4]%N; n_mask := (repeat 255 14 ++ [0; 0])%list%N |}; i1_gateway := [] |}];
  v1_routes := [Some {| r_dst := {| n_ip := [0; 0; 0; 0]%N; n_mask := [0; 0; 0; 0]%N |}; r_gw := [10; 1; 0; 1]%N; r_mtu := 0; r_advmss := 0; r_priority := 0; r_table := None; r_scope := None |}];
  v1_dns := {| d_nameservers := []; d_domain := ""; d_search := []; d_options := [] |} |}.
Theorem C70_nonvacuous :
  same_result form_short (widen form_short) /\ widen form_short <> form_short /\ wf_result exact prefix_form (widen form_short) /\
  result_bytes form_short = Ok "{""cniVersion"":""1.0.0"",""ips"":[{""address"":""10.1.2.3/16"",""gateway"":""10.1.0.1""},{""address"":""10.1.2.4/16""}],""routes"":[{""dst"":""0.0.0.0/0"",""gw"":""10.1.0.1""}]}" /\
  (exists r2, get_as_version form_short "0.2.0" = Ok (R020 r2) /\ v2_ip4 r2 <> None /\ v2_ip6 r2 = None).
Proof.
  assert (W : wf_result exact prefix_form (widen form_short)).
  { assert (P : forall q n, octets q -> (n <= 32)%N -> prefix_form {| n_ip := v4in6 q; n_mask := cidr_mask n 32 |}) by (intros; now constructor).
    assert (OC : forall a b c d, (a < 256)%N -> (b < 256)%N -> (c < 256)%N -> (d < 256)%N -> octets [a; b; c; d]) by (intros; split; [reflexivity|repeat constructor; assumption]).
    assert (E : exact 0) by (vm_compute; discriminate).
    split; [|now left]. cbn [widen form_short wf_body v1_interfaces v1_ips v1_routes v1_dns]. split; [constructor|]. split; [|split].
    - constructor; [|constructor; [|constructor]]; (split; [exact Logic.I|]); split.
      + exact (P [10; 1; 2; 3]%N 16%N ltac:(now apply OC) ltac:(discriminate)).
      + right. exact (v4in6_bytes [10; 1; 0; 1]%N ltac:(now apply OC)).
      + exact (P [10; 1; 2; 4]%N 16%N ltac:(now apply OC) ltac:(discriminate)).
      + now left.
    - constructor; [|constructor]. split; [exact (P [0; 0; 0; 0]%N 0%N ltac:(now apply OC) ltac:(discriminate))|].
      split; [right; exact (v4in6_bytes [10; 1; 0; 1]%N ltac:(now apply OC))|]. repeat split; exact E.
    - repeat split; constructor. }
  split; [eapply C70_forms; exact W|]. split; [discriminate|]. split; [exact W|]. split; [vm_compute; reflexivity|].
  eexists. split; [vm_compute; reflexivity|]. split; [discriminate|reflexivity].
Qed.
Print Assumptions C70_same_text.
Print Assumptions C70_conversion.
Print Assumptions C70_print_result.
Print Assumptions C70_read_back.
Print Assumptions C70_forms.
Print Assumptions C70_nonvacuous.
