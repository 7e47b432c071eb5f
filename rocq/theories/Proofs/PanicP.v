(** When conversion panics (C38). *)
From Coq Require Import String List Bool ZArith.
From Verif Require Import Model.GoStr Model.Errors Model.NetIP Model.Types Spec.TypesSpec Spec.PanicSpec
  Proofs.StrP Proofs.ConvP.
Import ListNotations.
Open Scope nat_scope.
Open Scope string_scope.

Lemma none_dec {A} (l : list (option A)) : In None l \/ ~ In None l.
Proof.
  induction l as [|[a|] l [I|N]]; [right; easy| | | |]; try (left; now (left + right)); try (left; now left); try (left; right; exact I).
  right. intros [X|X]; [discriminate|easy].
Qed.
Lemma map_deref_panics {A B} (f : A -> B) l : map_deref f l = Panic <-> In None l.
Proof.
  split; [|apply map_deref_panic]. intros H. destruct (none_dec l) as [I|N]; [exact I|]. rewrite map_deref_ok in H by exact N. discriminate.
Qed.
Lemma map_deref_cases {A B} (f : A -> B) l : (In None l /\ map_deref f l = Panic) \/ (~ In None l /\ exists l', map_deref f l = Ok l').
Proof.
  destruct (none_dec l) as [I|N]; [left|right]; (split; [assumption|]); [now apply map_deref_panic|rewrite map_deref_ok by exact N; eauto].
Qed.
Definition opened {A} (f : string) (o : option A) (l : list (option ipc040)) : Prop := o <> None \/ lists_family f l.
Lemma family_dec f l : lists_family f l \/ ~ lists_family f l.
Proof.
  induction l as [|[c|] l [(d & I & E)|N]].
  - right. intros (c & [] & _).
  - left. exists d. split; [now right|exact E].
  - destruct (string_dec (i4_version c) f) as [E|NE]; [left; exists c; split; [now left|exact E]|right].
    intros (d & [I|I] & E); [injection I as ->; easy|]. apply N. now exists d.
  - left. exists d. split; [now right|exact E].
  - right. intros (d & [I|I] & E); [discriminate|]. apply N. now exists d.
Qed.
(** The loop over the addresses panics exactly if a nil comes before both families. *)
Definition early (a b : option ipc020) (l : list (option ipc040)) : Prop :=
  exists l1 l2, l = (l1 ++ None :: l2)%list /\ ~ (opened "4" a l1 /\ opened "6" b l1).
Lemma opened_cons {A} f (a : option A) c l : opened f a (c :: l) <-> (a <> None \/ (exists d, c = Some d /\ i4_version d = f)) \/ lists_family f l.
Proof.
  unfold opened, lists_family. split.
  - intros [H|(d & [H|H] & E)]; [now left; left|left; right; exists d; split; [now symmetry|exact E]|right; now exists d].
  - intros [[H|(d & -> & E)]|(d & I & E)]; [now left|right; exists d; split; [now left|exact E]|right; exists d; split; [now right|exact E]].
Qed.
Lemma early_ext (a a' b b' : option ipc020) l : (a = None <-> a' = None) -> (b = None <-> b' = None) -> early a b l -> early a' b' l.
Proof.
  intros A B (l1 & l2 & E & N). exists l1, l2. split; [exact E|]. intros [H1 H2]. apply N. unfold opened in *. split; [destruct H1 as [H|H]; [left; tauto|now right]|destruct H2 as [H|H]; [left; tauto|now right]].
Qed.
Lemma opened_step {A} f (a a' : option A) d l : (a' <> None <-> a <> None \/ i4_version d = f) -> (opened f a (Some d :: l) <-> opened f a' l).
Proof.
  intros H. rewrite opened_cons. unfold opened. split.
  - intros [[K|(e & E & K)]|K]; [left; tauto|left; injection E as ->; tauto|now right].
  - intros [K|K]; [apply H in K as [K|K]; [now left; left|left; right; exists d; split; [reflexivity|exact K]]|now right].
Qed.
Lemma to02x_ips_panics l : forall a b, (a = None \/ b = None) -> (to02x_ips l a b = Panic <-> early a b l).
Proof.
  induction l as [|[c|] l IH]; intros a b AB.
  - cbn [to02x_ips]. split; [discriminate|]. intros (l1 & l2 & E & _). destruct l1; discriminate.
  - cbn [to02x_ips]. set (cv := {| i2_ip := i4_address c; i2_gateway := i4_gateway c; i2_routes := [] |}).
    destruct (if String.eqb (i4_version c) "4" && negb (is_some a) then (Some cv, b)
        else if String.eqb (i4_version c) "6" && negb (is_some b) then (a, Some cv) else (a, b)) as [a' b'] eqn:E.
    assert (HA : a' <> None <-> a <> None \/ i4_version c = "4").
    { destruct (String.eqb_spec (i4_version c) "4") as [E4|N4].
      - destruct a as [x|]; cbn [is_some negb andb] in E.
        + destruct (String.eqb (i4_version c) "6" && negb (is_some b)); injection E as <- <-; split; intros; [now left|discriminate|now left|discriminate].
        + injection E as <- <-. split; intros; [now right|discriminate].
      - cbn [andb] in E. destruct (String.eqb (i4_version c) "6" && negb (is_some b)); injection E as <- <-; tauto. }
    assert (HB : b' <> None <-> b <> None \/ i4_version c = "6").
    { destruct (String.eqb_spec (i4_version c) "4") as [E4|N4].
      - assert (N6 : i4_version c <> "6") by (rewrite E4; discriminate). destruct (String.eqb_spec (i4_version c) "6"); [easy|].
        destruct a as [x|]; cbn [is_some negb andb] in E; injection E as <- <-; tauto.
      - cbn [andb] in E. destruct (String.eqb_spec (i4_version c) "6") as [E6|N6]; cbn [andb] in E; [|injection E as <- <-; tauto].
        destruct b as [y|]; cbn [is_some negb] in E; injection E as <- <-; split; intros; (now left + now right + discriminate). }
    clear E. assert (ST : early a b (Some c :: l) <-> early a' b' l).
    { split.
      - intros (l1 & l2 & E & N). destruct l1 as [|x l1]; [discriminate|]. assert (X : x = Some c) by (cbn [app] in E; congruence). assert (E2 : l = (l1 ++ None :: l2)%list) by (cbn [app] in E; congruence). rewrite X in N. exists l1, l2. split; [exact E2|].
        rewrite (opened_step "4" a a' c l1 HA), (opened_step "6" b b' c l1 HB) in N. exact N.
      - intros (l1 & l2 & -> & N). exists (Some c :: l1), l2. split; [reflexivity|].
        rewrite (opened_step "4" a a' c l1 HA), (opened_step "6" b b' c l1 HB). exact N. }
    rewrite ST. destruct a' as [a'|]; [destruct b' as [b'|]|].
    + split; [discriminate|]. intros (l1 & l2 & _ & N). exfalso. apply N. split; left; discriminate.
    + apply IH. now right.
    + apply IH. now left.
  - cbn [to02x_ips]. split; [intros _|reflexivity]. exists [], l. split; [reflexivity|]. intros [[H|(d & [] & _)] [K|(e & [] & _)]]. tauto.
Qed.
Lemma to02x_ips_ok l : forall a b, to02x_ips l a b = Panic \/ exists p, to02x_ips l a b = Ok p.
Proof.
  induction l as [|[c|] l IH]; intros a b; cbn [to02x_ips]; [eauto| |now left].
  match goal with |- context [if ?x then _ else _] => destruct x end; [|match goal with |- context [if ?x then _ else _] => destruct x end];
  match goal with |- context [match ?x with Some _ => _ | None => _ end] => destruct x end; try apply IH;
  try (destruct b; [eauto|apply IH]); eauto.
Qed.
Lemma to02x_routes_cases l a b : (In None l /\ to02x_routes l a b = Panic) \/ (~ In None l /\ exists p, to02x_routes l a b = Ok p).
Proof.
  destruct (none_dec l) as [I|N]; [left; split; [exact I|]|right; split; [exact N|rewrite to02x_routes_eq by exact N; eauto]].
  revert a b. induction l as [|[r|] l IH]; intros a b; [easy| |reflexivity]. destruct I as [I|I]; [discriminate|]. cbn [to02x_routes].
  destruct (is4 (n_ip (r_dst r))); [destruct a|destruct b]; now apply IH.
Qed.
Lemma early_nil l : early None None l <-> nil_too_early l.
Proof.
  unfold early, nil_too_early, opened. split; intros (l1 & l2 & E & N); exists l1, l2; (split; [exact E|]).
  - intros [A B]. apply N. split; now right.
  - intros [[A|A] [B|B]]; try congruence. now apply N.
Qed.
Lemma to02x_panics r v : conv040_to02x (R040 r) v = Panic <-> nil_too_early (v4_ips r) \/ In None (v4_routes r).
Proof.
  unfold conv040_to02x. rewrite <- early_nil, <- (to02x_ips_panics _ None None (or_introl eq_refl)).
  destruct (to02x_ips_ok (v4_ips r) None None) as [E|[[a b] E]]; rewrite E; cbn [rbind]; [tauto|].
  destruct (to02x_routes_cases (v4_routes r) a b) as [[I F]|[N [[a' b'] F]]]; rewrite F; cbn [rbind].
  - split; [now right|reflexivity].
  - split; [destruct a', b'; discriminate|]. intros [X|X]; [discriminate|easy].
Qed.
Lemma from04x_panics r v : conv100_from04x (R040 r) v = Panic <-> In None (v4_interfaces r) \/ In None (v4_ips r).
Proof.
  unfold conv100_from04x. destruct (map_deref_cases conv_if_from040 (v4_interfaces r)) as [[I F]|[N [x F]]]; rewrite F; cbn [rbind]; [tauto|].
  destruct (map_deref_cases conv_ipc_from040 (v4_ips r)) as [[I' F']|[N' [x' F']]]; rewrite F'; cbn [rbind]; [tauto|]. split; [discriminate|tauto].
Qed.
Lemma to04x_panics r v : conv100_to04x (R100 r) v = Panic <-> In None (v1_interfaces r) \/ In None (v1_ips r).
Proof.
  unfold conv100_to04x. destruct (map_deref_cases conv_if_to040 (v1_interfaces r)) as [[I F]|[N [x F]]]; rewrite F; cbn [rbind]; [tauto|].
  destruct (map_deref_cases conv_ipc_to040 (v1_ips r)) as [[I' F']|[N' [x' F']]]; rewrite F'; cbn [rbind]; [tauto|]. split; [discriminate|tauto].
Qed.
Lemma gv_panics r v : right_version r -> In v known_versions -> (get_as_version r v = Panic <-> meets_nil r v).
Proof.
  intros V K. assert (K' : In v v02 \/ In v v04 \/ In v v10) by (cbn [In known_versions v02 v04 v10] in *; tauto). clear K.
  assert (O : old_version v <-> In v v02) by (unfold old_version; cbn [In v02]; intuition).
  assert (D : (In v v02 -> ~ In v v04 /\ ~ In v v10) /\ (In v v04 -> ~ In v v10)).
  { cbn [In v02 v04 v10]. split; [intros [<-|[<-|[]]]; split; intros X; repeat (destruct X as [X|X]; try discriminate)
     |intros [<-|[<-|[<-|[]]]] X; repeat (destruct X as [X|X]; try discriminate)]; exact X. }
  destruct D as [D1 D2].
  destruct r as [r|r|r]; unfold right_version in V; cbn [versions_of result_version meets_nil] in *; fold v04 v10; rewrite ?O.
  - destruct K' as [K|[K|K]]; [rewrite gv_020_020 by assumption|rewrite gv_020_040 by assumption|rewrite gv_020_100 by assumption]; split; easy.
  - destruct K' as [K|[K|K]].
    + rewrite gv_040_020 by assumption. rewrite to02x_panics. specialize (D1 K). tauto.
    + rewrite gv_040_040 by assumption. specialize (D2 K). split; [discriminate|]. tauto.
    + rewrite gv_040_100 by assumption. rewrite from04x_panics. tauto.
  - destruct K' as [K|[K|K]].
    + rewrite gv_100_020 by assumption. specialize (D1 K). destruct (none_dec (v1_interfaces r)) as [I|N1]; [|destruct (none_dec (v1_ips r)) as [I|N2]].
      * rewrite (proj2 (to04x_panics r "0.4.0")) by now left. cbn [rbind]. tauto.
      * rewrite (proj2 (to04x_panics r "0.4.0")) by now right. cbn [rbind]. tauto.
      * rewrite conv100_to04x_eq by assumption. cbn [rbind]. rewrite to02x_panics. cbn [down100 v4_ips v4_routes].
        assert (E : ~ nil_too_early (map (option_map conv_ipc_to040) (v1_ips r))).
        { intros (l1 & l2 & E & _). apply (map_no_none conv_ipc_to040 (v1_ips r) N2). rewrite E. apply in_or_app. right. now left. }
        split; [intros [X|X]; [now apply E in X|]|]; tauto.
    + rewrite gv_100_040 by assumption. rewrite to04x_panics. tauto.
    + rewrite gv_100_100 by assumption. split; [discriminate|]. specialize (D2). assert (~ In v v04) by (intros X; exact (D2 X K)). assert (~ In v v02) by (intros X; exact (proj2 (D1 X) K)). tauto.
Qed.
