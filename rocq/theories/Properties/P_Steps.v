(** C81: converting a result in steps. *)
From Coq Require Import String Ascii List Arith NArith ZArith Bool Lia.
From Verif Require Import Model.GoStr Model.Errors Model.NetIP Model.Types
  Spec.TypesSpec Spec.StepsSpec Proofs.StrP Proofs.ConvP Properties.P_Types.
Import ListNotations.
Open Scope nat_scope.
Open Scope string_scope.

Lemma known_cases v : In v known_versions -> (In v v02 /\ level v = 0) \/ (In v v04 /\ level v = 1) \/ (In v v10 /\ level v = 2).
Proof. cbn [In known_versions]. intros H. repeat (destruct H as [<-|H]; [cbn; tauto|]). destruct H. Qed.
Lemma own_level r : right_version r -> In (result_version r) known_versions.
Proof. destruct r; unfold right_version; cbn [versions_of result_version In known_versions]; tauto. Qed.

Lemma down_none v r : complete (R100 r) -> complete (R040 (down100 v r)).
Proof. intros (A & B & C). cbn [complete down100 v4_interfaces v4_ips v4_routes]. auto using map_no_none. Qed.
Lemma up_none v r : complete (R040 r) -> complete (R100 (up040 v r)).
Proof. intros (A & B & C). cbn [complete up040 v1_interfaces v1_ips v1_routes]. auto using map_no_none. Qed.
Lemma up_down v w r : truthful (R040 r) -> down100 v (up040 w r) = with040 v r.
Proof.
  intros F. destruct r as [u i p q d]. unfold down100, up040, with040. cbn in *. rewrite !map_map.
  assert (E1 : map (fun x => option_map conv_if_to040 (option_map conv_if_from040 x)) i = i).
  { rewrite <- (map_id i) at 2. apply map_ext. intros [[a b c]|]; reflexivity. }
  assert (E2 : map (fun x => option_map conv_ipc_to040 (option_map conv_ipc_from040 x)) p = p).
  { rewrite <- (map_id p) at 2. apply map_ext_in. intros [c|] I; [|reflexivity]. apply F in I. destruct c as [a b e g]. cbn in *.
    unfold conv_ipc_to040. cbn. unfold family in I. now rewrite <- I. }
  now rewrite E1, E2.
Qed.
Lemma up_truthful v r : truthful (R020 r) -> truthful (R040 (up020 v r)).
Proof.
  destruct r as [w [[a1 a2 a3]|] [[b1 b2 b3]|] d]; cbn; intros (A & B & _) c I;
  repeat (destruct I as [I|I]; [injection I as <-; cbn in *; symmetry; tauto|]); destruct I.
Qed.
Lemma down_truthful v r : truthful (R040 (down100 v r)).
Proof. cbn. intros c I. apply in_map_iff in I as ([x|] & E & _); [|discriminate]. injection E as <-. reflexivity. Qed.
Lemma somes_in {A} (a : A) l : In a (somes l) -> In (Some a) l.
Proof. induction l as [|[b|] l IH]; cbn; [easy| |]; intros H; [destruct H as [-> |H]; auto|auto]. Qed.
Lemma form_family f r : truthful (R040 r) -> of_family f (old_form f (R040 r)).
Proof.
  intros T. unfold old_form. destruct (find _ _) as [x|] eqn:E; [|exact I]. apply find_some in E as [I E]. apply String.eqb_eq in E.
  cbn [option_map of_family i2_ip i2_routes]. split.
  - cbn [addresses] in I. apply in_map_iff in I as (c & <- & I). cbn [fam fst snd] in *. rewrite <- E. symmetry. apply T. now apply somes_in.
  - intros q J. apply in_map_iff in J as (p & <- & J). apply filter_In in J as [_ J]. apply String.eqb_eq in J. split; [exact J|reflexivity].
Qed.
Lemma old_truthful v r : truthful (R040 r) -> (old_form "4" (R040 r) <> None \/ old_form "6" (R040 r) <> None) -> truthful (R020 (down040 v r)).
Proof. intros T N. cbn [truthful down040 v2_ip4 v2_ip6]. auto using form_family. Qed.
Lemma old_back v w r : truthful (R020 r) -> conv040_to02x (R040 (up020 w r)) v = Ok (R020 (with020 v r)).
Proof.
  intros (A & B & S). destruct (up020_complete w r) as (_ & C2 & C3). rewrite conv040_to02x_eq by assumption. unfold down040.
  assert (A' : own_routes "4" (v2_ip4 r)) by (destruct (v2_ip4 r); [exact (proj2 A)|exact I]).
  assert (B' : own_routes "6" (v2_ip6 r)) by (destruct (v2_ip6 r); [exact (proj2 B)|exact I]).
  destruct (old_form_up w r A' B') as [-> ->]. destruct r as [u [a|] [b|] d]; try reflexivity. cbn in S. intuition.
Qed.

(** ** One step more *)
Lemma lev2 v : In v v02 -> level v = 0. Proof. intros H. cases H; reflexivity. Qed.
Lemma lev4 v : In v v04 -> level v = 1. Proof. intros H. cases H; reflexivity. Qed.
Lemma lev1 v : In v v10 -> level v = 2. Proof. intros H. cases H; reflexivity. Qed.
Lemma via r b c : right_version r -> complete r -> In b known_versions -> In c known_versions ->
  (truthful r \/ (level (result_version r) <= level b <= level c) \/ (level c <= level b <= level (result_version r))) ->
  (level (result_version r) <= level b \/ level c <= level b) ->
  in_steps r [b; c] = get_as_version r c.
Proof.
  intros V C Kb Kc T L. cbn [in_steps]. assert (E : forall x : res result, match x with Ok x => Ok x | Err e => Err e | Panic => Panic end = x) by (intros []; reflexivity).
  destruct r as [r|r|r]; unfold right_version in V; cbn [versions_of result_version] in *.
  - change (In (v2_version r) v02) in V. rewrite (lev2 _ V) in *. destruct (known_cases _ Kb) as [(K1 & L1)|[(K1 & L1)|(K1 & L1)]], (known_cases _ Kc) as [(K2 & L2)|[(K2 & L2)|(K2 & L2)]]; rewrite L1, L2 in *.
    + rewrite !gv_020_020 by assumption. reflexivity.
    + rewrite gv_020_020, !gv_020_040 by assumption. reflexivity.
    + rewrite gv_020_020, !gv_020_100 by assumption. reflexivity.
    + destruct T as [T|[T|T]]; [|lia|lia]. rewrite gv_020_040, gv_020_020, gv_040_020, old_back by assumption. reflexivity.
    + rewrite !gv_020_040, gv_040_040 by assumption. reflexivity.
    + rewrite gv_020_040, gv_020_100, gv_040_100 by assumption. destruct (up020_complete b r) as (C1 & C2 & C3). rewrite conv100_from04x_eq by assumption. reflexivity.
    + destruct T as [T|[T|T]]; [|lia|lia]. rewrite gv_020_100, gv_020_020, gv_100_020 by assumption.
      destruct (up_none b _ (up020_complete "0.4.0" r)) as (C1 & C2 & C3). rewrite conv100_to04x_eq by assumption. cbn [rbind].
      rewrite up_down by (now apply up_truthful). change (with040 "0.4.0" (up020 "0.4.0" r)) with (up020 "0.4.0" r). now rewrite old_back.
    + destruct T as [T|[T|T]]; [|lia|lia]. rewrite gv_020_100, gv_020_040, gv_100_040 by assumption.
      destruct (up_none b _ (up020_complete "0.4.0" r)) as (C1 & C2 & C3). rewrite conv100_to04x_eq by assumption.
      rewrite up_down by (now apply up_truthful). reflexivity.
    + rewrite !gv_020_100, gv_100_100 by assumption. reflexivity.
  - change (In (v4_version r) v04) in V. rewrite (lev4 _ V) in *. destruct C as (C1 & C2 & C3).
    destruct (known_cases _ Kb) as [(K1 & L1)|[(K1 & L1)|(K1 & L1)]], (known_cases _ Kc) as [(K2 & L2)|[(K2 & L2)|(K2 & L2)]]; rewrite L1, L2 in *; try lia.
    + rewrite !gv_040_020, !conv040_to02x_eq by assumption. destruct (old_form "4" (R040 r)), (old_form "6" (R040 r)); rewrite ?gv_020_020 by assumption; reflexivity.
    + rewrite gv_040_040, !gv_040_020, !conv040_to02x_eq by assumption. rewrite E. unfold down040. destruct (old_form "4" (R040 r)) eqn:E4, (old_form "6" (R040 r)) eqn:E6;
      change (old_form "4" (R040 (with040 b r))) with (old_form "4" (R040 r)); change (old_form "6" (R040 (with040 b r))) with (old_form "6" (R040 r)); now rewrite E4, E6.
    + rewrite !gv_040_040 by assumption. reflexivity.
    + rewrite gv_040_040, !gv_040_100, !conv100_from04x_eq by assumption. reflexivity.
    + destruct T as [T|[T|T]]; [|lia|lia]. rewrite gv_040_100, conv100_from04x_eq, gv_100_020, gv_040_020 by assumption.
      destruct (up_none b r (conj C1 (conj C2 C3))) as (D1 & D2 & D3). rewrite conv100_to04x_eq by assumption. cbn [rbind]. rewrite up_down by assumption. rewrite E.
      rewrite !conv040_to02x_eq by assumption. reflexivity.
    + destruct T as [T|[T|T]]; [|lia|lia]. rewrite gv_040_100, conv100_from04x_eq, gv_100_040, gv_040_040 by assumption.
      destruct (up_none b r (conj C1 (conj C2 C3))) as (D1 & D2 & D3). rewrite conv100_to04x_eq by assumption. rewrite up_down by assumption. reflexivity.
    + rewrite !gv_040_100, !conv100_from04x_eq, gv_100_100 by assumption. reflexivity.
  - change (In (v1_version r) v10) in V. rewrite (lev1 _ V) in *. destruct C as (C1 & C2 & C3).
    destruct (down_none "0.4.0" r (conj C1 (conj C2 C3))) as (D1 & D2 & D3).
    destruct (known_cases _ Kb) as [(K1 & L1)|[(K1 & L1)|(K1 & L1)]], (known_cases _ Kc) as [(K2 & L2)|[(K2 & L2)|(K2 & L2)]]; rewrite L1, L2 in *; try lia.
    + rewrite !gv_100_020, !conv100_to04x_eq by assumption. cbn [rbind]. rewrite !conv040_to02x_eq by assumption.
      destruct (old_form "4" (R040 (down100 "0.4.0" r))), (old_form "6" (R040 (down100 "0.4.0" r))); rewrite ?gv_020_020 by assumption; reflexivity.
    + rewrite gv_100_040, gv_100_020, !conv100_to04x_eq, gv_040_020 by assumption. cbn [rbind]. rewrite E.
      destruct (down_none b r (conj C1 (conj C2 C3))) as (F1 & F2 & F3). rewrite !conv040_to02x_eq by assumption. reflexivity.
    + rewrite !gv_100_040, !conv100_to04x_eq, gv_040_040 by assumption. reflexivity.
    + rewrite gv_100_100, !gv_100_020, !conv100_to04x_eq by assumption. cbn [rbind]. now rewrite E.
    + rewrite gv_100_100, !gv_100_040, !conv100_to04x_eq by assumption. reflexivity.
    + rewrite !gv_100_100 by assumption. reflexivity.
Qed.

(** What is converted is again complete, and truthful if the source was. *)
Lemma step_keeps r v x : right_version r -> complete r -> In v known_versions -> get_as_version r v = Ok x ->
  right_version x /\ result_version x = v /\ complete x /\ (truthful r -> truthful x).
Proof.
  intros V C K G. destruct r as [r|r|r]; unfold right_version in V; cbn [versions_of result_version] in V.
  - destruct (known_cases _ K) as [(K1 & _)|[(K1 & _)|(K1 & _)]].
    + rewrite gv_020_020 in G by assumption. injection G as <-. repeat split; auto; cbn in *; tauto.
    + rewrite gv_020_040 in G by assumption. injection G as <-. split; [exact K1|]. split; [reflexivity|]. split; [apply up020_complete|apply up_truthful].
    + rewrite gv_020_100 in G by assumption. injection G as <-. split; [exact K1|]. split; [reflexivity|]. split; [apply up_none, up020_complete|intros; exact I].
  - pose proof C as (C1 & C2 & C3). destruct (known_cases _ K) as [(K1 & _)|[(K1 & _)|(K1 & _)]].
    + rewrite gv_040_020, conv040_to02x_eq in G by assumption.
      assert (X : R020 (down040 v r) = x /\ (old_form "4" (R040 r) <> None \/ old_form "6" (R040 r) <> None)).
      { destruct (old_form "4" (R040 r)), (old_form "6" (R040 r)); try discriminate; injection G as <-; (split; [reflexivity|]); ((now left) || (now right)). }
      destruct X as [<- N]. split; [exact K1|]. split; [reflexivity|]. split; [exact I|]. intros T. now apply old_truthful.
    + rewrite gv_040_040 in G by assumption. injection G as <-. split; [exact K1|]. split; [reflexivity|]. split; [exact C|exact (fun h => h)].
    + rewrite gv_040_100, conv100_from04x_eq in G by assumption. injection G as <-. split; [exact K1|]. split; [reflexivity|]. split; [now apply up_none|intros; exact I].
  - pose proof C as (C1 & C2 & C3). destruct (known_cases _ K) as [(K1 & _)|[(K1 & _)|(K1 & _)]].
    + destruct (down_none "0.4.0" r C) as (D1 & D2 & D3). rewrite gv_100_020, conv100_to04x_eq in G by assumption. cbn [rbind] in G. rewrite conv040_to02x_eq in G by assumption.
      assert (X : R020 (down040 v (down100 "0.4.0" r)) = x /\ (old_form "4" (R040 (down100 "0.4.0" r)) <> None \/ old_form "6" (R040 (down100 "0.4.0" r)) <> None)).
      { destruct (old_form "4" (R040 (down100 "0.4.0" r))), (old_form "6" (R040 (down100 "0.4.0" r))); try discriminate; injection G as <-; (split; [reflexivity|]); ((now left) || (now right)). }
      destruct X as [<- N]. split; [exact K1|]. split; [reflexivity|]. split; [exact I|]. intros _. apply old_truthful; [apply down_truthful|exact N].
    + rewrite gv_100_040, conv100_to04x_eq in G by assumption. injection G as <-. split; [exact K1|]. split; [reflexivity|]. split; [now apply down_none|intros; apply down_truthful].
    + rewrite gv_100_100 in G by assumption. injection G as <-. split; [exact K1|]. split; [reflexivity|]. split; [exact C|intros; exact I].
Qed.
Lemma in_steps_app r p q : in_steps r (p ++ q)%list = match in_steps r p with Ok x => in_steps x q | Err e => Err e | Panic => Panic end.
Proof. revert r. induction p as [|v p IH]; intros r; [reflexivity|]. cbn [app in_steps]. destruct (get_as_version r v); [apply IH|reflexivity|reflexivity]. Qed.
Lemma in_steps_one r v : in_steps r [v] = get_as_version r v.
Proof. cbn [in_steps]. now destruct (get_as_version r v). Qed.

(** Going up (or staying): each version reached is what converting to it at once gives. *)
Lemma upward r : right_version r -> complete r -> truthful r -> forall p c,
  Forall (fun v => In v known_versions /\ level (result_version r) <= level v) p -> In c known_versions ->
  in_steps r (p ++ [c])%list = get_as_version r c.
Proof.
  intros V C T p. induction p as [|b p IH] using rev_ind; intros c P K; [apply in_steps_one|].
  apply Forall_app in P as [P Q]. apply Forall_cons_iff in Q as [[Kb Lb] _]. rewrite in_steps_app, (IH b P Kb).
  rewrite <- (via r b c V C Kb K (or_introl T) (or_introl Lb)). reflexivity.
Qed.
Lemma downward c : In c known_versions -> forall p r, right_version r -> complete r -> truthful r ->
  Forall (fun v => In v known_versions /\ level c <= level v) p -> in_steps r (p ++ [c])%list = get_as_version r c.
Proof.
  intros K p. induction p as [|b p IH]; intros r V C T P; [apply in_steps_one|].
  apply Forall_cons_iff in P as [[Kb Lb] P]. rewrite <- (via r b c V C Kb K (or_introl T) (or_intror Lb)). cbn [app in_steps].
  destruct (get_as_version r b) as [x|e|] eqn:G; [|reflexivity|reflexivity]. destruct (step_keeps r b x V C Kb G) as (V' & _ & C' & T').
  rewrite (IH x V' C' (T' T) P). now destruct (get_as_version x c).
Qed.
Theorem C81_steps : forall r steps v, right_version r -> complete r -> truthful r -> In v known_versions ->
  Forall (fun w => In w known_versions /\ Nat.min (level (result_version r)) (level v) <= level w) steps ->
  in_steps r (steps ++ [v])%list = get_as_version r v.
Proof.
  intros r p c V C T K P. destruct (le_lt_dec (level (result_version r)) (level c)) as [L|L].
  - rewrite Nat.min_l in P by exact L. now apply upward.
  - rewrite Nat.min_r in P by lia. now apply downward.
Qed.
(** Steps in one direction need no agreement between declarations and data. *)
Lemma falling_last v p c : falling v (p ++ [c])%list -> level c <= level v.
Proof. revert v. induction p as [|w p IH]; intros v; cbn [app falling]; intros [A B]; [exact A|]. apply IH in B. lia. Qed.
Lemma rising_last v p c : rising v (p ++ [c])%list -> level v <= level c.
Proof. revert v. induction p as [|w p IH]; intros v; cbn [app rising]; intros [A B]; [exact A|]. apply IH in B. lia. Qed.
Theorem C81_one_way : forall r steps v, right_version r -> complete r -> Forall (fun w => In w known_versions) (steps ++ [v]) ->
  falling (result_version r) (steps ++ [v]) \/ rising (result_version r) (steps ++ [v]) ->
  in_steps r (steps ++ [v])%list = get_as_version r v.
Proof.
  intros r p c V C K D. apply Forall_app in K as [P K]. apply Forall_cons_iff in K as [K _]. revert r V C D.
  induction p as [|b p IH]; intros r V C D; [apply in_steps_one|]. apply Forall_cons_iff in P as [Kb P]. specialize (IH P).
  assert (O : (level c <= level b <= level (result_version r)) \/ (level (result_version r) <= level b <= level c)).
  { cbn [app falling rising] in D. destruct D as [[A D]|[A D]]; [left; apply falling_last in D; lia|right; apply rising_last in D; lia]. }
  rewrite <- (via r b c V C Kb K) by tauto. cbn [app in_steps].
  destruct (get_as_version r b) as [x|e|] eqn:G; [|reflexivity|reflexivity]. destruct (step_keeps r b x V C Kb G) as (V' & E & C' & _).
  rewrite IH; [now destruct (get_as_version x c)|exact V'|exact C'|]. rewrite E. cbn [app falling rising] in D. tauto.
Qed.
(** A step never leaves what was complete or truthful otherwise. *)
Theorem C81_stays : forall r v x, right_version r -> complete r -> In v known_versions -> get_as_version r v = Ok x ->
  right_version x /\ result_version x = v /\ complete x /\ (truthful r -> truthful x).
Proof. exact step_keeps. Qed.

(** Both conditions are needed: a step to an older form on the way to a newer one forgets what the
    older form has no place for, and one through 1.x corrects a declared family that is wrong. *)
Theorem C81_detour_refuted : exists r x y, right_version r /\ complete r /\ truthful r /\
  in_steps r ["0.4.0"; "1.1.0"] = Ok x /\ get_as_version r "1.1.0" = Ok y /\ x <> y.
Proof.
  exists (R100 X_100), (R100 (forget X_100)), (R100 X_100). split; [cbn; auto|]. split; [exact X_100_complete|]. split; [exact I|].
  split; [vm_compute; reflexivity|]. split; [vm_compute; reflexivity|discriminate].
Qed.
Definition X_lying : res040 :=
  {| v4_version := "0.4.0"; v4_interfaces := []; v4_ips := [Some {| i4_version := "6"; i4_interface := None; i4_address := X_net4; i4_gateway := [] |}];
     v4_routes := []; v4_dns := X_dns |}.
Theorem C81_lying_refuted : exists r x y, right_version r /\ complete r /\ ~ truthful r /\
  in_steps r ["1.0.0"; "0.2.0"] = Ok x /\ get_as_version r "0.2.0" = Ok y /\ x <> y.
Proof.
  exists (R040 X_lying). eexists. eexists. split; [cbn; auto|]. split; [cbn; intuition discriminate|].
  split; [intros T; specialize (T _ (or_introl eq_refl)); vm_compute in T; discriminate|].
  split; [vm_compute; reflexivity|]. split; [vm_compute; reflexivity|discriminate].
Qed.

(** ** The hypotheses are met *)
Example C81_nonvacuous : truthful (R020 X_020) /\ truthful (R040 X_040) /\ 
  Forall (fun w => In w known_versions /\ Nat.min (level (result_version (R040 X_040))) (level "0.2.0") <= level w) ["1.1.0"; "0.1.0"; "0.3.1"; "1.0.0"] /\
  in_steps (R040 X_040) ["1.1.0"; "0.1.0"; "0.3.1"; "1.0.0"; "0.2.0"] = Ok (R020 X_020).
Proof.
  split; [split; [|split]|split; [|split]].
  - split; [vm_compute; reflexivity|]. cbn. intros q [<-|[]]; split; reflexivity.
  - split; [vm_compute; reflexivity|]. cbn. intros q [<-|[]]; split; reflexivity.
  - left. discriminate.
  - apply down_truthful.
  - repeat constructor; cbn; tauto || lia.
  - vm_compute. reflexivity.
Qed.

Print Assumptions C81_steps.
Print Assumptions C81_one_way.
Print Assumptions C81_stays.
Print Assumptions C81_detour_refuted.
Print Assumptions C81_lying_refuted.
