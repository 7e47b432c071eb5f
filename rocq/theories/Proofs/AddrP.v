(** The address parser accepts exactly the grammar of Spec.AddrSpec. *)
From Coq Require Import String Ascii List Arith NArith ZArith Bool Lia.
From Verif Require Import Model.GoStr Model.Json Model.NetIP Spec.VersionSpec Spec.TypesSpec Spec.AddrSpec
  Proofs.StrP Proofs.VersionP Proofs.JsonRT Proofs.NumP Proofs.NetIPP.
Import ListNotations.
Open Scope nat_scope.
Open Scope string_scope.

(** *** Characters *)
Lemma hex_digit_lt c d : hex_digit_is c d -> (d < 16)%N.
Proof.
  intros H. destruct (N.ltb_spec d 16) as [L|L]; [exact L|]. exfalso. unfold hex_digit_is in H.
  assert (G : forall m s, String.length s <= m -> String.get m s = None).
  { induction m as [|m IH]; intros [|c0 s] L0; cbn in *; try reflexivity; try lia. apply IH. lia. }
  rewrite !G in H by (cbn; lia). destruct H; discriminate.
Qed.
Lemma hexv_is c d : hexv c = Some d <-> hex_digit_is c d.
Proof.
  split.
  - destruct c as [b0 b1 b2 b3 b4 b5 b6 b7]. destruct b0, b1, b2, b3, b4, b5, b6, b7; intros H; try discriminate H; vm_compute in H; injection H as <-; vm_compute; auto.
  - intros H. pose proof (hex_digit_lt _ _ H) as L.
    assert (C : forall k, k < 16 -> forall c, hex_digit_is c (N.of_nat k) -> hexv c = Some (N.of_nat k)).
    { intros k K c0 H0. unfold hex_digit_is in H0. rewrite Nat2N.id in H0.
      do 16 (destruct k as [|k]; [cbn in H0; destruct H0 as [H0|H0]; injection H0 as <-; vm_compute; reflexivity|]). lia. }
    specialize (C (N.to_nat d)). rewrite N2Nat.id in C. apply C; [lia|exact H].
Qed.
Lemma digit_hex c : is_digit c = true -> exists v, hexv c = Some v.
Proof. intros H. unfold hexv. rewrite H. eauto. Qed.

(** *** Hexadecimal runs *)
Fixpoint hex_all (s : string) : option (list N) :=
  match s with
  | EmptyString => Some []
  | String c r => match hexv c, hex_all r with Some v, Some l => Some (v :: l) | _, _ => None end
  end.
Lemma hex_all_length s l : hex_all s = Some l -> List.length l = String.length s.
Proof.
  revert l. induction s as [|c s IH]; intros l H; cbn in H; [injection H as <-; reflexivity|].
  destruct (hexv c); [|discriminate]. destruct (hex_all s); [|discriminate]. injection H as <-. cbn. f_equal. now apply IH.
Qed.
Lemma hex_all_app a b : hex_all (a ++ b) = match hex_all a, hex_all b with Some x, Some y => Some (x ++ y)%list | _, _ => None end.
Proof.
  induction a as [|c a IH]; cbn; [destruct (hex_all b); reflexivity|]. rewrite IH. destruct (hexv c); [|reflexivity].
  destruct (hex_all a); [|reflexivity]. destruct (hex_all b); reflexivity.
Qed.
Lemma hex_text_all s x : hex_text s x <-> exists l, hex_all s = Some l /\ hex_num l = x.
Proof.
  split.
  - induction 1 as [|s n c d H (l & A & B) D]; [exists []; split; reflexivity|]. exists (l ++ [d])%list. rewrite hex_all_app, A. cbn [hex_all].
    rewrite (proj2 (hexv_is c d) D). split; [reflexivity|]. unfold hex_num in *. rewrite fold_left_app, B. cbn [fold_left]. lia.
  - revert x. induction s as [|s c IH] using string_snoc_ind; intros x (l & A & B).
    + cbn in A. injection A as <-. cbn in B. subst x. constructor.
    + rewrite hex_all_app in A. cbn [hex_all] in A. destruct (hex_all s) as [l0|] eqn:E; [|discriminate].
      destruct (hexv c) as [d|] eqn:D; [|discriminate]. injection A as <-. unfold hex_num in B. rewrite fold_left_app in B. cbn [fold_left] in B. subst x.
      replace (fold_left (fun acc v : N => acc * 16 + v) l0 0 * 16 + d)%N with (16 * hex_num l0 + d)%N by (unfold hex_num; lia).
      constructor; [apply IH; eauto|now apply hexv_is].
Qed.
Lemma group_all s x : group s x <-> exists l, hex_all s = Some l /\ hex_num l = x /\ 1 <= List.length l <= 4.
Proof.
  unfold group. rewrite hex_text_all. split.
  - intros [(l & A & B) L]. exists l. rewrite (hex_all_length _ _ A). auto.
  - intros (l & A & B & L). rewrite (hex_all_length _ _ A) in L. eauto.
Qed.
Definition no_hex (t : string) : Prop := match t with EmptyString => True | String c _ => hexv c = None end.
Lemma span_hex_spec s l r : span_hex s = (l, r) <-> exists p, s = p ++ r /\ hex_all p = Some l /\ no_hex r.
Proof.
  split.
  - revert l r. induction s as [|c s IH]; intros l r H; cbn in H.
    + injection H as <- <-. exists "". repeat split.
    + destruct (hexv c) as [v|] eqn:V.
      * destruct (span_hex s) as [l0 r0] eqn:E. injection H as <- <-. destruct (IH _ _ eq_refl) as (p & -> & A & N).
        exists (String c p). cbn. rewrite V, A. auto.
      * injection H as <- <-. exists "". repeat split. exact V.
  - intros (p & -> & A & N). revert l A. induction p as [|c p IH]; intros l A; cbn in A.
    + injection A as <-. cbn. destruct r as [|c r]; [reflexivity|]. cbn in N |- *. rewrite N. reflexivity.
    + destruct (hexv c) eqn:V; [|discriminate]. destruct (hex_all p) as [l0|]; [|discriminate]. injection A as <-. cbn. rewrite V, (IH _ eq_refl). reflexivity.
Qed.

(** *** Quads *)
Lemma octet_spec s n : octet s n <-> parse_octet s = Some n.
Proof.
  assert (E : (s = "0" \/ forall t, s <> "0" ++ t) -> parse_octet s = match digits s with Some n => if (n <=? 255)%N then Some n else None | None => None end).
  { intros H. unfold parse_octet. destruct s as [|c s]; [reflexivity|]. destruct c as [b0 b1 b2 b3 b4 b5 b6 b7].
    destruct b0, b1, b2, b3, b4, b5, b6, b7; try reflexivity. destruct s as [|c s]; [reflexivity|]. exfalso. destruct H as [H|H]; [discriminate|].
    exact (H (String c s) eq_refl). }
  unfold octet. rewrite decimal_digits. split.
  - intros (D & L & Z). rewrite (E Z), D. destruct (N.leb_spec n 255); [reflexivity|lia].
  - intros H. assert (Z : s = "0" \/ forall t, s <> "0" ++ t).
    { destruct s as [|c s]; [right; discriminate|]. destruct (Ascii.eqb_spec c "0") as [->|NE]; [|right; intros t Q; now injection Q].
      destruct s as [|c s]; [now left|discriminate H]. }
    rewrite (E Z) in H. destruct (digits s) as [m|]; [|discriminate]. destruct (N.leb_spec m 255); [|discriminate]. injection H as <-.
    split; [reflexivity|]. split; [lia|exact Z].
Qed.
Lemma octet_digits s n : octet s n -> s <> "" /\ sforall is_digit s = true.
Proof.
  intros (D & _). apply decimal_digits in D. split; [intros ->; discriminate|].
  assert (G : forall t a m, digits_acc a t = Some m -> sforall is_digit t = true).
  { induction t as [|c t IH]; intros a m H; [reflexivity|]. cbn in H |- *. destruct (is_digit c); [|discriminate]. exact (IH _ _ H). }
  destruct s; [reflexivity|]. exact (G _ _ _ D).
Qed.
Lemma octet_no_dot s n : octet s n -> contains_byte "." s = false.
Proof. intros (D & _). apply decimal_digits in D. eapply digits_no_dot; eassumption. Qed.
Lemma quad_spec s q : quad s q <-> parse_ipv4 s = Some q.
Proof.
  split.
  - intros (sa & sb & sc & sd & a & b & c & d & A & B & C & D & -> & ->). unfold parse_ipv4. cbn [append].
    rewrite split_on_app by (eapply octet_no_dot; eassumption). rewrite split_on_app by (eapply octet_no_dot; eassumption).
    rewrite split_on_app by (eapply octet_no_dot; eassumption). rewrite split_on_no_sep by (eapply octet_no_dot; eassumption).
    rewrite (proj1 (octet_spec _ _) A), (proj1 (octet_spec _ _) B), (proj1 (octet_spec _ _) C), (proj1 (octet_spec _ _) D). reflexivity.
  - unfold parse_ipv4. pose proof (join_split_on "." s) as J. destruct (split_on "." s) as [|sa [|sb [|sc [|sd [|]]]]]; try discriminate.
    destruct (parse_octet sa) eqn:A; [|discriminate]. destruct (parse_octet sb) eqn:B; [|discriminate].
    destruct (parse_octet sc) eqn:C; [|discriminate]. destruct (parse_octet sd) eqn:D; [|discriminate].
    intros H. injection H as <-. exists sa, sb, sc, sd, n, n0, n1, n2. rewrite !octet_spec. rewrite <- J. auto 8.
Qed.
Lemma quad_head s q : quad s q -> exists p r l, s = p ++ String "." r /\ hex_all p = Some l /\ 1 <= List.length l <= 4.
Proof.
  intros (sa & sb & sc & sd & a & b & c & d & A & _ & _ & _ & -> & _). exists sa, (sb ++ "." ++ sc ++ "." ++ sd).
  destruct (octet_digits _ _ A) as [NE D]. assert (L : String.length sa <= 3).
  { destruct A as (A & L & Z). apply decimal_digits in A. destruct sa as [|c0 [|c1 [|c2 [|c3 t]]]]; cbn [String.length]; try lia. exfalso.
    cbn [sforall] in D. apply andb_true_iff in D as [D0 D]. apply andb_true_iff in D as [D1 D]. apply andb_true_iff in D as [D2 D]. apply andb_true_iff in D as [D3 D].
    assert (P : (digit_val c0 <> 0)%N).
    { intros Q. destruct Z as [Z|Z]; [discriminate|]. apply (Z (String c1 (String c2 (String c3 t)))). cbn. f_equal. clear -D0 Q.
      unfold is_digit in D0. unfold digit_val in Q. apply andb_true_iff in D0 as [X Y]. apply N.leb_le in X, Y.
      rewrite <- (ascii_N_embedding c0). unfold code in *. replace (N_of_ascii c0) with 48%N by lia. reflexivity. }
    assert (G : forall t a m, digits_acc a t = Some m -> (a <= m)%N).
    { clear. induction t as [|c t IH]; intros a m H; cbn [digits_acc] in H; [injection H as <-; lia|]. destruct (is_digit c); [|discriminate]. apply IH in H. lia. }
    unfold digits in A. cbn [digits_acc] in A. rewrite D0, D1, D2, D3 in A. apply G in A. lia. }
  assert (H : exists l, hex_all sa = Some l).
  { clear -D. induction sa as [|c0 sa IH]; [eexists; reflexivity|]. cbn [sforall] in D. apply andb_true_iff in D as [D0 D]. destruct (IH D) as [l H].
    destruct (digit_hex _ D0) as [v V]. cbn. rewrite V, H. eauto. }
  destruct H as [l H]. exists l. split; [reflexivity|]. split; [exact H|]. rewrite (hex_all_length _ _ H). destruct sa; [congruence|]. cbn [String.length] in *. lia.
Qed.
Lemma quad_length s q : quad s q -> List.length q = 4.
Proof. intros (sa & sb & sc & sd & a & b & c & d & _ & _ & _ & _ & _ & ->). reflexivity. Qed.

(** *** Pieces *)
Inductive pcs : list string -> list N -> Prop :=
| pc_none : pcs [] []
| pc_more : forall s x l b, group s x -> pcs l b -> pcs (s :: l) (x / 256 :: x mod 256 :: b)%N
| pc_quad : forall s q, quad s q -> pcs [s] q.
Lemma pieces_pcs l b : pieces l b <-> pcs l b.
Proof.
  split.
  - intros [G|(l1 & b1 & s & q & G & Q & -> & ->)].
    + induction G; constructor; assumption.
    + induction G; cbn [app]; constructor; assumption.
  - induction 1 as [|s x l b G P [IH|(l1 & b1 & s' & q & G1 & Q & -> & ->)]|s q Q].
    + left. constructor.
    + left. now constructor.
    + right. exists (s :: l1), (x / 256 :: x mod 256 :: b1)%N, s', q. split; [now constructor|]. auto.
    + right. exists [], [], s, q. repeat split; [constructor|exact Q].
Qed.
Lemma groups_pcs l b : groups_are l b -> pcs l b.
Proof. induction 1; constructor; assumption. Qed.
Lemma groups_even l b : groups_are l b -> List.length b = 2 * List.length l.
Proof. induction 1; cbn [List.length]; lia. Qed.
Lemma group_nonempty s x : group s x -> exists c r v, s = String c r /\ hexv c = Some v.
Proof.
  intros G. apply group_all in G as (l & A & _ & L). destruct s as [|c r]; [cbn in A; injection A as <-; cbn in L; lia|].
  cbn in A. destruct (hexv c) as [v|] eqn:V; [|discriminate]. exists c, r, v. auto.
Qed.
Lemma quad_nonempty s q : quad s q -> exists c r v, s = String c r /\ hexv c = Some v.
Proof.
  intros Q. destruct (quad_head _ _ Q) as (p & r & l & -> & A & L). destruct p as [|c p]; [cbn in A; injection A as <-; cbn in L; lia|].
  cbn in A. destruct (hexv c) as [v|] eqn:V; [|discriminate]. exists c, (p ++ String "." r), v. auto.
Qed.
Lemma pcs_head l b : pcs l b -> l <> [] -> exists c r v, join ":" l = String c r /\ hexv c = Some v.
Proof.
  intros P NE. assert (H : forall s l', l = s :: l' -> exists c r v, s = String c r /\ hexv c = Some v).
  { destruct P; [congruence| |]; intros s' l' E; injection E as <- <-; [eapply group_nonempty|eapply quad_nonempty]; eassumption. }
  destruct l as [|s l]; [congruence|]. destruct (H s l eq_refl) as (c & r & v & -> & V). exists c.
  destruct l as [|s' l]; [exists r, v; split; [reflexivity|exact V]|]. exists (r ++ ":" ++ join ":" (s' :: l)), v. split; [reflexivity|exact V].
Qed.
Lemma hexv_colon c v : hexv c = Some v -> Ascii.eqb c ":" = false /\ Ascii.eqb c "." = false /\ Ascii.eqb c "%" = false.
Proof.
  intros H. repeat split; apply Ascii.eqb_neq; intros ->; discriminate H.
Qed.

(** *** The loop *)
(** One group in front of [t]. *)
Lemma loop_group f acc ell s x t : group s x -> no_hex t ->
  v6_loop (S f) acc ell (s ++ t) =
    let acc' := (acc ++ [x / 256; x mod 256]%N)%list in
    match t with
    | EmptyString => Some (acc', ell)
    | String c r =>
        if Ascii.eqb c "."%char then
          if match ell with None => negb (List.length acc =? 12)%nat | Some _ => false end then None
          else if (16 <? List.length acc + 4)%nat then None
          else match parse_ipv4 (s ++ t) with Some q => Some ((acc ++ q)%list, ell) | None => None end
        else if negb (Ascii.eqb c ":"%char) then None
        else match r with
             | EmptyString => None
             | String c2 r2 =>
                 if Ascii.eqb c2 ":"%char then
                   match ell with
                   | Some _ => None
                   | None => match r2 with
                             | EmptyString => Some (acc', Some (List.length acc'))
                             | _ => v6_loop f acc' (Some (List.length acc')) r2
                             end
                   end
                 else v6_loop f acc' ell r
             end
    end.
Proof.
  intros G N. apply group_all in G as (l & A & B & L). assert (E : span_hex (s ++ t) = (l, t)) by (apply span_hex_spec; eauto).
  cbn [v6_loop]. rewrite E. replace ((List.length l =? 0)%nat || (4 <? List.length l)%nat) with false by (symmetry; apply orb_false_iff; split; [apply Nat.eqb_neq|apply Nat.ltb_ge]; lia).
  rewrite B. reflexivity.
Qed.
Lemma no_hex_colon r : no_hex (String ":" r).
Proof. reflexivity. Qed.
(** The quad at the end. *)
Lemma loop_quad f acc ell s q : quad s q -> List.length acc + 4 <= 16 -> (ell = None -> List.length acc = 12) ->
  v6_loop (S f) acc ell s = Some ((acc ++ q)%list, ell).
Proof.
  intros Q L H. destruct (quad_head _ _ Q) as (p & r & l & E & A & LL). apply quad_spec in Q.
  assert (G : group p (hex_num l)) by (apply group_all; eauto). subst s. rewrite (loop_group f acc ell p _ (String "." r) G) by reflexivity.
  cbv zeta. change (Ascii.eqb "." ".") with true. cbn iota.
  replace (match ell with None => negb (List.length acc =? 12)%nat | Some _ => false end) with false.
  2:{ destruct ell; [reflexivity|]. rewrite (H eq_refl). reflexivity. }
  destruct (Nat.ltb_spec 16 (List.length acc + 4)); [lia|]. rewrite Q. reflexivity.
Qed.
Lemma loop_complete l b : pcs l b -> l <> [] -> forall f acc ell, List.length acc + 2 * f = 16 -> List.length acc + List.length b <= 16 ->
  (ell = None -> List.length acc + List.length b = 16) -> v6_loop f acc ell (join ":" l) = Some ((acc ++ b)%list, ell).
Proof.
  induction 1 as [|s x l b G P IH|s q Q]; intros NE f acc ell F L H; [congruence| |].
  - destruct f as [|f]; [cbn [List.length] in *; lia|]. destruct l as [|s' l].
    + inversion P; subst. replace (join ":" [s]) with (s ++ "") by (cbn; now rewrite append_nil_r). rewrite (loop_group f acc ell s x "" G I). reflexivity.
    + change (join ":" (s :: s' :: l)) with (s ++ String ":" (join ":" (s' :: l))). rewrite (loop_group f acc ell s x _ G) by reflexivity.
      cbv zeta. change (Ascii.eqb ":" ".") with false. change (Ascii.eqb ":" ":") with true. cbn [negb]. cbn iota.
      destruct (pcs_head _ _ P) as (c & r & v & E & V); [discriminate|]. destruct (hexv_colon _ _ V) as (C & _).
      assert (IH' := IH (ltac:(discriminate)) f (acc ++ [x / 256; x mod 256]%N)%list ell). rewrite E in IH' |- *. rewrite C. rewrite IH'.
      * rewrite <- app_assoc. reflexivity.
      * rewrite app_length. cbn [List.length] in *. lia.
      * rewrite app_length. cbn [List.length] in *. lia.
      * intros K. rewrite app_length. specialize (H K). cbn [List.length] in *. lia.
  - pose proof (quad_length _ _ Q) as QL. destruct f as [|f]; [lia|]. cbn [join]. apply loop_quad; [exact Q|lia|]. intros K. specialize (H K). lia.
Qed.
Lemma loop_ellipsis l1 b1 : groups_are l1 b1 -> l1 <> [] -> forall l2 b2 f acc, pcs l2 b2 -> List.length acc + 2 * f = 16 ->
  List.length acc + List.length b1 + List.length b2 <= 14 ->
  v6_loop f acc None (join ":" l1 ++ "::" ++ join ":" l2) = Some ((acc ++ b1 ++ b2)%list, Some (List.length acc + List.length b1)).
Proof.
  induction 1 as [|s x l b G P IH]; intros NE l2 b2 f acc P2 F L; [congruence|].
  destruct f as [|f]; [cbn [List.length] in *; lia|]. destruct l as [|s' l].
  - inversion P; subst. cbn [join]. rewrite (loop_group f acc None s x _ G) by reflexivity. cbv zeta. cbn [append].
    change (Ascii.eqb ":" ".") with false. change (Ascii.eqb ":" ":") with true. cbn [negb]. cbn iota.
    assert (LA : List.length (acc ++ [x / 256; x mod 256]%N)%list = List.length acc + 2) by (rewrite app_length; reflexivity).
    cbn [List.length] in *. rewrite LA. destruct l2 as [|s2 l2].
    + inversion P2; subst. reflexivity.
    + assert (C := loop_complete _ _ P2 (ltac:(discriminate)) f (acc ++ [x / 256; x mod 256]%N)%list (Some (List.length acc + 2))).
      destruct (pcs_head _ _ P2) as (c & r & v & E & V); [discriminate|]. rewrite E in C |- *. rewrite C; [|rewrite LA; lia|rewrite LA; lia|discriminate].
      rewrite <- app_assoc. reflexivity.
  - change (join ":" (s :: s' :: l) ++ "::" ++ join ":" l2) with ((s ++ ":" ++ join ":" (s' :: l)) ++ "::" ++ join ":" l2).
    rewrite <- !append_assoc. cbn [append]. rewrite (loop_group f acc None s x _ G) by reflexivity.
    cbv zeta. change (Ascii.eqb ":" ".") with false. change (Ascii.eqb ":" ":") with true. cbn [negb]. cbn iota.
    destruct (pcs_head _ _ (groups_pcs _ _ P)) as (c & r & v & E & V); [discriminate|]. destruct (hexv_colon _ _ V) as (C & _).
    assert (LA : List.length (acc ++ [x / 256; x mod 256]%N)%list = List.length acc + 2) by (rewrite app_length; reflexivity).
    assert (IH' := IH (ltac:(discriminate)) l2 b2 f (acc ++ [x / 256; x mod 256]%N)%list P2). cbn [List.length] in *. rewrite LA in IH'.
    rewrite E in IH' |- *. cbn [append] in IH' |- *. rewrite C. rewrite IH' by lia. rewrite <- app_assoc. cbn [app]. do 2 f_equal. f_equal. lia.
Qed.
Lemma join_cons' s l : l <> [] -> join ":" (s :: l) = s ++ String ":" (join ":" l).
Proof. destruct l; [congruence|reflexivity]. Qed.
(** After the ellipsis. *)
Lemma loop_sound_some f : forall acc e s acc' ell', v6_loop f acc (Some e) s = Some (acc', ell') ->
  ell' = Some e /\ exists l b, pcs l b /\ s = join ":" l /\ acc' = (acc ++ b)%list.
Proof.
  induction f as [|f IH]; intros acc e s acc' ell' H.
  - cbn in H. destruct s; [|discriminate]. injection H as <- <-. split; [reflexivity|]. exists [], []. rewrite app_nil_r. repeat split. constructor.
  - destruct (span_hex s) as [hs t] eqn:E. pose proof E as E0. apply span_hex_spec in E0 as (p & -> & A & N).
    destruct ((List.length hs =? 0)%nat || (4 <? List.length hs)%nat) eqn:Q; [cbn [v6_loop] in H; rewrite E, Q in H; discriminate H|].
    apply orb_false_iff in Q as [Q1 Q2]. apply Nat.eqb_neq in Q1. apply Nat.ltb_ge in Q2.
    assert (G : group p (hex_num hs)) by (apply group_all; exists hs; split; [exact A|split; [reflexivity|lia]]).
    rewrite (loop_group f acc (Some e) p _ t G N) in H. cbv zeta in H. clear E. destruct t as [|c r].
    + injection H as <- <-. split; [reflexivity|]. exists [p], [hex_num hs / 256; hex_num hs mod 256]%N. split; [constructor; [exact G|constructor]|].
      split; [now rewrite append_nil_r|reflexivity].
    + destruct (Ascii.eqb_spec c ".") as [->|ND].
      * destruct (16 <? List.length acc + 4)%nat; [discriminate|]. destruct (parse_ipv4 (p ++ String "." r)) as [q|] eqn:P; [|discriminate].
        injection H as <- <-. split; [reflexivity|]. exists [p ++ String "." r], q. split; [constructor; now apply quad_spec|]. split; reflexivity.
      * destruct (Ascii.eqb_spec c ":") as [->|NC]; cbn [negb] in H; [|discriminate]. destruct r as [|c2 r2]; [discriminate|].
        destruct (Ascii.eqb c2 ":"); [discriminate|]. apply IH in H as (-> & l & b & P & R & ->). split; [reflexivity|].
        exists (p :: l), (hex_num hs / 256 :: hex_num hs mod 256 :: b)%N. split; [now constructor|]. split; [|rewrite <- app_assoc; reflexivity].
        rewrite join_cons'; [now rewrite <- R|]. intros ->. discriminate R.
Qed.
(** Before it. *)
Lemma loop_sound_none f : forall acc s acc' ell', s <> "" -> v6_loop f acc None s = Some (acc', ell') ->
  (ell' = None /\ exists l b, pcs l b /\ s = join ":" l /\ acc' = (acc ++ b)%list) \/
  (exists l1 b1 l2 b2, groups_are l1 b1 /\ l1 <> [] /\ pcs l2 b2 /\ s = join ":" l1 ++ "::" ++ join ":" l2 /\ acc' = (acc ++ b1 ++ b2)%list /\
     ell' = Some (List.length acc + List.length b1)).
Proof.
  induction f as [|f IH]; intros acc s acc' ell' NE H.
  - cbn in H. destruct s; [congruence|discriminate].
  - clear NE. destruct (span_hex s) as [hs t] eqn:E. pose proof E as E0. apply span_hex_spec in E0 as (p & -> & A & N).
    destruct ((List.length hs =? 0)%nat || (4 <? List.length hs)%nat) eqn:Q; [cbn [v6_loop] in H; rewrite E, Q in H; discriminate H|].
    apply orb_false_iff in Q as [Q1 Q2]. apply Nat.eqb_neq in Q1. apply Nat.ltb_ge in Q2.
    assert (G : group p (hex_num hs)) by (apply group_all; exists hs; split; [exact A|split; [reflexivity|lia]]).
    rewrite (loop_group f acc None p _ t G N) in H. cbv zeta in H. clear E.
    assert (LA : forall x y : BinNums.N, List.length (acc ++ [x; y])%list = List.length acc + 2) by (intros; rewrite app_length; reflexivity).
    destruct t as [|c r].
    + injection H as <- <-. left. split; [reflexivity|]. exists [p], [hex_num hs / 256; hex_num hs mod 256]%N. split; [constructor; [exact G|constructor]|].
      split; [now rewrite append_nil_r|reflexivity].
    + destruct (Ascii.eqb_spec c ".") as [->|ND].
      * destruct (negb (List.length acc =? 12)%nat); [discriminate|]. destruct (16 <? List.length acc + 4)%nat; [discriminate|].
        destruct (parse_ipv4 (p ++ String "." r)) as [q|] eqn:P; [|discriminate].
        injection H as <- <-. left. split; [reflexivity|]. exists [p ++ String "." r], q. split; [constructor; now apply quad_spec|]. split; reflexivity.
      * destruct (Ascii.eqb_spec c ":") as [->|NC]; cbn [negb] in H; [|discriminate]. destruct r as [|c2 r2]; [discriminate|].
        destruct (Ascii.eqb_spec c2 ":") as [->|NC2].
        -- right. exists [p], [hex_num hs / 256; hex_num hs mod 256]%N. destruct r2 as [|c3 r3].
           ++ injection H as <- <-. exists [], []. split; [constructor; [exact G|constructor]|]. split; [discriminate|]. split; [constructor|].
              split; [reflexivity|]. rewrite LA. split; reflexivity.
           ++ apply loop_sound_some in H as (-> & l & b & P & R & ->). exists l, b. split; [constructor; [exact G|constructor]|]. split; [discriminate|].
              split; [exact P|]. split; [cbn [join]; now rewrite <- R|]. rewrite LA, <- app_assoc. split; reflexivity.
        -- apply IH in H; [|discriminate]. destruct H as [(-> & l & b & P & R & ->)|(l1 & b1 & l2 & b2 & G1 & NE1 & P2 & R & -> & ->)].
           ++ left. split; [reflexivity|]. exists (p :: l), (hex_num hs / 256 :: hex_num hs mod 256 :: b)%N. split; [now constructor|]. split; [|rewrite <- app_assoc; reflexivity].
              rewrite join_cons'; [now rewrite <- R|]. intros ->. discriminate R.
           ++ right. exists (p :: l1), (hex_num hs / 256 :: hex_num hs mod 256 :: b1)%N, l2, b2. split; [now constructor|]. split; [discriminate|]. split; [exact P2|].
              rewrite join_cons' by exact NE1. rewrite <- append_assoc. cbn [append]. rewrite R. split; [reflexivity|]. rewrite LA, <- app_assoc. split; [reflexivity|].
              f_equal. cbn [List.length]. lia.
Qed.
Lemma pcs_even l b : pcs l b -> exists k, List.length b = 2 * k.
Proof.
  induction 1 as [|s x l b G P [k IH]|s q Q]; [exists 0; reflexivity|exists (S k); cbn [List.length]; lia|]. exists 2. now rewrite (quad_length _ _ Q).
Qed.
Lemma firstn_app_l {A} (a b : list A) : firstn (List.length a) (a ++ b)%list = a.
Proof. rewrite firstn_app, firstn_all, Nat.sub_diag. cbn. apply app_nil_r. Qed.
Lemma skipn_app_l {A} (a b : list A) : skipn (List.length a) (a ++ b)%list = b.
Proof. rewrite skipn_app, skipn_all, Nat.sub_diag. reflexivity. Qed.
(** Both forms once the loop is over. *)
Definition plain_parse (ell : option nat) (s : string) : option (list N) :=
  match v6_loop 8 [] ell s with Some x => expand_v6 x | None => None end.
Lemma parse_ipv6_eq s : parse_ipv6 s = match s with
  | String c1 (String c2 r) =>
      if Ascii.eqb c1 ":" && Ascii.eqb c2 ":" then match r with EmptyString => Some (repeat 0%N 16) | _ => plain_parse (Some 0) r end
      else plain_parse None s
  | _ => plain_parse None s
  end.
Proof. destruct s as [|c1 [|c2 r]]; reflexivity. Qed.
Lemma ipv6_sound s a : parse_ipv6 s = Some a -> ipv6_text s a.
Proof.
  rewrite parse_ipv6_eq. intros H.
  assert (N : s <> "" -> plain_parse None s = Some a -> ipv6_text s a).
  { clear H. intros NE H. unfold plain_parse in H. destruct (v6_loop 8 [] None s) as [[acc ell]|] eqn:E; [|discriminate].
    destruct (v6_loop_small _ _ _ _ _ _ E) as [_ L16]; [constructor|cbn; lia|].
    apply loop_sound_none in E; [|exact NE]. destruct E as [(-> & l & b & P & -> & ->)|(l1 & b1 & l2 & b2 & G & NE1 & P & -> & -> & ->)]; cbn [app List.length] in *; unfold expand_v6 in H.
    - destruct (Nat.ltb_spec (List.length b) 16); [discriminate|]. injection H as <-. left. exists l. split; [now apply pieces_pcs|]. split; [lia|reflexivity].
    - destruct (Nat.ltb_spec (List.length (b1 ++ b2)%list) 16) as [L|L]; [|discriminate]. injection H as <-. cbn [Nat.add]. rewrite firstn_app_l, skipn_app_l.
      right. exists l1, b1, l2, b2, (16 - List.length (b1 ++ b2)). rewrite app_length in *. pose proof (groups_even _ _ G). destruct (pcs_even _ _ P) as [k K].
      split; [exact G|]. split; [now apply pieces_pcs|]. split; [lia|]. split; [lia|]. split; reflexivity. }
  destruct s as [|c1 [|c2 r]]; [discriminate H|apply N; [discriminate|exact H]|].
  destruct (Ascii.eqb_spec c1 ":") as [->|NC]; cbn [andb] in H; [|apply N; [discriminate|exact H]].
  destruct (Ascii.eqb_spec c2 ":") as [->|NC]; [|apply N; [discriminate|exact H]]. clear N. right. exists [], []. destruct r as [|c r].
  - injection H as <-. exists [], [], 16. split; [constructor|]. split; [left; constructor|]. split; [lia|]. split; [reflexivity|]. split; reflexivity.
  - unfold plain_parse in H. destruct (v6_loop 8 [] (Some 0) (String c r)) as [[acc ell]|] eqn:E; [|discriminate].
    destruct (v6_loop_small _ _ _ _ _ _ E) as [_ L16]; [constructor|cbn; lia|].
    apply loop_sound_some in E as (-> & l & b & P & R & ->). cbn [app] in *. unfold expand_v6 in H.
    destruct (Nat.ltb_spec (List.length b) 16) as [L|L]; [|discriminate]. injection H as <-. destruct (pcs_even _ _ P) as [k K].
    exists l, b, (16 - List.length b). split; [constructor|]. split; [now apply pieces_pcs|]. split; [lia|]. split; [cbn [List.length Nat.add]; lia|]. split; [cbn [join append]; now rewrite R|]. reflexivity.
Qed.
Lemma ipv6_complete s a : ipv6_text s a -> parse_ipv6 s = Some a.
Proof.
  rewrite parse_ipv6_eq.
  assert (N : forall c r v, s = String c r -> hexv c = Some v -> plain_parse None s = Some a ->
    match s with
    | String c1 (String c2 r) =>
      if Ascii.eqb c1 ":" && Ascii.eqb c2 ":" then match r with EmptyString => Some (repeat 0%N 16) | _ => plain_parse (Some 0) r end
      else plain_parse None s
    | _ => plain_parse None s
    end = Some a).
  { intros c r v E V H. rewrite E in *. destruct (hexv_colon _ _ V) as (C & _). destruct r as [|c2 r]; [exact H|]. rewrite C. exact H. }
  intros [(l & P & L & E)|(l1 & b1 & l2 & b2 & k & G & P & K & L & E & ->)]; apply pieces_pcs in P.
  - assert (NE : l <> []) by (intros ->; inversion P; subst; discriminate L). destruct (pcs_head _ _ P NE) as (c & r & v & J & V). subst s.
    apply (N c r v J V). unfold plain_parse. rewrite (loop_complete _ _ P NE 8 [] None); [|reflexivity|cbn; lia|intros _; cbn; lia].
    cbn [app]. unfold expand_v6. rewrite L. reflexivity.
  - destruct (list_eq_dec string_dec l1 []) as [->|NE1].
    + inversion G; subst b1. clear N. subst s. change (join ":" [] ++ "::" ++ join ":" l2) with (String ":" (String ":" (join ":" l2))).
      change (Ascii.eqb ":" ":" && Ascii.eqb ":" ":") with true. cbn [app List.length] in *. cbn iota. destruct (list_eq_dec string_dec l2 []) as [->|NE2].
      * inversion P; subst b2. cbn in L. replace k with 16 by lia. reflexivity.
      * destruct (pcs_head _ _ P NE2) as (c & r & v & J & V).
        unfold plain_parse. assert (C := loop_complete _ _ P NE2 8 [] (Some 0)). rewrite J in C |- *.
        rewrite C; [|reflexivity|cbn; lia|discriminate]. cbn [app]. unfold expand_v6. destruct (Nat.ltb_spec (List.length b2) 16); [|lia].
        cbn [firstn skipn app]. replace (16 - List.length b2) with k by lia. reflexivity.
    + destruct (pcs_head _ _ (groups_pcs _ _ G) NE1) as (c & r & v & J & V). apply (N c (r ++ "::" ++ join ":" l2) v); [rewrite E, J; reflexivity|exact V|]. subst s.
      unfold plain_parse. rewrite (loop_ellipsis _ _ G NE1 l2 b2 8 []); [|exact P|reflexivity|cbn; lia]. cbn [app List.length Nat.add]. unfold expand_v6.
      destruct (Nat.ltb_spec (List.length (b1 ++ b2)%list) 16) as [X|X]; [|rewrite app_length in X; lia]. rewrite firstn_app_l, skipn_app_l, app_length.
      replace (16 - (List.length b1 + List.length b2)) with k by lia. reflexivity.
Qed.

(** *** Addresses *)
Definition text_char (c : ascii) : bool := match hexv c with Some _ => true | None => Ascii.eqb c ":" || Ascii.eqb c "." end.
Lemma hex_all_chars s l : hex_all s = Some l -> sforall text_char s = true /\ forall t, addr_kind (s ++ t) = addr_kind t.
Proof.
  revert l. induction s as [|c s IH]; intros l H; [split; reflexivity|]. cbn in H. destruct (hexv c) as [v|] eqn:V; [|discriminate].
  destruct (hex_all s) as [l0|]; [|discriminate]. destruct (IH _ eq_refl) as [A B]. cbn [sforall]. rewrite A. unfold text_char. rewrite V.
  split; [reflexivity|]. intros t. destruct (hexv_colon _ _ V) as (C1 & C2 & C3). cbn [append addr_kind]. rewrite C1, C2, C3. apply B.
Qed.
Lemma group_chars s x : group s x -> sforall text_char s = true /\ forall t, addr_kind (s ++ t) = addr_kind t.
Proof. intros G. apply group_all in G as (l & A & _). eapply hex_all_chars; eassumption. Qed.
Lemma octet_chars s n : octet s n -> sforall text_char s = true.
Proof.
  intros O. destruct (octet_digits _ _ O) as [_ D]. eapply sforall_impl; [|exact D]. intros c H. destruct (digit_hex c H) as [v V].
  unfold text_char. rewrite V. reflexivity.
Qed.
Lemma quad_chars s q : quad s q -> sforall text_char s = true.
Proof.
  intros (sa & sb & sc & sd & a & b & c & d & A & B & C & D & -> & _). rewrite !sforall_app. rewrite (octet_chars _ _ A), (octet_chars _ _ B), (octet_chars _ _ C), (octet_chars _ _ D). reflexivity.
Qed.
Lemma pcs_chars l b : pcs l b -> sforall text_char (join ":" l) = true.
Proof.
  intros P. apply sforall_join; [reflexivity|]. induction P as [|s x l b G P IH|s q Q]; [constructor|constructor; [apply (group_chars _ _ G)|exact IH]|].
  constructor; [eapply quad_chars; eassumption|constructor].
Qed.
Lemma ipv6_chars s a : ipv6_text s a -> sforall text_char s = true.
Proof.
  intros [(l & P & _ & ->)|(l1 & b1 & l2 & b2 & k & G & P & _ & _ & -> & _)]; apply pieces_pcs in P; [eapply pcs_chars; eassumption|].
  rewrite !sforall_app, (pcs_chars _ _ (groups_pcs _ _ G)), (pcs_chars _ _ P). reflexivity.
Qed.
Lemma ipv6_kind s a : ipv6_text s a -> addr_kind s = Some false.
Proof.
  assert (G : forall l b, groups_are l b -> forall t, l <> [] -> addr_kind (join ":" l ++ String ":" t) = Some false).
  { intros l b G t NE. destruct G as [|s0 x l b G1 G]; [congruence|]. destruct l as [|s1 l].
    - cbn [join]. rewrite (proj2 (group_chars _ _ G1)). reflexivity.
    - rewrite join_cons' by discriminate. rewrite <- append_assoc. rewrite (proj2 (group_chars _ _ G1)). reflexivity. }
  intros [(l & P & L & ->)|(l1 & b1 & l2 & b2 & k & G1 & P & _ & _ & -> & _)].
  - apply pieces_pcs in P. destruct P as [|s0 x l b G1 P|s0 q Q]; [discriminate L| |rewrite (quad_length _ _ Q) in L; discriminate L].
    destruct l as [|s1 l]; [inversion P; subst; discriminate L|]. rewrite join_cons' by discriminate. rewrite (proj2 (group_chars _ _ G1)). reflexivity.
  - destruct (list_eq_dec string_dec l1 []) as [->|NE]; [reflexivity|]. apply (G _ _ G1 _ NE).
Qed.
Lemma quad_kind s q : quad s q -> addr_kind s = Some true.
Proof.
  intros Q. destruct (quad_head _ _ Q) as (p & r & l & -> & A & _). rewrite (proj2 (hex_all_chars _ _ A)). reflexivity.
Qed.
Lemma text_chars_no c s : text_char c = false -> sforall text_char s = true -> contains_byte c s = false.
Proof. apply sforall_cb. Qed.
Lemma parse_addr_spec s a bits : parse_addr s = Some (a, bits) <-> address_text s a bits.
Proof.
  unfold parse_addr, address_text. split.
  - destruct (addr_kind s) as [[|]|]; [| |discriminate].
    + destruct (parse_ipv4 s) as [q|] eqn:E; [|discriminate]. intros H. injection H as <- <-. left. split; [reflexivity|]. exists q. split; [now apply quad_spec|reflexivity].
    + destruct (contains_byte "%" s); [discriminate|]. destruct (parse_ipv6 s) as [x|] eqn:E; [|discriminate]. intros H. injection H as <- <-.
      right. split; [reflexivity|now apply ipv6_sound].
  - intros [[-> (q & Q & ->)]|[-> H]].
    + rewrite (quad_kind _ _ Q), (proj1 (quad_spec _ _) Q). reflexivity.
    + rewrite (ipv6_kind _ _ H), (text_chars_no "%" s eq_refl (ipv6_chars _ _ H)), (ipv6_complete _ _ H). reflexivity.
Qed.
Lemma address_chars s a bits : address_text s a bits -> sforall text_char s = true.
Proof. intros [[_ (q & Q & _)]|[_ H]]; [eapply quad_chars; eassumption|eapply ipv6_chars; eassumption]. Qed.

(** *** Masks *)
Definition byte_of (n : N) : N := if (8 <=? n)%N then 255%N else (255 - (2 ^ (8 - n) - 1))%N.
Lemma byte_of_bits n j : (j < 8)%N -> N.testbit (byte_of n) (7 - j) = (j <? n)%N.
Proof.
  intros J. unfold byte_of. destruct (N.leb_spec 8 n) as [L|L].
  - destruct (N.ltb_spec j n) as [_|X]; [|lia]. assert (I : In j (map N.of_nat (seq 0 8))) by (apply in_map_iff; exists (N.to_nat j); split; [apply N2Nat.id|apply in_seq; lia]).
    assert (C : forallb (fun j => N.testbit 255 (7 - j)) (map N.of_nat (seq 0 8)) = true) by (vm_compute; reflexivity).
    rewrite forallb_forall in C. exact (C _ I).
  - assert (I : forall x, (x < 8)%N -> In x (map N.of_nat (seq 0 8))) by (intros x X; apply in_map_iff; exists (N.to_nat x); split; [apply N2Nat.id|apply in_seq; lia]).
    assert (C : forallb (fun n => forallb (fun j => Bool.eqb (N.testbit (255 - (2 ^ (8 - n) - 1)) (7 - j)) (j <? n)%N) (map N.of_nat (seq 0 8))) (map N.of_nat (seq 0 8)) = true)
      by (vm_compute; reflexivity).
    rewrite forallb_forall in C. specialize (C n (I n L)). cbv beta in C. rewrite forallb_forall in C. apply Bool.eqb_prop. exact (C j (I j J)).
Qed.
Lemma cidr_bits k : forall n i b, nth_error (cidr_bytes k n) i = Some b -> (b < 256)%N /\ forall j, (j < 8)%N -> N.testbit b (7 - j) = (8 * N.of_nat i + j <? n)%N.
Proof.
  induction k as [|k IH]; intros n i b H; [destruct i; discriminate H|]. cbn [cidr_bytes] in H.
  assert (B : (byte_of n < 256)%N) by (unfold byte_of; destruct (N.leb_spec 8 n); lia). pose proof (byte_of_bits n) as T. unfold byte_of in B, T.
  destruct (N.leb_spec 8 n) as [L|L]; (destruct i as [|i]; cbn [nth_error] in H; [injection H as <-; split; [exact B|exact T]|]);
    apply IH in H as [H1 H2]; (split; [exact H1|]); intros j J; rewrite (H2 j J); destruct (N.ltb_spec (8 * N.of_nat i + j) (n - 8)), (N.ltb_spec (8 * N.of_nat (S i) + j) n); try reflexivity; try lia.
Qed.
Lemma cidr_leading n bits : (bits = 32 \/ bits = 128)%N -> leading_ones (cidr_mask n bits) n bits.
Proof.
  intros B. split.
  - unfold cidr_mask. rewrite cidr_length. destruct B as [-> | ->]; reflexivity.
  - intros i b H. exact (cidr_bits _ _ _ _ H).
Qed.
Lemma byte_eq x y : (x < 256)%N -> (y < 256)%N -> (forall j, (j < 8)%N -> N.testbit x (7 - j) = N.testbit y (7 - j)) -> x = y.
Proof.
  intros X Y H. apply N.bits_inj. intros k. destruct (N.ltb_spec k 8) as [K|K].
  - specialize (H (7 - k)%N). replace (7 - (7 - k))%N with k in H by lia. apply H. lia.
  - rewrite <- (N.mod_small x (2 ^ 8)) by exact X. rewrite <- (N.mod_small y (2 ^ 8)) by exact Y. now rewrite !N.mod_pow2_bits_high.
Qed.
Lemma leading_unique m m' n bits : leading_ones m n bits -> leading_ones m' n bits -> m = m'.
Proof.
  intros [L B] [L' B']. assert (E : List.length m = List.length m') by lia. clear L L'.
  assert (G : forall (m m' : list N), List.length m = List.length m' -> (forall i x y, nth_error m i = Some x -> nth_error m' i = Some y -> x = y) -> m = m').
  { clear. induction m as [|x m IH]; intros [|y m'] E H; try discriminate E; [reflexivity|]. f_equal; [exact (H 0 x y eq_refl eq_refl)|].
    apply IH; [now injection E|]. intros i. exact (H (S i)). }
  apply G; [exact E|]. intros i x y X Y. destruct (B _ _ X) as [X1 X2]. destruct (B' _ _ Y) as [Y1 Y2]. apply byte_eq; [exact X1|exact Y1|].
  intros j J. rewrite (X2 _ J), (Y2 _ J). reflexivity.
Qed.
Lemma address_bits s a bits : address_text s a bits -> (bits = 32 \/ bits = 128)%N.
Proof. intros [[-> _]|[-> _]]; auto. Qed.
Lemma parse_cidr_spec s p : parse_cidr s = Some p <-> prefix_text s p.
Proof.
  unfold parse_cidr, prefix_text. split.
  - destruct (cut_on "/" s) as [[sa sn]|] eqn:C; [|discriminate]. apply cut_on_some in C as [-> _].
    destruct (parse_addr sa) as [[a bits]|] eqn:E; [|discriminate]. destruct (digits sn) as [n|] eqn:D; [|discriminate].
    destruct (N.leb_spec n bits) as [L|]; [|discriminate]. intros H. injection H as <-. apply parse_addr_spec in E.
    exists sa, sn, n, bits. split; [reflexivity|]. split; [exact E|]. split; [now apply decimal_digits|]. split; [exact L|].
    apply cidr_leading. eapply address_bits; eassumption.
  - intros (sa & sn & n & bits & -> & A & D & L & M). cbn [append]. rewrite cut_on_app by (apply (text_chars_no "/" sa eq_refl); eapply address_chars; eassumption).
    rewrite (proj2 (parse_addr_spec _ _ _) A), (proj1 (decimal_digits _ _) D). destruct (N.leb_spec n bits); [|lia].
    f_equal. destruct p as [a m]. cbn [n_ip n_mask] in *. f_equal. eapply leading_unique; [apply cidr_leading; eapply address_bits; eassumption|exact M].
Qed.
Lemma parse_ip_spec s a : parse_ip s = Some a <-> exists bits, address_text s a bits.
Proof.
  unfold parse_ip. split.
  - destruct (parse_addr s) as [[b bits]|] eqn:E; [|discriminate]. intros H. injection H as <-. exists bits. now apply parse_addr_spec.
  - intros (bits & H). rewrite (proj2 (parse_addr_spec _ _ _) H). reflexivity.
Qed.

(** *** Irregular masks *)
Lemma byte_ones_of v k : byte_ones v = Some k -> (k < 8)%N /\ v = (255 - (2 ^ (8 - k) - 1))%N.
Proof.
  unfold byte_ones.
  repeat match goal with |- (if (v =? ?x)%N then _ else _) = _ -> _ => destruct (N.eqb_spec v x) as [-> |]; [intros H; injection H as <-; split; [reflexivity|vm_compute; reflexivity]|] end.
  discriminate.
Qed.
Lemma zero_cidr m : forallb (N.eqb 0) m = true -> m = cidr_bytes (List.length m) 0.
Proof.
  induction m as [|x m IH]; [reflexivity|]. cbn [forallb List.length cidr_bytes]. intros H. apply andb_true_iff in H as [A B].
  apply N.eqb_eq in A. subst x. change (8 <=? 0)%N with false. cbv iota. change (255 - (2 ^ (8 - 0) - 1))%N with 0%N. f_equal. exact (IH B).
Qed.
Lemma mask_length_inv m : forall n, simple_mask_length m = Some n -> m = cidr_bytes (List.length m) n.
Proof.
  induction m as [|v m IH]; intros n H; [reflexivity|]. cbn [simple_mask_length] in H. cbn [List.length cidr_bytes].
  destruct (N.eqb_spec v 255) as [-> |V].
  - destruct (simple_mask_length m) as [k|]; [|discriminate H]. assert (E : n = (8 + k)%N) by (cbn [option_map] in H; congruence). rewrite E. clear H E n. destruct (N.leb_spec 8 (8 + k)); [|lia].
    f_equal. replace (8 + k - 8)%N with k by lia. exact (IH k eq_refl).
  - destruct (byte_ones v) as [k|] eqn:B; [|discriminate H]. destruct (forallb (N.eqb 0) m) eqn:Z; [|discriminate H]. injection H as <-.
    apply byte_ones_of in B as [K ->]. destruct (N.leb_spec 8 k); [lia|]. f_equal. exact (zero_cidr _ Z).
Qed.
Lemma low_char d : (d < 16)%N -> low_digit (hex_char d) d.
Proof.
  intros D. assert (I : In d (map N.of_nat (seq 0 16))) by (apply in_map_iff; exists (N.to_nat d); split; [apply N2Nat.id|apply in_seq; lia]).
  assert (T : forallb (fun d => match String.get (N.to_nat d) "0123456789abcdef" with Some c => Ascii.eqb c (hex_char d) | None => false end) (map N.of_nat (seq 0 16)) = true)
    by (vm_compute; reflexivity).
  rewrite forallb_forall in T. specialize (T _ I). unfold low_digit. cbv beta in T. destruct (String.get _ _); [|discriminate]. apply Ascii.eqb_eq in T. now subst.
Qed.
Lemma mask_hex_string m : Forall (fun x => (x < 256)%N) m -> mask_hex (hex_string m) m.
Proof.
  induction m as [|x m IH]; intros F; [constructor|]. apply Forall_cons_iff in F as [X F]. cbn [hex_string].
  assert (E : x = (16 * (x / 16) + x mod 16)%N) by (apply N.div_mod; lia).
  rewrite E at 3. constructor; [| |exact (IH F)]; apply low_char; [apply N.div_lt_upper_bound; lia|apply N.mod_lt; lia].
Qed.
Lemma irregular_string p bits : bytes16 (n_ip p) -> address_text (ip_string (n_ip p)) (n_ip p) bits ->
  (8 * N.of_nat (List.length (n_mask p)))%N = bits -> Forall (fun x => (x < 256)%N) (n_mask p) ->
  (forall n, ~ leading_ones (n_mask p) n bits) ->
  ipnet_string p = ip_string (n_ip p) ++ "/" ++ hex_string (n_mask p).
Proof.
  destruct p as [a m]. cbn [n_ip n_mask]. intros B A L F N.
  assert (M : simple_mask_length m = None).
  { destruct (simple_mask_length m) as [n|] eqn:E; [exfalso|reflexivity]. apply mask_length_inv in E. apply (N n). split; [exact L|].
    intros i b H. rewrite E in H. exact (cidr_bits _ _ _ _ H). }
  assert (NE : m <> []) by (intros ->; discriminate M).
  unfold ipnet_string, net_and_mask. cbn [n_ip n_mask].
  pose proof (ip_string16 _ B) as S. rewrite S in A |- *.
  destruct (to4 a) as [|x q'] eqn:T.
  - assert (bits = 128)%N as ->.
    { apply parse_addr_spec in A. rewrite (parse_addr_ip6 _ B) in A. now injection A. }
    assert (Q : List.length m = 16) by lia. rewrite Q, (proj1 B). cbn [Nat.eqb negb]. rewrite M, S. unfold mask_string. now destruct m.
  - destruct (to4_some _ B) as (q & O & Ea & Eq); [now rewrite T|]. assert (Q : q = x :: q') by congruence. subst a.
    assert (bits = 32)%N as ->.
    { rewrite <- Q in A. apply parse_addr_spec in A. rewrite (parse_addr_ip4 _ O) in A. now injection A. }
    assert (Q2 : List.length m = 4) by lia. rewrite Q2. cbn [Nat.eqb]. rewrite <- Q. rewrite (proj1 O). cbn [Nat.eqb]. rewrite M.
    assert (S2 : ip_string q = ip4_string q).
    { unfold ip_string. destruct O as [L4 _]. destruct q; [discriminate L4|]. rewrite L4. cbn [Nat.eqb orb negb]. unfold to4. rewrite L4. reflexivity. }
    rewrite S2. unfold mask_string. now destruct m.
Qed.
