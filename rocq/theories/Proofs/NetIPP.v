(** Text forms of addresses and prefixes read back. *)
From Coq Require Import String Ascii List Arith NArith ZArith Bool Lia.
From Verif Require Import Model.GoStr Model.Json Model.NetIP Spec.JsonSpec Spec.TypesSpec Proofs.StrP Proofs.JsonRT Proofs.NumP.
Import ListNotations.
Open Scope nat_scope.
Open Scope string_scope.

Ltac Zify.zify_post_hook ::= Z.to_euclidean_division_equations.

Lemma sforall_app p a b : sforall p (a ++ b) = sforall p a && sforall p b.
Proof. induction a as [|c a IH]; [reflexivity|]. cbn. rewrite IH. now rewrite andb_assoc. Qed.
Lemma sforall_cb p c s : p c = false -> sforall p s = true -> contains_byte c s = false.
Proof.
  intros P. unfold contains_byte. induction s as [|d s IH]; [reflexivity|]. cbn. intros H. apply andb_true_iff in H as [A B].
  apply orb_false_iff. split; [|exact (IH B)]. unfold is_byte. destruct (Ascii.eqb_spec c d) as [->|N]; [congruence|]. reflexivity.
Qed.
Lemma sforall_impl (p q : ascii -> bool) s : (forall c, p c = true -> q c = true) -> sforall p s = true -> sforall q s = true.
Proof. intros I. induction s as [|c s IH]; [reflexivity|]. cbn. intros H. apply andb_true_iff in H as [A B]. rewrite (I _ A), (IH B). reflexivity. Qed.
Lemma sforall_join p sep l : sforall p sep = true -> Forall (fun s => sforall p s = true) l -> sforall p (join sep l) = true.
Proof.
  intros S F. induction F as [|x l Hx F IH]; [reflexivity|]. destruct l as [|y l]; [exact Hx|].
  change (join sep (x :: y :: l)) with (x ++ sep ++ join sep (y :: l)). rewrite !sforall_app, Hx, S. exact IH.
Qed.

(** ** IPv4 *)

Lemma parse_octet_itoaN n : (n < 256)%N -> parse_octet (itoaN n) = Some n.
Proof.
  intros H. assert (E : forall s, digits s = Some n -> (forall r, s = String "0" r -> r = "") -> parse_octet s = Some n).
  { intros s D Z. unfold parse_octet. assert (L : (n <=? 255)%N = true) by (apply N.leb_le; lia).
    destruct s as [|c s]; [rewrite D, L; reflexivity|].
    destruct (Ascii.eqb_spec c "0") as [->|N].
    - destruct s as [|d s]; [rewrite D, L; reflexivity|]. specialize (Z _ eq_refl). discriminate.
    - destruct c as [b0 b1 b2 b3 b4 b5 b6 b7].
      destruct b0, b1, b2, b3, b4, b5, b6, b7; try (rewrite D, L; reflexivity). congruence. }
  apply E; [apply digits_itoaN|]. intros r R. pose proof (int_lit_itoaN n) as I. rewrite R in I. inversion I; subst; auto; congruence.
Qed.
Lemma itoaN_no c n : is_digit c = false -> contains_byte c (itoaN n) = false.
Proof. intros H. apply (sforall_cb is_digit); [exact H|apply itoaN_digits]. Qed.
Lemma parse_ipv4_string q : octets q -> parse_ipv4 (ip4_string q) = Some q.
Proof.
  intros [L F]. unfold ip4_string, parse_ipv4.
  change "." with (String "."%char ""). rewrite split_on_join.
  - destruct q as [|a [|b [|c [|d [|]]]]]; try discriminate L. cbn [map].
    rewrite !Forall_cons_iff in F. destruct F as (A & B & C & D & _). now rewrite !parse_octet_itoaN by assumption.
  - destruct q; [discriminate|discriminate].
  - apply Forall_forall. intros s I. apply in_map_iff in I as (x & <- & _). now apply itoaN_no.
Qed.
Definition addr_char (c : ascii) : bool := is_digit c || ((97 <=? code c) && (code c <=? 102))%N.
Lemma addr_kind_skip s t : sforall addr_char s = true -> addr_kind (s ++ t) = addr_kind t.
Proof.
  induction s as [|c s IH]; [reflexivity|]. cbn. intros H. apply andb_true_iff in H as [A B].
  destruct (Ascii.eqb_spec c ".") as [->|_]; [discriminate A|]. destruct (Ascii.eqb_spec c ":") as [->|_]; [discriminate A|].
  destruct (Ascii.eqb_spec c "%") as [->|_]; [discriminate A|]. auto.
Qed.
Lemma itoaN_addr n : sforall addr_char (itoaN n) = true.
Proof. eapply sforall_impl; [|apply itoaN_digits]. intros c D. unfold addr_char. now rewrite D. Qed.
Lemma addr_kind_ip4 q : octets q -> addr_kind (ip4_string q) = Some true.
Proof.
  intros [L F]. destruct q as [|a [|b q]]; try discriminate L. unfold ip4_string. cbn [map].
  change (join "." (itoaN a :: itoaN b :: map itoaN q)) with (itoaN a ++ "." ++ join "." (itoaN b :: map itoaN q)).
  rewrite addr_kind_skip by apply itoaN_addr. reflexivity.
Qed.
Lemma parse_addr_ip4 q : octets q -> parse_addr (ip4_string q) = Some (v4in6 q, 32%N).
Proof. intros H. unfold parse_addr. rewrite (addr_kind_ip4 _ H), (parse_ipv4_string _ H). reflexivity. Qed.

(** ** IPv6 *)
Lemma hexv_char d : (d < 16)%N -> hexv (hex_char d) = Some d /\ addr_char (hex_char d) = true.
Proof.
  intros H. assert (In d (map N.of_nat (seq 0 16))) as I.
  { apply in_map_iff. exists (N.to_nat d). split; [apply N2Nat.id|]. apply in_seq. lia. }
  assert (C : forallb (fun d => match hexv (hex_char d) with Some e => (e =? d)%N | None => false end && addr_char (hex_char d))
    (map N.of_nat (seq 0 16)) = true) by (vm_compute; reflexivity).
  rewrite forallb_forall in C. apply C in I. apply andb_true_iff in I as [A B]. split; [|exact B].
  destruct (hexv (hex_char d)) as [e|]; [|discriminate]. apply N.eqb_eq in A. now rewrite A.
Qed.
Definition stops (t : string) : Prop := t = "" \/ exists r, t = String ":" r.
Lemma span_hex_cons d s t l : (d < 16)%N -> span_hex (s ++ t) = (l, t) -> span_hex (String (hex_char d) s ++ t) = (d :: l, t).
Proof. intros H E. cbn. rewrite (proj1 (hexv_char d H)), E. reflexivity. Qed.
Lemma span_hex_stop t : stops t -> span_hex t = ([], t).
Proof. intros [->|[r ->]]; reflexivity. Qed.
Lemma span_hex16 x t : (x < 65536)%N -> stops t -> exists l, span_hex (hex16 x ++ t) = (l, t) /\ hex_num l = x /\ 1 <= List.length l <= 4.
Proof.
  intros H S. pose proof (span_hex_stop _ S) as S0. unfold hex16.
  assert (M : forall y, (y mod 16 < 16)%N) by (intros; apply N.mod_lt; discriminate).
  pose proof (fun s l d => span_hex_cons d s t l) as C.
  pose proof (C "" [] (x mod 16)%N (M _) S0) as C3.
  pose proof (C _ _ (x / 16 mod 16)%N (M _) C3) as C2. pose proof (C _ _ (x / 256 mod 16)%N (M _) C2) as C1.
  pose proof (C _ _ (x / 4096 mod 16)%N (M _) C1) as C0. clear C.
  destruct (N.leb_spec 16 x), (N.leb_spec 256 x), (N.leb_spec 4096 x); try lia; eexists; (split; [eassumption|]); (split; [|cbn; lia]);
    unfold hex_num; cbn [fold_left]; lia.
Qed.
Lemma hex16_nonempty x : exists c s, hex16 x = String c s /\ addr_char c = true.
Proof.
  unfold hex16. assert (M : forall y, (y mod 16 < 16)%N) by (intros; apply N.mod_lt; discriminate).
  pose proof (fun y => proj2 (hexv_char _ (M y))) as C.
  destruct (4096 <=? x)%N, (256 <=? x)%N, (16 <=? x)%N; eexists _, _; (split; [reflexivity|]); apply C.
Qed.
Lemma hex16_addr x : sforall addr_char (hex16 x) = true.
Proof.
  unfold hex16. assert (M : forall y, (y mod 16 < 16)%N) by (intros; apply N.mod_lt; discriminate).
  pose proof (fun y => proj2 (hexv_char _ (M y))) as C.
  destruct (4096 <=? x)%N, (256 <=? x)%N, (16 <=? x)%N; cbn [sforall]; rewrite !C; reflexivity.
Qed.

Fixpoint ungroup (g : list N) : list N :=
  match g with [] => [] | x :: g' => (x / 256)%N :: (x mod 256)%N :: ungroup g' end.
Lemma ungroup_length g : List.length (ungroup g) = 2 * List.length g.
Proof. induction g as [|x g IH]; [reflexivity|]. cbn [ungroup List.length]. rewrite IH. lia. Qed.
Lemma ungroup_app a b : ungroup (a ++ b)%list = (ungroup a ++ ungroup b)%list.
Proof. induction a as [|x a IH]; [reflexivity|]. cbn. now rewrite IH. Qed.
Definition word (x : N) : Prop := (x < 65536)%N.

(** One group. *)
Lemma v6_step f acc ell x t : word x -> stops t ->
  v6_loop (S f) acc ell (hex16 x ++ t) =
  let acc' := (acc ++ [x / 256; x mod 256]%N)%list in
  match t with
  | EmptyString => Some (acc', ell)
  | String _ r => match r with
      | EmptyString => None
      | String c2 r2 =>
          if Ascii.eqb c2 ":"%char then
            match ell with
            | Some _ => None
            | None => match r2 with EmptyString => Some (acc', Some (List.length acc')) | _ => v6_loop f acc' (Some (List.length acc')) r2 end
            end
          else v6_loop f acc' ell r
      end
  end.
Proof.
  intros W S. destruct (span_hex16 x t W S) as (l & E & V & L). cbn [v6_loop]. rewrite E, V.
  replace (List.length l =? 0)%nat with false by (symmetry; apply Nat.eqb_neq; lia).
  replace (4 <? List.length l)%nat with false by (symmetry; apply Nat.ltb_ge; lia). cbn [orb].
  destruct S as [->|[r ->]]; [reflexivity|]. cbn [Ascii.eqb]. reflexivity.
Qed.

Definition hexes (g : list N) : string := join ":" (map hex16 g).
Lemma hexes_cons x y g : hexes (x :: y :: g) = hex16 x ++ ":" ++ hexes (y :: g).
Proof. reflexivity. Qed.
Lemma hexes_head x g : exists c s, hexes (x :: g) = String c s /\ addr_char c = true.
Proof.
  destruct (hex16_nonempty x) as (c & s & E & A). destruct g as [|y g]; [exists c, s; split; [exact E|exact A]|].
  rewrite hexes_cons, E. eexists _, _. split; [reflexivity|exact A].
Qed.
Lemma addr_char_colon c : addr_char c = true -> Ascii.eqb c ":" = false.
Proof. destruct (Ascii.eqb_spec c ":") as [->|]; [discriminate|reflexivity]. Qed.
(** All groups to the end. *)
Lemma v6_tail : forall g f acc ell, g <> [] -> List.length g <= f -> Forall word g ->
  v6_loop f acc ell (hexes g) = Some ((acc ++ ungroup g)%list, ell).
Proof.
  induction g as [|x g IH]; intros f acc ell N L W; [congruence|]. apply Forall_cons_iff in W as [Wx W].
  destruct f as [|f]; [cbn in L; lia|]. destruct g as [|y g].
  - pose proof (v6_step f acc ell x "" Wx (or_introl eq_refl)) as E. rewrite append_nil_r in E. exact E.
  - rewrite hexes_cons. change (hex16 x ++ ":" ++ hexes (y :: g)) with (hex16 x ++ String ":" (hexes (y :: g))).
    rewrite v6_step by (auto; right; eauto). cbv zeta.
    destruct (hexes_head y g) as (c & s & E & A). rewrite E, (addr_char_colon _ A), <- E.
    rewrite IH by (try discriminate; cbn in *; auto; lia). cbn [ungroup]. rewrite <- app_assoc. reflexivity.
Qed.
(** Groups up to the ellipsis. *)
Lemma v6_ellipsis : forall g f acc t, g <> [] -> List.length g <= f -> Forall word g ->
  v6_loop f acc None (hexes g ++ "::" ++ t) =
  let acc' := (acc ++ ungroup g)%list in
  match t with EmptyString => Some (acc', Some (List.length acc')) | _ => v6_loop (f - List.length g) acc' (Some (List.length acc')) t end.
Proof.
  induction g as [|x g IH]; intros f acc t N L W; [congruence|]. apply Forall_cons_iff in W as [Wx W].
  destruct f as [|f]; [cbn in L; lia|]. destruct g as [|y g].
  - change (hexes [x]) with (hex16 x). change (hex16 x ++ "::" ++ t) with (hex16 x ++ String ":" (String ":" t)).
    rewrite v6_step by (auto; right; eauto). cbv zeta. cbn [ungroup List.length Nat.sub]. rewrite Nat.sub_0_r.
    destruct (Ascii.eqb_spec ":" ":"); [|congruence]. reflexivity.
  - rewrite hexes_cons. rewrite <- !append_assoc.
    change (hex16 x ++ ":" ++ hexes (y :: g) ++ "::" ++ t) with (hex16 x ++ String ":" (hexes (y :: g) ++ "::" ++ t)).
    rewrite v6_step by (auto; right; eauto). cbv zeta.
    destruct (hexes_head y g) as (c & s & E & A).
    assert (E2 : hexes (y :: g) ++ "::" ++ t = String c (s ++ "::" ++ t)) by (rewrite E; reflexivity).
    rewrite E2, (addr_char_colon _ A), <- E2.
    rewrite IH by (try discriminate; cbn in *; auto; lia). cbv zeta. cbn [ungroup List.length Nat.sub]. rewrite <- app_assoc. reflexivity.
Qed.

Lemma skipn_plus {A} (a b : nat) (l : list A) : skipn a (skipn b l) = skipn (b + a) l.
Proof. revert l. induction b as [|b IH]; intros l; [reflexivity|]. destruct l; [now rewrite !skipn_nil|apply IH]. Qed.
(** The chosen run. *)
Lemma zero_run_spec g : zero_run g <= List.length g /\ firstn (zero_run g) g = repeat 0%N (zero_run g).
Proof.
  induction g as [|x g IH]; cbn; [auto|]. destruct (N.eqb_spec x 0) as [->|]; cbn; [|split; [lia|reflexivity]].
  destruct IH as [A B]. split; [lia|]. now rewrite B.
Qed.
Definition good_run (g : list N) (r : nat * nat) : Prop :=
  snd r = 0 \/ (2 <= snd r /\ fst r + snd r <= List.length g /\ firstn (snd r) (skipn (fst r) g) = repeat 0%N (snd r)).
Lemma best_run_spec whole : forall g i best, skipn i whole = g -> good_run whole best -> good_run whole (best_run i g best).
Proof.
  induction g as [|x g IH]; intros i best E G; cbn [best_run]; [exact G|].
  apply IH.
  - replace (S i) with (i + 1) by lia. rewrite <- skipn_plus, E. reflexivity.
  - destruct (2 <=? zero_run (x :: g))%nat eqn:L; [|exact G]. destruct (snd best <? zero_run (x :: g))%nat; [|exact G]. cbn [andb].
    apply Nat.leb_le in L. destruct (zero_run_spec (x :: g)) as [A B]. right. cbn [fst snd].
    split; [exact L|]. split; [|rewrite E; exact B].
    assert (List.length (skipn i whole) = List.length (x :: g)) by (now rewrite E). rewrite skipn_length in H. cbn in *. lia.
Qed.

Lemma groups_bytes : forall n a, List.length a = 2 * n -> Forall (fun x => (x < 256)%N) a ->
  List.length (groups a) = n /\ Forall word (groups a) /\ ungroup (groups a) = a.
Proof.
  induction n as [|n IH]; intros a L F.
  - destruct a; [split; [reflexivity|split; [constructor|reflexivity]]|discriminate L].
  - destruct a as [|h [|l a]]; try (cbn in L; lia). cbn [List.length] in L. rewrite !Forall_cons_iff in F. destruct F as (H1 & H2 & F).
    destruct (IH a) as (A & B & C); [lia|exact F|]. cbn [groups List.length ungroup]. rewrite A, C.
    split; [reflexivity|]. split; [apply Forall_cons; [unfold word; lia|exact B]|].
    f_equal; [|f_equal]; lia.
Qed.
Lemma parse_ipv6_plain s : (exists c r, s = String c r /\ addr_char c = true) ->
  parse_ipv6 s = match v6_loop 8 [] None s with Some x => expand_v6 x | None => None end.
Proof.
  intros (c & r & -> & A). unfold parse_ipv6. destruct r as [|c2 r]; [reflexivity|]. rewrite (addr_char_colon _ A). reflexivity.
Qed.
Lemma parse_ipv6_string a : bytes16 a -> parse_ipv6 (ip6_string a) = Some a.
Proof.
  intros [L F]. destruct (groups_bytes 8 a L F) as (GL & GW & GU). unfold ip6_string.
  pose proof (best_run_spec (groups a) (groups a) 0 (0, 0) eq_refl (or_introl eq_refl)) as R.
  destruct (best_run 0 (groups a) (0, 0)) as [st l]. destruct (Nat.eqb_spec l 0) as [->|Nl].
  - fold (hexes (groups a)). destruct (groups a) as [|x g] eqn:Eg; [discriminate GL|].
    rewrite parse_ipv6_plain by apply hexes_head. rewrite v6_tail by (try discriminate; try lia; auto).
    cbn [app]. rewrite GU. unfold expand_v6. rewrite L. reflexivity.
  - destruct R as [R|(R1 & R2 & R3)]; [cbn in R; congruence|]. cbn [fst snd] in *.
    set (g := groups a) in *. fold (hexes (firstn st g)). fold (hexes (skipn (st + l) g)).
    assert (Split : g = (firstn st g ++ repeat 0%N l ++ skipn (st + l) g)%list).
    { rewrite <- R3. rewrite <- (firstn_skipn st g) at 1. f_equal. rewrite <- (firstn_skipn l (skipn st g)) at 1. f_equal.
      rewrite skipn_plus. reflexivity. }
    assert (Lh : List.length (firstn st g) = st) by (rewrite firstn_length; lia).
    assert (Lt : List.length (skipn (st + l) g) = 8 - st - l) by (rewrite skipn_length; lia).
    assert (Wh : Forall word (firstn st g)) by (rewrite Split in GW; apply Forall_app in GW; tauto).
    assert (Wt : Forall word (skipn (st + l) g)) by (rewrite Split in GW; apply Forall_app in GW as [_ GW]; apply Forall_app in GW; tauto).
    assert (Uz : ungroup (repeat 0%N l) = repeat 0%N (2 * l)).
    { clear. induction l as [|l IH]; [reflexivity|]. cbn [repeat ungroup]. rewrite IH. replace (2 * S l) with (S (S (2 * l))) by lia. reflexivity. }
    assert (U : a = (ungroup (firstn st g) ++ repeat 0%N (2 * l) ++ ungroup (skipn (st + l) g))%list).
    { rewrite <- GU. rewrite Split at 1. now rewrite !ungroup_app, Uz. }
    set (h := firstn st g) in *. set (t := skipn (st + l) g) in *. clearbody h t.
    assert (Ex : forall acc, acc = (ungroup h ++ ungroup t)%list -> expand_v6 (acc, Some (2 * st)) = Some a).
    { intros acc ->. unfold expand_v6. rewrite app_length, !ungroup_length, Lh, Lt.
      destruct (Nat.ltb_spec (2 * st + 2 * (8 - st - l)) 16); [|lia].
      assert (Q : List.length (ungroup h) = 2 * st) by (rewrite ungroup_length; lia).
      f_equal. rewrite <- Q. rewrite firstn_app, Nat.sub_diag, firstn_all, skipn_app, Nat.sub_diag, skipn_all. cbn [firstn skipn app].
      rewrite app_nil_r. rewrite U. f_equal. f_equal. f_equal. lia. }
    destruct h as [|x h].
    + assert (st = 0) by (cbn in Lh; lia). subst st. change (hexes [] ++ "::" ++ hexes t) with ("::" ++ hexes t).
      change (parse_ipv6 ("::" ++ hexes t)) with (match hexes t with EmptyString => Some (repeat 0%N 16)
        | _ => match v6_loop 8 [] (Some 0) (hexes t) with Some x => expand_v6 x | None => None end end).
      destruct t as [|y t].
      * cbn [hexes map join]. change (hexes []) with "". rewrite U. cbn [ungroup app]. rewrite app_nil_r. cbn [List.length] in Lt. assert (l = 8) by lia. subst l. reflexivity.
      * rewrite v6_tail; [|discriminate|rewrite Lt; lia|exact Wt].
        destruct (hexes_head y t) as (c & s & E & _). rewrite E. apply Ex. reflexivity.
    + rewrite parse_ipv6_plain.
      2:{ destruct (hexes_head x h) as (c & s & E & A). rewrite E. eexists _, _. split; [reflexivity|exact A]. }
      rewrite v6_ellipsis by (try discriminate; try lia; auto). cbv zeta. cbn [app].
      replace (List.length (ungroup (x :: h))) with (2 * st) by (rewrite ungroup_length; lia).
      destruct t as [|y t].
      * change (hexes []) with "". apply Ex. now rewrite app_nil_r.
      * destruct (hexes_head y t) as (c & s & E & _). rewrite E, <- E.
        rewrite v6_tail; [|discriminate|rewrite Lt, Lh; lia|exact Wt]. apply Ex. reflexivity.
Qed.

Definition colon_char (c : ascii) : bool := addr_char c || Ascii.eqb c ":".
Lemma hexes_chars g : sforall colon_char (hexes g) = true.
Proof.
  apply sforall_join; [reflexivity|]. apply Forall_forall. intros s I. apply in_map_iff in I as (x & <- & _).
  eapply sforall_impl; [|apply hex16_addr]. intros c H. unfold colon_char. now rewrite H.
Qed.
Lemma ip6_chars a : sforall colon_char (ip6_string a) = true.
Proof.
  unfold ip6_string. destruct (best_run _ _ _) as [st l]. destruct (l =? 0)%nat; [apply hexes_chars|].
  fold (hexes (firstn st (groups a))). fold (hexes (skipn (st + l) (groups a))). rewrite !sforall_app, !hexes_chars. reflexivity.
Qed.
Lemma addr_kind_colon s : sforall colon_char s = true -> contains_byte ":" s = true -> addr_kind s = Some false.
Proof.
  induction s as [|c s IH]; [discriminate|]. cbn [sforall addr_kind]. intros H. apply andb_true_iff in H as [A B].
  destruct (Ascii.eqb_spec c ".") as [->|_]; [discriminate A|]. destruct (Ascii.eqb_spec c ":") as [->|N]; [reflexivity|].
  destruct (Ascii.eqb_spec c "%") as [->|_]; [discriminate A|]. intros C. apply (IH B). unfold contains_byte in *. cbn [sexists] in C.
  apply orb_true_iff in C as [C|C]; [|exact C]. unfold is_byte in C. apply Ascii.eqb_eq in C. congruence.
Qed.
Lemma cb_app ch a b : contains_byte ch (a ++ b) = contains_byte ch a || contains_byte ch b.
Proof. unfold contains_byte. induction a as [|c a IH]; [reflexivity|]. cbn. rewrite IH. now rewrite orb_assoc. Qed.
Lemma ip6_colon a : bytes16 a -> contains_byte ":" (ip6_string a) = true.
Proof.
  intros [L F]. destruct (groups_bytes 8 a L F) as (GL & _ & _). unfold ip6_string. destruct (best_run _ _ _) as [st l].
  destruct (l =? 0)%nat.
  - destruct (groups a) as [|x [|y g]]; try discriminate GL. fold (hexes (x :: y :: g)). rewrite hexes_cons, !cb_app. now rewrite orb_true_r.
  - rewrite !cb_app. change (contains_byte ":" "::") with true. now rewrite orb_true_r.
Qed.
Lemma parse_addr_ip6 a : bytes16 a -> parse_addr (ip6_string a) = Some (a, 128%N).
Proof.
  intros H. unfold parse_addr. rewrite (addr_kind_colon _ (ip6_chars a) (ip6_colon a H)).
  rewrite (sforall_cb _ "%"%char _ eq_refl (ip6_chars a)), (parse_ipv6_string a H). reflexivity.
Qed.

(** 16-byte addresses, IPv4 ones in their 16-byte form. *)
Lemma to4_v4in6 q : octets q -> to4 (v4in6 q) = q.
Proof.
  intros [L F]. destruct q as [|a [|b [|c [|d [|]]]]]; try discriminate L. reflexivity.
Qed.
Lemma to4_some a : bytes16 a -> to4 a <> [] -> exists q, octets q /\ a = v4in6 q /\ to4 a = q.
Proof.
  intros [L F] N. unfold to4 in *. rewrite L in *. cbn [Nat.eqb] in *.
  destruct (forallb (N.eqb 0) (firstn 10 a) && forallb (N.eqb 255) (firstn 2 (skipn 10 a)))%bool eqn:E;
    [|exfalso; apply N; cbn [andb] in *; rewrite E; reflexivity].
  cbn [andb]. rewrite E. apply andb_true_iff in E as [A B].
  do 16 (destruct a as [|?x a]; [discriminate L|]). destruct a; [|discriminate L].
  cbn [firstn skipn forallb] in A, B. rewrite !andb_true_iff, !N.eqb_eq in A. rewrite !andb_true_iff, !N.eqb_eq in B.
  exists [x11; x12; x13; x14]. rewrite !Forall_cons_iff in F.
  split; [split; [reflexivity|]|].
  - rewrite !Forall_cons_iff. tauto.
  - split; [|reflexivity]. unfold v4in6. cbn [repeat app]. decompose [and] A. decompose [and] B. subst. reflexivity.
Qed.
Lemma ip_string16 a : bytes16 a -> ip_string a = match to4 a with [] => ip6_string a | q => ip4_string q end.
Proof. intros [L F]. unfold ip_string. destruct a; [discriminate|]. rewrite L. reflexivity. Qed.
Lemma parse_ip_string a : bytes16 a -> parse_ip (ip_string a) = Some a.
Proof.
  intros H. rewrite (ip_string16 _ H). unfold parse_ip. destruct (to4 a) as [|x q] eqn:E.
  - now rewrite parse_addr_ip6.
  - destruct (to4_some a H) as (p & O & -> & E2); [now rewrite E|]. rewrite E in E2. rewrite E2. now rewrite parse_addr_ip4.
Qed.

(** ** Prefixes *)
Lemma cidr_zero k : forallb (N.eqb 0) (cidr_bytes k 0) = true.
Proof. induction k; [reflexivity|]. cbn. exact IHk. Qed.
Lemma mask_length : forall k n, (n <= 8 * N.of_nat k)%N -> simple_mask_length (cidr_bytes k n) = Some n.
Proof.
  induction k as [|k IH]; intros n H; [cbn in *; f_equal; lia|]. cbn [cidr_bytes]. destruct (N.leb_spec 8 n).
  - cbn [simple_mask_length]. change (255 =? 255)%N with true. cbv iota. rewrite IH by lia. cbn [option_map]. f_equal. lia.
  - cbn [simple_mask_length]. rewrite cidr_zero.
    assert (C : In n (map N.of_nat (seq 0 8))).
    { apply in_map_iff. exists (N.to_nat n). split; [apply N2Nat.id|apply in_seq; lia]. }
    assert (T : forallb (fun n => negb (255 - (2 ^ (8 - n) - 1) =? 255)%N &&
       match byte_ones (255 - (2 ^ (8 - n) - 1)) with Some k => (k =? n)%N | None => false end) (map N.of_nat (seq 0 8)) = true)
      by (vm_compute; reflexivity).
    rewrite forallb_forall in T. apply T in C. apply andb_true_iff in C as [A B]. apply negb_true_iff in A. rewrite A.
    destruct (byte_ones _); [|discriminate]. apply N.eqb_eq in B. now rewrite B.
Qed.
Lemma cidr_length k n : List.length (cidr_bytes k n) = k.
Proof. revert n. induction k as [|k IH]; intros n; [reflexivity|]. cbn. destruct (8 <=? n)%N; cbn; now rewrite IH. Qed.

(** Prefixes as they come out of parsing an IPv4 or a plain IPv6 one. *)

Lemma ipnet_string4 q n : octets q -> (n <= 32)%N ->
  ipnet_string {| n_ip := v4in6 q; n_mask := cidr_mask n 32 |} = ip4_string q ++ "/" ++ itoaN n.
Proof.
  intros O H. unfold ipnet_string, net_and_mask. cbn [n_ip n_mask]. rewrite (to4_v4in6 _ O).
  destruct O as [L F]. destruct q as [|x q]; [discriminate|]. change (cidr_mask n 32) with (cidr_bytes 4 n). rewrite cidr_length.
  cbn [Nat.eqb]. rewrite L. cbn [Nat.eqb]. rewrite (mask_length 4) by exact H.
  f_equal. unfold ip_string. rewrite L. cbn [Nat.eqb orb negb]. unfold to4. rewrite L. reflexivity.
Qed.
Lemma ipnet_string6 a n : bytes16 a -> to4 a = [] -> (n <= 128)%N ->
  ipnet_string {| n_ip := a; n_mask := cidr_mask n 128 |} = ip6_string a ++ "/" ++ itoaN n.
Proof.
  intros B T H. unfold ipnet_string, net_and_mask. cbn [n_ip n_mask]. rewrite T.
  change (cidr_mask n 128) with (cidr_bytes 16 n). rewrite cidr_length. rewrite (proj1 B). cbn [Nat.eqb negb].
  rewrite (mask_length 16) by exact H. f_equal. rewrite (ip_string16 _ B), T. reflexivity.
Qed.
Lemma cut_on_app c a b : contains_byte c a = false -> cut_on c (a ++ String c b) = Some (a, b).
Proof. intros H. apply cut_on_some. auto. Qed.
Lemma parse_cidr_string p : prefix_form p -> parse_cidr (ipnet_string p) = Some p.
Proof.
  intros [q n O H|a n B T H].
  - rewrite (ipnet_string4 _ _ O H). unfold parse_cidr. change ("/" ++ itoaN n) with (String "/"%char (itoaN n)). rewrite cut_on_app.
    + rewrite (parse_addr_ip4 _ O), digits_itoaN. apply N.leb_le in H. now rewrite H.
    + apply (sforall_cb (fun c => is_digit c || Ascii.eqb c ".")); [reflexivity|]. apply sforall_join; [reflexivity|].
      apply Forall_forall. intros s I. apply in_map_iff in I as (x & <- & _).
      eapply sforall_impl; [|apply itoaN_digits]. intros c D. now rewrite D.
  - rewrite (ipnet_string6 _ _ B T H). unfold parse_cidr. change ("/" ++ itoaN n) with (String "/"%char (itoaN n)). rewrite cut_on_app.
    + rewrite (parse_addr_ip6 _ B), digits_itoaN. apply N.leb_le in H. now rewrite H.
    + apply (sforall_cb colon_char); [reflexivity|apply ip6_chars].
Qed.

(** All these texts are plain ASCII. *)
Definition ascii_text (s : string) : Prop := sforall (fun c => (code c <? 128)%N) s = true.
Lemma addr_ascii c : addr_char c = true -> (code c <? 128)%N = true.
Proof.
  unfold addr_char, is_digit. intros H. apply orb_true_iff in H. rewrite !andb_true_iff, !N.leb_le in H. apply N.ltb_lt. lia.
Qed.
Lemma itoaN_ascii n : ascii_text (itoaN n).
Proof. eapply sforall_impl; [apply addr_ascii|apply itoaN_addr]. Qed.
Lemma ip4_ascii q : ascii_text (ip4_string q).
Proof.
  apply sforall_join; [reflexivity|]. apply Forall_forall. intros s I. apply in_map_iff in I as (x & <- & _). apply itoaN_ascii.
Qed.
Lemma ip6_ascii a : ascii_text (ip6_string a).
Proof.
  eapply sforall_impl; [|apply ip6_chars]. intros c H. unfold colon_char in H. apply orb_true_iff in H as [H|H]; [now apply addr_ascii|].
  apply Ascii.eqb_eq in H. subst. reflexivity.
Qed.
Lemma ip_string_ascii a : bytes16 a -> ascii_text (ip_string a).
Proof. intros H. rewrite (ip_string16 _ H). destruct (to4 a); [apply ip6_ascii|apply ip4_ascii]. Qed.
Lemma ip_string_nonempty a : bytes16 a -> ip_string a <> "".
Proof. intros H E. pose proof (parse_ip_string a H) as P. rewrite E in P. discriminate. Qed.
Lemma ipnet_ascii p : prefix_form p -> ascii_text (ipnet_string p).
Proof.
  intros [q n O H|a n B T H]; [rewrite (ipnet_string4 _ _ O H)|rewrite (ipnet_string6 _ _ B T H)]; unfold ascii_text; rewrite !sforall_app.
  - rewrite (ip4_ascii q), (itoaN_ascii n). reflexivity.
  - rewrite (ip6_ascii a), (itoaN_ascii n). reflexivity.
Qed.

(** ** What parsing yields *)
Definition small (l : list N) : Prop := Forall (fun x => (x < 256)%N) l.
Lemma hexv_small c v : hexv c = Some v -> (v < 16)%N.
Proof.
  unfold hexv, is_digit. intros H.
  destruct ((48 <=? code c) && (code c <=? 57))%N eqn:A; [injection H as <-; apply andb_true_iff in A; rewrite !N.leb_le in A; lia|].
  destruct ((97 <=? code c) && (code c <=? 102))%N eqn:B; [injection H as <-; apply andb_true_iff in B; rewrite !N.leb_le in B; lia|].
  destruct ((65 <=? code c) && (code c <=? 70))%N eqn:C; [injection H as <-; apply andb_true_iff in C; rewrite !N.leb_le in C; lia|discriminate].
Qed.
Lemma span_hex_small s l r : span_hex s = (l, r) -> Forall (fun v => (v < 16)%N) l.
Proof.
  revert l r. induction s as [|c s IH]; intros l r H; cbn in H; [injection H as <- _; constructor|].
  destruct (hexv c) eqn:E; [|injection H as <- _; constructor]. destruct (span_hex s) as [l' r'] eqn:E2. injection H as <- _.
  apply Forall_cons; [eapply hexv_small; eassumption|eapply IH; reflexivity].
Qed.
Lemma hex_num_small l : Forall (fun v => (v < 16)%N) l -> List.length l <= 4 -> (hex_num l < 65536)%N.
Proof.
  intros F L. unfold hex_num. destruct l as [|a [|b [|c [|d [|]]]]]; cbn in L |- *; rewrite ?Forall_cons_iff in F; try lia.
Qed.
Lemma parse_octet_small s x : parse_octet s = Some x -> (x < 256)%N.
Proof.
  intros H. assert (E : match digits s with Some n => if (n <=? 255)%N then Some n else None | None => None end = Some x).
  { unfold parse_octet in H. destruct s as [|c s]; [exact H|]. destruct c as [b0 b1 b2 b3 b4 b5 b6 b7].
    destruct b0, b1, b2, b3, b4, b5, b6, b7; try exact H. destruct s; [exact H|discriminate H]. }
  destruct (digits s); [|discriminate]. destruct (N.leb_spec n 255); [|discriminate]. injection E as <-. lia.
Qed.
Lemma parse_ipv4_octets s q : parse_ipv4 s = Some q -> octets q.
Proof.
  unfold parse_ipv4. destruct (split_on "." s) as [|a [|b [|c [|d [|]]]]]; try discriminate.
  destruct (parse_octet a) eqn:A; [|discriminate]. destruct (parse_octet b) eqn:B; [|discriminate].
  destruct (parse_octet c) eqn:C; [|discriminate]. destruct (parse_octet d) eqn:D; [|discriminate].
  intros H. injection H as <-. split; [reflexivity|]. repeat (apply Forall_cons; [eapply parse_octet_small; eassumption|]). constructor.
Qed.
Lemma v6_loop_small : forall f acc ell s acc' ell', v6_loop f acc ell s = Some (acc', ell') -> small acc -> List.length acc + 2 * f <= 16 ->
  small acc' /\ List.length acc' <= 16.
Proof.
  induction f as [|f IH]; intros acc ell s acc' ell' H S L; cbn [v6_loop] in H.
  - destruct s; [|discriminate]. injection H as <- _. split; [exact S|lia].
  - destruct (span_hex s) as [hs rest] eqn:E. destruct ((List.length hs =? 0)%nat || (4 <? List.length hs)%nat) eqn:Q; [discriminate|].
    apply orb_false_iff in Q as [_ Q]. apply Nat.ltb_ge in Q. pose proof (hex_num_small _ (span_hex_small _ _ _ E) Q) as X.
    set (x := hex_num hs) in *.
    assert (S' : small (acc ++ [(x / 256)%N; (x mod 256)%N])%list).
    { apply Forall_app. split; [exact S|]. apply Forall_cons; [lia|]. apply Forall_cons; [|constructor]. apply N.mod_lt. discriminate. }
    assert (L' : List.length (acc ++ [(x / 256)%N; (x mod 256)%N])%list = List.length acc + 2) by (rewrite app_length; reflexivity).
    destruct rest as [|c r]; [injection H as <- _; split; [exact S'|lia]|].
    destruct (Ascii.eqb c "."); [|destruct (Ascii.eqb c ":"); cbn [negb] in H; [|discriminate]].
    + destruct (match ell with None => negb (List.length acc =? 12)%nat | Some _ => false end); [discriminate|].
      destruct (Nat.ltb_spec 16 (List.length acc + 4)); [discriminate|]. destruct (parse_ipv4 s) as [q|] eqn:P; [|discriminate].
      injection H as <- _. apply parse_ipv4_octets in P as [PL PF]. split; [apply Forall_app; auto|]. rewrite app_length. lia.
    + destruct r as [|c2 r2]; [discriminate|]. destruct (Ascii.eqb c2 ":").
      * destruct ell; [discriminate|]. destruct r2; [injection H as <- _; split; [exact S'|lia]|]. eapply IH; [exact H|exact S'|lia].
      * eapply IH; [exact H|exact S'|lia].
Qed.
Lemma expand_bytes acc ell a : expand_v6 (acc, ell) = Some a -> small acc -> List.length acc <= 16 -> bytes16 a.
Proof.
  unfold expand_v6. intros H S L. destruct (Nat.ltb_spec (List.length acc) 16).
  - destruct ell as [e|]; [|discriminate]. injection H as <-. rewrite <- (firstn_skipn e acc) in S. apply Forall_app in S as [S1 S2].
    split.
    + rewrite !app_length, repeat_length. pose proof (f_equal (@List.length N) (firstn_skipn e acc)) as Q. rewrite app_length in Q. change (List.length (firstn e acc) + ((16 - List.length acc) + List.length (skipn e acc)) = 16). lia.
    + apply Forall_app. split; [exact S1|]. apply Forall_app. split; [|exact S2]. apply Forall_forall. intros x I. apply repeat_spec in I. lia.
  - destruct ell; [discriminate|]. injection H as <-. split; [lia|exact S].
Qed.
Lemma parse_ipv6_bytes s a : parse_ipv6 s = Some a -> bytes16 a.
Proof.
  assert (G : forall ell t b, match v6_loop 8 [] ell t with Some x => expand_v6 x | None => None end = Some b -> bytes16 b).
  { intros ell t b H. destruct (v6_loop 8 [] ell t) as [[acc e]|] eqn:E; [|discriminate].
    destruct (v6_loop_small _ _ _ _ _ _ E) as [S L]; [constructor|cbn; lia|]. eapply expand_bytes; eassumption. }
  unfold parse_ipv6. intros H. destruct s as [|c1 [|c2 r]]; [exact (G None "" _ H)|exact (G None (String c1 "") _ H)|].
  destruct (Ascii.eqb c1 ":" && Ascii.eqb c2 ":"); [|exact (G None (String c1 (String c2 r)) _ H)].
  destruct r as [|c3 r]; [|exact (G (Some 0) (String c3 r) _ H)]. injection H as <-. split; [reflexivity|].
  apply Forall_forall. intros x I. apply (repeat_spec 16) in I. subst x. reflexivity.
Qed.
Lemma v4in6_bytes q : octets q -> bytes16 (v4in6 q).
Proof.
  intros [L F]. split; [unfold v4in6; cbn; rewrite L; reflexivity|]. unfold v4in6. cbn [repeat app].
  repeat (apply Forall_cons; [lia|]). exact F.
Qed.
Lemma parse_addr_form s a bits : parse_addr s = Some (a, bits) ->
  (bits = 32%N /\ exists q, octets q /\ a = v4in6 q) \/ (bits = 128%N /\ bytes16 a).
Proof.
  unfold parse_addr. destruct (addr_kind s) as [[|]|]; [| |discriminate].
  - destruct (parse_ipv4 s) as [q|] eqn:E; [|discriminate]. intros H. injection H as <- <-. left. split; [reflexivity|].
    exists q. split; [eapply parse_ipv4_octets; eassumption|reflexivity].
  - destruct (contains_byte "%" s); [discriminate|]. destruct (parse_ipv6 s) as [b|] eqn:E; [|discriminate].
    intros H. injection H as <- <-. right. split; [reflexivity|eapply parse_ipv6_bytes; eassumption].
Qed.
Lemma parse_ip_bytes s a : parse_ip s = Some a -> bytes16 a.
Proof.
  unfold parse_ip. destruct (parse_addr s) as [[b bits]|] eqn:E; [|discriminate]. intros H. injection H as <-.
  apply parse_addr_form in E as [[_ (q & O & ->)]|[_ B]]; [now apply v4in6_bytes|exact B].
Qed.
(** A parsed prefix is of the standard form unless it is an IPv4-mapped IPv6 one. *)
Lemma parse_cidr_form s p : parse_cidr s = Some p ->
  prefix_form p \/ exists q n, octets q /\ (n <= 128)%N /\ p = {| n_ip := v4in6 q; n_mask := cidr_mask n 128 |}.
Proof.
  unfold parse_cidr. destruct (cut_on "/" s) as [[addr mask]|]; [|discriminate]. destruct (parse_addr addr) as [[a bits]|] eqn:E; [|discriminate].
  destruct (digits mask) as [n|]; [|discriminate]. destruct (N.leb_spec n bits); [|discriminate]. intros X. injection X as <-.
  apply parse_addr_form in E as [[-> (q & O & ->)]|[-> B]]; [left; now constructor|].
  destruct (to4 a) as [|x q] eqn:T; [left; now constructor|]. right.
  destruct (to4_some a B) as (p & O & -> & _); [now rewrite T|]. exists p, n. auto.
Qed.
