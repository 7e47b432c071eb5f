(** Lemmas about strings and string-keyed maps. *)
From Coq Require Import String Ascii List Arith NArith ZArith Bool Lia.
From Verif Require Import Model.GoStr.
Import ListNotations.
Open Scope string_scope.

(** ** Append, length, take, drop *)
Lemma append_nil_r s : s ++ "" = s.
Proof. induction s as [|c s IH]; [reflexivity|]. cbn. now rewrite IH. Qed.
Lemma append_assoc (a b c : string) : a ++ b ++ c = (a ++ b) ++ c.
Proof. induction a as [|x a IH]; [reflexivity|]. cbn. now rewrite IH. Qed.
Lemma length_append a b : String.length (a ++ b) = String.length a + String.length b.
Proof. induction a as [|x a IH]; [reflexivity|]. cbn. now rewrite IH. Qed.
Lemma append_inj_l (a b c : string) : a ++ b = a ++ c -> b = c.
Proof. induction a as [|x a IH]; cbn; [trivial|]. intros H. injection H. exact IH. Qed.
Lemma append_inj_r (a b c : string) : a ++ c = b ++ c -> a = b.
Proof.
  revert b. induction a as [|x a IH]; intros b H.
  - destruct b as [|y b]; [reflexivity|].
    apply (f_equal String.length) in H. rewrite !length_append in H. cbn in H. lia.
  - destruct b as [|y b].
    + apply (f_equal String.length) in H. rewrite !length_append in H. cbn in H. lia.
    + cbn in H. injection H as Hx Ht. subst. f_equal. now apply IH.
Qed.
Lemma length_nil s : String.length s = 0 -> s = "".
Proof. destruct s; [reflexivity|discriminate]. Qed.
Lemma append_eq_nil a b : a ++ b = "" -> a = "" /\ b = "".
Proof. destruct a; cbn; [auto|discriminate]. Qed.

Lemma sdrop_0 s : sdrop 0 s = s.
Proof. reflexivity. Qed.
Lemma sdrop_nil n : sdrop n "" = "".
Proof. destruct n; reflexivity. Qed.
Lemma stake_sdrop n s : stake n s ++ sdrop n s = s.
Proof.
  revert s. induction n as [|n IH]; intros s; [reflexivity|].
  destruct s as [|c s]; [reflexivity|]. cbn. now rewrite IH.
Qed.
Lemma length_sdrop n s : String.length (sdrop n s) = String.length s - n.
Proof.
  revert s. induction n as [|n IH]; intros s; [cbn; lia|].
  destruct s as [|c s]; [reflexivity|]. cbn. apply IH.
Qed.
Lemma length_stake n s : String.length (stake n s) = Nat.min n (String.length s).
Proof.
  revert s. induction n as [|n IH]; intros s; [reflexivity|].
  destruct s as [|c s]; [reflexivity|]. cbn. now rewrite IH.
Qed.
Lemma sdrop_append_exact a b : sdrop (String.length a) (a ++ b) = b.
Proof. induction a as [|x a IH]; [reflexivity|]. exact IH. Qed.
Lemma stake_append_exact a b : stake (String.length a) (a ++ b) = a.
Proof. induction a as [|x a IH]; [reflexivity|]. cbn. now rewrite IH. Qed.
Lemma sdrop_append_le n a b : n <= String.length a -> sdrop n (a ++ b) = sdrop n a ++ b.
Proof.
  revert a. induction n as [|n IH]; intros a H; [reflexivity|].
  destruct a as [|x a]; cbn in *; [lia|]. apply IH. lia.
Qed.
Lemma stake_append_le n a b : n <= String.length a -> stake n (a ++ b) = stake n a.
Proof.
  revert a. induction n as [|n IH]; intros a H; [reflexivity|].
  destruct a as [|x a]; cbn in *; [lia|]. f_equal. apply IH. lia.
Qed.
Lemma sdrop_all s : sdrop (String.length s) s = "".
Proof. induction s as [|c s IH]; [reflexivity|]. exact IH. Qed.

(** ** Bytes *)
Lemma code_lt_256 c : (code c < 256)%N.
Proof. unfold code. destruct c as [[] [] [] [] [] [] [] []]; cbn; lia. Qed.
Lemma chr_code c : chr (code c) = c.
Proof. apply ascii_N_embedding. Qed.
Lemma code_chr n : (n < 256)%N -> code (chr n) = n.
Proof. apply N_ascii_embedding. Qed.
Lemma code_inj a b : code a = code b -> a = b.
Proof. intros H. rewrite <- (chr_code a), <- (chr_code b). now rewrite H. Qed.
Lemma ascii_eqb_code a b : Ascii.eqb a b = (code a =? code b)%N.
Proof.
  destruct (Ascii.eqb_spec a b) as [->|H]; [symmetry; apply N.eqb_refl|].
  symmetry. apply N.eqb_neq. intros E. apply H. now apply code_inj.
Qed.

(** ** sforall, sexists *)
Lemma sforall_app p a b : sforall p (a ++ b) = sforall p a && sforall p b.
Proof. induction a as [|x a IH]; [reflexivity|]. cbn. rewrite IH. now rewrite andb_assoc. Qed.
Lemma sexists_app p a b : sexists p (a ++ b) = sexists p a || sexists p b.
Proof. induction a as [|x a IH]; [reflexivity|]. cbn. rewrite IH. now rewrite orb_assoc. Qed.
Lemma sforall_impl (p q : ascii -> bool) s :
  (forall c, p c = true -> q c = true) -> sforall p s = true -> sforall q s = true.
Proof.
  intros H. induction s as [|c s IH]; [trivial|]. cbn. rewrite !andb_true_iff. intros [H1 H2]. auto.
Qed.
Lemma sexists_not_forall p s : sexists p s = negb (sforall (fun c => negb (p c)) s).
Proof.
  induction s as [|c s IH]; [reflexivity|]. cbn. rewrite IH.
  destruct (p c); reflexivity.
Qed.
Lemma contains_byte_app c a b : contains_byte c (a ++ b) = contains_byte c a || contains_byte c b.
Proof. apply sexists_app. Qed.
Lemma contains_byte_cons c d s : contains_byte c (String d s) = Ascii.eqb c d || contains_byte c s.
Proof. reflexivity. Qed.

(** The characters of a string, for specifications. *)
Fixpoint chars (s : string) : list ascii :=
  match s with EmptyString => [] | String c s' => c :: chars s' end.
Lemma sforall_chars p s : sforall p s = true <-> forall c, In c (chars s) -> p c = true.
Proof.
  induction s as [|c s IH]; cbn.
  - split; [intros _ c []|trivial].
  - rewrite andb_true_iff, IH. split.
    + intros [H1 H2] d [<-|H]; auto.
    + intros H. split; [apply H; now left|]. intros d Hd. apply H. now right.
Qed.
Lemma contains_byte_chars c s : contains_byte c s = true <-> In c (chars s).
Proof.
  unfold contains_byte. induction s as [|d s IH]; cbn; [intuition congruence|].
  rewrite orb_true_iff, IH. unfold is_byte. rewrite Ascii.eqb_eq. intuition.
Qed.
Lemma contains_byte_false_chars c s : contains_byte c s = false <-> ~ In c (chars s).
Proof.
  rewrite <- contains_byte_chars. destruct (contains_byte c s); intuition congruence.
Qed.
Lemma chars_app a b : chars (a ++ b) = (chars a ++ chars b)%list.
Proof. induction a as [|x a IH]; [reflexivity|]. cbn. now rewrite IH. Qed.

(** ** split_on, join, cut_on *)
Lemma split_on_nonnil c s : split_on c s <> [].
Proof.
  induction s as [|d s IH]; cbn; [discriminate|].
  destruct (Ascii.eqb d c); [discriminate|]. destruct (split_on c s); [discriminate|discriminate].
Qed.
Lemma split_on_no_sep c s : contains_byte c s = false -> split_on c s = [s].
Proof.
  induction s as [|d s IH]; [reflexivity|].
  rewrite contains_byte_cons, orb_false_iff. intros [H1 H2]. cbn.
  rewrite Ascii.eqb_sym in H1. rewrite H1, (IH H2). reflexivity.
Qed.
Lemma split_on_app c a b : contains_byte c a = false ->
  split_on c (a ++ String c b) = a :: split_on c b.
Proof.
  induction a as [|d a IH]; intros H.
  - cbn. now rewrite Ascii.eqb_refl.
  - rewrite contains_byte_cons, orb_false_iff in H. destruct H as [H1 H2].
    cbn. rewrite Ascii.eqb_sym in H1. rewrite H1, (IH H2). reflexivity.
Qed.
Lemma join_cons sep x y l : join sep (x :: y :: l) = x ++ sep ++ join sep (y :: l).
Proof. reflexivity. Qed.
Lemma split_on_join c l : l <> [] -> Forall (fun s => contains_byte c s = false) l ->
  split_on c (join (String c "") l) = l.
Proof.
  induction l as [|x l IH]; [congruence|]. intros _ H. inversion H as [|? ? Hx Hl]; subst.
  destruct l as [|y l].
  - cbn. now apply split_on_no_sep.
  - rewrite join_cons. cbn [append]. rewrite split_on_app by assumption.
    f_equal. apply IH; [discriminate|assumption].
Qed.
Lemma join_split_on c s : join (String c "") (split_on c s) = s.
Proof.
  induction s as [|d s IH]; [reflexivity|]. cbn [split_on].
  destruct (Ascii.eqb_spec d c) as [->|H].
  - destruct (split_on c s) as [|p ps] eqn:E; [now apply split_on_nonnil in E|].
    rewrite join_cons. rewrite IH. reflexivity.
  - destruct (split_on c s) as [|p ps] eqn:E; [now apply split_on_nonnil in E|].
    destruct ps as [|q ps].
    + cbn in IH |- *. now rewrite IH.
    + rewrite join_cons in IH. rewrite join_cons. cbn [append] in IH |- *. now rewrite IH.
Qed.
Lemma split_on_parts c s : Forall (fun p => contains_byte c p = false) (split_on c s).
Proof.
  induction s as [|d s IH]; [repeat constructor|]. cbn [split_on].
  destruct (Ascii.eqb_spec d c) as [->|H].
  - constructor; [reflexivity|assumption].
  - destruct (split_on c s) as [|p ps] eqn:E; [now apply split_on_nonnil in E|].
    inversion IH; subst. constructor; [|assumption].
    rewrite contains_byte_cons. rewrite orb_false_iff. split; [|assumption].
    apply Ascii.eqb_neq. congruence.
Qed.

Lemma cut_on_some c s a b : cut_on c s = Some (a, b) <->
  s = a ++ String c b /\ contains_byte c a = false.
Proof.
  revert a b. induction s as [|d s IH]; intros a b; cbn.
  - split; [discriminate|]. intros [H _]. destruct a; discriminate.
  - destruct (Ascii.eqb_spec d c) as [->|Hd].
    + split.
      * intros H. injection H as <- <-. auto.
      * intros [H1 H2]. destruct a as [|x a]; cbn in H1.
        { injection H1 as <-. reflexivity. }
        injection H1 as <- _. rewrite contains_byte_cons, Ascii.eqb_refl in H2. discriminate.
    + destruct (cut_on c s) as [[a' b']|] eqn:E.
      * split.
        -- intros H. injection H as <- <-. destruct (proj1 (IH a' b') eq_refl) as [-> Hn].
           split; [reflexivity|]. rewrite contains_byte_cons, orb_false_iff. split; [|assumption].
           apply Ascii.eqb_neq. congruence.
        -- intros [H1 H2]. destruct a as [|x a]; cbn in H1; [injection H1 as ? _; congruence|].
           injection H1 as <- H1. rewrite contains_byte_cons, orb_false_iff in H2.
           assert (Hx := proj2 (IH a b) (conj H1 (proj2 H2))). injection Hx as -> ->. reflexivity.
      * split; [discriminate|]. intros [H1 H2].
        destruct a as [|x a]; cbn in H1; [injection H1 as ? _; congruence|].
        injection H1 as <- H1. rewrite contains_byte_cons, orb_false_iff in H2.
        now specialize (proj2 (IH a b) (conj H1 (proj2 H2))).
Qed.
Lemma cut_on_none c s : cut_on c s = None <-> contains_byte c s = false.
Proof.
  induction s as [|d s IH]; [cbn; intuition|]. cbn [cut_on]. rewrite contains_byte_cons.
  rewrite Ascii.eqb_sym. destruct (Ascii.eqb c d); cbn; [intuition congruence|].
  destruct (cut_on c s) as [[a b]|]; [|intuition].
  rewrite <- IH. split; discriminate.
Qed.

(** ** String order *)
Lemma string_eqb_refl s : String.eqb s s = true.
Proof. apply String.eqb_refl. Qed.
Lemma ascii_compare_code a b : Ascii.compare a b = N.compare (code a) (code b).
Proof. reflexivity. Qed.
Lemma compare_refl s : String.compare s s = Eq.
Proof.
  induction s as [|c s IH]; [reflexivity|]. cbn.
  rewrite ascii_compare_code, N.compare_refl. exact IH.
Qed.
Lemma compare_eq a b : String.compare a b = Eq <-> a = b.
Proof. split; [apply String.compare_eq_iff|intros ->; apply compare_refl]. Qed.
Lemma compare_antisym a b : String.compare a b = CompOpp (String.compare b a).
Proof. apply String.compare_antisym. Qed.
Lemma compare_gt a b : String.compare a b = Gt <-> String.compare b a = Lt.
Proof. rewrite (compare_antisym a b). destruct (String.compare b a); cbn; intuition congruence. Qed.
Lemma compare_trans a b c : String.compare a b = Lt -> String.compare b c = Lt -> String.compare a c = Lt.
Proof.
  revert b c. induction a as [|x a IH]; intros b c H1 H2.
  - destruct b as [|y b]; [discriminate|]. destruct c as [|z c]; [discriminate|]. reflexivity.
  - destruct b as [|y b]; [discriminate|]. destruct c as [|z c]; [cbn in H2; discriminate|].
    cbn in *. rewrite ascii_compare_code in *.
    destruct (N.compare_spec (code x) (code y)) as [E1|E1|E1]; try discriminate;
    destruct (N.compare_spec (code y) (code z)) as [E2|E2|E2]; try discriminate.
    + rewrite E1, E2, N.compare_refl. eauto.
    + rewrite (proj2 (N.compare_lt_iff _ _)) by lia. reflexivity.
    + rewrite (proj2 (N.compare_lt_iff _ _)) by lia. reflexivity.
    + rewrite (proj2 (N.compare_lt_iff _ _)) by lia. reflexivity.
Qed.
Lemma compare_lt_neq a b : String.compare a b = Lt -> a <> b.
Proof. intros H ->. rewrite compare_refl in H. discriminate. Qed.

(** ** Maps *)
Section Maps.
Context {A : Type}.
Implicit Types m : smap A.

Lemma sget_sset_same k v m : sget k (sset k v m) = Some v.
Proof.
  induction m as [|[k' v'] m IH]; cbn; [now rewrite String.eqb_refl|].
  destruct (String.compare k k') eqn:E; cbn; rewrite ?String.eqb_refl; try reflexivity.
  destruct (String.eqb_spec k k') as [->|]; [rewrite compare_refl in E; discriminate|assumption].
Qed.
Lemma sget_sset_other k k' v m : k <> k' -> sget k (sset k' v m) = sget k m.
Proof.
  intros Hne. induction m as [|[k2 v2] m IH]; cbn.
  - destruct (String.eqb_spec k k'); [contradiction|reflexivity].
  - destruct (String.compare k' k2) eqn:E; cbn.
    + apply compare_eq in E. subst k2. destruct (String.eqb_spec k k'); [contradiction|reflexivity].
    + destruct (String.eqb_spec k k'); [contradiction|reflexivity].
    + now rewrite IH.
Qed.
Lemma sget_sset k k' v m : sget k (sset k' v m) = if String.eqb k k' then Some v else sget k m.
Proof.
  destruct (String.eqb_spec k k') as [->|H]; [apply sget_sset_same|now apply sget_sset_other].
Qed.
Lemma sget_sdel k k' m : sget k (sdel k' m) = if String.eqb k k' then None else sget k m.
Proof.
  unfold sdel. induction m as [|[k2 v2] m IH]; cbn; [now destruct (String.eqb k k')|].
  destruct (String.eqb_spec k' k2) as [->|H]; cbn.
  - rewrite IH. now destruct (String.eqb k k2).
  - rewrite IH. destruct (String.eqb_spec k k2) as [->|]; [|reflexivity].
    destruct (String.eqb_spec k2 k'); [congruence|reflexivity].
Qed.
Lemma sget_In k v m : sget k m = Some v -> In (k, v) m.
Proof.
  induction m as [|[k' v'] m IH]; cbn; [discriminate|].
  destruct (String.eqb_spec k k') as [->|]; [intros H; injection H as <-; now left|right; auto].
Qed.
Lemma sget_skeys k m : In k (skeys m) <-> exists v, sget k m = Some v.
Proof.
  induction m as [|[k' v'] m IH]; cbn.
  - split; [intros []|intros [v H]; discriminate].
  - destruct (String.eqb_spec k k') as [->|Hn].
    + split; eauto.
    + fold (skeys m). rewrite IH. split; [intros [->|H]; [congruence|assumption]|intros H; now right].
Qed.

(** Sorted maps, in the all-later-keys form. *)
Definition lb (k : string) (m : smap A) : Prop :=
  match m with [] => True | (k', _) :: _ => String.compare k k' = Lt end.
Lemma ssorted_cons k v m : ssorted ((k, v) :: m) <-> lb k m /\ ssorted m.
Proof. destruct m as [|[k' v'] m']; cbn; tauto. Qed.
Lemma lb_get k m : ssorted m -> lb k m -> sget k m = None.
Proof.
  revert k. induction m as [|[k' v'] m IH]; intros k Hs Hl; [reflexivity|].
  rewrite ssorted_cons in Hs. cbn in Hl |- *.
  destruct (String.eqb_spec k k') as [->|]; [rewrite compare_refl in Hl; discriminate|].
  apply IH; [tauto|]. destruct m as [|[k2 v2] m]; [exact I|]. cbn in *. destruct Hs as [H _].
  eapply compare_trans; eassumption.
Qed.
Lemma lb_trans k k' m : String.compare k k' = Lt -> lb k' m -> lb k m.
Proof. destruct m as [|[k2 v2] m]; cbn; [trivial|]. apply compare_trans. Qed.
Lemma lb_sset k k' v m : String.compare k k' = Lt -> lb k m -> lb k (sset k' v m).
Proof.
  destruct m as [|[k2 v2] m]; cbn; [trivial|]. intros H1 H2.
  destruct (String.compare k' k2) eqn:E; cbn; auto.
Qed.
Lemma sset_sorted k v m : ssorted m -> ssorted (sset k v m).
Proof.
  induction m as [|[k' v'] m IH]; intros Hs; [cbn; auto|].
  cbn [sset]. destruct (String.compare k k') eqn:E.
  - apply compare_eq in E. subst k'. rewrite ssorted_cons in Hs |- *. assumption.
  - rewrite ssorted_cons. split; [exact E|assumption].
  - rewrite ssorted_cons in Hs |- *. destruct Hs as [H1 H2]. split; [|auto].
    apply lb_sset; [now apply compare_gt|assumption].
Qed.
Lemma lb_filter p k m : ssorted m -> lb k m -> lb k (filter p m).
Proof.
  revert k. induction m as [|[k' v'] m IH]; intros k Hs Hl; [exact I|].
  rewrite ssorted_cons in Hs. cbn [filter]. destruct (p (k', v')); [exact Hl|].
  apply IH; [tauto|]. eapply lb_trans; [exact Hl|tauto].
Qed.
Lemma sdel_sorted k m : ssorted m -> ssorted (sdel k m).
Proof.
  unfold sdel. induction m as [|[k' v'] m IH]; intros Hs; [exact I|].
  rewrite ssorted_cons in Hs. cbn [filter].
  destruct (negb _); [|apply IH; tauto].
  rewrite ssorted_cons. split; [apply lb_filter; tauto|apply IH; tauto].
Qed.
(** Two sorted maps with the same content are equal. *)
Lemma ssorted_ext m m' : ssorted m -> ssorted m' -> (forall k, sget k m = sget k m') -> m = m'.
Proof.
  revert m'. induction m as [|[k v] m IH]; intros m' Hs Hs' Heq.
  - destruct m' as [|[k' v'] m']; [reflexivity|].
    specialize (Heq k'). cbn in Heq. rewrite String.eqb_refl in Heq. discriminate.
  - destruct m' as [|[k' v'] m'].
    + specialize (Heq k). cbn in Heq. rewrite String.eqb_refl in Heq. discriminate.
    + rewrite ssorted_cons in Hs, Hs'. destruct Hs as [Hl Hs], Hs' as [Hl' Hs'].
      assert (E : k = k').
      { destruct (String.compare k k') eqn:E.
        - now apply compare_eq.
        - assert (H1 : sget k ((k', v') :: m') = None)
            by (apply lb_get; [now rewrite ssorted_cons|exact E]).
          rewrite <- Heq in H1. cbn in H1. rewrite String.eqb_refl in H1. discriminate.
        - apply compare_gt in E.
          assert (H1 : sget k' ((k, v) :: m) = None)
            by (apply lb_get; [now rewrite ssorted_cons|exact E]).
          rewrite Heq in H1. cbn in H1. rewrite String.eqb_refl in H1. discriminate. }
      subst k'. assert (Ev : v = v').
      { specialize (Heq k). cbn in Heq. rewrite String.eqb_refl in Heq. congruence. }
      subst v'. f_equal. apply IH; [assumption|assumption|].
      intros q. specialize (Heq q). cbn in Heq.
      destruct (String.eqb_spec q k) as [Hq|]; [|assumption].
      rewrite Hq, !lb_get by assumption. reflexivity.
Qed.
Lemma sset_all_sorted l m : ssorted m -> ssorted (sset_all l m).
Proof.
  unfold sset_all. revert m. induction l as [|[k v] l IH]; intros m H; [exact H|].
  cbn. apply IH. now apply sset_sorted.
Qed.
(** The last assignment to a key wins. *)
Fixpoint last_get (k : string) (l : list (string * A)) : option A :=
  match l with
  | [] => None
  | (k', v) :: l' => match last_get k l' with
                     | Some x => Some x
                     | None => if String.eqb k k' then Some v else None
                     end
  end.
Lemma sget_sset_all k l m : sget k (sset_all l m) = match last_get k l with Some v => Some v | None => sget k m end.
Proof.
  unfold sset_all. revert m. induction l as [|[k' v'] l IH]; intros m; [reflexivity|].
  cbn. rewrite IH. destruct (last_get k l); [reflexivity|]. rewrite sget_sset.
  now destruct (String.eqb k k').
Qed.
Lemma last_get_app k l1 l2 : last_get k (l1 ++ l2)%list = match last_get k l2 with Some v => Some v | None => last_get k l1 end.
Proof.
  induction l1 as [|[k' v'] l1 IH]; cbn; [now destruct (last_get k l2)|].
  rewrite IH. destruct (last_get k l2); reflexivity.
Qed.
Lemma last_get_none k l : last_get k l = None <-> ~ In k (map fst l).
Proof.
  induction l as [|[k' v'] l IH]; cbn; [tauto|].
  destruct (last_get k l) eqn:E.
  - split; [discriminate|]. intros H. exfalso. apply H. right.
    destruct (in_dec string_dec k (map fst l)) as [Hin|Hn]; [assumption|].
    apply IH in Hn. discriminate.
  - destruct (String.eqb_spec k k') as [->|Hn]; [split; [discriminate|]; intros H; exfalso; apply H; now left|].
    split; [|reflexivity]. intros _ [H|H]; [congruence|]. now apply (proj1 IH).
Qed.
Lemma last_get_nodup k l : NoDup (map fst l) -> last_get k l = sget k l.
Proof.
  induction l as [|[k' v'] l IH]; cbn; [reflexivity|]. intros H. inversion H as [|? ? Hn Hd]; subst.
  rewrite (IH Hd). destruct (String.eqb_spec k k') as [->|]; [|now destruct (sget k l)].
  rewrite <- (IH Hd). rewrite (proj2 (last_get_none k' l) Hn). reflexivity.
Qed.
Lemma ssorted_nodup m : ssorted m -> NoDup (skeys m).
Proof.
  induction m as [|[k v] m IH]; intros H; [constructor|]. rewrite ssorted_cons in H.
  cbn. constructor; [|apply IH; tauto]. intros Hin.
  apply sget_skeys in Hin. destruct Hin as [x Hx]. rewrite lb_get in Hx by tauto. discriminate.
Qed.
Lemma sset_all_id m : ssorted m -> sset_all m [] = m.
Proof.
  intros H. apply ssorted_ext; [now apply sset_all_sorted|assumption|].
  intros k. rewrite sget_sset_all, last_get_nodup by (apply ssorted_nodup; assumption).
  cbn. now destruct (sget k m).
Qed.
Lemma sset_all_app l1 l2 m : sset_all (l1 ++ l2)%list m = sset_all l2 (sset_all l1 m).
Proof. unfold sset_all. apply fold_left_app. Qed.
Lemma sset_keys k v m k' : In k' (skeys (sset k v m)) <-> k' = k \/ In k' (skeys m).
Proof.
  rewrite !sget_skeys. setoid_rewrite sget_sset.
  destruct (String.eqb_spec k' k) as [->|H].
  - split; [now left|]. intros _. eauto.
  - split; [intros [x Hx]; right; eauto|]. intros [H'|[x Hx]]; [contradiction|eauto].
Qed.
Lemma sset_same k v m : ssorted m -> sget k m = Some v -> sset k v m = m.
Proof.
  intros Hs Hg. apply ssorted_ext; [now apply sset_sorted|assumption|].
  intros q. rewrite sget_sset. destruct (String.eqb_spec q k) as [->|]; [now symmetry|reflexivity].
Qed.
Lemma sset_sset k v v' m : sset k v (sset k v' m) = sset k v m.
Proof.
  induction m as [|[k2 v2] m IH]; cbn.
  - now rewrite compare_refl.
  - destruct (String.compare k k2) eqn:E; cbn; rewrite ?compare_refl; rewrite ?E; try reflexivity.
    now rewrite IH.
Qed.
Lemma sset_comm k v k' v' m : ssorted m -> k <> k' -> sset k v (sset k' v' m) = sset k' v' (sset k v m).
Proof.
  intros Hs Hn. apply ssorted_ext; [now repeat apply sset_sorted|now repeat apply sset_sorted|].
  intros q. rewrite !sget_sset.
  destruct (String.eqb_spec q k) as [H1|H1], (String.eqb_spec q k') as [H2|H2]; congruence.
Qed.
Lemma sdel_absent k m : sget k m = None -> sdel k m = m.
Proof.
  induction m as [|[k' v'] m IH]; [reflexivity|]. cbn.
  destruct (String.eqb_spec k k') as [->|]; [discriminate|]. cbn. intros H. f_equal. now apply IH.
Qed.
End Maps.

Lemma mem_str_In s l : mem_str s l = true <-> In s l.
Proof.
  unfold mem_str. rewrite existsb_exists. split.
  - intros [x [H1 H2]]. apply String.eqb_eq in H2. now subst.
  - intros H. exists s. split; [assumption|apply String.eqb_refl].
Qed.

(** ** Decimal integers *)
Lemma is_digit_chr n : (n < 10)%N -> is_digit (digit_chr n) = true.
Proof.
  intros H. unfold is_digit, digit_chr. rewrite code_chr by lia.
  apply andb_true_iff. split; apply N.leb_le; lia.
Qed.
Lemma digit_val_chr n : (n < 10)%N -> digit_val (digit_chr n) = n.
Proof. intros H. unfold digit_val, digit_chr. rewrite code_chr by lia. lia. Qed.

Lemma digits_acc_app a s t : digits_acc a (s ++ t) = match digits_acc a s with Some b => digits_acc b t | None => None end.
Proof.
  revert a. induction s as [|c s IH]; intros a; [reflexivity|]. cbn.
  destruct (is_digit c); [apply IH|reflexivity].
Qed.

(** Value of a suffix-built decimal: [digits_acc x acc] shifts [x] by the length of [acc]. *)
Lemma itoa_aux_app f n acc : itoa_aux f n acc = itoa_aux f n "" ++ acc.
Proof.
  revert n acc. induction f as [|f IH]; intros n acc; [reflexivity|].
  cbn [itoa_aux]. destruct (N.div n 10 =? 0)%N; [reflexivity|].
  rewrite (IH _ (String _ acc)), (IH _ (String _ "")). now rewrite <- append_assoc.
Qed.
Lemma itoa_aux_digits f n acc : (n < 10 ^ N.of_nat f)%N ->
  forall a, digits_acc a (itoa_aux f n "" ++ acc) =
  digits_acc (a * 10 ^ N.of_nat (String.length (itoa_aux f n "")) + n) acc.
Proof.
  revert n acc. induction f as [|f IH]; intros n acc Hn a.
  - cbn in Hn. assert (n = 0)%N by lia. subst. cbn. f_equal. lia.
  - cbn [itoa_aux]. destruct (N.eqb_spec (N.div n 10) 0) as [Hz|Hz].
    + assert (n < 10)%N by (apply N.div_small_iff; lia).
      cbn [append String.length]. change (N.of_nat 1) with 1%N.
      cbn [digits_acc]. rewrite is_digit_chr by (apply N.mod_lt; lia).
      rewrite digit_val_chr by (apply N.mod_lt; lia). rewrite N.mod_small by assumption.
      f_equal. lia.
    + rewrite itoa_aux_app. rewrite <- append_assoc.
      rewrite (IH (N.div n 10)); [|apply N.div_lt_upper_bound; [lia|];
        rewrite Nat2N.inj_succ, N.pow_succ_r' in Hn; lia].
      cbn [append]. cbn [digits_acc]. rewrite is_digit_chr by (apply N.mod_lt; lia).
      rewrite digit_val_chr by (apply N.mod_lt; lia).
      f_equal. rewrite length_append. cbn [String.length].
      rewrite Nat.add_1_r, Nat2N.inj_succ, N.pow_succ_r'.
      pose proof (N.div_mod n 10 ltac:(lia)) as Hdm.
      set (P := (10 ^ N.of_nat _)%N). lia.
Qed.
Lemma size_nat_N n : N.of_nat (N.size_nat n) = N.size n.
Proof.
  destruct n as [|p]; [reflexivity|]. cbn [N.size_nat N.size].
  induction p as [p IH|p IH|]; cbn [Pos.size_nat Pos.size]; try reflexivity;
    rewrite Nat2N.inj_succ, IH; reflexivity.
Qed.
Lemma size_bound n : (n < 10 ^ N.of_nat (S (N.size_nat n)))%N.
Proof.
  assert (H : (n < 2 ^ N.of_nat (S (N.size_nat n)))%N).
  { rewrite Nat2N.inj_succ, size_nat_N, N.pow_succ_r'. pose proof (N.size_gt n). lia. }
  eapply N.lt_le_trans; [exact H|]. apply N.pow_le_mono_l. lia.
Qed.


Lemma itoa_aux_all_digits f n acc : sforall is_digit acc = true -> sforall is_digit (itoa_aux f n acc) = true.
Proof.
  revert n acc. induction f as [|f IH]; intros n acc H; [exact H|]. cbn [itoa_aux].
  assert (H' : sforall is_digit (String (digit_chr (n mod 10)) acc) = true).
  { cbn. rewrite is_digit_chr by (apply N.mod_lt; lia). exact H. }
  destruct (n / 10 =? 0)%N; [exact H'|apply IH; exact H'].
Qed.
Lemma itoa_aux_nonempty f n acc : acc <> "" -> itoa_aux f n acc <> "".
Proof.
  revert n acc. induction f as [|f IH]; intros n acc H; [exact H|]. cbn [itoa_aux].
  destruct (n / 10 =? 0)%N; [discriminate|apply IH; discriminate].
Qed.
Lemma itoaN_digits n : sforall is_digit (itoaN n) = true.
Proof. unfold itoaN. now apply itoa_aux_all_digits. Qed.
Lemma itoaN_nonempty n : itoaN n <> "".
Proof.
  unfold itoaN. cbn [itoa_aux]. destruct (n / 10 =? 0)%N; [discriminate|].
  now apply itoa_aux_nonempty.
Qed.
Lemma itoaN_cons n : exists c s, itoaN n = String c s /\ is_digit c = true.
Proof.
  pose proof (itoaN_nonempty n) as H. pose proof (itoaN_digits n) as D.
  destruct (itoaN n) as [|c s]; [contradiction|]. exists c, s. split; [reflexivity|].
  cbn in D. apply andb_true_iff in D. tauto.
Qed.
Lemma digits_acc_itoaN n t : digits_acc 0 (itoaN n ++ t) = digits_acc n t.
Proof.
  unfold itoaN. rewrite itoa_aux_digits by apply size_bound. now rewrite N.mul_0_l, N.add_0_l.
Qed.
Lemma digits_itoaN n : digits (itoaN n) = Some n.
Proof.
  destruct (itoaN_cons n) as [c [s [E _]]].
  unfold digits. rewrite E, <- E. rewrite <- (append_nil_r (itoaN n)), digits_acc_itoaN. reflexivity.
Qed.
Lemma digit_not_sign c : is_digit c = true -> Ascii.eqb c "-"%char = false /\ Ascii.eqb c "+"%char = false.
Proof.
  intros H. split; apply Ascii.eqb_neq; intros ->; vm_compute in H; discriminate.
Qed.
Lemma atoi_itoa z : in_int64 z = true -> atoi (itoa z) = Some z.
Proof.
  intros H. unfold atoi.
  destruct z as [|p|p].
  - reflexivity.
  - cbn [itoa]. change (Z.to_N (Zpos p)) with (Npos p).
    destruct (itoaN_cons (Npos p)) as [c [s [E D]]]. rewrite E.
    destruct (digit_not_sign c D) as [-> ->]. rewrite <- E, digits_itoaN.
    cbn [Z.of_N]. now rewrite H.
  - cbn [itoa]. rewrite Ascii.eqb_refl. rewrite digits_itoaN. cbn [Z.of_N Z.opp]. now rewrite H.
Qed.
Lemma itoaN_inj n m : itoaN n = itoaN m -> n = m.
Proof. intros H. apply (f_equal digits) in H. rewrite !digits_itoaN in H. congruence. Qed.
