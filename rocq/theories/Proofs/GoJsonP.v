(** interface{} decoding: normal forms. *)
From Coq Require Import String Ascii List Arith ZArith NArith Bool Lia.
From Verif Require Import Model.GoStr Model.Json Model.Num Model.GoJson Spec.NameSpec Spec.JsonSpec
  Proofs.StrP Proofs.JsonP Proofs.JsonRT Proofs.NumP.
Import ListNotations.
Open Scope nat_scope.
Open Scope string_scope.

Fixpoint norm_all (l : list json) : option (list json) :=
  match l with
  | [] => Some []
  | x :: xs => match norm x, norm_all xs with Some x', Some xs' => Some (x' :: xs') | _, _ => None end
  end.
Fixpoint norm_pairs (l : list (string * json)) : option (list (string * json)) :=
  match l with
  | [] => Some []
  | (k, x) :: xs => match norm x, norm_pairs xs with Some x', Some xs' => Some ((k, x') :: xs') | _, _ => None end
  end.
Lemma norm_arr l : norm (JArr l) = option_map JArr (norm_all l).
Proof. reflexivity. Qed.
Lemma norm_obj l : norm (JObj l) = option_map (fun l' => JObj (sset_all l' [])) (norm_pairs l).
Proof.
  cbn [norm]. 
  assert (G : forall m, (fix go (l : list (string * json)) (m : smap json) : option (smap json) :=
            match l with
            | [] => Some m
            | (k, x) :: xs => match norm x with Some x' => go xs (sset k x' m) | None => None end
            end) l m = match norm_pairs l with Some l' => Some (sset_all l' m) | None => None end).
  { induction l as [|[k x] xs IH]; intros m; [reflexivity|]. cbn [norm_pairs].
    destruct (norm x) as [x'|]; [|reflexivity]. rewrite IH. destruct (norm_pairs xs); reflexivity. }
  rewrite G. destruct (norm_pairs l); reflexivity.
Qed.

Lemma jwf_arr l : jwf (JArr l) <-> Forall jwf l.
Proof. cbn [jwf]. induction l as [|x l IH]; cbn; [split; auto|]. rewrite IH. split; [intros []; now constructor|intros H; inversion H; auto]. Qed.
Lemma jwf_obj l : jwf (JObj l) <-> Forall (fun kx => well_formed_text (fst kx) /\ jwf (snd kx)) l.
Proof. cbn [jwf]. induction l as [|x l IH]; cbn; [split; auto|]. rewrite IH. split; [intros (A & B & C); now constructor|intros H; inversion H; tauto]. Qed.
Lemma jdepth_arr l d : (jdepth (JArr l) <= N.succ d)%N <-> Forall (fun x => (jdepth x <= d)%N) l.
Proof.
  cbn [jdepth]. induction l as [|x l IH]; cbn [fold_right]; [split; [constructor|lia]|].
  split.
  - intros H. constructor; [lia|]. apply IH. lia.
  - intros H. inversion H as [|? ? A B]; subst. apply IH in B. lia.
Qed.
Lemma jdepth_obj l d : (jdepth (JObj l) <= N.succ d)%N <-> Forall (fun kx => (jdepth (snd kx) <= d)%N) l.
Proof.
  cbn [jdepth]. induction l as [|x l IH]; cbn [fold_right]; [split; [constructor|lia]|].
  split.
  - intros H. constructor; [lia|]. apply IH. lia.
  - intros H. inversion H as [|? ? A B]; subst. apply IH in B. lia.
Qed.

(** Forall over a map is preserved by insertion. *)
Lemma Forall_sset {A} (P : string * A -> Prop) k v m : P (k, v) -> Forall P m -> Forall P (sset k v m).
Proof.
  intros Hk H. induction H as [|[k' v'] m Hx H IH]; cbn; [auto|].
  destruct (String.compare k k'); auto.
Qed.
Lemma Forall_sset_all {A} (P : string * A -> Prop) l m : Forall P l -> Forall P m -> Forall P (sset_all l m).
Proof.
  unfold sset_all. intros H. revert m. induction H as [|[k v] l Hx H IH]; intros m Hm; [exact Hm|].
  cbn. apply IH. now apply Forall_sset.
Qed.
Lemma Forall_sset_inv {A} (P : string * A -> Prop) k v m : Forall P (sset k v m) -> P (k, v).
Proof.
  rewrite Forall_forall. intros H. apply H. apply sget_In. apply sget_sset_same.
Qed.

(** *** Canonical documents: fixed points of [norm] *)
Fixpoint canonical (j : json) : Prop :=
  match j with
  | JNum l => canon_num l = Some l
  | JArr l => fold_right (fun x P => canonical x /\ P) True l
  | JObj l => ssorted l /\ fold_right (fun kx P => canonical (snd kx) /\ P) True l
  | _ => True
  end.
Lemma canonical_arr l : canonical (JArr l) <-> Forall canonical l.
Proof. cbn [canonical]. induction l as [|x l IH]; cbn; [split; auto|]. rewrite IH. split; [intros []; now constructor|intros H; inversion H; auto]. Qed.
Lemma canonical_obj l : canonical (JObj l) <-> ssorted l /\ Forall (fun kx => canonical (snd kx)) l.
Proof.
  cbn [canonical]. 
  assert (E : fold_right (fun kx P => canonical (snd kx) /\ P) True l <-> Forall (fun kx : string * json => canonical (snd kx)) l).
  { induction l as [|x l IH]; cbn; [split; auto|]. rewrite IH. split; [intros []; now constructor|intros H; inversion H; auto]. }
  now rewrite E.
Qed.
Lemma norm_all_Forall (R : json -> json -> Prop) l l' :
  Forall (fun x => forall x', norm x = Some x' -> R x x') l -> norm_all l = Some l' -> Forall2 R l l'.
Proof.
  intros H. revert l'. induction H as [|x l Hx H IH]; intros l' E; cbn in E; [injection E as <-; constructor|].
  destruct (norm x) as [x'|]; [|discriminate]. destruct (norm_all l) as [t|]; [|discriminate]. injection E as <-.
  constructor; [now apply Hx|now apply IH].
Qed.
Lemma norm_pairs_Forall (R : json -> json -> Prop) l l' :
  Forall (fun kx => forall x', norm (snd kx) = Some x' -> R (snd kx) x') l -> norm_pairs l = Some l' ->
  Forall2 (fun a b => fst a = fst b /\ R (snd a) (snd b)) l l'.
Proof.
  intros H. revert l'. induction H as [|[k x] l Hx H IH]; intros l' E; cbn in E; [injection E as <-; constructor|].
  destruct (norm x) as [x'|] eqn:N; [|discriminate]. destruct (norm_pairs l) as [t|]; [|discriminate]. injection E as <-.
  constructor; [split; [reflexivity|now apply Hx]|now apply IH].
Qed.
Lemma Forall2_Forall_r {A B} (R : A -> B -> Prop) (P : B -> Prop) l l' :
  (forall a b, R a b -> P b) -> Forall2 R l l' -> Forall P l'.
Proof. intros H F. induction F; constructor; eauto. Qed.
Lemma Forall2_Forall_lr {A B} (R : A -> B -> Prop) (Q : A -> Prop) (P : B -> Prop) l l' :
  (forall a b, Q a -> R a b -> P b) -> Forall Q l -> Forall2 R l l' -> Forall P l'.
Proof. intros H FQ F. induction F; inversion FQ; constructor; eauto. Qed.

Lemma norm_canonical j : forall j', norm j = Some j' -> canonical j'.
Proof.
  induction j as [|b|l|s|l IH|l IH] using json_ind'; intros j' H.
  - injection H as <-. exact I.
  - injection H as <-. exact I.
  - cbn in H. destruct (canon_num l) as [t|] eqn:E; [|discriminate]. injection H as <-. cbn. eapply canon_num_idem; eassumption.
  - injection H as <-. exact I.
  - rewrite norm_arr in H. destruct (norm_all l) as [l'|] eqn:E; [|discriminate]. injection H as <-.
    apply canonical_arr. eapply Forall2_Forall_r; [|eapply (norm_all_Forall (fun _ y => canonical y)); eassumption]. auto.
  - rewrite norm_obj in H. destruct (norm_pairs l) as [l'|] eqn:E; [|discriminate]. injection H as <-.
    apply canonical_obj. split; [apply sset_all_sorted; exact I|]. apply Forall_sset_all; [|constructor].
    eapply Forall2_Forall_r; [|eapply (norm_pairs_Forall (fun _ y => canonical y)); eassumption]. cbn. tauto.
Qed.
Lemma norm_all_canonical l : Forall (fun x => canonical x -> norm x = Some x) l -> Forall canonical l -> norm_all l = Some l.
Proof.
  intros H C. induction H as [|x l Hx H IH]; [reflexivity|]. inversion C; subst. cbn. rewrite Hx, IH by assumption. reflexivity.
Qed.
Lemma norm_pairs_canonical (l : list (string * json)) :
  Forall (fun kx => canonical (snd kx) -> norm (snd kx) = Some (snd kx)) l ->
  Forall (fun kx => canonical (snd kx)) l -> norm_pairs l = Some l.
Proof.
  intros H C. induction H as [|[k x] l Hx H IH]; [reflexivity|]. inversion C; subst. cbn in *. rewrite Hx, IH by assumption. reflexivity.
Qed.
Lemma canonical_norm j : canonical j -> norm j = Some j.
Proof.
  induction j as [|b|l|s|l IH|l IH] using json_ind'; intros C; try reflexivity.
  - cbn in *. now rewrite C.
  - rewrite norm_arr, norm_all_canonical; [reflexivity|assumption|now apply canonical_arr].
  - apply canonical_obj in C. destruct C as [S C]. rewrite norm_obj, norm_pairs_canonical by assumption. cbn.
    now rewrite sset_all_id.
Qed.
Lemma norm_idem j j' : norm j = Some j' -> norm j' = Some j'.
Proof. intros H. apply canonical_norm. eapply norm_canonical; eassumption. Qed.

Lemma norm_encodable j : forall j', norm j = Some j' -> jwf j -> jwf j' /\ (jdepth j' <= jdepth j)%N.
Proof.
  induction j as [|b|l|s|l IH|l IH] using json_ind'; intros j' H W.
  - injection H as <-. cbn. split; [exact I|lia].
  - injection H as <-. cbn. split; [exact I|lia].
  - cbn in H. destruct (canon_num l) as [t|] eqn:E; [|discriminate]. injection H as <-. cbn in *. split; [|lia].
    apply number_lit_spec. apply number_lit_spec in W. eapply canon_num_valid; eassumption.
  - injection H as <-. split; [exact W|cbn; lia].
  - rewrite norm_arr in H. destruct (norm_all l) as [l'|] eqn:E; [|discriminate]. injection H as <-.
    apply jwf_arr in W. rewrite jwf_arr.
    pose proof (norm_all_Forall (fun x y => jwf x -> jwf y /\ (jdepth y <= jdepth x)%N) l l' IH E) as F.
    split; [eapply Forall2_Forall_lr; [|exact W|exact F]; cbn; tauto|].
    replace (jdepth (JArr l)) with (N.succ (N.pred (jdepth (JArr l)))) by (cbn [jdepth]; lia).
    apply jdepth_arr.
    assert (D : Forall (fun x => (jdepth x <= N.pred (jdepth (JArr l)))%N) l) by (apply jdepth_arr; cbn [jdepth]; lia).
    clear E. induction F as [|x y l l' R F IHF].
    + constructor.
    + inversion W; subst. inversion D; subst. inversion IH; subst. constructor; [specialize (R H1); lia|].
      clear IHF. revert D W H2 H4. generalize (N.pred (jdepth (JArr (x :: l)))) as n. intros n _ _ W' D'.
      clear -F W' D'. induction F as [|a b l l' R F IH]; [constructor|]. inversion W'; subst. inversion D'; subst.
      constructor; [specialize (R H1); lia|auto].
  - rewrite norm_obj in H. destruct (norm_pairs l) as [l'|] eqn:E; [|discriminate]. injection H as <-.
    apply jwf_obj in W. rewrite jwf_obj.
    pose proof (norm_pairs_Forall (fun x y => jwf x -> jwf y /\ (jdepth y <= jdepth x)%N) l l' IH E) as F.
    split.
    + apply Forall_sset_all; [|constructor]. eapply Forall2_Forall_lr; [|exact W|exact F].
      cbn. intros a b [A B] [C D]. rewrite <- C. tauto.
    + replace (jdepth (JObj l)) with (N.succ (N.pred (jdepth (JObj l)))) by (cbn [jdepth]; lia).
      apply jdepth_obj.
      assert (D : Forall (fun kx => (jdepth (snd kx) <= N.pred (jdepth (JObj l)))%N) l) by (apply jdepth_obj; cbn [jdepth]; lia).
      apply Forall_sset_all; [|constructor]. revert D. generalize (N.pred (jdepth (JObj l))) as n. intros n D.
      clear -F W D. induction F as [|a b l l' R F IH]; [constructor|]. inversion W; subst. inversion D; subst.
      constructor; [|auto]. destruct R as [_ R]. specialize (R (proj2 H1)). lia.
Qed.
Lemma norm_enc j j' : norm j = Some j' -> encodable j -> encodable j'.
Proof. intros H [W D]. destruct (norm_encodable j j' H W) as [A B]. split; [assumption|lia]. Qed.

(** Decoding a document into a map, printing it, decoding it again. *)
Lemma decode_map_some j m : decode_map j = Some (Some m) <-> is_obj j = true /\ norm j = Some (JObj m).
Proof.
  destruct j as [| | | | |l]; try (cbn; split; [discriminate|intros []; discriminate]).
  unfold decode_map. rewrite norm_obj. cbn [is_obj]. destruct (norm_pairs l); cbn.
  - split; [intros H; injection H as <-; auto|]. intros [_ H]. injection H as <-. reflexivity.
  - split; [discriminate|intros []; discriminate].
Qed.
Lemma unmarshal_map_some b m : unmarshal_map b = Some (Some m) <-> exists j, parse b = Some j /\ is_obj j = true /\ norm j = Some (JObj m).
Proof.
  unfold unmarshal_map. destruct (parse b) as [j|].
  - rewrite decode_map_some. split; [eauto|]. intros (j' & H & A). injection H as <-. exact A.
  - split; [discriminate|]. intros (j & H & _). discriminate.
Qed.
Lemma unmarshal_map_canonical b m : unmarshal_map b = Some (Some m) -> canonical (JObj m) /\ encodable (JObj m).
Proof.
  intros H. apply unmarshal_map_some in H. destruct H as (j & P & _ & N). split; [eapply norm_canonical; eassumption|].
  eapply norm_enc; [exact N|]. eapply parse_encodable; eassumption.
Qed.
Lemma unmarshal_map_print m : canonical (JObj m) -> encodable (JObj m) -> unmarshal_map (print (JObj m)) = Some (Some m).
Proof.
  intros C E. apply unmarshal_map_some. exists (JObj m). split; [now apply parse_print|]. split; [reflexivity|]. now apply canonical_norm.
Qed.

(** *** Pathwise reading *)
Lemma last_member_last_get k l : last_member k l = last_get k l.
Proof. induction l as [|[k' v] l IH]; cbn; [reflexivity|]. now rewrite IH. Qed.
Lemma last_member_sorted k l : ssorted l -> last_member k l = sget k l.
Proof. intros S. rewrite last_member_last_get. apply last_get_nodup. now apply ssorted_nodup. Qed.
Lemma norm_pairs_last k l l' : norm_pairs l = Some l' ->
  last_get k l' = match last_get k l with Some x => norm x | None => None end.
Proof.
  revert l'. induction l as [|[k' x] l IH]; intros l' H; cbn in H; [injection H as <-; reflexivity|].
  destruct (norm x) as [x'|] eqn:N; [|discriminate]. destruct (norm_pairs l) as [t|] eqn:E; [|discriminate].
  injection H as <-. cbn. rewrite (IH t eq_refl).
  assert (D : forall v, last_get k l = Some v -> exists v', norm v = Some v').
  { clear IH N. revert t E. induction l as [|[k2 y] l IH2]; intros t E v; [discriminate|]. cbn in E |- *.
    destruct (norm y) as [y'|] eqn:Ny; [|discriminate]. destruct (norm_pairs l) as [t'|]; [|discriminate].
    destruct (last_get k l) as [w|]; [intros H; injection H as <-; now apply (IH2 t' eq_refl)|].
    destruct (String.eqb k k2); [intros H; injection H as <-; eauto|discriminate]. }
  destruct (last_get k l) as [v|] eqn:L.
  - destruct (D v eq_refl) as [v' ->]. reflexivity.
  - destruct (String.eqb k k'); [now rewrite N|reflexivity].
Qed.
Lemma norm_all_nth n l l' : norm_all l = Some l' ->
  nth_error l' n = match nth_error l n with Some x => norm x | None => None end.
Proof.
  revert n l'. induction l as [|x l IH]; intros n l' H; cbn in H; [injection H as <-; now destruct n|].
  destruct (norm x) as [x'|] eqn:N; [|discriminate]. destruct (norm_all l) as [t|] eqn:E; [|discriminate].
  injection H as <-. destruct n as [|n]; cbn; [now rewrite N|]. now apply IH.
Qed.
Lemma norm_some_member l j' k x : norm (JObj l) = Some j' -> last_get k l = Some x -> exists x', norm x = Some x'.
Proof.
  rewrite norm_obj. destruct (norm_pairs l) as [l'|] eqn:E; [|discriminate]. intros _.
  revert l' E. induction l as [|[k2 y] l IH2]; intros t E; [discriminate|]. cbn in E |- *.
  destruct (norm y) as [y'|] eqn:Ny; [|discriminate]. destruct (norm_pairs l) as [t'|]; [|discriminate].
  destruct (last_get k l) as [w|]; [intros H; injection H as <-; now apply (IH2 t' eq_refl)|].
  destruct (String.eqb k k2); [intros H; injection H as <-; eauto|discriminate].
Qed.
Lemma norm_some_elem l j' n x : norm (JArr l) = Some j' -> nth_error l n = Some x -> exists x', norm x = Some x'.
Proof.
  rewrite norm_arr. destruct (norm_all l) as [l'|] eqn:E; [|discriminate]. intros _.
  revert l' n E. induction l as [|y l IH]; intros l' n E; [now destruct n|]. cbn in E.
  destruct (norm y) as [y'|] eqn:N; [|discriminate]. destruct (norm_all l) as [t|]; [|discriminate].
  destruct n as [|n]; cbn; [intros H; injection H as <-; eauto|]. now apply (IH t).
Qed.
(** Decoding into interface{} acts pathwise. *)
Lemma norm_at_path p : forall j j', norm j = Some j' ->
  at_path p j' = match at_path p j with Some x => norm x | None => None end.
Proof.
  induction p as [|s p IH]; intros j j' H; [cbn; now rewrite H|].
  destruct s as [k|n].
  - destruct j as [|b|l|t|l|l]; try (cbn in H; injection H as <-; reflexivity).
    + cbn in H. destruct (canon_num l); [injection H as <-; reflexivity|discriminate].
    + rewrite norm_arr in H. destruct (norm_all l); [injection H as <-; reflexivity|discriminate].
    + pose proof H as H0. rewrite norm_obj in H. destruct (norm_pairs l) as [l'|] eqn:E; [|discriminate]. injection H as <-.
      cbn [at_path]. rewrite last_member_sorted by (apply sset_all_sorted; exact I).
      rewrite sget_sset_all, (norm_pairs_last k l l' E). change (last_member k l) with (last_get k l). cbn [sget].
      destruct (last_get k l) as [x|] eqn:L; [|reflexivity].
      destruct (norm_some_member _ _ _ _ H0 L) as [x' N]. rewrite N. now apply IH.
  - destruct j as [|b|l|t|l|l]; try (cbn in H; injection H as <-; reflexivity).
    + cbn in H. destruct (canon_num l); [injection H as <-; reflexivity|discriminate].
    + pose proof H as H0. rewrite norm_arr in H. destruct (norm_all l) as [l'|] eqn:E; [|discriminate]. injection H as <-.
      cbn [at_path]. rewrite (norm_all_nth n l l' E). destruct (nth_error l n) as [x|] eqn:L; [|reflexivity].
      destruct (norm_some_elem _ _ _ _ H0 L) as [x' N]. rewrite N. now apply IH.
    + rewrite norm_obj in H. destruct (norm_pairs l); [injection H as <-; reflexivity|discriminate].
Qed.
