(** Every result a decoder can produce has a JSON form, and that form can be decoded into a map. *)
From Coq Require Import String Ascii List Arith NArith ZArith Bool Lia.
From Verif Require Import Model.GoStr Model.Errors Model.Json Model.Num Model.GoJson Model.NetIP Model.Types
  Spec.NameSpec Spec.JsonSpec Spec.ConfSpec Spec.TypesSpec Proofs.StrP Proofs.JsonP Proofs.JsonRT Proofs.NumP Proofs.NetIPP
  Proofs.GoJsonP Proofs.ConfP Proofs.TypesP Proofs.DecodeP Proofs.ShapeP.
Import ListNotations.
Open Scope nat_scope.
Open Scope string_scope.

Lemma round64_total n : (n < 2 ^ 100)%N -> round64 n 1 <> None.
Proof.
  intros B. unfold round64, reduce. rewrite N.gcd_1_r. cbn [N.eqb]. rewrite !N.div_1_r. cbn [N.eqb Pos.eqb andb].
  destruct (n <=? two53)%N; [discriminate|].
  assert (L : (N.log2 n <= 100)%N).
  { destruct (N.eq_dec n 0) as [->|N0]; [cbn; lia|]. apply N.lt_le_incl. apply N.log2_lt_pow2; [lia|exact B]. }
  change (N.log2 1) with 0%N.
  destruct (div2e n 1 _) as [[q1 x1] y1].
  set (e2 := if (q1 <? 4503599627370496)%N then _ else _).
  assert (E : (e2 <= 48)%Z) by (subst e2; destruct (_ <? _)%N; lia).
  set (e := Z.max e2 (-1074)). assert (E' : (e <= 48)%Z) by (subst e; lia). clearbody e e2.
  destruct (div2e n 1 e) as [[q r] dv].
  assert (G1 : (971 <? e)%Z = false) by (apply Z.ltb_ge; lia). assert (G2 : (e =? 971)%Z = false) by (apply Z.eqb_neq; lia).
  rewrite G1, G2. cbn [orb andb]. destruct (scale2 _ _). discriminate.
Qed.
Lemma itoa_len_bound n : (n < 10 ^ 40)%N -> (String.length (itoaN n) <= 200).
Proof.
  intros B. assert (S : N.size_nat n <= 133).
  { destruct (N.eq_dec n 0) as [->|N0]; [cbn; lia|].
    assert (X : N.of_nat (N.size_nat n) = N.size n).
    { destruct n as [|p]; [reflexivity|]. cbn [N.size_nat N.size]. clear. induction p as [p IH|p IH|]; cbn [Pos.size_nat Pos.size]; [| |reflexivity]; rewrite Nat2N.inj_succ, IH; reflexivity. }
    assert (Y : (N.size n <= 133)%N) by (rewrite N.size_log2 by exact N0; apply N.le_succ_l; apply N.log2_lt_pow2; [lia|eapply N.lt_trans; [exact B|reflexivity]]).
    rewrite <- X in Y. lia. }
  assert (G : forall f m acc, String.length (itoa_aux f m acc) <= f + String.length acc).
  { induction f as [|f IH]; intros m acc; cbn [itoa_aux]; [lia|]. destruct (_ =? 0)%N; cbn [String.length]; [lia|]. eapply Nat.le_trans; [apply IH|]. cbn [String.length]. lia. }
  unfold itoaN. eapply Nat.le_trans; [apply G|]. cbn [String.length]. lia.
Qed.
Lemma canon_num_total z : int64 z -> exists t, canon_num (itoa z) = Some t.
Proof.
  intros H. unfold int64 in H.
  assert (B : (Z.to_N (Z.abs z) < 2 ^ 64)%N) by lia.
  assert (F : lit_float (itoa z) <> None).
  { unfold lit_float. rewrite lit_dec_itoa. cbn [dec_mant dec_neg dec_exp]. set (n := Z.to_N (Z.abs z)) in *. clearbody n.
    destruct (n =? 0)%N; [discriminate|]. cbn [Z.eqb andb]. destruct (n <=? two53)%N; [discriminate|].
    pose proof (itoa_len_bound n ltac:(eapply N.lt_trans; [exact B|reflexivity])) as L.
    assert (L1 : (400 <? Z.of_nat (String.length (itoaN n)) + 0)%Z = false) by (apply Z.ltb_ge; lia).
    assert (L2 : (Z.of_nat (String.length (itoaN n)) + 0 <? -400)%Z = false) by (apply Z.ltb_ge; lia).
    rewrite L1, L2. cbn [Z.leb Z.compare Z.to_N N.pow]. rewrite N.mul_1_r.
    pose proof (round64_total n ltac:(eapply N.lt_trans; [exact B|reflexivity])) as R. destruct (round64 n 1) as [[a b]|]; [discriminate|contradiction]. }
  unfold canon_num. destruct (lit_float (itoa z)) as [f|]; [|contradiction]. destruct (fmt_float f) as [t|]; [|eauto].
  destruct (_ && _); eauto.
Qed.

(** [normable j]: the document can be decoded into interface{}. *)
Definition normable (j : json) : Prop := exists y, norm j = Some y.
Lemma normable_obj l : Forall (fun kv => normable (snd kv)) l -> exists m, norm (JObj l) = Some (JObj m).
Proof.
  intros H. assert (G : exists l', norm_pairs l = Some l').
  { induction H as [|[k x] l [y Y] _ [l' E]]; [exists []; reflexivity|]. cbn [norm_pairs snd] in *. rewrite Y, E. eauto. }
  destruct G as [l' E]. rewrite norm_obj, E. cbn [option_map]. eauto.
Qed.
Lemma normable_arr l : Forall normable l -> normable (JArr l).
Proof.
  intros H. assert (G : exists l', norm_all l = Some l').
  { induction H as [|x l [y Y] _ [l' E]]; [exists []; reflexivity|]. cbn [norm_all] in *. rewrite Y, E. eauto. }
  destruct G as [l' E]. unfold normable. rewrite norm_arr, E. cbn [option_map]. eauto.
Qed.
Lemma normable_str s : normable (JStr s). Proof. now exists (JStr s). Qed.
Lemma normable_int z : int64 z -> normable (enc_int z).
Proof. intros H. destruct (canon_num_total z H) as [t T]. exists (JNum t). unfold enc_int. cbn [norm]. now rewrite T. Qed.

Definition nfields (l : list (string * json)) : Prop := Forall (fun kv => normable (snd kv)) l.
Lemma nf_nil : nfields []. Proof. constructor. Qed.
Lemma nf_one k v : normable v -> nfields [(k, v)]. Proof. constructor; [assumption|constructor]. Qed.
Lemma nf_app a b : nfields a -> nfields b -> nfields (a ++ b)%list. Proof. intros. apply Forall_app. now split. Qed.
Lemma nf_str k s : nfields (fld_str k s).
Proof. unfold fld_str, omit_if. destruct (String.eqb s ""); [apply nf_nil|apply nf_one, normable_str]. Qed.
Lemma nf_int k z : int64 z -> nfields (fld_int k z).
Proof. intros H. unfold fld_int, omit_if. destruct (z =? 0)%Z; [apply nf_nil|apply nf_one; now apply normable_int]. Qed.
Lemma nf_optint k o : wf_opt int64 o -> nfields (fld_optint k o).
Proof. destruct o; intros H; [apply nf_one; now apply normable_int|apply nf_nil]. Qed.
Lemma nf_strs k l : nfields (fld_strs k l).
Proof.
  unfold fld_strs, omit_if. destruct (nil_list l); [apply nf_nil|]. apply nf_one. apply normable_arr. apply Forall_map. apply Forall_forall. intros s _. apply normable_str.
Qed.
Lemma nf_arr k l : Forall normable l -> nfields (fld_arr k l).
Proof. intros H. unfold fld_arr, omit_if. destruct (nil_list l); [apply nf_nil|]. apply nf_one. now apply normable_arr. Qed.
Lemma fld_ip_total k a : wf_gw a -> exists f, fld_ip k a = Some f /\ nfields f.
Proof.
  intros [->|[L B]]; [exists []; split; [reflexivity|apply nf_nil]|]. destruct a as [|x a]; [discriminate|].
  unfold fld_ip, enc_ip. rewrite L. cbn [Nat.eqb orb option_map]. eexists. split; [reflexivity|]. apply nf_one, normable_str.
Qed.
Lemma omap_total {A} (P : A -> Prop) (f : A -> option json) : (forall a, P a -> exists j, f a = Some j /\ normable j) ->
  forall l, Forall P l -> exists js, omap_list f l = Some js /\ Forall normable js.
Proof.
  intros H l F. induction F as [|a l Ha _ (js & E & N)]; [exists []; split; [reflexivity|constructor]|].
  destruct (H a Ha) as (j & Ej & Nj). cbn [omap_list]. rewrite Ej. cbn [obind]. rewrite E. cbn [obind]. eexists. split; [reflexivity|]. now constructor.
Qed.
Lemma omap_opt_total {A} (P : A -> Prop) (f : A -> option json) : (forall a, P a -> exists j, f a = Some j /\ normable j) ->
  forall l, Forall (wf_opt P) l -> exists js, omap_list (enc_opt f) l = Some js /\ Forall normable js.
Proof.
  intros H. apply omap_total. intros [a|] W; [exact (H a W)|]. exists JNull. split; [reflexivity|]. now exists JNull.
Qed.
Lemma obj_normable l : nfields l -> normable (JObj l).
Proof. intros H. destruct (normable_obj l H) as [m M]. now exists (JObj m). Qed.
Ltac nfs := repeat first [apply nf_app | apply nf_str | apply nf_strs | apply nf_int; assumption | apply nf_optint; assumption | assumption
  | apply nf_one; first [apply normable_str | assumption] ].

Lemma dns_normable d : normable (enc_dns d).
Proof. apply obj_normable. nfs. Qed.
Lemma route_total r : wf_route int64 any_prefix r -> exists j, enc_route r = Some j /\ normable j.
Proof.
  intros (A & B & C & D & E & F & G). unfold enc_route. destruct (fld_ip_total "gw" _ B) as (f & -> & N). cbn [obind].
  eexists. split; [reflexivity|]. apply obj_normable. nfs.
Qed.
Lemma ipc020_total c : wf_ipc020 int64 any_prefix c -> exists j, enc_ipc020 c = Some j /\ normable j.
Proof.
  intros (A & B & C). unfold enc_ipc020. destruct (fld_ip_total "gateway" _ B) as (f & -> & N). cbn [obind].
  destruct (omap_total _ _ route_total _ C) as (js & -> & NJ). cbn [obind]. eexists. split; [reflexivity|]. apply obj_normable. nfs. now apply nf_arr.
Qed.
Lemma if040_total i : wf_if040 i -> exists j, enc_if040 i = Some j /\ normable j.
Proof. intros _. eexists. split; [reflexivity|]. apply obj_normable. nfs. Qed.
Lemma ipc040_total c : wf_ipc040 int64 any_prefix c -> exists j, enc_ipc040 c = Some j /\ normable j.
Proof.
  intros (A & B & C & D). unfold enc_ipc040. destruct (fld_ip_total "gateway" (i4_gateway c)) as (f & -> & N); [assumption|]. cbn [obind].
  eexists. split; [reflexivity|]. apply obj_normable. nfs.
Qed.
Lemma if100_total i : wf_if100 int64 i -> exists j, enc_if100 i = Some j /\ normable j.
Proof. intros (A & B & C & D & F & G). eexists. split; [reflexivity|]. apply obj_normable. nfs. Qed.
Lemma ipc100_total c : wf_ipc100 int64 any_prefix c -> exists j, enc_ipc100 c = Some j /\ normable j.
Proof.
  intros (A & B & C). unfold enc_ipc100. destruct (fld_ip_total "gateway" (i1_gateway c)) as (f & -> & N); [assumption|]. cbn [obind].
  eexists. split; [reflexivity|]. apply obj_normable. nfs.
Qed.

(** The JSON form of a decoded result: an object within the bounds of the encoder. *)
Theorem enc_total r : wf_result int64 any_prefix r ->
  exists l m, enc_result r = Some (JObj l) /\ norm (JObj l) = Some (JObj m) /\ jwf (JObj l) /\ (jdepth (JObj l) <= 5)%N.
Proof.
  intros [W RV]. pose proof (proj2 (right_nonempty _ RV)) as V.
  assert (G : exists l m, enc_result r = Some (JObj l) /\ norm (JObj l) = Some (JObj m)).
  { destruct r as [r|r|r]; cbn [wf_body enc_result result_version] in *.
    - destruct W as (A & B & C). unfold enc_res020.
      assert (G : forall k c, wf_opt (wf_ipc020 int64 any_prefix) c -> exists f, fld_ipc020 k c = Some f /\ nfields f).
      { intros k [c|] W; cbn [fld_ipc020]; [|exists []; split; [reflexivity|apply nf_nil]]. destruct (ipc020_total c W) as (j & -> & N).
        eexists. split; [reflexivity|]. now apply nf_one. }
      destruct (G "ip4" _ A) as (f4 & -> & N4). destruct (G "ip6" _ B) as (f6 & -> & N6). cbn [obind].
      match goal with |- exists l m, Some (JObj ?x) = _ /\ _ => destruct (normable_obj x) as [m M]; [|exists x, m; split; [reflexivity|exact M]] end.
      nfs. apply nf_one, dns_normable.
    - destruct W as (A & B & C & D). unfold enc_res040.
      destruct (omap_opt_total _ _ if040_total _ A) as (ja & -> & NA). destruct (omap_opt_total _ _ ipc040_total _ B) as (jb & -> & NB).
      destruct (omap_opt_total _ _ route_total _ C) as (jc & -> & NC). cbn [obind].
      match goal with |- exists l m, Some (JObj ?x) = _ /\ _ => destruct (normable_obj x) as [m M]; [|exists x, m; split; [reflexivity|exact M]] end.
      nfs; try (apply nf_arr; assumption). apply nf_one, dns_normable.
    - assert (P : exists l m, enc_res100_plain r = Some (JObj l) /\ norm (JObj l) = Some (JObj m)).
      { destruct W as (A & B & C & D). unfold enc_res100_plain.
        destruct (omap_opt_total _ _ if100_total _ A) as (ja & -> & NA). destruct (omap_opt_total _ _ ipc100_total _ B) as (jb & -> & NB).
        destruct (omap_opt_total _ _ route_total _ C) as (jc & -> & NC). cbn [obind].
        match goal with |- exists l m, Some (JObj ?x) = _ /\ _ => destruct (normable_obj x) as [m M]; [|exists x, m; split; [reflexivity|exact M]] end.
        nfs; try (apply nf_arr; assumption). apply nf_one, dns_normable. }
      destruct P as (l & m & EP & N). pose proof (plain_shape _ _ W V EP) as [S1 S2].
      unfold enc_res100. rewrite EP. cbn [obind].
      assert (U : unmarshal_map (print (JObj l)) = Some (Some m)).
      { unfold unmarshal_map. rewrite parse_print by (split; [exact S1|eapply N.le_trans; [exact S2|easy]]). unfold decode_map. now rewrite N. }
      rewrite U. cbn [obind]. pose proof (norm_canonical _ _ N) as CM. apply canonical_obj in CM. destruct CM as [SM FM].
      eexists _, _. split; [reflexivity|]. apply canonical_norm. destruct (dns_is_empty _); [|apply canonical_obj; now split].
      apply canonical_obj. split; [now apply sdel_sorted|]. unfold sdel. now apply Forall_filter_incl. }
  destruct G as (l & m & E & N). exists l, m. split; [exact E|]. split; [exact N|]. exact (enc_shape r _ W V E).
Qed.
