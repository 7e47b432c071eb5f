(** The JSON form of any result a decoder can produce is encodable, whatever its prefixes. *)
From Coq Require Import String Ascii List Arith NArith ZArith Bool Lia.
From Verif Require Import Model.GoStr Model.Errors Model.Json Model.Num Model.GoJson Model.NetIP Model.Types
  Spec.NameSpec Spec.JsonSpec Spec.ConfSpec Spec.TypesSpec Proofs.StrP Proofs.JsonP Proofs.JsonRT Proofs.NumP Proofs.NetIPP
  Proofs.GoJsonP Proofs.ConfP Proofs.TypesP Proofs.DecodeP.
Import ListNotations.
Open Scope nat_scope.
Open Scope string_scope.

Lemma ipnet_ascii_any p : any_prefix p -> ascii_text (ipnet_string p).
Proof.
  intros [H|[->|(q & n & O & L & ->)]]; [now apply ipnet_ascii|reflexivity|].
  unfold ipnet_string, net_and_mask. cbn [n_ip n_mask].
  assert (T : to4 (v4in6 q) = q) by (destruct O as [O _]; destruct q as [|a [|b [|c [|d [|e q]]]]]; try discriminate; reflexivity).
  rewrite T. destruct O as [O F]. destruct q as [|a q]; [discriminate|].
  assert (B : forallb (fun i => (List.length (cidr_mask (N.of_nat i) 128) =? 16)%nat &&
     match simple_mask_length (skipn 12 (cidr_mask (N.of_nat i) 128)) with Some _ => true | None => false end) (seq 0 129) = true) by (vm_compute; reflexivity).
  rewrite forallb_forall in B. specialize (B (N.to_nat n)). rewrite in_seq, N2Nat.id in B. specialize (B ltac:(lia)).
  apply andb_true_iff in B as [B1 B2]. apply Nat.eqb_eq in B1. rewrite B1, O. cbn [Nat.eqb].
  destruct (simple_mask_length _) as [l|]; [|discriminate]. unfold ascii_text. rewrite !sforall_app.
  assert (S : ip_string (a :: q) = ip4_string (a :: q)) by (unfold ip_string; rewrite O; cbn [Nat.eqb orb negb]; unfold to4; rewrite O; reflexivity).
  rewrite S, (ip4_ascii (a :: q)), (itoaN_ascii l). reflexivity.
Qed.

Definition shaped (d : N) (j : json) : Prop := jwf j /\ (jdepth j <= d)%N.
Lemma shaped_mono d e j : shaped d j -> (d <= e)%N -> shaped e j.
Proof. intros [A B] L. split; [exact A|]. eapply N.le_trans; eassumption. Qed.
Definition sfields (d : N) (l : list (string * json)) : Prop := Forall (fun kv => ascii_text (fst kv) /\ shaped d (snd kv)) l.
Lemma shaped_obj d l : sfields d l -> shaped (N.succ d) (JObj l).
Proof.
  intros H. split; [apply jwf_obj|apply jdepth_obj]; revert H; apply Forall_impl; intros [k v] [A [B C]]; [|exact C].
  split; [now apply ascii_wft|exact B].
Qed.
Lemma shaped_arr d l : Forall (shaped d) l -> shaped (N.succ d) (JArr l).
Proof. intros H. split; [apply jwf_arr|apply jdepth_arr]; revert H; apply Forall_impl; intros j [A B]; assumption. Qed.
Lemma shaped_str d s : well_formed_text s -> shaped d (JStr s).
Proof. intros H. split; [exact H|apply N.le_0_l]. Qed.
Lemma shaped_int d z : shaped d (enc_int z).
Proof. split; [apply number_lit_spec, valid_number_itoa|apply N.le_0_l]. Qed.

Lemma sf_nil d : sfields d []. Proof. constructor. Qed.
Lemma sf_one d k v : ascii_text k -> shaped d v -> sfields d [(k, v)]. Proof. constructor; [now split|constructor]. Qed.
Lemma sf_app d a b : sfields d a -> sfields d b -> sfields d (a ++ b)%list. Proof. intros. apply Forall_app. now split. Qed.
Lemma sf_str d k s : ascii_text k -> well_formed_text s -> sfields d (fld_str k s).
Proof. intros K H. unfold fld_str, omit_if. destruct (String.eqb s ""); [apply sf_nil|apply sf_one; [exact K|now apply shaped_str]]. Qed.
Lemma sf_int d k z : ascii_text k -> sfields d (fld_int k z).
Proof. intros K. unfold fld_int, omit_if. destruct (z =? 0)%Z; [apply sf_nil|apply sf_one; [exact K|apply shaped_int]]. Qed.
Lemma sf_optint d k z : ascii_text k -> sfields d (fld_optint k z).
Proof. intros K. destruct z; [apply sf_one; [exact K|apply shaped_int]|apply sf_nil]. Qed.
Lemma sf_strs d k l : ascii_text k -> Forall well_formed_text l -> sfields (N.succ d) (fld_strs k l).
Proof.
  intros K H. unfold fld_strs, omit_if. destruct (nil_list l); [apply sf_nil|]. apply sf_one; [exact K|]. apply shaped_arr. apply Forall_map.
  revert H. apply Forall_impl. intros s. apply shaped_str.
Qed.
Lemma sf_arr d k l : ascii_text k -> Forall (shaped d) l -> sfields (N.succ d) (fld_arr k l).
Proof. intros K H. unfold fld_arr, omit_if. destruct (nil_list l); [apply sf_nil|]. apply sf_one; [exact K|now apply shaped_arr]. Qed.
Lemma sf_ip d k a f : ascii_text k -> wf_gw a -> fld_ip k a = Some f -> sfields d f.
Proof.
  intros K W E. destruct W as [->|B]; [injection E as <-; apply sf_nil|]. destruct a as [|x a]; [injection E as <-; apply sf_nil|].
  unfold fld_ip, enc_ip in E. destruct B as [L B]. rewrite L in E. assert (X : f = [(k, JStr (ip_string (x :: a)))]) by (cbn [Nat.eqb orb option_map] in E; congruence).
  rewrite X. apply sf_one; [exact K|]. apply shaped_str, ascii_wft. apply ip_string_ascii. now split.
Qed.
Lemma sf_ipnet d k p : ascii_text k -> any_prefix p -> sfields d [(k, enc_ipnet p)].
Proof. intros K H. apply sf_one; [exact K|]. apply shaped_str, ascii_wft. now apply ipnet_ascii_any. Qed.
Lemma omap_shaped {A} (P : A -> Prop) (f : A -> option json) d : (forall a j, P a -> f a = Some j -> shaped d j) ->
  forall l js, omap_list f l = Some js -> Forall P l -> Forall (shaped d) js.
Proof.
  intros H. induction l as [|a l IH]; intros js E F; cbn [omap_list] in E; [injection E as <-; constructor|].
  destruct (f a) as [j|] eqn:J; [|discriminate]. cbn [obind] in E. destruct (omap_list f l) as [js'|]; [|discriminate]. injection E as <-.
  apply Forall_cons_iff in F as [F1 F2]. constructor; [eapply H; eassumption|now apply IH].
Qed.
Lemma omap_opt_shaped {A} (P : A -> Prop) (f : A -> option json) d : (forall a j, P a -> f a = Some j -> shaped d j) ->
  forall l js, omap_list (enc_opt f) l = Some js -> Forall (wf_opt P) l -> Forall (shaped d) js.
Proof.
  intros H. apply omap_shaped. intros [a|] j W E; [now apply (H a)|]. injection E as <-. split; [exact I|apply N.le_0_l].
Qed.

Lemma some_eq {A} (a b : A) : Some a = Some b -> a = b. Proof. congruence. Qed.
Ltac obs E := repeat match type of E with
  | obind ?x _ = Some _ => let f := fresh "f" in let F := fresh "F" in destruct x as [f|] eqn:F; [cbn [obind] in E|discriminate E]
  | Some _ = Some _ => apply some_eq in E; subst end.
Ltac sfs := repeat first [apply sf_app | apply sf_str; [reflexivity|assumption] | apply sf_int; reflexivity | apply sf_optint; reflexivity
  | apply sf_ipnet; [reflexivity|assumption] | eapply sf_ip; [ | |eassumption]; [reflexivity|assumption]
  | apply sf_one; [reflexivity|apply shaped_str; assumption] ].

Lemma dns_shaped d : wf_dns d -> shaped 3 (enc_dns d).
Proof.
  intros (A & B & C & D). unfold enc_dns. change 3%N with (N.succ 2). apply shaped_obj. change 2%N with (N.succ 1).
  repeat apply sf_app; try (apply sf_strs; [reflexivity|assumption]). apply sf_str; [reflexivity|exact B].
Qed.
Lemma route_shaped I r j : wf_route I any_prefix r -> enc_route r = Some j -> shaped 2 j.
Proof. intros (A & B & _) E. unfold enc_route in E. obs E. apply (shaped_obj 1). sfs. Qed.
Lemma ipc020_shaped I c j : wf_ipc020 I any_prefix c -> enc_ipc020 c = Some j -> shaped 4 j.
Proof.
  intros (A & B & C) E. unfold enc_ipc020 in E. obs E. apply (shaped_obj 3). sfs. apply (sf_arr 2); [reflexivity|].
  eapply omap_shaped; [|eassumption|exact C]. intros. eapply route_shaped; eassumption.
Qed.
Lemma if040_shaped i j : wf_if040 i -> enc_if040 i = Some j -> shaped 2 j.
Proof. intros (A & B & C) E. unfold enc_if040 in E. obs E. apply (shaped_obj 1). sfs. Qed.
Lemma ipc040_shaped I c j : wf_ipc040 I any_prefix c -> enc_ipc040 c = Some j -> shaped 2 j.
Proof. intros (A & B & C & D) E. unfold enc_ipc040 in E. obs E. apply (shaped_obj 1). sfs. Qed.
Lemma if100_shaped I i j : wf_if100 I i -> enc_if100 i = Some j -> shaped 2 j.
Proof. intros (A & B & C & D & F & G) E. unfold enc_if100 in E. obs E. apply (shaped_obj 1). sfs. Qed.
Lemma ipc100_shaped I c j : wf_ipc100 I any_prefix c -> enc_ipc100 c = Some j -> shaped 2 j.
Proof. intros (A & B & C) E. unfold enc_ipc100 in E. obs E. apply (shaped_obj 1). sfs. Qed.

Lemma plain_shape r p : wf_body int64 any_prefix (R100 r) -> well_formed_text (v1_version r) -> enc_res100_plain r = Some p -> shaped 5 p.
Proof.
  intros (A & B & C & D) V P. unfold enc_res100_plain in P. obs P. apply (shaped_mono 4); [|easy]. apply (shaped_obj 3).
  sfs; [apply (sf_arr 2); [reflexivity|]..|].
  + eapply omap_opt_shaped; [|eassumption|exact A]. intros. eapply if100_shaped; eassumption.
  + eapply omap_opt_shaped; [|eassumption|exact B]. intros. eapply ipc100_shaped; eassumption.
  + eapply omap_opt_shaped; [|eassumption|exact C]. intros. eapply route_shaped; eassumption.
  + apply sf_one; [reflexivity|now apply dns_shaped].
Qed.
Lemma enc_shape r j : wf_body int64 any_prefix r -> well_formed_text (result_version r) -> enc_result r = Some j -> shaped 5 j.
Proof.
  intros W V E. destruct r as [r|r|r]; cbn [wf_body enc_result result_version] in *.
  - destruct W as (A & B & C). unfold enc_res020 in E. obs E. apply (shaped_obj 4).
    assert (G : forall k c f, ascii_text k -> wf_opt (wf_ipc020 int64 any_prefix) c -> fld_ipc020 k c = Some f -> sfields 4 f).
    { intros k [c|] g K W G; cbn [fld_ipc020] in G; [|injection G as <-; apply sf_nil]. destruct (enc_ipc020 c) as [x|] eqn:X; [|discriminate].
      injection G as <-. apply sf_one; [exact K|]. eapply ipc020_shaped; eassumption. }
    sfs; [eapply G; [|exact A|eassumption]; reflexivity|eapply G; [|exact B|eassumption]; reflexivity|].
    apply sf_one; [reflexivity|]. eapply shaped_mono; [now apply dns_shaped|easy].
  - destruct W as (A & B & C & D). unfold enc_res040 in E. obs E. apply (shaped_mono 4); [|easy]. apply (shaped_obj 3).
    sfs; [apply (sf_arr 2); [reflexivity|]..|].
    + eapply omap_opt_shaped; [|eassumption|exact A]. intros. eapply if040_shaped; eassumption.
    + eapply omap_opt_shaped; [|eassumption|exact B]. intros. eapply ipc040_shaped; eassumption.
    + eapply omap_opt_shaped; [|eassumption|exact C]. intros. eapply route_shaped; eassumption.
    + apply sf_one; [reflexivity|now apply dns_shaped].
  - unfold enc_res100 in E. destruct (enc_res100_plain r) as [p|] eqn:P; [|discriminate]. cbn [obind] in E.
    pose proof (plain_shape _ _ W V P) as SP.
    assert (PN : exists l, p = JObj l) by (unfold enc_res100_plain in P; obs P; eauto). destruct PN as [l ->].
    destruct (unmarshal_map (print (JObj l))) as [[m|]|] eqn:U; [| |discriminate]; cbn [obind] in E.
    + apply unmarshal_map_some in U as (x & PX & _ & NX). rewrite parse_print in PX by (destruct SP as [S1 S2]; split; [exact S1|eapply N.le_trans; [exact S2|easy]]).
      injection PX as <-. destruct SP as [S1 S2]. destruct (norm_encodable _ _ NX S1) as [J D].
      injection E as <-. split.
      * destruct (dns_is_empty _); [|exact J]. apply jwf_obj. apply jwf_obj in J. unfold sdel. now apply Forall_filter_incl.
      * assert (D5 : (jdepth (JObj m) <= N.succ 4)%N) by (eapply N.le_trans; eassumption).
        destruct (dns_is_empty _); [|exact D5]. change 5%N with (N.succ 4). apply jdepth_obj. apply jdepth_obj in D5. unfold sdel. now apply Forall_filter_incl.
    + injection E as <-. destruct (dns_is_empty _); split; cbn; lia || exact I.
Qed.
