(** Cache files in the old format: a bare result. *)
From Coq Require Import String Ascii List Arith NArith ZArith Bool Lia.
From Verif Require Import Model.GoStr Model.Errors Model.Version Model.Json Model.GoJson Model.NetIP Model.Types Model.Conf Model.Prog Model.Api
  Spec.NameSpec Spec.JsonSpec Spec.ConfSpec Spec.TypesSpec Spec.CacheSpec Spec.HistSpec Spec.MapSpec
  Proofs.StrP Proofs.JsonP Proofs.JsonRT Proofs.GoJsonP Proofs.ConfP Proofs.TypesP Proofs.DecodeP Proofs.ShapeP Proofs.ApiP Proofs.ListP.
Import ListNotations.
Open Scope nat_scope.
Open Scope string_scope.

Lemma cached_kind_keep c k v c' : cached_info_step c k v = Some c' -> key_is "kind" k = false -> ci_kind c' = ci_kind c.
Proof.
  intros H K. unfold cached_info_step in H. rewrite K in H.
  repeat match type of H with (if ?b then _ else _) = _ => destruct b end;
  match type of H with
  | option_map _ ?o = Some _ => destruct o; [|discriminate]; injection H as <-; reflexivity
  | Some _ = Some _ => injection H as <-; reflexivity
  end.
Qed.
Lemma old_kind data r : old_format data r -> match unmarshal_cached_info data with Some ci => ci_kind ci = "" | None => True end.
Proof.
  intros ((o & P & K) & _). unfold unmarshal_cached_info. rewrite P. cbn [obind].
  destruct (decode_struct cached_info_step cached_info_zero (JObj o)) as [ci|] eqn:D; [|exact I].
  exact (decode_members_keep _ ci_kind (key_is "kind") cached_kind_keep _ _ _ D K).
Qed.
Lemma old_reads ver data r : old_format data r -> reads_result ver (Some data) = presented ver r.
Proof.
  intros O. pose proof (old_kind _ _ O) as K. destruct O as (_ & C). unfold reads_result, held_result, held_document, presented.
  destruct (unmarshal_cached_info data) as [ci|]; [rewrite K|]; cbn [String.eqb]; rewrite C; reflexivity.
Qed.
Lemma old_unlisted id data r : old_format data r -> attachment_of id data = None.
Proof.
  intros O. pose proof (old_kind _ _ O) as K. unfold attachment_of. destruct (unmarshal_cached_info data) as [ci|]; [rewrite K|]; reflexivity.
Qed.

(** *** What results are written as *)
Definition unkind (l : list (string * json)) : Prop := forall k v, In (k, v) l -> key_is "kind" k = false.
Lemma unkind_app a b : unkind a -> unkind b -> unkind (a ++ b)%list.
Proof. intros A B k v I. apply in_app_or in I as [I|I]; [eapply A|eapply B]; exact I. Qed.
Lemma unkind_one k v : key_is "kind" k = false -> unkind [(k, v)].
Proof. intros K k' v' [E|[]]. injection E as <- <-. exact K. Qed.
Lemma unkind_nil : unkind [].
Proof. intros k v []. Qed.
Lemma unkind_str k s : key_is "kind" k = false -> unkind (fld_str k s).
Proof. intros K. unfold fld_str, omit_if. destruct (String.eqb s ""); [apply unkind_nil|now apply unkind_one]. Qed.
Lemma unkind_arr k l : key_is "kind" k = false -> unkind (fld_arr k l).
Proof. intros K. unfold fld_arr, omit_if. destruct (nil_list l); [apply unkind_nil|now apply unkind_one]. Qed.
Lemma unkind_ipc k c f : key_is "kind" k = false -> fld_ipc020 k c = Some f -> unkind f.
Proof.
  intros K E. destruct c as [c|]; cbn [fld_ipc020] in E; [|injection E as <-; apply unkind_nil].
  destruct (enc_ipc020 c) as [x|]; [|discriminate]. injection E as <-. now apply unkind_one.
Qed.
Lemma norm_unkind l m : norm (JObj l) = Some (JObj m) -> unkind l -> unkind m.
Proof.
  intros N U k v I. rewrite norm_obj in N. destruct (norm_pairs l) as [l'|] eqn:E; [|discriminate].
  assert (M : m = sset_all l' []) by (cbn [option_map] in N; congruence). subst m.
  apply sset_all_in in I as [I|[]].
  assert (F : Forall2 (fun a b : string * json => fst a = fst b /\ True) l l').
  { apply (norm_pairs_Forall (fun _ _ => True) l l'); [|exact E]. apply Forall_forall. auto. }
  clear - F I U. 
  induction F as [|[a x] [b y] l l' [H _] F IH]; [destruct I|]. cbn [fst] in H. subst b. destruct I as [K|K].
  - injection K as <- <-. apply (U a x). now left.
  - apply IH; [|exact K]. intros k' v' I. apply (U k' v'). now right.
Qed.
Lemma enc_unkind r o : wf_body int64 any_prefix r -> well_formed_text (result_version r) -> enc_result r = Some (JObj o) -> unkind o.
Proof.
  intros W V E. destruct r as [r|r|r]; cbn [enc_result] in E.
  - unfold enc_res020 in E. destruct (fld_ipc020 "ip4" _) as [f4|] eqn:E4; [|discriminate]. cbn [obind] in E.
    destruct (fld_ipc020 "ip6" _) as [f6|] eqn:E6; [|discriminate]. cbn [obind] in E.
    match type of E with Some (JObj ?a) = _ => assert (X : o = a) by congruence end. subst o.
    repeat apply unkind_app; [apply unkind_str; reflexivity|eapply unkind_ipc; [|exact E4]; reflexivity|eapply unkind_ipc; [|exact E6]; reflexivity|apply unkind_one; reflexivity].
  - unfold enc_res040 in E. repeat (match type of E with obind ?x _ = _ => destruct x; [|discriminate]; cbn [obind] in E end).
    match type of E with Some (JObj ?a) = _ => assert (X : o = a) by congruence end. subst o.
    repeat apply unkind_app; [apply unkind_str; reflexivity|apply unkind_arr; reflexivity..|apply unkind_one; reflexivity].
  - unfold enc_res100 in E. destruct (enc_res100_plain r) as [p|] eqn:P; [|discriminate]. cbn [obind] in E. pose proof (plain_shape _ _ W V P) as SP.
    unfold enc_res100_plain in P. repeat (match type of P with obind ?x _ = _ => destruct x; [|discriminate]; cbn [obind] in P end).
    destruct p as [| | | | |pl]; try discriminate.
    assert (U : unkind pl).
    { match type of P with Some (JObj ?a) = _ => assert (X : pl = a) by congruence end. subst pl.
      repeat apply unkind_app; [apply unkind_str; reflexivity|apply unkind_arr; reflexivity..|apply unkind_one; reflexivity]. }
    destruct (unmarshal_map (print (JObj pl))) as [[m|]|] eqn:UM; [| |discriminate]; cbn [obind] in E.
    + apply unmarshal_map_some in UM as (x & PX & _ & NX). rewrite parse_print in PX by (destruct SP as [S1 S2]; split; [exact S1|eapply N.le_trans; [exact S2|easy]]).
      assert (X : x = JObj pl) by congruence. subst x. pose proof (norm_unkind _ _ NX U) as M.
      match type of E with Some (JObj ?a) = _ => assert (X : o = a) by congruence end. subst o. destruct (dns_is_empty _); [|exact M].
      intros k v I. apply (M k v). unfold sdel in I. now apply filter_In in I.
    + match type of E with Some (JObj ?a) = _ => assert (X : o = a) by congruence end. subst o. destruct (dns_is_empty _); apply unkind_nil.
Qed.
