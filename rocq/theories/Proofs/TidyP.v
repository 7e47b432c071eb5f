(** What the encoder writes: documented members only (C67). *)
From Coq Require Import String Ascii List Arith NArith ZArith Bool Lia.
From Verif Require Import Model.GoStr Model.Errors Model.Json Model.Num Model.GoJson Model.NetIP Model.Types
  Spec.NameSpec Spec.JsonSpec Spec.ConfSpec Spec.TypesSpec Spec.DocSpec Proofs.StrP Proofs.JsonP Proofs.JsonRT Proofs.NumP Proofs.NetIPP
  Proofs.GoJsonP Proofs.ConfP Proofs.TypesP Proofs.DecodeP Proofs.ShapeP Proofs.DocP.
Import ListNotations.
Open Scope nat_scope.
Open Scope string_scope.

Lemma tidy_arr_inv l : tidy (JArr l) -> Forall tidy l.
Proof. intros H. inversion H; assumption. Qed.
Lemma tidy_obj_inv o : tidy (JObj o) -> NoDup (map fst o) /\ Forall (fun kv => In (fst kv) documented /\ tidy (snd kv)) o.
Proof. intros H. inversion H; auto. Qed.
Lemma documented_folds k k' : In k documented -> In k' documented -> fold_key k = fold_key k' -> k = k'.
Proof.
  assert (B : forallb (fun a => forallb (fun b => implb (String.eqb (fold_key a) (fold_key b)) (String.eqb a b)) documented) documented = true) by (vm_compute; reflexivity).
  intros A A' E. rewrite forallb_forall in B. specialize (B k A). cbv beta in B. rewrite forallb_forall in B. specialize (B k' A'). cbv beta in B.
  rewrite E, String.eqb_refl in B. cbn [implb] in B. now apply String.eqb_eq.
Qed.
Lemma tidy_plain j : tidy j -> plain j.
Proof.
  induction j as [|b|l|s|l IH|l IH] using json_ind'; intros T; try constructor.
  - apply tidy_arr_inv in T. rewrite Forall_forall in *. auto.
  - apply tidy_obj_inv in T as [N F]. clear IH. induction l as [|[k v] l IH]; cbn [map fst] in *; [constructor|].
    apply NoDup_cons_iff in N as [A N]. apply Forall_cons_iff in F as [[K _] F]. constructor; [|now apply IH].
    rewrite in_map_iff. intros ([k' v'] & E & I). cbn [fst] in E, K. rewrite Forall_forall in F. destruct (F _ I) as [K' _]. cbn [fst] in K'.
    apply documented_folds in E; [|assumption..]. subst k'. apply A. now apply (in_map fst) in I.
  - apply tidy_obj_inv in T as [N F]. rewrite Forall_forall in *. intros kv I. apply IH; [exact I|]. now apply F.
Qed.

(** Members in the order of a list of names. *)
Inductive runs_through : list string -> list (string * json) -> Prop :=
| rt_nil : runs_through [] []
| rt_skip : forall k ks l, runs_through ks l -> runs_through (k :: ks) l
| rt_take : forall k ks v l, In k documented -> tidy v -> runs_through ks l -> runs_through (k :: ks) ((k, v) :: l).
Lemma rt_app a b l m : runs_through a l -> runs_through b m -> runs_through (a ++ b)%list (l ++ m)%list.
Proof. induction 1; cbn [app]; intros; [assumption|apply rt_skip; auto|apply rt_take; auto]. Qed.
Lemma rt_in ks l k : runs_through ks l -> In k (map fst l) -> In k ks.
Proof. induction 1; cbn [map fst In]; intros I; [easy|auto|destruct I; auto]. Qed.
Lemma rt_tidy ks l : runs_through ks l -> NoDup ks -> tidy (JObj l).
Proof.
  intros R N. constructor.
  - induction R; cbn [map fst]; [constructor|apply NoDup_cons_iff in N as [_ N]; auto|]. apply NoDup_cons_iff in N as [A N].
    constructor; [|auto]. intros I. apply A. eapply rt_in; eassumption.
  - clear N. induction R; [constructor|assumption|constructor; [cbn; auto|assumption]].
Qed.
Definition doc_key (k : string) : bool := mem_str k documented.
Lemma doc_key_in k : doc_key k = true -> In k documented.
Proof. intros H. now apply mem_in. Qed.
Lemma rt_none k : runs_through [k] []. Proof. repeat constructor. Qed.
Lemma rt_one k v : doc_key k = true -> tidy v -> runs_through [k] [(k, v)].
Proof. intros H T. apply rt_take; [now apply doc_key_in|exact T|constructor]. Qed.
Lemma rt_str k s : doc_key k = true -> runs_through [k] (fld_str k s).
Proof. intros H. unfold fld_str, omit_if. destruct (String.eqb s ""); [apply rt_none|apply rt_one; [exact H|constructor]]. Qed.
Lemma rt_int k z : doc_key k = true -> runs_through [k] (fld_int k z).
Proof. intros H. unfold fld_int, omit_if. destruct (z =? 0)%Z; [apply rt_none|apply rt_one; [exact H|constructor]]. Qed.
Lemma rt_optint k z : doc_key k = true -> runs_through [k] (fld_optint k z).
Proof. intros H. destruct z; [apply rt_one; [exact H|constructor]|apply rt_none]. Qed.
Lemma rt_strs k l : doc_key k = true -> runs_through [k] (fld_strs k l).
Proof.
  intros H. unfold fld_strs, omit_if. destruct (nil_list l); [apply rt_none|apply rt_one; [exact H|]]. constructor. apply Forall_map.
  apply Forall_forall. constructor.
Qed.
Lemma rt_arr k l : doc_key k = true -> Forall tidy l -> runs_through [k] (fld_arr k l).
Proof. intros H F. unfold fld_arr, omit_if. destruct (nil_list l); [apply rt_none|apply rt_one; [exact H|now constructor]]. Qed.
Lemma rt_ip k a f : doc_key k = true -> fld_ip k a = Some f -> runs_through [k] f.
Proof.
  intros H E. unfold fld_ip, enc_ip in E. destruct a as [|x a]; [apply some_eq in E; subst; apply rt_none|].
  destruct (_ || _); [|discriminate]. cbn [option_map] in E. apply some_eq in E. subst. apply rt_one; [exact H|constructor].
Qed.
Lemma omap_tidy {A} (f : A -> option json) : (forall a j, f a = Some j -> tidy j) -> forall l js, omap_list f l = Some js -> Forall tidy js.
Proof.
  intros H. induction l as [|a l IH]; intros js E; cbn [omap_list] in E; [apply some_eq in E; subst; constructor|].
  destruct (f a) as [j|] eqn:J; [|discriminate]. cbn [obind] in E. destruct (omap_list f l) as [js'|]; [|discriminate]. apply some_eq in E. subst.
  constructor; [eauto|now apply IH].
Qed.
Lemma omap_opt_tidy {A} (f : A -> option json) : (forall a j, f a = Some j -> tidy j) -> forall l js, omap_list (enc_opt f) l = Some js -> Forall tidy js.
Proof. intros H. apply omap_tidy. intros [a|] j E; [now apply (H a)|]. apply some_eq in E. subst. constructor. Qed.

Ltac rts := repeat first [apply rt_str; reflexivity | apply rt_int; reflexivity | apply rt_optint; reflexivity | apply rt_strs; reflexivity
  | eapply rt_ip; [|eassumption]; reflexivity | apply rt_one; [reflexivity|constructor] | eapply rt_app].
Ltac nd := vm_compute; repeat first [apply NoDup_nil | apply NoDup_cons; [cbn; intuition discriminate|]].

Lemma dns_tidy d : tidy (enc_dns d).
Proof. unfold enc_dns. eapply rt_tidy; [rts|nd]. Qed.
Lemma route_tidy r j : enc_route r = Some j -> tidy j.
Proof. intros E. unfold enc_route in E. obs E. eapply rt_tidy; [rts|nd]. Qed.
Lemma ipc020_tidy c j : enc_ipc020 c = Some j -> tidy j.
Proof.
  intros E. unfold enc_ipc020 in E. obs E. eapply rt_tidy; [rts|]. - apply rt_arr; [reflexivity|]. eapply omap_tidy; [|eassumption]. exact route_tidy.
  - nd.
Qed.
Lemma if040_tidy c j : enc_if040 c = Some j -> tidy j.
Proof. intros E. unfold enc_if040 in E. obs E. eapply rt_tidy; [rts|nd]. Qed.
Lemma ipc040_tidy c j : enc_ipc040 c = Some j -> tidy j.
Proof. intros E. unfold enc_ipc040 in E. obs E. eapply rt_tidy; [rts|nd]. Qed.
Lemma if100_tidy c j : enc_if100 c = Some j -> tidy j.
Proof. intros E. unfold enc_if100 in E. obs E. eapply rt_tidy; [rts|nd]. Qed.
Lemma ipc100_tidy c j : enc_ipc100 c = Some j -> tidy j.
Proof. intros E. unfold enc_ipc100 in E. obs E. eapply rt_tidy; [rts|nd]. Qed.
Lemma res020_tidy r j : enc_res020 r = Some j -> tidy j.
Proof.
  intros E. unfold enc_res020 in E. obs E.
  assert (G : forall k c f, doc_key k = true -> fld_ipc020 k c = Some f -> runs_through [k] f).
  { intros k [c|] g K G; cbn [fld_ipc020] in G; [|apply some_eq in G; subst; apply rt_none]. destruct (enc_ipc020 c) as [x|] eqn:X; [|discriminate].
    apply some_eq in G. subst. apply rt_one; [exact K|]. eapply ipc020_tidy; eassumption. }
  eapply (rt_tidy (["cniVersion"] ++ ["ip4"] ++ ["ip6"] ++ ["dns"])%list); [|nd]. apply rt_app; [now apply rt_str|].
  apply rt_app; [eapply G; [|eassumption]; reflexivity|]. apply rt_app; [eapply G; [|eassumption]; reflexivity|]. apply rt_one; [reflexivity|apply dns_tidy].
Qed.
Lemma res040_tidy r j : enc_res040 r = Some j -> tidy j.
Proof.
  intros E. unfold enc_res040 in E. obs E.
  eapply (rt_tidy (["cniVersion"] ++ ["interfaces"] ++ ["ips"] ++ ["routes"] ++ ["dns"])%list); [|nd]. apply rt_app; [now apply rt_str|].
  apply rt_app; [apply rt_arr; [reflexivity|eapply omap_opt_tidy; [|eassumption]; exact if040_tidy]|].
  apply rt_app; [apply rt_arr; [reflexivity|eapply omap_opt_tidy; [|eassumption]; exact ipc040_tidy]|].
  apply rt_app; [apply rt_arr; [reflexivity|eapply omap_opt_tidy; [|eassumption]; exact route_tidy]|]. apply rt_one; [reflexivity|apply dns_tidy].
Qed.
Lemma res100_plain_tidy r j : enc_res100_plain r = Some j -> tidy j.
Proof.
  intros E. unfold enc_res100_plain in E. obs E.
  eapply (rt_tidy (["cniVersion"] ++ ["interfaces"] ++ ["ips"] ++ ["routes"] ++ ["dns"])%list); [|nd]. apply rt_app; [now apply rt_str|].
  apply rt_app; [apply rt_arr; [reflexivity|eapply omap_opt_tidy; [|eassumption]; exact if100_tidy]|].
  apply rt_app; [apply rt_arr; [reflexivity|eapply omap_opt_tidy; [|eassumption]; exact ipc100_tidy]|].
  apply rt_app; [apply rt_arr; [reflexivity|eapply omap_opt_tidy; [|eassumption]; exact route_tidy]|]. apply rt_one; [reflexivity|apply dns_tidy].
Qed.

Lemma sset_all_forall (P : string * json -> Prop) l : forall m, Forall P l -> Forall P m -> Forall P (sset_all l m).
Proof.
  assert (S : forall k v m, P (k, v) -> Forall P m -> Forall P (sset k v m)).
  { intros k v m H. induction m as [|[k' v'] m IH]; cbn [sset]; intros F; [now constructor|]. apply Forall_cons_iff in F as [A F].
    destruct (String.compare k k'); repeat constructor; auto. }
  induction l as [|[k v] l IH]; intros m A B; [exact B|]. apply Forall_cons_iff in A as [A1 A2]. cbn [sset_all]. apply IH; [exact A2|]. now apply S.
Qed.
Lemma norm_tidy j : forall j', norm j = Some j' -> tidy j -> tidy j'.
Proof.
  induction j as [|b|l|s|l IH|l IH] using json_ind'; intros j' H T; try (cbn [norm] in H; apply some_eq in H; subst; constructor).
  - cbn [norm] in H. destruct (canon_num l); [|discriminate]. apply some_eq in H. subst. constructor.
  - rewrite norm_arr in H. apply tidy_arr_inv in T. destruct (norm_all l) as [l'|] eqn:E; [|discriminate]. apply some_eq in H. subst. constructor.
    revert l' E T. induction IH as [|x l X IH IH']; intros l' E T; cbn [norm_all] in E; [apply some_eq in E; subst; constructor|].
    destruct (norm x) as [x'|] eqn:NX; [|discriminate]. destruct (norm_all l); [|discriminate]. apply some_eq in E. subst. apply Forall_cons_iff in T as [T1 T2].
    constructor; [now apply X|now apply IH'].
  - rewrite norm_obj in H. apply tidy_obj_inv in T as [_ T]. destruct (norm_pairs l) as [l'|] eqn:E; [|discriminate]. apply some_eq in H. subst. constructor.
    + apply ssorted_nodup. now apply sset_all_sorted.
    + apply sset_all_forall; [|constructor]. revert l' E T. induction IH as [|[k x] l X IH IH']; intros l' E T; cbn [norm_pairs] in E; [apply some_eq in E; subst; constructor|].
      destruct (norm x) as [x'|] eqn:NX; [|discriminate]. destruct (norm_pairs l); [|discriminate]. apply some_eq in E. subst. apply Forall_cons_iff in T as [[T0 T1] T2].
      constructor; [split; [exact T0|now apply X]|now apply IH'].
Qed.
Lemma sdel_tidy k o : tidy (JObj o) -> tidy (JObj (sdel k o)).
Proof.
  intros T. apply tidy_obj_inv in T as [N F]. constructor; [|unfold sdel; now apply Forall_filter_incl].
  unfold sdel. clear F. induction o as [|[a v] o IH]; cbn [filter map fst] in *; [constructor|]. apply NoDup_cons_iff in N as [A N].
  destruct (negb _); [|auto]. cbn [map fst]. constructor; [|auto]. intros I. apply A. apply in_map_iff in I as (x & <- & I). apply filter_In in I as [I _].
  now apply in_map.
Qed.
Lemma result_tidy r j : wf_body int64 any_prefix r -> well_formed_text (result_version r) -> enc_result r = Some j -> tidy j.
Proof.
  intros W V E. destruct r as [r|r|r]; cbn [enc_result] in E; [eapply res020_tidy; eassumption|eapply res040_tidy; eassumption|].
  unfold enc_res100 in E. destruct (enc_res100_plain r) as [p|] eqn:P; [|discriminate]. cbn [obind] in E.
  pose proof (plain_shape _ _ W V P) as SP. pose proof (res100_plain_tidy _ _ P) as TP.
  destruct (unmarshal_map (print p)) as [[m|]|] eqn:U; [| |discriminate]; cbn [obind] in E; apply some_eq in E; subst.
  - apply unmarshal_map_some in U as (x & PX & _ & NX). rewrite parse_print in PX by (destruct SP as [S1 S2]; split; [exact S1|eapply N.le_trans; [exact S2|easy]]).
    apply some_eq in PX. subst x. apply norm_tidy in NX; [|exact TP]. destruct (dns_is_empty _); [now apply sdel_tidy|exact NX].
  - destruct (dns_is_empty _); repeat constructor.
Qed.
