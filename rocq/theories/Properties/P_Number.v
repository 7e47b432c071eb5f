(** C72: numbers pass through as the nearest float64, written so that it reads back. *)
From Coq Require Import String Ascii List ZArith NArith Bool Reals Lia Lra.
From Flocq Require Import Core.
From Verif Require Import Model.GoStr Model.Utf8 Model.Errors Model.Version Model.Path Model.Json Model.Num Model.GoJson
  Model.Conf Model.Types Model.Prog Model.Api
  Spec.NameSpec Spec.JsonSpec Spec.ConfSpec Spec.NumberSpec
  Proofs.StrP Proofs.Utf8P Proofs.JsonP Proofs.JsonRT Proofs.NumP Proofs.GoJsonP Proofs.ConfP Proofs.BuildP Proofs.FloatP Proofs.LitP Proofs.LayoutP Proofs.CanonP
  Properties.P_Conf.
Import ListNotations.
Open Scope nat_scope.
Open Scope string_scope.

(** Every number of a document denotes exactly one real number. *)
Theorem C72_every_number_denotes : forall data j p l, parse data = Some j -> at_path p j = Some (JNum l) ->
  exists v, denotes l v /\ forall v', denotes l v' -> v' = v.
Proof.
  intros data j p l P A.
  assert (W : jwf (JNum l)).
  { apply parse_encodable in P. destruct P as [W _]. revert j W A. induction p as [|s p IH]; intros j W A.
    - injection A as ->. exact W.
    - destruct s as [k|n]; cbn [at_path] in A.
      + destruct j as [| | | | |m]; try discriminate. destruct (last_member k m) as [x|] eqn:E; [|discriminate].
        apply (IH x); [|exact A]. apply jwf_obj in W. clear - W E. induction m as [|[k' y] m IH]; [discriminate|].
        apply Forall_cons_iff in W. destruct W as [W1 W2]. cbn [last_member] in E. destruct (last_member k m) as [z|].
        * injection E as ->. now apply IH.
        * destruct (String.eqb k k'); [|discriminate]. injection E as ->. apply W1.
      + destruct j as [| | | |m|]; try discriminate. destruct (nth_error m n) as [x|] eqn:E; [|discriminate].
        apply (IH x); [|exact A]. apply jwf_arr in W. apply nth_error_In in E. rewrite Forall_forall in W. now apply W. }
  apply number_lit_spec in W. destruct (denotes_exists l W) as [v D]. exists v. split; [exact D|].
  intros v' D'. apply denotes_dec in D, D'. destruct D as (_ & x & E & -> & _). destruct D' as (_ & x' & E' & -> & _).
  rewrite E in E'. injection E' as <-. reflexivity.
Qed.

(** Decoding into an interface{} and encoding again: at every place of the document the number
    written reads as the same float64, keeps its sign, is as short and as near as can be, and
    uses an exponent exactly below 1e-6 and from 1e21. *)
Definition carried_over (l : string) (v : R) (t : string) : Prop :=
  ~ out_of_range v /\
  exists z, denotes t z /\ (negative t <-> negative l) /\ best z (float64 v) /\
    (smallest_normal <= Rabs v -> in_digits 15 v -> z = v)%R /\
    (with_exponent t <-> float64 v <> 0 /\
       (Rabs (float64 v) < float64 (bpow ten (-6)) \/ bpow ten 21 <= Rabs (float64 v)))%R.

Theorem C72_numbers_pass_through : forall data j j' p l v,
  parse data = Some j -> unmarshal_any data = Some j' ->
  at_path p j = Some (JNum l) -> denotes l v ->
  exists k t, parse (print j') = Some k /\ at_path p k = Some (JNum t) /\ carried_over l v t.
Proof.
  intros data j j' p l v P U A D. unfold unmarshal_any in U. rewrite P in U.
  pose proof (norm_at_path p j j' U) as N. rewrite A in N. cbn in N.
  pose proof (canon_num_correct l v D) as C. destruct (canon_num l) as [t|] eqn:E.
  - exists j', t. split; [apply parse_print; eapply norm_enc; [exact U|]; eapply parse_encodable; exact P|].
    split; [exact N|exact C].
  - exfalso. exact (norm_number_some p j j' l U A E).
Qed.
(** A decimal of up to fifteen significant digits is written as the very number it was. *)
Theorem C72_fifteen_digits_survive : forall data j j' p l v,
  parse data = Some j -> unmarshal_any data = Some j' ->
  at_path p j = Some (JNum l) -> denotes l v ->
  in_digits 15 v -> (smallest_normal <= Rabs v)%R ->
  exists k t, parse (print j') = Some k /\ at_path p k = Some (JNum t) /\ denotes t v.
Proof.
  intros data j j' p l v P U A D I N.
  destruct (C72_numbers_pass_through _ _ _ _ _ _ P U A D) as (k & t & PK & AK & _ & z & DZ & _ & _ & F & _).
  exists k, t. split; [exact PK|]. split; [exact AK|]. now rewrite <- (F N I).
Qed.
(** The document is refused exactly when one of its numbers, hidden ones included, is too large. *)
Theorem C72_refused_exactly : forall data j, parse data = Some j ->
  (unmarshal_any data = None <-> exists l v, mentions l j /\ denotes l v /\ out_of_range v).
Proof.
  intros data j P. unfold unmarshal_any. rewrite P. rewrite norm_none. apply parse_encodable in P. destruct P as [W _]. split.
  - intros (l & M & C). pose proof (mentions_wf l j M W) as V. destruct (denotes_exists l V) as [v D].
    exists l, v. split; [exact M|]. split; [exact D|]. pose proof (canon_num_correct l v D) as K. now rewrite C in K.
  - intros (l & v & M & D & O). exists l. split; [exact M|]. pose proof (canon_num_correct l v D) as K.
    destruct (canon_num l); [|reflexivity]. destruct K as [K _]. contradiction.
Qed.
(** So it is for what a plugin is handed of its configuration. *)
Theorem C72_reach_the_plugin : forall name ver orig prev rt new o k p l v,
  build_one_config name ver orig prev rt = Ok new ->
  parse (pg_bytes orig) = Some (JObj o) ->
  well_formed_text name -> well_formed_text ver -> prev_ok prev -> good_caps rt ->
  ~ In k ["name"; "cniVersion"; "prevResult"; "runtimeConfig"] ->
  at_path (Key k :: p) (JObj o) = Some (JNum l) -> denotes l v ->
  exists d t, parse (pg_bytes new) = Some d /\ at_path (Key k :: p) d = Some (JNum t) /\ carried_over l v t.
Proof.
  intros name ver orig prev rt new o k p l v H P Wn Wv PO GC I A D.
  destruct (C11_request_document _ _ _ _ _ _ _ H P Wn Wv PO GC) as (d & P' & _ & _ & _ & _ & R).
  specialize (R k I). cbn [at_path] in A.
  destruct (last_member k o) as [x|] eqn:LO; [|discriminate]. destruct (last_member k d) as [y|] eqn:LD; [|destruct R].
  cbn in R. unfold reencoded in R. pose proof (norm_at_path p x y R) as N. rewrite A in N. cbn in N.
  pose proof (canon_num_correct l v D) as C. destruct (canon_num l) as [t|] eqn:E.
  - exists (JObj d), t. split; [exact P'|]. split; [|exact C]. cbn [at_path]. rewrite LD. exact N.
  - exfalso. exact (norm_number_some p x y l R A E).
Qed.
(** A configuration with a number too large for a float64 anywhere in it is never sent. *)
Theorem C72_out_of_range_is_never_sent : forall name ver orig prev rt o l v,
  parse (pg_bytes orig) = Some (JObj o) -> mentions l (JObj o) -> denotes l v -> out_of_range v ->
  exists e, build_one_config name ver orig prev rt = Err e.
Proof.
  intros name ver orig prev rt o l v P M D O. unfold build_one_config, inject_conf, unmarshal_map. rewrite P. unfold decode_map.
  assert (N : norm (JObj o) = None).
  { apply norm_none. exists l. split; [exact M|]. pose proof (canon_num_correct l v D) as K.
    destruct (canon_num l); [|reflexivity]. destruct K as [K _]. contradiction. }
  rewrite N. eexists. reflexivity.
Qed.

(** A document whose numbers the theorems speak of. *)
Definition N_doc : string := "{""type"":""t"",""rate"":0.1,""a"":[{""x"":-1.50e2}],""big"":1000000000000000000000,""tiny"":0.00000012345678901234567890}".
Lemma N_tenth : denotes "0.1" (1 / 10)%R.
Proof.
  exists "", "0", ".1", "", (1 / 10)%R, 0%Z. split; [now left|]. split; [constructor|]. split; [|split; [now left|split; [reflexivity|]]].
  - right. exists "1". split; [constructor; vm_compute; split; discriminate|]. split; [reflexivity|].
    change (row 0 "1") with 1%Z. change (- Z.of_nat (String.length "1"))%Z with (- (1))%Z. rewrite bpow_opp.
    change (bpow ten 1) with 10%R. lra.
  - change (row 0 "0") with 0%Z. change (sign_value "") with 1%R. change (bpow ten 0) with 1%R. lra.
Qed.
Lemma N_caps : good_caps C_rt.
Proof. repeat constructor; cbn; try (apply valid_utf8_wf; reflexivity); try discriminate. apply number_lit_spec. reflexivity. Qed.
Lemma N_huge : denotes "1e400" (bpow ten 400) /\ out_of_range (bpow ten 400).
Proof.
  split.
  - exists "", "1", "", "e400", 0%R, 400%Z. split; [now left|]. split; [apply il_digit; [vm_compute; split; discriminate|discriminate]|].
    split; [now left|]. split; [|split; [reflexivity|]].
    + right. exists "e", "", "400". split; [now left|]. split; [repeat constructor; vm_compute; discriminate|]. split; [reflexivity|].
      left. split; [now left|reflexivity].
    + change (row 0 "1") with 1%Z. change (sign_value "") with 1%R. ring.
  - unfold out_of_range. eapply Rle_trans; [apply (float64_big (bpow ten 400)); apply Rle_refl|]. apply RRle_abs.
Qed.
Example C72_nonvacuous : exists j j' new,
  parse N_doc = Some j /\ unmarshal_any N_doc = Some j' /\
  print j' = "{""a"":[{""x"":-150}],""big"":1e+21,""rate"":0.1,""tiny"":1.2345678901234568e-7,""type"":""t""}" /\
  at_path [Key "rate"] j = Some (JNum "0.1") /\ denotes "0.1" (1 / 10)%R /\
  in_digits 15 (1 / 10)%R /\ (smallest_normal <= Rabs (1 / 10))%R /\
  build_one_config "net" "1.0.0" (C_conf N_doc) None C_rt = Ok new /\ good_caps C_rt /\
  parse (pg_bytes (C_conf N_doc)) = Some j /\
  (exists k, parse "{""type"":""t"",""n"":[1e400],""n"":1}" = Some k /\ mentions "1e400" k /\
     unmarshal_any "{""type"":""t"",""n"":[1e400],""n"":1}" = None).
Proof.
  eexists _, _, _. split; [vm_compute; reflexivity|]. split; [vm_compute; reflexivity|]. split; [vm_compute; reflexivity|].
  split; [vm_compute; reflexivity|]. split; [apply N_tenth|]. split.
  { exists 1%Z, (-1)%Z. split; [reflexivity|]. change (-1)%Z with (- (1))%Z. rewrite bpow_opp. change (bpow ten 1) with 10%R. lra. }
  split.
  { rewrite Rabs_pos_eq by lra. unfold smallest_normal. apply Rle_trans with (bpow radix2 (-4)); [apply bpow_le; lia|].
    change (-4)%Z with (- (4))%Z. rewrite bpow_opp. change (bpow radix2 4) with 16%R. lra. }
  split; [vm_compute; reflexivity|]. split; [exact N_caps|]. split; [vm_compute; reflexivity|].
  eexists. split; [vm_compute; reflexivity|]. split; [|vm_compute; reflexivity].
  eapply m_obj; [right; left; reflexivity|]. eapply m_arr; [left; reflexivity|]. constructor.
Qed.

Print Assumptions C72_numbers_pass_through.
Print Assumptions C72_fifteen_digits_survive.
Print Assumptions C72_refused_exactly.
Print Assumptions C72_reach_the_plugin.
Print Assumptions C72_out_of_range_is_never_sent.
