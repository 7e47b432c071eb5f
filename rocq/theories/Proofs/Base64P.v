(** Base64 round trip. *)
From Coq Require Import String Ascii List Arith NArith Bool Lia.
From Verif Require Import Model.GoStr Model.Base64 Proofs.StrP.
Import ListNotations.
Open Scope nat_scope.
Open Scope string_scope.

Lemma small_cases (P : N -> bool) (k : nat) : forallb (fun i => P (N.of_nat i)) (seq 0 k) = true -> forall n, (n < N.of_nat k)%N -> P n = true.
Proof.
  intros H n Hn. rewrite forallb_forall in H. specialize (H (N.to_nat n)).
  rewrite N2Nat.id in H. apply H. apply in_seq. lia.
Qed.
Lemma b64_val_char n : (n < 64)%N -> b64_val (b64_char n) = Some n.
Proof.
  intros H.
  assert (E : (match b64_val (b64_char n) with Some m => (m =? n)%N | None => false end) = true).
  { revert n H. apply (small_cases (fun n => match b64_val (b64_char n) with Some m => (m =? n)%N | None => false end) 64). vm_compute. reflexivity. }
  destruct (b64_val (b64_char n)) as [m|]; [|discriminate]. apply N.eqb_eq in E. congruence.
Qed.
Definition nl_free (c : ascii) : bool := negb (Ascii.eqb c (chr 10) || Ascii.eqb c (chr 13)).
Lemma b64_char_nl n : nl_free (b64_char n) = true.
Proof.
  unfold b64_char. destruct (n <? 26)%N eqn:A; [|destruct (n <? 52)%N eqn:B; [|destruct (n <? 62)%N eqn:C; [|destruct (n =? 62)%N; reflexivity]]].
  - apply N.ltb_lt in A. revert n A. apply (small_cases (fun n => nl_free (chr (65 + n))) 26). vm_compute. reflexivity.
  - apply N.ltb_lt in B. revert n B A.
    assert (H : forall n, (n < 52)%N -> nl_free (chr (97 + (n - 26))) = true) by (apply (small_cases (fun n => nl_free (chr (97 + (n - 26)))) 52); vm_compute; reflexivity).
    intros n B _. auto.
  - apply N.ltb_lt in C. clear A B.
    assert (H : forall n, (n < 62)%N -> nl_free (chr (48 + (n - 52))) = true) by (apply (small_cases (fun n => nl_free (chr (48 + (n - 52)))) 62); vm_compute; reflexivity).
    auto.
Qed.
Lemma drop_nl_cons c s : nl_free c = true -> drop_newlines (String c s) = String c (drop_newlines s).
Proof. unfold nl_free. intros H. simpl. destruct (_ || _); [discriminate|reflexivity]. Qed.
Lemma str_ind3 (P : string -> Prop) :
  P "" -> (forall a, P (String a "")) -> (forall a b, P (String a (String b ""))) ->
  (forall a b c r, P r -> P (String a (String b (String c r)))) -> forall s, P s.
Proof.
  intros H0 H1 H2 H3 s. assert (G : forall n s, String.length s <= n -> P s).
  { clear s. induction n as [|n IH]; intros s Hs.
    - destruct s; [exact H0|simpl in Hs; lia].
    - destruct s as [|a [|b [|c r]]]; auto. apply H3. apply IH. simpl in Hs. lia. }
  apply (G (String.length s)). lia.
Qed.
Lemma b64_drop s : drop_newlines (b64_encode s) = b64_encode s.
Proof.
  induction s as [| | |a b c r IH] using str_ind3; [reflexivity| | |];
    cbn [b64_encode]; repeat (rewrite drop_nl_cons by (apply b64_char_nl || reflexivity)); try reflexivity.
  rewrite IH. reflexivity.
Qed.
Lemma cc_lt (c : ascii) : (code c < 256)%N. Proof. apply code_lt_256. Qed.
Lemma b64_round_trip s : b64_decode (b64_encode s) = Some s.
Proof.
  unfold b64_decode. rewrite b64_drop.
  induction s as [|a|a b|a b c r IH] using str_ind3; [reflexivity| | |].
  all: repeat match goal with c : ascii |- _ => lazymatch goal with H : (code c < 256)%N |- _ => fail | _ => pose proof (cc_lt c) end end.
  - cbn [b64_encode b64_quads].
    rewrite !b64_val_char.
    + change (b64_val "="%char) with (@None N). cbn [Ascii.eqb String.eqb andb].
      replace (_ + _)%N with (code a); [rewrite chr_code; reflexivity|].
      rewrite N.div_mul by lia. rewrite (N.div_mod (code a) 4) at 1 by lia. lia.
    + pose proof (N.mod_lt (code a) 4). lia.
    + apply N.div_lt_upper_bound; lia.
  - pose proof (N.mod_lt (code a) 4 ltac:(lia)). pose proof (N.mod_lt (code b) 16 ltac:(lia)).
    assert (code b / 16 < 16)%N by (apply N.div_lt_upper_bound; lia).
    assert (code a / 4 < 64)%N by (apply N.div_lt_upper_bound; lia).
    cbn [b64_encode b64_quads].
    rewrite !b64_val_char by lia.
    change (b64_val "="%char) with (@None N). change (Ascii.eqb "="%char "="%char && String.eqb "" "") with true. cbv iota.
    replace (code a / 4 * 4 + (code a mod 4 * 16 + code b / 16) / 16)%N with (code a).
    2:{ rewrite N.div_add_l by lia. rewrite (N.div_small (code b / 16) 16) by lia.
        rewrite (N.div_mod (code a) 4) at 1 by lia. lia. }
    replace ((code a mod 4 * 16 + code b / 16) mod 16 * 16 + code b mod 16 * 4 / 4)%N with (code b).
    2:{ rewrite N.div_mul by lia. rewrite (N.add_comm (code a mod 4 * 16)), N.mod_add by lia. rewrite (N.mod_small (code b / 16)) by lia.
        rewrite (N.div_mod (code b) 16) at 1 by lia. lia. }
    rewrite !chr_code. reflexivity.
  - pose proof (N.mod_lt (code a) 4 ltac:(lia)). pose proof (N.mod_lt (code b) 16 ltac:(lia)).
    pose proof (N.mod_lt (code c) 64 ltac:(lia)).
    assert (code b / 16 < 16)%N by (apply N.div_lt_upper_bound; lia).
    assert (code a / 4 < 64)%N by (apply N.div_lt_upper_bound; lia).
    assert (code c / 64 < 4)%N by (apply N.div_lt_upper_bound; lia).
    cbn [b64_encode b64_quads].
    rewrite !b64_val_char by lia. rewrite IH.
    replace (code a / 4 * 4 + (code a mod 4 * 16 + code b / 16) / 16)%N with (code a).
    2:{ rewrite N.div_add_l by lia. rewrite (N.div_small (code b / 16) 16) by lia.
        rewrite (N.div_mod (code a) 4) at 1 by lia. lia. }
    replace ((code a mod 4 * 16 + code b / 16) mod 16 * 16 + (code b mod 16 * 4 + code c / 64) / 4)%N with (code b).
    2:{ rewrite N.div_add_l by lia. rewrite (N.div_small (code c / 64) 4) by lia.
        rewrite (N.add_comm (code a mod 4 * 16)), N.mod_add by lia. rewrite (N.mod_small (code b / 16)) by lia.
        rewrite (N.div_mod (code b) 16) at 1 by lia. lia. }
    replace ((code b mod 16 * 4 + code c / 64) mod 4 * 64 + code c mod 64)%N with (code c).
    2:{ rewrite (N.add_comm (code b mod 16 * 4)), N.mod_add by lia. rewrite (N.mod_small (code c / 64)) by lia.
        rewrite (N.div_mod (code c) 64) at 1 by lia. lia. }
    rewrite !chr_code. reflexivity.
Qed.
(** Encoded text is plain ASCII. *)
Lemma b64_char_ascii n : (n < 64)%N -> (code (b64_char n) < 128)%N.
Proof.
  intros H. apply N.ltb_lt. revert n H. apply (small_cases (fun n => (code (b64_char n) <? 128)%N) 64). vm_compute. reflexivity.
Qed.
Lemma b64_ascii s : sforall (fun c => (code c <? 128)%N) (b64_encode s) = true.
Proof.
  induction s as [|a|a b|a b c r IH] using str_ind3; [reflexivity| | |].
  all: repeat match goal with c : ascii |- _ => lazymatch goal with H : (code c < 256)%N |- _ => fail | _ => pose proof (cc_lt c) end end.
  all: cbn [b64_encode sforall].
  all: repeat match goal with |- _ && _ = true => apply andb_true_iff; split end; try reflexivity; try exact IH.
  all: apply N.ltb_lt, b64_char_ascii.
  all: repeat match goal with |- context [(code ?a / ?k)%N] => lazymatch goal with H : (code a / k < _)%N |- _ => fail | _ =>
         let v := eval vm_compute in (256 / k)%N in assert (code a / k < v)%N by (apply N.div_lt_upper_bound; lia) end end.
  all: repeat match goal with |- context [(code ?a mod ?k)%N] => lazymatch goal with H : (code a mod k < _)%N |- _ => fail | _ => pose proof (N.mod_lt (code a) k ltac:(lia)) end end.
  all: lia.
Qed.
