(** C89: which texts are JSON documents and what they say, by the grammar. *)
From Coq Require Import String Ascii List ZArith NArith Lia.
From Verif Require Import Model.GoStr Model.Errors Model.Json Model.Num Model.GoJson Model.Conf
  Spec.NameSpec Spec.JsonSpec Spec.GrammarSpec
  Proofs.StrP Proofs.Utf8P Proofs.JsonP Proofs.JsonRT Proofs.GrammarP.
Import ListNotations.
Open Scope nat_scope.
Open Scope string_scope.

(** A text is read, as [j], exactly if the grammar says that it is a document that says [j]. *)
Theorem C89_grammar : forall s j, parse s = Some j <-> json_text s j.
Proof. exact parse_grammar. Qed.
(** The grammar is not ambiguous: a text says one thing. *)
Theorem C89_unambiguous : forall s j k, json_text s j -> json_text s k -> j = k.
Proof. intros s j k A B. apply C89_grammar in A, B. congruence. Qed.
(** Any other text is refused. *)
Theorem C89_refused : forall s, parse s = None <-> ~ exists j, json_text s j.
Proof.
  intros s. split.
  - intros E (j & T). apply C89_grammar in T. congruence.
  - intros N. destruct (parse s) as [j|] eqn:E; [|reflexivity]. destruct N. exists j. now apply C89_grammar.
Qed.
(** What is written is in the grammar and says what was written. *)
Theorem C89_written : forall j, encodable j -> json_text (print j) j /\ json_text (print_indent j) j.
Proof. intros j E. split; apply C89_grammar; [now apply parse_print|now apply parse_print_indent]. Qed.
(** What a document says are texts of characters, numbers of the grammar and at most ten thousand levels. *)
Theorem C89_says : forall s j, json_text s j -> encodable j.
Proof. intros s j T. apply C89_grammar in T. eapply parse_encodable; eassumption. Qed.
(** A string literal says [t] exactly if its characters spell [t]. *)
Theorem C89_strings : forall s t, json_text (quoted s) (JStr t) <-> spells s t.
Proof.
  intros s t. split.
  - intros (w1 & v & w2 & E & W1 & V & W2 & _). inversion V as [| | |l N E1 E2|raw t' C E1 E2|w W E1 E2|x l M E1 E2|w W E1 E2|x l M E1 E2]; subst.
    assert (w1 = "") as ->.
    { destruct w1 as [|c w1]; [reflexivity|]. unfold quoted in E. cbn [append] in E. injection E as <- _. destruct (W1 """"%char) as [X|[X|[X|[X|[]]]]]; [now left|discriminate..]. }
    unfold quoted in E. cbn [append] in E. injection E as E. rewrite <- append_assoc in E. cbn [append] in E.
    apply blank_end in E; [now subst|exact W2].
  - intros C. exists "", (quoted s), "". rewrite append_nil_r. split; [reflexivity|]. split; [intros c []|]. split; [now constructor|]. split; [intros c []|discriminate].
Qed.
(** How a network configuration is spelled does not matter: white space and escapes may differ. *)
Theorem C89_spelling : forall b b' j l, json_text b j -> json_text b' j -> network_conf_from_bytes b = Ok l ->
  exists l', network_conf_from_bytes b' = Ok l' /\ nl_name l' = nl_name l /\ nl_version l' = nl_version l /\
    nl_disable_check l' = nl_disable_check l /\ nl_disable_gc l' = nl_disable_gc l /\ nl_only_inlined l' = nl_only_inlined l /\
    nl_plugins l' = nl_plugins l /\ nl_bytes l' = b'.
Proof.
  intros b b' j l T T' H. apply C89_grammar in T, T'. assert (U : unmarshal_map b' = unmarshal_map b) by (unfold unmarshal_map; now rewrite T, T').
  unfold network_conf_from_bytes in *. rewrite U. clear U T T'.
  destruct (unmarshal_map b) as [om|]; [|discriminate].
  set (raw := match om with Some m => m | None => [] end) in *. clearbody raw.
  destruct (match sget "name" raw with None => _ | Some _ => _ end) as [n| |]; cbn [rbind] in *; try discriminate.
  destruct (select_version raw) as [v| |]; cbn [rbind] in *; try discriminate.
  destruct (read_bool raw "disableCheck") as [dc| |]; cbn [rbind] in *; try discriminate.
  destruct (read_bool raw "disableGC") as [dg| |]; cbn [rbind] in *; try discriminate.
  destruct (read_bool raw "loadOnlyInlinedPlugins") as [oi| |]; cbn [rbind] in *; try discriminate.
  destruct (sget "plugins" raw) as [[| | | |[|x xs]|]|]; try discriminate.
  - destruct (plugins_from (x :: xs)) as [ps| |]; cbn [rbind] in *; try discriminate. injection H as <-. eexists. split; [reflexivity|]. repeat split; reflexivity.
  - destruct oi; [discriminate|]. injection H as <-. eexists. split; [reflexivity|]. repeat split; reflexivity.
Qed.

(** *** Cases *)
Ltac spell := repeat first [apply ch_none |
  match goal with |- spells (String ?c ?s) (String ?c ?t) => apply (ch_one (Ascii.N_of_ascii c) s t); [left; reflexivity|discriminate|discriminate|discriminate|] end].
(** The same member name and value in another spelling: escapes, a surrogate pair, white space. *)
Definition doc_plain : string := "{""name"":[1,""" ++ utf8 128512 ++ """]}".
Definition doc_odd : string := " {""\u006eam\u0065"" :[ 1 ,""\uD83d\uDe00"" ] } ".
Example C89_nonvacuous : exists j, json_text doc_plain j /\ json_text doc_odd j /\ doc_plain <> doc_odd.
Proof.
  exists (JObj [("name", JArr [JNum "1"; JStr (utf8 128512)])]). split; [apply C89_grammar; vm_compute; reflexivity|]. split; [apply C89_grammar; vm_compute; reflexivity|discriminate].
Qed.
(** By the grammar alone: an escape, a pair, a half without its partner and a byte that is no character. *)
Example C89_spelled : spells ("\u006e" ++ "\uD83d\uDe00" ++ "\ud83d" ++ "\n" ++ String (ascii_of_N 255) "")
  ("n" ++ utf8 128512 ++ utf8 65533 ++ String (ascii_of_N 10) "" ++ utf8 65533).
Proof. apply C89_strings, C89_grammar. vm_compute. reflexivity. Qed.
(** No documents: an open array, a comma too many, a number with a leading zero, a line break in a string. *)
Example C89_no_documents : Forall (fun s => ~ exists j, json_text s j) ["[1"; "[1,]"; "01"; "1 2"; "'a'"; "nul"; ""; quoted (String (ascii_of_N 10) "")].
Proof. repeat constructor; apply C89_refused; reflexivity. Qed.
Print Assumptions C89_grammar.
Print Assumptions C89_spelling.
