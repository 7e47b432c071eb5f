(** C08-C10: JSON documents. *)
From Coq Require Import String Ascii List ZArith NArith.
From Verif Require Import Model.GoStr Model.Json Model.Num Model.GoJson
  Spec.NameSpec Spec.JsonSpec
  Proofs.StrP Proofs.JsonP Proofs.JsonRT Proofs.NumP Proofs.GoJsonP.
Import ListNotations.
Open Scope nat_scope.
Open Scope string_scope.

(** C08: encoding (compact as json.Marshal, indented as MarshalIndent) then decoding is the
    identity; [encodable] is valid UTF-8 strings, RFC 8259 number literals, depth up to 10000. *)
Theorem C08_compact_round_trip : forall j, encodable j -> parse (print j) = Some j.
Proof. exact parse_print. Qed.
Theorem C08_indented_round_trip : forall j, encodable j -> parse (print_indent j) = Some j.
Proof. exact parse_print_indent. Qed.
(** A trailing newline (json.Encoder) or other white space does not matter. *)
Theorem C08_newline_round_trip : forall j, encodable j ->
  parse (print j ++ String (Ascii.ascii_of_N 10) "") = Some j.
Proof. intros j H. apply parse_print_nl; [exact H|reflexivity]. Qed.
(** Every document the decoder accepts is a value that survives re-encoding. *)
Theorem C08_accepted_documents_survive : forall s j, parse s = Some j ->
  encodable j /\ parse (print j) = Some j /\ parse (print_indent j) = Some j.
Proof.
  intros s j H. pose proof (parse_encodable _ _ H) as E.
  split; [exact E|]. split; [now apply parse_print|now apply parse_print_indent].
Qed.
(** Text that is not UTF-8 is not refused: what is read back has U+FFFD for every byte that is no
    part of a character, and is otherwise the same. *)
Theorem C08_any_text : forall j k, mended j k -> (jdepth j <= 10000)%N ->
  parse (print j) = Some k /\ parse (print_indent j) = Some k.
Proof.
  intros j k M D. unfold print, print_indent. split; rewrite <- (append_nil_r (pr _ _ _ _)); apply parse_pr_mended; auto using indent_nl_ws.
Qed.
Theorem C08_any_string : forall s, exists t, mended_text s t /\ (forall u, mended_text s u -> u = t) /\ well_formed_text t /\
  (well_formed_text s -> t = s) /\ parse (print (JStr s)) = Some (JStr t).
Proof.
  intros s. destruct (mended_text_total s) as (t & M). exists t.
  assert (P : parse (print (JStr s)) = Some (JStr t)) by (apply C08_any_text; [now constructor|cbn; discriminate]).
  split; [exact M|]. split; [intros u U; now apply (mended_text_fun s)|]. split; [apply (parse_encodable _ _ P)|].
  split; [|exact P]. intros W. apply (mended_text_fun s); [exact M|now apply mended_text_wf].
Qed.
Theorem C08_encoding_is_injective : forall j k, encodable j -> encodable k -> print j = print k -> j = k.
Proof.
  intros j k J K E. apply parse_print in J. apply parse_print in K. rewrite E in J. congruence.
Qed.
Definition C08_value : json :=
  JObj [("k""\", JArr [JNum "-1.50e+3"; JStr ("<" ++ String (Ascii.ascii_of_N 9) "&"); JNull; JObj []]); ("b", JBool true)].
Example C08_nonvacuous : encodable C08_value /\ parse (print C08_value) = Some C08_value.
Proof.
  assert (P : parse (print C08_value) = Some C08_value) by (vm_compute; reflexivity).
  split; [eapply parse_encodable; exact P|exact P].
Qed.
Definition odd_byte : string := String (Ascii.ascii_of_N 255) "".
Example C08_any_text_nonvacuous : exists k, mended (JObj [("a" ++ odd_byte, JArr [JStr odd_byte; JNum "1"])]) k /\
  parse (print (JObj [("a" ++ odd_byte, JArr [JStr odd_byte; JNum "1"])])) = Some k /\
  k = JObj [("a" ++ utf8 65533, JArr [JStr (utf8 65533); JNum "1"])].
Proof.
  destruct (mended_text_total ("a" ++ odd_byte)) as (a & A). destruct (mended_text_total odd_byte) as (b & B).
  assert (M : mended (JObj [("a" ++ odd_byte, JArr [JStr odd_byte; JNum "1"])]) (JObj [(a, JArr [JStr b; JNum "1"])])).
  { constructor. constructor; [|constructor]. split; [exact A|]. constructor. constructor; [now constructor|]. constructor; [|constructor].
    constructor. apply number_lit_spec. reflexivity. }
  eexists. split; [exact M|]. pose proof (proj1 (C08_any_text _ _ M ltac:(cbn; discriminate))) as P. split; [exact P|].
  assert (Q : parse (print (JObj [("a" ++ odd_byte, JArr [JStr odd_byte; JNum "1"])])) = Some (JObj [("a" ++ utf8 65533, JArr [JStr (utf8 65533); JNum "1"])])) by (vm_compute; reflexivity).
  rewrite P in Q. now injection Q as -> ->.
Qed.

(** C09: cut anywhere, the encoding of an object does not decode. *)
Theorem C09_torn_compact_rejected : forall l p t, encodable (JObj l) ->
  print (JObj l) = p ++ t -> t <> "" -> parse p = None.
Proof. exact print_prefix_rejected. Qed.
Theorem C09_torn_indented_rejected : forall l p t, encodable (JObj l) ->
  print_indent (JObj l) = p ++ t -> t <> "" -> parse p = None.
Proof. exact print_indent_prefix_rejected. Qed.
(** Not even when the text in it is not UTF-8. *)
Theorem C09_torn_any_text_rejected : forall l m p t, mended (JObj l) m -> (jdepth (JObj l) <= 10000)%N ->
  print (JObj l) = p ++ t \/ print_indent (JObj l) = p ++ t -> t <> "" -> parse p = None.
Proof.
  intros l m p t M D [E|E] T; [eapply (pr_prefix_rejected (fun _ => "") "")|eapply (pr_prefix_rejected indent_nl " ")]; eauto using indent_nl_ws.
Qed.
(** Nor does a complete document with anything but white space after it (numbers aside). *)
Theorem C09_trailing_data_rejected : forall s q j, parse s = Some j -> is_num j = false ->
  parse (s ++ q) = (if all_ws q then Some j else None).
Proof. exact parse_extend. Qed.
Example C09_nonvacuous : exists l p t, encodable (JObj l) /\ print (JObj l) = p ++ t /\ t <> "" /\
  p = "{""a"":[1,{}]" /\ parse p = None.
Proof.
  exists [("a", JArr [JNum "1"; JObj []])], "{""a"":[1,{}]", "}".
  split; [|repeat split; discriminate].
  apply parse_encodable with (s := "{""a"":[1,{}]}"). vm_compute. reflexivity.
Qed.

(** C10: decoding into an interface{} (which InjectConf, the cache and capability arguments do) and
    encoding again.  [at_path] reads a document by keys and indices.  Whatever is at a path
    comes out as what a lone trip gives, and integers up to 2^53 come out as they were. *)
Theorem C10_integers_survive_anywhere : forall data j j' p z,
  parse data = Some j -> unmarshal_any data = Some j' ->
  (Z.abs z <= 2 ^ 53)%Z ->
  at_path p j = Some (JNum (itoa z)) ->
  exists k, parse (print j') = Some k /\ at_path p k = Some (JNum (itoa z)).
Proof.
  intros data j j' p z P U B A. unfold unmarshal_any in U. rewrite P in U.
  exists j'. split.
  - apply parse_print. eapply norm_enc; [exact U|]. eapply parse_encodable; exact P.
  - rewrite (norm_at_path p j j' U), A. cbn. now rewrite canon_num_itoa.
Qed.
(** Strings, booleans and nulls always come out as they were. *)
Theorem C10_other_scalars_survive : forall data j j' p x,
  parse data = Some j -> unmarshal_any data = Some j' ->
  at_path p j = Some x -> (x = JNull \/ (exists b, x = JBool b) \/ exists s, x = JStr s) ->
  exists k, parse (print j') = Some k /\ at_path p k = Some x.
Proof.
  intros data j j' p x P U A X. unfold unmarshal_any in U. rewrite P in U.
  exists j'. split.
  - apply parse_print. eapply norm_enc; [exact U|]. eapply parse_encodable; exact P.
  - rewrite (norm_at_path p j j' U), A. destruct X as [->|[[b ->]|[s ->]]]; reflexivity.
Qed.
(** Nothing appears at a path where there was nothing. *)
Theorem C10_nothing_is_added : forall data j j' p,
  parse data = Some j -> unmarshal_any data = Some j' -> at_path p j = None -> at_path p j' = None.
Proof.
  intros data j j' p P U A. unfold unmarshal_any in U. rewrite P in U.
  now rewrite (norm_at_path p j j' U), A.
Qed.
(** A second trip changes nothing more, whatever the numbers. *)
Theorem C10_second_trip_is_identity : forall data j', unmarshal_any data = Some j' ->
  unmarshal_any (print j') = Some j'.
Proof.
  intros data j' U. unfold unmarshal_any in U. destruct (parse data) as [j|] eqn:P; [|discriminate].
  unfold unmarshal_any. rewrite parse_print.
  - apply canonical_norm. eapply norm_canonical; exact U.
  - eapply norm_enc; [exact U|]. eapply parse_encodable; exact P.
Qed.
(** The bound is sharp: 2^53 + 1 is silently changed. *)
Theorem C10_beyond_2_53_refuted :
  unmarshal_any "{""n"":9007199254740993}" = Some (JObj [("n", JNum "9007199254740992")]).
Proof. vm_compute. reflexivity. Qed.
Example C10_nonvacuous :
  parse "{""a"":[0,{""n"":-9007199254740992}]}" = Some (JObj [("a", JArr [JNum "0"; JObj [("n", JNum "-9007199254740992")]])]) /\
  itoa (-9007199254740992) = "-9007199254740992" /\ (Z.abs (-9007199254740992) <= 2 ^ 53)%Z /\
  unmarshal_any "{""a"":[0,{""n"":-9007199254740992}]}" = Some (JObj [("a", JArr [JNum "0"; JObj [("n", JNum "-9007199254740992")]])]).
Proof. vm_compute. repeat split; discriminate. Qed.

Print Assumptions C08_compact_round_trip.
Print Assumptions C08_indented_round_trip.
Print Assumptions C09_torn_compact_rejected.
Print Assumptions C09_torn_indented_rejected.
Print Assumptions C10_integers_survive_anywhere.
Print Assumptions C10_beyond_2_53_refuted.
