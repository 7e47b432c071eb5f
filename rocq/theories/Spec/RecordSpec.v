(** What a cache file says (C80): the members of a cache record and their values, independent of
    the library's encoder and decoder. *)
From Coq Require Import String Ascii List NArith ZArith Bool Arith.
From Verif Require Import Model.GoStr Model.Json Model.GoJson Model.Types Model.Api Spec.VersionSpec Spec.ConfSpec Spec.DocSpec.
Import ListNotations.
Open Scope string_scope.

(** RFC 4648 base64: four characters of 6 bits for three bytes of 8; the last group may end in "="
    or "==" for two bytes or one, the bits left over do not matter. *)
Definition alphabet : string := "ABCDEFGHIJKLMNOPQRSTUVWXYZabcdefghijklmnopqrstuvwxyz0123456789+/".
Definition six (c : ascii) (n : N) : Prop := String.get (N.to_nat n) alphabet = Some c.
Inductive base64 : string -> string -> Prop :=
| b64_none : base64 "" ""
| b64_three : forall a b c d i j k l x y z t s, six a i -> six b j -> six c k -> six d l ->
    (((i * 64 + j) * 64 + k) * 64 + l = (N_of_ascii x * 256 + N_of_ascii y) * 256 + N_of_ascii z)%N ->
    base64 t s -> base64 (String a (String b (String c (String d t)))) (String x (String y (String z s)))
| b64_two : forall a b c i j k x y u, six a i -> six b j -> six c k ->
    ((i * 64 + j) * 64 + k = (N_of_ascii x * 256 + N_of_ascii y) * 4 + u)%N -> (u < 4)%N ->
    base64 (String a (String b (String c "="))) (String x (String y ""))
| b64_one : forall a b i j x u, six a i -> six b j -> (i * 64 + j = N_of_ascii x * 16 + u)%N -> (u < 16)%N ->
    base64 (String a (String b "==")) (String x "").
(** Line breaks in base64 text do not count. *)
Definition breaks (c : ascii) : bool := ((N_of_ascii c =? 10) || (N_of_ascii c =? 13))%N.
Definition one_line (s : string) : string := string_of_list_ascii (filter (fun c => negb (breaks c)) (list_ascii_of_string s)).

(** Bytes: base64 text, or an array of numbers from 0 to 255. *)
Definition byte (j : json) (c : ascii) : Prop :=
  match j with JNull => c = ascii_of_N 0 | JNum l => decimal l (N_of_ascii c) | _ => False end.
Definition bytes (v : option json) (s : string) : Prop :=
  match v with
  | None | Some JNull => s = ""
  | Some (JStr t) => base64 (one_line t) s
  | Some (JArr js) => Forall2 byte js (list_ascii_of_string s)
  | _ => False
  end.
(** A pair of texts: an array; what is missing is empty, what is too many is ignored. *)
Definition pair (j : json) (p : string * string) : Prop :=
  match j with
  | JNull => p = ("", "")
  | JArr js => text (nth_error js 0) (fst p) /\ text (nth_error js 1) (snd p)
  | _ => False
  end.
Definition pairs (j : json) (l : list (string * string)) : Prop := exists js, j = JArr js /\ Forall2 pair js l.
(** An object of any values. *)
Definition values (j : json) (m : smap json) : Prop := (exists o, j = JObj o) /\ reencoded j (JObj m).

Definition record_doc (j : json) (c : cached_info) : Prop := exists o, object j o /\
  field "kind" o text (ci_kind c) /\ field "containerId" o text (ci_container c) /\ field "config" o bytes (ci_config c) /\
  field "ifName" o text (ci_ifname c) /\ field "networkName" o text (ci_network c) /\ field "netns" o text (ci_netns c) /\
  field "cniArgs" o (maybe pairs) (ci_args c) /\ field "capabilityArgs" o (maybe values) (ci_caps c) /\ field "result" o (maybe values) (ci_result c).
(** No member twice, for encoding/json. *)
Definition once (j : json) : Prop := forall o, object j o -> NoDup (map (fun kv => fold_key (fst kv)) o).

(** The attachment a record describes: it is a record of this format that names an interface and a
    network. *)
Definition record_kind : string := "cniCacheV1".
Definition attachment_doc (j : json) (a : attachment) : Prop := exists c, record_doc j c /\
  ci_kind c = record_kind /\ ci_ifname c <> "" /\ ci_network c <> "" /\
  a = {| at_container := ci_container c; at_network := ci_network c; at_ifname := ci_ifname c; at_config := ci_config c; at_netns := ci_netns c;
         at_args := match ci_args c with Some l => l | None => [] end; at_caps := match ci_caps c with Some m => m | None => [] end |}.
(** The document of its result; null if there is none. *)
Definition result_of (c : cached_info) : json := match ci_result c with Some m => JObj m | None => JNull end.
(** The configuration and runtime arguments a record gives for a query with the arguments [asked]. *)
Definition config_of (c : cached_info) (asked : runtime_conf) : string * runtime_conf :=
  (ci_config c, {| rt_container := rt_container asked; rt_netns := rt_netns asked; rt_ifname := rt_ifname asked;
                   rt_args := match ci_args c with Some l => l | None => rt_args asked end;
                   rt_caps := match ci_caps c with Some m => m | None => [] end; rt_cache_dir := rt_cache_dir asked |}).
(** The members of a record, as they are spelled. *)
Definition record_members : list string :=
  ["kind"; "containerId"; "config"; "ifName"; "networkName"; "netns"; "cniArgs"; "capabilityArgs"; "result"].
