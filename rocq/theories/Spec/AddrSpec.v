(** The text of addresses and prefixes in results (C68): RFC 4291 section 2.2 and CIDR notation. *)
From Coq Require Import String Ascii List NArith Bool.
From Verif Require Import Model.GoStr Model.NetIP Spec.VersionSpec.
Import ListNotations.
Open Scope string_scope.

(** Hexadecimal text of one to four digits and its value. *)
Definition hex_digit_is (c : ascii) (d : N) : Prop :=
  String.get (N.to_nat d) "0123456789abcdef" = Some c \/ String.get (N.to_nat d) "0123456789ABCDEF" = Some c.
Inductive hex_text : string -> N -> Prop :=
| hx_none : hex_text "" 0
| hx_snoc : forall s n c d, hex_text s n -> hex_digit_is c d -> hex_text (s ++ String c "") (16 * n + d).
Definition group (s : string) (x : N) : Prop := hex_text s x /\ 1 <= String.length s <= 4.

(** Four decimal octets without leading zeros. *)
Definition octet (s : string) (n : N) : Prop := decimal s n /\ (n < 256)%N /\ (s = "0" \/ forall t, s <> "0" ++ t).
Definition quad (s : string) (q : list N) : Prop :=
  exists sa sb sc sd a b c d, octet sa a /\ octet sb b /\ octet sc c /\ octet sd d /\
    s = sa ++ "." ++ sb ++ "." ++ sc ++ "." ++ sd /\ q = [a; b; c; d].

(** Groups of sixteen bits, in bytes; the last four bytes may be written as a quad. *)
Inductive groups_are : list string -> list N -> Prop :=
| ga_none : groups_are [] []
| ga_more : forall s x l b, group s x -> groups_are l b -> groups_are (s :: l) (x / 256 :: x mod 256 :: b)%N.
Definition pieces (l : list string) (b : list N) : Prop :=
  groups_are l b \/ exists l1 b1 s q, groups_are l1 b1 /\ quad s q /\ l = (l1 ++ [s])%list /\ b = (b1 ++ q)%list.
(** An IPv6 address: sixteen bytes, or fewer with one :: standing for the zeros left out (at
    least one group). *)
Definition ipv6_text (s : string) (a : list N) : Prop :=
  (exists l, pieces l a /\ List.length a = 16 /\ s = join ":" l) \/
  (exists l1 b1 l2 b2 k, groups_are l1 b1 /\ pieces l2 b2 /\ 2 <= k /\ List.length b1 + k + List.length b2 = 16 /\
     s = join ":" l1 ++ "::" ++ join ":" l2 /\ a = (b1 ++ repeat 0%N k ++ b2)%list).

(** An address in the 16-byte form the library holds, with its number of bits. *)
Definition address_text (s : string) (a : ip) (bits : N) : Prop :=
  (bits = 32%N /\ exists q, quad s q /\ a = ([0;0;0;0;0;0;0;0;0;0;255;255] ++ q)%N%list) \/
  (bits = 128%N /\ ipv6_text s a).
(** [n] leading one bits among [bits]. *)
Definition leading_ones (m : list N) (n bits : N) : Prop :=
  (8 * N.of_nat (List.length m) = bits)%N /\
  forall i b, nth_error m i = Some b -> (b < 256)%N /\
    forall j, (j < 8)%N -> N.testbit b (7 - j) = (8 * N.of_nat i + j <? n)%N.
(** address/length. *)
Definition prefix_text (s : string) (p : ipnet) : Prop :=
  exists sa sn n bits, s = sa ++ "/" ++ sn /\ address_text sa (n_ip p) bits /\ decimal sn n /\ (n <= bits)%N /\
    leading_ones (n_mask p) n bits.

(** A mask written byte by byte, two lower-case hexadecimal digits each, in order. *)
Definition low_digit (c : ascii) (d : N) : Prop := String.get (N.to_nat d) "0123456789abcdef" = Some c.
Inductive mask_hex : string -> list N -> Prop :=
| mh_none : mask_hex "" []
| mh_byte : forall c hi d lo s m, low_digit c hi -> low_digit d lo -> mask_hex s m -> mask_hex (String c (String d s)) ((16 * hi + lo)%N :: m).
