(** What names are acceptable, and how a byte string is read as Unicode text. *)
From Coq Require Import String Ascii List NArith.
Import ListNotations.
Open Scope string_scope.

Definition byte (c : ascii) : N := N_of_ascii c.
Definition alnum (c : ascii) : Prop :=
  (97 <= byte c <= 122 \/ 65 <= byte c <= 90 \/ 48 <= byte c <= 57)%N.
Definition name_char (c : ascii) : Prop :=
  alnum c \/ c = "_"%char \/ c = "."%char \/ c = "-"%char.
Inductive all_bytes (P : ascii -> Prop) : string -> Prop :=
| ab_nil : all_bytes P ""
| ab_cons : forall c s, P c -> all_bytes P s -> all_bytes P (String c s).

(** A valid container ID or network name. *)
Definition good_name (s : string) : Prop :=
  exists c rest, s = String c rest /\ alnum c /\ all_bytes name_char rest.

(** *** UTF-8 (Unicode standard, table 3-6) *)
Definition scalar (r : N) : Prop := (r < 55296 \/ 57344 <= r < 1114112)%N.
Definition b (n : N) : string := String (ascii_of_N n) "".
Definition utf8 (r : N) : string :=
  (if r <? 128 then b r
   else if r <? 2048 then b (192 + r / 64) ++ b (128 + r mod 64)
   else if r <? 65536 then b (224 + r / 4096) ++ b (128 + (r / 64) mod 64) ++ b (128 + r mod 64)
   else b (240 + r / 262144) ++ b (128 + (r / 4096) mod 64) ++ b (128 + (r / 64) mod 64)
          ++ b (128 + r mod 64))%N.

(** Reading a byte string as text: an encoded scalar value where there is one, and U+FFFD for
    each byte that does not start one. *)
Inductive reads : string -> list N -> Prop :=
| reads_nil : reads "" []
| reads_rune : forall r s rs, scalar r -> reads s rs -> reads (utf8 r ++ s) (r :: rs)
| reads_bad : forall c s rs,
    (forall r t, scalar r -> String c s <> utf8 r ++ t) ->
    reads s rs -> reads (String c s) (65533%N :: rs).

(** Text that is entirely well-formed UTF-8. *)
Inductive well_formed_text : string -> Prop :=
| wft_nil : well_formed_text ""
| wft_rune : forall r s, scalar r -> well_formed_text s -> well_formed_text (utf8 r ++ s).

(** Unicode White_Space. *)
Definition white_space : list N :=
  [9; 10; 11; 12; 13; 32; 133; 160; 5760; 8192; 8193; 8194; 8195; 8196; 8197; 8198; 8199; 8200;
   8201; 8202; 8232; 8233; 8239; 8287; 12288]%N.
Definition slash : N := 47%N.
Definition colon : N := 58%N.

Definition good_ifname (s : string) : Prop :=
  s <> "" /\ String.length s <= 15 /\ s <> "." /\ s <> ".." /\
  forall rs, reads s rs -> forall r, In r rs -> r <> slash /\ r <> colon /\ ~ In r white_space.
