(** net.IP, net.IPMask, net.IPNet and their text forms (Go 1.21 net and net/netip).

    Used by the result types: types.IPNet (pkg/types/types.go:26-57), types.Route
    (types.go:180-316), IPConfig in pkg/types/020, 040 and 100. *)
From Coq Require Import String Ascii List Arith NArith Bool.
From Verif Require Import Model.GoStr.
Import ListNotations.
Open Scope string_scope.

(** net.IP and net.IPMask: byte slices; nil is []. *)
Definition ip := list N.

(** net.IPNet. *)
Record ipnet := { n_ip : ip; n_mask : list N }.
Definition ipnet_zero : ipnet := {| n_ip := []; n_mask := [] |}.

(** IP.To4: the 4-byte form, [] (nil) if not an IPv4 address. *)
Definition to4 (a : ip) : ip :=
  if (List.length a =? 4)%nat then a
  else if ((List.length a =? 16)%nat &&
           forallb (N.eqb 0) (firstn 10 a) &&
           forallb (N.eqb 255) (firstn 2 (skipn 10 a)))%bool
  then skipn 12 a else [].
Definition is4 (a : ip) : bool := negb (match to4 a with [] => true | _ => false end).

(** v4InV6Prefix: the 16-byte form of an IPv4 address. *)
Definition v4in6 (q : list N) : ip := (repeat 0%N 10 ++ [255; 255]%N ++ q)%list.

(** *** Printing *)

Definition hex_char (n : N) : ascii := if (n <? 10)%N then chr (48 + n) else chr (87 + n).

(** netip.Addr.string4. *)
Definition ip4_string (q : list N) : string := join "." (map itoaN q).

(** appendHex of a 16-bit group: no leading zeros. *)
Definition hex16 (x : N) : string :=
  let d3 := String (hex_char (x mod 16)) "" in
  let d2 := if (16 <=? x)%N then String (hex_char (x / 16 mod 16)) d3 else d3 in
  let d1 := if (256 <=? x)%N then String (hex_char (x / 256 mod 16)) d2 else d2 in
  if (4096 <=? x)%N then String (hex_char (x / 4096 mod 16)) d1 else d1.

(** The eight 16-bit groups of a 16-byte address. *)
Fixpoint groups (a : list N) : list N :=
  match a with
  | h :: l :: a' => (h * 256 + l)%N :: groups a'
  | _ => []
  end.

(** Number of leading zero groups. *)
Fixpoint zero_run (g : list N) : nat :=
  match g with
  | x :: g' => if (x =? 0)%N then S (zero_run g') else O
  | [] => O
  end.

(** First longest run of at least two zero groups: (start, length), length 0 if none
    (netip.Addr.appendTo6). *)
Fixpoint best_run (i : nat) (g : list N) (best : nat * nat) : nat * nat :=
  match g with
  | [] => best
  | _ :: g' =>
      let l := zero_run g in
      best_run (S i) g'
        (if (2 <=? l)%nat && (snd best <? l)%nat then (i, l) else best)
  end.

Definition ip6_string (a : ip) : string :=
  let g := groups a in
  let '(st, l) := best_run 0 g (0, 0)%nat in
  if (l =? 0)%nat then join ":" (map hex16 g)
  else join ":" (map hex16 (firstn st g)) ++ "::" ++ join ":" (map hex16 (skipn (st + l) g)).

Fixpoint hex_string (a : list N) : string :=
  match a with
  | [] => ""
  | b :: a' => String (hex_char (b / 16)) (String (hex_char (b mod 16)) (hex_string a'))
  end.

(** IP.String. *)
Definition ip_string (a : ip) : string :=
  match a with
  | [] => "<nil>"
  | _ =>
      if negb ((List.length a =? 4)%nat || (List.length a =? 16)%nat) then "?" ++ hex_string a
      else match to4 a with
           | [] => ip6_string a
           | q => ip4_string q
           end
  end.

(** IPMask.String. *)
Definition mask_string (m : list N) : string :=
  match m with [] => "<nil>" | _ => hex_string m end.

(** simpleMaskLength: None is -1. *)
Definition byte_ones (v : N) : option N :=
  if (v =? 0)%N then Some 0%N else if (v =? 128)%N then Some 1%N
  else if (v =? 192)%N then Some 2%N else if (v =? 224)%N then Some 3%N
  else if (v =? 240)%N then Some 4%N else if (v =? 248)%N then Some 5%N
  else if (v =? 252)%N then Some 6%N else if (v =? 254)%N then Some 7%N else None.
Fixpoint simple_mask_length (m : list N) : option N :=
  match m with
  | [] => Some 0%N
  | v :: m' =>
      if (v =? 255)%N then option_map (N.add 8) (simple_mask_length m')
      else match byte_ones v with
           | Some k => if forallb (N.eqb 0) m' then Some k else None
           | None => None
           end
  end.

(** networkNumberAndMask; None is (nil, nil). *)
Definition net_and_mask (n : ipnet) : option (ip * list N) :=
  let i4 := to4 (n_ip n) in
  let a := match i4 with [] => n_ip n | _ => i4 end in
  if match i4 with [] => negb (List.length a =? 16)%nat | _ => false end then None
  else
    let m := n_mask n in
    if (List.length m =? 4)%nat then
      if (List.length a =? 4)%nat then Some (a, m) else None
    else if (List.length m =? 16)%nat then
      if (List.length a =? 4)%nat then Some (a, skipn 12 m) else Some (a, m)
    else None.

(** IPNet.String. *)
Definition ipnet_string (n : ipnet) : string :=
  match net_and_mask n with
  | None => "<nil>"
  | Some (a, m) =>
      match simple_mask_length m with
      | None => ip_string a ++ "/" ++ mask_string m
      | Some l => ip_string a ++ "/" ++ itoaN l
      end
  end.

(** *** Parsing *)

(** One octet of parseIPv4: digits, no leading zero, at most 255. *)
Definition parse_octet (s : string) : option N :=
  match s with
  | String "0"%char (String _ _) => None
  | _ => match digits s with
         | Some n => if (n <=? 255)%N then Some n else None
         | None => None
         end
  end.

(** netip.parseIPv4. *)
Definition parse_ipv4 (s : string) : option (list N) :=
  match split_on "."%char s with
  | [a; b; c; d] =>
      match parse_octet a, parse_octet b, parse_octet c, parse_octet d with
      | Some x, Some y, Some z, Some w => Some [x; y; z; w]
      | _, _, _, _ => None
      end
  | _ => None
  end.

Definition hexv (c : ascii) : option N :=
  let n := code c in
  if is_digit c then Some (n - 48)%N
  else if ((97 <=? n) && (n <=? 102))%N then Some (n - 87)%N
  else if ((65 <=? n) && (n <=? 70))%N then Some (n - 55)%N
  else None.

(** Leading hexadecimal digits: their values and the rest. *)
Fixpoint span_hex (s : string) : list N * string :=
  match s with
  | String c s' =>
      match hexv c with
      | Some v => let '(l, r) := span_hex s' in (v :: l, r)
      | None => ([], s)
      end
  | EmptyString => ([], s)
  end.

Definition hex_num (l : list N) : N := fold_left (fun acc v => acc * 16 + v)%N l 0%N.

(** The loop of netip.parseIPv6: [acc] is ip[0:i], [ell] the ellipsis position in bytes;
    [fuel] counts the iterations left before i = 16. *)
Fixpoint v6_loop (fuel : nat) (acc : list N) (ell : option nat) (s : string)
  : option (list N * option nat) :=
  match fuel with
  | O => match s with EmptyString => Some (acc, ell) | _ => None end
  | S f =>
      let '(hs, rest) := span_hex s in
      if (List.length hs =? 0)%nat || (4 <? List.length hs)%nat then None
      else
        let x := hex_num hs in
        let acc' := (acc ++ [x / 256; x mod 256]%N)%list in
        match rest with
        | EmptyString => Some (acc', ell)
        | String c r =>
            if Ascii.eqb c "."%char then
              if match ell with None => negb (List.length acc =? 12)%nat | Some _ => false end then None
              else if (16 <? List.length acc + 4)%nat then None
              else match parse_ipv4 s with
                   | Some q => Some ((acc ++ q)%list, ell)
                   | None => None
                   end
            else if negb (Ascii.eqb c ":"%char) then None
            else match r with
                 | EmptyString => None
                 | String c2 r2 =>
                     if Ascii.eqb c2 ":"%char then
                       match ell with
                       | Some _ => None
                       | None =>
                           match r2 with
                           | EmptyString => Some (acc', Some (List.length acc'))
                           | _ => v6_loop f acc' (Some (List.length acc')) r2
                           end
                       end
                     else v6_loop f acc' ell r
                 end
        end
  end.

Definition expand_v6 (r : list N * option nat) : option (list N) :=
  let '(acc, ell) := r in
  if (List.length acc <? 16)%nat then
    match ell with
    | None => None
    | Some e => Some (firstn e acc ++ repeat 0%N (16 - List.length acc) ++ skipn e acc)%list
    end
  else match ell with Some _ => None | None => Some acc end.

(** netip.parseIPv6 without zones (a zone makes ParseIP and ParseCIDR fail). *)
Definition parse_ipv6 (s : string) : option (list N) :=
  match s with
  | String c1 (String c2 r) =>
      if Ascii.eqb c1 ":"%char && Ascii.eqb c2 ":"%char then
        match r with
        | EmptyString => Some (repeat 0%N 16)
        | _ => match v6_loop 8 [] (Some 0%nat) r with Some x => expand_v6 x | None => None end
        end
      else match v6_loop 8 [] None s with Some x => expand_v6 x | None => None end
  | _ => match v6_loop 8 [] None s with Some x => expand_v6 x | None => None end
  end.

(** netip.ParseAddr: the first of '.', ':' and '%' decides.  Result: bytes and BitLen. *)
Fixpoint addr_kind (s : string) : option bool :=  (* Some true: IPv4, Some false: IPv6 *)
  match s with
  | EmptyString => None
  | String c r =>
      if Ascii.eqb c "."%char then Some true
      else if Ascii.eqb c ":"%char then Some false
      else if Ascii.eqb c "%"%char then None
      else addr_kind r
  end.
Definition parse_addr (s : string) : option (ip * N) :=
  match addr_kind s with
  | Some true => match parse_ipv4 s with Some q => Some (v4in6 q, 32%N) | None => None end
  | Some false =>
      if contains_byte "%"%char s then None
      else match parse_ipv6 s with Some a => Some (a, 128%N) | None => None end
  | None => None
  end.

(** net.ParseIP: the 16-byte form. *)
Definition parse_ip (s : string) : option ip := option_map fst (parse_addr s).

(** net.CIDRMask(ones, bits) for bits = 32 or 128. *)
Fixpoint cidr_bytes (k : nat) (n : N) : list N :=
  match k with
  | O => []
  | S k' =>
      if (8 <=? n)%N then 255%N :: cidr_bytes k' (n - 8)
      else (255 - (2 ^ (8 - n) - 1))%N :: cidr_bytes k' 0
  end.
Definition cidr_mask (n bits : N) : list N := cidr_bytes (N.to_nat (bits / 8)) n.

(** types.ParseCIDR = net.ParseCIDR with the full address kept (pkg/types/types.go:30-38).
    dtoi: at least one digit, all digits, below 0xFFFFFF. *)
Definition parse_cidr (s : string) : option ipnet :=
  match cut_on "/"%char s with
  | None => None
  | Some (addr, mask) =>
      match parse_addr addr with
      | None => None
      | Some (a, bits) =>
          match digits mask with
          | None => None
          | Some n =>
              if (n <=? bits)%N then Some {| n_ip := a; n_mask := cidr_mask n bits |} else None
          end
      end
  end.
