(** The forms in which a program can hold an address or a prefix (C70).  Go's net.IP holds an IPv4
    address in four or in sixteen bytes, and net.IPNet a mask of either length. *)
From Coq Require Import String List NArith ZArith Bool.
From Verif Require Import Model.GoStr Model.Errors Model.NetIP Model.Types Spec.NameSpec Spec.TypesSpec.
Import ListNotations.
Open Scope nat_scope.

(** [a] holds the IPv4 address [q]. *)
Definition v4_address (a : ip) (q : list N) : Prop := octets q /\ (a = q \/ a = v4in6 q).
(** [p] holds the IPv4 prefix [q]/[n]: the last four bytes of the mask count. *)
Definition v4_prefix (p : ipnet) (q : list N) (n : N) : Prop :=
  v4_address (n_ip p) q /\ (n <= 32)%N /\
  (n_mask p = cidr_mask n 32 \/ (List.length (n_mask p) = 16 /\ skipn 12 (n_mask p) = cidr_mask n 32)).
Definition same_address (a b : ip) : Prop := a = b \/ exists q, v4_address a q /\ v4_address b q.
Definition same_prefix (p p' : ipnet) : Prop := p = p' \/ exists q n, v4_prefix p q n /\ v4_prefix p' q n.

(** Two results that differ in such forms at most. *)
Definition same_opt {A} (R : A -> A -> Prop) (o o' : option A) : Prop :=
  match o, o' with Some a, Some b => R a b | None, None => True | _, _ => False end.
Definition same_route (r r' : route) : Prop :=
  same_prefix (r_dst r) (r_dst r') /\ same_address (r_gw r) (r_gw r') /\ r_mtu r = r_mtu r' /\ r_advmss r = r_advmss r' /\
  r_priority r = r_priority r' /\ r_table r = r_table r' /\ r_scope r = r_scope r'.
Definition same_ipc020 (c c' : ipc020) : Prop :=
  same_prefix (i2_ip c) (i2_ip c') /\ same_address (i2_gateway c) (i2_gateway c') /\ Forall2 same_route (i2_routes c) (i2_routes c').
Definition same_ipc040 (c c' : ipc040) : Prop :=
  i4_version c = i4_version c' /\ i4_interface c = i4_interface c' /\ same_prefix (i4_address c) (i4_address c') /\ same_address (i4_gateway c) (i4_gateway c').
Definition same_ipc100 (c c' : ipc100) : Prop :=
  i1_interface c = i1_interface c' /\ same_prefix (i1_address c) (i1_address c') /\ same_address (i1_gateway c) (i1_gateway c').
Definition same_result (r r' : result) : Prop :=
  match r, r' with
  | R020 r, R020 r' => v2_version r = v2_version r' /\ same_opt same_ipc020 (v2_ip4 r) (v2_ip4 r') /\ same_opt same_ipc020 (v2_ip6 r) (v2_ip6 r') /\ v2_dns r = v2_dns r'
  | R040 r, R040 r' => v4_version r = v4_version r' /\ v4_interfaces r = v4_interfaces r' /\ Forall2 (same_opt same_ipc040) (v4_ips r) (v4_ips r') /\
      Forall2 (same_opt same_route) (v4_routes r) (v4_routes r') /\ v4_dns r = v4_dns r'
  | R100 r, R100 r' => v1_version r = v1_version r' /\ v1_interfaces r = v1_interfaces r' /\ Forall2 (same_opt same_ipc100) (v1_ips r) (v1_ips r') /\
      Forall2 (same_opt same_route) (v1_routes r) (v1_routes r') /\ v1_dns r = v1_dns r'
  | _, _ => False
  end.
(** Two outcomes: both results, the same but for such forms; or the same failure. *)
Definition same_outcome {A} (R : A -> A -> Prop) (x y : res A) : Prop :=
  match x, y with Ok a, Ok b => R a b | Err e, Err e' => e = e' | Panic, Panic => True | _, _ => False end.

(** The form reading a document leaves: sixteen-byte addresses, IPv4 masks of four bytes. *)
Definition widen_address (a : ip) : ip := if (List.length a =? 4) then v4in6 a else a.
Definition widen_prefix (p : ipnet) : ipnet :=
  {| n_ip := widen_address (n_ip p);
     n_mask := match to4 (n_ip p) with [] => n_mask p | _ => if (List.length (n_mask p) =? 16) then skipn 12 (n_mask p) else n_mask p end |}.
Definition widen_route (r : route) : route :=
  {| r_dst := widen_prefix (r_dst r); r_gw := widen_address (r_gw r); r_mtu := r_mtu r; r_advmss := r_advmss r;
     r_priority := r_priority r; r_table := r_table r; r_scope := r_scope r |}.
Definition widen (r : result) : result :=
  match r with
  | R020 r => let w c := {| i2_ip := widen_prefix (i2_ip c); i2_gateway := widen_address (i2_gateway c); i2_routes := map widen_route (i2_routes c) |} in
      R020 {| v2_version := v2_version r; v2_ip4 := option_map w (v2_ip4 r); v2_ip6 := option_map w (v2_ip6 r); v2_dns := v2_dns r |}
  | R040 r => let w c := {| i4_version := i4_version c; i4_interface := i4_interface c; i4_address := widen_prefix (i4_address c); i4_gateway := widen_address (i4_gateway c) |} in
      R040 {| v4_version := v4_version r; v4_interfaces := v4_interfaces r; v4_ips := map (option_map w) (v4_ips r);
              v4_routes := map (option_map widen_route) (v4_routes r); v4_dns := v4_dns r |}
  | R100 r => let w c := {| i1_interface := i1_interface c; i1_address := widen_prefix (i1_address c); i1_gateway := widen_address (i1_gateway c) |} in
      R100 {| v1_version := v1_version r; v1_interfaces := v1_interfaces r; v1_ips := map (option_map w) (v1_ips r);
              v1_routes := map (option_map widen_route) (v1_routes r); v1_dns := v1_dns r |}
  end.
