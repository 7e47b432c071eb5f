(** What a well-formed CNI result is: what Go programs can put in one and JSON can carry. *)
From Coq Require Import String Ascii List Arith NArith ZArith Bool.
From Verif Require Import Model.GoStr Model.Json Model.GoJson Model.NetIP Model.Types Spec.NameSpec.
Import ListNotations.
Open Scope string_scope.

(** IPv4 octets; an IPv4 address in net.IP's 16-byte form; any 16-byte address. *)
Definition octets (q : list N) : Prop := List.length q = 4 /\ Forall (fun x => (x < 256)%N) q.
Definition bytes16 (a : ip) : Prop := List.length a = 16 /\ Forall (fun x => (x < 256)%N) a.

(** A prefix as net.ParseCIDR yields it: an IPv4 address with a mask of at most 32 bits, or an
    IPv6 address (not IPv4-mapped) with a mask of at most 128 bits. *)
Inductive prefix_form : ipnet -> Prop :=
| pf4 : forall q n, octets q -> (n <= 32)%N -> prefix_form {| n_ip := v4in6 q; n_mask := cidr_mask n 32 |}
| pf6 : forall a n, bytes16 a -> to4 a = [] -> (n <= 128)%N -> prefix_form {| n_ip := a; n_mask := cidr_mask n 128 |}.

(** Integers: all of int64, or those a float64 holds exactly. *)
Definition int64 (z : Z) : Prop := (- 2 ^ 63 <= z < 2 ^ 63)%Z.
Definition exact (z : Z) : Prop := (Z.abs z <= 2 ^ 53)%Z.

Section Wf.
Variables (I : Z -> Prop) (Q : ipnet -> Prop).

Definition wf_opt {A} (P : A -> Prop) (o : option A) : Prop := match o with Some a => P a | None => True end.
Definition wf_gw (a : ip) : Prop := a = [] \/ bytes16 a.
Definition wf_dns (d : dns) : Prop :=
  Forall well_formed_text (d_nameservers d) /\ well_formed_text (d_domain d) /\
  Forall well_formed_text (d_search d) /\ Forall well_formed_text (d_options d).
Definition wf_route (r : route) : Prop :=
  Q (r_dst r) /\ wf_gw (r_gw r) /\ I (r_mtu r) /\ I (r_advmss r) /\ I (r_priority r) /\
  wf_opt I (r_table r) /\ wf_opt I (r_scope r).
Definition wf_ipc020 (c : ipc020) : Prop :=
  Q (i2_ip c) /\ wf_gw (i2_gateway c) /\ Forall wf_route (i2_routes c).
Definition wf_res020 (r : res020) : Prop :=
  wf_opt wf_ipc020 (v2_ip4 r) /\ wf_opt wf_ipc020 (v2_ip6 r) /\ wf_dns (v2_dns r).
Definition wf_if040 (i : if040) : Prop :=
  well_formed_text (if4_name i) /\ well_formed_text (if4_mac i) /\ well_formed_text (if4_sandbox i).
Definition wf_ipc040 (c : ipc040) : Prop :=
  well_formed_text (i4_version c) /\ wf_opt I (i4_interface c) /\ Q (i4_address c) /\ wf_gw (i4_gateway c).
Definition wf_res040 (r : res040) : Prop :=
  Forall (wf_opt wf_if040) (v4_interfaces r) /\ Forall (wf_opt wf_ipc040) (v4_ips r) /\
  Forall (wf_opt wf_route) (v4_routes r) /\ wf_dns (v4_dns r).
Definition wf_if100 (i : if100) : Prop :=
  well_formed_text (if1_name i) /\ well_formed_text (if1_mac i) /\ I (if1_mtu i) /\
  well_formed_text (if1_sandbox i) /\ well_formed_text (if1_socket i) /\ well_formed_text (if1_pci i).
Definition wf_ipc100 (c : ipc100) : Prop :=
  wf_opt I (i1_interface c) /\ Q (i1_address c) /\ wf_gw (i1_gateway c).
Definition wf_res100 (r : res100) : Prop :=
  Forall (wf_opt wf_if100) (v1_interfaces r) /\ Forall (wf_opt wf_ipc100) (v1_ips r) /\
  Forall (wf_opt wf_route) (v1_routes r) /\ wf_dns (v1_dns r).

(** A result whose text, addresses and numbers are well formed, whatever its version. *)
Definition wf_body (r : result) : Prop :=
  match r with R020 r => wf_res020 r | R040 r => wf_res040 r | R100 r => wf_res100 r end.
End Wf.

(** The versions each Go type serves. *)
Definition versions_of (r : result) : list string :=
  match r with
  | R020 _ => ["0.1.0"; "0.2.0"]
  | R040 _ => ["0.3.0"; "0.3.1"; "0.4.0"]
  | R100 _ => ["1.0.0"; "1.1.0"]
  end.
Definition right_version (r : result) : Prop := In (result_version r) (versions_of r).
Definition wf_result (I : Z -> Prop) (Q : ipnet -> Prop) (r : result) : Prop := wf_body I Q r /\ right_version r.

(** What decoding can leave in a prefix besides: nothing (the member is missing), or an
    IPv4-mapped IPv6 address with an IPv6 mask; net.IPNet.String prints neither faithfully. *)
Definition any_prefix (p : ipnet) : Prop :=
  prefix_form p \/ p = ipnet_zero \/
  exists q n, octets q /\ (n <= 128)%N /\ p = {| n_ip := v4in6 q; n_mask := cidr_mask n 128 |}.

(** ** Conversion *)
(** No nil entries: Go code may hold nil pointers in these slices; JSON null puts them there. *)
Definition complete (r : result) : Prop :=
  match r with
  | R020 _ => True
  | R040 r => ~ In None (v4_interfaces r) /\ ~ In None (v4_ips r) /\ ~ In None (v4_routes r)
  | R100 r => ~ In None (v1_interfaces r) /\ ~ In None (v1_ips r) /\ ~ In None (v1_routes r)
  end.
Fixpoint somes {A} (l : list (option A)) : list A :=
  match l with [] => [] | Some a :: l' => a :: somes l' | None :: l' => somes l' end.

(** An IPv4 address, in either of net.IP's forms. *)
Definition ipv4 (a : ip) : Prop := List.length a = 4 \/ exists q, List.length q = 4 /\ a = v4in6 q.
Definition family (a : ip) : string := if is4 a then "4" else "6".

(** The address entries as (declared family, address, gateway). *)
Definition addresses (r : result) : list (string * ipnet * ip) :=
  match r with
  | R020 r => (match v2_ip4 r with Some c => [("4", i2_ip c, i2_gateway c)] | None => [] end ++
               match v2_ip6 r with Some c => [("6", i2_ip c, i2_gateway c)] | None => [] end)%list
  | R040 r => map (fun c => (i4_version c, i4_address c, i4_gateway c)) (somes (v4_ips r))
  | R100 r => map (fun c => (family (n_ip (i1_address c)), i1_address c, i1_gateway c)) (somes (v1_ips r))
  end.
Definition fam (x : string * ipnet * ip) : string := fst (fst x).
Definition has_usable_ip (r : result) : Prop := exists x, In x (addresses r) /\ (fam x = "4" \/ fam x = "6").
Definition old_version (v : string) : Prop := v = "0.1.0" \/ v = "0.2.0".
Definition known_versions : list string := ["0.1.0"; "0.2.0"; "0.3.0"; "0.3.1"; "0.4.0"; "1.0.0"; "1.1.0"].

(** The routes and the DNS data of a result. *)
Definition routes_of (r : result) : list route :=
  match r with
  | R020 r => (match v2_ip4 r with Some c => i2_routes c | None => [] end ++
               match v2_ip6 r with Some c => i2_routes c | None => [] end)%list
  | R040 r => somes (v4_routes r)
  | R100 r => somes (v1_routes r)
  end.
Definition dns_of (r : result) : dns := match r with R020 r => v2_dns r | R040 r => v4_dns r | R100 r => v1_dns r end.
(** Destination and gateway only. *)
Definition short (r : route) : route :=
  {| r_dst := r_dst r; r_gw := r_gw r; r_mtu := 0; r_advmss := 0; r_priority := 0; r_table := None; r_scope := None |}.
(** The 0.2.0 form of family [v]: the first address, and the routes to that family. *)
Definition old_form (v : string) (r : result) : option ipc020 :=
  option_map (fun x => {| i2_ip := snd (fst x); i2_gateway := snd x;
                          i2_routes := map short (filter (fun q => String.eqb (family (n_ip (r_dst q))) v) (routes_of r)) |})
    (find (fun x => String.eqb (fam x) v) (addresses r)).

(** Documents with no null among the entries of their interfaces, ips and routes members
    (whatever the letter case of the keys). *)
Definition entries_key (k : string) : bool := key_is "interfaces" k || key_is "ips" k || key_is "routes" k.
Definition no_null_entries (j : json) : Prop :=
  match j with
  | JObj l => forall k js, In (k, JArr js) l -> entries_key k = true -> ~ In JNull js
  | _ => True
  end.
