(** What a result document says (C67): member names and values of the CNI specification's result
    types, independent of the library's encoder and decoder. *)
From Coq Require Import String List NArith ZArith Bool.
From Verif Require Import Model.GoStr Model.Json Model.GoJson Model.NetIP Model.Types Spec.VersionSpec Spec.TypesSpec Spec.AddrSpec.
Import ListNotations.
Open Scope string_scope.

(** No object has two members whose keys encoding/json takes for the same field. *)
Inductive plain : json -> Prop :=
| pl_null : plain JNull
| pl_bool : forall b, plain (JBool b)
| pl_num : forall l, plain (JNum l)
| pl_str : forall s, plain (JStr s)
| pl_arr : forall l, Forall plain l -> plain (JArr l)
| pl_obj : forall o, NoDup (map (fun kv => fold_key (fst kv)) o) -> Forall (fun kv => plain (snd kv)) o -> plain (JObj o).

(** [member f o v]: [v] is the value of the member [f], [None] if there is none.  [field f o P]:
    the value of [f] satisfies [P]. *)
Definition member (f : string) (o : list (string * json)) (v : option json) : Prop :=
  match v with
  | None => forall k w, In (k, w) o -> key_is f k = false
  | Some w => exists k, In (k, w) o /\ key_is f k = true
  end.
Definition field {A} (f : string) (o : list (string * json)) (P : option json -> A -> Prop) (a : A) : Prop :=
  exists v, member f o v /\ P v a.
(** null stands for an object without members. *)
Definition object (j : json) (o : list (string * json)) : Prop := j = JObj o \/ (j = JNull /\ o = []).

(** Values of members: absent and null are the empty value, except for prefixes, where null is an
    error. *)
Definition text (v : option json) (s : string) : Prop :=
  match v with None | Some JNull => s = "" | Some (JStr t) => s = t | _ => False end.
Definition integer (v : option json) (z : Z) : Prop :=
  match v with None | Some JNull => z = 0%Z | Some (JNum l) => part_means l z | _ => False end.
Definition maybe {A} (P : json -> A -> Prop) (v : option json) (x : option A) : Prop :=
  match v with None | Some JNull => x = None | Some j => exists a, x = Some a /\ P j a end.
Definition array {A} (P : json -> A -> Prop) (v : option json) (l : list A) : Prop :=
  match v with None | Some JNull => l = [] | Some (JArr js) => Forall2 P js l | _ => False end.
Definition entry {A} (P : json -> A -> Prop) (j : json) (x : option A) : Prop := maybe P (Some j) x.
Definition number (j : json) (z : Z) : Prop := integer (Some j) z.
Definition texts (v : option json) (l : list string) : Prop := array (fun j s => text (Some j) s) v l.
Definition address (v : option json) (a : ip) : Prop :=
  match v with
  | None | Some JNull => a = []
  | Some (JStr s) => (s = "" /\ a = []) \/ exists bits, address_text s a bits
  | _ => False
  end.
Definition prefix (v : option json) (p : ipnet) : Prop :=
  match v with None => p = ipnet_zero | Some (JStr s) => prefix_text s p | _ => False end.

(** The types of the specification. *)
Definition dns_doc (j : json) (d : dns) : Prop := exists o, object j o /\
  field "nameservers" o texts (d_nameservers d) /\ field "domain" o text (d_domain d) /\
  field "search" o texts (d_search d) /\ field "options" o texts (d_options d).
Definition dns_field (v : option json) (d : dns) : Prop := match v with None => d = dns_zero | Some j => dns_doc j d end.
Definition route_doc (j : json) (r : route) : Prop := exists o, object j o /\
  field "dst" o prefix (r_dst r) /\ field "gw" o address (r_gw r) /\ field "mtu" o integer (r_mtu r) /\
  field "advmss" o integer (r_advmss r) /\ field "priority" o integer (r_priority r) /\
  field "table" o (maybe number) (r_table r) /\ field "scope" o (maybe number) (r_scope r).
(** 0.1.0 and 0.2.0 *)
Definition ip_doc020 (j : json) (c : ipc020) : Prop := exists o, object j o /\
  field "ip" o prefix (i2_ip c) /\ field "gateway" o address (i2_gateway c) /\ field "routes" o (array route_doc) (i2_routes c).
Definition doc020 (j : json) (r : res020) : Prop := exists o, object j o /\
  field "cniVersion" o text (v2_version r) /\ field "ip4" o (maybe ip_doc020) (v2_ip4 r) /\
  field "ip6" o (maybe ip_doc020) (v2_ip6 r) /\ field "dns" o dns_field (v2_dns r).
(** 0.3.0 to 0.4.0 *)
Definition if_doc040 (j : json) (i : if040) : Prop := exists o, object j o /\
  field "name" o text (if4_name i) /\ field "mac" o text (if4_mac i) /\ field "sandbox" o text (if4_sandbox i).
Definition ip_doc040 (j : json) (c : ipc040) : Prop := exists o, object j o /\
  field "version" o text (i4_version c) /\ field "interface" o (maybe number) (i4_interface c) /\
  field "address" o prefix (i4_address c) /\ field "gateway" o address (i4_gateway c).
Definition doc040 (j : json) (r : res040) : Prop := exists o, object j o /\
  field "cniVersion" o text (v4_version r) /\ field "interfaces" o (array (entry if_doc040)) (v4_interfaces r) /\
  field "ips" o (array (entry ip_doc040)) (v4_ips r) /\ field "routes" o (array (entry route_doc)) (v4_routes r) /\
  field "dns" o dns_field (v4_dns r).
(** 1.0.0 and 1.1.0 *)
Definition if_doc100 (j : json) (i : if100) : Prop := exists o, object j o /\
  field "name" o text (if1_name i) /\ field "mac" o text (if1_mac i) /\ field "mtu" o integer (if1_mtu i) /\
  field "sandbox" o text (if1_sandbox i) /\ field "socketPath" o text (if1_socket i) /\ field "pciID" o text (if1_pci i).
Definition ip_doc100 (j : json) (c : ipc100) : Prop := exists o, object j o /\
  field "interface" o (maybe number) (i1_interface c) /\ field "address" o prefix (i1_address c) /\
  field "gateway" o address (i1_gateway c).
Definition doc100 (j : json) (r : res100) : Prop := exists o, object j o /\
  field "cniVersion" o text (v1_version r) /\ field "interfaces" o (array (entry if_doc100)) (v1_interfaces r) /\
  field "ips" o (array (entry ip_doc100)) (v1_ips r) /\ field "routes" o (array (entry route_doc)) (v1_routes r) /\
  field "dns" o dns_field (v1_dns r).

(** A document of the version [v] says the result [r].  A result document without version is of
    version 0.1.0. *)
Definition says_result (j : json) (r : result) : Prop :=
  match r with
  | R020 r => doc020 j r \/ (v2_version r = "0.1.0" /\ doc020 j {| v2_version := ""; v2_ip4 := v2_ip4 r; v2_ip6 := v2_ip6 r; v2_dns := v2_dns r |})
  | R040 r => doc040 j r
  | R100 r => doc100 j r
  end.
(** The versions handled by the same Go type. *)
Definition same_type (v : string) (r : result) : Prop :=
  In v (versions_of r) \/ (v = "" /\ exists x, r = R020 x).

(** The member names of the specification, as it spells them; [tidy]: a document with no other
    member and none twice. *)
Definition documented : list string :=
  ["cniVersion"; "interfaces"; "ips"; "routes"; "dns"; "ip4"; "ip6"; "name"; "mac"; "mtu"; "sandbox"; "socketPath"; "pciID";
   "interface"; "address"; "gateway"; "version"; "ip"; "dst"; "gw"; "advmss"; "priority"; "table"; "scope";
   "nameservers"; "domain"; "search"; "options"].
Inductive tidy : json -> Prop :=
| td_null : tidy JNull
| td_bool : forall b, tidy (JBool b)
| td_num : forall l, tidy (JNum l)
| td_str : forall s, tidy (JStr s)
| td_arr : forall l, Forall tidy l -> tidy (JArr l)
| td_obj : forall o, NoDup (map fst o) -> Forall (fun kv => In (fst kv) documented /\ tidy (snd kv)) o -> tidy (JObj o).
