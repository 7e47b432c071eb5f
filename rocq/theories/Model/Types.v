(** CNI result types of all versions: values, JSON forms and conversions
    (pkg/types, pkg/types/020, 040, 100, internal, create). *)
From Coq Require Import String Ascii List Arith NArith ZArith Bool.
From Verif Require Import Model.GoStr Model.Errors Model.Json Model.GoJson Model.NetIP.
Import ListNotations.
Open Scope string_scope.

(** ** Values *)

(** types.DNS (pkg/types/types.go:153-158). *)
Record dns := {
  d_nameservers : list string;
  d_domain : string;
  d_search : list string;
  d_options : list string
}.
Definition dns_zero : dns :=
  {| d_nameservers := []; d_domain := ""; d_search := []; d_options := [] |}.

Definition nil_list {A} (l : list A) : bool := match l with [] => true | _ => false end.

(** DNS.IsEmpty (pkg/types/types.go:161-166). *)
Definition dns_is_empty (d : dns) : bool :=
  nil_list (d_nameservers d) && String.eqb (d_domain d) "" &&
  nil_list (d_search d) && nil_list (d_options d).

(** DNS.Copy (types.go:168-178): equal value. *)
Definition dns_copy (d : dns) : dns :=
  {| d_domain := d_domain d;
     d_nameservers := [] ++ d_nameservers d;
     d_search := [] ++ d_search d;
     d_options := [] ++ d_options d |}.

(** types.Route (types.go:180-188). *)
Record route := {
  r_dst : ipnet;
  r_gw : ip;
  r_mtu : Z;
  r_advmss : Z;
  r_priority : Z;
  r_table : option Z;
  r_scope : option Z
}.
Definition route_zero : route :=
  {| r_dst := ipnet_zero; r_gw := []; r_mtu := 0; r_advmss := 0; r_priority := 0;
     r_table := None; r_scope := None |}.

(** Route.Copy (types.go:204-229): equal value; nil stays nil. *)
Definition route_copy (r : route) : route :=
  {| r_dst := r_dst r; r_gw := r_gw r; r_mtu := r_mtu r; r_advmss := r_advmss r;
     r_priority := r_priority r; r_table := r_table r; r_scope := r_scope r |}.

(** types020.IPConfig and Result (pkg/types/020/types.go:103-108,137-141). *)
Record ipc020 := { i2_ip : ipnet; i2_gateway : ip; i2_routes : list route }.
Record res020 := {
  v2_version : string;
  v2_ip4 : option ipc020;
  v2_ip6 : option ipc020;
  v2_dns : dns
}.

(** types040.Interface, IPConfig, Result (pkg/types/040/types.go:86-92,221-225,246-253).
    Slices of pointers are lists of options: None is a nil element. *)
Record if040 := { if4_name : string; if4_mac : string; if4_sandbox : string }.
Record ipc040 := {
  i4_version : string;
  i4_interface : option Z;
  i4_address : ipnet;
  i4_gateway : ip
}.
Record res040 := {
  v4_version : string;
  v4_interfaces : list (option if040);
  v4_ips : list (option ipc040);
  v4_routes : list (option route);
  v4_dns : dns
}.

(** types100.Interface, IPConfig, Result (pkg/types/100/types.go:90-96,270-277,298-303). *)
Record if100 := {
  if1_name : string;
  if1_mac : string;
  if1_mtu : Z;
  if1_sandbox : string;
  if1_socket : string;
  if1_pci : string
}.
Record ipc100 := { i1_interface : option Z; i1_address : ipnet; i1_gateway : ip }.
Record res100 := {
  v1_version : string;
  v1_interfaces : list (option if100);
  v1_ips : list (option ipc100);
  v1_routes : list (option route);
  v1_dns : dns
}.

(** types.Result: an interface value holding a pointer to one of the three structs. *)
Inductive result :=
| R020 (r : res020)
| R040 (r : res040)
| R100 (r : res100).

(** Result.Version (020:110, 040:194, 100:243). *)
Definition result_version (r : result) : string :=
  match r with
  | R020 r => v2_version r
  | R040 r => v4_version r
  | R100 r => v1_version r
  end.

Definition set_version (v : string) (r : result) : result :=
  match r with
  | R020 r => R020 {| v2_version := v; v2_ip4 := v2_ip4 r; v2_ip6 := v2_ip6 r; v2_dns := v2_dns r |}
  | R040 r => R040 {| v4_version := v; v4_interfaces := v4_interfaces r; v4_ips := v4_ips r;
                      v4_routes := v4_routes r; v4_dns := v4_dns r |}
  | R100 r => R100 {| v1_version := v; v1_interfaces := v1_interfaces r; v1_ips := v1_ips r;
                      v1_routes := v1_routes r; v1_dns := v1_dns r |}
  end.

(** ** JSON encoding
    [None] is a json.Marshal error: only net.IP.MarshalText can fail (length not 0, 4 or 16). *)

Definition obind {A B} (o : option A) (f : A -> option B) : option B :=
  match o with Some a => f a | None => None end.
Fixpoint omap_list {A B} (f : A -> option B) (l : list A) : option (list B) :=
  match l with
  | [] => Some []
  | x :: xs => obind (f x) (fun y => obind (omap_list f xs) (fun ys => Some (y :: ys)))
  end.

Definition enc_ip (a : ip) : option json :=
  match a with
  | [] => Some (JStr "")
  | _ => if (List.length a =? 4)%nat || (List.length a =? 16)%nat
         then Some (JStr (ip_string a)) else None
  end.
(** omitempty net.IP field *)
Definition fld_ip (k : string) (a : ip) : option (list (string * json)) :=
  match a with [] => Some [] | _ => option_map (fun j => [(k, j)]) (enc_ip a) end.

(** IPNet.MarshalJSON (types.go:40-42). *)
Definition enc_ipnet (n : ipnet) : json := JStr (ipnet_string n).

Definition fld_str (k v : string) : list (string * json) := omit_if (String.eqb v "") k (JStr v).
Definition fld_int (k : string) (v : Z) : list (string * json) := omit_if (v =? 0)%Z k (enc_int v).
Definition fld_optint (k : string) (v : option Z) : list (string * json) :=
  match v with Some z => [(k, enc_int z)] | None => [] end.
Definition fld_strs (k : string) (v : list string) : list (string * json) :=
  omit_if (nil_list v) k (enc_strings v).
Definition fld_arr (k : string) (v : list json) : list (string * json) :=
  omit_if (nil_list v) k (JArr v).

(** types.DNS in field order. *)
Definition enc_dns (d : dns) : json :=
  JObj (fld_strs "nameservers" (d_nameservers d) ++ fld_str "domain" (d_domain d) ++
        fld_strs "search" (d_search d) ++ fld_strs "options" (d_options d))%list.

(** Route.MarshalJSON (types.go:277-285,304-316). *)
Definition enc_route (r : route) : option json :=
  obind (fld_ip "gw" (r_gw r)) (fun gw =>
  Some (JObj ([("dst", enc_ipnet (r_dst r))] ++ gw ++ fld_int "mtu" (r_mtu r) ++
              fld_int "advmss" (r_advmss r) ++ fld_int "priority" (r_priority r) ++
              fld_optint "table" (r_table r) ++ fld_optint "scope" (r_scope r))%list)).

Definition enc_opt {A} (f : A -> option json) (o : option A) : option json :=
  match o with Some a => f a | None => Some JNull end.

(** types020.IPConfig.MarshalJSON (020:163-177). *)
Definition enc_ipc020 (c : ipc020) : option json :=
  obind (fld_ip "gateway" (i2_gateway c)) (fun gw =>
  obind (omap_list enc_route (i2_routes c)) (fun rs =>
  Some (JObj ([("ip", enc_ipnet (i2_ip c))] ++ gw ++ fld_arr "routes" rs)%list))).

Definition fld_ipc020 (k : string) (c : option ipc020) : option (list (string * json)) :=
  match c with None => Some [] | Some c => option_map (fun j => [(k, j)]) (enc_ipc020 c) end.

(** types020.Result: dns is a struct, so omitempty never drops it. *)
Definition enc_res020 (r : res020) : option json :=
  obind (fld_ipc020 "ip4" (v2_ip4 r)) (fun f4 =>
  obind (fld_ipc020 "ip6" (v2_ip6 r)) (fun f6 =>
  Some (JObj (fld_str "cniVersion" (v2_version r) ++ f4 ++ f6 ++
              [("dns", enc_dns (v2_dns r))])%list))).

(** types040.Interface (040:221-225); no MarshalJSON. *)
Definition enc_if040 (i : if040) : option json :=
  Some (JObj ([("name", JStr (if4_name i))] ++ fld_str "mac" (if4_mac i) ++
              fld_str "sandbox" (if4_sandbox i))%list).
(** types040.IPConfig.MarshalJSON (040:277-293). *)
Definition enc_ipc040 (c : ipc040) : option json :=
  obind (fld_ip "gateway" (i4_gateway c)) (fun gw =>
  Some (JObj ([("version", JStr (i4_version c))] ++ fld_optint "interface" (i4_interface c) ++
              [("address", enc_ipnet (i4_address c))] ++ gw)%list)).
(** types040.Result (040:86-92). *)
Definition enc_res040 (r : res040) : option json :=
  obind (omap_list (enc_opt enc_if040) (v4_interfaces r)) (fun ifs =>
  obind (omap_list (enc_opt enc_ipc040) (v4_ips r)) (fun ips =>
  obind (omap_list (enc_opt enc_route) (v4_routes r)) (fun rs =>
  Some (JObj (fld_str "cniVersion" (v4_version r) ++ fld_arr "interfaces" ifs ++
              fld_arr "ips" ips ++ fld_arr "routes" rs ++
              [("dns", enc_dns (v4_dns r))])%list)))).

(** types100.Interface (100:270-277). *)
Definition enc_if100 (i : if100) : option json :=
  Some (JObj ([("name", JStr (if1_name i))] ++ fld_str "mac" (if1_mac i) ++
              fld_int "mtu" (if1_mtu i) ++ fld_str "sandbox" (if1_sandbox i) ++
              fld_str "socketPath" (if1_socket i) ++ fld_str "pciID" (if1_pci i))%list).
(** types100.IPConfig.MarshalJSON (100:326-340). *)
Definition enc_ipc100 (c : ipc100) : option json :=
  obind (fld_ip "gateway" (i1_gateway c)) (fun gw =>
  Some (JObj (fld_optint "interface" (i1_interface c) ++
              [("address", enc_ipnet (i1_address c))] ++ gw)%list)).
(** The plain struct form of types100.Result (100:90-96,104). *)
Definition enc_res100_plain (r : res100) : option json :=
  obind (omap_list (enc_opt enc_if100) (v1_interfaces r)) (fun ifs =>
  obind (omap_list (enc_opt enc_ipc100) (v1_ips r)) (fun ips =>
  obind (omap_list (enc_opt enc_route) (v1_routes r)) (fun rs =>
  Some (JObj (fld_str "cniVersion" (v1_version r) ++ fld_arr "interfaces" ifs ++
              fld_arr "ips" ips ++ fld_arr "routes" rs ++
              [("dns", enc_dns (v1_dns r))])%list)))).
(** types100.Result.MarshalJSON (100:100-119): encode, decode into map[string]interface{},
    delete an empty dns, encode the map. *)
Definition enc_res100 (r : res100) : option json :=
  obind (enc_res100_plain r) (fun j =>
  obind (unmarshal_map (print j)) (fun om =>
  let m := match om with Some m => m | None => [] end in
  Some (JObj (if dns_is_empty (v1_dns r) then sdel "dns" m else m)))).

(** json.Marshal of a types.Result. *)
Definition enc_result (r : result) : option json :=
  match r with
  | R020 r => enc_res020 r
  | R040 r => enc_res040 r
  | R100 r => enc_res100 r
  end.

Definition result_bytes (r : result) : res string :=
  match enc_result r with
  | Some j => Ok (print j)
  | None => Err (EJson "invalid IP address")
  end.

(** Result.PrintTo (020:127, 040:211, 100:260). *)
Definition result_print (r : result) : res string :=
  match enc_result r with
  | Some j => Ok (print_indent j)
  | None => Err (EJson "invalid IP address")
  end.

(** ** JSON decoding *)

(** net.IP.UnmarshalText; null is the nil slice. *)
Definition dec_ip (j : json) : option ip :=
  match j with
  | JNull => Some []
  | JStr s => if String.eqb s "" then Some [] else parse_ip s
  | _ => None
  end.

(** IPNet.UnmarshalJSON (types.go:44-57); null decodes to "" which is not a CIDR. *)
Definition dec_ipnet (j : json) : option ipnet :=
  match j with
  | JNull => parse_cidr ""
  | JStr s => parse_cidr s
  | _ => None
  end.

Definition dec_strs (j : json) : option (list string) := dec_list (dec_string "") j.

Definition dec_dns (cur : dns) (j : json) : option dns :=
  decode_struct (fun d k v =>
    if key_is "nameservers" k then
      option_map (fun x => {| d_nameservers := x; d_domain := d_domain d;
                              d_search := d_search d; d_options := d_options d |}) (dec_strs v)
    else if key_is "domain" k then
      option_map (fun x => {| d_nameservers := d_nameservers d; d_domain := x;
                              d_search := d_search d; d_options := d_options d |})
                 (dec_string (d_domain d) v)
    else if key_is "search" k then
      option_map (fun x => {| d_nameservers := d_nameservers d; d_domain := d_domain d;
                              d_search := x; d_options := d_options d |}) (dec_strs v)
    else if key_is "options" k then
      option_map (fun x => {| d_nameservers := d_nameservers d; d_domain := d_domain d;
                              d_search := d_search d; d_options := x |}) (dec_strs v)
    else Some d) cur j.

(** Route.UnmarshalJSON (types.go:287-302): always starts from a zero route. *)
Definition dec_route (j : json) : option route :=
  decode_struct (fun r k v =>
    if key_is "dst" k then
      option_map (fun x => {| r_dst := x; r_gw := r_gw r; r_mtu := r_mtu r; r_advmss := r_advmss r;
                              r_priority := r_priority r; r_table := r_table r; r_scope := r_scope r |})
                 (dec_ipnet v)
    else if key_is "gw" k then
      option_map (fun x => {| r_dst := r_dst r; r_gw := x; r_mtu := r_mtu r; r_advmss := r_advmss r;
                              r_priority := r_priority r; r_table := r_table r; r_scope := r_scope r |})
                 (dec_ip v)
    else if key_is "mtu" k then
      option_map (fun x => {| r_dst := r_dst r; r_gw := r_gw r; r_mtu := x; r_advmss := r_advmss r;
                              r_priority := r_priority r; r_table := r_table r; r_scope := r_scope r |})
                 (dec_int (r_mtu r) v)
    else if key_is "advmss" k then
      option_map (fun x => {| r_dst := r_dst r; r_gw := r_gw r; r_mtu := r_mtu r; r_advmss := x;
                              r_priority := r_priority r; r_table := r_table r; r_scope := r_scope r |})
                 (dec_int (r_advmss r) v)
    else if key_is "priority" k then
      option_map (fun x => {| r_dst := r_dst r; r_gw := r_gw r; r_mtu := r_mtu r; r_advmss := r_advmss r;
                              r_priority := x; r_table := r_table r; r_scope := r_scope r |})
                 (dec_int (r_priority r) v)
    else if key_is "table" k then
      option_map (fun x => {| r_dst := r_dst r; r_gw := r_gw r; r_mtu := r_mtu r; r_advmss := r_advmss r;
                              r_priority := r_priority r; r_table := x; r_scope := r_scope r |})
                 (dec_ptr (dec_int 0%Z) v)
    else if key_is "scope" k then
      option_map (fun x => {| r_dst := r_dst r; r_gw := r_gw r; r_mtu := r_mtu r; r_advmss := r_advmss r;
                              r_priority := r_priority r; r_table := r_table r; r_scope := x |})
                 (dec_ptr (dec_int 0%Z) v)
    else Some r) route_zero j.

(** types020.IPConfig.UnmarshalJSON (020:179-189). *)
Definition dec_ipc020 (j : json) : option ipc020 :=
  decode_struct (fun c k v =>
    if key_is "ip" k then
      option_map (fun x => {| i2_ip := x; i2_gateway := i2_gateway c; i2_routes := i2_routes c |})
                 (dec_ipnet v)
    else if key_is "gateway" k then
      option_map (fun x => {| i2_ip := i2_ip c; i2_gateway := x; i2_routes := i2_routes c |})
                 (dec_ip v)
    else if key_is "routes" k then
      option_map (fun x => {| i2_ip := i2_ip c; i2_gateway := i2_gateway c; i2_routes := x |})
                 (dec_list dec_route v)
    else Some c) {| i2_ip := ipnet_zero; i2_gateway := []; i2_routes := [] |} j.

(** json.Unmarshal into types020.Result. *)
Definition dec_res020 (j : json) : option res020 :=
  decode_struct (fun r k v =>
    if key_is "cniVersion" k then
      option_map (fun x => {| v2_version := x; v2_ip4 := v2_ip4 r; v2_ip6 := v2_ip6 r; v2_dns := v2_dns r |})
                 (dec_string (v2_version r) v)
    else if key_is "ip4" k then
      option_map (fun x => {| v2_version := v2_version r; v2_ip4 := x; v2_ip6 := v2_ip6 r; v2_dns := v2_dns r |})
                 (dec_ptr dec_ipc020 v)
    else if key_is "ip6" k then
      option_map (fun x => {| v2_version := v2_version r; v2_ip4 := v2_ip4 r; v2_ip6 := x; v2_dns := v2_dns r |})
                 (dec_ptr dec_ipc020 v)
    else if key_is "dns" k then
      option_map (fun x => {| v2_version := v2_version r; v2_ip4 := v2_ip4 r; v2_ip6 := v2_ip6 r; v2_dns := x |})
                 (dec_dns (v2_dns r) v)
    else Some r) {| v2_version := ""; v2_ip4 := None; v2_ip6 := None; v2_dns := dns_zero |} j.

Definition dec_if040 (j : json) : option if040 :=
  decode_struct (fun i k v =>
    if key_is "name" k then
      option_map (fun x => {| if4_name := x; if4_mac := if4_mac i; if4_sandbox := if4_sandbox i |})
                 (dec_string (if4_name i) v)
    else if key_is "mac" k then
      option_map (fun x => {| if4_name := if4_name i; if4_mac := x; if4_sandbox := if4_sandbox i |})
                 (dec_string (if4_mac i) v)
    else if key_is "sandbox" k then
      option_map (fun x => {| if4_name := if4_name i; if4_mac := if4_mac i; if4_sandbox := x |})
                 (dec_string (if4_sandbox i) v)
    else Some i) {| if4_name := ""; if4_mac := ""; if4_sandbox := "" |} j.

(** types040.IPConfig.UnmarshalJSON (040:295-306). *)
Definition dec_ipc040 (j : json) : option ipc040 :=
  decode_struct (fun c k v =>
    if key_is "version" k then
      option_map (fun x => {| i4_version := x; i4_interface := i4_interface c;
                              i4_address := i4_address c; i4_gateway := i4_gateway c |})
                 (dec_string (i4_version c) v)
    else if key_is "interface" k then
      option_map (fun x => {| i4_version := i4_version c; i4_interface := x;
                              i4_address := i4_address c; i4_gateway := i4_gateway c |})
                 (dec_ptr (dec_int 0%Z) v)
    else if key_is "address" k then
      option_map (fun x => {| i4_version := i4_version c; i4_interface := i4_interface c;
                              i4_address := x; i4_gateway := i4_gateway c |})
                 (dec_ipnet v)
    else if key_is "gateway" k then
      option_map (fun x => {| i4_version := i4_version c; i4_interface := i4_interface c;
                              i4_address := i4_address c; i4_gateway := x |})
                 (dec_ip v)
    else Some c)
    {| i4_version := ""; i4_interface := None; i4_address := ipnet_zero; i4_gateway := [] |} j.

(** json.Unmarshal into types040.Result. *)
Definition dec_res040 (j : json) : option res040 :=
  decode_struct (fun r k v =>
    if key_is "cniVersion" k then
      option_map (fun x => {| v4_version := x; v4_interfaces := v4_interfaces r; v4_ips := v4_ips r;
                              v4_routes := v4_routes r; v4_dns := v4_dns r |})
                 (dec_string (v4_version r) v)
    else if key_is "interfaces" k then
      option_map (fun x => {| v4_version := v4_version r; v4_interfaces := x; v4_ips := v4_ips r;
                              v4_routes := v4_routes r; v4_dns := v4_dns r |})
                 (dec_list (dec_ptr dec_if040) v)
    else if key_is "ips" k then
      option_map (fun x => {| v4_version := v4_version r; v4_interfaces := v4_interfaces r; v4_ips := x;
                              v4_routes := v4_routes r; v4_dns := v4_dns r |})
                 (dec_list (dec_ptr dec_ipc040) v)
    else if key_is "routes" k then
      option_map (fun x => {| v4_version := v4_version r; v4_interfaces := v4_interfaces r; v4_ips := v4_ips r;
                              v4_routes := x; v4_dns := v4_dns r |})
                 (dec_list (dec_ptr dec_route) v)
    else if key_is "dns" k then
      option_map (fun x => {| v4_version := v4_version r; v4_interfaces := v4_interfaces r; v4_ips := v4_ips r;
                              v4_routes := v4_routes r; v4_dns := x |})
                 (dec_dns (v4_dns r) v)
    else Some r)
    {| v4_version := ""; v4_interfaces := []; v4_ips := []; v4_routes := []; v4_dns := dns_zero |} j.

Definition dec_if100 (j : json) : option if100 :=
  decode_struct (fun i k v =>
    if key_is "name" k then
      option_map (fun x => {| if1_name := x; if1_mac := if1_mac i; if1_mtu := if1_mtu i;
                              if1_sandbox := if1_sandbox i; if1_socket := if1_socket i; if1_pci := if1_pci i |})
                 (dec_string (if1_name i) v)
    else if key_is "mac" k then
      option_map (fun x => {| if1_name := if1_name i; if1_mac := x; if1_mtu := if1_mtu i;
                              if1_sandbox := if1_sandbox i; if1_socket := if1_socket i; if1_pci := if1_pci i |})
                 (dec_string (if1_mac i) v)
    else if key_is "mtu" k then
      option_map (fun x => {| if1_name := if1_name i; if1_mac := if1_mac i; if1_mtu := x;
                              if1_sandbox := if1_sandbox i; if1_socket := if1_socket i; if1_pci := if1_pci i |})
                 (dec_int (if1_mtu i) v)
    else if key_is "sandbox" k then
      option_map (fun x => {| if1_name := if1_name i; if1_mac := if1_mac i; if1_mtu := if1_mtu i;
                              if1_sandbox := x; if1_socket := if1_socket i; if1_pci := if1_pci i |})
                 (dec_string (if1_sandbox i) v)
    else if key_is "socketPath" k then
      option_map (fun x => {| if1_name := if1_name i; if1_mac := if1_mac i; if1_mtu := if1_mtu i;
                              if1_sandbox := if1_sandbox i; if1_socket := x; if1_pci := if1_pci i |})
                 (dec_string (if1_socket i) v)
    else if key_is "pciID" k then
      option_map (fun x => {| if1_name := if1_name i; if1_mac := if1_mac i; if1_mtu := if1_mtu i;
                              if1_sandbox := if1_sandbox i; if1_socket := if1_socket i; if1_pci := x |})
                 (dec_string (if1_pci i) v)
    else Some i)
    {| if1_name := ""; if1_mac := ""; if1_mtu := 0; if1_sandbox := ""; if1_socket := ""; if1_pci := "" |} j.

(** types100.IPConfig.UnmarshalJSON (100:342-352). *)
Definition dec_ipc100 (j : json) : option ipc100 :=
  decode_struct (fun c k v =>
    if key_is "interface" k then
      option_map (fun x => {| i1_interface := x; i1_address := i1_address c; i1_gateway := i1_gateway c |})
                 (dec_ptr (dec_int 0%Z) v)
    else if key_is "address" k then
      option_map (fun x => {| i1_interface := i1_interface c; i1_address := x; i1_gateway := i1_gateway c |})
                 (dec_ipnet v)
    else if key_is "gateway" k then
      option_map (fun x => {| i1_interface := i1_interface c; i1_address := i1_address c; i1_gateway := x |})
                 (dec_ip v)
    else Some c)
    {| i1_interface := None; i1_address := ipnet_zero; i1_gateway := [] |} j.

(** json.Unmarshal into types100.Result. *)
Definition dec_res100 (j : json) : option res100 :=
  decode_struct (fun r k v =>
    if key_is "cniVersion" k then
      option_map (fun x => {| v1_version := x; v1_interfaces := v1_interfaces r; v1_ips := v1_ips r;
                              v1_routes := v1_routes r; v1_dns := v1_dns r |})
                 (dec_string (v1_version r) v)
    else if key_is "interfaces" k then
      option_map (fun x => {| v1_version := v1_version r; v1_interfaces := x; v1_ips := v1_ips r;
                              v1_routes := v1_routes r; v1_dns := v1_dns r |})
                 (dec_list (dec_ptr dec_if100) v)
    else if key_is "ips" k then
      option_map (fun x => {| v1_version := v1_version r; v1_interfaces := v1_interfaces r; v1_ips := x;
                              v1_routes := v1_routes r; v1_dns := v1_dns r |})
                 (dec_list (dec_ptr dec_ipc100) v)
    else if key_is "routes" k then
      option_map (fun x => {| v1_version := v1_version r; v1_interfaces := v1_interfaces r; v1_ips := v1_ips r;
                              v1_routes := x; v1_dns := v1_dns r |})
                 (dec_list (dec_ptr dec_route) v)
    else if key_is "dns" k then
      option_map (fun x => {| v1_version := v1_version r; v1_interfaces := v1_interfaces r; v1_ips := v1_ips r;
                              v1_routes := v1_routes r; v1_dns := x |})
                 (dec_dns (v1_dns r) v)
    else Some r)
    {| v1_version := ""; v1_interfaces := []; v1_ips := []; v1_routes := []; v1_dns := dns_zero |} j.

(** ** Creators (pkg/types/internal/create.go, pkg/types/create/create.go) *)

Definition supported020 : list string := [""; "0.1.0"; "0.2.0"].   (* 020/types.go:30 *)
Definition supported040 : list string := ["0.3.0"; "0.3.1"; "0.4.0"].   (* 040/types.go:31 *)
Definition supported100 : list string := ["1.0.0"; "1.1.0"].   (* 100/types.go:32 *)

Definition unsupported : goerr := EMsg "result type does not support the unmarshalled CNIVersion".

(** types020.NewResult (020:45-60). *)
Definition new_result020 (data : string) : res result :=
  match obind (parse data) dec_res020 with
  | None => Err (EJson "unmarshal result")
  | Some r =>
      if mem_str (v2_version r) supported020 then
        Ok (if String.eqb (v2_version r) "" then set_version "0.1.0" (R020 r) else R020 r)
      else Err unsupported
  end.
(** types040.NewResult (040:51-63). *)
Definition new_result040 (data : string) : res result :=
  match obind (parse data) dec_res040 with
  | None => Err (EJson "unmarshal result")
  | Some r => if mem_str (v4_version r) supported040 then Ok (R040 r) else Err unsupported
  end.
(** types100.NewResult (100:55-67). *)
Definition new_result100 (data : string) : res result :=
  match obind (parse data) dec_res100 with
  | None => Err (EJson "unmarshal result")
  | Some r => if mem_str (v1_version r) supported100 then Ok (R100 r) else Err unsupported
  end.

Definition creator : Type := list string * (string -> res result).

(** findCreator (internal/create.go:33-42). *)
Fixpoint find_creator (l : list creator) (version : string) : option creator :=
  match l with
  | [] => None
  | c :: l' => if mem_str version (fst c) then Some c else find_creator l' version
  end.

(** RegisterCreator (internal/create.go:55-66): None is the panic on a duplicate. *)
Definition register_creator (l : option (list creator)) (c : creator) : option (list creator) :=
  match l with
  | None => None
  | Some l => if existsb (fun v => match find_creator l v with Some _ => true | None => false end) (fst c)
              then None else Some (l ++ [c])%list
  end.

(** The package init functions (020:38, 040:48, 100:52), in import order. *)
Definition registered_creators : option (list creator) :=
  fold_left register_creator
    [(supported020, new_result020); (supported040, new_result040); (supported100, new_result100)]
    (Some []).
Definition creators : list creator :=
  match registered_creators with Some l => l | None => [] end.

(** convert.Create (internal/create.go:46-51) = create.Create = version.NewResult. *)
Definition create (version : string) (bytes : string) : res result :=
  match find_creator creators version with
  | Some c => snd c bytes
  | None => Err (EMsg ("unsupported CNI result version " ++ quote version))
  end.

(** create.DecodeVersion (create/create.go:30-42) = ConfigDecoder.Decode. *)
Definition dec_cni_version (j : json) : option string :=
  decode_struct (fun v k x => if key_is "cniVersion" k then dec_string v x else Some v) "" j.
Definition decode_version (jsonBytes : string) : res string :=
  match obind (parse jsonBytes) dec_cni_version with
  | None => Err (EWrap "decoding version from network config" (EJson "unmarshal"))
  | Some v => Ok (if String.eqb v "" then "0.1.0" else v)
  end.

(** create.CreateFromBytes (create/create.go:53-59). *)
Definition create_from_bytes (bytes : string) : res result :=
  let! v := decode_version bytes in create v bytes.

(** ** Converters (pkg/types/internal/convert.go and the init functions) *)

Inductive convfn :=
| CFrom010 | CTo010                                  (* pkg/types/020 *)
| C040From02x | C040Internal | C040To02x             (* pkg/types/040 *)
| C100From02x | C100From04x | C100From100 | C100To04x | C100To02x.   (* pkg/types/100 *)

Record converter := { c_from : string; c_tos : list string; c_fn : convfn }.

(** findConverter (internal/convert.go:40-51). *)
Fixpoint find_converter (l : list converter) (fromVersion toVersion : string) : option converter :=
  match l with
  | [] => None
  | c :: l' =>
      if String.eqb (c_from c) fromVersion && mem_str toVersion (c_tos c) then Some c
      else find_converter l' fromVersion toVersion
  end.

(** RegisterConverter (internal/convert.go:78-92): None is the panic. *)
Definition register_converter (l : option (list converter)) (c : converter) : option (list converter) :=
  match l with
  | None => None
  | Some l =>
      if existsb (fun v => match find_converter l (c_from c) v with Some _ => true | None => false end)
                 (c_tos c)
      then None else Some (l ++ [c])%list
  end.

Definition conv_table : list converter :=
  [ (* 020/types.go:34-35 *)
    {| c_from := "0.1.0"; c_tos := ["0.2.0"]; c_fn := CFrom010 |};
    {| c_from := "0.2.0"; c_tos := ["0.1.0"]; c_fn := CTo010 |};
    (* 040/types.go:36-45 *)
    {| c_from := "0.1.0"; c_tos := supported040; c_fn := C040From02x |};
    {| c_from := "0.2.0"; c_tos := supported040; c_fn := C040From02x |};
    {| c_from := "0.3.0"; c_tos := supported040; c_fn := C040Internal |};
    {| c_from := "0.3.1"; c_tos := supported040; c_fn := C040Internal |};
    {| c_from := "0.4.0"; c_tos := ["0.3.0"; "0.3.1"]; c_fn := C040Internal |};
    {| c_from := "0.4.0"; c_tos := ["0.1.0"; "0.2.0"]; c_fn := C040To02x |};
    {| c_from := "0.3.1"; c_tos := ["0.1.0"; "0.2.0"]; c_fn := C040To02x |};
    {| c_from := "0.3.0"; c_tos := ["0.1.0"; "0.2.0"]; c_fn := C040To02x |};
    (* 100/types.go:37-49 *)
    {| c_from := "0.1.0"; c_tos := supported100; c_fn := C100From02x |};
    {| c_from := "0.2.0"; c_tos := supported100; c_fn := C100From02x |};
    {| c_from := "0.3.0"; c_tos := supported100; c_fn := C100From04x |};
    {| c_from := "0.3.1"; c_tos := supported100; c_fn := C100From04x |};
    {| c_from := "0.4.0"; c_tos := supported100; c_fn := C100From04x |};
    {| c_from := "1.0.0"; c_tos := ["1.1.0"]; c_fn := C100From100 |};
    {| c_from := "1.0.0"; c_tos := ["0.3.0"; "0.3.1"; "0.4.0"]; c_fn := C100To04x |};
    {| c_from := "1.0.0"; c_tos := ["0.1.0"; "0.2.0"]; c_fn := C100To02x |};
    {| c_from := "1.1.0"; c_tos := ["0.3.0"; "0.3.1"; "0.4.0"]; c_fn := C100To04x |};
    {| c_from := "1.1.0"; c_tos := ["0.1.0"; "0.2.0"]; c_fn := C100To02x |};
    {| c_from := "1.1.0"; c_tos := ["1.0.0"]; c_fn := C100From100 |} ].

Definition registered_converters : option (list converter) :=
  fold_left register_converter conv_table (Some []).
Definition converters : list converter :=
  match registered_converters with Some l => l | None => [] end.

(** types020.IPConfig.Copy (020:143-157). *)
Definition ipc020_copy (c : ipc020) : ipc020 :=
  {| i2_ip := i2_ip c; i2_gateway := i2_gateway c; i2_routes := map route_copy (i2_routes c) |}.

(** convertFrom010 / convertTo010 (020:76-100). *)
Definition conv010 (only v : string) (r : result) (toVersion : string) : res result :=
  if negb (String.eqb toVersion only) then Panic
  else match r with
       | R020 r => Ok (R020 {| v2_version := v; v2_ip4 := option_map ipc020_copy (v2_ip4 r);
                               v2_ip6 := option_map ipc020_copy (v2_ip6 r); v2_dns := dns_copy (v2_dns r) |})
       | _ => Panic
       end.

(** convert020IPConfig (040:94-100). *)
Definition conv020_ipc (from : ipc020) (ipVersion : string) : ipc040 :=
  {| i4_version := ipVersion; i4_interface := None; i4_address := i2_ip from; i4_gateway := i2_gateway from |}.

(** types040.convertFrom02x (040:102-124). *)
Definition conv040_from02x (r : result) (toVersion : string) : res result :=
  match r with
  | R020 r =>
      let part c v := match c with
                      | Some c => ([Some (conv020_ipc c v)], map (fun x => Some (route_copy x)) (i2_routes c))
                      | None => ([], [])
                      end in
      let '(ips4, rt4) := part (v2_ip4 r) "4" in
      let '(ips6, rt6) := part (v2_ip6 r) "6" in
      Ok (R040 {| v4_version := toVersion; v4_interfaces := []; v4_ips := (ips4 ++ ips6)%list;
                  v4_routes := (rt4 ++ rt6)%list; v4_dns := dns_copy (v2_dns r) |})
  | _ => Panic
  end.

(** types040.convertInternal (040:126-143): Copy of a nil element is nil. *)
Definition conv040_internal (r : result) (toVersion : string) : res result :=
  match r with
  | R040 r =>
      Ok (R040 {| v4_version := toVersion; v4_interfaces := v4_interfaces r; v4_ips := v4_ips r;
                  v4_routes := map (option_map route_copy) (v4_routes r); v4_dns := dns_copy (v4_dns r) |})
  | _ => Panic
  end.

Definition is_some {A} (o : option A) : bool := match o with Some _ => true | None => false end.

(** The two loops of types040.convertTo02x (040:152-184).  A nil element dereferenced is a
    panic; the first loop stops once both families are found. *)
Fixpoint to02x_ips (l : list (option ipc040)) (ip4 ip6 : option ipc020) : res (option ipc020 * option ipc020) :=
  match l with
  | [] => Ok (ip4, ip6)
  | None :: _ => Panic
  | Some c :: l' =>
      let conv := {| i2_ip := i4_address c; i2_gateway := i4_gateway c; i2_routes := [] |} in
      let '(ip4', ip6') :=
        if String.eqb (i4_version c) "4" && negb (is_some ip4) then (Some conv, ip6)
        else if String.eqb (i4_version c) "6" && negb (is_some ip6) then (ip4, Some conv)
        else (ip4, ip6) in
      match ip4', ip6' with
      | Some _, Some _ => Ok (ip4', ip6')
      | _, _ => to02x_ips l' ip4' ip6'
      end
  end.

Definition add_route (c : ipc020) (r : route) : ipc020 :=
  {| i2_ip := i2_ip c; i2_gateway := i2_gateway c; i2_routes := (i2_routes c ++ [r])%list |}.

(** A route reduced to destination and gateway (040:174-182). *)
Definition short_route (r : route) : route :=
  {| r_dst := r_dst r; r_gw := r_gw r; r_mtu := 0; r_advmss := 0; r_priority := 0;
     r_table := None; r_scope := None |}.

Fixpoint to02x_routes (l : list (option route)) (ip4 ip6 : option ipc020) : res (option ipc020 * option ipc020) :=
  match l with
  | [] => Ok (ip4, ip6)
  | None :: _ => Panic
  | Some r :: l' =>
      if is4 (n_ip (r_dst r)) then
        match ip4 with
        | Some c => to02x_routes l' (Some (add_route c (short_route r))) ip6
        | None => to02x_routes l' ip4 ip6
        end
      else
        match ip6 with
        | Some c => to02x_routes l' ip4 (Some (add_route c (short_route r)))
        | None => to02x_routes l' ip4 ip6
        end
  end.

(** types040.convertTo02x (040:145-192). *)
Definition conv040_to02x (r : result) (toVersion : string) : res result :=
  match r with
  | R040 r =>
      let! (ip4, ip6) := to02x_ips (v4_ips r) None None in
      let! (ip4, ip6) := to02x_routes (v4_routes r) ip4 ip6 in
      match ip4, ip6 with
      | None, None => Err (EMsg "cannot convert: no valid IP addresses")
      | _, _ => Ok (R020 {| v2_version := toVersion; v2_ip4 := ip4; v2_ip6 := ip6;
                            v2_dns := dns_copy (v4_dns r) |})
      end
  | _ => Panic
  end.

(** A loop applying a function that dereferences each element: nil panics. *)
Fixpoint map_deref {A B} (f : A -> B) (l : list (option A)) : res (list (option B)) :=
  match l with
  | [] => Ok []
  | None :: _ => Panic
  | Some a :: l' => let! l'' := map_deref f l' in Ok (Some (f a) :: l'')
  end.

(** convertInterfaceFrom040, convertIPConfigFrom040 (100:147-165). *)
Definition conv_if_from040 (i : if040) : if100 :=
  {| if1_name := if4_name i; if1_mac := if4_mac i; if1_mtu := 0; if1_sandbox := if4_sandbox i;
     if1_socket := ""; if1_pci := "" |}.
Definition conv_ipc_from040 (c : ipc040) : ipc100 :=
  {| i1_interface := i4_interface c; i1_address := i4_address c; i1_gateway := i4_gateway c |}.

(** types100.convertFrom04x (100:167-184). *)
Definition conv100_from04x (r : result) (toVersion : string) : res result :=
  match r with
  | R040 r =>
      let! ifs := map_deref conv_if_from040 (v4_interfaces r) in
      let! ips := map_deref conv_ipc_from040 (v4_ips r) in
      Ok (R100 {| v1_version := toVersion; v1_interfaces := ifs; v1_ips := ips;
                  v1_routes := map (option_map route_copy) (v4_routes r); v1_dns := dns_copy (v4_dns r) |})
  | _ => Panic
  end.

(** convertInterfaceTo040, convertIPConfigTo040 (100:186-209). *)
Definition conv_if_to040 (i : if100) : if040 :=
  {| if4_name := if1_name i; if4_mac := if1_mac i; if4_sandbox := if1_sandbox i |}.
Definition conv_ipc_to040 (c : ipc100) : ipc040 :=
  {| i4_version := if is4 (n_ip (i1_address c)) then "4" else "6";
     i4_interface := i1_interface c; i4_address := i1_address c; i4_gateway := i1_gateway c |}.

(** types100.convertTo04x (100:211-228). *)
Definition conv100_to04x (r : result) (toVersion : string) : res result :=
  match r with
  | R100 r =>
      let! ifs := map_deref conv_if_to040 (v1_interfaces r) in
      let! ips := map_deref conv_ipc_to040 (v1_ips r) in
      Ok (R040 {| v4_version := toVersion; v4_interfaces := ifs; v4_ips := ips;
                  v4_routes := map (option_map route_copy) (v1_routes r); v4_dns := dns_copy (v1_dns r) |})
  | _ => Panic
  end.

(** types100.convertFrom100 (100:122-133). *)
Definition conv100_from100 (r : result) (toVersion : string) : res result :=
  match r with
  | R100 r =>
      Ok (R100 {| v1_version := toVersion; v1_interfaces := v1_interfaces r; v1_ips := v1_ips r;
                  v1_routes := v1_routes r; v1_dns := v1_dns r |})
  | _ => Panic
  end.

(** convert.Convert (internal/convert.go:55-74) and the two converters that call it back
    (100:135-145, 230-241).  The recursion is at most two deep; running out of [fuel] would be
    unbounded recursion (Panic). *)
Fixpoint convert_fuel (fuel : nat) (from : result) (toVersion : string) : res result :=
  match fuel with
  | O => Panic
  | S f =>
      let toVersion := if String.eqb toVersion "" then "0.1.0" else toVersion in
      if String.eqb (result_version from) toVersion then Ok from
      else
        match find_converter converters (result_version from) toVersion with
        | None => Err (EMsg ("no converter for CNI result version " ++ result_version from ++
                             " to " ++ toVersion))
        | Some c =>
            match c_fn c with
            | CFrom010 => conv010 "0.2.0" "0.2.0" from toVersion
            | CTo010 => conv010 "0.1.0" "0.1.0" from toVersion
            | C040From02x => conv040_from02x from toVersion
            | C040Internal => conv040_internal from toVersion
            | C040To02x => conv040_to02x from toVersion
            | C100From100 => conv100_from100 from toVersion
            | C100From04x => conv100_from04x from toVersion
            | C100To04x => conv100_to04x from toVersion
            | C100From02x =>
                let! r := convert_fuel f from "0.4.0" in conv100_from04x r toVersion
            | C100To02x =>
                let! r := conv100_to04x from "0.4.0" in convert_fuel f r toVersion
            end
        end
  end.
Definition convert (from : result) (toVersion : string) : res result := convert_fuel 3 from toVersion.

(** ImplementedSpecVersion of each package. *)
Definition implemented_version (r : result) : string :=
  match r with R020 _ => "0.2.0" | R040 _ => "0.4.0" | R100 _ => "1.1.0" end.

(** Result.GetAsVersion (020:114-121, 040:198-205, 100:247-254). *)
Definition get_as_version (r : result) (version : string) : res result :=
  let r := if String.eqb (result_version r) "" then set_version (implemented_version r) r else r in
  convert r version.

(** types.PrintResult (types.go:144-150): the bytes written to stdout. *)
Definition print_result (r : result) (version : string) : res string :=
  let! r' := get_as_version r version in result_print r'.
