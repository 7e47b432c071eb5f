(** Results as Go objects: what the converters allocate, copy and share.  The values are those of
    Model/Types.v; here they live in a heap of cells reached through pointers and slices.
    Modelled files: pkg/types/{020,040,100}/types.go, pkg/types/types.go, pkg/types/internal/convert.go.
    Simplifications: a slice is nil or the whole of its backing array (no sub-slices, no spare
    capacity); the arrays and structs of a new result that nothing else can see until it is
    returned are allocated once they are complete. *)
From Coq Require Import String List Bool Arith NArith ZArith.
From Verif Require Import Model.GoStr Model.Errors Model.NetIP Model.Types.
Import ListNotations.
Open Scope string_scope.

Definition loc : Type := nat.
(** A slice: nil, or a backing array. *)
Definition slice : Type := option loc.
(** A pointer to an int or a struct, perhaps nil. *)
Definition ptr : Type := option loc.

(** net.IPNet: two byte slices. *)
Record hnet := { hn_ip : slice; hn_mask : slice }.
(** types.DNS (types.go:152-158). *)
Record hdns := { hd_nameservers : slice; hd_domain : string; hd_search : slice; hd_options : slice }.
(** types.Route (types.go:180-188). *)
Record hroute := {
  hr_dst : hnet; hr_gw : slice; hr_mtu : Z; hr_advmss : Z; hr_priority : Z; hr_table : ptr; hr_scope : ptr
}.
(** types020.IPConfig (020:137-141): its routes are a []types.Route. *)
Record hipc2 := { h2_ip : hnet; h2_gateway : slice; h2_routes : slice }.
(** types040.IPConfig (040:246-253), types100.IPConfig (100:298-303). *)
Record hipc4 := { h4_version : string; h4_interface : ptr; h4_address : hnet; h4_gateway : slice }.
Record hipc1 := { h1_interface : ptr; h1_address : hnet; h1_gateway : slice }.
(** types020.Result (020:103-108). *)
Record hres2 := { hv2_version : string; hv2_ip4 : ptr; hv2_ip6 : ptr; hv2_dns : hdns }.
(** types040.Result (040:86-92) and types100.Result (100:90-96): slices of pointers. *)
Record hres := { hv_version : string; hv_interfaces : slice; hv_ips : slice; hv_routes : slice; hv_dns : hdns }.

(** What a location holds: an array, an int or a struct. *)
Inductive cell :=
| CBytes (b : list N)                 (* net.IP, net.IPMask *)
| CStrs (l : list string)             (* []string *)
| CInt (z : Z)
| CPtrs (l : list ptr)                (* []*Interface, []*IPConfig, []*types.Route *)
| CRoutes (l : list hroute)           (* []types.Route *)
| CRoute (r : hroute)
| CIf4 (i : if040)
| CIf1 (i : if100)
| CIpc2 (c : hipc2)
| CIpc4 (c : hipc4)
| CIpc1 (c : hipc1)
| CRes2 (r : hres2)
| CRes4 (r : hres)
| CRes1 (r : hres).
Definition heap : Type := list cell.

(** ** Reading a value out of the heap
    A reader also reports the cells it went through: those of its own, and apart from them the
    byte arrays of addresses. *)
Definition reader (A : Type) : Type := heap -> option (A * list loc * list loc).
Definition rret {A} (a : A) : reader A := fun _ => Some (a, [], []).
Definition rfail {A} : reader A := fun _ => None.
Definition rthen {A B} (m : reader A) (f : A -> reader B) : reader B :=
  fun h => match m h with
           | None => None
           | Some (a, o, d) =>
               match f a h with
               | None => None
               | Some (b, o', d') => Some (b, (o ++ o')%list, (d ++ d')%list)
               end
           end.
Definition is_bytes (c : cell) : bool := match c with CBytes _ => true | _ => false end.
Definition look (l : loc) : reader cell :=
  fun h => match nth_error h l with
           | Some c => if is_bytes c then None else Some (c, [l], [])
           | None => None
           end.
Definition look_bytes (l : loc) : reader (list N) :=
  fun h => match nth_error h l with Some (CBytes b) => Some (b, [], [l]) | _ => None end.
Notation "'read' x := m 'in' n" := (rthen m (fun x => n)) (at level 200, x pattern, right associativity).

Fixpoint rd_list {A B} (f : A -> reader B) (l : list A) : reader (list B) :=
  match l with
  | [] => rret []
  | a :: l' => read b := f a in read bs := rd_list f l' in rret (b :: bs)
  end.
Definition rd_bytes (s : slice) : reader (list N) :=
  match s with None => rret [] | Some l => look_bytes l end.
Definition rd_net (n : hnet) : reader ipnet :=
  read i := rd_bytes (hn_ip n) in read m := rd_bytes (hn_mask n) in rret {| n_ip := i; n_mask := m |}.
Definition rd_strs (s : slice) : reader (list string) :=
  match s with
  | None => rret []
  | Some l => read c := look l in match c with CStrs x => rret x | _ => rfail end
  end.
Definition rd_int (p : ptr) : reader (option Z) :=
  match p with
  | None => rret None
  | Some l => read c := look l in match c with CInt z => rret (Some z) | _ => rfail end
  end.
Definition rd_dns (d : hdns) : reader dns :=
  read n := rd_strs (hd_nameservers d) in read s := rd_strs (hd_search d) in read o := rd_strs (hd_options d) in
  rret {| d_nameservers := n; d_domain := hd_domain d; d_search := s; d_options := o |}.
Definition rd_route (r : hroute) : reader route :=
  read d := rd_net (hr_dst r) in read g := rd_bytes (hr_gw r) in read t := rd_int (hr_table r) in read s := rd_int (hr_scope r) in
  rret {| r_dst := d; r_gw := g; r_mtu := hr_mtu r; r_advmss := hr_advmss r; r_priority := hr_priority r; r_table := t; r_scope := s |}.
(** A pointer: nil or what is there. *)
Definition rd_ptr {A} (f : loc -> reader A) (p : ptr) : reader (option A) :=
  match p with None => rret None | Some l => read a := f l in rret (Some a) end.
(** A slice of pointers. *)
Definition rd_ptrs {A} (f : loc -> reader A) (s : slice) : reader (list (option A)) :=
  match s with
  | None => rret []
  | Some l => read c := look l in match c with CPtrs x => rd_list (rd_ptr f) x | _ => rfail end
  end.
Definition rd_route_at (l : loc) : reader route :=
  read c := look l in match c with CRoute r => rd_route r | _ => rfail end.
Definition rd_routes (s : slice) : reader (list route) :=
  match s with
  | None => rret []
  | Some l => read c := look l in match c with CRoutes x => rd_list rd_route x | _ => rfail end
  end.
Definition rd_if4 (l : loc) : reader if040 := read c := look l in match c with CIf4 i => rret i | _ => rfail end.
Definition rd_if1 (l : loc) : reader if100 := read c := look l in match c with CIf1 i => rret i | _ => rfail end.
Definition rd_ipc2 (l : loc) : reader ipc020 :=
  read c := look l in
  match c with
  | CIpc2 c => read i := rd_net (h2_ip c) in read g := rd_bytes (h2_gateway c) in read rs := rd_routes (h2_routes c) in
      rret {| i2_ip := i; i2_gateway := g; i2_routes := rs |}
  | _ => rfail
  end.
Definition rd_ipc4 (l : loc) : reader ipc040 :=
  read c := look l in
  match c with
  | CIpc4 c => read n := rd_int (h4_interface c) in read a := rd_net (h4_address c) in read g := rd_bytes (h4_gateway c) in
      rret {| i4_version := h4_version c; i4_interface := n; i4_address := a; i4_gateway := g |}
  | _ => rfail
  end.
Definition rd_ipc1 (l : loc) : reader ipc100 :=
  read c := look l in
  match c with
  | CIpc1 c => read n := rd_int (h1_interface c) in read a := rd_net (h1_address c) in read g := rd_bytes (h1_gateway c) in
      rret {| i1_interface := n; i1_address := a; i1_gateway := g |}
  | _ => rfail
  end.
Definition rd_res2 (r : hres2) : reader res020 :=
  read a := rd_ptr rd_ipc2 (hv2_ip4 r) in read b := rd_ptr rd_ipc2 (hv2_ip6 r) in read d := rd_dns (hv2_dns r) in
  rret {| v2_version := hv2_version r; v2_ip4 := a; v2_ip6 := b; v2_dns := d |}.
Definition rd_res4 (r : hres) : reader res040 :=
  read i := rd_ptrs rd_if4 (hv_interfaces r) in read p := rd_ptrs rd_ipc4 (hv_ips r) in
  read q := rd_ptrs rd_route_at (hv_routes r) in read d := rd_dns (hv_dns r) in
  rret {| v4_version := hv_version r; v4_interfaces := i; v4_ips := p; v4_routes := q; v4_dns := d |}.
Definition rd_res1 (r : hres) : reader res100 :=
  read i := rd_ptrs rd_if1 (hv_interfaces r) in read p := rd_ptrs rd_ipc1 (hv_ips r) in
  read q := rd_ptrs rd_route_at (hv_routes r) in read d := rd_dns (hv_dns r) in
  rret {| v1_version := hv_version r; v1_interfaces := i; v1_ips := p; v1_routes := q; v1_dns := d |}.
(** types.Result: a pointer to one of the three structs. *)
Definition rd_result (p : loc) : reader result :=
  read c := look p in
  match c with
  | CRes2 r => read x := rd_res2 r in rret (R020 x)
  | CRes4 r => read x := rd_res4 r in rret (R040 x)
  | CRes1 r => read x := rd_res1 r in rret (R100 x)
  | _ => rfail
  end.

(** ** Code that runs on the heap *)
Definition hm (A : Type) : Type := heap -> res (heap * A).
Definition hret {A} (a : A) : hm A := fun h => Ok (h, a).
Definition hfail {A} (e : goerr) : hm A := fun _ => Err e.
Definition hpanic {A} : hm A := fun _ => Panic.
Definition hthen {A B} (m : hm A) (f : A -> hm B) : hm B :=
  fun h => match m h with Ok (h', a) => f a h' | Err e => Err e | Panic => Panic end.
Notation "'run' x := m 'in' n" := (hthen m (fun x => n)) (at level 200, x pattern, right associativity).
Definition load (l : loc) : hm cell :=
  fun h => match nth_error h l with Some c => Ok (h, c) | None => Panic end.
Definition alloc (c : cell) : hm loc := fun h => Ok ((h ++ [c])%list, List.length h).
Fixpoint upd {A} (n : nat) (x : A) (l : list A) : list A :=
  match n, l with
  | O, _ :: l' => x :: l'
  | S n', y :: l' => y :: upd n' x l'
  | _, [] => []
  end.
Definition store (l : loc) (c : cell) : hm unit := fun h => Ok (upd l c h, tt).
Fixpoint hmap {A B} (f : A -> hm B) (l : list A) : hm (list B) :=
  match l with
  | [] => hret []
  | a :: l' => run b := f a in run bs := hmap f l' in hret (b :: bs)
  end.

(** *** Copies *)
(** table := *r.Table; route.Table = &table (types.go:218-226); the same for IPConfig.Interface. *)
Definition copy_int (p : ptr) : hm ptr :=
  match p with
  | None => hret None
  | Some l => run c := load l in match c with CInt z => run l' := alloc (CInt z) in hret (Some l') | _ => hpanic end
  end.
(** append(nil, s...): a new array, nil if there is nothing to append (types.go:174-176). *)
Definition copy_strs (s : slice) : hm slice :=
  match s with
  | None => hret None
  | Some l =>
      run c := load l in
      match c with
      | CStrs [] => hret None
      | CStrs x => run l' := alloc (CStrs x) in hret (Some l')
      | _ => hpanic
      end
  end.
(** DNS.Copy (types.go:168-178). *)
Definition copy_dns (d : hdns) : hm hdns :=
  run n := copy_strs (hd_nameservers d) in run s := copy_strs (hd_search d) in run o := copy_strs (hd_options d) in
  hret {| hd_nameservers := n; hd_domain := hd_domain d; hd_search := s; hd_options := o |}.
(** Route.Copy (types.go:204-229): the struct; destination and gateway are the same slices. *)
Definition copy_route (r : hroute) : hm hroute :=
  run t := copy_int (hr_table r) in run s := copy_int (hr_scope r) in
  hret {| hr_dst := hr_dst r; hr_gw := hr_gw r; hr_mtu := hr_mtu r; hr_advmss := hr_advmss r; hr_priority := hr_priority r;
          hr_table := t; hr_scope := s |}.
Definition copy_route_at (l : loc) : hm loc :=
  run c := load l in match c with CRoute r => run r' := copy_route r in alloc (CRoute r') | _ => hpanic end.
(** A method with a nil check, on a pointer. *)
Definition if_not_nil (f : loc -> hm loc) (p : ptr) : hm ptr :=
  match p with None => hret None | Some l => run l' := f l in hret (Some l') end.
(** A function that dereferences its argument. *)
Definition deref (f : loc -> hm loc) (p : ptr) : hm ptr :=
  match p with None => hpanic | Some l => run l' := f l in hret (Some l') end.
(** The array of a slice; that of a nil slice is empty. *)
Definition ptrs_of (s : slice) : hm (list ptr) :=
  match s with
  | None => hret []
  | Some l => run c := load l in match c with CPtrs x => hret x | _ => hpanic end
  end.
(** The slice that appending these to nil gives. *)
Definition slice_of (l : list ptr) : hm slice :=
  match l with [] => hret None | _ => run a := alloc (CPtrs l) in hret (Some a) end.
(** The slice that appending these to an empty one gives ([]*types.Route{}). *)
Definition slice_some (l : list ptr) : hm slice := run a := alloc (CPtrs l) in hret (Some a).
(** for _, from := range s { to = append(to, f(from)) } *)
Definition convert_slice (f : ptr -> hm ptr) (s : slice) : hm slice :=
  run l := ptrs_of s in run l' := hmap f l in slice_of l'.
Definition copy_routes (s : slice) : hm slice :=
  run l := ptrs_of s in run l' := hmap (if_not_nil copy_route_at) l in slice_some l'.

(** *** pkg/types/020 *)
(** []types.Route of an IPConfig. *)
Definition routes_of (s : slice) : hm (list hroute) :=
  match s with
  | None => hret []
  | Some l => run c := load l in match c with CRoutes x => hret x | _ => hpanic end
  end.
Definition routes_slice (l : list hroute) : hm slice :=
  match l with [] => hret None | _ => run a := alloc (CRoutes l) in hret (Some a) end.
(** IPConfig.Copy (020:143-157). *)
Definition copy_ipc2_at (l : loc) : hm loc :=
  run c := load l in
  match c with
  | CIpc2 c =>
      run rs := routes_of (h2_routes c) in run rs' := hmap copy_route rs in run s := routes_slice rs' in
      alloc (CIpc2 {| h2_ip := h2_ip c; h2_gateway := h2_gateway c; h2_routes := s |})
  | _ => hpanic
  end.
(** convertFrom010, convertTo010 (020:76-100). *)
Definition hconv010 (only v : string) (p : loc) (toVersion : string) : hm loc :=
  if negb (String.eqb toVersion only) then hpanic
  else run c := load p in
       match c with
       | CRes2 r =>
           run a := if_not_nil copy_ipc2_at (hv2_ip4 r) in run b := if_not_nil copy_ipc2_at (hv2_ip6 r) in
           run d := copy_dns (hv2_dns r) in
           alloc (CRes2 {| hv2_version := v; hv2_ip4 := a; hv2_ip6 := b; hv2_dns := d |})
       | _ => hpanic
       end.

(** *** pkg/types/040 *)
(** convert020IPConfig (040:94-100). *)
Definition hconv020_ipc (c : hipc2) (ipVersion : string) : hm loc :=
  alloc (CIpc4 {| h4_version := ipVersion; h4_interface := None; h4_address := h2_ip c; h4_gateway := h2_gateway c |}).
(** One family of convertFrom02x (040:109-121). *)
Definition hfamily (p : ptr) (ipVersion : string) : hm (list ptr * list ptr) :=
  match p with
  | None => hret ([], [])
  | Some l =>
      run c := load l in
      match c with
      | CIpc2 c =>
          run i := hconv020_ipc c ipVersion in run rs := routes_of (h2_routes c) in
          run rs' := hmap (fun r => run r' := copy_route r in run a := alloc (CRoute r') in hret (Some a)) rs in
          hret ([Some i], rs')
      | _ => hpanic
      end
  end.
(** convertFrom02x (040:102-124). *)
Definition hconv040_from02x (p : loc) (toVersion : string) : hm loc :=
  run c := load p in
  match c with
  | CRes2 r =>
      run d := copy_dns (hv2_dns r) in
      run (ips4, rt4) := hfamily (hv2_ip4 r) "4" in run (ips6, rt6) := hfamily (hv2_ip6 r) "6" in
      run i := slice_of (ips4 ++ ips6)%list in run q := slice_some (rt4 ++ rt6)%list in
      alloc (CRes4 {| hv_version := toVersion; hv_interfaces := None; hv_ips := i; hv_routes := q; hv_dns := d |})
  | _ => hpanic
  end.
(** Interface.Copy, IPConfig.Copy (040:231-237,259-274). *)
Definition copy_if4_at (l : loc) : hm loc :=
  run c := load l in match c with CIf4 i => alloc (CIf4 i) | _ => hpanic end.
Definition copy_ipc4_at (l : loc) : hm loc :=
  run c := load l in
  match c with
  | CIpc4 c => run n := copy_int (h4_interface c) in
      alloc (CIpc4 {| h4_version := h4_version c; h4_interface := n; h4_address := h4_address c; h4_gateway := h4_gateway c |})
  | _ => hpanic
  end.
(** convertInternal (040:126-143). *)
Definition hconv040_internal (p : loc) (toVersion : string) : hm loc :=
  run c := load p in
  match c with
  | CRes4 r =>
      run d := copy_dns (hv_dns r) in
      run i := convert_slice (if_not_nil copy_if4_at) (hv_interfaces r) in
      run a := convert_slice (if_not_nil copy_ipc4_at) (hv_ips r) in
      run q := copy_routes (hv_routes r) in
      alloc (CRes4 {| hv_version := toVersion; hv_interfaces := i; hv_ips := a; hv_routes := q; hv_dns := d |})
  | _ => hpanic
  end.
(** The loops of convertTo02x (040:152-184). *)
Fixpoint hto02x_ips (l : list ptr) (ip4 ip6 : option hipc2) : hm (option hipc2 * option hipc2) :=
  match l with
  | [] => hret (ip4, ip6)
  | None :: _ => hpanic
  | Some p :: l' =>
      run x := load p in
      match x with
      | CIpc4 c =>
          let conv := {| h2_ip := h4_address c; h2_gateway := h4_gateway c; h2_routes := None |} in
          let '(ip4', ip6') :=
            if String.eqb (h4_version c) "4" && negb (is_some ip4) then (Some conv, ip6)
            else if String.eqb (h4_version c) "6" && negb (is_some ip6) then (ip4, Some conv)
            else (ip4, ip6) in
          match ip4', ip6' with
          | Some _, Some _ => hret (ip4', ip6')
          | _, _ => hto02x_ips l' ip4' ip6'
          end
      | _ => hpanic
      end
  end.
Definition bytes_of (s : slice) : hm (list N) :=
  match s with
  | None => hret []
  | Some l => run c := load l in match c with CBytes b => hret b | _ => hpanic end
  end.
Definition hshort_route (r : hroute) : hroute :=
  {| hr_dst := hr_dst r; hr_gw := hr_gw r; hr_mtu := 0; hr_advmss := 0; hr_priority := 0; hr_table := None; hr_scope := None |}.
(** The routes of each family, in order; [has4], [has6]: there is an IPConfig to add them to. *)
Fixpoint hto02x_routes (l : list ptr) (has4 has6 : bool) : hm (list hroute * list hroute) :=
  match l with
  | [] => hret ([], [])
  | None :: _ => hpanic
  | Some p :: l' =>
      run x := load p in
      match x with
      | CRoute r =>
          run b := bytes_of (hn_ip (hr_dst r)) in
          run (r4, r6) := hto02x_routes l' has4 has6 in
          hret (if is4 b then (if has4 then hshort_route r :: r4 else r4, r6)
                else (r4, if has6 then hshort_route r :: r6 else r6))
      | _ => hpanic
      end
  end.
Definition alloc_ipc2 (c : option hipc2) (rs : list hroute) : hm ptr :=
  match c with
  | None => hret None
  | Some c =>
      run s := routes_slice rs in
      run a := alloc (CIpc2 {| h2_ip := h2_ip c; h2_gateway := h2_gateway c; h2_routes := s |}) in hret (Some a)
  end.
(** convertTo02x (040:145-192). *)
Definition hconv040_to02x (p : loc) (toVersion : string) : hm loc :=
  run c := load p in
  match c with
  | CRes4 r =>
      run d := copy_dns (hv_dns r) in
      run ips := ptrs_of (hv_ips r) in run (c4, c6) := hto02x_ips ips None None in
      run rs := ptrs_of (hv_routes r) in run (r4, r6) := hto02x_routes rs (is_some c4) (is_some c6) in
      match c4, c6 with
      | None, None => hfail (EMsg "cannot convert: no valid IP addresses")
      | _, _ =>
          run a := alloc_ipc2 c4 r4 in run b := alloc_ipc2 c6 r6 in
          alloc (CRes2 {| hv2_version := toVersion; hv2_ip4 := a; hv2_ip6 := b; hv2_dns := d |})
      end
  | _ => hpanic
  end.

(** *** pkg/types/100 *)
(** convertInterfaceFrom040, convertIPConfigFrom040 (100:147-165). *)
Definition hconv_if_from040 (l : loc) : hm loc :=
  run c := load l in match c with CIf4 i => alloc (CIf1 (conv_if_from040 i)) | _ => hpanic end.
Definition hconv_ipc_from040 (l : loc) : hm loc :=
  run c := load l in
  match c with
  | CIpc4 c => run n := copy_int (h4_interface c) in
      alloc (CIpc1 {| h1_interface := n; h1_address := h4_address c; h1_gateway := h4_gateway c |})
  | _ => hpanic
  end.
(** convertFrom04x (100:167-184). *)
Definition hconv100_from04x (p : loc) (toVersion : string) : hm loc :=
  run c := load p in
  match c with
  | CRes4 r =>
      run d := copy_dns (hv_dns r) in
      run i := convert_slice (deref hconv_if_from040) (hv_interfaces r) in
      run a := convert_slice (deref hconv_ipc_from040) (hv_ips r) in
      run q := copy_routes (hv_routes r) in
      alloc (CRes1 {| hv_version := toVersion; hv_interfaces := i; hv_ips := a; hv_routes := q; hv_dns := d |})
  | _ => hpanic
  end.
(** convertInterfaceTo040, convertIPConfigTo040 (100:186-209). *)
Definition hconv_if_to040 (l : loc) : hm loc :=
  run c := load l in match c with CIf1 i => alloc (CIf4 (conv_if_to040 i)) | _ => hpanic end.
Definition hconv_ipc_to040 (l : loc) : hm loc :=
  run c := load l in
  match c with
  | CIpc1 c => run b := bytes_of (hn_ip (h1_address c)) in run n := copy_int (h1_interface c) in
      alloc (CIpc4 {| h4_version := if is4 b then "4" else "6"; h4_interface := n; h4_address := h1_address c; h4_gateway := h1_gateway c |})
  | _ => hpanic
  end.
(** convertTo04x (100:211-228). *)
Definition hconv100_to04x (p : loc) (toVersion : string) : hm loc :=
  run c := load p in
  match c with
  | CRes1 r =>
      run d := copy_dns (hv_dns r) in
      run i := convert_slice (deref hconv_if_to040) (hv_interfaces r) in
      run a := convert_slice (deref hconv_ipc_to040) (hv_ips r) in
      run q := copy_routes (hv_routes r) in
      alloc (CRes4 {| hv_version := toVersion; hv_interfaces := i; hv_ips := a; hv_routes := q; hv_dns := d |})
  | _ => hpanic
  end.
(** convertFrom100 (100:122-133): a new struct with the same slices. *)
Definition hconv100_from100 (p : loc) (toVersion : string) : hm loc :=
  run c := load p in
  match c with
  | CRes1 r => alloc (CRes1 {| hv_version := toVersion; hv_interfaces := hv_interfaces r; hv_ips := hv_ips r;
                               hv_routes := hv_routes r; hv_dns := hv_dns r |})
  | _ => hpanic
  end.

(** Result.Version (020:110, 040:194, 100:243). *)
Definition hversion (p : loc) : hm string :=
  run c := load p in
  match c with CRes2 r => hret (hv2_version r) | CRes4 r => hret (hv_version r) | CRes1 r => hret (hv_version r) | _ => hpanic end.
(** convert.Convert (internal/convert.go:55-74) and the two converters that call it back
    (100:135-145, 230-241); see [convert_fuel].  Same version: the same pointer. *)
Fixpoint hconvert_fuel (fuel : nat) (p : loc) (toVersion : string) : hm loc :=
  match fuel with
  | O => hpanic
  | S f =>
      let toVersion := if String.eqb toVersion "" then "0.1.0" else toVersion in
      run v := hversion p in
      if String.eqb v toVersion then hret p
      else
        match find_converter converters v toVersion with
        | None => hfail (EMsg ("no converter for CNI result version " ++ v ++ " to " ++ toVersion))
        | Some c =>
            match c_fn c with
            | CFrom010 => hconv010 "0.2.0" "0.2.0" p toVersion
            | CTo010 => hconv010 "0.1.0" "0.1.0" p toVersion
            | C040From02x => hconv040_from02x p toVersion
            | C040Internal => hconv040_internal p toVersion
            | C040To02x => hconv040_to02x p toVersion
            | C100From100 => hconv100_from100 p toVersion
            | C100From04x => hconv100_from04x p toVersion
            | C100To04x => hconv100_to04x p toVersion
            | C100From02x => run q := hconvert_fuel f p "0.4.0" in hconv100_from04x q toVersion
            | C100To02x => run q := hconv100_to04x p "0.4.0" in hconvert_fuel f q toVersion
            end
        end
  end.
Definition hconvert (p : loc) (toVersion : string) : hm loc := hconvert_fuel 3 p toVersion.
(** Result.GetAsVersion (020:114-121, 040:198-205, 100:247-254): it sets the receiver's version if
    that is empty. *)
Definition set_hversion (v : string) (c : cell) : cell :=
  match c with
  | CRes2 r => CRes2 {| hv2_version := v; hv2_ip4 := hv2_ip4 r; hv2_ip6 := hv2_ip6 r; hv2_dns := hv2_dns r |}
  | CRes4 r => CRes4 {| hv_version := v; hv_interfaces := hv_interfaces r; hv_ips := hv_ips r; hv_routes := hv_routes r; hv_dns := hv_dns r |}
  | CRes1 r => CRes1 {| hv_version := v; hv_interfaces := hv_interfaces r; hv_ips := hv_ips r; hv_routes := hv_routes r; hv_dns := hv_dns r |}
  | _ => c
  end.
Definition hget_as_version (p : loc) (version : string) : hm loc :=
  run v := hversion p in
  run _ := (if String.eqb v "" then
              run c := load p in
              store p (set_hversion (match c with CRes2 _ => "0.2.0" | CRes4 _ => "0.4.0" | _ => "1.1.0" end) c)
            else hret tt) in
  hconvert p version.
