(** The Exec of a CNIConfig that several goroutines share (libcni/api.go:127-153, 214-223).

    Everything else in this model takes the Exec for granted; here is the field it is kept in.  A Go
    interface value is two words, the type and the data pointer, and an assignment to it is two
    stores, which another goroutine may see one without the other.  Memory is sequentially
    consistent word by word (simplification: Go's memory model promises less for racing accesses). *)
From Coq Require Import List Arith Bool.
From Verif Require Import Model.Prog.
Import ListNotations.

(** The type word: nil, *invoke.DefaultExec, or a type of the caller. *)
Inductive exec_type := TypeNil | TypeDefault | TypeCaller (n : nat).
(** A data pointer; 0 is nil. *)
Definition pointer := nat.
(** The two words of CNIConfig.exec (api.go:127-131) and the next free address. *)
Record memory := { m_type : exec_type; m_data : pointer; m_next : pointer }.

(** What a goroutine does to the field.  [MUse] is a method call on the value it has loaded. *)
Inductive mprog :=
| MRet
| MLoadType (k : exec_type -> mprog)
| MLoadData (k : pointer -> mprog)
| MAlloc (k : pointer -> mprog)
| MStoreType (t : exec_type) (k : mprog)
| MStoreData (d : pointer) (k : mprog)
| MUse (t : exec_type) (d : pointer) (k : mprog).

(** The order of the two stores of an assignment is the compiler's choice. *)
Inductive order := TypeFirst | DataFirst.
(** c.exec = &invoke.DefaultExec{...} (api.go:217-220). *)
Definition assign (o : order) (d : pointer) (k : mprog) : mprog :=
  match o with
  | TypeFirst => MStoreType TypeDefault (MStoreData d k)
  | DataFirst => MStoreData d (MStoreType TypeDefault k)
  end.
(** ensureExec (api.go:215-223): comparing an interface with nil looks at the type word.  Its result
    is not used by any caller. *)
Definition ensure_exec (o : order) (k : mprog) : mprog :=
  MLoadType (fun t => match t with TypeNil => MAlloc (fun a => assign o a k) | _ => k end).
(** One mention of c.exec: both words are loaded and a method is called, here or in the function it
    is passed to (api.go:492, 511, 534, 544, 576, 586, 735, 743, 759, 764, 846, 852, 881, 887). *)
Definition mention (k : mprog) : mprog := MLoadType (fun t => MLoadData (fun d => MUse t d k)).
(** What addNetwork, checkNetwork, delNetwork, validatePlugin, GetVersionInfo, gcNetwork and
    getStatusNetwork (api.go:490-512, 532-545, 574-587, 733-753, 757-765, 844-853, 879-888) do to the
    field: make sure it is set, look for the plugin and, if it is found (and its configuration can
    be built), run it. *)
Definition one_plugin (o : order) (found : bool) (k : mprog) : mprog :=
  ensure_exec o (mention (if found then mention k else k)).
(** API calls, one after the other, with the plugins they deal with. *)
Fixpoint api_calls (o : order) (plugins : list bool) : mprog :=
  match plugins with [] => MRet | found :: l => one_plugin o found (api_calls o l) end.

(** One access and the use it makes, if any. *)
Inductive mstep : mprog -> memory -> list (exec_type * pointer) -> memory -> mprog -> Prop :=
| step_load_type k m : mstep (MLoadType k) m [] m (k (m_type m))
| step_load_data k m : mstep (MLoadData k) m [] m (k (m_data m))
| step_alloc k m : mstep (MAlloc k) m [] {| m_type := m_type m; m_data := m_data m; m_next := S (m_next m) |} (k (m_next m))
| step_store_type t k m : mstep (MStoreType t k) m [] {| m_type := t; m_data := m_data m; m_next := m_next m |} k
| step_store_data d k m : mstep (MStoreData d k) m [] {| m_type := m_type m; m_data := d; m_next := m_next m |} k
| step_use t d k m : mstep (MUse t d k) m [(t, d)] m k.
(** Goroutines taking turns, one access at a time. *)
Inductive shared : list mprog -> memory -> list (nat * (exec_type * pointer)) -> memory -> list mprog -> Prop :=
| shared_done ps m : shared ps m [] m ps
| shared_step ps m i p u m1 q uses m2 qs :
    nth_error ps i = Some p -> mstep p m u m1 q -> shared (set_nth i q ps) m1 uses m2 qs ->
    shared ps m (map (pair i) u ++ uses) m2 qs.

(** The field after NewCNIConfig (api.go:139-153), without and with an Exec. *)
Definition made_without : memory := {| m_type := TypeNil; m_data := 0; m_next := 1 |}.
Definition made_with (n : nat) (d : pointer) : memory := {| m_type := TypeCaller n; m_data := d; m_next := S d |}.
