(** The cache as a map from entries to what the latest ADD saved there. *)
From Coq Require Import String List Bool Arith NArith ZArith.
From Verif Require Import Model.GoStr Model.Errors Model.Version Model.Json Model.GoJson Model.Types Model.Conf Model.Invoke
  Model.Prog Model.Api Model.Path Spec.NameSpec Spec.VersionSpec Spec.JsonSpec Spec.ConfSpec Spec.TypesSpec Spec.PathSpec Spec.RunSpec Spec.CacheSpec Spec.HistSpec.
Import ListNotations.
Open Scope string_scope.

(** What a successful ADD saves: its result, the configuration's bytes, and for whom. *)
Record saved := { sv_result : option result; sv_config : string; sv_name : string; sv_rt : runtime_conf }.
Definition saves (a : action) (v : res value) : option saved :=
  match a, v with
  | AddList l rt, Ok (VResult r) => Some {| sv_result := r; sv_config := nl_bytes l; sv_name := nl_name l; sv_rt := rt |}
  | AddOne n rt, Ok (VResult r) => Some {| sv_result := r; sv_config := pg_bytes n; sv_name := pc_name (pg_conf n); sv_rt := rt |}
  | _, _ => None
  end.
Definition place (c : cni) (s : saved) : string := entry_path c (sv_name s) (sv_rt s).

(** Text JSON can carry, and capability arguments it can carry with numbers in float64's range. *)
Definition texts_ok (name : string) (rt : runtime_conf) : Prop :=
  well_formed_text name /\ well_formed_text (rt_container rt) /\ well_formed_text (rt_ifname rt) /\ well_formed_text (rt_netns rt) /\
  Forall (fun kv => well_formed_text (fst kv) /\ well_formed_text (snd kv)) (rt_args rt).
(** [caps_as rt m]: [m] is what the capability arguments are after a trip through JSON (the same if
    they are canonical, see C10). *)
Definition caps_as (rt : runtime_conf) (m : smap json) : Prop :=
  Forall (fun kj => well_formed_text (fst kj) /\ injectable (snd kj)) (rt_caps rt) /\ reencoded (enc_map (rt_caps rt)) (JObj m).
Definition carried (name : string) (rt : runtime_conf) : Prop := texts_ok name rt /\ exists m, caps_as rt m.

(** The answer to a query for the result at version [ver] when [r] was saved. *)
Definition presented (ver : string) (r : result) : res (option result) :=
  match get_as_version r ver with
  | Ok r' => Ok (Some r')
  | Err e => Err (EWrap ("failed to convert cached result to config version " ++ quote ver) e)
  | Panic => Panic
  end.
(** The answer to a query for the configuration, when [m] are the saved capability arguments:
    the saved bytes, CNI arguments and capability arguments in place of the query's. *)
Definition config_answer (config : string) (saved asked : runtime_conf) (m : smap json) : string * runtime_conf :=
  (config, {| rt_container := rt_container asked; rt_netns := rt_netns asked; rt_ifname := rt_ifname asked;
              rt_args := match rt_args saved with [] => rt_args asked | l => l end; rt_caps := m; rt_cache_dir := rt_cache_dir asked |}).

(** Runtime parameters that lead to the same entry. *)
Definition same_entry (c : cni) (rt rt' : runtime_conf) : Prop :=
  rt_container rt' = rt_container rt /\ rt_ifname rt' = rt_ifname rt /\ cache_root c rt' = cache_root c rt.

(** The attachment a listing shows for what was saved. *)
Definition shown (s : saved) (m : smap json) : attachment :=
  {| at_container := rt_container (sv_rt s); at_network := sv_name s; at_ifname := rt_ifname (sv_rt s); at_config := sv_config s;
     at_netns := rt_netns (sv_rt s); at_args := rt_args (sv_rt s); at_caps := m |}.
(** Garbage collection with these arguments is to remove it. *)
Definition collectable (l : network_list) (args : option gc_args) (s : saved) : Prop :=
  sv_name s = nl_name l /\
  forall valid, args = Some (Some valid) -> ~ In {| ga_container := rt_container (sv_rt s); ga_ifname := rt_ifname (sv_rt s) |} valid.

(** How the map changes with one operation that returned [v]. *)
Definition cache_map : Type := string -> option saved.
Definition moves (c : cni) (a : action) (v : res value) (m m' : cache_map) : Prop :=
  match saves a v with
  (* a successful ADD replaces the entry *)
  | Some s => m' (place c s) = Some s /\ forall p, p <> place c s -> m' p = m p
  | None =>
      match a with
      (* a successful DEL removes it; a failed one leaves it, unless (DelNetworkList only) its
         version cannot present what was saved *)
      | DelList l rt =>
          (is_ok v = true -> forall p, at_entry c a p -> m' p = None) /\
          (forall p, ~ at_entry c a p -> m' p = m p) /\
          (is_ok v = false -> forall p, m' p = m p \/
             (m' p = None /\ at_least (nl_version l) (0, 4, 0)%Z /\
              forall s r, m p = Some s -> sv_result s = Some r -> wf_result exact prefix_form r ->
                exists e, get_as_version r (nl_version l) = Err e))
      | DelOne n rt =>
          (is_ok v = true -> forall p, at_entry c a p -> m' p = None) /\
          (forall p, ~ at_entry c a p -> m' p = m p) /\
          (is_ok v = false -> forall p, m' p = m p)
      (* GC removes only what it is to remove and, if it succeeds, all of it *)
      | Gc l args =>
          (forall p, m' p = m p \/ (m' p = None /\ nl_disable_gc l = false /\ exists s, m p = Some s /\ collectable l args s)) /\
          (is_ok v = true -> nl_disable_gc l = false -> forall p s, m' p = Some s -> ~ collectable l args s)
      (* nothing else changes it *)
      | _ => forall p, m' p = m p
      end
  end.
Inductive evolves (c : cni) : list (action * res value) -> cache_map -> cache_map -> Prop :=
| ev_nil m : evolves c [] m m
| ev_cons a v h m m1 m2 : moves c a v m m1 -> evolves c h m1 m2 -> evolves c ((a, v) :: h) m m2.

(** Histories considered: ADDs (of lists with plugins) carry text JSON can carry, in the runtime's
    own cache directory. *)
Definition own_root (c : cni) (rt : runtime_conf) : Prop := cache_root c rt = cache_root c runtime_conf_zero.
Definition ordinary (c : cni) (a : action) : Prop :=
  match a with
  | AddList l rt => nl_plugins l <> [] /\ carried (nl_name l) rt /\ own_root c rt
  | AddOne n rt => carried (pc_name (pg_conf n)) rt /\ own_root c rt
  | _ => True
  end.


(** ** Listing *)
(** A file system: each file once, under a cleaned path. *)
Definition tidy (w : world) : Prop := ssorted w /\ Forall in_clean_form (map fst w).
(** Where attachments are listed from. *)
Definition results_dir (c : cni) : string := join_path [cache_root c runtime_conf_zero; "results"].
(** The attachment a file describes: it is a version-1 entry naming an interface and a network. *)
Definition describes (data : string) (a : attachment) : Prop :=
  exists ci, unmarshal_cached_info data = Some ci /\ ci_kind ci = "cniCacheV1" /\ ci_ifname ci <> "" /\ ci_network ci <> "" /\
  a = {| at_container := ci_container ci; at_network := ci_network ci; at_ifname := ci_ifname ci; at_config := ci_config ci;
         at_netns := ci_netns ci; at_args := match ci_args ci with Some l => l | None => [] end;
         at_caps := match ci_caps ci with Some m => m | None => [] end |}.
(** File names that can belong to a container: the ID between dashes, something before (not
    starting with just that) and something after. *)
Definition name_for (id n : string) : Prop :=
  id = "" \/ ((forall t, n <> "-" ++ id ++ "-" ++ t) /\ exists a b, b <> "" /\ n = a ++ "-" ++ id ++ "-" ++ b).
(** File [n] of the results directory is to be listed, as attachment [a]. *)
Definition to_list (c : cni) (id : string) (w : world) (n : string) (a : attachment) : Prop :=
  file_name n /\ name_for id n /\
  exists data, sget (results_dir c ++ "/" ++ n) w = Some data /\ describes data a /\ (id = "" \/ at_container a = id).
(** Ascending byte order. *)
Fixpoint ascending (l : list string) : Prop :=
  match l with
  | a :: ((b :: _) as t) => String.compare a b = Lt /\ ascending t
  | _ => True
  end.

(** ** What a cache that is such a map answers *)
Definition in_results (c : cni) (p : string) : Prop := exists n, file_name n /\ p = results_dir c ++ "/" ++ n.
(** Nothing cached yet. *)
Definition fresh (c : cni) (w : world) : Prop := forall p, in_results c p -> sget p w = None.
Definition answers_result (ver : string) (entry : option saved) (v : res value) : Prop :=
  match entry with
  | None => v = Ok (VResult None)
  | Some s => forall r, sv_result s = Some r -> wf_result exact prefix_form r -> v = rmap VResult (presented ver r)
  end.
Definition answers_config (asked : runtime_conf) (entry : option saved) (v : res value) : Prop :=
  match entry with
  | None => v = Ok (VConfig None)
  | Some s => forall m, caps_as (sv_rt s) m -> v = Ok (VConfig (Some (config_answer (sv_config s) (sv_rt s) asked m)))
  end.
Definition answers_listing (c : cni) (id : string) (m : cache_map) (v : res value) : Prop :=
  exists pairs, v = Ok (VAttachments (map snd pairs)) /\ ascending (map fst pairs) /\
  forall n a, In (n, a) pairs <-> exists s k, m (results_dir c ++ "/" ++ n) = Some s /\ caps_as (sv_rt s) k /\
    a = shown s k /\ (id = "" \/ id = rt_container (sv_rt s)).
(** [a] asks for names that lead to an entry of the results directory (others read elsewhere or
    fail, see C06). *)
Definition asks (c : cni) (a : action) (p : string) : Prop := at_entry c a p /\ in_results c p.
Definition answers (c : cni) (m : cache_map) (a : action) (v : res value) : Prop :=
  match a with
  | ListResult l rt => forall p, asks c a p -> answers_result (nl_version l) (m p) v
  | OneResult n rt => forall p, asks c a p -> answers_result (pc_version (pg_conf n)) (m p) v
  | ListConfig _ rt | OneConfig _ rt => forall p, asks c a p -> answers_config rt (m p) v
  | Attachments id => answers_listing c id m v
  | _ => True
  end.
(** Operation [a], which returned [v], does not concern what is saved in [s]. *)
Definition spares (c : cni) (s : saved) (av : action * res value) : Prop :=
  let (a, v) := av in
  (forall s', saves a v = Some s' -> place c s' <> place c s) /\
  match a with
  | DelList l rt => ~ at_entry c a (place c s) \/
      (is_ok v = false /\ (below (nl_version l) (0, 4, 0)%Z \/
         exists r, sv_result s = Some r /\ wf_result exact prefix_form r /\ forall e, get_as_version r (nl_version l) <> Err e))
  | DelOne n rt => ~ at_entry c a (place c s) \/ is_ok v = false
  | Gc l args => nl_disable_gc l = true \/ ~ collectable l args s
  | _ => True
  end.
(** A successful deletion of the entry at [p]. *)
Definition deletes (c : cni) (a : action) (v : res value) (p : string) : Prop := is_del a /\ at_entry c a p /\ is_ok v = true.

(** ** The old format *)
(** The whole file is a result document: it has no member that encoding/json would take for the
    "kind" of a version-1 entry, and it decodes as [r]. *)
Definition old_format (data : string) (r : result) : Prop :=
  (exists o, parse data = Some (JObj o) /\ forall k v, In (k, v) o -> key_is "kind" k = false) /\ create_from_bytes data = Ok r.
