(** What the error of an API call says: which plugin failed, doing what, and why.

    A caller reads the text of an error and may look for a CNI error inside it (errors.As). *)
From Coq Require Import String List Bool.
From Verif Require Import Model.GoStr Model.Errors Model.Args Model.Types Model.Conf Model.Invoke Model.Prog Model.Api
  Spec.NameSpec Spec.RunSpec Spec.RefuseSpec Spec.QuoteSpec.
Import ListNotations.
Open Scope string_scope.

(** Unwrapping [e] arrives at [e']. *)
Inductive wraps : goerr -> goerr -> Prop :=
| wraps_itself e : wraps e e
| wraps_inside m e e' : wraps e e' -> wraps (EWrap m e) e'
| wraps_joined l e e' : In e l -> wraps e e' -> wraps (EJoin l) e'.

(** How a plugin is named in a message: by its type, and by its name if it has one. *)
Definition names_plugin (net : plugin_config) (d : string) : Prop :=
  exists qt qn, quotes qt (pc_type (pg_conf net)) /\ quotes qn (pc_name (pg_conf net)) /\
    (pc_name (pg_conf net) = "" -> d = "type=" ++ qt) /\
    (pc_name (pg_conf net) <> "" -> d = "type=" ++ qt ++ " name=" ++ qn).

(** The message of [e] is [m], a colon, and the message of [e'], which is still inside. *)
Definition explains (e : goerr) (m : string) (e' : goerr) : Prop :=
  err_string e = m ++ ": " ++ err_string e' /\ wraps e e'.

(** The names of an ADD are acceptable. *)
Definition names_good (name : string) (rt : runtime_conf) : Prop :=
  good_name (rt_container rt) /\ good_name name /\ good_ifname (rt_ifname rt).

(** Why the turn of the plugin [net] ended with the error [e]; the plugin was executed if there is a
    call. *)
Inductive trouble (c : cni) (verb name ver : string) (rt : runtime_conf) (net : plugin_config)
    (prev : option result) (tr : trace) : option call -> goerr -> Prop :=
| program_missing e :
    In (OpFind (pc_type (pg_conf net)) (c_path c), RStr (Err e)) tr ->
    trouble c verb name ver rt net prev tr None e
| names_refused e :
    verb = "ADD" -> ~ names_good name rt -> trouble c verb name ver rt net prev tr None e
| request_impossible e :
    build_one_config name ver net prev rt = Err e -> trouble c verb name ver rt net prev tr None e
| plugin_failed x e :
    request c verb name ver rt net prev tr x -> call_answer x = Err e ->
    trouble c verb name ver rt net prev tr (Some x) e
| result_unreadable x out e :
    verb = "ADD" -> request c verb name ver rt net prev tr x -> call_answer x = Ok out ->
    add_result (call_stdin x) out = Err e -> trouble c verb name ver rt net prev tr (Some x) e.

Definition maybe (o : option call) : list call := match o with Some x => [x] | None => [] end.
(** The plugins [nets] were asked in turn; the first ones succeeded, the next, [net], did not. *)
Definition stops_at (c : cni) (verb name ver : string) (rt : runtime_conf) (nets : list plugin_config)
    (prev : option result) (tr : trace) (net : plugin_config) (e : goerr) : Prop :=
  exists past o, calls tr = (past ++ maybe o)%list /\ Forall succeeded past /\
    nth_error nets (List.length past) = Some net /\ trouble c verb name ver rt net prev tr o e.

(** The same for the two requests without parameters. *)
Inductive plain_trouble (c : cni) (conf : plugin_config) (verb : string) (tr : trace) : option call -> goerr -> Prop :=
| plain_missing e :
    In (OpFind (pc_type (pg_conf conf)) (c_path c), RStr (Err e)) tr -> plain_trouble c conf verb tr None e
| plain_failed x e :
    plain_request c verb conf tr x -> call_answer x = Err e -> plain_trouble c conf verb tr (Some x) e.

(** Why GC reports an error: one line for every DEL that failed ... *)
Inductive del_errors : list attachment -> list (res unit) -> list goerr -> Prop :=
| del_errors_nil : del_errors [] [] []
| del_errors_ok a atts rs es : del_errors atts rs es -> del_errors (a :: atts) (Ok tt :: rs) es
| del_errors_one a atts rs es e e' :
    explains e ("failed to delete stale attachment " ++ at_container a ++ " " ++ at_ifname a) e' ->
    del_errors atts rs es -> del_errors (a :: atts) (Err e' :: rs) (e :: es).
(** ... and one for every plugin whose GC failed, or that is not there. *)
Inductive gc_errors : list plugin_config -> list turn_end -> list goerr -> Prop :=
| gc_errors_nil : gc_errors [] [] []
| gc_errors_ok net nets x ends es : succeeded x -> gc_errors nets ends es -> gc_errors (net :: nets) (Ran x :: ends) es
| gc_errors_missing net nets ends es e e' :
    explains e ("failed to GC plugin " ++ pc_type (pg_conf net)) e' ->
    gc_errors nets ends es -> gc_errors (net :: nets) (Missing e' :: ends) (e :: es)
| gc_errors_failed net nets x ends es e e' :
    call_answer x = Err e' -> explains e ("failed to GC plugin " ++ pc_type (pg_conf net)) e' ->
    gc_errors nets ends es -> gc_errors (net :: nets) (Ran x :: ends) (e :: es).
(** The lines of a joined error. *)
Definition newline : string := String (Ascii.ascii_of_nat 10) "".
Definition one_per_line (e : goerr) (es : list goerr) : Prop :=
  err_string e = String.concat newline (map err_string es) /\ forall x, In x es -> wraps e x.

(** Why validation reports an error: in list order, one message for every plugin that is not
    there, does not answer, or does not speak the version. *)
Inductive validate_errors (v : string) : list plugin_config -> list turn_end -> list string -> Prop :=
| validate_errors_nil : validate_errors v [] [] []
| validate_errors_ok net nets x vs ends es :
    reports x vs -> In v vs -> validate_errors v nets ends es -> validate_errors v (net :: nets) (Ran x :: ends) es
| validate_errors_missing net nets ends es e :
    validate_errors v nets ends es -> validate_errors v (net :: nets) (Missing e :: ends) (err_string e :: es)
| validate_errors_silent net nets x ends es e :
    version_answer (call_answer x) = Err e ->
    validate_errors v nets ends es -> validate_errors v (net :: nets) (Ran x :: ends) (err_string e :: es)
| validate_errors_other net nets x vs ends es m q :
    reports x vs -> ~ In v vs -> quotes q v ->
    m = "plugin " ++ pc_type (pg_conf net) ++ " does not support config version " ++ q ->
    validate_errors v nets ends es -> validate_errors v (net :: nets) (Ran x :: ends) (m :: es).
